(** C103: what is said about a config file that is not accepted *)
From Coq Require Import Ascii String Bool Arith.
From Coq Require Import List.
From Verif Require Import Str StrFacts SpecUtil Util UtilFacts Config SpecConfig ConfigFacts Ast Types Func Enum Includes Class Context Program SpecReject Samples.
Import ListNotations.

Lemma complains c line m : complaint line m -> read_line c line = Throw m.
Proof.
  intros [t Ni Ht Np Nm|t Ni Ht Hs Nsp|t bind token arg Ht Hs Hk|token arg key Hs Hk|t token arg k Ht Hs Hk K N].
  - pose proof (line_text_det _ _ _ (drop_cr_text line) Ht) as E. unfold read_line. destruct line as [|ch l]; [destruct Ni; left; reflexivity|].
    destruct (Ascii.eqb_spec ch "#") as [->|_]; [destruct Ni; right; left; eexists; reflexivity|]. cbv zeta. rewrite E.
    destruct t as [|s t].
    { exfalso. apply Ni. destruct Ht as [X|[X _]]; [right; right; exact X|discriminate X]. }
    destruct (Ascii.eqb_spec s "+") as [->|_]; [destruct (Np t eq_refl)|]. destruct (Ascii.eqb_spec s "-") as [->|_]; [destruct (Nm t eq_refl)|]. reflexivity.
  - pose proof (line_text_det _ _ _ (drop_cr_text line) Ht) as E. unfold read_line. destruct line as [|ch l]; [destruct Ni; left; reflexivity|].
    destruct (Ascii.eqb_spec ch "#") as [->|_]; [destruct Ni; right; left; eexists; reflexivity|]. cbv zeta. rewrite E.
    destruct Hs as [r [->| ->]]; rewrite (find_char_absent _ _ Nsp); reflexivity.
  - destruct (read_line_says c line _ _ _ Hs) as (t'&Ht'&->). rewrite (line_text_det _ _ _ Ht' Ht), read_token_kind.
    destruct (find_kind token directives) as [k|] eqn:F; [|reflexivity]. apply find_kind_In in F. destruct (Hk k F).
  - destruct (read_line_says c line _ _ _ Hs) as (t'&_&->). rewrite read_token_kind, (proj2 (find_kind_In _ _) Hk). reflexivity.
  - destruct (read_line_says c line _ _ _ Hs) as (t'&Ht'&->). rewrite (line_text_det _ _ _ Ht' Ht), read_token_kind, (proj2 (find_kind_In _ _) Hk).
    destruct k as [p q|p|p|p [|]|p|p]; cbn [needs_two_parts] in K; try contradiction; cbn [apply_kind expected_form]; unfold keyed;
      rewrite (proj2 (two_parts_split _ _) N); reflexivity.
Qed.
Lemma bad_line_complaint line : ~ ignored_line line -> ~ valid_line line -> exists m, complaint line m.
Proof.
  intros Ni Nv. pose proof (drop_cr_text line) as Ht. set (t := drop_cr line) in *.
  destruct (line_trichotomy line) as [Hi|[(bind&token&arg&Hs)|(_&_&Ns)]]; [contradiction| |].
  - destruct (find_kind token directives) as [k|] eqn:F.
    + apply find_kind_In in F. assert (Na : ~ accepted k bind arg) by (intros A; apply Nv; exists bind, token, arg, k; auto).
      destruct k as [p q|p|p|p tr|p|p]; cbn [accepted] in Na; try (destruct (Na I)).
      * destruct bind; [|exfalso; apply Na; discriminate]. eexists. apply (One_part line t token arg _ Ht Hs F); [exact I|]. intros X. apply Na. intros _. exact X.
      * destruct bind; [|eexists; apply (Minus_include line token arg p Hs F)].
        eexists. apply (One_part line t token arg _ Ht Hs F); [exact I|]. intros X. apply Na. split; [reflexivity|exact X].
    + eexists. apply (Unknown_token line t bind token arg Ht Hs). intros k X. apply find_kind_In in X. congruence.
  - assert (Sg : forall b r, t = (if b : bool then "+"%char else "-"%char) :: r -> ~ In sp t).
    { intros b r E X. rewrite E in X. destruct X as [X|X]; [destruct b; discriminate X|].
      destruct (find_char r sp) as [i|] eqn:Fc; [|exact (find_char_None _ _ Fc X)]. apply find_char_Some in Fc. destruct Fc as (x&y&->&_&Nx).
      apply Ns. exists b, x, y. split; [|split; [rewrite <- E; exact Ht|exact Nx]]. intros q Q. apply Ni. right. left. exists q. exact Q. }
    destruct t as [|s r] eqn:Et; [eexists; apply (No_sign line [] Ni Ht); discriminate|].
    destruct (Ascii.eqb_spec s "+") as [->|Np]; [eexists; apply (No_space line _ Ni Ht); [exists r; left; reflexivity|exact (Sg true r eq_refl)]|].
    destruct (Ascii.eqb_spec s "-") as [->|Nm]; [eexists; apply (No_space line _ Ni Ht); [exists r; right; reflexivity|exact (Sg false r eq_refl)]|].
    eexists. apply (No_sign line _ Ni Ht); intros q Q; injection Q as Q _; contradiction.
Qed.
Lemma rejected_is_bad c line m : read_line c line = Throw m -> ~ ignored_line line /\ ~ valid_line line.
Proof.
  intros E. split.
  - intros Hi. rewrite (read_line_ignored c line Hi) in E. discriminate E.
  - intros (bind&token&arg&k&Hs&Hk&Ha). destruct (line_effect c line bind token arg k Hs Hk Ha) as (c'&E'&_). congruence.
Qed.

(** The message for a line does not depend on the settings read before it, and
    is exactly the complaint about this line. *)
Theorem C103_message : forall c line m, read_line c line = Throw m <-> complaint line m.
Proof.
  intros c line m. split; [|apply complains]. intros E. destruct (rejected_is_bad _ _ _ E) as [Ni Nv].
  destruct (bad_line_complaint line Ni Nv) as [m' C]. rewrite (complains c line m' C) in E. injection E as <-. exact C.
Qed.
Print Assumptions C103_message.
Theorem C103_one_message : forall line, ~ ignored_line line -> ~ valid_line line -> exists m, complaint line m /\ forall m', complaint line m' -> m' = m.
Proof.
  intros line Ni Nv. destruct (bad_line_complaint line Ni Nv) as [m C]. exists m. split; [exact C|]. intros m' C'.
  pose proof (complains default_config line m C) as E. rewrite (complains default_config line m' C') in E. injection E as E. exact E.
Qed.
Print Assumptions C103_one_message.
(** The message quotes the line, except for one case in which only the name of
    the directive is given. *)
Theorem C103_quotes_the_line : forall line t m, complaint line m -> line_text line t ->
  (exists a b, m = a ++ t ++ b) \/
  (exists token arg, says line false token arg /\ In token [$"include_for_class"; $"include_for_namespace"] /\ m = token ++ $" must be '+' configuration.").
Proof.
  assert (Q1 : forall a t : str, exists b d, a ++ t = b ++ t ++ d) by (intros a t; exists a, []; rewrite app_nil_r; reflexivity).
  assert (Q3 : forall a x b t e : str, exists p d, a ++ x ++ b ++ t ++ e = p ++ t ++ d) by (intros a x b t e; exists (a ++ x ++ b), e; rewrite <- !app_assoc; reflexivity).
  assert (Q5 : forall a x b y d t : str, exists p q, a ++ x ++ b ++ y ++ d ++ t = p ++ t ++ q) by (intros a x b y d t; exists (a ++ x ++ b ++ y ++ d), []; rewrite app_nil_r, <- !app_assoc; reflexivity).
  assert (D : forall token key, In (token, KeyedInclude key) directives -> In token [$"include_for_class"; $"include_for_namespace"]).
  { intros token key Hk. apply find_kind_In in Hk. unfold directives in Hk. cbn [find_kind] in Hk.
    repeat (match type of Hk with context [streqb token ?x] => destruct (streqb_spec token x) as [->|?] end;
      [first [discriminate Hk|left; apply eq_refl|right; left; apply eq_refl]|]). discriminate Hk. }
  intros line t m C H. destruct C as [u Ni Ht Np Nm|u Ni Ht Hs Nsp|u bind token arg Ht Hs Hk|token arg key Hs Hk|u token arg k Ht Hs Hk K N];
    try (pose proof (line_text_det _ _ _ Ht H) as E; subst u).
  - left. apply Q1.
  - left. apply Q1.
  - left. apply Q3.
  - right. exists token, arg. split; [exact Hs|]. split; [exact (D _ _ Hk)|apply eq_refl].
  - left. apply Q5.
Qed.
Print Assumptions C103_quotes_the_line.

Lemma lines_reject c ls m : read_lines c ls = Throw m <->
  exists before line after, ls = before ++ line :: after /\ (forall l, In l before -> ignored_line l \/ valid_line l) /\ complaint line m.
Proof.
  revert c. induction ls as [|l ls IH]; intros c; cbn [read_lines].
  - split; [discriminate|]. intros (b&l&a&E&_). destruct b; discriminate E.
  - destruct (proj2 (line_reject_iff l) c) as [[m' E]|[c' E]]; rewrite E; cbn [bind_r].
    + apply C103_message in E as C. split.
      * intros X. injection X as <-. exists [], l, ls. split; [reflexivity|]. split; [intros x []|exact C].
      * intros (b&x&a&Q&B&K). destruct b as [|y b].
        -- injection Q as <- _. pose proof (complains c l m K) as X. congruence.
        -- injection Q as <- _. exfalso. destruct (rejected_is_bad _ _ _ E) as [Ni Nv]. destruct (B l (or_introl eq_refl)); contradiction.
    + rewrite IH. split.
      * intros (b&x&a&->&B&K). exists (l :: b), x, a. split; [reflexivity|]. split; [|exact K]. intros y [<-|Y]; [|exact (B y Y)].
        destruct (line_trichotomy l) as [Hi|[(bind&token&arg&Hs)|(T&_)]]; [left; exact Hi| |destruct (T c) as [? X]; congruence].
        right. destruct (find_kind token directives) as [k|] eqn:F.
        -- apply find_kind_In in F. destruct (accepted_dec k bind arg) as [A|A]; [exists bind, token, arg, k; auto|].
           destruct (read_line_says c l _ _ _ Hs) as (t&_&R). rewrite R, read_token_kind, (proj2 (find_kind_In _ _) F) in E.
           destruct (apply_kind_reject k bind token arg t A c) as [? X]. congruence.
        -- destruct (read_line_says c l _ _ _ Hs) as (t&_&R). rewrite R, read_token_kind, F in E. discriminate E.
      * intros (b&x&a&Q&B&K). destruct b as [|y b].
        -- injection Q as <- _. rewrite (complains c l m K) in E. discriminate E.
        -- injection Q as <- ->. exists b, x, a. split; [reflexivity|]. split; [|exact K]. intros z Z. apply B. right. exact Z.
Qed.
(** A file is rejected with the complaint about its first line that is not
    accepted, whatever comes after it. *)
Theorem C103_first_line : forall c text m, read_text c text = Throw m <-> exists line, first_rejected text line /\ complaint line m.
Proof.
  intros c text m. unfold read_text. rewrite lines_reject. split.
  - intros (b&l&a&E&B&K). exists l. split; [|exact K]. exists b, a. rewrite <- E. split; [apply split_pieces|]. split; [exact B|].
    exact (rejected_is_bad default_config l m (complains _ _ _ K)).
  - intros (l&(b&a&P&B&_)&K). exists b, l, a. split; [|split; [exact B|exact K]]. symmetry. apply split_char_iff. exact P.
Qed.
Print Assumptions C103_first_line.
(** Then the program ends with this message before it has dealt with any of the
    source files. *)
Theorem C103_program : forall i s l f text line m, i_config i <> [] -> i_config_text i = Some text -> first_rejected text line -> complaint line m ->
  program i (s :: l) f = ([], Throw m).
Proof.
  intros i s l f text line m Nc T F K. unfold program. cbn [process_all]. unfold process, setup. cbv zeta.
  destruct (i_config i) as [|ch name]; [contradiction|]. rewrite T. cbn [read].
  rewrite (proj2 (C103_first_line _ text m) (ex_intro _ line (conj F K))). reflexivity.
Qed.
Print Assumptions C103_program.

(** The second line has no space, the third one an unknown directive, and the
    first one is accepted; the message is about the second. *)
Definition bad_text : str := $"+namespace n" ++ [nl] ++ $"-function" ++ [cr; nl] ++ $"+klass n::A" ++ [nl].
Example C103_case : first_rejected bad_text ($"-function" ++ [cr]) /\
  read_text default_config bad_text = Throw $"Invalid line in config file! Each line must have token separated with space from object name. For example: '+function aaa::bb::my_function'. Line: -function" /\
  complaint $"klass n::A" $"Invalid token at the begining of line in config file! Each line should begin with ether '+' or '-' or '#'! Line: klass n::A" /\
  complaint $"+klass n::A" $"Invalid token in config file! Each token must be either: namespace, class or function! For example: '+function aaa::bb::my_function'. Token: 'klass' Line: '+klass n::A'" /\
  complaint $"-include_for_class n::A <a.hh>" $"include_for_class must be '+' configuration." /\
  complaint $"+binder n::A" $"Invalid line for binder specification! Must be: name_of_type + <space or tab> + name_of_binder. Got: +binder n::A" /\
  complaint $"+include_for_namespace n" $"Invalid line for include_for_namespace specification! Must be: name_of_type + <space or tab> + include_path. Got: +include_for_namespace n" /\
  complaint $"+trampoline_member_function_binder n::A::f" $"Invalid line for trampoline_member_function_binder specification! Must be: qualified_class_name::member_funtion_name + <space or tab> + name_of_function. Got: +trampoline_member_function_binder n::A::f".
Proof.
  split; [|split; [vm_compute; reflexivity|]].
  - assert (E : read_text default_config bad_text = Throw $"Invalid line in config file! Each line must have token separated with space from object name. For example: '+function aaa::bb::my_function'. Line: -function") by (vm_compute; reflexivity).
    exists [$"+namespace n"], [$"+klass n::A"]. split; [apply split_char_iff; vm_compute; reflexivity|]. split.
    + intros l [<-|[]]. right. exists true, $"namespace", $"n", (Names namespaces_to_bind namespaces_to_skip).
      split; [|split; [left; reflexivity|exact I]]. split; [discriminate|]. split; [right; split; [reflexivity|]|].
      * intros t X. apply (f_equal (@rev ascii)) in X. rewrite rev_unit in X. vm_compute in X. discriminate X.
      * vm_compute. intuition discriminate.
    + eapply (rejected_is_bad default_config). vm_compute. reflexivity.
  - repeat split; apply (C103_message default_config); vm_compute; reflexivity.
Qed.
