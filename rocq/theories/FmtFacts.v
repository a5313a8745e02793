(** Facts about [Fmt]. *)
From Coq Require Import Ascii String Bool Arith NArith Lia DecimalString Decimal DecimalNat DecimalFacts.
From Coq Require Import List.
From Verif Require Import Str StrFacts Util Fmt SpecFmt ContextFacts.
Import ListNotations.

(** ** Decimal numbers *)
Fixpoint digits (s : str) : Prop := match s with [] => True | c :: s' => digit_value c <> None /\ digits s' end.
Definition digit (c : ascii) : N := match digit_value c with Some d => d | None => 0%N end.
Fixpoint value (acc : N) (s : str) : N := match s with [] => acc | c :: s' => value (acc * 10 + digit c)%N s' end.
Definition text_of (d : uint) : str := list_ascii_of_string (NilEmpty.string_of_uint d).

Lemma text_digits d : digits (text_of d).
Proof. induction d; cbn; try exact Logic.I; (split; [discriminate|exact IHd]). Qed.
Lemma text_value d : forall acc, N.of_nat (Nat.of_uint_acc d acc) = value (N.of_nat acc) (text_of d).
Proof.
  induction d; intros acc; [reflexivity|..]; cbn [Nat.of_uint_acc]; rewrite IHd; cbn [text_of NilEmpty.string_of_uint list_ascii_of_string value];
    fold (text_of d); f_equal; rewrite Nat.tail_mul_spec; change (digit _) with 0%N || change (digit _) with 1%N || change (digit _) with 2%N || change (digit _) with 3%N || change (digit _) with 4%N || change (digit _) with 5%N || change (digit _) with 6%N || change (digit _) with 7%N || change (digit _) with 8%N || change (digit _) with 9%N; lia.
Qed.
Lemma dec_text n : dec n = match Nat.to_uint n with Nil => $"0" | d => text_of d end.
Proof. unfold dec, NilZero.string_of_uint. destruct (Nat.to_uint n); reflexivity. Qed.
Lemma to_uint_not_nil n : Nat.to_uint n <> Nil.
Proof.
  intros E. pose proof (Unsigned.to_of (Nat.to_uint n)) as H. rewrite Unsigned.of_to in H. rewrite E in H. discriminate H.
Qed.
Lemma dec_text' n : dec n = text_of (Nat.to_uint n).
Proof. rewrite dec_text. pose proof (to_uint_not_nil n). destruct (Nat.to_uint n); congruence. Qed.
Lemma dec_digits n : digits (dec n).
Proof. rewrite dec_text'. apply text_digits. Qed.
Lemma dec_value n : value 0 (dec n) = N.of_nat n.
Proof. rewrite dec_text'. change 0%N with (N.of_nat 0). rewrite <- (text_value (Nat.to_uint n) 0). fold (Nat.of_uint (Nat.to_uint n)). rewrite Unsigned.of_to. reflexivity. Qed.
Lemma dec_not_nil n : dec n <> [].
Proof. rewrite dec_text'. pose proof (to_uint_not_nil n). destruct (Nat.to_uint n); cbn; congruence. Qed.
Lemma dec_head n c s : dec n = c :: s -> c = "0"%char -> n = 0 /\ s = [].
Proof.
  intros H ->. rewrite dec_text' in H. pose proof (Unsigned.to_of (Nat.to_uint n)) as T. rewrite Unsigned.of_to in T.
  assert (Z : Nat.to_uint n = zero -> n = 0) by (intros Z; apply Unsigned.to_uint_inj; rewrite Z; reflexivity).
  unfold unorm in T. destruct (nzhead (Nat.to_uint n)) eqn:E.
  1: { split; [exact (Z T)|]. rewrite T in H. cbn in H. congruence. }
  1: { exfalso. revert E. generalize (Nat.to_uint n). clear. intros d. revert u. induction d; cbn; intros v E; try discriminate E. eapply IHd, E. }
  all: rewrite T in H; cbn in H; discriminate H.
Qed.

(** Every sequence of digits without a leading zero is the decimal form of a number. *)
Fixpoint uint_of (s : str) : uint :=
  match s with
  | [] => Nil
  | c :: s' => let d := uint_of s' in
               match digit_value c with
               | Some 0 => D0 d | Some 1 => D1 d | Some 2 => D2 d | Some 3 => D3 d | Some 4 => D4 d
               | Some 5 => D5 d | Some 6 => D6 d | Some 7 => D7 d | Some 8 => D8 d | _ => D9 d
               end%N
  end.
Lemma digit_cases c d : digit_value c = Some d ->
  (c, d) = ("0"%char, 0%N) \/ (c, d) = ("1"%char, 1%N) \/ (c, d) = ("2"%char, 2%N) \/ (c, d) = ("3"%char, 3%N) \/ (c, d) = ("4"%char, 4%N) \/
  (c, d) = ("5"%char, 5%N) \/ (c, d) = ("6"%char, 6%N) \/ (c, d) = ("7"%char, 7%N) \/ (c, d) = ("8"%char, 8%N) \/ (c, d) = ("9"%char, 9%N).
Proof.
  destruct c as [[] [] [] [] [] [] [] []]; intros H; vm_compute in H; try discriminate H; injection H as <-; vm_compute; tauto.
Qed.
Lemma text_uint_of s : digits s -> text_of (uint_of s) = s.
Proof.
  induction s as [|c s IH]; [reflexivity|]. intros [D Ds]. specialize (IH Ds). cbn [uint_of]. destruct (digit_value c) as [d|] eqn:E; [|congruence].
  apply digit_cases in E. repeat (destruct E as [E|E]; [injection E as -> ->; cbn; unfold text_of in IH; rewrite IH; reflexivity|]).
  injection E as -> ->; cbn; unfold text_of in IH; rewrite IH; reflexivity.
Qed.
Lemma number_text c s : digits (c :: s) -> c <> "0"%char -> exists n, c :: s = dec n.
Proof.
  intros D Z. exists (Nat.of_uint (uint_of (c :: s))). rewrite dec_text', Unsigned.to_of.
  replace (unorm (uint_of (c :: s))) with (uint_of (c :: s)); [symmetry; apply text_uint_of, D|].
  destruct D as [D _]. cbn [uint_of]. destruct (digit_value c) as [d|] eqn:E; [|congruence]. apply digit_cases in E.
  repeat (destruct E as [E|E]; [injection E as -> ->; try congruence; reflexivity|]). injection E as -> ->; reflexivity.
Qed.

(** ** Parsing of a number *)
Lemma value_grows s : forall acc, (acc <= value acc s)%N.
Proof. induction s as [|c s IH]; intros acc; cbn; [lia|]. etransitivity; [|apply IH]. lia. Qed.
Lemma parse_int s rest : digits s -> (match rest with [] => True | c :: _ => digit_value c = None end) ->
  forall acc, parse_int_loop acc (s ++ rest) = if (max_int <? value acc s)%N then Throw $"number is too big" else Ok (value acc s, rest).
Proof.
  intros D R. induction s as [|c s IH]; intros acc.
  - cbn [app value]. destruct rest as [|c rest]; cbn [parse_int_loop]; [reflexivity|]. rewrite R. reflexivity.
  - destruct D as [Dc D]. cbn [app parse_int_loop value]. unfold digit. destruct (digit_value c) as [d|] eqn:E; [|congruence].
    destruct (max_int / 10 <? acc)%N eqn:B.
    + apply N.ltb_lt in B. change (max_int / 10)%N with 214748364%N in B. pose proof (value_grows s (acc * 10 + d)%N) as G.
      replace (max_int <? value (acc * 10 + d) s)%N with true; [reflexivity|]. symmetry. apply N.ltb_lt. unfold max_int. lia.
    + apply IH, D.
Qed.
Lemma parse_int_inv s : forall acc v rest, parse_int_loop acc s = Ok (v, rest) -> exists ds, s = ds ++ rest /\ digits ds /\ v = value acc ds.
Proof.
  induction s as [|c s IH]; intros acc v rest H; cbn [parse_int_loop] in H.
  - destruct (max_int <? acc)%N; [discriminate H|]. injection H as <- <-. exists []. repeat split.
  - destruct (digit_value c) as [d|] eqn:E.
    + destruct (max_int / 10 <? acc)%N; [discriminate H|]. apply IH in H. destruct H as (ds&->&D&->). exists (c :: ds). cbn. unfold digit. rewrite E.
      split; [reflexivity|split; [split; [discriminate|exact D]|reflexivity]].
    + destruct (max_int <? acc)%N; [discriminate H|]. injection H as <- <-. exists []. repeat split.
Qed.

(** ** Fuel *)
Lemma ok_bind {A B} (x : result A) (f : A -> result B) b : (do a <- x; f a) = Ok b -> exists a, x = Ok a /\ f a = Ok b.
Proof. destruct x; cbn; intros H; try discriminate H. eauto. Qed.
Lemma field_shorter args s st a rest st' : parse_replacement_field args s st = Ok (a, rest, st') -> length rest < length s.
Proof.
  unfold parse_replacement_field. destruct s as [|c s]; [discriminate|]. destruct (Ascii.eqb c "}").
  - intros H. apply ok_bind in H. destruct H as ([id n]&_&H). apply ok_bind in H. destruct H as (b&_&H). injection H as <- <- <-. cbn. lia.
  - destruct (Ascii.eqb c "{"); [intros H; injection H as <- <- <-; cbn; lia|]. intros H. apply ok_bind in H. destruct H as ([[id s1] n]&P&H).
    assert (L : length s1 <= length (c :: s)).
    { clear H. unfold parse_arg_id in P. destruct (_ || _).
      - apply ok_bind in P. destruct P as ([]&_&P). injection P as <- <- <-. lia.
      - destruct (digit_value c); [|destruct (is_name_start c); discriminate P]. apply ok_bind in P. destruct P as ([v t]&Q&P).
        assert (L : length t <= length (c :: s)).
        { destruct (Ascii.eqb c "0"); [injection Q as <- <-; cbn; lia|]. apply parse_int_inv in Q. destruct Q as (ds&->&_). rewrite app_length. lia. }
        destruct t as [|d t]; [discriminate P|]. destruct (_ || _); [|discriminate P]. apply ok_bind in P. destruct P as (u&_&P). injection P as <- <- <-. exact L. }
    destruct s1 as [|d s1]; [discriminate H|]. destruct (Ascii.eqb d "}"); [|destruct (Ascii.eqb d ":"); discriminate H].
    apply ok_bind in H. destruct H as (b&_&H). injection H as <- <- <-. cbn [length] in *. lia.
Qed.

(** The text in front is put out as it is. *)
Lemma bind_assoc {A B C} (x : result A) (f : A -> result B) (g : B -> result C) : (do b <- (do a <- x; f a); g b) = (do a <- x; do b <- f a; g b).
Proof. destruct x; reflexivity. Qed.
Lemma short_text args : forall n s, length s <= n -> forall fuel fuel' text st, length s <= fuel -> length s <= fuel' ->
  short_loop fuel args text s st = do out <- short_loop fuel' args [] s st; Ok (text ++ out).
Proof.
  induction n as [|n IH]; intros s Ln fuel fuel' text st L L'.
  - destruct s; [|cbn in Ln; lia]. destruct fuel, fuel'; cbn; rewrite app_nil_r; reflexivity.
  - destruct s as [|c s]; [destruct fuel, fuel'; cbn; rewrite app_nil_r; reflexivity|].
    destruct fuel as [|fuel]; [cbn in L; lia|]. destruct fuel' as [|fuel']; [cbn in L'; lia|]. cbn in L, L', Ln. cbn [short_loop].
    destruct (Ascii.eqb c "{").
    + destruct (parse_replacement_field args s st) as [[[a rest] st']| | | |] eqn:P; cbn; try reflexivity. apply field_shorter in P.
      rewrite (IH rest ltac:(lia) fuel fuel' [] st' ltac:(lia) ltac:(lia)). destruct (short_loop fuel' args [] rest st'); reflexivity.
    + destruct (Ascii.eqb c "}").
      * destruct s as [|d s]; [reflexivity|]. destruct (Ascii.eqb d "}"); [|reflexivity]. cbn in L, L', Ln.
        rewrite (IH s ltac:(lia) fuel fuel' [] st ltac:(lia) ltac:(lia)). destruct (short_loop fuel' args [] s st); reflexivity.
      * rewrite (IH s ltac:(lia) fuel fuel' (text ++ [c]) st ltac:(lia) ltac:(lia)), (IH s ltac:(lia) fuel' fuel' ([] ++ [c]) st ltac:(lia) ltac:(lia)).
        destruct (short_loop fuel' args [] s st); cbn; try reflexivity. rewrite <- app_assoc. reflexivity.
Qed.
Definition scan (args : list str) (s : str) (st : numbering) : result str := short_loop (length s) args [] s st.
Lemma scan_fuel args fuel s st : length s <= fuel -> short_loop fuel args [] s st = scan args s st.
Proof. intros L. rewrite (short_text args (length s) s (le_n _) fuel (length s) [] st L (le_n _)). fold (scan args s st). destruct (scan args s st); reflexivity. Qed.

(** One step. *)
Lemma scan_open args s st : scan args ("{"%char :: s) st = do (a, rest, st') <- parse_replacement_field args s st; do out <- scan args rest st'; Ok (a ++ out).
Proof.
  unfold scan at 1. cbn [length short_loop]. change (Ascii.eqb "{" "{") with true. cbv iota.
  destruct (parse_replacement_field args s st) as [[[a rest] st']| | | |] eqn:P; cbn [bind_r]; try reflexivity. apply field_shorter in P.
  rewrite scan_fuel by lia. reflexivity.
Qed.
Lemma scan_close args s st : scan args ("}"%char :: "}"%char :: s) st = do out <- scan args s st; Ok ("}"%char :: out).
Proof.
  unfold scan at 1. change (length ("}"%char :: "}"%char :: s)) with (S (S (length s))). assert (K : length s <= S (length s)) by lia. revert K.
  generalize (S (length s)). intros k K. cbn [short_loop]. change (Ascii.eqb "}" "{") with false. change (Ascii.eqb "}" "}") with true. cbv iota.
  rewrite scan_fuel by exact K. destruct (scan args s st); reflexivity.
Qed.
Lemma scan_char args c s st : c <> "{"%char -> c <> "}"%char -> scan args (c :: s) st = do out <- scan args s st; Ok (c :: out).
Proof.
  intros A B. unfold scan at 1. cbn [length short_loop]. apply Ascii.eqb_neq in A, B. rewrite A, B.
  rewrite (short_text args (length s) s (le_n _) (length s) (length s)) by lia. fold (scan args s st). destruct (scan args s st); reflexivity.
Qed.
Lemma scan_unmatched args s st : (forall s', s <> "}"%char :: s') -> scan args ("}"%char :: s) st = Throw $"unmatched '}' in format string".
Proof.
  intros H. unfold scan. cbn [length short_loop]. change (Ascii.eqb "}" "{") with false. change (Ascii.eqb "}" "}") with true. cbv iota.
  destruct s as [|d s]; [reflexivity|]. destruct (Ascii.eqb_spec d "}"); [|reflexivity]. subst. destruct (H s eq_refl).
Qed.
Lemma scan_nil args st : scan args [] st = Ok [].
Proof. reflexivity. Qed.

Local Opaque scan.
(** ** The two loops give the same *)
Lemma span_spec c s : forall a b, span_to c s = (a, b) -> s = a ++ b /\ ~ In c a /\ (b = [] \/ exists b', b = c :: b').
Proof.
  induction s as [|x s IH]; cbn; intros a b H; [injection H as <- <-; auto|]. destruct (Ascii.eqb_spec x c).
  - injection H as <- <-. subst. split; [reflexivity|split; [auto|right; eauto]].
  - destruct (span_to c s) as [a' b']. injection H as <- <-. destruct (IH a' b' eq_refl) as (->&N&B). split; [reflexivity|split; [|exact B]]. intros [X|X]; auto.
Qed.
Lemma scan_text args a : ~ In "{"%char a -> ~ In "}"%char a -> forall b st, scan args (a ++ b) st = do out <- scan args b st; Ok (a ++ out).
Proof.
  induction a as [|c a IH]; intros A B b st; cbn [app]; [destruct (scan args b st); reflexivity|].
  rewrite scan_char by (intros ->; (apply A + apply B); left; reflexivity). rewrite IH by (intros X; (apply A + apply B); right; exact X).
  destruct (scan args b st); reflexivity.
Qed.
Lemma write_scan args : forall fuel a, length a <= fuel -> ~ In "{"%char a -> forall b, (b = [] \/ exists b', b = "{"%char :: b') -> forall st,
  scan args (a ++ b) st = do t <- write_text fuel a; do out <- scan args b st; Ok (t ++ out).
Proof.
  induction fuel as [|fuel IH]; intros a L N b B st.
  - destruct a; [|cbn in L; lia]. cbn. destruct (scan args b st); reflexivity.
  - destruct a as [|c a]; [cbn; destruct (scan args b st); reflexivity|]. cbn [write_text].
    destruct (span_to "}" (c :: a)) as [u v] eqn:E. apply span_spec in E. destruct E as (E&Nu&V). rewrite E in *. clear E.
    assert (Nu' : ~ In "{"%char u) by (intros X; apply N, in_or_app; auto). rewrite <- app_assoc.
    rewrite (scan_text args u Nu' Nu). destruct V as [->|[v' ->]]; [cbn; reflexivity|]. cbn [app].
    destruct v' as [|d v'].
    + rewrite scan_unmatched by (intros s' X; destruct B as [->|[b' ->]]; discriminate X). reflexivity.
    + destruct (Ascii.eqb_spec d "}").
      * subst d. cbn [app]. rewrite scan_close. rewrite (IH v') with (b := b).
        -- destruct (write_text fuel v'); cbn [bind_r]; try reflexivity. destruct (scan args b st); cbn [bind_r]; try reflexivity. rewrite <- !app_assoc. reflexivity.
        -- rewrite app_length in L. cbn in L. lia.
        -- intros X. apply N, in_or_app. right. right. right. exact X.
        -- exact B.
      * rewrite scan_unmatched by (intros s' X; injection X as X _; auto). reflexivity.
Qed.
Lemma long_scan args : forall fuel s st, length s <= fuel -> long_loop fuel args s st = scan args s st.
Proof.
  induction fuel as [|fuel IH]; intros s st L.
  - destruct s; [reflexivity|cbn in L; lia].
  - destruct s as [|c s]; [reflexivity|]. cbn [long_loop]. destruct (span_to "{" (c :: s)) as [a b] eqn:E. apply span_spec in E. destruct E as (E&N&B).
    rewrite E in *. clear E. rewrite (write_scan args (length a) a (le_n _) N b B st). destruct B as [->|[b' ->]].
    + rewrite scan_nil. destruct (write_text (length a) a); cbn [bind_r]; try reflexivity. rewrite app_nil_r. reflexivity.
    + rewrite scan_open. destruct (write_text (length a) a); cbn [bind_r]; try reflexivity.
      destruct (parse_replacement_field args b' st) as [[[v rest] st']| | | |] eqn:P; cbn [bind_r]; try reflexivity. apply field_shorter in P.
      rewrite IH by (rewrite app_length in L; cbn in L; lia). destruct (scan args rest st'); reflexivity.
Qed.
Lemma format_scan s args : format s args = scan args s (Automatic 0).
Proof.
  unfold format. destruct (streqb s $"{}") eqn:E.
  - apply streqb_eq in E. subst s. change $"{}" with ["{"; "}"]%char. rewrite scan_open. cbn -[get_arg]. destruct (get_arg args 0); cbn [bind_r]; try reflexivity. rewrite scan_nil. cbn [bind_r]. rewrite app_nil_r. reflexivity.
  - unfold parse_format_string. destruct (length s <? 32); [apply scan_fuel, le_n|]. apply long_scan. lia.
Qed.

(** ** Pieces *)
Fixpoint run_pieces (args : list str) (st : numbering) (ps : list piece) : result str :=
  match ps with
  | [] => Ok []
  | Copy s :: ps' => do out <- run_pieces args st ps'; Ok (s ++ out)
  | Next :: ps' => do (id, st') <- next_arg_id st; do a <- get_arg args id; do out <- run_pieces args st' ps'; Ok (a ++ out)
  | Number n :: ps' =>
      if (max_int <? N.of_nat n)%N then Throw $"number is too big"
      else do st' <- check_arg_id st; do a <- get_arg args (N.of_nat n); do out <- run_pieces args st' ps'; Ok (a ++ out)
  end.
Lemma scan_doubled args s : forall rest st, scan args (doubled s ++ rest) st = do out <- scan args rest st; Ok (s ++ out).
Proof.
  induction s as [|c s IH]; intros rest st; [cbn; destruct (scan args rest st); reflexivity|]. unfold doubled. cbn [flat_map]. fold (doubled s).
  destruct (Ascii.eqb_spec c "{") as [->|A]; [|destruct (Ascii.eqb_spec c "}") as [->|B]]; cbn [orb app].
  - rewrite scan_open. cbn [parse_replacement_field]. change (Ascii.eqb "{" "}") with false. change (Ascii.eqb "{" "{") with true. cbv iota. cbn [bind_r]. rewrite IH.
    destruct (scan args rest st); reflexivity.
  - rewrite scan_close, IH. destruct (scan args rest st); reflexivity.
  - rewrite scan_char, IH by assumption. destruct (scan args rest st); reflexivity.
Qed.
Lemma field_number args n rest st : parse_replacement_field args (dec n ++ "}"%char :: rest) st =
  if (max_int <? N.of_nat n)%N then Throw $"number is too big"
  else do st' <- check_arg_id st; do a <- get_arg args (N.of_nat n); Ok (a, rest, st').
Proof.
  pose proof (dec_digits n) as D. pose proof (dec_value n) as V. pose proof (dec_not_nil n) as NN. pose proof (dec_head n) as Z.
  destruct (dec n) as [|c s]; [congruence|]. clear NN. cbn [app parse_replacement_field].
  assert (C : digit_value c <> None) by apply D.
  destruct (Ascii.eqb_spec c "}") as [->|C1]; [destruct (C eq_refl)|]. destruct (Ascii.eqb_spec c "{") as [->|C2]; [destruct (C eq_refl)|].
  cbn [parse_arg_id]. destruct (Ascii.eqb_spec c "}") as [->|_]; [destruct (C eq_refl)|]. destruct (Ascii.eqb_spec c ":") as [->|C3]; [destruct (C eq_refl)|]. cbn [orb].
  destruct (digit_value c) eqn:Ec; [|congruence].
  assert (P : (if Ascii.eqb c "0" then Ok (0%N, s ++ "}"%char :: rest) else parse_nonnegative_int (c :: s ++ "}"%char :: rest))
    = if (max_int <? N.of_nat n)%N then Throw $"number is too big" else Ok (N.of_nat n, "}"%char :: rest)).
  { destruct (Ascii.eqb_spec c "0") as [E0|E0].
    - destruct (Z c s eq_refl E0) as [-> ->]. reflexivity.
    - unfold parse_nonnegative_int. change (c :: s ++ "}"%char :: rest) with ((c :: s) ++ "}"%char :: rest). rewrite parse_int; [|exact D|reflexivity]. rewrite V. reflexivity. }
  rewrite P. destruct (max_int <? N.of_nat n)%N; [reflexivity|]. cbn [bind_r]. change (Ascii.eqb "}" "}") with true. cbn [orb].
  destruct (check_arg_id st); reflexivity.
Qed.
Lemma scan_pieces args ps : forall st, scan args (format_string ps) st = run_pieces args st ps.
Proof.
  induction ps as [|p ps IH]; intros st; [apply scan_nil|]. unfold format_string. cbn [map concat]. fold (format_string ps). destruct p as [s| |n]; cbn [written run_pieces].
  - rewrite scan_doubled, IH. reflexivity.
  - change ($"{}" ++ format_string ps) with ("{" :: "}" :: format_string ps)%char. rewrite scan_open. cbn [parse_replacement_field]. change (Ascii.eqb "}" "}") with true. cbv iota.
    destruct (next_arg_id st) as [[id st']| | | |]; cbn [bind_r]; try reflexivity. destruct (get_arg args id); cbn [bind_r]; try reflexivity. rewrite IH. reflexivity.
  - replace (($"{" ++ dec n ++ $"}") ++ format_string ps) with ("{"%char :: dec n ++ "}"%char :: format_string ps) by (cbn; rewrite <- app_assoc; reflexivity).
    rewrite scan_open, field_number. destruct (max_int <? N.of_nat n)%N; [reflexivity|]. destruct (check_arg_id st) as [st'| | | |]; cbn [bind_r]; try reflexivity.
    destruct (get_arg args (N.of_nat n)); cbn [bind_r]; try reflexivity. rewrite IH. reflexivity.
Qed.

(** ** When it succeeds *)
Lemma get_arg_spec args n : get_arg args (N.of_nat n) = match nth_error args n with Some a => Ok a | None => Throw $"argument not found" end.
Proof.
  unfold get_arg. rewrite Nnat.Nat2N.id. destruct (N.of_nat n <? N.of_nat (length args))%N eqn:E; [reflexivity|].
  apply N.ltb_ge in E. replace (nth_error args n) with (@None str); [reflexivity|]. symmetry. apply nth_error_None. lia.
Qed.
Lemma run_manual args ps : (N.of_nat (length args) <= max_int)%N -> forall t k,
  run_pieces args Manual ps = Ok t <-> ~ In Next ps /\ filled args k ps = Some t.
Proof.
  intros L. induction ps as [|p ps IH]; intros t k.
  - cbn. split; [intros H; injection H as <-; auto|intros [_ H]; injection H as <-; reflexivity].
  - destruct p as [s| |n]; cbn [run_pieces filled].
    + destruct (run_pieces args Manual ps) as [o| | | |] eqn:R; cbn [bind_r].
      * destruct (proj1 (IH o k) eq_refl) as [A B]. rewrite B. split; [intros H; injection H as <-; split; [intros [X|X]; [discriminate X|auto]|reflexivity]|intros [_ H]; injection H as <-; reflexivity].
      * split; [discriminate|intros [A H]]. destruct (filled args k ps) as [o|] eqn:F; [|discriminate H]. exfalso. assert (X : Throw msg = Ok o) by (apply (IH o k); split; [intros X; apply A; right; exact X|exact F]). discriminate X.
      * split; [discriminate|intros [A H]]. destruct (filled args k ps) as [o|] eqn:F; [|discriminate H]. exfalso. assert (X : Exit1 msg = Ok o) by (apply (IH o k); split; [intros X; apply A; right; exact X|exact F]). discriminate X.
      * split; [discriminate|intros [A H]]. destruct (filled args k ps) as [o|] eqn:F; [|discriminate H]. exfalso. assert (X : Undefined what = Ok o) by (apply (IH o k); split; [intros X; apply A; right; exact X|exact F]). discriminate X.
      * split; [discriminate|intros [A H]]. destruct (filled args k ps) as [o|] eqn:F; [|discriminate H]. exfalso. assert (X : Diverges = Ok o) by (apply (IH o k); split; [intros X; apply A; right; exact X|exact F]). discriminate X.
    + cbn. split; [discriminate|intros [A _]; destruct A; left; reflexivity].
    + cbn [check_arg_id bind_r]. rewrite get_arg_spec. destruct (nth_error args n) as [a|] eqn:E.
      * assert (Ln : n < length args) by (apply nth_error_Some; congruence).
        replace (max_int <? N.of_nat n)%N with false by (symmetry; apply N.ltb_ge; lia). cbn [bind_r]. split.
        -- intros H. apply ok_bind in H. destruct H as (o&R&H). injection H as <-. apply (IH o k) in R. destruct R as [A B]. rewrite B.
           split; [intros [X|X]; [discriminate X|auto]|reflexivity].
        -- intros [A H]. destruct (filled args k ps) as [o|] eqn:F; [|discriminate H]. injection H as <-.
           rewrite (proj2 (IH o k)) by (split; [intros X; apply A; right; exact X|exact F]). reflexivity.
      * split; [destruct (max_int <? N.of_nat n)%N; discriminate|intros [_ H]; discriminate H].
Qed.
Lemma run_automatic args ps : forall t k, run_pieces args (Automatic (S k)) ps = Ok t <-> (forall n, ~ In (Number n) ps) /\ filled args (S k) ps = Some t.
Proof.
  induction ps as [|p ps IH]; intros t k.
  - cbn. split; [intros H; injection H as <-; auto|intros [_ H]; injection H as <-; reflexivity].
  - destruct p as [s| |n]; cbn [run_pieces filled].
    + split.
      * intros H. apply ok_bind in H. destruct H as (o&R&H). injection H as <-. apply IH in R. destruct R as [A B]. rewrite B. split; [intros m [X|X]; [discriminate X|exact (A m X)]|reflexivity].
      * intros [A H]. destruct (filled args (S k) ps) as [o|] eqn:F; [|discriminate H]. injection H as <-.
        rewrite (proj2 (IH o k)) by (split; [intros m X; apply (A m); right; exact X|exact F]). reflexivity.
    + cbn [next_arg_id bind_r]. rewrite get_arg_spec. destruct (nth_error args (S k)) as [a|] eqn:E; [|split; [discriminate|intros [_ H]; discriminate H]].
      cbn [bind_r]. split.
      * intros H. apply ok_bind in H. destruct H as (o&R&H). injection H as <-. apply IH in R. destruct R as [A B]. rewrite B. split; [intros m [X|X]; [discriminate X|exact (A m X)]|reflexivity].
      * intros [A H]. destruct (filled args (S (S k)) ps) as [o|] eqn:F; [|discriminate H]. injection H as <-.
        rewrite (proj2 (IH o (S k))) by (split; [intros m X; apply (A m); right; exact X|exact F]). reflexivity.
    + cbn [check_arg_id bind_r]. split; [destruct (max_int <? N.of_nat n)%N; discriminate|intros [A _]; destruct (A n); left; reflexivity].
Qed.
Lemma run_start args ps : (N.of_nat (length args) <= max_int)%N -> forall t,
  run_pieces args (Automatic 0) ps = Ok t <-> uniform ps /\ filled args 0 ps = Some t.
Proof.
  intros L. induction ps as [|p ps IH]; intros t.
  - cbn. split; [intros H; injection H as <-; split; [left; auto|reflexivity]|intros [_ H]; injection H as <-; reflexivity].
  - destruct p as [s| |n]; cbn [run_pieces filled].
    + assert (U : uniform (Copy s :: ps) <-> uniform ps).
      { unfold uniform. split; (intros [U|U]; [left|right]).
        - intros X; apply U; right; exact X. - intros m X; apply (U m); right; exact X.
        - intros [X|X]; [discriminate X|exact (U X)]. - intros m [X|X]; [discriminate X|exact (U m X)]. }
      rewrite U. split.
      * intros H. apply ok_bind in H. destruct H as (o&R&H). injection H as <-. apply IH in R. destruct R as [A B]. rewrite B. auto.
      * intros [A H]. destruct (filled args 0 ps) as [o|] eqn:F; [|discriminate H]. injection H as <-. rewrite (proj2 (IH o)) by auto. reflexivity.
    + assert (U : uniform (Next :: ps) <-> forall n, ~ In (Number n) ps).
      { unfold uniform. split; [intros [U|U]; [destruct U; left; reflexivity|intros m X; apply (U m); right; exact X]|].
        intros U. right. intros m [X|X]; [discriminate X|exact (U m X)]. }
      rewrite U. cbn [next_arg_id bind_r]. rewrite get_arg_spec. destruct (nth_error args 0) as [a|] eqn:E; [|split; [discriminate|intros [_ H]; discriminate H]].
      cbn [bind_r]. split.
      * intros H. apply ok_bind in H. destruct H as (o&R&H). injection H as <-. apply run_automatic in R. destruct R as [A B]. rewrite B. auto.
      * intros [A H]. destruct (filled args 1 ps) as [o|] eqn:F; [|discriminate H]. injection H as <-. rewrite (proj2 (run_automatic args ps o 0)) by auto. reflexivity.
    + assert (U : uniform (Number n :: ps) <-> ~ In Next ps).
      { unfold uniform. split; [intros [U|U]; [intros X; apply U; right; exact X|destruct (U n); left; reflexivity]|].
        intros U. left. intros [X|X]; [discriminate X|exact (U X)]. }
      rewrite U. cbn [check_arg_id bind_r]. rewrite get_arg_spec. destruct (nth_error args n) as [a|] eqn:E.
      * assert (Ln : n < length args) by (apply nth_error_Some; congruence).
        replace (max_int <? N.of_nat n)%N with false by (symmetry; apply N.ltb_ge; lia). cbn [bind_r]. split.
        -- intros H. apply ok_bind in H. destruct H as (o&R&H). injection H as <-. apply (run_manual args ps L o 0) in R. destruct R as [A B]. rewrite B. auto.
        -- intros [A H]. destruct (filled args 0 ps) as [o|] eqn:F; [|discriminate H]. injection H as <-. rewrite (proj2 (run_manual args ps L o 0)) by auto. reflexivity.
      * split; [destruct (max_int <? N.of_nat n)%N; discriminate|intros [_ H]; discriminate H].
Qed.
Lemma run_outcome args ps : forall st, (exists t, run_pieces args st ps = Ok t) \/ exists m, run_pieces args st ps = Throw m.
Proof.
  induction ps as [|p ps IH]; intros st; [left; cbn; eauto|]. destruct p as [s| |n]; cbn [run_pieces].
  - destruct (IH st) as [[t ->]|[m ->]]; cbn; eauto.
  - destruct st as [k|]; cbn [next_arg_id bind_r]; [|eauto]. rewrite get_arg_spec. destruct (nth_error args k); cbn [bind_r]; [|eauto].
    destruct (IH (Automatic (S k))) as [[t ->]|[m ->]]; cbn; eauto.
  - destruct (max_int <? N.of_nat n)%N; [eauto|]. destruct st as [[|k]|]; cbn [check_arg_id bind_r]; try solve [eauto]; rewrite get_arg_spec; (destruct (nth_error args n); cbn [bind_r]; [|eauto]);
      (destruct (IH Manual) as [[t ->]|[m ->]]; cbn; eauto).
Qed.

(** ** Every format string that is accepted is made of pieces *)
Lemma field_inv args s st a rest st' : parse_replacement_field args s st = Ok (a, rest, st') ->
  exists p, "{"%char :: s = written p ++ rest /\ (p = Copy ["{"%char] \/ p = Next \/ exists n, p = Number n).
Proof.
  unfold parse_replacement_field. destruct s as [|c s]; [discriminate|]. destruct (Ascii.eqb_spec c "}") as [->|C1].
  - intros H. apply ok_bind in H. destruct H as ([id n]&_&H). apply ok_bind in H. destruct H as (b&_&H). injection H as <- <- <-. exists Next. auto.
  - destruct (Ascii.eqb_spec c "{") as [->|C2]; [intros H; injection H as <- <- <-; exists (Copy ["{"%char]); auto|].
    intros H. apply ok_bind in H. destruct H as ([[id s1] m]&P&H). destruct s1 as [|d s1]; [discriminate H|].
    destruct (Ascii.eqb_spec d "}") as [->|]; [|destruct (Ascii.eqb d ":"); discriminate H].
    apply ok_bind in H. destruct H as (b&_&H). injection H as <- <- <-.
    unfold parse_arg_id in P. destruct (Ascii.eqb_spec c "}") as [->|_]; [congruence|]. destruct (Ascii.eqb_spec c ":") as [->|C3]; cbn [orb] in P.
    + apply ok_bind in P. destruct P as ([]&_&P). injection P as _ P _. discriminate P.
    + destruct (digit_value c) eqn:Ec; [|destruct (is_name_start c); discriminate P]. apply ok_bind in P. destruct P as ([v u]&Q&P).
      destruct u as [|e u]; [discriminate P|]. destruct (_ || _); [|discriminate P]. apply ok_bind in P. destruct P as (st1&_&P). injection P as _ -> -> _.
      assert (X : exists n, c :: s = dec n ++ "}"%char :: s1).
      { destruct (Ascii.eqb_spec c "0") as [->|C0]; [injection Q as _ ->; exists 0; reflexivity|].
        unfold parse_nonnegative_int in Q. apply parse_int_inv in Q. destruct Q as ([|x ds]&Q&D&_); [injection Q as -> _; congruence|].
        injection Q as <- ->. destruct (number_text c ds D C0) as [q Hn]. exists q. rewrite <- Hn. reflexivity. }
      destruct X as [q X]. exists (Number q). split; [|eauto]. rewrite X. cbn. rewrite <- app_assoc. reflexivity.
Qed.
Lemma scan_inv args : forall k s, length s <= k -> forall st t, scan args s st = Ok t -> exists ps, s = format_string ps.
Proof.
  induction k as [|k IH]; intros s L st t H; [destruct s; [exists []; reflexivity|cbn in L; lia]|].
  destruct s as [|c s]; [exists []; reflexivity|]. cbn in L. destruct (Ascii.eqb_spec c "{") as [->|A].
  - rewrite scan_open in H. apply ok_bind in H. destruct H as ([[a rest] st']&P&H). apply ok_bind in H. destruct H as (o&H&_).
    pose proof (field_shorter _ _ _ _ _ _ P). apply field_inv in P. destruct P as (p&->&_). apply IH in H; [|lia]. destruct H as [ps ->]. exists (p :: ps). reflexivity.
  - destruct (Ascii.eqb_spec c "}") as [->|B].
    + destruct s as [|d s]; [rewrite scan_unmatched in H by discriminate; discriminate H|]. destruct (Ascii.eqb_spec d "}") as [->|B].
      * rewrite scan_close in H. apply ok_bind in H. destruct H as (o&H&_). cbn in L. apply IH in H; [|lia]. destruct H as [ps ->]. exists (Copy ["}"%char] :: ps). reflexivity.
      * rewrite scan_unmatched in H by (intros s' X; injection X as X _; auto). discriminate H.
    + rewrite scan_char in H by assumption. apply ok_bind in H. destruct H as (o&H&_). apply IH in H; [|lia]. destruct H as [ps ->]. exists (Copy [c] :: ps).
      apply Ascii.eqb_neq in A, B. unfold format_string. cbn [map concat written doubled flat_map]. rewrite A, B. reflexivity.
Qed.
Lemma scan_ends args : forall k s, length s <= k -> forall st, scan args s st <> Diverges.
Proof.
  assert (F : forall s st, parse_replacement_field args s st <> Diverges).
  { intros s st. unfold parse_replacement_field. destruct s as [|c s]; [discriminate|].
    assert (G : forall id, get_arg args id <> Diverges) by (intros id; unfold get_arg; destruct (_ <? _)%N; [destruct (nth_error _ _)|]; discriminate).
    assert (G2 : forall id (r : str) (n : numbering), (do a <- get_arg args id; Ok (a, r, n)) <> Diverges) by (intros id r n; specialize (G id); destruct (get_arg args id); cbn; congruence).
    destruct (Ascii.eqb c "}"); [destruct st; cbn; [apply G2|discriminate]|]. destruct (Ascii.eqb c "{"); [discriminate|].
    assert (P : parse_arg_id (c :: s) st <> Diverges).
    { assert (J : forall s v, parse_int_loop v s <> Diverges).
      { induction s0 as [|x s0 IH]; intros v; cbn; [destruct (_ <? _)%N; discriminate|]. destruct (digit_value x); [destruct (_ <? _)%N; [discriminate|apply IH]|destruct (_ <? _)%N; discriminate]. }
      cbn [parse_arg_id]. destruct (_ || _); [destruct st; cbn; discriminate|]. destruct (digit_value c); [|destruct (is_name_start c); discriminate].
      destruct (Ascii.eqb c "0"); cbn [bind_r].
      - destruct s as [|d s]; [discriminate|]. destruct (_ || _); [|discriminate]. destruct st as [[|k]|]; cbn; discriminate.
      - unfold parse_nonnegative_int. specialize (J (c :: s) 0%N). destruct (parse_int_loop 0 (c :: s)) as [[v u]| | | |]; cbn [bind_r]; try congruence.
        destruct u as [|d u]; [discriminate|]. destruct (_ || _); [|discriminate]. destruct st as [[|k]|]; cbn; discriminate. }
    destruct (parse_arg_id (c :: s) st) as [[[id s1] st']| | | |]; cbn [bind_r]; try congruence. destruct s1 as [|d s1]; [discriminate|].
    destruct (Ascii.eqb d "}"); [apply G2|destruct (Ascii.eqb d ":"); discriminate]. }
  induction k as [|k IH]; intros s L st; [destruct s; [discriminate|cbn in L; lia]|]. destruct s as [|c s]; [discriminate|]. cbn in L.
  assert (B : forall {A} (x : result str) (f : str -> A), x <> Diverges -> (do o <- x; Ok (f o)) <> Diverges) by (intros A x f X; destruct x; cbn; congruence).
  destruct (Ascii.eqb_spec c "{") as [->|A1].
  - rewrite scan_open. specialize (F s st). destruct (parse_replacement_field args s st) as [[[a rest] st']| | | |] eqn:P; cbn [bind_r]; try congruence.
    apply field_shorter in P. apply B, IH. lia.
  - destruct (Ascii.eqb_spec c "}") as [->|A2].
    + destruct s as [|d s]; [rewrite scan_unmatched by discriminate; discriminate|]. destruct (Ascii.eqb_spec d "}") as [->|A3].
      * rewrite scan_close. cbn in L. apply B, IH. lia.
      * rewrite scan_unmatched by (intros s' X; injection X as X _; auto). discriminate.
    + rewrite scan_char by assumption. apply B, IH. lia.
Qed.
