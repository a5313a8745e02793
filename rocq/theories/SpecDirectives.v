(** Specification: what the lines of a config file say about one key. *)
From Coq Require Import Ascii String Bool Arith.
From Coq Require Import List.
From Verif Require Import Str SpecUtil Config SpecConfig.
Import ListNotations.

(** The line gives the key [x] the value [v]: "+token x v".  For the directives
    with [trims] the white space around the value does not count. *)
Definition value_for (token : str) (trims : bool) (x v line : str) : Prop :=
  exists arg u, says line true token arg /\ two_parts arg x u /\ (if trims then trimmed u v else v = u).
(** The last line of the text with the property. *)
Definition last_line (text : str) (P : str -> Prop) (line : str) : Prop :=
  exists ls before after, pieces_of nl text ls /\ ls = before ++ line :: after /\ P line /\ (forall l, In l after -> ~ P l).
(** The text gives [x] the value [v], and no other value in a later line. *)
Definition last_value (text token : str) (trims : bool) (x v : str) : Prop :=
  exists line, last_line text (fun l => exists u, value_for token trims x u l) line /\ value_for token trims x v line.
(** The header [h] is asked for [x]: "+token x h". *)
Definition header_for_key (text token x h : str) : Prop := exists arg, file_says text true token arg /\ two_parts arg x h.
(** No line of the text says to leave out the header: "-include p" for some
    beginning [p] of it. *)
Definition not_left_out (text i : str) : Prop := ~ exists p r, listed text false $"include" p /\ i = p ++ r.
(** The line is about the directive, with either sign. *)
Definition about (token : str) (line : str) : Prop := exists b arg, says line b token arg.
(** The value of a directive without key: that of the last line about it. *)
Definition last_setting (text token v : str) : Prop :=
  exists line b arg, last_line text (about token) line /\ says line b token arg /\ v = nospace arg.
