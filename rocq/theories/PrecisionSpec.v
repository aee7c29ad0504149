(** * What a precision changes in a written document (C70). *)
From Coq Require Import String List NArith.
From Verif Require Import Ustr Res PyFloat Elem.
Import ListNotations.
Local Open Scope list_scope.

(** A text of numbers: rows of numbers, separated by blanks, the numbers of a row
    by commas.  The blank separated numbers of [gx:coord] and [gx:angles] are
    rows of one number. *)
Definition rows_text (rows : list (list ustr)) : ustr := join (u " ") (map (join (u ",")) rows).

(** No blank and no comma: the text of the rows determines the rows. *)
Definition one_word (w : ustr) : Prop := w <> [] /\ ~ In 32%N w /\ ~ In 44%N w.

(** [t] is the number [s] with [p] decimals. *)
Definition number_rounded (p : nat) (s t : ustr) : Prop :=
  exists f, float_of_str s = Ok f /\ fvalid f = true /\ t = fmt_float p f /\ one_word s /\ one_word t.

Definition numbers_rounded (p : nat) (s t : ustr) : Prop :=
  exists a b, s = rows_text a /\ t = rows_text b /\ Forall2 (Forall2 (number_rounded p)) a b.

(** The elements that hold positions and orientations: [coordinates] (geometry.py:299-310),
    [coord] and [angles] (gx.py:397-419), in whatever name space. *)
Definition of_positions (tag : ustr) : Prop :=
  exists ns n, tag = ns ++ u n /\ In n ["coordinates"; "coord"; "angles"]%string.

(** The same element, but for rounded numbers in the elements of positions. *)
Inductive rounded (p : nat) : elem -> elem -> Prop :=
| rounded_same tag attrs x ks ks' : Forall2 (rounded p) ks ks' ->
    rounded p (Elem tag attrs x ks) (Elem tag attrs x ks')
| rounded_numbers tag attrs s t ks ks' : of_positions tag -> numbers_rounded p s t -> Forall2 (rounded p) ks ks' ->
    rounded p (Elem tag attrs (Some s) ks) (Elem tag attrs (Some t) ks').

(** Both succeed, or both raise the same exception. *)
Definition same_outcome {A B} (a : res A) (b : res B) : Prop :=
  match a, b with
  | Ok _, Ok _ => True
  | Err x, Err y => x = y
  | _, _ => False
  end.
