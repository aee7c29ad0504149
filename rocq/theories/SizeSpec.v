(** * How much there is in a value and in an element.

    Vocabulary of C69.  Neither the registry nor the reader is mentioned. *)
From Coq Require Import String List NArith ZArith Bool.
From Verif Require Import Ustr Elem Value.
Import ListNotations.

(** The objects in a value, each counted as often as [f] says for its class and
    its name space. *)
Fixpoint objects (f : string -> ustr -> nat) (v : value) : nat :=
  match v with
  | VObj c ns _ attrs => f c ns + list_sum (map (fun ax : string * value => let (_, x) := ax in objects f x) attrs)
  | VList l => list_sum (map (objects f) l)
  | _ => 0
  end.

(** The elements of a tree, each counted as often as [g] says for its tag. *)
Fixpoint elements (g : ustr -> nat) (e : elem) : nat :=
  match e with Elem t _ _ ks => g t + list_sum (map (elements g) ks) end.

(** Those inside an element, without itself. *)
Definition inner (g : ustr -> nat) (e : elem) : nat := list_sum (map (elements g) (e_kids e)).

(** How many objects lie inside each other. *)
Fixpoint nesting (v : value) : nat :=
  match v with
  | VObj _ _ _ attrs => S (list_max (map (fun ax : string * value => let (_, x) := ax in nesting x) attrs))
  | VList l => list_max (map nesting l)
  | _ => 0
  end.

(** How many elements lie inside each other. *)
Fixpoint height (e : elem) : nat :=
  match e with Elem _ _ _ ks => S (list_max (map height ks)) end.
