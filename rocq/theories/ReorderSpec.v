(** * Objects that differ in the order of their attributes only (C73). *)
From Coq Require Import String List Permutation.
From Verif Require Import Ustr Value.
Import ListNotations.

(** [w] is [v] but for the order in which the attributes, and the name spaces, of
    the objects in it were set. *)
Fixpoint reordered (v w : value) {struct v} : Prop :=
  match v, w with
  | VObj c ns nss attrs, VObj c' ns' nss' attrs' =>
      c = c' /\ ns = ns' /\ (forall p, sget p nss = sget p nss') /\ Permutation (map fst attrs) (map fst attrs') /\
      (fix each (l : list (string * value)) : Prop :=
         match l with
         | [] => True
         | (a, x) :: l' => match sget a attrs' with Some x' => reordered x x' | None => False end /\ each l'
         end) attrs
  | VList l, VList l' =>
      (fix each (l l' : list value) {struct l} : Prop :=
         match l, l' with
         | [], [] => True
         | x :: r, x' :: r' => reordered x x' /\ each r r'
         | _, _ => False
         end) l l'
  | VObj _ _ _ _, _ | VList _, _ => False
  | _, _ => v = w
  end.
