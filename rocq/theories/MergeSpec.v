(** * Lists of two documents put together (C74). *)
From Coq Require Import String List Bool.
From Verif Require Import Ustr Value.
Import ListNotations.

(** The list an object holds under the name [a]. *)
Definition held (a : string) (v : value) : list value :=
  match v with
  | VObj _ _ _ attrs => match sget a attrs with Some (VList l) => l | _ => [] end
  | _ => []
  end.

Definition is_class (k : string) (y : value) : bool :=
  match y with VObj c _ _ _ => String.eqb c k | _ => false end.

(** The members of class [k]. *)
Definition members_of (k : string) (l : list value) : list value := filter (is_class k) l.
