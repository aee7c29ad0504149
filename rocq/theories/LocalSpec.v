(** * Objects inside objects and elements inside elements.

    Vocabulary of C67.  The registry is not mentioned. *)
From Coq Require Import String List NArith ZArith Bool.
From Verif Require Import Ustr Elem Value.
Import ListNotations.

(** [y] is [v], a member of it, or lies in one of its attributes. *)
Inductive holds : value -> value -> Prop :=
| holds_self v : holds v v
| holds_member l x y : In x l -> holds x y -> holds (VList l) y
| holds_attr c ns nss attrs a x y : In (a, x) attrs -> holds x y -> holds (VObj c ns nss attrs) y.

(** [k] is an element somewhere inside [e]. *)
Inductive within : elem -> elem -> Prop :=
| within_kid k e : In k (e_kids e) -> within k e
| within_deeper k k' e : In k' (e_kids e) -> within k k' -> within k e.
