(** * A document with some of its parts left out (C75). *)
From Coq Require Import List.
From Verif Require Import Ustr Elem.
Import ListNotations.

(** [fewer R P l l']: [l] is [l'] with some members for which [P] holds left out;
    the others correspond by [R], in the same order. *)
Inductive fewer {A} (R : A -> A -> Prop) (P : A -> Prop) : list A -> list A -> Prop :=
| fewer_nil : fewer R P [] []
| fewer_keep x y l l' : R x y -> fewer R P l l' -> fewer R P (x :: l) (y :: l')
| fewer_drop y l l' : P y -> fewer R P l l' -> fewer R P l (y :: l').

(** An element with a text and nothing else. *)
Definition leaf (k : elem) : Prop := exists t x, k = Elem t [] (Some x) [].

(** [within e e']: [e] is [e'] with some XML attributes, texts and children that
    consist of a text left out, at any depth. *)
Inductive within : elem -> elem -> Prop :=
| within_elem t a a' x x' ks ks' :
    fewer eq (fun _ => True) a a' -> x = None \/ x = x' -> fewer within leaf ks ks' ->
    within (Elem t a x ks) (Elem t a' x' ks').
