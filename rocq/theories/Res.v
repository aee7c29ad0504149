(** * Exceptions as values. *)
From Coq Require Import List Bool.
Import ListNotations.

(** The exception classes that can escape from the modelled code:
    Python's built-ins and exceptions.py:18-38.  [EDimension] is
    [pygeoif.exceptions.DimensionError]; arrow's [ParserError] is a
    [ValueError]; assertion failures are [EAssertion]. *)
Inductive exn : Type :=
| EValueError | ETypeError | EAttributeError | EIndexError | EAssertion
| EKMLParse | EKMLWrite | EKMLSchema | EGeometry | EDimension | ENotImplemented
| ERecursion.

Definition exn_eqb (a b : exn) : bool :=
  match a, b with
  | EValueError, EValueError | ETypeError, ETypeError
  | EAttributeError, EAttributeError | EIndexError, EIndexError
  | EAssertion, EAssertion | EKMLParse, EKMLParse | EKMLWrite, EKMLWrite
  | EKMLSchema, EKMLSchema | EGeometry, EGeometry | EDimension, EDimension
  | ENotImplemented, ENotImplemented | ERecursion, ERecursion => true
  | _, _ => false
  end.

Inductive res (A : Type) : Type :=
| Ok (a : A)
| Err (e : exn).
Arguments Ok {A} a.
Arguments Err {A} e.

Definition bind {A B} (x : res A) (f : A -> res B) : res B :=
  match x with Ok a => f a | Err e => Err e end.

Notation "'let!' x ':=' a 'in' b" := (bind a (fun x => b))
  (at level 200, x pattern, a at level 100, b at level 200).

(** Evaluate left to right, stop at the first exception. *)
Fixpoint seq_res {A} (l : list (res A)) : res (list A) :=
  match l with
  | [] => Ok []
  | x :: l' => let! a := x in let! r := seq_res l' in Ok (a :: r)
  end.

Fixpoint map_res {A B} (f : A -> res B) (l : list A) : res (list B) :=
  match l with
  | [] => Ok []
  | x :: l' => let! a := f x in let! r := map_res f l' in Ok (a :: r)
  end.

Definition is_ok {A} (x : res A) : bool := match x with Ok _ => true | Err _ => false end.

Lemma exn_eqb_eq a b : exn_eqb a b = true <-> a = b.
Proof. destruct a, b; cbn; split; congruence. Qed.

Lemma bind_ok {A B} (x : res A) (f : A -> res B) b :
  bind x f = Ok b -> exists a, x = Ok a /\ f a = Ok b.
Proof. destruct x; cbn; [eauto|discriminate]. Qed.

Lemma map_res_ok {A B} (f : A -> res B) l r :
  map_res f l = Ok r -> Forall2 (fun a b => f a = Ok b) l r.
Proof.
  revert r; induction l as [|a l IH]; cbn; intros r H.
  - injection H as <-. constructor.
  - apply bind_ok in H as [b [Hb H]]. apply bind_ok in H as [r' [Hr H]].
    injection H as <-. constructor; auto.
Qed.

Lemma map_res_ext_in {A B} (f g : A -> res B) l :
  (forall a, In a l -> f a = g a) -> map_res f l = map_res g l.
Proof.
  induction l as [|a l IH]; cbn; intro H; [reflexivity|].
  rewrite (H a) by now left. rewrite IH; [reflexivity|]. intros; apply H; now right.
Qed.

Lemma map_res_app {A B} (f : A -> res B) l1 l2 :
  map_res f (l1 ++ l2) =
  let! a := map_res f l1 in let! b := map_res f l2 in Ok (a ++ b).
Proof.
  induction l1 as [|x l1 IH]; cbn.
  - destruct (map_res f l2); reflexivity.
  - destruct (f x) as [y|]; cbn; [|reflexivity]. rewrite IH.
    destruct (map_res f l1); cbn; [|reflexivity]. destruct (map_res f l2); reflexivity.
Qed.

Lemma map_res_Forall2 {A B} (f : A -> res B) l r :
  Forall2 (fun a b => f a = Ok b) l r -> map_res f l = Ok r.
Proof. induction 1 as [|a b l r H _ IH]; cbn; [reflexivity|]. now rewrite H, IH. Qed.
