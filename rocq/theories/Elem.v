(** * ElementTree elements.

    Models the interface of types.py:42-64 as implemented by
    [xml.etree.ElementTree] / [lxml.etree]: tag (Clark notation [{uri}local]),
    attributes, text, children.  [tail] is not modelled: fastkml never reads it. *)
From Coq Require Import String List NArith Bool.
From Verif Require Import Ustr.
Import ListNotations.

Inductive elem : Type :=
| Elem (tag : ustr) (attrib : list (ustr * ustr)) (text : option ustr) (kids : list elem).

Definition e_tag (e : elem) : ustr := let '(Elem t _ _ _) := e in t.
Definition e_attrib (e : elem) : list (ustr * ustr) := let '(Elem _ a _ _) := e in a.
Definition e_text (e : elem) : option ustr := let '(Elem _ _ t _) := e in t.
Definition e_kids (e : elem) : list elem := let '(Elem _ _ _ k) := e in k.

(** Lookup in an association list with [str] keys: [dict.get]. *)
Fixpoint uget {A} (k : ustr) (l : list (ustr * A)) : option A :=
  match l with
  | [] => None
  | (k', v) :: l' => if ueqb k k' then Some v else uget k l'
  end.

(** [element.set(k, v)]: replaces an existing attribute in place. *)
Fixpoint uset {A} (k : ustr) (v : A) (l : list (ustr * A)) : list (ustr * A) :=
  match l with
  | [] => [(k, v)]
  | (k', v') :: l' => if ueqb k k' then (k, v) :: l' else (k', v') :: uset k v l'
  end.

(** [Element(tag)] *)
Definition new_elem (tag : ustr) : elem := Elem tag [] None [].
(** [SubElement(parent, tag)] followed by [.text = t]. *)
Definition text_elem (tag : ustr) (t : option ustr) : elem := Elem tag [] t [].

Definition set_attr (k v : ustr) (e : elem) : elem :=
  let '(Elem t a x c) := e in Elem t (uset k v a) x c.
Definition set_text (v : option ustr) (e : elem) : elem :=
  let '(Elem t a _ c) := e in Elem t a v c.
Definition append_kid (k : elem) (e : elem) : elem :=
  let '(Elem t a x c) := e in Elem t a x (c ++ [k]).

(** Induction principle with the children. *)
Section ElemInd.
  Variable P : elem -> Prop.
  Hypothesis H : forall t a x c, Forall P c -> P (Elem t a x c).
  Fixpoint elem_ind' (e : elem) : P e :=
    match e with
    | Elem t a x c =>
        H t a x c ((fix go (l : list elem) : Forall P l :=
          match l with
          | [] => Forall_nil _
          | k :: l' => Forall_cons _ (elem_ind' k) (go l')
          end) c)
    end.
End ElemInd.
