(** * Namespaces in XML 1.0, as a relation (specification vocabulary). *)
From Coq Require Import String List NArith Bool.
From Verif Require Import Ustr Elem XmlTerms.
Import ListNotations.
Local Open Scope N_scope.

(** Production [4]: a name without colon. *)
Definition simple_name (n : ustr) : Prop := exists c r, n = c :: r /\ name_start c /\ Forall in_name r /\ ~ In 58 n.

(** What prefixes stand for; the empty prefix for the default name space; the
    empty name space for none. *)
Definition scope := ustr -> ustr.

Definition xml_name_space : ustr := u "http://www.w3.org/XML/1998/namespace".
Definition xmlns_name_space : ustr := u "http://www.w3.org/2000/xmlns/".

(** Section 3: [xml] is declared, and nothing else. *)
Definition outermost (sc : scope) : Prop := forall p, (p = u "xml" /\ sc p = xml_name_space) \/ (p <> u "xml" /\ sc p = []).

(** The attribute that declares a prefix. *)
Definition declares (k p : ustr) : Prop := (p = [] /\ k = u "xmlns") \/ (p <> [] /\ k = u "xmlns:" ++ p).

(** Sections 2.2 and 3: what may be declared. *)
Definition may_be_declared (p uri : ustr) : Prop :=
  (p = [] \/ (simple_name p /\ uri <> [])) /\ p <> u "xmlns" /\ uri <> xmlns_name_space /\ (p = u "xml" <-> uri = xml_name_space).

(** Section 6.1: the scope inside an element with attributes [a]. *)
Definition inside (sc : scope) (a : list (ustr * ustr)) (sc' : scope) : Prop :=
  (forall k p uri, In (k, uri) a -> declares k p -> sc' p = uri) /\
  (forall p, (forall k uri, In (k, uri) a -> ~ declares k p) -> sc' p = sc p).

(** The name that is meant, in Clark notation. *)
Definition clark (uri l : ustr) (n : ustr) : Prop := (uri = [] /\ n = l) \/ (uri <> [] /\ n = u "{" ++ uri ++ u "}" ++ l).

(** Section 6.2: the default name space is for elements only. *)
Inductive named (sc : scope) : bool -> ustr -> ustr -> Prop :=
| named_element l n : simple_name l -> clark (sc []) l n -> named sc true l n
| named_attribute l : simple_name l -> named sc false l l
| named_prefix b p l n : simple_name p -> simple_name l -> sc p <> [] -> clark (sc p) l n -> named sc b (p ++ u ":" ++ l) n.

Inductive attributes (sc : scope) : list (ustr * ustr) -> list (ustr * ustr) -> Prop :=
| attributes_none : attributes sc [] []
| attributes_declaration k v p a a' : declares k p -> attributes sc a a' -> attributes sc ((k, v) :: a) a'
| attributes_named k v n a a' : (forall p, ~ declares k p) -> named sc false k n -> attributes sc a a' -> attributes sc ((k, v) :: a) ((n, v) :: a').

(** The element that an element as it is written stands for. *)
Inductive stands (sc : scope) : elem -> elem -> Prop :=
| stands_for sc' t t' a a' x ks ks' :
    (forall k p uri, In (k, uri) a -> declares k p -> may_be_declared p uri) -> inside sc a sc' ->
    named sc' true t t' -> attributes sc' a a' -> NoDup (map fst a) -> NoDup (map fst a') -> Forall2 (stands sc') ks ks' ->
    stands sc (Elem t a x ks) (Elem t' a' x ks').
