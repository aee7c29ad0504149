(** * Content models of XML Schema: meaning. *)
From Coq Require Import String List NArith Bool.
From Verif Require Import Ustr Elem.
Import ListNotations.

(** A name: the conventional prefix of a name space and the local part. *)
Definition sname : Type := string * string.

(** XML Schema 1.0, section 3.9: an element (with its substitution group
    expanded), a wild card (with the prefix of the name space
    it excludes), a sequence or a choice, with the least and the
    greatest number of occurrences ([None]: unbounded). *)
Inductive particle :=
| PEl (names : list sname) (least : nat) (most : option nat)
| PAny (other : option string) (least : nat) (most : option nat)
| PSeq (ps : list particle) (least : nat) (most : option nat)
| PChoice (ps : list particle) (least : nat) (most : option nat).

(** An element declaration: the content, the attributes with their name,
    whether they are required and their type, the simple type of the text
    if the content is simple, and the types of the local elements, that is
    of the child elements that are not declared globally. *)
Record decl := mkDecl {
  d_content : particle;
  d_attrs : list (string * bool * sname);
  d_text : option sname;
  d_local : list (sname * string)
}.

(** The tag of a name, in Clark notation. *)
Definition clark (uris : list (string * string)) (n : sname) : ustr :=
  match find (fun p => String.eqb (fst p) (fst n)) uris with
  | Some p => u "{" ++ u (snd p) ++ u "}" ++ u (snd n)
  | None => u (snd n)
  end.

Fixpoint starts (p s : ustr) : bool :=
  match p, s with
  | [], _ => true
  | x :: p', y :: s' => N.eqb x y && starts p' s'
  | _, [] => false
  end.

Section Meaning.
  Variable uris : list (string * string).

  (** [##any] ([None]) or [##other] than the given name space. *)
  Definition foreign (other : option string) (t : ustr) : bool :=
    match other with
    | None => true
    | Some p => starts (u "{") t && negb (starts (clark uris (p, EmptyString)) t)
    end.

  (** [ts] is the concatenation of between [least] and [most] runs, each in [P]. *)
  Definition repeated (P : list ustr -> Prop) (least : nat) (most : option nat) (ts : list ustr) : Prop :=
    exists runs, ts = concat runs /\ Forall P runs /\ least <= length runs /\
                 match most with Some m => length runs <= m | None => True end.

  (** The sequences of child tags a particle allows. *)
  Fixpoint allows (p : particle) (ts : list ustr) : Prop :=
    match p with
    | PEl names a b => repeated (fun r => exists n, In n names /\ r = [clark uris n]) a b ts
    | PAny o a b => repeated (fun r => exists t, foreign o t = true /\ r = [t]) a b ts
    | PSeq ps a b =>
        repeated ((fix each ps r := match ps with
                                    | [] => r = []
                                    | p :: ps' => exists x y, r = x ++ y /\ allows p x /\ each ps' y
                                    end) ps) a b ts
    | PChoice ps a b =>
        repeated (fun r => (fix some ps := match ps with
                                           | [] => False
                                           | p :: ps' => allows p r \/ some ps'
                                           end) ps) a b ts
    end.

  Variable types : list (string * decl).
  Variable elements : list (sname * string).

  Definition lookup {A} (t : ustr) (l : list (sname * A)) : option A :=
    match find (fun p => ueqb (clark uris (fst p)) t) l with Some p => Some (snd p) | None => None end.

  (** The type of a child element: a local declaration or the global one. *)
  Definition kid_type (d : decl) (t : ustr) : option string :=
    match lookup t (d_local d) with Some ty => Some ty | None => lookup t elements end.

  (** The attributes are declared, the required ones are there. *)
  Definition attrs_valid (d : decl) (a : list (ustr * ustr)) : Prop :=
    (forall k, In k (map fst a) -> exists x, In x (d_attrs d) /\ k = u (fst (fst x))) /\
    (forall x, In x (d_attrs d) -> snd (fst x) = true -> In (u (fst (fst x))) (map fst a)).

  (** The element has the structure its type asks for, and so have the
      elements inside it.  The values of attributes and texts are not looked at. *)
  Fixpoint valid (ty : string) (e : elem) : Prop :=
    match e with
    | Elem t a x ks =>
        match find (fun p => String.eqb (fst p) ty) types with
        | None => False
        | Some (_, d) =>
            allows (d_content d) (map e_tag ks) /\
            attrs_valid d a /\
            (d_text d = None -> x = None) /\
            (fix every ks := match ks with
                             | [] => True
                             | k :: ks' => match kid_type d (e_tag k) with
                                           | Some ty' => valid ty' k
                                           | None => False
                                           end /\ every ks'
                             end) ks
        end
    end.

  (** A document element of the schema. *)
  Definition valid_document (e : elem) : Prop := exists ty, lookup (e_tag e) elements = Some ty /\ valid ty e.
End Meaning.
