(** * The syntax of XML documents (specification vocabulary).

    Documents as syntax trees that keep everything an author may choose: how a
    character is spelled, CDATA sections, comments, processing instructions,
    white space and quotes in tags, the XML declaration. *)
From Coq Require Import String List NArith Bool.
From Verif Require Import Ustr Elem Xml.
Import ListNotations.
Local Open Scope N_scope.

Definition spaces (s : ustr) : bool := forallb xml_space s.
Definition quote_ok (q : N) : bool := (q =? 34) || (q =? 39).

(** A character: itself, or a reference to it ([amp], [#38], [#x26], ...). *)
Inductive piece := Lit (c : N) | Ref (body : ustr).
Definition piece_text (p : piece) : ustr := match p with Lit c => [c] | Ref b => u "&" ++ b ++ u ";" end.
Definition piece_ok (p : piece) : bool :=
  match p with
  | Lit c => xml_char c && negb (c =? 38) && negb (c =? 60)
  | Ref b => match reference b with Some _ => true | None => false end
  end.
(** The character meant; [norm] is applied to those that stand for themselves. *)
Definition piece_char (norm : N -> N) (p : piece) : N :=
  match p with Lit c => norm c | Ref b => match reference b with Some c => c | None => 0 end end.
Definition spelling (l : list piece) : ustr := flat_map piece_text l.
Definition spelled (l : list piece) : ustr := map (piece_char (fun c => c)) l.

(** An attribute: white space, name, white space, [=], white space, quoted value. *)
Inductive attribute := Attribute (gap name gap1 gap2 : ustr) (quote : N) (val : list piece).
Definition attribute_text (a : attribute) : ustr :=
  match a with Attribute g n g1 g2 q v => g ++ n ++ g1 ++ u "=" ++ g2 ++ [q] ++ spelling v ++ [q] end.
Definition attribute_ok (a : attribute) : bool :=
  match a with
  | Attribute g n g1 g2 q v =>
      negb (uempty g) && spaces g && negb (uempty n) && forallb any_name_char n && spaces g1 && spaces g2 && quote_ok q &&
      forallb (fun p => piece_ok p && match p with Lit c => negb (c =? q) | Ref _ => true end) v
  end.
Definition attribute_meant (a : attribute) : ustr * ustr :=
  match a with Attribute _ n _ _ _ v => (n, map (piece_char attr_norm) v) end.

(** A comment, or a processing instruction with its target. *)
Inductive other := Comment (t : ustr) | Instruction (target t : ustr).
Definition other_text (o : other) : ustr :=
  match o with
  | Comment t => u "<!--" ++ t ++ u "-->"
  | Instruction n t => u "<?" ++ n ++ t ++ u "?>"
  end.
(** [p] does not begin anywhere in [s]. *)
Fixpoint free_of (p s : ustr) : bool :=
  match s with
  | [] => true
  | _ :: s' => match after p s with Some _ => false | None => free_of p s' end
  end.
Definition other_ok (o : other) : bool :=
  match o with
  | Comment t => forallb xml_char t && free_of (u "--") (t ++ u "-")
  | Instruction n t => pi_target n && forallb xml_char t && free_of (u "?>") t && match t with [] => true | c :: _ => xml_space c end
  end.

(** Content: characters, CDATA sections, comments and processing instructions,
    and elements; [empty] elements are written as one tag. *)
Inductive node :=
| Data (l : list piece)
| CData (s : ustr)
| Other (o : other)
| Element (name : ustr) (attrs : list attribute) (gap : ustr) (empty : bool) (kids : list node) (gap' : ustr).

Fixpoint node_text (x : node) : ustr :=
  match x with
  | Data l => spelling l
  | CData s => u "<![CDATA[" ++ s ++ u "]]>"
  | Other o => other_text o
  | Element n a g empty ks g' =>
      u "<" ++ n ++ flat_map attribute_text a ++ g ++
      (if empty then u "/>" else u ">" ++ flat_map node_text ks ++ u "</" ++ n ++ g' ++ u ">")
  end.

(** The characters between two tags, sections, ... may not contain [ ]]> ];
    [acc]: those just before. *)
Fixpoint data_ok (acc : ustr) (l : list node) : bool :=
  match l with
  | [] => negb (cdata_end acc)
  | Data p :: l' => data_ok (acc ++ spelling p) l'
  | _ :: l' => negb (cdata_end acc) && data_ok [] l'
  end.

Fixpoint node_ok (x : node) : bool :=
  match x with
  | Data l => forallb piece_ok l
  | CData s => forallb xml_char s && free_of (u "]]>") s
  | Other o => other_ok o
  | Element n a g empty ks g' =>
      negb (uempty n) && forallb any_name_char n && forallb attribute_ok a && distinct (map (fun x => fst (attribute_meant x)) a) &&
      spaces g && spaces g' && forallb node_ok ks && data_ok [] ks && implb empty (match ks with [] => true | _ => false end)
  end.

(** What the two libraries call the text of an element: the characters before
    the first child; in lxml comments and processing instructions are children. *)
Fixpoint leading (lib : xml_library) (l : list node) : ustr :=
  match l with
  | Data p :: l' => spelled p ++ leading lib l'
  | CData s :: l' => s ++ leading lib l'
  | Other _ :: l' => match lib with ElementTree => leading lib l' | Lxml => [] end
  | Element _ _ _ _ _ _ :: _ | [] => []
  end.

Definition some_text (s : ustr) : option ustr := match s with [] => None | _ => Some s end.

(** The element that the tree stands for. *)
Fixpoint meant (lib : xml_library) (x : node) : list elem :=
  match x with
  | Element n a _ _ ks _ => [Elem n (map attribute_meant a) (some_text (leading lib ks)) (flat_map (meant lib) ks)]
  | _ => []
  end.

(** The XML declaration. *)
Inductive entry := Entry (gap gap1 gap2 : ustr) (quote : N) (val : ustr).
Definition entry_text (n : ustr) (e : entry) : ustr :=
  match e with Entry g g1 g2 q v => g ++ n ++ g1 ++ u "=" ++ g2 ++ [q] ++ v ++ [q] end.
Definition entry_ok (p : ustr -> bool) (e : entry) : bool :=
  match e with Entry g g1 g2 q v => negb (uempty g) && spaces g && spaces g1 && spaces g2 && quote_ok q && p v end.
Inductive declaration_t := Declaration (version : entry) (encoding standalone : option entry) (gap : ustr).
Definition opt {A} (f : A -> ustr) (x : option A) : ustr := match x with Some a => f a | None => [] end.
Definition opt_ok {A} (f : A -> bool) (x : option A) : bool := match x with Some a => f a | None => true end.
Definition declaration_text (d : declaration_t) : ustr :=
  match d with
  | Declaration v e a g => u "<?xml" ++ entry_text (u "version") v ++ opt (entry_text (u "encoding")) e ++ opt (entry_text (u "standalone")) a ++ g ++ u "?>"
  end.
Definition declaration_fine (d : declaration_t) : bool :=
  match d with
  | Declaration v e a g => entry_ok version_ok v && opt_ok (entry_ok encoding_ok) e && opt_ok (entry_ok (fun s => ueqb s (u "yes") || ueqb s (u "no"))) a && spaces g
  end.
Definition encoding_of (d : option declaration_t) : option ustr :=
  match d with Some (Declaration _ (Some (Entry _ _ _ _ e)) _ _) => Some e | _ => None end.

(** A document: a declaration, the root element, white space, comments and
    processing instructions around it. *)
Inductive misc := Space (s : ustr) | Misc (o : other).
Definition misc_text (m : misc) : ustr := match m with Space s => s | Misc o => other_text o end.
Definition misc_ok (m : misc) : bool := match m with Space s => spaces s | Misc o => other_ok o end.
Inductive document := Document (decl : option declaration_t) (before : list misc) (root : node) (behind : list misc).
Definition document_text (d : document) : ustr :=
  match d with Document x b r e => opt declaration_text x ++ flat_map misc_text b ++ node_text r ++ flat_map misc_text e end.
(** White space before an XML declaration would make it a processing instruction. *)
Definition document_ok (d : document) : bool :=
  match d with
  | Document x b r e =>
      opt_ok declaration_fine x && forallb misc_ok b && node_ok r && forallb misc_ok e &&
      match r with Element _ _ _ _ _ _ => true | _ => false end
  end.

(** Text with the line ends of any system that is this document. *)
Definition is_text_of (s : ustr) (d : document) : Prop := line_ends s = document_text d.

(** ** Documents that differ in spelling only *)

(** [seen]: a child precedes, so that no text of the element follows. *)
Definition ends_text (lib : xml_library) (x : node) : bool :=
  match x with Data _ | CData _ => false | Other _ => match lib with ElementTree => false | Lxml => true end | Element _ _ _ _ _ _ => true end.

Inductive alike (lib : xml_library) : bool -> list node -> list node -> Prop :=
| alike_refl : forall seen l, alike lib seen l l
| alike_sym : forall seen l l', alike lib seen l l' -> alike lib seen l' l
| alike_trans : forall seen l l' l'', alike lib seen l l' -> alike lib seen l' l'' -> alike lib seen l l''
| alike_next : forall seen x l l', alike lib (seen || ends_text lib x) l l' -> alike lib seen (x :: l) (x :: l')
(** a character and a reference to it *)
| alike_reference : forall seen p b c q l, reference b = Some c ->
    alike lib seen (Data (p ++ Ref b :: q) :: l) (Data (p ++ Lit c :: q) :: l)
| alike_references : forall seen p b b' q l, reference b = reference b' ->
    alike lib seen (Data (p ++ Ref b :: q) :: l) (Data (p ++ Ref b' :: q) :: l)
(** a CDATA section and its characters *)
| alike_cdata : forall seen s l, alike lib seen (CData s :: l) (Data (map Lit s) :: l)
| alike_split : forall seen p q l, alike lib seen (Data (p ++ q) :: l) (Data p :: Data q :: l)
| alike_none : forall seen l, alike lib seen (Data [] :: l) l
(** comments and processing instructions; for lxml only where no characters
    follow that belong to the text of the element *)
| alike_other : forall seen o l, (lib = ElementTree \/ seen = true \/ leading Lxml l = []) -> alike lib seen (Other o :: l) l
(** white space in tags, quotes, the form of empty elements, content *)
| alike_element : forall seen n a a' g g' h h' e e' ks ks' l,
    map attribute_meant a = map attribute_meant a' -> alike lib false ks ks' ->
    alike lib seen (Element n a g e ks h :: l) (Element n a' g' e' ks' h' :: l).
