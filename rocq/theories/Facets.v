(** * Ranges and patterns of XML Schema simple types (specification vocabulary). *)
From Coq Require Import String List NArith ZArith Bool.
From Verif Require Import Ustr Res PyInt PyFloat Elem Value Geom Codec Spec Schema SchemaTables SchemaSpec Xml Lexical.
Import ListNotations.
Local Open Scope string_scope.

(** ** Facets *)

(** The angles, ogckml22.xsd:32-65. *)
Definition angle_ranges : list (sname * (Z * Z)) :=
  [(("kml", "anglepos90Type"), (0, 90)%Z); (("kml", "angle90Type"), (-90, 90)%Z); (("kml", "anglepos180Type"), (0, 180)%Z);
   (("kml", "angle180Type"), (-180, 180)%Z); (("kml", "angle360Type"), (-360, 360)%Z)].
Definition range_of (st : sname) : option (Z * Z) :=
  match find (fun p => sname_eqb (fst p) st) angle_ranges with Some p => Some (snd p) | None => None end.

(** [lo <= f <= hi]; doubles are multiples of 2^-1074. *)
Definition between (lo hi : Z) (f : pyfloat) : bool :=
  match f with
  | FFin neg m E => let x := if neg then (- fmag m E)%Z else fmag m E in (lo * two1074 <=? x)%Z && (x <=? hi * two1074)%Z
  | _ => false
  end.

Definition alpha (c : N) : bool := existsb (in_range c) [(65, 90)%N; (97, 122)%N].
Definition alnum (c : N) : bool := alpha c || is_adigit c.
Definition hex_digit (c : N) : bool := existsb (in_range c) [(48, 57)%N; (65, 70)%N; (97, 102)%N].
(** The pattern [.+c.+]: the character stands inside, and there is no line end. *)
Definition inside (c : N) (s : ustr) : bool :=
  forallb (fun x => negb (N.eqb x 10 || N.eqb x 13)) s && existsb (N.eqb c) (removelast (tl s)).
Definition subtag (p : N -> bool) (s : ustr) : bool := negb (uempty s) && Nat.leb (length s) 8 && forallb p s.

(** The types of free text that do not allow any text: ogckml22.xsd:75-89,
    xs:ID and xs:NCName (the identity constraint of IDs is left out),
    atom-author-link.xsd:43-63. *)
Definition text_types : list (sname * (ustr -> bool)) :=
  [(("kml", "colorType"), fun s => Nat.eqb (length s) 8 && forallb hex_digit s);
   (("xs", "ID"), ncname); (("xs", "NCName"), ncname);
   (("atom", "atomEmailAddress"), inside 64);
   (("atom", "atomMediaType"), inside 47);
   (("atom", "atomLanguageTag"), fun s => match split_on 45 s with p :: ps => subtag alpha p && forallb (subtag alnum) ps | [] => false end)].
Definition text_form (st : sname) (s : ustr) : bool :=
  match find (fun p => sname_eqb (fst p) st) text_types with Some p => snd p s | None => true end.

(** The text is in the range of its type and has the pattern of its type; both
    on top of the form that [well_written] asks for. *)
Definition facet (st : sname) (s : ustr) : Prop :=
  match range_of st with
  | Some (lo, hi) => exists f, float_of_str s = Ok f /\ between lo hi f = true
  | None => text_form st s = true
  end.
Definition facets_valid (e : elem) : Prop := document_values_ok facet schema_uris schema_types schema_elements e.

(** ** Values that are in the range of their types *)

Definition fits (st : sname) (x : value) : bool :=
  match x with
  | VNum n => match range_of st with Some (lo, hi) => between lo hi (to_float n) | None => true end
  | VStr s => uempty s || text_form st s
  | _ => true
  end.

(** The types that the schema has for what an attribute of the class becomes:
    an XML attribute or the text of an element. *)
Definition text_type (ty : string) : list sname :=
  match find (fun p => String.eqb (fst p) ty) schema_types with
  | Some (_, d) => match d_text d with Some st => [st] | None => [] end
  | None => []
  end.
Definition types_in (W : world) (c : string) (d : decl) (it : item) : list sname :=
  match it_set it with
  | SAttrText | SAttrInt | SAttrFloat => map snd (filter (fun y => String.eqb (fst (fst y)) (it_node it)) (d_attrs d))
  | SText | SInt | SFloat =>
      match kid_type schema_uris schema_elements d (clark schema_uris (fst (class_sname W c), it_node it)) with Some ty => text_type ty | None => [] end
  | _ => []
  end.
Definition types_of (W : world) (c : string) (it : item) : list sname :=
  match class_type W c with
  | Some ty => match find (fun p => String.eqb (fst p) ty) schema_types with Some (_, d) => types_in W c d it | None => [] end
  | None => []
  end.

Definition fitting_node (W : world) (c : string) (attrs : list (string * value)) : bool :=
  forallb (fun av => match find_item (fst av) (items_of W c) with
                     | Some it => forallb (fun st => fits st (snd av)) (types_of W c it)
                     | None => true
                     end) attrs.
(** Angles are in range; colours, identifiers, addresses and tags have their
    patterns; in all objects inside. *)
Definition fitting (W : world) (v : value) : bool := vall (fun c _ _ attrs => fitting_node W c attrs) v.
