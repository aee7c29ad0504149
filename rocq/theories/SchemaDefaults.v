(** * The default values of the bundled schema (specification vocabulary for C51). *)
From Coq Require Import String List NArith ZArith Bool.
From Verif Require Import Ustr Res PyInt PyFloat Elem Value Geom Codec UstrProofs Spec Schema SchemaTables SchemaSpec Lexical.
Import ListNotations.
Local Open Scope string_scope.

(** ** What a text means *)

(** The values a text can stand for, according to the type it has in the
    schema: a boolean, a number (compared as in Python, where 1 is 1.0), one
    of the words of an enumeration, or the text itself. *)
Inductive means : ustr -> value -> Prop :=
| means_true s : In s [u "1"; u "true"] -> means s (VBool true)
| means_false s : In s [u "0"; u "false"] -> means s (VBool false)
| means_int s z : int_of_str s = Ok z -> means s (VInt z)
| means_float s f : float_of_str s = Ok f -> means s (VFloat f)
| means_number s f n : float_of_str s = Ok f -> num_eq n (NFloat f) = true -> means s (VNum n)
| means_word s c : means s (VEnum c s)
| means_text s : means s (VStr s).

(** ** What a document says *)

(** The element has the text [s] for the item: as its own text, as an XML
    attribute or as the text of a child, in whatever name space. *)
Definition has_text (it : item) (e : elem) (s : ustr) : Prop :=
  match it_set it with
  | SNodeText => e_text e = Some s
  | SAttrText | SAttrInt | SAttrFloat | SAttrEnum =>
      exists n, good_ns n = true /\ uget (n ++ u (it_node it))%list (e_attrib e) = Some s
  | _ => exists n k, good_ns n = true /\ In k (e_kids e) /\ e_tag k = (n ++ u (it_node it))%list /\ e_text k = Some s
  end.

(** What the document says to someone who knows the schema: the text that is
    there, or the default [t] of the schema where there is none. *)
Definition says (it : item) (t : ustr) (e : elem) (s : ustr) : Prop :=
  has_text it e s \/ (~ (exists s', has_text it e s') /\ s = t).

(** The default the schema declares: that of the XML attribute, or that of the
    child element.  [gx:altitudeMode], which stands for [kml:altitudeMode],
    takes the default of that. *)
Definition element_default (n : sname) : option ustr :=
  match find (fun p => sname_eqb (fst p) n) schema_defaults with
  | Some p => Some (u (snd p))
  | None => None
  end.
Definition attribute_default (ty a : string) : option ustr :=
  match sget ty schema_attr_defaults with
  | Some l => match sget a l with Some t => Some (u t) | None => None end
  | None => None
  end.
Definition schema_default (W : world) (c : string) (it : item) : option ustr :=
  match it_set it with
  | SAttrText | SAttrInt | SAttrFloat | SAttrEnum =>
      match class_type W c with Some ty => attribute_default ty (it_node it) | None => None end
  | SText | SBool | SInt | SFloat | SEnum | SDate =>
      match element_default (fst (class_sname W c), it_node it) with
      | Some t => Some t
      | None => element_default ("kml", it_node it)
      end
  | _ => None
  end.

(** The attributes for which the library has another default than the schema. *)
Definition other_default : list (string * string) :=
  [("styles.HotSpot", "x"); ("styles.HotSpot", "y"); ("views.Lod", "min_lod_pixels")].
