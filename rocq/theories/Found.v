(** * Where the values of a document are found (specification vocabulary). *)
From Coq Require Import String Ascii List NArith ZArith Bool Arith.
From Verif Require Import Ustr Res PyInt PyFloat PyDate Elem Value Geom Codec Spec Schema SchemaTables Lexical CoordSpec.
Import ListNotations.
Local Open Scope string_scope.
Local Open Scope list_scope.

(** ** Names

    The attribute for an element or XML attribute has the same name, in lower
    case with underscores: [min_lod_pixels] for [minLodPixels]. *)
Definition is_capital (a : ascii) : bool := Nat.leb 65 (nat_of_ascii a) && Nat.leb (nat_of_ascii a) 90.
Definition small (a : ascii) : ascii := if is_capital a then ascii_of_nat (nat_of_ascii a + 32) else a.
Fixpoint underscored (s : string) : string :=
  match s with
  | EmptyString => EmptyString
  | String a r => if is_capital a then String "_"%char (String (small a) (underscored r)) else String a (underscored r)
  end.
Definition snake (s : string) : string :=
  match s with EmptyString => EmptyString | String a r => String (small a) (underscored r) end.

Definition kml (l : list string) : list sname := map (fun n => ("kml", n)) l.
Definition gx (l : list string) : list sname := map (fun n => ("gx", n)) l.

Definition containers : list sname := kml ["Document"; "Folder"].
Definition overlays : list sname := kml ["GroundOverlay"; "PhotoOverlay"; "ScreenOverlay"].
Definition features : list sname := containers ++ kml ["Placemark"; "NetworkLink"] ++ overlays.
Definition shapes : list sname := kml ["Point"; "LineString"; "LinearRing"; "Polygon"; "MultiGeometry"; "Model"] ++ gx ["Track"; "MultiTrack"].
Definition views : list sname := kml ["Camera"; "LookAt"].

(** Names that are formed in another way: for these children of these elements
    ([[]]: of every element) the attribute is called so. *)
Definition irregular : list (list sname * list sname * string) :=
  [([], kml ["open"], "isopen");
   ([], [("atom", "author")], "atom_author"); ([], [("atom", "link")], "atom_link");
   ([], views, "view"); ([], kml ["TimeSpan"; "TimeStamp"], "times");
   (features, kml ["Style"; "StyleMap"], "styles");
   (kml ["kml"] ++ containers, kml ["NetworkLinkControl"] ++ features, "features");
   ([], kml ["Schema"], "schemata"); ([], kml ["SimpleField"], "fields"); ([], kml ["SimpleData"], "data");
   (kml ["ExtendedData"], kml ["Data"; "SchemaData"], "elements");
   (kml ["Style"], kml ["IconStyle"; "LabelStyle"; "LineStyle"; "PolyStyle"; "BalloonStyle"], "styles");
   (kml ["Placemark"], shapes, "kml_geometry");
   (kml ["MultiGeometry"], shapes, "kml_geometries");
   ([], kml ["coordinates"], "kml_coordinates");
   ([], kml ["outerBoundaryIs"], "outer_boundary"); ([], kml ["innerBoundaryIs"], "inner_boundaries");
   (kml ["outerBoundaryIs"; "innerBoundaryIs"], kml ["LinearRing"], "kml_geometry");
   (gx ["MultiTrack"], gx ["Track"], "tracks");
   ([], kml ["Alias"], "aliases"); ([], kml ["Pair"], "pairs");
   ([], kml ["overlayXY"], "overlay_xy"); ([], kml ["screenXY"], "screen_xy"); ([], kml ["rotationXY"], "rotation_xy");
   (kml ["overlayXY"; "screenXY"; "rotationXY"; "size"], [("", "xunits")], "x_units");
   (kml ["overlayXY"; "screenXY"; "rotationXY"; "size"], [("", "yunits")], "y_units");
   (kml ["Pair"], kml ["styleUrl"], "style");
   (kml ["SimpleField"], [("", "type")], "type_");
   (kml ["TimeStamp"], kml ["when"], "timestamp")].

Definition among (n : sname) (l : list sname) : bool := existsb (sname_eqb n) l.
Definition below (p : sname) (ps : list sname) : bool := match ps with [] => true | _ => among p ps end.

(** The attribute for the child [n] of the element [p]; XML attributes have the empty prefix. *)
Definition attribute_for (p n : sname) : string :=
  match find (fun r => below p (fst (fst r)) && among n (snd (fst r))) irregular with
  | Some r => snd r
  | None => snake (snd n)
  end.

(** The attribute for the text of the element itself. *)
Definition text_names : list (sname * string) :=
  [(("kml", "Snippet"), "text"); (("kml", "styleUrl"), "url"); (("kml", "SimpleData"), "value"); (("kml", "coordinates"), "coords")].
Definition text_attribute (p : sname) : string :=
  match find (fun r => sname_eqb p (fst r)) text_names with Some r => snd r | None => EmptyString end.

(** ** What the library has no place for *)

Definition lost_children : list (list sname * list sname) :=
  [(features, [("xal", "AddressDetails")] ++ kml ["snippet"; "Metadata"] ++ gx ["balloonVisibility"; "rank"]);
   (kml ["kml"; "Document"; "Folder"], gx ["Tour"]);
   (kml ["kml"], kml ["ScreenOverlay"]);
   (kml ["NetworkLink"], kml ["Url"]);
   (kml ["NetworkLinkControl"], kml ["Update"]);
   (kml ["GroundOverlay"], gx ["LatLonQuad"]);
   (kml ["Schema"], gx ["SimpleArrayField"]); (kml ["SchemaData"], gx ["SimpleArrayData"]);
   (shapes, gx ["altitudeOffset"; "drawOrder"]);
   (kml ["MultiGeometry"], kml ["Model"] ++ gx ["Track"; "MultiTrack"]);
   (gx ["Track"], kml ["extrude"; "tessellate"; "Model"]);
   (kml ["Link"; "Icon"], gx ["x"; "y"; "w"; "h"]);
   (kml ["IconStyle"; "LineStyle"; "PolyStyle"; "LabelStyle"], gx ["labelVisibility"]);
   (kml ["LineStyle"], gx ["outerColor"; "outerWidth"; "physicalWidth"]);
   (kml ["BalloonStyle"], kml ["color"]);
   (kml ["Style"], kml ["ListStyle"]);
   (kml ["Pair"], kml ["StyleMap"]);
   (views, gx ["horizFov"; "TimeStamp"; "TimeSpan"; "ViewerOptions"])].
Definition lost_attributes : list (list sname * list string) :=
  [(kml ["kml"], ["hint"]);
   (kml ["linkSnippet"], ["maxLines"]);
   (kml ["Location"; "Orientation"; "Scale"; "Alias"; "ResourceMap"; "ViewVolume"; "ImagePyramid"; "LatLonBox"; "LatLonAltBox"; "Lod"], ["id"; "targetId"])].

Definition lost (p n : sname) : bool := existsb (fun r => among p (fst r) && among n (snd r)) lost_children.
Definition lost_attribute (p : sname) (n : string) : bool := existsb (fun r => among p (fst r) && existsb (String.eqb n) (snd r)) lost_attributes.

(** The parts of the items of a track are put together otherwise (C24). *)
Definition paired_child (p n : sname) : bool :=
  among p (gx ["Track"]) && (among n (kml ["when"]) || among n (gx ["coord"; "angles"])).

(** Of two children one is left out: a [Style] if there is a [styleUrl], and of
    the names (and so on) of an author all but the first. *)
Definition preferred (p n : sname) : list sname :=
  if sname_eqb p ("kml", "Pair") && sname_eqb n ("kml", "Style") then kml ["styleUrl"] else [].
Definition first_only (p : sname) : bool := sname_eqb p ("atom", "author").
Definition left_out (p n : sname) (all before : list ustr) : bool :=
  existsb (fun q => existsb (ueqb (clark schema_uris q)) all) (preferred p n) ||
  first_only p && existsb (ueqb (clark schema_uris n)) before.

(** Lists without members that count as false. *)
Definition filtered (p : sname) : bool := among p (kml ["ExtendedData"] ++ gx ["MultiTrack"]).

(** ** Values *)

Definition typed_text (st : sname) : bool :=
  sname_eqb st ("xs", "boolean") || sname_eqb st ("xs", "int") || existsb (sname_eqb st) double_types || sname_eqb st ("kml", "dateTimeType") ||
  match enum_type st with Some _ => true | None => false end.

(** The value is the one the text stands for; of free text, white space at
    both ends does not matter. *)
Definition stands_for (W : world) (st : sname) (s : ustr) (w : value) : Prop :=
  match w with
  | VStr t => typed_text st = false /\ strip t = strip s
  | VBool true => s = u "1" \/ s = u "true"
  | VBool false => s = u "0" \/ s = u "false"
  | VInt z => int_of_str s = Ok z
  | VFloat f => float_of_str s = Ok f
  | VEnum _ t => t = s
  | VDate d => kdt_parse (w_arrow W) s = Ok d
  | VCoords _ l => forall cells, forallb (forallb cell) cells = true -> coords_text cells s ->
      Forall2 (Forall2 (fun c n => exists f, float_of_str c = Ok f /\ n = NFloat f)) cells l
  | _ => False
  end.

Definition stored (attrs : list (string * value)) (a : string) : value :=
  match sget a attrs with Some w => w | None => VNone end.
Definition is_or_has (w x : value) : Prop := w = x \/ exists l, w = VList l /\ In x l.

(** The names in a content model. *)
Fixpoint names (p : particle) : list sname :=
  match p with
  | PEl ns _ _ => ns
  | PAny _ _ _ => []
  | PSeq ps _ _ | PChoice ps _ _ => flat_map names ps
  end.

Definition blank (x : option ustr) : bool := match x with Some s => uempty (strip s) | None => true end.
Definition the_text (x : option ustr) : ustr := match x with Some s => strip s | None => [] end.

Definition decl_for (ty : string) : option decl :=
  match find (fun p => String.eqb (fst p) ty) schema_types with Some p => Some (snd p) | None => None end.

(** Everything in the element [e] with the name [p] and the type [ty], but for
    what is listed as lost and what wild cards of the schema let in, is found
    in the object [v]:
    - its text and its attributes under their names,
    - the value of a child under its name, or
    - an object for the child, under its name, and in this object all that is
      in the child. *)
Fixpoint found (W : world) (p : sname) (ty : string) (e : elem) (v : value) {struct e} : Prop :=
  match e, v with
  | Elem _ a x ks, VObj _ _ _ attrs =>
      match decl_for ty with
      | None => False
      | Some d =>
          (forall st, d_text d = Some st -> blank x = false -> stands_for W st (the_text x) (stored attrs (text_attribute p))) /\
          (forall n b st s, In (n, b, st) (d_attrs d) -> uget (u n) a = Some s -> uempty (strip s) = false -> lost_attribute p n = false ->
             stands_for W st s (stored attrs (attribute_for p ("", n)))) /\
          (fix every before rest := match rest with
             | [] => True
             | k :: rest' =>
                 (forall n ty', In n (names (d_content d)) -> e_tag k = clark schema_uris n -> kid_type schema_uris schema_elements d (e_tag k) = Some ty' ->
                    lost p n = false -> paired_child p n = false -> left_out p n (map e_tag ks) before = false ->
                    (exists d' st, decl_for ty' = Some d' /\ d_text d' = Some st /\ (forall y, In y (d_attrs d') -> lost_attribute n (fst (fst y)) = true) /\
                       (blank (e_text k) = true \/ stands_for W st (the_text (e_text k)) (stored attrs (attribute_for p n)))) \/
                    (exists w, found W n ty' k w /\ (is_or_has (stored attrs (attribute_for p n)) w \/ (filtered p = true /\ truth W w = false)))) /\
                 every (before ++ [e_tag k]) rest'
             end) [] ks
      end
  | _, _ => False
  end.

(** ** Where the values of an object come from

    Something in the element [e] with the name [p] is named like the attribute
    [a]: its text, an XML attribute or a child, in whatever name space. *)
Definition named_source (nss : nss_t) (p : sname) (a : string) (e : elem) : Prop :=
  (text_attribute p = a /\ e_text e <> None) \/
  (exists n id, attribute_for p ("", n) = a /\ uget (ns_get nss id ++ u n) (e_attrib e) <> None) \/
  (exists n id home k, In home ["kml"; "gx"; "atom"] /\ attribute_for p (home, n) = a /\ In k (e_kids e) /\ e_tag k = ns_get nss id ++ u n).
