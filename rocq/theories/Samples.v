(** * Sample documents used by the examples beside the theorems. *)
From Coq Require Import String List NArith ZArith Bool.
From Verif Require Import Ustr Res PyInt PyFloat PyDate Elem Value Geom Codec Tables Spec.
Import ListNotations.
Local Open Scope string_scope.

Definition W0 : world := fastkml (fun _ => None).

(** A map with one more entry than the built-in one. *)
Definition nss0 : nss_t := merge_ns [("my", u "{http://example.com/my}")].

(** [cls(name_spaces=nss, **kws)]; [VNone] if that raises. *)
Definition mk (c : string) (kws : list (string * value)) : value :=
  match construct W0 c (default_ns W0 c nss0) nss0 kws with Ok v => v | Err _ => VNone end.

(** [obj.__dict__] *)
Definition obj_attrs (v : value) : list (string * value) := match v with VObj _ _ _ a => a | _ => [] end.

Definition str (s : string) : value := VStr (u s).
Definition flt (s : string) : pyfloat := match float_of_str (u s) with Ok f => f | Err _ => FNan end.
Definition fl (s : string) : value := VFloat (flt s).
Definition pt (l : list string) : list num := map (fun s => NFloat (flt s)) l.

Definition when (s : string) : option kmldt :=
  match kdt_parse (fun _ => None) (u s) with Ok k => Some k | Err _ => None end.
Definition date (s : string) : value := match when s with Some k => VDate k | None => VNone end.

Definition s_coords (l : list (list string)) : value :=
  mk "geometry.Coordinates" [("coords", VCoords false (map pt l))].
Definition s_point (l : list string) : value :=
  mk "geometry.Point" [("id", str "p1"); ("extrude", VBool true); ("altitude_mode", VEnum "enums.AltitudeMode" (u "relativeToSeaFloor"));
                       ("kml_coordinates", s_coords [l])].
Definition s_ring (l : list (list string)) : value :=
  mk "geometry.LinearRing" [("kml_coordinates", s_coords l)].
Definition square : list (list string) := [["0"; "0"]; ["0"; "9"]; ["9"; "9"]; ["9"; "0"]; ["0"; "0"]].
Definition hole : list (list string) := [["1"; "1"]; ["1"; "2"]; ["2"; "2"]; ["1"; "1"]].
Definition s_polygon : value := Eval vm_compute in
  mk "geometry.Polygon" [("tessellate", VBool false);
    ("outer_boundary", mk "geometry.OuterBoundaryIs" [("kml_geometry", s_ring square)]);
    ("inner_boundaries", VList [mk "geometry.InnerBoundaryIs" [("kml_geometry", s_ring hole)]])].

Definition s_style : value := Eval vm_compute in
  mk "styles.Style" [("id", str "st"); ("styles", VList [
    mk "styles.IconStyle" [("scale", fl "1.5"); ("icon", mk "links.Icon" [("href", str "http://example.com/i.png")]);
                           ("hot_spot", mk "styles.HotSpot" [("x", fl "0.5"); ("y", fl "1"); ("xunits", VEnum "enums.Units" (u "fraction"))])];
    mk "styles.LineStyle" [("color", str "ff0000ff"); ("width", fl "2.5")]])].
Definition s_stylemap : value := Eval vm_compute in
  mk "styles.StyleMap" [("id", str "sm"); ("pairs", VList [
    mk "styles.Pair" [("key", VEnum "enums.PairKey" (u "normal")); ("style", mk "styles.StyleUrl" [("url", str "#st")])];
    mk "styles.Pair" [("key", VEnum "enums.PairKey" (u "highlight")); ("style", s_style)]])].

Definition s_track : value := Eval vm_compute in
  mk "gx.Track" [("whens", VDates [when "2010-05-28"; when "2010-06"]);
                 ("coords", VCoords false [pt ["-2"; "3"; "6"]; pt ["-3"; "4"; "7"]]);
                 ("angles", VCoords false [pt ["5"; "6"; "7"]; pt ["4"; "6"; "8"]])].

Definition s_document : value := Eval vm_compute in
  mk "containers.Document" [("id", str "doc"); ("name", str "A document"); ("visibility", VBool false);
    ("styles", VList [s_style; s_stylemap]);
    ("features", VList [
      mk "containers.Folder" [("name", str "inner"); ("features", VList [
        mk "features.Placemark" [("name", str "P & <Q>"); ("kml_geometry", s_point ["-2"; "7"; "0.5"]);
           ("times", mk "times.TimeSpan" [("begin", date "2000-01-01"); ("end", date "2010-12-31")]);
           ("extended_data", mk "data.ExtendedData" [("elements", VList [
              mk "data.Data" [("name", str "n"); ("value", str "v")];
              mk "data.SchemaData" [("schema_url", str "#s"); ("data", VList [mk "data.SimpleData" [("name", str "a"); ("value", str "b")]])]])])];
        mk "features.Placemark" [("kml_geometry", s_track)];
        mk "features.NetworkLink" [("fly_to_view", VBool true); ("link", mk "links.Link" [("href", str "http://example.com/x.kml"); ("refresh_interval", fl "3")])]])];
      mk "features.Placemark" [("id", str "pl"); ("style_url", mk "styles.StyleUrl" [("url", str "#st")]); ("kml_geometry", s_polygon)]]);
    ("schemata", VList [mk "data.Schema" [("id", str "s"); ("fields", VList [
        mk "data.SimpleField" [("name", str "a"); ("type_", VEnum "enums.DataType" (u "string"))]])]])].

Definition s_kml : value := Eval vm_compute in mk "kml.KML" [("features", VList [s_document])].

(** An element in the KML (gx) name space. *)
Definition ke (tag : string) (attrib : list (string * string)) (text : option string) (kids : list elem) : elem :=
  Elem (KMLNS ++ u tag)%list (map (fun kv => (u (fst kv), u (snd kv))) attrib) (option_map u text) kids.
Definition gxe (tag : string) (attrib : list (string * string)) (text : option string) (kids : list elem) : elem :=
  Elem (GXNS ++ u tag)%list (map (fun kv => (u (fst kv), u (snd kv))) attrib) (option_map u text) kids.
(** [<tag>text</tag>] *)
Definition te (tag text : string) : elem := ke tag [] (Some text) [].
