(** * The classes, enumerations and registry of fastkml.

    Generated by /verif/tools/gen_tables.py from the text of /repo/fastkml; each
    entry cites the lines it comes from.  Do not edit. *)
From Coq Require Import String List NArith ZArith Bool.
From Verif Require Import Ustr Res PyInt PyFloat PyDate Elem Value.
Import ListNotations.
Local Open Scope string_scope.
Local Open Scope Z_scope.

(** ** Enumerations (enums.py) *)

(** enums.py:104-110 *)
Definition en_DateTimeResolution : enum_info :=
  [(u "dateTime", None);
   (u "date", None);
   (u "gYearMonth", None);
   (u "gYear", None)].

(** enums.py:114-168 *)
Definition en_AltitudeMode : enum_info :=
  [(u "clampToGround", Some "kml");
   (u "relativeToGround", Some "kml");
   (u "absolute", Some "kml");
   (u "clampToSeaFloor", Some "gx");
   (u "relativeToSeaFloor", Some "gx")].

(** enums.py:172-182 *)
Definition en_DataType : enum_info :=
  [(u "string", None);
   (u "int", None);
   (u "uint", None);
   (u "short", None);
   (u "ushort", None);
   (u "float", None);
   (u "double", None);
   (u "bool", None)].

(** enums.py:186-195 *)
Definition en_RefreshMode : enum_info :=
  [(u "onChange", None);
   (u "onInterval", None);
   (u "onExpire", None)].

(** enums.py:199-209 *)
Definition en_ViewRefreshMode : enum_info :=
  [(u "never", None);
   (u "onStop", None);
   (u "onRequest", None);
   (u "onRegion", None)].

(** enums.py:213-221 *)
Definition en_ColorMode : enum_info :=
  [(u "normal", None);
   (u "random", None)].

(** enums.py:225-237 *)
Definition en_DisplayMode : enum_info :=
  [(u "default", None);
   (u "hide", None)].

(** enums.py:241-254 *)
Definition en_Shape : enum_info :=
  [(u "rectangle", None);
   (u "cylinder", None);
   (u "sphere", None)].

(** enums.py:258-268 *)
Definition en_GridOrigin : enum_info :=
  [(u "lowerLeft", None);
   (u "upperLeft", None)].

(** enums.py:272-281 *)
Definition en_Units : enum_info :=
  [(u "fraction", None);
   (u "pixels", None);
   (u "insetPixels", None)].

(** enums.py:285-289 *)
Definition en_PairKey : enum_info :=
  [(u "normal", None);
   (u "highlight", None)].

Definition fk_enums : list (string * enum_info) :=
  [("enums.DateTimeResolution", en_DateTimeResolution);
   ("enums.AltitudeMode", en_AltitudeMode);
   ("enums.DataType", en_DataType);
   ("enums.RefreshMode", en_RefreshMode);
   ("enums.ViewRefreshMode", en_ViewRefreshMode);
   ("enums.ColorMode", en_ColorMode);
   ("enums.DisplayMode", en_DisplayMode);
   ("enums.Shape", en_Shape);
   ("enums.GridOrigin", en_GridOrigin);
   ("enums.Units", en_Units);
   ("enums.PairKey", en_PairKey)].

(** ** Classes *)

(** atom.py:56-72; attributes  *)
Definition cl_atom__AtomObject : class_info := mkCls
  ["atom._AtomObject"; "base._XMLObject"]
  "_atomobject" "atom"
  []
  []
  []
  true BTrue GkNone false.

(** atom.py:75-178; attributes atom.py:137/138/139/140/141/142; __bool__ atom.py:168-178 *)
Definition cl_atom_Link : class_info := mkCls
  ["atom.Link"; "atom._AtomObject"; "base._XMLObject"]
  "link" "atom"
  []
  [("href", CClean); ("rel", CClean); ("type", CClean); ("hreflang", CClean); ("title", CClean); ("length", CRaw)]
  ["href"; "hreflang"; "length"; "rel"; "title"; "type"]
  true (BAttr "href") GkNone false.

(** atom.py:250-322; attributes atom.py:289/290/291; __bool__ atom.py:313-322 *)
Definition cl_atom__Person : class_info := mkCls
  ["atom._Person"; "atom._AtomObject"; "base._XMLObject"]
  "_person" "atom"
  []
  [("name", CClean); ("uri", CClean); ("email", CClean)]
  ["email"; "name"; "uri"]
  true (BAttr "name") GkNone false.

(** atom.py:360-365; attributes atom.py:289/290/291; __bool__ atom.py:313-322 *)
Definition cl_atom_Author : class_info := mkCls
  ["atom.Author"; "atom._Person"; "atom._AtomObject"; "base._XMLObject"]
  "author" "atom"
  []
  [("name", CClean); ("uri", CClean); ("email", CClean)]
  ["email"; "name"; "uri"]
  true (BAttr "name") GkNone false.

(** atom.py:368-373; attributes atom.py:289/290/291; __bool__ atom.py:313-322 *)
Definition cl_atom_Contributor : class_info := mkCls
  ["atom.Contributor"; "atom._Person"; "atom._AtomObject"; "base._XMLObject"]
  "contributor" "atom"
  []
  [("name", CClean); ("uri", CClean); ("email", CClean)]
  ["email"; "name"; "uri"]
  true (BAttr "name") GkNone false.

(** base.py:54-452; attributes  *)
Definition cl_base__XMLObject : class_info := mkCls
  ["base._XMLObject"]
  "_XMLObject" ""
  []
  []
  []
  true BTrue GkNone false.

(** containers.py:72-167; attributes kml_base.py:94/95, features.py:294/295/296/297/298/299/300/301/302/303/304/305/306/307/308, containers.py:131 *)
Definition cl_containers__Container : class_info := mkCls
  ["containers._Container"; "features._Feature"; "mixins.TimeMixin"; "kml_base._BaseObject"; "base._XMLObject"]
  "_Container" "kml"
  []
  [("id", COrEmpty); ("target_id", COrEmpty); ("name", CClean); ("description", CClean); ("style_url", CRaw); ("styles", CListTruthy); ("view", CRaw); ("visibility", CRaw); ("isopen", CRaw); ("snippet", CRaw); ("atom_author", CRaw); ("atom_link", CRaw); ("address", CClean); ("phone_number", CClean); ("region", CRaw); ("extended_data", CRaw); ("times", CRaw); ("features", CListTruthy)]
  ["address"; "atom_author"; "atom_link"; "description"; "extended_data"; "features"; "id"; "isopen"; "name"; "phone_number"; "region"; "snippet"; "style_url"; "styles"; "target_id"; "times"; "view"; "visibility"]
  true BTrue GkNone false.

(** containers.py:170-177; attributes kml_base.py:94/95, features.py:294/295/296/297/298/299/300/301/302/303/304/305/306/307/308, containers.py:131 *)
Definition cl_containers_Folder : class_info := mkCls
  ["containers.Folder"; "containers._Container"; "features._Feature"; "mixins.TimeMixin"; "kml_base._BaseObject"; "base._XMLObject"]
  "Folder" "kml"
  []
  [("id", COrEmpty); ("target_id", COrEmpty); ("name", CClean); ("description", CClean); ("style_url", CRaw); ("styles", CListTruthy); ("view", CRaw); ("visibility", CRaw); ("isopen", CRaw); ("snippet", CRaw); ("atom_author", CRaw); ("atom_link", CRaw); ("address", CClean); ("phone_number", CClean); ("region", CRaw); ("extended_data", CRaw); ("times", CRaw); ("features", CListTruthy)]
  ["address"; "atom_author"; "atom_link"; "description"; "extended_data"; "features"; "id"; "isopen"; "name"; "phone_number"; "region"; "snippet"; "style_url"; "styles"; "target_id"; "times"; "view"; "visibility"]
  true BTrue GkNone false.

(** containers.py:180-326; attributes kml_base.py:94/95, features.py:294/295/296/297/298/299/300/301/302/303/304/305/306/307/308, containers.py:131, containers.py:272 *)
Definition cl_containers_Document : class_info := mkCls
  ["containers.Document"; "containers._Container"; "features._Feature"; "mixins.TimeMixin"; "kml_base._BaseObject"; "base._XMLObject"]
  "Document" "kml"
  []
  [("id", COrEmpty); ("target_id", COrEmpty); ("name", CClean); ("description", CClean); ("style_url", CRaw); ("styles", CListTruthy); ("view", CRaw); ("visibility", CRaw); ("isopen", CRaw); ("snippet", CRaw); ("atom_author", CRaw); ("atom_link", CRaw); ("address", CClean); ("phone_number", CClean); ("region", CRaw); ("extended_data", CRaw); ("times", CRaw); ("features", CListTruthy); ("schemata", CListTruthy)]
  ["address"; "atom_author"; "atom_link"; "description"; "extended_data"; "features"; "id"; "isopen"; "name"; "phone_number"; "region"; "schemata"; "snippet"; "style_url"; "styles"; "target_id"; "times"; "view"; "visibility"]
  true BTrue GkNone false.

(** data.py:60-154; attributes data.py:121/122/123; __bool__ data.py:145-154 *)
Definition cl_data_SimpleField : class_info := mkCls
  ["data.SimpleField"; "base._XMLObject"]
  "SimpleField" "kml"
  []
  [("name", CClean); ("type_", COrNone); ("display_name", CClean)]
  ["display_name"; "name"; "type_"]
  true (BAnd (BAttr "name") (BAttr "type_")) GkNone false.

(** data.py:192-286; attributes data.py:251/252/253 *)
Definition cl_data_Schema : class_info := mkCls
  ["data.Schema"; "base._XMLObject"]
  "Schema" "kml"
  []
  [("name", CClean); ("fields", CListTruthy); ("id", CCleanReq)]
  ["fields"; "id"; "name"]
  true BTrue GkNone false.

(** data.py:324-406; attributes kml_base.py:94/95, data.py:369/370/371; __bool__ data.py:396-406 *)
Definition cl_data_Data : class_info := mkCls
  ["data.Data"; "kml_base._BaseObject"; "base._XMLObject"]
  "Data" "kml"
  []
  [("id", COrEmpty); ("target_id", COrEmpty); ("name", CClean); ("value", CClean); ("display_name", CClean)]
  ["display_name"; "id"; "name"; "target_id"; "value"]
  true (BAnd (BAttr "name") (BAttr "value")) GkNone false.

(** data.py:444-515; attributes data.py:484/485; __bool__ data.py:506-515 *)
Definition cl_data_SimpleData : class_info := mkCls
  ["data.SimpleData"; "base._XMLObject"]
  "SimpleData" "kml"
  []
  [("name", CClean); ("value", CClean)]
  ["name"; "value"]
  true (BAnd (BAttr "name") (BAttr "value")) GkNone false.

(** data.py:542-630; attributes kml_base.py:94/95, data.py:592/593; __bool__ data.py:609-619 *)
Definition cl_data_SchemaData : class_info := mkCls
  ["data.SchemaData"; "kml_base._BaseObject"; "base._XMLObject"]
  "SchemaData" "kml"
  []
  [("id", COrEmpty); ("target_id", COrEmpty); ("schema_url", CClean); ("data", CListTruthy)]
  ["data"; "id"; "schema_url"; "target_id"]
  true (BAnd (BAttr "data") (BAttr "schema_url")) GkNone false.

(** data.py:657-722; attributes data.py:692; __bool__ data.py:712-722 *)
Definition cl_data_ExtendedData : class_info := mkCls
  ["data.ExtendedData"; "base._XMLObject"]
  "ExtendedData" "kml"
  []
  [("elements", CFilter)]
  ["elements"]
  true (BAttr "elements") GkNone false.

(** features.py:89-173; attributes features.py:141/142; __bool__ features.py:163-173 *)
Definition cl_features_Snippet : class_info := mkCls
  ["features.Snippet"; "base._XMLObject"]
  "Snippet" "kml"
  []
  [("text", CClean); ("max_lines", CRaw)]
  ["max_lines"; "text"]
  true (BAttr "text") GkNone false.

(** features.py:201-308; attributes kml_base.py:94/95, features.py:294/295/296/297/298/299/300/301/302/303/304/305/306/307/308 *)
Definition cl_features__Feature : class_info := mkCls
  ["features._Feature"; "mixins.TimeMixin"; "kml_base._BaseObject"; "base._XMLObject"]
  "_Feature" "kml"
  []
  [("id", COrEmpty); ("target_id", COrEmpty); ("name", CClean); ("description", CClean); ("style_url", CRaw); ("styles", CListTruthy); ("view", CRaw); ("visibility", CRaw); ("isopen", CRaw); ("snippet", CRaw); ("atom_author", CRaw); ("atom_link", CRaw); ("address", CClean); ("phone_number", CClean); ("region", CRaw); ("extended_data", CRaw); ("times", CRaw)]
  ["address"; "atom_author"; "atom_link"; "description"; "extended_data"; "id"; "isopen"; "name"; "phone_number"; "region"; "snippet"; "style_url"; "styles"; "target_id"; "times"; "view"; "visibility"]
  true BTrue GkNone false.

(** features.py:489-661; attributes kml_base.py:94/95, features.py:294/295/296/297/298/299/300/301/302/303/304/305/306/307/308, features.py:613; geometry features.py:651-661 *)
Definition cl_features_Placemark : class_info := mkCls
  ["features.Placemark"; "features._Feature"; "mixins.TimeMixin"; "kml_base._BaseObject"; "base._XMLObject"]
  "Placemark" "kml"
  []
  [("id", COrEmpty); ("target_id", COrEmpty); ("name", CClean); ("description", CClean); ("style_url", CRaw); ("styles", CListTruthy); ("view", CRaw); ("visibility", CRaw); ("isopen", CRaw); ("snippet", CRaw); ("atom_author", CRaw); ("atom_link", CRaw); ("address", CClean); ("phone_number", CClean); ("region", CRaw); ("extended_data", CRaw); ("times", CRaw); ("kml_geometry", CRaw)]
  ["address"; "atom_author"; "atom_link"; "description"; "extended_data"; "geometry"; "id"; "isopen"; "kml_geometry"; "name"; "phone_number"; "region"; "snippet"; "style_url"; "styles"; "target_id"; "times"; "view"; "visibility"]
  true BTrue GkPlacemark false.

(** features.py:689-891; attributes kml_base.py:94/95, features.py:294/295/296/297/298/299/300/301/302/303/304/305/306/307/308, features.py:840/841/842; __bool__ features.py:881-891 *)
Definition cl_features_NetworkLink : class_info := mkCls
  ["features.NetworkLink"; "features._Feature"; "mixins.TimeMixin"; "kml_base._BaseObject"; "base._XMLObject"]
  "NetworkLink" "kml"
  []
  [("id", COrEmpty); ("target_id", COrEmpty); ("name", CClean); ("description", CClean); ("style_url", CRaw); ("styles", CListTruthy); ("view", CRaw); ("visibility", CRaw); ("isopen", CRaw); ("snippet", CRaw); ("atom_author", CRaw); ("atom_link", CRaw); ("address", CClean); ("phone_number", CClean); ("region", CRaw); ("extended_data", CRaw); ("times", CRaw); ("refresh_visibility", CRaw); ("fly_to_view", CRaw); ("link", CRaw)]
  ["address"; "atom_author"; "atom_link"; "description"; "extended_data"; "fly_to_view"; "id"; "isopen"; "link"; "name"; "phone_number"; "refresh_visibility"; "region"; "snippet"; "style_url"; "styles"; "target_id"; "times"; "view"; "visibility"]
  true (BAttr "link") GkNone false.

(** geometry.py:228-297; attributes geometry.py:269; __bool__ geometry.py:282-292 *)
Definition cl_geometry_Coordinates : class_info := mkCls
  ["geometry.Coordinates"; "base._XMLObject"]
  "coordinates" "kml"
  []
  [("coords", CCoordsOr)]
  ["coords"]
  true (BAttr "coords") GkNone false.

(** geometry.py:313-361; attributes kml_base.py:94/95, geometry.py:361 *)
Definition cl_geometry__Geometry : class_info := mkCls
  ["geometry._Geometry"; "kml_base._BaseObject"; "base._XMLObject"]
  "_Geometry" "kml"
  []
  [("id", COrEmpty); ("target_id", COrEmpty); ("altitude_mode", CRaw)]
  ["altitude_mode"; "id"; "target_id"]
  true BTrue GkNone false.

(** geometry.py:364-498; attributes geometry.py:422/423, kml_base.py:94/95, geometry.py:361; __bool__ geometry.py:456-465; geometry geometry.py:483-498 *)
Definition cl_geometry_Point : class_info := mkCls
  ["geometry.Point"; "geometry._Geometry"; "kml_base._BaseObject"; "base._XMLObject"]
  "Point" "kml"
  [("kml_coordinates", CRaw); ("extrude", CRaw)]
  [("id", COrEmpty); ("target_id", COrEmpty); ("altitude_mode", CRaw)]
  ["altitude_mode"; "extrude"; "geometry"; "id"; "kml_coordinates"; "target_id"; "tessellate"]
  true BGeometry GkPoint false.

(** geometry.py:538-665; attributes geometry.py:595/596/597, kml_base.py:94/95, geometry.py:361; __bool__ geometry.py:623-632; geometry geometry.py:650-665 *)
Definition cl_geometry_LineString : class_info := mkCls
  ["geometry.LineString"; "geometry._Geometry"; "kml_base._BaseObject"; "base._XMLObject"]
  "LineString" "kml"
  [("kml_coordinates", CRaw); ("extrude", CRaw); ("tessellate", CRaw)]
  [("id", COrEmpty); ("target_id", COrEmpty); ("altitude_mode", CRaw)]
  ["altitude_mode"; "extrude"; "geometry"; "id"; "kml_coordinates"; "target_id"; "tessellate"]
  true BGeometry GkLine false.

(** geometry.py:717-805; attributes geometry.py:595/596/597, kml_base.py:94/95, geometry.py:361; __bool__ geometry.py:623-632; geometry geometry.py:787-805 *)
Definition cl_geometry_LinearRing : class_info := mkCls
  ["geometry.LinearRing"; "geometry.LineString"; "geometry._Geometry"; "kml_base._BaseObject"; "base._XMLObject"]
  "LinearRing" "kml"
  [("kml_coordinates", CRaw); ("extrude", CRaw); ("tessellate", CRaw)]
  [("id", COrEmpty); ("target_id", COrEmpty); ("altitude_mode", CRaw)]
  ["altitude_mode"; "extrude"; "geometry"; "id"; "kml_coordinates"; "target_id"; "tessellate"]
  true BGeometry GkRing false.

(** geometry.py:808-907; attributes geometry.py:866; __bool__ geometry.py:873-883; geometry geometry.py:897-907 *)
Definition cl_geometry_BoundaryIs : class_info := mkCls
  ["geometry.BoundaryIs"; "base._XMLObject"]
  "BoundaryIs" "kml"
  [("kml_geometry", CRaw)]
  []
  ["geometry"; "kml_geometry"]
  true BGeometry GkBoundary false.

(** geometry.py:910-924; attributes geometry.py:866; __bool__ geometry.py:873-883; geometry geometry.py:897-907 *)
Definition cl_geometry_OuterBoundaryIs : class_info := mkCls
  ["geometry.OuterBoundaryIs"; "geometry.BoundaryIs"; "base._XMLObject"]
  "outerBoundaryIs" "kml"
  [("kml_geometry", CRaw)]
  []
  ["geometry"; "kml_geometry"]
  true BGeometry GkBoundary false.

(** geometry.py:927-933; attributes geometry.py:866; __bool__ geometry.py:873-883; geometry geometry.py:897-907 *)
Definition cl_geometry_InnerBoundaryIs : class_info := mkCls
  ["geometry.InnerBoundaryIs"; "geometry.BoundaryIs"; "base._XMLObject"]
  "innerBoundaryIs" "kml"
  [("kml_geometry", CRaw)]
  []
  ["geometry"; "kml_geometry"]
  true BGeometry GkBoundary false.

(** geometry.py:949-1131; attributes geometry.py:1043/1044/1045/1046, kml_base.py:94/95, geometry.py:361; __bool__ geometry.py:1056-1066; geometry geometry.py:1069-1092 *)
Definition cl_geometry_Polygon : class_info := mkCls
  ["geometry.Polygon"; "geometry._Geometry"; "kml_base._BaseObject"; "base._XMLObject"]
  "Polygon" "kml"
  [("outer_boundary", CRaw); ("inner_boundaries", CListTruthy); ("extrude", CRaw); ("tessellate", CRaw)]
  [("id", COrEmpty); ("target_id", COrEmpty); ("altitude_mode", CRaw)]
  ["altitude_mode"; "extrude"; "geometry"; "id"; "inner_boundaries"; "outer_boundary"; "target_id"; "tessellate"]
  true (BAttr "outer_boundary") GkPolygon false.

(** geometry.py:1228-1341; attributes geometry.py:1310, kml_base.py:94/95; __bool__ geometry.py:1319-1321; geometry geometry.py:1337-1341 *)
Definition cl_geometry_MultiGeometry : class_info := mkCls
  ["geometry.MultiGeometry"; "kml_base._BaseObject"; "base._XMLObject"]
  "MultiGeometry" "kml"
  [("kml_geometries", CListTruthy)]
  [("id", COrEmpty); ("target_id", COrEmpty)]
  ["altitude_mode"; "extrude"; "geometry"; "id"; "kml_geometries"; "target_id"; "tessellate"]
  true BGeometry GkMulti false.

(** gx.py:184-371; attributes gx.py:271/272, kml_base.py:94/95, geometry.py:361; __bool__ gx.py:361-371; geometry gx.py:306-316 *)
Definition cl_gx_Track : class_info := mkCls
  ["gx.Track"; "geometry._Geometry"; "kml_base._BaseObject"; "base._XMLObject"]
  "Track" "gx"
  [("track_items", CTrack); ("extended_data", CRaw)]
  [("id", COrEmpty); ("target_id", COrEmpty); ("altitude_mode", CRaw)]
  ["altitude_mode"; "angles"; "coords"; "extended_data"; "id"; "target_id"; "track_items"; "whens"]
  true (BAttr "track_items") GkTrack false.

(** gx.py:453-555; attributes gx.py:507/508, kml_base.py:94/95, geometry.py:361; __bool__ gx.py:545-555; geometry gx.py:534-543 *)
Definition cl_gx_MultiTrack : class_info := mkCls
  ["gx.MultiTrack"; "geometry._Geometry"; "kml_base._BaseObject"; "base._XMLObject"]
  "MultiTrack" "gx"
  [("tracks", CFilter); ("interpolate", CRaw)]
  [("id", COrEmpty); ("target_id", COrEmpty); ("altitude_mode", CRaw)]
  ["altitude_mode"; "id"; "interpolate"; "target_id"; "tracks"]
  true (BAttr "tracks") GkMultiTrack false.

(** kml.py:111-290; attributes kml.py:137 *)
Definition cl_kml_KML : class_info := mkCls
  ["kml.KML"; "base._XMLObject"]
  "kml" "kml"
  []
  [("features", CListNotNone)]
  ["features"]
  true BTrue GkNone true.

(** kml_base.py:47-114; attributes kml_base.py:94/95 *)
Definition cl_kml_base__BaseObject : class_info := mkCls
  ["kml_base._BaseObject"; "base._XMLObject"]
  "_BaseObject" "kml"
  []
  [("id", COrEmpty); ("target_id", COrEmpty)]
  ["id"; "target_id"]
  true BTrue GkNone false.

(** links.py:38-123; attributes kml_base.py:94/95, links.py:84/85/86/87/88/89/90/91; __bool__ links.py:113-123 *)
Definition cl_links_Link : class_info := mkCls
  ["links.Link"; "kml_base._BaseObject"; "base._XMLObject"]
  "Link" "kml"
  []
  [("id", COrEmpty); ("target_id", COrEmpty); ("href", CClean); ("refresh_mode", CRaw); ("refresh_interval", CRaw); ("view_refresh_mode", CRaw); ("view_refresh_time", CRaw); ("view_bound_scale", CRaw); ("view_format", CClean); ("http_query", CClean)]
  ["href"; "http_query"; "id"; "refresh_interval"; "refresh_mode"; "target_id"; "view_bound_scale"; "view_format"; "view_refresh_mode"; "view_refresh_time"]
  true (BAttr "href") GkNone false.

(** links.py:222-239; attributes kml_base.py:94/95, links.py:84/85/86/87/88/89/90/91; __bool__ links.py:113-123 *)
Definition cl_links_Icon : class_info := mkCls
  ["links.Icon"; "links.Link"; "kml_base._BaseObject"; "base._XMLObject"]
  "Icon" "kml"
  []
  [("id", COrEmpty); ("target_id", COrEmpty); ("href", CClean); ("refresh_mode", CRaw); ("refresh_interval", CRaw); ("view_refresh_mode", CRaw); ("view_refresh_time", CRaw); ("view_bound_scale", CRaw); ("view_format", CClean); ("http_query", CClean)]
  ["href"; "http_query"; "id"; "refresh_interval"; "refresh_mode"; "target_id"; "view_bound_scale"; "view_format"; "view_refresh_mode"; "view_refresh_time"]
  true (BAttr "href") GkNone false.

(** model.py:56-104; attributes model.py:76/77/78; __bool__ model.py:80-82; geometry model.py:98-104 *)
Definition cl_model_Location : class_info := mkCls
  ["model.Location"; "base._XMLObject"]
  "Location" "kml"
  []
  [("altitude", CRaw); ("latitude", CRaw); ("longitude", CRaw)]
  ["altitude"; "latitude"; "longitude"]
  true (BAnd (BNotNone "latitude") (BNotNone "longitude")) GkLocation false.

(** model.py:143-184; attributes model.py:163/164/165; __bool__ model.py:167-171 *)
Definition cl_model_Orientation : class_info := mkCls
  ["model.Orientation"; "base._XMLObject"]
  "Orientation" "kml"
  []
  [("heading", CRaw); ("tilt", CRaw); ("roll", CRaw)]
  ["heading"; "roll"; "tilt"]
  true (BOr (BNotNone "heading") (BOr (BNotNone "tilt") (BNotNone "roll"))) GkNone false.

(** model.py:225-264; attributes model.py:245/246/247; __bool__ model.py:249-251 *)
Definition cl_model_Scale : class_info := mkCls
  ["model.Scale"; "base._XMLObject"]
  "Scale" "kml"
  []
  [("x", CRaw); ("y", CRaw); ("z", CRaw)]
  ["x"; "y"; "z"]
  true (BOr (BNotNone "x") (BOr (BNotNone "y") (BNotNone "z"))) GkNone false.

(** model.py:305-340; attributes model.py:323/324; __bool__ model.py:326-328 *)
Definition cl_model_Alias : class_info := mkCls
  ["model.Alias"; "base._XMLObject"]
  "Alias" "kml"
  []
  [("target_href", CClean); ("source_href", CClean)]
  ["source_href"; "target_href"]
  true (BOr (BNotNone "target_href") (BNotNone "source_href")) GkNone false.

(** model.py:367-398; attributes model.py:383; __bool__ model.py:385-387 *)
Definition cl_model_ResourceMap : class_info := mkCls
  ["model.ResourceMap"; "base._XMLObject"]
  "ResourceMap" "kml"
  []
  [("aliases", CListNotNone)]
  ["aliases"]
  true (BAttr "aliases") GkNone false.

(** model.py:414-478; attributes kml_base.py:94/95, model.py:446/447/448/449/450/451; __bool__ model.py:453-455; geometry model.py:476-478 *)
Definition cl_model_Model : class_info := mkCls
  ["model.Model"; "kml_base._BaseObject"; "base._XMLObject"]
  "Model" "kml"
  []
  [("id", COrEmpty); ("target_id", COrEmpty); ("altitude_mode", CRaw); ("location", CRaw); ("orientation", CRaw); ("scale", CRaw); ("link", CRaw); ("resource_map", CRaw)]
  ["altitude_mode"; "id"; "link"; "location"; "orientation"; "resource_map"; "scale"; "target_id"]
  true (BAnd (BAttr "link") (BAttr "location")) GkModel false.

(** network_link_control.py:54-155; attributes network_link_control.py:121/122/123/124/125/126/127/128/129 *)
Definition cl_network_link_control_NetworkLinkControl : class_info := mkCls
  ["network_link_control.NetworkLinkControl"; "base._XMLObject"]
  "NetworkLinkControl" "kml"
  []
  [("min_refresh_period", CRaw); ("max_session_length", CRaw); ("cookie", CClean); ("message", CClean); ("link_name", CClean); ("link_description", CClean); ("link_snippet", CClean); ("expires", CRaw); ("view", CRaw)]
  ["cookie"; "expires"; "link_description"; "link_name"; "link_snippet"; "max_session_length"; "message"; "min_refresh_period"; "view"]
  true BTrue GkNone false.

(** overlays.py:94-226; attributes kml_base.py:94/95, features.py:294/295/296/297/298/299/300/301/302/303/304/305/306/307/308, overlays.py:224/225/226 *)
Definition cl_overlays__Overlay : class_info := mkCls
  ["overlays._Overlay"; "features._Feature"; "mixins.TimeMixin"; "kml_base._BaseObject"; "base._XMLObject"]
  "_Overlay" "kml"
  []
  [("id", COrEmpty); ("target_id", COrEmpty); ("name", CClean); ("description", CClean); ("style_url", CRaw); ("styles", CListTruthy); ("view", CRaw); ("visibility", CRaw); ("isopen", CRaw); ("snippet", CRaw); ("atom_author", CRaw); ("atom_link", CRaw); ("address", CClean); ("phone_number", CClean); ("region", CRaw); ("extended_data", CRaw); ("times", CRaw); ("icon", CRaw); ("color", CClean); ("draw_order", CRaw)]
  ["address"; "atom_author"; "atom_link"; "color"; "description"; "draw_order"; "extended_data"; "icon"; "id"; "isopen"; "name"; "phone_number"; "region"; "snippet"; "style_url"; "styles"; "target_id"; "times"; "view"; "visibility"]
  false BTrue GkNone false.

(** overlays.py:266-377; attributes overlays.py:339/340/341/342/343; __bool__ overlays.py:360-377 *)
Definition cl_overlays_ViewVolume : class_info := mkCls
  ["overlays.ViewVolume"; "base._XMLObject"]
  "ViewVolume" "kml"
  []
  [("left_fov", CRaw); ("right_fov", CRaw); ("bottom_fov", CRaw); ("top_fov", CRaw); ("near", CRaw)]
  ["bottom_fov"; "left_fov"; "near"; "right_fov"; "top_fov"]
  true (BAnd (BNotNone "left_fov") (BAnd (BNotNone "right_fov") (BAnd (BNotNone "bottom_fov") (BAnd (BNotNone "top_fov") (BNotNone "near"))))) GkNone false.

(** overlays.py:442-547; attributes overlays.py:519/520/521/522; __bool__ overlays.py:538-547 *)
Definition cl_overlays_ImagePyramid : class_info := mkCls
  ["overlays.ImagePyramid"; "base._XMLObject"]
  "ImagePyramid" "kml"
  []
  [("tile_size", CRaw); ("max_width", CRaw); ("max_height", CRaw); ("grid_origin", CRaw)]
  ["grid_origin"; "max_height"; "max_width"; "tile_size"]
  true (BAnd (BNotNone "max_width") (BNotNone "max_height")) GkNone false.

(** overlays.py:598-818; attributes kml_base.py:94/95, features.py:294/295/296/297/298/299/300/301/302/303/304/305/306/307/308, overlays.py:224/225/226, overlays.py:779/780/781/782/783 *)
Definition cl_overlays_PhotoOverlay : class_info := mkCls
  ["overlays.PhotoOverlay"; "overlays._Overlay"; "features._Feature"; "mixins.TimeMixin"; "kml_base._BaseObject"; "base._XMLObject"]
  "PhotoOverlay" "kml"
  []
  [("id", COrEmpty); ("target_id", COrEmpty); ("name", CClean); ("description", CClean); ("style_url", CRaw); ("styles", CListTruthy); ("view", CRaw); ("visibility", CRaw); ("isopen", CRaw); ("snippet", CRaw); ("atom_author", CRaw); ("atom_link", CRaw); ("address", CClean); ("phone_number", CClean); ("region", CRaw); ("extended_data", CRaw); ("times", CRaw); ("icon", CRaw); ("color", CClean); ("draw_order", CRaw); ("rotation", CRaw); ("view_volume", CRaw); ("image_pyramid", CRaw); ("point", CRaw); ("shape", CRaw)]
  ["address"; "atom_author"; "atom_link"; "color"; "description"; "draw_order"; "extended_data"; "icon"; "id"; "image_pyramid"; "isopen"; "name"; "phone_number"; "point"; "region"; "rotation"; "shape"; "snippet"; "style_url"; "styles"; "target_id"; "times"; "view"; "view_volume"; "visibility"]
  false BTrue GkNone false.

(** overlays.py:880-989; attributes overlays.py:952/953/954/955/956; __bool__ overlays.py:973-989 *)
Definition cl_overlays_LatLonBox : class_info := mkCls
  ["overlays.LatLonBox"; "base._XMLObject"]
  "LatLonBox" "kml"
  []
  [("north", CRaw); ("south", CRaw); ("east", CRaw); ("west", CRaw); ("rotation", CRaw)]
  ["east"; "north"; "rotation"; "south"; "west"]
  true (BAnd (BNotNone "north") (BAnd (BNotNone "south") (BAnd (BNotNone "east") (BNotNone "west")))) GkNone false.

(** overlays.py:1050-1238; attributes kml_base.py:94/95, features.py:294/295/296/297/298/299/300/301/302/303/304/305/306/307/308, overlays.py:224/225/226, overlays.py:1203/1204/1205 *)
Definition cl_overlays_GroundOverlay : class_info := mkCls
  ["overlays.GroundOverlay"; "overlays._Overlay"; "features._Feature"; "mixins.TimeMixin"; "kml_base._BaseObject"; "base._XMLObject"]
  "GroundOverlay" "kml"
  []
  [("id", COrEmpty); ("target_id", COrEmpty); ("name", CClean); ("description", CClean); ("style_url", CRaw); ("styles", CListTruthy); ("view", CRaw); ("visibility", CRaw); ("isopen", CRaw); ("snippet", CRaw); ("atom_author", CRaw); ("atom_link", CRaw); ("address", CClean); ("phone_number", CClean); ("region", CRaw); ("extended_data", CRaw); ("times", CRaw); ("icon", CRaw); ("color", CClean); ("draw_order", CRaw); ("altitude", CRaw); ("altitude_mode", CRaw); ("lat_lon_box", CRaw)]
  ["address"; "altitude"; "altitude_mode"; "atom_author"; "atom_link"; "color"; "description"; "draw_order"; "extended_data"; "icon"; "id"; "isopen"; "lat_lon_box"; "name"; "phone_number"; "region"; "snippet"; "style_url"; "styles"; "target_id"; "times"; "view"; "visibility"]
  false BTrue GkNone false.

(** overlays.py:1278-1349; attributes overlays.py:1321/1322/1323/1324; __bool__ overlays.py:1340-1349 *)
Definition cl_overlays__XY : class_info := mkCls
  ["overlays._XY"; "base._XMLObject"]
  "_XY" "kml"
  []
  [("x", CRaw); ("y", CRaw); ("x_units", CRaw); ("y_units", CRaw)]
  ["x"; "x_units"; "y"; "y_units"]
  true (BAnd (BNotNone "x") (BNotNone "y")) GkNone false.

(** overlays.py:1400-1406; attributes overlays.py:1321/1322/1323/1324; __bool__ overlays.py:1340-1349 *)
Definition cl_overlays_OverlayXY : class_info := mkCls
  ["overlays.OverlayXY"; "overlays._XY"; "base._XMLObject"]
  "overlayXY" "kml"
  []
  [("x", CRaw); ("y", CRaw); ("x_units", CRaw); ("y_units", CRaw)]
  ["x"; "x_units"; "y"; "y_units"]
  true (BAnd (BNotNone "x") (BNotNone "y")) GkNone false.

(** overlays.py:1409-1415; attributes overlays.py:1321/1322/1323/1324; __bool__ overlays.py:1340-1349 *)
Definition cl_overlays_ScreenXY : class_info := mkCls
  ["overlays.ScreenXY"; "overlays._XY"; "base._XMLObject"]
  "screenXY" "kml"
  []
  [("x", CRaw); ("y", CRaw); ("x_units", CRaw); ("y_units", CRaw)]
  ["x"; "x_units"; "y"; "y_units"]
  true (BAnd (BNotNone "x") (BNotNone "y")) GkNone false.

(** overlays.py:1418-1424; attributes overlays.py:1321/1322/1323/1324; __bool__ overlays.py:1340-1349 *)
Definition cl_overlays_RotationXY : class_info := mkCls
  ["overlays.RotationXY"; "overlays._XY"; "base._XMLObject"]
  "rotationXY" "kml"
  []
  [("x", CRaw); ("y", CRaw); ("x_units", CRaw); ("y_units", CRaw)]
  ["x"; "x_units"; "y"; "y_units"]
  true (BAnd (BNotNone "x") (BNotNone "y")) GkNone false.

(** overlays.py:1427-1433; attributes overlays.py:1321/1322/1323/1324; __bool__ overlays.py:1340-1349 *)
Definition cl_overlays_Size : class_info := mkCls
  ["overlays.Size"; "overlays._XY"; "base._XMLObject"]
  "size" "kml"
  []
  [("x", CRaw); ("y", CRaw); ("x_units", CRaw); ("y_units", CRaw)]
  ["x"; "x_units"; "y"; "y_units"]
  true (BAnd (BNotNone "x") (BNotNone "y")) GkNone false.

(** overlays.py:1436-1619; attributes kml_base.py:94/95, features.py:294/295/296/297/298/299/300/301/302/303/304/305/306/307/308, overlays.py:224/225/226, overlays.py:1580/1581/1582/1583/1584 *)
Definition cl_overlays_ScreenOverlay : class_info := mkCls
  ["overlays.ScreenOverlay"; "overlays._Overlay"; "features._Feature"; "mixins.TimeMixin"; "kml_base._BaseObject"; "base._XMLObject"]
  "ScreenOverlay" "kml"
  []
  [("id", COrEmpty); ("target_id", COrEmpty); ("name", CClean); ("description", CClean); ("style_url", CRaw); ("styles", CListTruthy); ("view", CRaw); ("visibility", CRaw); ("isopen", CRaw); ("snippet", CRaw); ("atom_author", CRaw); ("atom_link", CRaw); ("address", CClean); ("phone_number", CClean); ("region", CRaw); ("extended_data", CRaw); ("times", CRaw); ("icon", CRaw); ("color", CClean); ("draw_order", CRaw); ("overlay_xy", CRaw); ("screen_xy", CRaw); ("rotation_xy", CRaw); ("size", CRaw); ("rotation", CRaw)]
  ["address"; "atom_author"; "atom_link"; "color"; "description"; "draw_order"; "extended_data"; "icon"; "id"; "isopen"; "name"; "overlay_xy"; "phone_number"; "region"; "rotation"; "rotation_xy"; "screen_xy"; "size"; "snippet"; "style_url"; "styles"; "target_id"; "times"; "view"; "visibility"]
  false BTrue GkNone false.

(** styles.py:79-153; attributes styles.py:125; __bool__ styles.py:138-148 *)
Definition cl_styles_StyleUrl : class_info := mkCls
  ["styles.StyleUrl"; "base._XMLObject"]
  "styleUrl" "kml"
  []
  [("url", CClean)]
  ["url"]
  true (BAttr "url") GkNone false.

(** styles.py:169-179; attributes kml_base.py:94/95 *)
Definition cl_styles__StyleSelector : class_info := mkCls
  ["styles._StyleSelector"; "kml_base._BaseObject"; "base._XMLObject"]
  "_StyleSelector" "kml"
  []
  [("id", COrEmpty); ("target_id", COrEmpty)]
  ["id"; "target_id"]
  true BTrue GkNone false.

(** styles.py:182-239; attributes kml_base.py:94/95, styles.py:238/239 *)
Definition cl_styles__ColorStyle : class_info := mkCls
  ["styles._ColorStyle"; "kml_base._BaseObject"; "base._XMLObject"]
  "_ColorStyle" "kml"
  []
  [("id", COrEmpty); ("target_id", COrEmpty); ("color", CClean); ("color_mode", CRaw)]
  ["color"; "color_mode"; "id"; "target_id"]
  true BTrue GkNone false.

(** styles.py:268-355; attributes styles.py:322/323/324/325; __bool__ styles.py:341-350 *)
Definition cl_styles_HotSpot : class_info := mkCls
  ["styles.HotSpot"; "base._XMLObject"]
  "hotSpot" "kml"
  []
  [("x", CRaw); ("y", CRaw); ("xunits", CRaw); ("yunits", CRaw)]
  ["x"; "xunits"; "y"; "yunits"]
  true BTrue GkNone false.

(** styles.py:408-523; attributes kml_base.py:94/95, styles.py:238/239, styles.py:478/479/487/488; __bool__ styles.py:508-518 *)
Definition cl_styles_IconStyle : class_info := mkCls
  ["styles.IconStyle"; "styles._ColorStyle"; "kml_base._BaseObject"; "base._XMLObject"]
  "IconStyle" "kml"
  []
  [("id", COrEmpty); ("target_id", COrEmpty); ("color", CClean); ("color_mode", CRaw); ("scale", CRaw); ("heading", CRaw); ("icon", CRaw); ("hot_spot", CRaw)]
  ["color"; "color_mode"; "heading"; "hot_spot"; "icon"; "icon_href"; "id"; "scale"; "target_id"]
  true (BAttr "icon") GkNone false.

(** styles.py:574-656; attributes kml_base.py:94/95, styles.py:238/239, styles.py:626; __bool__ styles.py:643-656 *)
Definition cl_styles_LineStyle : class_info := mkCls
  ["styles.LineStyle"; "styles._ColorStyle"; "kml_base._BaseObject"; "base._XMLObject"]
  "LineStyle" "kml"
  []
  [("id", COrEmpty); ("target_id", COrEmpty); ("color", CClean); ("color_mode", CRaw); ("width", CRaw)]
  ["color"; "color_mode"; "id"; "target_id"; "width"]
  true (BOr (BNotNone "width") (BOr (BNotNone "color") (BNotNone "color_mode"))) GkNone false.

(** styles.py:673-765; attributes kml_base.py:94/95, styles.py:238/239, styles.py:732/733; __bool__ styles.py:751-765 *)
Definition cl_styles_PolyStyle : class_info := mkCls
  ["styles.PolyStyle"; "styles._ColorStyle"; "kml_base._BaseObject"; "base._XMLObject"]
  "PolyStyle" "kml"
  []
  [("id", COrEmpty); ("target_id", COrEmpty); ("color", CClean); ("color_mode", CRaw); ("fill", CRaw); ("outline", CRaw)]
  ["color"; "color_mode"; "fill"; "id"; "outline"; "target_id"]
  true (BOr (BNotNone "fill") (BOr (BNotNone "outline") (BOr (BNotNone "color") (BNotNone "color_mode")))) GkNone false.

(** styles.py:794-879; attributes kml_base.py:94/95, styles.py:238/239, styles.py:846; __bool__ styles.py:863-879 *)
Definition cl_styles_LabelStyle : class_info := mkCls
  ["styles.LabelStyle"; "styles._ColorStyle"; "kml_base._BaseObject"; "base._XMLObject"]
  "LabelStyle" "kml"
  []
  [("id", COrEmpty); ("target_id", COrEmpty); ("color", CClean); ("color_mode", CRaw); ("scale", CRaw)]
  ["color"; "color_mode"; "id"; "scale"; "target_id"]
  true (BOr (BNotNone "scale") (BOr (BNotNone "color") (BNotNone "color_mode"))) GkNone false.

(** styles.py:896-1031; attributes kml_base.py:94/95, styles.py:989/990/991/992; __bool__ styles.py:1010-1031 *)
Definition cl_styles_BalloonStyle : class_info := mkCls
  ["styles.BalloonStyle"; "kml_base._BaseObject"; "base._XMLObject"]
  "BalloonStyle" "kml"
  []
  [("id", COrEmpty); ("target_id", COrEmpty); ("bg_color", CClean); ("text_color", CClean); ("text", CClean); ("display_mode", CRaw)]
  ["bg_color"; "display_mode"; "id"; "target_id"; "text"; "text_color"]
  true (BOr (BNotNone "bg_color") (BOr (BNotNone "text_color") (BOr (BNotNone "text") (BNotNone "display_mode")))) GkNone false.

(** styles.py:1086-1158; attributes kml_base.py:94/95, styles.py:1133; __bool__ styles.py:1148-1158 *)
Definition cl_styles_Style : class_info := mkCls
  ["styles.Style"; "styles._StyleSelector"; "kml_base._BaseObject"; "base._XMLObject"]
  "Style" "kml"
  []
  [("id", COrEmpty); ("target_id", COrEmpty); ("styles", CListTruthy)]
  ["id"; "styles"; "target_id"]
  true (BAny "styles") GkNone false.

(** styles.py:1180-1268; attributes kml_base.py:94/95, styles.py:1242/1243; __bool__ styles.py:1259-1268 *)
Definition cl_styles_Pair : class_info := mkCls
  ["styles.Pair"; "kml_base._BaseObject"; "base._XMLObject"]
  "Pair" "kml"
  []
  [("id", COrEmpty); ("target_id", COrEmpty); ("key", CRaw); ("style", CRaw)]
  ["id"; "key"; "style"; "target_id"]
  true (BAnd (BNotNone "key") (BNotNone "style")) GkNone false.

(** styles.py:1298-1401; attributes kml_base.py:94/95, styles.py:1345; __bool__ styles.py:1360-1370 *)
Definition cl_styles_StyleMap : class_info := mkCls
  ["styles.StyleMap"; "styles._StyleSelector"; "kml_base._BaseObject"; "base._XMLObject"]
  "StyleMap" "kml"
  []
  [("id", COrEmpty); ("target_id", COrEmpty); ("pairs", CListTruthy)]
  ["id"; "pairs"; "target_id"]
  true (BAttr "pairs") GkNone false.

(** times.py:221-227; attributes kml_base.py:94/95 *)
Definition cl_times__TimePrimitive : class_info := mkCls
  ["times._TimePrimitive"; "kml_base._BaseObject"; "base._XMLObject"]
  "_TimePrimitive" "kml"
  []
  [("id", COrEmpty); ("target_id", COrEmpty)]
  ["id"; "target_id"]
  true BTrue GkNone false.

(** times.py:230-293; attributes kml_base.py:94/95, times.py:276; __bool__ times.py:291-293 *)
Definition cl_times_TimeStamp : class_info := mkCls
  ["times.TimeStamp"; "times._TimePrimitive"; "kml_base._BaseObject"; "base._XMLObject"]
  "TimeStamp" "kml"
  []
  [("id", COrEmpty); ("target_id", COrEmpty); ("timestamp", CRaw)]
  ["id"; "target_id"; "timestamp"]
  true (BAttr "timestamp") GkNone false.

(** times.py:309-371; attributes kml_base.py:94/95, times.py:352/353; __bool__ times.py:369-371 *)
Definition cl_times_TimeSpan : class_info := mkCls
  ["times.TimeSpan"; "times._TimePrimitive"; "kml_base._BaseObject"; "base._XMLObject"]
  "TimeSpan" "kml"
  []
  [("id", COrEmpty); ("target_id", COrEmpty); ("begin", CRaw); ("end", CRaw)]
  ["begin"; "end"; "id"; "target_id"]
  true (BOr (BAttr "begin") (BAttr "end")) GkNone false.

(** views.py:44-150; attributes kml_base.py:94/95, views.py:145/146/147/148/149/150 *)
Definition cl_views__AbstractView : class_info := mkCls
  ["views._AbstractView"; "mixins.TimeMixin"; "kml_base._BaseObject"; "base._XMLObject"]
  "_AbstractView" "kml"
  []
  [("id", COrEmpty); ("target_id", COrEmpty); ("longitude", CRaw); ("latitude", CRaw); ("altitude", CRaw); ("heading", CRaw); ("tilt", CRaw); ("altitude_mode", CRaw)]
  ["altitude"; "altitude_mode"; "heading"; "id"; "latitude"; "longitude"; "target_id"; "tilt"]
  true BTrue GkNone false.

(** views.py:215-314; attributes kml_base.py:94/95, views.py:145/146/147/148/149/150, views.py:295 *)
Definition cl_views_Camera : class_info := mkCls
  ["views.Camera"; "views._AbstractView"; "mixins.TimeMixin"; "kml_base._BaseObject"; "base._XMLObject"]
  "Camera" "kml"
  []
  [("id", COrEmpty); ("target_id", COrEmpty); ("longitude", CRaw); ("latitude", CRaw); ("altitude", CRaw); ("heading", CRaw); ("tilt", CRaw); ("altitude_mode", CRaw); ("roll", CRaw)]
  ["altitude"; "altitude_mode"; "heading"; "id"; "latitude"; "longitude"; "roll"; "target_id"; "tilt"]
  true BTrue GkNone false.

(** views.py:343-429; attributes kml_base.py:94/95, views.py:145/146/147/148/149/150, views.py:410 *)
Definition cl_views_LookAt : class_info := mkCls
  ["views.LookAt"; "views._AbstractView"; "mixins.TimeMixin"; "kml_base._BaseObject"; "base._XMLObject"]
  "LookAt" "kml"
  []
  [("id", COrEmpty); ("target_id", COrEmpty); ("longitude", CRaw); ("latitude", CRaw); ("altitude", CRaw); ("heading", CRaw); ("tilt", CRaw); ("altitude_mode", CRaw); ("range", CRaw)]
  ["altitude"; "altitude_mode"; "heading"; "id"; "latitude"; "longitude"; "range"; "target_id"; "tilt"]
  true BTrue GkNone false.

(** views.py:457-551; attributes views.py:510/511/512/513/514/515/516; __bool__ views.py:535-551 *)
Definition cl_views_LatLonAltBox : class_info := mkCls
  ["views.LatLonAltBox"; "base._XMLObject"]
  "LatLonAltBox" "kml"
  []
  [("north", CRaw); ("south", CRaw); ("east", CRaw); ("west", CRaw); ("min_altitude", CRaw); ("max_altitude", CRaw); ("altitude_mode", CRaw)]
  ["altitude_mode"; "east"; "max_altitude"; "min_altitude"; "north"; "south"; "west"]
  true (BAnd (BNotNone "north") (BAnd (BNotNone "south") (BAnd (BNotNone "east") (BNotNone "west")))) GkNone false.

(** views.py:636-713; attributes views.py:685/686/687/688; __bool__ views.py:704-713 *)
Definition cl_views_Lod : class_info := mkCls
  ["views.Lod"; "base._XMLObject"]
  "Lod" "kml"
  []
  [("min_lod_pixels", CRaw); ("max_lod_pixels", CRaw); ("min_fade_extent", CRaw); ("max_fade_extent", CRaw)]
  ["max_fade_extent"; "max_lod_pixels"; "min_fade_extent"; "min_lod_pixels"]
  true (BNotNone "min_lod_pixels") GkNone false.

(** views.py:766-849; attributes kml_base.py:94/95, views.py:823/824; __bool__ views.py:840-849 *)
Definition cl_views_Region : class_info := mkCls
  ["views.Region"; "kml_base._BaseObject"; "base._XMLObject"]
  "Region" "kml"
  []
  [("id", COrEmpty); ("target_id", COrEmpty); ("lat_lon_alt_box", CRaw); ("lod", CRaw)]
  ["id"; "lat_lon_alt_box"; "lod"; "target_id"]
  true (BAttr "lat_lon_alt_box") GkNone false.

Definition fk_classes : list (string * class_info) :=
  [("atom._AtomObject", cl_atom__AtomObject);
   ("atom.Link", cl_atom_Link);
   ("atom._Person", cl_atom__Person);
   ("atom.Author", cl_atom_Author);
   ("atom.Contributor", cl_atom_Contributor);
   ("base._XMLObject", cl_base__XMLObject);
   ("containers._Container", cl_containers__Container);
   ("containers.Folder", cl_containers_Folder);
   ("containers.Document", cl_containers_Document);
   ("data.SimpleField", cl_data_SimpleField);
   ("data.Schema", cl_data_Schema);
   ("data.Data", cl_data_Data);
   ("data.SimpleData", cl_data_SimpleData);
   ("data.SchemaData", cl_data_SchemaData);
   ("data.ExtendedData", cl_data_ExtendedData);
   ("features.Snippet", cl_features_Snippet);
   ("features._Feature", cl_features__Feature);
   ("features.Placemark", cl_features_Placemark);
   ("features.NetworkLink", cl_features_NetworkLink);
   ("geometry.Coordinates", cl_geometry_Coordinates);
   ("geometry._Geometry", cl_geometry__Geometry);
   ("geometry.Point", cl_geometry_Point);
   ("geometry.LineString", cl_geometry_LineString);
   ("geometry.LinearRing", cl_geometry_LinearRing);
   ("geometry.BoundaryIs", cl_geometry_BoundaryIs);
   ("geometry.OuterBoundaryIs", cl_geometry_OuterBoundaryIs);
   ("geometry.InnerBoundaryIs", cl_geometry_InnerBoundaryIs);
   ("geometry.Polygon", cl_geometry_Polygon);
   ("geometry.MultiGeometry", cl_geometry_MultiGeometry);
   ("gx.Track", cl_gx_Track);
   ("gx.MultiTrack", cl_gx_MultiTrack);
   ("kml.KML", cl_kml_KML);
   ("kml_base._BaseObject", cl_kml_base__BaseObject);
   ("links.Link", cl_links_Link);
   ("links.Icon", cl_links_Icon);
   ("model.Location", cl_model_Location);
   ("model.Orientation", cl_model_Orientation);
   ("model.Scale", cl_model_Scale);
   ("model.Alias", cl_model_Alias);
   ("model.ResourceMap", cl_model_ResourceMap);
   ("model.Model", cl_model_Model);
   ("network_link_control.NetworkLinkControl", cl_network_link_control_NetworkLinkControl);
   ("overlays._Overlay", cl_overlays__Overlay);
   ("overlays.ViewVolume", cl_overlays_ViewVolume);
   ("overlays.ImagePyramid", cl_overlays_ImagePyramid);
   ("overlays.PhotoOverlay", cl_overlays_PhotoOverlay);
   ("overlays.LatLonBox", cl_overlays_LatLonBox);
   ("overlays.GroundOverlay", cl_overlays_GroundOverlay);
   ("overlays._XY", cl_overlays__XY);
   ("overlays.OverlayXY", cl_overlays_OverlayXY);
   ("overlays.ScreenXY", cl_overlays_ScreenXY);
   ("overlays.RotationXY", cl_overlays_RotationXY);
   ("overlays.Size", cl_overlays_Size);
   ("overlays.ScreenOverlay", cl_overlays_ScreenOverlay);
   ("styles.StyleUrl", cl_styles_StyleUrl);
   ("styles._StyleSelector", cl_styles__StyleSelector);
   ("styles._ColorStyle", cl_styles__ColorStyle);
   ("styles.HotSpot", cl_styles_HotSpot);
   ("styles.IconStyle", cl_styles_IconStyle);
   ("styles.LineStyle", cl_styles_LineStyle);
   ("styles.PolyStyle", cl_styles_PolyStyle);
   ("styles.LabelStyle", cl_styles_LabelStyle);
   ("styles.BalloonStyle", cl_styles_BalloonStyle);
   ("styles.Style", cl_styles_Style);
   ("styles.Pair", cl_styles_Pair);
   ("styles.StyleMap", cl_styles_StyleMap);
   ("times._TimePrimitive", cl_times__TimePrimitive);
   ("times.TimeStamp", cl_times_TimeStamp);
   ("times.TimeSpan", cl_times_TimeSpan);
   ("views._AbstractView", cl_views__AbstractView);
   ("views.Camera", cl_views_Camera);
   ("views.LookAt", cl_views_LookAt);
   ("views.LatLonAltBox", cl_views_LatLonAltBox);
   ("views.Lod", cl_views_Lod);
   ("views.Region", cl_views_Region)].

(** ** Registry: the [registry.register] calls in import order per class *)

Definition rg_atom_Link : list item := [
  (* atom.py:181-191 *)
  mkItm [""; "atom"] ["str"] "href" GAttrText SAttrText "href" VNone;
  (* atom.py:192-202 *)
  mkItm [""; "atom"] ["str"] "rel" GAttrText SAttrText "rel" VNone;
  (* atom.py:203-213 *)
  mkItm [""; "atom"] ["str"] "type" GAttrText SAttrText "type" VNone;
  (* atom.py:214-224 *)
  mkItm [""; "atom"] ["str"] "hreflang" GAttrText SAttrText "hreflang" VNone;
  (* atom.py:226-236 *)
  mkItm [""; "atom"] ["str"] "title" GAttrText SAttrText "title" VNone;
  (* atom.py:237-247 *)
  mkItm [""; "atom"] ["int"] "length" GAttrInt SAttrInt "length" VNone].

Definition rg_atom__Person : list item := [
  (* atom.py:325-335 *)
  mkItm ["atom"] ["str"] "name" GText SText "name" VNone;
  (* atom.py:336-346 *)
  mkItm ["atom"] ["str"] "uri" GText SText "uri" VNone;
  (* atom.py:347-357 *)
  mkItm ["atom"] ["str"] "email" GText SText "email" VNone].

Definition rg_containers__Container : list item := [
  (* containers.py:329-350 *)
  mkItm ["kml"; ""] ["containers.Document"; "containers.Folder"; "features.Placemark"; "overlays.GroundOverlay"; "overlays.PhotoOverlay"; "overlays.ScreenOverlay"; "features.NetworkLink"] "features" GObjs SObjs "Folder,Placemark,Document,GroundOverlay,PhotoOverlay,ScreenOverlay,NetworkLink" VNone].

Definition rg_containers_Document : list item := [
  (* containers.py:351-361 *)
  mkItm ["kml"; ""] ["data.Schema"] "schemata" GObjs SObjs "Schema" VNone].

Definition rg_data_SimpleField : list item := [
  (* data.py:157-167 *)
  mkItm ["kml"; ""] ["str"] "display_name" GText SText "displayName" VNone;
  (* data.py:168-178 *)
  mkItm [""; "kml"] ["str"] "name" GAttrText SAttrText "name" VNone;
  (* data.py:179-189 *)
  mkItm [""; "kml"] ["enums.DataType"] "type_" GAttrEnum SAttrEnum "type" VNone].

Definition rg_data_Schema : list item := [
  (* data.py:289-299 *)
  mkItm ["kml"; ""] ["str"] "id" GAttrText SAttrText "id" VNone;
  (* data.py:300-310 *)
  mkItm [""; "kml"] ["str"] "name" GAttrText SAttrText "name" VNone;
  (* data.py:311-321 *)
  mkItm ["kml"; ""] ["data.SimpleField"] "fields" GObjs SObjs "SimpleField" VNone].

Definition rg_data_Data : list item := [
  (* data.py:409-419 *)
  mkItm ["kml"; ""] ["str"] "display_name" GText SText "displayName" VNone;
  (* data.py:420-430 *)
  mkItm ["kml"; ""] ["str"] "value" GText SText "value" VNone;
  (* data.py:431-441 *)
  mkItm [""; "kml"] ["str"] "name" GAttrText SAttrText "name" VNone].

Definition rg_data_SimpleData : list item := [
  (* data.py:518-528 *)
  mkItm ["kml"; ""] ["str"] "value" GNodeText SNodeText "value" VNone;
  (* data.py:529-539 *)
  mkItm [""; "kml"] ["str"] "name" GAttrText SAttrText "name" VNone].

Definition rg_data_SchemaData : list item := [
  (* data.py:633-643 *)
  mkItm [""; "kml"] ["str"] "schema_url" GAttrText SAttrText "schemaUrl" VNone;
  (* data.py:644-654 *)
  mkItm ["kml"; ""] ["data.SimpleData"] "data" GObjs SObjs "SimpleData" VNone].

Definition rg_data_ExtendedData : list item := [
  (* data.py:725-738 *)
  mkItm ["kml"; ""] ["data.Data"; "data.SchemaData"] "elements" GObjs SObjs "Data,SchemaData" VNone].

Definition rg_features_Snippet : list item := [
  (* features.py:176-186 *)
  mkItm ["kml"; ""] ["str"] "text" GNodeText SNodeText "Snippet" VNone;
  (* features.py:187-198 *)
  mkItm [""; "kml"] ["int"] "max_lines" GAttrInt SAttrInt "maxLines" (VInt (2))].

Definition rg_features__Feature : list item := [
  (* features.py:311-321 *)
  mkItm ["kml"; ""] ["str"] "name" GText SText "name" VNone;
  (* features.py:322-333 *)
  mkItm ["kml"; ""] ["bool"] "visibility" GBool SBool "visibility" (VBool true);
  (* features.py:334-345 *)
  mkItm ["kml"; ""] ["bool"] "isopen" GBool SBool "open" (VBool false);
  (* features.py:346-356 *)
  mkItm ["atom"] ["atom.Author"] "atom_author" GObj SObj "atom:author" VNone;
  (* features.py:357-367 *)
  mkItm ["atom"] ["atom.Link"] "atom_link" GObj SObj "atom:link" VNone;
  (* features.py:368-378 *)
  mkItm ["kml"; ""] ["str"] "address" GText SText "address" VNone;
  (* features.py:379-389 *)
  mkItm ["kml"; ""] ["str"] "phone_number" GText SText "phoneNumber" VNone;
  (* features.py:390-400 *)
  mkItm ["kml"; ""] ["features.Snippet"] "snippet" GObj SObj "Snippet" VNone;
  (* features.py:401-411 *)
  mkItm ["kml"; ""] ["str"] "description" GText SText "description" VNone;
  (* features.py:412-425 *)
  mkItm ["kml"; ""] ["views.Camera"; "views.LookAt"] "view" GObj SObj "Camera,LookAt" VNone;
  (* features.py:426-439 *)
  mkItm ["kml"; ""] ["times.TimeSpan"; "times.TimeStamp"] "times" GObj SObj "TimeSpan,TimeStamp" VNone;
  (* features.py:440-450 *)
  mkItm ["kml"; ""] ["styles.StyleUrl"] "style_url" GObj SObj "styleUrl" VNone;
  (* features.py:451-464 *)
  mkItm ["kml"; ""] ["styles.Style"; "styles.StyleMap"] "styles" GObjs SObjs "Style,StyleMap" VNone;
  (* features.py:465-475 *)
  mkItm ["kml"; ""] ["views.Region"] "region" GObj SObj "region" VNone;
  (* features.py:476-486 *)
  mkItm ["kml"; ""] ["data.ExtendedData"] "extended_data" GObj SObj "ExtendedData" VNone].

Definition rg_features_Placemark : list item := [
  (* features.py:664-686 *)
  mkItm ["kml"; "gx"; ""] ["geometry.Point"; "geometry.LineString"; "geometry.LinearRing"; "geometry.Polygon"; "geometry.MultiGeometry"; "model.Model"; "gx.MultiTrack"; "gx.Track"] "kml_geometry" GObj SObj "Point,LineString,LinearRing,Polygon,MultiGeometry,Model,gx:MultiTrack,gx:Track" VNone].

Definition rg_features_NetworkLink : list item := [
  (* features.py:894-905 *)
  mkItm ["kml"; ""] ["bool"] "refresh_visibility" GBool SBool "refreshVisibility" (VBool false);
  (* features.py:906-917 *)
  mkItm ["kml"; ""] ["bool"] "fly_to_view" GBool SBool "flyToView" (VBool false);
  (* features.py:918-928 *)
  mkItm ["kml"; ""] ["links.Link"] "link" GObj SObj "Link" VNone].

Definition rg_geometry_Coordinates : list item := [
  (* geometry.py:300-310 *)
  mkItm ["kml"; ""] ["LineType"] "coords" GCoords SCoords "coordinates" VNone].

Definition rg_geometry_Point : list item := [
  (* geometry.py:501-512 *)
  mkItm ["kml"; ""] ["bool"] "extrude" GBool SBool "extrude" (VBool false);
  (* geometry.py:513-524 *)
  mkItm ["kml"; "gx"; ""] ["enums.AltitudeMode"] "altitude_mode" GEnum SEnum "altitudeMode" (VEnum "enums.AltitudeMode" (u "clampToGround"));
  (* geometry.py:525-535 *)
  mkItm ["kml"; ""] ["geometry.Coordinates"] "kml_coordinates" GObj SObj "coordinates" VNone].

Definition rg_geometry_LineString : list item := [
  (* geometry.py:668-679 *)
  mkItm ["kml"; ""] ["bool"] "extrude" GBool SBool "extrude" (VBool false);
  (* geometry.py:680-691 *)
  mkItm ["kml"; ""] ["bool"] "tessellate" GBool SBool "tessellate" (VBool false);
  (* geometry.py:692-703 *)
  mkItm ["kml"; "gx"; ""] ["enums.AltitudeMode"] "altitude_mode" GEnum SEnum "altitudeMode" (VEnum "enums.AltitudeMode" (u "clampToGround"));
  (* geometry.py:704-714 *)
  mkItm ["kml"; ""] ["geometry.Coordinates"] "kml_coordinates" GObj SObj "coordinates" VNone].

Definition rg_geometry_BoundaryIs : list item := [
  (* geometry.py:936-946 *)
  mkItm ["kml"; ""] ["geometry.LinearRing"] "kml_geometry" GObj SObj "LinearRing" VNone].

Definition rg_geometry_Polygon : list item := [
  (* geometry.py:1134-1145 *)
  mkItm ["kml"; ""] ["bool"] "extrude" GBool SBool "extrude" (VBool false);
  (* geometry.py:1146-1157 *)
  mkItm ["kml"; ""] ["bool"] "tessellate" GBool SBool "tessellate" (VBool false);
  (* geometry.py:1158-1169 *)
  mkItm ["kml"; "gx"; ""] ["enums.AltitudeMode"] "altitude_mode" GEnum SEnum "altitudeMode" (VEnum "enums.AltitudeMode" (u "clampToGround"));
  (* geometry.py:1170-1180 *)
  mkItm ["kml"; ""] ["geometry.OuterBoundaryIs"] "outer_boundary" GObj SObj "outerBoundaryIs" VNone;
  (* geometry.py:1181-1191 *)
  mkItm ["kml"; ""] ["geometry.InnerBoundaryIs"] "inner_boundaries" GObjs SObjs "innerBoundaryIs" VNone].

Definition rg_geometry_MultiGeometry : list item := [
  (* geometry.py:1344-1354 *)
  mkItm ["kml"; ""] ["geometry.Point"; "geometry.LineString"; "geometry.Polygon"; "geometry.LinearRing"; "geometry.MultiGeometry"] "kml_geometries" GObjs SObjs "(Point|LineString|Polygon|LinearRing|MultiGeometry)" VNone].

Definition rg_gx_Track : list item := [
  (* gx.py:374-385 *)
  mkItm ["gx"; "kml"; ""] ["enums.AltitudeMode"] "altitude_mode" GEnum SEnum "altitudeMode" (VEnum "enums.AltitudeMode" (u "clampToGround"));
  (* gx.py:386-396 *)
  mkItm ["kml"; "gx"; ""] ["times.KmlDateTime"] "whens" GDates SDates "when" VNone;
  (* gx.py:397-407 *)
  mkItm ["gx"; ""] ["tuple"] "coords" GCoordList SCoordList "coord" VNone;
  (* gx.py:408-419 *)
  mkItm ["gx"; ""] ["tuple"] "angles" GCoordList SCoordList "angles" (VPoint [NFloat (FFin false 0 0); NFloat (FFin false 0 0); NFloat (FFin false 0 0)]);
  (* gx.py:420-430 *)
  mkItm ["kml"; ""] ["data.ExtendedData"] "extended_data" GObj SObj "ExtendedData" VNone].

Definition rg_gx_MultiTrack : list item := [
  (* gx.py:558-569 *)
  mkItm ["gx"; "kml"] ["enums.AltitudeMode"] "altitude_mode" GEnum SEnum "altitudeMode" (VEnum "enums.AltitudeMode" (u "clampToGround"));
  (* gx.py:570-580 *)
  mkItm ["gx"] ["bool"] "interpolate" GBool SBool "interpolate" VNone;
  (* gx.py:581-591 *)
  mkItm ["gx"] ["gx.Track"] "tracks" GObjs SObjs "gx:Track" VNone].

Definition rg_kml_KML : list item := [
  (* kml.py:293-314 *)
  mkItm ["kml"] ["containers.Document"; "containers.Folder"; "features.Placemark"; "overlays.GroundOverlay"; "overlays.PhotoOverlay"; "features.NetworkLink"; "network_link_control.NetworkLinkControl"] "features" GObjs SObjs "Document,Folder,Placemark,GroundOverlay,PhotoOverlay,NetworkLink,NetworkLinkControl" VNone].

Definition rg_kml_base__BaseObject : list item := [
  (* kml_base.py:117-127 *)
  mkItm [""; "kml"] ["str"] "id" GAttrText SAttrText "id" VNone;
  (* kml_base.py:129-139 *)
  mkItm [""; "kml"] ["str"] "target_id" GAttrText SAttrText "targetId" VNone].

Definition rg_links_Link : list item := [
  (* links.py:126-136 *)
  mkItm ["kml"; ""] ["str"] "href" GText SText "href" VNone;
  (* links.py:137-148 *)
  mkItm ["kml"; ""] ["enums.RefreshMode"] "refresh_mode" GEnum SEnum "refreshMode" (VEnum "enums.RefreshMode" (u "onChange"));
  (* links.py:149-160 *)
  mkItm ["kml"; ""] ["float"] "refresh_interval" GFloat SFloat "refreshInterval" (VFloat (FFin false 4503599627370496 1024));
  (* links.py:161-172 *)
  mkItm ["kml"; ""] ["enums.ViewRefreshMode"] "view_refresh_mode" GEnum SEnum "viewRefreshMode" (VEnum "enums.ViewRefreshMode" (u "never"));
  (* links.py:173-184 *)
  mkItm ["kml"; ""] ["float"] "view_refresh_time" GFloat SFloat "viewRefreshTime" (VFloat (FFin false 4503599627370496 1024));
  (* links.py:185-196 *)
  mkItm ["kml"; ""] ["float"] "view_bound_scale" GFloat SFloat "viewBoundScale" (VFloat (FFin false 4503599627370496 1022));
  (* links.py:197-208 *)
  mkItm ["kml"; ""] ["str"] "view_format" GText SText "viewFormat" (VStr (u "BBOX=[bboxWest],[bboxSouth],[bboxEast],[bboxNorth]"));
  (* links.py:209-219 *)
  mkItm ["kml"; ""] ["str"] "http_query" GText SText "httpQuery" VNone].

Definition rg_model_Location : list item := [
  (* model.py:107-117 *)
  mkItm ["kml"; ""] ["float"] "longitude" GFloat SFloat "longitude" VNone;
  (* model.py:118-128 *)
  mkItm ["kml"; ""] ["float"] "latitude" GFloat SFloat "latitude" VNone;
  (* model.py:129-140 *)
  mkItm ["kml"; ""] ["float"] "altitude" GFloat SFloat "altitude" (VFloat (FFin false 0 0))].

Definition rg_model_Orientation : list item := [
  (* model.py:187-198 *)
  mkItm ["kml"; ""] ["float"] "heading" GFloat SFloat "heading" (VFloat (FFin false 0 0));
  (* model.py:199-210 *)
  mkItm ["kml"; ""] ["float"] "tilt" GFloat SFloat "tilt" (VFloat (FFin false 0 0));
  (* model.py:211-222 *)
  mkItm ["kml"; ""] ["float"] "roll" GFloat SFloat "roll" (VFloat (FFin false 0 0))].

Definition rg_model_Scale : list item := [
  (* model.py:267-278 *)
  mkItm ["kml"; ""] ["float"] "x" GFloat SFloat "x" (VFloat (FFin false 4503599627370496 1022));
  (* model.py:279-290 *)
  mkItm ["kml"; ""] ["float"] "y" GFloat SFloat "y" (VFloat (FFin false 4503599627370496 1022));
  (* model.py:291-302 *)
  mkItm ["kml"; ""] ["float"] "z" GFloat SFloat "z" (VFloat (FFin false 4503599627370496 1022))].

Definition rg_model_Alias : list item := [
  (* model.py:343-353 *)
  mkItm ["kml"; ""] ["str"] "target_href" GText SText "targetHref" VNone;
  (* model.py:354-364 *)
  mkItm ["kml"; ""] ["str"] "source_href" GText SText "sourceHref" VNone].

Definition rg_model_ResourceMap : list item := [
  (* model.py:401-411 *)
  mkItm ["kml"; ""] ["model.Alias"] "aliases" GObjs SObjs "Alias" VNone].

Definition rg_model_Model : list item := [
  (* model.py:481-492 *)
  mkItm ["kml"; "gx"; ""] ["enums.AltitudeMode"] "altitude_mode" GEnum SEnum "altitudeMode" (VEnum "enums.AltitudeMode" (u "clampToGround"));
  (* model.py:493-503 *)
  mkItm ["kml"; ""] ["model.Location"] "location" GObj SObj "Location" VNone;
  (* model.py:504-514 *)
  mkItm ["kml"; ""] ["model.Orientation"] "orientation" GObj SObj "Orientation" VNone;
  (* model.py:515-525 *)
  mkItm ["kml"; ""] ["model.Scale"] "scale" GObj SObj "Scale" VNone;
  (* model.py:526-536 *)
  mkItm ["kml"; ""] ["links.Link"] "link" GObj SObj "Link" VNone;
  (* model.py:537-547 *)
  mkItm ["kml"; ""] ["model.ResourceMap"] "resource_map" GObj SObj "ResourceMap" VNone].

Definition rg_network_link_control_NetworkLinkControl : list item := [
  (* network_link_control.py:158-169 *)
  mkItm ["kml"] ["float"] "min_refresh_period" GFloat SFloat "minRefreshPeriod" (VInt (0));
  (* network_link_control.py:170-181 *)
  mkItm ["kml"] ["float"] "max_session_length" GFloat SFloat "maxSessionLength" (VInt (-1));
  (* network_link_control.py:182-192 *)
  mkItm ["kml"] ["str"] "cookie" GText SText "cookie" VNone;
  (* network_link_control.py:193-203 *)
  mkItm ["kml"] ["str"] "message" GText SText "message" VNone;
  (* network_link_control.py:204-214 *)
  mkItm ["kml"] ["str"] "link_name" GText SText "linkName" VNone;
  (* network_link_control.py:215-225 *)
  mkItm ["kml"] ["str"] "link_description" GText SText "linkDescription" VNone;
  (* network_link_control.py:226-236 *)
  mkItm ["kml"] ["str"] "link_snippet" GText SText "linkSnippet" VNone;
  (* network_link_control.py:237-247 *)
  mkItm ["kml"] ["times.KmlDateTime"] "expires" GDate SDate "expires" VNone;
  (* network_link_control.py:248-261 *)
  mkItm ["kml"] ["views.Camera"; "views.LookAt"] "view" GObj SObj "Camera,LookAt" VNone].

Definition rg_overlays__Overlay : list item := [
  (* overlays.py:229-240 *)
  mkItm ["kml"; ""] ["str"] "color" GText SText "color" (VStr (u "ffffffff"));
  (* overlays.py:241-252 *)
  mkItm ["kml"; ""] ["int"] "draw_order" GInt SInt "drawOrder" (VInt (0));
  (* overlays.py:253-263 *)
  mkItm ["kml"; ""] ["links.Icon"] "icon" GObj SObj "Icon" VNone].

Definition rg_overlays_ViewVolume : list item := [
  (* overlays.py:380-391 *)
  mkItm ["kml"; ""] ["float"] "left_fov" GFloat SFloat "leftFov" (VFloat (FFin false 0 0));
  (* overlays.py:392-403 *)
  mkItm ["kml"; ""] ["float"] "right_fov" GFloat SFloat "rightFov" (VFloat (FFin false 0 0));
  (* overlays.py:404-415 *)
  mkItm ["kml"; ""] ["float"] "bottom_fov" GFloat SFloat "bottomFov" (VFloat (FFin false 0 0));
  (* overlays.py:416-427 *)
  mkItm ["kml"; ""] ["float"] "top_fov" GFloat SFloat "topFov" (VFloat (FFin false 0 0));
  (* overlays.py:428-439 *)
  mkItm ["kml"; ""] ["float"] "near" GFloat SFloat "near" (VFloat (FFin false 0 0))].

Definition rg_overlays_ImagePyramid : list item := [
  (* overlays.py:550-561 *)
  mkItm ["kml"; ""] ["int"] "tile_size" GInt SInt "tileSize" (VInt (256));
  (* overlays.py:562-572 *)
  mkItm ["kml"; ""] ["int"] "max_width" GInt SInt "maxWidth" VNone;
  (* overlays.py:573-583 *)
  mkItm ["kml"; ""] ["int"] "max_height" GInt SInt "maxHeight" VNone;
  (* overlays.py:584-595 *)
  mkItm ["kml"; ""] ["enums.GridOrigin"] "grid_origin" GEnum SEnum "gridOrigin" (VEnum "enums.GridOrigin" (u "lowerLeft"))].

Definition rg_overlays_PhotoOverlay : list item := [
  (* overlays.py:821-832 *)
  mkItm ["kml"; ""] ["float"] "rotation" GFloat SFloat "rotation" (VFloat (FFin false 0 0));
  (* overlays.py:833-843 *)
  mkItm ["kml"; ""] ["overlays.ViewVolume"] "view_volume" GObj SObj "ViewVolume" VNone;
  (* overlays.py:844-854 *)
  mkItm ["kml"; ""] ["overlays.ImagePyramid"] "image_pyramid" GObj SObj "ImagePyramid" VNone;
  (* overlays.py:855-865 *)
  mkItm ["kml"; ""] ["geometry.Point"] "point" GObj SObj "Point" VNone;
  (* overlays.py:866-877 *)
  mkItm ["kml"; ""] ["enums.Shape"] "shape" GEnum SEnum "shape" (VEnum "enums.Shape" (u "rectangle"))].

Definition rg_overlays_LatLonBox : list item := [
  (* overlays.py:992-1002 *)
  mkItm ["kml"; ""] ["float"] "north" GFloat SFloat "north" VNone;
  (* overlays.py:1003-1013 *)
  mkItm ["kml"; ""] ["float"] "south" GFloat SFloat "south" VNone;
  (* overlays.py:1014-1024 *)
  mkItm ["kml"; ""] ["float"] "east" GFloat SFloat "east" VNone;
  (* overlays.py:1025-1035 *)
  mkItm ["kml"; ""] ["float"] "west" GFloat SFloat "west" VNone;
  (* overlays.py:1036-1047 *)
  mkItm ["kml"; ""] ["float"] "rotation" GFloat SFloat "rotation" (VFloat (FFin false 0 0))].

Definition rg_overlays_GroundOverlay : list item := [
  (* overlays.py:1241-1252 *)
  mkItm ["kml"; ""] ["float"] "altitude" GFloat SFloat "altitude" (VFloat (FFin false 0 0));
  (* overlays.py:1253-1264 *)
  mkItm ["kml"; "gx"; ""] ["enums.AltitudeMode"] "altitude_mode" GEnum SEnum "altitudeMode" (VEnum "enums.AltitudeMode" (u "clampToGround"));
  (* overlays.py:1265-1275 *)
  mkItm ["kml"; ""] ["overlays.LatLonBox"] "lat_lon_box" GObj SObj "LatLonBox" VNone].

Definition rg_overlays__XY : list item := [
  (* overlays.py:1352-1362 *)
  mkItm [""; "kml"] ["float"] "x" GAttrFloat SAttrFloat "x" VNone;
  (* overlays.py:1363-1373 *)
  mkItm [""; "kml"] ["float"] "y" GAttrFloat SAttrFloat "y" VNone;
  (* overlays.py:1374-1385 *)
  mkItm [""; "kml"] ["enums.Units"] "x_units" GAttrEnum SAttrEnum "xunits" (VEnum "enums.Units" (u "fraction"));
  (* overlays.py:1386-1397 *)
  mkItm [""; "kml"] ["enums.Units"] "y_units" GAttrEnum SAttrEnum "yunits" (VEnum "enums.Units" (u "fraction"))].

Definition rg_overlays_ScreenOverlay : list item := [
  (* overlays.py:1622-1632 *)
  mkItm ["kml"; ""] ["overlays.OverlayXY"] "overlay_xy" GObj SObj "overlayXY" VNone;
  (* overlays.py:1633-1643 *)
  mkItm ["kml"; ""] ["overlays.ScreenXY"] "screen_xy" GObj SObj "screenXY" VNone;
  (* overlays.py:1644-1654 *)
  mkItm ["kml"; ""] ["overlays.RotationXY"] "rotation_xy" GObj SObj "rotationXY" VNone;
  (* overlays.py:1655-1665 *)
  mkItm ["kml"; ""] ["overlays.Size"] "size" GObj SObj "size" VNone;
  (* overlays.py:1666-1677 *)
  mkItm ["kml"; ""] ["float"] "rotation" GFloat SFloat "rotation" (VFloat (FFin false 0 0))].

Definition rg_styles_StyleUrl : list item := [
  (* styles.py:156-166 *)
  mkItm ["kml"; ""] ["str"] "url" GNodeText SNodeText "styleUrl" VNone].

Definition rg_styles__ColorStyle : list item := [
  (* styles.py:242-253 *)
  mkItm ["kml"; ""] ["str"] "color" GText SText "color" (VStr (u "ffffffff"));
  (* styles.py:254-265 *)
  mkItm ["kml"; ""] ["enums.ColorMode"] "color_mode" GEnum SEnum "colorMode" (VEnum "enums.ColorMode" (u "normal"))].

Definition rg_styles_HotSpot : list item := [
  (* styles.py:358-369 *)
  mkItm [""; "kml"] ["float"] "x" GAttrFloat SAttrFloat "x" (VFloat (FFin false 4503599627370496 1021));
  (* styles.py:370-381 *)
  mkItm [""; "kml"] ["float"] "y" GAttrFloat SAttrFloat "y" (VFloat (FFin false 4503599627370496 1021));
  (* styles.py:382-393 *)
  mkItm [""; "kml"] ["enums.Units"] "xunits" GAttrEnum SAttrEnum "xunits" (VEnum "enums.Units" (u "fraction"));
  (* styles.py:394-405 *)
  mkItm [""; "kml"] ["enums.Units"] "yunits" GAttrEnum SAttrEnum "yunits" (VEnum "enums.Units" (u "fraction"))].

Definition rg_styles_IconStyle : list item := [
  (* styles.py:526-537 *)
  mkItm ["kml"; ""] ["float"] "scale" GFloat SFloat "scale" (VFloat (FFin false 4503599627370496 1022));
  (* styles.py:538-549 *)
  mkItm ["kml"; ""] ["float"] "heading" GFloat SFloat "heading" (VFloat (FFin false 0 0));
  (* styles.py:550-560 *)
  mkItm ["kml"; ""] ["links.Icon"] "icon" GObj SObj "Icon" VNone;
  (* styles.py:561-571 *)
  mkItm ["kml"; ""] ["styles.HotSpot"] "hot_spot" GObj SObj "hotSpot" VNone].

Definition rg_styles_LineStyle : list item := [
  (* styles.py:659-670 *)
  mkItm ["kml"; ""] ["float"] "width" GFloat SFloat "width" (VFloat (FFin false 4503599627370496 1022))].

Definition rg_styles_PolyStyle : list item := [
  (* styles.py:768-779 *)
  mkItm ["kml"; ""] ["bool"] "fill" GBool SBool "fill" (VBool true);
  (* styles.py:780-791 *)
  mkItm ["kml"; ""] ["bool"] "outline" GBool SBool "outline" (VBool true)].

Definition rg_styles_LabelStyle : list item := [
  (* styles.py:882-893 *)
  mkItm ["kml"; ""] ["float"] "scale" GFloat SFloat "scale" (VFloat (FFin false 4503599627370496 1022))].

Definition rg_styles_BalloonStyle : list item := [
  (* styles.py:1034-1045 *)
  mkItm ["kml"; ""] ["str"] "bg_color" GText SText "bgColor" (VStr (u "ffffffff"));
  (* styles.py:1046-1057 *)
  mkItm ["kml"; ""] ["str"] "text_color" GText SText "textColor" (VStr (u "ff000000"));
  (* styles.py:1058-1068 *)
  mkItm ["kml"; ""] ["str"] "text" GText SText "text" VNone;
  (* styles.py:1069-1080 *)
  mkItm ["kml"; ""] ["enums.DisplayMode"] "display_mode" GEnum SEnum "displayMode" (VEnum "enums.DisplayMode" (u "default"))].

Definition rg_styles_Style : list item := [
  (* styles.py:1161-1177 *)
  mkItm ["kml"; ""] ["styles.IconStyle"; "styles.LabelStyle"; "styles.LineStyle"; "styles.PolyStyle"; "styles.BalloonStyle"] "styles" GObjs SObjs "Style" VNone].

Definition rg_styles_Pair : list item := [
  (* styles.py:1271-1281 *)
  mkItm ["kml"; ""] ["enums.PairKey"] "key" GEnum SEnum "key" VNone;
  (* styles.py:1282-1295 *)
  mkItm ["kml"; ""] ["styles.StyleUrl"; "styles.Style"] "style" GObj SObj "Style" VNone].

Definition rg_styles_StyleMap : list item := [
  (* styles.py:1404-1414 *)
  mkItm ["kml"; ""] ["styles.Pair"] "pairs" GObjs SObjs "Pair" VNone].

Definition rg_times_TimeStamp : list item := [
  (* times.py:296-306 *)
  mkItm ["kml"; "gx"; ""] ["times.KmlDateTime"] "timestamp" GDate SDate "when" VNone].

Definition rg_times_TimeSpan : list item := [
  (* times.py:374-384 *)
  mkItm ["kml"; "gx"; ""] ["times.KmlDateTime"] "begin" GDate SDate "begin" VNone;
  (* times.py:385-395 *)
  mkItm ["kml"; "gx"; ""] ["times.KmlDateTime"] "end" GDate SDate "end" VNone].

Definition rg_views__AbstractView : list item := [
  (* views.py:153-164 *)
  mkItm ["kml"; ""] ["float"] "longitude" GFloat SFloat "longitude" (VFloat (FFin false 0 0));
  (* views.py:165-176 *)
  mkItm ["kml"; ""] ["float"] "latitude" GFloat SFloat "latitude" (VFloat (FFin false 0 0));
  (* views.py:177-188 *)
  mkItm ["kml"; ""] ["float"] "altitude" GFloat SFloat "altitude" (VFloat (FFin false 0 0));
  (* views.py:189-200 *)
  mkItm ["kml"; ""] ["float"] "heading" GFloat SFloat "heading" (VFloat (FFin false 0 0));
  (* views.py:201-212 *)
  mkItm ["kml"; ""] ["float"] "tilt" GFloat SFloat "tilt" (VFloat (FFin false 0 0))].

Definition rg_views_Camera : list item := [
  (* views.py:317-328 *)
  mkItm ["kml"; ""] ["float"] "roll" GFloat SFloat "roll" (VFloat (FFin false 0 0));
  (* views.py:329-340 *)
  mkItm ["kml"; "gx"; ""] ["enums.AltitudeMode"] "altitude_mode" GEnum SEnum "altitudeMode" (VEnum "enums.AltitudeMode" (u "clampToGround"))].

Definition rg_views_LookAt : list item := [
  (* views.py:432-442 *)
  mkItm ["kml"; ""] ["float"] "range" GFloat SFloat "range" VNone;
  (* views.py:443-454 *)
  mkItm ["kml"; "gx"; ""] ["enums.AltitudeMode"] "altitude_mode" GEnum SEnum "altitudeMode" (VEnum "enums.AltitudeMode" (u "clampToGround"))].

Definition rg_views_LatLonAltBox : list item := [
  (* views.py:554-564 *)
  mkItm ["kml"; ""] ["float"] "north" GFloat SFloat "north" VNone;
  (* views.py:565-575 *)
  mkItm ["kml"; ""] ["float"] "south" GFloat SFloat "south" VNone;
  (* views.py:576-586 *)
  mkItm ["kml"; ""] ["float"] "east" GFloat SFloat "east" VNone;
  (* views.py:587-597 *)
  mkItm ["kml"; ""] ["float"] "west" GFloat SFloat "west" VNone;
  (* views.py:598-609 *)
  mkItm ["kml"; ""] ["float"] "min_altitude" GFloat SFloat "minAltitude" (VFloat (FFin false 0 0));
  (* views.py:610-621 *)
  mkItm ["kml"; ""] ["float"] "max_altitude" GFloat SFloat "maxAltitude" (VFloat (FFin false 0 0));
  (* views.py:622-633 *)
  mkItm ["kml"; "gx"; ""] ["enums.AltitudeMode"] "altitude_mode" GEnum SEnum "altitudeMode" (VEnum "enums.AltitudeMode" (u "clampToGround"))].

Definition rg_views_Lod : list item := [
  (* views.py:716-727 *)
  mkItm ["kml"; ""] ["float"] "min_lod_pixels" GInt SInt "minLodPixels" (VInt (256));
  (* views.py:728-739 *)
  mkItm ["kml"; ""] ["float"] "max_lod_pixels" GInt SInt "maxLodPixels" (VInt (-1));
  (* views.py:740-751 *)
  mkItm ["kml"; ""] ["float"] "min_fade_extent" GInt SInt "minFadeExtent" (VInt (0));
  (* views.py:752-763 *)
  mkItm ["kml"; ""] ["float"] "max_fade_extent" GInt SInt "maxFadeExtent" (VInt (0))].

Definition rg_views_Region : list item := [
  (* views.py:852-862 *)
  mkItm ["kml"; ""] ["views.LatLonAltBox"] "lat_lon_alt_box" GObj SObj "LatLonAltBox" VNone;
  (* views.py:863-873 *)
  mkItm ["kml"; ""] ["views.Lod"] "lod" GObj SObj "Lod" VNone].

Definition fk_registry : list (string * list item) :=
  [("atom.Link", rg_atom_Link);
   ("atom._Person", rg_atom__Person);
   ("containers._Container", rg_containers__Container);
   ("containers.Document", rg_containers_Document);
   ("data.SimpleField", rg_data_SimpleField);
   ("data.Schema", rg_data_Schema);
   ("data.Data", rg_data_Data);
   ("data.SimpleData", rg_data_SimpleData);
   ("data.SchemaData", rg_data_SchemaData);
   ("data.ExtendedData", rg_data_ExtendedData);
   ("features.Snippet", rg_features_Snippet);
   ("features._Feature", rg_features__Feature);
   ("features.Placemark", rg_features_Placemark);
   ("features.NetworkLink", rg_features_NetworkLink);
   ("geometry.Coordinates", rg_geometry_Coordinates);
   ("geometry.Point", rg_geometry_Point);
   ("geometry.LineString", rg_geometry_LineString);
   ("geometry.BoundaryIs", rg_geometry_BoundaryIs);
   ("geometry.Polygon", rg_geometry_Polygon);
   ("geometry.MultiGeometry", rg_geometry_MultiGeometry);
   ("gx.Track", rg_gx_Track);
   ("gx.MultiTrack", rg_gx_MultiTrack);
   ("kml.KML", rg_kml_KML);
   ("kml_base._BaseObject", rg_kml_base__BaseObject);
   ("links.Link", rg_links_Link);
   ("model.Location", rg_model_Location);
   ("model.Orientation", rg_model_Orientation);
   ("model.Scale", rg_model_Scale);
   ("model.Alias", rg_model_Alias);
   ("model.ResourceMap", rg_model_ResourceMap);
   ("model.Model", rg_model_Model);
   ("network_link_control.NetworkLinkControl", rg_network_link_control_NetworkLinkControl);
   ("overlays._Overlay", rg_overlays__Overlay);
   ("overlays.ViewVolume", rg_overlays_ViewVolume);
   ("overlays.ImagePyramid", rg_overlays_ImagePyramid);
   ("overlays.PhotoOverlay", rg_overlays_PhotoOverlay);
   ("overlays.LatLonBox", rg_overlays_LatLonBox);
   ("overlays.GroundOverlay", rg_overlays_GroundOverlay);
   ("overlays._XY", rg_overlays__XY);
   ("overlays.ScreenOverlay", rg_overlays_ScreenOverlay);
   ("styles.StyleUrl", rg_styles_StyleUrl);
   ("styles._ColorStyle", rg_styles__ColorStyle);
   ("styles.HotSpot", rg_styles_HotSpot);
   ("styles.IconStyle", rg_styles_IconStyle);
   ("styles.LineStyle", rg_styles_LineStyle);
   ("styles.PolyStyle", rg_styles_PolyStyle);
   ("styles.LabelStyle", rg_styles_LabelStyle);
   ("styles.BalloonStyle", rg_styles_BalloonStyle);
   ("styles.Style", rg_styles_Style);
   ("styles.Pair", rg_styles_Pair);
   ("styles.StyleMap", rg_styles_StyleMap);
   ("times.TimeStamp", rg_times_TimeStamp);
   ("times.TimeSpan", rg_times_TimeSpan);
   ("views._AbstractView", rg_views__AbstractView);
   ("views.Camera", rg_views_Camera);
   ("views.LookAt", rg_views_LookAt);
   ("views.LatLonAltBox", rg_views_LatLonAltBox);
   ("views.Lod", rg_views_Lod);
   ("views.Region", rg_views_Region)].

(** The library as shipped; [arrow] stands for [arrow.get(text).datetime]. *)
Definition fastkml (arrow : ustr -> option datetime) : world :=
  mkWorld fk_classes fk_enums fk_registry arrow.
