(** * The content models of the bundled schema (generated).

    Generated by tools/gen_schema.py from fastkml/schema/kml22gx.xsd and the
    files it imports, ogckml22.xsd and atom-author-link.xsd.  Substitution groups
    are expanded and the content of a base type is put in front of the
    content of the types that extend it, as XML Schema says. *)
From Coq Require Import String List.
From Verif Require Import Schema.
Import ListNotations.
Local Open Scope string_scope.

Definition schema_uris : list (string * string) :=
  [("kml", "http://www.opengis.net/kml/2.2"); ("gx", "http://www.google.com/kml/ext/2.2"); ("atom", "http://www.w3.org/2005/Atom"); ("xal", "urn:oasis:names:tc:ciq:xsdschema:xAL:2.0")].

Definition ty_xs_string : decl := mkDecl (PSeq [] 1 (Some 1))
  [] (Some ("xs", "string")) [].

Definition ty_xs_double : decl := mkDecl (PSeq [] 1 (Some 1))
  [] (Some ("xs", "double")) [].

Definition ty_kml_altitudeModeEnumType : decl := mkDecl (PSeq [] 1 (Some 1))
  [] (Some ("kml", "altitudeModeEnumType")) [].

Definition ty_kml_dateTimeType : decl := mkDecl (PSeq [] 1 (Some 1))
  [] (Some ("kml", "dateTimeType")) [].

Definition ty_kml_colorType : decl := mkDecl (PSeq [] 1 (Some 1))
  [] (Some ("kml", "colorType")) [].

Definition ty_kml_angle90Type : decl := mkDecl (PSeq [] 1 (Some 1))
  [] (Some ("kml", "angle90Type")) [].

Definition ty_kml_colorModeEnumType : decl := mkDecl (PSeq [] 1 (Some 1))
  [] (Some ("kml", "colorModeEnumType")) [].

Definition ty_kml_coordinatesType : decl := mkDecl (PSeq [] 1 (Some 1))
  [] (Some ("kml", "coordinatesType")) [].

Definition ty_kml_displayModeEnumType : decl := mkDecl (PSeq [] 1 (Some 1))
  [] (Some ("kml", "displayModeEnumType")) [].

Definition ty_xs_int : decl := mkDecl (PSeq [] 1 (Some 1))
  [] (Some ("xs", "int")) [].

Definition ty_kml_angle180Type : decl := mkDecl (PSeq [] 1 (Some 1))
  [] (Some ("kml", "angle180Type")) [].

Definition ty_xs_boolean : decl := mkDecl (PSeq [] 1 (Some 1))
  [] (Some ("xs", "boolean")) [].

Definition ty_kml_gridOriginEnumType : decl := mkDecl (PSeq [] 1 (Some 1))
  [] (Some ("kml", "gridOriginEnumType")) [].

Definition ty_kml_angle360Type : decl := mkDecl (PSeq [] 1 (Some 1))
  [] (Some ("kml", "angle360Type")) [].

Definition ty_kml_vec2Type : decl := mkDecl (PSeq [] 1 (Some 1))
  [("x", false, ("xs", "double")); ("y", false, ("xs", "double")); ("xunits", false, ("kml", "unitsEnumType")); ("yunits", false, ("kml", "unitsEnumType"))] None [].

Definition ty_kml_styleStateEnumType : decl := mkDecl (PSeq [] 1 (Some 1))
  [] (Some ("kml", "styleStateEnumType")) [].

Definition ty_kml_SnippetType : decl := mkDecl (PSeq [] 1 (Some 1))
  [("maxLines", false, ("xs", "int"))] (Some ("xs", "string")) [].

Definition ty_kml_listItemTypeEnumType : decl := mkDecl (PSeq [] 1 (Some 1))
  [] (Some ("kml", "listItemTypeEnumType")) [].

Definition ty_kml_refreshModeEnumType : decl := mkDecl (PSeq [] 1 (Some 1))
  [] (Some ("kml", "refreshModeEnumType")) [].

Definition ty_kml_shapeEnumType : decl := mkDecl (PSeq [] 1 (Some 1))
  [] (Some ("kml", "shapeEnumType")) [].

Definition ty_xs_anyURI : decl := mkDecl (PSeq [] 1 (Some 1))
  [] (Some ("xs", "anyURI")) [].

Definition ty_kml_itemIconStateType : decl := mkDecl (PSeq [] 1 (Some 1))
  [] (Some ("kml", "itemIconStateType")) [].

Definition ty_kml_anglepos180Type : decl := mkDecl (PSeq [] 1 (Some 1))
  [] (Some ("kml", "anglepos180Type")) [].

Definition ty_kml_viewRefreshModeEnumType : decl := mkDecl (PSeq [] 1 (Some 1))
  [] (Some ("kml", "viewRefreshModeEnumType")) [].

Definition ty_kml_LookAtType : decl := mkDecl (PSeq [PSeq [PEl [] 0 None] 1 (Some 1); PSeq [PEl [("gx", "horizFov")] 0 None; PEl [("gx", "TimeStamp"); ("gx", "TimeSpan"); ("gx", "ViewerOptions")] 0 None] 1 (Some 1); PSeq [PEl [("kml", "longitude")] 0 (Some 1); PEl [("kml", "latitude")] 0 (Some 1); PEl [("kml", "altitude")] 0 (Some 1); PEl [("kml", "heading")] 0 (Some 1); PEl [("kml", "tilt")] 0 (Some 1); PEl [("kml", "range")] 0 (Some 1); PEl [("kml", "altitudeMode"); ("gx", "altitudeMode")] 0 (Some 1); PEl [] 0 None; PEl [] 0 None] 1 (Some 1)] 1 (Some 1))
  [("id", false, ("xs", "ID")); ("targetId", false, ("xs", "NCName"))] None [].

Definition ty_kml_CameraType : decl := mkDecl (PSeq [PSeq [PEl [] 0 None] 1 (Some 1); PSeq [PEl [("gx", "horizFov")] 0 None; PEl [("gx", "TimeStamp"); ("gx", "TimeSpan"); ("gx", "ViewerOptions")] 0 None] 1 (Some 1); PSeq [PEl [("kml", "longitude")] 0 (Some 1); PEl [("kml", "latitude")] 0 (Some 1); PEl [("kml", "altitude")] 0 (Some 1); PEl [("kml", "heading")] 0 (Some 1); PEl [("kml", "tilt")] 0 (Some 1); PEl [("kml", "roll")] 0 (Some 1); PEl [("kml", "altitudeMode"); ("gx", "altitudeMode")] 0 (Some 1); PEl [] 0 None; PEl [] 0 None] 1 (Some 1)] 1 (Some 1))
  [("id", false, ("xs", "ID")); ("targetId", false, ("xs", "NCName"))] None [].

Definition ty_kml_MetadataType : decl := mkDecl (PSeq [PAny None 0 None] 1 (Some 1))
  [] None [].

Definition ty_kml_ExtendedDataType : decl := mkDecl (PSeq [PEl [("kml", "Data")] 0 None; PEl [("kml", "SchemaData")] 0 None; PAny (Some "kml") 0 None] 1 (Some 1))
  [] None [].

Definition ty_kml_SchemaDataType : decl := mkDecl (PSeq [PSeq [PEl [] 0 None] 1 (Some 1); PSeq [PEl [("kml", "SimpleData")] 0 None; PEl [("gx", "SimpleArrayData")] 0 None] 1 (Some 1)] 1 (Some 1))
  [("id", false, ("xs", "ID")); ("targetId", false, ("xs", "NCName")); ("schemaUrl", false, ("xs", "anyURI"))] None [].

Definition ty_kml_SimpleDataType : decl := mkDecl (PSeq [] 1 (Some 1))
  [("name", true, ("xs", "string"))] (Some ("xs", "string")) [].

Definition ty_kml_DataType : decl := mkDecl (PSeq [PSeq [PEl [] 0 None] 1 (Some 1); PSeq [PEl [("kml", "displayName")] 0 (Some 1); PEl [("kml", "value")] 1 (Some 1); PEl [] 0 None] 1 (Some 1)] 1 (Some 1))
  [("id", false, ("xs", "ID")); ("targetId", false, ("xs", "NCName")); ("name", false, ("xs", "string"))] None [].

Definition ty_kml_KmlType : decl := mkDecl (PSeq [PEl [("kml", "NetworkLinkControl")] 0 (Some 1); PEl [("kml", "Document"); ("kml", "Folder"); ("kml", "GroundOverlay"); ("kml", "ScreenOverlay"); ("kml", "PhotoOverlay"); ("kml", "Placemark"); ("kml", "NetworkLink"); ("gx", "Tour")] 0 (Some 1); PEl [] 0 None; PEl [] 0 None] 1 (Some 1))
  [("hint", false, ("xs", "string"))] None [].

Definition ty_kml_NetworkLinkControlType : decl := mkDecl (PSeq [PEl [("kml", "minRefreshPeriod")] 0 (Some 1); PEl [("kml", "maxSessionLength")] 0 (Some 1); PEl [("kml", "cookie")] 0 (Some 1); PEl [("kml", "message")] 0 (Some 1); PEl [("kml", "linkName")] 0 (Some 1); PEl [("kml", "linkDescription")] 0 (Some 1); PEl [("kml", "linkSnippet")] 0 (Some 1); PEl [("kml", "expires")] 0 (Some 1); PEl [("kml", "Update")] 0 (Some 1); PEl [("kml", "LookAt"); ("kml", "Camera")] 0 (Some 1); PEl [] 0 None; PEl [] 0 None] 1 (Some 1))
  [] None [].

Definition ty_kml_DocumentType : decl := mkDecl (PSeq [PSeq [PEl [] 0 None] 1 (Some 1); PSeq [PEl [("kml", "name")] 0 (Some 1); PEl [("kml", "visibility")] 0 (Some 1); PEl [("kml", "open")] 0 (Some 1); PEl [("atom", "author")] 0 (Some 1); PEl [("atom", "link")] 0 (Some 1); PEl [("kml", "address")] 0 (Some 1); PEl [("xal", "AddressDetails")] 0 (Some 1); PEl [("kml", "phoneNumber")] 0 (Some 1); PChoice [PEl [("kml", "Snippet")] 0 (Some 1); PEl [("kml", "snippet")] 0 (Some 1)] 1 (Some 1); PEl [("kml", "description")] 0 (Some 1); PEl [("kml", "LookAt"); ("kml", "Camera")] 0 (Some 1); PEl [("kml", "TimeStamp"); ("kml", "TimeSpan")] 0 (Some 1); PEl [("kml", "styleUrl")] 0 (Some 1); PEl [("kml", "Style"); ("kml", "StyleMap")] 0 None; PEl [("kml", "Region")] 0 (Some 1); PChoice [PEl [("kml", "Metadata")] 0 (Some 1); PEl [("kml", "ExtendedData")] 0 (Some 1)] 1 (Some 1); PEl [("gx", "balloonVisibility"); ("gx", "rank")] 0 None; PEl [] 0 None] 1 (Some 1); PSeq [PEl [] 0 None; PEl [] 0 None] 1 (Some 1); PSeq [PEl [("kml", "Schema")] 0 None; PEl [("kml", "Document"); ("kml", "Folder"); ("kml", "GroundOverlay"); ("kml", "ScreenOverlay"); ("kml", "PhotoOverlay"); ("kml", "Placemark"); ("kml", "NetworkLink"); ("gx", "Tour")] 0 None; PEl [] 0 None; PEl [] 0 None] 1 (Some 1)] 1 (Some 1))
  [("id", false, ("xs", "ID")); ("targetId", false, ("xs", "NCName"))] None [].

Definition ty_kml_SchemaType : decl := mkDecl (PSeq [PEl [("kml", "SimpleField")] 0 None; PEl [("gx", "SimpleArrayField")] 0 None] 1 (Some 1))
  [("name", false, ("xs", "string")); ("id", false, ("xs", "ID"))] None [].

Definition ty_kml_SimpleFieldType : decl := mkDecl (PSeq [PEl [("kml", "displayName")] 0 (Some 1); PEl [] 0 None] 1 (Some 1))
  [("type", false, ("xs", "string")); ("name", false, ("xs", "string"))] None [].

Definition ty_kml_FolderType : decl := mkDecl (PSeq [PSeq [PEl [] 0 None] 1 (Some 1); PSeq [PEl [("kml", "name")] 0 (Some 1); PEl [("kml", "visibility")] 0 (Some 1); PEl [("kml", "open")] 0 (Some 1); PEl [("atom", "author")] 0 (Some 1); PEl [("atom", "link")] 0 (Some 1); PEl [("kml", "address")] 0 (Some 1); PEl [("xal", "AddressDetails")] 0 (Some 1); PEl [("kml", "phoneNumber")] 0 (Some 1); PChoice [PEl [("kml", "Snippet")] 0 (Some 1); PEl [("kml", "snippet")] 0 (Some 1)] 1 (Some 1); PEl [("kml", "description")] 0 (Some 1); PEl [("kml", "LookAt"); ("kml", "Camera")] 0 (Some 1); PEl [("kml", "TimeStamp"); ("kml", "TimeSpan")] 0 (Some 1); PEl [("kml", "styleUrl")] 0 (Some 1); PEl [("kml", "Style"); ("kml", "StyleMap")] 0 None; PEl [("kml", "Region")] 0 (Some 1); PChoice [PEl [("kml", "Metadata")] 0 (Some 1); PEl [("kml", "ExtendedData")] 0 (Some 1)] 1 (Some 1); PEl [("gx", "balloonVisibility"); ("gx", "rank")] 0 None; PEl [] 0 None] 1 (Some 1); PSeq [PEl [] 0 None; PEl [] 0 None] 1 (Some 1); PSeq [PEl [("kml", "Document"); ("kml", "Folder"); ("kml", "GroundOverlay"); ("kml", "ScreenOverlay"); ("kml", "PhotoOverlay"); ("kml", "Placemark"); ("kml", "NetworkLink"); ("gx", "Tour")] 0 None; PEl [] 0 None; PEl [] 0 None] 1 (Some 1)] 1 (Some 1))
  [("id", false, ("xs", "ID")); ("targetId", false, ("xs", "NCName"))] None [].

Definition ty_kml_PlacemarkType : decl := mkDecl (PSeq [PSeq [PEl [] 0 None] 1 (Some 1); PSeq [PEl [("kml", "name")] 0 (Some 1); PEl [("kml", "visibility")] 0 (Some 1); PEl [("kml", "open")] 0 (Some 1); PEl [("atom", "author")] 0 (Some 1); PEl [("atom", "link")] 0 (Some 1); PEl [("kml", "address")] 0 (Some 1); PEl [("xal", "AddressDetails")] 0 (Some 1); PEl [("kml", "phoneNumber")] 0 (Some 1); PChoice [PEl [("kml", "Snippet")] 0 (Some 1); PEl [("kml", "snippet")] 0 (Some 1)] 1 (Some 1); PEl [("kml", "description")] 0 (Some 1); PEl [("kml", "LookAt"); ("kml", "Camera")] 0 (Some 1); PEl [("kml", "TimeStamp"); ("kml", "TimeSpan")] 0 (Some 1); PEl [("kml", "styleUrl")] 0 (Some 1); PEl [("kml", "Style"); ("kml", "StyleMap")] 0 None; PEl [("kml", "Region")] 0 (Some 1); PChoice [PEl [("kml", "Metadata")] 0 (Some 1); PEl [("kml", "ExtendedData")] 0 (Some 1)] 1 (Some 1); PEl [("gx", "balloonVisibility"); ("gx", "rank")] 0 None; PEl [] 0 None] 1 (Some 1); PSeq [PEl [("kml", "MultiGeometry"); ("kml", "Point"); ("kml", "LineString"); ("kml", "LinearRing"); ("kml", "Polygon"); ("kml", "Model"); ("gx", "Track"); ("gx", "MultiTrack")] 0 (Some 1); PEl [] 0 None; PEl [] 0 None] 1 (Some 1)] 1 (Some 1))
  [("id", false, ("xs", "ID")); ("targetId", false, ("xs", "NCName"))] None [].

Definition ty_kml_NetworkLinkType : decl := mkDecl (PSeq [PSeq [PEl [] 0 None] 1 (Some 1); PSeq [PEl [("kml", "name")] 0 (Some 1); PEl [("kml", "visibility")] 0 (Some 1); PEl [("kml", "open")] 0 (Some 1); PEl [("atom", "author")] 0 (Some 1); PEl [("atom", "link")] 0 (Some 1); PEl [("kml", "address")] 0 (Some 1); PEl [("xal", "AddressDetails")] 0 (Some 1); PEl [("kml", "phoneNumber")] 0 (Some 1); PChoice [PEl [("kml", "Snippet")] 0 (Some 1); PEl [("kml", "snippet")] 0 (Some 1)] 1 (Some 1); PEl [("kml", "description")] 0 (Some 1); PEl [("kml", "LookAt"); ("kml", "Camera")] 0 (Some 1); PEl [("kml", "TimeStamp"); ("kml", "TimeSpan")] 0 (Some 1); PEl [("kml", "styleUrl")] 0 (Some 1); PEl [("kml", "Style"); ("kml", "StyleMap")] 0 None; PEl [("kml", "Region")] 0 (Some 1); PChoice [PEl [("kml", "Metadata")] 0 (Some 1); PEl [("kml", "ExtendedData")] 0 (Some 1)] 1 (Some 1); PEl [("gx", "balloonVisibility"); ("gx", "rank")] 0 None; PEl [] 0 None] 1 (Some 1); PSeq [PEl [("kml", "refreshVisibility")] 0 (Some 1); PEl [("kml", "flyToView")] 0 (Some 1); PChoice [PEl [("kml", "Url")] 0 (Some 1); PEl [("kml", "Link")] 0 (Some 1)] 1 (Some 1); PEl [] 0 None; PEl [] 0 None] 1 (Some 1)] 1 (Some 1))
  [("id", false, ("xs", "ID")); ("targetId", false, ("xs", "NCName"))] None [].

Definition ty_kml_RegionType : decl := mkDecl (PSeq [PSeq [PEl [] 0 None] 1 (Some 1); PSeq [PEl [("kml", "LatLonAltBox")] 0 (Some 1); PEl [("kml", "Lod")] 0 (Some 1); PEl [] 0 None; PEl [] 0 None] 1 (Some 1)] 1 (Some 1))
  [("id", false, ("xs", "ID")); ("targetId", false, ("xs", "NCName"))] None [].

Definition ty_kml_LatLonAltBoxType : decl := mkDecl (PSeq [PSeq [PEl [] 0 None] 1 (Some 1); PSeq [PEl [("kml", "north")] 0 (Some 1); PEl [("kml", "south")] 0 (Some 1); PEl [("kml", "east")] 0 (Some 1); PEl [("kml", "west")] 0 (Some 1); PEl [] 0 None; PEl [] 0 None] 1 (Some 1); PSeq [PEl [("kml", "minAltitude")] 0 (Some 1); PEl [("kml", "maxAltitude")] 0 (Some 1); PEl [("kml", "altitudeMode"); ("gx", "altitudeMode")] 0 (Some 1); PEl [] 0 None; PEl [] 0 None] 1 (Some 1)] 1 (Some 1))
  [("id", false, ("xs", "ID")); ("targetId", false, ("xs", "NCName"))] None [].

Definition ty_kml_LodType : decl := mkDecl (PSeq [PSeq [PEl [] 0 None] 1 (Some 1); PSeq [PEl [("kml", "minLodPixels")] 0 (Some 1); PEl [("kml", "maxLodPixels")] 0 (Some 1); PEl [("kml", "minFadeExtent")] 0 (Some 1); PEl [("kml", "maxFadeExtent")] 0 (Some 1); PEl [] 0 None; PEl [] 0 None] 1 (Some 1)] 1 (Some 1))
  [("id", false, ("xs", "ID")); ("targetId", false, ("xs", "NCName"))] None [].

Definition ty_kml_LinkType : decl := mkDecl (PSeq [PSeq [PEl [] 0 None] 1 (Some 1); PSeq [PEl [("kml", "href")] 0 (Some 1); PEl [("gx", "x"); ("gx", "y"); ("gx", "w"); ("gx", "h")] 0 None; PEl [] 0 None] 1 (Some 1); PSeq [PEl [("kml", "refreshMode")] 0 (Some 1); PEl [("kml", "refreshInterval")] 0 (Some 1); PEl [("kml", "viewRefreshMode")] 0 (Some 1); PEl [("kml", "viewRefreshTime")] 0 (Some 1); PEl [("kml", "viewBoundScale")] 0 (Some 1); PEl [("kml", "viewFormat")] 0 (Some 1); PEl [("kml", "httpQuery")] 0 (Some 1); PEl [] 0 None; PEl [] 0 None] 1 (Some 1)] 1 (Some 1))
  [("id", false, ("xs", "ID")); ("targetId", false, ("xs", "NCName"))] None [].

Definition ty_kml_MultiGeometryType : decl := mkDecl (PSeq [PSeq [PEl [] 0 None] 1 (Some 1); PSeq [PEl [("gx", "altitudeOffset"); ("gx", "drawOrder")] 0 None; PEl [] 0 None] 1 (Some 1); PSeq [PEl [("kml", "MultiGeometry"); ("kml", "Point"); ("kml", "LineString"); ("kml", "LinearRing"); ("kml", "Polygon"); ("kml", "Model"); ("gx", "Track"); ("gx", "MultiTrack")] 0 None; PEl [] 0 None; PEl [] 0 None] 1 (Some 1)] 1 (Some 1))
  [("id", false, ("xs", "ID")); ("targetId", false, ("xs", "NCName"))] None [].

Definition ty_kml_PointType : decl := mkDecl (PSeq [PSeq [PEl [] 0 None] 1 (Some 1); PSeq [PEl [("gx", "altitudeOffset"); ("gx", "drawOrder")] 0 None; PEl [] 0 None] 1 (Some 1); PSeq [PEl [("kml", "extrude")] 0 (Some 1); PEl [("kml", "altitudeMode"); ("gx", "altitudeMode")] 0 (Some 1); PEl [("kml", "coordinates")] 0 (Some 1); PEl [] 0 None; PEl [] 0 None] 1 (Some 1)] 1 (Some 1))
  [("id", false, ("xs", "ID")); ("targetId", false, ("xs", "NCName"))] None [].

Definition ty_kml_LineStringType : decl := mkDecl (PSeq [PSeq [PEl [] 0 None] 1 (Some 1); PSeq [PEl [("gx", "altitudeOffset"); ("gx", "drawOrder")] 0 None; PEl [] 0 None] 1 (Some 1); PSeq [PEl [("kml", "extrude")] 0 (Some 1); PEl [("kml", "tessellate")] 0 (Some 1); PEl [("kml", "altitudeMode"); ("gx", "altitudeMode")] 0 (Some 1); PEl [("kml", "coordinates")] 0 (Some 1); PEl [] 0 None; PEl [] 0 None] 1 (Some 1)] 1 (Some 1))
  [("id", false, ("xs", "ID")); ("targetId", false, ("xs", "NCName"))] None [].

Definition ty_kml_LinearRingType : decl := mkDecl (PSeq [PSeq [PEl [] 0 None] 1 (Some 1); PSeq [PEl [("gx", "altitudeOffset"); ("gx", "drawOrder")] 0 None; PEl [] 0 None] 1 (Some 1); PSeq [PEl [("kml", "extrude")] 0 (Some 1); PEl [("kml", "tessellate")] 0 (Some 1); PEl [("kml", "altitudeMode"); ("gx", "altitudeMode")] 0 (Some 1); PEl [("kml", "coordinates")] 0 (Some 1); PEl [] 0 None; PEl [] 0 None] 1 (Some 1)] 1 (Some 1))
  [("id", false, ("xs", "ID")); ("targetId", false, ("xs", "NCName"))] None [].

Definition ty_kml_PolygonType : decl := mkDecl (PSeq [PSeq [PEl [] 0 None] 1 (Some 1); PSeq [PEl [("gx", "altitudeOffset"); ("gx", "drawOrder")] 0 None; PEl [] 0 None] 1 (Some 1); PSeq [PEl [("kml", "extrude")] 0 (Some 1); PEl [("kml", "tessellate")] 0 (Some 1); PEl [("kml", "altitudeMode"); ("gx", "altitudeMode")] 0 (Some 1); PEl [("kml", "outerBoundaryIs")] 0 (Some 1); PEl [("kml", "innerBoundaryIs")] 0 None; PEl [] 0 None; PEl [] 0 None] 1 (Some 1)] 1 (Some 1))
  [("id", false, ("xs", "ID")); ("targetId", false, ("xs", "NCName"))] None [].

Definition ty_kml_BoundaryType : decl := mkDecl (PSeq [PEl [("kml", "LinearRing")] 0 (Some 1); PEl [] 0 None; PEl [] 0 None] 1 (Some 1))
  [] None [].

Definition ty_kml_ModelType : decl := mkDecl (PSeq [PSeq [PEl [] 0 None] 1 (Some 1); PSeq [PEl [("gx", "altitudeOffset"); ("gx", "drawOrder")] 0 None; PEl [] 0 None] 1 (Some 1); PSeq [PEl [("kml", "altitudeMode"); ("gx", "altitudeMode")] 0 (Some 1); PEl [("kml", "Location")] 0 (Some 1); PEl [("kml", "Orientation")] 0 (Some 1); PEl [("kml", "Scale")] 0 (Some 1); PEl [("kml", "Link")] 0 (Some 1); PEl [("kml", "ResourceMap")] 0 (Some 1); PEl [] 0 None; PEl [] 0 None] 1 (Some 1)] 1 (Some 1))
  [("id", false, ("xs", "ID")); ("targetId", false, ("xs", "NCName"))] None [].

Definition ty_kml_LocationType : decl := mkDecl (PSeq [PSeq [PEl [] 0 None] 1 (Some 1); PSeq [PEl [("kml", "longitude")] 0 (Some 1); PEl [("kml", "latitude")] 0 (Some 1); PEl [("kml", "altitude")] 0 (Some 1); PEl [] 0 None; PEl [] 0 None] 1 (Some 1)] 1 (Some 1))
  [("id", false, ("xs", "ID")); ("targetId", false, ("xs", "NCName"))] None [].

Definition ty_kml_OrientationType : decl := mkDecl (PSeq [PSeq [PEl [] 0 None] 1 (Some 1); PSeq [PEl [("kml", "heading")] 0 (Some 1); PEl [("kml", "tilt")] 0 (Some 1); PEl [("kml", "roll")] 0 (Some 1); PEl [] 0 None; PEl [] 0 None] 1 (Some 1)] 1 (Some 1))
  [("id", false, ("xs", "ID")); ("targetId", false, ("xs", "NCName"))] None [].

Definition ty_kml_ScaleType : decl := mkDecl (PSeq [PSeq [PEl [] 0 None] 1 (Some 1); PSeq [PEl [("kml", "x")] 0 (Some 1); PEl [("kml", "y")] 0 (Some 1); PEl [("kml", "z")] 0 (Some 1); PEl [] 0 None; PEl [] 0 None] 1 (Some 1)] 1 (Some 1))
  [("id", false, ("xs", "ID")); ("targetId", false, ("xs", "NCName"))] None [].

Definition ty_kml_ResourceMapType : decl := mkDecl (PSeq [PSeq [PEl [] 0 None] 1 (Some 1); PSeq [PEl [("kml", "Alias")] 0 None; PEl [] 0 None; PEl [] 0 None] 1 (Some 1)] 1 (Some 1))
  [("id", false, ("xs", "ID")); ("targetId", false, ("xs", "NCName"))] None [].

Definition ty_kml_AliasType : decl := mkDecl (PSeq [PSeq [PEl [] 0 None] 1 (Some 1); PSeq [PEl [("kml", "targetHref")] 0 (Some 1); PEl [("kml", "sourceHref")] 0 (Some 1); PEl [] 0 None; PEl [] 0 None] 1 (Some 1)] 1 (Some 1))
  [("id", false, ("xs", "ID")); ("targetId", false, ("xs", "NCName"))] None [].

Definition ty_kml_GroundOverlayType : decl := mkDecl (PSeq [PSeq [PEl [] 0 None] 1 (Some 1); PSeq [PEl [("kml", "name")] 0 (Some 1); PEl [("kml", "visibility")] 0 (Some 1); PEl [("kml", "open")] 0 (Some 1); PEl [("atom", "author")] 0 (Some 1); PEl [("atom", "link")] 0 (Some 1); PEl [("kml", "address")] 0 (Some 1); PEl [("xal", "AddressDetails")] 0 (Some 1); PEl [("kml", "phoneNumber")] 0 (Some 1); PChoice [PEl [("kml", "Snippet")] 0 (Some 1); PEl [("kml", "snippet")] 0 (Some 1)] 1 (Some 1); PEl [("kml", "description")] 0 (Some 1); PEl [("kml", "LookAt"); ("kml", "Camera")] 0 (Some 1); PEl [("kml", "TimeStamp"); ("kml", "TimeSpan")] 0 (Some 1); PEl [("kml", "styleUrl")] 0 (Some 1); PEl [("kml", "Style"); ("kml", "StyleMap")] 0 None; PEl [("kml", "Region")] 0 (Some 1); PChoice [PEl [("kml", "Metadata")] 0 (Some 1); PEl [("kml", "ExtendedData")] 0 (Some 1)] 1 (Some 1); PEl [("gx", "balloonVisibility"); ("gx", "rank")] 0 None; PEl [] 0 None] 1 (Some 1); PSeq [PEl [("kml", "color")] 0 (Some 1); PEl [("kml", "drawOrder")] 0 (Some 1); PEl [("kml", "Icon")] 0 (Some 1); PEl [] 0 None; PEl [] 0 None] 1 (Some 1); PSeq [PEl [("kml", "altitude")] 0 (Some 1); PEl [("kml", "altitudeMode"); ("gx", "altitudeMode")] 0 (Some 1); PEl [("kml", "LatLonBox")] 0 (Some 1); PEl [] 0 None; PEl [("gx", "LatLonQuad")] 0 None] 1 (Some 1)] 1 (Some 1))
  [("id", false, ("xs", "ID")); ("targetId", false, ("xs", "NCName"))] None [].

Definition ty_kml_LatLonBoxType : decl := mkDecl (PSeq [PSeq [PEl [] 0 None] 1 (Some 1); PSeq [PEl [("kml", "north")] 0 (Some 1); PEl [("kml", "south")] 0 (Some 1); PEl [("kml", "east")] 0 (Some 1); PEl [("kml", "west")] 0 (Some 1); PEl [] 0 None; PEl [] 0 None] 1 (Some 1); PSeq [PEl [("kml", "rotation")] 0 (Some 1); PEl [] 0 None; PEl [] 0 None] 1 (Some 1)] 1 (Some 1))
  [("id", false, ("xs", "ID")); ("targetId", false, ("xs", "NCName"))] None [].

Definition ty_kml_ScreenOverlayType : decl := mkDecl (PSeq [PSeq [PEl [] 0 None] 1 (Some 1); PSeq [PEl [("kml", "name")] 0 (Some 1); PEl [("kml", "visibility")] 0 (Some 1); PEl [("kml", "open")] 0 (Some 1); PEl [("atom", "author")] 0 (Some 1); PEl [("atom", "link")] 0 (Some 1); PEl [("kml", "address")] 0 (Some 1); PEl [("xal", "AddressDetails")] 0 (Some 1); PEl [("kml", "phoneNumber")] 0 (Some 1); PChoice [PEl [("kml", "Snippet")] 0 (Some 1); PEl [("kml", "snippet")] 0 (Some 1)] 1 (Some 1); PEl [("kml", "description")] 0 (Some 1); PEl [("kml", "LookAt"); ("kml", "Camera")] 0 (Some 1); PEl [("kml", "TimeStamp"); ("kml", "TimeSpan")] 0 (Some 1); PEl [("kml", "styleUrl")] 0 (Some 1); PEl [("kml", "Style"); ("kml", "StyleMap")] 0 None; PEl [("kml", "Region")] 0 (Some 1); PChoice [PEl [("kml", "Metadata")] 0 (Some 1); PEl [("kml", "ExtendedData")] 0 (Some 1)] 1 (Some 1); PEl [("gx", "balloonVisibility"); ("gx", "rank")] 0 None; PEl [] 0 None] 1 (Some 1); PSeq [PEl [("kml", "color")] 0 (Some 1); PEl [("kml", "drawOrder")] 0 (Some 1); PEl [("kml", "Icon")] 0 (Some 1); PEl [] 0 None; PEl [] 0 None] 1 (Some 1); PSeq [PEl [("kml", "overlayXY")] 0 (Some 1); PEl [("kml", "screenXY")] 0 (Some 1); PEl [("kml", "rotationXY")] 0 (Some 1); PEl [("kml", "size")] 0 (Some 1); PEl [("kml", "rotation")] 0 (Some 1); PEl [] 0 None; PEl [] 0 None] 1 (Some 1)] 1 (Some 1))
  [("id", false, ("xs", "ID")); ("targetId", false, ("xs", "NCName"))] None [].

Definition ty_kml_PhotoOverlayType : decl := mkDecl (PSeq [PSeq [PEl [] 0 None] 1 (Some 1); PSeq [PEl [("kml", "name")] 0 (Some 1); PEl [("kml", "visibility")] 0 (Some 1); PEl [("kml", "open")] 0 (Some 1); PEl [("atom", "author")] 0 (Some 1); PEl [("atom", "link")] 0 (Some 1); PEl [("kml", "address")] 0 (Some 1); PEl [("xal", "AddressDetails")] 0 (Some 1); PEl [("kml", "phoneNumber")] 0 (Some 1); PChoice [PEl [("kml", "Snippet")] 0 (Some 1); PEl [("kml", "snippet")] 0 (Some 1)] 1 (Some 1); PEl [("kml", "description")] 0 (Some 1); PEl [("kml", "LookAt"); ("kml", "Camera")] 0 (Some 1); PEl [("kml", "TimeStamp"); ("kml", "TimeSpan")] 0 (Some 1); PEl [("kml", "styleUrl")] 0 (Some 1); PEl [("kml", "Style"); ("kml", "StyleMap")] 0 None; PEl [("kml", "Region")] 0 (Some 1); PChoice [PEl [("kml", "Metadata")] 0 (Some 1); PEl [("kml", "ExtendedData")] 0 (Some 1)] 1 (Some 1); PEl [("gx", "balloonVisibility"); ("gx", "rank")] 0 None; PEl [] 0 None] 1 (Some 1); PSeq [PEl [("kml", "color")] 0 (Some 1); PEl [("kml", "drawOrder")] 0 (Some 1); PEl [("kml", "Icon")] 0 (Some 1); PEl [] 0 None; PEl [] 0 None] 1 (Some 1); PSeq [PEl [("kml", "rotation")] 0 (Some 1); PEl [("kml", "ViewVolume")] 0 (Some 1); PEl [("kml", "ImagePyramid")] 0 (Some 1); PEl [("kml", "Point")] 0 (Some 1); PEl [("kml", "shape")] 0 (Some 1); PEl [] 0 None; PEl [] 0 None] 1 (Some 1)] 1 (Some 1))
  [("id", false, ("xs", "ID")); ("targetId", false, ("xs", "NCName"))] None [].

Definition ty_kml_ViewVolumeType : decl := mkDecl (PSeq [PSeq [PEl [] 0 None] 1 (Some 1); PSeq [PEl [("kml", "leftFov")] 0 (Some 1); PEl [("kml", "rightFov")] 0 (Some 1); PEl [("kml", "bottomFov")] 0 (Some 1); PEl [("kml", "topFov")] 0 (Some 1); PEl [("kml", "near")] 0 (Some 1); PEl [] 0 None; PEl [] 0 None] 1 (Some 1)] 1 (Some 1))
  [("id", false, ("xs", "ID")); ("targetId", false, ("xs", "NCName"))] None [].

Definition ty_kml_ImagePyramidType : decl := mkDecl (PSeq [PSeq [PEl [] 0 None] 1 (Some 1); PSeq [PEl [("kml", "tileSize")] 0 (Some 1); PEl [("kml", "maxWidth")] 0 (Some 1); PEl [("kml", "maxHeight")] 0 (Some 1); PEl [("kml", "gridOrigin")] 0 (Some 1); PEl [] 0 None; PEl [] 0 None] 1 (Some 1)] 1 (Some 1))
  [("id", false, ("xs", "ID")); ("targetId", false, ("xs", "NCName"))] None [].

Definition ty_kml_StyleType : decl := mkDecl (PSeq [PSeq [PEl [] 0 None] 1 (Some 1); PSeq [PEl [] 0 None; PEl [] 0 None] 1 (Some 1); PSeq [PEl [("kml", "IconStyle")] 0 (Some 1); PEl [("kml", "LabelStyle")] 0 (Some 1); PEl [("kml", "LineStyle")] 0 (Some 1); PEl [("kml", "PolyStyle")] 0 (Some 1); PEl [("kml", "BalloonStyle")] 0 (Some 1); PEl [("kml", "ListStyle")] 0 (Some 1); PEl [] 0 None; PEl [] 0 None] 1 (Some 1)] 1 (Some 1))
  [("id", false, ("xs", "ID")); ("targetId", false, ("xs", "NCName"))] None [].

Definition ty_kml_StyleMapType : decl := mkDecl (PSeq [PSeq [PEl [] 0 None] 1 (Some 1); PSeq [PEl [] 0 None; PEl [] 0 None] 1 (Some 1); PSeq [PEl [("kml", "Pair")] 0 None; PEl [] 0 None; PEl [] 0 None] 1 (Some 1)] 1 (Some 1))
  [("id", false, ("xs", "ID")); ("targetId", false, ("xs", "NCName"))] None [].

Definition ty_kml_PairType : decl := mkDecl (PSeq [PSeq [PEl [] 0 None] 1 (Some 1); PSeq [PEl [("kml", "key")] 0 (Some 1); PEl [("kml", "styleUrl")] 0 (Some 1); PEl [("kml", "Style"); ("kml", "StyleMap")] 0 (Some 1); PEl [] 0 None; PEl [] 0 None] 1 (Some 1)] 1 (Some 1))
  [("id", false, ("xs", "ID")); ("targetId", false, ("xs", "NCName"))] None [].

Definition ty_kml_IconStyleType : decl := mkDecl (PSeq [PSeq [PEl [] 0 None] 1 (Some 1); PSeq [PEl [] 0 None; PEl [] 0 None] 1 (Some 1); PSeq [PEl [("kml", "color")] 0 (Some 1); PEl [("kml", "colorMode")] 0 (Some 1); PEl [("gx", "labelVisibility")] 0 None; PEl [] 0 None] 1 (Some 1); PSeq [PEl [("kml", "scale")] 0 (Some 1); PEl [("kml", "heading")] 0 (Some 1); PEl [("kml", "Icon")] 0 (Some 1); PEl [("kml", "hotSpot")] 0 (Some 1); PEl [] 0 None; PEl [] 0 None] 1 (Some 1)] 1 (Some 1))
  [("id", false, ("xs", "ID")); ("targetId", false, ("xs", "NCName"))] None [(("kml", "Icon"), "ty_kml_BasicLinkType")].

Definition ty_kml_LabelStyleType : decl := mkDecl (PSeq [PSeq [PEl [] 0 None] 1 (Some 1); PSeq [PEl [] 0 None; PEl [] 0 None] 1 (Some 1); PSeq [PEl [("kml", "color")] 0 (Some 1); PEl [("kml", "colorMode")] 0 (Some 1); PEl [("gx", "labelVisibility")] 0 None; PEl [] 0 None] 1 (Some 1); PSeq [PEl [("kml", "scale")] 0 (Some 1); PEl [] 0 None; PEl [] 0 None] 1 (Some 1)] 1 (Some 1))
  [("id", false, ("xs", "ID")); ("targetId", false, ("xs", "NCName"))] None [].

Definition ty_kml_LineStyleType : decl := mkDecl (PSeq [PSeq [PEl [] 0 None] 1 (Some 1); PSeq [PEl [] 0 None; PEl [] 0 None] 1 (Some 1); PSeq [PEl [("kml", "color")] 0 (Some 1); PEl [("kml", "colorMode")] 0 (Some 1); PEl [("gx", "labelVisibility")] 0 None; PEl [] 0 None] 1 (Some 1); PSeq [PEl [("kml", "width")] 0 (Some 1); PEl [("gx", "outerColor"); ("gx", "outerWidth"); ("gx", "physicalWidth")] 0 None; PEl [] 0 None] 1 (Some 1)] 1 (Some 1))
  [("id", false, ("xs", "ID")); ("targetId", false, ("xs", "NCName"))] None [].

Definition ty_kml_PolyStyleType : decl := mkDecl (PSeq [PSeq [PEl [] 0 None] 1 (Some 1); PSeq [PEl [] 0 None; PEl [] 0 None] 1 (Some 1); PSeq [PEl [("kml", "color")] 0 (Some 1); PEl [("kml", "colorMode")] 0 (Some 1); PEl [("gx", "labelVisibility")] 0 None; PEl [] 0 None] 1 (Some 1); PSeq [PEl [("kml", "fill")] 0 (Some 1); PEl [("kml", "outline")] 0 (Some 1); PEl [] 0 None; PEl [] 0 None] 1 (Some 1)] 1 (Some 1))
  [("id", false, ("xs", "ID")); ("targetId", false, ("xs", "NCName"))] None [].

Definition ty_kml_BalloonStyleType : decl := mkDecl (PSeq [PSeq [PEl [] 0 None] 1 (Some 1); PSeq [PEl [] 0 None; PEl [] 0 None] 1 (Some 1); PSeq [PChoice [PEl [("kml", "color")] 0 (Some 1); PEl [("kml", "bgColor")] 0 (Some 1)] 1 (Some 1); PEl [("kml", "textColor")] 0 (Some 1); PEl [("kml", "text")] 0 (Some 1); PEl [("kml", "displayMode")] 0 (Some 1); PEl [] 0 None; PEl [] 0 None] 1 (Some 1)] 1 (Some 1))
  [("id", false, ("xs", "ID")); ("targetId", false, ("xs", "NCName"))] None [].

Definition ty_kml_ListStyleType : decl := mkDecl (PSeq [PSeq [PEl [] 0 None] 1 (Some 1); PSeq [PEl [] 0 None; PEl [] 0 None] 1 (Some 1); PSeq [PEl [("kml", "listItemType")] 0 (Some 1); PEl [("kml", "bgColor")] 0 (Some 1); PEl [("kml", "ItemIcon")] 0 None; PEl [("kml", "maxSnippetLines")] 0 (Some 1); PEl [] 0 None; PEl [] 0 None] 1 (Some 1)] 1 (Some 1))
  [("id", false, ("xs", "ID")); ("targetId", false, ("xs", "NCName"))] None [].

Definition ty_kml_ItemIconType : decl := mkDecl (PSeq [PSeq [PEl [] 0 None] 1 (Some 1); PSeq [PEl [("kml", "state")] 0 (Some 1); PEl [("kml", "href")] 0 (Some 1); PEl [] 0 None; PEl [] 0 None] 1 (Some 1)] 1 (Some 1))
  [("id", false, ("xs", "ID")); ("targetId", false, ("xs", "NCName"))] None [].

Definition ty_kml_TimeStampType : decl := mkDecl (PSeq [PSeq [PEl [] 0 None] 1 (Some 1); PSeq [PEl [] 0 None; PEl [] 0 None] 1 (Some 1); PSeq [PEl [("kml", "when")] 0 (Some 1); PEl [] 0 None; PEl [] 0 None] 1 (Some 1)] 1 (Some 1))
  [("id", false, ("xs", "ID")); ("targetId", false, ("xs", "NCName"))] None [].

Definition ty_kml_TimeSpanType : decl := mkDecl (PSeq [PSeq [PEl [] 0 None] 1 (Some 1); PSeq [PEl [] 0 None; PEl [] 0 None] 1 (Some 1); PSeq [PEl [("kml", "begin")] 0 (Some 1); PEl [("kml", "end")] 0 (Some 1); PEl [] 0 None; PEl [] 0 None] 1 (Some 1)] 1 (Some 1))
  [("id", false, ("xs", "ID")); ("targetId", false, ("xs", "NCName"))] None [].

Definition ty_kml_UpdateType : decl := mkDecl (PSeq [PEl [("kml", "targetHref")] 1 (Some 1); PChoice [PEl [("kml", "Create")] 1 (Some 1); PEl [("kml", "Delete")] 1 (Some 1); PEl [("kml", "Change")] 1 (Some 1); PEl [] 1 (Some 1)] 1 None; PEl [] 0 None] 1 (Some 1))
  [] None [].

Definition ty_kml_CreateType : decl := mkDecl (PSeq [PEl [("kml", "Document"); ("kml", "Folder")] 0 None] 1 (Some 1))
  [] None [].

Definition ty_kml_DeleteType : decl := mkDecl (PSeq [PEl [("kml", "Document"); ("kml", "Folder"); ("kml", "GroundOverlay"); ("kml", "ScreenOverlay"); ("kml", "PhotoOverlay"); ("kml", "Placemark"); ("kml", "NetworkLink"); ("gx", "Tour")] 0 None] 1 (Some 1))
  [] None [].

Definition ty_kml_ChangeType : decl := mkDecl (PSeq [PEl [("kml", "Document"); ("kml", "Folder"); ("kml", "GroundOverlay"); ("kml", "ScreenOverlay"); ("kml", "PhotoOverlay"); ("kml", "Placemark"); ("kml", "NetworkLink"); ("gx", "Tour"); ("kml", "LookAt"); ("kml", "Camera"); ("gx", "TimeStamp"); ("gx", "TimeSpan"); ("gx", "ViewerOptions"); ("kml", "SchemaData"); ("kml", "Data"); ("kml", "MultiGeometry"); ("kml", "Point"); ("kml", "LineString"); ("kml", "LinearRing"); ("kml", "Polygon"); ("kml", "Model"); ("gx", "Track"); ("gx", "MultiTrack"); ("kml", "Style"); ("kml", "StyleMap"); ("kml", "TimeStamp"); ("kml", "TimeSpan"); ("kml", "Region"); ("kml", "LatLonAltBox"); ("kml", "Lod"); ("kml", "Icon"); ("kml", "Link"); ("kml", "Url"); ("kml", "Location"); ("kml", "Orientation"); ("kml", "Scale"); ("kml", "ResourceMap"); ("kml", "Alias"); ("gx", "LatLonQuad"); ("kml", "LatLonBox"); ("kml", "ViewVolume"); ("kml", "ImagePyramid"); ("kml", "Pair"); ("kml", "IconStyle"); ("kml", "LabelStyle"); ("kml", "LineStyle"); ("kml", "PolyStyle"); ("kml", "BalloonStyle"); ("kml", "ListStyle"); ("kml", "ItemIcon"); ("gx", "AnimatedUpdate"); ("gx", "FlyTo"); ("gx", "SoundCue"); ("gx", "TourControl"); ("gx", "Wait"); ("gx", "Playlist")] 0 None] 1 (Some 1))
  [] None [].

Definition ty_gx_altitudeModeEnumType : decl := mkDecl (PSeq [] 1 (Some 1))
  [] (Some ("gx", "altitudeModeEnumType")) [].

Definition ty_xs_integer : decl := mkDecl (PSeq [] 1 (Some 1))
  [] (Some ("xs", "integer")) [].

Definition ty_gx_flyToModeEnumType : decl := mkDecl (PSeq [] 1 (Some 1))
  [] (Some ("gx", "flyToModeEnumType")) [].

Definition ty_gx_outerWidthType : decl := mkDecl (PSeq [] 1 (Some 1))
  [] (Some ("gx", "outerWidthType")) [].

Definition ty_xs_float : decl := mkDecl (PSeq [] 1 (Some 1))
  [] (Some ("xs", "float")) [].

Definition ty_gx_playModeEnumType : decl := mkDecl (PSeq [] 1 (Some 1))
  [] (Some ("gx", "playModeEnumType")) [].

Definition ty_gx_AbstractTourPrimitiveType : decl := mkDecl (PSeq [PEl [] 0 None] 1 (Some 1))
  [("id", false, ("xs", "ID")); ("targetId", false, ("xs", "NCName"))] None [].

Definition ty_gx_AnimatedUpdateType : decl := mkDecl (PSeq [PSeq [PEl [] 0 None] 1 (Some 1); PSeq [PEl [("gx", "duration")] 0 (Some 1); PEl [("kml", "Update")] 0 (Some 1); PEl [("gx", "delayedStart")] 0 (Some 1)] 1 (Some 1)] 1 (Some 1))
  [("id", false, ("xs", "ID")); ("targetId", false, ("xs", "NCName"))] None [].

Definition ty_gx_FlyToType : decl := mkDecl (PSeq [PSeq [PEl [] 0 None] 1 (Some 1); PSeq [PEl [("gx", "duration")] 0 (Some 1); PEl [("gx", "flyToMode")] 0 (Some 1); PEl [("kml", "LookAt"); ("kml", "Camera")] 0 (Some 1)] 1 (Some 1)] 1 (Some 1))
  [("id", false, ("xs", "ID")); ("targetId", false, ("xs", "NCName"))] None [].

Definition ty_gx_PlaylistType : decl := mkDecl (PSeq [PSeq [PEl [] 0 None] 1 (Some 1); PSeq [PEl [("gx", "AnimatedUpdate"); ("gx", "FlyTo"); ("gx", "SoundCue"); ("gx", "TourControl"); ("gx", "Wait")] 0 None] 1 (Some 1)] 1 (Some 1))
  [("id", false, ("xs", "ID")); ("targetId", false, ("xs", "NCName"))] None [].

Definition ty_gx_SoundCueType : decl := mkDecl (PSeq [PSeq [PEl [] 0 None] 1 (Some 1); PSeq [PEl [("kml", "href")] 0 (Some 1); PEl [("gx", "delayedStart")] 0 (Some 1)] 1 (Some 1)] 1 (Some 1))
  [("id", false, ("xs", "ID")); ("targetId", false, ("xs", "NCName"))] None [].

Definition ty_gx_TourType : decl := mkDecl (PSeq [PSeq [PEl [] 0 None] 1 (Some 1); PSeq [PEl [("kml", "name")] 0 (Some 1); PEl [("kml", "visibility")] 0 (Some 1); PEl [("kml", "open")] 0 (Some 1); PEl [("atom", "author")] 0 (Some 1); PEl [("atom", "link")] 0 (Some 1); PEl [("kml", "address")] 0 (Some 1); PEl [("xal", "AddressDetails")] 0 (Some 1); PEl [("kml", "phoneNumber")] 0 (Some 1); PChoice [PEl [("kml", "Snippet")] 0 (Some 1); PEl [("kml", "snippet")] 0 (Some 1)] 1 (Some 1); PEl [("kml", "description")] 0 (Some 1); PEl [("kml", "LookAt"); ("kml", "Camera")] 0 (Some 1); PEl [("kml", "TimeStamp"); ("kml", "TimeSpan")] 0 (Some 1); PEl [("kml", "styleUrl")] 0 (Some 1); PEl [("kml", "Style"); ("kml", "StyleMap")] 0 None; PEl [("kml", "Region")] 0 (Some 1); PChoice [PEl [("kml", "Metadata")] 0 (Some 1); PEl [("kml", "ExtendedData")] 0 (Some 1)] 1 (Some 1); PEl [("gx", "balloonVisibility"); ("gx", "rank")] 0 None; PEl [] 0 None] 1 (Some 1); PSeq [PEl [("gx", "Playlist")] 0 (Some 1)] 1 (Some 1)] 1 (Some 1))
  [("id", false, ("xs", "ID")); ("targetId", false, ("xs", "NCName"))] None [].

Definition ty_gx_TourControlType : decl := mkDecl (PSeq [PSeq [PEl [] 0 None] 1 (Some 1); PSeq [PEl [("gx", "playMode")] 0 (Some 1)] 1 (Some 1)] 1 (Some 1))
  [("id", false, ("xs", "ID")); ("targetId", false, ("xs", "NCName"))] None [].

Definition ty_gx_WaitType : decl := mkDecl (PSeq [PSeq [PEl [] 0 None] 1 (Some 1); PSeq [PEl [("gx", "duration")] 0 (Some 1)] 1 (Some 1)] 1 (Some 1))
  [("id", false, ("xs", "ID")); ("targetId", false, ("xs", "NCName"))] None [].

Definition ty_gx_LatLonQuadType : decl := mkDecl (PSeq [PSeq [PEl [] 0 None] 1 (Some 1); PSeq [PEl [("kml", "coordinates")] 0 (Some 1)] 1 (Some 1)] 1 (Some 1))
  [("id", false, ("xs", "ID")); ("targetId", false, ("xs", "NCName"))] None [].

Definition ty_gx_TrackType : decl := mkDecl (PSeq [PSeq [PEl [] 0 None] 1 (Some 1); PSeq [PEl [("gx", "altitudeOffset"); ("gx", "drawOrder")] 0 None; PEl [] 0 None] 1 (Some 1); PSeq [PEl [("kml", "extrude")] 0 (Some 1); PEl [("kml", "tessellate")] 0 (Some 1); PEl [("kml", "altitudeMode"); ("gx", "altitudeMode")] 0 (Some 1); PEl [("kml", "when")] 0 None; PEl [("gx", "coord")] 0 None; PEl [("gx", "angles")] 0 None; PEl [("kml", "Model")] 0 (Some 1); PEl [("kml", "ExtendedData")] 0 (Some 1); PEl [] 0 None] 1 (Some 1)] 1 (Some 1))
  [("id", false, ("xs", "ID")); ("targetId", false, ("xs", "NCName"))] None [].

Definition ty_gx_MultiTrackType : decl := mkDecl (PSeq [PSeq [PEl [] 0 None] 1 (Some 1); PSeq [PEl [("gx", "altitudeOffset"); ("gx", "drawOrder")] 0 None; PEl [] 0 None] 1 (Some 1); PSeq [PEl [("kml", "altitudeMode"); ("gx", "altitudeMode")] 0 (Some 1); PEl [("gx", "interpolate")] 0 (Some 1); PEl [("gx", "Track")] 0 None] 1 (Some 1)] 1 (Some 1))
  [("id", false, ("xs", "ID")); ("targetId", false, ("xs", "NCName"))] None [].

Definition ty_gx_SimpleArrayFieldType : decl := mkDecl (PSeq [PEl [("kml", "displayName")] 0 (Some 1); PEl [] 0 None] 1 (Some 1))
  [("type", false, ("xs", "string")); ("name", false, ("xs", "string"))] None [].

Definition ty_gx_SimpleArrayDataType : decl := mkDecl (PSeq [PSeq [PEl [] 0 None] 1 (Some 1); PSeq [PEl [("gx", "value")] 0 None; PEl [] 0 None] 1 (Some 1)] 1 (Some 1))
  [("id", false, ("xs", "ID")); ("targetId", false, ("xs", "NCName")); ("name", false, ("xs", "string"))] None [].

Definition ty_gx_ViewerOptionsType : decl := mkDecl (PSeq [PSeq [PEl [] 0 None] 1 (Some 1); PSeq [PEl [("gx", "option")] 1 None] 1 (Some 1)] 1 (Some 1))
  [("id", false, ("xs", "ID")); ("targetId", false, ("xs", "NCName"))] None [].

Definition ty_gx_optionType : decl := mkDecl (PSeq [] 1 (Some 1))
  [("name", false, ("xs", "string")); ("enabled", false, ("xs", "boolean"))] None [].

Definition ty_atom_atomEmailAddress : decl := mkDecl (PSeq [] 1 (Some 1))
  [] (Some ("atom", "atomEmailAddress")) [].

Definition ty_atom_atomPersonConstruct : decl := mkDecl (PChoice [PEl [("atom", "name")] 1 (Some 1); PEl [("atom", "uri")] 1 (Some 1); PEl [("atom", "email")] 1 (Some 1)] 0 None)
  [] None [].

Definition ty_anon_atom_link : decl := mkDecl (PSeq [] 1 (Some 1))
  [("href", true, ("xs", "anySimpleType")); ("rel", false, ("xs", "anySimpleType")); ("type", false, ("atom", "atomMediaType")); ("hreflang", false, ("atom", "atomLanguageTag")); ("title", false, ("xs", "anySimpleType")); ("length", false, ("xs", "anySimpleType"))] None [].

Definition ty_kml_BasicLinkType : decl := mkDecl (PSeq [PSeq [PEl [] 0 None] 1 (Some 1); PSeq [PEl [("kml", "href")] 0 (Some 1); PEl [("gx", "x"); ("gx", "y"); ("gx", "w"); ("gx", "h")] 0 None; PEl [] 0 None] 1 (Some 1)] 1 (Some 1))
  [("id", false, ("xs", "ID")); ("targetId", false, ("xs", "NCName"))] None [].

Definition schema_types : list (string * decl) :=
  [("ty_xs_string", ty_xs_string);
   ("ty_xs_double", ty_xs_double);
   ("ty_kml_altitudeModeEnumType", ty_kml_altitudeModeEnumType);
   ("ty_kml_dateTimeType", ty_kml_dateTimeType);
   ("ty_kml_colorType", ty_kml_colorType);
   ("ty_kml_angle90Type", ty_kml_angle90Type);
   ("ty_kml_colorModeEnumType", ty_kml_colorModeEnumType);
   ("ty_kml_coordinatesType", ty_kml_coordinatesType);
   ("ty_kml_displayModeEnumType", ty_kml_displayModeEnumType);
   ("ty_xs_int", ty_xs_int);
   ("ty_kml_angle180Type", ty_kml_angle180Type);
   ("ty_xs_boolean", ty_xs_boolean);
   ("ty_kml_gridOriginEnumType", ty_kml_gridOriginEnumType);
   ("ty_kml_angle360Type", ty_kml_angle360Type);
   ("ty_kml_vec2Type", ty_kml_vec2Type);
   ("ty_kml_styleStateEnumType", ty_kml_styleStateEnumType);
   ("ty_kml_SnippetType", ty_kml_SnippetType);
   ("ty_kml_listItemTypeEnumType", ty_kml_listItemTypeEnumType);
   ("ty_kml_refreshModeEnumType", ty_kml_refreshModeEnumType);
   ("ty_kml_shapeEnumType", ty_kml_shapeEnumType);
   ("ty_xs_anyURI", ty_xs_anyURI);
   ("ty_kml_itemIconStateType", ty_kml_itemIconStateType);
   ("ty_kml_anglepos180Type", ty_kml_anglepos180Type);
   ("ty_kml_viewRefreshModeEnumType", ty_kml_viewRefreshModeEnumType);
   ("ty_kml_LookAtType", ty_kml_LookAtType);
   ("ty_kml_CameraType", ty_kml_CameraType);
   ("ty_kml_MetadataType", ty_kml_MetadataType);
   ("ty_kml_ExtendedDataType", ty_kml_ExtendedDataType);
   ("ty_kml_SchemaDataType", ty_kml_SchemaDataType);
   ("ty_kml_SimpleDataType", ty_kml_SimpleDataType);
   ("ty_kml_DataType", ty_kml_DataType);
   ("ty_kml_KmlType", ty_kml_KmlType);
   ("ty_kml_NetworkLinkControlType", ty_kml_NetworkLinkControlType);
   ("ty_kml_DocumentType", ty_kml_DocumentType);
   ("ty_kml_SchemaType", ty_kml_SchemaType);
   ("ty_kml_SimpleFieldType", ty_kml_SimpleFieldType);
   ("ty_kml_FolderType", ty_kml_FolderType);
   ("ty_kml_PlacemarkType", ty_kml_PlacemarkType);
   ("ty_kml_NetworkLinkType", ty_kml_NetworkLinkType);
   ("ty_kml_RegionType", ty_kml_RegionType);
   ("ty_kml_LatLonAltBoxType", ty_kml_LatLonAltBoxType);
   ("ty_kml_LodType", ty_kml_LodType);
   ("ty_kml_LinkType", ty_kml_LinkType);
   ("ty_kml_MultiGeometryType", ty_kml_MultiGeometryType);
   ("ty_kml_PointType", ty_kml_PointType);
   ("ty_kml_LineStringType", ty_kml_LineStringType);
   ("ty_kml_LinearRingType", ty_kml_LinearRingType);
   ("ty_kml_PolygonType", ty_kml_PolygonType);
   ("ty_kml_BoundaryType", ty_kml_BoundaryType);
   ("ty_kml_ModelType", ty_kml_ModelType);
   ("ty_kml_LocationType", ty_kml_LocationType);
   ("ty_kml_OrientationType", ty_kml_OrientationType);
   ("ty_kml_ScaleType", ty_kml_ScaleType);
   ("ty_kml_ResourceMapType", ty_kml_ResourceMapType);
   ("ty_kml_AliasType", ty_kml_AliasType);
   ("ty_kml_GroundOverlayType", ty_kml_GroundOverlayType);
   ("ty_kml_LatLonBoxType", ty_kml_LatLonBoxType);
   ("ty_kml_ScreenOverlayType", ty_kml_ScreenOverlayType);
   ("ty_kml_PhotoOverlayType", ty_kml_PhotoOverlayType);
   ("ty_kml_ViewVolumeType", ty_kml_ViewVolumeType);
   ("ty_kml_ImagePyramidType", ty_kml_ImagePyramidType);
   ("ty_kml_StyleType", ty_kml_StyleType);
   ("ty_kml_StyleMapType", ty_kml_StyleMapType);
   ("ty_kml_PairType", ty_kml_PairType);
   ("ty_kml_IconStyleType", ty_kml_IconStyleType);
   ("ty_kml_LabelStyleType", ty_kml_LabelStyleType);
   ("ty_kml_LineStyleType", ty_kml_LineStyleType);
   ("ty_kml_PolyStyleType", ty_kml_PolyStyleType);
   ("ty_kml_BalloonStyleType", ty_kml_BalloonStyleType);
   ("ty_kml_ListStyleType", ty_kml_ListStyleType);
   ("ty_kml_ItemIconType", ty_kml_ItemIconType);
   ("ty_kml_TimeStampType", ty_kml_TimeStampType);
   ("ty_kml_TimeSpanType", ty_kml_TimeSpanType);
   ("ty_kml_UpdateType", ty_kml_UpdateType);
   ("ty_kml_CreateType", ty_kml_CreateType);
   ("ty_kml_DeleteType", ty_kml_DeleteType);
   ("ty_kml_ChangeType", ty_kml_ChangeType);
   ("ty_gx_altitudeModeEnumType", ty_gx_altitudeModeEnumType);
   ("ty_xs_integer", ty_xs_integer);
   ("ty_gx_flyToModeEnumType", ty_gx_flyToModeEnumType);
   ("ty_gx_outerWidthType", ty_gx_outerWidthType);
   ("ty_xs_float", ty_xs_float);
   ("ty_gx_playModeEnumType", ty_gx_playModeEnumType);
   ("ty_gx_AbstractTourPrimitiveType", ty_gx_AbstractTourPrimitiveType);
   ("ty_gx_AnimatedUpdateType", ty_gx_AnimatedUpdateType);
   ("ty_gx_FlyToType", ty_gx_FlyToType);
   ("ty_gx_PlaylistType", ty_gx_PlaylistType);
   ("ty_gx_SoundCueType", ty_gx_SoundCueType);
   ("ty_gx_TourType", ty_gx_TourType);
   ("ty_gx_TourControlType", ty_gx_TourControlType);
   ("ty_gx_WaitType", ty_gx_WaitType);
   ("ty_gx_LatLonQuadType", ty_gx_LatLonQuadType);
   ("ty_gx_TrackType", ty_gx_TrackType);
   ("ty_gx_MultiTrackType", ty_gx_MultiTrackType);
   ("ty_gx_SimpleArrayFieldType", ty_gx_SimpleArrayFieldType);
   ("ty_gx_SimpleArrayDataType", ty_gx_SimpleArrayDataType);
   ("ty_gx_ViewerOptionsType", ty_gx_ViewerOptionsType);
   ("ty_gx_optionType", ty_gx_optionType);
   ("ty_atom_atomEmailAddress", ty_atom_atomEmailAddress);
   ("ty_atom_atomPersonConstruct", ty_atom_atomPersonConstruct);
   ("ty_anon_atom_link", ty_anon_atom_link);
   ("ty_kml_BasicLinkType", ty_kml_BasicLinkType)].

Definition schema_elements : list (sname * string) :=
  [(("kml", "address"), "ty_xs_string");
   (("kml", "altitude"), "ty_xs_double");
   (("kml", "altitudeMode"), "ty_kml_altitudeModeEnumType");
   (("kml", "begin"), "ty_kml_dateTimeType");
   (("kml", "bgColor"), "ty_kml_colorType");
   (("kml", "bottomFov"), "ty_kml_angle90Type");
   (("kml", "color"), "ty_kml_colorType");
   (("kml", "colorMode"), "ty_kml_colorModeEnumType");
   (("kml", "cookie"), "ty_xs_string");
   (("kml", "coordinates"), "ty_kml_coordinatesType");
   (("kml", "description"), "ty_xs_string");
   (("kml", "displayName"), "ty_xs_string");
   (("kml", "displayMode"), "ty_kml_displayModeEnumType");
   (("kml", "drawOrder"), "ty_xs_int");
   (("kml", "east"), "ty_kml_angle180Type");
   (("kml", "end"), "ty_kml_dateTimeType");
   (("kml", "expires"), "ty_kml_dateTimeType");
   (("kml", "extrude"), "ty_xs_boolean");
   (("kml", "fill"), "ty_xs_boolean");
   (("kml", "flyToView"), "ty_xs_boolean");
   (("kml", "gridOrigin"), "ty_kml_gridOriginEnumType");
   (("kml", "heading"), "ty_kml_angle360Type");
   (("kml", "href"), "ty_xs_string");
   (("kml", "httpQuery"), "ty_xs_string");
   (("kml", "hotSpot"), "ty_kml_vec2Type");
   (("kml", "key"), "ty_kml_styleStateEnumType");
   (("kml", "latitude"), "ty_kml_angle90Type");
   (("kml", "leftFov"), "ty_kml_angle180Type");
   (("kml", "linkDescription"), "ty_xs_string");
   (("kml", "linkName"), "ty_xs_string");
   (("kml", "linkSnippet"), "ty_kml_SnippetType");
   (("kml", "listItemType"), "ty_kml_listItemTypeEnumType");
   (("kml", "longitude"), "ty_kml_angle180Type");
   (("kml", "maxSnippetLines"), "ty_xs_int");
   (("kml", "maxSessionLength"), "ty_xs_double");
   (("kml", "message"), "ty_xs_string");
   (("kml", "minAltitude"), "ty_xs_double");
   (("kml", "minFadeExtent"), "ty_xs_double");
   (("kml", "minLodPixels"), "ty_xs_double");
   (("kml", "minRefreshPeriod"), "ty_xs_double");
   (("kml", "maxAltitude"), "ty_xs_double");
   (("kml", "maxFadeExtent"), "ty_xs_double");
   (("kml", "maxLodPixels"), "ty_xs_double");
   (("kml", "maxHeight"), "ty_xs_int");
   (("kml", "maxWidth"), "ty_xs_int");
   (("kml", "name"), "ty_xs_string");
   (("kml", "near"), "ty_xs_double");
   (("kml", "north"), "ty_kml_angle180Type");
   (("kml", "open"), "ty_xs_boolean");
   (("kml", "outline"), "ty_xs_boolean");
   (("kml", "overlayXY"), "ty_kml_vec2Type");
   (("kml", "phoneNumber"), "ty_xs_string");
   (("kml", "range"), "ty_xs_double");
   (("kml", "refreshMode"), "ty_kml_refreshModeEnumType");
   (("kml", "refreshInterval"), "ty_xs_double");
   (("kml", "refreshVisibility"), "ty_xs_boolean");
   (("kml", "rightFov"), "ty_kml_angle180Type");
   (("kml", "roll"), "ty_kml_angle180Type");
   (("kml", "rotation"), "ty_kml_angle180Type");
   (("kml", "rotationXY"), "ty_kml_vec2Type");
   (("kml", "scale"), "ty_xs_double");
   (("kml", "screenXY"), "ty_kml_vec2Type");
   (("kml", "shape"), "ty_kml_shapeEnumType");
   (("kml", "size"), "ty_kml_vec2Type");
   (("kml", "south"), "ty_kml_angle180Type");
   (("kml", "sourceHref"), "ty_xs_anyURI");
   (("kml", "snippet"), "ty_xs_string");
   (("kml", "state"), "ty_kml_itemIconStateType");
   (("kml", "styleUrl"), "ty_xs_anyURI");
   (("kml", "targetHref"), "ty_xs_anyURI");
   (("kml", "tessellate"), "ty_xs_boolean");
   (("kml", "text"), "ty_xs_string");
   (("kml", "textColor"), "ty_kml_colorType");
   (("kml", "tileSize"), "ty_xs_int");
   (("kml", "tilt"), "ty_kml_anglepos180Type");
   (("kml", "topFov"), "ty_kml_angle90Type");
   (("kml", "value"), "ty_xs_string");
   (("kml", "viewBoundScale"), "ty_xs_double");
   (("kml", "viewFormat"), "ty_xs_string");
   (("kml", "viewRefreshMode"), "ty_kml_viewRefreshModeEnumType");
   (("kml", "viewRefreshTime"), "ty_xs_double");
   (("kml", "visibility"), "ty_xs_boolean");
   (("kml", "west"), "ty_kml_angle180Type");
   (("kml", "when"), "ty_kml_dateTimeType");
   (("kml", "width"), "ty_xs_double");
   (("kml", "x"), "ty_xs_double");
   (("kml", "y"), "ty_xs_double");
   (("kml", "z"), "ty_xs_double");
   (("kml", "Snippet"), "ty_kml_SnippetType");
   (("kml", "LookAt"), "ty_kml_LookAtType");
   (("kml", "Camera"), "ty_kml_CameraType");
   (("kml", "Metadata"), "ty_kml_MetadataType");
   (("kml", "ExtendedData"), "ty_kml_ExtendedDataType");
   (("kml", "SchemaData"), "ty_kml_SchemaDataType");
   (("kml", "SimpleData"), "ty_kml_SimpleDataType");
   (("kml", "Data"), "ty_kml_DataType");
   (("kml", "kml"), "ty_kml_KmlType");
   (("kml", "NetworkLinkControl"), "ty_kml_NetworkLinkControlType");
   (("kml", "Document"), "ty_kml_DocumentType");
   (("kml", "Schema"), "ty_kml_SchemaType");
   (("kml", "SimpleField"), "ty_kml_SimpleFieldType");
   (("kml", "Folder"), "ty_kml_FolderType");
   (("kml", "Placemark"), "ty_kml_PlacemarkType");
   (("kml", "NetworkLink"), "ty_kml_NetworkLinkType");
   (("kml", "Region"), "ty_kml_RegionType");
   (("kml", "LatLonAltBox"), "ty_kml_LatLonAltBoxType");
   (("kml", "Lod"), "ty_kml_LodType");
   (("kml", "Icon"), "ty_kml_LinkType");
   (("kml", "Link"), "ty_kml_LinkType");
   (("kml", "Url"), "ty_kml_LinkType");
   (("kml", "MultiGeometry"), "ty_kml_MultiGeometryType");
   (("kml", "Point"), "ty_kml_PointType");
   (("kml", "LineString"), "ty_kml_LineStringType");
   (("kml", "LinearRing"), "ty_kml_LinearRingType");
   (("kml", "Polygon"), "ty_kml_PolygonType");
   (("kml", "outerBoundaryIs"), "ty_kml_BoundaryType");
   (("kml", "innerBoundaryIs"), "ty_kml_BoundaryType");
   (("kml", "Model"), "ty_kml_ModelType");
   (("kml", "Location"), "ty_kml_LocationType");
   (("kml", "Orientation"), "ty_kml_OrientationType");
   (("kml", "Scale"), "ty_kml_ScaleType");
   (("kml", "ResourceMap"), "ty_kml_ResourceMapType");
   (("kml", "Alias"), "ty_kml_AliasType");
   (("kml", "GroundOverlay"), "ty_kml_GroundOverlayType");
   (("kml", "LatLonBox"), "ty_kml_LatLonBoxType");
   (("kml", "ScreenOverlay"), "ty_kml_ScreenOverlayType");
   (("kml", "PhotoOverlay"), "ty_kml_PhotoOverlayType");
   (("kml", "ViewVolume"), "ty_kml_ViewVolumeType");
   (("kml", "ImagePyramid"), "ty_kml_ImagePyramidType");
   (("kml", "Style"), "ty_kml_StyleType");
   (("kml", "StyleMap"), "ty_kml_StyleMapType");
   (("kml", "Pair"), "ty_kml_PairType");
   (("kml", "IconStyle"), "ty_kml_IconStyleType");
   (("kml", "LabelStyle"), "ty_kml_LabelStyleType");
   (("kml", "LineStyle"), "ty_kml_LineStyleType");
   (("kml", "PolyStyle"), "ty_kml_PolyStyleType");
   (("kml", "BalloonStyle"), "ty_kml_BalloonStyleType");
   (("kml", "ListStyle"), "ty_kml_ListStyleType");
   (("kml", "ItemIcon"), "ty_kml_ItemIconType");
   (("kml", "TimeStamp"), "ty_kml_TimeStampType");
   (("kml", "TimeSpan"), "ty_kml_TimeSpanType");
   (("kml", "Update"), "ty_kml_UpdateType");
   (("kml", "Create"), "ty_kml_CreateType");
   (("kml", "Delete"), "ty_kml_DeleteType");
   (("kml", "Change"), "ty_kml_ChangeType");
   (("gx", "altitudeMode"), "ty_gx_altitudeModeEnumType");
   (("gx", "altitudeOffset"), "ty_xs_double");
   (("gx", "angles"), "ty_xs_string");
   (("gx", "balloonVisibility"), "ty_xs_boolean");
   (("gx", "coord"), "ty_xs_string");
   (("gx", "delayedStart"), "ty_xs_double");
   (("gx", "drawOrder"), "ty_xs_integer");
   (("gx", "duration"), "ty_xs_double");
   (("gx", "flyToMode"), "ty_gx_flyToModeEnumType");
   (("gx", "horizFov"), "ty_kml_anglepos180Type");
   (("gx", "interpolate"), "ty_xs_boolean");
   (("gx", "labelVisibility"), "ty_xs_boolean");
   (("gx", "outerColor"), "ty_kml_colorType");
   (("gx", "outerWidth"), "ty_gx_outerWidthType");
   (("gx", "physicalWidth"), "ty_xs_float");
   (("gx", "playMode"), "ty_gx_playModeEnumType");
   (("gx", "rank"), "ty_xs_double");
   (("gx", "value"), "ty_xs_string");
   (("gx", "x"), "ty_xs_integer");
   (("gx", "y"), "ty_xs_integer");
   (("gx", "w"), "ty_xs_integer");
   (("gx", "h"), "ty_xs_integer");
   (("gx", "AbstractTourPrimitive"), "ty_gx_AbstractTourPrimitiveType");
   (("gx", "AnimatedUpdate"), "ty_gx_AnimatedUpdateType");
   (("gx", "FlyTo"), "ty_gx_FlyToType");
   (("gx", "Playlist"), "ty_gx_PlaylistType");
   (("gx", "SoundCue"), "ty_gx_SoundCueType");
   (("gx", "Tour"), "ty_gx_TourType");
   (("gx", "TimeStamp"), "ty_kml_TimeStampType");
   (("gx", "TimeSpan"), "ty_kml_TimeSpanType");
   (("gx", "TourControl"), "ty_gx_TourControlType");
   (("gx", "Wait"), "ty_gx_WaitType");
   (("gx", "LatLonQuad"), "ty_gx_LatLonQuadType");
   (("gx", "Track"), "ty_gx_TrackType");
   (("gx", "MultiTrack"), "ty_gx_MultiTrackType");
   (("gx", "SimpleArrayField"), "ty_gx_SimpleArrayFieldType");
   (("gx", "SimpleArrayData"), "ty_gx_SimpleArrayDataType");
   (("gx", "ViewerOptions"), "ty_gx_ViewerOptionsType");
   (("gx", "option"), "ty_gx_optionType");
   (("atom", "name"), "ty_xs_string");
   (("atom", "uri"), "ty_xs_string");
   (("atom", "email"), "ty_atom_atomEmailAddress");
   (("atom", "author"), "ty_atom_atomPersonConstruct");
   (("atom", "link"), "ty_anon_atom_link")].

(** The simple types that list their values. *)
Definition schema_enums : list (sname * list string) :=
  [("kml", "altitudeModeEnumType", ["clampToGround"; "relativeToGround"; "absolute"]);
   ("kml", "colorModeEnumType", ["normal"; "random"]);
   ("kml", "displayModeEnumType", ["default"; "hide"]);
   ("kml", "gridOriginEnumType", ["lowerLeft"; "upperLeft"]);
   ("kml", "itemIconStateEnumType", ["open"; "closed"; "error"; "fetching0"; "fetching1"; "fetching2"]);
   ("kml", "listItemTypeEnumType", ["radioFolder"; "check"; "checkHideChildren"; "checkOffOnly"]);
   ("kml", "refreshModeEnumType", ["onChange"; "onInterval"; "onExpire"]);
   ("kml", "viewRefreshModeEnumType", ["never"; "onRequest"; "onStop"; "onRegion"]);
   ("kml", "shapeEnumType", ["rectangle"; "cylinder"; "sphere"]);
   ("kml", "styleStateEnumType", ["normal"; "highlight"]);
   ("kml", "unitsEnumType", ["fraction"; "pixels"; "insetPixels"]);
   ("gx", "altitudeModeEnumType", ["clampToSeaFloor"; "relativeToSeaFloor"]);
   ("gx", "flyToModeEnumType", ["bounce"; "smooth"]);
   ("gx", "playModeEnumType", ["pause"])].

(** The default values of the elements and, by type, of the attributes. *)
Definition schema_defaults : list (sname * string) :=
  [(("kml", "altitude"), "0.0");
   (("kml", "altitudeMode"), "clampToGround");
   (("kml", "bgColor"), "ffffffff");
   (("kml", "bottomFov"), "0.0");
   (("kml", "color"), "ffffffff");
   (("kml", "colorMode"), "normal");
   (("kml", "displayMode"), "default");
   (("kml", "drawOrder"), "0");
   (("kml", "east"), "180.0");
   (("kml", "extrude"), "0");
   (("kml", "fill"), "1");
   (("kml", "flyToView"), "0");
   (("kml", "gridOrigin"), "lowerLeft");
   (("kml", "heading"), "0.0");
   (("kml", "key"), "normal");
   (("kml", "latitude"), "0.0");
   (("kml", "leftFov"), "0.0");
   (("kml", "listItemType"), "check");
   (("kml", "longitude"), "0.0");
   (("kml", "maxSnippetLines"), "2");
   (("kml", "maxSessionLength"), "-1.0");
   (("kml", "minAltitude"), "0.0");
   (("kml", "minFadeExtent"), "0.0");
   (("kml", "minLodPixels"), "0.0");
   (("kml", "minRefreshPeriod"), "0.0");
   (("kml", "maxAltitude"), "0.0");
   (("kml", "maxFadeExtent"), "0.0");
   (("kml", "maxLodPixels"), "-1.0");
   (("kml", "maxHeight"), "0");
   (("kml", "maxWidth"), "0");
   (("kml", "near"), "0.0");
   (("kml", "north"), "180.0");
   (("kml", "open"), "0");
   (("kml", "outline"), "1");
   (("kml", "range"), "0.0");
   (("kml", "refreshMode"), "onChange");
   (("kml", "refreshInterval"), "4.0");
   (("kml", "refreshVisibility"), "0");
   (("kml", "rightFov"), "0.0");
   (("kml", "roll"), "0.0");
   (("kml", "rotation"), "0.0");
   (("kml", "scale"), "1.0");
   (("kml", "shape"), "rectangle");
   (("kml", "south"), "-180.0");
   (("kml", "tessellate"), "0");
   (("kml", "textColor"), "ff000000");
   (("kml", "tileSize"), "256");
   (("kml", "tilt"), "0.0");
   (("kml", "topFov"), "0.0");
   (("kml", "viewBoundScale"), "1.0");
   (("kml", "viewRefreshMode"), "never");
   (("kml", "viewRefreshTime"), "4.0");
   (("kml", "visibility"), "1");
   (("kml", "west"), "-180.0");
   (("kml", "width"), "1.0");
   (("kml", "x"), "1.0");
   (("kml", "y"), "1.0");
   (("kml", "z"), "1.0");
   (("gx", "balloonVisibility"), "true");
   (("gx", "delayedStart"), "0.0");
   (("gx", "drawOrder"), "0");
   (("gx", "duration"), "0.0");
   (("gx", "flyToMode"), "bounce");
   (("gx", "interpolate"), "false");
   (("gx", "labelVisibility"), "0");
   (("gx", "outerColor"), "ffffffff");
   (("gx", "outerWidth"), "0.0");
   (("gx", "physicalWidth"), "0.0");
   (("gx", "playMode"), "pause");
   (("gx", "rank"), "0.0");
   (("gx", "x"), "0");
   (("gx", "y"), "0");
   (("gx", "w"), "-1");
   (("gx", "h"), "-1")].

Definition schema_attr_defaults : list (string * list (string * string)) :=
  [("ty_kml_vec2Type", [("x", "1.0"); ("y", "1.0"); ("xunits", "fraction"); ("yunits", "fraction")]);
   ("ty_kml_SnippetType", [("maxLines", "2")])].
