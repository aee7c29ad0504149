(** * Constructors that build children: geometries, boundaries, icons.

    [construct] (Codec.v) covers the constructors as the reader calls them.
    Here are the arguments that only a caller uses: [geometry] and
    [icon_href].  A geometry is a pygeoif object (Geom.v); pygeoif's [shape],
    which geometry.py:1419 applies to the argument, gives back an equal
    geometry and is not modelled. *)
From Coq Require Import String List NArith ZArith Bool.
From Verif Require Import Ustr Res PyInt PyFloat PyDate Value Geom Codec.
Import ListNotations.
Local Open Scope string_scope.

(** [cls(ns=ns, name_spaces=nss, **kws)] with base.py:80-84: the name space
    of the class is used when [ns] is [None]. *)
Definition new (W : world) (c : string) (ns : option ustr) (nss : nss_t) (kws : list (string * value)) : res value :=
  construct W c (match ns with Some n => n | None => default_ns W c (merge_ns nss) end) nss kws.

(** [geometry.coords] of a point, line or ring. *)
Definition geo_coords (g : geo) : list (list num) :=
  match g with GPoint c => [c] | GLine l | GRing l => l | _ => [] end.

(** geometry.py:413-421 (Point), 591-594 (LineString), 774-784 (LinearRing):
    [cls(ns, name_spaces, geometry=g, **kws)]. *)
Definition new_from_coords (W : world) (c : string) (ns : option ustr) (nss : nss_t) (g : option geo) (kws : list (string * value)) : res value :=
  let k := kwget kws "kml_coordinates" in
  match g with
  | Some g' =>
      if negb (is_none k) then Err EGeometry
      else
        let! k' := if geo_empty g' then Ok VNone
                   else new W "geometry.Coordinates" None [] [("coords", VCoords true (geo_coords g'))] in
        new W c ns nss (("kml_coordinates", k') :: kws)
  | None => new W c ns nss kws
  end.

(** geometry.py:858-870 [BoundaryIs.__init__] *)
Definition new_boundary (W : world) (c : string) (ns : option ustr) (nss : nss_t) (g : option geo) (kws : list (string * value)) : res value :=
  let k := kwget kws "kml_geometry" in
  match g with
  | Some g' =>
      if negb (is_none k) then Err EGeometry
      else
        let! k' := if geo_empty g' then Ok VNone
                   else new_from_coords W "geometry.LinearRing" ns nss (Some g') [] in
        new W c ns nss (("kml_geometry", k') :: kws)
  | None => new W c ns nss kws
  end.

(** geometry.py:1036-1054 [Polygon.__init__]; the geometry is given by its
    exterior and its interiors. *)
Definition new_polygon (W : world) (ns : option ustr) (nss : nss_t) (g : option (list (list num) * list (list (list num)))) (kws : list (string * value)) : res value :=
  match g with
  | Some (shell, holes) =>
      if negb (is_none (kwget kws "outer_boundary")) then Err EGeometry
      else
        let! o := new_boundary W "geometry.OuterBoundaryIs" None [] (Some (GRing shell)) [] in
        let! is_ := map_res (fun h => new_boundary W "geometry.InnerBoundaryIs" None [] (Some (GRing h)) []) holes in
        new W "geometry.Polygon" ns nss (("outer_boundary", o) :: ("inner_boundaries", VList is_) :: kws)
  | None => new W "geometry.Polygon" ns nss kws
  end.

(** The arguments that MultiGeometry hands to its members. *)
Record gopts := mkOpts { o_extrude : value; o_tessellate : value; o_altitude : value }.

Definition opts_kws (id tid : value) (o : gopts) : list (string * value) :=
  [("id", id); ("target_id", tid); ("extrude", o_extrude o); ("tessellate", o_tessellate o); ("altitude_mode", o_altitude o)].

(** geometry.py:1377-1435 [create_kml_geometry]; for the multi-geometries
    geometry.py:1293-1316 [MultiGeometry.__init__] with [geometry=g].
    geometry.py:1360-1374 [_unknown_geometry_type] is for objects that are no
    pygeoif geometries, which [geo] does not contain. *)
Fixpoint create_kml_geometry (W : world) (ns : option ustr) (nss : nss_t) (id tid : value) (o : gopts) (g : geo) {struct g} : res value :=
  let kws := opts_kws id tid o in
  let multi (members : list (res value)) :=
    let! l := seq_res members in new W "geometry.MultiGeometry" ns nss (("kml_geometries", VList l) :: kws) in
  match g with
  | GPoint _ => new_from_coords W "geometry.Point" ns nss (Some g) kws
  | GPoly s hs => new_polygon W ns nss (Some (s, hs)) kws
  | GRing _ => new_from_coords W "geometry.LinearRing" ns nss (Some g) kws
  | GLine _ => new_from_coords W "geometry.LineString" ns nss (Some g) kws
  | GMPoint l => multi (map (fun c => new_from_coords W "geometry.Point" ns nss (Some (GPoint c)) (opts_kws VNone VNone o)) l)
  | GMLine l => multi (map (fun c => new_from_coords W "geometry.LineString" ns nss (Some (GLine c)) (opts_kws VNone VNone o)) l)
  | GMPoly l => multi (map (fun p => new_polygon W ns nss (Some p) (opts_kws VNone VNone o)) l)
  | GColl l => multi (map (create_kml_geometry W ns nss VNone VNone o) l)
  end.

(** [geometry.geoms] *)
Definition geoms (g : geo) : option (list geo) :=
  match g with
  | GMPoint l => Some (map GPoint l)
  | GMLine l => Some (map GLine l)
  | GMPoly l => Some (map (fun p => GPoly (fst p) (snd p)) l)
  | GColl l => Some l
  | _ => None
  end.

(** geometry.py:1293-1317 [MultiGeometry.__init__]; only multi-geometries have
    [geoms]. *)
Definition new_multigeometry (W : world) (ns : option ustr) (nss : nss_t) (g : option geo) (kws : list (string * value)) : res value :=
  match g with
  | Some g' =>
      if negb (is_none (kwget kws "kml_geometries")) then Err EGeometry
      else
        match geoms g' with
        | None => Err EAttributeError
        | Some gs =>
            let! l := map_res (create_kml_geometry W ns nss VNone VNone
                        (mkOpts (kwget kws "extrude") (kwget kws "tessellate") (kwget kws "altitude_mode"))) gs in
            new W "geometry.MultiGeometry" ns nss (("kml_geometries", VList l) :: kws)
        end
  | None => new W "geometry.MultiGeometry" ns nss kws
  end.

(** features.py:583-613 [Placemark.__init__]: truth values are compared here,
    not [None]. *)
Definition new_placemark (W : world) (ns : option ustr) (nss : nss_t) (g : option geo) (kws : list (string * value)) : res value :=
  let k := kwget kws "kml_geometry" in
  let! kt := py_bool W k in
  let gt := match g with Some g' => negb (geo_empty g') | None => false end in
  if kt && gt then Err EValueError
  else
    match g with
    | Some g' =>
        if gt then
          let! k' := create_kml_geometry W ns nss VNone VNone (mkOpts VNone VNone VNone) g' in
          new W "features.Placemark" ns nss (("kml_geometry", k') :: kws)
        else new W "features.Placemark" ns nss kws
    | None => new W "features.Placemark" ns nss kws
    end.

(** styles.py:465-488 [IconStyle.__init__] *)
Definition new_iconstyle (W : world) (ns : option ustr) (nss : nss_t) (icon_href : value) (kws : list (string * value)) : res value :=
  let! href := clean_string icon_href in
  let icon := kwget kws "icon" in
  let! ht := py_bool W href in
  let! it := (if ht then py_bool W icon else Ok false) in
  let! icon' := if ht && negb it then new W "links.Icon" ns nss [("href", href)] else Ok icon in
  new W "styles.IconStyle" ns nss (("icon", icon') :: kws).
