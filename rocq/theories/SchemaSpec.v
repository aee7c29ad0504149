(** * Documents of the bundled schema (specification vocabulary). *)
From Coq Require Import String List NArith ZArith Bool.
From Verif Require Import Ustr Res Elem Value Geom Codec Spec Schema SchemaTables.
Import ListNotations.

(** The document has the structure fastkml/schema/kml22gx.xsd asks for. *)
Definition schema_valid (e : elem) : Prop := valid_document schema_uris schema_types schema_elements e.

(** The name spaces of the schema. *)
Definition schema_nss (nss : nss_t) : bool :=
  forallb (fun id => match sget id schema_uris with
                     | Some uri => ueqb (ns_get nss id) (u "{" ++ u uri ++ u "}")
                     | None => false
                     end) ["kml"; "gx"; "atom"]%string.

(** The global type of the elements that objects of the class become. *)
Definition class_sname (W : world) (c : string) : sname :=
  match class_of W c with Some ci => (ci_nsid ci, ci_tag ci) | None => (EmptyString, EmptyString) end.
Definition class_type (W : world) (c : string) : option string :=
  lookup schema_uris (clark schema_uris (class_sname W c)) schema_elements.

(** The schema knows the elements of all objects: none is an instance of an
    abstract class or an [atom.Contributor]. *)
Definition in_schema (W : world) (v : value) : bool :=
  vall (fun c _ _ _ => match class_type W c with Some _ => true | None => false end) v.

(** Every item of a track has a time. *)
Definition timed (v : value) : bool :=
  vall (fun _ _ _ attrs => forallb (fun av => match snd av with
    | VItems l => forallb (fun i => match ti_when i with Some _ => true | None => false end) l
    | _ => true
    end) attrs) v.

(** The objects an attribute contributes to the document. *)
Definition written (W : world) (attrs : list (string * value)) (a : string) : list value :=
  match sget a attrs with
  | Some (VList l) => filter (truth W) l
  | Some x => if truth W x then [x] else []
  | None => []
  end.

Definition class_name (v : value) : string := match v with VObj c _ _ _ => c | _ => EmptyString end.

(** The classes come group by group, and of a group that is not repeated
    there is at most one. *)
Definition of_group (g : list string * bool) (cs : list string) : list string := filter (fun c => mem c (fst g)) cs.
Definition grouped (groups : list (list string * bool)) (cs : list string) : bool :=
  all2 String.eqb cs (flat_map (fun g => of_group g cs) groups) &&
  forallb (fun g => snd g || Nat.leb (length (of_group g cs)) 1) groups.

Local Open Scope string_scope.

(** The lists whose order and length the schema prescribes. *)
Definition child_groups : list (string * string * list (list string * bool)) :=
  [("kml.KML", "features",
     [(["network_link_control.NetworkLinkControl"], false);
      (["containers.Document"; "containers.Folder"; "features.Placemark"; "overlays.GroundOverlay";
        "overlays.PhotoOverlay"; "features.NetworkLink"], false)]);
   ("styles.Style", "styles",
     [(["styles.IconStyle"], false); (["styles.LabelStyle"], false); (["styles.LineStyle"], false);
      (["styles.PolyStyle"], false); (["styles.BalloonStyle"], false)]);
   ("data.ExtendedData", "elements", [(["data.Data"], true); (["data.SchemaData"], true)])].

(** What the schema does not let one leave out. *)
Definition required : list (string * string) :=
  [("data.Data", "value"); ("atom.Link", "href"); ("data.SimpleData", "name")].

Definition filled (attrs : list (string * value)) (a : string) : bool :=
  match sget a attrs with Some (VStr s) => negb (uempty s) | _ => false end.

(** The icon of an icon style has nothing but an address: the schema has no
    refresh and view settings there. *)
Definition icon_extras : list string :=
  ["refresh_mode"; "refresh_interval"; "view_refresh_mode"; "view_refresh_time"; "view_bound_scale"; "view_format"; "http_query"].
Definition bare_icon (vb : verbosity) (x : value) : bool :=
  match x with
  | VObj _ _ _ attrs => match vb with Verbose => false | _ => true end &&
                        forallb (fun a => match sget a attrs with None | Some VNone => true | _ => false end) icon_extras
  | _ => true
  end.

(** What the library leaves to the user:
    - the lists above are in the order of the schema and not too long,
    - what is required is there,
    - a document has features or schemata, not both,
    - icons of icon styles are bare. *)
Definition orderly_node (W : world) (vb : verbosity) (c : string) (attrs : list (string * value)) : bool :=
  forallb (fun x => match x with (c', a, gs) =>
    negb (String.eqb c c') || grouped gs (map class_name (written W attrs a)) end) child_groups &&
  forallb (fun x => negb (String.eqb c (fst x)) || filled attrs (snd x)) required &&
  (negb (String.eqb c "containers.Document") || nilb (written W attrs "features") || nilb (written W attrs "schemata")) &&
  (negb (String.eqb c "styles.IconStyle") || forallb (bare_icon vb) (written W attrs "icon")).

Definition orderly (W : world) (vb : verbosity) (v : value) : bool :=
  vall (fun c _ _ attrs => orderly_node W vb c attrs) v.
