(** * Additional registrations (specification vocabulary). *)
From Coq Require Import String List NArith ZArith Bool.
From Verif Require Import Ustr UstrProofs Res PyInt PyFloat PyDate Elem Value Geom Codec Spec Settled.
Import ListNotations.

(** The registry after a history of [register] calls (registry.py:137-156). *)
Definition history := list (string * item).
Definition register_all (h : history) (reg : list (string * list item)) : list (string * list item) :=
  fold_left (fun r ci => reg_add r (fst ci) (snd ci)) h reg.

(** The library after [registry.register(d, it)]. *)
Definition extend (W : world) (d : string) (it : item) : world :=
  mkWorld (w_classes W) (w_enums W) (reg_add (w_registry W) d it) (w_arrow W).

(** [issubclass(c, d)] *)
Definition below_class (W : world) (d c : string) : bool :=
  match class_of W c with Some ci => mem d (ci_mro ci) | None => false end.

(** The object without the attribute [a], which subclasses of [d] have got,
    at every depth. *)
Fixpoint forget (W : world) (d a : string) (v : value) : value :=
  match v with
  | VObj c ns nss attrs =>
      VObj c ns nss (flat_map (fun av => match av with
        | (k, x) => if below_class W d c && String.eqb k a then [] else [(k, forget W d a x)]
        end) attrs)
  | VList l => VList (map (forget W d a) l)
  | _ => v
  end.

(** No object below [d] inside [v] has the attribute [a]. *)
Fixpoint lacks (W : world) (d a : string) (v : value) : bool :=
  match v with
  | VObj c _ _ attrs =>
      negb (below_class W d c && mem a (map fst attrs)) &&
      forallb (fun av => match av with (_, x) => lacks W d a x end) attrs
  | VList l => forallb (lacks W d a) l
  | _ => true
  end.

(** The attributes the truth value and the geometry of an object depend on. *)
Fixpoint bool_names (e : bexpr) : list string :=
  match e with
  | BTrue | BGeometry => []
  | BAttr a | BNotNone a | BAny a => [a]
  | BAnd x y | BOr x y => bool_names x ++ bool_names y
  end.
Definition geom_names (k : gkind) : list string :=
  match k with
  | GkNone => []
  | GkPoint | GkLine | GkRing => ["kml_coordinates"]
  | GkBoundary | GkPlacemark => ["kml_geometry"]
  | GkPolygon => ["outer_boundary"; "inner_boundaries"]
  | GkMulti => ["kml_geometries"]
  | GkLocation => ["longitude"; "latitude"; "altitude"]
  | GkModel => ["location"]
  | GkTrack => ["track_items"]
  | GkMultiTrack => ["tracks"]
  end%string.

Definition disjoint (l r : list string) : bool := forallb (fun x => negb (mem x r)) l.

(** The names of the item are not in use in the class. *)
Definition fresh_for (W : world) (it : item) (c : string) (ci : class_info) : bool :=
  let its := items_of W c in
  negb (mem (it_attr it) (ci_params ci)) &&
  negb (mem (it_attr it) (map it_attr its)) &&
  negb (mem (it_attr it) (bool_names (ci_bool ci) ++ geom_names (ci_geom ci))) &&
  disjoint (item_names W it) (concat (map (item_names W) its)) &&
  disjoint (item_attrs it) (concat (map item_attrs its)) &&
  item_ids_ok W (ci_nsid ci) it &&
  ci_kwargs ci && negb (ci_root ci).

(** A well-formed item with unused names for the class [d] and its subclasses,
    whose constructors forward unknown arguments; not the root. *)
Definition fresh (W : world) (d : string) (it : item) : bool :=
  item_ok W it && nodups (item_names W it) && nilb (item_texts it) &&
  match it_set it with SCoordList => false | _ => true end &&
  negb (String.eqb (it_attr it) "coords") &&
  forallb (fun cc => negb (mem d (ci_mro (snd cc))) || fresh_for W it (fst cc) (snd cc)) (w_classes W).

(** Class tables as Python makes them: every class once in an MRO. *)
Definition mros_ok (W : world) : bool :=
  nodups (map fst (w_classes W)) && forallb (fun cc => nodups (ci_mro (snd cc))) (w_classes W).

(** [e'] is [e] with additional attributes and child elements with the given
    local names; everything else is the same and in the same order. *)
Inductive grown (names attrs : list string) : elem -> elem -> Prop :=
| grown_node t a a' x ks ks' :
    (forall k, ~ In k (map u attrs) -> uget k a' = uget k a) -> more_kids names attrs ks ks' ->
    grown names attrs (Elem t a x ks) (Elem t a' x ks')
with more_kids (names attrs : list string) : list elem -> list elem -> Prop :=
| more_nil : more_kids names attrs [] []
| more_same k k' ks ks' : grown names attrs k k' -> more_kids names attrs ks ks' -> more_kids names attrs (k :: ks) (k' :: ks')
| more_new k' ns n ks ks' : In n names -> e_tag k' = ns ++ u n -> more_kids names attrs ks ks' -> more_kids names attrs ks (k' :: ks').

(** No element inside [e] has one of the names of the item in one of its name
    spaces, as attribute or child element. *)
Fixpoint untouched (W : world) (it : item) (nss : nss_t) (e : elem) : bool :=
  let used := map (ns_get nss) (it_nsids it) in
  match e with
  | Elem _ a _ ks =>
      forallb (fun ns => forallb (fun n => negb (existsb (fun k => ueqb (e_tag k) (ns ++ u n)) ks)) (item_names W it) &&
                         forallb (fun n => match uget (ns ++ u n) a with None => true | Some _ => false end) (item_attrs it)) used &&
      forallb (untouched W it nss) ks
  end.
