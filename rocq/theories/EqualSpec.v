(** * Vocabulary for statements about [==]. *)
From Coq Require Import String List NArith ZArith Bool.
From Verif Require Import Ustr Res PyInt PyFloat PyDate Value Geom Codec Spec Equal.
Import ListNotations.
Local Open Scope string_scope.

(** [x] is [v] or an attribute or list member somewhere inside [v]. *)
Inductive within : value -> value -> Prop :=
| within_self v : within v v
| within_attr c ns nss attrs a x y : In (a, x) attrs -> within x y -> within (VObj c ns nss attrs) y
| within_member l x y : In x l -> within x y -> within (VList l) y.

(** No NaN among the numbers (coordinates of track items aside, which are
    pygeoif points). *)
Fixpoint no_nan (v : value) : bool :=
  match v with
  | VNum n => negb (num_nan n)
  | VPoint c => forallb (fun n => negb (num_nan n)) c
  | VCoords _ l => forallb (forallb (fun n => negb (num_nan n))) l
  | VItems l => forallb (fun i => match ti_angle i with Some a => forallb (fun n => negb (num_nan n)) a | None => true end) l
  | VList l => forallb no_nan l
  | VObj _ _ _ attrs => forallb (fun av => match av with (_, x) => no_nan x end) attrs
  | _ => true
  end.

(** The class has one of the three [__eq__] methods that compare geometries. *)
Definition geometric (W : world) (v : value) : bool :=
  match v with
  | VObj c _ _ _ => match class_of W c with
                    | Some ci => match eq_kind ci with Some _ => true | None => false end
                    | None => false
                    end
  | _ => false
  end.

(** Geometries inside an object can be computed and equal themselves. *)
Definition geometries_fine (W : world) (geq : geo -> geo -> bool) (v : value) : Prop :=
  (forall x, within v x -> geometric W x = true ->
     exists g, geometry W x = Ok g /\ forall g', g = Some g' -> geq g' g' = true) /\
  (forall l i, within v (VItems l) -> In i l -> geq (GPoint (ti_coord i)) (GPoint (ti_coord i)) = true).

(** Dictionaries have distinct keys; no object compared by geometry was given
    additional keyword arguments. *)
Definition eq_node (W : world) (c : string) (ns : ustr) (nss : nss_t) (attrs : list (string * value)) : bool :=
  match class_of W c with
  | None => false
  | Some ci => nodups (map fst attrs) && nodups (map fst nss) &&
               match eq_kind ci with None => true | Some _ => nilb (extras ci attrs) end
  end.
Definition no_extras (W : world) (v : value) : bool := vall (eq_node W) v.

(** No class has two of the three methods. *)
Definition kinds_ok (W : world) : bool :=
  forallb (fun cc => let has k := mem k (ci_mro (snd cc)) in
    negb (has "geometry.Point" && has "geometry.LineString") &&
    negb (has "geometry.Point" && has "geometry.Polygon") &&
    negb (has "geometry.LineString" && has "geometry.Polygon")) (w_classes W).

(** Nothing inside [v] is compared by geometry. *)
Fixpoint no_geometry (W : world) (v : value) : bool :=
  match v with
  | VItems l => nilb l
  | VList l => forallb (no_geometry W) l
  | VObj c ns nss attrs => negb (geometric W (VObj c ns nss attrs)) && forallb (fun av => match av with (_, x) => no_geometry W x end) attrs
  | _ => true
  end.

(** Values that are not made of other values. *)
Definition leaf (v : value) : bool := match v with VObj _ _ _ _ | VList (_ :: _) => false | _ => true end.

(** The two objects never spell equal things differently, such as [1] and [1.0],
    or the same moment in two time zones. *)
Definition spelled_alike (W : world) (geq : geo -> geo -> bool) (a b : value) : Prop :=
  forall x y, within a x -> within b y -> leaf x = true -> leaf y = true -> py_eq W geq x y = Ok true -> x = y.

(** Dictionaries of name spaces have distinct keys. *)
Definition distinct_keys (v : value) : bool := vall (fun _ _ nss _ => nodups (map fst nss)) v.

(** Objects compared by geometry have the attributes that are compared. *)
Definition kinds_attrs (W : world) : bool :=
  forallb (fun cc => match eq_kind (snd cc) with
    | None => true
    | Some (_, names) => forallb (fun n => mem n (map fst (ci_pre (snd cc) ++ ci_post (snd cc)))) (names ++ ["id"; "target_id"])
    end) (w_classes W).

(** What [==] of points, lines and polygons looks at besides the shape. *)
Definition compared (c : string) : list string :=
  if String.eqb c "geometry.Point" then ["extrude"; "altitude_mode"; "id"; "target_id"]
  else if mem c ["geometry.LineString"; "geometry.LinearRing"; "geometry.Polygon"] then ["extrude"; "tessellate"; "id"; "target_id"]
  else [].

(** Equal shapes inside the two objects are of one class and agree in what [==]
    does not look at: how the shape is written down, and the altitude mode of
    lines and polygons. *)
Definition shapes_alike (W : world) (geq : geo -> geo -> bool) (a b : value) : Prop :=
  forall c ns nss attrs c' ns' nss' attrs',
  within a (VObj c ns nss attrs) -> within b (VObj c' ns' nss' attrs') ->
  geometric W (VObj c ns nss attrs) = true -> geometric W (VObj c' ns' nss' attrs') = true ->
  py_eq W geq (VObj c ns nss attrs) (VObj c' ns' nss' attrs') = Ok true ->
  c = c' /\ forall n, mem n (compared c) = false -> sget n attrs = sget n attrs'.
