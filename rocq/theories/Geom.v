(** * pygeoif geometries, the [geometry] properties and truth values.

    pygeoif is a dependency that is not part of /repo; the functions below
    state its documented behaviour (pygeoif >= 1.5) and belong to the trusted
    base: a [Point] drops [None] and NaN coordinates and is empty with fewer
    than two; a [LineString] merges equal consecutive coordinates, refuses
    mixed dimensions and skips empty points; a [LinearRing] closes itself;
    the truth value of a geometry is "not empty". *)
From Coq Require Import String List NArith ZArith Bool.
From Verif Require Import Ustr Res PyInt PyFloat PyDate Value.
Import ListNotations.

Notation line := (list (list num)) (only parsing).

Inductive geo :=
| GPoint (c : list num)
| GLine (l : line)
| GRing (l : line)
| GPoly (shell : line) (holes : list line)
| GMPoint (l : list (list num))
| GMLine (l : list line)
| GMPoly (l : list (line * list line))
| GColl (l : list geo).

Definition nilb {A} (l : list A) : bool := match l with [] => true | _ => false end.

(** [geom.is_empty] *)
Fixpoint geo_empty (g : geo) : bool :=
  match g with
  | GPoint c => Nat.ltb (length c) 2
  | GLine l | GRing l => nilb l
  | GPoly s _ => nilb s
  | GMPoint l => forallb (fun c => Nat.ltb (length c) 2) l
  | GMLine l => forallb nilb l
  | GMPoly l => forallb (fun p => nilb (fst p)) l
  | GColl l => forallb geo_empty l
  end.

Definition num_nan (n : num) : bool := match n with NFloat f => is_nan f | NInt _ => false end.

(** [Point( *c )] *)
Definition mk_point (c : list num) : res (list num) :=
  match length c with
  | 2%nat | 3%nat => Ok (filter (fun n => negb (num_nan n)) c)
  | _ => Err ETypeError
  end.

(** [dedupe]: one representative of every run of equal coordinates. *)
Fixpoint dedupe_from (prev : list num) (l : line) : line :=
  match l with
  | [] => []
  | c :: l' => if point_eq prev c then dedupe_from prev l' else c :: dedupe_from c l'
  end.
Definition dedupe (l : line) : line :=
  match l with [] => [] | c :: l' => c :: dedupe_from c l' end.

(** [LineString._set_geoms] *)
Fixpoint line_points (last : option nat) (l : line) : res line :=
  match l with
  | [] => Ok []
  | c :: l' =>
      if match last with Some n => negb (Nat.eqb n (length c)) | None => false end
      then Err EDimension
      else
        let! p := mk_point c in
        let! r := line_points (Some (length c)) l' in
        Ok (if Nat.ltb (length p) 2 then r else p :: r)
  end.
Definition mk_line (l : line) : res line := line_points None (dedupe l).

(** [LinearRing.__init__] *)
Definition close_ring (l : line) : line :=
  match l with
  | [] => []
  | c :: _ => if point_eq c (last l c) then l else l ++ [c]
  end.
Definition mk_ring (l : line) : res line := let! r := mk_line l in Ok (close_ring r).

(** [Polygon.from_linear_rings(shell, *holes)] *)
Definition mk_poly (shell : line) (holes : list line) : res geo :=
  let! s := mk_ring shell in
  let! hs := map_res mk_ring holes in
  Ok (GPoly s hs).

(** [geom.geom_type] as used by geometry.py:1209-1224. *)
Definition geom_type (g : geo) : nat :=
  match g with
  | GPoint _ => 0 | GLine _ => 1 | GPoly _ _ => 2 | GRing _ => 3
  | GMPoint _ => 4 | GMLine _ => 5 | GMPoly _ => 6 | GColl _ => 7
  end.

Definition point_of (g : geo) : res (list num) :=
  match g with GPoint c => Ok c | _ => Err EAttributeError end.
Definition line_of (g : geo) : res line :=
  match g with GLine l => Ok l | GRing l => Ok l | _ => Err EAttributeError end.
Definition poly_of (g : geo) : res (line * list line) :=
  match g with GPoly s h => Ok (s, h) | _ => Err EAttributeError end.

(** geometry.py:1194-1225 *)
Definition create_multigeometry (gs : list geo) : res (option geo) :=
  match gs with
  | [] => Ok None
  | g :: _ =>
      let t := geom_type g in
      if forallb (fun g' => Nat.eqb (geom_type g') t) gs then
        match t with
        | 0%nat => let! ps := map_res point_of gs in Ok (Some (GMPoint ps))
        | 1%nat => let! ls := map_res line_of gs in Ok (Some (GMLine ls))
        | 2%nat => let! ps := map_res poly_of gs in Ok (Some (GMPoly ps))
        | _ => Ok (Some (GColl gs))
        end
      else Ok (Some (GColl gs))
  end.

(** ** Truth values and geometries of objects *)

(** [fst]: [bool(v)]; [snd]: [v.geometry]. *)
Definition sem_t := (res bool * res (option geo))%type.

(** Attribute values with their meaning and that of the members of a list. *)
Definition attr_sem := (value * sem_t * list sem_t)%type.

Definition a_val (x : attr_sem) : value := fst (fst x).
Definition a_bool (x : attr_sem) : res bool := fst (snd (fst x)).
Definition a_geom (x : attr_sem) : res (option geo) := snd (snd (fst x)).
Definition a_list (x : attr_sem) : list sem_t := snd x.

Fixpoint any_true (l : list (res bool)) : res bool :=
  match l with
  | [] => Ok false
  | b :: l' => let! x := b in if x then Ok true else any_true l'
  end.

Definition with_attr {A} (env : list (string * attr_sem)) (a : string) (f : attr_sem -> res A) : res A :=
  match sget a env with Some x => f x | None => Err EAttributeError end.

(** The [__bool__] methods. *)
Fixpoint eval_bool (env : list (string * attr_sem)) (g : res (option geo)) (e : bexpr) : res bool :=
  match e with
  | BTrue => Ok true
  | BAttr a => with_attr env a a_bool
  | BNotNone a => with_attr env a (fun x => Ok (match a_val x with VNone => false | _ => true end))
  | BAny a => with_attr env a (fun x =>
      match a_val x with VList _ => any_true (map fst (a_list x)) | _ => Err ETypeError end)
  | BGeometry =>
      let! o := g in
      Ok (match o with Some x => negb (geo_empty x) | None => false end)
  | BAnd x y => let! b := eval_bool env g x in if b then eval_bool env g y else Ok false
  | BOr x y => let! b := eval_bool env g x in if b then Ok true else eval_bool env g y
  end.

(** [self.kml_coordinates.coords] *)
Definition coords_of (v : value) : res line :=
  match v with
  | VObj _ _ _ attrs =>
      match sget "coords"%string attrs with
      | Some (VCoords _ l) => Ok l
      | _ => Err EAttributeError
      end
  | _ => Err EAttributeError
  end.

(** geometry.py:493-498, 660-665, 797-805: the [geometry] property of the
    classes with a [kml_coordinates] attribute. *)
Definition coords_geometry (env : list (string * attr_sem)) (f : line -> res (option geo)) : res (option geo) :=
  with_attr env "kml_coordinates" (fun x =>
    let! b := a_bool x in
    if b then let! l := coords_of (a_val x) in f l else Ok None).

Definition catch_dimension {A} (x : res (option A)) : res (option A) :=
  match x with Err EDimension => Ok None | _ => x end.
Definition catch_point {A} (x : res (option A)) : res (option A) :=
  match x with Err EDimension | Err ETypeError => Ok None | _ => x end.

Fixpoint truthy_geoms (l : list (res (option geo))) : res (list geo) :=
  match l with
  | [] => Ok []
  | x :: l' =>
      let! o := x in
      let! r := truthy_geoms l' in
      Ok (match o with Some g => if geo_empty g then r else g :: r | None => r end)
  end.

Fixpoint some_geoms (l : list (res (option geo))) : res (list geo) :=
  match l with
  | [] => Ok []
  | x :: l' =>
      let! o := x in
      let! r := some_geoms l' in
      Ok (match o with Some g => g :: r | None => r end)
  end.

Definition num_of (v : value) : res (option num) :=
  match v with VNum n => Ok (Some n) | VNone => Ok None | _ => Err ETypeError end.

Definition opt_list {A} (o : option A) : list A := match o with Some a => [a] | None => [] end.

(** The [geometry] properties. *)
Definition eval_geom (env : list (string * attr_sem)) (selfb : res bool) (k : gkind) : res (option geo) :=
  match k with
  | GkNone => Err EAttributeError
  | GkPoint => coords_geometry env (fun l =>
      match l with
      | [] => Err EIndexError
      | c :: _ => catch_point (let! p := mk_point c in Ok (Some (GPoint p)))
      end)
  | GkLine => coords_geometry env (fun l => catch_dimension (let! r := mk_line l in Ok (Some (GLine r))))
  | GkRing => coords_geometry env (fun l => catch_dimension (let! r := mk_ring l in Ok (Some (GRing r))))
  | GkBoundary => with_attr env "kml_geometry" (fun x =>
      let! b := a_bool x in if b then a_geom x else Ok None)
  | GkPolygon => with_attr env "outer_boundary" (fun x =>
      let! b := a_bool x in
      if b then
        let! o := a_geom x in
        match o with
        | None => Err EAttributeError
        | Some g =>
            let! shell := line_of g in
            with_attr env "inner_boundaries" (fun y =>
              let! gs := some_geoms (map snd (a_list y)) in
              let! holes := map_res line_of gs in
              let! p := mk_poly shell holes in
              Ok (Some p))
        end
      else Ok None)
  | GkMulti => with_attr env "kml_geometries" (fun x =>
      let! gs := truthy_geoms (map snd (a_list x)) in
      create_multigeometry gs)
  | GkPlacemark => with_attr env "kml_geometry" (fun x =>
      match a_val x with VNone => Ok None | _ => a_geom x end)
  | GkLocation =>
      let! b := selfb in
      if b then
        with_attr env "longitude" (fun x => with_attr env "latitude" (fun y =>
        with_attr env "altitude" (fun z =>
          let! lon := num_of (a_val x) in
          let! lat := num_of (a_val y) in
          let! alt := num_of (a_val z) in
          Ok (Some (GPoint (filter (fun n => negb (num_nan n)) (opt_list lon ++ opt_list lat ++ opt_list alt)))))))
      else Ok None
  | GkModel => with_attr env "location" (fun x =>
      let! b := a_bool x in if b then a_geom x else Ok None)
  (* gx.py:164-181 [track_items_to_geometry] *)
  | GkTrack => with_attr env "track_items" (fun x =>
      match a_val x with
      | VItems l =>
          let! r := mk_line (map ti_coord l) in
          Ok (Some (GLine r))
      | _ => Err ETypeError
      end)
  (* gx.py:433-450 [tracks_to_geometry] *)
  | GkMultiTrack => with_attr env "tracks" (fun x =>
      let! gs := truthy_geoms (map snd (a_list x)) in
      let! ls := map_res line_of gs in
      Ok (Some (GMLine ls)))
  end.

Definition no_geom : res (option geo) := Err EAttributeError.

(** [bool(v)] and [v.geometry], by recursion on the value. *)
Fixpoint sem (W : world) (v : value) {struct v} : sem_t :=
  match v with
  | VNone => (Ok false, no_geom)
  | VBool b => (Ok b, no_geom)
  | VNum n => (Ok (num_truth n), no_geom)
  | VStr s => (Ok (negb (uempty s)), no_geom)
  | VEnum _ _ => (Ok true, no_geom)
  | VDate _ => (Ok true, no_geom)           (* times.py:171-173 *)
  | VPoint c => (Ok (negb (nilb c)), no_geom)
  | VCoords _ l => (Ok (negb (nilb l)), no_geom)
  | VDates l => (Ok (negb (nilb l)), no_geom)
  | VItems l => (Ok (negb (nilb l)), no_geom)
  | VList l => (Ok (negb (nilb l)), no_geom)
  | VObj c _ _ attrs =>
      match class_of W c with
      | None => (Err EAttributeError, no_geom)
      | Some ci =>
          let env := map (fun av =>
            match av with
            | (a, x) => (a, (x, sem W x, match x with VList l => map (sem W) l | _ => [] end))
            end) attrs in
          let b0 := eval_bool env no_geom (ci_bool ci) in
          let g := eval_geom env b0 (ci_geom ci) in
          (eval_bool env g (ci_bool ci), g)
      end
  end.

Definition py_bool (W : world) (v : value) : res bool := fst (sem W v).
Definition geometry (W : world) (v : value) : res (option geo) := snd (sem W v).
