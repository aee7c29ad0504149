(** * Geometries as pygeoif holds them, and what a collection becomes. *)
From Coq Require Import String List NArith ZArith Bool.
From Verif Require Import Ustr Res PyInt PyFloat PyDate Value Geom.
Import ListNotations.

Section GeoInd.
  Variable P : geo -> Prop.
  Hypothesis HPoint : forall c, P (GPoint c).
  Hypothesis HLine : forall l, P (GLine l).
  Hypothesis HRing : forall l, P (GRing l).
  Hypothesis HPoly : forall s h, P (GPoly s h).
  Hypothesis HMPoint : forall l, P (GMPoint l).
  Hypothesis HMLine : forall l, P (GMLine l).
  Hypothesis HMPoly : forall l, P (GMPoly l).
  Hypothesis HColl : forall l, Forall P l -> P (GColl l).
  Fixpoint geo_ind' (g : geo) : P g :=
    match g with
    | GPoint c => HPoint c
    | GLine l => HLine l
    | GRing l => HRing l
    | GPoly s h => HPoly s h
    | GMPoint l => HMPoint l
    | GMLine l => HMLine l
    | GMPoly l => HMPoly l
    | GColl l => HColl l ((fix go (l : list geo) : Forall P l :=
        match l with [] => Forall_nil _ | x :: l' => Forall_cons _ (geo_ind' x) (go l') end) l)
    end.
End GeoInd.

(** A position: two or three numbers, none of them NaN. *)
Definition point_wf (c : list num) : bool :=
  (Nat.eqb (length c) 2 || Nat.eqb (length c) 3) && forallb (fun n => negb (num_nan n)) c.

Definition line_wf (l : list (list num)) : Prop :=
  l <> [] /\ (forall c, In c l -> point_wf c = true) /\
  (forall c c', In c l -> In c' l -> length c = length c') /\
  (forall l1 c c' l2, l = l1 ++ c :: c' :: l2 -> point_eq c c' = false).

Definition ring_wf (l : list (list num)) : Prop :=
  line_wf l /\ (forall c, point_eq (hd c l) (last l c) = true).

(** A geometry without empty parts, as the constructors of pygeoif build it. *)
Fixpoint geo_wf (g : geo) : Prop :=
  match g with
  | GPoint c => point_wf c = true
  | GLine l => line_wf l
  | GRing l => ring_wf l
  | GPoly s hs => ring_wf s /\ Forall ring_wf hs
  | GMPoint l => l <> [] /\ Forall (fun c => point_wf c = true) l
  | GMLine l => l <> [] /\ Forall line_wf l
  | GMPoly l => l <> [] /\ Forall (fun p => ring_wf (fst p) /\ Forall ring_wf (snd p)) l
  | GColl l => l <> [] /\ (fix go l := match l with [] => True | g :: l' => geo_wf g /\ go l' end) l
  end.

Definition as_point (g : geo) := match g with GPoint c => Some c | _ => None end.
Definition as_line (g : geo) := match g with GLine l => Some l | _ => None end.
Definition as_poly (g : geo) := match g with GPoly s h => Some (s, h) | _ => None end.

Fixpoint all_some {A B} (f : A -> option B) (l : list A) : option (list B) :=
  match l with
  | [] => Some []
  | x :: l' => match f x, all_some f l' with Some y, Some r => Some (y :: r) | _, _ => None end
  end.

(** A collection of points only, of lines only or of polygons only becomes
    the corresponding multi-geometry. *)
Definition collect (l : list geo) : geo :=
  match all_some as_point l, all_some as_line l, all_some as_poly l with
  | Some ps, _, _ => GMPoint ps
  | None, Some ls, _ => GMLine ls
  | None, None, Some ps => GMPoly ps
  | None, None, None => GColl l
  end.

Fixpoint regroup (g : geo) : geo :=
  match g with GColl l => collect (map regroup l) | _ => g end.

(** Every collection inside has members of different kinds (or members that
    are neither points, lines nor polygons). *)
Fixpoint mixed (g : geo) : bool :=
  match g with
  | GColl l =>
      negb (forallb (fun g => match g with GPoint _ => true | _ => false end) l) &&
      negb (forallb (fun g => match g with GLine _ => true | _ => false end) l) &&
      negb (forallb (fun g => match g with GPoly _ _ => true | _ => false end) l) &&
      forallb mixed l
  | _ => true
  end.

(** All positions of a geometry. *)
Fixpoint geo_points (g : geo) : list (list num) :=
  match g with
  | GPoint c => [c]
  | GLine l | GRing l | GMPoint l => l
  | GPoly s hs => s ++ concat hs
  | GMLine l => concat l
  | GMPoly l => concat (map (fun p => fst p ++ concat (snd p)) l)
  | GColl l => concat (map geo_points l)
  end.

(** The numbers are doubles. *)
Definition doubles (c : list num) : bool :=
  forallb (fun n => match n with NFloat f => fvalid f | NInt _ => false end) c.

(** Members of a MultiGeometry in the order in which they are read: points,
    lines, polygons, rings, multi-geometries. *)
Definition kind (g : geo) : nat :=
  match g with GPoint _ => 0 | GLine _ => 1 | GPoly _ _ => 2 | GRing _ => 3 | _ => 4 end.
Definition by_kind (l : list geo) : list geo :=
  concat (map (fun n => filter (fun g => Nat.eqb (kind g) n) l) [0; 1; 2; 3; 4]).

(** The geometry after one round trip through a file. *)
Fixpoint reread (g : geo) : geo :=
  match g with GColl l => collect (by_kind (map reread l)) | _ => g end.
