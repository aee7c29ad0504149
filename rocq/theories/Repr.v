(** * What [repr] prints, and what evaluating it gives.

    The printed text is a constructor call.  It is modelled as a tree: what is
    inside quotes, the digits of numbers and the names are kept, the layout
    (commas, blanks, quotes and escapes) is not.  Evaluating it assumes the
    modules of fastkml, pygeoif and datetime and the enumerations in scope, so
    that [fastkml.kml.KML], [AltitudeMode] or [Point] denote what they should;
    that the literals of strings, booleans, [None] and [datetime] denote the
    values they were printed from is part of the trusted base. *)
From Coq Require Import String List NArith ZArith Bool.
From Verif Require Import Ustr Res PyInt PyFloat PyDate Elem Value Geom Codec Spec Create Equal Reprs.
Import ListNotations.
Local Open Scope string_scope.

(** Geometries as pygeoif prints them: [LineString(((0.0, 0.0), (1.0, 1.0)))]. *)
Inductive pgeo :=
| PGNone
| PGLine (l : list (list ustr))
| PGRing (l : list (list ustr))
| PGPoly (shell : list (list ustr)) (holes : list (list (list ustr)))
| PGOther.   (* not printed by any class of fastkml *)

(** gx.py:127-161: [TrackItem(when=..., coord=Point(...), angle=Angle(...))] *)
Record ptitem := mkPItem { pi_when : option kmldt; pi_coord : list ustr; pi_angle : option (list ustr) }.

Inductive pexpr :=
| PENone
| PEBool (b : bool)
| PENum (t : ustr)
| PEStr (s : ustr)
| PEMember (cls : string) (val : ustr)   (* AltitudeMode.absolute *)
| PEAngle (cls : string) (val : ustr)    (* <AltitudeMode.absolute: 'absolute'> *)
| PEText (v : value)                     (* other text printed by [str] *)
| PEDate (dt : pydate) (r : resolution)  (* times.py:162-169 *)
| PEPoint (c : list ustr)
| PECoords (tup : bool) (l : list (list ustr))
| PEDates (l : list (option (pydate * resolution)))
| PEItems (l : list ptitem)
| PEList (l : list pexpr)
| PECall (cls : string) (ns : ustr) (nss : nss_t) (args : list (string * pexpr)) (geo : option pgeo) (splat : list (string * pexpr)).

(** [repr] of the dates of a sequence; [()] is the fill value of gx.py:264. *)
Definition repr_date (o : option kmldt) : option (pydate * resolution) :=
  match o with Some k => Some (k_dt k, k_res k) | None => None end.

Definition repr_nums (c : list num) : res (list ustr) := map_res num_str c.

Definition repr_item (i : titem) : res ptitem :=
  let! c := repr_nums (ti_coord i) in
  let! a := match ti_angle i with Some a => let! t := repr_nums a in Ok (Some t) | None => Ok None end in
  Ok (mkPItem (ti_when i) c a).

Definition repr_geo (g : option geo) : res pgeo :=
  match g with
  | None => Ok PGNone
  | Some (GLine l) => let! t := map_res repr_nums l in Ok (PGLine t)
  | Some (GRing l) => let! t := map_res repr_nums l in Ok (PGRing t)
  | Some (GPoly s hs) =>
      let! t := map_res repr_nums s in
      let! ts := map_res (map_res repr_nums) hs in
      Ok (PGPoly t ts)
  | Some _ => Ok PGOther
  end.

(** The [__repr__] a class has: the first one in its [__mro__]. *)
Fixpoint first_repr (mro : list string) : list (string * string * bool) :=
  match mro with
  | [] => []
  | c :: mro' => match sget c repr_args with Some l => l | None => first_repr mro' end
  end.
Definition repr_of (ci : class_info) : list (string * string * bool) := first_repr (ci_mro ci).

(** [str(x)]: of an enumeration member its name; of numbers, [None] and lists
    the same as [repr]. *)
Definition str_expr (x : value) (r : res pexpr) : res pexpr :=
  match x with
  | VEnum c m => Ok (PEMember c m)
  | VStr _ | VDate _ | VObj _ _ _ _ => Ok (PEText x)
  | _ => r
  end.

Definition is_geometry (arg : string * string * bool) : bool := String.eqb (snd (fst arg)) "geometry".

Section Repr.
  Variable W : world.

  (** One printed argument [p={self.a!r}] or [p={self.a}]. *)
  Definition repr_arg (rs : list (string * (value * res pexpr))) (arg : string * string * bool) : res (string * pexpr) :=
    let '(p, a, r) := arg in
    match sget a rs with
    | None => Err EAttributeError
    | Some (x, e) => let! t := (if r : bool then e else str_expr x e) in Ok (p, t)
    end.

  (** [repr(v)]: the [__repr__] methods (Reprs.v), base.py:90-106 and
      base.py:249-263. *)
  Fixpoint repr (v : value) : res pexpr :=
    match v with
    | VNone => Ok PENone
    | VBool b => Ok (PEBool b)
    | VNum n => let! t := num_str n in Ok (PENum t)
    | VStr s => Ok (PEStr s)
    | VEnum c m => Ok (PEAngle c m)
    | VDate k => Ok (PEDate (k_dt k) (k_res k))
    | VPoint c => let! t := repr_nums c in Ok (PEPoint t)
    | VCoords b l => let! t := map_res repr_nums l in Ok (PECoords b t)
    | VDates l => Ok (PEDates (map repr_date l))
    | VItems l => let! t := map_res repr_item l in Ok (PEItems t)
    | VList l => let! es := seq_res (map repr l) in Ok (PEList es)
    | VObj c ns nss attrs =>
        match class_of W c with
        | None => Err EAttributeError
        | Some ci =>
            let rs := map (fun av => match av with (a, x) => (a, (x, repr x)) end) attrs in
            let spec := repr_of ci in
            let! args := map_res (repr_arg rs) (filter (fun s => negb (is_geometry s)) spec) in
            let! geo := (if existsb is_geometry spec
                         then let! g := geometry W v in let! t := repr_geo g in Ok (Some t)
                         else Ok None) in
            let! splat := map_res (repr_arg rs) (map (fun av => (fst av, fst av, true)) (get_splat ci attrs)) in
            Ok (PECall c ns nss args geo splat)
        end
    end.

  (** ** Evaluation.  [None]: an exception, or not an expression. *)

  Definition as_opt {A} (r : res A) : option A := match r with Ok x => Some x | Err _ => None end.

  Fixpoint traverse {A B} (f : A -> option B) (l : list A) : option (list B) :=
    match l with
    | [] => Some []
    | x :: l' => match f x, traverse f l' with Some y, Some r => Some (y :: r) | _, _ => None end
    end.

  Definition int_char (c : N) : bool := is_adigit c || (c =? 45)%N.

  (** A number; [inf] and [nan] are names nobody defined. *)
  Definition eval_num (t : ustr) : option num :=
    if ueqb t (u "nan") || ueqb t (u "inf") || ueqb t (u "-inf") then None
    else if forallb int_char t then option_map NInt (as_opt (int_of_str t))
    else option_map NFloat (as_opt (float_of_str t)).

  Definition eval_nums (c : list ustr) : option (list num) := traverse eval_num c.

  Definition eval_date (o : option (pydate * resolution)) : option (option kmldt) :=
    Some (match o with Some (d, r) => Some (kml_datetime d (Some r)) | None => None end).

  Definition eval_item (i : ptitem) : option titem :=
    match eval_nums (pi_coord i) with
    | None => None
    | Some c =>
        match as_opt (mk_point c) with
        | None => None
        | Some p =>
            let w := match pi_when i with Some k => Some (kml_datetime (k_dt k) (Some (k_res k))) | None => None end in
            match pi_angle i with
            | None => Some (mkItem w p None)
            | Some a => match eval_nums a with
                        | None => None
                        | Some a' => match as_opt (mk_angle a') with Some a'' => Some (mkItem w p (Some a'')) | None => None end
                        end
            end
        end
    end.

  Definition eval_geo (g : pgeo) : option (option geo) :=
    match g with
    | PGNone => Some None
    | PGLine l => match traverse eval_nums l with
                  | Some l' => option_map (fun r => Some (GLine r)) (as_opt (mk_line l'))
                  | None => None
                  end
    | PGRing l => match traverse eval_nums l with
                  | Some l' => option_map (fun r => Some (GRing r)) (as_opt (mk_ring l'))
                  | None => None
                  end
    | PGPoly s hs => match traverse eval_nums s, traverse (traverse eval_nums) hs with
                     | Some s', Some hs' => option_map (@Some geo) (as_opt (mk_poly s' hs'))
                     | _, _ => None
                     end
    | PGOther => None
    end.

  (** [cls(ns=ns, name_spaces=nss, geometry=g, **kws)]: Codec.v and Create.v. *)
  Definition call (c : string) (ns : ustr) (nss : nss_t) (g : option geo) (kws : list (string * value)) : res value :=
    if mem c ["geometry.Point"; "geometry.LineString"; "geometry.LinearRing"] then new_from_coords W c (Some ns) nss g kws
    else if mem c ["geometry.BoundaryIs"; "geometry.OuterBoundaryIs"; "geometry.InnerBoundaryIs"] then new_boundary W c (Some ns) nss g kws
    else if String.eqb c "geometry.Polygon" then
      match g with
      | None => new_polygon W (Some ns) nss None kws
      | Some (GPoly s hs) => new_polygon W (Some ns) nss (Some (s, hs)) kws
      | Some _ => Err ETypeError
      end
    else if String.eqb c "geometry.MultiGeometry" then new_multigeometry W (Some ns) nss g kws
    else if String.eqb c "features.Placemark" then new_placemark W (Some ns) nss g kws
    else if String.eqb c "styles.IconStyle" then new_iconstyle W (Some ns) nss (kwget kws "icon_href") kws
    else new W c (Some ns) nss kws.

  Fixpoint eval (e : pexpr) : option value :=
    match e with
    | PENone => Some VNone
    | PEBool b => Some (VBool b)
    | PENum t => option_map VNum (eval_num t)
    | PEStr s => Some (VStr s)
    | PEMember c m => match sget c (w_enums W) with
                      | Some en => match uget m en with Some _ => Some (VEnum c m) | None => None end
                      | None => None
                      end
    | PEAngle _ _ | PEText _ => None
    | PEDate d r => Some (VDate (kml_datetime d (Some r)))
    | PEPoint c => option_map VPoint (eval_nums c)
    | PECoords b l => option_map (VCoords b) (traverse eval_nums l)
    | PEDates l => option_map VDates (traverse eval_date l)
    | PEItems l => option_map VItems (traverse eval_item l)
    | PEList l => option_map VList ((fix go (l : list pexpr) : option (list value) :=
        match l with
        | [] => Some []
        | x :: l' => match eval x, go l' with Some y, Some r => Some (y :: r) | _, _ => None end
        end) l)
    | PECall c ns nss args geo splat =>
        let evals := fix go (l : list (string * pexpr)) : option (list (string * value)) :=
          match l with
          | [] => Some []
          | (k, x) :: l' => match eval x, go l' with Some y, Some r => Some ((k, y) :: r) | _, _ => None end
          end in
        if nodups (map fst args ++ map fst splat)%list then
          match evals args, evals splat, match geo with Some g => eval_geo g | None => Some None end with
          | Some xs, Some ys, Some g => as_opt (call c ns nss g (xs ++ ys)%list)
          | _, _, _ => None
          end
        else None
    end.
End Repr.
