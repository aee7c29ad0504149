(** * Vocabulary for statements about [repr]. *)
From Coq Require Import String List NArith ZArith Bool.
From Verif Require Import Ustr Res PyInt PyFloat PyDate PyDateProofs Value Geom Codec Spec Create Equal EqualSpec Repr.
Import ListNotations.
Local Open Scope string_scope.

(** Numbers that have a literal: finite floats and the integers that Python
    converts to text (at most 4300 digits). *)
Definition num_literal (n : num) : bool :=
  match n with
  | NInt z => match str_of_int z with Ok _ => true | Err _ => false end
  | NFloat (FFin s m e) => fvalid (FFin s m e)
  | NFloat _ => false
  end.

(** Track items as their constructors build them, without NaN. *)
Definition titem_literal (i : titem) : bool :=
  match ti_when i with Some k => kdt_normal k | None => true end &&
  (Nat.eqb (List.length (ti_coord i)) 2 || Nat.eqb (List.length (ti_coord i)) 3) && forallb num_literal (ti_coord i) &&
  match ti_angle i with Some a => Nat.eqb (List.length a) 3 && forallb num_literal a | None => true end.

(** All numbers have literals, all dates are as the constructor of
    [KmlDateTime] leaves them. *)
Fixpoint literals (v : value) : bool :=
  match v with
  | VNum n => num_literal n
  | VDate k => kdt_normal k
  | VPoint c => forallb num_literal c
  | VCoords _ l => forallb (forallb num_literal) l
  | VDates l => forallb (fun o => match o with Some k => kdt_normal k | None => true end) l
  | VItems l => forallb titem_literal l
  | VList l => forallb literals l
  | VObj _ _ _ attrs => forallb (fun av => match av with (_, x) => literals x end) attrs
  | _ => true
  end.

(** Base classes that are not for direct use: they inherit a [__repr__] that
    prints less than their constructor stores. *)
Definition private_bases : list string :=
  ["features._Feature"; "geometry._Geometry"; "overlays._Overlay"; "styles._ColorStyle"; "views._AbstractView"].

(** Additional keyword arguments are neither [None] nor enumeration members. *)
Definition repr_node (W : world) (c : string) (ns : ustr) (nss : nss_t) (attrs : list (string * value)) : bool :=
  match class_of W c with
  | None => false
  | Some ci => negb (mem c private_bases) &&
               forallb (fun kv => match snd kv with VNone | VEnum _ _ => false | _ => true end) (extras ci attrs)
  end.
Definition plain_extras (W : world) (v : value) : bool := vall (repr_node W) v.

(** Calling the constructor of each object inside [v] with its own attributes
    gives the object again: true of what a constructor returned (C37). *)
Fixpoint rebuilt (W : world) (v : value) : Prop :=
  match v with
  | VList l => (fix go l := match l with [] => True | x :: l' => rebuilt W x /\ go l' end) l
  | VObj c ns nss attrs =>
      call W c ns nss None attrs = Ok (VObj c ns nss attrs) /\
      (fix go l := match l with [] => True | (_, x) :: l' => rebuilt W x /\ go l' end) attrs
  | _ => True
  end.

(** Every object inside [v] was returned by its constructor, no Schema has a
    blank id and the truth value of the geometry of a Placemark is defined. *)
Definition constructed (W : world) (v : value) : Prop :=
  forall c ns nss attrs, within v (VObj c ns nss attrs) ->
    (exists ns0 nss0 g kws, call W c ns0 nss0 g kws = Ok (VObj c ns nss attrs)) /\
    ~ (c = "data.Schema" /\ sget "id" attrs = Some VNone) /\
    (c = "features.Placemark" -> exists b, py_bool W (kwget attrs "kml_geometry") = Ok b).

(** Attributes replaced by [geometry=...] in what is printed. *)
Definition unprinted (c : string) : list string :=
  if mem c ["geometry.LineString"; "geometry.LinearRing"] then ["kml_coordinates"]
  else if String.eqb c "geometry.Polygon" then ["outer_boundary"; "inner_boundaries"]
  else [].

Definition is_enum_item (it : item) : bool := match it_set it with SEnum | SAttrEnum => true | _ => false end.

(** The printed arguments are the attributes the constructor stores, each under
    its own name; enumerations with [str], all else with [repr]. *)
Definition prints_all (W : world) (c : string) (ci : class_info) : bool :=
  let spec := filter (fun s => negb (is_geometry s)) (repr_of ci) in
  let names := map (fun s => fst (fst s)) spec in
  forallb (fun s => String.eqb (fst (fst s)) (snd (fst s))) spec &&
  nodups names &&
  forallb (fun n => mem n (map fst (ctor_attrs ci)) && negb (mem n (unprinted c))) names &&
  forallb (fun ak => mem (fst ak) names || mem (fst ak) (unprinted c)) (ctor_attrs ci) &&
  forallb (fun s => match find_item (fst (fst s)) (items_of W c) with
                    | Some it => Bool.eqb (snd s) (negb (is_enum_item it))
                    | None => snd s && match ckind_of ci (fst (fst s)) with Some CTrack => true | _ => false end
                    end) spec &&
  Bool.eqb (existsb is_geometry (repr_of ci)) (negb (nilb (unprinted c))).

Definition reprs_ok (W : world) : bool :=
  forallb (fun cc => mem (fst cc) private_bases || prints_all W (fst cc) (snd cc)) (w_classes W).

(** Contains no line, ring or polygon. *)
Definition no_lines (v : value) : bool := vall (fun c _ _ _ => nilb (unprinted c)) v.
