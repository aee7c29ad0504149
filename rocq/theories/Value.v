(** * Python values handled by fastkml and the class / registry tables. *)
From Coq Require Import String List NArith ZArith Bool.
From Verif Require Import Ustr Res PyInt PyFloat PyDate.
Import ListNotations.
Local Open Scope Z_scope.

(** A number as it occurs in attributes and coordinates: [int] or [float]. *)
Inductive num := NInt (z : Z) | NFloat (f : pyfloat).

(** gx.py:155-161 [TrackItem]: [ti_when = None] is the fill value [()] of
    gx.py:264-269; [ti_coord] are the coordinates of the [geo.Point];
    [ti_angle] is (heading, tilt, roll) of an [Angle] (gx.py:127-152). *)
Record titem := mkItem { ti_when : option kmldt; ti_coord : list num; ti_angle : option (list num) }.

(** Attribute values.
    - [VPoint c]: a plain tuple of numbers;
    - [VCoords tup l]: a sequence ([tup]: a tuple, else a list) of coordinate tuples;
    - [VDates l]: a sequence of [KmlDateTime] ([None] for [()]);
    - [VItems l]: a list of track items;
    - [VList l]: a list of library objects;
    - [VObj cls ns nss attrs]: an instance: class, [ns], [name_spaces] and the
      other entries of [__dict__] in insertion order. *)
Inductive value :=
| VNone
| VBool (b : bool)
| VNum (n : num)
| VStr (s : ustr)
| VEnum (cls : string) (val : ustr)
| VDate (k : kmldt)
| VPoint (c : list num)
| VCoords (tup : bool) (l : list (list num))
| VDates (l : list (option kmldt))
| VItems (l : list titem)
| VList (l : list value)
| VObj (cls : string) (ns : ustr) (nss : list (string * ustr)) (attrs : list (string * value)).

Notation VInt z := (VNum (NInt z)).
Notation VFloat f := (VNum (NFloat f)).

Section ValueInd.
  Variable P : value -> Prop.
  Hypothesis HNone : P VNone.
  Hypothesis HBool : forall b, P (VBool b).
  Hypothesis HNum : forall n, P (VNum n).
  Hypothesis HStr : forall s, P (VStr s).
  Hypothesis HEnum : forall c v, P (VEnum c v).
  Hypothesis HDate : forall k, P (VDate k).
  Hypothesis HPoint : forall c, P (VPoint c).
  Hypothesis HCoords : forall b l, P (VCoords b l).
  Hypothesis HDates : forall l, P (VDates l).
  Hypothesis HItems : forall l, P (VItems l).
  Hypothesis HList : forall l, Forall P l -> P (VList l).
  Hypothesis HObj : forall c ns nss attrs, Forall (fun av => P (snd av)) attrs -> P (VObj c ns nss attrs).
  Fixpoint value_ind' (v : value) : P v :=
    match v with
    | VNone => HNone
    | VBool b => HBool b
    | VNum n => HNum n
    | VStr s => HStr s
    | VEnum c x => HEnum c x
    | VDate k => HDate k
    | VPoint c => HPoint c
    | VCoords b l => HCoords b l
    | VDates l => HDates l
    | VItems l => HItems l
    | VList l => HList l ((fix go (l : list value) : Forall P l :=
          match l with [] => Forall_nil _ | x :: l' => Forall_cons _ (value_ind' x) (go l') end) l)
    | VObj c ns nss attrs => HObj c ns nss attrs
        ((fix go (l : list (string * value)) : Forall (fun av => P (snd av)) l :=
          match l with
          | [] => Forall_nil _
          | av :: l' => Forall_cons av (value_ind' (snd av)) (go l')
          end) attrs)
    end.
End ValueInd.

(** ** Association lists with Coq [string] keys (Python dicts) *)

Fixpoint sget {A} (k : string) (l : list (string * A)) : option A :=
  match l with
  | [] => None
  | (k', v) :: l' => if String.eqb k k' then Some v else sget k l'
  end.

(** [d[k] = v] *)
Fixpoint sset {A} (k : string) (v : A) (l : list (string * A)) : list (string * A) :=
  match l with
  | [] => [(k, v)]
  | (k', v') :: l' => if String.eqb k k' then (k, v) :: l' else (k', v') :: sset k v l'
  end.

(** [{**a, **b}] *)
Definition smerge {A} (a b : list (string * A)) : list (string * A) :=
  fold_left (fun acc kv => sset (fst kv) (snd kv) acc) b a.

Definition mem (x : string) (l : list string) : bool := existsb (String.eqb x) l.

Definition nss_t := list (string * ustr).

(** config.py:52-64 *)
Definition KMLNS : ustr := u "{http://www.opengis.net/kml/2.2}".
Definition ATOMNS : ustr := u "{http://www.w3.org/2005/Atom}".
Definition GXNS : ustr := u "{http://www.google.com/kml/ext/2.2}".
Definition NAME_SPACES : nss_t := [("kml"%string, KMLNS); ("atom"%string, ATOMNS); ("gx"%string, GXNS)].

(** [name_spaces.get(id, "")] *)
Definition ns_get (nss : nss_t) (id : string) : ustr :=
  match sget id nss with Some s => s | None => [] end.

(** base.py:81-82, 352-353: [{**config.NAME_SPACES, **(name_spaces or {})}] *)
Definition merge_ns (nss : nss_t) : nss_t := smerge NAME_SPACES nss.

(** ** Numbers *)

(** [str(n)] *)
Definition num_str (n : num) : res ustr :=
  match n with NInt z => str_of_int z | NFloat f => Ok (str_of_float f) end.

(** [f"{n:.{p}f}"]; an [int] is first converted to a float, which fails with
    [OverflowError] when it is too large. *)
Definition num_fmt (p : nat) (n : num) : res ustr :=
  match n with
  | NFloat f => Ok (fmt_float p f)
  | NInt z => match float_of_Z z with
              | FInf _ => Err EValueError
              | f => Ok (fmt_float p f)
              end
  end.

Definition num_truth (n : num) : bool :=
  match n with NInt z => negb (z =? 0) | NFloat f => float_truth f end.

(** [a == b] *)
Definition num_eq (a b : num) : bool :=
  match a, b with
  | NInt x, NInt y => x =? y
  | NFloat x, NFloat y => float_eq x y
  | NFloat x, NInt y | NInt y, NFloat x => float_eq_int x y
  end.

Fixpoint all2 {A B} (f : A -> B -> bool) (l : list A) (r : list B) : bool :=
  match l, r with
  | [], [] => true
  | x :: l', y :: r' => f x y && all2 f l' r'
  | _, _ => false
  end.

Definition point_eq (a b : list num) : bool := all2 num_eq a b.

Definition bool_num (b : bool) : num := NInt (if b then 1 else 0).

(** [a == b] for the values that [get_value] (helpers.py:183) compares with a
    registered default; library objects are never compared there. *)
Definition scalar_eq (a b : value) : bool :=
  match a, b with
  | VNone, VNone => true
  | VBool x, VBool y => Bool.eqb x y
  | VBool x, VNum y => num_eq (bool_num x) y
  | VNum x, VBool y => num_eq x (bool_num y)
  | VNum x, VNum y => num_eq x y
  | VStr x, VStr y => ueqb x y
  | VEnum c x, VEnum d y => String.eqb c d && ueqb x y
  | VDate x, VDate y => kdt_eq x y
  | VPoint x, VPoint y => point_eq x y
  | VCoords t x, VCoords t' y => Bool.eqb t t' && all2 point_eq x y
  | _, _ => false
  end.

(** ** Tables *)

(** The [get_kwarg] functions of helpers.py / geometry.py. *)
Inductive getter :=
| GNodeText      (* node_text_kwarg                 helpers.py:642-674 *)
| GText          (* subelement_text_kwarg           helpers.py:677-710 *)
| GAttrText      (* attribute_text_kwarg            helpers.py:713-742 *)
| GBool          (* subelement_bool_kwarg           helpers.py:758-806 *)
| GInt           (* subelement_int_kwarg            helpers.py:809-855 *)
| GAttrInt       (* attribute_int_kwarg             helpers.py:858-887 *)
| GFloat         (* subelement_float_kwarg          helpers.py:890-936 *)
| GAttrFloat     (* attribute_float_kwarg           helpers.py:939-982 *)
| GEnum          (* subelement_enum_kwarg           helpers.py:993-1048 *)
| GAttrEnum      (* attribute_enum_kwarg            helpers.py:1051-1098 *)
| GDate          (* datetime_subelement_kwarg       helpers.py:1101-1128 *)
| GDates         (* datetime_subelement_list_kwarg  helpers.py:1131-1158 *)
| GCoordList     (* coords_subelement_list_kwarg    helpers.py:1184-1198 *)
| GCoords        (* subelement_coordinates_kwarg    geometry.py:177-225 *)
| GObj           (* xml_subelement_kwarg            helpers.py:1201-1243 *)
| GObjs.         (* xml_subelement_list_kwarg       helpers.py:1246-1293 *)

(** The [set_element] functions. *)
Inductive setter :=
| SNodeText      (* node_text                 helpers.py:186-228 *)
| SText          (* text_subelement           helpers.py:231-269 *)
| SAttrText      (* text_attribute            helpers.py:272-306 *)
| SBool          (* bool_subelement           helpers.py:309-343 *)
| SInt           (* int_subelement            helpers.py:346-380 *)
| SAttrInt       (* int_attribute             helpers.py:383-413 *)
| SFloat         (* float_subelement          helpers.py:416-433 *)
| SAttrFloat     (* float_attribute           helpers.py:436-449 *)
| SEnum          (* enum_subelement           helpers.py:452-470 *)
| SAttrEnum      (* enum_attribute            helpers.py:473-486 *)
| SDate          (* datetime_subelement       helpers.py:489-511 *)
| SDates         (* datetime_subelement_list  helpers.py:514-537 *)
| SCoordList     (* coords_subelement_list    helpers.py:540-566 *)
| SCoords        (* coordinates_subelement    geometry.py:137-174 *)
| SObj           (* xml_subelement            helpers.py:569-603 *)
| SObjs.         (* xml_subelement_list       helpers.py:606-639 *)

(** registry.py:71-97 [RegistryItem]. *)
Record item := mkItm {
  it_nsids : list string;
  it_classes : list string;
  it_attr : string;
  it_get : getter;
  it_set : setter;
  it_node : string;
  it_default : value
}.

(** An enumeration: members in definition order: value, and what [get_ns_id]
    returns for it ([None]: the class has no such method). *)
Definition enum_info := list (ustr * option string).

(** How a constructor stores a keyword argument in the attribute of the same name. *)
Inductive ckind :=
| CRaw           (* self.a = a *)
| CClean         (* self.a = clean_string(a) *)
| CCleanReq      (* if not a: raise KMLSchemaError;  self.a = clean_string(a)  (data.py:243-253) *)
| COrEmpty       (* self.a = a or "" *)
| COrNone        (* self.a = a or None *)
| CListTruthy    (* self.a = list(a) if a else [] *)
| CListNotNone   (* self.a = list(a) if a is not None else [] *)
| CFilter        (* self.a = [x for x in a if x] if a else [] *)
| CCoordsOr      (* self.a = a or []  (geometry.py:269) *)
| CTrack.        (* gx.py:253-271: built from whens, coords, angles or track_items *)

(** The forms of [__bool__] that occur. *)
Inductive bexpr :=
| BTrue                     (* no __bool__, or: return True *)
| BAttr (a : string)        (* bool(self.a) *)
| BNotNone (a : string)     (* self.a is not None *)
| BAny (a : string)         (* any(self.a) *)
| BGeometry                 (* bool(self.geometry) *)
| BAnd (x y : bexpr)
| BOr (x y : bexpr).

(** Which definition of the [geometry] property a class has. *)
Inductive gkind :=
| GkNone
| GkPoint        (* geometry.py:482-498 *)
| GkLine         (* geometry.py:649-665 *)
| GkRing         (* geometry.py:786-805 *)
| GkBoundary     (* geometry.py:896-907 *)
| GkPolygon      (* geometry.py:1068-1092 *)
| GkMulti        (* geometry.py:1336-1341 *)
| GkPlacemark    (* features.py:650-661 *)
| GkLocation     (* model.py:97-104 *)
| GkModel        (* model.py:475-478 *)
| GkTrack        (* gx.py:305-316 *)
| GkMultiTrack.  (* gx.py:533-543 *)

Record class_info := mkCls {
  ci_mro : list string;              (* __mro__ without object, most derived first *)
  ci_tag : string;                   (* get_tag_name() *)
  ci_nsid : string;                  (* _default_nsid *)
  ci_pre : list (string * ckind);    (* attributes assigned before _XMLObject.__init__ runs *)
  ci_post : list (string * ckind);   (* attributes assigned after it *)
  ci_params : list string;           (* keyword parameters other than ns, name_spaces *)
  ci_kwargs : bool;                  (* every constructor in the chain forwards **kwargs *)
  ci_bool : bexpr;
  ci_geom : gkind;
  ci_root : bool                     (* kml.py:155-197: overrides etree_element *)
}.

Record world := mkWorld {
  w_classes : list (string * class_info);
  w_enums : list (string * enum_info);
  w_registry : list (string * list item);
  w_arrow : ustr -> option datetime
}.

(** registry.py:158-179 [Registry.get]: items of the ancestors first. *)
Definition reg_items (reg : list (string * list item)) (mro : list string) : list item :=
  concat (map (fun c => match sget c reg with Some l => l | None => [] end) (rev mro)).

(** registry.py:137-156 [Registry.register]. *)
Definition reg_add (reg : list (string * list item)) (cls : string) (it : item) :=
  sset cls ((match sget cls reg with Some l => l | None => [] end) ++ [it]) reg.

Definition class_of (W : world) (c : string) : option class_info := sget c (w_classes W).

Definition items_of (W : world) (c : string) : list item :=
  match class_of W c with
  | Some ci => reg_items (w_registry W) (ci_mro ci)
  | None => []
  end.
