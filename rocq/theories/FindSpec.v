(** * What can be reached from an object, and document order. *)
From Coq Require Import String List NArith ZArith Bool Sorting.Sorted.
From Verif Require Import Ustr Res PyInt PyFloat PyDate Value Find.
Import ListNotations.

(** Values that are neither strings nor iterable. *)
Definition single (v : value) : Prop :=
  match v with VNone | VBool _ | VNum _ | VEnum _ _ | VDate _ | VObj _ _ _ _ => True | _ => False end.

(** One step through a public attribute or through an attribute and a member
    of it. *)
Inductive step : pyobj -> pyobj -> Prop :=
| step_attr c ns nss attrs a v : In (a, v) attrs -> underscore a = false -> single v -> step (OVal (VObj c ns nss attrs)) (OVal v)
| step_member c ns nss attrs a l v : In (a, VList l) attrs -> underscore a = false -> In v l -> step (OVal (VObj c ns nss attrs)) (OVal v)
| step_tuple c ns nss attrs a b l t : In (a, VCoords b l) attrs -> underscore a = false -> In t l -> step (OVal (VObj c ns nss attrs)) (OTuple t)
| step_number c ns nss attrs a t n : In (a, VPoint t) attrs -> underscore a = false -> In n t -> step (OVal (VObj c ns nss attrs)) (OVal (VNum n))
| step_date c ns nss attrs a l k : In (a, VDates l) attrs -> underscore a = false -> In (Some k) l -> step (OVal (VObj c ns nss attrs)) (OVal (VDate k))
| step_no_date c ns nss attrs a l : In (a, VDates l) attrs -> underscore a = false -> In None l -> step (OVal (VObj c ns nss attrs)) (OTuple [])
| step_item c ns nss attrs a l i : In (a, VItems l) attrs -> underscore a = false -> In i l -> step (OVal (VObj c ns nss attrs)) (OItem i)
| step_key c ns nss attrs k n : In (k, n) nss -> step (OVal (VObj c ns nss attrs)) (OKey k)
| step_moment k : step (OVal (VDate k)) (OMoment (k_dt k))
| step_resolution k : step (OVal (VDate k)) (ORes (k_res k))
| step_when i k : ti_when i = Some k -> step (OItem i) (OVal (VDate k))
| step_coord i : step (OItem i) (OPoint (ti_coord i))
| step_angle i a : ti_angle i = Some a -> step (OItem i) (OAngle a)
| step_no_angle i : ti_angle i = None -> step (OItem i) (OVal VNone)
| step_degrees c n : In n c -> step (OAngle c) (OVal (VNum n)).

Inductive reach : pyobj -> pyobj -> Prop :=
| reach_self o : reach o o
| reach_step o x y : step o x -> reach x y -> reach o y.

(** [isinstance(o, t)]: Python's type hierarchy.  The classes of a library
    object are those of its MRO. *)
Inductive is_a (W : world) : pyobj -> string -> Prop :=
| isa_object o : is_a W o "object"
| isa_library c ci ns nss attrs t : class_of W c = Some ci -> In t (ci_mro ci) -> is_a W (OVal (VObj c ns nss attrs)) t
| isa_unknown c ns nss attrs : class_of W c = None -> is_a W (OVal (VObj c ns nss attrs)) c
| isa_none : is_a W (OVal VNone) "NoneType"
| isa_bool b t : In t ["bool"; "int"]%string -> is_a W (OVal (VBool b)) t
| isa_int z : is_a W (OVal (VNum (NInt z))) "int"
| isa_float f : is_a W (OVal (VNum (NFloat f))) "float"
| isa_str s : is_a W (OVal (VStr s)) "str"
| isa_key k : is_a W (OKey k) "str"
| isa_member c m t : In t [c; "enums.RelaxedEnum"; "enum.Enum"]%string -> is_a W (OVal (VEnum c m)) t
| isa_kmldt k : is_a W (OVal (VDate k)) "times.KmlDateTime"
| isa_list l : is_a W (OVal (VList l)) "list"
| isa_items l : is_a W (OVal (VItems l)) "list"
| isa_dates l : is_a W (OVal (VDates l)) "list"
| isa_coords l : is_a W (OVal (VCoords false l)) "list"
| isa_coords_tuple l : is_a W (OVal (VCoords true l)) "tuple"
| isa_tuple c : is_a W (OTuple c) "tuple"
| isa_tuple_value c : is_a W (OVal (VPoint c)) "tuple"
| isa_date d : is_a W (OMoment (PDate d)) "datetime.date"
| isa_datetime t c : In c ["datetime.datetime"; "datetime.date"]%string -> is_a W (OMoment (PDateTime t)) c
| isa_resolution r t : In t ["enums.DateTimeResolution"; "enums.RelaxedEnum"; "enum.Enum"]%string -> is_a W (ORes r) t
| isa_item i : is_a W (OItem i) "gx.TrackItem"
| isa_point c : is_a W (OPoint c) "pygeoif.Point"
| isa_angle c : is_a W (OAngle c) "gx.Angle".

(** The query holds: an instance of one of the types, all attributes there and
    equal. *)
Definition matches (W : world) (getattr : pyobj -> string -> res pyobj) (q : query) (o : pyobj) : Prop :=
  (forall ts, q_type q = Some ts -> exists t, In t ts /\ is_a W o t) /\
  (forall k eq, In (k, eq) (q_args q) -> exists x, getattr o k = Ok x /\ eq x = Ok true).

(** Places: [at_path W o p x]: [x] is at the end of the path [p] from [o],
    where the number [i] means the [i]-th thing in the order of [__dict__]. *)
Inductive at_path (W : world) : pyobj -> list nat -> pyobj -> Prop :=
| at_here o : at_path W o [] o
| at_below o i p y x : nth_error (get_all_attrs W o) i = Some y -> at_path W y p x -> at_path W o (i :: p) x.

(** Document order: parents before children, then from left to right. *)
Inductive before : list nat -> list nat -> Prop :=
| before_nil i p : before [] (i :: p)
| before_lt i j p q : (i < j)%nat -> before (i :: p) (j :: q)
| before_eq i p q : before p q -> before (i :: p) (i :: q).

(** Library objects inside a library object: attribute values and members of
    lists. *)
Inductive inside : value -> value -> Prop :=
| in_self v : inside v v
| in_attr c ns nss attrs a x y : In (a, x) attrs -> underscore a = false -> inside x y -> inside (VObj c ns nss attrs) y
| in_member c ns nss attrs a l x y : In (a, VList l) attrs -> underscore a = false -> In x l -> inside x y -> inside (VObj c ns nss attrs) y.
