(** * When a report is justified.

    Vocabulary of C60.  Nothing here mentions the logging reader of Report.v
    except the type of reports. *)
From Coq Require Import String List NArith ZArith Bool.
From Verif Require Import Ustr Res PyInt PyFloat PyDate Elem Value Geom Codec Report.
Import ListNotations.

(** Reading the element [e] as class [c] reads the element [p] below it as class
    [c']: there is a registration of objects for every step. *)
Inductive read_part (W : world) (e : elem) (c : string) : elem -> string -> Prop :=
| the_root : read_part W e c e c
| a_child p c1 it c2 ci ns k :
    read_part W e c p c1 -> In it (items_of W c1) -> (it_get it = GObj \/ it_get it = GObjs) ->
    In c2 (it_classes it) -> class_of W c2 = Some ci -> In k (e_kids p) -> e_tag k = ns ++ u (ci_tag ci) ->
    read_part W e c k c2.

(** The text [t] is none of what the registration [it] asks for, and [expected]
    is the word the message uses for that.  In strict mode the spelling of
    booleans and enumerations must be exact. *)
Definition unfit (W : world) (strict : bool) (it : item) (expected : string) (t : ustr) : Prop :=
  match it_get it with
  | GBool => expected = "Boolean"%string /\
      (if strict then ~ In t [u "0"; u "1"; u "false"; u "true"]
       else ~ In (lower t) [u "0"; u "1"; u "false"; u "true"] /\ float_of_str (lower t) = Err EValueError)
  | GInt => expected = "Integer"%string /\ int_of_str t = Err EValueError
  | GFloat | GAttrFloat => expected = "Float"%string /\ float_of_str t = Err EValueError
  | GEnum | GAttrEnum => expected = "Enum"%string /\
      exists c e, it_classes it = [c] /\ sget c (w_enums W) = Some e /\
        forall m, In m (map fst e) -> if strict then m <> t else lower m <> lower t
  | GDate | GDates => expected = "DateTime"%string /\ kdt_parse (w_arrow W) t = Err EValueError
  | GCoordList => expected = "Coordinates"%string /\ exists w, In w (words t) /\ float_of_str w = Err EValueError
  | _ => False
  end.

(** A report on the element [p], read as class [c], because of a registration [it]
    of that class. *)
Inductive justified (W : world) (strict : bool) (p : elem) (c : string) : report -> Prop :=
| on_child it ns k x t expected :
    In it (items_of W c) -> In k (e_kids p) -> e_tag k = ns ++ u (it_node it) -> e_text k = Some x ->
    t = (match it_get it with GDates | GCoordList => x | _ => strip x end) -> t <> [] \/ it_get it = GDates ->
    unfit W strict it expected t ->
    justified W strict p c (Refused p k expected)
| on_attribute it ns t expected :
    In it (items_of W c) -> (it_get it = GAttrFloat \/ it_get it = GAttrEnum) ->
    uget (ns ++ u (it_node it)) (e_attrib p) = Some t -> t <> [] -> unfit W strict it expected t ->
    justified W strict p c (Refused p p expected)
| on_coordinates it t :
    In it (items_of W c) -> it_get it = GCoords -> e_text p = Some t ->
    (exists w z, In w (words (sub_comma false (strip t))) /\ In z (split_on 44 w) /\ float_of_str z = Err EValueError) ->
    justified W strict p c (BadCoordinates p)
| on_spelling it cls e t m :
    In it (items_of W c) -> (it_get it = GEnum \/ it_get it = GAttrEnum) ->
    it_classes it = [cls] -> sget cls (w_enums W) = Some e ->
    In m (map fst e) -> lower m = lower t -> ~ In t (map fst e) ->
    (exists ns k x, In k (e_kids p) /\ e_tag k = ns ++ u (it_node it) /\ e_text k = Some x /\ t = strip x) \/
    (exists ns, uget (ns ++ u (it_node it)) (e_attrib p) = Some t) ->
    justified W strict p c (Relaxed cls (lower t) m).

(** A boolean in a spelling that strict reading refuses and lenient reading
    accepts. *)
Definition relaxed_boolean (r : report) : Prop :=
  exists p k x, r = Refused p k "Boolean" /\ In k (e_kids p) /\ e_text k = Some x /\
    ~ In (strip x) [u "0"; u "1"; u "false"; u "true"] /\
    exists b, get_boolean_value false (strip x) = Ok (VBool b).

(** Lenient reading of [e] as [c] with the namespaces [nss] comes to the element
    [p] and reads it as [c']. *)
Inductive visited (W : world) (nss : nss_t) : elem -> string -> elem -> string -> Prop :=
| at_root e c : visited W nss e c e c
| in_list e c it id rest c2 ci k p c' :
    In it (items_of W c) -> it_get it = GObjs -> it_nsids it = id :: rest ->
    In c2 (it_classes it) -> class_of W c2 = Some ci -> In k (e_kids e) -> e_tag k = ns_get nss id ++ u (ci_tag ci) ->
    visited W nss k c2 p c' -> visited W nss e c p c'
| in_place e c it id rest before c2 after ci k p c' :
    In it (items_of W c) -> it_get it = GObj -> it_nsids it = id :: rest ->
    it_classes it = before ++ c2 :: after -> class_of W c2 = Some ci ->
    (forall c1 ci1 k1, In c1 before -> class_of W c1 = Some ci1 -> In k1 (e_kids e) -> e_tag k1 <> ns_get nss id ++ u (ci_tag ci1)) ->
    find (fun x => ueqb (e_tag x) (ns_get nss id ++ u (ci_tag ci))) (e_kids e) = Some k ->
    visited W nss k c2 p c' -> visited W nss e c p c'.

(** Something [p] says, where a registration of class [c] looks first, and which
    is none of what the registration asks for; with the report that is due. *)
Inductive dropped (W : world) (nss : nss_t) (p : elem) (c : string) : report -> Prop :=
| one_child it id rest k x expected :
    In it (items_of W c) -> In (it_get it) [GBool; GInt; GFloat; GEnum; GDate] -> it_nsids it = id :: rest ->
    find (fun y => ueqb (e_tag y) (ns_get nss id ++ u (it_node it))) (e_kids p) = Some k ->
    e_text k = Some x -> strip x <> [] -> unfit W false it expected (strip x) ->
    dropped W nss p c (Refused p k expected)
| any_child it id rest k x expected :
    In it (items_of W c) -> In (it_get it) [GDates; GCoordList] -> it_nsids it = id :: rest ->
    In k (e_kids p) -> e_tag k = ns_get nss id ++ u (it_node it) ->
    e_text k = Some x -> x <> [] -> unfit W false it expected x ->
    dropped W nss p c (Refused p k expected)
| an_attribute it id rest t expected :
    In it (items_of W c) -> In (it_get it) [GAttrFloat; GAttrEnum] -> it_nsids it = id :: rest ->
    uget (ns_get nss id ++ u (it_node it)) (e_attrib p) = Some t -> t <> [] -> unfit W false it expected t ->
    dropped W nss p c (Refused p p expected)
| the_coordinates it id rest t w z :
    In it (items_of W c) -> it_get it = GCoords -> it_nsids it = id :: rest -> e_text p = Some t ->
    In w (words (sub_comma false (strip t))) -> In z (split_on 44 w) -> float_of_str z = Err EValueError ->
    dropped W nss p c (BadCoordinates p).
