(** * Settled objects and regular name spaces (specification vocabulary). *)
From Coq Require Import String List NArith ZArith Bool.
From Verif Require Import Ustr UstrProofs Res PyInt PyFloat PyDate PyDateProofs Elem Value Geom Codec Spec.
Import ListNotations.

(** ** Regular name spaces: every object carries the name space of its class
    out of one common map. *)

Definition same_nss (a b : nss_t) : bool :=
  all2 (fun x y => String.eqb (fst x) (fst y) && ueqb (snd x) (snd y)) a b.

Definition regular (W : world) (nss : nss_t) (v : value) : bool :=
  vall (fun c ns nss' _ => ueqb ns (default_ns W c nss) && same_nss nss' nss) v.

(** Map that has all the built-in keys, well-formed name spaces, and no entry
    for the empty id. *)
Definition map_ok (nss : nss_t) : bool :=
  nss_ok nss && negb (mem EmptyString (map fst nss)).

(** Dates are printable and readable, tracks are aligned, required attributes
    are present. *)
Definition readable (W : world) (v : value) : bool :=
  vall (fun c _ _ attrs => match class_of W c with
                           | Some ci => forallb (attr_readable ci) attrs
                           | None => false
                           end) v.

(** The registry looks for every attribute in the name space in which regular
    objects write it. *)
Definition nsid_of (W : world) (c : string) : string :=
  match class_of W c with Some ci => ci_nsid ci | None => EmptyString end.

Definition item_ids_ok (W : world) (nsid : string) (it : item) : bool :=
  let ids := it_nsids it in
  match it_set it with
  | SNodeText | SCoords => negb (nilb ids)
  | SText | SBool | SInt | SFloat | SCoordList => mem nsid ids
  | SAttrText | SAttrInt | SAttrFloat | SAttrEnum => mem EmptyString ids
  | SEnum => forallb (fun c => match sget c (w_enums W) with
                | Some e => forallb (fun m => mem (match snd m with Some id => id | None => nsid end) ids) e
                | None => false
                end) (it_classes it)
  | SDate | SDates => mem "kml"%string ids
  | SObj => forallb (fun c => mem (nsid_of W c) ids) (it_classes it)
  | SObjs => forallb (fun c => String.eqb (nsid_of W c) (hd EmptyString ids)) (it_classes it)
  end.

Definition world_ids_ok (W : world) : bool :=
  forallb (fun cc => forallb (item_ids_ok W (ci_nsid (snd cc))) (items_of W (fst cc))) (w_classes W).

(** ** Settled objects: nothing is left to be normalised by writing and
    reading.  No empty sub-objects, lists grouped by class, text stripped,
    coordinates and measures are floats.  The definitions are parametric in
    the test [T] that sub-objects pass. *)

Fixpoint drop_class (c : string) (l : list value) : list value :=
  match l with
  | [] => []
  | x :: l' => if is_class c x then drop_class c l' else l
  end.

(** First the members of the first class, then those of the second, ... *)
Fixpoint grouped (classes : list string) (l : list value) : bool :=
  match classes with
  | [] => nilb l
  | c :: cs => grouped cs (drop_class c l)
  end.

Definition is_float (n : num) : bool := match n with NFloat _ => true | NInt _ => false end.

Definition point_settled (c : list num) : bool := negb (nilb c) && forallb is_float c.

Definition settled_item (T : value -> bool) (it : item) (k : option ckind) (x : value) : bool :=
  match it_set it, x with
  | (SNodeText | SText), VStr s =>
      if uempty s then match k with Some COrEmpty => true | _ => false end else ueqb (strip s) s
  | SAttrText, VStr s =>
      if uempty s then match k with Some COrEmpty => true | _ => false end
      else match k with Some (CClean | CCleanReq) => ueqb (strip s) s | _ => true end
  | (SNodeText | SText | SAttrText), VNone => match k with Some (CRaw | CClean | CCleanReq | COrNone) => true | _ => false end
  | (SBool | SInt | SAttrInt | SEnum | SAttrEnum | SDate | SFloat | SAttrFloat | SDates | SCoordList | SObj), VNone =>
      match k with None => false | _ => true end
  | (SBool | SInt | SAttrInt | SEnum | SAttrEnum | SDate), _ => true
  | (SFloat | SAttrFloat), VNum n => is_float n
  | SDates, VDates l => negb (nilb l)
  | SCoordList, VCoords false l => negb (nilb l) && forallb point_settled l
  | SCoords, VCoords false l => if nilb l then match k with Some CCoordsOr => true | _ => false end
                                else forallb point_settled l
  | SCoords, VNone => match k with Some CRaw => true | _ => false end
  | SObj, VObj _ _ _ _ => T x
  | SObjs, VList l => forallb T l && grouped (it_classes it) l
  | _, _ => false
  end.

Definition titem_settled (i : titem) : bool :=
  forallb is_float (ti_coord i) && match ti_angle i with Some a => forallb is_float a | None => false end.

Definition settled_attr (T : value -> bool) (ci : class_info) (its : list item) (av : string * value) : bool :=
  let '(a, x) := av in
  match find_item a its with
  | Some it => settled_item T it (ckind_of ci a) x
  | None => match ckind_of ci a, x with
            | Some CTrack, VItems l => forallb titem_settled l
            | Some (CRaw | CClean | COrNone), VNone => true
            | Some COrEmpty, VStr [] => true
            | _, _ => false
            end
  end.

(** Attributes that no constructor parameter stores. *)
Definition extra_keys (ci : class_info) (attrs : list (string * value)) : list string :=
  let ks := map fst attrs in
  firstn (length ks - length (ci_pre ci) - length (ci_post ci)) (skipn (length (ci_pre ci)) ks).

Definition is_objs (it : item) : bool := match it_set it with SObjs => true | _ => false end.

Definition settled_node (T : value -> bool) (W : world) (c : string) (ns : ustr) (nss : nss_t) (attrs : list (string * value)) : bool :=
  match class_of W c with
  | None => false
  | Some ci =>
      let its := items_of W c in
      forallb (settled_attr T ci its) attrs &&
      all2 String.eqb (extra_keys ci attrs)
        (map it_attr (filter (fun it => negb (mem (it_attr it) (ci_params ci)) &&
                                        (mem (it_attr it) (map fst attrs) || is_objs it)) its))
  end.

Definition settled_with (T : value -> bool) (W : world) (v : value) : bool := vall (settled_node T W) v.

Definition settled (W : world) (v : value) : bool := settled_with (truth W) W v.
