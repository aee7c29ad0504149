(** * Specification vocabulary: well-formed tables, typed objects, and what a
    document written from an object says when it is read again. *)
From Coq Require Import String List NArith ZArith Bool.
From Verif Require Import Ustr UstrProofs Res PyInt PyFloat PyDate PyDateProofs Elem Value Geom Codec.
Import ListNotations.

(** ** Tables *)

Fixpoint nodupb {A} (eqb : A -> A -> bool) (l : list A) : bool :=
  match l with
  | [] => true
  | x :: l' => negb (existsb (eqb x) l') && nodupb eqb l'
  end.
Definition nodups (l : list string) : bool := nodupb String.eqb l.

Fixpoint find_item (a : string) (its : list item) : option item :=
  match its with
  | [] => None
  | it :: its' => if String.eqb a (it_attr it) then Some it else find_item a its'
  end.

Definition tag_of (W : world) (c : string) : string :=
  match class_of W c with Some ci => ci_tag ci | None => EmptyString end.

(** Local names of the child elements an item can produce. *)
Definition item_names (W : world) (it : item) : list string :=
  match it_set it with
  | SText | SBool | SInt | SFloat | SEnum | SDate | SDates | SCoordList => [it_node it]
  | SObj | SObjs => map (tag_of W) (it_classes it)
  | _ => []
  end.
(** XML attributes it can produce. *)
Definition item_attrs (it : item) : list string :=
  match it_set it with
  | SAttrText | SAttrInt | SAttrFloat | SAttrEnum => [it_node it]
  | _ => []
  end.
Definition item_texts (it : item) : list string :=
  match it_set it with SNodeText | SCoords => [it_node it] | _ => [] end.

(** The getter undoes the setter. *)
Definition paired (g : getter) (s : setter) : bool :=
  match g, s with
  | GNodeText, SNodeText | GText, SText | GAttrText, SAttrText | GBool, SBool
  | GInt, SInt | GAttrInt, SAttrInt | GFloat, SFloat | GAttrFloat, SAttrFloat
  | GEnum, SEnum | GAttrEnum, SAttrEnum | GDate, SDate | GDates, SDates
  | GCoordList, SCoordList | GCoords, SCoords | GObj, SObj | GObjs, SObjs => true
  | _, _ => false
  end.

(** Enumeration members: distinct, not empty, no white space. *)
Definition enum_ok (e : enum_info) : bool :=
  nodupb ueqb (map fst e) &&
  forallb (fun m => no_space (fst m) && negb (uempty (fst m))) e.

Definition num_valid (n : num) : bool :=
  match n with NInt _ => true | NFloat f => fvalid f end.
Definition nums_valid (l : list num) : bool := forallb num_valid l.

Definition enum_member (W : world) (classes : list string) (c : string) (m : ustr) : bool :=
  match classes with
  | [c'] => String.eqb c c' &&
            match sget c (w_enums W) with
            | Some e => match uget m e with Some _ => true | None => false end
            | None => false
            end
  | _ => false
  end.

Definition is_obj_of (classes : list string) (v : value) : bool :=
  match v with VObj c _ _ _ => mem c classes | _ => false end.

(** The values an attribute bound to an item may hold. *)
Definition item_typed (W : world) (it : item) (x : value) : bool :=
  match it_set it, x with
  | (SObjs | SDates | SCoordList), VNone => true
  | _, VNone => true
  | (SNodeText | SText | SAttrText), VStr _ => true
  | SBool, VBool _ => true
  | (SInt | SAttrInt), VNum (NInt _) => true
  | (SFloat | SAttrFloat), VNum n => num_valid n
  | (SEnum | SAttrEnum), VEnum c m => enum_member W (it_classes it) c m
  | SDate, VDate k => kdt_normal k
  | SDates, VDates l => forallb (fun o => match o with Some k => kdt_normal k | None => false end) l
  | (SCoordList | SCoords), VCoords _ l => forallb nums_valid l
  | SObj, VObj c _ _ _ => mem c (it_classes it)
  | SObjs, VList l => forallb (is_obj_of (it_classes it)) l
  | _, _ => false
  end.

(** Dates that survive [str] / [parse] (see PyDateProofs.kdt_readable). *)
Definition item_readable (x : value) : bool :=
  match x with
  | VDate k => kdt_readable k
  | VDates l => forallb (fun o => match o with Some k => kdt_readable k | None => false end) l
  | _ => true
  end.

Definition default_ok (W : world) (it : item) : bool :=
  match it_set it with
  | SDates | SCoordList =>
      match it_default it with VCoords _ _ | VDates _ => false | _ => true end
  | SCoords | SObj | SObjs => true
  | _ => item_typed W it (it_default it) && item_readable (it_default it)
  end.

Definition known_class (W : world) (c : string) : bool :=
  match class_of W c with Some _ => true | None => false end.

Definition classes_ok (W : world) (it : item) : bool :=
  match it_set it with
  | SBool => match it_classes it with ["bool"%string] => true | _ => false end
  | SEnum | SAttrEnum =>
      match it_classes it with
      | [c] => match sget c (w_enums W) with Some e => enum_ok e | None => false end
      | _ => false
      end
  | SObj | SObjs => forallb (known_class W) (it_classes it) && negb (nilb (it_nsids it))
  | _ => true
  end.

Definition item_ok (W : world) (it : item) : bool :=
  paired (it_get it) (it_set it) &&
  forallb (fun n => good_name (u n)) (it_node it :: item_names W it) &&
  default_ok W it && classes_ok W it.

Definition ckind_ok (k : ckind) (o : option item) : bool :=
  match k, o with
  | CTrack, None => true
  | CTrack, Some _ => false
  | _, None => match k with CRaw | CClean | COrEmpty | COrNone => true | _ => false end
  | CRaw, Some it => match it_set it with SCoords | SCoordList => false | _ => true end
  | (CClean | COrEmpty), Some it =>
      match it_set it with SNodeText | SText | SAttrText => true | _ => false end
  | CCleanReq, Some it =>
      match it_set it, it_default it with SAttrText, VNone => true | _, _ => false end
  | COrNone, Some it =>
      match it_set it with SNodeText | SText | SAttrText | SEnum | SAttrEnum => true | _ => false end
  | (CListTruthy | CListNotNone | CFilter), Some it =>
      match it_set it with SObjs => true | _ => false end
  | CCoordsOr, Some it => match it_set it with SCoords => true | _ => false end
  end.

Definition track_attrs : list string := ["whens"%string; "coords"%string; "angles"%string].

Definition is_track (ci : class_info) : bool := match ci_geom ci with GkTrack => true | _ => false end.

Definition ctor_attrs (ci : class_info) : list (string * ckind) := ci_pre ci ++ ci_post ci.

(** A truth value that cannot raise: attributes that hold objects are only
    compared with [None]. *)
Fixpoint bool_simple (ci : class_info) (its : list item) (e : bexpr) : bool :=
  match e with
  | BTrue => true
  | BNotNone a => existsb (fun ak => String.eqb a (fst ak)) (ctor_attrs ci)
  | BAttr a => existsb (fun ak => String.eqb a (fst ak)) (ctor_attrs ci) &&
               match find_item a its with
               | Some it => match it_set it with SObj => false | _ => true end
               | None => String.eqb a "track_items" && is_track ci
               end
  | BAnd x y | BOr x y => bool_simple ci its x && bool_simple ci its y
  | BAny _ | BGeometry => false
  end.

Definition filter_ok (W : world) (k : ckind) (o : option item) : bool :=
  match k, o with
  | CFilter, Some it => forallb (fun c =>
      match class_of W c with
      | Some ci => bool_simple ci (items_of W c) (ci_bool ci)
      | None => false
      end) (it_classes it)
  | _, _ => true
  end.

Definition has_track_item (its : list item) (a : string) (s : setter) : bool :=
  match find_item a its with
  | Some it => match it_set it, s with SDates, SDates => true | SCoordList, SCoordList => true | _, _ => false end
  | None => false
  end.

Definition track_ok (ci : class_info) (its : list item) : bool :=
  if is_track ci then
    existsb (fun ak => String.eqb (fst ak) "track_items" && match snd ak with CTrack => true | _ => false end) (ctor_attrs ci) &&
    has_track_item its "whens" SDates && has_track_item its "coords" SCoordList &&
    has_track_item its "angles" SCoordList &&
    forallb (fun ak => String.eqb (fst ak) "track_items" || match snd ak with CTrack => false | _ => true end) (ctor_attrs ci) &&
    forallb (fun a => mem a (ci_params ci) && negb (existsb (fun ak => String.eqb a (fst ak)) (ctor_attrs ci))) track_attrs
  else forallb (fun ak => match snd ak with CTrack => false | _ => true end) (ctor_attrs ci).

(** Where the value read for an item ends up. *)
Definition placed (ci : class_info) (it : item) : bool :=
  if mem (it_attr it) (ci_params ci)
  then existsb (fun ak => String.eqb (it_attr it) (fst ak)) (ctor_attrs ci)
       || (is_track ci && mem (it_attr it) track_attrs)
  else ci_kwargs ci &&
       match it_set it with SCoords | SCoordList => false | _ => true end.

Definition root_ok (ci : class_info) (its : list item) : bool :=
  if ci_root ci then
    match its with
    | [it] => String.eqb (it_attr it) "features" && match it_set it with SObjs => true | _ => false end
    | _ => false
    end
  else true.

Definition class_ok (W : world) (ci : class_info) (its : list item) : bool :=
  good_name (u (ci_tag ci)) &&
  forallb (item_ok W) its &&
  nodups (concat (map (item_names W) its)) &&
  nodups (concat (map item_attrs its)) &&
  Nat.leb (length (concat (map item_texts its))) 1 &&
  nodups (map it_attr its) &&
  forallb (placed ci) its &&
  nodups (map fst (ctor_attrs ci)) &&
  forallb (fun ak => mem (fst ak) (ci_params ci)) (ctor_attrs ci) &&
  forallb (fun ak => ckind_ok (snd ak) (find_item (fst ak) its) && filter_ok W (snd ak) (find_item (fst ak) its)) (ctor_attrs ci) &&
  track_ok ci its && root_ok ci its.

Definition world_ok (W : world) : bool :=
  forallb (fun cc => class_ok W (snd cc) (items_of W (fst cc))) (w_classes W).

(** ** Objects *)

(** [P] holds at every library object inside [v] (including [v]). *)
Fixpoint vall (P : string -> ustr -> nss_t -> list (string * value) -> bool) (v : value) : bool :=
  match v with
  | VObj c ns nss attrs =>
      P c ns nss attrs && forallb (fun av => match av with (_, x) => vall P x end) attrs
  | VList l => forallb (vall P) l
  | _ => true
  end.

(** The keys of [__dict__]: the constructor's attributes around the extras. *)
Definition shape_ok (ci : class_info) (attrs : list (string * value)) : bool :=
  let ks := map fst attrs in
  let a := map fst (ci_pre ci) in
  let b := map fst (ci_post ci) in
  let n := (length ks - length a - length b)%nat in
  let x := firstn n (skipn (length a) ks) in
  all2 String.eqb ks (a ++ x ++ b) &&
  nodups ks && forallb (fun k => negb (mem k (ci_params ci))) x.

Definition ckind_of (ci : class_info) (a : string) : option ckind := sget a (ctor_attrs ci).

(** Track items: dates in normal form, valid numbers. *)
Definition titem_typed (i : titem) : bool :=
  match ti_when i with Some k => kdt_normal k | None => true end &&
  nums_valid (ti_coord i) &&
  match ti_angle i with Some a => nums_valid a && Nat.eqb (length a) 3 | None => true end.

Definition attr_typed (W : world) (ci : class_info) (its : list item) (av : string * value) : bool :=
  let '(a, x) := av in
  match find_item a its with
  | Some it => item_typed W it x
  | None => match x with VObj _ _ _ _ | VList _ => false | VItems l => forallb titem_typed l | _ => true end
  end &&
  match ckind_of ci a with
  | Some CTrack => match x with VItems _ => true | _ => false end
  | Some (CListTruthy | CListNotNone | CFilter) => match x with VList _ => true | _ => false end
  | _ => true
  end.

Definition typed_node (W : world) (c : string) (ns : ustr) (nss : nss_t) (attrs : list (string * value)) : bool :=
  match class_of W c with
  | None => false
  | Some ci => shape_ok ci attrs && forallb (attr_typed W ci (items_of W c)) attrs
  end.

(** An instance of the library whose attributes have the documented types. *)
Definition typed (W : world) (v : value) : bool :=
  match v with VObj _ _ _ _ => vall (typed_node W) v | _ => false end.

(** Track items that stay aligned: every item has a readable time and a point
    of two or three numbers, and either all items have angles or none has. *)
Definition titem_aligned (i : titem) : bool :=
  match ti_when i with Some k => kdt_readable k | None => false end &&
  (Nat.eqb (length (ti_coord i)) 2 || Nat.eqb (length (ti_coord i)) 3) &&
  forallb (fun n => negb (num_nan n)) (ti_coord i).
Definition has_angle (i : titem) : bool := match ti_angle i with Some _ => true | None => false end.
Definition titems_aligned (l : list titem) : bool :=
  forallb titem_aligned l && (forallb has_angle l || forallb (fun i => negb (has_angle i)) l).

(** Dates are printable, tracks aligned, required attributes present. *)
Definition attr_readable (ci : class_info) (av : string * value) : bool :=
  let '(a, x) := av in
  match x with VItems l => titems_aligned l | _ => item_readable x end &&
  match ckind_of ci a with
  | Some CCleanReq => match x with VStr s => negb (uempty s) | _ => false end
  | _ => true
  end.

Definition umem (x : ustr) (l : list ustr) : bool := existsb (ueqb x) l.

(** The name space in which the attribute is written is one in which it is read. *)
Definition item_ns_ok (W : world) (ns : ustr) (nss : nss_t) (it : item) (x : value) : bool :=
  let rd := map (ns_get nss) (it_nsids it) in
  match it_set it with
  | SNodeText | SCoords => negb (nilb (it_nsids it))
  | SText | SBool | SInt | SFloat | SCoordList => umem ns rd
  | SAttrText | SAttrInt | SAttrFloat | SAttrEnum => umem [] rd
  | SEnum => forallb (fun v => match v with VEnum c m => umem (enum_ns W ns nss c m) rd | _ => true end) [x; it_default it]
  | SDate | SDates => umem (date_ns nss) rd
  | SObj => match x with
            | VObj _ ns' nss' _ => umem ns' rd && all2 (fun a b => String.eqb (fst a) (fst b) && ueqb (snd a) (snd b)) nss' nss
            | _ => true
            end
  | SObjs => match x, rd with
             | VList l, n :: _ => forallb (fun y => match y with
                 | VObj _ ns' nss' _ => ueqb ns' n && all2 (fun a b => String.eqb (fst a) (fst b) && ueqb (snd a) (snd b)) nss' nss
                 | _ => true
                 end) l
             | _, _ => true
             end
  end.

Definition nss_ok (nss : nss_t) : bool :=
  all2 (fun a b => String.eqb (fst a) (fst b) && ueqb (snd a) (snd b)) (merge_ns nss) nss &&
  forallb (fun kv => good_ns (snd kv)) nss.

(** Name spaces are consistent and dates are within the readable range. *)
Definition rt_node (W : world) (c : string) (ns : ustr) (nss : nss_t) (attrs : list (string * value)) : bool :=
  match class_of W c with
  | None => false
  | Some ci =>
      good_ns ns && nss_ok nss &&
      forallb (attr_readable ci) attrs &&
      forallb (fun it => item_ns_ok W ns nss it (obj_attr ci attrs (it_attr it))) (items_of W c)
  end.

Definition rt_ok (W : world) (v : value) : bool := vall (rt_node W) v.

(** ** What is read back *)

Definition truth (W : world) (v : value) : bool :=
  match py_bool W v with Ok b => b | Err _ => false end.

Definition to_float (n : num) : pyfloat :=
  match n with NInt z => float_of_Z z | NFloat f => f end.

(** The double nearest to the decimal text with [p] places (see PyFmtProofs). *)
Definition round_to (p : nat) (f : pyfloat) : pyfloat :=
  match float_of_str (fmt_float p f) with Ok g => g | Err _ => f end.

Definition num_norm (prec : option nat) (n : num) : num :=
  NFloat (match prec with None => to_float n | Some p => round_to p (to_float n) end).

Definition point_norm (prec : option nat) (c : list num) : list num := map (num_norm prec) c.

Definition is_class (c : string) (v : value) : bool :=
  match v with VObj c' _ _ _ => String.eqb c c' | _ => false end.

(** A member with what is read back for it. *)
Definition nkid := (value * value)%type.
Definition nattr := (value * value * list nkid)%type.

(** Members are grouped by class in the order of the item; falsy ones are not
    written. *)
Definition group (W : world) (classes : list string) (l : list nkid) : list value :=
  concat (map (fun c => map snd (filter (fun p => is_class c (fst p) && truth W (fst p)) l)) classes).

(** What the reader finds for an item; [None]: nothing. *)
Definition read_back (W : world) (prec : option nat) (vb : verbosity) (ci : class_info)
    (attrs : list (string * value)) (ms : list (string * nattr)) (it : item) : option value :=
  let x := obj_attr ci attrs (it_attr it) in
  let v := get_value vb x (it_default it) in
  match it_set it with
  | SNodeText | SText =>
      match v with VStr s => if uempty (strip s) then None else Some (VStr (strip s)) | _ => None end
  | SAttrText => match v with VStr s => if uempty s then None else Some (VStr s) | _ => None end
  | SFloat | SAttrFloat => match v with VNum n => Some (VFloat (to_float n)) | _ => None end
  | SBool | SInt | SAttrInt | SEnum | SAttrEnum | SDate => match v with VNone => None | _ => Some v end
  | SDates => match v with VDates (_ :: _) => Some v | _ => None end
  | SCoordList =>
      match v with
      | VCoords _ l =>
          let l' := map (point_norm prec) (filter (fun c => negb (nilb c)) l) in
          if nilb l' then None else Some (VCoords false l')
      | _ => None
      end
  | SCoords =>
      match x with
      | VCoords _ (c :: l) => Some (VCoords false (map (point_norm prec) (filter (fun c => negb (nilb c)) (c :: l))))
      | _ => None
      end
  | SObj => if truth W x then match sget (it_attr it) ms with Some (_, y, _) => Some y | None => None end
            else None
  | SObjs => match sget (it_attr it) ms with
             | Some (VList _, _, l) => Some (VList (group W (it_classes it) l))
             | _ => Some (VList [])
             end
  end.

(** What the constructor makes of it. *)
Definition store (W : world) (k : ckind) (o : option value) : value :=
  match k with
  | CRaw => match o with Some v => v | None => VNone end
  | CClean | CCleanReq => match o with Some v => match clean_string v with Ok x => x | Err _ => v end | None => VNone end
  | COrEmpty => match o with Some v => v | None => VStr [] end
  | COrNone => match o with Some v => v | None => VNone end
  | CListTruthy | CListNotNone => match o with Some v => v | None => VList [] end
  | CFilter => match o with Some (VList l) => VList (filter (truth W) l) | _ => VList [] end
  | CCoordsOr => match o with Some (VCoords b (c :: l)) => VCoords b (c :: l) | _ => VCoords false [] end
  | CTrack => VItems []
  end.

Definition zero_angle : list num := [NFloat f_zero; NFloat f_zero; NFloat f_zero].

Definition titem_norm (prec : option nat) (i : titem) : titem :=
  mkItem (ti_when i) (point_norm prec (ti_coord i))
    (Some (match ti_angle i with Some a => point_norm prec a | None => zero_angle end)).

Definition items_in (attrs : list (string * value)) : list titem :=
  match sget "track_items"%string attrs with Some (VItems l) => l | _ => [] end.

Definition norm_with (W : world) (prec : option nat) (vb : verbosity) (c : string) (ns : ustr) (nss : nss_t)
    (attrs : list (string * value)) (ms : list (string * nattr)) : value :=
  match class_of W c with
  | None => VObj c ns nss attrs
  | Some ci =>
      let its := items_of W c in
      let rb a := match find_item a its with
                  | Some it => read_back W prec vb ci attrs ms it
                  | None => None
                  end in
      let na (ak : string * ckind) :=
        (fst ak, match snd ak with
                 | CTrack => VItems (map (titem_norm prec) (items_in attrs))
                 | k => store W k (rb (fst ak))
                 end) in
      let ex := concat (map (fun it =>
                  if mem (it_attr it) (ci_params ci) then []
                  else match read_back W prec vb ci attrs ms it with
                       | Some v => [(it_attr it, v)]
                       | None => []
                       end) its) in
      VObj c ns nss (map na (ci_pre ci) ++ ex ++ map na (ci_post ci))
  end.

(** The object that is read from what is written for [v]. *)
Fixpoint norm (W : world) (prec : option nat) (vb : verbosity) (v : value) {struct v} : value :=
  match v with
  | VObj c ns nss attrs =>
      let ms := map (fun av =>
        match av with
        | (a, x) => (a, (x, norm W prec vb x, match x with
                                            | VList l => map (fun y => (y, norm W prec vb y)) l
                                            | _ => []
                                            end))
        end) attrs in
      norm_with W prec vb c ns nss attrs ms
  | _ => v
  end.
