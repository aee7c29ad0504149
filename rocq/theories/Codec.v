(** * The interpreter of the registry: constructors, reader and writer.

    Models base.py, helpers.py, geometry.py:137-225 and kml.py:155-197. *)
From Coq Require Import String List NArith ZArith Bool.
From Verif Require Import Ustr Res PyInt PyFloat PyDate Elem Value Geom.
Import ListNotations.

(** enums.py:95-100. *)
Inductive verbosity := Terse | Normal | Verbose.

(** ** Constructors *)

(** helpers.py:98-100 [clean_string] *)
Definition clean_string (v : value) : res value :=
  match v with
  | VStr s => if uempty s then Ok VNone
              else let t := strip s in Ok (if uempty t then VNone else VStr t)
  | VNone => Ok VNone
  | _ => Err EAttributeError
  end.

Definition is_list (v : value) : bool :=
  match v with VList _ | VItems _ | VCoords _ _ | VDates _ => true | _ => false end.

Fixpoint filter_true (W : world) (l : list value) : res (list value) :=
  match l with
  | [] => Ok []
  | x :: l' =>
      let! b := py_bool W x in
      let! r := filter_true W l' in
      Ok (if b then x :: r else r)
  end.

Definition f_zero : pyfloat := FFin false 0 0.

(** gx.py:127-152: [Angle( *angle )] *)
Definition mk_angle (a : list num) : res (list num) :=
  match a with
  | [] => Ok [NFloat f_zero; NFloat f_zero; NFloat f_zero]
  | [h] => Ok [h; NFloat f_zero; NFloat f_zero]
  | [h; t] => Ok [h; t; NFloat f_zero]
  | [h; t; r] => Ok [h; t; r]
  | _ => Err ETypeError
  end.

Definition mk_titem (w : option kmldt) (c a : list num) : res titem :=
  let! p := mk_point c in
  let! g := mk_angle a in
  Ok (mkItem w p (Some g)).

(** gx.py:258-270: [zip_longest(whens, coords, angles, fillvalue=())] *)
Fixpoint zip_items (ws : list (option kmldt)) (cs as_ : list (list num)) (n : nat) : res (list titem) :=
  match n with
  | O => Ok []
  | S n' =>
      let! i := mk_titem (hd None ws) (hd [] cs) (hd [] as_) in
      let! r := zip_items (tl ws) (tl cs) (tl as_) n' in
      Ok (i :: r)
  end.

Definition dates_of (v : value) : res (list (option kmldt)) :=
  match v with VNone => Ok [] | VDates l => Ok l | _ => Err ETypeError end.
Definition points_of (v : value) : res (list (list num)) :=
  match v with VNone => Ok [] | VCoords _ l => Ok l | _ => Err ETypeError end.
Definition titems_of (v : value) : res (list titem) :=
  match v with VNone => Ok [] | VItems l => Ok l | _ => Err ETypeError end.

(** gx.py:253-271 *)
Definition build_track (items whens coords angles : value) : res value :=
  let! its := titems_of items in
  let! ws := dates_of whens in
  let! cs := points_of coords in
  let! an := points_of angles in
  if (negb (nilb ws) || negb (nilb cs)) && negb (nilb its) then Err EValueError
  else if nilb its && negb (nilb ws) && negb (nilb cs) then
    let! l := zip_items ws cs an (Nat.max (length ws) (Nat.max (length cs) (length an))) in
    Ok (VItems l)
  else Ok (VItems its).

Definition kwget (kws : list (string * value)) (a : string) : value :=
  match sget a kws with Some v => v | None => VNone end.

(** What the constructor stores under [a]. *)
Definition mk_attr (W : world) (kws : list (string * value)) (ak : string * ckind) : res (string * value) :=
  let '(a, k) := ak in
  let v := kwget kws a in
  let! r :=
    match k with
    | CRaw => Ok v
    | CClean => clean_string v
    | CCleanReq =>
        let! b := py_bool W v in
        if b then clean_string v else Err EKMLSchema
    | COrEmpty => let! b := py_bool W v in Ok (if b then v else VStr [])
    | COrNone => let! b := py_bool W v in Ok (if b then v else VNone)
    | CListTruthy | CListNotNone =>
        match v with VNone => Ok (VList []) | VList l => Ok (VList l) | _ => Err ETypeError end
    | CFilter =>
        match v with
        | VNone => Ok (VList [])
        | VList l => let! r := filter_true W l in Ok (VList r)
        | _ => Err ETypeError
        end
    | CCoordsOr => let! b := py_bool W v in Ok (if b then v else VCoords false [])
    | CTrack => build_track v (kwget kws "whens") (kwget kws "coords") (kwget kws "angles")
    end in
  Ok (a, r).

(** base.py:62-88 with the constructors of the subclasses: [cls(ns=ns,
    name_spaces=nss, **kws)].  Arguments that are not parameters of any
    constructor in the chain arrive in [**kwargs] and become attributes
    (base.py:84-86). *)
Definition extras_of (ci : class_info) (kws : list (string * value)) : list (string * value) :=
  filter (fun kv => negb (mem (fst kv) (ci_params ci))) kws.

Definition construct (W : world) (c : string) (ns : ustr) (nss : nss_t) (kws : list (string * value)) : res value :=
  match class_of W c with
  | None => Err ETypeError
  | Some ci =>
      let extras := extras_of ci kws in
      if negb (ci_kwargs ci) && negb (nilb extras) then Err ETypeError
      else
        let! pre := map_res (mk_attr W kws) (ci_pre ci) in
        let! post := map_res (mk_attr W kws) (ci_post ci) in
        Ok (VObj c ns (merge_ns nss) (pre ++ extras ++ post))
  end.

(** ** Reader *)

(** The class method [cls.class_from_element] bound to a child element:
    class, ns and name_spaces. *)
Definition reader := string -> ustr -> nss_t -> res value.
Definition rkid := (elem * reader)%type.

(** [element.find(tag)], [element.findall(tag)] *)
Fixpoint find_kid (tag : ustr) (ks : list rkid) : option rkid :=
  match ks with
  | [] => None
  | k :: ks' => if ueqb (e_tag (fst k)) tag then Some k else find_kid tag ks'
  end.
Definition find_kids (tag : ustr) (ks : list rkid) : list rkid :=
  filter (fun k => ueqb (e_tag (fst k)) tag) ks.

(** helpers.py:103-146 [handle_error] as used by the [except ValueError]
    clauses: strict re-raises as [KMLParseError], lenient logs and yields {}.
    geometry.py:101-134 [handle_invalid_geometry_error], used for the
    coordinates, does the same. *)
Definition guarded (strict : bool) (r : res value) : res (option value) :=
  match r with
  | Ok v => Ok (Some v)
  | Err EValueError => if strict then Err EKMLParse else Ok None
  | Err e => Err e
  end.

(** Stripped text of a node, [None] when missing or blank. *)
Definition stripped (t : option ustr) : option ustr :=
  match t with
  | None => None
  | Some s => let x := strip s in if uempty x then None else Some x
  end.

(** helpers.py:745-755 [_get_boolean_value] *)
Definition get_boolean_value (strict : bool) (text : ustr) : res value :=
  let t := if strict then text else lower text in
  if ueqb t (u "1") || ueqb t (u "true") then Ok (VBool true)
  else if ueqb t (u "0") || ueqb t (u "false") then Ok (VBool false)
  else if strict then Err EValueError
  else let! f := float_of_str t in Ok (VBool (float_truth f)).

(** [enum_class(text)]: by value, then enums.py:73-91 [RelaxedEnum._missing_]
    (first member whose lower-cased value equals the lower-cased text). *)
Fixpoint enum_exact (e : enum_info) (t : ustr) : option ustr :=
  match e with
  | [] => None
  | (m, _) :: e' => if ueqb m t then Some m else enum_exact e' t
  end.
Fixpoint enum_relaxed (e : enum_info) (t : ustr) : option ustr :=
  match e with
  | [] => None
  | (m, _) :: e' => if ueqb (lower m) (lower t) then Some m else enum_relaxed e' t
  end.
Definition enum_lookup (e : enum_info) (t : ustr) : res ustr :=
  match enum_exact e t with
  | Some m => Ok m
  | None => match enum_relaxed e t with Some m => Ok m | None => Err EValueError end
  end.

(** helpers.py:985-990 [_get_enum_value] *)
Definition get_enum_value (cls : string) (e : enum_info) (strict : bool) (text : ustr) : res value :=
  let! m := enum_lookup e text in
  if strict && negb (ueqb m text) then Err EValueError else Ok (VEnum cls m).

Definition with_enum {A} (W : world) (classes : list string) (f : string -> enum_info -> res A) : res A :=
  match classes with
  | [c] => match sget c (w_enums W) with Some e => f c e | None => Err EAssertion end
  | _ => Err EAssertion
  end.

(** [tuple(float(c) for c in parts)] *)
Definition floats_of (parts : list ustr) : res (list num) :=
  map_res (fun s => let! f := float_of_str s in Ok (NFloat f)) parts.

(** geometry.py:209-218 *)
Definition parse_coordinates (text : ustr) : res value :=
  let! l := map_res (fun s => floats_of (split_on 44 s)) (words (sub_comma false (strip text))) in
  Ok (VCoords false l).

(** helpers.py:1142-1158: one [when]-like child. *)
Definition read_date (W : world) (strict : bool) (k : rkid) : res (list (option kmldt)) :=
  match e_text (fst k) with
  | None => Err ETypeError
  | Some t =>
      match kdt_parse (w_arrow W) t with
      | Ok d => Ok [Some d]
      | Err EValueError => if strict then Err EKMLParse else Ok []
      | Err e => Err e
      end
  end.

(** helpers.py:1167-1181: one [gx:coord]-like child. *)
Definition read_coord (strict : bool) (k : rkid) : res (list (list num)) :=
  match e_text (fst k) with
  | None => Ok []
  | Some t =>
      if uempty t then Ok []
      else match floats_of (words t) with
           | Ok c => Ok [c]
           | Err EValueError => if strict then Err EKMLParse else Ok []
           | Err e => Err e
           end
  end.

Definition class_tag (W : world) (c : string) : res ustr :=
  match class_of W c with Some ci => Ok (u (ci_tag ci)) | None => Err EAttributeError end.

(** helpers.py:1230-1243 *)
Fixpoint read_obj (W : world) (ks : list rkid) (ns : ustr) (nss : nss_t) (classes : list string) : res (option value) :=
  match classes with
  | [] => Ok None
  | c :: cs =>
      let! tag := class_tag W c in
      match find_kid (ns ++ tag) ks with
      | Some k => let! v := snd k c ns nss in Ok (Some v)
      | None => read_obj W ks ns nss cs
      end
  end.

(** helpers.py:1275-1293 *)
Definition read_objs (W : world) (ks : list rkid) (ns : ustr) (nss : nss_t) (classes : list string) : res (list value) :=
  let! l := map_res (fun c =>
    let! tag := class_tag W c in
    map_res (fun k : rkid => snd k c ns nss) (find_kids (ns ++ tag) ks)) classes in
  Ok (concat l).

(** The [get_kwarg] functions: [None] is the empty dict. *)
Definition get_kwarg (W : world) (strict : bool) (it : item)
    (attrib : list (ustr * ustr)) (text : option ustr) (ks : list rkid)
    (ns : ustr) (nss : nss_t) : res (option value) :=
  let key := ns ++ u (it_node it) in
  let node_text := match find_kid key ks with
                   | Some k => stripped (e_text (fst k))
                   | None => None
                   end in
  let on_text (f : ustr -> res value) :=
    match node_text with Some t => guarded strict (f t) | None => Ok None end in
  let attr_text := match uget key attrib with
                   | Some t => if uempty t then None else Some t
                   | None => None
                   end in
  match it_get it with
  | GNodeText => Ok (match stripped text with Some t => Some (VStr t) | None => None end)
  | GText => Ok (match node_text with Some t => Some (VStr t) | None => None end)
  | GAttrText => Ok (match attr_text with Some t => Some (VStr t) | None => None end)
  | GBool => match it_classes it with
             | ["bool"%string] => on_text (get_boolean_value strict)
             | _ => Err EAssertion
             end
  | GInt => on_text (fun t => let! z := int_of_str t in Ok (VInt z))
  | GAttrInt => match attr_text with
                | Some t => let! z := int_of_str t in Ok (Some (VInt z))
                | None => Ok None
                end
  | GFloat => on_text (fun t => let! f := float_of_str t in Ok (VFloat f))
  | GAttrFloat => match attr_text with
                  | Some t => guarded strict (let! f := float_of_str t in Ok (VFloat f))
                  | None => Ok None
                  end
  | GEnum => with_enum W (it_classes it) (fun c e => on_text (get_enum_value c e strict))
  | GAttrEnum => with_enum W (it_classes it) (fun c e =>
      match attr_text with
      | Some t => guarded strict (get_enum_value c e strict t)
      | None => Ok None
      end)
  | GDate => on_text (fun t => let! d := kdt_parse (w_arrow W) t in Ok (VDate d))
  | GDates =>
      let! l := map_res (read_date W strict) (find_kids key ks) in
      Ok (if nilb (concat l) then None else Some (VDates (concat l)))
  | GCoordList =>
      let! l := map_res (read_coord strict) (find_kids key ks) in
      Ok (if nilb (concat l) then None else Some (VCoords false (concat l)))
  | GCoords => match text with
               | None => Ok None
               | Some t => guarded strict (parse_coordinates t)
               end
  | GObj => read_obj W ks ns nss (it_classes it)
  | GObjs => let! l := read_objs W ks ns nss (it_classes it) in Ok (Some (VList l))
  end.

(** base.py:356-370: the first name space that yields something wins. *)
Fixpoint try_nsids (f : ustr -> res (option value)) (nss : nss_t) (ids : list string) : res (option value) :=
  match ids with
  | [] => Ok None
  | id :: ids' =>
      let! r := f (ns_get nss id) in
      match r with Some v => Ok (Some v) | None => try_nsids f nss ids' end
  end.

(** base.py:299-371 [_get_kwargs] without the [ns] and [name_spaces] entries. *)
Fixpoint get_kwargs (W : world) (strict : bool) (items : list item)
    (attrib : list (ustr * ustr)) (text : option ustr) (ks : list rkid) (nss : nss_t)
    (acc : list (string * value)) : res (list (string * value)) :=
  match items with
  | [] => Ok acc
  | it :: its =>
      let! r := try_nsids (fun ns => get_kwarg W strict it attrib text ks ns nss) nss (it_nsids it) in
      get_kwargs W strict its attrib text ks nss
        (match r with Some v => sset (it_attr it) v acc | None => acc end)
  end.

Definition read_with (W : world) (strict : bool) (attrib : list (ustr * ustr)) (text : option ustr)
    (ks : list rkid) (c : string) (ns : ustr) (nss : nss_t) : res value :=
  let nss := merge_ns nss in
  let! kws := get_kwargs W strict (items_of W c) attrib text ks nss [] in
  construct W c ns nss kws.

(** base.py:374-410 [class_from_element] *)
Fixpoint from_element (W : world) (strict : bool) (e : elem) (c : string) (ns : ustr) (nss : nss_t) {struct e} : res value :=
  match e with
  | Elem _ attrib text kids =>
      read_with W strict attrib text (map (fun k => (k, from_element W strict k)) kids) c ns nss
  end.

(** base.py:279-296 [_get_ns] *)
Definition default_ns (W : world) (c : string) (nss : nss_t) : ustr :=
  match class_of W c with Some ci => ns_get nss (ci_nsid ci) | None => [] end.

(** base.py:413-452 [from_string] after XML parsing. *)
Definition from_string (W : world) (strict : bool) (c : string) (ns : option ustr) (nss : nss_t) (e : elem) : res value :=
  let nss := merge_ns nss in
  from_element W strict e c (match ns with Some n => n | None => default_ns W c nss end) nss.

(** ** Writer *)

(** [getattr(obj, a, None)], with the properties of gx.py:318-359 for tracks. *)
Definition item_coord_ok (i : titem) : bool := negb (geo_empty (GPoint (ti_coord i))).

Definition obj_attr (ci : class_info) (attrs : list (string * value)) (a : string) : value :=
  match sget a attrs with
  | Some v => v
  | None =>
      match ci_geom ci, sget "track_items"%string attrs with
      | GkTrack, Some (VItems l) =>
          if String.eqb a "whens" then VDates (map ti_when l)
          else if String.eqb a "coords" then VCoords true (map ti_coord (filter item_coord_ok l))
          else if String.eqb a "angles" then VCoords true (concat (map (fun i => opt_list (ti_angle i)) l))
          else VNone
      | _, _ => VNone
      end
  end.

Definition is_none (v : value) : bool := match v with VNone => true | _ => false end.

(** helpers.py:157-183 [get_value] *)
Definition get_value (vb : verbosity) (v default : value) : value :=
  match vb with
  | Verbose => if is_none v && negb (is_none default) then default else v
  | Terse => if scalar_eq v default then VNone else v
  | Normal => v
  end.

(** [str(v)] where only numbers, booleans and strings are expected. *)
Definition str_value (v : value) : res ustr :=
  match v with
  | VNum n => num_str n
  | VBool b => Ok (if b then u "True" else u "False")
  | VStr s => Ok s
  | _ => Err ETypeError
  end.

Definition num_text (prec : option nat) (n : num) : res ustr :=
  match prec with None => num_str n | Some p => num_fmt p n end.

(** helpers.py:563-566 and geometry.py:170-174 *)
Definition join_nums (sep : ustr) (prec : option nat) (c : list num) : res ustr :=
  let! l := map_res (num_text prec) c in Ok (join sep l).

Definition dims_ok (l : list (list num)) : bool :=
  match l with
  | [] => false
  | c :: _ => Nat.eqb (length c) 2 || Nat.eqb (length c) 3
  end.

(** geometry.py:165-174 *)
Definition coordinates_text (prec : option nat) (l : list (list num)) : res ustr :=
  if dims_ok l then
    let! ts := map_res (join_nums (u ",") prec) l in Ok (join (u " ") ts)
  else Err EKMLWrite.

(** helpers.py:149-154 [get_ns] for an enumeration member. *)
Definition enum_ns (W : world) (ns : ustr) (nss : nss_t) (c : string) (m : ustr) : ustr :=
  match sget c (w_enums W) with
  | Some e => match uget m e with
              | Some (Some id) => ns_get nss id
              | _ => ns
              end
  | None => ns
  end.

(** times.py:215-218 [KmlDateTime.get_ns_id] is "kml". *)
Definition date_ns (nss : nss_t) : ustr := ns_get nss "kml".

Definition add_text (tag : ustr) (t : ustr) (e : elem) : elem := append_kid (text_elem tag (Some t)) e.

(** The element of a member of a list attribute, when it is written. *)
Definition wkid := (value * res elem)%type.

Fixpoint append_objs (W : world) (l : list wkid) (e : elem) : res elem :=
  match l with
  | [] => Ok e
  | (v, w) :: l' =>
      let! b := py_bool W v in
      if b then let! k := w in append_objs W l' (append_kid k e)
      else append_objs W l' e
  end.

Fixpoint append_texts (tags : list (res (ustr * ustr))) (e : elem) : res elem :=
  match tags with
  | [] => Ok e
  | x :: l => let! t := x in append_texts l (add_text (fst t) (snd t) e)
  end.

(** What the writer needs to know about an attribute of the object: the value,
    its element, the elements of its members. *)
Definition wattr := (value * res elem * list wkid)%type.

(** The [set_element] functions. *)
Definition set_element (W : world) (prec : option nat) (vb : verbosity) (ci : class_info)
    (ns : ustr) (nss : nss_t) (attrs : list (string * value)) (ws : list (string * wattr))
    (it : item) (e : elem) : res elem :=
  let v0 := obj_attr ci attrs (it_attr it) in
  let v := get_value vb v0 (it_default it) in
  let key := ns ++ u (it_node it) in
  let on_str (f : ustr -> elem) :=
    match v with
    | VStr s => Ok (if uempty s then e else f s)
    | VNone => Ok e
    | _ => Err ETypeError
    end in
  match it_set it with
  | SNodeText => on_str (fun s => set_text (Some s) e)
  | SText => on_str (fun s => add_text key s e)
  | SAttrText => on_str (fun s => set_attr (u (it_node it)) s e)
  | SBool => match v with
             | VNone => Ok e
             | VBool b => Ok (add_text key (u (if b then "1" else "0")) e)
             | VNum (NInt z) => let! t := str_of_int z in Ok (add_text key t e)
             | _ => Err ETypeError
             end
  | SInt | SFloat => match v with
            | VNone => Ok e
            | _ => let! t := str_value v in Ok (add_text key t e)
            end
  | SAttrInt | SAttrFloat => match v with
            | VNone => Ok e
            | _ => let! t := str_value v in Ok (set_attr (u (it_node it)) t e)
            end
  | SEnum => match v with
             | VNone => Ok e
             | VEnum c m => Ok (add_text (enum_ns W ns nss c m ++ u (it_node it)) m e)
             | _ => Err EAttributeError
             end
  | SAttrEnum => match v with
                 | VNone => Ok e
                 | VEnum c m => Ok (set_attr (u (it_node it)) m e)
                 | _ => Err EAttributeError
                 end
  | SDate => match v with
             | VNone => Ok e
             | VDate k => Ok (add_text (date_ns nss ++ u (it_node it)) (kdt_str k) e)
             | _ => Err ETypeError
             end
  | SDates => match v with
              | VNone => Ok e
              | VDates l =>
                  append_texts (map (fun o => Ok (match o with
                    | Some k => (date_ns nss ++ u (it_node it), kdt_str k)
                    | None => (key, u "()")
                    end)) l) e
              | _ => Err ETypeError
              end
  | SCoordList => match v with
                  | VNone => Ok e
                  | VCoords _ l =>
                      append_texts (map (fun c => let! t := join_nums (u " ") prec c in Ok (key, t)) l) e
                  | _ => Err ETypeError
                  end
  | SCoords => match v0 with
               | VNone => Ok e
               | VCoords _ l => if nilb l then Ok e
                                else let! t := coordinates_text prec l in Ok (set_text (Some t) e)
               | _ => Err ETypeError
               end
  | SObj => let! b := py_bool W v0 in
            if b then
              match sget (it_attr it) ws with
              | Some (_, w, _) => let! k := w in Ok (append_kid k e)
              | None => Err EAttributeError
              end
            else Ok e
  | SObjs => match sget (it_attr it) ws with
             | Some (VList _, _, l) => append_objs W l e
             | Some (VNone, _, _) | None => Ok e
             | _ => Err ETypeError
             end
  end.

Fixpoint set_elements (W : world) (prec : option nat) (vb : verbosity) (ci : class_info)
    (ns : ustr) (nss : nss_t) (attrs : list (string * value)) (ws : list (string * wattr))
    (its : list item) (e : elem) : res elem :=
  match its with
  | [] => Ok e
  | it :: its' =>
      let! e' := set_element W prec vb ci ns nss attrs ws it e in
      set_elements W prec vb ci ns nss attrs ws its' e'
  end.

(** kml.py:188-196: the only item the root writes. *)
Definition root_item : item := mkItm [] [] "features" GObjs SObjs "" VNone.

(** kml.py:171-187: without a name space the root carries a plain [xmlns]
    attribute. *)
Definition root_elem (ns tag : ustr) : elem :=
  if uempty ns then set_attr (u "xmlns") (removelast (tl KMLNS)) (new_elem (ns ++ tag))
  else new_elem (ns ++ tag).

Definition write_with (W : world) (prec : option nat) (vb : verbosity) (c : string)
    (ns : ustr) (nss : nss_t) (attrs : list (string * value)) (ws : list (string * wattr)) : res elem :=
  match class_of W c with
  | None => Err EAttributeError
  | Some ci =>
      if ci_root ci
      then set_element W prec vb ci ns nss attrs ws root_item (root_elem ns (u (ci_tag ci)))
      else set_elements W prec vb ci ns nss attrs ws (items_of W c) (new_elem (ns ++ u (ci_tag ci)))
  end.

(** base.py:137-183 / kml.py:155-197 [etree_element] *)
Fixpoint etree (W : world) (prec : option nat) (vb : verbosity) (v : value) {struct v} : res elem :=
  match v with
  | VObj c ns nss attrs =>
      let ws := map (fun av =>
        match av with
        | (a, x) => (a, (x, etree W prec vb x, match x with
                                             | VList l => map (fun y => (y, etree W prec vb y)) l
                                             | _ => []
                                             end))
        end) attrs in
      write_with W prec vb c ns nss attrs ws
  | _ => Err EAttributeError
  end.

(** kml.py:234-249 [KML.parse] after XML parsing. *)
Definition parse_ns (tag : ustr) : ustr :=
  if ends_with tag (u "kml") then firstn (length tag - 3) tag else [].

Definition kml_parse (W : world) (strict : bool) (c : string) (ns : option ustr) (nss : nss_t) (root : elem) : res value :=
  let n := match ns with Some n => n | None => parse_ns (e_tag root) end in
  let nss := if uempty n then nss else sset "kml"%string n nss in
  from_element W strict root c n (merge_ns nss).
