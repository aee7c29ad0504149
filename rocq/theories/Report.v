(** * The reader with its log.

    The functions of Codec.v that read a document, extended by what they report:
    every message handed to the logger or carried by a raised [KMLParseError].
    [ReportProofs.v] shows that leaving the reports out gives Codec.v. *)
From Coq Require Import String List NArith ZArith Bool.
From Verif Require Import Ustr Res PyInt PyFloat PyDate Elem Value Geom Codec.
Import ListNotations.

(** The parts a message is made of; texts of exceptions are left out. *)
Inductive report : Type :=
| Refused (element node : elem) (expected : string)   (* helpers.py:103-146 [handle_error] *)
| BadCoordinates (element : elem)                     (* geometry.py:101-134 [handle_invalid_geometry_error] *)
| Relaxed (cls : string) (value member : ustr).       (* enums.py:80-85 *)

Definition logged (A : Type) : Type := (list report * res A)%type.
Definition quiet {A} (r : res A) : logged A := ([], r).
Definition then_ {A B} (x : logged A) (f : A -> logged B) : logged B :=
  match x with
  | (l, Ok a) => let (l', r) := f a in (l ++ l', r)
  | (l, Err e) => (l, Err e)
  end.
Fixpoint each {A B} (f : A -> logged B) (l : list A) : logged (list B) :=
  match l with
  | [] => quiet (Ok [])
  | x :: l' => then_ (f x) (fun a => then_ (each f l') (fun r => quiet (Ok (a :: r))))
  end.

(** [try: ... except ValueError as exc: handle_error(...)]: the message is raised
    in strict mode and logged otherwise. *)
Definition attempt (strict : bool) (m : report) (x : logged value) : logged (option value) :=
  match x with
  | (l, Ok v) => (l, Ok (Some v))
  | (l, Err EValueError) => (l ++ [m], if strict then Err EKMLParse else Ok None)
  | (l, Err e) => (l, Err e)
  end.

(** enums.py:73-91 [RelaxedEnum._missing_] with its warning. *)
Definition enum_lookup_log (c : string) (e : enum_info) (t : ustr) : logged ustr :=
  match enum_exact e t with
  | Some m => quiet (Ok m)
  | None => match enum_relaxed e t with
            | Some m => ([Relaxed c (lower t) m], Ok m)
            | None => quiet (Err EValueError)
            end
  end.

(** helpers.py:985-990 [_get_enum_value] *)
Definition enum_value_log (cls : string) (e : enum_info) (strict : bool) (text : ustr) : logged value :=
  then_ (enum_lookup_log cls e text) (fun m =>
  if strict && negb (ueqb m text) then quiet (Err EValueError) else quiet (Ok (VEnum cls m))).

(** The class method [class_from_element] bound to a child element. *)
Definition lkid := (elem * (string -> ustr -> nss_t -> logged value))%type.
Fixpoint find_lkid (tag : ustr) (ks : list lkid) : option lkid :=
  match ks with
  | [] => None
  | k :: ks' => if ueqb (e_tag (fst k)) tag then Some k else find_lkid tag ks'
  end.
Definition find_lkids (tag : ustr) (ks : list lkid) : list lkid :=
  filter (fun k => ueqb (e_tag (fst k)) tag) ks.

(** helpers.py:1144-1157 *)
Definition date_log (W : world) (strict : bool) (element : elem) (k : lkid) : logged (list (option kmldt)) :=
  match e_text (fst k) with
  | None => quiet (Err ETypeError)
  | Some t =>
      match kdt_parse (w_arrow W) t with
      | Ok d => quiet (Ok [Some d])
      | Err EValueError => ([Refused element (fst k) "DateTime"], if strict then Err EKMLParse else Ok [])
      | Err e => quiet (Err e)
      end
  end.

(** helpers.py:1161-1181 [get_coord_args] *)
Definition coord_log (strict : bool) (element : elem) (k : lkid) : logged (list (list num)) :=
  match e_text (fst k) with
  | None => quiet (Ok [])
  | Some t =>
      if uempty t then quiet (Ok [])
      else match floats_of (words t) with
           | Ok c => quiet (Ok [c])
           | Err EValueError => ([Refused element (fst k) "Coordinates"], if strict then Err EKMLParse else Ok [])
           | Err e => quiet (Err e)
           end
  end.

(** helpers.py:1230-1243 *)
Fixpoint obj_log (W : world) (ks : list lkid) (ns : ustr) (nss : nss_t) (classes : list string) : logged (option value) :=
  match classes with
  | [] => quiet (Ok None)
  | c :: cs =>
      then_ (quiet (class_tag W c)) (fun tag =>
      match find_lkid (ns ++ tag) ks with
      | Some k => then_ (snd k c ns nss) (fun v => quiet (Ok (Some v)))
      | None => obj_log W ks ns nss cs
      end)
  end.

(** helpers.py:1275-1293 *)
Definition objs_log (W : world) (ks : list lkid) (ns : ustr) (nss : nss_t) (classes : list string) : logged (list value) :=
  then_ (each (fun c =>
    then_ (quiet (class_tag W c)) (fun tag =>
    each (fun k : lkid => snd k c ns nss) (find_lkids (ns ++ tag) ks))) classes)
  (fun l => quiet (Ok (concat l))).

Definition with_enum_log {A} (W : world) (classes : list string) (f : string -> enum_info -> logged A) : logged A :=
  match classes with
  | [c] => match sget c (w_enums W) with Some e => f c e | None => quiet (Err EAssertion) end
  | _ => quiet (Err EAssertion)
  end.

(** The [get_kwarg] functions of helpers.py:568-1293 and geometry.py:177-226 with
    the arguments they hand to [handle_error]. *)
Definition get_kwarg_log (W : world) (strict : bool) (it : item) (element : elem) (ks : list lkid)
    (ns : ustr) (nss : nss_t) : logged (option value) :=
  let key := ns ++ u (it_node it) in
  (* helpers.py:792-805, 841-854, 922-935, 1027-1047, 1113-1127 *)
  let on_text (expected : string) (f : ustr -> logged value) :=
    match find_lkid key ks with
    | Some k => match stripped (e_text (fst k)) with
                | Some t => attempt strict (Refused element (fst k) expected) (f t)
                | None => quiet (Ok None)
                end
    | None => quiet (Ok None)
    end in
  let node_text := match find_lkid key ks with
                   | Some k => stripped (e_text (fst k))
                   | None => None
                   end in
  let attr_text := match uget key (e_attrib element) with
                   | Some t => if uempty t then None else Some t
                   | None => None
                   end in
  match it_get it with
  | GNodeText => quiet (Ok (match stripped (e_text element) with Some t => Some (VStr t) | None => None end))
  | GText => quiet (Ok (match node_text with Some t => Some (VStr t) | None => None end))
  | GAttrText => quiet (Ok (match attr_text with Some t => Some (VStr t) | None => None end))
  | GBool => match it_classes it with
             | ["bool"%string] => on_text "Boolean"%string (fun t => quiet (get_boolean_value strict t))
             | _ => quiet (Err EAssertion)
             end
  | GInt => on_text "Integer"%string (fun t => quiet (let! z := int_of_str t in Ok (VInt z)))
  | GAttrInt => match attr_text with
                | Some t => quiet (let! z := int_of_str t in Ok (Some (VInt z)))
                | None => quiet (Ok None)
                end
  | GFloat => on_text "Float"%string (fun t => quiet (let! f := float_of_str t in Ok (VFloat f)))
  (* helpers.py:971-982 *)
  | GAttrFloat => match attr_text with
                  | Some t => attempt strict (Refused element element "Float") (quiet (let! f := float_of_str t in Ok (VFloat f)))
                  | None => quiet (Ok None)
                  end
  | GEnum => with_enum_log W (it_classes it) (fun c e => on_text "Enum"%string (enum_value_log c e strict))
  (* helpers.py:1081-1098 *)
  | GAttrEnum => with_enum_log W (it_classes it) (fun c e =>
      match attr_text with
      | Some t => attempt strict (Refused element element "Enum") (enum_value_log c e strict t)
      | None => quiet (Ok None)
      end)
  | GDate => on_text "DateTime"%string (fun t => quiet (let! d := kdt_parse (w_arrow W) t in Ok (VDate d)))
  | GDates =>
      then_ (each (date_log W strict element) (find_lkids key ks)) (fun l =>
      quiet (Ok (if nilb (concat l) then None else Some (VDates (concat l)))))
  | GCoordList =>
      then_ (each (coord_log strict element) (find_lkids key ks)) (fun l =>
      quiet (Ok (if nilb (concat l) then None else Some (VCoords false (concat l)))))
  (* geometry.py:208-226 *)
  | GCoords => match e_text element with
               | None => quiet (Ok None)
               | Some t => attempt strict (BadCoordinates element) (quiet (parse_coordinates t))
               end
  | GObj => obj_log W ks ns nss (it_classes it)
  | GObjs => then_ (objs_log W ks ns nss (it_classes it)) (fun l => quiet (Ok (Some (VList l))))
  end.

(** base.py:356-370 *)
Fixpoint try_nsids_log (f : ustr -> logged (option value)) (nss : nss_t) (ids : list string) : logged (option value) :=
  match ids with
  | [] => quiet (Ok None)
  | id :: ids' =>
      then_ (f (ns_get nss id)) (fun r =>
      match r with Some v => quiet (Ok (Some v)) | None => try_nsids_log f nss ids' end)
  end.

(** base.py:299-371 [_get_kwargs] *)
Fixpoint get_kwargs_log (W : world) (strict : bool) (items : list item) (element : elem) (ks : list lkid) (nss : nss_t)
    (acc : list (string * value)) : logged (list (string * value)) :=
  match items with
  | [] => quiet (Ok acc)
  | it :: its =>
      then_ (try_nsids_log (fun ns => get_kwarg_log W strict it element ks ns nss) nss (it_nsids it)) (fun r =>
      get_kwargs_log W strict its element ks nss
        (match r with Some v => sset (it_attr it) v acc | None => acc end))
  end.

(** base.py:374-410 [class_from_element] *)
Fixpoint from_element_log (W : world) (strict : bool) (e : elem) (c : string) (ns : ustr) (nss : nss_t) {struct e} : logged value :=
  match e with
  | Elem _ _ _ kids =>
      let nss := merge_ns nss in
      then_ (get_kwargs_log W strict (items_of W c) e (map (fun k => (k, from_element_log W strict k)) kids) nss [])
      (fun kws => quiet (construct W c ns nss kws))
  end.

(** base.py:413-452 [from_string] after XML parsing. *)
Definition from_string_log (W : world) (strict : bool) (c : string) (ns : option ustr) (nss : nss_t) (e : elem) : logged value :=
  let nss := merge_ns nss in
  from_element_log W strict e c (match ns with Some n => n | None => default_ns W c nss end) nss.

(** kml.py:234-249 [KML.parse] after XML parsing. *)
Definition kml_parse_log (W : world) (strict : bool) (c : string) (ns : option ustr) (nss : nss_t) (root : elem) : logged value :=
  let n := match ns with Some n => n | None => parse_ns (e_tag root) end in
  let nss := if uempty n then nss else sset "kml"%string n nss in
  from_element_log W strict root c n (merge_ns nss).
