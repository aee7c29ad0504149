(** * Reading a document on the memory of Alias.v. *)
From Coq Require Import String List NArith ZArith Bool.
From Verif Require Import Ustr Res Elem PyDate Value Geom Codec Alias.
Import ListNotations.
Local Open Scope string_scope.
Local Open Scope list_scope.

(** [cls.class_from_element] bound to a child element: makes objects in memory
    and returns the reference of the one for the child. *)
Definition mreader := string -> ustr -> nss_t -> memory -> res (memory * eref).
Definition mkid := (elem * mreader)%type.

(** [element.find(tag)], [element.findall(tag)] *)
Definition mfind_all (tag : ustr) (ks : list mkid) : list mkid := filter (fun k => ueqb (e_tag (fst k)) tag) ks.

(** A new list: [[...]]. *)
Definition alloc (m : memory) (c : content) : memory * hval :=
  (mkM (m_lists m ++ [c]) (m_objs m) (m_lvars m) (m_evars m), HL (length (m_lists m))).

(** helpers.py:1230-1243 *)
Fixpoint mread_obj (W : world) (ks : list mkid) (ns : ustr) (nss : nss_t) (classes : list string) (m : memory) : res (memory * option eref) :=
  match classes with
  | [] => Ok (m, None)
  | c :: cs =>
      let! tag := class_tag W c in
      match hd_error (mfind_all (ns ++ tag) ks) with
      | Some k => let! (m1, r) := snd k c ns nss m in Ok (m1, Some r)
      | None => mread_obj W ks ns nss cs m
      end
  end.

Fixpoint mread_kids (c : string) (ns : ustr) (nss : nss_t) (ks : list mkid) (m : memory) : res (memory * list eref) :=
  match ks with
  | [] => Ok (m, [])
  | k :: ks' =>
      let! (m1, r) := snd k c ns nss m in
      let! (m2, l) := mread_kids c ns nss ks' m1 in
      Ok (m2, r :: l)
  end.

(** helpers.py:1275-1293 *)
Fixpoint mread_objs (W : world) (ks : list mkid) (ns : ustr) (nss : nss_t) (classes : list string) (m : memory) : res (memory * list eref) :=
  match classes with
  | [] => Ok (m, [])
  | c :: cs =>
      let! tag := class_tag W c in
      let! (m1, l) := mread_kids c ns nss (mfind_all (ns ++ tag) ks) m in
      let! (m2, l') := mread_objs W ks ns nss cs m1 in
      Ok (m2, l ++ l')
  end.

(** For the [get_kwarg] functions that look at the children, but do not make
    objects of them. *)
Definition blind (k : mkid) : rkid := (fst k, fun _ _ _ => Err ETypeError).

(** The [get_kwarg] functions, helpers.py:642-1293, geometry.py:177-225: those that
    return a list make a new one. *)
Definition mget_kwarg (W : world) (strict : bool) (it : item) (attrib : list (ustr * ustr)) (text : option ustr) (ks : list mkid)
    (ns : ustr) (nss : nss_t) (m : memory) : res (memory * option hval) :=
  match it_get it with
  | GObj => let! (m1, r) := mread_obj W ks ns nss (it_classes it) m in Ok (m1, option_map HE r)
  | GObjs =>
      let! (m1, l) := mread_objs W ks ns nss (it_classes it) m in
      let '(m2, h) := alloc m1 (LObjs l) in Ok (m2, Some h)
  | GDates | GCoordList | GCoords =>
      let! r := get_kwarg W strict it attrib text (map blind ks) ns nss in
      match r with
      | Some v => let '(m1, h) := alloc m (LPlain v) in Ok (m1, Some h)
      | None => Ok (m, None)
      end
  | _ =>
      let! r := get_kwarg W strict it attrib text (map blind ks) ns nss in
      Ok (m, option_map (fun v => HE (EV v)) r)
  end.

(** base.py:356-370 *)
Fixpoint mtry_nsids (f : ustr -> memory -> res (memory * option hval)) (nss : nss_t) (ids : list string) (m : memory) : res (memory * option hval) :=
  match ids with
  | [] => Ok (m, None)
  | id :: ids' =>
      let! (m1, r) := f (ns_get nss id) m in
      match r with Some h => Ok (m1, Some h) | None => mtry_nsids f nss ids' m1 end
  end.

(** base.py:299-371 [_get_kwargs] *)
Fixpoint mget_kwargs (W : world) (strict : bool) (items : list item) (attrib : list (ustr * ustr)) (text : option ustr) (ks : list mkid)
    (nss : nss_t) (acc : list (string * hval)) (m : memory) : res (memory * list (string * hval)) :=
  match items with
  | [] => Ok (m, acc)
  | it :: its =>
      let! (m1, r) := mtry_nsids (fun ns => mget_kwarg W strict it attrib text ks ns nss) nss (it_nsids it) m in
      mget_kwargs W strict its attrib text ks nss (match r with Some h => sset (it_attr it) h acc | None => acc end) m1
  end.

(** Elements on the longest way down. *)
Fixpoint edepth (e : elem) : nat :=
  match e with Elem.Elem _ _ _ kids => S (fold_right (fun k d => Nat.max (edepth k) d) 0 kids) end.

(** base.py:374-410 [class_from_element].  Objects are not deeper than the
    element they are read from, so that depth is enough for the truth tests of
    the constructor. *)
Fixpoint mread (W : world) (strict : bool) (e : elem) (c : string) (ns : ustr) (nss : nss_t) (m : memory) {struct e} : res (memory * eref) :=
  match e with
  | Elem.Elem _ attrib text kids =>
      let nss := merge_ns nss in
      let! (m1, kws) := mget_kwargs W strict (items_of W c) attrib text (map (fun k => (k, mread W strict k)) kids) nss [] m in
      let! m2 := new_obj W (fold_right (fun k d => Nat.max (edepth k) d) 0 kids) m1 c (Some ns) nss kws in
      Ok (mkM (m_lists m2) (m_objs m2) (m_lvars m) (m_evars m), EO (length (m_objs m1)))
  end.

(** ** Histories with reading *)

(** [x = cls.from_string(...)] after XML parsing (base.py:413-452) with the
    name spaces in a variable. *)
Inductive hop := Do (o : op) | Read (strict : bool) (c : string) (ns : option ustr) (nss : option nat) (e : elem).

Definition hstep (W : world) (fuel : nat) (m : memory) (o : hop) : res memory :=
  match o with
  | Do o => step W fuel m o
  | Read strict c ns nss e =>
      let! d := match nss with
                | None => Ok []
                | Some i => let! a := the (nth_error (m_lvars m) i) in dict_at (m_lists m) a
                end in
      let d := merge_ns d in
      let! (m1, r) := mread W strict e c (match ns with Some n => n | None => default_ns W c d end) d m in
      Ok (add_var m1 r)
  end.

Fixpoint hrun (W : world) (fuel : nat) (m : memory) (ops : list hop) : res memory :=
  match ops with
  | [] => Ok m
  | o :: ops' => let! m' := hstep W fuel m o in hrun W fuel m' ops'
  end.
