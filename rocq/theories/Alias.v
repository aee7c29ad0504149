(** * Constructors on a memory of mutable lists, dictionaries and objects. *)
From Coq Require Import String List NArith ZArith Bool.
From Verif Require Import Ustr Res Elem PyDate Value Geom Codec.
Import ListNotations.
Local Open Scope string_scope.

(** A reference that is not a list: an immutable value (number, text, date,
    tuple, ...) or the object at an address. *)
Inductive eref := EV (v : value) | EO (a : nat).

(** What a list or dictionary holds: objects; coordinates, dates or track items
    (tuples, times.py:88-157 and gx.py:127-161, never changed in place); prefixes
    and URIs. *)
Inductive content := LObjs (l : list eref) | LPlain (v : value) | LDict (d : nss_t).

(** What a variable or an attribute holds: a reference as above or the
    address of a list. *)
Inductive hval := HE (e : eref) | HL (a : nat).

(** An object: class, [ns], the address of [name_spaces], the rest of [__dict__]. *)
Record ocell := mkO { o_class : string; o_ns : ustr; o_nss : nat; o_attrs : list (string * hval) }.

(** Memory and the variables of the caller: those that hold lists or
    dictionaries, and the others. *)
Record memory := mkM {
  m_lists : list content;
  m_objs : list ocell;
  m_lvars : list nat;
  m_evars : list eref
}.

(** [l[i] = x] *)
Fixpoint put {A} (i : nat) (x : A) (l : list A) : list A :=
  match l, i with
  | [], _ => []
  | _ :: l', O => x :: l'
  | y :: l', S i' => y :: put i' x l'
  end.

(** ** The value of a reference: the object with everything below it *)

Definition load_content (ld : eref -> res value) (c : content) : res value :=
  match c with
  | LObjs l => let! vs := map_res ld l in Ok (VList vs)
  | LPlain v => Ok v
  | LDict _ => Err ETypeError
  end.

Definition load_hval (ld : eref -> res value) (ls : list content) (h : hval) : res value :=
  match h with
  | HE e => ld e
  | HL a => match nth_error ls a with Some c => load_content ld c | None => Err EAttributeError end
  end.

Definition dict_at (ls : list content) (a : nat) : res nss_t :=
  match nth_error ls a with Some (LDict d) => Ok d | _ => Err ETypeError end.

(** [fuel]: the depth of the Python call stack. *)
Fixpoint load (fuel : nat) (m : memory) (e : eref) : res value :=
  match e with
  | EV v => Ok v
  | EO a =>
      match fuel with
      | O => Err ERecursion
      | S fuel' =>
          match nth_error (m_objs m) a with
          | None => Err EAttributeError
          | Some o =>
              let! d := dict_at (m_lists m) (o_nss o) in
              let! attrs := map_res (fun kv => let! v := load_hval (load fuel' m) (m_lists m) (snd kv) in Ok (fst kv, v)) (o_attrs o) in
              Ok (VObj (o_class o) (o_ns o) d attrs)
          end
      end
  end.

(** ** What a constructor stores *)

(** An argument seen from inside: a reference or the contents of a list. *)
Inductive aval := AE (e : eref) | AL (c : content).

(** The argument itself, another reference, or a new list. *)
Inductive stored := Same | Elem (e : eref) | Fresh (c : content).

Definition load_aval (ld : eref -> res value) (x : aval) : res value :=
  match x with AE e => ld e | AL c => load_content ld c end.

(** [[x for x in l if x]] *)
Fixpoint filter_refs (W : world) (ld : eref -> res value) (l : list eref) : res (list eref) :=
  match l with
  | [] => Ok []
  | x :: l' =>
      let! v := ld x in
      let! b := py_bool W v in
      let! r := filter_refs W ld l' in
      Ok (if b then x :: r else r)
  end.

Definition aget (kws : list (string * aval)) (a : string) : aval :=
  match sget a kws with Some x => x | None => AE (EV VNone) end.

(** The assignment [self.a = ...] of a constructor; the lines are those given
    at [ckind] in Value.v.  containers.py:131, 272; data.py:252, 593, 692;
    features.py:297; geometry.py:269, 1044, 1310; gx.py:253-271, 507;
    kml.py:137; model.py:383; styles.py:1133, 1345. *)
Definition stores (W : world) (ld : eref -> res value) (kws : list (string * aval)) (ak : string * ckind) : res stored :=
  let '(a, k) := ak in
  let x := aget kws a in
  match k with
  | CRaw => Ok Same
  | CClean => let! v := load_aval ld x in let! r := clean_string v in Ok (Elem (EV r))
  | CCleanReq =>
      let! v := load_aval ld x in
      let! b := py_bool W v in
      if b then let! r := clean_string v in Ok (Elem (EV r)) else Err EKMLSchema
  | COrEmpty => let! v := load_aval ld x in let! b := py_bool W v in Ok (if b then Same else Elem (EV (VStr [])))
  | COrNone => let! v := load_aval ld x in let! b := py_bool W v in Ok (if b then Same else Elem (EV VNone))
  | CListTruthy | CListNotNone =>
      match x with
      | AE (EV VNone) => Ok (Fresh (LObjs []))
      | AL (LObjs l) => Ok (Fresh (LObjs l))
      | _ => Err ETypeError
      end
  | CFilter =>
      match x with
      | AE (EV VNone) => Ok (Fresh (LObjs []))
      | AL (LObjs l) => let! r := filter_refs W ld l in Ok (Fresh (LObjs r))
      | _ => Err ETypeError
      end
  | CCoordsOr => let! v := load_aval ld x in let! b := py_bool W v in Ok (if b then Same else Fresh (LPlain (VCoords false [])))
  | CTrack =>
      let! i := load_aval ld x in
      let! w := load_aval ld (aget kws "whens") in
      let! c := load_aval ld (aget kws "coords") in
      let! g := load_aval ld (aget kws "angles") in
      let! r := build_track i w c g in
      Ok (Fresh (LPlain r))
  end.

Definition look (ls : list content) (h : hval) : res aval :=
  match h with
  | HE e => Ok (AE e)
  | HL a => match nth_error ls a with Some c => Ok (AL c) | None => Err EAttributeError end
  end.

Definition hget (kws : list (string * hval)) (a : string) : hval :=
  match sget a kws with Some h => h | None => HE (EV VNone) end.

(** Assign the attributes one after the other; new lists go to new addresses. *)
Fixpoint assign (W : world) (ld : eref -> res value) (kws : list (string * hval)) (views : list (string * aval))
    (aks : list (string * ckind)) (ls : list content) : res (list content * list (string * hval)) :=
  match aks with
  | [] => Ok (ls, [])
  | (a, k) :: aks' =>
      let! s := stores W ld views (a, k) in
      let '(ls1, h) := match s with
                       | Same => (ls, hget kws a)
                       | Elem e => (ls, HE e)
                       | Fresh c => ((ls ++ [c])%list, HL (length ls))
                       end in
      let! (ls2, r) := assign W ld kws views aks' ls1 in
      Ok (ls2, (a, h) :: r)
  end.

Definition extra_args {A} (ci : class_info) (kws : list (string * A)) : list (string * A) :=
  filter (fun kv => negb (mem (fst kv) (ci_params ci))) kws.

(** base.py:62-88 with the constructors of the subclasses, as [construct] in
    Codec.v: [self.name_spaces = {**config.NAME_SPACES, **name_spaces}] makes
    a new dictionary (base.py:81-82).  Loading the arguments is needed for
    [bool(...)] only. *)
Definition new_obj (W : world) (fuel : nat) (m : memory) (c : string) (ns : option ustr) (nss : nss_t) (kws : list (string * hval)) : res memory :=
  match class_of W c with
  | None => Err ETypeError
  | Some ci =>
      let extras := extra_args ci kws in
      if negb (ci_kwargs ci) && negb (nilb extras) then Err ETypeError
      else
        let! views := map_res (fun kv => let! x := look (m_lists m) (snd kv) in Ok (fst kv, x)) kws in
        let! (ls1, pre) := assign W (load fuel m) kws views (ci_pre ci) (m_lists m) in
        let! (ls2, post) := assign W (load fuel m) kws views (ci_post ci) ls1 in
        let n := match ns with Some n => n | None => default_ns W c (merge_ns nss) end in
        let o := mkO c n (length ls2) (pre ++ extras ++ post) in
        Ok (mkM (ls2 ++ [LDict (merge_ns nss)]) (m_objs m ++ [o]) (m_lvars m) (m_evars m ++ [EO (length (m_objs m))]))
  end.

(** ** What a caller does *)

(** An element of a list: a variable, or what is at an index of the list now. *)
Inductive pick := PVar (i : nat) | PItem (k : nat).

(** The new contents of a list or dictionary: [l[:] = [...]].  Every change in
    place ([append], [extend], [insert], [pop], [clear], [sort], ...) comes to this. *)
Inductive change := Objs (l : list pick) | Plain (v : value) | Dict (d : nss_t).

Inductive arg := AVar (i : nat) | LVar (i : nat).

Inductive op :=
| ONewVal (v : value)                         (* x = v, immutable *)
| ONewList (c : change)                       (* l = [...] *)
| ONewObj (c : string) (ns : option ustr) (nss : option nat) (kws : list (string * arg))
| OSetList (l : nat) (c : change)             (* l[:] = [...] *)
| OSetOwn (o : nat) (a : string) (c : change) (* o.a[:] = [...], a list *)
| OSetNss (o : nat) (d : nss_t)               (* o.name_spaces changed in place *)
| OGet (o : nat) (a : string)                 (* x = o.a, not a list *)
| OItem (o : nat) (a : string) (k : nat)      (* x = o.a[k] *)
| OPut (o : nat) (a : string) (e : nat).      (* o.a = x, not a list *)

Definition the {A} (x : option A) : res A := match x with Some a => Ok a | None => Err EIndexError end.

Definition picked (evars : list eref) (old : content) (p : pick) : res eref :=
  match p with
  | PVar i => the (nth_error evars i)
  | PItem k => match old with LObjs l => the (nth_error l k) | _ => Err EIndexError end
  end.

Definition changed (evars : list eref) (old : content) (c : change) : res content :=
  match c with
  | Objs l => let! es := map_res (picked evars old) l in Ok (LObjs es)
  | Plain v => Ok (LPlain v)
  | Dict d => Ok (LDict d)
  end.

(** The address of the object in a variable. *)
Definition obj_var (evars : list eref) (i : nat) : res nat :=
  match nth_error evars i with Some (EO a) => Ok a | _ => Err EAttributeError end.

Definition arg_val (m : memory) (x : arg) : res hval :=
  match x with
  | AVar i => let! e := the (nth_error (m_evars m) i) in Ok (HE e)
  | LVar i => let! a := the (nth_error (m_lvars m) i) in Ok (HL a)
  end.

Definition set_lists (m : memory) (ls : list content) : memory := mkM ls (m_objs m) (m_lvars m) (m_evars m).
Definition add_var (m : memory) (e : eref) : memory := mkM (m_lists m) (m_objs m) (m_lvars m) (m_evars m ++ [e]).

(** Change the list at an address in place. *)
Definition change_at (m : memory) (a : nat) (c : change) : res memory :=
  let! old := the (nth_error (m_lists m) a) in
  let! new := changed (m_evars m) old c in
  Ok (set_lists m (put a new (m_lists m))).

Definition step (W : world) (fuel : nat) (m : memory) (o : op) : res memory :=
  match o with
  | ONewVal v => Ok (add_var m (EV v))
  | ONewList c =>
      let! new := changed (m_evars m) (LObjs []) c in
      Ok (mkM (m_lists m ++ [new]) (m_objs m) (m_lvars m ++ [length (m_lists m)]) (m_evars m))
  | ONewObj c ns nss kws =>
      let! d := match nss with
                | None => Ok []
                | Some i => let! a := the (nth_error (m_lvars m) i) in dict_at (m_lists m) a
                end in
      let! hs := map_res (fun kv => let! h := arg_val m (snd kv) in Ok (fst kv, h)) kws in
      new_obj W fuel m c ns d hs
  | OSetList l c => let! a := the (nth_error (m_lvars m) l) in change_at m a c
  | OSetOwn o a c =>
      let! i := obj_var (m_evars m) o in
      let! x := the (nth_error (m_objs m) i) in
      match sget a (o_attrs x) with
      | Some (HL ad) => change_at m ad c
      | _ => Err EAttributeError
      end
  | OSetNss o d =>
      let! i := obj_var (m_evars m) o in
      let! x := the (nth_error (m_objs m) i) in
      change_at m (o_nss x) (Dict d)
  | OGet o a =>
      let! i := obj_var (m_evars m) o in
      let! x := the (nth_error (m_objs m) i) in
      match sget a (o_attrs x) with
      | Some (HE e) => Ok (add_var m e)
      | _ => Err EAttributeError
      end
  | OItem o a k =>
      let! i := obj_var (m_evars m) o in
      let! x := the (nth_error (m_objs m) i) in
      match sget a (o_attrs x) with
      | Some (HL ad) =>
          let! c := the (nth_error (m_lists m) ad) in
          let! e := picked [] c (PItem k) in
          Ok (add_var m e)
      | _ => Err EAttributeError
      end
  | OPut o a e =>
      let! i := obj_var (m_evars m) o in
      let! x := the (nth_error (m_objs m) i) in
      let! e := the (nth_error (m_evars m) e) in
      Ok (mkM (m_lists m) (put i (mkO (o_class x) (o_ns x) (o_nss x) (sset a (HE e) (o_attrs x))) (m_objs m)) (m_lvars m) (m_evars m))
  end.

Fixpoint run (W : world) (fuel : nat) (m : memory) (ops : list op) : res memory :=
  match ops with
  | [] => Ok m
  | o :: ops' => let! m' := step W fuel m o in run W fuel m' ops'
  end.

Definition empty_memory : memory := mkM [] [] [] [].
