(** * What a caller may expect: lists and dictionaries are values.

    The same histories as in Alias.v on a memory without addresses of lists:
    a variable or attribute has the contents themselves, so a change of one
    of them cannot be seen anywhere else. *)
From Coq Require Import String List NArith ZArith Bool.
From Verif Require Import Ustr Res Elem PyDate Value Geom Codec Alias.
Import ListNotations.
Local Open Scope string_scope.

Record acell := mkA { ao_class : string; ao_ns : ustr; ao_nss : content; ao_attrs : list (string * aval) }.
Record amemory := mkAM { am_objs : list acell; am_lvars : list content; am_evars : list eref }.

Definition as_dict (c : content) : res nss_t := match c with LDict d => Ok d | _ => Err ETypeError end.

Fixpoint aload (fuel : nat) (m : amemory) (e : eref) : res value :=
  match e with
  | EV v => Ok v
  | EO a =>
      match fuel with
      | O => Err ERecursion
      | S fuel' =>
          match nth_error (am_objs m) a with
          | None => Err EAttributeError
          | Some o =>
              let! d := as_dict (ao_nss o) in
              let! attrs := map_res (fun kv => let! v := load_aval (aload fuel' m) (snd kv) in Ok (fst kv, v)) (ao_attrs o) in
              Ok (VObj (ao_class o) (ao_ns o) d attrs)
          end
      end
  end.

(** An attribute gets contents, whether they are those of the argument or new. *)
Definition kept (kws : list (string * aval)) (a : string) (s : stored) : aval :=
  match s with Same => aget kws a | Elem e => AE e | Fresh c => AL c end.

Definition a_assign (W : world) (ld : eref -> res value) (kws : list (string * aval)) (aks : list (string * ckind)) : res (list (string * aval)) :=
  map_res (fun ak => let! s := stores W ld kws ak in Ok (fst ak, kept kws (fst ak) s)) aks.

Definition a_new (W : world) (fuel : nat) (m : amemory) (c : string) (ns : option ustr) (nss : nss_t) (kws : list (string * aval)) : res amemory :=
  match class_of W c with
  | None => Err ETypeError
  | Some ci =>
      let extras := extra_args ci kws in
      if negb (ci_kwargs ci) && negb (nilb extras) then Err ETypeError
      else
        let! pre := a_assign W (aload fuel m) kws (ci_pre ci) in
        let! post := a_assign W (aload fuel m) kws (ci_post ci) in
        let n := match ns with Some n => n | None => default_ns W c (merge_ns nss) end in
        let o := mkA c n (LDict (merge_ns nss)) (pre ++ extras ++ post) in
        Ok (mkAM (am_objs m ++ [o]) (am_lvars m) (am_evars m ++ [EO (length (am_objs m))]))
  end.

Definition a_arg (m : amemory) (x : arg) : res aval :=
  match x with
  | AVar i => let! e := the (nth_error (am_evars m) i) in Ok (AE e)
  | LVar i => let! c := the (nth_error (am_lvars m) i) in Ok (AL c)
  end.

Definition a_var (m : amemory) (e : eref) : amemory := mkAM (am_objs m) (am_lvars m) (am_evars m ++ [e]).
Definition a_put (m : amemory) (i : nat) (o : acell) : amemory := mkAM (put i o (am_objs m)) (am_lvars m) (am_evars m).

Definition a_step (W : world) (fuel : nat) (m : amemory) (o : op) : res amemory :=
  match o with
  | ONewVal v => Ok (a_var m (EV v))
  | ONewList c =>
      let! new := changed (am_evars m) (LObjs []) c in
      Ok (mkAM (am_objs m) (am_lvars m ++ [new]) (am_evars m))
  | ONewObj c ns nss kws =>
      let! d := match nss with
                | None => Ok []
                | Some i => let! c := the (nth_error (am_lvars m) i) in as_dict c
                end in
      let! xs := map_res (fun kv => let! h := a_arg m (snd kv) in Ok (fst kv, h)) kws in
      a_new W fuel m c ns d xs
  | OSetList l c =>
      let! old := the (nth_error (am_lvars m) l) in
      let! new := changed (am_evars m) old c in
      Ok (mkAM (am_objs m) (put l new (am_lvars m)) (am_evars m))
  | OSetOwn o a c =>
      let! i := obj_var (am_evars m) o in
      let! x := the (nth_error (am_objs m) i) in
      match sget a (ao_attrs x) with
      | Some (AL old) =>
          let! new := changed (am_evars m) old c in
          Ok (a_put m i (mkA (ao_class x) (ao_ns x) (ao_nss x) (sset a (AL new) (ao_attrs x))))
      | _ => Err EAttributeError
      end
  | OSetNss o d =>
      let! i := obj_var (am_evars m) o in
      let! x := the (nth_error (am_objs m) i) in
      Ok (a_put m i (mkA (ao_class x) (ao_ns x) (LDict d) (ao_attrs x)))
  | OGet o a =>
      let! i := obj_var (am_evars m) o in
      let! x := the (nth_error (am_objs m) i) in
      match sget a (ao_attrs x) with
      | Some (AE e) => Ok (a_var m e)
      | _ => Err EAttributeError
      end
  | OItem o a k =>
      let! i := obj_var (am_evars m) o in
      let! x := the (nth_error (am_objs m) i) in
      match sget a (ao_attrs x) with
      | Some (AL c) => let! e := picked [] c (PItem k) in Ok (a_var m e)
      | _ => Err EAttributeError
      end
  | OPut o a e =>
      let! i := obj_var (am_evars m) o in
      let! x := the (nth_error (am_objs m) i) in
      let! e := the (nth_error (am_evars m) e) in
      Ok (a_put m i (mkA (ao_class x) (ao_ns x) (ao_nss x) (sset a (AE e) (ao_attrs x))))
  end.

Fixpoint a_run (W : world) (fuel : nat) (m : amemory) (ops : list op) : res amemory :=
  match ops with
  | [] => Ok m
  | o :: ops' => let! m' := a_step W fuel m o in a_run W fuel m' ops'
  end.

(** ** Forgetting the addresses *)

Definition contents (ls : list content) (a : nat) : content := nth a ls (LObjs []).
Definition see (ls : list content) (h : hval) : aval := match h with HE e => AE e | HL a => AL (contents ls a) end.
Definition see_all (ls : list content) (kws : list (string * hval)) : list (string * aval) := map (fun kv => (fst kv, see ls (snd kv))) kws.
Definition see_obj (ls : list content) (o : ocell) : acell := mkA (o_class o) (o_ns o) (contents ls (o_nss o)) (see_all ls (o_attrs o)).
Definition seen (m : memory) : amemory := mkAM (map (see_obj (m_lists m)) (m_objs m)) (map (contents (m_lists m)) (m_lvars m)) (m_evars m).

(** Parameters for lists: those that are written as lists of objects, and the
    four of [Track] (gx.py:205-208). *)
Definition list_param (W : world) (c a : string) : bool :=
  existsb (fun it => String.eqb (it_attr it) a && match it_set it with SObjs => true | _ => false end) (items_of W c)
  || (String.eqb c "gx.Track" && mem a ["track_items"; "whens"; "coords"; "angles"]).

(** Lists are given to constructors for such parameters only. *)
Definition fair (W : world) (o : op) : bool :=
  match o with
  | ONewObj c _ _ kws => forallb (fun kv => match snd kv with LVar _ => list_param W c (fst kv) | AVar _ => true end) kws
  | _ => true
  end.
