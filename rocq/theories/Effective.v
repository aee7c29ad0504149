(** * Effective values: what an attribute means when it is absent
    (specification vocabulary for C12 and C13). *)
From Coq Require Import String List NArith ZArith Bool.
From Verif Require Import Ustr Res PyInt PyFloat PyDate Elem Value Geom Codec Spec ItemProofs.
Import ListNotations.

(** The attribute, or the default registered for it. *)
Definition effective (default x : value) : value := if is_none x then default else x.

(** The same effective value, up to [==] (so that the integer 0 and the floats
    0.0 and -0.0 are the same). *)
Definition like (default x y : value) : Prop :=
  effective default x = effective default y \/ scalar_eq (effective default x) (effective default y) = true.

(** Two objects of one class that agree, attribute by attribute, on the
    effective values; sub-objects and members of lists agree in turn. *)
Inductive alike (W : world) : value -> value -> Prop :=
| alike_refl x : alike W x x
| alike_list l l' : Forall2 (alike W) l l' -> alike W (VList l) (VList l')
| alike_obj c ci ns nss attrs attrs' :
    class_of W c = Some ci ->
    (forall it, In it (items_of W c) ->
       like (it_default it) (obj_attr ci attrs (it_attr it)) (obj_attr ci attrs' (it_attr it)) \/
       alike W (obj_attr ci attrs (it_attr it)) (obj_attr ci attrs' (it_attr it))) ->
    alike W (VObj c ns nss attrs) (VObj c ns nss attrs').

(** ** Conditions on the tables *)

(** What is read back of a single value. *)
Definition back (s : setter) (v : value) : option value :=
  match s with
  | SNodeText | SText =>
      match v with VStr s => if uempty (strip s) then None else Some (VStr (strip s)) | _ => None end
  | SAttrText => match v with VStr s => if uempty s then None else Some (VStr s) | _ => None end
  | SFloat | SAttrFloat => match v with VNum n => Some (VFloat (to_float n)) | _ => None end
  | SBool | SInt | SAttrInt | SEnum | SAttrEnum | SDate => match v with VNone => None | _ => Some v end
  | _ => None
  end.

Definition put (W : world) (k : option ckind) (o : option value) : value :=
  match k with
  | Some k => store W k o
  | None => match o with Some v => v | None => VNone end
  end.

(** A registered default survives writing and reading, and an absent value is
    stored as [None]. *)
Definition default_fits (W : world) (ci : class_info) (it : item) : bool :=
  let k := ckind_of ci (it_attr it) in
  let d := it_default it in
  negb (scalar_set (it_set it)) || is_none d ||
  (is_none (put W k None) && scalar_eq (put W k (back (it_set it) d)) d &&
   match d with VDate _ | VObj _ _ _ _ | VList _ => false | _ => true end &&
   match k with Some CTrack => false | _ => true end).

(** The truth value depends only on attributes without default. *)
Fixpoint bool_plain (ci : class_info) (its : list item) (e : bexpr) : bool :=
  match e with
  | BTrue => true
  | BAttr a | BNotNone a =>
      match find_item a its with
      | None => true
      | Some it => is_none (it_default it) && match it_set it with SObj => false | _ => true end &&
                   match ckind_of ci a with Some CFilter => false | _ => true end
      end
  | BAnd x y | BOr x y => bool_plain ci its x && bool_plain ci its y
  | BAny _ | BGeometry => false
  end.

Definition members_plain (W : world) (ci : class_info) (it : item) : bool :=
  match ckind_of ci (it_attr it) with
  | Some CFilter => forallb (fun c => match class_of W c with
                                      | Some ci' => bool_plain ci' (items_of W c) (ci_bool ci')
                                      | None => false
                                      end) (it_classes it)
  | _ => true
  end.

Definition world_defaults (W : world) : bool :=
  forallb (fun cc => forallb (fun it => default_fits W (snd cc) it && members_plain W (snd cc) it) (items_of W (fst cc))) (w_classes W).
