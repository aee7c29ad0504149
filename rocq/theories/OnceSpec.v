(** * How often an object is written (C71). *)
From Coq Require Import String List NArith Bool.
From Verif Require Import Ustr UstrProofs Res Elem Value Geom Spec.
Import ListNotations.

(** The name of an element without its name space: what follows the last
    closing brace of the tag. *)
Fixpoint local (t : ustr) : ustr :=
  match t with
  | [] => []
  | _ :: r => if existsb (N.eqb 125) t then local r else t
  end.

(** The name spaces of all objects in a value are empty or of the form [{uri}]. *)
Definition good_spaces (v : value) : bool :=
  vall (fun _ ns nss _ => good_ns ns && forallb (fun kv : string * ustr => good_ns (snd kv)) nss) v.

(** [bool(v)] *)
Definition is_true (W : world) (v : value) : bool := match py_bool W v with Ok true => true | _ => false end.

(** The objects in a value that are not inside an object with the truth value
    false, each counted as often as [f] says for its class. *)
Fixpoint kept (W : world) (f : string -> nat) (v : value) : nat :=
  match v with
  | VObj c _ _ attrs => f c + list_sum (map (fun ax : string * value => let (_, x) := ax in
      match x with
      | VList _ => kept W f x
      | _ => if is_true W x then kept W f x else 0
      end) attrs)
  | VList l => list_sum (map (fun y => if is_true W y then kept W f y else 0) l)
  | _ => 0
  end.

(** All objects inside a value have the truth value true. *)
Fixpoint all_true (W : world) (v : value) : bool :=
  match v with
  | VObj _ _ _ attrs => forallb (fun ax : string * value => let (_, x) := ax in
      match x with VObj _ _ _ _ => is_true W x && all_true W x | _ => all_true W x end) attrs
  | VList l => forallb (fun y => is_true W y && all_true W y) l
  | _ => true
  end.

(** The names of elements that are written for texts, numbers, dates and
    positions, not for objects. *)
Definition text_names (W : world) : list string :=
  concat (map (fun cc => concat (map (fun it =>
    match it_set it with
    | SText | SBool | SInt | SFloat | SEnum | SDate | SDates | SCoordList => [it_node it]
    | _ => []
    end) (items_of W (fst cc)))) (w_classes W)).
