(** * Data of an object without its name spaces (specification vocabulary). *)
From Coq Require Import String List NArith ZArith Bool.
From Verif Require Import Ustr Res Elem Value Geom Codec.
Import ListNotations.

(** Forget [ns] and [name_spaces] of an object and everything below it. *)
Fixpoint erase (v : value) : value :=
  match v with
  | VObj c _ _ attrs => VObj c [] [] (map (fun av => match av with (a, x) => (a, erase x) end) attrs)
  | VList l => VList (map erase l)
  | _ => v
  end.

(** The same objects but for name spaces. *)
Definition same_data (v v' : value) : Prop := erase v = erase v'.

(** The same outcome: both return related values or both raise the same exception. *)
Inductive res_rel {A B} (R : A -> B -> Prop) : res A -> res B -> Prop :=
| rel_ok a b : R a b -> res_rel R (Ok a) (Ok b)
| rel_err x : res_rel R (Err x) (Err x).
