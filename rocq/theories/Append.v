(** * Containers as mutable objects: containers.py, kml.py. *)
From Coq Require Import String List NArith ZArith Bool.
From Verif Require Import Ustr Res Elem PyDate Value Geom Codec.
Import ListNotations.
Local Open Scope string_scope.

(** An object in memory: its class, [ns], [name_spaces], [__dict__], and the
    addresses in its list [features], if it has one.  What [__dict__] has
    under "features" is not used. *)
Record cell := mkCell {
  c_class : string;
  c_ns : ustr;
  c_nss : nss_t;
  c_attrs : list (string * value);
  c_features : option (list nat)
}.

(** Memory: the cell at an address. *)
Definition heap := list cell.

Definition set_cell (h : heap) (i : nat) (x : cell) : heap :=
  (firstn i h ++ match skipn i h with [] => [] | _ :: r => x :: r end)%list.

Definition is_container (W : world) (c : string) : bool :=
  match class_of W c with Some ci => mem "containers._Container" (ci_mro ci) | None => false end.

(** containers.py:161-167 [_Container.append] and kml.py:199-204 [KML.append]:
    only the former refuses [self]. *)
Definition append (W : world) (h : heap) (self obj : nat) : res heap :=
  match nth_error h self with
  | None => Err EAttributeError
  | Some x =>
      if is_container W (c_class x) && Nat.eqb obj self then Err EValueError
      else match c_features x with
           | None => Err EAttributeError
           | Some l => Ok (set_cell h self (mkCell (c_class x) (c_ns x) (c_nss x) (c_attrs x) (Some (l ++ [obj])%list)))
           end
  end.

(** A history of calls [self.append(obj)]. *)
Fixpoint appends (W : world) (h : heap) (calls : list (nat * nat)) : res heap :=
  match calls with
  | [] => Ok h
  | (self, obj) :: calls' => let! h' := append W h self obj in appends W h' calls'
  end.

(** The object at an address with everything below it, following [features];
    [fuel] is the depth of the Python call stack. *)
Fixpoint value_at (fuel : nat) (h : heap) (i : nat) : res value :=
  match fuel with
  | O => Err ERecursion
  | S fuel' =>
      match nth_error h i with
      | None => Err EAttributeError
      | Some x =>
          match c_features x with
          | None => Ok (VObj (c_class x) (c_ns x) (c_nss x) (c_attrs x))
          | Some l =>
              let! vs := seq_res (map (value_at fuel' h) l) in
              Ok (VObj (c_class x) (c_ns x) (c_nss x) (sset "features" (VList vs) (c_attrs x)))
          end
      end
  end.

(** [etree_element] of the object at an address. *)
Definition write_at (fuel : nat) (W : world) (prec : option nat) (vb : verbosity) (h : heap) (i : nat) : res elem :=
  let! v := value_at fuel h i in etree W prec vb v.
