(** * The tables of fastkml satisfy the conditions under which the interpreter
    theorems hold. *)
From Coq Require Import String List NArith ZArith Bool.
From Verif Require Import Ustr Res PyInt PyFloat PyDate Elem Value Geom Codec Tables Spec Settled.
Import ListNotations.

Lemma fastkml_ok arrow : world_ok (fastkml arrow) = true.
Proof. vm_compute. reflexivity. Qed.

Lemma fastkml_ids arrow : world_ids_ok (fastkml arrow) = true.
Proof. vm_compute. reflexivity. Qed.
