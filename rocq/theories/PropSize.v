(** * What is read is no larger than the document: C69. *)
From Coq Require Import String List NArith ZArith Bool.
From Verif Require Import Ustr UstrProofs Res Elem Value Geom Codec Tables Spec FastkmlOk SizeSpec SizeProofs Samples.
Import ListNotations.
Local Open Scope string_scope.
Local Open Scope list_scope.

(** The object read from an element holds, itself included, no more objects
    than the element holds elements: nothing is read twice. *)
Theorem C69_objects :
  forall arrow strict e c ns nss v, let W := fastkml arrow in
  forallb (fun kv : string * ustr => good_ns (snd kv)) (merge_ns nss) = true ->
  from_element W strict e c ns nss = Ok v ->
  objects (fun _ _ => 1) v <= elements (fun _ => 1) e.
Proof.
  intros arrow strict e c ns nss v W Hn H. assert (Q := read_counted W strict (fun _ _ => 1) (fun _ => 1) (fastkml_ok arrow) (fun _ _ => le_n 1) e c ns nss v Hn H).
  now destruct e.
Qed.
Print Assumptions C69_objects.

(** For every class and name space there are no more objects inside it than
    there are elements with that name inside the element. *)
Theorem C69_of_one_class :
  forall arrow strict e c ns nss v c' ns' ci', let W := fastkml arrow in
  forallb (fun kv : string * ustr => good_ns (snd kv)) (merge_ns nss) = true ->
  class_of W c' = Some ci' ->
  from_element W strict e c ns nss = Ok v ->
  objects (fun k n => if String.eqb k c' && ueqb n ns' then 1 else 0) v <=
    (if String.eqb c c' && ueqb ns ns' then 1 else 0) + inner (fun t => if ueqb t (ns' ++ u (ci_tag ci')) then 1 else 0) e.
Proof.
  intros arrow strict e c ns nss v c' ns' ci' W Hn Hc H. refine (read_counted W strict (fun k n => if String.eqb k c' && ueqb n ns' then 1 else 0) (fun t => if ueqb t (ns' ++ u (ci_tag ci')) then 1 else 0) (fastkml_ok arrow) _ e c ns nss v Hn H).
  intros k n. destruct (String.eqb_spec k c') as [->|_]; cbn [andb]; [|apply Nat.le_0_l]. destruct (ueqb n ns') eqn:E; [|apply Nat.le_0_l]. apply ueqb_eq in E. subst n.
  unfold tag_of. rewrite Hc, ueqb_refl. apply le_n.
Qed.
Print Assumptions C69_of_one_class.

(** With any registry, objects lie no deeper inside each other than elements. *)
Theorem C69_depth :
  forall W strict e c ns nss v, from_element W strict e c ns nss = Ok v -> nesting v <= height e.
Proof. intros W strict e c ns nss v. exact (read_nested W strict (height e) e c ns nss v (le_n _)). Qed.
Print Assumptions C69_depth.

(** ** Examples *)

Definition ex_doc : elem :=
  ke "Document" [] None [te "name" "d"; ke "Folder" [] None [ke "Placemark" [] None [ke "Point" [] None [te "coordinates" "1,2"]; ke "Point" [] None [te "coordinates" "3,4"]]; ke "Placemark" [] None []]].

(** Nine elements, six objects: the name is no object, and the second point of a
    placemark is not read. *)
Example C69_example :
  exists v, from_element W0 true ex_doc "containers.Document" KMLNS nss0 = Ok v /\
  forallb (fun kv : string * ustr => good_ns (snd kv)) (merge_ns nss0) = true /\
  objects (fun _ _ => 1) v = 6 /\ elements (fun _ => 1) ex_doc = 9 /\
  objects (fun k n => if String.eqb k "geometry.Point" && ueqb n KMLNS then 1 else 0) v = 1 /\
  inner (fun t => if ueqb t (KMLNS ++ u "Point") then 1 else 0) ex_doc = 2 /\
  objects (fun k n => if String.eqb k "features.Placemark" && ueqb n KMLNS then 1 else 0) v = 2 /\
  inner (fun t => if ueqb t (KMLNS ++ u "Placemark") then 1 else 0) ex_doc = 2 /\
  nesting v = 5 /\ height ex_doc = 5.
Proof. eexists. split; [vm_compute; reflexivity|]. repeat (split; [vm_compute; reflexivity|]). vm_compute; reflexivity. Qed.
