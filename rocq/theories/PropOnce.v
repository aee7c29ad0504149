(** * Every object is written once: C71. *)
From Coq Require Import String List NArith ZArith Bool.
From Verif Require Import Ustr UstrProofs Res PyFloat Elem Value Geom Codec Tables Spec FastkmlOk SizeSpec OnceSpec OnceProofs DepthProofs Samples.
Import ListNotations.
Local Open Scope string_scope.
Local Open Scope list_scope.

(** No class is written under the name of a text. *)
Lemma class_tags arrow : forallb (fun cc : string * class_info => negb (mem (ci_tag (snd cc)) (text_names (fastkml arrow)))) (w_classes (fastkml arrow)) = true.
Proof. vm_compute. reflexivity. Qed.

Lemma tag_no_text arrow c : ~ In (tag_of (fastkml arrow) c) (text_names (fastkml arrow)).
Proof.
  unfold tag_of. destruct (class_of (fastkml arrow) c) as [ci|] eqn:E; intro H.
  - assert (T := proj1 (forallb_forall _ _) (class_tags arrow) _ (EmitProofs.sget_In _ _ _ E)). cbn [snd] in T. apply EmitProofs.mem_In in H. rewrite H in T. discriminate T.
  - apply EmitProofs.mem_In in H. vm_compute in H. discriminate H.
Qed.

(** The elements of a document that are not named like a text, a number, a date or
    positions are the objects: each object with the truth value true (inside true
    objects only) is written exactly once, and nothing else is. *)
Theorem C71_written_once :
  forall arrow prec vb v e, let W := fastkml arrow in
  typed W v = true -> good_spaces v = true -> etree W prec vb v = Ok e ->
  elements (fun t => if existsb (fun n => ueqb (local t) (u n)) (text_names W) then 0 else 1) e = kept W (fun _ => 1) v.
Proof.
  intros arrow prec vb v e W T G E. assert (T' : vall (typed_node W) v = true) by (destruct v; try discriminate T; exact T).
  set (h := fun m : ustr => if existsb (fun n => ueqb m (u n)) (text_names W) then 0 else 1).
  assert (Hh : forall n, In n (text_names W) -> h (u n) = 0).
  { intros n Hn. unfold h. assert (X : existsb (fun n0 => ueqb (u n) (u n0)) (text_names W) = true); [|now rewrite X]. apply existsb_exists. exists n. split; [exact Hn|apply ueqb_refl]. }
  assert (Q := proj1 (written_once W h Hh prec vb (fastkml_ok arrow) v T' G) e E). change (elements (fun t => h (local t)) e = kept W (fun _ => 1) v). rewrite Q. apply kept_ext. intro c. unfold h.
  destruct (existsb _ (text_names W)) eqn:X; [|reflexivity]. apply existsb_exists in X as [n [Hn X]]. apply ueqb_eq in X. apply u_inj in X. destruct (tag_no_text arrow c). fold W. now rewrite X.
Qed.
Print Assumptions C71_written_once.

(** The same for the objects and elements of one name. *)
Theorem C71_of_one_name :
  forall arrow prec vb v e k, let W := fastkml arrow in
  typed W v = true -> good_spaces v = true -> etree W prec vb v = Ok e ->
  elements (fun t => if ueqb (local t) (u (tag_of W k)) then 1 else 0) e = kept W (fun c => if String.eqb (tag_of W c) (tag_of W k) then 1 else 0) v.
Proof.
  intros arrow prec vb v e k W T G E. assert (T' : vall (typed_node W) v = true) by (destruct v; try discriminate T; exact T).
  set (h := fun m : ustr => if ueqb m (u (tag_of W k)) then 1 else 0).
  assert (Hh : forall n, In n (text_names W) -> h (u n) = 0).
  { intros n Hn. unfold h. destruct (ueqb (u n) (u (tag_of W k))) eqn:X; [|reflexivity]. apply ueqb_eq in X. apply u_inj in X. destruct (tag_no_text arrow k). fold W. now rewrite <- X. }
  assert (Q := proj1 (written_once W h Hh prec vb (fastkml_ok arrow) v T' G) e E). change (elements (fun t => h (local t)) e = kept W (fun c => if String.eqb (tag_of W c) (tag_of W k) then 1 else 0) v). rewrite Q. apply kept_ext. intro c. unfold h.
  destruct (String.eqb_spec (tag_of W c) (tag_of W k)) as [->|N]; [now rewrite ueqb_refl|]. destruct (ueqb _ _) eqn:X; [|reflexivity]. apply ueqb_eq in X. now apply u_inj in X.
Qed.
Print Assumptions C71_of_one_name.

(** No object is written twice ... *)
Theorem C71_no_object_twice :
  forall arrow prec vb v e k, let W := fastkml arrow in
  typed W v = true -> good_spaces v = true -> etree W prec vb v = Ok e ->
  elements (fun t => if ueqb (local t) (u (tag_of W k)) then 1 else 0) e <= objects (fun c _ => if String.eqb (tag_of W c) (tag_of W k) then 1 else 0) v.
Proof. intros arrow prec vb v e k W T G E. unfold W in *. rewrite (C71_of_one_name arrow prec vb v e k T G E). apply (kept_some _ (fun c => if String.eqb (tag_of _ c) _ then 1 else 0)). Qed.
Print Assumptions C71_no_object_twice.

(** ... and none is missing if all have the truth value true. *)
Theorem C71_no_object_missing :
  forall arrow prec vb v e k, let W := fastkml arrow in
  typed W v = true -> good_spaces v = true -> all_true W v = true -> etree W prec vb v = Ok e ->
  elements (fun t => if ueqb (local t) (u (tag_of W k)) then 1 else 0) e = objects (fun c _ => if String.eqb (tag_of W c) (tag_of W k) then 1 else 0) v.
Proof. intros arrow prec vb v e k W T G A E. unfold W in *. rewrite (C71_of_one_name arrow prec vb v e k T G E). apply (kept_all _ (fun c => if String.eqb (tag_of _ c) _ then 1 else 0)). exact A. Qed.
Print Assumptions C71_no_object_missing.

(** Four placemarks, one of them in a folder and one with a point without
    coordinates, which is false and not written. *)
Definition ex_many : value := Eval vm_compute in
  let place l := mk "features.Placemark" [("name", str "p"); ("kml_geometry", mk "geometry.Point" [("kml_coordinates", s_coords l)])] in
  mk "containers.Document" [("features", VList [place [["1"; "2"]]; place []; mk "containers.Folder" [("features", VList [place [["3"; "4"]]])]; place [["1"; "2"]]])].

Example C71_example :
  let place := "features.Placemark" in let point := "geometry.Point" in
  let objects_of k := objects (fun c _ => if String.eqb c k then 1 else 0) ex_many in
  let count t := match etree W0 None Normal ex_many with Ok e => elements (fun s => if ueqb (local s) (u t) then 1 else 0) e | Err _ => 99 end in
  typed W0 ex_many = true /\ good_spaces ex_many = true /\ all_true W0 ex_many = false /\ all_true W0 s_document = true /\
  objects_of place = 4 /\ count "Placemark" = 4 /\ objects_of point = 4 /\ count "Point" = 3 /\ count "name" = 4.
Proof. repeat (split; [vm_compute; reflexivity|]). vm_compute. reflexivity. Qed.

(** Elements are nested no deeper than objects, but for the text elements of the
    innermost. *)
Theorem C71_depth :
  forall W prec vb v e, etree W prec vb v = Ok e -> (height e <= S (nesting v))%nat.
Proof. intros W prec vb v e. exact (proj1 (written_depth W prec vb v) e). Qed.
Print Assumptions C71_depth.

(** The bound is reached by a folder with a placemark with a name. *)
Example C71_depth_example :
  let v := mk "containers.Folder" [("features", VList [mk "features.Placemark" [("name", str "n")]])] in
  exists e, etree W0 None Normal v = Ok e /\ height e = 3%nat /\ nesting v = 2%nat.
Proof. eexists. repeat (split; [vm_compute; reflexivity|]). vm_compute. reflexivity. Qed.
