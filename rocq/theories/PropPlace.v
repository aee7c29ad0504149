(** * An object is written the same wherever it stands: C72. *)
From Coq Require Import String List NArith ZArith Bool.
From Verif Require Import Ustr UstrProofs Res PyFloat Elem Value Geom Codec Tables Spec FastkmlOk OnceSpec PlaceSpec PlaceProofs PropOnce Samples.
Import ListNotations.
Local Open Scope string_scope.
Local Open Scope list_scope.

Lemma typed_all W v : typed W v = true -> vall (typed_node W) v = true.
Proof. destruct v; try discriminate. intro H. exact H. Qed.

(** Every object (not false) inside a written object is written there as it is written
    alone. *)
Theorem C72_as_alone :
  forall arrow prec vb v w e, let W := fastkml arrow in
  typed W v = true -> part_of W w v -> etree W prec vb v = Ok e ->
  exists k, etree W prec vb w = Ok k /\ inside k e.
Proof. intros arrow prec vb v w e W T P E. exact (parts_written W (fastkml_ok arrow) prec vb v w P e (typed_all W v T) E). Qed.
Print Assumptions C72_as_alone.

(** Conversely every element of the document is one of a text, a number, a date or
    positions and has no elements inside, or what an object inside the written
    object is written as alone. *)
Theorem C72_nothing_else :
  forall arrow prec vb v e k, let W := fastkml arrow in
  typed W v = true -> good_spaces v = true -> etree W prec vb v = Ok e -> inside k e ->
  (e_kids k = [] /\ exists n, In n (text_names W) /\ local (e_tag k) = u n) \/
  exists w, part_of W w v /\ etree W prec vb w = Ok k.
Proof. intros arrow prec vb v e k W T G E I. exact (elements_are_parts W (fastkml_ok arrow) prec vb k e I v (typed_all W v T) G E). Qed.
Print Assumptions C72_nothing_else.

(** One object in two documents: the same element stands in both. *)
Theorem C72_two_documents :
  forall arrow prec vb v v' w e e', let W := fastkml arrow in
  typed W v = true -> typed W v' = true -> part_of W w v -> part_of W w v' ->
  etree W prec vb v = Ok e -> etree W prec vb v' = Ok e' ->
  exists k, etree W prec vb w = Ok k /\ inside k e /\ inside k e'.
Proof.
  intros arrow prec vb v v' w e e' W T T' P P' E E'. destruct (C72_as_alone arrow prec vb v w e T P E) as [k [K I]]. destruct (C72_as_alone arrow prec vb v' w e' T' P' E') as [k' [K' I']].
  exists k. split; [exact K|]. split; [exact I|]. unfold W in *. rewrite K in K'. injection K' as <-. exact I'.
Qed.
Print Assumptions C72_two_documents.

(** An object that can not be written, or has no truth value, is not left out:
    writing what it stands in fails too. *)
Theorem C72_failure_spreads :
  forall arrow prec vb v w x, let W := fastkml arrow in
  typed W v = true -> part_of W w v -> etree W prec vb w = Err x -> exists y, etree W prec vb v = Err y.
Proof.
  intros arrow prec vb v w x W T P X. destruct (etree W prec vb v) as [e|y] eqn:E; [|now exists y]. destruct (C72_as_alone arrow prec vb v w e T P E) as [k [K _]]. unfold W in *. rewrite X in K. discriminate K.
Qed.
Print Assumptions C72_failure_spreads.

(** The point in the folder of [ex_many], two levels down. *)
Example C72_example :
  let point := mk "geometry.Point" [("kml_coordinates", s_coords [["3"; "4"]])] in
  typed W0 ex_many = true /\ good_spaces ex_many = true /\ part_of W0 point ex_many /\
  exists e k, etree W0 None Normal ex_many = Ok e /\ etree W0 None Normal point = Ok k /\ e_tag k = KMLNS ++ u "Point" /\ length (e_kids k) = 1 /\ length (e_kids e) = 4 /\ ~ In k (e_kids e).
Proof.
  split; [vm_compute; reflexivity|]. split; [vm_compute; reflexivity|]. split.
  - eapply part_member; [apply (EmitProofs.sget_In "features"); reflexivity|right; right; left; reflexivity|vm_compute; discriminate|].
    eapply part_member; [apply (EmitProofs.sget_In "features"); reflexivity|left; reflexivity|vm_compute; discriminate|].
    eapply part_attr; [apply (EmitProofs.sget_In "kml_geometry"); reflexivity|vm_compute; discriminate|]. apply part_self.
  - eexists. eexists. split; [vm_compute; reflexivity|]. split; [vm_compute; reflexivity|]. split; [vm_compute; reflexivity|]. split; [reflexivity|]. split; [reflexivity|]. cbn [e_kids In]. intros [H|[H|[H|[H|[]]]]]; discriminate H.
Qed.

(** A line with a position of one number, in a placemark in a folder. *)
Example C72_failure_example :
  let line := mk "geometry.LineString" [("kml_coordinates", mk "geometry.Coordinates" [("coords", VCoords false [pt ["1"]; pt ["3"; "4"]])])] in
  let v := mk "containers.Folder" [("features", VList [mk "features.Placemark" [("kml_geometry", line)]])] in
  typed W0 v = true /\ part_of W0 line v /\ exists x, etree W0 None Normal line = Err x.
Proof.
  split; [vm_compute; reflexivity|]. split; [|eexists; vm_compute; reflexivity].
  eapply part_member; [apply (EmitProofs.sget_In "features"); reflexivity|left; reflexivity|vm_compute; discriminate|].
  eapply part_attr; [apply (EmitProofs.sget_In "kml_geometry"); reflexivity|vm_compute; discriminate|]. apply part_self.
Qed.
