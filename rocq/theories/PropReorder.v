(** * The order in which attributes are set does not matter: C73. *)
From Coq Require Import String List NArith ZArith Bool Permutation.
From Verif Require Import Ustr UstrProofs Res PyFloat Elem Value Geom Codec Tables Spec ReorderSpec ReorderProofs Samples.
Import ListNotations.
Local Open Scope string_scope.
Local Open Scope list_scope.

(** Two objects that differ only in the order in which the attributes of the objects
    in them were set are written as the same element, or fail alike. *)
Theorem C73_written :
  forall arrow prec vb v w, let W := fastkml arrow in
  reordered v w -> etree W prec vb v = etree W prec vb w.
Proof. intros arrow prec vb v w W. exact (reorder_etree W prec vb v w). Qed.
Print Assumptions C73_written.

(** They have the same truth value and the same geometry. *)
Theorem C73_truth_and_geometry :
  forall arrow v w, let W := fastkml arrow in
  reordered v w -> py_bool W v = py_bool W w /\ geometry W v = geometry W w.
Proof. intros arrow v w W R. split; [exact (bool_same W v w R)|exact (geometry_same W v w R)]. Qed.
Print Assumptions C73_truth_and_geometry.

(** The order of the keyword arguments of a constructor matters no more: the same
    exception, or objects that are written alike. *)
Theorem C73_keywords :
  forall arrow c ns nss kws kws', let W := fastkml arrow in
  Permutation kws kws' -> NoDup (map fst kws) ->
  match construct W c ns nss kws with
  | Err x => construct W c ns nss kws' = Err x
  | Ok v => exists v', construct W c ns nss kws' = Ok v' /\
      (typed W v = true -> reordered v v' /\ forall prec vb, etree W prec vb v = etree W prec vb v')
  end.
Proof.
  intros arrow c ns nss kws kws' W P N. assert (K := keyword_order W c ns nss kws kws' P N). destruct (construct W c ns nss kws) as [v|x]; [|exact K]. destruct K as [v' [K1 K2]]. exists v'. split; [exact K1|].
  intro T. split; [exact (K2 T)|]. intros prec vb. exact (reorder_etree W prec vb v v' (K2 T)).
Qed.
Print Assumptions C73_keywords.

(** All attributes the other way round. *)
Fixpoint turned (v : value) : value :=
  match v with
  | VObj c ns nss attrs => VObj c ns nss (rev (map (fun av : string * value => let (a, x) := av in (a, turned x)) attrs))
  | VList l => VList (map turned l)
  | _ => v
  end.

Lemma turned_keys attrs : map fst (map (fun av : string * value => let (a, x) := av in (a, turned x)) attrs) = map fst attrs.
Proof. rewrite map_map. apply map_ext. now intros [a x]. Qed.

Lemma turned_reordered W v : vall (typed_node W) v = true -> reordered v (turned v).
Proof.
  induction v as [ | | | | | | | | | |l IH|c ns nss attrs IH] using value_ind'; intro T; try reflexivity.
  - cbn [vall] in T. cbn [turned reordered]. rewrite forallb_forall in T. rewrite Forall_forall in IH. induction l as [|x l IHl]; [exact I|]. split; [apply IH; [now left|apply T; now left]|]. apply IHl; intros y Hy; [apply IH|apply T]; now right.
  - cbn [vall] in T. apply andb_prop in T as [Tn T]. assert (N : NoDup (map fst attrs)).
    { unfold typed_node in Tn. destruct (class_of W c) as [ci|]; [|discriminate]. apply andb_prop in Tn as [Sh _]. destruct (RoundTrip.shape_inv _ _ Sh) as [_ [_ [N _]]]. exact N. }
    rewrite forallb_forall in T. rewrite Forall_forall in IH. cbn [turned].
    assert (P : Permutation (map fst attrs) (map fst (rev (map (fun av : string * value => let (a, x) := av in (a, turned x)) attrs)))) by (rewrite map_rev, turned_keys; apply Permutation_rev).
    apply obj_reordered; [reflexivity|exact P|]. apply Forall_forall. intros [a x] H. exists (turned x). split; [|exact (IH _ H (T _ H))].
    apply EmitProofs.sget_NoDup; [exact (Permutation_NoDup P N)|]. apply -> in_rev. apply in_map_iff. exists (a, x). now split.
Qed.

Example C73_example :
  reordered s_document (turned s_document) /\ turned s_document <> s_document /\
  exists e, etree W0 None Normal (turned s_document) = Ok e /\ length (e_kids e) = 7.
Proof.
  split; [apply (turned_reordered W0); vm_compute; reflexivity|]. split; [intro H; discriminate H|]. eexists. split; vm_compute; reflexivity.
Qed.

(** Keyword arguments, two of them unknown to the class. *)
Example C73_keywords_example :
  let kws := [("foo", str "1"); ("name", str "A"); ("bar", VBool true); ("kml_geometry", s_point ["1"; "2"])] in
  let kws' := [("kml_geometry", s_point ["1"; "2"]); ("bar", VBool true); ("foo", str "1"); ("name", str "A")] in
  Permutation kws kws' /\ NoDup (map fst kws) /\
  exists v v', construct W0 "features.Placemark" KMLNS nss0 kws = Ok v /\ construct W0 "features.Placemark" KMLNS nss0 kws' = Ok v' /\ typed W0 v = true /\ v <> v'.
Proof.
  split; [|split].
  - apply NoDup_Permutation; [repeat constructor; cbn; intuition congruence|repeat constructor; cbn; intuition congruence|]. intro x. cbn. tauto.
  - repeat constructor; cbn; intuition congruence.
  - eexists. eexists. split; [vm_compute; reflexivity|]. split; [vm_compute; reflexivity|]. split; [vm_compute; reflexivity|]. intro H. discriminate H.
Qed.
