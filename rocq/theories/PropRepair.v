(** * Saving repairs a document: C77. *)
From Coq Require Import String List NArith ZArith Bool.
From Verif Require Import Ustr Res PyInt PyFloat PyDate Elem Value Geom Codec Tables Samples Spec Settled FastkmlOk RoundTrip SettledProofs ReaderTyped WriteProofs Report ReportSpec ReportProofs PropReport PropWriter.
Import ListNotations.
Local Open Scope string_scope.

(** What lenient reading makes of any element, however faulty, is written so
    that strict and lenient reading agree on it and neither has anything to
    report, with every precision and verbosity; the first save without precision
    keeps a settled object as it is.  [fine]: the coordinate tuples read have two
    or three members that are numbers (C46).  [rt_ok]: dates, tracks and name
    spaces are such that written objects can be read again (C01). *)
Theorem C77_repaired :
  forall arrow e c ns nss v,
  let W := fastkml arrow in
  from_element W false e c ns nss = Ok v -> fine v = true -> rt_ok W v = true ->
  (forall prec vb, exists e1 v1, etree W prec vb v = Ok e1 /\
     from_element_log W true e1 c ns (merge_ns nss) = ([], Ok v1) /\ from_element_log W false e1 c ns (merge_ns nss) = ([], Ok v1)) /\
  (settled W v = true -> exists e1, etree W None Normal v = Ok e1 /\ from_element_log W true e1 c ns (merge_ns nss) = ([], Ok v)).
Proof.
  intros arrow e c ns nss v W Hv Hf Hr.
  destruct (reader_inv W false e (fastkml_ok arrow) _ _ _ _ Hv) as [[T _] [attrs ->]].
  assert (Kc : known_class W c = true).
  { unfold typed in T. cbn [vall] in T. apply andb_prop in T as [T _]. unfold typed_node in T. unfold known_class. destruct (class_of W c); [reflexivity|discriminate T]. }
  assert (L : forall prec vb e1, etree W prec vb (VObj c ns (merge_ns nss) attrs) = Ok e1 ->
    from_element_log W true e1 c ns (merge_ns nss) = ([], Ok (norm W prec vb (VObj c ns (merge_ns nss) attrs))) /\
    from_element_log W false e1 c ns (merge_ns nss) = ([], Ok (norm W prec vb (VObj c ns (merge_ns nss) attrs)))).
  { intros prec vb e1 E. assert (R := fun strict => roundtrip W prec vb strict c ns (merge_ns nss) attrs e1 (fastkml_ok arrow) T Hr E).
    assert (S := fun strict => from_element_log_snd W strict e1 c ns (merge_ns nss)). split.
    - assert (K := C60_strict_reports_what_it_raises arrow e1 c ns (merge_ns nss) Kc). specialize (S true). fold W in K. destruct (from_element_log W true e1 c ns (merge_ns nss)) as [l r]. cbn [snd] in S. subst r. rewrite (R true) in K |- *.
      destruct K as [[-> _]|[K _]]; [reflexivity|discriminate K].
    - assert (K := C60_reported_is_refused W e1 c ns (merge_ns nss)). specialize (S false). destruct (from_element_log W false e1 c ns (merge_ns nss)) as [l r]. cbn [fst snd] in *. subst r. rewrite (R false).
      destruct l as [|x l]; [reflexivity|]. rewrite (R true) in K. assert (X := K ltac:(discriminate)). discriminate X. }
  split.
  - intros prec vb. destruct (C46_read_then_written_partial arrow false e c ns nss _ Hv Hf prec vb) as [e1 E]. exists e1. eexists. split; [exact E|]. exact (L prec vb e1 E).
  - intro Hs. destruct (C46_read_then_written_partial arrow false e c ns nss _ Hv Hf None Normal) as [e1 E]. exists e1. split; [exact E|].
    destruct (L None Normal e1 E) as [L1 _]. rewrite (settled_norm W _ (fastkml_ok arrow) T Hs) in L1. exact L1.
Qed.
Print Assumptions C77_repaired.

(** A document that strict reading refuses and lenient reading reports: a word
    for a boolean, another spelling of an enumeration, a longitude that is no
    number. *)
Definition damaged : elem :=
  ke "Placemark" [("id", "p")] None [te "name" "a"; te "visibility" "maybe"; te "open" "TRUE";
    ke "LookAt" [] None [te "longitude" "east"; te "latitude" "4"; te "altitudeMode" "ABSOLUTE"]].
Example C77_example :
  exists v, from_element W0 false damaged "features.Placemark" KMLNS [] = Ok v /\ fine v = true /\ rt_ok W0 v = true /\ settled W0 v = true /\
    from_element W0 true damaged "features.Placemark" KMLNS [] = Err EKMLParse /\
    length (fst (from_element_log W0 false damaged "features.Placemark" KMLNS [])) = 3%nat.
Proof. eexists. repeat (split; [vm_compute; reflexivity|]). vm_compute. reflexivity. Qed.
