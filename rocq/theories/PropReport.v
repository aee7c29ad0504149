(** * What the reader reports: C60. *)
From Coq Require Import String List NArith ZArith Bool.
From Verif Require Import Ustr Res PyInt PyFloat PyDate Elem Value Geom Codec Tables Samples Spec Report ReportSpec ReportProofs PropReader.
Import ListNotations.
Local Open Scope string_scope.

(** The reader with a log (Report.v) is the reader of Codec.v: reports change no
    result, at any entry point. *)
Theorem C60_same_result :
  forall W strict c ns nss e,
  (forall n, snd (from_element_log W strict e c n nss) = from_element W strict e c n nss) /\
  snd (from_string_log W strict c ns nss e) = from_string W strict c ns nss e /\
  snd (kml_parse_log W strict c ns nss e) = kml_parse W strict c ns nss e.
Proof.
  intros. split; [intro n; apply from_element_log_snd|]. split; apply from_element_log_snd.
Qed.
Print Assumptions C60_same_result.

(** Strict reading stops at the first thing it does not accept.  It has a report
    exactly if it raises [KMLParseError]; then the report is the one raised,
    preceded only by the note that a spelling was relaxed. *)
Theorem C60_strict_reports_what_it_raises :
  forall arrow e c ns nss, known_class (fastkml arrow) c = true ->
  let (l, r) := from_element_log (fastkml arrow) true e c ns nss in
  (l = [] /\ r <> Err EKMLParse) \/
  (r = Err EKMLParse /\
   ((exists p k x, l = [Refused p k x]) \/ (exists p, l = [BadCoordinates p]) \/
    exists p k cls t m, l = [Relaxed cls t m; Refused p k "Enum"])).
Proof.
  intros arrow e c ns nss Hc. assert (S := strict_lenient_log (fastkml arrow) e c ns nss).
  assert (R := from_element_log_snd (fastkml arrow) false e c ns nss).
  destruct (from_element_log (fastkml arrow) true e c ns nss) as [l r]. destruct S as [[E1 E2]|(E1 & O & _)]; cbn [fst snd] in *.
  - left. split; [exact E1|]. intros ->. rewrite <- E2 in R. cbn in R. symmetry in R.
    destruct (C04_exceptions_partial arrow false e c ns nss EKMLParse Hc R) as [[_ K]|[[K _]|[[K _]|[K _]]]]; discriminate.
  - right. split; [exact E1|]. destruct O as [p k x|p|p k cls t m].
    + left. eauto.
    + right. left. eauto.
    + right. right. eauto 6.
Qed.
Print Assumptions C60_strict_reports_what_it_raises.

(** If lenient reading reports anything, strict reading raises [KMLParseError]. *)
Theorem C60_reported_is_refused :
  forall W e c ns nss,
  fst (from_element_log W false e c ns nss) <> [] -> from_element W true e c ns nss = Err EKMLParse.
Proof.
  intros W e c ns nss H. rewrite <- from_element_log_snd. destruct (strict_lenient_log W e c ns nss) as [[E1 E2]|(E & _)]; [|exact E].
  rewrite <- E2 in H. contradiction.
Qed.
Print Assumptions C60_reported_is_refused.

(** The full claim is that lenient reading reports whatever it forgives: that is,
    if it reports nothing, strict reading gives the same result.  That is false
    for booleans ([C60_forgiven_is_reported_refuted]).  It holds otherwise: the
    first report of strict reading is the first report of lenient reading, or it
    is about a boolean in a spelling only lenient reading knows. *)
Theorem C60_forgiven_is_reported_partial :
  forall W e c ns nss,
  let s := from_element_log W true e c ns nss in
  let l := from_element_log W false e c ns nss in
  s = l \/
  exists r, hd_error (fst s) = Some r /\ (hd_error (fst l) = Some r \/ relaxed_boolean r).
Proof.
  intros W e c ns nss. cbv zeta. destruct (strict_lenient_log W e c ns nss) as [[E1 E2]|(_ & _ & H)]; [now left|now right].
Qed.
Print Assumptions C60_forgiven_is_reported_partial.

Theorem C60_forgiven_is_reported_refuted :
  exists e c ns nss v, from_element_log W0 false e c ns nss = ([], Ok v) /\ from_element W0 true e c ns nss = Err EKMLParse.
Proof.
  exists (ke "Placemark" [] None [te "visibility" "TRUE"]), "features.Placemark", KMLNS, [].
  eexists. split; vm_compute; reflexivity.
Qed.
Print Assumptions C60_forgiven_is_reported_refuted.

(** Every report is about an element the reader came to, and for a reason: it
    names an element [p] read as some class, a registration of this class, and a
    text that is none of what the registration asks for. *)
Theorem C60_reports_are_justified :
  forall W strict e c ns nss r,
  In r (fst (from_element_log W strict e c ns nss)) ->
  exists p c', read_part W e c p c' /\ justified W strict p c' r.
Proof.
  intros W strict e c ns nss r H. assert (A := reports_justified W strict e c ns nss). unfold all_reports in A.
  rewrite Forall_forall in A. exact (A r H).
Qed.
Print Assumptions C60_reports_are_justified.

(** If lenient reading returns an object then everything it came to and could not
    use (ReportSpec.v) is among the reports. *)
Theorem C60_dropped_is_reported :
  forall W e c ns nss l v p c' r,
  from_element_log W false e c ns nss = (l, Ok v) ->
  visited W (merge_ns nss) e c p c' -> dropped W (merge_ns nss) p c' r -> In r l.
Proof.
  intros W e c ns nss l v p c' r H Hv Hd. assert (D := dropped_reported W nss e c p c' Hv ns r Hd v). rewrite H in D. now apply D.
Qed.
Print Assumptions C60_dropped_is_reported.

(** ** Examples *)

(** A document with four things wrong. *)
Definition faulty_look_at : elem := ke "LookAt" [] None [te "longitude" "east"; te "latitude" "47"; te "altitudeMode" "Absolute"].
Definition faulty_point : elem := ke "Point" [] None [te "coordinates" "1,2 x,4"].
Definition faulty_placemark : elem :=
  ke "Placemark" [] None [te "name" "here"; te "visibility" "maybe"; faulty_look_at; faulty_point].
Definition faulty : elem := ke "kml" [] None [faulty_placemark].

(** Lenient reading reports all of them.  The coordinates are reported twice: they
    are tried once for each of the two namespaces of the registration, and the
    function that reads them ignores the namespace. *)
Example C60_lenient_example :
  fst (from_element_log W0 false faulty "kml.KML" KMLNS []) =
    [Refused faulty_placemark (te "visibility" "maybe") "Boolean";
     Refused faulty_look_at (te "longitude" "east") "Float";
     Relaxed "enums.AltitudeMode" (u "absolute") (u "absolute");
     BadCoordinates (te "coordinates" "1,2 x,4");
     BadCoordinates (te "coordinates" "1,2 x,4")] /\
  is_ok (snd (from_element_log W0 false faulty "kml.KML" KMLNS [])) = true.
Proof. split; vm_compute; reflexivity. Qed.

Example C60_strict_example :
  from_element_log W0 true faulty "kml.KML" KMLNS [] =
    ([Refused faulty_placemark (te "visibility" "maybe") "Boolean"], Err EKMLParse) /\
  fst (from_element_log W0 true faulty_look_at "views.LookAt" KMLNS []) =
    [Refused faulty_look_at (te "longitude" "east") "Float"] /\
  fst (from_element_log W0 true (ke "LookAt" [] None [te "altitudeMode" "Absolute"]) "views.LookAt" KMLNS []) =
    [Relaxed "enums.AltitudeMode" (u "absolute") (u "absolute");
     Refused (ke "LookAt" [] None [te "altitudeMode" "Absolute"]) (te "altitudeMode" "Absolute") "Enum"].
Proof. split; [vm_compute; reflexivity|]. split; vm_compute; reflexivity. Qed.

(** The hypotheses of [C60_dropped_is_reported] hold of it, two levels down. *)
Example C60_dropped_example :
  visited W0 (merge_ns []) faulty_placemark "features.Placemark" faulty_look_at "views.LookAt" /\
  dropped W0 (merge_ns []) faulty_look_at "views.LookAt" (Refused faulty_look_at (te "longitude" "east") "Float").
Proof.
  assert (F : forall c a it, find (fun i => String.eqb (it_attr i) a) (items_of W0 c) = Some it -> In it (items_of W0 c)).
  { intros c a it H. now apply find_some in H. }
  split.
  - refine (in_place _ _ _ _ (mkItm ["kml"; ""] ["views.Camera"; "views.LookAt"] "view" GObj SObj "Camera,LookAt" VNone)
      "kml" [""] ["views.Camera"] "views.LookAt" [] _ _ _ _ _ eq_refl eq_refl eq_refl _ _ _ (at_root _ _ _ _)).
    + apply (F _ "view"). vm_compute. reflexivity.
    + vm_compute. reflexivity.
    + intros c1 ci1 k1 [<-|[]] Hc Hk E. vm_compute in Hc. injection Hc as <-. unfold faulty_placemark, ke in Hk. cbn [e_kids] in Hk.
      repeat (destruct Hk as [<-|Hk]; [vm_compute in E; discriminate|]). destruct Hk.
    + vm_compute. reflexivity.
  - refine (one_child _ _ _ _ (mkItm ["kml"; ""] ["float"] "longitude" GFloat SFloat "longitude" (VFloat (FFin false 0 0))) "kml" [""]
      _ (u "east") _ _ _ eq_refl _ _ _ _).
    + apply (F _ "longitude"). vm_compute. reflexivity.
    + cbn. auto.
    + vm_compute. reflexivity.
    + vm_compute. reflexivity.
    + vm_compute. discriminate.
    + split; [reflexivity|]. vm_compute. reflexivity.
Qed.
