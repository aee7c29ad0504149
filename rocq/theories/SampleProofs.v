(** * Facts about the large sample document, without printing its numbers. *)
From Coq Require Import String List NArith ZArith Bool.
From Verif Require Import Ustr Res PyInt PyFloat PyDate Elem Value Geom Codec Tables Spec Settled Samples RoundTrip WriteProofs FastkmlOk SettledProofs.
Import ListNotations.
Local Open Scope string_scope.

Lemma kml_obj : exists attrs, s_kml = VObj "kml.KML" KMLNS nss0 attrs.
Proof. eexists. vm_compute. reflexivity. Qed.
Lemma kml_typed : typed W0 s_kml = true.
Proof. vm_compute. reflexivity. Qed.
Lemma kml_fine : fine s_kml = true.
Proof. vm_compute. reflexivity. Qed.
Lemma kml_prints : prints None s_kml = true.
Proof. vm_compute. reflexivity. Qed.
Lemma kml_regular : regular W0 (merge_ns nss0) s_kml = true.
Proof. vm_compute. reflexivity. Qed.
Lemma kml_readable : readable W0 s_kml = true.
Proof. vm_compute. reflexivity. Qed.
Lemma kml_settled : settled W0 s_kml = true.
Proof. vm_compute. reflexivity. Qed.
Lemma nss0_ok : map_ok (merge_ns nss0) = true.
Proof. vm_compute. reflexivity. Qed.

Lemma kml_written vb : exists e, etree W0 None vb s_kml = Ok e.
Proof.
  destruct kml_obj as [attrs E]. assert (T := kml_typed). assert (F := kml_fine). assert (P := kml_prints). rewrite E in *.
  exact (proj1 (write_total (fun _ => None) None vb _ T F P)).
Qed.

Lemma nss0_merged : merge_ns nss0 = nss0.
Proof. vm_compute. reflexivity. Qed.

Lemma kml_read strict e : etree W0 None Normal s_kml = Ok e -> from_element W0 strict e "kml.KML" KMLNS nss0 = Ok s_kml.
Proof.
  intro H. destruct kml_obj as [attrs E]. assert (T := kml_typed). assert (G := kml_regular). assert (R := kml_readable). assert (S := kml_settled).
  rewrite <- (settled_norm W0 s_kml (fastkml_ok (fun _ => None)) T S). rewrite E in *.
  assert (Rt := regular_rt W0 (merge_ns nss0) (fastkml_ok (fun _ => None)) (fastkml_ids (fun _ => None)) nss0_ok _ T G R).
  exact (roundtrip W0 None Normal strict "kml.KML" KMLNS nss0 attrs e (fastkml_ok (fun _ => None)) T Rt H).
Qed.
