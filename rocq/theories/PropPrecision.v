(** * A precision concerns the positions only: C70. *)
From Coq Require Import String List NArith ZArith Bool.
From Verif Require Import Ustr UstrProofs Res PyFloat Elem Value Geom Codec Tables Spec FastkmlOk PrecisionSpec WriteProofs PrecisionProofs Samples.
Import ListNotations.
Local Open Scope string_scope.
Local Open Scope list_scope.

Lemma fastkml_precise arrow : forallb (fun cc => forallb (precise_item (snd cc)) (items_of (fastkml arrow) (fst cc))) (w_classes (fastkml arrow)) = true.
Proof. vm_compute. reflexivity. Qed.

(** Written in full and with a precision, an object gives the same elements in
    the same order, with the same XML attributes and the same texts, but for the
    numbers of the elements [coordinates], [coord] and [angles]: each of them is
    the number written in full, with the decimals asked for.  No number is
    dropped, added or moved, and no other number - of a view, a style, a bounding
    box, a region - is rounded. *)
Theorem C70_positions_only :
  forall arrow p vb v e e', let W := fastkml arrow in
  typed W v = true ->
  etree W None vb v = Ok e -> etree W (Some p) vb v = Ok e' -> rounded p e e'.
Proof.
  intros arrow p vb v e e' W T. apply (precision W (fastkml_precise arrow) p vb (fastkml_ok arrow)). destruct v; try discriminate T. exact T.
Qed.
Print Assumptions C70_positions_only.

(** A view and a point at the same place, and a track. *)
Definition ex_place : value := Eval vm_compute in
  mk "containers.Document" [("features", VList [
    mk "features.Placemark" [("view", mk "views.LookAt" [("longitude", fl "1.23456"); ("latitude", fl "2.34567")]); ("kml_geometry", mk "geometry.LineString" [("kml_coordinates", s_coords [["1.23456"; "2.34567"]; ["-0.001"; "7"]])])];
    mk "features.Placemark" [("kml_geometry", mk "gx.Track" [("whens", VDates [when "2010-05-28"]); ("coords", VCoords false [pt ["-2.345"; "3"; "6"]]); ("angles", VCoords false [pt ["5.555"; "6"; "7"]])])]])].

Fixpoint texts (e : elem) : list (option ustr) := match e with Elem _ _ x ks => x :: concat (map texts ks) end.

Example C70_example :
  typed W0 ex_place = true /\
  option_map texts (match etree W0 None Normal ex_place with Ok e => Some e | Err _ => None end) =
    Some [None; None; None; Some (u "1.23456"); Some (u "2.34567"); None; Some (u "1.23456,2.34567 -0.001,7.0");
          None; None; Some (u "2010-05-28"); Some (u "-2.345 3.0 6.0"); Some (u "5.555 6.0 7.0")] /\
  option_map texts (match etree W0 (Some 1) Normal ex_place with Ok e => Some e | Err _ => None end) =
    Some [None; None; None; Some (u "1.23456"); Some (u "2.34567"); None; Some (u "1.2,2.3 -0.0,7.0");
          None; None; Some (u "2010-05-28"); Some (u "-2.3 3.0 6.0"); Some (u "5.6 6.0 7.0")].
Proof. repeat (split; [vm_compute; reflexivity|]). vm_compute. reflexivity. Qed.

(** Whether an object that was read can be written, and what is raised
    otherwise, does not depend on the precision. *)
Theorem C70_same_outcome :
  forall arrow strict e c ns nss v p vb, let W := fastkml arrow in
  from_element W strict e c ns nss = Ok v ->
  same_outcome (etree W None vb v) (etree W (Some p) vb v).
Proof.
  intros arrow strict e c ns nss v p vb W H. apply (outcome W (fastkml_precise arrow)); exact (read_prints W strict _ e c ns nss v (fastkml_ok arrow) H).
Qed.
Print Assumptions C70_same_outcome.

(** The outcomes are those of writing what was read: a line of single numbers is
    refused both ways (C46).  An object made by hand can hold an integer that has
    a text but is too large for a float. *)
Example C70_outcome_example :
  let place s := ke "Placemark" [] None [ke "LineString" [] None [te "coordinates" s]] in
  let huge := mk "geometry.Coordinates" [("coords", VCoords false [[NInt (10 ^ 400); NInt 1]])] in
  (exists v, from_element W0 true (place "1.25,2 3,4") "features.Placemark" KMLNS nss0 = Ok v /\ exists e e', etree W0 None Normal v = Ok e /\ etree W0 (Some 1) Normal v = Ok e') /\
  (exists v, from_element W0 true (place "1 2 3") "features.Placemark" KMLNS nss0 = Ok v /\ exists x, etree W0 None Normal v = Err x /\ etree W0 (Some 1) Normal v = Err x) /\
  typed W0 huge = true /\ (exists e, etree W0 None Normal huge = Ok e) /\ exists x, etree W0 (Some 1) Normal huge = Err x.
Proof.
  intros place huge. split; [|split].
  - eexists. split; [vm_compute; reflexivity|]. do 2 eexists. split; vm_compute; reflexivity.
  - eexists. split; [vm_compute; reflexivity|]. eexists. split; vm_compute; reflexivity.
  - split; [vm_compute; reflexivity|]. split; eexists; vm_compute; reflexivity.
Qed.
