(** * Properties of the number codecs: C05, C06, C08. *)
From Coq Require Import String List NArith ZArith Bool.
From Verif Require Import Ustr UstrProofs Res PyInt PyFloat PyNumProofs PyFmtProofs Value Geom Codec Spec CodecProofs CoordSpec NumberProofs.
Import ListNotations.
Local Open Scope Z_scope.

(** ** C05 *)

(** Every double is printed by [str] as a text that [float] reads as the very
    same double (same sign, significand and exponent). *)
Theorem C05_float_text_roundtrip :
  forall f, fvalid f = true -> float_of_str (str_of_float f) = Ok f.
Proof. exact float_roundtrip. Qed.
Print Assumptions C05_float_text_roundtrip.

(** The representation covers all 2^64 bit patterns: every pattern is a valid
    double, every valid double has a pattern, and two patterns denote the same
    value only if they are equal or both are NaN. *)
Theorem C05_all_doubles :
  (forall b, 0 <= b < 2^64 -> fvalid (float_of_bits b) = true) /\
  (forall f, fvalid f = true -> exists b, 0 <= b < 2^64 /\ float_of_bits b = f) /\
  (forall a b, 0 <= a < 2^64 -> 0 <= b < 2^64 -> float_of_bits a = float_of_bits b ->
     a = b \/ float_of_bits a = FNan).
Proof. exact float_bits_spec. Qed.
Print Assumptions C05_all_doubles.

Example C05_example :
  map (fun b => str_of_float (float_of_bits b))
    [4602678819172646912; 9223372036854775808; 13838435755002691584; 18442240474082181120] =
  [u "0.5"; u "-0.0"; u "-3.5"; u "-inf"].
Proof. vm_compute. reflexivity. Qed.

(** ** C06 *)

(** The text written for a finite double with [p] places is a decimal number
    with exactly [p] decimals, whose distance from the double
    ([+-m 2^E / 2^1074]) is at most half of [10^-p]. *)
Theorem C06_rounding_accurate :
  forall p neg m E, fvalid (FFin neg m E) = true ->
  exists ip fp,
    fmt_float p (FFin neg m E) =
      (if neg then u "-" else []) ++ ip ++ (if Nat.eqb p 0 then [] else u "." ++ fp) /\
    length fp = p /\ ip <> [] /\ forallb is_adigit (ip ++ fp) = true /\
    2 * Z.abs (m * 2^E * 10^Z.of_nat p - digits_val (ip ++ fp) * 2^1074) <= 2^1074.
Proof. exact fmt_accurate. Qed.
Print Assumptions C06_rounding_accurate.

(** What is read from the text is printed as the same text again. *)
Theorem C06_no_drift :
  forall p f, fvalid f = true ->
  exists g, float_of_str (fmt_float p f) = Ok g /\ fvalid g = true /\ fmt_float p g = fmt_float p f.
Proof. exact fmt_parse. Qed.
Print Assumptions C06_no_drift.

(** The same for whole coordinate lists: writing what was read from the
    written text reproduces the text. *)
Theorem C06_coordinates_no_drift :
  forall p l t, forallb (fun c => nums_valid c && negb (nilb c)) l = true ->
  coordinates_text (Some p) l = Ok t ->
  exists l', parse_coordinates t = Ok (VCoords false l') /\ coordinates_text (Some p) l' = Ok t.
Proof. exact coordinates_no_drift. Qed.
Print Assumptions C06_coordinates_no_drift.

Example C06_example :
  fmt_float 3 (float_of_bits 4591870180066957722) = u "0.100" /\
  fmt_float 0 (float_of_bits 13835058055282163712) = u "-2" /\
  coordinates_text (Some 1%nat) [[NFloat (float_of_bits 4591870180066957722); NFloat (float_of_bits 4613937818241073152)]] = Ok (u "0.1,3.0").
Proof. vm_compute. repeat split; reflexivity. Qed.

(** ** C08 *)

(** The written text consists of cells, and any text with the same cells,
    however spaced, reads back as the (rounded) coordinates. *)
Theorem C08_coordinates_roundtrip :
  forall prec l t, forallb (fun c => nums_valid c && negb (nilb c)) l = true ->
  coordinates_text prec l = Ok t ->
  exists cells, coords_text cells t /\ forallb (forallb cell) cells = true /\
    forall t', coords_text cells t' -> parse_coordinates t' = Ok (VCoords false (map (point_norm prec) l)).
Proof. exact coordinates_roundtrip. Qed.
Print Assumptions C08_coordinates_roundtrip.

(** Without a precision, floating point coordinates come back unchanged. *)
Theorem C08_coordinates_exact :
  forall l, dims_ok l = true ->
  forallb (fun c => negb (nilb c) && forallb (fun n => match n with NFloat f => fvalid f | NInt _ => false end) c) l = true ->
  exists t, coordinates_text None l = Ok t /\ parse_coordinates t = Ok (VCoords false l).
Proof. exact coordinates_exact. Qed.
Print Assumptions C08_coordinates_exact.

(** White space is irrelevant for every text, also one that is not a number. *)
Theorem C08_whitespace_irrelevant :
  forall cells t t', forallb (forallb cell) cells = true ->
  coords_text cells t -> coords_text cells t' -> parse_coordinates t = parse_coordinates t'.
Proof. exact coords_respace. Qed.
Print Assumptions C08_whitespace_irrelevant.

Example C08_example :
  coords_text [[u "1"; u "2"]; [u "3"; u "4"]] (u " 1,  2   3,4 ") /\
  parse_coordinates (u " 1,  2   3,4 ") =
    Ok (VCoords false [[NFloat (float_of_Z 1); NFloat (float_of_Z 2)]; [NFloat (float_of_Z 3); NFloat (float_of_Z 4)]]).
Proof.
  split; [|vm_compute; reflexivity].
  apply (coords_cons (u " ") _ (u "1,  2") _ (u "   3,4 ")); [reflexivity|apply (tuple_more (u "1") 2); constructor|reflexivity|].
  apply (coords_cons (u "   ") _ (u "3,4") [] (u " ")); [reflexivity|apply (tuple_more (u "3") 0); constructor|reflexivity|].
  now constructor.
Qed.
