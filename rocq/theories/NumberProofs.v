(** * Proofs for PropNumbers.v. *)
From Coq Require Import String List NArith ZArith Bool Lia.
From Verif Require Import Ustr UstrProofs Res PyInt PyFloat PyNumProofs PyFmtProofs Value Geom Codec Spec CodecProofs CoordSpec.
Import ListNotations.
Local Open Scope Z_scope.
Ltac Zify.zify_post_hook ::= Z.div_mod_to_equations.

(** The double with the IEEE 754 binary64 bit pattern [b]. *)
Definition float_of_bits (b : Z) : pyfloat :=
  let neg := (2^63 <=? b) in
  let e := (b / 2^52) mod 2^11 in
  let f := b mod 2^52 in
  if e =? 2047 then (if f =? 0 then FInf neg else FNan)
  else if e =? 0 then FFin neg f 0
  else FFin neg (2^52 + f) (e - 1).

Definition fneg (f : pyfloat) := match f with FFin n _ _ => n | FInf n => n | _ => false end.
Definition fsig (f : pyfloat) := match f with FFin _ m _ => m | _ => 0 end.
Definition fexp (f : pyfloat) := match f with FFin _ _ E => E | _ => 0 end.

Lemma float_bits_spec :
  (forall b, 0 <= b < 2^64 -> fvalid (float_of_bits b) = true) /\
  (forall f, fvalid f = true -> exists b, 0 <= b < 2^64 /\ float_of_bits b = f) /\
  (forall a b, 0 <= a < 2^64 -> 0 <= b < 2^64 -> float_of_bits a = float_of_bits b ->
     a = b \/ float_of_bits a = FNan).
Proof.
  unfold float_of_bits. change (2^64) with 18446744073709551616. change (2^63) with 9223372036854775808.
  change (2^52) with 4503599627370496. change (2^11) with 2048.
  split; [|split].
  - intros b Hb. destruct (_ =? 2047) eqn:E1; [destruct (_ =? 0); reflexivity|].
    unfold fvalid. change (2^53) with 9007199254740992. change (2^52) with 4503599627370496.
    destruct (_ =? 0) eqn:E2; lia.
  - intros f Hv. destruct f as [|neg|neg m E].
    + exists 9221120237041090560. split; [lia|reflexivity].
    + exists ((if neg then 9223372036854775808 else 0) + 2047 * 4503599627370496).
      split; [destruct neg; lia|destruct neg; reflexivity].
    + unfold fvalid in Hv. change (2^53) with 9007199254740992 in Hv. change (2^52) with 4503599627370496 in Hv.
      destruct (m <? 4503599627370496) eqn:Em.
      * assert (E = 0) by lia. subst E. exists ((if neg then 9223372036854775808 else 0) + m).
        split; [destruct neg; lia|].
        set (b := (if neg then 9223372036854775808 else 0) + m).
        assert (Hq : (b / 4503599627370496) mod 2048 = 0) by (unfold b; destruct neg; lia).
        assert (Hr : b mod 4503599627370496 = m) by (unfold b; destruct neg; lia).
        assert (Hs : (9223372036854775808 <=? b) = neg) by (unfold b; destruct neg; lia).
        rewrite Hq, Hr, Hs. reflexivity.
      * set (b := (if neg then 9223372036854775808 else 0) + (E + 1) * 4503599627370496 + (m - 4503599627370496)).
        exists b. split; [unfold b; destruct neg; lia|].
        assert (Hr : b mod 4503599627370496 = m - 4503599627370496) by (unfold b; destruct neg; lia).
        assert (Hq0 : b / 4503599627370496 = (if neg then 2048 else 0) + (E + 1)) by (unfold b; destruct neg; lia).
        assert (Hq : (b / 4503599627370496) mod 2048 = E + 1) by (rewrite Hq0; destruct neg; lia).
        assert (Hs : (9223372036854775808 <=? b) = neg) by (unfold b; destruct neg; lia).
        rewrite Hq, Hr, Hs.
        replace (E + 1 =? 2047) with false by lia. replace (E + 1 =? 0) with false by lia.
        f_equal; lia.
  - intros a b Ha Hb.
    set (ea := (a / 4503599627370496) mod 2048). set (eb := (b / 4503599627370496) mod 2048).
    set (fa := a mod 4503599627370496). set (fb := b mod 4503599627370496).
    assert (Da : a = (if 9223372036854775808 <=? a then 9223372036854775808 else 0) + ea * 4503599627370496 + fa).
    { unfold ea, fa. destruct (9223372036854775808 <=? a) eqn:E; lia. }
    assert (Db : b = (if 9223372036854775808 <=? b then 9223372036854775808 else 0) + eb * 4503599627370496 + fb).
    { unfold eb, fb. destruct (9223372036854775808 <=? b) eqn:E; lia. }
    assert (Hfa : 0 <= fa) by (unfold fa; lia). assert (Hfb : 0 <= fb) by (unfold fb; lia).
    assert (Hma : fa < 4503599627370496) by (unfold fa; lia). assert (Hmb : fb < 4503599627370496) by (unfold fb; lia).
    clearbody ea eb fa fb.
    set (sa := 9223372036854775808 <=? a) in *. set (sb := 9223372036854775808 <=? b) in *. clearbody sa sb.
    intro H.
    assert (G : (sa = sb /\ ea = eb /\ fa = fb) \/
                (if ea =? 2047 then if fa =? 0 then FInf sa else FNan
                 else if ea =? 0 then FFin sa fa 0 else FFin sa (4503599627370496 + fa) (ea - 1)) = FNan).
    { clear Da Db Ha Hb.
      destruct (Z.eqb_spec ea 2047) as [E1|E1], (Z.eqb_spec eb 2047) as [E2|E2]; cbn iota beta in *.
      - destruct (Z.eqb_spec fa 0) as [E3|E3]; [|now right].
        destruct (Z.eqb_spec fb 0) as [E4|E4]; [|discriminate]. injection H as H. left. subst. auto.
      - destruct (fa =? 0), (eb =? 0); discriminate.
      - destruct (fb =? 0), (ea =? 0); discriminate.
      - left. destruct (Z.eqb_spec ea 0) as [E3|E3], (Z.eqb_spec eb 0) as [E4|E4].
        + injection H as H1 H2. subst. auto.
        + exfalso. assert (K : fa = 4503599627370496 + fb) by exact (f_equal fsig H). clear -K Hma Hfb. lia.
        + exfalso. assert (K : 4503599627370496 + fa = fb) by exact (f_equal fsig H). clear -K Hmb Hfa. lia.
        + assert (K1 : sa = sb) by exact (f_equal fneg H).
          assert (K2 : 4503599627370496 + fa = 4503599627370496 + fb) by exact (f_equal fsig H).
          assert (K3 : ea - 1 = eb - 1) by exact (f_equal fexp H).
          split; [exact K1|]. split; [clear -K3|clear -K2]; lia. }
    destruct G as [[-> [-> ->]]|G]; [left; now rewrite Da, Db|right; exact G].
Qed.

Transparent two1074.
Lemma two1074_eq : two1074 = 2^1074.
Proof. reflexivity. Qed.
Opaque two1074.

Lemma fmt_accurate p neg m E : fvalid (FFin neg m E) = true ->
  exists ip fp,
    fmt_float p (FFin neg m E) =
      (if neg then u "-" else []) ++ ip ++ (if Nat.eqb p 0 then [] else u "." ++ fp) /\
    length fp = p /\ ip <> [] /\ forallb is_adigit (ip ++ fp) = true /\
    2 * Z.abs (m * 2^E * 10^Z.of_nat p - digits_val (ip ++ fp) * 2^1074) <= 2^1074.
Proof.
  rewrite <- two1074_eq; intro Hv. assert (Hi := fvalid_inv _ _ _ Hv). destruct Hi as [Hm [HE _]].
  assert (Hf : 0 <= fmag m E) by (apply fmag_nonneg; lia).
  destruct (fixed_mag_shape p m E Hf) as [ip [fp [Hl [Hn [H1 [H2 [H3 H4]]]]]]].
  exists ip, fp. split.
  { cbn [fmt_float]. rewrite H4. destruct p; reflexivity. }
  repeat split; auto. { now rewrite forallb_app, H1, H2. }
  rewrite H3. apply fixed_int_half.
Qed.

Lemma coords_respace cells t t' : forallb (forallb cell) cells = true ->
  coords_text cells t -> coords_text cells t' -> parse_coordinates t = parse_coordinates t'.
Proof. intros Hc H H'. now rewrite (coords_text_parse cells t Hc H), (coords_text_parse cells t' Hc H'). Qed.

Lemma coordinates_no_drift p l t : forallb (fun c => nums_valid c && negb (nilb c)) l = true ->
  coordinates_text (Some p) l = Ok t ->
  exists l', parse_coordinates t = Ok (VCoords false l') /\ coordinates_text (Some p) l' = Ok t.
Proof.
  intros Hv H. destruct (coordinates_roundtrip (Some p) l t Hv H) as [cells [H1 [_ H2]]].
  exists (map (point_norm (Some p)) l). split; [now apply H2|].
  unfold coordinates_text in *.
  assert (Hd : dims_ok (map (point_norm (Some p)) l) = dims_ok l).
  { destruct l as [|c l]; [reflexivity|]. cbn. unfold point_norm. now rewrite map_length. }
  rewrite Hd. destruct (dims_ok l); [|discriminate]. apply bind_ok in H as [ts [Hts H]]. rewrite <- H.
  enough (E : map_res (join_nums (u ",") (Some p)) (map (point_norm (Some p)) l) = Ok ts) by now rewrite E.
  clear -Hts Hv. revert ts Hts. induction l as [|c l IH]; intros ts Hts; [exact Hts|].
  cbn [forallb] in Hv. apply andb_prop in Hv as [H1 H2]. apply andb_prop in H1 as [H1 _].
  cbn [map_res map] in *. apply bind_ok in Hts as [t [Ht Hts]]. apply bind_ok in Hts as [r [Hr Hts]].
  rewrite (IH H2 _ Hr).
  assert (E : join_nums (u ",") (Some p) (point_norm (Some p) c) = Ok t).
  { unfold join_nums in *. apply bind_ok in Ht as [ws [Hws Ht]]. rewrite <- Ht.
    enough (E : map_res (num_text (Some p)) (point_norm (Some p) c) = Ok ws) by now rewrite E.
    clear -H1 Hws. revert ws Hws; induction c as [|n c IH]; intros ws Hws; [exact Hws|].
    cbn [nums_valid forallb] in H1. apply andb_prop in H1 as [H1 H2].
    cbn [map_res] in Hws. apply bind_ok in Hws as [w [Hw Hws]]. apply bind_ok in Hws as [r [Hr Hws]].
    change (point_norm (Some p) (n :: c)) with (num_norm (Some p) n :: point_norm (Some p) c).
    cbn [map_res]. rewrite (IH H2 _ Hr).
    assert (E : num_text (Some p) (num_norm (Some p) n) = Ok w).
    { cbn [num_text num_norm num_fmt]. rewrite fmt_round_idem by now apply to_float_valid.
      destruct n as [z|f]; cbn [num_text num_fmt to_float] in *; [|exact Hw]. destruct (float_of_Z z); [exact Hw|discriminate|exact Hw]. }
    rewrite E. exact Hws. }
  rewrite E. exact Hts.
Qed.

Lemma coordinates_exact l : dims_ok l = true ->
  forallb (fun c => negb (nilb c) && forallb (fun n => match n with NFloat f => fvalid f | NInt _ => false end) c) l = true ->
  exists t, coordinates_text None l = Ok t /\ parse_coordinates t = Ok (VCoords false l).
Proof.
  intros Hd Hv.
  destruct (coordinates_written None l Hd) as [t Ht].
  { rewrite forallb_forall in *. intros c Hc. specialize (Hv c Hc). apply andb_prop in Hv as [_ Hv].
    rewrite forallb_forall in *. intros n Hn. specialize (Hv n Hn). now destruct n. }
  exists t. split; [exact Ht|].
  destruct (coordinates_roundtrip None l t) as [cells [H1 [_ H2]]]; [|exact Ht|].
  - rewrite forallb_forall in *. intros c Hc. specialize (Hv c Hc). apply andb_prop in Hv as [-> Hv]. rewrite andb_true_r.
    unfold nums_valid. rewrite forallb_forall in *. intros n Hn. specialize (Hv n Hn). now destruct n.
  - rewrite (H2 t H1). do 2 f_equal. rewrite <- map_id. apply map_ext_in. intros c Hc.
    rewrite forallb_forall in Hv. specialize (Hv c Hc). apply andb_prop in Hv as [_ Hv].
    unfold point_norm. rewrite <- map_id. apply map_ext_in. intros n Hn. rewrite forallb_forall in Hv.
    specialize (Hv n Hn). destruct n; [discriminate|reflexivity].
Qed.
