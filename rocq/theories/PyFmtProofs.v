(** Fixed precision formatting: accuracy and absence of drift (C06). *)
From Coq Require Import String List NArith ZArith Bool Lia ZifyBool ZifyN ZifyNat.
From Verif Require Import Ustr UstrProofs Res PyInt PyFloat PyNumProofs.
Import ListNotations.
Local Open Scope Z_scope.
Ltac Zify.zify_post_hook ::= Z.div_mod_to_equations.

(** The rounding is nearest among all finite doubles. *)
Lemma round_ratio_fin neg n d m E : round_ratio neg n d = FFin neg m E ->
  let E0 := Z.max 0 (Z.log2 (n * two1074 / d) - 52) in
  fmag m E = rne (n * two1074) (d * 2 ^ E0) * 2 ^ E0.
Proof.
  intros H E0. unfold round_ratio in H. fold E0 in H.
  set (m0 := rne _ _) in *.
  assert (HE : 0 <= E0) by lia.
  destruct (m0 =? 2 ^ 53) eqn:Em.
  - destruct (E0 + 1 <=? 2045); [|discriminate]. injection H as <- <-.
    apply Z.eqb_eq in Em. rewrite Em. unfold fmag.
    rewrite Z.pow_add_r, Z.pow_1_r by lia. change (2 ^ 53) with (2 * 2 ^ 52). ring.
  - destruct (E0 <=? 2045); [|discriminate]. injection H as <- <-. reflexivity.
Qed.

Lemma abs_scale a b : 0 < b -> Z.abs (a * b) = Z.abs a * b.
Proof. intro. rewrite Z.abs_mul, (Z.abs_eq b) by lia. reflexivity. Qed.

Theorem round_ratio_nearest neg n d m E b m' E' :
  0 <= n -> 0 < d -> round_ratio neg n d = FFin neg m E ->
  fvalid (FFin b m' E') = true ->
  Z.abs (n * two1074 - fmag m E * d) <= Z.abs (n * two1074 - fmag m' E' * d).
Proof.
  intros Hn Hd H Hv. rewrite (round_ratio_fin _ _ _ _ _ H).
  assert (H2 := two1074_pos).
  destruct (round_core (n * two1074) d ltac:(nia) Hd) as [_ [_ Hlow]].
  set (n1 := n * two1074) in *.
  set (E0 := Z.max 0 (Z.log2 (n1 / d) - 52)) in *.
  assert (HE0 : 0 <= E0) by lia.
  assert (P0 := pow2_pos E0 HE0).
  apply fvalid_inv in Hv as [Hm' [HE' _]]. assert (P' := pow2_pos E' ltac:(lia)).
  set (r := rne n1 (d * 2 ^ E0)).
  replace (r * 2 ^ E0 * d) with (r * (d * 2 ^ E0)) by ring.
  destruct (Z_le_gt_dec E0 E') as [C|C].
  - unfold fmag. replace (2 ^ E') with (2 ^ (E' - E0) * 2 ^ E0) by (rewrite <- Z.pow_add_r by lia; f_equal; lia).
    replace (m' * (2 ^ (E' - E0) * 2 ^ E0) * d) with ((m' * 2 ^ (E' - E0)) * (d * 2 ^ E0)) by ring.
    apply rne_nearest. nia.
  - destruct Hlow as [Hz|Hlow]; [lia|].
    assert (Hr := rne_nearest n1 (d * 2 ^ E0) (2 ^ 52) ltac:(nia)). fold r in Hr.
    assert (A52 : 2 ^ (E0 + 52) = 2 ^ 52 * 2 ^ E0) by (rewrite Z.add_comm; apply Z.pow_add_r; lia).
    rewrite A52 in Hlow.
    assert (Hg : fmag m' E' <= 2 ^ 52 * 2 ^ E0).
    { unfold fmag. replace E0 with ((E0 - 1 - E') + 1 + E') by lia.
      rewrite !Z.pow_add_r, Z.pow_1_r by lia.
      assert (1 <= 2 ^ (E0 - 1 - E')) by (assert (0 < 2 ^ (E0 - 1 - E')) by (apply pow2_pos; lia); lia).
      change (2 ^ 53) with (2 * 2 ^ 52) in Hm'.
      assert (0 < 2 ^ 52) by (apply pow2_pos; lia). 
      apply Z.le_trans with ((2 * 2 ^ 52) * 2 ^ E'); [nia|].
      replace (2 ^ 52 * (2 ^ (E0 - 1 - E') * 2 * 2 ^ E')) with (2 * 2 ^ 52 * 2 ^ E' * 2 ^ (E0 - 1 - E')) by ring.
      nia. }
    assert (fmag m' E' * d <= 2 ^ 52 * (d * 2 ^ E0)) by nia.
    assert (2 ^ 52 * (d * 2 ^ E0) <= n1) by nia. lia.
Qed.

Lemma round_dec_neg10 neg D p : round_dec neg D (- Z.of_nat p) = round_ratio neg D (10 ^ Z.of_nat p).
Proof.
  unfold round_dec. destruct (0 <=? - Z.of_nat p) eqn:E.
  - assert (Z.of_nat p = 0) as -> by lia. change (- 0) with 0.
    rewrite Z.pow_0_r, Z.mul_1_r. reflexivity.
  - f_equal. f_equal. lia.
Qed.

Definition fixed_int (p : nat) (m E : Z) : Z := rne (fmag m E * 10 ^ Z.of_nat p) two1074.

Lemma pad_left_val n s : digits_val (pad_left n s) = digits_val s.
Proof. apply digits_val_zeros_app. Qed.
Lemma pad_left_digits n s : forallb is_adigit s = true -> forallb is_adigit (pad_left n s) = true.
Proof. intro H. unfold pad_left. now rewrite forallb_app, repeat_digits. Qed.
Lemma pad_left_length n s : (n <= length (pad_left n s))%nat.
Proof. unfold pad_left. rewrite app_length, repeat_length. lia. Qed.

Lemma fmag_nonneg m E : 0 <= m -> 0 <= E -> 0 <= fmag m E.
Proof. intros. unfold fmag. assert (P := pow2_pos E ltac:(lia)). nia. Qed.

(** Shape of the printed text. *)
Lemma fixed_mag_shape p m E : 0 <= fmag m E ->
  exists ip fp, length fp = p /\ ip <> [] /\
    forallb is_adigit ip = true /\ forallb is_adigit fp = true /\
    digits_val (ip ++ fp) = fixed_int p m E /\
    fixed_mag p m E = ip ++ match p with O => [] | _ => 46%N :: fp end.
Proof.
  intro Hf. unfold fixed_mag. fold (fixed_int p m E).
  assert (HD : 0 <= fixed_int p m E).
  { apply rne_nonneg; [apply two1074_pos|]. assert (P := pow10_pos (Z.of_nat p) ltac:(lia)). nia. }
  assert (Hd := digits_of_digits _ HD). assert (Hv := digits_of_val _ HD).
  set (ds := pad_left (S p) (digits_of (fixed_int p m E))).
  assert (Hds : forallb is_adigit ds = true) by now apply pad_left_digits.
  assert (Hl : (S p <= length ds)%nat) by apply pad_left_length.
  exists (firstn (length ds - p) ds), (skipn (length ds - p) ds).
  split; [rewrite skipn_length; lia|].
  split; [destruct ds; [cbn in Hl; lia|]; destruct (length (n :: ds) - p)%nat eqn:E'; [lia|discriminate]|].
  split; [now apply forallb_firstn|]. split; [now apply forallb_skipn|].
  split; [rewrite firstn_skipn; unfold ds; rewrite pad_left_val; exact Hv|].
  destruct p; [|reflexivity]. rewrite Nat.sub_0_r, firstn_all, app_nil_r. reflexivity.
Qed.

Lemma fixed_mag_parse neg p m E : 0 <= fmag m E ->
  parse_dec neg (fixed_mag p m E) = Some (round_ratio neg (fixed_int p m E) (10 ^ Z.of_nat p)) /\
  numtext (fixed_mag p m E) = true /\ starts_digit (fixed_mag p m E) = true.
Proof.
  intro Hf. destruct (fixed_mag_shape p m E Hf) as [ip [fp [Hl [Hn [H1 [H2 [H3 ->]]]]]]].
  rewrite <- round_dec_neg10, <- H3. split; [|split].
  - destruct p as [|p].
    + destruct fp; [|discriminate]. rewrite (parse_dec_int neg ip [] 0); auto. now rewrite app_nil_r.
    + rewrite <- (app_nil_r fp) at 1. rewrite (parse_dec_frac neg ip fp [] 0); auto.
      rewrite Hl. f_equal.
  - destruct p; rewrite numtext_app, (numtext_digits ip H1); [reflexivity|].
    rewrite numtext_cons, (numtext_digits fp H2). reflexivity.
  - destruct ip as [|c ip]; [congruence|]. cbn in H1 |- *. now apply andb_prop in H1 as [-> _].
Qed.

Lemma fixed_int_half p m E : 2 * Z.abs (fmag m E * 10 ^ Z.of_nat p - fixed_int p m E * two1074) <= two1074.
Proof. apply rne_half, two1074_pos. Qed.

(** Rounding a printed number never overflows. *)
Lemma fixed_no_overflow neg p m E : fvalid (FFin neg m E) = true ->
  exists m' E', round_ratio neg (fixed_int p m E) (10 ^ Z.of_nat p) = FFin neg m' E'.
Proof.
  intro Hv. assert (Hi := fvalid_inv _ _ _ Hv). destruct Hi as [Hm [HE _]].
  assert (P10 := pow10_pos (Z.of_nat p) ltac:(lia)). assert (PT := two1074_pos).
  destruct (Z_le_gt_dec 1074 E) as [C|C].
  - exists m, E. apply round_ratio_exact; [exact Hv|exact P10|].
    unfold fixed_int. unfold fmag.
    replace (2 ^ E) with (2 ^ (E - 1074) * two1074).
    2:{ Transparent two1074. unfold two1074. Opaque two1074. rewrite <- Z.pow_add_r by lia. f_equal. lia. }
    replace (m * (2 ^ (E - 1074) * two1074) * 10 ^ Z.of_nat p)
      with ((m * 2 ^ (E - 1074) * 10 ^ Z.of_nat p) * two1074) by ring.
    rewrite rne_exact by exact PT. ring.
  - assert (Hh := fixed_int_half p m E).
    set (D := fixed_int p m E) in *. set (T := 10 ^ Z.of_nat p) in *.
    assert (HD : 0 <= D). { apply rne_nonneg; [exact PT|]. assert (0 <= fmag m E) by (apply fmag_nonneg; lia). fold T. nia. }
    assert (Hf : fmag m E < 2 ^ 1127).
    { unfold fmag. apply Z.lt_le_trans with (2 ^ 53 * 2 ^ E).
      - assert (P := pow2_pos E ltac:(lia)). apply Z.mul_lt_mono_pos_r; [exact P|exact (proj2 Hm)].
      - rewrite <- Z.pow_add_r by lia. apply Z.pow_le_mono_r; lia. }
    assert (HT : two1074 < 2 ^ 1127).
    { Transparent two1074. unfold two1074. Opaque two1074. apply Z.pow_lt_mono_r; lia. }
    assert (Hq : D * two1074 / T < 2 ^ 1128).
    { apply Z.div_lt_upper_bound; [exact P10|]. replace (2 ^ 1128) with (2 * 2 ^ 1127) by (symmetry; apply (Z.pow_succ_r 2 1127); discriminate).
      revert Hh Hf HT PT. generalize (2 ^ 1127) as B. generalize two1074 as C'. clear -P10 HD. intros C' B Hh Hf HT PT. nia. }
    assert (HL : Z.log2 (D * two1074 / T) < 1128).
    { assert (0 <= D * two1074 / T) by (apply Z.div_pos; nia).
      destruct (Z.eq_dec (D * two1074 / T) 0) as [->|]; [reflexivity|]. apply Z.log2_lt_pow2; [|exact Hq]. clear Hq Hf HT. lia. }
    clear Hq Hf HT.
    unfold round_ratio.
    destruct (_ =? 2 ^ 53).
    + match goal with |- context [if ?b then _ else _] => replace b with true by lia end. eauto.
    + match goal with |- context [if ?b then _ else _] => replace b with true by lia end. eauto.
Qed.

Lemma fmt_parse p f : fvalid f = true ->
  exists g, float_of_str (fmt_float p f) = Ok g /\ fvalid g = true /\ fmt_float p g = fmt_float p f.
Proof.
  intro Hv. destruct f as [|neg|neg m E].
  - exists FNan. repeat split.
  - exists (FInf neg). destruct neg; repeat split.
  - assert (Hi := fvalid_inv _ _ _ Hv). destruct Hi as [Hm [HE _]].
    assert (Hf : 0 <= fmag m E) by (apply fmag_nonneg; lia).
    destruct (fixed_mag_parse neg p m E Hf) as [H1 [H2 H3]].
    destruct (fixed_no_overflow neg p m E Hv) as [m' [E' Hr]].
    assert (P10 := pow10_pos (Z.of_nat p) ltac:(lia)). assert (PT := two1074_pos).
    assert (HD : 0 <= fixed_int p m E) by (apply rne_nonneg; [exact PT|nia]).
    assert (Hv' : fvalid (FFin neg m' E') = true) by (rewrite <- Hr; now apply round_ratio_valid).
    exists (FFin neg m' E'). split; [|split; [exact Hv'|]].
    + unfold fmt_float. apply float_of_str_plain; [now apply numtext_plain|exact H3|]. now rewrite H1, Hr.
    + cbn [fmt_float]. f_equal. unfold fixed_mag.
      change (rne (fmag m' E' * 10 ^ Z.of_nat p) two1074) with (fixed_int p m' E').
      change (rne (fmag m E * 10 ^ Z.of_nat p) two1074) with (fixed_int p m E).
      replace (fixed_int p m' E') with (fixed_int p m E); [reflexivity|symmetry].
      assert (Hn := round_ratio_nearest _ _ _ _ _ neg m E HD P10 Hr Hv).
      assert (Hh := fixed_int_half p m E).
      assert (Hte := rne_tie_even (fmag m E * 10 ^ Z.of_nat p) two1074 PT). fold (fixed_int p m E) in Hte.
      set (D := fixed_int p m E) in *. set (T := 10 ^ Z.of_nat p) in *.
      unfold fixed_int. fold T.
      set (A := fmag m E * T) in *. set (B := fmag m' E' * T) in *.
      destruct (Z.eq_dec (2 * Z.abs (B - D * two1074)) two1074) as [Et|Et].
      * apply rne_unique_tie; [exact PT|exact Et|]. apply Hte. lia.
      * apply rne_unique; [exact PT|]. lia.
Qed.

Lemma fmt_float_numtext p f : fvalid f = true -> numtext (fmt_float p f) = true /\ fmt_float p f <> [].
Proof.
  intro Hv. destruct f as [|neg|neg m E].
  - now split.
  - destruct neg; now split.
  - assert (Hi := fvalid_inv _ _ _ Hv). destruct Hi as [Hm [HE _]].
    assert (Hf : 0 <= fmag m E) by (apply fmag_nonneg; lia).
    destruct (fixed_mag_parse neg p m E Hf) as [H1 [H2 H3]]. cbn [fmt_float]. split.
    + rewrite numtext_app, H2. destruct neg; reflexivity.
    + destruct neg; [discriminate|]. cbn [app]. destruct (fixed_mag p m E); [discriminate|congruence].
Qed.
