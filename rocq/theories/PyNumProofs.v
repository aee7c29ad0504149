(** Proofs about [PyInt.v] and [PyFloat.v]: printing then reading is the identity. *)
From Coq Require Import String List NArith ZArith Bool Lia ZifyBool ZifyN ZifyNat.
From Verif Require Import Ustr UstrProofs Res PyInt PyFloat.
Import ListNotations.
Local Open Scope Z_scope.
Ltac Zify.zify_post_hook ::= Z.div_mod_to_equations.

#[global] Opaque Z.pow.

(** ** Decimal digits *)

Lemma digits_val_app_acc a b acc :
  fold_left (fun acc c => 10 * acc + (Z.of_N c - 48)) (a ++ b) acc =
  fold_left (fun acc c => 10 * acc + (Z.of_N c - 48)) b
    (fold_left (fun acc c => 10 * acc + (Z.of_N c - 48)) a acc).
Proof. apply fold_left_app. Qed.

Lemma digits_fold s : forall acc,
  fold_left (fun acc c => 10 * acc + (Z.of_N c - 48)) s acc =
  acc * 10 ^ Z.of_nat (length s) + digits_val s.
Proof.
  unfold digits_val. induction s as [|c s IH]; intro acc.
  - cbn [fold_left length]. change (Z.of_nat 0) with 0. rewrite Z.pow_0_r. lia.
  - cbn [fold_left length]. rewrite IH, (IH (10 * 0 + _)).
    rewrite Nat2Z.inj_succ, Z.pow_succ_r by lia. ring.
Qed.

Lemma digits_val_app a b :
  digits_val (a ++ b) = digits_val a * 10 ^ Z.of_nat (length b) + digits_val b.
Proof. unfold digits_val at 1. rewrite fold_left_app. apply digits_fold. Qed.

Lemma digits_val_cons c s :
  digits_val (c :: s) = (Z.of_N c - 48) * 10 ^ Z.of_nat (length s) + digits_val s.
Proof. change (c :: s) with ([c] ++ s). rewrite digits_val_app. unfold digits_val at 1. cbn [fold_left]. ring. Qed.

Lemma digits_val_nonneg s : forallb is_adigit s = true -> 0 <= digits_val s.
Proof.
  induction s as [|c s IH]; intro H.
  - unfold digits_val; cbn; lia.
  - cbn [forallb] in H. apply andb_prop in H as [H1 H2]. rewrite digits_val_cons.
    specialize (IH H2). unfold is_adigit in H1.
    assert (0 <= 10 ^ Z.of_nat (length s)) by (apply Z.pow_nonneg; lia). nia.
Qed.

Lemma digits_val_zeros n : digits_val (repeat 48%N n) = 0.
Proof.
  induction n as [|n IH]; [reflexivity|]. cbn [repeat]. rewrite digits_val_cons, IH. reflexivity.
Qed.

Lemma digits_val_zeros_app n s : digits_val (repeat 48%N n ++ s) = digits_val s.
Proof. rewrite digits_val_app, digits_val_zeros. lia. Qed.

Lemma digits_aux_app fuel : forall n acc, digits_aux fuel n acc = digits_aux fuel n [] ++ acc.
Proof.
  induction fuel as [|f IH]; intros n acc; cbn [digits_aux]; [reflexivity|].
  destruct (n <? 10); [reflexivity|].
  rewrite IH, (IH _ [_]), <- app_assoc. reflexivity.
Qed.

Lemma digits_aux_val fuel : forall n, 0 <= n < 10 ^ Z.of_nat fuel ->
  digits_val (digits_aux fuel n []) = n /\ forallb is_adigit (digits_aux fuel n []) = true.
Proof.
  induction fuel as [|f IH]; intros n Hn.
  - change (Z.of_nat 0) with 0 in Hn. rewrite Z.pow_0_r in Hn. cbn [digits_aux].
    split; [unfold digits_val; cbn; lia | reflexivity].
  - cbn [digits_aux]. rewrite Nat2Z.inj_succ, Z.pow_succ_r in Hn by lia.
    assert (Hd : is_adigit (48 + Z.to_N (n mod 10)) = true) by (unfold is_adigit; lia).
    destruct (n <? 10) eqn:E.
    + split; [|cbn [forallb]; now rewrite Hd].
      rewrite digits_val_cons. cbn [length]. change (Z.of_nat 0) with 0. rewrite Z.pow_0_r.
      unfold digits_val; cbn [fold_left]. lia.
    + destruct (IH (n / 10)) as [H1 H2]; [lia|].
      rewrite digits_aux_app, digits_val_app, H1, forallb_app, H2. split.
      * rewrite digits_val_cons. cbn [length]. change (Z.of_nat 0) with 0.
        change (Z.of_nat 1) with 1. rewrite Z.pow_0_r, Z.pow_1_r.
        unfold digits_val; cbn [fold_left]. lia.
      * cbn [forallb andb]. now rewrite Hd.
Qed.

Lemma digits_aux_nonempty fuel n acc : fuel <> O -> digits_aux fuel n acc <> [].
Proof.
  destruct fuel as [|f]; [congruence|]. intros _. cbn [digits_aux].
  destruct (n <? 10); [discriminate|]. rewrite digits_aux_app. intro H.
  apply app_eq_nil in H as [_ H]. discriminate.
Qed.

Lemma log2_fuel n : 0 <= n -> 0 <= n < 10 ^ Z.of_nat (S (Z.to_nat (Z.log2 n))).
Proof.
  intro Hn. split; [exact Hn|].
  rewrite Nat2Z.inj_succ, Z2Nat.id by apply Z.log2_nonneg.
  destruct (Z.eq_dec n 0) as [->|Hz].
  - change (Z.log2 0) with 0. rewrite Z.pow_1_r. lia.
  - apply Z.lt_le_trans with (2 ^ Z.succ (Z.log2 n)).
    + apply Z.log2_spec. lia.
    + apply Z.pow_le_mono_l. lia.
Qed.

Lemma digits_of_val n : 0 <= n -> digits_val (digits_of n) = n.
Proof. intro H. apply digits_aux_val, log2_fuel, H. Qed.
Lemma digits_of_digits n : 0 <= n -> forallb is_adigit (digits_of n) = true.
Proof. intro H. apply digits_aux_val, log2_fuel, H. Qed.
Lemma digits_of_nonempty n : digits_of n <> [].
Proof. apply digits_aux_nonempty. discriminate. Qed.

(** ** Plain text: printable ASCII without underscore *)

Definition plain_cp (c : N) : bool := ((33 <=? c) && (c <? 127) && negb (c =? 95))%N.
Definition plain (s : ustr) : bool := forallb plain_cp s.

Lemma plain_app a b : plain (a ++ b) = plain a && plain b.
Proof. apply forallb_app. Qed.

Lemma plain_ascii s : plain s = true -> map to_ascii_cp s = s.
Proof.
  induction s as [|c s IH]; cbn; [reflexivity|]. intro H. apply andb_prop in H as [H1 H2].
  rewrite IH by exact H2. f_equal. unfold to_ascii_cp, plain_cp in *.
  replace (c <? 127)%N with true by lia. reflexivity.
Qed.

Lemma plain_c_lstrip s : plain s = true -> c_lstrip s = s.
Proof.
  destruct s as [|c s]; cbn; [reflexivity|]. intro H. apply andb_prop in H as [H1 _].
  unfold c_space, plain_cp in *.
  replace ((9 <=? c) && (c <=? 13) || (c =? 32))%N with false by lia. reflexivity.
Qed.

Lemma plain_c_strip s : plain s = true -> c_strip s = s.
Proof.
  intro H. unfold c_strip. rewrite (plain_c_lstrip s H).
  rewrite (plain_c_lstrip (rev s)); [apply rev_involutive|]. unfold plain. now rewrite forallb_rev.
Qed.

Lemma plain_no_us s b : plain s = true -> no_underscores b s = Some s.
Proof.
  revert b; induction s as [|c s IH]; intro b; cbn [no_underscores]; [reflexivity|]. intro H.
  cbn in H. apply andb_prop in H as [H1 H2]. unfold plain_cp in H1.
  replace (c =? 95)%N with false by lia. rewrite IH by exact H2. reflexivity.
Qed.

Lemma adigit_plain s : forallb is_adigit s = true -> plain s = true.
Proof.
  unfold plain. rewrite !forallb_forall. intros H c Hc. specialize (H c Hc).
  unfold is_adigit, plain_cp in *. lia.
Qed.

Lemma plain_no_space s : plain s = true -> no_space s = true.
Proof.
  unfold plain, no_space. rewrite !forallb_forall. intros H c Hc. specialize (H c Hc).
  unfold is_space, plain_cp in *. lia.
Qed.

Lemma take_sign_neg s : take_sign (45%N :: s) = (true, s).
Proof. reflexivity. Qed.

Lemma take_sign_digit s : s <> [] -> forallb is_adigit (firstn 1 s) = true -> take_sign s = (false, s).
Proof.
  destruct s as [|c s]; [congruence|]. intros _ H. cbn in H. rewrite andb_true_r in H.
  unfold is_adigit in H. unfold take_sign.
  replace (c =? 45)%N with false by lia. replace (c =? 43)%N with false by lia. reflexivity.
Qed.

Lemma firstn1_digits s : forallb is_adigit s = true -> forallb is_adigit (firstn 1 s) = true.
Proof. destruct s; cbn; [reflexivity|]. intro H. apply andb_prop in H as [-> _]. reflexivity. Qed.

(** ** Integers *)

Definition small_int (z : Z) : bool :=
  (N.of_nat (length (digits_of (Z.abs z))) <=? int_max_str_digits)%N.

Lemma str_of_int_ok z : small_int z = true ->
  str_of_int z = Ok (if z <? 0 then 45%N :: digits_of (Z.abs z) else digits_of (Z.abs z)).
Proof.
  unfold small_int, str_of_int. intro H.
  replace (int_max_str_digits <? N.of_nat (length (digits_of (Z.abs z))))%N with false by lia.
  reflexivity.
Qed.

Theorem int_roundtrip z s : str_of_int z = Ok s -> int_of_str s = Ok z.
Proof.
  unfold str_of_int. destruct (int_max_str_digits <? _)%N eqn:El; [discriminate|]. intro H.
  injection H as <-.
  assert (Hd := digits_of_digits (Z.abs z) ltac:(lia)).
  assert (Hv := digits_of_val (Z.abs z) ltac:(lia)).
  assert (Hn := digits_of_nonempty (Z.abs z)).
  set (d := digits_of (Z.abs z)) in *.
  assert (Hp : plain (if z <? 0 then 45%N :: d else d) = true).
  { destruct (z <? 0); [|now apply adigit_plain]. cbn. now apply adigit_plain. }
  unfold int_of_str. rewrite plain_ascii, plain_c_strip by exact Hp.
  assert (Hne : uempty d = false) by (destruct d; [congruence|reflexivity]).
  destruct (z <? 0) eqn:Ez.
  - rewrite take_sign_neg, plain_no_us by now apply adigit_plain.
    rewrite Hne, Hd, El, Hv. cbn. f_equal. lia.
  - rewrite take_sign_digit; [|exact Hn|now apply firstn1_digits].
    rewrite plain_no_us by now apply adigit_plain.
    rewrite Hne, Hd, El, Hv. cbn. f_equal. lia.
Qed.

Lemma str_of_int_plain z s : str_of_int z = Ok s -> plain s = true /\ s <> [].
Proof.
  unfold str_of_int. destruct (int_max_str_digits <? _)%N; [discriminate|]. intro H.
  injection H as <-.
  assert (Hd := digits_of_digits (Z.abs z) ltac:(lia)).
  assert (Hn := digits_of_nonempty (Z.abs z)).
  destruct (z <? 0); cbn; split; try discriminate; try exact Hn; now apply adigit_plain.
Qed.

(** ** Rounding *)

Lemma rne_exact q d : 0 < d -> rne (q * d) d = q.
Proof.
  intro H. unfold rne. rewrite Z.div_mul, Z.mod_mul by lia.
  rewrite (proj2 (Z.compare_lt_iff (2 * 0) d)) by lia. reflexivity.
Qed.

Lemma rne_cases n d : 0 < d -> exists q r, n = d * q + r /\ 0 <= r < d /\
  ((rne n d = q /\ 2 * r < d) \/ (rne n d = q + 1 /\ d < 2 * r) \/
   (2 * r = d /\ Z.even (rne n d) = true /\ (rne n d = q \/ rne n d = q + 1))).
Proof.
  intro H. exists (n / d), (n mod d). unfold rne.
  assert (Hm := Z.mod_pos_bound n d H). assert (He := Z.div_mod n d ltac:(lia)).
  set (q := n / d) in *. set (r := n mod d) in *. clearbody q r.
  split; [exact He|split; [exact Hm|]].
  destruct (2 * r ?= d) eqn:C.
  - apply Z.compare_eq_iff in C. right. right. split; [exact C|].
    destruct (Z.even q) eqn:Ev; [auto|]. rewrite Z.even_add, Ev. auto.
  - apply Z.compare_lt_iff in C. auto.
  - apply Z.compare_gt_iff in C. right. left. lia.
Qed.

Lemma rne_half n d : 0 < d -> 2 * Z.abs (n - rne n d * d) <= d.
Proof.
  intro H. destruct (rne_cases n d H) as [q [r [Hn [Hr [[-> C]|[[-> C]|[C [_ [-> | ->]]]]]]]]].
  - replace (n - q * d) with r by lia. lia.
  - replace (n - (q + 1) * d) with (r - d) by lia. lia.
  - replace (n - q * d) with r by lia. lia.
  - replace (n - (q + 1) * d) with (r - d) by lia. lia.
Qed.

(** Nearest: no integer multiple of [d] is closer to [n]. *)
Lemma rne_nearest n d k : 0 < d -> Z.abs (n - rne n d * d) <= Z.abs (n - k * d).
Proof.
  intro H. assert (Hh := rne_half n d H).
  destruct (Z.eq_dec k (rne n d)) as [->|Hk]; [lia|].
  set (r := rne n d) in *.
  assert (d <= Z.abs (r * d - k * d)).
  { replace (r * d - k * d) with ((r - k) * d) by ring. rewrite Z.abs_mul, (Z.abs_eq d) by lia.
    assert (1 <= Z.abs (r - k)) by lia. nia. }
  lia.
Qed.

(** On a tie the result is even. *)
Lemma rne_tie_even n d : 0 < d -> 2 * Z.abs (n - rne n d * d) = d -> Z.even (rne n d) = true.
Proof.
  intro H. destruct (rne_cases n d H) as [q [r [Hn [Hr [[E C]|[[E C]|[C [Ev _]]]]]]]]; intro Ht.
  - rewrite E in Ht. replace (n - q * d) with r in Ht by lia. lia.
  - rewrite E in Ht. replace (n - (q + 1) * d) with (r - d) in Ht by lia. lia.
  - exact Ev.
Qed.

Lemma rne_unique n d k : 0 < d -> 2 * Z.abs (n - k * d) < d -> rne n d = k.
Proof.
  intros H Hk. assert (Hh := rne_half n d H). set (r := rne n d) in *.
  assert (Z.abs ((r - k) * d) < d) by (replace ((r - k) * d) with ((n - k * d) - (n - r * d)) by ring; lia).
  rewrite Z.abs_mul, (Z.abs_eq d) in H0 by lia.
  assert (Z.abs (r - k) < 1) by nia. lia.
Qed.

Lemma rne_unique_tie n d k : 0 < d -> 2 * Z.abs (n - k * d) = d -> Z.even k = true -> rne n d = k.
Proof.
  intros H Hk Hev. assert (Hh := rne_half n d H). assert (Ht := rne_tie_even n d H).
  set (r := rne n d) in *.
  destruct (Z.eq_dec r k) as [E|E]; [exact E|exfalso].
  assert (Hn := rne_nearest n d k H). fold r in Hn.
  assert (Hd2 : Z.abs ((r - k) * d) <= d) by (replace ((r - k) * d) with ((n - k * d) - (n - r * d)) by ring; lia).
  rewrite Z.abs_mul, (Z.abs_eq d) in Hd2 by lia.
  assert (Habs : Z.abs (r - k) = 1) by nia.
  assert (2 * Z.abs (n - r * d) = d).
  { assert (d <= Z.abs (n - k * d) + Z.abs (n - r * d)); [|lia].
    assert (Z.abs ((r - k) * d) = d) by (rewrite Z.abs_mul, Habs; lia).
    replace ((r - k) * d) with ((n - k * d) - (n - r * d)) in H0 by ring. lia. }
  specialize (Ht H0).
  apply Z.even_spec in Ht as [a Ha]. apply Z.even_spec in Hev as [b Hb]. lia.
Qed.

Lemma rne_nonneg n d : 0 < d -> 0 <= n -> 0 <= rne n d.
Proof.
  intros H Hn. unfold rne. assert (0 <= n / d) by (apply Z.div_pos; lia).
  destruct (2 * (n mod d) ?= d); [destruct (Z.even (n / d))| |]; lia.
Qed.

Lemma rne_scale n d k : 0 < d -> 0 < k -> rne (n * k) (d * k) = rne n d.
Proof.
  intros Hd Hk. unfold rne.
  rewrite Z.div_mul_cancel_r, Z.mul_mod_distr_r by lia.
  rewrite Z.mul_assoc, <- (Zmult_compare_compat_r (2 * (n mod d)) d k) by lia. reflexivity.
Qed.

Lemma two1074_pos : 0 < two1074.
Proof. unfold two1074. apply Z.pow_pos_nonneg; lia. Qed.
#[global] Opaque two1074.

Lemma pow2_pos e : 0 <= e -> 0 < 2 ^ e.
Proof. intro. apply Z.pow_pos_nonneg; lia. Qed.
Lemma pow10_pos e : 0 <= e -> 0 < 10 ^ e.
Proof. intro. apply Z.pow_pos_nonneg; lia. Qed.

Lemma round_ratio_scale neg n d k : 0 < d -> 0 < k ->
  round_ratio neg (n * k) (d * k) = round_ratio neg n d.
Proof.
  intros Hd Hk. unfold round_ratio.
  replace (n * k * two1074) with (n * two1074 * k) by ring.
  rewrite Z.div_mul_cancel_r by lia.
  set (E := Z.max 0 (Z.log2 (n * two1074 / d) - 52)).
  replace (d * k * 2 ^ E) with (d * 2 ^ E * k) by ring.
  rewrite rne_scale; [reflexivity| |exact Hk].
  assert (0 < 2 ^ E) by (apply pow2_pos; lia). nia.
Qed.

Lemma round_dec_shift neg D t j : 0 <= j ->
  round_dec neg (D * 10 ^ j) t = round_dec neg D (t + j).
Proof.
  intro Hj. unfold round_dec.
  destruct (0 <=? t) eqn:E1.
  - replace (0 <=? t + j) with true by lia.
    rewrite Z.add_comm, Z.pow_add_r by lia. f_equal. ring.
  - destruct (0 <=? t + j) eqn:E2.
    + assert (Ej : 10 ^ j = 10 ^ (t + j) * 10 ^ (- t)) by (rewrite <- Z.pow_add_r by lia; f_equal; lia).
      rewrite Ej. rewrite Z.mul_assoc.
      replace (10 ^ - t) with (1 * 10 ^ - t) at 2 by ring.
      apply round_ratio_scale; [lia|apply pow10_pos; lia].
    + replace (- t) with (- (t + j) + j) by lia. rewrite Z.pow_add_r by lia.
      apply round_ratio_scale; apply pow10_pos; lia.
Qed.

Definition with_sign (neg : bool) (f : pyfloat) : pyfloat :=
  match f with FNan => FNan | FInf _ => FInf neg | FFin _ m E => FFin neg m E end.

Lemma round_ratio_sign neg n d : round_ratio neg n d = with_sign neg (round_ratio false n d).
Proof.
  unfold round_ratio. destruct (_ =? 2 ^ 53); cbv zeta beta iota.
  - destruct (_ <=? 2045); reflexivity.
  - destruct (_ <=? 2045); reflexivity.
Qed.

Lemma round_dec_sign neg D t : round_dec neg D t = with_sign neg (round_dec false D t).
Proof. unfold round_dec. destruct (0 <=? t); apply round_ratio_sign. Qed.

Lemma fvalid_inv neg m E : fvalid (FFin neg m E) = true ->
  0 <= m < 2 ^ 53 /\ 0 <= E <= 2045 /\ (2 ^ 52 <= m \/ E = 0).
Proof. cbn [fvalid]. intro H. lia. Qed.

Lemma fvalid_intro neg m E :
  0 <= m < 2 ^ 53 -> 0 <= E <= 2045 -> (2 ^ 52 <= m \/ E = 0) -> fvalid (FFin neg m E) = true.
Proof. cbn [fvalid]. intros. lia. Qed.

(** A double is its own rounding. *)
Lemma round_ratio_exact neg n d m E :
  fvalid (FFin neg m E) = true -> 0 < d -> n * two1074 = fmag m E * d ->
  round_ratio neg n d = FFin neg m E.
Proof.
  intros Hv Hd Hn. apply fvalid_inv in Hv as [Hm [HE Hc]].
  assert (P53 : 2 ^ 53 = 2 * 2 ^ 52) by reflexivity.
  assert (PE := pow2_pos E ltac:(lia)).
  unfold round_ratio. rewrite Hn, Z.div_mul by lia.
  assert (HL : Z.max 0 (Z.log2 (fmag m E) - 52) = E).
  { unfold fmag. destruct (Z.eq_dec m 0) as [->|Hm0].
    - rewrite Z.mul_0_l. change (Z.log2 0) with 0. destruct Hc as [Hc|Hc]; [|lia].
      assert (0 < 2 ^ 52) by (apply pow2_pos; lia). lia.
    - rewrite Z.log2_mul_pow2 by lia. destruct Hc as [Hc| ->].
      + assert (Z.log2 m = 52); [|lia]. apply Z.log2_unique; [lia|].
        change (Z.succ 52) with 53. lia.
      + assert (Z.log2 m <= 52); [|lia].
        assert (Z.log2 m < 53); [|lia]. apply Z.log2_lt_pow2; lia. }
  rewrite HL. unfold fmag.
  replace (m * 2 ^ E * d) with (m * (d * 2 ^ E)) by ring.
  rewrite rne_exact by nia.
  replace (m =? 2 ^ 53) with false by lia.
  replace (E <=? 2045) with true by lia. reflexivity.
Qed.

(** The parts of the rounding algorithm before the overflow test. *)
Lemma round_core n1 d :
  0 <= n1 -> 0 < d ->
  let E := Z.max 0 (Z.log2 (n1 / d) - 52) in
  let m := rne n1 (d * 2 ^ E) in
  0 <= m <= 2 ^ 53 /\ (2 ^ 52 <= m \/ E = 0) /\
  (E = 0 \/ 2 ^ (E + 52) * d <= n1).
Proof.
  intros Hn Hd E m.
  assert (HE : 0 <= E) by lia.
  assert (PE := pow2_pos E HE).
  assert (P53 : 2 ^ 53 = 2 * 2 ^ 52) by reflexivity.
  assert (Hq : 0 <= n1 / d) by (apply Z.div_pos; lia).
  assert (Hdm := Z.div_mod n1 d ltac:(lia)). assert (Hmb := Z.mod_pos_bound n1 d Hd).
  assert (Hlow : E = 0 \/ 2 ^ (E + 52) * d <= n1).
  { destruct (Z.eq_dec E 0) as [E0|E0]; [now left|right].
    assert (HL : Z.log2 (n1 / d) = E + 52) by lia.
    assert (0 < n1 / d). { destruct (Z.eq_dec (n1 / d) 0) as [Z0|]; [|lia]. rewrite Z0 in HL. cbn in HL. lia. }
    assert (2 ^ (E + 52) <= n1 / d). { rewrite <- HL. now apply Z.log2_spec. } nia. }
  assert (Hup : n1 < 2 ^ (E + 53) * d).
  { assert (n1 / d < 2 ^ (E + 53)); [|nia].
    destruct (Z.eq_dec (n1 / d) 0) as [Z0|Z0]; [rewrite Z0; apply pow2_pos; lia|].
    apply Z.log2_lt_pow2; lia. }
  assert (Hmn : 0 <= m) by (apply rne_nonneg; nia).
  assert (Hh := rne_half n1 (d * 2 ^ E) ltac:(nia)). fold m in Hh.
  assert (A52 : 2 ^ (E + 52) = 2 ^ 52 * 2 ^ E) by (rewrite Z.add_comm; apply Z.pow_add_r; lia).
  assert (A53 : 2 ^ (E + 53) = 2 ^ 53 * 2 ^ E) by (rewrite Z.add_comm; apply Z.pow_add_r; lia).
  set (w := d * 2 ^ E) in *. assert (Hw : 0 < w) by (unfold w; nia).
  rewrite A53 in Hup. replace (2 ^ 53 * 2 ^ E * d) with (2 ^ 53 * w) in Hup by (unfold w; ring).
  split; [split; [exact Hmn|]|split; [|exact Hlow]].
  - assert (m < 2 ^ 53 + 1); [|lia].
    assert (2 * (m * w) <= 2 * n1 + w) by lia. nia.
  - destruct Hlow as [->|Hlow]; [now right|left].
    rewrite A52 in Hlow. replace (2 ^ 52 * 2 ^ E * d) with (2 ^ 52 * w) in Hlow by (unfold w; ring).
    assert (2 ^ 52 < m + 1); [|lia].
    assert (2 * n1 <= 2 * (m * w) + w) by lia. nia.
Qed.

Lemma round_ratio_valid neg n d : 0 <= n -> 0 < d -> fvalid (round_ratio neg n d) = true.
Proof.
  intros Hn Hd. unfold round_ratio.
  assert (H2 := two1074_pos).
  destruct (round_core (n * two1074) d ltac:(nia) Hd) as [H1 [H3 _]].
  set (E := Z.max 0 _) in *. set (m := rne _ _) in *.
  assert (P53 : 2 ^ 53 = 2 * 2 ^ 52) by reflexivity.
  assert (0 < 2 ^ 52) by (apply pow2_pos; lia).
  assert (0 <= E) by lia.
  destruct (m =? 2 ^ 53) eqn:Em.
  - destruct (E + 1 <=? 2045) eqn:El; [|reflexivity]. apply fvalid_intro; lia.
  - destruct (E <=? 2045) eqn:El; [|reflexivity]. apply fvalid_intro; lia.
Qed.

Lemma round_dec_valid neg D t : 0 <= D -> fvalid (round_dec neg D t) = true.
Proof.
  intro H. unfold round_dec. destruct (0 <=? t) eqn:E.
  - apply round_ratio_valid; [|lia]. assert (0 < 10 ^ t) by (apply pow10_pos; lia). nia.
  - apply round_ratio_valid; [lia|]. apply pow10_pos; lia.
Qed.

Lemma span_adigit s : forall a b, span is_adigit s = (a, b) -> forallb is_adigit a = true.
Proof.
  induction s as [|c s IH]; cbn [span]; intros a b H.
  - injection H as <- _. reflexivity.
  - destruct (is_adigit c) eqn:Ec.
    + destruct (span is_adigit s) as [a' b'] eqn:E'. injection H as <- _. cbn [forallb].
      rewrite Ec. now apply (IH _ _ eq_refl).
    + injection H as <- _. reflexivity.
Qed.

Theorem float_of_str_valid s f : float_of_str s = Ok f -> fvalid f = true.
Proof.
  unfold float_of_str. destruct (no_underscores _ _) as [s'|]; [|discriminate].
  destruct (take_sign s') as [neg r].
  destruct (ueqb _ _ || ueqb _ _). { intro H; injection H as <-; reflexivity. }
  destruct (ueqb _ _). { intro H; injection H as <-; reflexivity. }
  destruct (parse_dec neg r) as [g|] eqn:E; [|discriminate]. intro H; injection H as <-.
  unfold parse_dec in E.
  destruct (span is_adigit r) as [d1 r1] eqn:E1.
  assert (H1 := span_adigit _ _ _ E1).
  destruct (match r1 with | [] => ([], []) | c :: r0 => if (c =? 46)%N then span is_adigit r0 else ([], r1) end) as [d2 r2] eqn:E2.
  assert (H2 : forallb is_adigit d2 = true).
  { destruct r1 as [|c r0].
    - injection E2 as <- _. reflexivity.
    - destruct (c =? 46)%N; [now apply (span_adigit _ _ _ E2)|]. injection E2 as <- _. reflexivity. }
  destruct (uempty (d1 ++ d2)); [discriminate|].
  destruct (parse_exp r2); [|discriminate]. injection E as <-.
  apply round_dec_valid, digits_val_nonneg. now rewrite forallb_app, H1, H2.
Qed.

(** ** Reading decimal text *)

Lemma span_digits a r : forallb is_adigit a = true ->
  match r with [] => True | c :: _ => is_adigit c = false end ->
  span is_adigit (a ++ r) = (a, r).
Proof.
  induction a as [|c a IH]; intros H Hr; cbn [app].
  - destruct r as [|c r]; [reflexivity|]. cbn [span]. now rewrite Hr.
  - cbn in H. apply andb_prop in H as [H1 H2]. cbn [span]. rewrite H1, IH by assumption. reflexivity.
Qed.

Definition exp_text (neg : bool) (ed : ustr) : ustr := 101%N :: (if neg then 45%N else 43%N) :: ed.

Lemma parse_exp_text neg ed : ed <> [] -> forallb is_adigit ed = true ->
  parse_exp (exp_text neg ed) = Some (if neg then - digits_val ed else digits_val ed).
Proof.
  intros Hn Hd. unfold exp_text, parse_exp. cbn [N.eqb Pos.eqb orb].
  assert (uempty ed = false) by (destruct ed; [congruence|reflexivity]).
  destruct neg; cbn [take_sign N.eqb Pos.eqb]; now rewrite H, Hd.
Qed.

(** Integer digits, point, fraction digits, optional exponent. *)
Lemma parse_dec_frac neg a b x e :
  forallb is_adigit a = true -> forallb is_adigit b = true -> a <> [] ->
  (x = [] /\ e = 0 \/ exists en ed, x = exp_text en ed /\ ed <> [] /\ forallb is_adigit ed = true
                      /\ e = if en then - digits_val ed else digits_val ed) ->
  parse_dec neg (a ++ 46%N :: b ++ x) =
  Some (round_dec neg (digits_val (a ++ b)) (e - Z.of_nat (length b))).
Proof.
  intros Ha Hb Hn Hx. unfold parse_dec. rewrite span_digits; [|exact Ha|reflexivity].
  cbn [N.eqb Pos.eqb]. rewrite span_digits; [|exact Hb|].
  2:{ destruct Hx as [[-> _]|[en [ed [-> _]]]]; reflexivity || exact I. }
  assert (uempty (a ++ b) = false) as -> by (destruct a; [congruence|reflexivity]).
  destruct Hx as [[-> ->]|[en [ed [-> [H1 [H2 ->]]]]]].
  - reflexivity.
  - rewrite parse_exp_text by assumption. reflexivity.
Qed.

Lemma parse_dec_int neg a x e :
  forallb is_adigit a = true -> a <> [] ->
  (x = [] /\ e = 0 \/ exists en ed, x = exp_text en ed /\ ed <> [] /\ forallb is_adigit ed = true
                      /\ e = if en then - digits_val ed else digits_val ed) ->
  parse_dec neg (a ++ x) = Some (round_dec neg (digits_val a) e).
Proof.
  intros Ha Hn Hx. unfold parse_dec. rewrite span_digits; [|exact Ha|].
  2:{ destruct Hx as [[-> _]|[en [ed [-> _]]]]; reflexivity || exact I. }
  assert (Hu : uempty (a ++ []) = false) by (destruct a; [congruence|reflexivity]).
  destruct Hx as [[-> ->]|[en [ed [-> [H1 [H2 ->]]]]]].
  - rewrite Hu, app_nil_r. reflexivity.
  - unfold exp_text at 1. cbn [N.eqb Pos.eqb].
    change (101%N :: (if en then 45%N else 43%N) :: ed) with (exp_text en ed).
    rewrite Hu, app_nil_r, parse_exp_text by assumption. cbn [length]. now rewrite Z.sub_0_r.
Qed.

(** Characters of printed floats. *)
Definition numchar (c : N) : bool :=
  is_adigit c || (c =? 43)%N || (c =? 45)%N || (c =? 46)%N || (c =? 101)%N ||
  (c =? 97)%N || (c =? 102)%N || (c =? 105)%N || (c =? 110)%N.
Definition numtext (s : ustr) : bool := forallb numchar s.

Lemma numtext_app a b : numtext (a ++ b) = numtext a && numtext b.
Proof. apply forallb_app. Qed.
Lemma numtext_cons c s : numtext (c :: s) = numchar c && numtext s.
Proof. reflexivity. Qed.
Lemma numtext_digits s : forallb is_adigit s = true -> numtext s = true.
Proof.
  unfold numtext. rewrite !forallb_forall. intros H c Hc. unfold numchar. now rewrite H.
Qed.
Lemma numtext_plain s : numtext s = true -> plain s = true.
Proof.
  unfold numtext, plain. rewrite !forallb_forall. intros H c Hc. specialize (H c Hc).
  unfold numchar, plain_cp, is_adigit in *. lia.
Qed.
Lemma numtext_no_comma s : numtext s = true -> no_char 44 s = true.
Proof.
  unfold numtext, no_char. rewrite !forallb_forall. intros H c Hc. specialize (H c Hc).
  unfold numchar, is_adigit in *. lia.
Qed.
Lemma numtext_no_space s : numtext s = true -> no_space s = true.
Proof. intro. now apply plain_no_space, numtext_plain. Qed.

Lemma repeat_digits n : forallb is_adigit (repeat 48%N n) = true.
Proof. induction n; cbn; auto. Qed.
Lemma zeros_digits n : forallb is_adigit (zeros n) = true.
Proof. apply repeat_digits. Qed.
Lemma digits_val_zs n : digits_val (zeros n) = 0.
Proof. apply digits_val_zeros. Qed.
Lemma zeros_length n : 0 <= n -> Z.of_nat (length (zeros n)) = n.
Proof. intro. unfold zeros. rewrite repeat_length. lia. Qed.

Lemma forallb_firstn {A} (f : A -> bool) n l : forallb f l = true -> forallb f (firstn n l) = true.
Proof.
  revert n; induction l as [|x l IH]; intros [|n] H; cbn in *; auto.
  apply andb_prop in H as [-> H]. cbn. auto.
Qed.
Lemma forallb_skipn {A} (f : A -> bool) n l : forallb f l = true -> forallb f (skipn n l) = true.
Proof.
  revert n; induction l as [|x l IH]; intros [|n] H; cbn in *; auto.
  apply andb_prop in H as [_ H]. auto.
Qed.

Definition exp_digits (e : Z) : ustr :=
  let ed := digits_of (Z.abs e) in if (length ed <? 2)%nat then 48%N :: ed else ed.

Lemma exp_digits_ok e : exp_digits e <> [] /\ forallb is_adigit (exp_digits e) = true /\
  digits_val (exp_digits e) = Z.abs e.
Proof.
  unfold exp_digits.
  assert (Hd := digits_of_digits (Z.abs e) ltac:(lia)).
  assert (Hv := digits_of_val (Z.abs e) ltac:(lia)).
  assert (Hn := digits_of_nonempty (Z.abs e)).
  destruct (length (digits_of (Z.abs e)) <? 2)%nat.
  - repeat split; [discriminate|cbn; exact Hd|].
    change (48%N :: digits_of (Z.abs e)) with (repeat 48%N 1 ++ digits_of (Z.abs e)).
    now rewrite digits_val_zeros_app.
  - repeat split; assumption.
Qed.

(** The printed digits read back as the same decimal number. *)
Lemma layout_parse neg ds s :
  ds <> [] -> forallb is_adigit ds = true ->
  parse_dec neg (layout ds (Z.of_nat (length ds) + s)) = Some (round_dec neg (digits_val ds) s).
Proof.
  intros Hn Hd. unfold layout. set (n := Z.of_nat (length ds)).
  assert (Hpos : 0 < n) by (destruct ds; [congruence|cbn [length] in n; lia]).
  destruct ((n + s <=? -4) || (16 <? n + s)) eqn:Esci.
  - set (e := n + s - 1). fold (exp_digits e).
    destruct (exp_digits_ok e) as [X1 [X2 X3]].
    assert (Hval : (if e <? 0 then - digits_val (exp_digits e) else digits_val (exp_digits e)) = e).
    { rewrite X3. destruct (e <? 0) eqn:Q; lia. }
    destruct ds as [|c [|c' r]]; [congruence| |].
    + fold (exp_text (e <? 0) (exp_digits e)).
      rewrite (parse_dec_int neg [c] _ e); [|exact Hd|discriminate|].
      * f_equal. f_equal. unfold e, n. cbn [length]. lia.
      * right. exists (e <? 0), (exp_digits e). repeat split; auto.
    + cbn [tl]. fold (exp_text (e <? 0) (exp_digits e)).
      cbn in Hd. apply andb_prop in Hd as [Hc Hd].
      match goal with |- parse_dec neg ?x = _ =>
        change x with ([c] ++ 46%N :: (c' :: r) ++ exp_text (e <? 0) (exp_digits e)) end.
      rewrite (parse_dec_frac neg [c] (c' :: r) _ e); [|cbn; now rewrite Hc|exact Hd|discriminate|].
      * cbn [app]. f_equal. f_equal. unfold e, n. cbn [length]. lia.
      * right. exists (e <? 0), (exp_digits e). repeat split; auto.
  - destruct (n + s <=? 0) eqn:E0.
    + change (u "0." ++ zeros (- (n + s)) ++ ds) with ([48%N] ++ 46%N :: zeros (- (n + s)) ++ ds).
      rewrite <- (app_nil_r (zeros (- (n + s)) ++ ds)).
      rewrite (parse_dec_frac neg [48%N] (zeros (-(n+s)) ++ ds) [] 0); [|reflexivity| |discriminate|now left].
      2:{ now rewrite forallb_app, zeros_digits, Hd. }
      f_equal. change ([48%N]) with (repeat 48%N 1). rewrite digits_val_zeros_app.
      unfold zeros. rewrite digits_val_zeros_app. f_equal.
      rewrite app_length, repeat_length. fold n. lia.
    + destruct (n <=? n + s) eqn:E1.
      * rewrite app_assoc. change (u ".0") with (46%N :: [48%N] ++ []).
        rewrite (parse_dec_frac neg (ds ++ zeros (n + s - n)) [48%N] [] 0);
          [| |reflexivity| |now left].
        2:{ now rewrite forallb_app, Hd, zeros_digits. }
        2:{ destruct ds; [congruence|discriminate]. }
        f_equal. replace (n + s - n) with s by lia.
        rewrite digits_val_app, digits_val_app. rewrite digits_val_zs.
        cbn [length]. change (Z.of_nat 1) with 1.
        rewrite zeros_length by lia. change (digits_val [48%N]) with 0.
        replace ((digits_val ds * 10 ^ s + 0) * 10 ^ 1 + 0) with (digits_val ds * 10 ^ (s + 1)).
        2:{ rewrite Z.pow_add_r by lia. ring. }
        rewrite round_dec_shift by lia. f_equal. lia.
      * set (k := Z.to_nat (n + s)).
        rewrite <- (app_nil_r (skipn k ds)).
        rewrite (parse_dec_frac neg (firstn k ds) (skipn k ds) [] 0);
          [|now apply forallb_firstn|now apply forallb_skipn| |now left].
        2:{ destruct ds; [congruence|]. destruct k eqn:Ek; [lia|]. discriminate. }
        rewrite firstn_skipn. f_equal. f_equal. rewrite skipn_length. unfold n in *. lia.
Qed.

Lemma layout_numtext ds k : forallb is_adigit ds = true -> numtext (layout ds k) = true.
Proof.
  intro Hd. unfold layout. assert (Hn := numtext_digits _ Hd).
  destruct ((k <=? -4) || (16 <? k)).
  - fold (exp_digits (k - 1)). destruct (exp_digits_ok (k - 1)) as [_ [X2 _]].
    assert (Hx : numtext (101%N :: (if k - 1 <? 0 then 45%N else 43%N) :: exp_digits (k - 1)) = true).
    { cbn. destruct (k - 1 <? 0); cbn; now apply numtext_digits. }
    set (x := 101%N :: _) in *. clearbody x.
    destruct ds as [|c [|c' r]].
    + exact Hx.
    + rewrite numtext_app. now rewrite Hn.
    + cbn [tl]. rewrite numtext_cons in Hn. apply andb_prop in Hn as [Hc Hn].
      rewrite !numtext_cons, numtext_app, Hc, Hn, Hx. reflexivity.
  - destruct (k <=? 0).
    + rewrite !numtext_app, Hn, (numtext_digits _ (zeros_digits _)). reflexivity.
    + destruct (_ <=? k).
      * rewrite !numtext_app, Hn, (numtext_digits _ (zeros_digits _)). reflexivity.
      * rewrite numtext_app. rewrite (numtext_digits (firstn _ _)) by now apply forallb_firstn.
        cbn. now apply numtext_digits, forallb_skipn.
Qed.

Definition starts_digit (s : ustr) : bool :=
  match s with c :: _ => is_adigit c | [] => false end.

Lemma layout_starts ds k : ds <> [] -> forallb is_adigit ds = true -> starts_digit (layout ds k) = true.
Proof.
  intros Hn Hd. destruct ds as [|c r]; [congruence|]. cbn in Hd. apply andb_prop in Hd as [Hc _].
  unfold layout. destruct ((k <=? -4) || (16 <? k)).
  - destruct r; exact Hc.
  - destruct (k <=? 0) eqn:E0; [reflexivity|]. destruct (_ <=? k); [exact Hc|].
    destruct (Z.to_nat k) eqn:E; [lia|]. exact Hc.
Qed.

Lemma starts_digit_not_special r : starts_digit r = true ->
  ueqb (lower r) (u "inf") = false /\ ueqb (lower r) (u "infinity") = false /\
  ueqb (lower r) (u "nan") = false.
Proof.
  destruct r as [|c r]; [discriminate|]. cbn [starts_digit]. unfold is_adigit. intro H.
  cbn [lower map]. unfold lower_cp at 1 3 5.
  replace ((65 <=? c) && (c <=? 90))%N with false by lia.
  replace (c =? 8490)%N with false by lia.
  repeat split; cbn; match goal with |- (?a =? ?b)%N && _ = false => replace (a =? b)%N with false by lia end; reflexivity.
Qed.

Lemma float_of_str_plain neg r f :
  plain r = true -> starts_digit r = true -> parse_dec neg r = Some f ->
  float_of_str ((if neg then [45%N] else []) ++ r) = Ok f.
Proof.
  intros Hp Hs Hf. unfold float_of_str.
  assert (Hp' : plain ((if neg then [45%N] else []) ++ r) = true) by (rewrite plain_app, Hp; destruct neg; reflexivity).
  rewrite plain_ascii, plain_c_strip, plain_no_us by exact Hp'.
  assert (Hts : take_sign ((if neg then [45%N] else []) ++ r) = (neg, r)).
  { destruct neg; cbn [app]; [reflexivity|]. apply take_sign_digit.
    - destruct r; [discriminate|congruence].
    - destruct r; [discriminate|]. cbn in Hs |- *. now rewrite Hs. }
  rewrite Hts. destruct (starts_digit_not_special r Hs) as [-> [-> ->]]. cbn [orb].
  now rewrite Hf.
Qed.

(** ** repr *)

Lemma reduce2_spec fuel : forall m a m' a', 0 <= a -> reduce2 fuel m a = (m', a') ->
  exists j, 0 <= j /\ m = m' * 2 ^ j /\ a = a' + j /\ 0 <= a'.
Proof.
  induction fuel as [|f IH]; intros m a m' a' Ha H; cbn [reduce2] in H.
  - injection H as <- <-. exists 0. rewrite Z.pow_0_r. lia.
  - destruct (Z.even m && (0 <? a)) eqn:E.
    + apply andb_prop in E as [Ev Ea]. apply IH in H as [j [Hj [H1 [H2 H3]]]]; [|lia].
      apply Z.even_spec in Ev as [b Hb]. exists (j + 1). rewrite Z.pow_add_r, Z.pow_1_r by lia.
      repeat split; lia.
    + injection H as <- <-. exists 0. rewrite Z.pow_0_r. lia.
Qed.

Lemma exact_dec_round m E X t : fvalid (FFin false m E) = true -> exact_dec m E = (X, t) ->
  round_dec false X t = FFin false m E /\ 0 <= X.
Proof.
  intros Hv H. assert (Hi := fvalid_inv _ _ _ Hv). destruct Hi as [Hm [HE _]].
  assert (E10 : forall a, 0 <= a -> 10 ^ a = 2 ^ a * 5 ^ a) by (intros; now rewrite <- Z.pow_mul_l).
  unfold exact_dec in H. destruct (1074 <=? E) eqn:Eb.
  - injection H as <- <-. unfold round_dec. cbn [Z.leb Z.compare]. rewrite Z.pow_0_r, Z.mul_1_r.
    assert (P := pow2_pos (E - 1074) ltac:(lia)). split; [|nia].
    apply round_ratio_exact; [exact Hv|lia|]. unfold fmag. Transparent two1074. unfold two1074. Opaque two1074.
    rewrite Z.mul_1_r, <- Z.mul_assoc, <- Z.pow_add_r by lia. f_equal. f_equal. lia.
  - destruct (reduce2 60 m (1074 - E)) as [m' a] eqn:R.
    injection H as <- <-. apply reduce2_spec in R as [j [Hj [H1 [H2 H3]]]]; [|lia].
    assert (P5 : 0 < 5 ^ a) by (apply Z.pow_pos_nonneg; lia).
    assert (P2j := pow2_pos j Hj). assert (0 <= m') by nia. split; [|nia].
    unfold round_dec. destruct (0 <=? - a) eqn:Ea.
    + assert (a = 0) by lia. subst a. change (- 0) with 0. rewrite !Z.pow_0_r, !Z.mul_1_r.
      apply round_ratio_exact; [exact Hv|lia|]. unfold fmag. Transparent two1074. unfold two1074. Opaque two1074.
      rewrite Z.mul_1_r, H1, <- Z.mul_assoc, <- Z.pow_add_r by lia. f_equal. f_equal. lia.
    + replace (- - a) with a by lia.
      apply round_ratio_exact; [exact Hv|apply pow10_pos; lia|]. unfold fmag. Transparent two1074. unfold two1074. Opaque two1074.
      rewrite E10, H1 by lia.
      replace (2 ^ 1074) with (2 ^ j * 2 ^ E * 2 ^ a); [ring|].
      rewrite <- !Z.pow_add_r by lia. f_equal. lia.
Qed.

Lemma candidates_nonneg X t nd n D s : 0 <= X -> In (D, s) (candidates X t nd n) -> 0 <= D.
Proof.
  intros HX. unfold candidates. destruct (nd <=? n) eqn:E.
  - intros [H|[]]. injection H as <- _. exact HX.
  - assert (P := pow10_pos (nd - n) ltac:(lia)). intros [H|[H|[]]]; injection H as <- _.
    + now apply rne_nonneg.
    + assert (0 <= X / 10 ^ (nd - n)) by (apply Z.div_pos; lia).
      destruct (_ =? _); lia.
Qed.

Lemma shortest_spec fuel m E X t nd : forall n D s,
  0 <= X -> round_dec false X t = FFin false m E ->
  shortest fuel m E X t nd n = (D, s) -> round_dec false D s = FFin false m E /\ 0 <= D.
Proof.
  induction fuel as [|f IH]; intros n D s HX Hr H; cbn [shortest] in H.
  - injection H as <- <-. now split.
  - destruct (find _ _) as [c|] eqn:F.
    + subst c. apply find_some in F as [Hin Hs]. split; [|eapply candidates_nonneg; eauto].
      unfold same_fin in Hs. destruct (round_dec false D s) as [| |ng m' E'] eqn:R; try discriminate.
      apply andb_prop in Hs as [H1 H2]. apply Z.eqb_eq in H1, H2. subst m' E'.
      rewrite round_dec_sign in R. destruct (round_dec false D s); cbn in R; try discriminate.
      now injection R as <- -> ->.
    + now apply IH in H.
Qed.

Lemma strip10_spec fuel : forall D s D' s', 0 <= D -> strip10 fuel D s = (D', s') ->
  exists j, 0 <= j /\ D = D' * 10 ^ j /\ s' = s + j /\ 0 <= D'.
Proof.
  induction fuel as [|f IH]; intros D s D' s' HD H; cbn [strip10] in H.
  - injection H as <- <-. exists 0. rewrite Z.pow_0_r. lia.
  - destruct ((D mod 10 =? 0) && negb (D =? 0)) eqn:E.
    + apply IH in H as [j [Hj [H1 [H2 H3]]]]; [|lia].
      exists (j + 1). rewrite Z.pow_add_r, Z.pow_1_r by lia.
      repeat split; lia.
    + injection H as <- <-. exists 0. rewrite Z.pow_0_r. lia.
Qed.

Lemma repr_mag_spec neg m E : fvalid (FFin neg m E) = true ->
  parse_dec neg (repr_mag m E) = Some (FFin neg m E) /\
  numtext (repr_mag m E) = true /\ starts_digit (repr_mag m E) = true.
Proof.
  intro Hv. assert (Hv' : fvalid (FFin false m E) = true) by exact Hv.
  unfold repr_mag. destruct (m =? 0) eqn:Em.
  - apply Z.eqb_eq in Em. subst m. apply fvalid_inv in Hv as [_ [HE Hc]].
    assert (0 < 2 ^ 52) by (apply pow2_pos; lia). assert (E = 0) by lia. subst E.
    split; [|split; reflexivity]. change (u "0.0") with ([48%N] ++ 46%N :: [48%N] ++ []).
    rewrite (parse_dec_frac neg [48%N] [48%N] [] 0); [|reflexivity|reflexivity|discriminate|now left].
    reflexivity.
  - destruct (exact_dec m E) as [X t] eqn:Ex.
    destruct (exact_dec_round m E X t Hv' Ex) as [Hr HX].
    destruct (shortest 800 m E X t _ 1) as [D s] eqn:Sh.
    destruct (shortest_spec _ _ _ _ _ _ _ _ _ HX Hr Sh) as [Hr2 HD].
    destruct (strip10 800 D s) as [D' s'] eqn:St.
    destruct (strip10_spec _ _ _ _ _ HD St) as [j [Hj [H1 [H2 HD']]]].
    assert (Hdig := digits_of_digits D' HD'). assert (Hne := digits_of_nonempty D').
    split; [|split; [now apply layout_numtext | now apply layout_starts]].
    rewrite layout_parse by assumption. f_equal.
    rewrite digits_of_val, H2, <- round_dec_shift, <- H1 by assumption.
    rewrite round_dec_sign, Hr2. reflexivity.
Qed.

(** C05: exact round trip of all doubles through their text form. *)
Theorem float_roundtrip f : fvalid f = true -> float_of_str (str_of_float f) = Ok f.
Proof.
  intro Hv. destruct f as [|neg|neg m E].
  - reflexivity.
  - destruct neg; reflexivity.
  - destruct (repr_mag_spec neg m E Hv) as [H1 [H2 H3]]. unfold str_of_float.
    apply float_of_str_plain; auto. now apply numtext_plain.
Qed.

Lemma str_of_float_numtext f : fvalid f = true -> numtext (str_of_float f) = true /\ str_of_float f <> [].
Proof.
  intro Hv. destruct f as [|neg|neg m E].
  - now split.
  - destruct neg; now split.
  - destruct (repr_mag_spec neg m E Hv) as [H1 [H2 H3]]. unfold str_of_float. split.
    + rewrite numtext_app, H2. destruct neg; reflexivity.
    + destruct neg; [discriminate|]. cbn [app]. destruct (repr_mag m E); [discriminate|congruence].
Qed.
