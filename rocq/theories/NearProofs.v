(** * [round_dec] gives the nearest double (C59). *)
From Coq Require Import String List NArith ZArith Bool Lia.
From Verif Require Import Ustr Res PyInt PyFloat PyNumProofs NumSpec.
Import ListNotations.
Local Open Scope Z_scope.

Lemma round_upper n1 d : 0 <= n1 -> 0 < d ->
  let E := Z.max 0 (Z.log2 (n1 / d) - 52) in n1 < 2 ^ 53 * (2 ^ E * d).
Proof.
  intros Hn Hd E.
  assert (Hdm := Z.div_mod n1 d ltac:(lia)). assert (Hmb := Z.mod_pos_bound n1 d Hd).
  assert (Hq : 0 <= n1 / d) by (apply Z.div_pos; lia).
  assert (A53 : 2 ^ (E + 53) = 2 ^ 53 * 2 ^ E) by (rewrite Z.add_comm; apply Z.pow_add_r; lia).
  rewrite Z.mul_assoc, <- A53.
  assert (n1 / d < 2 ^ (E + 53)); [|nia].
  destruct (Z.eq_dec (n1 / d) 0) as [Z0|Z0]; [rewrite Z0; apply pow2_pos; lia|].
  apply Z.log2_lt_pow2; lia.
Qed.

(** Two integers equally far from [n] in units of [w], one of them the rounding. *)
Lemma rne_tie_other n w k : 0 < w -> Z.abs (n - rne n w * w) = Z.abs (n - k * w) ->
  k = rne n w \/ (Z.even (rne n w) = true /\ Z.even k = false).
Proof.
  intros Hw He. destruct (Z.eq_dec k (rne n w)) as [->|Hk]; [now left|right].
  assert (Hh := rne_half n w Hw). assert (Ht := rne_tie_even n w Hw). set (r := rne n w) in *.
  assert (Hs : 2 * n = (r + k) * w) by nia.
  assert (H1 : Z.abs ((r - k) * w) <= w).
  { replace ((r - k) * w) with ((n - k * w) - (n - r * w)) by ring. lia. }
  rewrite Z.abs_mul, (Z.abs_eq w) in H1 by lia.
  assert (Ha : Z.abs (r - k) = 1) by nia.
  assert (H2 : 2 * Z.abs (n - r * w) = w).
  { assert (r - k = 1 \/ r - k = -1) as [Hc|Hc] by lia;
      assert (2 * (n - r * w) = (k - r) * w) by lia; nia. }
  split; [exact (Ht H2)|].
  specialize (Ht H2). apply Z.even_spec in Ht as [a Ha']. rewrite <- Z.negb_odd.
  replace (Z.odd k) with true; [reflexivity|]. symmetry. apply Z.odd_spec.
  assert (r - k = 1 \/ r - k = -1) as [Hc|Hc] by lia; [exists (a - 1)|exists a]; lia.
Qed.

(** The same value has one significand and exponent. *)
Lemma double_unique a b a' b' : is_double a b -> is_double a' b' -> a * 2 ^ b = a' * 2 ^ b' -> (a, b) = (a', b').
Proof.
  assert (P53 : 2 ^ 53 = 2 * 2 ^ 52) by reflexivity.
  assert (K : forall a b a' b', is_double a b -> is_double a' b' -> a * 2 ^ b = a' * 2 ^ b' -> b < b' -> False).
  { clear a b a' b'. intros a b a' b' (H1 & H2 & H3) (H1' & H2' & H3') He Hl.
    assert (C : 2 ^ b' = 2 ^ (b' - b) * 2 ^ b) by (rewrite <- Z.pow_add_r by lia; f_equal; lia).
    assert (G := pow2_pos b ltac:(lia)).
    assert (F : 2 ^ 1 <= 2 ^ (b' - b)) by (apply Z.pow_le_mono_r; lia). change (2 ^ 1) with 2 in F.
    rewrite C, Z.mul_assoc in He. apply Z.mul_reg_r in He; [|lia].
    destruct H3' as [H3'|H3']; nia. }
  intros Ha Hb He. destruct (Z.lt_trichotomy b b') as [Hl|[->|Hl]].
  - destruct (K _ _ _ _ Ha Hb He Hl).
  - assert (G := pow2_pos b' ltac:(destruct Hb; lia)). apply Z.mul_reg_r in He; [|lia]. now subst.
  - destruct (K _ _ _ _ Hb Ha (eq_sym He) Hl).
Qed.

Section Core.
Context (n1 d : Z) (Hn : 0 <= n1) (Hd : 0 < d).

Let E := Z.max 0 (Z.log2 (n1 / d) - 52).
Let w := d * 2 ^ E.
Let m := rne n1 w.

Definition gap (m E : Z) : Z := Z.abs (n1 - m * 2 ^ E * d).

Lemma w_pos : 0 < w.
Proof. unfold w. assert (0 < 2 ^ E) by (apply pow2_pos; unfold E; lia). nia. Qed.

Lemma gap_raw : gap m E = Z.abs (n1 - m * w).
Proof. unfold gap, w. f_equal. ring. Qed.

Lemma core_nearest m' E' : is_double m' E' ->
  gap m E <= gap m' E' /\
  (gap m E = gap m' E' ->
     m' * 2 ^ E' = m * 2 ^ E \/ (Z.even m = true /\ Z.even m' = false /\ E' = E)).
Proof.
  intros (Hm' & HE' & Hc'). assert (Hw := w_pos). rewrite gap_raw.
  assert (HE : 0 <= E) by (unfold E; lia).
  destruct (Z_le_gt_dec E E') as [Hle|Hgt].
  - set (k := m' * 2 ^ (E' - E)).
    assert (Hk : gap m' E' = Z.abs (n1 - k * w)).
    { unfold gap, k, w. f_equal. replace (2 ^ E') with (2 ^ (E' - E) * 2 ^ E); [ring|].
      rewrite <- Z.pow_add_r by lia. f_equal. lia. }
    rewrite Hk. split; [exact (rne_nearest n1 w k Hw)|]. intro He.
    destruct (rne_tie_other n1 w k Hw He) as [Hs|[H1 H2]].
    + left. fold m in Hs. unfold k in Hs.
      replace E' with ((E' - E) + E) by lia. rewrite Z.pow_add_r by lia.
      rewrite Z.mul_assoc. now rewrite Hs.
    + right. split; [exact H1|]. destruct (Z.eq_dec E' E) as [Heq|Hne].
      * unfold k in H2. rewrite Heq, Z.sub_diag, Z.pow_0_r, Z.mul_1_r in H2. now split.
      * exfalso. unfold k in H2. rewrite Z.even_mul, Z.even_pow in H2 by lia.
        rewrite orb_true_r in H2. discriminate.
  - (* smaller exponents reach only below 2^(E+52), itself a multiple of 2^E *)
    destruct (round_core n1 d Hn Hd) as (_ & _ & Hlow); fold E in Hlow. destruct Hlow as [H0|Hlow]; [lia|].
    assert (A : 2 ^ (E + 52) = 2 ^ 52 * 2 ^ E) by (rewrite Z.add_comm; apply Z.pow_add_r; lia).
    assert (Hlow' : 2 ^ 52 * w <= n1) by (rewrite A in Hlow; unfold w; lia).
    assert (B : m' * 2 ^ E' * d < 2 ^ 52 * w).
    { assert (C : 2 ^ E = 2 * 2 ^ (E - 1)) by (rewrite <- Z.pow_succ_r by lia; f_equal; lia).
      assert (F : 2 ^ E' <= 2 ^ (E - 1)) by (apply Z.pow_le_mono_r; lia).
      assert (G := pow2_pos E' ltac:(lia)).
      assert (P53 : 2 ^ 53 = 2 * 2 ^ 52) by reflexivity.
      unfold w. rewrite C. assert (m' * 2 ^ E' < 2 ^ 53 * 2 ^ (E - 1)) by nia.
      replace (2 ^ 52 * (d * (2 * 2 ^ (E - 1)))) with (2 ^ 53 * 2 ^ (E - 1) * d) by (rewrite P53; ring).
      nia. }
    assert (Hr := rne_nearest n1 w (2 ^ 52) Hw). fold m in Hr.
    unfold gap. rewrite (Z.abs_eq (n1 - m' * 2 ^ E' * d)) by lia.
    rewrite (Z.abs_eq (n1 - 2 ^ 52 * w)) in Hr by lia. split; [lia|]. intro. lia.
Qed.

Lemma core_double : E <= 2045 -> m < 2 ^ 53 -> is_double m E.
Proof.
  intros HE Hm. destruct (round_core n1 d Hn Hd) as (H1 & H2 & _). fold E in H1, H2. fold w in H1, H2. fold m in H1, H2.
  repeat split; try lia; unfold E; lia.
Qed.

Definition limit : Prop := (2 ^ 54 - 1) * 2 ^ 2044 * d <= n1.

Lemma core_limit : limit <-> (2045 < E \/ E = 2045 /\ m = 2 ^ 53).
Proof.
  assert (Hup := round_upper n1 d Hn Hd). cbv zeta in Hup. fold E in Hup.
  assert (HE : 0 <= E) by (unfold E; lia).
  destruct (round_core n1 d Hn Hd) as (H1 & H2 & H3). fold E in H1, H2, H3. fold w in H1, H2. fold m in H1, H2.
  assert (P53 : 2 ^ 53 = 2 * 2 ^ 52) by reflexivity. assert (P54 : 2 ^ 54 = 4 * 2 ^ 52) by reflexivity.
  assert (P52 := pow2_pos 52 ltac:(lia)).
  assert (Hpow : 0 < 2 ^ 2044) by (apply pow2_pos; lia).
  assert (Small : E < 2045 -> 2 ^ E <= 2 ^ 2044) by (intro; apply Z.pow_le_mono_r; lia).
  assert (Same : E = 2045 -> 2 ^ E = 2 * 2 ^ 2044)
    by (intro He; rewrite He, <- Z.pow_succ_r by lia; reflexivity).
  assert (Large : 2045 < E -> 2 ^ 54 * 2 ^ 2044 <= 2 ^ (E + 52))
    by (intro; rewrite <- Z.pow_add_r by lia; apply Z.pow_le_mono_r; lia).
  assert (Hhalf := rne_half n1 w w_pos). assert (Htie := rne_tie_even n1 w w_pos). fold m in Hhalf, Htie.
  assert (Hw' : w = d * 2 ^ E) by reflexivity.
  assert (Podd : Z.even (2 ^ 53 - 1) = false) by reflexivity.
  unfold limit. clearbody m w E. generalize dependent (2 ^ 2044). intros p Hpow Small Same Large.
  set (h := p * d) in *. rewrite <- Z.mul_assoc. fold h.
  assert (Hh : 0 < h) by (unfold h; nia).
  assert (Q1 : E < 2045 -> 2 ^ E * d <= h) by (intro A; specialize (Small A); unfold h; nia).
  assert (Q2 : E = 2045 -> w = 2 * h) by (intro A; rewrite Hw', (Same A); unfold h; ring).
  assert (Q3 : 2045 < E -> 2 ^ 54 * h <= n1).
  { intro A. specialize (Large A). destruct H3 as [H3|H3]; [lia|].
    assert (2 ^ 54 * p * d <= n1) by nia. unfold h. lia. }
  clearbody h. clear Small Same Large Hw' H2 H3.
  generalize dependent (2 ^ E * d). intros e Hup Q1.
  destruct (Z.lt_trichotomy E 2045) as [Hl|[He|Hg]].
  - specialize (Q1 Hl). split; [|lia]. intro Hlim. exfalso. lia.
  - specialize (Q2 He). split.
    + intro Hlim. right. split; [exact He|].
      destruct (Z.eq_dec m (2 ^ 53)) as [|Hne]; [assumption|exfalso].
      destruct (Z.eq_dec m (2 ^ 53 - 1)) as [Hm1|Hne1].
      * assert (Heq : 2 * Z.abs (n1 - m * w) = w) by (rewrite Hm1, Q2 in *; lia).
        specialize (Htie Heq). rewrite Hm1, Podd in Htie. discriminate.
      * assert (m <= 2 ^ 53 - 2) by lia. rewrite Q2 in *.
        assert (m * (2 * h) <= (2 ^ 53 - 2) * (2 * h)) by (apply Z.mul_le_mono_nonneg_r; lia). lia.
    + intros [|[_ Hm]]; [lia|]. rewrite Hm, Q2 in Hhalf. lia.
  - specialize (Q3 Hg). split; [now left|]. intros _. lia.
Qed.
End Core.

(** The outcome of the rounding algorithm for the quotient [n/d]. *)
Lemma ratio_nearest neg n d : 0 <= n -> 0 < d ->
  match round_ratio neg n d with
  | FFin neg' m E =>
      neg' = neg /\ is_double m E /\ ~ limit (n * two1074) d /\
      (forall m' E', is_double m' E' ->
         gap (n * two1074) d m E <= gap (n * two1074) d m' E' /\
         (gap (n * two1074) d m E = gap (n * two1074) d m' E' ->
            (m', E') = (m, E) \/ (Z.even m = true /\ Z.even m' = false)))
  | FInf neg' => neg' = neg /\ limit (n * two1074) d
  | FNan => False
  end.
Proof.
  intros Hn Hd. assert (H2 := two1074_pos).
  assert (Hn1 : 0 <= n * two1074) by nia.
  unfold round_ratio. set (n1 := n * two1074) in *.
  assert (Hc := core_nearest n1 d Hn1 Hd). assert (Hu := core_double n1 d Hn1 Hd).
  assert (Hl := core_limit n1 d Hn1 Hd).
  destruct (round_core n1 d Hn1 Hd) as (H1 & H3 & _).
  set (E := Z.max 0 _) in *. set (m := rne _ _) in *.
  assert (HE : 0 <= E) by (unfold E; lia).
  assert (P53 : 2 ^ 53 = 2 * 2 ^ 52) by reflexivity. assert (P52 := pow2_pos 52 ltac:(lia)).
  destruct (m =? 2 ^ 53) eqn:Em.
  - apply Z.eqb_eq in Em. destruct (E + 1 <=? 2045) eqn:El.
    + apply Z.leb_le in El. split; [reflexivity|].
      assert (Hdbl : is_double (2 ^ 52) (E + 1)) by (repeat split; lia).
      assert (Hsame : 2 ^ 52 * 2 ^ (E + 1) = m * 2 ^ E).
      { rewrite Em, P53, Z.pow_add_r by lia. change (2 ^ 1) with 2. ring. }
      assert (Hg : gap n1 d (2 ^ 52) (E + 1) = gap n1 d m E) by (unfold gap; now rewrite Hsame).
      split; [exact Hdbl|]. split; [rewrite Hl; lia|]. intros m' E' Hm'.
      rewrite Hg. destruct (Hc m' E' Hm') as [Ha Hb]. split; [exact Ha|]. intro He.
      destruct (Hb He) as [Hs|(_ & Ho & _)]; [left|right].
      * apply double_unique; [assumption..|congruence].
      * split; [reflexivity|exact Ho].
    + split; [reflexivity|]. apply Hl. apply Z.leb_gt in El. lia.
  - apply Z.eqb_neq in Em. destruct (E <=? 2045) eqn:El.
    + apply Z.leb_le in El. split; [reflexivity|].
      assert (Hdbl := Hu El ltac:(lia)). split; [exact Hdbl|]. split; [rewrite Hl; lia|].
      intros m' E' Hm'. destruct (Hc m' E' Hm') as [Ha Hb]. split; [exact Ha|]. intro He.
      destruct (Hb He) as [Hs|(Hx & Ho & _)]; [left|right].
      * apply double_unique; assumption.
      * now split.
    + split; [reflexivity|]. apply Hl. apply Z.leb_gt in El. lia.
Qed.

Lemma tens_pos t : 0 < tens t.
Proof. unfold tens. apply pow10_pos. lia. Qed.

Lemma round_dec_ratio neg D t : round_dec neg D t = round_ratio neg (D * tens t) (tens (- t)).
Proof.
  unfold round_dec, tens. destruct (0 <=? t) eqn:E.
  - apply Z.leb_le in E. now rewrite (Z.max_r 0 t), (Z.max_l 0 (- t)) by lia.
  - apply Z.leb_gt in E. rewrite (Z.max_l 0 t), (Z.max_r 0 (- t)) by lia. now rewrite Z.pow_0_r, Z.mul_1_r.
Qed.

Lemma limit_too_large D t : limit (D * tens t * 2 ^ 1074) (tens (- t)) <-> too_large D t.
Proof.
  unfold limit, too_large.
  assert (G : 2 ^ 2044 = 2 ^ 970 * 2 ^ 1074) by (rewrite <- Z.pow_add_r by lia; reflexivity).
  rewrite G. assert (P := pow2_pos 1074 ltac:(lia)).
  set (p := 2 ^ 1074) in *. set (q := 2 ^ 970) in *. set (h := 2 ^ 54 - 1). clearbody p q h.
  replace (h * (q * p) * tens (- t)) with ((h * q * tens (- t)) * p) by ring.
  symmetry. apply Z.mul_le_mono_pos_r. exact P.
Qed.

Lemma two1074_eq : two1074 = 2 ^ 1074.
Proof. Transparent two1074. reflexivity. Opaque two1074. Qed.

Theorem round_dec_nearest neg D t : 0 <= D -> nearest neg D t (round_dec neg D t).
Proof.
  intro HD. rewrite round_dec_ratio.
  assert (Ht := tens_pos t). assert (Ht' := tens_pos (- t)).
  assert (H := ratio_nearest neg (D * tens t) (tens (- t)) ltac:(nia) Ht').
  rewrite two1074_eq in H.
  destruct (round_ratio neg (D * tens t) (tens (- t))) as [|neg'|neg' m E].
  - destruct H.
  - destruct H as [-> H]. apply beyond. exact (proj1 (limit_too_large D t) H).
  - destruct H as (-> & H1 & H2 & H3). apply near; [exact H1| |].
    + intro H. exact (H2 (proj2 (limit_too_large D t) H)).
    + intros m' E' Hm'. destruct (H3 m' E' Hm') as [Ha Hb]. split; [exact Ha|].
      intro He. destruct (Hb He) as [Hs|[Hs _]]; auto.
Qed.

(** There is one nearest double. *)
Theorem nearest_unique neg D t f g : 0 <= D -> nearest neg D t f -> nearest neg D t g -> f = g.
Proof.
  intro HD. assert (K : forall f, nearest neg D t f -> f = round_dec neg D t).
  2:{ intros Hf Hg. now rewrite (K f Hf), (K g Hg). }
  clear f g. intros f Hf. rewrite round_dec_ratio.
  assert (Ht := tens_pos t). assert (Ht' := tens_pos (- t)).
  assert (H := ratio_nearest neg (D * tens t) (tens (- t)) ltac:(nia) Ht').
  rewrite two1074_eq in H.
  destruct (round_ratio neg (D * tens t) (tens (- t))) as [|neg'|neg' m E].
  - destruct H.
  - destruct H as [-> H]. assert (Hx := proj1 (limit_too_large D t) H).
    destruct Hf as [m E _ Hn _|_]; [destruct (Hn Hx)|reflexivity].
  - destruct H as (-> & H1 & H2 & H3). destruct Hf as [m' E' Hm' _ Hb|Hl].
    + destruct (Hb m E H1) as [Hle He]. destruct (H3 m' E' Hm') as [Hle' He'].
      change (distance D t m' E' <= distance D t m E) in Hle.
      change (distance D t m E <= distance D t m' E') in Hle'.
      assert (Heq : distance D t m E = distance D t m' E') by lia.
      destruct (He' Heq) as [Hs|[_ Ho]]; [injection Hs as -> ->; reflexivity|].
      destruct (He (eq_sym Heq)) as [Hs|Hev]; [injection Hs as -> ->; reflexivity|]. congruence.
    + destruct (H2 (proj2 (limit_too_large D t) Hl)).
Qed.
