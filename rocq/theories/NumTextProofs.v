(** * The readers of numbers against the composition of their texts (C59). *)
From Coq Require Import String List NArith ZArith Bool Lia.
From Verif Require Import Ustr UstrProofs Res PyInt PyFloat PyNumProofs NumSpec NearProofs.
Import ListNotations.
Local Open Scope Z_scope.

(** ** Digits *)

Lemma says_digits s n : says s n -> forallb is_adigit s = true /\ n = digits_val s.
Proof.
  induction 1 as [|s n d _ [H1 H2] Hd]; [now split|].
  rewrite forallb_app, H1, digits_val_app. cbn [forallb length]. split.
  - unfold is_adigit. lia.
  - rewrite H2. unfold digits_val at 3. cbn [fold_left]. change (10 ^ Z.of_nat 1) with 10. lia.
Qed.

Lemma digits_say s : forallb is_adigit s = true -> says s (digits_val s).
Proof.
  induction s as [|c s IH] using rev_ind; intro H; [constructor|].
  rewrite forallb_app in H. apply andb_prop in H as [H1 H2]. cbn in H2. rewrite andb_true_r in H2.
  unfold is_adigit in H2. assert (Hc : c = (48 + (c - 48))%N) by lia.
  assert (Hv : digits_val (s ++ [c]) = 10 * digits_val s + Z.of_N (c - 48)).
  { rewrite digits_val_app. unfold digits_val at 2. cbn [fold_left length]. change (10 ^ Z.of_nat 1) with 10. lia. }
  rewrite Hv. rewrite Hc at 1. apply says_more; [now apply IH|lia].
Qed.

(** ** Blanks *)

Lemma blank_space w : blank w -> forallb c_space w = true.
Proof. induction 1 as [|c w Hc _ IH]; [reflexivity|]. cbn [forallb]. rewrite IH. unfold c_space. lia. Qed.

Lemma space_blank w : forallb c_space w = true -> blank w.
Proof.
  induction w as [|c w IH]; intro H; [constructor|]. cbn in H. apply andb_prop in H as [H1 H2].
  constructor; [unfold c_space in H1; lia|exact (IH H2)].
Qed.

Lemma c_lstrip_blank w r : forallb c_space w = true -> c_lstrip (w ++ r) = c_lstrip r.
Proof. induction w as [|c w IH]; intro H; [reflexivity|]. cbn in H. apply andb_prop in H as [H1 H2]. cbn. now rewrite H1, IH. Qed.

Lemma c_lstrip_split s : exists w, forallb c_space w = true /\ s = w ++ c_lstrip s.
Proof.
  induction s as [|c s [w [Hw He]]]; [now exists []|]. cbn [c_lstrip]. destruct (c_space c) eqn:E.
  - exists (c :: w). cbn. rewrite E, Hw. split; [reflexivity|]. now rewrite He at 1.
  - now exists [].
Qed.

Lemma forallb_rev_space w : forallb c_space (rev w) = forallb c_space w.
Proof. apply forallb_rev. Qed.

Lemma c_strip_split s : exists w w', blank w /\ blank w' /\ s = w ++ c_strip s ++ w'.
Proof.
  destruct (c_lstrip_split s) as [w [Hw He]].
  destruct (c_lstrip_split (rev (c_lstrip s))) as [w' [Hw' He']].
  exists w, (rev w'). split; [now apply space_blank|]. split; [apply space_blank; now rewrite forallb_rev_space|].
  unfold c_strip. rewrite He at 1. f_equal.
  rewrite <- (rev_involutive (c_lstrip s)) at 1. rewrite He' at 1. apply rev_app_distr.
Qed.

(** Stripping keeps everything between two characters that are not blanks. *)
Lemma c_lstrip_app p c r : c_space c = false -> c_lstrip (p ++ c :: r) = c_lstrip p ++ c :: r.
Proof.
  intro H. induction p as [|x p IH]; cbn; [now rewrite H|]. destruct (c_space x); [exact IH|reflexivity].
Qed.

Definition rstrip (q : ustr) : ustr := rev (c_lstrip (rev q)).

Lemma c_strip_app1 p c q : c_space c = false -> c_strip (p ++ c :: q) = c_lstrip p ++ c :: rstrip q.
Proof.
  intro H. unfold c_strip, rstrip. rewrite c_lstrip_app by exact H.
  rewrite rev_app_distr. cbn [rev]. rewrite <- app_assoc. cbn [app].
  rewrite c_lstrip_app by exact H. rewrite rev_app_distr. cbn [rev].
  rewrite <- app_assoc, rev_involutive. reflexivity.
Qed.

Lemma c_strip_app2 p a m b q : c_space a = false -> c_space b = false ->
  c_strip (p ++ a :: m ++ b :: q) = c_lstrip p ++ a :: m ++ b :: rstrip q.
Proof.
  intros Ha Hb. rewrite c_strip_app1 by exact Ha. f_equal. f_equal.
  unfold rstrip. rewrite rev_app_distr. cbn [rev]. rewrite <- app_assoc. cbn [app].
  rewrite c_lstrip_app by exact Hb. rewrite rev_app_distr. cbn [rev].
  rewrite rev_involutive, <- app_assoc. reflexivity.
Qed.

Lemma c_lstrip_all w : forallb c_space w = true -> c_lstrip w = [].
Proof. intro H. rewrite <- (app_nil_r w), c_lstrip_blank by exact H. reflexivity. Qed.

Definition no_blank (s : ustr) : Prop := forallb (fun c => negb (c_space c)) s = true.

Lemma c_strip_between w r w' : blank w -> blank w' -> no_blank r -> c_strip (w ++ r ++ w') = r.
Proof.
  intros Hw Hw' Hr. apply blank_space in Hw. apply blank_space in Hw'.
  destruct r as [|a r].
  - cbn [app]. unfold c_strip. rewrite (c_lstrip_blank w w'), (c_lstrip_all w') by assumption. reflexivity.
  - cbn in Hr. apply andb_prop in Hr as [Ha Hr]. apply negb_true_iff in Ha.
    assert (C : r = [] \/ exists l b, r = l ++ [b])
      by (destruct r as [|x r]; [now left|right; destruct (@exists_last _ (x :: r)) as (l & b & E); [discriminate|eauto]]).
    change (forallb (fun c => negb (c_space c)) r = true) in Hr.
    destruct C as [->|(l & b & ->)].
    + cbn [app]. rewrite c_strip_app1 by exact Ha. unfold rstrip.
      rewrite (c_lstrip_all w), (c_lstrip_all (rev w')) by (rewrite ?forallb_rev_space; assumption). reflexivity.
    + rewrite forallb_app in Hr. apply andb_prop in Hr as [_ Hb]. cbn in Hb. rewrite andb_true_r in Hb.
      apply negb_true_iff in Hb. cbn [app]. rewrite <- app_assoc. cbn [app].
      rewrite c_strip_app2 by assumption. unfold rstrip.
      rewrite (c_lstrip_all w), (c_lstrip_all (rev w')) by (rewrite ?forallb_rev_space; assumption). reflexivity.
Qed.

(** ** ASCII text without underscores *)

Definition ascii (s : ustr) : Prop := Forall (fun c => (c < 127)%N) s.
Definition no_low (s : ustr) : Prop := ~ In 95%N s.

Lemma ascii_same s : ascii s -> map to_ascii_cp s = s.
Proof.
  induction 1 as [|c s Hc _ IH]; [reflexivity|]. cbn [map]. rewrite IH. unfold to_ascii_cp.
  replace (c <? 127)%N with true by lia. reflexivity.
Qed.

Lemma ascii_app a b : ascii (a ++ b) <-> ascii a /\ ascii b.
Proof. apply Forall_app. Qed.

Lemma no_low_same s b : no_low s -> no_underscores b s = Some s.
Proof.
  revert b; induction s as [|c s IH]; intros b H; [reflexivity|]. cbn [no_underscores].
  replace (c =? 95)%N with false. 2:{ symmetry. apply N.eqb_neq. intro E. apply H. now left. }
  rewrite IH; [reflexivity|]. intro Hi. apply H. now right.
Qed.

Lemma plain_ascii_nl s : plain s = true -> ascii s /\ no_low s /\ no_blank s.
Proof.
  intro H. unfold plain in H. rewrite forallb_forall in H. repeat split.
  - apply Forall_forall. intros c Hc. specialize (H c Hc). unfold plain_cp in H. lia.
  - intro Hc. specialize (H _ Hc). discriminate.
  - apply forallb_forall. intros c Hc. specialize (H c Hc). unfold plain_cp in H. unfold c_space. lia.
Qed.

Lemma blank_ascii w : blank w -> ascii w.
Proof. intro H. eapply Forall_impl; [|exact H]. cbn. lia. Qed.

Lemma signed_plain sg neg : signed sg neg -> plain sg = true.
Proof. destruct 1; reflexivity. Qed.

Lemma take_sign_of sg neg r : signed sg neg ->
  match r with c :: _ => (c <> 43 /\ c <> 45)%N | [] => True end -> take_sign (sg ++ r) = (neg, r).
Proof.
  intros H Hr. destruct H; try reflexivity. cbn [app]. destruct r as [|c r]; [reflexivity|].
  unfold take_sign. replace (c =? 45)%N with false by lia. replace (c =? 43)%N with false by lia. reflexivity.
Qed.

Lemma take_sign_inv s neg r : take_sign s = (neg, r) -> exists sg, signed sg neg /\ s = sg ++ r.
Proof.
  destruct s as [|c s]; cbn; intro H; [injection H as <- <-; exists []; split; [constructor|reflexivity]|].
  destruct (N.eqb_spec c 45) as [->|]; [injection H as <- <-; exists [45%N]; split; [constructor|reflexivity]|].
  destruct (N.eqb_spec c 43) as [->|]; injection H as <- <-;
    [exists [43%N]|exists []]; split; try constructor; reflexivity.
Qed.

(** ** Powers of ten *)

Lemma power_plain x e : power x e -> plain x = true.
Proof.
  destruct 1 as [|c sg neg ds n Hc Hs Hn Hd]; [reflexivity|].
  apply says_digits in Hd as [Hd _]. cbn [plain forallb]. fold (plain (sg ++ ds)).
  rewrite plain_app, (signed_plain _ _ Hs), (adigit_plain _ Hd). destruct Hc as [-> | ->]; reflexivity.
Qed.

Lemma power_head x e : power x e -> match x with c :: _ => is_adigit c = false /\ (c =? 46)%N = false | [] => True end.
Proof. destruct 1 as [|c sg neg ds n [-> | ->] _ _ _]; [exact I|now split..]. Qed.

Lemma power_read x e : power x e -> parse_exp x = Some e.
Proof.
  destruct 1 as [|c sg neg ds n Hc Hs Hn Hd]; [reflexivity|].
  apply says_digits in Hd as [Hd ->]. unfold parse_exp.
  replace ((c =? 101) || (c =? 69))%N with true by lia.
  rewrite (take_sign_of sg neg ds Hs).
  2:{ destruct ds as [|c' ds]; [exact I|]. cbn in Hd. unfold is_adigit in Hd. lia. }
  replace (uempty ds) with false by (destruct ds; [congruence|reflexivity]). now rewrite Hd.
Qed.

Lemma read_power x e : parse_exp x = Some e -> power x e.
Proof.
  destruct x as [|c x]; cbn; intro H; [injection H as <-; constructor|].
  destruct ((c =? 101) || (c =? 69))%N eqn:E; [|discriminate].
  destruct (take_sign x) as [neg d] eqn:Et. destruct (take_sign_inv _ _ _ Et) as [sg [Hs ->]].
  destruct (negb (uempty d)) eqn:Eu; [|discriminate]. cbn [andb] in H.
  destruct (forallb is_adigit d) eqn:Ed; [|discriminate].
  injection H as <-. apply some_power; [lia|exact Hs| |now apply digits_say].
  intros ->. discriminate.
Qed.

(** ** Numbers without sign *)

Lemma span_split p s : forall a b, span p s = (a, b) -> s = a ++ b.
Proof.
  induction s as [|c s IH]; cbn [span]; intros a b H; [injection H as <- <-; reflexivity|].
  destruct (p c); [|injection H as <- <-; reflexivity].
  destruct (span p s) as [a' b']. injection H as <- <-. cbn. f_equal. now apply IH.
Qed.

Inductive unsigned : ustr -> Z -> Z -> Prop :=
| u_whole ds D x e : ds <> [] -> says ds D -> power x e -> unsigned (ds ++ x) D e
| u_frac d1 d2 D x e : d1 ++ d2 <> [] -> says (d1 ++ d2) D -> power x e ->
    unsigned (d1 ++ 46%N :: d2 ++ x) D (e - Z.of_nat (length d2)).

Lemma uempty_false (s : ustr) : s <> [] -> uempty s = false.
Proof. destruct s; [congruence|reflexivity]. Qed.

Lemma unsigned_read r D t neg : unsigned r D t -> parse_dec neg r = Some (round_dec neg D t).
Proof.
  destruct 1 as [ds D x e Hn Hs Hp|d1 d2 D x e Hn Hs Hp].
  - apply says_digits in Hs as [Hd ->]. unfold parse_dec. assert (Hh := power_head _ _ Hp).
    rewrite span_digits; [|exact Hd|destruct x; [exact I|tauto]].
    replace (match x with | [] => ([], []) | c :: r => if (c =? 46)%N then span is_adigit r else ([], x) end)
      with (@nil N, x) by (destruct x as [|c x]; [reflexivity|destruct Hh as [_ ->]; reflexivity]).
    rewrite app_nil_r, uempty_false by exact Hn. rewrite (power_read _ _ Hp). cbn [length]. now rewrite Z.sub_0_r.
  - apply says_digits in Hs as [Hd ->]. rewrite forallb_app in Hd. apply andb_prop in Hd as [H1 H2].
    assert (Hh := power_head _ _ Hp). unfold parse_dec. rewrite span_digits; [|exact H1|reflexivity].
    cbn [N.eqb Pos.eqb]. rewrite span_digits; [|exact H2|destruct x; [exact I|tauto]].
    rewrite uempty_false by exact Hn. rewrite (power_read _ _ Hp). reflexivity.
Qed.

Lemma read_unsigned r neg f : parse_dec neg r = Some f -> exists D t, unsigned r D t /\ f = round_dec neg D t.
Proof.
  unfold parse_dec. destruct (span is_adigit r) as [d1 r1] eqn:E1.
  assert (H1 := span_adigit _ _ _ E1). apply span_split in E1. subst r.
  destruct r1 as [|c r0].
  - rewrite app_nil_r. destruct (uempty d1) eqn:Eu; [discriminate|]. cbn. intro H. injection H as <-.
    exists (digits_val d1), 0. split; [|reflexivity].
    rewrite <- (app_nil_r d1) at 1. apply u_whole; [intros ->; discriminate|now apply digits_say|constructor].
  - destruct (N.eqb_spec c 46) as [->|Hc].
    + destruct (span is_adigit r0) as [d2 r2] eqn:E2. assert (H2 := span_adigit _ _ _ E2). apply span_split in E2. subst r0.
      destruct (uempty (d1 ++ d2)) eqn:Eu; [discriminate|]. destruct (parse_exp r2) as [e|] eqn:Ep; [|discriminate].
      intro H. injection H as <-. exists (digits_val (d1 ++ d2)), (e - Z.of_nat (length d2)). split; [|reflexivity].
      apply u_frac; [intro He; rewrite He in Eu; discriminate| |now apply read_power].
      apply digits_say. now rewrite forallb_app, H1, H2.
    + rewrite app_nil_r. destruct (uempty d1) eqn:Eu; [discriminate|].
      destruct (parse_exp (c :: r0)) as [e|] eqn:Ep; [|discriminate]. intro H. injection H as <-.
      exists (digits_val d1), e. split; [|cbn [length]; now rewrite Z.sub_0_r].
      apply u_whole; [intros ->; discriminate|now apply digits_say|now apply read_power].
Qed.

Lemma unsigned_plain r D t : unsigned r D t -> plain r = true.
Proof.
  destruct 1 as [ds D x e _ Hs Hp|d1 d2 D x e _ Hs Hp]; apply says_digits in Hs as [Hd _];
    assert (Hx := power_plain _ _ Hp).
  - now rewrite plain_app, (adigit_plain _ Hd), Hx.
  - rewrite forallb_app in Hd. apply andb_prop in Hd as [H1 H2]. apply adigit_plain in H1, H2.
    rewrite plain_app, H1. change (46%N :: d2 ++ x) with ([46%N] ++ d2 ++ x). now rewrite !plain_app, H2, Hx.
Qed.

Lemma unsigned_head r D t : unsigned r D t -> exists c r', r = c :: r' /\ (c = 46 \/ 48 <= c <= 57)%N.
Proof.
  destruct 1 as [ds D x e Hn Hs _|d1 d2 D x e Hn Hs _]; apply says_digits in Hs as [Hd _].
  - destruct ds as [|c ds]; [congruence|]. exists c, (ds ++ x). split; [reflexivity|].
    cbn in Hd. unfold is_adigit in Hd. lia.
  - destruct d1 as [|c d1]; [exists 46%N, (d2 ++ x); split; [reflexivity|lia]|].
    exists c, (d1 ++ 46%N :: d2 ++ x). split; [reflexivity|]. cbn in Hd. unfold is_adigit in Hd. lia.
Qed.

Lemma head_not_special c r : (c = 46 \/ 48 <= c <= 57)%N ->
  ueqb (lower (c :: r)) (u "inf") = false /\ ueqb (lower (c :: r)) (u "infinity") = false /\
  ueqb (lower (c :: r)) (u "nan") = false.
Proof.
  intro H. cbn [lower map]. unfold lower_cp at 1 3 5.
  replace ((65 <=? c) && (c <=? 90))%N with false by lia.
  replace (c =? 8490)%N with false by lia.
  repeat split; cbn; match goal with |- (?a =? ?b)%N && _ = false => replace (a =? b)%N with false by lia end; reflexivity.
Qed.

Lemma decimal_text_unsigned s neg D t : decimal_text s neg D t <->
  exists w sg r w', blank w /\ signed sg neg /\ unsigned r D t /\ blank w' /\ s = w ++ (sg ++ r) ++ w'.
Proof.
  split.
  - destruct 1 as [w sg neg ds D x e w' Hw Hs Hn Hd Hp Hw'|w sg neg d1 d2 D x e w' Hw Hs Hn Hd Hp Hw'].
    + exists w, sg, (ds ++ x), w'. repeat split; try assumption; [now apply u_whole|]. now rewrite !app_assoc.
    + exists w, sg, (d1 ++ 46%N :: d2 ++ x), w'. repeat split; try assumption; [now apply u_frac|].
      repeat rewrite <- app_assoc. cbn [app]. now rewrite <- app_assoc.
  - intros (w & sg & r & w' & Hw & Hs & Hr & Hw' & ->). destruct Hr as [ds D x e Hn Hd Hp|d1 d2 D x e Hn Hd Hp].
    + rewrite <- !app_assoc. now apply a_whole.
    + repeat rewrite <- app_assoc. cbn [app]. rewrite <- app_assoc. now apply a_fraction.
Qed.

(** ** [float(text)] *)

Theorem decimal_read s neg D t : decimal_text s neg D t -> float_of_str s = Ok (round_dec neg D t).
Proof.
  rewrite decimal_text_unsigned. intros (w & sg & r & w' & Hw & Hs & Hr & Hw' & ->).
  assert (Hp : plain (sg ++ r) = true) by (now rewrite plain_app, (signed_plain _ _ Hs), (unsigned_plain _ _ _ Hr)).
  destruct (plain_ascii_nl _ Hp) as (H1 & H2 & H3). unfold float_of_str.
  rewrite ascii_same. 2:{ apply ascii_app. split; [now apply blank_ascii|]. apply ascii_app. split; [exact H1|now apply blank_ascii]. }
  rewrite c_strip_between by assumption. rewrite no_low_same by exact H2.
  destruct (unsigned_head _ _ _ Hr) as (c & r' & Er & Hc).
  rewrite (take_sign_of sg neg r Hs) by (rewrite Er; lia).
  assert (Hn := head_not_special c r' Hc). rewrite <- Er in Hn. destruct Hn as [-> [-> ->]]. cbn [orb].
  now rewrite (unsigned_read _ _ _ neg Hr).
Qed.

Lemma spells_lower s w : forallb (fun c => (97 <=? c) && (c <=? 122))%N (u w) = true ->
  spells s w -> lower s = u w.
Proof.
  unfold spells. intros Hl H. revert Hl. induction H as [|a b s l Hab _ IH]; intro Hl; [reflexivity|].
  cbn in Hl. apply andb_prop in Hl as [Hb Hl]. cbn [lower map]. fold (lower s). rewrite (IH Hl). f_equal.
  unfold lower_cp. destruct Hab as [->|[Hr ->]].
  - replace ((65 <=? b) && (b <=? 90))%N with false by lia. replace (b =? 8490)%N with false by lia. reflexivity.
  - replace ((65 <=? b - 32) && (b - 32 <=? 90))%N with true by lia. lia.
Qed.

Lemma lower_spells s w : forallb (fun c => (97 <=? c) && (c <=? 122))%N (u w) = true -> ascii s ->
  lower s = u w -> spells s w.
Proof.
  unfold spells. intros Hl Ha. revert Hl. generalize (u w). induction Ha as [|a s Hc _ IH]; intros l Hl H.
  - cbn in H. subst l. constructor.
  - cbn [lower map] in H. fold (lower s) in H. subst l. cbn in Hl. apply andb_prop in Hl as [Hb Hl].
    apply Forall2_cons; [|now apply IH]. unfold same_letter, lower_cp in *.
    destruct ((65 <=? a) && (a <=? 90))%N eqn:E1; [right; lia|].
    destruct (N.eqb_spec a 8490); lia.
Qed.

Lemma spells_plain r w : forallb (fun c => (97 <=? c) && (c <=? 122))%N (u w) = true -> spells r w -> plain r = true.
Proof.
  unfold spells. intros Hl H. revert Hl. induction H as [|a b s l Hab _ IH]; intro Hl; [reflexivity|].
  cbn in Hl. apply andb_prop in Hl as [Hb Hl]. cbn. fold (plain s). rewrite (IH Hl), andb_true_r.
  unfold plain_cp, same_letter in *. lia.
Qed.

Lemma spells_head r w c : u w = c :: tl (u w) -> (97 <= c <= 122)%N -> spells r w ->
  match r with c :: _ => (c <> 43 /\ c <> 45)%N | [] => True end.
Proof.
  unfold spells. intros -> Hc H. inversion H as [|a b s l Hab _]; subst. unfold same_letter in Hab. lia.
Qed.

Theorem special_read s f : special_text s f -> float_of_str s = Ok f.
Proof.
  assert (K : forall w sg neg r w', blank w -> signed sg neg -> blank w' -> plain r = true ->
    match r with c :: _ => (c <> 43 /\ c <> 45)%N | [] => True end ->
    float_of_str (w ++ sg ++ r ++ w') =
      let l := lower r in
      if ueqb l (u "inf") || ueqb l (u "infinity") then Ok (FInf neg)
      else if ueqb l (u "nan") then Ok FNan
      else match parse_dec neg r with Some f => Ok f | None => Err EValueError end).
  { intros w sg neg r w' Hw Hs Hw' Hr Hh.
    assert (Hp : plain (sg ++ r) = true) by (now rewrite plain_app, (signed_plain _ _ Hs), Hr).
    destruct (plain_ascii_nl _ Hp) as (H1 & H2 & H3). rewrite (app_assoc sg r w'). unfold float_of_str.
    rewrite ascii_same. 2:{ apply ascii_app. split; [now apply blank_ascii|]. apply ascii_app. split; [exact H1|now apply blank_ascii]. }
    rewrite c_strip_between by assumption. rewrite no_low_same by exact H2.
    now rewrite (take_sign_of sg neg r Hs Hh). }
  destruct 1 as [w sg neg r w' Hw Hs [Hi|Hi] Hw'|w sg neg r w' Hw Hs Hi Hw'].
  - rewrite (K w sg neg r w'); try assumption; [|now apply (spells_plain r "inf")|now apply (spells_head r "inf" 105)].
    cbv zeta. rewrite (spells_lower r "inf") by (reflexivity || assumption). now rewrite ueqb_refl.
  - rewrite (K w sg neg r w'); try assumption; [|now apply (spells_plain r "infinity")|now apply (spells_head r "infinity" 105)].
    cbv zeta. rewrite (spells_lower r "infinity") by (reflexivity || assumption). now rewrite (ueqb_refl (u "infinity")), orb_true_r.
  - rewrite (K w sg neg r w'); try assumption; [|now apply (spells_plain r "nan")|now apply (spells_head r "nan" 110)].
    cbv zeta. rewrite (spells_lower r "nan") by (reflexivity || assumption). reflexivity.
Qed.

(** Nothing else is read, as far as ASCII text without underscores goes. *)
Theorem float_read_inv s f : ascii s -> no_low s -> float_of_str s = Ok f ->
  (exists neg D t, decimal_text s neg D t /\ f = round_dec neg D t) \/ special_text s f.
Proof.
  intros Ha Hl. unfold float_of_str. rewrite ascii_same by exact Ha.
  destruct (c_strip_split s) as (w & w' & Hw & Hw' & Es).
  assert (Hl' : no_low (c_strip s)).
  { intro Hi. apply Hl. rewrite Es. apply in_or_app. right. apply in_or_app. now left. }
  assert (Ha' : ascii (c_strip s)).
  { rewrite Es in Ha. apply ascii_app in Ha as [_ Ha]. now apply ascii_app in Ha as [Ha _]. }
  rewrite no_low_same by exact Hl'. destruct (take_sign (c_strip s)) as [neg r] eqn:Et.
  destruct (take_sign_inv _ _ _ Et) as (sg & Hs & Er). rewrite Er in Es, Ha'.
  apply ascii_app in Ha' as [_ Hr]. rewrite <- app_assoc in Es.
  destruct (ueqb (lower r) (u "inf") || ueqb (lower r) (u "infinity")) eqn:E1.
  { intro H. injection H as <-. right. rewrite Es. apply an_infinity; try assumption.
    apply orb_prop in E1 as [E1|E1]; apply ueqb_eq in E1; [left|right]; now apply lower_spells. }
  destruct (ueqb (lower r) (u "nan")) eqn:E2.
  { intro H. injection H as <-. right. rewrite Es. apply (not_a_number w sg neg r w'); try assumption.
    apply ueqb_eq in E2. now apply lower_spells. }
  destruct (parse_dec neg r) as [g|] eqn:Ep; [|discriminate]. intro H. injection H as <-.
  destruct (read_unsigned _ _ _ Ep) as (D & t & Hu & ->). left. exists neg, D, t. split; [|reflexivity].
  apply decimal_text_unsigned. exists w, sg, r, w'. repeat split; try assumption. now rewrite <- app_assoc.
Qed.

(** ** [int(text)] *)

Theorem integer_read s neg n k : integer_text s neg n k ->
  int_of_str s = if (4300 <? N.of_nat k)%N then Err EValueError else Ok (if neg then - n else n).
Proof.
  destruct 1 as [w sg neg ds n w' Hw Hs Hn Hd Hw']. apply says_digits in Hd as [Hd ->].
  assert (Hp : plain (sg ++ ds) = true) by (now rewrite plain_app, (signed_plain _ _ Hs), (adigit_plain _ Hd)).
  destruct (plain_ascii_nl _ Hp) as (H1 & H2 & H3). rewrite (app_assoc sg ds w'). unfold int_of_str.
  rewrite ascii_same. 2:{ apply ascii_app. split; [now apply blank_ascii|]. apply ascii_app. split; [exact H1|now apply blank_ascii]. }
  rewrite c_strip_between by assumption. rewrite (take_sign_of sg neg ds Hs).
  2:{ destruct ds as [|c' ds]; [exact I|]. cbn in Hd. unfold is_adigit in Hd. lia. }
  rewrite no_low_same. 2:{ intro Hi. apply H2. apply in_or_app. now right. }
  rewrite uempty_false, Hd by exact Hn. reflexivity.
Qed.

Theorem int_read_inv s z : ascii s -> no_low s -> int_of_str s = Ok z ->
  exists neg n k, integer_text s neg n k /\ (N.of_nat k <= 4300)%N /\ z = if neg then - n else n.
Proof.
  intros Ha Hl. unfold int_of_str. rewrite ascii_same by exact Ha.
  destruct (c_strip_split s) as (w & w' & Hw & Hw' & Es).
  assert (Hl' : no_low (c_strip s)).
  { intro Hi. apply Hl. rewrite Es. apply in_or_app. right. apply in_or_app. now left. }
  destruct (take_sign (c_strip s)) as [neg d] eqn:Et.
  destruct (take_sign_inv _ _ _ Et) as (sg & Hs & Er). rewrite Er in Es, Hl'. rewrite <- app_assoc in Es.
  rewrite no_low_same. 2:{ intro Hi. apply Hl'. apply in_or_app. now right. }
  destruct (negb (uempty d)) eqn:Eu; [|discriminate]. cbn [andb].
  destruct (forallb is_adigit d) eqn:Ed; [|discriminate]. unfold int_max_str_digits.
  destruct (4300 <? N.of_nat (length d))%N eqn:Ek; [discriminate|]. intro H. injection H as <-.
  exists neg, (digits_val d), (length d). split; [|split; [now apply N.ltb_ge in Ek|reflexivity]].
  rewrite Es. apply an_integer; try assumption; [intros ->; discriminate|now apply digits_say].
Qed.

(** ** Underscores *)

Lemma nu_drop a b q : is_adigit a = true -> is_adigit b = true ->
  forall p prev, no_underscores prev (p ++ a :: 95%N :: b :: q) = no_underscores prev (p ++ a :: b :: q).
Proof.
  intros Ha Hb.
  assert (Ha' : (a =? 95)%N = false) by (unfold is_adigit in Ha; lia).
  assert (Hb' : (b =? 95)%N = false) by (unfold is_adigit in Hb; lia).
  induction p as [|c p IH]; intro prev.
  - cbn [app no_underscores]. rewrite Ha', Hb', Ha, Hb. cbn [andb N.eqb Pos.eqb]. reflexivity.
  - cbn [app no_underscores]. destruct (c =? 95)%N; [|now rewrite IH].
    destruct p as [|d p]; cbn [app] in *; [|now rewrite IH]. rewrite Ha.
    destruct prev; [|reflexivity]. exact (IH false).
Qed.

Lemma digit_ascii a : is_adigit a = true -> to_ascii_cp a = a.
Proof. intro H. unfold to_ascii_cp. unfold is_adigit in H. replace (a <? 127)%N with true by lia. reflexivity. Qed.

Lemma digit_nospace a : is_adigit a = true -> c_space a = false.
Proof. unfold is_adigit, c_space. lia. Qed.

Theorem underscore_between p a b q : is_adigit a = true -> is_adigit b = true ->
  float_of_str (p ++ a :: 95%N :: b :: q) = float_of_str (p ++ a :: b :: q) /\
  int_of_str (p ++ a :: 95%N :: b :: q) = int_of_str (p ++ a :: b :: q).
Proof.
  intros Ha Hb. assert (Sa := digit_nospace a Ha). assert (Sb := digit_nospace b Hb).
  assert (E1 : c_strip (map to_ascii_cp (p ++ a :: 95%N :: b :: q)) =
               c_lstrip (map to_ascii_cp p) ++ a :: 95%N :: b :: rstrip (map to_ascii_cp q)).
  { rewrite map_app. cbn [map]. rewrite (digit_ascii a Ha), (digit_ascii b Hb). change (to_ascii_cp 95) with 95%N.
    exact (c_strip_app2 (map to_ascii_cp p) a [95%N] b (map to_ascii_cp q) Sa Sb). }
  assert (E2 : c_strip (map to_ascii_cp (p ++ a :: b :: q)) =
               c_lstrip (map to_ascii_cp p) ++ a :: b :: rstrip (map to_ascii_cp q)).
  { rewrite map_app. cbn [map]. rewrite (digit_ascii a Ha), (digit_ascii b Hb).
    exact (c_strip_app2 (map to_ascii_cp p) a [] b (map to_ascii_cp q) Sa Sb). }
  unfold float_of_str, int_of_str. rewrite E1, E2. split.
  - now rewrite nu_drop by assumption.
  - set (P := c_lstrip (map to_ascii_cp p)). set (Q := rstrip (map to_ascii_cp q)). destruct P as [|c P]; cbn [app take_sign].
    + replace (a =? 45)%N with false by (unfold is_adigit in Ha; lia).
      replace (a =? 43)%N with false by (unfold is_adigit in Ha; lia).
      rewrite (nu_drop a b Q Ha Hb [] false : no_underscores false (a :: 95%N :: b :: Q) = no_underscores false (a :: b :: Q)).
      reflexivity.
    + destruct (c =? 45)%N; [now rewrite nu_drop by assumption|].
      destruct (c =? 43)%N; [now rewrite nu_drop by assumption|].
      rewrite (nu_drop a b Q Ha Hb (c :: P) false
        : no_underscores false (c :: P ++ a :: 95%N :: b :: Q) = no_underscores false (c :: P ++ a :: b :: Q)).
      reflexivity.
Qed.

Definition ends_digit (prev : bool) (p : ustr) : bool := match rev p with c :: _ => is_adigit c | [] => prev end.
Definition starts_adigit (q : ustr) : bool := match q with c :: _ => is_adigit c | [] => false end.

Lemma ends_digit_cons prev c p : ends_digit prev (c :: p) = ends_digit (is_adigit c) p.
Proof. unfold ends_digit. cbn [rev]. destruct (rev p); reflexivity. Qed.

Lemma nu_misplaced q : forall p prev,
  ends_digit prev p = false \/ starts_adigit q = false -> no_underscores prev (p ++ 95%N :: q) = None.
Proof.
  induction p as [|c p IH]; intros prev H.
  - cbn [app no_underscores N.eqb Pos.eqb]. destruct q as [|d q]; [reflexivity|].
    cbn in H. destruct prev, (is_adigit d); cbn in *; intuition discriminate.
  - rewrite ends_digit_cons in H. cbn [app no_underscores]. destruct (N.eqb_spec c 95) as [->|Hc].
    + assert (Hp := IH false H). destruct (p ++ 95%N :: q) as [|d r]; [reflexivity|].
      destruct (prev && is_adigit d); [exact Hp|reflexivity].
    + now rewrite (IH (is_adigit c) H).
Qed.

Lemma lstrip_ends p : ends_digit false p = false -> ends_digit false (c_lstrip p) = false.
Proof.
  intro H. destruct (c_lstrip_split p) as [w [_ E]]. unfold ends_digit in *. rewrite E, rev_app_distr in H.
  destruct (rev (c_lstrip p)) as [|c r]; [reflexivity|exact H].
Qed.

Lemma rstrip_starts q : starts_adigit q = false -> starts_adigit (rstrip q) = false.
Proof.
  intro H. unfold rstrip. destruct (c_lstrip_split (rev q)) as [w [_ E]].
  assert (E' : q = rev (c_lstrip (rev q)) ++ rev w) by (rewrite <- rev_app_distr, <- E; now rewrite rev_involutive).
  destruct (rev (c_lstrip (rev q))) as [|c r]; [reflexivity|]. rewrite E' in H. exact H.
Qed.

Theorem underscore_elsewhere p q : ascii (p ++ q) ->
  ends_digit false p = false \/ starts_adigit q = false ->
  float_of_str (p ++ 95%N :: q) = Err EValueError /\ int_of_str (p ++ 95%N :: q) = Err EValueError.
Proof.
  intros Ha H. apply ascii_app in Ha as [Hp Hq].
  assert (E : c_strip (map to_ascii_cp (p ++ 95%N :: q)) = c_lstrip p ++ 95%N :: rstrip q).
  { rewrite map_app. cbn [map]. rewrite !ascii_same by assumption. change (to_ascii_cp 95) with 95%N.
    apply c_strip_app1. reflexivity. }
  assert (H' : ends_digit false (c_lstrip p) = false \/ starts_adigit (rstrip q) = false).
  { destruct H as [H|H]; [left; now apply lstrip_ends|right; now apply rstrip_starts]. }
  unfold float_of_str, int_of_str. rewrite E. split; [now rewrite nu_misplaced|].
  destruct (c_lstrip p) as [|c r]; cbn [app take_sign].
  - cbn [N.eqb Pos.eqb]. now rewrite (nu_misplaced (rstrip q) [] false H' : no_underscores false (95%N :: rstrip q) = None).
  - rewrite ends_digit_cons in H'. destruct (N.eqb_spec c 45) as [->|]; [now rewrite nu_misplaced|].
    destruct (N.eqb_spec c 43) as [->|]; [now rewrite nu_misplaced|].
    rewrite <- ends_digit_cons with (prev := false) in H'.
    now rewrite (nu_misplaced (rstrip q) (c :: r) false H' : no_underscores false (c :: r ++ 95%N :: rstrip q) = None).
Qed.

(** ** Other scripts *)

(** A character outside ASCII counts as the ASCII digit of its value, as a blank,
    or spoils the number. *)
Theorem other_digit p c d q : (127 <= c)%N -> is_space c = false -> dec_digit c = Some d ->
  (d <= 9)%N ->
  float_of_str (p ++ c :: q) = float_of_str (p ++ (48 + d)%N :: q) /\
  int_of_str (p ++ c :: q) = int_of_str (p ++ (48 + d)%N :: q).
Proof.
  intros Hc Hs Hd Hb. assert (E : map to_ascii_cp (p ++ c :: q) = map to_ascii_cp (p ++ (48 + d)%N :: q)).
  { rewrite !map_app. cbn [map]. f_equal. f_equal. unfold to_ascii_cp.
    replace (c <? 127)%N with false by lia. replace (48 + d <? 127)%N with true by lia. now rewrite Hs, Hd. }
  unfold float_of_str, int_of_str. now rewrite E.
Qed.

Theorem other_space p c q : (127 <= c)%N -> is_space c = true ->
  float_of_str (p ++ c :: q) = float_of_str (p ++ 32%N :: q) /\
  int_of_str (p ++ c :: q) = int_of_str (p ++ 32%N :: q).
Proof.
  intros Hc Hs. assert (E : map to_ascii_cp (p ++ c :: q) = map to_ascii_cp (p ++ 32%N :: q)).
  { rewrite !map_app. cbn [map]. f_equal. f_equal. unfold to_ascii_cp at 1.
    replace (c <? 127)%N with false by lia. now rewrite Hs. }
  unfold float_of_str, int_of_str. now rewrite E.
Qed.

Lemma nu_keeps c : forall s prev r, c <> 95%N -> In c s -> no_underscores prev s = Some r -> In c r.
Proof.
  induction s as [|x s IH]; intros prev r Hc Hi H; [destruct Hi|]. cbn [no_underscores] in H.
  destruct (N.eqb_spec x 95) as [->|Hx].
  - destruct Hi as [Hi|Hi]; [congruence|]. destruct s as [|y s]; [discriminate|].
    destruct (prev && is_adigit y); [|discriminate]. exact (IH false r Hc Hi H).
  - destruct (no_underscores (is_adigit x) s) as [r'|] eqn:E; [|discriminate]. injection H as <-.
    destruct Hi as [->|Hi]; [now left|right]. exact (IH _ _ Hc Hi E).
Qed.

Lemma digits_chars s : forallb is_adigit s = true -> ~ In 63%N s.
Proof. intros H Hi. rewrite forallb_forall in H. specialize (H _ Hi). discriminate. Qed.

Lemma power_chars x e : power x e -> ~ In 63%N x.
Proof.
  destruct 1 as [|c sg neg ds n Hc Hs Hn Hd]; intro Hi; [destruct Hi|].
  apply says_digits in Hd as [Hd _]. destruct Hi as [Hi|Hi]; [subst c; destruct Hc; discriminate|].
  apply in_app_or in Hi as [Hi|Hi]; [|now apply (digits_chars ds)].
  destruct Hs; cbn in Hi; intuition discriminate.
Qed.

Lemma unsigned_chars r D t : unsigned r D t -> ~ In 63%N r.
Proof.
  destruct 1 as [ds D x e _ Hs Hp|d1 d2 D x e _ Hs Hp]; apply says_digits in Hs as [Hd _];
    intro Hi; apply in_app_or in Hi as [Hi|Hi].
  - now apply (digits_chars ds).
  - now apply (power_chars x e).
  - rewrite forallb_app in Hd. apply andb_prop in Hd as [Hd _]. now apply (digits_chars d1).
  - destruct Hi as [Hi|Hi]; [discriminate|]. rewrite forallb_app in Hd. apply andb_prop in Hd as [_ Hd].
    apply in_app_or in Hi as [Hi|Hi]; [now apply (digits_chars d2)|now apply (power_chars x e)].
Qed.

Lemma take_sign_keeps s neg r : In 63%N s -> take_sign s = (neg, r) -> In 63%N r.
Proof.
  intros Hi H. destruct (take_sign_inv _ _ _ H) as (sg & Hs & ->). apply in_app_or in Hi as [Hi|Hi]; [|exact Hi].
  destruct Hs; cbn in Hi; intuition discriminate.
Qed.

Lemma lower_keeps r w : In 63%N r -> ~ In 63%N w -> ueqb (lower r) w = false.
Proof.
  intros Hi Hw. destruct (ueqb (lower r) w) eqn:E; [|reflexivity]. apply ueqb_eq in E. destruct Hw. rewrite <- E.
  unfold lower. change 63%N with (lower_cp 63). now apply in_map.
Qed.

Theorem other_character p c q : (127 <= c)%N -> is_space c = false -> dec_digit c = None ->
  float_of_str (p ++ c :: q) = Err EValueError /\ int_of_str (p ++ c :: q) = Err EValueError.
Proof.
  intros Hc Hs Hd.
  assert (E : In 63%N (c_strip (map to_ascii_cp (p ++ c :: q)))).
  { rewrite map_app. cbn [map]. unfold to_ascii_cp at 2. replace (c <? 127)%N with false by lia. rewrite Hs, Hd.
    rewrite c_strip_app1 by reflexivity. apply in_or_app. right. now left. }
  unfold float_of_str, int_of_str. set (s := c_strip _) in *. split.
  - destruct (no_underscores false s) as [s'|] eqn:En; [|reflexivity].
    assert (Hi := nu_keeps 63 s false s' ltac:(discriminate) E En).
    destruct (take_sign s') as [neg r] eqn:Et. assert (Hr := take_sign_keeps _ _ _ Hi Et).
    rewrite !lower_keeps by (exact Hr || (cbn; intuition discriminate)). cbn [orb].
    destruct (parse_dec neg r) as [f|] eqn:Ep; [|reflexivity].
    destruct (read_unsigned _ _ _ Ep) as (D & t & Hu & _). destruct (unsigned_chars _ _ _ Hu Hr).
  - destruct (take_sign s) as [neg r] eqn:Et. assert (Hr := take_sign_keeps _ _ _ E Et).
    destruct (no_underscores false r) as [d|] eqn:En; [|reflexivity].
    assert (Hi := nu_keeps 63 r false d ltac:(discriminate) Hr En).
    destruct (forallb is_adigit d) eqn:Ed; [destruct (digits_chars _ Ed Hi)|]. now rewrite andb_false_r.
Qed.
