(** * The parser's terms are those of XML 1.0. *)
From Coq Require Import String List NArith ZArith Bool Lia.
From Verif Require Import Ustr UstrProofs Elem Xml XmlDoc XmlTerms XmlProofs XmlMarkup XmlMarkupProofs.
Import ListNotations.
Local Open Scope N_scope.

Lemma in_range_iff c a b : in_range c (a, b) = true <-> a <= c <= b.
Proof. unfold in_range. cbn [fst snd]. rewrite andb_true_iff, !N.leb_le. tauto. Qed.

Ltac ranges := repeat (cbn [existsb]; rewrite ?orb_true_iff, ?in_range_iff, ?N.eqb_eq).

Lemma char_term c : xml_char c = true <-> character c.
Proof. unfold xml_char, character. ranges. lia. Qed.

Lemma space_term c : xml_space c = true <-> white c.
Proof. unfold xml_space, white. ranges. tauto. Qed.

Lemma value_term c : in_value c (attr_norm c).
Proof.
  unfold in_value, attr_norm. destruct (xml_space c) eqn:E.
  - left. split; [now apply space_term|reflexivity].
  - right. split; [|reflexivity]. intro H. apply space_term in H. congruence.
Qed.

Lemma line_term s : one_line_end s (line_ends s).
Proof.
  remember (length s) as n eqn:Hn. assert (L : (length s <= n)%nat) by lia. clear Hn. revert s L.
  induction n as [|n IH]; intros s L; destruct s as [|c s]; cbn [length] in L; try lia; try constructor.
  cbn [line_ends]. destruct (c =? 13) eqn:E.
  - apply N.eqb_eq in E. subst c. destruct s as [|d s].
    + apply ends_return; [discriminate|]. constructor.
    + cbn [after]. destruct (10 =? d) eqn:D.
      * apply N.eqb_eq in D. subst d. change (line_ends (10 :: s)) with (10 :: line_ends s). apply ends_both, IH. cbn [length] in L. lia.
      * apply ends_return; [cbn [hd]; apply N.eqb_neq in D; congruence|]. apply IH. lia.
  - apply ends_other; [now apply N.eqb_neq|]. apply IH. lia.
Qed.

Lemma line_unique s t : one_line_end s t -> t = line_ends s.
Proof.
  induction 1 as [|s t H IH|s t N H IH|c s t N H IH]; cbn [line_ends]; [reflexivity| | |].
  - change (13 =? 13) with true. cbn [after N.eqb Pos.eqb]. cbn [line_ends N.eqb Pos.eqb]. now rewrite IH.
  - change (13 =? 13) with true. cbv iota. destruct s as [|d s]; [now rewrite IH|]. cbn [after]. cbn [hd] in N.
    destruct (10 =? d) eqn:D; [apply N.eqb_eq in D; congruence|]. now rewrite IH.
  - apply N.eqb_neq in N. rewrite N. now rewrite IH.
Qed.

Lemma hex_term c d : hex_value c = Some d <-> digit c d.
Proof.
  unfold hex_value, digit. destruct (in_range c (48, 57)) eqn:E1; [|destruct (in_range c (97, 102)) eqn:E2; [|destruct (in_range c (65, 70)) eqn:E3]].
  - apply in_range_iff in E1. split; [intro H; injection H as <-; lia|]. intros H. f_equal. lia.
  - apply in_range_iff in E2. split; [intro H; injection H as <-; lia|]. intros H. f_equal. assert (~ (48 <= c <= 57)) by (rewrite <- in_range_iff; congruence). lia.
  - apply in_range_iff in E3. split; [intro H; injection H as <-; lia|]. intros H. f_equal. lia.
  - assert (~ (48 <= c <= 57)) by (rewrite <- in_range_iff; congruence). assert (~ (97 <= c <= 102)) by (rewrite <- in_range_iff; congruence).
    assert (~ (65 <= c <= 70)) by (rewrite <- in_range_iff; congruence). split; [discriminate|]. lia.
Qed.

Lemma numeral_snoc base c s : forall acc, numeral base acc (s ++ [c]) =
  match numeral base acc s with
  | Some n => match hex_value c with Some d => if d <? base then Some (n * base + d) else None | None => None end
  | None => None
  end.
Proof.
  induction s as [|x s IH]; intro acc; cbn [app numeral].
  - destruct (hex_value c) as [d|]; [|reflexivity]. destruct (d <? base); reflexivity.
  - destruct (hex_value x) as [d|]; [|reflexivity]. destruct (d <? base); [apply IH|reflexivity].
Qed.

Lemma digits_term base s n : (s <> [] /\ numeral base 0 s = Some n) <-> digits base s n.
Proof.
  split.
  - revert n. induction s as [|c s IH] using rev_ind; intros n [Hs H]; [congruence|]. rewrite numeral_snoc in H.
    destruct (numeral base 0 s) as [k|] eqn:E; [|discriminate]. destruct (hex_value c) as [d|] eqn:D; [|discriminate].
    destruct (d <? base) eqn:B; [|discriminate]. injection H as <-. apply N.ltb_lt in B. apply hex_term in D.
    destruct s as [|x s].
    + cbn [numeral] in E. injection E as <-. rewrite N.mul_0_l, N.add_0_l. now constructor.
    + apply digits_more; auto. apply IH. split; [discriminate|reflexivity].
  - induction 1 as [c d D B|s n c d H [Hs IH] D B].
    + split; [discriminate|]. cbn [numeral]. apply hex_term in D. rewrite D. apply N.ltb_lt in B. now rewrite B, N.mul_0_l, N.add_0_l.
    + split; [destruct s; discriminate|]. rewrite numeral_snoc, IH. apply hex_term in D. rewrite D. apply N.ltb_lt in B. now rewrite B.
Qed.

Lemma char_ref_term base s n : char_ref base s = Some n <-> digits base s n /\ character n.
Proof.
  rewrite <- digits_term, <- char_term. unfold char_ref. destruct s as [|c s]; [split; [discriminate|intros [[H _] _]; congruence]|].
  destruct (numeral base 0 (c :: s)) as [k|]; [|split; [discriminate|intros [[_ H] _]; discriminate]].
  destruct (xml_char k) eqn:E; split.
  - intro H. injection H as <-. repeat split; [discriminate|assumption].
  - intros [[_ H] _]. exact H.
  - discriminate.
  - intros [[_ H] K]. injection H as ->. congruence.
Qed.

Lemma reference_term b n : reference b = Some n <-> refers b n.
Proof.
  split.
  - unfold reference.
    destruct (ueqb b (u "amp")) eqn:E1; [apply ueqb_eq in E1; subst; intro H; injection H as <-; constructor|].
    destruct (ueqb b (u "lt")) eqn:E2; [apply ueqb_eq in E2; subst; intro H; injection H as <-; constructor|].
    destruct (ueqb b (u "gt")) eqn:E3; [apply ueqb_eq in E3; subst; intro H; injection H as <-; constructor|].
    destruct (ueqb b (u "quot")) eqn:E4; [apply ueqb_eq in E4; subst; intro H; injection H as <-; constructor|].
    destruct (ueqb b (u "apos")) eqn:E5; [apply ueqb_eq in E5; subst; intro H; injection H as <-; constructor|].
    destruct (after (u "#x") b) as [d|] eqn:Ex.
    + intro H. apply char_ref_term in H as [H C]. apply after_app in Ex. subst b. now constructor.
    + destruct (after (u "#") b) as [d|] eqn:Ed; [|discriminate]. intro H. apply char_ref_term in H as [H C]. apply after_app in Ed. subst b. now constructor.
  - destruct 1 as [| | | | |s n D C|s n D C]; try reflexivity.
    + assert (E : char_ref 10 s = Some n) by (apply char_ref_term; auto). unfold reference. change (u "#" ++ s) with (35 :: s).
      destruct s as [|c s]; [discriminate E|]. destruct (N.eq_dec c 120) as [->|Hc].
      * apply digits_term in D as [_ D]. cbn [numeral] in D. discriminate D.
      * assert (A : after (u "#x") (35 :: c :: s) = None).
        { destruct (after (u "#x") (35 :: c :: s)) as [r|] eqn:Er; [|reflexivity]. apply after_app in Er. injection Er as Er _. congruence. }
        rewrite A. exact E.
    + assert (E : char_ref 16 s = Some n) by (apply char_ref_term; auto). unfold reference. change (u "#x" ++ s) with (35 :: 120 :: s).
      change (u "amp") with [97; 109; 112]. change (u "lt") with [108; 116]. change (u "gt") with [103; 116]. change (u "quot") with [113; 117; 111; 116]. change (u "apos") with [97; 112; 111; 115].
      change (u "#x") with [35; 120]. cbn [ueqb after N.eqb Pos.eqb andb]. exact E.
Qed.

Lemma cons_same {A} (x y : A) l l' : x = y -> l = l' -> x :: l = y :: l'.
Proof. congruence. Qed.

Lemma utf8_term n : utf8_name (Some n) = true <-> called n (u "utf-8").
Proof.
  unfold utf8_name, called. rewrite ueqb_eq.
  change (u "UTF-8") with [85; 84; 70; 45; 56]. change (u "utf-8") with [117; 116; 102; 45; 56].
  assert (L : forall c d e, (d = 117 /\ e = 85) \/ (d = 116 /\ e = 84) \/ (d = 102 /\ e = 70) \/ (d = 45 /\ e = 45) \/ (d = 56 /\ e = 56) ->
    ((if in_range c (97, 122) then c - 32 else c) = e <-> same_letter c d)).
  { intros c d e H. unfold same_letter. destruct (in_range c (97, 122)) eqn:E.
    - apply in_range_iff in E. lia.
    - assert (~ (97 <= c <= 122)) by (rewrite <- in_range_iff; congruence). lia. }
  split.
  - intro H. destruct n as [|c1 [|c2 [|c3 [|c4 [|c5 [|c6 n]]]]]]; try discriminate H. cbn [map] in H.
    injection H as H1 H2 H3 H4 H5.
    repeat (apply Forall2_cons; [eapply L; [|eassumption]; lia|]). constructor.
  - intro H. inversion_clear H as [|c1 ? ? ? H1 T1]. inversion_clear T1 as [|c2 ? ? ? H2 T2]. inversion_clear T2 as [|c3 ? ? ? H3 T3].
    inversion_clear T3 as [|c4 ? ? ? H4 T4]. inversion_clear T4 as [|c5 ? ? ? H5 T5]. inversion_clear T5. cbn [map].
    repeat (apply cons_same; [eapply L; [|eassumption]; lia|]). reflexivity.
Qed.

Lemma version_term v : version_ok v = true <-> version v.
Proof.
  unfold version_ok, version. split.
  - destruct (after (u "1.") v) as [[|d ds]|] eqn:E; try discriminate. intro H. apply after_app in E. exists d, ds. split; [exact E|].
    apply Forall_forall. intros c Hc. rewrite forallb_forall in H. specialize (H c Hc). now apply in_range_iff in H.
  - intros (d & ds & -> & H). rewrite app_after. apply forallb_forall. intros c Hc. rewrite Forall_forall in H. now apply in_range_iff, H.
Qed.

Lemma encoding_term v : encoding_ok v = true <-> encoding_name v.
Proof.
  unfold encoding_ok, encoding_name. cbv zeta. destruct v as [|c r]; [split; [discriminate|intros (c & r & H & _); discriminate]|].
  rewrite andb_true_iff, forallb_forall. split.
  - intros [H1 H2]. exists c, r. split; [reflexivity|]. split; [revert H1; unfold letter; ranges; lia|].
    apply Forall_forall. intros x Hx. specialize (H2 x Hx). revert H2. unfold letter. ranges. lia.
  - intros (c' & r' & E & H1 & H2). injection E as <- <-. split; [revert H1; unfold letter; ranges; lia|].
    intros x Hx. rewrite Forall_forall in H2. specialize (H2 x Hx). revert H2. unfold letter. ranges. lia.
Qed.

Lemma start_term c : (start_char c || (c =? 58)) = true <-> name_start c.
Proof. unfold start_char, name_start, letter. ranges. lia. Qed.

Lemma name_term c : any_name_char c = true <-> in_name c.
Proof.
  unfold any_name_char, name_char, in_name. rewrite <- start_term. ranges. intuition lia.
Qed.

Lemma called_small n : called n (u "xml") <-> map (fun c => if in_range c (65, 90) then c + 32 else c) n = u "xml".
Proof.
  unfold called. change (u "xml") with [120; 109; 108].
  assert (L : forall c d, d = 120 \/ d = 109 \/ d = 108 -> ((if in_range c (65, 90) then c + 32 else c) = d <-> same_letter c d)).
  { intros c d H. unfold same_letter. destruct (in_range c (65, 90)) eqn:E.
    - apply in_range_iff in E. lia.
    - assert (~ (65 <= c <= 90)) by (rewrite <- in_range_iff; congruence). lia. }
  split.
  - intro H. inversion_clear H as [|c1 ? ? ? H1 T1]. inversion_clear T1 as [|c2 ? ? ? H2 T2]. inversion_clear T2 as [|c3 ? ? ? H3 T3].
    inversion_clear T3. cbn [map]. repeat (apply cons_same; [eapply L; [|eassumption]; lia|]). reflexivity.
  - intro H. destruct n as [|c1 [|c2 [|c3 [|c4 n]]]]; try discriminate H. cbn [map] in H. injection H as H1 H2 H3.
    repeat (apply Forall2_cons; [eapply L; [|eassumption]; lia|]). constructor.
Qed.

Lemma no_colon c : c <> 58 -> (name_char c = true <-> in_name c).
Proof.
  intro H. rewrite <- name_term. unfold any_name_char. apply N.eqb_neq in H. rewrite H, orb_false_r. tauto.
Qed.

Lemma name_not_colon c : name_char c = true -> c <> 58.
Proof. intros H ->. vm_compute in H. discriminate H. Qed.

Lemma target_term n : pi_target n = true <-> target n.
Proof.
  unfold pi_target, target, ncname. rewrite andb_true_iff, negb_true_iff.
  assert (X : ueqb (map (fun c => if in_range c (65, 90) then c + 32 else c) n) (u "xml") = false <-> ~ called n (u "xml")).
  { rewrite called_small, <- ueqb_eq. destruct (ueqb (map (fun c => if in_range c (65, 90) then c + 32 else c) n) (u "xml")); intuition congruence. }
  rewrite X. clear X. split.
  - intros [H1 H2]. destruct n as [|c r]; [discriminate H1|]. exists c, r. apply andb_true_iff in H1 as [Hc Hr]. rewrite forallb_forall in Hr.
    split; [reflexivity|]. split; [apply start_term; now rewrite Hc|]. split; [|split; [|exact H2]].
    + apply Forall_forall. intros x Hx. specialize (Hr x Hx). apply no_colon; [now apply name_not_colon|exact Hr].
    + intros [->|Hi]; [vm_compute in Hc; discriminate Hc|]. exact (name_not_colon _ (Hr _ Hi) eq_refl).
  - intros (c & r & -> & Hc & Hr & Hn & H2). split; [|exact H2]. apply andb_true_iff. split.
    + apply start_term in Hc. apply orb_true_iff in Hc as [Hc|Hc]; [exact Hc|]. apply N.eqb_eq in Hc. exfalso. apply Hn. now left.
    + apply forallb_forall. intros x Hx. rewrite Forall_forall in Hr. apply no_colon; [|now apply Hr]. intros ->. apply Hn. now right.
Qed.

Lemma has_term s : cdata_end s = true <-> has (u "]]>") s.
Proof.
  unfold has. split.
  - induction s as [|c s IH]; cbn [cdata_end]; [discriminate|]. destruct (after (u "]]>") (c :: s)) as [r|] eqn:E.
    + intros _. apply after_app in E. exists [], r. exact E.
    + intro H. destruct (IH H) as (a & b & ->). exists (c :: a), b. reflexivity.
  - intros (a & b & ->). induction a as [|c a IH]; cbn [app].
    + change (u "]]>") with [93; 93; 62]. reflexivity.
    + cbn [cdata_end]. destruct (after (u "]]>") _); [reflexivity|exact IH].
Qed.
