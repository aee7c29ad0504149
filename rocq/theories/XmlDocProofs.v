(** * UTF-8 round trip. *)
From Coq Require Import String List NArith ZArith Bool Lia Znumtheory ZifyN ZifyNat.
From Verif Require Import Ustr Res Elem Xml XmlSpec XmlDoc.
Import ListNotations.
Local Open Scope N_scope.

Lemma cont_ok x : x < 64 -> cont (128 + x) = Some x.
Proof.
  intro H. unfold cont. replace (128 <=? 128 + x) with true by (symmetry; apply N.leb_le; lia).
  replace (128 + x <? 192) with true by (symmetry; apply N.ltb_lt; lia). cbn [andb]. f_equal. lia.
Qed.

Lemma some_eq {A} (x y : A) : Some x = Some y -> x = y.
Proof. congruence. Qed.

Lemma utf8_next_ok c b r : utf8_char c = Some b -> utf8_next (b ++ r) = Some (c, r).
Proof.
  intro H. assert (H0 := H). unfold utf8_char in H.
  destruct (N.ltb_spec c 128) as [L1|L1].
  { apply some_eq in H; subst b. cbn [app utf8_next]. unfold lead. destruct (N.ltb_spec c 128); [|lia]. cbn [conts]. now rewrite H0. }
  destruct (N.ltb_spec c 2048) as [L2|L2].
  { apply some_eq in H; subst b. cbn [app utf8_next]. assert (c / 64 < 32) by (apply N.div_lt_upper_bound; lia). assert (c mod 64 < 64) by (apply N.mod_lt; lia).
    unfold lead. destruct (N.ltb_spec (192 + c / 64) 128); [lia|]. destruct (N.ltb_spec (192 + c / 64) 192); [lia|]. destruct (N.ltb_spec (192 + c / 64) 224); [|lia].
    cbn [conts]. rewrite cont_ok by assumption. replace ((192 + c / 64 - 192) * 64 + c mod 64) with c by (rewrite (N.div_mod c 64) at 1 by lia; lia). now rewrite H0. }
  destruct ((55296 <=? c) && (c <=? 57343)); [discriminate|].
  assert (E1 : c mod 64 < 64) by (apply N.mod_lt; lia). assert (E2 : c / 64 mod 64 < 64) by (apply N.mod_lt; lia). assert (E3 : c / 4096 mod 64 < 64) by (apply N.mod_lt; lia).
  assert (D1 : c = 64 * (c / 64) + c mod 64) by (apply N.div_mod; lia).
  assert (D2 : c / 64 = 64 * (c / 4096) + c / 64 mod 64). { replace 4096 with (64 * 64) by reflexivity. rewrite <- N.div_div by lia. apply N.div_mod; lia. }
  assert (D3 : c / 4096 = 64 * (c / 262144) + c / 4096 mod 64). { replace 262144 with (4096 * 64) by reflexivity. rewrite <- N.div_div by lia. apply N.div_mod; lia. }
  destruct (N.ltb_spec c 65536) as [L3|L3].
  { apply some_eq in H; subst b. cbn [app utf8_next]. assert (c / 4096 < 16) by (apply N.div_lt_upper_bound; lia).
    unfold lead. destruct (N.ltb_spec (224 + c / 4096) 128); [lia|]. destruct (N.ltb_spec (224 + c / 4096) 192); [lia|]. destruct (N.ltb_spec (224 + c / 4096) 224); [lia|].
    destruct (N.ltb_spec (224 + c / 4096) 240); [|lia]. cbn [conts]. rewrite !cont_ok by assumption.
    replace (((224 + c / 4096 - 224) * 64 + c / 64 mod 64) * 64 + c mod 64) with c by lia. now rewrite H0. }
  destruct (N.ltb_spec c 1114112) as [L4|L4]; [|discriminate].
  apply some_eq in H; subst b. cbn [app utf8_next]. assert (c / 262144 < 8) by (apply N.div_lt_upper_bound; lia).
  unfold lead. destruct (N.ltb_spec (240 + c / 262144) 128); [lia|]. destruct (N.ltb_spec (240 + c / 262144) 192); [lia|]. destruct (N.ltb_spec (240 + c / 262144) 224); [lia|].
  destruct (N.ltb_spec (240 + c / 262144) 240); [lia|]. destruct (N.ltb_spec (240 + c / 262144) 248); [|lia]. cbn [conts]. rewrite !cont_ok by assumption.
  replace ((((240 + c / 262144 - 240) * 64 + c / 4096 mod 64) * 64 + c / 64 mod 64) * 64 + c mod 64) with c by lia. now rewrite H0.
Qed.

Lemma utf8_char_nonempty c b : utf8_char c = Some b -> (1 <= length b)%nat.
Proof. unfold utf8_char. repeat destruct (_ <? _); try destruct (_ && _); intro H; try discriminate; injection H as <-; cbn; lia. Qed.

Lemma utf8_back s b : utf8 s = Some b -> forall f, (length b <= f)%nat -> utf8_decode f b = Some s.
Proof.
  revert b. induction s as [|c s IH]; intros b H f Hf; cbn [utf8] in H.
  - injection H as <-. destruct f; reflexivity.
  - destruct (utf8_char c) as [bc|] eqn:Ec; [|discriminate]. destruct (utf8 s) as [bs|]; [|discriminate]. injection H as <-.
    assert (L := utf8_char_nonempty _ _ Ec). rewrite app_length in Hf. destruct f as [|f]; [lia|].
    assert (Q := utf8_next_ok c bc bs Ec). destruct (bc ++ bs) as [|x r] eqn:E; [discriminate Q|]. cbn [utf8_decode]. rewrite Q. rewrite (IH bs eq_refl f) by lia. reflexivity.
Qed.

Lemma xml_char_encodes c : xml_char c = true -> exists b, utf8_char c = Some b.
Proof.
  unfold xml_char, in_range. cbn [existsb fst snd]. rewrite !orb_true_iff, !andb_true_iff, !N.leb_le. intro H. unfold utf8_char.
  destruct (N.ltb_spec c 128); [eauto|]. destruct (N.ltb_spec c 2048); [eauto|].
  destruct (N.leb_spec 55296 c); destruct (N.leb_spec c 57343); cbn [andb]; try (exfalso; lia); (destruct (N.ltb_spec c 65536); [eauto|]; destruct (N.ltb_spec c 1114112); [eauto|exfalso; lia]).
Qed.
Lemma xml_encodes s : forallb xml_char s = true -> exists b, utf8 s = Some b.
Proof.
  induction s as [|c s IH]; cbn [forallb utf8]; intro H; [eauto|]. apply andb_prop in H as [Hc H]. destruct (xml_char_encodes c Hc) as [b ->]. destruct (IH H) as [r ->]. eauto.
Qed.
