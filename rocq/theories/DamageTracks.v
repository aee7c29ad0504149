(** * Tracks with one damaged time, position or angle.  Lemmas for C63. *)
From Coq Require Import String List NArith ZArith Bool Lia.
From Verif Require Import Ustr UstrProofs Res PyInt PyFloat PyDate Elem Value Geom Codec Spec EmitProofs CodecProofs ReadProofs RoundTrip NsProofs SettledProofs ReaderTyped Agree AgreeProofs CtorProofs AbsentProofs Outcome DamageSpec DamageProofs.
Import ListNotations.
Local Open Scope string_scope.
Local Open Scope list_scope.

(** The values read in both cases are the same up to the first [j] entries. *)
Definition begins (j : nat) (v v' : value) : Prop :=
  v = v' \/
  (exists p q q', j <= length p /\ v = VDates (p ++ q) /\ v' = VDates (p ++ q')) \/
  (exists p q q', j <= length p /\ v = VCoords false (p ++ q) /\ v' = VCoords false (p ++ q')).

Section One.
  Variables (W : world) (strict : bool) (nss : nss_t) (bf af : list elem) (x x' : elem).
  Hypothesis Hx : e_tag x = e_tag x'.
  Let ks := bf ++ x :: af.
  Let ks' := bf ++ x' :: af.

  Lemma map_res_both {A B} (f : A -> res B) l1 y l2 r : map_res f (l1 ++ y :: l2) = Ok r -> exists r1 r2, map_res f l1 = Ok r1 /\ r = r1 ++ r2.
  Proof. intro H. apply map_res_app_inv in H as [r1 [z [r2 [-> [E _]]]]]. exists r1, (z :: r2). auto. Qed.

  Lemma dates_told it l r : it_get it = GDates -> map_res (read_date W strict) (map (kid_reader W strict) l) = Ok r -> length (concat r) = length (filter (told W it) l).
  Proof.
    intro G. revert r. induction l as [|k l IH]; intros r H; cbn [map map_res] in H; [injection H as <-; reflexivity|].
    apply bind_ok in H as [z [Hz H]]. apply bind_ok in H as [q [Hq H]]. injection H as <-. cbn [concat filter]. rewrite app_length, (IH q Hq). clear IH.
    unfold read_date in Hz. cbn [fst] in Hz. unfold told at 2. rewrite G. destruct (e_text k) as [t|]; [|discriminate].
    destruct (kdt_parse (w_arrow W) t) as [d|[]]; try discriminate Hz; cbn [is_ok]; try (injection Hz as <-; reflexivity).
    destruct strict; [discriminate|]. injection Hz as <-. reflexivity.
  Qed.

  Lemma coords_told it l r : it_get it = GCoordList -> map_res (read_coord strict) (map (kid_reader W strict) l) = Ok r -> length (concat r) = length (filter (told W it) l).
  Proof.
    intro G. revert r. induction l as [|k l IH]; intros r H; cbn [map map_res] in H; [injection H as <-; reflexivity|].
    apply bind_ok in H as [z [Hz H]]. apply bind_ok in H as [q [Hq H]]. injection H as <-. cbn [concat filter]. rewrite app_length, (IH q Hq). clear IH.
    unfold read_coord in Hz. cbn [fst] in Hz. unfold told at 2. rewrite G. destruct (e_text k) as [t|]; [|injection Hz as <-; reflexivity].
    destruct (uempty t); [injection Hz as <-; reflexivity|]. cbn [negb andb].
    destruct (floats_of (words t)) as [d|[]]; try discriminate Hz; cbn [is_ok]; try (injection Hz as <-; reflexivity).
    destruct strict; [discriminate|]. injection Hz as <-. reflexivity.
  Qed.

  Lemma kwarg_begins it a tx n o o' j : it_get it = GDates \/ it_get it = GCoordList -> j <= length (filter (told W it) (with_tag (e_tag x) bf)) -> 0 < j ->
    get_kwarg W strict it a tx (map (kid_reader W strict) ks) n nss = Ok o -> get_kwarg W strict it a tx (map (kid_reader W strict) ks') n nss = Ok o' ->
    o = o' \/ exists v v', o = Some v /\ o' = Some v' /\ begins j v v'.
  Proof.
    intros G L J H H'. destruct (ueqb (n ++ u (it_node it)) (e_tag x)) eqn:E.
    - apply ueqb_eq in E. right. unfold get_kwarg in H, H'. cbv zeta in H, H'. rewrite !find_kids_with, !E in H, H'. unfold ks in H. unfold ks' in H'.
      assert (S1 : with_tag (e_tag x) (bf ++ x :: af) = with_tag (e_tag x) bf ++ x :: with_tag (e_tag x) af) by (unfold with_tag; rewrite filter_app; cbn [filter]; now rewrite ueqb_refl).
      assert (S2 : with_tag (e_tag x) (bf ++ x' :: af) = with_tag (e_tag x) bf ++ x' :: with_tag (e_tag x) af) by (unfold with_tag; rewrite filter_app; cbn [filter]; now rewrite Hx, ueqb_refl).
      rewrite S1 in H. rewrite S2 in H'.
      destruct G as [G|G]; rewrite G in H, H'; apply bind_ok in H as [l [Hl H]]; apply bind_ok in H' as [l' [Hl' H']];
        rewrite map_app in Hl, Hl'; cbn [map] in Hl, Hl'; apply map_res_both in Hl as [p [q [Hp ->]]]; apply map_res_both in Hl' as [p' [q' [Hp' ->]]]; assert (Ep := eq_trans (eq_sym Hp) Hp'); injection Ep as <-; rewrite concat_app in H, H'.
      + assert (Lp := dates_told it _ _ G Hp). destruct (concat p) as [|z l] eqn:Ez; [cbn in Lp; lia|]. cbn [nilb app] in H, H'. injection H as <-. injection H' as <-. do 2 eexists. split; [reflexivity|]. split; [reflexivity|].
        right. left. exists (z :: l), (concat q), (concat q'). split; [lia|]. auto.
      + assert (Lp := coords_told it _ _ G Hp). destruct (concat p) as [|z l] eqn:Ez; [cbn in Lp; lia|]. cbn [nilb app] in H, H'. injection H as <-. injection H' as <-. do 2 eexists. split; [reflexivity|]. split; [reflexivity|].
        right. right. exists (z :: l), (concat q), (concat q'). split; [lia|]. auto.
    - left. assert (N : n ++ u (it_node it) <> e_tag x) by (intro Q; rewrite Q, ueqb_refl in E; discriminate).
      unfold get_kwarg in H, H'. cbv zeta in H, H'. rewrite !find_kids_with in H, H'. unfold ks in H. unfold ks' in H'. rewrite (with_tag_other _ bf x x' af Hx N) in H.
      destruct G as [G|G]; rewrite G in H, H'; congruence.
  Qed.

  Lemma nsids_begins it a tx ids o o' j : it_get it = GDates \/ it_get it = GCoordList -> j <= length (filter (told W it) (with_tag (e_tag x) bf)) -> 0 < j ->
    try_nsids (fun n => get_kwarg W strict it a tx (map (kid_reader W strict) ks) n nss) nss ids = Ok o ->
    try_nsids (fun n => get_kwarg W strict it a tx (map (kid_reader W strict) ks') n nss) nss ids = Ok o' ->
    o = o' \/ exists v v', o = Some v /\ o' = Some v' /\ begins j v v'.
  Proof.
    intros G L J. revert o o'. induction ids as [|id ids IH]; intros o o' H H'; cbn [try_nsids] in *; [injection H as <-; injection H' as <-; now left|].
    apply bind_ok in H as [p [Hp H]]. apply bind_ok in H' as [p' [Hp' H']].
    destruct (kwarg_begins _ _ _ _ _ _ _ G L J Hp Hp') as [<-|[v [v' [-> [-> B]]]]].
    - destruct p as [w|]; [injection H as <-; injection H' as <-; now left|exact (IH _ _ H H')].
    - injection H as <-. injection H' as <-. right. exists v, v'. auto.
  Qed.
End One.

Lemma zip_begins j : forall n n' ws ws' cs cs' an an' l l', zip_items ws cs an n = Ok l -> zip_items ws' cs' an' n' = Ok l' ->
  firstn j ws = firstn j ws' -> firstn j cs = firstn j cs' -> firstn j an = firstn j an' -> j <= n -> j <= n' -> firstn j l = firstn j l'.
Proof.
  induction j as [|j IH]; intros n n' ws ws' cs cs' an an' l l' H H' Ew Ec Ea L L'; [reflexivity|].
  destruct n as [|n]; [lia|]. destruct n' as [|n']; [lia|]. cbn [zip_items] in H, H'.
  apply bind_ok in H as [i [Hi H]]. apply bind_ok in H as [r [Hr H]]. injection H as <-. apply bind_ok in H' as [i' [Hi' H']]. apply bind_ok in H' as [r' [Hr' H']]. injection H' as <-.
  assert (S : forall A (d : A) (m m' : list A), firstn (S j) m = firstn (S j) m' -> hd d m = hd d m' /\ firstn j (tl m) = firstn j (tl m')).
  { intros A d [|y m] [|y' m'] E; cbn in E |- *; try discriminate E; [auto|]. injection E as -> E. auto. }
  destruct (S _ None _ _ Ew) as [E1 F1]. destruct (S _ [] _ _ Ec) as [E2 F2]. destruct (S _ [] _ _ Ea) as [E3 F3]. rewrite E1, E2, E3, Hi' in Hi. injection Hi as <-. cbn [firstn]. f_equal.
  apply (IH n n' _ _ _ _ _ _ _ _ Hr Hr' F1 F2 F3); lia.
Qed.

Lemma dates_begin j v v' w w' : 0 < j -> begins j v v' -> dates_of v = Ok w -> dates_of v' = Ok w' -> firstn j w = firstn j w' /\ nilb w = nilb w' /\ (v = v' \/ (j <= length w /\ j <= length w')).
Proof.
  intros J B H H'. destruct B as [<-|[[p [q [q' [L [-> ->]]]]]|[p [q [q' [L [-> ->]]]]]]]; [rewrite H in H'; injection H' as <-; auto| |discriminate].
  injection H as <-. injection H' as <-. rewrite !firstn_app. replace (j - length p) with 0 by lia. cbn [firstn]. split; [reflexivity|]. split; [destruct p; [cbn in L; lia|reflexivity]|]. right. rewrite !app_length. lia.
Qed.
Lemma points_begin j v v' w w' : 0 < j -> begins j v v' -> points_of v = Ok w -> points_of v' = Ok w' -> firstn j w = firstn j w' /\ nilb w = nilb w' /\ (v = v' \/ (j <= length w /\ j <= length w')).
Proof.
  intros J B H H'. destruct B as [<-|[[p [q [q' [L [-> ->]]]]]|[p [q [q' [L [-> ->]]]]]]]; [rewrite H in H'; injection H' as <-; auto|discriminate|].
  injection H as <-. injection H' as <-. rewrite !firstn_app. replace (j - length p) with 0 by lia. cbn [firstn]. split; [reflexivity|]. split; [destruct p; [cbn in L; lia|reflexivity]|]. right. rewrite !app_length. lia.
Qed.

Lemma build_begins j wv wv' cv cv' av av' y y' : 0 < j -> begins j wv wv' -> begins j cv cv' -> begins j av av' ->
  build_track VNone wv cv av = Ok y -> build_track VNone wv' cv' av' = Ok y' -> exists l l', y = VItems l /\ y' = VItems l' /\ firstn j l = firstn j l'.
Proof.
  intros J Bw Bc Ba H H'. unfold build_track in H, H'. cbn [titems_of bind nilb negb andb] in H, H'.
  apply bind_ok in H as [ws [Hw H]]. apply bind_ok in H as [cs [Hc H]]. apply bind_ok in H as [an [Ha H]].
  apply bind_ok in H' as [ws' [Hw' H']]. apply bind_ok in H' as [cs' [Hc' H']]. apply bind_ok in H' as [an' [Ha' H']].
  destruct (dates_begin _ _ _ _ _ J Bw Hw Hw') as [F1 [N1 O1]]. destruct (points_begin _ _ _ _ _ J Bc Hc Hc') as [F2 [N2 O2]]. destruct (points_begin _ _ _ _ _ J Ba Ha Ha') as [F3 [N3 O3]].
  rewrite <- N1, <- N2 in H'. rewrite andb_false_r in H, H'. destruct (negb (nilb ws) && negb (nilb cs)); [|injection H as <-; injection H' as <-; now exists [], []].
  apply bind_ok in H as [l [Hl H]]. injection H as <-. apply bind_ok in H' as [l' [Hl' H']]. injection H' as <-. exists l, l'. split; [reflexivity|]. split; [reflexivity|].
  assert (D : (wv = wv' /\ cv = cv' /\ av = av') \/ (j <= Nat.max (length ws) (Nat.max (length cs) (length an)) /\ j <= Nat.max (length ws') (Nat.max (length cs') (length an')))).
  { destruct O1 as [O1|O1]; [|right; lia]. destruct O2 as [O2|O2]; [|right; lia]. destruct O3 as [O3|O3]; [|right; lia]. now left. }
  destruct D as [[-> [-> ->]]|[L L']]; [|exact (zip_begins j _ _ _ _ _ _ _ _ _ _ Hl Hl' F1 F2 F3 L L')].
  rewrite Hw in Hw'. injection Hw' as <-. rewrite Hc in Hc'. injection Hc' as <-. rewrite Ha in Ha'. injection Ha' as <-. rewrite Hl in Hl'. now injection Hl' as <-.
Qed.

(** The items before the damaged entry are the same. *)
Theorem track_begins W strict t a tx bf x x' af c ci ns nss attrs attrs' it l l' : world_ok W = true -> class_of W c = Some ci -> is_track ci = true -> e_tag x = e_tag x' ->
  In it (items_of W c) -> it_get it = GDates \/ it_get it = GCoordList -> In (e_tag x) (tags_for W (merge_ns nss) it) ->
  (forall it', In it' (items_of W c) -> In (e_tag x) (tags_for W (merge_ns nss) it') -> it' = it) ->
  from_element W strict (Elem t a tx (bf ++ x :: af)) c ns nss = Ok (VObj c ns (merge_ns nss) attrs) ->
  from_element W strict (Elem t a tx (bf ++ x' :: af)) c ns nss = Ok (VObj c ns (merge_ns nss) attrs') ->
  sget "track_items" attrs = Some (VItems l) -> sget "track_items" attrs' = Some (VItems l') ->
  let j := length (filter (fun k => ueqb (e_tag k) (e_tag x) && told W it k) bf) in firstn j l = firstn j l'.
Proof.
  intros HW Hc Htr Hx Hi G Ht One H H' El El' j. set (d := merge_ns nss) in *.
  destruct (Nat.eq_dec j 0) as [->|J]; [reflexivity|]. assert (J' : 0 < j) by lia. clear J.
  assert (Lj : j <= length (filter (told W it) (with_tag (e_tag x) bf))).
  { unfold j, with_tag. clear. induction bf as [|k b IH]; [cbn; lia|]. cbn [filter]. destruct (ueqb (e_tag k) (e_tag x)); cbn [andb filter]; [|exact IH]. destruct (told W it k); cbn [length]; lia. }
  destruct (read_attrs _ _ _ _ _ _ _ _ _ _ HW H) as [ci1 [r [at1 [Hc1 [E1 [Hr [Hk Ha]]]]]]]. rewrite Hc in Hc1. injection Hc1 as <-. injection E1 as <-.
  destruct (read_attrs _ _ _ _ _ _ _ _ _ _ HW H') as [ci2 [r' [at2 [Hc2 [E2 [Hr' [Hk' Ha']]]]]]]. rewrite Hc in Hc2. injection Hc2 as <-. injection E2 as <-.
  fold d in Hr, Hr'. assert (F := world_class _ _ _ HW Hc).
  assert (B : forall b, begins j (kwget (kw_of r (items_of W c)) b) (kwget (kw_of r' (items_of W c)) b)).
  { intro b. rewrite Hk, Hk'. destruct (find_item b (items_of W c)) as [i|] eqn:Ef; [|now left]. apply find_item_In in Ef as [Hin _].
    destruct (existsb (ueqb (e_tag x)) (tags_for W d i)) eqn:Ex.
    - apply existsb_exists in Ex as [t0 [Ht0 Et]]. apply ueqb_eq in Et. subst t0. assert (E := One i Hin Ht0). subst i.
      destruct (nsids_begins W strict d bf af x x' Hx it a tx _ _ _ j G Lj J' (Hr it Hin) (Hr' it Hin)) as [E|[v [v' [-> [-> B]]]]]; [rewrite E; now left|exact B].
    - assert (E : r i = r' i); [|rewrite E; now left]. assert (Q : Ok (r i) = Ok (r' i)); [|now injection Q]. rewrite <- (Hr i Hin), <- (Hr' i Hin). apply try_nsids_same. intros id Hid. apply kwarg_same; auto.
      intros t0 Ht0. apply with_tag_other; [exact Hx|]. intros ->. assert (existsb (ueqb (e_tag x)) (tags_for W d i) = true); [|congruence]. apply existsb_exists. exists (e_tag x). split; [exact Ht0|apply ueqb_refl]. }
  assert (Htk := cf_track _ _ _ F). unfold track_ok in Htk. rewrite Htr in Htk. rewrite !andb_true_iff in Htk. destruct Htk as [[[[[T0 _] _] _] _] _].
  apply existsb_exists in T0 as [[b0 k0] [Hb0 T0]]. cbn [fst snd] in T0. apply andb_prop in T0 as [E0 Ek0]. apply String.eqb_eq in E0. subst b0. destruct k0; try discriminate Ek0.
  assert (Ck : ckind_of ci "track_items" = Some CTrack) by (unfold ckind_of; exact (sget_NoDup _ _ _ (cf_ctor _ _ _ F) Hb0)).
  destruct (cf_kind _ _ _ F _ Hb0) as [Hko _]. cbn [fst snd] in Hko. specialize (Ha "track_items"). specialize (Ha' "track_items"). rewrite Ck in Ha, Ha'.
  destruct Ha as [y [Hy Ey]]. destruct Ha' as [y' [Hy' Ey']]. rewrite El in Ey. injection Ey as <-. rewrite El' in Ey'. injection Ey' as <-.
  unfold mk_attr in Hy, Hy'. rewrite Hk in Hy. rewrite Hk' in Hy'. destruct (find_item "track_items" (items_of W c)); [discriminate Hko|].
  apply bind_ok in Hy as [w [Hw E]]. injection E as ->. apply bind_ok in Hy' as [w' [Hw' E]]. injection E as ->.
  destruct (build_begins j _ _ _ _ _ _ _ _ J' (B "whens") (B "coords") (B "angles") Hw Hw') as [m [m' [E3 [E4 E5]]]]. injection E3 as <-. now injection E4 as <-.
Qed.

Lemma built_items i w c a y : build_track i w c a = Ok y -> exists l, y = VItems l.
Proof.
  unfold build_track. intro H. apply bind_ok in H as [its [_ H]]. apply bind_ok in H as [ws [_ H]]. apply bind_ok in H as [cs [_ H]]. apply bind_ok in H as [an [_ H]].
  destruct (_ && _); [discriminate|]. destruct (_ && _); [|injection H as <-; eauto]. apply bind_ok in H as [l [_ H]]. injection H as <-. eauto.
Qed.

Lemma track_read W strict e c ci ns nss v : world_ok W = true -> class_of W c = Some ci -> is_track ci = true -> from_element W strict e c ns nss = Ok v ->
  exists attrs l, v = VObj c ns (merge_ns nss) attrs /\ sget "track_items" attrs = Some (VItems l).
Proof.
  intros HW Hc Htr H. destruct e as [t a tx ks]. destruct (read_attrs _ _ _ _ _ _ _ _ _ _ HW H) as [ci1 [r [at1 [Hc1 [E1 [Hr [Hk Ha]]]]]]]. rewrite Hc in Hc1. injection Hc1 as <-. exists at1.
  assert (F := world_class _ _ _ HW Hc). assert (Htk := cf_track _ _ _ F). unfold track_ok in Htk. rewrite Htr in Htk. rewrite !andb_true_iff in Htk. destruct Htk as [[[[[T0 _] _] _] _] _].
  apply existsb_exists in T0 as [[b0 k0] [Hb0 T0]]. cbn [fst snd] in T0. apply andb_prop in T0 as [E0 Ek0]. apply String.eqb_eq in E0. subst b0. destruct k0; try discriminate Ek0.
  assert (Ck : ckind_of ci "track_items" = Some CTrack) by (unfold ckind_of; exact (sget_NoDup _ _ _ (cf_ctor _ _ _ F) Hb0)).
  specialize (Ha "track_items"). rewrite Ck in Ha. destruct Ha as [y [Hy Ey]]. unfold mk_attr in Hy. apply bind_ok in Hy as [w [Hw E]]. injection E as ->.
  apply built_items in Hw as [l ->]. exists l. auto.
Qed.
