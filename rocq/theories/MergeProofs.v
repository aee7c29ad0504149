(** * Proofs for C74. *)
From Coq Require Import String List NArith ZArith Bool.
From Verif Require Import Ustr UstrProofs Res PyInt PyFloat PyDate Elem Value Geom Codec Spec EmitProofs ItemProofs RoundTrip NsProofs EditProofs Agree Outcome ReaderTyped OnceSpec OnceProofs MergeSpec.
Import ListNotations.
Local Open Scope string_scope.
Local Open Scope list_scope.

Lemma objs_app W l l' : objs_kids W (l ++ l') = let! a := objs_kids W l in let! b := objs_kids W l' in Ok (a ++ b).
Proof.
  induction l as [|[y w] l IH]; cbn [app objs_kids]; [cbn [bind]; destruct (objs_kids W l'); reflexivity|]. destruct (py_bool W y) as [[|]|]; cbn [bind]; [|exact IH|reflexivity].
  destruct w as [k|]; cbn [bind]; [|reflexivity]. rewrite IH. destruct (objs_kids W l); cbn [bind]; [|reflexivity]. destruct (objs_kids W l'); reflexivity.
Qed.

Lemma objs_members W prec vb l ks : objs_kids W (map (fun y => (y, etree W prec vb y)) l) = Ok ks -> Forall2 (fun y k => etree W prec vb y = Ok k) (filter (is_true W) l) ks.
Proof.
  revert ks. induction l as [|y l IH]; intros ks E; cbn [map objs_kids filter] in *; [apply ok_inj in E; subst; constructor|].
  unfold is_true at 1. destruct (py_bool W y) as [[|]|]; cbn [bind] in E; [|now apply IH|discriminate]. apply bind_ok in E as [k [Hk E]]. apply bind_ok in E as [r [Hr E]]. apply ok_inj in E. subst ks. constructor; [exact Hk|now apply IH].
Qed.

Lemma fold_kids_after q t a x k : exists t' a' x' k', forall k0, fold_left (fun e m => apply_em m e) q (Elem t a x (k0 ++ k)) = Elem t' a' x' (k0 ++ k').
Proof.
  revert t a x k. induction q as [|m q IH]; intros t a x k; [exists t, a, x, k; reflexivity|]. cbn [fold_left]. destruct (apply_em m (Elem t a x k)) as [t1 a1 x1 k1] eqn:E.
  destruct (IH t1 a1 x1 k1) as [t' [a' [x' [k' H]]]]. exists t', a', x', k'. intro k0. rewrite <- H. f_equal. destruct m as [ma mt mk]. cbn [apply_em m_attr m_text m_kids] in E |- *. injection E as <- <- <- <-. now rewrite app_assoc.
Qed.

Section Merge.
  Variable W : world.
  Hypothesis HW : world_ok W = true.
  Variables (prec : option nat) (vb : verbosity).

  Theorem frame c ns nss attrs it l1 e1 : In it (items_of W c) -> it_set it = SObjs ->
    etree W prec vb (VObj c ns nss (sset (it_attr it) (VList l1) attrs)) = Ok e1 ->
    exists tag attrib text before after, forall l e,
      etree W prec vb (VObj c ns nss (sset (it_attr it) (VList l) attrs)) = Ok e <->
      exists ks, objs_kids W (map (fun y => (y, etree W prec vb y)) l) = Ok ks /\ e = Elem tag attrib text (before ++ ks ++ after).
  Proof.
    intros Hit Hs He. destruct (class_of W c) as [ci|] eqn:Hc; [|rewrite etree_obj in He; unfold write_with in He; rewrite Hc in He; discriminate].
    assert (F := world_class _ _ _ HW Hc). destruct (written_same W ci c it F Hit) as [j [Hj [Ej [Hn [Sj Ht]]]]]. rewrite Hs in Sj. specialize (Sj (or_intror (or_introl eq_refl))). rewrite <- Ej in *.
    assert (Ht' : ci_geom ci <> GkTrack \/ it_attr j <> "track_items") by (destruct (ci_geom ci); try (left; discriminate); right; now apply Ht).
    apply in_split in Hj as [i1 [i2 Hw]]. rewrite Hw, map_app in Hn. cbn [map] in Hn. apply NoDup_remove_2 in Hn.
    set (em x := emit W prec vb ci ns nss (sset (it_attr j) x attrs) (ws_of W prec vb (sset (it_attr j) x attrs))).
    assert (Same : forall x l, ~ In (it_attr j) (map it_attr l) -> map_res (em x) l = map_res (em (VList l1)) l).
    { intros x l N. induction l as [|i l IH]; [reflexivity|]. cbn [map_res]. rewrite IH by (intro X; apply N; right; exact X). unfold em. rewrite !emit_edit; auto; intro X; apply N; left; exact X. }
    assert (N1 : ~ In (it_attr j) (map it_attr i1)) by (intro X; apply Hn, in_or_app; now left).
    assert (N2 : ~ In (it_attr j) (map it_attr i2)) by (intro X; apply Hn, in_or_app; now right).
    assert (EJ : forall l, em (VList l) j = let! ks := objs_kids W (map (fun y => (y, etree W prec vb y)) l) in Ok (em_kids ks)).
    { intro l. unfold em, emit. rewrite Sj, sget_ws_of, sget_sset, String.eqb_refl. reflexivity. }
    assert (MA : forall x, map_res (em x) (i1 ++ j :: i2) = let! p := map_res (em (VList l1)) i1 in let! m := em x j in let! q := map_res (em (VList l1)) i2 in Ok (p ++ m :: q)).
    { intro x. rewrite <- (Same x i1 N1), <- (Same x i2 N2). clear. induction i1 as [|i l IH]; cbn [app map_res bind].
      - destruct (em x j); cbn [bind]; [|reflexivity]. destruct (map_res (em x) i2); reflexivity.
      - rewrite IH. destruct (em x i); cbn [bind]; [|reflexivity]. destruct (map_res (em x) l); cbn [bind]; [|reflexivity]. destruct (em x j); cbn [bind]; [|reflexivity]. destruct (map_res (em x) i2); reflexivity. }
    assert (He' := proj1 (etree_written _ _ _ _ _ _ _ _ _ Hc) He). destruct He' as [ms [Hms _]]. rewrite Hw in Hms. fold (em (VList l1)) in Hms. rewrite MA in Hms.
    destruct (map_res (em (VList l1)) i1) as [p|] eqn:Ep; [|discriminate Hms]. cbn [bind] in Hms. apply bind_ok in Hms as [m [_ Hms]]. destruct (map_res (em (VList l1)) i2) as [q|] eqn:Eq; [|discriminate Hms]. clear Hms m ms.
    destruct (fold_left (fun e m => apply_em m e) p (start_elem ci ns)) as [t a x k] eqn:Es. destruct (fold_kids_after q t a x []) as [t' [a' [x' [k' H]]]].
    exists t', a', x', k, k'. intros l e.
    rewrite (etree_written _ _ _ _ _ _ _ _ _ Hc), Hw. fold (em (VList l)). rewrite MA, EJ. cbn [bind]. destruct (objs_kids W _) as [ks|]; cbn [bind].
      - assert (Z : fold_left (fun e m => apply_em m e) (p ++ em_kids ks :: q) (start_elem ci ns) = Elem t' a' x' (k ++ ks ++ k')).
        { rewrite fold_left_app, Es. cbn [fold_left apply_em em_kids m_attr m_text m_kids]. rewrite <- (app_nil_r (k ++ ks)), H. now rewrite <- app_assoc. }
        split; [intros [ms [E ->]]; apply ok_inj in E; subst ms; exists ks; split; [reflexivity|exact Z]|]. intros [ks' [E ->]]. apply ok_inj in E. subst ks'. eexists. split; [reflexivity|now rewrite Z].
      - split; [intros [ms [E _]]; discriminate E|intros [ks [E _]]; discriminate E].
  Qed.

  Theorem merged c ns nss attrs it l1 l2 e1 e2 : In it (items_of W c) -> it_set it = SObjs ->
    etree W prec vb (VObj c ns nss (sset (it_attr it) (VList l1) attrs)) = Ok e1 ->
    etree W prec vb (VObj c ns nss (sset (it_attr it) (VList l2) attrs)) = Ok e2 ->
    exists tag attrib text before k1 k2 after,
      e1 = Elem tag attrib text (before ++ k1 ++ after) /\ e2 = Elem tag attrib text (before ++ k2 ++ after) /\
      Forall2 (fun y k => etree W prec vb y = Ok k) (filter (is_true W) l1) k1 /\ Forall2 (fun y k => etree W prec vb y = Ok k) (filter (is_true W) l2) k2 /\
      etree W prec vb (VObj c ns nss (sset (it_attr it) (VList (l1 ++ l2)) attrs)) = Ok (Elem tag attrib text (before ++ k1 ++ k2 ++ after)).
  Proof.
    intros Hit Hs H1 H2. destruct (frame c ns nss attrs it l1 e1 Hit Hs H1) as [tag [at_ [t [bf [af F]]]]].
    apply F in H1 as [k1 [K1 E1]]. apply F in H2 as [k2 [K2 E2]]. exists tag, at_, t, bf, k1, k2, af. split; [exact E1|]. split; [exact E2|]. split; [now apply objs_members|]. split; [now apply objs_members|].
    apply F. exists (k1 ++ k2). split; [|now rewrite <- app_assoc]. rewrite map_app, objs_app, K1. cbn [bind]. now rewrite K2.
  Qed.

  Lemma read_class strict e c ns nss v : from_element W strict e c ns nss = Ok v -> exists attrs, v = VObj c ns (merge_ns nss) attrs.
  Proof. intro H. exact (proj2 (reader_inv W strict e HW c ns nss v H)). Qed.

  Lemma all_class strict n nss k ks c l : of_class W strict n nss ks c l -> members_of k l = if String.eqb c k then l else [].
  Proof.
    intro H. unfold of_class in H. assert (C : Forall (fun y => exists a b d, y = VObj c a b d) l).
    { induction H as [|x y ks' l' E _ IH]; constructor; [|exact IH]. destruct (read_class strict x c n nss y E) as [attrs ->]. eauto. }
    clear H. unfold members_of. induction C as [|y l [a [b [d ->]]] _ IH]; cbn [filter is_class]; [now destruct (String.eqb c k)|]. rewrite IH. now destruct (String.eqb c k).
  Qed.

  Lemma class_app strict n nss ks1 ks2 c l l1 l2 : of_class W strict n nss (ks1 ++ ks2) c l -> of_class W strict n nss ks1 c l1 -> of_class W strict n nss ks2 c l2 -> l = l1 ++ l2.
  Proof.
    unfold of_class, with_tag. rewrite filter_app. intros H H1 H2. assert (H3 := Forall2_app H1 H2). revert H H3. generalize (l1 ++ l2) as l3. generalize (filter (fun k => ueqb (e_tag k) (n ++ u (tag_of W c))) ks1 ++ filter (fun k => ueqb (e_tag k) (n ++ u (tag_of W c))) ks2) as ks. clear.
    intros ks l3 H. revert l3. induction H as [|k y ks l E _ IH]; intros l3 H3; inversion H3; subst; [reflexivity|]. f_equal; [congruence|]. now apply IH.
  Qed.

  Lemma members_concat k ls : members_of k (concat ls) = concat (map (members_of k) ls).
  Proof. unfold members_of. induction ls as [|l ls IH]; [reflexivity|]. cbn [concat map]. now rewrite filter_app, IH. Qed.

  Lemma zip_members strict n nss ks1 ks2 k cs : NoDup cs -> forall ls ls1 ls2,
    Forall2 (of_class W strict n nss (ks1 ++ ks2)) cs ls -> Forall2 (of_class W strict n nss ks1) cs ls1 -> Forall2 (of_class W strict n nss ks2) cs ls2 ->
    members_of k (concat ls) = members_of k (concat ls1) ++ members_of k (concat ls2).
  Proof.
    intros N ls ls1 ls2. rewrite !members_concat. revert ls ls1 ls2. induction N as [|c cs Nc N IH]; intros ls ls1 ls2 H H1 H2; inversion H as [|? ma ? lsa A B]; inversion H1 as [|? mb ? lsb A1 B1]; inversion H2 as [|? mc ? lsc A2 B2]; subst; [reflexivity|].
    cbn [map concat]. rewrite (all_class _ _ _ k _ _ _ A), (all_class _ _ _ k _ _ _ A1), (all_class _ _ _ k _ _ _ A2), (class_app _ _ _ _ _ _ _ _ _ A A1 A2). destruct (String.eqb_spec c k) as [->|Ne]; [|exact (IH _ _ _ B B1 B2)].
    assert (Z : forall ks ls, Forall2 (of_class W strict n nss ks) cs ls -> concat (map (members_of k) ls) = []).
    { intros ks ls0 H0. clear - H0 Nc HW. induction H0 as [|c l cs ls0 A _ IH]; [reflexivity|]. cbn [map concat]. rewrite IH by (intro X; apply Nc; now right). rewrite (all_class _ _ _ k _ _ _ A). destruct (String.eqb_spec c k) as [->|_]; [|reflexivity]. destruct Nc. now left. }
    now rewrite (Z _ _ B), (Z _ _ B1), (Z _ _ B2), !app_nil_r.
  Qed.

  Lemma members_filter k (p : value -> bool) l : members_of k (filter p l) = filter p (members_of k l).
  Proof. unfold members_of. induction l as [|y l IH]; [reflexivity|]. cbn [filter]. destruct (p y) eqn:P, (is_class k y) eqn:C; cbn [filter]; rewrite ?P, ?C, IH; reflexivity. Qed.

  Lemma option_eq_filter (o : option ckind) : o = Some CFilter \/ o <> Some CFilter.
  Proof. destruct o as [[]|]; auto; right; discriminate. Qed.

  Lemma filter_twice {A} (p : A -> bool) l : filter p (filter p l) = filter p l.
  Proof. induction l as [|y l IH]; [reflexivity|]. cbn [filter]. destruct (p y) eqn:P; [cbn [filter]; now rewrite P, IH|exact IH]. Qed.

  Lemma stored_true strict e c ns nss attrs ci b l : class_of W c = Some ci -> ckind_of ci b = Some CFilter ->
    from_element W strict e c ns nss = Ok (VObj c ns (merge_ns nss) attrs) -> obj_attr ci attrs b = VList l -> filter (truth W) l = l.
  Proof.
    intros Hc Kf R O. destruct e as [t a x ks]. destruct (read_attrs _ _ _ _ _ _ _ _ _ _ HW R) as [ci' [r [attrs' [Hc' [Ev [_ [_ Hat]]]]]]]. rewrite Hc in Hc'. injection Hc' as <-. injection Ev as ->.
    specialize (Hat b). rewrite Kf in Hat. destruct Hat as [y [Hm Hy]]. unfold obj_attr in O. rewrite Hy in O. subst y. unfold mk_attr in Hm. apply bind_ok in Hm as [w [Hw E]]. injection E as ->.
    destruct (kwget _ b) as [ | | | | | | | | | |l'|]; try discriminate Hw; [now injection Hw as <-|]. apply bind_ok in Hw as [rr [Hf Hw]]. injection Hw as <-. rewrite (filter_true_fun _ _ _ Hf). apply filter_twice.
  Qed.

  Theorem read_merged strict c ns nss it e1 e2 e v1 v2 v k : In it (items_of W c) -> it_get it = GObjs -> NoDup (it_classes it) -> e_kids e = e_kids e1 ++ e_kids e2 ->
    from_element W strict e1 c ns nss = Ok v1 -> from_element W strict e2 c ns nss = Ok v2 -> from_element W strict e c ns nss = Ok v ->
    members_of k (held (it_attr it) v) = members_of k (held (it_attr it) v1) ++ members_of k (held (it_attr it) v2).
  Proof.
    intros Hi G N Ek R1 R2 R.
    destruct (read_class _ _ _ _ _ _ R1) as [a1 ->]. destruct (read_class _ _ _ _ _ _ R2) as [a2 ->]. destruct (read_class _ _ _ _ _ _ R) as [a ->].
    destruct (class_of W c) as [ci|] eqn:Hc; [|unfold items_of in Hi; rewrite Hc in Hi; destruct Hi].
    assert (Hd : forall at_ l, obj_attr ci at_ (it_attr it) = VList l -> held (it_attr it) (VObj c ns (merge_ns nss) at_) = l).
    { intros at_ l. unfold obj_attr, held. destruct (sget (it_attr it) at_) as [y|]; [now intros ->|]. destruct (ci_geom ci); try discriminate. destruct (sget "track_items" at_) as [[ | | | | | | | | | | | ]|]; try discriminate. repeat match goal with |- context [if ?b then _ else _] => destruct b end; discriminate. }
    destruct (read_list W strict e1 c ns nss _ _ a1 ci it HW Hc R1 Hi G) as [id1 [ls1 [I1 [L1 O1]]]]. destruct (read_list W strict e2 c ns nss _ _ a2 ci it HW Hc R2 Hi G) as [id2 [ls2 [I2 [L2 O2]]]]. destruct (read_list W strict e c ns nss _ _ a ci it HW Hc R Hi G) as [id [ls [I0 [L0 O0]]]].
    rewrite I0 in I1, I2. injection I1 as <-. injection I2 as <-. rewrite Ek in L0. assert (Z := zip_members _ _ _ _ _ k _ N _ _ _ L0 L1 L2).
    destruct (option_eq_filter (ckind_of ci (it_attr it))) as [Kf|Kf].
    - assert (X : forall e' at_ ls', from_element W strict e' c ns nss = Ok (VObj c ns (merge_ns nss) at_) ->
        (obj_attr ci at_ (it_attr it) = VList (concat ls') \/ ckind_of ci (it_attr it) = Some CFilter /\ obj_attr ci at_ (it_attr it) = VList (filter (truth W) (concat ls'))) ->
        held (it_attr it) (VObj c ns (merge_ns nss) at_) = filter (truth W) (concat ls')).
      { intros e' at_ ls' R' [O|[_ O]]; [|now apply Hd]. rewrite (Hd _ _ O). symmetry. now apply (stored_true strict e' c ns nss at_ ci (it_attr it)). }
      rewrite (X _ _ _ R O0), (X _ _ _ R1 O1), (X _ _ _ R2 O2), !members_filter, Z. apply filter_app.
    - destruct O0 as [O0|[O0 _]]; [|contradiction]. destruct O1 as [O1|[O1 _]]; [|contradiction]. destruct O2 as [O2|[O2 _]]; [|contradiction].
      now rewrite (Hd _ _ O0), (Hd _ _ O1), (Hd _ _ O2).
  Qed.
End Merge.
