(** * Additional registrations: what they change. *)
From Coq Require Import String List NArith ZArith Bool Lia.
From Verif Require Import Ustr UstrProofs Res PyInt PyFloat PyDate Elem Value Geom Codec Spec Settled EmitProofs CodecProofs ReadProofs ItemProofs RoundTrip NsProofs Agree AgreeProofs AbsentProofs StrictProofs WriteProofs Extend.
Import ListNotations.

(** ** The registry *)

Definition reg_get (reg : list (string * list item)) (c : string) : list item :=
  match sget c reg with Some l => l | None => [] end.

Lemma sget_sset {A} k k' (v : A) l : sget k (sset k' v l) = if String.eqb k k' then Some v else sget k l.
Proof.
  induction l as [|[a x] l IH]; cbn [sset sget]; [reflexivity|]. destruct (String.eqb_spec k' a) as [->|N]; cbn [sget].
  - now destruct (String.eqb k a).
  - destruct (String.eqb_spec k a) as [->|]; [|exact IH]. destruct (String.eqb_spec a k'); [congruence|reflexivity].
Qed.

Lemma reg_get_add reg d it c : reg_get (reg_add reg d it) c = if String.eqb c d then reg_get reg d ++ [it] else reg_get reg c.
Proof. unfold reg_get, reg_add. rewrite sget_sset. now destruct (String.eqb c d). Qed.

Lemma reg_items_get reg mro : reg_items reg mro = concat (map (reg_get reg) (rev mro)).
Proof. reflexivity. Qed.

Lemma reg_items_app reg l r : reg_items reg (l ++ r) = reg_items reg r ++ reg_items reg l.
Proof. rewrite !reg_items_get, rev_app_distr, map_app. apply concat_app. Qed.

Lemma reg_items_other reg d it mro : ~ In d mro -> reg_items (reg_add reg d it) mro = reg_items reg mro.
Proof.
  intro H. rewrite !reg_items_get. f_equal. apply map_ext_in. intros c Hc. apply in_rev in Hc. rewrite reg_get_add. destruct (String.eqb_spec c d) as [->|]; [contradiction|reflexivity].
Qed.

Lemma reg_items_add reg d it l r : ~ In d l -> ~ In d r ->
  reg_items reg (l ++ d :: r) = (reg_items reg r ++ reg_get reg d) ++ reg_items reg l /\
  reg_items (reg_add reg d it) (l ++ d :: r) = (reg_items reg r ++ reg_get reg d) ++ it :: reg_items reg l.
Proof.
  intros Hl Hr. change (d :: r) with ([d] ++ r). rewrite !reg_items_app, (reg_items_other reg d it l Hl), (reg_items_other reg d it r Hr).
  rewrite !(reg_items_get _ [d]). cbn [rev map app concat]. rewrite reg_get_add, String.eqb_refl, !app_nil_r. split; [reflexivity|].
  rewrite <- !app_assoc. reflexivity.
Qed.

(** ** The items of a class *)

Section Ext.
  Variables (W : world) (d : string) (it : item).
  Notation W' := (extend W d it).
  Notation a := (it_attr it).
  Notation f := (forget W d a).
  Hypothesis HW : world_ok W = true.
  Hypothesis HM : mros_ok W = true.
  Hypothesis HF : fresh W d it = true.

  Lemma ext_items c ci : class_of W c = Some ci ->
    (mem d (ci_mro ci) = false /\ items_of W' c = items_of W c) \/
    (mem d (ci_mro ci) = true /\ exists l1 l2, items_of W c = l1 ++ l2 /\ items_of W' c = l1 ++ it :: l2).
  Proof.
    intro Hc. unfold items_of. change (class_of W' c) with (class_of W c). rewrite Hc. change (w_registry W') with (reg_add (w_registry W) d it).
    destruct (mem d (ci_mro ci)) eqn:Em.
    - right. split; [reflexivity|]. apply EmitProofs.mem_In in Em. apply in_split in Em as [l [r E]].
      assert (Hn : NoDup (ci_mro ci)).
      { unfold mros_ok in HM. apply andb_prop in HM as [_ H]. rewrite forallb_forall in H. apply nodups_NoDup. exact (H (c, ci) (sget_In _ _ _ Hc)). }
      rewrite E in Hn |- *. apply NoDup_remove_2 in Hn. destruct (reg_items_add (w_registry W) d it l r) as [E1 E2]; [intro; apply Hn, in_or_app; now left|intro; apply Hn, in_or_app; now right|].
      rewrite E1, E2. eauto.
    - left. split; [reflexivity|]. apply reg_items_other. intro H. apply EmitProofs.mem_In in H. congruence.
  Qed.

  Record fresh_facts (c : string) (ci : class_info) : Prop := {
    ff_params : mem a (ci_params ci) = false;
    ff_attr : ~ In a (map it_attr (items_of W c));
    ff_sem : ~ In a (bool_names (ci_bool ci) ++ geom_names (ci_geom ci));
    ff_names : forall n, In n (item_names W it) -> ~ In n (concat (map (item_names W) (items_of W c)));
    ff_xattrs : forall n, In n (item_attrs it) -> ~ In n (concat (map item_attrs (items_of W c)));
    ff_ids : item_ids_ok W (ci_nsid ci) it = true;
    ff_kwargs : ci_kwargs ci = true;
    ff_root : ci_root ci = false }.

  Lemma not_mem x l : negb (mem x l) = true <-> ~ In x l.
  Proof. rewrite negb_true_iff, <- Bool.not_true_iff_false, EmitProofs.mem_In. reflexivity. Qed.

  Lemma disjoint_spec l r : disjoint l r = true -> forall x, In x l -> ~ In x r.
  Proof. unfold disjoint. rewrite forallb_forall. intros H x Hx. apply not_mem. now apply H. Qed.

  Lemma fresh_class c ci : class_of W c = Some ci -> mem d (ci_mro ci) = true -> fresh_facts c ci.
  Proof.
    intros Hc Hm. unfold fresh in HF. rewrite !andb_true_iff in HF. destruct HF as [_ H]. rewrite forallb_forall in H. specialize (H (c, ci) (sget_In _ _ _ Hc)). cbn [fst snd] in H. rewrite Hm in H. cbn [negb orb] in H.
    unfold fresh_for in H. rewrite !andb_true_iff, !not_mem, !negb_true_iff in H. destruct H as [[[[[[[H1 H2] H3] H4] H5] H6] H7] H8].
    constructor; auto.
    - apply Bool.not_true_iff_false. rewrite EmitProofs.mem_In. exact H1.
    - exact (disjoint_spec _ _ H4).
    - exact (disjoint_spec _ _ H5).
  Qed.

  Lemma fresh_item : item_ok W it = true /\ NoDup (item_names W it) /\ item_texts it = [] /\ it_set it <> SCoordList /\ a <> "coords"%string.
  Proof.
    unfold fresh in HF. rewrite !andb_true_iff in HF. destruct HF as [[[[[H1 H2] H3] H4] H5] _]. repeat split.
    - exact H1.
    - now apply nodups_NoDup.
    - destruct (item_texts it); [reflexivity|discriminate].
    - intro E. rewrite E in H4. discriminate.
    - intro E. rewrite E in H5. discriminate.
  Qed.

  Lemma below_mem c ci : class_of W c = Some ci -> below_class W d c = mem d (ci_mro ci).
  Proof. intro H. unfold below_class. now rewrite H. Qed.

  (** ** The extended tables are well-formed *)

  Lemma find_item_insert k l1 l2 : k <> a -> find_item k (l1 ++ it :: l2) = find_item k (l1 ++ l2).
  Proof.
    intro H. induction l1 as [|j l1 IH]; cbn [app find_item].
    - destruct (String.eqb_spec k a); [contradiction|reflexivity].
    - destruct (String.eqb k (it_attr j)); [reflexivity|exact IH].
  Qed.

  Lemma ext_find c ci k : class_of W c = Some ci -> (mem d (ci_mro ci) = true -> k <> a) -> find_item k (items_of W' c) = find_item k (items_of W c).
  Proof.
    intros Hc Hk. destruct (ext_items c ci Hc) as [[_ ->]|[Hm [l1 [l2 [-> ->]]]]]; [reflexivity|]. apply find_item_insert. auto.
  Qed.

  Lemma ctor_not_a c ci k : class_of W c = Some ci -> mem d (ci_mro ci) = true -> In k (map fst (ctor_attrs ci)) -> k <> a.
  Proof.
    intros Hc Hm Hk ->. apply in_map_iff in Hk as [ak [E Hk]]. assert (H := cf_params _ _ _ (world_class _ _ _ HW Hc) ak Hk). rewrite E, (ff_params _ _ (fresh_class _ _ Hc Hm)) in H. discriminate.
  Qed.

  Lemma existsb_ctor k ci : existsb (fun ak : string * ckind => String.eqb k (fst ak)) (ctor_attrs ci) = true -> In k (map fst (ctor_attrs ci)).
  Proof. intro H. apply existsb_exists in H as [ak [H1 H2]]. apply seqb_eq in H2. subst. now apply in_map. Qed.

  Lemma bool_simple_ext c ci e : class_of W c = Some ci -> bool_simple ci (items_of W' c) e = bool_simple ci (items_of W c) e.
  Proof.
    intro Hc. induction e as [|k|k|k| |p IHp q IHq|p IHp q IHq]; cbn [bool_simple]; try reflexivity; try (now rewrite IHp, IHq).
    destruct (existsb _ (ctor_attrs ci)) eqn:E; [|reflexivity]. cbn [andb]. apply existsb_ctor in E. rewrite (ext_find c ci k Hc); [reflexivity|]. intro Hm. eapply ctor_not_a; eassumption.
  Qed.

  Lemma forallb_eq {A} (p q : A -> bool) l : (forall x, In x l -> p x = q x) -> forallb p l = forallb q l.
  Proof. induction l as [|x l IH]; intro H; [reflexivity|]. cbn [forallb]. rewrite (H x) by now left. rewrite IH by (intros; apply H; now right). reflexivity. Qed.

  Lemma filter_ok_ext k o : filter_ok W' k o = filter_ok W k o.
  Proof.
    unfold filter_ok. destruct k, o; try reflexivity. apply forallb_eq. intros c _. change (class_of W' c) with (class_of W c).
    destruct (class_of W c) as [ci|] eqn:Hc; [|reflexivity]. now apply bool_simple_ext.
  Qed.

  Lemma NoDup_insert {A} (l1 l2 n : list A) : NoDup (l1 ++ l2) -> NoDup n -> (forall x, In x n -> ~ In x (l1 ++ l2)) -> NoDup (l1 ++ n ++ l2).
  Proof.
    intros H Hn Hd. induction l1 as [|x l1 IH]; cbn [app] in *.
    - clear HF HM HW. induction n as [|y n IH]; [exact H|]. inversion Hn; subst. cbn [app]. constructor; [|apply IH; [assumption|intros; apply Hd; now right]].
      intro E. apply in_app_or in E as [E|E]; [contradiction|]. exact (Hd y (or_introl eq_refl) E).
    - inversion H as [|? ? Hx H']; subst. constructor.
      + intro E. apply in_app_or in E as [E|E]; [apply Hx, in_or_app; now left|]. apply in_app_or in E as [E|E]; [|apply Hx, in_or_app; now right]. exact (Hd x E (or_introl eq_refl)).
      + apply IH; [exact H'|]. intros y Hy E. apply (Hd y Hy). now right.
  Qed.

  Lemma concat_insert {A B} (g : A -> list B) l1 x l2 : concat (map g (l1 ++ x :: l2)) = concat (map g l1) ++ g x ++ concat (map g l2).
  Proof. rewrite map_app, concat_app. reflexivity. Qed.
  Lemma concat_two {A B} (g : A -> list B) l1 l2 : concat (map g (l1 ++ l2)) = concat (map g l1) ++ concat (map g l2).
  Proof. now rewrite map_app, concat_app. Qed.

  Lemma forallb_insert {A} (p : A -> bool) l1 x l2 : forallb p (l1 ++ l2) = true -> p x = true -> forallb p (l1 ++ x :: l2) = true.
  Proof. rewrite !forallb_app. cbn [forallb]. intros H ->. exact H. Qed.

  Lemma item_attrs_NoDup j : NoDup (item_attrs j).
  Proof. unfold item_attrs. destruct (it_set j); repeat constructor; auto. Qed.

  Lemma class_ok_ext c ci : class_of W c = Some ci -> class_ok W ci (items_of W c) = true -> class_ok W' ci (items_of W' c) = true.
  Proof.
    intros Hc. unfold class_ok. rewrite !andb_true_iff. intros [[[[[[[[[[[H1 H2] H3] H4] H5] H6] H7] H8] H9] H10] H11] H12].
    assert (I1 : forall j, item_ok W' j = item_ok W j) by reflexivity. assert (I2 : forall j, item_names W' j = item_names W j) by reflexivity.
    destruct fresh_item as [F1 [F2 [F3 [F4 F5]]]].
    assert (E10 : forallb (fun ak => ckind_ok (snd ak) (find_item (fst ak) (items_of W' c)) && filter_ok W' (snd ak) (find_item (fst ak) (items_of W' c))) (ctor_attrs ci) = true).
    { rewrite <- H10. apply forallb_eq. intros ak Hak. rewrite filter_ok_ext. rewrite (ext_find c ci (fst ak) Hc); [reflexivity|]. intro Hm. eapply ctor_not_a; try eassumption. now apply in_map. }
    destruct (ext_items c ci Hc) as [[Hm E]|[Hm [l1 [l2 [E E']]]]].
    - rewrite E in *. repeat split; assumption.
    - assert (Fc := fresh_class c ci Hc Hm).
      assert (T11 : track_ok ci (items_of W' c) = track_ok ci (items_of W c)).
      { unfold track_ok. destruct (is_track ci) eqn:Et; [|reflexivity]. unfold track_ok in H11. rewrite Et in H11. rewrite !andb_true_iff in H11. destruct H11 as [_ H11]. rewrite forallb_forall in H11.
        assert (Na : forall k, In k track_attrs -> k <> a). { intros k Hk ->. specialize (H11 _ Hk). apply andb_prop in H11 as [H11 _]. rewrite (ff_params _ _ Fc) in H11. discriminate. }
        unfold has_track_item. rewrite !(ext_find c ci _ Hc); [reflexivity|intros _; apply Na; cbn; tauto..]. }
      assert (T12 : root_ok ci (items_of W' c) = true) by (unfold root_ok; now rewrite (ff_root _ _ Fc)).
      rewrite T11. rewrite E' in *. rewrite E in *. assert (Fa := ff_attr _ _ Fc). assert (Fn := ff_names _ _ Fc). assert (Fx := ff_xattrs _ _ Fc). rewrite E in Fa, Fn, Fx. repeat split; try assumption.
      + now apply forallb_insert.
      + apply nodups_NoDup. apply nodups_NoDup in H3. rewrite concat_insert. rewrite concat_two in H3, Fn. now apply NoDup_insert.
      + apply nodups_NoDup. apply nodups_NoDup in H4. rewrite concat_insert. rewrite concat_two in H4, Fx. apply NoDup_insert; auto using item_attrs_NoDup.
      + rewrite concat_insert, F3. rewrite concat_two in H5. exact H5.
      + apply nodups_NoDup. apply nodups_NoDup in H6. rewrite map_app in H6, Fa |- *. cbn [map]. change (it_attr it :: map it_attr l2) with ([it_attr it] ++ map it_attr l2). apply NoDup_insert; [exact H6|repeat constructor; auto|]. intros x [<-|[]]. exact Fa.
      + apply forallb_insert; [exact H7|]. unfold placed. rewrite (ff_params _ _ Fc), (ff_kwargs _ _ Fc). cbn [andb]. unfold item_texts in F3. destruct (it_set it); try reflexivity; [congruence|discriminate F3].
  Qed.

  Theorem world_ok_ext : world_ok W' = true.
  Proof.
    unfold world_ok. apply forallb_forall. intros [c ci] Hin. change (w_classes W') with (w_classes W) in Hin. cbn [fst snd].
    assert (Hc : class_of W c = Some ci). { unfold class_of. apply sget_NoDup; [|exact Hin]. apply nodups_NoDup. unfold mros_ok in HM. now apply andb_prop in HM. }
    apply class_ok_ext; [exact Hc|]. unfold world_ok in HW. rewrite forallb_forall in HW. exact (HW _ Hin).
  Qed.

  Theorem mros_ok_ext : mros_ok W' = true.
  Proof. exact HM. Qed.

  Theorem world_ids_ext : world_ids_ok W = true -> world_ids_ok W' = true.
  Proof.
    intro H. unfold world_ids_ok in *. apply forallb_forall. intros [c ci] Hin. change (w_classes W') with (w_classes W) in Hin. rewrite forallb_forall in H. specialize (H _ Hin). cbn [fst snd] in *.
    change (item_ids_ok W') with (item_ids_ok W). 
    assert (Hc : class_of W c = Some ci). { unfold class_of. apply sget_NoDup; [|exact Hin]. apply nodups_NoDup. unfold mros_ok in HM. now apply andb_prop in HM. }
    destruct (ext_items c ci Hc) as [[_ ->]|[Hm [l1 [l2 [E ->]]]]]; [exact H|]. rewrite E in H. apply forallb_insert; [exact H|]. exact (ff_ids _ _ (fresh_class _ _ Hc Hm)).
  Qed.
End Ext.
