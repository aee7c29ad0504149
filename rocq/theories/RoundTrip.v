(** * Reading what was written. *)
From Coq Require Import String List NArith ZArith Bool Lia.
From Verif Require Import Ustr UstrProofs Res PyInt PyFloat PyNumProofs PyFmtProofs PyDate PyDateProofs Elem Value Geom Codec Spec EmitProofs CodecProofs ReadProofs ItemProofs.
Import ListNotations.
Local Open Scope Z_scope.

(** ** Elements assembled from several items *)

Lemma NoDup_app_remove_l {A} (a b : list A) : NoDup (a ++ b) -> NoDup b.
Proof. induction a as [|x a IH]; [auto|]. cbn. intro H. inversion H; subst. auto. Qed.

Lemma named_filter_none (L : list string) n nm ks :
  good_ns n = true -> good_name (u nm) = true -> (forall x, In x L -> good_name (u x) = true) -> ~ In nm L ->
  Forall (fun k => exists n' nm', good_ns n' = true /\ In nm' L /\ e_tag k = n' ++ u nm') ks ->
  filter (fun k => ueqb (e_tag k) (n ++ u nm)) ks = [].
Proof.
  intros Hn Hg HL Hni. induction 1 as [|k ks [n' [nm' [G1 [G2 G3]]]] _ IH]; [reflexivity|]. cbn [filter].
  rewrite G3, tag_eqb, u_eqb by auto.
  destruct (String.eqb_spec nm' nm) as [->|]; [contradiction|]. now rewrite andb_false_r.
Qed.

Lemma kids_filter (names : item -> list string) its ms n nm it m :
  good_ns n = true -> (forall i x, In i its -> In x (names i) -> good_name (u x) = true) ->
  Forall2 (fun i mm => Forall (fun k => exists n' nm', good_ns n' = true /\ In nm' (names i) /\ e_tag k = n' ++ u nm') (m_kids mm)) its ms ->
  NoDup (concat (map names its)) -> In (it, m) (combine its ms) -> In nm (names it) ->
  filter (fun k => ueqb (e_tag k) (n ++ u nm)) (concat (map m_kids ms)) =
  filter (fun k => ueqb (e_tag k) (n ++ u nm)) (m_kids m).
Proof.
  intros Hn Hg HF. induction HF as [|i mm its ms Hi HF IH]; [intros _ []|].
  intros Hd Hin Hnm. cbn [map concat] in *. rewrite filter_app.
  apply NoDup_app_remove_l in Hd as Hd'.
  assert (Hdis : forall y, In y (names i) -> ~ In y (concat (map names its))).
  { clear -Hd. induction (names i) as [|z l IHl]; [intros ? []|]. cbn in Hd. inversion Hd as [|? ? H1 H2]; subst.
    intros y [->|Hy]; [|now apply IHl]. intro. apply H1. apply in_or_app. now right. }
  destruct Hin as [E|Hin].
  - injection E as -> ->.
    assert (Hr : filter (fun k => ueqb (e_tag k) (n ++ u nm)) (concat (map m_kids ms)) = []).
    { apply (named_filter_none (concat (map names its))); auto.
      - apply (Hg it); [now left|assumption].
      - intros x Hx. apply in_concat in Hx as [l [Hl Hx]]. apply in_map_iff in Hl as [j [<- Hj]]. apply (Hg j); [now right|assumption].
      - clear -HF. induction HF as [|i mm its ms Hi _ IH]; [constructor|]. cbn [map concat]. apply Forall_app. split.
        + eapply Forall_impl; [|exact Hi]. cbn. intros k [n' [nm' [A [B C]]]]. exists n', nm'. repeat split; auto. apply in_or_app. now left.
        + eapply Forall_impl; [|exact IH]. cbn. intros k [n' [nm' [A [B C]]]]. exists n', nm'. repeat split; auto. apply in_or_app. now right. }
    now rewrite Hr, app_nil_r.
  - rewrite IH; [|intros; eapply Hg; [right; eassumption|assumption]|assumption|assumption|assumption].
    rewrite (named_filter_none (names i)); [reflexivity|assumption| | | |exact Hi].
    + apply (Hg it); [|assumption]. right. eapply in_combine_l; eassumption.
    + intros x Hx. apply (Hg i); [now left|assumption].
    + intro H. apply (Hdis _ H). apply in_concat. exists (names it). split; [|assumption].
      apply in_map. eapply in_combine_l; eassumption.
Qed.

Definition attr_of (it : item) (m : em) : Prop :=
  m_attr m = [] \/ exists t, m_attr m = [(u (it_node it), t)] /\ item_attrs it = [it_node it].

Lemma attrs_keys its ms : Forall2 attr_of its ms ->
  forall k, In k (map fst (concat (map m_attr ms))) -> exists nm, k = u nm /\ In nm (concat (map item_attrs its)).
Proof.
  induction 1 as [|i mm its ms Hi _ IH]; [intros ? []|]. cbn [map concat]. rewrite map_app. intros k Hk.
  apply in_app_or in Hk as [Hk|Hk].
  - destruct Hi as [E|[t [E1 E2]]]; [now rewrite E in Hk|]. rewrite E1 in Hk. destruct Hk as [<-|[]].
    exists (it_node i). split; [reflexivity|]. apply in_or_app. left. rewrite E2. now left.
  - destruct (IH k Hk) as [nm [E H]]. exists nm. split; [exact E|]. apply in_or_app. now right.
Qed.

Lemma attrs_nodup its ms : Forall2 attr_of its ms -> NoDup (concat (map item_attrs its)) ->
  NoDup (map fst (concat (map m_attr ms))).
Proof.
  induction 1 as [|i mm its ms Hi HF IH]; [constructor|]. cbn [map concat]. intro Hd. rewrite map_app.
  apply NoDup_app_remove_l in Hd as Hd'. destruct Hi as [E|[t [E1 E2]]].
  - rewrite E. now apply IH.
  - rewrite E1. cbn. constructor; [|now apply IH]. intro Hin.
    destruct (attrs_keys _ _ HF _ Hin) as [nm [En Hnm]]. apply u_inj in En. subst nm.
    rewrite E2 in Hd. cbn in Hd. inversion Hd; subst. contradiction.
Qed.

Lemma uget_none_keys {A} k (l : list (ustr * A)) : ~ In k (map fst l) -> uget k l = None.
Proof.
  induction l as [|[k' v] l IH]; [reflexivity|]. cbn. intro H. destruct (ueqb_spec k k') as [->|]; [exfalso; apply H; now left|].
  apply IH. intro; apply H; now right.
Qed.

Lemma attrs_get its ms n it m :
  good_ns n = true -> (forall i, In i its -> good_name (u (it_node i)) = true) ->
  Forall2 attr_of its ms -> NoDup (concat (map item_attrs its)) -> In (it, m) (combine its ms) ->
  item_attrs it = [it_node it] ->
  uget (n ++ u (it_node it)) (concat (map m_attr ms)) = uget (n ++ u (it_node it)) (m_attr m).
Proof.
  intros Hn Hg HF. induction HF as [|i mm its ms Hi HF IH]; [intros _ []|].
  intros Hd Hin Ha. cbn [map concat] in *. rewrite uget_app. apply NoDup_app_remove_l in Hd as Hd'.
  assert (Hkey : forall nm', good_name (u nm') = true -> good_name (u (it_node it)) = true -> n ++ u (it_node it) = u nm' -> nm' = it_node it).
  { intros nm' G1 G2 E. change (u nm') with ([] ++ u nm') in E. apply tag_inj in E as [_ E]; auto. now apply u_inj in E. }
  destruct Hin as [E|Hin].
  - injection E as -> ->. rewrite (uget_none_keys _ (concat (map m_attr ms))); [now destruct (uget _ (m_attr m))|].
    intro Hin. destruct (attrs_keys _ _ HF _ Hin) as [nm [En Hnm]].
    assert (Gn : good_name (u nm) = true).
    { apply in_concat in Hnm as [l [Hl Hx]]. apply in_map_iff in Hl as [j [<- Hj]].
      assert (nm = it_node j) by (unfold item_attrs in Hx; destruct (it_set j); cbn in Hx; tauto || (destruct Hx as [|[]]; auto)).
      subst nm. apply Hg. now right. }
    apply Hkey in En; [|exact Gn|apply Hg; now left]. subst nm. rewrite Ha in Hd. cbn in Hd. inversion Hd; subst. contradiction.
  - rewrite IH; [|intros; apply Hg; now right|assumption|assumption|assumption].
    rewrite (uget_none_keys _ (m_attr mm)); [reflexivity|]. intro H.
    destruct Hi as [E|[t [E1 E2]]]; [now rewrite E in H|]. rewrite E1 in H. destruct H as [H|[]]. cbn [fst] in H.
    assert (Hit : In it its) by (eapply in_combine_l; eassumption).
    symmetry in H. apply Hkey in H; [|apply Hg; now left|apply Hg; now right].
    rewrite E2 in Hd. cbn in Hd. inversion Hd as [|? ? H1 H2]; subst. apply H1. apply in_concat. exists (item_attrs it).
    split; [now apply in_map|]. rewrite Ha, H. now left.
Qed.

Lemma text_get its ms it m t0 :
  Forall2 (fun i mm => m_text mm = None \/ item_texts i = [it_node i]) its ms ->
  (length (concat (map item_texts its)) <= 1)%nat -> In (it, m) (combine its ms) -> item_texts it = [it_node it] ->
  t0 = None ->
  fold_left (fun t mm => match m_text mm with Some y => Some y | None => t end) ms t0 = m_text m.
Proof.
  intros HF. revert t0. induction HF as [|i mm its ms Hi HF IH]; [intros ? _ []|]. intros t0 Hl Hin Ht ->. cbn [fold_left].
  cbn [map concat] in Hl. rewrite app_length in Hl. destruct Hin as [E|Hin].
  - injection E as -> ->. rewrite Ht in Hl. cbn in Hl.
    assert (Hl' : length (concat (map item_texts its)) = 0%nat) by lia.
    assert (G : forall t, fold_left (fun t mm => match m_text mm with Some y => Some y | None => t end) ms t = t).
    { clear -HF Hl'. induction HF as [|i mm its ms Hi HF IH]; [reflexivity|]. intro t. cbn [map concat] in Hl'.
      rewrite app_length in Hl'. cbn [fold_left]. destruct Hi as [->|E]; [apply IH; lia|]. rewrite E in Hl'. cbn in Hl'. lia. }
    rewrite G. now destruct (m_text m).
  - assert (Hle : (1 <= length (concat (map item_texts its)))%nat).
    { assert (Hit : In it its) by (eapply in_combine_l; eassumption). clear -Hit Ht.
      induction its as [|j its IH]; [contradiction|]. cbn [map concat]. rewrite app_length.
      destruct Hit as [->|Hit]; [rewrite Ht; cbn; lia|]. specialize (IH Hit). lia. }
    destruct Hi as [->|E]; [apply IH; auto; lia|]. rewrite E in Hl. cbn in Hl. lia.
Qed.

Lemma Forall2_combine_in {A B} (P : A -> B -> Prop) l r a : Forall2 P l r -> In a l -> exists b, In (a, b) (combine l r) /\ P a b.
Proof.
  induction 1 as [|x y l r H _ IH]; [intros []|]. intros [->|Hin]; [exists y; split; [now left|assumption]|].
  destruct (IH Hin) as [b [H1 H2]]. exists b. split; [now right|assumption].
Qed.

(** ** The collected keyword arguments *)

Definition kw_of (r : item -> option value) (its : list item) : list (string * value) :=
  concat (map (fun it => match r it with Some v => [(it_attr it, v)] | None => [] end) its).

Lemma kw_of_keys r its k : In k (map fst (kw_of r its)) -> In k (map it_attr its).
Proof.
  unfold kw_of. induction its as [|it its IH]; [auto|]. cbn [map concat]. rewrite map_app. intro H.
  apply in_app_or in H as [H|H]; [|right; auto]. left. destruct (r it); [|contradiction]. now destruct H as [<-|[]].
Qed.

Lemma get_kwargs_spec W strict its a t ks nss r acc :
  (forall it, In it its -> try_nsids (fun n => get_kwarg W strict it a t ks n nss) nss (it_nsids it) = Ok (r it)) ->
  NoDup (map fst acc ++ map it_attr its) ->
  get_kwargs W strict its a t ks nss acc = Ok (acc ++ kw_of r its).
Proof.
  revert acc; induction its as [|it its IH]; intros acc H Hd; cbn [get_kwargs]; [unfold kw_of; cbn; now rewrite app_nil_r|].
  rewrite H by now left. cbn [bind].
  assert (Hni : ~ In (it_attr it) (map fst acc)).
  { cbn [map] in Hd. apply NoDup_remove_2 in Hd. intro; apply Hd. apply in_or_app. now left. }
  cbn [map] in Hd.
  unfold kw_of in *. cbn [map concat]. destruct (r it) as [v|].
  - rewrite sset_fresh by exact Hni. rewrite IH.
    + rewrite <- app_assoc. reflexivity.
    + intros; apply H; now right.
    + rewrite map_app. cbn. rewrite <- app_assoc. exact Hd.
  - apply IH; [intros; apply H; now right|]. now apply NoDup_remove_1 in Hd.
Qed.

Lemma kw_of_get r its a : NoDup (map it_attr its) ->
  sget a (kw_of r its) = match find_item a its with Some it => r it | None => None end.
Proof.
  unfold kw_of. induction its as [|it its IH]; [reflexivity|]. intro Hd. cbn [map concat find_item].
  inversion Hd as [|? ? Hni Hd']; subst. rewrite sget_app.
  destruct (String.eqb_spec a (it_attr it)) as [->|N].
  - destruct (r it) as [v|]; cbn [sget]; [now rewrite String.eqb_refl|].
    apply sget_None. intro H. apply Hni. now apply kw_of_keys in H.
  - destruct (r it) as [v|]; cbn [sget]; [|now apply IH].
    destruct (String.eqb_spec a (it_attr it)); [contradiction|]. now apply IH.
Qed.

Lemma kw_of_extras ci r its : extras_of ci (kw_of r its) =
  concat (map (fun it => if mem (it_attr it) (ci_params ci) then []
                         else match r it with Some v => [(it_attr it, v)] | None => [] end) its).
Proof.
  unfold extras_of, kw_of. induction its as [|it its IH]; [reflexivity|]. cbn [map concat]. rewrite filter_app, IH.
  f_equal. destruct (r it) as [v|]; cbn [filter fst]; [|now destruct (mem _ _)]. now destruct (mem _ _).
Qed.

(** ** Truth values that cannot raise *)

Definition not_obj (v : value) : bool := match v with VObj _ _ _ _ => false | _ => true end.

Lemma not_obj_bool W v : not_obj v = true -> exists b, py_bool W v = Ok b.
Proof. destruct v; cbn; eauto; discriminate. Qed.

Lemma store_not_obj W k o : match o with Some v => not_obj v = true | None => True end -> not_obj (store W k o) = true.
Proof.
  destruct o as [v|]; cbn; destruct k; try reflexivity; auto; destruct v; try discriminate; try reflexivity; intros _; cbn.
  - destruct (uempty s); [reflexivity|]. now destruct (uempty (strip s)).
  - destruct (uempty s); [reflexivity|]. now destruct (uempty (strip s)).
  - now destruct l.
Qed.

Lemma read_back_not_obj W prec vb ci attrs ms it v :
  item_ok W it = true -> item_typed W it (obj_attr ci attrs (it_attr it)) = true -> it_set it <> SObj ->
  read_back W prec vb ci attrs ms it = Some v -> not_obj v = true.
Proof.
  intros Hok Ht Hs H. unfold read_back in H.
  set (x := obj_attr ci attrs (it_attr it)) in *.
  assert (Hv : scalar_set (it_set it) = true -> item_typed W it (get_value vb x (it_default it)) = true).
  { intro E. unfold item_ok in Hok. rewrite !andb_true_iff in Hok. destruct Hok as [[_ Hd] _].
    assert (D : item_typed W it (it_default it) = true).
    { unfold default_ok in Hd. destruct (it_set it); try discriminate E; now apply andb_prop in Hd. }
    destruct (get_value_cases vb x (it_default it)) as [-> | [-> | ->]]; auto using item_typed_none. }
  set (w := get_value vb x (it_default it)) in *. unfold item_typed in Hv, Ht.
  destruct (it_set it); try congruence; try specialize (Hv eq_refl);
  try (destruct w; try discriminate Hv; try discriminate H;
    try (destruct (uempty _); try discriminate H); injection H as <-; reflexivity).
  - destruct w; try discriminate H. destruct l; [discriminate|]. injection H as <-. reflexivity.
  - destruct w; try discriminate H. cbv zeta in H. destruct (nilb _); [discriminate|]. injection H as <-. reflexivity.
  - destruct x; try discriminate H. destruct l; [discriminate|]. injection H as <-. reflexivity.
  - destruct (sget (it_attr it) ms) as [[[y ?] ?]|]; [destruct y|]; injection H as <-; reflexivity.
Qed.

(** ** Attributes of a typed object *)

Lemma all2_seq_eq (a b : list string) : all2 String.eqb a b = true -> a = b.
Proof. apply all2_eq. intros x y. apply seqb_eq. Qed.

Lemma shape_inv ci attrs : shape_ok ci attrs = true ->
  exists xs, map fst attrs = map fst (ci_pre ci) ++ xs ++ map fst (ci_post ci) /\
  NoDup (map fst attrs) /\ (forall k, In k xs -> mem k (ci_params ci) = false).
Proof.
  unfold shape_ok. rewrite !andb_true_iff. intros [[H1 H2] H3]. apply all2_seq_eq in H1. apply nodups_NoDup in H2.
  eexists. split; [exact H1|]. split; [exact H2|]. intros k Hk. rewrite forallb_forall in H3. specialize (H3 k Hk).
  now apply negb_true_iff in H3.
Qed.

Lemma find_setter its a s : has_track_item its a s = true -> exists it, find_item a its = Some it /\ it_set it = s.
Proof.
  unfold has_track_item. destruct (find_item a its) as [it|]; [|discriminate]. intro H. exists it. split; [reflexivity|].
  destruct (it_set it); try discriminate; destruct s; try discriminate; reflexivity.
Qed.

Lemma whens_typed l : forallb titem_typed l = true -> titems_aligned l = true ->
  forallb (fun o => match o with Some k => kdt_normal k | None => false end) (map ti_when l) = true /\
  forallb (fun o => match o with Some k => kdt_readable k | None => false end) (map ti_when l) = true.
Proof.
  unfold titems_aligned. rewrite andb_true_iff. intros H1 [H2 _]. rewrite !forallb_forall in *.
  split; intros o Ho; apply in_map_iff in Ho as [i [<- Hi]]; specialize (H1 i Hi); specialize (H2 i Hi);
    unfold titem_typed, titem_aligned in *; rewrite !andb_true_iff in *; destruct (ti_when i); tauto.
Qed.

Lemma coords_typed l : forallb titem_typed l = true -> forallb nums_valid (map ti_coord (filter item_coord_ok l)) = true.
Proof.
  rewrite !forallb_forall. intros H c Hc. apply in_map_iff in Hc as [i [<- Hi]]. apply filter_In in Hi as [Hi _].
  specialize (H i Hi). unfold titem_typed in H. rewrite !andb_true_iff in H. tauto.
Qed.

Lemma angles_typed l : forallb titem_typed l = true -> forallb nums_valid (concat (map (fun i => opt_list (ti_angle i)) l)) = true.
Proof.
  induction l as [|i l IH]; [reflexivity|]. cbn [forallb map concat]. rewrite andb_true_iff. intros [H1 H2].
  rewrite forallb_app, (IH H2), andb_true_r. unfold titem_typed in H1. rewrite !andb_true_iff in H1. destruct H1 as [_ H1].
  destruct (ti_angle i); cbn; [|reflexivity]. rewrite andb_true_iff in H1. destruct H1 as [-> _]. reflexivity.
Qed.

Record class_facts (W : world) (ci : class_info) (its : list item) : Prop := {
  cf_tag : good_name (u (ci_tag ci)) = true;
  cf_items : forall it, In it its -> item_ok W it = true;
  cf_names : NoDup (concat (map (item_names W) its));
  cf_xattrs : NoDup (concat (map item_attrs its));
  cf_texts : (length (concat (map item_texts its)) <= 1)%nat;
  cf_attrs : NoDup (map it_attr its);
  cf_placed : forall it, In it its -> placed ci it = true;
  cf_ctor : NoDup (map fst (ctor_attrs ci));
  cf_params : forall ak, In ak (ctor_attrs ci) -> mem (fst ak) (ci_params ci) = true;
  cf_kind : forall ak, In ak (ctor_attrs ci) ->
     ckind_ok (snd ak) (find_item (fst ak) its) = true /\ filter_ok W (snd ak) (find_item (fst ak) its) = true;
  cf_track : track_ok ci its = true;
  cf_root : root_ok ci its = true }.

Lemma class_ok_facts W ci its : class_ok W ci its = true -> class_facts W ci its.
Proof.
  unfold class_ok. rewrite !andb_true_iff. intros [[[[[[[[[[[H1 H2] H3] H4] H5] H6] H7] H8] H9] H10] H11] H12].
  rewrite forallb_forall in H2, H7, H9, H10. apply nodups_NoDup in H3, H4, H6, H8. apply Nat.leb_le in H5.
  constructor; auto. intros ak Hak. specialize (H10 ak Hak). now apply andb_prop in H10.
Qed.

Section Node.
  Variables (W : world) (ci : class_info) (its : list item) (attrs : list (string * value)).
  Hypothesis F : class_facts W ci its.
  Hypothesis Hshape : shape_ok ci attrs = true.
  Hypothesis Hattrs : forallb (attr_typed W ci its) attrs = true.

  Lemma attr_facts a x : sget a attrs = Some x -> attr_typed W ci its (a, x) = true.
  Proof. intro H. apply sget_In in H. rewrite forallb_forall in Hattrs. now apply Hattrs. Qed.

  Lemma track_items_typed l : sget "track_items"%string attrs = Some (VItems l) -> forallb titem_typed l = true.
  Proof.
    intro H. apply attr_facts in H. unfold attr_typed in H. apply andb_prop in H as [H _].
    destruct (find_item _ its) as [it|]; [|exact H]. unfold item_typed in H. now destruct (it_set it).
  Qed.

  Lemma obj_attr_typed it : In it its -> item_typed W it (obj_attr ci attrs (it_attr it)) = true \/
    exists l, sget (it_attr it) attrs = None /\ sget "track_items"%string attrs = Some (VItems l) /\ titems_aligned l = false.
  Proof.
    intro Hin. unfold obj_attr. assert (Hf := find_item_NoDup _ _ (cf_attrs _ _ _ F) Hin).
    destruct (sget (it_attr it) attrs) as [y|] eqn:E.
    { left. apply attr_facts in E. unfold attr_typed in E. rewrite Hf in E. now apply andb_prop in E. }
    destruct (ci_geom ci) eqn:Eg; try (left; apply item_typed_none).
    destruct (sget "track_items" attrs) as [y|] eqn:Et; try (left; apply item_typed_none).
    destruct y; try (left; apply item_typed_none).
    assert (Ht := track_items_typed l Et).
    destruct (titems_aligned l) eqn:Ea; [|right; exists l; repeat split; assumption || reflexivity]. left.
    assert (Hk := cf_track _ _ _ F). unfold track_ok, is_track in Hk. rewrite Eg, !andb_true_iff in Hk.
    destruct Hk as [[[[[_ K1] K2] K3] _] _].
    destruct (String.eqb_spec (it_attr it) "whens") as [E1|].
    { destruct (find_setter _ _ _ K1) as [it' [A1 A2]]. rewrite <- E1, Hf in A1. injection A1 as <-.
      unfold item_typed. rewrite A2. now apply whens_typed. }
    destruct (String.eqb_spec (it_attr it) "coords") as [E1|].
    { destruct (find_setter _ _ _ K2) as [it' [A1 A2]]. rewrite <- E1, Hf in A1. injection A1 as <-.
      unfold item_typed. rewrite A2. now apply coords_typed. }
    destruct (String.eqb_spec (it_attr it) "angles") as [E1|]; [|apply item_typed_none].
    destruct (find_setter _ _ _ K3) as [it' [A1 A2]]. rewrite <- E1, Hf in A1. injection A1 as <-.
    unfold item_typed. rewrite A2. now apply angles_typed.
  Qed.

  Hypothesis Hrd : forallb (attr_readable ci) attrs = true.

  Lemma attr_req_facts a x : sget a attrs = Some x ->
    match ckind_of ci a with Some CCleanReq => match x with VStr s => negb (uempty s) | _ => false end | _ => true end = true.
  Proof. intro H. apply sget_In in H. rewrite forallb_forall in Hrd. specialize (Hrd (a, x) H). unfold attr_readable in Hrd. now apply andb_prop in Hrd. Qed.

  Lemma attr_read_facts a x : sget a attrs = Some x -> match x with VItems l => titems_aligned l | _ => item_readable x end = true.
  Proof. intro H. apply sget_In in H. rewrite forallb_forall in Hrd. specialize (Hrd (a, x) H). unfold attr_readable in Hrd. now apply andb_prop in Hrd. Qed.

  Lemma obj_attr_ok it : In it its -> item_typed W it (obj_attr ci attrs (it_attr it)) = true.
  Proof.
    intro Hin. destruct (obj_attr_typed it Hin) as [H|[l [_ [H1 H2]]]]; [exact H|].
    apply attr_read_facts in H1. cbn in H1. congruence.
  Qed.

  Lemma obj_attr_readable it : In it its -> item_readable (obj_attr ci attrs (it_attr it)) = true.
  Proof.
    intro Hin. unfold obj_attr. destruct (sget (it_attr it) attrs) as [y|] eqn:E.
    { apply attr_read_facts in E. destruct y; try exact E. reflexivity. }
    destruct (ci_geom ci) eqn:Eg; try reflexivity.
    destruct (sget "track_items" attrs) as [y|] eqn:Et; try reflexivity. destruct y; try reflexivity.
    assert (Ht := track_items_typed l Et). apply attr_read_facts in Et. cbn in Et.
    destruct (String.eqb _ _); [now apply whens_typed|]. destruct (String.eqb _ _); [reflexivity|]. now destruct (String.eqb _ _).
  Qed.

  Lemma ctor_present a k : In (a, k) (ctor_attrs ci) -> exists x, sget a attrs = Some x.
  Proof.
    intro H. destruct (shape_inv _ _ Hshape) as [xs [E _]].
    destruct (sget a attrs) as [x|] eqn:Es; [eauto|]. exfalso. apply sget_None in Es. apply Es. rewrite E.
    unfold ctor_attrs in H. apply in_app_or in H as [H|H]; apply (in_map fst) in H; cbn in H.
    - apply in_or_app. now left.
    - apply in_or_app. right. apply in_or_app. now right.
  Qed.

  Lemma ctor_get a k : In (a, k) (ctor_attrs ci) -> ckind_of ci a = Some k.
  Proof. intro H. apply sget_NoDup; [apply (cf_ctor _ _ _ F)|exact H]. Qed.

  (** *** The constructor *)
  Variables (prec : option nat) (vb : verbosity) (ms : list (string * nattr)).

  Definition rbo (a : string) : option value :=
    match find_item a its with Some it => read_back W prec vb ci attrs ms it | None => None end.

  Definition na (ak : string * ckind) : string * value :=
    (fst ak, match snd ak with
             | CTrack => VItems (map (titem_norm prec) (items_in attrs))
             | k => store W k (rbo (fst ak))
             end).

  Definition xtra : list (string * value) :=
    concat (map (fun it => if mem (it_attr it) (ci_params ci) then []
                           else match read_back W prec vb ci attrs ms it with
                                | Some v => [(it_attr it, v)]
                                | None => []
                                end) its).

  Definition nattrs : list (string * value) := map na (ci_pre ci) ++ xtra ++ map na (ci_post ci).

  Lemma ex_keys a : In a (map fst xtra) -> mem a (ci_params ci) = false.
  Proof.
    unfold xtra. clear. induction its as [|it l IH]; [intros []|]. cbn [map concat]. rewrite map_app. intro H.
    apply in_app_or in H as [H|H]; [|auto]. destruct (mem (it_attr it) (ci_params ci)) eqn:E; [destruct H|].
    destruct (read_back _ _ _ _ _ _ it); [|destruct H]. destruct H as [<-|[]]. exact E.
  Qed.

  Lemma nattrs_get a k : In (a, k) (ctor_attrs ci) -> sget a nattrs = Some (snd (na (a, k))).
  Proof.
    intro H. assert (Hg := ctor_get a k H). assert (Hp := cf_params _ _ _ F _ H). cbn [fst] in Hp.
    unfold nattrs, ckind_of, ctor_attrs in *.
    assert (Hm : forall l, sget a (map na l) = match sget a l with Some k => Some (snd (na (a, k))) | None => None end).
    { induction l as [|[a' k'] l IH]; [reflexivity|]. cbn [map na fst snd sget].
      destruct (String.eqb_spec a a') as [->|]; [reflexivity|exact IH]. }
    rewrite sget_app, Hm. rewrite sget_app in Hg. destruct (sget a (ci_pre ci)) as [k'|]; [congruence|].
    rewrite sget_app, Hm, Hg.
    assert (E : sget a xtra = None).
    { apply sget_None. intro Hin. apply ex_keys in Hin. congruence. }
    now rewrite E.
  Qed.

  Lemma na_not_obj a k : In (a, k) (ctor_attrs ci) ->
    (forall it, find_item a its = Some it -> it_set it <> SObj) -> not_obj (snd (na (a, k))) = true.
  Proof.
    intros H Hs. cbn [na snd fst].
    assert (G : not_obj (store W k (rbo a)) = true).
    { apply store_not_obj. unfold rbo. destruct (find_item a its) as [it|] eqn:E; [|exact I].
      destruct (read_back _ _ _ _ _ _ it) as [v|] eqn:Er; [|exact I].
      destruct (find_item_In _ _ _ E) as [E1 E2].
      eapply read_back_not_obj; [apply (cf_items _ _ _ F _ E1)|now apply obj_attr_ok|now apply Hs|exact Er]. }
    destruct k; auto.
  Qed.

  Lemma simple_bool e : bool_simple ci its e = true -> forall g,
    exists b, eval_bool (map (fun av => match av with
            | (a, x) => (a, (x, sem W x, match x with VList l => map (sem W) l | _ => [] end)) end) nattrs) g e = Ok b.
  Proof.
    intros H g. set (env := map _ nattrs).
    assert (Henv : forall a, sget a env = match sget a nattrs with
        | Some x => Some (x, sem W x, match x with VList l => map (sem W) l | _ => [] end) | None => None end).
    { intro a. apply (sget_map (fun _ x => (x, sem W x, match x with VList l => map (sem W) l | _ => [] end))). }
    induction e; cbn [bool_simple] in H; try discriminate H; cbn [eval_bool].
    - eauto.
    - apply andb_prop in H as [H1 H2]. apply existsb_exists in H1 as [[a' k] [Hin E]]. apply seqb_eq in E. cbn in E. subst a'.
      unfold with_attr. rewrite Henv, (nattrs_get _ _ Hin). unfold a_bool. cbn [fst snd].
      apply not_obj_bool. apply na_not_obj; [exact Hin|]. intros it E. rewrite E in H2. intro Es. rewrite Es in H2. discriminate.
    - apply existsb_exists in H as [[a' k] [Hin E]]. apply seqb_eq in E. cbn in E. subst a'.
      unfold with_attr. rewrite Henv, (nattrs_get _ _ Hin). eauto.
    - apply andb_prop in H as [H1 H2]. destruct (IHe1 H1) as [b1 ->]. cbn [bind]. destruct b1; eauto.
    - apply andb_prop in H as [H1 H2]. destruct (IHe1 H1) as [b1 ->]. cbn [bind]. destruct b1; eauto.
  Qed.

  (** What the constructor receives. *)
  Notation kws := (kw_of (read_back W prec vb ci attrs ms) its).

  Lemma kws_get a : sget a kws = rbo a.
  Proof. apply kw_of_get, (cf_attrs _ _ _ F). Qed.

  Lemma kwget_kws a : kwget kws a = match rbo a with Some v => v | None => VNone end.
  Proof. unfold kwget. now rewrite kws_get. Qed.

  Lemma text_back it : In it its -> match it_set it with SNodeText | SText | SAttrText => true | _ => false end = true ->
    match read_back W prec vb ci attrs ms it with None => True | Some v => exists s, v = VStr s /\ s <> [] end.
  Proof.
    intros Hin Hs. unfold read_back. destruct (it_set it); try discriminate Hs;
      destruct (get_value _ _ _); try exact I;
      match goal with |- context [uempty ?t] => destruct t eqn:E; cbn [uempty]; [exact I|eexists; split; [reflexivity|congruence]] end.
  Qed.

  Lemma enum_back it : In it its -> match it_set it with SEnum | SAttrEnum => true | _ => false end = true ->
    match read_back W prec vb ci attrs ms it with None => True | Some v => exists c m, v = VEnum c m end.
  Proof.
    intros Hin Hs. assert (Ht := obj_attr_ok it Hin). assert (Hr := obj_attr_readable it Hin).
    assert (Hsc : scalar_set (it_set it) = true) by (destruct (it_set it); try discriminate Hs; reflexivity).
    destruct (get_value_typed W it vb _ (cf_items _ _ _ F _ Hin) Hsc Ht Hr) as [Hv _].
    unfold read_back. unfold item_typed in Hv. destruct (it_set it); try discriminate Hs;
      destruct (get_value _ _ _); try discriminate Hv; try exact I; eauto.
  Qed.

  Lemma list_back it : it_set it = SObjs -> exists l, read_back W prec vb ci attrs ms it = Some (VList l).
  Proof. intro E. unfold read_back. rewrite E. destruct (sget _ ms) as [[[y ?] ?]|]; [destruct y|]; eauto. Qed.

  Lemma coords_back it : it_set it = SCoords ->
    match read_back W prec vb ci attrs ms it with None => True | Some v => exists b l, v = VCoords b l end.
  Proof. intro E. unfold read_back. rewrite E. destruct (obj_attr _ _ _); try exact I. destruct l; [exact I|]. eauto. Qed.

  (** Members of filtered lists have a truth value. *)
  Hypothesis Hgroup : forall a it l, In (a, CFilter) (ctor_attrs ci) -> find_item a its = Some it ->
    read_back W prec vb ci attrs ms it = Some (VList l) -> forall v, In v l -> exists b, py_bool W v = Ok b.

  Lemma filter_true_ok l : (forall v, In v l -> exists b, py_bool W v = Ok b) -> filter_true W l = Ok (filter (truth W) l).
  Proof.
    induction l as [|v l IH]; [reflexivity|]. intro H. cbn [filter_true filter].
    destruct (H v (or_introl eq_refl)) as [b Hb]. rewrite Hb, (truth_ok _ _ _ Hb). cbn [bind].
    rewrite IH by (intros; apply H; now right). cbn [bind]. now destruct b.
  Qed.

  Lemma num_norm_nan n : num_valid n = true -> num_nan n = false -> num_nan (num_norm prec n) = false.
  Proof.
    intros Hv Hn. assert (Ht : is_nan (to_float n) = false).
    { destruct n as [z|f]; cbn in *; [|exact Hn]. unfold float_of_Z, round_ratio. cbv zeta.
      destruct (_ =? _); destruct (_ <=? _); reflexivity. }
    apply to_float_valid in Hv. unfold num_norm, num_nan. destruct prec as [p|]; [|exact Ht].
    assert (E := fmt_round_idem p _ Hv). destruct (round_to p (to_float n)) eqn:Er; try reflexivity.
    exfalso. clear -E Ht Hv.
    destruct (to_float n) as [|sg|sg m e]; [discriminate Ht|destruct sg; discriminate E|].
    assert (Hf : 0 <= fmag m e) by (destruct (fvalid_inv _ _ _ Hv) as [? [? _]]; apply fmag_nonneg; lia).
    destruct (fixed_mag_parse sg p m e Hf) as [_ [_ Hd]]. cbn [fmt_float] in E.
    destruct sg; [discriminate E|]. cbn [app] in E. destruct (fixed_mag p m e) as [|d r]; [discriminate|].
    injection E as <- _. discriminate Hd.
  Qed.

  Lemma track_key a : is_track ci = true -> mem a track_attrs = true -> sget a attrs = None.
  Proof.
    intros Ht Ha. assert (Hk := cf_track _ _ _ F). unfold track_ok in Hk. rewrite Ht, !andb_true_iff in Hk.
    destruct Hk as [_ Hk]. rewrite forallb_forall in Hk. apply mem_In in Ha. specialize (Hk a Ha).
    apply andb_prop in Hk as [K1 K2]. apply negb_true_iff in K2.
    apply sget_None. intro Hin. destruct (shape_inv _ _ Hshape) as [xs [E [_ Hx]]]. rewrite E in Hin.
    apply in_app_or in Hin as [Hin|Hin]; [|apply in_app_or in Hin as [Hin|Hin]].
    - assert (existsb (fun ak => String.eqb a (fst ak)) (ctor_attrs ci) = true); [|congruence].
      apply in_map_iff in Hin as [ak [E1 E2]]. apply existsb_exists. exists ak. split; [apply in_or_app; now left|]. subst a. apply String.eqb_refl.
    - rewrite (Hx a Hin) in K1. discriminate.
    - assert (existsb (fun ak => String.eqb a (fst ak)) (ctor_attrs ci) = true); [|congruence].
      apply in_map_iff in Hin as [ak [E1 E2]]. apply existsb_exists. exists ak. split; [apply in_or_app; now right|]. subst a. apply String.eqb_refl.
  Qed.

  Lemma track_back a s l : is_track ci = true -> mem a track_attrs = true -> has_track_item its a s = true ->
    sget "track_items"%string attrs = Some (VItems l) ->
    obj_attr ci attrs a = (if String.eqb a "whens" then VDates (map ti_when l)
          else if String.eqb a "coords" then VCoords true (map ti_coord (filter item_coord_ok l))
          else if String.eqb a "angles" then VCoords true (concat (map (fun i => opt_list (ti_angle i)) l)) else VNone) /\
    exists it, find_item a its = Some it /\ it_set it = s /\ get_value vb (obj_attr ci attrs a) (it_default it) = obj_attr ci attrs a.
  Proof.
    intros Ht Ha Hs El. assert (Ex : obj_attr ci attrs a = (if String.eqb a "whens" then VDates (map ti_when l)
          else if String.eqb a "coords" then VCoords true (map ti_coord (filter item_coord_ok l))
          else if String.eqb a "angles" then VCoords true (concat (map (fun i => opt_list (ti_angle i)) l)) else VNone)).
    { unfold obj_attr. rewrite (track_key a Ht Ha). unfold is_track in Ht. destruct (ci_geom ci); try discriminate Ht.
      now rewrite El. }
    split; [exact Ex|]. destruct (find_setter _ _ _ Hs) as [it [E1 E2]]. exists it. split; [exact E1|]. split; [exact E2|].
    destruct (find_item_In _ _ _ E1) as [I1 I2]. rewrite <- I2. apply list_value with (W := W).
    - now apply (cf_items _ _ _ F).
    - unfold has_track_item in Hs. rewrite E1 in Hs. destruct (it_set it); try discriminate Hs; auto.
    - rewrite I2, Ex. apply mem_In in Ha. destruct Ha as [<-|[<-|[<-|[]]]]; cbn [String.eqb Ascii.eqb Bool.eqb]; eauto.
  Qed.

  Lemma zip_aligned (prec' : option nat) l :
    forallb titem_typed l = true -> forallb titem_aligned l = true ->
    (forall n, num_valid n = true -> num_nan n = false -> num_nan (num_norm prec' n) = false) ->
    (forallb has_angle l = true ->
      zip_items (map ti_when l) (map (point_norm prec') (map ti_coord l))
        (map (point_norm prec') (concat (map (fun i => opt_list (ti_angle i)) l))) (length l) = Ok (map (titem_norm prec') l)) /\
    (forallb (fun i => negb (has_angle i)) l = true ->
      zip_items (map ti_when l) (map (point_norm prec') (map ti_coord l)) [] (length l) = Ok (map (titem_norm prec') l)).
  Proof.
    clear. intros Ht Ha Hnan. induction l as [|i l IH]; [split; reflexivity|].
    cbn [forallb] in Ht, Ha. apply andb_prop in Ht as [Ht1 Ht2]. apply andb_prop in Ha as [Ha1 Ha2].
    destruct (IH Ht2 Ha2) as [IH1 IH2].
    unfold titem_typed in Ht1. unfold titem_aligned in Ha1. rewrite !andb_true_iff in Ht1, Ha1.
    destruct Ht1 as [[T1 T2] T3]. destruct Ha1 as [[A1 A2] A3].
    assert (Hp : mk_point (point_norm prec' (ti_coord i)) = Ok (point_norm prec' (ti_coord i))).
    { unfold mk_point, point_norm. rewrite map_length.
      assert (Hf : filter (fun n => negb (num_nan n)) (map (num_norm prec') (ti_coord i)) = map (num_norm prec') (ti_coord i)).
      { unfold nums_valid in T2. rewrite forallb_forall in T2, A3. clear -T2 A3 Hnan. induction (ti_coord i) as [|n cs IH]; [reflexivity|]. cbn [map filter].
        rewrite Hnan; [|apply T2; now left|apply negb_true_iff, A3; now left]. cbn [negb]. rewrite IH; [reflexivity|..]; intros; [apply T2|apply A3]; now right. }
      rewrite Hf. apply orb_prop in A2 as [A2|A2]; apply Nat.eqb_eq in A2; now rewrite A2. }
    cbn [forallb map concat length zip_items].
    split; intro Hg; apply andb_prop in Hg as [Hg1 Hg2].
    - specialize (IH1 Hg2). unfold has_angle in Hg1. destruct (ti_angle i) as [a|] eqn:Ea; [|discriminate].
      cbn [opt_list app map hd tl]. unfold mk_titem. rewrite Hp. cbn [bind]. apply andb_prop in T3 as [_ T3].
      apply Nat.eqb_eq in T3. destruct a as [|n1 [|n2 [|n3 [|]]]]; try discriminate T3.
      change (mk_angle (point_norm prec' [n1; n2; n3])) with (Ok (point_norm prec' [n1; n2; n3])). cbn [bind].
      rewrite IH1. cbn [bind]. unfold titem_norm at 2. rewrite Ea. reflexivity.
    - specialize (IH2 Hg2). unfold has_angle in Hg1. destruct (ti_angle i) as [a|] eqn:Ea; [discriminate|].
      cbn [hd tl]. unfold mk_titem. rewrite Hp. cbn [bind mk_angle]. rewrite IH2. cbn [bind].
      unfold titem_norm at 2. rewrite Ea. reflexivity.
  Qed.

  Lemma track_built l : is_track ci = true -> sget "track_items"%string attrs = Some (VItems l) ->
    build_track VNone (kwget kws "whens") (kwget kws "coords") (kwget kws "angles") =
    Ok (VItems (map (titem_norm prec) l)).
  Proof.
    intros Ht El. assert (Hty := track_items_typed l El). assert (Hal := attr_read_facts _ _ El). cbn in Hal.
    assert (Hk := cf_track _ _ _ F). unfold track_ok in Hk. rewrite Ht, !andb_true_iff in Hk.
    destruct Hk as [[[[[_ K1] K2] K3] _] _].
    destruct (track_back "whens" SDates l Ht eq_refl K1 El) as [X1 [it1 [F1 [S1 V1]]]].
    destruct (track_back "coords" SCoordList l Ht eq_refl K2 El) as [X2 [it2 [F2 [S2 V2]]]].
    destruct (track_back "angles" SCoordList l Ht eq_refl K3 El) as [X3 [it3 [F3 [S3 V3]]]].
    cbn [String.eqb Ascii.eqb Bool.eqb] in X1, X2, X3.
    destruct (find_item_In _ _ _ F1) as [_ A1]. destruct (find_item_In _ _ _ F2) as [_ A2]. destruct (find_item_In _ _ _ F3) as [_ A3].
    rewrite !kwget_kws. unfold rbo. rewrite F1, F2, F3. unfold read_back. rewrite S1, S2, S3, A1, A2, A3, V1, V2, V3, X1, X2, X3.
    unfold titems_aligned in Hal. apply andb_prop in Hal as [Hal Han].
    assert (Hc : filter (fun c => negb (nilb c)) (map ti_coord (filter item_coord_ok l)) = map ti_coord l).
    { clear -Hal. induction l as [|i l IH]; [reflexivity|]. cbn [forallb] in Hal. apply andb_prop in Hal as [H1 H2].
      unfold titem_aligned in H1. rewrite !andb_true_iff in H1. destruct H1 as [[_ H1] _]. cbn [filter map].
      assert (E : item_coord_ok i = true).
      { unfold item_coord_ok. cbn [geo_empty]. apply orb_prop in H1 as [H1|H1]; apply Nat.eqb_eq in H1; now rewrite H1. }
      rewrite E. cbn [map filter]. rewrite IH by exact H2.
      apply orb_prop in H1 as [H1|H1]; apply Nat.eqb_eq in H1; destruct (ti_coord i); try discriminate H1; reflexivity. }
    rewrite Hc. destruct (zip_aligned prec l Hty Hal num_norm_nan) as [Z1 Z2].
    destruct l as [|i0 l0].
    { reflexivity. }
    remember (i0 :: l0) as l eqn:Eqn.
    assert (Hnn : forall A (f : titem -> A), nilb (map f l) = false) by (intros; subst l; reflexivity).
    assert (E1 : match map ti_when l with [] => None | _ :: _ => Some (VDates (map ti_when l)) end = Some (VDates (map ti_when l))) by (subst l; reflexivity).
    rewrite E1. clear E1.
    rewrite map_map, Hnn. rewrite <- (map_map ti_coord (point_norm prec)).
    assert (Hmax : forall n, (n <= length l)%nat -> Nat.max (length (map ti_when l)) (Nat.max (length (map (point_norm prec) (map ti_coord l))) n) = length l).
    { intros n Hn. rewrite !map_length. lia. }
    apply orb_prop in Han as [Han|Han].
    - specialize (Z1 Han). clear Z2.
      assert (Ha : filter (fun c => negb (nilb c)) (concat (map (fun i => opt_list (ti_angle i)) l)) = concat (map (fun i => opt_list (ti_angle i)) l) /\
                   length (concat (map (fun i => opt_list (ti_angle i)) l)) = length l).
      { clear -Han Hty. induction l as [|i l IH]; [split; reflexivity|]. cbn [forallb] in Han, Hty. apply andb_prop in Han as [H1 H2].
        apply andb_prop in Hty as [T1 T2]. destruct (IH T2 H2) as [I1 I2]. cbn [map concat].
        unfold titem_typed in T1. rewrite !andb_true_iff in T1. destruct T1 as [_ T1].
        unfold has_angle in H1. destruct (ti_angle i) as [a|]; [|discriminate]. cbn [opt_list app filter length].
        apply andb_prop in T1 as [_ T1]. apply Nat.eqb_eq in T1. destruct a; [discriminate|]. cbn [nilb negb]. now rewrite I1, I2. }
      destruct Ha as [Ha1 Ha2]. rewrite Ha1.
      assert (Hna : nilb (map (point_norm prec) (concat (map (fun i => opt_list (ti_angle i)) l))) = false).
      { subst l. destruct (concat _); [discriminate Ha2|reflexivity]. }
      rewrite Hna. unfold build_track. cbn [titems_of dates_of points_of bind nilb negb andb].
      rewrite Hnn. rewrite (map_map ti_coord (point_norm prec)), Hnn, <- (map_map ti_coord (point_norm prec)). cbn [negb orb andb].
      rewrite Hmax by (rewrite map_length; lia). rewrite Z1. reflexivity.
    - specialize (Z2 Han). clear Z1.
      assert (Ha : concat (map (fun i => opt_list (ti_angle i)) l) = []).
      { clear -Han. induction l as [|i l IH]; [reflexivity|]. cbn [forallb] in Han. apply andb_prop in Han as [H1 H2].
        cbn [map concat]. rewrite (IH H2). unfold has_angle in H1. now destruct (ti_angle i). }
      rewrite Ha. cbn [filter map nilb]. unfold build_track. cbn [titems_of dates_of points_of bind nilb negb andb].
      rewrite Hnn. rewrite (map_map ti_coord (point_norm prec)), Hnn, <- (map_map ti_coord (point_norm prec)). cbn [negb orb andb].
      rewrite Hmax by (cbn; lia). rewrite Z2. reflexivity.
  Qed.

  Lemma mk_attr_ok ak : In ak (ctor_attrs ci) -> mk_attr W kws ak = Ok (na ak).
  Proof.
    destruct ak as [a k]. intro Hin. destruct (cf_kind _ _ _ F _ Hin) as [Hk Hf]. cbn [fst snd] in Hk, Hf.
    destruct (ctor_present a k Hin) as [x Ex]. assert (Hx := attr_facts a x Ex). unfold attr_typed in Hx.
    rewrite (ctor_get a k Hin) in Hx. apply andb_prop in Hx as [Hx1 Hx2].
    unfold mk_attr. rewrite kwget_kws. unfold na. cbn [fst snd].
    destruct k.
    - (* CRaw *) reflexivity.
    - (* CClean *)
      assert (G : match rbo a with None => True | Some v => exists s, v = VStr s /\ s <> [] end).
      { unfold rbo. destruct (find_item a its) as [it|] eqn:Ei; [|exact I]. apply text_back; [now apply find_item_In in Ei|].
        cbn [ckind_ok] in Hk. destruct (it_set it); try discriminate Hk; reflexivity. }
      destruct (rbo a) as [v|]; [destruct G as [s [-> G]]|reflexivity]. cbn [store clean_string]. destruct (uempty s); reflexivity.
    - (* CCleanReq *)
      unfold rbo. destruct (find_item a its) as [it|] eqn:Ei; [|discriminate Hk]. cbn [ckind_ok] in Hk.
      destruct (find_item_In _ _ _ Ei) as [I1 I2].
      assert (Hx3 := attr_req_facts a x Ex). rewrite (ctor_get a _ Hin) in Hx3. clear Hx2. rename Hx3 into Hx2.
      destruct x as [ | | |s| | | | | | | | ]; try discriminate Hx2.
      unfold read_back. rewrite I2. unfold obj_attr. rewrite Ex.
      destruct (it_set it); try discriminate Hk. destruct (it_default it); try discriminate Hk.
      assert (Ev : get_value vb (VStr s) VNone = VStr s) by now destruct vb. rewrite Ev.
      apply negb_true_iff in Hx2. rewrite Hx2. cbn [py_bool sem fst]. unfold py_bool. cbn [sem fst bind]. rewrite Hx2.
      cbn [negb store clean_string]. rewrite Hx2. reflexivity.
    - (* COrEmpty *)
      assert (G : match rbo a with None => True | Some v => exists s, v = VStr s /\ s <> [] end).
      { unfold rbo. destruct (find_item a its) as [it|] eqn:Ei; [|exact I]. apply text_back; [now apply find_item_In in Ei|].
        cbn [ckind_ok] in Hk. destruct (it_set it); try discriminate Hk; reflexivity. }
      destruct (rbo a) as [v|]; [destruct G as [s [-> G]]|reflexivity]. unfold py_bool. cbn [sem fst bind store]. now destruct s.
    - (* COrNone *)
      assert (G : match rbo a with None => True | Some v => py_bool W v = Ok true end).
      { unfold rbo. destruct (find_item a its) as [it|] eqn:Ei; [|exact I]. apply find_item_In in Ei as [Ei _].
        cbn [ckind_ok] in Hk.
        destruct (match it_set it with SNodeText | SText | SAttrText => true | _ => false end) eqn:Et.
        - assert (T := text_back it Ei Et). destruct (read_back _ _ _ _ _ _ it); [|exact I]. destruct T as [s [-> T]].
          unfold py_bool. cbn [sem fst]. now destruct s.
        - assert (T := enum_back it Ei). destruct (it_set it); try discriminate Hk; try discriminate Et; specialize (T eq_refl);
            (destruct (read_back _ _ _ _ _ _ it); [|exact I]); destruct T as [c [w ->]]; reflexivity. }
      destruct (rbo a) as [v|]; [rewrite G|]; reflexivity.
    - (* CListTruthy *)
      unfold rbo. destruct (find_item a its) as [it|] eqn:Ei; [|reflexivity]. cbn [ckind_ok] in Hk.
      destruct (list_back it) as [l ->]; [|reflexivity]. destruct (it_set it); try discriminate Hk; reflexivity.
    - (* CListNotNone *)
      unfold rbo. destruct (find_item a its) as [it|] eqn:Ei; [|reflexivity]. cbn [ckind_ok] in Hk.
      destruct (list_back it) as [l ->]; [|reflexivity]. destruct (it_set it); try discriminate Hk; reflexivity.
    - (* CFilter *)
      unfold rbo. destruct (find_item a its) as [it|] eqn:Ei; [|reflexivity]. cbn [ckind_ok] in Hk.
      destruct (list_back it) as [l El]; [destruct (it_set it); try discriminate Hk; reflexivity|].
      rewrite El. rewrite filter_true_ok; [reflexivity|]. intros v Hv. eapply Hgroup; eassumption.
    - (* CCoordsOr *)
      assert (G : match rbo a with None => True | Some v => exists b l, v = VCoords b l end).
      { unfold rbo. destruct (find_item a its) as [it|] eqn:Ei; [|exact I]. cbn [ckind_ok] in Hk. apply coords_back.
        destruct (it_set it); try discriminate Hk; reflexivity. }
      destruct (rbo a) as [v|]; [destruct G as [b [l ->]]|reflexivity]. unfold py_bool. cbn [sem fst bind store]. now destruct l.
    - (* CTrack *)
      unfold rbo. destruct (find_item a its) as [it|] eqn:Ei; [discriminate Hk|].
      destruct x as [ | | | | | | | | |l| | ]; try discriminate Hx2.
      assert (Ht : is_track ci = true /\ a = "track_items"%string).
      { assert (T := cf_track _ _ _ F). unfold track_ok in T. destruct (is_track ci).
        - split; [reflexivity|]. rewrite !andb_true_iff in T. destruct T as [[_ T] _]. rewrite forallb_forall in T.
          specialize (T _ Hin). cbn [fst snd] in T. rewrite orb_false_r in T. now apply seqb_eq.
        - rewrite forallb_forall in T. now specialize (T _ Hin). }
      destruct Ht as [Ht ->]. rewrite (track_built l Ht Ex). unfold items_in. rewrite Ex. reflexivity.
  Qed.

  Lemma construct_ok c ns nss : class_of W c = Some ci -> its = items_of W c ->
    construct W c ns nss kws = Ok (VObj c ns (merge_ns nss) nattrs).
  Proof.
    intros Hc Hits. unfold construct. rewrite Hc, kw_of_extras. fold xtra.
    assert (Hx : negb (ci_kwargs ci) && negb (nilb xtra) = false).
    { destruct (ci_kwargs ci) eqn:Ek; [reflexivity|]. cbn [negb andb]. apply negb_false_iff.
      assert (E : xtra = []); [|now rewrite E].
      assert (Hp := cf_placed _ _ _ F). unfold xtra. clear -Hp Ek. induction its as [|it l IH]; [reflexivity|]. cbn [map concat].
      rewrite IH by (intros; apply Hp; now right).
      specialize (Hp it (or_introl eq_refl)). unfold placed in Hp. rewrite Ek in Hp. destruct (mem _ _); [reflexivity|discriminate Hp]. }
    rewrite Hx.
    assert (G : forall l, (forall ak, In ak l -> In ak (ctor_attrs ci)) -> map_res (mk_attr W kws) l = Ok (map na l)).
    { induction l as [|ak l IH]; [reflexivity|]. intro H. cbn [map_res map]. rewrite mk_attr_ok by (apply H; now left).
      cbn [bind]. rewrite IH by (intros; apply H; now right). reflexivity. }
    rewrite !G; [reflexivity|..]; intros ak Hak; apply in_or_app; auto.
  Qed.
End Node.

Lemma world_class W c ci : world_ok W = true -> class_of W c = Some ci -> class_facts W ci (items_of W c).
Proof.
  unfold world_ok, class_of. rewrite forallb_forall. intros H E. apply sget_In in E. specialize (H _ E).
  now apply class_ok_facts.
Qed.

Lemma norm_nattrs W prec vb c ci ns nss attrs : class_of W c = Some ci ->
  norm W prec vb (VObj c ns nss attrs) = VObj c ns nss (nattrs W ci (items_of W c) attrs prec vb (ns_of W prec vb attrs)).
Proof. intro H. rewrite norm_obj. unfold norm_with. rewrite H. reflexivity. Qed.

Lemma norm_bool W prec vb c ci ns nss attrs : world_ok W = true -> class_of W c = Some ci ->
  typed_node W c ns nss attrs = true -> rt_node W c ns nss attrs = true ->
  bool_simple ci (items_of W c) (ci_bool ci) = true ->
  exists b, py_bool W (norm W prec vb (VObj c ns nss attrs)) = Ok b.
Proof.
  intros HW Hc Ht Hr Hb. assert (F := world_class _ _ _ HW Hc).
  unfold typed_node in Ht. unfold rt_node in Hr. rewrite Hc in Ht, Hr. apply andb_prop in Ht as [T1 T2].
  rewrite !andb_true_iff in Hr. destruct Hr as [[[R1 R2] R3] R4].
  rewrite (norm_nattrs _ _ _ _ _ _ _ _ Hc). unfold py_bool. cbn [sem]. rewrite Hc. cbn [fst].
  eapply simple_bool; eassumption.
Qed.

Lemma Forall2_weaken {A B} (P Q : A -> B -> Prop) l r : (forall a b, P a b -> Q a b) -> Forall2 P l r -> Forall2 Q l r.
Proof. intros H F. induction F; constructor; auto. Qed.

Section Main.
  Variables (W : world) (prec : option nat) (vb : verbosity) (strict : bool).
  Hypothesis HW : world_ok W = true.

  Lemma names_same it : item_ok W it = true -> get_names W it = item_names W it /\ get_attrs it = item_attrs it /\
    get_texts it = negb (nilb (item_texts it)).
  Proof.
    unfold item_ok. rewrite !andb_true_iff. intros [[[H _] _] _]. unfold get_names, item_names, get_attrs, item_attrs, get_texts, item_texts.
    destruct (it_get it), (it_set it); try discriminate H; repeat split; reflexivity.
  Qed.

  Lemma item_attrs_inv it nm : In nm (item_attrs it) -> nm = it_node it /\ item_attrs it = [it_node it].
  Proof. unfold item_attrs. destruct (it_set it); intros H; try destruct H as [<-|[]]; try destruct H; auto. Qed.

  Lemma node_rt c ns nss attrs e :
    typed_node W c ns nss attrs = true -> rt_node W c ns nss attrs = true ->
    (forall a y, sget a attrs = Some y ->
       vall (typed_node W) y = true /\ vall (rt_node W) y = true /\
       kid_rt W prec vb strict y /\ Forall (kid_rt W prec vb strict) (members y)) ->
    etree W prec vb (VObj c ns nss attrs) = Ok e ->
    good_ns ns = true /\ e_tag e = ns ++ u (tag_of W c) /\ from_element W strict e c ns nss = Ok (norm W prec vb (VObj c ns nss attrs)).
  Proof.
    intros Ht Hr Hkids He. unfold typed_node in Ht. unfold rt_node in Hr.
    destruct (class_of W c) as [ci|] eqn:Hc; [|discriminate].
    assert (F := world_class _ _ _ HW Hc). set (its := items_of W c) in *.
    apply andb_prop in Ht as [T1 T2]. rewrite !andb_true_iff in Hr. destruct Hr as [[[R1 R2] R3] R4].
    unfold nss_ok in R2. apply andb_prop in R2 as [R2 R5]. apply pair_list_eq in R2.
    split; [exact R1|].
    assert (Item : forall it m, In it its -> emit W prec vb ci ns nss attrs (ws_of W prec vb attrs) it = Ok m ->
       item_goal W prec vb strict ci nss attrs it m).
    { intros it m Hin Hm. apply (item_rt W prec vb strict ci ns nss attrs it) with (m := m); auto.
      - now apply (cf_items _ _ _ F).
      - assert (Hn := cf_names _ _ _ F). clear -Hin Hn. induction its as [|j l IH]; [contradiction|]. cbn [map concat] in Hn.
        destruct Hin as [->|Hin]; [|apply IH; [assumption|now apply NoDup_app_remove_l in Hn]].
        clear IH. induction (item_names W it) as [|x l' IH]; [constructor|]. cbn in Hn. inversion Hn; subst. constructor; auto.
        intro. apply H1. apply in_or_app. now left.
      - eapply obj_attr_ok; eassumption.
      - eapply obj_attr_readable; eassumption.
      - rewrite forallb_forall in R4. now apply R4.
      - intros y Hy. unfold obj_attr. now rewrite Hy.
      - intros y Hy. destruct (Hkids _ _ Hy) as [_ [_ [K1 K2]]]. now split. }
    (* the keyword arguments *)
    assert (Kws : e_tag e = ns ++ u (tag_of W c) /\
      forall it, In it its -> try_nsids (fun n => get_kwarg W strict it (e_attrib e) (e_text e) (map (rk W strict) (e_kids e)) n nss) nss (it_nsids it) =
        Ok (read_back W prec vb ci attrs (ns_of W prec vb attrs) it)).
    { rewrite etree_obj in He. unfold write_with in He. rewrite Hc in He. unfold tag_of. rewrite Hc.
      assert (Hroot := cf_root _ _ _ F). unfold root_ok in Hroot. destruct (ci_root ci).
      - destruct its as [|it [|]] eqn:Eits; try discriminate Hroot. apply andb_prop in Hroot as [Ra Rs]. apply seqb_eq in Ra.
        assert (Es : it_set it = SObjs) by (destruct (it_set it); try discriminate Rs; reflexivity).
        rewrite set_element_emit in He. apply bind_ok in He as [m [Hm He]]. injection He as <-.
        assert (Hm' : emit W prec vb ci ns nss attrs (ws_of W prec vb attrs) it = Ok m).
        { unfold emit in *. rewrite Es, Ra. exact Hm. }
        destruct (Item it m (or_introl eq_refl) Hm') as [I1 [I2 [I3 I4]]].
        assert (Hat : m_attr m = []).
        { destruct I2 as [I2|[t [_ I2]]]; [exact I2|]. unfold item_attrs in I2. rewrite Es in I2. discriminate. }
        split.
        + unfold root_elem. destruct (uempty ns); reflexivity.
        + intros it' [<-|[]]. rewrite <- I4. apply try_nsids_ext. intros id _. apply get_kwarg_ext.
          * intros n _. f_equal. f_equal. unfold root_elem. destruct (uempty ns); reflexivity.
          * intros n Hn. exfalso. destruct (names_same it (cf_items _ _ _ F it (or_introl eq_refl))) as [_ [E _]]. rewrite E in Hn.
            unfold item_attrs in Hn. rewrite Es in Hn. destruct Hn.
          * intro Hx. exfalso. destruct (names_same it (cf_items _ _ _ F it (or_introl eq_refl))) as [_ [_ E]]. rewrite E in Hx.
            unfold item_texts in Hx. rewrite Es in Hx. discriminate.
      - rewrite set_elements_emit in He. apply bind_ok in He as [ms [Hms He]]. injection He as <-. fold its in Hms.
        apply map_res_ok in Hms.
        assert (HG : Forall2 (fun it m => item_goal W prec vb strict ci nss attrs it m) its ms).
        { assert (G : forall l r, (forall i, In i l -> In i its) -> Forall2 (fun it m => emit W prec vb ci ns nss attrs (ws_of W prec vb attrs) it = Ok m) l r ->
            Forall2 (fun it m => item_goal W prec vb strict ci nss attrs it m) l r).
          { intros l r Hl HF. induction HF as [|i m l r H1 H2 IH]; constructor.
            - apply Item; [apply Hl; now left|exact H1].
            - apply IH. intros; apply Hl; now right. }
          apply G; auto. }
        split; [now rewrite fold_tag|].
        intros it Hin. destruct (Forall2_combine_in _ _ _ _ HG Hin) as [m [Hcm Hgoal]].
        destruct Hgoal as [_ [_ [_ I4]]]. rewrite <- I4. clear I4.
        destruct (names_same it (cf_items _ _ _ F it Hin)) as [N1 [N2 N3]].
        assert (HF1 : Forall2 (fun i mm => Forall (fun k => exists n' nm', good_ns n' = true /\ In nm' (item_names W i) /\ e_tag k = n' ++ u nm') (m_kids mm)) its ms)
          by (eapply Forall2_weaken; [|exact HG]; intros ? ? H; apply H).
        assert (HF2 : Forall2 attr_of its ms) by (eapply Forall2_weaken; [|exact HG]; intros ? ? [_ [H _]]; exact H).
        assert (HF3 : Forall2 (fun i mm => m_text mm = None \/ item_texts i = [it_node i]) its ms)
          by (eapply Forall2_weaken; [|exact HG]; intros ? ? [_ [_ [H _]]]; exact H).
        apply try_nsids_ext. intros id _. apply get_kwarg_ext.
        + intros n Hn. rewrite N1 in Hn. rewrite !find_kids_rk, fold_kids. cbn [new_elem e_kids app]. f_equal.
          apply (kids_filter (item_names W) its ms _ _ it m); auto.
          * now apply ns_get_good.
          * intros i x0 Hi Hx. apply (cf_items _ _ _ F) in Hi. eapply name_good; eassumption.
          * apply (cf_names _ _ _ F).
        + intros n Hn. rewrite N2 in Hn. destruct (item_attrs_inv _ _ Hn) as [-> Hia].
          rewrite fold_attrib, uset_fold by (cbn [new_elem e_attrib app]; eapply attrs_nodup; [exact HF2|apply (cf_xattrs _ _ _ F)]).
          cbn [new_elem e_attrib app]. apply (attrs_get its ms _ it m); auto.
          * now apply ns_get_good.
          * intros i Hi. apply (cf_items _ _ _ F) in Hi. eapply node_good; eassumption.
          * apply (cf_xattrs _ _ _ F).
        + intro Hx. rewrite N3 in Hx. rewrite fold_text. cbn [new_elem e_text].
          apply (text_get its ms it m); auto; [apply (cf_texts _ _ _ F)|].
          unfold item_texts in *. destruct (it_set it); try discriminate Hx; reflexivity. }
    destruct Kws as [Ktag Kws]. split; [exact Ktag|].
    destruct e as [tag at_ tx ks]. cbn [from_element e_attrib e_text e_kids] in *. unfold read_with. rewrite R2. fold its.
    change (map (fun k => (k, from_element W strict k)) ks) with (map (rk W strict) ks).
    rewrite (get_kwargs_spec W strict its at_ tx (map (rk W strict) ks) nss (read_back W prec vb ci attrs (ns_of W prec vb attrs)) []).
    2: exact Kws. 2: exact (cf_attrs _ _ _ F).
    cbn [bind app]. rewrite (construct_ok W ci its attrs F T1 T2 R3 prec vb (ns_of W prec vb attrs)); auto.
    - rewrite R2. now rewrite (norm_nattrs _ _ _ _ _ _ _ _ Hc).
    - (* members of filtered lists *)
      intros a it l Ha Hf Hrb v Hv. destruct (cf_kind _ _ _ F _ Ha) as [Hk Hfi]. cbn [fst snd] in Hk, Hfi. fold its in Hk, Hfi.
      rewrite Hf in Hk, Hfi. cbn [ckind_ok] in Hk. cbn [filter_ok] in Hfi. destruct (find_item_In _ _ _ Hf) as [Hin Hia].
      assert (Es : it_set it = SObjs) by (destruct (it_set it); try discriminate Hk; reflexivity).
      unfold read_back in Hrb. rewrite Es, sget_ns_of in Hrb.
      destruct (sget (it_attr it) attrs) as [y|] eqn:Ey; [|injection Hrb as <-; contradiction].
      assert (Hty : item_typed W it y = true).
      { assert (H := attr_facts W ci its attrs T2 _ _ Ey). unfold attr_typed in H.
        rewrite Hia in H. rewrite Hf in H. now apply andb_prop in H. }
      unfold item_typed in Hty. rewrite Es in Hty. unfold n_attr in Hrb.
      destruct y as [ | | | | | | | | | |ys| ]; try discriminate Hty; [injection Hrb as <-; contradiction|].
      injection Hrb as <-. unfold group in Hv. apply in_concat in Hv as [vs [Hvs Hv]]. apply in_map_iff in Hvs as [c' [<- Hc']].
      apply in_map_iff in Hv as [[y ny] [E Hp]]. cbn [snd] in E. subst ny. apply filter_In in Hp as [Hp Hcl]. cbn [fst] in Hcl.
      apply in_map_iff in Hp as [y' [E Hy']]. injection E as <- <-. apply andb_prop in Hcl as [Hcl _].
      destruct y' as [ | | | | | | | | | | |cy nsy nssy aty]; try discriminate Hcl. cbn [is_class] in Hcl. apply seqb_eq in Hcl. subst cy.
      destruct (Hkids _ _ Ey) as [V1 [V2 _]]. cbn [vall] in V1, V2. rewrite forallb_forall in V1, V2.
      specialize (V1 _ Hy'). specialize (V2 _ Hy'). cbn [vall] in V1, V2. apply andb_prop in V1 as [V1 _]. apply andb_prop in V2 as [V2 _].
      rewrite forallb_forall in Hfi. specialize (Hfi _ Hc'). destruct (class_of W c') as [ci'|] eqn:Hci'; [|discriminate].
      eapply norm_bool; eassumption.
  Qed.

  Theorem value_rt v : vall (typed_node W) v = true -> vall (rt_node W) v = true ->
    kid_rt W prec vb strict v /\ Forall (kid_rt W prec vb strict) (members v).
  Proof.
    induction v as [ | | | | | | | | | |l IH|c ns nss attrs IH] using value_ind'; intros Hv Hr;
      try (split; [intros ? ? ? ? ? E; discriminate E|constructor]).
    - split; [intros ? ? ? ? ? E; discriminate E|]. cbn [members]. cbn [vall] in Hv, Hr. rewrite forallb_forall in Hv, Hr. rewrite Forall_forall in IH |- *.
      intros y Hy. apply IH; auto.
    - split; [|constructor]. intros c' ns' nss' at_ e E He. injection E as <- <- <- <-. cbn [vall] in Hv, Hr.
      apply andb_prop in Hv as [V1 V2]. apply andb_prop in Hr as [R1 R2].
      apply node_rt; auto. intros a y Hy. apply sget_In in Hy. rewrite forallb_forall in V2, R2. rewrite Forall_forall in IH.
      specialize (V2 _ Hy). specialize (R2 _ Hy). cbn in V2, R2. destruct (IH _ Hy V2 R2) as [K1 K2]. auto.
  Qed.
End Main.

(** Reading what was written gives the normal form. *)
Theorem roundtrip W prec vb strict c ns nss attrs e :
  world_ok W = true -> typed W (VObj c ns nss attrs) = true -> rt_ok W (VObj c ns nss attrs) = true ->
  etree W prec vb (VObj c ns nss attrs) = Ok e ->
  from_element W strict e c ns nss = Ok (norm W prec vb (VObj c ns nss attrs)).
Proof.
  intros HW Ht Hr He. destruct (value_rt W prec vb strict HW (VObj c ns nss attrs) Ht Hr) as [K _].
  now destruct (K _ _ _ _ _ eq_refl He) as [_ [_ K']].
Qed.
