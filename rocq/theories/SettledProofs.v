(** * Regular objects can be read back; settled objects are read back unchanged. *)
From Coq Require Import String List NArith ZArith Bool Lia.
From Verif Require Import Ustr UstrProofs Res PyInt PyFloat PyDate PyDateProofs Elem Value Geom Codec Spec Settled EmitProofs CodecProofs ReadProofs ItemProofs RoundTrip.
Import ListNotations.

Lemma same_nss_eq a b : same_nss a b = true -> a = b.
Proof. apply pair_list_eq. Qed.

Lemma same_nss_refl a : same_nss a a = true.
Proof.
  unfold same_nss. induction a as [|[k s] a IH]; [reflexivity|]. cbn [all2 fst snd]. rewrite IH, String.eqb_refl, ueqb_refl. reflexivity.
Qed.

Lemma mem_In x l : mem x l = true <-> In x l.
Proof.
  unfold mem. rewrite existsb_exists. split.
  - intros [y [H E]]. apply seqb_eq in E. now subst.
  - intro H. exists x. split; [exact H|apply String.eqb_refl].
Qed.

Lemma umem_map nss id ids : mem id ids = true -> umem (ns_get nss id) (map (ns_get nss) ids) = true.
Proof.
  rewrite mem_In. intro H. unfold umem. apply existsb_exists. exists (ns_get nss id). split; [now apply in_map|apply ueqb_refl].
Qed.

Lemma ns_get_empty nss : mem EmptyString (map fst nss) = false -> ns_get nss EmptyString = [].
Proof.
  intro H. unfold ns_get. destruct (sget EmptyString nss) eqn:E; [|reflexivity]. exfalso.
  apply sget_In in E. apply (in_map fst) in E. apply mem_In in E. cbn [fst] in E. congruence.
Qed.

Lemma default_ns_id W c nss : known_class W c = true -> default_ns W c nss = ns_get nss (nsid_of W c).
Proof. unfold default_ns, nsid_of, known_class. now destruct (class_of W c). Qed.

Section Regular.
  Variables (W : world) (nss : nss_t).
  Hypothesis HW : world_ok W = true.
  Hypothesis HI : world_ids_ok W = true.
  Hypothesis HN : map_ok nss = true.

  Lemma regular_item c ci it x : class_of W c = Some ci -> item_ids_ok W (ci_nsid ci) it = true -> item_ok W it = true ->
    item_typed W it x = true -> regular W nss x = true ->
    item_ns_ok W (ns_get nss (ci_nsid ci)) nss it x = true.
  Proof.
    intros Hc Hids Hok Ht Hr. unfold map_ok in HN. apply andb_prop in HN as [HN1 HN2]. apply negb_true_iff in HN2.
    unfold item_ids_ok in Hids. unfold item_ns_ok, date_ns. destruct (it_set it) eqn:Es; auto using umem_map;
      try (rewrite <- (ns_get_empty nss HN2); now apply umem_map).
    - (* enum *)
      unfold item_ok in Hok. rewrite !andb_true_iff in Hok. destruct Hok as [[[_ _] Hd] Hcl].
      unfold default_ok in Hd. rewrite Es in Hd. apply andb_prop in Hd as [Hd _].
      assert (G : forall v, item_typed W it v = true ->
        match v with VEnum c0 m => umem (enum_ns W (ns_get nss (ci_nsid ci)) nss c0 m) (map (ns_get nss) (it_nsids it)) | _ => true end = true).
      { intros v Hv. destruct v as [ | | | |ec m| | | | | | | ]; try reflexivity. unfold item_typed in Hv. rewrite Es in Hv.
        unfold enum_member in Hv. destruct (it_classes it) as [|c' [|]] eqn:Ecl; try discriminate Hv.
        apply andb_prop in Hv as [Hv1 Hv2]. apply seqb_eq in Hv1. subst c'. unfold enum_ns.
        cbn [forallb] in Hids. destruct (sget ec (w_enums W)) as [e|]; [|discriminate]. rewrite andb_true_r in Hids.
        destruct (uget m e) as [o|] eqn:Eu; [|discriminate].
        assert (Hin : exists m', In (m', o) e).
        { clear -Eu. induction e as [|[m' o'] e IH]; [discriminate|]. cbn in Eu. destruct (ueqb m m'); [injection Eu as <-; exists m'; now left|].
          destruct (IH Eu) as [m'' H]. exists m''. now right. }
        destruct Hin as [m' Hin]. rewrite forallb_forall in Hids. specialize (Hids _ Hin). cbn in Hids. destruct o; now apply umem_map. }
      cbn [forallb]. rewrite (G x Ht), (G _ Hd). reflexivity.
    - (* object *)
      destruct x as [ | | | | | | | | | | |c' ns' nss' at_]; try reflexivity. unfold item_typed in Ht. rewrite Es in Ht.
      apply mem_In in Ht. rewrite forallb_forall in Hids. specialize (Hids _ Ht).
      unfold regular in Hr. cbn [vall] in Hr. apply andb_prop in Hr as [Hr _]. apply andb_prop in Hr as [Hr1 Hr2].
      apply ueqb_eq in Hr1. rewrite Hr1. unfold same_nss in Hr2. rewrite Hr2, andb_true_r.
      rewrite default_ns_id; [now apply umem_map|].
      unfold item_ok in Hok. rewrite !andb_true_iff in Hok. destruct Hok as [_ Hcl]. unfold classes_ok in Hcl. rewrite Es in Hcl.
      apply andb_prop in Hcl as [Hcl _]. rewrite forallb_forall in Hcl. now apply Hcl.
    - (* list *)
      destruct x as [ | | | | | | | | | |l| ]; try reflexivity. destruct (it_nsids it) as [|id ids] eqn:Ei; [reflexivity|]. cbn [map].
      apply forallb_forall. intros y Hy. unfold item_typed in Ht. rewrite Es, forallb_forall in Ht. specialize (Ht _ Hy).
      destruct y as [ | | | | | | | | | | |c' ns' nss' at_]; try reflexivity. cbn [is_obj_of] in Ht. apply mem_In in Ht.
      rewrite forallb_forall in Hids. specialize (Hids _ Ht). cbn [hd] in Hids. apply seqb_eq in Hids.
      unfold regular in Hr. cbn [vall] in Hr. rewrite forallb_forall in Hr. specialize (Hr _ Hy). cbn [vall] in Hr.
      apply andb_prop in Hr as [Hr _]. apply andb_prop in Hr as [Hr1 Hr2]. apply ueqb_eq in Hr1. unfold same_nss in Hr2.
      rewrite Hr2, andb_true_r, Hr1, default_ns_id, Hids; [apply ueqb_refl|].
      unfold item_ok in Hok. rewrite !andb_true_iff in Hok. destruct Hok as [_ Hcl]. unfold classes_ok in Hcl. rewrite Es in Hcl.
      apply andb_prop in Hcl as [Hcl _]. rewrite forallb_forall in Hcl. now apply Hcl.
  Qed.

  Lemma regular_rt v : vall (typed_node W) v = true -> regular W nss v = true -> readable W v = true -> vall (rt_node W) v = true.
  Proof.
    induction v as [ | | | | | | | | | |l IH|c ns nss' attrs IH] using value_ind'; intros Ht Hr Hd; try reflexivity.
    - cbn [vall] in Ht |- *. unfold regular, readable in Hr, Hd. cbn [vall] in Hr, Hd. rewrite forallb_forall in Ht, Hr, Hd |- *. rewrite Forall_forall in IH.
      intros y Hy. apply (IH _ Hy); [exact (Ht _ Hy)|exact (Hr _ Hy)|exact (Hd _ Hy)].
    - cbn [vall] in Ht |- *. unfold regular, readable in Hr, Hd. cbn [vall] in Hr, Hd.
      apply andb_prop in Ht as [T1 T2]. apply andb_prop in Hr as [R1 R2]. apply andb_prop in Hd as [D1 D2].
      apply andb_true_intro. split.
      + unfold typed_node in T1. unfold rt_node. destruct (class_of W c) as [ci|] eqn:Hc; [|discriminate].
        assert (F := world_class _ _ _ HW Hc). apply andb_prop in T1 as [Ts Ta].
        apply andb_prop in R1 as [Rn Rs]. apply ueqb_eq in Rn. apply same_nss_eq in Rs. subst nss'.
        unfold default_ns in Rn. rewrite Hc in Rn. subst ns.
        assert (HN' := HN). unfold map_ok in HN'. apply andb_prop in HN' as [HN1 HN2]. rewrite HN1, D1.
        assert (G : good_ns (ns_get nss (ci_nsid ci)) = true).
        { apply ns_get_good. unfold nss_ok in HN1. now apply andb_prop in HN1. }
        rewrite G. cbn [andb]. apply forallb_forall. intros it Hit.
        apply (regular_item c ci); auto.
        * assert (HI' := HI). unfold world_ids_ok in HI'. rewrite forallb_forall in HI'. apply sget_In in Hc. specialize (HI' _ Hc). cbn [fst snd] in HI'.
          rewrite forallb_forall in HI'. now apply HI'.
        * now apply (cf_items _ _ _ F).
        * eapply obj_attr_ok; eassumption.
        * unfold obj_attr. destruct (sget (it_attr it) attrs) as [y|] eqn:Ey.
          -- apply sget_In in Ey. rewrite forallb_forall in R2. exact (R2 _ Ey).
          -- destruct (ci_geom ci); try reflexivity. destruct (sget "track_items" attrs) as [y|]; try reflexivity.
             destruct y; try reflexivity. repeat (destruct (String.eqb _ _); try reflexivity).
      + rewrite forallb_forall in T2, R2, D2 |- *. rewrite Forall_forall in IH. intros [a y] Hy. cbn.
        apply (IH _ Hy); [exact (T2 _ Hy)|exact (R2 _ Hy)|exact (D2 _ Hy)].
  Qed.
End Regular.

(** ** Settled objects *)

Definition ids_of (attrs : list (string * value)) : list (string * nattr) :=
  map (fun av => (fst av, (snd av, snd av, match snd av with VList l => map (fun y => (y, y)) l | _ => [] end))) attrs.

Lemma sget_ids_of a attrs : sget a (ids_of attrs) =
  match sget a attrs with
  | Some x => Some (x, x, match x with VList l => map (fun y => (y, y)) l | _ => [] end)
  | None => None
  end.
Proof. unfold ids_of. induction attrs as [|[b x] l IH]; [reflexivity|]. cbn [map fst snd sget]. destruct (String.eqb a b); [reflexivity|exact IH]. Qed.

Lemma point_settled_norm c : forallb is_float c = true -> point_norm None c = c.
Proof.
  intro H. unfold point_norm. induction c as [|n c IH]; [reflexivity|]. cbn in H. apply andb_prop in H as [H1 H2].
  cbn [map]. rewrite (IH H2). destruct n; [discriminate|]. reflexivity.
Qed.

Lemma points_settled_norm l : forallb point_settled l = true ->
  map (point_norm None) (filter (fun c => negb (nilb c)) l) = l.
Proof.
  induction l as [|c l IH]; [reflexivity|]. cbn [forallb filter]. intro H. apply andb_prop in H as [H1 H2].
  unfold point_settled in H1. apply andb_prop in H1 as [H0 H1]. rewrite H0. cbn [map]. rewrite (IH H2), point_settled_norm; auto.
Qed.

Fixpoint take_class (c : string) (l : list value) : list value :=
  match l with
  | [] => []
  | x :: l' => if is_class c x then x :: take_class c l' else []
  end.

Lemma take_drop c l : l = take_class c l ++ drop_class c l.
Proof. induction l as [|x l IH]; [reflexivity|]. cbn. destruct (is_class c x); [cbn; congruence|reflexivity]. Qed.

Lemma take_class_all c l x : In x (take_class c l) -> is_class c x = true.
Proof. induction l as [|y l IH]; [intros []|]. cbn. destruct (is_class c y) eqn:E; [|intros []]. intros [<-|H]; auto. Qed.

Lemma is_class_inj c d x : is_class c x = true -> is_class d x = true -> c = d.
Proof. destruct x; try discriminate. cbn. intros H1 H2. apply seqb_eq in H1, H2. congruence. Qed.

Lemma grouped_in cs l x : grouped cs l = true -> In x l -> exists c, In c cs /\ is_class c x = true.
Proof.
  revert l; induction cs as [|c cs IH]; intros l H Hin.
  - destruct l; [destruct Hin|discriminate].
  - cbn in H. rewrite (take_drop c l) in Hin. apply in_app_or in Hin as [Hin|Hin].
    + exists c. split; [now left|]. eapply take_class_all; eassumption.
    + destruct (IH _ H Hin) as [d [H1 H2]]. exists d. split; [now right|exact H2].
Qed.

Lemma grouped_filter cs l : NoDup cs -> grouped cs l = true ->
  concat (map (fun c => filter (is_class c) l) cs) = l.
Proof.
  revert l; induction cs as [|c cs IH]; intros l Hd H; [now destruct l|]. inversion Hd as [|? ? Hni Hd']; subst.
  cbn [map concat]. cbn in H.
  assert (E1 : filter (is_class c) l = take_class c l).
  { assert (Hno : forall x, In x (drop_class c l) -> is_class c x = false).
    { intros x Hx. destruct (grouped_in _ _ _ H Hx) as [d [Hd1 Hd2]]. destruct (is_class c x) eqn:E; [|reflexivity].
      exfalso. apply Hni. now rewrite (is_class_inj _ _ _ E Hd2). }
    rewrite (take_drop c l) at 1. rewrite filter_app.
    assert (A : filter (is_class c) (take_class c l) = take_class c l).
    { clear. induction l as [|x l IHl]; [reflexivity|]. cbn. destruct (is_class c x) eqn:E; [|reflexivity]. cbn. rewrite E, IHl. reflexivity. }
    assert (B : filter (is_class c) (drop_class c l) = []).
    { clear -Hno. induction (drop_class c l) as [|x r IHr]; [reflexivity|]. cbn. rewrite (Hno x) by now left. apply IHr. intros; apply Hno; now right. }
    rewrite A, B. apply app_nil_r. }
  rewrite E1.
  assert (E2 : concat (map (fun d => filter (is_class d) l) cs) = concat (map (fun d => filter (is_class d) (drop_class c l)) cs)).
  { f_equal. apply map_ext_in. intros d Hd1. rewrite (take_drop c l) at 1. rewrite filter_app.
    assert (E : filter (is_class d) (take_class c l) = []).
    { assert (G : forall x, In x (take_class c l) -> is_class d x = false).
      { intros x Hx. apply take_class_all in Hx. destruct (is_class d x) eqn:E; [|reflexivity]. exfalso. apply Hni. now rewrite (is_class_inj _ _ _ Hx E). }
      clear -G. induction (take_class c l) as [|x r IHr]; [reflexivity|]. cbn. rewrite (G x) by now left. apply IHr. intros; apply G; now right. }
    now rewrite E. }
  rewrite E2, (IH _ Hd' H). symmetry. apply take_drop.
Qed.

Lemma group_settled W cs l : NoDup cs -> forallb (truth W) l = true -> grouped cs l = true ->
  group W cs (map (fun y => (y, y)) l) = l.
Proof.
  intros Hd Ht Hg. unfold group. transitivity (concat (map (fun c => filter (is_class c) l) cs)); [|now apply grouped_filter]. f_equal. apply map_ext. intro c. clear Hg Hd.
  induction l as [|x l IH]; [reflexivity|]. cbn in Ht. apply andb_prop in Ht as [H1 H2]. cbn [map filter fst]. rewrite H1, andb_true_r.
  destruct (is_class c x); cbn [map snd]; rewrite (IH H2); reflexivity.
Qed.

Lemma assoc_ext {A} (l r : list (string * A)) : map fst l = map fst r -> NoDup (map fst l) ->
  (forall a v, In (a, v) r -> sget a l = Some v) -> l = r.
Proof.
  revert r; induction l as [|[a x] l IH]; intros [|[b y] r] E Hd H; try discriminate E; [reflexivity|].
  cbn in E. injection E as -> E. assert (Ex := H b y (or_introl eq_refl)). cbn in Ex. rewrite String.eqb_refl in Ex. injection Ex as ->.
  f_equal. cbn in Hd. inversion Hd as [|? ? Hni Hd']; subst. apply IH; auto.
  intros c v Hin. assert (Ec := H c v (or_intror Hin)). cbn in Ec. destruct (String.eqb_spec c b) as [->|]; [|exact Ec].
  exfalso. apply Hni. rewrite E. apply (in_map fst) in Hin. exact Hin.
Qed.

Lemma concat_map_fst (P : item -> bool) (f : item -> option value) its :
  (forall it, In it its -> P it = false -> f it = None) -> (forall it, In it its -> P it = true -> exists v, f it = Some v) ->
  map fst (concat (map (fun it => match f it with Some v => [(it_attr it, v)] | None => [] end) its)) = map it_attr (filter P its).
Proof.
  induction its as [|it its IH]; intros H1 H2; [reflexivity|]. cbn [map concat filter]. rewrite map_app, IH; auto using in_cons.
  - destruct (P it) eqn:E.
    + destruct (H2 it (or_introl eq_refl) E) as [v ->]. reflexivity.
    + rewrite (H1 it (or_introl eq_refl) E). reflexivity.
Qed.

Lemma item_names_nodup W it its : In it its -> NoDup (concat (map (item_names W) its)) -> NoDup (item_names W it).
Proof.
  induction its as [|j l IH]; [contradiction|]. cbn [map concat]. intros [->|Hin] Hn; [|apply IH; [assumption|now apply NoDup_app_remove_l in Hn]].
  clear IH. induction (item_names W it) as [|x l' IH]; [constructor|]. cbn in Hn. inversion Hn; subst. constructor; auto.
  intro. apply H1. apply in_or_app. now left.
Qed.

Section SettledNode.
  Variables (W : world) (c : string) (ci : class_info) (attrs : list (string * value)).
  Hypothesis HW : world_ok W = true.
  Hypothesis Hc : class_of W c = Some ci.
  Hypothesis Hshape : shape_ok ci attrs = true.
  Hypothesis Hattrs : forallb (attr_typed W ci (items_of W c)) attrs = true.
  Hypothesis Hsettled : forall ns nss, settled_node (truth W) W c ns nss attrs = true.

  Notation its := (items_of W c).
  Notation F := (world_class _ _ _ HW Hc).
  Notation rb := (read_back W None Normal ci attrs (ids_of attrs)).

  Lemma classes_nodup it : In it its -> is_objs it = true -> NoDup (it_classes it).
  Proof.
    intros Hin Ho. assert (H := item_names_nodup W it its Hin (cf_names _ _ _ F)).
    unfold item_names, is_objs in *. destruct (it_set it); try discriminate Ho.
    now apply NoDup_map_inv in H.
  Qed.

  Lemma settled_facts a x : sget a attrs = Some x -> settled_attr (truth W) ci its (a, x) = true.
  Proof.
    intro H. assert (S := Hsettled [] []). unfold settled_node in S. rewrite Hc in S. apply andb_prop in S as [S _].
    apply sget_In in H. rewrite forallb_forall in S. now apply S.
  Qed.

  Lemma read_back_settled it x : In it its -> sget (it_attr it) attrs = Some x ->
    match ckind_of ci (it_attr it) with
    | Some CTrack => True
    | Some k => store W k (rb it) = x
    | None => rb it = Some x
    end.
  Proof.
    intros Hin Hx. assert (S := settled_facts _ _ Hx). unfold settled_attr in S.
    assert (Hf := find_item_NoDup _ _ (cf_attrs _ _ _ F) Hin). rewrite Hf in S.
    assert (K : forall k, ckind_of ci (it_attr it) = Some k -> ckind_ok k (Some it) = true).
    { intros k Hk. apply sget_In in Hk. apply (cf_kind _ _ _ F) in Hk as [Hk _]. cbn [fst snd] in Hk. now rewrite Hf in Hk. }
    assert (T := attr_facts W ci its attrs Hattrs _ _ Hx). unfold attr_typed in T. rewrite Hf in T. apply andb_prop in T as [T T'].
    unfold read_back. unfold obj_attr. rewrite Hx. rewrite sget_ids_of, Hx. cbn [get_value].
    unfold settled_item in S. unfold item_typed in T.
    assert (NC : is_objs it = true -> NoDup (it_classes it)) by (apply classes_nodup; exact Hin).
    unfold is_objs in NC.
    destruct (it_set it) eqn:Es; cbn [ckind_ok] in K; try rewrite Es in K;
      destruct x as [ |b|n|s|ec em|dk|pc|tu cl|ds|il|vl|oc on onn oa]; try discriminate S; try discriminate T;
      destruct (ckind_of ci (it_attr it)) as [k|]; try discriminate S; try (assert (K' := K k eq_refl); clear K; unfold ckind_ok in K'; rewrite ?Es in K');
      try (destruct k; try discriminate S; try discriminate K'; try discriminate T'; try exact I; cbn [store]);
      try reflexivity.
    all: try (destruct (uempty s) eqn:Eu; try discriminate S).
    all: try (assert (Es2 : strip s = s) by (now apply ueqb_eq); rewrite ?Es2, ?Eu; cbn [clean_string]; rewrite ?Eu, ?Es2, ?Eu; reflexivity).
    all: try (destruct s; [|discriminate Eu]; reflexivity).
    all: cbn [clean_string]; rewrite ?Eu; try reflexivity.
    all: try (destruct n; [discriminate S|]; reflexivity).
    all: try (destruct ds; [discriminate S|]; reflexivity).
    all: try (apply andb_prop in S as [S1 S2]; rewrite group_settled by auto; try reflexivity).
    all: try (destruct tu; try discriminate S).
    all: try (apply andb_prop in S as [S1 S2]).
    all: try (rewrite points_settled_norm by assumption; destruct cl; [discriminate|reflexivity]).
    all: try (destruct cl; [try discriminate S; reflexivity|]; cbn [nilb] in S; rewrite points_settled_norm by assumption; try reflexivity).
    all: try (rewrite S; reflexivity).
    all: try (f_equal; clear -S1; induction vl as [|y vl IH]; [reflexivity|]; cbn in S1 |- *; apply andb_prop in S1 as [-> S1]; now rewrite (IH S1)).
  Qed.

  Lemma read_back_missing it : In it its -> sget (it_attr it) attrs = None -> mem (it_attr it) (ci_params ci) = false ->
    is_objs it = false -> rb it = None.
  Proof.
    intros Hin Hx Hp Ho. unfold read_back. rewrite sget_ids_of, Hx.
    assert (E : obj_attr ci attrs (it_attr it) = VNone).
    { unfold obj_attr. rewrite Hx. destruct (ci_geom ci) eqn:Eg; try reflexivity.
      destruct (sget "track_items" attrs) as [y|]; [|reflexivity]. destruct y; try reflexivity.
      assert (Hk := cf_track _ _ _ F). unfold track_ok, is_track in Hk. rewrite Eg, !andb_true_iff in Hk. destruct Hk as [_ Hk].
      unfold track_attrs in Hk. cbn [forallb] in Hk. rewrite !andb_true_iff in Hk. destruct Hk as [[K1 _] [[K2 _] [[K3 _] _]]].
      destruct (String.eqb_spec (it_attr it) "whens") as [E1|]; [rewrite E1 in Hp; congruence|].
      destruct (String.eqb_spec (it_attr it) "coords") as [E1|]; [rewrite E1 in Hp; congruence|].
      destruct (String.eqb_spec (it_attr it) "angles") as [E1|]; [rewrite E1 in Hp; congruence|]. reflexivity. }
    rewrite E. unfold is_objs in Ho. destruct (it_set it); try discriminate Ho; reflexivity.
  Qed.

  Lemma ctor_settled a k : In (a, k) (ctor_attrs ci) ->
    sget a attrs = Some (snd (na W ci its attrs None Normal (ids_of attrs) (a, k))).
  Proof.
    intro Hin. destruct (ctor_present ci attrs Hshape a k Hin) as [x Hx]. rewrite Hx. f_equal. symmetry.
    assert (Hk := ctor_get W ci its F a k Hin). unfold na. cbn [fst snd].
    assert (S := settled_facts _ _ Hx). unfold settled_attr in S. rewrite Hk in S.
    destruct (cf_kind _ _ _ F _ Hin) as [Hko _]. cbn [fst snd] in Hko.
    destruct (find_item a its) as [it|] eqn:Hf.
    - destruct (find_item_In _ _ _ Hf) as [Hit Ha]. subst a.
      assert (R := read_back_settled it x Hit Hx). rewrite Hk in R. unfold rbo. rewrite Hf.
      destruct k; try exact R. discriminate Hko.
    - unfold rbo. rewrite Hf. destruct k; try discriminate S; try (destruct x; try discriminate S; reflexivity).
      + destruct x as [ | | |s| | | | | | | | ]; try discriminate S. destruct s; [reflexivity|discriminate S].
      + assert (Et : a = "track_items"%string).
        { assert (Ht := cf_track _ _ _ F). unfold track_ok in Ht. destruct (is_track ci) eqn:Ei.
          - rewrite !andb_true_iff in Ht. destruct Ht as [[_ Ht] _]. rewrite forallb_forall in Ht. specialize (Ht _ Hin). cbn in Ht.
            rewrite orb_false_r in Ht. now apply seqb_eq.
          - rewrite forallb_forall in Ht. now specialize (Ht _ Hin). }
        destruct x as [ | | | | | | | | |l| | ]; try discriminate S. unfold items_in. rewrite <- Et, Hx. f_equal.
        clear -S. induction l as [|[w p o] l IH]; [reflexivity|]. cbn [forallb] in S. apply andb_prop in S as [S1 S2]. cbn [map]. rewrite (IH S2). f_equal.
        unfold titem_settled in S1. cbn in S1. apply andb_prop in S1 as [S0 S1]. unfold titem_norm. cbn [ti_when ti_coord ti_angle]. rewrite point_settled_norm by assumption.
        destruct o; [|discriminate]. now rewrite point_settled_norm by assumption.
  Qed.

  Lemma settled_node_norm : nattrs W ci its attrs None Normal (ids_of attrs) = attrs.
  Proof.
    symmetry. destruct (shape_inv _ _ Hshape) as [xs [E [Hnd Hxs]]].
    assert (S := Hsettled [] []). unfold settled_node in S. rewrite Hc in S. apply andb_prop in S as [_ S]. apply all2_seq_eq in S.
    assert (Exs : extra_keys ci attrs = xs).
    { unfold extra_keys. rewrite E, !app_length, !map_length, skipn_app, map_length, skipn_all2 by (rewrite map_length; lia).
      rewrite Nat.sub_diag. cbn [app skipn]. rewrite firstn_app.
      replace (length (ci_pre ci) + (length xs + length (ci_post ci)) - length (ci_pre ci) - length (ci_post ci))%nat with (length xs) by lia.
      rewrite Nat.sub_diag. cbn [firstn]. rewrite firstn_all, app_nil_r. reflexivity. }
    rewrite Exs in S.
    assert (Ex : map fst (xtra W ci its attrs None Normal (ids_of attrs)) = xs).
    { rewrite S. unfold xtra.
      set (P := fun it : item => negb (mem (it_attr it) (ci_params ci)) && (mem (it_attr it) (map fst attrs) || is_objs it)).
      rewrite <- (concat_map_fst P (fun it => if mem (it_attr it) (ci_params ci) then None else rb it)).
      - f_equal. f_equal. apply map_ext. intro it. now destruct (mem _ _).
      - intros it Hit HP. unfold P in HP. destruct (mem (it_attr it) (ci_params ci)) eqn:Em; [reflexivity|]. cbn [negb andb] in HP.
        apply orb_false_elim in HP as [H1 H2]. apply read_back_missing; auto.
        apply sget_None. intro H. apply mem_In in H. congruence.
      - intros it Hit HP. unfold P in HP. destruct (mem (it_attr it) (ci_params ci)) eqn:Em; [discriminate|]. cbn [negb andb] in HP.
        destruct (sget (it_attr it) attrs) as [x|] eqn:Ex.
        + exists x. assert (R := read_back_settled it x Hit Ex). destruct (ckind_of ci (it_attr it)) as [k|] eqn:Ek; [|exact R].
          exfalso. apply sget_In in Ek. apply (cf_params _ _ _ F) in Ek. cbn in Ek. congruence.
        + exfalso. apply sget_None in Ex. apply orb_prop in HP as [HP|HP]; [apply mem_In in HP; contradiction|].
          (* list attributes that are not parameters are present *)
          apply Ex. rewrite E. apply in_or_app. right. apply in_or_app. left. rewrite S. apply in_map, filter_In. split; [exact Hit|].
          unfold P. now rewrite Em, HP, orb_true_r. }
    apply assoc_ext.
    - unfold nattrs. rewrite E, !map_app, Ex, !map_map. unfold na. cbn [fst]. reflexivity.
    - exact Hnd.
    - intros a v Hin. unfold nattrs in Hin. apply in_app_or in Hin as [Hin|Hin]; [|apply in_app_or in Hin as [Hin|Hin]].
      + apply in_map_iff in Hin as [[a' k] [Ea Hin]]. assert (a' = a) by (unfold na in Ea; cbn in Ea; congruence). subst a'.
        rewrite (ctor_settled a k), Ea; [reflexivity|]. unfold ctor_attrs. apply in_or_app. now left.
      + unfold xtra in Hin. apply in_concat in Hin as [l [Hl Hin]]. apply in_map_iff in Hl as [it [<- Hit]].
        destruct (mem (it_attr it) (ci_params ci)) eqn:Em; [destruct Hin|]. destruct (rb it) as [v'|] eqn:Er; [|destruct Hin].
        destruct Hin as [Ea|[]]. injection Ea as <- <-.
        destruct (sget (it_attr it) attrs) as [x|] eqn:Ex'.
        * assert (R := read_back_settled it x Hit Ex'). destruct (ckind_of ci (it_attr it)) as [k|] eqn:Ek; [|congruence].
          exfalso. apply sget_In in Ek. apply (cf_params _ _ _ F) in Ek. cbn in Ek. congruence.
        * exfalso. destruct (is_objs it) eqn:Eo; [|rewrite read_back_missing in Er; congruence].
          apply sget_None in Ex'. apply Ex'. rewrite E. apply in_or_app. right. apply in_or_app. left. rewrite S. apply in_map, filter_In. split; [exact Hit|].
          now rewrite Em, Eo, orb_true_r.
      + apply in_map_iff in Hin as [[a' k] [Ea Hin]]. assert (a' = a) by (unfold na in Ea; cbn in Ea; congruence). subst a'.
        rewrite (ctor_settled a k), Ea; [reflexivity|]. unfold ctor_attrs. apply in_or_app. now right.
  Qed.
End SettledNode.

(** A settled object is its own normal form. *)
Theorem settled_norm W v : world_ok W = true -> vall (typed_node W) v = true -> settled W v = true -> norm W None Normal v = v.
Proof.
  intro HW. assert (G : vall (typed_node W) v = true -> settled W v = true ->
    norm W None Normal v = v /\ match v with VList l => map (norm W None Normal) l = l | _ => True end); [|intros; now apply G].
  induction v as [ | | | | | | | | | |l IH|c ns nss attrs IH] using value_ind'; intros Ht Hs; try (split; [reflexivity|exact I]).
  - split; [reflexivity|]. unfold settled, settled_with in Hs. cbn [vall] in Ht, Hs. rewrite forallb_forall in Ht, Hs. rewrite Forall_forall in IH.
    transitivity (map (fun x : value => x) l); [|apply map_id]. apply map_ext_in. intros y Hy. now apply (IH _ Hy); [apply Ht|apply Hs].
  - split; [|exact I]. unfold settled, settled_with in Hs. cbn [vall] in Ht, Hs. apply andb_prop in Ht as [T1 T2]. apply andb_prop in Hs as [S1 S2].
    unfold typed_node in T1. destruct (class_of W c) as [ci|] eqn:Hc; [|discriminate]. apply andb_prop in T1 as [Ts Ta].
    rewrite (norm_nattrs _ _ _ _ _ _ _ _ Hc). f_equal.
    assert (E : ns_of W None Normal attrs = ids_of attrs).
    { unfold ns_of, ids_of. apply map_ext_in. intros [a x] Hin. rewrite forallb_forall in T2, S2. rewrite Forall_forall in IH.
      destruct (IH _ Hin (T2 _ Hin) (S2 _ Hin)) as [E1 E2]. cbn [fst snd] in *. unfold n_attr. rewrite E1. f_equal. f_equal.
      destruct x; try reflexivity. rewrite <- E2 at 2. rewrite map_map. apply map_ext_in. intros y Hy. f_equal.
      assert (T := T2 _ Hin). assert (S := S2 _ Hin). cbn [snd vall] in T, S. clear -E2 Hy.
      induction l as [|z l IHl]; [destruct Hy|]. cbn in E2. injection E2 as E2 E3. destruct Hy as [->|Hy]; [congruence|auto]. }
    rewrite E. apply settled_node_norm; auto.
Qed.
