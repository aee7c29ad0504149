(** * Reading and writing repeatedly: objects that were read only lose their
    falsy sub-objects, and this comes to an end. *)
From Coq Require Import String List NArith ZArith Bool Lia.
From Verif Require Import Ustr UstrProofs Res PyInt PyFloat PyNumProofs PyDate PyDateProofs Elem Value Geom Codec Spec Settled EmitProofs CodecProofs ReadProofs ItemProofs RoundTrip SettledProofs NsProofs ReaderTyped.
Import ListNotations.

(** ** Specification vocabulary *)

(** Number of library objects in a value. *)
Fixpoint size (v : value) : nat :=
  match v with
  | VObj _ _ _ attrs => S (list_sum (map (fun av => match av with (_, x) => size x end) attrs))
  | VList l => list_sum (map size l)
  | _ => 0
  end.

(** The constructor stores the attribute in any case. *)
Definition stored (W : world) (c a : string) : bool :=
  match class_of W c with Some ci => mem a (map fst (ctor_attrs ci)) | None => true end.

(** Lists that the constructor filters by truth value. *)
Definition refilter (W : world) (c a : string) (l : list value) : list value :=
  match class_of W c with
  | Some ci => match ckind_of ci a with Some CFilter => filter (truth W) l | _ => l end
  | None => l
  end.

(** [v] without the sub-objects whose truth value is false. *)
Fixpoint prune (W : world) (v : value) {struct v} : value :=
  match v with
  | VObj c ns nss attrs =>
      VObj c ns nss (concat (map (fun av =>
        match av with
        | (a, x) =>
            match x with
            | VObj _ _ _ _ => if truth W x then [(a, prune W x)] else if stored W c a then [(a, VNone)] else []
            | VList l => [(a, VList (refilter W c a (concat (map (fun y => if truth W y then [prune W y] else []) l))))]
            | _ => [(a, x)]
            end
        end) attrs))
  | _ => v
  end.

(** [n] times: write the object and read what was written. *)
Fixpoint generations (W : world) (strict : bool) (n : nat) (v : value) : res value :=
  match n with
  | O => Ok v
  | S n' =>
      let! e := etree W None Normal v in
      match v with
      | VObj c ns nss _ => let! v' := from_element W strict e c ns nss in generations W strict n' v'
      | _ => Err ETypeError
      end
  end.

(** ** The normal form of an object that was read *)

Definition pr_attr (W : world) (c : string) (n : value -> value) (av : string * value) : list (string * value) :=
  match av with
  | (a, x) =>
      match x with
      | VObj _ _ _ _ => if truth W x then [(a, n x)] else if stored W c a then [(a, VNone)] else []
      | VList l => [(a, VList (refilter W c a (concat (map (fun y => if truth W y then [n y] else []) l))))]
      | _ => [(a, x)]
      end
  end.

Lemma prune_obj W c ns nss attrs : prune W (VObj c ns nss attrs) = VObj c ns nss (concat (map (pr_attr W c (prune W)) attrs)).
Proof. reflexivity. Qed.

Lemma group_grouped W cs (n : value -> value) l : NoDup cs -> grouped cs l = true ->
  group W cs (map (fun y => (y, n y)) l) = concat (map (fun y => if truth W y then [n y] else []) l).
Proof.
  intros Hd Hg. unfold group.
  transitivity (concat (map (fun y => if truth W y then [n y] else []) (concat (map (fun c => filter (is_class c) l) cs)))); [|now rewrite grouped_filter].
  clear Hg Hd.
  induction cs as [|c cs IH]; [reflexivity|]. cbn [map concat]. rewrite IH, map_app, concat_app. f_equal.
  clear. induction l as [|y l IH]; [reflexivity|]. cbn [map filter fst].
  destruct (is_class c y); cbn [andb]; [|exact IH]. cbn [map concat]. destruct (truth W y); cbn [map snd app]; now rewrite IH.
Qed.

Section Node.
  Variables (W : world) (c : string) (ci : class_info) (attrs : list (string * value)).
  Hypothesis HW : world_ok W = true.
  Hypothesis Hc : class_of W c = Some ci.
  Hypothesis Hshape : shape_ok ci attrs = true.
  Hypothesis Hattrs : forallb (attr_typed W ci (items_of W c)) attrs = true.
  Hypothesis Hsettled : forall ns nss, settled_node anyv W c ns nss attrs = true.

  Notation its := (items_of W c).
  Notation F := (world_class _ _ _ HW Hc).
  Notation N := (norm W None Normal).
  Notation ms := (ns_of W None Normal attrs).
  Notation rb := (read_back W None Normal ci attrs ms).

  Lemma g_settled_facts a x : sget a attrs = Some x -> settled_attr anyv ci its (a, x) = true.
  Proof.
    intro H. assert (S := Hsettled [] []). unfold settled_node in S. rewrite Hc in S. apply andb_prop in S as [S _].
    apply sget_In in H. rewrite forallb_forall in S. now apply S.
  Qed.

  Lemma g_read_back it x : In it its -> sget (it_attr it) attrs = Some x ->
    match ckind_of ci (it_attr it) with
    | Some CTrack => True
    | Some k => pr_attr W c N (it_attr it, x) = [(it_attr it, store W k (rb it))]
    | None => pr_attr W c N (it_attr it, x) = match rb it with Some v => [(it_attr it, v)] | None => [] end
    end.
  Proof.
    intros Hin Hx. assert (S := g_settled_facts _ _ Hx). unfold settled_attr in S.
    assert (Hf := find_item_NoDup _ _ (cf_attrs _ _ _ F) Hin). rewrite Hf in S.
    assert (K : forall k, ckind_of ci (it_attr it) = Some k -> ckind_ok k (Some it) = true).
    { intros k Hk. apply sget_In in Hk. apply (cf_kind _ _ _ F) in Hk as [Hk _]. cbn [fst snd] in Hk. now rewrite Hf in Hk. }
    assert (T := attr_facts W ci its attrs Hattrs _ _ Hx). unfold attr_typed in T. rewrite Hf in T. apply andb_prop in T as [T T'].
    unfold read_back. unfold obj_attr. rewrite Hx. rewrite sget_ns_of, Hx. unfold n_attr. cbn [get_value].
    unfold settled_item in S. unfold item_typed in T.
    assert (NC : is_objs it = true -> NoDup (it_classes it)) by (apply (classes_nodup W c ci HW Hc); exact Hin).
    unfold is_objs in NC.
    assert (St : stored W c (it_attr it) = match ckind_of ci (it_attr it) with Some _ => true | None => false end).
    { unfold stored. rewrite Hc. unfold ckind_of. destruct (sget (it_attr it) (ctor_attrs ci)) eqn:E.
      - apply mem_In. apply sget_In in E. apply (in_map fst) in E. exact E.
      - apply sget_None in E. destruct (mem _ _) eqn:M; [|reflexivity]. apply mem_In in M. contradiction. }
    assert (Rf : forall l, refilter W c (it_attr it) l = match ckind_of ci (it_attr it) with Some CFilter => filter (truth W) l | _ => l end).
    { intro l. unfold refilter. now rewrite Hc. }
    unfold pr_attr. rewrite St.
    destruct (it_set it) eqn:Es; cbn [ckind_ok] in K; try rewrite Es in K;
      destruct x as [ |b|n|s|ec em|dk|pc|tu cl|ds|il|vl|oc on onn oa]; try discriminate S; try discriminate T; rewrite ?Rf;
      destruct (ckind_of ci (it_attr it)) as [k|]; try discriminate S; try (assert (K' := K k eq_refl); clear K; unfold ckind_ok in K'; rewrite ?Es in K');
      try (destruct k; try discriminate S; try discriminate K'; try discriminate T'; try exact I; cbn [store]);
      try reflexivity.
    all: try (destruct (uempty s) eqn:Eu; try discriminate S).
    all: try (assert (Es2 : strip s = s) by (now apply ueqb_eq); rewrite ?Es2, ?Eu; cbn [clean_string]; rewrite ?Eu, ?Es2, ?Eu; reflexivity).
    all: try (destruct s; [|discriminate Eu]; reflexivity).
    all: cbn [clean_string]; rewrite ?Eu; try reflexivity.
    all: try (destruct n; [discriminate S|]; reflexivity).
    all: try (destruct ds; [discriminate S|]; reflexivity).
    all: try (apply andb_prop in S as [S1 S2]; rewrite group_grouped by auto; try reflexivity).
    all: try (destruct tu; try discriminate S).
    all: try (apply andb_prop in S as [S1 S2]).
    all: try (rewrite points_settled_norm by assumption; destruct cl; [discriminate|reflexivity]).
    all: try (destruct cl; [try discriminate S; reflexivity|]; cbn [nilb] in S; rewrite points_settled_norm by assumption; try reflexivity).
    all: try (destruct (truth W _); reflexivity).
  Qed.

  Lemma g_missing it : In it its -> sget (it_attr it) attrs = None -> mem (it_attr it) (ci_params ci) = false ->
    is_objs it = false -> rb it = None.
  Proof.
    intros Hin Hx Hp Ho. unfold read_back. rewrite sget_ns_of, Hx.
    assert (E : obj_attr ci attrs (it_attr it) = VNone).
    { unfold obj_attr. rewrite Hx. destruct (ci_geom ci) eqn:Eg; try reflexivity.
      destruct (sget "track_items" attrs) as [y|]; [|reflexivity]. destruct y; try reflexivity.
      assert (Hk := cf_track _ _ _ F). unfold track_ok, is_track in Hk. rewrite Eg, !andb_true_iff in Hk. destruct Hk as [_ Hk].
      unfold track_attrs in Hk. cbn [forallb] in Hk. rewrite !andb_true_iff in Hk. destruct Hk as [[K1 _] [[K2 _] [[K3 _] _]]].
      destruct (String.eqb_spec (it_attr it) "whens") as [E1|]; [rewrite E1 in Hp; congruence|].
      destruct (String.eqb_spec (it_attr it) "coords") as [E1|]; [rewrite E1 in Hp; congruence|].
      destruct (String.eqb_spec (it_attr it) "angles") as [E1|]; [rewrite E1 in Hp; congruence|]. reflexivity. }
    rewrite E. unfold is_objs in Ho. destruct (it_set it); try discriminate Ho; reflexivity.
  Qed.

  Lemma g_ctor a k x : In (a, k) (ctor_attrs ci) -> sget a attrs = Some x ->
    pr_attr W c N (a, x) = [na W ci its attrs None Normal ms (a, k)].
  Proof.
    intros Hin Hx.
    assert (Hk := ctor_get W ci its F a k Hin). unfold na. cbn [fst snd].
    assert (S := g_settled_facts _ _ Hx). unfold settled_attr in S. rewrite Hk in S.
    destruct (cf_kind _ _ _ F _ Hin) as [Hko _]. cbn [fst snd] in Hko.
    destruct (find_item a its) as [it|] eqn:Hf.
    - destruct (find_item_In _ _ _ Hf) as [Hit Ha]. subst a.
      assert (R := g_read_back it x Hit Hx). rewrite Hk in R. unfold rbo. rewrite Hf.
      destruct k; try exact R. discriminate Hko.
    - unfold rbo. rewrite Hf. destruct k; try discriminate S; try (destruct x; try discriminate S; reflexivity).
      + destruct x as [ | | |s| | | | | | | | ]; try discriminate S. destruct s; [reflexivity|discriminate S].
      + assert (Et : a = "track_items"%string).
        { assert (Ht := cf_track _ _ _ F). unfold track_ok in Ht. destruct (is_track ci) eqn:Ei.
          - rewrite !andb_true_iff in Ht. destruct Ht as [[_ Ht] _]. rewrite forallb_forall in Ht. specialize (Ht _ Hin). cbn in Ht.
            rewrite orb_false_r in Ht. now apply seqb_eq.
          - rewrite forallb_forall in Ht. now specialize (Ht _ Hin). }
        destruct x as [ | | | | | | | | |l| | ]; try discriminate S. unfold items_in. cbn [pr_attr]. f_equal. f_equal. rewrite <- Et, Hx. f_equal.
        clear -S. induction l as [|[w p o] l IH]; [reflexivity|]. cbn [forallb] in S. apply andb_prop in S as [S1 S2]. cbn [map]. rewrite <- (IH S2). f_equal.
        unfold titem_settled in S1. cbn in S1. apply andb_prop in S1 as [S0 S1]. unfold titem_norm. cbn [ti_when ti_coord ti_angle]. rewrite point_settled_norm by assumption.
        destruct o; [|discriminate]. now rewrite point_settled_norm by assumption.
  Qed.

  Lemma ctor_block p (l : list (string * ckind)) : map fst p = map fst l -> (forall ak, In ak l -> In ak (ctor_attrs ci)) ->
    (forall a x, In (a, x) p -> sget a attrs = Some x) ->
    map (na W ci its attrs None Normal ms) l = concat (map (pr_attr W c N) p).
  Proof.
    revert l; induction p as [|[a x] p IH]; intros [|[b k] l] E Hl Hp; try discriminate E; [reflexivity|].
    cbn in E. injection E as -> E. cbn [map concat]. rewrite <- (IH l); auto using in_cons.
    rewrite (g_ctor b k x); [reflexivity|apply Hl; now left|apply Hp; now left].
  Qed.

  Definition gx (it : item) : list (string * value) :=
    if mem (it_attr it) (ci_params ci) then [] else match rb it with Some v => [(it_attr it, v)] | None => [] end.

  Lemma extra_block (l : list item) q : (forall it, In it l -> In it its /\ mem (it_attr it) (ci_params ci) = false) ->
    map fst q = map it_attr l -> (forall a x, In (a, x) q -> sget a attrs = Some x) ->
    concat (map gx l) = concat (map (pr_attr W c N) q).
  Proof.
    revert q; induction l as [|it l IH]; intros [|[a x] q] Hl E Hq; try discriminate E; [reflexivity|].
    cbn in E. injection E as -> E. cbn [map concat]. rewrite (IH q); auto using in_cons. f_equal.
    destruct (Hl it (or_introl eq_refl)) as [Hit HP].
    unfold gx. rewrite HP. assert (R := g_read_back it x Hit (Hq _ _ (or_introl eq_refl))).
    destruct (ckind_of ci (it_attr it)) as [k|] eqn:Ek; [|now rewrite R].
    exfalso. apply sget_In in Ek. apply (cf_params _ _ _ F) in Ek. cbn in Ek. congruence.
  Qed.

  Lemma node_prune : nattrs W ci its attrs None Normal ms = concat (map (pr_attr W c N) attrs).
  Proof.
    destruct (shape_inv _ _ Hshape) as [xs [E [Hnd Hxs]]].
    assert (S := Hsettled [] []). unfold settled_node in S. rewrite Hc in S. apply andb_prop in S as [_ S]. apply all2_seq_eq in S.
    assert (Exs : extra_keys ci attrs = xs).
    { unfold extra_keys. rewrite E, !app_length, !map_length, skipn_app, map_length, skipn_all2 by (rewrite map_length; lia).
      rewrite Nat.sub_diag. cbn [app skipn]. rewrite firstn_app.
      replace (length (ci_pre ci) + (length xs + length (ci_post ci)) - length (ci_pre ci) - length (ci_post ci))%nat with (length xs) by lia.
      rewrite Nat.sub_diag. cbn [firstn]. rewrite firstn_all, app_nil_r. reflexivity. }
    rewrite Exs in S.
    assert (Sp : exists p q r, attrs = p ++ q ++ r /\ map fst p = map fst (ci_pre ci) /\ map fst q = xs /\ map fst r = map fst (ci_post ci)).
    { clear -E. exists (firstn (length (ci_pre ci)) attrs), (firstn (length xs) (skipn (length (ci_pre ci)) attrs)), (skipn (length xs) (skipn (length (ci_pre ci)) attrs)).
      rewrite !firstn_skipn. split; [reflexivity|]. rewrite <- !firstn_map, <- !skipn_map, E.
      assert (L : length (ci_pre ci) = length (map fst (ci_pre ci))) by (now rewrite map_length). rewrite L.
      rewrite firstn_app, firstn_all, skipn_app, skipn_all, Nat.sub_diag. cbn [firstn skipn app]. rewrite app_nil_r.
      rewrite firstn_app, firstn_all, skipn_app, skipn_all, Nat.sub_diag. cbn [firstn skipn app]. rewrite app_nil_r. auto. }
    destruct Sp as [p [q [r [Ea [Ep [Eq Er]]]]]].
    assert (G : forall a x, In (a, x) attrs -> sget a attrs = Some x) by (intros; now apply sget_NoDup).
    transitivity (concat (map (pr_attr W c N) (p ++ q ++ r))); [|now rewrite <- Ea]. rewrite !map_app, !concat_app. unfold nattrs. f_equal; [|f_equal].
    - apply ctor_block; [exact Ep|intros; apply in_or_app; now left|]. intros a x Hin. apply G. rewrite Ea. apply in_or_app. now left.
    - assert (Gq : forall a x, In (a, x) q -> sget a attrs = Some x).
      { intros a x Hin. apply G. rewrite Ea. apply in_or_app. right. apply in_or_app. now left. }
      rewrite S in Eq.
      set (P := fun it : item => negb (mem (it_attr it) (ci_params ci)) && (mem (it_attr it) (map fst attrs) || is_objs it)) in *.
      assert (Ef : xtra W ci its attrs None Normal ms = concat (map gx (filter P its))).
      { unfold xtra. change (concat (map gx its) = concat (map gx (filter P its))).
        assert (K : forall it, In it its -> P it = false -> gx it = []).
        { intros it Hit HP. unfold P in HP. unfold gx. destruct (mem (it_attr it) (ci_params ci)) eqn:Em; [reflexivity|]. cbn [negb andb] in HP.
          apply orb_false_elim in HP as [H1 H2]. rewrite g_missing; auto. apply sget_None. intro H. apply mem_In in H. congruence. }
        clear -K. induction its as [|it l IH]; [reflexivity|]. cbn [map concat filter]. rewrite IH by auto using in_cons.
        destruct (P it) eqn:EP; [reflexivity|]. rewrite (K it) by auto using in_eq. reflexivity. }
      rewrite Ef. apply extra_block; auto. intros it Hin. apply filter_In in Hin as [Hin HP]. split; [exact Hin|].
      unfold P in HP. apply andb_prop in HP as [HP _]. now apply negb_true_iff in HP.
    - apply ctor_block; [exact Er|intros; apply in_or_app; now right|]. intros a x Hin. apply G. rewrite Ea. apply in_or_app. right. apply in_or_app. now right.
  Qed.
End Node.

(** An object that was read loses exactly its falsy sub-objects. *)
Theorem norm_prune W v : world_ok W = true -> vall (typed_node W) v = true -> settled_with anyv W v = true ->
  norm W None Normal v = prune W v.
Proof.
  intro HW. assert (G : vall (typed_node W) v = true -> settled_with anyv W v = true ->
    norm W None Normal v = prune W v /\ match v with VList l => forall y, In y l -> norm W None Normal y = prune W y | _ => True end); [|intros; now apply G].
  induction v as [ | | | | | | | | | |l IH|c ns nss attrs IH] using value_ind'; intros Ht Hs; try (split; [reflexivity|exact I]).
  - split; [reflexivity|]. unfold settled_with in Hs. cbn [vall] in Ht, Hs. rewrite forallb_forall in Ht, Hs. rewrite Forall_forall in IH.
    intros y Hy. now apply (IH _ Hy); [apply Ht|apply Hs].
  - split; [|exact I]. unfold settled_with in Hs. cbn [vall] in Ht, Hs. apply andb_prop in Ht as [T1 T2]. apply andb_prop in Hs as [S1 S2].
    unfold typed_node in T1. destruct (class_of W c) as [ci|] eqn:Hc; [|discriminate]. apply andb_prop in T1 as [Ts Ta].
    rewrite (norm_nattrs _ _ _ _ _ _ _ _ Hc), prune_obj. f_equal.
    rewrite (node_prune W c ci attrs HW Hc Ts Ta); [|intros; exact S1]. f_equal. apply map_ext_in. intros [a x] Hin.
    rewrite forallb_forall in T2, S2. rewrite Forall_forall in IH. destruct (IH _ Hin (T2 _ Hin) (S2 _ Hin)) as [E1 E2]. cbn [fst snd] in *.
    unfold pr_attr. destruct x; try reflexivity.
    + do 5 f_equal. apply map_ext_in. intros y Hy. now rewrite (E2 y Hy).
    + now rewrite E1.
Qed.

(** ** Size *)

Lemma size_prune_list W (l : list value) :
  (forall y, In y l -> (1 <= size y)%nat /\ (size (prune W y) <= size y)%nat /\ (size (prune W y) = size y -> prune W y = y)) ->
  let r := concat (map (fun y => if truth W y then [prune W y] else []) l) in
  (list_sum (map size r) <= list_sum (map size l))%nat /\ (list_sum (map size r) = list_sum (map size l) -> r = l).
Proof.
  cbv zeta. induction l as [|y l IH]; intro H; [split; reflexivity|]. destruct (H y (or_introl eq_refl)) as [A [B C]].
  destruct IH as [D E]; [auto using in_cons|]. cbn [map concat]. destruct (truth W y); cbn [app map].
  - change (list_sum (?a :: ?b)) with (a + list_sum b)%nat. split; [lia|]. intro K. rewrite C, E by lia. reflexivity.
  - change (list_sum (?a :: ?b)) with (a + list_sum b)%nat. split; [lia|]. intro K. lia.
Qed.

Lemma size_filter (P : value -> bool) (l : list value) : (forall y, In y l -> (1 <= size y)%nat) ->
  (list_sum (map size (filter P l)) <= list_sum (map size l))%nat /\ (list_sum (map size (filter P l)) = list_sum (map size l) -> filter P l = l).
Proof.
  induction l as [|y l IH]; intro H; [split; reflexivity|]. assert (A := H y (or_introl eq_refl)). destruct IH as [D E]; [auto using in_cons|].
  cbn [filter]. destruct (P y); cbn [map]; change (list_sum (?a :: ?b)) with (a + list_sum b)%nat; (split; [lia|]; intro K); [rewrite E by lia; reflexivity|lia].
Qed.

Lemma prune_size_obj W y : match y with VObj _ _ _ _ => (1 <= size (prune W y))%nat | _ => True end.
Proof. destruct y; try exact I. cbn. lia. Qed.

Theorem prune_size W v : vall (typed_node W) v = true ->
  (size (prune W v) <= size v)%nat /\ (size (prune W v) = size v -> prune W v = v).
Proof.
  intro Ht.
  assert (G : (size (prune W v) <= size v)%nat /\ (size (prune W v) = size v -> prune W v = v) /\
    match v with VList l => forall y, In y l -> (size (prune W y) <= size y)%nat /\ (size (prune W y) = size y -> prune W y = y) | _ => True end); [|tauto].
  revert Ht. induction v as [ | | | | | | | | | |l IH|c ns nss attrs IH] using value_ind'; intros Ht; try (cbn; auto; fail).
  - split; [cbn; lia|]. split; [reflexivity|]. cbn [vall] in Ht. rewrite forallb_forall in Ht. rewrite Forall_forall in IH.
    intros y Hy. destruct (IH y Hy (Ht y Hy)) as [A [B _]]. auto.
  - cbn [vall] in Ht. apply andb_prop in Ht as [T1 T2].
    unfold typed_node in T1. destruct (class_of W c) as [ci|] eqn:Hc; [|discriminate]. apply andb_prop in T1 as [_ Ta].
    rewrite prune_obj.
    assert (K : (list_sum (map (fun av => size (snd av)) (concat (map (pr_attr W c (prune W)) attrs))) <= list_sum (map (fun av => size (snd av)) attrs))%nat /\
       (list_sum (map (fun av => size (snd av)) (concat (map (pr_attr W c (prune W)) attrs))) = list_sum (map (fun av => size (snd av)) attrs) ->
        concat (map (pr_attr W c (prune W)) attrs) = attrs)).
    { induction attrs as [|[a x] attrs IHa]; [split; reflexivity|]. cbn [forallb] in Ta, T2. apply andb_prop in Ta as [Ta1 Ta2]. apply andb_prop in T2 as [T21 T22].
      inversion IH as [|? ? IH1 IH2]; subst. destruct (IHa IH2 Ta2 T22) as [D E]. cbn [fst snd] in IH1. destruct (IH1 T21) as [A [B C]]. clear IHa IH IH1 IH2.
      cbn [map concat]. rewrite map_app, list_sum_app. change (list_sum (?a :: ?b)) with (a + list_sum b)%nat. cbn [snd].
      assert (X : (list_sum (map (fun av => size (snd av)) (pr_attr W c (prune W) (a, x))) <= size x)%nat /\
         (list_sum (map (fun av => size (snd av)) (pr_attr W c (prune W) (a, x))) = size x -> pr_attr W c (prune W) (a, x) = [(a, x)])).
      { unfold pr_attr. destruct x; try (split; [cbn; lia|reflexivity]).
        - cbn [map snd]. change (list_sum [?a]) with (a + 0)%nat. rewrite Nat.add_0_r. cbn [size].
          assert (O : forall y, In y l -> exists c0 n0 s0 a0, y = VObj c0 n0 s0 a0).
          { intros y Hy. cbn [attr_typed] in Ta1. apply andb_prop in Ta1 as [Ta1 _]. destruct (find_item a (items_of W c)); [|discriminate].
            unfold item_typed in Ta1. destruct (it_set i); try discriminate. rewrite forallb_forall in Ta1. specialize (Ta1 y Hy). destruct y; try discriminate. eauto. }
          destruct (size_prune_list W l) as [L1 L2].
          { intros y Hy. destruct (O y Hy) as [c0 [n0 [s0 [a0 ->]]]]. split; [cbn; lia|]. now apply C. }
          set (r := concat (map (fun y : value => if truth W y then [prune W y] else []) l)) in *.
          assert (Or : forall y, In y r -> (1 <= size y)%nat).
          { intros y Hy. unfold r in Hy. apply in_concat in Hy as [z [Hz Hy]]. apply in_map_iff in Hz as [w [<- Hw]]. destruct (truth W w); [|destruct Hy].
            destruct Hy as [<-|[]]. destruct (O w Hw) as [c0 [n0 [s0 [a0 ->]]]]. cbn. lia. }
          unfold refilter. rewrite Hc. destruct (ckind_of ci a) as [[]|]; try (split; [exact L1|]; intro K; now rewrite (L2 K)).
          destruct (size_filter (truth W) r Or) as [M1 M2]. split; [lia|]. intro K. rewrite M2, L2 by lia. reflexivity.
        - destruct (truth W _); [|destruct (stored W c a); cbn [map snd size]; (split; [cbn; lia|]); intro K; cbn in K; lia].
          cbn [map snd]. change (list_sum [?a]) with (a + 0)%nat. rewrite Nat.add_0_r. split; [exact A|]. intro K. now rewrite (B K). }
      destruct X as [X1 X2]. split; [lia|]. intro K. rewrite X2, E by lia. reflexivity. }
    assert (Sz : forall l, size (VObj c ns nss l) = S (list_sum (map (fun av => size (snd av)) l))).
    { intro l. cbn [size]. do 2 f_equal. apply map_ext. now intros []. }
    rewrite !Sz. destruct K as [K1 K2]. split; [lia|]. split; [|exact I]. intro K. rewrite K2 by lia. reflexivity.
Qed.

(** ** Name spaces and dates stay in order *)

Lemma sget_pr W c n a attrs : NoDup (map fst attrs) ->
  sget a (concat (map (pr_attr W c n) attrs)) =
  match sget a attrs with Some x => hd_error (map snd (pr_attr W c n (a, x))) | None => None end.
Proof.
  assert (Hk : forall b x kv, In kv (pr_attr W c n (b, x)) -> fst kv = b).
  { intros b x kv. unfold pr_attr. destruct x; try (intros [<-|[]]; reflexivity). destruct (truth W _); [intros [<-|[]]; reflexivity|].
    destruct (stored W c b); [intros [<-|[]]; reflexivity|intros []]. }
  induction attrs as [|[b x] attrs IH]; intro Hd; [reflexivity|]. cbn [map fst] in Hd. inversion Hd as [|? ? Hni Hd']; subst.
  cbn [map concat sget]. rewrite sget_app. destruct (String.eqb_spec a b) as [->|Nab].
  - assert (E : sget b (concat (map (pr_attr W c n) attrs)) = None).
    { rewrite (IH Hd'). destruct (sget b attrs) as [y|] eqn:Eb; [|reflexivity]. apply sget_In, (in_map fst) in Eb. contradiction. }
    rewrite E. specialize (Hk b x). destruct (pr_attr W c n (b, x)) as [|[k y] r]; [reflexivity|]. cbn. assert (k = b) by (apply (Hk (k, y)); now left). subst. now rewrite String.eqb_refl.
  - assert (E : sget a (pr_attr W c n (b, x)) = None).
    { apply sget_None. intro Hin. apply in_map_iff in Hin as [kv [E Hin]]. apply Hk in Hin. congruence. }
    rewrite E. now apply IH.
Qed.

Definition plain (x : value) : bool := match x with VObj _ _ _ _ | VList _ | VEnum _ _ => false | _ => true end.

Definition PR (W : world) (x x' : value) : Prop :=
  match x with
  | VObj c ns nss _ => (exists a', x' = VObj c ns nss a') \/ plain x' = true
  | VList l => exists r, x' = VList r /\ forall y', In y' r -> exists y, In y l /\ y' = prune W y
  | _ => x' = x
  end.

Lemma obj_attr_pr W c ci attrs a : NoDup (map fst attrs) ->
  PR W (obj_attr ci attrs a) (obj_attr ci (concat (map (pr_attr W c (prune W)) attrs)) a).
Proof.
  intro Hd. set (attrs' := concat _).
  assert (Hf : forall b, match ci_geom ci, sget "track_items"%string attrs' with
      | GkTrack, Some (VItems l) =>
          if String.eqb b "whens" then VDates (map ti_when l)
          else if String.eqb b "coords" then VCoords true (map ti_coord (filter item_coord_ok l))
          else if String.eqb b "angles" then VCoords true (concat (map (fun i => opt_list (ti_angle i)) l))
          else VNone
      | _, _ => VNone
      end = match ci_geom ci, sget "track_items"%string attrs with
      | GkTrack, Some (VItems l) =>
          if String.eqb b "whens" then VDates (map ti_when l)
          else if String.eqb b "coords" then VCoords true (map ti_coord (filter item_coord_ok l))
          else if String.eqb b "angles" then VCoords true (concat (map (fun i => opt_list (ti_angle i)) l))
          else VNone
      | _, _ => VNone
      end).
  { intro b. unfold attrs'. rewrite (sget_pr W c (prune W) "track_items" attrs Hd). destruct (sget "track_items" attrs) as [x|]; [|reflexivity].
    destruct x; try reflexivity. unfold pr_attr. destruct (truth W _); [|destruct (stored W c _)]; reflexivity. }
  assert (Hp : forall o : option value, plain match ci_geom ci, o with
      | GkTrack, Some (VItems l) =>
          if String.eqb a "whens" then VDates (map ti_when l)
          else if String.eqb a "coords" then VCoords true (map ti_coord (filter item_coord_ok l))
          else if String.eqb a "angles" then VCoords true (concat (map (fun i => opt_list (ti_angle i)) l))
          else VNone
      | _, _ => VNone
      end = true).
  { intro o. destruct (ci_geom ci); try reflexivity. destruct o as [x|]; [|reflexivity]. destruct x; try reflexivity.
    destruct (String.eqb a _); [reflexivity|]. destruct (String.eqb a _); [reflexivity|]. now destruct (String.eqb a _). }
  unfold obj_attr. unfold attrs' at 1. rewrite (sget_pr W c (prune W) a attrs Hd). destruct (sget a attrs) as [x|] eqn:Ex.
  - destruct x; cbn [pr_attr map snd hd_error]; try reflexivity.
    + unfold PR. eexists. split; [reflexivity|]. intros y' Hy.
      assert (Hy' : In y' (concat (map (fun y => if truth W y then [prune W y] else []) l))).
      { unfold refilter in Hy. destruct (class_of W c) as [ci'|]; [|exact Hy]. destruct (ckind_of ci' a) as [[]|]; try exact Hy. now apply filter_In in Hy. }
      apply in_concat in Hy' as [z [Hz Hy']]. apply in_map_iff in Hz as [y [<- Hyl]]. destruct (truth W y); [|destruct Hy']. destruct Hy' as [<-|[]]. eauto.
    + destruct (truth W _); [left; cbn [map snd hd_error]; rewrite prune_obj; eauto|]. right. destruct (stored W c a); [reflexivity|]. cbn [map hd_error]. apply Hp.
  - rewrite Hf. unfold PR. specialize (Hp (sget "track_items"%string attrs)). destruct (match ci_geom ci with GkTrack => _ | _ => _ end); try reflexivity; discriminate Hp.
Qed.

Lemma item_ns_pr W ns nss it x x' : PR W x x' -> item_ns_ok W ns nss it x = true -> item_ns_ok W ns nss it x' = true.
Proof.
  intros HP H. unfold item_ns_ok in *. destruct (it_set it); try exact H.
  - cbn [forallb] in *. apply andb_prop in H as [H1 H2]. rewrite H2, andb_true_r. unfold PR in HP.
    destruct x; try (subst x'; exact H1).
    + destruct HP as [r [-> _]]. reflexivity.
    + destruct HP as [[a' ->]|HP]; [reflexivity|]. destruct x'; try reflexivity; discriminate HP.
  - unfold PR in HP. destruct x; try (subst x'; exact H).
    + destruct HP as [r [-> _]]. reflexivity.
    + destruct HP as [[a' ->]|HP]; [exact H|]. destruct x'; try reflexivity; discriminate HP.
  - unfold PR in HP. destruct x; try (subst x'; reflexivity).
    + destruct HP as [r [-> HP]]. destruct (map (ns_get nss) (it_nsids it)); [reflexivity|]. rewrite forallb_forall in H |- *.
      intros y' Hy'. destruct (HP y' Hy') as [y [Hy ->]]. specialize (H y Hy). destruct y; try reflexivity. rewrite prune_obj. exact H.
    + destruct HP as [[a' ->]|HP]; [reflexivity|]. destruct x'; try reflexivity; discriminate HP.
Qed.

Lemma prune_not_obj W v : match v with VObj _ _ _ _ => True | _ => prune W v = v end.
Proof. destruct v; reflexivity || exact I. Qed.

Theorem prune_rt W v : vall (typed_node W) v = true -> vall (rt_node W) v = true -> vall (rt_node W) (prune W v) = true.
Proof.
  intros Ht Hr.
  assert (G : vall (rt_node W) (prune W v) = true /\ match v with VList l => forall y, In y l -> vall (rt_node W) (prune W y) = true | _ => True end); [|tauto].
  revert Ht Hr. induction v as [ | | | | | | | | | |l IH|c ns nss attrs IH] using value_ind'; intros Ht Hr; try (cbn; auto; fail).
  - split; [exact Hr|]. cbn [vall] in Ht, Hr. rewrite forallb_forall in Ht, Hr. rewrite Forall_forall in IH.
    intros y Hy. now destruct (IH y Hy (Ht y Hy) (Hr y Hy)).
  - split; [|exact I]. rewrite prune_obj. cbn [vall] in *. apply andb_prop in Ht as [T1 T2]. apply andb_prop in Hr as [R1 R2].
    unfold typed_node in T1. unfold rt_node in *. destruct (class_of W c) as [ci|] eqn:Hc; [|discriminate]. apply andb_prop in T1 as [Ts Ta].
    destruct (shape_inv _ _ Ts) as [xs [_ [Hnd _]]]. rewrite !andb_true_iff in R1. destruct R1 as [[[R11 R12] R13] R14].
    rewrite R11, R12. cbn [andb].
    assert (Hin : forall a x', In (a, x') (concat (map (pr_attr W c (prune W)) attrs)) -> exists x, In (a, x) attrs /\ In (a, x') (pr_attr W c (prune W) (a, x))).
    { intros a x' H. apply in_concat in H as [l [Hl H]]. apply in_map_iff in Hl as [[b x] [<- Hbx]].
      assert (b = a).
      { revert H. unfold pr_attr. destruct x; try (intros [E|[]]; now injection E). destruct (truth W _); [intros [E|[]]; now injection E|].
        destruct (stored W c b); [intros [E|[]]; now injection E|intros []]. }
      subst b. eauto. }
    rewrite !andb_true_iff. split; [split|].
    + apply forallb_forall. intros [a x'] H. destruct (Hin a x' H) as [x [Hx H']]. rewrite forallb_forall in R13. specialize (R13 _ Hx).
      unfold attr_readable in *. apply andb_prop in R13 as [A B]. unfold pr_attr in H'.
      destruct x; try (destruct H' as [E|[]]; injection E as <-; rewrite A, B; reflexivity).
      * destruct H' as [E|[]]. injection E as <-. cbn [item_readable andb]. destruct (ckind_of ci a) as [[]|]; try reflexivity; discriminate B.
      * assert (Hk : match ckind_of ci a with Some CCleanReq => False | _ => True end) by (destruct (ckind_of ci a) as [[]|]; try exact I; discriminate B).
        destruct (truth W _); [|destruct (stored W c a)]; cbn [In] in H'; try contradiction; destruct H' as [E|[]]; injection E as <-; rewrite ?prune_obj; cbn [item_readable andb];
          destruct (ckind_of ci a) as [[]|]; try reflexivity; destruct Hk.
    + apply forallb_forall. intros it Hit. rewrite forallb_forall in R14. eapply item_ns_pr; [now apply obj_attr_pr|]. now apply R14.
    + apply forallb_forall. intros [a x'] H. destruct (Hin a x' H) as [x [Hx H']]. rewrite Forall_forall in IH. rewrite forallb_forall in T2, R2.
      destruct (IH _ Hx (T2 _ Hx) (R2 _ Hx)) as [A B]. cbn [snd] in *. unfold pr_attr in H'.
      destruct x; try (destruct H' as [E|[]]; injection E as <-; reflexivity).
      * destruct H' as [E|[]]. injection E as <-. cbn [vall]. apply forallb_forall. intros y' Hy.
        assert (Hy' : In y' (concat (map (fun y => if truth W y then [prune W y] else []) l))).
        { unfold refilter in Hy. rewrite Hc in Hy. destruct (ckind_of ci a) as [[]|]; try exact Hy. now apply filter_In in Hy. }
        apply in_concat in Hy' as [z [Hz Hy']]. apply in_map_iff in Hz as [y [<- Hyl]]. destruct (truth W y); [|destruct Hy']. destruct Hy' as [<-|[]]. auto.
      * destruct (truth W _); [|destruct (stored W c a)]; cbn [In] in H'; try contradiction; destruct H' as [E|[]]; injection E as <-; [exact A|reflexivity].
Qed.

(** ** Generations *)

Section Gen.
  Variables (W : world) (strict : bool).
  Hypothesis HW : world_ok W = true.

  Definition readish (v : value) : Prop :=
    read_inv W v /\ rt_ok W v = true /\ exists c ns nss attrs, v = VObj c ns nss attrs.

  Lemma gen_step c ns nss attrs e : read_inv W (VObj c ns nss attrs) -> rt_ok W (VObj c ns nss attrs) = true ->
    etree W None Normal (VObj c ns nss attrs) = Ok e ->
    from_element W strict e c ns nss = Ok (prune W (VObj c ns nss attrs)) /\ readish (prune W (VObj c ns nss attrs)).
  Proof.
    intros [T [S K]] R E.
    assert (H := roundtrip W None Normal strict c ns nss attrs e HW T R E). rewrite norm_prune in H by assumption.
    split; [exact H|]. destruct (reader_inv W strict e HW _ _ _ _ H) as [I _]. split; [exact I|]. split; [|rewrite prune_obj; eauto 6].
    now apply prune_rt.
  Qed.

  Lemma gen_fixed n c ns nss attrs w : read_inv W (VObj c ns nss attrs) -> rt_ok W (VObj c ns nss attrs) = true ->
    prune W (VObj c ns nss attrs) = VObj c ns nss attrs ->
    generations W strict n (VObj c ns nss attrs) = Ok w -> w = VObj c ns nss attrs.
  Proof.
    intros I R P. induction n as [|n IH]; cbn [generations]; intro H; [congruence|].
    apply bind_ok in H as [e [He H]]. apply bind_ok in H as [v' [Hv H]].
    destruct (gen_step _ _ _ _ _ I R He) as [Hf _]. rewrite Hf, P in Hv. assert (v' = VObj c ns nss attrs) by congruence. subst v'. auto.
  Qed.

  Theorem generations_stable n v w : readish v -> (size v <= n)%nat -> generations W strict n v = Ok w ->
    readish w /\ prune W w = w.
  Proof.
    revert v; induction n as [|n IH]; intros v [I [R [c [ns [nss [attrs ->]]]]]] Hs H; [cbn in Hs; lia|].
    destruct (prune_size W (VObj c ns nss attrs) (proj1 I)) as [Hle Heq].
    destruct (Nat.eq_dec (size (prune W (VObj c ns nss attrs))) (size (VObj c ns nss attrs))) as [E|E].
    - specialize (Heq E). apply gen_fixed in H; auto. subst w. split; [split; [exact I|split; [exact R|eauto]]|exact Heq].
    - cbn [generations] in H. apply bind_ok in H as [e [He H]]. apply bind_ok in H as [v' [Hv H]].
      destruct (gen_step _ _ _ _ _ I R He) as [Hf Hr]. rewrite Hf in Hv. assert (Ev : v' = prune W (VObj c ns nss attrs)) by congruence. subst v'. apply (IH _ Hr); [lia|exact H].
  Qed.

  (** Class and name spaces never change. *)
  Theorem generations_same_head n c ns nss attrs w : read_inv W (VObj c ns nss attrs) -> rt_ok W (VObj c ns nss attrs) = true ->
    generations W strict n (VObj c ns nss attrs) = Ok w -> exists attrs', w = VObj c ns nss attrs'.
  Proof.
    revert attrs; induction n as [|n IH]; cbn [generations]; intros attrs I R H; [injection H as <-; eauto|].
    apply bind_ok in H as [e [He H]]. apply bind_ok in H as [v' [Hv H]].
    destruct (gen_step _ _ _ _ _ I R He) as [Hf [I' [R' _]]]. rewrite Hf in Hv. assert (Ev : v' = prune W (VObj c ns nss attrs)) by congruence. subst v'.
    rewrite prune_obj in *. eauto.
  Qed.
End Gen.
