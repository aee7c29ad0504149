(** * Reading after an additional registration. *)
From Coq Require Import String List NArith ZArith Bool Lia.
From Verif Require Import Ustr UstrProofs Res PyInt PyFloat PyDate Elem Value Geom Codec Spec Settled EmitProofs CodecProofs ReadProofs ItemProofs RoundTrip NsProofs Agree AgreeProofs AbsentProofs StrictProofs WriteProofs Extend ExtendProofs ExtendWriteProofs.
Import ListNotations.

Definition flat (v : value) : bool := match v with VObj _ _ _ _ | VList _ => false | _ => true end.

Lemma guarded_flat strict r v : guarded strict r = Ok (Some v) -> r = Ok v.
Proof. destruct r as [x|e]; cbn; [intro H; now injection H as ->|]. destruct e; try discriminate. now destruct strict. Qed.

(** Scalar getters yield scalars. *)
Lemma get_kwarg_flat W strict j a x ks ns nss v : it_get j <> GObj -> it_get j <> GObjs ->
  get_kwarg W strict j a x ks ns nss = Ok (Some v) -> flat v = true.
Proof.
  intros N1 N2 E. unfold get_kwarg in E. rewrite k_leaf_find in E. destruct (it_get j); try congruence.
  - destruct (stripped x); [|discriminate]. now injection E as <-.
  - destruct (k_leaf _ ks); [|discriminate]. now injection E as <-.
  - destruct (match uget _ _ with Some _ => _ | None => _ end); [|discriminate]. now injection E as <-.
  - rewrite bool_match in E. destruct (match it_classes j with ["bool"%string] => true | _ => false end); [|discriminate].
    destruct (k_leaf _ ks); [|discriminate]. apply guarded_flat in E. unfold get_boolean_value in E.
    repeat match type of E with context [if ?b then _ else _] => destruct b end; try (now injection E as <-); try discriminate; apply bind_ok in E as [? [_ E]]; now injection E as <-.
  - destruct (k_leaf _ ks); [|discriminate]. apply guarded_flat in E. apply bind_ok in E as [? [_ E]]. now injection E as <-.
  - destruct (match uget _ _ with Some _ => _ | None => _ end); [|discriminate]. apply bind_ok in E as [? [_ E]]. now injection E as <-.
  - destruct (k_leaf _ ks); [|discriminate]. apply guarded_flat in E. apply bind_ok in E as [? [_ E]]. now injection E as <-.
  - destruct (match uget _ _ with Some _ => _ | None => _ end); [|discriminate]. apply guarded_flat in E. apply bind_ok in E as [? [_ E]]. now injection E as <-.
  - unfold with_enum in E. destruct (it_classes j) as [|k [|]]; try discriminate. destruct (sget k (w_enums W)); [|discriminate]. destruct (k_leaf _ ks); [|discriminate]. apply guarded_flat in E.
    unfold get_enum_value in E. apply bind_ok in E as [? [_ E]]. destruct (_ && _); [discriminate|]. now injection E as <-.
  - unfold with_enum in E. destruct (it_classes j) as [|k [|]]; try discriminate. destruct (sget k (w_enums W)); [|discriminate]. destruct (match uget _ _ with Some _ => _ | None => _ end); [|discriminate]. apply guarded_flat in E.
    unfold get_enum_value in E. apply bind_ok in E as [? [_ E]]. destruct (_ && _); [discriminate|]. now injection E as <-.
  - destruct (k_leaf _ ks); [|discriminate]. apply guarded_flat in E. apply bind_ok in E as [? [_ E]]. now injection E as <-.
  - apply bind_ok in E as [l [_ E]]. destruct (nilb _); [discriminate|]. now injection E as <-.
  - apply bind_ok in E as [l [_ E]]. destruct (nilb _); [discriminate|]. now injection E as <-.
  - destruct x; [|discriminate]. apply guarded_flat in E. unfold parse_coordinates in E. apply bind_ok in E as [? [_ E]]. now injection E as <-.
Qed.

Section Read.
  Variables (W : world) (d : string) (it : item).
  Notation W' := (extend W d it).
  Notation a := (it_attr it).
  Notation f := (forget W d a).
  Hypothesis HW : world_ok W = true.
  Hypothesis HM : mros_ok W = true.
  Hypothesis HF : fresh W d it = true.

  Lemma forget_flat v : flat v = true -> f v = v.
  Proof. now destruct v. Qed.

  (** Keyword arguments without [a], if [b]. *)
  Definition drop (b : bool) (kws : list (string * value)) : list (string * value) :=
    flat_map (fun kv => match kv with (k, x) => if b && String.eqb k a then [] else [(k, f x)] end) kws.

  Lemma forget_obj c ns nss attrs : f (VObj c ns nss attrs) = VObj c ns nss (drop (below_class W d c) attrs).
  Proof. reflexivity. Qed.

  Lemma drop_app b l r : drop b (l ++ r) = drop b l ++ drop b r.
  Proof. apply flat_map_app. Qed.

  Lemma drop_get b kws k : (b = true -> k <> a) -> sget k (drop b kws) = match sget k kws with Some x => Some (f x) | None => None end.
  Proof.
    intro H. induction kws as [|[k' x] kws IH]; [reflexivity|]. unfold drop. cbn [flat_map]. fold (drop b kws). rewrite sget_app, IH. cbn [sget].
    destruct (String.eqb_spec k k') as [<-|N].
    - destruct b; cbn [andb]; [destruct (String.eqb_spec k a); [now destruct (H eq_refl)|]|]; cbn [sget]; now rewrite String.eqb_refl.
    - destruct (b && _); [reflexivity|]. cbn [sget]. destruct (String.eqb_spec k k'); [contradiction|reflexivity].
  Qed.

  Lemma drop_kwget b kws k : (b = true -> k <> a) -> kwget (drop b kws) k = f (kwget kws k).
  Proof. intro H. unfold kwget. rewrite drop_get by exact H. now destruct (sget k kws). Qed.

  Lemma drop_sset b kws k v : drop b (sset k v kws) = if b && String.eqb k a then drop b kws else sset k (f v) (drop b kws).
  Proof.
    induction kws as [|[k' x] kws IH]; [unfold drop; cbn [sset flat_map app]; now destruct (b && _)|]. unfold drop in *. cbn [sset flat_map].
    destruct (String.eqb_spec k k') as [<-|N]; cbn [flat_map].
    - destruct (b && String.eqb k a); [reflexivity|]. cbn [app sset]. now rewrite String.eqb_refl.
    - rewrite IH. destruct (b && String.eqb k a); [reflexivity|]. destruct (b && String.eqb k' a); [reflexivity|]. cbn [app sset]. destruct (String.eqb_spec k k'); [contradiction|reflexivity].
  Qed.

  (** ** Truth values do not change *)

  Lemma coords_forget v : coords_of (f v) = coords_of v.
  Proof.
    destruct v; try reflexivity. rewrite forget_obj. cbn [coords_of]. rewrite drop_get.
    - destruct (sget _ attrs) as [x|]; [|reflexivity]. now destruct x.
    - intros _ E. destruct (fresh_item _ _ _ HF) as [_ [_ [_ [_ N]]]]. congruence.
  Qed.

  Definition as_rel (x y : attr_sem) : Prop := a_val y = f (a_val x) /\ snd (fst y) = snd (fst x) /\ a_list y = a_list x.
  Definition env_rel (env env' : list (string * attr_sem)) (k : string) : Prop :=
    match sget k env, sget k env' with Some x, Some y => as_rel x y | None, None => True | _, _ => False end.

  Lemma rel_attr {A} env env' k (g h : attr_sem -> res A) : env_rel env env' k -> (forall x y, as_rel x y -> g x = h y) -> with_attr env k g = with_attr env' k h.
  Proof. unfold env_rel, with_attr. destruct (sget k env), (sget k env'); try tauto. auto. Qed.

  Lemma rel_bool x y : as_rel x y -> a_bool y = a_bool x.
  Proof. intros [_ [H _]]. unfold a_bool. now rewrite H. Qed.
  Lemma rel_geom x y : as_rel x y -> a_geom y = a_geom x.
  Proof. intros [_ [H _]]. unfold a_geom. now rewrite H. Qed.

  Lemma eval_bool_rel env env' g e : (forall k, In k (bool_names e) -> env_rel env env' k) -> eval_bool env g e = eval_bool env' g e.
  Proof.
    induction e as [|k|k|k| |p IHp q IHq|p IHp q IHq]; cbn [bool_names eval_bool]; intro H; try reflexivity.
    - apply rel_attr; [apply H; now left|]. intros x y R. now rewrite (rel_bool _ _ R).
    - apply rel_attr; [apply H; now left|]. intros x y [R _]. rewrite R. now destruct (a_val x).
    - apply rel_attr; [apply H; now left|]. intros x y [R [_ R']]. rewrite R, R'. now destruct (a_val x).
    - rewrite IHp, IHq by (intros; apply H; apply in_or_app; auto). reflexivity.
    - rewrite IHp, IHq by (intros; apply H; apply in_or_app; auto). reflexivity.
  Qed.

  Lemma num_forget v : num_of (f v) = num_of v.
  Proof. now destruct v. Qed.

  Lemma eval_geom_rel env env' b k : (forall n, In n (geom_names k) -> env_rel env env' n) -> eval_geom env b k = eval_geom env' b k.
  Proof.
    assert (Co : forall g, env_rel env env' "kml_coordinates" -> coords_geometry env g = coords_geometry env' g).
    { intros g R. apply rel_attr; [exact R|]. intros x y Rx. rewrite (rel_bool _ _ Rx), (proj1 Rx), coords_forget. reflexivity. }
    destruct k; cbn [geom_names eval_geom]; intro H; try reflexivity; try (apply Co; apply H; now left).
    - apply rel_attr; [apply H; now left|]. intros x y R. now rewrite (rel_bool _ _ R), (rel_geom _ _ R).
    - apply rel_attr; [apply H; now left|]. intros x y R. rewrite (rel_bool _ _ R), (rel_geom _ _ R). destruct (a_bool x) as [[|]|]; cbn [bind]; try reflexivity. destruct (a_geom x) as [[g|]|]; cbn [bind]; try reflexivity.
      destruct (line_of g); cbn [bind]; [|reflexivity]. apply rel_attr; [apply H; right; now left|]. intros x' y' [_ [_ R']]. now rewrite R'.
    - apply rel_attr; [apply H; now left|]. intros x y [_ [_ R]]. now rewrite R.
    - apply rel_attr; [apply H; now left|]. intros x y R. rewrite (proj1 R), (rel_geom _ _ R). now destruct (a_val x).
    - destruct b as [[|]|]; cbn [bind]; try reflexivity. apply rel_attr; [apply H; now left|]. intros x1 y1 [R1 _]. apply rel_attr; [apply H; right; now left|]. intros x2 y2 [R2 _]. apply rel_attr; [apply H; right; right; now left|]. intros x3 y3 [R3 _].
      now rewrite R1, R2, R3, !num_forget.
    - apply rel_attr; [apply H; now left|]. intros x y R. now rewrite (rel_bool _ _ R), (rel_geom _ _ R).
    - apply rel_attr; [apply H; now left|]. intros x y [R _]. rewrite R. now destruct (a_val x).
    - apply rel_attr; [apply H; now left|]. intros x y [_ [_ R]]. now rewrite R.
  Qed.

  Lemma below_not_a c ci : class_of W c = Some ci -> below_class W d c = true -> fresh_facts W it c ci.
  Proof. intros Hc Hb. apply (fresh_class W d it HF c ci Hc). now rewrite <- (below_mem W d c ci Hc). Qed.

  Lemma sem_forget v : sem W (f v) = sem W v /\ match v with VList l => map (sem W) (map f l) = map (sem W) l | _ => True end.
  Proof.
    induction v as [ |b|n|s|c w|k|c|b l|l|l|l IH|c ns nss attrs IH] using value_ind'; try (split; reflexivity || exact I).
    - split; [cbn [forget sem]; now destruct l|]. rewrite map_map. apply map_ext_in. intros y Hy. rewrite Forall_forall in IH. exact (proj1 (IH y Hy)).
    - split; [|exact I]. rewrite forget_obj. destruct (class_of W c) as [ci|] eqn:Hc; [|cbn [sem]; now rewrite Hc].
      assert (R : forall k, (below_class W d c = true -> k <> a) -> env_rel (env_of W attrs) (env_of W (drop (below_class W d c) attrs)) k).
      { intros k Hk. unfold env_rel. rewrite !env_get, (drop_get _ _ _ Hk). destruct (sget k attrs) as [x|] eqn:Ex; [|exact I]. rewrite Forall_forall in IH. destruct (IH _ (sget_In _ _ _ Ex)) as [E1 E2]. cbn [snd] in *.
        split; [reflexivity|]. split; [exact E1|]. cbn. destruct x; try reflexivity. exact E2. }
      assert (Rb : forall k, In k (bool_names (ci_bool ci) ++ geom_names (ci_geom ci)) -> env_rel (env_of W attrs) (env_of W (drop (below_class W d c) attrs)) k).
      { intros k Hk. apply R. intros Hb ->. exact (ff_sem _ _ _ _ (below_not_a _ _ Hc Hb) Hk). }
      destruct (sem_obj W c ci ns nss attrs Hc) as [A B]. destruct (sem_obj W c ci ns nss (drop (below_class W d c) attrs) Hc) as [A' B']. unfold py_bool, geometry in *.
      rewrite <- (eval_bool_rel (env_of W attrs)) in A', B' by (intros; apply Rb, in_or_app; now left). rewrite <- (eval_geom_rel (env_of W attrs)) in B' by (intros; apply Rb, in_or_app; now right).
      apply injective_projections; congruence.
  Qed.

  Lemma bool_forget v : py_bool W (f v) = py_bool W v.
  Proof. unfold py_bool. now rewrite (proj1 (sem_forget v)). Qed.

  Lemma filter_forget l r : filter_true W l = Ok r -> filter_true W (map f l) = Ok (map f r).
  Proof.
    revert r. induction l as [|x l IH]; intros r E; cbn [filter_true map] in *; [now injection E as <-|]. rewrite bool_forget. destruct (py_bool W x) as [b|]; cbn [bind] in *; [|discriminate].
    apply bind_ok in E as [r' [Hr E]]. injection E as <-. rewrite (IH _ Hr). cbn [bind]. now destruct b.
  Qed.

  (** ** Constructors *)

  Lemma mk_attr_forget c ci ak kws y : class_of W c = Some ci -> In ak (ctor_attrs ci) ->
    mk_attr W' kws ak = Ok y -> mk_attr W (drop (below_class W d c) kws) ak = Ok (fst y, f (snd y)) /\ fst y = fst ak.
  Proof.
    intros Hc Hak E. destruct ak as [k ck]. assert (F := world_class _ _ _ HW Hc).
    assert (Hk : below_class W d c = true -> k <> a).
    { intros Hb. apply (ctor_not_a W d it HW HF c ci k Hc); [now rewrite <- (below_mem W d c ci Hc)|]. change k with (fst (k, ck)). now apply in_map. }
    unfold mk_attr in E |- *. apply bind_ok in E as [r [Hr E]]. injection E as <-. cbn [fst snd]. split; [|reflexivity]. rewrite (drop_kwget _ _ _ Hk). set (v := kwget kws k) in *.
    assert (G : match ck with CTrack => False | _ => True end ->
      match ck with
      | CRaw => Ok (f v)
      | CClean => clean_string (f v)
      | CCleanReq => let! b := py_bool W (f v) in if b then clean_string (f v) else Err EKMLSchema
      | COrEmpty => let! b := py_bool W (f v) in Ok (if b then f v else VStr [])
      | COrNone => let! b := py_bool W (f v) in Ok (if b then f v else VNone)
      | CListTruthy | CListNotNone => match f v with VNone => Ok (VList []) | VList l => Ok (VList l) | _ => Err ETypeError end
      | CFilter => match f v with VNone => Ok (VList []) | VList l => let! r := filter_true W l in Ok (VList r) | _ => Err ETypeError end
      | CCoordsOr => let! b := py_bool W (f v) in Ok (if b then f v else VCoords false [])
      | CTrack => Err ETypeError
      end = Ok (f r)).
    { assert (Cl : forall r0, clean_string v = Ok r0 -> clean_string (f v) = Ok (f r0)).
      { intros r0 H0. destruct v; try discriminate H0; cbn [forget clean_string] in *; [now injection H0 as <-|]. destruct (uempty s); [now injection H0 as <-|]. cbv zeta in *. destruct (uempty (strip s)); now injection H0 as <-. }
      intro N. destruct ck; try tauto; rewrite ?bool_forget; rewrite ?py_bool_ext in Hr.
      - now injection Hr as <-.
      - auto.
      - destruct (py_bool W v) as [[|]|]; cbn [bind] in *; [auto|discriminate|discriminate].
      - destruct (py_bool W v) as [[|]|]; cbn [bind] in *; [now injection Hr as <-|now injection Hr as <-|discriminate].
      - destruct (py_bool W v) as [[|]|]; cbn [bind] in *; [now injection Hr as <-|now injection Hr as <-|discriminate].
      - destruct v; try discriminate Hr; now injection Hr as <-.
      - destruct v; try discriminate Hr; now injection Hr as <-.
      - destruct v; try discriminate Hr; [now injection Hr as <-|]. apply bind_ok in Hr as [r' [Hr' Hr]]. injection Hr as <-. cbn [forget].
        rewrite (filter_forget l r'); [reflexivity|]. rewrite <- Hr'. clear. induction l as [|x l IH]; [reflexivity|]. cbn [filter_true]. now rewrite py_bool_ext, IH.
      - destruct (py_bool W v) as [[|]|]; cbn [bind] in *; [now injection Hr as <-|now injection Hr as <-|discriminate]. }
    destruct ck; try (rewrite G by exact I; reflexivity). clear G.
    assert (T := cf_track _ _ _ F). unfold track_ok in T. destruct (is_track ci).
    - rewrite !andb_true_iff in T. destruct T as [_ T]. rewrite forallb_forall in T.
      assert (N : forall n, In n track_attrs -> below_class W d c = true -> n <> a).
      { intros n Hn Hb ->. specialize (T _ Hn). apply andb_prop in T as [T _]. rewrite (ff_params _ _ _ _ (below_not_a _ _ Hc Hb)) in T. discriminate. }
      rewrite !drop_kwget by (apply N; cbn; tauto). clear T N. unfold build_track in *.
      assert (T1 : titems_of (f v) = titems_of v) by now destruct v. assert (T2 : forall z, dates_of (f z) = dates_of z) by now destruct z. assert (T3 : forall z, points_of (f z) = points_of z) by now destruct z.
      rewrite T1, T2, !T3. rewrite Hr. apply bind_ok in Hr as [l0 [_ Hr]]. apply bind_ok in Hr as [l1 [_ Hr]]. apply bind_ok in Hr as [l2 [_ Hr]]. apply bind_ok in Hr as [l3 [_ Hr]].
      destruct (_ && _) in Hr; [discriminate|]. destruct (_ && _) in Hr; [apply bind_ok in Hr as [l4 [_ Hr]]|]; injection Hr as <-; reflexivity.
    - rewrite forallb_forall in T. discriminate (T _ Hak).
  Qed.

  Lemma map_forget c ci l kws r : class_of W c = Some ci -> (forall ak, In ak l -> In ak (ctor_attrs ci)) ->
    map_res (mk_attr W' kws) l = Ok r -> map_res (mk_attr W (drop (below_class W d c) kws)) l = Ok (drop (below_class W d c) r).
  Proof.
    intros Hc. revert r. induction l as [|ak l IH]; intros r Hs E; cbn [map_res] in *; [now injection E as <-|]. apply bind_ok in E as [y [Hy E]]. apply bind_ok in E as [r' [Hr E]]. injection E as <-.
    assert (Hak : In ak (ctor_attrs ci)) by (apply Hs; now left). destruct (mk_attr_forget _ _ _ _ _ Hc Hak Hy) as [-> Ey]. rewrite (IH r'); [|intros; apply Hs; now right|exact Hr]. cbn [bind].
    destruct y as [k x]. cbn [fst snd] in *. unfold drop. cbn [flat_map]. destruct (below_class W d c) eqn:Hb; cbn [andb app]; [|reflexivity].
    destruct (String.eqb_spec k a) as [E|]; [|reflexivity]. exfalso. apply (ctor_not_a W d it HW HF c ci k Hc); [now rewrite <- (below_mem W d c ci Hc)|rewrite Ey; now apply in_map|exact E].
  Qed.

  Lemma extras_drop ci b kws : (b = true -> mem a (ci_params ci) = false) -> extras_of ci (drop b kws) = drop b (extras_of ci kws).
  Proof.
    intro H. unfold extras_of, drop. induction kws as [|[k x] kws IH]; [reflexivity|]. cbn [flat_map filter fst]. rewrite filter_app, IH.
    destruct (mem k (ci_params ci)) eqn:Em; cbn [negb flat_map].
    - destruct (b && String.eqb k a); [reflexivity|]. cbn [filter fst]. now rewrite Em.
    - destruct (b && String.eqb k a); [reflexivity|]. cbn [filter fst]. now rewrite Em.
  Qed.

  Lemma construct_forget c ns nss kws v : construct W' c ns nss kws = Ok v -> construct W c ns nss (drop (below_class W d c) kws) = Ok (f v).
  Proof.
    unfold construct. change (class_of W' c) with (class_of W c). destruct (class_of W c) as [ci|] eqn:Hc; [|discriminate].
    rewrite extras_drop by (intro Hb; exact (ff_params _ _ _ _ (below_not_a _ _ Hc Hb))).
    destruct (negb (ci_kwargs ci) && negb (nilb (extras_of ci kws))) eqn:Ek; [discriminate|]. intro E.
    assert (Ek' : negb (ci_kwargs ci) && negb (nilb (drop (below_class W d c) (extras_of ci kws))) = false).
    { destruct (ci_kwargs ci); [reflexivity|]. cbn [negb andb] in *. now destruct (extras_of ci kws). }
    rewrite Ek'. apply bind_ok in E as [pre [Hp E]]. apply bind_ok in E as [post [Hq E]]. injection E as <-.
    rewrite (map_forget c ci _ _ _ Hc (fun ak H => in_or_app _ _ _ (or_introl H)) Hp). cbn [bind]. rewrite (map_forget c ci _ _ _ Hc (fun ak H => in_or_app _ _ _ (or_intror H)) Hq). cbn [bind].
    rewrite forget_obj, !drop_app. reflexivity.
  Qed.

  (** ** The reader *)

  Definition kid_rel (k' k : rkid) : Prop := fst k' = fst k /\ forall c ns nss v, snd k' c ns nss = Ok v -> snd k c ns nss = Ok (f v).

  Lemma kids_rel tag ks' ks : Forall2 kid_rel ks' ks -> Forall2 kid_rel (find_kids tag ks') (find_kids tag ks).
  Proof.
    induction 1 as [|k' k ks' ks H _ IH]; [constructor|]. unfold find_kids in *. cbn [filter]. destruct H as [E H]. rewrite <- E.
    destruct (ueqb _ _); [constructor; [split; assumption|exact IH]|exact IH].
  Qed.

  Lemma leaf_rel tag ks' ks : Forall2 kid_rel ks' ks -> k_leaf tag ks = k_leaf tag ks'.
  Proof. intro H. apply (kids_rel tag) in H. unfold k_leaf. destruct H as [|k k' l l' [E _] _]; [reflexivity|]. now rewrite E. Qed.

  Lemma read_obj_rel ks' ks ns nss cs o : Forall2 kid_rel ks' ks -> read_obj W' ks' ns nss cs = Ok o -> read_obj W ks ns nss cs = Ok (option_map f o).
  Proof.
    intro H. induction cs as [|c cs IH]; cbn [read_obj]; [intro E; now injection E as <-|]. change (class_tag W' c) with (class_tag W c). destruct (class_tag W c) as [tag|]; cbn [bind]; [|discriminate].
    rewrite !find_kid_hd. assert (Hk := kids_rel (ns ++ tag) ks' ks H). destruct Hk as [|k' k l' l [_ Hk] _]; cbn [hd_error]; [exact IH|].
    intro E. apply bind_ok in E as [v [Hv E]]. injection E as <-. now rewrite (Hk _ _ _ _ Hv).
  Qed.

  Lemma map_rel {A B} (g' : A -> res value) (g : B -> res value) l' l r' : Forall2 (fun x' x => forall v, g' x' = Ok v -> g x = Ok (f v)) l' l -> map_res g' l' = Ok r' -> map_res g l = Ok (map f r').
  Proof.
    intro H. revert r'. induction H as [|x' x l' l Hx _ IH]; intros r' E; cbn [map_res] in *; [now injection E as <-|]. apply bind_ok in E as [y [Hy E]]. apply bind_ok in E as [r [Hr E]]. injection E as <-.
    rewrite (Hx _ Hy), (IH _ Hr). reflexivity.
  Qed.

  Lemma read_objs_rel ks' ks ns nss cs l : Forall2 kid_rel ks' ks -> read_objs W' ks' ns nss cs = Ok l -> read_objs W ks ns nss cs = Ok (map f l).
  Proof.
    intros H E. unfold read_objs in *. apply bind_ok in E as [ls [Hl E]]. injection E as <-. rewrite concat_map.
    assert (G : map_res (fun c => let! tag := class_tag W c in map_res (fun k : rkid => snd k c ns nss) (find_kids (ns ++ tag) ks)) cs = Ok (map (map f) ls)); [|now rewrite G].
    revert ls Hl. induction cs as [|c cs IH]; intros ls Hl; cbn [map_res] in *; [now injection Hl as <-|]. apply bind_ok in Hl as [y [Hy Hl]]. apply bind_ok in Hl as [r [Hr Hl]]. injection Hl as <-.
    rewrite (IH _ Hr). change (class_tag W' c) with (class_tag W c) in Hy. destruct (class_tag W c) as [tag|]; cbn [bind] in *; [|discriminate].
    erewrite map_rel; [reflexivity| |exact Hy]. eapply Forall2_weaken; [|exact (kids_rel (ns ++ tag) ks' ks H)]. intros k' k [_ Hk] v. apply Hk.
  Qed.

  Lemma get_kwarg_rel strict j at_ x ks' ks ns nss o : Forall2 kid_rel ks' ks ->
    get_kwarg W' strict j at_ x ks' ns nss = Ok o -> get_kwarg W strict j at_ x ks ns nss = Ok (option_map f o).
  Proof.
    intros H E.
    assert (D : it_get j = GObj \/ it_get j = GObjs \/ (it_get j <> GObj /\ it_get j <> GObjs)) by (destruct (it_get j); auto; right; right; split; discriminate).
    destruct D as [D|[D|[N1 N2]]].
    - unfold get_kwarg in *. rewrite D in *. now apply (read_obj_rel ks' ks).
    - unfold get_kwarg in *. rewrite D in *. apply bind_ok in E as [l [Hl E]]. injection E as <-. now rewrite (read_objs_rel ks' ks _ _ _ _ H Hl).
    - assert (Eo : option_map f o = o). { destruct o as [v|]; [|reflexivity]. cbn [option_map]. f_equal. apply forget_flat. exact (get_kwarg_flat W' strict j at_ x ks' ns nss v N1 N2 E). }
      rewrite Eo, <- E. unfold get_kwarg. rewrite !k_leaf_find, (leaf_rel _ ks' ks H). destruct (it_get j); try reflexivity; try congruence.
      + f_equal. symmetry. apply map_res_Forall2_eq. eapply Forall2_weaken; [|exact (kids_rel _ ks' ks H)]. intros k' k [Ek _]. unfold read_date. now rewrite Ek.
      + f_equal. symmetry. apply map_res_Forall2_eq. eapply Forall2_weaken; [|exact (kids_rel _ ks' ks H)]. intros k' k [Ek _]. unfold read_coord. now rewrite Ek.
  Qed.

  Lemma try_rel g' g nss ids o : (forall n o, g' n = Ok o -> g n = Ok (option_map f o)) -> try_nsids g' nss ids = Ok o -> try_nsids g nss ids = Ok (option_map f o).
  Proof.
    intro H. induction ids as [|id ids IH]; cbn [try_nsids]; intro E; [now injection E as <-|]. apply bind_ok in E as [r [Hr E]]. rewrite (H _ _ Hr). cbn [bind]. destruct r as [v|]; [now injection E as <-|exact (IH E)].
  Qed.

  Lemma get_kwargs_rel strict b its at_ x ks' ks nss acc r : Forall2 kid_rel ks' ks -> (b = true -> ~ In a (map it_attr its)) ->
    get_kwargs W' strict its at_ x ks' nss acc = Ok r -> get_kwargs W strict its at_ x ks nss (drop b acc) = Ok (drop b r).
  Proof.
    intro H. revert acc. induction its as [|j its IH]; intros acc Hn E; cbn [get_kwargs] in *; [now injection E as <-|]. apply bind_ok in E as [o [Ho E]].
    rewrite (try_rel _ (fun ns => get_kwarg W strict j at_ x ks ns nss) nss (it_nsids j) o (fun n o => get_kwarg_rel strict j at_ x ks' ks n nss o H) Ho). cbn [bind].
    apply IH in E; [|intros Hb Hi; apply (Hn Hb); now right]. destruct o as [v|]; cbn [option_map]; [|exact E]. rewrite drop_sset in E.
    destruct b; cbn [andb] in *; [|exact E]. destruct (String.eqb_spec (it_attr j) a) as [Ea|]; [|exact E]. exfalso. apply (Hn eq_refl). now left.
  Qed.

  Lemma get_kwargs_app strict l1 l2 at_ x ks nss acc V : get_kwargs V strict (l1 ++ l2) at_ x ks nss acc = let! m := get_kwargs V strict l1 at_ x ks nss acc in get_kwargs V strict l2 at_ x ks nss m.
  Proof. revert acc. induction l1 as [|j l1 IH]; intro acc; cbn [app get_kwargs bind]; [reflexivity|]. destruct (try_nsids _ _ _); cbn [bind]; [apply IH|reflexivity]. Qed.

  Theorem read_forget strict e : forall c ns nss v, from_element W' strict e c ns nss = Ok v -> from_element W strict e c ns nss = Ok (f v).
  Proof.
    induction e as [t at_ x ks IH] using elem_ind'. intros c ns nss v E. cbn [from_element] in *. unfold read_with in *. cbv zeta in *. apply bind_ok in E as [kws [Hk E]].
    apply construct_forget in E.
    assert (R : Forall2 kid_rel (map (fun k => (k, from_element W' strict k)) ks) (map (fun k => (k, from_element W strict k)) ks)).
    { clear -IH. induction IH as [|k ks Hk _ IHks]; constructor; [|exact IHks]. split; [reflexivity|]. cbn [snd]. exact Hk. }
    assert (G : get_kwargs W strict (items_of W c) at_ x (map (fun k => (k, from_element W strict k)) ks) (merge_ns nss) [] = Ok (drop (below_class W d c) kws)); [|now rewrite G].
    clear E v IH. destruct (class_of W c) as [ci|] eqn:Hc.
    2:{ unfold items_of in *. change (class_of W' c) with (class_of W c) in Hk. rewrite Hc in *. cbn [get_kwargs] in *. now injection Hk as <-. }
    change (@nil (string * value)) with (drop (below_class W d c) []).
    assert (Fa : below_class W d c = true -> ~ In a (map it_attr (items_of W c))) by (intro Hb; exact (ff_attr _ _ _ _ (below_not_a _ _ Hc Hb))).
    destruct (ext_items W d it HM c ci Hc) as [[_ Ei]|[Hm [l1 [l2 [Ei Ei']]]]].
    - rewrite Ei in Hk. eapply get_kwargs_rel; eassumption.
    - rewrite Ei' in Hk. rewrite Ei in Fa |- *. rewrite get_kwargs_app in Hk |- *. apply bind_ok in Hk as [m [Hm1 Hk]]. cbn [get_kwargs] in Hk. apply bind_ok in Hk as [o [_ Hk]].
      assert (Hb : below_class W d c = true) by now rewrite (below_mem W d c ci Hc).
      rewrite map_app in Fa. rewrite (get_kwargs_rel strict (below_class W d c) l1 _ _ _ _ _ _ _ R) with (1 := fun Hb H => Fa Hb (in_or_app _ _ _ (or_introl H))) (2 := Hm1). cbn [bind].
      apply (get_kwargs_rel strict (below_class W d c) l2 _ _ _ _ _ _ _ R (fun Hb H => Fa Hb (in_or_app _ _ _ (or_intror H)))) in Hk.
      replace (drop (below_class W d c) m) with (drop (below_class W d c) (match o with Some v => sset a v m | None => m end)); [exact Hk|].
      destruct o as [v|]; [|reflexivity]. rewrite drop_sset, Hb, String.eqb_refl. reflexivity.
  Qed.

  (** ** Elements that do not mention the item *)

  Lemma untouched_absent nss t at_ x ks : untouched W it nss (Elem t at_ x ks) = true -> absent W nss it (Elem t at_ x ks).
  Proof.
    intros H id Hid. destruct (fresh_item _ _ _ HF) as [Hok [_ [Hx _]]]. cbn [untouched] in H. apply andb_prop in H as [H _]. rewrite forallb_forall in H. specialize (H _ (in_map (ns_get nss) _ _ Hid)).
    apply andb_prop in H as [H1 H2]. rewrite forallb_forall in H1, H2. cbn [e_text e_attrib e_kids].
    assert (Hp : paired (it_get it) (it_set it) = true) by (unfold item_ok in Hok; rewrite !andb_true_iff in Hok; tauto).
    assert (T : forall n, In n (item_names W it) -> with_tag (ns_get nss id ++ u n) ks = []).
    { intros n Hn. specialize (H1 _ Hn). rewrite negb_true_iff in H1. clear -H1. unfold with_tag. induction ks as [|k ks IH]; [reflexivity|]. cbn [existsb filter] in *. apply orb_false_elim in H1 as [-> H1]. auto. }
    assert (A : forall n, In n (item_attrs it) -> uget (ns_get nss id ++ u n) at_ = None).
    { intros n Hn. specialize (H2 _ Hn). now destruct (uget _ at_). }
    unfold item_names, item_attrs, item_texts in *.
    destruct (it_get it); destruct (it_set it); try discriminate Hp; try discriminate Hx; try (apply T; now left); try (apply A; now left).
    all: intros c' Hc'; apply T, in_map, Hc'.
  Qed.

  Lemma new_absent strict nss t at_ x ks : it_get it <> GObjs -> absent W nss it (Elem t at_ x ks) ->
    try_nsids (fun ns => get_kwarg W strict it at_ x (map (kid_reader W strict) ks) ns nss) nss (it_nsids it) = Ok None.
  Proof.
    intros Hg Ha. destruct (fresh_item _ _ _ HF) as [Hok _].
    assert (T : forall id, In id (it_nsids it) -> get_kwarg W strict it at_ x (map (kid_reader W strict) ks) (ns_get nss id) nss = Ok None).
    { intros id Hid. assert (Ok1 : exists o, get_kwarg W strict it at_ x (map (kid_reader W strict) ks) (ns_get nss id) nss = Ok o).
      { assert (Hcl : classes_ok W it = true) by (unfold item_ok in Hok; rewrite !andb_true_iff in Hok; tauto).
        assert (Hp : paired (it_get it) (it_set it) = true) by (unfold item_ok in Hok; rewrite !andb_true_iff in Hok; tauto).
        specialize (Ha id Hid). unfold get_kwarg. rewrite k_leaf_find, k_leaf_with. unfold leaf_text. cbn [e_text e_attrib e_kids] in Ha. unfold classes_ok in Hcl.
        destruct (it_get it) eqn:G; try congruence; try (rewrite Ha); destruct (it_set it); try discriminate Hp; try (eexists; reflexivity).
        - rewrite bool_match, Hcl. eexists; reflexivity.
        - unfold with_enum. destruct (it_classes it) as [|k [|]]; try discriminate Hcl. destruct (sget k (w_enums W)); [|discriminate]. eexists; reflexivity.
        - unfold with_enum. destruct (it_classes it) as [|k [|]]; try discriminate Hcl. destruct (sget k (w_enums W)); [|discriminate]. eexists; reflexivity.
        - rewrite find_kids_with, Ha. eexists; reflexivity.
        - rewrite find_kids_with, Ha. eexists; reflexivity.
        - assert (Hkn : forall c, In c (it_classes it) -> known_class W c = true). { intros c Hc. rewrite !andb_true_iff in Hcl. rewrite forallb_forall in Hcl. now apply Hcl. }
          clear Hcl. induction (it_classes it) as [|c cs IH]; [eexists; reflexivity|]. cbn [read_obj]. assert (Kc := Hkn c (or_introl eq_refl)). unfold known_class in Kc.
          assert (Hwt := Ha c (or_introl eq_refl)). unfold tag_of in Hwt. unfold class_tag. destruct (class_of W c) as [ci|]; [|discriminate]. cbn [bind]. rewrite find_kid_with, Hwt. cbn [hd_error option_map].
          apply IH; intros; [apply Ha|apply Hkn]; now right. }
      destruct Ok1 as [o Ho]. rewrite Ho. destruct (get_kwarg_absent W strict it t at_ x ks nss id o Hok Ha Hid Ho) as [->|[G _]]; [reflexivity|contradiction]. }
    induction (it_nsids it) as [|id ids IH]; [reflexivity|]. cbn [try_nsids]. rewrite (T id) by now left. cbn [bind]. apply IH. intros. apply T. now right.
  Qed.

  Lemma construct_ext c ns nss kws : construct W' c ns nss kws = construct W c ns nss kws.
  Proof.
    assert (Fl : forall l, filter_true W' l = filter_true W l) by (induction l as [|x l IH]; [reflexivity|]; cbn [filter_true]; now rewrite py_bool_ext, IH).
    assert (A : forall ak, mk_attr W' kws ak = mk_attr W kws ak).
    { intros [k ck]. unfold mk_attr. destruct ck; rewrite ?py_bool_ext; try reflexivity. destruct (kwget kws k); try reflexivity. now rewrite Fl. }
    unfold construct. change (class_of W' c) with (class_of W c). destruct (class_of W c) as [ci|]; [|reflexivity]. now rewrite !(map_res_ext_in _ _ _ (fun ak _ => A ak)).
  Qed.

  Lemma get_kwarg_world strict j at_ x ks ns nss : get_kwarg W' strict j at_ x ks ns nss = get_kwarg W strict j at_ x ks ns nss.
  Proof.
    unfold get_kwarg. destruct (it_get j); try reflexivity. induction (it_classes j) as [|c cs IH]; [reflexivity|]. cbn [read_obj]. change (class_tag W' c) with (class_tag W c). now rewrite IH.
  Qed.

  Lemma get_kwargs_world strict its at_ x ks nss acc : get_kwargs W' strict its at_ x ks nss acc = get_kwargs W strict its at_ x ks nss acc.
  Proof.
    revert acc. induction its as [|j its IH]; intro acc; [reflexivity|]. cbn [get_kwargs].
    assert (E : forall ids, try_nsids (fun ns => get_kwarg W' strict j at_ x ks ns nss) nss ids = try_nsids (fun ns => get_kwarg W strict j at_ x ks ns nss) nss ids).
    { induction ids as [|id ids IHi]; [reflexivity|]. cbn [try_nsids]. now rewrite get_kwarg_world, IHi. }
    rewrite E. destruct (try_nsids _ _ _); cbn [bind]; [apply IH|reflexivity].
  Qed.

  Theorem read_untouched strict e : it_get it <> GObjs -> forall c ns nss, untouched W it (merge_ns nss) e = true ->
    from_element W' strict e c ns nss = from_element W strict e c ns nss.
  Proof.
    intro Hg. induction e as [t at_ x ks IH] using elem_ind'. intros c ns nss Hu. assert (Ha := untouched_absent _ _ _ _ _ Hu). cbn [from_element]. unfold read_with. cbv zeta.
    assert (Hks : forall k, In k ks -> forall c ns, from_element W' strict k c ns (merge_ns nss) = from_element W strict k c ns (merge_ns nss)).
    { cbn [untouched] in Hu. apply andb_prop in Hu as [_ Hu]. rewrite forallb_forall in Hu. rewrite Forall_forall in IH. intros k Hk c' ns'. apply (IH k Hk). rewrite merge_ns_idem. now apply Hu. }
    assert (Kw : forall its acc, get_kwargs W' strict its at_ x (map (fun k => (k, from_element W' strict k)) ks) (merge_ns nss) acc = get_kwargs W strict its at_ x (map (kid_reader W strict) ks) (merge_ns nss) acc).
    { intros its acc. rewrite get_kwargs_world. apply get_kwargs_cong. intros j id _ _. apply get_kwarg_cong.
      assert (F : forall tag (R : rkid -> rkid -> Prop), (forall k, In k ks -> R (k, from_element W' strict k) (k, from_element W strict k)) ->
        Forall2 R (find_kids tag (map (fun k => (k, from_element W' strict k)) ks)) (find_kids tag (map (kid_reader W strict) ks))).
      { intros tag R HR. rewrite !find_kids_with. apply Forall2_map. unfold with_tag. assert (S : forall k, In k (filter (fun k => ueqb (e_tag k) tag) ks) -> In k ks) by (intros k Hk; now apply filter_In in Hk).
        induction (filter _ ks) as [|k l IHl]; constructor; [apply HR, S; now left|]. apply IHl. intros. apply S. now right. }
      destruct (it_get j) eqn:Gj; try (destruct x; (exact I || reflexivity)); try reflexivity; try (now rewrite !k_leaf_with).
      - apply F. intros k _. cbn [fst]. reflexivity.
      - apply F. intros k _. cbn [fst texts_alike]. destruct (e_text k); auto.
      - intros c' _. rewrite !find_kid_hd. destruct (F (ns_get (merge_ns nss) id ++ u (tag_of W c')) (fun k k' => snd k c' (ns_get (merge_ns nss) id) (merge_ns nss) = snd k' c' (ns_get (merge_ns nss) id) (merge_ns nss))) as [|? ? ? ? E _]; [intros k Hk; cbn [snd]; now apply Hks| |]; cbn [hd_error]; constructor. exact E.
      - intros c' _. apply F. intros k Hk. cbn [snd]. now apply Hks. }
    rewrite Kw.
    assert (G : get_kwargs W strict (items_of W' c) at_ x (map (kid_reader W strict) ks) (merge_ns nss) [] = get_kwargs W strict (items_of W c) at_ x (map (kid_reader W strict) ks) (merge_ns nss) []).
    { destruct (class_of W c) as [ci|] eqn:Hc; [|unfold items_of; change (class_of W' c) with (class_of W c); now rewrite Hc].
      destruct (ext_items W d it HM c ci Hc) as [[_ ->]|[Hm [l1 [l2 [-> ->]]]]]; [reflexivity|]. rewrite !get_kwargs_app. destruct (get_kwargs W strict l1 _ _ _ _ _) as [m|]; cbn [bind]; [|reflexivity].
      cbn [get_kwargs]. rewrite (new_absent strict (merge_ns nss) t at_ x ks Hg Ha). reflexivity. }
    rewrite G. destruct (get_kwargs W strict (items_of W c) _ _ _ _ _); cbn [bind]; [apply construct_ext|reflexivity].
  Qed.
End Read.
