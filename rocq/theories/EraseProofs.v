(** * Truth values, geometries and constructors do not look at name spaces. *)
From Coq Require Import String List NArith ZArith Bool Lia.
From Verif Require Import Ustr UstrProofs Res PyInt PyFloat PyDate Elem Value Geom Codec Spec EmitProofs CodecProofs ReadProofs RoundTrip NsProofs SettledProofs ReaderTyped Agree AgreeProofs Erase.
Import ListNotations.

Definition res_map {A B} (f : A -> B) (r : res A) : res B := match r with Ok a => Ok (f a) | Err x => Err x end.

Definition attr_env (W : world) (attrs : list (string * value)) : list (string * attr_sem) :=
  map (fun av => match av with (a, x) => (a, (x, sem W x, match x with VList l => map (sem W) l | _ => [] end)) end) attrs.

Definition eattrs (l : list (string * value)) : list (string * value) := map (fun av => match av with (a, x) => (a, erase x) end) l.

Lemma sget_eattrs a l : sget a (eattrs l) = option_map erase (sget a l).
Proof. unfold eattrs. induction l as [|[b x] l IH]; [reflexivity|]. cbn. destruct (String.eqb a b); [reflexivity|exact IH]. Qed.

Definition env_alike (env env' : list (string * attr_sem)) : Prop :=
  Forall2 (fun p p' => fst p = fst p' /\ a_val (snd p') = erase (a_val (snd p)) /\ snd (fst (snd p)) = snd (fst (snd p')) /\ snd (snd p) = snd (snd p')) env env'.

Lemma alike_get env env' a : env_alike env env' ->
  match sget a env, sget a env' with
  | Some x, Some y => a_val y = erase (a_val x) /\ snd (fst x) = snd (fst y) /\ snd x = snd y
  | None, None => True
  | _, _ => False
  end.
Proof.
  induction 1 as [|[b x] [b' y] env env' [E H] _ IH]; [exact I|]. cbn in E. subst b'. cbn. destruct (String.eqb a b); [exact H|exact IH].
Qed.

Lemma with_alike {A} env env' a (f g : attr_sem -> res A) : env_alike env env' ->
  (forall x y, a_val y = erase (a_val x) -> snd (fst x) = snd (fst y) -> snd x = snd y -> f x = g y) ->
  with_attr env a f = with_attr env' a g.
Proof.
  intros H Hf. assert (G := alike_get env env' a H). unfold with_attr. destruct (sget a env), (sget a env'); try tauto. now apply Hf.
Qed.

Lemma eval_bool_alike env env' g e : env_alike env env' -> eval_bool env g e = eval_bool env' g e.
Proof.
  intro H. induction e; cbn [eval_bool]; try reflexivity.
  - apply with_alike; [exact H|]. intros x y _ E _. unfold a_bool. now rewrite E.
  - apply with_alike; [exact H|]. intros x y E _ _. rewrite E. now destruct (a_val x).
  - apply with_alike; [exact H|]. intros x y E1 _ E2. unfold a_list. rewrite E1, E2. now destruct (a_val x).
  - now rewrite IHe1, IHe2.
  - now rewrite IHe1, IHe2.
Qed.

Lemma coords_alike v : coords_of (erase v) = coords_of v.
Proof. destruct v; try reflexivity. cbn. fold (eattrs attrs). rewrite sget_eattrs. destruct (sget "coords" attrs) as [x|]; [|reflexivity]. now destruct x. Qed.

Lemma coords_geometry_alike env env' f : env_alike env env' -> coords_geometry env f = coords_geometry env' f.
Proof.
  intro H. unfold coords_geometry. apply with_alike; [exact H|]. intros x y E1 E2 _. unfold a_bool. rewrite E1, E2, coords_alike. reflexivity.
Qed.

Lemma num_of_erase v : num_of (erase v) = num_of v.
Proof. now destruct v. Qed.

Lemma eval_geom_alike env env' b k : env_alike env env' -> eval_geom env b k = eval_geom env' b k.
Proof.
  intro H. destruct k; cbn [eval_geom]; try reflexivity; try (now apply coords_geometry_alike).
  - apply with_alike; [exact H|]. intros x y _ E _. unfold a_bool, a_geom. now rewrite E.
  - apply with_alike; [exact H|]. intros x y _ E _. unfold a_bool, a_geom. rewrite E. destruct (fst (snd (fst y))) as [[|]|]; cbn [bind]; try reflexivity.
    destruct (snd (snd (fst y))) as [[g|]|]; cbn [bind]; try reflexivity. destruct (line_of g); cbn [bind]; [|reflexivity].
    apply with_alike; [exact H|]. intros x' y' _ _ E'. unfold a_list. now rewrite E'.
  - apply with_alike; [exact H|]. intros x y _ _ E. unfold a_list. now rewrite E.
  - apply with_alike; [exact H|]. intros x y E1 E2 _. unfold a_geom. rewrite E1, E2. now destruct (a_val x).
  - destruct b as [[|]|]; cbn [bind]; try reflexivity. apply with_alike; [exact H|]. intros x y E1 _ _. apply with_alike; [exact H|]. intros x2 y2 E2 _ _.
    apply with_alike; [exact H|]. intros x3 y3 E3 _ _. now rewrite E1, E2, E3, !num_of_erase.
  - apply with_alike; [exact H|]. intros x y _ E _. unfold a_bool, a_geom. now rewrite E.
  - apply with_alike; [exact H|]. intros x y E _ _. rewrite E. now destruct (a_val x).
  - apply with_alike; [exact H|]. intros x y _ _ E. unfold a_list. now rewrite E.
Qed.

Lemma sem_erase_strong W v : sem W (erase v) = sem W v /\ match v with VList l => map (fun y => sem W (erase y)) l = map (sem W) l | _ => True end.
Proof.
  induction v as [| | | | | | | | | |l IH|c ns nss attrs IH] using value_ind'; try (split; [reflexivity|exact I]).
  - split; [cbn; now destruct l|]. apply map_ext_in. intros y Hy. rewrite Forall_forall in IH. now apply IH.
  - split; [|exact I]. cbn [erase sem]. destruct (class_of W c) as [ci|]; [|reflexivity]. fold (eattrs attrs). fold (attr_env W (eattrs attrs)). fold (attr_env W attrs).
    assert (H : env_alike (attr_env W attrs) (attr_env W (eattrs attrs))).
    { unfold env_alike, attr_env, eattrs. clear -IH. induction IH as [|[a x] attrs Hx _ IH]; [constructor|]. cbn [map]. constructor; [|exact IH].
      cbn [fst snd a_val]. cbn [snd] in Hx. destruct Hx as [Hx Hl]. split; [reflexivity|]. split; [reflexivity|]. split; [now rewrite Hx|].
      destruct x; try reflexivity. cbn [erase]. rewrite map_map. now rewrite Hl. }
    rewrite <- !(eval_bool_alike _ _ _ _ H), <- !(eval_geom_alike _ _ _ _ H). reflexivity.
Qed.

Lemma sem_erase W v : sem W (erase v) = sem W v.
Proof. apply sem_erase_strong. Qed.

Lemma py_bool_erase W v : py_bool W (erase v) = py_bool W v.
Proof. unfold py_bool. now rewrite sem_erase. Qed.

Lemma geometry_erase W v : geometry W (erase v) = geometry W v.
Proof. unfold geometry. now rewrite sem_erase. Qed.

(** ** Constructors *)

Lemma kwget_eattrs kws a : kwget (eattrs kws) a = erase (kwget kws a).
Proof. unfold kwget. rewrite sget_eattrs. now destruct (sget a kws). Qed.

Lemma filter_true_erase W l : filter_true W (map erase l) = res_map (map erase) (filter_true W l).
Proof.
  induction l as [|y l IH]; [reflexivity|]. cbn. rewrite py_bool_erase, IH. destruct (py_bool W y) as [[|]|]; cbn; [| |reflexivity]; now destruct (filter_true W l).
Qed.

Lemma mk_attr_erase W kws ak : mk_attr W (eattrs kws) ak = res_map (fun av => (fst av, erase (snd av))) (mk_attr W kws ak).
Proof.
  destruct ak as [a k]. unfold mk_attr. rewrite !kwget_eattrs, !py_bool_erase.
  set (v := kwget kws a). clearbody v.
  destruct k; try (destruct (py_bool W v) as [[|]|]; cbn [bind res_map fst snd erase]; reflexivity).
  - destruct v; try reflexivity. cbn. destruct (uempty s); [reflexivity|]. cbn. now destruct (uempty (strip s)).
  - destruct (py_bool W v) as [[|]|]; cbn [bind res_map fst snd erase]; try reflexivity. destruct v; try reflexivity. cbn. destruct (uempty s); [reflexivity|]. cbn. now destruct (uempty (strip s)).
  - destruct v; reflexivity.
  - destruct v; reflexivity.
  - destruct v; try reflexivity. cbn [erase]. rewrite filter_true_erase. now destruct (filter_true W l).
  - assert (E1 : forall v, dates_of (erase v) = dates_of v) by (intro w; now destruct w).
    assert (E2 : forall v, points_of (erase v) = points_of v) by (intro w; now destruct w).
    assert (E3 : forall v, titems_of (erase v) = titems_of v) by (intro w; now destruct w).
    unfold build_track. rewrite E1, !E2, E3.
    destruct (titems_of v); cbn [bind res_map]; [|reflexivity]. destruct (dates_of _); cbn [bind res_map]; [|reflexivity]. destruct (points_of _); cbn [bind res_map]; [|reflexivity].
    destruct (points_of _); cbn [bind res_map]; [|reflexivity]. destruct (_ && _); [reflexivity|]. destruct (_ && _ && _); [|reflexivity]. now destruct (zip_items _ _ _ _).
Qed.

Lemma map_attr_erase W kws l : map_res (mk_attr W (eattrs kws)) l = res_map eattrs (map_res (mk_attr W kws) l).
Proof.
  induction l as [|ak l IH]; [reflexivity|]. cbn [map_res]. rewrite mk_attr_erase, IH. destruct (mk_attr W kws ak) as [[b x]|]; cbn [res_map bind fst snd]; [|reflexivity].
  destruct (map_res (mk_attr W kws) l); reflexivity.
Qed.

Lemma extras_erase ci kws : extras_of ci (eattrs kws) = eattrs (extras_of ci kws).
Proof. unfold extras_of, eattrs. induction kws as [|[a x] kws IH]; [reflexivity|]. cbn. destruct (negb _); cbn; now rewrite IH. Qed.

Lemma construct_erase W c ns nss kws : res_map erase (construct W c ns nss kws) = res_map erase (construct W c [] [] (eattrs kws)).
Proof.
  unfold construct. destruct (class_of W c) as [ci|]; [|reflexivity]. rewrite extras_erase, !map_attr_erase.
  assert (N : nilb (eattrs (extras_of ci kws)) = nilb (extras_of ci kws)) by now destruct (extras_of ci kws). rewrite N.
  destruct (_ && _); [reflexivity|]. destruct (map_res _ (ci_pre ci)) as [pre|]; cbn [res_map bind]; [|reflexivity]. destruct (map_res _ (ci_post ci)) as [post|]; cbn [res_map bind]; [|reflexivity].
  cbn [erase]. f_equal. f_equal. unfold eattrs. rewrite !map_app, !map_map.
  assert (E : forall v, erase (erase v) = erase v).
  { clear. induction v as [| | | | | | | | | |l IH|c ns nss attrs IH] using value_ind'; try reflexivity; cbn; f_equal; rewrite map_map.
    - apply map_ext_in. intros y Hy. rewrite Forall_forall in IH. now apply IH.
    - apply map_ext_in. intros [a x] Hy. rewrite Forall_forall in IH. specialize (IH _ Hy). cbn [snd] in IH. now rewrite IH. }
  f_equal; [|f_equal]; apply map_ext; intros [a x]; now rewrite E.
Qed.

(** ** Readers *)

Lemma rel_same (r r' : res value) : res_map erase r = res_map erase r' <-> res_rel same_data r r'.
Proof.
  split.
  - destruct r, r'; cbn; intro H; try discriminate; [injection H as H; now constructor|]. injection H as ->. constructor.
  - intros [a b H|x]; cbn; [now rewrite H|reflexivity].
Qed.

Definition kwarg_rel := res_rel (opt_rel same_data).

(** If all keyword arguments agree but for name spaces, so does the object. *)
Theorem read_alike W strict c ns ns' nss nss' a a' x x' ks ks' : world_ok W = true ->
  (forall it, In it (items_of W c) ->
    kwarg_rel (try_nsids (fun n => get_kwarg W strict it a x ks n (merge_ns nss)) (merge_ns nss) (it_nsids it))
              (try_nsids (fun n => get_kwarg W strict it a' x' ks' n (merge_ns nss')) (merge_ns nss') (it_nsids it))) ->
  res_rel same_data (read_with W strict a x ks c ns nss) (read_with W strict a' x' ks' c ns' nss').
Proof.
  intros HW H. unfold read_with. cbv zeta.
  assert (G : forall its acc acc', (forall it, In it its -> In it (items_of W c)) -> eattrs acc = eattrs acc' ->
    res_map eattrs (get_kwargs W strict its a x ks (merge_ns nss) acc) = res_map eattrs (get_kwargs W strict its a' x' ks' (merge_ns nss') acc')).
  { induction its as [|it its IH]; intros acc acc' Hs E; [cbn; now rewrite E|]. cbn [get_kwargs].
    destruct (H it (Hs it (or_introl eq_refl))) as [o o' Ho|z]; [|reflexivity]. cbn [bind]. apply IH; [intros; apply Hs; now right|].
    destruct Ho as [|v v' Hv]; [exact E|]. clear -E Hv. revert acc' E. induction acc as [|[b y] acc IH]; intros [|[b' y'] acc'] E; try discriminate E.
    - cbn. now rewrite Hv.
    - cbn in E. injection E as <- E1 E2. cbn. destruct (String.eqb (it_attr it) b); cbn; [rewrite Hv|rewrite E1]; f_equal; [exact E2|]. now apply IH. }
  assert (G0 := G (items_of W c) [] [] (fun _ h => h) eq_refl).
  destruct (get_kwargs _ _ _ a x _ _ _) as [kws|z], (get_kwargs _ _ _ a' x' _ _ _) as [kws'|z']; cbn in G0; try discriminate; cbn [bind].
  - injection G0 as G0. apply rel_same. rewrite construct_erase, (construct_erase W c ns'), G0. reflexivity.
  - injection G0 as ->. constructor.
Qed.
