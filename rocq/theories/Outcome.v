(** * How the attributes of a constructed or read object come about. *)
From Coq Require Import String List NArith ZArith Bool Lia.
From Verif Require Import Ustr UstrProofs Res PyInt PyFloat PyDate Elem Value Geom Codec Spec EmitProofs CodecProofs ReadProofs RoundTrip NsProofs SettledProofs ReaderTyped Agree AgreeProofs CtorProofs AbsentProofs.
Import ListNotations.

Lemma NoDup_app_l {A} (a b : list A) : NoDup (a ++ b) -> NoDup a.
Proof. induction a as [|x a IH]; cbn; intro H; [constructor|]. inversion H as [|? ? Hn Hd]; subst. constructor; [intro Hi; apply Hn, in_or_app; now left|auto]. Qed.

Lemma map_attr_get W kws l r a : map_res (mk_attr W kws) l = Ok r -> NoDup (map fst l) ->
  match sget a l with
  | Some k => exists y, mk_attr W kws (a, k) = Ok (a, y) /\ sget a r = Some y
  | None => sget a r = None
  end.
Proof.
  intros H. apply map_res_ok in H. induction H as [|[b k] [b' y] l r Hy _ IH]; intro Hd; [reflexivity|].
  assert (E := mk_attr_key _ _ _ _ Hy). cbn in E. subst b'. cbn [map fst] in Hd. inversion Hd; subst. cbn [sget].
  destruct (String.eqb_spec a b) as [->|]; [exists y; split; [exact Hy|reflexivity]|apply IH; assumption].
Qed.

(** The attributes of a call of the class with keyword arguments: those the constructor computes, and the
    extra keyword arguments. *)
Theorem construct_attrs W c ns nss kws v ci : construct W c ns nss kws = Ok v -> class_of W c = Some ci ->
  NoDup (map fst (ctor_attrs ci)) -> (forall ak, In ak (ctor_attrs ci) -> mem (fst ak) (ci_params ci) = true) ->
  exists attrs, v = VObj c ns (merge_ns nss) attrs /\ forall a,
    match ckind_of ci a with
    | Some k => exists y, mk_attr W kws (a, k) = Ok (a, y) /\ sget a attrs = Some y
    | None => sget a attrs = if mem a (ci_params ci) then None else sget a kws
    end.
Proof.
  intros H Hc Hd Hp. unfold construct in H. rewrite Hc in H. destruct (_ && _); [discriminate|]. apply bind_ok in H as [pre [Hpre H]]. apply bind_ok in H as [post [Hpost H]]. injection H as <-.
  eexists. split; [reflexivity|]. intro a. unfold ckind_of, ctor_attrs in *. rewrite map_app in Hd.
  assert (P1 := map_attr_get _ _ _ _ a Hpre (NoDup_app_l _ _ Hd)). assert (P2 := map_attr_get _ _ _ _ a Hpost (NoDup_app_remove_l _ _ Hd)).
  assert (Ex : forall b, sget b (extras_of ci kws) = if mem b (ci_params ci) then None else sget b kws).
  { intro b. unfold extras_of. clear. induction kws as [|[k v] l IH]; [now destruct (mem b _)|]. cbn [filter fst]. destruct (mem k (ci_params ci)) eqn:E; cbn [negb sget].
    - rewrite IH. destruct (String.eqb_spec b k) as [->|]; [now rewrite E|reflexivity].
    - destruct (String.eqb_spec b k) as [->|]; [now rewrite E|exact IH]. }
  rewrite !sget_app, Ex. destruct (sget a (ci_pre ci)) as [k|] eqn:E1.
  - destruct P1 as [y [H1 H2]]. exists y. rewrite H2. auto.
  - rewrite P1. destruct (sget a (ci_post ci)) as [k|] eqn:E2.
    + destruct P2 as [y [H1 H2]]. exists y. assert (Hm := Hp (a, k)). cbn [fst] in Hm. rewrite Hm by (apply in_or_app; right; now apply sget_In). auto.
    + rewrite P2. destruct (mem a (ci_params ci)); [reflexivity|]. now destruct (sget a kws).
Qed.

(** The attributes of an object that was read, item by item. *)
Theorem read_attrs W strict t a x ks c ns nss v : world_ok W = true ->
  from_element W strict (Elem t a x ks) c ns nss = Ok v ->
  exists ci r attrs, class_of W c = Some ci /\ v = VObj c ns (merge_ns nss) attrs /\
    (forall it, In it (items_of W c) ->
       try_nsids (fun n => get_kwarg W strict it a x (map (kid_reader W strict) ks) n (merge_ns nss)) (merge_ns nss) (it_nsids it) = Ok (r it)) /\
    (forall b, kwget (kw_of r (items_of W c)) b = match find_item b (items_of W c) with Some it => match r it with Some w => w | None => VNone end | None => VNone end) /\
    forall b, match ckind_of ci b with
      | Some k => exists y, mk_attr W (kw_of r (items_of W c)) (b, k) = Ok (b, y) /\ sget b attrs = Some y
      | None => sget b attrs = if mem b (ci_params ci) then None else match find_item b (items_of W c) with Some it => r it | None => None end
      end.
Proof.
  intros HW H. cbn [from_element] in H. unfold read_with in H. cbv zeta in H. apply bind_ok in H as [kws [Hk H]].
  destruct (class_of W c) as [ci|] eqn:Hc; [|unfold construct in H; rewrite Hc in H; discriminate]. assert (F := world_class _ _ _ HW Hc).
  destruct (get_kwargs_inv W strict (items_of W c) a x (map (kid_reader W strict) ks) (merge_ns nss) [] kws) as [r [-> Hr]]; [exact (cf_attrs _ _ _ F)|exact Hk|]. cbn [app] in H.
  destruct (construct_attrs _ _ _ _ _ _ _ H Hc (cf_ctor _ _ _ F) (cf_params _ _ _ F)) as [attrs [-> Ha]]. rewrite merge_ns_idem.
  exists ci, r, attrs. split; [reflexivity|]. split; [reflexivity|]. split; [exact Hr|].
  assert (Kg : forall b, sget b (kw_of r (items_of W c)) = match find_item b (items_of W c) with Some it => r it | None => None end) by (intro; apply kw_of_get, (cf_attrs _ _ _ F)).
  split.
  - intro b. unfold kwget. rewrite Kg. destruct (find_item b _) as [it|]; [|reflexivity]. now destruct (r it).
  - intro b. specialize (Ha b). destruct (ckind_of ci b); [exact Ha|]. now rewrite Ha, Kg.
Qed.

(** ** Lists *)

(** What is read for each class, in document order. *)
Definition of_class (W : world) (strict : bool) (n : ustr) (nss : nss_t) (ks : list elem) (c : string) (l : list value) : Prop :=
  Forall2 (fun k y => from_element W strict k c n nss = Ok y) (with_tag (n ++ u (tag_of W c)) ks) l.

Lemma filter_true_fun W l r : filter_true W l = Ok r -> r = filter (truth W) l.
Proof.
  revert r; induction l as [|y l IH]; cbn; intros r H; [now injection H as <-|].
  apply bind_ok in H as [b [Hb H]]. apply bind_ok in H as [r' [Hr' H]]. injection H as <-. cbn. unfold truth at 1. rewrite Hb, (IH _ Hr'). now destruct b.
Qed.

(** A list attribute holds the children of its classes, class after class, each
    in document order; some attributes leave out members without data. *)
Theorem read_list W strict e c ns nss ns' nss' attrs ci it : world_ok W = true -> class_of W c = Some ci ->
  from_element W strict e c ns nss = Ok (VObj c ns' nss' attrs) -> In it (items_of W c) -> it_get it = GObjs ->
  exists id ls, hd_error (it_nsids it) = Some id /\
    Forall2 (of_class W strict (ns_get nss' id) nss' (e_kids e)) (it_classes it) ls /\
    (obj_attr ci attrs (it_attr it) = VList (concat ls) \/
     (ckind_of ci (it_attr it) = Some CFilter /\ obj_attr ci attrs (it_attr it) = VList (filter (truth W) (concat ls)))).
Proof.
  intros HW Hc H Hi G. destruct e as [t a x ks]. destruct (read_attrs _ _ _ _ _ _ _ _ _ _ HW H) as [ci' [r [attrs' [Hc' [Ev [Hr [Hkw Hat]]]]]]].
  rewrite Hc in Hc'. injection Hc' as <-. injection Ev as -> -> ->. assert (F := world_class _ _ _ HW Hc).
  specialize (Hr it Hi). assert (Hok := cf_items _ _ _ F it Hi). assert (Hne : it_nsids it <> []).
  { unfold item_ok in Hok. rewrite !andb_true_iff in Hok. destruct Hok as [[[Hp _] _] Hcl]. rewrite G in Hp. unfold classes_ok in Hcl. destruct (it_set it); try discriminate Hp.
    apply andb_prop in Hcl as [_ Hcl]. now destruct (it_nsids it). }
  destruct (it_nsids it) as [|id ids] eqn:Eids; [congruence|]. cbn [try_nsids] in Hr. unfold get_kwarg at 1 in Hr. rewrite G in Hr. cbv zeta in Hr.
  apply bind_ok in Hr as [o [Ho Hr]]. apply bind_ok in Ho as [l [Hl Ho]]. injection Ho as <-. injection Hr as Hr.
  unfold read_objs in Hl. apply bind_ok in Hl as [ls [Hls E]]. injection E as <-. apply map_res_ok in Hls.
  exists id, ls. split; [reflexivity|]. split.
  { cbn [e_kids]. eapply Forall2_weaken; [|exact Hls]. intros c' l' E. apply bind_ok in E as [tag [Ht E]]. apply class_tag_of in Ht. subst tag.
    rewrite find_kids_with in E. unfold of_class. apply map_res_ok in E. clear -E. remember (map _ _) as m eqn:Em. revert Em. generalize (with_tag (ns_get (merge_ns nss) id ++ u (tag_of W c')) ks).
    induction E as [|k y m l' Hk _ IH]; intros [|k0 ks'] Em; try discriminate; constructor; injection Em as -> Em; [exact Hk|auto]. }
  assert (Fi := find_item_NoDup _ _ (cf_attrs _ _ _ F) Hi). specialize (Hat (it_attr it)). unfold obj_attr.
  destruct (ckind_of ci (it_attr it)) as [k|] eqn:Ek.
  - destruct Hat as [y [Hm ->]]. unfold mk_attr in Hm. rewrite Hkw, Fi, <- Hr in Hm. apply bind_ok in Hm as [w [Hw E]]. injection E as ->.
    destruct (cf_kind _ _ _ F (it_attr it, k) (sget_In _ _ _ Ek)) as [Hko _]. cbn [fst snd] in Hko. rewrite Fi in Hko.
    unfold item_ok in Hok. rewrite !andb_true_iff in Hok. destruct Hok as [[[Hp _] _] _]. rewrite G in Hp. destruct (it_set it) eqn:Es; try discriminate Hp.
    destruct k; cbn [ckind_ok] in Hko; rewrite ?Es in Hko; try discriminate Hko; try (left; injection Hw as <-; reflexivity).
    right. split; [reflexivity|]. apply bind_ok in Hw as [rr [Hf Hw]]. injection Hw as <-. now rewrite (filter_true_fun _ _ _ Hf).
  - rewrite Fi, <- Hr in Hat. assert (Hpl := cf_placed _ _ _ F it Hi). unfold placed in Hpl. destruct (mem (it_attr it) (ci_params ci)); [|rewrite Hat; now left].
    exfalso. apply orb_prop in Hpl as [Hpl|Hpl].
    + rewrite existsb_exists in Hpl. destruct Hpl as [[b k] [Hb E]]. apply String.eqb_eq in E. cbn in E. subst b. unfold ckind_of in Ek. now rewrite (sget_NoDup _ _ _ (cf_ctor _ _ _ F) Hb) in Ek.
    + apply andb_prop in Hpl as [Ht Hm]. assert (Htk := cf_track _ _ _ F). unfold track_ok in Htk. rewrite Ht in Htk. rewrite !andb_true_iff in Htk. destruct Htk as [[[[[_ T1] T2] T3] _] _].
      unfold item_ok in Hok. rewrite !andb_true_iff in Hok. destruct Hok as [[[Hp _] _] _]. rewrite G in Hp.
      apply EmitProofs.mem_In in Hm. destruct Hm as [Hm|[Hm|[Hm|[]]]]; [destruct (find_setter _ _ _ T1) as [i [Hf Hs]]|destruct (find_setter _ _ _ T2) as [i [Hf Hs]]|destruct (find_setter _ _ _ T3) as [i [Hf Hs]]];
        rewrite <- Hm in Fi; rewrite Fi in Hf; injection Hf as <-; rewrite Hs in Hp; discriminate.
Qed.
