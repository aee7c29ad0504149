(** * Constructors: what they store, and that they store it once and for all. *)
From Coq Require Import String List NArith ZArith Bool Lia.
From Verif Require Import Ustr UstrProofs Res PyInt PyFloat PyDate Elem Value Geom Codec Spec EmitProofs CodecProofs NsProofs.
Import ListNotations.

Lemma clean_string_spec v x : clean_string v = Ok x ->
  match v with
  | VStr s => x = if uempty (strip s) then VNone else VStr (strip s)
  | _ => v = VNone /\ x = VNone
  end.
Proof.
  destruct v; cbn [clean_string]; try discriminate; intro H; [injection H as <-; auto|].
  destruct s as [|ch s]; [injection H as <-; reflexivity|]. cbn [uempty] in H. now injection H as <-.
Qed.

Lemma clean_string_idem v x : clean_string v = Ok x -> clean_string x = Ok x.
Proof.
  destruct v; cbn [clean_string]; try discriminate; intro H; [now injection H as <-|].
  destruct (uempty s); injection H as <-; [reflexivity|]. destruct (uempty (strip s)) eqn:E; [reflexivity|]. cbn [clean_string]. now rewrite E, strip_idem, E.
Qed.

Lemma filter_true_idem W l r : filter_true W l = Ok r -> filter_true W r = Ok r.
Proof.
  revert r; induction l as [|x l IH]; intros r H; cbn [filter_true] in H; [now injection H as <-|].
  apply bind_ok in H as [b [Hb H]]. apply bind_ok in H as [r' [Hr H]]. injection H as <-. destruct b; [|auto].
  cbn [filter_true]. rewrite Hb. cbn [bind]. now rewrite (IH _ Hr).
Qed.

Lemma sget_app {A} k (l r : list (string * A)) : sget k (l ++ r) = match sget k l with Some v => Some v | None => sget k r end.
Proof. induction l as [|[k' v] l IH]; [reflexivity|]. cbn. destruct (String.eqb k k'); [reflexivity|exact IH]. Qed.

Lemma sget_not {A} k (l : list (string * A)) : ~ In k (map fst l) -> sget k l = None.
Proof.
  induction l as [|[k' v] l IH]; cbn; intro H; [reflexivity|]. destruct (String.eqb_spec k k') as [->|]; [exfalso; auto|]. auto.
Qed.

Lemma mk_attr_key W kws ak r : mk_attr W kws ak = Ok r -> fst r = fst ak.
Proof. destruct ak as [a k]. unfold mk_attr. intro H. apply bind_ok in H as [v [_ H]]. now injection H as <-. Qed.

Lemma mk_attrs_keys W kws l r : map_res (mk_attr W kws) l = Ok r -> map fst r = map fst l.
Proof.
  intro H. apply map_res_ok in H. induction H as [|ak x l r Hx _ IH]; [reflexivity|]. cbn. f_equal; [|exact IH]. exact (mk_attr_key _ _ _ _ Hx).
Qed.

Lemma mem_true x l : mem x l = true <-> In x l.
Proof.
  unfold mem. rewrite existsb_exists. split.
  - intros [y [H E]]. apply String.eqb_eq in E. now subst.
  - intro H. exists x. split; [exact H|apply String.eqb_refl].
Qed.

(** Constructing again from the stored attribute stores it again. *)
Lemma mk_attr_again W kws kws' a k v :
  mk_attr W kws (a, k) = Ok (a, v) -> kwget kws' a = v ->
  (k = CCleanReq -> v <> VNone) ->
  (k = CTrack -> forall b, In b track_attrs -> kwget kws' b = VNone) ->
  mk_attr W kws' (a, k) = Ok (a, v).
Proof.
  unfold mk_attr. intros H Hv Hr Ht. rewrite Hv. clear Hv. apply bind_ok in H as [r [H E]]. injection E as ->. remember (kwget kws a) as v0 eqn:E0. clear E0.
  enough (E : forall X, X = Ok v -> bind X (fun r => Ok (a, r)) = Ok (a, v)).
  2: { intros X ->. reflexivity. }
  apply E. clear E. destruct k.
  - reflexivity.
  - exact (clean_string_idem _ _ H).
  - apply bind_ok in H as [b [Hb H]]. destruct b; [|discriminate]. assert (Hs := clean_string_spec _ _ H). specialize (Hr eq_refl).
    destruct v0 as [| | |s| | | | | | | | ]; try (destruct Hs; congruence). subst v. destruct (uempty (strip s)) eqn:Es; [congruence|].
    assert (Hc := clean_string_idem _ _ H). change (py_bool W (VStr (strip s))) with (Ok (A:=bool) (negb (uempty (strip s)))). rewrite Es. cbn [negb bind]. exact Hc.
  - apply bind_ok in H as [b [Hb H]]. injection H as <-. destruct b; [now rewrite Hb|reflexivity].
  - apply bind_ok in H as [b [Hb H]]. injection H as <-. destruct b; [now rewrite Hb|reflexivity].
  - destruct v0; try discriminate; now injection H as <-.
  - destruct v0; try discriminate; now injection H as <-.
  - destruct v0; try discriminate; [now injection H as <-|]. apply bind_ok in H as [r' [Hr' H]]. injection H as <-. now rewrite (filter_true_idem _ _ _ Hr').
  - apply bind_ok in H as [b [Hb H]]. injection H as <-. destruct b; [now rewrite Hb|reflexivity].
  - specialize (Ht eq_refl). rewrite !Ht by (cbn; auto). unfold build_track in H. 
    apply bind_ok in H as [i [Hi H]]. apply bind_ok in H as [ws [Hw H]]. apply bind_ok in H as [cs [Hc H]]. apply bind_ok in H as [an [Ha H]].
    destruct ((negb (nilb ws) || negb (nilb cs)) && negb (nilb i)); [discriminate|].
    assert (Hx : exists l, v = VItems l).
    { destruct (nilb i && negb (nilb ws) && negb (nilb cs)); [|injection H as <-; eauto]. apply bind_ok in H as [l [_ H]]. injection H as <-. eauto. }
    destruct Hx as [l ->]. unfold build_track. cbn [titems_of dates_of points_of bind nilb negb orb andb]. now rewrite andb_false_r.
Qed.

Lemma mk_attrs_again W kws kws' l r :
  map_res (mk_attr W kws) l = Ok r ->
  (forall a v, In (a, v) r -> kwget kws' a = v) ->
  (forall a v, In (a, CCleanReq) l -> In (a, v) r -> v <> VNone) ->
  (forall a, In (a, CTrack) l -> forall b, In b track_attrs -> kwget kws' b = VNone) ->
  map_res (mk_attr W kws') l = Ok r.
Proof.
  intros H. apply map_res_ok in H. intros Hk Hr Ht. apply map_res_Forall2. induction H as [|[a k] x l r Hx _ IH]; constructor.
  - destruct x as [a' v]. assert (a' = a) by exact (mk_attr_key _ _ _ _ Hx). subst a'. apply mk_attr_again with (kws := kws).
    + exact Hx.
    + apply Hk. now left.
    + intros ->. apply (Hr a); now left.
    + intros ->. apply (Ht a). now left.
  - apply IH.
    + intros. apply Hk. now right.
    + intros a' v H1 H2. apply (Hr a'); now right.
    + intros a' H1. apply (Ht a'). now right.
Qed.

Definition required_present (W : world) (c : string) (attrs : list (string * value)) : Prop :=
  forall ci a, class_of W c = Some ci -> ckind_of ci a = Some CCleanReq -> sget a attrs <> Some VNone.

Lemma in_sget {A} (l : list (string * A)) a v : NoDup (map fst l) -> In (a, v) l -> sget a l = Some v.
Proof.
  induction l as [|[k x] l IH]; intros Hd H; [destruct H|]. cbn in *. inversion Hd; subst. destruct H as [E|H].
  - injection E as -> ->. now rewrite String.eqb_refl.
  - destruct (String.eqb_spec a k) as [->|]; [|auto]. exfalso. apply H2. now apply (in_map fst) in H.
Qed.

Lemma filter_all {A} (f : A -> bool) l : (forall x, In x l -> f x = true) -> filter f l = l.
Proof. induction l as [|x l IH]; intro H; [reflexivity|]. cbn. rewrite (H x) by now left. f_equal. apply IH. intros. apply H. now right. Qed.
Lemma filter_none {A} (f : A -> bool) l : (forall x, In x l -> f x = false) -> filter f l = [].
Proof. induction l as [|x l IH]; intro H; [reflexivity|]. cbn. rewrite (H x) by now left. apply IH. intros. apply H. now right. Qed.

Theorem construct_idem W c ns nss kws ns' nss' attrs : world_ok W = true ->
  construct W c ns nss kws = Ok (VObj c ns' nss' attrs) -> required_present W c attrs ->
  construct W c ns' nss' attrs = Ok (VObj c ns' nss' attrs).
Proof.
  intros HW H Hr. unfold construct in *. destruct (class_of W c) as [ci|] eqn:Eci; [|discriminate].
  specialize (fun a => Hr ci a Eci).
  unfold world_ok in HW. rewrite forallb_forall in HW. specialize (HW _ (sget_In _ _ _ Eci)). cbn [fst snd] in HW.
  unfold class_ok in HW. rewrite !andb_true_iff in HW.
  destruct HW as [[[[[[[[[[[_ _] _] _] _] _] _] Hnd] Hpar] _] Htr] _].
  rewrite forallb_forall in Hpar. apply (nodupb_NoDup String.eqb) in Hnd; [|intros; apply String.eqb_eq].
  destruct (negb (ci_kwargs ci) && negb (nilb (extras_of ci kws))) eqn:Ek; [discriminate|].
  apply bind_ok in H as [pre [Hpre H]]. apply bind_ok in H as [post [Hpost H]].
  injection H as <- <- <-.
  assert (Kpre := mk_attrs_keys _ _ _ _ Hpre). assert (Kpost := mk_attrs_keys _ _ _ _ Hpost).
  set (xs := extras_of ci kws) in *.
  assert (Hxs : forall kv, In kv xs -> mem (fst kv) (ci_params ci) = false).
  { intros kv Hkv. unfold xs, extras_of in Hkv. apply filter_In in Hkv as [_ Hkv]. now apply negb_true_iff in Hkv. }
  assert (Hin : forall l a (v : value), (forall ak, In ak l -> In ak (ctor_attrs ci)) -> forall r, map fst r = map (@fst string ckind) l -> In (a, v) r -> mem a (ci_params ci) = true).
  { intros l a v Hl r Er Hav. apply (in_map fst) in Hav. rewrite Er in Hav. apply in_map_iff in Hav as [ak [E Hak]]. cbn in E. rewrite <- E. apply Hpar. auto. }
  assert (Ex : extras_of ci (pre ++ xs ++ post) = xs).
  { unfold extras_of. rewrite !filter_app. rewrite (filter_none _ pre), (filter_none _ post).
    - cbn. rewrite app_nil_r. apply filter_all. intros kv Hkv. now rewrite Hxs.
    - intros [a v] Hav. apply negb_false_iff. cbn [fst]. apply (Hin (ci_post ci) a v) with (r := post); auto. intros ak Hak. unfold ctor_attrs. rewrite in_app_iff. now right.
    - intros [a v] Hav. apply negb_false_iff. cbn [fst]. apply (Hin (ci_pre ci) a v) with (r := pre); auto. intros ak Hak. unfold ctor_attrs. rewrite in_app_iff. now left. }
  rewrite Ex, Ek.
  unfold ctor_attrs in Hnd. rewrite map_app in Hnd. rewrite <- Kpre, <- Kpost in Hnd.
  assert (Nd : NoDup (map fst (pre ++ post))) by now rewrite map_app.
  assert (Sg : forall a v, In (a, v) (pre ++ post) -> sget a (pre ++ xs ++ post) = Some v).
  { intros a v Hav. assert (Hg := in_sget _ _ _ Nd Hav). rewrite sget_app in Hg |- *. destruct (sget a pre); [exact Hg|]. rewrite sget_app.
    rewrite (sget_not a xs); [exact Hg|]. intro Hx. apply in_map_iff in Hx as [kv [E Hkv]]. apply Hxs in Hkv. rewrite E in Hkv.
    rewrite in_app_iff in Hav. destruct Hav as [Hav|Hav].
    - rewrite (Hin (ci_pre ci) a v) with (r := pre) in Hkv; auto; [discriminate|]. intros ak Hak. unfold ctor_attrs. rewrite in_app_iff. now left.
    - rewrite (Hin (ci_post ci) a v) with (r := post) in Hkv; auto; [discriminate|]. intros ak Hak. unfold ctor_attrs. rewrite in_app_iff. now right. }
  assert (Nd' : NoDup (map fst (ctor_attrs ci))) by (unfold ctor_attrs; rewrite map_app, <- Kpre, <- Kpost; exact Hnd).
  assert (Rq : forall a v, In (a, CCleanReq) (ctor_attrs ci) -> In (a, v) (pre ++ post) -> v <> VNone).
  { intros a v H1 H2 ->. apply (Hr a); [exact (in_sget _ _ _ Nd' H1)|]. now apply Sg. }
  assert (Tk : forall a, In (a, CTrack) (ctor_attrs ci) -> forall b, In b track_attrs -> kwget (pre ++ xs ++ post) b = VNone).
  { intros a Ha b Hb. unfold track_ok in Htr. destruct (is_track ci).
    - rewrite !andb_true_iff in Htr. destruct Htr as [_ Htr]. rewrite forallb_forall in Htr. specialize (Htr b Hb). apply andb_prop in Htr as [Hp Hn].
      unfold kwget. rewrite sget_not; [reflexivity|]. rewrite !map_app, !in_app_iff. intros [H|[H|H]].
      + rewrite Kpre in H. apply negb_true_iff in Hn. rewrite <- not_true_iff_false in Hn. apply Hn. rewrite existsb_exists. apply in_map_iff in H as [ak [E Hak]].
        exists ak. unfold ctor_attrs. rewrite in_app_iff. split; [now left|]. rewrite E. apply String.eqb_refl.
      + apply in_map_iff in H as [kv [E Hkv]]. apply Hxs in Hkv. congruence.
      + rewrite Kpost in H. apply negb_true_iff in Hn. rewrite <- not_true_iff_false in Hn. apply Hn. rewrite existsb_exists. apply in_map_iff in H as [ak [E Hak]].
        exists ak. unfold ctor_attrs. rewrite in_app_iff. split; [now right|]. rewrite E. apply String.eqb_refl.
    - rewrite forallb_forall in Htr. specialize (Htr _ Ha). discriminate. }
  rewrite (mk_attrs_again W kws (pre ++ xs ++ post) (ci_pre ci) pre Hpre).
  - cbn [bind]. rewrite (mk_attrs_again W kws (pre ++ xs ++ post) (ci_post ci) post Hpost).
    + cbn [bind]. now rewrite merge_ns_idem.
    + intros a v Hav. unfold kwget. rewrite (Sg a v); [reflexivity|]. rewrite in_app_iff. now right.
    + intros a v H1 H2. apply (Rq a); [unfold ctor_attrs|]; rewrite in_app_iff; now right.
    + intros a H1. apply (Tk a). unfold ctor_attrs. rewrite in_app_iff. now right.
  - intros a v Hav. unfold kwget. rewrite (Sg a v); [reflexivity|]. rewrite in_app_iff. now left.
  - intros a v H1 H2. apply (Rq a); [unfold ctor_attrs|]; rewrite in_app_iff; now left.
  - intros a H1. apply (Tk a). unfold ctor_attrs. rewrite in_app_iff. now left.
Qed.

(** What is stored for an attribute that is cleaned. *)
Theorem construct_clean W c ci ns nss kws ns' nss' attrs a s : world_ok W = true ->
  class_of W c = Some ci -> (ckind_of ci a = Some CClean \/ ckind_of ci a = Some CCleanReq) ->
  construct W c ns nss kws = Ok (VObj c ns' nss' attrs) -> sget a kws = Some (VStr s) ->
  sget a attrs = Some (if uempty (strip s) then VNone else VStr (strip s)).
Proof.
  intros HW Eci Hk H Hs. unfold construct in *. rewrite Eci in H.
  unfold world_ok in HW. rewrite forallb_forall in HW. specialize (HW _ (sget_In _ _ _ Eci)). cbn [fst snd] in HW.
  unfold class_ok in HW. rewrite !andb_true_iff in HW.
  destruct HW as [[[[[[[[[[[_ _] _] _] _] _] _] Hnd] Hpar] _] Htr] _].
  rewrite forallb_forall in Hpar. apply (nodupb_NoDup String.eqb) in Hnd; [|intros; apply String.eqb_eq].
  destruct (negb (ci_kwargs ci) && negb (nilb (extras_of ci kws))) eqn:Ek; [discriminate|].
  apply bind_ok in H as [pre [Hpre H]]. apply bind_ok in H as [post [Hpost H]]. injection H as <- <- <-.
  assert (Kpre := mk_attrs_keys _ _ _ _ Hpre). assert (Kpost := mk_attrs_keys _ _ _ _ Hpost).
  assert (Hc : exists k, (k = CClean \/ k = CCleanReq) /\ In (a, k) (ctor_attrs ci)).
  { destruct Hk as [Hk|Hk]; unfold ckind_of in Hk; apply sget_In in Hk; eauto. }
  destruct Hc as [k [Hk' Hc]].
  assert (Hm : mem a (ci_params ci) = true) by exact (Hpar _ Hc).
  assert (Hv : forall v, mk_attr W kws (a, k) = Ok (a, v) -> v = if uempty (strip s) then VNone else VStr (strip s)).
  { intros v Hv. unfold mk_attr, kwget in Hv. rewrite Hs in Hv. apply bind_ok in Hv as [r [Hr E]]. injection E as ->. destruct Hk' as [-> | ->].
    - exact (clean_string_spec _ _ Hr).
    - apply bind_ok in Hr as [b [_ Hr]]. destruct b; [|discriminate]. exact (clean_string_spec _ _ Hr). }
  assert (Hx : ~ In a (map fst (extras_of ci kws))).
  { intro Hx. apply in_map_iff in Hx as [kv [E Hkv]]. unfold extras_of in Hkv. apply filter_In in Hkv as [_ Hkv]. rewrite E, Hm in Hkv. discriminate. }
  assert (Hg : forall l r, map_res (mk_attr W kws) l = Ok r -> In (a, k) l -> exists v, In (a, v) r /\ v = if uempty (strip s) then VNone else VStr (strip s)).
  { intros l r Hl. apply map_res_ok in Hl. induction Hl as [|ak x l r Hx' _ IH]; [intros []|]. intros [->|Hin].
    - destruct x as [a' v]. assert (a' = a) by exact (mk_attr_key _ _ _ _ Hx'). subst a'. exists v. split; [now left|]. now apply Hv.
    - destruct (IH Hin) as [v [H1 H2]]. exists v. split; [now right|exact H2]. }
  unfold ctor_attrs in Hnd, Hc. rewrite map_app, <- Kpre, <- Kpost, <- map_app in Hnd. rewrite in_app_iff in Hc.
  assert (Hd : exists v, In (a, v) (pre ++ post) /\ v = if uempty (strip s) then VNone else VStr (strip s)).
  { destruct Hc as [Hc|Hc]; [destruct (Hg _ _ Hpre Hc) as [v [H1 H2]]|destruct (Hg _ _ Hpost Hc) as [v [H1 H2]]]; exists v; (split; [|exact H2]); rewrite in_app_iff; auto. }
  destruct Hd as [v [H1 <-]]. assert (Hf := in_sget _ _ _ Hnd H1). rewrite !sget_app in *. destruct (sget a pre); [exact Hf|]. now rewrite (sget_not a (extras_of ci kws)).
Qed.
