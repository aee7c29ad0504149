(** * Lists in memory behave like values. *)
From Coq Require Import String List NArith ZArith Bool Lia PeanoNat Permutation.
From Verif Require Import Ustr UstrProofs Res PyDate Elem Value Geom Codec Alias AliasSpec.
Import ListNotations.
Local Open Scope string_scope.
Local Open Scope list_scope.

(** ** Who holds which list *)

Definition held_val (h : hval) : list nat := match h with HL a => [a] | HE _ => [] end.
Definition held_attrs (kws : list (string * hval)) : list nat := flat_map (fun kv => held_val (snd kv)) kws.
Definition held_obj (o : ocell) : list nat := o_nss o :: held_attrs (o_attrs o).
Definition held (m : memory) : list nat := m_lvars m ++ flat_map held_obj (m_objs m).

Record separate (m : memory) : Prop := {
  sep_once : NoDup (held m);
  sep_in : forall a, In a (held m) -> (a < length (m_lists m))%nat
}.

(** ** Helpers *)

Lemma put_length {A} i (x : A) l : length (put i x l) = length l.
Proof. revert i. induction l as [|y l IH]; intros [|i]; cbn; auto. Qed.

Lemma nth_put {A} i j (x d : A) l : (i < length l)%nat -> nth j (put i x l) d = if Nat.eqb j i then x else nth j l d.
Proof.
  revert i j. induction l as [|y l IH]; intros i j H; [cbn in H; lia|].
  destruct i as [|i], j as [|j]; cbn [put nth Nat.eqb]; try reflexivity. apply IH. cbn in H. lia.
Qed.

Lemma map_put {A B} (f : A -> B) i x l : map f (put i x l) = put i (f x) (map f l).
Proof. revert i. induction l as [|y l IH]; intros [|i]; cbn; f_equal; auto. Qed.

Lemma nth_error_contents ls a : (a < length ls)%nat -> nth_error ls a = Some (contents ls a).
Proof. intro H. unfold contents. now apply nth_error_nth'. Qed.

Lemma map_res_map {A B C} (f : B -> res C) (g : A -> B) l : map_res f (map g l) = map_res (fun x => f (g x)) l.
Proof. induction l as [|x l IH]; cbn; [reflexivity|]. now rewrite IH. Qed.

Lemma NoDup_app_remove_l {A} (l1 l2 : list A) : NoDup (l1 ++ l2) -> NoDup l2.
Proof. induction l1 as [|x l1 IH]; cbn [app]; [auto|]. intro H. inversion_clear H. auto. Qed.

Lemma NoDup_app_remove_r {A} (l1 l2 : list A) : NoDup (l1 ++ l2) -> NoDup l1.
Proof.
  induction l1 as [|x l1 IH]; cbn [app]; intro H; [constructor|]. inversion_clear H as [|? ? Hn Hd]. constructor; [|auto].
  intro Hi. apply Hn, in_or_app. now left.
Qed.

Lemma in_held_attrs a kws : In a (held_attrs kws) <-> exists k, In (k, HL a) kws.
Proof.
  unfold held_attrs. rewrite in_flat_map. split.
  - intros [[k [e|b]] [Hi H]]; cbn in H; [contradiction|]. destruct H as [->|[]]. eauto.
  - intros [k H]. exists (k, HL a). cbn. auto.
Qed.

Lemma held_split m i o : nth_error (m_objs m) i = Some o ->
  exists A B, m_objs m = A ++ o :: B /\ length A = i.
Proof. intro H. destruct (nth_error_split _ _ H) as [A [B [E L]]]. eauto. Qed.

Lemma put_split {A} (l1 : list A) x y l2 : put (length l1) y (l1 ++ x :: l2) = l1 ++ y :: l2.
Proof. induction l1; cbn; congruence. Qed.

Lemma in_held_obj m i o a : nth_error (m_objs m) i = Some o -> In a (held_obj o) -> In a (held m).
Proof.
  intros H Hi. apply in_or_app. right. apply in_flat_map. exists o. split; [|exact Hi]. eapply nth_error_In, H.
Qed.

(** ** The same contents are seen when the lists in use do not change *)

Lemma see_all_ext ls ls' kws :
  (forall a, In a (held_attrs kws) -> contents ls' a = contents ls a) -> see_all ls' kws = see_all ls kws.
Proof.
  intro H. apply map_ext_in. intros [k [e|a]] Hi; cbn; [reflexivity|]. rewrite H; [reflexivity|]. apply in_held_attrs. eauto.
Qed.

Lemma see_obj_ext ls ls' o :
  (forall a, In a (held_obj o) -> contents ls' a = contents ls a) -> see_obj ls' o = see_obj ls o.
Proof.
  intro H. unfold see_obj. rewrite (H (o_nss o)) by now left. f_equal. apply see_all_ext. intros a Ha. apply H. now right.
Qed.

Lemma see_objs_ext ls ls' os :
  (forall a, In a (flat_map held_obj os) -> contents ls' a = contents ls a) -> map (see_obj ls') os = map (see_obj ls) os.
Proof.
  intro H. apply map_ext_in. intros o Ho. apply see_obj_ext. intros a Ha. apply H, in_flat_map. eauto.
Qed.

Lemma contents_app ls x a : (a < length ls)%nat -> contents (ls ++ x) a = contents ls a.
Proof. intro H. unfold contents. now apply app_nth1. Qed.

(** ** Loading *)

Lemma load_seen fuel m : (forall a, In a (held m) -> (a < length (m_lists m))%nat) ->
  forall e, load fuel m e = aload fuel (seen m) e.
Proof.
  intro Hin. induction fuel as [|fuel IH]; intros [v|i]; cbn [load aload]; try reflexivity.
  unfold seen at 1. cbn [am_objs]. rewrite nth_error_map. destruct (nth_error (m_objs m) i) as [o|] eqn:E; cbn [option_map]; [|reflexivity].
  cbn [see_obj ao_nss ao_attrs ao_class ao_ns].
  assert (Ho : forall a, In a (held_obj o) -> (a < length (m_lists m))%nat) by (intros a Ha; eapply Hin, in_held_obj; eassumption).
  unfold dict_at. rewrite nth_error_contents by (apply Ho; now left). unfold as_dict.
  destruct (contents (m_lists m) (o_nss o)); cbn [bind]; try reflexivity.
  unfold see_all. rewrite map_res_map. cbn [snd fst].
  erewrite map_res_ext_in; [reflexivity|]. intros [k [e|a]] Hk; cbn [snd fst see load_hval load_aval].
  - now rewrite IH.
  - rewrite nth_error_contents by (apply Ho; right; apply in_held_attrs; eauto).
    destruct (contents (m_lists m) a); cbn [load_content]; try reflexivity.
    erewrite map_res_ext_in; [reflexivity|]. intros e _. apply IH.
Qed.

(** ** Constructors *)

Definition copies (k : ckind) : bool :=
  match k with CListTruthy | CListNotNone | CFilter | CTrack => true | _ => false end.

Lemma stores_ext W ld ld' kws ak : (forall e, ld e = ld' e) -> stores W ld kws ak = stores W ld' kws ak.
Proof.
  intro H. assert (L : forall x, load_aval ld x = load_aval ld' x).
  { intros [e|[l|v|d]]; cbn; auto. erewrite map_res_ext_in; [reflexivity|]. auto. }
  assert (F : forall l, filter_refs W ld l = filter_refs W ld' l).
  { induction l as [|x l IH]; cbn; [reflexivity|]. now rewrite H, IH. }
  destruct ak as [a k]. destruct k; cbn [stores]; rewrite ?L; try reflexivity.
  destruct (aget kws a) as [[[]|]|[l|v|d]]; try reflexivity. now rewrite F.
Qed.

Lemma copies_fresh W ld kws a k s : copies k = true -> stores W ld kws (a, k) = Ok s -> exists c, s = Fresh c.
Proof.
  intros Hk H. destruct k; try discriminate Hk; cbn [stores] in H.
  - destruct (aget kws a) as [[[]|]|[l|v|d]]; try discriminate H; injection H as <-; eauto.
  - destruct (aget kws a) as [[[]|]|[l|v|d]]; try discriminate H; injection H as <-; eauto.
  - destruct (aget kws a) as [[[]|]|[l|v|d]]; try discriminate H; [injection H as <-; eauto|].
    apply bind_ok in H as [r [_ H]]. injection H as <-. eauto.
  - repeat (apply bind_ok in H as [? [_ H]]). injection H as <-. eauto.
Qed.

Lemma sget_map {A B} (f : A -> B) a l : sget a (map (fun kv => (fst kv, f (snd kv))) l) = option_map f (sget a l).
Proof. induction l as [|[k x] l IH]; cbn; [reflexivity|]. destruct (String.eqb a k); [reflexivity|exact IH]. Qed.

Lemma sget_in {A} a (l : list (string * A)) x : sget a l = Some x -> In (a, x) l.
Proof.
  induction l as [|[k y] l IH]; cbn; [discriminate|]. destruct (String.eqb a k) eqn:E; [|auto].
  intro H. injection H as ->. apply String.eqb_eq in E. subst. now left.
Qed.

Lemma aget_see ls kws a : aget (see_all ls kws) a = see ls (hget kws a).
Proof. unfold aget, hget, see_all. rewrite sget_map. destruct (sget a kws); reflexivity. Qed.

(** The lists among the arguments are copied. *)
Definition lists_copied (kws : list (string * hval)) (aks : list (string * ckind)) : Prop :=
  forall a k b, In (a, k) aks -> hget kws a = HL b -> copies k = true.

Lemma assign_seen W ld ld' kws ls0 :
  (forall e, ld e = ld' e) -> forall aks ls, lists_copied kws aks ->
  match assign W ld kws (see_all ls0 kws) aks ls with
  | Ok (ls', r) => exists new, ls' = ls ++ new /\ a_assign W ld' (see_all ls0 kws) aks = Ok (see_all ls' r) /\ held_attrs r = seq (length ls) (length new)
  | Err x => a_assign W ld' (see_all ls0 kws) aks = Err x
  end.
Proof.
  intro Hld. induction aks as [|[a k] aks IH]; intros ls Hc; cbn [assign].
  - exists []. rewrite app_nil_r. auto.
  - unfold a_assign. cbn [map_res fst]. rewrite <- (stores_ext W ld ld' _ (a, k) Hld).
    destruct (stores W ld (see_all ls0 kws) (a, k)) as [s|x] eqn:Es; cbn [bind]; [|reflexivity].
    assert (Hc' : lists_copied kws aks) by (intros a' k' b Hi; apply (Hc a' k' b); now right).
    destruct (match s with Same => (ls, hget kws a) | Elem e => (ls, HE e) | Fresh c => (ls ++ [c], HL (length ls)) end) as [ls1 h] eqn:E1.
    specialize (IH ls1 Hc'). unfold a_assign in IH.
    destruct (assign W ld kws (see_all ls0 kws) aks ls1) as [[ls2 r]|x]; cbn [bind]; [|now rewrite IH].
    destruct IH as [new [-> [IH Hh]]]. rewrite IH. cbn [bind].
    destruct s as [|e|c]; injection E1 as <- <-.
    + exists new. split; [reflexivity|]. unfold kept. rewrite aget_see.
      destruct (hget kws a) as [e|b] eqn:Eh.
      * split; [reflexivity|]. exact Hh.
      * destruct (copies_fresh _ _ _ _ _ _ (Hc a k b (or_introl eq_refl) Eh) Es) as [c Hf]. discriminate Hf.
    + exists new. split; [reflexivity|]. split; [reflexivity|]. exact Hh.
    + exists (c :: new). split; [now rewrite <- app_assoc|]. rewrite app_length in Hh. cbn [length] in Hh. split.
      * assert (Ec : contents ((ls ++ [c]) ++ new) (length ls) = c) by (unfold contents; rewrite <- app_assoc; apply nth_middle).
        change (see_all ((ls ++ [c]) ++ new) ((a, HL (length ls)) :: r))
          with ((a, AL (contents ((ls ++ [c]) ++ new) (length ls))) :: see_all ((ls ++ [c]) ++ new) r). now rewrite Ec.
      * cbn [held_attrs flat_map snd held_val app length seq]. f_equal. rewrite Nat.add_1_r in Hh. exact Hh.
Qed.

Lemma see_look ls kws : (forall a, In a (held_attrs kws) -> (a < length ls)%nat) ->
  map_res (fun kv : string * hval => let! x := look ls (snd kv) in Ok (fst kv, x)) kws = Ok (see_all ls kws).
Proof.
  induction kws as [|[k h] kws IH]; intro H; [reflexivity|]. cbn [map_res snd fst see_all map].
  assert (E : look ls h = Ok (see ls h)).
  { destruct h as [e|a]; cbn; [reflexivity|]. rewrite nth_error_contents; [reflexivity|]. apply H. now left. }
  rewrite E. cbn [bind]. fold (see_all ls kws). rewrite IH; [reflexivity|]. intros a Ha. apply H. cbn. apply in_or_app. now right.
Qed.

Lemma extra_see ci ls kws : extra_args ci (see_all ls kws) = see_all ls (extra_args ci kws).
Proof.
  unfold extra_args, see_all. induction kws as [|[k h] kws IH]; cbn [map filter fst snd]; [reflexivity|].
  destruct (negb (mem k (ci_params ci))); cbn [map fst snd]; now rewrite IH.
Qed.

Lemma held_extra ci kws : (forall a b, In (a, HL b) kws -> mem a (ci_params ci) = true) -> held_attrs (extra_args ci kws) = [].
Proof.
  intro H. destruct (held_attrs (extra_args ci kws)) as [|x l] eqn:E; [reflexivity|].
  assert (Hx : In x (held_attrs (extra_args ci kws))) by (rewrite E; now left).
  apply in_held_attrs in Hx as [k Hk]. apply filter_In in Hk as [Hk Hp]. cbn [fst] in Hp. rewrite (H _ _ Hk) in Hp. discriminate.
Qed.

Lemma held_attrs_app l1 l2 : held_attrs (l1 ++ l2) = held_attrs l1 ++ held_attrs l2.
Proof. apply flat_map_app. Qed.

Lemma see_all_app ls l1 l2 : see_all ls (l1 ++ l2) = see_all ls l1 ++ see_all ls l2.
Proof. apply map_app. Qed.

Lemma nilb_map {A B} (f : A -> B) l : nilb (map f l) = nilb l.
Proof. now destruct l. Qed.

(** Every class copies the lists it is given. *)
Definition copies_lists (W : world) : Prop :=
  forall c ci a, class_of W c = Some ci -> list_param W c a = true ->
  mem a (ci_params ci) = true /\ (forall k, In (a, k) (ci_pre ci) \/ In (a, k) (ci_post ci) -> copies k = true).

Lemma NoDup_more l n k : NoDup l -> (forall a, In a l -> (a < n)%nat) -> NoDup (l ++ seq n k).
Proof.
  intros H Hn. induction l as [|x l IH]; cbn [app]; [apply seq_NoDup|]. inversion_clear H as [|? ? Hx Hl]. constructor.
  - rewrite in_app_iff, in_seq. intros [Hi|[Hi _]]; [contradiction|]. specialize (Hn x (or_introl eq_refl)). lia.
  - apply IH; [exact Hl|]. intros a Ha. apply Hn. now right.
Qed.

Lemma new_obj_seen W fuel m c ns nss kws :
  copies_lists W -> separate m -> (forall a, In a (held_attrs kws) -> (a < length (m_lists m))%nat) ->
  (forall a b, In (a, HL b) kws -> list_param W c a = true) ->
  match new_obj W fuel m c ns nss kws with
  | Ok m' => separate m' /\ a_new W fuel (seen m) c ns nss (see_all (m_lists m) kws) = Ok (seen m')
  | Err x => a_new W fuel (seen m) c ns nss (see_all (m_lists m) kws) = Err x
  end.
Proof.
  intros HW [H1 H2] Hb Hl. unfold new_obj, a_new. destruct (class_of W c) as [ci|] eqn:Ec; [|reflexivity]. cbv zeta.
  rewrite extra_see. replace (nilb (see_all (m_lists m) (extra_args ci kws))) with (nilb (extra_args ci kws)) by (symmetry; apply nilb_map).
  destruct (negb (ci_kwargs ci) && negb (nilb (extra_args ci kws))); [reflexivity|].
  rewrite (see_look _ _ Hb). cbn [bind]. set (ls := m_lists m) in *.
  assert (Hld : forall e, load fuel m e = aload fuel (seen m) e) by (apply load_seen; exact H2).
  assert (Hp : forall a b, hget kws a = HL b -> list_param W c a = true).
  { intros a b Hh. unfold hget in Hh. destruct (sget a kws) as [h|] eqn:Es; [|discriminate]. subst h. eapply Hl, sget_in, Es. }
  assert (C1 : lists_copied kws (ci_pre ci)).
  { intros a k b Hi Hh. destruct (HW c ci a Ec (Hp _ _ Hh)) as [_ Hk]. apply Hk. now left. }
  assert (C2 : lists_copied kws (ci_post ci)).
  { intros a k b Hi Hh. destruct (HW c ci a Ec (Hp _ _ Hh)) as [_ Hk]. apply Hk. now right. }
  assert (A1 := assign_seen W _ _ kws ls Hld (ci_pre ci) ls C1).
  destruct (assign W (load fuel m) kws (see_all ls kws) (ci_pre ci) ls) as [[ls1 pre]|x]; cbn [bind]; [|now rewrite A1].
  destruct A1 as [n1 [-> [-> Q1]]]. cbn [bind].
  assert (A2 := assign_seen W _ _ kws ls Hld (ci_post ci) (ls ++ n1) C2).
  destruct (assign W (load fuel m) kws (see_all ls kws) (ci_post ci) (ls ++ n1)) as [[ls2 post]|x]; cbn [bind]; [|now rewrite A2].
  destruct A2 as [n2 [-> [-> Q2]]]. cbn [bind].
  assert (Qe : held_attrs (extra_args ci kws) = []).
  { apply held_extra. intros a b Hi. apply (HW c ci a Ec). eapply Hl, Hi. }
  set (ls2 := (ls ++ n1) ++ n2) in *. set (lm := ls2 ++ [LDict (merge_ns nss)]).
  set (o := mkO c _ (length ls2) (pre ++ extra_args ci kws ++ post)).
  assert (Lm : length lm = (length ls + length n1 + length n2 + 1)%nat) by (unfold lm, ls2; rewrite !app_length; reflexivity).
  assert (L2 : length ls2 = (length ls + length n1 + length n2)%nat) by (unfold ls2; rewrite !app_length; reflexivity).
  assert (Ho : held_obj o = length ls2 :: seq (length ls) (length n1 + length n2)).
  { unfold held_obj, o. cbn [o_nss o_attrs]. rewrite !held_attrs_app, Qe, Q1, Q2, app_length. cbn [app]. now rewrite seq_app. }
  split; [split|].
  - unfold held. cbn [m_lvars m_objs]. rewrite flat_map_app. cbn [flat_map]. rewrite app_nil_r, Ho, app_assoc. fold (held m).
    apply (Permutation_NoDup (l := held m ++ seq (length ls) (length n1 + length n2 + 1))).
    + apply Permutation_app_head. rewrite seq_app. cbn [seq]. rewrite L2, Nat.add_assoc. symmetry. apply Permutation_cons_append.
    + apply NoDup_more; assumption.
  - unfold held. cbn [m_lvars m_objs m_lists]. rewrite flat_map_app. cbn [flat_map]. rewrite app_nil_r, Ho, app_assoc. fold (held m).
    intros a Ha. fold lm. rewrite Lm. apply in_app_or in Ha as [Ha|[Ha|Ha]].
    + specialize (H2 a Ha). fold ls in H2. lia.
    + lia.
    + apply in_seq in Ha. lia.
  - assert (Old : forall a, (a < length ls)%nat -> contents lm a = contents ls a).
    { intros a Ha. unfold lm, ls2. rewrite !contents_app; [reflexivity|lia|rewrite app_length; lia|rewrite !app_length; lia]. }
    unfold seen. cbn [am_objs am_lvars am_evars m_lists m_objs m_lvars m_evars]. fold lm. do 2 f_equal.
    + rewrite map_app. cbn [map]. f_equal.
      * symmetry. apply see_objs_ext. intros a Ha. apply Old. apply H2. apply in_or_app. now right.
      * f_equal. unfold see_obj, o. cbn [o_class o_ns o_nss o_attrs]. f_equal.
        -- unfold contents, lm. rewrite app_nth2, Nat.sub_diag; [reflexivity|lia].
        -- rewrite !see_all_app. f_equal; [|f_equal].
           ++ symmetry. apply see_all_ext. intros a Ha. rewrite Q1 in Ha. apply in_seq in Ha.
              unfold lm, ls2. rewrite (contents_app ((ls ++ n1) ++ n2)), (contents_app (ls ++ n1)); [reflexivity|rewrite app_length; lia|rewrite !app_length; lia].
           ++ apply see_all_ext. rewrite Qe. intros a [].
           ++ symmetry. apply see_all_ext. intros a Ha. rewrite Q2 in Ha. apply in_seq in Ha. rewrite app_length in Ha.
              unfold lm. rewrite contents_app; [reflexivity|]. lia.
    + apply map_ext_in. intros a Ha. symmetry. apply Old, H2. apply in_or_app. now left.
    + now rewrite map_length.
Qed.

(** ** Changes in place *)

Lemma contents_put ls a new b : (a < length ls)%nat -> contents (put a new ls) b = if Nat.eqb b a then new else contents ls b.
Proof. intro H. unfold contents. now apply nth_put. Qed.

Lemma contents_put_other ls a new b : (a < length ls)%nat -> b <> a -> contents (put a new ls) b = contents ls b.
Proof. intros H Hn. rewrite contents_put by exact H. apply Nat.eqb_neq in Hn. now rewrite Hn. Qed.

Lemma lvar_put ls a new : (a < length ls)%nat -> forall lv l, NoDup lv -> nth_error lv l = Some a ->
  map (contents (put a new ls)) lv = put l new (map (contents ls) lv).
Proof.
  intro Ha. induction lv as [|b lv IH]; intros [|l] Hd H; try discriminate H; inversion_clear Hd as [|? ? Hb Hl]; cbn [map put nth_error] in *.
  - injection H as ->. rewrite contents_put, Nat.eqb_refl by exact Ha. f_equal. apply map_ext_in. intros x Hx. apply contents_put_other; [exact Ha|]. congruence.
  - rewrite (IH l Hl H), contents_put_other; [reflexivity|exact Ha|]. intro E. subst. apply Hb. eapply nth_error_In, H.
Qed.

Lemma attr_put ls ad new k : (ad < length ls)%nat -> forall attrs, NoDup (held_attrs attrs) -> sget k attrs = Some (HL ad) ->
  see_all (put ad new ls) attrs = sset k (AL new) (see_all ls attrs).
Proof.
  intro Ha. induction attrs as [|[k' h] attrs IH]; intros Hd H; [discriminate H|]. cbn [sget] in H.
  cbn [see_all map sset fst snd]. fold (see_all ls attrs). fold (see_all (put ad new ls) attrs).
  destruct (String.eqb k k') eqn:Ek.
  - injection H as ->. cbn [see]. rewrite contents_put, Nat.eqb_refl by exact Ha. apply String.eqb_eq in Ek. subst k'. f_equal.
    apply see_all_ext. intros a Hi. apply contents_put_other; [exact Ha|]. intro E. subst.
    cbn in Hd. inversion_clear Hd as [|? ? Hn _]. exact (Hn Hi).
  - cbn [held_attrs flat_map snd] in Hd. fold (held_attrs attrs) in Hd. rewrite IH; [|now apply NoDup_app_remove_l in Hd|exact H].
    f_equal. destruct h as [e|b]; cbn [see]; [reflexivity|]. rewrite contents_put_other; [reflexivity|exact Ha|].
    intro E. subst. cbn [held_val app] in Hd. inversion_clear Hd as [|? ? Hn _]. apply Hn, in_held_attrs. exists k. now apply sget_in.
Qed.

Lemma separate_put m a new : separate m -> separate (set_lists m (put a new (m_lists m))).
Proof. intros [H1 H2]. split; [exact H1|]. intros b Hb. cbn [set_lists m_lists]. rewrite put_length. now apply H2. Qed.

Lemma NoDup_app_in {A} (l1 l2 : list A) x : NoDup (l1 ++ l2) -> In x l1 -> ~ In x l2.
Proof.
  induction l1 as [|y l1 IH]; cbn; [contradiction|]. intros Hd [->|Hi] H2.
  - inversion_clear Hd as [|? ? Hn _]. apply Hn, in_or_app. now right.
  - inversion_clear Hd as [|? ? _ Hd']. exact (IH Hd' Hi H2).
Qed.

(** The object at [i] holds the list at [a], nobody else does. *)
Lemma others m i o a : separate m -> nth_error (m_objs m) i = Some o -> In a (held_obj o) ->
  ~ In a (m_lvars m) /\ exists A B, m_objs m = A ++ o :: B /\ length A = i /\ ~ In a (flat_map held_obj A) /\ ~ In a (flat_map held_obj B) /\ NoDup (held_obj o).
Proof.
  intros [H1 _] Hn Hi. destruct (held_split m i o Hn) as [A [B [E L]]]. unfold held in H1. rewrite E, flat_map_app in H1. cbn [flat_map] in H1.
  split.
  - intro Hl. apply (NoDup_app_in _ _ a H1 Hl). apply in_or_app. right. apply in_or_app. now left.
  - apply NoDup_app_remove_l in H1. exists A, B. repeat split; auto.
    + intro Hx. apply (NoDup_app_in _ _ a H1 Hx). apply in_or_app. now left.
    + apply NoDup_app_remove_l in H1. exact (NoDup_app_in _ _ a H1 Hi).
    + apply NoDup_app_remove_l in H1. now apply NoDup_app_remove_r in H1.
Qed.

Lemma put_obj_seen m i o a new o' :
  separate m -> nth_error (m_objs m) i = Some o -> In a (held_obj o) ->
  see_obj (put a new (m_lists m)) o = o' ->
  seen (set_lists m (put a new (m_lists m))) = a_put (seen m) i o'.
Proof.
  intros Hs Hn Hi Ho. assert (Ha : (a < length (m_lists m))%nat) by (apply (sep_in m Hs); eapply in_held_obj; eassumption).
  destruct (others m i o a Hs Hn Hi) as [Hl [A [B [E [L [HA [HB _]]]]]]].
  unfold seen, a_put. cbn [set_lists m_lists m_objs m_lvars m_evars am_objs am_lvars am_evars]. f_equal.
  - rewrite E, !map_app. cbn [map]. rewrite Ho, <- L, <- (map_length (see_obj (m_lists m)) A), put_split. f_equal; [|f_equal].
    + apply see_objs_ext. intros b Hb. apply contents_put_other; [exact Ha|]. congruence.
    + apply see_objs_ext. intros b Hb. apply contents_put_other; [exact Ha|]. congruence.
  - apply map_ext_in. intros b Hb. apply contents_put_other; [exact Ha|]. congruence.
Qed.

(** ** Every step *)

Definition step_seen W fuel m o : Prop :=
  match step W fuel m o with
  | Ok m' => separate m' /\ a_step W fuel (seen m) o = Ok (seen m')
  | Err x => a_step W fuel (seen m) o = Err x
  end.

Lemma seen_var m e : seen (add_var m e) = a_var (seen m) e.
Proof. reflexivity. Qed.

Lemma separate_var m e : separate m -> separate (add_var m e).
Proof. intros [H1 H2]. split; assumption. Qed.

Lemma the_obj m i : the (nth_error (am_objs (seen m)) i) = let! o := the (nth_error (m_objs m) i) in Ok (see_obj (m_lists m) o).
Proof. unfold seen. cbn [am_objs]. rewrite nth_error_map. destruct (nth_error (m_objs m) i); reflexivity. Qed.

Lemma the_list m i : the (nth_error (am_lvars (seen m)) i) = let! a := the (nth_error (m_lvars m) i) in Ok (contents (m_lists m) a).
Proof. unfold seen. cbn [am_lvars]. rewrite nth_error_map. destruct (nth_error (m_lvars m) i); reflexivity. Qed.

Lemma the_ok {A} (x : option A) a : the x = Ok a -> x = Some a.
Proof. destruct x; cbn; [|discriminate]. intro H. injection H as ->. reflexivity. Qed.

Lemma lvar_in m i a : separate m -> nth_error (m_lvars m) i = Some a -> (a < length (m_lists m))%nat.
Proof. intros Hs H. apply (sep_in m Hs). apply in_or_app. left. eapply nth_error_In, H. Qed.

Lemma args_seen m kws : separate m ->
  match map_res (fun kv : string * arg => let! h := arg_val m (snd kv) in Ok (fst kv, h)) kws with
  | Ok hs => map_res (fun kv : string * arg => let! h := a_arg (seen m) (snd kv) in Ok (fst kv, h)) kws = Ok (see_all (m_lists m) hs)
             /\ (forall a, In a (held_attrs hs) -> (a < length (m_lists m))%nat)
             /\ (forall a b, In (a, HL b) hs -> exists i, In (a, LVar i) kws)
  | Err x => map_res (fun kv : string * arg => let! h := a_arg (seen m) (snd kv) in Ok (fst kv, h)) kws = Err x
  end.
Proof.
  intro Hs. induction kws as [|[k x] kws IH]; cbn [map_res fst snd].
  - split; [reflexivity|]. split; intros; contradiction.
  - assert (E : match arg_val m x with
                | Ok h => a_arg (seen m) x = Ok (see (m_lists m) h) /\ (forall a, In a (held_val h) -> (a < length (m_lists m))%nat) /\ (forall b, h = HL b -> exists i, x = LVar i)
                | Err y => a_arg (seen m) x = Err y end).
    { destruct x as [i|i]; cbn [arg_val a_arg].
      - unfold seen. cbn [am_evars]. destruct (the (nth_error (m_evars m) i)); cbn [bind]; [|reflexivity]. split; [reflexivity|]. split; [intros ? []|discriminate].
      - rewrite the_list. destruct (the (nth_error (m_lvars m) i)) as [a|] eqn:Ea; cbn [bind]; [|reflexivity]. apply the_ok in Ea.
        split; [reflexivity|]. split; [|eauto]. intros b [<-|[]]. eapply lvar_in; eassumption. }
    destruct (arg_val m x) as [h|y]; cbn [bind].
    + destruct E as [E1 [E2 E3]]. rewrite E1. cbn [bind].
      destruct (map_res (fun kv : string * arg => let! h := arg_val m (snd kv) in Ok (fst kv, h)) kws) as [hs|y]; cbn [bind].
      * destruct IH as [I1 [I2 I3]]. rewrite I1. cbn [bind]. split; [reflexivity|]. split.
        -- intros a Ha. cbn [held_attrs flat_map snd] in Ha. apply in_app_or in Ha as [Ha|Ha]; auto.
        -- intros a b [H|H].
           ++ injection H as -> ->. destruct (E3 b eq_refl) as [i ->]. exists i. now left.
           ++ destruct (I3 _ _ H) as [i Hi]. exists i. now right.
      * rewrite IH. reflexivity.
    + rewrite E. reflexivity.
Qed.

Lemma held_sset k e attrs : exists l, Permutation (held_attrs attrs) (l ++ held_attrs (sset k (HE e) attrs)).
Proof.
  induction attrs as [|[k' h] attrs [l IH]]; [exists []; constructor|]. cbn [sset]. destruct (String.eqb k k').
  - exists (held_val h). apply Permutation_refl.
  - exists l. cbn [held_attrs flat_map snd]. fold (held_attrs attrs). fold (held_attrs (sset k (HE e) attrs)).
    rewrite IH. rewrite !app_assoc. apply Permutation_app_tail, Permutation_app_comm.
Qed.

Lemma see_sset ls k h attrs : see_all ls (sset k h attrs) = sset k (see ls h) (see_all ls attrs).
Proof.
  induction attrs as [|[k' h'] attrs IH]; [reflexivity|]. cbn [sset see_all map fst snd]. fold (see_all ls attrs).
  destruct (String.eqb k k'); cbn [see_all map fst snd]; [reflexivity|]. fold (see_all ls (sset k h attrs)). now rewrite IH.
Qed.

Lemma sget_see ls a attrs : sget a (see_all ls attrs) = option_map (see ls) (sget a attrs).
Proof. apply sget_map. Qed.

Theorem every_step W fuel m o : copies_lists W -> separate m -> fair W o = true -> step_seen W fuel m o.
Proof.
  intros HW Hs Hf. unfold step_seen. destruct o as [v|c|c ns nss kws|l c|o a c|o d|o a|o a k|o a e]; cbn [step a_step].
  - split; [now apply separate_var|reflexivity].
  - change (am_evars (seen m)) with (m_evars m). destruct (changed (m_evars m) (LObjs []) c) as [new|x]; cbn [bind]; [|reflexivity].
    destruct Hs as [H1 H2]. split; [split|].
    + unfold held. cbn [m_lvars m_objs]. rewrite <- app_assoc. cbn [app]. apply NoDup_Add with (a := length (m_lists m)) (l := held m); [apply Add_app|].
      split; [exact H1|]. intro Hi. specialize (H2 _ Hi). lia.
    + intros b Hb. unfold held in Hb. cbn [m_lvars m_objs m_lists] in *. rewrite app_length. cbn [length]. rewrite <- app_assoc in Hb. cbn [app] in Hb.
      apply in_app_or in Hb as [Hb|[Hb|Hb]]; [|lia|]; (assert (Hx : (b < length (m_lists m))%nat) by (apply H2, in_or_app; auto)); lia.
    + unfold seen. cbn [m_lists m_objs m_lvars m_evars am_objs am_lvars am_evars]. do 2 f_equal.
      * symmetry. apply see_objs_ext. intros b Hb. apply contents_app, H2, in_or_app. now right.
      * rewrite map_app. cbn [map]. f_equal.
        -- apply map_ext_in. intros b Hb. symmetry. apply contents_app, H2, in_or_app. now left.
        -- f_equal. unfold contents. now rewrite nth_middle.
  - assert (Ed : match nss with Some i => let! c0 := the (nth_error (am_lvars (seen m)) i) in as_dict c0 | None => Ok [] end
                 = match nss with Some i => let! a := the (nth_error (m_lvars m) i) in dict_at (m_lists m) a | None => Ok [] end).
    { destruct nss as [i|]; [|reflexivity]. rewrite the_list. destruct (the (nth_error (m_lvars m) i)) as [a|] eqn:Ea; cbn [bind]; [|reflexivity].
      apply the_ok in Ea. unfold dict_at. rewrite nth_error_contents by (eapply lvar_in; eassumption). unfold as_dict. destruct (contents (m_lists m) a); reflexivity. }
    rewrite Ed. destruct (match nss with Some i => let! a := the (nth_error (m_lvars m) i) in dict_at (m_lists m) a | None => Ok [] end) as [d|x]; cbn [bind]; [|reflexivity].
    assert (A := args_seen m kws Hs). destruct (map_res (fun kv : string * arg => let! h := arg_val m (snd kv) in Ok (fst kv, h)) kws) as [hs|x]; cbn [bind].
    + destruct A as [A1 [A2 A3]]. rewrite A1. cbn [bind]. apply new_obj_seen; auto.
      intros a b Hi. destruct (A3 _ _ Hi) as [i Hi']. cbn [fair] in Hf. rewrite forallb_forall in Hf. exact (Hf _ Hi').
    + rewrite A. reflexivity.
  - rewrite the_list. destruct (the (nth_error (m_lvars m) l)) as [a|] eqn:Ea; cbn [bind]; [|reflexivity]. apply the_ok in Ea.
    assert (Ha := lvar_in m l a Hs Ea). unfold change_at. rewrite nth_error_contents by exact Ha. cbn [the bind].
    change (am_evars (seen m)) with (m_evars m). destruct (changed (m_evars m) (contents (m_lists m) a) c) as [new|x]; cbn [bind]; [|reflexivity].
    split; [now apply separate_put|]. destruct Hs as [H1 H2]. unfold seen. cbn [set_lists m_lists m_objs m_lvars m_evars am_objs am_lvars am_evars]. do 2 f_equal.
    + symmetry. apply see_objs_ext. intros b Hb. apply contents_put_other; [exact Ha|]. intro E. subst b.
      eapply NoDup_app_in; [exact H1|eapply nth_error_In, Ea|exact Hb].
    + symmetry. apply lvar_put; auto. now apply NoDup_app_remove_r in H1.
  - change (am_evars (seen m)) with (m_evars m). destruct (obj_var (m_evars m) o) as [i|x]; cbn [bind]; [|reflexivity].
    rewrite the_obj. destruct (the (nth_error (m_objs m) i)) as [x|] eqn:Ex; cbn [bind]; [|reflexivity]. apply the_ok in Ex.
    cbn [see_obj ao_attrs ao_class ao_ns ao_nss]. rewrite sget_see. destruct (sget a (o_attrs x)) as [[e|ad]|] eqn:Es; cbn [option_map see]; try reflexivity.
    assert (Hi : In ad (held_obj x)) by (right; apply in_held_attrs; exists a; now apply sget_in).
    assert (Ha : (ad < length (m_lists m))%nat) by (apply (sep_in m Hs); eapply in_held_obj; eassumption).
    unfold change_at. rewrite nth_error_contents by exact Ha. cbn [the bind].
    destruct (changed (m_evars m) (contents (m_lists m) ad) c) as [new|y]; cbn [bind]; [|reflexivity].
    split; [now apply separate_put|]. f_equal. symmetry. eapply put_obj_seen; try eassumption.
    destruct (others m i x ad Hs Ex Hi) as [_ [_ [_ [_ [_ [_ [_ Hd]]]]]]]. inversion_clear Hd as [|? ? Hn Hd'].
    unfold see_obj. f_equal.
    + apply contents_put_other; [exact Ha|]. intro E. apply Hn. rewrite E. apply in_held_attrs. exists a. now apply sget_in.
    + now apply attr_put.
  - change (am_evars (seen m)) with (m_evars m). destruct (obj_var (m_evars m) o) as [i|x]; cbn [bind]; [|reflexivity].
    rewrite the_obj. destruct (the (nth_error (m_objs m) i)) as [x|] eqn:Ex; cbn [bind]; [|reflexivity]. apply the_ok in Ex.
    assert (Hi : In (o_nss x) (held_obj x)) by now left.
    assert (Ha : (o_nss x < length (m_lists m))%nat) by (apply (sep_in m Hs); eapply in_held_obj; eassumption).
    unfold change_at. rewrite nth_error_contents by exact Ha. cbn [the bind changed].
    split; [now apply separate_put|]. f_equal. symmetry. eapply put_obj_seen; try eassumption.
    destruct (others m i x _ Hs Ex Hi) as [_ [_ [_ [_ [_ [_ [_ Hd]]]]]]]. inversion_clear Hd as [|? ? Hn Hd'].
    unfold see_obj. cbn [ao_class ao_ns ao_attrs]. f_equal.
    + rewrite contents_put, Nat.eqb_refl by exact Ha. reflexivity.
    + apply see_all_ext. intros b Hb. apply contents_put_other; [exact Ha|]. congruence.
  - change (am_evars (seen m)) with (m_evars m). destruct (obj_var (m_evars m) o) as [i|x]; cbn [bind]; [|reflexivity].
    rewrite the_obj. destruct (the (nth_error (m_objs m) i)) as [x|] eqn:Ex; cbn [bind]; [|reflexivity].
    cbn [see_obj ao_attrs]. rewrite sget_see. destruct (sget a (o_attrs x)) as [[e|ad]|] eqn:Es; cbn [option_map see]; try reflexivity.
    split; [now apply separate_var|reflexivity].
  - change (am_evars (seen m)) with (m_evars m). destruct (obj_var (m_evars m) o) as [i|x]; cbn [bind]; [|reflexivity].
    rewrite the_obj. destruct (the (nth_error (m_objs m) i)) as [x|] eqn:Ex; cbn [bind]; [|reflexivity]. apply the_ok in Ex.
    cbn [see_obj ao_attrs]. rewrite sget_see. destruct (sget a (o_attrs x)) as [[e|ad]|] eqn:Es; cbn [option_map see]; try reflexivity.
    assert (Hi : In ad (held_obj x)) by (right; apply in_held_attrs; exists a; now apply sget_in).
    assert (Ha : (ad < length (m_lists m))%nat) by (apply (sep_in m Hs); eapply in_held_obj; eassumption).
    rewrite nth_error_contents by exact Ha. cbn [the bind]. destruct (picked [] (contents (m_lists m) ad) (PItem k)); cbn [bind]; [|reflexivity].
    split; [now apply separate_var|reflexivity].
  - change (am_evars (seen m)) with (m_evars m). destruct (obj_var (m_evars m) o) as [i|x]; cbn [bind]; [|reflexivity].
    rewrite the_obj. destruct (the (nth_error (m_objs m) i)) as [x|] eqn:Ex; cbn [bind]; [|reflexivity]. apply the_ok in Ex.
    destruct (the (nth_error (m_evars m) e)) as [y|]; cbn [bind]; [|reflexivity].
    destruct (held_split m i x Ex) as [A [B [E L]]]. destruct (held_sset a y (o_attrs x)) as [lost Hp]. destruct Hs as [H1 H2].
    set (x' := mkO (o_class x) (o_ns x) (o_nss x) (sset a (HE y) (o_attrs x))).
    assert (Hh : Permutation (held m) (lost ++ held (mkM (m_lists m) (put i x' (m_objs m)) (m_lvars m) (m_evars m)))).
    { unfold held. cbn [m_lvars m_objs]. rewrite E, <- L, put_split, !flat_map_app. cbn [flat_map]. unfold held_obj at 2 5. cbn [x' o_nss o_attrs].
      rewrite Hp. rewrite !(app_assoc (m_lvars m)). set (P := m_lvars m ++ flat_map held_obj A). rewrite (app_assoc lost P), (Permutation_app_comm lost P), <- (app_assoc P).
      apply Permutation_app_head. cbn [app]. rewrite <- app_assoc. apply Permutation_middle. }
    split; [split|].
    + apply (Permutation_NoDup Hh) in H1. now apply NoDup_app_remove_l in H1.
    + intros b Hb. apply H2. apply (Permutation_in _ (Permutation_sym Hh)), in_or_app. now right.
    + unfold seen, a_put. cbn [m_lists m_objs m_lvars m_evars am_objs am_lvars am_evars see_obj ao_class ao_ns ao_nss ao_attrs]. do 2 f_equal.
      rewrite map_put. f_equal. unfold x', see_obj. cbn [o_class o_ns o_nss o_attrs]. now rewrite see_sset.
Qed.

Theorem every_run W fuel ops m : copies_lists W -> separate m -> forallb (fair W) ops = true ->
  match run W fuel m ops with
  | Ok m' => separate m' /\ a_run W fuel (seen m) ops = Ok (seen m')
  | Err x => a_run W fuel (seen m) ops = Err x
  end.
Proof.
  intro HW. revert m. induction ops as [|o ops IH]; intros m Hs Hf; [now split|]. cbn [forallb] in Hf. apply andb_true_iff in Hf as [Ho Hf].
  assert (S := every_step W fuel m o HW Hs Ho). unfold step_seen in S. cbn [run a_run].
  destruct (step W fuel m o) as [m'|x]; cbn [bind].
  - destruct S as [Hs' E]. rewrite E. cbn [bind]. exact (IH m' Hs' Hf).
  - rewrite S. reflexivity.
Qed.

Lemma separate_empty : separate empty_memory.
Proof. split; [constructor|intros ? []]. Qed.
