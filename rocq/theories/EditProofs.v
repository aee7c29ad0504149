(** * The document written after an edit: C61. *)
From Coq Require Import String List NArith ZArith Bool Lia.
From Verif Require Import Ustr UstrProofs Res PyInt PyFloat PyDate Elem Value Geom Codec Spec EmitProofs CodecProofs ItemProofs RoundTrip NsProofs WriteProofs EditSpec.
Import ListNotations.
Local Open Scope string_scope.
Local Open Scope list_scope.

(** ** What a registration writes *)

Lemma text_kids_for W prec vb attrs it l ks : In (it_set it) [SDates; SCoordList] ->
  (forall x t, In x l -> x = Ok t -> exists n, fst t = n ++ u (it_node it)) ->
  text_kids l = Ok ks -> Forall (written_for W prec vb attrs it) ks.
Proof.
  intros Hs Hl H. apply map_res_ok in H. apply Forall_forall. intros k Hk.
  assert (D : exists x, In x l /\ (let! t := x in Ok (text_elem (fst t) (Some (snd t)))) = Ok k).
  { clear -H Hk. induction H as [|x k0 l ks Hx _ IH]; [destruct Hk|]. destruct Hk as [->|Hk]; [exists x; split; [now left|exact Hx]|].
    destruct (IH Hk) as [y [Hy E]]. exists y. split; [now right|exact E]. }
  destruct D as [x [Hx E]]. destruct x as [t|]; [|discriminate E]. cbn in E. injection E as <-. destruct (Hl _ t Hx eq_refl) as [n Hn].
  unfold written_for. destruct Hs as [E|[E|[]]]; rewrite <- E; exists n, (snd t); unfold text_elem; now rewrite Hn.
Qed.

Lemma objs_kids_for W prec vb l ks : objs_kids W (map (fun y => (y, etree W prec vb y)) l) = Ok ks ->
  Forall (fun k => exists v, In v l /\ etree W prec vb v = Ok k) ks.
Proof.
  revert ks. induction l as [|y l IH]; intros ks H; cbn [map objs_kids] in H; [injection H as <-; constructor|].
  apply bind_ok in H as [b [_ H]].
  assert (W' : forall ks', Forall (fun k => exists v, In v l /\ etree W prec vb v = Ok k) ks' -> Forall (fun k => exists v, In v (y :: l) /\ etree W prec vb v = Ok k) ks').
  { intros ks' F. eapply Forall_impl; [|exact F]. intros k [v [Hv E]]. exists v. split; [now right|exact E]. }
  destruct b; [|apply W'; now apply IH]. apply bind_ok in H as [k [Hk H]]. apply bind_ok in H as [r [Hr H]]. injection H as <-.
  constructor; [exists y; split; [now left|exact Hk]|]. apply W'. now apply IH.
Qed.

Definition parts_of_em (W : world) (prec : option nat) (vb : verbosity) (attrs : list (string * value)) (it : item) (m : em) : Prop :=
  Forall (written_for W prec vb attrs it) (m_kids m) /\
  (m_attr m = [] \/ (In (it_set it) [SAttrText; SAttrInt; SAttrFloat; SAttrEnum] /\ exists t, m_attr m = [(u (it_node it), t)])) /\
  (m_text m = None \/ In (it_set it) [SNodeText; SCoords]).

Lemma em0_parts W prec vb attrs it : parts_of_em W prec vb attrs it em0.
Proof. split; [constructor|]. cbn. auto. Qed.

Lemma em_kid_parts W prec vb attrs it n t : ~ In (it_set it) [SObj; SObjs] -> parts_of_em W prec vb attrs it (em_kid (n ++ u (it_node it)) t).
Proof.
  intro Hs. split; [|cbn; auto]. constructor; [|constructor]. unfold written_for.
  destruct (it_set it); try (exists n, t; reflexivity); exfalso; apply Hs; cbn; auto.
Qed.

Lemma em_attr_parts W prec vb attrs it t : In (it_set it) [SAttrText; SAttrInt; SAttrFloat; SAttrEnum] ->
  parts_of_em W prec vb attrs it (em_attr (u (it_node it)) t).
Proof. intro Hs. split; [constructor|]. cbn [em_attr m_attr m_text]. split; [|now left]. right. split; [exact Hs|]. now exists t. Qed.

Lemma em_text_parts W prec vb attrs it t : In (it_set it) [SNodeText; SCoords] -> parts_of_em W prec vb attrs it (em_text t).
Proof. intro Hs. split; [constructor|]. cbn [em_text m_attr m_text]. auto. Qed.

Lemma em_kids_parts W prec vb attrs it ks : Forall (written_for W prec vb attrs it) ks -> parts_of_em W prec vb attrs it (em_kids ks).
Proof. intro H. split; [exact H|]. cbn. auto. Qed.

Lemma emit_parts W prec vb ci ns nss attrs it m : emit W prec vb ci ns nss attrs (ws_of W prec vb attrs) it = Ok m ->
  parts_of_em W prec vb attrs it m.
Proof.
  unfold emit. intro H.
  set (v := get_value vb (obj_attr ci attrs (it_attr it)) (it_default it)) in *. cbv zeta in H.
  destruct (it_set it) eqn:Es;
    try (assert (Hk : ~ In (it_set it) [SObj; SObjs]) by (rewrite Es; cbn; intuition discriminate));
    try (assert (Ha : In (it_set it) [SAttrText; SAttrInt; SAttrFloat; SAttrEnum]) by (rewrite Es; cbn; tauto));
    try (assert (Ht : In (it_set it) [SNodeText; SCoords]) by (rewrite Es; cbn; tauto)).
  - destruct v; try discriminate H; [injection H as <-; apply em0_parts|]. destruct (uempty s); injection H as <-; [apply em0_parts|now apply em_text_parts].
  - destruct v; try discriminate H; [injection H as <-; apply em0_parts|]. destruct (uempty s); injection H as <-; [apply em0_parts|now apply em_kid_parts].
  - destruct v; try discriminate H; [injection H as <-; apply em0_parts|]. destruct (uempty s); injection H as <-; [apply em0_parts|now apply em_attr_parts].
  - destruct v as [|b|[z|f]| | | | | | | | |]; try discriminate H; [injection H as <-; apply em0_parts|injection H as <-; now apply em_kid_parts|].
    apply bind_ok in H as [t [_ H]]. injection H as <-. now apply em_kid_parts.
  - destruct v; try (injection H as <-; apply em0_parts); apply bind_ok in H as [t [_ H]]; injection H as <-; now apply em_kid_parts.
  - destruct v; try (injection H as <-; apply em0_parts); apply bind_ok in H as [t [_ H]]; injection H as <-; now apply em_attr_parts.
  - destruct v; try (injection H as <-; apply em0_parts); apply bind_ok in H as [t [_ H]]; injection H as <-; now apply em_kid_parts.
  - destruct v; try (injection H as <-; apply em0_parts); apply bind_ok in H as [t [_ H]]; injection H as <-; now apply em_attr_parts.
  - destruct v; try discriminate H; injection H as <-; [apply em0_parts|now apply em_kid_parts].
  - destruct v; try discriminate H; injection H as <-; [apply em0_parts|now apply em_attr_parts].
  - destruct v; try discriminate H; injection H as <-; [apply em0_parts|now apply em_kid_parts].
  - destruct v; try discriminate H; [injection H as <-; apply em0_parts|]. apply bind_ok in H as [ks [Hks H]]. injection H as <-.
    apply em_kids_parts. eapply text_kids_for; [rewrite Es; cbn; tauto| |exact Hks].
    intros x t Hx ->. apply in_map_iff in Hx as [o [E _]]. injection E as <-. destruct o; cbn [fst]; eexists; reflexivity.
  - destruct v; try discriminate H; [injection H as <-; apply em0_parts|]. apply bind_ok in H as [ks [Hks H]]. injection H as <-.
    apply em_kids_parts. eapply text_kids_for; [rewrite Es; cbn; tauto| |exact Hks].
    intros x t Hx ->. apply in_map_iff in Hx as [o [E _]]. apply bind_ok in E as [t' [_ E]]. injection E as <-. cbn [fst]. eexists; reflexivity.
  - destruct (obj_attr ci attrs (it_attr it)); try discriminate H; [injection H as <-; apply em0_parts|].
    match type of H with (if ?b then _ else _) = _ => destruct b end; [injection H as <-; apply em0_parts|].
    apply bind_ok in H as [t [_ H]]. injection H as <-. now apply em_text_parts.
  - apply bind_ok in H as [b [_ H]]. destruct b; [|injection H as <-; apply em0_parts]. rewrite sget_ws_of in H.
    destruct (sget (it_attr it) attrs) as [x|] eqn:Ex; [|discriminate H]. cbn [option_map w_attr] in H.
    apply bind_ok in H as [k [Hk H]]. injection H as <-. apply em_kids_parts. constructor; [|constructor]. unfold written_for. rewrite Es. now exists x.
  - rewrite sget_ws_of in H. destruct (sget (it_attr it) attrs) as [x|] eqn:Ex; [|injection H as <-; apply em0_parts]. cbn [w_attr] in H.
    destruct x; try discriminate H; [injection H as <-; apply em0_parts|]. apply bind_ok in H as [ks [Hks H]]. injection H as <-.
    apply em_kids_parts. apply objs_kids_for in Hks. eapply Forall_impl; [|exact Hks]. intros k [v' [Hv Ev]]. unfold written_for. rewrite Es. now exists l, v'.
Qed.

(** ** One attribute edited *)

Definition start_elem (ci : class_info) (ns : ustr) : elem :=
  if ci_root ci then root_elem ns (u (ci_tag ci)) else new_elem (ns ++ u (ci_tag ci)).

Lemma etree_written W prec vb c ci ns nss attrs e : class_of W c = Some ci ->
  etree W prec vb (VObj c ns nss attrs) = Ok e <->
  exists ms, map_res (emit W prec vb ci ns nss attrs (ws_of W prec vb attrs)) (written_items W c ci) = Ok ms /\
             e = fold_left (fun e m => apply_em m e) ms (start_elem ci ns).
Proof.
  intro Hc. rewrite etree_obj. unfold write_with, written_items, start_elem. rewrite Hc. destruct (ci_root ci).
  - rewrite set_element_emit. cbn [map_res]. destruct (emit W prec vb ci ns nss attrs (ws_of W prec vb attrs) root_item) as [m|er]; cbn [bind]; split.
    + intro H. injection H as <-. exists [m]. split; reflexivity.
    + intros [ms [H ->]]. injection H as <-. reflexivity.
    + discriminate.
    + intros [ms [H _]]. discriminate H.
  - rewrite set_elements_emit. split.
    + intro H. apply bind_ok in H as [ms [Hms H]]. injection H as <-. now exists ms.
    + intros [ms [-> ->]]. reflexivity.
Qed.

Lemma concerns_dec ci a it : concerns ci a it \/ (it_attr it <> a /\ (ci_geom ci <> GkTrack \/ a <> "track_items")).
Proof.
  unfold concerns. destruct (String.eqb_spec (it_attr it) a); [now left; left|].
  destruct (String.eqb_spec a "track_items"); [|right; auto]. destruct (ci_geom ci) eqn:E; try (right; split; [assumption|left; discriminate]). left. right. auto.
Qed.

Lemma emit_edit W prec vb ci ns nss attrs a x it : it_attr it <> a -> (ci_geom ci <> GkTrack \/ a <> "track_items") ->
  emit W prec vb ci ns nss (sset a x attrs) (ws_of W prec vb (sset a x attrs)) it = emit W prec vb ci ns nss attrs (ws_of W prec vb attrs) it.
Proof.
  intros Ha Ht.
  assert (E : sget (it_attr it) (sset a x attrs) = sget (it_attr it) attrs).
  { rewrite sget_sset. destruct (String.eqb_spec (it_attr it) a); [contradiction|reflexivity]. }
  assert (Eo : obj_attr ci (sset a x attrs) (it_attr it) = obj_attr ci attrs (it_attr it)).
  { unfold obj_attr. rewrite E. destruct (sget (it_attr it) attrs); [reflexivity|]. destruct (ci_geom ci); try reflexivity.
    destruct Ht as [Ht|Ht]; [now destruct Ht|]. rewrite sget_sset. destruct (String.eqb_spec "track_items" a); [subst; now destruct Ht|reflexivity]. }
  unfold emit. now rewrite Eo, !sget_ws_of, E.
Qed.

Lemma uget_uset_both {A} k k' (v : A) l l' : uget k l = uget k l' -> uget k (uset k' v l) = uget k (uset k' v l').
Proof.
  intro H. assert (S : forall l0, uget k (uset k' v l0) = if ueqb k k' then Some v else uget k l0).
  { clear. induction l0 as [|[a b] l0 IH]; cbn; [now destruct (ueqb k k')|]. destruct (ueqb k' a) eqn:Ea; cbn.
    - apply ueqb_eq in Ea. subst. now destruct (ueqb k a).
    - rewrite IH. destruct (ueqb k a) eqn:E; [|reflexivity]. apply ueqb_eq in E. subst. destruct (ueqb a k') eqn:E; [|reflexivity].
      apply ueqb_eq in E. subst. now rewrite ueqb_refl in Ea. }
  now rewrite !S, H.
Qed.

Lemma uset_fold_both (l : list (ustr * ustr)) : forall k acc acc', uget k acc = uget k acc' ->
  uget k (fold_left (fun acc kv => uset (fst kv) (snd kv) acc) l acc) = uget k (fold_left (fun acc kv => uset (fst kv) (snd kv) acc) l acc').
Proof. induction l as [|[k0 v0] l IH]; intros k acc acc' H; cbn [fold_left]; [exact H|]. apply IH. now apply uget_uset_both. Qed.

Theorem edit_local W prec vb c ci ns nss attrs a x e e' : class_of W c = Some ci ->
  etree W prec vb (VObj c ns nss attrs) = Ok e -> etree W prec vb (VObj c ns nss (sset a x attrs)) = Ok e' ->
  same_but W prec vb c ci a attrs (sset a x attrs) e e'.
Proof.
  intros Hc He He'. apply (etree_written _ _ _ _ _ _ _ _ _ Hc) in He as [ms [Hm ->]]. apply (etree_written _ _ _ _ _ _ _ _ _ Hc) in He' as [ms' [Hm' ->]].
  set (its := written_items W c ci) in *. apply map_res_ok in Hm. apply map_res_ok in Hm'.
  assert (P : Forall2 (fun it mm => parts_of_em W prec vb attrs it (fst mm) /\ parts_of_em W prec vb (sset a x attrs) it (snd mm) /\ (fst mm = snd mm \/ concerns ci a it)) its (combine ms ms') /\
              length ms = length ms').
  { clear -Hm Hm'. revert ms' Hm'. induction Hm as [|it m its ms Hi _ IH]; intros ms' Hm'; inversion Hm' as [|? m' ? ms1 Hi' Hr]; subst; [split; [constructor|reflexivity]|].
    destruct (IH _ Hr) as [F L]. cbn [combine length]. split; [|congruence]. constructor; [|exact F]. cbn [fst snd].
    split; [now apply emit_parts in Hi|]. split; [now apply emit_parts in Hi'|]. destruct (concerns_dec ci a it) as [D|[D1 D2]]; [now right|left].
    rewrite emit_edit in Hi' by assumption. congruence. }
  destruct P as [P L].
  assert (E1 : ms = map fst (combine ms ms')) by (clear -L; revert ms' L; induction ms as [|m ms IH]; intros [|m' ms'] L; try discriminate; [reflexivity|]; cbn; f_equal; apply IH; now injection L).
  assert (E2 : ms' = map snd (combine ms ms')) by (clear -L; revert ms' L; induction ms as [|m ms IH]; intros [|m' ms'] L; try discriminate; [reflexivity|]; cbn; f_equal; apply IH; now injection L).
  clear Hm Hm' L. set (mms := combine ms ms') in *. clearbody mms. subst ms ms'.
  constructor.
  - now rewrite !fold_tag.
  - exists (combine (combine its (map (fun mm => m_kids (fst mm)) mms)) (map (fun mm => m_kids (snd mm)) mms)). rewrite !fold_kids.
    assert (K : e_kids (start_elem ci ns) = []) by (unfold start_elem, root_elem; destruct (ci_root ci), (uempty ns); reflexivity). rewrite K. cbn [app]. clear K.
    fold its. clearbody its. induction P as [|it [m m'] its mms [A [B C]] _ IH]; [repeat split; constructor|]. destruct IH as [I1 [I2 [I3 I4]]]. cbn [map combine concat fst snd] in *.
    split; [now rewrite I1|]. split; [now rewrite I2|]. split; [now rewrite I3|]. constructor; [|exact I4].
    split; [apply A|]. split; [apply B|]. destruct C as [->|C]; [now left|now right].
  - intro key. rewrite !fold_attrib. fold its. clearbody its.
    cut (forall acc acc', uget key acc = uget key acc' ->
      (uget key (fold_left (fun acc kv => uset (fst kv) (snd kv) acc) (concat (map m_attr (map fst mms))) acc) =
       uget key (fold_left (fun acc kv => uset (fst kv) (snd kv) acc) (concat (map m_attr (map snd mms))) acc')) \/
      (exists it, In it its /\ concerns ci a it /\ In (it_set it) [SAttrText; SAttrInt; SAttrFloat; SAttrEnum] /\ key = u (it_node it))).
    { intro Cut. now apply Cut. }
    induction P as [|it [m m'] its mms [A [B C]] _ IH]; intros acc acc' Hacc; [now left|]. cbn [map concat fst snd] in *. rewrite !fold_left_app.
    assert (D : uget key (fold_left (fun acc kv => uset (fst kv) (snd kv) acc) (m_attr m) acc) = uget key (fold_left (fun acc kv => uset (fst kv) (snd kv) acc) (m_attr m') acc') \/
                (concerns ci a it /\ In (it_set it) [SAttrText; SAttrInt; SAttrFloat; SAttrEnum] /\ key = u (it_node it))).
    { destruct C as [->|C]; [left; now apply uset_fold_both|]. destruct (ueqb key (u (it_node it))) eqn:Ek.
      - apply ueqb_eq in Ek. destruct A as [_ [[A|[A _]] _]]; [|right; auto]. destruct B as [_ [[B|[B _]] _]]; [|right; auto]. rewrite A, B. now left.
      - left. assert (T : forall l acc0 : list (ustr * ustr), (l = [] \/ (In (it_set it) [SAttrText; SAttrInt; SAttrFloat; SAttrEnum] /\ exists t, l = [(u (it_node it), t)])) -> uget key (fold_left (fun acc kv => uset (fst kv) (snd kv) acc) l acc0) = uget key acc0).
        { intros l acc0 [->|[_ [t ->]]]; [reflexivity|]. cbn [fold_left fst snd]. clear -Ek. induction acc0 as [|[k0 v0] acc0 IH]; cbn; [now rewrite Ek|].
          destruct (ueqb (u (it_node it)) k0) eqn:E0; cbn; [apply ueqb_eq in E0; rewrite <- E0; now rewrite Ek|]. now rewrite IH. }
        rewrite (T _ _ (proj1 (proj2 A))), (T _ _ (proj1 (proj2 B))). exact Hacc. }
    destruct D as [D|[D1 [D2 D3]]]; [|right; exists it; split; [now left|auto]].
    destruct (IH _ _ D) as [I|[it' [I1 I2]]]; [now left|]. right. exists it'. split; [now right|exact I2].
  - rewrite !fold_text. fold its. clearbody its.
    cut (forall t t', t = t' ->
      (fold_left (fun t m => match m_text m with Some y => Some y | None => t end) (map fst mms) t =
       fold_left (fun t m => match m_text m with Some y => Some y | None => t end) (map snd mms) t') \/
      (exists it, In it its /\ concerns ci a it /\ In (it_set it) [SNodeText; SCoords])).
    { intro Cut. now apply Cut. }
    induction P as [|it [m m'] its mms [A [B C]] _ IH]; intros t t' Ht; [now left|]. cbn [map fold_left fst snd] in *. subst t'.
    assert (D : m_text m = m_text m' \/ (concerns ci a it /\ In (it_set it) [SNodeText; SCoords])).
    { destruct C as [->|C]; [now left|]. destruct A as [_ [_ [A|A]]]; [|right; auto]. destruct B as [_ [_ [B|B]]]; [|right; auto]. left. congruence. }
    destruct D as [D|D]; [|right; exists it; split; [now left|exact D]]. rewrite D.
    destruct (IH (match m_text m' with Some y => Some y | None => t end) _ eq_refl) as [I|[it' [I1 I2]]]; [now left|]. right. exists it'. split; [now right|exact I2].
Qed.

(** ** A part replaced at some depth *)

Lemma objs_kids_replace W prec vb l1 v v' l2 k k' ks : py_bool W v = Ok true -> py_bool W v' = Ok true ->
  etree W prec vb v = Ok k -> etree W prec vb v' = Ok k' ->
  objs_kids W (map (fun y => (y, etree W prec vb y)) (l1 ++ v :: l2)) = Ok ks ->
  exists b a, ks = b ++ k :: a /\ objs_kids W (map (fun y => (y, etree W prec vb y)) (l1 ++ v' :: l2)) = Ok (b ++ k' :: a).
Proof.
  intros Hb Hb' Hk Hk'. revert ks. induction l1 as [|y l1 IH]; intros ks H; cbn [app map objs_kids] in *.
  - rewrite Hb, Hk in H. rewrite Hb', Hk'. cbn [bind] in *. destruct (objs_kids W (map (fun y => (y, etree W prec vb y)) l2)) as [r|]; [|discriminate H].
    cbn [bind] in *. injection H as <-. exists [], r. auto.
  - destruct (py_bool W y) as [[|]|]; cbn [bind] in *; [| |discriminate H].
    + destruct (etree W prec vb y) as [ky|]; [|discriminate H]. cbn [bind] in *. apply bind_ok in H as [r [Hr H]]. injection H as <-.
      destruct (IH _ Hr) as [b [a [-> E]]]. rewrite E. cbn [bind]. exists (ky :: b), a. auto.
    + destruct (IH _ H) as [b [a [-> E]]]. now exists b, a.
Qed.

(** The other registrations write what they wrote. *)
Lemma emits_replace W prec vb ci ns nss attrs it x b s s' a its ms : In it its -> NoDup (map it_attr its) -> (ci_geom ci = GkTrack -> it_attr it <> "track_items") ->
  (exists m, emit W prec vb ci ns nss attrs (ws_of W prec vb attrs) it = Ok m /\ m = em_kids (b ++ s ++ a)) ->
  emit W prec vb ci ns nss (sset (it_attr it) x attrs) (ws_of W prec vb (sset (it_attr it) x attrs)) it = Ok (em_kids (b ++ s' ++ a)) ->
  map_res (emit W prec vb ci ns nss attrs (ws_of W prec vb attrs)) its = Ok ms ->
  exists p q, ms = p ++ em_kids (b ++ s ++ a) :: q /\
    map_res (emit W prec vb ci ns nss (sset (it_attr it) x attrs) (ws_of W prec vb (sset (it_attr it) x attrs))) its = Ok (p ++ em_kids (b ++ s' ++ a) :: q).
Proof.
  intros Hit Hn Ht [m [Hm ->]] Hm' H. revert ms H. induction its as [|j its IH]; intros ms H; [destruct Hit|].
  cbn [map_res] in *. apply bind_ok in H as [m1 [H1 H]]. apply bind_ok in H as [r [Hr H]]. injection H as <-. cbn [map] in Hn. inversion Hn as [|? ? Hj Hn']; subst.
  assert (Ht' : ci_geom ci <> GkTrack \/ it_attr it <> "track_items") by (destruct (ci_geom ci); try (left; discriminate); right; now apply Ht).
  assert (Srest : forall l, ~ In (it_attr it) (map it_attr l) -> forall r, map_res (emit W prec vb ci ns nss attrs (ws_of W prec vb attrs)) l = Ok r ->
    map_res (emit W prec vb ci ns nss (sset (it_attr it) x attrs) (ws_of W prec vb (sset (it_attr it) x attrs))) l = Ok r).
  { induction l as [|i l IHl]; intros Hni r0 H0; cbn [map_res map] in *; [exact H0|]. apply bind_ok in H0 as [m0 [E0 H0]]. apply bind_ok in H0 as [r1 [E1 H0]].
    rewrite emit_edit by (try assumption; intro E; apply Hni; left; exact E). rewrite E0. cbn [bind]. rewrite (IHl (fun X => Hni (or_intror X)) _ E1). exact H0. }
  destruct Hit as [->|Hit].
  - rewrite Hm in H1. injection H1 as <-. rewrite Hm'. cbn [bind]. rewrite (Srest _ Hj _ Hr). cbn [bind]. exists [], r. auto.
  - destruct (IH Hit Hn' _ Hr) as [p [q [-> E]]]. rewrite E. rewrite emit_edit.
    + rewrite H1. cbn [bind]. exists (m1 :: p), q. auto.
    + intro X. apply Hj. rewrite X. now apply in_map.
    + exact Ht'.
Qed.

Lemma fold_apply_replace p q b s s' a e0 :
  exists tag attrib text before after,
    fold_left (fun e m => apply_em m e) (p ++ em_kids (b ++ s ++ a) :: q) e0 = Elem tag attrib text (before ++ s ++ after) /\
    fold_left (fun e m => apply_em m e) (p ++ em_kids (b ++ s' ++ a) :: q) e0 = Elem tag attrib text (before ++ s' ++ after).
Proof.
  rewrite !fold_left_app. cbn [fold_left]. destruct (fold_left (fun e m => apply_em m e) p e0) as [t at_ x c]. cbn [apply_em em_kids m_attr m_text m_kids fold_left].
  rewrite !(app_assoc c b). set (bf := c ++ b). clearbody bf. clear p b c e0.
  revert t at_ x bf a. induction q as [|m q IH]; intros t at_ x bf a; [cbn [fold_left]; exists t, at_, x, bf, a; auto|].
  cbn [fold_left apply_em]. rewrite <- !app_assoc. apply IH.
Qed.

Lemma track_items_free W ci its : class_facts W ci its -> ci_geom ci = GkTrack -> ~ In "track_items" (map it_attr its).
Proof.
  intros F Hg. assert (T := cf_track _ _ _ F). unfold track_ok, is_track in T. rewrite Hg in T. rewrite !andb_true_iff in T.
  destruct T as [[[[[T _] _] _] _] _]. apply existsb_exists in T as [[a k] [Hin T]]. cbn [fst snd] in T. apply andb_prop in T as [Ta Tk].
  apply seqb_eq in Ta. subst a. destruct k; try discriminate Tk. destruct (cf_kind _ _ _ F _ Hin) as [K _]. cbn [fst snd] in K.
  apply find_item_None. destruct (find_item "track_items" its) as [it|]; [discriminate K|reflexivity].
Qed.

(** The registrations written are those of the class, or write the same. *)
Lemma written_same W ci c it : class_facts W ci (items_of W c) -> In it (items_of W c) ->
  exists j, In j (written_items W c ci) /\ it_attr j = it_attr it /\ NoDup (map it_attr (written_items W c ci)) /\
    (In (it_set it) [SObj; SObjs] -> it_set j = it_set it) /\ (ci_geom ci = GkTrack -> it_attr j <> "track_items").
Proof.
  intros F Hit. unfold written_items. assert (R := cf_root _ _ _ F). unfold root_ok in R.
  assert (Ht : ci_geom ci = GkTrack -> it_attr it <> "track_items").
  { intros Hg E. apply (track_items_free _ _ _ F Hg). rewrite <- E. now apply in_map. }
  destruct (ci_root ci).
  - destruct (items_of W c) as [|i [|]]; try discriminate R. destruct Hit as [->|[]]. apply andb_prop in R as [Ra Rs]. apply seqb_eq in Ra.
    exists root_item. split; [now left|]. split; [now rewrite Ra|]. split; [constructor; [intros []|constructor]|]. split; [destruct (it_set it); try discriminate Rs; reflexivity|discriminate].
  - exists it. split; [exact Hit|]. split; [reflexivity|]. split; [exact (cf_attrs _ _ _ F)|]. split; [reflexivity|exact Ht].
Qed.

Lemma replaced_kid W prec vb c ci ns nss attrs j x b s s' a e : class_of W c = Some ci -> In j (written_items W c ci) -> NoDup (map it_attr (written_items W c ci)) ->
  (ci_geom ci = GkTrack -> it_attr j <> "track_items") ->
  (forall m, emit W prec vb ci ns nss attrs (ws_of W prec vb attrs) j = Ok m -> m = em_kids (b ++ s ++ a)) ->
  emit W prec vb ci ns nss (sset (it_attr j) x attrs) (ws_of W prec vb (sset (it_attr j) x attrs)) j = Ok (em_kids (b ++ s' ++ a)) ->
  etree W prec vb (VObj c ns nss attrs) = Ok e ->
  exists e', etree W prec vb (VObj c ns nss (sset (it_attr j) x attrs)) = Ok e' /\
    exists tag attrib text before after, e = Elem tag attrib text (before ++ s ++ after) /\ e' = Elem tag attrib text (before ++ s' ++ after).
Proof.
  intros Hc Hj Hn Ht Hm Hm' He. apply (etree_written _ _ _ _ _ _ _ _ _ Hc) in He as [ms [Hms ->]].
  assert (D : exists m, emit W prec vb ci ns nss attrs (ws_of W prec vb attrs) j = Ok m).
  { clear -Hms Hj. apply map_res_ok in Hms. induction Hms as [|i m l ms Hi _ IH]; [destruct Hj|]. destruct Hj as [->|Hj]; [now exists m|auto]. }
  destruct D as [m Em]. destruct (emits_replace W prec vb ci ns nss attrs j x b s s' a _ _ Hj Hn Ht (ex_intro _ m (conj Em (Hm _ Em))) Hm' Hms) as [p [q [-> E]]].
  destruct (fold_apply_replace p q b s s' a (start_elem ci ns)) as [tag [at_ [t [bf [af [E1 E2]]]]]].
  exists (Elem tag at_ t (bf ++ s' ++ af)). split; [|exists tag, at_, t, bf, af; split; [exact E1|reflexivity]].
  apply (etree_written _ _ _ _ _ _ _ _ _ Hc). eexists. split; [exact E|]. now rewrite E2.
Qed.

Theorem replaced_instead W prec vb p p' k k' o o' : world_ok W = true -> etree W prec vb p = Ok k -> etree W prec vb p' = Ok k' ->
  replaced W p p' o o' -> forall e, etree W prec vb o = Ok e -> exists e', etree W prec vb o' = Ok e' /\ instead k k' e e'.
Proof.
  intros HW Hp Hp' H. induction H as [|c ns nss attrs it v v' Hit Hs Hv Hb Hb' _ IH|c ns nss attrs it l1 v v' l2 Hit Hs Hv Hb Hb' _ IH]; intros e He.
  - exists k'. split; [exact Hp'|]. rewrite Hp in He. injection He as <-. constructor.
  - destruct (class_of W c) as [ci|] eqn:Hc; [|rewrite etree_obj in He; unfold write_with in He; rewrite Hc in He; discriminate].
    assert (F := world_class _ _ _ HW Hc). destruct (written_same W ci c it F Hit) as [j [Hj [Ej [Hn [Sj Ht]]]]]. rewrite Hs in Sj. specialize (Sj (or_introl eq_refl)).
    assert (D : exists kv, etree W prec vb v = Ok kv).
    { destruct (proj1 (etree_written _ _ _ _ _ _ _ _ _ Hc) He) as [ms [Hms _]]. apply map_res_ok in Hms. clear -Hms Hj Sj Ej Hv Hb.
      induction Hms as [|i m l ms Hi _ IH]; [destruct Hj|]. destruct Hj as [->|Hj]; [|auto]. unfold emit, obj_attr in Hi. rewrite Sj, Ej, Hv, Hb in Hi. cbn [bind] in Hi.
      rewrite sget_ws_of, Hv in Hi. cbn [w_attr] in Hi. apply bind_ok in Hi as [kv [E _]]. now exists kv. }
    destruct D as [kv Ekv]. destruct (IH _ Ekv) as [kv' [Ekv' Hin]].
    destruct (replaced_kid W prec vb c ci ns nss attrs j v' [] [kv] [kv'] [] e Hc Hj Hn Ht) as [e' [He' [tag [at_ [t [bf [af [-> ->]]]]]]]].
    + intros m Hm. unfold emit, obj_attr in Hm. rewrite Sj, Ej, Hv, Hb in Hm. cbn [bind] in Hm. rewrite sget_ws_of, Hv in Hm. unfold w_attr in Hm. rewrite Ekv in Hm. cbn [bind] in Hm. now injection Hm as <-.
    + unfold emit, obj_attr. rewrite Sj, sget_ws_of, sget_sset, String.eqb_refl, Hb'. unfold w_attr. rewrite Ekv'. reflexivity.
    + exact He.
    + rewrite Ej in He'. eexists. split; [exact He'|]. now constructor.
  - destruct (class_of W c) as [ci|] eqn:Hc; [|rewrite etree_obj in He; unfold write_with in He; rewrite Hc in He; discriminate].
    assert (F := world_class _ _ _ HW Hc). destruct (written_same W ci c it F Hit) as [j [Hj [Ej [Hn [Sj Ht]]]]]. rewrite Hs in Sj. specialize (Sj (or_intror (or_introl eq_refl))).
    assert (D : exists ks, objs_kids W (map (fun y => (y, etree W prec vb y)) (l1 ++ v :: l2)) = Ok ks).
    { destruct (proj1 (etree_written _ _ _ _ _ _ _ _ _ Hc) He) as [ms [Hms _]]. apply map_res_ok in Hms. clear -Hms Hj Sj Ej Hv.
      induction Hms as [|i m l ms Hi _ IH]; [destruct Hj|]. destruct Hj as [->|Hj]; [|auto]. unfold emit in Hi. rewrite Sj, Ej in Hi.
      rewrite sget_ws_of, Hv in Hi. cbn [w_attr] in Hi. apply bind_ok in Hi as [ks [E _]]. now exists ks. }
    destruct D as [ks Eks].
    assert (D : exists kv, etree W prec vb v = Ok kv).
    { clear -Eks Hb. revert ks Eks. induction l1 as [|y l1 IH]; intros ks H; cbn [app map objs_kids] in H.
      - rewrite Hb in H. cbn [bind] in H. apply bind_ok in H as [kv [E _]]. now exists kv.
      - apply bind_ok in H as [b [_ H]]. destruct b; [|now apply IH in H]. apply bind_ok in H as [ky [_ H]]. apply bind_ok in H as [r [Hr _]]. now apply IH in Hr. }
    destruct D as [kv Ekv]. destruct (IH _ Ekv) as [kv' [Ekv' Hin]].
    destruct (objs_kids_replace _ _ _ _ _ _ _ _ _ _ Hb Hb' Ekv Ekv' Eks) as [b [a [-> Eks']]].
    destruct (replaced_kid W prec vb c ci ns nss attrs j (VList (l1 ++ v' :: l2)) b [kv] [kv'] a e Hc Hj Hn Ht) as [e' [He' [tag [at_ [t [bf [af [-> ->]]]]]]]].
    + intros m Hm. unfold emit in Hm. rewrite Sj, Ej, sget_ws_of, Hv in Hm. unfold w_attr in Hm. rewrite Eks in Hm. cbn [bind] in Hm. now injection Hm as <-.
    + unfold emit. rewrite Sj, sget_ws_of, sget_sset, String.eqb_refl. unfold w_attr. rewrite Eks'. reflexivity.
    + exact He.
    + rewrite Ej in He'. eexists. split; [exact He'|]. now constructor.
Qed.

(** What is replaced is a part, and has been written. *)
Lemma replaced_part W p p' o o' : replaced W p p' o o' -> part W o p.
Proof.
  intro H. induction H as [|c ns nss attrs it v v' Hit Hs Hv Hb Hb' _ IH|c ns nss attrs it l1 v v' l2 Hit Hs Hv Hb Hb' _ IH]; [constructor| |].
  - eapply part_attr; eassumption.
  - apply (part_member W c ns nss attrs it _ v _ Hit Hs Hv); [apply in_or_app; right; now left|exact Hb|exact IH].
Qed.

(** ** A member added to a list, or taken out *)

Lemma objs_kids_insert W prec vb l1 v l2 k ks : py_bool W v = Ok true -> etree W prec vb v = Ok k ->
  objs_kids W (map (fun y => (y, etree W prec vb y)) (l1 ++ l2)) = Ok ks ->
  exists b a, ks = b ++ a /\ objs_kids W (map (fun y => (y, etree W prec vb y)) (l1 ++ v :: l2)) = Ok (b ++ k :: a).
Proof.
  intros Hb Hk. revert ks. induction l1 as [|y l1 IH]; intros ks H; cbn [app map objs_kids] in *.
  - rewrite Hb, Hk. cbn [bind]. rewrite H. cbn [bind]. exists [], ks. auto.
  - destruct (py_bool W y) as [[|]|]; cbn [bind] in *; [| |discriminate H].
    + destruct (etree W prec vb y) as [ky|]; [|discriminate H]. cbn [bind] in *. apply bind_ok in H as [r [Hr H]]. injection H as <-.
      destruct (IH _ Hr) as [b [a [-> E]]]. rewrite E. cbn [bind]. exists (ky :: b), a. auto.
    + destruct (IH _ H) as [b [a [-> E]]]. now exists b, a.
Qed.

Theorem member_added W prec vb c ns nss attrs it l1 v l2 k e : world_ok W = true ->
  In it (items_of W c) -> it_set it = SObjs -> sget (it_attr it) attrs = Some (VList (l1 ++ l2)) ->
  py_bool W v = Ok true -> etree W prec vb v = Ok k ->
  etree W prec vb (VObj c ns nss attrs) = Ok e ->
  exists tag attrib text before after, e = Elem tag attrib text (before ++ after) /\
    etree W prec vb (VObj c ns nss (sset (it_attr it) (VList (l1 ++ v :: l2)) attrs)) = Ok (Elem tag attrib text (before ++ k :: after)).
Proof.
  intros HW Hit Hs Hl Hb Hk He.
  destruct (class_of W c) as [ci|] eqn:Hc; [|rewrite etree_obj in He; unfold write_with in He; rewrite Hc in He; discriminate].
  assert (F := world_class _ _ _ HW Hc). destruct (written_same W ci c it F Hit) as [j [Hj [Ej [Hn [Sj Ht]]]]]. rewrite Hs in Sj. specialize (Sj (or_intror (or_introl eq_refl))).
  assert (D : exists ks, objs_kids W (map (fun y => (y, etree W prec vb y)) (l1 ++ l2)) = Ok ks).
  { destruct (proj1 (etree_written _ _ _ _ _ _ _ _ _ Hc) He) as [ms [Hms _]]. apply map_res_ok in Hms. clear -Hms Hj Sj Ej Hl.
    induction Hms as [|i m l ms Hi _ IH]; [destruct Hj|]. destruct Hj as [->|Hj]; [|auto]. unfold emit in Hi. rewrite Sj, Ej in Hi.
    rewrite sget_ws_of, Hl in Hi. cbn [w_attr] in Hi. apply bind_ok in Hi as [ks [E _]]. now exists ks. }
  destruct D as [ks Eks]. destruct (objs_kids_insert _ _ _ _ _ _ _ _ Hb Hk Eks) as [b [a [-> Eks']]].
  destruct (replaced_kid W prec vb c ci ns nss attrs j (VList (l1 ++ v :: l2)) b [] [k] a e Hc Hj Hn Ht) as [e' [He' [tag [at_ [t [bf [af [-> ->]]]]]]]].
  - intros m Hm. unfold emit in Hm. rewrite Sj, Ej, sget_ws_of, Hl in Hm. unfold w_attr in Hm. rewrite Eks in Hm. cbn [bind] in Hm. now injection Hm as <-.
  - unfold emit. rewrite Sj, sget_ws_of, sget_sset, String.eqb_refl. unfold w_attr. rewrite Eks'. reflexivity.
  - exact He.
  - rewrite Ej in He'. exists tag, at_, t, bf, af. split; [reflexivity|exact He'].
Qed.
