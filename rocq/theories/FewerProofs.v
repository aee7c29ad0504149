(** * Proofs for C75. *)
From Coq Require Import String List NArith ZArith Bool Lia.
From Verif Require Import Ustr UstrProofs Res PyInt PyFloat PyDate Elem Value Geom Codec Spec EmitProofs CodecProofs ItemProofs RoundTrip NsProofs WriteProofs EditSpec EditProofs OnceProofs FewerSpec.
Import ListNotations.
Local Open Scope string_scope.
Local Open Scope list_scope.

Lemma fewer_app {A} (R : A -> A -> Prop) P a a' b b' : fewer R P a a' -> fewer R P b b' -> fewer R P (a ++ b) (a' ++ b').
Proof. induction 1; intro H'; [exact H'|cbn [app]; constructor; auto..]. Qed.
Lemma fewer_none {A} (R : A -> A -> Prop) (P : A -> Prop) l : (forall x, In x l -> P x) -> fewer R P [] l.
Proof. induction l as [|x l IH]; intro H; constructor; [apply H; now left|apply IH; intros y Hy; apply H; now right]. Qed.
Lemma fewer_same {A} (R : A -> A -> Prop) P l : (forall x, In x l -> R x x) -> fewer R P l l.
Proof. induction l as [|x l IH]; intro H; constructor; [apply H; now left|apply IH; intros y Hy; apply H; now right]. Qed.

Lemma within_refl e : within e e.
Proof.
  induction e as [t a x ks IH] using elem_ind'. constructor; [now apply fewer_same|now right|]. apply fewer_same. rewrite Forall_forall in IH. exact IH.
Qed.

Lemma Forall2_weaken {A B} (R R' : A -> B -> Prop) l l' : (forall a b, R a b -> R' a b) -> Forall2 R l l' -> Forall2 R' l l'.
Proof. intro H. induction 1; constructor; auto. Qed.

Definition em_fewer (m m' : em) : Prop :=
  fewer eq (fun _ => True) (m_attr m) (m_attr m') /\ (m_text m = None \/ m_text m = m_text m') /\ fewer within leaf (m_kids m) (m_kids m').

Lemma em_fewer_refl m : em_fewer m m.
Proof. split; [now apply fewer_same|]. split; [now right|]. apply fewer_same. intros; apply within_refl. Qed.
Lemma em_fewer0 m : (forall k, In k (m_kids m) -> leaf k) -> em_fewer em0 m.
Proof. intro H. split; [apply fewer_none; auto|]. split; [now left|]. now apply fewer_none. Qed.

Lemma text_kids_leaf l ks : text_kids l = Ok ks -> forall k, In k ks -> leaf k.
Proof.
  unfold text_kids. revert ks. induction l as [|r l IH]; intros ks E k Hk; cbn [map_res] in E; [apply ok_inj in E; subst; destruct Hk|].
  apply bind_ok in E as [k1 [Hk1 E]]. apply bind_ok in E as [ks' [Hks E]]. apply ok_inj in E. subst ks. destruct Hk as [<-|Hk]; [|now apply (IH ks')].
  apply bind_ok in Hk1 as [q [_ Hk1]]. apply ok_inj in Hk1. subst k1. exists (fst q), (snd q). reflexivity.
Qed.

Definition uses_value (it : item) : bool := match it_set it with SCoords | SObj | SObjs => false | _ => true end.

Lemma emit_leaf W prec vb ci ns nss attrs ws it m : uses_value it = true -> emit W prec vb ci ns nss attrs ws it = Ok m -> forall k, In k (m_kids m) -> leaf k.
Proof.
  intros Hu E k Hk. unfold uses_value in Hu. unfold emit in E.
  assert (L : forall t x, leaf (text_elem t (Some x))) by (intros t x; exists t, x; reflexivity).
  destruct (it_set it); try discriminate Hu; destruct (get_value vb _ _) as [ |b'|[z|f]|s|c' v|kk|c'|b' l|l|l|l|c' n ss at_]; try discriminate E;
    repeat match type of E with
    | (let! _ := _ in _) = Ok _ => apply bind_ok in E as [? [? E]]
    | Ok (if ?b then _ else _) = Ok _ => destruct b
    end; apply ok_inj in E; subst m; try (destruct Hk; fail); try (destruct Hk as [<-|[]]; apply L; fail); eapply text_kids_leaf; eauto.
Qed.

Lemma emit_none W prec vb ci ns nss attrs ws it : uses_value it = true -> get_value vb (obj_attr ci attrs (it_attr it)) (it_default it) = VNone ->
  emit W prec vb ci ns nss attrs ws it = Ok em0.
Proof. intros Hu E. unfold uses_value in Hu. unfold emit. rewrite E. destruct (it_set it); try discriminate Hu; reflexivity. Qed.

Lemma emit_same W prec vb vb' ci ns nss attrs ws ws' it : uses_value it = true ->
  get_value vb (obj_attr ci attrs (it_attr it)) (it_default it) = get_value vb' (obj_attr ci attrs (it_attr it)) (it_default it) ->
  emit W prec vb ci ns nss attrs ws it = emit W prec vb' ci ns nss attrs ws' it.
Proof. intros Hu E. unfold uses_value in Hu. unfold emit. rewrite E. destruct (it_set it); try discriminate Hu; reflexivity. Qed.

Section Two.
  Variables (W : world) (prec : option nat) (lo hi : verbosity).
  Hypothesis HW : world_ok W = true.
  Hypothesis Hv : forall v d, get_value lo v d = VNone \/ get_value lo v d = get_value hi v d.

  Definition shrinks (v : value) : Prop := forall e e', etree W prec lo v = Ok e -> etree W prec hi v = Ok e' -> within e e'.

  Lemma objs_fewer l : (forall y, In y l -> shrinks y) -> forall ks ks', objs_kids W (map (fun y => (y, etree W prec lo y)) l) = Ok ks -> objs_kids W (map (fun y => (y, etree W prec hi y)) l) = Ok ks' -> fewer within leaf ks ks'.
  Proof.
    induction l as [|y l IH]; intros H ks ks' E E'; cbn [map objs_kids] in E, E'; [apply ok_inj in E, E'; subst; constructor|].
    apply bind_ok in E as [b [B E]]. rewrite B in E'. cbn [bind] in E'. assert (H' : forall z, In z l -> shrinks z) by (intros z Hz; apply H; now right). destruct b; [|now apply IH].
    apply bind_ok in E as [k [Hk E]]. apply bind_ok in E as [r [Hr E]]. apply ok_inj in E. subst ks. apply bind_ok in E' as [k' [Hk' E']]. apply bind_ok in E' as [r' [Hr' E']]. apply ok_inj in E'. subst ks'.
    constructor; [apply (H y (or_introl eq_refl)); assumption|now apply IH].
  Qed.

  Lemma emit_fewer ci ns nss attrs it m m' :
    (forall a x, In (a, x) attrs -> shrinks x /\ match x with VList l => forall y, In y l -> shrinks y | _ => True end) ->
    emit W prec lo ci ns nss attrs (ws_of W prec lo attrs) it = Ok m -> emit W prec hi ci ns nss attrs (ws_of W prec hi attrs) it = Ok m' -> em_fewer m m'.
  Proof.
    intros H E E'. destruct (uses_value it) eqn:Hu.
    - destruct (Hv (obj_attr ci attrs (it_attr it)) (it_default it)) as [G|G].
      + rewrite (emit_none _ _ _ _ _ _ _ _ _ Hu G) in E. apply ok_inj in E. subst m. apply em_fewer0. exact (emit_leaf _ _ _ _ _ _ _ _ _ _ Hu E').
      + rewrite (emit_same _ _ _ _ _ _ _ _ _ (ws_of W prec hi attrs) _ Hu G), E' in E. apply ok_inj in E. subst m'. apply em_fewer_refl.
    - unfold uses_value in Hu. unfold emit in E, E'. destruct (it_set it); try discriminate Hu.
      + rewrite E in E'. apply ok_inj in E'. subst m'. apply em_fewer_refl.
      + apply bind_ok in E as [b [B E]]. rewrite B in E'. cbn [bind] in E'. destruct b; [|apply ok_inj in E, E'; subst; apply em_fewer_refl].
        rewrite sget_ws_of in E, E'. destruct (sget (it_attr it) attrs) as [x|] eqn:Q; [|discriminate]. unfold w_attr in E, E'.
        apply bind_ok in E as [k [Hk E]]. apply bind_ok in E' as [k' [Hk' E']]. apply ok_inj in E, E'. subst m m'. split; [constructor|]. split; [now left|].
        constructor; [|constructor]. apply (proj1 (H _ _ (EmitProofs.sget_In _ _ _ Q))); assumption.
      + rewrite sget_ws_of in E, E'. destruct (sget (it_attr it) attrs) as [x|] eqn:Q; [|apply ok_inj in E, E'; subst; apply em_fewer_refl]. unfold w_attr in E, E'.
        destruct x; try discriminate E; [apply ok_inj in E, E'; subst; apply em_fewer_refl|].
        apply bind_ok in E as [ks [Hks E]]. apply bind_ok in E' as [ks' [Hks' E']]. apply ok_inj in E, E'. subst m m'. split; [constructor|]. split; [now left|].
        exact (objs_fewer _ (proj2 (H _ _ (EmitProofs.sget_In _ _ _ Q))) _ _ Hks Hks').
  Qed.

  Lemma parts_attr vb attrs it m : parts_of_em W prec vb attrs it m -> RoundTrip.attr_of it m.
  Proof.
    intros [_ [[H|[Hs [t Ht]]] _]]; [now left|]. right. exists t. split; [exact Ht|]. unfold item_attrs. destruct Hs as [<-|[<-|[<-|[<-|[]]]]]; reflexivity.
  Qed.
  Lemma parts_text vb attrs it m : parts_of_em W prec vb attrs it m -> item_texts it = [] -> m_text m = None.
  Proof. intros [_ [_ [H|H]]] E; [exact H|]. unfold item_texts in E. destruct H as [H|[H|[]]]; rewrite <- H in E; discriminate E. Qed.

  Lemma texts_none vb attrs its ms : Forall2 (parts_of_em W prec vb attrs) its ms -> concat (map item_texts its) = [] ->
    forall t, fold_left (fun t m => match m_text m with Some y => Some y | None => t end) ms t = t.
  Proof.
    induction 1 as [|it m its ms Hm _ IH]; intros E t; [reflexivity|]. cbn [map concat] in E. apply app_eq_nil in E as [E1 E2]. cbn [fold_left]. rewrite (parts_text _ _ _ _ Hm E1). now apply IH.
  Qed.

  Lemma texts_fewer vb vb' attrs its ms ms' : Forall2 (parts_of_em W prec vb attrs) its ms -> Forall2 (parts_of_em W prec vb' attrs) its ms' -> Forall2 em_fewer ms ms' ->
    (length (concat (map item_texts its)) <= 1)%nat ->
    let fin ms := fold_left (fun t m => match m_text m with Some y => Some y | None => t end) ms None in fin ms = None \/ fin ms = fin ms'.
  Proof.
    intros P P' F L fin. revert ms' P' F. induction P as [|it m its ms Hm P IH]; intros ms' P' F; [now left|].
    inversion P' as [|? m' ? ms1 Hm' P1]; subst. inversion F as [|? ? ? ? Hf F1]; subst. unfold fin. cbn [fold_left]. cbn [map concat] in L. destruct (item_texts it) as [|x xs] eqn:Ex.
    - rewrite (parts_text _ _ _ _ Hm Ex), (parts_text _ _ _ _ Hm' Ex). now apply IH.
    - assert (N : concat (map item_texts its) = []) by (cbn in L; rewrite app_length in L; destruct (concat (map item_texts its)); [reflexivity|cbn in L; lia]).
      rewrite (texts_none _ _ _ _ P N), (texts_none _ _ _ _ P1 N). destruct Hf as [_ [[H|H] _]]; rewrite H; [now left|now right].
  Qed.

  Lemma shrinks_all v : shrinks v /\ match v with VList l => forall y, In y l -> shrinks y | _ => True end.
  Proof.
    induction v as [ | | | | | | | | | |l IH|c ns nss attrs IH] using value_ind'; try (split; [intros e e' E; discriminate E|exact I]).
    - rewrite Forall_forall in IH. split; [intros e e' E; discriminate E|]. intros y Hy. exact (proj1 (IH y Hy)).
    - split; [|exact I]. rewrite Forall_forall in IH. intros e e' E E'.
      assert (Hs : forall a x, In (a, x) attrs -> shrinks x /\ match x with VList l => forall y, In y l -> shrinks y | _ => True end) by (intros a x Hx; exact (IH _ Hx)). clear IH.
      destruct (class_of W c) as [ci|] eqn:Hc; [|rewrite etree_obj in E; unfold write_with in E; rewrite Hc in E; discriminate E].
      apply (etree_written _ _ _ _ _ _ _ _ _ Hc) in E as [ms [Hm ->]]. apply (etree_written _ _ _ _ _ _ _ _ _ Hc) in E' as [ms' [Hm' ->]].
      assert (F := world_class W c ci HW Hc). apply map_res_ok in Hm. apply map_res_ok in Hm'.
      assert (P : Forall2 (parts_of_em W prec lo attrs) (written_items W c ci) ms) by (eapply Forall2_weaken; [|exact Hm]; intros it0 m0 Q0; exact (emit_parts _ _ _ _ _ _ _ _ _ Q0)).
      assert (P' : Forall2 (parts_of_em W prec hi attrs) (written_items W c ci) ms') by (eapply Forall2_weaken; [|exact Hm']; intros it0 m0 Q0; exact (emit_parts _ _ _ _ _ _ _ _ _ Q0)).
      assert (R : Forall2 em_fewer ms ms').
      { clear P P'. revert ms' Hm'. induction Hm as [|it m its ms Hi _ IH]; intros ms' Hm'; inversion Hm' as [|? m' ? ms1 Hi' Hr]; subst; constructor; [eapply emit_fewer; eassumption|now apply IH]. }
      clear Hm Hm' Hs.
      assert (X : NoDup (concat (map item_attrs (written_items W c ci))) /\ (length (concat (map item_texts (written_items W c ci))) <= 1)%nat /\ (e_attrib (start_elem ci ns) = [] \/ (ci_root ci = true /\ concat (map item_attrs (written_items W c ci)) = []))).
      { unfold written_items, start_elem. destruct (ci_root ci); [split; [constructor|split; [cbn; lia|right; now split]]|]. split; [exact (cf_xattrs _ _ _ F)|]. split; [exact (cf_texts _ _ _ F)|now left]. }
      destruct X as [X1 [X2 X3]].
      assert (A : forall vb ms0, Forall2 (parts_of_em W prec vb attrs) (written_items W c ci) ms0 -> e_attrib (fold_left (fun e m => apply_em m e) ms0 (start_elem ci ns)) = e_attrib (start_elem ci ns) ++ concat (map m_attr ms0)).
      { intros vb ms0 Q. rewrite fold_attrib. assert (Q' : Forall2 RoundTrip.attr_of (written_items W c ci) ms0) by (eapply Forall2_weaken; [|exact Q]; intros it0 m0 Q0; exact (parts_attr _ _ _ _ Q0)). destruct X3 as [X3|[_ X3]].
        - rewrite X3. apply uset_fold. cbn [app]. now apply (attrs_nodup (written_items W c ci)).
        - assert (N : concat (map m_attr ms0) = []).
          { assert (K := attrs_keys _ _ Q'). rewrite X3 in K. destruct (concat (map m_attr ms0)) as [|kv r]; [reflexivity|]. destruct (K (fst kv) (or_introl eq_refl)) as [nm [_ []]]. }
          rewrite N. cbn [fold_left]. now rewrite app_nil_r. }
      assert (T := texts_fewer _ _ _ _ _ _ P P' R X2). cbv zeta in T.
      assert (S0 : e_text (start_elem ci ns) = None /\ e_kids (start_elem ci ns) = []) by (unfold start_elem, root_elem; destruct (ci_root ci), (uempty ns); now split). destruct S0 as [S1 S2].
      assert (Tg := fold_tag ms (start_elem ci ns)). assert (Tg' := fold_tag ms' (start_elem ci ns)).
      assert (Tx := fold_text ms (start_elem ci ns)). assert (Tx' := fold_text ms' (start_elem ci ns)). rewrite S1 in Tx, Tx'.
      assert (Kd := fold_kids ms (start_elem ci ns)). assert (Kd' := fold_kids ms' (start_elem ci ns)). rewrite S2 in Kd, Kd'. cbn [app] in Kd, Kd'.
      assert (At := A _ _ P). assert (At' := A _ _ P').
      destruct (fold_left _ ms (start_elem ci ns)) as [t a x ks]. destruct (fold_left _ ms' (start_elem ci ns)) as [t' a' x' ks']. cbn [e_tag e_attrib e_text e_kids] in *. rewrite Tg, Tg', At, At', Kd, Kd'.
      constructor.
      + apply fewer_app; [now apply fewer_same|]. clear -R. induction R as [|m m' ms ms' [H _] _ IH]; [constructor|]. cbn [map concat]. now apply fewer_app.
      + rewrite Tx, Tx'. exact T.
      + clear -R. induction R as [|m m' ms ms' [_ [_ H]] _ IH]; [constructor|]. cbn [map concat]. now apply fewer_app.
  Qed.
End Two.

Theorem verbosity_adds W prec lo hi v e e' : world_ok W = true ->
  lo = Terse \/ (lo = Normal /\ hi = Verbose) -> hi = Normal \/ hi = Verbose ->
  etree W prec lo v = Ok e -> etree W prec hi v = Ok e' -> within e e'.
Proof.
  intros HW Hl Hh. apply (shrinks_all W prec lo hi HW). intros x d.
  destruct Hl as [->|[-> ->]].
  - cbn [get_value]. destruct (scalar_eq x d) eqn:E; [now left|]. destruct Hh as [->| ->]; cbn [get_value]; [now right|].
    destruct x; cbn [is_none andb]; auto.
  - cbn [get_value]. destruct x; cbn [is_none andb]; auto.
Qed.

(** ** Success *)

Definition default_writes (it : item) : bool :=
  match it_set it, it_default it with
  | (SCoords | SObj | SObjs), _ => true
  | _, VNone => true
  | (SNodeText | SText | SAttrText), VStr _ => true
  | SBool, VBool _ => true
  | (SInt | SFloat | SAttrInt | SAttrFloat), d => is_ok (str_value d)
  | (SEnum | SAttrEnum), VEnum _ _ => true
  | SDate, VDate _ => true
  | _, _ => false
  end.
Definition from_items (ci : class_info) (it : item) : bool := is_track ci && mem (it_attr it) track_attrs.
Definition defaults_write (W : world) : bool := forallb (fun cc => forallb (fun it => default_writes it || from_items (snd cc) it) (items_of W (fst cc))) (w_classes W).

(** The times, positions and angles of a track are never [None]. *)
Lemma track_held W c ci attrs it : class_facts W ci (items_of W c) -> shape_ok ci attrs = true -> forallb (attr_typed W ci (items_of W c)) attrs = true ->
  from_items ci it = true -> obj_attr ci attrs (it_attr it) <> VNone.
Proof.
  intros F Hs Ha Hf. unfold from_items in Hf. apply andb_prop in Hf as [Ht Hm]. apply mem_In in Hm.
  assert (K := cf_track _ _ _ F). unfold track_ok in K. rewrite Ht, !andb_true_iff in K. destruct K as [[[[[K0 _] _] _] _] K5].
  destruct (shape_inv _ _ Hs) as [xs [E [Nd Hx]]]. rewrite forallb_forall in K5. specialize (K5 _ Hm). apply andb_prop in K5 as [P1 P2]. apply negb_true_iff in P2.
  assert (N : forall a, In a (map fst (ctor_attrs ci)) -> existsb (fun ak : string * ckind => String.eqb a (fst ak)) (ctor_attrs ci) = true).
  { intros a Hin. apply existsb_exists. apply in_map_iff in Hin as [ak [<- Hin]]. exists ak. split; [exact Hin|apply String.eqb_refl]. }
  assert (C : forall a, In a (map fst (ci_pre ci)) \/ In a (map fst (ci_post ci)) -> In a (map fst (ctor_attrs ci))).
  { intros a H. unfold ctor_attrs. rewrite map_app. apply in_or_app. exact H. }
  assert (S1 : sget (it_attr it) attrs = None).
  { apply sget_None. rewrite E. intro H. apply in_app_or in H as [H|H]; [rewrite (N _ (C _ (or_introl H))) in P2; discriminate|]. apply in_app_or in H as [H|H]; [rewrite (Hx _ H) in P1; discriminate|]. rewrite (N _ (C _ (or_intror H))) in P2. discriminate. }
  apply existsb_exists in K0 as [[a k] [Hk K0]]. cbn [fst snd] in K0. apply andb_prop in K0 as [K0 K1]. apply seqb_eq in K0. subst a. destruct k; try discriminate K1.
  assert (Hin : In "track_items" (map fst attrs)).
  { rewrite E. unfold ctor_attrs in Hk. apply (in_map fst) in Hk. cbn [fst] in Hk. rewrite map_app in Hk. apply in_app_or in Hk as [Hk|Hk]; [apply in_or_app; now left|]. apply in_or_app. right. apply in_or_app. now right. }
  unfold obj_attr. rewrite S1. unfold is_track in Ht. destruct (ci_geom ci); try discriminate Ht.
  destruct (sget "track_items" attrs) as [x|] eqn:Q; [|apply sget_None in Q; now elim Q].
  assert (T := attr_facts W ci _ attrs Ha _ _ Q). unfold attr_typed in T. apply andb_prop in T as [_ T]. unfold ckind_of in T. rewrite (sget_NoDup _ _ _ (cf_ctor _ _ _ F) Hk) in T. destruct x; try discriminate T.
  destruct Hm as [<-|[<-|[<-|[]]]]; discriminate.
Qed.

Section Success.
  Variables (W : world) (prec : option nat) (src dst : verbosity).
  Hypothesis HW : world_ok W = true.
  Hypothesis HD : defaults_write W = true.
  Hypothesis Hv : forall v d, get_value dst v d = VNone \/ get_value dst v d = get_value src v d \/ (v = VNone /\ get_value dst v d = d).

  Definition follows (v : value) : Prop := vall (typed_node W) v = true -> forall e, etree W prec src v = Ok e -> exists e', etree W prec dst v = Ok e'.

  Lemma objs_follow l : (forall y, In y l -> follows y) -> (forall y, In y l -> vall (typed_node W) y = true) -> forall ks, objs_kids W (map (fun y => (y, etree W prec src y)) l) = Ok ks -> exists ks', objs_kids W (map (fun y => (y, etree W prec dst y)) l) = Ok ks'.
  Proof.
    induction l as [|y l IH]; intros H V ks E; cbn [map objs_kids] in *; [now exists []|].
    apply bind_ok in E as [b [B E]]. rewrite B. cbn [bind]. assert (H' : forall z, In z l -> follows z) by (intros z Hz; apply H; now right). assert (V' : forall z, In z l -> vall (typed_node W) z = true) by (intros z Hz; apply V; now right). destruct b; [|now apply (IH H' V' ks)].
    apply bind_ok in E as [k [Hk E]]. apply bind_ok in E as [r [Hr E]]. destruct (H y (or_introl eq_refl) (V y (or_introl eq_refl)) k Hk) as [k' Hk']. destruct (IH H' V' r Hr) as [r' Hr']. exists (k' :: r'). now rewrite Hk', Hr'.
  Qed.

  Lemma emit_default ci ns nss attrs ws it : uses_value it = true -> default_writes it = true -> get_value dst (obj_attr ci attrs (it_attr it)) (it_default it) = it_default it ->
    exists m, emit W prec dst ci ns nss attrs ws it = Ok m.
  Proof.
    intros Hu Hd E. unfold uses_value in Hu. unfold default_writes in Hd. unfold emit. rewrite E. clear E.
    destruct (it_set it); try discriminate Hu; destruct (it_default it) as [ |b'|[z|f]|s|c' v|kk|c'|b' l|l|l|l|c' n ss at_]; try discriminate Hd; try (eexists; reflexivity);
      match goal with |- exists m, (let! t := ?r in _) = Ok m => destruct r; [eexists; reflexivity|discriminate Hd] end.
  Qed.

  Lemma emit_follows ci ns nss attrs it m : forallb (fun av : string * value => let (_, x) := av in vall (typed_node W) x) attrs = true ->
    (forall a x, In (a, x) attrs -> follows x /\ match x with VList l => forall y, In y l -> follows y | _ => True end) -> default_writes it = true \/ obj_attr ci attrs (it_attr it) <> VNone ->
    emit W prec src ci ns nss attrs (ws_of W prec src attrs) it = Ok m -> exists m', emit W prec dst ci ns nss attrs (ws_of W prec dst attrs) it = Ok m'.
  Proof.
    intros V H Hd E. rewrite forallb_forall in V. destruct (uses_value it) eqn:Hu.
    - destruct (Hv (obj_attr ci attrs (it_attr it)) (it_default it)) as [G|[G|[G0 G]]].
      + exists em0. now apply emit_none.
      + exists m. rewrite <- E. now apply emit_same.
      + destruct Hd as [Hd|Hd]; [now apply emit_default|contradiction].
    - unfold uses_value in Hu. unfold emit in *. destruct (it_set it); try discriminate Hu.
      + now exists m.
      + apply bind_ok in E as [b [B E]]. rewrite B. cbn [bind]. destruct b; [|now exists em0]. rewrite sget_ws_of in *. destruct (sget (it_attr it) attrs) as [x|] eqn:Q; [|discriminate]. unfold w_attr in *.
        apply bind_ok in E as [k [Hk E]]. destruct (proj1 (H _ _ (EmitProofs.sget_In _ _ _ Q)) (V _ (EmitProofs.sget_In _ _ _ Q)) k Hk) as [k' Hk']. exists (em_kids [k']). now rewrite Hk'.
      + rewrite sget_ws_of in *. destruct (sget (it_attr it) attrs) as [x|] eqn:Q; [|now exists em0]. unfold w_attr in *. destruct x; try discriminate E; [now exists em0|].
        apply bind_ok in E as [ks [Hks E]]. assert (V1 := V _ (EmitProofs.sget_In _ _ _ Q)). cbn [vall] in V1. rewrite forallb_forall in V1. destruct (objs_follow _ (proj2 (H _ _ (EmitProofs.sget_In _ _ _ Q))) V1 ks Hks) as [ks' Hks']. exists (em_kids ks'). now rewrite Hks'.
  Qed.

  Lemma follows_all v : follows v /\ match v with VList l => forall y, In y l -> follows y | _ => True end.
  Proof.
    induction v as [ | | | | | | | | | |l IH|c ns nss attrs IH] using value_ind'; try (split; [intros _ e E; discriminate E|exact I]).
    - rewrite Forall_forall in IH. split; [intros _ e E; discriminate E|]. intros y Hy. exact (proj1 (IH y Hy)).
    - split; [|exact I]. rewrite Forall_forall in IH. intros V e E. cbn [vall] in V. apply andb_prop in V as [V0 V].
      assert (Hs : forall a x, In (a, x) attrs -> follows x /\ match x with VList l => forall y, In y l -> follows y | _ => True end) by (intros a x Hx; exact (IH _ Hx)). clear IH.
      destruct (class_of W c) as [ci|] eqn:Hc; [|rewrite etree_obj in E; unfold write_with in E; rewrite Hc in E; discriminate E].
      apply (etree_written _ _ _ _ _ _ _ _ _ Hc) in E as [ms [Hm ->]].
      assert (D : forall it, In it (written_items W c ci) -> default_writes it = true \/ obj_attr ci attrs (it_attr it) <> VNone).
      { unfold typed_node in V0. rewrite Hc in V0. apply andb_prop in V0 as [V1 V2]. unfold written_items. destruct (ci_root ci); [intros it [<-|[]]; now left|]. intros it Hi. unfold defaults_write in HD. rewrite forallb_forall in HD. assert (H := HD _ (EmitProofs.sget_In _ _ _ Hc)). cbn [fst snd] in H. rewrite forallb_forall in H. specialize (H it Hi). apply orb_prop in H as [H|H]; [now left|]. right. exact (track_held W c ci attrs it (world_class W c ci HW Hc) V1 V2 H). }
      assert (M : exists ms', map_res (emit W prec dst ci ns nss attrs (ws_of W prec dst attrs)) (written_items W c ci) = Ok ms').
      { revert ms Hm. induction (written_items W c ci) as [|it its IH]; intros ms Hm; [now exists []|]. cbn [map_res] in *. apply bind_ok in Hm as [m [Hi Hm]]. apply bind_ok in Hm as [r [Hr _]].
        destruct (emit_follows ci ns nss attrs it m V Hs (D it (or_introl eq_refl)) Hi) as [m' Hm']. destruct (IH (fun i Hi' => D i (or_intror Hi')) r Hr) as [r' Hr']. exists (m' :: r'). now rewrite Hm', Hr'. }
      destruct M as [ms' Hm']. eexists. apply (etree_written _ _ _ _ _ _ _ _ _ Hc). exists ms'. split; [exact Hm'|reflexivity].
  Qed.
End Success.

Theorem verbosity_writes W prec src dst v e : world_ok W = true -> defaults_write W = true -> typed W v = true -> src <> Terse ->
  etree W prec src v = Ok e -> exists e', etree W prec dst v = Ok e'.
Proof.
  intros HW HD T Hs. apply (follows_all W prec src dst HW HD); [|unfold typed in T; destruct v; try discriminate T; exact T].
  intros x d. destruct src; [now elim Hs| |]; destruct dst; cbn [get_value]; auto; try (destruct (scalar_eq x d); now auto);
  destruct x; cbn [is_none andb negb]; auto; try (destruct (scalar_eq _ d); now auto); destruct (is_none d); auto.
Qed.
