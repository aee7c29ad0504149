(** * Proofs for C70. *)
From Coq Require Import String List NArith ZArith Bool.
From Verif Require Import Ustr UstrProofs Res PyInt PyFloat PyNumProofs PyDate Elem Value Geom Codec Spec EmitProofs ItemProofs RoundTrip CodecProofs WriteProofs PrecisionSpec.
Import ListNotations.
Local Open Scope string_scope.
Local Open Scope list_scope.

Lemma ok_inj {A} (x y : A) : Ok x = Ok y -> x = y.
Proof. intro H. now injection H. Qed.

Lemma word_of_num s : numtext s = true -> s <> [] -> one_word s.
Proof.
  intros H N. split; [exact N|]. unfold numtext in H. rewrite forallb_forall in H. split; intro I; specialize (H _ I); discriminate H.
Qed.

Lemma num_rounded p n s t : num_valid n = true -> num_text None n = Ok s -> num_text (Some p) n = Ok t -> number_rounded p s t.
Proof.
  intros V Hs Ht. exists (to_float n). destruct (num_str_spec n s V Hs) as [E [S1 S2]]. destruct (num_text_spec (Some p) n t V Ht) as [_ [T1 T2]].
  repeat split; auto using word_of_num; try (apply word_of_num; assumption).
  - now apply to_float_valid.
  - destruct n as [z|f]; cbn [num_text num_fmt to_float] in *; [|now injection Ht as <-]. destruct (float_of_Z z); discriminate Ht || (now injection Ht as <-).
Qed.

Lemma nums_rounded p c ss ts : nums_valid c = true -> map_res (num_text None) c = Ok ss -> map_res (num_text (Some p)) c = Ok ts ->
  Forall2 (number_rounded p) ss ts.
Proof.
  unfold nums_valid. revert ss ts. induction c as [|n c IH]; intros ss ts V Hs Ht; cbn [map_res] in *; [injection Hs as <-; injection Ht as <-; constructor|].
  cbn [forallb] in V. apply andb_prop in V as [Vn V]. apply bind_ok in Hs as [s [Hs1 Hs]]. apply bind_ok in Hs as [ss' [Hs2 Hs]]. injection Hs as <-.
  apply bind_ok in Ht as [t [Ht1 Ht]]. apply bind_ok in Ht as [ts' [Ht2 Ht]]. injection Ht as <-. constructor; [now apply (num_rounded p n)|now apply IH].
Qed.

Lemma rows_of_one ws : rows_text (map (fun w => [w]) ws) = join (u " ") ws.
Proof. unfold rows_text. now rewrite map_map, map_id. Qed.

Lemma join_rounded p c s t : nums_valid c = true -> join_nums (u " ") None c = Ok s -> join_nums (u " ") (Some p) c = Ok t -> numbers_rounded p s t.
Proof.
  unfold join_nums. intros V Hs Ht. apply bind_ok in Hs as [a [Ha Hs]]. apply bind_ok in Ht as [b [Hb Ht]]. apply ok_inj in Hs. apply ok_inj in Ht. subst s t.
  exists (map (fun w => [w]) a), (map (fun w => [w]) b). rewrite !rows_of_one. repeat split.
  assert (F := nums_rounded p c a b V Ha Hb). clear -F. induction F; cbn [map]; constructor; auto.
Qed.

Lemma coordinates_rounded p l s t : forallb nums_valid l = true -> coordinates_text None l = Ok s -> coordinates_text (Some p) l = Ok t -> numbers_rounded p s t.
Proof.
  unfold coordinates_text. destruct (dims_ok l); [|discriminate]. intros V Hs Ht. apply bind_ok in Hs as [a [Ha Hs]]. apply bind_ok in Ht as [b [Hb Ht]]. apply ok_inj in Hs. apply ok_inj in Ht.
  assert (exists ra rb, a = map (join (u ",")) ra /\ b = map (join (u ",")) rb /\ Forall2 (Forall2 (number_rounded p)) ra rb) as [ra [rb [-> [-> F]]]].
  { clear Hs Ht s t. revert a b Ha Hb. induction l as [|c l IH]; intros a b Ha Hb; cbn [map_res] in *.
    - injection Ha as <-. injection Hb as <-. exists [], []. repeat split; constructor.
    - cbn [forallb] in V. apply andb_prop in V as [Vc V]. apply bind_ok in Ha as [x [Hx Ha]]. apply bind_ok in Ha as [a' [Ha' Ha]]. apply ok_inj in Ha. subst a.
      apply bind_ok in Hb as [y [Hy Hb]]. apply bind_ok in Hb as [b' [Hb' Hb]]. apply ok_inj in Hb. subst b.
      destruct (IH V a' b' Ha' Hb') as [ra [rb [-> [-> F]]]]. unfold join_nums in Hx, Hy. apply bind_ok in Hx as [wx [Hwx Hx]]. apply bind_ok in Hy as [wy [Hwy Hy]]. apply ok_inj in Hx. apply ok_inj in Hy. subst x y.
      exists (wx :: ra), (wy :: rb). repeat split. constructor; [now apply (nums_rounded p c)|exact F]. }
  subst s t. exists ra, rb. now repeat split.
Qed.

Fixpoint rounded_refl p e : rounded p e e.
Proof. destruct e as [t a x ks]. apply rounded_same. induction ks as [|k ks IH]; constructor; [apply rounded_refl|exact IH]. Qed.
Lemma all_refl p ks : Forall2 (rounded p) ks ks.
Proof. induction ks; constructor; auto using rounded_refl. Qed.

Section Write.
  Variable W : world.
  (** Only the elements of positions are written with a precision. *)
  Definition precise_item (ci : class_info) (it : item) : bool :=
    match it_set it with
    | SCoords => negb (ci_root ci) && mem (ci_tag ci) ["coordinates"; "coord"; "angles"]
    | SCoordList => mem (it_node it) ["coordinates"; "coord"; "angles"] && match it_default it with VCoords _ _ => false | _ => true end
    | _ => true
    end.
  Hypothesis HP : forallb (fun cc => forallb (precise_item (snd cc)) (items_of W (fst cc))) (w_classes W) = true.
  Variables (p : nat) (vb : verbosity).

  Definition text_rounded (tag : ustr) (x y : option ustr) : Prop :=
    x = y \/ exists s t, x = Some s /\ y = Some t /\ of_positions tag /\ numbers_rounded p s t.
  Definition em_rounded (tag : ustr) (m m' : em) : Prop :=
    m_attr m = m_attr m' /\ text_rounded tag (m_text m) (m_text m') /\ Forall2 (rounded p) (m_kids m) (m_kids m').

  Lemma em_same tag m : em_rounded tag m m.
  Proof. split; [reflexivity|]. split; [now left|apply all_refl]. Qed.

  Definition both (x : value) : Prop := forall e e', etree W None vb x = Ok e -> etree W (Some p) vb x = Ok e' -> rounded p e e'.
  Definition goal (x : value) : Prop := both x /\ match x with VList l => Forall both l | _ => True end.

  Lemma objs_rounded l ks ks' : Forall both l ->
    objs_kids W (map (fun y => (y, etree W None vb y)) l) = Ok ks -> objs_kids W (map (fun y => (y, etree W (Some p) vb y)) l) = Ok ks' -> Forall2 (rounded p) ks ks'.
  Proof.
    intro H. revert ks ks'. induction H as [|y l Hy _ IH]; intros ks ks' E E'; cbn [map objs_kids] in *.
    - injection E as <-. injection E' as <-. constructor.
    - destruct (py_bool W y) as [[|]|]; cbn [bind] in *; [|now apply IH|discriminate].
      apply bind_ok in E as [k [Hk E]]. apply bind_ok in E as [r [Hr E]]. apply ok_inj in E. apply bind_ok in E' as [k' [Hk' E']]. apply bind_ok in E' as [r' [Hr' E']]. apply ok_inj in E'. subst. constructor; auto.
  Qed.

  Section Node.
    Variables (c : string) (ci : class_info) (ns : ustr) (nss : nss_t) (attrs : list (string * value)).
    Hypothesis Hc : class_of W c = Some ci.
    Hypothesis HF : class_facts W ci (items_of W c).
    Hypothesis Ht : forallb (attr_typed W ci (items_of W c)) attrs = true.

    Lemma positions_valid it b l : In it (items_of W c) -> (it_set it = SCoords \/ it_set it = SCoordList) ->
      obj_attr ci attrs (it_attr it) = VCoords b l -> forallb nums_valid l = true.
    Proof.
      intros Hin Hs E. unfold obj_attr in E. destruct (sget (it_attr it) attrs) as [y|] eqn:Q.
      - subst y. assert (T := attr_facts W ci _ attrs Ht _ _ Q). unfold attr_typed in T. rewrite (find_item_NoDup _ _ (cf_attrs _ _ _ HF) Hin) in T. apply andb_prop in T as [T _]. unfold item_typed in T. destruct Hs as [Hs|Hs]; now rewrite Hs in T.
      - destruct (ci_geom ci); try discriminate E. destruct (sget "track_items" attrs) as [y|] eqn:Et; try discriminate E. destruct y as [ | | | | | | | | |ti| | ]; try discriminate E.
        assert (T := track_items_typed W ci _ attrs Ht ti Et). rewrite forallb_forall in T. destruct (String.eqb (it_attr it) "whens"); [discriminate E|]. destruct (String.eqb (it_attr it) "coords").
        + injection E as _ <-. apply forallb_forall. intros q Hq. apply in_map_iff in Hq as [i [<- Hi]]. apply filter_In in Hi as [Hi _]. specialize (T i Hi). unfold titem_typed in T. rewrite !andb_true_iff in T. tauto.
        + destruct (String.eqb (it_attr it) "angles"); [|discriminate E]. injection E as _ <-. apply forallb_forall. intros q Hq. apply in_concat in Hq as [ls [Hl Hq]]. apply in_map_iff in Hl as [i [<- Hi]]. specialize (T i Hi). unfold titem_typed in T. rewrite !andb_true_iff in T.
          destruct T as [_ T]. destruct (ti_angle i) as [a|]; [|contradiction]. destruct Hq as [<-|[]]. now apply andb_prop in T as [T _].
    Qed.

    Lemma precise it : In it (items_of W c) -> precise_item ci it = true.
    Proof. intro Hin. assert (Q := proj1 (forallb_forall _ _) HP _ (sget_In _ _ _ Hc)). cbn [fst snd] in Q. rewrite forallb_forall in Q. now apply Q. Qed.

    Lemma emit_rounded it m m' : In it (items_of W c) -> (forall x, sget (it_attr it) attrs = Some x -> goal x) ->
      emit W None vb ci ns nss attrs (ws_of W None vb attrs) it = Ok m -> emit W (Some p) vb ci ns nss attrs (ws_of W (Some p) vb attrs) it = Ok m' ->
      em_rounded (ns ++ u (ci_tag ci)) m m'.
    Proof.
      intros Hin Hk E E'. assert (P := precise it Hin). assert (V := fun b l => positions_valid it b l Hin). unfold precise_item in P. unfold emit in E, E'. destruct (it_set it) eqn:Es; try (rewrite E in E'; apply ok_inj in E'; subst; apply em_same).
      - apply andb_prop in P as [P1 P2]. destruct (get_value vb _ _) as [ | | | | | | |b l| | | | ] eqn:G; try discriminate; [rewrite E in E'; apply ok_inj in E'; subst; apply em_same|].
        assert (Vl : forallb nums_valid l = true).
        { apply (V b); [now right|]. destruct (ItemProofs.get_value_cases vb (obj_attr ci attrs (it_attr it)) (it_default it)) as [Q|[Q|Q]]; rewrite Q in G; [exact G|rewrite G in P2; discriminate P2|discriminate G]. }
        apply bind_ok in E as [ks [Hks E]]. apply bind_ok in E' as [ks' [Hks' E']]. apply ok_inj in E. apply ok_inj in E'. subst. split; [reflexivity|]. split; [now left|]. cbn [em_kids m_kids]. clear G.
        revert ks ks' Hks Hks'. induction l as [|q l IH]; intros ks ks' Hks Hks'; unfold text_kids in *; cbn [map map_res] in *; [apply ok_inj in Hks; apply ok_inj in Hks'; subst; constructor|].
        cbn [forallb] in Vl. apply andb_prop in Vl as [Vq Vl]. apply bind_ok in Hks as [k [Hk1 Hks]]. apply bind_ok in Hks as [r [Hr Hks]]. apply ok_inj in Hks. apply bind_ok in Hks' as [k' [Hk1' Hks']]. apply bind_ok in Hks' as [r' [Hr' Hks']]. apply ok_inj in Hks'. subst ks ks'.
        constructor; [|now apply IH]. apply bind_ok in Hk1 as [tt1 [Hj Hk1]]. apply bind_ok in Hj as [t1 [Hj Hj2]]. apply bind_ok in Hk1' as [tt2 [Hj' Hk1']]. apply bind_ok in Hj' as [t2 [Hj' Hj2']]. apply ok_inj in Hj2, Hj2', Hk1, Hk1'. subst. cbn [fst snd]. unfold text_elem.
        apply rounded_numbers; [|now apply (join_rounded p q)|constructor]. exists ns, (it_node it). split; [reflexivity|]. now apply EmitProofs.mem_In.
      - apply andb_prop in P as [_ P]. destruct (obj_attr ci attrs (it_attr it)) as [ | | | | | | |b l| | | | ] eqn:G; try discriminate; [rewrite E in E'; apply ok_inj in E'; subst; apply em_same|].
        destruct (nilb l); [rewrite E in E'; apply ok_inj in E'; subst; apply em_same|]. apply bind_ok in E as [s [Hs E]]. apply bind_ok in E' as [t [Ht' E']]. apply ok_inj in E. apply ok_inj in E'. subst. split; [reflexivity|]. split; [|constructor]. right. exists s, t.
        repeat split; [|apply (coordinates_rounded p l); auto; now apply (V b); [left|]]. exists ns, (ci_tag ci). split; [reflexivity|]. now apply EmitProofs.mem_In.
      - destruct (py_bool W _) as [[|]|]; cbn [bind] in *; [|rewrite E in E'; apply ok_inj in E'; subst; apply em_same|discriminate].
        rewrite sget_ws_of in E, E'. destruct (sget (it_attr it) attrs) as [x|]; [|discriminate]. unfold w_attr in *. apply bind_ok in E as [k [E1 E]]. apply bind_ok in E' as [k' [E1' E']]. apply ok_inj in E. apply ok_inj in E'. subst.
        split; [reflexivity|]. split; [now left|]. constructor; [|constructor]. now apply (proj1 (Hk x eq_refl)).
      - rewrite sget_ws_of in E, E'. destruct (sget (it_attr it) attrs) as [x|]; [|rewrite E in E'; apply ok_inj in E'; subst; apply em_same]. unfold w_attr in *.
        destruct x; try (rewrite E in E'; apply ok_inj in E'; subst; apply em_same). apply bind_ok in E as [ks [E1 E]]. apply bind_ok in E' as [ks' [E1' E']]. apply ok_inj in E. apply ok_inj in E'. subst.
        split; [reflexivity|]. split; [now left|]. cbn [em_kids m_kids]. eapply objs_rounded; [exact (proj2 (Hk _ eq_refl))|exact E1|exact E1'].
    Qed.

    Lemma emits_rounded its ms ms' : incl its (items_of W c) -> (forall a x, sget a attrs = Some x -> goal x) ->
      map_res (emit W None vb ci ns nss attrs (ws_of W None vb attrs)) its = Ok ms -> map_res (emit W (Some p) vb ci ns nss attrs (ws_of W (Some p) vb attrs)) its = Ok ms' ->
      Forall2 (em_rounded (ns ++ u (ci_tag ci))) ms ms'.
    Proof.
      revert ms ms'. induction its as [|j its IH]; intros ms ms' I Hk E E'; cbn [map_res] in *; [apply ok_inj in E; apply ok_inj in E'; subst; constructor|].
      apply bind_ok in E as [m [Hm E]]. apply bind_ok in E as [r [Hr E]]. apply ok_inj in E. apply bind_ok in E' as [m' [Hm' E']]. apply bind_ok in E' as [r' [Hr' E']]. apply ok_inj in E'. subst.
      constructor; [eapply emit_rounded; eauto; apply I; now left|]. apply IH; auto. intros i Hi. apply I. now right.
    Qed.
  End Node.

  Lemma fold_attr tag ms ms' : Forall2 (em_rounded tag) ms ms' -> concat (map m_attr ms) = concat (map m_attr ms').
  Proof. induction 1 as [|m m' ms ms' [H _] _ IH]; [reflexivity|]. cbn [map concat]. now rewrite H, IH. Qed.
  Lemma fold_kids_rounded tag ms ms' : Forall2 (em_rounded tag) ms ms' -> Forall2 (rounded p) (concat (map m_kids ms)) (concat (map m_kids ms')).
  Proof. induction 1 as [|m m' ms ms' [_ [_ H]] _ IH]; [constructor|]. cbn [map concat]. now apply Forall2_app. Qed.
  Lemma fold_text_rounded tag ms ms' t t' : Forall2 (em_rounded tag) ms ms' -> text_rounded tag t t' ->
    text_rounded tag (fold_left (fun t m => match m_text m with Some y => Some y | None => t end) ms t) (fold_left (fun t m => match m_text m with Some y => Some y | None => t end) ms' t').
  Proof.
    intro H. revert t t'. induction H as [|m m' ms ms' [_ [H _]] _ IH]; intros t t' T; [exact T|]. cbn [fold_left]. apply IH.
    destruct H as [H|[s1 [s2 [H1 [H2 H3]]]]]; [rewrite H; destruct (m_text m'); [now left|exact T]|]. rewrite H1, H2. right. exists s1, s2. tauto.
  Qed.

  Lemma rounded_intro e e' : e_tag e = e_tag e' -> e_attrib e = e_attrib e' -> text_rounded (e_tag e) (e_text e) (e_text e') -> Forall2 (rounded p) (e_kids e) (e_kids e') -> rounded p e e'.
  Proof.
    destruct e as [t a x ks], e' as [t' a' x' ks']. cbn [e_tag e_attrib e_text e_kids]. intros -> -> [->|[s1 [s2 [-> [-> [T N]]]]]] K; [now apply rounded_same|now apply rounded_numbers].
  Qed.

  Hypothesis HW : world_ok W = true.

  Theorem precision v : vall (typed_node W) v = true -> goal v.
  Proof.
    induction v as [ |b|n|s|c w|k|c|b l|l|l|l IH|c ns nss attrs IH] using value_ind'; intro Ht; try (split; [intros e e' H; discriminate H|exact I]).
    - split; [intros e e' H; discriminate H|]. cbn [vall] in Ht. rewrite forallb_forall in Ht. apply Forall_forall. intros y Hy. rewrite Forall_forall in IH. exact (proj1 (IH y Hy (Ht y Hy))).
    - split; [|exact I]. cbn [vall] in Ht. apply andb_prop in Ht as [Hn Ht]. rewrite forallb_forall in Ht. rewrite Forall_forall in IH.
      assert (Hk : forall a x, sget a attrs = Some x -> goal x).
      { intros a x Hx. apply sget_In in Hx. apply (IH (a, x) Hx). exact (Ht (a, x) Hx). }
      unfold typed_node in Hn. intros e e' E E'. rewrite etree_obj in E, E'. unfold write_with in E, E'. destruct (class_of W c) as [ci|] eqn:Hc; [|discriminate]. apply andb_prop in Hn as [_ Hn].
      assert (F := world_class _ _ _ HW Hc : class_facts W ci (items_of W c)). destruct (ci_root ci) eqn:Hr.
      + rewrite set_element_emit in E, E'. apply bind_ok in E as [m [Hm E]]. apply bind_ok in E' as [m' [Hm' E']]. apply ok_inj in E. apply ok_inj in E'.
        assert (K : Forall2 (rounded p) (m_kids m) (m_kids m') /\ m_attr m = m_attr m' /\ m_text m = m_text m').
        { unfold emit in Hm, Hm'. cbn [root_item it_set it_attr] in Hm, Hm'. rewrite sget_ws_of in Hm, Hm'. destruct (sget "features" attrs) as [x|] eqn:Ex; [|rewrite Hm in Hm'; apply ok_inj in Hm'; subst; repeat split; apply all_refl]. unfold w_attr in *.
          destruct x; try (rewrite Hm in Hm'; apply ok_inj in Hm'; subst; repeat split; apply all_refl). apply bind_ok in Hm as [ks [E1 Hm]]. apply bind_ok in Hm' as [ks' [E1' Hm']]. apply ok_inj in Hm. apply ok_inj in Hm'. subst m m'.
          split; [|now split]. cbn [em_kids m_kids]. eapply objs_rounded; [exact (proj2 (Hk _ _ Ex))|exact E1|exact E1']. }
        destruct K as [K1 [K2 K3]]. subst e e'. destruct (root_elem ns (u (ci_tag ci))) as [t a x ks]. unfold apply_em. rewrite K2, K3. apply rounded_same. apply Forall2_app; [apply all_refl|exact K1].
      + rewrite set_elements_emit in E, E'. apply bind_ok in E as [ms [Hms E]]. apply bind_ok in E' as [ms' [Hms' E']]. apply ok_inj in E. apply ok_inj in E'.
        assert (G := emits_rounded c ci ns nss attrs Hc F Hn (items_of W c) ms ms' (fun i H => H) Hk Hms Hms'). subst e e'. apply rounded_intro.
        * now rewrite !fold_tag.
        * rewrite !fold_attrib. now rewrite (fold_attr _ _ _ G).
        * rewrite fold_tag, !fold_text. apply fold_text_rounded; [exact G|now left].
        * rewrite !fold_kids. apply Forall2_app; [apply all_refl|]. exact (fold_kids_rounded _ _ _ G).
  Qed.
End Write.

(** ** Whether an object can be written *)

Lemma same_ok {A B} (a : A) (b : B) : same_outcome (Ok a) (Ok b).
Proof. exact I. Qed.
Lemma same_self {A} (r : res A) : same_outcome r r.
Proof. now destruct r. Qed.
Lemma same_bind {A A' B B'} (a : res A) (a' : res A') (f : A -> res B) (f' : A' -> res B') :
  same_outcome a a' -> (forall x x', a = Ok x -> a' = Ok x' -> same_outcome (f x) (f' x')) -> same_outcome (let! x := a in f x) (let! x := a' in f' x).
Proof. destruct a as [x|e], a' as [x'|e']; cbn [same_outcome bind]; try tauto. auto. Qed.
Lemma same_map {A B B'} (f : A -> res B) (f' : A -> res B') l : (forall x, In x l -> same_outcome (f x) (f' x)) -> same_outcome (map_res f l) (map_res f' l).
Proof.
  induction l as [|a l IH]; intro H; cbn [map_res]; [exact I|]. apply same_bind; [apply H; now left|]. intros x x' _ _. apply same_bind; [|intros; exact I]. apply IH. intros y Hy. apply H. now right.
Qed.

Section Outcome.
  Variable W : world.
  Hypothesis HP : forallb (fun cc => forallb (precise_item (snd cc)) (items_of W (fst cc))) (w_classes W) = true.
  Variables (prec prec' : option nat) (vb : verbosity).

  Definition alike_out (x : value) : Prop := same_outcome (etree W prec vb x) (etree W prec' vb x).
  Definition goal_out (x : value) : Prop := alike_out x /\ match x with VList l => Forall alike_out l | _ => True end.

  Lemma objs_out l : Forall alike_out l -> same_outcome (objs_kids W (map (fun y => (y, etree W prec vb y)) l)) (objs_kids W (map (fun y => (y, etree W prec' vb y)) l)).
  Proof.
    induction 1 as [|y l Hy _ IH]; cbn [map objs_kids]; [exact I|]. apply same_bind; [apply same_self|]. intros b b' E E'. rewrite E in E'. apply ok_inj in E'. subst b'. destruct b; [|exact IH].
    apply same_bind; [exact Hy|]. intros k k' _ _. apply same_bind; [exact IH|]. intros; exact I.
  Qed.

  Lemma obj_prints q ci attrs a b l : forallb (fun ax => value_prints q (snd ax)) attrs = true -> obj_attr ci attrs a = VCoords b l -> forallb (forallb (num_prints q)) l = true.
  Proof.
    intros H E. rewrite forallb_forall in H. unfold obj_attr in E. destruct (sget a attrs) as [y|] eqn:Q; [subst y; exact (H _ (sget_In _ _ _ Q))|].
    destruct (ci_geom ci); try discriminate E. destruct (sget "track_items" attrs) as [y|] eqn:Et; try discriminate E. destruct y as [ | | | | | | | | |ti| | ]; try discriminate E.
    specialize (H _ (sget_In _ _ _ Et)). cbn [snd value_prints] in H. rewrite forallb_forall in H. destruct (String.eqb a "whens"); [discriminate E|]. destruct (String.eqb a "coords").
    - injection E as _ <-. apply forallb_forall. intros c Hc. apply in_map_iff in Hc as [i [<- Hi]]. apply filter_In in Hi as [Hi _]. specialize (H i Hi). now apply andb_prop in H as [H _].
    - destruct (String.eqb a "angles"); [|discriminate E]. injection E as _ <-. apply forallb_forall. intros c Hc. apply in_concat in Hc as [ls [Hl Hc]]. apply in_map_iff in Hl as [i [<- Hi]]. specialize (H i Hi). apply andb_prop in H as [_ H].
      destruct (ti_angle i) as [x|]; [|contradiction]. now destruct Hc as [<-|[]].
  Qed.

  Lemma emit_out c ci ns nss attrs it : class_of W c = Some ci -> In it (items_of W c) ->
    forallb (fun ax => value_prints prec (snd ax)) attrs = true -> forallb (fun ax => value_prints prec' (snd ax)) attrs = true ->
    (forall x, sget (it_attr it) attrs = Some x -> goal_out x) ->
    same_outcome (emit W prec vb ci ns nss attrs (ws_of W prec vb attrs) it) (emit W prec' vb ci ns nss attrs (ws_of W prec' vb attrs) it).
  Proof.
    intros Hc Hin H1 H2 Hk. assert (P := precise W HP c ci Hc it Hin). unfold precise_item in P. unfold emit. cbv zeta. destruct (it_set it) eqn:Es; try apply same_self.
    - apply andb_prop in P as [_ P]. destruct (get_value vb _ _) as [ | | | | | | |b l| | | | ] eqn:G; try apply same_self. apply same_bind; [|intros; exact I].
      assert (E : obj_attr ci attrs (it_attr it) = VCoords b l).
      { destruct (ItemProofs.get_value_cases vb (obj_attr ci attrs (it_attr it)) (it_default it)) as [Q|[Q|Q]]; rewrite Q in G; [exact G|rewrite G in P; discriminate P|discriminate G]. }
      assert (A := obj_prints _ _ _ _ _ _ H1 E). assert (B := obj_prints _ _ _ _ _ _ H2 E). rewrite forallb_forall in A, B. clear -A B. unfold text_kids. induction l as [|q l IH]; cbn [map map_res]; [exact I|].
      destruct (join_nums_total (u " ") prec q (A q (or_introl eq_refl))) as [t ->]. destruct (join_nums_total (u " ") prec' q (B q (or_introl eq_refl))) as [t' ->]. cbn [bind].
      apply same_bind; [|intros; exact I]. apply IH; intros x Hx; [apply A|apply B]; now right.
    - destruct (obj_attr ci attrs (it_attr it)) as [ | | | | | | |b l| | | | ] eqn:E; try apply same_self. destruct (nilb l); [exact I|]. apply same_bind; [|intros; exact I]. unfold coordinates_text. destruct (dims_ok l); [|exact eq_refl].
      apply same_bind; [|intros; exact I]. assert (A := obj_prints _ _ _ _ _ _ H1 E). assert (B := obj_prints _ _ _ _ _ _ H2 E). rewrite forallb_forall in A, B. apply same_map. intros q Hq.
      destruct (join_nums_total (u ",") prec q (A q Hq)) as [t ->]. destruct (join_nums_total (u ",") prec' q (B q Hq)) as [t' ->]. exact I.
    - apply same_bind; [apply same_self|]. intros b b' E E'. rewrite E in E'. apply ok_inj in E'. subst b'. destruct b; [|exact I]. rewrite !sget_ws_of. destruct (sget (it_attr it) attrs) as [x|]; [|exact eq_refl]. unfold w_attr.
      apply same_bind; [exact (proj1 (Hk x eq_refl))|intros; exact I].
    - rewrite !sget_ws_of. destruct (sget (it_attr it) attrs) as [x|]; [|exact I]. unfold w_attr. destruct x; try apply same_self. apply same_bind; [|intros; exact I]. exact (objs_out _ (proj2 (Hk _ eq_refl))).
  Qed.

  Theorem outcome v : prints prec v = true -> prints prec' v = true -> goal_out v.
  Proof.
    unfold prints. induction v as [ |b|n|s|c w|k|c|b l|l|l|l IH|c ns nss attrs IH] using value_ind'; intros A B; try (split; [exact eq_refl|exact I]).
    - split; [exact eq_refl|]. cbn [vall] in A, B. rewrite forallb_forall in A, B. apply Forall_forall. intros y Hy. rewrite Forall_forall in IH. exact (proj1 (IH y Hy (A y Hy) (B y Hy))).
    - split; [|exact I]. cbn [vall] in A, B. apply andb_prop in A as [An A]. apply andb_prop in B as [Bn B]. rewrite forallb_forall in A, B. rewrite Forall_forall in IH.
      assert (Hk : forall a x, sget a attrs = Some x -> goal_out x).
      { intros a x Hx. apply sget_In in Hx. apply (IH (a, x) Hx); [exact (A (a, x) Hx)|exact (B (a, x) Hx)]. }
      unfold alike_out. rewrite !etree_obj. unfold write_with. destruct (class_of W c) as [ci|] eqn:Hc; [|exact eq_refl]. destruct (ci_root ci).
      + rewrite !set_element_emit. apply same_bind; [|intros; exact I]. unfold emit. cbn [root_item it_set it_attr]. rewrite !sget_ws_of. destruct (sget "features" attrs) as [x|] eqn:Ex; [|exact I]. unfold w_attr.
        destruct x; try apply same_self. apply same_bind; [|intros; exact I]. exact (objs_out _ (proj2 (Hk _ _ Ex))).
      + rewrite !set_elements_emit. apply same_bind; [|intros; exact I]. apply same_map. intros it Hin. apply (emit_out c); auto. intros x Hx. exact (Hk _ _ Hx).
  Qed.
End Outcome.
