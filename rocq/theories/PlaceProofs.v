(** * Proofs for C72. *)
From Coq Require Import String List NArith ZArith Bool Lia.
From Verif Require Import Ustr UstrProofs Res PyInt PyFloat PyDate Elem Value Geom Codec Spec EmitProofs ItemProofs RoundTrip OnceSpec OnceProofs PlaceSpec.
Import ListNotations.
Local Open Scope string_scope.
Local Open Scope list_scope.

Section Write.
  Variable W : world.
  Hypothesis HW : world_ok W = true.
  Variables (prec : option nat) (vb : verbosity).

  Lemma objs_members l ks : objs_kids W (map (fun y => (y, etree W prec vb y)) l) = Ok ks ->
    (forall y, In y l -> py_bool W y <> Ok false -> exists k, etree W prec vb y = Ok k /\ In k ks) /\
    (forall k, In k ks -> exists y, In y l /\ py_bool W y <> Ok false /\ etree W prec vb y = Ok k).
  Proof.
    revert ks. induction l as [|y l IH]; intros ks E; cbn [map objs_kids] in E.
    - apply ok_inj in E. subst. split; [intros y []|intros k []].
    - destruct (py_bool W y) as [[|]|] eqn:B; cbn [bind] in E; [| |discriminate].
      + apply bind_ok in E as [k [Hk E]]. apply bind_ok in E as [r [Hr E]]. apply ok_inj in E. subst ks. destruct (IH r Hr) as [I1 I2]. split.
        * intros z [<-|Hz] T; [exists k; split; [exact Hk|now left]|]. destruct (I1 z Hz T) as [k' [A1 A2]]. exists k'. split; [exact A1|now right].
        * intros k' [<-|Hk']; [exists y; split; [now left|split; [now rewrite B|exact Hk]]|]. destruct (I2 k' Hk') as [z [A1 A2]]. exists z. split; [now right|exact A2].
      + destruct (IH ks E) as [I1 I2]. split.
        * intros z [<-|Hz] T; [now elim T|]. now apply I1.
        * intros k' Hk'. destruct (I2 k' Hk') as [z [A1 A2]]. exists z. split; [now right|exact A2].
  Qed.

  (** The objects directly inside an object that are written. *)
  Definition direct (attrs : list (string * value)) (y : value) : Prop :=
    py_bool W y <> Ok false /\ ((exists a, In (a, y) attrs /\ match y with VObj _ _ _ _ => True | _ => False end) \/ exists a l, In (a, VList l) attrs /\ In y l).
  Definition of_text (k : elem) : Prop := e_kids k = [] /\ exists n, In n (text_names W) /\ local (e_tag k) = u n.

  Section Node.
    Variables (c : string) (ci : class_info) (ns : ustr) (nss : nss_t) (attrs : list (string * value)).
    Hypothesis Hc : class_of W c = Some ci.
    Hypothesis HF : class_facts W ci (items_of W c).
    Hypothesis Ht : forallb (attr_typed W ci (items_of W c)) attrs = true.
    Hypothesis Nd : NoDup (map fst attrs).
    Notation out it := (emit W prec vb ci ns nss attrs (ws_of W prec vb attrs) it).

    Lemma emit_obj it a x m : In it (items_of W c) -> it_attr it = a -> sget a attrs = Some x -> match x with VObj _ _ _ _ => True | _ => False end -> py_bool W x <> Ok false -> out it = Ok m ->
      exists k, etree W prec vb x = Ok k /\ In k (m_kids m).
    Proof.
      intros Hin <- Q Hx B E. assert (T := held_typed W c ci attrs HF Ht it x Hin Q). unfold item_typed in T. destruct x as [ | | | | | | | | | | |k n1 n2 at_]; try contradiction. unfold emit in E. destruct (it_set it) eqn:Es; try discriminate T.
      unfold obj_attr in E. rewrite sget_ws_of, Q in E. destruct (py_bool W _) as [[|]|]; cbn [bind] in E; [|now elim B|discriminate E]. unfold w_attr in E. apply bind_ok in E as [k' [Hk E]]. apply ok_inj in E. subst m. exists k'. split; [exact Hk|now left].
    Qed.

    Lemma emit_list it a l y m : In it (items_of W c) -> it_attr it = a -> sget a attrs = Some (VList l) -> In y l -> py_bool W y <> Ok false -> out it = Ok m ->
      exists k, etree W prec vb y = Ok k /\ In k (m_kids m).
    Proof.
      intros Hin <- Q Hy B E. assert (T := held_typed W c ci attrs HF Ht it _ Hin Q). unfold item_typed in T. unfold emit in E. destruct (it_set it) eqn:Es; try discriminate T.
      rewrite sget_ws_of, Q in E. unfold w_attr in E. apply bind_ok in E as [ks [Hks E]]. apply ok_inj in E. subst m. exact (proj1 (objs_members l ks Hks) y Hy B).
    Qed.

    Lemma emit_only it m k : good_ns ns = true -> forallb (fun kv : string * ustr => good_ns (snd kv)) nss = true -> In it (items_of W c) -> out it = Ok m -> In k (m_kids m) ->
      of_text k \/ exists y, direct attrs y /\ etree W prec vb y = Ok k.
    Proof.
      intros Hns Hnss Hin E Hk.
      assert (TX : forall n t, match it_set it with SText | SBool | SInt | SFloat | SEnum | SDate | SDates | SCoordList => True | _ => False end -> good_ns n = true -> of_text (text_elem (n ++ u (it_node it)) t)).
      { intros n t Hs Hn. split; [reflexivity|]. exists (it_node it). split.
        - unfold text_names. apply in_concat. eexists. split; [apply in_map; exact (sget_In _ _ _ Hc)|]. cbn [fst]. apply in_concat. eexists. split; [apply in_map; exact Hin|]. destruct (it_set it); try contradiction; now left.
        - cbn [text_elem e_tag]. apply local_name; [exact Hn|]. assert (I := cf_items _ _ _ HF it Hin). unfold item_ok in I. rewrite !andb_true_iff in I. destruct I as [[[_ I] _] _]. cbn [forallb] in I. now apply andb_prop in I as [I _]. }
      assert (TS : forall (l : list (res (ustr * ustr))) ks, match it_set it with SText | SBool | SInt | SFloat | SEnum | SDate | SDates | SCoordList => True | _ => False end ->
        (forall (r : res (ustr * ustr)) (q : ustr * ustr), In r l -> r = Ok q -> exists n, good_ns n = true /\ fst q = n ++ u (it_node it)) -> text_kids l = Ok ks -> In k ks -> of_text k).
      { clear m E Hk. intros l ks Hs. unfold text_kids. revert ks. induction l as [|r l IH]; intros ks H E Hk; cbn [map_res] in E; [apply ok_inj in E; subst; destruct Hk|].
        apply bind_ok in E as [k1 [Hk1 E]]. apply bind_ok in E as [ks' [Hks E]]. apply ok_inj in E. subst ks. destruct Hk as [<-|Hk]; [|apply (IH ks'); auto; intros r' q' Hr'; apply H; now right].
        apply bind_ok in Hk1 as [q [Hq Hk1]]. apply ok_inj in Hk1. subst k1. destruct (H r q (or_introl eq_refl) Hq) as [n [Hn Et]]. rewrite Et. now apply TX. }
      unfold emit in E. destruct (it_set it) eqn:Es.
      all: try (left; destruct (get_value vb _ _) as [ |b'|[z|f]|s|c' v|kk|c'|b' l|l|l|l|c' n ss at_]; try discriminate E;
        repeat match type of E with
        | (let! _ := _ in _) = Ok _ => apply bind_ok in E as [? [? E]]
        | Ok (if ?b then _ else _) = Ok _ => destruct b
        end; apply ok_inj in E; subst m; try (destruct Hk; fail);
        try (destruct Hk as [<-|[]]; apply TX; [exact I|]; auto using enum_good; apply get_good; exact Hnss)).
      - eapply TS; [exact I| |eassumption|exact Hk]. intros r q Hr Hq. apply in_map_iff in Hr as [o [<- _]]. apply ok_inj in Hq. subst q. destruct o; cbn [fst]; eexists; split; try reflexivity; [apply get_good; exact Hnss|exact Hns].
      - eapply TS; [exact I| |eassumption|exact Hk]. intros r q Hr Hq. apply in_map_iff in Hr as [o [<- _]]. apply bind_ok in Hq as [t [_ Hq]]. apply ok_inj in Hq. subst q. exists ns. now split.
      - destruct (obj_attr ci attrs (it_attr it)); try discriminate E; [apply ok_inj in E; subst; destruct Hk|]. destruct (nilb l); [apply ok_inj in E; subst; destruct Hk|]. apply bind_ok in E as [t [_ E]]. apply ok_inj in E. subst. destruct Hk.
      - right. rewrite sget_ws_of in E. unfold obj_attr in E. destruct (sget (it_attr it) attrs) as [x|] eqn:Q.
        + assert (T := held_typed W c ci attrs HF Ht it x Hin Q). unfold item_typed in T. rewrite Es in T. destruct x as [ | | | | | | | | | | |k1 n1 n2 at_]; try discriminate T; [cbn in E; apply ok_inj in E; subst; destruct Hk|].
          destruct (py_bool W _) as [[|]|] eqn:B; cbn [bind] in E; [|apply ok_inj in E; subst; destruct Hk|discriminate]. unfold w_attr in E. apply bind_ok in E as [k' [Hk1 E]]. apply ok_inj in E. subst m. destruct Hk as [<-|[]]. eexists. split; [|exact Hk1].
          split; [now rewrite B|]. left. eexists. split; [exact (sget_In _ _ _ Q)|exact I].
        + apply bind_ok in E as [b [_ E]]. destruct b; [discriminate|]. apply ok_inj in E. subst. destruct Hk.
      - right. rewrite sget_ws_of in E. destruct (sget (it_attr it) attrs) as [x|] eqn:Q; [|apply ok_inj in E; subst; destruct Hk].
        assert (T := held_typed W c ci attrs HF Ht it x Hin Q). unfold item_typed in T. rewrite Es in T. unfold w_attr in E. destruct x; try discriminate T; [apply ok_inj in E; subst; destruct Hk|].
        apply bind_ok in E as [ks [Hks E]]. apply ok_inj in E. subst m. destruct (proj2 (objs_members l ks Hks) k Hk) as [y [Y1 [Y2 Y3]]]. exists y. split; [|exact Y3]. split; [exact Y2|]. right. exists (it_attr it), l. split; [exact (sget_In _ _ _ Q)|exact Y1].
    Qed.
  End Node.

  (** What the writer of an object makes, item by item. *)
  Lemma written c ns nss attrs e : typed_node W c ns nss attrs = true -> etree W prec vb (VObj c ns nss attrs) = Ok e ->
    exists ci ms, class_of W c = Some ci /\ class_facts W ci (items_of W c) /\ forallb (attr_typed W ci (items_of W c)) attrs = true /\ NoDup (map fst attrs) /\
    e_tag e = ns ++ u (ci_tag ci) /\
    map_res (emit W prec vb ci ns nss attrs (ws_of W prec vb attrs)) (items_of W c) = Ok ms /\ e_kids e = concat (map m_kids ms).
  Proof.
    intros Hn E. unfold typed_node in Hn. rewrite etree_obj in E. unfold write_with in E. destruct (class_of W c) as [ci|] eqn:Hc; [|discriminate]. apply andb_prop in Hn as [Sh Hn]. destruct (shape_inv _ _ Sh) as [_ [_ [Nd _]]].
    assert (F := world_class _ _ _ HW Hc : class_facts W ci (items_of W c)). exists ci. destruct (ci_root ci) eqn:Hr.
    - assert (R := cf_root _ _ _ F). unfold root_ok in R. rewrite Hr in R. destruct (items_of W c) as [|it [|]] eqn:Ei; try discriminate R. apply andb_prop in R as [Ra Rs]. apply seqb_eq in Ra.
      assert (Es : it_set it = SObjs) by (destruct (it_set it); try discriminate Rs; reflexivity).
      rewrite set_element_emit in E. apply bind_ok in E as [m [Hm E]]. apply ok_inj in E. subst e.
      assert (Hm' : emit W prec vb ci ns nss attrs (ws_of W prec vb attrs) it = Ok m) by (unfold emit in *; rewrite Es, Ra; exact Hm).
      exists [m]. cbn [map_res]. rewrite Hm'. repeat (split; [reflexivity || assumption|]). cbn [map concat]. rewrite app_nil_r. unfold root_elem. destruct (uempty ns); cbn; repeat split; reflexivity.
    - rewrite set_elements_emit in E. apply bind_ok in E as [ms [Hms E]]. apply ok_inj in E. subst e. exists ms. rewrite fold_tag, fold_kids. repeat (split; [reflexivity || assumption|]). reflexivity.
  Qed.

  Lemma res_in {A B} (f : A -> res B) l r a : map_res f l = Ok r -> In a l -> exists b, f a = Ok b /\ In b r.
  Proof.
    revert r. induction l as [|x l IH]; intros r E Ha; [destruct Ha|]. cbn [map_res] in E. apply bind_ok in E as [b [Hb E]]. apply bind_ok in E as [r' [Hr E]]. apply ok_inj in E. subst r.
    destruct Ha as [<-|Ha]; [exists b; split; [exact Hb|now left]|]. destruct (IH r' Hr Ha) as [b' [H1 H2]]. exists b'. split; [exact H1|now right].
  Qed.
  Lemma res_from {A B} (f : A -> res B) l r b : map_res f l = Ok r -> In b r -> exists a, In a l /\ f a = Ok b.
  Proof.
    revert r. induction l as [|x l IH]; intros r E Hb; cbn [map_res] in E; [apply ok_inj in E; subst; destruct Hb|]. apply bind_ok in E as [b1 [Hb1 E]]. apply bind_ok in E as [r' [Hr E]]. apply ok_inj in E. subst r.
    destruct Hb as [<-|Hb]; [exists x; split; [now left|exact Hb1]|]. destruct (IH r' Hr Hb) as [a [H1 H2]]. exists a. split; [now right|exact H2].
  Qed.

  Lemma direct_written c ns nss attrs e y : typed_node W c ns nss attrs = true -> etree W prec vb (VObj c ns nss attrs) = Ok e -> direct attrs y ->
    exists k, etree W prec vb y = Ok k /\ In k (e_kids e).
  Proof.
    intros Hn E [B D]. destruct (written c ns nss attrs e Hn E) as [ci [ms [Hc [F [Ht [Nd [_ [Hms Hk]]]]]]]]. rewrite Hk.
    assert (FI : forall a x, In (a, x) attrs -> match x with VObj _ _ _ _ | VList _ => True | _ => False end -> sget a attrs = Some x /\ exists it m, In it (items_of W c) /\ it_attr it = a /\ emit W prec vb ci ns nss attrs (ws_of W prec vb attrs) it = Ok m /\ In m ms).
    { intros a x Hin Hx. split; [exact (sget_NoDup _ _ _ Nd Hin)|]. assert (T := proj1 (forallb_forall _ _) Ht _ Hin). unfold attr_typed in T. apply andb_prop in T as [T _]. destruct (find_item a (items_of W c)) as [it|] eqn:Ef; [|destruct x; contradiction || discriminate T].
      destruct (find_item_In _ _ _ Ef) as [Hit Ha]. destruct (res_in _ _ _ it Hms Hit) as [m [Hm1 Hm2]]. exists it, m. auto. }
    destruct D as [[a [Hin Hy]]|[a [l [Hin Hy]]]].
    - destruct (FI a y Hin) as [Q [it [m [H1 [H2 [H3 H4]]]]]]; [now destruct y|]. destruct (emit_obj c ci ns nss attrs F Ht it a y m H1 H2 Q Hy B H3) as [k [K1 K2]]. exists k. split; [exact K1|]. apply in_concat. exists (m_kids m). split; [now apply in_map|exact K2].
    - destruct (FI a (VList l) Hin I) as [Q [it [m [H1 [H2 [H3 H4]]]]]]. destruct (emit_list c ci ns nss attrs F Ht it a l y m H1 H2 Q Hy B H3) as [k [K1 K2]]. exists k. split; [exact K1|]. apply in_concat. exists (m_kids m). split; [now apply in_map|exact K2].
  Qed.

  Lemma kid_direct c ns nss attrs e k : typed_node W c ns nss attrs = true -> good_ns ns = true -> forallb (fun kv : string * ustr => good_ns (snd kv)) nss = true ->
    etree W prec vb (VObj c ns nss attrs) = Ok e -> In k (e_kids e) -> of_text k \/ exists y, direct attrs y /\ etree W prec vb y = Ok k.
  Proof.
    intros Hn G1 G2 E Hk. destruct (written c ns nss attrs e Hn E) as [ci [ms [Hc [F [Ht [Nd [_ [Hms HK]]]]]]]]. rewrite HK in Hk. apply in_concat in Hk as [ks [Hks Hk]]. apply in_map_iff in Hks as [m [<- Hm]]. destruct (res_from _ _ _ m Hms Hm) as [it [Hit Em]].
    exact (emit_only c ci ns nss attrs Hc F Ht it m k G1 G2 Hit Em Hk).
  Qed.

  Lemma vall_direct (P : string -> ustr -> nss_t -> list (string * value) -> bool) c ns nss attrs y : vall P (VObj c ns nss attrs) = true -> direct attrs y -> vall P y = true.
  Proof.
    cbn [vall]. intros H [_ D]. apply andb_prop in H as [_ H]. rewrite forallb_forall in H. destruct D as [[a [Hin _]]|[a [l [Hin Hy]]]]; [exact (H _ Hin)|]. specialize (H _ Hin). cbn [vall] in H. rewrite forallb_forall in H. now apply H.
  Qed.

  Theorem parts_written v w : part_of W w v -> forall e, vall (typed_node W) v = true -> etree W prec vb v = Ok e -> exists k, etree W prec vb w = Ok k /\ inside k e.
  Proof.
    assert (Step : forall c ns nss attrs y e, vall (typed_node W) (VObj c ns nss attrs) = true -> etree W prec vb (VObj c ns nss attrs) = Ok e -> direct attrs y ->
      (forall e, vall (typed_node W) y = true -> etree W prec vb y = Ok e -> exists k, etree W prec vb w = Ok k /\ inside k e) -> exists k, etree W prec vb w = Ok k /\ inside k e).
    { intros c ns nss attrs y e T E D IH. assert (Tn : typed_node W c ns nss attrs = true) by (cbn [vall] in T; now apply andb_prop in T as [T _]). destruct (direct_written c ns nss attrs e y Tn E D) as [k1 [K1 K2]].
      destruct (IH k1 (vall_direct _ _ _ _ _ _ T D) K1) as [k [H1 H2]]. exists k. split; [exact H1|]. exact (inside_kid k e k1 K2 H2). }
    induction 1 as [|c ns nss attrs a k ns' nss' attrs' x Hin B P IH|c ns nss attrs a l y Hin Hy B P IH]; intros e T E.
    - exists e. split; [exact E|apply inside_self].
    - apply (Step c ns nss attrs x e T E); [|exact IH]. split; [exact B|]. left. exists a. split; [exact Hin|exact I].
    - apply (Step c ns nss attrs y e T E); [|exact IH]. split; [exact B|]. right. now exists a, l.
  Qed.

  Lemma direct_part c ns nss attrs y w : direct attrs y -> part_of W w y -> part_of W w (VObj c ns nss attrs).
  Proof.
    intros [B [[a [Hin Hy]]|[a [l [Hin Hy]]]]] P; [|eapply part_member; eassumption]. destruct y; try contradiction. eapply part_attr; eassumption.
  Qed.

  Theorem elements_are_parts k e : inside k e -> forall v, vall (typed_node W) v = true -> good_spaces v = true -> etree W prec vb v = Ok e ->
    of_text k \/ exists w, part_of W w v /\ etree W prec vb w = Ok k.
  Proof.
    induction 1 as [|e k' Hk' H IH]; intros v T G E; [right; exists v; split; [apply part_self|exact E]|].
    destruct v as [ | | | | | | | | | | |c ns nss attrs]; try discriminate E. assert (G' := G). unfold good_spaces in G'. cbn [vall] in G'. apply andb_prop in G' as [Gn _]. apply andb_prop in Gn as [G1 G2].
    assert (Tn : typed_node W c ns nss attrs = true) by (cbn [vall] in T; now apply andb_prop in T as [T' _]).
    destruct (kid_direct c ns nss attrs e k' Tn G1 G2 E Hk') as [X|[y [D Ey]]].
    - left. destruct X as [X0 X1]. inversion H; subst; [now split|]. rewrite X0 in H0. destruct H0.
    - destruct (IH y (vall_direct _ _ _ _ _ _ T D) (vall_direct _ _ _ _ _ _ G D) Ey) as [X|[w [P Ew]]]; [now left|]. right. exists w. split; [exact (direct_part c ns nss attrs y w D P)|exact Ew].
  Qed.
End Write.
