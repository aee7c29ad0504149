(** * What documents write, value by value: proofs for any demand on the values. *)
From Coq Require Import String List NArith ZArith Bool Arith Lia.
From Verif Require Import Ustr UstrProofs Res PyInt PyFloat PyDate Elem Value Geom Codec Spec Settled EmitProofs CodecProofs
  ItemProofs RoundTrip WriteProofs ValueProofs Schema SchemaTables SchemaSpec SlotProofs SchemaProofs Lexical.
Import ListNotations.
Local Open Scope string_scope.

Definition leaf_lex (d : decl) (P : sname -> bool) (n : sname) : bool :=
  match kid_of d n with
  | Some ty => match type_decl ty with
               | Some d' => match d_text d' with Some st => P st | None => true end
               | None => true
               end
  | None => true
  end.
Definition attr_lex (d : decl) (P : sname -> bool) (n : string) : bool :=
  forallb (fun x => negb (String.eqb (fst (fst x)) n) || P (snd x)) (d_attrs d).
Definition kid_lex (W : world) (d : decl) (k : string) : bool :=
  known_id (nsid W k) &&
  match kid_of d (class_sname W k) with
  | Some ty => match type_of W k with Some ty' => String.eqb ty ty' | None => false end || (String.eqb k "links.Icon" && String.eqb ty icon_type)
  | None => true
  end.
Definition members (W : world) (it : item) : list (ustr * option string) :=
  match it_classes it with [ec] => match sget ec (w_enums W) with Some e => e | None => [] end | _ => [] end.

(** An element whose local name ends in [n] is not one of the schema. *)
Definition is_suffix (t y : ustr) : bool := ueqb (skipn (length y - length t) y) t.
Definition unheard (n : string) : bool := forallb (fun x => negb (is_suffix (u n) (tag (fst x)))) schema_elements.

Lemma suffix_app x t : is_suffix t (x ++ t)%list = true.
Proof. unfold is_suffix. rewrite app_length, Nat.add_sub, skipn_app, skipn_all, Nat.sub_diag. apply ueqb_refl. Qed.

Lemma unheard_none x n : unheard n = true -> lookup schema_uris (x ++ u n)%list schema_elements = None.
Proof.
  unfold unheard, lookup. intro H. destruct (find _ schema_elements) as [[nm ty]|] eqn:E; [|reflexivity]. apply find_some in E as [E1 E2]. rewrite forallb_forall in H. specialize (H _ E1). cbn [fst] in *.
  apply ueqb_eq in E2. rewrite E2, suffix_app in H. discriminate.
Qed.

Section Written.
  Variable W : world.
  Hypothesis HW : world_ok W = true.
  (** What is demanded of texts, of objects, and of a class for a type. *)
  Variable Want : sname -> ustr -> Prop.
  Variable extra : string -> list (string * value) -> bool.
  Variable fitd : string -> decl -> bool.
  Variables (prec : option nat) (vb : verbosity) (m : nss_t).
  Hypothesis Hm : schema_nss m = true.
  Notation V_ok := (values_ok Want schema_uris schema_types schema_elements).

  Definition fitty (c ty : string) : bool := match type_decl ty with None => true | Some d => fitd c d end.
  Definition fit_ok : bool :=
    forallb (fun cc => (known_id (nsid W (fst cc)) || unheard (ci_tag (snd cc))) && match type_of W (fst cc) with Some ty => fitty (fst cc) ty | None => true end) (w_classes W) &&
    fitty "links.Icon" icon_type.

  Definition lnode (c : string) (ns : ustr) (nss : nss_t) (attrs : list (string * value)) : bool :=
    typed_node W c ns nss attrs && (ueqb ns (default_ns W c m) && same_nss nss m) && extra c attrs.

  Definition lgoal (v : value) : Prop :=
    match v with
    | VObj c ns nss attrs => forall ty e, known_id (nsid W c) = true -> fitty c ty = true -> etree W prec vb v = Ok e -> V_ok ty e
    | _ => True
    end.

  Lemma obj_tag c ci ns nss attrs e : class_of W c = Some ci -> etree W prec vb (VObj c ns nss attrs) = Ok e -> ci_root ci = false \/ ns <> [] -> e_tag e = (ns ++ u (ci_tag ci))%list.
  Proof.
    intros Hc H R. rewrite etree_obj in H. unfold write_with in H. rewrite Hc in H. destruct (ci_root ci).
    - rewrite set_element_emit in H. apply bind_ok in H as [x [_ H]]. injection H as <-. unfold root_elem. destruct R as [R|R]; [discriminate|]. now destruct ns.
    - rewrite set_elements_emit in H. apply bind_ok in H as [ms [_ H]]. injection H as <-. now rewrite fold_tag.
  Qed.

  Lemma known_nonempty id : known_id id = true -> ns_get m id <> [].
  Proof.
    intro K. assert (P := tag_id m id "" Hm K). change (u "") with ([] : ustr) in P. rewrite app_nil_r in P. rewrite P. unfold known_id in K. apply mem_In in K. cbn in K. now destruct K as [<-|[<-|[<-|[]]]].
  Qed.

  Lemma lkid_tag c ns nss attrs e : lnode c ns nss attrs = true -> known_id (nsid W c) = true ->
    etree W prec vb (VObj c ns nss attrs) = Ok e -> e_tag e = tag (class_sname W c).
  Proof.
    intros N K H. unfold lnode in N. rewrite !andb_true_iff in N. destruct N as [[N1 [N2 _]] _]. apply ueqb_eq in N2. subst ns.
    unfold typed_node in N1. destruct (class_of W c) as [ci|] eqn:E; [|discriminate].
    assert (D : default_ns W c m = ns_get m (nsid W c)) by (unfold default_ns, nsid; now rewrite E).
    rewrite (obj_tag _ _ _ _ _ _ E H) by (right; rewrite D; now apply known_nonempty). rewrite D. unfold class_sname. rewrite E. unfold nsid in *. rewrite E in *. now apply tag_id.
  Qed.

  Definition lgood (d : decl) (k : elem) : Prop := match S_kid d (e_tag k) with Some ty => V_ok ty k | None => True end.

  Lemma leaf_good d P n t x : leaf_lex d P n = true -> t = tag n -> (forall st, P st = true -> Want st x) -> lgood d (text_elem t (Some x)).
  Proof.
    intros L -> H. unfold lgood, leaf_lex in *. cbn [e_tag text_elem]. rewrite kid_of_eq in L. destruct (S_kid d (tag n)) as [ty|]; [|exact I]. unfold type_decl in L. unfold text_elem. cbn [values_ok].
    destruct (find _ schema_types) as [[? d']|]; [|exact I]. cbn [snd] in L. split; [|split; [intros k v y []|exact I]]. destruct (d_text d'); [now apply H|exact I].
  Qed.

  (** *** What an item writes *)
  Definition written_well (d : decl) (e : em) : Prop :=
    Forall (lgood d) (m_kids e) /\
    (forall k v y, In (k, v) (m_attr e) -> In y (d_attrs d) -> k = u (fst (fst y)) -> Want (snd y) v).

  Lemma ww_zero d : written_well d em0.
  Proof. split; [constructor|intros k v y []]. Qed.
  Lemma ww_text d x : written_well d (em_text x).
  Proof. split; [constructor|intros k v y []]. Qed.
  Lemma ww_kids d ks : Forall (lgood d) ks -> written_well d (em_kids ks).
  Proof. split; [assumption|intros k v y []]. Qed.
  Lemma ww_kid d P n t x : leaf_lex d P n = true -> t = tag n -> (forall st, P st = true -> Want st x) -> written_well d (em_kid t x).
  Proof. intros. apply (ww_kids d [text_elem t (Some x)]). constructor; [|constructor]. eapply leaf_good; eauto. Qed.
  Lemma ww_attr d P n x : attr_lex d P n = true -> (forall st, P st = true -> Want st x) -> written_well d (em_attr (u n) x).
  Proof.
    intros L H. split; [constructor|]. cbn. intros k v y [Q|[]] Hy E. injection Q as <- <-. unfold attr_lex in L. rewrite forallb_forall in L. specialize (L _ Hy). apply u_inj in E. rewrite <- E, String.eqb_refl in L. now apply H.
  Qed.

  Section Node.
    Variables (c : string) (ci : class_info) (ns : ustr) (nss : nss_t) (attrs : list (string * value)).
    Hypothesis Hc : class_of W c = Some ci.
    Hypothesis Hn : lnode c ns nss attrs = true.
    Hypothesis Hid : known_id (nsid W c) = true.

    Lemma CF : class_facts W ci (items_of W c).
    Proof. exact (world_class _ _ _ HW Hc). Qed.

    Lemma n_parts : typed_node W c ns nss attrs = true /\ ns = default_ns W c m /\ same_nss nss m = true /\ extra c attrs = true.
    Proof. assert (N' := Hn). unfold lnode in N'. rewrite !andb_true_iff in N'. destruct N' as [[N1 [N2 N3]] N4]. apply ueqb_eq in N2. auto. Qed.

    Lemma v_typed a x it : sget a attrs = Some x -> find_item a (items_of W c) = Some it -> item_typed W it x = true.
    Proof.
      intros Hx Hf. destruct n_parts as [T _]. unfold typed_node in T. rewrite Hc in T. apply andb_prop in T as [_ T]. rewrite forallb_forall in T.
      specialize (T _ (sget_In _ _ _ Hx)). unfold attr_typed in T. rewrite Hf in T. now apply andb_prop in T.
    Qed.
    Lemma own_name n : (ns ++ u n)%list = tag (nsid W c, n).
    Proof. destruct n_parts as [_ [-> _]]. unfold default_ns, nsid in *. rewrite Hc in *. now apply tag_id. Qed.
    Lemma nss_get id : ns_get nss id = ns_get m id.
    Proof.
      destruct n_parts as [_ [_ [E _]]]. unfold same_nss in E. apply all2_eq in E; [now subst|]. intros [a b] [a' b'] H. cbn in H. apply andb_prop in H as [A B]. apply seqb_eq in A. apply ueqb_eq in B. now subst.
    Qed.

    Lemma members_in it ec mm : enum_member W (it_classes it) ec mm = true ->
      exists o, In (mm, o) (members W it) /\ enum_ns W ns nss ec mm = match o with Some id => ns_get nss id | None => ns end.
    Proof.
      unfold enum_member, members, enum_ns. destruct (it_classes it) as [|c' [|]]; try discriminate. intro M. apply andb_prop in M as [M1 M]. apply seqb_eq in M1. subst c'.
      destruct (sget ec (w_enums W)) as [en|]; [|discriminate]. destruct (uget mm en) as [o|] eqn:U; [|discriminate]. exists o. split; [|reflexivity].
      clear -U. induction en as [|[k x] en IH]; [discriminate|]. cbn in U. destruct (ueqb mm k) eqn:E; [apply ueqb_eq in E; injection U as ->; subst; now left|right; auto].
    Qed.
  End Node.

  Hypothesis HL : fit_ok = true.
  Hypothesis H_text : forall c d st s, fitd c d = true -> d_text d = Some st -> Want st s.
  Hypothesis H_objs : forall c d it, fitd c d = true -> In it (items_of W c) -> it_set it = SObj \/ it_set it = SObjs -> forallb (kid_lex W d) (it_classes it) = true.
  Hypothesis H_emit : forall c ci ns nss attrs it d e, class_of W c = Some ci -> lnode c ns nss attrs = true -> known_id (nsid W c) = true -> fitd c d = true ->
    In it (items_of W c) -> it_set it <> SObj -> it_set it <> SObjs -> emit W prec vb ci ns nss attrs (ws_of W prec vb attrs) it = Ok e -> written_well d e.

  Lemma obj_good d y e : kid_lex W d (class_name y) = true -> lgoal y -> vall lnode y = true -> etree W prec vb y = Ok e -> lgood d e.
  Proof.
    intros Hf G V E. destruct y as [ | | | | | | | | | | |k kns knss kattrs]; try discriminate E. cbn [class_name] in *. cbn [vall] in V. apply andb_prop in V as [V _].
    unfold kid_lex in Hf. apply andb_prop in Hf as [Hk Hf]. assert (T := lkid_tag _ _ _ _ _ V Hk E). unfold lgood. rewrite T. rewrite kid_of_eq, type_of_eq in Hf.
    destruct (S_kid d (tag (class_sname W k))) as [ty|]; [|exact I]. assert (HL' := HL). unfold fit_ok in HL'. apply andb_prop in HL' as [L1 L2]. apply orb_prop in Hf as [Hf|Hf].
    - destruct (class_type W k) as [ty'|] eqn:Et; [|discriminate]. apply seqb_eq in Hf. subst ty'. apply (G ty e Hk); [|exact E]. unfold lnode in V. rewrite !andb_true_iff in V. destruct V as [[V _] _]. unfold typed_node in V.
      destruct (class_of W k) as [ki|] eqn:Ek; [|discriminate]. rewrite forallb_forall in L1. specialize (L1 _ (sget_In _ _ _ Ek)). cbn [fst snd] in L1. rewrite type_of_eq, Et in L1. now apply andb_prop in L1.
    - apply andb_prop in Hf as [H1 H2]. apply seqb_eq in H1, H2. subst k ty. exact (G icon_type e Hk L2 E).
  Qed.

  Lemma objs_good d cs l ks : forallb (kid_lex W d) cs = true -> forallb (is_obj_of cs) l = true ->
    Forall lgoal l -> vall lnode (VList l) = true -> objs_kids W (map (fun y => (y, etree W prec vb y)) l) = Ok ks -> Forall (lgood d) ks.
  Proof.
    intros Hf T G V. cbn [vall] in V. revert ks. induction l as [|y l IH]; intros ks E; cbn [map objs_kids] in E; [injection E as <-; constructor|].
    cbn [forallb] in T, V. apply andb_prop in T as [T1 T2]. apply andb_prop in V as [V1 V2]. inversion G as [|? ? G1 G2]; subst. specialize (IH T2 G2 V2).
    apply bind_ok in E as [b [Eb E]]. destruct b; [|exact (IH _ E)].
    apply bind_ok in E as [k [Ek E]]. apply bind_ok in E as [r [Er E]]. injection E as <-. constructor; [|exact (IH _ Er)].
    apply (obj_good d y k); auto. rewrite forallb_forall in Hf. apply Hf. destruct y; try discriminate T1. cbn in *. now apply mem_In.
  Qed.

  Section Object.
    Variables (c : string) (ci : class_info) (ns : ustr) (nss : nss_t) (attrs : list (string * value)).
    Hypothesis Hc : class_of W c = Some ci.
    Hypothesis Hn : lnode c ns nss attrs = true.
    Hypothesis Hid : known_id (nsid W c) = true.
    Hypothesis Sub : forall a x, sget a attrs = Some x -> lgoal x /\ match x with VList l => Forall lgoal l | _ => True end.
    Hypothesis Kids : forall a x, sget a attrs = Some x -> vall lnode x = true.

    Lemma emit_well it d e : In it (items_of W c) -> fitd c d = true ->
      emit W prec vb ci ns nss attrs (ws_of W prec vb attrs) it = Ok e -> written_well d e.
    Proof.
      intros Hin Hl E. assert (Hfi := find_item_NoDup _ _ (cf_attrs _ _ _ (CF _ _ Hc)) Hin). assert (HO := H_objs c d it Hl Hin).
      assert (C : (it_set it = SObj \/ it_set it = SObjs) \/ (it_set it <> SObj /\ it_set it <> SObjs)) by (destruct (it_set it); try (right; split; discriminate); left; auto).
      destruct C as [C|[C1 C2]]; [|exact (H_emit c ci ns nss attrs it d e Hc Hn Hid Hl Hin C1 C2 E)]. specialize (HO C). clear Hl. rename HO into Hl. unfold emit in E. cbv zeta in E. destruct C as [Es|Es]; rewrite Es in E.
      - (* object *) apply bind_ok in E as [b [Eb E]]. destruct b; [|injection E as <-; apply ww_zero]. rewrite sget_ws_of in E. unfold obj_attr in Eb. destruct (sget (it_attr it) attrs) as [x|] eqn:Ex; [|discriminate]. unfold w_attr in E.
        apply bind_ok in E as [k [Ek E]]. injection E as <-. assert (T := v_typed c ci ns nss attrs Hc Hn _ _ _ Ex Hfi). unfold item_typed in T. rewrite Es in T. destruct x as [ | | | | | | | | | | |kc kns knss kattrs]; try discriminate Ek.
        rewrite forallb_forall in Hl. apply mem_In in T. apply (ww_kids d [k]). constructor; [|constructor]. exact (obj_good d (VObj kc kns knss kattrs) k (Hl _ T) (proj1 (Sub _ _ Ex)) (Kids _ _ Ex) Ek).
      - (* objects *) rewrite sget_ws_of in E. destruct (sget (it_attr it) attrs) as [x|] eqn:Ex; [|injection E as <-; apply ww_zero]. unfold w_attr in E. destruct x; try discriminate E; [injection E as <-; apply ww_zero|].
        apply bind_ok in E as [ks [Ek E]]. injection E as <-. assert (T := v_typed c ci ns nss attrs Hc Hn _ _ _ Ex Hfi). unfold item_typed in T. rewrite Es in T. apply ww_kids.
        exact (objs_good d _ l ks Hl T (proj2 (Sub _ _ Ex)) (Kids _ _ Ex) Ek).
    Qed.

    Lemma fold_uset_in k v l : forall acc, In (k, v) (fold_left (fun acc (kv : ustr * ustr) => uset (fst kv) (snd kv) acc) l acc) -> In (k, v) acc \/ In (k, v) l.
    Proof.
      induction l as [|[a b] l IH]; intros acc H; cbn [fold_left] in H; [auto|]. apply IH in H as [H|H]; [|right; now right]. cbn [fst snd] in H.
      assert (Q : In (k, v) acc \/ (k, v) = (a, b)); [|destruct Q as [Q|Q]; [auto|right; left; auto]].
      clear -H. induction acc as [|[a' b'] acc IH]; cbn in H; [destruct H as [H|[]]; auto|]. destruct (ueqb a a') eqn:E; cbn in H.
      - apply ueqb_eq in E. subst. destruct H as [H|H]; [right; auto|left; now right].
      - destruct H as [H|H]; [left; now left|]. destruct (IH H); [left; now right|auto].
    Qed.

    Lemma object_written ty e : fitty c ty = true -> etree W prec vb (VObj c ns nss attrs) = Ok e -> V_ok ty e.
    Proof.
      intros Hf He.
      assert (X : exists ms, Forall2 (fun it e => emit W prec vb ci ns nss attrs (ws_of W prec vb attrs) it = Ok e) (items_of W c) ms /\
        e = fold_left (fun e m => apply_em m e) ms (new_elem (ns ++ u (ci_tag ci))%list)).
      { rewrite etree_obj in He. unfold write_with in He. rewrite Hc in He. assert (Hroot := cf_root _ _ _ (CF _ _ Hc)). unfold root_ok in Hroot. destruct (ci_root ci) eqn:Eroot.
        - destruct (items_of W c) as [|it [|]] eqn:Eits; try discriminate Hroot. apply andb_prop in Hroot as [Ra Rs]. apply seqb_eq in Ra.
          assert (Es : it_set it = SObjs) by (destruct (it_set it); try discriminate Rs; reflexivity).
          rewrite set_element_emit in He. apply bind_ok in He as [x [Hx He]]. injection He as <-. exists [x]. split.
          + constructor; [|constructor]. unfold emit in *. rewrite Es, Ra. exact Hx.
          + cbn [fold_left]. unfold root_elem. assert (Q : uempty ns = false); [|now rewrite Q]. destruct (n_parts _ _ _ _ Hn) as [_ [-> _]]. unfold default_ns. rewrite Hc. unfold nsid in Hid. rewrite Hc in Hid.
            assert (P := known_nonempty _ Hid). now destruct (ns_get m (ci_nsid ci)).
        - rewrite set_elements_emit in He. apply bind_ok in He as [ms [Hms He]]. injection He as <-. apply map_res_ok in Hms. exists ms. auto. }
      destruct X as [ms [Hms Ee]]. unfold fitty, type_decl in Hf.
      assert (Et : V_ok ty e <-> match find (fun p => String.eqb (fst p) ty) schema_types with None => True | Some (_, d) =>
            match d_text d with Some st => Want st (match e_text e with Some t => t | None => [] end) | None => True end /\
            (forall k v y, In (k, v) (e_attrib e) -> In y (d_attrs d) -> k = u (fst (fst y)) -> Want (snd y) v) /\ Forall (lgood d) (e_kids e) end).
      { destruct e as [t a x ks]. cbn [values_ok e_kids e_attrib e_text]. destruct (find _ schema_types) as [[? d]|]; [|tauto].
        assert (Q : forall ks, (fix every ks := match ks with [] => True | k :: ks' => match S_kid d (e_tag k) with Some ty' => V_ok ty' k | None => True end /\ every ks' end) ks <-> Forall (lgood d) ks).
        { clear. induction ks as [|k ks IH]; [split; auto|]. rewrite IH. split; [intros [A B]; now constructor|intro H; inversion H; subst; auto]. }
        rewrite Q. reflexivity. }
      apply Et. clear Et. destruct (find _ schema_types) as [[ty' d]|]; [|exact I]. cbn [snd] in Hf.
      assert (Y : forall x, In x ms -> written_well d x).
      { intros x Hx. assert (Z : exists it, In it (items_of W c) /\ emit W prec vb ci ns nss attrs (ws_of W prec vb attrs) it = Ok x).
        { clear -Hms Hx. induction Hms as [|it y its ms Hy _ IH]; [contradiction|]. destruct Hx as [->|Hx]; [exists it; split; [now left|exact Hy]|]. destruct (IH Hx) as [i [A B]]. exists i. split; [now right|exact B]. }
        destruct Z as [it [Hin Ex]]. exact (emit_well it d x Hin Hf Ex). }
      split; [|split].
      - destruct (d_text d) eqn:Et; [exact (H_text c d _ _ Hf Et)|exact I].
      - intros k v y Hk Hy E. rewrite Ee, fold_attrib in Hk. apply fold_uset_in in Hk as [[]|Hk]. apply in_concat in Hk as [l [Hl Hk]]. apply in_map_iff in Hl as [x [<- Hx]]. exact (proj2 (Y x Hx) k v y Hk Hy E).
      - rewrite Ee, fold_kids. cbn [e_kids new_elem app]. apply Forall_forall. intros k Hk. apply in_concat in Hk as [l [Hl Hk]]. apply in_map_iff in Hl as [x [<- Hx]]. destruct (Y x Hx) as [Z _]. rewrite Forall_forall in Z. auto.
    Qed.
  End Object.

  Theorem all_written v : vall lnode v = true -> lgoal v /\ match v with VList l => Forall lgoal l | _ => True end.
  Proof.
    induction v as [| | | | | | | | | |l IH|c ns nss attrs IH] using value_ind'; intro V; try (split; exact I).
    - split; [exact I|]. cbn [vall] in V. rewrite forallb_forall in V. rewrite Forall_forall in *. intros x Hx. exact (proj1 (IH x Hx (V x Hx))).
    - split; [|exact I]. cbn [vall] in V. apply andb_prop in V as [V1 V2]. rewrite forallb_forall in V2. rewrite Forall_forall in IH. intros ty e Hk Hf He.
      destruct (class_of W c) as [ci|] eqn:Hc; [|unfold lnode, typed_node in V1; rewrite Hc in V1; discriminate].
      assert (Sub : forall a x, sget a attrs = Some x -> lgoal x /\ match x with VList l => Forall lgoal l | _ => True end).
      { intros a x Hx. apply sget_In in Hx. exact (IH _ Hx (V2 _ Hx)). }
      assert (Kids : forall a x, sget a attrs = Some x -> vall lnode x = true).
      { intros a x Hx. apply sget_In in Hx. exact (V2 _ Hx). }
      eapply object_written; eauto.
  Qed.

  Theorem document_written v : typed W v = true -> regular W m v = true -> vall (fun c _ _ attrs => extra c attrs) v = true ->
    forall e, etree W prec vb v = Ok e -> document_values_ok Want schema_uris schema_types schema_elements e.
  Proof.
    intros H1 H2 H3 e He. destruct v as [| | | | | | | | | | |c ns nss attrs]; try discriminate H1.
    assert (V : vall lnode (VObj c ns nss attrs) = true).
    { unfold typed, regular in *. refine (vall_and (fun c ns nss attrs => typed_node W c ns nss attrs && (ueqb ns (default_ns W c m) && same_nss nss m)) _ lnode _ _ _ H3); [|refine (vall_and _ _ _ _ _ H1 H2)]; intros c0 ns0 nss0 attrs0 A B; unfold lnode; now rewrite A, B. }
    assert (V' := V). cbn [vall] in V'. apply andb_prop in V' as [V1 _]. assert (V1' := V1). unfold lnode in V1'. rewrite !andb_true_iff in V1'. destruct V1' as [[T [N _]] _]. apply ueqb_eq in N. unfold typed_node in T.
    destruct (class_of W c) as [ci|] eqn:Hc; [|discriminate]. assert (HL' := HL). unfold fit_ok in HL'. apply andb_prop in HL' as [L _]. rewrite forallb_forall in L. specialize (L _ (sget_In _ _ _ Hc)). cbn [fst snd] in L. apply andb_prop in L as [L1 L2]. rewrite type_of_eq in L2.
    unfold document_values_ok. destruct (known_id (nsid W c)) eqn:K.
    - rewrite (lkid_tag _ _ _ _ _ V1 K He). change (lookup schema_uris (tag (class_sname W c)) schema_elements) with (class_type W c). destruct (class_type W c) as [ty|]; [|exact I]. exact (proj1 (all_written _ V) ty e K L2 He).
    - cbn [orb] in L1. assert (Q : exists x, e_tag e = (x ++ u (ci_tag ci))%list); [|destruct Q as [x ->]; now rewrite unheard_none].
      rewrite etree_obj in He. unfold write_with in He. rewrite Hc in He. destruct (ci_root ci).
      + rewrite set_element_emit in He. apply bind_ok in He as [x [_ He]]. injection He as <-. unfold root_elem. destruct (uempty ns).
        * exists ns. reflexivity.
        * exists ns. reflexivity.
      + rewrite set_elements_emit in He. apply bind_ok in He as [ms [_ He]]. injection He as <-. exists ns. now rewrite fold_tag.
  Qed.
End Written.
