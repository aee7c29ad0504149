(** * Written values are in the ranges of XML Schema: proofs. *)
From Coq Require Import String List NArith ZArith Bool Arith Lia.
From Verif Require Import Ustr UstrProofs Res PyInt PyFloat PyNumProofs PyDate Elem Value Geom Codec Spec Settled EmitProofs CodecProofs
  ItemProofs RoundTrip WriteProofs ValueProofs Schema SchemaTables SchemaSpec SlotProofs SchemaProofs Lexical ValuesWritten Facets.
Import ListNotations.
Local Open Scope string_scope.

Definition no_range (st : sname) : bool := match range_of st with Some _ => false | None => true end.
Definition no_pattern (st : sname) : bool := match find (fun p => sname_eqb (fst p) st) text_types with Some _ => false | None => true end.
Definition open (st : sname) : bool := no_range st && no_pattern st.

Lemma open_ok st s : open st = true -> facet st s.
Proof.
  unfold open, no_range, no_pattern, facet, text_form. intro H. apply andb_prop in H as [H1 H2]. destruct (range_of st); [discriminate|]. now destruct (find _ text_types).
Qed.
Lemma text_ok st s : no_range st = true -> uempty s = false -> fits st (VStr s) = true -> facet st s.
Proof. unfold no_range, facet, fits. destruct (range_of st); [discriminate|]. intros _ ->. now intro H. Qed.
Lemma number_ok st n s : no_pattern st = true -> num_valid n = true -> num_str n = Ok s -> fits st (VNum n) = true -> facet st s.
Proof.
  unfold no_pattern, facet, fits, text_form. intros P V E F. destruct (range_of st) as [[lo hi]|]; [exists (to_float n); split; [exact (proj1 (num_str_spec n s V E))|exact F]|]. now destruct (find _ text_types).
Qed.

(** ** Classes *)

Definition leaf_sts (d : decl) (n : sname) : list sname :=
  match kid_of d n with
  | Some ty => match type_decl ty with Some d' => match d_text d' with Some st => [st] | None => [] end | None => [] end
  | None => []
  end.
Definition attr_sts (d : decl) (n : string) : list sname := map snd (filter (fun y => String.eqb (fst (fst y)) n) (d_attrs d)).
Definition sts_in (W : world) (c : string) (d : decl) (it : item) : list sname :=
  match it_set it with
  | SAttrText | SAttrInt | SAttrFloat => attr_sts d (it_node it)
  | SText | SInt | SFloat => leaf_sts d (nsid W c, it_node it)
  | _ => []
  end.
Definition sts_of (W : world) (c : string) (it : item) : list sname :=
  match type_of W c with Some ty => match type_decl ty with Some d => sts_in W c d it | None => [] end | None => [] end.

Lemma nsid_eq W c : nsid W c = fst (class_sname W c).
Proof. unfold nsid, class_sname. now destruct (class_of W c). Qed.
Lemma sts_in_eq W c d it : sts_in W c d it = types_in W c d it.
Proof.
  unfold sts_in, types_in, leaf_sts, text_type, type_decl. rewrite kid_of_eq, nsid_eq. destruct (it_set it); try reflexivity;
    (destruct (S_kid d _) as [ty|]; [|reflexivity]; now destruct (find _ schema_types) as [[? d']|]).
Qed.
Lemma sts_of_eq W c it : sts_of W c it = types_of W c it.
Proof.
  unfold sts_of, types_of, type_decl. rewrite type_of_eq. destruct (class_type W c) as [ty|]; [|reflexivity]. destruct (find _ schema_types) as [[? d]|]; [|reflexivity]. apply sts_in_eq.
Qed.

Lemma leaf_lex_sts d P n : forallb P (leaf_sts d n) = true -> leaf_lex d P n = true.
Proof.
  unfold leaf_sts, leaf_lex. destruct (kid_of d n) as [ty|]; [|reflexivity]. destruct (type_decl ty) as [d'|]; [|reflexivity]. destruct (d_text d'); [|reflexivity]. cbn. now rewrite andb_true_r.
Qed.
Lemma attr_lex_sts d P n : forallb P (attr_sts d n) = true -> attr_lex d P n = true.
Proof.
  unfold attr_sts, attr_lex. rewrite !forallb_forall. intros H x Hx. destruct (String.eqb (fst (fst x)) n) eqn:E; [|reflexivity]. cbn. apply H, in_map, filter_In. auto.
Qed.

Definition same_sts (W : world) (c : string) (d : decl) (it : item) (P : sname -> bool) : bool :=
  forallb (fun st => P st && existsb (sname_eqb st) (sts_of W c it) && fits st (it_default it)) (sts_in W c d it).
Definition item_facet (W : world) (c : string) (d : decl) (it : item) : bool :=
  let own := (nsid W c, it_node it) in
  match it_set it with
  | SNodeText | SCoords => true
  | SAttrText | SText => same_sts W c d it no_range
  | SAttrInt | SAttrFloat | SInt | SFloat => same_sts W c d it no_pattern
  | SAttrEnum => attr_lex d open (it_node it)
  | SBool | SCoordList => leaf_lex d open own
  | SEnum => forallb (fun m => let id := match snd m with Some id => id | None => nsid W c end in known_id id && leaf_lex d open (id, it_node it)) (members W it)
  | SDate => leaf_lex d open ("kml", it_node it)
  | SDates => leaf_lex d open ("kml", it_node it) && leaf_lex d open own
  | SObj | SObjs => forallb (kid_lex W d) (it_classes it)
  end.
Definition class_facet (W : world) (c : string) (d : decl) : bool :=
  match d_text d with Some st => open st | None => true end && forallb (item_facet W c d) (items_of W c).
Definition facet_ok (W : world) : bool := fit_ok W (class_facet W).

Section Facet.
  Variable W : world.
  Hypothesis HW : world_ok W = true.
  Variables (prec : option nat) (vb : verbosity) (m : nss_t).
  Hypothesis Hm : schema_nss m = true.
  Notation lnode := (lnode W (fitting_node W) m).
  Notation written_well := (written_well facet).

  Section Object.
    Variables (c : string) (ci : class_info) (ns : ustr) (nss : nss_t) (attrs : list (string * value)).
    Hypothesis Hc : class_of W c = Some ci.
    Hypothesis Hn : lnode c ns nss attrs = true.
    Hypothesis Hid : known_id (nsid W c) = true.

    Notation CF := (CF W HW c ci Hc).
    Notation n_parts := (n_parts W (fitting_node W) m c ns nss attrs Hn).
    Notation own := (own_name W (fitting_node W) m Hm c ci ns nss attrs Hc Hn Hid).

    Lemma value_facet it d P : In it (items_of W c) -> same_sts W c d it P = true ->
      forallb (fun st => P st && fits st (get_value vb (obj_attr ci attrs (it_attr it)) (it_default it))) (sts_in W c d it) = true.
    Proof.
      intros Hin H. assert (Hfi := find_item_NoDup _ _ (cf_attrs _ _ _ CF) Hin). unfold same_sts in H. rewrite forallb_forall in *. intros st Hst. specialize (H _ Hst). apply andb_prop in H as [H H3]. apply andb_prop in H as [H1 H2]. rewrite H1. cbn [andb].
      destruct (ItemProofs.get_value_cases vb (obj_attr ci attrs (it_attr it)) (it_default it)) as [->|[->| ->]]; [|exact H3|reflexivity].
      unfold obj_attr. destruct (sget (it_attr it) attrs) as [x|] eqn:Ex.
      - destruct n_parts as (_ & _ & _ & F). unfold fitting_node in F. rewrite forallb_forall in F. specialize (F _ (sget_In _ _ _ Ex)). cbn [fst snd] in F. rewrite Hfi, <- sts_of_eq, forallb_forall in F.
        apply existsb_exists in H2 as [st' [Hs E]]. unfold sname_eqb in E. apply andb_prop in E as [E1 E2]. apply seqb_eq in E1, E2. apply F. destruct st, st'. cbn [fst snd] in *. now subst.
      - destruct (ci_geom ci); try reflexivity. destruct (sget "track_items" attrs) as [x|]; [|reflexivity]. destruct x; try reflexivity. now repeat match goal with |- context [if ?b then _ else _] => destruct b end.
    Qed.

    Lemma value_typed it : In it (items_of W c) -> scalar_set (it_set it) = true ->
      match get_value vb (obj_attr ci attrs (it_attr it)) (it_default it) with VDates _ | VCoords _ _ => True | v => item_typed W it v = true end.
    Proof.
      intros Hin Hs. assert (Hfi := find_item_NoDup _ _ (cf_attrs _ _ _ CF) Hin).
      destruct (ItemProofs.get_value_cases vb (obj_attr ci attrs (it_attr it)) (it_default it)) as [->|[->| ->]]; [| |apply item_typed_none].
      - unfold obj_attr. destruct (sget (it_attr it) attrs) as [x|] eqn:Ex.
        + assert (A := v_typed W (fitting_node W) m c ci ns nss attrs Hc Hn _ _ _ Ex Hfi). destruct x; auto.
        + destruct (ci_geom ci); try apply item_typed_none. destruct (sget "track_items" attrs) as [x|]; [|apply item_typed_none]. destruct x; try apply item_typed_none.
          repeat match goal with |- context [if ?b then _ else _] => destruct b end; try exact I. apply item_typed_none.
      - assert (I := cf_items _ _ _ CF _ Hin). unfold item_ok in I. rewrite !andb_true_iff in I. destruct I as [[_ I] _]. unfold default_ok in I.
        assert (Q : item_typed W it (it_default it) && item_readable (it_default it) = true) by (destruct (it_set it); try discriminate Hs; exact I). apply andb_prop in Q as [Q _]. destruct (it_default it); auto.
    Qed.

    Lemma emit_facet it d e : In it (items_of W c) -> it_set it <> SObj -> it_set it <> SObjs -> item_facet W c d it = true ->
      emit W prec vb ci ns nss attrs (ws_of W prec vb attrs) it = Ok e -> written_well d e.
    Proof.
      intros Hin N1 N2 Hl E. unfold item_facet in Hl. cbv zeta in Hl. assert (SV := value_typed it Hin). assert (SF := fun P => value_facet it d P Hin). unfold sts_in in SF. unfold emit in E. cbv zeta in E. destruct (it_set it) eqn:Es.
      - (* node text *) destruct (get_value _ _ _); try discriminate E; [|destruct (uempty s)]; injection E as <-; apply ww_zero || apply ww_text.
      - (* text *) specialize (SF _ Hl). destruct (get_value _ _ _); try discriminate E; [|destruct (uempty s) eqn:Eu]; injection E as <-; try apply ww_zero.
        eapply ww_kid; [apply leaf_lex_sts, SF|apply own|]. intros st H. apply andb_prop in H as [H1 H2]. now apply text_ok.
      - (* attribute *) specialize (SF _ Hl). destruct (get_value _ _ _); try discriminate E; [|destruct (uempty s) eqn:Eu]; injection E as <-; try apply ww_zero.
        eapply ww_attr; [apply attr_lex_sts, SF|]. intros st H. apply andb_prop in H as [H1 H2]. now apply text_ok.
      - (* bool *) specialize (SV eq_refl). destruct (get_value _ _ _) as [ |b|[z|f]| | | | | | | | | ]; try discriminate E; [injection E as <-; apply ww_zero| |].
        + injection E as <-. eapply ww_kid; [exact Hl|apply own|]. intros st Hst. now apply open_ok.
        + exfalso. unfold item_typed in SV. rewrite Es in SV. discriminate.
      - (* int *) specialize (SV eq_refl). specialize (SF _ Hl). destruct (get_value _ _ _) eqn:G; try (injection E as <-; apply ww_zero); try discriminate E; apply bind_ok in E as [t [Et E]]; injection E as <-;
          try (exfalso; unfold item_typed in SV; rewrite Es in SV; discriminate).
        unfold item_typed in SV. rewrite Es in SV. destruct n as [z|f]; [|discriminate SV]. eapply ww_kid; [apply leaf_lex_sts, SF|apply own|]. intros st H. apply andb_prop in H as [H1 H2]. now apply (number_ok st (NInt z)).
      - (* attribute int *) specialize (SV eq_refl). specialize (SF _ Hl). destruct (get_value _ _ _) eqn:G; try (injection E as <-; apply ww_zero); try discriminate E; apply bind_ok in E as [t [Et E]]; injection E as <-;
          try (exfalso; unfold item_typed in SV; rewrite Es in SV; discriminate).
        unfold item_typed in SV. rewrite Es in SV. destruct n as [z|f]; [|discriminate SV]. eapply ww_attr; [apply attr_lex_sts, SF|]. intros st H. apply andb_prop in H as [H1 H2]. now apply (number_ok st (NInt z)).
      - (* float *) specialize (SV eq_refl). specialize (SF _ Hl). destruct (get_value _ _ _) eqn:G; try (injection E as <-; apply ww_zero); try discriminate E; apply bind_ok in E as [t [Et E]]; injection E as <-;
          try (exfalso; unfold item_typed in SV; rewrite Es in SV; discriminate).
        unfold item_typed in SV. rewrite Es in SV. eapply ww_kid; [apply leaf_lex_sts, SF|apply own|]. intros st H. apply andb_prop in H as [H1 H2]. now apply (number_ok st n).
      - (* attribute float *) specialize (SV eq_refl). specialize (SF _ Hl). destruct (get_value _ _ _) eqn:G; try (injection E as <-; apply ww_zero); try discriminate E; apply bind_ok in E as [t [Et E]]; injection E as <-;
          try (exfalso; unfold item_typed in SV; rewrite Es in SV; discriminate).
        unfold item_typed in SV. rewrite Es in SV. eapply ww_attr; [apply attr_lex_sts, SF|]. intros st H. apply andb_prop in H as [H1 H2]. now apply (number_ok st n).
      - (* enumeration *) specialize (SV eq_refl). destruct (get_value _ _ _) as [ | | | |ec mm| | | | | | | ] eqn:G; try discriminate E; injection E as <-; [apply ww_zero|].
        unfold item_typed in SV. rewrite Es in SV. destruct (members_in W ns nss it ec mm SV) as [o [Ho Eo]]. rewrite Eo. rewrite forallb_forall in Hl. specialize (Hl _ Ho). cbn [fst snd] in Hl.
        apply andb_prop in Hl as [K Hl]. eapply ww_kid; [exact Hl| |intros st Hst; now apply open_ok]. destruct o as [id|]; [rewrite (nss_get W (fitting_node W) m c ns nss attrs Hn); now apply tag_id|apply own].
      - (* attribute enumeration *) destruct (get_value _ _ _) as [ | | | |ec mm| | | | | | | ] eqn:G; try discriminate E; injection E as <-; [apply ww_zero|].
        eapply ww_attr; [exact Hl|intros st Hst; now apply open_ok].
      - (* date *) destruct (get_value _ _ _) eqn:G; try discriminate E; injection E as <-; [apply ww_zero|].
        eapply ww_kid; [exact Hl|unfold date_ns; rewrite (nss_get W (fitting_node W) m c ns nss attrs Hn); now apply tag_id|]. intros st Hst. now apply open_ok.
      - (* dates *) apply andb_prop in Hl as [Hl1 Hl2]. destruct (get_value _ _ _) as [ | | | | | | | |l| | | ] eqn:G; try discriminate E; [injection E as <-; apply ww_zero|].
        apply bind_ok in E as [ks [Ek E]]. injection E as <-. apply ww_kids.
        apply map_res_ok in Ek. revert ks Ek. clear G SV SF. induction l as [|o l IH]; intros ks Ek; cbn [map] in Ek; inversion Ek as [|? k ? ks' Hk Ek']; subst; constructor; [|now apply IH].
        destruct o as [dt|]; cbn in Hk; injection Hk as <-.
        + eapply leaf_good; [exact Hl1|unfold date_ns; rewrite (nss_get W (fitting_node W) m c ns nss attrs Hn); now apply tag_id|]. intros st Hst. now apply open_ok.
        + eapply leaf_good; [exact Hl2|apply own|]. intros st Hst. now apply open_ok.
      - (* list of coordinates *) destruct (get_value _ _ _) as [ | | | | | | |b l| | | | ] eqn:G; try discriminate E; [injection E as <-; apply ww_zero|].
        apply bind_ok in E as [ks [Ek E]]. injection E as <-. apply ww_kids. apply map_res_ok in Ek. revert ks Ek. clear G SV SF. induction l as [|x l IH]; intros ks Ek; cbn [map] in Ek; inversion Ek as [|? k ? ks' Hk Ek']; subst; constructor; [|now apply IH].
        apply bind_ok in Hk as [y [Hy Hk]]. injection Hk as <-. apply bind_ok in Hy as [s [_ Hy]]. injection Hy as <-. eapply leaf_good; [exact Hl|apply own|]. intros st Hst. now apply open_ok.
      - (* coordinates *) destruct (obj_attr ci attrs (it_attr it)); try discriminate E; [injection E as <-; apply ww_zero|].
        destruct (nilb l); [injection E as <-; apply ww_zero|]. apply bind_ok in E as [s [_ E]]. injection E as <-. apply ww_text.
      - now contradict N1.
      - now contradict N2.
    Qed.
  End Object.

  Theorem facets_written : facet_ok W = true -> forall v, typed W v = true -> regular W m v = true -> fitting W v = true ->
    forall e, etree W prec vb v = Ok e -> facets_valid e.
  Proof.
    intros HL v T R P e He. refine (document_written W HW facet (fitting_node W) (class_facet W) prec vb m Hm HL _ _ _ v T R P e He).
    - intros c d st s F E. unfold class_facet in F. rewrite E in F. apply andb_prop in F as [F _]. now apply open_ok.
    - intros c d it F Hin S. unfold class_facet in F. apply andb_prop in F as [_ F]. rewrite forallb_forall in F. specialize (F _ Hin). unfold item_facet in F. destruct S as [S|S]; rewrite S in F; exact F.
    - intros c ci ns nss attrs it d x Hc Hn Hid F Hin N1 N2 E. unfold class_facet in F. apply andb_prop in F as [_ F]. rewrite forallb_forall in F. exact (emit_facet c ci ns nss attrs Hc Hn Hid it d x Hin N1 N2 (F _ Hin) E).
  Qed.
End Facet.
