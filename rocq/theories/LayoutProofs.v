(** * The reader does not see the layout of a document. *)
From Coq Require Import String List NArith ZArith Bool Lia.
From Verif Require Import Ustr UstrProofs Res PyInt PyFloat PyDate Elem Value Geom Codec Tables Spec EmitProofs CodecProofs ReadProofs RoundTrip NsProofs SettledProofs Agree AgreeProofs Layout HarmlessProofs.
Import ListNotations.

Lemma edited_head W nss e e' : edited W nss e e' -> e_tag e = e_tag e' /\ e_text e = e_text e'.
Proof. induction 1; cbn in *; intuition congruence. Qed.

Lemma unknown_foreign W nss tag : unknown_tag W nss tag -> forall c, foreign_tag W nss c tag.
Proof.
  intros H c it id n Hi Hid Hn. destruct (H c it id Hi Hid) as [H1 H2]. unfold get_names in Hn.
  destruct (it_get it); try contradiction; try (destruct Hn as [<-|[]]; exact H1); apply in_map_iff in Hn as [c' [<- Hc']]; now apply H2.
Qed.

Lemma unknown_foreign_attr W nss key : unknown_attribute W nss key -> forall c, foreign_attr W nss c key.
Proof.
  intros H c it id n Hi Hid Hn. unfold get_attrs in Hn. destruct (it_get it); try contradiction; destruct Hn as [<-|[]]; now apply (H c).
Qed.

Lemma swap_attributes W strict c ns nss t a p q b x ks : fst p <> fst q ->
  from_element W strict (Elem t (a ++ p :: q :: b) x ks) c ns nss = from_element W strict (Elem t (a ++ q :: p :: b) x ks) c ns nss.
Proof.
  intro H. cbn [from_element]. unfold read_with. cbv zeta. f_equal. apply get_kwargs_ext. intros it id Hi Hid. apply get_kwarg_ext; auto.
  intros n Hn. rewrite !AgreeProofs.uget_app. destruct p as [k v], q as [k' v']. cbn [uget fst] in *. destruct (ueqb_spec (ns_get (merge_ns nss) id ++ u n) k) as [E|], (ueqb_spec (ns_get (merge_ns nss) id ++ u n) k') as [E'|]; try reflexivity. congruence.
Qed.

Theorem edited_read W strict nss e e' : edited W (merge_ns nss) e e' -> forall c ns,
  from_element W strict e c ns (merge_ns nss) = from_element W strict e' c ns (merge_ns nss).
Proof.
  assert (M : merge_ns (merge_ns nss) = merge_ns nss) by apply merge_ns_idem. remember (merge_ns nss) as m eqn:Em. clear Em nss.
  induction 1 as [e|e e' H IH|e e' e'' H1 IH1 H2 IH2|t a x l k1 k2 r H|t a x l k r H|t a key val b x ks H|t a p q b x ks H|t a x l k k' r H IH]; intros c ns.
  - reflexivity.
  - symmetry. apply IH.
  - now rewrite IH1.
  - apply same_children. intro tag. rewrite !with_tag_app. f_equal. cbn [with_tag filter].
    destruct (ueqb_spec (e_tag k1) tag), (ueqb_spec (e_tag k2) tag); try reflexivity. congruence.
  - apply foreign_child. rewrite M. now apply unknown_foreign.
  - apply foreign_attribute. rewrite M. now apply unknown_foreign_attr.
  - now apply swap_attributes.
  - destruct (edited_head _ _ _ _ H) as [Et Ex]. apply child_context; [exact Et|exact Ex|]. rewrite M. exact IH.
Qed.

(** ** White space *)

(** The only readers that look at raw text are those of the elements named in
    [text_respaced]. *)
Definition layout_ok (W : world) : bool :=
  String.eqb (tag_of W "geometry.Coordinates") "coordinates" &&
  forallb (fun cc => forallb (fun it =>
    match it_get it with
    | GDates => String.eqb (it_node it) "when"
    | GCoordList => String.eqb (it_node it) "coord" || String.eqb (it_node it) "angles"
    | GCoords => String.eqb (fst cc) "geometry.Coordinates"
    | _ => true
    end) (items_of W (fst cc))) (w_classes W).

Lemma fastkml_layout arrow : layout_ok (fastkml arrow) = true.
Proof. vm_compute. reflexivity. Qed.

Lemma respaced_stripped tag x x' : text_respaced tag x x' -> stripped x = stripped x'.
Proof.
  unfold text_respaced. destruct (ends_with tag (u "when")); [now intros ->|]. destruct (_ || _); [|auto].
  destruct x as [a|], x' as [b|]; try tauto. intros [E _]. unfold stripped. now rewrite E.
Qed.

Lemma ends_with_tail a b t : (length t <= length b)%nat -> ends_with (a ++ b) t = ends_with b t.
Proof.
  intro H. unfold ends_with. rewrite app_length. rewrite skipn_app.
  rewrite (skipn_all2 a) by lia. cbn [app]. replace (length a + length b - length t - length a)%nat with (length b - length t)%nat by lia.
  f_equal. replace (Nat.leb (length t) (length b)) with true by (symmetry; apply Nat.leb_le; lia). apply Nat.leb_le. lia.
Qed.

Lemma with_tag_respaced tag ks ks' : Forall2 respaced ks ks' -> Forall2 respaced (with_tag tag ks) (with_tag tag ks').
Proof.
  induction 1 as [|k k' ks ks' H _ IH]; [constructor|]. cbn [with_tag filter]. assert (E : e_tag k = e_tag k') by (inversion H; reflexivity).
  rewrite <- E. destruct (ueqb (e_tag k) tag); [constructor|]; assumption.
Qed.

Definition coords_kept (x x' : option ustr) : Prop :=
  match x, x' with Some a, Some b => strip a = strip b /\ (a = [] <-> b = []) | None, None => True | _, _ => False end.

Lemma coords_respaced tag x x' : ends_with tag (u "when") = false -> ends_with tag (u "coord") || ends_with tag (u "angles") || ends_with tag (u "coordinates") = true ->
  text_respaced tag x x' -> coords_kept x x'.
Proof. intros H1 H2. unfold text_respaced. now rewrite H1, H2. Qed.

(** An element of the class: only for coordinates does the tag matter. *)
Definition fits (W : world) (c : string) (e : elem) : Prop := c = "geometry.Coordinates"%string -> ends_with (e_tag e) (u "coordinates") = true.

Lemma respaced_agree W nss : layout_ok W = true -> forall e e' c, respaced e e' -> fits W c e -> agree W nss c e e'.
Proof.
  intros HW e. induction e as [t a x ks IH] using elem_ind'. intros e' c H Hf. inversion H as [? ? ? x' ? ks' Hx Hks]; subst. rewrite Forall_forall in IH.
  unfold layout_ok in HW. apply andb_prop in HW as [Hct HW]. apply String.eqb_eq in Hct. rewrite forallb_forall in HW.
  assert (Kid : forall id c', Forall2 (agree W nss c') (with_tag (ns_get nss id ++ u (tag_of W c')) ks) (with_tag (ns_get nss id ++ u (tag_of W c')) ks')).
  { intros id c'. eapply Forall2_in; [apply with_tag_respaced; exact Hks|]. intros k k' Hin Hkk. apply filter_In in Hin as [Hin Ht]. apply ueqb_eq in Ht.
    apply IH; [exact Hin|exact Hkk|]. unfold fits. intros ->. rewrite Ht, Hct. apply ends_with_app. }
  constructor.
  - intros it id Hi Hid.
    assert (Hit : match it_get it with
                  | GDates => String.eqb (it_node it) "when"
                  | GCoordList => String.eqb (it_node it) "coord" || String.eqb (it_node it) "angles"
                  | GCoords => String.eqb c "geometry.Coordinates" | _ => true end = true).
    { assert (Hi' := Hi). unfold items_of in Hi'. destruct (class_of W c) as [ci|] eqn:E; [|contradiction]. specialize (HW (c, ci) (sget_In _ _ _ E)). cbn [fst] in HW. rewrite forallb_forall in HW. exact (HW it Hi). }
    assert (R : forall tag, Forall2 respaced (with_tag tag ks) (with_tag tag ks')) by (intro; now apply with_tag_respaced).
    assert (L : leaf_text (ns_get nss id ++ u (it_node it)) ks = leaf_text (ns_get nss id ++ u (it_node it)) ks').
    { unfold leaf_text. destruct (R (ns_get nss id ++ u (it_node it))) as [|k k' l l' Hk _]; [reflexivity|]. inversion Hk; subst. cbn [e_text]. eapply respaced_stripped; eassumption. }
    destruct (it_get it) eqn:G; try reflexivity; try exact I; try exact L.
    + cbn [texts_alike]. eapply respaced_stripped, Hx.
    + apply String.eqb_eq in Hit. rewrite Hit. eapply Forall2_in; [apply R|]. intros k k' Hin Hkk. cbn [texts_alike]. apply filter_In in Hin as [_ Ht]. apply ueqb_eq in Ht.
      inversion Hkk as [? ? ? ? ? ? Hxx _]; subst. cbn [e_text e_tag] in *. unfold text_respaced in Hxx. now rewrite Ht, ends_with_app in Hxx.
    + eapply Forall2_in; [apply R|]. intros k k' Hin Hkk. apply filter_In in Hin as [_ Ht]. apply ueqb_eq in Ht.
      inversion Hkk as [tk ? y y' ? ? Hxx _]; subst. cbn [e_text e_tag] in *.
      assert (C : coords_kept y y').
      { apply (coords_respaced tk y y'); [| |exact Hxx]; subst tk; apply orb_prop in Hit as [Hit|Hit]; apply String.eqb_eq in Hit; rewrite Hit.
        1-2: rewrite ends_with_tail by (cbn; lia); reflexivity.
        - now rewrite ends_with_app.
        - now rewrite ends_with_app, orb_true_r. }
      unfold coords_kept in C. cbn [texts_alike]. destruct y as [s|], y' as [s'|]; try tauto. destruct C as [C1 C2]. split; [now rewrite <- words_strip, C1, words_strip|].
      destruct s, s'; cbn; try reflexivity; [destruct C2 as [C2 _]|destruct C2 as [_ C2]]; specialize (C2 eq_refl); discriminate.
    + apply String.eqb_eq in Hit. specialize (Hf Hit). cbn [e_tag] in Hf.
      assert (C : coords_kept x x').
      { unfold text_respaced in Hx. rewrite Hf, !orb_true_r in Hx. destruct (ends_with t (u "when")); [subst x'; unfold coords_kept; destruct x; [split; [reflexivity|tauto]|exact I]|exact Hx]. }
      unfold coords_kept in C. cbn [texts_alike]. destruct x as [s|], x' as [s'|]; tauto.
  - intros it id c' Hi Hid G Hc'. destruct (Kid id c') as [|k k' l l' Hk _]; constructor. exact Hk.
  - intros it id c' Hi Hid G Hc'. apply Kid.
Qed.
