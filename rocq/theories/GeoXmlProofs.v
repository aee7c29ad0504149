(** * Created geometries: typed, regular, written, read back. *)
From Coq Require Import String List NArith ZArith Bool Lia.
From Verif Require Import Ustr UstrProofs Res PyInt PyFloat PyDate Elem Value Geom Codec Tables Spec Settled EmitProofs ItemProofs RoundTrip FastkmlOk SettledProofs WriteProofs
  Create GeoSpec CreateProofs.
Import ListNotations.
Local Open Scope string_scope.

(** Options of the documented types. *)
Definition opt_bool (v : value) : Prop := v = VNone \/ exists b, v = VBool b.
Definition opt_altitude (W : world) (v : value) : Prop :=
  v = VNone \/ exists m, v = VEnum "enums.AltitudeMode" m /\ enum_member W ["enums.AltitudeMode"] "enums.AltitudeMode" m = true.
Definition opts_typed (W : world) (o : gopts) : Prop :=
  opt_bool (o_extrude o) /\ opt_bool (o_tessellate o) /\ opt_altitude W (o_altitude o).

(** ** A predicate on all objects inside a created geometry *)
Section Nodes.
  Variable P : string -> ustr -> nss_t -> list (string * value) -> bool.
  Variables (W : world) (n : ustr) (m : nss_t) (Q : list num -> Prop).
  Let flat (v : value) : Prop := match v with VObj _ _ _ _ | VList _ => False | _ => True end.

  Hypothesis P_coords : forall l, l <> [] -> (forall c, In c l -> Q c) -> P "geometry.Coordinates" KMLNS NAME_SPACES [("coords", VCoords true l)] = true.
  Hypothesis P_leaf : forall c n' m' id tid o l, In c ["geometry.Point"; "geometry.LineString"; "geometry.LinearRing"] ->
    (n' = n /\ m' = m \/ n' = KMLNS /\ m' = NAME_SPACES) -> textual id -> textual tid -> opts_typed W o ->
    match leaf_obj c n' m' id tid o l with VObj c n' m' attrs => P c n' m' attrs | _ => false end = true.
  Hypothesis P_boundary : forall c l, c = "geometry.OuterBoundaryIs" \/ c = "geometry.InnerBoundaryIs" ->
    match boundary_obj c l with VObj c n' m' attrs => P c n' m' attrs | _ => false end = true.
  Hypothesis P_polygon : forall id tid o s hs, textual id -> textual tid -> opts_typed W o ->
    match polygon_obj n m id tid o s hs with VObj c n' m' attrs => P c n' m' attrs | _ => false end = true.
  Hypothesis P_multi : forall id tid l, textual id -> textual tid -> (forall x, In x l -> is_obj_of ["geometry.Point"; "geometry.LineString"; "geometry.Polygon"; "geometry.LinearRing"; "geometry.MultiGeometry"] x = true) ->
    match multi_obj n m id tid l with VObj c n' m' attrs => P c n' m' attrs | _ => false end = true.

  Lemma flat_vall v : flat v -> vall P v = true.
  Proof. destruct v; cbn; tauto. Qed.
  Lemma flat_empty v : flat (or_empty v).
  Proof. destruct v; try exact I. cbn. now destruct (uempty s). Qed.
  Lemma flat_bool v : opt_bool v -> flat v.
  Proof. intros [-> | [b ->]]; exact I. Qed.
  Lemma flat_altitude v : opt_altitude W v -> flat v.
  Proof. intros [-> | [b [-> _]]]; exact I. Qed.

  Lemma coords_all l : l <> [] -> (forall c, In c l -> Q c) -> vall P (coords_obj l) = true.
  Proof. intros H0 H. unfold coords_obj. cbn [vall]. rewrite (P_coords l H0 H). reflexivity. Qed.

  Lemma leaf_all c n' m' id tid o l : In c ["geometry.Point"; "geometry.LineString"; "geometry.LinearRing"] ->
    (n' = n /\ m' = m \/ n' = KMLNS /\ m' = NAME_SPACES) -> textual id -> textual tid -> opts_typed W o -> l <> [] -> (forall x, In x l -> Q x) ->
    vall P (leaf_obj c n' m' id tid o l) = true.
  Proof.
    intros Hc Hn Hi Ht Ho H0 Hl. assert (A := P_leaf c n' m' id tid o l Hc Hn Hi Ht Ho). unfold leaf_obj in *. cbn [vall]. rewrite A. cbn [andb].
    destruct Ho as [O1 [O2 O3]]. assert (C := coords_all l H0 Hl).
    destruct (String.eqb c "geometry.Point"); cbn [app forallb]; rewrite C, ?(flat_vall _ (flat_bool _ O1)), ?(flat_vall _ (flat_bool _ O2)), (flat_vall _ (flat_altitude _ O3)),
      (flat_vall _ (flat_empty id)), (flat_vall _ (flat_empty tid)); reflexivity.
  Qed.

  Lemma no_opts_typed : opts_typed W no_opts.
  Proof. repeat split; now left. Qed.

  Lemma boundary_all c l : c = "geometry.OuterBoundaryIs" \/ c = "geometry.InnerBoundaryIs" -> l <> [] -> (forall x, In x l -> Q x) -> vall P (boundary_obj c l) = true.
  Proof.
    intros Hc H0 Hl. assert (A := P_boundary c l Hc). unfold boundary_obj in *. cbn [vall forallb]. rewrite A. cbn [andb].
    rewrite leaf_all; auto using textual_none, no_opts_typed. cbn; auto.
  Qed.

  Lemma polygon_all id tid o s hs : textual id -> textual tid -> opts_typed W o -> s <> [] -> (forall h, In h hs -> h <> []) -> (forall x, In x (s ++ concat hs)%list -> Q x) ->
    vall P (polygon_obj n m id tid o s hs) = true.
  Proof.
    intros Hi Ht Ho H0 Hh Hl. assert (A := P_polygon id tid o s hs Hi Ht Ho). unfold polygon_obj in *. cbn [vall forallb]. rewrite A. cbn [andb].
    destruct Ho as [O1 [O2 O3]].
    rewrite boundary_all by (auto; intros; apply Hl; apply in_or_app; auto). cbn [andb].
    rewrite ?(flat_vall _ (flat_bool _ O1)), ?(flat_vall _ (flat_bool _ O2)), (flat_vall _ (flat_altitude _ O3)), (flat_vall _ (flat_empty id)), (flat_vall _ (flat_empty tid)).
    rewrite !andb_true_r. apply forallb_forall. intros x Hx. apply in_map_iff in Hx as [h [<- Hh']]. apply boundary_all; auto.
    intros x Hx. apply Hl. apply in_or_app. right. apply in_concat. eauto.
  Qed.

  Lemma multi_all id tid l : textual id -> textual tid -> (forall x, In x l -> is_obj_of ["geometry.Point"; "geometry.LineString"; "geometry.Polygon"; "geometry.LinearRing"; "geometry.MultiGeometry"] x = true) ->
    (forall x, In x l -> vall P x = true) -> vall P (multi_obj n m id tid l) = true.
  Proof.
    intros Hi Ht Hc Hl. assert (A := P_multi id tid l Hi Ht Hc). unfold multi_obj in *. cbn [vall forallb]. rewrite A. cbn [andb].
    rewrite (flat_vall _ (flat_empty id)), (flat_vall _ (flat_empty tid)). rewrite !andb_true_r. now apply forallb_forall.
  Qed.

  Lemma geo_obj_class id tid o g : is_obj_of ["geometry.Point"; "geometry.LineString"; "geometry.Polygon"; "geometry.LinearRing"; "geometry.MultiGeometry"] (geo_obj n m id tid o g) = true.
  Proof. destruct g; reflexivity. Qed.

  Lemma line_wf_ne l : line_wf l -> l <> [].
  Proof. now intros []. Qed.
  Lemma ring_wf_ne l : ring_wf l -> l <> [].
  Proof. intros []. now apply line_wf_ne. Qed.

  Theorem geo_obj_all o : opts_typed W o -> forall g id tid, textual id -> textual tid -> geo_wf g -> (forall c, In c (geo_points g) -> Q c) ->
    vall P (geo_obj n m id tid o g) = true.
  Proof.
    intro Ho. assert (PT := textual_none).
    apply (geo_ind' (fun g => forall id tid, textual id -> textual tid -> geo_wf g -> (forall c, In c (geo_points g) -> Q c) -> vall P (geo_obj n m id tid o g) = true));
      cbn [geo_obj geo_wf geo_points].
    - intros c id tid Hi Ht H Hq. apply leaf_all; auto; [cbn; auto|discriminate].
    - intros l id tid Hi Ht H Hq. apply leaf_all; auto using line_wf_ne. cbn; auto.
    - intros l id tid Hi Ht H Hq. apply leaf_all; auto using ring_wf_ne. cbn; auto.
    - intros s hs id tid Hi Ht [H1 H2] Hq. apply polygon_all; auto using ring_wf_ne. intros h Hh. rewrite Forall_forall in H2. auto using ring_wf_ne.
    - intros l id tid Hi Ht [_ H] Hq. apply multi_all; auto; intros x Hx; apply in_map_iff in Hx as [c [<- Hc]]; [reflexivity|].
      apply leaf_all; auto; [cbn; auto|discriminate|]. intros x [<-|[]]. auto.
    - intros l id tid Hi Ht [_ H] Hq. rewrite Forall_forall in H. apply multi_all; auto; intros x Hx; apply in_map_iff in Hx as [c [<- Hc]]; [reflexivity|].
      apply leaf_all; auto using line_wf_ne; [cbn; auto|]. intros x Hx. apply Hq. apply in_concat. eauto.
    - intros l id tid Hi Ht [_ H] Hq. rewrite Forall_forall in H. apply multi_all; auto; intros x Hx; apply in_map_iff in Hx as [c [<- Hc]]; [reflexivity|].
      destruct (H _ Hc) as [H1 H2]. rewrite Forall_forall in H2. apply polygon_all; auto using ring_wf_ne. intros x Hx. apply Hq. apply in_concat. eexists. split; [|exact Hx]. apply in_map_iff. eauto.
    - intros l IH id tid Hi Ht [_ H] Hq. apply multi_all; auto; intros x Hx; apply in_map_iff in Hx as [g [<- Hg]]; [apply geo_obj_class|].
      assert (Hw : geo_wf g). { clear -H Hg. induction l as [|y l IH]; [destruct Hg|]. destruct H, Hg as [->|]; auto. }
      rewrite Forall_forall in IH. apply IH; auto. intros c Hc. apply Hq. apply in_concat. eexists. split; [|exact Hc]. now apply in_map.
  Qed.
End Nodes.

(** ** Instances for fastkml *)

Definition pts (c : list num) : Prop := point_wf c = true /\ doubles c = true.

Lemma doubles_valid c : doubles c = true -> nums_valid c = true.
Proof. unfold doubles, nums_valid. intro H. apply forallb_forall. rewrite forallb_forall in H. intros x Hx. specialize (H x Hx). now destruct x. Qed.
Lemma doubles_norm c : doubles c = true -> point_norm None c = c.
Proof. unfold doubles, point_norm. induction c as [|[z|f] c IH]; cbn; intro H; try discriminate; [reflexivity|]. apply andb_prop in H as [_ H]. now rewrite IH. Qed.
Lemma doubles_print c : doubles c = true -> forallb (num_prints None) c = true.
Proof. unfold doubles. intro H. apply forallb_forall. rewrite forallb_forall in H. intros x Hx. specialize (H x Hx). destruct x; [discriminate|]. apply float_prints. Qed.

Lemma geo_points_wf : forall g, geo_wf g -> forall c, In c (geo_points g) -> point_wf c = true.
Proof.
  assert (L : forall l, line_wf l -> forall c, In c l -> point_wf c = true) by now intros l [_ [H _]].
  assert (R : forall l, ring_wf l -> forall c, In c l -> point_wf c = true) by (intros l [H _]; now apply L).
  assert (G : forall s hs, ring_wf s -> Forall ring_wf hs -> forall c, In c (s ++ concat hs)%list -> point_wf c = true).
  { intros s hs Hs Hh c Hc. rewrite Forall_forall in Hh. apply in_app_or in Hc as [Hc|Hc]; [eauto|]. apply in_concat in Hc as [h [H1 H2]]. eauto. }
  apply (geo_ind' (fun g => geo_wf g -> forall c, In c (geo_points g) -> point_wf c = true)); cbn [geo_wf geo_points]; auto.
  - intros c H x [<-|[]]. exact H.
  - intros s h [H1 H2]. now apply G.
  - intros l [_ H] c Hc. rewrite Forall_forall in H. auto.
  - intros l [_ H] c Hc. rewrite Forall_forall in H. apply in_concat in Hc as [x [H1 H2]]. eauto.
  - intros l [_ H] c Hc. rewrite Forall_forall in H. apply in_concat in Hc as [x [H1 H2]]. apply in_map_iff in H1 as [[s h] [<- H1]]. destruct (H _ H1). eauto.
  - intros l IH [_ H] c Hc. apply in_concat in Hc as [x [H1 H2]]. apply in_map_iff in H1 as [g [<- H1]].
    assert (Hw : geo_wf g). { clear -H H1. induction l as [|y l IH]; [destruct H1|]. destruct H, H1 as [->|]; auto. }
    rewrite Forall_forall in IH. eauto.
Qed.

Section Fastkml.
  Variable arrow : ustr -> option datetime.
  Notation W := (fastkml arrow).

  Lemma or_empty_cases v : textual v -> exists s, or_empty v = VStr s.
  Proof. intros [-> | [s ->]]; cbn; [eauto|]. destruct (uempty s); eauto. Qed.

  Ltac opts H := let b1 := fresh "b" in let b2 := fresh "b" in let a := fresh "a" in
    destruct H as [H1 [H2 [H3 | [a [H3 H4]]]]]; destruct H1 as [H1 | [b1 H1]]; destruct H2 as [H2 | [b2 H2]]; cbn in H1, H2, H3; subst.

  Definition altitudes : list value := VNone :: map (fun p => VEnum "enums.AltitudeMode" (fst p)) en_AltitudeMode.
  Lemma altitude_cases v : opt_altitude W v -> In v altitudes.
  Proof.
    intros [-> | [a [-> H]]]; [now left|]. right. apply in_map_iff.
    assert (E : sget "enums.AltitudeMode" (w_enums W) = Some en_AltitudeMode) by reflexivity.
    unfold enum_member in H. rewrite E in H. rewrite String.eqb_refl in H. cbn [andb] in H. clear E.
    generalize dependent en_AltitudeMode. intro l. induction l as [|[k w] l IH]; cbn [uget]; [discriminate|].
    destruct (ueqb a k) eqn:E; intro H.
    - apply ueqb_eq in E as ->. exists (k, w). split; [reflexivity|now left].
    - destruct (IH H) as [q [Hq Hl]]. exists q. split; [exact Hq|now right].
  Qed.

  Lemma geo_typed o g id tid n m : opts_typed W o -> textual id -> textual tid -> geo_wf g -> (forall c, In c (geo_points g) -> doubles c = true) ->
    vall (typed_node W) (geo_obj n m id tid o g) = true.
  Proof.
    intros Ho Hi Ht Hg Hd.
    assert (AL : forall c, In c ["geometry.Point"; "geometry.LineString"; "geometry.LinearRing"; "geometry.Polygon"] -> forall v, opt_altitude W v ->
      match class_of W c with Some ci => attr_typed W ci (items_of W c) ("altitude_mode", v) | None => false end = true).
    { clear. intros c Hc v Hv. apply altitude_cases in Hv. cbn [In] in Hc. cbn [altitudes en_AltitudeMode map fst In] in Hv.
      repeat destruct Hc as [<- | Hc]; try destruct Hc; repeat destruct Hv as [<- | Hv]; try destruct Hv; vm_compute; reflexivity. }
    assert (BL : forall c a, In (c, a) [("geometry.Point", "extrude"); ("geometry.LineString", "extrude"); ("geometry.LineString", "tessellate"); ("geometry.LinearRing", "extrude"); ("geometry.LinearRing", "tessellate");
        ("geometry.Polygon", "extrude"); ("geometry.Polygon", "tessellate")] -> forall v, opt_bool v ->
      match class_of W c with Some ci => attr_typed W ci (items_of W c) (a, v) | None => false end = true).
    { clear. intros c a Hc v Hv. cbn [In] in Hc. repeat destruct Hc as [[= <- <-] | Hc]; try destruct Hc; destruct Hv as [-> | [b ->]]; vm_compute; reflexivity. }
    apply (geo_obj_all (typed_node W) W n m pts); auto.
    - intros l H0 Hl. cbn. rewrite !andb_true_r. apply forallb_forall. intros c Hc. apply doubles_valid. now apply Hl.
    - clear -AL BL. intros c n' m' id tid o l Hc _ Hi Ht Ho. destruct o as [e t a]. destruct (or_empty_cases id Hi) as [s1 E1]. destruct (or_empty_cases tid Ht) as [s2 E2].
      unfold leaf_obj. rewrite E1, E2. cbn [o_extrude o_tessellate o_altitude]. destruct Ho as [O1 [O2 O3]]. cbn [o_extrude o_tessellate o_altitude] in O1, O2, O3.
      cbn [In] in Hc. unfold typed_node. destruct Hc as [<-|[<-|[<-|[]]]].
      + assert (A := AL "geometry.Point" ltac:(cbn; auto) a O3). assert (B := BL "geometry.Point" "extrude" ltac:(cbn; auto) e O1).
        set (k := class_of W "geometry.Point") in *. vm_compute in k. subst k. cbv iota in A, B |- *. cbn [String.eqb Ascii.eqb Bool.eqb app forallb]. rewrite A, B. vm_compute; reflexivity.
      + assert (A := AL "geometry.LineString" ltac:(cbn; auto) a O3). assert (B := BL "geometry.LineString" "extrude" ltac:(cbn; auto) e O1). assert (B' := BL "geometry.LineString" "tessellate" ltac:(cbn; auto) t O2).
        set (k := class_of W "geometry.LineString") in *. vm_compute in k. subst k. cbv iota in A, B, B' |- *. cbn [String.eqb Ascii.eqb Bool.eqb app forallb]. rewrite A, B, B'. vm_compute; reflexivity.
      + assert (A := AL "geometry.LinearRing" ltac:(cbn; auto) a O3). assert (B := BL "geometry.LinearRing" "extrude" ltac:(cbn; auto 10) e O1). assert (B' := BL "geometry.LinearRing" "tessellate" ltac:(cbn; auto 10) t O2).
        set (k := class_of W "geometry.LinearRing") in *. vm_compute in k. subst k. cbv iota in A, B, B' |- *. cbn [String.eqb Ascii.eqb Bool.eqb app forallb]. rewrite A, B, B'. vm_compute; reflexivity.
    - clear. intros c l [-> | ->]; vm_compute; reflexivity.
    - clear -AL BL. intros id tid o s hs Hi Ht Ho. destruct o as [e t a]. destruct (or_empty_cases id Hi) as [s1 E1]. destruct (or_empty_cases tid Ht) as [s2 E2].
      unfold polygon_obj. rewrite E1, E2. cbn [o_extrude o_tessellate o_altitude]. destruct Ho as [O1 [O2 O3]]. cbn [o_extrude o_tessellate o_altitude] in O1, O2, O3.
      assert (I : forallb (is_obj_of ["geometry.InnerBoundaryIs"]) (map (boundary_obj "geometry.InnerBoundaryIs") hs) = true).
      { apply forallb_forall. intros x Hx. apply in_map_iff in Hx as [h [<- _]]. reflexivity. }
      assert (I' : match class_of W "geometry.Polygon" with Some ci => attr_typed W ci (items_of W "geometry.Polygon") ("inner_boundaries", VList (map (boundary_obj "geometry.InnerBoundaryIs") hs)) | None => false end = true).
      { generalize dependent (map (boundary_obj "geometry.InnerBoundaryIs") hs). clear. intros l I. etransitivity; [|exact I]. cbn -[is_obj_of]. now rewrite !andb_true_r. }
      assert (A := AL "geometry.Polygon" ltac:(cbn; auto 10) a O3). assert (B := BL "geometry.Polygon" "extrude" ltac:(cbn; auto 10) e O1). assert (B' := BL "geometry.Polygon" "tessellate" ltac:(cbn; auto 10) t O2).
      unfold typed_node. set (k := class_of W "geometry.Polygon") in *. vm_compute in k. subst k. cbv iota in A, B, B', I' |- *. cbn [forallb]. rewrite A, B, B', I'. vm_compute; reflexivity.
    - clear. intros id tid l Hi Ht Hl. destruct (or_empty_cases id Hi) as [s1 E1]. destruct (or_empty_cases tid Ht) as [s2 E2]. unfold multi_obj. rewrite E1, E2.
      rewrite <- forallb_forall in Hl. cbn -[is_obj_of]. rewrite Hl. reflexivity.
    - intros c Hc. split; [now apply (geo_points_wf g)|auto].
  Qed.

  Lemma geo_regular o g id tid : opts_typed W o -> textual id -> textual tid -> geo_wf g -> regular W NAME_SPACES (geo_obj KMLNS NAME_SPACES id tid o g) = true.
  Proof.
    intros Ho Hi Ht Hg. apply (geo_obj_all _ W KMLNS NAME_SPACES (fun _ => True)); auto; clear; intros; try reflexivity.
    - unfold leaf_obj. cbn [In] in H. destruct H as [<-|[<-|[<-|[]]]]; destruct H0 as [[-> ->]|[-> ->]]; reflexivity.
    - destruct H as [-> | ->]; reflexivity.
  Qed.

  Lemma geo_fine o g id tid n m : opts_typed W o -> textual id -> textual tid -> geo_wf g -> fine (geo_obj n m id tid o g) = true.
  Proof.
    intros Ho Hi Ht Hg. apply (geo_obj_all _ W n m (fun c => point_wf c = true)); eauto using geo_points_wf; clear; intros; try reflexivity.
    - cbn. now apply forallb_forall.
    - unfold leaf_obj. cbn [In] in H. destruct H as [<-|[<-|[<-|[]]]]; reflexivity.
  Qed.

  Lemma geo_prints o g id tid n m : opts_typed W o -> textual id -> textual tid -> geo_wf g -> (forall c, In c (geo_points g) -> doubles c = true) -> prints None (geo_obj n m id tid o g) = true.
  Proof.
    intros Ho Hi Ht Hg Hd. apply (geo_obj_all _ W n m (fun c => doubles c = true)); auto; clear.
    - intros l _ H. cbn. rewrite andb_true_r. apply forallb_forall. intros c Hc. now apply doubles_print, H.
    - intros c n' m' id tid o l Hc _ Hi Ht Ho. destruct o as [e t a]. destruct (or_empty_cases id Hi) as [s1 E1]. destruct (or_empty_cases tid Ht) as [s2 E2].
      unfold leaf_obj. rewrite E1, E2. cbn [o_extrude o_tessellate o_altitude]. cbn [In] in Hc. destruct Hc as [<-|[<-|[<-|[]]]]; opts Ho; reflexivity.
    - intros id tid o s hs Hi Ht Ho. destruct o as [e t a]. destruct (or_empty_cases id Hi) as [s1 E1]. destruct (or_empty_cases tid Ht) as [s2 E2].
      unfold polygon_obj. rewrite E1, E2. cbn [o_extrude o_tessellate o_altitude]. opts Ho; reflexivity.
    - intros id tid l Hi Ht _. destruct (or_empty_cases id Hi) as [s1 E1]. destruct (or_empty_cases tid Ht) as [s2 E2]. unfold multi_obj. rewrite E1, E2. reflexivity.
  Qed.

  Lemma geo_readable o g id tid n m : opts_typed W o -> textual id -> textual tid -> geo_wf g -> readable W (geo_obj n m id tid o g) = true.
  Proof.
    intros Ho Hi Ht Hg. apply (geo_obj_all _ W n m (fun c => True)); auto; clear.
    - intros c n' m' id tid o l Hc _ Hi Ht Ho. destruct o as [e t a]. destruct (or_empty_cases id Hi) as [s1 E1]. destruct (or_empty_cases tid Ht) as [s2 E2].
      unfold leaf_obj. rewrite E1, E2. cbn [o_extrude o_tessellate o_altitude]. cbn [In] in Hc. destruct Hc as [<-|[<-|[<-|[]]]]; opts Ho; reflexivity.
    - intros c l [-> | ->]; reflexivity.
    - intros id tid o s hs Hi Ht Ho. destruct o as [e t a]. destruct (or_empty_cases id Hi) as [s1 E1]. destruct (or_empty_cases tid Ht) as [s2 E2].
      unfold polygon_obj. rewrite E1, E2. cbn [o_extrude o_tessellate o_altitude]. opts Ho; reflexivity.
    - intros id tid l Hi Ht _. destruct (or_empty_cases id Hi) as [s1 E1]. destruct (or_empty_cases tid Ht) as [s2 E2]. unfold multi_obj. rewrite E1, E2. reflexivity.
  Qed.
End Fastkml.

(** ** Geometries of the objects that are read *)

Section Reread.
  Variable W : world.

  Lemma norm_sget prec vb c ci ns nss attrs : class_of W c = Some ci -> exists attrs', norm W prec vb (VObj c ns nss attrs) = VObj c ns nss attrs' /\
    forall a k, sget a (ci_pre ci) = Some k -> k <> CTrack ->
      sget a attrs' = Some (store W k (match find_item a (items_of W c) with Some it => read_back W prec vb ci attrs (ns_of W prec vb attrs) it | None => None end)).
  Proof.
    intro Hc. rewrite norm_obj. unfold norm_with. rewrite Hc. eexists. split; [reflexivity|]. intros a k Ha Hk. rewrite sget_app.
    assert (E : forall l, sget a l = Some k -> sget a (map (fun ak : string * ckind => (fst ak, match snd ak with
        | CTrack => VItems (map (titem_norm prec) (items_in attrs))
        | k => store W k (match find_item (fst ak) (items_of W c) with Some it => read_back W prec vb ci attrs (ns_of W prec vb attrs) it | None => None end) end)) l) =
      Some (store W k (match find_item a (items_of W c) with Some it => read_back W prec vb ci attrs (ns_of W prec vb attrs) it | None => None end))).
    { clear -Hk. induction l as [|[b k'] l IH]; cbn [sget map fst snd]; [discriminate|]. destruct (String.eqb_spec a b) as [<-|].
      - intros [= ->]. now destruct k.
      - exact IH. }
    now rewrite (E _ Ha).
  Qed.

  Lemma truthy_geometry c ci n m attrs g : class_of W c = Some ci -> ci_bool ci = BGeometry -> geometry W (VObj c n m attrs) = Ok (Some g) -> geo_empty g = false -> py_bool W (VObj c n m attrs) = Ok true.
  Proof. intros Hc Hb Hg E. destruct (sem_obj W c ci n m attrs Hc) as [-> _]. rewrite Hb. cbn [eval_bool]. rewrite Hg. cbn [bind]. now rewrite E. Qed.

  Lemma child_read prec vb c ci ns nss attrs a it x : class_of W c = Some ci -> sget a (ci_pre ci) = Some CRaw -> find_item a (items_of W c) = Some it -> it_attr it = a -> it_set it = SObj ->
    sget a attrs = Some x -> py_bool W x = Ok true -> forall attrs', norm W prec vb (VObj c ns nss attrs) = VObj c ns nss attrs' -> sget a attrs' = Some (norm W prec vb x).
  Proof.
    intros Hc Ha Hf Hi Hs Hx Hb attrs' E. destruct (norm_sget prec vb c ci ns nss attrs Hc) as [at2 [E2 H]]. rewrite E2 in E. injection E as ->. rewrite (H a CRaw Ha) by discriminate. rewrite Hf.
    unfold read_back. rewrite Hs, Hi. unfold obj_attr. rewrite Hx. rewrite (truth_ok _ _ _ Hb), sget_ns_of, Hx. reflexivity.
  Qed.

  Lemma children_read prec vb c ci ns nss attrs a it l : class_of W c = Some ci -> sget a (ci_pre ci) = Some CListTruthy -> find_item a (items_of W c) = Some it -> it_attr it = a -> it_set it = SObjs ->
    sget a attrs = Some (VList l) -> forall attrs', norm W prec vb (VObj c ns nss attrs) = VObj c ns nss attrs' ->
    sget a attrs' = Some (VList (group W (it_classes it) (map (fun y => (y, norm W prec vb y)) l))).
  Proof.
    intros Hc Ha Hf Hi Hs Hx attrs' E. destruct (norm_sget prec vb c ci ns nss attrs Hc) as [at2 [E2 H]]. rewrite E2 in E. injection E as ->. rewrite (H a CListTruthy Ha) by discriminate. rewrite Hf.
    unfold read_back. rewrite Hs, Hi. rewrite sget_ns_of, Hx. reflexivity.
  Qed.
End Reread.

Section RereadFastkml.
  Variable arrow : ustr -> option datetime.
  Variable vb : verbosity.
  Notation W := (fastkml arrow).
  Notation N := (norm W None vb).

  Lemma norm_coords l : l <> [] -> (forall c, In c l -> pts c) -> N (coords_obj l) = VObj "geometry.Coordinates" KMLNS NAME_SPACES [("coords", VCoords false l)].
  Proof.
    intros H0 Hl. assert (E : map (point_norm None) (filter (fun c => negb (nilb c)) l) = l).
    { clear H0. induction l as [|c l IH]; [reflexivity|]. cbn [filter]. destruct (Hl c (or_introl eq_refl)) as [Hc Hd].
      assert (Ec : nilb c = false). { destruct c; [discriminate Hc|reflexivity]. } rewrite Ec. cbn [negb map]. rewrite doubles_norm by exact Hd. f_equal. apply IH. intros. apply Hl. now right. }
    unfold coords_obj. rewrite norm_obj. unfold norm_with. change (class_of W "geometry.Coordinates") with (Some cl_geometry_Coordinates).
    destruct l as [|c l]; [contradiction|].
    cbn -[filter point_norm]. rewrite E. reflexivity.
  Qed.

  Lemma norm_coords_facts l : l <> [] -> (forall c, In c l -> pts c) -> py_bool W (N (coords_obj l)) = Ok true /\ coords_of (N (coords_obj l)) = Ok l.
  Proof. intros H0 Hl. rewrite (norm_coords l H0 Hl). destruct l; [contradiction|]. split; reflexivity. Qed.

  Lemma read_leaf c ci n m id tid o l (f : list (list num) -> res (option geo)) it :
    class_of W c = Some ci -> sget "kml_coordinates" (ci_pre ci) = Some CRaw -> find_item "kml_coordinates" (items_of W c) = Some it -> it_attr it = "kml_coordinates" -> it_set it = SObj ->
    (forall env b, eval_geom env b (ci_geom ci) = coords_geometry env f) -> l <> [] -> (forall c, In c l -> pts c) ->
    geometry W (N (leaf_obj c n m id tid o l)) = f l.
  Proof.
    intros Hc Ha Hf Hi Hs Hg H0 Hl. unfold leaf_obj. set (attrs := (_ ++ _)%list).
    assert (E : sget "kml_coordinates" attrs = Some (coords_obj l)) by (unfold attrs; now destruct (String.eqb c "geometry.Point")).
    destruct (norm_sget W None vb c ci n m attrs Hc) as [at2 [E2 _]]. assert (R := child_read W None vb c ci n m attrs _ it _ Hc Ha Hf Hi Hs E).
    assert (B : py_bool W (coords_obj l) = Ok true). { apply coords_true; [reflexivity|now destruct l]. }
    specialize (R B at2 E2). rewrite E2. destruct (sem_obj W c ci n m at2 Hc) as [_ ->]. rewrite Hg. unfold coords_geometry, with_attr. rewrite env_get, R.
    destruct (norm_coords_facts l H0 Hl) as [F1 F2]. unfold a_bool, a_val. cbn [fst snd]. unfold py_bool in F1. rewrite F1. cbn [bind]. now rewrite F2.
  Qed.

  Lemma read_point n m id tid o c : pts c -> geometry W (N (leaf_obj "geometry.Point" n m id tid o [c])) = Ok (Some (GPoint c)).
  Proof.
    intro H. erewrite (read_leaf "geometry.Point") with (l := [c]) (f := fun l => match l with [] => Err EIndexError | c :: _ => catch_point (let! p := mk_point c in Ok (Some (GPoint p))) end);
      [|reflexivity|reflexivity|reflexivity|reflexivity|reflexivity|reflexivity|discriminate|intros x [<-|[]]; exact H].
    destruct H as [H _]. now rewrite mk_point_wf.
  Qed.
  Lemma read_line n m id tid o l : line_wf l -> (forall c, In c l -> pts c) -> geometry W (N (leaf_obj "geometry.LineString" n m id tid o l)) = Ok (Some (GLine l)).
  Proof.
    intros H Hl. erewrite (read_leaf "geometry.LineString") with (l := l) (f := fun l => catch_dimension (let! r := mk_line l in Ok (Some (GLine r))));
      [|reflexivity|reflexivity|reflexivity|reflexivity|reflexivity|reflexivity|now apply line_wf_ne|exact Hl].
    now rewrite mk_line_wf.
  Qed.
  Lemma read_ring n m id tid o l : ring_wf l -> (forall c, In c l -> pts c) -> geometry W (N (leaf_obj "geometry.LinearRing" n m id tid o l)) = Ok (Some (GRing l)).
  Proof.
    intros H Hl. erewrite (read_leaf "geometry.LinearRing") with (l := l) (f := fun l => catch_dimension (let! r := mk_ring l in Ok (Some (GRing r))));
      [|reflexivity|reflexivity|reflexivity|reflexivity|reflexivity|reflexivity|now apply ring_wf_ne|exact Hl].
    now rewrite mk_ring_wf.
  Qed.

  Lemma leaf_norm_shape c ci n m id tid o l : class_of W c = Some ci -> exists at2, N (leaf_obj c n m id tid o l) = VObj c n m at2.
  Proof. intro Hc. unfold leaf_obj. set (attrs := (_ ++ _)%list). destruct (norm_sget W None vb c ci n m attrs Hc) as [at2 [E2 _]]. eauto. Qed.

  Lemma read_boundary c ci it l : class_of W c = Some ci -> sget "kml_geometry" (ci_pre ci) = Some CRaw -> find_item "kml_geometry" (items_of W c) = Some it -> it_attr it = "kml_geometry" -> it_set it = SObj ->
    ci_bool ci = BGeometry -> ci_geom ci = GkBoundary -> ring_wf l -> (forall c, In c l -> pts c) ->
    geometry W (N (boundary_obj c l)) = Ok (Some (GRing l)) /\ py_bool W (N (boundary_obj c l)) = Ok true.
  Proof.
    intros Hc Ha Hf Hi Hs Hb Hg H Hl. unfold boundary_obj. set (x := leaf_obj _ _ _ _ _ _ _). set (attrs := [("kml_geometry", x)]).
    destruct (norm_sget W None vb c ci KMLNS NAME_SPACES attrs Hc) as [at2 [E2 _]].
    assert (B : py_bool W x = Ok true) by (apply ring_true; auto; reflexivity).
    assert (R := child_read W None vb c ci KMLNS NAME_SPACES attrs "kml_geometry" it x Hc Ha Hf Hi Hs eq_refl B at2 E2).
    assert (G : geometry W (N x) = Ok (Some (GRing l))) by now apply read_ring.
    assert (B' : py_bool W (N x) = Ok true).
    { destruct (leaf_norm_shape "geometry.LinearRing" cl_geometry_LinearRing KMLNS NAME_SPACES VNone VNone no_opts l eq_refl) as [at3 E3]. fold x in E3. rewrite E3 in *.
      eapply truthy_geometry; [reflexivity|reflexivity|exact G|now apply ring_full]. }
    assert (G' : geometry W (N (VObj c KMLNS NAME_SPACES attrs)) = Ok (Some (GRing l))).
    { rewrite E2. destruct (sem_obj W c ci KMLNS NAME_SPACES at2 Hc) as [_ ->]. rewrite Hg. cbn [eval_geom]. unfold with_attr. rewrite env_get, R. unfold a_bool, a_geom. cbn [fst snd].
      unfold py_bool in B'. unfold geometry in G. rewrite B'. cbn [bind]. exact G. }
    split; [exact G'|]. rewrite E2 in *. eapply truthy_geometry; eauto. now apply ring_full.
  Qed.
  Lemma read_outer l : ring_wf l -> (forall c, In c l -> pts c) -> geometry W (N (boundary_obj "geometry.OuterBoundaryIs" l)) = Ok (Some (GRing l)) /\ py_bool W (N (boundary_obj "geometry.OuterBoundaryIs" l)) = Ok true.
  Proof. intros. eapply read_boundary; eauto; reflexivity. Qed.
  Lemma read_inner l : ring_wf l -> (forall c, In c l -> pts c) -> geometry W (N (boundary_obj "geometry.InnerBoundaryIs" l)) = Ok (Some (GRing l)) /\ py_bool W (N (boundary_obj "geometry.InnerBoundaryIs" l)) = Ok true.
  Proof. intros. eapply read_boundary; eauto; reflexivity. Qed.

  Lemma boundary_true c l : ring_wf l -> c = "geometry.OuterBoundaryIs" \/ c = "geometry.InnerBoundaryIs" -> py_bool W (boundary_obj c l) = Ok true.
  Proof. intros. apply boundary_facts; auto; reflexivity. Qed.

  Lemma read_polygon n m id tid o s hs : ring_wf s -> Forall ring_wf hs -> (forall c, In c (s ++ concat hs)%list -> pts c) -> geometry W (N (polygon_obj n m id tid o s hs)) = Ok (Some (GPoly s hs)).
  Proof.
    intros Hs Hh Hl. unfold polygon_obj. set (attrs := _ :: _).
    destruct (norm_sget W None vb "geometry.Polygon" cl_geometry_Polygon n m attrs eq_refl) as [at2 [E2 _]].
    assert (R1 := child_read W None vb "geometry.Polygon" cl_geometry_Polygon n m attrs "outer_boundary" _ _ eq_refl eq_refl eq_refl eq_refl eq_refl eq_refl
      (boundary_true "geometry.OuterBoundaryIs" s Hs (or_introl eq_refl)) at2 E2).
    assert (R2 := children_read W None vb "geometry.Polygon" cl_geometry_Polygon n m attrs "inner_boundaries" _ _ eq_refl eq_refl eq_refl eq_refl eq_refl eq_refl at2 E2).
    cbn [it_classes] in R2. rewrite E2. destruct (sem_obj W "geometry.Polygon" cl_geometry_Polygon n m at2 eq_refl) as [_ ->].
    cbn [cl_geometry_Polygon ci_geom eval_geom]. unfold with_attr. rewrite !env_get, R1, R2.
    destruct (read_outer s Hs (fun c Hc => Hl c (in_or_app _ _ _ (or_introl Hc)))) as [G B].
    unfold a_bool, a_geom, a_list. cbn [fst snd]. unfold geometry in G. unfold py_bool in B. rewrite B, G. cbn [bind line_of].
    assert (Eg : group W ["geometry.InnerBoundaryIs"] (map (fun y => (y, N y)) (map (boundary_obj "geometry.InnerBoundaryIs") hs)) = map (fun h => N (boundary_obj "geometry.InnerBoundaryIs" h)) hs).
    { unfold group. cbn [map concat]. rewrite app_nil_r. clear -Hh. induction Hh as [|h hs H _ IH]; [reflexivity|]. cbn [map filter fst].
      assert (T := truth_ok _ _ _ (boundary_true "geometry.InnerBoundaryIs" h H (or_intror eq_refl))). rewrite T.
      change (is_class "geometry.InnerBoundaryIs" (boundary_obj "geometry.InnerBoundaryIs" h)) with true. cbn [andb map snd]. now rewrite IH. }
    rewrite Eg, map_map, map_map.
    assert (E : some_geoms (map (fun x => snd (sem W (N (boundary_obj "geometry.InnerBoundaryIs" x)))) hs) = Ok (map GRing hs)).
    { assert (Hl' : forall h, In h hs -> forall c, In c h -> pts c). { intros h Hh' c Hc. apply Hl, in_or_app. right. apply in_concat. eauto. } clear -Hh Hl'.
      induction Hh as [|h hs H _ IH]; cbn [map some_geoms]; [reflexivity|].
      destruct (read_inner h H (Hl' h (or_introl eq_refl))) as [G _]. unfold geometry in G. rewrite G. cbn [bind]. rewrite IH; [reflexivity|]. intros. eapply Hl'; eauto. now right. }
    rewrite E. cbn [bind]. assert (E' : map_res line_of (map GRing hs) = Ok hs).
    { clear. induction hs as [|h hs IH]; cbn; [reflexivity|]. now rewrite IH. }
    rewrite E'. cbn [bind]. now rewrite mk_poly_wf.
  Qed.

  (** Members, in the order of the classes of the item. *)
  Definition kind_class (n : nat) : string := nth n ["geometry.Point"; "geometry.LineString"; "geometry.Polygon"; "geometry.LinearRing"; "geometry.MultiGeometry"] "".

  Lemma is_class_kind n0 m id tid o g k : (k < 5)%nat -> is_class (kind_class k) (geo_obj n0 m id tid o g) = Nat.eqb (kind g) k.
  Proof. intro H. destruct k as [|[|[|[|[|k]]]]]; [| | | | |lia]; destruct g; reflexivity. Qed.

  Lemma group_members n m o l : Forall geo_wf l ->
    group W ["geometry.Point"; "geometry.LineString"; "geometry.Polygon"; "geometry.LinearRing"; "geometry.MultiGeometry"] (map (fun y => (y, N y)) (map (geo_obj n m VNone VNone o) l)) =
    map (fun g => N (geo_obj n m VNone VNone o g)) (by_kind l).
  Proof.
    intro H. unfold group, by_kind. change ["geometry.Point"; "geometry.LineString"; "geometry.Polygon"; "geometry.LinearRing"; "geometry.MultiGeometry"] with (map kind_class [0; 1; 2; 3; 4]%nat).
    rewrite concat_map, !map_map. f_equal. apply map_ext_in. intros k Hk.
    assert (K : (k < 5)%nat) by (cbn [In] in Hk; lia). clear Hk. induction H as [|g l Hg _ IH]; [reflexivity|].
    cbn [map filter fst]. rewrite is_class_kind by exact K. assert (T : truth W (geo_obj n m VNone VNone o g) = true).
    { apply truth_ok, geo_obj_true; auto; reflexivity. }
    rewrite T, andb_true_r. destruct (Nat.eqb (kind g) k); cbn [map snd]; [f_equal|]; exact IH.
  Qed.

  Lemma kind_reread g : kind (reread g) = kind g.
  Proof. destruct g; try reflexivity. cbn [reread kind]. unfold collect. destruct (all_some as_point _); [reflexivity|]. destruct (all_some as_line _); [reflexivity|]. now destruct (all_some as_poly _). Qed.
  Lemma by_kind_map (f : geo -> geo) l : (forall g, kind (f g) = kind g) -> by_kind (map f l) = map f (by_kind l).
  Proof.
    intro H. unfold by_kind. rewrite concat_map, map_map. f_equal. apply map_ext. intro k. induction l as [|g l IH]; [reflexivity|]. cbn [map filter]. rewrite H. destruct (Nat.eqb (kind g) k); cbn [map]; now rewrite IH.
  Qed.
  Lemma by_kind_In g l : In g (by_kind l) <-> In g l.
  Proof.
    unfold by_kind. rewrite in_concat. split.
    - intros [x [Hx Hg]]. apply in_map_iff in Hx as [k [<- _]]. now apply filter_In in Hg.
    - intro H. exists (filter (fun g' => Nat.eqb (kind g') (kind g)) l). split.
      + apply in_map_iff. exists (kind g). split; [reflexivity|]. destruct g; cbn; auto 10.
      + apply filter_In. split; [exact H|apply Nat.eqb_refl].
  Qed.
  Lemma by_kind_same l k : (k < 5)%nat -> Forall (fun g => kind g = k) l -> by_kind l = l.
  Proof.
    intros Hk H. assert (A : forall j, filter (fun g => Nat.eqb (kind g) j) l = if Nat.eqb k j then l else []).
    { intro j. induction H as [|g l Hg _ IH]; cbn [filter]; [now destruct (Nat.eqb k j)|]. rewrite Hg, IH. now destruct (Nat.eqb k j). }
    unfold by_kind. cbn [map concat]. rewrite !A. destruct k as [|[|[|[|[|k]]]]]; [| | | | |lia]; cbn [Nat.eqb app]; now rewrite ?app_nil_r.
  Qed.
  Lemma by_kind_sorted l : (forall l1 x y l2, l = (l1 ++ x :: y :: l2)%list -> (kind x <= kind y)%nat) -> by_kind l = l.
  Proof.
    assert (LT : forall g, (kind g < 5)%nat) by (intros []; cbn; lia).
    assert (A : forall l, (forall l1 x y l2, l = (l1 ++ x :: y :: l2)%list -> (kind x <= kind y)%nat) -> forall g l', l = g :: l' -> forall x, In x l -> (kind g <= kind x)%nat).
    { clear. induction l as [|a l IH]; [discriminate|]. intros H g l' [= <- <-] x [<-|Hx]; [lia|].
      destruct l as [|b l]; [destruct Hx|]. assert (B := H [] a b l eq_refl). assert (C := IH (fun l1 x y l2 E => H (a :: l1) x y l2 (f_equal (cons a) E)) b l eq_refl x Hx). lia. }
    assert (Z : forall k l, (forall x, In x l -> (k < kind x)%nat) -> filter (fun g => Nat.eqb (kind g) k) l = []).
    { clear. intros k l. induction l as [|a l IH]; intro H; [reflexivity|]. cbn [filter]. assert (Ha := H a (or_introl eq_refl)). destruct (Nat.eqb_spec (kind a) k); [lia|]. apply IH. intros. apply H. now right. }
    intro H. unfold by_kind.
    assert (G : forall ks n, ks = seq n (List.length ks) -> (forall x, In x l -> (kind x < n + List.length ks)%nat) ->
      concat (map (fun k => filter (fun g => Nat.eqb (kind g) k) l) ks) = filter (fun g => Nat.leb n (kind g)) l).
    { clear LT. induction ks as [|k ks IH]; intros n E B; cbn [List.length seq map concat] in *.
      - symmetry. assert (Q : forall x, In x l -> Nat.leb n (kind x) = false) by (intros x Hx; specialize (B x Hx); apply Nat.leb_gt; lia).
        clear -Q. induction l as [|a l' IH]; [reflexivity|]. cbn [filter]. rewrite (Q a) by now left. apply IH. intros. apply Q. now right.
      - injection E as -> E. rewrite (IH (S n) E) by (intros x Hx; specialize (B x Hx); lia).
        clear -H A Z. induction l as [|a l' IH]; [reflexivity|].
        assert (H' : forall l1 x y l2, l' = (l1 ++ x :: y :: l2)%list -> (kind x <= kind y)%nat) by (intros l1 x y l2 E; apply (H (a :: l1) x y l2); now rewrite E).
        specialize (IH H'). assert (Aa := A (a :: l') H a l' eq_refl). cbn [filter]. destruct (Nat.eqb_spec (kind a) n) as [E|E].
        + destruct (Nat.leb_spec (S n) (kind a)); [lia|]. destruct (Nat.leb_spec n (kind a)); [|lia]. cbn [app]. now rewrite IH.
        + destruct (Nat.leb_spec (S n) (kind a)), (Nat.leb_spec n (kind a)); try lia.
          * assert (Zl : filter (fun g => Nat.eqb (kind g) n) l' = []). { apply Z. intros x Hx. specialize (Aa x (or_intror Hx)). lia. }
            rewrite Zl in IH |- *. cbn [app] in IH |- *. now rewrite IH.
          * exact IH. }
    rewrite (G [0; 1; 2; 3; 4]%nat 0%nat eq_refl); [|intros x _; specialize (LT x); cbn; lia].
    clear. induction l as [|a l IH]; [reflexivity|]. cbn [filter]. now rewrite IH.
  Qed.
  Lemma by_kind_ne l : l <> [] -> by_kind l <> [].
  Proof. intros H E. destruct l as [|g l]; [contradiction|]. assert (I : In g (by_kind (g :: l))) by (apply by_kind_In; now left). rewrite E in I. destruct I. Qed.

  Lemma read_multi n m id tid o gs : gs <> [] -> Forall geo_wf gs -> Forall (fun g => geometry W (N (geo_obj n m VNone VNone o g)) = Ok (Some (reread g)) /\ geo_wf (reread g)) gs ->
    geometry W (N (multi_obj n m id tid (map (geo_obj n m VNone VNone o) gs))) = Ok (Some (collect (by_kind (map reread gs)))).
  Proof.
    intros H0 Hw H. unfold multi_obj. set (attrs := _ :: _).
    destruct (norm_sget W None vb "geometry.MultiGeometry" cl_geometry_MultiGeometry n m attrs eq_refl) as [at2 [E2 _]].
    assert (R := children_read W None vb "geometry.MultiGeometry" cl_geometry_MultiGeometry n m attrs "kml_geometries" _ _ eq_refl eq_refl eq_refl eq_refl eq_refl eq_refl at2 E2).
    cbn [it_classes] in R. rewrite group_members in R by exact Hw.
    rewrite E2. destruct (sem_obj W "geometry.MultiGeometry" cl_geometry_MultiGeometry n m at2 eq_refl) as [_ ->].
    cbn [cl_geometry_MultiGeometry ci_geom eval_geom]. unfold with_attr. rewrite env_get, R. unfold a_list. cbn [snd].
    rewrite by_kind_map by exact kind_reread. rewrite map_map.
    rewrite (truthy_all W _ (map reread (by_kind gs))).
    - cbn [bind]. apply create_multi_collect. intro E. apply map_eq_nil in E. now apply by_kind_ne in E.
    - apply Forall2_map_both. rewrite Forall_forall in *. intros g Hg. apply (proj1 (by_kind_In _ _)) in Hg. destruct (H g Hg). split; [assumption|]. now apply geo_wf_full.
  Qed.

  Lemma reread_wf : forall g, geo_wf g -> geo_wf (reread g).
  Proof.
    apply (geo_ind' (fun g => geo_wf g -> geo_wf (reread g))); try (intros; assumption).
    intros l IH [H1 H2]. cbn [reread]. apply collect_wf; [apply by_kind_ne; now destruct l|]. apply Forall_forall. intros g Hg. apply (proj1 (by_kind_In _ _)) in Hg. apply in_map_iff in Hg as [g' [<- Hg]].
    rewrite Forall_forall in IH. apply IH; [exact Hg|]. clear -H2 Hg. induction l as [|y l IH]; [destruct Hg|]. destruct H2, Hg as [->|]; auto.
  Qed.

  Theorem norm_geometry n m o : forall g id tid, geo_wf g -> (forall c, In c (geo_points g) -> doubles c = true) -> geometry W (N (geo_obj n m id tid o g)) = Ok (Some (reread g)).
  Proof.
    assert (PP : forall g, geo_wf g -> (forall c, In c (geo_points g) -> doubles c = true) -> forall c, In c (geo_points g) -> pts c).
    { intros g Hg Hd c Hc. split; [now apply (geo_points_wf g)|auto]. }
    apply (geo_ind' (fun g => forall id tid, geo_wf g -> (forall c, In c (geo_points g) -> doubles c = true) -> geometry W (N (geo_obj n m id tid o g)) = Ok (Some (reread g)))); cbn [geo_obj reread].
    - intros c id tid H Hd. apply read_point. apply (PP (GPoint c) H Hd). now left.
    - intros l id tid H Hd. apply read_line; [exact H|]. exact (PP (GLine l) H Hd).
    - intros l id tid H Hd. apply read_ring; [exact H|]. exact (PP (GRing l) H Hd).
    - intros s h id tid H Hd. assert (Hp := PP _ H Hd). destruct H. now apply read_polygon.
    - intros l id tid H Hd. assert (Hp := PP _ H Hd). destruct H as [H0 H]. cbn [geo_points] in Hp.
      assert (E := read_multi n m id tid o (map GPoint l)). rewrite map_map in E. cbn [geo_obj] in E. rewrite E.
      + rewrite map_map, (by_kind_same _ 0) by (try lia; apply Forall_forall; intros g Hg; apply in_map_iff in Hg as [c [<- _]]; reflexivity).
        unfold collect. now rewrite (all_some_map as_point GPoint).
      + now destruct l.
      + apply Forall_map. exact H.
      + apply Forall_map, Forall_forall. intros c Hc. split; [now apply read_point, Hp|]. rewrite Forall_forall in H. now apply H.
    - intros l id tid H Hd. assert (Hp := PP _ H Hd). destruct H as [H0 H]. cbn [geo_points] in Hp.
      assert (E := read_multi n m id tid o (map GLine l)). rewrite map_map in E. cbn [geo_obj] in E. rewrite E.
      + rewrite map_map, (by_kind_same _ 1) by (try lia; apply Forall_forall; intros g Hg; apply in_map_iff in Hg as [c [<- _]]; reflexivity).
        cbn [reread]. unfold collect. rewrite (all_some_map as_line GLine) by reflexivity. now destruct l.
      + now destruct l.
      + apply Forall_map. exact H.
      + apply Forall_map, Forall_forall. rewrite Forall_forall in H. intros c Hc. split; [|now apply H]. apply read_line; [now apply H|]. intros x Hx. apply Hp, in_concat. eauto.
    - intros l id tid H Hd. assert (Hp := PP _ H Hd). destruct H as [H0 H]. cbn [geo_points] in Hp.
      assert (E := read_multi n m id tid o (map (fun p => GPoly (fst p) (snd p)) l)). rewrite map_map in E. cbn [geo_obj] in E. rewrite E.
      + rewrite map_map, (by_kind_same _ 2) by (try lia; apply Forall_forall; intros g Hg; apply in_map_iff in Hg as [c [<- _]]; reflexivity).
        cbn [reread]. unfold collect. rewrite (all_some_map as_poly (fun p => GPoly (fst p) (snd p))) by (intros []; reflexivity). now destruct l.
      + now destruct l.
      + apply Forall_map. exact H.
      + apply Forall_map, Forall_forall. rewrite Forall_forall in H. intros c Hc. split; [|now apply H]. destruct (H c Hc). apply read_polygon; auto. intros x Hx. apply Hp, in_concat. eexists. split; [|exact Hx]. apply in_map_iff. eauto.
    - intros l IH id tid [H0 H] Hd.
      assert (Hw : Forall geo_wf l). { clear -H. induction l as [|y l IH]; [constructor|]. destruct H. constructor; auto. }
      apply read_multi; [exact H0|exact Hw|]. rewrite Forall_forall in *. intros g Hg. split; [|now apply reread_wf, Hw].
      apply IH; auto. intros c Hc. apply Hd. cbn [geo_points]. apply in_concat. eexists. split; [|exact Hc]. now apply in_map.
  Qed.
End RereadFastkml.
