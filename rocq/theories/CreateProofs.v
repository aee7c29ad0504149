(** * The constructors of Create.v: what they build, and its geometry. *)
From Coq Require Import String List NArith ZArith Bool Lia.
From Verif Require Import Ustr UstrProofs Res PyInt PyFloat PyDate Value Geom Codec Tables Spec EmitProofs WriteProofs Create GeoSpec.
Import ListNotations.
Local Open Scope string_scope.

(** ** pygeoif constructors on well-formed input *)

Lemma point_wf_len c : point_wf c = true -> length c = 2%nat \/ length c = 3%nat.
Proof. unfold point_wf. intro H. apply andb_prop in H as [H _]. apply orb_prop in H as [H|H]; apply Nat.eqb_eq in H; auto. Qed.

Lemma point_wf_full c : point_wf c = true -> Nat.ltb (length c) 2 = false.
Proof. intro H. apply Nat.ltb_ge. destruct (point_wf_len c H) as [-> | ->]; lia. Qed.

Lemma filter_all {A} (f : A -> bool) l : forallb f l = true -> filter f l = l.
Proof. induction l as [|x l IH]; cbn; [reflexivity|]. intro H. apply andb_prop in H as [-> H]. now rewrite IH. Qed.

Lemma mk_point_wf c : point_wf c = true -> mk_point c = Ok c.
Proof.
  intro H. unfold mk_point. assert (F : filter (fun n => negb (num_nan n)) c = c).
  { apply filter_all. unfold point_wf in H. now apply andb_prop in H. }
  destruct (point_wf_len c H) as [-> | ->]; now rewrite F.
Qed.

Lemma dedupe_from_wf l : forall c, (forall l1 a b l2, c :: l = (l1 ++ a :: b :: l2)%list -> point_eq a b = false) -> dedupe_from c l = l.
Proof.
  induction l as [|d l IH]; cbn; intros c H; [reflexivity|].
  rewrite (H [] c d l eq_refl). f_equal. apply IH. intros l1 a b l2 E. apply (H (c :: l1) a b l2). now rewrite E.
Qed.

Lemma line_points_wf l : forall o, (forall c, In c l -> point_wf c = true) -> (forall c c', In c l -> In c' l -> length c = length c') ->
  (forall n c, o = Some n -> In c l -> length c = n) -> line_points o l = Ok l.
Proof.
  induction l as [|c l IH]; cbn [line_points In]; intros o H1 H2 H3; [reflexivity|].
  assert (E : match o with Some n => negb (Nat.eqb n (length c)) | None => false end = false).
  { destruct o as [n|]; [|reflexivity]. rewrite (H3 n c eq_refl (or_introl eq_refl)), Nat.eqb_refl. reflexivity. }
  rewrite E, mk_point_wf by auto. cbn [bind]. rewrite IH; auto.
  - cbn [bind]. now rewrite point_wf_full by auto.
  - intros n d [= <-] Hd. auto.
Qed.

Lemma mk_line_wf l : line_wf l -> mk_line l = Ok l.
Proof.
  intros [H0 [H1 [H2 H3]]]. unfold mk_line. destruct l as [|c l]; [contradiction|]. cbn [dedupe].
  rewrite dedupe_from_wf by exact H3. apply line_points_wf; auto. discriminate.
Qed.

Lemma mk_ring_wf l : ring_wf l -> mk_ring l = Ok l.
Proof.
  intros [H1 H2]. unfold mk_ring. rewrite mk_line_wf by exact H1. cbn [bind]. f_equal. destruct l as [|c l]; [reflexivity|].
  cbn [close_ring]. specialize (H2 c). cbn [hd] in H2. now rewrite H2.
Qed.

Lemma mk_poly_wf s hs : ring_wf s -> Forall ring_wf hs -> mk_poly s hs = Ok (GPoly s hs).
Proof.
  intros H1 H2. unfold mk_poly. rewrite mk_ring_wf by exact H1. cbn [bind].
  assert (E : map_res mk_ring hs = Ok hs). { induction H2 as [|h hs Hh _ IH]; cbn; [reflexivity|]. now rewrite mk_ring_wf, IH. }
  now rewrite E.
Qed.

Lemma line_wf_full l : line_wf l -> nilb l = false.
Proof. intros [H _]. now destruct l. Qed.

Lemma geo_wf_full : forall g, geo_wf g -> geo_empty g = false.
Proof.
  apply (geo_ind' (fun g => geo_wf g -> geo_empty g = false)); cbn [geo_wf geo_empty].
  - apply point_wf_full.
  - apply line_wf_full.
  - intros l [H _]. now apply line_wf_full.
  - intros s h [[H _] _]. now apply line_wf_full.
  - intros l [H1 H2]. destruct H2 as [|c l H _]; [contradiction|]. cbn [forallb]. now rewrite point_wf_full.
  - intros l [H1 H2]. destruct H2 as [|c l H _]; [contradiction|]. cbn [forallb]. now rewrite line_wf_full.
  - intros l [H1 H2]. destruct H2 as [|c l [[H _] _] _]; [contradiction|]. cbn [forallb]. now rewrite line_wf_full.
  - intros l IH [H1 H2]. destruct IH as [|g l IH _]; [contradiction|]. cbn [forallb]. now rewrite IH.
Qed.

(** ** [collect] and [regroup] *)

Lemma all_some_type {B} (f : geo -> option B) n : (forall g, geom_type g = n <-> f g <> None) ->
  forall l, forallb (fun g => Nat.eqb (geom_type g) n) l = match all_some f l with Some _ => true | None => false end.
Proof.
  intros H l. induction l as [|g l IH]; cbn [forallb all_some]; [reflexivity|]. rewrite IH.
  destruct (f g) as [b|] eqn:E.
  - assert (E' : geom_type g = n) by (apply H; congruence). rewrite E', Nat.eqb_refl. cbn. now destruct (all_some f l).
  - destruct (Nat.eqb_spec (geom_type g) n) as [E'|]; [|reflexivity]. apply H in E'. congruence.
Qed.

Lemma type_point g : geom_type g = 0%nat <-> as_point g <> None.
Proof. destruct g; cbn; split; congruence. Qed.
Lemma type_line g : geom_type g = 1%nat <-> as_line g <> None.
Proof. destruct g; cbn; split; congruence. Qed.
Lemma type_poly g : geom_type g = 2%nat <-> as_poly g <> None.
Proof. destruct g; cbn; split; congruence. Qed.

Lemma all_some_of {B} (f : geo -> option B) (k : geo -> res B) : (forall g b, f g = Some b -> k g = Ok b) ->
  forall l r, all_some f l = Some r -> map_res k l = Ok r.
Proof.
  intros H l. induction l as [|g l IH]; cbn; intros r E; [now injection E as <-|].
  destruct (f g) as [b|] eqn:Ef; [|discriminate]. destruct (all_some f l) as [s|]; [|discriminate]. injection E as <-.
  now rewrite (H _ _ Ef), (IH s).
Qed.

Lemma forallb_head n (g : geo) l : geom_type g <> n -> forallb (fun g => Nat.eqb (geom_type g) n) (g :: l) = false.
Proof. intro H. cbn [forallb]. apply Nat.eqb_neq in H. now rewrite H. Qed.

Lemma create_multi_collect gs : gs <> [] -> create_multigeometry gs = Ok (Some (collect gs)).
Proof.
  intro H. destruct gs as [|g gs]; [contradiction|]. unfold create_multigeometry.
  set (l := g :: gs) in *. unfold collect.
  assert (E0 := all_some_type as_point 0 type_point l). assert (E1 := all_some_type as_line 1 type_line l). assert (E2 := all_some_type as_poly 2 type_poly l).
  assert (P : forall r, all_some as_point l = Some r -> map_res point_of l = Ok r).
  { apply all_some_of. intros x b. destruct x; cbn; congruence. }
  assert (L : forall r, all_some as_line l = Some r -> map_res line_of l = Ok r).
  { apply all_some_of. intros x b. destruct x; cbn; congruence. }
  assert (Q : forall r, all_some as_poly l = Some r -> map_res poly_of l = Ok r).
  { apply all_some_of. intros x b. destruct x; cbn; congruence. }
  assert (N0 := forallb_head 0 g gs). assert (N1 := forallb_head 1 g gs). assert (N2 := forallb_head 2 g gs). fold l in N0, N1, N2.
  destruct (geom_type g) as [|[|[|n]]] eqn:Eg.
  - rewrite E0. destruct (all_some as_point l) as [r|]; [now rewrite (P r)|].
    rewrite N1 in E1 by lia. rewrite N2 in E2 by lia. destruct (all_some as_line l); [discriminate|]. destruct (all_some as_poly l); [discriminate|]. reflexivity.
  - rewrite E1. rewrite N0 in E0 by lia. destruct (all_some as_point l); [discriminate|].
    destruct (all_some as_line l) as [r|]; [now rewrite (L r)|]. rewrite N2 in E2 by lia. destruct (all_some as_poly l); [discriminate|]. reflexivity.
  - rewrite E2. rewrite N0 in E0 by lia. rewrite N1 in E1 by lia. destruct (all_some as_point l); [discriminate|]. destruct (all_some as_line l); [discriminate|].
    destruct (all_some as_poly l) as [r|]; [now rewrite (Q r)|]. reflexivity.
  - rewrite N0 in E0 by lia. rewrite N1 in E1 by lia. rewrite N2 in E2 by lia.
    destruct (all_some as_point l); [discriminate|]. destruct (all_some as_line l); [discriminate|]. destruct (all_some as_poly l); [discriminate|].
    match goal with |- (if ?b then _ else _) = _ => destruct b; reflexivity end.
Qed.

Lemma all_some_map {A B} (f : A -> option B) (k : B -> A) l : (forall b, f (k b) = Some b) -> all_some f (map k l) = Some l.
Proof. intro H. induction l as [|b l IH]; cbn; [reflexivity|]. now rewrite H, IH. Qed.

Lemma all_some_inv {A B} (f : A -> option B) (k : B -> A) l r : (forall a b, f a = Some b -> a = k b) -> all_some f l = Some r -> l = map k r.
Proof.
  intro H. revert r. induction l as [|a l IH]; cbn; intros r E; [now injection E as <-|].
  destruct (f a) as [b|] eqn:Ef; [|discriminate]. destruct (all_some f l) as [s|]; [|discriminate]. injection E as <-. cbn. now rewrite (H _ _ Ef), (IH s).
Qed.

Lemma all_some_none {B} (f : geo -> option B) (t : geo -> bool) l : (forall g, f g <> None -> t g = true) -> forallb t l = false -> all_some f l = None.
Proof.
  intro H. induction l as [|g l IH]; cbn; intro E; [discriminate|].
  destruct (f g) as [b|] eqn:Ef; [|reflexivity]. rewrite (H g) in E by congruence. now rewrite IH.
Qed.

Lemma regroup_mixed : forall g, mixed g = true -> regroup g = g.
Proof.
  apply (geo_ind' (fun g => mixed g = true -> regroup g = g)); try reflexivity.
  intros l IH H. cbn [mixed] in H. apply andb_prop in H as [H Hm]. apply andb_prop in H as [H H2]. apply andb_prop in H as [H0 H1].
  cbn [regroup]. assert (E : map regroup l = l).
  { clear -IH Hm. induction IH as [|g l Hg _ IH]; cbn; [reflexivity|]. cbn in Hm. apply andb_prop in Hm as [A B]. now rewrite Hg, IH. }
  rewrite E. unfold collect. apply negb_true_iff in H0, H1, H2.
  rewrite (all_some_none as_point _ l) with (2 := H0) by (intros []; cbn; congruence).
  rewrite (all_some_none as_line _ l) with (2 := H1) by (intros []; cbn; congruence).
  now rewrite (all_some_none as_poly _ l) with (2 := H2) by (intros []; cbn; congruence).
Qed.

Lemma collect_wf l : l <> [] -> Forall (fun g => geo_wf g) l -> geo_wf (collect l).
Proof.
  intros H0 H. unfold collect.
  destruct (all_some as_point l) as [r|] eqn:E.
  { apply all_some_inv with (k := GPoint) in E; [|intros [] b; cbn; congruence]. subst l. split; [now destruct r|].
    clear H0. induction r; [constructor|]. inversion H; subst. constructor; auto. }
  destruct (all_some as_line l) as [r|] eqn:E1.
  { apply all_some_inv with (k := GLine) in E1; [|intros [] b; cbn; congruence]. subst l. split; [now destruct r|].
    clear H0 E. induction r; [constructor|]. inversion H; subst. constructor; auto. }
  destruct (all_some as_poly l) as [r|] eqn:E2.
  { apply all_some_inv with (k := fun p => GPoly (fst p) (snd p)) in E2; [|intros [] b; cbn; try congruence; intro X; now injection X as <-]. subst l. split; [now destruct r|].
    clear H0 E E1. induction r; [constructor|]. inversion H; subst. constructor; auto. }
  split; [exact H0|]. clear H0 E E1 E2. induction H; [exact I|]. now split.
Qed.

Lemma regroup_wf : forall g, geo_wf g -> geo_wf (regroup g).
Proof.
  apply (geo_ind' (fun g => geo_wf g -> geo_wf (regroup g))); try (intros; assumption).
  intros l IH [H1 H2]. cbn [regroup]. apply collect_wf; [now destruct l|]. clear H1.
  induction IH as [|g l Hg _ IH]; cbn; [constructor|]. destruct H2. constructor; auto.
Qed.

(** ** Constructed attributes *)

Lemma new_attr : forall W c ci ns nss kws v a k, class_of W c = Some ci -> nodups (map fst (ctor_attrs ci)) = true -> sget a (ctor_attrs ci) = Some k ->
     forallb (fun p => mem (fst p) (ci_params ci)) (ctor_attrs ci) = true ->
     new W c ns nss kws = Ok v -> exists n attrs x, v = VObj c n (merge_ns nss) attrs /\ mk_attr W kws (a, k) = Ok (a, x) /\ sget a attrs = Some x.
Proof.
  intros W c ci ns nss kws v a k Hc Hd Ha Hp H. unfold new, construct in H. rewrite Hc in H.
    destruct (negb (ci_kwargs ci) && negb (nilb (extras_of ci kws))); [discriminate|].
    apply bind_ok in H as [pre [Hpre H]]. apply bind_ok in H as [post [Hpost H]]. injection H as <-.
    assert (K : forall l r, map_res (mk_attr W kws) l = Ok r -> forall a, sget a r = match sget a l with Some k => match mk_attr W kws (a, k) with Ok (_, x) => Some x | Err _ => None end | None => None end).
    { clear. induction l as [|[b k] l IH]; intros r H a; cbn [map_res] in H; [injection H as <-; reflexivity|].
      apply bind_ok in H as [[b' x] [Hx H]]. apply bind_ok in H as [r' [Hr H]]. injection H as <-.
      assert (Eb : b' = b). { unfold mk_attr in Hx. apply bind_ok in Hx as [y [_ Hy]]. now injection Hy as <- _. } subst b'.
      cbn [sget]. destruct (String.eqb_spec a b) as [->|]; [now rewrite Hx|]. now apply IH. }
    assert (M : exists x, mk_attr W kws (a, k) = Ok (a, x)).
    { unfold ctor_attrs in Ha. assert (Hin : In (a, k) (ci_pre ci) \/ In (a, k) (ci_post ci)). { apply in_app_or. now apply sget_In. }
      assert (B : forall l r, map_res (mk_attr W kws) l = Ok r -> In (a, k) l -> exists x, mk_attr W kws (a, k) = Ok (a, x)).
      { clear. induction l as [|b l IH]; intros r H Hin; [destruct Hin|]. cbn [map_res] in H. apply bind_ok in H as [[a' x] [Hx H]]. apply bind_ok in H as [r' [Hr H]].
        destruct Hin as [->|Hin]; [|eauto]. exists x. rewrite Hx. unfold mk_attr in Hx. apply bind_ok in Hx as [y [_ Hy]]. now injection Hy as <- _. }
      destruct Hin as [Hin|Hin]; eauto. }
    destruct M as [x Hx]. eexists _, _, x. split; [reflexivity|]. split; [exact Hx|].
    unfold ctor_attrs in Ha. rewrite !sget_app, (K _ _ Hpre), (K _ _ Hpost). rewrite sget_app in Ha.
    destruct (sget a (ci_pre ci)) as [k'|] eqn:E1; [injection Ha as ->; now rewrite Hx|].
    assert (E2 : sget a (extras_of ci kws) = None).
    { apply sget_None. intro Hin. apply in_map_iff in Hin as [[a' y] [Ea Hin]]. cbn in Ea. subst a'. unfold extras_of in Hin. apply filter_In in Hin as [_ Hin]. cbn [fst] in Hin.
      rewrite forallb_forall in Hp. specialize (Hp (a, k)). cbn [fst] in Hp. rewrite Hp in Hin; [discriminate|]. unfold ctor_attrs. apply in_or_app. right. now apply sget_In. }
    rewrite E2, Ha, Hx. reflexivity. 
Qed.

Lemma new_raw : forall W c ci ns nss kws v a k, class_of W c = Some ci -> nodups (map fst (ctor_attrs ci)) = true -> sget a (ctor_attrs ci) = Some CRaw ->
     forallb (fun p => mem (fst p) (ci_params ci)) (ctor_attrs ci) = true -> kwget kws a = k ->
     new W c ns nss kws = Ok v -> exists n attrs, v = VObj c n (merge_ns nss) attrs /\ sget a attrs = Some k.
Proof.
  intros W c ci ns nss kws v a k Hc Hd Ha Hp Hk H. destruct (new_attr _ _ _ _ _ _ _ _ _ Hc Hd Ha Hp H) as [n [attrs [x [Hv [Hm Hs]]]]]. unfold mk_attr in Hm. cbn [bind] in Hm. injection Hm as Hm. rewrite Hk in Hm. subst x. eauto. 
Qed.

Lemma clean_str s : clean_string (VStr s) = Ok (if uempty (strip s) then VNone else VStr (strip s)).
Proof. destruct s; reflexivity. Qed.

(** ** The objects *)

Definition textual (v : value) : Prop := v = VNone \/ exists s, v = VStr s.
Definition or_empty (v : value) : value := match v with VStr s => if uempty s then VStr [] else v | _ => VStr [] end.

Definition coords_obj (l : list (list num)) : value := VObj "geometry.Coordinates" KMLNS NAME_SPACES [("coords", VCoords true l)].

Definition leaf_obj (c : string) (n : ustr) (m : nss_t) (id tid : value) (o : gopts) (l : list (list num)) : value :=
  VObj c n m ((if String.eqb c "geometry.Point"
               then [("kml_coordinates", coords_obj l); ("extrude", o_extrude o)]
               else [("kml_coordinates", coords_obj l); ("extrude", o_extrude o); ("tessellate", o_tessellate o)]) ++
              [("id", or_empty id); ("target_id", or_empty tid); ("altitude_mode", o_altitude o)])%list.

Definition no_opts : gopts := mkOpts VNone VNone VNone.

Definition boundary_obj (c : string) (l : list (list num)) : value :=
  VObj c KMLNS NAME_SPACES [("kml_geometry", leaf_obj "geometry.LinearRing" KMLNS NAME_SPACES VNone VNone no_opts l)].

Definition polygon_obj (n : ustr) (m : nss_t) (id tid : value) (o : gopts) (s : list (list num)) (hs : list (list (list num))) : value :=
  VObj "geometry.Polygon" n m
    [("outer_boundary", boundary_obj "geometry.OuterBoundaryIs" s); ("inner_boundaries", VList (map (boundary_obj "geometry.InnerBoundaryIs") hs));
     ("extrude", o_extrude o); ("tessellate", o_tessellate o); ("id", or_empty id); ("target_id", or_empty tid); ("altitude_mode", o_altitude o)].

Definition multi_obj (n : ustr) (m : nss_t) (id tid : value) (l : list value) : value :=
  VObj "geometry.MultiGeometry" n m [("kml_geometries", VList l); ("id", or_empty id); ("target_id", or_empty tid)].

Fixpoint geo_obj (n : ustr) (m : nss_t) (id tid : value) (o : gopts) (g : geo) {struct g} : value :=
  match g with
  | GPoint c => leaf_obj "geometry.Point" n m id tid o [c]
  | GLine l => leaf_obj "geometry.LineString" n m id tid o l
  | GRing l => leaf_obj "geometry.LinearRing" n m id tid o l
  | GPoly s hs => polygon_obj n m id tid o s hs
  | GMPoint l => multi_obj n m id tid (map (fun c => leaf_obj "geometry.Point" n m VNone VNone o [c]) l)
  | GMLine l => multi_obj n m id tid (map (fun c => leaf_obj "geometry.LineString" n m VNone VNone o c) l)
  | GMPoly l => multi_obj n m id tid (map (fun p => polygon_obj n m VNone VNone o (fst p) (snd p)) l)
  | GColl l => multi_obj n m id tid (map (geo_obj n m VNone VNone o) l)
  end.

Lemma or_empty_ok W a k kws : textual (kwget kws a) -> k = COrEmpty -> mk_attr W kws (a, k) = Ok (a, or_empty (kwget kws a)).
Proof. intros H ->. unfold mk_attr. destruct H as [-> | [s ->]]; cbn; [reflexivity|]. now destruct (uempty s). Qed.

Section Objects.
  Variable W : world.
  Hypothesis Kc : class_of W "geometry.Coordinates" = Some cl_geometry_Coordinates.
  Hypothesis Kp : class_of W "geometry.Point" = Some cl_geometry_Point.
  Hypothesis Kl : class_of W "geometry.LineString" = Some cl_geometry_LineString.
  Hypothesis Kr : class_of W "geometry.LinearRing" = Some cl_geometry_LinearRing.
  Hypothesis Ko : class_of W "geometry.OuterBoundaryIs" = Some cl_geometry_OuterBoundaryIs.
  Hypothesis Ki : class_of W "geometry.InnerBoundaryIs" = Some cl_geometry_InnerBoundaryIs.
  Hypothesis Kg : class_of W "geometry.Polygon" = Some cl_geometry_Polygon.
  Hypothesis Km : class_of W "geometry.MultiGeometry" = Some cl_geometry_MultiGeometry.

  Definition ns_or (ns : option ustr) (nss : nss_t) : ustr := match ns with Some n => n | None => ns_get (merge_ns nss) "kml" end.

  Lemma new_coords l : nilb l = false -> new W "geometry.Coordinates" None [] [("coords", VCoords true l)] = Ok (coords_obj l).
  Proof. intro H. unfold new, construct. rewrite Kc. unfold default_ns. rewrite Kc. cbn. rewrite H. reflexivity. Qed.

  Lemma leaf_new c ns nss id tid o l g : textual id -> textual tid -> In c ["geometry.Point"; "geometry.LineString"; "geometry.LinearRing"] ->
    geo_empty g = false -> geo_coords g = l -> nilb l = false ->
    new_from_coords W c ns nss (Some g) (opts_kws id tid o) = Ok (leaf_obj c (ns_or ns nss) (merge_ns nss) id tid o l).
  Proof.
    intros Hi Ht Hc He Hl Hn. unfold new_from_coords. cbn [kwget opts_kws sget]. cbn -[new merge_ns]. rewrite He, Hl, new_coords by exact Hn. cbn [bind].
    assert (A : forall k0, mk_attr W (("kml_coordinates", k0) :: opts_kws id tid o) ("id", COrEmpty) = Ok ("id", or_empty id)).
    { intro. now apply or_empty_ok. }
    assert (B : forall k0, mk_attr W (("kml_coordinates", k0) :: opts_kws id tid o) ("target_id", COrEmpty) = Ok ("target_id", or_empty tid)).
    { intro. now apply or_empty_ok. }
    unfold new, construct, default_ns. cbn [In] in Hc. destruct Hc as [<-|[<-|[<-|[]]]].
    - rewrite Kp. cbn [cl_geometry_Point ci_pre ci_post ci_kwargs ci_nsid map_res negb andb]. rewrite A, B. reflexivity.
    - rewrite Kl. cbn [cl_geometry_LineString ci_pre ci_post ci_kwargs ci_nsid map_res negb andb]. rewrite A, B. reflexivity.
    - rewrite Kr. cbn [cl_geometry_LinearRing ci_pre ci_post ci_kwargs ci_nsid map_res negb andb]. rewrite A, B. reflexivity.
  Qed.

  Lemma ring_new ns nss l : nilb l = false ->
    new_from_coords W "geometry.LinearRing" ns nss (Some (GRing l)) [] = Ok (leaf_obj "geometry.LinearRing" (ns_or ns nss) (merge_ns nss) VNone VNone no_opts l).
  Proof.
    intro H. unfold new_from_coords. cbn [kwget sget is_none negb geo_empty geo_coords]. rewrite H, new_coords by exact H. cbn [bind].
    unfold new, construct, default_ns. rewrite Kr. reflexivity.
  Qed.

  Lemma boundary_new c l : nilb l = false -> c = "geometry.OuterBoundaryIs" \/ c = "geometry.InnerBoundaryIs" ->
    new_boundary W c None [] (Some (GRing l)) [] = Ok (boundary_obj c l).
  Proof.
    intros H Hc. unfold new_boundary. cbn [kwget sget is_none negb geo_empty]. rewrite H, ring_new by exact H. cbn [bind].
    unfold new, construct, default_ns. destruct Hc as [-> | ->]; rewrite ?Ko, ?Ki; reflexivity.
  Qed.

  Lemma polygon_new ns nss id tid o s hs : textual id -> textual tid -> nilb s = false -> Forall (fun h => nilb h = false) hs ->
    new_polygon W ns nss (Some (s, hs)) (opts_kws id tid o) = Ok (polygon_obj (ns_or ns nss) (merge_ns nss) id tid o s hs).
  Proof.
    intros Hi Ht Hs Hh. unfold new_polygon. cbn [kwget opts_kws sget String.eqb Ascii.eqb Bool.eqb is_none negb].
    rewrite boundary_new by auto. cbn [bind].
    assert (E : map_res (fun h => new_boundary W "geometry.InnerBoundaryIs" None [] (Some (GRing h)) []) hs = Ok (map (boundary_obj "geometry.InnerBoundaryIs") hs)).
    { induction Hh as [|h hs H _ IH]; cbn [map_res map]; [reflexivity|]. rewrite boundary_new by auto. cbn [bind]. now rewrite IH. }
    rewrite E. cbn [bind]. set (kws := ("outer_boundary", _) :: _).
    assert (A : mk_attr W kws ("id", COrEmpty) = Ok ("id", or_empty id)) by now apply or_empty_ok.
    assert (B : mk_attr W kws ("target_id", COrEmpty) = Ok ("target_id", or_empty tid)) by now apply or_empty_ok.
    unfold new, construct, default_ns. rewrite Kg. cbn [cl_geometry_Polygon ci_pre ci_post ci_kwargs ci_nsid map_res negb andb]. rewrite A, B. reflexivity.
  Qed.

  Lemma multi_new ns nss id tid o l : textual id -> textual tid ->
    new W "geometry.MultiGeometry" ns nss (("kml_geometries", VList l) :: opts_kws id tid o) = Ok (multi_obj (ns_or ns nss) (merge_ns nss) id tid l).
  Proof.
    intros Hi Ht. set (kws := ("kml_geometries", _) :: _).
    assert (A : mk_attr W kws ("id", COrEmpty) = Ok ("id", or_empty id)) by now apply or_empty_ok.
    assert (B : mk_attr W kws ("target_id", COrEmpty) = Ok ("target_id", or_empty tid)) by now apply or_empty_ok.
    unfold new, construct, default_ns. rewrite Km. cbn [cl_geometry_MultiGeometry ci_pre ci_post ci_kwargs ci_nsid map_res negb andb]. rewrite A, B. reflexivity.
  Qed.

  Lemma seq_res_map {A} (f : A -> res value) (k : A -> value) l : Forall (fun x => f x = Ok (k x)) l -> seq_res (map f l) = Ok (map k l).
  Proof. induction 1 as [|x l H _ IH]; cbn; [reflexivity|]. now rewrite H, IH. Qed.

  Lemma ring_full l : ring_wf l -> nilb l = false.
  Proof. intros [H _]. now apply line_wf_full. Qed.

  Lemma textual_none : textual VNone.
  Proof. now left. Qed.

  Theorem create_obj ns nss o : forall g id tid, textual id -> textual tid -> geo_wf g ->
    create_kml_geometry W ns nss id tid o g = Ok (geo_obj (ns_or ns nss) (merge_ns nss) id tid o g).
  Proof.
    assert (PT := textual_none).
    apply (geo_ind' (fun g => forall id tid, textual id -> textual tid -> geo_wf g ->
      create_kml_geometry W ns nss id tid o g = Ok (geo_obj (ns_or ns nss) (merge_ns nss) id tid o g))); cbn [create_kml_geometry geo_obj geo_wf].
    - intros c id tid Hi Ht H. apply leaf_new; cbn [In]; auto. cbn [geo_empty]. now apply point_wf_full.
    - intros l id tid Hi Ht H. apply line_wf_full in H. apply leaf_new; cbn [In]; auto.
    - intros l id tid Hi Ht H. apply ring_full in H. apply leaf_new; cbn [In]; auto.
    - intros s h id tid Hi Ht [H H']. apply polygon_new; auto using ring_full. revert H'. apply Forall_impl, ring_full.
    - intros l id tid Hi Ht [_ H]. rewrite (seq_res_map _ (fun c => leaf_obj "geometry.Point" (ns_or ns nss) (merge_ns nss) VNone VNone o [c])).
      + now apply multi_new.
      + revert H. apply Forall_impl. intros c H. apply leaf_new; cbn [In]; auto. cbn [geo_empty]. now apply point_wf_full.
    - intros l id tid Hi Ht [_ H]. rewrite (seq_res_map _ (fun c => leaf_obj "geometry.LineString" (ns_or ns nss) (merge_ns nss) VNone VNone o c)).
      + now apply multi_new.
      + revert H. apply Forall_impl. intros c H. apply line_wf_full in H. apply leaf_new; cbn [In]; auto.
    - intros l id tid Hi Ht [_ H]. rewrite (seq_res_map _ (fun p => polygon_obj (ns_or ns nss) (merge_ns nss) VNone VNone o (fst p) (snd p))).
      + now apply multi_new.
      + revert H. apply Forall_impl. intros [s h] [H H']. apply polygon_new; auto using ring_full. revert H'. apply Forall_impl, ring_full.
    - intros l IH id tid Hi Ht [_ H]. rewrite (seq_res_map _ (geo_obj (ns_or ns nss) (merge_ns nss) VNone VNone o)).
      + now apply multi_new.
      + clear Hi Ht. induction IH as [|g l Hg _ IH]; [constructor|]. destruct H. constructor; auto.
  Qed.

  (** *** Their geometries *)

  Lemma coords_true l : nilb l = false -> py_bool W (coords_obj l) = Ok true.
  Proof. intro H. unfold coords_obj. destruct (sem_obj W _ _ KMLNS NAME_SPACES [("coords", VCoords true l)] Kc) as [-> _]. cbn. now rewrite H. Qed.

  Lemma leaf_geometry c n m id tid o l (f : list (list num) -> res (option geo)) ci :
    class_of W c = Some ci -> nilb l = false ->
    (forall env b, eval_geom env b (ci_geom ci) = coords_geometry env f) -> geometry W (leaf_obj c n m id tid o l) = f l.
  Proof.
    intros Hc Hl Hg. unfold leaf_obj. set (attrs := (_ ++ _)%list). destruct (sem_obj W c ci n m attrs Hc) as [_ ->].
    rewrite Hg. unfold coords_geometry, with_attr. rewrite env_get.
    assert (E : sget "kml_coordinates" attrs = Some (coords_obj l)) by (unfold attrs; now destruct (String.eqb c "geometry.Point")).
    rewrite E. unfold a_bool, a_val. cbn [fst snd]. change (fst (sem W (coords_obj l))) with (py_bool W (coords_obj l)). rewrite coords_true by exact Hl. reflexivity.
  Qed.

  Lemma point_geometry n m id tid o c : point_wf c = true -> geometry W (leaf_obj "geometry.Point" n m id tid o [c]) = Ok (Some (GPoint c)).
  Proof.
    intro H. rewrite (leaf_geometry _ n m id tid o [c] (fun l => match l with [] => Err EIndexError | c :: _ => catch_point (let! p := mk_point c in Ok (Some (GPoint p))) end) _ Kp eq_refl).
    - now rewrite mk_point_wf.
    - reflexivity.
  Qed.

  Lemma line_geometry n m id tid o l : line_wf l -> geometry W (leaf_obj "geometry.LineString" n m id tid o l) = Ok (Some (GLine l)).
  Proof.
    intro H. rewrite (leaf_geometry _ n m id tid o l (fun l => catch_dimension (let! r := mk_line l in Ok (Some (GLine r)))) _ Kl (line_wf_full _ H)).
    - now rewrite mk_line_wf.
    - reflexivity.
  Qed.

  Lemma ring_geometry n m id tid o l : ring_wf l -> geometry W (leaf_obj "geometry.LinearRing" n m id tid o l) = Ok (Some (GRing l)).
  Proof.
    intro H. rewrite (leaf_geometry _ n m id tid o l (fun l => catch_dimension (let! r := mk_ring l in Ok (Some (GRing r)))) _ Kr (ring_full _ H)).
    - now rewrite mk_ring_wf.
    - reflexivity.
  Qed.

  Lemma ring_true n m id tid o l : ring_wf l -> py_bool W (leaf_obj "geometry.LinearRing" n m id tid o l) = Ok true.
  Proof.
    intro H. assert (G := ring_geometry n m id tid o l H). unfold leaf_obj in *. set (attrs := (_ ++ _)%list) in *.
    destruct (sem_obj W _ _ n m attrs Kr) as [-> _]. cbn [cl_geometry_LinearRing ci_bool eval_bool]. rewrite G. cbn [bind geo_empty]. now rewrite (ring_full _ H).
  Qed.

  Lemma boundary_facts c l : ring_wf l -> c = "geometry.OuterBoundaryIs" \/ c = "geometry.InnerBoundaryIs" ->
    geometry W (boundary_obj c l) = Ok (Some (GRing l)) /\ py_bool W (boundary_obj c l) = Ok true.
  Proof.
    intros H Hc. assert (G : exists ci, class_of W c = Some ci /\ ci_bool ci = BGeometry /\ ci_geom ci = GkBoundary).
    { destruct Hc as [-> | ->]; eexists; split; eauto. }
    destruct G as [ci [K [Kb Kg']]].
    assert (G : geometry W (boundary_obj c l) = Ok (Some (GRing l))).
    { unfold boundary_obj. set (attrs := [_]). destruct (sem_obj W c ci KMLNS NAME_SPACES attrs K) as [_ ->]. rewrite Kg'. cbn [eval_geom]. unfold with_attr. rewrite env_get.
      unfold attrs. cbn [sget]. rewrite String.eqb_refl. unfold a_bool, a_geom. cbn [fst snd].
      set (v := leaf_obj _ _ _ _ _ _ _). change (fst (sem W v)) with (py_bool W v). change (snd (sem W v)) with (geometry W v). unfold v.
      rewrite ring_true, ring_geometry by exact H. reflexivity. }
    split; [exact G|]. unfold boundary_obj in *. set (attrs := [_]) in *. destruct (sem_obj W c ci KMLNS NAME_SPACES attrs K) as [-> _]. rewrite Kb. cbn [eval_bool]. rewrite G.
    cbn [bind geo_empty]. now rewrite (ring_full _ H).
  Qed.

  Lemma polygon_geometry n m id tid o s hs : ring_wf s -> Forall ring_wf hs -> geometry W (polygon_obj n m id tid o s hs) = Ok (Some (GPoly s hs)).
  Proof.
    intros Hs Hh. unfold polygon_obj. set (attrs := _ :: _). destruct (sem_obj W _ _ n m attrs Kg) as [_ ->].
    cbn [cl_geometry_Polygon ci_geom eval_geom]. unfold with_attr. rewrite !env_get.
    change (sget "outer_boundary" attrs) with (Some (boundary_obj "geometry.OuterBoundaryIs" s)).
    change (sget "inner_boundaries" attrs) with (Some (VList (map (boundary_obj "geometry.InnerBoundaryIs") hs))).
    destruct (boundary_facts "geometry.OuterBoundaryIs" s Hs (or_introl eq_refl)) as [G B].
    unfold a_bool, a_geom, a_list. cbn [fst snd]. unfold geometry in G. unfold py_bool in B. rewrite B, G. cbn [bind line_of]. rewrite map_map.
    assert (E : some_geoms (map (fun x => snd (sem W x)) (map (boundary_obj "geometry.InnerBoundaryIs") hs)) = Ok (map GRing hs)).
    { clear -Hh Ki Kc Kr Ko. induction Hh as [|h hs H _ IH]; cbn [map some_geoms]; [reflexivity|].
      destruct (boundary_facts "geometry.InnerBoundaryIs" h H (or_intror eq_refl)) as [G _]. unfold geometry in G. rewrite G. cbn [bind]. now rewrite IH. }
    rewrite E. cbn [bind]. assert (E' : map_res line_of (map GRing hs) = Ok hs).
    { clear. induction hs as [|h hs IH]; cbn; [reflexivity|]. now rewrite IH. }
    rewrite E'. cbn [bind]. now rewrite mk_poly_wf.
  Qed.

  Lemma truthy_all l gs : Forall2 (fun v g => geometry W v = Ok (Some g) /\ geo_empty g = false) l gs -> truthy_geoms (map (fun x => snd (sem W x)) l) = Ok gs.
  Proof.
    induction 1 as [|v g l gs [H H'] _ IH]; cbn [map truthy_geoms]; [reflexivity|]. unfold geometry in H. rewrite H. cbn [bind]. rewrite IH. cbn [bind]. now rewrite H'.
  Qed.

  Lemma multi_geometry n m id tid l gs : gs <> [] -> Forall2 (fun v g => geometry W v = Ok (Some g) /\ geo_empty g = false) l gs ->
    geometry W (multi_obj n m id tid l) = Ok (Some (collect gs)).
  Proof.
    intros H0 H. unfold multi_obj. set (attrs := _ :: _). destruct (sem_obj W _ _ n m attrs Km) as [_ ->].
    cbn [cl_geometry_MultiGeometry ci_geom eval_geom]. unfold with_attr. rewrite env_get. change (sget "kml_geometries" attrs) with (Some (VList l)).
    unfold a_list. cbn [snd]. rewrite map_map, (truthy_all l gs H). cbn [bind]. now apply create_multi_collect.
  Qed.

  Lemma Forall2_map_both {A B C} (R : B -> C -> Prop) (f : A -> B) (k : A -> C) l : Forall (fun x => R (f x) (k x)) l -> Forall2 R (map f l) (map k l).
  Proof. induction 1; cbn; constructor; auto. Qed.

  Theorem geo_obj_geometry n m o : forall g id tid, geo_wf g -> geometry W (geo_obj n m id tid o g) = Ok (Some (regroup g)).
  Proof.
    apply (geo_ind' (fun g => forall id tid, geo_wf g -> geometry W (geo_obj n m id tid o g) = Ok (Some (regroup g)))); cbn [geo_obj regroup geo_wf].
    - intros. now apply point_geometry.
    - intros. now apply line_geometry.
    - intros. now apply ring_geometry.
    - intros s h id tid []. now apply polygon_geometry.
    - intros l id tid [H0 H]. rewrite (multi_geometry n m id tid _ (map GPoint l)).
      + unfold collect. now rewrite (all_some_map as_point GPoint).
      + now destruct l.
      + apply Forall2_map_both. revert H. apply Forall_impl. intros c H. split; [now apply point_geometry|]. now apply point_wf_full.
    - intros l id tid [H0 H]. rewrite (multi_geometry n m id tid _ (map GLine l)).
      + unfold collect. rewrite (all_some_map as_line GLine) by reflexivity. now destruct l.
      + now destruct l.
      + apply Forall2_map_both. revert H. apply Forall_impl. intros c H. split; [now apply line_geometry|]. now apply line_wf_full.
    - intros l id tid [H0 H]. rewrite (multi_geometry n m id tid _ (map (fun p => GPoly (fst p) (snd p)) l)).
      + unfold collect. rewrite (all_some_map as_poly (fun p => GPoly (fst p) (snd p))) by (intros []; reflexivity). now destruct l.
      + now destruct l.
      + apply Forall2_map_both. revert H. apply Forall_impl. intros c [H H']. split; [now apply polygon_geometry|]. now apply ring_full.
    - intros l IH id tid [H0 H]. rewrite (multi_geometry n m id tid _ (map regroup l)); [reflexivity|now destruct l|].
      clear H0. induction IH as [|g l Hg _ IH]; cbn [map]; constructor; destruct H; auto. split; [now apply Hg|]. now apply geo_wf_full, regroup_wf.
  Qed.

  Theorem geo_obj_true n m o g id tid : geo_wf g -> py_bool W (geo_obj n m id tid o g) = Ok true.
  Proof.
    intro H. assert (G := geo_obj_geometry n m o g id tid H). assert (E := geo_wf_full _ (regroup_wf _ H)).
    assert (A : forall c ci attrs, class_of W c = Some ci -> ci_bool ci = BGeometry -> geometry W (VObj c n m attrs) = Ok (Some (regroup g)) -> py_bool W (VObj c n m attrs) = Ok true).
    { intros c ci attrs Hc Hb Hg. destruct (sem_obj W c ci n m attrs Hc) as [-> _]. rewrite Hb. cbn [eval_bool]. rewrite Hg. cbn [bind]. now rewrite E. }
    destruct g; cbn [geo_obj] in *; try (unfold leaf_obj, multi_obj in *; eapply A; eauto; reflexivity).
    cbn [geo_wf] in H. destruct H as [H _]. unfold polygon_obj. set (attrs := _ :: _). destruct (sem_obj W _ _ n m attrs Kg) as [-> _].
    cbn [cl_geometry_Polygon ci_bool eval_bool]. unfold with_attr. rewrite env_get. change (sget "outer_boundary" attrs) with (Some (boundary_obj "geometry.OuterBoundaryIs" shell)).
    unfold a_bool. cbn [fst snd]. now destruct (boundary_facts "geometry.OuterBoundaryIs" shell H (or_introl eq_refl)).
  Qed.
End Objects.
