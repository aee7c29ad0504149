(** * Truth values of objects that carry data. *)
From Coq Require Import String List NArith ZArith Bool Lia.
From Verif Require Import Ustr UstrProofs Res PyInt PyFloat PyDate Elem Value Geom Codec Tables Spec Settled EmitProofs ItemProofs RoundTrip SettledProofs ReaderTyped FastkmlOk WriteProofs.
Import ListNotations.
Local Open Scope string_scope.

(** The attribute holds something: a number or truth value (0 and False are
    data), a non-empty text, a sub-object or a member of a list that is itself
    true in the sense of [bool()]. *)
Definition has_data (W : world) (x : value) : bool :=
  match x with
  | VNone => false
  | VStr s => negb (uempty s)
  | VObj _ _ _ _ => truth W x
  | VList l => existsb (truth W) l
  | VCoords _ l => negb (nilb l)
  | VDates l => negb (nilb l)
  | VItems l => negb (nilb l)
  | _ => true
  end.

(** The [__bool__] expression is true as soon as attribute [a] holds data. *)
Fixpoint covered (its : list item) (a : string) (e : bexpr) : bool :=
  match e with
  | BTrue => true
  | BNotNone b => String.eqb a b
  | BAttr b => String.eqb a b && match find_item a its with
                                 | Some it => match it_set it with SBool | SInt | SAttrInt | SFloat | SAttrFloat => false | _ => true end
                                 | None => false
                                 end
  | BAny b => String.eqb a b
  | BOr x y => covered its a x || covered its a y
  | BAnd x y => covered its a x && covered its a y
  | BGeometry => false
  end.

Definition id_attr (a : string) : bool := String.eqb a "id" || String.eqb a "target_id".

(** Classes whose objects are true whenever any attribute, other than the two
    identifiers, holds data. *)
Definition covering (W : world) (c : string) : bool :=
  match class_of W c with
  | Some ci => forallb (fun it => id_attr (it_attr it) || covered (items_of W c) (it_attr it) (ci_bool ci)) (items_of W c)
  | None => false
  end.

Lemma truth_true W v : truth W v = true <-> py_bool W v = Ok true.
Proof. unfold truth. destruct (py_bool W v) as [[|]|]; split; intro H; congruence. Qed.

Lemma any_true_exists W l b : any_true (map fst (map (sem W) l)) = Ok b -> existsb (truth W) l = true -> b = true.
Proof.
  revert b; induction l as [|x l IH]; intros b H E; [discriminate|]. cbn [map any_true] in H. apply bind_ok in H as [y [Hy H]]. destruct y; [now injection H as <-|].
  cbn [existsb] in E. unfold truth at 1, py_bool in E. rewrite Hy in E. exact (IH _ H E).
Qed.

Lemma covered_true W its a x attrs g e b : sget a attrs = Some x -> has_data W x = true ->
  (forall it, find_item a its = Some it -> item_typed W it x = true) ->
  covered its a e = true -> eval_bool (env_of W attrs) g e = Ok b -> b = true.
Proof.
  intros Hx Hd Ht. revert b; induction e as [|c|c|c| |p IHp q IHq|p IHp q IHq]; intros b Hc Hb; cbn [covered eval_bool] in *.
  - now injection Hb as <-.
  - apply andb_prop in Hc as [E Hs]. apply seqb_eq in E. subst c. unfold with_attr in Hb. rewrite env_get, Hx in Hb. unfold a_bool in Hb. cbn [fst snd] in Hb.
    destruct (find_item a its) as [it|]; [|discriminate]. specialize (Ht it eq_refl). unfold item_typed in Ht.
    destruct x as [ |?|n|s|? ?|?|?|? l|l|l|l|c n m at_]; try discriminate Hd; try (injection Hb as <-; exact Hd); try (injection Hb as <-; reflexivity).
    + destruct (it_set it); try discriminate Hs; discriminate Ht.
    + destruct (it_set it); try discriminate Hs; discriminate Ht.
    + destruct (it_set it); try discriminate Hs; discriminate Ht.
    + injection Hb as <-. cbn [has_data] in Hd. destruct l; [discriminate|reflexivity].
    + cbn [has_data] in Hd. apply truth_true in Hd. unfold py_bool in Hd. congruence.
  - apply seqb_eq in Hc. subst c. unfold with_attr in Hb. rewrite env_get, Hx in Hb. unfold a_val in Hb. cbn [fst] in Hb. injection Hb as <-. destruct x; try reflexivity. discriminate Hd.
  - apply seqb_eq in Hc. subst c. unfold with_attr in Hb. rewrite env_get, Hx in Hb. unfold a_val, a_list in Hb. cbn [fst snd] in Hb. destruct x; try discriminate Hb. exact (any_true_exists _ _ _ Hb Hd).
  - discriminate Hc.
  - apply andb_prop in Hc as [H1 H2]. apply bind_ok in Hb as [y [Hy Hb]]. rewrite (IHp _ H1 Hy) in Hb. exact (IHq _ H2 Hb).
  - apply bind_ok in Hb as [y [Hy Hb]]. destruct y; [now injection Hb as <-|]. apply orb_prop in Hc as [Hc|Hc]; [discriminate (IHp _ Hc Hy)|exact (IHq _ Hc Hb)].
Qed.

Theorem covering_true arrow c ns nss attrs it x : covering (fastkml arrow) c = true ->
  typed (fastkml arrow) (VObj c ns nss attrs) = true -> fine (VObj c ns nss attrs) = true ->
  In it (items_of (fastkml arrow) c) -> id_attr (it_attr it) = false -> sget (it_attr it) attrs = Some x -> has_data (fastkml arrow) x = true ->
  py_bool (fastkml arrow) (VObj c ns nss attrs) = Ok true.
Proof.
  intros Hcov Ht Hf Hin Hid Hx Hd. unfold typed in Ht. destruct (proj1 (proj1 (sem_total arrow _ Ht Hf))) as [b Hb]. rewrite Hb. f_equal.
  unfold covering in Hcov. destruct (class_of (fastkml arrow) c) as [ci|] eqn:Hc; [|discriminate]. rewrite forallb_forall in Hcov. specialize (Hcov _ Hin). rewrite Hid in Hcov. cbn [orb] in Hcov.
  destruct (sem_obj (fastkml arrow) _ _ ns nss attrs Hc) as [E _]. rewrite E in Hb. eapply covered_true; try eassumption.
  intros it' Hf'. cbn [vall] in Ht. apply andb_prop in Ht as [Ht _]. eapply o_typed; eassumption.
Qed.

(** ** Geometries *)

Lemma dedupe_nonempty l : l <> [] -> dedupe l <> [].
Proof. destruct l; [congruence|discriminate]. Qed.

Lemma close_nonempty l : l <> [] -> close_ring l <> [].
Proof. unfold close_ring. destruct l; [congruence|]. destruct (point_eq _ _); [auto|]. intros _ H. now apply app_eq_nil in H as [H _]. Qed.

Lemma mk_ring_nonempty r : ring_fine r -> r <> [] -> exists r', mk_ring r = Ok r' /\ r' <> [].
Proof.
  intros [H [n Hn]] Hr. unfold mk_ring, mk_line. rewrite (line_points_uniform _ None n); [|now apply dedupe_fine| |now left].
  - eexists. split; [reflexivity|]. now apply close_nonempty, dedupe_nonempty.
  - rewrite Forall_forall in *. intros c Hc. apply Hn, dedupe_incl, Hc.
Qed.

Lemma create_multi_nonempty gs o : gs <> [] -> Forall (fun g => geo_empty g = false) gs -> create_multigeometry gs = Ok o -> exists g, o = Some g /\ geo_empty g = false.
Proof.
  intros Hn Hg H. destruct gs as [|g gs]; [congruence|]. inversion Hg as [|? ? Hg1 _]; subst. unfold create_multigeometry in H.
  assert (Coll : exists g0, Some (GColl (g :: gs)) = Some g0 /\ geo_empty g0 = false) by (eexists; split; [reflexivity|]; cbn [geo_empty forallb]; now rewrite Hg1).
  destruct (forallb _ (g :: gs)) eqn:E; [|injection H as <-; exact Coll].
  destruct (geom_type g) as [|[|[|]]] eqn:Eg; try (injection H as <-; exact Coll).
  - apply bind_ok in H as [r [Hr H]]. injection H as <-. cbn [map_res] in Hr. apply bind_ok in Hr as [p [Hp Hr]]. apply bind_ok in Hr as [r' [_ Hr]]. injection Hr as <-. destruct g; try discriminate Eg. injection Hp as <-.
    eexists. split; [reflexivity|]. cbn [geo_empty forallb] in *. now rewrite Hg1.
  - apply bind_ok in H as [r [Hr H]]. injection H as <-. cbn [map_res] in Hr. apply bind_ok in Hr as [p [Hp Hr]]. apply bind_ok in Hr as [r' [_ Hr]]. injection Hr as <-. destruct g; try discriminate Eg. injection Hp as <-.
    eexists. split; [reflexivity|]. cbn [geo_empty forallb] in *. now rewrite Hg1.
  - apply bind_ok in H as [r [Hr H]]. injection H as <-. cbn [map_res] in Hr. apply bind_ok in Hr as [p [Hp Hr]]. apply bind_ok in Hr as [r' [_ Hr]]. injection Hr as <-. destruct g; try discriminate Eg. injection Hp as <-.
    eexists. split; [reflexivity|]. cbn [geo_empty forallb fst] in *. now rewrite Hg1.
Qed.

Section Geo.
  Variable arrow : ustr -> option datetime.
  Local Notation W := (fastkml arrow).

  Definition solid (v : value) : Prop := exists g, geometry W v = Ok (Some g) /\ geo_empty g = false.

  Lemma bgeometry_true c ci ns nss attrs : class_of W c = Some ci -> ci_bool ci = BGeometry ->
    (py_bool W (VObj c ns nss attrs) = Ok true <-> solid (VObj c ns nss attrs)).
  Proof.
    intros Hc Hb. destruct (sem_obj W _ _ ns nss attrs Hc) as [-> _]. rewrite Hb. cbn [eval_bool]. unfold solid. split.
    - intro H. apply bind_ok in H as [o [Ho H]]. injection H as H. destruct o as [g|]; [|discriminate]. exists g. split; [exact Ho|]. now apply negb_true_iff.
    - intros [g [-> H]]. cbn [bind]. now rewrite H.
  Qed.

  (** Points, lines and rings with coordinates. *)
  Definition coord_classes : list string := ["geometry.Point"; "geometry.LineString"; "geometry.LinearRing"].

  Theorem coordinates_true c ns nss attrs n m at_ b l : In c coord_classes ->
    sget "kml_coordinates" attrs = Some (VObj "geometry.Coordinates" n m at_) -> sget "coords" at_ = Some (VCoords b l) ->
    l <> [] -> ring_fine l -> py_bool W (VObj c ns nss attrs) = Ok true.
  Proof.
    intros Hc Hk Hl Hn Hf.
    assert (CG : forall f, coords_geometry (env_of W attrs) f = f l).
    { intro f. unfold coords_geometry, with_attr. rewrite env_get, Hk. unfold a_bool, a_val. cbn [fst snd]. change (fst (sem W (VObj "geometry.Coordinates" n m at_))) with (py_bool W (VObj "geometry.Coordinates" n m at_)).
      destruct (sem_obj W "geometry.Coordinates" cl_geometry_Coordinates n m at_ eq_refl) as [-> _]. cbn [cl_geometry_Coordinates ci_bool eval_bool]. unfold with_attr. rewrite env_get, Hl. unfold a_bool. cbn [fst snd sem bind]. destruct l; [congruence|]. cbn [nilb negb bind coords_of]. now rewrite Hl. }
    destruct Hf as [Hf [k Hu]]. assert (ML : mk_line l = Ok (dedupe l)).
    { unfold mk_line. apply (line_points_uniform _ None k); [now apply dedupe_fine| |now left]. rewrite Forall_forall in *. intros q Hq. apply Hu, dedupe_incl, Hq. }
    destruct Hc as [<-|[<-|[<-|[]]]].
    - apply (bgeometry_true "geometry.Point" cl_geometry_Point ns nss attrs eq_refl eq_refl). unfold solid. destruct (sem_obj W "geometry.Point" cl_geometry_Point ns nss attrs eq_refl) as [_ ->]. cbn [cl_geometry_Point ci_geom eval_geom]. rewrite CG.
      destruct l as [|p l]; [congruence|]. cbn [forallb] in Hf. apply andb_prop in Hf as [Hf _]. destruct (tuple_point _ Hf) as [-> H2]. eexists. split; [reflexivity|exact H2].
    - apply (bgeometry_true "geometry.LineString" cl_geometry_LineString ns nss attrs eq_refl eq_refl). unfold solid. destruct (sem_obj W "geometry.LineString" cl_geometry_LineString ns nss attrs eq_refl) as [_ ->]. cbn [cl_geometry_LineString ci_geom eval_geom]. rewrite CG, ML.
      eexists. split; [reflexivity|]. apply dedupe_nonempty in Hn. cbn [geo_empty]. now destruct (dedupe l).
    - apply (bgeometry_true "geometry.LinearRing" cl_geometry_LinearRing ns nss attrs eq_refl eq_refl). unfold solid. destruct (sem_obj W "geometry.LinearRing" cl_geometry_LinearRing ns nss attrs eq_refl) as [_ ->]. cbn [cl_geometry_LinearRing ci_geom eval_geom]. rewrite CG. unfold mk_ring. rewrite ML. cbn [bind].
      eexists. split; [reflexivity|]. apply dedupe_nonempty, close_nonempty in Hn. cbn [geo_empty]. now destruct (close_ring (dedupe l)).
  Qed.

  (** A boundary is true when its ring is. *)
  Theorem boundary_true c ns nss attrs n m at_ : In c ["geometry.BoundaryIs"; "geometry.OuterBoundaryIs"; "geometry.InnerBoundaryIs"] ->
    sget "kml_geometry" attrs = Some (VObj "geometry.LinearRing" n m at_) -> py_bool W (VObj "geometry.LinearRing" n m at_) = Ok true ->
    py_bool W (VObj c ns nss attrs) = Ok true.
  Proof.
    intros Hc Hk Hb. assert (S := proj1 (bgeometry_true "geometry.LinearRing" cl_geometry_LinearRing n m at_ eq_refl eq_refl) Hb).
    assert (G : forall ci, class_of W c = Some ci -> ci_bool ci = BGeometry -> ci_geom ci = GkBoundary -> py_bool W (VObj c ns nss attrs) = Ok true).
    { intros ci E1 E2 E3. apply (bgeometry_true c ci ns nss attrs E1 E2). unfold solid. destruct (sem_obj W c ci ns nss attrs E1) as [_ ->]. rewrite E3. cbn [eval_geom]. unfold with_attr. rewrite env_get, Hk. unfold a_bool, a_geom. cbn [fst snd].
      unfold py_bool in Hb. rewrite Hb. cbn [bind]. exact S. }
    destruct Hc as [<-|[<-|[<-|[]]]]; eapply G; reflexivity.
  Qed.

  (** A polygon is true when its outer boundary is. *)
  Theorem polygon_true ns nss attrs x : sget "outer_boundary" attrs = Some x -> py_bool W x = Ok true -> py_bool W (VObj "geometry.Polygon" ns nss attrs) = Ok true.
  Proof.
    intros Hx Hb. destruct (sem_obj W "geometry.Polygon" cl_geometry_Polygon ns nss attrs eq_refl) as [-> _]. cbn [cl_geometry_Polygon ci_bool eval_bool]. unfold with_attr. rewrite env_get, Hx. exact Hb.
  Qed.

  (** A true polygon has a geometry that is not empty. *)
  Lemma polygon_solid ns nss attrs : typed W (VObj "geometry.Polygon" ns nss attrs) = true -> fine (VObj "geometry.Polygon" ns nss attrs) = true ->
    py_bool W (VObj "geometry.Polygon" ns nss attrs) = Ok true -> solid (VObj "geometry.Polygon" ns nss attrs).
  Proof.
    intros Ht Hf Hb. unfold typed in Ht. assert (Hc : class_of W "geometry.Polygon" = Some cl_geometry_Polygon) by reflexivity.
    destruct (proj2 (proj2 (proj1 (sem_total arrow _ Ht Hf)) _ _ _ _ eq_refl) eq_refl) as [o Ho]. unfold solid. rewrite Ho.
    destruct (sem_obj W _ _ ns nss attrs Hc) as [Eb Eg]. rewrite Eb in Hb. cbn [cl_geometry_Polygon ci_bool eval_bool] in Hb. rewrite Eg in Ho. cbn [cl_geometry_Polygon ci_geom eval_geom] in Ho.
    unfold with_attr in Hb, Ho at 1. rewrite env_get in Hb, Ho. destruct (sget "outer_boundary" attrs) as [x|] eqn:Hx; [|discriminate]. unfold a_bool in Hb, Ho. cbn [fst snd] in Hb, Ho. rewrite Hb in Ho. cbn [bind] in Ho. unfold a_geom in Ho. cbn [fst snd] in Ho.
    assert (T := Ht). unfold fine in Hf. cbn [vall] in T, Hf. apply andb_prop in T as [Tn Ts]. apply andb_prop in Hf as [_ Fs]. rewrite forallb_forall in Ts, Fs.
    assert (Hxc : x = VNone \/ exists n m at_, x = VObj "geometry.OuterBoundaryIs" n m at_) by (eapply (obj_of_class arrow "geometry.Polygon" _ ns nss attrs Hc Tn "outer_boundary"); [vm_compute; reflexivity|reflexivity|reflexivity|exact Hx]).
    destruct Hxc as [->|[n [m [at_ ->]]]]; [discriminate Hb|].
    assert (Hin := sget_In _ _ _ Hx). destruct (proj1 (proj2 (proj1 (sem_total arrow _ (Ts _ Hin) (Fs _ Hin))) _ _ _ _ eq_refl) eq_refl) as [o1 [Ho1 Hr]].
    destruct (proj1 (bgeometry_true "geometry.OuterBoundaryIs" cl_geometry_OuterBoundaryIs n m at_ eq_refl eq_refl) Hb) as [g [Hg He]].
    assert (o1 = Some g) as -> by congruence. destruct (Hr g eq_refl) as [r [-> Hrf]]. unfold geometry in Hg. rewrite Hg in Ho. cbn [bind line_of] in Ho.
    unfold with_attr in Ho. rewrite env_get in Ho. destruct (sget "inner_boundaries" attrs) as [y|]; [|discriminate].
    apply bind_ok in Ho as [gs [_ Ho]]. apply bind_ok in Ho as [hs [_ Ho]]. apply bind_ok in Ho as [p [Hp Ho]]. injection Ho as <-.
    assert (r <> []) as Hne by (intro E; subst r; discriminate He). destruct (mk_ring_nonempty r Hrf Hne) as [r' [Hr' Hne']]. unfold mk_poly in Hp. rewrite Hr' in Hp. cbn [bind] in Hp. apply bind_ok in Hp as [hs' [_ Hp]]. injection Hp as <-.
    eexists. split; [reflexivity|]. cbn [geo_empty]. now destruct r'.
  Qed.

  (** A multi-geometry is true when one of its members is. *)
  Theorem multi_true ns nss attrs l x : typed W (VObj "geometry.MultiGeometry" ns nss attrs) = true -> fine (VObj "geometry.MultiGeometry" ns nss attrs) = true ->
    sget "kml_geometries" attrs = Some (VList l) -> In x l -> py_bool W x = Ok true -> py_bool W (VObj "geometry.MultiGeometry" ns nss attrs) = Ok true.
  Proof.
    intros Ht Hf Hl Hx Hb. assert (Hc : class_of W "geometry.MultiGeometry" = Some cl_geometry_MultiGeometry) by reflexivity. unfold typed in Ht. assert (Hf' := Hf).
    assert (T := Ht). unfold fine in Hf. cbn [vall] in T, Hf. apply andb_prop in T as [Tn Ts]. apply andb_prop in Hf as [_ Fs]. rewrite forallb_forall in Ts, Fs.
    assert (Hin := sget_In _ _ _ Hl). specialize (Ts _ Hin). specialize (Fs _ Hin). cbn [vall] in Ts, Fs. rewrite forallb_forall in Ts, Fs.
    assert (Hcls : forall z, In z l -> exists c n m at_, z = VObj c n m at_ /\ In c ["geometry.Point"; "geometry.LineString"; "geometry.Polygon"; "geometry.LinearRing"; "geometry.MultiGeometry"]).
    { assert (Hi : exists it, find_item "kml_geometries" (items_of W "geometry.MultiGeometry") = Some it /\ it_set it = SObjs /\
          it_classes it = ["geometry.Point"; "geometry.LineString"; "geometry.Polygon"; "geometry.LinearRing"; "geometry.MultiGeometry"]) by (eexists; repeat split; vm_compute; reflexivity).
      destruct Hi as [it [Hi [Hs Hcl]]]. assert (Hyt := o_typed _ _ _ _ _ _ Hc Tn _ _ _ Hl Hi). unfold item_typed in Hyt. rewrite Hs, Hcl in Hyt. rewrite forallb_forall in Hyt. intros z Hz. specialize (Hyt z Hz). destruct z; try discriminate Hyt. apply mem_In in Hyt. eauto 8. }
    assert (Hsol : forall z, In z l -> py_bool W z = Ok true -> solid z).
    { intros z Hz Hbz. destruct (Hcls z Hz) as [c [n [m [at_ [-> Hin']]]]].
      destruct Hin' as [<-|[<-|[<-|[<-|[<-|[]]]]]].
      - exact (proj1 (bgeometry_true "geometry.Point" cl_geometry_Point n m at_ eq_refl eq_refl) Hbz).
      - exact (proj1 (bgeometry_true "geometry.LineString" cl_geometry_LineString n m at_ eq_refl eq_refl) Hbz).
      - exact (polygon_solid n m at_ (Ts _ Hz) (Fs _ Hz) Hbz).
      - exact (proj1 (bgeometry_true "geometry.LinearRing" cl_geometry_LinearRing n m at_ eq_refl eq_refl) Hbz).
      - exact (proj1 (bgeometry_true "geometry.MultiGeometry" cl_geometry_MultiGeometry n m at_ eq_refl eq_refl) Hbz). }
    destruct (proj2 (proj2 (proj1 (sem_total arrow _ Ht Hf')) _ _ _ _ eq_refl) eq_refl) as [o Ho].
    apply (bgeometry_true "geometry.MultiGeometry" cl_geometry_MultiGeometry ns nss attrs eq_refl eq_refl). unfold solid. rewrite Ho.
    destruct (sem_obj W _ _ ns nss attrs Hc) as [_ Eg]. rewrite Eg in Ho. cbn [cl_geometry_MultiGeometry ci_geom eval_geom] in Ho. unfold with_attr in Ho. rewrite env_get, Hl in Ho. unfold a_list in Ho. cbn [snd] in Ho.
    apply bind_ok in Ho as [gs [Hgs Ho]].
    assert (K : gs <> [] /\ Forall (fun g => geo_empty g = false) gs).
    { destruct (Hsol x Hx Hb) as [gx [Hgx Hex]]. clear -Hgs Hx Hgx Hex. revert gs Hgs; induction l as [|z l IH]; [contradiction|]. intros gs Hgs. cbn [map truthy_geoms] in Hgs. apply bind_ok in Hgs as [oz [Hz Hgs]]. apply bind_ok in Hgs as [r [Hr Hgs]]. injection Hgs as <-.
      assert (A : forall r l, truthy_geoms (map snd (map (sem W) l)) = Ok r -> Forall (fun g => geo_empty g = false) r).
      { clear. intros r l. revert r; induction l as [|z l IH]; intros r H; cbn [map truthy_geoms] in H; [injection H as <-; constructor|]. apply bind_ok in H as [o [Ho H]]. apply bind_ok in H as [r' [Hr H]]. injection H as <-. destruct o as [g|]; [|exact (IH _ Hr)]. destruct (geo_empty g) eqn:E; [exact (IH _ Hr)|]. constructor; [exact E|exact (IH _ Hr)]. }
      destruct Hx as [->|Hx].
      - unfold geometry in Hgx. assert (oz = Some gx) as -> by congruence. rewrite Hex. split; [discriminate|]. constructor; [exact Hex|exact (A _ _ Hr)].
      - destruct (IH Hx _ Hr) as [I1 I2]. destruct oz as [g|]; [|auto]. destruct (geo_empty g) eqn:E; [auto|]. split; [discriminate|]. constructor; assumption. }
    destruct (create_multi_nonempty gs o (proj1 K) (proj2 K) Ho) as [g [-> Hg]]. eauto.
  Qed.
End Geo.
