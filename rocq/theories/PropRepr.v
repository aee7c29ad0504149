(** * What [repr] prints: C27.

    "Evaluating the constructor call printed by [repr(obj)] yields an object
    equal to [obj]", for all objects built by the constructors.

    [repr W v] is the printed expression, [eval W e] its value ([None] if it
    raises or is no Python expression); see Repr.v.  [geq] stands for [==]
    between pygeoif geometries. *)
From Coq Require Import String List NArith ZArith Bool.
From Verif Require Import Ustr UstrProofs Res PyInt PyFloat PyDate Elem Value Geom Codec Tables Spec EmitProofs VerbosityProofs CtorProofs WriteProofs RoundTrip FastkmlOk Create Equal EqualSpec EqualProofs PropEqual Repr ReprSpec ReprProofs Samples.
Import ListNotations.
Local Open Scope string_scope.

Lemma fastkml_reprs arrow : reprs_ok (fastkml arrow) = true.
Proof. vm_compute. reflexivity. Qed.

Lemma fastkml_shapes arrow : shapes_ok (fastkml arrow) = true.
Proof. vm_compute. reflexivity. Qed.

Lemma fastkml_required arrow c ci a : class_of (fastkml arrow) c = Some ci -> ckind_of ci a = Some CCleanReq -> c = "data.Schema" /\ a = "id".
Proof.
  intros C K. assert (T : forallb (fun cc => forallb (fun ak => match snd ak with CCleanReq => String.eqb (fst cc) "data.Schema" && String.eqb (fst ak) "id" | _ => true end) (ctor_attrs (snd cc))) (w_classes (fastkml arrow)) = true) by (vm_compute; reflexivity).
  rewrite forallb_forall in T. specialize (T _ (sget_In _ _ _ C)). cbn [fst snd] in T. rewrite forallb_forall in T. unfold ckind_of in K. specialize (T _ (sget_In _ _ _ K)).
  cbn [fst snd] in T. apply andb_prop in T as [T1 T2]. apply String.eqb_eq in T1, T2. auto.
Qed.

Lemma repr_whole arrow geq v : let W := fastkml arrow in
  typed W v = true -> literals v = true -> plain_extras W v = true -> distinct_keys v = true -> geometries_fine W geq v -> constructed W v ->
  exists e v', repr W v = Ok e /\ eval W e = Some v' /\ same W geq v v' /\ (no_lines v = true -> v' = v).
Proof.
  intros W T L E D F C. assert (O : exists c ns nss attrs, v = VObj c ns nss attrs) by (destruct v; try discriminate T; repeat eexists). destruct O as [c [ns [nss [attrs ->]]]].
  assert (R : rebuilt W (VObj c ns nss attrs)) by (apply constructed_rebuilt; [apply fastkml_ok|reflexivity|exact (fastkml_required arrow)|exact C]).
  destruct (whole W geq (fastkml_ok arrow) (fastkml_reprs arrow) (fastkml_shapes arrow) (fastkml_kinds_attrs arrow) eq_refl eq_refl eq_refl eq_refl eq_refl eq_refl eq_refl eq_refl (VObj c ns nss attrs) I T L E D F R) as [v' [[S1 S2] S3]].
  destruct (S2 true eq_refl) as [e [E1 E2]]. exists e, v'. auto.
Qed.

(** C27, for objects whose numbers have literals ([literals]: no [nan] or
    [inf]), whose additional keyword arguments are neither [None] nor
    enumeration members, and that are not instances of one of the five private
    base classes ([plain_extras]).  Missing: those cases; three are refuted
    below. *)
Theorem C27_equal_partial : forall arrow geq v, let W := fastkml arrow in
  typed W v = true -> literals v = true -> plain_extras W v = true -> distinct_keys v = true -> geometries_fine W geq v -> constructed W v ->
  exists e v', repr W v = Ok e /\ eval W e = Some v' /\ py_eq W geq v' v = Ok true /\ py_eq W geq v v' = Ok true.
Proof.
  intros arrow geq v W T L E D F C. destruct (repr_whole arrow geq v T L E D F C) as [e [v' [R1 [R2 [[_ [_ [_ [_ S]]]] _]]]]]. exists e, v'. split; [exact R1|]. split; [exact R2|].
  unfold py_eq. split; [rewrite (eqv_swap W geq v' false v); exact (S true)|exact (S false)].
Qed.
Print Assumptions C27_equal_partial.

(** Nothing at all is lost if there is no line, ring or polygon inside. *)
Lemma geometric_class arrow c ci : class_of (fastkml arrow) c = Some ci -> eq_kind ci <> None -> unprinted c = [] -> c = "geometry.Point".
Proof.
  intros C K U. assert (T : forallb (fun cc => match eq_kind (snd cc) with None => true | Some _ => negb (nilb (unprinted (fst cc))) || String.eqb (fst cc) "geometry.Point" end) (w_classes (fastkml arrow)) = true) by (vm_compute; reflexivity).
  rewrite forallb_forall in T. specialize (T _ (sget_In _ _ _ C)). cbn [fst snd] in T. destruct (eq_kind ci); [|congruence]. rewrite U in T. now apply String.eqb_eq in T.
Qed.

Lemma within_vall P v x : within v x -> vall P v = true -> vall P x = true.
Proof.
  induction 1 as [v|c ns nss attrs a x y H _ IH|l x y H _ IH]; auto; intro G; apply IH; cbn [vall] in G.
  - apply andb_prop in G as [_ G]. rewrite forallb_forall in G. exact (G _ H).
  - rewrite forallb_forall in G. now apply G.
Qed.

Lemma point_computed arrow ns nss attrs : let W := fastkml arrow in vall (typed_node W) (VObj "geometry.Point" ns nss attrs) = true -> exists g, geometry W (VObj "geometry.Point" ns nss attrs) = Ok g.
Proof.
  intros W T. assert (Tn : typed_node W "geometry.Point" ns nss attrs = true) by (cbn [vall] in T; now apply andb_prop in T).
  assert (Sh : shape_ok cl_geometry_Point attrs = true) by (unfold typed_node in Tn; change (class_of W "geometry.Point") with (Some cl_geometry_Point) in Tn; now apply andb_prop in Tn).
  destruct (shape_has _ _ "kml_coordinates" Sh eq_refl) as [x X].
  destruct (sem_obj W "geometry.Point" cl_geometry_Point ns nss attrs eq_refl) as [_ G]. rewrite G. cbn [cl_geometry_Point ci_geom eval_geom]. unfold coords_geometry, with_attr. rewrite env_attr, X. cbn [option_map]. unfold a_bool, a_val. cbn [fst snd].
  assert (H : holds W "geometry.Point" "kml_coordinates" "geometry.Coordinates" SObj = true) by (vm_compute; reflexivity).
  destruct (holds_obj _ _ _ _ _ _ _ _ H Tn X) as [-> |[n [m [at_ ->]]]]; [exists None; reflexivity|].
  assert (Tx := attr_part _ _ _ _ _ _ _ T X). cbn [vall] in Tx. apply andb_prop in Tx as [Tx _]. unfold typed_node in Tx. change (class_of W "geometry.Coordinates") with (Some cl_geometry_Coordinates) in Tx. apply andb_prop in Tx as [Shx Tx].
  destruct (shape_has _ _ "coords" Shx eq_refl) as [y Y]. destruct (sem_obj W "geometry.Coordinates" cl_geometry_Coordinates n m at_ eq_refl) as [B _]. unfold py_bool in B. rewrite B. cbn [cl_geometry_Coordinates ci_bool eval_bool]. unfold with_attr. rewrite env_attr, Y. cbn [option_map]. unfold a_bool. cbn [fst snd].
  rewrite forallb_forall in Tx. specialize (Tx _ (sget_In _ _ _ Y)). unfold attr_typed in Tx. apply andb_prop in Tx as [Tx _].
  assert (S : option_map it_set (find_item "coords" (items_of W "geometry.Coordinates")) = Some SCoords) by (vm_compute; reflexivity).
  destruct (find_item "coords" (items_of W "geometry.Coordinates")) as [it|]; [|discriminate S]. injection S as S. unfold item_typed in Tx. rewrite S in Tx.
  destruct y as [ | | | | | | |t l| | | | ]; try discriminate Tx; [exists None; reflexivity|]. cbn [sem fst bind]. cbn [coords_of]. rewrite Y.
  destruct l as [|p l]; cbn [nilb negb bind]; [exists None; reflexivity|]. unfold mk_point. destruct (List.length p) as [|[|[|[|]]]]; cbn [bind catch_point]; eexists; reflexivity.
Qed.

Lemma lineless_fine arrow v : typed (fastkml arrow) v = true -> no_lines v = true -> geometries_fine (fastkml arrow) (fun _ _ => true) v.
Proof.
  intros T N. assert (T' : vall (typed_node (fastkml arrow)) v = true) by (unfold typed in T; now destruct v). split; [|reflexivity].
  intros x Hw Gx. apply (within_vall _ _ _ Hw) in T'. apply (within_vall _ _ _ Hw) in N. unfold geometric in Gx. destruct x as [ | | | | | | | | | | |c ns nss attrs]; try discriminate Gx.
  destruct (class_of (fastkml arrow) c) as [ci|] eqn:C; [|discriminate Gx]. cbn [vall] in N. apply andb_prop in N as [N _].
  assert (c = "geometry.Point") as ->; [apply (geometric_class arrow c ci C); [destruct (eq_kind ci); congruence|now destruct (unprinted c)]|].
  destruct (point_computed arrow ns nss attrs T') as [g G]. exists g. auto.
Qed.

Theorem C27_exact_partial : forall arrow v, let W := fastkml arrow in
  typed W v = true -> literals v = true -> plain_extras W v = true -> distinct_keys v = true -> constructed W v -> no_lines v = true ->
  exists e, repr W v = Ok e /\ eval W e = Some v.
Proof.
  intros arrow v W T L E D C N. destruct (repr_whole arrow (fun _ _ => true) v T L E D (lineless_fine arrow v T N) C) as [e [v' [R1 [R2 [_ R3]]]]]. exists e. rewrite <- (R3 N) at 2. auto.
Qed.
Print Assumptions C27_exact_partial.

(** ** Examples *)

(** Decides the hypotheses for concrete objects. *)
Fixpoint fine_b (W : world) (geq : geo -> geo -> bool) (v : value) : bool :=
  match v with
  | VItems l => forallb (fun i => geq (GPoint (ti_coord i)) (GPoint (ti_coord i))) l
  | VList l => forallb (fine_b W geq) l
  | VObj c ns nss attrs =>
      (negb (geometric W (VObj c ns nss attrs)) || match geometry W (VObj c ns nss attrs) with Ok (Some g) => geq g g | Ok None => true | Err _ => false end) &&
      forallb (fun av => match av with (_, x) => fine_b W geq x end) attrs
  | _ => true
  end.

Lemma within_fine W geq v x : within v x -> fine_b W geq v = true -> fine_b W geq x = true.
Proof.
  induction 1 as [v|c ns nss attrs a x y H _ IH|l x y H _ IH]; auto; intro G; apply IH; cbn [fine_b] in G.
  - apply andb_prop in G as [_ G]. rewrite forallb_forall in G. exact (G _ H).
  - rewrite forallb_forall in G. now apply G.
Qed.

Lemma fine_checked W geq v : fine_b W geq v = true -> geometries_fine W geq v.
Proof.
  intro H. split.
  - intros x Hx G. apply (within_fine _ _ _ _ Hx) in H. destruct x; try discriminate G. cbn [fine_b] in H. rewrite G in H. apply andb_prop in H as [H _]. cbn [negb orb] in H.
    destruct (geometry W _) as [[g|]|] eqn:E; try discriminate H; eexists; split; try reflexivity; congruence.
  - intros l i Hl Hi. apply (within_fine _ _ _ _ Hl) in H. cbn [fine_b] in H. rewrite forallb_forall in H. exact (H _ Hi).
Qed.

Definition node_built (W : world) (c : string) (ns : ustr) (nss : nss_t) (attrs : list (string * value)) : Prop :=
  call W c ns nss None attrs = Ok (VObj c ns nss attrs) /\ ~ (c = "data.Schema" /\ sget "id" attrs = Some VNone) /\
  (c = "features.Placemark" -> exists b, py_bool W (kwget attrs "kml_geometry") = Ok b).
Fixpoint built (W : world) (v : value) : Prop :=
  match v with
  | VList l => (fix go l := match l with [] => True | x :: l' => built W x /\ go l' end) l
  | VObj c ns nss attrs => node_built W c ns nss attrs /\ (fix go l := match l with [] => True | (_, x) :: l' => built W x /\ go l' end) attrs
  | _ => True
  end.

Lemma built_constructed W v : built W v -> constructed W v.
Proof.
  intros H c ns nss attrs Hw. remember (VObj c ns nss attrs) as y eqn:Ey. revert H Ey. induction Hw as [v|c' ns' nss' attrs' a x y Hx _ IH|l x y Hx _ IH]; intros H Ey.
  - subst v. destruct H as [[H1 [H2 H3]] _]. split; [do 4 eexists; exact H1|auto].
  - apply IH; [|exact Ey]. destruct H as [_ H]. clear -H Hx. induction attrs' as [|[b z] l IH]; [destruct Hx|]. destruct H as [H1 H2]. destruct Hx as [[= <- <-]|Hx]; [exact H1|now apply IH].
  - apply IH; [|exact Ey]. clear -H Hx. cbn [built] in H. induction l as [|z l IH]; [destruct Hx|]. destruct H as [H1 H2]. destruct Hx as [<-|Hx]; [exact H1|now apply IH].
Qed.

(** A placemark with a polygon, whose ids are lost; a style. *)
Definition r_placemark : value := Eval vm_compute in
  mk "features.Placemark" [("id", str "pl"); ("name", str "n"); ("visibility", VBool false); ("style_url", mk "styles.StyleUrl" [("url", str "#st")]);
    ("kml_geometry", mk "geometry.Polygon" [("altitude_mode", VEnum "enums.AltitudeMode" (u "absolute"));
       ("outer_boundary", mk "geometry.OuterBoundaryIs" [("kml_geometry", mk "geometry.LinearRing" [("id", str "ring"); ("kml_coordinates", mk "geometry.Coordinates"
          [("coords", VCoords true [[NInt 0; NInt 0]; [NInt 0; NInt 9]; [NInt 9; NInt 9]; [NInt 0; NInt 0]])])])])])].

Definition geo_eq0 (g h : geo) : bool :=
  match g, h with GPoly s [], GPoly t [] => all2 point_eq s t | GPoint p, GPoint q => point_eq p q | GLine s, GLine t | GRing s, GRing t => all2 point_eq s t | _, _ => false end.

Example C27_example : let W := W0 in
  typed W r_placemark = true /\ literals r_placemark = true /\ plain_extras W r_placemark = true /\ distinct_keys r_placemark = true /\
  geometries_fine W geo_eq0 r_placemark /\ constructed W r_placemark /\ no_lines r_placemark = false /\
  typed W s_style = true /\ literals s_style = true /\ plain_extras W s_style = true /\ distinct_keys s_style = true /\ constructed W s_style /\ no_lines s_style = true.
Proof.
  cbv zeta. split; [vm_compute; reflexivity|]. split; [vm_compute; reflexivity|]. split; [vm_compute; reflexivity|]. split; [vm_compute; reflexivity|]. split; [apply fine_checked; vm_compute; reflexivity|].
  split; [apply built_constructed; vm_compute; repeat split; try (intros [? ?]; discriminate); try discriminate; eauto|]. split; [vm_compute; reflexivity|].
  split; [vm_compute; reflexivity|]. split; [vm_compute; reflexivity|]. split; [vm_compute; reflexivity|]. split; [vm_compute; reflexivity|].
  split; [apply built_constructed; vm_compute; repeat split; try (intros [? ?]; discriminate); try discriminate; eauto|]. vm_compute; reflexivity.
Qed.

(** ** Where it fails *)

Definition printed (v : value) : pexpr := match repr W0 v with Ok e => e | Err _ => PENone end.
Definition back (v : value) : value := match eval W0 (printed v) with Some w => w | None => VNone end.

(** What is printed as a keyword is a parameter of the constructor: nothing is
    taken for an extra argument when the expression is evaluated. *)
Theorem C27_keywords :
  forall arrow c ci p a r, class_of (fastkml arrow) c = Some ci -> In (p, a, r) (repr_of ci) -> In p (ci_params ci).
Proof.
  intros arrow c ci p a r Hc Hin.
  assert (A : forallb (fun cc => forallb (fun x => mem (fst (fst x)) (ci_params (snd cc))) (repr_of (snd cc))) (w_classes (fastkml arrow)) = true) by (vm_compute; reflexivity).
  rewrite forallb_forall in A. specialize (A _ (sget_In _ _ _ Hc)). cbn [snd] in A. rewrite forallb_forall in A. specialize (A _ Hin). cbn [fst] in A.
  now apply mem_In in A.
Qed.
Print Assumptions C27_keywords.

Example C27_keywords_example :
  exists ci, class_of W0 "geometry.LineString" = Some ci /\ In ("geometry", "geometry", true) (repr_of ci).
Proof. eexists. split; [vm_compute; reflexivity|]. vm_compute. tauto. Qed.

(** Numbers without a literal: [scale=nan] is printed and nobody defines [nan]. *)
Definition r_nan : value := Eval vm_compute in mk "styles.IconStyle" [("scale", VFloat FNan)].
Theorem C27_nan_refuted : exists v e, typed W0 v = true /\ constructed W0 v /\ repr W0 v = Ok e /\ eval W0 e = None.
Proof.
  exists r_nan, (printed r_nan). split; [vm_compute; reflexivity|]. split; [apply built_constructed; vm_compute; repeat split; try (intros [? ?]; discriminate); try discriminate|]. split; [vm_compute; reflexivity|vm_compute; reflexivity].
Qed.
Print Assumptions C27_nan_refuted.

(** Enumeration members among additional arguments are printed as
    [<AltitudeMode.absolute: 'absolute'>]. *)
Definition r_enum : value := Eval vm_compute in mk "styles.LineStyle" [("mode", VEnum "enums.AltitudeMode" (u "absolute"))].
Theorem C27_enum_argument_refuted : exists v e, typed W0 v = true /\ constructed W0 v /\ repr W0 v = Ok e /\ eval W0 e = None.
Proof.
  exists r_enum, (printed r_enum). split; [vm_compute; reflexivity|]. split; [apply built_constructed; vm_compute; repeat split; try (intros [? ?]; discriminate); try discriminate|]. split; [vm_compute; reflexivity|vm_compute; reflexivity].
Qed.
Print Assumptions C27_enum_argument_refuted.

(** Additional arguments that are [None] are not printed; [==] notices. *)
Definition r_none : value := Eval vm_compute in mk "styles.LineStyle" [("extra", VNone)].
Theorem C27_none_argument_refuted : exists v e v', typed W0 v = true /\ constructed W0 v /\ repr W0 v = Ok e /\ eval W0 e = Some v' /\ forall geq, py_eq W0 geq v' v <> Ok true.
Proof.
  exists r_none, (printed r_none), (back r_none). split; [vm_compute; reflexivity|]. split; [apply built_constructed; vm_compute; repeat split; try (intros [? ?]; discriminate); try discriminate|]. split; [vm_compute; reflexivity|].
  split; [vm_compute; reflexivity|]. intro geq. vm_compute. discriminate.
Qed.
Print Assumptions C27_none_argument_refuted.

(** A Schema built with a blank id prints [id=None], which its constructor
    refuses. *)
Definition r_schema : value := Eval vm_compute in match new W0 "data.Schema" None [] [("id", str " ")] with Ok v => v | Err _ => VNone end.
Theorem C27_schema_refuted : exists kws v e, new W0 "data.Schema" None [] kws = Ok v /\ repr W0 v = Ok e /\ eval W0 e = None.
Proof. exists [("id", str " ")], r_schema, (printed r_schema). split; [vm_compute; reflexivity|]. split; vm_compute; reflexivity. Qed.
Print Assumptions C27_schema_refuted.

(** The object printed for lines, rings and polygons is equal, but not the same:
    a line of mixed dimensions loses its coordinates, a polygon the ids of its
    rings. *)
Definition r_line : value := Eval vm_compute in
  mk "geometry.LineString" [("kml_coordinates", mk "geometry.Coordinates" [("coords", VCoords true [[NInt 0; NInt 0]; [NInt 0; NInt 9; NInt 1]])])].
Theorem C27_exact_refuted : exists v e v', typed W0 v = true /\ constructed W0 v /\ repr W0 v = Ok e /\ eval W0 e = Some v' /\
  (forall geq, py_eq W0 geq v' v = Ok true) /\
  (exists k, sget "kml_coordinates" (obj_attrs v) = Some k /\ coords_of k = Ok [[NInt 0; NInt 0]; [NInt 0; NInt 9; NInt 1]]) /\ sget "kml_coordinates" (obj_attrs v') = Some VNone.
Proof.
  exists r_line, (printed r_line), (back r_line). split; [vm_compute; reflexivity|]. split; [apply built_constructed; vm_compute; repeat split; try (intros [? ?]; discriminate); try discriminate|]. split; [vm_compute; reflexivity|].
  split; [vm_compute; reflexivity|]. split; [intro geq; vm_compute; reflexivity|]. split; [eexists; split; vm_compute; reflexivity|]. vm_compute. reflexivity.
Qed.
Print Assumptions C27_exact_refuted.
