(** * Equality of objects: C26.

    [geq] stands for [==] between pygeoif geometries throughout; pygeoif is not
    part of the model.  As pygeoif compares coordinates with [math.isclose],
    its [==] is symmetric but not transitive. *)
From Coq Require Import String List NArith ZArith Bool.
From Verif Require Import Ustr UstrProofs Res PyInt PyFloat PyDate Elem Value Geom Codec Tables Spec Equal EqualSpec EqualProofs Samples.
Import ListNotations.
Local Open Scope string_scope.

Lemma fastkml_kinds arrow : kinds_ok (fastkml arrow) = true.
Proof. vm_compute. reflexivity. Qed.

Lemma fastkml_kinds_attrs arrow : kinds_attrs (fastkml arrow) = true.
Proof. vm_compute. reflexivity. Qed.

(** ** Reflexivity *)

(** Every object equals itself if it holds no NaN and the geometries inside it
    can be computed and equal themselves. *)
Theorem C26_reflexive : forall arrow geq v,
  typed (fastkml arrow) v = true -> no_nan v = true -> distinct_keys v = true -> geometries_fine (fastkml arrow) geq v ->
  py_eq (fastkml arrow) geq v v = Ok true.
Proof.
  intros arrow geq v T N D F. unfold py_eq. apply eqv_refl; [apply fastkml_kinds_attrs| |exact N|exact D|exact F]. unfold typed in T. now destruct v.
Qed.
Print Assumptions C26_reflexive.

(** Objects without geometry need no such assumption. *)
Lemma within_no_geometry W v x : within v x -> no_geometry W v = true -> no_geometry W x = true.
Proof.
  induction 1 as [v|c ns nss attrs a x y H _ IH|l x y H _ IH]; auto; intro G; apply IH; cbn [no_geometry] in G.
  - apply andb_prop in G as [_ G]. rewrite forallb_forall in G. exact (G _ H).
  - rewrite forallb_forall in G. now apply G.
Qed.

Lemma no_geometry_fine W geq v : no_geometry W v = true -> geometries_fine W geq v.
Proof.
  intro G. split.
  - intros x Hx Q. apply (within_no_geometry _ _ _ Hx) in G. destruct x; try discriminate Q. cbn [no_geometry] in G. rewrite Q in G. discriminate.
  - intros l i Hl Hi. apply (within_no_geometry _ _ _ Hl) in G. now destruct l.
Qed.

Example C26_reflexive_example : let W := W0 in
  typed W s_style = true /\ no_nan s_style = true /\ distinct_keys s_style = true /\ geometries_fine W (fun _ _ => false) s_style /\
  typed W (s_point ["1.5"; "2"]) = true /\ no_nan (s_point ["1.5"; "2"]) = true /\ distinct_keys (s_point ["1.5"; "2"]) = true /\
  py_eq W (fun g h => match g, h with GPoint p, GPoint q => point_eq p q | _, _ => false end) (s_point ["1.5"; "2"]) (s_point ["1.5"; "2"]) = Ok true /\
  (* NaN *)
  py_eq W (fun _ _ => true) (mk "styles.IconStyle" [("scale", VFloat FNan)]) (mk "styles.IconStyle" [("scale", VFloat FNan)]) = Ok false.
Proof. cbv zeta. split; [vm_compute; reflexivity|]. split; [vm_compute; reflexivity|]. split; [vm_compute; reflexivity|]. split; [apply no_geometry_fine; vm_compute; reflexivity|]. vm_compute. repeat split; reflexivity. Qed.

(** ** Symmetry *)

(** C26: [==] is symmetric.  Refuted: a [Point] given an additional keyword
    argument, compared with one that was not, raises in one direction. *)
Definition e_point : value := Eval vm_compute in mk "geometry.Point" [].
Definition e_point_foo : value := Eval vm_compute in mk "geometry.Point" [("foo", VInt 1)].
Theorem C26_symmetric_refuted : exists a b, forall geq,
  typed W0 a = true /\ typed W0 b = true /\ py_eq W0 geq a b = Ok true /\ py_eq W0 geq b a = Err EAttributeError.
Proof. exists e_point, e_point_foo. intro geq. vm_compute. repeat split; reflexivity. Qed.
Print Assumptions C26_symmetric_refuted.

(** Proved if no object with geometry was given additional keyword arguments;
    nothing is asked of pygeoif if the left object contains no geometry.
    Missing: such arguments (refuted above). *)
Theorem C26_symmetric_partial : forall arrow geq a b,
  let W := fastkml arrow in
  no_geometry W a = true \/ (forall g h, geq g h = true -> geq h g = true) ->
  no_extras W a = true -> no_extras W b = true ->
  (py_eq W geq a b = Ok true <-> py_eq W geq b a = Ok true).
Proof.
  intros arrow geq a b W. assert (K := fastkml_kinds arrow). fold W in K. clearbody W. intros [G|S] Ha Hb.
  - unfold py_eq. rewrite (eqv_swap W geq b false a). cbn [negb]. rewrite !(geq_irrelevant W geq (fun _ _ => true) a G).
    assert (F := flip_true W (fun _ _ => true) K (fun _ _ _ => eq_refl) a Ha). split; intro H; [exact (F false b Hb H)|exact (F true b Hb H)].
  - split; intro H; [exact (eq_sym_true W geq K S a b Ha Hb H)|exact (eq_sym_true W geq K S b a Hb Ha H)].
Qed.
Print Assumptions C26_symmetric_partial.

Definition e_line : value := Eval vm_compute in mk "geometry.LineString" [("extrude", VBool true)].
Definition e_ring : value := Eval vm_compute in mk "geometry.LinearRing" [("extrude", VInt 1)].
Example C26_symmetric_example : let W := W0 in
  no_geometry W s_stylemap = true /\ no_extras W s_stylemap = true /\ py_eq W (fun _ _ => false) s_stylemap s_stylemap = Ok true /\
  (* a ring is a line, so Python asks the ring first *)
  no_geometry W e_line = false /\ no_extras W e_line = true /\ no_extras W e_ring = true /\
  py_eq W (fun _ _ => false) e_line e_ring = Ok true /\ py_eq W (fun _ _ => false) e_ring e_line = Ok true /\
  py_eq W (fun _ _ => true) e_line e_point = Ok false.
Proof. vm_compute. repeat split; reflexivity. Qed.

(** ** Transitivity *)

(** C26: [==] is transitive.  Refuted for any [==] of geometries that is not
    transitive on points, as that of pygeoif: *)
Definition point_at (p : list num) : value :=
  VObj "geometry.Point" KMLNS NAME_SPACES
    [("kml_coordinates", VObj "geometry.Coordinates" KMLNS NAME_SPACES [("coords", VCoords false [p])]);
     ("extrude", VNone); ("id", VNone); ("target_id", VNone); ("altitude_mode", VNone)].

Theorem C26_transitive_refuted : forall arrow geq p q r,
  let W := fastkml arrow in
  mk_point p = Ok p -> mk_point q = Ok q -> mk_point r = Ok r ->
  geq (GPoint p) (GPoint q) = true -> geq (GPoint q) (GPoint r) = true -> geq (GPoint p) (GPoint r) = false ->
  exists a b c, py_eq W geq a b = Ok true /\ py_eq W geq b c = Ok true /\ py_eq W geq a c = Ok false.
Proof.
  intros arrow geq p q r W Hp Hq Hr H1 H2 H3. exists (point_at p), (point_at q), (point_at r).
  assert (G : forall p, mk_point p = Ok p -> geometry W (point_at p) = Ok (Some (GPoint p))).
  { intros s Hs. unfold geometry, point_at. cbn -[mk_point]. now rewrite Hs. }
  assert (E : forall p q, mk_point p = Ok p -> mk_point q = Ok q -> py_eq W geq (point_at p) (point_at q) = Ok (geq (GPoint p) (GPoint q))).
  { intros s t Hs Ht. assert (Gs := G s Hs). assert (Gt := G t Ht).
    unfold py_eq, point_at in *. cbn -[geometry_eq geometry KMLNS NAME_SPACES nss_eq ueqb]. unfold geometry_eq. rewrite Gs, Gt, ueqb_refl. cbn. now destruct (geq (GPoint s) (GPoint t)). }
  rewrite !E, H1, H2, H3 by assumption. auto.
Qed.
Print Assumptions C26_transitive_refuted.

(** A crude version of "close": differences of at most one. *)
Definition close (g h : geo) : bool :=
  match g, h with
  | GPoint [NInt x; NInt y], GPoint [NInt x'; NInt y'] => Z.leb (Z.abs (x - x')) 1 && Z.leb (Z.abs (y - y')) 1
  | _, _ => false
  end.
Example C26_transitive_refuted_example : (let p n := [NInt n; NInt 0] in
  mk_point (p 1) = Ok (p 1) /\ mk_point (p 2) = Ok (p 2) /\ mk_point (p 3) = Ok (p 3) /\
  close (GPoint (p 1)) (GPoint (p 2)) = true /\ close (GPoint (p 2)) (GPoint (p 3)) = true /\ close (GPoint (p 1)) (GPoint (p 3)) = false /\
  typed W0 (point_at (p 1)) = true)%Z.
Proof. vm_compute. repeat split; reflexivity. Qed.

(** Proved for objects without geometry, and for all if [==] of pygeoif
    geometries were symmetric and transitive.  Missing: that it is (it is not). *)
Theorem C26_transitive_partial : forall arrow geq a b c,
  let W := fastkml arrow in
  (no_geometry W a = true /\ no_geometry W b = true) \/
  ((forall g h, geq g h = true -> geq h g = true) /\ (forall g h k, geq g h = true -> geq h k = true -> geq g k = true)) ->
  no_extras W a = true -> no_extras W b = true -> no_extras W c = true ->
  py_eq W geq a b = Ok true -> py_eq W geq b c = Ok true -> py_eq W geq a c = Ok true.
Proof.
  intros arrow geq a b c W. assert (K := fastkml_kinds arrow). fold W in K. clearbody W. unfold py_eq. intros [[Ga Gb]|[S T]] Ha Hb Hc.
  - rewrite !(geq_irrelevant W geq (fun _ _ => true) a Ga), (geq_irrelevant W geq (fun _ _ => true) b Gb).
    apply (eqv_trans W (fun _ _ => true) K (fun _ _ _ => eq_refl) (fun _ _ _ _ _ => eq_refl) a Ha b c Hb Hc).
  - apply (eqv_trans W geq K S T a Ha b c Hb Hc).
Qed.
Print Assumptions C26_transitive_partial.

Definition e_icon (s : value) : value := mk "styles.IconStyle" [("scale", s); ("icon", mk "links.Icon" [("href", str "a.png")])].
Definition e_icon_int : value := Eval vm_compute in e_icon (VInt 1).
Definition e_icon_float : value := Eval vm_compute in e_icon (fl "1").
Definition e_icon_bool : value := Eval vm_compute in e_icon (VBool true).
Example C26_transitive_example : let W := W0 in
  no_geometry W e_icon_int = true /\ no_geometry W e_icon_float = true /\
  no_extras W e_icon_int = true /\ no_extras W e_icon_float = true /\ no_extras W e_icon_bool = true /\
  py_eq W (fun _ _ => false) e_icon_int e_icon_float = Ok true /\ py_eq W (fun _ _ => false) e_icon_float e_icon_bool = Ok true /\
  py_eq W (fun _ _ => false) e_icon_int e_icon_bool = Ok true.
Proof. vm_compute. repeat split; reflexivity. Qed.

(** ** Equal objects and XML *)

(** C26: objects that compare equal are written as the same XML.  Refuted:
    lines and polygons ignore the altitude mode; an empty line equals an empty
    ring; numbers and moments can be spelled in several ways. *)
Definition e_line_mode : value := Eval vm_compute in
  mk "geometry.LineString" [("extrude", VBool true); ("altitude_mode", VEnum "enums.AltitudeMode" (u "absolute"))].
Definition e_poly : value := Eval vm_compute in mk "geometry.Polygon" [].
Definition e_poly_mode : value := Eval vm_compute in mk "geometry.Polygon" [("altitude_mode", VEnum "enums.AltitudeMode" (u "absolute"))].
Definition e_line0 : value := Eval vm_compute in mk "geometry.LineString" [].
Definition e_ring0 : value := Eval vm_compute in mk "geometry.LinearRing" [].
Definition e_stamp1 : value := Eval vm_compute in mk "times.TimeStamp" [("timestamp", date "1997-07-16T10:30:15+03:00")].
Definition e_stamp2 : value := Eval vm_compute in mk "times.TimeStamp" [("timestamp", date "1997-07-16T07:30:15+00:00")].
Definition e_zero1 : value := Eval vm_compute in mk "styles.LineStyle" [("width", fl "0")].
Definition e_zero2 : value := Eval vm_compute in mk "styles.LineStyle" [("width", fl "-0")].

Theorem C26_same_xml_refuted : forall a b,
  In (a, b) [(e_line, e_line_mode); (e_poly, e_poly_mode); (e_line0, e_ring0); (e_icon_int, e_icon_float); (e_zero1, e_zero2); (e_stamp1, e_stamp2)] ->
  forall geq, typed W0 a = true /\ typed W0 b = true /\ py_eq W0 geq a b = Ok true /\
  exists t t', etree W0 None Normal a = Ok t /\ etree W0 None Normal b = Ok t' /\ t <> t'.
Proof.
  intros a b H geq. cbn [In] in H.
  repeat (destruct H as [H|H]; [injection H as <- <-; split; [vm_compute; reflexivity|]; split; [vm_compute; reflexivity|]; split; [vm_compute; reflexivity|];
    eexists; eexists; split; [vm_compute; reflexivity|]; split; [vm_compute; reflexivity|]; discriminate|]). contradiction.
Qed.
Print Assumptions C26_same_xml_refuted.

(** Proved for objects that do not spell equal numbers or moments in different
    ways, and whose equal shapes agree in what [==] does not look at, such as
    the altitude mode of a line.  Missing: what is refuted above. *)
Lemma fastkml_compared arrow : compared_ok (fastkml arrow) = true.
Proof. vm_compute. reflexivity. Qed.
Theorem C26_same_xml_partial : forall arrow geq a b prec vb,
  let W := fastkml arrow in
  no_extras W a = true -> no_extras W b = true -> spelled_alike W geq a b -> shapes_alike W geq a b ->
  py_eq W geq a b = Ok true -> etree W prec vb a = etree W prec vb b.
Proof. intros arrow geq a b prec vb W. exact (eq_same_xml W geq prec vb (fastkml_compared arrow) a b). Qed.
Print Assumptions C26_same_xml_partial.

(** Objects can differ in the order of their dictionaries. *)
Lemma within_attrs c ns nss attrs x : within (VObj c ns nss attrs) x -> x = VObj c ns nss attrs \/ exists a y, In (a, y) attrs /\ within y x.
Proof. inversion 1; subst; eauto. Qed.
Definition e_line_in (nss : nss_t) : value :=
  match construct W0 "geometry.LineString" KMLNS nss [("extrude", VBool true); ("kml_coordinates", mk "geometry.Coordinates" [("coords", VCoords false [[NInt 1; NInt 2]; [NInt 3; NInt 4]])])] with Ok v => v | Err _ => VNone end.
Definition e_line1 : value := Eval vm_compute in e_line_in [("a", u "x"); ("b", u "y")].
Definition e_line2 : value := Eval vm_compute in e_line_in [("b", u "y"); ("a", u "x")].
Example C26_same_xml_example : let W := W0 in
  e_line1 <> e_line2 /\ geometric W e_line1 = true /\ no_extras W e_line1 = true /\ no_extras W e_line2 = true /\
  py_eq W (fun _ _ => true) e_line1 e_line2 = Ok true /\ spelled_alike W (fun _ _ => true) e_line1 e_line2 /\ shapes_alike W (fun _ _ => true) e_line1 e_line2.
Proof.
  cbv zeta. split; [discriminate|]. split; [vm_compute; reflexivity|]. split; [vm_compute; reflexivity|]. split; [vm_compute; reflexivity|]. split; [vm_compute; reflexivity|]. split.
  - intros x y Hx Hy Lx Ly E.
    apply within_attrs in Hx as [-> |[a [v [Ha Hx]]]]; [discriminate Lx|]. apply within_attrs in Hy as [-> |[b [w [Hb Hy]]]]; [discriminate Ly|].
    cbn [In] in Ha, Hb.
    repeat match goal with H : _ \/ _ |- _ => destruct H as [H|H] | H : False |- _ => contradiction end;
    injection Ha as <- <-; injection Hb as <- <-.
    all: try (apply within_attrs in Hx as [-> |[a' [v' [Ha' Hx]]]]; [discriminate Lx|]; cbn [In] in Ha').
    all: try (apply within_attrs in Hy as [-> |[b' [w' [Hb' Hy]]]]; [discriminate Ly|]; cbn [In] in Hb').
    all: repeat match goal with H : _ \/ _ |- _ => destruct H as [H|H] | H : False |- _ => contradiction end;
      try (injection Ha' as <- <-); try (injection Hb' as <- <-); inversion Hx; subst; inversion Hy; subst; try reflexivity; vm_compute in E; discriminate E.
  - intros c ns nss attrs c' ns' nss' attrs' Ha Hb Ga Gb E.
    apply within_attrs in Ha as [Ha|[n [v [Hv Ha]]]].
    2: { exfalso. cbn [In] in Hv. repeat destruct Hv as [Hv|Hv]; try contradiction; injection Hv as <- <-; inversion Ha; subst; try discriminate Ga.
         match goal with H : In _ _ |- _ => cbn [In] in H; repeat destruct H as [H|H]; try contradiction; injection H as <- <- end;
         match goal with H : within _ (VObj _ _ _ _) |- _ => inversion H; subst end. }
    apply within_attrs in Hb as [Hb|[n [v [Hv Hb]]]].
    2: { exfalso. cbn [In] in Hv. repeat destruct Hv as [Hv|Hv]; try contradiction; injection Hv as <- <-; inversion Hb; subst; try discriminate Gb.
         match goal with H : In _ _ |- _ => cbn [In] in H; repeat destruct H as [H|H]; try contradiction; injection H as <- <- end;
         match goal with H : within _ (VObj _ _ _ _) |- _ => inversion H; subst end. }
    injection Ha as -> -> -> ->. injection Hb as -> -> -> ->. split; reflexivity.
Qed.
