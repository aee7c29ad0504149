(** * Which exceptions writing raises, and what makes it raise them. *)
From Coq Require Import String List NArith ZArith Bool Lia.
From Verif Require Import Ustr UstrProofs Res PyInt PyFloat PyDate Elem Value Geom Codec Tables Spec Settled EmitProofs CodecProofs ReadProofs ItemProofs RoundTrip NsProofs SettledProofs ReaderTyped ValueProofs FastkmlOk Outcome WriteProofs RaiseProofs.
Import ListNotations.
Local Open Scope string_scope.

(** The coordinates of an object, if there are any, begin with two or three
    numbers. *)
Definition coords_sized (attrs : list (string * value)) : bool :=
  match sget "coords" attrs with
  | Some (VCoords _ (c :: _)) => Nat.eqb (length c) 2 || Nat.eqb (length c) 3
  | _ => true
  end.
Definition sized (v : value) : bool := vall (fun _ _ _ attrs => coords_sized attrs) v.

(** All coordinates anywhere in the object are so. *)
Definition coords_all (Q : list num -> bool) (attrs : list (string * value)) : bool :=
  match sget "coords" attrs with Some (VCoords _ l) => forallb Q l | _ => true end.
Definition coords_are (Q : list num -> bool) (v : value) : bool := vall (fun _ _ _ attrs => coords_all Q attrs) v.
Definition two_or_three (c : list num) : bool := Nat.eqb (length c) 2 || Nat.eqb (length c) 3.
Definition no_nan (c : list num) : bool := forallb (fun n => negb (num_nan n)) c.

(** The exceptions and what causes them: coordinates whose first point has not
    two or three numbers; a point that has not; a number that is NaN; an
    integer with too many digits.  (EValueError stands for OverflowError
    as well: integers beyond the range of floats, when a precision is given.) *)
Inductive write_failure (prec : option nat) (v : value) : exn -> Prop :=
| wf_size : sized v = false -> write_failure prec v EKMLWrite
| wf_point : coords_are two_or_three v = false -> write_failure prec v ETypeError
| wf_dimension : coords_are no_nan v = false -> write_failure prec v EDimension
| wf_digits : prints prec v = false -> write_failure prec v EValueError.

Definition only {A} (P : exn -> Prop) (r : res A) : Prop := forall x, r = Err x -> P x.

Lemma only_ok {A} P (a : A) : only P (Ok a). Proof. intros x H. discriminate. Qed.
Lemma only_bind {A B} P (r : res A) (f : A -> res B) : only P r -> (forall a, r = Ok a -> only P (f a)) -> only P (bind r f).
Proof. intros H1 H2 x H. apply bind_err in H as [H|[a [Ha H]]]; [exact (H1 _ H)|exact (H2 _ Ha _ H)]. Qed.
Lemma only_map {A B} P (f : A -> res B) l : (forall a, In a l -> only P (f a)) -> only P (map_res f l).
Proof. intros H x E. apply map_err in E as [a [Ha E]]. exact (H a Ha x E). Qed.

(** ** Truth values and geometries *)

Definition shape_error (x : exn) : Prop := x = ETypeError \/ x = EDimension.

Lemma point_raises c : only shape_error (mk_point c).
Proof. unfold mk_point. intros x H. destruct (length c) as [|[|[|[|n]]]]; try discriminate; injection H as <-; now left. Qed.
Lemma points_raise l : forall last, only shape_error (line_points last l).
Proof.
  induction l as [|c l IH]; intro last; cbn [line_points]; [apply only_ok|].
  destruct (match last with Some n => _ | None => _ end); [intros x H; injection H as <-; now right|].
  apply only_bind; [apply point_raises|]. intros p _. apply only_bind; [apply IH|]. intros r _. apply only_ok.
Qed.
Lemma line_raises l : only shape_error (mk_line l). Proof. apply points_raise. Qed.
Lemma ring_raises l : only shape_error (mk_ring l).
Proof. unfold mk_ring. apply only_bind; [apply line_raises|]. intros. apply only_ok. Qed.
Lemma poly_raises s hs : only shape_error (mk_poly s hs).
Proof.
  unfold mk_poly. apply only_bind; [apply ring_raises|]. intros r _. apply only_bind; [|intros; apply only_ok]. apply only_map. intros. apply ring_raises.
Qed.
Lemma catch_dimension_raises {A} K (r : res (option A)) : only K r -> only K (catch_dimension r).
Proof. intros H x E. destruct r as [o|y]; [discriminate|]. destruct y; cbn [catch_dimension] in E; try discriminate; exact (H _ E). Qed.
Lemma catch_point_none c : only (fun _ => False) (catch_point (let! p := mk_point c in Ok (Some (GPoint p)))).
Proof. intros x E. destruct (mk_point c) as [p|y] eqn:Ep; [discriminate|]. destruct (point_raises c _ Ep) as [-> | ->]; discriminate. Qed.

(** What holds of the exceptions of geometries, given what holds of the
    points: [R] holds of the lines that are made of such points. *)
Record shape_rules (Q : list num -> bool) (K : exn -> Prop) (R : line -> Prop) : Prop := {
  sr_line : forall l, forallb Q l = true -> only K (catch_dimension (let! r := mk_line l in Ok (Some (GLine r))));
  sr_ring : forall l, forallb Q l = true -> only K (catch_dimension (let! r := mk_ring l in Ok (Some (GRing r))));
  sr_made : forall l r, forallb Q l = true -> mk_ring l = Ok r -> R r;
  sr_again : forall r, R r -> only K (mk_ring r) }.

Lemma rules_any : shape_rules (fun _ => true) shape_error (fun _ => True).
Proof.
  split; try (intros; exact I).
  - intros l _. apply catch_dimension_raises, only_bind; [apply line_raises|]. intros. apply only_ok.
  - intros l _. apply catch_dimension_raises, only_bind; [apply ring_raises|]. intros. apply only_ok.
  - intros r _. apply ring_raises.
Qed.

Definition is_dimension (x : exn) : Prop := x = EDimension.
Definition is_type (x : exn) : Prop := x = ETypeError.

Lemma sized_points l : forall last, forallb two_or_three l = true -> only is_dimension (line_points last l) /\ forall r, line_points last l = Ok r -> forallb two_or_three r = true.
Proof.
  induction l as [|c l IH]; intros last H; cbn [line_points].
  - split; [apply only_ok|]. intros r E. now injection E as <-.
  - cbn [forallb] in H. apply andb_prop in H as [H1 H2]. destruct (match last with Some n => _ | None => _ end); [split; [intros x E; now injection E as <-|discriminate]|].
    assert (exists p, mk_point c = Ok p /\ (length p <= 3)%nat) as [p [-> Hp]].
    { unfold mk_point. unfold two_or_three in H1. assert (L : forall k, length c = k -> (k <= 3)%nat -> (length (filter (fun n => negb (num_nan n)) c) <= 3)%nat).
      { intros k Ek Hk. assert (M : forall m : list num, (length (filter (fun n => negb (num_nan n)) m) <= length m)%nat) by (induction m as [|y m IHm]; cbn [filter]; [lia|destruct (negb _); cbn [length]; lia]). specialize (M c). lia. }
      destruct (length c) as [|[|[|[|k]]]] eqn:Ec; try discriminate H1; eexists; (split; [reflexivity|]); eapply L; eauto. }
    destruct (IH (Some (length c)) H2) as [I1 I2]. cbn [bind]. split; [apply only_bind; [exact I1|intros; apply only_ok]|].
    intros r E. apply bind_ok in E as [r' [Er E]]. injection E as <-. destruct (Nat.ltb_spec (length p) 2) as [Hlt|Hge]; [exact (I2 _ Er)|]. cbn [forallb]. rewrite (I2 _ Er), andb_true_r.
    unfold two_or_three. apply orb_true_iff. rewrite !Nat.eqb_eq. lia.
Qed.

Lemma close_all Q l : forallb Q l = true -> forallb Q (close_ring l) = true.
Proof. rewrite !forallb_forall. intros H c Hc. apply H. now apply close_ring_in. Qed.
Lemma dedupe_all Q l : forallb Q l = true -> forallb Q (dedupe l) = true.
Proof. rewrite !forallb_forall. intros H c Hc. apply H. now apply dedupe_incl. Qed.

Lemma rules_sized : shape_rules two_or_three is_dimension (fun r => forallb two_or_three r = true).
Proof.
  assert (L : forall l, forallb two_or_three l = true -> only is_dimension (mk_line l) /\ forall r, mk_line l = Ok r -> forallb two_or_three r = true).
  { intros l H. apply sized_points, dedupe_all, H. }
  assert (Rg : forall l, forallb two_or_three l = true -> only is_dimension (mk_ring l)).
  { intros l H. unfold mk_ring. apply only_bind; [exact (proj1 (L l H))|]. intros. apply only_ok. }
  split.
  - intros l H. apply catch_dimension_raises, only_bind; [exact (proj1 (L l H))|]. intros. apply only_ok.
  - intros l H. apply catch_dimension_raises, only_bind; [exact (Rg l H)|]. intros. apply only_ok.
  - intros l r H E. unfold mk_ring in E. apply bind_ok in E as [r' [Er E]]. injection E as <-. apply close_all. exact (proj2 (L l H) _ Er).
  - exact Rg.
Qed.

Lemma filter_nan c : no_nan c = true -> filter (fun n => negb (num_nan n)) c = c.
Proof. unfold no_nan. induction c as [|n c IH]; cbn [forallb filter]; [reflexivity|]. intro H. apply andb_prop in H as [-> H]. now rewrite (IH H). Qed.

Lemma clean_points l : forall last r, forallb no_nan l = true -> line_points last l = Ok r ->
  forallb tuple_fine r = true /\ forall n, match last with Some m => m = n | None => match l with c :: _ => length c = n | [] => True end end -> Forall (fun c => length c = n) r.
Proof.
  induction l as [|c l IH]; intros last r H E; cbn [line_points] in E; [injection E as <-; split; [reflexivity|constructor]|].
  cbn [forallb] in H. apply andb_prop in H as [H1 H2].
  destruct (match last with Some n => negb (Nat.eqb n (length c)) | None => false end) eqn:Ed; [discriminate|].
  apply bind_ok in E as [p [Ep E]]. apply bind_ok in E as [r' [Er E]]. injection E as <-.
  assert (p = c /\ two_or_three c = true) as [-> H3].
  { unfold mk_point in Ep. unfold two_or_three. destruct (length c) as [|[|[|[|k]]]]; try discriminate Ep; injection Ep as <-; (split; [now apply filter_nan|reflexivity]). }
  assert (Nat.ltb (length c) 2 = false) as ->. { unfold two_or_three in H3. apply orb_true_iff in H3. rewrite !Nat.eqb_eq in H3. apply Nat.ltb_ge. lia. }
  destruct (IH _ _ H2 Er) as [I1 I2]. split.
  - cbn [forallb]. rewrite I1, andb_true_r. unfold tuple_fine. unfold two_or_three in H3. rewrite H3. exact H1.
  - intros n Hn. assert (length c = n). { destruct last as [m|]; [|exact Hn]. subst m. apply negb_false_iff in Ed. apply Nat.eqb_eq in Ed. congruence. }
    constructor; [assumption|]. apply I2. assumption.
Qed.

Lemma catch_type {A} (r : res A) (f : A -> option geo) : only shape_error r -> only is_type (catch_dimension (let! a := r in Ok (f a))).
Proof. intros H x E. destruct r as [a|y]; [discriminate|]. destruct (H _ eq_refl) as [-> | ->]; cbn [bind catch_dimension] in E; [now injection E as <-|discriminate]. Qed.

Lemma rules_clean : shape_rules no_nan is_type ring_fine.
Proof.
  split.
  - intros l _. apply catch_type, line_raises.
  - intros l _. apply catch_type, ring_raises.
  - intros l r H E. unfold mk_ring in E. apply bind_ok in E as [r' [Er E]]. injection E as <-. apply close_fine. unfold mk_line in Er.
    destruct (clean_points _ _ _ (dedupe_all _ _ H) Er) as [C1 C2]. split; [exact C1|].
    destruct (dedupe l) as [|c m]; [exists 0%nat; now apply C2|]. exists (length c). now apply C2.
  - intros r H. destruct (mk_ring_again r H) as [r' ->]. apply only_ok.
Qed.

Section Sem.
  Variable arrow : ustr -> option datetime.
  Local Notation W := (fastkml arrow).
  Variables (Q : list num -> bool) (K : exn -> Prop) (R : line -> Prop).
  Hypothesis Rules : shape_rules Q K R.

  Definition braises (v : value) : Prop := only K (py_bool W v).
  Definition graises (v : value) : Prop := forall c ns nss attrs, v = VObj c ns nss attrs ->
    (mem c ring_classes = true -> only K (geometry W v) /\ forall g, geometry W v = Ok (Some g) -> exists r, g = GRing r /\ R r) /\
    (mem c geom_classes = true -> only K (geometry W v)).
  Definition raises (v : value) : Prop := braises v /\ graises v.

  Lemma any_true_raises l : Forall raises l -> only K (any_true (map fst (map (sem W) l))).
  Proof.
    induction 1 as [|x l [Hb _] _ IH]; [apply only_ok|]. cbn [map any_true]. apply only_bind; [exact Hb|]. intros b _. destruct b; [apply only_ok|exact IH].
  Qed.

  Section Object.
    Variables (c : string) (ci : class_info) (ns : ustr) (nss : nss_t) (attrs : list (string * value)).
    Hypothesis Hc : class_of W c = Some ci.
    Hypothesis Ht : typed_node W c ns nss attrs = true.
    Hypothesis Hsub : forall a x, sget a attrs = Some x -> vall (typed_node W) x = true /\ coords_are Q x = true /\ raises x /\ Forall raises (members x).

    Lemma eval_bool_raises g e : bool_defined ci e = true -> (has_geometry e = true -> only K g) ->
      only K (eval_bool (env_of W attrs) g e).
    Proof.
      induction e as [|a|a|a| |x IHx y IHy|x IHx y IHy]; intros Hd Hg; cbn [bool_defined has_geometry eval_bool] in *.
      - apply only_ok.
      - destruct (ckind_of ci a) as [k|] eqn:Ek; [|discriminate]. destruct (o_present _ _ _ _ _ _ Hc Ht a k Ek) as [x [Hx _]]. unfold with_attr. rewrite env_get, Hx.
        destruct (Hsub _ _ Hx) as [_ [_ [[Hb _] _]]]. exact Hb.
      - destruct (ckind_of ci a) as [k|] eqn:Ek; [|discriminate]. destruct (o_present _ _ _ _ _ _ Hc Ht a k Ek) as [x [Hx _]]. unfold with_attr. rewrite env_get, Hx. apply only_ok.
      - destruct (ckind_of ci a) as [k|] eqn:Ek; [|discriminate]. destruct (o_present _ _ _ _ _ _ Hc Ht a k Ek) as [x [Hx Hl]]. unfold with_attr. rewrite env_get, Hx. cbn [a_val a_list fst snd].
        assert (exists l, x = VList l) as [l ->] by (destruct k; try discriminate Hd; exact Hl).
        destruct (Hsub _ _ Hx) as [_ [_ [_ Hm]]]. now apply any_true_raises.
      - apply only_bind; [now apply Hg|]. intros. apply only_ok.
      - apply andb_prop in Hd as [H1 H2]. apply only_bind; [apply (IHx H1); intro E; apply Hg; now rewrite E|]. intros b _. destruct b; [|apply only_ok].
        apply (IHy H2). intro E. apply Hg. rewrite E. now rewrite orb_true_r.
      - apply andb_prop in Hd as [H1 H2]. apply only_bind; [apply (IHx H1); intro E; apply Hg; now rewrite E|]. intros b _. destruct b; [apply only_ok|].
        apply (IHy H2). intro E. apply Hg. rewrite E. now rewrite orb_true_r.
    Qed.
  End Object.

  Lemma coordinates_cases ns nss attrs : typed_node W "geometry.Coordinates" ns nss attrs = true -> coords_all Q attrs = true ->
    py_bool W (VObj "geometry.Coordinates" ns nss attrs) = Ok false \/
    exists l, py_bool W (VObj "geometry.Coordinates" ns nss attrs) = Ok true /\ coords_of (VObj "geometry.Coordinates" ns nss attrs) = Ok l /\ l <> [] /\ forallb Q l = true.
  Proof.
    intros Ht HQ. assert (Hc : class_of W "geometry.Coordinates" = Some cl_geometry_Coordinates) by reflexivity.
    destruct (o_present _ _ _ _ _ _ Hc Ht "coords" CCoordsOr eq_refl) as [x [Hx _]].
    assert (Hi : exists it, find_item "coords" (items_of W "geometry.Coordinates") = Some it /\ it_set it = SCoords) by (eexists; split; vm_compute; reflexivity). destruct Hi as [it [Hi Hs]].
    assert (Hy := o_typed _ _ _ _ _ _ Hc Ht _ _ _ Hx Hi). unfold item_typed in Hy. rewrite Hs in Hy.
    destruct (sem_obj W _ _ ns nss attrs Hc) as [-> _]. cbn [cl_geometry_Coordinates ci_bool eval_bool]. unfold with_attr. rewrite env_get, Hx. unfold a_bool. cbn [fst snd].
    unfold coords_all in HQ. rewrite Hx in HQ. cbn [coords_of]. rewrite Hx.
    destruct x as [ | | | | | | |b l| | | | ]; try discriminate Hy; cbn [sem fst].
    - now left.
    - destruct l as [|p l]; [now left|]. right. exists (p :: l). repeat split; [discriminate|exact HQ].
  Qed.

  Section Geometry.
    Variables (c : string) (ci : class_info) (ns : ustr) (nss : nss_t) (attrs : list (string * value)).
    Hypothesis Hc : class_of W c = Some ci.
    Hypothesis Ht : typed_node W c ns nss attrs = true.
    Hypothesis Hsub : forall a x, sget a attrs = Some x -> vall (typed_node W) x = true /\ coords_are Q x = true /\ raises x /\ Forall raises (members x).

    Lemma coords_geometry_any f it : ckind_of ci "kml_coordinates" = Some CRaw -> find_item "kml_coordinates" (items_of W c) = Some it ->
      it_set it = SObj -> it_classes it = ["geometry.Coordinates"] ->
      coords_geometry (env_of W attrs) f = Ok None \/ exists l, coords_geometry (env_of W attrs) f = f l /\ l <> [] /\ forallb Q l = true.
    Proof.
      intros Hk Hi Hs Hcl. destruct (o_present _ _ _ _ _ _ Hc Ht _ _ Hk) as [x [Hx _]]. assert (Hy := o_typed _ _ _ _ _ _ Hc Ht _ _ _ Hx Hi).
      unfold coords_geometry, with_attr. rewrite env_get, Hx. unfold a_bool, a_val. cbn [fst snd]. change (fst (sem W x)) with (py_bool W x).
      unfold item_typed in Hy. rewrite Hs, Hcl in Hy. destruct (Hsub _ _ Hx) as [Hx1 [Hx2 _]].
      destruct x as [ | | | | | | | | | | |c' ns' nss' at']; try discriminate Hy; [now left|].
      assert (c' = "geometry.Coordinates") as ->. { apply mem_In in Hy. destruct Hy as [<-|[]]; reflexivity. }
      unfold coords_are in Hx2. cbn [vall] in Hx1, Hx2. apply andb_prop in Hx1 as [Hx1 _]. apply andb_prop in Hx2 as [Hx2 _].
      destruct (coordinates_cases _ _ _ Hx1 Hx2) as [->|[l [-> [-> [Hl HQ]]]]]; cbn [bind]; [now left|]. right. exists l. repeat split; assumption.
    Qed.

    Lemma only_object a it x c' : find_item a (items_of W c) = Some it -> it_set it = SObj -> it_classes it = [c'] -> sget a attrs = Some x ->
      x = VNone \/ exists n m at_, x = VObj c' n m at_.
    Proof.
      intros Hi Hs Hcl Hx. assert (Hy := o_typed _ _ _ _ _ _ Hc Ht _ _ _ Hx Hi). unfold item_typed in Hy. rewrite Hs, Hcl in Hy.
      destruct x; try discriminate Hy; [now left|]. right. apply mem_In in Hy. destruct Hy as [->|[]]. eauto.
    Qed.

    Lemma point_g : ci = cl_geometry_Point -> c = "geometry.Point" -> only K (geometry W (VObj c ns nss attrs)).
    Proof.
      assert (CG := coords_geometry_any). intros -> ->. destruct (sem_obj W _ _ ns nss attrs Hc) as [_ ->]. cbn [cl_geometry_Point ci_geom eval_geom].
      edestruct CG as [->|[l [-> [Hl HQ]]]]; [vm_compute; reflexivity|vm_compute; reflexivity|reflexivity|reflexivity|apply only_ok|].
      destruct l as [|p l]; [congruence|]. intros x E. destruct (catch_point_none p x E).
    Qed.

    Lemma line_g : ci = cl_geometry_LineString -> c = "geometry.LineString" -> only K (geometry W (VObj c ns nss attrs)).
    Proof.
      assert (CG := coords_geometry_any). intros -> ->. destruct (sem_obj W _ _ ns nss attrs Hc) as [_ ->]. cbn [cl_geometry_LineString ci_geom eval_geom].
      edestruct CG as [->|[l [-> [Hl HQ]]]]; [vm_compute; reflexivity|vm_compute; reflexivity|reflexivity|reflexivity|apply only_ok|].
      exact (sr_line _ _ _ Rules l HQ).
    Qed.

    Definition ringy (v : value) : Prop := only K (geometry W v) /\ forall g, geometry W v = Ok (Some g) -> exists r, g = GRing r /\ R r.

    Lemma ring_g : ci = cl_geometry_LinearRing -> c = "geometry.LinearRing" -> ringy (VObj c ns nss attrs).
    Proof.
      assert (CG := coords_geometry_any). intros -> ->. unfold ringy. destruct (sem_obj W _ _ ns nss attrs Hc) as [_ ->]. cbn [cl_geometry_LinearRing ci_geom eval_geom].
      edestruct CG as [->|[l [-> [Hl HQ]]]]; [vm_compute; reflexivity|vm_compute; reflexivity|reflexivity|reflexivity| |].
      - split; [apply only_ok|discriminate].
      - split; [exact (sr_ring _ _ _ Rules l HQ)|].
        intros g E. destruct (mk_ring l) as [r|y] eqn:Er; cbn [bind catch_dimension] in E; [|destruct y; discriminate]. injection E as <-. exists r. split; [reflexivity|]. exact (sr_made _ _ _ Rules l r HQ Er).
    Qed.

    Lemma boundary_g it : ci_geom ci = GkBoundary -> ckind_of ci "kml_geometry" = Some CRaw -> find_item "kml_geometry" (items_of W c) = Some it ->
      it_set it = SObj -> it_classes it = ["geometry.LinearRing"] -> ringy (VObj c ns nss attrs).
    Proof.
      intros Hg Hk Hi Hs Hcl. unfold ringy. destruct (sem_obj W _ _ ns nss attrs Hc) as [_ ->]. rewrite Hg. cbn [eval_geom].
      destruct (o_present _ _ _ _ _ _ Hc Ht _ _ Hk) as [x [Hx _]]. unfold with_attr. rewrite env_get, Hx. unfold a_bool, a_geom. cbn [fst snd].
      destruct (Hsub _ _ Hx) as [_ [_ [[Hb Hgx] _]]]. unfold braises, py_bool in Hb.
      destruct (only_object _ _ _ _ Hi Hs Hcl Hx) as [->|[n [m [at_ ->]]]].
      - cbn [sem fst bind]. split; [apply only_ok|discriminate].
      - destruct (proj1 (Hgx _ _ _ _ eq_refl) eq_refl) as [G1 G2]. unfold geometry in G1, G2. split.
        + apply only_bind; [exact Hb|]. intros b _. destruct b; [exact G1|apply only_ok].
        + intros g E. destruct (fst (sem W (VObj "geometry.LinearRing" n m at_))) as [b|]; [|discriminate]. cbn [bind] in E. destruct b; [exact (G2 g E)|discriminate].
    Qed.

    Lemma polygon_g : ci = cl_geometry_Polygon -> c = "geometry.Polygon" -> only K (geometry W (VObj c ns nss attrs)).
    Proof.
      assert (OC := only_object). intros -> ->. destruct (sem_obj W _ _ ns nss attrs Hc) as [_ ->]. cbn [cl_geometry_Polygon ci_geom eval_geom].
      destruct (o_present _ _ _ _ _ _ Hc Ht "outer_boundary" CRaw eq_refl) as [x [Hx _]]. destruct (o_present _ _ _ _ _ _ Hc Ht "inner_boundaries" CListTruthy eq_refl) as [y [Hy [l ->]]].
      unfold with_attr at 1. rewrite env_get, Hx. unfold a_bool, a_geom. cbn [fst snd].
      destruct (Hsub _ _ Hx) as [_ [_ [[Hb Hgx] _]]]. apply only_bind; [exact Hb|]. intros b Eb. destruct b; [|apply only_ok]. change (fst (sem W x)) with (py_bool W x) in Eb.
      assert (Hxc : x = VNone \/ exists n m at_, x = VObj "geometry.OuterBoundaryIs" n m at_) by (eapply (OC "outer_boundary"); [vm_compute; reflexivity|reflexivity|reflexivity|exact Hx]).
      destruct Hxc as [->|[n [m [at_ ->]]]]; [discriminate Eb|].
      destruct (proj1 (Hgx _ _ _ _ eq_refl) eq_refl) as [G1 G2]. apply only_bind; [exact G1|]. intros o Ho. change (snd (sem W (VObj "geometry.OuterBoundaryIs" n m at_))) with (geometry W (VObj "geometry.OuterBoundaryIs" n m at_)) in Ho.
      assert (Hout : class_of W "geometry.OuterBoundaryIs" = Some cl_geometry_OuterBoundaryIs) by reflexivity.
      destruct (sem_obj W _ _ n m at_ Hout) as [E _]. cbn [cl_geometry_OuterBoundaryIs ci_bool eval_bool] in E. rewrite Eb, Ho in E. cbn [bind] in E.
      destruct o as [g|]; [|discriminate E]. destruct (G2 g Ho) as [r [-> HR]]. cbn [line_of bind].
      unfold with_attr. rewrite env_get, Hy. unfold a_list. cbn [snd].
      assert (Hl : Forall (fun z => ringy z) l).
      { destruct (Hsub _ _ Hy) as [Hty [_ [_ Hm]]]. cbn [members] in Hm.
        assert (Hi : exists it, find_item "inner_boundaries" (items_of W "geometry.Polygon") = Some it /\ it_set it = SObjs /\ it_classes it = ["geometry.InnerBoundaryIs"]) by (eexists; repeat split; vm_compute; reflexivity).
        destruct Hi as [it [Hi [Hs Hcl]]]. assert (Hyt := o_typed _ _ _ _ _ _ Hc Ht _ _ _ Hy Hi). unfold item_typed in Hyt. rewrite Hs, Hcl in Hyt. rewrite forallb_forall in Hyt.
        rewrite Forall_forall in *. intros z Hz. specialize (Hyt z Hz). destruct z; try discriminate Hyt. apply mem_In in Hyt. destruct Hyt as [<-|[]]. exact (proj1 (proj2 (Hm _ Hz) _ _ _ _ eq_refl) eq_refl). }
      apply only_bind.
      { clear -Hl. induction Hl as [|z l [Hz _] _ IH]; [apply only_ok|]. cbn [map some_geoms]. apply only_bind; [exact Hz|]. intros o _. apply only_bind; [exact IH|]. intros. apply only_ok. }
      intros gs Egs. assert (Hgs : Forall (fun g => exists r, g = GRing r /\ R r) gs).
      { clear -Hl Egs. revert gs Egs. induction Hl as [|z l [_ Hz] _ IH]; intros gs E; cbn [map some_geoms] in E; [injection E as <-; constructor|].
        apply bind_ok in E as [o [Eo E]]. apply bind_ok in E as [r [Er E]]. injection E as <-. destruct o as [g|]; [|exact (IH _ Er)]. constructor; [exact (Hz g Eo)|exact (IH _ Er)]. }
      apply only_bind.
      { apply only_map. intros g Hg. rewrite Forall_forall in Hgs. destruct (Hgs _ Hg) as [q [-> _]]. apply only_ok. }
      intros hs Eh. assert (Hh : Forall R hs).
      { clear -Hgs Eh. revert hs Eh. induction Hgs as [|g gs [q [-> Hq]] _ IH]; intros hs E; cbn [map_res line_of bind] in E; [injection E as <-; constructor|]. apply bind_ok in E as [m [Em E]]. injection E as <-. constructor; [exact Hq|exact (IH _ Em)]. }
      unfold mk_poly. apply only_bind; [|intros; apply only_ok]. apply only_bind; [exact (sr_again _ _ _ Rules r HR)|]. intros s _. apply only_bind; [|intros; apply only_ok].
      apply only_map. intros h Hin. rewrite Forall_forall in Hh. exact (sr_again _ _ _ Rules h (Hh _ Hin)).
    Qed.

    Lemma multi_g : ci = cl_geometry_MultiGeometry -> c = "geometry.MultiGeometry" -> only K (geometry W (VObj c ns nss attrs)).
    Proof.
      intros -> ->. destruct (sem_obj W _ _ ns nss attrs Hc) as [_ ->]. cbn [cl_geometry_MultiGeometry ci_geom eval_geom].
      destruct (o_present _ _ _ _ _ _ Hc Ht "kml_geometries" CListTruthy eq_refl) as [y [Hy [l ->]]].
      unfold with_attr. rewrite env_get, Hy. unfold a_list. cbn [snd].
      assert (Hl : Forall (fun z => only K (geometry W z)) l).
      { destruct (Hsub _ _ Hy) as [Hty [_ [_ Hm]]]. cbn [members] in Hm.
        assert (Hi : exists it, find_item "kml_geometries" (items_of W "geometry.MultiGeometry") = Some it /\ it_set it = SObjs /\
          it_classes it = ["geometry.Point"; "geometry.LineString"; "geometry.Polygon"; "geometry.LinearRing"; "geometry.MultiGeometry"]) by (eexists; repeat split; vm_compute; reflexivity).
        destruct Hi as [it [Hi [Hs Hcl]]]. assert (Hyt := o_typed _ _ _ _ _ _ Hc Ht _ _ _ Hy Hi). unfold item_typed in Hyt. rewrite Hs, Hcl in Hyt. rewrite forallb_forall in Hyt.
        rewrite Forall_forall in *. intros z Hz. specialize (Hyt z Hz). destruct z; try discriminate Hyt. apply mem_In in Hyt. destruct (Hm _ Hz) as [_ Hg]. specialize (Hg _ _ _ _ eq_refl).
        destruct Hyt as [<-|[<-|[<-|[<-|[<-|[]]]]]]; try exact (proj2 Hg eq_refl). exact (proj1 (proj1 Hg eq_refl)). }
      apply only_bind.
      { clear -Hl. induction Hl as [|z l Hz _ IH]; [apply only_ok|]. cbn [map truthy_geoms]. apply only_bind; [exact Hz|]. intros o _. apply only_bind; [exact IH|]. intros. apply only_ok. }
      intros gs _. destruct (create_multi_total gs) as [o ->]. apply only_ok.
    Qed.
  End Geometry.

  (** What truth values of typed objects raise. *)
  Theorem sem_raises v : vall (typed_node W) v = true -> coords_are Q v = true -> raises v /\ Forall raises (members v).
  Proof.
    induction v as [ | | | | | | | | | |l IH|c ns nss attrs IH] using value_ind'; intros Ht HQ;
      try (split; [split; [apply only_ok|intros ? ? ? ? E; discriminate E]|constructor]).
    - split; [split; [apply only_ok|intros ? ? ? ? E; discriminate E]|]. cbn [members]. unfold coords_are in HQ. cbn [vall] in Ht, HQ. rewrite forallb_forall in Ht, HQ. rewrite Forall_forall in *.
      intros x Hx. exact (proj1 (IH x Hx (Ht x Hx) (HQ x Hx))).
    - split; [|constructor]. unfold coords_are in HQ. cbn [vall] in Ht, HQ. apply andb_prop in Ht as [Ht Hts]. apply andb_prop in HQ as [HQ HQs].
      assert (Hsub : forall a x, sget a attrs = Some x -> vall (typed_node W) x = true /\ coords_are Q x = true /\ raises x /\ Forall raises (members x)).
      { intros a x Hx. apply sget_In in Hx. rewrite forallb_forall in Hts, HQs. rewrite Forall_forall in IH. split; [exact (Hts _ Hx)|]. split; [exact (HQs _ Hx)|]. exact (IH _ Hx (Hts _ Hx) (HQs _ Hx)). }
      destruct (class_of W c) as [ci|] eqn:Hc; [|unfold typed_node in Ht; rewrite Hc in Ht; discriminate].
      assert (G : graises (VObj c ns nss attrs)).
      { intros c' ns' nss' attrs' E. injection E as <- <- <- <-. split; intro Hm; apply mem_In in Hm; unfold ring_classes, geom_classes in Hm; cbn [In] in Hm.
        - assert (Bd : forall c0 ci0, c = c0 -> class_of W c0 = Some ci0 -> ci_geom ci0 = GkBoundary -> ckind_of ci0 "kml_geometry" = Some CRaw ->
            (exists it, find_item "kml_geometry" (items_of W c0) = Some it /\ it_set it = SObj /\ it_classes it = ["geometry.LinearRing"]) -> ringy (VObj c ns nss attrs)).
          { intros c0 ci0 <- E1 E2 E3 [it [E4 [E5 E6]]]. eapply boundary_g; eassumption. }
          destruct Hm as [<-|[<-|[<-|[<-|[]]]]].
          + eapply ring_g; try eassumption; [|reflexivity]. vm_compute in Hc. now injection Hc as <-.
          + eapply Bd; [reflexivity|vm_compute; reflexivity|reflexivity|reflexivity|eexists; repeat split; vm_compute; reflexivity].
          + eapply Bd; [reflexivity|vm_compute; reflexivity|reflexivity|reflexivity|eexists; repeat split; vm_compute; reflexivity].
          + eapply Bd; [reflexivity|vm_compute; reflexivity|reflexivity|reflexivity|eexists; repeat split; vm_compute; reflexivity].
        - destruct Hm as [<-|[<-|[<-|[<-|[]]]]].
          + eapply point_g; try eassumption; [|reflexivity]. vm_compute in Hc. now injection Hc as <-.
          + eapply line_g; try eassumption; [|reflexivity]. vm_compute in Hc. now injection Hc as <-.
          + eapply polygon_g; try eassumption; [|reflexivity]. vm_compute in Hc. now injection Hc as <-.
          + eapply multi_g; try eassumption; [|reflexivity]. vm_compute in Hc. now injection Hc as <-. }
      split; [|exact G]. unfold braises. destruct (sem_obj W _ _ ns nss attrs Hc) as [-> _].
      assert (Hb := fastkml_bools arrow). unfold bools_ok in Hb. rewrite forallb_forall in Hb. specialize (Hb _ (sget_In _ _ _ Hc)). cbn [fst snd] in Hb. apply andb_prop in Hb as [Hb1 Hb2].
      eapply eval_bool_raises; try eassumption. intro Hg. rewrite Hg in Hb2. cbn [negb orb] in Hb2. apply mem_In in Hb2. apply in_app_or in Hb2 as [Hm|Hm]; apply mem_In in Hm.
      + exact (proj1 (proj1 (G _ _ _ _ eq_refl) Hm)).
      + exact (proj2 (G _ _ _ _ eq_refl) Hm).
  Qed.

End Sem.

Lemma bool_failure arrow prec v x : vall (typed_node (fastkml arrow)) v = true -> py_bool (fastkml arrow) v = Err x -> write_failure prec v x.
Proof.
  intros Ht E. assert (A : coords_are (fun _ => true) v = true).
  { clear. unfold coords_are. induction v as [ | | | | | | | | | |l IH|c ns nss attrs IH] using value_ind'; try reflexivity; cbn [vall].
    - rewrite Forall_forall in IH. rewrite forallb_forall. exact IH.
    - apply andb_true_intro. split; [|rewrite Forall_forall in IH; rewrite forallb_forall; intros [a x] Hx; exact (IH _ Hx)]. unfold coords_all. destruct (sget "coords" attrs) as [[]|]; try reflexivity. rewrite forallb_forall. reflexivity. }
  destruct (sem_raises arrow _ _ _ rules_any v Ht A) as [[Hb _] _]. destruct (Hb _ E) as [-> | ->]; constructor.
  - destruct (coords_are two_or_three v) eqn:Q; [|reflexivity]. destruct (sem_raises arrow _ _ _ rules_sized v Ht Q) as [[Hb' _] _]. discriminate (Hb' _ E).
  - destruct (coords_are no_nan v) eqn:Q; [|reflexivity]. destruct (sem_raises arrow _ _ _ rules_clean v Ht Q) as [[Hb' _] _]. discriminate (Hb' _ E).
Qed.


(** ** Writing *)

Lemma failure_attr prec c ns nss attrs a v x : In (a, v) attrs -> write_failure prec v x -> write_failure prec (VObj c ns nss attrs) x.
Proof.
  intros Hin H.
  assert (U : forall P, vall P v = false -> vall P (VObj c ns nss attrs) = false).
  { intros P HP. cbn [vall]. apply andb_false_iff. right. destruct (forallb _ attrs) eqn:E; [|reflexivity]. rewrite forallb_forall in E. specialize (E _ Hin). cbn in E. congruence. }
  destruct H; constructor; now apply U.
Qed.
Lemma failure_member prec l v x : In v l -> write_failure prec v x -> write_failure prec (VList l) x.
Proof.
  intros Hin H.
  assert (U : forall P, vall P v = false -> vall P (VList l) = false).
  { intros P HP. cbn [vall]. destruct (forallb _ l) eqn:E; [|reflexivity]. rewrite forallb_forall in E. specialize (E _ Hin). congruence. }
  destruct H; constructor; now apply U.
Qed.

Lemma digits_raise z : only (fun x => x = EValueError) (str_of_int z).
Proof. unfold str_of_int. intros x H. destruct (_ <? _)%N; [now injection H as <-|discriminate]. Qed.
Lemma num_text_raises prec n : only (fun x => x = EValueError) (num_text prec n).
Proof.
  destruct n as [z|f]; destruct prec as [p|]; cbn [num_text num_str num_fmt]; try apply only_ok; [|apply digits_raise].
  destruct (float_of_Z z); try apply only_ok. intros x H. now injection H as <-.
Qed.
Lemma join_raises sep prec c : only (fun x => x = EValueError) (join_nums sep prec c).
Proof. unfold join_nums. apply only_bind; [|intros; apply only_ok]. apply only_map. intros. apply num_text_raises. Qed.

Section Write.
  Variable arrow : ustr -> option datetime.
  Local Notation W := (fastkml arrow).
  Variables (prec : option nat) (vb : verbosity).

  Definition wraises (v : value) : Prop := match v with VObj _ _ _ _ => only (write_failure prec v) (etree W prec vb v) | _ => True end.

  Section Object.
    Variables (c : string) (ci : class_info) (ns : ustr) (nss : nss_t) (attrs : list (string * value)).
    Hypothesis Hc : class_of W c = Some ci.
    Hypothesis Ht : typed_node W c ns nss attrs = true.
    Hypothesis Hsub : forall a x, sget a attrs = Some x -> vall (typed_node W) x = true /\ wraises x /\ Forall wraises (members x).
    Local Notation v := (VObj c ns nss attrs).

    Let F : class_facts W ci (items_of W c) := world_class _ _ _ (fastkml_ok arrow) Hc.

    Lemma obj_shapes it : In it (items_of W c) ->
      sget (it_attr it) attrs = Some (obj_attr ci attrs (it_attr it)) /\ (is_track ci && mem (it_attr it) track_attrs) = false \/
      sget (it_attr it) attrs = None /\ obj_attr ci attrs (it_attr it) = VNone /\ (is_track ci && mem (it_attr it) track_attrs) = false \/
      it_set it = SDates /\ (exists l, obj_attr ci attrs (it_attr it) = VDates l) \/
      it_set it = SCoordList /\ (exists l, obj_attr ci attrs (it_attr it) = VCoords true l).
    Proof.
      intro Hin. assert (Hfi := find_item_NoDup _ _ (cf_attrs _ _ _ F) Hin). assert (Hto := cf_track _ _ _ F). unfold track_ok in Hto.
      destruct (o_shape _ _ _ _ _ _ Hc Ht) as [Hsh Hat].
      destruct (is_track ci && mem (it_attr it) track_attrs) eqn:Etr.
      - apply andb_prop in Etr as [Etr Em]. rewrite Etr in Hto. rewrite !andb_true_iff in Hto. destruct Hto as [[[[[T1 T2] T3] T4] T5] T6].
        right. right. assert (Hnone : sget (it_attr it) attrs = None).
        { apply sget_None. intro Hk. destruct (shape_inv _ _ Hsh) as [xs [E [_ Hx]]]. rewrite E in Hk. rewrite forallb_forall in T6. apply mem_In in Em. specialize (T6 _ Em). apply andb_prop in T6 as [T6 T7].
          apply negb_true_iff in T7. assert (Hno : ~ In (it_attr it) (map fst (ctor_attrs ci))).
          { intro Hi. apply in_map_iff in Hi as [ak [Ea Hi]]. assert (existsb (fun ak => String.eqb (it_attr it) (fst ak)) (ctor_attrs ci) = true); [|congruence]. apply existsb_exists. exists ak. split; [exact Hi|]. apply seqb_eq. congruence. }
          unfold ctor_attrs in Hno. rewrite map_app in Hno. apply in_app_or in Hk as [Hk|Hk]; [apply Hno, in_or_app; now left|]. apply in_app_or in Hk as [Hk|Hk]; [|apply Hno, in_or_app; now right].
          apply Hx in Hk. congruence. }
        apply existsb_exists in T1 as [[a k] [Hak T1]]. cbn [fst snd] in T1. apply andb_prop in T1 as [Ta Tk]. apply seqb_eq in Ta. subst a. destruct k; try discriminate Tk.
        destruct (ctor_present ci attrs Hsh _ _ Hak) as [x Hx]. assert (exists l, x = VItems l) as [l ->].
        { assert (Hxi := sget_In _ _ _ Hx). rewrite forallb_forall in Hat. specialize (Hat _ Hxi). unfold attr_typed in Hat. rewrite (ctor_get _ _ _ F _ _ Hak) in Hat. apply andb_prop in Hat as [_ Hat]. destruct x; try discriminate Hat. eauto. }
        unfold obj_attr. rewrite Hnone. unfold is_track in Etr. destruct (ci_geom ci); try discriminate Etr. rewrite Hx.
        apply find_setter in T2 as [i2 [F2 S2]]. apply find_setter in T3 as [i3 [F3 S3]]. apply find_setter in T4 as [i4 [F4 S4]].
        apply mem_In in Em. destruct Em as [E|[E|[E|[]]]]; rewrite <- E in *.
        + left. assert (it = i2) by congruence. subst. split; [exact S2|]. eexists; reflexivity.
        + right. assert (it = i3) by congruence. subst. split; [exact S3|]. eexists. reflexivity.
        + right. assert (it = i4) by congruence. subst. split; [exact S4|]. eexists. reflexivity.
      - unfold obj_attr. destruct (sget (it_attr it) attrs) as [y|] eqn:Ey; [left; auto|]. right. left. split; [reflexivity|]. split; [|reflexivity].
        unfold is_track in Etr. destruct (ci_geom ci); try reflexivity. cbn [andb] in Etr. unfold track_attrs, mem in Etr. cbn [existsb] in Etr. rewrite !orb_false_iff in Etr. destruct Etr as [-> [-> [-> _]]].
        destruct (sget "track_items" attrs) as [[]|]; reflexivity.
    Qed.

    Lemma value_cases w d : get_value vb w d = w \/ get_value vb w d = VNone \/ get_value vb w d = d /\ w = VNone.
    Proof. destruct vb; cbn [get_value]; [destruct (scalar_eq w d); auto|auto|]. destruct w; cbn [is_none andb]; auto. destruct (is_none d); auto. Qed.

    Lemma scalar_typed it : In it (items_of W c) -> not_scalar (it_set it) = false ->
      item_typed W it (get_value vb (obj_attr ci attrs (it_attr it)) (it_default it)) = true.
    Proof.
      intros Hin Hs. assert (Hd : item_typed W it (it_default it) = true).
      { assert (H := cf_items _ _ _ F it Hin). unfold item_ok in H. rewrite !andb_true_iff in H. destruct H as [[_ H] _]. unfold default_ok in H. destruct (it_set it); try discriminate Hs; now apply andb_prop in H. }
      assert (H0 : item_typed W it (obj_attr ci attrs (it_attr it)) = true).
      { destruct (obj_shapes it Hin) as [[E _]|[[_ [-> _]]|[[E _]|[E _]]]].
        - exact (o_typed _ _ _ _ _ _ Hc Ht _ _ _ E (find_item_NoDup _ _ (cf_attrs _ _ _ F) Hin)).
        - unfold item_typed. now destruct (it_set it).
        - rewrite E in Hs. discriminate.
        - rewrite E in Hs. discriminate. }
      destruct (value_cases (obj_attr ci attrs (it_attr it)) (it_default it)) as [->|[->|[-> _]]]; [exact H0| |exact Hd].
      unfold item_typed. now destruct (it_set it).
    Qed.

    Lemma objs_raise l : forallb (fun x => match x with VObj _ _ _ _ => true | _ => false end) l = true -> Forall (fun x => vall (typed_node W) x = true) l -> Forall wraises l ->
      only (write_failure prec (VList l)) (objs_kids W (map (fun y => (y, etree W prec vb y)) l)).
    Proof.
      intros Ho H1 H2. assert (G : forall m, incl m l -> only (write_failure prec (VList l)) (objs_kids W (map (fun y => (y, etree W prec vb y)) m))).
      { induction m as [|x m IH]; intro I; cbn [map objs_kids]; [apply only_ok|]. assert (Hx : In x l) by (apply I; now left). assert (I' : incl m l) by (intros y Hy; apply I; now right).
        rewrite forallb_forall in Ho. rewrite Forall_forall in H1, H2. specialize (Ho _ Hx). specialize (H1 _ Hx). specialize (H2 _ Hx).
        apply only_bind; [intros y E; eapply failure_member; [exact Hx|]; exact (bool_failure arrow prec x y H1 E)|]. intros b _. destruct b; [|exact (IH I')].
        apply only_bind; [|intros k _; apply only_bind; [exact (IH I')|intros; apply only_ok]]. destruct x; try discriminate Ho. intros y E. eapply failure_member; [exact Hx|]. exact (H2 _ E). }
      apply G, incl_refl.
    Qed.

    Lemma emit_raises it : In it (items_of W c) -> only (write_failure prec v) (emit W prec vb ci ns nss attrs (ws_of W prec vb attrs) it).
    Proof.
      intro Hin. assert (V : forall x, x = EValueError -> forallb (fun ax => value_prints prec (snd ax)) attrs = false -> write_failure prec v x).
      { intros x -> H. constructor. unfold prints. cbn [vall]. now rewrite H. }
      destruct (not_scalar (it_set it)) eqn:Es.
      - destruct (default_facts arrow c ci Hc it Hin) as [_ Hd]. assert (Hfi := find_item_NoDup _ _ (cf_attrs _ _ _ F) Hin). unfold emit. destruct (it_set it) eqn:Eset; try discriminate Es.
        + assert (T : forall l, only (write_failure prec v) (let! ks := text_kids (map (fun o => Ok (match o with Some k => ((date_ns nss ++ u (it_node it))%list, kdt_str k) | None => ((ns ++ u (it_node it))%list, u "()") end)) l) in Ok (em_kids ks))).
          { intro l. edestruct text_kids_total as [ks ->]; [|apply only_ok]. intros x Hx. apply in_map_iff in Hx as [o [<- _]]. eexists; reflexivity. }
          destruct (obj_shapes it Hin) as [[E Et]|[[_ [-> Et]]|[[_ [l ->]]|[E _]]]]; [| | |congruence].
          * rewrite Et, orb_false_r in Hd. assert (Hy := o_typed _ _ _ _ _ _ Hc Ht _ _ _ E Hfi). unfold item_typed in Hy. rewrite Eset in Hy.
            destruct (value_cases (obj_attr ci attrs (it_attr it)) (it_default it)) as [->|[->|[-> _]]]; [|apply only_ok|destruct (it_default it); try discriminate Hd; apply only_ok].
            destruct (obj_attr ci attrs (it_attr it)) as [ | | | | | | | |l| | | ]; try discriminate Hy; [apply only_ok|]. apply T.
          * rewrite Et, orb_false_r in Hd. destruct (it_default it); try discriminate Hd. destruct vb; apply only_ok.
          * destruct (value_cases (VDates l) (it_default it)) as [->|[->|[_ ?]]]; [apply T|apply only_ok|discriminate].
        + assert (T : forall b l, obj_attr ci attrs (it_attr it) = VCoords b l -> (forallb (fun ax => value_prints prec (snd ax)) attrs = true -> forallb (forallb (num_prints prec)) l = true) ->
            only (write_failure prec v) (let! ks := text_kids (map (fun c => let! t := join_nums (u " ") prec c in Ok ((ns ++ u (it_node it))%list, t)) l) in Ok (em_kids ks))).
          { intros b l _ Hl. destruct (forallb (fun ax => value_prints prec (snd ax)) attrs) eqn:Hp.
            - specialize (Hl eq_refl). edestruct text_kids_total as [ks ->]; [|apply only_ok]. intros x Hx. apply in_map_iff in Hx as [q [<- Hq]]. rewrite forallb_forall in Hl. destruct (join_nums_total (u " ") prec q (Hl _ Hq)) as [t ->]. eexists; reflexivity.
            - apply only_bind; [|intros; apply only_ok]. unfold text_kids. apply only_map. intros r Hr. apply in_map_iff in Hr as [q [<- _]]. apply only_bind; [|intros; apply only_ok]. apply only_bind; [|intros; apply only_ok].
              intros x E. apply V; [exact (join_raises _ _ _ _ E)|reflexivity]. }
          destruct (obj_shapes it Hin) as [[E Et]|[[_ [-> Et]]|[[E _]|[_ [l El]]]]]; [| |congruence|].
          * rewrite Et, orb_false_r in Hd. assert (Hy := o_typed _ _ _ _ _ _ Hc Ht _ _ _ E Hfi). unfold item_typed in Hy. rewrite Eset in Hy.
            destruct (value_cases (obj_attr ci attrs (it_attr it)) (it_default it)) as [->|[->|[-> _]]]; [|apply only_ok|destruct (it_default it); try discriminate Hd; apply only_ok].
            destruct (obj_attr ci attrs (it_attr it)) as [ | | | | | | |b l| | | | ]; try discriminate Hy; [apply only_ok|]. apply (T b l eq_refl).
            intro Hp. rewrite forallb_forall in Hp. exact (Hp _ (sget_In _ _ _ E)).
          * rewrite Et, orb_false_r in Hd. destruct (it_default it); try discriminate Hd. destruct vb; apply only_ok.
          * destruct (value_cases (obj_attr ci attrs (it_attr it)) (it_default it)) as [->|[->|[_ ?]]]; [|apply only_ok|congruence]. rewrite El. apply (T true l El).
            intro Hp. destruct (obj_cases arrow prec c ci ns nss attrs Hc Ht Hp it Hin) as [[E Et]|[[_ [E _]]|[[E _]|[_ [l' [El' Hl]]]]]]; [|congruence|congruence|congruence].
            rewrite El in E. rewrite forallb_forall in Hp. exact (Hp _ (sget_In _ _ _ E)).
        + destruct (obj_shapes it Hin) as [[E Et]|[[_ [-> Et]]|[[E _]|[E _]]]]; [|apply only_ok|congruence|congruence].
          assert (Hy := o_typed _ _ _ _ _ _ Hc Ht _ _ _ E Hfi). unfold item_typed in Hy. rewrite Eset in Hy.
          destruct (obj_attr ci attrs (it_attr it)) as [ | | | | | | |b l| | | | ] eqn:Eo; try discriminate Hy; [apply only_ok|].
          destruct l as [|q l]; [apply only_ok|]. cbn [nilb]. apply only_bind; [|intros; apply only_ok]. unfold coordinates_text. destruct (dims_ok (q :: l)) eqn:Ed.
          * apply only_bind; [|intros; apply only_ok]. destruct (forallb (fun ax => value_prints prec (snd ax)) attrs) eqn:Hp.
            -- assert (Hl : value_prints prec (VCoords b (q :: l)) = true) by (rewrite forallb_forall in Hp; exact (Hp _ (sget_In _ _ _ E))). cbn [value_prints] in Hl.
               destruct (map_res_total (join_nums (u ",") prec) (q :: l)) as [ts ->]; [|apply only_ok]. intros p Hpn. apply join_nums_total. rewrite forallb_forall in Hl. exact (Hl _ Hpn).
            -- apply only_map. intros p _ x Ex. apply V; [exact (join_raises _ _ _ _ Ex)|reflexivity].
          * intros x Ex. injection Ex as <-. constructor. unfold sized. cbn [vall]. apply andb_false_iff. left. unfold coords_sized. rewrite (scoords_attr arrow c ci it Hc Hin Eset) in E. rewrite E. exact Ed.
        + destruct (obj_shapes it Hin) as [[E Et]|[[_ [-> Et]]|[[E _]|[E _]]]]; [|apply only_ok|congruence|congruence].
          assert (Hy := o_typed _ _ _ _ _ _ Hc Ht _ _ _ E Hfi). unfold item_typed in Hy. rewrite Eset in Hy. destruct (Hsub _ _ E) as [Hx [Hw _]]. rewrite sget_ws_of, E. cbn [w_attr].
          apply only_bind; [intros y Ey; eapply failure_attr; [exact (sget_In _ _ _ E)|]; exact (bool_failure arrow prec _ y Hx Ey)|].
          intros b Eb. destruct b; [|apply only_ok]. apply only_bind; [|intros; apply only_ok]. destruct (obj_attr ci attrs (it_attr it)); try discriminate Hy; [discriminate Eb|].
          intros y Ey. eapply failure_attr; [exact (sget_In _ _ _ E)|]. exact (Hw _ Ey).
        + rewrite sget_ws_of. destruct (sget (it_attr it) attrs) as [x|] eqn:E; [|apply only_ok]. cbn [w_attr].
          assert (Hy := o_typed _ _ _ _ _ _ Hc Ht _ _ _ E Hfi). unfold item_typed in Hy. rewrite Eset in Hy. destruct (Hsub _ _ E) as [Hx [_ Hw]].
          destruct x as [ | | | | | | | | | |l| ]; try discriminate Hy; [apply only_ok|]. apply only_bind; [|intros; apply only_ok].
          intros y Ey. eapply failure_attr; [exact (sget_In _ _ _ E)|]. revert y Ey. apply objs_raise.
          * rewrite forallb_forall in *. intros y Hyin. specialize (Hy _ Hyin). now destruct y.
          * cbn [vall] in Hx. rewrite forallb_forall in Hx. apply Forall_forall. exact Hx.
          * exact Hw.
      - assert (H1 := scalar_typed it Hin Es).
        assert (H2 : forallb (fun ax => value_prints prec (snd ax)) attrs = true ->
          match get_value vb (obj_attr ci attrs (it_attr it)) (it_default it) with VNum n => exists t, num_str n = Ok t | _ => True end).
        { intro Hp. exact (proj2 (scalar_value arrow prec vb c ci ns nss attrs Hc Ht Hp it Hin Es)). }
        assert (N : forall n (f : ustr -> em), get_value vb (obj_attr ci attrs (it_attr it)) (it_default it) = VNum n -> only (write_failure prec v) (let! t := num_str n in Ok (f t))).
        { intros n f En. rewrite En in H2. apply only_bind; [|intros; apply only_ok]. intros x Ex.
          destruct (forallb (fun ax => value_prints prec (snd ax)) attrs) eqn:Hp; [destruct (H2 eq_refl) as [t Et]; congruence|]. apply V; [exact (num_text_raises None n x Ex)|reflexivity]. }
        unfold emit. unfold item_typed in H1. clear H2.
        destruct (it_set it); try discriminate Es; destruct (get_value vb (obj_attr ci attrs (it_attr it)) (it_default it)) as [ |b|[z|f]| | | | | | | | | ]; try discriminate H1; try apply only_ok;
          cbn [str_value]; try (exact (N _ _ eq_refl)).
    Qed.

    Lemma object_raises : only (write_failure prec v) (etree W prec vb v).
    Proof.
      assert (ER := emit_raises). assert (Hroot := cf_root _ _ _ F). clear F. rewrite etree_obj. unfold write_with. rewrite Hc. unfold root_ok in Hroot. destruct (ci_root ci) eqn:Eroot.
      - destruct (items_of W c) as [|it [|]] eqn:Eits; try discriminate Hroot. apply andb_prop in Hroot as [Ra Rs]. apply seqb_eq in Ra.
        assert (Es : it_set it = SObjs) by (destruct (it_set it); try discriminate Rs; reflexivity).
        assert (R := ER it (or_introl eq_refl)). rewrite set_element_emit. unfold emit in *. rewrite Es, Ra in R. cbn [root_item it_set it_attr]. apply only_bind; [exact R|]. intros. apply only_ok.
      - rewrite set_elements_emit. apply only_bind; [|intros; apply only_ok]. apply only_map. intros it Hit. exact (ER it Hit).
    Qed.
  End Object.

  Theorem write_raises w : vall (typed_node W) w = true -> wraises w /\ Forall wraises (members w).
  Proof.
    induction w as [ | | | | | | | | | |l IH|c ns nss attrs IH] using value_ind'; intros Ht; try (split; [exact I|constructor]).
    - split; [exact I|]. cbn [members]. cbn [vall] in *. rewrite forallb_forall in *. rewrite Forall_forall in *. intros x Hx. exact (proj1 (IH x Hx (Ht x Hx))).
    - split; [|constructor]. cbn [vall] in Ht. apply andb_prop in Ht as [Ht Hts].
      destruct (class_of W c) as [ci|] eqn:Hc; [|unfold typed_node in Ht; rewrite Hc in Ht; discriminate].
      eapply object_raises; try eassumption. intros a x Hx. apply sget_In in Hx. rewrite forallb_forall in Hts. rewrite Forall_forall in IH.
      split; [exact (Hts _ Hx)|]. exact (IH _ Hx (Hts _ Hx)).
  Qed.
End Write.
