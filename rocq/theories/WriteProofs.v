(** * What the writer writes, and when it can write at all. *)
From Coq Require Import String List NArith ZArith Bool Lia.
From Verif Require Import Ustr UstrProofs Res PyInt PyFloat PyNumProofs PyDate Elem Value Geom Codec Tables Spec Settled EmitProofs CodecProofs ReadProofs ItemProofs RoundTrip NsProofs SettledProofs ReaderTyped ValueProofs FastkmlOk Outcome.
Import ListNotations.
Local Open Scope string_scope.

(** ** The objects a document is made of *)

(** [part W v y]: [y] is [v], or is reached from it through attributes that the
    registry lists as sub-objects or lists of sub-objects, each of them true
    in the sense of [bool()]. *)
Inductive part (W : world) : value -> value -> Prop :=
| part_self v : part W v v
| part_attr c ns nss attrs it x y :
    In it (items_of W c) -> it_set it = SObj -> sget (it_attr it) attrs = Some x -> py_bool W x = Ok true ->
    part W x y -> part W (VObj c ns nss attrs) y
| part_member c ns nss attrs it l x y :
    In it (items_of W c) -> it_set it = SObjs -> sget (it_attr it) attrs = Some (VList l) -> In x l -> py_bool W x = Ok true ->
    part W x y -> part W (VObj c ns nss attrs) y.

(** [k] is [e] or an element inside it. *)
Inductive below : elem -> elem -> Prop :=
| below_self e : below e e
| below_kid k k' e : In k' (e_kids e) -> below k k' -> below k e.

Lemma objs_kids_in W l ks x w : objs_kids W l = Ok ks -> In (x, w) l -> py_bool W x = Ok true -> exists k, w = Ok k /\ In k ks.
Proof.
  revert ks; induction l as [|[y z] l IH]; intros ks H; [contradiction|]. cbn [objs_kids] in H. apply bind_ok in H as [b [Hb H]]. intros [E|Hin] Hx.
  - injection E as -> ->. rewrite Hx in Hb. injection Hb as <-. apply bind_ok in H as [k [Hk H]]. apply bind_ok in H as [r [_ H]]. injection H as <-. exists k. split; [exact Hk|now left].
  - destruct b; [|exact (IH _ H Hin Hx)]. apply bind_ok in H as [k' [_ H]]. apply bind_ok in H as [r [Hr H]]. injection H as <-.
    destruct (IH _ Hr Hin Hx) as [k [H1 H2]]. exists k. split; [exact H1|now right].
Qed.

(** Every item of the class of a written object has been emitted. *)
Lemma etree_emits W prec vb c ci ns nss attrs e : world_ok W = true -> class_of W c = Some ci ->
  etree W prec vb (VObj c ns nss attrs) = Ok e ->
  forall it, In it (items_of W c) -> exists m, emit W prec vb ci ns nss attrs (ws_of W prec vb attrs) it = Ok m /\ (forall k, In k (m_kids m) -> In k (e_kids e)).
Proof.
  intros HW Hc He. rewrite etree_obj in He. unfold write_with in He. rewrite Hc in He. assert (F := world_class _ _ _ HW Hc).
  assert (Hroot := cf_root _ _ _ F). unfold root_ok in Hroot. destruct (ci_root ci) eqn:Eroot.
  - destruct (items_of W c) as [|it [|]] eqn:Eits; try discriminate Hroot. apply andb_prop in Hroot as [Ra Rs]. apply seqb_eq in Ra.
    assert (Es : it_set it = SObjs) by (destruct (it_set it); try discriminate Rs; reflexivity).
    rewrite set_element_emit in He. apply bind_ok in He as [m [Hm He]]. injection He as <-. intros it' [<-|[]]. exists m. split.
    + unfold emit in *. rewrite Es, Ra. exact Hm.
    + intros k Hk. unfold root_elem. destruct (uempty ns); exact Hk.
  - rewrite set_elements_emit in He. apply bind_ok in He as [ms [Hms He]]. injection He as <-. rewrite fold_kids. change (e_kids (new_elem (ns ++ u (ci_tag ci))%list)) with (@nil elem). cbn [app].
    intros it Hit. apply map_res_ok in Hms. clear -Hms Hit. induction Hms as [|j m l ms Hj _ IH]; [contradiction|]. destruct Hit as [->|Hit].
    + exists m. split; [exact Hj|]. intros k Hk. apply in_or_app. now left.
    + destruct (IH Hit) as [m' [H1 H2]]. exists m'. split; [exact H1|]. intros k Hk. apply in_or_app. right. exact (H2 _ Hk).
Qed.

(** Every part of a written object has its own element in the document. *)
Theorem parts_written W prec vb v y : world_ok W = true -> part W v y -> forall e, etree W prec vb v = Ok e ->
  exists k, etree W prec vb y = Ok k /\ below k e.
Proof.
  intros HW H. induction H as [v|c ns nss attrs it x y Hit Hs Hx Hb _ IH|c ns nss attrs it l x y Hit Hs Hl Hx Hb _ IH]; intros e He.
  - exists e. split; [exact He|constructor].
  - destruct (class_of W c) as [ci|] eqn:Hc; [|rewrite etree_obj in He; unfold write_with in He; rewrite Hc in He; discriminate].
    destruct (etree_emits _ _ _ _ _ _ _ _ _ HW Hc He it Hit) as [m [Hm Hk]]. unfold emit in Hm. rewrite Hs in Hm. unfold obj_attr in Hm. rewrite Hx, Hb in Hm. cbn [bind] in Hm.
    rewrite sget_ws_of, Hx in Hm. cbn [w_attr] in Hm. apply bind_ok in Hm as [k [Ek Hm]]. injection Hm as <-.
    destruct (IH _ Ek) as [k' [H1 H2]]. exists k'. split; [exact H1|]. eapply below_kid; [|exact H2]. apply Hk. now left.
  - destruct (class_of W c) as [ci|] eqn:Hc; [|rewrite etree_obj in He; unfold write_with in He; rewrite Hc in He; discriminate].
    destruct (etree_emits _ _ _ _ _ _ _ _ _ HW Hc He it Hit) as [m [Hm Hk]]. unfold emit in Hm. rewrite Hs in Hm.
    rewrite sget_ws_of, Hl in Hm. cbn [w_attr] in Hm. apply bind_ok in Hm as [ks [Eks Hm]]. injection Hm as <-.
    destruct (objs_kids_in _ _ _ x (etree W prec vb x) Eks) as [k [Ek Hkin]]; [|exact Hb|].
    + exact (in_map (fun z => (z, etree W prec vb z)) l x Hx).
    + destruct (IH _ Ek) as [k' [H1 H2]]. exists k'. split; [exact H1|]. eapply below_kid; [|exact H2]. apply Hk. exact Hkin.
Qed.

(** Conversely: what can not be written on its own is in no document. *)
Corollary part_unwritten W prec vb v y : world_ok W = true -> part W v y -> (forall e, etree W prec vb y <> Ok e) ->
  forall e, etree W prec vb v <> Ok e.
Proof. intros HW Hp Hn e He. destruct (parts_written _ _ _ _ _ HW Hp _ He) as [k [Hk _]]. exact (Hn _ Hk). Qed.

(** ** Writing never fails for typed objects with sane coordinates *)

(** Two or three numbers, none of them NaN. *)
Definition tuple_fine (c : list num) : bool :=
  (Nat.eqb (length c) 2 || Nat.eqb (length c) 3) && forallb (fun n => negb (num_nan n)) c.

Definition coords_fine (attrs : list (string * value)) : bool :=
  match sget "coords" attrs with Some (VCoords _ l) => forallb tuple_fine l | _ => true end.

(** All coordinates anywhere in the object. *)
Definition fine (v : value) : bool := vall (fun _ _ _ attrs => coords_fine attrs) v.

(** The numbers can be converted to text: floats always can, integers unless
    they are astronomically large. *)
Definition num_prints (prec : option nat) (n : num) : bool :=
  match num_text prec n with Ok _ => true | Err _ => false end.
Definition value_prints (prec : option nat) (x : value) : bool :=
  match x with
  | VNum (NInt z) => small_int z
  | VCoords _ l => forallb (forallb (num_prints prec)) l
  | VItems l => forallb (fun i => forallb (num_prints prec) (ti_coord i) &&
                                  match ti_angle i with Some a => forallb (num_prints prec) a | None => true end) l
  | _ => true
  end.
Definition prints (prec : option nat) (v : value) : bool :=
  vall (fun _ _ _ attrs => forallb (fun ax => value_prints prec (snd ax)) attrs) v.

Lemma float_prints prec f : num_prints prec (NFloat f) = true.
Proof. unfold num_prints. now destruct prec. Qed.

(** *** Lines and rings *)

Definition ring_fine (r : list (list num)) : Prop :=
  forallb tuple_fine r = true /\ exists n, Forall (fun c => length c = n) r.

Lemma tuple_point c : tuple_fine c = true -> mk_point c = Ok c /\ Nat.ltb (length c) 2 = false.
Proof.
  unfold tuple_fine. rewrite andb_true_iff. intros [H1 H2]. split.
  - unfold mk_point. assert (filter (fun n => negb (num_nan n)) c = c) as ->.
    { clear H1. induction c as [|n c IH]; [reflexivity|]. cbn [forallb] in H2. apply andb_prop in H2 as [H2 H3]. cbn [filter]. rewrite H2. now rewrite IH. }
    destruct c as [|? [|? [|? [|]]]]; cbn in H1; try discriminate H1; reflexivity.
  - destruct c as [|? [|? [|? [|]]]]; cbn in H1; try discriminate H1; reflexivity.
Qed.

Lemma line_points_fine l : forall last, forallb tuple_fine l = true ->
  line_points last l = Err EDimension \/
  line_points last l = Ok l /\ match last with
                               | Some n => Forall (fun c => length c = n) l
                               | None => exists n, Forall (fun c => length c = n) l
                               end.
Proof.
  induction l as [|c l IH]; intros last H; [right; split; [reflexivity|destruct last; [constructor|exists O; constructor]]|].
  cbn [forallb] in H. apply andb_prop in H as [H1 H2]. cbn [line_points].
  destruct (match last with Some n => negb (Nat.eqb n (length c)) | None => false end) eqn:E; [now left|].
  destruct (tuple_point _ H1) as [-> H3]. cbn [bind]. destruct (IH (Some (length c)) H2) as [->|[-> H4]]; [now left|]. right. cbn [bind]. rewrite H3. split; [reflexivity|].
  destruct last as [n|].
  - apply negb_false_iff, Nat.eqb_eq in E. subst n. now constructor.
  - exists (length c). now constructor.
Qed.

Lemma line_points_uniform l : forall last n, forallb tuple_fine l = true -> Forall (fun c => length c = n) l ->
  (last = None \/ last = Some n) -> line_points last l = Ok l.
Proof.
  induction l as [|c l IH]; intros last n H Hn Hl; [reflexivity|]. cbn [forallb] in H. apply andb_prop in H as [H1 H2]. inversion Hn as [|? ? Hc Hn']; subst. cbn [line_points].
  assert ((match last with Some n => negb (Nat.eqb n (length c)) | None => false end) = false) as ->.
  { destruct Hl as [-> | ->]; [reflexivity|]. now rewrite Nat.eqb_refl. }
  destruct (tuple_point _ H1) as [-> H3]. cbn [bind]. rewrite (IH (Some (length c)) (length c)) by auto. cbn [bind]. now rewrite H3.
Qed.

Lemma dedupe_incl l c : In c (dedupe l) -> In c l.
Proof.
  assert (A : forall l p, In c (dedupe_from p l) -> In c l).
  { clear l. induction l as [|x l IH]; intros p; [auto|]. cbn [dedupe_from]. destruct (point_eq p x); intro H; [right; exact (IH _ H)|]. destruct H as [->|H]; [now left|right; exact (IH _ H)]. }
  destruct l as [|x l]; [auto|]. cbn [dedupe]. intros [->|H]; [now left|right; exact (A _ _ H)].
Qed.

Lemma dedupe_fine l : forallb tuple_fine l = true -> forallb tuple_fine (dedupe l) = true.
Proof. rewrite !forallb_forall. intros H c Hc. apply H, dedupe_incl, Hc. Qed.

Lemma close_ring_in l c : In c (close_ring l) -> In c l.
Proof.
  unfold close_ring. destruct l as [|x l]; [auto|]. destruct (point_eq _ _); [auto|]. intro H. apply in_app_or in H as [H|[<-|[]]]; [exact H|now left].
Qed.

Lemma close_fine l : ring_fine l -> ring_fine (close_ring l).
Proof.
  intros [H [n Hn]]. split.
  - rewrite forallb_forall in *. intros c Hc. apply H, close_ring_in, Hc.
  - exists n. rewrite Forall_forall in *. intros c Hc. apply Hn, close_ring_in, Hc.
Qed.

Lemma mk_line_fine l : forallb tuple_fine l = true -> mk_line l = Err EDimension \/ exists r, mk_line l = Ok r /\ ring_fine r.
Proof.
  intro H. unfold mk_line. destruct (line_points_fine (dedupe l) None (dedupe_fine _ H)) as [->|[-> Hn]]; [now left|]. right. eexists. split; [reflexivity|]. split; [exact (dedupe_fine _ H)|exact Hn].
Qed.

Lemma mk_ring_fine l : forallb tuple_fine l = true -> mk_ring l = Err EDimension \/ exists r, mk_ring l = Ok r /\ ring_fine r.
Proof.
  intro H. unfold mk_ring. destruct (mk_line_fine l H) as [->|[r [-> Hr]]]; [now left|]. right. eexists. split; [reflexivity|]. now apply close_fine.
Qed.

Lemma mk_ring_again r : ring_fine r -> exists r', mk_ring r = Ok r'.
Proof.
  intros [H [n Hn]]. unfold mk_ring, mk_line. rewrite (line_points_uniform _ None n).
  - eexists; reflexivity.
  - now apply dedupe_fine.
  - rewrite Forall_forall in *. intros c Hc. apply Hn, dedupe_incl, Hc.
  - now left.
Qed.

Lemma mk_poly_fine s hs : ring_fine s -> Forall ring_fine hs -> exists g, mk_poly s hs = Ok g.
Proof.
  intros Hs Hh. unfold mk_poly. destruct (mk_ring_again _ Hs) as [s' ->]. cbn [bind].
  assert (exists r, map_res mk_ring hs = Ok r) as [r ->].
  { induction Hh as [|h hs H1 _ [r IH]]; [now exists []|]. destruct (mk_ring_again _ H1) as [h' E]. cbn [map_res]. rewrite E. cbn [bind]. rewrite IH. eexists; reflexivity. }
  eexists; reflexivity.
Qed.

Lemma create_multi_total gs : exists o, create_multigeometry gs = Ok o.
Proof.
  destruct gs as [|g gs]; [now exists None|]. unfold create_multigeometry. destruct (forallb _ (g :: gs)) eqn:E; [|eexists; reflexivity].
  assert (A : forall B (f : geo -> res B) l, (forall x, In x l -> exists y, f x = Ok y) -> exists r, map_res f l = Ok r).
  { intros B f l. induction l as [|x l IH]; intro H; [now exists []|]. destruct (H x) as [y Hy]; [now left|]. destruct IH as [r Hr]; [intros; apply H; now right|]. cbn [map_res]. rewrite Hy. cbn [bind]. rewrite Hr. eexists; reflexivity. }
  rewrite forallb_forall in E.
  assert (T : forall x, In x (g :: gs) -> geom_type x = geom_type g) by (intros x Hx; apply Nat.eqb_eq, E, Hx).
  destruct (geom_type g) as [|[|[|]]] eqn:Eg; try (eexists; reflexivity).
  - destruct (A _ point_of (g :: gs)) as [r ->]; [|eexists; reflexivity]. intros x Hx. apply T in Hx. destruct x; try discriminate Hx. eexists; reflexivity.
  - destruct (A _ line_of (g :: gs)) as [r ->]; [|eexists; reflexivity]. intros x Hx. apply T in Hx. destruct x; try discriminate Hx; eexists; reflexivity.
  - destruct (A _ poly_of (g :: gs)) as [r ->]; [|eexists; reflexivity]. intros x Hx. apply T in Hx. destruct x; try discriminate Hx. eexists; reflexivity.
Qed.

(** *** Truth values and geometries *)

Definition env_of (W : world) (attrs : list (string * value)) : list (string * attr_sem) :=
  map (fun av => match av with (a, x) => (a, (x, sem W x, match x with VList l => map (sem W) l | _ => [] end)) end) attrs.

Lemma env_get W attrs a : sget a (env_of W attrs) =
  match sget a attrs with Some x => Some (x, sem W x, match x with VList l => map (sem W) l | _ => [] end) | None => None end.
Proof. apply (sget_map (fun _ x => (x, sem W x, match x with VList l => map (sem W) l | _ => [] end))). Qed.

Lemma sem_obj W c ci ns nss attrs : class_of W c = Some ci ->
  py_bool W (VObj c ns nss attrs) = eval_bool (env_of W attrs) (geometry W (VObj c ns nss attrs)) (ci_bool ci) /\
  geometry W (VObj c ns nss attrs) = eval_geom (env_of W attrs) (eval_bool (env_of W attrs) no_geom (ci_bool ci)) (ci_geom ci).
Proof. intro Hc. unfold py_bool, geometry. cbn [sem]. rewrite Hc. split; reflexivity. Qed.

Fixpoint has_geometry (e : bexpr) : bool :=
  match e with BGeometry => true | BAnd x y | BOr x y => has_geometry x || has_geometry y | _ => false end.

(** All attributes the truth value looks at are set by the constructor. *)
Fixpoint bool_defined (ci : class_info) (e : bexpr) : bool :=
  match e with
  | BTrue | BGeometry => true
  | BAttr a | BNotNone a => match ckind_of ci a with Some _ => true | None => false end
  | BAny a => match ckind_of ci a with Some (CListTruthy | CListNotNone | CFilter) => true | _ => false end
  | BAnd x y | BOr x y => bool_defined ci x && bool_defined ci y
  end.

Definition ring_classes : list string := ["geometry.LinearRing"; "geometry.BoundaryIs"; "geometry.OuterBoundaryIs"; "geometry.InnerBoundaryIs"].
Definition geom_classes : list string := ["geometry.Point"; "geometry.LineString"; "geometry.Polygon"; "geometry.MultiGeometry"].

Definition bools_ok (W : world) : bool :=
  forallb (fun cc => bool_defined (snd cc) (ci_bool (snd cc)) &&
    (negb (has_geometry (ci_bool (snd cc))) || mem (fst cc) (ring_classes ++ geom_classes))) (w_classes W).

Lemma fastkml_bools arrow : bools_ok (fastkml arrow) = true.
Proof. vm_compute. reflexivity. Qed.

Section Sem.
  Variable arrow : ustr -> option datetime.
  Local Notation W := (fastkml arrow).

  Definition btotal (v : value) : Prop := exists b, py_bool W v = Ok b.
  Definition gtotal (v : value) : Prop := forall c ns nss attrs, v = VObj c ns nss attrs ->
    (mem c ring_classes = true -> exists o, geometry W v = Ok o /\ forall g, o = Some g -> exists r, g = GRing r /\ ring_fine r) /\
    (mem c geom_classes = true -> exists o, geometry W v = Ok o).
  Definition total (v : value) : Prop := btotal v /\ gtotal v.

  Lemma any_true_total l : Forall total l -> exists b, any_true (map fst (map (sem W) l)) = Ok b.
  Proof.
    induction 1 as [|x l [[b Hb] _] _ [b' IH]]; [now exists false|]. cbn [map any_true]. unfold py_bool in Hb. rewrite Hb. cbn [bind]. destruct b; [now exists true|]. now exists b'.
  Qed.

  Section Object.
    Variables (c : string) (ci : class_info) (ns : ustr) (nss : nss_t) (attrs : list (string * value)).
    Hypothesis Hc : class_of W c = Some ci.
    Hypothesis Ht : typed_node W c ns nss attrs = true.
    Hypothesis Hsub : forall a x, sget a attrs = Some x -> vall (typed_node W) x = true /\ fine x = true /\ total x /\ Forall total (members x).

    Let F : class_facts W ci (items_of W c) := world_class _ _ _ (fastkml_ok arrow) Hc.

    Lemma o_shape : shape_ok ci attrs = true /\ forallb (attr_typed W ci (items_of W c)) attrs = true.
    Proof. unfold typed_node in Ht. rewrite Hc in Ht. now apply andb_prop in Ht. Qed.

    Lemma o_present a k : ckind_of ci a = Some k -> exists x, sget a attrs = Some x /\
      match k with CListTruthy | CListNotNone | CFilter => exists l, x = VList l | _ => True end.
    Proof.
      intro Hk. destruct (ctor_present ci attrs (proj1 o_shape) a k) as [x Hx]; [now apply sget_In|]. exists x. split; [exact Hx|].
      apply sget_In in Hx. assert (H := proj2 o_shape). rewrite forallb_forall in H. specialize (H _ Hx). unfold attr_typed in H. rewrite Hk in H. apply andb_prop in H as [_ H].
      destruct k; try exact I; destruct x; try discriminate H; eexists; reflexivity.
    Qed.

    Lemma o_typed a x it : sget a attrs = Some x -> find_item a (items_of W c) = Some it -> item_typed W it x = true.
    Proof.
      intros Hx Hf. apply sget_In in Hx. assert (H := proj2 o_shape). rewrite forallb_forall in H. specialize (H _ Hx). unfold attr_typed in H. rewrite Hf in H. now apply andb_prop in H.
    Qed.

    Lemma eval_bool_total g e : bool_defined ci e = true -> (has_geometry e = true -> exists o, g = Ok o) ->
      exists b, eval_bool (env_of W attrs) g e = Ok b.
    Proof.
      induction e as [|a|a|a| |x IHx y IHy|x IHx y IHy]; intros Hd Hg; cbn [bool_defined has_geometry eval_bool] in *.
      - eexists; reflexivity.
      - destruct (ckind_of ci a) as [k|] eqn:Ek; [|discriminate]. destruct (o_present a k Ek) as [x [Hx _]]. unfold with_attr. rewrite env_get, Hx.
        destruct (Hsub _ _ Hx) as [_ [_ [[[b Hb] _] _]]]. exists b. exact Hb.
      - destruct (ckind_of ci a) as [k|] eqn:Ek; [|discriminate]. destruct (o_present a k Ek) as [x [Hx _]]. unfold with_attr. rewrite env_get, Hx. eexists; reflexivity.
      - destruct (ckind_of ci a) as [k|] eqn:Ek; [|discriminate]. destruct (o_present a k Ek) as [x [Hx Hl]]. unfold with_attr. rewrite env_get, Hx. cbn [a_val a_list fst snd].
        assert (exists l, x = VList l) as [l ->] by (destruct k; try discriminate Hd; exact Hl).
        destruct (Hsub _ _ Hx) as [_ [_ [_ Hm]]]. now apply any_true_total.
      - destruct (Hg eq_refl) as [o ->]. cbn [bind]. eexists; reflexivity.
      - apply andb_prop in Hd as [H1 H2]. destruct (IHx H1) as [b ->]; [intro E; apply Hg; now rewrite E|]. cbn [bind]. destruct b; [|now exists false].
        apply (IHy H2). intro E. apply Hg. rewrite E. now rewrite orb_true_r.
      - apply andb_prop in Hd as [H1 H2]. destruct (IHx H1) as [b ->]; [intro E; apply Hg; now rewrite E|]. cbn [bind]. destruct b; [now exists true|].
        apply (IHy H2). intro E. apply Hg. rewrite E. now rewrite orb_true_r.
    Qed.
  End Object.

  (** The [coords] of a [Coordinates] object. *)
  Lemma coordinates_object ns nss attrs : typed_node W "geometry.Coordinates" ns nss attrs = true -> coords_fine attrs = true ->
    py_bool W (VObj "geometry.Coordinates" ns nss attrs) = Ok false \/
    exists l, py_bool W (VObj "geometry.Coordinates" ns nss attrs) = Ok true /\ coords_of (VObj "geometry.Coordinates" ns nss attrs) = Ok l /\ l <> [] /\ forallb tuple_fine l = true.
  Proof.
    intros Ht Hf. assert (Hc : class_of W "geometry.Coordinates" = Some cl_geometry_Coordinates) by reflexivity.
    destruct (o_present _ _ _ _ _ Hc Ht "coords" CCoordsOr eq_refl) as [x [Hx _]].
    assert (Hi : exists it, find_item "coords" (items_of W "geometry.Coordinates") = Some it /\ it_set it = SCoords) by (eexists; split; vm_compute; reflexivity). destruct Hi as [it [Hi Hs]].
    assert (Hy := o_typed _ _ _ _ _ Hc Ht _ _ _ Hx Hi). unfold item_typed in Hy. rewrite Hs in Hy.
    destruct (sem_obj W _ _ ns nss attrs Hc) as [-> _]. cbn [cl_geometry_Coordinates ci_bool eval_bool]. unfold with_attr. rewrite env_get, Hx. unfold a_bool. cbn [fst snd].
    unfold coords_fine in Hf. rewrite Hx in Hf. cbn [coords_of]. rewrite Hx.
    destruct x as [ | | | | | | |b l| | | | ]; try discriminate Hy; cbn [sem fst].
    - now left.
    - destruct l as [|p l]; [now left|]. right. exists (p :: l). repeat split; [discriminate|exact Hf].
  Qed.

  Section Geometry.
    Variables (c : string) (ci : class_info) (ns : ustr) (nss : nss_t) (attrs : list (string * value)).
    Hypothesis Hc : class_of W c = Some ci.
    Hypothesis Ht : typed_node W c ns nss attrs = true.
    Hypothesis Hsub : forall a x, sget a attrs = Some x -> vall (typed_node W) x = true /\ fine x = true /\ total x /\ Forall total (members x).

    Lemma coords_geometry_cases f it : ckind_of ci "kml_coordinates" = Some CRaw -> find_item "kml_coordinates" (items_of W c) = Some it ->
      it_set it = SObj -> it_classes it = ["geometry.Coordinates"] ->
      coords_geometry (env_of W attrs) f = Ok None \/ exists l, coords_geometry (env_of W attrs) f = f l /\ l <> [] /\ forallb tuple_fine l = true.
    Proof.
      intros Hk Hi Hs Hcl. destruct (o_present _ _ _ _ _ Hc Ht _ _ Hk) as [x [Hx _]]. assert (Hy := o_typed _ _ _ _ _ Hc Ht _ _ _ Hx Hi).
      unfold coords_geometry, with_attr. rewrite env_get, Hx. unfold a_bool, a_val. cbn [fst snd]. change (fst (sem W x)) with (py_bool W x).
      unfold item_typed in Hy. rewrite Hs, Hcl in Hy. destruct (Hsub _ _ Hx) as [Hx1 [Hx2 _]].
      destruct x as [ | | | | | | | | | | |c' ns' nss' at']; try discriminate Hy; [now left|].
      assert (c' = "geometry.Coordinates") as ->. { apply mem_In in Hy. destruct Hy as [<-|[]]; reflexivity. }
      unfold fine in Hx2. cbn [vall] in Hx1, Hx2. apply andb_prop in Hx1 as [Hx1 _]. apply andb_prop in Hx2 as [Hx2 _].
      destruct (coordinates_object _ _ _ Hx1 Hx2) as [->|[l [-> [-> [Hl Hf]]]]]; cbn [bind]; [now left|]. right. exists l. repeat split; assumption.
    Qed.

    Lemma obj_of_class a it x c' : find_item a (items_of W c) = Some it -> it_set it = SObj -> it_classes it = [c'] -> sget a attrs = Some x ->
      x = VNone \/ exists n m at_, x = VObj c' n m at_.
    Proof.
      intros Hi Hs Hcl Hx. assert (Hy := o_typed _ _ _ _ _ Hc Ht _ _ _ Hx Hi). unfold item_typed in Hy. rewrite Hs, Hcl in Hy.
      destruct x; try discriminate Hy; [now left|]. right. apply mem_In in Hy. destruct Hy as [->|[]]. eauto.
    Qed.

    Lemma point_total : ci = cl_geometry_Point -> c = "geometry.Point" -> exists o, geometry W (VObj c ns nss attrs) = Ok o.
    Proof.
      assert (CG := coords_geometry_cases). assert (OC := obj_of_class). intros -> ->. destruct (sem_obj W _ _ ns nss attrs Hc) as [_ ->]. cbn [cl_geometry_Point ci_geom eval_geom].
      edestruct CG as [->|[l [-> [Hl Hf]]]]; [vm_compute; reflexivity|vm_compute; reflexivity|reflexivity|reflexivity|eexists; reflexivity|].
      destruct l as [|p l]; [congruence|]. cbn [forallb] in Hf. apply andb_prop in Hf as [Hf _]. destruct (tuple_point _ Hf) as [-> _]. eexists; reflexivity.
    Qed.

    Lemma line_total : ci = cl_geometry_LineString -> c = "geometry.LineString" -> exists o, geometry W (VObj c ns nss attrs) = Ok o.
    Proof.
      assert (CG := coords_geometry_cases). assert (OC := obj_of_class). intros -> ->. destruct (sem_obj W _ _ ns nss attrs Hc) as [_ ->]. cbn [cl_geometry_LineString ci_geom eval_geom].
      edestruct CG as [->|[l [-> [Hl Hf]]]]; [vm_compute; reflexivity|vm_compute; reflexivity|reflexivity|reflexivity|eexists; reflexivity|].
      destruct (mk_line_fine l Hf) as [->|[r [-> _]]]; eexists; reflexivity.
    Qed.

    Definition ring_result (v : value) : Prop := exists o, geometry W v = Ok o /\ forall g, o = Some g -> exists r, g = GRing r /\ ring_fine r.

    Lemma ring_total : ci = cl_geometry_LinearRing -> c = "geometry.LinearRing" -> ring_result (VObj c ns nss attrs).
    Proof.
      assert (CG := coords_geometry_cases). assert (OC := obj_of_class). intros -> ->. unfold ring_result. destruct (sem_obj W _ _ ns nss attrs Hc) as [_ ->]. cbn [cl_geometry_LinearRing ci_geom eval_geom].
      edestruct CG as [->|[l [-> [Hl Hf]]]]; [vm_compute; reflexivity|vm_compute; reflexivity|reflexivity|reflexivity| |].
      - eexists. split; [reflexivity|discriminate].
      - destruct (mk_ring_fine l Hf) as [->|[r [-> Hr]]]; cbn [bind catch_dimension]; eexists; (split; [reflexivity|]); [discriminate|]. intros g E. injection E as <-. eauto.
    Qed.

    Lemma boundary_total it : ci_geom ci = GkBoundary -> ckind_of ci "kml_geometry" = Some CRaw -> find_item "kml_geometry" (items_of W c) = Some it ->
      it_set it = SObj -> it_classes it = ["geometry.LinearRing"] -> ring_result (VObj c ns nss attrs).
    Proof.
      intros Hg Hk Hi Hs Hcl. unfold ring_result. destruct (sem_obj W _ _ ns nss attrs Hc) as [_ ->]. rewrite Hg. cbn [eval_geom].
      destruct (o_present _ _ _ _ _ Hc Ht _ _ Hk) as [x [Hx _]]. unfold with_attr. rewrite env_get, Hx. unfold a_bool, a_geom. cbn [fst snd].
      destruct (Hsub _ _ Hx) as [_ [_ [[[b Hb] Hgx] _]]]. unfold py_bool in Hb. rewrite Hb. cbn [bind].
      destruct (obj_of_class _ _ _ _ Hi Hs Hcl Hx) as [->|[n [m [at_ ->]]]].
      - injection Hb as <-. eexists. split; [reflexivity|discriminate].
      - destruct b; [|eexists; split; [reflexivity|discriminate]]. exact (proj1 (Hgx _ _ _ _ eq_refl) eq_refl).
    Qed.

    Lemma polygon_total : ci = cl_geometry_Polygon -> c = "geometry.Polygon" -> exists o, geometry W (VObj c ns nss attrs) = Ok o.
    Proof.
      assert (CG := coords_geometry_cases). assert (OC := obj_of_class). intros -> ->. destruct (sem_obj W _ _ ns nss attrs Hc) as [_ ->]. cbn [cl_geometry_Polygon ci_geom eval_geom].
      destruct (o_present _ _ _ _ _ Hc Ht "outer_boundary" CRaw eq_refl) as [x [Hx _]]. destruct (o_present _ _ _ _ _ Hc Ht "inner_boundaries" CListTruthy eq_refl) as [y [Hy [l ->]]].
      unfold with_attr at 1. rewrite env_get, Hx. unfold a_bool, a_geom. cbn [fst snd].
      destruct (Hsub _ _ Hx) as [_ [_ [[[b Hb] Hgx] _]]]. assert (Hb' := Hb). unfold py_bool in Hb. rewrite Hb. cbn [bind]. destruct b; [|eexists; reflexivity].
      assert (Hxc : x = VNone \/ exists n m at_, x = VObj "geometry.OuterBoundaryIs" n m at_) by (eapply (OC "outer_boundary"); [vm_compute; reflexivity|reflexivity|reflexivity|exact Hx]).
      destruct Hxc as [->|[n [m [at_ ->]]]]; [discriminate Hb|].
      destruct (proj1 (Hgx _ _ _ _ eq_refl) eq_refl) as [o [Ho Hr]]. unfold geometry in Ho. rewrite Ho. cbn [bind].
      assert (Hout : class_of W "geometry.OuterBoundaryIs" = Some cl_geometry_OuterBoundaryIs) by reflexivity.
      destruct (sem_obj W _ _ n m at_ Hout) as [Eb _]. cbn [cl_geometry_OuterBoundaryIs ci_bool eval_bool] in Eb. rewrite Hb' in Eb. unfold geometry in Eb. rewrite Ho in Eb. cbn [bind] in Eb.
      destruct o as [g|]; [|discriminate Eb]. destruct (Hr g eq_refl) as [r [-> Hrf]]. cbn [line_of bind].
      unfold with_attr. rewrite env_get, Hy. unfold a_list. cbn [snd].
      assert (Hl : Forall (fun z => ring_result z) l).
      { destruct (Hsub _ _ Hy) as [Hty [_ [_ Hm]]]. cbn [members] in Hm.
        assert (Hi : exists it, find_item "inner_boundaries" (items_of W "geometry.Polygon") = Some it /\ it_set it = SObjs /\ it_classes it = ["geometry.InnerBoundaryIs"]) by (eexists; repeat split; vm_compute; reflexivity).
        destruct Hi as [it [Hi [Hs Hcl]]]. assert (Hyt := o_typed _ _ _ _ _ Hc Ht _ _ _ Hy Hi). unfold item_typed in Hyt. rewrite Hs, Hcl in Hyt. rewrite forallb_forall in Hyt.
        rewrite Forall_forall in *. intros z Hz. specialize (Hyt z Hz). destruct z; try discriminate Hyt. apply mem_In in Hyt. destruct Hyt as [<-|[]]. exact (proj1 (proj2 (Hm _ Hz) _ _ _ _ eq_refl) eq_refl). }
      assert (exists gs, some_geoms (map snd (map (sem W) l)) = Ok gs /\ Forall (fun g => exists r, g = GRing r /\ ring_fine r) gs) as [gs [-> Hgs]].
      { clear -Hl. induction Hl as [|z l [o [Hz Hr]] _ [gs [IH1 IH2]]]; [exists []; split; [reflexivity|constructor]|]. cbn [map some_geoms]. unfold geometry in Hz. rewrite Hz. cbn [bind]. rewrite IH1. cbn [bind].
        eexists. split; [reflexivity|]. destruct o as [g|]; [|exact IH2]. constructor; [exact (Hr g eq_refl)|exact IH2]. }
      cbn [bind].
      assert (exists hs, map_res line_of gs = Ok hs /\ Forall ring_fine hs) as [hs [-> Hh]].
      { clear -Hgs. induction Hgs as [|g gs [r [-> Hr]] _ [hs [IH1 IH2]]]; [exists []; split; [reflexivity|constructor]|]. cbn [map_res line_of bind]. rewrite IH1. cbn [bind]. eexists. split; [reflexivity|]. now constructor. }
      cbn [bind]. destruct (mk_poly_fine r hs Hrf Hh) as [g ->]. eexists; reflexivity.
    Qed.

    Lemma multi_total : ci = cl_geometry_MultiGeometry -> c = "geometry.MultiGeometry" -> exists o, geometry W (VObj c ns nss attrs) = Ok o.
    Proof.
      assert (CG := coords_geometry_cases). assert (OC := obj_of_class). intros -> ->. destruct (sem_obj W _ _ ns nss attrs Hc) as [_ ->]. cbn [cl_geometry_MultiGeometry ci_geom eval_geom].
      destruct (o_present _ _ _ _ _ Hc Ht "kml_geometries" CListTruthy eq_refl) as [y [Hy [l ->]]].
      unfold with_attr. rewrite env_get, Hy. unfold a_list. cbn [snd].
      assert (Hl : Forall (fun z => exists o, geometry W z = Ok o) l).
      { destruct (Hsub _ _ Hy) as [Hty [_ [_ Hm]]]. cbn [members] in Hm.
        assert (Hi : exists it, find_item "kml_geometries" (items_of W "geometry.MultiGeometry") = Some it /\ it_set it = SObjs /\
          it_classes it = ["geometry.Point"; "geometry.LineString"; "geometry.Polygon"; "geometry.LinearRing"; "geometry.MultiGeometry"]) by (eexists; repeat split; vm_compute; reflexivity).
        destruct Hi as [it [Hi [Hs Hcl]]]. assert (Hyt := o_typed _ _ _ _ _ Hc Ht _ _ _ Hy Hi). unfold item_typed in Hyt. rewrite Hs, Hcl in Hyt. rewrite forallb_forall in Hyt.
        rewrite Forall_forall in *. intros z Hz. specialize (Hyt z Hz). destruct z; try discriminate Hyt. apply mem_In in Hyt. destruct (Hm _ Hz) as [_ Hg]. specialize (Hg _ _ _ _ eq_refl).
        destruct Hyt as [<-|[<-|[<-|[<-|[<-|[]]]]]]; try exact (proj2 Hg eq_refl). destruct (proj1 Hg eq_refl) as [o [Ho _]]. eauto. }
      assert (exists gs, truthy_geoms (map snd (map (sem W) l)) = Ok gs) as [gs ->].
      { clear -Hl. induction Hl as [|z l [o Hz] _ [gs IH]]; [now exists []|]. cbn [map truthy_geoms]. unfold geometry in Hz. rewrite Hz. cbn [bind]. rewrite IH. cbn [bind]. eexists; reflexivity. }
      apply create_multi_total.
    Qed.
  End Geometry.

  (** Truth values never raise on typed objects with sane coordinates. *)
  Theorem sem_total v : vall (typed_node W) v = true -> fine v = true -> total v /\ Forall total (members v).
  Proof.
    induction v as [ | | | | | | | | | |l IH|c ns nss attrs IH] using value_ind'; intros Ht Hf;
      try (split; [split; [eexists; reflexivity|intros ? ? ? ? E; discriminate E]|constructor]).
    - split; [split; [eexists; reflexivity|intros ? ? ? ? E; discriminate E]|]. cbn [members]. unfold fine in Hf. cbn [vall] in Ht, Hf. rewrite forallb_forall in Ht, Hf. rewrite Forall_forall in *.
      intros x Hx. exact (proj1 (IH x Hx (Ht x Hx) (Hf x Hx))).
    - split; [|constructor]. unfold fine in Hf. cbn [vall] in Ht, Hf. apply andb_prop in Ht as [Ht Hts]. apply andb_prop in Hf as [Hf Hfs].
      assert (Hsub : forall a x, sget a attrs = Some x -> vall (typed_node W) x = true /\ fine x = true /\ total x /\ Forall total (members x)).
      { intros a x Hx. apply sget_In in Hx. rewrite forallb_forall in Hts, Hfs. rewrite Forall_forall in IH. split; [exact (Hts _ Hx)|]. split; [exact (Hfs _ Hx)|]. exact (IH _ Hx (Hts _ Hx) (Hfs _ Hx)). }
      destruct (class_of W c) as [ci|] eqn:Hc; [|unfold typed_node in Ht; rewrite Hc in Ht; discriminate].
      assert (G : gtotal (VObj c ns nss attrs)).
      { intros c' ns' nss' attrs' E. injection E as <- <- <- <-. split; intro Hm; apply mem_In in Hm; unfold ring_classes, geom_classes in Hm; cbn [In] in Hm.
        - assert (Bd : forall c0 ci0, c = c0 -> class_of W c0 = Some ci0 -> ci_geom ci0 = GkBoundary -> ckind_of ci0 "kml_geometry" = Some CRaw ->
            (exists it, find_item "kml_geometry" (items_of W c0) = Some it /\ it_set it = SObj /\ it_classes it = ["geometry.LinearRing"]) -> ring_result (VObj c ns nss attrs)).
          { intros c0 ci0 <- E1 E2 E3 [it [E4 [E5 E6]]]. eapply boundary_total; eassumption. }
          destruct Hm as [<-|[<-|[<-|[<-|[]]]]].
          + eapply ring_total; try eassumption; [|reflexivity]. vm_compute in Hc. now injection Hc as <-.
          + eapply Bd; [reflexivity|vm_compute; reflexivity|reflexivity|reflexivity|eexists; repeat split; vm_compute; reflexivity].
          + eapply Bd; [reflexivity|vm_compute; reflexivity|reflexivity|reflexivity|eexists; repeat split; vm_compute; reflexivity].
          + eapply Bd; [reflexivity|vm_compute; reflexivity|reflexivity|reflexivity|eexists; repeat split; vm_compute; reflexivity].
        - destruct Hm as [<-|[<-|[<-|[<-|[]]]]].
          + eapply point_total; try eassumption; [|reflexivity]. vm_compute in Hc. now injection Hc as <-.
          + eapply line_total; try eassumption; [|reflexivity]. vm_compute in Hc. now injection Hc as <-.
          + eapply polygon_total; try eassumption; [|reflexivity]. vm_compute in Hc. now injection Hc as <-.
          + eapply multi_total; try eassumption; [|reflexivity]. vm_compute in Hc. now injection Hc as <-. }
      split; [|exact G]. unfold btotal. destruct (sem_obj W _ _ ns nss attrs Hc) as [-> _].
      assert (Hb := fastkml_bools arrow). unfold bools_ok in Hb. rewrite forallb_forall in Hb. specialize (Hb _ (sget_In _ _ _ Hc)). cbn [fst snd] in Hb. apply andb_prop in Hb as [Hb1 Hb2].
      eapply eval_bool_total; try eassumption. intro Hg. rewrite Hg in Hb2. cbn [negb orb] in Hb2. apply mem_In in Hb2. apply in_app_or in Hb2 as [Hm|Hm]; apply mem_In in Hm.
      + destruct (proj1 (G _ _ _ _ eq_refl) Hm) as [o [Ho _]]. eauto.
      + exact (proj2 (G _ _ _ _ eq_refl) Hm).
  Qed.
End Sem.

(** *** Writing *)

(** Registered defaults can be printed; the list items have no default (but
    those of a track, which are never absent). *)
Definition defaults_print (W : world) : bool :=
  forallb (fun cc => forallb (fun it =>
    value_prints None (it_default it) &&
    match it_set it with
    | SDates | SCoordList => is_none (it_default it) || (is_track (snd cc) && mem (it_attr it) track_attrs)
    | _ => true
    end) (items_of W (fst cc))) (w_classes W).

Lemma fastkml_defaults_print arrow : defaults_print (fastkml arrow) = true.
Proof. vm_compute. reflexivity. Qed.

Lemma small_int_prints z : small_int z = true -> exists t, str_of_int z = Ok t.
Proof. unfold small_int, str_of_int. intro H. apply N.leb_le in H. destruct (N.ltb_spec int_max_str_digits (N.of_nat (length (digits_of (Z.abs z))))); [lia|]. eexists; reflexivity. Qed.

Lemma num_value_prints prec n : value_prints prec (VNum n) = true -> exists t, num_str n = Ok t.
Proof. destruct n as [z|f]; cbn [value_prints num_str]; intro H; [now apply small_int_prints|eexists; reflexivity]. Qed.

Lemma map_res_total {A B} (f : A -> res B) l : (forall x, In x l -> exists y, f x = Ok y) -> exists r, map_res f l = Ok r.
Proof.
  induction l as [|x l IH]; intro H; [now exists []|]. destruct (H x) as [y Hy]; [now left|]. destruct IH as [r Hr]; [intros; apply H; now right|]. cbn [map_res]. rewrite Hy. cbn [bind]. rewrite Hr. eexists; reflexivity.
Qed.

Lemma join_nums_total sep prec c : forallb (num_prints prec) c = true -> exists t, join_nums sep prec c = Ok t.
Proof.
  intro H. unfold join_nums. destruct (map_res_total (num_text prec) c) as [r ->]; [|eexists; reflexivity]. intros n Hn. rewrite forallb_forall in H. specialize (H _ Hn). unfold num_prints in H. destruct (num_text prec n); [eauto|discriminate].
Qed.

Lemma text_kids_total l : (forall x, In x l -> exists y, x = Ok y) -> exists ks, text_kids l = Ok ks.
Proof. intro H. apply map_res_total. intros x Hx. destruct (H x Hx) as [y ->]. eexists; reflexivity. Qed.

(** Only the attribute [coords] is written as coordinates text. *)
Definition scoords_named (W : world) : bool :=
  forallb (fun cc => forallb (fun it => match it_set it with SCoords => String.eqb (it_attr it) "coords" | _ => true end) (items_of W (fst cc))) (w_classes W).

Lemma fastkml_scoords arrow : scoords_named (fastkml arrow) = true.
Proof. vm_compute. reflexivity. Qed.

Lemma scoords_attr arrow c ci it : class_of (fastkml arrow) c = Some ci -> In it (items_of (fastkml arrow) c) -> it_set it = SCoords -> it_attr it = "coords".
Proof.
  intros Hc Hin Hs. assert (H := fastkml_scoords arrow). unfold scoords_named in H. rewrite forallb_forall in H. specialize (H _ (sget_In _ _ _ Hc)). cbn [fst] in H. rewrite forallb_forall in H. specialize (H _ Hin). rewrite Hs in H. now apply seqb_eq.
Qed.

Section Write.
  Variable arrow : ustr -> option datetime.
  Local Notation W := (fastkml arrow).
  Variables (prec : option nat) (vb : verbosity).

  Definition writes (v : value) : Prop := match v with VObj _ _ _ _ => exists e, etree W prec vb v = Ok e | _ => True end.

  Section Object.
    Variables (c : string) (ci : class_info) (ns : ustr) (nss : nss_t) (attrs : list (string * value)).
    Hypothesis Hc : class_of W c = Some ci.
    Hypothesis Ht : typed_node W c ns nss attrs = true.
    Hypothesis Hf : coords_fine attrs = true.
    Hypothesis Hp : forallb (fun ax => value_prints prec (snd ax)) attrs = true.
    Hypothesis Hsub : forall a x, sget a attrs = Some x -> total arrow x /\ Forall (total arrow) (members x) /\ writes x /\ Forall writes (members x).

    Let F : class_facts W ci (items_of W c) := world_class _ _ _ (fastkml_ok arrow) Hc.

    Lemma attr_prints a x : sget a attrs = Some x -> value_prints prec x = true.
    Proof. intro H. apply sget_In in H. rewrite forallb_forall in Hp. exact (Hp _ H). Qed.

    Lemma obj_cases it : In it (items_of W c) ->
      sget (it_attr it) attrs = Some (obj_attr ci attrs (it_attr it)) /\ (is_track ci && mem (it_attr it) track_attrs) = false \/
      sget (it_attr it) attrs = None /\ obj_attr ci attrs (it_attr it) = VNone /\ (is_track ci && mem (it_attr it) track_attrs) = false \/
      it_set it = SDates /\ (exists l, obj_attr ci attrs (it_attr it) = VDates l) \/
      it_set it = SCoordList /\ (exists l, obj_attr ci attrs (it_attr it) = VCoords true l /\ forallb (forallb (num_prints prec)) l = true).
    Proof.
      intro Hin. assert (Hfi := find_item_NoDup _ _ (cf_attrs _ _ _ F) Hin). assert (Hto := cf_track _ _ _ F). unfold track_ok in Hto.
      destruct (o_shape _ _ _ _ _ _ Hc Ht) as [Hsh Hat].
      destruct (is_track ci && mem (it_attr it) track_attrs) eqn:Etr.
      - apply andb_prop in Etr as [Etr Em]. rewrite Etr in Hto. rewrite !andb_true_iff in Hto. destruct Hto as [[[[[T1 T2] T3] T4] T5] T6].
        right. right. assert (Hnone : sget (it_attr it) attrs = None).
        { apply sget_None. intro Hk. destruct (shape_inv _ _ Hsh) as [xs [E [_ Hx]]]. rewrite E in Hk. rewrite forallb_forall in T6. apply mem_In in Em. specialize (T6 _ Em). apply andb_prop in T6 as [T6 T7].
          apply negb_true_iff in T7. assert (Hno : ~ In (it_attr it) (map fst (ctor_attrs ci))).
          { intro Hi. apply in_map_iff in Hi as [ak [Ea Hi]]. assert (existsb (fun ak => String.eqb (it_attr it) (fst ak)) (ctor_attrs ci) = true); [|congruence]. apply existsb_exists. exists ak. split; [exact Hi|]. apply seqb_eq. congruence. }
          unfold ctor_attrs in Hno. rewrite map_app in Hno. apply in_app_or in Hk as [Hk|Hk]; [apply Hno, in_or_app; now left|]. apply in_app_or in Hk as [Hk|Hk]; [|apply Hno, in_or_app; now right].
          apply Hx in Hk. congruence. }
        apply existsb_exists in T1 as [[a k] [Hak T1]]. cbn [fst snd] in T1. apply andb_prop in T1 as [Ta Tk]. apply seqb_eq in Ta. subst a. destruct k; try discriminate Tk.
        destruct (ctor_present ci attrs Hsh _ _ Hak) as [x Hx]. assert (exists l, x = VItems l) as [l ->].
        { assert (Hxi := sget_In _ _ _ Hx). rewrite forallb_forall in Hat. specialize (Hat _ Hxi). unfold attr_typed in Hat. rewrite (ctor_get _ _ _ F _ _ Hak) in Hat. apply andb_prop in Hat as [_ Hat]. destruct x; try discriminate Hat. eauto. }
        assert (Hpi := attr_prints _ _ Hx). cbn [value_prints] in Hpi. rewrite forallb_forall in Hpi.
        unfold obj_attr. rewrite Hnone. unfold is_track in Etr. destruct (ci_geom ci); try discriminate Etr. rewrite Hx.
        apply find_setter in T2 as [i2 [F2 S2]]. apply find_setter in T3 as [i3 [F3 S3]]. apply find_setter in T4 as [i4 [F4 S4]].
        apply mem_In in Em. destruct Em as [E|[E|[E|[]]]]; rewrite <- E in *.
        + left. assert (it = i2) by congruence. subst. split; [exact S2|]. eexists; reflexivity.
        + right. assert (it = i3) by congruence. subst. split; [exact S3|]. eexists. split; [reflexivity|]. rewrite forallb_forall. intros q Hq. apply in_map_iff in Hq as [i [<- Hi]]. apply filter_In in Hi as [Hi _]. specialize (Hpi _ Hi). now apply andb_prop in Hpi.
        + right. assert (it = i4) by congruence. subst. split; [exact S4|]. eexists. split; [reflexivity|]. rewrite forallb_forall. intros q Hq. apply in_concat in Hq as [r [Hr Hq]]. apply in_map_iff in Hr as [i [<- Hi]]. specialize (Hpi _ Hi). apply andb_prop in Hpi as [_ Hpi]. destruct (ti_angle i); [|contradiction]. destruct Hq as [<-|[]]. exact Hpi.
      - unfold obj_attr. destruct (sget (it_attr it) attrs) as [y|] eqn:Ey; [left; auto|]. right. left. split; [reflexivity|]. split; [|reflexivity].
        unfold is_track in Etr. destruct (ci_geom ci); try reflexivity. cbn [andb] in Etr. unfold track_attrs, mem in Etr. cbn [existsb] in Etr. rewrite !orb_false_iff in Etr. destruct Etr as [-> [-> [-> _]]].
        destruct (sget "track_items" attrs) as [[]|]; reflexivity.
    Qed.

    Lemma get_value_cases v d : get_value vb v d = v \/ get_value vb v d = VNone \/ get_value vb v d = d /\ v = VNone.
    Proof. destruct vb; cbn [get_value]; [destruct (scalar_eq v d); auto|auto|]. destruct v; cbn [is_none andb]; auto. destruct (is_none d); auto. Qed.

    Definition not_scalar (s : setter) : bool := match s with SDates | SCoordList | SCoords | SObj | SObjs => true | _ => false end.

    Lemma default_facts it : In it (items_of W c) -> value_prints None (it_default it) = true /\
      match it_set it with SDates | SCoordList => is_none (it_default it) || (is_track ci && mem (it_attr it) track_attrs) = true | _ => True end.
    Proof.
      intro Hin. assert (D := fastkml_defaults_print arrow). unfold defaults_print in D. rewrite forallb_forall in D. specialize (D _ (sget_In _ _ _ Hc)). cbn [fst snd] in D. rewrite forallb_forall in D. specialize (D _ Hin).
      apply andb_prop in D as [D1 D2]. split; [exact D1|]. destruct (it_set it); try exact I; exact D2.
    Qed.

    Lemma scalar_value it : In it (items_of W c) -> not_scalar (it_set it) = false ->
      let v := get_value vb (obj_attr ci attrs (it_attr it)) (it_default it) in
      item_typed W it v = true /\ match v with VNum n => exists t, num_str n = Ok t | _ => True end.
    Proof.
      intros Hin Hs. assert (Hd : item_typed W it (it_default it) = true).
      { assert (H := cf_items _ _ _ F it Hin). unfold item_ok in H. rewrite !andb_true_iff in H. destruct H as [[_ H] _]. unfold default_ok in H. destruct (it_set it); try discriminate Hs; now apply andb_prop in H. }
      destruct (default_facts it Hin) as [Hpd _]. cbv zeta.
      assert (H0 : item_typed W it (obj_attr ci attrs (it_attr it)) = true /\ match obj_attr ci attrs (it_attr it) with VNum n => exists t, num_str n = Ok t | _ => True end).
      { destruct (obj_cases it Hin) as [[E _]|[[_ [-> _]]|[[E _]|[E _]]]].
        - split; [exact (o_typed _ _ _ _ _ _ Hc Ht _ _ _ E (find_item_NoDup _ _ (cf_attrs _ _ _ F) Hin))|]. apply attr_prints in E. destruct (obj_attr _ _ _); try exact I. exact (num_value_prints _ _ E).
        - split; [|exact I]. unfold item_typed. now destruct (it_set it).
        - rewrite E in Hs. discriminate.
        - rewrite E in Hs. discriminate. }
      destruct (get_value_cases (obj_attr ci attrs (it_attr it)) (it_default it)) as [->|[->|[-> _]]].
      - exact H0.
      - split; [|exact I]. unfold item_typed. now destruct (it_set it).
      - split; [exact Hd|]. destruct (it_default it); try exact I. exact (num_value_prints _ _ Hpd).
    Qed.

    Lemma objs_total l : Forall (total arrow) l -> Forall writes l -> forallb (fun x => match x with VObj _ _ _ _ => true | _ => false end) l = true ->
      exists ks, objs_kids W (map (fun y => (y, etree W prec vb y)) l) = Ok ks.
    Proof.
      induction l as [|x l IH]; intros H1 H2 H3; [now exists []|]. inversion H1 as [|? ? [[b Hb] _] H1']; subst. inversion H2 as [|? ? Hw H2']; subst. cbn [forallb] in H3. apply andb_prop in H3 as [H3 H4].
      destruct (IH H1' H2' H4) as [ks IH']. cbn [map objs_kids]. rewrite Hb. cbn [bind]. destruct b; [|eauto]. destruct x; try discriminate H3. destruct Hw as [e ->]. cbn [bind]. rewrite IH'. eexists; reflexivity.
    Qed.

    Lemma emit_total it : In it (items_of W c) -> exists m, emit W prec vb ci ns nss attrs (ws_of W prec vb attrs) it = Ok m.
    Proof.
      intro Hin. destruct (not_scalar (it_set it)) eqn:Es.
      - destruct (default_facts it Hin) as [_ Hd]. assert (Hfi := find_item_NoDup _ _ (cf_attrs _ _ _ F) Hin). unfold emit. destruct (it_set it) eqn:Eset; try discriminate Es.
        + destruct (obj_cases it Hin) as [[E Et]|[[_ [-> Et]]|[[_ [l ->]]|[E _]]]]; [| | |congruence].
          * rewrite Et, orb_false_r in Hd. assert (Hy := o_typed _ _ _ _ _ _ Hc Ht _ _ _ E Hfi). unfold item_typed in Hy. rewrite Eset in Hy.
            destruct (get_value_cases (obj_attr ci attrs (it_attr it)) (it_default it)) as [->|[->|[-> _]]]; [|eexists; reflexivity|destruct (it_default it); try discriminate Hd; eexists; reflexivity].
            destruct (obj_attr ci attrs (it_attr it)) as [ | | | | | | | |l| | | ]; try discriminate Hy; [eexists; reflexivity|].
            edestruct text_kids_total as [ks ->]; [|eexists; reflexivity]. intros x Hx. apply in_map_iff in Hx as [o [<- _]]. eexists; reflexivity.
          * rewrite Et, orb_false_r in Hd. destruct (it_default it); try discriminate Hd. destruct vb; eexists; reflexivity.
          * assert (E : get_value vb (VDates l) (it_default it) = VDates l \/ get_value vb (VDates l) (it_default it) = VNone) by (destruct (get_value_cases (VDates l) (it_default it)) as [?|[?|[_ ?]]]; [auto|auto|discriminate]).
            destruct E as [->| ->]; [|eexists; reflexivity]. edestruct text_kids_total as [ks ->]; [|eexists; reflexivity]. intros x Hx. apply in_map_iff in Hx as [o [<- _]]. eexists; reflexivity.
        + assert (T : forall b l, forallb (forallb (num_prints prec)) l = true -> exists m, (match VCoords b l with
              | VNone => Ok em0 | VCoords _ l => let! ks := text_kids (map (fun c => let! t := join_nums (u " ") prec c in Ok ((ns ++ u (it_node it))%list, t)) l) in Ok (em_kids ks) | _ => Err ETypeError end) = Ok m).
          { intros b l Hl. edestruct text_kids_total as [ks ->]; [|eexists; reflexivity]. intros x Hx. apply in_map_iff in Hx as [q [<- Hq]]. rewrite forallb_forall in Hl. destruct (join_nums_total (u " ") prec q (Hl _ Hq)) as [t ->]. eexists; reflexivity. }
          destruct (obj_cases it Hin) as [[E Et]|[[_ [-> Et]]|[[E _]|[_ [l [-> Hl]]]]]]; [| |congruence|].
          * rewrite Et, orb_false_r in Hd. assert (Hy := o_typed _ _ _ _ _ _ Hc Ht _ _ _ E Hfi). unfold item_typed in Hy. rewrite Eset in Hy. assert (Hpr := attr_prints _ _ E).
            destruct (get_value_cases (obj_attr ci attrs (it_attr it)) (it_default it)) as [->|[->|[-> _]]]; [|eexists; reflexivity|destruct (it_default it); try discriminate Hd; eexists; reflexivity].
            destruct (obj_attr ci attrs (it_attr it)); try discriminate Hy; [eexists; reflexivity|]. exact (T tup l Hpr).
          * rewrite Et, orb_false_r in Hd. destruct (it_default it); try discriminate Hd. destruct vb; eexists; reflexivity.
          * destruct (get_value_cases (VCoords true l) (it_default it)) as [->|[->|[_ ?]]]; [exact (T true l Hl)|eexists; reflexivity|discriminate].
        + destruct (obj_cases it Hin) as [[E Et]|[[_ [-> Et]]|[[E _]|[E _]]]]; [|eexists; reflexivity|congruence|congruence].
          assert (Hy := o_typed _ _ _ _ _ _ Hc Ht _ _ _ E Hfi). unfold item_typed in Hy. rewrite Eset in Hy. assert (Hpr := attr_prints _ _ E).
          destruct (obj_attr ci attrs (it_attr it)) as [ | | | | | | |b l| | | | ] eqn:Eo; try discriminate Hy; [eexists; reflexivity|].
          destruct (nilb l) eqn:En; [eexists; reflexivity|]. unfold coordinates_text.
          assert (dims_ok l = true) as ->.
          { assert (Ha : it_attr it = "coords"). { assert (G := scoords_attr arrow c ci it Hc Hin Eset). exact G. } rewrite Ha in E. unfold coords_fine in Hf. rewrite E in Hf. destruct l as [|q l]; [discriminate|]. cbn [forallb] in Hf. apply andb_prop in Hf as [Hf _]. unfold tuple_fine in Hf. apply andb_prop in Hf as [Hf _]. exact Hf. }
          destruct (map_res_total (join_nums (u ",") prec) l) as [ts ->]; [|eexists; reflexivity]. intros q Hq. apply join_nums_total. cbn [value_prints] in Hpr. rewrite forallb_forall in Hpr. exact (Hpr _ Hq).
        + destruct (obj_cases it Hin) as [[E Et]|[[_ [-> Et]]|[[E _]|[E _]]]]; [|eexists; reflexivity|congruence|congruence].
          assert (Hy := o_typed _ _ _ _ _ _ Hc Ht _ _ _ E Hfi). unfold item_typed in Hy. rewrite Eset in Hy. destruct (Hsub _ _ E) as [[[b Hb] _] [_ [Hw _]]]. rewrite sget_ws_of, E, Hb. cbn [bind w_attr]. destruct b; [|eexists; reflexivity].
          destruct (obj_attr ci attrs (it_attr it)); try discriminate Hy; [discriminate Hb|]. destruct Hw as [e ->]. eexists; reflexivity.
        + rewrite sget_ws_of. destruct (sget (it_attr it) attrs) as [x|] eqn:E; [|eexists; reflexivity]. cbn [w_attr].
          assert (Hy := o_typed _ _ _ _ _ _ Hc Ht _ _ _ E Hfi). unfold item_typed in Hy. rewrite Eset in Hy. destruct (Hsub _ _ E) as [_ [Hm [_ Hw]]].
          destruct x as [ | | | | | | | | | |l| ]; try discriminate Hy; [eexists; reflexivity|]. destruct (objs_total l Hm Hw) as [ks ->]; [|eexists; reflexivity].
          rewrite forallb_forall in *. intros y Hyin. specialize (Hy _ Hyin). now destruct y.
      - destruct (scalar_value it Hin Es) as [H1 H2]. unfold emit. unfold item_typed in H1.
        destruct (it_set it); try discriminate Es; destruct (get_value vb (obj_attr ci attrs (it_attr it)) (it_default it)) as [ |b|[z|f]| | | | | | | | | ]; try discriminate H1; try (eexists; reflexivity);
          destruct H2 as [t Ht2]; cbn [str_value]; rewrite Ht2; eexists; reflexivity.
    Qed.

    Lemma object_writes : exists e, etree W prec vb (VObj c ns nss attrs) = Ok e.
    Proof.
      assert (ET := emit_total). assert (Hroot := cf_root _ _ _ F). clear F. rewrite etree_obj. unfold write_with. rewrite Hc. unfold root_ok in Hroot. destruct (ci_root ci) eqn:Eroot.
      - destruct (items_of W c) as [|it [|]] eqn:Eits; try discriminate Hroot. apply andb_prop in Hroot as [Ra Rs]. apply seqb_eq in Ra.
        assert (Es : it_set it = SObjs) by (destruct (it_set it); try discriminate Rs; reflexivity).
        destruct (ET it) as [m Hm]; [now left|]. rewrite set_element_emit. unfold emit in *. rewrite Es, Ra in Hm. cbn [root_item it_set it_attr]. rewrite Hm. eexists; reflexivity.
      - rewrite set_elements_emit. destruct (map_res_total (emit W prec vb ci ns nss attrs (ws_of W prec vb attrs)) (items_of W c)) as [ms ->]; [|eexists; reflexivity]. intros it Hit. now apply ET.
    Qed.
  End Object.

  Theorem write_total v : vall (typed_node W) v = true -> fine v = true -> prints prec v = true -> writes v /\ Forall writes (members v).
  Proof.
    induction v as [ | | | | | | | | | |l IH|c ns nss attrs IH] using value_ind'; intros Ht Hf Hp; try (split; [exact I|constructor]).
    - split; [exact I|]. cbn [members]. unfold fine, prints in *. cbn [vall] in *. rewrite forallb_forall in *. rewrite Forall_forall in *. intros x Hx. exact (proj1 (IH x Hx (Ht x Hx) (Hf x Hx) (Hp x Hx))).
    - split; [|constructor]. assert (Ht' := Ht). assert (Hf' := Hf). unfold fine, prints in *. cbn [vall] in Ht, Hf, Hp. apply andb_prop in Ht as [Ht Hts]. apply andb_prop in Hf as [Hf Hfs]. apply andb_prop in Hp as [Hp Hps].
      destruct (class_of W c) as [ci|] eqn:Hc; [|unfold typed_node in Ht; rewrite Hc in Ht; discriminate].
      eapply object_writes; try eassumption. intros a x Hx. apply sget_In in Hx. rewrite forallb_forall in Hts, Hfs, Hps. rewrite Forall_forall in IH.
      destruct (sem_total arrow x (Hts _ Hx) (Hfs _ Hx)) as [S1 S2]. destruct (IH _ Hx (Hts _ Hx) (Hfs _ Hx) (Hps _ Hx)) as [S3 S4]. auto.
  Qed.
End Write.

(** ** Everything inside an object that was read was itself read *)

Theorem read_vall W strict (P : string -> ustr -> nss_t -> list (string * value) -> bool) : world_ok W = true ->
  (forall e c ns nss nss' attrs, from_element W strict e c ns nss = Ok (VObj c ns nss' attrs) -> P c ns nss' attrs = true) ->
  forall e c ns nss v, from_element W strict e c ns nss = Ok v -> vall P v = true.
Proof.
  intros HW HP. induction e as [tg at_ tx kids IH] using elem_ind'. intros c ns nss v H. assert (H0 := H).
  cbn [from_element] in H. unfold read_with in H. cbv zeta in H. set (nss1 := merge_ns nss) in *.
  assert (Hm : merge_ns nss1 = nss1) by apply merge_ns_idem.
  apply bind_ok in H as [kws [Hk H]].
  destruct (class_of W c) as [ci|] eqn:Hc; [|unfold construct in H; rewrite Hc in H; discriminate].
  assert (F := world_class _ _ _ HW Hc).
  set (ks := map (fun k => (k, from_element W strict k)) kids) in *.
  assert (Hkids : Forall (kid_ok (fun y => vall P y = true)) ks).
  { unfold ks. clear -IH HW. induction IH as [|k kids Hk Hkids IHk]; [constructor|]. cbn. constructor; [|exact IHk]. intros c' ns' nss' v' Hv. cbn [snd] in Hv. split; [exact (Hk _ _ _ _ Hv)|]. exact (proj2 (reader_inv _ _ _ HW _ _ _ _ Hv)). }
  destruct (get_kwargs_inv W strict (items_of W c) at_ tx ks nss1 [] kws) as [r [-> Hr]]; [exact (cf_attrs _ _ _ F)|exact Hk|].
  cbn [app] in H.
  assert (Hio : forall it, In it (items_of W c) -> item_ok W it = true) by exact (cf_items _ _ _ F).
  assert (Hobj1 : forall it id ids v, In it (items_of W c) -> is_objs it = true -> it_nsids it = id :: ids -> r it = Some v ->
     get_kwarg W strict it at_ tx ks (ns_get nss1 id) nss1 = Ok (Some v)).
  { intros it id ids w Hit Ho Hids Hw. specialize (Hr it Hit). rewrite Hids, Hw in Hr. cbn [try_nsids] in Hr. apply bind_ok in Hr as [o [Ho1 Hr]].
    destruct o as [w'|]; [congruence|]. exfalso. specialize (Hio it Hit). unfold item_ok in Hio. rewrite !andb_true_iff in Hio. destruct Hio as [[[Hp _] _] _].
    unfold is_objs in Ho. unfold get_kwarg in Ho1. destruct (it_set it); try discriminate Ho. destruct (it_get it); try discriminate Hp.
    apply bind_ok in Ho1 as [l [_ E]]. discriminate. }
  destruct (construct_typed W HW (fun y => vall P y = true) c ci nss1 r Hc) with (ns := ns) (nss0 := nss1) (v := v) as [attrs [-> [_ [_ [_ Hch]]]]].
  - intros it w Hit Hw. specialize (Hio it Hit).
    assert (Hnd : NoDup (item_names W it)) by (eapply item_names_nodup; [exact Hit|exact (cf_names _ _ _ F)]).
    destruct (is_objs it) eqn:Ho.
    + assert (Hne : it_nsids it <> []).
      { unfold item_ok in Hio. rewrite !andb_true_iff in Hio. destruct Hio as [_ Hcl]. unfold classes_ok in Hcl. unfold is_objs in Ho.
        destruct (it_set it); try discriminate Ho. apply andb_prop in Hcl as [_ Hcl]. now destruct (it_nsids it). }
      destruct (it_nsids it) as [|id ids] eqn:Hids; [congruence|]. exists id. split; [now left|]. split; [reflexivity|].
      eapply get_kwarg_ok; eauto.
    + assert (Hr1 := Hr it Hit). rewrite Hw in Hr1. apply try_nsids_some in Hr1 as [id [Hid Hg]]. exists id. split; [exact Hid|]. split; [discriminate|].
      eapply get_kwarg_ok; eauto.
  - intros it Hit Ho. specialize (Hio it Hit). unfold item_ok in Hio. rewrite !andb_true_iff in Hio. destruct Hio as [[[Hp _] _] Hcl].
    assert (Ho' := Ho). unfold is_objs in Ho. unfold classes_ok in Hcl. destruct (it_set it) eqn:Es; try discriminate Ho.
    apply andb_prop in Hcl as [_ Hcl]. destruct (it_nsids it) as [|id ids] eqn:Hids; [discriminate|].
    specialize (Hr it Hit). rewrite Hids in Hr. cbn [try_nsids] in Hr. apply bind_ok in Hr as [o [Ho1 Hr]].
    destruct o as [w|]; [injection Hr as <-; eauto|]. exfalso. unfold get_kwarg in Ho1. destruct (it_get it); try discriminate Hp.
    apply bind_ok in Ho1 as [l [_ E]]. discriminate.
  - exact Hm.
  - exact H.
  - cbn [vall]. rewrite (HP _ _ _ _ _ _ H0). cbn [andb]. apply forallb_forall. intros [a x] Hax. specialize (Hch a x Hax). unfold child_ok in Hch.
    destruct x; try reflexivity; [|exact Hch]. cbn [vall]. apply forallb_forall. exact Hch.
Qed.

(** ** Integers that were read can be printed *)

Lemma digits_val_bound d : forallb is_adigit d = true -> (0 <= digits_val d < 10 ^ Z.of_nat (length d))%Z.
Proof.
  unfold digits_val. intro H. assert (A : forall d acc k, forallb is_adigit d = true -> (0 <= acc < 10 ^ Z.of_nat k)%Z ->
    (0 <= fold_left (fun acc c => 10 * acc + (Z.of_N c - 48))%Z d acc < 10 ^ Z.of_nat (k + length d))%Z).
  { clear d H. induction d as [|x d IH]; intros acc k H Ha; cbn [fold_left length].
    - now rewrite Nat.add_0_r.
    - cbn [forallb] in H. apply andb_prop in H as [Hx H]. replace (k + S (length d))%nat with (S k + length d)%nat by lia. apply IH; [exact H|].
      unfold is_adigit in Hx. apply andb_prop in Hx as [H1 H2]. apply N.leb_le in H1, H2. rewrite Nat2Z.inj_succ, Z.pow_succ_r by lia. lia. }
  apply (A d 0%Z 0%nat H). cbn. lia.
Qed.

Lemma int_of_str_small s z : int_of_str s = Ok z -> small_int z = true.
Proof.
  unfold int_of_str. destruct (take_sign _) as [neg d]. destruct (no_underscores false d) as [d'|]; [|discriminate]. destruct (negb (uempty d') && forallb is_adigit d') eqn:E; [|discriminate].
  apply andb_prop in E as [_ E]. destruct (N.ltb_spec int_max_str_digits (N.of_nat (length d'))) as [|Hl]; [discriminate|]. intro H. injection H as <-. apply small_int_bound.
  assert (B := digits_val_bound d' E). assert (10 ^ Z.of_nat (length d') <= 10 ^ 4300)%Z by (apply Z.pow_le_mono_r; [lia|]; unfold int_max_str_digits in Hl; lia).
  remember (10 ^ 4300)%Z as b eqn:Eb. clear Eb. destruct neg; lia.
Qed.

Theorem read_prints W strict prec e c ns nss v : world_ok W = true -> from_element W strict e c ns nss = Ok v -> prints prec v = true.
Proof.
  intros HW. apply read_vall; [exact HW|]. clear e c ns nss v. intros [tg at_ tx kids] c ns nss nss' attrs H.
  destruct (reader_inv _ _ _ HW _ _ _ _ H) as [[Ty [Se _]] _]. cbn [vall] in Ty. unfold settled_with in Se. cbn [vall] in Se. apply andb_prop in Ty as [Ty _]. apply andb_prop in Se as [Se _].
  destruct (read_attrs _ _ _ _ _ _ _ _ _ _ HW H) as [ci [r [attrs' [Hc [E [Hr [Hk Ha]]]]]]]. injection E as _ <-. unfold typed_node in Ty. unfold settled_node in Se. rewrite Hc in Ty, Se. apply andb_prop in Ty as [Sh Ty]. apply andb_prop in Se as [Se _].
  assert (F := world_class _ _ _ HW Hc). rewrite forallb_forall in *. intros [a x] Hax. specialize (Ty _ Hax). specialize (Se _ Hax). cbn [snd]. unfold attr_typed in Ty. unfold settled_attr in Se. apply andb_prop in Ty as [Ty _].
  assert (FL : forall q, forallb is_float q = true -> forallb (num_prints prec) q = true).
  { intros q Hq. rewrite forallb_forall in *. intros n Hn. specialize (Hq _ Hn). destruct n; [discriminate|]. apply float_prints. }
  destruct (find_item a (items_of W c)) as [it|] eqn:Ef.
  - unfold item_typed in Ty. unfold settled_item in Se. destruct x as [ | |[z|f]| | | | |b l| |l| | ]; try reflexivity.
    + cbn [value_prints]. destruct (find_item_In _ _ _ Ef) as [Hit Ea].
      assert (Hint : it_set it = SInt \/ it_set it = SAttrInt) by (destruct (it_set it); try discriminate Ty; try discriminate Se; auto).
      assert (Hri : r it = Some (VNum (NInt z))).
      { specialize (Ha a). destruct (ckind_of ci a) as [k|] eqn:Ek.
        - destruct Ha as [y [Hy Hg]]. assert (y = VNum (NInt z)) as -> by (destruct (shape_inv _ _ Sh) as [? [_ [Hnd _]]]; rewrite (sget_NoDup _ _ _ Hnd Hax) in Hg; congruence).
          destruct (cf_kind _ _ _ F (a, k)) as [Hkk _]; [now apply sget_In|]. cbn [fst snd] in Hkk. rewrite Ef in Hkk. assert (k = CRaw) as ->.
          { unfold ckind_ok in Hkk. destruct Hint as [E|E]; rewrite E in Hkk; destruct k; try discriminate Hkk; reflexivity. }
          unfold mk_attr in Hy. cbn [bind] in Hy. injection Hy as Hy. rewrite Hk, Ef in Hy. destruct (r it); [congruence|discriminate].
        - assert (sget a attrs = Some (VNum (NInt z))) as E by (destruct (shape_inv _ _ Sh) as [? [_ [Hnd _]]]; exact (sget_NoDup _ _ _ Hnd Hax)). rewrite E in Ha. destruct (mem a (ci_params ci)); [discriminate|]. now rewrite Ef in Ha. }
      assert (Hg := Hr it Hit). rewrite Hri in Hg. apply try_nsids_some in Hg as [id [_ Hg]].
      assert (Hio := cf_items _ _ _ F it Hit). unfold item_ok in Hio. rewrite !andb_true_iff in Hio. destruct Hio as [[[Hpr _] _] _].
      unfold get_kwarg in Hg. destruct Hint as [E|E]; rewrite E in Hpr; destruct (it_get it); try discriminate Hpr.
      * destruct (find_kid _ _) as [k|]; [|discriminate]. destruct (stripped _) as [t|]; [|discriminate]. apply guarded_some in Hg. apply bind_ok in Hg as [z' [Hz Hg]]. injection Hg as <-. exact (int_of_str_small _ _ Hz).
      * destruct (uget _ _) as [t|]; [|discriminate]. destruct (uempty t); [discriminate|]. apply bind_ok in Hg as [z' [Hz Hg]]. injection Hg as <-. exact (int_of_str_small _ _ Hz).
    + cbn [value_prints]. assert (G : forallb (forallb is_float) l = true).
      { destruct (it_set it); try discriminate Ty; destruct b; try discriminate Se.
        - apply andb_prop in Se as [_ Se]. rewrite forallb_forall in *. intros q Hq. specialize (Se _ Hq). unfold point_settled in Se. now apply andb_prop in Se.
        - destruct (nilb l) eqn:En; [now destruct l|]. rewrite forallb_forall in *. intros q Hq. specialize (Se _ Hq). unfold point_settled in Se. now apply andb_prop in Se. }
      rewrite forallb_forall in *. intros q Hq. apply FL, G, Hq.
    + destruct (it_set it); discriminate Ty.
  - destruct (ckind_of ci a) as [[]|]; destruct x; try discriminate Se; try reflexivity. cbn [value_prints]. rewrite forallb_forall in *. intros i Hi. specialize (Se _ Hi). unfold titem_settled in Se. apply andb_prop in Se as [S1 S2].
    rewrite (FL _ S1). destruct (ti_angle i); [exact (FL _ S2)|reflexivity].
Qed.
