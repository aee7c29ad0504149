(** * Verbosity: C12, C13. *)
From Coq Require Import String List NArith ZArith Bool Lia.
From Verif Require Import Ustr UstrProofs Res PyInt PyFloat PyDate Elem Value Geom Codec Tables Spec Settled Agree FastkmlOk
  EmitProofs ItemProofs RoundTrip SettledProofs ReaderTyped Generations Effective VerbosityProofs ReadProofs Samples.
Import ListNotations.
Local Open Scope string_scope.

(** The registered defaults of the library survive being written and read, and
    no truth value that filters a list depends on an attribute with a default. *)
Lemma fastkml_defaults arrow : world_defaults (fastkml arrow) = true.
Proof. vm_compute. reflexivity. Qed.

Lemma rt_readable W v : rt_ok W v = true -> readable W v = true.
Proof.
  unfold rt_ok, readable. induction v as [ | | | | | | | | | |l IH|c ns nss attrs IH] using value_ind'; intro H; try exact H.
  - cbn [vall] in *. rewrite forallb_forall in *. rewrite Forall_forall in IH. auto.
  - cbn [vall] in *. apply andb_prop in H as [H1 H2]. apply andb_true_intro. split.
    + unfold rt_node in H1. destruct (class_of W c); [|discriminate]. rewrite !andb_true_iff in H1. now destruct H1 as [[_ H1] _].
    + rewrite forallb_forall in *. rewrite Forall_forall in IH. intros [a x] Hx. exact (IH _ Hx (H2 _ Hx)).
Qed.

(** ** C12 *)

(** Whatever the verbosity (and the precision): what is written can be read,
    and every attribute of the result, at every depth, has the effective value
    (the attribute, or the registered default when it is absent) it has when
    written with normal verbosity. *)
Theorem C12_same_effective_values :
  forall arrow strict prec vb c ns nss attrs e e0,
  let W := fastkml arrow in
  let v := VObj c ns nss attrs in
  typed W v = true -> rt_ok W v = true ->
  etree W prec vb v = Ok e -> etree W prec Normal v = Ok e0 ->
  exists x x0, from_element W strict e c ns nss = Ok x /\ from_element W strict e0 c ns nss = Ok x0 /\ alike W x x0.
Proof.
  intros arrow strict prec vb c ns nss attrs e e0 W v Ht Hr He He0. exists (norm W prec vb v), (norm W prec Normal v).
  split; [apply roundtrip; [exact (fastkml_ok arrow)|assumption..]|]. split; [apply roundtrip; [exact (fastkml_ok arrow)|assumption..]|].
  apply alike_norm; [exact (fastkml_ok arrow)|exact (fastkml_defaults arrow)|exact Ht|]. now apply rt_readable.
Qed.
Print Assumptions C12_same_effective_values.

(** The element has a text, an XML attribute or a child for the item, in
    whatever name space. *)
Definition shown (it : item) (e : elem) : Prop :=
  match it_set it with
  | SNodeText | SCoords => e_text e <> None
  | SAttrText | SAttrInt | SAttrFloat | SAttrEnum =>
      exists n t, good_ns n = true /\ uget (n ++ u (it_node it))%list (e_attrib e) = Some t
  | _ => exists n, good_ns n = true /\ with_tag (n ++ u (it_node it))%list (e_kids e) <> []
  end.

(** Terse output has nothing for an attribute that equals its default. *)
Theorem C12_terse_omits_defaults :
  forall arrow prec c ns nss attrs e ci it,
  let W := fastkml arrow in
  let v := VObj c ns nss attrs in
  typed W v = true -> rt_ok W v = true -> class_of W c = Some ci -> In it (items_of W c) ->
  scalar_set (it_set it) = true -> scalar_eq (obj_attr ci attrs (it_attr it)) (it_default it) = true ->
  etree W prec Terse v = Ok e -> ~ shown it e.
Proof.
  intros arrow prec c ns nss attrs e ci it W v Ht Hr Hc Hin Hs Hd He.
  assert (F := world_class _ _ _ (fastkml_ok arrow) Hc : class_facts W ci (items_of W c)).
  assert (Hroot : ci_root ci = false).
  { assert (R := cf_root _ _ _ F). unfold root_ok in R. destruct (ci_root ci); [|reflexivity]. destruct (items_of W c) as [|i [|]]; try discriminate R.
    destruct Hin as [<-|[]]. apply andb_prop in R as [_ R]. destruct (it_set i); discriminate. }
  destruct (etree_items W prec Terse (fastkml_ok arrow) c ci ns nss attrs e Ht Hr Hc He it Hin) as [m [Hm [_ [Hk [Ha Hx]]]]].
  assert (E : m = em0).
  { unfold emit in Hm. cbn [get_value] in Hm. rewrite Hd in Hm. destruct (it_set it); try discriminate Hs; now injection Hm as <-. }
  subst m. intro H. unfold shown in H. unfold item_names in Hk. unfold item_attrs in Ha. unfold item_texts in Hx.
  destruct (it_set it); try discriminate Hs; try (rewrite (Hx eq_refl) in H; now apply H).
  all: try (destruct H as [n [Hn H]]; apply H; unfold with_tag; now rewrite (Hk n (it_node it) Hn (or_introl eq_refl))).
  all: destruct H as [n [t [Hn H]]]; rewrite (Ha Hroot eq_refl n Hn) in H; discriminate.
Qed.
Print Assumptions C12_terse_omits_defaults.

Definition blank (v : value) : bool := match v with VStr s => uempty s | _ => false end.

Lemma defaults_shown arrow :
  forallb (fun cc => forallb (fun it => negb (blank (it_default it))) (items_of (fastkml arrow) (fst cc))) (w_classes (fastkml arrow)) = true.
Proof. vm_compute. reflexivity. Qed.

(** Verbose output has something for every attribute with a default, unless the
    attribute is the empty text. *)
Theorem C12_verbose_shows_defaults :
  forall arrow prec c ns nss attrs e ci it,
  let W := fastkml arrow in
  let v := VObj c ns nss attrs in
  typed W v = true -> rt_ok W v = true -> class_of W c = Some ci -> In it (items_of W c) ->
  scalar_set (it_set it) = true -> is_none (it_default it) = false -> blank (obj_attr ci attrs (it_attr it)) = false ->
  etree W prec Verbose v = Ok e -> shown it e.
Proof.
  intros arrow prec c ns nss attrs e ci it W v Ht Hr Hc Hin Hs Hd Hb He.
  assert (F := world_class _ _ _ (fastkml_ok arrow) Hc : class_facts W ci (items_of W c)).
  assert (Hroot : ci_root ci = false).
  { assert (R := cf_root _ _ _ F). unfold root_ok in R. destruct (ci_root ci); [|reflexivity]. destruct (items_of W c) as [|i [|]]; try discriminate R.
    destruct Hin as [<-|[]]. apply andb_prop in R as [_ R]. destruct (it_set i); discriminate. }
  assert (Hgn : good_ns ns = true /\ good_ns (date_ns nss) = true /\ forall ec em, good_ns (enum_ns W ns nss ec em) = true).
  { unfold rt_ok in Hr. cbn [vall v] in Hr. apply andb_prop in Hr as [Hr _]. unfold rt_node in Hr. rewrite Hc in Hr. rewrite !andb_true_iff in Hr. destruct Hr as [[[R1 R2] _] _].
    split; [exact R1|]. unfold nss_ok in R2. apply andb_prop in R2 as [_ R2]. split; [apply ns_get_good; exact R2|].
    intros ec em. unfold enum_ns. destruct (sget ec (w_enums W)); [|exact R1]. destruct (uget em _) as [[]|]; [now apply ns_get_good|exact R1..]. }
  destruct Hgn as [G1 [G2 G3]].
  destruct (etree_items W prec Verbose (fastkml_ok arrow) c ci ns nss attrs e Ht Hr Hc He it Hin) as [m [Hm [_ [Hk [Ha Hx]]]]].
  assert (Bd : blank (it_default it) = false).
  { assert (B := defaults_shown arrow). unfold class_of in Hc. rewrite forallb_forall in B. specialize (B _ (sget_In _ _ _ Hc)). cbn [fst] in B. rewrite forallb_forall in B. specialize (B _ Hin). now apply negb_true_iff in B. }
  unfold emit in Hm. set (x := obj_attr ci attrs (it_attr it)) in *. cbn [get_value] in Hm.
  set (y := if is_none x && negb (is_none (it_default it)) then it_default it else x) in *.
  assert (Hy : is_none y = false /\ blank y = false).
  { unfold y. rewrite Hd. cbn [negb]. rewrite andb_true_r. destruct (is_none x) eqn:Ex; [now split|]. now rewrite Ex. }
  destruct Hy as [Y1 Y2]. clearbody y.
  assert (Shown : forall n t, good_ns n = true -> m = em_kid (n ++ u (it_node it))%list t -> item_names W it = [it_node it] -> exists n, good_ns n = true /\ with_tag (n ++ u (it_node it))%list (e_kids e) <> []).
  { intros n t Hn -> Hi. exists n. split; [exact Hn|]. unfold with_tag. rewrite (Hk n (it_node it) Hn); [|rewrite Hi; now left]. cbn [em_kid m_kids filter text_elem e_tag]. rewrite ueqb_refl. discriminate. }
  assert (ShownA : forall t, m = em_attr (u (it_node it)) t -> item_attrs it = [it_node it] -> exists n t, good_ns n = true /\ uget (n ++ u (it_node it))%list (e_attrib e) = Some t).
  { intros t -> Hi. exists [], t. split; [reflexivity|]. rewrite (Ha Hroot Hi [] eq_refl). cbn. now rewrite ueqb_refl. }
  unfold shown. unfold item_names in Shown. unfold item_attrs in ShownA. unfold item_texts in Hx.
  destruct (it_set it); try discriminate Hs; destruct y as [ |b|[z|f]|s|ec em|dk|pc|tu cl|ds|il|vl|oc on onn oa]; try discriminate Y1; try discriminate Hm.
  all: cbn [blank] in Y2; try rewrite Y2 in Hm; try (apply bind_ok in Hm as [t [_ Hm]]); injection Hm as <-.
  all: try (rewrite (Hx eq_refl); discriminate).
  all: try (eapply Shown; [|reflexivity|reflexivity]; auto; fail).
  all: eapply ShownA; reflexivity.
Qed.
Print Assumptions C12_verbose_shows_defaults.

(** The same verbosity and precision are used for every sub-object, so the two
    statements above hold at every depth. *)
Theorem C12_verbosity_below :
  forall arrow prec vb c ns nss attrs e ci it y,
  let W := fastkml arrow in
  let v := VObj c ns nss attrs in
  typed W v = true -> rt_ok W v = true -> class_of W c = Some ci -> In it (items_of W c) ->
  etree W prec vb v = Ok e -> truth W y = true ->
  (it_set it = SObj /\ sget (it_attr it) attrs = Some y) \/
  (it_set it = SObjs /\ exists l, sget (it_attr it) attrs = Some (VList l) /\ In y l) ->
  exists k, etree W prec vb y = Ok k /\ In k (e_kids e).
Proof.
  intros arrow prec vb c ns nss attrs e ci it y W v Ht Hr Hc Hin He Hy H.
  destruct (etree_items W prec vb (fastkml_ok arrow) c ci ns nss attrs e Ht Hr Hc He it Hin) as [m [Hm [Hk _]]].
  unfold emit in Hm. destruct H as [[Es Hx]|[Es [l [Hx Hl]]]]; rewrite Es, sget_ws_of, Hx in Hm; unfold w_attr in Hm.
  - unfold obj_attr in Hm. rewrite Hx in Hm. unfold truth in Hy. destruct (py_bool W y) as [b|]; [|discriminate]. subst b. cbn [bind] in Hm.
    destruct (etree W prec vb y) as [k|]; [|discriminate]. cbn [bind] in Hm. injection Hm as <-. exists k. split; [reflexivity|]. apply Hk. now left.
  - apply bind_ok in Hm as [ks [Hks Hm]]. injection Hm as <-. cbn [em_kids m_kids] in Hk.
    assert (G : forall l ks, objs_kids W (map (fun y => (y, etree W prec vb y)) l) = Ok ks -> In y l -> exists k, etree W prec vb y = Ok k /\ In k ks).
    { clear -Hy. induction l as [|z l IH]; cbn [map objs_kids]; intros ks H Hin; [destruct Hin|]. apply bind_ok in H as [b [Hb H]]. destruct b.
      - apply bind_ok in H as [k [Hk H]]. apply bind_ok in H as [r [Hr H]]. injection H as <-. destruct Hin as [->|Hin]; [exists k; split; [exact Hk|now left]|].
        destruct (IH _ Hr Hin) as [k' [A B]]. exists k'. split; [exact A|now right].
      - destruct Hin as [->|Hin]; [unfold truth in Hy; now rewrite Hb in Hy|]. now apply IH. }
    destruct (G _ _ Hks Hl) as [k [A B]]. eauto.
Qed.
Print Assumptions C12_verbosity_below.

(** An overlay with some attributes at their defaults, some not and some
    absent. *)
Definition s_region : value := Eval vm_compute in
  mk "views.Region" [("lat_lon_alt_box", mk "views.LatLonAltBox" [("north", fl "2"); ("south", fl "1"); ("east", fl "4"); ("west", fl "3");
                        ("min_altitude", VInt 0); ("max_altitude", fl "10")]);
                     ("lod", mk "views.Lod" [("min_lod_pixels", VInt 128); ("max_lod_pixels", VInt (-1)); ("min_fade_extent", VInt 7)])].
Definition s_overlay : value := Eval vm_compute in
  mk "overlays.GroundOverlay" [("name", str "o"); ("visibility", VBool true); ("isopen", VBool true); ("color", str "ffffffff"); ("region", s_region)].

Example C12_example :
  exists attrs et ev en xt xn,
    s_overlay = VObj "overlays.GroundOverlay" KMLNS nss0 attrs /\ typed W0 s_overlay = true /\ rt_ok W0 s_overlay = true /\
    etree W0 None Terse s_overlay = Ok et /\ etree W0 None Verbose s_overlay = Ok ev /\ etree W0 None Normal s_overlay = Ok en /\
    map (fun x => length (e_kids x)) [et; en; ev] = [3; 5; 8]%nat /\
    from_element W0 true et "overlays.GroundOverlay" KMLNS nss0 = Ok xt /\
    from_element W0 true en "overlays.GroundOverlay" KMLNS nss0 = Ok xn /\ xt <> xn.
Proof.
  do 6 eexists. repeat (split; [vm_compute; reflexivity|]). vm_compute. discriminate.
Qed.

(** ** C13 *)

(** Terse output does not survive a second save: a [Lod] whose minimum has the
    default value 256 is written without it; the object read from that counts
    as empty (views.py:172-174), so the next save drops it, and with it the
    maximum of 1024, which is no default. *)
Definition s_terse_region : value := Eval vm_compute in
  mk "views.Region" [("lat_lon_alt_box", mk "views.LatLonAltBox" [("north", fl "2"); ("south", fl "1"); ("east", fl "4"); ("west", fl "3")]);
                     ("lod", mk "views.Lod" [("min_lod_pixels", VInt 256); ("max_lod_pixels", VInt 1024)])].

Definition attr_in (a : string) (v : value) : value :=
  match v with VObj _ _ _ attrs => match sget a attrs with Some x => x | None => VNone end | _ => VNone end.

Theorem C13_second_save_refuted :
  exists c ns nss attrs e v1 e1 v2,
    let v := VObj c ns nss attrs in
    typed W0 v = true /\ rt_ok W0 v = true /\ settled W0 v = true /\
    etree W0 None Terse v = Ok e /\ from_element W0 true e c ns nss = Ok v1 /\
    etree W0 None Normal v1 = Ok e1 /\ from_element W0 true e1 c ns nss = Ok v2 /\
    attr_in "max_lod_pixels" (attr_in "lod" v) = VInt 1024 /\
    attr_in "max_lod_pixels" (attr_in "lod" v1) = VInt 1024 /\
    attr_in "lod" v2 = VNone.
Proof.
  assert (E : s_terse_region = VObj "views.Region" KMLNS nss0 (match s_terse_region with VObj _ _ _ a => a | _ => [] end)) by (vm_compute; reflexivity).
  exists "views.Region", KMLNS, nss0, (match s_terse_region with VObj _ _ _ a => a | _ => [] end). do 4 eexists. cbv zeta. rewrite <- E.
  repeat (split; [vm_compute; reflexivity|]). vm_compute. reflexivity.
Qed.
Print Assumptions C13_second_save_refuted.

(** If nothing in the object that is read from the terse document counts as
    empty, the second save (normal verbosity) loses nothing: it is read back as
    the same object, whose effective values, at every depth, are those of the
    original. *)
Theorem C13_second_save_partial :
  forall arrow strict c ns nss attrs e e0 v1 e1,
  let W := fastkml arrow in
  let v := VObj c ns nss attrs in
  typed W v = true -> rt_ok W v = true ->
  etree W None Normal v = Ok e0 ->
  etree W None Terse v = Ok e -> from_element W strict e c ns nss = Ok v1 ->
  rt_ok W v1 = true -> settled W v1 = true -> etree W None Normal v1 = Ok e1 ->
  from_element W strict e1 c ns nss = Ok v1 /\
  exists v0, from_element W strict e0 c ns nss = Ok v0 /\ alike W v1 v0.
Proof.
  intros arrow strict c ns nss attrs e e0 v1 e1 W v Ht Hr He0 He Hv1 Hr1 Hs1 He1. split.
  - destruct (reader_inv W strict e (fastkml_ok arrow) _ _ _ _ Hv1) as [[T _] [attrs1 ->]].
    assert (Em : merge_ns nss = nss).
    { unfold rt_ok in Hr. cbn [vall v] in Hr. apply andb_prop in Hr as [Hr _]. unfold rt_node in Hr. destruct (class_of W c); [|discriminate].
      rewrite !andb_true_iff in Hr. destruct Hr as [[[_ R2] _] _]. unfold nss_ok in R2. apply andb_prop in R2 as [R2 _]. now apply pair_list_eq in R2. }
    rewrite Em in *. rewrite <- (settled_norm W _ (fastkml_ok arrow) T Hs1) at 1. apply roundtrip; [exact (fastkml_ok arrow)|assumption..].
  - destruct (C12_same_effective_values arrow strict None Terse c ns nss attrs e e0 Ht Hr He He0) as [x [x0 [A [B D]]]]. fold W v in A, B, D.
    exists x0. split; [exact B|]. rewrite Hv1 in A. now injection A as <-.
Qed.
Print Assumptions C13_second_save_partial.

Example C13_example :
  exists attrs e0 e v1 e1, s_overlay = VObj "overlays.GroundOverlay" KMLNS nss0 attrs /\
    typed W0 s_overlay = true /\ rt_ok W0 s_overlay = true /\ etree W0 None Normal s_overlay = Ok e0 /\
    etree W0 None Terse s_overlay = Ok e /\ from_element W0 true e "overlays.GroundOverlay" KMLNS nss0 = Ok v1 /\
    rt_ok W0 v1 = true /\ settled W0 v1 = true /\ etree W0 None Normal v1 = Ok e1 /\ e1 <> e0.
Proof. do 5 eexists. repeat (split; [vm_compute; reflexivity|]). vm_compute. discriminate. Qed.
