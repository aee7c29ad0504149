(** * Reading what was written gives an object with the same data. *)
From Coq Require Import String List NArith ZArith Bool Lia.
From Verif Require Import Ustr UstrProofs Res PyInt PyFloat PyNumProofs PyDate PyDateProofs Elem Value Geom Codec Spec Settled Same EmitProofs CodecProofs ReadProofs ItemProofs RoundTrip SettledProofs.
Import ListNotations.

Lemma point_norm_floats c : map to_float (point_norm None c) = map to_float c.
Proof. unfold point_norm. rewrite map_map. reflexivity. Qed.

Lemma point_norm_nil p c : nilb (point_norm p c) = nilb c.
Proof. now destruct c. Qed.

Lemma same_points_norm l : same_points l (map (point_norm None) (filter (fun c => negb (nilb c)) l)).
Proof.
  unfold same_points. induction l as [|c l IH]; [reflexivity|]. cbn [filter]. destruct (negb (nilb c)) eqn:E; [|exact IH].
  cbn [map filter]. rewrite point_norm_nil, E. cbn [map]. rewrite point_norm_floats. now f_equal.
Qed.

Lemma same_points_all l : same_points l (map (point_norm None) l).
Proof.
  unfold same_points. induction l as [|c l IH]; [reflexivity|]. cbn [map filter]. rewrite point_norm_nil. destruct (negb (nilb c)); [|exact IH].
  cbn [map]. rewrite point_norm_floats. now f_equal.
Qed.

Lemma filter_item_norm l : map ti_coord (filter item_coord_ok (map (titem_norm None) l)) = map (point_norm None) (map ti_coord (filter item_coord_ok l)).
Proof.
  induction l as [|i l IH]; [reflexivity|]. cbn [map filter].
  assert (E : item_coord_ok (titem_norm None i) = item_coord_ok i).
  { unfold item_coord_ok, geo_empty. cbn [titem_norm ti_coord]. unfold point_norm. now rewrite map_length. }
  rewrite E. destruct (item_coord_ok i); cbn [map]; now rewrite IH.
Qed.

Section Node.
  Variables (W : world) (c : string) (ci : class_info) (ns : ustr) (nss : nss_t) (attrs : list (string * value)).
  Hypothesis HW : world_ok W = true.
  Hypothesis Hc : class_of W c = Some ci.
  Hypothesis Hshape : shape_ok ci attrs = true.
  Hypothesis Hattrs : forallb (attr_typed W ci (items_of W c)) attrs = true.
  Hypothesis Hread : forallb (attr_readable ci) attrs = true.
  Notation N := (norm W None Normal).
  (** The members carry the same data. *)
  Hypothesis Hkids : forall a x, In (a, x) attrs ->
    match x with
    | VObj _ _ _ _ => same W x (N x)
    | VList l => forall y, In y l -> same W y (N y)
    | _ => True
    end.
  Notation its := (items_of W c).
  Notation F := (world_class _ _ _ HW Hc).
  Notation ms := (ns_of W None Normal attrs).
  Notation rb := (read_back W None Normal ci attrs ms).
  Notation attrs' := (nattrs W ci its attrs None Normal ms).

  Lemma norm_class_of y : match y with VObj c' ns' nss' _ => exists a, N y = VObj c' ns' nss' a | _ => N y = y end.
  Proof. destruct y; try reflexivity. rewrite norm_obj. unfold norm_with. destruct (class_of W cls); eauto. Qed.

  Lemma group_class cs l c' : NoDup cs -> forallb (is_obj_of cs) l = true ->
    filter (is_class c') (group W cs (map (fun y => (y, N y)) l)) = map N (filter (fun y => is_class c' y && truth W y) l).
  Proof.
    intros Hd Hl. unfold group.
    assert (K : forall d, map snd (filter (fun p : value * value => is_class d (fst p) && truth W (fst p)) (map (fun y => (y, N y)) l)) =
                map N (filter (fun y => is_class d y && truth W y) l)).
    { intro d. clear. induction l as [|y l IH]; [reflexivity|]. cbn [map filter fst]. destruct (_ && _); cbn [map snd]; now rewrite IH. }
    rewrite (map_ext _ _ K). clear K.
    assert (Q : forall y, is_class c' (N y) = is_class c' y).
    { intro y. assert (E := norm_class_of y). destruct y; try now rewrite E. destruct E as [a ->]. reflexivity. }
    assert (A : forall d, filter (is_class c') (map N (filter (fun y => is_class d y && truth W y) l)) =
       if String.eqb c' d then map N (filter (fun y => is_class c' y && truth W y) l) else []).
    { intro d. destruct (String.eqb_spec c' d) as [<-|Nd].
      - clear -Q. induction l as [|y l IH]; [reflexivity|]. cbn [filter]. destruct (is_class c' y) eqn:E; cbn [andb]; [|exact IH].
        destruct (truth W y); [|exact IH]. cbn [map filter]. rewrite Q, E, IH. reflexivity.
      - clear -Q Nd. induction l as [|y l IH]; [reflexivity|]. cbn [filter]. destruct (is_class d y) eqn:E; cbn [andb]; [|exact IH].
        destruct (truth W y); [|exact IH]. cbn [map filter]. rewrite Q. destruct (is_class c' y) eqn:E'; [|exact IH]. exfalso. apply Nd. eapply is_class_inj; eassumption. }
    assert (B : forall ls : list (list value), filter (is_class c') (concat ls) = concat (map (filter (is_class c')) ls)).
    { induction ls as [|x ls IH]; [reflexivity|]. cbn. now rewrite filter_app, IH. }
    rewrite B, map_map, (map_ext _ _ A).
    destruct (in_dec string_dec c' cs) as [Hin|Hni].
    - clear Hl. induction cs as [|d cs IH]; [destruct Hin|]. inversion Hd; subst. cbn [map concat]. destruct (String.eqb_spec c' d) as [<-|Nd].
      + assert (E : concat (map (fun d => if String.eqb c' d then map N (filter (fun y => is_class c' y && truth W y) l) else []) cs) = []).
        { clear -H1. induction cs as [|d cs IH]; [reflexivity|]. cbn. destruct (String.eqb_spec c' d) as [<-|]; [exfalso; apply H1; now left|]. apply IH. intro. apply H1. now right. }
        rewrite E. apply app_nil_r.
      + cbn. apply IH; auto. destruct Hin; [congruence|assumption].
    - assert (E : filter (fun y => is_class c' y && truth W y) l = []).
      { clear -Hl Hni. induction l as [|y l IH]; [reflexivity|]. cbn in Hl |- *. apply andb_prop in Hl as [H1 H2]. destruct y; try discriminate H1. cbn in *.
        destruct (String.eqb_spec c' cls) as [->|]; [|now apply IH]. exfalso. apply Hni. now apply mem_In. }
      rewrite E. cbn [map]. clear. induction cs as [|d cs IH]; [reflexivity|]. cbn. now destruct (String.eqb c' d).
  Qed.

  Lemma members_same it l a c' : In it its -> In (a, VList l) attrs ->
    Forall2 (same W) (filter (fun y => is_class c' y && truth W y) l) (map N (filter (fun y => is_class c' y && truth W y) l)).
  Proof.
    intros Hin Ha. assert (K := Hkids _ _ Ha). cbn in K. clear -K. induction l as [|y l IH]; [constructor|]. cbn [filter].
    assert (IH' := IH (fun y Hy => K y (or_intror Hy))). destruct (_ && _); [|exact IH']. cbn [map]. constructor; [apply K; now left|exact IH'].
  Qed.

  Lemma same_group it l a : In it its -> it_set it = SObjs -> In (a, VList l) attrs -> forallb (is_obj_of (it_classes it)) l = true ->
    same W (VList l) (VList (group W (it_classes it) (map (fun y => (y, N y)) l))).
  Proof.
    intros Hin Es Ha Hl. apply same_list. intro c'. eexists. split; [eapply (members_same it _ _ c'); eassumption|left].
    rewrite group_class; [reflexivity|apply (classes_nodup W c ci HW Hc it Hin); unfold is_objs; now rewrite Es|exact Hl].
  Qed.

  Lemma filter_filter {A} (f g : A -> bool) l : filter f (filter g l) = filter g (filter f l).
  Proof.
    induction l as [|y l IH]; [reflexivity|]. cbn. destruct (g y) eqn:Eg, (f y) eqn:Ef; cbn; rewrite ?Eg, ?Ef, IH; reflexivity.
  Qed.

  Lemma same_group_filtered it l a : In it its -> it_set it = SObjs -> In (a, VList l) attrs -> forallb (is_obj_of (it_classes it)) l = true ->
    same W (VList l) (VList (filter (truth W) (group W (it_classes it) (map (fun y => (y, N y)) l)))).
  Proof.
    intros Hin Es Ha Hl. apply same_list. intro c'. eexists. split; [eapply (members_same it _ _ c'); eassumption|right].
    rewrite filter_filter, group_class; [reflexivity|apply (classes_nodup W c ci HW Hc it Hin); unfold is_objs; now rewrite Es|exact Hl].
  Qed.

  Lemma same_store it k : In it its -> In (it_attr it, k) (ctor_attrs ci) ->
    same W (obj_attr ci attrs (it_attr it)) (store W k (rb it)).
  Proof.
    intros Hin Hk. assert (Hf := find_item_NoDup _ _ (cf_attrs _ _ _ F) Hin).
    destruct (cf_kind _ _ _ F _ Hk) as [Hko _]. cbn [fst snd] in Hko. rewrite Hf in Hko.
    destruct (ctor_present ci attrs Hshape _ _ Hk) as [x Hx].
    assert (T := attr_facts W ci its attrs Hattrs _ _ Hx). unfold attr_typed in T. rewrite Hf in T. apply andb_prop in T as [T T'].
    rewrite (ctor_get W ci its F _ _ Hk) in T'.
    unfold read_back, obj_attr. rewrite Hx, sget_ns_of, Hx. unfold n_attr. cbn [get_value].
    assert (Ha := sget_In _ _ _ Hx). assert (Kd := Hkids _ _ Ha). assert (Kl := fun l (E : x = VList l) => same_group it l (it_attr it) Hin).
    unfold item_typed in T. unfold ckind_ok in Hko.
    destruct (it_set it) eqn:Es; rewrite ?Es in Hko; destruct k; try discriminate Hko;
      destruct x as [ |b|n|s|ec em|dk|pc|tu cl|ds|il|vl|oc on onn oa]; try discriminate T; try discriminate T'; cbn [store clean_string];
      try (apply same_refl; exact I); try apply same_no_text; try apply same_no_coords; try apply same_no_list.
    all: try (destruct (uempty (strip s)) eqn:Eu; cbn [store clean_string]).
    all: try (rewrite Eu, strip_idem, Eu; apply same_text; now rewrite strip_idem).
    all: try (apply same_text; now rewrite strip_idem).
    all: try (apply same_blank; exact Eu).
    all: try (apply same_text; rewrite ?strip_idem; destruct (strip s); [reflexivity|discriminate]).
    all: try (destruct (uempty s) eqn:Eu2; cbn [store clean_string]; rewrite ?Eu2, ?Eu; try (apply same_refl; exact I); try (apply same_text; now rewrite ?strip_idem);
              try (apply same_blank; exact Eu); try (apply same_text; destruct s; [reflexivity|discriminate]); fail).
    all: try (apply same_num; reflexivity).
    all: try (destruct ds; [apply same_no_dates|apply same_refl; exact I]).
    all: try (apply (Kl _ eq_refl eq_refl Ha T)).
    all: try (apply (same_group_filtered it vl (it_attr it) Hin Es Ha T)).
    all: try (destruct (truth W _) eqn:Et; [exact Kd|apply same_falsy; exact Et]).
    5: { destruct cl as [|c0 cl]; [apply same_coords; reflexivity|].
      assert (P := same_points_norm (c0 :: cl)). destruct (map (point_norm None) _); apply same_coords; exact P. }
    all: assert (Es0 : uempty s = true -> s = []) by (destruct s; [reflexivity|discriminate]);
      destruct (uempty s) eqn:Ev; [rewrite (Es0 eq_refl)|]; cbn [store clean_string].
    all: rewrite ?Ev; try (apply same_blank; reflexivity); try (apply same_refl; exact I).
    all: try (apply same_text; reflexivity).
    all: destruct (uempty (strip s)) eqn:Eu'; [apply same_blank; exact Eu'|apply same_text; now rewrite strip_idem].
  Qed.

  (** Attributes set through [**kwargs]. *)
  Lemma same_raw it : In it its -> match it_set it with SCoords | SCoordList => false | _ => true end = true ->
    (is_track ci = true -> mem (it_attr it) track_attrs = false) ->
    same W (obj_attr ci attrs (it_attr it)) (match rb it with Some v => v | None => VNone end).
  Proof.
    intros Hin Hset Hnt. assert (Hf := find_item_NoDup _ _ (cf_attrs _ _ _ F) Hin).
    destruct (sget (it_attr it) attrs) as [x|] eqn:Hx.
    - assert (T := attr_facts W ci its attrs Hattrs _ _ Hx). unfold attr_typed in T. rewrite Hf in T. apply andb_prop in T as [T _].
      unfold read_back, obj_attr. rewrite Hx, sget_ns_of, Hx. unfold n_attr. cbn [get_value].
      assert (Ha := sget_In _ _ _ Hx). assert (Kd := Hkids _ _ Ha). assert (Kl := fun l (E : x = VList l) => same_group it l (it_attr it) Hin).
      unfold item_typed in T.
      destruct (it_set it) eqn:Es; try discriminate Hset;
        destruct x as [ |b|n|s|ec em|dk|pc|tu cl|ds|il|vl|oc on onn oa]; try discriminate T;
        try (apply same_refl; exact I); try apply same_no_list.
      all: try (apply (Kl _ eq_refl eq_refl Ha T)).
      all: try (apply same_num; reflexivity).
      all: try (destruct ds; [apply same_no_dates|apply same_refl; exact I]).
      all: try (destruct (truth W _) eqn:Et; [exact Kd|apply same_falsy; exact Et]).
      all: try (destruct (uempty (strip s)) eqn:Eu; [apply same_blank; exact Eu|apply same_text; now rewrite strip_idem]).
      destruct (uempty s) eqn:Eu; [|apply same_refl; exact I]. destruct s; [apply same_blank; reflexivity|discriminate].
    - assert (Eo : obj_attr ci attrs (it_attr it) = VNone).
      { unfold obj_attr. rewrite Hx. destruct (ci_geom ci) eqn:Eg; try reflexivity. unfold is_track in Hnt. rewrite Eg in Hnt. specialize (Hnt eq_refl).
        cbn in Hnt. rewrite !orb_false_iff in Hnt. destruct Hnt as [N1 [N2 [N3 _]]]. rewrite N1, N2, N3. destruct (sget "track_items" attrs) as [[]|]; reflexivity. }
      rewrite Eo. unfold read_back. rewrite Eo, sget_ns_of, Hx. cbn [get_value truth]. 
      destruct (it_set it); try discriminate Hset; try (apply same_refl; exact I); apply same_no_list.
  Qed.

  Lemma sget_xtra (l : list item) a : NoDup (map it_attr l) ->
    sget a (concat (map (fun it => if mem (it_attr it) (ci_params ci) then []
                           else match rb it with Some v => [(it_attr it, v)] | None => [] end) l)) =
    match find_item a l with Some it => if mem a (ci_params ci) then None else rb it | None => None end.
  Proof.
    induction l as [|it l IH]; intro Hd; [reflexivity|]. cbn [map concat find_item]. inversion Hd; subst. rewrite sget_app.
    destruct (String.eqb_spec a (it_attr it)) as [->|Ne].
    - destruct (mem (it_attr it) (ci_params ci)) eqn:Em.
      + cbn [sget]. rewrite IH by assumption. destruct (find_item _ l); [|reflexivity]. now rewrite ?Em.
      + destruct (rb it) as [v|]; [cbn [sget]; now rewrite String.eqb_refl|]. cbn [sget].
        rewrite IH by assumption. destruct (find_item (it_attr it) l) as [it'|] eqn:E; [|reflexivity]. exfalso. apply H1.
        apply find_item_In in E as [E1 E2]. rewrite <- E2. now apply in_map.
    - rewrite (IH H2). destruct (mem (it_attr it) (ci_params ci)); [reflexivity|]. destruct (rb it); [|reflexivity]. cbn [sget].
      destruct (String.eqb_spec a (it_attr it)); [congruence|reflexivity].
  Qed.

  Lemma sget_nattrs_extra it : In it its -> mem (it_attr it) (ci_params ci) = false -> sget (it_attr it) attrs' = rb it.
  Proof.
    intros Hin Hm.
    assert (Hn : forall l, (forall ak, In ak l -> In ak (ctor_attrs ci)) -> sget (it_attr it) (map (na W ci its attrs None Normal ms) l) = None).
    { intros l Hl. apply sget_None. rewrite map_map. unfold na. cbn [fst]. intro H. apply in_map_iff in H as [ak [E H]].
      apply Hl, (cf_params _ _ _ F) in H. rewrite E in H. congruence. }
    unfold nattrs. rewrite sget_app, Hn by (intros; apply in_or_app; now left). rewrite sget_app. unfold xtra.
    rewrite sget_xtra by apply (cf_attrs _ _ _ F). rewrite (find_item_NoDup _ _ (cf_attrs _ _ _ F) Hin), Hm.
    destruct (rb it); [reflexivity|]. apply Hn. intros; apply in_or_app; now right.
  Qed.

  Lemma sget_nattrs_track a : is_track ci = true -> mem a track_attrs = true -> sget a attrs' = None.
  Proof.
    intros Ht Ha. assert (Tk := cf_track _ _ _ F). unfold track_ok in Tk. rewrite Ht in Tk. rewrite !andb_true_iff in Tk. destruct Tk as [_ Tk].
    rewrite forallb_forall in Tk. apply mem_In in Ha. specialize (Tk _ Ha). apply andb_prop in Tk as [Tm Te]. apply negb_true_iff in Te.
    assert (Hn : forall l, (forall ak, In ak l -> In ak (ctor_attrs ci)) -> sget a (map (na W ci its attrs None Normal ms) l) = None).
    { intros l Hl. apply sget_None. rewrite map_map. unfold na. cbn [fst]. intro H. apply in_map_iff in H as [ak [E H]].
      apply Hl in H. apply Bool.not_true_iff_false in Te. apply Te. apply existsb_exists. exists ak. split; [exact H|]. rewrite E. apply String.eqb_refl. }
    unfold nattrs. rewrite sget_app, Hn by (intros; apply in_or_app; now left). rewrite sget_app. unfold xtra.
    rewrite sget_xtra by apply (cf_attrs _ _ _ F). rewrite Tm. rewrite Hn by (intros; apply in_or_app; now right). now destruct (find_item a its).
  Qed.

  Lemma track_ctor : is_track ci = true -> In ("track_items"%string, CTrack) (ctor_attrs ci).
  Proof.
    intro Ht. assert (Tk := cf_track _ _ _ F). unfold track_ok in Tk. rewrite Ht in Tk. rewrite !andb_true_iff in Tk. destruct Tk as [[[[[Tk _] _] _] _] _].
    apply existsb_exists in Tk as [[a k] [H E]]. apply andb_prop in E as [E1 E2]. cbn in E1, E2. apply seqb_eq in E1. subst a. destruct k; try discriminate. exact H.
  Qed.

  Lemma track_items_there : is_track ci = true -> exists l, sget "track_items"%string attrs = Some (VItems l) /\ titems_aligned l = true /\
    sget "track_items"%string attrs' = Some (VItems (map (titem_norm None) l)).
  Proof.
    intro Ht. assert (K := track_ctor Ht). destruct (ctor_present ci attrs Hshape _ _ K) as [x Hx].
    assert (T := attr_facts W ci its attrs Hattrs _ _ Hx). unfold attr_typed in T. apply andb_prop in T as [_ T].
    rewrite (ctor_get W ci its F _ _ K) in T. destruct x; try discriminate. exists l. split; [exact Hx|].
    split; [exact (attr_read_facts ci attrs Hread _ _ Hx)|].
    rewrite (nattrs_get W ci its attrs F None Normal ms _ _ K). cbn [na snd fst]. unfold items_in. now rewrite Hx.
  Qed.

  Lemma same_track it : In it its -> is_track ci = true -> mem (it_attr it) track_attrs = true ->
    same W (obj_attr ci attrs (it_attr it)) (obj_attr ci attrs' (it_attr it)).
  Proof.
    intros Hin Ht Ha. destruct (track_items_there Ht) as [l [E1 [Al E2]]]. unfold obj_attr.
    rewrite (sget_nattrs_track _ Ht Ha), (track_key W ci its attrs F Hshape _ Ht Ha), E1, E2.
    unfold is_track in Ht. destruct (ci_geom ci); try discriminate Ht.
    destruct (String.eqb (it_attr it) "whens").
    - rewrite map_map. cbn [titem_norm ti_when]. apply same_refl. exact I.
    - destruct (String.eqb (it_attr it) "coords").
      + rewrite filter_item_norm. apply same_coords, same_points_all.
      + destruct (String.eqb (it_attr it) "angles"); [|apply same_refl; exact I].
        unfold titems_aligned in Al. apply andb_prop in Al as [_ Al]. apply orb_prop in Al as [Al|Al].
        * apply same_coords.
          assert (E : concat (map (fun i => opt_list (ti_angle i)) (map (titem_norm None) l)) = map (point_norm None) (concat (map (fun i => opt_list (ti_angle i)) l))).
          { clear -Al. induction l as [|i l IH]; [reflexivity|]. cbn [forallb] in Al. apply andb_prop in Al as [A B]. cbn [map concat].
            rewrite map_app, <- (IH B). cbn [titem_norm ti_angle]. unfold has_angle in A. now destruct (ti_angle i). }
          rewrite E. apply same_points_all.
        * assert (E : concat (map (fun i => opt_list (ti_angle i)) l) = [] /\
                      concat (map (fun i => opt_list (ti_angle i)) (map (titem_norm None) l)) = repeat zero_angle (length l)).
          { clear -Al. induction l as [|i l IH]; [split; reflexivity|]. cbn [forallb] in Al. apply andb_prop in Al as [A B]. destruct (IH B) as [I1 I2].
            cbn [map concat repeat length titem_norm ti_angle]. unfold has_angle in A. destruct (ti_angle i); [discriminate|]. cbn [opt_list app]. now rewrite I1, I2. }
          destruct E as [-> ->]. apply same_angles.
  Qed.

  Lemma same_node it : In it its -> same W (obj_attr ci attrs (it_attr it)) (obj_attr ci attrs' (it_attr it)).
  Proof.
    intro Hin. assert (P := cf_placed _ _ _ F it Hin). unfold placed in P.
    destruct (mem (it_attr it) (ci_params ci)) eqn:Em.
    - apply orb_prop in P as [P|P].
      + apply existsb_exists in P as [[a k] [Hk E]]. apply seqb_eq in E. cbn in E. subst a.
        unfold obj_attr at 2. rewrite (nattrs_get W ci its attrs F None Normal ms _ _ Hk). cbn [na fst snd].
        assert (S := same_store it k Hin Hk). unfold rbo. rewrite (find_item_NoDup _ _ (cf_attrs _ _ _ F) Hin).
        destruct k; try exact S. destruct (cf_kind _ _ _ F _ Hk) as [Hko _]. cbn [fst snd] in Hko. rewrite (find_item_NoDup _ _ (cf_attrs _ _ _ F) Hin) in Hko. discriminate.
      + apply andb_prop in P as [P1 P2]. now apply same_track.
    - apply andb_prop in P as [_ P].
      assert (Nt : is_track ci = true -> mem (it_attr it) track_attrs = false).
      { intro Ht. destruct (mem (it_attr it) track_attrs) eqn:E; [|reflexivity]. exfalso.
        assert (Tk := cf_track _ _ _ F). unfold track_ok in Tk. rewrite Ht in Tk. rewrite !andb_true_iff in Tk. destruct Tk as [_ Tk].
        rewrite forallb_forall in Tk. apply mem_In in E. specialize (Tk _ E). apply andb_prop in Tk as [Tm _]. congruence. }
      assert (R := same_raw it Hin P Nt). unfold obj_attr at 2. rewrite (sget_nattrs_extra it Hin Em).
      destruct (rb it); [exact R|].
      assert (Ez : match ci_geom ci, sget "track_items" attrs' with
        | GkTrack, Some (VItems l) => if String.eqb (it_attr it) "whens" then VDates (map ti_when l)
          else if String.eqb (it_attr it) "coords" then VCoords true (map ti_coord (filter item_coord_ok l))
          else if String.eqb (it_attr it) "angles" then VCoords true (concat (map (fun i => opt_list (ti_angle i)) l)) else VNone
        | _, _ => VNone end = VNone).
      { destruct (ci_geom ci) eqn:Eg; try reflexivity. unfold is_track in Nt. rewrite Eg in Nt. specialize (Nt eq_refl).
        cbn in Nt. rewrite !orb_false_iff in Nt. destruct Nt as [N1 [N2 [N3 _]]]. rewrite N1, N2, N3. now destruct (sget _ attrs') as [[]|]. }
      rewrite Ez. exact R.
  Qed.
End Node.

(** The object read from what is written for [v] carries the data of [v]. *)
Theorem same_norm W v : world_ok W = true -> typed W v = true -> readable W v = true ->
  same W v (norm W None Normal v).
Proof.
  intros HW Ht Hr.
  assert (G : forall v, vall (typed_node W) v = true -> readable W v = true ->
    match v with VObj _ _ _ _ => same W v (norm W None Normal v) | VList l => forall y, In y l -> match y with VObj _ _ _ _ => same W y (norm W None Normal y) | _ => True end | _ => True end).
  { clear v Ht Hr. induction v as [ | | | | | | | | | |l IH|c ns nss attrs IH] using value_ind'; intros Ht Hr; try exact I.
    - unfold readable in Hr. cbn [vall] in Ht, Hr. rewrite forallb_forall in Ht, Hr. rewrite Forall_forall in IH. intros y Hy.
      specialize (IH y Hy (Ht y Hy) (Hr y Hy)). now destruct y.
    - unfold readable in Hr. cbn [vall] in Ht, Hr. apply andb_prop in Ht as [T1 T2]. apply andb_prop in Hr as [R1 R2].
      unfold typed_node in T1. destruct (class_of W c) as [ci|] eqn:Hc; [|discriminate]. apply andb_prop in T1 as [Ts Ta].
      rewrite (norm_nattrs _ _ _ _ _ _ _ _ Hc). rewrite forallb_forall in T2, R2. rewrite Forall_forall in IH.
      eapply same_obj; [exact Hc|]. intros it Hin. apply (same_node W c ci attrs); auto.
      intros a x Hx. specialize (IH _ Hx (T2 _ Hx) (R2 _ Hx)). cbn [snd] in IH. destruct x; auto. intros y Hy. specialize (IH y Hy).
        assert (A := proj1 (forallb_forall _ _) Ta _ Hx).
        destruct y; try exact IH; exfalso; unfold attr_typed in A; apply andb_prop in A as [A _]; destruct (find_item a _); try discriminate;
          unfold item_typed in A; destruct (it_set i); try discriminate; rewrite forallb_forall in A; specialize (A _ Hy); discriminate. }
  unfold typed in Ht. specialize (G v). destruct v; try discriminate. now apply G.
Qed.

(** ** What the relation says, kind by kind *)

Lemma same_obj_inv W c ns nss attrs y : same W (VObj c ns nss attrs) y ->
  (y = VNone /\ truth W (VObj c ns nss attrs) = false) \/
  exists ci attrs', y = VObj c ns nss attrs' /\ class_of W c = Some ci /\
    forall it, In it (items_of W c) -> same W (obj_attr ci attrs (it_attr it)) (obj_attr ci attrs' (it_attr it)).
Proof. intro H. inversion H; subst; [contradiction|left; auto|right; eauto 6]. Qed.

Lemma same_str_inv W s y : same W (VStr s) y ->
  (y = VNone /\ strip s = []) \/ exists s', y = VStr s' /\ strip s = strip s'.
Proof.
  intro H. inversion H; subst; eauto. left. split; [reflexivity|]. destruct (strip s); [reflexivity|discriminate].
Qed.

Lemma same_num_inv W n y : same W (VNum n) y -> exists n', y = VNum n' /\ to_float n = to_float n'.
Proof. intro H. inversion H; subst; eauto. Qed.

Lemma same_list_inv W l y : same W (VList l) y -> exists l', y = VList l' /\
  forall c, exists m, Forall2 (same W) (filter (fun y => is_class c y && truth W y) l) m /\
    (filter (is_class c) l' = m \/ filter (is_class c) l' = filter (truth W) m).
Proof. intro H. inversion H; subst; [contradiction|eauto]. Qed.

Lemma same_plain_inv W x y : match x with VBool _ | VEnum _ _ | VDate _ => True | _ => False end -> same W x y -> y = x.
Proof. intros K H. inversion H; subst; try reflexivity; destruct K. Qed.
