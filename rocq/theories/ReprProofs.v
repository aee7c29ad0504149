(** * Proofs about [repr] (C27). *)
From Coq Require Import String List NArith ZArith Bool Lia.
From Verif Require Import Ustr UstrProofs Res PyInt PyFloat PyNumProofs PyDate PyDateProofs Elem Value Geom Codec Tables Spec EmitProofs VerbosityProofs CtorProofs WriteProofs Create GeoSpec CreateProofs Equal EqualSpec EqualProofs Repr ReprSpec.
Import ListNotations.
Local Open Scope string_scope.

(** ** Literals *)

Lemma not_all {A} (f : A -> bool) l x r : f x = false -> forallb f (l ++ x :: r)%list = false.
Proof. intro H. rewrite forallb_app. cbn [forallb]. rewrite H. now destruct (forallb f l). Qed.

Lemma layout_not_int ds d : forallb int_char (layout ds d) = false.
Proof.
  unfold layout. destruct ((d <=? -4) || (16 <? d))%Z.
  - destruct ds as [|c [|c' ds]].
    + reflexivity.
    + cbn [app forallb]. now rewrite andb_false_r.
    + cbn [forallb]. now rewrite andb_false_r.
  - destruct (d <=? 0)%Z; [reflexivity|]. destruct (_ <=? d)%Z.
    + rewrite app_assoc. now apply not_all.
    + now apply not_all.
Qed.

Lemma mag_not_int m e : forallb int_char (repr_mag m e) = false.
Proof.
  unfold repr_mag. destruct (m =? 0)%Z; [reflexivity|]. destruct (exact_dec m e) as [X t]. destruct (shortest _ _ _ _ _ _ _) as [D s]. destruct (strip10 _ _ _) as [D' s']. apply layout_not_int.
Qed.

Lemma num_back n : num_literal n = true -> exists t, num_str n = Ok t /\ eval_num t = Some n.
Proof.
  destruct n as [z|[|s|s m e]]; cbn [num_literal num_str]; intro H; try discriminate H.
  - destruct (str_of_int z) as [t|] eqn:E; [|discriminate H]. exists t. split; [reflexivity|]. unfold eval_num.
    assert (R := int_roundtrip _ _ E). assert (I : forallb int_char t = true).
    { unfold str_of_int in E. destruct (_ <? _)%N; [discriminate E|]. injection E as <-.
      assert (D : forallb int_char (digits_of (Z.abs z)) = true).
      { assert (D := digits_of_digits (Z.abs z) ltac:(lia)). rewrite forallb_forall in *. intros c Hc. unfold int_char. now rewrite (D c Hc). }
      destruct (z <? 0)%Z; [cbn [forallb]; now rewrite D|exact D]. }
    assert (N : forall w, forallb int_char w = false -> ueqb t w = false).
    { intros w Hw. destruct (ueqb t w) eqn:E'; [|reflexivity]. apply ueqb_eq in E'. congruence. }
    rewrite !N by reflexivity. cbn [orb]. now rewrite I, R.
  - exists (str_of_float (FFin s m e)). split; [reflexivity|]. assert (R := float_roundtrip _ H). unfold eval_num.
    assert (N : forall w f, float_of_str w = Ok f -> f <> FFin s m e -> ueqb (str_of_float (FFin s m e)) w = false).
    { intros w f Hw Hf. destruct (ueqb _ w) eqn:E'; [|reflexivity]. apply ueqb_eq in E'. rewrite E' in R. congruence. }
    rewrite (N (u "nan") FNan), (N (u "inf") (FInf false)), (N (u "-inf") (FInf true)) by (reflexivity || discriminate). cbn [orb].
    assert (I : forallb int_char (str_of_float (FFin s m e)) = false).
    { unfold str_of_float. rewrite forallb_app, mag_not_int. apply andb_false_r. }
    now rewrite I, R.
Qed.

Lemma list_back {A B} (f : A -> res B) (g : B -> option A) l : (forall x, In x l -> exists t, f x = Ok t /\ g t = Some x) ->
  exists ts, map_res f l = Ok ts /\ traverse g ts = Some l.
Proof.
  induction l as [|x l IH]; intro H; [exists []; auto|]. destruct (H x (or_introl eq_refl)) as [t [Ht Gt]]. destruct IH as [ts [Hts Gts]]; [intros; apply H; now right|].
  exists (t :: ts). cbn [map_res traverse]. rewrite Ht, Hts, Gt, Gts. auto.
Qed.

Lemma nums_back c : forallb num_literal c = true -> exists t, repr_nums c = Ok t /\ eval_nums t = Some c.
Proof. intro H. rewrite forallb_forall in H. apply list_back. intros x Hx. now apply num_back, H. Qed.

Lemma coords_back l : forallb (forallb num_literal) l = true -> exists t, map_res repr_nums l = Ok t /\ traverse eval_nums t = Some l.
Proof. intro H. rewrite forallb_forall in H. apply list_back. intros x Hx. now apply nums_back, H. Qed.

Lemma literal_no_nan n : num_literal n = true -> num_nan n = false.
Proof. destruct n as [z|[|s|s m e]]; cbn; congruence. Qed.

Lemma literals_no_nan c : forallb num_literal c = true -> forallb (fun n => negb (num_nan n)) c = true.
Proof. rewrite !forallb_forall. intros H n Hn. now rewrite (literal_no_nan n (H n Hn)). Qed.

Lemma literal_point c : (Nat.eqb (List.length c) 2 || Nat.eqb (List.length c) 3) = true -> forallb num_literal c = true -> mk_point c = Ok c.
Proof. intros L H. apply mk_point_wf. unfold point_wf. now rewrite L, (literals_no_nan c H). Qed.

Lemma item_back i : titem_literal i = true -> exists t, repr_item i = Ok t /\ eval_item t = Some i.
Proof.
  destruct i as [w c a]. unfold titem_literal. cbn [ti_when ti_coord ti_angle]. intro H. rewrite !andb_true_iff in H. destruct H as [[[Hw Hl] Hc] Ha].
  destruct (nums_back c Hc) as [t [Ht Gt]]. unfold repr_item. cbn [ti_coord ti_angle ti_when]. rewrite Ht. cbn [bind].
  assert (E : match w with Some k => Some (kml_datetime (k_dt k) (Some (k_res k))) | None => None end = w).
  { destruct w as [k|]; [|reflexivity]. now rewrite kml_datetime_idem. }
  destruct a as [a|].
  - apply andb_prop in Ha as [La Ha]. destruct (nums_back a Ha) as [ta [Hta Gta]]. rewrite Hta. cbn [bind]. eexists. split; [reflexivity|].
    unfold eval_item. cbn [pi_coord pi_when pi_angle]. rewrite Gt, (literal_point c Hl Hc). cbn [as_opt]. rewrite Gta, E.
    destruct a as [|h [|ti [|r [|x a]]]]; try discriminate La. reflexivity.
  - cbn [bind]. eexists. split; [reflexivity|]. unfold eval_item. cbn [pi_coord pi_when pi_angle]. rewrite Gt, (literal_point c Hl Hc). cbn [as_opt]. now rewrite E.
Qed.

(** Values without parts, other than enumeration members. *)
Lemma leaf_back W v : leaf v = true -> literals v = true -> match v with VEnum _ _ => False | _ => True end -> exists e, repr W v = Ok e /\ eval W e = Some v.
Proof.
  destruct v as [ |b|n|s|c m|k|p|t l|l|l|[|x l]|c ns nss attrs]; cbn [leaf literals]; intros L H E; try discriminate L; try contradiction; cbn [repr].
  - eexists; split; reflexivity.
  - eexists; split; reflexivity.
  - destruct (num_back n H) as [t [-> G]]. cbn [bind]. eexists. split; [reflexivity|]. cbn [eval]. now rewrite G.
  - eexists; split; reflexivity.
  - eexists. split; [reflexivity|]. cbn [eval]. now rewrite kml_datetime_idem.
  - destruct (nums_back p H) as [t [-> G]]. cbn [bind]. eexists. split; [reflexivity|]. cbn [eval]. now rewrite G.
  - destruct (coords_back l H) as [t' [-> G]]. cbn [bind]. eexists. split; [reflexivity|]. cbn [eval]. now rewrite G.
  - eexists. split; [reflexivity|]. cbn [eval]. assert (G : traverse eval_date (map repr_date l) = Some l); [|now rewrite G].
    clear L E. induction l as [|o l IH]; [reflexivity|]. cbn [forallb] in H. apply andb_prop in H as [Ho H]. cbn [map traverse]. rewrite (IH H).
    destruct o as [k|]; cbn [repr_date eval_date]; [now rewrite kml_datetime_idem|reflexivity].
  - rewrite forallb_forall in H. destruct (list_back repr_item eval_item l (fun i Hi => item_back i (H i Hi))) as [ts [-> G]]. cbn [bind]. eexists. split; [reflexivity|]. cbn [eval]. now rewrite G.
  - eexists; split; reflexivity.
Qed.

(** ** Objects that cannot be told apart by their owner *)

Section Same.
  Variable W : world.
  Variable geq : geo -> geo -> bool.
  Notation eqv := (eqv W geq).

  Definition members (v : value) : list sem_t := match v with VList l => map (sem W) l | _ => [] end.

  Definition same (v v' : value) : Prop :=
    skel v = skel v' /\ sem W v = sem W v' /\ members v = members v' /\ coords_of v = coords_of v' /\ (forall flip, eqv v flip v' = Ok true).

  Definition simple (v : value) : bool := match v with VObj _ _ _ _ | VList _ => false | _ => true end.

  Lemma same_simple v v' : same v v' -> simple v = true -> v' = v.
  Proof. intros [H _] S. destruct (skel_cases _ _ H) as [-> |[[? [? [? [? [? [? [? [? [-> ->]]]]]]]]]|[? [? [-> ->]]]]]; congruence || discriminate. Qed.

  Lemma same_bool v v' : same v v' -> py_bool W v' = py_bool W v.
  Proof. intros [_ [H _]]. unfold py_bool. now rewrite H. Qed.

  Lemma self_eqv v : eqv v false v = Ok true -> forall flip, eqv v flip v = Ok true.
  Proof. intros H [|]; [|exact H]. rewrite (eqv_swap W geq v true v). exact H. Qed.

  Lemma same_refl v : eqv v false v = Ok true -> same v v.
  Proof. intro H. repeat (split; [reflexivity|]). now apply self_eqv. Qed.

  Lemma filter_same l : forall l', map (sem W) l = map (sem W) l' -> filter_true W l = Ok l -> filter_true W l' = Ok l'.
  Proof.
    induction l as [|x l IH]; intros [|y l'] E H; try discriminate E; [reflexivity|]. cbn [map] in E. injection E as E1 E2. cbn [filter_true] in *.
    apply bind_ok in H as [b [Hb H]]. apply bind_ok in H as [r [Hr H]]. assert (L : List.length r <= List.length l).
    { clear -Hr. revert r Hr. induction l as [|z l IH]; intros r H; cbn [filter_true] in H; [injection H as <-; auto|]. apply bind_ok in H as [b [_ H]]. apply bind_ok in H as [s [Hs H]]. specialize (IH _ Hs). injection H as <-. destruct b; cbn [List.length]; lia. }
    destruct b; injection H as H; [|exfalso; rewrite H in L; cbn [List.length] in L; lia]. subst r. assert (B : py_bool W y = Ok true) by (unfold py_bool in *; now rewrite <- E1).
    rewrite B, (IH l' E2 Hr). reflexivity.
  Qed.

  (** A constructor stores a value like the one it stored before. *)
  Lemma mk_attr_same kws kws' a k x' :
    mk_attr W kws (a, k) = Ok (a, kwget kws a) -> same (kwget kws a) x' -> kwget kws' a = x' ->
    (k = CTrack -> forall b, In b track_attrs -> kwget kws b = VNone /\ kwget kws' b = VNone) -> mk_attr W kws' (a, k) = Ok (a, x').
  Proof.
    intros H S E T. unfold mk_attr in *. rewrite E. set (x := kwget kws a) in *. assert (B := same_bool _ _ S).
    apply bind_ok in H as [r [Hr H]]. injection H as ->.
    assert (Q : forall v, v = Ok x' -> bind v (fun r => Ok (a, r)) = Ok (a, x')) by (intros v ->; reflexivity).
    apply Q. clear Q. destruct k.
    - reflexivity.
    - destruct x as [ | | |s| | | | | | | | ] eqn:X; try discriminate Hr; rewrite (same_simple _ _ S eq_refl); exact Hr.
    - apply bind_ok in Hr as [b [Hb Hr]]. rewrite B, Hb. cbn [bind]. destruct b; [|discriminate Hr]. destruct x as [ | | |s| | | | | | | | ] eqn:X; try discriminate Hr; rewrite (same_simple _ _ S eq_refl); exact Hr.
    - apply bind_ok in Hr as [b [Hb Hr]]. rewrite B, Hb. cbn [bind]. destruct b; [reflexivity|]. injection Hr as Hr. rewrite <- Hr in S. now rewrite (same_simple _ _ S eq_refl).
    - apply bind_ok in Hr as [b [Hb Hr]]. rewrite B, Hb. cbn [bind]. destruct b; [reflexivity|]. injection Hr as Hr. rewrite <- Hr in S. now rewrite (same_simple _ _ S eq_refl).
    - destruct x as [ | | | | | | | | | |l| ]; try discriminate Hr. destruct S as [S _]. destruct x'; try discriminate S. reflexivity.
    - destruct x as [ | | | | | | | | | |l| ]; try discriminate Hr. destruct S as [S _]. destruct x'; try discriminate S. reflexivity.
    - destruct x as [ | | | | | | | | | |l| ]; try discriminate Hr. destruct S as [S [_ [M _]]]. destruct x' as [ | | | | | | | | | |l'| ]; try discriminate S. cbn [members] in M.
      apply bind_ok in Hr as [r [Hr' Hr]]. injection Hr as ->. now rewrite (filter_same l l' M Hr').
    - apply bind_ok in Hr as [b [Hb Hr]]. rewrite B, Hb. cbn [bind]. destruct b; [reflexivity|]. injection Hr as Hr. rewrite <- Hr in S. now rewrite (same_simple _ _ S eq_refl).
    - assert (T' := T eq_refl). unfold track_attrs in T'. destruct (T' "whens") as [W1 W2]; [cbn; tauto|]. destruct (T' "coords") as [C1 C2]; [cbn; tauto|]. destruct (T' "angles") as [A1 A2]; [cbn; tauto|].
      rewrite W1, C1, A1 in Hr. rewrite W2, C2, A2. assert (simple x = true).
      { unfold build_track in Hr. apply bind_ok in Hr as [its [Hi Hr]]. now destruct x. }
      now rewrite (same_simple _ _ S H).
  Qed.

  (** Related attribute lists: all but [lost] alike. *)
  Definition alike (lost : list string) (p q : string * value) : Prop := fst p = fst q /\ (In (fst p) lost \/ same (snd p) (snd q)).

  Lemma alike_keys lost l l' : Forall2 (alike lost) l l' -> map fst l' = map fst l.
  Proof. induction 1 as [|p q l l' [E _] _ IH]; cbn [map]; [reflexivity|]. now rewrite E, IH. Qed.

  Lemma alike_get lost l l' a x : Forall2 (alike lost) l l' -> sget a l = Some x -> exists x', sget a l' = Some x' /\ (In a lost \/ same x x').
  Proof.
    induction 1 as [|[b y] [b' y'] l l' [E S] _ IH]; cbn [sget fst snd] in *; [discriminate|]. subst b'. destruct (String.eqb_spec a b) as [-> |].
    - intros [= <-]. eauto.
    - exact IH.
  Qed.

  Lemma alike_none lost l l' a : Forall2 (alike lost) l l' -> sget a l = None -> sget a l' = None.
  Proof. intros H N. apply sget_None. rewrite (alike_keys _ _ _ H). now apply sget_None. Qed.

  Lemma mk_attrs_same kws kws' lost l : forall r r', map_res (mk_attr W kws) l = Ok r -> Forall2 (alike lost) r r' ->
    (forall a k x x', In (a, k) l -> In (a, x) r -> In (a, x') r' -> mk_attr W kws (a, k) = Ok (a, x) -> (In a lost \/ same x x') -> mk_attr W kws' (a, k) = Ok (a, x')) ->
    map_res (mk_attr W kws') l = Ok r'.
  Proof.
    induction l as [|[a k] l IH]; intros r r' H A F; cbn [map_res] in *.
    - injection H as <-. inversion A. reflexivity.
    - apply bind_ok in H as [[b x] [Hx H]]. apply bind_ok in H as [r0 [Hr H]]. injection H as <-. inversion A as [|p [b' x'] l1 l2 [E S] A']; subst. cbn [fst snd] in *.
      assert (Eb := mk_attr_key _ _ _ _ Hx). cbn [fst] in Eb. subst b. subst b'.
      rewrite (F a k x x'); [|now left|now left|now left|exact Hx|exact S]. cbn [bind]. rewrite (IH r0 l2 Hr A'); [reflexivity|].
      intros a' k' y y' H1 H2 H3. apply F; now right.
  Qed.

  Lemma alike_seen l l' : Forall2 (alike []) l l' -> seen_env (env_of W l) (env_of W l').
  Proof.
    intros H n. rewrite !sget_env. destruct (sget n l) as [x|] eqn:E.
    - destruct (alike_get _ _ _ _ _ H E) as [x' [-> [[]|[S1 [S2 [S3 [S4 _]]]]]]]. unfold seen, a_val, a_bool, a_geom, a_list. cbn [fst snd]. rewrite S2. unfold members in S3. auto.
    - now rewrite (alike_none _ _ _ _ H E).
  Qed.

  Lemma alike_sem c ns nss l l' : Forall2 (alike []) l l' -> sem W (VObj c ns nss l) = sem W (VObj c ns nss l').
  Proof.
    intro H. cbn [sem]. destruct (class_of W c) as [ci|]; [|reflexivity]. fold (env_of W l). fold (env_of W l'). assert (E := alike_seen _ _ H).
    rewrite (eval_bool_seen _ _ _ _ E), (eval_geom_seen _ _ _ _ E), (eval_bool_seen _ _ _ _ E). reflexivity.
  Qed.

  Lemma alike_coords lost c ns nss l l' : ~ In "coords" lost -> Forall2 (alike lost) l l' -> coords_of (VObj c ns nss l) = coords_of (VObj c ns nss l').
  Proof.
    intros N H. cbn [coords_of]. destruct (sget "coords" l) as [x|] eqn:E.
    - destruct (alike_get _ _ _ _ _ H E) as [x' [-> [L|S]]]; [contradiction|]. destruct (skel_cases _ _ (proj1 S)) as [-> |[[? [? [? [? [? [? [? [? [-> ->]]]]]]]]]|[? [? [-> ->]]]]]; reflexivity.
    - now rewrite (alike_none _ _ _ _ H E).
  Qed.

  Lemma alike_extras lost ci l l' : Forall2 (alike lost) l l' -> Forall2 (alike lost) (extras ci l) (extras ci l').
  Proof.
    induction 1 as [|p q l l' [E S] _ IH]; unfold extras in *; cbn [filter]; [constructor|]. rewrite <- E. destruct (negb _); [constructor; [split; assumption|exact IH]|exact IH].
  Qed.

  Lemma first_of_same flip c : first_of W flip c c = negb flip.
  Proof. unfold first_of, strict_subclass. rewrite String.eqb_refl. now destruct flip. Qed.

  Hypothesis ka : kinds_attrs W = true.

  Lemma alike_eqv lost c ci ns nss l l' : class_of W c = Some ci -> shape_ok ci l = true -> nodups (map fst nss) = true ->
    (match eq_kind ci with Some (_, names) => forall n, In n lost -> ~ In n names /\ n <> "id" /\ n <> "target_id" /\ ~ In n (map fst (extras ci l)) | None => lost = [] end) ->
    (eq_kind ci <> None -> exists g, geometry W (VObj c ns nss l) = Ok g /\ geometry W (VObj c ns nss l') = Ok g /\ forall g', g = Some g' -> geq g' g' = true) ->
    Forall2 (alike lost) l l' -> forall flip, eqv (VObj c ns nss l) flip (VObj c ns nss l') = Ok true.
  Proof.
    intros C Sh D L G A flip. apply obj_true. rewrite first_of_same. unfold obj_eqv. exists ci. assert (C' : class_of W (if negb flip then c else c) = Some ci) by now destruct flip.
    split; [exact C'|]. split; [reflexivity|]. split; [destruct (negb (negb flip)); now apply nss_eq_refl|].
    assert (Keys := alike_keys _ _ _ A). assert (ND : NoDup (map fst l)) by (unfold shape_ok in Sh; apply andb_prop in Sh as [Sh _]; apply andb_prop in Sh as [_ Sh]; now apply nodups_NoDup).
    assert (F : forall n, In n (map fst l) -> ~ In n lost -> attr_eqv W geq (negb (negb flip)) l l' n).
    { intros n Hn Ln. apply in_map_iff in Hn as [[b x] [E Hn]]. cbn [fst] in E. subst b. assert (X := sget_NoDup _ _ _ ND Hn). destruct (alike_get _ _ _ _ _ A X) as [x' [X' [|S]]]; [contradiction|].
      exists x, x'. split; [exact X|]. split; [exact X'|]. apply S. }
    destruct (eq_kind ci) as [[k names]|] eqn:K.
    - split; [assert (subclass W c k = true) by (unfold subclass; rewrite C; exact (kind_mro _ _ _ K)); now destruct flip|]. split.
      + destruct G as [g [G1 [G2 G3]]]; [discriminate|]. assert (Q : opt_eq geq g g = true) by (destruct g as [g|]; [now apply G3|reflexivity]).
        unfold oriented, geometry_eq. rewrite G1, G2. cbn [bind]. destruct (negb (negb flip)); now rewrite Q.
      + intros n Hn. assert (Q : In n (map fst l) /\ ~ In n lost).
        { apply in_app_or in Hn as [Hn|Hn]; [|apply in_app_or in Hn as [Hn|Hn]].
          - split; [|intro X; now destruct (L n X) as [L1 _]]. unfold kinds_attrs in ka. rewrite forallb_forall in ka. specialize (ka _ (sget_In _ _ _ C)). cbn [snd] in ka. rewrite K in ka. rewrite forallb_forall in ka.
            destruct (shape_has ci l n Sh) as [x X]; [apply ka; apply in_or_app; now left|]. apply sget_In in X. now apply (in_map fst) in X.
          - split; [|intro X; destruct (L n X) as [_ [L1 [L2 _]]]; cbn [In] in Hn; destruct Hn as [<-|[<-|[]]]; congruence]. unfold kinds_attrs in ka. rewrite forallb_forall in ka. specialize (ka _ (sget_In _ _ _ C)). cbn [snd] in ka. rewrite K in ka. rewrite forallb_forall in ka.
            destruct (shape_has ci l n Sh) as [x X]; [apply ka; apply in_or_app; now right|]. apply sget_In in X. now apply (in_map fst) in X.
          - assert (X : In n (map fst (extras ci l))).
            { apply in_map_iff in Hn as [[b x] [E Hn]]. cbn [fst] in E. subst b. unfold get_splat in Hn. apply filter_In in Hn as [Hn _]. apply (in_map fst) in Hn. cbn [fst] in Hn.
              destruct (negb flip); [exact Hn|]. now rewrite (alike_keys _ _ _ (alike_extras lost ci _ _ A)) in Hn. }
            split; [|intro Y; now destruct (L n Y) as [_ [_ [_ L1]]]]. apply in_map_iff in X as [[b x] [E X]]. cbn [fst] in E. subst b. unfold extras in X. apply filter_In in X as [X _]. now apply (in_map fst) in X. }
        now apply F.
    - subst lost. split; [reflexivity|]. split; [rewrite <- (map_length fst l), <- Keys; apply map_length|]. split; [symmetry; apply (alike_keys [] _ _ (alike_extras [] ci _ _ A))|].
      intros n Hn. apply F; [|intros []]. destruct (negb flip); [exact Hn|]. now rewrite <- Keys.
  Qed.
End Same.

(** ** Constructor calls *)

Lemma kwget_in (attrs : list (string * value)) a x : NoDup (map fst attrs) -> In (a, x) attrs -> kwget attrs a = x.
Proof. intros N H. unfold kwget. now rewrite (sget_NoDup _ _ _ N H). Qed.

Lemma mk_attr_ext W kws kws' ak : (forall a, kwget kws' a = kwget kws a) -> mk_attr W kws' ak = mk_attr W kws ak.
Proof. intro E. destruct ak as [a k]. unfold mk_attr. now rewrite !E. Qed.

Lemma construct_ext W c ci ns nss kws kws' : class_of W c = Some ci -> (forall a, kwget kws' a = kwget kws a) -> extras_of ci kws' = extras_of ci kws ->
  construct W c ns nss kws' = construct W c ns nss kws.
Proof.
  intros C E X. unfold construct. rewrite C, X. destruct (_ && _); [reflexivity|].
  assert (M : forall l, map_res (mk_attr W kws') l = map_res (mk_attr W kws) l) by (induction l as [|ak l IH]; cbn [map_res]; [reflexivity|]; now rewrite (mk_attr_ext W kws kws' ak E), IH).
  now rewrite !M.
Qed.

Lemma class_facts W c ci : world_ok W = true -> class_of W c = Some ci ->
  NoDup (map fst (ctor_attrs ci)) /\ (forall ak, In ak (ctor_attrs ci) -> mem (fst ak) (ci_params ci) = true) /\
  (forall a, In (a, CTrack) (ctor_attrs ci) -> forall b, In b track_attrs -> mem b (ci_params ci) = true /\ ~ In b (map fst (ctor_attrs ci))).
Proof.
  intros HW C. unfold world_ok in HW. rewrite forallb_forall in HW. specialize (HW _ (sget_In _ _ _ C)). cbn [fst snd] in HW. unfold class_ok in HW. rewrite !andb_true_iff in HW.
  destruct HW as [[[[[[[[[[[_ _] _] _] _] _] _] Hnd] Hpar] _] Htr] _]. rewrite forallb_forall in Hpar. split; [now apply nodups_NoDup|]. split; [exact Hpar|].
  intros a Ha b Hb. unfold track_ok in Htr. destruct (is_track ci).
  - rewrite !andb_true_iff in Htr. destruct Htr as [_ Htr]. rewrite forallb_forall in Htr. specialize (Htr b Hb). apply andb_prop in Htr as [Hp Hn]. split; [exact Hp|].
    intro H. apply in_map_iff in H as [ak [E Hak]]. apply negb_true_iff in Hn. rewrite <- not_true_iff_false in Hn. apply Hn. rewrite existsb_exists. exists ak. split; [exact Hak|]. rewrite E. apply String.eqb_refl.
  - rewrite forallb_forall in Htr. specialize (Htr _ Ha). discriminate Htr.
Qed.

Section Rebuild.
  Variable W : world.
  Variable geq : geo -> geo -> bool.
  Hypothesis HW : world_ok W = true.

  Lemma construct_like lost c ci ns nss attrs attrs' kws : class_of W c = Some ci -> NoDup (map fst attrs) ->
    construct W c ns nss attrs = Ok (VObj c ns nss attrs) -> Forall2 (alike W geq lost) attrs attrs' ->
    extras_of ci kws = extras ci attrs' ->
    (forall a k, In (a, k) (ctor_attrs ci) -> ~ In a lost -> kwget kws a = kwget attrs' a) ->
    (forall a k, In (a, k) (ctor_attrs ci) -> In a lost -> mk_attr W kws (a, k) = Ok (a, kwget attrs' a)) ->
    (forall a, In (a, CTrack) (ctor_attrs ci) -> forall b, In b track_attrs -> kwget kws b = VNone) ->
    construct W c ns nss kws = Ok (VObj c ns nss attrs').
  Proof.
    intros C ND H A X K L T. destruct (class_facts W c ci HW C) as [Nc [Pc Tc]]. unfold construct in *. rewrite C in *.
    destruct (negb (ci_kwargs ci) && negb (nilb (extras_of ci attrs))) eqn:Ek; [discriminate H|].
    apply bind_ok in H as [pre [Hpre H]]. apply bind_ok in H as [post [Hpost H]]. injection H as Hm Ha.
    assert (Kpre := mk_attrs_keys _ _ _ _ Hpre). assert (Kpost := mk_attrs_keys _ _ _ _ Hpost).
    set (xs := extras_of ci attrs) in *. rewrite <- Ha in A. apply Forall2_app_inv_l in A as [pre' [r' [Apre [A Er]]]]. apply Forall2_app_inv_l in A as [xs' [post' [Axs [Apost Ep]]]]. subst r'.
    assert (Kpre' := alike_keys _ _ _ _ _ Apre). assert (Kpost' := alike_keys _ _ _ _ _ Apost). assert (Kxs' := alike_keys _ _ _ _ _ Axs).
    assert (Nx : forall kv, In kv xs' -> mem (fst kv) (ci_params ci) = false).
    { intros kv Hkv. apply (in_map fst) in Hkv. rewrite Kxs' in Hkv. apply in_map_iff in Hkv as [kv' [E Hkv]]. rewrite <- E. unfold xs, extras_of in Hkv. apply filter_In in Hkv as [_ Hkv]. now apply negb_true_iff in Hkv. }
    assert (In1 : forall a (v : value), In (a, v) pre' -> exists k, In (a, k) (ci_pre ci)).
    { intros a v Hv. apply (in_map fst) in Hv. rewrite Kpre', Kpre in Hv. apply in_map_iff in Hv as [[b k] [E Hv]]. cbn [fst] in E. subst b. eauto. }
    assert (In2 : forall a (v : value), In (a, v) post' -> exists k, In (a, k) (ci_post ci)).
    { intros a v Hv. apply (in_map fst) in Hv. rewrite Kpost', Kpost in Hv. apply in_map_iff in Hv as [[b k] [E Hv]]. cbn [fst] in E. subst b. eauto. }
    assert (Xs : extras ci attrs' = xs').
    { rewrite Er. unfold extras. rewrite !filter_app. rewrite (CtorProofs.filter_none _ pre'), (CtorProofs.filter_none _ post'), (CtorProofs.filter_all _ xs').
      - cbn [app]. apply app_nil_r.
      - intros [a v] Hv. apply negb_true_iff. cbn [fst]. apply not_true_iff_false. rewrite mem_true. intro Hin. apply in_map_iff in Hin as [ak [E Hin]]. specialize (Pc _ Hin). rewrite E in Pc. specialize (Nx _ Hv). cbn [fst] in Nx. congruence.
      - intros [a v] Hv. apply negb_false_iff. cbn [fst]. apply mem_true. destruct (In2 _ _ Hv) as [k Hk]. apply in_map_iff. exists (a, k). split; [reflexivity|]. apply in_or_app. now right.
      - intros [a v] Hv. apply negb_false_iff. cbn [fst]. apply mem_true. destruct (In1 _ _ Hv) as [k Hk]. apply in_map_iff. exists (a, k). split; [reflexivity|]. apply in_or_app. now left. }
    assert (ND' : NoDup (map fst attrs')) by (rewrite Er, !map_app, Kpre', Kxs', Kpost', <- !map_app, Ha; exact ND).
    assert (F : forall a k x x', In (a, k) (ctor_attrs ci) -> In (a, x) attrs -> In (a, x') attrs' -> mk_attr W attrs (a, k) = Ok (a, x) -> (In a lost \/ same W geq x x') -> mk_attr W kws (a, k) = Ok (a, x')).
    { intros a k x x' Hk Hx Hx' Hm' S. destruct (in_dec String.string_dec a lost) as [Hl|Hl].
      - rewrite (L a k Hk Hl). now rewrite (kwget_in _ _ _ ND' Hx').
      - destruct S as [S|S]; [contradiction|]. apply (mk_attr_same W geq attrs kws a k x').
        + now rewrite (kwget_in _ _ _ ND Hx).
        + now rewrite (kwget_in _ _ _ ND Hx).
        + rewrite (K a k Hk Hl). now apply kwget_in.
        + intros -> b Hb. split; [|now apply (T a)]. destruct (Tc a Hk b Hb) as [P N]. unfold kwget. destruct (sget b attrs) as [y|] eqn:Y; [|reflexivity]. exfalso.
          apply sget_In in Y. rewrite <- Ha in Y. rewrite !in_app_iff in Y. destruct Y as [Y|[Y|Y]].
          * apply (in_map fst) in Y. rewrite Kpre in Y. apply N. unfold ctor_attrs. rewrite map_app, in_app_iff. now left.
          * unfold xs, extras_of in Y. apply filter_In in Y as [_ Y]. cbn [fst] in Y. now rewrite P in Y.
          * apply (in_map fst) in Y. rewrite Kpost in Y. apply N. unfold ctor_attrs. rewrite map_app, in_app_iff. now right. }
    rewrite X, Xs. assert (Ek' : negb (ci_kwargs ci) && negb (nilb xs') = false).
    { assert (nilb xs' = nilb xs) as ->; [|exact Ek]. now destruct Axs. }
    rewrite Ek'. rewrite (mk_attrs_same W geq attrs kws lost _ pre pre' Hpre Apre).
    - cbn [bind]. rewrite (mk_attrs_same W geq attrs kws lost _ post post' Hpost Apost).
      + cbn [bind]. now rewrite Hm, Er.
      + intros a k x x' H1 H2 H3. apply F; [apply in_or_app; now right|rewrite <- Ha, !in_app_iff; auto|rewrite Er, !in_app_iff; auto].
    - intros a k x x' H1 H2 H3. apply F; [apply in_or_app; now left|rewrite <- Ha, !in_app_iff; auto|rewrite Er, !in_app_iff; auto].
  Qed.
End Rebuild.

(** ** Printed arguments *)

Lemma eval_list W l : eval W (PEList l) = option_map VList (traverse (eval W) l).
Proof.
  cbn [eval]. f_equal. induction l as [|x l IH]; cbn [traverse]; [reflexivity|]. now rewrite IH.
Qed.

Definition eval_arg (W : world) (kx : string * pexpr) : option (string * value) := option_map (pair (fst kx)) (eval W (snd kx)).

Lemma eval_call W c ns nss args g splat : eval W (PECall c ns nss args g splat) =
  if nodups (map fst args ++ map fst splat) then
    match traverse (eval_arg W) args, traverse (eval_arg W) splat, match g with Some g => eval_geo g | None => Some None end with
    | Some xs, Some ys, Some g => as_opt (call W c ns nss g (xs ++ ys))
    | _, _, _ => None
    end
  else None.
Proof.
  cbn [eval]. set (go := fix go (l : list (string * pexpr)) : option (list (string * value)) := _).
  assert (E : forall l, go l = traverse (eval_arg W) l).
  { induction l as [|[k x] l IH]; [reflexivity|]. cbn [go traverse]. fold go. rewrite IH. unfold eval_arg at 2. cbn [fst snd]. now destruct (eval W x). }
  now rewrite !E.
Qed.

Definition shown (W : world) (r : bool) (x : value) : res pexpr := if r then repr W x else str_expr x (repr W x).

(** Enumeration members are printed by [str], all else by [repr]. *)
Definition apt (r : bool) (x : value) : bool := match x with VEnum _ _ => negb r | VNone => true | _ => r end.

Section Printed.
  Variable W : world.
  Variable geq : geo -> geo -> bool.

  Definition shows (x x' : value) : Prop :=
    same W geq x x' /\ forall r, apt r x = true -> exists t, shown W r x = Ok t /\ eval W t = Some x'.

  Lemma rs_get a attrs : sget a (map (fun av : string * value => match av with (a, x) => (a, (x, repr W x)) end) attrs) = option_map (fun x => (x, repr W x)) (sget a attrs).
  Proof. induction attrs as [|[b x] l IH]; cbn [map sget]; [reflexivity|]. destruct (String.eqb a b); [reflexivity|exact IH]. Qed.

  Lemma args_back attrs attrs1 spec : Forall2 (fun p q => fst p = fst q /\ shows (snd p) (snd q)) attrs attrs1 ->
    (forall s, In s spec -> exists x, sget (snd (fst s)) attrs = Some x /\ apt (snd s) x = true) ->
    exists ts, map_res (repr_arg (map (fun av : string * value => match av with (a, x) => (a, (x, repr W x)) end) attrs)) spec = Ok ts /\
      map fst ts = map (fun s => fst (fst s)) spec /\
      traverse (eval_arg W) ts = Some (map (fun s => (fst (fst s), kwget attrs1 (snd (fst s)))) spec).
  Proof.
    intros A. induction spec as [|[[p a] r] spec IH]; intro H; [exists []; auto|].
    destruct IH as [ts [E1 [E2 E3]]]; [intros; apply H; now right|]. destruct (H _ (or_introl eq_refl)) as [x [X Ap]]. cbn [fst snd] in X, Ap.
    assert (G : exists x', sget a attrs1 = Some x' /\ shows x x').
    { clear -A X. induction A as [|[b y] [b' y'] l l' [E S] _ IH]; cbn [sget fst snd] in *; [discriminate|]. subst b'. destruct (String.eqb a b); [injection X as <-; eauto|auto]. }
    destruct G as [x' [X' [_ S]]]. destruct (S r Ap) as [t [T1 T2]].
    exists ((p, t) :: ts). cbn [map_res]. unfold repr_arg at 1. rewrite rs_get, X. cbn [option_map]. unfold shown in T1. rewrite T1. cbn [bind]. rewrite E1. cbn [bind map fst snd traverse]. split; [reflexivity|]. split; [now rewrite E2|].
    unfold eval_arg at 1. cbn [fst snd]. rewrite T2, E3. cbn [option_map]. unfold kwget at 2. now rewrite X'.
  Qed.
End Printed.

Lemma shape_extra ci attrs kv : shape_ok ci attrs = true -> In kv (extras ci attrs) -> mem (fst kv) (ci_params ci) = false.
Proof.
  intros H Hk. unfold extras in Hk. apply filter_In in Hk as [Hk N]. apply negb_true_iff in N. unfold shape_ok in H. rewrite !andb_true_iff in H. destruct H as [[H _] P]. apply all2_string_eq in H.
  set (x := firstn _ _) in *. apply (in_map fst) in Hk. rewrite H in Hk. rewrite map_app in N. rewrite !in_app_iff in Hk. rewrite <- not_true_iff_false, mem_true, in_app_iff in N.
  destruct Hk as [Hk|[Hk|Hk]]; [tauto| |tauto]. rewrite forallb_forall in P. specialize (P _ Hk). now apply negb_true_iff in P.
Qed.

Lemma shape_nodup ci attrs : shape_ok ci attrs = true -> NoDup (map fst attrs).
Proof. unfold shape_ok. intro Sh. apply andb_prop in Sh as [Sh _]. apply andb_prop in Sh as [_ Sh]. now apply nodups_NoDup. Qed.

Lemma filter_keys_map {A} (attrs1 : list (string * value)) (f : string -> bool) : NoDup (map fst attrs1) -> forall attrs : list (string * A), map fst attrs1 = map fst attrs ->
  map (fun av => (fst av, kwget attrs1 (fst av))) (filter (fun kv => f (fst kv)) attrs) = filter (fun kv => f (fst kv)) attrs1.
Proof.
  intros ND attrs E.
  assert (G : forall (l : list (string * A)) l1, map fst l1 = map fst l -> incl l1 attrs1 ->
    map (fun av => (fst av, kwget attrs1 (fst av))) (filter (fun kv => f (fst kv)) l) = filter (fun kv => f (fst kv)) l1).
  { induction l as [|[a x] l IH]; intros [|[b y] l1] E' I; try discriminate E'; [reflexivity|]. cbn [map fst] in E'. injection E' as -> E'. cbn [filter fst].
    assert (Y : kwget attrs1 a = y) by (apply kwget_in; [exact ND|apply I; now left]). specialize (IH l1 E' (fun z Hz => I z (or_intror Hz))).
    destruct (f a); [cbn [map fst]; now rewrite Y, IH|exact IH]. }
  apply G; [exact E|apply incl_refl].
Qed.

Lemma NoDup_join {A} (l r : list A) : NoDup l -> NoDup r -> (forall x, In x l -> ~ In x r) -> NoDup (l ++ r).
Proof.
  induction 1 as [|x l N _ IH]; intros R D; cbn [app]; [exact R|]. constructor; [|apply IH; [exact R|intros y Hy; apply D; now right]].
  rewrite in_app_iff. intros [H|H]; [contradiction|]. exact (D x (or_introl eq_refl) H).
Qed.

Section Object.
  Variable W : world.
  Variable geq : geo -> geo -> bool.
  Hypothesis HW : world_ok W = true.
  Hypothesis HR : reprs_ok W = true.

  Definition rs_of (attrs : list (string * value)) := map (fun av : string * value => match av with (a, x) => (a, (x, repr W x)) end) attrs.

  Lemma object_args c ci ns nss attrs attrs1 : class_of W c = Some ci -> typed_node W c ns nss attrs = true -> repr_node W c ns nss attrs = true ->
    Forall2 (fun p q => fst p = fst q /\ shows W geq (snd p) (snd q)) attrs attrs1 ->
    exists args splat xs,
      map_res (repr_arg (rs_of attrs)) (filter (fun s => negb (is_geometry s)) (repr_of ci)) = Ok args /\
      map_res (repr_arg (rs_of attrs)) (map (fun av => (fst av, fst av, true)) (get_splat ci attrs)) = Ok splat /\
      nodups (map fst args ++ map fst splat) = true /\
      traverse (eval_arg W) args = Some xs /\ traverse (eval_arg W) splat = Some (extras ci attrs1) /\
      extras_of ci (xs ++ extras ci attrs1) = extras ci attrs1 /\
      (forall a k, In (a, k) (ctor_attrs ci) -> ~ In a (unprinted c) -> kwget (xs ++ extras ci attrs1) a = kwget attrs1 a) /\
      (forall a, mem a (ci_params ci) = true -> ~ In a (map fst (ctor_attrs ci)) \/ In a (unprinted c) -> kwget (xs ++ extras ci attrs1) a = VNone) /\
      existsb is_geometry (repr_of ci) = negb (nilb (unprinted c)).
  Proof.
    intros C Ty Rn A. destruct (class_facts W c ci HW C) as [Nc [Pc Tc]].
    unfold repr_node in Rn. rewrite C in Rn. apply andb_prop in Rn as [Pr Ex]. apply negb_true_iff in Pr.
    unfold reprs_ok in HR. rewrite forallb_forall in HR. specialize (HR _ (sget_In _ _ _ C)). cbn [fst snd] in HR. rewrite Pr in HR. cbn [orb] in HR.
    unfold prints_all in HR. set (spec := filter (fun s => negb (is_geometry s)) (repr_of ci)) in *. set (names := map (fun s => fst (fst s)) spec) in *.
    rewrite !andb_true_iff in HR. destruct HR as [[[[[P1 P2] P3] P4] P5] P6].
    unfold typed_node in Ty. rewrite C in Ty. apply andb_prop in Ty as [Sh Ty]. rewrite forallb_forall in P1, P3, P4, P5, Ty.
    assert (ND := shape_nodup _ _ Sh).
    assert (Keys : map fst attrs1 = map fst attrs) by (clear -A; induction A as [|p q l l' [E _] _ IH]; cbn [map]; [reflexivity|now rewrite E, IH]).
    assert (ND1 : NoDup (map fst attrs1)) by now rewrite Keys.
    assert (B1 : forall s, In s spec -> exists x, sget (snd (fst s)) attrs = Some x /\ apt (snd s) x = true).
    { intros s Hs. specialize (P1 _ Hs). apply String.eqb_eq in P1. assert (P3' := P3 _ (in_map (fun s => fst (fst s)) _ _ Hs)). apply andb_prop in P3' as [P3' _]. specialize (P5 _ Hs). rewrite P1 in *.
      destruct (shape_has ci attrs (snd (fst s)) Sh P3') as [x X]. exists x. split; [exact X|]. specialize (Ty _ (sget_In _ _ _ X)). unfold attr_typed in Ty. apply andb_prop in Ty as [Ty1 Ty2].
      destruct (find_item (snd (fst s)) (items_of W c)) as [it|].
      - apply eqb_prop in P5. rewrite P5. unfold is_enum_item. unfold item_typed in Ty1. destruct (it_set it), x; try reflexivity; discriminate Ty1.
      - apply andb_prop in P5 as [-> P5]. destruct (ckind_of ci (snd (fst s))) as [[| | | | | | | | |]|]; try discriminate P5. destruct x; try discriminate Ty2. reflexivity. }
    destruct (args_back W geq attrs attrs1 spec A B1) as [args [E1 [E2 E3]]].
    assert (Gs : get_splat ci attrs = extras ci attrs).
    { unfold get_splat. apply CtorProofs.filter_all. intros kv Hkv. rewrite forallb_forall in Ex. specialize (Ex _ Hkv). now destruct (snd kv). }
    destruct (args_back W geq attrs attrs1 (map (fun av => (fst av, fst av, true)) (extras ci attrs)) A) as [splat [F1 [F2 F3]]].
    { intros s Hs. apply in_map_iff in Hs as [[a x] [<- Hs]]. cbn [fst snd]. exists x. split.
      - apply sget_NoDup; [exact ND|]. unfold extras in Hs. now apply filter_In in Hs.
      - rewrite forallb_forall in Ex. specialize (Ex _ Hs). cbn [snd] in Ex. now destruct x. }
    rewrite map_map in F2, F3. cbn [fst snd] in F2, F3. unfold extras in F3 at 1. rewrite (filter_keys_map attrs1 (fun a => negb (mem a (map fst (ci_pre ci ++ ci_post ci)))) ND1 attrs Keys) in F3. fold (extras ci attrs1) in F3.
    set (xs := map (fun s => (fst (fst s), kwget attrs1 (snd (fst s)))) spec) in *.
    assert (Kx : map fst (extras ci attrs1) = map fst (extras ci attrs)).
    { clear -Keys. unfold extras. revert attrs Keys. induction attrs1 as [|[a x] l IH]; intros [|[b y] r] K; try discriminate K; [reflexivity|]. cbn [map fst] in K. injection K as -> K. cbn [filter fst]. specialize (IH r K). destruct (negb _); [cbn [map fst]; now rewrite IH|exact IH]. }
    assert (Nx : forall kv, In kv (extras ci attrs1) -> mem (fst kv) (ci_params ci) = false).
    { intros kv Hkv. apply (in_map fst) in Hkv. rewrite Kx in Hkv. apply in_map_iff in Hkv as [kv' [<- Hkv]]. exact (shape_extra _ _ _ Sh Hkv). }
    assert (Kxs : map fst xs = names) by (unfold xs; rewrite map_map; reflexivity).
    assert (Gx : forall a, In a names -> sget a xs = Some (kwget attrs1 a)).
    { intros a Ha. apply in_map_iff in Ha as [s [<- Hs]]. assert (P1' := P1 _ Hs). apply String.eqb_eq in P1'. apply sget_NoDup; [rewrite Kxs; now apply nodups_NoDup|].
      unfold xs. apply in_map_iff. exists s. split; [now rewrite P1'|exact Hs]. }
    assert (Gn : forall a, ~ In a names -> sget a xs = None) by (intros a Ha; apply sget_None; now rewrite Kxs).
    exists args, splat, xs. split; [exact E1|]. split; [rewrite Gs; exact F1|]. split.
    { apply nodups_NoDup. rewrite E2, F2. apply NoDup_join; [now apply nodups_NoDup| |].
      - clear -ND. unfold extras. induction attrs as [|[a x] l IH]; cbn [filter map]; [constructor|]. inversion ND as [|? ? N1 N2]; subst. destruct (negb _); [|now apply IH]. cbn [map fst]. constructor; [|now apply IH].
        intro H. apply N1. apply in_map_iff in H as [kv [E H]]. apply filter_In in H as [H _]. apply in_map_iff. exists kv. auto.
      - intros a Ha Hx. change (In a names) in Ha. specialize (P3 _ Ha). apply andb_prop in P3 as [P3 _]. apply mem_true in P3. apply in_map_iff in P3 as [ak [E P3]]. specialize (Pc _ P3). rewrite E in Pc.
        apply in_map_iff in Hx as [kv [E' Hx]]. rewrite <- E' in Pc. now rewrite (shape_extra _ _ _ Sh Hx) in Pc. }
    split; [exact E3|]. split; [exact F3|]. split.
    { unfold extras_of. rewrite filter_app, (CtorProofs.filter_none _ xs), (CtorProofs.filter_all _ (extras ci attrs1)); [reflexivity| |].
      - intros kv Hkv. now rewrite (Nx _ Hkv).
      - intros kv Hkv. apply (in_map fst) in Hkv. rewrite Kxs in Hkv. specialize (P3 _ Hkv). apply andb_prop in P3 as [P3 _]. apply mem_true in P3. apply in_map_iff in P3 as [ak [E P3]]. specialize (Pc _ P3). rewrite E in Pc. now rewrite Pc. }
    split.
    { intros a k Hk Hu. specialize (P4 _ Hk). cbn [fst] in P4. apply orb_prop in P4 as [P4|P4]; [|apply mem_true in P4; contradiction]. apply mem_true in P4. unfold kwget at 1. rewrite sget_app, (Gx a P4). reflexivity. }
    split.
    { intros a Hp Ha. unfold kwget. rewrite sget_app, Gn.
      - rewrite (proj2 (sget_None a (extras ci attrs1))); [reflexivity|]. intro H. apply in_map_iff in H as [kv [E H]]. specialize (Nx _ H). rewrite E in Nx. congruence.
      - intro H. specialize (P3 _ H). apply andb_prop in P3 as [P3 P3']. apply mem_true in P3. destruct Ha as [Ha|Ha]; [contradiction|]. apply mem_true in Ha. now rewrite Ha in P3'. }
    now apply eqb_prop in P6.
  Qed.
End Object.

(** ** Geometries of finite coordinates *)

Definition finite_point (c : list num) : Prop := forallb (fun n => negb (num_nan n)) c = true.

Lemma dedupe_from_in l : forall p c, In c (dedupe_from p l) -> In c l.
Proof. induction l as [|d l IH]; intros p c; cbn [dedupe_from]; [auto|]. destruct (point_eq p d); [right; eauto|]. cbn [In]. intros [->|H]; [now left|right; eauto]. Qed.

Lemma dedupe_from_apart l : forall p l1 a b l2, (p :: dedupe_from p l = l1 ++ a :: b :: l2)%list -> point_eq a b = false.
Proof.
  induction l as [|d l IH]; intros p l1 a b l2; cbn [dedupe_from].
  - destruct l1 as [|x [|y l1]]; discriminate.
  - destruct (point_eq p d) eqn:E; [apply IH|]. destruct l1 as [|x l1]; cbn [app].
    + intros [= -> -> _]. exact E.
    + intros [= _ H]. exact (IH d l1 a b l2 H).
Qed.

Lemma line_points_id l : (forall c, In c l -> finite_point c) -> forall o r, line_points o l = Ok r ->
  r = l /\ (forall c, In c l -> point_wf c = true) /\ (forall c n, o = Some n -> In c l -> List.length c = n) /\ (forall c c', In c l -> In c' l -> List.length c = List.length c').
Proof.
  induction l as [|c l IH]; intros F o r H; cbn [line_points] in H.
  - injection H as <-. split; [reflexivity|]. split; [intros ? []|]. split; [intros ? ? _ []|intros ? ? []].
  - destruct (match o with Some n => negb (Nat.eqb n (List.length c)) | None => false end) eqn:O; [discriminate H|].
    apply bind_ok in H as [p [Hp H]]. apply bind_ok in H as [r' [Hr H]]. destruct (IH (fun x Hx => F x (or_intror Hx)) _ _ Hr) as [-> [I1 [I2 I3]]].
    assert (Fc := F c (or_introl eq_refl)). unfold finite_point in Fc.
    assert (Wc : point_wf c = true). { unfold point_wf. rewrite Fc, andb_true_r. unfold mk_point in Hp. destruct (List.length c) as [|[|[|[|n]]]]; try discriminate Hp; reflexivity. }
    rewrite (mk_point_wf c Wc) in Hp. injection Hp as <-. rewrite (point_wf_full c Wc) in H. injection H as <-. split; [reflexivity|]. split; [intros x [<-|Hx]; auto|]. split.
    + intros x n -> [<-|Hx]; [apply negb_false_iff in O; apply Nat.eqb_eq in O; congruence|]. rewrite (I2 x _ eq_refl Hx). apply negb_false_iff in O. apply Nat.eqb_eq in O. congruence.
    + intros x y [<-|Hx] [<-|Hy]; [reflexivity|symmetry; exact (I2 y _ eq_refl Hy)|exact (I2 x _ eq_refl Hx)|now apply I3].
Qed.

Lemma mk_line_finite l r : l <> [] -> (forall c, In c l -> finite_point c) -> mk_line l = Ok r -> line_wf r.
Proof.
  intros N F H. unfold mk_line in H. destruct l as [|c l]; [contradiction|]. cbn [dedupe] in H.
  assert (F' : forall d, In d (c :: dedupe_from c l) -> finite_point d) by (intros d [<-|Hd]; apply F; [now left|right; now apply dedupe_from_in in Hd]).
  destruct (line_points_id _ F' _ _ H) as [-> [H1 [_ H2]]]. split; [discriminate|]. split; [exact H1|]. split; [exact H2|]. intros l1 a b l2 E. exact (dedupe_from_apart _ _ _ _ _ _ E).
Qed.

Lemma last_snoc {A} (l : list A) (x d : A) : last (l ++ [x]) d = x.
Proof. induction l as [|y l IH]; [reflexivity|]. cbn [app last]. destruct (l ++ [x])%list eqn:E; [now destruct l|]. exact IH. Qed.

Lemma last_default {A} (l : list A) (d e : A) : l <> [] -> last l d = last l e.
Proof. induction l as [|x l IH]; [contradiction|]. intros _. cbn [last]. destruct l; [reflexivity|]. now apply IH. Qed.

Lemma line_wf_finite l c : line_wf l -> In c l -> finite_point c.
Proof. intros [_ [H _]] Hc. specialize (H c Hc). unfold point_wf in H. now apply andb_prop in H. Qed.

Lemma close_ring_wf l : line_wf l -> ring_wf (close_ring l).
Proof.
  intro L. assert (L' := L). destruct L as [N [H1 [H2 H3]]]. destruct l as [|c l]; [contradiction|]. cbn [close_ring].
  assert (Rc : point_eq c c = true) by (apply point_eq_refl; exact (line_wf_finite _ _ L' (or_introl eq_refl))).
  destruct (point_eq c (last (c :: l) c)) eqn:E.
  - split; [exact L'|]. intro d. cbn [hd]. assert (D : last (c :: l) d = last (c :: l) c) by (apply last_default; discriminate). now rewrite D.
  - split.
    + split; [discriminate|]. split; [|split].
      * intros d Hd. apply in_app_or in Hd as [Hd|[<-|[]]]; [auto|apply H1; now left].
      * assert (Q : forall d, In d ((c :: l) ++ [c])%list -> In d (c :: l)) by (intros d Hd; apply in_app_or in Hd as [Hd|[<-|[]]]; [exact Hd|now left]). intros d d' Hd Hd'. apply H2; auto.
      * intros l1 a b l2 Q. destruct l2 as [|z l2] using rev_ind.
        -- replace (l1 ++ [a; b])%list with ((l1 ++ [a]) ++ [b])%list in Q by (rewrite <- app_assoc; reflexivity). apply app_inj_tail in Q as [Q <-].
           rewrite Q, last_snoc in E. rewrite point_eq_sym. exact E.
        -- replace (l1 ++ a :: b :: l2 ++ [z])%list with ((l1 ++ a :: b :: l2) ++ [z])%list in Q by (rewrite <- app_assoc; reflexivity). apply app_inj_tail in Q as [Q _]. exact (H3 _ _ _ _ Q).
    + intro d. change (c :: l ++ [c])%list with ((c :: l) ++ [c])%list. rewrite last_snoc. exact Rc.
Qed.

Lemma mk_ring_finite l r : l <> [] -> (forall c, In c l -> finite_point c) -> mk_ring l = Ok r -> ring_wf r.
Proof. intros N F H. unfold mk_ring in H. apply bind_ok in H as [s [Hs H]]. injection H as <-. apply close_ring_wf. eapply mk_line_finite; eassumption. Qed.

(** ** Lines, rings and polygons *)

(** The dictionary with the value of [a] replaced. *)
Definition put (a : string) (k : value) (attrs : list (string * value)) : list (string * value) :=
  map (fun p => if String.eqb (fst p) a then (fst p, k) else p) attrs.

Lemma put_get a k attrs b : sget b (put a k attrs) = match sget b attrs with Some x => Some (if String.eqb b a then k else x) | None => None end.
Proof.
  induction attrs as [|[c x] l IH]; cbn [put map sget fst]; [reflexivity|]. fold (put a k l). destruct (String.eqb c a) eqn:E; cbn [sget]; (destruct (String.eqb b c) eqn:F; [apply String.eqb_eq in F; subst c; now rewrite E|exact IH]).
Qed.

Lemma put_extras ci a k attrs : In a (map fst (ctor_attrs ci)) -> extras ci (put a k attrs) = extras ci attrs.
Proof.
  intro H. unfold extras. apply mem_true in H. unfold ctor_attrs in H. induction attrs as [|[c x] l IH]; cbn [put map filter fst]; [reflexivity|]. fold (put a k l). destruct (String.eqb_spec c a) as [-> |].
  - cbn [fst]. rewrite H. cbn [negb]. exact IH.
  - cbn [fst]. rewrite IH. reflexivity.
Qed.

Lemma put_alike W geq lost a k attrs attrs1 : In a lost -> Forall2 (alike W geq lost) attrs attrs1 -> Forall2 (alike W geq lost) attrs (put a k attrs1).
Proof.
  intros H. induction 1 as [|[b x] [b' y] l l' [E S] _ IH]; cbn [put map]; [constructor|]. fold (put a k l'). cbn [fst snd] in *. subst b'. constructor; [|exact IH].
  destruct (String.eqb_spec b a) as [-> |]; split; cbn [fst snd]; auto.
Qed.

(** The items that say where coordinates and rings are kept. *)
Definition holds (W : world) (c a d : string) (s : setter) : bool :=
  match find_item a (items_of W c) with
  | Some it => match it_set it, s with SObj, SObj => true | SObjs, SObjs => true | _, _ => false end &&
               match it_classes it with [e] => String.eqb d e | _ => false end
  | None => false
  end.

Definition shapes_ok (W : world) : bool :=
  holds W "geometry.LineString" "kml_coordinates" "geometry.Coordinates" SObj && holds W "geometry.LinearRing" "kml_coordinates" "geometry.Coordinates" SObj &&
  holds W "geometry.OuterBoundaryIs" "kml_geometry" "geometry.LinearRing" SObj && holds W "geometry.InnerBoundaryIs" "kml_geometry" "geometry.LinearRing" SObj &&
  holds W "geometry.Polygon" "outer_boundary" "geometry.OuterBoundaryIs" SObj && holds W "geometry.Polygon" "inner_boundaries" "geometry.InnerBoundaryIs" SObjs.

Definition is_a (c : string) (v : value) : Prop := exists ns nss attrs, v = VObj c ns nss attrs.

Lemma holds_obj W c a d ns nss attrs x : holds W c a d SObj = true -> typed_node W c ns nss attrs = true -> sget a attrs = Some x -> x = VNone \/ is_a d x.
Proof.
  intros H T X. unfold holds in H. unfold typed_node in T. destruct (class_of W c) as [ci|]; [|discriminate T]. apply andb_prop in T as [_ T]. rewrite forallb_forall in T. specialize (T _ (sget_In _ _ _ X)).
  unfold attr_typed in T. destruct (find_item a (items_of W c)) as [it|]; [|discriminate H]. apply andb_prop in T as [T _]. unfold item_typed in T. destruct (it_set it); try discriminate H.
  destruct x; try discriminate T; [now left|right]. destruct (it_classes it) as [|e [|]]; try discriminate H. cbn [andb] in H. apply String.eqb_eq in H. subst e. unfold mem in T. cbn [existsb] in T. rewrite orb_false_r in T. apply String.eqb_eq in T. subst. repeat eexists.
Qed.

Lemma holds_objs W c a d ns nss attrs x : holds W c a d SObjs = true -> typed_node W c ns nss attrs = true -> sget a attrs = Some x -> x = VNone \/ exists l, x = VList l /\ forall y, In y l -> is_a d y.
Proof.
  intros H T X. unfold holds in H. unfold typed_node in T. destruct (class_of W c) as [ci|]; [|discriminate T]. apply andb_prop in T as [_ T]. rewrite forallb_forall in T. specialize (T _ (sget_In _ _ _ X)).
  unfold attr_typed in T. destruct (find_item a (items_of W c)) as [it|]; [|discriminate H]. apply andb_prop in T as [T _]. unfold item_typed in T. destruct (it_set it); try discriminate H.
  destruct x as [ | | | | | | | | | |l| ]; try discriminate T; [now left|right]. exists l. split; [reflexivity|]. destruct (it_classes it) as [|e [|]]; try discriminate H. cbn [andb] in H. apply String.eqb_eq in H. subst e.
  intros y Hy. rewrite forallb_forall in T. specialize (T y Hy). unfold is_obj_of, mem in T. destruct y; try discriminate T. cbn [existsb] in T. rewrite orb_false_r in T. apply String.eqb_eq in T. subst. repeat eexists.
Qed.

Lemma mk_line_sub l r : (forall c, In c l -> finite_point c) -> mk_line l = Ok r -> incl r l.
Proof.
  intros F H. unfold mk_line in H. destruct l as [|c l]; [injection H as <-; apply incl_refl|]. cbn [dedupe] in H.
  assert (Q : forall d, In d (c :: dedupe_from c l) -> In d (c :: l)) by (intros d [<-|Hd]; [now left|right; now apply dedupe_from_in in Hd]).
  destruct (line_points_id _ (fun d Hd => F d (Q d Hd)) _ _ H) as [-> _]. exact Q.
Qed.

Lemma mk_ring_sub l r : (forall c, In c l -> finite_point c) -> mk_ring l = Ok r -> incl r l.
Proof.
  intros F H. unfold mk_ring in H. apply bind_ok in H as [s [Hs H]]. injection H as <-. intros d Hd. apply (mk_line_sub _ _ F Hs).
  destruct s as [|c s]; [exact Hd|]. cbn [close_ring] in Hd. destruct (point_eq _ _); [exact Hd|]. apply in_app_or in Hd as [Hd|[<-|[]]]; [exact Hd|now left].
Qed.

Section Shapes.
  Variable W : world.
  Hypothesis Kc : class_of W "geometry.Coordinates" = Some cl_geometry_Coordinates.
  Hypothesis Kl : class_of W "geometry.LineString" = Some cl_geometry_LineString.
  Hypothesis Kr : class_of W "geometry.LinearRing" = Some cl_geometry_LinearRing.
  Hypothesis Ko : class_of W "geometry.OuterBoundaryIs" = Some cl_geometry_OuterBoundaryIs.
  Hypothesis Ki : class_of W "geometry.InnerBoundaryIs" = Some cl_geometry_InnerBoundaryIs.
  Hypothesis Kg : class_of W "geometry.Polygon" = Some cl_geometry_Polygon.
  Hypothesis HS : shapes_ok W = true.

  Lemma attr_part P c ns nss attrs a x : vall P (VObj c ns nss attrs) = true -> sget a attrs = Some x -> vall P x = true.
  Proof. intros H X. cbn [vall] in H. apply andb_prop in H as [_ H]. rewrite forallb_forall in H. exact (H _ (sget_In _ _ _ X)). Qed.

  Lemma attr_literal c ns nss attrs a x : literals (VObj c ns nss attrs) = true -> sget a attrs = Some x -> literals x = true.
  Proof. intros H X. cbn [literals] in H. rewrite forallb_forall in H. exact (H _ (sget_In _ _ _ X)). Qed.

  Lemma line_or_ring c : c = "geometry.LineString" \/ c = "geometry.LinearRing" -> exists ci, class_of W c = Some ci /\ ci_bool ci = BGeometry /\
    holds W c "kml_coordinates" "geometry.Coordinates" SObj = true /\ In ("kml_coordinates", CRaw) (ctor_attrs ci) /\
    eq_kind ci = Some ("geometry.LineString", ["extrude"; "tessellate"]) /\
    exists mk : list (list num) -> res (option geo), (forall env b, eval_geom env b (ci_geom ci) = coords_geometry env mk) /\
      (forall l r, l <> [] -> (forall p, In p l -> finite_point p) -> mk l = Ok r -> r = None \/ exists g, r = Some g /\ geo_empty g = false /\ nilb (geo_coords g) = false /\ mk (geo_coords g) = Ok (Some g) /\ incl (geo_coords g) l /\
         (forallb (forallb num_literal) (geo_coords g) = true -> exists t, repr_geo (Some g) = Ok t /\ eval_geo t = Some (Some g))).
  Proof.
    unfold shapes_ok in HS. rewrite !andb_true_iff in HS. destruct HS as [[[[[H1 H2] _] _] _] _]. intros [-> | ->].
    - exists cl_geometry_LineString. split; [exact Kl|]. split; [reflexivity|]. split; [exact H1|]. split; [now left|]. split; [reflexivity|].
      exists (fun l => catch_dimension (let! r := mk_line l in Ok (Some (GLine r)))). split; [reflexivity|]. intros l r N F H.
      destruct (mk_line l) as [s|e] eqn:E; cbn [bind] in H.
      + cbn [catch_dimension] in H. injection H as <-. right. assert (Wf := mk_line_finite _ _ N F E). exists (GLine s). cbn [geo_empty geo_coords]. split; [reflexivity|]. split; [now apply line_wf_full|]. split; [now apply line_wf_full|].
        rewrite mk_line_wf by exact Wf. split; [reflexivity|]. split; [exact (mk_line_sub _ _ F E)|]. intros L. destruct (coords_back s L) as [t [T1 T2]]. exists (PGLine t). cbn [repr_geo eval_geo]. rewrite T1, T2, mk_line_wf by exact Wf. auto.
      + destruct e; try discriminate H. injection H as <-. now left.
    - exists cl_geometry_LinearRing. split; [exact Kr|]. split; [reflexivity|]. split; [exact H2|]. split; [now left|]. split; [reflexivity|].
      exists (fun l => catch_dimension (let! r := mk_ring l in Ok (Some (GRing r)))). split; [reflexivity|]. intros l r N F H.
      destruct (mk_ring l) as [s|e] eqn:E; cbn [bind] in H.
      + cbn [catch_dimension] in H. injection H as <-. right. assert (Wf := mk_ring_finite _ _ N F E). exists (GRing s). cbn [geo_empty geo_coords]. split; [reflexivity|]. split; [now apply ring_full|]. split; [now apply ring_full|].
        rewrite mk_ring_wf by exact Wf. split; [reflexivity|]. split; [exact (mk_ring_sub _ _ F E)|]. intros L. destruct (coords_back s L) as [t [T1 T2]]. exists (PGRing t). cbn [repr_geo eval_geo]. rewrite T1, T2, mk_ring_wf by exact Wf. auto.
      + destruct e; try discriminate H. injection H as <-. now left.
  Qed.

  Lemma env_attr (attrs : list (string * value)) a : sget a (env_of W attrs) = option_map (fun x => (x, sem W x, match x with VList l => map (sem W) l | _ => [] end)) (sget a attrs).
  Proof. unfold env_of. induction attrs as [|[b x] l IH]; cbn [map sget]; [reflexivity|]. destruct (String.eqb a b); [reflexivity|exact IH]. Qed.

  Lemma geometry_at c ci ns nss attrs : class_of W c = Some ci -> exists b, geometry W (VObj c ns nss attrs) = eval_geom (env_of W attrs) b (ci_geom ci).
  Proof. intro C. destruct (sem_obj W c ci ns nss attrs C) as [_ ->]. eexists. reflexivity. Qed.

  Lemma incl_literal l l' : incl l' l -> forallb (forallb num_literal) l = true -> forallb (forallb num_literal) l' = true.
  Proof. rewrite !forallb_forall. intros I H c Hc. exact (H c (I c Hc)). Qed.

  (** The coordinates of a line or ring give a geometry from which the same
      geometry can be built again. *)
  Lemma line_back c ns nss attrs g : c = "geometry.LineString" \/ c = "geometry.LinearRing" ->
    vall (typed_node W) (VObj c ns nss attrs) = true -> literals (VObj c ns nss attrs) = true -> geometry W (VObj c ns nss attrs) = Ok g ->
    exists t k', repr_geo g = Ok t /\ eval_geo t = Some g /\
      (forall attrs', sget "kml_coordinates" attrs' = Some k' -> geometry W (VObj c ns nss attrs') = Ok g) /\
      (g = None /\ k' = VNone \/ exists g', g = Some g' /\ geo_empty g' = false /\ nilb (geo_coords g') = false /\ k' = coords_obj (geo_coords g')) /\
      (c = "geometry.LinearRing" -> g = None \/ exists r, g = Some (GRing r) /\ ring_wf r /\ forallb (forallb num_literal) r = true).
  Proof.
    intros Hc Ty Li Hg. destruct (line_or_ring c Hc) as [ci [C [_ [Hh [_ [_ [mk [Em Hm]]]]]]]].
    assert (Tn : typed_node W c ns nss attrs = true) by (cbn [vall] in Ty; now apply andb_prop in Ty).
    destruct (geometry_at c ci ns nss attrs C) as [b Eg]. rewrite Eg, Em in Hg. unfold coords_geometry, with_attr in Hg. rewrite env_attr in Hg.
    destruct (sget "kml_coordinates" attrs) as [x|] eqn:X; [|discriminate Hg]. cbn [option_map] in Hg. unfold a_bool, a_val in Hg. cbn [fst snd] in Hg.
    assert (Sn : forall attrs', sget "kml_coordinates" attrs' = Some VNone -> geometry W (VObj c ns nss attrs') = Ok None).
    { intros attrs' X'. destruct (geometry_at c ci ns nss attrs' C) as [b' Eg']. rewrite Eg', Em. unfold coords_geometry, with_attr. rewrite env_attr, X'. reflexivity. }
    apply bind_ok in Hg as [bx [Hb Hg]]. destruct bx.
    2:{ injection Hg as <-. exists PGNone, VNone. split; [reflexivity|]. split; [reflexivity|]. split; [exact Sn|]. split; [now left|]. now left. }
    apply bind_ok in Hg as [l [Hl Hg]]. destruct (holds_obj _ _ _ _ _ _ _ _ Hh Tn X) as [-> |[n [m [at_ ->]]]]; [discriminate Hb|].
    assert (Lx := attr_literal _ _ _ _ _ _ Li X). cbn [coords_of] in Hl. destruct (sget "coords" at_) as [y|] eqn:Y; [|discriminate Hl]. destruct y as [ | | | | | | |t y| | | | ]; try discriminate Hl. injection Hl as ->.
    assert (Ly := attr_literal _ _ _ _ _ _ Lx Y). cbn [literals] in Ly.
    assert (N : l <> []).
    { intros ->. change (py_bool W (VObj "geometry.Coordinates" n m at_) = Ok true) in Hb. destruct (sem_obj W _ _ n m at_ Kc) as [Sb _]. rewrite Sb in Hb. cbn [cl_geometry_Coordinates ci_bool eval_bool] in Hb. unfold with_attr in Hb. rewrite env_attr, Y in Hb. discriminate Hb. }
    assert (F : forall p, In p l -> finite_point p) by (intros p Hp; apply literals_no_nan; rewrite forallb_forall in Ly; now apply Ly).
    assert (R : c = "geometry.LinearRing" -> g = None \/ exists r, g = Some (GRing r) /\ ring_wf r /\ forallb (forallb num_literal) r = true).
    { intros ->. rewrite Kr in C. injection C as <-. specialize (Em (env_of W [("kml_coordinates", VObj "geometry.Coordinates" n m at_)]) (Ok true)). cbn [cl_geometry_LinearRing ci_geom eval_geom] in Em.
      unfold coords_geometry, with_attr in Em. cbn [env_of map sget String.eqb Ascii.eqb Bool.eqb] in Em. unfold a_bool, a_val in Em. cbn [fst snd] in Em. rewrite Hb in Em. cbn [bind coords_of] in Em. rewrite Y in Em. cbn [bind] in Em. rewrite <- Em in Hg.
      destruct (mk_ring l) as [s|e] eqn:E; cbn [bind catch_dimension] in Hg; [|destruct e; try discriminate Hg; injection Hg as <-; now left]. injection Hg as <-. right. exists s. split; [reflexivity|].
      split; [exact (mk_ring_finite _ _ N F E)|exact (incl_literal _ _ (mk_ring_sub _ _ F E) Ly)]. }
    destruct (Hm l g N F Hg) as [-> |[g' [-> [E1 [E2 [E3 [E4 E5]]]]]]].
    - exists PGNone, VNone. split; [reflexivity|]. split; [reflexivity|]. split; [exact Sn|]. split; [now left|exact R].
    - destruct (E5 (incl_literal _ _ E4 Ly)) as [t' [T1 T2]]. exists t', (coords_obj (geo_coords g')). split; [exact T1|]. split; [exact T2|]. split; [|split; [right; exists g'; auto|exact R]].
      intros attrs' X'. destruct (geometry_at c ci ns nss attrs' C) as [b' Eg']. rewrite Eg', Em. unfold coords_geometry, with_attr. rewrite env_attr, X'. cbn [option_map]. unfold a_bool, a_val. cbn [fst snd].
      change (fst (sem W (coords_obj (geo_coords g')))) with (py_bool W (coords_obj (geo_coords g'))). unfold coords_obj at 1. destruct (sem_obj W _ _ KMLNS NAME_SPACES [("coords", VCoords true (geo_coords g'))] Kc) as [Sb _]. rewrite Sb. cbn [cl_geometry_Coordinates ci_bool eval_bool].
      unfold with_attr. rewrite env_attr. cbn [sget String.eqb Ascii.eqb Bool.eqb option_map]. unfold a_bool. cbn [fst snd sem]. rewrite E2. cbn [negb bind coords_obj coords_of sget String.eqb Ascii.eqb Bool.eqb]. exact E3.
  Qed.

  (** The geometry of a boundary. *)
  Lemma boundary_back c ns nss attrs g : c = "geometry.OuterBoundaryIs" \/ c = "geometry.InnerBoundaryIs" ->
    vall (typed_node W) (VObj c ns nss attrs) = true -> literals (VObj c ns nss attrs) = true -> geometry W (VObj c ns nss attrs) = Ok g ->
    g = None \/ exists r, g = Some (GRing r) /\ ring_wf r /\ forallb (forallb num_literal) r = true.
  Proof.
    intros Hc Ty Li Hg. assert (Q : exists ci, class_of W c = Some ci /\ ci_geom ci = GkBoundary /\ holds W c "kml_geometry" "geometry.LinearRing" SObj = true).
    { unfold shapes_ok in HS. rewrite !andb_true_iff in HS. destruct HS as [[[[[_ _] H1] H2] _] _]. destruct Hc as [-> | ->]; eauto. }
    destruct Q as [ci [C [Kg' Hh]]]. assert (Tn : typed_node W c ns nss attrs = true) by (cbn [vall] in Ty; now apply andb_prop in Ty).
    destruct (geometry_at c ci ns nss attrs C) as [b Eg]. rewrite Eg, Kg' in Hg. cbn [eval_geom] in Hg. unfold with_attr in Hg. rewrite env_attr in Hg.
    destruct (sget "kml_geometry" attrs) as [x|] eqn:X; [|discriminate Hg]. cbn [option_map] in Hg. unfold a_bool, a_geom in Hg. cbn [fst snd] in Hg. apply bind_ok in Hg as [bx [Hb Hg]].
    destruct bx; [|injection Hg as <-; now left]. destruct (holds_obj _ _ _ _ _ _ _ _ Hh Tn X) as [-> |[n [m [at_ ->]]]]; [discriminate Hb|].
    destruct (line_back "geometry.LinearRing" n m at_ g (or_intror eq_refl) (attr_part _ _ _ _ _ _ _ Ty X) (attr_literal _ _ _ _ _ _ Li X) Hg) as [_ [_ [_ [_ [_ [_ R]]]]]]. now apply R.
  Qed.
End Shapes.

Section Whole.
  Variable W : world.
  Variable geq : geo -> geo -> bool.
  Hypothesis HW : world_ok W = true.
  Hypothesis HR : reprs_ok W = true.
  Hypothesis HS : shapes_ok W = true.
  Hypothesis ka : kinds_attrs W = true.
  Hypothesis Kc : class_of W "geometry.Coordinates" = Some cl_geometry_Coordinates.
  Hypothesis Kl : class_of W "geometry.LineString" = Some cl_geometry_LineString.
  Hypothesis Kr : class_of W "geometry.LinearRing" = Some cl_geometry_LinearRing.
  Hypothesis Ko : class_of W "geometry.OuterBoundaryIs" = Some cl_geometry_OuterBoundaryIs.
  Hypothesis Ki : class_of W "geometry.InnerBoundaryIs" = Some cl_geometry_InnerBoundaryIs.
  Hypothesis Kg : class_of W "geometry.Polygon" = Some cl_geometry_Polygon.
  Hypothesis Ks : class_of W "styles.IconStyle" = Some cl_styles_IconStyle.
  Hypothesis Km : class_of W "features.Placemark" = Some cl_features_Placemark.

  (** ** Polygons *)

  Lemma rings_back l : Forall ring_wf l -> map_res mk_ring l = Ok l.
  Proof. induction 1 as [|r l H _ IH]; cbn [map_res]; [reflexivity|]. now rewrite mk_ring_wf, IH. Qed.

  Lemma holes_back l : forall gs hs, (forall y, In y l -> is_a "geometry.InnerBoundaryIs" y /\ vall (typed_node W) y = true /\ literals y = true) ->
    some_geoms (map snd (map (sem W) l)) = Ok gs -> map_res line_of gs = Ok hs -> Forall ring_wf hs /\ forallb (forallb (forallb num_literal)) hs = true.
  Proof.
    induction l as [|y l IH]; intros gs hs H G M; cbn [map some_geoms] in G.
    - injection G as <-. injection M as <-. split; [constructor|reflexivity].
    - apply bind_ok in G as [o [Ho G]]. apply bind_ok in G as [gs' [G' G]]. destruct (H y (or_introl eq_refl)) as [[n [m [at_ ->]]] [Ty Li]].
      destruct (boundary_back W Kc Kl Kr Ko Ki HS _ n m at_ o (or_intror eq_refl) Ty Li Ho) as [-> |[r [-> [Wr Lr]]]].
      + injection G as <-. apply (IH gs' hs); auto. intros z Hz. apply H. now right.
      + injection G as <-. cbn [geo_empty] in M. cbn [map_res line_of bind] in M. apply bind_ok in M as [hs' [M' M]]. injection M as <-.
        destruct (IH gs' hs' (fun z Hz => H z (or_intror Hz)) G' M') as [I1 I2]. split; [now constructor|]. cbn [forallb]. now rewrite Lr, I2.
  Qed.

  Lemma polygon_back ns nss attrs g : vall (typed_node W) (VObj "geometry.Polygon" ns nss attrs) = true -> literals (VObj "geometry.Polygon" ns nss attrs) = true ->
    geometry W (VObj "geometry.Polygon" ns nss attrs) = Ok g ->
    exists t, repr_geo g = Ok t /\ eval_geo t = Some g /\
      (g = None /\ py_bool W (VObj "geometry.Polygon" ns nss attrs) = Ok false \/
       exists s hs, g = Some (GPoly s hs) /\ ring_wf s /\ Forall ring_wf hs /\ py_bool W (VObj "geometry.Polygon" ns nss attrs) = Ok true).
  Proof.
    intros Ty Li Hg. assert (Tn : typed_node W "geometry.Polygon" ns nss attrs = true) by (cbn [vall] in Ty; now apply andb_prop in Ty).
    assert (HS' := HS). unfold shapes_ok in HS'. rewrite !andb_true_iff in HS'. destruct HS' as [[[[[_ _] _] _] Ho] Hi].
    destruct (sem_obj W _ _ ns nss attrs Kg) as [Sb Sg]. rewrite Sg in Hg. cbn [cl_geometry_Polygon ci_geom eval_geom] in Hg. unfold with_attr in Hg. rewrite !env_attr in Hg.
    rewrite Sb. cbn [cl_geometry_Polygon ci_bool eval_bool]. unfold with_attr. rewrite env_attr.
    destruct (sget "outer_boundary" attrs) as [x|] eqn:X; [|discriminate Hg]. cbn [option_map] in *. unfold a_bool, a_geom in *. cbn [fst snd] in *.
    apply bind_ok in Hg as [b [Hb Hg]]. rewrite Hb. destruct b.
    2:{ injection Hg as <-. exists PGNone. split; [reflexivity|]. split; [reflexivity|]. now left. }
    destruct (holds_obj _ _ _ _ _ _ _ _ Ho Tn X) as [-> |[n [m [at_ ->]]]]; [discriminate Hb|]. apply bind_ok in Hg as [o [Go Hg]].
    destruct (boundary_back W Kc Kl Kr Ko Ki HS _ n m at_ o (or_introl eq_refl) (attr_part _ _ _ _ _ _ _ Ty X) (attr_literal _ _ _ _ _ _ Li X) Go) as [-> |[s [-> [Ws Ls]]]]; [discriminate Hg|].
    cbn [line_of bind] in Hg. destruct (sget "inner_boundaries" attrs) as [y|] eqn:Y; [|discriminate Hg]. cbn [option_map] in Hg. unfold a_list in Hg. cbn [snd] in Hg.
    apply bind_ok in Hg as [gs [G1 Hg]]. apply bind_ok in Hg as [hs [G2 Hg]].
    assert (Q : Forall ring_wf hs /\ forallb (forallb (forallb num_literal)) hs = true).
    { destruct (holds_objs _ _ _ _ _ _ _ _ Hi Tn Y) as [-> |[l [-> Il]]].
      - injection G1 as <-. injection G2 as <-. split; [constructor|reflexivity].
      - assert (Ty' := attr_part _ _ _ _ _ _ _ Ty Y). assert (Li' := attr_literal _ _ _ _ _ _ Li Y). cbn [vall literals] in Ty', Li'. rewrite forallb_forall in Ty', Li'.
        apply (holes_back l gs hs); auto. }
    destruct Q as [Wh Lh]. rewrite mk_poly_wf in Hg by assumption. injection Hg as <-. destruct (coords_back s Ls) as [t [T1 T2]].
    rewrite forallb_forall in Lh. destruct (list_back (map_res repr_nums) (traverse eval_nums) hs (fun h Hh => coords_back h (Lh h Hh))) as [ts [T3 T4]].
    exists (PGPoly t ts). cbn [repr_geo eval_geo]. rewrite T1. cbn [bind]. rewrite T3, T2, T4, mk_poly_wf by assumption. split; [reflexivity|]. split; [reflexivity|]. right. exists s, hs. auto.
  Qed.

  Lemma polygon_empty ns nss attrs : sget "outer_boundary" attrs = Some VNone -> sem W (VObj "geometry.Polygon" ns nss attrs) = (Ok false, Ok None).
  Proof.
    intro X. destruct (sem_obj W _ _ ns nss attrs Kg) as [Sb Sg]. unfold py_bool in Sb. unfold geometry in Sg. rewrite (surjective_pairing (sem W _)), Sb, Sg. cbn [cl_geometry_Polygon ci_geom eval_geom ci_bool eval_bool]. unfold with_attr. rewrite env_attr, X. reflexivity.
  Qed.

  Lemma polygon_again ns nss attrs s hs : ring_wf s -> Forall ring_wf hs -> sget "outer_boundary" attrs = Some (boundary_obj "geometry.OuterBoundaryIs" s) ->
    sget "inner_boundaries" attrs = Some (VList (map (boundary_obj "geometry.InnerBoundaryIs") hs)) -> sem W (VObj "geometry.Polygon" ns nss attrs) = (Ok true, Ok (Some (GPoly s hs))).
  Proof.
    intros Hs Hh X Y. destruct (sem_obj W _ _ ns nss attrs Kg) as [Sb Sg]. unfold py_bool in Sb. unfold geometry in Sg. rewrite (surjective_pairing (sem W _)), Sb, Sg. cbn [cl_geometry_Polygon ci_geom eval_geom ci_bool eval_bool]. unfold with_attr. rewrite !env_attr, X, Y. cbn [option_map].
    destruct (boundary_facts W Kc Kr Ko Ki "geometry.OuterBoundaryIs" s Hs (or_introl eq_refl)) as [G B].
    unfold a_bool, a_geom, a_list. cbn [fst snd]. unfold geometry in G. unfold py_bool in B. rewrite B, G. cbn [bind line_of]. rewrite map_map.
    assert (E : some_geoms (map (fun x => snd (sem W x)) (map (boundary_obj "geometry.InnerBoundaryIs") hs)) = Ok (map GRing hs)).
    { clear -Hh Ki Kc Kr Ko. induction Hh as [|h hs H _ IH]; cbn [map some_geoms]; [reflexivity|].
      destruct (boundary_facts W Kc Kr Ko Ki "geometry.InnerBoundaryIs" h H (or_intror eq_refl)) as [G _]. unfold geometry in G. rewrite G. cbn [bind]. now rewrite IH. }
    rewrite E. cbn [bind]. assert (E' : map_res line_of (map GRing hs) = Ok hs).
    { clear. induction hs as [|h hs IH]; cbn; [reflexivity|]. now rewrite IH. }
    rewrite E'. cbn [bind]. now rewrite mk_poly_wf.
  Qed.

  (** ** Calls *)

  Lemma call_plain c ci ns nss kws : class_of W c = Some ci -> (c = "styles.IconStyle" -> kwget kws "icon_href" = VNone) ->
    call W c ns nss None kws = if String.eqb c "features.Placemark" then (let! _ := py_bool W (kwget kws "kml_geometry") in construct W c ns nss kws) else construct W c ns nss kws.
  Proof.
    intros C I. unfold call. destruct (String.eqb_spec c "features.Placemark") as [-> |Np].
    - cbn [mem existsb String.eqb Ascii.eqb Bool.eqb orb]. unfold new_placemark. destruct (py_bool W _) as [b|]; [|reflexivity]. cbn [bind]. now rewrite andb_false_r.
    - destruct (mem c ["geometry.Point"; _; _]); [reflexivity|]. destruct (mem c _); [reflexivity|]. destruct (String.eqb_spec c "geometry.Polygon") as [-> |]; [reflexivity|]. destruct (String.eqb_spec c "geometry.MultiGeometry") as [-> |]; [reflexivity|].
      destruct (String.eqb_spec c "styles.IconStyle") as [-> |]; [|reflexivity]. unfold new_iconstyle. rewrite (I eq_refl). cbn [clean_string bind]. unfold py_bool at 1. cbn [sem fst bind andb]. unfold new.
      apply (construct_ext W _ cl_styles_IconStyle); [exact Ks| |reflexivity]. intro a. unfold kwget. cbn [sget]. destruct (String.eqb_spec a "icon") as [-> |]; reflexivity.
  Qed.

  Lemma not_attr ci attrs a : shape_ok ci attrs = true -> mem a (ci_params ci) = true -> ~ In a (map fst (ctor_attrs ci)) -> kwget attrs a = VNone.
  Proof.
    intros Sh P N. unfold kwget. destruct (sget a attrs) as [x|] eqn:X; [|reflexivity]. exfalso. assert (Hx : In (a, x) (extras ci attrs)).
    { unfold extras. apply filter_In. split; [now apply sget_In|]. cbn [fst]. apply negb_true_iff, not_true_iff_false. now rewrite mem_true. }
    assert (Q := shape_extra _ _ _ Sh Hx). cbn [fst] in Q. congruence.
  Qed.

  Definition shown_attrs := Forall2 (fun p q : string * value => fst p = fst q /\ shows W geq (snd p) (snd q)).

  Lemma shows_alike lost l l' : shown_attrs l l' -> Forall2 (alike W geq lost) l l'.
  Proof. induction 1 as [|p q l l' [E [S _]] _ IH]; constructor; [split; auto|exact IH]. Qed.

  Lemma kwget_cons a b x kws : kwget ((a, x) :: kws) b = if String.eqb b a then x else kwget kws b.
  Proof. unfold kwget. cbn [sget]. now destruct (String.eqb b a). Qed.

  Lemma object_shows c ns nss attrs attrs1 : vall (typed_node W) (VObj c ns nss attrs) = true -> literals (VObj c ns nss attrs) = true ->
    repr_node W c ns nss attrs = true -> nodups (map fst nss) = true -> call W c ns nss None attrs = Ok (VObj c ns nss attrs) ->
    (geometric W (VObj c ns nss attrs) = true -> exists g, geometry W (VObj c ns nss attrs) = Ok g /\ forall g', g = Some g' -> geq g' g' = true) ->
    shown_attrs attrs attrs1 ->
    exists v', shows W geq (VObj c ns nss attrs) v' /\ (unprinted c = [] -> v' = VObj c ns nss attrs1).
  Proof.
    intros Ty Li Rn Dn Hcall Fine Sh1. set (v := VObj c ns nss attrs) in *.
    assert (Tn : typed_node W c ns nss attrs = true) by (cbn [vall v] in Ty; now apply andb_prop in Ty).
    assert (C : exists ci, class_of W c = Some ci /\ shape_ok ci attrs = true).
    { unfold typed_node in Tn. destruct (class_of W c) as [ci|]; [|discriminate Tn]. exists ci. apply andb_prop in Tn as [Tn _]. auto. }
    destruct C as [ci [C Sh]]. assert (ND := shape_nodup _ _ Sh). destruct (class_facts W c ci HW C) as [Nc [Pc Tc]].
    destruct (object_args W geq HW HR c ci ns nss attrs attrs1 C Tn Rn Sh1) as [args [splat [xs [E1 [E2 [E3 [E4 [E5 [E6 [E7 [E8 E9]]]]]]]]]]].
    set (kws := (xs ++ extras ci attrs1)%list) in *.
    assert (Ic : forall kws', (forall a, mem a (ci_params ci) = true -> ~ In a (map fst (ctor_attrs ci)) -> kwget kws' a = VNone) -> c = "styles.IconStyle" -> kwget kws' "icon_href" = VNone).
    { intros kws' H ->. rewrite Ks in C. injection C as <-. apply H; [reflexivity|]. cbn. intuition discriminate. }
    assert (Hcon : construct W c ns nss attrs = Ok v /\ (c = "features.Placemark" -> exists b, py_bool W (kwget attrs "kml_geometry") = Ok b)).
    { rewrite (call_plain c ci ns nss attrs C) in Hcall.
      - destruct (String.eqb_spec c "features.Placemark") as [Ep|Np]; [|split; [exact Hcall|contradiction]]. apply bind_ok in Hcall as [b [Hb Hcall]]. split; [exact Hcall|]. intros _. eauto.
      - apply Ic. intros a Hp Hn. now apply (not_attr ci). }
    destruct Hcon as [Hcon Hpm].
    assert (Fin : forall g v', (unprinted c <> [] -> exists t, geometry W v = Ok g /\ repr_geo g = Ok t /\ eval_geo t = Some g) -> (unprinted c = [] -> g = None) ->
      call W c ns nss g kws = Ok v' -> same W geq v v' -> shows W geq v v').
    { intros g v' G1 G2 Hc S. split; [exact S|]. intros r Ap. cbn [apt v] in Ap. subst r. unfold shown.
      assert (Q : exists o, (if existsb is_geometry (repr_of ci) then let! g := geometry W v in let! t := repr_geo g in Ok (Some t) else Ok None) = Ok o /\ match o with Some g => eval_geo g | None => Some None end = Some g).
      { rewrite E9. destruct (unprinted c) as [|u0 us]; cbn [nilb negb].
        - rewrite (G2 eq_refl). eexists. split; reflexivity.
        - destruct G1 as [t [T1 [T2 T3]]]; [discriminate|]. rewrite T1. cbn [bind]. rewrite T2. eexists. split; [reflexivity|exact T3]. }
      destruct Q as [o [Q1 Q2]]. exists (PECall c ns nss args o splat). split.
      - unfold v. cbn [repr]. rewrite C. fold v. fold (rs_of W attrs). rewrite E1. cbn [bind]. rewrite Q1. cbn [bind]. rewrite E2. reflexivity.
      - rewrite eval_call, E3, E4, E5, Q2. fold kws. now rewrite Hc. }
    assert (Tr : forall a, In (a, CTrack) (ctor_attrs ci) -> forall b, In b track_attrs -> kwget kws b = VNone).
    { intros a Ha b Hb. destruct (Tc a Ha b Hb) as [P N]. apply E8; auto. }
    assert (Keys : map fst attrs1 = map fst attrs) by exact (alike_keys _ _ _ _ _ (shows_alike [] _ _ Sh1)).
    destruct (unprinted c) as [|u0 us] eqn:U.
    - (* everything is printed *)
      assert (A := shows_alike [] _ _ Sh1). exists (VObj c ns nss attrs1). split; [|reflexivity].
      assert (Sem := alike_sem W geq c ns nss _ _ A). fold v in Sem.
      assert (S : same W geq v (VObj c ns nss attrs1)).
      { split; [reflexivity|]. split; [exact Sem|]. split; [reflexivity|]. split; [apply (alike_coords W geq []); [intros []|exact A]|].
        apply (alike_eqv W geq ka [] c ci); [exact C|exact Sh|exact Dn| | |exact A].
        - destruct (eq_kind ci) as [[k names]|]; [intros n []|reflexivity].
        - intro Ek. destruct Fine as [g [G1 G2]]; [unfold geometric, v; rewrite C; destruct (eq_kind ci); congruence|]. exists g. split; [exact G1|]. split; [|exact G2]. unfold geometry in *. now rewrite <- Sem. }
      apply (Fin None); [contradiction|reflexivity| |exact S].
      assert (Hk : construct W c ns nss kws = Ok (VObj c ns nss attrs1)).
      { apply (construct_like W geq HW [] c ci ns nss attrs attrs1 kws); auto. intros a k _ []. }
      rewrite (call_plain c ci ns nss kws C).
      + destruct (String.eqb_spec c "features.Placemark") as [Ep|Np]; [|exact Hk]. destruct (Hpm Ep) as [b Hb].
        assert (B : py_bool W (kwget kws "kml_geometry") = Ok b); [|now rewrite B].
        destruct (in_dec String.string_dec "kml_geometry" (map fst (ctor_attrs ci))) as [Hin|Hin].
        * apply in_map_iff in Hin as [[a k] [Ea Hin]]. cbn [fst] in Ea. subst a. rewrite (E7 _ _ Hin) by (intros []). unfold kwget in *. destruct (sget "kml_geometry" attrs) as [x|] eqn:X.
          -- destruct (alike_get _ _ _ _ _ _ _ A X) as [x' [-> [[]|Sx]]]. now rewrite (same_bool _ _ _ _ Sx).
          -- now rewrite (alike_none _ _ _ _ _ _ A X).
        * destruct (mem "kml_geometry" (ci_params ci)) eqn:P.
          -- rewrite (E8 _ P (or_introl Hin)). rewrite (not_attr ci attrs _ Sh P Hin) in Hb. exact Hb.
          -- exfalso. rewrite Ep, Km in C. injection C as <-. discriminate P.
      + apply Ic. auto.
    - assert (Ek : exists names, eq_kind ci = Some names /\ geometric W v = true).
      { unfold unprinted in U. unfold geometric, v. rewrite C. destruct (mem c ["geometry.LineString"; "geometry.LinearRing"]) eqn:M.
        - apply mem_true in M. destruct M as [<-|[<-|[]]]; [rewrite Kl in C|rewrite Kr in C]; injection C as <-; eexists; split; reflexivity.
        - destruct (String.eqb_spec c "geometry.Polygon") as [-> |]; [|discriminate U]. rewrite Kg in C. injection C as <-. eexists. split; reflexivity. }
      destruct Ek as [kn [Ek Gv]]. destruct (Fine Gv) as [g [G1 G2]].
      (* what is left to show once the attributes that replace the lost ones are known *)
      assert (Same : forall attrs', Forall2 (alike W geq (u0 :: us)) attrs attrs' -> sem W v = sem W (VObj c ns nss attrs') -> same W geq v (VObj c ns nss attrs')).
      { intros attrs' A' Sem. split; [reflexivity|]. split; [exact Sem|]. split; [reflexivity|]. split.
        - apply (alike_coords W geq (u0 :: us)); [|exact A']. rewrite <- U. unfold unprinted. destruct (mem c _); [cbn; intuition discriminate|]. destruct (String.eqb c _); cbn; intuition discriminate.
        - apply (alike_eqv W geq ka (u0 :: us) c ci); [exact C|exact Sh|exact Dn| | |exact A'].
          + assert (Nx : forall n, In n (map fst (ctor_attrs ci)) -> ~ In n (map fst (extras ci attrs))).
            { intros n Hn Hx. apply in_map_iff in Hx as [kv [<- Hx]]. unfold extras in Hx. apply filter_In in Hx as [_ Hx]. apply negb_true_iff, not_true_iff_false in Hx. apply Hx. now apply mem_true. }
            rewrite <- U. unfold unprinted in *. destruct (mem c ["geometry.LineString"; "geometry.LinearRing"]) eqn:M.
            * apply mem_true in M. destruct M as [<-|[<-|[]]]; [rewrite Kl in C|rewrite Kr in C]; injection C as <-; (cbn -[extras]; intros n [<-|[]]; split; [intuition discriminate|]; split; [discriminate|]; split; [discriminate|]; apply Nx; cbn; tauto).
            * destruct (String.eqb_spec c "geometry.Polygon") as [-> |]; [|discriminate U]. rewrite Kg in C. injection C as <-. cbn -[extras]. intros n [<-|[<-|[]]]; (split; [intuition discriminate|]; split; [discriminate|]; split; [discriminate|]; apply Nx; cbn; tauto).
          + intros _. exists g. split; [exact G1|]. split; [|exact G2]. unfold geometry in *. now rewrite <- Sem. }
      assert (Kin : forall a k k', In (a, k) (ctor_attrs ci) -> In (a, k') (ctor_attrs ci) -> k' = k).
      { intros a k k' H1 H2. assert (Q1 := sget_NoDup _ _ _ Nc H1). assert (Q2 := sget_NoDup _ _ _ Nc H2). congruence. }
      assert (Has : forall a k, In (a, k) (ctor_attrs ci) -> exists x, sget a attrs1 = Some x).
      { intros a k Ha. destruct (shape_has ci attrs a Sh) as [x X]; [apply mem_true; now apply (in_map fst) in Ha|]. destruct (alike_get _ _ [] _ _ _ _ (shows_alike [] _ _ Sh1) X) as [x' [X' _]]. eauto. }
      destruct (String.eqb_spec c "geometry.Polygon") as [Ep|Np].
      + assert (U' : u0 :: us = ["outer_boundary"; "inner_boundaries"]) by (rewrite <- U, Ep; reflexivity). clear U. rename U' into U.
        assert (Ci : ci = cl_geometry_Polygon) by (rewrite Ep, Kg in C; congruence).
        assert (In1 : In ("outer_boundary", CRaw) (ctor_attrs ci)) by (rewrite Ci; cbn; tauto). assert (In2 : In ("inner_boundaries", CListTruthy) (ctor_attrs ci)) by (rewrite Ci; cbn; tauto).
        assert (Ty' := Ty). assert (Li' := Li). assert (G1' := G1). unfold v in Ty', Li', G1'. rewrite Ep in Ty', Li', G1'.
        destruct (polygon_back ns nss attrs g Ty' Li' G1') as [t [T1 [T2 T3]]].
        assert (Q : exists o is_ kws', call W c ns nss g kws = construct W c ns nss kws' /\ extras_of ci kws' = extras_of ci kws /\
          (forall a, a <> "outer_boundary" -> a <> "inner_boundaries" -> kwget kws' a = kwget kws a) /\
          mk_attr W kws' ("outer_boundary", CRaw) = Ok ("outer_boundary", o) /\ mk_attr W kws' ("inner_boundaries", CListTruthy) = Ok ("inner_boundaries", VList is_) /\
          (forall attrs', sget "outer_boundary" attrs' = Some o -> sget "inner_boundaries" attrs' = Some (VList is_) -> sem W v = sem W (VObj c ns nss attrs'))).
        { assert (Z1 : kwget kws "outer_boundary" = VNone) by (apply E8; [apply (Pc _ In1)|right; rewrite U; cbn; tauto]). assert (Z2 : kwget kws "inner_boundaries" = VNone) by (apply E8; [apply (Pc _ In2)|right; rewrite U; cbn; tauto]).
          destruct T3 as [[-> B]|[s [hs [-> [Ws [Wh B]]]]]].
          - exists VNone, [], kws. split; [rewrite Ep; reflexivity|]. split; [reflexivity|]. split; [reflexivity|]. unfold mk_attr. rewrite Z1, Z2. split; [reflexivity|]. split; [reflexivity|]. intros attrs' X' _.
            rewrite Ep, (polygon_empty ns nss attrs' X'). unfold v. rewrite Ep, (surjective_pairing (sem W _)). unfold py_bool in B. unfold geometry in G1'. now rewrite B, G1'.
          - exists (boundary_obj "geometry.OuterBoundaryIs" s), (map (boundary_obj "geometry.InnerBoundaryIs") hs), (("outer_boundary", boundary_obj "geometry.OuterBoundaryIs" s) :: ("inner_boundaries", VList (map (boundary_obj "geometry.InnerBoundaryIs") hs)) :: kws).
            split; [|split; [|split; [|split; [|split]]]].
            + rewrite Ep. unfold call. cbn [mem existsb String.eqb Ascii.eqb Bool.eqb orb]. unfold new_polygon. rewrite Z1. cbn [is_none negb].
              rewrite (boundary_new W Kc Kr Ko Ki) by (try apply ring_full; auto). cbn [bind].
              assert (E : map_res (fun h => new_boundary W "geometry.InnerBoundaryIs" None [] (Some (GRing h)) []) hs = Ok (map (boundary_obj "geometry.InnerBoundaryIs") hs)).
              { clear -Wh Kc Kr Ko Ki. induction Wh as [|h hs Hh _ IH]; cbn [map_res map]; [reflexivity|]. rewrite (boundary_new W Kc Kr Ko Ki) by (try apply ring_full; auto). cbn [bind]. now rewrite IH. }
              rewrite E. reflexivity.
            + assert (P1 := Pc _ In1). assert (P2 := Pc _ In2). cbn [fst] in P1, P2. unfold extras_of. cbn [filter fst]. now rewrite P1, P2.
            + intros a N1 N2. rewrite !kwget_cons. apply String.eqb_neq in N1, N2. now rewrite N1, N2.
            + reflexivity.
            + unfold mk_attr. rewrite (kwget_cons "outer_boundary"), kwget_cons. change (String.eqb "inner_boundaries" "outer_boundary") with false. change (String.eqb "inner_boundaries" "inner_boundaries") with true. reflexivity.
            + intros attrs' X' Y'. rewrite Ep, (polygon_again ns nss attrs' s hs Ws Wh X' Y'). unfold v. rewrite Ep, (surjective_pairing (sem W _)). unfold py_bool in B. unfold geometry in G1'. now rewrite B, G1'. }
        destruct Q as [o [is_ [kws' [Q1 [Q2 [Q3 [Q4 [Q5 Q6]]]]]]]].
        set (attrs' := put "inner_boundaries" (VList is_) (put "outer_boundary" o attrs1)).
        destruct (Has _ _ In1) as [x1 X1]. destruct (Has _ _ In2) as [x2 X2].
        assert (Y1 : sget "outer_boundary" attrs' = Some o) by (unfold attrs'; rewrite !put_get, X1; reflexivity).
        assert (Y2 : sget "inner_boundaries" attrs' = Some (VList is_)) by (unfold attrs'; rewrite !put_get, X2; reflexivity).
        assert (A' : Forall2 (alike W geq (u0 :: us)) attrs attrs').
        { unfold attrs'. apply put_alike; [rewrite U; cbn; tauto|]. apply put_alike; [rewrite U; cbn; tauto|]. now apply shows_alike. }
        exists (VObj c ns nss attrs'). split; [|discriminate]. apply (Fin g); [intros _; eauto|discriminate| |apply Same; [exact A'|now apply Q6]].
        rewrite Q1. apply (construct_like W geq HW (u0 :: us) c ci ns nss attrs attrs' kws'); auto.
        * rewrite Q2, E6. unfold attrs'. rewrite !put_extras; [reflexivity|now apply (in_map fst) in In1|now apply (in_map fst) in In2].
        * intros a k Ha N. assert (N1 : a <> "outer_boundary") by (intros ->; apply N; rewrite U; cbn; tauto). assert (N2 : a <> "inner_boundaries") by (intros ->; apply N; rewrite U; cbn; tauto).
          rewrite (Q3 a N1 N2), (E7 _ _ Ha N). unfold attrs', kwget. rewrite !put_get. apply String.eqb_neq in N1, N2. rewrite N1, N2. now destruct (sget a attrs1).
        * intros a k Ha Hl. rewrite U in Hl. destruct Hl as [<-|[<-|[]]]; [rewrite (Kin _ _ _ In1 Ha)|rewrite (Kin _ _ _ In2 Ha)]; unfold kwget; rewrite ?Y1, ?Y2; assumption.
        * intros a Ha. rewrite Ci in Ha. cbn in Ha. intuition discriminate.
      + assert (Hl : c = "geometry.LineString" \/ c = "geometry.LinearRing").
        { unfold unprinted in U. apply String.eqb_neq in Np. rewrite Np in U. destruct (mem c ["geometry.LineString"; "geometry.LinearRing"]) eqn:M; [|discriminate U]. apply mem_true in M. destruct M as [<-|[<-|[]]]; auto. }
        assert (U' : u0 :: us = ["kml_coordinates"]) by (rewrite <- U; destruct Hl as [-> | ->]; reflexivity). clear U. rename U' into U.
        destruct (line_or_ring W Kl Kr HS c Hl) as [ci' [C' [Kb [_ [In1 _]]]]]. assert (ci' = ci) by congruence. subst ci'.
        destruct (line_back W Kc Kl Kr HS c ns nss attrs g Hl Ty Li G1) as [t [k' [T1 [T2 [T3 [T4 _]]]]]].
        assert (Z1 : kwget kws "kml_coordinates" = VNone) by (apply E8; [apply (Pc _ In1)|right; rewrite U; cbn; tauto]).
        assert (Q : exists kws', call W c ns nss g kws = construct W c ns nss kws' /\ extras_of ci kws' = extras_of ci kws /\
          (forall a, a <> "kml_coordinates" -> kwget kws' a = kwget kws a) /\ kwget kws' "kml_coordinates" = k').
        { assert (Cl : forall g, call W c ns nss g kws = new_from_coords W c (Some ns) nss g kws) by (intro; destruct Hl as [-> | ->]; reflexivity). rewrite Cl. unfold new_from_coords.
          destruct T4 as [[-> ->]|[g' [-> [F1 [F2 ->]]]]].
          - exists kws. auto.
          - rewrite Z1. cbn [is_none negb]. rewrite F1, (new_coords W Kc) by exact F2. cbn [bind]. exists (("kml_coordinates", coords_obj (geo_coords g')) :: kws). split; [reflexivity|]. split; [assert (P1 := Pc _ In1); cbn [fst] in P1; unfold extras_of; cbn [filter fst]; now rewrite P1|]. split; [|reflexivity].
            intros a N. rewrite kwget_cons. apply String.eqb_neq in N. now rewrite N. }
        destruct Q as [kws' [Q1 [Q2 [Q3 Q4]]]]. set (attrs' := put "kml_coordinates" k' attrs1). destruct (Has _ _ In1) as [x1 X1].
        assert (Y1 : sget "kml_coordinates" attrs' = Some k') by (unfold attrs'; rewrite put_get, X1; reflexivity).
        assert (A' : Forall2 (alike W geq (u0 :: us)) attrs attrs') by (unfold attrs'; apply put_alike; [rewrite U; now left|now apply shows_alike]).
        assert (Sem : sem W v = sem W (VObj c ns nss attrs')).
        { assert (G' := T3 attrs' Y1). assert (B : forall at_, geometry W (VObj c ns nss at_) = Ok g -> sem W (VObj c ns nss at_) = (let! o := Ok g in Ok (match o with Some x => negb (geo_empty x) | None => false end), Ok g)).
          { intros at_ Hg. destruct (sem_obj W c ci ns nss at_ C) as [Sb _]. rewrite Kb, Hg in Sb. cbn [eval_bool] in Sb. unfold py_bool in Sb. unfold geometry in Hg. now rewrite (surjective_pairing (sem W _)), Sb, Hg. }
          unfold v. now rewrite (B attrs G1), (B attrs' G'). }
        exists (VObj c ns nss attrs'). split; [|discriminate]. apply (Fin g); [intros _; eauto|discriminate| |now apply Same].
        rewrite Q1. apply (construct_like W geq HW (u0 :: us) c ci ns nss attrs attrs' kws'); auto.
        * rewrite Q2, E6. unfold attrs'. rewrite put_extras; [reflexivity|now apply (in_map fst) in In1].
        * intros a k Ha N. assert (N1 : a <> "kml_coordinates") by (intros ->; apply N; rewrite U; now left).
          rewrite (Q3 a N1), (E7 _ _ Ha N). unfold attrs', kwget. rewrite put_get. apply String.eqb_neq in N1. rewrite N1. now destruct (sget a attrs1).
        * intros a k Ha Hin. rewrite U in Hin. destruct Hin as [<-|[]]. rewrite (Kin _ _ _ In1 Ha). unfold mk_attr. rewrite Q4. unfold kwget. rewrite Y1. reflexivity.
        * intros a Ha. exfalso. destruct Hl as [-> | ->]; [rewrite Kl in C|rewrite Kr in C]; injection C as <-; cbn in Ha; intuition discriminate.
  Qed.

  (** ** The whole value *)

  Definition plain (v : value) : Prop := match v with VEnum _ _ => False | VList l => forall x, In x l -> match x with VEnum _ _ => False | VList _ => False | _ => True end | _ => True end.

  Lemma literal_nan v : leaf v = true -> literals v = true -> no_nan v = true.
  Proof.
    destruct v as [ |b|n|s|c m|k|p|t l|l|l|[|x l]|c ns nss attrs]; cbn [leaf literals no_nan]; intros L H; try reflexivity; try discriminate L.
    - now rewrite (literal_no_nan n H).
    - now apply literals_no_nan.
    - rewrite forallb_forall in *. intros c Hc. now apply literals_no_nan, H.
    - rewrite forallb_forall in *. intros i Hi. specialize (H i Hi). unfold titem_literal in H. apply andb_prop in H as [_ H]. destruct (ti_angle i); [|reflexivity]. apply andb_prop in H as [_ H]. now apply literals_no_nan.
  Qed.

  Lemma leaf_typed v : leaf v = true -> vall (typed_node W) v = true /\ distinct_keys v = true.
  Proof. now destruct v as [ | | | | | | | | | |[|x l]| ]. Qed.

  Lemma leaf_shows v : leaf v = true -> literals v = true -> geometries_fine W geq v -> match v with VEnum _ _ => False | _ => True end -> shows W geq v v.
  Proof.
    intros L H F E. destruct (leaf_typed v L) as [T D]. split.
    - apply same_refl. apply eqv_refl; auto. now apply literal_nan.
    - intros r Ap. destruct (leaf_back W v L H E) as [e [R1 R2]]. exists e. split; [|exact R2]. unfold shown. destruct r; [exact R1|]. destruct v; try contradiction; try discriminate Ap. exact R1.
  Qed.

  Lemma enum_shows c m en i : sget c (w_enums W) = Some en -> uget m en = Some i -> shows W geq (VEnum c m) (VEnum c m).
  Proof.
    intros E U. split.
    - apply same_refl. cbn. now rewrite String.eqb_refl, ueqb_refl.
    - intros r Ap. destruct r; [discriminate Ap|]. exists (PEMember c m). split; [reflexivity|]. cbn [eval]. now rewrite E, U.
  Qed.

  Lemma same_list l l' : Forall2 (same W geq) l l' -> same W geq (VList l) (VList l').
  Proof.
    intro H. assert (M : map (sem W) l = map (sem W) l') by (induction H as [|x y l l' [_ [E _]] _ IH]; cbn [map]; [reflexivity|now rewrite E, IH]).
    split; [reflexivity|]. split; [now destruct H|]. split; [exact M|]. split; [reflexivity|]. intro flip. apply list_true. induction H as [|x y l l' [_ [_ [_ [_ E]]]] _ IH]; constructor; auto. apply IH. cbn [map] in M. now injection M.
  Qed.

  Lemma rebuilt_member l x : rebuilt W (VList l) -> In x l -> rebuilt W x.
  Proof. induction l as [|y l IH]; [intros _ []|]. intros [H1 H2] [<-|H]; [exact H1|now apply IH]. Qed.

  Lemma rebuilt_attr c ns nss attrs a x : rebuilt W (VObj c ns nss attrs) -> In (a, x) attrs -> rebuilt W x.
  Proof. intros [_ H]. induction attrs as [|[b y] l IH]; [intros []|]. destruct H as [H1 H2]. intros [[= <- <-]|H]; [exact H1|now apply IH]. Qed.

  (** Attributes are enumeration members where the registry says so. *)
  Lemma attr_plain c ns nss attrs a x : typed_node W c ns nss attrs = true -> repr_node W c ns nss attrs = true -> In (a, x) attrs ->
    plain x \/ exists d m en i, x = VEnum d m /\ sget d (w_enums W) = Some en /\ uget m en = Some i.
  Proof.
    intros Tn Rn Hx. unfold typed_node in Tn. unfold repr_node in Rn. destruct (class_of W c) as [ci|] eqn:C; [|discriminate Tn]. apply andb_prop in Tn as [_ Tn]. rewrite forallb_forall in Tn. specialize (Tn _ Hx).
    apply andb_prop in Rn as [Pr Rn]. apply negb_true_iff in Pr. rewrite forallb_forall in Rn. unfold attr_typed in Tn. apply andb_prop in Tn as [T1 T2].
    destruct (find_item a (items_of W c)) as [it|] eqn:Fi.
    - unfold item_typed in T1. destruct (it_set it); destruct x as [ |b|n|s|d m|k|p|t l|l|l|l|c' n' m' at_]; try discriminate T1; try (left; exact I).
      all: try (left; cbn [plain]; intros y Hy; rewrite forallb_forall in T1; specialize (T1 y Hy); destruct y; try discriminate T1; exact I).
      all: right; exists d, m; unfold enum_member in T1; destruct (it_classes it) as [|d' [|]]; try discriminate T1; apply andb_prop in T1 as [_ T1]; destruct (sget d (w_enums W)) as [en|] eqn:E1; [|discriminate T1]; destruct (uget m en) as [i|] eqn:E2; [|discriminate T1]; exists en, i; auto.
    - left. destruct (mem a (map fst (ctor_attrs ci))) eqn:M.
      + assert (Tk : ckind_of ci a = Some CTrack).
        { unfold reprs_ok in HR. rewrite forallb_forall in HR. specialize (HR _ (sget_In _ _ _ C)). cbn [fst snd] in HR. rewrite Pr in HR. cbn [orb] in HR. unfold prints_all in HR. rewrite !andb_true_iff in HR.
          destruct HR as [[[[[_ _] _] P4] P5] _]. rewrite forallb_forall in P4, P5. apply mem_true in M. apply in_map_iff in M as [ak [Ea M]]. specialize (P4 _ M). rewrite Ea in P4. apply orb_prop in P4 as [P4|P4].
          - apply mem_true in P4. apply in_map_iff in P4 as [s [Es P4]]. specialize (P5 _ P4). rewrite Es, Fi in P5. apply andb_prop in P5 as [_ P5]. now destruct (ckind_of ci a) as [[| | | | | | | | |]|].
          - exfalso. apply mem_true in P4. assert (HS' := HS). unfold shapes_ok in HS'. rewrite !andb_true_iff in HS'. destruct HS' as [[[[[H1 H2] _] _] H3] H4]. unfold unprinted in P4. destruct (mem c ["geometry.LineString"; "geometry.LinearRing"]) eqn:Mc.
            + apply mem_true in Mc. destruct P4 as [<-|[]]. destruct Mc as [<-|[<-|[]]]; unfold holds in H1, H2; rewrite Fi in *; discriminate.
            + destruct (String.eqb_spec c "geometry.Polygon") as [-> |]; [|destruct P4]. destruct P4 as [<-|[<-|[]]]; unfold holds in H3, H4; rewrite Fi in *; discriminate. }
        rewrite Tk in T2. destruct x; try discriminate T2. exact I.
      + assert (Hx' : In (a, x) (extras ci attrs)) by (unfold extras; apply filter_In; split; [exact Hx|cbn [fst]; unfold ctor_attrs in M; now rewrite M]). specialize (Rn _ Hx'). cbn [snd] in Rn. destruct x; try discriminate Rn; try discriminate T1; exact I.
  Qed.

  Theorem whole v : plain v -> vall (typed_node W) v = true -> literals v = true -> plain_extras W v = true -> distinct_keys v = true ->
    geometries_fine W geq v -> rebuilt W v -> exists v', shows W geq v v' /\ (no_lines v = true -> v' = v).
  Proof.
    induction v as [ |b|n|s|c m|k|p|t l|l|l|l IH|c ns nss attrs IH] using value_ind'; intros P T L E D F R;
      try (eexists; split; [apply leaf_shows; [reflexivity|exact L|exact F|exact I]|reflexivity]); try contradiction.
    - (* a list *)
      assert (Q : exists l', Forall2 (shows W geq) l l' /\ (forallb no_lines l = true -> l' = l)).
      { cbn [vall literals plain_extras distinct_keys] in T, L, E, D. unfold plain_extras, distinct_keys in E, D. cbn [vall] in E, D. rewrite forallb_forall in T, L, E, D. cbn [plain] in P.
        assert (G : forall x, In x l -> exists x', shows W geq x x' /\ (no_lines x = true -> x' = x)).
        { intros x Hx. rewrite Forall_forall in IH. apply (IH x Hx); auto.
          - specialize (P x Hx). now destruct x.
          - exact (E x Hx).
          - now apply fine_member with (l := l).
          - now apply rebuilt_member with (l := l). }
        clear -G. induction l as [|x l IH]; [exists []; split; [constructor|reflexivity]|]. destruct (G x (or_introl eq_refl)) as [x' [S1 S2]]. destruct IH as [l' [I1 I2]]; [intros; apply G; now right|].
        exists (x' :: l'). split; [now constructor|]. cbn [forallb]. intro H. apply andb_prop in H as [H1 H2]. now rewrite S2, I2. }
      destruct Q as [l' [Q1 Q2]]. exists (VList l'). split; [|intro H; now rewrite Q2]. split; [apply same_list; clear -Q1; induction Q1 as [|x y l l' [S _] _ IH']; constructor; auto|].
      intros r Ap. cbn [apt] in Ap. subst r. unfold shown. assert (G : exists es, seq_res (map (repr W) l) = Ok es /\ traverse (eval W) es = Some l').
      { cbn [plain] in P. clear -P Q1. induction Q1 as [|x y l l' [_ S] _ IH']; [exists []; auto|]. destruct IH' as [es [I1 I2]]; [intros; apply P; now right|]. assert (Px := P x (or_introl eq_refl)).
        destruct (S true) as [t [T1 T2]]; [destruct x; contradiction || reflexivity|]. unfold shown in T1. exists (t :: es). cbn [map seq_res traverse]. rewrite T1. cbn [bind]. rewrite I1, T2, I2. auto. }
      destruct G as [es [G1 G2]]. exists (PEList es). cbn [repr]. rewrite G1. split; [reflexivity|]. now rewrite eval_list, G2.
    - (* an object *)
      assert (T' := T). cbn [vall] in T'. apply andb_prop in T' as [Tn Ta]. assert (E' := E). unfold plain_extras in E'. cbn [vall] in E'. apply andb_prop in E' as [Rn Ea]. assert (D' := D). unfold distinct_keys in D'. cbn [vall] in D'. apply andb_prop in D' as [Dn Da].
      assert (L' := L). cbn [literals] in L'. rewrite forallb_forall in Ta, Ea, Da, L'.
      assert (G : forall ax, In ax attrs -> exists x', shows W geq (snd ax) x' /\ (no_lines (snd ax) = true -> x' = snd ax)).
      { intros [a x] Hx. cbn [snd]. destruct (attr_plain c ns nss attrs a x Tn Rn Hx) as [Px|[d [m [en [i [-> [E1 E2]]]]]]].
        - rewrite Forall_forall in IH. apply (IH (a, x) Hx); auto.
          + exact (Ta _ Hx).
          + exact (L' _ Hx).
          + exact (Ea _ Hx).
          + exact (Da _ Hx).
          + exact (fine_attr W geq _ _ _ _ _ _ F Hx).
          + exact (rebuilt_attr _ _ _ _ _ _ R Hx).
        - exists (VEnum d m). split; [exact (enum_shows d m en i E1 E2)|reflexivity]. }
      assert (Q : exists attrs1, shown_attrs attrs attrs1 /\ (forallb (fun av : string * value => match av with (_, x) => no_lines x end) attrs = true -> attrs1 = attrs)).
      { clear -G. induction attrs as [|[a x] l IH]; [exists []; split; [constructor|reflexivity]|]. destruct (G _ (or_introl eq_refl)) as [x' [S1 S2]]. destruct IH as [l' [I1 I2]]; [intros; apply G; now right|]. cbn [snd] in S1, S2.
        exists ((a, x') :: l'). split; [constructor; auto|]. cbn [forallb]. intro H. apply andb_prop in H as [H1 H2]. now rewrite S2, I2. }
      destruct Q as [attrs1 [Q1 Q2]]. destruct R as [Rc _]. destruct F as [F _].
      destruct (object_shows c ns nss attrs attrs1 T L Rn Dn Rc) as [v' [S1 S2]]; [intro Gm; apply F; [constructor|exact Gm]|exact Q1|].
      exists v'. split; [exact S1|]. intro H. unfold no_lines in H. cbn [vall] in H. apply andb_prop in H as [H1 H2]. rewrite S2, Q2; [reflexivity|exact H2|]. now destruct (unprinted c).
  Qed.

  (** ** Objects as constructors return them *)

  Lemma call_construct c ns nss g kws v : call W c ns nss g kws = Ok v -> exists kws', construct W c ns nss kws' = Ok v.
  Proof.
    unfold call. intro H. destruct (mem c _) in H.
    { unfold new_from_coords in H. destruct g as [g|]; [|eauto]. destruct (negb _); [discriminate H|]. apply bind_ok in H as [k [_ H]]. eauto. }
    destruct (mem c _) in H.
    { unfold new_boundary in H. destruct g as [g|]; [|eauto]. destruct (negb _); [discriminate H|]. apply bind_ok in H as [k [_ H]]. eauto. }
    destruct (String.eqb_spec c "geometry.Polygon") as [-> |].
    { unfold new_polygon in H. destruct g as [[ | | |s hs| | | | ]|]; try discriminate H; [|eauto]. destruct (negb _); [discriminate H|]. apply bind_ok in H as [o [_ H]]. apply bind_ok in H as [is_ [_ H]]. eauto. }
    destruct (String.eqb_spec c "geometry.MultiGeometry") as [-> |].
    { unfold new_multigeometry in H. destruct g as [g|]; [|eauto]. destruct (negb _); [discriminate H|]. destruct (geoms g); [|discriminate H]. apply bind_ok in H as [k [_ H]]. eauto. }
    destruct (String.eqb_spec c "features.Placemark") as [-> |].
    { unfold new_placemark in H. apply bind_ok in H as [b [_ H]]. destruct (_ && _); [discriminate H|]. destruct g as [g|]; [|eauto]. destruct (negb _); [|eauto]. apply bind_ok in H as [k [_ H]]. eauto. }
    destruct (String.eqb_spec c "styles.IconStyle") as [-> |]; [|eauto].
    unfold new_iconstyle in H. apply bind_ok in H as [h [_ H]]. apply bind_ok in H as [ht [_ H]]. apply bind_ok in H as [it [_ H]]. apply bind_ok in H as [i' [_ H]]. eauto.
  Qed.

  Lemma construct_attrs c ci ns nss kws ns' nss' attrs : class_of W c = Some ci -> construct W c ns nss kws = Ok (VObj c ns' nss' attrs) ->
    forall a, mem a (ci_params ci) = true -> ~ In a (map fst (ctor_attrs ci)) -> kwget attrs a = VNone.
  Proof.
    intros C H a P N. unfold construct in H. rewrite C in H. destruct (_ && _); [discriminate H|]. apply bind_ok in H as [pre [Hpre H]]. apply bind_ok in H as [post [Hpost H]]. injection H as _ _ <-.
    unfold kwget. rewrite (proj2 (sget_None a _)); [reflexivity|]. rewrite !map_app, !in_app_iff, (mk_attrs_keys _ _ _ _ Hpre), (mk_attrs_keys _ _ _ _ Hpost). unfold ctor_attrs in N. rewrite map_app, in_app_iff in N.
    intros [Q|[Q|Q]]; [tauto| |tauto]. apply in_map_iff in Q as [kv [<- Q]]. unfold extras_of in Q. apply filter_In in Q as [_ Q]. now rewrite P in Q.
  Qed.

  Hypothesis HQ : forall c ci a, class_of W c = Some ci -> ckind_of ci a = Some CCleanReq -> c = "data.Schema" /\ a = "id".

  Lemma constructed_rebuilt v : constructed W v -> rebuilt W v.
  Proof.
    induction v as [ | | | | | | | | | |l IH|c ns nss attrs IH] using value_ind'; intro H; try exact I.
    - cbn [rebuilt]. assert (H' : forall x, In x l -> constructed W x) by (intros x Hx c ns nss attrs Hw; apply H; econstructor; eassumption). clear H. induction IH as [|x l Px _ IH']; [exact I|]. split; [apply Px, H'; now left|apply IH'; intros y Hy; apply H'; now right].
    - cbn [rebuilt]. split.
      + destruct (H c ns nss attrs (within_self _)) as [[ns0 [nss0 [g [kws Hc]]]] [Hs Hp]]. apply call_construct in Hc as [kws' Hc].
        assert (C : exists ci, class_of W c = Some ci) by (unfold construct in Hc; destruct (class_of W c) as [ci|]; [eauto|discriminate Hc]). destruct C as [ci C].
        assert (Hi : construct W c ns nss attrs = Ok (VObj c ns nss attrs)).
        { apply (construct_idem W c ns0 nss0 kws' ns nss attrs HW Hc). intros ci' a C' Hk Ha. destruct (HQ c ci' a C' Hk) as [-> ->]. apply Hs. auto. }
        rewrite (call_plain c ci ns nss attrs C).
        * destruct (String.eqb_spec c "features.Placemark") as [Ep|]; [|exact Hi]. destruct (Hp Ep) as [b ->]. exact Hi.
        * intros ->. apply (construct_attrs _ ci _ _ _ _ _ _ C Hc); rewrite Ks in C; injection C as <-; [reflexivity|]. cbn. intuition discriminate.
      + assert (H' : forall a x, In (a, x) attrs -> constructed W x) by (intros a x Hx c' ns' nss' attrs' Hw; apply H; econstructor; eassumption). clear H. induction IH as [|[a x] l Px _ IH']; [exact I|]. split; [apply Px, (H' a); now left|apply IH'; intros b y Hy; apply (H' b); now right].
  Qed.
End Whole.
