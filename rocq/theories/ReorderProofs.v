(** * Proofs for C73. *)
From Coq Require Import String List NArith ZArith Bool Permutation.
From Verif Require Import Ustr UstrProofs Res PyInt PyFloat PyDate Elem Value Geom Codec Spec WriteProofs EmitProofs ItemProofs RoundTrip ReorderSpec.
Import ListNotations.
Local Open Scope string_scope.
Local Open Scope list_scope.

(** Values that are neither objects nor lists are only reordered into themselves. *)
Lemma reordered_list l w : reordered (VList l) w -> exists l', w = VList l' /\ Forall2 reordered l l'.
Proof.
  destruct w as [ | | | | | | | | | |l'|]; cbn [reordered]; try contradiction. intro H. exists l'. split; [reflexivity|]. revert l' H. induction l as [|x l IH]; intros [|x' l'] H; try contradiction; constructor; [apply H|]. apply IH, H.
Qed.
Lemma reordered_obj c ns nss attrs w : reordered (VObj c ns nss attrs) w -> exists nss' attrs', w = VObj c ns nss' attrs' /\
  (forall p, sget p nss = sget p nss') /\ Permutation (map fst attrs) (map fst attrs') /\ Forall (fun av : string * value => exists x', sget (fst av) attrs' = Some x' /\ reordered (snd av) x') attrs.
Proof.
  destruct w as [ | | | | | | | | | | |c' ns' nss' attrs']; cbn [reordered]; try contradiction. intros [<- [<- [Hn [P H]]]]. exists nss', attrs'. repeat (split; [reflexivity || assumption|]). clear P.
  induction attrs as [|[a x] l IH]; constructor; [|apply IH, H]. destruct H as [H _]. cbn [fst snd]. destruct (sget a attrs') as [x'|]; [|contradiction]. now exists x'.
Qed.

Lemma obj_reordered c ns nss nss' attrs attrs' : (forall p, sget p nss = sget p nss') -> Permutation (map fst attrs) (map fst attrs') ->
  Forall (fun av : string * value => exists x', sget (fst av) attrs' = Some x' /\ reordered (snd av) x') attrs -> reordered (VObj c ns nss attrs) (VObj c ns nss' attrs').
Proof.
  intros Hn P F. cbn [reordered]. do 2 (split; [reflexivity|]). split; [exact Hn|]. split; [exact P|]. clear P. induction F as [|[a x] l [x' [E R]] _ IH]; [exact I|]. cbn [fst snd] in *. rewrite E. now split.
Qed.

Lemma get_both attrs attrs' a : Permutation (map fst attrs) (map fst attrs') ->
  Forall (fun av : string * value => exists x', sget (fst av) attrs' = Some x' /\ reordered (snd av) x') attrs ->
  (exists x x', sget a attrs = Some x /\ sget a attrs' = Some x' /\ In (a, x) attrs /\ reordered x x') \/ (sget a attrs = None /\ sget a attrs' = None).
Proof.
  intros P F. destruct (sget a attrs) as [x|] eqn:E.
  - left. assert (Hin := sget_In _ _ _ E). rewrite Forall_forall in F. destruct (F _ Hin) as [x' [H1 H2]]. cbn [fst snd] in *. exists x, x'. auto.
  - right. split; [reflexivity|]. apply (proj2 (sget_None _ _)). intro Hin. apply (proj1 (sget_None _ _) E). now apply (Permutation_in _ (Permutation_sym P)).
Qed.

Section Same.
  Variable W : world.

  (** The value as far as the code looks at it without going into it. *)
  Definition same_sem (x x' : value) : Prop :=
    sem W x = sem W x' /\ match x with VList l => match x' with VList l' => map (sem W) l = map (sem W) l' | _ => False end | VObj _ _ _ _ => True | _ => x = x' end.

  Lemma env_same {A} (f g : attr_sem -> res A) attrs attrs' a :
    (forall x x', sget a attrs = Some x -> sget a attrs' = Some x' -> reordered x x' -> In (a, x) attrs -> f (x, sem W x, match x with VList l => map (sem W) l | _ => [] end) = g (x', sem W x', match x' with VList l => map (sem W) l | _ => [] end)) ->
    Permutation (map fst attrs) (map fst attrs') -> Forall (fun av : string * value => exists x', sget (fst av) attrs' = Some x' /\ reordered (snd av) x') attrs ->
    with_attr (env_of W attrs) a f = with_attr (env_of W attrs') a g.
  Proof.
    intros H P0 F. unfold with_attr. rewrite !env_get. destruct (get_both attrs attrs' a P0 F) as [[x [x' [E [E' [Hin R]]]]]|[E E']]; rewrite E, E'; [|reflexivity]. now apply H.
  Qed.

  Lemma coords_same x x' : reordered x x' -> coords_of x = coords_of x'.
  Proof.
    intro R. destruct x as [ | | | | | | | | | |l|c ns nss attrs]; try (cbn [reordered] in R; destruct x'; try contradiction; try discriminate R; reflexivity).
    apply reordered_obj in R as [nss' [attrs' [-> [_ [P F]]]]]. cbn [coords_of]. destruct (get_both attrs attrs' "coords" P F) as [[y [y' [E [E' [_ R]]]]]|[E E']]; rewrite E, E'; [|reflexivity].
      destruct y; cbn [reordered] in R; destruct y'; try contradiction; try discriminate R; try reflexivity. injection R as <- <-. reflexivity.
  Qed.

  Lemma shape x x' : reordered x x' ->
    (exists l l', x = VList l /\ x' = VList l' /\ Forall2 reordered l l') \/ (exists c ns n1 n2 a1 a2, x = VObj c ns n1 a1 /\ x' = VObj c ns n2 a2) \/ x = x'.
  Proof.
    intro R. destruct x as [ | | | | | | | | | |l|c ns nss attrs]; try (right; right; cbn [reordered] in R; now destruct x').
    - left. apply reordered_list in R as [l' [-> F]]. eauto.
    - right. left. apply reordered_obj in R as [nss' [attrs' [-> _]]]. do 6 eexists. split; reflexivity.
  Qed.

  Lemma map_sem l l' : Forall2 reordered l l' -> Forall (fun x => forall x', reordered x x' -> same_sem x x') l -> map (sem W) l = map (sem W) l'.
  Proof. induction 1 as [|x x' l l' R _ IH]; intro F; [reflexivity|]. inversion F as [|? ? F1 F2]; subst. cbn [map]. now rewrite (proj1 (F1 x' R)), (IH F2). Qed.

  Theorem reorder_sem v : forall w, reordered v w -> same_sem v w.
  Proof.
    induction v as [ | | | | | | | | | |l IH|c ns nss attrs IH] using value_ind'; intros w R;
      try (destruct (shape _ _ R) as [[l0 [l1 [E _]]]|[[c0 [ns0 [n1 [n2 [a1 [a2 [E _]]]]]]]|<-]]; [discriminate E|discriminate E|split; reflexivity]).
    - apply reordered_list in R as [l' [-> F]]. split; [|exact (map_sem l l' F IH)]. cbn [sem]. destruct F; reflexivity.
    - apply reordered_obj in R as [nss' [attrs' [-> [_ [P F]]]]]. split; [|exact I]. destruct (class_of W c) as [ci|] eqn:Hc; [|cbn [sem]; now rewrite Hc].
      assert (J : forall a x x', In (a, x) attrs -> reordered x x' -> same_sem x x') by (intros a x x' Hin R; rewrite Forall_forall in IH; exact (IH _ Hin x' R)).
      assert (AB : forall A (f g : attr_sem -> res A) a, (forall x x' s l l', reordered x x' -> (match x with VList _ | VObj _ _ _ _ => True | _ => x = x' end) -> (match x with VList _ => match x' with VList _ => True | _ => False end | _ => True end) -> l = l' -> f (x, s, l) = g (x', s, l')) -> with_attr (env_of W attrs) a f = with_attr (env_of W attrs') a g).
      { intros A f g a H. apply env_same; [|exact P|exact F]. intros x x' E E' R Hin. destruct (J a x x' Hin R) as [S1 S2]. rewrite S1. apply H; [exact R| | |].
        - destruct x; auto.
        - destruct x; auto. destruct x'; auto.
        - destruct (shape _ _ R) as [[l0 [l1 [-> [-> _]]]]|[[c0 [ns0 [n1 [n2 [a1 [a2 [-> ->]]]]]]]|<-]]; [exact S2|reflexivity|reflexivity]. }
      assert (EB : forall g e, eval_bool (env_of W attrs) g e = eval_bool (env_of W attrs') g e).
      { intros g. induction e as [ |a|a|a| |e1 IH1 e2 IH2|e1 IH1 e2 IH2]; cbn [eval_bool]; try reflexivity.
        - apply AB. intros. reflexivity.
        - apply AB. intros x x' s l l' R H1 H2 ->. unfold a_val. cbn [fst snd]. destruct (shape _ _ R) as [[l0 [l1 [-> [-> _]]]]|[[c0 [ns0 [n1 [n2 [a1 [a2 [-> ->]]]]]]]|<-]]; reflexivity.
        - apply AB. intros x x' s l l' R H1 H2 ->. unfold a_val, a_list. cbn [fst snd]. destruct (shape _ _ R) as [[l0 [l1 [-> [-> _]]]]|[[c0 [ns0 [n1 [n2 [a1 [a2 [-> ->]]]]]]]|<-]]; reflexivity.
        - now rewrite IH1, IH2.
        - now rewrite IH1, IH2. }
      assert (EC : forall f, coords_geometry (env_of W attrs) f = coords_geometry (env_of W attrs') f).
      { intro f. unfold coords_geometry. apply AB. intros x x' s l l' R H1 H2 ->. unfold a_bool, a_val. cbn [fst snd]. now rewrite (coords_same x x' R). }
      assert (EG : forall b k, eval_geom (env_of W attrs) b k = eval_geom (env_of W attrs') b k).
      { intros b k. destruct k; cbn [eval_geom]; try reflexivity; try apply EC.
        all: try (apply AB; intros; subst; reflexivity).
        - apply AB. intros x x' s l l' R H1 H2 ->. unfold a_bool, a_geom. cbn [fst snd]. destruct (fst s) as [[|]|]; cbn [bind]; try reflexivity. destruct (snd s) as [[g|]|]; cbn [bind]; try reflexivity. destruct (line_of g); cbn [bind]; try reflexivity. apply AB. intros; subst; reflexivity.
        - apply AB. intros x x' s l l' R H1 H2 ->. unfold a_val, a_geom. cbn [fst snd]. destruct (shape _ _ R) as [[l0 [l1 [-> [-> _]]]]|[[c0 [ns0 [n1 [n2 [a1 [a2 [-> ->]]]]]]]|<-]]; reflexivity.
        - destruct b as [[|]|]; cbn [bind]; try reflexivity. apply AB. intros x x' s l l' R H1 H2 ->. apply AB. intros y y' s1 l1 l1' R1 H3 H4 ->. apply AB. intros z z' s2 l2 l2' R2 H5 H6 ->. unfold a_val. cbn [fst snd].
          assert (N : forall x x', reordered x x' -> num_of x = num_of x').
          { intros q q' Q. destruct (shape _ _ Q) as [[m0 [m1 [-> [-> _]]]]|[[c0 [ns0 [n1 [n2 [a1 [a2 [-> ->]]]]]]]|<-]]; reflexivity. }
          now rewrite (N x x' R), (N y y' R1), (N z z' R2).
        - apply AB. intros x x' s l l' R H1 H2 ->. unfold a_val. cbn [fst snd]. destruct (shape _ _ R) as [[l0 [l1 [-> [-> _]]]]|[[c0 [ns0 [n1 [n2 [a1 [a2 [-> ->]]]]]]]|<-]]; reflexivity. }
      destruct (sem_obj W c ci ns nss attrs Hc) as [B G]. destruct (sem_obj W c ci ns nss' attrs' Hc) as [B' G'].
      assert (GG : geometry W (VObj c ns nss attrs) = geometry W (VObj c ns nss' attrs')) by (rewrite G, G', EB; apply EG).
      assert (BB : py_bool W (VObj c ns nss attrs) = py_bool W (VObj c ns nss' attrs')) by (rewrite B, B', GG; apply EB).
      rewrite (surjective_pairing (sem W (VObj c ns nss attrs))), (surjective_pairing (sem W (VObj c ns nss' attrs'))). f_equal; [exact BB|exact GG].
  Qed.

  Lemma bool_same v w : reordered v w -> py_bool W v = py_bool W w.
  Proof. intro R. unfold py_bool. now rewrite (proj1 (reorder_sem v w R)). Qed.
  Lemma geometry_same v w : reordered v w -> geometry W v = geometry W w.
  Proof. intro R. unfold geometry. now rewrite (proj1 (reorder_sem v w R)). Qed.

  Variables (prec : option nat) (vb : verbosity).

  Lemma objs_same l l' : Forall2 reordered l l' -> Forall (fun x => forall x', reordered x x' -> etree W prec vb x = etree W prec vb x') l ->
    forall e, append_objs W (map (fun y => (y, etree W prec vb y)) l) e = append_objs W (map (fun y => (y, etree W prec vb y)) l') e.
  Proof.
    induction 1 as [|x x' l l' R _ IH]; intros F e; [reflexivity|]. inversion F as [|? ? F1 F2]; subst. cbn [map append_objs]. rewrite (bool_same x x' R), (F1 x' R).
    destruct (py_bool W x') as [[|]|]; cbn [bind]; try reflexivity; [|apply IH, F2]. destruct (etree W prec vb x'); cbn [bind]; [apply IH, F2|reflexivity].
  Qed.

  Lemma value_shape x x' d : reordered x x' ->
    (exists l l', get_value vb x d = VList l /\ get_value vb x' d = VList l') \/ (exists c ns n1 n2 a1 a2, get_value vb x d = VObj c ns n1 a1 /\ get_value vb x' d = VObj c ns n2 a2) \/ get_value vb x d = get_value vb x' d.
  Proof.
    intro R. destruct (shape _ _ R) as [[l0 [l1 [-> [-> _]]]]|[[c0 [ns0 [n1 [n2 [a1 [a2 [-> ->]]]]]]]| ->]]; [left|right; left|right; right; reflexivity].
    - exists l0, l1. destruct vb, d; split; reflexivity.
    - exists c0, ns0, n1, n2, a1, a2. destruct vb, d; split; reflexivity.
  Qed.

  Theorem reorder_etree v : forall w, reordered v w -> etree W prec vb v = etree W prec vb w.
  Proof.
    enough (T : (forall w, reordered v w -> etree W prec vb v = etree W prec vb w) /\ match v with VList l => Forall (fun x => forall x', reordered x x' -> etree W prec vb x = etree W prec vb x') l | _ => True end) by apply T.
    induction v as [ | | | | | | | | | |l IH|c ns nss attrs IH] using value_ind';
      try (split; [|exact I]; intros w R; destruct (shape _ _ R) as [[l0 [l1 [E _]]]|[[c0 [ns0 [n1 [n2 [a1 [a2 [E _]]]]]]]|<-]]; [discriminate E|discriminate E|reflexivity]).
    - split; [intros w R; apply reordered_list in R as [l' [-> _]]; reflexivity|]. rewrite Forall_forall in *. intros x Hx. exact (proj1 (IH x Hx)).
    - split; [|exact I]. intros w R. apply reordered_obj in R as [nss' [attrs' [-> [Hn [P F]]]]]. rewrite !etree_obj. unfold write_with. destruct (class_of W c) as [ci|]; [|reflexivity].
      assert (OA : forall a, reordered (obj_attr ci attrs a) (obj_attr ci attrs' a)).
      { intro a. unfold obj_attr. destruct (get_both attrs attrs' a P F) as [[y [y' [E [E' [_ R]]]]]|[E E']]; rewrite E, E'; [exact R|].
        destruct (ci_geom ci); try reflexivity. destruct (get_both attrs attrs' "track_items" P F) as [[y [y' [Q [Q' [_ R]]]]]|[Q Q']]; rewrite Q, Q'; [|reflexivity].
        destruct (shape _ _ R) as [[l0 [l1 [-> [-> _]]]]|[[c0 [ns0 [n1 [n2 [a1 [a2 [-> ->]]]]]]]|<-]]; try reflexivity. destruct y; try reflexivity. repeat match goal with |- context [if ?b then _ else _] => destruct b end; reflexivity. }
      assert (SE : forall it e, set_element W prec vb ci ns nss attrs (ws_of W prec vb attrs) it e = set_element W prec vb ci ns nss' attrs' (ws_of W prec vb attrs') it e).
      { intros it e. unfold set_element. assert (R := OA (it_attr it)). assert (B := bool_same _ _ R).
        assert (EN : forall i, ns_get nss i = ns_get nss' i) by (intro i; unfold ns_get; now rewrite Hn).
        assert (DN : date_ns nss = date_ns nss') by apply EN.
        assert (EE : forall k m, enum_ns W ns nss k m = enum_ns W ns nss' k m) by (intros k m; unfold enum_ns; destruct (sget k (w_enums W)); [|reflexivity]; destruct (uget m _) as [[i|]|]; [apply EN|reflexivity|reflexivity]).
        rewrite !sget_ws_of. destruct (it_set it) eqn:Es.
        all: try (destruct (value_shape _ _ (it_default it) R) as [[l0 [l1 [-> ->]]]|[[c0 [ns0 [n1 [n2 [a1 [a2 [-> ->]]]]]]]| ->]]; try reflexivity; rewrite ?DN; try reflexivity;
          destruct (get_value vb (obj_attr ci attrs' (it_attr it)) (it_default it)); try reflexivity; now rewrite EE).
        - destruct (shape _ _ R) as [[l0 [l1 [-> [-> _]]]]|[[c0 [ns0 [n1 [n2 [a1 [a2 [-> ->]]]]]]]| ->]]; reflexivity.
        - rewrite B. destruct (py_bool W (obj_attr ci attrs' (it_attr it))) as [[|]|]; cbn [bind]; try reflexivity.
          destruct (get_both attrs attrs' (it_attr it) P F) as [[y [y' [E [E' [Hin R']]]]]|[E E']]; rewrite E, E'; [|reflexivity].
          unfold w_attr. rewrite Forall_forall in IH. assert (IHy := proj1 (IH _ Hin) y' R'). cbn [snd] in IHy. now rewrite IHy.
        - destruct (get_both attrs attrs' (it_attr it) P F) as [[y [y' [E [E' [Hin R']]]]]|[E E']]; rewrite E, E'; [|reflexivity]. rewrite Forall_forall in IH. assert (IHy := proj2 (IH _ Hin)). cbn [snd] in IHy. unfold w_attr.
          destruct (shape _ _ R') as [[l0 [l1 [-> [-> FL]]]]|[[c0 [ns0 [n1 [n2 [a1 [a2 [-> ->]]]]]]]| ->]]; try reflexivity. exact (objs_same l0 l1 FL IHy e). }
      assert (SS : forall its e, set_elements W prec vb ci ns nss attrs (ws_of W prec vb attrs) its e = set_elements W prec vb ci ns nss' attrs' (ws_of W prec vb attrs') its e).
      { induction its as [|it its IHi]; intro e; [reflexivity|]. cbn [set_elements]. rewrite SE. destruct (set_element W prec vb ci ns nss' attrs' _ it e); [apply IHi|reflexivity]. }
      destruct (ci_root ci); [apply SE|apply SS].
  Qed.
End Same.

(** A dictionary gives the same whatever the order of its keys. *)
Lemma perm_get {A} (l l' : list (string * A)) a : Permutation l l' -> NoDup (map fst l) -> sget a l = sget a l'.
Proof.
  intros P N. assert (N' : NoDup (map fst l')) by exact (Permutation_NoDup (Permutation_map fst P) N). destruct (sget a l) as [x|] eqn:E.
  - symmetry. apply sget_NoDup; [exact N'|]. exact (Permutation_in _ P (sget_In _ _ _ E)).
  - symmetry. apply (proj2 (sget_None _ _)). intro H. apply (proj1 (sget_None _ _) E). exact (Permutation_in _ (Permutation_sym (Permutation_map fst P)) H).
Qed.

Lemma reordered_refl W v : vall (typed_node W) v = true -> reordered v v.
Proof.
  induction v as [ | | | | | | | | | |l IH|c ns nss attrs IH] using value_ind'; intro T; try reflexivity.
  - cbn [vall] in T. cbn [reordered]. rewrite forallb_forall in T. rewrite Forall_forall in IH. induction l as [|x l IHl]; [exact I|]. split; [apply IH; [now left|apply T; now left]|]. apply IHl; intros y Hy; [apply IH|apply T]; now right.
  - cbn [vall] in T. apply andb_prop in T as [Tn T]. assert (N : NoDup (map fst attrs)).
    { unfold typed_node in Tn. destruct (class_of W c) as [ci|]; [|discriminate]. apply andb_prop in Tn as [Sh _]. destruct (shape_inv _ _ Sh) as [_ [_ [N _]]]. exact N. }
    rewrite forallb_forall in T. rewrite Forall_forall in IH. apply obj_reordered; [reflexivity|apply Permutation_refl|]. apply Forall_forall. intros [a x] H. exists x. split; [now apply sget_NoDup|exact (IH _ H (T _ H))].
Qed.

Section Keywords.
  Variable W : world.

  Lemma attr_same kws kws' ak : (forall a, sget a kws = sget a kws') -> mk_attr W kws ak = mk_attr W kws' ak.
  Proof. intro H. assert (K : forall a, kwget kws a = kwget kws' a) by (intro a; unfold kwget; now rewrite H). destruct ak as [a k]. unfold mk_attr. now rewrite !K. Qed.

  Lemma map_attr_same kws kws' l : (forall a, sget a kws = sget a kws') -> map_res (mk_attr W kws) l = map_res (mk_attr W kws') l.
  Proof. intro H. induction l as [|ak l IH]; [reflexivity|]. cbn [map_res]. now rewrite (attr_same kws kws' ak H), IH. Qed.

  Lemma filter_perm {A} (f : A -> bool) l l' : Permutation l l' -> Permutation (filter f l) (filter f l').
  Proof.
    induction 1 as [|x l l' _ IH|x y l|l l1 l' _ IH1 _ IH2]; cbn [filter]; [constructor| | |exact (perm_trans IH1 IH2)].
    - destruct (f x); [now constructor|exact IH].
    - destruct (f x), (f y); try apply Permutation_refl. constructor.
  Qed.

  Theorem keyword_order c ns nss kws kws' : Permutation kws kws' -> NoDup (map fst kws) ->
    match construct W c ns nss kws with
    | Ok v => exists v', construct W c ns nss kws' = Ok v' /\ (typed W v = true -> reordered v v')
    | Err x => construct W c ns nss kws' = Err x
    end.
  Proof.
    intros P N. assert (H := fun a => perm_get kws kws' a P N). unfold construct. destruct (class_of W c) as [ci|]; [|reflexivity].
    assert (PX : Permutation (extras_of ci kws) (extras_of ci kws')) by (now apply filter_perm).
    assert (NB : nilb (extras_of ci kws') = nilb (extras_of ci kws)).
    { destruct (extras_of ci kws) eqn:E1, (extras_of ci kws') eqn:E2; try reflexivity; [apply Permutation_nil in PX; discriminate|]. apply Permutation_sym, Permutation_nil in PX. discriminate. }
    rewrite NB. destruct (negb (ci_kwargs ci) && negb (nilb (extras_of ci kws))); [reflexivity|]. rewrite <- !(map_attr_same kws kws' _ H).
    destruct (map_res (mk_attr W kws) (ci_pre ci)) as [pre|]; cbn [bind]; [|reflexivity]. destruct (map_res (mk_attr W kws) (ci_post ci)) as [post|]; cbn [bind]; [|reflexivity].
    eexists. split; [reflexivity|]. intro T. assert (T' : vall (typed_node W) (VObj c ns (merge_ns nss) (pre ++ extras_of ci kws ++ post)) = true) by exact T.
    assert (PA : Permutation (pre ++ extras_of ci kws ++ post) (pre ++ extras_of ci kws' ++ post)) by (apply Permutation_app_head, Permutation_app_tail; exact PX).
    assert (NA : NoDup (map fst (pre ++ extras_of ci kws ++ post))).
    { cbn [vall] in T'. apply andb_prop in T' as [Tn _]. unfold typed_node in Tn. destruct (class_of W c) as [ci'|]; [|discriminate]. apply andb_prop in Tn as [Sh _]. destruct (shape_inv _ _ Sh) as [_ [_ [N' _]]]. exact N'. }
    cbn [vall] in T'. apply andb_prop in T' as [_ T']. rewrite forallb_forall in T'. apply obj_reordered; [reflexivity|now apply Permutation_map|]. apply Forall_forall. intros [a x] Hx. exists x. split; [|exact (reordered_refl W x (T' _ Hx))].
    cbn [fst]. rewrite <- (perm_get _ _ a PA NA). now apply sget_NoDup.
  Qed.
End Keywords.
