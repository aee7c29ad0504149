(** * Facts about [==]. *)
From Coq Require Import String List NArith ZArith Bool Lia.
From Verif Require Import Ustr UstrProofs Res PyInt PyFloat PyNumProofs PyDate Elem Value Geom Codec Spec EmitProofs VerbosityProofs Equal EqualSpec.
Import ListNotations.
Local Open Scope string_scope.

Lemma date_eqb_sym a b : date_eqb a b = date_eqb b a.
Proof. unfold date_eqb. now rewrite (Z.eqb_sym (dy a)), (Z.eqb_sym (dm a)), (Z.eqb_sym (dd a)). Qed.

Lemma kdt_eq_sym a b : kdt_eq a b = kdt_eq b a.
Proof.
  unfold kdt_eq. f_equal.
  - destruct (k_dt a) as [x|x], (k_dt b) as [y|y]; cbn [pydate_eq]; try reflexivity; [apply date_eqb_sym|].
    unfold datetime_eq. destruct (off x), (off y); try reflexivity; apply Z.eqb_sym.
  - destruct (k_res a), (k_res b); reflexivity.
Qed.

Lemma bool_eqb_sym a b : Bool.eqb a b = Bool.eqb b a.
Proof. now destruct a, b. Qed.

Lemma scalar_sym a b : scalar_eq a b = scalar_eq b a.
Proof.
  destruct a, b; cbn [scalar_eq]; try reflexivity; try apply num_eq_sym; try apply ueqb_sym; try apply bool_eqb_sym; try apply kdt_eq_sym; try apply point_eq_sym.
  - now rewrite String.eqb_sym, ueqb_sym.
  - rewrite bool_eqb_sym. f_equal. apply all2_sym. apply point_eq_sym.
Qed.

Lemma opt_eq_sym {A} (f : A -> A -> bool) (Hf : forall a b, f a b = f b a) a b : opt_eq f a b = opt_eq f b a.
Proof. destruct a, b; cbn; auto. Qed.

Lemma oriented_neg {A B} (f : A -> A -> B) flip x y : oriented (negb flip) f y x = oriented flip f x y.
Proof. now destruct flip. Qed.

Lemma all2_flip {A B} (f : A -> B -> bool) (g : B -> A -> bool) (H : forall a b, f a b = g b a) l : forall r, all2 f l r = all2 g r l.
Proof. induction l as [|x l IH]; intros [|y r]; cbn; try reflexivity. now rewrite H, IH. Qed.

Section Swap.
  Variable W : world.
  Variable geq : geo -> geo -> bool.
  Notation eqv := (eqv W geq).

  Lemma cmps_get attrs flip n : sget n (map (fun av : string * value => match av with (k, x) => (k, eqv x flip) end) attrs) =
    match sget n attrs with Some x => Some (eqv x flip) | None => None end.
  Proof. induction attrs as [|[k x] l IH]; cbn [map sget]; [reflexivity|]. now destruct (String.eqb n k). Qed.

  Lemma swap_attr attrs attrs' flip n d :
    Forall (fun av => forall flip b, eqv (snd av) flip b = eqv b (negb flip) (snd av)) attrs ->
    match sget n (map (fun av : string * value => match av with (k, x) => (k, eqv x flip) end) attrs), sget n attrs' with Some f, Some y => f y | _, _ => d end =
    match sget n (map (fun av : string * value => match av with (k, x) => (k, eqv x (negb flip)) end) attrs'), sget n attrs with Some f, Some y => f y | _, _ => d end.
  Proof.
    intro F. rewrite !cmps_get. destruct (sget n attrs) as [x|] eqn:X, (sget n attrs') as [y|]; try reflexivity.
    apply sget_In in X. exact (proj1 (Forall_forall _ _) F _ X flip y).
  Qed.

  Lemma apply_swap l flip : Forall (fun x => forall flip b, eqv x flip b = eqv b (negb flip) x) l -> forall l',
    apply_all (map (fun x => eqv x flip) l) l' = apply_all (map (fun x => eqv x (negb flip)) l') l.
  Proof. induction 1 as [|x l H _ IH]; intros [|y l']; cbn [map apply_all]; try reflexivity. now rewrite H, IH. Qed.

  (** The two ways of computing a comparison agree. *)
  Theorem eqv_swap a : forall flip b, eqv a flip b = eqv b (negb flip) a.
  Proof.
    induction a as [ | | | | | | | | | |l IH|c ns nss attrs IH] using value_ind'; intros flip w.
    1-8: destruct w; cbn [Equal.eqv]; f_equal; rewrite scalar_sym; f_equal; apply andb_comm.
    - destruct w; cbn [Equal.eqv]; try (f_equal; rewrite scalar_sym; f_equal; apply andb_comm). f_equal. apply all2_sym. apply opt_eq_sym, kdt_eq_sym.
    - destruct w; cbn [Equal.eqv]; try (f_equal; rewrite scalar_sym; f_equal; apply andb_comm). f_equal. apply all2_flip. intros x y. now rewrite oriented_neg.
    - destruct w as [ | | | | | | | | | |l'|]; cbn [Equal.eqv]; try (f_equal; rewrite scalar_sym; f_equal; apply andb_comm).
      rewrite Nat.eqb_sym. destruct (Nat.eqb _ _); [|reflexivity]. f_equal. now apply apply_swap.
    - destruct w as [ | | | | | | | | | | |c' ns' nss' attrs']; cbn [Equal.eqv]; try (f_equal; rewrite scalar_sym; f_equal; apply andb_comm).
      replace (if negb flip then strict_subclass W c' c else negb (strict_subclass W c c')) with (negb (if flip then strict_subclass W c c' else negb (strict_subclass W c' c))) by (destruct flip; cbn; [reflexivity|now rewrite negb_involutive]).
      set (af := if flip then _ else _).
      replace (if negb af then c' else c) with (if af then c else c') by now destruct af.
      destruct (class_of W (if af then c else c')) as [ci|]; [|reflexivity].
      replace (if negb af then attrs' else attrs) with (if af then attrs else attrs') by now destruct af.
      replace (if negb af then c else c') with (if af then c' else c) by now destruct af.
      destruct (eq_kind ci) as [[k names]|].
      + destruct (subclass W (if af then c' else c) k); [|reflexivity].
        rewrite !oriented_neg. rewrite (ueqb_sym ns' ns).
        assert (E : forall n, match sget n (map (fun av : string * value => match av with (k0, x) => (k0, eqv x (negb af)) end) attrs), sget n attrs' with Some f, Some y => f y | _, _ => Err EAttributeError end =
          match sget n (map (fun av : string * value => match av with (k0, x) => (k0, eqv x (negb (negb af))) end) attrs'), sget n attrs with Some f, Some y => f y | _, _ => Err EAttributeError end) by (intro n; now apply swap_attr).
        rewrite !(map_ext _ _ E), !E. reflexivity.
      + rewrite (String.eqb_sym c' c). destruct (String.eqb c c'); [|reflexivity]. rewrite (Nat.eqb_sym (List.length attrs')). destruct (Nat.eqb _ _); [|reflexivity].
        rewrite !oriented_neg. rewrite (ueqb_sym ns' ns).
        assert (E : forall n, match sget n (map (fun av : string * value => match av with (k0, x) => (k0, eqv x (negb af)) end) attrs), sget n attrs' with Some f, Some y => f y | _, _ => Ok false end =
          match sget n (map (fun av : string * value => match av with (k0, x) => (k0, eqv x (negb (negb af))) end) attrs'), sget n attrs with Some f, Some y => f y | _, _ => Ok false end) by (intro n; now apply swap_attr).
        rewrite !(map_ext _ _ E), (all2_sym String.eqb String.eqb_sym). reflexivity.
  Qed.
End Swap.

(** ** When a comparison is true *)

Lemma all_of_true l : all_of l = Ok true <-> Forall (fun r => r = Ok true) l.
Proof.
  induction l as [|[[|]|e] l IH]; cbn [all_of]; split; intro H; try discriminate; try (inversion H; discriminate).
  - constructor.
  - reflexivity.
  - constructor; [reflexivity|]. now apply IH.
  - inversion H. now apply IH.
Qed.

Lemma Forall_app_iff {A} (P : A -> Prop) l r : Forall P (l ++ r) <-> Forall P l /\ Forall P r.
Proof. apply Forall_app. Qed.

Lemma Forall_map_iff {A B} (f : A -> B) (P : B -> Prop) l : Forall P (map f l) <-> Forall (fun x => P (f x)) l.
Proof. apply Forall_map. Qed.

Lemma parts_all {A} (P : A -> Prop) n m l : Forall P l <-> Forall P (firstn n l) /\ Forall P (firstn m (skipn n l)) /\ Forall P (skipn m (skipn n l)).
Proof. rewrite <- !Forall_app, !firstn_skipn. reflexivity. Qed.

(** Dictionaries. *)
Lemma nss_eq_sym a b : nodups (map fst a) = true -> nss_eq a b = true -> nss_eq b a = true.
Proof.
  unfold nss_eq. rewrite !andb_true_iff, !Nat.eqb_eq, !forallb_forall. intros N [L F]. split; [now symmetry|].
  assert (I : incl (map fst a) (map fst b)).
  { intros k Hk. apply in_map_iff in Hk. destruct Hk as [[k' v] [<- Hk]]. specialize (F _ Hk). cbn [fst snd] in *. destruct (sget k' b) eqn:E; [|discriminate]. apply sget_In in E. now apply (in_map fst) in E. }
  assert (I' : incl (map fst b) (map fst a)) by (apply NoDup_length_incl; [now apply nodups_NoDup|rewrite !map_length; lia|exact I]).
  assert (ND : NoDup (map fst b)) by (apply NoDup_incl_NoDup with (l := map fst a); [now apply nodups_NoDup|rewrite !map_length; lia|exact I]).
  intros [k v] Hk. cbn [fst snd]. assert (Ha : In k (map fst a)) by (apply I'; now apply (in_map fst) in Hk).
  apply in_map_iff in Ha. destruct Ha as [[k' w] [E Ha]]. cbn in E. subst k'. rewrite (sget_NoDup _ _ _ (proj1 (nodups_NoDup _) N) Ha).
  specialize (F _ Ha). cbn [fst snd] in F. rewrite (sget_NoDup _ _ _ ND Hk) in F. now rewrite ueqb_sym.
Qed.

Lemma all2_string_eq l : forall r, all2 String.eqb l r = true <-> l = r.
Proof.
  induction l as [|x l IH]; intros [|y r]; cbn [all2]; split; intro H; try discriminate; try reflexivity.
  - apply andb_true_iff in H. destruct H as [E H]. apply String.eqb_eq in E. apply IH in H. now subst.
  - injection H as -> ->. rewrite String.eqb_refl. now apply IH.
Qed.

Section Facts.
  Variable W : world.
  Variable geq : geo -> geo -> bool.
  Notation eqv := (eqv W geq).

  Definition attr_eqv (flip : bool) (attrs attrs' : list (string * value)) (n : string) : Prop :=
    exists x y, sget n attrs = Some x /\ sget n attrs' = Some y /\ eqv x flip y = Ok true.

  Lemma attr_true attrs attrs' flip n d : d <> Ok true ->
    match sget n (map (fun av : string * value => match av with (k, x) => (k, eqv x flip) end) attrs), sget n attrs' with Some f, Some y => f y | _, _ => d end = Ok true <->
    attr_eqv flip attrs attrs' n.
  Proof.
    intro D. rewrite cmps_get. unfold attr_eqv. split.
    - destruct (sget n attrs) as [x|], (sget n attrs') as [y|]; intro H; try contradiction. exists x, y. auto.
    - intros [x [y [-> [-> H]]]]. exact H.
  Qed.

  Definition first_of (flip : bool) (c c' : string) : bool := if flip then strict_subclass W c c' else negb (strict_subclass W c' c).

  Definition obj_eqv (af : bool) c ns nss attrs c' ns' nss' attrs' : Prop :=
    exists ci, class_of W (if af then c else c') = Some ci /\ ns = ns' /\ oriented (negb af) nss_eq nss nss' = true /\
    match eq_kind ci with
    | Some (k, names) =>
        subclass W (if af then c' else c) k = true /\
        oriented (negb af) (geometry_eq W geq) (VObj c ns nss attrs) (VObj c' ns' nss' attrs') = Ok true /\
        forall n, In n (names ++ ["id"; "target_id"] ++ map fst (get_splat ci (if af then attrs else attrs'))) -> attr_eqv (negb af) attrs attrs' n
    | None =>
        c = c' /\ List.length attrs = List.length attrs' /\ map fst (extras ci attrs) = map fst (extras ci attrs') /\
        forall n, In n (map fst (if af then attrs else attrs')) -> attr_eqv (negb af) attrs attrs' n
    end.

  Lemma obj_true flip c ns nss attrs c' ns' nss' attrs' :
    eqv (VObj c ns nss attrs) flip (VObj c' ns' nss' attrs') = Ok true <-> obj_eqv (first_of flip c c') c ns nss attrs c' ns' nss' attrs'.
  Proof.
    cbn [Equal.eqv]. unfold obj_eqv. fold (first_of flip c c'). set (af := first_of flip c c'). clearbody af.
    destruct (class_of W (if af then c else c')) as [ci|]; [|split; [discriminate|intros [ci [E _]]; discriminate]].
    destruct (eq_kind ci) as [[k names]|] eqn:K.
    - destruct (subclass W (if af then c' else c) k) eqn:S.
      + rewrite all_of_true, !Forall_app, !Forall_map.
        assert (A : forall n, match sget n (map (fun av : string * value => match av with (k, x) => (k, eqv x (negb af)) end) attrs), sget n attrs' with Some f, Some y => f y | _, _ => Err EAttributeError end = Ok true <-> attr_eqv (negb af) attrs attrs' n) by (intro n; now apply attr_true).
        split.
        * intros [H1 [H2 H3]]. exists ci. inversion H2 as [|? ? G H4]; subst. inversion H4 as [|? ? N H5]; subst. inversion H5 as [|? ? M H6]; subst. inversion H6 as [|? ? I H7]; subst. inversion H7 as [|? ? T _]; subst.
          injection N as N. apply ueqb_eq in N. subst ns'. injection M as M. rewrite K. split; [reflexivity|]. split; [reflexivity|]. split; [exact M|]. split; [exact S|]. split; [exact G|].
          intros n Hn. apply in_app_or in Hn. destruct Hn as [Hn|Hn]; [now apply A, (proj1 (Forall_forall _ _) H1)|].
          apply in_app_or in Hn. destruct Hn as [[<-|[<-|[]]]|Hn]; [now apply A|now apply A|].
          apply in_map_iff in Hn. destruct Hn as [kv [<- Hn]]. now apply A, (proj1 (Forall_forall _ _) H3).
        * intros [ci' [E [-> [M H]]]]. injection E as <-. rewrite K in H. destruct H as [_ [G H]].
          assert (H' : forall n, In n (names ++ ["id"; "target_id"] ++ map fst (get_splat ci (if af then attrs else attrs'))) -> match sget n (map (fun av : string * value => match av with (k, x) => (k, eqv x (negb af)) end) attrs), sget n attrs' with Some f, Some y => f y | _, _ => Err EAttributeError end = Ok true) by (intros n Hn; now apply A, H).
          split; [|split].
          -- apply Forall_forall. intros n Hn. apply H', in_or_app. now left.
          -- rewrite M, ueqb_refl. repeat constructor; [exact G| |]; apply H', in_or_app; right; [now left|right; now left].
          -- apply Forall_forall. intros kv Hn. apply H', in_or_app. right. apply in_or_app. right. now apply in_map.
      + split; [discriminate|]. intros [ci' [E [_ [_ H]]]]. injection E as <-. rewrite K in H. destruct H as [H _]. congruence.
    - destruct (String.eqb c c') eqn:C.
      + apply String.eqb_eq in C. subst c'. destruct (Nat.eqb (List.length attrs) (List.length attrs')) eqn:L.
        * apply Nat.eqb_eq in L. rewrite all_of_true, !Forall_app, !Forall_map.
          assert (A : forall n, match sget n (map (fun av : string * value => match av with (k, x) => (k, eqv x (negb af)) end) attrs), sget n attrs' with Some f, Some y => f y | _, _ => Ok false end = Ok true <-> attr_eqv (negb af) attrs attrs' n) by (intro n; now apply attr_true).
          set (ks := map fst (if af then attrs else attrs')). set (n0 := List.length (ci_pre ci)). set (m0 := List.length (extras ci (if af then attrs else attrs'))).
          split.
          -- intros [H1 [H2 [H3 [H4 H5]]]]. inversion H2 as [|? ? M H6]; subst. inversion H6 as [|? ? N _]; subst. inversion H4 as [|? ? X _]; subst.
             injection N as N. apply ueqb_eq in N. subst ns'. injection M as M. injection X as X. exists ci. rewrite K. split; [reflexivity|]. split; [reflexivity|]. split; [exact M|].
             split; [reflexivity|]. split; [exact L|]. split; [now apply all2_string_eq|]. intros n Hn. apply A.
             assert (F := proj2 (parts_all _ n0 m0 ks) (conj H1 (conj H3 H5))). exact (proj1 (Forall_forall _ _) F n Hn).
          -- intros [ci' [E [-> [M H]]]]. injection E as <-. rewrite K in H. destruct H as [_ [_ [X H]]].
             assert (F : Forall (fun n => match sget n (map (fun av : string * value => match av with (k, x) => (k, eqv x (negb af)) end) attrs), sget n attrs' with Some f, Some y => f y | _, _ => Ok false end = Ok true) ks) by (apply Forall_forall; intros n Hn; now apply A, H).
             apply (parts_all _ n0 m0 ks) in F. destruct F as [F1 [F2 F3]]. rewrite M, ueqb_refl, (proj2 (all2_string_eq _ _) X). repeat split; auto.
        * split; [discriminate|]. intros [ci' [E [_ [_ H]]]]. injection E as <-. rewrite K in H. destruct H as [_ [H _]]. rewrite H, Nat.eqb_refl in L. discriminate.
      + split; [discriminate|]. intros [ci' [E [_ [_ H]]]]. injection E as <-. rewrite K in H. destruct H as [H _]. rewrite H, String.eqb_refl in C. discriminate.
  Qed.
End Facts.

(** ** Numbers and dates *)

Definition nval (n : num) : option (Z + bool) :=
  match n with
  | NInt z => Some (inl (z * two1074)%Z)
  | NFloat (FInf b) => Some (inr b)
  | NFloat f => match float_num f with Some x => Some (inl x) | None => None end
  end.

Lemma two1074_not0 : (two1074 <> 0)%Z.
Proof. assert (H := PyNumProofs.two1074_pos). lia. Qed.

Lemma num_eq_val a b : num_eq a b = true <-> nval a <> None /\ nval a = nval b.
Proof.
  destruct a as [x|[|s|s m e]], b as [y|[|t|t m' e']]; cbn [num_eq nval float_eq float_eq_int float_num].
  all: try (rewrite Z.eqb_eq).
  all: try (split; [discriminate|intros [H1 H2]; try contradiction; discriminate]).
  - split; [intros ->; split; congruence|]. intros [_ [= H]]. now apply Z.mul_cancel_r in H; [|exact two1074_not0].
  - split; [intros ->; split; congruence|]. now intros [_ [= H]].
  - split; [intro H; apply eqb_prop in H; subst; split; congruence|]. intros [_ [= ->]]. apply eqb_reflx.
  - split; [intros ->; split; congruence|]. now intros [_ [= H]].
  - split; [intros ->; split; congruence|]. now intros [_ [= H]].
Qed.

Lemma num_eq_trans a b c : num_eq a b = true -> num_eq b c = true -> num_eq a c = true.
Proof. rewrite !num_eq_val. intros [H1 H2] [H3 H4]. split; [exact H1|congruence]. Qed.

Lemma num_eq_refl n : num_nan n = false -> num_eq n n = true.
Proof. intro H. apply num_eq_val. split; [|reflexivity]. destruct n as [z|[|s|s m e]]; cbn in *; congruence. Qed.

Lemma all2_trans {A} (f : A -> A -> bool) (T : forall a b c, f a b = true -> f b c = true -> f a c = true) l : forall r s, all2 f l r = true -> all2 f r s = true -> all2 f l s = true.
Proof.
  induction l as [|x l IH]; intros [|y r] [|z s]; cbn [all2]; try discriminate; try reflexivity. rewrite !andb_true_iff. intros [H1 H2] [H3 H4]. eauto.
Qed.

Lemma all2_refl {A} (f : A -> A -> bool) l : (forall x, In x l -> f x x = true) -> all2 f l l = true.
Proof. induction l as [|x l IH]; cbn [all2]; intro H; [reflexivity|]. rewrite (H x (or_introl eq_refl)). apply IH. intros y Hy. apply H. now right. Qed.

Lemma point_eq_refl c : forallb (fun n => negb (num_nan n)) c = true -> point_eq c c = true.
Proof. rewrite forallb_forall. intro H. apply all2_refl. intros x Hx. apply num_eq_refl. specialize (H _ Hx). now destruct (num_nan x). Qed.

Lemma point_eq_trans a b c : point_eq a b = true -> point_eq b c = true -> point_eq a c = true.
Proof. apply all2_trans. exact num_eq_trans. Qed.

Lemma date_eqb_eq a b : date_eqb a b = true <-> a = b.
Proof.
  destruct a, b. unfold date_eqb. cbn. rewrite !andb_true_iff, !Z.eqb_eq. split; [intros [[-> ->] ->]; reflexivity|]. intros [= -> -> ->]. auto.
Qed.

Lemma kdt_eq_refl k : kdt_eq k k = true.
Proof.
  unfold kdt_eq. replace (resolution_eqb (k_res k) (k_res k)) with true by now destruct (k_res k). rewrite andb_true_r.
  destruct (k_dt k) as [d|d]; cbn [pydate_eq]; [now apply date_eqb_eq|]. unfold datetime_eq. destruct (off d); apply Z.eqb_refl.
Qed.

Lemma kdt_eq_trans a b c : kdt_eq a b = true -> kdt_eq b c = true -> kdt_eq a c = true.
Proof.
  unfold kdt_eq. rewrite !andb_true_iff. intros [H1 H2] [H3 H4]. split.
  - destruct (k_dt a) as [x|x], (k_dt b) as [y|y], (k_dt c) as [z|z]; cbn [pydate_eq] in *; try discriminate.
    + apply date_eqb_eq in H1, H3. apply date_eqb_eq. congruence.
    + unfold datetime_eq in *. destruct (off x), (off y), (off z); try discriminate; rewrite Z.eqb_eq in *; congruence.
  - destruct (k_res a), (k_res b), (k_res c); try discriminate; reflexivity.
Qed.

Lemma opt_eq_trans {A} (f : A -> A -> bool) (T : forall a b c, f a b = true -> f b c = true -> f a c = true) a b c : opt_eq f a b = true -> opt_eq f b c = true -> opt_eq f a c = true.
Proof. destruct a, b, c; cbn; try discriminate; eauto. Qed.

Lemma bool_eqb_num x y : Bool.eqb x y = num_eq (bool_num x) (bool_num y).
Proof. now destruct x, y. Qed.

Lemma scalar_trans a b c : scalar_eq a b = true -> scalar_eq b c = true -> scalar_eq a c = true.
Proof.
  destruct a as [ | | | | | | | | | | | ], b as [ | | | | | | | | | | | ]; cbn [scalar_eq]; try discriminate; intro H; destruct c as [ | | | | | | | | | | | ]; cbn [scalar_eq]; try discriminate; intro H'.
  all: rewrite ?bool_eqb_num in *.
  all: try (eapply num_eq_trans; eassumption).
  all: try reflexivity.
  - apply ueqb_eq in H, H'. subst. apply ueqb_refl.
  - apply andb_prop in H as [H1 H2], H' as [H3 H4]. apply String.eqb_eq in H1, H3. apply ueqb_eq in H2, H4. subst. now rewrite String.eqb_refl, ueqb_refl.
  - eapply kdt_eq_trans; eassumption.
  - eapply point_eq_trans; eassumption.
  - apply andb_prop in H as [H1 H2], H' as [H3 H4]. apply andb_true_iff. split; [eapply num_eq_trans; eassumption|]. eapply all2_trans; [exact point_eq_trans| |]; eassumption.
Qed.

(** ** Symmetry and transitivity *)

Lemma kind_mro ci k names : eq_kind ci = Some (k, names) -> mem k (ci_mro ci) = true.
Proof.
  unfold eq_kind. destruct (mem "geometry.Point" (ci_mro ci)) eqn:P; [now intros [= <- _]|]. destruct (mem "geometry.LineString" (ci_mro ci)) eqn:L; [now intros [= <- _]|].
  destruct (mem "geometry.Polygon" (ci_mro ci)) eqn:G; [now intros [= <- _]|discriminate].
Qed.

Lemma kind_unique W c ci ci' k names : kinds_ok W = true -> class_of W c = Some ci' -> eq_kind ci = Some (k, names) -> mem k (ci_mro ci') = true -> eq_kind ci' = Some (k, names).
Proof.
  intros K C E M. unfold kinds_ok in K. rewrite forallb_forall in K. apply sget_In in C. specialize (K _ C). cbn [snd] in K. rewrite !andb_true_iff, !negb_true_iff in K. destruct K as [[K1 K2] K3].
  unfold eq_kind in *. destruct (mem "geometry.Point" (ci_mro ci)); [injection E as <- <-; now rewrite M|].
  destruct (mem "geometry.LineString" (ci_mro ci)); [injection E as <- <-; rewrite M in *; now rewrite andb_true_r in K1; rewrite K1|].
  destruct (mem "geometry.Polygon" (ci_mro ci)); [injection E as <- <-; rewrite M in *; rewrite andb_true_r in K2, K3; now rewrite K2, K3|discriminate].
Qed.

Lemma apply_true (fs : list (value -> res bool)) : forall l, List.length fs = List.length l ->
  (Forall (fun r => r = Ok true) (apply_all fs l) <-> Forall2 (fun f y => f y = Ok true) fs l).
Proof.
  induction fs as [|f fs IH]; intros [|y l] L; cbn [apply_all]; try discriminate L; [split; constructor|]. injection L as L. split; intro H; inversion H; subst; constructor; auto; now apply IH.
Qed.

Lemma list_true W geq l flip l' : eqv W geq (VList l) flip (VList l') = Ok true <-> Forall2 (fun x y => eqv W geq x flip y = Ok true) l l'.
Proof.
  cbn [eqv]. destruct (Nat.eqb (List.length l) (List.length l')) eqn:L.
  - apply Nat.eqb_eq in L. rewrite all_of_true, apply_true by (rewrite map_length; exact L).
    revert l' L. induction l as [|x l IH]; intros [|y l'] L; try discriminate L; cbn [map]; [split; constructor|]. injection L as L. split; intro H; inversion H; subst; constructor; auto; now apply IH.
  - split; [discriminate|]. intro F. assert (E : List.length l = List.length l') by (clear -F; induction F; cbn; congruence). rewrite E, Nat.eqb_refl in L. discriminate.
Qed.

Section Equivalence.
  Variable W : world.
  Variable geq : geo -> geo -> bool.
  Hypothesis kinds : kinds_ok W = true.
  Hypothesis geq_sym : forall g h, geq g h = true -> geq h g = true.
  Notation eqv := (eqv W geq).

  Lemma titem_eq_sym a b : titem_eq geq a b = true -> titem_eq geq b a = true.
  Proof.
    unfold titem_eq. rewrite !andb_true_iff. intros [[H1 H2] H3]. rewrite (opt_eq_sym _ kdt_eq_sym), H1, (opt_eq_sym _ point_eq_sym), H3. split; [split; [reflexivity|now apply geq_sym]|reflexivity].
  Qed.

  Lemma geometry_eq_sym a b : geometry_eq W geq a b = Ok true -> geometry_eq W geq b a = Ok true.
  Proof.
    unfold geometry_eq. destruct (geometry W a) as [g|]; [|discriminate]. destruct (geometry W b) as [h|]; [|discriminate]. cbn [bind]. intros [= H]. f_equal.
    destruct g, h; cbn [opt_eq] in *; try discriminate; auto.
  Qed.

  Lemma oriented_sym {A} (f : A -> A -> bool) (S : forall x y, f x y = true -> f y x = true) flip x y : oriented flip f x y = true -> oriented (negb flip) f x y = true.
  Proof. destruct flip; cbn; auto. Qed.

  Definition flips x := forall flip y, no_extras W y = true -> eqv x flip y = Ok true -> eqv x (negb flip) y = Ok true.

  Lemma vall_attr P c ns nss attrs n x : vall P (VObj c ns nss attrs) = true -> sget n attrs = Some x -> vall P x = true.
  Proof. cbn [vall]. rewrite andb_true_iff, forallb_forall. intros [_ H] G. apply sget_In in G. exact (H _ G). Qed.

  (** Who is asked does not matter. *)
  Lemma obj_toggle af c ns nss attrs c' ns' nss' attrs' :
    Forall (fun av => flips (snd av)) attrs -> no_extras W (VObj c ns nss attrs) = true -> no_extras W (VObj c' ns' nss' attrs') = true ->
    obj_eqv W geq af c ns nss attrs c' ns' nss' attrs' -> obj_eqv W geq (negb af) c ns nss attrs c' ns' nss' attrs'.
  Proof.
    intros IH Ha Hb [ci [C [<- [M H]]]].
    assert (Ha' := Ha). assert (Hb' := Hb). unfold no_extras in Ha', Hb'. cbn [vall] in Ha', Hb'. apply andb_prop in Ha' as [Na _]. apply andb_prop in Hb' as [Nb _]. unfold eq_node in Na, Nb.
    destruct (class_of W c) as [ca|] eqn:Ca; [|discriminate]. destruct (class_of W c') as [cb|] eqn:Cb; [|discriminate].
    apply andb_prop in Na as [Na Xa]. apply andb_prop in Na as [Na Ma]. apply andb_prop in Nb as [Nb Xb]. apply andb_prop in Nb as [Nb Mb].
    assert (M' : oriented (negb (negb af)) nss_eq nss nss' = true) by (destruct af; cbn in *; now apply nss_eq_sym).
    assert (FL : forall n, attr_eqv W geq (negb af) attrs attrs' n -> attr_eqv W geq (negb (negb af)) attrs attrs' n).
    { intros n [x [y [Hx [Hy E]]]]. exists x, y. split; [exact Hx|]. split; [exact Hy|]. apply (proj1 (Forall_forall _ _) IH (n, x)); [now apply sget_In| |exact E]. exact (vall_attr _ _ _ _ _ _ _ Hb Hy). }
    destruct (eq_kind ci) as [[k names]|] eqn:K.
    - destruct H as [S [G H]]. unfold subclass in S.
      assert (exists ci', class_of W (if negb af then c else c') = Some ci' /\ eq_kind ci' = Some (k, names) /\ subclass W (if negb af then c' else c) k = true) as [ci' [C' [K' S']]].
      { destruct af; cbn [negb] in *.
        - rewrite Cb in S. exists cb. split; [exact Cb|]. split; [exact (kind_unique W c' ci cb k names kinds Cb K S)|]. unfold subclass. rewrite C. exact (kind_mro _ _ _ K).
        - rewrite Ca in S. exists ca. split; [exact Ca|]. split; [exact (kind_unique W c ci ca k names kinds Ca K S)|]. unfold subclass. rewrite C. exact (kind_mro _ _ _ K). }
      exists ci'. split; [exact C'|]. split; [reflexivity|]. split; [exact M'|]. rewrite K'. split; [exact S'|]. split.
      + destruct af; cbn [negb oriented] in *; now apply geometry_eq_sym.
      + intros n Hn. apply FL, H. rewrite app_assoc in Hn |- *. apply in_or_app. left. apply in_app_or in Hn as [Hn|Hn]; [exact Hn|exfalso].
        assert (E : extras ci' (if negb af then attrs else attrs') = []).
        { destruct af; cbn [negb] in *.
          - rewrite Cb in C'. injection C' as ->. rewrite K' in Xb. now destruct (extras ci' attrs').
          - rewrite Ca in C'. injection C' as ->. rewrite K' in Xa. now destruct (extras ci' attrs). }
        unfold get_splat in Hn. rewrite E in Hn. exact Hn.
    - destruct H as [<- [L [X H]]]. exists ci. split; [now destruct af|]. split; [reflexivity|]. split; [exact M'|]. rewrite K. split; [reflexivity|]. split; [exact L|]. split; [exact X|].
      intros n Hn. apply FL, H. apply nodups_NoDup in Na, Nb.
      assert (I : forall n, In n (map fst (if af then attrs else attrs')) -> In n (map fst (if negb af then attrs else attrs'))).
      { intros m Hm. destruct (H m Hm) as [x [y [Hx [Hy _]]]]. apply sget_In in Hx, Hy. destruct af; cbn [negb]; [now apply (in_map fst) in Hy|now apply (in_map fst) in Hx]. }
      revert n Hn. change (incl (map fst (if negb af then attrs else attrs')) (map fst (if af then attrs else attrs'))).
      apply NoDup_length_incl; [now destruct af|rewrite !map_length; destruct af; cbn; lia|exact I].
  Qed.

  Theorem flip_true a : no_extras W a = true -> flips a.
  Proof.
    induction a as [ | | | | | | | | | |l IH|c ns nss attrs IH] using value_ind'; intros N flip y Hy.
    1-8: destruct y; cbn [Equal.eqv]; auto.
    - destruct y; cbn [Equal.eqv]; auto.
    - destruct y as [ | | | | | | | | |l'| | ]; cbn [Equal.eqv]; auto. intros [= H]. f_equal. revert H. generalize l'. induction l as [|i l IHl]; intros [|j l'']; cbn [all2]; try discriminate; [reflexivity|].
      rewrite !andb_true_iff. intros [H1 H2]. split; [|now apply IHl]. revert H1. apply oriented_sym. exact titem_eq_sym.
    - destruct y as [ | | | | | | | | | |l'| ]; try (cbn [Equal.eqv]; auto; fail). rewrite !list_true. intro F. unfold no_extras in N, Hy. cbn [vall] in N, Hy. rewrite forallb_forall in N, Hy.
      clear -IH N Hy F geq_sym kinds. induction F as [|x y l l' E F IHF]; [constructor|]. constructor.
      + inversion IH as [|? ? H1 H2]; subst. apply H1; [apply N; now left|apply Hy; now left|exact E].
      + apply IHF; [now inversion IH|intros z Hz; apply N; now right|intros z Hz; apply Hy; now right].
    - destruct y as [ | | | | | | | | | | |c' ns' nss' attrs']; try (cbn [Equal.eqv]; auto; fail). rewrite !obj_true. intro H.
      assert (IH' : Forall (fun av => flips (snd av)) attrs).
      { apply Forall_forall. intros [k x] Hx. cbn [snd]. apply (proj1 (Forall_forall _ _) IH _ Hx). unfold no_extras in N. cbn [vall] in N. apply andb_prop in N as [_ N]. rewrite forallb_forall in N. exact (N _ Hx). }
      destruct (Bool.bool_dec (first_of W (negb flip) c c') (first_of W flip c c')) as [-> |D]; [exact H|].
      replace (first_of W (negb flip) c c') with (negb (first_of W flip c c')) by (destruct (first_of W (negb flip) c c'), (first_of W flip c c'); cbn; congruence). now apply obj_toggle.
  Qed.

  Theorem eq_sym_true a b : no_extras W a = true -> no_extras W b = true -> py_eq W geq a b = Ok true -> py_eq W geq b a = Ok true.
  Proof. intros Ha Hb H. unfold py_eq in *. rewrite eqv_swap. cbn [negb]. exact (flip_true a Ha false b Hb H). Qed.

  Lemma empty_eqv a flip b : empty_list a = true -> (eqv a flip b = Ok true <-> empty_list b = true).
  Proof.
    destruct a as [ | | | | | | |[|] l|l|l|l| ]; try discriminate; destruct l; try discriminate; intros _;
    destruct b as [ | | | | | | |[|] l'|l'|l'|l'| ]; try destruct l'; cbn; split; congruence.
  Qed.

  Lemma empty_eqv_r a flip b : empty_list b = true -> (eqv a flip b = Ok true <-> empty_list a = true).
  Proof. intro H. rewrite eqv_swap. now apply empty_eqv. Qed.

  Hypothesis geq_trans : forall g h k, geq g h = true -> geq h k = true -> geq g k = true.

  Lemma titem_eq_trans a b c : titem_eq geq a b = true -> titem_eq geq b c = true -> titem_eq geq a c = true.
  Proof.
    unfold titem_eq. rewrite !andb_true_iff. intros [[H1 H2] H3] [[H4 H5] H6]. split; [split|].
    - eapply (opt_eq_trans _ kdt_eq_trans); eassumption.
    - eauto.
    - eapply (opt_eq_trans _ point_eq_trans); eassumption.
  Qed.

  Lemma geometry_eq_trans a b c : geometry_eq W geq a b = Ok true -> geometry_eq W geq b c = Ok true -> geometry_eq W geq a c = Ok true.
  Proof.
    unfold geometry_eq. destruct (geometry W a) as [g|]; [|discriminate]. destruct (geometry W b) as [h|]; [|discriminate]. destruct (geometry W c) as [k|]; [|discriminate]. cbn [bind].
    intros [= H1] [= H2]. f_equal. eapply (opt_eq_trans _ geq_trans); eassumption.
  Qed.

  Lemma nss_eq_trans a b c : nss_eq a b = true -> nss_eq b c = true -> nss_eq a c = true.
  Proof.
    unfold nss_eq. rewrite !andb_true_iff, !Nat.eqb_eq, !forallb_forall. intros [L F] [L' F']. split; [congruence|]. intros [k v] H. specialize (F _ H). cbn [fst snd] in *.
    destruct (sget k b) as [w|] eqn:E; [|discriminate]. apply sget_In in E. specialize (F' _ E). cbn [fst snd] in F'. destruct (sget k c); [|discriminate]. apply ueqb_eq in F, F'. subst. apply ueqb_refl.
  Qed.

  Definition trans a := forall b c, no_extras W b = true -> no_extras W c = true -> eqv a false b = Ok true -> eqv b false c = Ok true -> eqv a false c = Ok true.

  Lemma obj_true_true c ns nss attrs c' ns' nss' attrs' : no_extras W (VObj c ns nss attrs) = true -> no_extras W (VObj c' ns' nss' attrs') = true ->
    (eqv (VObj c ns nss attrs) false (VObj c' ns' nss' attrs') = Ok true <-> obj_eqv W geq true c ns nss attrs c' ns' nss' attrs').
  Proof.
    intros Ha Hb. rewrite obj_true. destruct (first_of W false c c'); [reflexivity|].
    assert (IH : Forall (fun av => flips (snd av)) attrs).
    { apply Forall_forall. intros [k x] Hx. cbn [snd]. apply flip_true. unfold no_extras in Ha. cbn [vall] in Ha. apply andb_prop in Ha as [_ Ha]. rewrite forallb_forall in Ha. exact (Ha _ Hx). }
    split; intro H; [exact (obj_toggle false _ _ _ _ _ _ _ _ IH Ha Hb H)|exact (obj_toggle true _ _ _ _ _ _ _ _ IH Ha Hb H)].
  Qed.

  Lemma Ok_inj {A} (x y : A) : Ok x = Ok y -> x = y.
  Proof. now intros [= ->]. Qed.

  Theorem eqv_trans a : no_extras W a = true -> trans a.
  Proof.
    induction a as [ |v0|v1|v2|v3 v3'|v4|v5|gen cs|ds|is|l IH|c ns nss attrs IH] using value_ind'; intros Ha b d Hb Hd H1 H2.
    1-7: destruct b; cbn [Equal.eqv] in H1; try discriminate H1; cbn [empty_list andb orb] in H1; rewrite ?orb_false_r in H1; try discriminate H1;
      destruct d; cbn [Equal.eqv] in H2 |- *; try discriminate H2; cbn [empty_list andb orb] in H2 |- *; rewrite ?orb_false_r in H2 |- *; try discriminate H2;
      apply Ok_inj in H1; apply Ok_inj in H2; f_equal; first [reflexivity|eapply scalar_trans; eassumption].
    - destruct (empty_list (VCoords gen cs)) eqn:E; [apply (empty_eqv _ _ _ E) in H1; apply (empty_eqv _ _ _ H1) in H2; now apply empty_eqv|].
      destruct b as [ | | | | | | |gen' cs'| | | | ]; cbn [Equal.eqv scalar_eq orb] in H1; rewrite ?E in H1; cbn [andb] in H1; rewrite ?orb_false_r in H1; try discriminate H1.
      destruct d as [ | | | | | | |gen'' cs''| | | | ]; cbn [Equal.eqv scalar_eq orb] in H2 |- *; rewrite ?E; cbn [andb]; rewrite ?orb_false_r.
      all: apply Ok_inj in H1; apply Ok_inj in H2.
      all: assert (Eb : empty_list (VCoords gen' cs') = false) by (destruct (empty_list (VCoords gen' cs')) eqn:Eb; [|reflexivity]; exfalso; destruct gen', gen, cs', cs; cbn in *; congruence).
      all: rewrite Eb in H2; cbn [andb] in H2; rewrite ?orb_false_r in H2; try discriminate H2.
      f_equal. exact (scalar_trans (VCoords gen cs) (VCoords gen' cs') (VCoords gen'' cs'') H1 H2).
    - destruct (empty_list (VDates ds)) eqn:E; [apply (empty_eqv _ _ _ E) in H1; apply (empty_eqv _ _ _ H1) in H2; now apply empty_eqv|].
      destruct b; cbn [Equal.eqv scalar_eq orb] in H1; rewrite ?E in H1; cbn [andb] in H1; try discriminate H1.
      destruct d; cbn [Equal.eqv scalar_eq orb] in H2 |- *.
      all: apply Ok_inj in H1; apply Ok_inj in H2.
      all: try (f_equal; exact (all2_trans _ (opt_eq_trans _ kdt_eq_trans) _ _ _ H1 H2)).
      all: exfalso; destruct l, ds; cbn in *; congruence.
    - destruct (empty_list (VItems is)) eqn:E; [apply (empty_eqv _ _ _ E) in H1; apply (empty_eqv _ _ _ H1) in H2; now apply empty_eqv|].
      destruct b; cbn [Equal.eqv scalar_eq orb] in H1; rewrite ?E in H1; cbn [andb] in H1; try discriminate H1.
      destruct d; cbn [Equal.eqv scalar_eq orb] in H2 |- *.
      all: apply Ok_inj in H1; apply Ok_inj in H2.
      all: try (f_equal; exact (all2_trans _ titem_eq_trans _ _ _ H1 H2)).
      all: exfalso; destruct l, is; cbn in *; congruence.
    - destruct (empty_list (VList l)) eqn:E; [apply (empty_eqv _ _ _ E) in H1; apply (empty_eqv _ _ _ H1) in H2; now apply empty_eqv|].
      destruct b as [ | | | | | | | | | |l'| ]; try (cbn [Equal.eqv scalar_eq orb] in H1; rewrite ?E in H1; discriminate H1).
      destruct d as [ | | | | | | | | | |l''| ];
        try (exfalso; cbn [Equal.eqv scalar_eq orb] in H2; apply Ok_inj in H2; apply andb_prop in H2 as [H2 _]; apply (empty_eqv_r _ _ _ H2) in H1; congruence).
      apply list_true in H1, H2. apply list_true. unfold no_extras in Ha, Hb, Hd. cbn [vall] in Ha, Hb, Hd. rewrite forallb_forall in Ha, Hb, Hd.
      clear E. revert l'' H2 Hd. induction H1 as [|x y l l' E F IHF]; intros l'' H2 Hd; inversion H2; subst; constructor.
      + inversion IH as [|? ? I1 I2]; subst. eapply I1; [apply Ha; now left|apply Hb; now left|apply Hd; now left|exact E|eassumption].
      + apply IHF; [now inversion IH|intros z Hz; apply Ha; now right|intros z Hz; apply Hb; now right|assumption|intros z Hz; apply Hd; now right].
    - destruct b as [ | | | | | | | | | | |c' ns' nss' attrs']; try (cbn in H1; discriminate H1).
      destruct d as [ | | | | | | | | | | |c'' ns'' nss'' attrs'']; try (cbn in H2; discriminate H2).
      rewrite obj_true_true in * by assumption.
      assert (IH' : Forall (fun av => trans (snd av)) attrs).
      { apply Forall_forall. intros [k x] Hx. cbn [snd]. apply (proj1 (Forall_forall _ _) IH _ Hx). unfold no_extras in Ha. cbn [vall] in Ha. apply andb_prop in Ha as [_ Ha]. rewrite forallb_forall in Ha. exact (Ha _ Hx). }
      assert (T : forall n, attr_eqv W geq false attrs attrs' n -> attr_eqv W geq false attrs' attrs'' n -> attr_eqv W geq false attrs attrs'' n).
      { intros n [x [y [Hx [Hy E]]]] [y' [z [Hy' [Hz E']]]]. rewrite Hy in Hy'. injection Hy' as <-. exists x, z. split; [exact Hx|]. split; [exact Hz|].
        apply (proj1 (Forall_forall _ _) IH' (n, x) (sget_In _ _ _ Hx) y z); [exact (vall_attr _ _ _ _ _ _ _ Hb Hy)|exact (vall_attr _ _ _ _ _ _ _ Hd Hz)|exact E|exact E']. }
      destruct H1 as [ca [Ca [<- [M1 H1]]]], H2 as [cb [Cb [<- [M2 H2]]]]. cbn [negb oriented] in *.
      exists ca. split; [exact Ca|]. split; [reflexivity|]. split; [eapply nss_eq_trans; eassumption|].
      destruct (eq_kind ca) as [[k names]|] eqn:K.
      + destruct H1 as [S1 [G1 H1]]. unfold subclass in S1. rewrite Cb in S1. rewrite (kind_unique W c' ca cb k names kinds Cb K S1) in H2. destruct H2 as [S2 [G2 H2]].
        split; [exact S2|]. split; [eapply geometry_eq_trans; eassumption|]. intros n Hn. apply T; [now apply H1|].
        apply H2. rewrite app_assoc in Hn |- *. apply in_or_app. left. apply in_app_or in Hn as [Hn|Hn]; [exact Hn|exfalso].
        unfold no_extras in Ha. cbn [vall] in Ha. apply andb_prop in Ha as [Na _]. unfold eq_node in Na. rewrite Ca, K in Na. apply andb_prop in Na as [_ Xa].
        unfold get_splat in Hn. now destruct (extras ca attrs).
      + destruct H1 as [<- [L1 [X1 H1]]]. rewrite Ca in Cb. injection Cb as <-. rewrite K in H2. destruct H2 as [<- [L2 [X2 H2]]].
        split; [reflexivity|]. split; [congruence|]. split; [congruence|]. intros n Hn. apply T; [now apply H1|]. apply H2. destruct (H1 n Hn) as [x [y [_ [Hy _]]]]. apply sget_In in Hy. now apply (in_map fst) in Hy.
  Qed.
End Equivalence.

(** ** What the written XML depends on *)

Definition skel (v : value) : value := match v with VObj _ _ _ _ => VObj "" [] [] [] | VList _ => VList [] | _ => v end.

Section Xml.
  Variable W : world.
  Variable prec : option nat.
  Variable vb : verbosity.

  Definition members_view (v : value) : list (sem_t * res elem) := match v with VList l => map (fun y => (sem W y, etree W prec vb y)) l | _ => [] end.

  (** All that can be seen of an attribute's value when its owner is written. *)
  Definition view (v : value) : value * sem_t * res elem * res line * list (sem_t * res elem) :=
    (skel v, sem W v, etree W prec vb v, coords_of v, members_view v).

  Definition env_of (attrs : list (string * value)) : list (string * attr_sem) :=
    map (fun av => match av with (a, x) => (a, (x, sem W x, match x with VList l => map (sem W) l | _ => [] end)) end) attrs.

  Lemma sget_env n attrs : sget n (env_of attrs) = match sget n attrs with Some x => Some (x, sem W x, match x with VList l => map (sem W) l | _ => [] end) | None => None end.
  Proof. induction attrs as [|[k x] l IH]; cbn [env_of map sget]; [reflexivity|]. destruct (String.eqb n k); [reflexivity|exact IH]. Qed.

  Definition seen (x x' : attr_sem) : Prop :=
    skel (a_val x) = skel (a_val x') /\ a_bool x = a_bool x' /\ a_geom x = a_geom x' /\ a_list x = a_list x' /\ coords_of (a_val x) = coords_of (a_val x').

  Definition seen_env (env env' : list (string * attr_sem)) : Prop :=
    forall n, match sget n env, sget n env' with Some x, Some x' => seen x x' | None, None => True | _, _ => False end.

  Lemma with_seen {A} env env' n (f f' : attr_sem -> res A) : seen_env env env' -> (forall x x', seen x x' -> f x = f' x') -> with_attr env n f = with_attr env' n f'.
  Proof. intros E F. unfold with_attr. specialize (E n). destruct (sget n env), (sget n env'); try contradiction; auto. Qed.

  Lemma skel_cases v v' : skel v = skel v' -> v = v' \/ (exists c ns nss a c' ns' nss' a', v = VObj c ns nss a /\ v' = VObj c' ns' nss' a') \/ (exists l l', v = VList l /\ v' = VList l').
  Proof.
    destruct v as [ |b|n|s|c m|k|p|t l|l|l|l|c ns nss a]; destruct v' as [ |b'|n'|s'|c' m'|k'|p'|t' l'|l'|l'|l'|c' ns' nss' a']; cbn [skel]; intro H; try discriminate H; auto.
    - right. right. exists l, l'. auto.
    - right. left. do 8 eexists. split; reflexivity.
  Qed.

  Lemma eval_bool_seen env env' g e : seen_env env env' -> eval_bool env g e = eval_bool env' g e.
  Proof.
    intro E. induction e as [ |a|a|a| |x IHx y IHy|x IHx y IHy]; cbn [eval_bool]; auto.
    - apply with_seen; [exact E|]. now intros x x' [_ [H _]].
    - apply with_seen; [exact E|]. intros x x' [H _]. f_equal. destruct (skel_cases _ _ H) as [-> |[[? [? [? [? [? [? [? [? [-> ->]]]]]]]]]|[? [? [-> ->]]]]]; reflexivity.
    - apply with_seen; [exact E|]. intros x x' [H [_ [_ [-> _]]]]. destruct (skel_cases _ _ H) as [-> |[[? [? [? [? [? [? [? [? [-> ->]]]]]]]]]|[? [? [-> ->]]]]]; reflexivity.
    - now rewrite IHx, IHy.
    - now rewrite IHx, IHy.
  Qed.

  Lemma num_of_skel v v' : skel v = skel v' -> num_of v = num_of v'.
  Proof. intro H. destruct (skel_cases _ _ H) as [-> |[[? [? [? [? [? [? [? [? [-> ->]]]]]]]]]|[? [? [-> ->]]]]]; reflexivity. Qed.

  Lemma eval_geom_seen env env' b k : seen_env env env' -> eval_geom env b k = eval_geom env' b k.
  Proof.
    intro E. destruct k; cbn [eval_geom]; try reflexivity.
    1-3: unfold coords_geometry; apply with_seen; [exact E|]; intros x x' [_ [-> [_ [_ ->]]]]; reflexivity.
    - apply with_seen; [exact E|]. now intros x x' [_ [-> [-> _]]].
    - apply with_seen; [exact E|]. intros x x' [_ [-> [-> _]]]. destruct (a_bool x') as [[|]|]; try reflexivity. cbn [bind]. destruct (a_geom x') as [[g|]|]; try reflexivity. cbn [bind]. destruct (line_of g); [|reflexivity]. cbn [bind].
      apply with_seen; [exact E|]. now intros y y' [_ [_ [_ [-> _]]]].
    - apply with_seen; [exact E|]. now intros x x' [_ [_ [_ [-> _]]]].
    - apply with_seen; [exact E|]. intros x x' [H [_ [-> _]]]. destruct (skel_cases _ _ H) as [-> |[[? [? [? [? [? [? [? [? [-> ->]]]]]]]]]|[? [? [-> ->]]]]]; reflexivity.
    - destruct b as [[|]|]; try reflexivity. cbn [bind]. apply with_seen; [exact E|]. intros x x' [Hx _]. apply with_seen; [exact E|]. intros y y' [Hy _]. apply with_seen; [exact E|]. intros z z' [Hz _].
      now rewrite (num_of_skel _ _ Hx), (num_of_skel _ _ Hy), (num_of_skel _ _ Hz).
    - apply with_seen; [exact E|]. now intros x x' [_ [-> [-> _]]].
    - apply with_seen; [exact E|]. intros x x' [H _]. destruct (skel_cases _ _ H) as [-> |[[? [? [? [? [? [? [? [? [-> ->]]]]]]]]]|[? [? [-> ->]]]]]; reflexivity.
    - apply with_seen; [exact E|]. now intros x x' [_ [_ [_ [-> _]]]].
  Qed.

  Definition views (attrs attrs' : list (string * value)) : Prop := forall n, option_map view (sget n attrs) = option_map view (sget n attrs').

  Lemma members_sem v v' : members_view v = members_view v' ->
    match v with VList l => map (sem W) l | _ => [] end = match v' with VList l => map (sem W) l | _ => [] end.
  Proof.
    intro H. apply (f_equal (map fst)) in H. unfold members_view in H.
    assert (E : forall l, map fst (map (fun y => (sem W y, etree W prec vb y)) l) = map (sem W) l) by (intro l; rewrite map_map; now apply map_ext).
    destruct v, v'; cbn [map] in H; rewrite ?E in H; auto.
  Qed.

  Lemma views_seen attrs attrs' : views attrs attrs' -> seen_env (env_of attrs) (env_of attrs').
  Proof.
    intros H n. rewrite !sget_env. specialize (H n). destruct (sget n attrs) as [v|], (sget n attrs') as [v'|]; try discriminate H; [|exact I].
    cbn [option_map] in H. unfold view in H. assert (H1 : skel v = skel v') by congruence. assert (H2 : sem W v = sem W v') by congruence. assert (H3 : coords_of v = coords_of v') by congruence. assert (H4 : members_view v = members_view v') by congruence.
    unfold seen, a_val, a_bool, a_geom, a_list. cbn [fst snd]. rewrite H2. split; [exact H1|]. split; [reflexivity|]. split; [reflexivity|]. split; [now apply members_sem|exact H3].
  Qed.

  Lemma sem_views c ns nss attrs ns' nss' attrs' : views attrs attrs' -> sem W (VObj c ns nss attrs) = sem W (VObj c ns' nss' attrs').
  Proof.
    intro H. cbn [sem]. destruct (class_of W c) as [ci|]; [|reflexivity]. fold (env_of attrs). fold (env_of attrs'). assert (E := views_seen _ _ H).
    rewrite (eval_bool_seen _ _ _ _ E), (eval_geom_seen _ _ _ _ E), (eval_bool_seen _ _ _ _ E). reflexivity.
  Qed.

  Lemma coords_views c ns nss attrs c' ns' nss' attrs' : views attrs attrs' -> coords_of (VObj c ns nss attrs) = coords_of (VObj c' ns' nss' attrs').
  Proof.
    intro H. cbn [coords_of]. specialize (H "coords"). destruct (sget "coords" attrs) as [v|], (sget "coords" attrs') as [v'|]; try discriminate H; [|reflexivity]. cbn [option_map] in H. unfold view in H.
    assert (S : skel v = skel v') by congruence. destruct (skel_cases _ _ S) as [-> |[[? [? [? [? [? [? [? [? [-> ->]]]]]]]]]|[? [? [-> ->]]]]]; reflexivity.
  Qed.

  Lemma obj_attr_views ci attrs attrs' n : views attrs attrs' -> skel (obj_attr ci attrs n) = skel (obj_attr ci attrs' n) /\ py_bool W (obj_attr ci attrs n) = py_bool W (obj_attr ci attrs' n).
  Proof.
    intro H. unfold obj_attr. assert (H1 := H n). destruct (sget n attrs) as [v|], (sget n attrs') as [v'|]; try discriminate H1.
    - cbn [option_map] in H1. unfold view in H1. unfold py_bool. assert (sem W v = sem W v') as -> by congruence. split; [congruence|reflexivity].
    - destruct (ci_geom ci); auto. specialize (H "track_items"). destruct (sget "track_items" attrs) as [v|], (sget "track_items" attrs') as [v'|]; try discriminate H; auto.
      cbn [option_map] in H. unfold view in H. assert (S : skel v = skel v') by congruence. destruct (skel_cases _ _ S) as [-> |[[? [? [? [? [? [? [? [? [-> ->]]]]]]]]]|[? [? [-> ->]]]]]; auto.
  Qed.

  Definition ws_of (attrs : list (string * value)) : list (string * wattr) :=
    map (fun av => match av with (a, x) => (a, (x, etree W prec vb x, match x with VList l => map (fun y => (y, etree W prec vb y)) l | _ => [] end)) end) attrs.

  Lemma sget_ws n attrs : sget n (ws_of attrs) = match sget n attrs with Some x => Some (x, etree W prec vb x, match x with VList l => map (fun y => (y, etree W prec vb y)) l | _ => [] end) | None => None end.
  Proof. induction attrs as [|[k x] l IH]; cbn [ws_of map sget]; [reflexivity|]. destruct (String.eqb n k); [reflexivity|exact IH]. Qed.

  Lemma append_objs_views l : forall l' e, map (fun y => (sem W y, etree W prec vb y)) l = map (fun y => (sem W y, etree W prec vb y)) l' ->
    append_objs W (map (fun y => (y, etree W prec vb y)) l) e = append_objs W (map (fun y => (y, etree W prec vb y)) l') e.
  Proof.
    induction l as [|x l IH]; intros [|x' l'] e H; try discriminate H; [reflexivity|]. cbn [map] in H. assert (S : sem W x = sem W x') by congruence. assert (E : etree W prec vb x = etree W prec vb x') by congruence.
    assert (T : map (fun y => (sem W y, etree W prec vb y)) l = map (fun y => (sem W y, etree W prec vb y)) l') by congruence.
    cbn [map append_objs]. unfold py_bool. rewrite S, E. destruct (fst (sem W x')) as [[|]|]; cbn [bind]; [|now apply IH|reflexivity]. destruct (etree W prec vb x'); cbn [bind]; [now apply IH|reflexivity].
  Qed.

  Lemma get_value_skel v v' d : skel v = skel v' -> skel (get_value vb v d) = skel (get_value vb v' d).
  Proof.
    intro H. destruct (skel_cases _ _ H) as [-> |[[? [? [? [? [? [? [? [? [-> ->]]]]]]]]]|[? [? [-> ->]]]]]; [reflexivity| |]; unfold get_value; destruct vb, d; reflexivity.
  Qed.

  Lemma set_element_views ci ns nss nss' attrs attrs' it e : (forall id, sget id nss = sget id nss') -> views attrs attrs' ->
    set_element W prec vb ci ns nss attrs (ws_of attrs) it e = set_element W prec vb ci ns nss' attrs' (ws_of attrs') it e.
  Proof.
    intros N H. destruct (obj_attr_views ci _ _ (it_attr it) H) as [S B]. assert (G := get_value_skel _ _ (it_default it) S).
    assert (EN : forall c m, enum_ns W ns nss c m = enum_ns W ns nss' c m).
    { intros c m. unfold enum_ns, ns_get. destruct (sget c (w_enums W)) as [en|]; [|reflexivity]. destruct (uget m en) as [[id|]|]; try reflexivity. now rewrite N. }
    assert (DN : date_ns nss = date_ns nss') by (unfold date_ns, ns_get; now rewrite N).
    unfold set_element. set (v0 := obj_attr ci attrs (it_attr it)) in *. set (v0' := obj_attr ci attrs' (it_attr it)) in *. set (v := get_value vb v0 (it_default it)) in *. set (v' := get_value vb v0' (it_default it)) in *. clearbody v v'.
    destruct (it_set it) eqn:K.
    1-13: destruct (skel_cases _ _ G) as [-> |[[? [? [? [? [? [? [? [? [-> ->]]]]]]]]]|[? [? [-> ->]]]]]; try reflexivity.
    - destruct v'; try reflexivity. now rewrite EN.
    - rewrite DN. reflexivity.
    - rewrite DN. reflexivity.
    - destruct (skel_cases _ _ S) as [-> |[[? [? [? [? [? [? [? [? [-> ->]]]]]]]]]|[? [? [-> ->]]]]]; reflexivity.
    - rewrite B. destruct (py_bool W v0') as [[|]|]; try reflexivity. cbn [bind]. rewrite !sget_ws. specialize (H (it_attr it)). destruct (sget (it_attr it) attrs) as [x|], (sget (it_attr it) attrs') as [x'|]; try discriminate H; [|reflexivity].
      cbn [option_map] in H. unfold view in H. assert (etree W prec vb x = etree W prec vb x') as -> by congruence. reflexivity.
    - rewrite !sget_ws. specialize (H (it_attr it)). destruct (sget (it_attr it) attrs) as [x|], (sget (it_attr it) attrs') as [x'|]; try discriminate H; [|reflexivity].
      cbn [option_map] in H. unfold view in H. assert (Sx : skel x = skel x') by congruence. assert (M : members_view x = members_view x') by congruence. clear H.
      destruct (skel_cases _ _ Sx) as [-> |[[? [? [? [? [? [? [? [? [-> ->]]]]]]]]]|[? [? [-> ->]]]]]; try reflexivity. apply append_objs_views. exact M.
  Qed.

  Lemma set_elements_views ci ns nss nss' attrs attrs' its : (forall id, sget id nss = sget id nss') -> views attrs attrs' -> forall e,
    set_elements W prec vb ci ns nss attrs (ws_of attrs) its e = set_elements W prec vb ci ns nss' attrs' (ws_of attrs') its e.
  Proof.
    intros N H. induction its as [|it its IH]; intro e; [reflexivity|]. cbn [set_elements]. rewrite (set_element_views ci ns nss nss' attrs attrs' it e N H). destruct (set_element _ _ _ _ _ _ _ _ _ _); [apply IH|reflexivity].
  Qed.

  Lemma obj_view c ns nss nss' attrs attrs' : (forall id, sget id nss = sget id nss') -> views attrs attrs' -> view (VObj c ns nss attrs) = view (VObj c ns nss' attrs').
  Proof.
    intros N H. unfold view. rewrite (sem_views c ns nss attrs ns nss' attrs' H), (coords_views c ns nss attrs c ns nss' attrs' H). do 2 f_equal. f_equal.
    cbn [etree]. fold (ws_of attrs). fold (ws_of attrs'). unfold write_with. destruct (class_of W c) as [ci|]; [|reflexivity]. destruct (ci_root ci); [now apply set_element_views|now apply set_elements_views].
  Qed.
End Xml.

Lemma sget_cons_or {A} n k (x : A) l y : sget n ((k, x) :: l) = Some y -> (n = k /\ x = y) \/ sget n l = Some y.
Proof. cbn [sget]. destruct (String.eqb n k) eqn:E; [|auto]. apply String.eqb_eq in E. intros [= ->]. auto. Qed.

(** The [__eq__] methods compare at least what the specification says. *)
Definition compared_ok (W : world) : bool :=
  forallb (fun cc => match eq_kind (snd cc) with
    | None => true
    | Some (_, names) => forallb (fun n => mem n (names ++ ["id"; "target_id"])) (compared (fst cc))
    end) (w_classes W).

Section SameXml.
  Variable W : world.
  Variable geq : geo -> geo -> bool.
  Variable prec : option nat.
  Variable vb : verbosity.
  Hypothesis CK : compared_ok W = true.

  Lemma nss_eq_get a b : nodups (map fst a) = true -> nodups (map fst b) = true -> nss_eq a b = true -> forall id, sget id a = sget id b.
  Proof.
    intros Na Nb E id. assert (E' := nss_eq_sym _ _ Na E). unfold nss_eq in E, E'. apply andb_prop in E as [_ E], E' as [_ E']. rewrite forallb_forall in E, E'.
    destruct (sget id a) as [x|] eqn:A.
    - apply sget_In in A. specialize (E _ A). cbn [fst snd] in E. destruct (sget id b); [|discriminate]. apply ueqb_eq in E. now subst.
    - destruct (sget id b) as [y|] eqn:B; [|reflexivity]. apply sget_In in B. specialize (E' _ B). cbn [fst snd] in E'. now rewrite A in E'.
  Qed.

  Lemma eq_view a : no_extras W a = true -> forall b, no_extras W b = true -> spelled_alike W geq a b -> shapes_alike W geq a b -> py_eq W geq a b = Ok true -> view W prec vb a = view W prec vb b.
  Proof.
    unfold py_eq. induction a as [ |v0|v1|v2|v3 v3'|v4|v5|v6 v6'|v7|v8|l IH|c ns nss attrs IH] using value_ind'; intros Ha b Hb S G E.
    1-10: destruct b as [ | | | | | | | | | |[|y l']|c' ns' nss' attrs']; try reflexivity; try (now rewrite (S _ _ (within_self _) (within_self _) eq_refl eq_refl E)); cbn [Equal.eqv scalar_eq empty_list orb] in E; rewrite ?andb_false_r in E; discriminate E.
    - destruct l as [|x l].
      + destruct b as [ | | | | | | | | | |[|y l']|c' ns' nss' attrs']; try reflexivity; try (now rewrite (S _ _ (within_self _) (within_self _) eq_refl eq_refl E)); cbn in E; discriminate E.
      + destruct b as [ | | | | | | | | | |l'|c' ns' nss' attrs']; try (cbn in E; discriminate E). apply list_true in E. unfold view. cbn [skel etree coords_of sem members_view].
        assert (M : map (fun y => (sem W y, etree W prec vb y)) (x :: l) = map (fun y => (sem W y, etree W prec vb y)) l').
        { unfold no_extras in Ha, Hb. cbn [vall] in Ha, Hb. rewrite forallb_forall in Ha, Hb. clear -IH G Ha Hb S E. revert G Ha Hb S. induction E as [|z z' m m' E1 E2 IHE]; intros; [reflexivity|]. cbn [map]. inversion IH as [|? ? I1 I2]; subst.
          assert (V : view W prec vb z = view W prec vb z').
          { apply I1; [apply Ha; now left|apply Hb; now left| | |exact E1].
            - intros p q Hp Hq. apply S; [eapply within_member; [now left|exact Hp]|eapply within_member; [now left|exact Hq]].
            - intros p1 p2 p3 p4 q1 q2 q3 q4 Hp Hq. apply G; [eapply within_member; [now left|exact Hp]|eapply within_member; [now left|exact Hq]]. }
          unfold view in V. f_equal; [congruence|]. apply IHE; auto.
          - intros p1 p2 p3 p4 q1 q2 q3 q4 Hp Hq. inversion Hp; subst. inversion Hq; subst.
            apply G; [eapply within_member; [right; eassumption|assumption]|eapply within_member; [right; eassumption|assumption]].
          - intros p Hp. apply Ha. now right.
          - intros p Hp. apply Hb. now right.
          - intros p q Hp Hq. inversion Hp; subst; [intros L1 L2 Q; destruct m; [|discriminate L1]|]. 
            + inversion E2; subst. inversion Hq; subst; [reflexivity|contradiction].
            + inversion Hq; subst.
              * intros L1 L2. inversion E2; subst; [contradiction|discriminate L2].
              * apply S; [eapply within_member; [right; eassumption|assumption]|eapply within_member; [right; eassumption|assumption]]. }
        rewrite M. destruct l' as [|y l']; [discriminate M|]. reflexivity.
    - destruct b as [ | | | | | | | | | |[|y l']|c' ns' nss' attrs']; try (cbn in E; discriminate E). assert (E0 := E). apply obj_true in E. destruct E as [ci [C [<- [N E]]]].
      assert (Ha' := Ha). assert (Hb' := Hb). unfold no_extras in Ha', Hb'. cbn [vall] in Ha', Hb'. apply andb_prop in Ha' as [Na _]. apply andb_prop in Hb' as [Nb _]. unfold eq_node in Na, Nb.
      destruct (class_of W c) as [ca|] eqn:Ca; [|discriminate]. destruct (class_of W c') as [cb|] eqn:Cb; [|discriminate].
      apply andb_prop in Na as [Na Xa]. apply andb_prop in Na as [Na Ma]. apply andb_prop in Nb as [Nb Xb]. apply andb_prop in Nb as [Nb Mb].
      destruct (eq_kind ci) as [[k names]|] eqn:K.
      { assert (KK : k = "geometry.Point" \/ k = "geometry.LineString" \/ k = "geometry.Polygon").
        { unfold eq_kind in K. destruct (mem "geometry.Point" (ci_mro ci)); [injection K as <- _; auto|]. destruct (mem "geometry.LineString" (ci_mro ci)); [injection K as <- _; auto|].
          destruct (mem "geometry.Polygon" (ci_mro ci)); [injection K as <- _; auto|discriminate]. }
        assert (EK : forall cx, mem k (ci_mro cx) = true -> exists kn, eq_kind cx = Some kn).
        { intros cx M. unfold eq_kind. destruct (mem "geometry.Point" (ci_mro cx)) eqn:M1; [eauto|]. destruct (mem "geometry.LineString" (ci_mro cx)) eqn:M2; [eauto|]. destruct (mem "geometry.Polygon" (ci_mro cx)) eqn:M3; [eauto|].
          exfalso. destruct KK as [-> |[-> | ->]]; congruence. }
        destruct E as [Sb [_ A]]. unfold subclass in Sb.
        assert (Gs : geometric W (VObj c ns nss attrs) = true /\ geometric W (VObj c' ns nss' attrs') = true).
        { unfold geometric. rewrite Ca, Cb. destruct (first_of W false c c').
          - rewrite Cb in Sb. destruct (EK _ Sb) as [kn ->]. assert (ci = ca) as -> by congruence. now rewrite K.
          - rewrite Ca in Sb. destruct (EK _ Sb) as [kn ->]. assert (ci = cb) as -> by congruence. now rewrite K. }
        destruct Gs as [Ga Gb]. destruct (G _ _ _ _ _ _ _ _ (within_self _) (within_self _) Ga Gb E0) as [<- D].
        assert (F : first_of W false c c = true) by (unfold first_of, strict_subclass; now rewrite String.eqb_refl). rewrite F in *. cbn [negb oriented] in *.
        apply obj_view; [now apply nss_eq_get|]. intro n. destruct (mem n (compared c)) eqn:Mn; [|now rewrite (D n Mn)].
        assert (In n (names ++ ["id"; "target_id"])) as In1.
        { unfold compared_ok in CK. rewrite forallb_forall in CK. assert (Cc := C). unfold class_of in Cc. apply sget_In in Cc. specialize (CK _ Cc). cbn [fst snd] in CK. rewrite K in CK. rewrite forallb_forall in CK. apply mem_In. apply CK. now apply mem_In. }
        destruct (A n) as [x [y [X [Y Q]]]]; [apply in_app_iff in In1; rewrite !in_app_iff; tauto|]. rewrite X, Y. cbn [option_map]. f_equal. assert (Hx := sget_In _ _ _ X).
        apply (proj1 (Forall_forall _ _) IH _ Hx); [exact (vall_attr _ _ _ _ _ _ _ Ha X)|exact (vall_attr _ _ _ _ _ _ _ Hb Y)| | |exact Q].
        - intros p q Hp Hq. apply S; [eapply within_attr; eassumption|eapply within_attr; [apply sget_In; eassumption|eassumption]].
        - intros p1 p2 p3 p4 q1 q2 q3 q4 Hp Hq. apply G; [eapply within_attr; eassumption|eapply within_attr; [apply sget_In; eassumption|eassumption]]. }
      destruct E as [<- [L [_ E]]]. assert (F : first_of W false c c = true) by (unfold first_of, strict_subclass; now rewrite String.eqb_refl). rewrite F in *. cbn [negb oriented] in *.
      apply obj_view; [now apply nss_eq_get|]. intro n.
      assert (I : incl (map fst attrs) (map fst attrs')) by (intros m Hm; destruct (E m Hm) as [x [y [_ [Hy _]]]]; apply sget_In in Hy; now apply (in_map fst) in Hy).
      assert (I' : incl (map fst attrs') (map fst attrs)) by (apply NoDup_length_incl; [now apply nodups_NoDup|rewrite !map_length; lia|exact I]).
      destruct (sget n attrs) as [x|] eqn:X.
      + assert (Hx := sget_In _ _ _ X). destruct (E n (in_map fst _ _ Hx)) as [x' [y [Hx' [Hy Q]]]]. rewrite X in Hx'. injection Hx' as <-. rewrite Hy. cbn [option_map]. f_equal.
        apply (proj1 (Forall_forall _ _) IH _ Hx); [exact (vall_attr _ _ _ _ _ _ _ Ha X)|exact (vall_attr _ _ _ _ _ _ _ Hb Hy)| | |exact Q].
        * intros p q Hp Hq. apply S; [eapply within_attr; eassumption|eapply within_attr; [apply sget_In; eassumption|eassumption]].
        * intros p1 p2 p3 p4 q1 q2 q3 q4 Hp Hq. apply G; [eapply within_attr; eassumption|eapply within_attr; [apply sget_In; eassumption|eassumption]].
      + destruct (sget n attrs') as [y|] eqn:Y; [|reflexivity]. exfalso. apply sget_In in Y. apply (in_map fst) in Y. apply I' in Y. apply in_map_iff in Y. destruct Y as [[k v] [Ek Hv]]. cbn [fst] in Ek. subst k. rewrite (sget_NoDup _ _ _ (proj1 (nodups_NoDup _) Na) Hv) in X. discriminate.
  Qed.

  Theorem eq_same_xml a b : no_extras W a = true -> no_extras W b = true -> spelled_alike W geq a b -> shapes_alike W geq a b -> py_eq W geq a b = Ok true -> etree W prec vb a = etree W prec vb b.
  Proof. intros Ha Hb S G E. assert (V := eq_view a Ha b Hb S G E). unfold view in V. congruence. Qed.
End SameXml.

(** ** Reflexivity *)

Lemma shape_has ci attrs n : shape_ok ci attrs = true -> mem n (map fst (ci_pre ci ++ ci_post ci)) = true -> exists x, sget n attrs = Some x.
Proof.
  unfold shape_ok. intros H M. apply andb_prop in H as [H _]. apply andb_prop in H as [H ND]. apply all2_string_eq in H. apply mem_In in M. rewrite map_app in M.
  assert (I : In n (map fst attrs)) by (rewrite H; apply in_or_app; apply in_app_or in M as [M|M]; [now left|right; apply in_or_app; now right]).
  apply in_map_iff in I. destruct I as [[k x] [<- I]]. exists x. apply sget_NoDup; [now apply nodups_NoDup|exact I].
Qed.

Section Reflexive.
  Variable W : world.
  Variable geq : geo -> geo -> bool.
  Hypothesis ka : kinds_attrs W = true.

  Lemma nss_eq_refl a : nodups (map fst a) = true -> nss_eq a a = true.
  Proof.
    intro N. unfold nss_eq. rewrite Nat.eqb_refl. apply forallb_forall. intros [k v] H. cbn [fst snd]. rewrite (sget_NoDup _ _ _ (proj1 (nodups_NoDup _) N) H). apply ueqb_refl.
  Qed.

  Lemma fine_attr c ns nss attrs n x : geometries_fine W geq (VObj c ns nss attrs) -> In (n, x) attrs -> geometries_fine W geq x.
  Proof.
    intros [F1 F2] H. split.
    - intros y Hy. apply F1. eapply within_attr; eassumption.
    - intros l i Hl. apply F2. eapply within_attr; eassumption.
  Qed.

  Lemma fine_member l x : geometries_fine W geq (VList l) -> In x l -> geometries_fine W geq x.
  Proof.
    intros [F1 F2] H. split.
    - intros y Hy. apply F1. eapply within_member; eassumption.
    - intros m i Hl. apply F2. eapply within_member; eassumption.
  Qed.

  Theorem eqv_refl v : vall (typed_node W) v = true -> no_nan v = true -> distinct_keys v = true -> geometries_fine W geq v -> eqv W geq v false v = Ok true.
  Proof.
    induction v as [ |b|n|s|c m|k|p|t l|l|l|l IH|c ns nss attrs IH] using value_ind'; intros T N D F.
    - reflexivity.
    - cbn. now rewrite eqb_reflx.
    - cbn in N |- *. rewrite num_eq_refl; [reflexivity|now destruct (num_nan n)].
    - cbn. now rewrite ueqb_refl.
    - cbn. now rewrite String.eqb_refl, ueqb_refl.
    - cbn. now rewrite kdt_eq_refl.
    - cbn [Equal.eqv scalar_eq no_nan] in *. now rewrite point_eq_refl.
    - cbn [Equal.eqv scalar_eq no_nan] in *. rewrite eqb_reflx, all2_refl; [reflexivity|]. rewrite forallb_forall in N. intros x Hx. apply point_eq_refl. now apply N.
    - cbn [Equal.eqv]. rewrite all2_refl; [reflexivity|]. intros [k|] _; cbn [opt_eq]; [apply kdt_eq_refl|reflexivity].
    - cbn [Equal.eqv]. rewrite all2_refl; [reflexivity|]. intros i Hi. cbn [oriented]. unfold titem_eq. cbn [no_nan] in N. rewrite forallb_forall in N. specialize (N _ Hi).
      rewrite (proj2 F l i (within_self _) Hi). destruct (ti_when i); cbn [opt_eq]; rewrite ?kdt_eq_refl; destruct (ti_angle i); cbn [opt_eq andb]; rewrite ?point_eq_refl; auto.
    - apply list_true. unfold distinct_keys in *. cbn [vall no_nan] in T, N, D. rewrite forallb_forall in T, N, D.
      assert (A : forall x, In x l -> eqv W geq x false x = Ok true) by (intros x Hx; apply (proj1 (Forall_forall _ _) IH _ Hx); auto; now apply fine_member with (l := l)).
      clear -A. induction l as [|x l IHl]; constructor; [apply A; now left|apply IHl; intros y Hy; apply A; now right].
    - apply obj_true. assert (first_of W false c c = true) as -> by (unfold first_of, strict_subclass; now rewrite String.eqb_refl). unfold obj_eqv.
      unfold distinct_keys in *. cbn [vall no_nan] in T, N, D. apply andb_prop in T as [T0 T], D as [D0 D]. rewrite forallb_forall in T, N, D. unfold typed_node in T0. destruct (class_of W c) as [ci|] eqn:C; [|discriminate]. apply andb_prop in T0 as [Sh _].
      assert (A : forall n x, sget n attrs = Some x -> attr_eqv W geq (negb true) attrs attrs n).
      { intros n x X. exists x, x. split; [exact X|]. split; [exact X|]. apply sget_In in X. apply (proj1 (Forall_forall _ _) IH _ X); [exact (T _ X)|exact (N _ X)|exact (D _ X)|exact (fine_attr _ _ _ _ _ _ F X)]. }
      assert (ND : NoDup (map fst attrs)) by (unfold shape_ok in Sh; apply andb_prop in Sh as [Sh _]; apply andb_prop in Sh as [_ Sh]; now apply nodups_NoDup).
      assert (A' : forall n, In n (map fst attrs) -> attr_eqv W geq (negb true) attrs attrs n) by (intros n Hn; apply in_map_iff in Hn; destruct Hn as [[k x] [<- Hn]]; apply (A k x); now apply sget_NoDup).
      exists ci. split; [reflexivity|]. split; [reflexivity|]. split; [now apply nss_eq_refl|].
      destruct (eq_kind ci) as [[k names]|] eqn:K; [|auto].
      split; [unfold subclass; rewrite C; exact (kind_mro _ _ _ K)|]. split.
      + cbn [negb oriented]. unfold geometry_eq. destruct (proj1 F _ (within_self _)) as [g [-> Hg]]; [unfold geometric; now rewrite C, K|]. cbn [bind]. destruct g as [g|]; [|reflexivity]. cbn [opt_eq]. now rewrite (Hg g eq_refl).
      + intros n Hn. rewrite app_assoc in Hn. apply in_app_or in Hn as [Hn|Hn].
        * unfold kinds_attrs in ka. rewrite forallb_forall in ka. specialize (ka _ (sget_In _ _ _ C)). cbn [snd] in ka. rewrite K in ka. rewrite forallb_forall in ka. specialize (ka _ Hn). destruct (shape_has _ _ _ Sh ka) as [x X]. exact (A n x X).
        * apply A'. apply in_map_iff in Hn. destruct Hn as [[k' x] [<- Hn]]. unfold get_splat, extras in Hn. apply filter_In in Hn as [Hn _]. apply filter_In in Hn as [Hn _]. now apply (in_map fst) in Hn.
  Qed.
End Reflexive.

(** ** Objects without geometry are compared without the oracle *)

Lemma apply_ext (f g : value -> value -> res bool) l : Forall (fun x => forall y, f x y = g x y) l -> forall l', apply_all (map f l) l' = apply_all (map g l) l'.
Proof. induction 1 as [|x l H _ IH]; intros [|y l']; cbn [map apply_all]; try reflexivity. now rewrite H, IH. Qed.

Theorem geq_irrelevant W geq geq' a : no_geometry W a = true -> forall flip b, eqv W geq a flip b = eqv W geq' a flip b.
Proof.
  induction a as [ |v0|v1|v2|v3 v3'|v4|v5|v6 v6'|v7|v8|l IH|c ns nss attrs IH] using value_ind'; intros G flip b; try reflexivity.
  - destruct v8; [|discriminate G]. destruct b as [ | | | | | | | | |[|]| | ]; reflexivity.
  - destruct b; try reflexivity. cbn [eqv]. destruct (Nat.eqb _ _); [|reflexivity]. f_equal. cbn [no_geometry] in G. rewrite forallb_forall in G. apply apply_ext.
    apply Forall_forall. intros x Hx y. apply (proj1 (Forall_forall _ _) IH _ Hx). now apply G.
  - destruct b as [ | | | | | | | | | | |c' ns' nss' attrs']; try reflexivity. cbn [no_geometry] in G. apply andb_prop in G as [G0 G]. rewrite forallb_forall in G.
    cbn [eqv]. set (af := if flip then _ else _).
    assert (A : forall d n, match sget n (map (fun av : string * value => match av with (k, x) => (k, eqv W geq x (negb af)) end) attrs), sget n attrs' with Some f, Some y => f y | _, _ => d end =
      match sget n (map (fun av : string * value => match av with (k, x) => (k, eqv W geq' x (negb af)) end) attrs), sget n attrs' with Some f, Some y => f y | _, _ => d end).
    { intros d n. rewrite !cmps_get. destruct (sget n attrs) as [x|] eqn:X, (sget n attrs') as [y|]; try reflexivity. apply sget_In in X. exact (proj1 (Forall_forall _ _) IH _ X (G _ X) (negb af) y). }
    destruct (class_of W (if af then c else c')) as [ci|] eqn:C; [|reflexivity]. destruct (eq_kind ci) as [[k names]|] eqn:K.
    + destruct (subclass W (if af then c' else c) k) eqn:S; [exfalso|reflexivity]. unfold geometric in G0. destruct af.
      * rewrite C, K in G0. discriminate.
      * unfold subclass in S. destruct (class_of W c) as [ca|]; [|discriminate]. destruct (eq_kind ca) eqn:Ka; [discriminate G0|].
        unfold eq_kind in K, Ka. destruct (mem "geometry.Point" (ci_mro ca)) eqn:M1, (mem "geometry.LineString" (ci_mro ca)) eqn:M2, (mem "geometry.Polygon" (ci_mro ca)) eqn:M3; try discriminate Ka.
        destruct (mem "geometry.Point" (ci_mro ci)); [congruence|]. destruct (mem "geometry.LineString" (ci_mro ci)); [congruence|]. destruct (mem "geometry.Polygon" (ci_mro ci)); congruence.
    + rewrite !(map_ext _ _ (A (Ok false))). reflexivity.
Qed.
