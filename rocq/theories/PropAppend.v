(** * Appending to containers: C28. *)
From Coq Require Import String List NArith ZArith Bool Lia PeanoNat.
From Verif Require Import Ustr UstrProofs Res PyDate Elem Value Geom Codec Tables Spec EmitProofs RoundTrip Append FindProofs Samples.
Import ListNotations.
Local Open Scope string_scope.

(** The list [features] of the object at [i]. *)
Definition features (h : heap) (i : nat) : list nat :=
  match nth_error h i with Some x => match c_features x with Some l => l | None => [] end | None => [] end.

(** [j] is below [i], or the same. *)
Inductive below (h : heap) : nat -> nat -> Prop :=
| below_self i : below h i i
| below_step i j k : In j (features h i) -> below h j k -> below h i k.

(** Every path downwards ends. *)
Inductive ends (h : heap) : nat -> Prop :=
| ends_all i : (forall j, In j (features h i) -> ends h j) -> ends h i.

(** All addresses in lists are addresses of objects. *)
Definition closed (h : heap) : Prop := forall i j, In j (features h i) -> (j < length h)%nat.

Lemma nth_set h i x : (i < length h)%nat -> nth_error (set_cell h i x) i = Some x /\ length (set_cell h i x) = length h /\
  forall j, j <> i -> nth_error (set_cell h i x) j = nth_error h j.
Proof.
  intro H. unfold set_cell. destruct (skipn i h) as [|y r] eqn:E.
  - assert (L := skipn_length i h). rewrite E in L. cbn in L. lia.
  - assert (F : length (firstn i h) = i) by (rewrite firstn_length; lia). split; [|split].
    + rewrite nth_error_app2 by lia. now rewrite F, Nat.sub_diag.
    + rewrite app_length, F. cbn [length]. assert (L := skipn_length i h). rewrite E in L. cbn in L. lia.
    + intros j Hj. rewrite <- (firstn_skipn i h) at 2. rewrite E. destruct (Nat.lt_ge_cases j i).
      * rewrite !nth_error_app1 by lia. reflexivity.
      * rewrite !nth_error_app2 by lia. rewrite F. destruct (j - i)%nat eqn:D; [lia|reflexivity].
Qed.

Lemma append_inv W h s o h' : append W h s o = Ok h' -> exists x l, nth_error h s = Some x /\ c_features x = Some l /\
  h' = set_cell h s (mkCell (c_class x) (c_ns x) (c_nss x) (c_attrs x) (Some (l ++ [o])%list)) /\ (is_container W (c_class x) = true -> o <> s).
Proof.
  unfold append. destruct (nth_error h s) as [x|]; [|discriminate]. destruct (is_container W (c_class x) && Nat.eqb o s) eqn:E; [discriminate|].
  destruct (c_features x) as [l|] eqn:F; [|discriminate]. intros [= <-]. exists x, l. repeat split; auto. intros C ->. rewrite C, Nat.eqb_refl in E. discriminate.
Qed.

Lemma append_features W h s o h' : append W h s o = Ok h' -> length h' = length h /\ features h' s = (features h s ++ [o])%list /\ forall i, i <> s -> nth_error h' i = nth_error h i.
Proof.
  intro H. apply append_inv in H as [x [l [Hx [Hl [-> _]]]]]. assert (L : (s < length h)%nat) by (apply nth_error_Some; congruence).
  destruct (nth_set h s (mkCell (c_class x) (c_ns x) (c_nss x) (c_attrs x) (Some (l ++ [o])%list)) L) as [N1 [N2 N3]]. split; [exact N2|]. split; [|exact N3].
  unfold features. rewrite N1, Hx, Hl. reflexivity.
Qed.

(** At the end, and nothing else changes: the container keeps its class, name
    spaces and other attributes, all other objects stay the same. *)
Theorem C28_at_end : forall W h s o h', append W h s o = Ok h' ->
  features h' s = (features h s ++ [o])%list /\
  (exists x x', nth_error h s = Some x /\ nth_error h' s = Some x' /\
     c_class x' = c_class x /\ c_ns x' = c_ns x /\ c_nss x' = c_nss x /\ c_attrs x' = c_attrs x) /\
  (forall i, i <> s -> nth_error h' i = nth_error h i) /\ length h' = length h.
Proof.
  intros W h s o h' H. destruct (append_features W h s o h' H) as [L [F N]]. split; [exact F|]. split; [|split; [exact N|exact L]].
  apply append_inv in H as [x [l [Hx [_ [-> _]]]]]. assert (Ls : (s < length h)%nat) by (apply nth_error_Some; congruence). exists x. eexists.
  split; [exact Hx|]. split; [exact (proj1 (nth_set h s _ Ls))|]. repeat split; reflexivity.
Qed.
Print Assumptions C28_at_end.

Lemma features_other W h s o h' i : append W h s o = Ok h' -> i <> s -> features h' i = features h i.
Proof. intros H N. unfold features. now rewrite (proj2 (proj2 (append_features W h s o h' H)) i N). Qed.

(** What is written changes accordingly: the value of the container has the
    value of the feature at the end of its features. *)
Lemma value_below h h' : (forall i, features h' i = features h i -> nth_error h' i = nth_error h i) ->
  forall n i, (forall j, below h i j -> features h' j = features h j) -> value_at n h' i = value_at n h i.
Proof.
  intros N n. induction n as [|n IH]; intros i H; [reflexivity|]. cbn [value_at]. rewrite (N i (H i (below_self h i))).
  destruct (nth_error h i) as [x|] eqn:Hx; [|reflexivity]. destruct (c_features x) as [l|] eqn:Hl; [|reflexivity].
  replace (map (value_at n h') l) with (map (value_at n h) l); [reflexivity|]. apply map_ext_in. intros j Hj. symmetry. apply IH. intros k Hk. apply H.
  apply below_step with j; [|exact Hk]. unfold features. now rewrite Hx, Hl.
Qed.

Lemma seq_res_In {A} (l : list (res A)) r : seq_res l = Ok r -> forall x, In x l -> exists a, x = Ok a.
Proof. revert r. induction l as [|y l IH]; cbn [seq_res]; intros r H x; [intros []|]. apply bind_ok in H as [a [-> H]]. apply bind_ok in H as [s [Hs _]]. intros [<-|Hx]; [eauto|]. eapply IH; eauto. Qed.

Lemma value_kids n h i v : value_at (S n) h i = Ok v -> forall j, In j (features h i) -> exists w, value_at n h j = Ok w.
Proof.
  cbn [value_at]. unfold features. destruct (nth_error h i) as [x|]; [|discriminate]. destruct (c_features x) as [l|]; [|intros _ j []].
  intros H j Hj. apply bind_ok in H as [vs [H _]]. apply (seq_res_In _ _ H). now apply in_map.
Qed.

Lemma no_loop h s k : In k (features h s) -> below h k s -> forall n i, below h i s -> forall v, value_at n h i <> Ok v.
Proof.
  intros Hk B. induction n as [|n IH]; intros i Bi v Hv; [discriminate|]. inversion Bi as [|? j ? Hj Bj]; subst.
  - destruct (value_kids n h s v Hv k Hk) as [w Hw]. exact (IH k B w Hw).
  - destruct (value_kids n h i v Hv j Hj) as [w Hw]. exact (IH j Bj w Hw).
Qed.

Theorem C28_written : forall W n h s o h' v vo, append W h s o = Ok h' -> ~ below h o s ->
  value_at (S n) h s = Ok v -> value_at n h o = Ok vo ->
  exists c ns nss attrs vs, v = VObj c ns nss (sset "features" (VList vs) attrs) /\
    value_at (S n) h' s = Ok (VObj c ns nss (sset "features" (VList (vs ++ [vo])%list) attrs)).
Proof.
  intros W n h s o h' v vo H NB Hv Ho. assert (H' := H). apply append_inv in H' as [x [l [Hx [Hl [E _]]]]]. subst h'.
  assert (Ls : (s < length h)%nat) by (apply nth_error_Some; congruence). destruct (nth_set h s (mkCell (c_class x) (c_ns x) (c_nss x) (c_attrs x) (Some (l ++ [o])%list)) Ls) as [N1 [N2 N3]].
  set (h' := set_cell _ _ _) in *. cbn [value_at] in Hv |- *. rewrite Hx, Hl in Hv. rewrite N1. cbn [c_features c_class c_ns c_nss c_attrs].
  apply bind_ok in Hv as [vs [Hvs Hv]]. injection Hv as <-. exists (c_class x), (c_ns x), (c_nss x), (c_attrs x), vs. split; [reflexivity|].
  assert (Loop : forall k, In k l -> ~ below h k s).
  { intros k Hk B.
    assert (G : exists w, value_at n h k = Ok w) by (apply (seq_res_In _ _ Hvs); now apply in_map).
    destruct G as [w Hw]. refine (no_loop h s k _ B n k B w Hw). unfold features. now rewrite Hx, Hl. }
  assert (Keep : forall k, ~ below h k s -> value_at n h' k = value_at n h k).
  { intros k Hk. apply value_below.
    - intros i Hi. destruct (Nat.eq_dec i s) as [->|Ne]; [|exact (N3 i Ne)]. exfalso. unfold features in Hi. rewrite N1, Hx, Hl in Hi. cbn [c_features] in Hi.
      apply (f_equal (@length nat)) in Hi. rewrite app_length in Hi. cbn in Hi. lia.
    - intros j Hj. assert (j <> s) by (intros ->; auto). unfold features. now rewrite N3. }
  rewrite map_app. cbn [map]. rewrite (seq_res_app_ok _ _ vs [vo]); [reflexivity| |].
  - rewrite <- Hvs. f_equal. apply map_ext_in. intros k Hk. apply Keep. auto.
  - rewrite (Keep o NB), Ho. reflexivity.
Qed.
Print Assumptions C28_written.

(** A container is never directly in its own list, whatever the history. *)
Theorem C28_not_in_itself : forall W calls h h', appends W h calls = Ok h' ->
  (forall i x, nth_error h i = Some x -> is_container W (c_class x) = true -> ~ In i (features h i)) ->
  forall i x, nth_error h' i = Some x -> is_container W (c_class x) = true -> ~ In i (features h' i).
Proof.
  intros W calls. induction calls as [|[s o] calls IH]; intros h h' H H0; [injection H as <-; exact H0|]. cbn [appends] in H. apply bind_ok in H as [h1 [H1 H]].
  apply (IH h1 h' H). intros i x Hx Hc Hin. destruct (Nat.eq_dec i s) as [->|N].
  - rewrite (proj1 (proj2 (append_features W h s o h1 H1))) in Hin. destruct (C28_at_end W h s o h1 H1) as [_ [[y [y' [Hy [Hy' [Ec _]]]]] _]].
    rewrite Hx in Hy'. injection Hy' as <-. rewrite Ec in Hc. apply in_app_or in Hin as [Hin|[->|[]]]; [exact (H0 s y Hy Hc Hin)|].
    apply append_inv in H1 as [z [l [Hz [_ [_ Hn]]]]]. rewrite Hy in Hz. injection Hz as <-. now apply Hn.
  - rewrite (features_other W h s o h1 i H1 N) in Hin. rewrite (proj2 (proj2 (append_features W h s o h1 H1)) i N) in Hx. exact (H0 i x Hx Hc Hin).
Qed.
Print Assumptions C28_not_in_itself.

(** ** Termination

    Full statement: after any history of [append] calls on fresh containers,
    writing terminates.  False: two containers can be put into each other, and
    the KML root into itself.  Writing then exhausts any stack. *)
Definition h_folders : heap := Eval vm_compute in
  [mkCell "containers.Folder" KMLNS nss0 (obj_attrs (mk "containers.Folder" [])) (Some []);
   mkCell "containers.Folder" KMLNS nss0 (obj_attrs (mk "containers.Folder" [])) (Some [])].
Definition h_root : heap := Eval vm_compute in [mkCell "kml.KML" KMLNS nss0 (obj_attrs (mk "kml.KML" [])) (Some [])].

Theorem C28_cycle_refuted : exists h h', (forall i, features h i = []) /\ appends W0 h [(0, 1); (1, 0)]%nat = Ok h' /\
  forall n prec vb, write_at n W0 prec vb h' 0 = Err ERecursion.
Proof.
  exists h_folders. eexists. split; [intros [|[|[|i]]]; reflexivity|]. split; [vm_compute; reflexivity|].
  intros n prec vb. match goal with |- write_at _ _ _ _ ?h _ = _ => assert (E : value_at n h 0 = Err ERecursion /\ value_at n h 1 = Err ERecursion) end.
  { induction n as [|n [IH0 IH1]]; [split; reflexivity|]. split; cbn [value_at nth_error c_features map seq_res]; [rewrite IH1|rewrite IH0]; reflexivity. }
  unfold write_at. now rewrite (proj1 E).
Qed.
Print Assumptions C28_cycle_refuted.

Theorem C28_root_in_itself_refuted : exists h h', (forall i, features h i = []) /\ append W0 h 0 0 = Ok h' /\ features h' 0 = [0%nat] /\
  forall n prec vb, write_at n W0 prec vb h' 0 = Err ERecursion.
Proof.
  exists h_root. eexists. split; [intros [|[|i]]; reflexivity|]. split; [vm_compute; reflexivity|]. split; [reflexivity|].
  intros n prec vb. match goal with |- write_at _ _ _ _ ?h _ = _ => assert (E : value_at n h 0 = Err ERecursion) end.
  { induction n as [|n IH0]; [reflexivity|]. cbn [value_at nth_error c_features map seq_res]. rewrite IH0. reflexivity. }
  unfold write_at. now rewrite E.
Qed.
Print Assumptions C28_root_in_itself_refuted.

(** A history in which nothing is put below itself. *)
Inductive orderly (W : world) : heap -> list (nat * nat) -> heap -> Prop :=
| orderly_nil h : orderly W h [] h
| orderly_cons h s o h1 calls h' : append W h s o = Ok h1 -> (o < length h)%nat -> ~ below h o s -> orderly W h1 calls h' -> orderly W h ((s, o) :: calls) h'.

Lemma ends_append W h s o h' : append W h s o = Ok h' -> ~ below h o s -> (forall i, ends h i) -> forall i, ends h' i.
Proof.
  intros H NB E.
  assert (A : forall i, ends h i -> ~ below h i s -> ends h' i).
  { induction 1 as [i _ IH]. intro NBi. constructor. intros j Hj. assert (Ne : i <> s) by (intros ->; apply NBi; constructor).
    rewrite (features_other W h s o h' i H Ne) in Hj. apply IH; [exact Hj|]. intro B. apply NBi. econstructor; eauto. }
  intro i. induction (E i) as [i _ IH]. constructor. intros j Hj. destruct (Nat.eq_dec i s) as [->|Ne].
  - rewrite (proj1 (proj2 (append_features W h s o h' H))) in Hj. apply in_app_or in Hj as [Hj|[<-|[]]]; [auto|]. apply A; [apply E|exact NB].
  - rewrite (features_other W h s o h' i H Ne) in Hj. auto.
Qed.

Lemma closed_append W h s o h' : append W h s o = Ok h' -> (o < length h)%nat -> closed h -> closed h'.
Proof.
  intros H Ho C i j Hj. destruct (append_features W h s o h' H) as [L [F _]]. rewrite L. destruct (Nat.eq_dec i s) as [->|Ne].
  - rewrite F in Hj. apply in_app_or in Hj as [Hj|[<-|[]]]; [exact (C s j Hj)|exact Ho].
  - rewrite (features_other W h s o h' i H Ne) in Hj. exact (C i j Hj).
Qed.

Lemma seq_map_ok {A B} (f : A -> res B) l : (forall a, In a l -> exists b, f a = Ok b) -> exists r, seq_res (map f l) = Ok r.
Proof.
  induction l as [|a l IH]; intro H; [now exists []|]. destruct (H a (or_introl eq_refl)) as [b Hb]. destruct IH as [r Hr]; [intros; apply H; now right|].
  exists (b :: r). cbn [map seq_res]. now rewrite Hb, Hr.
Qed.

Lemma value_more h : forall n i v, value_at n h i = Ok v -> forall m, (n <= m)%nat -> value_at m h i = Ok v.
Proof.
  induction n as [|n IH]; intros i v H m Hm; [discriminate|]. destruct m as [|m]; [lia|]. cbn [value_at] in H |- *. destruct (nth_error h i) as [x|]; [|discriminate].
  destruct (c_features x) as [l|]; [|exact H]. apply bind_ok in H as [vs [Hs H]]. assert (E : seq_res (map (value_at m h) l) = Ok vs); [|now rewrite E].
  clear H. revert vs Hs. induction l as [|j l IHl]; intros vs Hs; [exact Hs|]. cbn [map seq_res] in Hs |- *. apply bind_ok in Hs as [a [Ha Hs]]. apply bind_ok in Hs as [r [Hr Hs]]. injection Hs as <-.
  rewrite (IH j a Ha m) by lia. now rewrite (IHl r Hr).
Qed.

Lemma ends_value h i : closed h -> ends h i -> (i < length h)%nat -> exists n v, value_at n h i = Ok v.
Proof.
  intros C E. induction E as [i _ IH]. intro Hi. destruct (nth_error h i) as [x|] eqn:Hx; [|apply nth_error_None in Hx; lia].
  destruct (c_features x) as [l|] eqn:Hl.
  - assert (F : features h i = l) by (unfold features; now rewrite Hx, Hl).
    assert (B : exists n, forall j, In j l -> exists v, value_at n h j = Ok v).
    { assert (K : forall j, In j l -> exists n v, value_at n h j = Ok v) by (intros j Hj; apply IH; [now rewrite F|]; apply (C i j); now rewrite F).
      clear -K. induction l as [|j l IHl]; [exists 0%nat; intros j []|]. destruct (K j (or_introl eq_refl)) as [n1 [v1 H1]]. destruct IHl as [n2 H2]; [intros; apply K; now right|].
      exists (Nat.max n1 n2). intros k [<-|Hk]; [exists v1; apply (value_more h n1 j v1 H1); lia|]. destruct (H2 k Hk) as [v Hv]. exists v. apply (value_more h n2 k v Hv). lia. }
    destruct B as [n Hn]. destruct (seq_map_ok (value_at n h) l Hn) as [vs Hvs]. exists (S n). eexists. cbn [value_at]. rewrite Hx, Hl, Hvs. reflexivity.
  - exists 1%nat. eexists. cbn [value_at]. now rewrite Hx, Hl.
Qed.

(** If nothing is put below itself, writing any of the objects terminates
    after every history. *)
Theorem C28_terminates_partial : forall W h calls h', closed h -> (forall i, ends h i) -> orderly W h calls h' ->
  forall i, (i < length h')%nat -> exists n v, forall m, (n <= m)%nat ->
    value_at m h' i = Ok v /\ forall prec vb, write_at m W prec vb h' i = etree W prec vb v.
Proof.
  intros W h calls h' C E O. assert (X : closed h' /\ forall i, ends h' i).
  { induction O as [|h s o h1 calls h' H Ho NB O IH]; [auto|]. apply IH; [eapply closed_append; eauto|eapply ends_append; eauto]. }
  destruct X as [C' E']. intros i Hi. destruct (ends_value h' i C' (E' i) Hi) as [n [v Hv]]. exists n, v. intros m Hm. assert (Hw := value_more h' n i v Hv m Hm). split; [exact Hw|].
  intros prec vb. unfold write_at. now rewrite Hw.
Qed.
Print Assumptions C28_terminates_partial.

(** The condition is necessary: putting something below itself makes it
    impossible to write the container. *)
Theorem C28_cycle_never_written : forall W h s o h', append W h s o = Ok h' -> below h o s ->
  forall n v, value_at n h' s <> Ok v.
Proof.
  intros W h s o h' H B.
  assert (B' : below h' o s).
  { destruct (append_features W h s o h' H) as [_ [F _]]. assert (M : forall i k, below h i k -> below h' i k); [|auto].
    clear B. intros i k B. induction B as [i|i j k Hj _ IH]; [constructor|]. apply below_step with j; [|exact IH].
    destruct (Nat.eq_dec i s) as [->|N]; [rewrite F; apply in_or_app; now left|]. now rewrite (features_other W h s o h' i H N). }
  intro n. apply (no_loop h' s o); [|exact B'|constructor]. rewrite (proj1 (proj2 (append_features W h s o h' H))). apply in_or_app. right. now left.
Qed.
Print Assumptions C28_cycle_never_written.

(** Two folders in a document, one of them inside the other as well. *)
Definition h_three : heap := Eval vm_compute in ([mkCell "containers.Document" KMLNS nss0 (obj_attrs (mk "containers.Document" [])) (Some [])] ++ h_folders)%list.
Example C28_example : exists h' v e,
  closed h_three /\ (forall i, ends h_three i) /\ orderly W0 h_three [(0, 1); (2, 1); (0, 2)]%nat h' /\
  features h' 0 = [1; 2]%nat /\ features h' 2 = [1]%nat /\ value_at 3 h' 0 = Ok v /\ write_at 3 W0 None Normal h' 0 = Ok e /\
  append W0 h' 1 1 = Err EValueError.
Proof.
  do 3 eexists. split; [intros [|[|[|[|i]]]] j []|]. split; [intros [|[|[|[|i]]]]; constructor; intros j []|]. split.
  - econstructor; [vm_compute; reflexivity|cbn; lia| |].
    { intro B. inversion B as [|? ? ? Hj]; subst. vm_compute in Hj. exact Hj. }
    econstructor; [vm_compute; reflexivity|cbn; lia| |].
    { intro B. inversion B as [|? ? ? Hj]; subst. vm_compute in Hj. exact Hj. }
    econstructor; [vm_compute; reflexivity|cbn; lia| |constructor].
    { intro B. inversion B as [|? j ? Hj B']; subst. vm_compute in Hj. destruct Hj as [<-|[]]. inversion B' as [|? ? ? Hj']; subst. vm_compute in Hj'. exact Hj'. }
  - split; [reflexivity|]. split; [reflexivity|]. split; [vm_compute; reflexivity|]. split; vm_compute; reflexivity.
Qed.
