(** * The resolution of names is that of Namespaces in XML. *)
From Coq Require Import String List NArith Bool Lia.
From Verif Require Import Ustr UstrProofs Elem Xml XmlMarkup XmlTerms XmlNames XmlProofs XmlNsProofs XmlMarkupProofs XmlTermsProofs XmlSound.
Import ListNotations.
Local Open Scope N_scope.

Lemma start_colon c : start_char c = true <-> name_start c /\ c <> 58.
Proof.
  rewrite <- start_term. split; [|intros [H1 H2]; apply orb_prop in H1 as [H1|H1]; [exact H1|now apply N.eqb_eq in H1]].
  intro H. rewrite H. split; [reflexivity|]. intros ->. discriminate H.
Qed.
Lemma name_colon c : name_char c = true <-> in_name c /\ c <> 58.
Proof.
  rewrite <- name_term. unfold any_name_char. split; [|intros [H1 H2]; apply orb_prop in H1 as [H1|H1]; [exact H1|now apply N.eqb_eq in H1]].
  intro H. rewrite H. split; [reflexivity|]. intros ->. discriminate H.
Qed.
Lemma ncname_term n : ncname n = true <-> simple_name n.
Proof.
  unfold ncname, simple_name. split.
  - destruct n as [|c r]; [discriminate|]. intro H. apply andb_prop in H as [H1 H2]. rewrite forallb_forall in H2. apply start_colon in H1 as [H1 C]. exists c, r. split; [reflexivity|]. split; [exact H1|]. split.
    + apply Forall_forall. intros x Hx. now apply name_colon, H2.
    + intros [->|Hx]; [congruence|]. specialize (H2 _ Hx). discriminate H2.
  - intros (c & r & -> & H1 & H2 & H3). apply andb_true_intro. split.
    + apply start_colon. split; [exact H1|]. intros ->. apply H3. now left.
    + apply forallb_forall. intros x Hx. apply name_colon. rewrite Forall_forall in H2. split; [now apply H2|]. intros ->. apply H3. now right.
Qed.

Lemma declared_term k p : declared_prefix k = Some p <-> declares k p.
Proof.
  unfold declared_prefix, declares. split.
  - destruct (ueqb k (u "xmlns")) eqn:E.
    + apply ueqb_eq in E. intro H. injection H as <-. auto.
    + destruct (after (u "xmlns:") k) as [[|c q]|] eqn:A; try discriminate. intro H. injection H as <-. apply after_app in A. right. split; [discriminate|exact A].
  - intros [[-> ->]|[N ->]]; [reflexivity|]. destruct (ueqb (u "xmlns:" ++ p) (u "xmlns")) eqn:E; [apply ueqb_eq in E; discriminate E|]. rewrite app_after. now destruct p.
Qed.

Definition lookup (env : list (ustr * ustr)) : scope :=
  fun p => if ueqb p (u "xml") then XML_NS else match uget p env with Some uri => uri | None => [] end.

Lemma outermost_lookup sc : outermost sc <-> forall p, sc p = lookup [] p.
Proof.
  unfold outermost, lookup. split; intros H p; specialize (H p); destruct (ueqb p (u "xml")) eqn:E.
  - apply ueqb_eq in E. destruct H as [[_ H]|[H _]]; [exact H|contradiction].
  - apply ueqb_neq in E. destruct H as [[H _]|[_ H]]; [contradiction|exact H].
  - apply ueqb_eq in E. auto.
  - apply ueqb_neq in E. auto.
Qed.

Lemma uempty_term s : uempty s = true <-> s = [].
Proof. destruct s; cbn; intuition congruence. Qed.

Lemma may_term p uri : declaration_ok (p, uri) = true <-> may_be_declared p uri.
Proof.
  unfold declaration_ok, may_be_declared. rewrite !andb_true_iff, orb_true_iff, andb_true_iff, !negb_true_iff, !ueqb_neq, ncname_term, uempty_term, eqb_true_iff.
  change xmlns_name_space with XMLNS_NS. change xml_name_space with XML_NS.
  assert (X : uempty uri = false <-> uri <> []) by (destruct uri; cbn; intuition congruence). rewrite X.
  assert (Y : ueqb p (u "xml") = ueqb uri XML_NS <-> (p = u "xml" <-> uri = XML_NS)).
  { rewrite <- !ueqb_eq. destruct (ueqb p (u "xml")), (ueqb uri XML_NS); intuition congruence. }
  rewrite Y. tauto.
Qed.

Definition name_of (p : ustr) : ustr := match p with [] => u "xmlns" | _ => u "xmlns:" ++ p end.
Lemma name_declares k p : declares k p <-> k = name_of p.
Proof. unfold declares, name_of. destruct p; split; [intros [[_ ->]|[N _]]; [reflexivity|congruence]|intros ->; now left|intros [[N _]|[_ ->]]; [discriminate N|reflexivity]|intros ->; right; split; [discriminate|reflexivity]]. Qed.

Lemma uget_declarations p a : uget p (declarations a) = uget (name_of p) a.
Proof.
  induction a as [|[k v] a IH]; [reflexivity|]. unfold declarations in *. cbn [flat_map fst snd uget]. destruct (declared_prefix k) as [q|] eqn:D.
  - apply declared_term, name_declares in D. subst k. cbn [app uget]. rewrite IH.
    replace (ueqb (name_of p) (name_of q)) with (ueqb p q); [reflexivity|]. destruct (ueqb p q) eqn:E.
    + apply ueqb_eq in E. subst q. symmetry. apply ueqb_refl.
    + symmetry. apply ueqb_neq. intro H. apply ueqb_neq in E. apply E. destruct p, q; cbn [name_of] in H; try discriminate H; try reflexivity. now apply app_inv_head in H.
  - cbn [app]. rewrite IH. destruct (ueqb (name_of p) k) eqn:E; [|reflexivity]. apply ueqb_eq in E. subst k. assert (X := proj2 (declared_term _ p) (proj2 (name_declares _ _) eq_refl)). congruence.
Qed.

Lemma uget_there {A} k (v : A) a : NoDup (map fst a) -> In (k, v) a -> uget k a = Some v.
Proof.
  induction a as [|[k' v'] a IH]; intros N H; [destruct H|]. cbn [map fst] in N. inversion N as [|? ? N1 N2]; subst. cbn [uget]. destruct H as [H|H].
  - injection H as -> ->. now rewrite ueqb_refl.
  - destruct (ueqb k k') eqn:E; [|now apply IH]. apply ueqb_eq in E. subst k'. exfalso. apply N1. apply in_map_iff. now exists (k, v).
Qed.
Lemma uget_there' {A} k (v : A) a : uget k a = Some v -> In (k, v) a.
Proof. induction a as [|[k' v'] a IH]; [discriminate|]. cbn [uget]. destruct (ueqb k k') eqn:E; [intro H; injection H as ->; apply ueqb_eq in E; subst; now left|right; auto]. Qed.
Lemma uget_join {A} k (l r : list (ustr * A)) : uget k (l ++ r) = match uget k l with Some v => Some v | None => uget k r end.
Proof. induction l as [|[k' v] l IH]; [reflexivity|]. cbn [app uget]. destruct (ueqb k k'); [reflexivity|exact IH]. Qed.

Lemma declarations_ok a : forallb declaration_ok (declarations a) = true <-> (forall k p uri, In (k, uri) a -> declares k p -> may_be_declared p uri).
Proof.
  rewrite forallb_forall. unfold declarations. split.
  - intros H k p uri I D. apply may_term, H. apply in_flat_map. exists (k, uri). split; [exact I|]. cbn [fst snd]. apply declared_term in D. rewrite D. now left.
  - intros H [p uri] I. apply in_flat_map in I as ((k & v) & I & J). cbn [fst snd] in J. destruct (declared_prefix k) as [q|] eqn:D; [|destruct J]. destruct J as [J|[]]. injection J as -> ->.
    apply may_term. apply (H k). exact I. now apply declared_term.
Qed.

Lemma inside_lookup env a sc' : NoDup (map fst a) -> (forall k p uri, In (k, uri) a -> declares k p -> may_be_declared p uri) ->
  forall sc, (forall p, sc p = lookup env p) -> (inside sc a sc' <-> forall p, sc' p = lookup (declarations a ++ env) p).
Proof.
  intros N D sc S.
  assert (V : forall p, match uget (name_of p) a with Some uri => uri | None => lookup env p end = lookup (declarations a ++ env) p).
  { intro p. unfold lookup. rewrite uget_join, uget_declarations. destruct (uget (name_of p) a) as [uri|] eqn:G; [|reflexivity].
    apply uget_there' in G. assert (M := D _ p _ G (proj2 (name_declares _ _) eq_refl)). destruct M as (_ & _ & _ & M). destruct (ueqb p (u "xml")) eqn:E; [|reflexivity]. apply ueqb_eq in E. now apply M. }
  split.
  - intros [H1 H2] p. rewrite <- V. destruct (uget (name_of p) a) as [uri|] eqn:G.
    + apply uget_there' in G. apply (H1 _ p _ G). now apply name_declares.
    + rewrite <- S. apply H2. intros k uri I K. apply name_declares in K. subst k. apply (uget_there _ _ _ N) in I. congruence.
  - intro H. split.
    + intros k p uri I K. rewrite H, <- V. apply name_declares in K. subst k. now rewrite (uget_there _ _ _ N I).
    + intros p K. rewrite H, <- V, S. destruct (uget (name_of p) a) as [uri|] eqn:G; [|reflexivity]. apply uget_there' in G. exfalso. apply (K _ _ G). now apply name_declares.
Qed.

Lemma clark_term uri l n : clark uri l n <-> in_name_space uri l = n.
Proof. unfold clark, in_name_space. destruct uri; split; [intros [[_ ->]|[N _]]; congruence|intros <-; auto|intros [[N _]|[_ ->]]; [discriminate N|reflexivity]|intros <-; right; split; [discriminate|reflexivity]]. Qed.

Lemma simple_span l : simple_name l -> forallb (fun c => negb (c =? 58)) l = true.
Proof. intros (c & r & _ & _ & _ & H). apply forallb_forall. intros x Hx. apply negb_true_iff, N.eqb_neq. intros ->. contradiction. Qed.

Lemma named_term env sc b n t : (forall p, sc p = lookup env p) -> (named sc b n t <-> expand env b n = Some t).
Proof.
  intro S. split.
  - intros [l m L C|l L|b0 p l m P L N C]; unfold expand.
    + assert (X := span_app _ l [] (simple_span l L) I). rewrite app_nil_r in X. rewrite X. apply ncname_term in L. rewrite L. cbn [negb]. apply clark_term in C. rewrite S in C. unfold lookup in C. cbn in C. rewrite <- C. reflexivity.
    + assert (X := span_app _ l [] (simple_span l L) I). rewrite app_nil_r in X. rewrite X. apply ncname_term in L. now rewrite L.
    + change (u ":") with [58]. cbn [app]. rewrite (span_app _ p (58 :: l) (simple_span p P) eq_refl). apply ncname_term in P. apply ncname_term in L. rewrite P, L. cbn [andb]. apply clark_term in C. rewrite S in *. unfold lookup in *.
      destruct (ueqb p (u "xml")); [now rewrite C|]. destruct (uget p env) as [[|c uri]|]; [congruence| |congruence]. now rewrite C.
  - unfold expand. destruct (span _ n) as [p r] eqn:E. apply span_inv in E as (-> & _ & X). destruct r as [|c l].
    + rewrite app_nil_r. destruct (ncname p) eqn:P; [|discriminate]. cbn [negb]. apply ncname_term in P. destruct b; intro H; injection H as <-; [|now constructor]. constructor; [exact P|]. apply clark_term. rewrite S. reflexivity.
    + apply negb_false_iff, N.eqb_eq in X. subst c. destruct (ncname p) eqn:P; [|discriminate]. destruct (ncname l) eqn:L; [|discriminate]. apply ncname_term in P. apply ncname_term in L. cbn [andb].
      change (p ++ 58 :: l) with (p ++ u ":" ++ l). intro H. assert (K : sc p <> [] /\ in_name_space (sc p) l = t).
      { rewrite S. unfold lookup. destruct (ueqb p (u "xml")); [injection H as <-; split; [discriminate|reflexivity]|]. destruct (uget p env) as [[|c uri]|]; try discriminate. injection H as <-. split; [discriminate|reflexivity]. }
      destruct K as [K1 K2]. constructor; auto. now apply clark_term.
Qed.

Lemma attributes_term env sc a a' : (forall p, sc p = lookup env p) ->
  (attributes sc a a' <-> all_some (map (fun kv => option_map (fun k => (k, snd kv)) (expand env false (fst kv))) (filter (fun kv => match declared_prefix (fst kv) with Some _ => false | None => true end) a)) = Some a').
Proof.
  intro S. split.
  - induction 1 as [|k v p a a' D A IH|k v n a a' D N A IH]; [reflexivity| |]; cbn [filter fst].
    + apply declared_term in D. now rewrite D.
    + destruct (declared_prefix k) as [p|] eqn:E; [exfalso; apply (D p); now apply declared_term|]. cbn [map fst snd]. apply (named_term env sc false k n S) in N. rewrite N. cbn [option_map all_some]. now rewrite IH.
  - revert a'. induction a as [|[k v] a IH]; intros a' H; cbn [filter fst] in H; [injection H as <-; constructor|]. destruct (declared_prefix k) as [p|] eqn:E.
    + apply (attributes_declaration sc k v p); [now apply declared_term|]. now apply IH.
    + cbn [map fst snd] in H. destruct (expand env false k) as [n|] eqn:X; [|discriminate]. cbn [option_map all_some] in H. destruct (all_some _) as [a2|] eqn:Y; [|discriminate]. injection H as <-.
      apply attributes_named; [intros p D; apply declared_term in D; congruence|now apply (named_term env sc false k n S)|now apply IH].
Qed.

Lemma all_some_map {A B} (f : A -> option B) l l' : all_some (map f l) = Some l' <-> Forall2 (fun x y => f x = Some y) l l'.
Proof.
  split.
  - revert l'. induction l as [|x l IH]; intros l' H; cbn [map all_some] in H; [injection H as <-; constructor|]. destruct (f x) as [y|] eqn:E; [|discriminate]. destruct (all_some (map f l)) as [l2|]; [|discriminate]. injection H as <-. constructor; auto.
  - induction 1 as [|x y l l' E _ IH]; [reflexivity|]. cbn [map all_some]. rewrite E, IH. reflexivity.
Qed.

Fixpoint raw (e : elem) : Prop := match e with Elem _ a _ ks => NoDup (map fst a) /\ fold_right (fun k P => raw k /\ P) True ks end.
Lemma raw_kids ks : fold_right (fun k P => raw k /\ P) True ks <-> Forall raw ks.
Proof. induction ks as [|k ks IH]; cbn; split; intro H; [constructor|exact I| |]; [destruct H; constructor; [assumption|now apply IH]|inversion H; subst; split; [assumption|now apply IH]]. Qed.

Lemma resolve_stands e : forall env t sc, raw e -> (forall p, sc p = lookup env p) -> resolve env e = Some t -> stands sc e t.
Proof.
  induction e as [n a x ks IH] using elem_ind'. intros env t sc [R1 R2] S H. apply raw_kids in R2. cbn [resolve] in H. set (env' := declarations a ++ env) in *.
  destruct (expand env' true n) as [t'|] eqn:E; [|discriminate]. destruct (all_some (map _ (filter _ a))) as [a'|] eqn:A; [|discriminate]. destruct (all_some (map (resolve env') ks)) as [ks'|] eqn:K; [|discriminate].
  destruct (forallb declaration_ok (declarations a)) eqn:D; [|discriminate]. destruct (distinct (map fst a')) eqn:N; [|discriminate]. cbn [andb] in H. injection H as <-.
  assert (D' := proj1 (declarations_ok a) D). apply (stands_for sc (lookup env')).
  - exact D'.
  - apply (inside_lookup env a (lookup env') R1 D' sc S). reflexivity.
  - now apply (named_term env' (lookup env') true n t' (fun _ => eq_refl)).
  - now apply (attributes_term env' (lookup env') a a' (fun _ => eq_refl)).
  - exact R1.
  - now apply distinct_NoDup.
  - apply all_some_map in K. clear -IH K R2. induction K as [|k k' ks ks' E _ IHK]; [constructor|]. inversion IH; subst. inversion R2; subst. constructor; [|auto]. now apply (H1 env').
Qed.

Lemma stands_resolve e : forall env t sc, (forall p, sc p = lookup env p) -> stands sc e t -> resolve env e = Some t.
Proof.
  induction e as [n a x ks IH] using elem_ind'. intros env t sc S H. inversion H as [sc' n0 t' a0 a' x0 ks0 ks' D I N A R1 R2 K]; subst.
  assert (J := proj1 (inside_lookup env a sc' R1 D sc S) I). clear I. rename J into I. cbn [resolve]. set (env' := declarations a ++ env) in *.
  apply (named_term env' sc' true n t' I) in N. apply (attributes_term env' sc' a a' I) in A. rewrite N, A.
  assert (K' : all_some (map (resolve env') ks) = Some ks').
  { apply all_some_map. clear -IH K I. induction K as [|k k' ks ks' E _ IHK]; [constructor|]. inversion IH; subst. constructor; [|auto]. now apply (H1 env' k' sc'). }
  rewrite K'. apply declarations_ok in D. rewrite D. apply distinct_NoDup in R2. now rewrite R2.
Qed.

Lemma meant_raw lib x : node_ok x = true -> Forall raw (meant lib x).
Proof.
  induction x as [l|s|o|n a g e ks g' IH] using node_ind'; intro H; try constructor; [|constructor]. cbn [node_ok] in H. rewrite !andb_true_iff in H. destruct H as [[[[[[[[_ _] _] D] _] _] K] _] _]. split.
  - rewrite map_map. now apply distinct_NoDup.
  - apply raw_kids. rewrite forallb_forall in K. rewrite Forall_forall in *. intros y Hy. apply in_flat_map in Hy as (z & Hz & Hy). specialize (IH z Hz (K z Hz)). rewrite Forall_forall in IH. now apply IH.
Qed.
