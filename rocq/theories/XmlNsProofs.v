(** * Prefixes are resolved as they were given out; printed and parsed. *)
From Coq Require Import String List NArith ZArith Bool Lia Arith Permutation.
From Verif Require Import Ustr UstrProofs Res PyInt PyNumProofs Elem EmitProofs Unprefixed Xml XmlSpec XmlProofs.
Import ListNotations.
Local Open Scope N_scope.

(** ** Lists *)

Lemma distinct_NoDup : forall l, distinct l = true <-> NoDup l.
Proof.
  induction l as [|k l IH]; [split; [constructor|reflexivity]|]. cbn [distinct]. rewrite andb_true_iff, IH, negb_true_iff. split.
  - intros [H N]. constructor; [|exact N]. intro I. assert (existsb (ueqb k) l = true) as E; [|rewrite E in H; discriminate].
    apply existsb_exists. exists k. split; [exact I|apply ueqb_refl].
  - intro H. inversion H as [|? ? H1 H2]; subst. split; [|exact H2]. destruct (existsb (ueqb k) l) eqn:E; [|reflexivity].
    apply existsb_exists in E as [k' [I E]]. apply ueqb_eq in E. subst k'. contradiction.
Qed.

Lemma uget_in : forall {A} k (l : list (ustr * A)) v, uget k l = Some v -> In (k, v) l.
Proof.
  induction l as [|[k' v'] l IH]; [discriminate|]. cbn [uget]. intros v H. destruct (ueqb k k') eqn:E.
  - apply ueqb_eq in E. injection H as ->. subst k'. now left.
  - right. now apply IH.
Qed.

Lemma uget_nodup : forall {A} k (l : list (ustr * A)) v, NoDup (map fst l) -> In (k, v) l -> uget k l = Some v.
Proof.
  induction l as [|[k' v'] l IH]; [contradiction|]. intros v N I. cbn [map fst] in N. inversion N as [|? ? N1 N2]; subst. cbn [uget]. destruct I as [I|I].
  - injection I as -> ->. now rewrite ueqb_refl.
  - destruct (ueqb k k') eqn:E; [|now apply IH]. apply ueqb_eq in E. subst k'. exfalso. apply N1. apply in_map_iff. now exists (k, v).
Qed.

Lemma uget_none : forall {A} k (l : list (ustr * A)), uget k l = None <-> ~ In k (map fst l).
Proof.
  induction l as [|[k' v'] l IH]; [split; [intros _ []|reflexivity]|]. cbn [uget map fst]. destruct (ueqb k k') eqn:E.
  - apply ueqb_eq in E. subst k'. split; [discriminate|]. intro H. exfalso. apply H. now left.
  - rewrite IH. apply ueqb_neq in E. split; intros H I; apply H; [destruct I as [I|I]; [symmetry in I; contradiction|exact I]|now right].
Qed.

Lemma insert_perm : forall x l, Permutation (insert x l) (x :: l).
Proof.
  induction l as [|y l IH]; [apply Permutation_refl|]. cbn [insert]. destruct (ustr_le _ _); [apply Permutation_refl|].
  apply Permutation_trans with (y :: x :: l); [now apply perm_skip|apply perm_swap].
Qed.

Lemma sort_perm : forall l, Permutation (sort_prefixes l) l.
Proof.
  induction l as [|x l IH]; [apply Permutation_refl|]. cbn [sort_prefixes fold_right].
  apply Permutation_trans with (x :: sort_prefixes l); [apply insert_perm|now apply perm_skip].
Qed.

(** ** Names *)

Lemma after_app : forall p s, after p (p ++ s) = Some s.
Proof. induction p as [|c p IH]; intro s; [reflexivity|]. cbn [after app]. now rewrite N.eqb_refl. Qed.

Lemma after_inv : forall p s r, after p s = Some r -> s = p ++ r.
Proof.
  induction p as [|c p IH]; intros s r H; cbn [after] in H; [now injection H as ->|].
  destruct s as [|d s]; [discriminate|]. destruct (c =? d) eqn:E; [|discriminate]. apply N.eqb_eq in E. subst d. cbn. f_equal. now apply IH.
Qed.

Lemma rsplit_inv : forall s a b, rsplit_brace s = Some (a, b) -> s = a ++ 125 :: b.
Proof.
  induction s as [|c s IH]; [discriminate|]. intros a b H. cbn [rsplit_brace] in H. destruct (rsplit_brace s) as [[a' b']|].
  - injection H as <- <-. cbn. f_equal. now apply IH.
  - destruct (c =? 125) eqn:E; [|discriminate]. apply N.eqb_eq in E. injection H as <- <-. now subst c.
Qed.

Lemma split_inv : forall n o l, split_name n = Ok (o, l) ->
  match o with Some uri => n = u "{" ++ uri ++ u "}" ++ l | None => l = n /\ qualified n = false end.
Proof.
  intros n o l H. unfold split_name in H. destruct (after (u "{") n) as [r|] eqn:E.
  - apply after_inv in E. destruct (rsplit_brace r) as [[uri l']|] eqn:R; [|discriminate]. injection H as <- <-.
    apply rsplit_inv in R. now rewrite E, R.
  - injection H as <- <-. split; [reflexivity|]. destruct n as [|c n]; [reflexivity|]. 
    change (after (u "{") (c :: n)) with (if 123 =? c then Some n else None) in E. unfold qualified.
    rewrite N.eqb_sym. destruct (123 =? c); [discriminate|reflexivity].
Qed.

Lemma ncname_chars : forall l, ncname l = true -> l <> [] /\ forallb any_name_char l = true /\ forallb (fun c => negb (c =? 58)) l = true.
Proof.
  intros [|c l] H; [discriminate|]. cbn [ncname] in H. apply andb_true_iff in H as [H1 H2]. split; [discriminate|].
  assert (S : forall c, start_char c = true -> name_char c = true) by (intros d D; unfold name_char; now rewrite D).
  assert (A : forallb name_char (c :: l) = true) by (cbn [forallb]; rewrite S by assumption; exact H2). clear H1 H2.
  split; rewrite forallb_forall in A |- *; intros d D; apply A in D.
  - unfold any_name_char. now rewrite D.
  - destruct (d =? 58) eqn:E; [|reflexivity]. apply N.eqb_eq in E. subst d. discriminate D.
Qed.

(** ** The table of prefixes *)

Section Prefixes.
  Variable known : prefixes_t.
  Hypothesis K : known_ok known = true.

  Definition generated (i : nat) : ustr := u "ns" ++ digits_of (Z.of_nat i).

  Definition uri_ok (uri : ustr) : Prop := uri <> [] /\ forallb xml_char uri = true /\ uri <> XMLNS_NS.

  (** Prefix [i] is the known one, or [nsi]. *)
  Definition inv (ns : prefixes_t) : Prop :=
    NoDup (map fst ns) /\
    (forall i uri p, nth_error ns i = Some (uri, p) ->
       uri_ok uri /\ ueqb p (u "xml") = false /\ (uget uri known = Some p \/ uget uri known = None /\ p = generated i)).

  Lemma generated_reserved : forall i, reserved (generated i) = true.
  Proof.
    intro i. unfold reserved, generated. rewrite after_app. pose proof (digits_of_digits (Z.of_nat i) ltac:(lia)) as D. pose proof (digits_of_nonempty (Z.of_nat i)) as E.
    set (d := digits_of _) in *. clearbody d.
    assert (F : forall c, is_adigit c = true -> match dec_digit c with Some _ => true | None => false end = true /\ c <> 10).
    { intros c Hc. unfold is_adigit in Hc. apply andb_true_iff in Hc as [H1 H2]. apply N.leb_le in H1, H2.
      assert (c = 48 \/ c = 49 \/ c = 50 \/ c = 51 \/ c = 52 \/ c = 53 \/ c = 54 \/ c = 55 \/ c = 56 \/ c = 57) as Q by lia.
      decompose [or] Q; subst c; split; (reflexivity || discriminate). }
    replace (after [10] (rev d)) with (@None ustr).
    - destruct d as [|c d]; [contradiction|]. apply forallb_forall. intros x X. apply F. rewrite forallb_forall in D. now apply D.
    - symmetry. destruct (after [10] (rev d)) as [r|] eqn:Q; [|reflexivity]. apply after_inv in Q. exfalso.
      rewrite forallb_forall in D. destruct (F 10) as [_ G]; [|now apply G]. apply D. apply in_rev. rewrite Q. now left.
  Qed.

  Lemma generated_inj : forall i j, generated i = generated j -> i = j.
  Proof.
    intros i j H. apply app_inv_head in H. apply (f_equal digits_val) in H. rewrite !digits_of_val in H by lia. lia.
  Qed.

  Lemma known_prefix : forall uri p, uget uri known = Some p ->
    ncname p = true /\ p <> u "xmlns" /\ reserved p = false /\ (ueqb p (u "xml") = ueqb uri XML_NS).
  Proof.
    intros uri p H. unfold known_ok in K. apply andb_true_iff in K as [K0 K4]. apply andb_true_iff in K0 as [K0 K3]. apply andb_true_iff in K0 as [K1 K2].
    apply distinct_NoDup in K1, K2. pose proof (uget_in _ _ _ H) as I. rewrite forallb_forall in K4. pose proof (K4 _ I) as P. cbn [snd] in P.
    apply andb_true_iff in P as [P P3]. apply andb_true_iff in P as [P1 P2]. apply negb_true_iff in P2, P3. apply ueqb_neq in P2.
    repeat (split; [assumption|]). apply existsb_exists in K3 as [[x y] [I' E]]. cbn [fst snd] in E. apply andb_true_iff in E as [E1 E2].
    apply ueqb_eq in E1, E2. subst x y. destruct (ueqb p (u "xml")) eqn:Q; symmetry.
    - apply ueqb_eq in Q. subst p. apply ueqb_eq. clear - K2 I I'. induction known as [|[k v] l IH]; [contradiction|].
      cbn [map snd] in K2. inversion K2 as [|? ? N1 N2]; subst. destruct I as [I|I]; destruct I' as [I'|I'].
      + congruence.
      + injection I as -> ->. exfalso. apply N1. apply in_map_iff. now exists (XML_NS, u "xml").
      + injection I' as -> ->. exfalso. apply N1. apply in_map_iff. now exists (uri, u "xml").
      + now apply IH.
    - apply ueqb_neq. intros ->. apply (uget_nodup _ _ _ K1) in I'. rewrite I' in H. injection H as <-. now rewrite ueqb_refl in Q.
  Qed.

  Lemma known_xml : uget XML_NS known = Some (u "xml").
  Proof.
    unfold known_ok in K. apply andb_true_iff in K as [K0 _]. apply andb_true_iff in K0 as [K0 K3]. apply andb_true_iff in K0 as [K1 _].
    apply distinct_NoDup in K1. apply existsb_exists in K3 as [[x y] [I E]]. cbn [fst snd] in E. apply andb_true_iff in E as [E1 E2].
    apply ueqb_eq in E1, E2. subst. now apply uget_nodup.
  Qed.

  Lemma known_injective : forall u1 u2 p, uget u1 known = Some p -> uget u2 known = Some p -> u1 = u2.
  Proof.
    intros u1 u2 p H1 H2. apply uget_in in H1, H2. unfold known_ok in K. apply andb_true_iff in K as [K0 _]. apply andb_true_iff in K0 as [K0 _].
    apply andb_true_iff in K0 as [_ K2]. apply distinct_NoDup in K2. clear - K2 H1 H2. induction known as [|[k v] l IH]; [contradiction|].
    cbn [map snd] in K2. inversion K2 as [|? ? N1 N2]; subst. destruct H1 as [I|I]; destruct H2 as [I'|I'].
    - congruence.
    - injection I as -> ->. exfalso. apply N1. apply in_map_iff. now exists (u2, p).
    - injection I' as -> ->. exfalso. apply N1. apply in_map_iff. now exists (u1, p).
    - now apply IH.
  Qed.

  Lemma name_ok_uri : forall n uri l, name_ok n = true -> split_name n = Ok (Some uri, l) -> uri_ok uri /\ ncname l = true.
  Proof.
    intros n uri l H E. unfold name_ok in H. rewrite E in H. apply andb_true_iff in H as [H H4]. apply andb_true_iff in H as [H H3].
    apply andb_true_iff in H as [H1 H2]. split; [|exact H1]. split; [intros ->; discriminate|]. split; [exact H3|].
    intros ->. now rewrite ueqb_refl in H4.
  Qed.

  Definition covered (ns : prefixes_t) (n : ustr) : Prop :=
    forall uri l, split_name n = Ok (Some uri, l) -> uget uri ns <> None \/ uri = XML_NS.

  Lemma add_name_ok : forall ns n, inv ns -> name_ok n = true ->
    exists ns', add_name known ns n = Ok (ns ++ ns') /\ inv (ns ++ ns') /\ covered (ns ++ ns') n.
  Proof.
    intros ns n [I1 I2] N. unfold add_name, covered. destruct (split_name n) as [[o l]|] eqn:E; [|unfold name_ok in N; rewrite E in N; discriminate].
    cbn [bind fst]. destruct o as [uri|].
    2:{ exists []. rewrite app_nil_r. split; [reflexivity|]. split; [exact (conj I1 I2)|]. intros ? ? H. discriminate H. }
    destruct (name_ok_uri n uri l N E) as [U _]. destruct (uget uri ns) as [p|] eqn:G.
    { exists []. rewrite app_nil_r. split; [reflexivity|]. split; [exact (conj I1 I2)|]. intros ? ? H. injection H as <- <-. left. now rewrite G. }
    set (p := match uget uri known with Some p => p | None => _ end). destruct (ueqb p (u "xml")) eqn:X.
    - exists []. rewrite app_nil_r. split; [reflexivity|]. split; [exact (conj I1 I2)|]. intros ? ? H. injection H as <- <-. right.
      subst p. destruct (uget uri known) as [p|] eqn:Q.
      + apply known_prefix in Q as [_ [_ [_ Q]]]. rewrite X in Q. symmetry in Q. now apply ueqb_eq in Q.
      + apply ueqb_eq in X. pose proof (generated_reserved (length ns)) as R. unfold generated in R. rewrite X in R. discriminate R.
    - exists [(uri, p)]. split; [reflexivity|]. split.
      + split.
        * rewrite map_app. cbn [map fst]. apply (Permutation_NoDup (Permutation_cons_append (map fst ns) uri)). constructor; [|exact I1]. now apply uget_none.
        * intros i uri' p' H. destruct (Nat.lt_ge_cases i (length ns)) as [L|L].
          -- rewrite nth_error_app1 in H by exact L. now apply I2.
          -- rewrite nth_error_app2 in H by exact L. destruct (i - length ns)%nat as [|m] eqn:M; [|destruct m; discriminate H].
             cbn in H. injection H as <- <-. replace i with (length ns) by lia. split; [exact U|]. split; [exact X|]. subst p.
             destruct (uget uri known) as [p|]; [now left|right; now split].
      + intros ? ? H. injection H as <- <-. left. rewrite uget_app, G. cbn. now rewrite ueqb_refl.
  Qed.

  Lemma covered_app : forall ns ns' n, covered ns n -> covered (ns ++ ns') n.
  Proof.
    intros ns ns' n C uri l H. destruct (C uri l H) as [G|G]; [left|now right]. rewrite uget_app. now destruct (uget uri ns).
  Qed.

  Lemma add_names_ok : forall l ns, inv ns -> forallb name_ok l = true ->
    exists ns', add_names known ns l = Ok (ns ++ ns') /\ inv (ns ++ ns') /\ forall n, In n l -> covered (ns ++ ns') n.
  Proof.
    induction l as [|n l IH]; intros ns I N.
    - exists []. rewrite app_nil_r. split; [reflexivity|]. split; [exact I|]. intros n [].
    - cbn [forallb] in N. apply andb_true_iff in N as [N1 N2]. destruct (add_name_ok ns n I N1) as [ns1 [E1 [I1 C1]]].
      destruct (IH _ I1 N2) as [ns2 [E2 [I2 C2]]]. exists (ns1 ++ ns2). rewrite app_assoc. cbn [add_names]. rewrite E1. cbn [bind].
      split; [exact E2|]. split; [exact I2|]. intros m [<-|M]; [now apply covered_app|now apply C2].
  Qed.

  (** No two name spaces have the same prefix. *)
  Lemma prefixes_nodup : forall ns, inv ns -> NoDup (map snd ns).
  Proof.
    intros ns [I1 I2]. apply NoDup_nth_error. intros i j L E. rewrite map_length in L.
    rewrite !nth_error_map in E. destruct (nth_error ns i) as [[u1 p1]|] eqn:E1; [|apply nth_error_None in E1; lia].
    cbn in E. destruct (nth_error ns j) as [[u2 p2]|] eqn:E2; [|discriminate]. cbn in E. injection E as <-.
    destruct (I2 _ _ _ E1) as [_ [_ [A|[A1 A2]]]]; destruct (I2 _ _ _ E2) as [_ [_ [B|[B1 B2]]]].
    - assert (u1 = u2) by (eapply known_injective; eassumption). subst u2. rewrite NoDup_nth_error in I1. apply I1.
      + now rewrite map_length.
      + rewrite !nth_error_map, E1, E2. reflexivity.
    - apply known_prefix in A as [_ [_ [A _]]]. subst p1. now rewrite generated_reserved in A.
    - apply known_prefix in B as [_ [_ [B _]]]. subst p1. now rewrite generated_reserved in B.
    - subst p1. now apply generated_inj in B2.
  Qed.

  Lemma generated_ncname : forall i, ncname (generated i) = true /\ generated i <> u "xmlns".
  Proof.
    intro i. split; [|discriminate]. pose proof (digits_of_digits (Z.of_nat i) ltac:(lia)) as D. unfold generated. set (d := digits_of _) in *. clearbody d.
    change (start_char 110 && (name_char 115 && forallb name_char d) = true). change (start_char 110) with true. change (name_char 115) with true. cbn [andb].
    rewrite forallb_forall in D |- *. intros c C. apply D in C. unfold is_adigit in C. apply andb_true_iff in C as [H1 H2]. apply N.leb_le in H1, H2.
    assert (c = 48 \/ c = 49 \/ c = 50 \/ c = 51 \/ c = 52 \/ c = 53 \/ c = 54 \/ c = 55 \/ c = 56 \/ c = 57) as Q by lia.
    decompose [or] Q; subst c; reflexivity.
  Qed.

  Lemma prefix_ok : forall ns uri p, inv ns -> In (uri, p) ns -> ncname p = true /\ p <> u "xmlns" /\ p <> u "xml" /\ uri_ok uri /\ uri <> XML_NS.
  Proof.
    intros ns uri p [I1 I2] H. apply In_nth_error in H as [i H]. destruct (I2 _ _ _ H) as [U [X A]].
    assert (N : ncname p = true /\ p <> u "xmlns").
    { destruct A as [A|[A1 A2]]; [apply known_prefix in A; tauto|]. subst p. apply generated_ncname. }
    destruct N as [N1 N2]. repeat (split; [assumption || (now apply ueqb_neq)|]). intros ->. rewrite known_xml in A.
    destruct A as [A|[A _]]; [|discriminate]. injection A as <-. now rewrite ueqb_refl in X.
  Qed.

  (** ** Written and expanded names *)

  Section Env.
    Variable ns : prefixes_t.
    Hypothesis I : inv ns.

    Definition env_ok (env : list (ustr * ustr)) : Prop := forall uri p, In (uri, p) ns -> uget p env = Some uri.
    Definition default (env : list (ustr * ustr)) : ustr :=
      match uget [] env with Some uri => if uempty uri then [] else u "{" ++ uri ++ u "}" | None => [] end.

    Definition name_there (n : ustr) : Prop := name_ok n = true /\ covered ns n.

    Lemma written_qualified : forall n uri l, name_there n -> split_name n = Ok (Some uri, l) ->
      exists p, written_name known ns n = p ++ 58 :: l /\ ncname p = true /\ ncname l = true /\ p <> u "xmlns" /\ n = u "{" ++ uri ++ u "}" ++ l /\
        uri <> [] /\ (In (uri, p) ns /\ p <> u "xml" \/ p = u "xml" /\ uri = XML_NS).
    Proof.
      intros n uri l [N C] E. destruct (name_ok_uri n uri l N E) as [[U _] L]. unfold written_name. rewrite E.
      pose proof (split_inv _ _ _ E) as S. cbv iota in S.
      destruct (uget uri ns) as [p|] eqn:G.
      - apply uget_in in G. destruct (prefix_ok ns uri p I G) as [P1 [P2 [P3 _]]]. exists p. split; [destruct p; [discriminate|reflexivity]|].
        repeat (split; [assumption|]). left. now split.
      - destruct (C uri l E) as [Q|Q]; [contradiction|]. subst uri. rewrite known_xml. exists (u "xml"). repeat (split; [assumption || reflexivity || discriminate|]).
        right. now split.
    Qed.

    Lemma written_plain : forall n l, split_name n = Ok (None, l) -> written_name known ns n = n /\ l = n.
    Proof. intros n l E. unfold written_name. rewrite E. split; [reflexivity|]. apply split_inv in E. now destruct E. Qed.

    Lemma expand_written : forall env el n, env_ok env -> name_there n ->
      expand env el (written_name known ns n) = Some (if qualified n then n else if el then default env ++ n else n).
    Proof.
      intros env el n V T. destruct (split_name n) as [[[uri|] l]|] eqn:E.
      - destruct (written_qualified n uri l T E) as [p [W [P [L [X [S [U D]]]]]]]. rewrite W. unfold expand.
        rewrite span_app; [|now apply ncname_chars|reflexivity]. rewrite P, L. cbn [andb].
        replace (qualified n) with true by (now rewrite S). destruct D as [[D1 D2]|[D1 D2]].
        + replace (ueqb p (u "xml")) with false by (symmetry; now apply ueqb_neq). rewrite (V _ _ D1). destruct uri as [|c uri]; [contradiction|]. now rewrite S.
        + subst p uri. rewrite ueqb_refl. now rewrite S.
      - destruct (written_plain n l E) as [W L]. rewrite W. subst l. destruct T as [N _]. unfold name_ok in N. rewrite E in N. unfold expand.
        replace (span _ n) with (n, [] : ustr). 2:{ symmetry. rewrite <- (app_nil_r n) at 1. apply span_app; [now apply ncname_chars|exact Logic.I]. }
        rewrite N. cbn [negb]. apply split_inv in E. cbv iota in E. destruct E as [_ Q]. rewrite Q. destruct el; [|reflexivity]. f_equal.
        unfold default. destruct (uget [] env) as [uri|]; [|reflexivity]. destruct uri as [|c uri]; [reflexivity|]. cbn [in_name_space uempty]. now rewrite <- !app_assoc.
      - destruct T as [N _]. unfold name_ok in N. now rewrite E in N.
    Qed.

    Lemma colon : forall p l, ncname p = true -> forall p', forallb (fun c => negb (c =? 58)) p' = true -> forall l', p ++ 58 :: l = p' ++ 58 :: l' -> p = p' /\ l = l'.
    Proof.
      intros p l P p' P' l' H. apply ncname_chars in P as [_ [_ P]]. pose proof (span_app (fun c => negb (c =? 58)) p (58 :: l) P eq_refl) as A.
      rewrite H, (span_app (fun c => negb (c =? 58)) p' (58 :: l') P' eq_refl) in A. injection A as -> ->. now split.
    Qed.

    Lemma declared_written : forall n, name_there n -> declared_prefix (written_name known ns n) = if ueqb n (u "xmlns") then Some [] else None.
    Proof.
      intros n T. unfold declared_prefix. destruct (split_name n) as [[[uri|] l]|] eqn:E.
      - destruct (written_qualified n uri l T E) as [p [W [P [L [X [S [U D]]]]]]]. rewrite W. replace (ueqb n (u "xmlns")) with false by (now rewrite S).
        replace (ueqb (p ++ 58 :: l) (u "xmlns")) with false.
        + destruct (after (u "xmlns:") (p ++ 58 :: l)) as [r|] eqn:A; [|reflexivity]. exfalso. apply after_inv in A.
          change (u "xmlns:" ++ r) with (u "xmlns" ++ 58 :: r) in A. apply colon in A; [|assumption|reflexivity]. now apply X.
        + symmetry. apply ueqb_neq. intro A. assert (In 58 (u "xmlns")) as Q by (rewrite <- A; apply in_or_app; right; now left). cbn in Q. decompose [or] Q; discriminate || contradiction.
      - destruct (written_plain n l E) as [W L]. rewrite W. subst l. destruct (ueqb n (u "xmlns")); [reflexivity|].
        destruct (after (u "xmlns:") n) as [r|] eqn:A; [|reflexivity]. exfalso. apply after_inv in A. destruct T as [N _]. unfold name_ok in N. rewrite E in N.
        apply ncname_chars in N as [_ [_ N]]. rewrite A in N. discriminate N.
      - destruct T as [N _]. unfold name_ok in N. now rewrite E in N.
    Qed.

    Lemma written_printed : forall n, name_there n -> printed_name (written_name known ns n) = true.
    Proof.
      intros n T. destruct (split_name n) as [[[uri|] l]|] eqn:E.
      - destruct (written_qualified n uri l T E) as [p [W [P [L _]]]]. rewrite W. apply ncname_chars in P as [P1 [P2 _]]. apply ncname_chars in L as [_ [L2 _]].
        unfold printed_name. rewrite forallb_app. cbn [forallb]. rewrite P2, L2. destruct p; [contradiction|reflexivity].
      - destruct (written_plain n l E) as [W L]. rewrite W. subst l. destruct T as [N _]. unfold name_ok in N. rewrite E in N.
        apply ncname_chars in N as [N1 [N2 _]]. unfold printed_name. rewrite N2. destruct n; [contradiction|reflexivity].
      - destruct T as [N _]. unfold name_ok in N. now rewrite E in N.
    Qed.

    Notation q := (written_name known ns).
    Notation enc := (map (fun kv : ustr * ustr => (q (fst kv), snd kv))).

    Lemma declarations_written : forall a, (forall kv, In kv a -> name_there (fst kv)) ->
      declarations (enc a) = map (fun kv => ([], snd kv)) (filter (fun kv => ueqb (fst kv) (u "xmlns")) a).
    Proof.
      induction a as [|[k v] a IH]; intro H; [reflexivity|]. cbn [map declarations flat_map fst snd]. unfold declarations in IH.
      rewrite IH by (intros kv B; apply H; now right). rewrite declared_written by (apply (H (k, v)); now left).
      cbn [filter fst]. destruct (ueqb k (u "xmlns")); reflexivity.
    Qed.

    Lemma uget_plain : forall p a, p <> [] -> uget p (map (fun kv : ustr * ustr => (@nil N, snd kv)) a) = None.
    Proof. intros p a P. induction a as [|kv a IH]; [reflexivity|]. cbn [map uget]. destruct p; [contradiction|]. exact IH. Qed.

    Lemma uget_default : forall a, uget [] (map (fun kv : ustr * ustr => (@nil N, snd kv)) (filter (fun kv => ueqb (fst kv) (u "xmlns")) a)) = uget (u "xmlns") a.
    Proof.
      induction a as [|[k v] a IH]; [reflexivity|]. cbn [filter fst uget]. rewrite (ueqb_sym (u "xmlns") k). destruct (ueqb k (u "xmlns")); [reflexivity|exact IH].
    Qed.

    Lemma env_step : forall env a, (forall kv, In kv a -> name_there (fst kv)) -> env_ok env -> env_ok (declarations (enc a) ++ env).
    Proof.
      intros env a H V uri p P. rewrite uget_app, declarations_written by exact H.
      rewrite uget_plain; [now apply V|]. apply (prefix_ok ns uri p I) in P as [P _]. intros ->. discriminate P.
    Qed.

    Lemma default_step : forall env a, (forall kv, In kv a -> name_there (fst kv)) ->
      default (declarations (enc a) ++ env) = default_of (default env) a.
    Proof.
      intros env a H. unfold default, default_of. rewrite uget_app, declarations_written, uget_default by exact H.
      now destruct (uget (u "xmlns") a).
    Qed.

    Lemma all_some_map : forall {A B} (f : A -> option B) (g : A -> B) l, (forall x, In x l -> f x = Some (g x)) -> all_some (map f l) = Some (map g l).
    Proof.
      induction l as [|x l IH]; intro H; [reflexivity|]. cbn [map all_some]. rewrite H by now left. rewrite IH; [reflexivity|].
      intros y Y. apply H. now right.
    Qed.

    Lemma filter_written : forall a, (forall kv, In kv a -> name_there (fst kv)) ->
      filter (fun kv : ustr * ustr => match declared_prefix (fst kv) with Some _ => false | None => true end) (enc a) =
      enc (filter (fun kv => negb (ueqb (fst kv) (u "xmlns"))) a).
    Proof.
      induction a as [|[k v] a IH]; intro H; [reflexivity|]. cbn [map filter fst snd]. rewrite declared_written by (apply (H (k, v)); now left).
      rewrite IH by (intros kv B; apply H; now right). destruct (ueqb k (u "xmlns")); reflexivity.
    Qed.

    Lemma attrs_written : forall env a, env_ok env -> (forall kv, In kv a -> name_there (fst kv)) ->
      all_some (map (fun kv => option_map (fun k => (k, snd kv)) (expand env false (fst kv)))
        (filter (fun kv : ustr * ustr => match declared_prefix (fst kv) with Some _ => false | None => true end) (enc a))) =
      Some (filter (fun kv => negb (ueqb (fst kv) (u "xmlns"))) a).
    Proof.
      intros env a V H. rewrite filter_written by exact H. rewrite map_map. rewrite (all_some_map _ (fun kv => kv)); [now rewrite map_id|].
      intros [k v] X. cbn [fst snd]. apply filter_In in X as [X _]. rewrite expand_written by (assumption || now apply (H (k, v))).
      cbn. now destruct (qualified k).
    Qed.

    Lemma nodup_filter : forall f (a : list (ustr * ustr)), NoDup (map fst a) -> NoDup (map fst (filter f a)).
    Proof.
      induction a as [|kv a IH]; intro H; [exact H|]. cbn [map] in H. inversion H as [|? ? H1 H2]; subst. cbn [filter].
      destruct (f kv); [|now apply IH]. cbn [map]. constructor; [|now apply IH]. intro X. apply H1. apply in_map_iff in X as [y [Y1 Y2]].
      apply filter_In in Y2 as [Y2 _]. apply in_map_iff. now exists y.
    Qed.

    Lemma there_parts : forall t a x ks, (forall n, In n (names_of (Elem t a x ks)) -> name_there n) ->
      name_there t /\ (forall kv, In kv a -> name_there (fst kv)) /\ (forall k, In k ks -> forall n, In n (names_of k) -> name_there n).
    Proof.
      intros t a x ks H. cbn [names_of] in H. split; [apply H; now left|]. split.
      - intros kv B. apply H. right. apply in_or_app. left. now apply in_map.
      - intros k B n N. apply H. right. apply in_or_app. right. apply in_flat_map. now exists k.
    Qed.

    Lemma declarations_ok : forall a, forallb attr_ok a = true -> (forall kv, In kv a -> name_there (fst kv)) -> forallb declaration_ok (declarations (enc a)) = true.
    Proof.
      intros a H T. rewrite declarations_written by exact T. rewrite forallb_forall in H |- *. intros d D. apply in_map_iff in D as [[k v] [<- D]].
      apply filter_In in D as [D X]. cbn [fst snd] in *. apply H in D. unfold attr_ok in D. cbn [fst snd] in D. rewrite X in D. cbn [negb orb] in D.
      apply andb_true_iff in D as [_ D]. apply andb_true_iff in D as [D1 D2]. unfold declaration_ok. cbn [uempty orb andb]. change (ueqb [] (u "xmlns")) with false.
      change (ueqb [] (u "xml")) with false. rewrite D1. apply negb_true_iff in D2. rewrite D2. reflexivity.
    Qed.

    Lemma resolve_encoded : forall e, xml_ok e = true -> (forall n, In n (names_of e) -> name_there n) ->
      forall env, env_ok env -> resolve env (encode q e) = Some (as_read (default env) e).
    Proof.
      induction e as [t a x ks IH] using elem_ind'. intros X T env V. destruct (there_parts _ _ _ _ T) as [T1 [T2 T3]].
      cbn [xml_ok] in X. apply andb_true_iff in X as [X X5]. apply andb_true_iff in X as [X X4]. apply andb_true_iff in X as [X X3]. apply andb_true_iff in X as [X1 X2].
      cbn [encode resolve]. pose proof (env_step env a T2 V) as V'. rewrite expand_written by assumption. rewrite attrs_written by assumption.
      rewrite map_map. rewrite (all_some_map _ (as_read (default_of (default env) a))).
      2:{ intros k B. rewrite Forall_forall in IH. rewrite <- default_step by exact T2. rewrite forallb_forall in X5. apply IH; auto. now apply T3. }
      rewrite declarations_ok by assumption. apply distinct_NoDup in X3. apply (nodup_filter (fun kv => negb (ueqb (fst kv) (u "xmlns")))) in X3. apply distinct_NoDup in X3.
      rewrite X3. cbn [andb as_read]. rewrite default_step by exact T2. reflexivity.
    Qed.

    Lemma keys_injective : forall env, env_ok env -> forall a, (forall kv, In kv a -> name_there (fst kv)) -> NoDup (map fst a) -> NoDup (map fst (enc a)).
    Proof.
      intros env V. induction a as [|[k v] a IH]; intros T N; [exact N|]. cbn [map fst] in N |- *. inversion N as [|? ? N1 N2]; subst. constructor.
      - intro X. apply in_map_iff in X as [[k' v'] [E X]]. cbn [fst] in E. apply in_map_iff in X as [[k2 v2] [E2 X]]. cbn [fst snd] in E2. injection E2 as <- <-.
        assert (A := expand_written env false k V (T (k, v) (or_introl eq_refl))). assert (B := expand_written env false k2 V (T (k2, v2) (or_intror X))).
        rewrite E, A in B. injection B as B. assert (k = k2) by (destruct (qualified k); destruct (qualified k2); exact B). subst k2.
        apply N1. apply in_map_iff. now exists (k, v2).
      - apply IH; [|exact N2]. intros kv B. apply T. now right.
    Qed.

    Lemma encoded_printable : forall env, env_ok env -> forall e, xml_ok e = true -> (forall n, In n (names_of e) -> name_there n) -> printable (encode q e) = true.
    Proof.
      intros env V. induction e as [t a x ks IH] using elem_ind'. intros X T. destruct (there_parts _ _ _ _ T) as [T1 [T2 T3]].
      cbn [xml_ok] in X. apply andb_true_iff in X as [X X5]. apply andb_true_iff in X as [X X4]. apply andb_true_iff in X as [X X3]. apply andb_true_iff in X as [X1 X2].
      cbn [encode printable]. rewrite written_printed by assumption. apply distinct_NoDup in X3. apply (keys_injective env V a T2) in X3. apply distinct_NoDup in X3. rewrite X3, X4.
      rewrite !andb_true_r. apply andb_true_iff. split.
      - cbn [andb]. apply forallb_forall. intros kv B. apply in_map_iff in B as [[k v] [<- B]]. cbn [fst snd].
        rewrite written_printed by now apply (T2 (k, v)). rewrite forallb_forall in X2. apply X2 in B. unfold attr_ok in B. apply andb_true_iff in B as [B _]. now apply andb_true_iff in B as [_ B].
      - apply forallb_forall. intros k B. apply in_map_iff in B as [e [<- B]]. rewrite Forall_forall in IH. rewrite forallb_forall in X5. apply IH; auto. now apply T3.
    Qed.

    (** ** The declarations at the root *)

    Definition ds : list (ustr * ustr) := map declaration (sort_prefixes ns).

    Lemma sorted_in : forall uri p, In (uri, p) (sort_prefixes ns) <-> In (uri, p) ns.
    Proof. intros. split; apply Permutation_in; [|apply Permutation_sym]; apply sort_perm. Qed.

    Lemma declared_ds : declarations ds = map (fun kv => (snd kv, fst kv)) (sort_prefixes ns).
    Proof.
      unfold ds, declarations. assert (H : forall kv, In kv (sort_prefixes ns) -> snd kv <> []).
      { intros [uri p] B. apply sorted_in in B. apply (prefix_ok ns uri p I) in B as [B _]. cbn. intros ->. discriminate B. }
      induction (sort_prefixes ns) as [|[uri p] l IH]; [reflexivity|]. cbn [map flat_map]. rewrite IH by (intros kv B; apply H; now right).
      specialize (H (uri, p) (or_introl eq_refl)). cbn [snd] in H. unfold declaration. cbn [fst snd]. destruct p as [|c p]; [contradiction|].
      unfold declared_prefix. change (ueqb (u "xmlns" ++ u ":" ++ c :: p) (u "xmlns")) with false.
      change (after (u "xmlns:") (u "xmlns" ++ u ":" ++ c :: p)) with (Some (c :: p)). reflexivity.
    Qed.

    Lemma swapped_nodup : NoDup (map fst (map (fun kv : ustr * ustr => (snd kv, fst kv)) (sort_prefixes ns))).
    Proof.
      rewrite map_map. cbn [fst]. apply (Permutation_NoDup (l := map snd ns)); [|now apply prefixes_nodup]. apply Permutation_map, Permutation_sym, sort_perm.
    Qed.

    Lemma root_env : env_ok (declarations ds).
    Proof.
      intros uri p H. rewrite declared_ds. apply uget_nodup; [exact swapped_nodup|]. apply in_map_iff. exists (uri, p). split; [reflexivity|]. now apply sorted_in.
    Qed.

    Lemma root_default : uget [] (declarations ds) = None.
    Proof.
      rewrite declared_ds. apply uget_none. rewrite map_map. cbn [fst]. intro H. apply in_map_iff in H as [[uri p] [E H]]. cbn [snd] in E. subst p.
      apply sorted_in in H. apply (prefix_ok ns uri [] I) in H as [H _]. discriminate H.
    Qed.

    Lemma ds_keys : forall k v, In (k, v) ds -> exists p, k = u "xmlns:" ++ p /\ ncname p = true /\ In (v, p) ns.
    Proof.
      intros k v H. unfold ds in H. apply in_map_iff in H as [[uri p] [E H]]. apply sorted_in in H. destruct (prefix_ok ns uri p I H) as [P _].
      unfold declaration in E. cbn [fst snd] in E. destruct p as [|c p]; [discriminate|]. injection E as <- <-. exists (c :: p). now repeat split.
    Qed.

    Lemma ds_nodup : NoDup (map fst ds).
    Proof.
      unfold ds. rewrite map_map. assert (N : NoDup (map snd (sort_prefixes ns))) by (pose proof swapped_nodup as N; rewrite map_map in N; exact N).
      clear - N. induction (sort_prefixes ns) as [|[uri p] l IH]; [constructor|]. cbn [map snd] in N |- *. inversion N as [|? ? N1 N2]; subst. constructor; [|now apply IH].
      intro H. apply in_map_iff in H as [[uri' p'] [E H]]. apply N1. apply in_map_iff. exists (uri', p'). split; [|exact H]. cbn [snd]. unfold declaration in E. cbn [fst snd] in E.
      apply app_inv_head in E. destruct p' as [|c p']; destruct p as [|d p]; try reflexivity; try discriminate E. now injection E as -> ->.
    Qed.

    Lemma declared_ok : forallb declaration_ok (declarations ds) = true.
    Proof.
      rewrite declared_ds. apply forallb_forall. intros d D. apply in_map_iff in D as [[uri p] [<- D]]. apply sorted_in in D.
      destruct (prefix_ok ns uri p I D) as [P1 [P2 [P3 [[U1 [U2 U3]] U4]]]]. cbn [fst snd]. unfold declaration_ok.
      rewrite P1. replace (uempty uri) with false by (destruct uri; [contradiction|reflexivity]).
      replace (ueqb p (u "xmlns")) with false by (symmetry; now apply ueqb_neq). replace (ueqb uri XMLNS_NS) with false by (symmetry; now apply ueqb_neq).
      replace (ueqb p (u "xml")) with false by (symmetry; now apply ueqb_neq). replace (ueqb uri XML_NS) with false by (symmetry; now apply ueqb_neq).
      now rewrite orb_true_r.
    Qed.

    Lemma filter_ds : filter (fun kv : ustr * ustr => match declared_prefix (fst kv) with Some _ => false | None => true end) ds = [].
    Proof.
      assert (H : forall kv, In kv ds -> match declared_prefix (fst kv) with Some _ => false | None => true end = false).
      { intros [k v] B. apply ds_keys in B as [p [E [P _]]]. cbn [fst]. subst k. unfold declared_prefix. destruct p as [|c p]; [discriminate|].
        change (ueqb (u "xmlns:" ++ c :: p) (u "xmlns")) with false. rewrite after_app. reflexivity. }
      induction ds as [|kv l IH]; [reflexivity|]. cbn [filter]. rewrite H by now left. apply IH. intros k B. apply H. now right.
    Qed.

    Lemma root_resolved : forall e, xml_ok e = true -> (forall n, In n (names_of e) -> name_there n) ->
      resolve [] (declare ds (encode q e)) = Some (as_read [] e).
    Proof.
      intros [t a x ks] X T. destruct (there_parts _ _ _ _ T) as [T1 [T2 T3]].
      cbn [xml_ok] in X. apply andb_true_iff in X as [X X5]. apply andb_true_iff in X as [X X4]. apply andb_true_iff in X as [X X3]. apply andb_true_iff in X as [X1 X2].
      cbn [encode declare resolve]. rewrite app_nil_r. unfold declarations at 1 2 3. rewrite !flat_map_app.
      change (flat_map _ ds) with (declarations ds). change (flat_map _ (enc a)) with (declarations (enc a)).
      set (env := declarations ds ++ declarations (enc a)).
      assert (V : env_ok env). { intros uri p P. unfold env. rewrite uget_app. now rewrite (root_env uri p P). }
      assert (D : default env = default_of [] a).
      { transitivity (default (declarations (enc a) ++ [])); [|rewrite default_step by exact T2; reflexivity]. unfold default, env. rewrite !uget_app, root_default. now destruct (uget [] (declarations (enc a))). }
      rewrite expand_written by assumption. rewrite filter_app, filter_ds, app_nil_l. rewrite attrs_written by assumption.
      rewrite map_map. rewrite (all_some_map _ (as_read (default_of [] a))).
      2:{ intros k B. rewrite <- D. rewrite forallb_forall in X5. apply resolve_encoded; auto. now apply T3. }
      unfold declarations at 1. rewrite flat_map_app. change (flat_map _ ds) with (declarations ds). change (flat_map _ (enc a)) with (declarations (enc a)).
      rewrite forallb_app, declared_ok. rewrite declarations_ok by assumption. apply distinct_NoDup in X3. apply (nodup_filter (fun kv => negb (ueqb (fst kv) (u "xmlns")))) in X3. apply distinct_NoDup in X3.
      rewrite X3. cbn [andb as_read]. rewrite D. reflexivity.
    Qed.

    Lemma nodup_app : forall (a b : list ustr), NoDup a -> NoDup b -> (forall x, In x a -> ~ In x b) -> NoDup (a ++ b).
    Proof.
      induction a as [|x a IH]; intros b A B D; [exact B|]. cbn. inversion A as [|? ? A1 A2]; subst. constructor.
      - intro H. apply in_app_or in H as [H|H]; [contradiction|]. apply (D x); [now left|exact H].
      - apply IH; [assumption..|]. intros y Y. apply D. now right.
    Qed.

    Lemma root_printable : forall e, xml_ok e = true -> (forall n, In n (names_of e) -> name_there n) -> printable (declare ds (encode q e)) = true.
    Proof.
      intros e X T. pose proof (encoded_printable _ root_env e X T) as P. destruct e as [t a x ks]. destruct (there_parts _ _ _ _ T) as [T1 [T2 T3]].
      cbn [encode declare printable] in P |- *. apply andb_true_iff in P as [P P5]. apply andb_true_iff in P as [P P4]. apply andb_true_iff in P as [P P3]. apply andb_true_iff in P as [P1 P2].
      rewrite P1, P4, P5, forallb_app, P2. rewrite !andb_true_r. cbn [andb]. apply andb_true_iff. split.
      - apply forallb_forall. intros [k v] B. destruct (ds_keys k v B) as [p [-> [Hp B']]]. cbn [fst snd]. destruct (prefix_ok ns v p I B') as [_ [_ [_ [[_ [U _]] _]]]]. rewrite U, andb_true_r.
        apply ncname_chars in Hp as [_ [Hp _]]. unfold printed_name. rewrite forallb_app, Hp. reflexivity.
      - apply distinct_NoDup. rewrite map_app. apply distinct_NoDup in P3. apply nodup_app; [exact ds_nodup|exact P3|].
        intros k B C. apply in_map_iff in B as [[k1 v1] [<- B]]. destruct (ds_keys k1 v1 B) as [p [E [Hp _]]]. cbn [fst] in C. apply in_map_iff in C as [[k2 v2] [E2 C]].
        apply in_map_iff in C as [[k3 v3] [E3 C]]. cbn [fst snd] in *. injection E3 as <- <-. pose proof (declared_written k3 (T2 _ C)) as W. rewrite E2, E in W.
        unfold declared_prefix in W. destruct p as [|c p]; [discriminate|]. change (ueqb (u "xmlns:" ++ c :: p) (u "xmlns")) with false in W. rewrite after_app in W.
        cbv iota in W. destruct (ueqb k3 (u "xmlns")); discriminate W.
    Qed.
  End Env.
End Prefixes.

(** ** Line ends *)

Lemma line_ends_id : forall s, forallb (fun c => negb (c =? 13)) s = true -> line_ends s = s.
Proof.
  induction s as [|c s IH]; intro H; [reflexivity|]. cbn [forallb] in H. apply andb_true_iff in H as [H1 H2]. cbn [line_ends].
  apply negb_true_iff in H1. rewrite H1. now rewrite IH.
Qed.

Lemma name_no_cr : forall n, printed_name n = true -> forallb (fun c => negb (c =? 13)) n = true.
Proof.
  intros n H. apply andb_true_iff in H as [_ H]. rewrite forallb_forall in H |- *. intros c C. apply H in C.
  destruct (c =? 13) eqn:E; [|reflexivity]. apply N.eqb_eq in E. subst c. discriminate C.
Qed.

Lemma esc_attr_no_cr : forall v, forallb (fun c => negb (c =? 13)) (flat_map esc_attr v) = true.
Proof.
  intro v. apply forallb_flat_map. intros c _. unfold esc_attr, esc_text.
  destruct (c =? 34); [reflexivity|]. destruct (c =? 13) eqn:E; [reflexivity|].
  repeat (match goal with |- context [if ?b then _ else _] => destruct b end; [reflexivity|]). cbn. now rewrite E.
Qed.

Lemma esc_text_no_cr : forall v, forallb (fun c => xml_char c && negb (c =? 13)) v = true -> forallb (fun c => negb (c =? 13)) (flat_map esc_text v) = true.
Proof.
  intros v H. apply forallb_flat_map. intros c C. rewrite forallb_forall in H. apply H in C. apply andb_true_iff in C as [_ C]. unfold esc_text.
  repeat (match goal with |- context [if ?b then _ else _] => destruct b end; [reflexivity|]). cbn. now rewrite C.
Qed.

Lemma print_no_cr : forall e, printable e = true -> forallb (fun c => negb (c =? 13)) (print e) = true.
Proof.
  induction e as [t a x ks IH] using elem_ind'. intro P. cbn [printable] in P. apply andb_true_iff in P as [P P5]. apply andb_true_iff in P as [P P4].
  apply andb_true_iff in P as [P P3]. apply andb_true_iff in P as [P1 P2].
  assert (A : forallb (fun c => negb (c =? 13)) (flat_map print_attr a) = true).
  { apply forallb_flat_map. intros [k v] B. rewrite forallb_forall in P2. apply P2 in B. cbn [fst snd] in B. apply andb_true_iff in B as [B _].
    unfold print_attr. cbn [fst snd]. rewrite !forallb_app, (name_no_cr k) by exact B. rewrite esc_attr_no_cr. reflexivity. }
  assert (S : forallb (fun c => negb (c =? 13)) (flat_map print ks) = true).
  { apply forallb_flat_map. intros k B. rewrite Forall_forall in IH. rewrite forallb_forall in P5. apply IH; auto. }
  rewrite <- (app_nil_r (print _)). rewrite print_shape. cbn [forallb]. change (negb (60 =? 13)) with true. cbn [andb].
  rewrite !forallb_app, (name_no_cr t), A by exact P1. cbn [andb]. destruct (_ && _); [reflexivity|]. cbn [forallb]. change (negb (62 =? 13)) with true. cbn [andb].
  unfold content. rewrite !forallb_app, S, (name_no_cr t) by exact P1. rewrite esc_text_no_cr by (destruct x; [exact P4|reflexivity]). reflexivity.
Qed.

Lemma any_name_xml : forall c, any_name_char c = true -> xml_char c = true.
Proof.
  intros c H. unfold any_name_char, name_char, start_char, xml_char, in_range in *. cbn [existsb fst snd] in *.
  rewrite !orb_true_iff, !andb_true_iff, !N.leb_le, N.eqb_eq in H. rewrite !orb_true_iff, !andb_true_iff, !N.leb_le. lia.
Qed.
Lemma name_xml : forall n, printed_name n = true -> forallb xml_char n = true.
Proof. intros n H. apply andb_true_iff in H as [_ H]. rewrite forallb_forall in *. intros c B. now apply any_name_xml, H. Qed.
Lemma esc_attr_xml : forall v, forallb xml_char v = true -> forallb xml_char (flat_map esc_attr v) = true.
Proof.
  intros v H. apply forallb_flat_map. intros c B. rewrite forallb_forall in H. specialize (H c B). unfold esc_attr, esc_text.
  repeat (destruct (_ =? _); [reflexivity|]). cbn [forallb]. now rewrite H.
Qed.
Lemma esc_text_xml : forall v, forallb (fun c => xml_char c && negb (c =? 13)) v = true -> forallb xml_char (flat_map esc_text v) = true.
Proof.
  intros v H. apply forallb_flat_map. intros c B. rewrite forallb_forall in H. specialize (H c B). apply andb_true_iff in H as [H _]. unfold esc_text.
  repeat (destruct (_ =? _); [reflexivity|]). cbn [forallb]. now rewrite H.
Qed.
(** Only characters of XML are printed. *)
Lemma print_xml : forall e, printable e = true -> forallb xml_char (print e) = true.
Proof.
  induction e as [t a x ks IH] using elem_ind'. intro P. cbn [printable] in P. apply andb_true_iff in P as [P P5]. apply andb_true_iff in P as [P P4].
  apply andb_true_iff in P as [P P3]. apply andb_true_iff in P as [P1 P2].
  assert (A : forallb xml_char (flat_map print_attr a) = true).
  { apply forallb_flat_map. intros [k v] B. rewrite forallb_forall in P2. apply P2 in B. cbn [fst snd] in B. apply andb_true_iff in B as [B B'].
    unfold print_attr. cbn [fst snd]. rewrite !forallb_app, (name_xml k), esc_attr_xml by assumption. reflexivity. }
  assert (S : forallb xml_char (flat_map print ks) = true).
  { apply forallb_flat_map. intros k B. rewrite Forall_forall in IH. rewrite forallb_forall in P5. apply IH; auto. }
  rewrite <- (app_nil_r (print _)). rewrite print_shape. cbn [forallb]. change (xml_char 60) with true. cbn [andb].
  rewrite !forallb_app, (name_xml t), A by exact P1. cbn [andb]. destruct (_ && _); [reflexivity|]. cbn [forallb]. change (xml_char 62) with true. cbn [andb].
  unfold content. rewrite !forallb_app, S, (name_xml t) by exact P1. rewrite esc_text_xml by (destruct x; [exact P4|reflexivity]). reflexivity.
Qed.

Lemma tidy_declare : forall d e, tidy (declare d e) = declare d (tidy e).
Proof. intros d [t a x ks]. reflexivity. Qed.

Lemma tidy_encode : forall q e, tidy (encode q e) = encode q (tidy e).
Proof.
  induction e as [t a x ks IH] using elem_ind'. cbn [encode tidy]. f_equal. rewrite !map_map. apply map_ext_in. rewrite Forall_forall in IH. exact IH.
Qed.

Lemma tidy_names : forall e, names_of (tidy e) = names_of e.
Proof.
  induction e as [t a x ks IH] using elem_ind'. cbn [tidy names_of]. do 2 f_equal. rewrite flat_map_concat_map, map_map, flat_map_concat_map. f_equal.
  apply map_ext_in. rewrite Forall_forall in IH. exact IH.
Qed.

Lemma tidy_ok : forall e, xml_ok e = true -> xml_ok (tidy e) = true.
Proof.
  induction e as [t a x ks IH] using elem_ind'. cbn [tidy xml_ok]. intro X. apply andb_true_iff in X as [X X5]. apply andb_true_iff in X as [X X4].
  rewrite X. cbn [andb]. apply andb_true_iff. split; [destruct x as [[|c x]|]; exact X4|].
  rewrite forallb_forall in X5 |- *. intros k B. apply in_map_iff in B as [e [<- B]]. rewrite Forall_forall in IH. apply IH; auto.
Qed.

Lemma names_ok : forall e, xml_ok e = true -> forallb name_ok (names_of e) = true.
Proof.
  induction e as [t a x ks IH] using elem_ind'. cbn [names_of xml_ok]. intro X. apply andb_true_iff in X as [X X5]. do 3 (apply andb_true_iff in X as [X ?]).
  cbn [forallb]. rewrite X, forallb_app. cbn [andb]. apply andb_true_iff. split.
  - apply forallb_forall. intros n B. apply in_map_iff in B as [kv [<- B]]. rewrite forallb_forall in H1. apply H1 in B. unfold attr_ok in B. now do 2 (apply andb_true_iff in B as [B _]).
  - apply forallb_flat_map. intros k B. rewrite Forall_forall in IH. rewrite forallb_forall in X5. apply IH; auto.
Qed.

(** What is printed is parsed, except that [xmlns] attributes are understood. *)
Theorem parse_tostring : forall known e, known_ok known = true -> xml_ok e = true ->
  exists s, tostring known e = Ok s /\ forallb xml_char s = true /\ firstn 1 s = [60] /\
            forall lib enc, enc None = true -> parse_document lib enc s = Some (as_read [] (tidy e)).
Proof.
  intros known e K X. unfold tostring, namespaces.
  destruct (add_names_ok known K (names_of e) [] ltac:(split; [constructor|intros [|i] ? ? H; discriminate H]) (names_ok e X)) as [ns [E [I C]]].
  cbn [app] in E, I, C. rewrite E. cbn [bind]. eexists. split; [reflexivity|].
  assert (T : forall n, In n (names_of e) -> name_there ns n).
  { intros n B. split; [|now apply C]. pose proof (names_ok e X) as N. rewrite forallb_forall in N. now apply N. }
  pose proof (root_printable known K ns I e X T) as P. pose proof (root_resolved known K ns I (tidy e) (tidy_ok e X) ltac:(rewrite tidy_names; exact T)) as R.
  unfold ds in P, R. set (d := declare _ (encode _ e)) in *. rewrite <- tidy_encode, <- tidy_declare in R. change (declare _ (encode _ e)) with d in R. clearbody d.
  split; [now apply print_xml|]. destruct (print_first d [] P) as [c [s [F Hc]]]. rewrite app_nil_r in F. split; [now rewrite F|].
  intros lib enc H. unfold parse_document. rewrite line_ends_id by now apply print_no_cr.
  assert (D : declared (print d) = Some (None, print d)).
  { unfold declared. rewrite F. change (u "<?xml") with (60 :: 63 :: u "xml"). cbn [after]. rewrite N.eqb_refl.
    replace (63 =? c) with false by (symmetry; apply N.eqb_neq; intros <-; discriminate Hc). reflexivity. }
  rewrite D, H. assert (S : forall f, skip_misc f (print d) = print d).
  { destruct f; [reflexivity|]. cbn [skip_misc]. rewrite F, skip_space_not by reflexivity. now destruct (name_first c s Hc) as (_ & _ & ->). }
  rewrite S. rewrite <- (app_nil_r (print d)) at 2. rewrite parse_printed by (exact P || apply le_n). exact R.
Qed.
