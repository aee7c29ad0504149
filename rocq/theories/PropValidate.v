(** * Schema validation: C40. *)
From Coq Require Import List Bool String.
From Verif Require Import Res Validate.
Import ListNotations.

Section Statements.
  Context {doc file path schema entry : Type}.
  Variable path_eqb : path -> path -> bool.
  Variable assert_ : schema -> doc -> res unit.
  Variable error_log : schema -> doc -> list entry.
  Variable xpath : doc -> entry -> option nat.
  Notation bk := (backend doc file path schema).
  Notation cch := (cache path schema).
  Notation val := (validate doc file path schema entry path_eqb assert_ error_log xpath).
  Notation root := (parse_root doc file path schema entry path_eqb assert_ error_log xpath).

  (** A schema is to be had: from the cache or from the library. *)
  Definition schema_at (b : bk) (k : option path) (c : cch) (s : schema) : Prop :=
    lookup path schema path_eqb k c = Some s \/
    lookup path schema path_eqb k c = None /\ exists f, b_xmlschema _ _ _ _ b = Some f /\ f k = Ok s.

  (** The document that is looked at. *)
  Definition subject (b : bk) (element : option doc) (f : option file) (d : doc) : Prop :=
    element = Some d /\ f = None \/ exists x, element = None /\ f = Some x /\ b_parse _ _ _ _ b x = Ok d.

  (** Every entry of the error log leads to a node or is no XPath. *)
  Definition log_found (s : schema) (d : doc) : Prop := forall e, In e (error_log s d) -> xpath d e <> Some 0.

  (** None or both: ValueError, whatever the library can do. *)
  Theorem C40_arguments : forall (b : bk) sch element f (c : cch),
    (element = None <-> f = None) -> fst (val b sch element f c) = Err EValueError.
  Proof.
    intros b sch [d|] [x|] c [H1 H2]; try reflexivity; [discriminate (H2 eq_refl)|discriminate (H1 eq_refl)].
  Qed.

  (** Exactly one, and the library has no schema support: [None]. *)
  Theorem C40_no_support : forall (b : bk) sch element f (c : cch),
    ~ (element = None <-> f = None) -> b_xmlschema _ _ _ _ b = None -> lookup path schema path_eqb sch c = None ->
    val b sch element f c = (Ok None, c).
  Proof.
    intros b sch element f c H Hb Hl. unfold validate, get_schema_parser. rewrite Hl, Hb. destruct element, f; try reflexivity; exfalso; apply H; split; congruence.
  Qed.

  Lemma schema_got b k c s : schema_at b k c s -> fst (get_schema_parser doc file path schema path_eqb b k c) = Ok s.
  Proof. unfold get_schema_parser. intros [-> | [-> [f [-> ->]]]]; reflexivity. Qed.

  Lemma handled s d : log_found s d -> handle_validation_error doc entry xpath d (error_log s d) = Ok tt.
  Proof.
    unfold log_found. generalize (error_log s d). induction l as [|e l IH]; cbn; intro H; [reflexivity|].
    destruct (xpath d e) as [[|n]|] eqn:E; [exfalso; apply (H e); auto|..]; apply IH; intros; apply H; now right.
  Qed.

  Lemma val_known b sch element f c s d : schema_at b sch c s -> subject b element f d ->
    fst (val b sch element f c) = match assert_ s d with
      | Err EAssertion => let! _ := handle_validation_error doc entry xpath d (error_log s d) in Err EAssertion
      | Err e => Err e
      | Ok _ => Ok (Some true)
      end.
  Proof.
    intros Hs Hd. apply schema_got in Hs. unfold validate. destruct (get_schema_parser doc file path schema path_eqb b sch c) as [r c']. cbn [fst] in Hs. subst r.
    destruct Hd as [[-> ->]|[x [-> [-> Hx]]]]; cbn [fst]; [reflexivity|]. now rewrite Hx.
  Qed.

  (** Valid: [True]. *)
  Theorem C40_valid : forall (b : bk) sch element f (c : cch) s d,
    schema_at b sch c s -> subject b element f d -> assert_ s d = Ok tt ->
    fst (val b sch element f c) = Ok (Some true).
  Proof. intros b sch element f c s d Hs Hd Ha. now rewrite (val_known b sch element f c s d Hs Hd), Ha. Qed.

  (** Invalid: the AssertionError comes out. *)
  Theorem C40_invalid : forall (b : bk) sch element f (c : cch) s d,
    schema_at b sch c s -> subject b element f d -> assert_ s d = Err EAssertion -> log_found s d ->
    fst (val b sch element f c) = Err EAssertion.
  Proof. intros b sch element f c s d Hs Hd Ha Hl. now rewrite (val_known b sch element f c s d Hs Hd), Ha, (handled s d Hl). Qed.

  (** [True] is never returned for an invalid document, [False] never, and
      [None] only if the schema parser raised AttributeError. *)
  Theorem C40_only : forall (b : bk) sch element f (c : cch) r,
    fst (val b sch element f c) = Ok r ->
    (r = None /\ (b_xmlschema _ _ _ _ b = None \/ exists g, b_xmlschema _ _ _ _ b = Some g /\ g sch = Err EAttributeError) /\ lookup path schema path_eqb sch c = None) \/
    (r = Some true /\ exists s d, schema_at b sch c s /\ subject b element f d /\ exists u, assert_ s d = Ok u).
  Proof.
    intros b sch element f c r H.
    assert (X : ~ (element = None <-> f = None)).
    { intro E. rewrite (C40_arguments b sch element f c E) in H. discriminate. }
    assert (G : fst (val b sch element f c) =
      match fst (get_schema_parser doc file path schema path_eqb b sch c) with
      | Err EAttributeError => Ok None
      | Err e => Err e
      | Ok s => let! d := match f, element with Some x, _ => b_parse _ _ _ _ b x | None, Some d => Ok d | None, None => Err EAssertion end in
                match assert_ s d with
                | Err EAssertion => let! _ := handle_validation_error doc entry xpath d (error_log s d) in Err EAssertion
                | Err e => Err e | Ok _ => Ok (Some true) end
      end).
    { unfold validate. destruct (get_schema_parser doc file path schema path_eqb b sch c) as [[s|[]] c']; cbn [fst]; destruct element, f; try reflexivity; exfalso; apply X; split; congruence. }
    rewrite G in H. clear G. unfold get_schema_parser in H.
    assert (K : forall s, schema_at b sch c s ->
      (let! d := match f, element with Some x, _ => b_parse _ _ _ _ b x | None, Some d => Ok d | None, None => Err EAssertion end in
                match assert_ s d with
                | Err EAssertion => let! _ := handle_validation_error doc entry xpath d (error_log s d) in Err EAssertion
                | Err e => Err e | Ok _ => Ok (Some true) end) = Ok r ->
      r = Some true /\ exists s d, schema_at b sch c s /\ subject b element f d /\ exists u, assert_ s d = Ok u).
    { clear H. intros s Hs H. apply bind_ok in H as [d [Hd H]]. destruct (assert_ s d) as [u|[]] eqn:Ha; try discriminate.
      - injection H as <-. split; [reflexivity|]. exists s, d. split; [exact Hs|]. split; [|eauto]. destruct f as [x|], element as [d'|]; try discriminate.
        + exfalso. apply X. split; discriminate.
        + right. eauto.
        + injection Hd as ->. left. auto.
      - apply bind_ok in H as [? [_ H]]. discriminate. }
    destruct (lookup path schema path_eqb sch c) as [s|] eqn:El.
    - right. cbn [fst] in H. apply (K s); [now left|exact H].
    - destruct (b_xmlschema _ _ _ _ b) as [g|] eqn:Eg; cbn [fst] in H.
      + destruct (g sch) as [s|e] eqn:Es; cbn [fst] in H.
        * right. apply (K s); [right; eauto|exact H].
        * left. destruct e; try discriminate. injection H as <-. split; [reflexivity|]. split; [right; eauto|reflexivity].
      + left. injection H as <-. auto.
  Qed.

  (** [KML.parse]: which file gets validated. *)
  Definition validated (strict : bool) (v : option bool) : Prop := v = Some true \/ v = None /\ strict = true.

  (** A library with parser options and schema: AssertionError exactly if the
      document is to be validated and is invalid; the document otherwise. *)
  Theorem C40_parse : forall (b : bk) f strict v (c : cch) p s d,
    b_recover _ _ _ _ b = Some p -> p f = Ok d -> schema_at b None c s ->
    (assert_ s d = Ok tt \/ assert_ s d = Err EAssertion) -> log_found s d ->
    (fst (root b f strict v c) = Err EAssertion <-> validated strict v /\ assert_ s d = Err EAssertion) /\
    (fst (root b f strict v c) = Ok d <-> ~ (validated strict v /\ assert_ s d = Err EAssertion)).
  Proof.
    intros b f strict v c p s d Hp Hd Hs Ha Hl.
    assert (E : fst (root b f strict v c) = if match v with None => strict | Some x => x end then match assert_ s d with Ok _ => Ok d | Err e => Err e end else Ok d).
    { unfold parse_root, lxml_parse_and_validate. rewrite Hp, Hd. destruct (match v with None => strict | Some x => x end); [|reflexivity].
      assert (V := val_known b None (Some d) None c s d Hs (or_introl (conj eq_refl eq_refl))). destruct (val b None (Some d) None c) as [r c']. cbn [fst] in V. subst r.
      destruct Ha as [-> | ->]; [reflexivity|]. now rewrite (handled s d Hl). }
    rewrite E. assert (V : validated strict v <-> match v with None => strict | Some x => x end = true).
    { unfold validated. destruct v as [[]|]; split; intro H; try tauto; try discriminate; try (destruct H as [H|[H _]]; discriminate). destruct H as [H|[_ H]]; [discriminate|exact H]. }
    rewrite V. destruct (match v with None => strict | Some x => x end); destruct Ha as [-> | ->]; split; split; try tauto; try discriminate; intros; try (exfalso; intuition congruence); intuition congruence.
  Qed.

  (** In particular by default: exactly if strict and invalid. *)
  Theorem C40_parse_default : forall (b : bk) f strict (c : cch) p s d,
    b_recover _ _ _ _ b = Some p -> p f = Ok d -> schema_at b None c s ->
    (assert_ s d = Ok tt \/ assert_ s d = Err EAssertion) -> log_found s d ->
    (fst (root b f strict None c) = Err EAssertion <-> strict = true /\ assert_ s d = Err EAssertion).
  Proof.
    intros b f strict c p s d Hp Hd Hs Ha Hl. rewrite (proj1 (C40_parse b f strict None c p s d Hp Hd Hs Ha Hl)). unfold validated. intuition congruence.
  Qed.

  (** A library without these parser options never validates. *)
  Theorem C40_parse_plain : forall (b : bk) f strict v (c : cch),
    b_recover _ _ _ _ b = None -> root b f strict v c = (b_parse _ _ _ _ b f, c).
  Proof. intros b f strict v c H. unfold parse_root, lxml_parse_and_validate. now rewrite H. Qed.
End Statements.
Print Assumptions C40_arguments.
Print Assumptions C40_no_support.
Print Assumptions C40_valid.
Print Assumptions C40_invalid.
Print Assumptions C40_only.
Print Assumptions C40_parse.
Print Assumptions C40_parse_default.
Print Assumptions C40_parse_plain.

(** ** Concrete libraries

    Documents are texts, the schema accepts the document "good". *)
Definition full : backend string string string bool :=
  mkBackend _ _ _ _ (Some (fun _ => Ok true)) (fun f => Ok f) (Some (fun f => Ok f)).
Definition stdlib : backend string string string bool :=
  mkBackend _ _ _ _ None (fun f => Ok f) None.
Definition ex_assert (s : bool) (d : string) : res unit := if String.eqb d "good" then Ok tt else Err EAssertion.
Definition ex_log (s : bool) (d : string) : list nat := [1; 2].
Definition ex_xpath (d : string) (e : nat) : option nat := if Nat.eqb e 1 then Some 1 else None.
Definition ex_validate := validate string string string bool nat String.eqb ex_assert ex_log ex_xpath.
Definition ex_root := parse_root string string string bool nat String.eqb ex_assert ex_log ex_xpath.

Example C40_example :
  fst (ex_validate full None None None []) = Err EValueError /\
  fst (ex_validate full None (Some "good"%string) (Some "good"%string) []) = Err EValueError /\
  fst (ex_validate full None (Some "good"%string) None []) = Ok (Some true) /\
  fst (ex_validate full None None (Some "bad"%string) []) = Err EAssertion /\
  fst (ex_validate stdlib None (Some "bad"%string) None []) = Ok None /\
  fst (ex_root full "bad"%string true None []) = Err EAssertion /\
  fst (ex_root full "bad"%string false None []) = Ok "bad"%string /\
  fst (ex_root full "bad"%string true (Some false) []) = Ok "bad"%string /\
  fst (ex_root stdlib "bad"%string true (Some true) []) = Ok "bad"%string /\
  log_found ex_log ex_xpath true "bad"%string /\ schema_at String.eqb full None [] true.
Proof.
  repeat match goal with |- _ = _ /\ _ => split; [reflexivity|] end. split.
  - intros e [<-|[<-|[]]]; discriminate.
  - right. split; [reflexivity|]. eexists. split; reflexivity.
Qed.

(** The full statement says that [None] is returned whenever the XML library
    has no schema support.  False: a schema compiled before
    [set_etree_implementation] stays in the cache and is used. *)
Theorem C40_no_support_refuted : exists c,
  snd (ex_validate full None (Some "good"%string) None []) = c /\
  b_xmlschema _ _ _ _ stdlib = None /\ fst (ex_validate stdlib None (Some "bad"%string) None c) = Err EAssertion.
Proof. eexists. repeat split; reflexivity. Qed.
Print Assumptions C40_no_support_refuted.
