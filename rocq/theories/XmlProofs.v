(** * Printed XML is parsed as what was printed. *)
From Coq Require Import String List NArith ZArith Bool Lia Arith.
From Verif Require Import Ustr UstrProofs Res Elem Xml XmlSpec.
Import ListNotations.
Local Open Scope N_scope.

Lemma span_app : forall p a b, forallb p a = true -> match b with [] => True | c :: _ => p c = false end -> span p (a ++ b) = (a, b).
Proof.
  induction a as [|c a IH]; intros b H Hb; cbn.
  - destruct b; [reflexivity|]. cbn. now rewrite Hb.
  - cbn in H. apply andb_true_iff in H as [H1 H2]. rewrite H1. now rewrite (IH b H2 Hb).
Qed.

Lemma span_none : forall p c b, p c = false -> span p (c :: b) = ([], c :: b).
Proof. intros p c b H. cbn. now rewrite H. Qed.

(** ** Printable elements: what [print] is given. *)

Definition printed_name (n : ustr) : bool := negb (uempty n) && forallb any_name_char n.

Fixpoint printable (e : elem) : bool :=
  match e with
  | Elem t a x ks => printed_name t && forallb (fun kv : ustr * ustr => printed_name (fst kv) && forallb xml_char (snd kv)) a &&
                     distinct (map fst a) && text_ok x && forallb printable ks
  end.

Lemma esc_text_other : forall c, c =? 38 = false -> c =? 60 = false -> c =? 62 = false -> esc_text c = [c].
Proof. intros c A B D. unfold esc_text. now rewrite A, B, D. Qed.

Ltac eqb_case c k := let E := fresh "E" in destruct (c =? k) eqn:E; [apply N.eqb_eq in E; subst c|].

Lemma unescape_text : forall x, forallb (fun c => xml_char c && negb (c =? 13)) x = true ->
  unescape (fun c => c) None (flat_map esc_text x) = Some x.
Proof.
  induction x as [|c x IH]; intro H; [reflexivity|]. cbn [forallb] in H. apply andb_true_iff in H as [H1 H2].
  apply andb_true_iff in H1 as [H1 _]. specialize (IH H2). cbn [flat_map].
  eqb_case c 38; [cbn; now rewrite IH|]. eqb_case c 60; [cbn; now rewrite IH|]. eqb_case c 62; [cbn; now rewrite IH|].
  rewrite esc_text_other by assumption. cbn [app unescape]. rewrite E, E0, H1. cbn [orb negb]. now rewrite IH.
Qed.

Lemma unescape_attr : forall x, forallb xml_char x = true -> unescape attr_norm None (flat_map esc_attr x) = Some x.
Proof.
  induction x as [|c x IH]; intro H; [reflexivity|]. cbn [forallb] in H. apply andb_true_iff in H as [H1 H2].
  specialize (IH H2). cbn [flat_map]. unfold esc_attr at 1.
  eqb_case c 34; [cbn; now rewrite IH|]. eqb_case c 13; [cbn; now rewrite IH|].
  eqb_case c 10; [cbn; now rewrite IH|]. eqb_case c 9; [cbn; now rewrite IH|].
  eqb_case c 38; [cbn; now rewrite IH|]. eqb_case c 60; [cbn; now rewrite IH|]. eqb_case c 62; [cbn; now rewrite IH|].
  rewrite esc_text_other by assumption. cbn [app unescape]. rewrite E3, E4, H1. cbn [orb negb]. rewrite IH. cbn [option_map]. unfold attr_norm, xml_space.
  eqb_case c 32; [reflexivity|]. now rewrite E0, E1, E2.
Qed.

Lemma forallb_flat_map : forall {A B} (p : B -> bool) (f : A -> list B) l, (forall x, In x l -> forallb p (f x) = true) -> forallb p (flat_map f l) = true.
Proof.
  induction l as [|x l IH]; intro H; [reflexivity|]. cbn. rewrite forallb_app, H by now left. apply IH. intros y Hy. apply H. now right.
Qed.

Lemma esc_text_no60 : forall x, forallb (fun c => negb (c =? 60)) (flat_map esc_text x) = true.
Proof.
  intro x. apply forallb_flat_map. intros c _. unfold esc_text.
  destruct (c =? 38); [reflexivity|]. destruct (c =? 60) eqn:E; [reflexivity|]. destruct (c =? 62); [reflexivity|]. cbn. now rewrite E.
Qed.

Lemma esc_text_no62 : forall x, forallb (fun c => negb (c =? 62)) (flat_map esc_text x) = true.
Proof.
  intro x. apply forallb_flat_map. intros c _. unfold esc_text.
  destruct (c =? 38); [reflexivity|]. destruct (c =? 60); [reflexivity|]. destruct (c =? 62) eqn:E; [reflexivity|]. cbn. now rewrite E.
Qed.

Lemma no_cdata_end : forall s, forallb (fun c => negb (c =? 62)) s = true -> cdata_end s = false.
Proof.
  assert (A : forall p s r, after p s = Some r -> s = p ++ r).
  { induction p as [|c p IH]; intros s r H; cbn in H; [now injection H as ->|].
    destruct s as [|d s]; [discriminate|]. destruct (c =? d) eqn:E; [|discriminate]. apply N.eqb_eq in E. subst d. cbn. f_equal. now apply IH. }
  induction s as [|c s IH]; intro H; [reflexivity|]. cbn [cdata_end]. destruct (after _ _) as [r|] eqn:E.
  - apply A in E. rewrite E in H. cbn in H. discriminate H.
  - apply IH. cbn [forallb] in H. now apply andb_true_iff in H as [_ H].
Qed.

Lemma esc_attr_no34 : forall x, forallb (fun c => negb (c =? 34)) (flat_map esc_attr x) = true.
Proof.
  intro x. apply forallb_flat_map. intros c _. unfold esc_attr, esc_text.
  destruct (c =? 34) eqn:E; [reflexivity|]. repeat (match goal with |- context [if ?b then _ else _] => destruct b end; [reflexivity|]).
  cbn. now rewrite E.
Qed.

Lemma name_char_not : forall c, any_name_char c = true ->
  xml_space c = false /\ c <> 47 /\ c <> 62 /\ c <> 61 /\ c <> 60.
Proof.
  intros c H. assert (G : forall k, any_name_char k = false -> c <> k) by (intros k E ->; rewrite E in H; discriminate H).
  unfold xml_space. assert (forall k, any_name_char k = false -> (c =? k) = false) as F by (intros k E; apply N.eqb_neq; now apply G).
  rewrite !F by reflexivity. repeat split; apply G; reflexivity.
Qed.

Lemma span_name : forall n c b, forallb any_name_char n = true -> any_name_char c = false -> span any_name_char (n ++ c :: b) = (n, c :: b).
Proof. intros. apply span_app; assumption. Qed.

Lemma skip_space_not : forall c s, xml_space c = false -> skip_space (c :: s) = c :: s.
Proof. intros c s H. unfold skip_space. now rewrite span_none. Qed.

Lemma skip_space_one : forall c s, xml_space c = false -> skip_space (32 :: c :: s) = c :: s.
Proof. intros c s H. unfold skip_space. change (32 :: c :: s) with ([32] ++ c :: s). now rewrite (span_app xml_space [32] (c :: s)). Qed.

Lemma parse_value_ok : forall v r, forallb xml_char v = true ->
  parse_value (34 :: flat_map esc_attr v ++ 34 :: r) = Some (v, r).
Proof.
  intros v r H. unfold parse_value. cbn [N.eqb Pos.eqb orb]. rewrite (span_app (fun c => negb (c =? 34)) (flat_map esc_attr v) (34 :: r)); [|apply esc_attr_no34|reflexivity].
  now rewrite unescape_attr.
Qed.

Lemma print_attr_app : forall n v r, print_attr (n, v) ++ r = 32 :: n ++ 61 :: 34 :: flat_map esc_attr v ++ 34 :: r.
Proof.
  intros n v r. unfold print_attr. cbn [fst snd]. change (u " ") with [32]. change (u "=") with [61].
  repeat (rewrite <- app_assoc; cbn [app]). cbn [app]. repeat rewrite <- app_assoc. reflexivity.
Qed.

Lemma parse_attr_ok : forall n v r, printed_name n = true -> forallb xml_char v = true ->
  parse_attr (n ++ 61 :: 34 :: flat_map esc_attr v ++ 34 :: r) = Some (n, v, r).
Proof.
  intros n v r H V. apply andb_true_iff in H as [N1 N2]. unfold parse_attr. rewrite span_name by (assumption || reflexivity).
  destruct n as [|c n]; [discriminate|]. rewrite (skip_space_not 61) by reflexivity.
  change (after (u "=") (61 :: 34 :: flat_map esc_attr v ++ 34 :: r)) with (Some (34 :: flat_map esc_attr v ++ 34 :: r)).
  cbv iota beta. rewrite (skip_space_not 34) by reflexivity. now rewrite parse_value_ok.
Qed.

Lemma parse_attrs_end : forall f c r, (c =? 47) || (c =? 62) = true -> parse_attrs (S f) (c :: r) = Some ([], c :: r).
Proof.
  intros f c r H. cbn [parse_attrs]. rewrite skip_space_not.
  - now rewrite H.
  - apply orb_true_iff in H as [H|H]; apply N.eqb_eq in H; subst c; reflexivity.
Qed.

Lemma parse_attrs_space_end : forall f r, parse_attrs (S f) (32 :: 47 :: r) = Some ([], 47 :: r).
Proof. intros f r. cbn [parse_attrs]. now rewrite skip_space_one. Qed.

Lemma printed_first : forall n, printed_name n = true -> exists c n', n = c :: n' /\ any_name_char c = true.
Proof.
  intros n H. apply andb_true_iff in H as [N1 N2]. destruct n as [|c n]; [discriminate|]. exists c, n. split; [reflexivity|].
  cbn [forallb] in N2. now apply andb_true_iff in N2 as [N2 _].
Qed.

Lemma parse_attrs_ok : forall (a : list (ustr * ustr)) f s r, forallb (fun kv : ustr * ustr => printed_name (fst kv) && forallb xml_char (snd kv)) a = true ->
  parse_attrs f s = Some ([], r) -> parse_attrs (length a + f) (flat_map print_attr a ++ s) = Some (a, r).
Proof.
  induction a as [|[n v] a IH]; intros f s r H E; [exact E|]. cbn [forallb fst snd] in H. apply andb_true_iff in H as [H1 H2].
  apply andb_true_iff in H1 as [N V]. cbn [flat_map length Nat.add]. rewrite <- app_assoc, print_attr_app.
  specialize (IH f s r H2 E). destruct (printed_first n N) as [c [n' [-> Hc]]]. destruct (name_char_not c Hc) as [S1 [S2 [S3 [S4 S5]]]].
  cbn [parse_attrs]. cbn [app]. rewrite skip_space_one by assumption.
  replace (c =? 47) with false by (symmetry; now apply N.eqb_neq). replace (c =? 62) with false by (symmetry; now apply N.eqb_neq). cbn [orb].
  change (xml_space 32) with true. cbv iota.
  rewrite app_comm_cons. rewrite parse_attr_ok by assumption. now rewrite IH.
Qed.

Lemma parse_attrs_more : forall f g s r, (f <= g)%nat -> parse_attrs f s = Some r -> parse_attrs g s = Some r.
Proof.
  induction f as [|f IH]; intros g s r L H; [discriminate|]. destruct g as [|g]; [inversion L|]. cbn [parse_attrs] in H |- *.
  destruct (skip_space s) as [|c t]; [discriminate|]. destruct (_ || _); [exact H|]. destruct s as [|d s]; [discriminate|].
  destruct (xml_space d); [|discriminate]. destruct (parse_attr _) as [[[n v] r']|]; [|discriminate].
  destruct (parse_attrs f r') as [[l r'']|] eqn:E; [|discriminate]. rewrite (IH g _ _ ltac:(lia) E). exact H.
Qed.

Lemma length_attrs : forall a, (length a <= length (flat_map print_attr a))%nat.
Proof. induction a as [|[n v] a IH]; [apply le_n|]. cbn [flat_map]. rewrite app_length. unfold print_attr at 1. rewrite app_length. change (length (u " ")) with 1%nat. cbn [length] in *. lia. Qed.

(** The attributes of a printed tag. *)
Lemma parse_attrs_printed : forall (a : list (ustr * ustr)) s r, forallb (fun kv : ustr * ustr => printed_name (fst kv) && forallb xml_char (snd kv)) a = true ->
  parse_attrs 1 s = Some ([], r) -> parse_attrs (length (flat_map print_attr a ++ s)) (flat_map print_attr a ++ s) = Some (a, r).
Proof.
  intros a s r H E. eapply parse_attrs_more; [|apply parse_attrs_ok; eassumption]. rewrite app_length. pose proof (length_attrs a).
  destruct s as [|c s]; [discriminate|]. cbn [length]. lia.
Qed.

(** ** Elements *)

Definition content (x : ustr) (ks : list elem) : ustr := flat_map esc_text x ++ flat_map print ks ++ u "</".

Definition text_of (x : option ustr) : ustr := match x with Some s => s | None => [] end.

Lemma print_shape : forall t a x ks r,
  print (Elem t a x ks) ++ r = 60 :: t ++ flat_map print_attr a ++
    (if uempty (text_of x) && match ks with [] => true | _ => false end then 32 :: 47 :: 62 :: r
     else 62 :: content (text_of x) ks ++ t ++ 62 :: r).
Proof.
  intros t a x ks r. cbn [print]. unfold content, text_of. change (u "<") with [60]. change (u ">") with [62].
  destruct (match x with Some s => s | None => [] end) as [|c y]; destruct ks as [|k ks]; cbn [uempty andb];
    repeat (rewrite <- app_assoc; cbn [app]); reflexivity.
Qed.

Lemma print_first : forall e r, printable e = true -> exists c s, print e ++ r = 60 :: c :: s /\ any_name_char c = true.
Proof.
  intros [t a x ks] r H. cbn [printable] in H. do 4 (apply andb_true_iff in H as [H _]).
  destruct (printed_first t H) as [c [n [-> Hc]]]. rewrite print_shape. exists c. eexists. split; [reflexivity|exact Hc].
Qed.

(** What begins with a name is no end tag, section, comment or instruction. *)
Lemma name_first : forall c s, any_name_char c = true ->
  after (u "</") (60 :: c :: s) = None /\ after (u "<![CDATA[") (60 :: c :: s) = None /\ parse_other (60 :: c :: s) = None.
Proof.
  intros c s H. assert (G : forall k, any_name_char k = false -> (k =? c) = false) by (intros k E; apply N.eqb_neq; intros ->; congruence).
  unfold parse_other. change (u "</") with [60; 47]. change (u "<![CDATA[") with (60 :: 33 :: u "[CDATA["). change (u "<!--") with (60 :: 33 :: u "--"). change (u "<?") with [60; 63].
  cbn [after]. rewrite !N.eqb_refl, !G by reflexivity. repeat split; reflexivity.
Qed.

Lemma parse_printed : forall lib e, printable e = true ->
  forall f r, (length (print e) <= f)%nat -> parse_elem lib f (print e ++ r) = Some (tidy e, r).
Proof.
  intro lib. induction e as [t a x ks IH] using elem_ind'. intros P f r L.
  assert (C : forall ks, Forall (fun e => printable e = true -> forall f r, (length (print e) <= f)%nat -> parse_elem lib f (print e ++ r) = Some (tidy e, r)) ks ->
    forallb printable ks = true -> forall y f r, forallb (fun c => xml_char c && negb (c =? 13)) y = true ->
    (length (content y ks) <= f)%nat -> parse_content lib f (content y ks ++ r) = Some (y, map tidy ks, r)).
  { clear. induction ks as [|k ks IHk]; intros F P y f r Y L; (destruct f as [|f]; [unfold content in L; rewrite !app_length in L; cbn in L; lia|]).
    - cbn [parse_content]. unfold content. cbn [flat_map app]. rewrite <- app_assoc. change (u "</" ++ r) with (60 :: 47 :: r).
      rewrite span_app; [|apply esc_text_no60|reflexivity]. rewrite no_cdata_end by apply esc_text_no62. rewrite unescape_text by assumption. reflexivity.
    - cbn [forallb] in P. apply andb_true_iff in P as [P1 P2]. inversion F as [|? ? F1 F2]; subst.
      cbn [parse_content]. unfold content. cbn [flat_map]. rewrite <- !app_assoc.
      change (flat_map print ks ++ u "</" ++ r) with (flat_map print ks ++ u "</" ++ r).
      replace (flat_map print ks ++ u "</" ++ r) with (content [] ks ++ r) by (unfold content; cbn [flat_map app]; now rewrite <- app_assoc).
      destruct (print_first k (content [] ks ++ r) P1) as [c [s [E N]]].
      rewrite E. rewrite span_app; [|apply esc_text_no60|reflexivity]. rewrite no_cdata_end by apply esc_text_no62. rewrite unescape_text by assumption.
      destruct (name_first c s N) as (-> & -> & ->). rewrite <- E.
      assert (L' : (length (print k) + length (content [] ks) <= S f)%nat).
      { unfold content in *. cbn [flat_map] in *. rewrite !app_length in *. cbn [length] in *. lia. }
      assert (1 <= length (print k))%nat by (destruct k; cbn; lia).
      assert (2 <= length (content [] ks))%nat by (unfold content; rewrite !app_length; cbn; lia).
      rewrite F1 by (assumption || lia). rewrite IHk by (assumption || reflexivity || lia). reflexivity. }
  cbn [printable] in P. apply andb_true_iff in P as [P P5]. apply andb_true_iff in P as [P P4]. apply andb_true_iff in P as [P P3]. apply andb_true_iff in P as [P1 P2].
  specialize (C ks IH P5).
  destruct f as [|f]; [cbn in L; lia|]. rewrite print_shape. cbn [parse_elem]. change (after (u "<") (60 :: ?s)) with (Some s).
  pose proof P1 as P1'. apply andb_true_iff in P1' as [T1 T2].
  assert (B : forall c s, any_name_char c = false -> span any_name_char (t ++ flat_map print_attr a ++ c :: s) = (t, flat_map print_attr a ++ c :: s)).
  { intros c s Hs. apply span_app; [assumption|]. destruct a as [|[n v] a]; [exact Hs|reflexivity]. }
  destruct (uempty (text_of x) && match ks with [] => true | _ => false end) eqn:Q.
  - change (after (u "<") (60 :: t ++ flat_map print_attr a ++ 32 :: 47 :: 62 :: r)) with (Some (t ++ flat_map print_attr a ++ 32 :: 47 :: 62 :: r)).
    cbv iota. rewrite B by reflexivity. rewrite (parse_attrs_printed a (32 :: 47 :: 62 :: r) (47 :: 62 :: r) P2 (parse_attrs_space_end 0 (62 :: r))).
    destruct t as [|c t]; [discriminate|]. rewrite P3. change (after (u "/>") (47 :: 62 :: r)) with (Some r). cbv iota.
    apply andb_true_iff in Q as [Q1 Q2]. destruct ks; [|discriminate]. cbn [tidy map]. destruct x as [[|y x]|]; [reflexivity|discriminate|reflexivity].
  - change (after (u "<") (60 :: t ++ flat_map print_attr a ++ 62 :: content (text_of x) ks ++ t ++ 62 :: r))
      with (Some (t ++ flat_map print_attr a ++ 62 :: content (text_of x) ks ++ t ++ 62 :: r)).
    cbv iota. rewrite B by reflexivity.
    rewrite (parse_attrs_printed a (62 :: content (text_of x) ks ++ t ++ 62 :: r) _ P2 (parse_attrs_end 0 62 _ eq_refl)).
    destruct t as [|c t]; [discriminate|]. rewrite P3. change (after (u "/>") (62 :: ?s)) with (@None ustr).
    change (after (u "/>") (62 :: content (text_of x) ks ++ (c :: t) ++ 62 :: r)) with (@None ustr).
    change (after (u ">") (62 :: content (text_of x) ks ++ (c :: t) ++ 62 :: r)) with (Some (content (text_of x) ks ++ (c :: t) ++ 62 :: r)).
    cbv iota. rewrite C.
    + unfold parse_end. rewrite span_name by (assumption || reflexivity). rewrite skip_space_not by reflexivity.
      change (after (u ">") (62 :: r)) with (Some r). cbv iota. rewrite ueqb_refl. cbn [tidy map]. destruct x as [[|y x]|]; reflexivity.
    + destruct x; [exact P4|reflexivity].
    + assert (E := print_shape (c :: t) a x ks []). rewrite Q, app_nil_r in E. rewrite E in L. cbn [length] in L. rewrite !app_length in L. cbn [length] in L.
      rewrite !app_length in L. cbn [length] in L. lia.
Qed.
