(** * Documents are parsed as what their syntax trees stand for. *)
From Coq Require Import String List NArith Bool Lia Arith.
From Verif Require Import Ustr UstrProofs Elem Xml XmlSpec XmlMarkup XmlProofs.
Import ListNotations.
Local Open Scope N_scope.

Fixpoint node_ind' (P : node -> Prop) (HD : forall l, P (Data l)) (HC : forall s, P (CData s)) (HO : forall o, P (Other o))
  (HE : forall n a g e ks g', Forall P ks -> P (Element n a g e ks g')) (x : node) : P x :=
  match x with
  | Data l => HD l
  | CData s => HC s
  | Other o => HO o
  | Element n a g e ks g' => HE n a g e ks g' ((fix go l : Forall P l := match l with [] => Forall_nil P | y :: l' => Forall_cons y (node_ind' P HD HC HO HE y) (go l') end) ks)
  end.

(** ** References *)

Definition plain (c : N) : bool := negb (c =? 59) && negb (c =? 60) && negb (c =? 34) && negb (c =? 39).

Lemma hex_plain c d : hex_value c = Some d -> plain c = true.
Proof.
  intro H. unfold plain. rewrite !andb_true_iff, !negb_true_iff, !N.eqb_neq. repeat split; intros ->; discriminate H.
Qed.
Lemma numeral_plain base s : forall acc c, numeral base acc s = Some c -> forallb plain s = true.
Proof.
  induction s as [|x s IH]; intros acc c H; [reflexivity|]. cbn [numeral] in H. destruct (hex_value x) as [d|] eqn:E; [|discriminate].
  destruct (d <? base); [|discriminate]. cbn [forallb]. rewrite (hex_plain x d E). eapply IH. exact H.
Qed.
Lemma after_app p s r : after p s = Some r -> s = p ++ r.
Proof.
  revert s. induction p as [|c p IH]; intros s H; cbn in H; [now injection H as ->|].
  destruct s as [|d s]; [discriminate|]. destruct (c =? d) eqn:E; [|discriminate]. apply N.eqb_eq in E. subst d. cbn. f_equal. now apply IH.
Qed.
Lemma app_after p r : after p (p ++ r) = Some r.
Proof. induction p as [|c p IH]; [reflexivity|]. cbn. now rewrite N.eqb_refl. Qed.
Lemma char_ref_plain base s c : char_ref base s = Some c -> forallb plain s = true.
Proof.
  unfold char_ref. destruct s as [|x s]; [discriminate|]. destruct (numeral base 0 (x :: s)) eqn:E; [|discriminate]. intros _. eapply numeral_plain. exact E.
Qed.
Lemma reference_plain b c : reference b = Some c -> forallb plain b = true.
Proof.
  unfold reference. repeat match goal with |- (if ueqb b ?s then _ else _) = _ -> _ => destruct (ueqb b s) eqn:?H; [apply ueqb_eq in H; subst b; intros _; reflexivity|clear H] end.
  destruct (after (u "#x") b) as [d|] eqn:E.
  - intro H. apply char_ref_plain in H. apply after_app in E. subst b. rewrite forallb_app, H. reflexivity.
  - destruct (after (u "#") b) as [d|] eqn:E'; [|discriminate]. intro H. apply char_ref_plain in H. apply after_app in E'. subst b. rewrite forallb_app, H. reflexivity.
Qed.

Lemma unescape_body norm b : forall acc s, forallb plain b = true ->
  unescape norm (Some acc) (b ++ 59 :: s) = match reference (rev acc ++ b) with Some x => option_map (cons x) (unescape norm None s) | None => None end.
Proof.
  induction b as [|c b IH]; intros acc s H; [now rewrite app_nil_r|]. cbn [forallb] in H. apply andb_prop in H as [H1 H2]. cbn [app unescape].
  unfold plain in H1. destruct (c =? 59); [discriminate|]. rewrite IH by exact H2. cbn [rev]. now rewrite <- app_assoc.
Qed.

Lemma unescape_spelling norm l : forallb piece_ok l = true -> unescape norm None (spelling l) = Some (map (piece_char norm) l).
Proof.
  induction l as [|p l IH]; intro H; [reflexivity|]. cbn [forallb] in H. apply andb_prop in H as [H1 H2]. specialize (IH H2). unfold spelling in *. cbn [flat_map map].
  destruct p as [c|b]; cbn [piece_text piece_ok piece_char] in *.
  - rewrite !andb_true_iff, !negb_true_iff in H1. destruct H1 as [[A B] C]. cbn [app unescape]. rewrite B, C, A. cbn [orb negb]. now rewrite IH.
  - destruct (reference b) as [c|] eqn:E; [|discriminate]. change (u "&") with [38]. change (u ";") with [59]. cbn [app unescape N.eqb Pos.eqb]. rewrite <- app_assoc. cbn [app].
    rewrite unescape_body by (eapply reference_plain; exact E). cbn [rev app]. now rewrite E, IH.
Qed.

(** [q] does not occur in the spelling. *)
Lemma spelling_free q l : plain q = false -> (q =? 38) = false -> (q =? 59) = false -> forallb (fun p => piece_ok p && match p with Lit c => negb (c =? q) | Ref _ => true end) l = true ->
  forallb (fun c => negb (c =? q)) (spelling l) = true.
Proof.
  intros Q A B H. apply forallb_flat_map. intros p Hp. rewrite forallb_forall in H. specialize (H p Hp). apply andb_prop in H as [H1 H2].
  destruct p as [c|b]; cbn [piece_text piece_ok forallb] in *; [now rewrite H2|]. destruct (reference b) as [c|] eqn:E; [|discriminate]. apply reference_plain in E.
  change (u "&") with [38]. change (u ";") with [59]. rewrite !forallb_app. cbn [forallb]. rewrite N.eqb_sym, A. cbn [negb andb].
  assert (F : forall x, plain x = true -> negb (x =? q) = true) by (intros x Hx; apply negb_true_iff, N.eqb_neq; intros ->; congruence).
  rewrite andb_true_r. apply andb_true_intro. split.
  - apply forallb_forall. intros x Hx. rewrite forallb_forall in E. auto.
  - now rewrite N.eqb_sym, B.
Qed.
Lemma spelling_no60 l : forallb piece_ok l = true -> forallb (fun c => negb (c =? 60)) (spelling l) = true.
Proof.
  intro H. apply spelling_free; try reflexivity. rewrite forallb_forall in *. intros p Hp. specialize (H p Hp). rewrite H. destruct p; [|reflexivity]. cbn [piece_ok] in H. now apply andb_prop in H as [_ ->].
Qed.
Lemma spelling_app a b : spelling (a ++ b) = spelling a ++ spelling b.
Proof. apply flat_map_app. Qed.

(** ** Tags *)

Lemma skip_spaces g c s : spaces g = true -> xml_space c = false -> skip_space (g ++ c :: s) = c :: s.
Proof. intros H C. unfold skip_space. rewrite span_app by assumption. reflexivity. Qed.
Lemma space_not_name c : xml_space c = true -> any_name_char c = false.
Proof.
  intro H. destruct (any_name_char c) eqn:E; [|reflexivity]. apply name_char_not in E as [E _]. congruence.
Qed.
(** A character after white space, if there is any. *)
Lemma gap_first g c s (p : N -> bool) : spaces g = true -> (forall x, xml_space x = true -> p x = false) -> p c = false ->
  match g ++ c :: s with [] => True | x :: _ => p x = false end.
Proof. intros G H C. destruct g as [|x g]; [exact C|]. cbn [app]. cbn [spaces forallb] in G. apply H. now apply andb_prop in G as [G _]. Qed.

Lemma quote_cases q : quote_ok q = true -> q = 34 \/ q = 39.
Proof. unfold quote_ok. intro H. apply orb_prop in H as [H|H]; apply N.eqb_eq in H; auto. Qed.

Lemma attr_parsed g n g1 g2 q v r : attribute_ok (Attribute g n g1 g2 q v) = true ->
  exists c n', n = c :: n' /\ any_name_char c = true /\ parse_attr (n ++ g1 ++ u "=" ++ g2 ++ [q] ++ spelling v ++ [q] ++ r) = Some (n, map (piece_char attr_norm) v, r).
Proof.
  cbn [attribute_ok]. rewrite !andb_true_iff. intros [[[[[[[_ _] N1] N2] G1] G2] Q] V].
  destruct n as [|c n]; [discriminate|]. exists c, n. split; [reflexivity|]. split; [cbn [forallb] in N2; now apply andb_prop in N2 as [N2 _]|].
  unfold parse_attr. change (u "=") with [61]. cbn [app]. rewrite app_comm_cons. rewrite span_app; [|exact N2|apply gap_first; [exact G1|exact space_not_name|reflexivity]].
  rewrite skip_spaces by (exact G1 || reflexivity).
  change (after [61] (61 :: g2 ++ q :: spelling v ++ q :: r)) with (Some (g2 ++ q :: spelling v ++ q :: r)). cbv iota.
  apply quote_cases in Q. assert (S : xml_space q = false) by (destruct Q; subst q; reflexivity). rewrite skip_spaces by assumption.
  unfold parse_value. replace ((q =? 34) || (q =? 39)) with true by (destruct Q; subst q; reflexivity).
  rewrite span_app; [|apply spelling_free; [destruct Q; subst q; reflexivity..|exact V]|now rewrite N.eqb_refl].
  rewrite unescape_spelling; [reflexivity|]. rewrite forallb_forall in *. intros p Hp. specialize (V p Hp). now apply andb_prop in V as [V _].
Qed.

Lemma attribute_app a r : attribute_text a ++ r = match a with Attribute g n g1 g2 q v => g ++ n ++ g1 ++ u "=" ++ g2 ++ [q] ++ spelling v ++ [q] ++ r end.
Proof. destruct a. cbn [attribute_text]. repeat (rewrite <- app_assoc; cbn [app]). reflexivity. Qed.

Lemma attrs_parsed : forall a f g c r, forallb attribute_ok a = true -> spaces g = true -> (c =? 47) || (c =? 62) = true ->
  parse_attrs (length a + S f) (flat_map attribute_text a ++ g ++ c :: r) = Some (map attribute_meant a, c :: r).
Proof.
  induction a as [|x a IH]; intros f g c r A G C.
  - cbn [flat_map length Nat.add app parse_attrs map]. rewrite skip_spaces; [now rewrite C|exact G|]. apply orb_prop in C as [C|C]; apply N.eqb_eq in C; subst c; reflexivity.
  - cbn [forallb] in A. apply andb_prop in A as [A1 A2]. cbn [flat_map length Nat.add map]. rewrite <- app_assoc, attribute_app. specialize (IH f g c r A2 G C).
    destruct x as [g0 n g1 g2 q v]. destruct (attr_parsed g0 n g1 g2 q v (flat_map attribute_text a ++ g ++ c :: r) A1) as (d & n' & -> & D & E).
    cbn [attribute_ok] in A1. rewrite !andb_true_iff in A1. destruct A1 as [[[[[[[A1 A3] _] _] _] _] _] _].
    destruct (name_char_not d D) as (S1 & S2 & S3 & _). cbn [parse_attrs]. cbn [app] in E |- *. rewrite skip_spaces by assumption.
    replace (d =? 47) with false by (symmetry; now apply N.eqb_neq). replace (d =? 62) with false by (symmetry; now apply N.eqb_neq). cbn [orb].
    destruct g0 as [|s0 g0]; [discriminate|]. cbn [app]. cbn [spaces forallb] in A3. apply andb_prop in A3 as [-> _]. cbn [attribute_meant]. rewrite E, IH. reflexivity.
Qed.
Lemma attribute_length a : (length a <= length (flat_map attribute_text a))%nat.
Proof. induction a as [|[g n g1 g2 q v] a IH]; [apply le_n|]. cbn [flat_map]. rewrite app_length. cbn [attribute_text]. rewrite !app_length. cbn [length]. lia. Qed.
Lemma attrs_parsed' a g c r : forallb attribute_ok a = true -> spaces g = true -> (c =? 47) || (c =? 62) = true ->
  parse_attrs (length (flat_map attribute_text a ++ g ++ c :: r)) (flat_map attribute_text a ++ g ++ c :: r) = Some (map attribute_meant a, c :: r).
Proof.
  intros A G C. eapply parse_attrs_more; [|apply (attrs_parsed a 0); assumption]. rewrite !app_length. pose proof (attribute_length a). cbn [length]. lia.
Qed.

(** ** Sections, comments, processing instructions *)

Lemma until_comment t r : free_of (u "--") (t ++ u "-") = true -> until (u "--") (t ++ u "--" ++ r) = Some (t, r).
Proof.
  change (u "--") with [45; 45]. change (u "-") with [45]. change ([45; 45] ++ r) with (45 :: 45 :: r). induction t as [|c t IH]; intro H; [cbn; reflexivity|]. cbn [app free_of] in H.
  destruct (after [45; 45] (c :: t ++ [45])) eqn:E; [discriminate|]. cbn [app until].
  assert (F : after [45; 45] (c :: t ++ 45 :: 45 :: r) = None).
  { cbn [after] in E |- *. destruct (45 =? c); [|reflexivity]. destruct t as [|d t]; cbn [app] in E |- *; destruct (45 =? _); (discriminate || reflexivity). }
  rewrite F. now rewrite IH.
Qed.
Lemma until_pi t r : free_of (u "?>") t = true -> until (u "?>") (t ++ u "?>" ++ r) = Some (t, r).
Proof.
  change (u "?>") with [63; 62]. change ([63; 62] ++ r) with (63 :: 62 :: r). induction t as [|c t IH]; intro H; [reflexivity|]. cbn [free_of] in H.
  destruct (after [63; 62] (c :: t)) eqn:E; [discriminate|]. cbn [app until].
  assert (F : after [63; 62] (c :: t ++ 63 :: 62 :: r) = None).
  { cbn [after] in E |- *. destruct (63 =? c); [|reflexivity]. destruct t as [|d t]; [reflexivity|]. cbn [app]. destruct (62 =? d); (discriminate || reflexivity). }
  rewrite F. now rewrite IH.
Qed.
Lemma until_cdata t r : free_of (u "]]>") t = true -> until (u "]]>") (t ++ u "]]>" ++ r) = Some (t, r).
Proof.
  change (u "]]>") with [93; 93; 62]. change ([93; 93; 62] ++ r) with (93 :: 93 :: 62 :: r). induction t as [|c t IH]; intro H; [reflexivity|]. cbn [free_of] in H.
  destruct (after [93; 93; 62] (c :: t)) eqn:E; [discriminate|]. cbn [app until].
  assert (F : after [93; 93; 62] (c :: t ++ 93 :: 93 :: 62 :: r) = None).
  { cbn [after] in E |- *. destruct (93 =? c); [|reflexivity]. destruct t as [|d t]; [reflexivity|]. cbn [app]. destruct (93 =? d); [|reflexivity].
    destruct t as [|x t]; [reflexivity|]. cbn [app]. destruct (62 =? x); (discriminate || reflexivity). }
  rewrite F. now rewrite IH.
Qed.

Lemma other_parsed o r : other_ok o = true -> parse_other (other_text o ++ r) = Some r.
Proof.
  destruct o as [t|n t]; cbn [other_ok other_text]; intro H; unfold parse_other.
  - apply andb_prop in H as [H1 H2]. rewrite <- !app_assoc. rewrite app_after. unfold parse_comment.
    change (u "-->" ++ r) with (u "--" ++ 62 :: r). rewrite until_comment by exact H2. rewrite H1. change (u ">") with [62]. cbn [after N.eqb Pos.eqb]. reflexivity.
  - rewrite !andb_true_iff in H. destruct H as [[[H1 H2] H3] H4]. rewrite <- !app_assoc. rewrite app_after.
    change (after (u "<!--") (u "<?" ++ n ++ t ++ u "?>" ++ r)) with (@None ustr). cbv iota. unfold parse_pi.
    assert (N : forallb any_name_char n = true).
    { unfold pi_target in H1. apply andb_prop in H1 as [H1 _]. destruct n as [|c n]; [reflexivity|]. cbn [ncname] in H1. apply andb_prop in H1 as [A B].
      cbn [forallb]. unfold any_name_char at 1, name_char at 1. rewrite A. cbn [orb andb]. rewrite forallb_forall in *. intros x Hx. unfold any_name_char. now rewrite (B x Hx). }
    rewrite span_app; [|exact N|destruct t as [|c t]; [reflexivity|now apply space_not_name]]. rewrite H1, until_pi by exact H3. now rewrite H2, H4.
Qed.

(** ** Elements *)

Lemma element_shape n a g e ks g' r : node_text (Element n a g e ks g') ++ r =
  60 :: n ++ flat_map attribute_text a ++ g ++ (if e then 47 :: 62 :: r else 62 :: flat_map node_text ks ++ u "</" ++ n ++ g' ++ 62 :: r).
Proof. cbn [node_text]. change (u "<") with [60]. change (u ">") with [62]. destruct e; cbn [app]; repeat (rewrite <- app_assoc; cbn [app]); reflexivity. Qed.

Lemma node_parsed lib x : match x with
  | Element _ _ _ _ _ _ => node_ok x = true -> forall f r, (length (node_text x) <= f)%nat -> exists e, meant lib x = [e] /\ parse_elem lib f (node_text x ++ r) = Some (e, r)
  | _ => True
  end.
Proof.
  induction x as [l|s|o|n a g e ks g' IH] using node_ind'; try exact I. intros K f r L.
  assert (C : forall l, Forall (fun x => match x with
      | Element _ _ _ _ _ _ => node_ok x = true -> forall f r, (length (node_text x) <= f)%nat -> exists e, meant lib x = [e] /\ parse_elem lib f (node_text x ++ r) = Some (e, r)
      | _ => True end) l -> forallb node_ok l = true -> forall acc f r, forallb piece_ok acc = true -> data_ok (spelling acc) l = true ->
    (length (spelling acc ++ flat_map node_text l ++ u "</") <= f)%nat ->
    parse_content lib f (spelling acc ++ flat_map node_text l ++ u "</" ++ r) = Some (spelled acc ++ leading lib l, flat_map (meant lib) l, r)).
  { clear. induction l as [|x l IHl]; intros F K acc f r A D L.
    - destruct f as [|f]; [rewrite !app_length in L; cbn in L; lia|]. cbn [parse_content flat_map app leading data_ok] in *. change (u "</" ++ r) with (60 :: 47 :: r).
      rewrite span_app; [|now apply spelling_no60|reflexivity]. apply negb_true_iff in D. rewrite D, unescape_spelling by exact A. now rewrite app_nil_r.
    - inversion F as [|? ? F1 F2]; subst. cbn [forallb] in K. apply andb_prop in K as [K1 K2]. specialize (IHl F2 K2).
      destruct x as [p|s|o|n a g e ks g'].
      + cbn [flat_map node_text leading meant data_ok] in *. cbn [app].
        specialize (IHl (acc ++ p) f r). rewrite spelling_app in IHl. unfold spelled in *. rewrite map_app, <- !app_assoc in IHl. rewrite <- !app_assoc in *. apply IHl; [rewrite forallb_app, A; exact K1|exact D|exact L].
      + destruct f as [|f]; [rewrite !app_length in L; cbn in L; lia|]. cbn [flat_map leading meant data_ok] in *. cbn [app]. apply andb_prop in D as [D1 D2]. apply negb_true_iff in D1.
        cbn [node_ok] in K1. apply andb_prop in K1 as [K3 K4]. cbn [node_text] in *. rewrite <- !app_assoc in *.
        cbn [parse_content]. rewrite span_app; [|now apply spelling_no60|reflexivity]. rewrite D1, unescape_spelling by exact A. rewrite app_after.
        change (after (u "</") (u "<![CDATA[" ++ s ++ u "]]>" ++ flat_map node_text l ++ u "</" ++ r)) with (@None ustr). cbv iota.
        unfold parse_cdata. rewrite until_cdata by exact K4. rewrite K3. specialize (IHl [] f r eq_refl D2). cbn [spelling spelled flat_map map app] in IHl. rewrite IHl; [reflexivity|].
        rewrite !app_length in *. cbn [length u map list_ascii_of_string] in *. lia.
      + destruct f as [|f]; [rewrite !app_length in L; cbn in L; lia|]. cbn [flat_map leading meant data_ok] in *. cbn [app]. apply andb_prop in D as [D1 D2]. apply negb_true_iff in D1.
        cbn [node_ok] in K1. cbn [node_text] in *. rewrite <- !app_assoc in *.
        assert (O : exists c s, other_text o ++ flat_map node_text l ++ u "</" ++ r = 60 :: c :: s /\ (c = 33 /\ (exists s', s = 45 :: s') \/ c = 63)).
        { destruct o; cbn [other_text]; rewrite <- !app_assoc; do 2 eexists; (split; [reflexivity|]); [left; split; [reflexivity|eexists; reflexivity]|now right]. }
        destruct O as (c & s & O & Oc). assert (P := other_parsed o (flat_map node_text l ++ u "</" ++ r) K1). rewrite O in P |- *.
        cbn [parse_content]. rewrite span_app; [|now apply spelling_no60|reflexivity]. rewrite D1, unescape_spelling by exact A. rewrite P.
        replace (after (u "</") (60 :: c :: s)) with (@None ustr) by (destruct Oc as [[-> _]| ->]; reflexivity).
        replace (after (u "<![CDATA[") (60 :: c :: s)) with (@None ustr) by (destruct Oc as [[-> [s' ->]]| ->]; reflexivity).
        specialize (IHl [] f r eq_refl D2). cbn [spelling spelled flat_map map app] in IHl. rewrite IHl.
        * destruct lib; [reflexivity|now rewrite app_nil_r].
        * assert (1 <= length (other_text o))%nat by (destruct o; cbn [other_text]; rewrite app_length; cbn; lia). rewrite !app_length in *. lia.
      + destruct f as [|f]; [rewrite !app_length in L; cbn in L; lia|]. cbn [data_ok] in D. apply andb_prop in D as [D1 D2]. apply negb_true_iff in D1.
        cbn [flat_map]. rewrite <- !app_assoc. set (x := Element n a g e ks g') in *.
        assert (O : exists c s, node_text x ++ flat_map node_text l ++ u "</" ++ r = 60 :: c :: s /\ any_name_char c = true).
        { unfold x. rewrite element_shape. unfold x in K1. cbn [node_ok] in K1. rewrite !andb_true_iff in K1. destruct K1 as [[[[[[[[N1 N2] _] _] _] _] _] _] _].
          destruct n as [|c n]; [discriminate|]. do 2 eexists. split; [reflexivity|]. cbn [forallb] in N2. now apply andb_prop in N2 as [N2 _]. }
        destruct O as (c & s & O & Oc).
        assert (1 <= length (node_text x))%nat by (unfold x; cbn; lia). assert (2 <= length (flat_map node_text l ++ u "</"))%nat by (rewrite app_length; cbn; lia).
        cbn [flat_map] in L. rewrite <- app_assoc in L. rewrite 2 app_length in L.
        destruct (F1 K1 f (flat_map node_text l ++ u "</" ++ r) ltac:(lia)) as (el & M & P).
        rewrite O. cbn [parse_content]. rewrite span_app; [|now apply spelling_no60|reflexivity]. rewrite D1, unescape_spelling by exact A.
        destruct (name_first c s Oc) as (-> & -> & ->). rewrite <- O, P. specialize (IHl [] f r eq_refl D2). cbn [spelling spelled flat_map map app] in IHl. rewrite IHl by lia.
        rewrite M. unfold x at 1. cbn [leading]. now rewrite app_nil_r. }
  specialize (C ks IH). clear IH.
  eexists. split; [reflexivity|]. rewrite element_shape. cbn [node_ok] in K. rewrite !andb_true_iff in K. destruct K as [[[[[[[[N1 N2] A] Di] G] G'] K] D] E].
  destruct f as [|f]; [cbn in L; lia|]. cbn [parse_elem].
  match goal with |- context [after (u "<") (60 :: ?s)] => change (after (u "<") (60 :: s)) with (Some s) end. cbv iota.
  assert (Sp : forall c s, any_name_char c = false -> span any_name_char (n ++ flat_map attribute_text a ++ g ++ c :: s) = (n, flat_map attribute_text a ++ g ++ c :: s)).
  { intros c s Hs. apply span_app; [exact N2|]. destruct a as [|[g0 m g1 g2 q v] a]; [cbn [flat_map app]; apply gap_first; [exact G|exact space_not_name|exact Hs]|].
    cbn [flat_map]. rewrite <- app_assoc, attribute_app. cbn [forallb attribute_ok] in A. rewrite !andb_true_iff in A. destruct A as [[[[[[[[A1 A2] _] _] _] _] _] _] _].
    destruct g0 as [|s0 g0]; [discriminate|]. cbn [app]. apply space_not_name. cbn [spaces forallb] in A2. now apply andb_prop in A2 as [A2 _]. }
  destruct e.
  - rewrite Sp by reflexivity. rewrite attrs_parsed' by (assumption || reflexivity). destruct n as [|c n]; [discriminate|]. rewrite map_map, Di.
    change (after (u "/>") (47 :: 62 :: r)) with (Some r). cbv iota. cbn [implb] in E. destruct ks; [|discriminate]. reflexivity.
  - rewrite Sp by reflexivity. rewrite attrs_parsed' by (assumption || reflexivity). destruct n as [|c n]; [discriminate|]. rewrite map_map, Di.
    change (after (u "/>") (62 :: flat_map node_text ks ++ u "</" ++ (c :: n) ++ g' ++ 62 :: r)) with (@None ustr).
    change (after (u ">") (62 :: flat_map node_text ks ++ u "</" ++ (c :: n) ++ g' ++ 62 :: r)) with (Some (flat_map node_text ks ++ u "</" ++ (c :: n) ++ g' ++ 62 :: r)). cbv iota.
    specialize (C K [] f ((c :: n) ++ g' ++ 62 :: r) eq_refl D). cbn [spelling spelled flat_map map] in C. rewrite !app_nil_l in C. rewrite C.
    + unfold parse_end. rewrite span_app; [|exact N2|apply gap_first; [exact G'|exact space_not_name|reflexivity]]. rewrite skip_spaces by (assumption || reflexivity).
      change (after (u ">") (62 :: r)) with (Some r). cbv iota. rewrite ueqb_refl. reflexivity.
    + assert (S := element_shape (c :: n) a g false ks g' []). rewrite app_nil_r in S. rewrite S in L. cbn [length] in L. rewrite !app_length in *. cbn [length] in L. rewrite !app_length in L. lia.
Qed.

(** ** Documents *)

Lemma other_first o r : exists c s, other_text o ++ r = 60 :: c :: s.
Proof. destruct o; cbn [other_text]; rewrite <- !app_assoc; do 2 eexists; reflexivity. Qed.

Lemma misc_skipped b : forall f g r, forallb misc_ok b = true -> spaces g = true -> parse_other r = None -> match r with [] => True | c :: _ => xml_space c = false end ->
  (length (g ++ flat_map misc_text b ++ r) <= f)%nat -> skip_misc f (g ++ flat_map misc_text b ++ r) = r.
Proof.
  induction b as [|m b IH]; intros f g r B G P S L.
  - cbn [flat_map app] in *. assert (K : skip_space (g ++ r) = r).
    { destruct r as [|c r]; [|now apply skip_spaces]. rewrite app_nil_r. unfold skip_space. rewrite <- (app_nil_r g). now rewrite span_app. }
    destruct f as [|f]; [|cbn [skip_misc]; now rewrite K, P]. rewrite app_length in L. destruct g; [destruct r; [reflexivity|]|]; cbn in L; lia.
  - cbn [forallb] in B. apply andb_prop in B as [B1 B2]. cbn [flat_map] in *. destruct m as [s|o]; cbn [misc_text misc_ok] in *.
    + rewrite <- app_assoc, app_assoc in *. apply IH; try assumption. unfold spaces in *. now rewrite forallb_app, G.
    + rewrite <- app_assoc in *. destruct (other_first o (flat_map misc_text b ++ r)) as (c & s & E). assert (Q := other_parsed o (flat_map misc_text b ++ r) B1).
      destruct f as [|f]; [rewrite E, app_length in L; cbn in L; lia|]. cbn [skip_misc]. rewrite E in *. rewrite skip_spaces by (assumption || reflexivity). rewrite Q.
      apply (IH f []); try assumption; [reflexivity|]. assert (M : length (other_text o ++ flat_map misc_text b ++ r) = length (60 :: c :: s)) by now rewrite E.
      rewrite !app_length in *. assert (1 <= length (other_text o))%nat by (destruct o; cbn [other_text]; rewrite app_length; cbn; lia). cbn [length app] in *. lia.
Qed.

Lemma pseudo_other n g c s : spaces g = true -> xml_space c = false -> after n (c :: s) = None -> pseudo n (g ++ c :: s) = None.
Proof. intros G C A. unfold pseudo. rewrite span_app by assumption. rewrite A. now destruct g. Qed.
Lemma pseudo_parsed n p e r : entry_ok p e = true -> (match e with Entry _ _ _ q v => p v = true -> forallb (fun c => negb (c =? q)) v = true end) ->
  match n with [] => False | c :: _ => xml_space c = false end ->
  pseudo n (entry_text n e ++ r) = match e with Entry _ _ _ _ v => Some (v, r) end.
Proof.
  destruct e as [g g1 g2 q v]. cbn [entry_ok entry_text]. rewrite !andb_true_iff. intros [[[[[H1 H2] H3] H4] H5] H6] V N. specialize (V H6).
  destruct n as [|c n]; [contradiction|]. unfold pseudo. repeat rewrite <- app_assoc. cbn [app]. rewrite (span_app xml_space g) by assumption. destruct g as [|s0 g]; [discriminate|].
  change (c :: n ++ g1 ++ u "=" ++ g2 ++ q :: v ++ q :: r) with ((c :: n) ++ g1 ++ u "=" ++ g2 ++ q :: v ++ q :: r). rewrite app_after.
  change (u "=" ++ g2 ++ q :: v ++ q :: r) with (61 :: g2 ++ q :: v ++ q :: r). rewrite skip_spaces by (assumption || reflexivity).
  change (after (u "=") (61 :: g2 ++ q :: v ++ q :: r)) with (Some (g2 ++ q :: v ++ q :: r)). cbv iota.
  assert (Q := quote_cases q H5). rewrite skip_spaces; [|assumption|destruct Q; subst q; reflexivity]. unfold quote_ok in H5. rewrite H5.
  rewrite span_app; [reflexivity|exact V|now rewrite N.eqb_refl].
Qed.

Lemma version_clean q v : quote_ok q = true -> version_ok v = true -> forallb (fun c => negb (c =? q)) v = true.
Proof.
  intros Q H. apply quote_cases in Q. unfold version_ok in H. destruct (after (u "1.") v) as [[|c d]|] eqn:E; try discriminate. apply after_app in E. subst v. rewrite forallb_app.
  apply andb_true_intro. split; [destruct Q; subst q; reflexivity|]. rewrite forallb_forall in *. intros x Hx. specialize (H x Hx). apply negb_true_iff, N.eqb_neq. intros ->. destruct Q; subst q; discriminate H.
Qed.
Lemma encoding_clean q v : quote_ok q = true -> encoding_ok v = true -> forallb (fun c => negb (c =? q)) v = true.
Proof.
  intros Q H. apply quote_cases in Q. unfold encoding_ok in H. destruct v as [|c v]; [discriminate|]. apply andb_prop in H as [H1 H2]. cbn [forallb]. apply andb_true_intro. split.
  - apply negb_true_iff, N.eqb_neq. intros ->. destruct Q; subst q; discriminate H1.
  - rewrite forallb_forall in *. intros x Hx. specialize (H2 x Hx). apply negb_true_iff, N.eqb_neq. intros ->. destruct Q; subst q; discriminate H2.
Qed.
Lemma standalone_clean q v : quote_ok q = true -> ueqb v (u "yes") || ueqb v (u "no") = true -> forallb (fun c => negb (c =? q)) v = true.
Proof. intros Q H. apply quote_cases in Q. apply orb_prop in H as [H|H]; apply ueqb_eq in H; subst v; destruct Q; subst q; reflexivity. Qed.

Lemma entry_quote p g g1 g2 q v : entry_ok p (Entry g g1 g2 q v) = true -> quote_ok q = true /\ p v = true.
Proof. cbn [entry_ok]. rewrite !andb_true_iff. tauto. Qed.
Lemma entry_gap p n e r : entry_ok p e = true -> exists g s, spaces g = true /\ g <> [] /\ entry_text n e ++ r = g ++ n ++ s.
Proof.
  destruct e as [g g1 g2 q v]. cbn [entry_ok entry_text]. rewrite !andb_true_iff. intros [[[[[H1 H2] H3] H4] H5] H6]. exists g. eexists. split; [exact H2|]. split; [now destruct g|].
  repeat rewrite <- app_assoc. reflexivity.
Qed.

Lemma declared_there d r : declaration_fine d = true -> declared (declaration_text d ++ r) = Some (encoding_of (Some d), r).
Proof.
  destruct d as [v e a g]. cbn [declaration_fine declaration_text]. rewrite !andb_true_iff. intros [[[V E] A] G]. unfold declared. rewrite <- !app_assoc. rewrite app_after.
  set (rest := opt (entry_text (u "encoding")) e ++ opt (entry_text (u "standalone")) a ++ g ++ u "?>" ++ r).
  destruct (entry_gap _ (u "version") v rest V) as (g0 & s & G0 & G1 & S).
  assert (Pv := pseudo_parsed (u "version") version_ok v rest V). destruct v as [vg v1 v2 q x]. destruct (entry_quote _ _ _ _ _ _ V) as [Q X].
  specialize (Pv (fun _ => version_clean q x Q X) eq_refl). rewrite S in Pv |- *. destruct g0 as [|c g0]; [congruence|]. cbn [app] in Pv |- *.
  cbn [spaces forallb] in G0. apply andb_prop in G0 as [-> _]. rewrite Pv, X. unfold rest. clear Pv S rest X Q V.
  set (rest := opt (entry_text (u "standalone")) a ++ g ++ u "?>" ++ r).
  assert (Pe : pseudo (u "encoding") (opt (entry_text (u "encoding")) e ++ rest) = match e with Some (Entry _ _ _ _ x) => Some (x, rest) | None => None end).
  { destruct e as [e|]; cbn [opt opt_ok] in *.
    - rewrite (pseudo_parsed (u "encoding") encoding_ok e rest E); [now destruct e| |reflexivity]. destruct e as [eg e1 e2 q0 x0]. destruct (entry_quote _ _ _ _ _ _ E) as [Q _]. intro X. now apply encoding_clean.
    - cbn [app]. unfold rest. destruct a as [a|]; cbn [opt opt_ok] in *.
      + destruct (entry_gap _ (u "standalone") a (g ++ u "?>" ++ r) A) as (g1 & t & T1 & _ & ->). change (u "standalone") with (115 :: u "tandalone"). cbn [app]. now rewrite pseudo_other.
      + cbn [app]. change (u "?>" ++ r) with (63 :: 62 :: r). now rewrite pseudo_other. }
  assert (Pa : pseudo (u "standalone") rest = match a with Some (Entry _ _ _ _ x) => Some (x, g ++ u "?>" ++ r) | None => None end).
  { unfold rest. destruct a as [a|]; cbn [opt opt_ok] in *.
    - rewrite (pseudo_parsed (u "standalone") _ a (g ++ u "?>" ++ r) A); [now destruct a| |reflexivity]. destruct a as [eg e1 e2 q0 x0]. destruct (entry_quote _ _ _ _ _ _ A) as [Q _]. intro X. now apply standalone_clean.
    - cbn [app]. change (u "?>" ++ r) with (63 :: 62 :: r). now rewrite pseudo_other. }
  assert (Pz : after (u "?>") (skip_space (g ++ u "?>" ++ r)) = Some r).
  { change (u "?>" ++ r) with (63 :: 62 :: r). rewrite skip_spaces by (assumption || reflexivity). reflexivity. }
  rewrite Pe. clear Pe. cbn [encoding_of].
  assert (Ee : match e with Some (Entry _ _ _ _ x) => encoding_ok x | None => true end = true) by (destruct e as [[eg e1 e2 q0 x0]|]; [cbn [opt_ok] in E; now apply entry_quote in E as [_ E]|reflexivity]).
  assert (Ea : match a with Some (Entry _ _ _ _ x) => ueqb x (u "yes") || ueqb x (u "no") | None => true end = true) by (destruct a as [[eg e1 e2 q0 x0]|]; [cbn [opt_ok] in A; now apply entry_quote in A as [_ A]|reflexivity]).
  destruct e as [[eg e1 e2 q0 x0]|]; cbn [opt app]; rewrite Pa; destruct a as [[ag a1 a2 q1 y0]|]; unfold rest; cbn [opt app]; rewrite Pz, ?Ee, ?Ea; reflexivity.
Qed.

Definition undeclared (s : ustr) : Prop := match after (u "<?xml") s with Some (c :: _) => xml_space c = false | _ => True end.
Lemma declared_not s : undeclared s -> declared s = Some (None, s).
Proof. unfold undeclared, declared. destruct (after (u "<?xml") s) as [[|c r]|]; [reflexivity| |reflexivity]. now intros ->. Qed.

Lemma undeclared_misc b r : forallb misc_ok b = true -> undeclared r -> undeclared (flat_map misc_text b ++ r).
Proof.
  induction b as [|m b IH]; intros B R; [exact R|]. cbn [forallb] in B. apply andb_prop in B as [B1 B2]. specialize (IH B2 R). cbn [flat_map]. rewrite <- app_assoc.
  destruct m as [[|c s]|[t|n t]]; cbn [misc_text misc_ok other_text other_ok] in *; [exact IH| |exact I|].
  - unfold undeclared. cbn [app spaces forallb] in *. apply andb_prop in B1 as [B1 _]. change (u "<?xml") with (60 :: u "?xml"). cbn [after].
    destruct (60 =? c) eqn:E; [|exact I]. apply N.eqb_eq in E. subst c. discriminate B1.
  - rewrite !andb_true_iff in B1. destruct B1 as [[[P X] F] T]. unfold undeclared. change (u "<?xml") with (60 :: 63 :: u "xml"). rewrite <- !app_assoc. change (u "<?" ++ ?x) with (60 :: 63 :: x).
    set (z := u "?>" ++ flat_map misc_text b ++ r). change (after (60 :: 63 :: u "xml") (60 :: 63 :: n ++ t ++ z)) with (after (u "xml") (n ++ t ++ z)).
    destruct (after (u "xml") (n ++ t ++ z)) as [[|c w]|] eqn:E; [exact I| |exact I]. apply after_app in E. destruct (xml_space c) eqn:C; [|reflexivity]. exfalso.
    assert (Z : forall k, In k (u "xml") -> match t ++ z with [] => True | x :: _ => x <> k end).
    { intros k Hk. destruct t as [|x t]; cbn [app] in *.
      - unfold z. cbn. intros <-. cbn in Hk. intuition discriminate.
      - intros <-. cbn in Hk. destruct Hk as [<-|[<-|[<-|[]]]]; discriminate T. }
    unfold pi_target in P. apply andb_prop in P as [P1 P2]. change (u "xml") with [120; 109; 108] in *. cbn [app] in E.
    destruct n as [|n1 n]; [discriminate|]. cbn [app] in E. injection E as -> E. destruct n as [|n2 n]; cbn [app] in E.
    { specialize (Z 109 ltac:(cbn; auto)). rewrite E in Z. congruence. }
    injection E as -> E. destruct n as [|n3 n]; cbn [app] in E.
    { specialize (Z 108 ltac:(cbn; auto)). rewrite E in Z. congruence. }
    injection E as -> E. destruct n as [|n4 n]; [discriminate|]. cbn [app] in E. injection E as -> E.
    cbn [ncname forallb] in P1. rewrite !andb_true_iff in P1. destruct P1 as (_ & _ & _ & P1 & _). assert (A : any_name_char c = true) by (unfold any_name_char; now rewrite P1).
    apply space_not_name in C. congruence.
Qed.

(** Whatever the encoding that is declared and whatever the library. *)
Theorem document_parsed lib enc x b r e s : document_ok (Document x b r e) = true -> is_text_of s (Document x b r e) ->
  exists el, meant lib r = [el] /\ parse_document lib enc s = if enc (encoding_of x) then resolve [] el else None.
Proof.
  cbn [document_ok]. rewrite !andb_true_iff. intros [[[[X B] R] E] T]. unfold is_text_of. cbn [document_text]. intro S. unfold parse_document. cbv zeta. rewrite S. clear s S.
  destruct r as [| | |n a g em ks g']; try discriminate. clear T. set (r := Element n a g em ks g') in *. set (after_root := flat_map misc_text e).
  assert (N := node_parsed lib r). unfold r at 1 in N. cbv iota in N. specialize (N R).
  assert (F : exists c s, node_text r ++ after_root = 60 :: c :: s /\ any_name_char c = true).
  { unfold r. rewrite element_shape. unfold r in R. cbn [node_ok] in R. rewrite !andb_true_iff in R. destruct R as [[[[[[[[N1 N2] _] _] _] _] _] _] _].
    destruct n as [|c n]; [discriminate|]. do 2 eexists. split; [reflexivity|]. cbn [forallb] in N2. now apply andb_prop in N2 as [N2 _]. }
  destruct F as (c & s & F & C).
  assert (D : declared (opt declaration_text x ++ flat_map misc_text b ++ node_text r ++ after_root) = Some (encoding_of x, flat_map misc_text b ++ node_text r ++ after_root)).
  { destruct x as [d|]; cbn [opt opt_ok] in *; [now apply declared_there|]. cbn [app encoding_of]. apply declared_not, undeclared_misc; [exact B|]. rewrite F. unfold undeclared.
    change (u "<?xml") with (60 :: 63 :: u "xml"). cbn [after]. rewrite N.eqb_refl. replace (63 =? c) with false by (symmetry; apply N.eqb_neq; intros <-; discriminate C). exact I. }
  rewrite D. clear D. set (t := flat_map misc_text b ++ node_text r ++ after_root).
  destruct (N (length t) after_root) as (el & M & P); [unfold t; rewrite !app_length; lia|]. exists el. split; [exact M|]. destruct (enc (encoding_of x)); [|reflexivity].
  assert (K : skip_misc (length t) t = node_text r ++ after_root).
  { unfold t. apply (misc_skipped b _ []); [exact B|reflexivity| |rewrite F; reflexivity|apply le_n]. rewrite F. now destruct (name_first c s C) as (_ & _ & ->). }
  rewrite K, P. replace (skip_misc (length after_root) after_root) with (@nil BinNums.N); [reflexivity|]. symmetry. unfold after_root.
  rewrite <- (app_nil_r (flat_map misc_text e)). apply (misc_skipped e _ [] []); auto.
Qed.

(** ** Documents that differ in spelling only *)

Lemma alike_meant lib seen l l' : alike lib seen l l' -> flat_map (meant lib) l = flat_map (meant lib) l' /\ (seen = false -> leading lib l = leading lib l').
Proof.
  induction 1 as [ | | | seen x l l' A [I1 I2] | seen p b c q l R | seen p b b' q l R | seen s l | seen p q l | | seen o l H | seen n a a' g g' h h' e e' ks ks' l A K [I1 I2]].
  - auto.
  - destruct IHalike. split; [congruence|]. intro S. symmetry. auto.
  - destruct IHalike1, IHalike2. split; [congruence|]. intro S. rewrite H2, H4 by exact S. reflexivity.
  - cbn [flat_map]. rewrite I1. split; [reflexivity|]. intros ->. cbn [orb] in I2. destruct x; cbn [leading ends_text] in *; try (now rewrite I2); [|reflexivity]. destruct lib; [now rewrite I2|reflexivity].
  - split; [reflexivity|]. intros _. cbn [leading]. unfold spelled. rewrite !map_app. cbn [map piece_char]. now rewrite R.
  - split; [reflexivity|]. intros _. cbn [leading]. unfold spelled. rewrite !map_app. cbn [map piece_char]. now rewrite R.
  - split; [reflexivity|]. intros _. cbn [leading]. unfold spelled. rewrite map_map. cbn [piece_char]. now rewrite map_id.
  - split; [reflexivity|]. intros _. cbn [leading]. unfold spelled. now rewrite map_app, <- app_assoc.
  - auto.
  - split; [reflexivity|]. intros ->. cbn [leading]. destruct H as [->|[H|H]]; [reflexivity|discriminate|]. destruct lib; [reflexivity|now rewrite H].
  - cbn [flat_map meant leading]. rewrite A, I1, I2 by reflexivity. auto.
Qed.
