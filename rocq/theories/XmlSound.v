(** * What is parsed is a document of the grammar. *)
From Coq Require Import String List NArith Bool Lia Arith.
From Verif Require Import Ustr UstrProofs Elem Xml XmlSpec XmlDoc XmlMarkup XmlProofs XmlMarkupProofs XmlDocProofs.
Import ListNotations.
Local Open Scope N_scope.

Lemma span_inv p s a b : span p s = (a, b) -> s = a ++ b /\ forallb p a = true /\ match b with [] => True | c :: _ => p c = false end.
Proof.
  revert a b. induction s as [|c s IH]; intros a b H; cbn [span] in H.
  - injection H as <- <-. repeat split.
  - destruct (p c) eqn:E.
    + destruct (span p s) as [a' b'] eqn:S. injection H as <- <-. destruct (IH a' b' eq_refl) as (-> & F & G). cbn [app forallb]. now rewrite E, F.
    + injection H as <- <-. cbn. now rewrite E.
Qed.

Lemma skip_inv s : exists g, s = g ++ skip_space s /\ spaces g = true /\ match skip_space s with [] => True | c :: _ => xml_space c = false end.
Proof. unfold skip_space. destruct (span xml_space s) as [g r] eqn:E. apply span_inv in E as (E & F & G). exists g. auto. Qed.

(** ** Pieces *)

Lemma unescape_inv norm s : forall st x, unescape norm st s = Some x ->
  match st with
  | None => exists l, forallb piece_ok l = true /\ s = spelling l /\ x = map (piece_char norm) l
  | Some r => exists b l, reference (rev r ++ b) <> None /\ forallb piece_ok l = true /\ s = b ++ 59 :: spelling l /\
                x = piece_char norm (Ref (rev r ++ b)) :: map (piece_char norm) l
  end.
Proof.
  induction s as [|c s IH]; intros st x H.
  - destruct st; [discriminate|]. injection H as <-. exists []. auto.
  - cbn [unescape] in H. destruct st as [r|].
    + destruct (c =? 59) eqn:C.
      * apply N.eqb_eq in C. subst c. destruct (reference (rev r)) as [y|] eqn:R; [|discriminate]. destruct (unescape norm None s) as [x'|] eqn:E; [|discriminate]. cbn in H. injection H as <-.
        apply (IH None) in E as (l & F & -> & ->). exists [], l. rewrite app_nil_r. cbn [piece_char]. rewrite R. repeat split; auto. congruence.
      * apply (IH (Some (c :: r))) in H as (b & l & R & F & -> & ->). cbn [rev] in *. rewrite <- app_assoc in *. cbn [app] in *. exists (c :: b), l. auto.
    + destruct (c =? 38) eqn:C.
      * apply N.eqb_eq in C. subst c. apply (IH (Some [])) in H as (b & l & R & F & -> & ->). cbn [rev app] in *. exists (Ref b :: l). split; [|split; [|reflexivity]].
        -- cbn [forallb piece_ok]. rewrite F. destruct (reference b); [reflexivity|congruence].
        -- unfold spelling. cbn [flat_map piece_text]. change (u "&") with [38]. change (u ";") with [59]. cbn [app]. now rewrite <- app_assoc.
      * destruct ((c =? 60) || negb (xml_char c)) eqn:D; [discriminate|]. destruct (unescape norm None s) as [x'|] eqn:E; [|discriminate]. cbn in H. injection H as <-.
        apply (IH None) in E as (l & F & -> & ->). apply orb_false_elim in D as [D1 D2]. apply negb_false_iff in D2. exists (Lit c :: l). cbn [forallb piece_ok]. rewrite C, D1, D2, F. auto.
Qed.

(** ** Tags *)

Lemma value_inv s v r : parse_value s = Some (v, r) -> exists q l, quote_ok q = true /\
  forallb (fun p => piece_ok p && match p with Lit c => negb (c =? q) | Ref _ => true end) l = true /\ s = q :: spelling l ++ q :: r /\ v = map (piece_char attr_norm) l.
Proof.
  unfold parse_value. destruct s as [|q s]; [discriminate|]. destruct ((q =? 34) || (q =? 39)) eqn:Q; [|discriminate].
  destruct (span _ s) as [w t] eqn:S. apply span_inv in S as (-> & F & G). destruct t as [|c t]; [discriminate|]. destruct (unescape attr_norm None w) as [v'|] eqn:E; [|discriminate].
  intro H. injection H as <- <-. apply negb_false_iff, N.eqb_eq in G. subst c. apply (unescape_inv attr_norm w None) in E as (l & P & -> & ->). exists q, l. split; [exact Q|]. split; [|auto].
  rewrite forallb_forall in *. intros p Hp. rewrite (P p Hp). destruct p as [c|b]; [|reflexivity]. cbn [andb]. apply F. unfold spelling. apply in_flat_map. exists (Lit c). cbn. auto.
Qed.

Lemma attr_inv s n v r : parse_attr s = Some (n, v, r) -> forall g, g <> [] -> spaces g = true ->
  exists a, attribute_ok a = true /\ g ++ s = attribute_text a ++ r /\ attribute_meant a = (n, v).
Proof.
  unfold parse_attr. destruct (span any_name_char s) as [m t] eqn:S. apply span_inv in S as (-> & F & _). destruct m as [|c m]; [discriminate|].
  destruct (after (u "=") (skip_space t)) as [t1|] eqn:A; [|discriminate]. destruct (parse_value (skip_space t1)) as [[v' r']|] eqn:V; [|discriminate].
  intros H g G1 G2. injection H as <- <- <-. apply after_app in A. destruct (skip_inv t) as (g1 & E1 & S1 & _). destruct (skip_inv t1) as (g2 & E2 & S2 & _).
  apply value_inv in V as (q & l & Q & P & E3 & ->). exists (Attribute g (c :: m) g1 g2 q l). split; [|split; [|reflexivity]].
  - cbn [attribute_ok]. rewrite G2, F, S1, S2, Q, P. destruct g; [congruence|]. reflexivity.
  - rewrite attribute_app. rewrite E1, A, E2, E3. repeat (rewrite <- app_assoc; cbn [app]). reflexivity.
Qed.

Lemma attrs_inv f : forall s l r, parse_attrs f s = Some (l, r) ->
  exists a g c r', forallb attribute_ok a = true /\ spaces g = true /\ (c =? 47) || (c =? 62) = true /\ r = c :: r' /\ s = flat_map attribute_text a ++ g ++ r /\ map attribute_meant a = l.
Proof.
  induction f as [|f IH]; intros s l r H; [discriminate|]. cbn [parse_attrs] in H. destruct (skip_inv s) as (g & E & G & X). destruct (skip_space s) as [|c t]; [discriminate|].
  destruct ((c =? 47) || (c =? 62)) eqn:C.
  - injection H as <- <-. exists [], g, c, t. repeat split; auto.
  - destruct s as [|d s]; [discriminate|]. destruct (xml_space d) eqn:D; [|discriminate]. destruct (parse_attr (c :: t)) as [[[n v] r1]|] eqn:A; [|discriminate].
    destruct (parse_attrs f r1) as [[l' r2]|] eqn:R; [|discriminate]. injection H as <- <-. apply IH in R as (a & g' & c' & r' & F & G' & C' & -> & -> & <-).
    assert (N : g <> []) by (intros ->; cbn in E; injection E as -> _; congruence). destruct (attr_inv _ _ _ _ A g N G) as (x & K & T & M).
    exists (x :: a), g', c', r'. split; [cbn [forallb]; now rewrite K|]. split; [exact G'|]. split; [exact C'|]. split; [reflexivity|]. split.
    + rewrite E, T. cbn [flat_map]. now rewrite <- !app_assoc.
    + cbn [map]. now rewrite M.
Qed.

(** ** Comments, processing instructions, CDATA sections *)

Lemma after_long p s t : after p s = Some t -> forall r, after p (s ++ r) = Some (t ++ r).
Proof. intros H r. apply after_app in H. subst s. rewrite <- app_assoc. apply app_after. Qed.
Lemma after_short p s : (length s < length p)%nat -> after p s = None.
Proof. intro H. destruct (after p s) as [t|] eqn:E; [|reflexivity]. apply after_app in E. subst s. rewrite app_length in H. lia. Qed.
Lemma free_short p s : (length s < length p)%nat -> free_of p s = true.
Proof. induction s as [|c s IH]; intro H; [reflexivity|]. cbn [free_of]. rewrite after_short by exact H. apply IH. cbn [length] in H. lia. Qed.

Lemma until_inv q z s a r : z <> [] -> until (q ++ z) s = Some (a, r) -> s = a ++ (q ++ z) ++ r /\ free_of (q ++ z) (a ++ q) = true.
Proof.
  intro Z. revert a. induction s as [|c s IH]; intros a H.
  - cbn [until] in H. destruct (after (q ++ z) []) as [t|] eqn:E; [|discriminate]. apply after_app in E. destruct q; [destruct z; [congruence|]|]; discriminate.
  - cbn [until] in H. destruct (after (q ++ z) (c :: s)) as [t|] eqn:E.
    + injection H as <- <-. split; [exact (after_app _ _ _ E)|]. apply free_short. cbn [app]. rewrite app_length. destruct z; [congruence|]. cbn. lia.
    + destruct (until (q ++ z) s) as [[a' r']|]; [|discriminate]. injection H as <- <-. destruct (IH a' eq_refl) as [-> F]. split; [reflexivity|]. cbn [app free_of]. rewrite F.
      destruct (after (q ++ z) (c :: a' ++ q)) as [t|] eqn:D; [|reflexivity]. apply (after_long _ _ _) with (r := z ++ r') in D. cbn [app] in D. rewrite <- !app_assoc in D, E. rewrite D in E. discriminate.
Qed.

Lemma other_inv s r : parse_other s = Some r -> exists o, other_ok o = true /\ s = other_text o ++ r.
Proof.
  unfold parse_other. destruct (after (u "<!--") s) as [t|] eqn:A.
  - apply after_app in A. subst s. unfold parse_comment. destruct (until (u "--") t) as [[x w]|] eqn:U; [|discriminate]. apply (until_inv (u "-") (u "-")) in U as [-> F]; [|discriminate].
    destruct (forallb xml_char x) eqn:X; [|discriminate]. destruct (after (u ">") w) as [w'|] eqn:W; [|discriminate]. intro H. injection H as <-. apply after_app in W. subst w.
    exists (Comment x). cbn [other_ok other_text]. split; [rewrite X; exact F|]. rewrite <- !app_assoc. reflexivity.
  - destruct (after (u "<?") s) as [t|] eqn:B; [|discriminate]. apply after_app in B. subst s. unfold parse_pi. destruct (span any_name_char t) as [n w] eqn:S. apply span_inv in S as (-> & _ & _).
    destruct (pi_target n) eqn:N; [|discriminate]. destruct (until (u "?>") w) as [[x w']|] eqn:U; [|discriminate]. apply (until_inv [] (u "?>")) in U as [-> F]; [|discriminate].
    destruct (forallb xml_char x && _) eqn:X; [|discriminate]. intro H. injection H as <-. apply andb_prop in X as [X1 X2]. exists (Instruction n x). cbn [other_ok other_text].
    rewrite app_nil_r in F. change ([] ++ u "?>") with (u "?>") in F. rewrite N, X1, F, X2. split; [reflexivity|]. rewrite <- !app_assoc. reflexivity.
Qed.

(** ** Elements *)

Definition element (x : node) : Prop := match x with Element _ _ _ _ _ _ => True | _ => False end.

Lemma end_inv s n r : parse_end s = Some (n, r) -> exists g, spaces g = true /\ s = n ++ g ++ u ">" ++ r.
Proof.
  unfold parse_end. destruct (span any_name_char s) as [m t] eqn:S. apply span_inv in S as (-> & _ & _). destruct (after (u ">") (skip_space t)) as [w|] eqn:A; [|discriminate].
  intro H. injection H as <- <-. apply after_app in A. destruct (skip_inv t) as (g & E & G & _). exists g. rewrite <- A, <- E. auto.
Qed.

Lemma elem_inv lib f : (forall s e r, parse_elem lib f s = Some (e, r) -> exists x, element x /\ node_ok x = true /\ meant lib x = [e] /\ s = node_text x ++ r) /\
  (forall s x ks r, parse_content lib f s = Some (x, ks, r) -> exists l, forallb node_ok l = true /\ data_ok [] l = true /\ leading lib l = x /\ flat_map (meant lib) l = ks /\ s = flat_map node_text l ++ u "</" ++ r).
Proof.
  induction f as [|f [IE IC]]; [split; discriminate|]. split.
  - intros s e r H. cbn [parse_elem] in H. destruct (after (u "<") s) as [t|] eqn:A; [|discriminate]. apply after_app in A. subst s. destruct (span any_name_char t) as [n t1] eqn:S. apply span_inv in S as (-> & F & _).
    destruct n as [|c n]; [discriminate|]. set (nm := c :: n) in *. destruct (parse_attrs (length t1) t1) as [[a t2]|] eqn:P; [|discriminate].
    apply attrs_inv in P as (al & g & c' & w & K & G & C & -> & -> & <-). destruct (distinct (map fst (map attribute_meant al))) eqn:D; [|discriminate]. rewrite map_map in D.
    destruct (after (u "/>") (c' :: w)) as [t3|] eqn:A1.
    + injection H as <- <-. apply after_app in A1. rewrite A1. exists (Element nm al g true [] []). split; [exact I|]. split; [|split; [reflexivity|]].
      * cbn [node_ok]. rewrite F, K, D, G. reflexivity.
      * cbn [node_text]. rewrite <- !app_assoc. reflexivity.
    + destruct (after (u ">") (c' :: w)) as [t3|] eqn:A2; [|discriminate]. apply after_app in A2. rewrite A2. destruct (parse_content lib f t3) as [[[x ks] t4]|] eqn:PC; [|discriminate].
      apply IC in PC as (l & L1 & L2 & L3 & L4 & ->). destruct (parse_end t4) as [[n' t5]|] eqn:PE; [|discriminate]. destruct (ueqb nm n') eqn:Q; [|discriminate]. apply ueqb_eq in Q. subst n'.
      injection H as <- <-. apply end_inv in PE as (g' & G' & ->). exists (Element nm al g false l g'). split; [exact I|]. split; [|split].
      * cbn [node_ok]. rewrite F, K, D, G, G', L1, L2. reflexivity.
      * cbn [meant]. rewrite L3, L4. reflexivity.
      * cbn [node_text]. repeat (rewrite <- !app_assoc; cbn [app]). reflexivity.
  - intros s x ks r H. cbn [parse_content] in H. destruct (span _ s) as [t w] eqn:S. apply span_inv in S as (-> & _ & _). destruct (cdata_end t) eqn:CE; [discriminate|].
    destruct (unescape (fun c => c) None t) as [y|] eqn:U; [|discriminate]. apply (unescape_inv _ t None) in U as (p & P & -> & ->).
    destruct (after (u "</") w) as [w1|] eqn:A1.
    { injection H as <- <- <-. apply after_app in A1. subst w. exists [Data p]. cbn [forallb node_ok data_ok leading flat_map meant node_text app]. rewrite P, CE, !app_nil_r. auto. }
    destruct (after (u "<![CDATA[") w) as [w1|] eqn:A2.
    { apply after_app in A2. subst w. unfold parse_cdata in H. destruct (until (u "]]>") w1) as [[d w2]|] eqn:UN; [|discriminate]. apply (until_inv [] (u "]]>")) in UN as [-> FR]; [|discriminate].
      rewrite app_nil_r in FR. change ([] ++ u "]]>") with (u "]]>") in *. destruct (forallb xml_char d) eqn:XD; [|discriminate]. destruct (parse_content lib f w2) as [[[y ks'] w3]|] eqn:PC; [|discriminate].
      apply IC in PC as (l & L1 & L2 & L3 & L4 & ->). injection H as <- <- <-. exists (Data p :: CData d :: l). cbn [forallb node_ok data_ok leading flat_map meant node_text app]. rewrite P, CE, XD, FR, L1, L2, L3, L4.
      repeat split; auto. rewrite <- !app_assoc. reflexivity. }
    destruct (parse_other w) as [w1|] eqn:A3.
    { apply other_inv in A3 as (o & O & ->). destruct (parse_content lib f w1) as [[[y ks'] w3]|] eqn:PC; [|discriminate]. apply IC in PC as (l & L1 & L2 & L3 & L4 & ->). injection H as <- <- <-.
      exists (Data p :: Other o :: l). cbn [forallb node_ok data_ok leading flat_map meant node_text app]. rewrite P, CE, O, L1, L2, L3, L4. repeat split; auto.
      - destruct lib; [reflexivity|]. now rewrite app_nil_r.
      - rewrite <- !app_assoc. reflexivity. }
    destruct (parse_elem lib f w) as [[k w1]|] eqn:PE; [|discriminate]. apply IE in PE as (n & N1 & N2 & N3 & ->). destruct (parse_content lib f w1) as [[[y ks'] w3]|] eqn:PC; [|discriminate].
    apply IC in PC as (l & L1 & L2 & L3 & L4 & ->). injection H as <- <- <-. exists (Data p :: n :: l). destruct n; try contradiction. cbn [forallb data_ok leading flat_map app]. rewrite N2, N3, L1, L2, L4.
    cbn [node_ok meant]. rewrite P, CE, app_nil_r. repeat split; auto. cbn [node_text flat_map]. fold (node_text (Element name attrs gap empty kids gap')). rewrite <- !app_assoc. reflexivity.
Qed.

(** ** Around the root *)

Lemma skip_misc_inv f : forall s, exists b, forallb misc_ok b = true /\ s = flat_map misc_text b ++ skip_misc f s.
Proof.
  induction f as [|f IH]; intro s; [now exists []|]. cbn [skip_misc]. destruct (skip_inv s) as (g & E & G & _). destruct (parse_other (skip_space s)) as [r|] eqn:P.
  - apply other_inv in P as (o & O & P). destruct (IH r) as (b & B & R). exists (Space g :: Misc o :: b). cbn [forallb misc_ok flat_map misc_text]. rewrite G, O, B. split; [reflexivity|]. rewrite <- !app_assoc, <- R, <- P. exact E.
  - exists [Space g]. cbn [forallb misc_ok flat_map misc_text]. rewrite G, app_nil_r. auto.
Qed.

Lemma pseudo_inv n s v r : pseudo n s = Some (v, r) -> exists g g1 g2 q, s = entry_text n (Entry g g1 g2 q v) ++ r /\ forall p, p v = true -> entry_ok p (Entry g g1 g2 q v) = true.
Proof.
  unfold pseudo. destruct (span xml_space s) as [g t] eqn:S. apply span_inv in S as (-> & G & _). destruct g as [|c g]; [discriminate|]. destruct (after n t) as [t1|] eqn:A; [|discriminate]. apply after_app in A. subst t.
  destruct (after (u "=") (skip_space t1)) as [t2|] eqn:B; [|discriminate]. apply after_app in B. destruct (skip_inv t1) as (g1 & E1 & G1 & _). destruct (skip_inv t2) as (g2 & E2 & G2 & _).
  destruct (skip_space t2) as [|q t3]; [discriminate|]. destruct ((q =? 34) || (q =? 39)) eqn:Q; [|discriminate]. destruct (span _ t3) as [w t4] eqn:S. apply span_inv in S as (-> & _ & X). destruct t4 as [|d t4]; [discriminate|].
  intro H. injection H as <- <-. apply negb_false_iff, N.eqb_eq in X. subst d. exists (c :: g), g1, g2, q. split.
  - cbn [entry_text]. rewrite E1, B, E2. repeat (rewrite <- !app_assoc; cbn [app]). reflexivity.
  - intros p P. cbn [entry_ok]. unfold spaces in *. rewrite G, G1, G2, P. unfold quote_ok. rewrite Q. reflexivity.
Qed.

Lemma declared_inv s e r : declared s = Some (e, r) -> exists x, opt_ok declaration_fine x = true /\ s = opt declaration_text x ++ r /\ encoding_of x = e.
Proof.
  assert (Z : Some (@None ustr, s) = Some (e, r) -> exists x, opt_ok declaration_fine x = true /\ s = opt declaration_text x ++ r /\ encoding_of x = e).
  { intro H. injection H as <- <-. now exists None. }
  unfold declared. destruct (after (u "<?xml") s) as [[|c t]|] eqn:A; [exact Z| |exact Z]. destruct (xml_space c) eqn:C; [|exact Z]. clear Z. apply after_app in A. subst s.
  destruct (pseudo (u "version") (c :: t)) as [[v t1]|] eqn:P; [|discriminate]. apply pseudo_inv in P as (g & g1 & g2 & q & -> & V). destruct (version_ok v) eqn:VO; [|discriminate]. specialize (V version_ok VO).
  set (ve := Entry g g1 g2 q v) in *.
  assert (E : exists ee e0 t2, (match pseudo (u "encoding") t1 with Some (e1, r2) => (Some e1, r2) | None => (None, t1) end) = (e0, t2) /\ t1 = opt (entry_text (u "encoding")) ee ++ t2 /\
    (match e0 with Some e1 => encoding_ok e1 | None => true end = true -> opt_ok (entry_ok encoding_ok) ee = true) /\ e0 = option_map (fun y => match y with Entry _ _ _ _ w => w end) ee).
  { destruct (pseudo (u "encoding") t1) as [[e1 r2]|] eqn:P; [|exists None, None, t1; auto]. apply pseudo_inv in P as (h & h1 & h2 & q' & -> & W). exists (Some (Entry h h1 h2 q' e1)), (Some e1), r2. cbn [opt opt_ok option_map]. auto. }
  destruct E as (ee & e0 & t2 & -> & -> & E1 & ->).
  assert (E : exists ae a0 t3, (match pseudo (u "standalone") t2 with Some (a, r3) => (Some a, r3) | None => (None, t2) end) = (a0, t3) /\ t2 = opt (entry_text (u "standalone")) ae ++ t3 /\
    (match a0 with Some a => ueqb a (u "yes") || ueqb a (u "no") | None => true end = true -> opt_ok (entry_ok (fun s => ueqb s (u "yes") || ueqb s (u "no"))) ae = true)).
  { destruct (pseudo (u "standalone") t2) as [[a1 r2]|] eqn:P; [|exists None, None, t2; auto]. apply pseudo_inv in P as (h & h1 & h2 & q' & -> & W). exists (Some (Entry h h1 h2 q' a1)), (Some a1), r2. cbn [opt opt_ok]. split; [reflexivity|]. split; [reflexivity|]. exact (W (fun s => ueqb s (u "yes") || ueqb s (u "no"))). }
  destruct E as (ae & a0 & t3 & -> & -> & E2). destruct (after (u "?>") (skip_space t3)) as [t4|] eqn:A; [|discriminate]. apply after_app in A. destruct (skip_inv t3) as (h & E3 & H3 & _).
  destruct (_ && _) eqn:K; [|discriminate]. apply andb_prop in K as [K1 K2]. intro H. injection H as <- <-. exists (Some (Declaration ve ee ae h)). cbn [opt_ok declaration_fine opt declaration_text encoding_of].
  rewrite V, (E1 K1), (E2 K2), H3. split; [reflexivity|]. split; [|destruct ee as [[? ? ? ? ?]|]; reflexivity]. rewrite E3, A. rewrite <- !app_assoc. reflexivity.
Qed.

Theorem document_inv lib enc s t : parse_document lib enc s = Some t ->
  exists x b r e el, document_ok (Document x b r e) = true /\ is_text_of s (Document x b r e) /\ enc (encoding_of x) = true /\ meant lib r = [el] /\ resolve [] el = Some t.
Proof.
  unfold parse_document. cbv zeta. destruct (declared (line_ends s)) as [[e0 r0]|] eqn:D; [|discriminate]. apply declared_inv in D as (x & X & T & <-). destruct (enc (encoding_of x)) eqn:E; [|discriminate].
  destruct (skip_misc_inv (length r0) r0) as (b & B & R0). destruct (parse_elem lib (length r0) (skip_misc (length r0) r0)) as [[el r1]|] eqn:P; [|discriminate].
  apply (proj1 (elem_inv lib _)) in P as (r & N1 & N2 & N3 & P). destruct (skip_misc_inv (length r1) r1) as (e & F & R1). destruct (skip_misc (length r1) r1); [|discriminate]. intro H.
  exists x, b, r, e, el. split; [|split; [|auto]].
  - cbn [document_ok]. rewrite X, B, N2, F. destruct r; try contradiction. reflexivity.
  - unfold is_text_of. cbn [document_text]. rewrite T, R0, P, R1, app_nil_r. reflexivity.
Qed.

(** ** UTF-8 *)

Lemma cont_inv b x : cont b = Some x -> b = 128 + x /\ x < 64.
Proof. unfold cont. destruct (N.leb_spec 128 b); destruct (N.ltb_spec b 192); cbn [andb]; intro H1; try discriminate. injection H1 as <-. lia. Qed.

Lemma lead_inv b n x : lead b = Some (n, x) ->
  (n = 0%nat /\ b = x) \/ (n = 1%nat /\ b = 192 + x /\ x < 32) \/ (n = 2%nat /\ b = 224 + x /\ x < 16) \/ (n = 3%nat /\ b = 240 + x /\ x < 8).
Proof.
  unfold lead. destruct (N.ltb_spec b 128); [intro E; injection E as <- <-; lia|]. destruct (N.ltb_spec b 192); [discriminate|]. destruct (N.ltb_spec b 224); [intro E; injection E as <- <-; lia|].
  destruct (N.ltb_spec b 240); [intro E; injection E as <- <-; lia|]. destruct (N.ltb_spec b 248); [intro E; injection E as <- <-; lia|discriminate].
Qed.
Lemma digits64 x y : y < 64 -> (x * 64 + y) / 64 = x /\ (x * 64 + y) mod 64 = y.
Proof. intro H. split; symmetry; [apply (N.div_unique _ 64 x y)|apply (N.mod_unique _ 64 x y)]; lia. Qed.
Lemma utf8_lengths c l : utf8_char c = Some l ->
  (length l = 1%nat /\ l = [c]) \/ (length l = 2%nat /\ l = [192 + c / 64; 128 + c mod 64]) \/
  (length l = 3%nat /\ l = [224 + c / 4096; 128 + c / 64 mod 64; 128 + c mod 64]) \/
  (length l = 4%nat /\ l = [240 + c / 262144; 128 + c / 4096 mod 64; 128 + c / 64 mod 64; 128 + c mod 64]).
Proof.
  unfold utf8_char. destruct (c <? 128); [intro H; injection H as <-; auto|]. destruct (c <? 2048); [intro H; injection H as <-; auto|]. destruct (_ && _); [discriminate|].
  destruct (c <? 65536); [intro H; injection H as <-; auto|]. destruct (c <? 1114112); [intro H; injection H as <-; auto|discriminate].
Qed.

Lemma utf8_next_inv s c r : utf8_next s = Some (c, r) -> exists b, utf8_char c = Some b /\ s = b ++ r.
Proof.
  unfold utf8_next. destruct s as [|b s]; [discriminate|]. destruct (lead b) as [[n x]|] eqn:L; [|discriminate]. destruct (conts n x s) as [[d w]|] eqn:C; [|discriminate].
  destruct (utf8_char d) as [l|] eqn:U; [|discriminate]. destruct (Nat.eqb_spec (length l) (S n)) as [E|]; [|discriminate]. intro H. injection H as -> ->. exists l. split; [exact U|].
  apply utf8_lengths in U. apply lead_inv in L. destruct L as [[-> ->]|[[-> [-> X]]|[[-> [-> X]]|[-> [-> X]]]]]; cbn [conts] in C.
  - injection C as <- ->. destruct U as [[_ ->]|[[U _]|[[U _]|[U _]]]]; try (rewrite U in E; discriminate E). reflexivity.
  - destruct s as [|b1 s]; [discriminate|]. destruct (cont b1) as [y1|] eqn:E1; [|discriminate]. apply cont_inv in E1 as [-> Y1]. injection C as <- ->.
    destruct U as [[U _]|[[_ ->]|[[U _]|[U _]]]]; try (rewrite U in E; discriminate E). destruct (digits64 x y1 Y1) as [-> ->]. reflexivity.
  - destruct s as [|b1 s]; [discriminate|]. destruct (cont b1) as [y1|] eqn:E1; [|discriminate]. apply cont_inv in E1 as [-> Y1].
    destruct s as [|b2 s]; [discriminate|]. destruct (cont b2) as [y2|] eqn:E2; [|discriminate]. apply cont_inv in E2 as [-> Y2]. injection C as <- ->.
    destruct U as [[U _]|[[U _]|[[_ ->]|[U _]]]]; try (rewrite U in E; discriminate E). change 4096 with (64 * 64). rewrite <- N.div_div by discriminate.
    destruct (digits64 (x * 64 + y1) y2 Y2) as [-> ->]. destruct (digits64 x y1 Y1) as [-> ->]. reflexivity.
  - destruct s as [|b1 s]; [discriminate|]. destruct (cont b1) as [y1|] eqn:E1; [|discriminate]. apply cont_inv in E1 as [-> Y1].
    destruct s as [|b2 s]; [discriminate|]. destruct (cont b2) as [y2|] eqn:E2; [|discriminate]. apply cont_inv in E2 as [-> Y2].
    destruct s as [|b3 s]; [discriminate|]. destruct (cont b3) as [y3|] eqn:E3; [|discriminate]. apply cont_inv in E3 as [-> Y3]. injection C as <- ->.
    destruct U as [[U _]|[[U _]|[[U _]|[_ ->]]]]; try (rewrite U in E; discriminate E). change 262144 with (64 * (64 * 64)). change 4096 with (64 * 64). rewrite <- !N.div_div by discriminate.
    destruct (digits64 ((x * 64 + y1) * 64 + y2) y3 Y3) as [-> ->]. destruct (digits64 (x * 64 + y1) y2 Y2) as [-> ->]. destruct (digits64 x y1 Y1) as [-> ->]. reflexivity.
Qed.

Lemma utf8_decode_inv f : forall b s, utf8_decode f b = Some s -> utf8 s = Some b.
Proof.
  induction f as [|f IH]; intros b s H.
  - destruct b; [|discriminate]. injection H as <-. reflexivity.
  - destruct b as [|c b]; [injection H as <-; reflexivity|]. cbn [utf8_decode] in H. destruct (utf8_next (c :: b)) as [[d r]|] eqn:E; [|discriminate]. destruct (utf8_decode f r) as [t|] eqn:D; [|discriminate].
    injection H as <-. apply utf8_next_inv in E as (l & U & ->). cbn [utf8]. now rewrite U, (IH _ _ D).
Qed.
