(** * Reading what lxml writes. *)
From Coq Require Import String List NArith ZArith Bool Lia.
From Verif Require Import Ustr UstrProofs Res PyInt Elem Value Geom Codec Spec Agree Layout LayoutProofs EmitProofs CodecProofs Unprefixed UnprefixedProofs
  Xml XmlSpec XmlDoc XmlProofs XmlNsProofs XmlMarkup XmlMarkupProofs XmlWriteProofs Lxml LxmlSpec LxmlWriteProofs.
Import ListNotations.
Local Open Scope N_scope.

(** ** Names *)

(** The element that is written, with declarations as attributes. *)
Fixpoint raw (n : lnode) : elem :=
  match n with LNode t d a x ks => Elem t (map (fun d => declaration (snd d, fst d)) d ++ a) x (map raw ks) end.

Definition prefix_fine (p : ustr) : Prop := ncname p = true /\ p <> u "xml" /\ p <> u "xmlns".
Definition plain_keys (a : list (ustr * ustr)) : Prop := Forall (fun kv : ustr * ustr => ncname (fst kv) = true) a.

Lemma ncname_span l r : ncname l = true -> span (fun c => negb (c =? 58)) (l ++ 58 :: r) = (l, 58 :: r).
Proof.
  intro H. apply ncname_chars in H as (_ & _ & H). induction l as [|c l IH]; [reflexivity|]. cbn [forallb] in H. apply andb_prop in H as [H1 H2]. cbn [app span]. now rewrite H1, IH.
Qed.
Lemma ncname_span_all l : ncname l = true -> span (fun c => negb (c =? 58)) l = (l, []).
Proof.
  intro H. apply ncname_chars in H as (_ & _ & H). induction l as [|c l IH]; [reflexivity|]. cbn [forallb] in H. apply andb_prop in H as [H1 H2]. cbn [span]. now rewrite H1, IH.
Qed.
Lemma expand_plain env b n : ncname n = true -> expand env b n = Some (if b then in_name_space (match uget [] env with Some uri => uri | None => [] end) n else n).
Proof. intro H. unfold expand. now rewrite ncname_span_all, H by exact H. Qed.
Lemma expand_prefixed (env : list (ustr * ustr)) b p n (uri : ustr) : prefix_fine p -> ncname n = true -> uget p env = Some uri -> uri <> [] -> expand env b (p ++ u ":" ++ n) = Some (in_name_space uri n).
Proof.
  intros (P1 & P2 & P3) N U D. unfold expand. change (p ++ u ":" ++ n) with (p ++ 58 :: n). rewrite ncname_span, P1, N by exact P1. cbn [andb]. replace (ueqb p (u "xml")) with false.
  - rewrite U. now destruct uri.
  - symmetry. now apply ueqb_neq.
Qed.
Lemma prefixed_some p l : p <> [] -> prefixed p l = p ++ u ":" ++ l.
Proof. destruct p; [contradiction|reflexivity]. Qed.
Lemma ncname_some p : ncname p = true -> p <> [].
Proof. intros H ->. discriminate. Qed.

Lemma declared_plain k : ncname k = true -> declared_prefix k = if ueqb k (u "xmlns") then Some [] else None.
Proof.
  intro H. unfold declared_prefix. destruct (ueqb k (u "xmlns")); [reflexivity|]. destruct (after (u "xmlns:") k) as [r|] eqn:E; [|reflexivity].
  apply after_inv in E. subst k. discriminate H.
Qed.
Lemma declarations_plain a : plain_keys a -> declarations a = map (fun kv : ustr * ustr => (@nil N, snd kv)) (filter (fun kv => ueqb (fst kv) (u "xmlns")) a).
Proof.
  induction 1 as [|[k v] a H _ IH]; [reflexivity|]. unfold declarations in *. cbn [flat_map filter fst snd]. rewrite IH. rewrite declared_plain by exact H. now destruct (ueqb k (u "xmlns")).
Qed.
Lemma filter_plain a : plain_keys a ->
  filter (fun kv : ustr * ustr => match declared_prefix (fst kv) with Some _ => false | None => true end) a = filter (fun kv => negb (ueqb (fst kv) (u "xmlns"))) a.
Proof. induction 1 as [|[k v] a H _ IH]; [reflexivity|]. cbn [filter fst]. rewrite IH, declared_plain by exact H. now destruct (ueqb k (u "xmlns")). Qed.
Lemma default_plain env a : plain_keys a -> default (declarations a ++ env) = default_of (default env) a.
Proof. intro H. unfold default, default_of. rewrite AgreeProofs.uget_app, declarations_plain, uget_default by exact H. now destruct (uget (u "xmlns") a). Qed.
Lemma other_prefix (env : list (ustr * ustr)) a p : plain_keys a -> p <> [] -> uget p (declarations a ++ env) = uget p env.
Proof. intros H P. now rewrite AgreeProofs.uget_app, declarations_plain, uget_plain by assumption. Qed.
Lemma no_declarations a : plain_keys a -> forallb (fun kv : ustr * ustr => negb (ueqb (fst kv) (u "xmlns"))) a = true -> declarations a = [].
Proof.
  intros H N. rewrite declarations_plain by exact H. clear H. induction a as [|kv a IH]; [reflexivity|]. cbn [forallb] in N. apply andb_prop in N as [N1 N2]. cbn [filter].
  apply negb_true_iff in N1. rewrite N1. now apply IH.
Qed.

Definition prefix_or_none (d : ustr * ustr) : Prop := fst d = [] \/ ncname (fst d) = true.
Lemma declared_one d : prefix_or_none d -> declared_prefix (fst (declaration (snd d, fst d))) = Some (fst d).
Proof. intros [H|H]; destruct d as [[|c p] uri]; cbn [fst snd] in *; try discriminate; reflexivity. Qed.
Lemma declarations_raw d a : Forall prefix_or_none d -> declarations (map (fun d => declaration (snd d, fst d)) d ++ a) = d ++ declarations a.
Proof.
  intro F. unfold declarations. rewrite flat_map_app. f_equal. induction F as [|[p uri] d H _ IH]; [reflexivity|]. cbn [map flat_map]. rewrite (declared_one _ H), IH. reflexivity.
Qed.
Lemma filter_raw d a : Forall prefix_or_none d ->
  filter (fun kv : ustr * ustr => match declared_prefix (fst kv) with Some _ => false | None => true end) (map (fun d => declaration (snd d, fst d)) d ++ a) =
  filter (fun kv : ustr * ustr => match declared_prefix (fst kv) with Some _ => false | None => true end) a.
Proof. induction 1 as [|x d H _ IH]; [reflexivity|]. cbn [map app filter]. now rewrite (declared_one _ H). Qed.

Lemma resolve_node env d a t' t x ks ks' :
  Forall prefix_or_none d -> forallb declaration_ok d = true -> plain_keys a -> forallb attr_ok a = true -> distinct (map fst a) = true ->
  expand (d ++ declarations a ++ env) true t' = Some t -> all_some (map (resolve (d ++ declarations a ++ env)) ks') = Some ks ->
  resolve env (Elem t' (map (fun d => declaration (snd d, fst d)) d ++ a) x ks') = Some (Elem t (filter (fun kv => negb (ueqb (fst kv) (u "xmlns"))) a) x ks).
Proof.
  intros D DO P A N T K. cbn [resolve]. rewrite declarations_raw, filter_raw, filter_plain by assumption. rewrite <- app_assoc, T, K.
  rewrite (all_some_map _ (fun kv => kv)).
  2:{ intros [k v] Hi. cbn [fst snd]. apply filter_In in Hi as [Hi _]. rewrite expand_plain; [reflexivity|]. unfold plain_keys in P. rewrite Forall_forall in P. exact (P _ Hi). }
  rewrite map_id. rewrite forallb_app, DO. cbn [andb].
  replace (forallb declaration_ok (declarations a)) with true.
  - apply distinct_NoDup in N. apply (nodup_filter (fun kv => negb (ueqb (fst kv) (u "xmlns")))) in N. apply distinct_NoDup in N. now rewrite N.
  - symmetry. rewrite declarations_plain by exact P. rewrite forallb_forall in A |- *. intros x0 Hx. apply in_map_iff in Hx as [[k v] [<- Hx]]. apply filter_In in Hx as [Hx Q].
    cbn [fst snd] in *. specialize (A _ Hx). unfold attr_ok in A. cbn [fst snd] in A. rewrite Q in A. cbn [negb orb] in A. apply andb_prop in A as [_ A]. apply andb_prop in A as [A1 A2].
    unfold declaration_ok. cbn [uempty orb andb]. change (ueqb [] (u "xmlns")) with false. change (ueqb [] (u "xml")) with false. rewrite A1. apply negb_true_iff in A2. rewrite A2. reflexivity.
Qed.

(** Names in braces. *)
Lemma split_plain n : ncname n = true -> split_name n = Ok (None, n) /\ qualified n = false.
Proof.
  intro H. assert (Q : qualified n = false).
  { destruct n as [|c n]; [discriminate|]. cbn [qualified]. apply N.eqb_neq. intros ->. discriminate H. }
  split; [|exact Q]. unfold split_name. destruct n as [|c n]; [reflexivity|]. cbn [qualified] in Q. change (u "{") with [123]. cbn [after]. rewrite N.eqb_sym, Q. reflexivity.
Qed.
Lemma rsplit_no s : forallb (fun c => negb (c =? 125)) s = true -> rsplit_brace s = None.
Proof. induction s as [|c s IH]; [reflexivity|]. cbn [forallb rsplit_brace]. intro H. apply andb_prop in H as [H1 H2]. rewrite IH by exact H2. apply negb_true_iff in H1. now rewrite H1. Qed.
Lemma rsplit_there s l : forallb (fun c => negb (c =? 125)) l = true -> rsplit_brace (s ++ 125 :: l) = Some (s, l).
Proof. intro H. induction s as [|c s IH]; cbn [app rsplit_brace]; [now rewrite rsplit_no|now rewrite IH]. Qed.
Lemma ncname_no c l : any_name_char c = false -> ncname l = true -> forallb (fun x => negb (x =? c)) l = true.
Proof.
  intros C H. apply ncname_chars in H as (_ & H & _). rewrite forallb_forall in *. intros x Hx. apply negb_true_iff, N.eqb_neq. intros ->. specialize (H _ Hx). congruence.
Qed.
Lemma split_braced uri n : ncname n = true -> split_name ((u "{" ++ uri ++ u "}") ++ n) = Ok (Some uri, n).
Proof. intro H. unfold split_name. rewrite <- !app_assoc. rewrite app_after. change (u "}" ++ n) with (125 :: n). rewrite rsplit_there; [reflexivity|]. now apply ncname_no. Qed.

(** A plain name space: nothing, or something in braces. *)
Lemma ns_plain_inv ns : ns_plain ns = true -> ns = [] \/ exists uri, ns = u "{" ++ uri ++ u "}" /\ uri <> [] /\ uri <> XML_NS /\ uri <> XMLNS_NS /\ forallb uri_char uri = true.
Proof.
  unfold ns_plain, ns_clean. intro H. apply andb_prop in H as [H H3]. apply andb_prop in H as [H1 H2]. destruct ns as [|c ns]; [now left|]. right. cbn [uempty orb] in H1.
  apply andb_prop in H1 as [H1 H6]. apply andb_prop in H1 as [H1 H5]. apply andb_prop in H1 as [H1 H4]. cbn [good_ns] in H1. apply andb_prop in H1 as [C R]. apply N.eqb_eq in C. subst c.
  destruct (rev ns) as [|d r] eqn:E; [discriminate|]. apply andb_prop in R as [D _]. apply N.eqb_eq in D. subst d. apply (f_equal (@rev N)) in E. rewrite rev_involutive in E. cbn [rev] in E.
  exists (rev r). change (u "{" ++ rev r ++ u "}") with (123 :: rev r ++ [125]). rewrite E in *. split; [reflexivity|].
  apply negb_true_iff in H3, H5, H6. apply ueqb_neq in H3, H5, H6. split; [intro Q; apply H5; now rewrite Q|]. split; [intro Q; apply H3; now rewrite Q|]. split; [intro Q; apply H6; now rewrite Q|].
  cbn [forallb] in H2. apply andb_prop in H2 as [_ H2]. now rewrite forallb_app in H2; apply andb_prop in H2 as [H2 _].
Qed.

(** ** What the declarations mean *)

Section Lx.
  Variable known : prefixes_t.
  Variable fresh : list nat -> nat.
  Hypothesis K : known_ok known = true.
  Variable ok : ustr -> bool.
  Hypothesis ok_plain : forall ns, ok ns = true -> ns_plain ns = true.

  Lemma new_prefix uri place : uri <> XML_NS -> prefix_fine (match uget uri known with Some p => p | None => numbered (fresh place) end).
  Proof.
    intro X. destruct (uget uri known) as [p|] eqn:E.
    - destruct (known_prefix known K uri p E) as (P1 & P2 & _ & P3). repeat split; auto. intros ->. rewrite ueqb_refl in P3. symmetry in P3. now apply ueqb_eq in P3.
    - destruct (generated_ncname known (fresh place)) as [G1 G2]. repeat split; [exact G1|discriminate|exact G2].
  Qed.

  Definition scope_ok (scope : list (ustr * ustr)) : Prop := forall p uri, In (p, uri) scope -> (p = [] \/ prefix_fine p) /\ uri <> [].

  Lemma search_some scope (uri : ustr) p : search scope uri = Some p -> uget p scope = Some uri.
  Proof.
    unfold search. destruct (find _ scope) as [d|] eqn:E; [|discriminate]. intro H. injection H as <-. apply find_some in E as [_ E]. apply andb_prop in E as [_ E].
    destruct (uget (fst d) scope) as [x|]; [|discriminate]. apply ueqb_eq in E. now subst.
  Qed.

  Lemma fine_or_none scope p (uri : ustr) : scope_ok scope -> uget p scope = Some uri -> p = [] \/ prefix_fine p.
  Proof. intros S H. apply uget_in in H. now apply S in H as [H _]. Qed.

  (** The elements [l] one after the other. *)
  Fixpoint lx_all (scope : list (ustr * ustr)) (place : list nat) (i : nat) (l : list elem) : list lnode :=
    match l with [] => [] | k :: l' => lx known fresh scope (i :: place) k :: lx_all scope place (S i) l' end.

  Lemma lx_unfold scope place t a x ks : lx known fresh scope place (Elem t a x ks) =
    match split_name t with
    | Ok (Some uri, l) =>
        if ueqb uri XML_NS then LNode (prefixed (u "xml") l) [] a x (lx_all scope place 0 ks)
        else match search scope uri with
             | Some p => LNode (prefixed p l) [] a x (lx_all scope place 0 ks)
             | None =>
                 let p := match uget uri known with Some p => p | None => numbered (fresh place) end in
                 LNode (prefixed p l) [(p, uri)] a x (lx_all ((p, uri) :: scope) place 0 ks)
             end
    | _ => LNode t [] a x (lx_all scope place 0 ks)
    end.
  Proof.
    cbn [lx]. assert (E : forall sc i, (fix go (i : nat) (l : list elem) : list lnode := match l with [] => [] | k :: l' => lx known fresh sc (i :: place) k :: go (S i) l' end) i ks = lx_all sc place i ks).
    { intros sc. induction ks as [|k ks IH]; intro i; [reflexivity|]. cbn [lx_all]. now rewrite IH. }
    destruct (split_name t) as [[[uri|] l]|]; cbv zeta; rewrite ?E; reflexivity.
  Qed.

  Definition closed_in (scope env : list (ustr * ustr)) : Prop := scope_ok scope /\ (forall p, p <> [] -> uget p env = uget p scope).
  Definition default_fits (scope env : list (ustr * ustr)) (e : elem) : Prop :=
    uget [] scope <> None -> uget [] env = uget [] scope /\ (forall ns, ok ns = true -> ns <> []) /\ no_xmlns e = true.

  Lemma all_resolved scope place env ks : closed_in scope env ->
    Forall (fun k => forall scope place env, closed_in scope env -> default_fits scope env k -> resolve env (raw (lx known fresh scope place k)) = Some (as_read (default env) k)) ks ->
    (forall k, In k ks -> default_fits scope env k) ->
    forall i, all_some (map (resolve env) (map raw (lx_all scope place i ks))) = Some (map (as_read (default env)) ks).
  Proof.
    intros C F D. induction F as [|k ks H _ IH]; intro i; [reflexivity|]. cbn [lx_all map all_some]. rewrite H by (exact C || apply D; now left). rewrite IH by (intros k' Hk; apply D; now right). reflexivity.
  Qed.

  Lemma default_kids scope env t a x ks k : default_fits scope env (Elem t a x ks) -> plain_keys a -> In k ks -> default_fits scope (declarations a ++ env) k.
  Proof.
    intros D P Hk U. destruct (D U) as (D1 & D2 & D3). cbn [no_xmlns] in D3. apply andb_prop in D3 as [D3 D4]. rewrite (no_declarations a P D3). cbn [app]. rewrite forallb_forall in D4. auto.
  Qed.

  Theorem resolve_lx e : laid ok e -> elem_ok xml_char e = true -> forall scope place env, closed_in scope env -> default_fits scope env e ->
    resolve env (raw (lx known fresh scope place e)) = Some (as_read (default env) e).
  Proof.
    induction e as [t a x ks IH] using elem_ind'. intros L X. inversion L as [ns n a' x' ks' O N S A F]; subst. clear L.
    cbn [elem_ok] in X. apply andb_prop in X as [X X5]. apply andb_prop in X as [X X4]. apply andb_prop in X as [X X3]. apply andb_prop in X as [X1 X2].
    assert (IH' : Forall (fun k => forall scope place env, closed_in scope env -> default_fits scope env k -> resolve env (raw (lx known fresh scope place k)) = Some (as_read (default env) k)) ks).
    { rewrite Forall_forall in IH, F |- *. rewrite forallb_forall in X5. intros k Hk. apply IH; auto. }
    clear IH. intros scope place env [Sc Ag] D. rewrite lx_unfold.
    assert (Cl : closed_in scope (declarations a ++ env)) by (split; [exact Sc|]; intros p Hp; rewrite other_prefix by assumption; now apply Ag).
    assert (Dk : forall k, In k ks -> default_fits scope (declarations a ++ env) k) by (intros k Hk; exact (default_kids scope env _ a x ks k D A Hk)).
    assert (Rk := all_resolved scope place (declarations a ++ env) ks Cl IH' Dk). rewrite default_plain in Rk by exact A.
    cbn [as_read]. destruct (ns_plain_inv ns (ok_plain ns O)) as [->|(uri & -> & U1 & U2 & U3 & U4)].
    - cbn [app] in *. destruct (split_plain n N) as [-> ->]. cbn [raw].
      change (map _ [] ++ a) with (map (fun d : ustr * ustr => declaration (snd d, fst d)) [] ++ a).
      apply resolve_node; auto. rewrite expand_plain by exact N. cbn [app]. f_equal. rewrite <- default_plain by exact A. unfold default, in_name_space.
      destruct (uget [] (declarations a ++ env)) as [[|c uri]|]; cbn [uempty app]; try reflexivity. change (u "{") with [123]. change (u "}") with [125]. cbn [app]. now rewrite <- app_assoc.
    - rewrite (split_braced uri n N). change (qualified ((u "{" ++ uri ++ u "}") ++ n)) with true.
      assert (Tag : (u "{" ++ uri ++ u "}") ++ n = in_name_space uri n) by (destruct uri; [contradiction|]; unfold in_name_space; now rewrite <- !app_assoc). rewrite Tag.
      replace (ueqb uri XML_NS) with false by (symmetry; now apply ueqb_neq). destruct (search scope uri) as [p|] eqn:E.
      + apply search_some in E. cbn [raw]. change (map _ [] ++ a) with (map (fun d : ustr * ustr => declaration (snd d, fst d)) [] ++ a). apply resolve_node; auto. cbn [app].
        destruct (fine_or_none scope p uri Sc E) as [->|P].
        * destruct (D ltac:(congruence)) as (D1 & D2 & D3). cbn [no_xmlns] in D3. apply andb_prop in D3 as [D3 _]. cbn [prefixed]. rewrite expand_plain by exact N.
          rewrite (no_declarations a A D3). cbn [app]. now rewrite D1, E.
        * assert (P0 := ncname_some p (proj1 P)). rewrite prefixed_some by exact P0. apply expand_prefixed; auto. rewrite other_prefix by assumption. now rewrite Ag.
      + cbv zeta. set (p := match uget uri known with Some p => p | None => numbered (fresh place) end). assert (P : prefix_fine p) by (now apply new_prefix).
        assert (P0 := ncname_some p (proj1 P)). cbn [raw].
        assert (Dp : default ([(p, uri)] ++ declarations a ++ env) = default_of (default env) a).
        { rewrite <- default_plain by exact A. unfold default. cbn [app uget]. replace (ueqb [] p) with false by (symmetry; apply ueqb_neq; congruence). reflexivity. }
        apply resolve_node; auto.
        * constructor; [right; exact (proj1 P)|constructor].
        * cbn [forallb]. rewrite andb_true_r. unfold declaration_ok. destruct P as (P1 & P2 & P3). rewrite P1. apply ueqb_neq in P2, P3. rewrite P2, P3. apply ueqb_neq in U2, U3. rewrite U2, U3.
          destruct uri; [contradiction|]. cbn [uempty negb andb Bool.eqb]. now rewrite orb_true_r.
        * rewrite prefixed_some by exact P0. apply expand_prefixed; auto. cbn [app uget]. now rewrite ueqb_refl.
        * rewrite <- Dp. apply all_resolved; auto.
          -- split.
             ++ intros p' uri' [Q|Q]; [injection Q as <- <-; auto|]. now apply Sc.
             ++ intros q Hq. cbn [app uget]. destruct (ueqb q p); [reflexivity|]. rewrite other_prefix by assumption. now apply Ag.
          -- intros k Hk U. cbn [uget] in U |- *. replace (ueqb [] p) with false in * by (symmetry; apply ueqb_neq; congruence). cbn [app uget].
             replace (ueqb [] p) with false by (symmetry; apply ueqb_neq; congruence). now apply Dk.
  Qed.

  Lemma as_read_braced e : (forall ns, ok ns = true -> ns <> []) -> laid ok e -> no_xmlns e = true -> forall d, as_read d e = e.
  Proof.
    intro Q. induction e as [t a x ks IH] using elem_ind'. intros L N d. inversion L as [ns n a' x' ks' O Nn S A F]; subst. clear L.
    cbn [no_xmlns] in N. apply andb_prop in N as [N1 N2]. cbn [as_read]. destruct (ns_plain_inv ns (ok_plain ns O)) as [->|(uri & -> & _)]; [now apply Q in O|].
    change (qualified ((u "{" ++ uri ++ u "}") ++ n)) with true. cbv iota. f_equal.
    - clear - N1. induction a as [|kv a IH]; [reflexivity|]. cbn [forallb filter] in *. apply andb_prop in N1 as [H1 H2]. rewrite H1. f_equal. now apply IH.
    - rewrite <- (map_id ks) at 2. apply map_ext_in. intros k Hk. rewrite Forall_forall in IH, F. rewrite forallb_forall in N2. apply IH; auto.
  Qed.

  Theorem resolve_lx_root e : laid ok e -> elem_ok xml_char e = true -> (forall ns, ok ns = true -> ns <> []) -> no_xmlns e = true ->
    resolve [] (raw (lx_root known fresh e)) = Some e.
  Proof.
    intros L X Q Nx. destruct e as [t a x ks]. assert (L' := L). inversion L as [ns n a' x' ks' O N S A F]; subst. clear L.
    cbn [elem_ok] in X. apply andb_prop in X as [X X5]. apply andb_prop in X as [X X4]. apply andb_prop in X as [X X3]. apply andb_prop in X as [X1 X2].
    cbn [no_xmlns] in Nx. apply andb_prop in Nx as [Nx1 Nx2].
    destruct (ns_plain_inv ns (ok_plain ns O)) as [->|(uri & -> & U1 & U2 & U3 & U4)]; [now apply Q in O|].
    unfold lx_root. rewrite (split_braced uri n N). rewrite lx_unfold. rewrite (split_braced uri n N). replace (ueqb uri XML_NS) with false by (symmetry; now apply ueqb_neq).
    match goal with |- context [search ?s ?x] => replace (search s x) with (Some (@nil BinNums.N)) by (unfold search; cbn [find fst snd uget ueqb]; now rewrite ueqb_refl) end. cbn [prefixed raw].
    assert (Nd := no_declarations a A Nx1).
    rewrite (resolve_node [] [([], uri)] a n ((u "{" ++ uri ++ u "}") ++ n) x ks); auto.
    - f_equal. f_equal. clear - Nx1. induction a as [|kv a IH]; [reflexivity|]. cbn [forallb filter] in *. apply andb_prop in Nx1 as [H1 H2]. rewrite H1. f_equal. now apply IH.
    - constructor; [now left|constructor].
    - cbn [forallb]. rewrite andb_true_r. unfold declaration_ok. apply ueqb_neq in U2, U3. now rewrite U2, U3.
    - rewrite expand_plain by exact N. rewrite Nd. cbn [app uget ueqb]. f_equal. unfold in_name_space. destruct uri; [contradiction|]. now rewrite <- !app_assoc.
    - rewrite Nd. cbn [app]. rewrite (all_resolved [([], uri)] [] [([], uri)] ks).
      + f_equal. rewrite <- (map_id ks) at 2. apply map_ext_in. intros k Hk. rewrite Forall_forall in F. rewrite forallb_forall in Nx2. apply as_read_braced; auto.
      + split; [|reflexivity]. intros p u0 [H|[]]. injection H as <- <-. auto.
      + rewrite Forall_forall in F |- *. rewrite forallb_forall in X5. intros k Hk scope place env C D. apply resolve_lx; auto.
      + intros k Hk _. rewrite forallb_forall in Nx2. auto.
  Qed.
End Lx.
