(** * The text that lxml writes is the text of a document. *)
From Coq Require Import String List NArith ZArith Bool Lia.
From Verif Require Import Ustr UstrProofs Res PyInt Elem Value Geom Codec Spec Agree Layout LayoutProofs EmitProofs CodecProofs Unprefixed UnprefixedProofs
  Xml XmlSpec XmlDoc XmlProofs XmlNsProofs XmlMarkup XmlMarkupProofs XmlWriteProofs Lxml LxmlSpec LxmlWriteProofs LxmlProofs.
Import ListNotations.
Local Open Scope N_scope.

Section Ind.
  Variable P : lnode -> Prop.
  Hypothesis H : forall t d a x ks, Forall P ks -> P (LNode t d a x ks).
  Fixpoint lnode_ind' (n : lnode) : P n :=
    match n with
    | LNode t d a x ks => H t d a x ks ((fix go (l : list lnode) : Forall P l := match l with [] => Forall_nil P | k :: l' => Forall_cons k (lnode_ind' k) (go l') end) ks)
    end.
End Ind.

(** ** The document *)

Definition text_piece (c : N) : piece :=
  if c =? 60 then Ref (u "lt") else if c =? 62 then Ref (u "gt") else if c =? 38 then Ref (u "amp") else if c =? 13 then Ref (u "#13") else Lit c.
Definition attr_piece (c : N) : piece :=
  if c =? 34 then Ref (u "quot") else if c =? 10 then Ref (u "#10") else if c =? 9 then Ref (u "#9") else text_piece c.
Definition attr_node (kv : ustr * ustr) : attribute := Attribute [32] (fst kv) [] [] 34 (map attr_piece (snd kv)).
Definition decl_node (d : ustr * ustr) : attribute := Attribute [32] (fst (declaration (snd d, fst d))) [] [] 34 (map Lit (snd d)).
Definition gap (b : bool) (s : ustr) : node := Data (map Lit (if b then s else [])).
Definition no_text (x : option ustr) : bool := match x with None => true | Some _ => false end.
Definition text_of (x : option ustr) : ustr := match x with Some s => s | None => [] end.

Fixpoint nd (fmt : bool) (level : nat) (n : lnode) : node :=
  match n with
  | LNode t d a x ks =>
      let f := fmt && no_text x in
      Element t (map decl_node d ++ map attr_node a) [] (match x, ks with None, [] => true | _, _ => false end)
        (match x, ks with
         | None, [] => []
         | _, _ => Data (map text_piece (text_of x)) :: gap f [10] ::
                   flat_map (fun k => [gap f (indent (S level)); nd f (S level) k; gap f [10]]) ks ++ [gap f (indent level)]
         end) []
  end.

Lemma spelling_lit s : spelling (map Lit s) = s.
Proof. unfold spelling. induction s as [|c s IH]; [reflexivity|]. cbn [map flat_map piece_text]. now rewrite IH. Qed.
Lemma spelled_lit s : spelled (map Lit s) = s.
Proof. unfold spelled. rewrite map_map. cbn [piece_char]. apply map_id. Qed.
Lemma spelling_text s : spelling (map text_piece s) = flat_map lx_esc_text s.
Proof.
  unfold spelling. induction s as [|c s IH]; [reflexivity|]. cbn [map flat_map]. rewrite IH. f_equal. unfold text_piece, lx_esc_text.
  destruct (c =? 60); [reflexivity|]. destruct (c =? 62); [reflexivity|]. destruct (c =? 38); [reflexivity|]. now destruct (c =? 13).
Qed.
Lemma spelling_attr s : spelling (map attr_piece s) = flat_map lx_esc_attr s.
Proof.
  unfold spelling. induction s as [|c s IH]; [reflexivity|]. cbn [map flat_map]. rewrite IH. f_equal. unfold attr_piece, lx_esc_attr, text_piece, lx_esc_text.
  destruct (c =? 34); [reflexivity|]. destruct (c =? 10); [reflexivity|]. destruct (c =? 9); [reflexivity|].
  destruct (c =? 60); [reflexivity|]. destruct (c =? 62); [reflexivity|]. destruct (c =? 38); [reflexivity|]. now destruct (c =? 13).
Qed.
Lemma spelled_text s : spelled (map text_piece s) = s.
Proof.
  unfold spelled. rewrite map_map. rewrite <- (map_id s) at 2. apply map_ext. intro c. unfold text_piece.
  destruct (N.eqb_spec c 60) as [->|]; [reflexivity|]. destruct (N.eqb_spec c 62) as [->|]; [reflexivity|]. destruct (N.eqb_spec c 38) as [->|]; [reflexivity|].
  now destruct (N.eqb_spec c 13) as [->|].
Qed.
Lemma meant_attr s : map (piece_char attr_norm) (map attr_piece s) = s.
Proof.
  rewrite map_map. rewrite <- (map_id s) at 2. apply map_ext. intro c. unfold attr_piece, text_piece.
  destruct (N.eqb_spec c 34) as [->|]; [reflexivity|]. destruct (N.eqb_spec c 10) as [->|N1]; [reflexivity|]. destruct (N.eqb_spec c 9) as [->|N2]; [reflexivity|].
  destruct (N.eqb_spec c 60) as [->|]; [reflexivity|]. destruct (N.eqb_spec c 62) as [->|]; [reflexivity|]. destruct (N.eqb_spec c 38) as [->|]; [reflexivity|].
  destruct (N.eqb_spec c 13) as [->|N3]; [reflexivity|]. cbn [piece_char]. unfold attr_norm, xml_space. destruct (N.eqb_spec c 32) as [->|]; [reflexivity|].
  apply N.eqb_neq in N1, N2, N3. now rewrite N1, N2, N3.
Qed.
Lemma meant_uri s : forallb uri_char s = true -> map (piece_char attr_norm) (map Lit s) = s.
Proof.
  intro H. rewrite map_map. rewrite <- (map_id s) at 2. apply map_ext_in. intros c Hc. rewrite forallb_forall in H. specialize (H c Hc). cbn [piece_char].
  unfold uri_char in H. apply andb_prop in H as [_ H]. cbn [existsb] in H. rewrite !negb_orb in H. rewrite !andb_true_iff, !negb_true_iff in H. destruct H as (H1 & H2 & H3 & _).
  unfold attr_norm, xml_space. rewrite H1, H2, H3. destruct (N.eqb_spec c 32) as [->|]; reflexivity.
Qed.

Lemma flat_map_map {A B C} (f : B -> list C) (g : A -> B) l : flat_map f (map g l) = flat_map (fun x => f (g x)) l.
Proof. induction l as [|x l IH]; [reflexivity|]. cbn [map flat_map]. now rewrite IH. Qed.
Lemma flat_map_flat {A B C} (f : B -> list C) (g : A -> list B) l : flat_map f (flat_map g l) = flat_map (fun x => flat_map f (g x)) l.
Proof. induction l as [|x l IH]; [reflexivity|]. cbn [flat_map]. now rewrite flat_map_app, IH. Qed.
Lemma gap_text b s : node_text (gap b s) = if b then s else [].
Proof. unfold gap. cbn [node_text]. apply spelling_lit. Qed.

Theorem nd_text n : forall fmt level, node_text (nd fmt level n) = lx_print fmt level n.
Proof.
  induction n as [t d a x ks IH] using lnode_ind'. intros fmt level. cbn [nd node_text lx_print]. cbv zeta. f_equal. f_equal.
  rewrite flat_map_app, !flat_map_map. rewrite <- !app_assoc. f_equal.
  { apply flat_map_ext. intros [p uri]. unfold decl_node, lx_decl. cbn [attribute_text fst snd app]. now rewrite spelling_lit. }
  f_equal. { apply flat_map_ext. intros [k v]. unfold attr_node, lx_attr. cbn [attribute_text fst snd app]. now rewrite spelling_attr. }
  cbn [app].
  assert (B : forall f, flat_map node_text (Data (map text_piece (text_of x)) :: gap f [10] :: flat_map (fun k => [gap f (indent (S level)); nd f (S level) k; gap f [10]]) ks ++ [gap f (indent level)]) =
    match x with Some s => flat_map lx_esc_text s | None => [] end ++ (if f then [10] else []) ++
    flat_map (fun k => (if f then indent (S level) else []) ++ lx_print f (S level) k ++ (if f then [10] else [])) ks ++ (if f then indent level else [])).
  { intro f. cbn [flat_map]. rewrite flat_map_app. cbn [flat_map]. rewrite !gap_text, app_nil_r. f_equal; [cbn [node_text]; rewrite spelling_text; now destruct x|]. f_equal. f_equal.
    rewrite flat_map_flat. rewrite !flat_map_concat_map. f_equal. apply map_ext_in. intros k Hk. rewrite Forall_forall in IH. cbn [flat_map]. rewrite (IH k Hk), !gap_text, app_nil_r. now rewrite <- ?app_assoc. }
  destruct x as [s|]; [|destruct ks as [|k ks]; [reflexivity|]]; rewrite B; rewrite <- !app_assoc; reflexivity.
Qed.

(** ** It is well-formed *)

Definition key_of (d : ustr * ustr) : ustr := fst (declaration (snd d, fst d)).
Inductive lfine : lnode -> Prop :=
| lfine_node t d a x ks : printed_name t = true -> forallb (fun d => printed_name (key_of d) && forallb uri_char (snd d)) d = true ->
    forallb (fun kv : ustr * ustr => printed_name (fst kv) && forallb xml_char (snd kv)) a = true -> distinct (map key_of d ++ map fst a) = true ->
    chars_ok xml_char x = true -> Forall lfine ks -> lfine (LNode t d a x ks).

Definition clean (c : N) : bool := xml_char c && negb (c =? 13).
Lemma name_clean c : any_name_char c = true -> clean c = true.
Proof. intro H. unfold clean. rewrite (any_name_xml c H). destruct (N.eqb_spec c 13) as [->|]; [discriminate|reflexivity]. Qed.
Lemma names_clean s : forallb any_name_char s = true -> forallb clean s = true.
Proof. intro H. rewrite forallb_forall in *. intros c Hc. apply name_clean. auto. Qed.
Lemma printed_parts n : printed_name n = true -> uempty n = false /\ forallb any_name_char n = true.
Proof. unfold printed_name. intro H. apply andb_prop in H as [H1 H2]. split; [now apply negb_true_iff|exact H2]. Qed.

Lemma text_clean s : forallb xml_char s = true -> forallb clean (flat_map lx_esc_text s) = true.
Proof.
  intro H. apply forallb_flat_map. intros c Hc. rewrite forallb_forall in H. specialize (H c Hc). unfold lx_esc_text.
  destruct (c =? 60); [reflexivity|]. destruct (c =? 62); [reflexivity|]. destruct (c =? 38); [reflexivity|]. destruct (c =? 13) eqn:E; [reflexivity|]. cbn [forallb]. unfold clean. now rewrite H, E.
Qed.
Lemma attr_clean s : forallb xml_char s = true -> forallb clean (flat_map lx_esc_attr s) = true.
Proof.
  intro H. apply forallb_flat_map. intros c Hc. rewrite forallb_forall in H. assert (H' : forallb xml_char [c] = true) by (cbn [forallb]; now rewrite (H c Hc)). apply text_clean in H'. cbn [flat_map] in H'. rewrite app_nil_r in H'.
  unfold lx_esc_attr. destruct (c =? 34); [reflexivity|]. destruct (c =? 10); [reflexivity|]. destruct (c =? 9); [reflexivity|]. exact H'.
Qed.
Lemma uri_clean s : forallb uri_char s = true -> forallb clean s = true.
Proof.
  intro H. rewrite forallb_forall in *. intros c Hc. specialize (H c Hc). unfold uri_char in H. apply andb_prop in H as [H1 H2]. unfold clean. rewrite H1. cbn [existsb] in H2. rewrite !negb_orb, !andb_true_iff in H2. tauto.
Qed.
Lemma indent_clean level : forallb clean (indent level) = true.
Proof. unfold indent. apply forallb_forall. intros c Hc. apply repeat_spec in Hc. now subst. Qed.

Lemma print_clean n : lfine n -> forall fmt level, forallb clean (lx_print fmt level n) = true.
Proof.
  induction n as [t d a x ks IH] using lnode_ind'. intros L fmt level. inversion L as [? ? ? ? ? T D A N X F]; subst. cbn [lx_print]. apply printed_parts in T as [_ T]. apply names_clean in T.
  rewrite !forallb_app, T. change (forallb clean (u "<")) with true. cbn [andb].
  replace (forallb clean (flat_map lx_decl d)) with true.
  2:{ symmetry. apply forallb_flat_map. intros [p uri] Hd. rewrite forallb_forall in D. specialize (D _ Hd). apply andb_prop in D as [D1 D2]. apply printed_parts in D1 as [_ D1]. cbn [snd] in D2.
      unfold lx_decl. fold (key_of (p, uri)). rewrite !forallb_app, (names_clean _ D1). cbn [snd]. rewrite (uri_clean _ D2). reflexivity. }
  replace (forallb clean (flat_map lx_attr a)) with true.
  2:{ symmetry. apply forallb_flat_map. intros [k v] Hd. rewrite forallb_forall in A. specialize (A _ Hd). apply andb_prop in A as [D1 D2]. apply printed_parts in D1 as [_ D1]. cbn [snd fst] in *.
      unfold lx_attr. rewrite !forallb_app. cbn [fst snd]. rewrite (names_clean _ D1), (attr_clean _ D2). reflexivity. }
  assert (B : forall f, forallb clean (u ">" ++ match x with Some s => flat_map lx_esc_text s | None => [] end ++ (if f : bool then [10] else []) ++
    flat_map (fun k => (if f : bool then indent (S level) else []) ++ lx_print f (S level) k ++ (if f : bool then [10] else [])) ks ++ (if f : bool then indent level else []) ++ u "</" ++ t ++ u ">") = true).
  { intro f. rewrite !forallb_app, T. replace (forallb clean match x with Some s => flat_map lx_esc_text s | None => [] end) with true by (symmetry; destruct x; [now apply text_clean|reflexivity]).
    replace (forallb clean (if f then [10] else [])) with true by (now destruct f). replace (forallb clean (if f then indent level else [])) with true by (symmetry; destruct f; [apply indent_clean|reflexivity]).
    replace (forallb clean (flat_map _ ks)) with true; [reflexivity|]. symmetry. apply forallb_flat_map. intros k Hk. rewrite Forall_forall in IH, F. rewrite !forallb_app, (IH k Hk (F k Hk)).
    destruct f; [rewrite indent_clean|]; reflexivity. }
  cbn [andb]. destruct x as [s|]; [apply B|]. destruct ks as [|k ks]; [reflexivity|]. apply B.
Qed.

Definition no62 (s : ustr) : bool := forallb (fun c => negb (c =? 62)) s.
Definition data_fine (x : node) : bool := match x with Data p => no62 (spelling p) | Element _ _ _ _ _ _ => true | _ => false end.
Lemma data_ok_fine l : forallb data_fine l = true -> forall acc, no62 acc = true -> data_ok acc l = true.
Proof.
  induction l as [|x l IH]; intros H acc A; cbn [data_ok]; [now rewrite no_cdata_end|]. cbn [forallb] in H. apply andb_prop in H as [H1 H2]. destruct x; try discriminate H1.
  - apply IH; [exact H2|]. unfold no62. rewrite forallb_app. unfold no62 in A. rewrite A. exact H1.
  - rewrite no_cdata_end by exact A. cbn [negb andb]. now apply IH.
Qed.
Lemma text_no62 s : no62 (flat_map lx_esc_text s) = true.
Proof.
  apply forallb_flat_map. intros c _. unfold lx_esc_text. destruct (c =? 60); [reflexivity|]. destruct (c =? 62) eqn:E; [reflexivity|]. destruct (c =? 38); [reflexivity|]. destruct (c =? 13); [reflexivity|]. cbn [forallb]. now rewrite E.
Qed.
Lemma gap_fine b s : no62 s = true -> data_fine (gap b s) = true.
Proof. intro H. unfold gap. cbn [data_fine]. rewrite spelling_lit. now destruct b. Qed.
Lemma indent_no62 level : no62 (indent level) = true.
Proof. unfold indent. apply forallb_forall. intros c Hc. apply repeat_spec in Hc. now subst. Qed.
Lemma gap_ok b s : forallb (fun c => c =? 32) s = true \/ s = [10] -> node_ok (gap b s) = true.
Proof.
  intro H. unfold gap. cbn [node_ok]. destruct b; [|reflexivity]. apply forallb_forall. intros p Hp. apply in_map_iff in Hp as [c [<- Hc]]. destruct H as [H| ->].
  - rewrite forallb_forall in H. specialize (H c Hc). apply N.eqb_eq in H. now subst.
  - destruct Hc as [<-|[]]. reflexivity.
Qed.
Lemma indent_spaces level : forallb (fun c => c =? 32) (indent level) = true.
Proof. unfold indent. apply forallb_forall. intros c Hc. apply repeat_spec in Hc. now subst. Qed.

Lemma nd_ok n : lfine n -> forall fmt level, node_ok (nd fmt level n) = true.
Proof.
  induction n as [t d a x ks IH] using lnode_ind'. intros L fmt level. inversion L as [? ? ? ? ? T D A N X F]; subst. cbn [nd node_ok]. cbv zeta. apply printed_parts in T as [T1 T2]. rewrite T1, T2. cbn [negb andb].
  replace (forallb attribute_ok (map decl_node d ++ map attr_node a)) with true.
  2:{ symmetry. rewrite forallb_app. apply andb_true_intro. split.
      - apply forallb_forall. intros y Hy. apply in_map_iff in Hy as [[p uri] [<- Hy]]. rewrite forallb_forall in D. specialize (D _ Hy). apply andb_prop in D as [D1 D2]. apply printed_parts in D1 as [D0 D1].
        unfold decl_node. cbn [attribute_ok]. fold (key_of (p, uri)). rewrite D0, D1. cbn [uempty negb spaces forallb andb xml_space quote_ok snd]. change (xml_space 32) with true. change (quote_ok 34) with true. cbn [andb].
        apply forallb_forall. intros q Hq. apply in_map_iff in Hq as [c [<- Hc]]. cbn [snd] in D2. rewrite forallb_forall in D2. specialize (D2 c Hc). unfold uri_char in D2. cbn [existsb] in D2. rewrite !negb_orb in D2. rewrite !andb_true_iff in D2.
        cbn [piece_ok]. rewrite !andb_true_iff. tauto.
      - apply forallb_forall. intros y Hy. apply in_map_iff in Hy as [[k v] [<- Hy]]. rewrite forallb_forall in A. specialize (A _ Hy). apply andb_prop in A as [D1 D2]. apply printed_parts in D1 as [D0 D1].
        unfold attr_node. cbn [attribute_ok fst snd] in *. rewrite D0, D1. cbn [uempty negb spaces forallb andb]. change (xml_space 32) with true. change (quote_ok 34) with true. cbn [andb].
        apply forallb_forall. intros q Hq. apply in_map_iff in Hq as [c [<- Hc]]. rewrite forallb_forall in D2. specialize (D2 c Hc). unfold attr_piece, text_piece.
        destruct (c =? 34) eqn:E1; [reflexivity|]. destruct (c =? 10); [reflexivity|]. destruct (c =? 9); [reflexivity|]. destruct (c =? 60) eqn:E2; [reflexivity|]. destruct (c =? 62); [reflexivity|]. destruct (c =? 38) eqn:E3; [reflexivity|]. destruct (c =? 13); [reflexivity|].
        cbn [piece_ok]. now rewrite D2, E1, E2, E3. }
  replace (distinct (map (fun x => fst (attribute_meant x)) (map decl_node d ++ map attr_node a))) with true.
  2:{ rewrite map_app, !map_map. symmetry. exact N. }
  cbn [spaces forallb andb].
  assert (C : forall f, let l := Data (map text_piece (text_of x)) :: gap f [10] :: flat_map (fun k => [gap f (indent (S level)); nd f (S level) k; gap f [10]]) ks ++ [gap f (indent level)] in
    forallb node_ok l && data_ok [] l = true).
  { intros f l. apply andb_true_intro. split.
    - unfold l. cbn [forallb]. rewrite forallb_app. cbn [forallb]. rewrite !gap_ok by (auto using indent_spaces). cbn [andb]. rewrite andb_true_r. apply andb_true_intro. split.
      + cbn [node_ok]. apply forallb_forall. intros p Hp. apply in_map_iff in Hp as [c [<- Hc]]. destruct x as [s|]; [|contradiction]. cbn [chars_ok text_of] in *. rewrite forallb_forall in X. specialize (X c Hc). unfold text_piece.
        destruct (c =? 60) eqn:E1; [reflexivity|]. destruct (c =? 62); [reflexivity|]. destruct (c =? 38) eqn:E2; [reflexivity|]. destruct (c =? 13); [reflexivity|]. cbn [piece_ok]. now rewrite X, E1, E2.
      + apply forallb_flat_map. intros k Hk. rewrite Forall_forall in IH, F. cbn [forallb]. rewrite !gap_ok by (auto using indent_spaces). now rewrite (IH k Hk (F k Hk)).
    - apply data_ok_fine; [|reflexivity]. unfold l. cbn [forallb]. rewrite forallb_app. cbn [forallb]. rewrite !gap_fine by (apply indent_no62 || reflexivity). cbn [data_fine]. rewrite spelling_text, text_no62. cbn [andb]. rewrite andb_true_r.
      apply forallb_flat_map. intros k _. cbn [forallb]. rewrite !gap_fine by (apply indent_no62 || reflexivity). cbn [andb]. destruct k. reflexivity. }
  destruct x as [s|]; [|destruct ks as [|k ks]; [reflexivity|]]; rewrite C; reflexivity.
Qed.

(** ** What it means *)

Fixpoint lay (fmt : bool) (level : nat) (n : lnode) : elem :=
  match n with
  | LNode t d a x ks =>
      let f := fmt && no_text x in
      Elem t (map (fun d => declaration (snd d, fst d)) d ++ a)
        (match x, ks with
         | None, [] => None
         | Some s, _ => some_text s
         | None, _ => if f then Some (10 :: indent (S level)) else None
         end) (map (lay f (S level)) ks)
  end.

Lemma leading_data lib p l : leading lib (Data p :: l) = spelled p ++ leading lib l.
Proof. reflexivity. Qed.
Lemma leading_gap lib b s l : leading lib (gap b s :: l) = (if b then s else []) ++ leading lib l.
Proof. unfold gap. cbn [leading]. now rewrite spelled_lit. Qed.

Lemma nd_meant lib n : lfine n -> forall fmt level, meant lib (nd fmt level n) = [lay fmt level n].
Proof.
  induction n as [t d a x ks IH] using lnode_ind'. intros L fmt level. inversion L as [? ? ? ? ? T D A N X F]; subst. cbn [nd meant lay]. cbv zeta. f_equal. f_equal.
  - rewrite map_app, !map_map. f_equal.
    + apply map_ext_in. intros [p uri] Hd. rewrite forallb_forall in D. specialize (D _ Hd). apply andb_prop in D as [_ D]. unfold decl_node. cbn [attribute_meant fst snd] in *. rewrite meant_uri by exact D. reflexivity.
    + rewrite <- (map_id a) at 2. apply map_ext. intros [k v]. unfold attr_node. cbn [attribute_meant fst snd]. now rewrite meant_attr.
  - assert (B : forall f, leading lib (Data (map text_piece (text_of x)) :: gap f [10] :: flat_map (fun k => [gap f (indent (S level)); nd f (S level) k; gap f [10]]) ks ++ [gap f (indent level)]) =
      text_of x ++ (if f then [10] else []) ++ (if f then match ks with [] => indent level | _ => indent (S level) end else [])).
    { intro f. rewrite leading_data, spelled_text. f_equal. rewrite leading_gap. f_equal. destruct ks as [|k ks]; cbn [flat_map app].
      - rewrite leading_gap. cbn [leading]. now rewrite app_nil_r.
      - rewrite leading_gap. destruct k. cbn [nd leading]. now rewrite app_nil_r. }
    destruct x as [s|].
    + rewrite B. cbn [no_text text_of]. rewrite andb_false_r. now rewrite !app_nil_r.
    + destruct ks as [|k ks]; [reflexivity|]. rewrite B. cbn [no_text text_of app]. rewrite andb_true_r. now destruct fmt.
  - assert (C : forall f, flat_map (meant lib) (Data (map text_piece (text_of x)) :: gap f [10] :: flat_map (fun k => [gap f (indent (S level)); nd f (S level) k; gap f [10]]) ks ++ [gap f (indent level)]) = map (lay f (S level)) ks).
    { intro f. cbn [flat_map meant gap app]. rewrite flat_map_app. cbn [flat_map meant gap app]. rewrite app_nil_r. clear - IH F. induction ks as [|k ks IHk]; [reflexivity|]. inversion IH; inversion F; subst. cbn [flat_map map app]. 
      cbn [meant gap]. cbn [app]. rewrite H1 by assumption. cbn [app]. f_equal. now apply IHk. }
    destruct x as [s|]; [|destruct ks as [|k ks]; [reflexivity|]]; apply C.
Qed.

Theorem lx_parsed n pretty : lfine n -> forall lib enc, enc None = true ->
  forallb clean (lx_tostring pretty n) = true /\ parse_document lib enc (lx_tostring pretty n) = resolve [] (lay pretty 0 n).
Proof.
  intros L lib enc E. assert (C : forallb clean (lx_tostring pretty n) = true).
  { unfold lx_tostring. rewrite forallb_app, print_clean by exact L. now destruct pretty. }
  split; [exact C|].
  destruct (document_parsed lib enc None [] (nd pretty 0 n) [Space (if pretty then [10] else [])] (lx_tostring pretty n)) as (el & M & P).
  - cbn [document_ok opt_ok forallb misc_ok andb]. rewrite nd_ok by exact L. destruct n. destruct pretty; reflexivity.
  - unfold is_text_of. rewrite line_ends_id.
    + cbn [document_text opt flat_map misc_text app]. rewrite nd_text, app_nil_r. reflexivity.
    + rewrite forallb_forall in *. intros c Hc. specialize (C c Hc). now apply andb_prop in C.
  - rewrite nd_meant in M by exact L. injection M as <-. rewrite P. cbn [encoding_of]. now rewrite E.
Qed.

(** ** White space *)

(** Blank text comes in where there are children. *)
Inductive filled : elem -> elem -> Prop :=
| filled_elem t a x x' ks ks' : (x = x' \/ x = None /\ ks <> [] /\ exists w, x' = Some w /\ forallb is_space w = true) -> Forall2 filled ks ks' ->
    filled (Elem t a x ks) (Elem t a x' ks').

Lemma filled_refl e : filled e e.
Proof. induction e as [t a x ks IH] using elem_ind'. constructor; [now left|]. induction IH; constructor; auto. Qed.

Lemma filled_lay n : solid (raw n) = true -> forall fmt level, filled (raw n) (lay fmt level n).
Proof.
  induction n as [t d a x ks IH] using lnode_ind'. intros S fmt level. cbn [raw solid] in S. apply andb_prop in S as [S1 S2]. cbn [raw lay]. cbv zeta. constructor.
  - destruct x as [[|c s]|]; [discriminate S1|now left|]. destruct ks as [|k ks]; [now left|]. cbn [no_text]. rewrite andb_true_r. destruct fmt; [|now left].
    right. split; [reflexivity|]. split; [discriminate|]. eexists. split; [reflexivity|]. cbn [forallb]. change (is_space 10) with true. cbn [andb]. unfold indent. apply forallb_forall. intros c Hc. apply repeat_spec in Hc. now subst.
  - rewrite forallb_forall in S2. clear S1. induction IH as [|k ks H _ IHk]; [constructor|]. cbn [map]. constructor; [apply H, S2; now left|]. apply IHk. intros k' Hk. apply S2. now right.
Qed.
Lemma plain_lay n : solid (raw n) = true -> forall level, lay false level n = raw n.
Proof.
  induction n as [t d a x ks IH] using lnode_ind'. intros S level. cbn [raw solid] in S. apply andb_prop in S as [S1 S2]. cbn [raw lay]. cbv zeta. cbn [andb]. f_equal.
  - destruct x as [[|c s]|]; [discriminate S1|reflexivity|]. now destruct ks.
  - apply map_ext_in. intros k Hk. rewrite Forall_forall in IH. rewrite forallb_forall in S2. apply IH; [exact Hk|]. apply S2. now apply in_map.
Qed.

Lemma resolve_filled e e' : filled e e' -> forall env r, resolve env e = Some r -> exists r', resolve env e' = Some r' /\ filled r r'.
Proof.
  revert e'. induction e as [t a x ks IH] using elem_ind'. intros e' F env r R. inversion F as [t' a' x1 x2 ks1 ks2 X K]; subst. clear F. cbn [resolve] in R |- *.
  destruct (expand (declarations a ++ env) true t) as [t'|]; [|discriminate]. destruct (all_some (map _ (filter _ a))) as [a''|]; [|discriminate].
  destruct (all_some (map (resolve (declarations a ++ env)) ks)) as [ks'|] eqn:E; [|discriminate]. destruct (forallb declaration_ok (declarations a) && distinct (map fst a'')); [|discriminate]. injection R as <-.
  assert (Q : exists ks3, all_some (map (resolve (declarations a ++ env)) ks2) = Some ks3 /\ Forall2 filled ks' ks3 /\ (ks <> [] -> ks' <> [])).
  { clear X. revert ks' E IH. induction K as [|k k2 ks ks2 H _ IHk]; intros ks' E IH; [exists []; injection E as <-; repeat split; [constructor|contradiction]|]. cbn [map all_some] in E |- *.
    destruct (resolve (declarations a ++ env) k) as [r|] eqn:E1; [|discriminate]. inversion IH as [|? ? IH1 IH2]; subst. destruct (IH1 k2 H _ _ E1) as (r' & -> & Fr).
    destruct (all_some (map (resolve (declarations a ++ env)) ks)) as [rs|] eqn:E2; [|discriminate]. cbn [option_map] in E |- *. injection E as <-. destruct (IHk rs eq_refl IH2) as (ks3 & -> & F3 & _). exists (r' :: ks3).
    split; [reflexivity|]. split; [now constructor|discriminate]. }
  destruct Q as (ks3 & -> & F3 & N3). eexists. split; [reflexivity|]. constructor; [|exact F3]. destruct X as [->|(-> & N & w & -> & B)]; [now left|]. right. eauto 10.
Qed.

(** Blank text in elements whose text is not sensitive means nothing. *)
Definition closing (ns : ustr) : bool := uempty ns || (last ns 0 =? 125).
Lemma ends_inside ns n t : closing ns = true -> t <> [] -> forallb (fun c => negb (c =? 125)) t = true -> ends_with (ns ++ n) t = true -> ends_with n t = true.
Proof.
  intros C T N E. destruct (Nat.leb_spec (length t) (length n)) as [L|L]; [now rewrite ends_with_tail in E|]. exfalso.
  unfold closing in C. destruct ns as [|c ns]; [cbn [app] in E; unfold ends_with in E; apply andb_prop in E as [E _]; apply Nat.leb_le in E; lia|]. cbn [uempty orb] in C. apply N.eqb_eq in C.
  assert (Z : exists m, c :: ns = m ++ [125]). { exists (removelast (c :: ns)). rewrite <- C. apply app_removelast_last. discriminate. }
  destruct Z as [m Z]. rewrite Z in E. unfold ends_with in E. apply andb_prop in E as [E1 E2]. apply Nat.leb_le in E1. apply ueqb_eq in E2. rewrite <- app_assoc in E1, E2.
  assert (In 125 t).
  { rewrite <- E2. rewrite skipn_app. rewrite !app_length in *. cbn [length] in *. apply in_or_app. right.
    match goal with |- In _ (skipn ?k _) => replace k with 0%nat by lia end. cbn [skipn app]. now left. }
  rewrite forallb_forall in N. specialize (N _ H). discriminate N.
Qed.
Lemma filled_respaced e e' : laid closing e -> filled e e' -> respaced e e'.
Proof.
  revert e'. induction e as [t a x ks IH] using elem_ind'. intros e' L F. inversion F as [t' a' x1 x2 ks1 ks2 X K]; subst. inversion L as [ns n ? ? ? C N S A Fk]; subst. clear F L. constructor.
  - destruct X as [->|(-> & Nk & w & -> & B)].
    + unfold text_respaced. destruct (ends_with _ (u "when")); [reflexivity|]. destruct (_ || _); [|reflexivity]. destruct x2; auto. split; [reflexivity|tauto].
    + destruct S as [S|S]; [contradiction|]. unfold sensitive in S. rewrite !orb_false_iff in S. destruct S as (S1 & (S2 & S3) & S4).
      assert (G : forall t, t <> [] -> forallb (fun c => negb (c =? 125)) t = true -> ends_with n t = false -> ends_with (ns ++ n) t = false).
      { intros t T1 T2 T3. destruct (ends_with (ns ++ n) t) eqn:E; [|reflexivity]. rewrite (ends_inside ns n t C T1 T2 E) in T3. discriminate. }
      unfold text_respaced. rewrite !G by (assumption || discriminate || reflexivity). cbn [orb stripped]. unfold strip. rewrite lstrip_all_spaces by exact B. reflexivity.
  - clear X S. revert IH Fk. induction K as [|k k2 ks ks2 H _ IHk]; intros IH Fk; [constructor|]. inversion IH; inversion Fk; subst. constructor; [|now apply IHk]. auto.
Qed.

Lemma laid_read ok e : (forall ns, ok ns = true -> ns_plain ns = true) -> laid ok e -> forall d, closing d = true -> laid closing (as_read d e).
Proof.
  intro P. assert (Pc : forall ns, ns_plain ns = true -> closing ns = true).
  { intros ns H. destruct (ns_plain_inv ns H) as [->|(uri & -> & _)]; [reflexivity|]. unfold closing. change (u "{" ++ uri ++ u "}") with ((123 :: uri) ++ [125]). rewrite last_last. now rewrite orb_true_r. }
  induction e as [t a x ks IH] using elem_ind'. intros L d D. inversion L as [ns n ? ? ? C N S A Fk]; subst. clear L. cbn [as_read].
  assert (D' : closing (default_of d a) = true).
  { unfold default_of. destruct (uget (u "xmlns") a) as [uri|]; [|exact D]. destruct (uempty uri); [reflexivity|]. unfold closing. change (u "{" ++ uri ++ u "}") with ((123 :: uri) ++ [125]). rewrite last_last. now rewrite orb_true_r. }
  assert (K : Forall (laid closing) (map (as_read (default_of d a)) ks)).
  { rewrite Forall_map. rewrite Forall_forall in *. intros k Hk. now apply IH; [| apply Fk |]. }
  assert (S' : map (as_read (default_of d a)) ks = [] \/ sensitive n = false) by (destruct S as [->|S]; [now left|now right]).
  assert (A' : plain_keys (filter (fun kv => negb (ueqb (fst kv) (u "xmlns"))) a)).
  { unfold plain_keys. rewrite Forall_forall in *. intros kv Hkv. apply filter_In in Hkv as [Hkv _]. auto. }
  destruct (ns_plain_inv ns (P ns C)) as [->|(uri & -> & _)].
  - cbn [app]. destruct (split_plain n N) as [_ ->]. constructor; auto.
  - change (qualified ((u "{" ++ uri ++ u "}") ++ n)) with true. cbv iota. constructor; auto.
Qed.

(** ** What lxml prints is fit for all this *)

Lemma ncname_printed n : ncname n = true -> printed_name n = true.
Proof. intro H. apply ncname_chars in H as (H1 & H2 & _). unfold printed_name. rewrite H2. now destruct n. Qed.
Lemma prefixed_printed p n : p = [] \/ ncname p = true -> ncname n = true -> printed_name (prefixed p n) = true.
Proof.
  intros P N. apply ncname_printed in N as N'. destruct P as [->|P]; [exact N'|]. rewrite prefixed_some by now apply ncname_some.
  apply printed_parts in N' as [_ N2]. apply ncname_printed, printed_parts in P as [P1 P2]. unfold printed_name. rewrite !forallb_app, P2, N2. now destruct p.
Qed.
Lemma key_printed p (uri : ustr) : p = [] \/ ncname p = true -> printed_name (key_of (p, uri)) = true.
Proof.
  intros [->|P]; [reflexivity|]. apply ncname_printed, printed_parts in P as [P1 P2]. unfold key_of, declaration. cbn [fst snd]. destruct p as [|c p]; [discriminate|].
  unfold printed_name. now rewrite !forallb_app, P2.
Qed.

Section Fine.
  Variable known : prefixes_t.
  Variable fresh : list nat -> nat.
  Hypothesis K : known_ok known = true.
  Variable ok : ustr -> bool.
  Hypothesis ok_plain : forall ns, ok ns = true -> ns_plain ns = true.

  Lemma attrs_printed a : plain_keys a -> forallb attr_ok a = true -> forallb (fun kv : ustr * ustr => printed_name (fst kv) && forallb xml_char (snd kv)) a = true.
  Proof.
    intros P A. unfold plain_keys in P. rewrite Forall_forall in P. rewrite forallb_forall in *. intros kv Hk. rewrite (ncname_printed _ (P kv Hk)). specialize (A kv Hk). unfold attr_ok in A. rewrite !andb_true_iff in A. tauto.
  Qed.
  Lemma xmlns_fresh p (uri : ustr) a : prefix_fine p -> plain_keys a -> distinct (map fst a) = true -> distinct (map key_of [(p, uri)] ++ map fst a) = true.
  Proof.
    intros (P & _ & _) A D. cbn [map app distinct]. rewrite D, andb_true_r. apply negb_true_iff. destruct (existsb _ _) eqn:E; [|reflexivity]. exfalso.
    apply existsb_exists in E as [k [Hk E]]. apply ueqb_eq in E. subst k. apply in_map_iff in Hk as [kv [E Hk]]. unfold plain_keys in A. rewrite Forall_forall in A. specialize (A kv Hk). rewrite E in A.
    unfold key_of, declaration in A. cbn [fst snd] in A. destruct p; discriminate.
  Qed.

  Lemma lx_fine e : laid ok e -> elem_ok xml_char e = true -> forall scope place, scope_ok scope -> lfine (lx known fresh scope place e).
  Proof.
    induction e as [t a x ks IH] using elem_ind'. intros L X scope place Sc. inversion L as [ns n a' x' ks' O N S A F]; subst. clear L.
    cbn [elem_ok] in X. apply andb_prop in X as [X X5]. apply andb_prop in X as [X X4]. apply andb_prop in X as [X X3]. apply andb_prop in X as [X1 X2].
    assert (Ks : forall sc, scope_ok sc -> forall i, Forall lfine (lx_all known fresh sc place i ks)).
    { intros sc Hsc. rewrite forallb_forall in X5. clear - IH F X5 Hsc. induction IH as [|k ks H _ IHk]; intro i; [constructor|]. inversion F; subst. cbn [lx_all]. constructor; [apply H; auto; apply X5; now left|].
      apply IHk; try assumption. intros k' Hk. apply X5. now right. }
    rewrite lx_unfold. assert (Ap := attrs_printed a A X2). destruct (ns_plain_inv ns (ok_plain ns O)) as [->|(uri & -> & U1 & U2 & U3 & U4)].
    - cbn [app] in *. destruct (split_plain n N) as [-> _]. constructor; auto. now apply ncname_printed.
    - rewrite (split_braced uri n N). replace (ueqb uri XML_NS) with false by (symmetry; now apply ueqb_neq). destruct (search scope uri) as [p|] eqn:E.
      + apply search_some in E. constructor; auto. apply prefixed_printed; [|exact N]. destruct (fine_or_none scope p uri Sc E) as [->|[P _]]; auto.
      + cbv zeta. set (p := match uget uri known with Some p => p | None => numbered (fresh place) end). assert (P : prefix_fine p) by (now apply new_prefix).
        constructor; auto.
        * apply prefixed_printed; [right; exact (proj1 P)|exact N].
        * cbn [forallb snd]. rewrite key_printed by (right; exact (proj1 P)). now rewrite U4.
        * now apply xmlns_fresh.
        * apply Ks. intros p' uri' [Q|Q]; [injection Q as <- <-; auto|]. now apply Sc.
  Qed.

  Lemma lx_root_fine e : laid ok e -> elem_ok xml_char e = true -> (forall ns, ok ns = true -> ns <> []) -> no_xmlns e = true -> lfine (lx_root known fresh e).
  Proof.
    intros L X Q Nx. destruct e as [t a x ks]. assert (L' := L). inversion L as [ns n a' x' ks' O N S A F]; subst. clear L.
    destruct (ns_plain_inv ns (ok_plain ns O)) as [->|(uri & -> & U1 & U2 & U3 & U4)]; [now apply Q in O|]. unfold lx_root. rewrite (split_braced uri n N).
    match goal with |- context [lx known fresh ?s ?p ?e] => assert (Fi : lfine (lx known fresh s p e)) end.
    { apply lx_fine; auto. intros p u0 [H|[]]. injection H as <- <-. auto. }
    rewrite lx_unfold in Fi |- *. rewrite (split_braced uri n N) in Fi |- *. replace (ueqb uri XML_NS) with false in * by (symmetry; now apply ueqb_neq).
    match goal with |- context [search ?s ?x] => assert (Se : search s x = Some (@nil BinNums.N)) by (unfold search; cbn [find fst snd uget ueqb]; now rewrite ueqb_refl) end. rewrite Se in Fi |- *.
    inversion Fi as [? ? ? ? ? T D A' Di Xx Kk]; subst. constructor; auto.
    - cbn [forallb snd]. now rewrite U4.
    - cbn [map app distinct] in Di |- *. rewrite Di, andb_true_r. apply negb_true_iff. destruct (existsb _ _) eqn:E; [|reflexivity]. exfalso.
      apply existsb_exists in E as [k [Hk E]]. apply ueqb_eq in E. subst k. apply in_map_iff in Hk as [kv [E Hk]]. cbn [no_xmlns] in Nx. apply andb_prop in Nx as [Nx _]. rewrite forallb_forall in Nx. specialize (Nx kv Hk).
      rewrite E in Nx. discriminate Nx.
  Qed.

  Lemma raw_solid e : forall scope place, solid (raw (lx known fresh scope place e)) = solid e.
  Proof.
    induction e as [t a x ks IH] using elem_ind'. intros scope place.
    assert (Ks : forall sc i, forallb solid (map raw (lx_all known fresh sc place i ks)) = forallb solid ks).
    { intros sc. induction IH as [|k ks H _ IHk]; intro i; [reflexivity|]. cbn [lx_all map forallb]. now rewrite H, IHk. }
    rewrite lx_unfold. cbn [solid]. destruct (split_name t) as [[[uri|] l]|]; [|cbn [raw solid]; now rewrite Ks..]. destruct (ueqb uri XML_NS); [cbn [raw solid]; now rewrite Ks|].
    destruct (search scope uri); cbv zeta; cbn [raw solid]; now rewrite Ks.
  Qed.
  Lemma root_solid e : solid (raw (lx_root known fresh e)) = solid e.
  Proof.
    destruct e as [t a x ks]. unfold lx_root. destruct (split_name t) as [[[uri|] l]|]; [|apply raw_solid..]. assert (H := raw_solid (Elem t a x ks) [([], uri)] []).
    destruct (lx known fresh [([], uri)] [] (Elem t a x ks)). exact H.
  Qed.

  Lemma name_valid n : name_ok n = true -> lx_name n = true.
  Proof.
    unfold name_ok, lx_name. destruct (split_name n) as [[[uri|] l]|] eqn:E; [| |discriminate]; intro H.
    - apply split_inv in E. subst n. rewrite !andb_true_iff in H. destruct H as [[[H1 _] H3] _]. rewrite H1, andb_true_r. rewrite !forallb_app, H3. apply ncname_chars in H1 as (_ & H1 & _).
      replace (forallb xml_char l) with true; [reflexivity|]. symmetry. rewrite forallb_forall in *. intros c Hc. apply any_name_xml. auto.
    - apply split_inv in E as [-> _]. rewrite H, andb_true_r. apply ncname_chars in H as (_ & H1 & _). rewrite forallb_forall in *. intros c Hc. apply any_name_xml. auto.
  Qed.
  Lemma ok_valid e : elem_ok xml_char e = true -> lx_valid e = true.
  Proof.
    induction e as [t a x ks IH] using elem_ind'. cbn [elem_ok lx_valid]. intro X. apply andb_prop in X as [X X5]. apply andb_prop in X as [X X4]. apply andb_prop in X as [X X3]. apply andb_prop in X as [X1 X2].
    rewrite (name_valid t X1). cbn [andb]. apply andb_true_intro. split; [apply andb_true_intro; split|].
    - apply forallb_forall. intros kv Hk. rewrite forallb_forall in X2. specialize (X2 kv Hk). unfold attr_ok in X2. apply andb_prop in X2 as [X2 _]. apply andb_prop in X2 as [Q1 Q2]. apply andb_true_intro. split; [apply name_valid; exact Q1|exact Q2].
    - exact X4.
    - rewrite forallb_forall in *. rewrite Forall_forall in IH. auto.
  Qed.

  Theorem lx_told e (root : bool) pretty : laid ok e -> elem_ok xml_char e = true -> solid e = true -> (root = true -> (forall ns, ok ns = true -> ns <> []) /\ no_xmlns e = true) ->
    let s := lx_tostring pretty (if root then lx_root known fresh e else lx known fresh [] [] e) in
    lx_valid e = true /\ forallb xml_char s = true /\ firstn 1 s = [60] /\
    exists r, respaced (as_read [] e) r /\ (pretty = false -> r = as_read [] e) /\ forall lib enc, enc None = true -> parse_document lib enc s = Some r.
  Proof.
    intros L X S R s. split; [now apply ok_valid|]. set (n := if root then lx_root known fresh e else lx known fresh [] [] e) in *.
    assert (Fi : lfine n) by (unfold n; destruct root; [destruct R; auto; now apply lx_root_fine|apply lx_fine; auto; intros p uri []]).
    assert (So : solid (raw n) = true) by (unfold n; destruct root; [now rewrite root_solid|now rewrite raw_solid]).
    assert (Re : resolve [] (raw n) = Some (as_read [] e)).
    { unfold n. destruct root.
      - destruct R as [R1 R2]; [reflexivity|]. rewrite (as_read_braced ok ok_plain e R1 L R2). now apply (resolve_lx_root known fresh K ok ok_plain).
      - apply (resolve_lx known fresh K ok ok_plain e L X); [split; [intros p uri []|reflexivity]|]. intro U. now contradiction U. }
    split; [|split].
    - destruct (lx_parsed n pretty Fi ElementTree (fun _ => true) eq_refl) as [C _]. fold s in C. rewrite forallb_forall in *. intros c Hc. specialize (C c Hc). now apply andb_prop in C.
    - unfold s, lx_tostring. destruct n. reflexivity.
    - destruct (resolve_filled _ _ (filled_lay n So pretty 0) [] _ Re) as (r & R1 & R2). exists r. split; [|split].
      + apply filled_respaced; [|exact R2]. now apply (laid_read ok).
      + intros ->. rewrite plain_lay in R1 by exact So. congruence.
      + intros lib enc E. unfold s. destruct (lx_parsed n pretty Fi lib enc E) as [_ ->]. exact R1.
  Qed.
End Fine.
