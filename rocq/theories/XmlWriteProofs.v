(** * What the library writes can be told in XML text. *)
From Coq Require Import String List NArith ZArith Bool Lia.
From Verif Require Import Ustr UstrProofs Res PyInt PyFloat PyNumProofs PyDate PyDateProofs Elem Value Geom Codec Spec CodecProofs ItemProofs EmitProofs WriteProofs RoundTrip
  Unprefixed UnprefixedProofs Xml XmlSpec XmlProofs XmlNsProofs.
Import ListNotations.
Local Open Scope N_scope.

(** ** Texts *)

(** Printable ASCII. *)
Definition ascii (c : N) : bool := (32 <=? c) && (c <=? 126).
Definition asciis (s : ustr) : bool := forallb ascii s.
Lemma ascii_text c : ascii c = true -> xml_char c && negb (c =? 13) = true.
Proof.
  unfold ascii, xml_char, in_range. cbn [existsb fst snd]. rewrite !andb_true_iff, !orb_true_iff, !andb_true_iff, !N.leb_le, negb_true_iff, N.eqb_neq. lia.
Qed.
Lemma asciis_plain s : asciis s = true -> text_ok (Some s) = true.
Proof. unfold asciis, text_ok. rewrite !forallb_forall. intros H c Hc. apply ascii_text. auto. Qed.
Lemma asciis_app a b : asciis (a ++ b) = asciis a && asciis b.
Proof. apply forallb_app. Qed.
Lemma numtext_asciis s : numtext s = true -> asciis s = true.
Proof.
  unfold numtext, asciis. rewrite !forallb_forall. intros H c Hc. specialize (H c Hc). unfold numchar, is_adigit, ascii in *.
  rewrite !orb_true_iff, !andb_true_iff, !N.eqb_eq, ?N.leb_le in H. rewrite andb_true_iff, !N.leb_le. lia.
Qed.
Lemma digits_asciis s : forallb is_adigit s = true -> asciis s = true.
Proof. intro H. now apply numtext_asciis, numtext_digits. Qed.
Lemma pad_asciis k n : (0 <= n)%Z -> asciis (pad k n) = true.
Proof.
  intro H. unfold pad. rewrite asciis_app. apply andb_true_iff. split; apply digits_asciis; [apply repeat_digits|now apply digits_of_digits].
Qed.

Lemma date_iso_asciis d : valid_date d = true -> asciis (date_iso d) = true.
Proof. intro H. apply valid_date_inv in H as [H1 [H2 H3]]. unfold date_iso. rewrite !asciis_app, !pad_asciis by lia. reflexivity. Qed.
Lemma off_iso_asciis o : asciis (off_iso o) = true.
Proof.
  destruct o as [o|]; [|reflexivity]. unfold off_iso. cbv zeta.
  assert (0 <= Z.abs o / 3600)%Z by (apply Z.div_pos; lia).
  assert (0 <= Z.abs o / 60 mod 60)%Z by (apply Z.mod_pos_bound; lia).
  assert (0 <= Z.abs o mod 60)%Z by (apply Z.mod_pos_bound; lia).
  rewrite !asciis_app, !pad_asciis by assumption.
  destruct (o <? 0)%Z; destruct (Z.abs o mod 60 =? 0)%Z; rewrite ?asciis_app, ?pad_asciis by assumption; reflexivity.
Qed.
Lemma kdt_asciis k : kdt_normal k = true -> asciis (kdt_str k) = true.
Proof.
  intro H. destruct k as [[d|t] r]; unfold kdt_normal in H; destruct r; cbn [k_res k_dt] in H; try discriminate;
    unfold kdt_str; cbn [k_res k_dt date_of].
  - now apply date_iso_asciis.
  - apply andb_prop in H as [H _]. apply valid_date_inv in H as [H1 [H2 H3]].
    rewrite !asciis_app, pad_asciis by lia. rewrite digits_asciis by (apply digits_of_digits; lia). reflexivity.
  - apply andb_prop in H as [H _]. apply andb_prop in H as [H _]. apply valid_date_inv in H as [H1 [H2 H3]].
    apply digits_asciis, digits_of_digits. lia.
  - apply valid_time_inv in H as [Hd [H1 [H2 [H3 [H4 _]]]]].
    unfold datetime_iso. rewrite !asciis_app, !pad_asciis by lia. rewrite date_iso_asciis by assumption. rewrite off_iso_asciis.
    destruct (us t =? 0)%Z; rewrite ?asciis_app, ?pad_asciis by lia; reflexivity.
Qed.

Lemma asciis_join sep l : asciis sep = true -> forallb asciis l = true -> asciis (join sep l) = true.
Proof.
  intro S. induction l as [|x l IH]; [reflexivity|]. cbn [forallb]. intro H. apply andb_prop in H as [Hx H]. destruct l as [|y l]; [exact Hx|].
  rewrite join_cons by discriminate. rewrite !asciis_app, Hx, S. cbn [andb]. now apply IH.
Qed.
Lemma join_nonempty sep x l : x <> [] -> join sep (x :: l) <> [].
Proof. destruct x; [congruence|]. destruct l; discriminate. Qed.

Lemma join_nums_ok sep prec c t : asciis sep = true -> nums_valid c = true -> join_nums sep prec c = Ok t -> asciis t = true /\ (c <> [] -> t <> []).
Proof.
  intros S V H. unfold join_nums in H. apply bind_ok in H as [ts [Hts H]]. injection H as <-. destruct (map_text_spec prec c ts V Hts) as [_ [H1 [H2 H3]]]. split.
  - apply asciis_join; [exact S|]. rewrite forallb_forall in *. intros w Hw. apply numtext_asciis. auto.
  - intro Hc. destruct ts as [|x ts]; [destruct c; [congruence|discriminate]|]. cbn [forallb] in H2. apply andb_prop in H2 as [H2 _].
    apply join_nonempty. destruct x; [discriminate|discriminate].
Qed.
Lemma coordinates_text_ok prec l t : forallb nums_valid l = true -> coordinates_text prec l = Ok t -> asciis t = true /\ t <> [].
Proof.
  intros V H. unfold coordinates_text in H. destruct (dims_ok l) eqn:D; [|discriminate]. apply bind_ok in H as [ts [Hts H]]. injection H as <-. apply map_res_ok in Hts. split.
  - apply asciis_join; [reflexivity|]. clear D. revert V. induction Hts as [|c t l ts Hc _ IH]; intro V; [reflexivity|]. cbn [forallb] in V |- *. apply andb_prop in V as [Vc V].
    destruct (join_nums_ok (u ",") _ _ _ eq_refl Vc Hc) as [-> _]. now apply IH.
  - destruct Hts as [|c t l ts Hc _]; [discriminate|]. apply join_nonempty. cbn [forallb] in V. apply andb_prop in V as [Vc _].
    apply (join_nums_ok (u ",") _ _ _ eq_refl Vc Hc). destruct c; [discriminate D|discriminate].
Qed.

(** ** Names *)

Lemma rsplit_app a b : forallb (fun c => negb (c =? 125)) b = true -> rsplit_brace (a ++ 125 :: b) = Some (a, b).
Proof.
  intro H. assert (N : rsplit_brace b = None).
  { induction b as [|c b IH]; [reflexivity|]. cbn [forallb] in H. apply andb_prop in H as [Hc H]. cbn [rsplit_brace]. rewrite IH by exact H. apply negb_true_iff in Hc. now rewrite Hc. }
  induction a as [|c a IH]; cbn [app rsplit_brace]; [now rewrite N|now rewrite IH].
Qed.
Lemma ncname_plain n : ncname n = true -> forallb (fun c => negb (c =? 125)) n = true /\ after (u "{") n = None.
Proof.
  intro H. destruct (ncname_chars n H) as [Hne [H1 _]]. split.
  - rewrite forallb_forall in *. intros c Hc. specialize (H1 c Hc). destruct (c =? 125) eqn:E; [|reflexivity]. apply N.eqb_eq in E. subst c. discriminate.
  - destruct n as [|c n]; [congruence|]. cbn [forallb] in H1. apply andb_prop in H1 as [H1 _]. change (u "{") with [123]. cbn [after]. destruct (123 =? c) eqn:E; [|reflexivity]. apply N.eqb_eq in E. subst c. discriminate.
Qed.
Lemma name_plain_ok n : ncname n = true -> name_ok n = true.
Proof. intro H. unfold name_ok, split_name. destruct (ncname_plain n H) as [_ ->]. exact H. Qed.
Lemma name_in_ok ns n : ns_clean ns = true -> ncname n = true -> name_ok (ns ++ n) = true.
Proof.
  intros C H. unfold ns_clean in C. apply orb_true_iff in C as [C|C]; [destruct ns; [now apply name_plain_ok|discriminate]|].
  rewrite !andb_true_iff, !negb_true_iff in C. destruct C as [[[G X] E1] E2]. destruct (good_ns_inv ns G) as [->|[b [-> _]]]; [now apply name_plain_ok|].
  unfold name_ok, split_name. change (u "{") with [123]. cbn [app after]. change (123 =? 123) with true. cbv iota.
  rewrite <- app_assoc. cbn [app]. rewrite rsplit_app by apply (ncname_plain n H). rewrite H. cbn [andb].
  cbn [forallb] in X. apply andb_prop in X as [_ X]. rewrite forallb_app in X. apply andb_prop in X as [-> _].
  replace (uempty b) with false by (destruct b; [discriminate E1|reflexivity]). cbn [negb andb].
  destruct (ueqb b XMLNS_NS) eqn:Q; [|reflexivity]. apply ueqb_eq in Q. subst b. vm_compute in E2. discriminate.
Qed.

(** ** Elements *)

(** No [xmlns] attribute anywhere. *)
Fixpoint no_xmlns (e : elem) : bool :=
  match e with
  | Elem _ a _ ks => forallb (fun kv => negb (ueqb (fst kv) (u "xmlns"))) a && forallb no_xmlns ks
  end.

Lemma as_read_id e : no_xmlns e = true -> as_read [] e = e.
Proof.
  induction e as [t a x ks IH] using elem_ind'. cbn [no_xmlns as_read]. intro H. apply andb_prop in H as [Ha Hk].
  assert (D : default_of [] a = []).
  { unfold default_of. destruct (uget (u "xmlns") a) as [v|] eqn:E; [|reflexivity]. apply uget_in in E. rewrite forallb_forall in Ha. specialize (Ha _ E). now rewrite ueqb_refl in Ha. }
  rewrite D. cbn [app]. f_equal.
  - now destruct (qualified t).
  - clear D. induction a as [|kv a IHa]; [reflexivity|]. cbn [forallb filter] in *. apply andb_prop in Ha as [H1 Ha]. rewrite H1. f_equal. now apply IHa.
  - rewrite <- (map_id ks) at 2. apply map_ext_in. rewrite Forall_forall in IH. rewrite forallb_forall in Hk. auto.
Qed.
Lemma tidy_solid e : solid e = true -> tidy e = e.
Proof.
  induction e as [t a x ks IH] using elem_ind'. cbn [solid tidy]. intro H. apply andb_prop in H as [Hx Hk]. f_equal; [destruct x as [[|]|]; [discriminate|reflexivity..]|].
  rewrite <- (map_id ks) at 2. apply map_ext_in. rewrite Forall_forall in IH. rewrite forallb_forall in Hk. auto.
Qed.

Lemma uset_keys {A} k (v : A) l x : In x (map fst (uset k v l)) -> x = k \/ In x (map fst l).
Proof.
  induction l as [|[k' v'] l IH]; cbn [uset map fst In]; [intros [<-|[]]; auto|]. destruct (ueqb k k') eqn:E; cbn [map fst In].
  - intros [<-|H]; auto.
  - intros [<-|H]; [auto|]. destruct (IH H); auto.
Qed.
Lemma uset_nodup {A} k (v : A) l : NoDup (map fst l) -> NoDup (map fst (uset k v l)).
Proof.
  induction l as [|[k' v'] l IH]; cbn [uset map fst]; intro H; [repeat constructor; intros []|]. inversion H as [|? ? H1 H2]; subst. destruct (ueqb k k') eqn:E; cbn [map fst].
  - apply ueqb_eq in E. subst k'. now constructor.
  - constructor; [|now apply IH]. intro Hin. apply uset_keys in Hin as [->|Hin]; [now rewrite ueqb_refl in E|contradiction].
Qed.
Lemma uset_forallb {A} (p : ustr * A -> bool) k v l : forallb p l = true -> p (k, v) = true -> forallb p (uset k v l) = true.
Proof.
  intros H P. induction l as [|[k' v'] l IH]; cbn [uset forallb] in *; [now rewrite P|]. apply andb_prop in H as [H1 H]. destruct (ueqb k k'); cbn [forallb]; [now rewrite P|]. rewrite H1. now apply IH.
Qed.

(** Tags and attribute names are XML names, none is [xmlns]; members of
    enumerations and defaults are clean. *)
Definition xml_item (it : item) : bool :=
  ncname (u (it_node it)) && negb (ueqb (u (it_node it)) (u "xmlns")) &&
  match it_default it with VStr s => text_ok (Some s) | _ => true end ||
  match it_set it with SObj | SObjs | SNodeText | SCoords => match it_default it with VStr s => text_ok (Some s) | _ => true end | _ => false end.
Definition xml_class (W : world) (cc : string * class_info) : bool := ncname (u (ci_tag (snd cc))) && forallb xml_item (items_of W (fst cc)).
Definition xml_enum (e : string * list (ustr * option string)) : bool := forallb (fun m => text_ok (Some (fst m)) && negb (uempty (fst m))) (snd e).
Definition xml_world (W : world) : bool := forallb (xml_class W) (w_classes W) && forallb xml_enum (w_enums W).

(** Which characters the texts may have. *)
Section Chars.
Variable p : N -> bool.
Hypothesis p_plain : forall c, xml_char c && negb (c =? 13) = true -> p c = true.
Hypothesis p_xml : forall c, p c = true -> xml_char c = true.
Definition good (e : elem) : Prop := elem_ok p e = true /\ solid e = true /\ forallb no_xmlns (e_kids e) = true.
Notation text_ok := (chars_ok p).
Notation xml_ok := (elem_ok p).
Lemma plain_text x : XmlSpec.text_ok x = true -> chars_ok p x = true.
Proof. destruct x as [s|]; [|reflexivity]. cbn [XmlSpec.text_ok chars_ok]. rewrite !forallb_forall. auto. Qed.
Lemma asciis_text s : asciis s = true -> chars_ok p (Some s) = true.
Proof. intro H. now apply plain_text, asciis_plain. Qed.

Lemma good_kid k e : good k -> no_xmlns k = true -> good e -> good (append_kid k e).
Proof.
  intros (K1 & K2 & _) K3 (E1 & E2 & E3). destruct e as [t a x ks]. cbn [append_kid e_kids] in *. unfold good. cbn [elem_ok solid e_kids] in *.
  apply andb_prop in E1 as [E1 E1']. apply andb_prop in E2 as [E2 E2']. rewrite E1, E2, !forallb_app, E1', E2', E3. cbn [forallb]. now rewrite K1, K2, K3.
Qed.
Lemma good_text s e : text_ok (Some s) = true -> s <> [] -> good e -> good (set_text (Some s) e).
Proof.
  intros H N (E1 & E2 & E3). destruct e as [t a x ks]. cbn [set_text e_kids] in *. unfold good. cbn [elem_ok solid e_kids] in *.
  apply andb_prop in E1 as [E1 E1']. apply andb_prop in E1 as [E1 _]. apply andb_prop in E2 as [_ E2']. rewrite E1, H, E1', E2', E3. destruct s; [congruence|]. auto.
Qed.
Lemma good_attr n s e : ncname n = true -> ueqb n (u "xmlns") = false -> text_ok (Some s) = true -> good e -> good (set_attr n s e).
Proof.
  intros Hn X H (E1 & E2 & E3). destruct e as [t a x ks]. cbn [set_attr e_kids] in *. unfold good. cbn [elem_ok solid e_kids] in *.
  rewrite !andb_true_iff in E1. destruct E1 as [[[[E1 Ea] Ed] Ex] Ek]. split; [|auto]. rewrite E1, Ex, Ek. cbn [andb]. rewrite !andb_true_r. apply andb_true_iff. split.
  - apply uset_forallb; [exact Ea|]. unfold attr_ok. cbn [fst snd]. rewrite (name_plain_ok n Hn), X. cbn [negb orb]. rewrite !andb_true_r. cbn [andb].
    cbn [chars_ok] in H. rewrite forallb_forall in *. intros c Hc. specialize (H c Hc). now apply p_xml.
  - apply distinct_NoDup, uset_nodup. now apply distinct_NoDup.
Qed.
Lemma good_add ns n s e : ns_clean ns = true -> ncname n = true -> text_ok (Some s) = true -> s <> [] -> good e -> good (add_text (ns ++ n) s e).
Proof.
  intros C Hn H N G. unfold add_text. apply good_kid; [|reflexivity|exact G]. unfold good, text_elem. cbn [elem_ok solid e_kids forallb map].
  rewrite (name_in_ok ns n C Hn), H. destruct s; [congruence|]. auto.
Qed.
Lemma good_new ns n : ns_clean ns = true -> ncname n = true -> good (new_elem (ns ++ n)).
Proof. intros C Hn. unfold good, new_elem. cbn [elem_ok solid e_kids forallb map]. rewrite (name_in_ok ns n C Hn). auto. Qed.
Lemma good_root ns n : ns_clean ns = true -> ncname n = true -> good (root_elem ns n).
Proof.
  intros C Hn. unfold root_elem. destruct (uempty ns) eqn:E; [|now apply good_new]. destruct ns; [|discriminate]. cbn [app].
  unfold good, new_elem, set_attr. cbn [uset elem_ok solid e_kids]. rewrite (name_plain_ok n Hn). repeat split.
Qed.

(** The attributes of the element itself. *)
Definition top_plain (e : elem) : bool := forallb (fun kv => negb (ueqb (fst kv) (u "xmlns"))) (e_attrib e).
Lemma no_xmlns_top e : good e -> top_plain e = true -> no_xmlns e = true.
Proof. intros (_ & _ & H) T. destruct e as [t a x ks]. cbn [no_xmlns e_kids] in *. unfold top_plain in T. cbn [e_attrib] in T. now rewrite T, H. Qed.

(** ** The writer *)

Section Writer.
  Variable W : world.
  Hypothesis Wok : world_ok W = true.
  Hypothesis Wxml : xml_world W = true.

  (** A value as it may be written for an item. *)
  Definition item_clean (it : item) (x : value) : bool :=
    match it_set it, x with
    | _, VNone => true
    | (SNodeText | SText | SAttrText), VStr s => text_ok (Some s)
    | SBool, VBool _ => true
    | (SInt | SAttrInt | SFloat | SAttrFloat), VNum n => num_valid n
    | (SEnum | SAttrEnum), VEnum _ m => text_ok (Some m) && negb (uempty m)
    | SDate, VDate k => kdt_normal k
    | SDates, VDates l => forallb (fun o => match o with Some k => kdt_normal k | None => true end) l
    | SCoordList, VCoords _ l => forallb (fun c => nums_valid c && negb (nilb c)) l
    | SCoords, VCoords _ l => forallb nums_valid l
    | (SObj | SObjs | SDates | SCoordList | SCoords), _ => true
    | _, _ => false
    end.

  Lemma text_add ns n t e e' : ns_clean ns = true -> ncname n = true -> asciis t = true -> t <> [] -> good e -> Ok (add_text (ns ++ n) t e) = Ok e' -> good e'.
  Proof. intros C N A T G H. injection H as <-. apply good_add; try assumption. now apply asciis_text. Qed.

  Lemma texts_good l e e' : good e ->
    Forall (fun r => match r with Ok (t, x) => asciis x = true /\ x <> [] /\ exists ns n, ns_clean ns = true /\ ncname n = true /\ t = ns ++ n | Err _ => True end) l ->
    append_texts l e = Ok e' -> good e'.
  Proof.
    intros G F. revert e G. induction F as [|r l Hr _ IH]; intros e G H; cbn [append_texts] in H; [now injection H as <-|].
    destruct r as [[t x]|]; [|discriminate]. cbn [bind fst snd] in H. destruct Hr as (A & N & ns & n & C & Hn & ->). refine (IH _ _ H). apply good_add; try assumption. now apply asciis_text.
  Qed.
  Definition kid_good (p : wkid) : Prop := forall k, snd p = Ok k -> good k /\ no_xmlns k = true.
  Lemma objs_good l e e' : good e -> Forall kid_good l -> append_objs W l e = Ok e' -> good e'.
  Proof.
    intros G F. revert e G. induction F as [|[v w] l Hr _ IH]; intros e G He; cbn [append_objs] in He; [now injection He as <-|].
    destruct (py_bool W v) as [[|]|]; [|now apply (IH e)|discriminate]. cbn [bind] in He. destruct w as [k|]; [|discriminate]. cbn [bind] in He.
    refine (IH _ _ He). destruct (Hr k eq_refl). now apply good_kid.
  Qed.

  Lemma set_good prec vb ci ns nss attrs (ws : list (string * wattr)) it e e' :
    ns_clean ns = true -> (forall id, ns_clean (ns_get nss id) = true) ->
    (match it_set it with SObj | SObjs | SNodeText | SCoords => True | _ => ncname (u (it_node it)) = true /\ ueqb (u (it_node it)) (u "xmlns") = false end) ->
    (match it_set it with SCoords => true | _ => item_clean it (get_value vb (obj_attr ci attrs (it_attr it)) (it_default it)) end) = true -> item_clean it (obj_attr ci attrs (it_attr it)) = true ->
    (forall w, In w ws -> kid_good (fst (snd w)) /\ Forall kid_good (snd (snd w))) -> good e ->
    set_element W prec vb ci ns nss attrs ws it e = Ok e' -> good e'.
  Proof.
    intros C CN N M M0 A S. unfold set_element. cbv zeta. set (v0 := obj_attr ci attrs (it_attr it)) in *. set (v := get_value vb v0 (it_default it)) in *. unfold item_clean in M, M0.
    assert (O : forall e', Ok e = Ok e' -> good e') by (intros e1 H; now injection H as <-).
    assert (EN : forall c m, ns_clean (enum_ns W ns nss c m) = true).
    { intros c m. unfold enum_ns. destruct (sget c (w_enums W)) as [en|]; [|exact C]. destruct (uget m en) as [[id|]|]; auto. }
    assert (EM : forall s : ustr, uempty s = false -> s <> []) by (intros [|]; discriminate).
    destruct (it_set it).
    - destruct v; try discriminate; [apply O|]. destruct (uempty s) eqn:E; [apply O|]. intro H. injection H as <-. apply good_text; auto.
    - destruct v; try discriminate; [apply O|]. destruct (uempty s) eqn:E; [apply O|]. intro H. injection H as <-. apply good_add; auto; tauto.
    - destruct v; try discriminate; [apply O|]. destruct (uempty s) eqn:E; [apply O|]. intro H. injection H as <-. apply good_attr; auto; tauto.
    - destruct v; try discriminate; [apply O|]. apply text_add; auto; try tauto; destruct b; reflexivity || discriminate.
    - destruct v; try discriminate; [apply O|]. cbn [str_value]. intro H. apply bind_ok in H as [t [Ht H]]. destruct (num_str_spec n t M Ht) as [_ [T1 T2]]. revert H. apply text_add; auto; [tauto|now apply numtext_asciis].
    - destruct v; try discriminate; [apply O|]. cbn [str_value]. intro H. apply bind_ok in H as [t [Ht H]]. destruct (num_str_spec n t M Ht) as [_ [T1 T2]]. injection H as <-. apply good_attr; auto; try tauto. now apply asciis_text, numtext_asciis.
    - destruct v; try discriminate; [apply O|]. cbn [str_value]. intro H. apply bind_ok in H as [t [Ht H]]. destruct (num_str_spec n t M Ht) as [_ [T1 T2]]. revert H. apply text_add; auto; [tauto|now apply numtext_asciis].
    - destruct v; try discriminate; [apply O|]. cbn [str_value]. intro H. apply bind_ok in H as [t [Ht H]]. destruct (num_str_spec n t M Ht) as [_ [T1 T2]]. injection H as <-. apply good_attr; auto; try tauto. now apply asciis_text, numtext_asciis.
    - destruct v; try discriminate; [apply O|]. apply andb_prop in M as [M1 M2]. intro H. injection H as <-. apply good_add; auto; [tauto|]. apply EM. now apply negb_true_iff.
    - destruct v; try discriminate; [apply O|]. apply andb_prop in M as [M1 M2]. intro H. injection H as <-. apply good_attr; auto; tauto.
    - destruct v; try discriminate; [apply O|]. apply text_add; auto; [apply CN|tauto|now apply kdt_asciis|now apply kdt_str_text].
    - destruct v; try discriminate; [apply O|]. apply texts_good; [exact S|]. rewrite Forall_map. apply Forall_forall. intros o Ho. rewrite forallb_forall in M. specialize (M o Ho). destruct o as [k|].
      + split; [now apply kdt_asciis|]. split; [now apply kdt_str_text|]. exists (date_ns nss), (u (it_node it)). split; [apply CN|tauto].
      + split; [reflexivity|]. split; [discriminate|]. exists ns, (u (it_node it)). tauto.
    - destruct v; try discriminate; [apply O|]. apply texts_good; [exact S|]. rewrite Forall_map. apply Forall_forall. intros o Ho. rewrite forallb_forall in M. specialize (M o Ho). apply andb_prop in M as [M1 M2].
      destruct (join_nums (u " ") prec o) as [t|] eqn:E; cbn [bind]; [|exact Logic.I]. destruct (join_nums_ok (u " ") _ _ _ eq_refl M1 E) as [T1 T2]. split; [exact T1|]. split; [apply T2; now destruct o|]. exists ns, (u (it_node it)). tauto.
    - destruct v0; try discriminate; [apply O|]. destruct (nilb l); [apply O|]. intro H. apply bind_ok in H as [t [Ht H]]. destruct (coordinates_text_ok _ _ _ M0 Ht) as [T1 T2]. injection H as <-. apply good_text; auto. now apply asciis_text.
    - destruct (py_bool W v0) as [[|]|]; [|apply O|discriminate]. cbn [bind]. destruct (sget (it_attr it) ws) as [[[x w] l]|] eqn:E; [|discriminate].
      destruct (A _ (sget_In _ _ _ E)) as [A1 _]. destruct w as [k|]; [|discriminate]. cbn [bind]. intro H. injection H as <-. destruct (A1 k eq_refl). now apply good_kid.
    - destruct (sget (it_attr it) ws) as [[[x w] l]|] eqn:E; [|apply O].
      destruct (A _ (sget_In _ _ _ E)) as [_ A1]. destruct x; try discriminate; [apply O|]. now apply objs_good.
  Qed.

  (** The element itself gets no [xmlns]. *)
  Lemma append_texts_attrib l e e' : append_texts l e = Ok e' -> e_attrib e' = e_attrib e.
  Proof. revert e. induction l as [|r l IH]; intros e H; cbn [append_texts] in H; [now injection H as <-|]. destruct r as [t|]; [|discriminate]. cbn [bind] in H. rewrite (IH _ H). now destruct e. Qed.
  Lemma append_objs_attrib l e e' : append_objs W l e = Ok e' -> e_attrib e' = e_attrib e.
  Proof.
    revert e. induction l as [|[v w] l IH]; intros e H; cbn [append_objs] in H; [now injection H as <-|]. destruct (py_bool W v) as [[|]|]; cbn [bind] in H; [|now apply IH|discriminate].
    destruct w as [k|]; [|discriminate]. cbn [bind] in H. rewrite (IH _ H). now destruct e.
  Qed.
  Lemma set_top prec vb ci ns nss attrs (ws : list (string * wattr)) it e e' :
    (match it_set it with SObj | SObjs | SNodeText | SCoords => True | _ => ncname (u (it_node it)) = true /\ ueqb (u (it_node it)) (u "xmlns") = false end) ->
    set_element W prec vb ci ns nss attrs ws it e = Ok e' -> top_plain e = true -> top_plain e' = true.
  Proof.
    intros N H T. assert (Same : e_attrib e' = e_attrib e -> top_plain e' = true) by (unfold top_plain; now intros ->).
    assert (Attr : forall t, ueqb (u (it_node it)) (u "xmlns") = false -> top_plain (set_attr (u (it_node it)) t e) = true).
    { intros t X. unfold top_plain in *. destruct e as [tg a x ks]. cbn [set_attr e_attrib] in *. apply uset_forallb; [exact T|]. cbn [fst]. now rewrite X. }
    unfold set_element in H. cbv zeta in H. destruct (it_set it).
    all: repeat match type of H with
         | bind ?r _ = _ => let E := fresh "E" in destruct r eqn:E; cbn [bind] in H; [|discriminate H]
         | match ?r with _ => _ end = _ => let E := fresh "E" in destruct r eqn:E; try discriminate H
         end.
    all: try (apply append_texts_attrib in H; now apply Same).
    all: try (apply append_objs_attrib in H; now apply Same).
    all: try (injection H as <-; repeat match goal with |- context [if ?b then _ else _] => destruct b end; first [exact T | apply Attr; tauto | apply Same; now destruct e]).
  Qed.

  Lemma class_item c ci it : class_of W c = Some ci -> In it (items_of W c) -> xml_item it = true.
  Proof.
    intros E Hi. unfold xml_world in Wxml. apply andb_prop in Wxml as [X _]. assert (H := proj1 (forallb_forall _ _) X _ (sget_In _ _ _ E)). unfold xml_class in H. cbn [fst snd] in H.
    apply andb_prop in H as [_ H]. rewrite forallb_forall in H. now apply H.
  Qed.
  Lemma class_tag c ci : class_of W c = Some ci -> ncname (u (ci_tag ci)) = true.
  Proof.
    intros E. unfold xml_world in Wxml. apply andb_prop in Wxml as [X _]. assert (H := proj1 (forallb_forall _ _) X _ (sget_In _ _ _ E)). unfold xml_class in H. cbn [fst snd] in H. now apply andb_prop in H as [H _].
  Qed.
  Lemma item_node c ci it : class_of W c = Some ci -> In it (items_of W c) ->
    match it_set it with SObj | SObjs | SNodeText | SCoords => True | _ => ncname (u (it_node it)) = true /\ ueqb (u (it_node it)) (u "xmlns") = false end.
  Proof.
    intros E Hi. assert (H := class_item c ci it E Hi). unfold xml_item in H. rewrite !orb_true_iff, !andb_true_iff, negb_true_iff in H.
    destruct (it_set it); try exact Logic.I; (destruct H as [H|H]; [tauto|discriminate]).
  Qed.
  Lemma default_text c ci it : class_of W c = Some ci -> In it (items_of W c) -> match it_default it with VStr s => text_ok (Some s) | _ => true end = true.
  Proof.
    intros E Hi. assert (H := class_item c ci it E Hi). unfold xml_item in H. rewrite !orb_true_iff, !andb_true_iff in H.
    assert (P : match it_default it with VStr s => XmlSpec.text_ok (Some s) | _ => true end = true) by (destruct H as [H|H]; [tauto|]; destruct (it_set it); try discriminate; exact H).
    destruct (it_default it); try reflexivity. now apply plain_text.
  Qed.

  Lemma member_text cs c m : enum_member W cs c m = true -> text_ok (Some m) && negb (uempty m) = true.
  Proof.
    unfold enum_member. destruct cs as [|c' [|? ?]]; try discriminate. intro H. apply andb_prop in H as [_ H]. destruct (sget c (w_enums W)) as [en|] eqn:E; [|discriminate]. destruct (uget m en) as [o|] eqn:Em; [|discriminate].
    unfold xml_world in Wxml. apply andb_prop in Wxml as [_ X]. assert (Q := proj1 (forallb_forall _ _) X _ (sget_In _ _ _ E)). unfold xml_enum in Q. cbn [snd] in Q. rewrite forallb_forall in Q.
    specialize (Q _ (uget_in _ _ _ Em)). apply andb_prop in Q as [Q1 Q2]. now rewrite (plain_text (Some m) Q1).
  Qed.

  (** From the typing of an attribute; coordinate lists are no attributes. *)
  Lemma typed_clean it x : item_typed W it x = true -> match x with VStr s => text_ok (Some s) | _ => true end = true ->
    match it_set it, x with SCoordList, VCoords _ l => forallb (fun c => negb (nilb c)) l | _, _ => true end = true -> item_clean it x = true.
  Proof.
    unfold item_typed, item_clean. intros T S L. destruct (it_set it), x; try exact T; try reflexivity; try exact S; try discriminate T.
    all: try (now destruct n). all: try (now apply (member_text _ _ _ T)).
    - rewrite forallb_forall in *. intros o Ho. specialize (T o Ho). destruct o; [exact T|reflexivity].
    - rewrite forallb_forall in *. intros c Hc. now rewrite T, L.
  Qed.

  Section Node.
    Variables (c : string) (ci : class_info) (attrs : list (string * value)).
    Hypothesis E : class_of W c = Some ci.
    Hypothesis Hshape : shape_ok ci attrs = true.
    Hypothesis Hattrs : forallb (attr_typed W ci (items_of W c)) attrs = true.
    Hypothesis Hstr : forallb (fun av : string * value => match snd av with VStr s => text_ok (Some s) | _ => true end) attrs = true.

    Lemma node_facts : class_facts W ci (items_of W c).
    Proof. apply class_ok_facts. exact (proj1 (forallb_forall _ _) Wok _ (sget_In _ _ _ E)). Qed.

    Lemma coordlist_absent it : In it (items_of W c) -> it_set it = SCoordList -> sget (it_attr it) attrs = None.
    Proof.
      intros Hin Es. assert (F := node_facts). destruct (sget (it_attr it) attrs) as [x|] eqn:Q; [|reflexivity]. exfalso.
      assert (Hk : In (it_attr it) (map fst attrs)) by (apply (in_map fst _ (_, x)), (sget_In _ _ _ Q)).
      destruct (shape_inv _ _ Hshape) as [xs [Ek [_ Hx]]]. rewrite Ek in Hk.
      assert (P := cf_placed _ _ _ F it Hin). unfold placed in P. rewrite Es in P.
      assert (C : existsb (fun ak => String.eqb (it_attr it) (fst ak)) (ctor_attrs ci) = false).
      { destruct (existsb _ (ctor_attrs ci)) eqn:B; [|reflexivity]. exfalso. apply existsb_exists in B as [[a k] [Ha B]]. apply String.eqb_eq in B. cbn [fst] in B. subst a.
        assert (K := cf_kind _ _ _ F _ Ha). cbn [fst snd] in K. rewrite (find_item_NoDup _ _ (cf_attrs _ _ _ F) Hin) in K. destruct K as [K _]. unfold ckind_ok in K. rewrite Es in K. destruct k; try discriminate K. }
      apply in_app_or in Hk as [Hk|Hk]; [|apply in_app_or in Hk as [Hk|Hk]].
      - apply in_map_iff in Hk as [ak [Hf Hk]]. assert (B : existsb (fun ak => String.eqb (it_attr it) (fst ak)) (ctor_attrs ci) = true); [|congruence].
        apply existsb_exists. exists ak. split; [apply in_or_app; now left|rewrite Hf; apply String.eqb_refl].
      - apply Hx in Hk. rewrite Hk in P. now rewrite andb_false_r in P.
      - apply in_map_iff in Hk as [ak [Hf Hk]]. assert (B : existsb (fun ak => String.eqb (it_attr it) (fst ak)) (ctor_attrs ci) = true); [|congruence].
        apply existsb_exists. exists ak. split; [apply in_or_app; now right|rewrite Hf; apply String.eqb_refl].
    Qed.

    Lemma attr_clean it : In it (items_of W c) -> item_clean it (obj_attr ci attrs (it_attr it)) = true.
    Proof.
      intro Hin. assert (F := node_facts). assert (Hf := find_item_NoDup _ _ (cf_attrs _ _ _ F) Hin). unfold obj_attr.
      destruct (sget (it_attr it) attrs) as [y|] eqn:Q.
      { assert (T := attr_facts W ci _ attrs Hattrs _ _ Q). unfold attr_typed in T. rewrite Hf in T. apply andb_prop in T as [T _]. apply typed_clean; [exact T| |].
        - assert (S := proj1 (forallb_forall _ _) Hstr _ (sget_In _ _ _ Q)). exact S.
        - destruct (it_set it) eqn:Es; try reflexivity. now rewrite (coordlist_absent it Hin Es) in Q. }
      assert (None_ok : item_clean it VNone = true) by (unfold item_clean; now destruct (it_set it)).
      destruct (ci_geom ci) eqn:Eg; try exact None_ok. destruct (sget "track_items" attrs) as [y|] eqn:Et; try exact None_ok. destruct y; try exact None_ok.
      assert (Ht := track_items_typed W ci _ attrs Hattrs l Et).
      assert (Hk := cf_track _ _ _ F). unfold track_ok, is_track in Hk. rewrite Eg, !andb_true_iff in Hk. destruct Hk as [[[[[_ K1] K2] K3] _] _].
      destruct (String.eqb_spec (it_attr it) "whens") as [E1|].
      { destruct (find_setter _ _ _ K1) as [it' [A1 A2]]. rewrite <- E1, Hf in A1. injection A1 as <-. unfold item_clean. rewrite A2.
        apply forallb_forall. intros o Ho. apply in_map_iff in Ho as [i [<- Hi]]. rewrite forallb_forall in Ht. specialize (Ht i Hi). unfold titem_typed in Ht. rewrite !andb_true_iff in Ht. tauto. }
      destruct (String.eqb_spec (it_attr it) "coords") as [E1|].
      { destruct (find_setter _ _ _ K2) as [it' [A1 A2]]. rewrite <- E1, Hf in A1. injection A1 as <-. unfold item_clean. rewrite A2.
        apply forallb_forall. intros o Ho. apply in_map_iff in Ho as [i [<- Hi]]. apply filter_In in Hi as [Hi Hc]. rewrite forallb_forall in Ht. specialize (Ht i Hi). unfold titem_typed in Ht. rewrite !andb_true_iff in Ht.
        destruct Ht as [[_ ->] _]. unfold item_coord_ok in Hc. destruct (ti_coord i); [discriminate Hc|reflexivity]. }
      destruct (String.eqb_spec (it_attr it) "angles") as [E1|]; [|exact None_ok].
      destruct (find_setter _ _ _ K3) as [it' [A1 A2]]. rewrite <- E1, Hf in A1. injection A1 as <-. unfold item_clean. rewrite A2.
      apply forallb_forall. intros o Ho. apply in_concat in Ho as [ls [Hl Ho]]. apply in_map_iff in Hl as [i [<- Hi]]. rewrite forallb_forall in Ht. specialize (Ht i Hi). unfold titem_typed in Ht. rewrite !andb_true_iff in Ht.
      destruct Ht as [_ Ht]. destruct (ti_angle i) as [a|]; [|contradiction]. destruct Ho as [<-|[]]. apply andb_prop in Ht as [-> Ht]. now destruct a.
    Qed.

    Lemma default_clean it : In it (items_of W c) -> match it_set it with SCoords => true | _ => item_clean it (it_default it) end = true.
    Proof.
      intro Hin. assert (F := node_facts). assert (I := cf_items _ _ _ F it Hin). unfold item_ok in I. rewrite !andb_true_iff in I. destruct I as [[_ D] _]. unfold default_ok in D.
      assert (S := default_text c ci it E Hin). destruct (it_set it) eqn:Es; try (apply andb_prop in D as [D _]; apply typed_clean; auto; rewrite Es; reflexivity).
      all: try reflexivity; unfold item_clean; rewrite Es; destruct (it_default it); reflexivity || discriminate.
    Qed.
    Lemma value_clean vb it : In it (items_of W c) -> match it_set it with SCoords => true | _ => item_clean it (get_value vb (obj_attr ci attrs (it_attr it)) (it_default it)) end = true.
    Proof.
      intro Hin. destruct (ItemProofs.get_value_cases vb (obj_attr ci attrs (it_attr it)) (it_default it)) as [G|[G|G]]; rewrite G; [|now apply default_clean|unfold item_clean; now destruct (it_set it)].
      assert (Q := attr_clean it Hin). now destruct (it_set it).
    Qed.
  End Node.

  (** A root without name space has an [xmlns] attribute. *)
  Definition unrooted (v : value) : bool :=
    match v with VObj c ns _ _ => match class_of W c with Some ci => negb (ci_root ci && uempty ns) | None => true end | _ => true end.
  Definition unrooted_inside (v : value) : bool :=
    match v with VObj _ _ _ attrs => forallb (fun av => match av with (_, x) => vall (fun c ns nss l => unrooted (VObj c ns nss l)) x end) attrs | _ => true end.

  Lemma sets_good prec vb c ci ns nss attrs (ws : list (string * wattr)) its e e' :
    class_of W c = Some ci -> shape_ok ci attrs = true -> forallb (attr_typed W ci (items_of W c)) attrs = true ->
    forallb (fun av : string * value => match snd av with VStr s => text_ok (Some s) | _ => true end) attrs = true ->
    ns_clean ns = true -> (forall id, ns_clean (ns_get nss id) = true) -> incl its (items_of W c) ->
    (forall w, In w ws -> kid_good (fst (snd w)) /\ Forall kid_good (snd (snd w))) -> good e -> top_plain e = true ->
    set_elements W prec vb ci ns nss attrs ws its e = Ok e' -> good e' /\ top_plain e' = true.
  Proof.
    intros E S T X C CN H A. revert e. induction its as [|it its IH]; intros e G P; cbn [set_elements]; intro He; [injection He as <-; auto|].
    apply bind_ok in He as [e1 [E1 He]]. assert (Hi : In it (items_of W c)) by (apply H; now left). refine (IH _ e1 _ _ He).
    - intros i Hin. apply H. now right.
    - refine (set_good prec vb ci ns nss attrs ws it e e1 C CN (item_node c ci it E Hi) _ _ A G E1); [now apply (value_clean c)|now apply (attr_clean c)].
    - exact (set_top _ _ _ _ _ _ _ _ _ _ (item_node c ci it E Hi) E1 P).
  Qed.

  Lemma root_clean x : item_clean root_item x = true.
  Proof. now destruct x. Qed.

  Theorem etree_good prec vb v : typed W v = true -> object_ok p v = true -> unrooted_inside v = true ->
    forall e, etree W prec vb v = Ok e -> good e /\ (unrooted v = true -> no_xmlns e = true).
  Proof.
    assert (Main : forall v, vall (typed_node W) v = true -> object_ok p v = true ->
      match v with
      | VList l => vall (fun c ns nss l => unrooted (VObj c ns nss l)) v = true -> forall y e, In y l -> etree W prec vb y = Ok e -> good e /\ no_xmlns e = true
      | _ => unrooted_inside v = true -> forall e, etree W prec vb v = Ok e -> good e /\ (unrooted v = true -> no_xmlns e = true)
      end).
    { clear v. induction v as [| | | | | | | | | |l IH|c ns nss attrs IH] using value_ind'; intros T X; try discriminate.
      - intros U y e Hy. rewrite Forall_forall in IH. unfold object_ok in X. cbn [vall] in T, X, U. rewrite forallb_forall in T, X, U. specialize (IH y Hy (T y Hy) (X y Hy)). specialize (U y Hy).
        destruct y; try discriminate. intro He. cbn [vall] in U. apply andb_prop in U as [U1 U2]. destruct (IH U2 e He) as [G N]. auto.
      - unfold object_ok in X. cbn [vall] in T, X. apply andb_prop in T as [T0 T]. apply andb_prop in X as [X0 X]. rewrite !andb_true_iff in X0. destruct X0 as [[C CN] St].
        assert (CN' : forall id, ns_clean (ns_get nss id) = true).
        { intro id. unfold ns_get. destruct (sget id nss) as [n|] eqn:Q; [|reflexivity]. rewrite forallb_forall in CN. exact (CN _ (sget_In _ _ _ Q)). }
        intros U e. cbn [etree unrooted_inside] in *.
        set (wof := fun av : string * value => match av with (a, x) => (a, (x, etree W prec vb x, match x with VList l => map (fun y => (y, etree W prec vb y)) l | _ => [] end)) end).
        assert (A : forall w, In w (map wof attrs) -> kid_good (fst (snd w)) /\ Forall kid_good (snd (snd w))).
        { intros w Hw. apply in_map_iff in Hw as [[a x] [<- Hi]]. rewrite Forall_forall in IH. rewrite forallb_forall in T, X, U. specialize (IH _ Hi (T _ Hi) (X _ Hi)). specialize (U _ Hi). cbn [snd] in IH, U.
          cbn [wof fst snd]. destruct x; try (split; [intros ? Hk; discriminate Hk|constructor]).
          - split; [intros ? Hk; discriminate Hk|]. rewrite Forall_map. apply Forall_forall. intros y Hy k Hk. exact (IH U y k Hy Hk).
          - split; [|constructor]. intros k Hk. cbn [vall] in U. apply andb_prop in U as [U1 U2]. destruct (IH U2 k Hk) as [G N]. auto. }
        unfold write_with. destruct (class_of W c) as [ci|] eqn:E; [|discriminate]. assert (Gt := class_tag _ _ E). unfold typed_node in T0. rewrite E in T0. apply andb_prop in T0 as [S Ty].
        destruct (ci_root ci) eqn:R.
        + intro He. assert (G : good e) by (refine (set_good prec vb ci ns nss attrs (map wof attrs) root_item _ e C CN' Logic.I (root_clean _) (root_clean _) A (good_root ns _ C Gt) He)). split; [exact G|].
          intro Un. apply no_xmlns_top; [exact G|]. refine (set_top _ _ _ _ _ _ _ _ _ _ _ He _); [exact Logic.I|]. cbn [unrooted] in Un. rewrite E, R in Un. unfold root_elem. destruct (uempty ns); [discriminate|reflexivity].
        + intro He. destruct (sets_good prec vb c ci ns nss attrs (map wof attrs) (items_of W c) _ e E S Ty St C CN' (fun i H => H) A (good_new ns _ C Gt) eq_refl He) as [G P]. split; [exact G|]. intros _. now apply no_xmlns_top. }
    intros T X U e He. assert (T' : vall (typed_node W) v = true) by (destruct v; try discriminate T; exact T). specialize (Main v T' X). destruct v; try discriminate He. exact (Main U e He).
  Qed.
End Writer.
End Chars.

Lemma elem_ok_plain e : elem_ok (fun c => xml_char c && negb (c =? 13)) e = xml_ok e.
Proof.
  induction e as [t a x ks IH] using elem_ind'. cbn [elem_ok xml_ok]. f_equal. induction IH as [|k ks H _ IHk]; [reflexivity|]. cbn [forallb]. now rewrite H, IHk.
Qed.

(** A root is in no other object. *)
Section Rootless.
  Variable W : world.
  Definition rootless : bool :=
    forallb (fun cc => forallb (fun it => forallb (fun c => match class_of W c with Some ci => negb (ci_root ci) | None => true end) (it_classes it)) (items_of W (fst cc))) (w_classes W).
  Hypothesis Wroot : rootless = true.

  Definition no_root (v : value) : bool := match v with VObj c _ _ _ => match class_of W c with Some ci => negb (ci_root ci) | None => true end | _ => false end.
  Lemma no_root_unrooted v : no_root v = true -> unrooted W v = true.
  Proof. unfold no_root, unrooted. destruct v; try reflexivity. destruct (class_of W cls); [|reflexivity]. intro H. apply negb_true_iff in H. now rewrite H. Qed.
  Lemma inside_all v : match v with VList _ => False | _ => True end -> unrooted W v = true -> unrooted_inside W v = true -> vall (fun c ns nss l => unrooted W (VObj c ns nss l)) v = true.
  Proof. destruct v; try reflexivity; [intros []|]. intros _ H1 H2. cbn [vall]. now rewrite H1. Qed.

  Lemma typed_rootless v : vall (typed_node W) v = true ->
     match v with
     | VList l => forallb no_root l = true -> vall (fun c ns nss l => unrooted W (VObj c ns nss l)) v = true
     | _ => unrooted_inside W v = true
     end.
  Proof.
    induction v as [| | | | | | | | | |l IH|c ns nss attrs IH] using value_ind'; intro T; try reflexivity.
    - intro R. cbn [vall] in T |- *. rewrite Forall_forall in IH. rewrite forallb_forall in *. intros y Hy. specialize (IH y Hy (T y Hy)). specialize (R y Hy).
      destruct y; try discriminate R. apply inside_all; [exact Logic.I|now apply no_root_unrooted|exact IH].
    - cbn [unrooted_inside]. cbn [vall] in T. apply andb_prop in T as [T0 T]. rewrite Forall_forall in IH. rewrite forallb_forall in T |- *. intros [a x] Hi. specialize (IH _ Hi (T _ Hi)). cbn [snd] in IH.
      unfold typed_node in T0. destruct (class_of W c) as [ci|] eqn:E; [|discriminate]. apply andb_prop in T0 as [_ T0]. rewrite forallb_forall in T0. specialize (T0 _ Hi). unfold attr_typed in T0. apply andb_prop in T0 as [T0 _].
      assert (R : forall it, find_item a (items_of W c) = Some it -> forall k, mem k (it_classes it) = true -> match class_of W k with Some ci => negb (ci_root ci) | None => true end = true).
      { intros it Hf k Hk. apply mem_In in Hk. apply find_item_In in Hf as [Hf _]. assert (Q := proj1 (forallb_forall _ _) Wroot _ (sget_In _ _ _ E)). cbn [fst] in Q. rewrite forallb_forall in Q. specialize (Q _ Hf). rewrite forallb_forall in Q. exact (Q _ Hk). }
      destruct x; try reflexivity.
      + destruct (find_item a (items_of W c)) as [it|]; [|discriminate]. apply IH. unfold item_typed in T0. destruct (it_set it); try discriminate T0. apply forallb_forall. intros y Hy. rewrite forallb_forall in T0. specialize (T0 y Hy).
        destruct y; try discriminate T0. cbn [is_obj_of no_root] in *. exact (R it eq_refl _ T0).
      + destruct (find_item a (items_of W c)) as [it|]; [|discriminate]. apply inside_all; [exact Logic.I| |exact IH]. apply no_root_unrooted. unfold item_typed in T0. destruct (it_set it); try discriminate T0. exact (R it eq_refl _ T0).
  Qed.
End Rootless.
