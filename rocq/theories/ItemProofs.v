(** * One item: what is written for it is read back. *)
From Coq Require Import String List NArith ZArith Bool Lia.
From Verif Require Import Ustr UstrProofs Res PyInt PyFloat PyNumProofs PyFmtProofs PyDate PyDateProofs Elem Value Geom Codec Spec EmitProofs CodecProofs ReadProofs.
Import ListNotations.
Local Open Scope Z_scope.

(** ** Dates have no white space *)

Lemma digits_no_space s : forallb is_adigit s = true -> no_space s = true.
Proof. intro H. now apply plain_no_space, adigit_plain. Qed.

Lemma pad_no_space k n : 0 <= n -> no_space (pad k n) = true.
Proof.
  intro H. unfold pad. rewrite no_space_app. apply andb_true_iff. split; apply digits_no_space.
  - apply repeat_digits.
  - now apply digits_of_digits.
Qed.

Lemma date_iso_no_space d : valid_date d = true -> no_space (date_iso d) = true.
Proof.
  intro H. apply valid_date_inv in H as [H1 [H2 H3]]. unfold date_iso. rewrite !no_space_app, !pad_no_space by lia. reflexivity.
Qed.

Lemma off_iso_no_space o : no_space (off_iso o) = true.
Proof.
  destruct o as [o|]; [|reflexivity]. unfold off_iso. cbv zeta.
  assert (0 <= Z.abs o / 3600) by (apply Z.div_pos; lia).
  assert (0 <= Z.abs o / 60 mod 60) by (apply Z.mod_pos_bound; lia).
  assert (0 <= Z.abs o mod 60) by (apply Z.mod_pos_bound; lia).
  rewrite !no_space_app, !pad_no_space by assumption.
  destruct (o <? 0); destruct (Z.abs o mod 60 =? 0); rewrite ?no_space_app, ?pad_no_space by assumption; reflexivity.
Qed.

Lemma kdt_str_text k : kdt_normal k = true -> no_space (kdt_str k) = true /\ kdt_str k <> [].
Proof.
  intro H. destruct k as [[d|t] r]; unfold kdt_normal in H; destruct r; cbn [k_res k_dt] in H; try discriminate;
    unfold kdt_str; cbn [k_res k_dt date_of].
  - split; [now apply date_iso_no_space|]. unfold date_iso. intro E. apply app_eq_nil in E as [_ E]. discriminate.
  - apply andb_prop in H as [H _]. apply valid_date_inv in H as [H1 [H2 H3]]. split.
    + rewrite !no_space_app, pad_no_space by lia. rewrite digits_no_space by (apply digits_of_digits; lia). reflexivity.
    + intro E. apply app_eq_nil in E as [_ E]. discriminate.
  - apply andb_prop in H as [H _]. apply andb_prop in H as [H _]. apply valid_date_inv in H as [H1 [H2 H3]]. split.
    + apply digits_no_space, digits_of_digits. lia.
    + apply digits_of_nonempty.
  - apply valid_time_inv in H as [Hd [H1 [H2 [H3 [H4 _]]]]]. split.
    + unfold datetime_iso. rewrite !no_space_app, !pad_no_space by lia.
      rewrite date_iso_no_space by assumption. rewrite off_iso_no_space.
      destruct (us t =? 0); rewrite ?no_space_app, ?pad_no_space by lia; reflexivity.
    + unfold datetime_iso. intro E. apply app_eq_nil in E as [_ E]. discriminate.
Qed.

Lemma kdt_readable_normal k : kdt_readable k = true -> kdt_normal k = true.
Proof. unfold kdt_readable. now intros [H _]%andb_prop. Qed.

(** ** Values written *)

Lemma get_value_cases vb x d : get_value vb x d = x \/ get_value vb x d = d \/ get_value vb x d = VNone.
Proof. destruct vb; cbn; [destruct (scalar_eq x d)|..]; auto. destruct (_ && _); auto. Qed.

Lemma item_typed_none W it : item_typed W it VNone = true.
Proof. unfold item_typed. now destruct (it_set it). Qed.

Definition scalar_set (s : setter) : bool :=
  match s with SDates | SCoordList | SCoords | SObj | SObjs => false | _ => true end.

Lemma get_value_typed W it vb x : item_ok W it = true -> scalar_set (it_set it) = true ->
  item_typed W it x = true -> item_readable x = true ->
  item_typed W it (get_value vb x (it_default it)) = true /\ item_readable (get_value vb x (it_default it)) = true.
Proof.
  unfold item_ok. rewrite !andb_true_iff. intros [[_ Hd] _] Hs Hx Hr.
  assert (D : item_typed W it (it_default it) = true /\ item_readable (it_default it) = true).
  { unfold default_ok in Hd. destruct (it_set it); try discriminate; now apply andb_prop in Hd. }
  destruct (get_value_cases vb x (it_default it)) as [-> |[-> | ->]]; auto.
  split; [apply item_typed_none|reflexivity].
Qed.

(** ** Readers of children *)

(** A library object that is read back from what is written for it. *)
Definition kid_rt (W : world) (prec : option nat) (vb : verbosity) (strict : bool) (x : value) : Prop :=
  forall c ns nss at_ e, x = VObj c ns nss at_ -> etree W prec vb x = Ok e ->
    good_ns ns = true /\ e_tag e = ns ++ u (tag_of W c) /\ from_element W strict e c ns nss = Ok (norm W prec vb x).

Definition members (x : value) : list value := match x with VList l => l | _ => [] end.

Definition w_attr (W : world) (prec : option nat) (vb : verbosity) (x : value) : wattr :=
  (x, etree W prec vb x, match x with VList l => map (fun y => (y, etree W prec vb y)) l | _ => [] end).
Definition n_attr (W : world) (prec : option nat) (vb : verbosity) (x : value) : nattr :=
  (x, norm W prec vb x, match x with VList l => map (fun y => (y, norm W prec vb y)) l | _ => [] end).

Definition ws_of (W : world) prec vb (attrs : list (string * value)) : list (string * wattr) :=
  map (fun av => match av with (a, x) => (a, w_attr W prec vb x) end) attrs.
Definition ns_of (W : world) prec vb (attrs : list (string * value)) : list (string * nattr) :=
  map (fun av => match av with (a, x) => (a, n_attr W prec vb x) end) attrs.

Lemma sget_ws_of W prec vb a attrs : sget a (ws_of W prec vb attrs) =
  match sget a attrs with Some x => Some (w_attr W prec vb x) | None => None end.
Proof. apply (sget_map (fun _ => w_attr W prec vb)). Qed.
Lemma sget_ns_of W prec vb a attrs : sget a (ns_of W prec vb attrs) =
  match sget a attrs with Some x => Some (n_attr W prec vb x) | None => None end.
Proof. apply (sget_map (fun _ => n_attr W prec vb)). Qed.

Lemma etree_obj W prec vb c ns nss attrs :
  etree W prec vb (VObj c ns nss attrs) = write_with W prec vb c ns nss attrs (ws_of W prec vb attrs).
Proof. reflexivity. Qed.
Lemma norm_obj W prec vb c ns nss attrs :
  norm W prec vb (VObj c ns nss attrs) = norm_with W prec vb c ns nss attrs (ns_of W prec vb attrs).
Proof. reflexivity. Qed.

Lemma pair_list_eq (a b : nss_t) :
  all2 (fun a b => String.eqb (fst a) (fst b) && ueqb (snd a) (snd b)) a b = true -> a = b.
Proof.
  apply all2_eq. intros [k v] [k' v']. cbn. rewrite andb_true_iff. intros [E1 E2].
  apply seqb_eq in E1. apply ueqb_eq in E2. congruence.
Qed.

Lemma map_NoDup_inj {A B} (f : A -> B) l a b : NoDup (map f l) -> In a l -> In b l -> f a = f b -> a = b.
Proof.
  induction l as [|x l IH]; cbn; [tauto|]. intros Hn Ha Hb E. inversion Hn as [|? ? Hni Hnd]; subst.
  destruct Ha as [->|Ha], Hb as [->|Hb]; auto.
  - exfalso. apply Hni. rewrite E. now apply in_map.
  - exfalso. apply Hni. rewrite <- E. now apply in_map.
Qed.

Lemma truth_ok W x b : py_bool W x = Ok b -> truth W x = b.
Proof. unfold truth. now intros ->. Qed.

Lemma bool_classes l : match l with ["bool"%string] => true | _ => false end = true -> l = ["bool"%string].
Proof.
  intro H. repeat match type of H with context [match ?x with _ => _ end] => destruct x; try discriminate H end.
  reflexivity.
Qed.

(** ** The item *)
Section Item.
  Variables (W : world) (prec : option nat) (vb : verbosity) (strict : bool).
  Variables (ci : class_info) (ns : ustr) (nss : nss_t) (attrs : list (string * value)).
  Variable it : item.

  Hypothesis Hns : good_ns ns = true.
  Hypothesis Hnss : forallb (fun kv => good_ns (snd kv)) nss = true.
  Hypothesis Hok : item_ok W it = true.
  Hypothesis Hnames : NoDup (item_names W it).

  Let x := obj_attr ci attrs (it_attr it).
  Hypothesis Htyped : item_typed W it x = true.
  Hypothesis Hread : item_readable x = true.
  Hypothesis Hnsok : item_ns_ok W ns nss it x = true.
  Hypothesis Hobj : forall y, sget (it_attr it) attrs = Some y -> x = y.
  Hypothesis Hkid : forall y, sget (it_attr it) attrs = Some y -> kid_rt W prec vb strict y /\ Forall (kid_rt W prec vb strict) (members y).

  Variable m : em.
  Hypothesis Hm : emit W prec vb ci ns nss attrs (ws_of W prec vb attrs) it = Ok m.

  Definition item_goal : Prop :=
    Forall (fun k => exists n nm, good_ns n = true /\ In nm (item_names W it) /\ e_tag k = n ++ u nm) (m_kids m) /\
    (m_attr m = [] \/ exists t, m_attr m = [(u (it_node it), t)] /\ item_attrs it = [it_node it]) /\
    (m_text m = None \/ item_texts it = [it_node it]) /\
    try_nsids (fun n => get_kwarg W strict it (m_attr m) (m_text m) (map (rk W strict) (m_kids m)) n nss) nss (it_nsids it) =
    Ok (read_back W prec vb ci attrs (ns_of W prec vb attrs) it).

  Lemma node_good : good_name (u (it_node it)) = true.
  Proof. unfold item_ok in Hok. rewrite !andb_true_iff in Hok. destruct Hok as [[[_ H] _] _]. cbn [forallb] in H. now apply andb_prop in H. Qed.

  Lemma name_good nm : In nm (item_names W it) -> good_name (u nm) = true.
  Proof.
    unfold item_ok in Hok. rewrite !andb_true_iff in Hok. destruct Hok as [[[_ H] _] _]. cbn [forallb] in H.
    apply andb_prop in H as [_ H]. rewrite forallb_forall in H. auto.
  Qed.

  Lemma nsg id : good_ns (ns_get nss id) = true.
  Proof. now apply ns_get_good. Qed.

  Lemma classes_good : classes_ok W it = true.
  Proof. unfold item_ok in Hok. rewrite !andb_true_iff in Hok. tauto. Qed.

  Lemma enum_ns_good c v : good_ns (enum_ns W ns nss c v) = true.
  Proof.
    unfold enum_ns. destruct (sget c (w_enums W)) as [e|]; [|exact Hns].
    destruct (uget v e) as [[id|]|]; auto using nsg.
  Qed.

  (** Nothing written for a scalar. *)
  Lemma empty_read n : it_get it <> GObjs -> get_kwarg W strict it [] None [] n nss = Ok None.
  Proof.
    intro Hg. unfold get_kwarg.
    assert (Hc := classes_good). unfold classes_ok in Hc.
    unfold item_ok in Hok. rewrite !andb_true_iff in Hok. destruct Hok as [[[Hp _] _] _].
    destruct (it_get it) eqn:Eg; destruct (it_set it) eqn:Es; try discriminate Hp; cbn [find_kid find_kids filter map_res bind stripped uget]; try reflexivity; try congruence.
    - now rewrite (bool_classes _ Hc).
    - unfold with_enum. destruct (it_classes it) as [|c [|]]; try discriminate. destruct (sget c (w_enums W)); [reflexivity|discriminate].
    - unfold with_enum. destruct (it_classes it) as [|c [|]]; try discriminate. destruct (sget c (w_enums W)); [reflexivity|discriminate].
    - apply andb_prop in Hc as [Hc _]. clear -Hc. induction (it_classes it) as [|c l IH]; [reflexivity|].
      cbn [forallb] in Hc. apply andb_prop in Hc as [H1 H2]. cbn [read_obj]. unfold class_tag, known_class in *.
      destruct (class_of W c); [|discriminate]. cbn [bind find_kid]. auto.
  Qed.

  Notation rb := (read_back W prec vb ci attrs (ns_of W prec vb attrs) it).

  Lemma goal_none : m = em0 -> it_get it <> GObjs -> rb = None -> item_goal.
  Proof.
    intros Em Hg Hr. unfold item_goal. rewrite Em. cbn [em0 m_attr m_text m_kids map].
    split; [constructor|]. split; [now left|]. split; [now left|].
    apply try_nsids_const; [|now right]. intros id _. rewrite Hr. now apply empty_read.
  Qed.

  Lemma goal_kid n0 t : m = em_kid (n0 ++ u (it_node it)) t -> good_ns n0 = true ->
    text_getter (it_get it) = true -> item_names W it = [it_node it] -> guard_text W strict it t = Ok rb ->
    umem n0 (map (ns_get nss) (it_nsids it)) = true -> item_goal.
  Proof.
    intros Em H0 Hg Hi Hr Hu. unfold item_goal. rewrite Em. cbn [em_kid m_attr m_text m_kids map].
    split; [|split; [now left|]; split; [now left|]].
    - constructor; [|constructor]. exists n0, (it_node it). rewrite Hi. repeat split; [assumption|now left].
    - apply try_nsids_one with (n0 := n0); [|now right]. intros id _.
      assert (K := kid_read W strict it n0 t (ns_get nss id) nss Hg H0 (nsg id) node_good).
      rewrite <- Hr. apply K.
      + intro E. assert (Hc := classes_good). unfold item_ok in Hok. rewrite !andb_true_iff in Hok.
        destruct Hok as [[[Hp _] _] _]. rewrite E in Hp. unfold classes_ok in Hc. destruct (it_set it); try discriminate.
        now apply bool_classes.
      + intro E. assert (Hc := classes_good). unfold item_ok in Hok. rewrite !andb_true_iff in Hok.
        destruct Hok as [[[Hp _] _] _]. rewrite E in Hp. unfold classes_ok in Hc. destruct (it_set it); try discriminate.
        destruct (it_classes it) as [|c [|]]; try discriminate. destruct (sget c (w_enums W)) as [e|] eqn:Ee; [|discriminate].
        now exists c, e.
  Qed.

  Lemma goal_attr t : m = em_attr (u (it_node it)) t -> attr_getter (it_get it) = true ->
    item_attrs it = [it_node it] -> guard_attr W strict it t = Ok rb ->
    umem [] (map (ns_get nss) (it_nsids it)) = true -> item_goal.
  Proof.
    intros Em Hg Hi Hr Hu. unfold item_goal. rewrite Em. cbn [em_attr m_attr m_text m_kids map].
    split; [constructor|]. split; [right; now exists t|]. split; [now left|].
    apply try_nsids_one with (n0 := []); [|now right]. intros id _.
    rewrite attr_read; auto using nsg, node_good.
    + now rewrite Hr.
    + intro E. assert (Hc := classes_good). unfold item_ok in Hok. rewrite !andb_true_iff in Hok.
      destruct Hok as [[[Hp _] _] _]. rewrite E in Hp. unfold classes_ok in Hc. destruct (it_set it); try discriminate.
      destruct (it_classes it) as [|c [|]]; try discriminate. destruct (sget c (w_enums W)) as [e|] eqn:Ee; [|discriminate].
      now exists c, e.
  Qed.

  Lemma goal_text t : m = em_text t -> item_texts it = [it_node it] ->
    (forall n, get_kwarg W strict it [] (Some t) [] n nss = Ok rb) -> it_nsids it <> [] -> item_goal.
  Proof.
    intros Em Hi Hr Hn. unfold item_goal. rewrite Em. cbn [em_text m_attr m_text m_kids map].
    split; [constructor|]. split; [now left|]. split; [now right|].
    apply try_nsids_const; [|now left]. intros id _. apply Hr.
  Qed.

  Lemma paired_get : paired (it_get it) (it_set it) = true.
  Proof. unfold item_ok in Hok. rewrite !andb_true_iff in Hok. tauto. Qed.

  Lemma int_guard z t : str_of_int z = Ok t -> stripped (Some t) = Some t /\ int_of_str t = Ok z /\ uempty t = false.
  Proof.
    intro E. destruct (str_of_int_numtext _ _ E) as [H1 H2]. split; [|split].
    - apply stripped_text; [now apply numtext_no_space|assumption].
    - now apply int_roundtrip.
    - now destruct t.
  Qed.

  Lemma float_guard n t : num_valid n = true -> num_str n = Ok t ->
    stripped (Some t) = Some t /\ float_of_str t = Ok (to_float n) /\ uempty t = false.
  Proof.
    intros Hv E. destruct (num_str_spec _ _ Hv E) as [H0 [H1 H2]]. split; [|split; [exact H0|]].
    - apply stripped_text; [now apply numtext_no_space|assumption].
    - now destruct t.
  Qed.

  Lemma scalar_goal : scalar_set (it_set it) = true -> item_goal.
  Proof.
    intro Hs. destruct (get_value_typed W it vb x Hok Hs Htyped Hread) as [Hv Hvr].
    assert (Hp := paired_get). assert (Hn := Hnsok). unfold item_ns_ok in Hn.
    assert (Hm' := Hm). unfold emit in Hm'. fold x in Hm'.
    assert (Erb : rb = rb) by reflexivity. unfold read_back in Erb at 2. fold x in Erb.
    set (v := get_value vb x (it_default it)) in *.
    unfold item_typed in Hv.
    destruct (it_set it) eqn:Es; try discriminate Hs; destruct (it_get it) eqn:Eg; try discriminate Hp;
      destruct v as [ |b|[z|f]|s|c w|k|c|b l|l|l|l|c n_ ss at_] eqn:Ev; try discriminate Hv;
      try (injection Hm' as Hm'; symmetry in Hm'; apply goal_none; [exact Hm'|congruence|exact Erb]).
    - (* node text *)
      injection Hm' as Hm'. symmetry in Hm'. destruct (uempty s) eqn:Eu.
      + apply goal_none; [exact Hm'|congruence|]. destruct s; [exact Erb|discriminate].
      + apply (goal_text s); [exact Hm'|unfold item_texts; now rewrite Es| |].
        * intro n. unfold get_kwarg. rewrite Eg, Erb. unfold stripped. now destruct (uempty (strip s)).
        * destruct (it_nsids it); [discriminate|congruence].
    - (* text *)
      injection Hm' as Hm'. symmetry in Hm'. destruct (uempty s) eqn:Eu.
      + apply goal_none; [exact Hm'|congruence|]. destruct s; [exact Erb|discriminate].
      + apply (goal_kid ns s); auto; [now rewrite Eg|unfold item_names; now rewrite Es|].
        unfold guard_text. rewrite Eg, Erb. unfold stripped. now destruct (uempty (strip s)).
    - (* attribute text *)
      injection Hm' as Hm'. symmetry in Hm'. destruct (uempty s) eqn:Eu.
      + apply goal_none; [exact Hm'|congruence|]. exact Erb.
      + apply (goal_attr s); auto; [now rewrite Eg|unfold item_attrs; now rewrite Es|].
        unfold guard_attr. now rewrite Eg, Erb, Eu.
    - (* bool *)
      injection Hm' as Hm'. symmetry in Hm'.
      apply (goal_kid ns (u (if b then "1" else "0")%string)); auto; [now rewrite Eg|unfold item_names; now rewrite Es|].
      unfold guard_text. rewrite Eg, Erb.
      replace (stripped (Some (u (if b then "1" else "0")%string))) with (Some (u (if b then "1" else "0")%string)) by (destruct b; reflexivity).
      now rewrite bool_text.
    - (* int *)
      cbn [str_value num_str] in Hm'. apply bind_ok in Hm' as [t [Et Hm']]. injection Hm' as Hm'. symmetry in Hm'.
      destruct (int_guard z t Et) as [G1 [G2 G3]].
      apply (goal_kid ns t); auto; [now rewrite Eg|unfold item_names; now rewrite Es|].
      unfold guard_text. now rewrite Eg, Erb, G1, G2.
    - (* int attribute *)
      cbn [str_value num_str] in Hm'. apply bind_ok in Hm' as [t [Et Hm']]. injection Hm' as Hm'. symmetry in Hm'.
      destruct (int_guard z t Et) as [G1 [G2 G3]].
      apply (goal_attr t); auto; [now rewrite Eg|unfold item_attrs; now rewrite Es|].
      unfold guard_attr. now rewrite Eg, Erb, G3, G2.
    - (* float *)
      apply bind_ok in Hm' as [t [Et Hm']]. injection Hm' as Hm'. symmetry in Hm'.
      destruct (float_guard (NInt z) t Hv Et) as [G1 [G2 G3]].
      apply (goal_kid ns t); auto; [now rewrite Eg|unfold item_names; now rewrite Es|].
      unfold guard_text. now rewrite Eg, Erb, G1, G2.
    - apply bind_ok in Hm' as [t [Et Hm']]. injection Hm' as Hm'. symmetry in Hm'.
      destruct (float_guard (NFloat f) t Hv Et) as [G1 [G2 G3]].
      apply (goal_kid ns t); auto; [now rewrite Eg|unfold item_names; now rewrite Es|].
      unfold guard_text. now rewrite Eg, Erb, G1, G2.
    - (* float attribute *)
      apply bind_ok in Hm' as [t [Et Hm']]. injection Hm' as Hm'. symmetry in Hm'.
      destruct (float_guard (NInt z) t Hv Et) as [G1 [G2 G3]].
      apply (goal_attr t); auto; [now rewrite Eg|unfold item_attrs; now rewrite Es|].
      unfold guard_attr. now rewrite Eg, Erb, G3, G2.
    - apply bind_ok in Hm' as [t [Et Hm']]. injection Hm' as Hm'. symmetry in Hm'.
      destruct (float_guard (NFloat f) t Hv Et) as [G1 [G2 G3]].
      apply (goal_attr t); auto; [now rewrite Eg|unfold item_attrs; now rewrite Es|].
      unfold guard_attr. now rewrite Eg, Erb, G3, G2.
    - (* enum *)
      injection Hm' as Hm'. symmetry in Hm'.
      destruct (enum_member_text W it c w classes_good (or_introl Es) Hv) as [T1 T2].
      apply (goal_kid (enum_ns W ns nss c w) w); auto using enum_ns_good; [now rewrite Eg|unfold item_names; now rewrite Es| |].
      + unfold guard_text. rewrite Eg, Erb, stripped_text by assumption.
        assert (E := enum_text W (it_classes it) c w strict Hv). unfold with_enum in *.
        destruct (it_classes it) as [|c' [|]]; try discriminate. destruct (sget c' (w_enums W)); [|discriminate].
        now rewrite E.
      + cbn [forallb] in Hn. rewrite !andb_true_iff in Hn. destruct Hn as [N1 [N2 _]].
        destruct (get_value_cases vb x (it_default it)) as [E|[E|E]]; fold v in E; rewrite Ev in E.
        * now rewrite <- E in N1.
        * now rewrite <- E in N2.
        * discriminate E.
    - (* enum attribute *)
      injection Hm' as Hm'. symmetry in Hm'.
      destruct (enum_member_text W it c w classes_good (or_intror Es) Hv) as [T1 T2].
      apply (goal_attr w); auto; [now rewrite Eg|unfold item_attrs; now rewrite Es|].
      unfold guard_attr. rewrite Eg, Erb. replace (uempty w) with false by now destruct w.
      assert (E := enum_text W (it_classes it) c w strict Hv). unfold with_enum in *.
      destruct (it_classes it) as [|c' [|]]; try discriminate. destruct (sget c' (w_enums W)); [|discriminate].
      now rewrite E.
    - (* date *)
      injection Hm' as Hm'. symmetry in Hm'. destruct (kdt_str_text k Hv) as [T1 T2].
      apply (goal_kid (date_ns nss) (kdt_str k)); auto; [apply nsg|now rewrite Eg|unfold item_names; now rewrite Es|].
      unfold guard_text. rewrite Eg, Erb, stripped_text by assumption. rewrite kdt_roundtrip by exact Hvr. reflexivity.
  Qed.

  (** Children of one tag. *)
  Lemma find_all n0 n ts : good_ns n0 = true -> good_ns n = true ->
    find_kids (n ++ u (it_node it)) (map (rk W strict) (map (fun t => text_elem (n0 ++ u (it_node it)) (Some t)) ts)) =
    if ueqb n n0 then map (rk W strict) (map (fun t => text_elem (n0 ++ u (it_node it)) (Some t)) ts) else [].
  Proof.
    intros H0 H. rewrite find_kids_rk.
    replace (filter _ _) with (if ueqb n n0 then map (fun t => text_elem (n0 ++ u (it_node it)) (Some t)) ts else []).
    { now destruct (ueqb n n0). }
    induction ts as [|t ts IH]; cbn [map filter e_tag text_elem]; [now destruct (ueqb n n0)|].
    rewrite tag_eqb by auto using node_good. rewrite ueqb_refl, andb_true_r, (ueqb_sym n0 n), <- IH.
    now destruct (ueqb n n0).
  Qed.

  Lemma kids_named n0 ts : good_ns n0 = true -> item_names W it = [it_node it] ->
    Forall (fun k => exists n nm, good_ns n = true /\ In nm (item_names W it) /\ e_tag k = n ++ u nm)
      (map (fun t => text_elem (n0 ++ u (it_node it)) (Some t)) ts).
  Proof.
    intros H Hi. apply Forall_map, Forall_forall. intros t _. exists n0, (it_node it). rewrite Hi.
    repeat split; [assumption|now left].
  Qed.

  Lemma dates_text l : forallb (fun o => match o with Some k => kdt_readable k | None => false end) l = true ->
    exists ks, l = map Some ks /\ Forall (fun k => kdt_readable k = true) ks.
  Proof.
    induction l as [|[k|] l IH]; cbn [forallb]; try discriminate.
    - intros _. now exists [].
    - rewrite andb_true_iff. intros [H1 H2]. destruct (IH H2) as [ks [-> Hk]]. exists (k :: ks).
      split; [reflexivity|now constructor].
  Qed.

  Lemma text_kids_ok l : text_kids (map Ok l) = Ok (map (fun t : ustr * ustr => text_elem (fst t) (Some (snd t))) l).
  Proof. unfold text_kids. induction l as [|t l IH]; [reflexivity|]. cbn [map map_res bind]. now rewrite IH. Qed.

  (** The written value of a list item is the attribute itself. *)
  Lemma list_value : (it_set it = SDates \/ it_set it = SCoordList) ->
    (exists l, x = VDates l) \/ (exists b l, x = VCoords b l) ->
    get_value vb x (it_default it) = x.
  Proof using Hok.
    intros Hs Hx. clear -Hok Hs Hx. assert (Hd : match it_default it with VCoords _ _ | VDates _ => false | _ => true end = true).
    { unfold item_ok, default_ok in Hok. rewrite !andb_true_iff in Hok. destruct Hok as [[_ Hd] _].
      destruct Hs as [E|E]; now rewrite E in Hd. }
    destruct vb; [|reflexivity|]; unfold get_value.
    - destruct Hx as [[l ->]|[b [l ->]]]; [reflexivity|]. destruct (it_default it); try discriminate; reflexivity.
    - destruct Hx as [[l ->]|[b [l ->]]]; reflexivity.
  Qed.

  Lemma dates_goal : it_set it = SDates -> item_goal.
  Proof.
    intro Es. assert (Hp := paired_get). assert (Hn := Hnsok). unfold item_ns_ok in Hn.
    assert (Hm' := Hm). unfold emit in Hm'. fold x in Hm'.
    assert (Erb : rb = rb) by reflexivity. unfold read_back in Erb at 2. fold x in Erb.
    assert (Hv := Htyped). unfold item_typed in Hv.
    rewrite Es in *. destruct (it_get it) eqn:Eg; try discriminate Hp.
    assert (Hex : exists y, x = y) by eauto. destruct Hex as [y Ex]. rewrite Ex in Hm', Erb, Hv.
    destruct y as [ |b|[z|f]|s|c w|k|c|b l|l|l|l|c n_ ss at_]; try discriminate Hv.
    - assert (E : get_value vb VNone (it_default it) = VNone \/ get_value vb VNone (it_default it) = it_default it).
      { destruct (get_value_cases vb VNone (it_default it)) as [E|[E|E]]; auto. }
      assert (Hd : match it_default it with VCoords _ _ | VDates _ => false | _ => true end = true).
      { unfold item_ok, default_ok in Hok. rewrite !andb_true_iff in Hok. destruct Hok as [[_ Hd] _]. now rewrite Es in Hd. }
      assert (E' : get_value vb VNone (it_default it) = VNone).
      { destruct E as [E|E]; [exact E|]. rewrite E in Hm'. destruct (it_default it); try discriminate; auto. }
      rewrite E' in Hm', Erb. injection Hm' as Hm'. apply goal_none; [now symmetry|congruence|exact Erb].
    - assert (Ev : get_value vb (VDates l) (it_default it) = VDates l).
      { rewrite <- Ex. apply list_value; [now left|]. left. now exists l. }
      rewrite Ev in Hm', Erb. assert (Hr := Hread). rewrite Ex in Hr. cbn [item_readable] in Hr.
      apply dates_text in Hr as [ks [-> Hks]]. rewrite map_map in Hm'. cbv beta iota in Hm'.
      assert (Em : m = em_kids (map (fun t => text_elem (date_ns nss ++ u (it_node it)) (Some t)) (map kdt_str ks))).
      { assert (T := text_kids_ok (map (fun k => (date_ns nss ++ u (it_node it), kdt_str k)) ks)).
        rewrite map_map in T. unfold ustr in *. rewrite T in Hm'. cbn [bind] in Hm'. injection Hm' as <-. f_equal.
        rewrite !map_map. reflexivity. }
      unfold item_goal. rewrite Em. cbn [em_kids m_attr m_text m_kids].
      split; [|split; [now left|]; split; [now left|]].
      { apply kids_named; [apply nsg|]. unfold item_names. now rewrite Es. }
      destruct ks as [|k0 ks0].
      + cbn [map]. rewrite Erb. apply try_nsids_const; [|now right]. intros id _. apply empty_read. congruence.
      + apply try_nsids_one with (n0 := date_ns nss); [|now right]. intros id _.
        unfold get_kwarg. rewrite Eg, find_all by (apply nsg). rewrite Erb.
        destruct (ueqb (ns_get nss id) (date_ns nss)); [|reflexivity].
        remember (k0 :: ks0) as ks.
        assert (Hmr : map_res (read_date W strict) (map (rk W strict) (map (fun t => text_elem (date_ns nss ++ u (it_node it)) (Some t)) (map kdt_str ks))) =
                      Ok (map (fun k => [Some k]) ks)).
        { clear -Hks. induction Hks as [|k ks Hk _ IH]; [reflexivity|]. cbn [map map_res].
          unfold read_date at 1. cbn [rk fst text_elem e_text]. rewrite kdt_roundtrip by exact Hk. cbn [bind]. now rewrite IH. }
        rewrite Hmr. cbn [bind].
        assert (Hc : concat (map (fun k => [Some k]) ks) = map Some ks).
        { clear. induction ks as [|k ks IH]; [reflexivity|]. cbn. now rewrite IH. }
        rewrite Hc, Heqks. reflexivity.
  Qed.

  Lemma coord_list_goal : it_set it = SCoordList -> item_goal.
  Proof.
    intro Es. assert (Hp := paired_get). assert (Hn := Hnsok). unfold item_ns_ok in Hn.
    assert (Hm' := Hm). unfold emit in Hm'. fold x in Hm'.
    assert (Erb : rb = rb) by reflexivity. unfold read_back in Erb at 2. fold x in Erb.
    assert (Hv := Htyped). unfold item_typed in Hv.
    rewrite Es in *. destruct (it_get it) eqn:Eg; try discriminate Hp.
    assert (Hex : exists y, x = y) by eauto. destruct Hex as [y Ex]. rewrite Ex in Hm', Erb, Hv.
    destruct y as [ |b|[z|f]|s|c w|k|c|b l|l|l|l|c n_ ss at_]; try discriminate Hv.
    - assert (E : get_value vb VNone (it_default it) = VNone \/ get_value vb VNone (it_default it) = it_default it).
      { destruct (get_value_cases vb VNone (it_default it)) as [E|[E|E]]; auto. }
      assert (Hd : match it_default it with VCoords _ _ | VDates _ => false | _ => true end = true).
      { unfold item_ok, default_ok in Hok. rewrite !andb_true_iff in Hok. destruct Hok as [[_ Hd] _]. now rewrite Es in Hd. }
      assert (E' : get_value vb VNone (it_default it) = VNone).
      { destruct E as [E|E]; [exact E|]. rewrite E in Hm'. destruct (it_default it); try discriminate; auto. }
      rewrite E' in Hm', Erb. injection Hm' as Hm'. apply goal_none; [now symmetry|congruence|exact Erb].
    - assert (Ev : get_value vb (VCoords b l) (it_default it) = VCoords b l).
      { rewrite <- Ex. apply list_value; [now right|]. right. now exists b, l. }
      rewrite Ev in Hm', Erb. apply bind_ok in Hm' as [ks [Hks Hm']]. injection Hm' as Hm'.
      assert (T : exists ts, ks = map (fun t => text_elem (ns ++ u (it_node it)) (Some t)) ts /\
                  concat (map (fun t => if uempty t then [] else [t]) ts) = filter (fun t => negb (uempty t)) ts /\
                  map_res (read_coord strict) (map (rk W strict) (map (fun t => text_elem (ns ++ u (it_node it)) (Some t)) ts)) =
                  Ok (map (fun c => if nilb c then [] else [point_norm prec c]) l)).
      { clear -Hks Hv. revert ks Hks. induction l as [|c l IH]; intros ks Hks.
        - injection Hks as <-. exists []. repeat split.
        - cbn [forallb] in Hv. apply andb_prop in Hv as [Hc Hv].
          unfold text_kids in Hks. cbn [map map_res] in Hks. apply bind_ok in Hks as [k [Hk Hks]].
          apply bind_ok in Hk as [[tg t] [Ht Hk]]. apply bind_ok in Ht as [t' [Ht E]]. injection E as <- <-.
          cbn [fst snd] in Hk. injection Hk as <-.
          apply bind_ok in Hks as [r [Hr E]]. injection E as <-.
          destruct (IH Hv r Hr) as [ts [-> [I1 I2]]]. exists (t' :: ts). split; [reflexivity|]. split.
          + cbn [map concat filter]. rewrite I1. now destruct (uempty t').
          + cbn [map map_res]. unfold read_coord at 1. cbn [rk fst text_elem e_text].
            destruct (join_space_spec prec c t' Hc Ht) as [J1 J2]. rewrite J2, J1.
            destruct (nilb c); cbn [bind]; rewrite I2; reflexivity. }
      destruct T as [ts [Eks [_ Hmr]]].
      unfold item_goal. rewrite <- Hm'. cbn [em_kids m_attr m_text m_kids]. subst ks.
      split; [|split; [now left|]; split; [now left|]].
      { apply kids_named; [exact Hns|]. unfold item_names. now rewrite Es. }
      apply try_nsids_one with (n0 := ns); [|now right]. intros id _.
      unfold get_kwarg. rewrite Eg, find_all by (exact Hns || apply nsg). rewrite Erb.
      destruct (ueqb (ns_get nss id) ns); [|reflexivity]. rewrite Hmr. cbn [bind].
      assert (Hc : concat (map (fun c => if nilb c then [] else [point_norm prec c]) l) =
                   map (point_norm prec) (filter (fun c => negb (nilb c)) l)).
      { clear. induction l as [|c l IH]; [reflexivity|]. cbn [map concat filter]. rewrite IH. now destruct (nilb c). }
      rewrite Hc. now destruct (nilb _).
  Qed.

  Lemma coords_goal : it_set it = SCoords -> item_goal.
  Proof.
    intro Es. assert (Hp := paired_get). assert (Hn := Hnsok). unfold item_ns_ok in Hn.
    assert (Hm' := Hm). unfold emit in Hm'. fold x in Hm'.
    assert (Erb : rb = rb) by reflexivity. unfold read_back in Erb at 2. fold x in Erb.
    assert (Hv := Htyped). unfold item_typed in Hv.
    rewrite Es in *. destruct (it_get it) eqn:Eg; try discriminate Hp.
    assert (Hex : exists y, x = y) by eauto. destruct Hex as [y Ex]. rewrite Ex in Hm', Erb, Hv.
    destruct y as [ |b|[z|f]|s|c w|k|c|b l|l|l|l|c n_ ss at_]; try discriminate Hv.
    - injection Hm' as Hm'. apply goal_none; [now symmetry|congruence|exact Erb].
    - destruct l as [|c l]; cbn [nilb] in Hm'.
      + injection Hm' as Hm'. apply goal_none; [now symmetry|congruence|exact Erb].
      + apply bind_ok in Hm' as [t [Ht Hm']]. injection Hm' as Hm'.
        apply (goal_text t); [now symmetry|unfold item_texts; now rewrite Es| |].
        * intro n. unfold get_kwarg. rewrite Eg. rewrite (coordinates_spec prec (c :: l) t Hv Ht). cbn [guarded]. now rewrite Erb.
        * destruct (it_nsids it); [discriminate|congruence].
  Qed.

  Lemma obj_goal : it_set it = SObj -> item_goal.
  Proof.
    intro Es. assert (Hp := paired_get). assert (Hn := Hnsok). unfold item_ns_ok in Hn.
    assert (Hm' := Hm). unfold emit in Hm'. fold x in Hm'.
    assert (Erb : rb = rb) by reflexivity. unfold read_back in Erb at 2. fold x in Erb.
    assert (Hv := Htyped). unfold item_typed in Hv. assert (Hcl := classes_good). unfold classes_ok in Hcl.
    rewrite Es in *. destruct (it_get it) eqn:Eg; try discriminate Hp.
    apply bind_ok in Hm' as [b [Hb Hm']]. rewrite (truth_ok _ _ _ Hb) in Erb. destruct b.
    2:{ injection Hm' as Hm'. apply goal_none; [now symmetry|congruence|exact Erb]. }
    rewrite sget_ws_of in Hm'. rewrite sget_ns_of in Erb.
    destruct (sget (it_attr it) attrs) as [y|] eqn:Ey; [|discriminate].
    destruct (Hkid y eq_refl) as [Hy _]. assert (Exy := Hobj y eq_refl). rewrite Exy in Hv, Hn, Hb.
    unfold w_attr in Hm'. unfold n_attr in Erb.
    apply bind_ok in Hm' as [k [Hk Hm']]. injection Hm' as Hm'.
    destruct y as [ |b|[z|f]|s|c w|d|c|b l|l|l|l|c n_ ss at_]; try discriminate Hv; try discriminate Hk.
    destruct (Hy c n_ ss at_ k eq_refl Hk) as [G1 [G2 G3]]. clear Hy.
    apply andb_prop in Hn as [N1 N2]. apply pair_list_eq in N2. subst ss. apply mem_In in Hv.
    unfold item_goal. rewrite <- Hm'. cbn [em_kids m_attr m_text m_kids].
    assert (Hnm : item_names W it = map (tag_of W) (it_classes it)) by (unfold item_names; now rewrite Es).
    split; [|split; [now left|]; split; [now left|]].
    { constructor; [|constructor]. exists n_, (tag_of W c). rewrite Hnm. repeat split; [assumption|now apply in_map|assumption]. }
    apply try_nsids_one with (n0 := n_); [|now right]. intros id _.
    unfold get_kwarg. rewrite Eg, Erb. cbn [map].
    apply andb_prop in Hcl as [Hcl _].
    assert (Hgood : forall c', In c' (it_classes it) -> good_name (u (tag_of W c')) = true).
    { intros c' Hc'. apply name_good. rewrite Hnm. now apply in_map. }
    assert (Hinj : forall c', In c' (it_classes it) -> tag_of W c' = tag_of W c -> c' = c).
    { intros c' Hc' E. rewrite Hnm in Hnames. eapply map_NoDup_inj; eauto. }
    assert (Hno : forall cl, (forall c', In c' cl -> In c' (it_classes it)) -> forallb (known_class W) cl = true ->
       read_obj W [rk W strict k] (ns_get nss id) nss cl =
       if existsb (String.eqb c) cl && ueqb (ns_get nss id) n_ then Ok (Some (norm W prec vb (VObj c n_ nss at_))) else Ok None).
    { induction cl as [|c' cl IH]; intros Hin Hkn; [reflexivity|].
      cbn [forallb] in Hkn. apply andb_prop in Hkn as [Hk1 Hk2]. cbn [read_obj].
      assert (Ht : class_tag W c' = Ok (u (tag_of W c'))).
      { unfold class_tag, known_class, tag_of in *. now destruct (class_of W c'). }
      rewrite Ht. cbn [bind find_kid rk fst]. rewrite G2.
      assert (Hc' : In c' (it_classes it)) by (apply Hin; now left).
      rewrite tag_eqb by (auto using nsg). rewrite u_eqb, (ueqb_sym n_ (ns_get nss id)).
      cbn [existsb]. rewrite (String.eqb_sym c c').
      destruct (String.eqb_spec (tag_of W c) (tag_of W c')) as [E|E].
      - symmetry in E. apply (Hinj c' Hc') in E. subst c'. rewrite String.eqb_refl, andb_true_r. cbn [orb andb].
        destruct (ueqb_spec (ns_get nss id) n_) as [En|En].
        + cbn [snd]. rewrite En. change (snd (rk W strict k)) with (from_element W strict k). rewrite G3. reflexivity.
        + rewrite IH; [|intros; apply Hin; now right|exact Hk2]. now rewrite andb_false_r.
      - rewrite andb_false_r. rewrite IH; [|intros; apply Hin; now right|exact Hk2].
        destruct (String.eqb_spec c' c) as [E'|E']; [congruence|]. reflexivity. }
    rewrite Hno by auto.
    assert (Hex : existsb (String.eqb c) (it_classes it) = true) by now apply (proj2 (mem_In c (it_classes it))).
    rewrite Hex. reflexivity.
  Qed.

  Lemma objs_goal : it_set it = SObjs -> item_goal.
  Proof.
    intro Es. assert (Hp := paired_get). assert (Hn := Hnsok). unfold item_ns_ok in Hn.
    assert (Hm' := Hm). unfold emit in Hm'. fold x in Hm'.
    assert (Erb : rb = rb) by reflexivity. unfold read_back in Erb at 2. fold x in Erb.
    assert (Hv := Htyped). unfold item_typed in Hv. assert (Hcl := classes_good). unfold classes_ok in Hcl.
    rewrite Es in *. destruct (it_get it) eqn:Eg; try discriminate Hp.
    rewrite sget_ws_of in Hm'. rewrite sget_ns_of in Erb.
    apply andb_prop in Hcl as [Hcl Hid].
    assert (Hnm : item_names W it = map (tag_of W) (it_classes it)) by (unfold item_names; now rewrite Es).
    assert (Hgood : forall c', In c' (it_classes it) -> good_name (u (tag_of W c')) = true).
    { intros c' Hc'. apply name_good. rewrite Hnm. now apply in_map. }
    assert (Htag : forall c', In c' (it_classes it) -> class_tag W c' = Ok (u (tag_of W c'))).
    { intros c' Hc'. rewrite forallb_forall in Hcl. specialize (Hcl _ Hc').
      unfold class_tag, known_class, tag_of in *. now destruct (class_of W c'). }
    (* members of the attribute *)
    assert (Main : forall id l ks, (exists ids, it_nsids it = id :: ids) ->
       forallb (is_obj_of (it_classes it)) l = true -> Forall (kid_rt W prec vb strict) l ->
       forallb (fun y => match y with
                 | VObj _ ns' nss' _ => ueqb ns' (ns_get nss id) && all2 (fun a b => String.eqb (fst a) (fst b) && ueqb (snd a) (snd b)) nss' nss
                 | _ => true end) l = true ->
       objs_kids W (map (fun y => (y, etree W prec vb y)) l) = Ok ks ->
       Forall (fun k => exists n nm, good_ns n = true /\ In nm (item_names W it) /\ e_tag k = n ++ u nm) ks /\
       get_kwarg W strict it [] None (map (rk W strict) ks) (ns_get nss id) nss =
         Ok (Some (VList (group W (it_classes it) (map (fun y => (y, norm W prec vb y)) l))))).
    { intros id l ks _ Ho Hk Hnn Hks.
      assert (Step : Forall (fun k => exists n nm, good_ns n = true /\ In nm (item_names W it) /\ e_tag k = n ++ u nm) ks /\
        forall c, In c (it_classes it) ->
          map_res (fun k : rkid => snd k c (ns_get nss id) nss) (find_kids (ns_get nss id ++ u (tag_of W c)) (map (rk W strict) ks)) =
          Ok (map snd (filter (fun p => is_class c (fst p) && truth W (fst p)) (map (fun y => (y, norm W prec vb y)) l)))).
      { clear Hm' Erb Hv Hn. revert ks Hks. induction l as [|y l IH]; intros ks Hks.
        - injection Hks as <-. split; [constructor|]. reflexivity.
        - cbn [forallb] in Ho, Hnn. apply andb_prop in Ho as [Ho1 Ho2]. apply andb_prop in Hnn as [Hn1 Hn2].
          inversion Hk as [|? ? Hk1 Hk2]; subst. cbn [map objs_kids] in Hks.
          apply bind_ok in Hks as [b [Hb Hks]]. destruct b.
          + apply bind_ok in Hks as [k [Hke Hks]]. apply bind_ok in Hks as [r [Hr E]]. injection E as <-.
            destruct (IH Ho2 Hk2 Hn2 r Hr) as [I1 I2].
            destruct y as [ |b|[z|f]|s|c w|d|c|b l0|l0|l0|l0|c n_ ss at_]; try discriminate Ho1.
            apply andb_prop in Hn1 as [N1 N2]. apply ueqb_eq in N1. apply pair_list_eq in N2. subst n_ ss.
            destruct (Hk1 _ _ _ _ _ eq_refl Hke) as [G1 [G2 G3]]. cbn [is_obj_of] in Ho1. apply mem_In in Ho1.
            split.
            * constructor; [|exact I1]. exists (ns_get nss id), (tag_of W c). rewrite Hnm. repeat split; [assumption|now apply in_map|assumption].
            * intros c' Hc'. cbn [map filter find_kids rk fst]. unfold find_kids in *. cbn [map filter fst].
              change (fst (rk W strict k)) with k. rewrite G2, tag_eqb, ueqb_refl by auto using nsg. cbn [andb].
              rewrite u_eqb, (truth_ok _ _ _ Hb), andb_true_r. cbn [is_class].
              rewrite (String.eqb_sym c' c).
              destruct (String.eqb_spec (tag_of W c) (tag_of W c')) as [E|E].
              -- assert (c = c') by (rewrite Hnm in Hnames; eapply map_NoDup_inj; eauto). subst c'.
                 rewrite String.eqb_refl. cbn [map_res rk snd map]. rewrite G3. cbn [bind].
                 rewrite (I2 c Hc'). reflexivity.
              -- destruct (String.eqb_spec c c') as [E'|E']; [congruence|]. now apply I2.
          + destruct (IH Ho2 Hk2 Hn2 ks Hks) as [I1 I2]. split; [exact I1|]. intros c' Hc'.
            cbn [map filter fst]. rewrite (truth_ok _ _ _ Hb), andb_false_r. now apply I2. }
      destruct Step as [S1 S2]. split; [exact S1|].
      unfold get_kwarg. rewrite Eg. unfold read_objs.
      assert (Hmr : map_res (fun c => let! tag := class_tag W c in
                 map_res (fun k : rkid => snd k c (ns_get nss id) nss) (find_kids (ns_get nss id ++ tag) (map (rk W strict) ks))) (it_classes it) =
               Ok (map (fun c => map snd (filter (fun p => is_class c (fst p) && truth W (fst p)) (map (fun y => (y, norm W prec vb y)) l))) (it_classes it))).
      { apply map_res_Forall2. clear -S2 Htag. induction (it_classes it) as [|c cl IH]; [constructor|]. cbn [map].
        constructor; [|apply IH; intros c' Hc'; [apply Htag|apply S2]; now right].
        rewrite Htag by now left. cbn [bind]. apply S2. now left. }
      rewrite Hmr. reflexivity. }
    destruct (it_nsids it) as [|id ids] eqn:Eids; [discriminate|].
    assert (Dec : forall l ks, objs_kids W (map (fun y => (y, etree W prec vb y)) l) = Ok ks ->
       forallb (is_obj_of (it_classes it)) l = true -> Forall (kid_rt W prec vb strict) l ->
       forallb (fun y => match y with
                 | VObj _ ns' nss' _ => ueqb ns' (ns_get nss id) && all2 (fun a b => String.eqb (fst a) (fst b) && ueqb (snd a) (snd b)) nss' nss
                 | _ => true end) l = true ->
       m = em_kids ks -> rb = Some (VList (group W (it_classes it) (map (fun y => (y, norm W prec vb y)) l))) -> item_goal).
    { intros l ks H1 H2 H3 H4 H5 H6. destruct (Main id l ks (ex_intro _ ids eq_refl) H2 H3 H4 H1) as [M1 M2].
      unfold item_goal. rewrite H5. cbn [em_kids m_attr m_text m_kids].
      split; [exact M1|split; [now left|]; split; [now left|]].
      rewrite Eids. cbn [try_nsids]. rewrite M2. cbn [bind]. now rewrite H6. }
    destruct (sget (it_attr it) attrs) as [y|] eqn:Ey.
    - destruct (Hkid y eq_refl) as [_ Hy]. assert (Exy := Hobj y eq_refl). rewrite Exy in Hv, Hn.
      unfold w_attr in Hm'. unfold n_attr in Erb.
      destruct y as [ |b|[z|f]|s|c w|d|c|b l|l|l|l|c n_ ss at_]; try discriminate Hv.
      + injection Hm' as Hm'. apply (Dec [] []); try solve [auto]; try reflexivity. rewrite Erb. unfold group. f_equal. f_equal.
        clear. induction (it_classes it); [reflexivity|]. cbn. assumption.
      + apply bind_ok in Hm' as [ks [Hks Hm']]. injection Hm' as Hm'. apply (Dec l ks); auto.
    - injection Hm' as Hm'. apply (Dec [] []); try solve [auto]; try reflexivity. rewrite Erb. unfold group. f_equal. f_equal.
      clear. induction (it_classes it); [reflexivity|]. cbn. assumption.
  Qed.

  Theorem item_rt : item_goal.
  Proof.
    destruct (scalar_set (it_set it)) eqn:E; [now apply scalar_goal|].
    destruct (it_set it) eqn:Es; try discriminate E;
      auto using dates_goal, coord_list_goal, coords_goal, obj_goal, objs_goal.
  Qed.
End Item.
