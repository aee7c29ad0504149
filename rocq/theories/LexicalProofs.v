(** * Written values have the forms of XML Schema: proofs. *)
From Coq Require Import String List NArith ZArith Bool Arith Lia.
From Verif Require Import Ustr UstrProofs Res PyInt PyFloat PyNumProofs PyFmtProofs PyDate PyDateProofs Elem Value Geom Codec Spec Settled EmitProofs CodecProofs
  ItemProofs RoundTrip WriteProofs ValueProofs Schema SchemaTables SchemaSpec SlotProofs SchemaProofs Lexical ValuesWritten.
Import ListNotations.
Local Open Scope string_scope.

(** ** Numbers *)

Lemma digits_app a b : digits a -> digits b -> digits (a ++ b)%list.
Proof. unfold digits. rewrite forallb_app. now intros -> ->. Qed.
Lemma digits_zeros n : digits (zeros n).
Proof. apply zeros_digits. Qed.

Lemma int_form z s : plain_num (NInt z) = true -> str_of_int z = Ok s -> is_int s.
Proof.
  unfold plain_num, str_of_int. intros P. apply andb_prop in P as [P1 P2]. destruct (N.ltb _ _); [discriminate|]. intro H. injection H as <-.
  assert (D : denotes (digits_of (Z.abs z)) (Z.abs z)) by (split; [apply digits_of_nonempty|split; [apply digits_of_digits; lia|apply digits_of_val; lia]]).
  apply Z.leb_le in P1, P2. destruct (Z.ltb_spec z 0).
  - exists (u "-"), (digits_of (Z.abs z)), (Z.abs z). split; [right; now right|]. split; [exact D|]. split; [reflexivity|]. change (ueqb (u "-") (u "-")) with true. cbn iota. lia.
  - exists [], (digits_of (Z.abs z)), (Z.abs z). split; [now left|]. split; [exact D|]. split; [reflexivity|]. change (ueqb [] (u "-")) with false. cbn iota. lia.
Qed.

Lemma int_double s : is_int s -> is_double s.
Proof.
  intros (sg & d & z & S & (D1 & D2 & _) & -> & _). right. exists sg, d, []. repeat split; [exact S|left; split; assumption|now left|now rewrite app_nil_r].
Qed.

Lemma layout_form ds k : ds <> [] -> digits ds -> exists m ex, mantissa m /\ exponent ex /\ layout ds k = (m ++ ex)%list.
Proof.
  intros N D. unfold layout. destruct ((k <=? -4) || (16 <? k))%Z.
  - set (ed := if (length (digits_of (Z.abs (k - 1))) <? 2)%nat then _ else _). assert (E : ed <> [] /\ digits ed).
    { unfold ed. assert (Q := digits_of_digits (Z.abs (k - 1)) ltac:(lia)). destruct (_ <? 2)%nat; split; [discriminate|unfold digits; cbn [forallb]; now rewrite Q|apply digits_of_nonempty|exact Q]. }
    destruct E as [E1 E2]. set (sg := if (k - 1 <? 0)%Z then 45%N else 43%N). assert (X : exponent (101%N :: sg :: ed)).
    { right. exists (u "e"), [sg], ed. repeat split; [now left|unfold sg; destruct (_ <? _)%Z; [right; right; reflexivity|right; left; reflexivity]|exact E1|exact E2]. }
    destruct ds as [|a [|b r]]; [contradiction| |].
    + exists [a], (101%N :: sg :: ed). repeat split; [left; split; [discriminate|exact D]|exact X].
    + exists (a :: 46%N :: b :: r), (101%N :: sg :: ed). repeat split; [|exact X]. right. exists [a], (b :: r). unfold digits in D. cbn [forallb] in D. apply andb_prop in D as [D1 D2].
      repeat split; [unfold digits; cbn [forallb]; now rewrite D1|exact D2|discriminate].
  - destruct (k <=? 0)%Z; [|destruct (Z.of_nat (length ds) <=? k)%Z].
    + exists (u "0." ++ zeros (- k) ++ ds)%list, []. rewrite app_nil_r. repeat split; [|now left]. right. exists (u "0"), (zeros (- k) ++ ds)%list. repeat split; [apply digits_app; [apply digits_zeros|exact D]|discriminate].
    + exists (ds ++ zeros (k - Z.of_nat (length ds)) ++ u ".0")%list, []. rewrite app_nil_r. repeat split; [|now left]. right. exists (ds ++ zeros (k - Z.of_nat (length ds)))%list, (u "0"). rewrite <- app_assoc.
      repeat split; [apply digits_app; [exact D|apply digits_zeros]|]. destruct ds; [contradiction|discriminate].
    + exists (firstn (Z.to_nat k) ds ++ 46%N :: skipn (Z.to_nat k) ds)%list, []. rewrite app_nil_r. repeat split; [|now left]. right. exists (firstn (Z.to_nat k) ds), (skipn (Z.to_nat k) ds).
      repeat split; [apply forallb_firstn; exact D|apply forallb_skipn; exact D|now rewrite firstn_skipn].
Qed.

Lemma float_form f : fvalid f = true -> plain_num (NFloat f) = true -> is_double (str_of_float f).
Proof.
  destruct f as [| |neg m E]; try discriminate. intros V _. unfold str_of_float. right.
  assert (X : exists mm ex, mantissa mm /\ exponent ex /\ repr_mag m E = (mm ++ ex)%list).
  { unfold repr_mag. destruct (m =? 0)%Z; [exists (u "0.0"), []; repeat split; [right; exists (u "0"), (u "0"); repeat split; discriminate|now left]|].
    destruct (exact_dec m E) as [X t] eqn:Ex. destruct (exact_dec_round m E X t V Ex) as [Hr HX]. destruct (shortest _ _ _ _ _ _ _) as [D s] eqn:Sh.
    destruct (shortest_spec _ _ _ _ _ _ _ _ _ HX Hr Sh) as [_ HD]. destruct (strip10 800 D s) as [D' s'] eqn:Es. destruct (strip10_spec _ _ _ _ _ HD Es) as [j [_ [_ [_ HD']]]].
    apply layout_form; [apply digits_of_nonempty|]. now apply digits_of_digits. }
  destruct X as (mm & ex & X1 & X2 & ->). exists (if neg then [45%N] else []), mm, ex. repeat split; auto. destruct neg; [right; now right|now left].
Qed.

Lemma num_form n s : num_valid n = true -> plain_num n = true -> num_str n = Ok s -> is_double s.
Proof.
  destruct n as [z|f]; intros V P H; [exact (int_double _ (int_form _ _ P H))|]. cbn in H. injection H as <-. now apply float_form.
Qed.

(** ** Dates *)

Lemma pad_denotes k n : (0 <= n < 10 ^ Z.of_nat k)%Z -> (1 <= k)%nat -> denotes_in k (pad k n) n.
Proof.
  intros H K. destruct (pad_spec k n H K) as [H1 [H2 H3]]. split; [exact H1|]. split; [|split; assumption]. intro E. rewrite E in H1. cbn in H1. lia.
Qed.
Lemma pad_year y : (1 <= y <= 9999)%Z -> year_text (pad 4 y) y.
Proof.
  intro H. destruct (pad_denotes 4 y) as [L D]; [change (10 ^ Z.of_nat 4)%Z with 10000%Z; lia|lia|]. repeat split; try apply D; lia.
Qed.
Lemma short_year y : (1000 <= y <= 9999)%Z -> year_text (digits_of y) y.
Proof. intro H. rewrite (digits_of_pad 3 y); [apply pad_year; lia|]. change (10 ^ Z.of_nat 3)%Z with 1000%Z. change (10 ^ Z.of_nat 4)%Z with 10000%Z. lia. Qed.
Lemma pad_month m : (1 <= m <= 12)%Z -> month_text (pad 2 m) m.
Proof. intro H. split; [|lia]. apply pad_denotes; [change (10 ^ Z.of_nat 2)%Z with 100%Z; lia|lia]. Qed.
Lemma pad_sixty x : (0 <= x < 60)%Z -> sixty (pad 2 x).
Proof. intro H. exists x. split; [|lia]. apply pad_denotes; [change (10 ^ Z.of_nat 2)%Z with 100%Z; lia|lia]. Qed.

Lemma month_length_eq y m : (1 <= m <= 12)%Z -> days_in_month y m = month_length y m.
Proof.
  intro H. assert (L : is_leap y = leap_year y).
  { unfold is_leap, leap_year. destruct (Z.eqb_spec (y mod 400) 0) as [E|E]; destruct (Z.eqb_spec (y mod 4) 0) as [E4|E4]; destruct (Z.eqb_spec (y mod 100) 0) as [E1|E1]; try reflexivity; exfalso; Z.div_mod_to_equations; lia. }
  unfold days_in_month, month_length. rewrite L.
  assert (C : (m = 1 \/ m = 2 \/ m = 3 \/ m = 4 \/ m = 5 \/ m = 6 \/ m = 7 \/ m = 8 \/ m = 9 \/ m = 10 \/ m = 11 \/ m = 12)%Z) by lia.
  repeat (destruct C as [->|C]; [reflexivity|]). subst m. reflexivity.
Qed.

Lemma month_length_small y m : (1 <= m <= 12)%Z -> (month_length y m <= 31)%Z.
Proof. intro H. rewrite <- month_length_eq by exact H. unfold days_in_month. repeat destruct (_ =? _)%Z; cbn; try lia; destruct (is_leap y); lia. Qed.

Lemma date_form d : valid_date d = true -> date_text (date_iso d).
Proof.
  unfold valid_date. rewrite !andb_true_iff, !Z.leb_le. intros [[[[[A1 A2] A3] A4] A5] A6]. unfold date_iso. exists (pad 4 (dy d)), (dy d), (pad 2 (dm d)), (dm d), (pad 2 (dd d)).
  split; [apply pad_year; lia|]. split; [apply pad_month; lia|]. split; [|reflexivity]. rewrite month_length_eq in A6 by lia. assert (S := month_length_small (dy d) (dm d) ltac:(lia)).
  exists (dd d). split; [|lia]. apply pad_denotes; [change (10 ^ Z.of_nat 2)%Z with 100%Z; lia|lia].
Qed.

Lemma zone_form o : (match o with Some o => (o mod 60 =? 0)%Z && (Z.abs o <=? 50400)%Z | None => true end) = true -> zone (off_iso o).
Proof.
  destruct o as [o|]; [|intros _; now left]. rewrite andb_true_iff, Z.eqb_eq, Z.leb_le. intros [H1 H2]. right. right. unfold off_iso.
  assert (E : (Z.abs o mod 60 = 0)%Z) by (destruct (Z.abs_spec o) as [[_ ->]|[_ ->]]; [exact H1|]; Z.div_mod_to_equations; lia).
  rewrite (proj2 (Z.eqb_eq _ _) E), app_nil_r. set (a := Z.abs o) in *. assert (0 <= a)%Z by lia.
  exists (if (o <? 0)%Z then u "-" else u "+"), (pad 2 (a / 3600)), (a / 3600)%Z, (pad 2 (a / 60 mod 60)).
  assert (Q1 : (0 <= a / 3600 <= 14)%Z) by (Z.div_mod_to_equations; lia). assert (Q2 : (0 <= a / 60 mod 60 < 60)%Z) by (apply Z.mod_pos_bound; lia).
  split; [destruct (o <? 0)%Z; auto|]. split; [apply pad_denotes; [change (10 ^ Z.of_nat 2)%Z with 100%Z; lia|lia]|]. split; [now apply pad_sixty|]. split; [|reflexivity].
  destruct (Z.eq_dec (a / 3600) 14) as [E14|N14]; [|left; lia]. right. split; [exact E14|]. assert (Ea : a = 50400%Z) by (Z.div_mod_to_equations; lia). rewrite Ea. reflexivity.
Qed.

Lemma kdt_form k : kdt_normal k = true -> plain_date k = true -> is_kml_date (kdt_str k).
Proof.
  destruct k as [[d|t] r]; unfold kdt_normal, plain_date, kdt_str; cbn [k_res k_dt date_of]; intros N P.
  - destruct r; try discriminate N.
    + right. left. exists (date_iso d), []. split; [now apply date_form|]. split; [now left|now rewrite app_nil_r].
    + right. right. left. apply andb_prop in N as [N _]. unfold valid_date in N. rewrite !andb_true_iff, !Z.leb_le in N. apply Z.leb_le in P. exists (digits_of (dy d)), (dy d), (pad 2 (dm d)), (dm d), [].
      rewrite app_nil_r. split; [apply short_year; lia|]. split; [apply pad_month; lia|]. split; [now left|reflexivity].
    + right. right. right. apply andb_prop in N as [N _]. apply andb_prop in N as [N _]. unfold valid_date in N. rewrite !andb_true_iff, !Z.leb_le in N. apply Z.leb_le in P. exists (digits_of (dy d)), (dy d), [].
      rewrite app_nil_r. split; [apply short_year; lia|]. split; [now left|reflexivity].
  - destruct r; try discriminate N. left. unfold valid_time in N. rewrite !andb_true_iff, !Z.leb_le, !Z.ltb_lt in N. destruct N as [[[[[[[[[V H1] H2] H3] H4] H5] H6] H7] H8] _].
    unfold datetime_iso. exists (date_iso (dtd t)), (pad 2 (hh t) ++ u ":" ++ pad 2 (mi t) ++ u ":" ++ pad 2 (ss t) ++ (if (us t =? 0)%Z then [] else u "." ++ pad 6 (us t)))%list, (off_iso (off t)).
    split; [now apply date_form|]. split; [|split; [now apply zone_form|now rewrite <- !app_assoc]].
    exists (pad 2 (hh t)), (hh t), (pad 2 (mi t)), (pad 2 (ss t)), (if (us t =? 0)%Z then [] else u "." ++ pad 6 (us t))%list.
    split; [apply pad_denotes; [change (10 ^ Z.of_nat 2)%Z with 100%Z; lia|lia]|]. split; [lia|]. split; [apply pad_sixty; lia|]. split; [apply pad_sixty; lia|]. split; [|reflexivity].
    destruct (us t =? 0)%Z; [now left|right]. destruct (pad_denotes 6 (us t)) as [_ [D1 [D2 _]]]; [change (10 ^ Z.of_nat 6)%Z with 1000000%Z; lia|lia|]. eauto.
Qed.

(** ** Simple types and the setters that fill them *)

Definition numeric (st : sname) : bool := existsb (sname_eqb st) double_types.
Definition structured (st : sname) : bool :=
  sname_eqb st ("xs", "boolean") || sname_eqb st ("xs", "int") || numeric st || sname_eqb st ("kml", "dateTimeType").
Definition free (st : sname) : bool := negb (structured st) && match enum_type st with Some _ => false | None => true end.
Definition takes_bool (st : sname) : bool := free st || sname_eqb st ("xs", "boolean").
Definition takes_int (st : sname) : bool := free st || sname_eqb st ("xs", "int") || numeric st.
Definition takes_double (st : sname) : bool := free st || numeric st.
Definition takes_date (st : sname) : bool := free st || sname_eqb st ("kml", "dateTimeType").
Definition takes_member (mm : ustr) (st : sname) : bool :=
  free st || negb (structured st) && match enum_type st with Some l => existsb (fun x => ueqb mm (u x)) l | None => true end.

Lemma sname_eqb_eq a b : sname_eqb a b = true -> a = b.
Proof. destruct a, b. unfold sname_eqb. cbn [fst snd]. intro H. apply andb_prop in H as [H1 H2]. apply seqb_eq in H1, H2. now subst. Qed.

Lemma unstructured st : structured st = false ->
  forall s, well_written st s = match enum_type st with Some l => In s (map u l) | None => True end.
Proof. unfold structured, numeric, well_written. rewrite !orb_false_iff. intros [[[-> ->] ->] ->] s. reflexivity. Qed.

Lemma free_ok st s : free st = true -> well_written st s.
Proof. unfold free. intro H. apply andb_prop in H as [H1 H2]. apply negb_true_iff in H1. rewrite unstructured by exact H1. now destruct (enum_type st). Qed.

Lemma numeric_ok st s : numeric st = true -> is_double s -> well_written st s.
Proof.
  unfold numeric. intros H D. apply existsb_exists in H as [x [Hx H]]. apply sname_eqb_eq in H. subst x. cbn in Hx. repeat (destruct Hx as [<-|Hx]; [exact D|]). contradiction.
Qed.
Lemma bool_ok st (b : bool) : takes_bool st = true -> well_written st (u (if b then "1" else "0")).
Proof. intro H. apply orb_prop in H as [H|H]; [now apply free_ok|]. apply sname_eqb_eq in H. subst st. destruct b; cbn; auto. Qed.
Lemma int_ok st s : takes_int st = true -> is_int s -> well_written st s.
Proof.
  intros H D. apply orb_prop in H as [H|H]; [apply orb_prop in H as [H|H]; [now apply free_ok|]|]; [apply sname_eqb_eq in H; subst st; exact D|]. apply numeric_ok; [exact H|now apply int_double].
Qed.
Lemma double_ok st s : takes_double st = true -> is_double s -> well_written st s.
Proof. intros H D. apply orb_prop in H as [H|H]; [now apply free_ok|now apply numeric_ok]. Qed.
Lemma date_ok st s : takes_date st = true -> is_kml_date s -> well_written st s.
Proof. intros H D. apply orb_prop in H as [H|H]; [now apply free_ok|]. apply sname_eqb_eq in H. subst st. exact D. Qed.
Lemma member_ok st s : takes_member s st = true -> well_written st s.
Proof.
  intros H. apply orb_prop in H as [H|H]; [now apply free_ok|]. apply andb_prop in H as [H1 H2]. apply negb_true_iff in H1. rewrite unstructured by exact H1. destruct (enum_type st) as [l|]; [|exact I].
  apply existsb_exists in H2 as [x [Hx H2]]. apply ueqb_eq in H2. subst s. now apply in_map.
Qed.

(** ** Classes *)

Definition item_lex (W : world) (c : string) (d : decl) (it : item) : bool :=
  plain_value (it_default it) &&
  let own := (nsid W c, it_node it) in
  match it_set it with
  | SNodeText | SCoords => match d_text d with Some st => free st | None => true end
  | SAttrText => attr_lex d free (it_node it)
  | SAttrInt => attr_lex d takes_int (it_node it)
  | SAttrFloat => attr_lex d takes_double (it_node it)
  | SAttrEnum => forallb (fun m => attr_lex d (takes_member (fst m)) (it_node it)) (members W it)
  | SText | SCoordList => leaf_lex d free own
  | SBool => leaf_lex d takes_bool own
  | SInt => leaf_lex d takes_int own
  | SFloat => leaf_lex d takes_double own
  | SEnum => forallb (fun m => let id := match snd m with Some id => id | None => nsid W c end in
                               known_id id && leaf_lex d (takes_member (fst m)) (id, it_node it)) (members W it)
  | SDate => leaf_lex d takes_date ("kml", it_node it)
  | SDates => leaf_lex d takes_date ("kml", it_node it) && leaf_lex d free own
  | SObj | SObjs => forallb (kid_lex W d) (it_classes it)
  end.

(** Nothing else than the items writes the text of the element. *)
Definition text_lex (W : world) (c : string) (d : decl) : bool :=
  match d_text d with Some st => free st | None => true end.

Definition class_lex (W : world) (c : string) (d : decl) : bool := text_lex W c d && forallb (item_lex W c d) (items_of W c).
Definition lex_ok (W : world) : bool := fit_ok W (class_lex W).
Definition plain_node (c : string) (attrs : list (string * value)) : bool := forallb (fun av => plain_value (snd av)) attrs.

Section Lex.
  Variable W : world.
  Hypothesis HW : world_ok W = true.
  Variables (prec : option nat) (vb : verbosity) (m : nss_t).
  Hypothesis Hm : schema_nss m = true.
  Notation lnode := (lnode W plain_node m).
  Notation written_well := (written_well well_written).

  Section Object.
    Variables (c : string) (ci : class_info) (ns : ustr) (nss : nss_t) (attrs : list (string * value)).
    Hypothesis Hc : class_of W c = Some ci.
    Hypothesis Hn : lnode c ns nss attrs = true.
    Hypothesis Hid : known_id (nsid W c) = true.

    Notation CF := (CF W HW c ci Hc).
    Notation n_parts := (n_parts W plain_node m c ns nss attrs Hn).
    Lemma v_plain a x : sget a attrs = Some x -> plain_value x = true.
    Proof. intro Hx. destruct n_parts as (_ & _ & _ & P). unfold plain_node in P. rewrite forallb_forall in P. exact (P _ (sget_In _ _ _ Hx)). Qed.

    (** *** The values *)
    Definition scalar_fact (it : item) (v : value) : Prop :=
      match v with VDates _ | VCoords _ _ => True | _ => item_typed W it v = true /\ plain_value v = true end.

    Lemma none_fact it : scalar_fact it VNone.
    Proof. split; [apply item_typed_none|reflexivity]. Qed.

    Lemma scalar_value it : In it (items_of W c) -> scalar_set (it_set it) = true -> plain_value (it_default it) = true ->
      scalar_fact it (get_value vb (obj_attr ci attrs (it_attr it)) (it_default it)).
    Proof.
      intros Hin Hs Hp. assert (Hfi := find_item_NoDup _ _ (cf_attrs _ _ _ CF) Hin).
      destruct (ItemProofs.get_value_cases vb (obj_attr ci attrs (it_attr it)) (it_default it)) as [->|[->| ->]]; [| |apply none_fact].
      - unfold obj_attr. destruct (sget (it_attr it) attrs) as [x|] eqn:Ex.
        + unfold scalar_fact. assert (A := v_typed W plain_node m c ci ns nss attrs Hc Hn _ _ _ Ex Hfi). assert (B := v_plain _ _ Ex). destruct x; auto.
        + destruct (ci_geom ci); try apply none_fact. destruct (sget "track_items" attrs) as [x|]; [|apply none_fact]. destruct x; try apply none_fact.
          repeat match goal with |- context [if ?b then _ else _] => destruct b end; try exact I. apply none_fact.
      - unfold scalar_fact. assert (I := cf_items _ _ _ CF _ Hin). unfold item_ok in I. rewrite !andb_true_iff in I. destruct I as [[_ I] _]. unfold default_ok in I.
        assert (Q : item_typed W it (it_default it) && item_readable (it_default it) = true) by (destruct (it_set it); try discriminate Hs; exact I). apply andb_prop in Q as [Q _]. destruct (it_default it); auto.
    Qed.

    Lemma dates_fact it l : In it (items_of W c) -> it_set it = SDates -> get_value vb (obj_attr ci attrs (it_attr it)) (it_default it) = VDates l ->
      Forall (fun o => match o with Some k => kdt_normal k = true /\ plain_date k = true | None => True end) l.
    Proof.
      intros Hin Hs G. assert (Hfi := find_item_NoDup _ _ (cf_attrs _ _ _ CF) Hin). destruct (ItemProofs.get_value_cases vb (obj_attr ci attrs (it_attr it)) (it_default it)) as [E|[E|E]]; rewrite E in G; [| |discriminate].
      - unfold obj_attr in G. destruct (sget (it_attr it) attrs) as [x|] eqn:Ex.
        + subst x. assert (A := v_typed W plain_node m c ci ns nss attrs Hc Hn _ _ _ Ex Hfi). assert (B := v_plain _ _ Ex). unfold item_typed in A. rewrite Hs in A. cbn [plain_value] in B. rewrite forallb_forall in A, B. apply Forall_forall. intros o Ho. specialize (A _ Ho). specialize (B _ Ho). destruct o; auto.
        + destruct (ci_geom ci); try discriminate G. destruct (sget "track_items" attrs) as [x|] eqn:Et; [|discriminate]. destruct x as [ | | | | | | | | |its| | ]; try discriminate G.
          destruct (String.eqb (it_attr it) "whens"); [|repeat match type of G with (if ?b then _ else _) = _ => destruct b end; discriminate]. injection G as <-.
          assert (B := v_plain _ _ Et). cbn [plain_value] in B. destruct n_parts as [T _]. unfold typed_node in T. rewrite Hc in T. apply andb_prop in T as [_ T]. rewrite forallb_forall in T.
          specialize (T _ (sget_In _ _ _ Et)). unfold attr_typed in T. apply andb_prop in T as [T _].
          assert (A : forallb titem_typed its = true) by (destruct (find_item "track_items" (items_of W c)) as [i|]; [unfold item_typed in T; destruct (it_set i); discriminate T|exact T]).
          rewrite forallb_forall in A, B. apply Forall_forall. intros o Ho. apply in_map_iff in Ho as [i [<- Hi]]. specialize (A _ Hi). specialize (B _ Hi). unfold titem_typed in A. rewrite !andb_true_iff in A. destruct (ti_when i); [|exact I]. tauto.
      - assert (I := cf_items _ _ _ CF _ Hin). unfold item_ok in I. rewrite !andb_true_iff in I. destruct I as [[_ I] _]. unfold default_ok in I. rewrite Hs, G in I. discriminate.
    Qed.

    Lemma emit_lex it d e : In it (items_of W c) -> it_set it <> SObj -> it_set it <> SObjs -> item_lex W c d it = true ->
      emit W prec vb ci ns nss attrs (ws_of W prec vb attrs) it = Ok e -> written_well d e.
    Proof.
      intros Hin N1 N2 Hl E. assert (Hfi := find_item_NoDup _ _ (cf_attrs _ _ _ CF) Hin). unfold item_lex in Hl. apply andb_prop in Hl as [Hp Hl]. cbv zeta in Hl.
      assert (SV := fun Hs => scalar_value it Hin Hs Hp). unfold emit in E. cbv zeta in E. destruct (it_set it) eqn:Es.
      - (* node text *) destruct (get_value _ _ _); try discriminate E; [|destruct (uempty s)]; injection E as <-; apply ww_zero || apply ww_text.
      - (* text *) destruct (get_value _ _ _); try discriminate E; [|destruct (uempty s)]; injection E as <-; try apply ww_zero.
        eapply ww_kid; [exact Hl|apply (own_name W plain_node m Hm c ci ns nss attrs Hc Hn Hid)|intros; now apply free_ok].
      - (* attribute *) destruct (get_value _ _ _); try discriminate E; [|destruct (uempty s)]; injection E as <-; try apply ww_zero.
        eapply ww_attr; [exact Hl|intros; now apply free_ok].
      - (* bool *) specialize (SV eq_refl). destruct (get_value _ _ _) as [ |b|[z|f]| | | | | | | | | ]; try discriminate E; [injection E as <-; apply ww_zero| |].
        + injection E as <-. eapply ww_kid; [exact Hl|apply (own_name W plain_node m Hm c ci ns nss attrs Hc Hn Hid)|]. intros st Hst. now apply bool_ok.
        + exfalso. destruct SV as [SV _]. unfold item_typed in SV. rewrite Es in SV. discriminate.
      - (* int *) specialize (SV eq_refl). destruct (get_value _ _ _) eqn:G; try (injection E as <-; apply ww_zero); try discriminate E; apply bind_ok in E as [t [Et E]]; injection E as <-;
          try (exfalso; destruct SV as [SV _]; unfold item_typed in SV; rewrite Es in SV; discriminate).
        destruct SV as [S1 S2]. unfold item_typed in S1. rewrite Es in S1. destruct n as [z|f]; [|discriminate S1]. eapply ww_kid; [exact Hl|apply (own_name W plain_node m Hm c ci ns nss attrs Hc Hn Hid)|]. intros st Hst. apply int_ok; [exact Hst|]. now apply (int_form z).
      - (* attribute int *) specialize (SV eq_refl). destruct (get_value _ _ _) eqn:G; try (injection E as <-; apply ww_zero); try discriminate E; apply bind_ok in E as [t [Et E]]; injection E as <-;
          try (exfalso; destruct SV as [SV _]; unfold item_typed in SV; rewrite Es in SV; discriminate).
        destruct SV as [S1 S2]. unfold item_typed in S1. rewrite Es in S1. destruct n as [z|f]; [|discriminate S1]. eapply ww_attr; [exact Hl|]. intros st Hst. apply int_ok; [exact Hst|]. now apply (int_form z).
      - (* float *) specialize (SV eq_refl). destruct (get_value _ _ _) eqn:G; try (injection E as <-; apply ww_zero); try discriminate E; apply bind_ok in E as [t [Et E]]; injection E as <-;
          try (exfalso; destruct SV as [SV _]; unfold item_typed in SV; rewrite Es in SV; discriminate).
        destruct SV as [S1 S2]. unfold item_typed in S1. rewrite Es in S1. eapply ww_kid; [exact Hl|apply (own_name W plain_node m Hm c ci ns nss attrs Hc Hn Hid)|]. intros st Hst. apply double_ok; [exact Hst|]. now apply (num_form n).
      - (* attribute float *) specialize (SV eq_refl). destruct (get_value _ _ _) eqn:G; try (injection E as <-; apply ww_zero); try discriminate E; apply bind_ok in E as [t [Et E]]; injection E as <-;
          try (exfalso; destruct SV as [SV _]; unfold item_typed in SV; rewrite Es in SV; discriminate).
        destruct SV as [S1 S2]. unfold item_typed in S1. rewrite Es in S1. eapply ww_attr; [exact Hl|]. intros st Hst. apply double_ok; [exact Hst|]. now apply (num_form n).
      - (* enumeration *) specialize (SV eq_refl). destruct (get_value _ _ _) as [ | | | |ec mm| | | | | | | ] eqn:G; try discriminate E; injection E as <-; [apply ww_zero|].
        destruct SV as [S1 _]. unfold item_typed in S1. rewrite Es in S1. destruct (members_in W ns nss it ec mm S1) as [o [Ho Eo]]. rewrite Eo. rewrite forallb_forall in Hl. specialize (Hl _ Ho). cbn [fst snd] in Hl.
        apply andb_prop in Hl as [K Hl]. eapply ww_kid; [exact Hl| |intros st Hst; now apply member_ok]. destruct o as [id|]; [rewrite (nss_get W plain_node m c ns nss attrs Hn); now apply tag_id|apply (own_name W plain_node m Hm c ci ns nss attrs Hc Hn Hid)].
      - (* attribute enumeration *) specialize (SV eq_refl). destruct (get_value _ _ _) as [ | | | |ec mm| | | | | | | ] eqn:G; try discriminate E; injection E as <-; [apply ww_zero|].
        destruct SV as [S1 _]. unfold item_typed in S1. rewrite Es in S1. destruct (members_in W ns nss it ec mm S1) as [o [Ho _]]. rewrite forallb_forall in Hl. specialize (Hl _ Ho). cbn [fst snd] in Hl.
        eapply ww_attr; [exact Hl|intros st Hst; now apply member_ok].
      - (* date *) specialize (SV eq_refl). destruct (get_value _ _ _) eqn:G; try discriminate E; injection E as <-; [apply ww_zero|].
        destruct SV as [S1 S2]. unfold item_typed in S1. rewrite Es in S1. eapply ww_kid; [exact Hl|unfold date_ns; rewrite (nss_get W plain_node m c ns nss attrs Hn); now apply tag_id|]. intros st Hst. apply date_ok; [exact Hst|]. now apply kdt_form.
      - (* dates *) apply andb_prop in Hl as [Hl1 Hl2]. destruct (get_value _ _ _) as [ | | | | | | | |l| | | ] eqn:G; try discriminate E; [injection E as <-; apply ww_zero|].
        apply bind_ok in E as [ks [Ek E]]. injection E as <-. assert (D := dates_fact it _ Hin Es G). apply ww_kids.
        apply map_res_ok in Ek. revert ks Ek. clear G. induction D as [|o l Ho _ IH]; intros ks Ek; cbn [map] in Ek; inversion Ek as [|? k ? ks' Hk Ek']; subst; constructor; [|now apply IH].
        destruct o as [dt|]; cbn in Hk; injection Hk as <-.
        + destruct Ho. eapply leaf_good; [exact Hl1|unfold date_ns; rewrite (nss_get W plain_node m c ns nss attrs Hn); now apply tag_id|]. intros st Hst. apply date_ok; [exact Hst|]. now apply kdt_form.
        + eapply leaf_good; [exact Hl2|apply (own_name W plain_node m Hm c ci ns nss attrs Hc Hn Hid)|]. intros st Hst. now apply free_ok.
      - (* list of coordinates *) destruct (get_value _ _ _) as [ | | | | | | |b l| | | | ] eqn:G; try discriminate E; [injection E as <-; apply ww_zero|].
        apply bind_ok in E as [ks [Ek E]]. injection E as <-. apply ww_kids. apply map_res_ok in Ek. revert ks Ek. clear G. induction l as [|x l IH]; intros ks Ek; cbn [map] in Ek; inversion Ek as [|? k ? ks' Hk Ek']; subst; constructor; [|now apply IH].
        apply bind_ok in Hk as [y [Hy Hk]]. injection Hk as <-. apply bind_ok in Hy as [s [_ Hy]]. injection Hy as <-. eapply leaf_good; [exact Hl|apply (own_name W plain_node m Hm c ci ns nss attrs Hc Hn Hid)|]. intros st Hst. now apply free_ok.
      - (* coordinates *) destruct (obj_attr ci attrs (it_attr it)); try discriminate E; [injection E as <-; apply ww_zero|].
        destruct (nilb l); [injection E as <-; apply ww_zero|]. apply bind_ok in E as [s [_ E]]. injection E as <-. apply ww_text.
      - now contradict N1.
      - now contradict N2.
    Qed.
  End Object.

  Theorem lex_written : lex_ok W = true -> forall v, typed W v = true -> regular W m v = true -> plain_values v = true ->
    forall e, etree W prec vb v = Ok e -> values_valid e.
  Proof.
    intros HL v T R P e He. refine (document_written W HW well_written plain_node (class_lex W) prec vb m Hm HL _ _ _ v T R P e He).
    - intros c d st s F E. unfold class_lex, text_lex in F. rewrite E in F. apply andb_prop in F as [F _]. now apply free_ok.
    - intros c d it F Hin S. unfold class_lex in F. apply andb_prop in F as [_ F]. rewrite forallb_forall in F. specialize (F _ Hin). unfold item_lex in F. apply andb_prop in F as [_ F]. destruct S as [S|S]; rewrite S in F; exact F.
    - intros c ci ns nss attrs it d x Hc Hn Hid F Hin N1 N2 E. unfold class_lex in F. apply andb_prop in F as [_ F]. rewrite forallb_forall in F. exact (emit_lex c ci ns nss attrs Hc Hn Hid it d x Hin N1 N2 (F _ Hin) E).
  Qed.
End Lex.
