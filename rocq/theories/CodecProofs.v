(** * Text codecs: numbers and coordinate lists. *)
From Coq Require Import String List NArith ZArith Bool Lia.
From Verif Require Import Ustr UstrProofs Res PyInt PyFloat PyNumProofs PyFmtProofs PyDate PyDateProofs Elem Value Geom Codec Spec EmitProofs.
Import ListNotations.
Local Open Scope Z_scope.

Lemma float_of_Z_valid z : fvalid (float_of_Z z) = true.
Proof. apply round_ratio_valid; lia. Qed.

Lemma to_float_valid n : num_valid n = true -> fvalid (to_float n) = true.
Proof. destruct n; cbn; [intros _; apply float_of_Z_valid|auto]. Qed.

Lemma str_of_int_numtext z s : str_of_int z = Ok s -> numtext s = true /\ s <> [].
Proof.
  intro H. destruct (str_of_int_plain _ _ H) as [_ Hn]. split; [|exact Hn].
  unfold str_of_int in H. destruct (_ <? _)%N; [discriminate|].
  assert (Hd := digits_of_digits (Z.abs z) ltac:(lia)). apply numtext_digits in Hd.
  injection H as <-. destruct (z <? 0); [|exact Hd]. rewrite numtext_cons, Hd. reflexivity.
Qed.

Lemma float_of_int_text z s : str_of_int z = Ok s -> float_of_str s = Ok (float_of_Z z).
Proof.
  intro H. unfold str_of_int in H. destruct (_ <? _)%N; [discriminate|].
  assert (Hd := digits_of_digits (Z.abs z) ltac:(lia)).
  assert (Hv := digits_of_val (Z.abs z) ltac:(lia)).
  assert (Hn := digits_of_nonempty (Z.abs z)).
  injection H as <-.
  assert (Hp : parse_dec (z <? 0) (digits_of (Z.abs z)) = Some (float_of_Z z)).
  { rewrite <- (app_nil_r (digits_of (Z.abs z))). rewrite (parse_dec_int _ _ [] 0); auto.
    f_equal. rewrite Hv. unfold round_dec, float_of_Z. cbn [Z.leb Z.compare].
    change (10 ^ 0) with 1. now rewrite Z.mul_1_r. }
  assert (Hs : starts_digit (digits_of (Z.abs z)) = true).
  { destruct (digits_of (Z.abs z)) as [|c l]; [congruence|]. cbn in Hd |- *. now apply andb_prop in Hd as [-> _]. }
  assert (F := float_of_str_plain (z <? 0) (digits_of (Z.abs z)) _ (adigit_plain _ Hd) Hs Hp).
  destruct (z <? 0); exact F.
Qed.

(** Texts of numbers: read back as the float they denote. *)
Lemma num_str_spec n t : num_valid n = true -> num_str n = Ok t ->
  float_of_str t = Ok (to_float n) /\ numtext t = true /\ t <> [].
Proof.
  destruct n as [z|f]; cbn; intros Hv H.
  - split; [now apply float_of_int_text|now apply str_of_int_numtext in H].
  - injection H as <-. split; [now apply float_roundtrip|now apply str_of_float_numtext].
Qed.

Lemma fmt_round_to p f : fvalid f = true -> float_of_str (fmt_float p f) = Ok (round_to p f).
Proof. intro Hv. unfold round_to. destruct (fmt_parse p f Hv) as [g [-> _]]. reflexivity. Qed.

Lemma round_to_valid p f : fvalid f = true -> fvalid (round_to p f) = true.
Proof. intro Hv. unfold round_to. destruct (fmt_parse p f Hv) as [g [-> [H _]]]. exact H. Qed.

(** Rounding twice is rounding once; the text does not drift. *)
Lemma fmt_round_idem p f : fvalid f = true -> fmt_float p (round_to p f) = fmt_float p f.
Proof. intro Hv. unfold round_to. destruct (fmt_parse p f Hv) as [g [-> [_ H]]]. exact H. Qed.
Lemma round_to_idem p f : fvalid f = true -> round_to p (round_to p f) = round_to p f.
Proof.
  intro Hv. assert (H := fmt_round_to p f Hv).
  unfold round_to at 1. rewrite fmt_round_idem by exact Hv. now rewrite H.
Qed.

Lemma num_norm_valid prec n : num_valid n = true -> num_valid (num_norm prec n) = true.
Proof.
  intro H. apply to_float_valid in H. destruct prec as [p|]; cbn; [now apply round_to_valid|exact H].
Qed.
Lemma point_norm_valid prec c : nums_valid c = true -> nums_valid (point_norm prec c) = true.
Proof.
  unfold nums_valid, point_norm. rewrite !forallb_forall. intros H n Hn.
  apply in_map_iff in Hn as [m [<- Hm]]. apply num_norm_valid; auto.
Qed.
Lemma num_norm_idem prec n : num_valid n = true -> num_norm prec (num_norm prec n) = num_norm prec n.
Proof.
  intro H. apply to_float_valid in H. destruct prec as [p|]; [|reflexivity].
  unfold num_norm. cbn [to_float]. now rewrite round_to_idem.
Qed.

Lemma num_text_spec prec n t : num_valid n = true -> num_text prec n = Ok t ->
  (let! f := float_of_str t in Ok (NFloat f)) = Ok (num_norm prec n) /\ numtext t = true /\ t <> [].
Proof.
  intros Hv H. destruct prec as [p|]; cbn [num_text] in H.
  - assert (H' : t = fmt_float p (to_float n)).
    { destruct n as [z|f]; cbn [num_fmt to_float] in H |- *.
      - destruct (float_of_Z z); injection H as <- || discriminate; reflexivity.
      - injection H as <-. reflexivity. }
    apply to_float_valid in Hv. subst t. unfold num_norm. rewrite (fmt_round_to p _ Hv). cbn [bind].
    split; [reflexivity|]. now apply fmt_float_numtext.
  - destruct (num_str_spec n t Hv H) as [-> [H1 H2]]. now split.
Qed.

(** ** Sequences of numbers *)

Lemma map_text_spec prec c ts : nums_valid c = true -> map_res (num_text prec) c = Ok ts ->
  floats_of ts = Ok (point_norm prec c) /\ forallb numtext ts = true /\ forallb (fun t => negb (uempty t)) ts = true /\ length ts = length c.
Proof.
  unfold floats_of, nums_valid, point_norm. revert ts; induction c as [|n c IH]; intros ts Hv H; cbn in H.
  - injection H as <-. repeat split.
  - cbn in Hv. apply andb_prop in Hv as [Hn Hc].
    apply bind_ok in H as [t [Ht H]]. apply bind_ok in H as [r [Hr H]]. injection H as <-.
    destruct (num_text_spec prec n t Hn Ht) as [H1 [H2 H3]].
    destruct (IH r Hc Hr) as [I1 [I2 [I3 I4]]].
    cbn [map_res forallb length map]. rewrite H1. cbn [bind]. rewrite I1, H2, I2, I3, I4.
    repeat split. destruct t; [congruence|reflexivity].
Qed.

(** Blank separated numbers ([gx:coord]). *)
Lemma join_space_spec prec c t : nums_valid c = true -> join_nums (u " ") prec c = Ok t ->
  floats_of (words t) = Ok (point_norm prec c) /\ uempty t = nilb c.
Proof.
  intros Hv H. unfold join_nums in H. apply bind_ok in H as [ts [Hts H]]. injection H as <-.
  destruct (map_text_spec prec c ts Hv Hts) as [H1 [H2 [H3 H4]]].
  change (u " ") with [32%N]. rewrite words_join.
  - split; [exact H1|]. destruct c as [|n c]; destruct ts as [|x ts]; try discriminate; [reflexivity|].
    cbn in H3. destruct x; [discriminate|]. destruct ts; reflexivity.
  - rewrite forallb_forall in *. intros w Hw. rewrite (numtext_no_space w (H2 w Hw)). exact (H3 w Hw).
Qed.

(** ** Coordinates *)

(** No comma directly before a space. *)
Fixpoint nocs (s : ustr) : bool :=
  match s with
  | c :: ((d :: _) as s') => negb ((c =? 44)%N && (d =? 32)%N) && nocs s'
  | _ => true
  end.

Lemma nocs_sub s : nocs s = true -> sub_comma false s = s.
Proof.
  assert (G : forall s b, nocs s = true -> (b = true -> match s with d :: _ => (d =? 32)%N = false | [] => True end) ->
              sub_comma b s = s).
  { clear s. induction s as [|c s IH]; intros b H Hb; [reflexivity|]. cbn [sub_comma].
    assert (E : (c =? 32)%N && b = false).
    { destruct b; [|now rewrite andb_false_r]. rewrite (Hb eq_refl). reflexivity. }
    rewrite E. f_equal. apply IH.
    - destruct s as [|d s]; [reflexivity|]. cbn [nocs] in H. now apply andb_prop in H.
    - intro Hc. destruct s as [|d s]; [exact I|]. cbn [nocs] in H. apply andb_prop in H as [H _].
      rewrite Hc in H. cbn in H. now destruct (d =? 32)%N. }
  intro H. apply G; [exact H|discriminate].
Qed.

Lemma nocs_app_l a b : nocs (a ++ b) = true -> nocs a = true.
Proof.
  induction a as [|c a IH]; [reflexivity|]. intro H. destruct a as [|d a]; [reflexivity|].
  cbn [app nocs] in *. apply andb_prop in H as [-> H]. now apply IH.
Qed.
Lemma nocs_app_r a b : nocs (a ++ b) = true -> nocs b = true.
Proof.
  induction a as [|c a IH]; [auto|]. intro H. apply IH. destruct a as [|d a].
  - destruct b; [reflexivity|]. cbn [app nocs] in H. now apply andb_prop in H.
  - cbn [app nocs] in *. now apply andb_prop in H.
Qed.

Lemma nocs_strip s : nocs s = true -> nocs (strip s) = true.
Proof.
  intro H. unfold strip. destruct (lstrip_suffix s) as [p [H1 _]].
  destruct (rstrip_prefix (lstrip s)) as [q [H3 _]].
  rewrite H1 in H. apply nocs_app_r in H. rewrite H3 in H. now apply nocs_app_l in H.
Qed.

Lemma nocs_no_space_app a s : no_char 32 a = true -> (a = [] \/ last a 0%N <> 44%N) -> nocs s = true ->
  nocs (a ++ s) = true.
Proof.
  induction a as [|c a IH]; [auto|]. intros Ha Hl Hs. cbn [no_char forallb] in Ha. apply andb_prop in Ha as [Hc Ha].
  destruct a as [|d a].
  - cbn [app]. destruct s as [|d s]; [reflexivity|].
    change (negb ((c =? 44)%N && (d =? 32)%N) && nocs (d :: s) = true).
    rewrite Hs, andb_true_r. destruct Hl as [Hl|Hl]; [discriminate|]. cbn in Hl.
    replace (c =? 44)%N with false; [reflexivity|]. symmetry. now apply N.eqb_neq.
  - cbn [app] in *. change (negb ((c =? 44)%N && (d =? 32)%N) && nocs (d :: a ++ s) = true).
    rewrite IH; [|exact Ha| |exact Hs].
    + cbn [forallb] in Ha. apply andb_prop in Ha as [Hd _]. destruct (d =? 32)%N; [discriminate|].
      now rewrite andb_false_r.
    + right. destruct Hl as [Hl|Hl]; [discriminate|]. exact Hl.
Qed.

Lemma words_space_join l : forallb no_space l = true ->
  words (join [32%N] l) = filter (fun w => negb (uempty w)) l.
Proof.
  induction l as [|w l IH]; [reflexivity|]. intro H. cbn [forallb] in H. apply andb_prop in H as [Hw Hl].
  destruct l as [|v l].
  - cbn [join filter]. destruct w; [reflexivity|]. cbn [uempty negb]. apply words_single; [exact Hw|discriminate].
  - rewrite join_cons by discriminate. cbn [filter]. destruct w as [|c w].
    + cbn [app uempty negb]. rewrite words_space by reflexivity. now apply IH.
    + cbn [uempty negb]. change ([32%N] ++ join [32%N] (v :: l)) with (32%N :: join [32%N] (v :: l)).
      rewrite words_app; [|exact Hw|discriminate|reflexivity]. f_equal. now apply IH.
Qed.

Definition tuple_ok (t : ustr) : Prop := no_char 32 t = true /\ no_space t = true /\ (t = [] \/ last t 0%N <> 44%N).

Lemma nocs_32 s : nocs (32%N :: s) = nocs s.
Proof. destruct s; reflexivity. Qed.

Lemma nocs_join l : Forall tuple_ok l -> nocs (join [32%N] l) = true.
Proof.
  induction 1 as [|t l [H1 [_ H2]] _ IH]; [reflexivity|].
  destruct l as [|v l].
  - cbn [join]. rewrite <- (app_nil_r t). now apply nocs_no_space_app.
  - rewrite join_cons by discriminate. apply nocs_no_space_app; [exact H1|exact H2|].
    cbn [app]. rewrite nocs_32. exact IH.
Qed.

Lemma last_app {A} (a b : list A) d : b <> [] -> last (a ++ b) d = last b d.
Proof.
  intro H. induction a as [|x a IH]; [reflexivity|]. cbn [app]. rewrite <- IH.
  destruct (a ++ b) eqn:E; [|reflexivity]. apply app_eq_nil in E as [_ E]. contradiction.
Qed.

Lemma last_In {A} (l : list A) d : l <> [] -> In (last l d) l.
Proof.
  induction l as [|x l IH]; [congruence|]. intros _. destruct l as [|y l]; [now left|].
  right. apply IH. discriminate.
Qed.

Lemma no_char32 s : no_space s = true -> no_char 32 s = true.
Proof.
  unfold no_space, no_char. rewrite !forallb_forall. intros H c Hc. specialize (H c Hc).
  destruct (N.eqb_spec c 32) as [->|]; [discriminate|reflexivity].
Qed.

Lemma join_comma_ok prec c t : nums_valid c = true -> join_nums (u ",") prec c = Ok t ->
  tuple_ok t /\ uempty t = nilb c /\ (c <> [] -> floats_of (split_on 44 t) = Ok (point_norm prec c)).
Proof.
  intros Hv H. unfold join_nums in H. apply bind_ok in H as [ts [Hts H]]. injection H as <-.
  destruct (map_text_spec prec c ts Hv Hts) as [H1 [H2 [H3 H4]]]. change (u ",") with [44%N].
  assert (Hns : no_space (join [44%N] ts) = true).
  { clear -H2. induction ts as [|t ts IH]; [reflexivity|]. cbn [forallb] in H2. apply andb_prop in H2 as [Ht H2].
    apply numtext_no_space in Ht. destruct ts as [|v ts]; [exact Ht|].
    rewrite join_cons by discriminate. rewrite no_space_app, Ht. cbn [app]. unfold no_space at 1. cbn [forallb].
    now apply IH. }
  split; [|split].
  - split; [now apply no_char32|]. split; [exact Hns|].
    clear -H2 H3. induction ts as [|t ts IH]; [now left|]. right.
    cbn [forallb] in H2, H3. apply andb_prop in H2 as [Ht H2]. apply andb_prop in H3 as [Hn H3].
    destruct ts as [|v ts].
    + cbn [join]. assert (Hne : t <> []) by (destruct t; [discriminate|congruence]).
      assert (Hin := last_In t 0%N Hne). intro E. rewrite E in Hin.
      apply numtext_no_comma in Ht. unfold no_char in Ht. rewrite forallb_forall in Ht. now specialize (Ht _ Hin).
    + rewrite join_cons by discriminate. assert (join [44%N] (v :: ts) <> []).
      { cbn [forallb] in H3. destruct v; [discriminate|]. destruct ts; discriminate. }
      rewrite app_assoc, last_app by assumption. destruct (IH H2 H3) as [E|E]; [contradiction|exact E].
  - destruct c as [|n c]; destruct ts as [|x ts]; try discriminate; [reflexivity|].
    cbn in H3. destruct x; [discriminate|]. destruct ts; reflexivity.
  - intro Hc. rewrite split_on_join; [exact H1| |].
    + destruct ts; [destruct c; [congruence|discriminate]|discriminate].
    + rewrite forallb_forall in *. intros w Hw. apply numtext_no_comma. auto.
Qed.

(** The coordinates text is read back tuple by tuple; empty tuples vanish. *)
Lemma coordinates_spec prec l t : forallb nums_valid l = true -> coordinates_text prec l = Ok t ->
  parse_coordinates t = Ok (VCoords false (map (point_norm prec) (filter (fun c => negb (nilb c)) l))).
Proof.
  intros Hv H. unfold coordinates_text in H. destruct (dims_ok l); [|discriminate].
  apply bind_ok in H as [ts [Hts H]]. injection H as <-. apply map_res_ok in Hts.
  unfold parse_coordinates. change (u " ") with [32%N].
  assert (Hok : Forall tuple_ok ts /\ forallb no_space ts = true /\
     map_res (fun s => floats_of (split_on 44 s)) (filter (fun w => negb (uempty w)) ts) =
     Ok (map (point_norm prec) (filter (fun c => negb (nilb c)) l))).
  { revert Hv. induction Hts as [|c t l ts Hc _ IH]; intro Hv; [repeat split; constructor|].
    cbn [forallb] in Hv. apply andb_prop in Hv as [Hvc Hv].
    destruct (IH Hv) as [I1 [I2 I3]]. destruct (join_comma_ok prec c t Hvc Hc) as [J1 [J2 J3]].
    split; [now constructor|]. split.
    - cbn [forallb]. destruct J1 as [_ [-> _]]. exact I2.
    - cbn [filter]. rewrite J2. destruct c as [|n c]; cbn [nilb negb]; [exact I3|].
      cbn [map_res map]. rewrite J3 by discriminate. cbn [bind]. rewrite I3. reflexivity. }
  destruct Hok as [H1 [H2 H3]].
  rewrite nocs_sub by now apply nocs_strip, nocs_join.
  rewrite words_strip, words_space_join by exact H2. rewrite H3. reflexivity.
Qed.

(** ** Other scalars *)

Lemma stripped_text t : no_space t = true -> t <> [] -> stripped (Some t) = Some t.
Proof.
  intros H1 H2. unfold stripped. rewrite strip_no_space by exact H1. now destruct t.
Qed.

Lemma bool_text strict (b : bool) : get_boolean_value strict (u (if b then "1" else "0")%string) = Ok (VBool b).
Proof. destruct strict, b; reflexivity. Qed.

Lemma uget_In {A} k (l : list (ustr * A)) v : uget k l = Some v -> In (k, v) l.
Proof.
  induction l as [|[k' v'] l IH]; cbn; [discriminate|].
  destruct (ueqb_spec k k') as [->|]; intro H; [injection H as ->; now left|right; auto].
Qed.

Lemma enum_exact_member (e : enum_info) m : (exists i, uget m e = Some i) -> enum_exact e m = Some m.
Proof.
  intros [i H]. induction e as [|[m' i'] e IH]; cbn in *; [discriminate|].
  rewrite ueqb_sym. destruct (ueqb_spec m m') as [->|]; [reflexivity|auto].
Qed.

Lemma enum_text W classes c m strict : enum_member W classes c m = true ->
  with_enum W classes (fun c e => get_enum_value c e strict m) = Ok (VEnum c m).
Proof.
  unfold enum_member, with_enum. destruct classes as [|c' [|]]; try discriminate.
  rewrite andb_true_iff. intros [E H]. apply seqb_eq in E. subst c'.
  destruct (sget c (w_enums W)) as [e|]; [|discriminate].
  destruct (uget m e) as [i|] eqn:Eu; [|discriminate].
  unfold get_enum_value, enum_lookup. rewrite enum_exact_member by eauto. cbn [bind].
  now rewrite ueqb_refl, andb_false_r.
Qed.

Lemma enum_member_text W it c m : classes_ok W it = true ->
  (it_set it = SEnum \/ it_set it = SAttrEnum) -> enum_member W (it_classes it) c m = true ->
  no_space m = true /\ m <> [].
Proof.
  unfold classes_ok, enum_member. intros Hc Hs H.
  assert (Hc' : match it_classes it with
      | [c] => match sget c (w_enums W) with Some e => enum_ok e | None => false end
      | _ => false end = true) by (destruct Hs as [E|E]; now rewrite E in Hc).
  destruct (it_classes it) as [|c' [|]]; try discriminate.
  rewrite andb_true_iff in H. destruct H as [E H]. apply seqb_eq in E. subst c'.
  destruct (sget c (w_enums W)) as [e|]; [|discriminate].
  destruct (uget m e) as [i|] eqn:Eu; [|discriminate]. apply uget_In in Eu.
  unfold enum_ok in Hc'. rewrite andb_true_iff, !forallb_forall in Hc'. destruct Hc' as [_ Hc'].
  specialize (Hc' _ Eu). cbn in Hc'. apply andb_prop in Hc' as [H1 H2]. split; [exact H1|].
  destruct m; [discriminate|congruence].
Qed.
