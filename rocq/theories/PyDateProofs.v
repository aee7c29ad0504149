(** Lemmas about dates: C09, C10, C11. *)
From Coq Require Import String List NArith ZArith Bool Lia ZifyBool ZifyN ZifyNat.
From Verif Require Import Ustr UstrProofs Res PyInt PyNumProofs PyDate.
Import ListNotations.
Local Open Scope Z_scope.
Ltac Zify.zify_post_hook ::= Z.div_mod_to_equations.

(** ** Digits *)

Lemma digits_val_bound s : forallb is_adigit s = true -> digits_val s < 10 ^ Z.of_nat (length s).
Proof.
  induction s as [|c s IH] using rev_ind; intro H.
  - reflexivity.
  - rewrite forallb_app in H. apply andb_prop in H as [H1 H2]. cbn [forallb] in H2.
    rewrite digits_val_app. cbn [length].
    rewrite app_length, Nat2Z.inj_add. cbn [length].
    change (Z.of_nat 1) with 1. rewrite Z.pow_add_r, Z.pow_1_r by lia.
    specialize (IH H1).
    change (digits_val [c]) with (Z.of_N c - 48).
    unfold is_adigit in H2. lia.
Qed.

Lemma digits_aux_length fuel : forall n k, 0 <= n < 10 ^ Z.of_nat k -> (1 <= k)%nat ->
  (length (digits_aux fuel n []) <= k)%nat.
Proof.
  induction fuel as [|f IH]; intros n k Hn Hk; [cbn; lia|].
  cbn [digits_aux]. destruct (n <? 10) eqn:E; [cbn; lia|].
  rewrite digits_aux_app, app_length. cbn [length].
  destruct k as [|[|k]]; [lia| |].
  - change (10 ^ Z.of_nat 1) with 10 in Hn. lia.
  - assert (length (digits_aux f (n / 10) []) <= S k)%nat; [|lia].
    apply IH; [|lia]. 
    replace (Z.of_nat (S (S k))) with (Z.of_nat (S k) + 1) in Hn by lia.
    rewrite Z.pow_add_r, Z.pow_1_r in Hn by lia.
    set (p := 10 ^ Z.of_nat (S k)) in *. lia.
Qed.

Lemma digits_of_length n k : 0 <= n < 10 ^ Z.of_nat k -> (1 <= k)%nat -> (length (digits_of n) <= k)%nat.
Proof. apply digits_aux_length. Qed.

Lemma pad_spec k n : 0 <= n < 10 ^ Z.of_nat k -> (1 <= k)%nat ->
  length (pad k n) = k /\ forallb is_adigit (pad k n) = true /\ digits_val (pad k n) = n.
Proof.
  intros Hn Hk. unfold pad. assert (Hl := digits_of_length n k Hn Hk).
  rewrite app_length, repeat_length, forallb_app, repeat_digits, digits_of_digits by lia.
  rewrite digits_val_zeros_app, digits_of_val by lia. repeat split. lia.
Qed.

Lemma digits_of_pad k n : 10 ^ Z.of_nat k <= n < 10 ^ Z.of_nat (S k) -> digits_of n = pad (S k) n.
Proof.
  intro H. unfold pad. assert (P := pow10_pos (Z.of_nat k) ltac:(lia)).
  assert (length (digits_of n) <= S k)%nat by (apply digits_of_length; lia).
  assert (S k <= length (digits_of n))%nat.
  { assert (Hb := digits_val_bound (digits_of n) (digits_of_digits n ltac:(lia))).
    rewrite digits_of_val in Hb by lia.
    destruct (Nat.le_gt_cases (S k) (length (digits_of n))) as [C|C]; [exact C|].
    assert (10 ^ Z.of_nat (length (digits_of n)) <= 10 ^ Z.of_nat k) by (apply Z.pow_le_mono_r; lia). lia. }
  replace (S k - length (digits_of n))%nat with 0%nat by lia. reflexivity.
Qed.

Lemma int_of_digits ds : forallb is_adigit ds = true -> ds <> [] -> (length ds <= 4300)%nat ->
  int_of_str ds = Ok (digits_val ds).
Proof.
  intros H Hn Hl. unfold int_of_str.
  assert (Hp := adigit_plain _ H).
  rewrite plain_ascii, plain_c_strip by assumption.
  rewrite take_sign_digit by (auto using firstn1_digits).
  rewrite plain_no_us, H by assumption. destruct ds; [congruence|].
  cbn [uempty negb andb].
  replace (int_max_str_digits <? N.of_nat (length (n :: ds)))%N with false; [reflexivity|].
  symmetry. unfold int_max_str_digits. apply N.ltb_ge. lia.
Qed.

Lemma dec_digit_ascii c : is_adigit c = true -> dec_digit c = Some (c - 48)%N.
Proof.
  intro H. unfold dec_digit, nd_zeros. cbn [find].
  replace ((48 <=? c) && (c <? 48 + 10))%N with true; [reflexivity|]. unfold is_adigit in H. lia.
Qed.

Lemma pad2 n : 0 <= n < 100 -> exists a b, pad 2 n = [a; b] /\ is_adigit a = true /\ is_adigit b = true /\
  digits_val [a; b] = n.
Proof.
  intro H. destruct (pad_spec 2 n) as [H1 [H2 H3]]; [exact H|lia|].
  destruct (pad 2 n) as [|a [|b [|c l]]]; try discriminate. cbn [forallb] in H2.
  rewrite !andb_true_iff in H2. destruct H2 as [? [? _]].
  exists a, b. auto.
Qed.

Lemma pad4 n : 0 <= n < 10000 -> exists a b c d, pad 4 n = [a; b; c; d] /\
  is_adigit a = true /\ is_adigit b = true /\ is_adigit c = true /\ is_adigit d = true /\
  digits_val [a; b; c; d] = n.
Proof.
  intro H. destruct (pad_spec 4 n) as [H1 [H2 H3]]; [exact H|lia|].
  destruct (pad 4 n) as [|a [|b [|c [|d [|e l]]]]]; try discriminate. cbn [forallb] in H2.
  rewrite !andb_true_iff in H2. destruct H2 as [? [? [? [? _]]]].
  exists a, b, c, d. auto 8.
Qed.

Lemma take_ascii_app n ds r : length ds = n -> forallb is_adigit ds = true ->
  take_ascii n (ds ++ r) = Some (ds, r).
Proof.
  revert n; induction ds as [|c ds IH]; intros n Hn H; cbn in Hn; subst n; [reflexivity|].
  cbn [forallb] in H. apply andb_prop in H as [Hc H]. cbn [take_ascii app]. rewrite Hc, IH; auto.
Qed.

Lemma take_num_pad k n r : 0 <= n < 10 ^ Z.of_nat k -> (1 <= k)%nat ->
  take_num k (pad k n ++ r) = Some (n, r).
Proof.
  intros Hn Hk. destruct (pad_spec k n Hn Hk) as [H1 [H2 H3]].
  unfold take_num. rewrite take_ascii_app by assumption. now rewrite H3.
Qed.

Lemma take_chr_eq c r : take_chr c (c :: r) = Some r.
Proof. cbn. now rewrite N.eqb_refl. Qed.

(** ** [isoformat] is read back by the ISO reader *)

Lemma valid_date_inv d : valid_date d = true ->
  1 <= dy d <= 9999 /\ 1 <= dm d <= 12 /\ 1 <= dd d <= 31.
Proof.
  unfold valid_date. intro H. assert (days_in_month (dy d) (dm d) <= 31); [clear H|lia].
  unfold days_in_month. destruct (dm d =? 2); [destruct (is_leap _)|destruct (_ || _)]; lia.
Qed.

Lemma valid_time_inv t : valid_time t = true ->
  valid_date (dtd t) = true /\ 0 <= hh t < 24 /\ 0 <= mi t < 60 /\ 0 <= ss t < 60 /\ 0 <= us t < 1000000 /\
  match off t with None => True | Some o => -86400 < o < 86400 end.
Proof.
  unfold valid_time. rewrite !andb_true_iff. intros [[[[[[[[[Hd ?] ?] ?] ?] ?] ?] ?] ?] Ho].
  split; [exact Hd|]. repeat (split; [lia|]). destruct (off t); [lia|exact I].
Qed.

Lemma iso_off_spec o : match o with None => True | Some x => -86400 < x < 86400 /\ x mod 60 = 0 end ->
  iso_off (off_iso o) = Some o.
Proof.
  destruct o as [o|]; [|reflexivity]. intros [H1 H2]. unfold off_iso.
  set (a := Z.abs o).
  assert (Ha : a mod 60 = 0). { unfold a. lia. }
  assert (Hb : 0 <= a < 86400) by (unfold a; lia).
  rewrite Ha. cbn [Z.eqb]. rewrite app_nil_r.
  assert (Hh : take_num 2 (pad 2 (a / 3600) ++ u ":" ++ pad 2 (a / 60 mod 60)) = Some (a / 3600, 58%N :: pad 2 (a / 60 mod 60))).
  { apply take_num_pad; [change (10 ^ Z.of_nat 2) with 100; lia|lia]. }
  assert (Hm : take_num 2 (pad 2 (a / 60 mod 60)) = Some (a / 60 mod 60, [])).
  { rewrite <- (app_nil_r (pad 2 _)). apply take_num_pad; [change (10 ^ Z.of_nat 2) with 100; lia|lia]. }
  assert (Hval : a / 3600 * 3600 + a / 60 mod 60 * 60 = a) by lia.
  destruct (o <? 0) eqn:E.
  - change (u "-" ++ ?x) with (45%N :: x). cbn [iso_off].
    change (N.eqb 45 43 || N.eqb 45 45) with true. cbv iota. rewrite Hh. rewrite take_chr_eq, Hm.
    change (N.eqb 45 45) with true. cbv iota. rewrite Hval. do 2 f_equal. unfold a. lia.
  - change (u "+" ++ ?x) with (43%N :: x). cbn [iso_off].
    change (N.eqb 43 43 || N.eqb 43 45) with true. cbv iota. rewrite Hh. rewrite take_chr_eq, Hm.
    change (N.eqb 43 45) with false. cbv iota. rewrite Hval. do 2 f_equal. unfold a. lia.
Qed.

Lemma off_iso_not_dot o : take_chr 46 (off_iso o) = None.
Proof. destruct o as [o|]; [|reflexivity]. unfold off_iso. destruct (o <? 0); reflexivity. Qed.

Lemma date_iso_app d r : date_iso d ++ r =
  pad 4 (dy d) ++ 45%N :: pad 2 (dm d) ++ 45%N :: pad 2 (dd d) ++ r.
Proof. unfold date_iso. now rewrite <- !app_assoc. Qed.

Lemma iso_parse_date d r : valid_date d = true ->
  iso_parse (date_iso d ++ 84%N :: r) =
  (try (h, s) := take_num 2 r in try s := take_chr 58 s in
   try (i, s) := take_num 2 s in try s := take_chr 58 s in
   try (c, s) := take_num 2 s in
   try (f, s) := (match take_chr 46 s with Some s' => take_num 6 s' | None => Some (0, s) end) in
   try o := iso_off s in
   Some (mkDT d h i c f o)).
Proof.
  intro H. apply valid_date_inv in H as [H1 [H2 H3]].
  rewrite date_iso_app. unfold iso_parse.
  rewrite take_num_pad by (change (10 ^ Z.of_nat 4) with 10000; lia). rewrite take_chr_eq.
  rewrite take_num_pad by (change (10 ^ Z.of_nat 2) with 100; lia). rewrite take_chr_eq.
  rewrite take_num_pad by (change (10 ^ Z.of_nat 2) with 100; lia). rewrite take_chr_eq.
  destruct d; reflexivity.
Qed.

Lemma colon_app x : u ":" ++ x = 58%N :: x.
Proof. reflexivity. Qed.

Lemma iso_parse_spec t : valid_time t = true -> match off t with Some o => o mod 60 = 0 | None => True end ->
  iso_parse (datetime_iso t) = Some t.
Proof.
  intros H Ho. apply valid_time_inv in H as [Hd [H1 [H2 [H3 [H4 H5]]]]].
  unfold datetime_iso.
  change (date_iso (dtd t) ++ u "T" ++ ?x) with (date_iso (dtd t) ++ 84%N :: x).
  rewrite iso_parse_date by exact Hd.
  rewrite take_num_pad by (change (10 ^ Z.of_nat 2) with 100; lia).
  rewrite colon_app, take_chr_eq.
  rewrite take_num_pad by (change (10 ^ Z.of_nat 2) with 100; lia). rewrite colon_app, take_chr_eq.
  rewrite take_num_pad by (change (10 ^ Z.of_nat 2) with 100; lia).
  assert (Hoff : iso_off (off_iso (off t)) = Some (off t)).
  { apply iso_off_spec. destruct (off t); auto. }
  destruct (us t =? 0) eqn:E.
  - cbn [app]. rewrite off_iso_not_dot, Hoff. destruct t; cbn in *. repeat f_equal. lia.
  - rewrite <- app_assoc. change (u "." ++ ?x) with (46%N :: x). rewrite take_chr_eq.
    rewrite take_num_pad by (change (10 ^ Z.of_nat 6) with 1000000; lia).
    rewrite Hoff. destruct t; reflexivity.
Qed.

Lemma re_end_long a b s : re_end (a :: b :: s) = false.
Proof. reflexivity. Qed.

Lemma take_digits2 a b s : is_adigit a = true -> is_adigit b = true ->
  take_digits 2 (a :: b :: s) = Some ([a; b], s).
Proof. intros Ha Hb. cbn [take_digits]. now rewrite !dec_digit_ascii. Qed.

Lemma take_digits4 a b c d s : is_adigit a = true -> is_adigit b = true -> is_adigit c = true -> is_adigit d = true ->
  take_digits 4 (a :: b :: c :: d :: s) = Some ([a; b; c; d], s).
Proof. intros. cbn [take_digits]. now rewrite !dec_digit_ascii. Qed.

Lemma digit_not_dash a : is_adigit a = true -> N.eqb a 45 = false.
Proof. unfold is_adigit. lia. Qed.

Lemma ymd_year a b c d : is_adigit a = true -> is_adigit b = true -> is_adigit c = true -> is_adigit d = true ->
  ymd_match [a; b; c; d] = Some ([a; b; c; d], None, None).
Proof. intros. unfold ymd_match. rewrite take_digits4 by assumption. reflexivity. Qed.

Lemma ymd_month a b c d e f : is_adigit a = true -> is_adigit b = true -> is_adigit c = true -> is_adigit d = true ->
  is_adigit e = true -> is_adigit f = true ->
  ymd_match [a; b; c; d; 45%N; e; f] = Some ([a; b; c; d], Some [e; f], None).
Proof.
  intros. unfold ymd_match. rewrite take_digits4 by assumption. unfold opt_dash at 1.
  change (N.eqb 45 45) with true. cbv iota. unfold opt_two at 1. rewrite take_digits2 by assumption. reflexivity.
Qed.

Lemma ymd_date a b c d e f g h : is_adigit a = true -> is_adigit b = true -> is_adigit c = true -> is_adigit d = true ->
  is_adigit e = true -> is_adigit f = true -> is_adigit g = true -> is_adigit h = true ->
  ymd_match [a; b; c; d; 45%N; e; f; 45%N; g; h] = Some ([a; b; c; d], Some [e; f], Some [g; h]).
Proof.
  intros. unfold ymd_match. rewrite take_digits4 by assumption. unfold opt_dash at 1.
  change (N.eqb 45 45) with true. cbv iota. unfold opt_two at 1. rewrite take_digits2 by assumption.
  unfold opt_dash at 1. change (N.eqb 45 45) with true. cbv iota. unfold opt_two at 1.
  rewrite take_digits2 by assumption. reflexivity.
Qed.

Lemma take_digits2_dash s : take_digits 2 (45%N :: s) = None.
Proof. reflexivity. Qed.

Lemma take_digits_len n s ds r : take_digits n s = Some (ds, r) -> s = ds ++ r /\ length ds = n.
Proof.
  revert s ds r; induction n as [|n IH]; cbn; intros s ds r H.
  - injection H as <- <-. auto.
  - destruct s as [|c s]; [discriminate|]. destruct (dec_digit c); [|discriminate].
    destruct (take_digits n s) as [[ds' r']|] eqn:E; [|discriminate]. injection H as <- <-.
    destruct (IH _ _ _ E) as [-> <-]. auto.
Qed.

Lemma opt_dash_none {X} (k : ustr -> option X) s :
  k s = None -> (forall s', s = 45%N :: s' -> k s' = None) -> opt_dash k s = None.
Proof.
  intros H H'. destruct s as [|c s']; [exact H|]. cbn. destruct (N.eqb c 45) eqn:E; [|exact H].
  apply N.eqb_eq in E. subst c. rewrite (H' s' eq_refl). exact H.
Qed.

Lemma opt_two_none {X} (k : option ustr -> ustr -> option X) s :
  k None s = None -> (forall a b s', s = a :: b :: s' -> k (Some [a; b]) s' = None) -> opt_two k s = None.
Proof.
  intros H H'. unfold opt_two. destruct (take_digits 2 s) as [[ds r]|] eqn:E; [|exact H].
  apply take_digits_len in E as [-> Hl]. destruct ds as [|a [|b [|c ds]]]; try discriminate.
  assert (E := H' a b r eq_refl). unfold ustr in *. rewrite E. exact H.
Qed.

Lemma ymd_long_len y s : (8 <= length s)%nat ->
  opt_dash (opt_two (fun m : option ustr =>
        opt_dash (opt_two (fun (d : option ustr) s2 => if re_end s2 then Some (y : ustr, m, d) else None)))) s = None.
Proof.
  intro Hl.
  assert (E2 : forall (m d : option ustr) s2, (2 <= length s2)%nat -> (if re_end s2 then Some (y, m, d) else None) = None).
  { intros m d s2 H2. destruct s2 as [|? [|? ?]]; cbn in H2; try lia. reflexivity. }
  assert (E3 : forall (m : option ustr) s2, (4 <= length s2)%nat ->
     opt_two (fun (d : option ustr) s2 => if re_end s2 then Some (y, m, d) else None) s2 = None).
  { intros m s2 H2. apply opt_two_none; [apply E2; lia|]. intros a b s' ->. cbn [length] in H2. apply E2. lia. }
  assert (E4 : forall (m : option ustr) s2, (5 <= length s2)%nat ->
     opt_dash (opt_two (fun (d : option ustr) s2 => if re_end s2 then Some (y, m, d) else None)) s2 = None).
  { intros m s2 H2. apply opt_dash_none; [apply E3; lia|]. intros s' ->. cbn [length] in H2. apply E3. lia. }
  apply opt_dash_none.
  - apply opt_two_none; [apply E4; lia|]. intros a b s' ->. cbn [length] in Hl. apply E4. lia.
  - intros s' ->. cbn [length] in Hl. apply opt_two_none; [apply E4; lia|].
    intros a b s'' ->. cbn [length] in Hl. apply E4. lia.
Qed.

Lemma ymd_long s : (12 <= length s)%nat -> ymd_match s = None.
Proof.
  intro Hl. unfold ymd_match. destruct (take_digits 4 s) as [[y r]|] eqn:E; [|reflexivity].
  apply take_digits_len in E as [-> Hy]. rewrite app_length in Hl. apply (ymd_long_len y). lia.
Qed.

Lemma datetime_iso_long t : valid_time t = true -> (12 <= length (datetime_iso t))%nat.
Proof.
  intro H. apply valid_time_inv in H as [Hd [H1 [H2 [H3 _]]]]. apply valid_date_inv in Hd as [D1 [D2 D3]].
  unfold datetime_iso, date_iso. rewrite !app_length.
  destruct (pad_spec 4 (dy (dtd t))) as [-> _]; [change (10 ^ Z.of_nat 4) with 10000; lia|lia|].
  destruct (pad_spec 2 (dm (dtd t))) as [-> _]; [change (10 ^ Z.of_nat 2) with 100; lia|lia|].
  destruct (pad_spec 2 (dd (dtd t))) as [-> _]; [change (10 ^ Z.of_nat 2) with 100; lia|lia|].
  destruct (pad_spec 2 (hh t)) as [-> _]; [change (10 ^ Z.of_nat 2) with 100; lia|lia|].
  cbn [u length]. lia.
Qed.

(** ** Well-formed [KmlDateTime] values (what the constructor produces). *)

Definition kdt_normal (k : kmldt) : bool :=
  match k_res k, k_dt k with
  | RYear, PDate d => valid_date d && (dm d =? 1) && (dd d =? 1)
  | RYearMonth, PDate d => valid_date d && (dd d =? 1)
  | RDate, PDate d => valid_date d
  | RDateTime, PDateTime t => valid_time t
  | _, _ => false
  end.

(** Values whose text form is read back: four digit years for the short
    forms, an offset of whole minutes for date-times. *)
Definition kdt_readable (k : kmldt) : bool :=
  kdt_normal k &&
  match k_res k, k_dt k with
  | RYear, PDate d | RYearMonth, PDate d => 1000 <=? dy d
  | RDateTime, PDateTime t => aware t
  | _, _ => true
  end.

Definition valid_pydate (p : pydate) : bool :=
  match p with PDate d => valid_date d | PDateTime t => valid_time t end.

Lemma valid_first d : valid_date d = true ->
  valid_date (mkDate (dy d) 1 1) = true /\ valid_date (mkDate (dy d) (dm d) 1) = true.
Proof.
  unfold valid_date; cbn. intro H. split; [change (days_in_month (dy d) 1) with 31|]; [lia|].
  assert (1 <= days_in_month (dy d) (dm d)); [|lia].
  unfold days_in_month. destruct (dm d =? 2); [destruct (is_leap _)|destruct (_ || _)]; lia.
Qed.

Lemma kml_datetime_normal p r : valid_pydate p = true -> kdt_normal (kml_datetime p r) = true.
Proof.
  intro H.
  assert (Hd : valid_date (date_of p) = true).
  { destruct p; cbn in *; [exact H|]. now apply valid_time_inv in H. }
  destruct (valid_first _ Hd) as [V1 V2].
  unfold kml_datetime. destruct r as [[| | |]|]; destruct p as [d|t]; cbn in *; unfold kdt_normal; cbn;
    rewrite ?V1, ?V2, ?H, ?Hd; reflexivity.
Qed.

Lemma kml_datetime_idem k : kdt_normal k = true -> kml_datetime (k_dt k) (Some (k_res k)) = k.
Proof.
  destruct k as [[[y m d]|t] [| | |]]; unfold kdt_normal; cbn; try discriminate; intro H;
    unfold kml_datetime; cbn; repeat f_equal; lia.
Qed.

Lemma mk_date_valid d : valid_date d = true -> mk_date (dy d) (dm d) (dd d) = Ok d.
Proof. intro H. unfold mk_date. destruct d; cbn in *. now rewrite H. Qed.

Theorem kdt_roundtrip oracle k : kdt_readable k = true -> kdt_parse oracle (kdt_str k) = Ok k.
Proof.
  unfold kdt_readable. intro H. apply andb_prop in H as [Hn Hr].
  assert (Hi := kml_datetime_idem k Hn).
  destruct k as [[d|t] r]; destruct r; unfold kdt_normal in Hn; cbn in Hn, Hr, Hi; try discriminate.
  - (* date *)
    unfold kdt_str; cbn [k_res k_dt date_of].
    assert (Hv := valid_date_inv _ Hn). destruct Hv as [H1 [H2 H3]].
    unfold date_iso.
    destruct (pad4 (dy d)) as [a [b [c [e [-> [Ha [Hb [Hc [He Vy]]]]]]]]]; [lia|].
    destruct (pad2 (dm d)) as [f [g [-> [Hf [Hg Vm]]]]]; [lia|].
    destruct (pad2 (dd d)) as [h [i [-> [Hh [Hii Vd]]]]]; [lia|].
    unfold kdt_parse. change ([a; b; c; e] ++ u "-" ++ [f; g] ++ u "-" ++ [h; i]) with [a; b; c; e; 45%N; f; g; 45%N; h; i].
    rewrite ymd_date by assumption. cbn [group_int].
    rewrite !int_of_digits by (cbn [forallb length]; rewrite ?Ha, ?Hb, ?Hc, ?He, ?Hf, ?Hg, ?Hh, ?Hii; try reflexivity; try lia; congruence).
    rewrite Vy, Vm, Vd. cbn [bind]. rewrite mk_date_valid by exact Hn. cbn [bind]. now f_equal.
  - (* year month *)
    unfold kdt_str; cbn [k_res k_dt date_of]. apply andb_prop in Hn as [Hn Hd].
    assert (Hv := valid_date_inv _ Hn). destruct Hv as [H1 [H2 H3]].
    rewrite (digits_of_pad 3) by (change (10 ^ Z.of_nat 3) with 1000; change (10 ^ Z.of_nat 4) with 10000; lia).
    destruct (pad4 (dy d)) as [a [b [c [e [-> [Ha [Hb [Hc [He Vy]]]]]]]]]; [lia|].
    destruct (pad2 (dm d)) as [f [g [-> [Hf [Hg Vm]]]]]; [lia|].
    unfold kdt_parse. change ([a; b; c; e] ++ u "-" ++ [f; g]) with [a; b; c; e; 45%N; f; g].
    rewrite ymd_month by assumption. cbn [group_int].
    rewrite !int_of_digits by (cbn [forallb length]; rewrite ?Ha, ?Hb, ?Hc, ?He, ?Hf, ?Hg, ?Hh, ?Hii; try reflexivity; try lia; congruence).
    rewrite Vy, Vm. cbn [bind]. assert (E : dd d = 1) by lia. rewrite <- E, mk_date_valid by exact Hn. cbn [bind]. now f_equal.
  - (* year *)
    unfold kdt_str; cbn [k_res k_dt date_of]. apply andb_prop in Hn as [Hn Hd]. apply andb_prop in Hn as [Hn Hm].
    assert (Hv := valid_date_inv _ Hn). destruct Hv as [H1 [H2 H3]].
    rewrite (digits_of_pad 3) by (change (10 ^ Z.of_nat 3) with 1000; change (10 ^ Z.of_nat 4) with 10000; lia).
    destruct (pad4 (dy d)) as [a [b [c [e [-> [Ha [Hb [Hc [He Vy]]]]]]]]]; [lia|].
    unfold kdt_parse. rewrite ymd_year by assumption. cbn [group_int].
    rewrite int_of_digits by (cbn [forallb length]; rewrite ?Ha, ?Hb, ?Hc, ?He; try reflexivity; try lia; congruence). rewrite Vy. cbn [bind].
    assert (E : mk_date (dy d) 1 1 = Ok d).
    { rewrite <- (mk_date_valid _ Hn). f_equal; lia. }
    rewrite E. cbn [bind]. now f_equal.
  - (* date time *)
    unfold kdt_str; cbn [k_res k_dt]. unfold kdt_parse. rewrite ymd_long by now apply datetime_iso_long.
    unfold arrow_get. rewrite iso_parse_spec; [|exact Hn|].
    2:{ unfold aware in Hr. destruct (off t); [lia|exact I]. }
    unfold aware in Hr. destruct (off t) as [o|] eqn:Eo; [|discriminate].
    replace (mkDT _ _ _ _ _ _) with t by (destruct t; cbn in *; congruence).
    unfold aware. rewrite Hn, Eo, Hr. reflexivity.
Qed.

Lemma int_of_str_err s e : int_of_str s = Err e -> e = EValueError.
Proof.
  unfold int_of_str. destruct (take_sign _) as [neg d]. destruct (no_underscores _ _); [|congruence].
  destruct (_ && _); [|congruence]. destruct (_ <? _)%N; congruence.
Qed.

Lemma group_int_err g e : group_int g = Err e -> e = EValueError.
Proof. destruct g; [apply int_of_str_err|discriminate]. Qed.

Lemma kdt_parse_err oracle s e : kdt_parse oracle s = Err e -> e = EValueError.
Proof.
  unfold kdt_parse. destruct (ymd_match s) as [[[y m] d]|].
  - destruct (int_of_str y) eqn:E1; [|cbn; intro H; injection H as <-; eauto using int_of_str_err].
    destruct (group_int m) eqn:E2; [|cbn; intro H; injection H as <-; eauto using group_int_err].
    destruct (group_int d) eqn:E3; [|cbn; intro H; injection H as <-; eauto using group_int_err].
    cbn [bind]. unfold mk_date. destruct (valid_date _); cbn; congruence.
  - unfold arrow_get. destruct (match iso_parse s with Some _ => _ | None => _ end); cbn; [|congruence].
    destruct (_ && _); cbn; congruence.
Qed.

(** What the parser returns is normal; and readable unless the year is below 1000. *)
Theorem kdt_parse_normal oracle s k : kdt_parse oracle s = Ok k -> kdt_normal k = true /\
  match k_res k, k_dt k with RDateTime, PDateTime t => aware t = true | _, _ => True end.
Proof.
  unfold kdt_parse. destruct (ymd_match s) as [[[y m] d]|].
  - intro H. apply bind_ok in H as [yy [_ H]]. apply bind_ok in H as [mm [_ H]].
    apply bind_ok in H as [d' [_ H]]. apply bind_ok in H as [dt [Hdt H]]. injection H as <-.
    unfold mk_date in Hdt. destruct (valid_date _) eqn:E; [|discriminate]. injection Hdt as <-.
    split; [now apply kml_datetime_normal|]. destruct m; [destruct d|]; cbn; exact I.
  - intro H. apply bind_ok in H as [t [Ht H]]. injection H as <-. unfold arrow_get in Ht.
    destruct (match iso_parse s with Some _ => _ | None => _ end) as [t'|]; [|discriminate].
    destruct (valid_time t' && aware t') eqn:E; [|discriminate]. injection Ht as <-.
    apply andb_prop in E as [E1 E2]. split; [now apply kml_datetime_normal|]. exact E2.
Qed.
