(** * Which texts are read at which resolution (vocabulary and proofs of C11). *)
From Coq Require Import String List NArith ZArith Bool Lia.
From Verif Require Import Ustr UstrProofs Res PyInt PyNumProofs PyDate PyDateProofs.
Import ListNotations.
Local Open Scope Z_scope.

(** [s] consists of [n] decimal digits (of any script) with value [z]. *)
Fixpoint number (acc : Z) (s : ustr) : option Z :=
  match s with
  | [] => Some acc
  | c :: s' => match dec_digit c with
               | Some d => number (10 * acc + Z.of_N d) s'
               | None => None
               end
  end.
Definition digits_text (n : nat) (s : ustr) (z : Z) : Prop := length s = n /\ number 0 s = Some z.

Definition dash (s : ustr) : Prop := s = [] \/ s = u "-".
Definition newline (s : ustr) : Prop := s = [] \/ s = [10%N].

(** ** Digits *)

Lemma dec_digit_range c d : dec_digit c = Some d -> (d < 10)%N /\ In (c - d)%N nd_zeros /\ (d <= c)%N.
Proof.
  unfold dec_digit. destruct (find _ nd_zeros) as [z|] eqn:E; [|discriminate].
  intro H. injection H as <-. apply find_some in E as [Hin Hb]. apply andb_prop in Hb as [H1 H2].
  apply N.leb_le in H1. apply N.ltb_lt in H2. split; [lia|]. split; [|lia].
  replace (c - (c - z))%N with z by lia. exact Hin.
Qed.

Lemma dec_digit_ascii c : is_adigit c = true -> dec_digit c = Some (c - 48)%N.
Proof.
  intro H. unfold is_adigit in H. apply andb_prop in H as [H1 H2]. apply N.leb_le in H1, H2.
  unfold dec_digit. cbn [find nd_zeros].
  replace ((48 <=? c)%N && (c <? 48 + 10)%N) with true; [reflexivity|].
  symmetry. apply andb_true_intro. split; [now apply N.leb_le|apply N.ltb_lt; lia].
Qed.

Lemma spaces_not_digits : forallb (fun z => forallb (fun i => negb (is_space (z + i)%N) && negb ((z + i)%N =? 45)%N && negb ((z + i)%N =? 10)%N && ((z =? 48)%N || negb (z + i <? 127)%N))
   [0;1;2;3;4;5;6;7;8;9]%N) nd_zeros = true.
Proof. vm_compute. reflexivity. Qed.

Lemma dec_digit_props c d : dec_digit c = Some d ->
  is_space c = false /\ (c =? 45)%N = false /\ (c =? 10)%N = false /\
  (to_ascii_cp c = (48 + d)%N) /\ (d < 10)%N.
Proof.
  intro H. destruct (dec_digit_range c d H) as [H1 [H2 H3]].
  assert (G := spaces_not_digits). rewrite forallb_forall in G. specialize (G _ H2).
  rewrite forallb_forall in G.
  assert (Hd : In d [0;1;2;3;4;5;6;7;8;9]%N).
  { assert (d = 0 \/ d = 1 \/ d = 2 \/ d = 3 \/ d = 4 \/ d = 5 \/ d = 6 \/ d = 7 \/ d = 8 \/ d = 9)%N by lia. cbn. intuition. }
  specialize (G _ Hd). replace (c - d + d)%N with c in G by lia.
  rewrite !andb_true_iff, !negb_true_iff, orb_true_iff in G. destruct G as [[[G1 G2] G3] G4].
  repeat split; auto. unfold to_ascii_cp. rewrite G1, H. destruct (c <? 127)%N eqn:E; [|reflexivity].
  destruct G4 as [G4|G4]; [|rewrite negb_true_iff in G4; discriminate]. apply N.eqb_eq in G4. lia.
Qed.

Lemma number_map acc s z : number acc s = Some z ->
  forallb is_adigit (map to_ascii_cp s) = true /\
  fold_left (fun acc c => 10 * acc + (Z.of_N c - 48)) (map to_ascii_cp s) acc = z.
Proof.
  revert acc; induction s as [|c s IH]; intros acc H; cbn [number] in H.
  - injection H as <-. now split.
  - destruct (dec_digit c) as [d|] eqn:E; [|discriminate]. destruct (dec_digit_props c d E) as [_ [_ [_ [E2 E3]]]].
    destruct (IH _ H) as [I1 I2]. cbn [map forallb fold_left]. rewrite E2. split.
    + rewrite I1, andb_true_r. unfold is_adigit. apply andb_true_intro. split; apply N.leb_le; lia.
    + rewrite <- I2. f_equal. lia.
Qed.

Lemma digits_int n s z : digits_text n s z -> (0 < n <= 4300)%nat -> int_of_str s = Ok z.
Proof.
  intros [Hl Hn] Hp. destruct (number_map 0 s z Hn) as [H1 H2].
  unfold int_of_str. set (t := map to_ascii_cp s) in *.
  assert (Lt : length t = n) by (unfold t; now rewrite map_length).
  rewrite plain_c_strip.
  - assert (E : take_sign t = (false, t)).
    { destruct t as [|c t]; [reflexivity|]. cbn [forallb] in H1. apply andb_prop in H1 as [H1 _].
      unfold is_adigit in H1. apply andb_prop in H1 as [A B]. apply N.leb_le in A, B.
      unfold take_sign. destruct (N.eqb_spec c 45); [lia|]. destruct (N.eqb_spec c 43); [lia|]. reflexivity. }
    rewrite E. rewrite plain_no_us by now apply adigit_plain.
    rewrite H1. destruct t as [|c t]; [cbn in Lt; lia|]. cbn [uempty negb andb].
    replace (int_max_str_digits <? _)%N with false.
    + f_equal. exact H2.
    + symmetry. apply N.ltb_ge. rewrite Lt. unfold int_max_str_digits. lia.
  - now apply adigit_plain.
Qed.

(** ** The regular expression *)

Lemma number_digits acc s z : number acc s = Some z -> Forall (fun c => exists d, dec_digit c = Some d) s.
Proof.
  revert acc; induction s as [|c s IH]; intros acc H; [constructor|]. cbn [number] in H.
  destruct (dec_digit c) as [d|] eqn:E; [|discriminate]. constructor; [eauto|]. now apply IH in H.
Qed.

Lemma take_digits_ok n s z r : digits_text n s z -> take_digits n (s ++ r) = Some (s, r).
Proof.
  intros [Hl Hn]. apply number_digits in Hn. subst n.
  induction Hn as [|c s [d Hd] _ IH]; [reflexivity|]. cbn [length take_digits app]. now rewrite Hd, IH.
Qed.

Lemma take_digits_spec n s ds r : take_digits n s = Some (ds, r) ->
  s = ds ++ r /\ exists z, digits_text n ds z.
Proof.
  unfold digits_text. enough (G : forall n s ds r acc, take_digits n s = Some (ds, r) ->
    s = ds ++ r /\ exists z, length ds = n /\ number acc ds = Some z) by (intro H; exact (G _ _ _ _ 0 H)).
  clear. induction n as [|n IH]; intros s ds r acc H; cbn [take_digits] in H.
  - injection H as <- <-. split; [reflexivity|]. now exists acc.
  - destruct s as [|c s]; [discriminate|]. destruct (dec_digit c) as [d|] eqn:E; [|discriminate].
    destruct (take_digits n s) as [[ds' r']|] eqn:T; [|discriminate]. injection H as <- <-.
    destruct (IH _ _ _ (10 * acc + Z.of_N d) T) as [-> [z [H1 H2]]].
    split; [reflexivity|]. exists z. cbn [length number]. now rewrite E, H1.
Qed.

Lemma re_end_newline s : re_end s = true -> newline s.
Proof.
  unfold newline. destruct s as [|c [|]]; cbn; [now left| |discriminate].
  intro H. apply N.eqb_eq in H. subst. now right.
Qed.

Lemma opt_dash_spec {X} (k : ustr -> option X) s r : opt_dash k s = Some r ->
  exists d s', dash d /\ s = d ++ s' /\ k s' = Some r.
Proof.
  unfold opt_dash, dash. destruct s as [|c s].
  - intro H. exists [], []. auto.
  - destruct (N.eqb_spec c 45) as [->|].
    + destruct (k s) as [x|] eqn:E; intro H.
      * injection H as <-. exists (u "-"), s. auto.
      * exists [], (45%N :: s). auto.
    + intro H. exists [], (c :: s). auto.
Qed.

Lemma opt_two_spec {X} (k : option ustr -> ustr -> option X) s r : opt_two k s = Some r ->
  (exists ds s' z, digits_text 2 ds z /\ s = ds ++ s' /\ k (Some ds) s' = Some r) \/
  (k None s = Some r /\ forall ds s', take_digits 2 s = Some (ds, s') -> k (Some ds) s' = None).
Proof.
  unfold opt_two. destruct (take_digits 2 s) as [[ds s']|] eqn:T.
  - destruct (take_digits_spec _ _ _ _ T) as [E [z Hz]].
    destruct (k (Some ds) s') as [x|] eqn:Ek; intro H.
    + injection H as <-. left. exists ds, s', z. auto.
    + right. split; [exact H|]. intros a b Hab. injection Hab as <- <-. exact Ek.
  - intro H. right. split; [exact H|discriminate].
Qed.

Definition opt_text (o : option ustr) : ustr := match o with Some s => s | None => [] end.
Definition opt_digits (o : option ustr) (z : Z) : Prop :=
  match o with Some s => digits_text 2 s z | None => z = 1 end.

Lemma dash_cases d : dash d -> d = [] \/ d = [45%N].
Proof. auto. Qed.

Lemma newline_take nl : newline nl -> take_digits 2 nl = None.
Proof. intros [->| ->]; reflexivity. Qed.
Lemma newline_end nl : newline nl -> re_end nl = true.
Proof. intros [->| ->]; reflexivity. Qed.

Lemma opt_dash_skip {X} (k : ustr -> option X) d s r : dash d -> k s = Some r ->
  match s with c :: _ => (c =? 45)%N = false | [] => True end -> opt_dash k (d ++ s) = Some r.
Proof.
  intros [->| ->] H Hs; cbn [app]; unfold opt_dash.
  - destruct s as [|c s]; [exact H|]. now rewrite Hs.
  - change (u "-" ++ s) with (45%N :: s). cbn. now rewrite H.
Qed.

Lemma digits_head n s z : digits_text (S n) s z -> forall r, match s ++ r with c :: _ => (c =? 45)%N = false | [] => True end.
Proof.
  intros [Hl Hn] r. destruct s as [|c s]; [discriminate|]. cbn [app number] in *.
  destruct (dec_digit c) as [d|] eqn:E; [|discriminate]. now destruct (dec_digit_props c d E) as [_ [H _]].
Qed.

Lemma newline_head nl : newline nl -> match nl with c :: _ => (c =? 45)%N = false | [] => True end.
Proof. intros [->| ->]; [exact I|reflexivity]. Qed.

Lemma opt_two_skip {X} (k : option ustr -> ustr -> option X) ds z s r : digits_text 2 ds z -> k (Some ds) s = Some r ->
  opt_two k (ds ++ s) = Some r.
Proof. intros H1 H2. unfold opt_two. rewrite (take_digits_ok 2 ds z s H1). now rewrite H2. Qed.

Lemma opt_two_none {X} (k : option ustr -> ustr -> option X) nl : newline nl -> opt_two k nl = k None nl.
Proof. intro H. unfold opt_two. now rewrite newline_take. Qed.

(** Texts the expression accepts, with what it captures. *)
Lemma ymd_year y yz d1 nl : digits_text 4 y yz -> dash d1 -> newline nl ->
  ymd_match (y ++ d1 ++ nl) = Some (y, None, None).
Proof.
  intros Hy H1 Hn. unfold ymd_match. rewrite (take_digits_ok 4 y yz _ Hy).
  apply opt_dash_skip; [exact H1| |now apply newline_head].
  rewrite opt_two_none by exact Hn. change nl with ([] ++ nl). apply opt_dash_skip; [now left| |now apply newline_head].
  rewrite opt_two_none by exact Hn. now rewrite newline_end.
Qed.

Lemma ymd_month y yz d1 m mz d2 nl : digits_text 4 y yz -> dash d1 -> digits_text 2 m mz -> dash d2 -> newline nl ->
  ymd_match (y ++ d1 ++ m ++ d2 ++ nl) = Some (y, Some m, None).
Proof.
  intros Hy H1 Hm H2 Hn. unfold ymd_match. rewrite (take_digits_ok 4 y yz _ Hy).
  apply opt_dash_skip; [exact H1| |now apply (digits_head 1 m mz)].
  apply (opt_two_skip _ m mz); [exact Hm|].
  apply opt_dash_skip; [exact H2| |now apply newline_head].
  rewrite opt_two_none by exact Hn. now rewrite newline_end.
Qed.

Lemma ymd_day y yz d1 m mz d2 d dz nl : digits_text 4 y yz -> dash d1 -> digits_text 2 m mz -> dash d2 ->
  digits_text 2 d dz -> newline nl -> ymd_match (y ++ d1 ++ m ++ d2 ++ d ++ nl) = Some (y, Some m, Some d).
Proof.
  intros Hy H1 Hm H2 Hd Hn. unfold ymd_match. rewrite (take_digits_ok 4 y yz _ Hy).
  apply opt_dash_skip; [exact H1| |now apply (digits_head 1 m mz)].
  apply (opt_two_skip _ m mz); [exact Hm|].
  apply opt_dash_skip; [exact H2| |now apply (digits_head 1 d dz)].
  apply (opt_two_skip _ d dz); [exact Hd|]. now rewrite newline_end.
Qed.

(** Conversely, whatever it accepts has one of these forms. *)
Lemma ymd_inv s y m d : ymd_match s = Some (y, m, d) ->
  exists yz mz dz d1 d2 nl, digits_text 4 y yz /\ opt_digits m mz /\ opt_digits d dz /\ dash d1 /\ dash d2 /\ newline nl /\
    s = y ++ d1 ++ opt_text m ++ d2 ++ opt_text d ++ nl /\
    (m = None -> d <> None -> d1 = u "-" /\ d2 = u "-").
Proof.
  unfold ymd_match. destruct (take_digits 4 s) as [[y' s1]|] eqn:T; [|discriminate].
  destruct (take_digits_spec _ _ _ _ T) as [E [yz Hy]]. intro H.
  destruct (opt_dash_spec _ _ _ H) as [d1 [s2 [H1 [E1 K1]]]].
  destruct (opt_two_spec _ _ _ K1) as [[ds [s3 [mz [Hm [E2 K2]]]]]|[K2 N2]].
  - destruct (opt_dash_spec _ _ _ K2) as [d2 [s4 [H2 [E3 K3]]]].
    destruct (opt_two_spec _ _ _ K3) as [[es [s5 [dz [Hd [E4 K4]]]]]|[K4 _]];
      (destruct (re_end _) eqn:R; [|discriminate]); injection K4 as <- <- <-.
    + exists yz, mz, dz, d1, d2, s5. repeat split; auto; try (apply Hy || apply Hm || apply Hd); try discriminate.
      * now apply re_end_newline.
      * cbn [opt_text]. subst. now rewrite <- ?app_assoc.
    + exists yz, mz, 1, d1, d2, s4. repeat split; auto; try (apply Hy || apply Hm); try discriminate.
      * now apply re_end_newline.
      * cbn [opt_text]. subst. now rewrite <- ?app_assoc.
  - destruct (opt_dash_spec _ _ _ K2) as [d2 [s4 [H2 [E3 K3]]]].
    destruct (opt_two_spec _ _ _ K3) as [[es [s5 [dz [Hd [E4 K4]]]]]|[K4 _]];
      (destruct (re_end _) eqn:R; [|discriminate]); injection K4 as <- <- <-.
    + assert (G : d1 = u "-" /\ d2 = u "-").
      { assert (Hnl := re_end_newline _ R). subst s2 s4.
        destruct H2 as [->| ->]; cbn [app] in *.
        - (* day directly after the first dash: it would have been the month *)
          exfalso. specialize (N2 _ _ (take_digits_ok 2 es dz s5 Hd)).
          unfold opt_dash in N2. destruct Hnl as [->| ->]; discriminate.
        - split; [|reflexivity]. destruct H1 as [->| ->]; [|reflexivity]. exfalso.
          cbn [app] in E1. subst s1.
          (* y - dd: the first dash would have been taken *)
          unfold opt_dash at 1 in H. change (u "-" ++ es ++ s5) with (45%N :: (es ++ s5)) in H. cbn [N.eqb Pos.eqb] in H.
          rewrite (opt_two_skip _ es dz s5 (y', Some es, None) Hd) in H; [discriminate|].
          unfold opt_dash. destruct Hnl as [->| ->]; reflexivity. }
      exists yz, 1, dz, d1, d2, s5. repeat split; auto; try (apply Hy || apply Hd); try apply G.
      * now apply re_end_newline.
      * cbn [opt_text]. subst. now rewrite <- ?app_assoc.
    + exists yz, 1, 1, d1, d2, s4. repeat split; auto; try (apply Hy); try congruence.
      * now apply re_end_newline.
      * cbn [opt_text app]. subst. now rewrite <- ?app_assoc.
Qed.

(** ** Reading *)

Lemma digits_two_int s z : digits_text 2 s z -> int_of_str s = Ok z.
Proof. intro H. apply (digits_int 2); [exact H|lia]. Qed.

Lemma parse_ymd oracle s y m d yz mz dz : ymd_match s = Some (y, m, d) ->
  digits_text 4 y yz -> opt_digits m mz -> opt_digits d dz ->
  kdt_parse oracle s =
    if valid_date (mkDate yz mz dz)
    then Ok (match m, d with
             | None, _ => mkKdt (PDate (mkDate yz 1 1)) RYear
             | Some _, None => mkKdt (PDate (mkDate yz mz 1)) RYearMonth
             | Some _, Some _ => mkKdt (PDate (mkDate yz mz dz)) RDate
             end)
    else Err EValueError.
Proof.
  intros Hs Hy Hm Hd. unfold kdt_parse. rewrite Hs.
  rewrite (digits_int 4 y yz Hy) by lia. cbn [bind].
  assert (Em : group_int m = Ok mz) by (destruct m; cbn in *; [now apply digits_two_int|now subst]).
  assert (Ed : group_int d = Ok dz) by (destruct d; cbn in *; [now apply digits_two_int|now subst]).
  rewrite Em, Ed. cbn [bind]. unfold mk_date. destruct (valid_date _); [|reflexivity].
  cbn [bind]. destruct m, d; reflexivity.
Qed.

Definition date_or_error (y m d : Z) (r : resolution) : res kmldt :=
  if valid_date (mkDate y m d) then Ok (mkKdt (PDate (mkDate y m d)) r) else Err EValueError.

Lemma read_year oracle y yz d1 nl : digits_text 4 y yz -> dash d1 -> newline nl ->
  kdt_parse oracle (y ++ d1 ++ nl) = date_or_error yz 1 1 RYear.
Proof.
  intros Hy H1 Hn. rewrite (parse_ymd oracle _ y None None yz 1 1 (ymd_year y yz d1 nl Hy H1 Hn)); auto; reflexivity.
Qed.

Lemma read_month oracle y yz d1 m mz d2 nl : digits_text 4 y yz -> dash d1 -> digits_text 2 m mz -> dash d2 -> newline nl ->
  kdt_parse oracle (y ++ d1 ++ m ++ d2 ++ nl) = date_or_error yz mz 1 RYearMonth.
Proof.
  intros Hy H1 Hm H2 Hn.
  rewrite (parse_ymd oracle _ y (Some m) None yz mz 1 (ymd_month y yz d1 m mz d2 nl Hy H1 Hm H2 Hn)); auto; reflexivity.
Qed.

Lemma read_day oracle y yz d1 m mz d2 d dz nl : digits_text 4 y yz -> dash d1 -> digits_text 2 m mz -> dash d2 ->
  digits_text 2 d dz -> newline nl ->
  kdt_parse oracle (y ++ d1 ++ m ++ d2 ++ d ++ nl) = date_or_error yz mz dz RDate.
Proof.
  intros Hy H1 Hm H2 Hd Hn.
  rewrite (parse_ymd oracle _ y (Some m) (Some d) yz mz dz (ymd_day y yz d1 m mz d2 d dz nl Hy H1 Hm H2 Hd Hn)); auto; reflexivity.
Qed.

Lemma read_classified oracle s k : kdt_parse oracle s = Ok k ->
  match k_res k with
  | RYear => exists y yz d1 d2 d nl,
      digits_text 4 y yz /\ dash d1 /\ dash d2 /\ newline nl /\ s = y ++ d1 ++ d2 ++ d ++ nl /\
      (d = [] \/ (d1 = u "-" /\ d2 = u "-" /\ exists dz, digits_text 2 d dz)) /\
      k_dt k = PDate (mkDate yz 1 1) /\ 1 <= yz
  | RYearMonth => exists y yz d1 m mz d2 nl,
      digits_text 4 y yz /\ dash d1 /\ digits_text 2 m mz /\ dash d2 /\ newline nl /\
      s = y ++ d1 ++ m ++ d2 ++ nl /\
      k_dt k = PDate (mkDate yz mz 1) /\ 1 <= yz /\ 1 <= mz <= 12
  | RDate => exists y yz d1 m mz d2 d dz nl,
      digits_text 4 y yz /\ dash d1 /\ digits_text 2 m mz /\ dash d2 /\ digits_text 2 d dz /\ newline nl /\
      s = y ++ d1 ++ m ++ d2 ++ d ++ nl /\
      k_dt k = PDate (mkDate yz mz dz) /\ valid_date (mkDate yz mz dz) = true
  | RDateTime => ymd_match s = None /\ exists t, k_dt k = PDateTime t /\ arrow_get oracle s = Ok t
  end.
Proof.
  intro H. destruct (ymd_match s) as [[[y m] d]|] eqn:E.
  - destruct (ymd_inv s y m d E) as [yz [mz [dz [d1 [d2 [nl [Hy [Hm [Hd [H1 [H2 [Hn [Es Hdash]]]]]]]]]]]]].
    rewrite (parse_ymd oracle s y m d yz mz dz E Hy Hm Hd) in H.
    destruct (valid_date _) eqn:V; [|discriminate]. injection H as <-.
    assert (V' := V). unfold valid_date in V'. cbn [dy dm dd] in V'.
    rewrite !andb_true_iff in V'. destruct V' as [[[[[V1 V2] V3] V4] V5] V6].
    apply Z.leb_le in V1, V2, V3, V4.
    destruct m as [m|], d as [d|]; cbn [k_res k_dt opt_text opt_digits app] in *.
    + exists y, yz, d1, m, mz, d2, d, dz, nl. auto 12.
    + exists y, yz, d1, m, mz, d2, nl. repeat split; auto; try apply Hy; try apply Hm; lia.
    + exists y, yz, d1, d2, d, nl. destruct (Hdash eq_refl ltac:(discriminate)) as [-> ->].
      repeat split; auto; try apply Hy. right. eauto.
    + exists y, yz, d1, d2, [], nl. repeat split; auto; try apply Hy. 
  - unfold kdt_parse in H. rewrite E in H. apply bind_ok in H as [t [Ht H]]. injection H as <-.
    cbn. split; [reflexivity|]. exists t. auto.
Qed.
