(** * The strict reader accepts schema values: proofs. *)
From Coq Require Import String List NArith ZArith Bool Arith Lia.
From Verif Require Import Ustr UstrProofs Res PyInt PyFloat PyNumProofs PyFmtProofs PyDate PyDateProofs DateForms Elem Value Geom Codec Spec Agree Calm Settled EmitProofs CodecProofs CoordSpec
  ItemProofs RoundTrip WriteProofs ValueProofs AgreeProofs NsProofs TotalProofs StrictProofs Schema SchemaTables SchemaSpec SlotProofs SchemaProofs Lexical ValuesWritten LexicalProofs SchemaRead.
Import ListNotations.
Local Open Scope string_scope.
Local Open Scope list_scope.

(** ** Numbers *)

Lemma digits_plain d : digits d -> plain d = true.
Proof. apply adigit_plain. Qed.
Lemma sign_plain sg : sign sg -> plain sg = true.
Proof. intros [->|[->| ->]]; reflexivity. Qed.

Lemma sign_take sg r : sign sg -> (match r with c :: _ => negb (c =? 45)%N && negb (c =? 43)%N | [] => true end) = true ->
  take_sign (sg ++ r) = (ueqb sg (u "-"), r).
Proof.
  intros [->|[->| ->]] H; [|reflexivity|reflexivity]. cbn [app]. change (ueqb [] (u "-")) with false. destruct r as [|c r]; [reflexivity|].
  apply andb_prop in H as [H1 H2]. apply negb_true_iff in H1, H2. unfold take_sign. now rewrite H1, H2.
Qed.

Lemma digit_nosign c : is_adigit c = true -> negb (c =? 45)%N && negb (c =? 43)%N = true.
Proof. unfold is_adigit. intro H. apply andb_prop in H as [H1 H2]. apply N.leb_le in H1, H2. destruct (N.eqb_spec c 45); [lia|]. destruct (N.eqb_spec c 43); [lia|reflexivity]. Qed.

Lemma int_read s : short_int s -> is_ok (int_of_str s) = true.
Proof.
  intros [(sg & d & z & S & (D1 & D2 & _) & -> & _) L]. unfold int_of_str.
  assert (P : plain (sg ++ d)%list = true) by (rewrite plain_app, (sign_plain _ S), (digits_plain _ D2); reflexivity).
  rewrite plain_ascii, plain_c_strip by exact P. rewrite sign_take; [|exact S|]. 2:{ destruct d as [|c d]; [reflexivity|]. apply digit_nosign. unfold digits in D2. cbn [forallb] in D2. now apply andb_prop in D2. }
  rewrite plain_no_us by now apply digits_plain. unfold digits in D2. rewrite D2. destruct d as [|c d]; [contradiction|]. cbn [uempty negb andb].
  replace (int_max_str_digits <? _)%N with false; [reflexivity|]. symmetry. apply N.ltb_ge. rewrite app_length in L. unfold int_max_str_digits. cbn [length] in *. lia.
Qed.

Lemma mantissa_plain m : mantissa m -> plain m = true.
Proof.
  intros [[_ H]|(a & b & -> & Ha & Hb & _)]; [now apply digits_plain|]. now rewrite !plain_app, (digits_plain _ Ha), (digits_plain _ Hb).
Qed.
Lemma exponent_plain e : exponent e -> plain e = true.
Proof.
  intros [->|(e' & sg & d & He & S & _ & D & ->)]; [reflexivity|]. rewrite !plain_app, (sign_plain _ S), (digits_plain _ D). destruct He as [->| ->]; reflexivity.
Qed.

Lemma double_plain s : is_double s -> plain s = true.
Proof.
  intros [H|(sg & m & ex & S & M & X & ->)]; [cbn in H; destruct H as [<-|[<-|[<-|[]]]]; reflexivity|]. now rewrite !plain_app, (sign_plain _ S), (mantissa_plain _ M), (exponent_plain _ X).
Qed.

Lemma exponent_parse e : exponent e -> exists z, parse_exp e = Some z.
Proof.
  intros [->|(e' & sg & d & He & S & N & D & ->)]; [now exists 0%Z|].
  assert (E : parse_exp (e' ++ sg ++ d)%list = let (neg, d) := take_sign (sg ++ d) in if negb (uempty d) && forallb is_adigit d then Some (if neg then - digits_val d else digits_val d)%Z else None)
    by (destruct He as [->| ->]; reflexivity).
  rewrite E, sign_take; [|exact S|]. 2:{ destruct d as [|c d]; [reflexivity|]. apply digit_nosign. unfold digits in D. cbn [forallb] in D. now apply andb_prop in D. }
  unfold digits in D. rewrite D. destruct d; [contradiction|]. eexists. reflexivity.
Qed.

Lemma exponent_start e : exponent e -> match e with c :: _ => is_adigit c = false /\ (c =? 46)%N = false | [] => True end.
Proof. intros [->|(e' & sg & d & [->| ->] & _ & _ & _ & ->)]; cbn; auto. Qed.

Lemma dec_read neg m ex : mantissa m -> exponent ex -> exists f, parse_dec neg (m ++ ex)%list = Some f.
Proof.
  intros M X. destruct (exponent_parse _ X) as [z Z]. assert (X' := exponent_start _ X). unfold parse_dec. destruct M as [[N D]|(a & b & -> & Da & Db & N)].
  - rewrite span_digits; [|exact D|destruct ex; [exact I|apply X']].
    assert (E : (match ex with c :: r => if (c =? 46)%N then span is_adigit r else ([], ex) | [] => ([], []) end) = ([], ex)) by (destruct ex as [|c r]; [reflexivity|destruct X' as [_ ->]; reflexivity]).
    rewrite E, app_nil_r, Z. destruct m; [contradiction|]. cbn [uempty]. eauto.
  - rewrite <- !app_assoc. change (u "." ++ b ++ ex)%list with (46%N :: b ++ ex)%list. rewrite span_digits; [|exact Da|reflexivity]. change (46 =? 46)%N with true. cbv iota.
    rewrite span_digits; [|exact Db|destruct ex; [exact I|apply X']]. rewrite Z. destruct (a ++ b)%list; [contradiction|]. cbn [uempty]. eauto.
Qed.

Lemma special_lower r : (match r with c :: _ => is_adigit c || (c =? 46)%N | [] => true end) = true ->
  ueqb (lower r) (u "inf") = false /\ ueqb (lower r) (u "infinity") = false /\ ueqb (lower r) (u "nan") = false.
Proof.
  destruct r as [|c r]; [now repeat split|]. intro H. apply orb_prop in H as [H|H]; [now apply starts_digit_not_special|]. apply N.eqb_eq in H. subst c. now repeat split.
Qed.

Lemma double_read s : is_double s -> is_ok (float_of_str s) = true.
Proof.
  intros D. assert (P := double_plain _ D). destruct D as [H|(sg & m & ex & S & M & X & ->)]; [cbn in H; destruct H as [<-|[<-|[<-|[]]]]; reflexivity|].
  unfold float_of_str. rewrite plain_ascii, plain_c_strip, plain_no_us by exact P.
  assert (St : (match (m ++ ex)%list with c :: _ => is_adigit c || (c =? 46)%N | [] => true end) = true).
  { destruct M as [[N D]|(a & b & -> & Da & Db & N)].
    - destruct m as [|c m]; [contradiction|]. unfold digits in D. cbn [forallb] in D. apply andb_prop in D as [D _]. cbn [app]. now rewrite D.
    - destruct a as [|c a]; [reflexivity|]. unfold digits in Da. cbn [forallb] in Da. apply andb_prop in Da as [D _]. cbn [app]. now rewrite D. }
  rewrite sign_take; [|exact S|].
  - destruct (special_lower _ St) as (-> & -> & ->). cbn [orb]. destruct (dec_read (ueqb sg (u "-")) m ex M X) as [f ->]. reflexivity.
  - destruct (m ++ ex)%list as [|c r]; [reflexivity|]. apply orb_prop in St as [St|St]; [now apply digit_nosign|]. apply N.eqb_eq in St. now subst c.
Qed.

Lemma double_cell w : is_double w -> cell w = true.
Proof.
  intro D. assert (P := double_plain _ D). assert (S := plain_no_space _ P). unfold cell. rewrite S. cbn [andb].
  assert (C : forall x, digits x -> no_char 44 x = true).
  { intro x. unfold digits, no_char. induction x as [|c x IH]; [reflexivity|]. cbn [forallb]. intro H. apply andb_prop in H as [H1 H2]. rewrite (IH H2), andb_true_r. unfold is_adigit in H1. apply andb_prop in H1 as [H1 _]. apply N.leb_le in H1. destruct (N.eqb_spec c 44); [lia|reflexivity]. }
  assert (A : forall x y, no_char 44 (x ++ y)%list = no_char 44 x && no_char 44 y) by (intros; apply forallb_app).
  assert (Cs : forall x, sign x -> no_char 44 x = true) by (intros x [->|[->| ->]]; reflexivity).
  destruct D as [H|(sg & m & ex & Sg & M & X & ->)]; [cbn in H; destruct H as [<-|[<-|[<-|[]]]]; reflexivity|]. apply andb_true_intro. split.
  - rewrite !A, (Cs _ Sg). cbn [andb]. apply andb_true_intro. split.
    + destruct M as [[_ D]|(a & b & -> & Da & Db & _)]; [now apply C|]. rewrite !A, (C _ Da), (C _ Db). reflexivity.
    + destruct X as [->|(e & sg' & d & He & Sg' & _ & D & ->)]; [reflexivity|]. rewrite !A, (Cs _ Sg'), (C _ D). destruct He as [->| ->]; reflexivity.
  - assert (m <> []) by (destruct M as [[N _]|(a & b & -> & _ & _ & _)]; [exact N|intro Q; apply app_eq_nil in Q as [_ Q]; discriminate]).
    destruct sg; [|reflexivity]. destruct m; [contradiction|reflexivity].
Qed.

Lemma doubles_read ws : Forall is_double ws -> is_ok (floats_of ws) = true.
Proof. intro H. rewrite floats_ok. apply forallb_forall. intros w Hw. rewrite Forall_forall in H. now apply double_read, H. Qed.

Lemma coordinates_read cells t : coords_text cells t -> Forall (Forall is_double) cells -> is_ok (parse_coordinates t) = true.
Proof.
  intros T D. rewrite (coords_text_parse cells t); [|apply forallb_forall; intros ws Hws; apply forallb_forall; intros w Hw; rewrite Forall_forall in D; specialize (D _ Hws); rewrite Forall_forall in D; now apply double_cell, D|exact T].
  assert (E : exists l, map_res floats_of cells = Ok l).
  { clear T. induction D as [|ws l H _ [r IH]]; [now exists []|]. cbn [map_res]. apply doubles_read in H. destruct (floats_of ws) as [x|]; [|discriminate]. cbn [bind]. rewrite IH. cbn [bind]. eauto. }
  destruct E as [l ->]. reflexivity.
Qed.

(** ** Dates *)

Lemma denotes_text n s z : denotes_in n s z -> digits_text n s z.
Proof.
  intros [L (N & D & V)]. split; [exact L|]. clear L N. unfold digits in D. subst z. unfold digits_val. generalize 0%Z as acc. induction s as [|c s IH]; intro acc; [reflexivity|].
  cbn [forallb] in D. apply andb_prop in D as [D1 D2]. cbn [number fold_left]. rewrite DateForms.dec_digit_ascii by exact D1. unfold is_adigit in D1. apply andb_prop in D1 as [D1 _]. apply N.leb_le in D1.
  rewrite IH by exact D2. f_equal. f_equal. lia.
Qed.

Lemma year_in y yz : year_text y yz -> length y = 4 -> denotes_in 4 y yz /\ (1 <= yz <= 9999)%Z.
Proof.
  intros (D & P & _) L. split; [now split|]. split; [lia|]. destruct D as (_ & D & <-). unfold digits in D. destruct y as [|a [|b [|c [|d [|]]]]]; try discriminate L. cbn [forallb] in D. unfold is_adigit in D. unfold digits_val. cbn [fold_left].
  rewrite !andb_true_iff, !N.leb_le in D. lia.
Qed.

Lemma date_valid yz mz dz : (1 <= yz <= 9999)%Z -> (1 <= mz <= 12)%Z -> (1 <= dz <= month_length yz mz)%Z -> valid_date (mkDate yz mz dz) = true.
Proof. intros. unfold valid_date. cbn [dy dm dd]. rewrite month_length_eq by lia. rewrite !andb_true_iff, !Z.leb_le. lia. Qed.

Lemma first_day yz mz : (1 <= mz <= 12)%Z -> (1 <= 1 <= month_length yz mz)%Z.
Proof.
  intro H. split; [lia|]. rewrite <- month_length_eq by exact H. unfold days_in_month. destruct (_ =? 2)%Z; [destruct (is_leap yz); lia|]. destruct (_ || _); lia.
Qed.

Lemma year_read o s : plain_year s -> is_ok (kdt_parse o s) = true.
Proof.
  intros (yz & Y & L). destruct (year_in _ _ Y L) as [D R]. assert (E := read_year o s yz [] [] (denotes_text _ _ _ D) (or_introl eq_refl) (or_introl eq_refl)). rewrite !app_nil_r in E. rewrite E. unfold date_or_error.
  rewrite date_valid; [reflexivity|lia|lia|apply first_day; lia].
Qed.

Lemma month_read o y m mz : plain_year y -> month_text m mz -> is_ok (kdt_parse o (y ++ u "-" ++ m)%list) = true.
Proof.
  intros (yz & Y & L) [M Rm]. destruct (year_in _ _ Y L) as [D R]. assert (E := read_month o y yz (u "-") m mz [] [] (denotes_text _ _ _ D) (or_intror eq_refl) (denotes_text _ _ _ M) (or_introl eq_refl) (or_introl eq_refl)). rewrite !app_nil_r in E.
  rewrite E. unfold date_or_error. rewrite date_valid; [reflexivity|lia|lia|now apply first_day].
Qed.

Lemma day_read o s : plain_day s -> is_ok (kdt_parse o s) = true.
Proof.
  intros (y & yz & m & mz & d & Y & L & [M Rm] & (dz & Dd & Rd) & ->). destruct (year_in _ _ Y L) as [D R].
  assert (E := read_day o y yz (u "-") m mz (u "-") d dz [] (denotes_text _ _ _ D) (or_intror eq_refl) (denotes_text _ _ _ M) (or_intror eq_refl) (denotes_text _ _ _ Dd) (or_introl eq_refl)). rewrite !app_nil_r in E.
  rewrite E. unfold date_or_error. now rewrite date_valid.
Qed.

Lemma num_take n s z r : denotes_in n s z -> take_num n (s ++ r)%list = Some (z, r).
Proof. intros [L (_ & D & <-)]. unfold take_num. now rewrite (take_ascii_app n s r L D). Qed.

Lemma chr_take c s r : s = [c] -> take_chr c (s ++ r) = Some r.
Proof. intros ->. cbn [app take_chr]. now rewrite N.eqb_refl. Qed.

Lemma two_range s z : denotes_in 2 s z -> (0 <= z < 100)%Z.
Proof.
  intros [L (_ & D & <-)]. unfold digits in D. destruct s as [|a [|b [|]]]; try discriminate L. cbn [forallb] in D. unfold is_adigit in D. unfold digits_val. cbn [fold_left]. rewrite !andb_true_iff, !N.leb_le in D. lia.
Qed.

Lemma six_range s : length s = 6 -> digits s -> (0 <= digits_val s < 1000000)%Z.
Proof.
  intros L D. unfold digits in D. destruct s as [|a [|b [|c [|d [|e [|f [|]]]]]]]; try discriminate L. cbn [forallb] in D. unfold is_adigit in D. unfold digits_val. cbn [fold_left]. rewrite !andb_true_iff, !N.leb_le in D. lia.
Qed.

(** The zone, unless it is Z. *)
Lemma zone_read z : zone z -> z <> u "Z" -> exists o, iso_off z = Some o /\ match o with Some x => (-86400 < x < 86400)%Z /\ (x mod 60 = 0)%Z | None => True end.
Proof.
  intros [->|[->|(sg & h & hz & m & Hs & Hh & (mz & Hm & Rm) & B & ->)]] N; [exists None; now split|contradiction|].
  assert (R := two_range _ _ Hh). assert (Hh' : (hz <= 14)%Z) by (destruct B; lia).
  exists (Some ((if ueqb sg (u "-") then -1 else 1) * (hz * 3600 + mz * 60)))%Z. split.
  - assert (E : iso_off (sg ++ h ++ u ":" ++ m)%list = try (h', s1) := take_num 2 (h ++ 58%N :: m)%list in try s2 := take_chr 58 s1 in try (m', s3) := take_num 2 s2 in
       match s3 with [] => Some (Some ((if ueqb sg (u "-") then -1 else 1) * (h' * 3600 + m' * 60)))%Z | _ => None end).
    { destruct Hs as [->| ->]; reflexivity. }
    rewrite E, (num_take _ _ _ _ Hh), take_chr_eq. rewrite <- (app_nil_r m), (num_take _ _ _ _ Hm). reflexivity.
  - split; [destruct (ueqb sg _); lia|]. replace (_ * _)%Z with (((if ueqb sg (u "-") then -1 else 1) * (hz * 60 + mz)) * 60)%Z by (destruct (ueqb sg _); lia). apply Z.mod_mul. lia.
Qed.

Lemma zone_start z : zone z -> match z with c :: _ => is_adigit c = false /\ (c =? 46)%N = false | [] => True end.
Proof. intros [->|[->|(sg & h & hz & m & [->| ->] & _ & _ & _ & ->)]]; cbn; auto. Qed.

Lemma time_read o s : plain_date_time s -> is_ok (kdt_parse o s) = true.
Proof.
  intros (day & h & hz & m & sec & fr & z & (y & yz & mo & moz & d & Y & L & [M Rm] & (dz & Dd & Rd) & ->) & Hh & Rh & (mz & Hm & Rmi) & (sz & Hs & Rs) & Hf & Z & NZ & ->).
  destruct (year_in _ _ Y L) as [D R]. destruct (zone_read _ Z NZ) as [ov [Eo Ro]].
  unfold kdt_parse. rewrite ymd_long. 2:{ rewrite !app_length. destruct D as [-> _], M as [-> _], Dd as [-> _], Hh as [-> _]. cbn [u length]. lia. }
  assert (F : exists f r, (match take_chr 46 (fr ++ z) with Some s' => take_num 6 s' | None => Some (0%Z, (fr ++ z : ustr)) end) = Some (f, r : ustr) /\ r = z /\ (0 <= f < 1000000)%Z).
  { destruct Hf as [->|(x & Lx & Dx & ->)].
    - exists 0%Z, z. split; [|split; [reflexivity|lia]]. cbn [app]. assert (Q := zone_start _ Z). destruct z as [|c z]; [reflexivity|]. destruct Q as [_ Q]. cbn [take_chr]. now rewrite Q.
    - exists (digits_val x), z. split; [|split; [reflexivity|now apply six_range]]. rewrite <- app_assoc. change (u "." ++ x ++ z)%list with (46%N :: x ++ z)%list. rewrite take_chr_eq. apply num_take. split; [exact Lx|]. split; [now destruct x|now split]. }
  destruct F as (f & r & Ef & -> & Rf).
  assert (E : iso_parse ((y ++ u "-" ++ mo ++ u "-" ++ d) ++ u "T" ++ h ++ u ":" ++ m ++ u ":" ++ sec ++ fr ++ z)%list = Some (mkDT (mkDate yz moz dz) hz mz sz f ov)).
  { rewrite <- !app_assoc. unfold iso_parse. rewrite (num_take _ _ _ _ D). rewrite (chr_take 45 (u "-") _ eq_refl), (num_take _ _ _ _ M), (chr_take 45 (u "-") _ eq_refl), (num_take _ _ _ _ Dd), (chr_take 84 (u "T") _ eq_refl), (num_take _ _ _ _ Hh), (chr_take 58 (u ":") _ eq_refl), (num_take _ _ _ _ Hm), (chr_take 58 (u ":") _ eq_refl), (num_take _ _ _ _ Hs), Ef, Eo. reflexivity. }
  unfold arrow_get. rewrite E. cbv zeta. cbn [dtd hh mi ss us off].
  assert (V : forall x, (-86400 < x < 86400)%Z -> valid_time (mkDT (mkDate yz moz dz) hz mz sz f (Some x)) = true).
  { intros x Hx. unfold valid_time. cbn [dtd hh mi ss us off]. rewrite date_valid by assumption. cbn [andb]. rewrite !andb_true_iff, !Z.leb_le, !Z.ltb_lt. lia. }
  destruct ov as [x|]; [|now rewrite V by lia]. destruct Ro as [Ro1 Ro2]. rewrite V by lia. unfold aware. cbn [off]. now rewrite Ro2.
Qed.

(** Other times are left to arrow. *)
Lemma oracle_read o s t : is_date_time s -> o s = Some t -> valid_time t = true -> aware t = true -> is_ok (kdt_parse o s) = true.
Proof.
  intros (day & time & z & (y & yz & mo & moz & d & Y & [M Rm] & (dz & Dd & Rd) & ->) & (h & hz & m & sec & fr & Hh & Rh & (mz & Hm & Rmi) & (sz & Hs & Rs) & Hf & ->) & Z & ->) O V A.
  destruct (Nat.eq_dec (length y) 4) as [L|L].
  - assert (D := conj (year_in _ _ Y L) I). destruct D as [[D R] _].
    assert (P : plain_date_time ((y ++ u "-" ++ mo ++ u "-" ++ d) ++ u "T" ++ (h ++ u ":" ++ m ++ u ":" ++ sec ++ fr) ++ z) \/
      iso_parse ((y ++ u "-" ++ mo ++ u "-" ++ d) ++ u "T" ++ (h ++ u ":" ++ m ++ u ":" ++ sec ++ fr) ++ z) = None).
    { assert (E : iso_parse ((y ++ u "-" ++ mo ++ u "-" ++ d) ++ u "T" ++ (h ++ u ":" ++ m ++ u ":" ++ sec ++ fr) ++ z) =
        try (f, s) := (match take_chr 46 (fr ++ z) with Some s' => take_num 6 s' | None => Some (0%Z, (fr ++ z : ustr)) end) in try o := iso_off s in Some (mkDT (mkDate yz moz dz) hz mz sz f o)).
      { rewrite <- !app_assoc. unfold iso_parse. rewrite (num_take _ _ _ _ D). rewrite (chr_take 45 (u "-") _ eq_refl), (num_take _ _ _ _ M), (chr_take 45 (u "-") _ eq_refl), (num_take _ _ _ _ Dd), (chr_take 84 (u "T") _ eq_refl), (num_take _ _ _ _ Hh), (chr_take 58 (u ":") _ eq_refl), (num_take _ _ _ _ Hm), (chr_take 58 (u ":") _ eq_refl), (num_take _ _ _ _ Hs). reflexivity. }
      rewrite E. assert (Mk : (fr = [] \/ (exists x, length x = 6 /\ digits x /\ fr = u "." ++ x)) -> z <> u "Z" -> plain_date_time ((y ++ u "-" ++ mo ++ u "-" ++ d) ++ u "T" ++ (h ++ u ":" ++ m ++ u ":" ++ sec ++ fr) ++ z)).
      { intros Hf' Nz. exists (y ++ u "-" ++ mo ++ u "-" ++ d), h, hz, m, sec, fr, z. split; [exists y, yz, mo, moz, d; repeat split; auto; try apply Y; try apply M; try lia; exists dz; now split|]. repeat split; auto; try lia; try apply Hh; [exists mz; now split|exists sz; now split|now rewrite <- !app_assoc]. }
      assert (Zs := zone_start _ Z). assert (Nf : forall x r, length x <> 6 -> digits x -> x <> [] -> match r with c :: _ => is_adigit c = false | [] => True end -> forall q s, take_num 6 (x ++ r) = Some (q, s) -> iso_off s = None).
      { clear. intros x r L D N Hr q s H. unfold take_num in H. destruct (take_ascii 6 (x ++ r)) as [[ds s']|] eqn:E; [|discriminate]. injection H as _ <-.
        assert (G : forall n x ds s', digits x -> length x <> n -> take_ascii n (x ++ r) = Some (ds, s') -> match s' with c :: _ => is_adigit c = true | [] => False end).
        { clear -Hr. induction n as [|n IH]; intros x ds s' D L E.
          - injection E as <- <-. destruct x as [|c x]; [now contradict L|]. unfold digits in D. cbn [forallb] in D. now apply andb_prop in D as [D _].
          - destruct x as [|c x].
            + cbn [app] in E. destruct r as [|c r]; [discriminate|]. cbn [take_ascii] in E. rewrite Hr in E. discriminate.
            + unfold digits in D. cbn [forallb] in D. apply andb_prop in D as [D1 D2]. cbn [app take_ascii] in E. rewrite D1 in E. destruct (take_ascii n (x ++ r)) as [[ds1 s1]|] eqn:E1; [|discriminate]. injection E as _ <-. apply (IH x ds1 s1 D2); [|exact E1]. cbn [length] in L. lia. }
        specialize (G 6 x ds s' D L E). destruct s' as [|c s']; [contradiction|]. unfold iso_off. assert (Q := digit_nosign _ G). apply andb_prop in Q as [Q1 Q2]. apply negb_true_iff in Q1, Q2. now rewrite Q1, Q2. }
      destruct Hf as [->|(x & Nx & Dx & ->)].
      - cbn [app]. destruct (ueqb z (u "Z")) eqn:Ez; [apply ueqb_eq in Ez; subst z; right; reflexivity|]. left. apply Mk; [now left|]. intros ->. rewrite ueqb_refl in Ez. discriminate.
      - rewrite <- (app_assoc (u ".") x z), (chr_take 46 (u ".") _ eq_refl). destruct (Nat.eq_dec (length x) 6) as [L6|L6].
        + destruct (ueqb z (u "Z")) eqn:Ez.
          * apply ueqb_eq in Ez. subst z. right. rewrite (num_take 6 x (digits_val x)); [reflexivity|]. now repeat split.
          * left. apply Mk; [right; eauto|]. intros ->. rewrite ueqb_refl in Ez. discriminate.
        + right. destruct (take_num 6 (x ++ z)) as [[q r]|] eqn:T; [|reflexivity]. rewrite (Nf x z L6 Dx Nx ltac:(destruct z; [exact I|now destruct Zs]) q r T). reflexivity. }
    destruct P as [P|P]; [now apply time_read|]. unfold kdt_parse. rewrite ymd_long. 2:{ rewrite !app_length. destruct D as [-> _], M as [-> _], Dd as [-> _], Hh as [-> _]. cbn [u length]. lia. }
    unfold arrow_get. rewrite P, O, V, A. reflexivity.
  - assert (P : iso_parse ((y ++ u "-" ++ mo ++ u "-" ++ d) ++ u "T" ++ (h ++ u ":" ++ m ++ u ":" ++ sec ++ fr) ++ z) = None).
    { destruct Y as ((_ & Dy & _) & _ & L4 & _). unfold digits in Dy. destruct y as [|a [|b [|c [|e [|f y]]]]]; cbn [length] in *; try lia. cbn [forallb] in Dy. rewrite !andb_true_iff in Dy. destruct Dy as (Da & Db & Dc & De & Df & _).
      rewrite <- !app_assoc. cbn [app]. unfold iso_parse, take_num. cbn [take_ascii]. rewrite Da, Db, Dc, De. cbn [take_chr]. assert (Q := digit_nosign _ Df). apply andb_prop in Q as [Q _]. apply negb_true_iff in Q. now rewrite Q. }
    unfold kdt_parse. rewrite ymd_long. 2:{ destruct Y as (_ & _ & L4 & _). rewrite !app_length. destruct M as [-> _], Dd as [-> _], Hh as [-> _]. cbn [u length]. lia. }
    unfold arrow_get. rewrite P, O, V, A. reflexivity.
Qed.

Lemma date_read o s : readable_date o s -> is_ok (kdt_parse o s) = true.
Proof.
  intros [H|[(y & m & mz & Y & M & ->)|[H|[H|(H & t & O & V & A)]]]]; [now apply year_read|now apply (month_read o y m mz)|now apply day_read|now apply time_read|now apply (oracle_read o s t)].
Qed.

(** No white space in any of them. *)
Lemma date_plain o s : readable_date o s -> plain s = true.
Proof.
  assert (Dn : forall n x z, denotes_in n x z -> plain x = true) by (intros n x z [_ (_ & D & _)]; now apply digits_plain).
  assert (Yp : forall y yz, year_text y yz -> plain y = true) by (intros y yz ((_ & D & _) & _); now apply digits_plain).
  assert (Sx : forall x, sixty x -> plain x = true) by (intros x (z & D & _); now apply (Dn 2 x z)).
  assert (Zp : forall z, zone z -> plain z = true).
  { intros z [->|[->|(sg & h & hz & m & Hs & Hh & Hm & _ & ->)]]; try reflexivity. rewrite !plain_app, (Dn _ _ _ Hh), (Sx _ Hm). destruct Hs as [->| ->]; reflexivity. }
  intros [(yz & Y & _)|[(y & m & mz & (yz & Y & _) & [M _] & ->)|[(y & yz & m & mz & d & Y & _ & [M _] & (dz & D & _) & ->)|[(day & h & hz & m & sec & fr & z & (y & yz & mo & mz & d & Y & _ & [M _] & (dz & D & _) & ->) & Hh & _ & Hm & Hs & Hf & Z & _ & ->)|
    ((day & tm & z & (y & yz & mo & mz & d & Y & [M _] & (dz & D & _) & ->) & (h & hz & m & sec & fr & Hh & _ & Hm & Hs & Hf & ->) & Z & ->) & _)]]]].
  - now apply (Yp s yz).
  - now rewrite !plain_app, (Yp _ _ Y), (Dn _ _ _ M).
  - now rewrite !plain_app, (Yp _ _ Y), (Dn _ _ _ M), (Dn _ _ _ D).
  - assert (plain fr = true) by (destruct Hf as [->|(x & _ & Dx & ->)]; [reflexivity|rewrite plain_app, (digits_plain _ Dx); reflexivity]).
    now rewrite !plain_app, (Yp _ _ Y), (Dn _ _ _ M), (Dn _ _ _ D), (Dn _ _ _ Hh), (Sx _ Hm), (Sx _ Hs), (Zp _ Z), H.
  - assert (plain fr = true) by (destruct Hf as [->|(x & _ & Dx & ->)]; [reflexivity|rewrite plain_app, (digits_plain _ Dx); reflexivity]).
    now rewrite !plain_app, (Yp _ _ Y), (Dn _ _ _ M), (Dn _ _ _ D), (Dn _ _ _ Hh), (Sx _ Hm), (Sx _ Hs), (Zp _ Z), H.
Qed.

Lemma kml_date_nonempty s : is_kml_date s -> s <> [].
Proof.
  assert (Y : forall y yz r, year_text y yz -> y ++ r <> []) by (intros y yz r (_ & _ & L & _) E; apply app_eq_nil in E as [-> _]; cbn in L; lia).
  intros [(d & t & z & (y & yz & m & mz & dd & Hy & _ & _ & ->) & _ & _ & ->)|[(d & z & (y & yz & m & mz & dd & Hy & _ & _ & ->) & _ & ->)|[(y & yz & m & mz & z & Hy & _ & _ & ->)|(y & yz & z & Hy & _ & ->)]]]; rewrite <- ?app_assoc; now apply (Y y yz).
Qed.

(** ** Types and getters *)

Definition members_all (W : world) (it : item) (st : sname) : bool :=
  negb (structured st) &&
  match it_classes it with [c] => match sget c (w_enums W) with Some _ => true | None => false end | _ => false end &&
  match enum_type st with
  | Some l => forallb (fun x => ueqb (strip (u x)) (u x) && existsb (fun m => ueqb (fst m) (u x)) (members W it)) l
  | None => false
  end.
Definition is_lod (id node : string) : bool := String.eqb id "kml" && mem node lod_numbers.

Definition reads_leaf (W : world) (it : item) (id : string) (st : sname) : bool :=
  match it_get it with
  | GText => true
  | GBool => sname_eqb st ("xs", "boolean") && match it_classes it with ["bool"] => true | _ => false end
  | GInt => sname_eqb st ("xs", "int") || is_lod id (it_node it)
  | GFloat => numeric st || sname_eqb st ("xs", "int")
  | GEnum => members_all W it st
  | GDate | GDates => sname_eqb st ("kml", "dateTimeType")
  | GCoordList => String.eqb id "gx" && mem (it_node it) ["coord"; "angles"]
  | _ => false
  end.
Definition reads_attr (W : world) (c : string) (it : item) (st : sname) : bool :=
  match it_get it with
  | GAttrText => true
  | GAttrInt => sname_eqb st ("xs", "int") || sname_eqb (class_sname W c) ("atom", "link") && String.eqb (it_node it) "length"
  | GAttrFloat => numeric st || sname_eqb st ("xs", "int")
  | GAttrEnum => members_all W it st ||
      sname_eqb (class_sname W c) ("kml", "SimpleField") && String.eqb (it_node it) "type" && forallb (fun x => existsb (fun m => ueqb (fst m) (u x)) (members W it)) field_types
  | _ => false
  end.

Definition bare (n : string) : bool := negb (starts (u "{") (u n)).
Definition qualified (d : decl) : bool := forallb (fun x => starts (u "{") (tag (fst x))) (d_local d).

Definition leaf_reads (W : world) (d : decl) (it : item) : bool :=
  bare (it_node it) &&
  forallb (fun id => negb (known_id id) || match kid_of d (id, it_node it) with
    | Some ty => match type_decl ty with
                 | Some d' => match d_text d' with Some st => reads_leaf W it id st | None => false end
                 | None => false
                 end
    | None => true
    end) (it_nsids it).
Definition kid_reads (W : world) (d : decl) (id k : string) : bool :=
  match class_of W k with Some _ => true | None => false end && bare (tag_of W k) &&
  (negb (known_id id) || match kid_of d (id, tag_of W k) with
   | Some ty => String.eqb id (nsid W k) &&
                (match type_of W k with Some ty' => String.eqb ty ty' | None => false end || (String.eqb k "links.Icon" && String.eqb ty icon_type))
   | None => true
   end).

Definition item_reads (W : world) (c : string) (d : decl) (it : item) : bool :=
  forallb (fun id => known_id id || String.eqb id "") (it_nsids it) &&
  match it_get it with
  | GNodeText | GText | GAttrText => true
  | GAttrInt | GAttrFloat => forallb (fun x => negb (String.eqb (fst (fst x)) (it_node it)) || reads_attr W c it (snd x)) (d_attrs d)
  | GAttrEnum => match it_classes it with [c] => match sget c (w_enums W) with Some _ => true | None => false end | _ => false end &&
                 forallb (fun x => negb (String.eqb (fst (fst x)) (it_node it)) || reads_attr W c it (snd x)) (d_attrs d)
  | GBool => match it_classes it with ["bool"] => true | _ => false end && leaf_reads W d it
  | GEnum => match it_classes it with [c] => match sget c (w_enums W) with Some _ => true | None => false end | _ => false end && leaf_reads W d it
  | GInt | GFloat | GDate | GDates | GCoordList => leaf_reads W d it
  | GCoords => sname_eqb (class_sname W c) ("kml", "coordinates")
  | GObj | GObjs => forallb (fun id => forallb (kid_reads W d id) (it_classes it)) (it_nsids it)
  end.

Definition req_reads (W : world) (c : string) (ak : string * ckind) : bool :=
  match snd ak with
  | CCleanReq => sname_eqb (class_sname W c) ("kml", "Schema") &&
                 match find_item (fst ak) (items_of W c) with Some it => String.eqb (it_node it) "id" && mem "" (it_nsids it) | None => false end
  | _ => true
  end.
Definition only (d : decl) (it : item) (n : sname) : bool :=
  bare (it_node it) &&
  forallb (fun id => (known_id id || String.eqb id "") && (negb (known_id id) || sname_eqb (id, it_node it) n || match kid_of d (id, it_node it) with None => true | Some _ => false end)) (it_nsids it).
Definition track_reads (W : world) (c : string) (d : decl) : bool :=
  sname_eqb (class_sname W c) ("gx", "Track") &&
  match find_item "whens" (items_of W c), find_item "coords" (items_of W c), find_item "angles" (items_of W c) with
  | Some wi, Some ci, Some ai => only d wi ("kml", "when") && only d ci ("gx", "coord") && only d ai ("gx", "angles")
  | _, _, _ => false
  end.

Definition rfits (W : world) (c ty : string) : bool :=
  match type_decl ty, class_of W c with
  | Some d, Some ci =>
      qualified d && forallb (fun x => bare (fst (fst x))) (d_attrs d) && forallb (item_reads W c d) (items_of W c) &&
      forallb (req_reads W c) (ctor_attrs ci) && (negb (is_track ci) || track_reads W c d)
  | _, _ => false
  end.

Definition read_ok (W : world) : bool :=
  forallb (fun x => starts (u "{") (tag (fst x))) schema_elements &&
  forallb (fun cc => match type_of W (fst cc) with Some ty => rfits W (fst cc) ty | None => true end) (w_classes W) &&
  rfits W "links.Icon" icon_type.

(** *** Values *)

Lemma value_int o st s : readable_value o st s -> sname_eqb st ("xs", "int") = true -> no_space s = true /\ is_ok (int_of_str s) = true.
Proof.
  intros (_ & H & _) E. apply sname_eqb_eq in E. specialize (H E). split; [|now apply int_read]. apply plain_no_space, double_plain, int_double, H.
Qed.
Lemma short_read s : short_int s -> no_space s = true /\ is_ok (int_of_str s) = true.
Proof. intro H. split; [|now apply int_read]. apply plain_no_space, double_plain, int_double, H. Qed.
Lemma value_double o st s : readable_value o st s -> numeric st || sname_eqb st ("xs", "int") = true -> no_space s = true /\ is_ok (float_of_str s) = true.
Proof.
  intros (H & _ & _) E. assert (D : is_double s).
  { apply orb_prop in E as [E|E].
    - unfold numeric in E. apply existsb_exists in E as [x [Hx E]]. apply sname_eqb_eq in E. subst x. cbn in Hx. repeat (destruct Hx as [<-|Hx]; [exact H|]). contradiction.
    - apply sname_eqb_eq in E. subst st. now apply int_double. }
  split; [now apply plain_no_space, double_plain|now apply double_read].
Qed.
Lemma value_bool o st s : readable_value o st s -> sname_eqb st ("xs", "boolean") = true -> no_space s = true /\ is_ok (get_boolean_value true s) = true.
Proof. intros (H & _ & _) E. apply sname_eqb_eq in E. subst st. cbn in H. destruct H as [<-|[<-|[<-|[<-|[]]]]]; split; reflexivity. Qed.
Lemma value_date o st s : readable_value o st s -> sname_eqb st ("kml", "dateTimeType") = true -> no_space s = true /\ is_ok (kdt_parse o s) = true /\ s <> [].
Proof.
  intros (H & _ & D) E. apply sname_eqb_eq in E. specialize (D E). subst st. split; [now apply plain_no_space, (date_plain o)|]. split; [now apply date_read|]. now apply kml_date_nonempty.
Qed.

Lemma exact_member e t : existsb (fun m => ueqb (fst m) t) e = true -> enum_exact e t = Some t.
Proof. induction e as [|[m x] e IH]; [discriminate|]. cbn [existsb enum_exact fst]. destruct (ueqb m t) eqn:E; [|exact IH]. apply ueqb_eq in E. now subst. Qed.

Lemma value_enum W o it st s : readable_value o st s -> members_all W it st = true ->
  strip s = s /\ exists c e, it_classes it = [c] /\ sget c (w_enums W) = Some e /\ is_ok (get_enum_value c e true s) = true.
Proof.
  intros (H & _ & _) E. unfold members_all in E. rewrite !andb_true_iff in E. destruct E as [[E1 E2] E3]. apply negb_true_iff in E1. rewrite unstructured in H by exact E1. destruct (enum_type st) as [l|]; [|discriminate].
  apply in_map_iff in H as [x [<- Hx]]. rewrite forallb_forall in E3. specialize (E3 _ Hx). apply andb_prop in E3 as [S X]. apply ueqb_eq in S. split; [exact S|].
  destruct (it_classes it) as [|c [|]] eqn:Ec; try discriminate. destruct (sget c (w_enums W)) as [e|] eqn:Ee; [|discriminate]. exists c, e. repeat split; auto. unfold members in X. rewrite Ec, Ee in X.
  unfold get_enum_value, enum_lookup. rewrite (exact_member _ _ X). cbn [bind]. now rewrite ueqb_refl.
Qed.

Lemma guarded_ok r : is_ok r = true -> is_ok (guarded true r) = true.
Proof. now destruct r. Qed.
Lemma bind_some {A B} (r : res A) (f : A -> B) : is_ok r = true -> is_ok (let! x := r in Ok (f x)) = true.
Proof. now destruct r. Qed.

(** ** Elements *)

Lemma lookup_in {A} t (l : list (sname * A)) x : lookup schema_uris t l = Some x -> exists n, In n (map fst l) /\ tag n = t.
Proof.
  unfold lookup. destruct (find _ l) as [[n y]|] eqn:E; [|discriminate]. intros _. apply find_some in E as [E1 E2]. cbn [fst] in E2. apply ueqb_eq in E2. exists n. split; [|exact E2]. now apply (in_map fst) in E1.
Qed.

Lemma declared_every P d ks :
  (fix every ks := match ks with [] => True | k :: ks' => match S_kid d (e_tag k) with Some ty' => declared P ty' k | None => False end /\ every ks' end) ks ->
  forall k, In k ks -> exists ty, S_kid d (e_tag k) = Some ty /\ declared P ty k.
Proof.
  induction ks as [|k ks IH]; [intros _ k' []|]. intros H k' [<-|Hk]; [|now apply IH]. destruct H as [H _]. destruct (S_kid d (e_tag k)) as [ty|]; [eauto|contradiction].
Qed.
Lemma everywhere_all P ks : (fix all ks := match ks with [] => True | k :: ks' => everywhere P k /\ all ks' end) ks -> forall k, In k ks -> everywhere P k.
Proof. induction ks as [|k ks IH]; [intros _ k' []|]. intros H k' [<-|Hk]; [now destruct H|now apply IH]. Qed.
Lemma everywhere_here P e : everywhere P e -> P e.
Proof. destruct e. now intros [H _]. Qed.

Lemma declared_text P ty e : declared P ty e -> exists d, type_decl ty = Some d /\ match d_text d with Some st => P st (text_of e) | None => True end.
Proof.
  destruct e as [t a x ks]. cbn [declared]. unfold type_decl, text_of. cbn [e_text]. destruct (find _ schema_types) as [[n d]|]; [|contradiction]. cbn [snd]. intros [H _]. eauto.
Qed.

Lemma uget_some k (a : list (ustr * ustr)) v : uget k a = Some v -> In (k, v) a.
Proof. induction a as [|[k' y] l IHl]; [discriminate|]. cbn [uget]. destruct (ueqb k k') eqn:Q; [apply ueqb_eq in Q; intro H; injection H as <-; rewrite Q; now left|right; auto]. Qed.
Lemma uget_none k (a : list (ustr * ustr)) v : uget k a = None -> ~ In (k, v) a.
Proof. induction a as [|[k' y] l IHl]; [intros _ []|]. cbn [uget]. destruct (ueqb k k') eqn:Q; [discriminate|]. intros H [E|E]; [injection E as -> ->; now rewrite ueqb_refl in Q|now apply IHl]. Qed.

Section Reading.
  Variable W : world.
  Hypothesis HW : world_ok W = true.
  Hypothesis HR : read_ok W = true.
  Variable m : nss_t.
  Hypothesis Hm : schema_nss m = true.
  Hypothesis He : ns_get m "" = [].
  Hypothesis Hi : merge_ns m = m.
  Notation P := (readable_value (w_arrow W)).

  Definition rgoal (e : elem) : Prop :=
    forall c ty ns, e_tag e = tag (class_sname W c) -> rfits W c ty = true -> declared P ty e -> everywhere readable_element e ->
      is_ok (from_element W true e c ns m) = true.

  Section Element.
    Variables (c : string) (ci : class_info) (d : decl) (t : ustr) (a : list (ustr * ustr)) (x : option ustr) (ks : list elem).
    Hypothesis Hc : class_of W c = Some ci.
    Hypothesis Ht : t = tag (class_sname W c).
    Hypothesis Hq : qualified d = true.
    Hypothesis Hb : forallb (fun y => bare (fst (fst y))) (d_attrs d) = true.
    Hypothesis Hre : readable_element (Elem t a x ks).
    Hypothesis Ha : forall k v, In (k, v) a -> exists y, In y (d_attrs d) /\ k = u (fst (fst y)) /\ P (snd y) v.
    Hypothesis Hk : forall k, In k ks -> exists ty, S_kid d (e_tag k) = Some ty /\ declared P ty k.
    Hypothesis Hw : forall k, In k ks -> everywhere readable_element k.
    Hypothesis IH : forall k, In k ks -> rgoal k.

    Lemma kid_brace k : In k ks -> starts (u "{") (e_tag k) = true.
    Proof.
      intro Hin. destruct (Hk k Hin) as [ty [E _]]. unfold kid_type in E. destruct (lookup schema_uris (e_tag k) (d_local d)) as [ty'|] eqn:El.
      - apply lookup_in in El as [n [Hn <-]]. apply in_map_iff in Hn as [y [<- Hy]]. unfold qualified in Hq. rewrite forallb_forall in Hq. now apply Hq.
      - apply lookup_in in E as [n [Hn <-]]. apply in_map_iff in Hn as [y [<- Hy]]. assert (R := HR). unfold read_ok in R. rewrite !andb_true_iff in R. destruct R as [[R _] _]. rewrite forallb_forall in R. now apply R.
    Qed.

    (** The children an item looks at. *)
    Lemma kid_named k id n : In k ks -> known_id id || String.eqb id "" = true -> bare n = true -> e_tag k = ns_get m id ++ u n ->
      known_id id = true /\ e_tag k = tag (id, n) /\ exists ty, kid_of d (id, n) = Some ty /\ declared P ty k.
    Proof.
      intros Hin Hid Hn E. destruct (known_id id) eqn:K.
      - rewrite (tag_id m id n Hm K) in E. split; [reflexivity|]. split; [exact E|]. destruct (Hk k Hin) as [ty [Et D]]. exists ty. now rewrite kid_of_eq, <- E.
      - cbn [orb] in Hid. apply seqb_eq in Hid. subst id. exfalso. rewrite He in E. cbn [app] in E. assert (B := kid_brace k Hin). rewrite E in B. unfold bare in Hn. now rewrite B in Hn.
    Qed.

    Lemma named_text k id n f : In k ks -> known_id id || String.eqb id "" = true -> bare n = true -> e_tag k = ns_get m id ++ u n ->
      (forall i : string, i = id -> known_id i = true -> match kid_of d (i, n) with
        | Some ty => match type_decl ty with Some d' => match d_text d' with Some st => f st | None => false end | None => false end
        | None => true end = true) ->
      exists st, f st = true /\ P st (text_of k) /\ e_tag k = tag (id, n).
    Proof.
      intros Hin Hid Hn E F. destruct (kid_named k id n Hin Hid Hn E) as (K & Et & ty & Ek & D). specialize (F id eq_refl K). rewrite Ek in F. destruct (declared_text _ _ _ D) as [d' [Ed Pd]]. rewrite Ed in F.
      destruct (d_text d') as [st|]; [|discriminate]. eauto.
    Qed.

    Lemma leaf_all it id : leaf_reads W d it = true -> In id (it_nsids it) -> forallb (fun id => known_id id || String.eqb id "") (it_nsids it) = true ->
      forall k, In k ks -> e_tag k = ns_get m id ++ u (it_node it) -> exists st, reads_leaf W it id st = true /\ P st (text_of k) /\ e_tag k = tag (id, it_node it).
    Proof.
      intros L Hid Hn k Hin E. unfold leaf_reads in L. apply andb_prop in L as [Lb L]. rewrite forallb_forall in L, Hn. specialize (L _ Hid). specialize (Hn _ Hid).
      apply (named_text k id (it_node it) (reads_leaf W it id)); auto. intros i -> K. rewrite K in L. exact L.
    Qed.

    Lemma find_kid_some tg k : find_kid tg (map (kid_reader W true) ks) = Some k -> exists e, k = kid_reader W true e /\ In e ks /\ e_tag e = tg.
    Proof.
      clear. induction ks as [|e l IHl]; [discriminate|]. cbn [map find_kid fst]. destruct (ueqb (e_tag e) tg) eqn:E.
      - intro H. injection H as <-. apply ueqb_eq in E. exists e. split; [reflexivity|]. split; [now left|exact E].
      - intro H. destruct (IHl H) as [e' [H1 [H2 H3]]]. exists e'. split; [exact H1|]. split; [now right|exact H3].
    Qed.
    Lemma find_kids_some tg k : In k (find_kids tg (map (kid_reader W true) ks)) -> exists e, k = kid_reader W true e /\ In e ks /\ e_tag e = tg.
    Proof.
      clear. unfold find_kids. intro H. apply filter_In in H as [H1 H2]. apply in_map_iff in H1 as [e [<- H1]]. apply ueqb_eq in H2. eauto.
    Qed.

    (** A reader of one text. *)
    Lemma on_text_ok it id (f : ustr -> res value) :
      (forall k, In k ks -> e_tag k = ns_get m id ++ u (it_node it) -> strip (text_of k) = text_of k /\ is_ok (f (text_of k)) = true) ->
      is_ok (match (match find_kid (ns_get m id ++ u (it_node it)) (map (kid_reader W true) ks) with Some k => stripped (e_text (fst k)) | None => None end) with
             | Some t => guarded true (f t) | None => Ok None end) = true.
    Proof.
      intro H. destruct (find_kid _ _) as [k|] eqn:E; [|reflexivity]. apply find_kid_some in E as [e [-> [Hin Et]]]. cbn [fst]. destruct (H e Hin Et) as [S F]. unfold text_of in *. destruct (e_text e) as [tx|]; [|reflexivity].
      unfold stripped. cbv zeta. rewrite S. destruct (uempty tx); [reflexivity|]. now apply guarded_ok.
    Qed.

    Lemma attr_ok it id (f : ustr -> Prop) :
      forallb (fun id => known_id id || String.eqb id "") (it_nsids it) = true -> In id (it_nsids it) ->
      forallb (fun y => negb (String.eqb (fst (fst y)) (it_node it)) || reads_attr W c it (snd y)) (d_attrs d) = true ->
      (forall st v, reads_attr W c it st = true -> P st v -> In (u (it_node it), v) a -> f v) ->
      match uget (ns_get m id ++ u (it_node it)) a with Some v => f v | None => True end.
    Proof.
      intros Hn Hid R F. rewrite forallb_forall in Hn. specialize (Hn _ Hid). destruct (uget _ a) as [v|] eqn:E; [|exact I].
      assert (I : In (ns_get m id ++ u (it_node it), v) a) by now apply uget_some.
      destruct (Ha _ _ I) as [y [Hy [Ek Py]]]. rewrite forallb_forall in Hb. specialize (Hb _ Hy). destruct (known_id id) eqn:K.
      - exfalso. rewrite (tag_id m id _ Hm K) in Ek. unfold bare in Hb. rewrite <- Ek in Hb. unfold known_id in K. apply mem_In in K. cbn in K. destruct K as [<-|[<-|[<-|[]]]]; discriminate Hb.
      - cbn [orb] in Hn. apply seqb_eq in Hn. subst id. rewrite He in *. cbn [app] in *. apply u_inj in Ek. rewrite forallb_forall in R. specialize (R _ Hy). rewrite <- Ek, String.eqb_refl in R. cbn [negb orb] in R. now apply (F (snd y)).
    Qed.

    Lemma kid_class k' id cl : In k' ks -> known_id id || String.eqb id "" = true -> kid_reads W d id cl = true -> e_tag k' = ns_get m id ++ u (tag_of W cl) -> forall ns, is_ok (from_element W true k' cl ns m) = true.
    Proof.
      intros Hin Hid R E ns. unfold kid_reads in R. rewrite !andb_true_iff in R. destruct R as [[R1 R2] R3]. destruct (kid_named k' id (tag_of W cl) Hin Hid R2 E) as (K & Et & ty & Ek & D).
      rewrite K, Ek in R3. cbn [negb orb] in R3. apply andb_prop in R3 as [Rn R3]. apply seqb_eq in Rn.
      assert (Ec : class_sname W cl = (id, tag_of W cl)) by (unfold class_sname, tag_of, nsid in *; destruct (class_of W cl); [now rewrite Rn|discriminate]).
      apply (IH k' Hin cl ty ns); [now rewrite Ec| |exact D|now apply Hw].
      assert (R := HR). unfold read_ok in R. rewrite !andb_true_iff in R. destruct R as [[_ R] Ri]. apply orb_prop in R3 as [R3|R3].
      - destruct (type_of W cl) as [ty'|] eqn:Ety; [|discriminate]. apply seqb_eq in R3. subst ty'. destruct (class_of W cl) as [ci'|] eqn:Ecl; [|discriminate]. rewrite forallb_forall in R. specialize (R _ (sget_In _ _ _ Ecl)). cbn [fst] in R. now rewrite Ety in R.
      - apply andb_prop in R3 as [A B]. apply seqb_eq in A, B. now subst.
    Qed.

    Lemma item_read it id : item_reads W c d it = true -> In id (it_nsids it) ->
      is_ok (get_kwarg W true it a x (map (kid_reader W true) ks) (ns_get m id) m) = true.
    Proof.
      intros R Hid. unfold item_reads in R. apply andb_prop in R as [Hn R]. assert (Hid' := proj1 (forallb_forall _ _) Hn _ Hid). cbv beta in Hid'. unfold get_kwarg. cbv zeta.
      assert (LA := fun L => leaf_all it id L Hid Hn).
      assert (AT := fun f => attr_ok it id f Hn Hid). unfold reads_leaf, reads_attr in *. destruct (it_get it) eqn:G; try reflexivity.
      - (* bool *) apply andb_prop in R as [Rb R]. specialize (LA R). destruct (it_classes it) as [|cl [|? ?]]; [discriminate| |].
        2:{ repeat (match type of Rb with context [match ?k with _ => _ end] => is_var k; destruct k; try discriminate Rb end). }
        assert (cl = "bool") by (clear -Rb; repeat (match type of Rb with context [match ?k with _ => _ end] => is_var k; destruct k; try discriminate Rb end); reflexivity). subst cl.
        apply on_text_ok. intros k Hin Et. destruct (LA k Hin Et) as (st & Rs & Pv & _). apply andb_prop in Rs as [Rs _]. destruct (value_bool _ _ _ Pv Rs) as [A B]. split; [now apply strip_no_space|exact B].
      - (* int *) specialize (LA R). apply (on_text_ok it id (fun t => let! z := int_of_str t in Ok (VInt z))). intros k Hin Et. destruct (LA k Hin Et) as (st & Rs & Pv & Tg).
        assert (Q : no_space (text_of k) = true /\ is_ok (int_of_str (text_of k)) = true).
        { apply orb_prop in Rs as [Rs|Rs]; [now apply (value_int _ _ _ Pv)|]. apply short_read. unfold is_lod in Rs. apply andb_prop in Rs as [E1 E2]. apply seqb_eq in E1. subst id. apply mem_In in E2.
          destruct (everywhere_here _ _ (Hw k Hin)) as [L _]. now apply (L (it_node it)). }
        split; [now apply strip_no_space|]. now apply bind_some.
      - (* attribute int *) specialize (AT (fun v => is_ok (int_of_str v) = true) R). cbv beta in AT.
        assert (F : match uget (ns_get m id ++ u (it_node it)) a with Some v => is_ok (int_of_str v) = true | None => True end).
        { apply AT. intros st v Rs Pv Hv. apply orb_prop in Rs as [Rs|Rs]; [now apply (value_int _ _ _ Pv)|]. apply short_read. apply andb_prop in Rs as [E1 E2]. apply sname_eqb_eq in E1. apply seqb_eq in E2.
          destruct Hre as (_ & _ & _ & L & _). apply L; [cbn [e_tag]; rewrite Ht, E1; reflexivity|]. cbn [e_attrib]. now rewrite <- E2. }
        destruct (uget _ a) as [v|]; [|reflexivity]. destruct (uempty v); [reflexivity|]. now apply bind_some.
      - (* float *) specialize (LA R). apply (on_text_ok it id (fun t => let! z := float_of_str t in Ok (VFloat z))). intros k Hin Et. destruct (LA k Hin Et) as (st & Rs & Pv & _).
        destruct (value_double _ _ _ Pv Rs) as [A B]. split; [now apply strip_no_space|now apply bind_some].
      - (* attribute float *) specialize (AT (fun v => is_ok (float_of_str v) = true) R). cbv beta in AT.
        assert (F : match uget (ns_get m id ++ u (it_node it)) a with Some v => is_ok (float_of_str v) = true | None => True end) by (apply AT; intros st v Rs Pv _; now apply (value_double _ _ _ Pv)).
        destruct (uget _ a) as [v|]; [|reflexivity]. destruct (uempty v); [reflexivity|]. now apply guarded_ok, bind_some.
      - (* enumeration *) apply andb_prop in R as [Rc R]. specialize (LA R). unfold with_enum. destruct (it_classes it) as [|cl [|]] eqn:Ec; try discriminate Rc. destruct (sget cl (w_enums W)) as [en|] eqn:Ee; [|discriminate Rc].
        apply on_text_ok. intros k Hin Et. destruct (LA k Hin Et) as (st & Rs & Pv & _). destruct (value_enum _ _ _ _ _ Pv Rs) as (S & c' & e' & E1 & E2 & V). split; [exact S|]. congruence.
      - (* attribute enumeration *) apply andb_prop in R as [Rc R]. unfold with_enum. destruct (it_classes it) as [|cl [|]] eqn:Ec; try discriminate Rc. destruct (sget cl (w_enums W)) as [en|] eqn:Ee; [|discriminate Rc].
        specialize (AT (fun v => is_ok (get_enum_value cl en true v) = true) R). cbv beta in AT.
        assert (F : match uget (ns_get m id ++ u (it_node it)) a with Some v => is_ok (get_enum_value cl en true v) = true | None => True end).
        { apply AT. intros st v Rs Pv Hv. apply orb_prop in Rs as [Rs|Rs].
          - destruct (value_enum _ _ _ _ _ Pv Rs) as (S & c' & e' & E1 & E2 & V). congruence.
          - rewrite !andb_true_iff in Rs. destruct Rs as [[E1 E2] E3]. apply sname_eqb_eq in E1. apply seqb_eq in E2. destruct Hre as (_ & _ & _ & _ & L & _).
            assert (F : In v (map u field_types)) by (apply L; [cbn [e_tag]; rewrite Ht, E1; reflexivity|cbn [e_attrib]; now rewrite <- E2]). apply in_map_iff in F as [y [<- Hy]]. rewrite forallb_forall in E3. specialize (E3 _ Hy).
            unfold members in E3. rewrite Ec, Ee in E3. unfold get_enum_value, enum_lookup. rewrite (exact_member _ _ E3). cbn [bind]. now rewrite ueqb_refl. }
        destruct (uget _ a) as [v|]; [|reflexivity]. destruct (uempty v); [reflexivity|]. now apply guarded_ok.
      - (* date *) specialize (LA R). apply (on_text_ok it id (fun t => let! z := kdt_parse (w_arrow W) t in Ok (VDate z))). intros k Hin Et. destruct (LA k Hin Et) as (st & Rs & Pv & _).
        destruct (value_date _ _ _ Pv Rs) as (A & B & _). split; [now apply strip_no_space|now apply bind_some].
      - (* dates *) specialize (LA R). rewrite is_ok_ret, is_ok_map. apply forallb_forall. intros k Hin. apply find_kids_some in Hin as [e [-> [Hin Et]]]. unfold read_date. cbn [fst]. destruct (LA e Hin Et) as (st & Rs & Pv & _).
        destruct (value_date _ _ _ Pv Rs) as (_ & B & N). unfold text_of in *. destruct (e_text e) as [tx|]; [|contradiction]. destruct (kdt_parse _ tx); [reflexivity|discriminate].
      - (* tuples *) specialize (LA R). rewrite is_ok_ret, is_ok_map. apply forallb_forall. intros k Hin. apply find_kids_some in Hin as [e [-> [Hin Et]]]. unfold read_coord. cbn [fst]. destruct (LA e Hin Et) as (st & Rs & _ & Tg).
        apply andb_prop in Rs as [E1 E2]. apply seqb_eq in E1. subst id. apply mem_In in E2. destruct (everywhere_here _ _ (Hw e Hin)) as (_ & _ & L & _).
        assert (F : is_ok (floats_of (words (text_of e))) = true) by (apply doubles_read, L; cbn in E2; destruct E2 as [E2|[E2|[]]]; rewrite <- E2 in Tg; rewrite Tg; auto).
        unfold text_of in F. destruct (e_text e) as [tx|]; [|reflexivity]. destruct (uempty tx); [reflexivity|]. destruct (floats_of _); [reflexivity|discriminate].
      - (* coordinates *) apply sname_eqb_eq in R. destruct Hre as (_ & L & _). cbn [e_tag] in L. rewrite Ht, R in L. destruct (L eq_refl) as (cells & T & D). unfold text_of in T. cbn [e_text] in T. destruct x as [tx|]; [|reflexivity]. apply guarded_ok. now apply (coordinates_read cells).
      - (* object *) rewrite forallb_forall in R. specialize (R _ Hid). induction (it_classes it) as [|cl cs IHc]; [reflexivity|]. cbn [forallb] in R. apply andb_prop in R as [R1 R2]. specialize (IHc R2). cbn [read_obj].
        assert (Tg : class_tag W cl = Ok (u (tag_of W cl))) by (unfold kid_reads in R1; rewrite !andb_true_iff in R1; destruct R1 as [[R1 _] _]; unfold class_tag, tag_of; destruct (class_of W cl); [reflexivity|discriminate]).
        rewrite Tg. cbn [bind]. destruct (find_kid _ _) as [k|] eqn:E; [|exact IHc]. apply find_kid_some in E as [e [-> [Hin Et]]]. cbn [snd]. apply bind_some. now apply (kid_class e id cl).
      - (* objects *) rewrite forallb_forall in R. specialize (R _ Hid). rewrite is_ok_ret. unfold read_objs. rewrite is_ok_ret, is_ok_map. apply forallb_forall. intros cl Hcl. rewrite forallb_forall in R. specialize (R _ Hcl).
        assert (Tg : class_tag W cl = Ok (u (tag_of W cl))) by (assert (R1 := R); unfold kid_reads in R1; rewrite !andb_true_iff in R1; destruct R1 as [[R1 _] _]; unfold class_tag, tag_of; destruct (class_of W cl); [reflexivity|discriminate]).
        rewrite Tg. cbn [bind]. rewrite is_ok_map. apply forallb_forall. intros k Hin. apply find_kids_some in Hin as [e [-> [Hin Et]]]. cbn [snd]. now apply (kid_class e id cl).
    Qed.

    Lemma items_read its acc : forallb (item_reads W c d) its = true -> is_ok (get_kwargs W true its a x (map (kid_reader W true) ks) m acc) = true.
    Proof.
      revert acc. induction its as [|it its IHi]; intros acc R; [reflexivity|]. cbn [forallb] in R. apply andb_prop in R as [R1 R2]. cbn [get_kwargs]. rewrite is_ok_bind.
      assert (T : forall ids, incl ids (it_nsids it) -> is_ok (try_nsids (fun ns => get_kwarg W true it a x (map (kid_reader W true) ks) ns m) m ids) = true).
      { intros ids. induction ids as [|id ids IHd]; intro I; [reflexivity|]. cbn [try_nsids]. rewrite is_ok_bind. assert (O := item_read it id R1 (I id (or_introl eq_refl))). destruct (get_kwarg _ _ _ _ _ _ _ _) as [[v|]|]; [reflexivity| |discriminate].
        apply IHd. intros y Hy. apply I. now right. }
      specialize (T _ (incl_refl _)). destruct (try_nsids _ _ _) as [r|]; [|discriminate]. now apply IHi.
    Qed.

    (** What constructors ask for. *)
    Lemma required_read ak : req_reads W c ak = true -> required_calm m (items_of W c) a ak = true.
    Proof.
      unfold req_reads, required_calm. destruct (snd ak); try reflexivity. intro R. apply andb_prop in R as [R1 R2]. apply sname_eqb_eq in R1. destruct (find_item _ _) as [it|]; [|discriminate]. apply andb_prop in R2 as [R2 R3]. apply seqb_eq in R2. apply mem_In in R3.
      destruct Hre as (_ & _ & _ & _ & _ & L & _). cbn [e_tag e_attrib] in L. rewrite Ht, R1 in L. destruct (L eq_refl) as [[v Hv] Hne].
      assert (F : exists w, Calm.filled (u "id") a = Some w).
      { unfold Calm.filled. destruct (uget (u "id") a) as [w|] eqn:E.
        - apply uget_some in E.
          specialize (Hne _ E). destruct w; [contradiction|eauto].
        - now elim (uget_none _ _ _ E Hv). }
      destruct F as [w F]. unfold keys. rewrite R2. revert R3. generalize (it_nsids it). intro ids. induction ids as [|id ids IHd]; [contradiction|]. cbn [map first_some]. intros [->|H].
      - rewrite He. cbn [app]. now rewrite F.
      - destruct (Calm.filled (ns_get m id ++ u "id") a); [reflexivity|auto].
    Qed.

    (** Tracks. *)
    Lemma none_tagged tg : (forall k, In k ks -> e_tag k <> tg) -> with_tag tg ks = [].
    Proof.
      clear. intro H. unfold with_tag. induction ks as [|k l IHl]; [reflexivity|]. cbn [filter]. destruct (ueqb (e_tag k) tg) eqn:E; [apply ueqb_eq in E; now elim (H k (or_introl eq_refl))|]. apply IHl. intros k' Hk'. apply H. now right.
    Qed.
    Lemma only_keys it n {A} (f : list elem -> list A) : f [] = [] -> only d it n = true ->
      first_nonempty (map (fun t => f (with_tag t ks)) (keys m it)) = f (with_tag (tag n) ks) \/ first_nonempty (map (fun t => f (with_tag t ks)) (keys m it)) = [].
    Proof.
      intros Hf O. unfold only in O. apply andb_prop in O as [Ob O]. rewrite forallb_forall in O. unfold keys. revert O. generalize (it_nsids it). intro ids. induction ids as [|id ids IHd]; intro O; [now right|]. cbn [map].
      rewrite first_nonempty_cons.
      assert (D : f (with_tag (ns_get m id ++ u (it_node it)) ks) = f (with_tag (tag n) ks) \/ f (with_tag (ns_get m id ++ u (it_node it)) ks) = []).
      { specialize (O id (or_introl eq_refl)). apply andb_prop in O as [O1 O2]. destruct (known_id id) eqn:K.
        - cbn [negb orb] in O2. apply orb_prop in O2 as [O2|O2].
          + left. apply sname_eqb_eq in O2. now rewrite (tag_id m id _ Hm K), O2.
          + right. rewrite none_tagged; [exact Hf|]. intros k Hin E. rewrite <- K in O1. destruct (kid_named k id (it_node it) Hin ltac:(now rewrite K) Ob E) as (_ & _ & ty & Ek & _). now rewrite Ek in O2.
        - right. rewrite none_tagged; [exact Hf|]. intros k Hin E. destruct (kid_named k id (it_node it) Hin ltac:(now rewrite K) Ob E) as (K' & _). congruence. }
      destruct D as [->| ->].
      - destruct (nilb (f (with_tag (tag n) ks))) eqn:N; [|now left]. apply IHd. intros y Hy. apply O. now right.
      - cbn [nilb]. apply IHd. intros y Hy. apply O. now right.
    Qed.

    Lemma texts_length l : length (texts l) <= length l.
    Proof. unfold texts. induction l as [|k l IHl]; [apply le_n|]. cbn [map concat]. rewrite app_length. destruct (e_text k); cbn [opt_list length]; lia. Qed.
    Lemma filter_length {A} (f : A -> bool) l : length (filter f l) <= length l.
    Proof. induction l as [|y l IHl]; [apply le_n|]. cbn [filter]. destruct (f y); cbn [length]; lia. Qed.
    Lemma tuples_all l : (forall k, In k l -> Forall is_double (words (text_of k)) /\ (length (words (text_of k)) = 2 \/ length (words (text_of k)) = 3)) ->
      good_tuples l = map (fun k => length (words (text_of k))) l.
    Proof.
      intro H. unfold good_tuples, texts. induction l as [|k l IHl]; [reflexivity|]. cbn [map concat]. destruct (H k (or_introl eq_refl)) as [H1 H2]. rewrite filter_app, map_app, IHl by (intros; apply H; now right).
      unfold text_of in *. destruct (e_text k) as [t'|]; [|cbn in H2; lia]. cbn [opt_list filter]. rewrite <- floats_ok, (doubles_read _ H1). destruct t' as [|c' t']; [cbn in H2; lia|]. reflexivity.
    Qed.
    Lemma tuples_some l n : In n (good_tuples l) -> exists k, In k l /\ n = length (words (text_of k)).
    Proof.
      unfold good_tuples. intro H. apply in_map_iff in H as [y [<- H]]. apply filter_In in H as [H _]. unfold texts in H. apply in_concat in H as [l' [H1 H2]]. apply in_map_iff in H1 as [k [<- H1]]. exists k. split; [exact H1|].
      unfold text_of. destruct (e_text k); [|contradiction]. destruct H2 as [<-|[]]. reflexivity.
    Qed.

    Lemma track_read : track_reads W c d = true -> track_calm W m (items_of W c) ks = true.
    Proof.
      unfold track_reads, track_calm. intro R. apply andb_prop in R as [R1 R]. apply sname_eqb_eq in R1. revert R. destruct (find_item "whens" (items_of W c)) as [wi|]; [|discriminate]. destruct (find_item "coords" (items_of W c)) as [coi|]; [|discriminate]. destruct (find_item "angles" (items_of W c)) as [ai|]; [|discriminate]. rewrite !andb_true_iff. intros [[Rw Rc] Ra].
      destruct Hre as (_ & _ & _ & _ & _ & _ & L). cbn [e_tag e_kids] in L. rewrite Ht, R1 in L. destruct (L eq_refl) as (L1 & L2 & L3). clear L. cbv zeta.
      destruct (only_keys wi _ (good_dates W) eq_refl Rw) as [Ew|Ew]; rewrite Ew; [|reflexivity].
      destruct (only_keys coi _ good_tuples eq_refl Rc) as [Ec|Ec]; rewrite Ec; [|now rewrite orb_true_r].
      assert (Cs : forall k, In k (with_tag (tag ("gx", "coord")) ks) -> Forall is_double (words (text_of k)) /\ (length (words (text_of k)) = 2 \/ length (words (text_of k)) = 3)).
      { intros k Hin. apply filter_In in Hin as [Hin E]. apply ueqb_eq in E. split; [|now apply L3]. destruct (everywhere_here _ _ (Hw k Hin)) as (_ & _ & D & _). apply D. now left. }
      assert (C1 : length (good_tuples (with_tag (tag ("gx", "coord")) ks)) = count (name "gx" "coord") ks) by (rewrite (tuples_all _ Cs), map_length; reflexivity).
      assert (C2 : forallb (fun n => Nat.eqb n 2 || Nat.eqb n 3) (good_tuples (with_tag (tag ("gx", "coord")) ks)) = true).
      { apply forallb_forall. intros n Hn. apply tuples_some in Hn as [k [Hin ->]]. destruct (Cs k Hin) as [_ [-> | ->]]; reflexivity. }
      assert (C3 : length (good_dates W (with_tag (tag ("kml", "when")) ks)) <= count (name "kml" "when") ks).
      { unfold good_dates. eapply Nat.le_trans; [apply filter_length|]. apply texts_length. }
      assert (C4 : length (good_tuples (with_tag (tag ("gx", "angles")) ks)) <= count (name "gx" "angles") ks).
      { unfold good_tuples. rewrite map_length. eapply Nat.le_trans; [apply filter_length|]. apply texts_length. }
      assert (C5 : forallb (fun n => Nat.leb n 3) (good_tuples (with_tag (tag ("gx", "angles")) ks)) = true).
      { apply forallb_forall. intros n Hn. apply tuples_some in Hn as [k [Hin ->]]. apply filter_In in Hin as [Hin E]. apply ueqb_eq in E. apply Nat.leb_le. now apply L3. }
      apply orb_true_iff. right. rewrite C2, !andb_true_iff, !Nat.leb_le, C1.
      destruct (only_keys ai _ good_tuples eq_refl Ra) as [Ea|Ea]; rewrite Ea; repeat split; try assumption; try reflexivity; cbn [length]; lia.
    Qed.
  End Element.

  Theorem read_all e : rgoal e.
  Proof.
    induction e as [t a x ks IH] using elem_ind'. rewrite Forall_forall in IH. intros c ty ns Et Rf D Ev. cbn [e_tag] in Et.
    unfold rfits in Rf. cbn [declared] in D. unfold type_decl in Rf. destruct (find _ schema_types) as [[n d]|]; [|contradiction]. cbn [option_map snd] in Rf.
    destruct (class_of W c) as [ci|] eqn:Hc; [|discriminate]. rewrite !andb_true_iff in Rf. destruct Rf as [[[[Rq Rb] Ri] Rr] Rt]. destruct D as (_ & Da & Dk). assert (Dk' := declared_every P d ks Dk). clear Dk.
    assert (Hre := everywhere_here _ _ Ev). destruct Ev as [_ Ev]. assert (Hw := everywhere_all _ ks Ev). clear Ev.
    assert (IR := items_read c d t a x ks Et Rq Rb Hre Da Dk' Hw IH (items_of W c) [] Ri).
    assert (Or : or_parse (get_kwargs W true (items_of W c) a x (map (kid_reader W true) ks) m []) (get_kwargs W false (items_of W c) a x (map (kid_reader W false) ks) m [])).
    { apply get_kwargs_or. clear. induction ks as [|k l IHl]; constructor; [|exact IHl]. split; [reflexivity|]. intros. apply strict_or_lenient. }
    destruct Or as [Or|Or]; [rewrite Or in IR; discriminate|].
    assert (E : from_element W true (Elem t a x ks) c ns m = from_element W false (Elem t a x ks) c ns m) by (cbn [from_element]; unfold read_with; cbv zeta; now rewrite Hi, Or).
    rewrite E, (lenient_calm W _ HW), Hi. cbn [calm]. rewrite Hc. rewrite !andb_true_iff. split; [split|].
    - rewrite Or, get_kwargs_is_ok in IR. rewrite forallb_forall in *. intros it Hit. rewrite <- (IR it Hit). symmetry. apply item_is_calm.
      + exact (cf_items _ _ _ (world_class W c ci HW Hc) it Hit).
      + apply Forall_forall. intros k _ c' ns'. now rewrite (lenient_calm W k HW), Hi.
    - rewrite forallb_forall in *. intros ak Hak. apply (required_read c t a x ks Et Hre). now apply Rr.
    - destruct (is_track ci); [|reflexivity]. cbn [negb orb] in Rt. now apply (track_read c d t a x ks Et Rq Hre Da Dk' Hw).
  Qed.
End Reading.
