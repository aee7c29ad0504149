(** * Numbers have the value their digits say: C59. *)
From Coq Require Import String List NArith ZArith Bool Lia.
From Verif Require Import Ustr UstrProofs Res PyInt PyFloat PyNumProofs Value Geom Elem Codec NumSpec NearProofs NumTextProofs.
Import ListNotations.
Local Open Scope Z_scope.

(** A decimal text that says [D * 10^t] (NumSpec.v: sign, digits, point, power of
    ten, between blanks) is read as the double nearest to [D * 10^t] - of two
    equally near ones the one with the even significand - and as an infinity if
    the number lies beyond the largest double.  There is only one such double. *)
Theorem C59_decimal_texts : forall s neg D t, decimal_text s neg D t ->
  exists f, float_of_str s = Ok f /\ nearest neg D t f /\ forall g, nearest neg D t g -> g = f.
Proof.
  intros s neg D t H. exists (round_dec neg D t). split; [now apply decimal_read|].
  assert (HD : 0 <= D).
  { destruct H as [w sg neg ds D x e w' _ _ _ H _ _|w sg neg d1 d2 D x e w' _ _ _ H _ _];
      apply says_digits in H as [H ->]; now apply digits_val_nonneg. }
  split; [now apply round_dec_nearest|]. intros g Hg.
  apply (nearest_unique neg D t); [exact HD|exact Hg|now apply round_dec_nearest].
Qed.
Print Assumptions C59_decimal_texts.

(** [inf], [infinity] and [nan] are read in every mixture of cases. *)
Theorem C59_special_texts : forall s f, special_text s f -> float_of_str s = Ok f.
Proof. exact special_read. Qed.
Print Assumptions C59_special_texts.

(** Of the ASCII texts without underscore nothing else is read as a float; any
    other such text raises [ValueError]. *)
Theorem C59_no_other_float : forall s, Forall (fun c => (c < 127)%N) s -> ~ In 95%N s ->
  (exists f, float_of_str s = Ok f /\
     ((exists neg D t, decimal_text s neg D t /\ nearest neg D t f) \/ special_text s f)) \/
  (float_of_str s = Err EValueError /\
   (forall neg D t, ~ decimal_text s neg D t) /\ forall f, ~ special_text s f).
Proof.
  intros s Ha Hl. destruct (float_of_str s) as [f|e] eqn:E.
  - left. exists f. split; [reflexivity|].
    destruct (float_read_inv s f Ha Hl E) as [(neg & D & t & H & _)|H]; [left|now right].
    exists neg, D, t. split; [exact H|]. destruct (C59_decimal_texts s neg D t H) as (g & Hg & Hn & _). congruence.
  - right. repeat split.
    + rewrite <- E. clear - E. unfold float_of_str in *.
      destruct (no_underscores _ _) as [x|]; [|congruence]. destruct (take_sign x) as [neg r].
      destruct (_ || _); [discriminate|]. destruct (ueqb _ _); [discriminate|].
      destruct (parse_dec neg r); congruence.
    + intros neg D t H. apply decimal_read in H. congruence.
    + intros f H. apply special_read in H. congruence.
Qed.
Print Assumptions C59_no_other_float.

(** An integer text of at most 4300 digits is read as the integer it says. *)
Theorem C59_integer_texts : forall s neg n k, integer_text s neg n k ->
  int_of_str s = if (4300 <? N.of_nat k)%N then Err EValueError else Ok (if neg then - n else n).
Proof. exact integer_read. Qed.
Print Assumptions C59_integer_texts.

Theorem C59_no_other_integer : forall s, Forall (fun c => (c < 127)%N) s -> ~ In 95%N s ->
  (exists z, int_of_str s = Ok z /\
     exists neg n k, integer_text s neg n k /\ (N.of_nat k <= 4300)%N /\ z = if neg then - n else n) \/
  (int_of_str s = Err EValueError /\ forall neg n k, (N.of_nat k <= 4300)%N -> ~ integer_text s neg n k).
Proof.
  intros s Ha Hl. destruct (int_of_str s) as [z|e] eqn:E.
  - left. exists z. split; [reflexivity|]. exact (int_read_inv s z Ha Hl E).
  - right. split.
    + rewrite <- E. clear - E. unfold int_of_str in *. destruct (take_sign _) as [neg d].
      destruct (no_underscores _ _) as [x|]; [|congruence]. destruct (_ && _); [|congruence].
      destruct (_ <? _)%N; congruence.
    + intros neg n k Hk H. apply integer_read in H. rewrite H in E.
      replace (4300 <? N.of_nat k)%N with false in E by (symmetry; now apply N.ltb_ge). discriminate.
Qed.
Print Assumptions C59_no_other_integer.

(** Underscores may stand between two digits, where they change nothing; anywhere
    else they spoil the number. *)
Definition digit (c : N) : Prop := (48 <= c <= 57)%N.
Theorem C59_underscores : forall p q,
  (forall a b, digit a -> digit b ->
     float_of_str (p ++ a :: 95%N :: b :: q) = float_of_str (p ++ a :: b :: q) /\
     int_of_str (p ++ a :: 95%N :: b :: q) = int_of_str (p ++ a :: b :: q)) /\
  (Forall (fun c => (c < 127)%N) (p ++ q) ->
   (forall p' a, p = p' ++ [a] -> ~ digit a) \/ (forall b q', q = b :: q' -> ~ digit b) ->
   float_of_str (p ++ 95%N :: q) = Err EValueError /\ int_of_str (p ++ 95%N :: q) = Err EValueError).
Proof.
  intros p q. split.
  - intros a b Ha Hb. unfold digit in *. apply underscore_between; unfold is_adigit; lia.
  - intros Ha H. apply underscore_elsewhere; [exact Ha|]. destruct H as [H|H]; [left|right].
    + unfold ends_digit. destruct (rev p) as [|a r] eqn:E; [reflexivity|].
      assert (Ep : p = rev r ++ [a]) by (rewrite <- (rev_involutive p), E; reflexivity).
      specialize (H _ _ Ep). unfold digit, is_adigit in *. lia.
    + unfold starts_adigit. destruct q as [|b q']; [reflexivity|]. specialize (H _ _ eq_refl).
      unfold digit, is_adigit in *. lia.
Qed.
Print Assumptions C59_underscores.

(** The digits of the scripts do not overlap, and none is white space. *)
Lemma scripts_apart : forallb (fun z => forallb (fun z' => (z =? z') || (z + 10 <=? z') || (z' + 10 <=? z))%N nd_zeros) nd_zeros = true.
Proof. vm_compute. reflexivity. Qed.
Lemma scripts_no_space : forallb (fun z => forallb (fun d => negb (is_space (z + d))) [0; 1; 2; 3; 4; 5; 6; 7; 8; 9])%N nd_zeros = true.
Proof. vm_compute. reflexivity. Qed.

Lemma script_digit z d : In z nd_zeros -> (d < 10)%N -> dec_digit (z + d) = Some d /\ is_space (z + d) = false.
Proof.
  intros Hz Hd. split.
  - unfold dec_digit. destruct (find _ nd_zeros) as [z'|] eqn:E.
    + apply find_some in E as [Hz' E]. assert (K := scripts_apart). rewrite forallb_forall in K.
      specialize (K z Hz). rewrite forallb_forall in K. specialize (K z' Hz'). cbn beta in *.
      f_equal. lia.
    + exfalso. assert (K := find_none _ _ E z Hz). cbn beta in K. lia.
  - assert (K := scripts_no_space). rewrite forallb_forall in K. specialize (K z Hz). rewrite forallb_forall in K.
    specialize (K d). apply negb_true_iff. apply K. cbn [In]. lia.
Qed.

(** A character beyond ASCII counts as the digit it is in its script, as a blank
    if it is white space, and spoils the number otherwise.  [nd_zeros] lists the
    digits zero of Unicode 15. *)
Theorem C59_other_scripts : forall p c q, (127 <= c)%N ->
  (forall z d, In z nd_zeros -> (d < 10)%N -> c = (z + d)%N ->
     float_of_str (p ++ c :: q) = float_of_str (p ++ (48 + d)%N :: q) /\
     int_of_str (p ++ c :: q) = int_of_str (p ++ (48 + d)%N :: q)) /\
  (is_space c = true ->
     float_of_str (p ++ c :: q) = float_of_str (p ++ 32%N :: q) /\
     int_of_str (p ++ c :: q) = int_of_str (p ++ 32%N :: q)) /\
  (is_space c = false -> (forall z d, In z nd_zeros -> (d < 10)%N -> c <> (z + d)%N) ->
     float_of_str (p ++ c :: q) = Err EValueError /\ int_of_str (p ++ c :: q) = Err EValueError).
Proof.
  intros p c q Hc. split; [|split; [now apply other_space|]].
  - intros z d Hz Hd ->. destruct (script_digit z d Hz Hd) as [H1 H2]. apply other_digit; [assumption..|lia].
  - intros Hs Hn. apply other_character; [exact Hc|exact Hs|]. unfold dec_digit.
    destruct (find _ nd_zeros) as [z'|] eqn:E; [|reflexivity].
    apply find_some in E as [Hz E]. exfalso. apply (Hn z' (c - z')%N Hz); lia.
Qed.
Print Assumptions C59_other_scripts.

(** ** The library *)

Lemma blank_is_space w : blank w -> forallb is_space w = true.
Proof.
  induction 1 as [|c w Hc _ IH]; [reflexivity|]. cbn [forallb]. rewrite IH, andb_true_r. unfold is_space. lia.
Qed.

Lemma strip_number w r w' : blank w -> blank w' -> plain r = true -> r <> [] ->
  stripped (Some (w ++ r ++ w')) = Some r.
Proof.
  intros Hw Hw' Hp Hr. unfold stripped. rewrite strip_pad by (now apply blank_is_space).
  rewrite strip_no_space by (now apply plain_no_space). destruct r; [congruence|reflexivity].
Qed.

(** The element registered with [subelement_float_kwarg] (helpers.py:416-449),
    and the attribute with [attribute_float_kwarg], have the nearest double of
    their text; [subelement_int_kwarg] and [attribute_int_kwarg] the integer. *)
Theorem C59_values_read : forall W strict it attrib text ks ns nss s neg,
  let key := (ns ++ u (it_node it))%list in
  let read := get_kwarg W strict it attrib text ks ns nss in
  (forall k D t, decimal_text s neg D t ->
     it_get it = GFloat /\ find_kid key ks = Some k /\ e_text (fst k) = Some s \/
     it_get it = GAttrFloat /\ uget key attrib = Some s ->
     exists f, read = Ok (Some (VFloat f)) /\ nearest neg D t f) /\
  (forall k n d, integer_text s neg n d -> (N.of_nat d <= 4300)%N ->
     it_get it = GInt /\ find_kid key ks = Some k /\ e_text (fst k) = Some s \/
     it_get it = GAttrInt /\ uget key attrib = Some s ->
     read = Ok (Some (VInt (if neg then - n else n)))).
Proof.
  intros W strict it attrib text ks ns nss s neg key read. split.
  - intros k D t H Hw. destruct (C59_decimal_texts s neg D t H) as (f & Hf & Hn & _).
    exists f. split; [|exact Hn]. unfold read, get_kwarg. fold key.
    destruct Hw as [(-> & -> & ->)|(-> & ->)].
    + apply decimal_text_unsigned in H as (w & sg & r & w' & H1 & H2 & H3 & H4 & ->).
      assert (Hne : sg ++ r <> []).
      { destruct (unsigned_head _ _ _ H3) as (c & r' & -> & _). destruct sg; discriminate. }
      assert (Hp : plain (sg ++ r) = true) by (now rewrite plain_app, (signed_plain _ _ H2), (unsigned_plain _ _ _ H3)).
      rewrite strip_number by assumption.
      assert (Hd : decimal_text (sg ++ r) neg D t).
      { apply decimal_text_unsigned. exists [], sg, r, []. repeat split; try assumption; try constructor. now rewrite app_nil_r. }
      destruct (C59_decimal_texts _ _ _ _ Hd) as (g & Hg & _ & Hu). rewrite Hg, (Hu f Hn). reflexivity.
    + replace (uempty s) with false by (destruct H as [[|? ?] [|? ?] ? [|? ?]|[|? ?] [|? ?] ? [|? ?]]; reflexivity || congruence).
      rewrite Hf. reflexivity.
  - intros k n d H Hd Hw. assert (Hz := C59_integer_texts _ _ _ _ H).
    replace (4300 <? N.of_nat d)%N with false in Hz by (symmetry; now apply N.ltb_ge).
    unfold read, get_kwarg. fold key. destruct Hw as [(-> & -> & ->)|(-> & ->)].
    + destruct H as [w sg neg ds n w' H1 H2 H3 H4 H5].
      assert (Hp : plain (sg ++ ds) = true).
      { apply says_digits in H4 as [H4 _]. now rewrite plain_app, (signed_plain _ _ H2), (adigit_plain _ H4). }
      rewrite (app_assoc sg ds w'), strip_number; try assumption; [|intro E; apply app_eq_nil in E; tauto].
      assert (Hi : integer_text (sg ++ ds) neg n (length ds)).
      { rewrite <- (app_nil_r ds) at 1. apply (an_integer [] sg neg ds n []); try assumption; constructor. }
      apply C59_integer_texts in Hi. replace (4300 <? N.of_nat (length ds))%N with false in Hi by (symmetry; now apply N.ltb_ge).
      rewrite Hi. reflexivity.
    + replace (uempty s) with false by (destruct H as [[|? ?] [|? ?] ? [|? ?]]; reflexivity || congruence).
      rewrite Hz. reflexivity.
Qed.
Print Assumptions C59_values_read.

(** ** Examples *)

Lemma says_by s n : forallb is_adigit s = true -> digits_val s = n -> says s n.
Proof. intros H <-. now apply digits_say. Qed.

(** [ -12.50e-1] says -1250 * 10^-3. *)
Example C59_decimal_example :
  decimal_text (u " -12.50e-1 ") true 1250 (-3) /\
  (exists m E, float_of_str (u " -12.50e-1 ") = Ok (FFin true m E) /\ 1250 * 2 ^ 1074 = m * 2 ^ E * 1000).
Proof.
  split.
  - apply (a_fraction [32%N] [45%N] true (u "12") (u "50") 1250 (u "e-1") (-1) [32%N]).
    + repeat constructor; lia.
    + constructor.
    + discriminate.
    + now apply says_by.
    + apply (some_power 101 [45%N] true (u "1") 1); [now left|constructor|discriminate|now apply says_by].
    + repeat constructor; lia.
  - eexists. eexists. split; vm_compute; reflexivity.
Qed.

(** 9007199254740993 = 2^53 + 1 lies half-way between two doubles: the even one
    is taken.  1e309 lies beyond the largest double. *)
Example C59_tie_example :
  decimal_text (u "9007199254740993") false (2 ^ 53 + 1) 0 /\
  float_of_str (u "9007199254740993") = float_of_str (u "9007199254740992") /\
  float_of_str (u "9007199254740993") <> float_of_str (u "9007199254740994") /\
  float_of_str (u "1e309") = Ok (FInf false) /\ float_of_str (u "-1e-400") = Ok (FFin true 0 0).
Proof.
  split.
  - apply (a_whole [] [] false (u "9007199254740993") (2 ^ 53 + 1) [] 0 []);
      [constructor|constructor|discriminate|apply says_by; vm_compute; reflexivity|constructor|constructor].
  - split; [vm_compute; reflexivity|]. split; [vm_compute; discriminate|]. split; vm_compute; reflexivity.
Qed.

Example C59_text_examples :
  special_text (u "+InFinity") (FInf false) /\ integer_text (u " +007 ") false 7 3 /\
  map float_of_str [u "1_000"; u "_1"; u "1__0"; u "1._5"; u "1e5_0"; [1636%N]; [1636%N; 163%N]] =
    [float_of_str (u "1000"); Err EValueError; Err EValueError; Err EValueError;
     float_of_str (u "1e50"); float_of_str (u "4"); Err EValueError].
Proof.
  split; [|split].
  - apply (an_infinity [] [43%N] false (u "InFinity") []); [constructor|constructor| |constructor].
    right. cbv. repeat (apply Forall2_cons; [cbv; intuition congruence|]). apply Forall2_nil.
  - apply (an_integer [32%N] [43%N] false (u "007") 7 [32%N]);
      [repeat constructor; lia|constructor|discriminate|now apply says_by|repeat constructor; lia].
  - vm_compute. reflexivity.
Qed.
