(** * [int(text)] and [str(int)].

    CPython: Objects/longobject.c; called from helpers.py:380, 413, 846, 887.
    Includes the 4300 digit limit of CPython >= 3.10.7 ([sys.int_info]). *)
From Coq Require Import String List NArith ZArith Bool.
From Verif Require Import Ustr Res.
Import ListNotations.

(** [_PyUnicode_TransformDecimalAndSpaceToASCII]: decimal digits become ASCII
    digits, non-ASCII white space becomes a blank, other non-ASCII characters
    become ['?']. *)
Definition to_ascii_cp (c : N) : N :=
  if (c <? 127)%N then c
  else if is_space c then 32%N
  else match dec_digit c with
       | Some d => (48 + d)%N
       | None => 63%N
       end.

(** [Py_ISSPACE]: ASCII white space as skipped by [int] and [float]. *)
Definition c_space (c : N) : bool := ((9 <=? c) && (c <=? 13))%N || (c =? 32)%N.

Fixpoint c_lstrip (s : ustr) : ustr :=
  match s with
  | [] => []
  | c :: s' => if c_space c then c_lstrip s' else s
  end.
Definition c_strip (s : ustr) : ustr := rev (c_lstrip (rev (c_lstrip s))).

Definition is_adigit (c : N) : bool := ((48 <=? c) && (c <=? 57))%N.

(** Optional sign. *)
Definition take_sign (s : ustr) : bool * ustr :=
  match s with
  | c :: s' => if (c =? 45)%N then (true, s')
               else if (c =? 43)%N then (false, s') else (false, s)
  | [] => (false, [])
  end.

(** Remove underscores standing between digits; [None] if one is misplaced.
    [prev] tells whether the previous character was a digit. *)
Fixpoint no_underscores (prev : bool) (s : ustr) : option ustr :=
  match s with
  | [] => Some []
  | c :: s' =>
      if (c =? 95)%N then
        match s' with
        | d :: _ => if prev && is_adigit d then no_underscores false s' else None
        | [] => None
        end
      else match no_underscores (is_adigit c) s' with
           | Some r => Some (c :: r)
           | None => None
           end
  end.

Definition digits_val (s : ustr) : Z :=
  fold_left (fun acc c => (10 * acc + (Z.of_N c - 48))%Z) s 0%Z.

Definition int_max_str_digits : N := 4300.

(** [int(s)]; [Err EValueError] for malformed text. *)
Definition int_of_str (s : ustr) : res Z :=
  let s := c_strip (map to_ascii_cp s) in
  let (neg, d) := take_sign s in
  match no_underscores false d with
  | Some d =>
      if negb (uempty d) && forallb is_adigit d then
        if (int_max_str_digits <? N.of_nat (length d))%N then Err EValueError
        else Ok (if neg then (- digits_val d)%Z else digits_val d)
      else Err EValueError
  | None => Err EValueError
  end.

(** Decimal digits of a non-negative integer, without leading zeros ("0" for 0). *)
Fixpoint digits_aux (fuel : nat) (n : Z) (acc : ustr) : ustr :=
  match fuel with
  | O => acc
  | S f =>
      let acc := (48 + Z.to_N (n mod 10))%N :: acc in
      if (n <? 10)%Z then acc else digits_aux f (n / 10)%Z acc
  end.

Definition digits_of (n : Z) : ustr := digits_aux (S (Z.to_nat (Z.log2 n))) n [].

(** [str(z)] *)
Definition str_of_int (z : Z) : res ustr :=
  let d := digits_of (Z.abs z) in
  if (int_max_str_digits <? N.of_nat (length d))%N then Err EValueError
  else Ok (if (z <? 0)%Z then 45%N :: d else d).
