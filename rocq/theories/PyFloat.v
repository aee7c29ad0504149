(** * IEEE binary64, [float(text)], [repr(float)] and [format(x, ".pf")].

    CPython: Objects/floatobject.c, Python/pystrtod.c, Python/dtoa.c.  Called
    from helpers.py:416-449, 540-566, 745-755, 890-982, 1161-1181 and
    geometry.py:137-225.

    Every finite double is an integer multiple of 2^-1074; a finite double is
    represented by sign, significand [m] and biased exponent [E], its value being
    +-(m * 2^E) / 2^1074. *)
From Coq Require Import String List NArith ZArith Bool.
From Verif Require Import Ustr Res PyInt.
Import ListNotations.
Local Open Scope Z_scope.

Inductive pyfloat : Type :=
| FNan
| FInf (neg : bool)
| FFin (neg : bool) (m E : Z).

(** 53 bit significand, normalised unless subnormal; largest exponent 2045. *)
Definition fvalid (f : pyfloat) : bool :=
  match f with
  | FFin _ m E =>
      (0 <=? m) && (m <? 2^53) && (0 <=? E) && (E <=? 2045) &&
      ((2^52 <=? m) || (E =? 0))
  | _ => true
  end.

Definition two1074 : Z := 2^1074.

(** Magnitude in units of 2^-1074. *)
Definition fmag (m E : Z) : Z := m * 2^E.

(** Round the quotient [n/d] ([0 <= n], [0 < d]) to the nearest integer, ties to
    even. *)
Definition rne (n d : Z) : Z :=
  let q := n / d in
  let r := n mod d in
  match (2 * r ?= d) with
  | Lt => q
  | Gt => q + 1
  | Eq => if Z.even q then q else q + 1
  end.

(** Correctly rounded (nearest, ties to even) double for the non-negative
    rational [n/d]; overflow gives infinity. *)
Definition round_ratio (neg : bool) (n d : Z) : pyfloat :=
  let n1 := n * two1074 in
  let E := Z.max 0 (Z.log2 (n1 / d) - 52) in
  let m := rne n1 (d * 2^E) in
  let '(m, E) := if m =? 2^53 then (2^52, E + 1) else (m, E) in
  if E <=? 2045 then FFin neg m E else FInf neg.

(** The double nearest to [+-D * 10^t]. *)
Definition round_dec (neg : bool) (D t : Z) : pyfloat :=
  if 0 <=? t then round_ratio neg (D * 10^t) 1
  else round_ratio neg D (10^(-t)).

(** ** [float(text)] *)

Fixpoint span (f : N -> bool) (s : ustr) : ustr * ustr :=
  match s with
  | [] => ([], [])
  | c :: s' => if f c then let (a, b) := span f s' in (c :: a, b) else ([], s)
  end.

(** Exponent part: nothing, or [e], optional sign, digits up to the end. *)
Definition parse_exp (s : ustr) : option Z :=
  match s with
  | [] => Some 0
  | c :: s' =>
      if ((c =? 101) || (c =? 69))%N then
        let (neg, d) := take_sign s' in
        if negb (uempty d) && forallb is_adigit d
        then Some (if neg then - digits_val d else digits_val d)
        else None
      else None
  end.

(** Decimal number without sign: integer part, fraction, exponent. *)
Definition parse_dec (neg : bool) (s : ustr) : option pyfloat :=
  let (d1, r1) := span is_adigit s in
  let (d2, r2) :=
    match r1 with
    | c :: r => if (c =? 46)%N then span is_adigit r else ([], r1)
    | [] => ([], [])
    end in
  if uempty (d1 ++ d2) then None
  else match parse_exp r2 with
       | Some e => Some (round_dec neg (digits_val (d1 ++ d2)) (e - Z.of_nat (length d2)))
       | None => None
       end.

(** [float(s)]: white space, sign, underscores, [inf], [infinity], [nan], or a
    decimal number. *)
Definition float_of_str (s : ustr) : res pyfloat :=
  let s := c_strip (map to_ascii_cp s) in
  match no_underscores false s with
  | None => Err EValueError
  | Some s =>
      let (neg, r) := take_sign s in
      let l := lower r in
      if ueqb l (u "inf") || ueqb l (u "infinity") then Ok (FInf neg)
      else if ueqb l (u "nan") then Ok FNan
      else match parse_dec neg r with
           | Some f => Ok f
           | None => Err EValueError
           end
  end.

(** ** [repr(float)] *)

(** Cancel common factors of two between significand and [2^a]. *)
Fixpoint reduce2 (fuel : nat) (m a : Z) : Z * Z :=
  match fuel with
  | O => (m, a)
  | S f => if Z.even m && (0 <? a) then reduce2 f (m / 2) (a - 1) else (m, a)
  end.

(** Exact decimal expansion [X * 10^t] of the magnitude. *)
Definition exact_dec (m E : Z) : Z * Z :=
  if 1074 <=? E then (m * 2^(E - 1074), 0)
  else let '(m', a) := reduce2 60 m (1074 - E) in (m' * 5^a, - a).

(** Candidates with [n] significant digits: the nearest decimal, then its
    neighbour on the other side (needed next to powers of two, where the
    rounding interval is asymmetric). *)
Definition candidates (X t nd n : Z) : list (Z * Z) :=
  if nd <=? n then [(X, t)]
  else
    let k := nd - n in
    let q := X / 10^k in
    let r := rne X (10^k) in
    [(r, t + k); ((if r =? q then q + 1 else q), t + k)].

Definition same_fin (m E : Z) (f : pyfloat) : bool :=
  match f with
  | FFin _ m' E' => (m =? m') && (E =? E')
  | _ => false
  end.

(** Shortest decimal that reads back as the same double (dtoa mode 0). *)
Fixpoint shortest (fuel : nat) (m E X t nd n : Z) : Z * Z :=
  match fuel with
  | O => (X, t)
  | S f =>
      match find (fun '(D, s) => same_fin m E (round_dec false D s))
                 (candidates X t nd n) with
      | Some c => c
      | None => shortest f m E X t nd (n + 1)
      end
  end.

(** Remove trailing decimal zeros. *)
Fixpoint strip10 (fuel : nat) (D t : Z) : Z * Z :=
  match fuel with
  | O => (D, t)
  | S f => if (D mod 10 =? 0) && negb (D =? 0) then strip10 f (D / 10) (t + 1) else (D, t)
  end.

Definition zeros (n : Z) : ustr := repeat 48%N (Z.to_nat n).

(** Layout of [float_repr_style = 'short'] for digits [ds] and decimal point
    position [decpt] (value 0.ds * 10^decpt). *)
Definition layout (ds : ustr) (decpt : Z) : ustr :=
  let n := Z.of_nat (length ds) in
  if (decpt <=? -4) || (16 <? decpt) then
    let e := decpt - 1 in
    let ed := digits_of (Z.abs e) in
    let ed := if (length ed <? 2)%nat then 48%N :: ed else ed in
    match ds with
    | c :: (_ :: _) => c :: 46%N :: tl ds ++ 101%N :: (if e <? 0 then 45%N else 43%N) :: ed
    | _ => ds ++ 101%N :: (if e <? 0 then 45%N else 43%N) :: ed
    end
  else if decpt <=? 0 then u "0." ++ zeros (- decpt) ++ ds
  else if n <=? decpt then ds ++ zeros (decpt - n) ++ u ".0"
  else firstn (Z.to_nat decpt) ds ++ 46%N :: skipn (Z.to_nat decpt) ds.

Definition repr_mag (m E : Z) : ustr :=
  if m =? 0 then u "0.0"
  else
    let '(X, t) := exact_dec m E in
    let nd := Z.of_nat (length (digits_of X)) in
    let '(D, s) := shortest 800 m E X t nd 1 in
    let '(D, s) := strip10 800 D s in
    let ds := digits_of D in
    layout ds (Z.of_nat (length ds) + s).

(** [str(x)] / [repr(x)] *)
Definition str_of_float (f : pyfloat) : ustr :=
  match f with
  | FNan => u "nan"
  | FInf neg => if neg then u "-inf" else u "inf"
  | FFin neg m E => (if neg then [45%N] else []) ++ repr_mag m E
  end.

(** ** [format(x, ".pf")], p >= 0 *)

Definition pad_left (n : nat) (s : ustr) : ustr := repeat 48%N (n - length s) ++ s.

Definition fixed_mag (p : nat) (m E : Z) : ustr :=
  let D := rne (fmag m E * 10^(Z.of_nat p)) two1074 in
  let ds := pad_left (S p) (digits_of D) in
  let k := (length ds - p)%nat in
  match p with
  | O => ds
  | _ => firstn k ds ++ 46%N :: skipn k ds
  end.

Definition fmt_float (p : nat) (f : pyfloat) : ustr :=
  match f with
  | FNan => u "nan"
  | FInf neg => if neg then u "-inf" else u "inf"
  | FFin neg m E => (if neg then [45%N] else []) ++ fixed_mag p m E
  end.

(** The double nearest to an integer: [float(z)]. Python raises [OverflowError]
    beyond the range; the model returns infinity there (not reached: conversions
    of integers go through [str]). *)
Definition float_of_Z (z : Z) : pyfloat := round_ratio (z <? 0) (Z.abs z) 1.

(** [bool(x)]: false exactly for the two zeros. *)
Definition float_truth (f : pyfloat) : bool :=
  match f with FFin _ m _ => negb (m =? 0) | _ => true end.

(** Numeric value as a rational over 2^1074, for comparisons with [==]. *)
Definition float_num (f : pyfloat) : option Z :=
  match f with
  | FFin neg m E => Some (if neg then - fmag m E else fmag m E)
  | _ => None
  end.

(** [x == y] on floats. *)
Definition float_eq (a b : pyfloat) : bool :=
  match a, b with
  | FInf x, FInf y => Bool.eqb x y
  | FFin _ _ _, FFin _ _ _ =>
      match float_num a, float_num b with
      | Some x, Some y => x =? y
      | _, _ => false
      end
  | _, _ => false
  end.

(** [x == z] for a float and an int (exact comparison). *)
Definition float_eq_int (a : pyfloat) (z : Z) : bool :=
  match float_num a with
  | Some x => x =? z * two1074
  | None => false
  end.

Definition is_nan (f : pyfloat) : bool := match f with FNan => true | _ => false end.
