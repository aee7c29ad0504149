(** * What a text of digits says, and the double nearest to it.

    Vocabulary of C59.  Nothing here mentions the readers [int_of_str] and
    [float_of_str] of PyInt.v and PyFloat.v: numbers are described by the way
    their texts are composed, and rounding by distances between numbers. *)
From Coq Require Import String List NArith ZArith Bool.
From Verif Require Import Ustr PyFloat.
Import ListNotations.
Local Open Scope Z_scope.

(** White space as in C: tab, line feed, vertical tab, form feed, carriage
    return, blank. *)
Definition blank (s : ustr) : Prop := Forall (fun c => (9 <= c <= 13 \/ c = 32)%N) s.

(** Decimal digits and the number they say. *)
Inductive says : ustr -> Z -> Prop :=
| says_nothing : says [] 0
| says_more s n d : says s n -> (d <= 9)%N -> says (s ++ [48 + d]%N) (10 * n + Z.of_N d).

(** A sign that may be absent. *)
Inductive signed : ustr -> bool -> Prop :=
| no_sign : signed [] false
| plus_sign : signed [43%N] false
| minus_sign : signed [45%N] true.

(** [e12], [E-3], or nothing. *)
Inductive power : ustr -> Z -> Prop :=
| no_power : power [] 0
| some_power c sg neg ds n :
    c = 101%N \/ c = 69%N -> signed sg neg -> ds <> [] -> says ds n ->
    power (c :: sg ++ ds) (if neg then - n else n).

(** [integer_text s neg n]: the text [s] is a sign and at least one digit
    between blanks; it says [n] with that sign. *)
Inductive integer_text : ustr -> bool -> Z -> nat -> Prop :=
| an_integer w sg neg ds n w' :
    blank w -> signed sg neg -> ds <> [] -> says ds n -> blank w' ->
    integer_text (w ++ sg ++ ds ++ w') neg n (length ds).

(** [decimal_text s neg D t]: the text [s] is a decimal number between blanks
    and says [D * 10^t], negated if [neg]: [12], [-1.5], [.5], [5.], [1e3]. *)
Inductive decimal_text : ustr -> bool -> Z -> Z -> Prop :=
| a_whole w sg neg ds D x e w' :
    blank w -> signed sg neg -> ds <> [] -> says ds D -> power x e -> blank w' ->
    decimal_text (w ++ sg ++ ds ++ x ++ w') neg D e
| a_fraction w sg neg d1 d2 D x e w' :
    blank w -> signed sg neg -> d1 ++ d2 <> [] -> says (d1 ++ d2) D -> power x e -> blank w' ->
    decimal_text (w ++ sg ++ d1 ++ 46%N :: d2 ++ x ++ w') neg D (e - Z.of_nat (length d2)).

(** The texts of [inf], [infinity] and [nan], in any mixture of cases. *)
Definition same_letter (a b : N) : Prop :=
  (a = b \/ (97 <= b <= 122)%N /\ (a = b - 32)%N).
Definition spells (s : ustr) (w : string) : Prop := Forall2 same_letter s (u w).

Inductive special_text : ustr -> pyfloat -> Prop :=
| an_infinity w sg neg r w' :
    blank w -> signed sg neg -> spells r "inf" \/ spells r "infinity" -> blank w' ->
    special_text (w ++ sg ++ r ++ w') (FInf neg)
| not_a_number w sg neg r w' :
    blank w -> signed sg neg -> spells r "nan" -> blank w' ->
    special_text (w ++ sg ++ r ++ w') FNan.

(** ** Distances

    [D * 10^t] and [m * 2^E / 2^1074] brought to one denominator: their
    difference in units of [1 / (2^1074 * 10^max(0,-t))]. *)
Definition tens (t : Z) : Z := 10 ^ Z.max 0 t.
Definition distance (D t m E : Z) : Z :=
  Z.abs (D * tens t * 2 ^ 1074 - m * 2 ^ E * tens (- t)).

(** Significands and exponents of the finite doubles (IEEE 754 binary64). *)
Definition is_double (m E : Z) : Prop :=
  0 <= m < 2 ^ 53 /\ 0 <= E <= 2045 /\ (2 ^ 52 <= m \/ E = 0).

(** [D * 10^t] is at least the largest double plus half the distance to the
    next power of two: [(2^53 - 1/2) * 2^971]. *)
Definition too_large (D t : Z) : Prop :=
  (2 ^ 54 - 1) * 2 ^ 970 * tens (- t) <= D * tens t.

(** The double for [D * 10^t]: none is nearer, and of two equally near ones the
    one with the even significand is taken; infinity if it is too large. *)
Inductive nearest (neg : bool) (D t : Z) : pyfloat -> Prop :=
| near m E :
    is_double m E -> ~ too_large D t ->
    (forall m' E', is_double m' E' ->
       distance D t m E <= distance D t m' E' /\
       (distance D t m E = distance D t m' E' -> (m', E') = (m, E) \/ Z.even m = true)) ->
    nearest neg D t (FFin neg m E)
| beyond : too_large D t -> nearest neg D t (FInf neg).
