(** * Python [str] values as lists of code points.

    Models the CPython string operations that fastkml calls: [strip], [split],
    [lower], [in], [re.sub(r", +", ",", s)], string concatenation.  A [str] is
    the list of its code points ([N]).  The calls are in helpers.py:98-100,
    677-710, geometry.py:201-206, enums.py:73-91. *)

From Coq Require Import String Ascii List NArith ZArith Bool.
Import ListNotations.
Local Open Scope N_scope.

Definition ustr := list N.

(** String literals of the source (all of them are ASCII). *)
Fixpoint u (s : string) : ustr :=
  match s with
  | EmptyString => []
  | String c s' => N_of_ascii c :: u s'
  end.
Arguments u s%string_scope.

Fixpoint ueqb (a b : ustr) : bool :=
  match a, b with
  | [], [] => true
  | x :: a', y :: b' => N.eqb x y && ueqb a' b'
  | _, _ => false
  end.

(** [str.isspace] for one code point (Unicode 14 / CPython 3.11), the set used
    by [str.strip()] and [str.split()]. *)
Definition is_space (c : N) : bool :=
  ((9 <=? c) && (c <=? 13)) || ((28 <=? c) && (c <=? 32)) || (c =? 133) ||
  (c =? 160) || (c =? 5760) || ((8192 <=? c) && (c <=? 8202)) || (c =? 8232) ||
  (c =? 8233) || (c =? 8239) || (c =? 8287) || (c =? 12288).

(** Code points of the decimal digits zero (category Nd, Unicode 14); each is
    followed by the digits one to nine. *)
Definition nd_zeros : list N :=
  [48; 1632; 1776; 1984; 2406; 2534; 2662; 2790; 2918; 3046; 3174; 3302; 3430;
   3558; 3664; 3792; 3872; 4160; 4240; 6112; 6160; 6470; 6608; 6784; 6800; 6992;
   7088; 7232; 7248; 42528; 43216; 43264; 43472; 43504; 43600; 44016; 65296;
   66720; 68912; 69734; 69872; 69942; 70096; 70384; 70736; 70864; 71248; 71360;
   71472; 71904; 72016; 72784; 73040; 73120; 92768; 92864; 93008; 120782; 120792;
   120802; 120812; 120822; 123200; 123632; 125264; 130032].

(** [unicodedata.decimal(chr(c))], used by [int], [float] and the regular
    expression class [\d]. *)
Definition dec_digit (c : N) : option N :=
  match find (fun z => (z <=? c) && (c <? z + 10)) nd_zeros with
  | Some z => Some (c - z)
  | None => None
  end.

Fixpoint lstrip (s : ustr) : ustr :=
  match s with
  | [] => []
  | c :: s' => if is_space c then lstrip s' else s
  end.

Definition rstrip (s : ustr) : ustr := rev (lstrip (rev s)).

(** [s.strip()] *)
Definition strip (s : ustr) : ustr := rstrip (lstrip s).

(** [s.split()]: maximal runs of non white space. *)
Fixpoint words (s : ustr) : list ustr :=
  match s with
  | [] => []
  | c :: s' =>
      if is_space c then words s'
      else match s' with
           | [] => [[c]]
           | c' :: _ =>
               if is_space c' then [c] :: words s'
               else match words s' with
                    | w :: ws => (c :: w) :: ws
                    | [] => [[c]]
                    end
           end
  end.

(** [s.split(sep)] for a one character separator: always non-empty. *)
Fixpoint split_on (sep : N) (s : ustr) : list ustr :=
  match s with
  | [] => [[]]
  | c :: s' =>
      if c =? sep then [] :: split_on sep s'
      else match split_on sep s' with
           | w :: ws => (c :: w) :: ws
           | [] => [[c]]
           end
  end.

(** [re.sub(r", +", ",", s)]: spaces directly after a comma are removed. The
    flag says whether the last kept character was a comma. *)
Fixpoint sub_comma (after : bool) (s : ustr) : ustr :=
  match s with
  | [] => []
  | c :: s' =>
      if (c =? 32) && after then sub_comma true s'
      else c :: sub_comma (c =? 44) s'
  end.

(** [sep.join(l)] *)
Fixpoint join (sep : ustr) (l : list ustr) : ustr :=
  match l with
  | [] => []
  | [x] => x
  | x :: l' => x ++ sep ++ join sep l'
  end.

(** [str.lower] on one code point.  Simplification: non-ASCII letters other
    than U+212A KELVIN SIGN are left alone.  Results of [lower] are only ever
    compared with ASCII literals (enums.py:85-88, helpers.py:745-755), and
    U+212A is the only non-ASCII code point whose lower case is ASCII. *)
Definition lower_cp (c : N) : N :=
  if (65 <=? c) && (c <=? 90) then c + 32
  else if c =? 8490 then 107 else c.

Definition lower (s : ustr) : ustr := map lower_cp s.

Definition uempty (s : ustr) : bool := match s with [] => true | _ => false end.

(** [s.endswith(t)] *)
Definition ends_with (s t : ustr) : bool :=
  (Nat.leb (List.length t) (List.length s)) &&
  ueqb (skipn (List.length s - List.length t) s) t.

(** Position of the first occurrence of a character: [s.split(c, 1)]. *)
Fixpoint cut (c : N) (s : ustr) : option (ustr * ustr) :=
  match s with
  | [] => None
  | x :: s' =>
      if x =? c then Some ([], s')
      else match cut c s' with
           | Some (a, b) => Some (x :: a, b)
           | None => None
           end
  end.
