(** * Calendar values and [KmlDateTime].

    Models times.py:53-213 together with the parts of CPython's [datetime] that
    it uses ([date], [datetime], [isoformat], [strftime]), and [arrow.get] on the
    ISO 8601 texts that [datetime.isoformat] prints; on every other text
    [arrow.get] is an oracle (an explicit parameter). *)
From Coq Require Import String List NArith ZArith Bool.
From Verif Require Import Ustr Res PyInt.
Import ListNotations.
Local Open Scope Z_scope.

(** [datetime.date] *)
Record date := mkDate { dy : Z; dm : Z; dd : Z }.

(** [datetime.datetime]; [off] is [utcoffset()] in seconds, [None] if naive.
    Simplification: offsets are whole seconds. *)
Record datetime := mkDT { dtd : date; hh : Z; mi : Z; ss : Z; us : Z; off : option Z }.

Inductive pydate := PDate (d : date) | PDateTime (t : datetime).

(** enums.py:103-110 *)
Inductive resolution := RDateTime | RDate | RYearMonth | RYear.

Definition resolution_eqb (a b : resolution) : bool :=
  match a, b with
  | RDateTime, RDateTime | RDate, RDate | RYearMonth, RYearMonth | RYear, RYear => true
  | _, _ => false
  end.

(** times.py:97-160: the two attributes of a [KmlDateTime]. *)
Record kmldt := mkKdt { k_dt : pydate; k_res : resolution }.

Definition is_leap (y : Z) : bool :=
  (y mod 4 =? 0) && (negb (y mod 100 =? 0) || (y mod 400 =? 0)).

Definition days_in_month (y m : Z) : Z :=
  if m =? 2 then (if is_leap y then 29 else 28)
  else if (m =? 4) || (m =? 6) || (m =? 9) || (m =? 11) then 30 else 31.

Definition valid_date (d : date) : bool :=
  (1 <=? dy d) && (dy d <=? 9999) && (1 <=? dm d) && (dm d <=? 12) &&
  (1 <=? dd d) && (dd d <=? days_in_month (dy d) (dm d)).

Definition valid_time (t : datetime) : bool :=
  valid_date (dtd t) && (0 <=? hh t) && (hh t <? 24) && (0 <=? mi t) && (mi t <? 60) &&
  (0 <=? ss t) && (ss t <? 60) && (0 <=? us t) && (us t <? 1000000) &&
  match off t with None => true | Some o => (-86400 <? o) && (o <? 86400) end.

(** What [arrow.get(text).datetime] can return: aware, whole minute offset. *)
Definition aware (t : datetime) : bool :=
  match off t with Some o => o mod 60 =? 0 | None => false end.

(** [date(y, m, d)] *)
Definition mk_date (y m d : Z) : res date :=
  let r := mkDate y m d in if valid_date r then Ok r else Err EValueError.

Definition date_of (p : pydate) : date :=
  match p with PDate d => d | PDateTime t => dtd t end.

Definition is_datetime (p : pydate) : bool :=
  match p with PDate _ => false | PDateTime _ => true end.

(** times.py:58-94 *)
Definition adjust_date_to_resolution (p : pydate) (r : option resolution) : pydate :=
  match r with
  | Some RYear => PDate (mkDate (dy (date_of p)) 1 1)
  | Some RYearMonth => PDate (mkDate (dy (date_of p)) (dm (date_of p)) 1)
  | Some RDateTime => p
  | Some RDate | None => PDate (date_of p)
  end.

(** times.py:131-160 *)
Definition kml_datetime (p : pydate) (r : option resolution) : kmldt :=
  let r' := match r with
            | None => if is_datetime p then RDateTime else RDate
            | Some x => x
            end in
  let p' := adjust_date_to_resolution p (Some r') in
  mkKdt p' (if negb (is_datetime p') && resolution_eqb r' RDateTime then RDate else r').

(** Zero padded decimal, ["%0nd"]. *)
Definition pad (n : nat) (z : Z) : ustr :=
  let ds := digits_of z in repeat 48%N (n - List.length ds) ++ ds.

(** [date.isoformat] *)
Definition date_iso (d : date) : ustr :=
  pad 4 (dy d) ++ u "-" ++ pad 2 (dm d) ++ u "-" ++ pad 2 (dd d).

(** UTC offset as printed by [isoformat]. *)
Definition off_iso (o : option Z) : ustr :=
  match o with
  | None => []
  | Some o =>
      let a := Z.abs o in
      (if o <? 0 then u "-" else u "+") ++ pad 2 (a / 3600) ++ u ":" ++
      pad 2 (a / 60 mod 60) ++
      (if a mod 60 =? 0 then [] else u ":" ++ pad 2 (a mod 60))
  end.

(** [datetime.isoformat] *)
Definition datetime_iso (t : datetime) : ustr :=
  date_iso (dtd t) ++ u "T" ++ pad 2 (hh t) ++ u ":" ++ pad 2 (mi t) ++ u ":" ++
  pad 2 (ss t) ++ (if us t =? 0 then [] else u "." ++ pad 6 (us t)) ++ off_iso (off t).

(** times.py:183-195.  [strftime("%Y")] is glibc's: no zero padding. *)
Definition kdt_str (k : kmldt) : ustr :=
  match k_res k with
  | RYear => digits_of (dy (date_of (k_dt k)))
  | RYearMonth => digits_of (dy (date_of (k_dt k))) ++ u "-" ++ pad 2 (dm (date_of (k_dt k)))
  | RDate => date_iso (date_of (k_dt k))
  | RDateTime =>
      match k_dt k with PDate d => date_iso d | PDateTime t => datetime_iso t end
  end.

(** ** The regular expression of times.py:53-55

    [^(?P<year>\d{4})(?:-)?(?P<month>\d{2})?(?:-)?(?P<day>\d{2})?$] with the
    backtracking order of [re]: greedy optional parts, left to right. *)

(** [$] matches at the end and before a final newline. *)
Definition re_end (s : ustr) : bool :=
  match s with [] => true | [c] => N.eqb c 10 | _ => false end.

Fixpoint take_digits (n : nat) (s : ustr) : option (ustr * ustr) :=
  match n with
  | O => Some ([], s)
  | S n' =>
      match s with
      | c :: s' =>
          match dec_digit c with
          | Some _ =>
              match take_digits n' s' with
              | Some (ds, r) => Some (c :: ds, r)
              | None => None
              end
          | None => None
          end
      | [] => None
      end
  end.

Definition opt_dash {X} (k : ustr -> option X) (s : ustr) : option X :=
  match s with
  | c :: s' =>
      if N.eqb c 45 then match k s' with Some r => Some r | None => k s end else k s
  | [] => k s
  end.

Definition opt_two {X} (k : option ustr -> ustr -> option X) (s : ustr) : option X :=
  match take_digits 2 s with
  | Some (ds, s') =>
      match k (Some ds) s' with Some r => Some r | None => k None s end
  | None => k None s
  end.

Definition ymd_match (s : ustr) : option (ustr * option ustr * option ustr) :=
  match take_digits 4 s with
  | None => None
  | Some (y, s1) =>
      opt_dash (opt_two (fun m =>
        opt_dash (opt_two (fun d s2 =>
          if re_end s2 then Some (y, m, d) else None)))) s1
  end.

(** [int(group or 1)] *)
Definition group_int (g : option ustr) : res Z :=
  match g with None => Ok 1 | Some ds => int_of_str ds end.

(** ** The part of [arrow.get] that reads what [isoformat] prints. *)

Fixpoint take_ascii (n : nat) (s : ustr) : option (ustr * ustr) :=
  match n with
  | O => Some ([], s)
  | S n' =>
      match s with
      | c :: s' =>
          if is_adigit c then
            match take_ascii n' s' with Some (ds, r) => Some (c :: ds, r) | None => None end
          else None
      | [] => None
      end
  end.

Definition take_num (n : nat) (s : ustr) : option (Z * ustr) :=
  match take_ascii n s with Some (ds, r) => Some (digits_val ds, r) | None => None end.

Definition take_chr (c : N) (s : ustr) : option ustr :=
  match s with x :: s' => if N.eqb x c then Some s' else None | [] => None end.

Notation "'try' x ':=' a 'in' b" := (match a with Some x => b | None => None end)
  (at level 200, x pattern, a at level 100, b at level 200).

Definition iso_off (s : ustr) : option (option Z) :=
  match s with
  | [] => Some None
  | c :: s' =>
      if N.eqb c 43 || N.eqb c 45 then
        try (h, s1) := take_num 2 s' in
        try s2 := take_chr 58 s1 in
        try (m, s3) := take_num 2 s2 in
        match s3 with
        | [] => Some (Some ((if N.eqb c 45 then -1 else 1) * (h * 3600 + m * 60)))
        | _ => None
        end
      else None
  end.

Definition iso_parse (s : ustr) : option datetime :=
  try (y, s) := take_num 4 s in try s := take_chr 45 s in
  try (m, s) := take_num 2 s in try s := take_chr 45 s in
  try (d, s) := take_num 2 s in try s := take_chr 84 s in
  try (h, s) := take_num 2 s in try s := take_chr 58 s in
  try (i, s) := take_num 2 s in try s := take_chr 58 s in
  try (c, s) := take_num 2 s in
  try (f, s) := (match take_chr 46 s with Some s' => take_num 6 s' | None => Some (0, s) end) in
  try o := iso_off s in
  Some (mkDT (mkDate y m d) h i c f o).

(** [arrow.get(s).datetime]: texts of the form printed by [isoformat] are read
    field by field, a missing offset means UTC; anything else is up to the
    oracle ([None] is arrow's [ParserError], a [ValueError]).  Whatever arrow
    returns is a valid, aware datetime. *)
Definition arrow_get (oracle : ustr -> option datetime) (s : ustr) : res datetime :=
  let r := match iso_parse s with
           | Some t => Some (mkDT (dtd t) (hh t) (mi t) (ss t) (us t)
                               (match off t with None => Some 0 | o => o end))
           | None => oracle s
           end in
  match r with
  | Some t => if valid_time t && aware t then Ok t else Err EValueError
  | None => Err EValueError
  end.

(** times.py:197-213 *)
Definition kdt_parse (oracle : ustr -> option datetime) (s : ustr) : res kmldt :=
  match ymd_match s with
  | Some (y, m, d) =>
      let! yy := int_of_str y in
      let! mm := group_int m in
      let! d' := group_int d in
      let! dt := mk_date yy mm d' in
      Ok (kml_datetime (PDate dt)
            (Some (match m with
                   | None => RYear
                   | Some _ => match d with None => RYearMonth | Some _ => RDate end
                   end)))
  | None =>
      let! t := arrow_get oracle s in
      Ok (kml_datetime (PDateTime t) (Some RDateTime))
  end.

(** ** Decidable equality (used for [==] between equal representations) *)

Definition date_eqb (a b : date) : bool :=
  (dy a =? dy b) && (dm a =? dm b) && (dd a =? dd b).

(** Days since 0000-03-01 (proleptic Gregorian), used to compare instants. *)
Definition day_number (d : date) : Z :=
  let y := if dm d <=? 2 then dy d - 1 else dy d in
  let m := if dm d <=? 2 then dm d + 9 else dm d - 3 in
  365 * y + y / 4 - y / 100 + y / 400 + (153 * m + 2) / 5 + dd d - 1.

(** Microseconds since the epoch, local clock minus offset. *)
Definition instant (t : datetime) (o : Z) : Z :=
  ((day_number (dtd t) * 86400 + hh t * 3600 + mi t * 60 + ss t) - o) * 1000000 + us t.

(** [datetime.__eq__]: naive with naive by clock, aware with aware by instant,
    naive with aware unequal. *)
Definition datetime_eq (a b : datetime) : bool :=
  match off a, off b with
  | None, None => instant a 0 =? instant b 0
  | Some x, Some y => instant a x =? instant b y
  | _, _ => false
  end.

(** [date.__eq__] / [datetime.__eq__]; a date never equals a datetime. *)
Definition pydate_eq (a b : pydate) : bool :=
  match a, b with
  | PDate x, PDate y => date_eqb x y
  | PDateTime x, PDateTime y => datetime_eq x y
  | _, _ => false
  end.

(** times.py:175-181 *)
Definition kdt_eq (a b : kmldt) : bool :=
  pydate_eq (k_dt a) (k_dt b) && resolution_eqb (k_res a) (k_res b).
