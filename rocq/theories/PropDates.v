(** * Properties of KmlDateTime: C09, C10, C11. *)
From Coq Require Import String List NArith ZArith Bool.
From Verif Require Import Ustr Res PyInt PyDate PyDateProofs DateForms DateThms.
Import ListNotations.
Local Open Scope Z_scope.

(** ** C09

    Full statement: for every [KmlDateTime] built by the constructor (times.py
    131-160) that is a year, a year-month, a date or an aware date-time,
    [parse(str(k)) == k] with the same resolution.  Proved for years from 1000
    on (short forms) and offsets of whole minutes; the rest is refuted below. *)
Theorem C09_text_roundtrip_partial :
  forall oracle k, kdt_readable k = true -> kdt_parse oracle (kdt_str k) = Ok k.
Proof. exact kdt_roundtrip. Qed.
Print Assumptions C09_text_roundtrip_partial.

(** A year before 1000 is printed without leading zeros and is not read again. *)
Theorem C09_text_roundtrip_refuted :
  exists k, kdt_normal k = true /\ k_res k = RYear /\
    forall oracle, (forall s, oracle s = None) -> kdt_parse oracle (kdt_str k) = Err EValueError.
Proof. exists old_year. split; [reflexivity|]. split; [reflexivity|exact old_year_lost]. Qed.
Print Assumptions C09_text_roundtrip_refuted.

Example C09_example :
  let t := mkDT (mkDate 2024 2 29) 23 59 58 120000 (Some (-19800)) in
  kdt_readable (mkKdt (PDateTime t) RDateTime) = true /\
  kdt_str (mkKdt (PDateTime t) RDateTime) = u "2024-02-29T23:59:58.120000-05:30" /\
  kdt_readable (mkKdt (PDate (mkDate 1997 7 1)) RYearMonth) = true.
Proof. vm_compute. repeat split; reflexivity. Qed.

(** ** C10 *)

(** For every date or datetime and every (optional) resolution: the stored
    value keeps nothing finer than the stored resolution, the resolution is the
    requested one (a date cannot have resolution dateTime), and constructing
    again from the stored parts changes nothing. *)
Theorem C10_normalisation :
  forall p r,
  let k := kml_datetime p r in
  match k_res k with
  | RYear => k_dt k = PDate (mkDate (dy (date_of p)) 1 1)
  | RYearMonth => k_dt k = PDate (mkDate (dy (date_of p)) (dm (date_of p)) 1)
  | RDate => k_dt k = PDate (date_of p)
  | RDateTime => k_dt k = p /\ is_datetime p = true
  end /\
  k_res k = match r with
            | Some RDateTime | None => if is_datetime p then RDateTime else RDate
            | Some x => x
            end /\
  kml_datetime (k_dt k) (Some (k_res k)) = k /\
  (match r with None => kml_datetime (k_dt k) None = k | _ => True end).
Proof. exact kml_datetime_spec. Qed.
Print Assumptions C10_normalisation.

(** Calendar validity is preserved. *)
Theorem C10_valid :
  forall p r, valid_pydate p = true -> valid_pydate (k_dt (kml_datetime p r)) = true.
Proof. exact kml_datetime_valid. Qed.
Print Assumptions C10_valid.

Example C10_example :
  kml_datetime (PDateTime (mkDT (mkDate 2024 2 29) 1 2 3 4 (Some 0))) (Some RYearMonth) =
    mkKdt (PDate (mkDate 2024 2 1)) RYearMonth /\
  kml_datetime (PDate (mkDate 2024 2 29)) (Some RDateTime) = mkKdt (PDate (mkDate 2024 2 29)) RDate.
Proof. split; reflexivity. Qed.

(** ** C11 *)

(** Forms that are read: [YYYY], [YYYY-MM] / [YYYYMM], [YYYY-MM-DD] /
    [YYYYMMDD] (each dash may be left out, a final newline is tolerated).  The
    result is exactly the date written, or a [ValueError] when there is no such
    day. *)
Theorem C11_year :
  forall oracle y yz d1 nl, digits_text 4 y yz -> dash d1 -> newline nl ->
  kdt_parse oracle (y ++ d1 ++ nl) = date_or_error yz 1 1 RYear.
Proof. exact read_year. Qed.
Print Assumptions C11_year.

Theorem C11_year_month :
  forall oracle y yz d1 m mz d2 nl,
  digits_text 4 y yz -> dash d1 -> digits_text 2 m mz -> dash d2 -> newline nl ->
  kdt_parse oracle (y ++ d1 ++ m ++ d2 ++ nl) = date_or_error yz mz 1 RYearMonth.
Proof. exact read_month. Qed.
Print Assumptions C11_year_month.

Theorem C11_date :
  forall oracle y yz d1 m mz d2 d dz nl,
  digits_text 4 y yz -> dash d1 -> digits_text 2 m mz -> dash d2 -> digits_text 2 d dz -> newline nl ->
  kdt_parse oracle (y ++ d1 ++ m ++ d2 ++ d ++ nl) = date_or_error yz mz dz RDate.
Proof. exact read_day. Qed.
Print Assumptions C11_date.

(** Nothing else is read as a year, a year-month or a date: the resolution
    tells the form of the text.  The only text with a day but no month is
    [YYYY--DD], and it is read as a year. *)
Theorem C11_classification :
  forall oracle s k, kdt_parse oracle s = Ok k ->
  match k_res k with
  | RYear => exists y yz d1 d2 d nl,
      digits_text 4 y yz /\ dash d1 /\ dash d2 /\ newline nl /\ s = y ++ d1 ++ d2 ++ d ++ nl /\
      (d = [] \/ (d1 = u "-" /\ d2 = u "-" /\ exists dz, digits_text 2 d dz)) /\
      k_dt k = PDate (mkDate yz 1 1) /\ 1 <= yz
  | RYearMonth => exists y yz d1 m mz d2 nl,
      digits_text 4 y yz /\ dash d1 /\ digits_text 2 m mz /\ dash d2 /\ newline nl /\
      s = y ++ d1 ++ m ++ d2 ++ nl /\
      k_dt k = PDate (mkDate yz mz 1) /\ 1 <= yz /\ 1 <= mz <= 12
  | RDate => exists y yz d1 m mz d2 d dz nl,
      digits_text 4 y yz /\ dash d1 /\ digits_text 2 m mz /\ dash d2 /\ digits_text 2 d dz /\ newline nl /\
      s = y ++ d1 ++ m ++ d2 ++ d ++ nl /\
      k_dt k = PDate (mkDate yz mz dz) /\ valid_date (mkDate yz mz dz) = true
  | RDateTime => ymd_match s = None /\ exists t, k_dt k = PDateTime t /\ arrow_get oracle s = Ok t
  end.
Proof. exact read_classified. Qed.
Print Assumptions C11_classification.

(** The only failure is [ValueError]. *)
Theorem C11_errors :
  forall oracle s e, kdt_parse oracle s = Err e -> e = EValueError.
Proof. exact kdt_parse_err. Qed.
Print Assumptions C11_errors.

Example C11_example :
  digits_text 4 (u "2023") 2023 /\
  kdt_parse (fun _ => None) (u "2023-02-29") = Err EValueError /\
  kdt_parse (fun _ => None) (u "2024-02-29") = Ok (mkKdt (PDate (mkDate 2024 2 29)) RDate) /\
  kdt_parse (fun _ => None) (u "202413") = Err EValueError /\
  kdt_parse (fun _ => None) (u "2000--15") = Ok (mkKdt (PDate (mkDate 2000 1 1)) RYear).
Proof. vm_compute. repeat split; reflexivity. Qed.
