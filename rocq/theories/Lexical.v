(** * Lexical forms of XML Schema simple types (specification vocabulary). *)
From Coq Require Import String List NArith ZArith Bool.
From Verif Require Import Ustr Elem PyInt PyFloat PyDate Value Spec Schema SchemaTables.
Import ListNotations.
Local Open Scope Z_scope.

Definition digits (s : ustr) : Prop := forallb is_adigit s = true.
(** Text of digits, and the number it denotes. *)
Definition denotes (s : ustr) (z : Z) : Prop := s <> [] /\ digits s /\ digits_val s = z.
(** The same with a fixed number of digits. *)
Definition denotes_in (n : nat) (s : ustr) (z : Z) : Prop := length s = n /\ denotes s z.

Definition sign (s : ustr) : Prop := s = [] \/ s = u "+" \/ s = u "-".

(** xs:boolean *)
Definition is_boolean (s : ustr) : Prop := In s [u "true"; u "false"; u "1"; u "0"].

(** xs:int *)
Definition is_int (s : ustr) : Prop :=
  exists sg d z, sign sg /\ denotes d z /\ s = sg ++ d /\
    -2147483648 <= (if ueqb sg (u "-") then - z else z) <= 2147483647.

(** xs:double *)
Definition mantissa (s : ustr) : Prop :=
  (s <> [] /\ digits s) \/ exists a b, s = a ++ u "." ++ b /\ digits a /\ digits b /\ a ++ b <> [].
Definition exponent (s : ustr) : Prop :=
  s = [] \/ exists e sg d, (e = u "e" \/ e = u "E") /\ sign sg /\ d <> [] /\ digits d /\ s = e ++ sg ++ d.
Definition is_double (s : ustr) : Prop :=
  In s [u "INF"; u "-INF"; u "NaN"] \/
  exists sg m ex, sign sg /\ mantissa m /\ exponent ex /\ s = sg ++ m ++ ex.

(** Dates of the common era; 24:00:00 is left out. *)
Definition leap_year (y : Z) : bool := (y mod 400 =? 0) || (y mod 4 =? 0) && negb (y mod 100 =? 0).
Definition month_length (y m : Z) : Z :=
  nth (Z.to_nat (m - 1)) [31; if leap_year y then 29 else 28; 31; 30; 31; 30; 31; 31; 30; 31; 30; 31] 0.

Definition year_text (s : ustr) (y : Z) : Prop :=
  denotes s y /\ 0 < y /\ (4 <= length s)%nat /\ ((4 < length s)%nat -> hd 0%N s <> 48%N).
Definition month_text (s : ustr) (m : Z) : Prop := denotes_in 2 s m /\ 1 <= m <= 12.
Definition day_text (s : ustr) (y m : Z) : Prop := exists d, denotes_in 2 s d /\ 1 <= d <= month_length y m.
Definition sixty (s : ustr) : Prop := exists x, denotes_in 2 s x /\ 0 <= x < 60.
Definition zone (s : ustr) : Prop :=
  s = [] \/ s = u "Z" \/ exists sg h hz m, (sg = u "+" \/ sg = u "-") /\ denotes_in 2 h hz /\ sixty m /\
    (hz < 14 \/ hz = 14 /\ m = u "00") /\ s = sg ++ h ++ u ":" ++ m.
Definition time_text (s : ustr) : Prop :=
  exists h hz m sec fr, denotes_in 2 h hz /\ 0 <= hz < 24 /\ sixty m /\ sixty sec /\
    (fr = [] \/ exists d, d <> [] /\ digits d /\ fr = u "." ++ d) /\
    s = h ++ u ":" ++ m ++ u ":" ++ sec ++ fr.

Definition date_text (s : ustr) : Prop :=
  exists y yz m mz d, year_text y yz /\ month_text m mz /\ day_text d yz mz /\ s = y ++ u "-" ++ m ++ u "-" ++ d.

Definition is_gyear (s : ustr) : Prop := exists y yz z, year_text y yz /\ zone z /\ s = y ++ z.
Definition is_gyearmonth (s : ustr) : Prop := exists y yz m mz z, year_text y yz /\ month_text m mz /\ zone z /\ s = y ++ u "-" ++ m ++ z.
Definition is_date (s : ustr) : Prop := exists d z, date_text d /\ zone z /\ s = d ++ z.
Definition is_date_time (s : ustr) : Prop := exists d t z, date_text d /\ time_text t /\ zone z /\ s = d ++ u "T" ++ t ++ z.
(** kml:dateTimeType, ogckml22.xsd:102-104 *)
Definition is_kml_date (s : ustr) : Prop := is_date_time s \/ is_date s \/ is_gyearmonth s \/ is_gyear s.

Local Open Scope string_scope.

(** xs:double and its restrictions (ranges are not looked at). *)
Definition double_types : list sname :=
  [("xs", "double"); ("kml", "angle90Type"); ("kml", "angle180Type"); ("kml", "angle360Type"); ("kml", "anglepos90Type"); ("kml", "anglepos180Type")].
Definition sname_eqb (a b : sname) : bool := String.eqb (fst a) (fst b) && String.eqb (snd a) (snd b).
Definition enum_type (st : sname) : option (list string) :=
  match find (fun x => sname_eqb (fst x) st) schema_enums with Some x => Some (snd x) | None => None end.

(** The text is in the lexical space of the type.  Types of free text
    (strings, addresses, identifiers, colours) are not looked at. *)
Definition well_written (st : sname) (s : ustr) : Prop :=
  if sname_eqb st ("xs", "boolean") then is_boolean s
  else if sname_eqb st ("xs", "int") then is_int s
  else if existsb (sname_eqb st) double_types then is_double s
  else if sname_eqb st ("kml", "dateTimeType") then is_kml_date s
  else match enum_type st with Some l => In s (map u l) | None => True end.

Section Tree.
  Variable P : sname -> ustr -> Prop.
  Variable uris : list (string * string).
  Variable types : list (string * decl).
  Variable elements : list (sname * string).

  (** All texts and attributes of the element and the elements inside it,
      as far as the schema has a type for them, are as [P] says. *)
  Fixpoint values_ok (ty : string) (e : elem) : Prop :=
    match e with
    | Elem _ a x ks =>
        match find (fun p => String.eqb (fst p) ty) types with
        | None => True
        | Some (_, d) =>
            match d_text d with Some st => P st (match x with Some t => t | None => [] end) | None => True end /\
            (forall k v y, In (k, v) a -> In y (d_attrs d) -> k = u (fst (fst y)) -> P (snd y) v) /\
            (fix every ks := match ks with
                             | [] => True
                             | k :: ks' => match kid_type uris elements d (e_tag k) with
                                           | Some ty' => values_ok ty' k
                                           | None => True
                                           end /\ every ks'
                             end) ks
        end
    end.

  Definition document_values_ok (e : elem) : Prop := match lookup uris (e_tag e) elements with Some ty => values_ok ty e | None => True end.
End Tree.

(** In the schema kml22gx.xsd. *)
Definition values_valid (e : elem) : Prop := document_values_ok well_written schema_uris schema_types schema_elements e.

(** The types the schema has for the texts and attributes of a document. *)
Fixpoint typed_texts (ty : string) (e : elem) : list (sname * ustr) :=
  match e with
  | Elem _ a x ks =>
      match find (fun p => String.eqb (fst p) ty) schema_types with
      | None => []
      | Some (_, d) =>
          (match d_text d with Some st => [(st, match x with Some t => t | None => [] end)] | None => [] end ++
          flat_map (fun kv => flat_map (fun y => if ueqb (fst kv) (u (fst (fst y))) then [(snd y, snd kv)] else []) (d_attrs d)) a ++
          (fix every ks := match ks with
                           | [] => []
                           | k :: ks' => (match kid_type schema_uris schema_elements d (e_tag k) with Some ty' => typed_texts ty' k | None => [] end ++ every ks')%list
                           end) ks)%list
      end
  end.
Definition document_texts (e : elem) : list (sname * ustr) :=
  match lookup schema_uris (e_tag e) schema_elements with Some ty => typed_texts ty e | None => [] end.

(** ** Values that XML Schema has a form for *)

(** - integers of 32 bits,
    - floats that are neither infinite nor NaN,
    - years of four digits where the day is not given,
    - offsets of whole minutes, at most 14 hours. *)
Definition plain_date (k : kmldt) : bool :=
  match k_res k, k_dt k with
  | (RYear | RYearMonth), d => (1000 <=? dy (date_of d))%Z
  | RDateTime, PDateTime t => match off t with Some o => (o mod 60 =? 0)%Z && (Z.abs o <=? 50400)%Z | None => true end
  | _, _ => true
  end.
Definition plain_num (n : num) : bool :=
  match n with
  | NInt z => (-2147483648 <=? z)%Z && (z <=? 2147483647)%Z
  | NFloat f => match f with FFin _ _ _ => true | _ => false end
  end.
Definition plain_value (x : value) : bool :=
  match x with
  | VNum n => plain_num n
  | VDate k => plain_date k
  | VDates l => forallb (fun o => match o with Some k => plain_date k | None => true end) l
  | VItems l => forallb (fun i => match ti_when i with Some k => plain_date k | None => true end) l
  | _ => true
  end.
Definition plain_values (v : value) : bool := vall (fun _ _ _ attrs => forallb (fun av => plain_value (snd av)) attrs) v.
