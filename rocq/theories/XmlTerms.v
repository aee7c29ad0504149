(** * Terms of XML 1.0 on which the syntax trees of XmlMarkup.v rely, said
    without the functions of the parser. *)
From Coq Require Import String List NArith Bool.
From Verif Require Import Ustr.
Import ListNotations.
Local Open Scope N_scope.

(** Production [2] *)
Definition character (c : N) : Prop :=
  c = 9 \/ c = 10 \/ c = 13 \/ (32 <= c /\ c < 55296) \/ (57344 <= c /\ c < 65534) \/ (65536 <= c /\ c < 1114112).
(** Production [3] *)
Definition white (c : N) : Prop := c = 32 \/ c = 9 \/ c = 10 \/ c = 13.

(** Section 2.11: carriage return and line feed, or a carriage return alone,
    is read as a line feed. *)
Inductive one_line_end : ustr -> ustr -> Prop :=
| ends_none : one_line_end [] []
| ends_both s t : one_line_end s t -> one_line_end (13 :: 10 :: s) (10 :: t)
| ends_return s t : hd 0 s <> 10 -> one_line_end s t -> one_line_end (13 :: s) (10 :: t)
| ends_other c s t : c <> 13 -> one_line_end s t -> one_line_end (c :: s) (c :: t).

(** Production [66] and section 4.6: what stands between [&] and [;]. *)
Definition digit (c d : N) : Prop := (d < 10 /\ c = 48 + d) \/ (10 <= d /\ d < 16 /\ (c = 87 + d \/ c = 55 + d)).
Inductive digits (base : N) : ustr -> N -> Prop :=
| digits_one c d : digit c d -> d < base -> digits base [c] d
| digits_more s n c d : digits base s n -> digit c d -> d < base -> digits base (s ++ [c]) (n * base + d).
Inductive refers : ustr -> N -> Prop :=
| refers_amp : refers (u "amp") 38
| refers_lt : refers (u "lt") 60
| refers_gt : refers (u "gt") 62
| refers_quot : refers (u "quot") 34
| refers_apos : refers (u "apos") 39
| refers_decimal s n : digits 10 s n -> character n -> refers (u "#" ++ s) n
| refers_hexadecimal s n : digits 16 s n -> character n -> refers (u "#x" ++ s) n.

(** The names of encodings are the same in capital and small letters. *)
Definition same_letter (c d : N) : Prop := c = d \/ (65 <= d /\ d <= 90 /\ c = d + 32) \/ (65 <= c /\ c <= 90 /\ d = c + 32).
Definition called (n m : ustr) : Prop := Forall2 same_letter n m.

(** Production [26] *)
Definition version (v : ustr) : Prop := exists d ds, v = u "1." ++ d :: ds /\ Forall (fun c => 48 <= c /\ c <= 57) (d :: ds).
(** Production [81] *)
Definition letter (c : N) : Prop := (65 <= c /\ c <= 90) \/ (97 <= c /\ c <= 122).
Definition encoding_name (v : ustr) : Prop :=
  exists c r, v = c :: r /\ letter c /\ Forall (fun c => letter c \/ (48 <= c /\ c <= 57) \/ c = 46 \/ c = 95 \/ c = 45) r.
(** Productions [4], [4a] with [:]. *)
Definition name_start (c : N) : Prop :=
  c = 58 \/ c = 95 \/ letter c \/
  (192 <= c <= 214) \/ (216 <= c <= 246) \/ (248 <= c <= 767) \/ (880 <= c <= 893) \/ (895 <= c <= 8191) \/ (8204 <= c <= 8205) \/
  (8304 <= c <= 8591) \/ (11264 <= c <= 12271) \/ (12289 <= c <= 55295) \/ (63744 <= c <= 64975) \/ (65008 <= c <= 65533) \/ (65536 <= c <= 983039).
Definition in_name (c : N) : Prop :=
  name_start c \/ c = 45 \/ c = 46 \/ (48 <= c <= 57) \/ c = 183 \/ (768 <= c <= 879) \/ (8255 <= c <= 8256).
(** Production [17]: any name but [xml]; Namespaces in XML: without colon. *)
Definition target (n : ustr) : Prop :=
  exists c r, n = c :: r /\ name_start c /\ Forall in_name r /\ ~ In 58 n /\ ~ called n (u "xml").
(** Section 3.3.3 *)
Definition in_value (c d : N) : Prop := (white c /\ d = 32) \/ (~ white c /\ d = c).
(** Section 2.4 *)
Definition has (p s : ustr) : Prop := exists a b, s = a ++ p ++ b.
