(** * Objects as XML text and as files.

    [to_string], [from_string], [KML.write] and [KML.parse] with the XML module
    of Xml.v.  An XML text that is refused ([ParseError]) is [None]; the
    exceptions of the library are those of Res.v. *)
From Coq Require Import String List NArith ZArith Bool.
From Verif Require Import Ustr Res Elem Value Codec Xml.
Import ListNotations.
Local Open Scope N_scope.

(** base.py:185-230 [to_string].  ElementTree's [tostring] knows no argument
    [pretty_print]: the second branch is taken.  [known] are the registered
    prefixes. *)
Definition to_string (W : world) (known : prefixes_t) (prec : option nat) (vb : verbosity) (v : value) : res ustr :=
  let! e := etree W prec vb v in tostring known e.

(** base.py:413-452 [from_string] on text, with one of the XML libraries. *)
Definition from_text (W : world) (lib : xml_library) (strict : bool) (c : string) (ns : option ustr) (nss : nss_t) (s : ustr) : option (res value) :=
  match fromstring lib s with Some e => Some (from_string W strict c ns nss e) | None => None end.

(** ** UTF-8 (RFC 3629) *)

(** [str.encode("UTF-8")]: surrogates cannot be encoded. *)
Definition utf8_char (c : N) : option (list N) :=
  if c <? 128 then Some [c]
  else if c <? 2048 then Some [192 + c / 64; 128 + c mod 64]
  else if (55296 <=? c) && (c <=? 57343) then None
  else if c <? 65536 then Some [224 + c / 4096; 128 + c / 64 mod 64; 128 + c mod 64]
  else if c <? 1114112 then Some [240 + c / 262144; 128 + c / 4096 mod 64; 128 + c / 64 mod 64; 128 + c mod 64]
  else None.
Fixpoint utf8 (s : ustr) : option (list N) :=
  match s with
  | [] => Some []
  | c :: s' => match utf8_char c, utf8 s' with Some b, Some r => Some (b ++ r) | _, _ => None end
  end.

(** A continuation byte: its six bits. *)
Definition cont (b : N) : option N := if (128 <=? b) && (b <? 192) then Some (b - 128) else None.
(** [n] continuation bytes after the bits [acc]. *)
Fixpoint conts (n : nat) (acc : N) (s : list N) : option (N * list N) :=
  match n with
  | O => Some (acc, s)
  | S n' => match s with
            | b :: s' => match cont b with Some x => conts n' (acc * 64 + x) s' | None => None end
            | [] => None
            end
  end.
(** The length after the first byte and its bits. *)
Definition lead (b : N) : option (nat * N) :=
  if b <? 128 then Some (0%nat, b)
  else if b <? 192 then None
  else if b <? 224 then Some (1%nat, b - 192)
  else if b <? 240 then Some (2%nat, b - 224)
  else if b <? 248 then Some (3%nat, b - 240)
  else None.
(** One character; the encoding must be the shortest one. *)
Definition utf8_next (s : list N) : option (N * list N) :=
  match s with
  | [] => None
  | b :: s' =>
      match lead b with
      | Some (n, x) =>
          match conts n x s' with
          | Some (c, r) => match utf8_char c with
                           | Some l => if Nat.eqb (length l) (S n) then Some (c, r) else None
                           | None => None
                           end
          | None => None
          end
      | None => None
      end
  end.
Fixpoint utf8_decode (fuel : nat) (s : list N) : option ustr :=
  match s, fuel with
  | [], _ => Some []
  | _, O => None
  | _, S f => match utf8_next s with
              | Some (c, r) => match utf8_decode f r with Some t => Some (c :: t) | None => None end
              | None => None
              end
  end.

(** ** Files *)

(** A file: bytes, or a zip archive with its members. *)
Inductive file := Plain (bytes : list N) | Zip (members : list (string * list N)).

(** kml.py:253-298 [KML.write]: the extension [kmz] makes a zip archive with
    one member.  [None]: [UnicodeEncodeError]. *)
Definition kml_write (W : world) (known : prefixes_t) (kmz : bool) (prec : option nat) (vb : verbosity) (v : value) : res (option file) :=
  let! s := to_string W known prec vb v in
  Ok (match utf8 s with
      | Some b => Some (if kmz then Zip [("doc.kml"%string, b)] else Plain b)
      | None => None
      end).

(** [etree.parse(file).getroot()] of bytes, with or without byte order mark, in
    UTF-8; other encodings that may be declared are not modelled. *)
Definition utf8_name (e : option ustr) : bool :=
  match e with
  | Some n => ueqb (map (fun c => if in_range c (97, 122) then c - 32 else c) n) (u "UTF-8")
  | None => true
  end.
Definition parse_bytes (lib : xml_library) (b : list N) : option elem :=
  let b := match after [239; 187; 191] b with Some r => r | None => b end in
  match utf8_decode (length b) b with Some s => parse_document lib utf8_name s | None => None end.

(** kml.py:207-249 [KML.parse] without validation.  ElementTree's [XMLParser]
    has no option [recover]: [lxml_parse_and_validate] (kml.py:73-108) raises
    [TypeError], and the file is parsed without options.  lxml repairs what is
    not well-formed; here it is [None] as well.  An archive is no XML. *)
Definition kml_parse_file (W : world) (lib : xml_library) (strict : bool) (c : string) (ns : option ustr) (nss : nss_t) (f : file) : option (res value) :=
  match f with
  | Plain b => match parse_bytes lib b with Some e => Some (kml_parse W strict c ns nss e) | None => None end
  | Zip _ => None
  end.
