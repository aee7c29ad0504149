(** * XML text: the serialiser of ElementTree and a parser.

    fastkml leaves XML text to the module [config.etree].  This file models the
    serialiser of the standard library, [xml.etree.ElementTree] of CPython 3.11
    (the fall-back of config.py:35-41), and a namespace-aware XML parser as the
    recommendations XML 1.0 and Namespaces in XML 1.0 describe it, without
    document type declarations. *)
From Coq Require Import String List NArith ZArith Bool.
From Verif Require Import Ustr Res PyInt Elem.
Import ListNotations.
Local Open Scope N_scope.

(** ** Characters *)

Definition in_range (c : N) (r : N * N) : bool := (fst r <=? c) && (c <=? snd r).

(** XML 1.0, production [2]. *)
Definition xml_char (c : N) : bool :=
  existsb (in_range c) [(9, 10); (13, 13); (32, 55295); (57344, 65533); (65536, 1114111)].
(** Production [3]. *)
Definition xml_space (c : N) : bool := (c =? 32) || (c =? 9) || (c =? 10) || (c =? 13).
(** Productions [4] and [4a], without the colon. *)
Definition start_char (c : N) : bool :=
  existsb (in_range c)
    [(65, 90); (95, 95); (97, 122); (192, 214); (216, 246); (248, 767); (880, 893); (895, 8191); (8204, 8205);
     (8304, 8591); (11264, 12271); (12289, 55295); (63744, 64975); (65008, 65533); (65536, 983039)].
Definition name_char (c : N) : bool :=
  start_char c || existsb (in_range c) [(45, 46); (48, 57); (183, 183); (768, 879); (8255, 8256)].
(** Namespaces in XML, production [4]: a name without colon. *)
Definition ncname (s : ustr) : bool :=
  match s with [] => false | c :: s' => start_char c && forallb name_char s' end.

Fixpoint span (p : N -> bool) (s : ustr) : ustr * ustr :=
  match s with
  | [] => ([], [])
  | c :: s' => if p c then let (a, b) := span p s' in (c :: a, b) else ([], s)
  end.

(** What follows [p] in [s]. *)
Fixpoint after (p s : ustr) : option ustr :=
  match p, s with
  | [], _ => Some s
  | c :: p', c' :: s' => if c =? c' then after p' s' else None
  | _ :: _, [] => None
  end.

Fixpoint distinct (l : list ustr) : bool :=
  match l with
  | [] => true
  | k :: l' => negb (existsb (ueqb k) l') && distinct l'
  end.

(** ** Writing *)

(** ElementTree.py:1023-1037 [_escape_cdata]; the replacements are made one
    after the other, [&] first, so that each character is replaced once. *)
Definition esc_text (c : N) : ustr :=
  if c =? 38 then u "&amp;" else if c =? 60 then u "&lt;" else if c =? 62 then u "&gt;" else [c].
(** ElementTree.py:1039-1065 [_escape_attrib] *)
Definition esc_attr (c : N) : ustr :=
  if c =? 34 then u "&quot;" else if c =? 13 then u "&#13;" else if c =? 10 then u "&#10;" else if c =? 9 then u "&#09;"
  else esc_text c.

(** [qname[1:].rsplit("}", 1)] of a name in Clark notation: the name space and
    the local name; ValueError without closing brace. *)
Fixpoint rsplit_brace (s : ustr) : option (ustr * ustr) :=
  match s with
  | [] => None
  | c :: s' => match rsplit_brace s' with
               | Some (a, b) => Some (c :: a, b)
               | None => if c =? 125 then Some ([], s') else None
               end
  end.

(** The name space and the local name of a tag or attribute ([None]: no name space). *)
Definition split_name (n : ustr) : res (option ustr * ustr) :=
  match after (u "{") n with
  | Some r => match rsplit_brace r with Some (uri, l) => Ok (Some uri, l) | None => Err EValueError end
  | None => Ok (None, n)
  end.

(** A dictionary from name spaces to prefixes. *)
Definition prefixes_t : Type := list (ustr * ustr).

(** ElementTree.py:1003-1014 [_namespace_map] *)
Definition well_known : prefixes_t :=
  [(u "http://www.w3.org/XML/1998/namespace", u "xml");
   (u "http://www.w3.org/1999/xhtml", u "html");
   (u "http://www.w3.org/1999/02/22-rdf-syntax-ns#", u "rdf");
   (u "http://schemas.xmlsoap.org/wsdl/", u "wsdl");
   (u "http://www.w3.org/2001/XMLSchema", u "xs");
   (u "http://www.w3.org/2001/XMLSchema-instance", u "xsi");
   (u "http://purl.org/dc/elements/1.1/", u "dc")].

(** [re.match(r"ns\d+$", prefix)] ([$] also matches before a final line feed). *)
Definition reserved (p : ustr) : bool :=
  match after (u "ns") p with
  | Some d =>
      let d' := match after [10] (rev d) with Some r => rev r | None => d end in
      match d' with [] => false | _ => forallb (fun c => match dec_digit c with Some _ => true | None => false end) d' end
  | None => false
  end.

(** ElementTree.py:984-1001 [register_namespace] *)
Definition register_namespace (prefix uri : ustr) (m : prefixes_t) : res prefixes_t :=
  if reserved prefix then Err EValueError
  else Ok (filter (fun kv => negb (ueqb (fst kv) uri || ueqb (snd kv) prefix)) m ++ [(uri, prefix)]).

(** config.py:70-76 [register_namespaces] *)
Fixpoint register_namespaces (l : list (ustr * ustr)) (m : prefixes_t) : res prefixes_t :=
  match l with
  | [] => Ok m
  | (prefix, uri) :: l' => let! m' := register_namespace prefix uri m in register_namespaces l' m'
  end.

(** config.py:55-67, 79-84 [set_default_namespaces], called when the package
    is imported. *)
Definition default_prefixes : list (ustr * ustr) :=
  [(u "kml", u "http://www.opengis.net/kml/2.2"); (u "atom", u "http://www.w3.org/2005/Atom"); (u "gx", u "http://www.google.com/kml/ext/2.2")].
Definition registered_prefixes : prefixes_t :=
  match register_namespaces default_prefixes well_known with Ok m => m | Err _ => well_known end.

(** ElementTree.py:815-840 [add_qname] on the dictionary [namespaces]. *)
Definition add_name (known ns : prefixes_t) (n : ustr) : res prefixes_t :=
  let! s := split_name n in
  match fst s with
  | None => Ok ns
  | Some uri =>
      match uget uri ns with
      | Some _ => Ok ns
      | None =>
          let p := match uget uri known with Some p => p | None => u "ns" ++ digits_of (Z.of_nat (length ns)) end in
          Ok (if ueqb p (u "xml") then ns else ns ++ [(uri, p)])
      end
  end.

Fixpoint add_names (known ns : prefixes_t) (l : list ustr) : res prefixes_t :=
  match l with
  | [] => Ok ns
  | n :: l' => let! ns' := add_name known ns n in add_names known ns' l'
  end.

(** ElementTree.py:843-862: the names in the order of [elem.iter()]. *)
Fixpoint names_of (e : elem) : list ustr :=
  match e with Elem t a _ ks => t :: map fst a ++ flat_map names_of ks end.

(** ElementTree.py:804-863 [_namespaces]: the dictionary [namespaces]. *)
Definition namespaces (known : prefixes_t) (e : elem) : res prefixes_t := add_names known [] (names_of e).

(** The entry of the dictionary [qnames]: the name as it is written. *)
Definition written_name (known ns : prefixes_t) (n : ustr) : ustr :=
  match split_name n with
  | Ok (Some uri, l) =>
      let p := match uget uri ns with
               | Some p => p
               | None => match uget uri known with Some p => p | None => [] end
               end in
      match p with [] => l | _ => p ++ u ":" ++ l end
  | _ => n
  end.

(** ElementTree.py:885-893: the declarations, sorted by prefix. *)
Fixpoint ustr_le (a b : ustr) : bool :=
  match a, b with
  | [], _ => true
  | _ :: _, [] => false
  | x :: a', y :: b' => (x <? y) || (x =? y) && ustr_le a' b'
  end.
Fixpoint insert (x : ustr * ustr) (l : prefixes_t) : prefixes_t :=
  match l with
  | [] => [x]
  | y :: l' => if ustr_le (snd x) (snd y) then x :: l else y :: insert x l'
  end.
Definition sort_prefixes (l : prefixes_t) : prefixes_t := fold_right insert [] l.
Definition declaration (kv : ustr * ustr) : ustr * ustr :=
  (u "xmlns" ++ (match snd kv with [] => [] | p => u ":" ++ p end), fst kv).

(** The element with names as they are written; the root carries the
    declarations in front of its attributes. *)
Fixpoint encode (q : ustr -> ustr) (e : elem) : elem :=
  match e with
  | Elem t a x ks => Elem (q t) (map (fun kv => (q (fst kv), snd kv)) a) x (map (encode q) ks)
  end.
Definition declare (ds : list (ustr * ustr)) (e : elem) : elem :=
  match e with Elem t a x ks => Elem t (ds ++ a) x ks end.

Definition print_attr (kv : ustr * ustr) : ustr := u " " ++ fst kv ++ u "=" ++ [34] ++ flat_map esc_attr (snd kv) ++ [34].

(** ElementTree.py:865-913 [_serialize_xml] on the names as they are written. *)
Fixpoint print (e : elem) : ustr :=
  match e with
  | Elem t a x ks =>
      let text := match x with Some s => s | None => [] end in
      u "<" ++ t ++ flat_map print_attr a ++
      match text, ks with
      | [], [] => u " />"
      | _, _ => u ">" ++ flat_map esc_text text ++ flat_map print ks ++ u "</" ++ t ++ u ">"
      end
  end.

(** ElementTree.py:1098-1121 [tostring(element, encoding="unicode")]; with the
    argument [pretty_print] it raises TypeError, and base.py:223-230 and
    kml.py:285-289 call it again without. *)
Definition tostring (known : prefixes_t) (e : elem) : res ustr :=
  let! ns := namespaces known e in
  Ok (print (declare (map declaration (sort_prefixes ns)) (encode (written_name known ns) e))).

(** ** Reading *)

(** XML 1.0, section 2.11: line ends are normalised first. *)
Fixpoint line_ends (s : ustr) : ustr :=
  match s with
  | [] => []
  | c :: r =>
      if c =? 13 then match after [10] r with Some _ => line_ends r | None => 10 :: line_ends r end
      else c :: line_ends r
  end.

(** XML 1.0, sections 4.1 and 4.6: what stands between [&] and [;]. *)
Definition hex_value (c : N) : option N :=
  if in_range c (48, 57) then Some (c - 48)
  else if in_range c (97, 102) then Some (c - 87)
  else if in_range c (65, 70) then Some (c - 55) else None.
Fixpoint numeral (base : N) (acc : N) (s : ustr) : option N :=
  match s with
  | [] => Some acc
  | c :: s' => match hex_value c with
               | Some d => if d <? base then numeral base (acc * base + d) s' else None
               | None => None
               end
  end.
Definition char_ref (base : N) (s : ustr) : option N :=
  match s with
  | [] => None
  | _ => match numeral base 0 s with Some c => if xml_char c then Some c else None | None => None end
  end.
Definition reference (s : ustr) : option N :=
  if ueqb s (u "amp") then Some 38 else if ueqb s (u "lt") then Some 60 else if ueqb s (u "gt") then Some 62
  else if ueqb s (u "quot") then Some 34 else if ueqb s (u "apos") then Some 39
  else match after (u "#x") s, after (u "#") s with
       | Some d, _ => char_ref 16 d
       | None, Some d => char_ref 10 d
       | None, None => None
       end.

(** Replace the references; [st] is the beginning of a reference, backwards;
    [norm] is applied to the characters that are no references. *)
Fixpoint unescape (norm : N -> N) (st : option ustr) (s : ustr) : option ustr :=
  match s, st with
  | [], None => Some []
  | [], Some _ => None
  | c :: s', None =>
      if c =? 38 then unescape norm (Some []) s'
      else if (c =? 60) || negb (xml_char c) then None
      else option_map (cons (norm c)) (unescape norm None s')
  | c :: s', Some r =>
      if c =? 59 then match reference (rev r) with
                      | Some x => option_map (cons x) (unescape norm None s')
                      | None => None
                      end
      else unescape norm (Some (c :: r)) s'
  end.

(** Section 3.3.3: white space in attribute values becomes spaces. *)
Definition attr_norm (c : N) : N := if xml_space c then 32 else c.

(** Section 2.4: the text may not contain [ ]]> ]. *)
Fixpoint cdata_end (s : ustr) : bool :=
  match s with
  | [] => false
  | c :: s' => match after (u "]]>") s with Some _ => true | None => cdata_end s' end
  end.

Definition any_name_char (c : N) : bool := name_char c || (c =? 58).
Definition skip_space (s : ustr) : ustr := snd (span xml_space s).

(** Production [10]: an attribute value in quotes. *)
Definition parse_value (s : ustr) : option (ustr * ustr) :=
  match s with
  | q :: r =>
      if (q =? 34) || (q =? 39) then
        let (v, r') := span (fun c => negb (c =? q)) r in
        match r', unescape attr_norm None v with
        | _ :: r'', Some v' => Some (v', r'')
        | _, _ => None
        end
      else None
  | [] => None
  end.

(** Production [41]: a name, [=] and a value. *)
Definition parse_attr (s : ustr) : option (ustr * ustr * ustr) :=
  let (n, r) := span any_name_char s in
  match n, after (u "=") (skip_space r) with
  | _ :: _, Some r' => match parse_value (skip_space r') with
                       | Some (v, r'') => Some (n, v, r'')
                       | None => None
                       end
  | _, _ => None
  end.

(** The attributes up to [>] or [/>], each after white space. *)
Fixpoint parse_attrs (fuel : nat) (s : ustr) : option (list (ustr * ustr) * ustr) :=
  match fuel with
  | O => None
  | S f =>
      match skip_space s with
      | [] => None
      | c :: r =>
          if (c =? 47) || (c =? 62) then Some ([], c :: r)
          else match s with
               | [] => None
               | d :: _ =>
                   if xml_space d then
                     match parse_attr (c :: r) with
                     | Some (n, v, r') => match parse_attrs f r' with
                                          | Some (l, r'') => Some ((n, v) :: l, r'')
                                          | None => None
                                          end
                     | None => None
                     end
                   else None
               end
      end
  end.

(** Production [42] after [</]. *)
Definition parse_end (s : ustr) : option (ustr * ustr) :=
  let (n, r) := span any_name_char s in
  match after (u ">") (skip_space r) with Some r' => Some (n, r') | None => None end.

(** The two XML libraries that fastkml works with (config.py:35-49). *)
Inductive xml_library := ElementTree | Lxml.

(** What stands before the first [p] in [s], and what follows it. *)
Fixpoint until (p s : ustr) : option (ustr * ustr) :=
  match after p s with
  | Some r => Some ([], r)
  | None => match s with
            | [] => None
            | c :: s' => match until p s' with Some (a, r) => Some (c :: a, r) | None => None end
            end
  end.

(** Production [15], after [<!--]: the text has no two hyphens. *)
Definition parse_comment (s : ustr) : option (ustr * ustr) :=
  match until (u "--") s with
  | Some (t, r) => if forallb xml_char t then match after (u ">") r with Some r' => Some (t, r') | None => None end else None
  | None => None
  end.

(** Productions [16] and [17], after [<?]: the target is a name, but not [xml]
    in whatever case. *)
Definition pi_target (n : ustr) : bool :=
  ncname n && negb (ueqb (map (fun c => if in_range c (65, 90) then c + 32 else c) n) (u "xml")).
Definition parse_pi (s : ustr) : option (ustr * ustr * ustr) :=
  let (n, r) := span any_name_char s in
  if pi_target n then
    match until (u "?>") r with
    | Some (t, r') => if forallb xml_char t && match t with [] => true | c :: _ => xml_space c end then Some (n, t, r') else None
    | None => None
    end
  else None.

(** Productions [18] to [21], after [<![CDATA[]. *)
Definition parse_cdata (s : ustr) : option (ustr * ustr) :=
  match until (u "]]>") s with
  | Some (t, r) => if forallb xml_char t then Some (t, r) else None
  | None => None
  end.

(** A comment or a processing instruction: what follows it. *)
Definition parse_other (s : ustr) : option ustr :=
  match after (u "<!--") s, after (u "<?") s with
  | Some r, _ => match parse_comment r with Some (_, r') => Some r' | None => None end
  | None, Some r => match parse_pi r with Some (_, _, r') => Some r' | None => None end
  | None, None => None
  end.

(** Productions [39] to [44]: an element, and the content of an element up to
    its end tag.  [Element.text] is the character data before the first child.
    The tree builder of ElementTree drops comments and processing instructions
    (ElementTree.py:1489-1514) and joins the data around them; they are nodes
    in the trees of lxml, where [text] ends at the first of them. *)
Fixpoint parse_elem (lib : xml_library) (fuel : nat) (s : ustr) : option (elem * ustr) :=
  match fuel with
  | O => None
  | S f =>
      match after (u "<") s with
      | None => None
      | Some r =>
          let (n, r1) := span any_name_char r in
          match n, parse_attrs (length r1) r1 with
          | _ :: _, Some (a, r2) =>
              if distinct (map fst a) then
                match after (u "/>") r2, after (u ">") r2 with
                | Some r3, _ => Some (Elem n a None [], r3)
                | None, Some r3 =>
                    match parse_content lib f r3 with
                    | Some (x, ks, r4) =>
                        match parse_end r4 with
                        | Some (n', r5) => if ueqb n n' then Some (Elem n a (match x with [] => None | _ => Some x end) ks, r5) else None
                        | None => None
                        end
                    | None => None
                    end
                | None, None => None
                end
              else None
          | _, _ => None
          end
      end
  end
with parse_content (lib : xml_library) (fuel : nat) (s : ustr) : option (ustr * list elem * ustr) :=
  match fuel with
  | O => None
  | S f =>
      let (t, r) := span (fun c => negb (c =? 60)) s in
      if cdata_end t then None else
      match unescape (fun c => c) None t with
      | None => None
      | Some x =>
          match after (u "</") r with
          | Some r1 => Some (x, [], r1)
          | None =>
              match after (u "<![CDATA[") r, parse_other r with
              | Some r1, _ =>
                  match parse_cdata r1 with
                  | Some (d, r2) => match parse_content lib f r2 with Some (y, ks, r3) => Some (x ++ d ++ y, ks, r3) | None => None end
                  | None => None
                  end
              | None, Some r1 =>
                  match parse_content lib f r1 with
                  | Some (y, ks, r2) => Some (match lib with ElementTree => x ++ y | Lxml => x end, ks, r2)
                  | None => None
                  end
              | None, None =>
                  match parse_elem lib f r with
                  | Some (k, r1) =>
                      match parse_content lib f r1 with
                      | Some (_, ks, r2) => Some (x, k :: ks, r2)
                      | None => None
                      end
                  | None => None
                  end
              end
          end
      end
  end.

(** Namespaces in XML: [xmlns] and [xmlns:p] declare; an undeclared prefix is
    an error; a name without prefix is in the default name space if it is that
    of an element. *)
Definition declared_prefix (k : ustr) : option ustr :=
  if ueqb k (u "xmlns") then Some []
  else match after (u "xmlns:") k with Some ((_ :: _) as p) => Some p | _ => None end.
Definition declarations (a : list (ustr * ustr)) : list (ustr * ustr) :=
  flat_map (fun kv => match declared_prefix (fst kv) with Some p => [(p, snd kv)] | None => [] end) a.
Definition XML_NS : ustr := u "http://www.w3.org/XML/1998/namespace".
Definition XMLNS_NS : ustr := u "http://www.w3.org/2000/xmlns/".
(** Sections 2.2 and 3: a prefix is a name and bound to some name space; the
    prefixes [xml] and [xmlns] and their name spaces are fixed. *)
Definition declaration_ok (d : ustr * ustr) : bool :=
  let (p, uri) := d in
  (uempty p || ncname p && negb (uempty uri)) && negb (ueqb p (u "xmlns")) && negb (ueqb uri XMLNS_NS) &&
  Bool.eqb (ueqb p (u "xml")) (ueqb uri XML_NS).
Definition in_name_space (uri l : ustr) : ustr := match uri with [] => l | _ => u "{" ++ uri ++ u "}" ++ l end.
Definition expand (env : list (ustr * ustr)) (element : bool) (n : ustr) : option ustr :=
  let (p, r) := span (fun c => negb (c =? 58)) n in
  match r with
  | [] => if negb (ncname n) then None
          else Some (if element then in_name_space (match uget [] env with Some uri => uri | None => [] end) n else n)
  | _ :: l =>
      if ncname p && ncname l then
        if ueqb p (u "xml") then Some (in_name_space XML_NS l)
        else match uget p env with
             | Some ((_ :: _) as uri) => Some (in_name_space uri l)
             | _ => None
             end
      else None
  end.

Fixpoint all_some {A} (l : list (option A)) : option (list A) :=
  match l with
  | [] => Some []
  | Some x :: l' => option_map (cons x) (all_some l')
  | None :: _ => None
  end.

Fixpoint resolve (env : list (ustr * ustr)) (e : elem) : option elem :=
  match e with
  | Elem n a x ks =>
      let env' := declarations a ++ env in
      let a' := map (fun kv => option_map (fun k => (k, snd kv)) (expand env' false (fst kv)))
                    (filter (fun kv => match declared_prefix (fst kv) with Some _ => false | None => true end) a) in
      match expand env' true n, all_some a', all_some (map (resolve env') ks) with
      | Some t, Some a'', Some ks' =>
          if forallb declaration_ok (declarations a) && distinct (map fst a'') then Some (Elem t a'' x ks') else None
      | _, _, _ => None
      end
  end.

(** Production [27] repeated: comments, processing instructions and white space
    before or after the element. *)
Fixpoint skip_misc (fuel : nat) (s : ustr) : ustr :=
  match fuel with
  | O => s
  | S f => match parse_other (skip_space s) with Some r => skip_misc f r | None => skip_space s end
  end.

(** One of the entries of an XML declaration, after white space. *)
Definition pseudo (n s : ustr) : option (ustr * ustr) :=
  match span xml_space s with
  | (_ :: _, r) =>
      match after n r with
      | Some r1 =>
          match after (u "=") (skip_space r1) with
          | Some r2 =>
              match skip_space r2 with
              | q :: r3 =>
                  if (q =? 34) || (q =? 39) then
                    match span (fun c => negb (c =? q)) r3 with
                    | (v, _ :: r4) => Some (v, r4)
                    | (_, []) => None
                    end
                  else None
              | [] => None
              end
          | None => None
          end
      | None => None
      end
  | ([], _) => None
  end.

(** Productions [26] and [81]. *)
Definition version_ok (v : ustr) : bool :=
  match after (u "1.") v with Some ((_ :: _) as d) => forallb (fun c => in_range c (48, 57)) d | _ => false end.
Definition encoding_ok (v : ustr) : bool :=
  let letter c := in_range c (65, 90) || in_range c (97, 122) in
  match v with
  | c :: r => letter c && forallb (fun c => letter c || existsb (in_range c) [(45, 46); (48, 57); (95, 95)]) r
  | [] => false
  end.

(** Productions [23], [80] and [32]: the declaration at the very beginning, if
    there is one: the encoding it names, and what follows. *)
Definition declared (s : ustr) : option (option ustr * ustr) :=
  match after (u "<?xml") s with
  | Some (c :: r) =>
      if xml_space c then
        match pseudo (u "version") (c :: r) with
        | Some (v, r1) =>
            if version_ok v then
              let (e, r2) := match pseudo (u "encoding") r1 with Some (e, r2) => (Some e, r2) | None => (None, r1) end in
              let (a, r3) := match pseudo (u "standalone") r2 with Some (a, r3) => (Some a, r3) | None => (None, r2) end in
              match after (u "?>") (skip_space r3) with
              | Some r4 =>
                  if match e with Some e => encoding_ok e | None => true end &&
                     match a with Some a => ueqb a (u "yes") || ueqb a (u "no") | None => true end
                  then Some (e, r4) else None
              | None => None
              end
            else None
        | None => None
        end
      else Some (None, s)
  | _ => Some (None, s)
  end.

(** A document: production [1]; [enc] decides on the encoding that is declared. *)
Definition parse_document (lib : xml_library) (enc : option ustr -> bool) (s : ustr) : option elem :=
  let s := line_ends s in
  match declared s with
  | Some (e, r) =>
      if enc e then
        match parse_elem lib (length r) (skip_misc (length r) r) with
        | Some (e, r') => match skip_misc (length r') r' with [] => resolve [] e | _ => None end
        | None => None
        end
      else None
  | None => None
  end.

(** [fromstring(text)].  ElementTree does not look at the encoding that a text
    declares; lxml refuses such a text (ValueError: Unicode strings with
    encoding declaration are not supported). *)
Definition fromstring (lib : xml_library) (s : ustr) : option elem :=
  parse_document lib (fun e => match lib, e with Lxml, Some _ => false | _, _ => true end) s.
