(** * Schema validation: validator.py, kml.py. *)
From Coq Require Import List Bool.
From Verif Require Import Res.
Import ListNotations.

Section Validate.
  (** Parsed documents, files, paths of schema files, compiled schemas and
      entries of an error log belong to the XML library. *)
  Variables doc file path schema entry : Type.
  Variable path_eqb : path -> path -> bool.

  (** What the XML library in [config.etree] offers. *)
  Record backend := mkBackend {
    (** [etree.XMLSchema(etree.parse(path))]; [None]: no attribute [XMLSchema]. *)
    b_xmlschema : option (option path -> res schema);
    (** [etree.parse(file)] *)
    b_parse : file -> res doc;
    (** [etree.parse(file, parser=etree.XMLParser(huge_tree=True, recover=True))];
        [None]: [XMLParser] does not know these arguments (TypeError). *)
    b_recover : option (file -> res doc)
  }.

  (** [schema_parser.assert_(element)]; raises AssertionError if invalid. *)
  Variable assert_ : schema -> doc -> res unit.
  (** [schema_parser.error_log] after that. *)
  Variable error_log : schema -> doc -> list entry.
  (** [element.xpath(entry.path)]: [None] if XPathEvalError, otherwise how many
      nodes. *)
  Variable xpath : doc -> entry -> option nat.

  Definition key_eqb (a b : option path) : bool :=
    match a, b with Some x, Some y => path_eqb x y | None, None => true | _, _ => false end.

  (** The cache of [get_schema_parser], most recent first. *)
  Definition cache := list (option path * schema).

  Fixpoint lookup (k : option path) (c : cache) : option schema :=
    match c with
    | [] => None
    | (k', s) :: c' => if key_eqb k k' then Some s else lookup k c'
    end.
  Definition forget (k : option path) (c : cache) : cache := filter (fun ks => negb (key_eqb k (fst ks))) c.

  (** validator.py:46-65 [get_schema_parser] with [lru_cache(maxsize=16)]:
      exceptions are not cached. *)
  Definition get_schema_parser (b : backend) (k : option path) (c : cache) : res schema * cache :=
    match lookup k c with
    | Some s => (Ok s, (k, s) :: forget k c)
    | None =>
        match b_xmlschema b with
        | None => (Err EAttributeError, c)
        | Some f => match f k with
                    | Ok s => (Ok s, firstn 16 ((k, s) :: c))
                    | Err e => (Err e, c)
                    end
        end
    end.

  (** validator.py:68-103 [handle_validation_error]: [[0]] of an empty result is
      an IndexError; logging is left out. *)
  Fixpoint handle_validation_error (d : doc) (l : list entry) : res unit :=
    match l with
    | [] => Ok tt
    | e :: l' => match xpath d e with
                 | Some 0 => Err EIndexError
                 | _ => handle_validation_error d l'
                 end
    end.

  (** validator.py:106-146 [validate]: [None] or [True], and the cache. *)
  Definition validate (b : backend) (sch : option path) (element : option doc) (file_to_validate : option file) (c : cache) : res (option bool) * cache :=
    match element, file_to_validate with
    | None, None => (Err EValueError, c)
    | Some _, Some _ => (Err EValueError, c)
    | _, _ =>
        match get_schema_parser b sch c with
        | (Err EAttributeError, c') => (Ok None, c')
        | (Err e, c') => (Err e, c')
        | (Ok s, c') =>
            (let! d := match file_to_validate, element with
                       | Some f, _ => b_parse b f
                       | None, Some d => Ok d
                       | None, None => Err EAssertion
                       end in
             match assert_ s d with
             | Err EAssertion => let! _ := handle_validation_error d (error_log s d) in Err EAssertion
             | Err e => Err e
             | Ok _ => Ok (Some true)
             end, c')
        end
    end.

  (** kml.py:73-108 [lxml_parse_and_validate] *)
  Definition lxml_parse_and_validate (b : backend) (f : file) (strict : bool) (validate_ : option bool) (c : cache) : res doc * cache :=
    let v := match validate_ with None => strict | Some x => x end in
    match b_recover b with
    | None => (Err ETypeError, c)
    | Some parse =>
        match parse f with
        | Err e => (Err e, c)
        | Ok d =>
            if v then
              match validate b None (Some d) None c with
              | (Err e, c') => (Err e, c')
              | (Ok _, c') => (Ok d, c')
              end
            else (Ok d, c)
        end
    end.

  (** kml.py:234-237: the document that [KML.parse] reads. *)
  Definition parse_root (b : backend) (f : file) (strict : bool) (validate_ : option bool) (c : cache) : res doc * cache :=
    match lxml_parse_and_validate b f strict validate_ c with
    | (Err ETypeError, c') => (b_parse b f, c')
    | r => r
    end.
End Validate.
