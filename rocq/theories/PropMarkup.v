(** * The spelling of documents: C55. *)
From Coq Require Import String List NArith ZArith Bool Lia.
From Verif Require Import Ustr UstrProofs Res Elem Value Codec Tables Spec Xml XmlDoc XmlMarkup XmlProofs XmlMarkupProofs XmlDocProofs XmlTerms XmlTermsProofs Samples.
Import ListNotations.
Local Open Scope string_scope.
Local Open Scope list_scope.

(** ** C55

    Full statement: how a document is spelled does not matter: whether a
    character stands for itself, in a CDATA section or as a reference, comments,
    processing instructions, the XML declaration, line ends, white space and
    quotes in tags, and the form of empty elements.

    It holds with ElementTree.  With lxml it fails for a comment (or processing
    instruction) between the characters of an element, and for texts that
    declare an encoding; it holds otherwise. *)

(** The encodings that a text may declare. *)
Definition text_encoding (lib : xml_library) (x : option declaration_t) : Prop := lib = ElementTree \/ encoding_of x = None.

(** Every document of the grammar is read as its tree says, whatever library,
    registry and class. *)
Theorem C55_documents_are_read :
  forall W lib strict c ns nss s x b r e, let d := Document x b r e in
  document_ok d = true -> is_text_of s d -> text_encoding lib x ->
  exists el, meant lib r = [el] /\
    from_text W lib strict c ns nss s = match resolve [] el with Some t => Some (from_string W strict c ns nss t) | None => None end.
Proof.
  intros W lib strict c ns nss s x b r e d K T E. unfold from_text, fromstring.
  destruct (document_parsed lib (fun e => match lib, e with Lxml, Some _ => false | _, _ => true end) x b r e s K T) as (el & M & P). exists el. split; [exact M|]. rewrite P.
  destruct E as [->|E]; [reflexivity|]. rewrite E. now destruct lib.
Qed.
Print Assumptions C55_documents_are_read.

(** The terms in which the grammar is given are those of XML 1.0: characters,
    white space, white space in attribute values, line ends, references, names
    of encodings, version numbers, names, targets of processing instructions,
    the end of CDATA sections. *)
Theorem C55_terms :
  (forall c, xml_char c = true <-> character c) /\ (forall c, xml_space c = true <-> white c) /\ (forall c, in_value c (attr_norm c)) /\
  (forall s t, line_ends s = t <-> one_line_end s t) /\ (forall b c, reference b = Some c <-> refers b c) /\
  (forall n, utf8_name (Some n) = true <-> called n (u "utf-8")) /\ (forall v, version_ok v = true <-> version v) /\
  (forall v, encoding_ok v = true <-> encoding_name v) /\ (forall c, any_name_char c = true <-> in_name c) /\
  (forall n, pi_target n = true <-> target n) /\ (forall s, cdata_end s = true <-> has (u "]]>") s).
Proof.
  split; [exact char_term|]. split; [exact space_term|]. split; [exact value_term|].
  split; [intros s t; split; [intros <-; apply line_term|intro H; symmetry; now apply line_unique]|].
  split; [exact reference_term|]. split; [exact utf8_term|]. split; [exact version_term|]. split; [exact encoding_term|].
  split; [exact name_term|]. split; [exact target_term|exact has_term].
Qed.
Print Assumptions C55_terms.

Lemma alike_root lib r r' el el' : alike lib false [r] [r'] -> meant lib r = [el] -> meant lib r' = [el'] -> el = el'.
Proof. intros A M M'. apply alike_meant in A as [A _]. cbn [flat_map] in A. rewrite !app_nil_r, M, M' in A. now injection A. Qed.

(** Texts of documents that differ in spelling only are read alike. *)
Theorem C55_spelling_partial :
  forall W lib strict c ns nss s s' x b r e x' b' r' e', let d := Document x b r e in let d' := Document x' b' r' e' in
  document_ok d = true -> document_ok d' = true -> is_text_of s d -> is_text_of s' d' ->
  text_encoding lib x -> text_encoding lib x' -> alike lib false [r] [r'] ->
  from_text W lib strict c ns nss s = from_text W lib strict c ns nss s'.
Proof.
  intros W lib strict c ns nss s s' x b r e x' b' r' e' d d' K K' T T' E E' A.
  destruct (C55_documents_are_read W lib strict c ns nss s x b r e K T E) as (el & M & ->). destruct (C55_documents_are_read W lib strict c ns nss s' x' b' r' e' K' T' E') as (el' & M' & ->).
  now rewrite (alike_root lib r r' el el' A M M').
Qed.
Print Assumptions C55_spelling_partial.

(** The same for files in UTF-8, which may say so and may begin with a byte
    order mark; here lxml accepts the declaration. *)
Definition bytes_of (s : ustr) (b : list N) : Prop := exists b0, utf8 s = Some b0 /\ (b = b0 \/ b = [239; 187; 191]%N ++ b0).

Lemma first_char s x b r e : document_ok (Document x b r e) = true -> is_text_of s (Document x b r e) -> firstn 1 s <> [65279%N].
Proof.
  intros K T H. destruct s as [|c s]; [discriminate|]. injection H as ->. unfold is_text_of in T. cbn [line_ends] in T. change (65279 =? 13)%N with false in T. cbv iota in T.
  cbn [document_ok] in K. rewrite !andb_true_iff in K. destruct K as [[[[X B] R] _] E]. cbn [document_text] in T. destruct x as [[v ? ? ?]|]; [discriminate T|]. cbn [opt app] in T.
  revert T. generalize (line_ends s). induction b as [|m b IH]; intros t T.
  - destruct r; discriminate.
  - cbn [forallb] in B. apply andb_prop in B as [B1 B2]. destruct m as [[|c y]|o].
    + exact (IH B2 t T).
    + cbn [flat_map misc_text app] in T. injection T as <- _. discriminate B1.
    + cbn [flat_map misc_text] in T. rewrite <- app_assoc in T. destruct (other_first o (flat_map misc_text b ++ node_text r ++ flat_map misc_text e)) as (c & y & Ho).
      rewrite Ho in T. discriminate T.
Qed.

(** The byte order mark is only the encoding of its character. *)
Lemma bom s b : utf8 s = Some b -> firstn 1 s <> [65279%N] -> after [239; 187; 191]%N b = None.
Proof.
  intros H N. destruct (after _ b) as [r|] eqn:A; [|reflexivity]. exfalso. apply after_app in A. destruct s as [|c s]; [cbn in H; injection H as <-; discriminate A|].
  apply N. cbn [firstn]. f_equal. assert (U := utf8_back (c :: s) b H (length b) (le_n _)). subst b. cbn [app length] in U. remember (S (S (length r))) as k. cbn [utf8_decode] in U.
  destruct (utf8_next (239 :: 187 :: 191 :: r)%N) as [[d w]|] eqn:D; [|discriminate]. destruct (utf8_decode k w); [|discriminate U]. injection U as U _.
  unfold utf8_next in D. change (lead 239) with (Some (2%nat, 15%N)) in D. cbn [conts] in D. change (cont 187) with (Some 59%N) in D. change (cont 191) with (Some 63%N) in D. cbv beta iota in D.
  change ((15 * 64 + 59) * 64 + 63)%N with 65279%N in D. change (utf8_char 65279) with (Some [239; 187; 191]%N) in D. cbn in D. congruence.
Qed.

Lemma bytes_parsed lib s x b r e f : document_ok (Document x b r e) = true -> is_text_of s (Document x b r e) -> utf8_name (encoding_of x) = true -> bytes_of s f ->
  exists el, meant lib r = [el] /\ parse_bytes lib f = resolve [] el.
Proof.
  intros K T E (b0 & U & Hf). destruct (document_parsed lib utf8_name x b r e s K T) as (el & M & P). exists el. split; [exact M|]. rewrite E in P. rewrite <- P. unfold parse_bytes.
  destruct Hf as [->| ->].
  - rewrite (bom s b0 U (first_char s x b r e K T)). now rewrite (utf8_back s b0 U _ (le_n _)).
  - rewrite app_after. now rewrite (utf8_back s b0 U _ (le_n _)).
Qed.

Theorem C55_files_partial :
  forall W lib strict c ns nss s s' f f' x b r e x' b' r' e', let d := Document x b r e in let d' := Document x' b' r' e' in
  document_ok d = true -> document_ok d' = true -> is_text_of s d -> is_text_of s' d' -> bytes_of s f -> bytes_of s' f' ->
  utf8_name (encoding_of x) = true -> utf8_name (encoding_of x') = true -> alike lib false [r] [r'] ->
  kml_parse_file W lib strict c ns nss (Plain f) = kml_parse_file W lib strict c ns nss (Plain f').
Proof.
  intros W lib strict c ns nss s s' f f' x b r e x' b' r' e' d d' K K' T T' F F' E E' A. unfold kml_parse_file.
  destruct (bytes_parsed lib s x b r e f K T E F) as (el & M & ->). destruct (bytes_parsed lib s' x' b' r' e' f' K' T' E' F') as (el' & M' & ->).
  now rewrite (alike_root lib r r' el el' A M M').
Qed.
Print Assumptions C55_files_partial.

(** *** Examples *)

Definition lits (s : string) : list piece := map Lit (u s).
Definition attr (n : string) (v : list piece) : attribute := Attribute (u " ") (u n) [] [] 34 v.
Definition kml_attr : attribute := attr "xmlns" (lits "http://www.opengis.net/kml/2.2").
Definition tag (n : string) (a : list attribute) (ks : list node) : node := Element (u n) a [] false ks [].

(** The document an author may write, with the line ends of Windows ... *)
Definition d_rich : document :=
  Document (Some (Declaration (Entry (u " ") [] [] 34 (u "1.0")) (Some (Entry (u " ") [] [] 39 (u "utf-8"))) None (u " ")))
    [Space [10%N]; Misc (Comment (u " made by hand ")); Misc (Instruction (u "xml-stylesheet") (u " href='a.css'"))]
    (Element (u "kml") [Attribute [10%N] (u "xmlns") (u " ") (u " ") 39 (lits "http://www.opengis.net/kml/2.2")] (u " ") false
      [Other (Comment (u " one ")); tag "Placemark" []
        [tag "name" [] [Data (lits "A" ++ [Ref (u "#66")] ++ [Ref (u "#x43")])]; Other (Comment (u " two "));
         tag "description" [] [Data (lits "see "); CData (u "<b>this & that</b>"); Other (Comment (u " three "))];
         Element (u "ExtendedData") [] (u " ") true [] []]] (u " "))
    [Space [10%N]; Misc (Comment (u " end ")); Space [10%N]].
Definition rich_text : ustr := Eval vm_compute in flat_map (fun c => if (c =? 10)%N then [13; 10]%N else [c]) (document_text d_rich).

(** ... and a plain one. *)
Definition d_plain : document :=
  Document None []
    (tag "kml" [kml_attr] [tag "Placemark" []
      [tag "name" [] [Data (lits "ABC")];
       tag "description" [] [Data (lits "see " ++ [Ref (u "lt")] ++ lits "b>this " ++ [Ref (u "amp")] ++ lits " that" ++ [Ref (u "lt")] ++ lits "/b>")];
       tag "ExtendedData" [] []]])
    [].
Definition plain_text : ustr := Eval vm_compute in document_text d_plain.

Definition root_of (d : document) : node := match d with Document _ _ r _ => r end.
Lemma rich_plain lib : alike lib false [root_of d_rich] [root_of d_plain].
Proof.
  apply alike_element; [reflexivity|]. eapply alike_trans; [apply alike_other; right; right; reflexivity|].
  apply alike_element; [reflexivity|]. eapply alike_trans; [|eapply alike_trans].
  - apply alike_element; [reflexivity|]. eapply alike_trans; [apply (alike_reference lib false (lits "A") (u "#66") 66%N [Ref (u "#x43")]); reflexivity|].
    apply (alike_reference lib false (lits "AB") (u "#x43") 67%N []). reflexivity.
  - apply alike_next. cbn [ends_text orb tag]. apply alike_other. right. now left.
  - apply alike_next. eapply alike_trans; [|apply alike_next, alike_element; [reflexivity|apply alike_refl]].
    apply alike_element; [reflexivity|]. eapply alike_trans; [apply alike_next, alike_next, alike_other; right; right; reflexivity|].
    eapply alike_trans; [apply alike_next; cbn [orb ends_text]; apply alike_cdata|]. eapply alike_trans; [apply alike_sym, alike_split|].
    eapply alike_trans; [|apply alike_sym, (alike_reference lib false (lits "see ") (u "lt") 60%N (lits "b>this " ++ [Ref (u "amp")] ++ lits " that" ++ [Ref (u "lt")] ++ lits "/b>")); reflexivity].
    eapply alike_trans; [|apply alike_sym, (alike_reference lib false (lits "see <b>this ") (u "amp") 38%N (lits " that" ++ [Ref (u "lt")] ++ lits "/b>")); reflexivity].
    apply alike_sym, (alike_reference lib false (lits "see <b>this & that") (u "lt") 60%N (lits "/b>")). reflexivity.
Qed.

Definition rich_value : value := Eval vm_compute in match from_text W0 ElementTree true "kml.KML" None [] rich_text with Some (Ok v) => v | _ => VNone end.
Definition rich_placemark : value := Eval vm_compute in match sget "features" (obj_attrs rich_value) with Some (VList [p]) => p | _ => VNone end.
Example C55_example :
  document_ok d_rich = true /\ document_ok d_plain = true /\ is_text_of rich_text d_rich /\ is_text_of plain_text d_plain /\
  (forall lib, alike lib false [root_of d_rich] [root_of d_plain]) /\ ueqb rich_text plain_text = false /\
  from_text W0 ElementTree true "kml.KML" None [] rich_text = Some (Ok rich_value) /\ from_text W0 ElementTree true "kml.KML" None [] plain_text = Some (Ok rich_value) /\
  sget "features" (obj_attrs rich_value) = Some (VList [rich_placemark]) /\ sget "name" (obj_attrs rich_placemark) = Some (VStr (u "ABC")) /\
  sget "description" (obj_attrs rich_placemark) = Some (VStr (u "see <b>this & that</b>")).
Proof.
  split; [vm_compute; reflexivity|]. split; [vm_compute; reflexivity|]. split; [vm_compute; reflexivity|]. split; [vm_compute; reflexivity|].
  split; [exact rich_plain|]. repeat split; vm_compute; reflexivity.
Qed.

(** *** Refutations: lxml *)

(** A comment within the coordinates of a line: with lxml the points behind it
    are lost, without any exception; with ElementTree they are read. *)
Definition d_line (l : list node) : document :=
  Document None [] (tag "Placemark" [kml_attr] [tag "LineString" [] [tag "coordinates" [] l]]) [].
Definition d_comment : document := d_line [Data (lits "1,2 3,4 "); Other (Comment (u " west ")); Data (lits "5,6 7,8")].
Definition d_no_comment : document := d_line [Data (lits "1,2 3,4 "); Data (lits "5,6 7,8")].
Definition line_points (r : option (res value)) : option nat :=
  match r with
  | Some (Ok v) => match sget "kml_geometry" (obj_attrs v) with
                   | Some g => match sget "kml_coordinates" (obj_attrs g) with
                               | Some k => match sget "coords" (obj_attrs k) with Some (VCoords _ l) => Some (length l) | _ => None end
                               | None => None
                               end
                   | None => None
                   end
  | _ => None
  end.
Theorem C55_comment_refuted :
  exists s s', is_text_of s d_comment /\ is_text_of s' d_no_comment /\ document_ok d_comment = true /\ document_ok d_no_comment = true /\
  alike ElementTree false [root_of d_comment] [root_of d_no_comment] /\
  line_points (from_text W0 ElementTree true "features.Placemark" None [] s) = Some 4%nat /\ line_points (from_text W0 ElementTree true "features.Placemark" None [] s') = Some 4%nat /\
  line_points (from_text W0 Lxml true "features.Placemark" None [] s') = Some 4%nat /\ line_points (from_text W0 Lxml true "features.Placemark" None [] s) = Some 2%nat.
Proof.
  exists (document_text d_comment), (document_text d_no_comment). split; [vm_compute; reflexivity|]. split; [vm_compute; reflexivity|]. split; [vm_compute; reflexivity|]. split; [vm_compute; reflexivity|].
  split; [|repeat split; vm_compute; reflexivity]. do 3 (apply alike_element; [reflexivity|]). apply alike_next, alike_other. now left.
Qed.
Print Assumptions C55_comment_refuted.

(** A text that declares its encoding, as most files do: [from_string] raises
    ValueError with lxml. *)
Theorem C55_encoding_refuted :
  exists s x r, is_text_of s (Document x [] r []) /\ document_ok (Document x [] r []) = true /\ encoding_of x = Some (u "UTF-8") /\
  from_text W0 Lxml true "kml.KML" None [] s = None /\ is_ok (match from_text W0 ElementTree true "kml.KML" None [] s with Some v => v | None => Err EValueError end) = true.
Proof.
  exists (u "<?xml version=""1.0"" encoding=""UTF-8""?><kml xmlns=""http://www.opengis.net/kml/2.2""></kml>").
  exists (Some (Declaration (Entry (u " ") [] [] 34 (u "1.0")) (Some (Entry (u " ") [] [] 34 (u "UTF-8"))) None [])), (tag "kml" [kml_attr] []).
  split; [vm_compute; reflexivity|]. repeat split; vm_compute; reflexivity.
Qed.
Print Assumptions C55_encoding_refuted.
