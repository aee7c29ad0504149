(** * What the library takes for XML: C66. *)
From Coq Require Import String List NArith ZArith Bool Lia.
From Verif Require Import Ustr UstrProofs Res Elem Value Codec Tables Spec Xml XmlDoc XmlMarkup XmlProofs XmlMarkupProofs XmlDocProofs XmlTerms XmlNames XmlSound XmlNamesProofs Samples PropMarkup.
Import ListNotations.
Local Open Scope string_scope.
Local Open Scope list_scope.

(** The document [d] has the root [t] once its name spaces are resolved. *)
Definition has_root (lib : xml_library) (d : document) (t : elem) : Prop :=
  match d with Document x b r e => exists el sc, meant lib r = [el] /\ outermost sc /\ stands sc el t end.
Definition declared_of (d : document) : option declaration_t := match d with Document x _ _ _ => x end.

Lemma document_root lib enc s t : parse_document lib enc s = Some t <->
  exists d, document_ok d = true /\ is_text_of s d /\ enc (encoding_of (declared_of d)) = true /\ has_root lib d t.
Proof.
  split.
  - intro H. apply document_inv in H as (x & b & r & e & el & K & T & E & M & R). exists (Document x b r e). split; [exact K|]. split; [exact T|]. split; [exact E|]. exists el, (lookup []). split; [exact M|].
    split; [now apply outermost_lookup|]. apply (resolve_stands el [] t (lookup [])); [|reflexivity|exact R].
    cbn [document_ok] in K. rewrite !andb_true_iff in K. destruct K as [[[_ K] _] _]. assert (A := meant_raw lib r K). rewrite M in A. now inversion A.
  - intros ([x b r e] & K & T & E & el & sc & M & O & R). destruct (document_parsed lib enc x b r e s K T) as (el' & M' & P). rewrite M in M'. injection M' as <-. rewrite P. cbn [declared_of] in E. rewrite E.
    apply (stands_resolve el [] t sc); [now apply outermost_lookup|exact R].
Qed.

(** C66.  A text is read as a document exactly if it is one: it is spelled by
    the grammar of XML 1.0 (documents without document type declaration), its
    names can be resolved as Namespaces in XML says, and the root is what they
    resolve to; lxml wants texts that declare no encoding. *)
Theorem C66_texts :
  forall lib s t, fromstring lib s = Some t <->
  exists d, document_ok d = true /\ is_text_of s d /\ text_encoding lib (declared_of d) /\ has_root lib d t.
Proof.
  intros lib s t. unfold fromstring. rewrite document_root. unfold text_encoding.
  split; intros (d & K & T & E & R); exists d; (split; [exact K|]; split; [exact T|]; split; [|exact R]).
  - destruct lib; [now left|]. destruct (encoding_of (declared_of d)); [discriminate|now right].
  - destruct lib; [reflexivity|]. destruct E as [E|E]; [discriminate|]. now rewrite E.
Qed.
Print Assumptions C66_texts.

(** Files in UTF-8, with or without byte order mark. *)
Theorem C66_files :
  forall lib f t, parse_bytes lib f = Some t <->
  exists s d, bytes_of s f /\ document_ok d = true /\ is_text_of s d /\ utf8_name (encoding_of (declared_of d)) = true /\ has_root lib d t.
Proof.
  intros lib f t. split.
  - unfold parse_bytes. intro H. destruct (after [239; 187; 191]%N f) as [r|] eqn:A.
    + apply after_app in A. destruct (utf8_decode (length r) r) as [s|] eqn:D; [|discriminate]. apply document_root in H as (d & K & T & E & R). exists s, d. split; [|auto]. exists r. split; [exact (utf8_decode_inv _ _ _ D)|auto].
    + destruct (utf8_decode (length f) f) as [s|] eqn:D; [|discriminate]. apply document_root in H as (d & K & T & E & R). exists s, d. split; [|auto]. exists f. split; [exact (utf8_decode_inv _ _ _ D)|auto].
  - intros (s & [x b r e] & B & K & T & E & el & sc & M & O & R). destruct (bytes_parsed lib s x b r e f K T E B) as (el' & M' & ->). rewrite M in M'. injection M' as <-.
    apply (stands_resolve el [] t sc); [now apply outermost_lookup|exact R].
Qed.
Print Assumptions C66_files.

(** What [from_string] and [KML.parse] get to see. *)
Theorem C66_read :
  forall W lib strict c ns nss s v, from_text W lib strict c ns nss s = Some v <->
  exists d t, document_ok d = true /\ is_text_of s d /\ text_encoding lib (declared_of d) /\ has_root lib d t /\ from_string W strict c ns nss t = v.
Proof.
  intros W lib strict c ns nss s v. unfold from_text. split.
  - destruct (fromstring lib s) as [t|] eqn:F; [|discriminate]. intro H. injection H as <-. apply C66_texts in F as (d & K & T & E & R). now exists d, t.
  - intros (d & t & K & T & E & R & <-). assert (F : fromstring lib s = Some t) by (apply C66_texts; now exists d). now rewrite F.
Qed.
Print Assumptions C66_read.

(** No text can be taken for two documents. *)
Theorem C66_one_meaning :
  forall lib s d d' t t', is_text_of s d -> is_text_of s d' -> document_ok d = true -> document_ok d' = true ->
  has_root lib d t -> has_root lib d' t' -> t = t'.
Proof.
  intros lib s d d' t t' T T' K K' R R'. assert (A : parse_document lib (fun _ => true) s = Some t) by (apply document_root; now exists d).
  assert (A' : parse_document lib (fun _ => true) s = Some t') by (apply document_root; now exists d'). congruence.
Qed.
Print Assumptions C66_one_meaning.

(** ** Examples *)

(** The document of PropMarkup.v, and texts that are none: tags that cross, an
    attribute twice, also by two prefixes of one name space, a prefix or entity
    that is not declared, two roots, the end of a CDATA section, ... *)
Definition refused (s : string) : Prop := forall lib, ~ exists d t, document_ok d = true /\ is_text_of (u s) d /\ text_encoding lib (declared_of d) /\ has_root lib d t.
Lemma refused_computed s : fromstring ElementTree (u s) = None -> fromstring Lxml (u s) = None -> refused s.
Proof. intros A B lib (d & t & K & T & E & R). assert (F : fromstring lib (u s) = Some t) by (apply C66_texts; now exists d). destruct lib; congruence. Qed.

Example C66_example :
  (document_ok d_rich = true /\ is_text_of rich_text d_rich /\ exists t, has_root ElementTree d_rich t /\ fromstring ElementTree rich_text = Some t) /\
  refused "<a><b></a></b>" /\ refused "<a x='1' x='2'/>" /\ refused "<a xmlns:p='u' xmlns:q='u' p:x='1' q:x='2'/>" /\ refused "<p:a/>" /\ refused "<a>&nbsp;</a>" /\
  refused "<a/><b/>" /\ refused "<a>]]></a>" /\ refused "<a x=1/>" /\ refused "<a>" /\ refused "<a x='<'/>" /\ refused "<!-- -- --><a/>" /\ refused " <?xml version='1.0'?><a/>" /\ refused "".
Proof.
  split.
  { split; [vm_compute; reflexivity|]. split; [vm_compute; reflexivity|].
    destruct (fromstring ElementTree rich_text) as [t|] eqn:F; [|vm_compute in F; discriminate F]. exists t. split; [|reflexivity].
    assert (F' := F). apply C66_texts in F' as (d & K & T & E & R).
    assert (K' : document_ok d_rich = true) by (vm_compute; reflexivity). assert (T' : is_text_of rich_text d_rich) by (vm_compute; reflexivity).
    unfold fromstring in F. unfold d_rich in *. destruct (document_parsed ElementTree (fun _ => true) _ _ _ _ rich_text K' T') as (el & M & P). cbn beta iota in P. unfold has_root. exists el, (lookup []).
    split; [exact M|]. split; [now apply outermost_lookup|]. apply (resolve_stands el [] t (lookup [])); [|reflexivity|].
    - cbn [document_ok] in K'. rewrite !andb_true_iff in K'. destruct K' as [[[_ K'] _] _]. assert (A := meant_raw ElementTree _ K'). rewrite M in A. now inversion A.
    - rewrite <- P. exact F. }
  repeat (split; [apply refused_computed; vm_compute; reflexivity|]). apply refused_computed; vm_compute; reflexivity.
Qed.
