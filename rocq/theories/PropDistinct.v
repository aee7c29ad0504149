(** * What is saved alike is alike: C65. *)
From Coq Require Import String List NArith ZArith Bool Lia.
From Verif Require Import Ustr UstrProofs Res PyInt PyFloat PyDate Elem Value Geom Codec Tables Spec Settled Same Agree Layout LayoutProofs HarmlessProofs FastkmlOk HarmlessProofs
  RoundTrip ReadProofs SettledProofs SameProofs ExtendWriteProofs Unprefixed PropRoundTrip PropReader
  Xml XmlSpec XmlDoc PropXml Lxml LxmlSpec PropLxml Samples SampleProofs.
Import ListNotations.
Local Open Scope string_scope.
Local Open Scope list_scope.

(** [s] is a text of [v]: from either library, with any registered prefixes,
    indented or not. *)
Inductive saved (W : world) (v : value) (s : ustr) : Prop :=
| saved_et known : known_ok known = true -> xml_object v = true -> to_string W known None Normal v = Ok s -> saved W v s
| saved_lx known fresh pretty : known_ok known = true -> lxml_object v = true -> (nsmap_root W v = true -> all_qualified v = true) ->
    lx_to_string W known fresh pretty None Normal v = Ok s -> saved W v s.

(** Objects as in C52 and C56, with the name spaces [m]. *)
Definition savable (W : world) (m : nss_t) (v : value) : Prop :=
  typed W v = true /\ regular W m v = true /\ readable W v = true /\ (forall nss attrs, v <> VObj "kml.KML" [] nss attrs).

Lemma ok_inj {A} (x y : A) : Ok x = Ok y -> x = y.
Proof. intro H. now injection H. Qed.

Lemma respaced_refl e : respaced e e.
Proof.
  induction e as [t a x ks IH] using elem_ind'. constructor.
  - unfold text_respaced. repeat match goal with |- context[if ?b then _ else _] => destruct b end; try reflexivity; try exact I; split; [reflexivity|tauto].
  - induction IH; constructor; assumption.
Qed.

Lemma saved_tree arrow v s : let W := fastkml arrow in
  typed W v = true -> (forall nss attrs, v <> VObj "kml.KML" [] nss attrs) -> saved W v s ->
  exists e r, etree W None Normal v = Ok e /\ fromstring ElementTree s = Some r /\ respaced e r.
Proof.
  intros W T N [known K X S|known fresh pretty K X Q S].
  - assert (S' := S). unfold to_string in S'. apply bind_ok in S' as [e [He _]]. destruct (C52_text_tells_the_element arrow known None Normal v e K T X He) as (s' & S1 & _ & S2 & S3).
    fold W in S1. rewrite S in S1. injection S1 as <-. rewrite (S3 N) in S2. exists e, e. split; [exact He|]. split; [apply S2|]. apply respaced_refl.
  - assert (S' := S). unfold lx_to_string in S'. apply bind_ok in S' as [e [He _]]. destruct (C56_lxml_tells_the_element arrow known fresh pretty None Normal v e K T X Q He) as (s' & r & S1 & _ & S2 & S3 & _ & S5).
    fold W in S1. rewrite S in S1. injection S1 as <-. rewrite (S5 N) in S3. exists e, r. split; [exact He|]. split; [apply S2|exact S3].
Qed.

Definition tags_apart (W : world) : bool :=
  forallb (fun c => good_name (u (ci_tag (snd c))) && forallb (fun d => negb (String.eqb (ci_tag (snd c)) (ci_tag (snd d))) || String.eqb (fst c) (fst d)) (w_classes W)) (w_classes W).

Lemma fastkml_tags arrow : tags_apart (fastkml arrow) = true.
Proof. vm_compute. reflexivity. Qed.

(** C65.  Two objects that are saved as the same text, with either library,
    any prefixes, indented or not, are of one class and have the data of one
    object; they are the same object when they are settled. *)
Theorem C65_same_text :
  forall arrow nss c1 ns1 nss1 attrs1 c2 ns2 nss2 attrs2 s,
  let W := fastkml arrow in let v1 := VObj c1 ns1 nss1 attrs1 in let v2 := VObj c2 ns2 nss2 attrs2 in
  map_ok (merge_ns nss) = true -> savable W (merge_ns nss) v1 -> savable W (merge_ns nss) v2 ->
  saved W v1 s -> saved W v2 s ->
  c1 = c2 /\ ns1 = ns2 /\ (exists v, same W v1 v /\ same W v2 v) /\ (settled W v1 = true -> settled W v2 = true -> v1 = v2).
Proof.
  intros arrow nss c1 ns1 nss1 attrs1 c2 ns2 nss2 attrs2 s W v1 v2 Hm [T1 [G1 [R1 N1]]] [T2 [G2 [R2 N2]]] S1 S2.
  destruct (saved_tree arrow v1 s T1 N1 S1) as (e1 & r & E1 & F1 & P1). destruct (saved_tree arrow v2 s T2 N2 S2) as (e2 & r' & E2 & F2 & P2). rewrite F1 in F2. injection F2 as <-.
  assert (Q1 := etree_tag _ _ _ _ _ _ _ _ E1). assert (Q2 := etree_tag _ _ _ _ _ _ _ _ E2). assert (Q : ns1 ++ u (tag_of W c1) = ns2 ++ u (tag_of W c2)) by (fold W in Q1, Q2; rewrite <- Q1, <- Q2, (respaced_tag _ _ P1), (respaced_tag _ _ P2); reflexivity).
  assert (Kl : forall c ns nss' attrs, typed W (VObj c ns nss' attrs) = true -> regular W (merge_ns nss) (VObj c ns nss' attrs) = true ->
    exists ci, In (c, ci) (w_classes W) /\ tag_of W c = ci_tag ci /\ good_name (u (ci_tag ci)) = true /\ good_ns ns = true).
  { intros c ns nss' attrs T G. unfold typed in T. cbn [vall] in T. apply andb_prop in T as [T _]. unfold typed_node in T. unfold tag_of. destruct (class_of W c) as [ci|] eqn:Ec; [|discriminate T]. exists ci.
    assert (I : In (c, ci) (w_classes W)) by (apply EmitProofs.sget_In; exact Ec). split; [exact I|]. split; [reflexivity|]. split.
    - assert (A := fastkml_tags arrow). unfold tags_apart in A. rewrite forallb_forall in A. specialize (A _ I). now apply andb_prop in A.
    - unfold regular in G. cbn [vall] in G. apply andb_prop in G as [G _]. apply andb_prop in G as [G _]. apply ueqb_eq in G. rewrite G. unfold default_ns. rewrite Ec. apply ns_get_good.
      unfold map_ok in Hm. apply andb_prop in Hm as [Hm _]. unfold nss_ok in Hm. now apply andb_prop in Hm. }
  destruct (Kl _ _ _ _ T1 G1) as (ci1 & I1 & Tg1 & Gn1 & Gs1). destruct (Kl _ _ _ _ T2 G2) as (ci2 & I2 & Tg2 & Gn2 & Gs2). rewrite Tg1, Tg2 in Q.
  destruct (tag_inj _ _ _ _ Gs1 Gs2 Gn1 Gn2 Q) as [En Et]. apply u_inj in Et.
  assert (Ec : c1 = c2).
  { assert (A := fastkml_tags arrow). unfold tags_apart in A. rewrite forallb_forall in A. specialize (A _ I1). apply andb_prop in A as [_ A]. rewrite forallb_forall in A. specialize (A _ I2). cbn [fst snd] in A.
    rewrite Et, String.eqb_refl in A. now apply String.eqb_eq in A. }
  subst c2 ns2. split; [reflexivity|]. split; [reflexivity|].
  assert (Rd : forall e nss' attrs, let v := VObj c1 ns1 nss' attrs in typed W v = true -> regular W (merge_ns nss) v = true -> readable W v = true -> etree W None Normal v = Ok e -> respaced e r ->
    from_string W true c1 None nss r = Ok (norm W None Normal v)).
  { intros e nss' attrs v T G R E P. transitivity (from_string W true c1 None nss e); [|exact (write_read arrow true nss c1 ns1 nss' attrs e Hm T G R E)]. unfold from_string. symmetry. apply C31_white_space_is_invisible_partial; [exact P|].
    intros ->. rewrite (etree_tag _ _ _ _ _ _ _ _ E). apply ends_with_app. }
  assert (D1 := Rd _ _ _ T1 G1 R1 E1 P1). assert (D2 := Rd _ _ _ T2 G2 R2 E2 P2). fold v1 in D1. fold v2 in D2. assert (D : norm W None Normal v1 = norm W None Normal v2) by (apply ok_inj; rewrite <- D1; exact D2). clear D1 D2. split.
  - exists (norm W None Normal v1). split; [apply same_norm; [exact (fastkml_ok arrow)|assumption..]|]. rewrite D. apply same_norm; [exact (fastkml_ok arrow)|assumption..].
  - intros Z1 Z2. rewrite <- (settled_norm W v1 (fastkml_ok arrow) T1 Z1), <- (settled_norm W v2 (fastkml_ok arrow) T2 Z2). exact D.
Qed.
Print Assumptions C65_same_text.

(** The condition is needed: an empty object is not written. *)
Definition twin (l : list (string * value)) : value := mk "features.Placemark" (("name", VStr (u "A")) :: l).
Definition twin1 : value := Eval vm_compute in twin [].
Definition twin2 : value := Eval vm_compute in twin [("times", mk "times.TimeStamp" [])].
Definition twin_text : ustr := Eval vm_compute in match to_string W0 registered_prefixes None Normal twin1 with Ok s => s | Err _ => [] end.

Example C65_example :
  map_ok (merge_ns nss0) = true /\ savable W0 (merge_ns nss0) twin1 /\ savable W0 (merge_ns nss0) twin2 /\ saved W0 twin1 twin_text /\ saved W0 twin2 twin_text /\
  twin1 <> twin2 /\ settled W0 twin1 = true /\ settled W0 twin2 = false.
Proof.
  split; [vm_compute; reflexivity|]. split; [repeat (split; [vm_compute; reflexivity|]); discriminate|]. split; [repeat (split; [vm_compute; reflexivity|]); discriminate|].
  split; [apply (saved_et _ _ _ registered_prefixes); vm_compute; reflexivity|]. split; [apply (saved_et _ _ _ registered_prefixes); vm_compute; reflexivity|].
  split; [vm_compute; discriminate|]. split; vm_compute; reflexivity.
Qed.

(** Texts of both libraries meet the hypotheses. *)
Example C65_both_libraries : savable W0 (merge_ns nss0) s_small /\ is_ok (lx_to_string W0 lxml_prefixes (fun _ => 0%nat) true None Normal s_small) = true /\ lxml_object s_small = true /\ settled W0 s_small = true.
Proof. split; [repeat (split; [vm_compute; reflexivity|]); discriminate|]. split; [vm_compute; reflexivity|]. split; vm_compute; reflexivity. Qed.
