(** * Documents read one after the other: C68. *)
From Coq Require Import String List NArith ZArith Bool.
From Verif Require Import Ustr UstrProofs Res Elem Value Geom Codec Api Tables Spec HarmlessProofs Session Samples.
Import ListNotations.
Local Open Scope string_scope.
Local Open Scope list_scope.

(** The name space [KML.parse] takes the document to be in: the argument, or
    what stands before [kml] in the tag of the root. *)
Inductive taken_from (k : call) (n : ustr) : Prop :=
| by_argument strict root : k = Parse strict (Some n) root -> taken_from k n
| by_root strict root : k = Parse strict None root -> e_tag root = n ++ u "kml" -> taken_from k n.

(** The call sets the entry [kml] itself. *)
Definition names_its_own (k : call) : Prop := exists n, n <> [] /\ taken_from k n.

(** The call leaves a dictionary with the entry [o] for [kml] as it is. *)
Definition leaves (o : option ustr) (k : call) : Prop := forall n, taken_from k n -> n = [] \/ o = Some n.

Lemma sset_twice {A} k (v w : A) l : sset k v (sset k w l) = sset k v l.
Proof.
  induction l as [|[k' v'] l IH]; cbn [sset]; [now rewrite String.eqb_refl|]. destruct (String.eqb k k') eqn:E; cbn [sset]; [now rewrite String.eqb_refl|]. now rewrite E, IH.
Qed.
Lemma sset_kept {A} k (v : A) l : sget k l = Some v -> sset k v l = l.
Proof.
  induction l as [|[k' v'] l IH]; cbn [sget sset]; [discriminate|]. destruct (String.eqb_spec k k') as [->|N]; [intro H; now injection H as ->|]. intro H. now rewrite (IH H).
Qed.
Lemma sset_nonempty {A} k (v : A) l : sset k v l <> [].
Proof. destruct l as [|[k' v'] l]; cbn [sset]; [discriminate|]. now destruct (String.eqb k k'). Qed.

Lemma parse_ns_taken strict root : parse_ns (e_tag root) = [] \/ taken_from (Parse strict None root) (parse_ns (e_tag root)).
Proof.
  unfold parse_ns. destruct (ends_with (e_tag root) (u "kml")) eqn:E; [|now left]. right. apply (by_root _ _ strict root); [reflexivity|].
  unfold ends_with in E. apply andb_prop in E as [E1 E2]. apply ueqb_eq in E2. change (length (u "kml")) with 3%nat in E2. change (length (u "kml")) with 3%nat. rewrite <- (firstn_skipn (length (e_tag root) - 3) (e_tag root)) at 1. now rewrite E2.
Qed.
Lemma taken_parse_ns tag n : tag = n ++ u "kml" -> parse_ns tag = n.
Proof.
  intros ->. unfold parse_ns. rewrite HarmlessProofs.ends_with_app, app_length. change (length (u "kml")) with 3%nat. rewrite Nat.add_sub, firstn_app, firstn_all, Nat.sub_diag. cbn. now rewrite app_nil_r.
Qed.

(** What a call does to the dictionary. *)
Lemma dict_step nss k : nss <> [] -> dict_after nss k = nss \/ exists n, n <> [] /\ taken_from k n /\ dict_after nss k = sset "kml" n nss.
Proof.
  intro N. destruct k as [strict ns root|]; [|now left]. unfold dict_after, kml_parse_dict. destruct nss as [|kv nss]; [now destruct N|].
  destruct ns as [n|].
  - destruct n as [|c n]; [now left|]. right. exists (c :: n). split; [discriminate|]. split; [now apply (by_argument _ _ strict root)|reflexivity].
  - destruct (parse_ns_taken strict root) as [E|T]; [rewrite E; now left|]. destruct (parse_ns (e_tag root)) as [|c n]; [now left|]. right. exists (c :: n). split; [discriminate|]. auto.
Qed.

Definition dict_of (nss : nss_t) (ks : list call) : nss_t := fold_left dict_after ks nss.

Lemma session_app W nss a b : session W nss (a ++ b) = session W nss a ++ session W (dict_of nss a) b.
Proof. revert nss. induction a as [|k a IH]; intro nss; [reflexivity|]. cbn [app session]. rewrite IH. reflexivity. Qed.

Lemma dict_empty ks : dict_of [] ks = [].
Proof. induction ks as [|k ks IH]; [reflexivity|]. cbn [dict_of fold_left]. replace (dict_after [] k) with (@nil (string * ustr)); [exact IH|]. now destruct k. Qed.

Lemma dict_is nss ks : nss <> [] -> dict_of nss ks = nss \/ exists n, n <> [] /\ (exists k, In k ks /\ taken_from k n) /\ dict_of nss ks = sset "kml" n nss.
Proof.
  intro N. induction ks as [|k ks IH] using rev_ind; [now left|]. unfold dict_of in *. rewrite fold_left_app. cbn [fold_left].
  destruct IH as [E|[n [Hn [[k0 [Hk T]] E]]]]; rewrite E.
  - destruct (dict_step nss k N) as [E'|[m [Hm [T E']]]]; rewrite E'; [now left|]. right. exists m. split; [exact Hm|]. split; [|reflexivity]. exists k. split; [apply in_or_app; right; now left|exact T].
  - right. destruct (dict_step (sset "kml" n nss) k (sset_nonempty _ _ _)) as [E'|[m [Hm [T' E']]]]; rewrite E'.
    + exists n. split; [exact Hn|]. split; [|reflexivity]. exists k0. split; [apply in_or_app; now left|exact T].
    + exists m. split; [exact Hm|]. split; [|apply sset_twice]. exists k. split; [apply in_or_app; right; now left|exact T'].
Qed.

Lemma dict_left nss ks : (forall k, In k ks -> leaves (sget "kml" nss) k) -> dict_of nss ks = nss.
Proof.
  destruct nss as [|kv nss]; [intros _; apply dict_empty|]. intro H. destruct (dict_is (kv :: nss) ks) as [E|[n [Hn [[k [Hk T]] E]]]]; [discriminate|exact E|].
  destruct (H k Hk n T) as [->|E']; [now destruct Hn|]. rewrite E. now apply sset_kept.
Qed.

Lemma own_called W nss m k : names_its_own k -> called W (sset "kml" m nss) k = called W nss k.
Proof.
  intros [n [Hn T]]. destruct T as [strict root ->|strict root -> E]; cbn [called]; unfold kml_parse; [|rewrite (taken_parse_ns _ _ E)];
    destruct n as [|c n]; try (now destruct Hn); cbn [uempty]; now rewrite sset_twice.
Qed.

(** The full claim is that documents do not influence each other: each call of a
    program gives what it gives alone.  That is false, see
    [C68_reading_in_turn_refuted].  It holds for every call at every place of
    every program if no name spaces are given (or an empty dictionary), if the
    call is a [KML.parse] of a document in a name space, or if the calls before
    it parsed only documents without name space or in that of the dictionary. *)
Theorem C68_reading_in_turn_partial :
  forall W nss before k after,
  nss = [] \/ names_its_own k \/ (forall k', In k' before -> leaves (sget "kml" nss) k') ->
  nth_error (session W nss (before ++ k :: after)) (length before) = Some (called W nss k).
Proof.
  intros W nss before k after H. rewrite session_app. assert (L : forall ks d, length (session W d ks) = length ks) by (induction ks as [|x ks IH]; intro d; [reflexivity|cbn [session length]; now rewrite IH]).
  rewrite nth_error_app2 by (rewrite L; apply le_n). rewrite L, Nat.sub_diag. cbn [session nth_error]. f_equal.
  destruct H as [->|[O|H]]; [now rewrite dict_empty| |now rewrite dict_left].
  destruct nss as [|kv nss]; [now rewrite dict_empty|]. destruct (dict_is (kv :: nss) before) as [->|[n [_ [_ ->]]]]; [discriminate|reflexivity|now apply own_called].
Qed.
Print Assumptions C68_reading_in_turn_partial.

(** What the dictionary of the caller holds afterwards: nothing has changed but
    the entry [kml], which may name the name space of one of the documents. *)
Theorem C68_dictionary :
  forall nss ks, let d := fold_left dict_after ks nss in
  (forall p, p <> "kml" -> sget p d = sget p nss) /\
  (sget "kml" d = sget "kml" nss \/ exists k n, In k ks /\ taken_from k n /\ n <> [] /\ sget "kml" d = Some n).
Proof.
  intros nss ks d. assert (G : forall (p q : string) (x : ustr) l, sget p (sset q x l) = if String.eqb p q then Some x else sget p l).
  { intros p q x l. induction l as [|[k' v'] l IH]; cbn [sset sget]; [now destruct (String.eqb p q)|].
    destruct (String.eqb_spec q k') as [->|N]; cbn [sget]; [now destruct (String.eqb p k')|]. rewrite IH. destruct (String.eqb_spec p k') as [->|]; [|reflexivity]. destruct (String.eqb_spec k' q); [congruence|reflexivity]. }
  destruct nss as [|kv nss]; [subst d; change (fold_left dict_after ks []) with (dict_of [] ks); rewrite dict_empty; auto|].
  destruct (dict_is (kv :: nss) ks) as [E|[n [Hn [[k [Hk T]] E]]]]; [discriminate|unfold dict_of in E; subst d; rewrite E; auto|]. unfold dict_of in E. subst d. rewrite E. split.
  - intros p Np. rewrite G. destruct (String.eqb_spec p "kml"); [contradiction|reflexivity].
  - right. exists k, n. rewrite G. auto.
Qed.
Print Assumptions C68_dictionary.

(** A file of the old name space is parsed, then a text in the current one is
    read: nothing of the text is found.  The text alone is read completely. *)
Definition old_file : elem := Elem (u "{http://earth.google.com/kml/2.1}kml") [] None [Elem (u "{http://earth.google.com/kml/2.1}Placemark") [] None []].
Definition new_text : elem := ke "kml" [] None [ke "Placemark" [] None [te "name" "p"]].
Definition my_spaces : nss_t := [("my", u "{urn:my}")].

Theorem C68_reading_in_turn_refuted :
  exists nss a b v v', session W0 nss [a; b] = [called W0 nss a; Ok v] /\ called W0 nss b = Ok v' /\ is_ok (called W0 nss a) = true /\
  (exists n d l, v = VObj "kml.KML" n d l /\ sget "features" l = Some (VList [])) /\
  (exists n d l x, v' = VObj "kml.KML" n d l /\ sget "features" l = Some (VList [x])).
Proof.
  exists my_spaces, (Parse true None old_file), (FromString true "kml.KML" None new_text). do 2 eexists.
  split; [vm_compute; reflexivity|]. split; [vm_compute; reflexivity|]. split; [vm_compute; reflexivity|]. split; do 3 eexists; [split; reflexivity|]. eexists. split; reflexivity.
Qed.
Print Assumptions C68_reading_in_turn_refuted.

(** ** Examples *)

(** Three files in two name spaces, in turn; and a text after files of the
    current name space only. *)
Example C68_example :
  let calls := [Parse true None old_file; Parse true None new_text; Parse false None old_file] in
  (forall k, In k calls -> names_its_own k) /\
  session W0 my_spaces calls = map (called W0 my_spaces) calls /\ forallb is_ok (session W0 my_spaces calls) = true /\
  (forall k, In k [Parse true None new_text] -> leaves (sget "kml" [("kml", KMLNS)]) k).
Proof.
  intro calls. split; [|split; [vm_compute; reflexivity|split; [vm_compute; reflexivity|]]].
  - assert (O : forall strict, names_its_own (Parse strict None old_file)).
    { intro strict. exists (u "{http://earth.google.com/kml/2.1}"). split; [discriminate|]. now apply (by_root _ _ strict old_file). }
    intros k [<-|[<-|[<-|[]]]]; [apply O| |apply O]. exists KMLNS. split; [discriminate|]. now apply (by_root _ _ true new_text).
  - intros k [<-|[]] n T. right. destruct T as [s r E|s r E E']; [discriminate E|]. injection E as <- <-. apply taken_parse_ns in E'. subst n. vm_compute. reflexivity.
Qed.
