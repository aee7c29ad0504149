(** * Lexical forms of the written values: C49. *)
From Coq Require Import String List NArith ZArith Bool Arith Lia.
From Verif Require Import Ustr UstrProofs Res PyInt PyFloat PyDate Elem Value Geom Codec Tables Spec Settled FastkmlOk RoundTrip
  Schema SchemaTables SchemaSpec SlotProofs SchemaProofs Lexical ValuesWritten LexicalProofs Facets FacetProofs Samples.
Import ListNotations.
Local Open Scope string_scope.

(** Full statement (C49): every value that is written is valid for the simple
    type that the bundled schema has for its element or attribute.

    That fails for infinite floats and NaN, integers beyond 32 bits, years
    before 1000 without a day and offsets with seconds or beyond 14 hours: see
    the refutations.  It holds for all other values ([plain_values]) as to the
    form of booleans, integers, numbers, dates and enumerations.  Nothing in the
    library checks that angles are in range and that colours, identifiers,
    e-mail addresses, media types and language tags have their patterns; they
    are valid in the document as far as the user's values are
    ([fitting]).  Left out: that identifiers are unique in a document. *)

Lemma fastkml_lex_ok arrow : lex_ok (fastkml arrow) = true.
Proof. vm_compute. reflexivity. Qed.

Theorem C49_values_well_written_partial :
  forall arrow prec vb nss v e, let W := fastkml arrow in
  schema_nss nss = true -> typed W v = true -> regular W nss v = true -> plain_values v = true ->
  etree W prec vb v = Ok e -> values_valid e.
Proof.
  intros arrow prec vb nss v e W M T R P He.
  exact (lex_written W (fastkml_ok arrow) prec vb nss M (fastkml_lex_ok arrow) v T R P e He).
Qed.
Print Assumptions C49_values_well_written_partial.

(** Ranges and patterns. *)
Lemma fastkml_facet_ok arrow : facet_ok (fastkml arrow) = true.
Proof. vm_compute. reflexivity. Qed.

Theorem C49_values_in_range_partial :
  forall arrow prec vb nss v e, let W := fastkml arrow in
  schema_nss nss = true -> typed W v = true -> regular W nss v = true -> fitting W v = true ->
  etree W prec vb v = Ok e -> facets_valid e.
Proof.
  intros arrow prec vb nss v e W M T R P He.
  exact (facets_written W (fastkml_ok arrow) prec vb nss M (fastkml_facet_ok arrow) v T R P e He).
Qed.
Print Assumptions C49_values_in_range_partial.

(** ** A document that meets the hypotheses *)

Example C49_example : schema_nss nss0 = true /\ typed W0 s_kml = true /\ regular W0 nss0 s_kml = true /\ plain_values s_kml = true /\
  match etree W0 None Verbose s_kml with Ok e => negb (nilb (e_kids e)) | Err _ => false end = true.
Proof. vm_compute. repeat split. Qed.

(** ** What is demanded of a document *)

Lemma texts_demanded (P : sname -> ustr -> Prop) : forall e ty, values_ok P schema_uris schema_types schema_elements ty e -> Forall (fun p => P (fst p) (snd p)) (typed_texts ty e).
Proof.
  fix IH 1. intros [t a x ks] ty H. cbn [values_ok typed_texts] in *. destruct (find _ schema_types) as [[? d]|]; [|constructor]. destruct H as [H1 [H2 H3]]. apply Forall_app. split; [|apply Forall_app; split].
  - destruct (d_text d); [constructor; [exact H1|constructor]|constructor].
  - apply Forall_forall. intros p Hp. apply in_flat_map in Hp as [[k v] [Hk Hp]]. apply in_flat_map in Hp as [y [Hy Hp]]. cbn [fst snd] in Hp. destruct (ueqb k (u (fst (fst y)))) eqn:E; [|contradiction]. destruct Hp as [<-|[]]. cbn [fst snd]. apply ueqb_eq in E. eauto.
  - clear H1 H2. induction ks as [|k ks IHk]; [constructor|]. destruct H3 as [H3 H4]. apply Forall_app. split; [|exact (IHk H4)]. destruct (S_kid d (e_tag k)); [now apply IH|constructor].
Qed.

(** The document of the example has texts of all these types. *)
Example C49_example_types : forall e, etree W0 None Verbose s_kml = Ok e -> Forall (fun p => well_written (fst p) (snd p)) (document_texts e).
Proof.
  intros e H. assert (V : values_valid e) by (refine (C49_values_well_written_partial (fun _ => None) None Verbose nss0 s_kml e _ _ _ _ H); vm_compute; reflexivity).
  unfold values_valid, document_values_ok in V. unfold document_texts. destruct (lookup _ _ _); [now apply texts_demanded|constructor].
Qed.
Example C49_example_covers :
  match etree W0 None Verbose s_kml with
  | Ok e => forallb (fun st => existsb (fun p => sname_eqb st (fst p)) (document_texts e))
              [("xs", "boolean"); ("xs", "double"); ("kml", "dateTimeType"); ("kml", "altitudeModeEnumType"); ("kml", "styleStateEnumType")]
  | Err _ => false
  end = true.
Proof. vm_compute. reflexivity. Qed.

(** ** Where it fails *)

Definition written_badly (v : value) : Prop :=
  exists nss e, schema_nss nss = true /\ typed W0 v = true /\ regular W0 nss v = true /\ etree W0 None Normal v = Ok e /\ ~ values_valid e.

Lemma badly v e st s : typed W0 v = true -> regular W0 nss0 v = true -> etree W0 None Normal v = Ok e ->
  existsb (fun p => sname_eqb st (fst p) && ueqb s (snd p)) (document_texts e) = true -> ~ well_written st s -> written_badly v.
Proof.
  intros T R E H N. exists nss0, e. repeat split; auto. intro V. apply N. unfold values_valid, document_values_ok in V. unfold document_texts in H. destruct (lookup _ _ _) as [ty|]; [|discriminate H].
  assert (A := texts_demanded _ _ _ V). rewrite Forall_forall in A. apply existsb_exists in H as [[st' s'] [Hp H]]. specialize (A _ Hp). cbn [fst snd] in *. apply andb_prop in H as [H1 H2]. apply sname_eqb_eq in H1. apply ueqb_eq in H2. now subst.
Qed.
Ltac badly v st s :=
  let e := eval vm_compute in (match etree W0 None Normal v with Ok e => e | Err _ => new_elem ([] : ustr) end) in
  apply (badly v e st (u s)); [vm_compute; reflexivity|vm_compute; reflexivity|vm_compute; reflexivity|vm_compute; reflexivity|].

(** *** Forms that are none *)

Definition double_char (c : N) : bool := is_adigit c || existsb (N.eqb c) [43; 45; 46; 69; 101]%N.
Lemma digits_double_chars s : digits s -> forallb double_char s = true.
Proof. unfold digits. rewrite !forallb_forall. intros H x Hx. unfold double_char. now rewrite (H _ Hx). Qed.
Lemma double_chars s : is_double s -> In s [u "INF"; u "-INF"; u "NaN"] \/ forallb double_char s = true.
Proof.
  intros [H|(sg & m & ex & S & M & X & ->)]; [now left|right]. rewrite !forallb_app, !andb_true_iff.
  assert (Sg : forall sg, sign sg -> forallb double_char sg = true) by (intros x [->|[->| ->]]; reflexivity). split; [now apply Sg|]. split.
  - destruct M as [[_ D]|(a & b & -> & D1 & D2 & _)]; [now apply digits_double_chars|]. rewrite !forallb_app, !andb_true_iff. repeat split; now apply digits_double_chars.
  - destruct X as [->|(e & sg' & d & He & S' & _ & D & ->)]; [reflexivity|]. rewrite !forallb_app, !andb_true_iff. split; [destruct He as [->| ->]; reflexivity|]. split; [now apply Sg|now apply digits_double_chars].
Qed.

Lemma int_below s : is_int s -> forallb is_adigit s = true -> (digits_val s <= 2147483647)%Z.
Proof.
  intros (sg & d & z & S & (_ & _ & Dv) & -> & B) H. rewrite forallb_app in H. apply andb_prop in H as [H _]. destruct S as [->|[->| ->]]; try discriminate H. cbn [app]. rewrite Dv. cbn in B. lia.
Qed.

(** Characters of dates. *)
Definition count (c : N) (s : ustr) : nat := length (filter (N.eqb c) s).
Lemma count_app c a b : count c (a ++ b)%list = count c a + count c b.
Proof. unfold count. now rewrite filter_app, app_length. Qed.
Lemma count_digits c s : is_adigit c = false -> digits s -> count c s = 0.
Proof.
  unfold digits, count. intros H D. induction s as [|x s IH]; [reflexivity|]. cbn [forallb] in D. apply andb_prop in D as [D1 D2]. cbn [filter]. destruct (N.eqb_spec c x) as [->|]; [congruence|exact (IH D2)].
Qed.
Lemma year_count c s y : is_adigit c = false -> year_text s y -> count c s = 0.
Proof. intros H [[_ [D _]] _]. now apply count_digits. Qed.
Lemma two_count c n s z : is_adigit c = false -> denotes_in n s z -> count c s = 0.
Proof. intros H [_ [_ [D _]]]. now apply count_digits. Qed.
Lemma sixty_count c s : is_adigit c = false -> sixty s -> count c s = 0.
Proof. intros H [x [D _]]. eapply two_count; eauto. Qed.

(** A date is a part without "+" and with at most two ":", and a zone. *)
Lemma date_split s : is_kml_date s -> exists x z, s = (x ++ z)%list /\ zone z /\ count 43 x = 0 /\ (count 58 x <= 2)%nat /\ (4 <= length x)%nat.
Proof.
  assert (Y4 : forall y yz r, year_text y yz -> (4 <= length (y ++ r)%list)%nat) by (intros y yz r [_ [_ [H _]]]; rewrite app_length; lia).
  assert (DT : forall d, date_text d -> count 43 d = 0 /\ count 58 d = 0 /\ forall r, (4 <= length (d ++ r)%list)%nat).
  { intros d (y & yz & mm & mz & dd & Y & [M _] & [dz [D _]] & ->). rewrite !count_app, !(year_count 43%N _ _ eq_refl Y), !(year_count 58%N _ _ eq_refl Y), !(two_count 43%N _ _ _ eq_refl M), !(two_count 58%N _ _ _ eq_refl M), !(two_count 43%N _ _ _ eq_refl D), !(two_count 58%N _ _ _ eq_refl D). repeat split. intro r. rewrite <- app_assoc. now apply (Y4 y yz). }
  intros [(d & t & z & D & T & Z & ->)|[(d & z & D & Z & ->)|[(y & yz & mm & mz & z & Y & [M _] & Z & ->)|(y & yz & z & Y & Z & ->)]]].
  - destruct (DT _ D) as [D1 [D2 D3]]. exists (d ++ u "T" ++ t)%list, z. split; [now rewrite <- !app_assoc|]. split; [exact Z|]. rewrite !count_app, D1, D2.
    destruct T as (h & hz & mi & sec & fr & H & _ & Mi & Se & Fr & ->). rewrite !count_app, !(two_count 43%N _ _ _ eq_refl H), !(two_count 58%N _ _ _ eq_refl H), !(sixty_count 43%N _ eq_refl Mi), !(sixty_count 58%N _ eq_refl Mi), !(sixty_count 43%N _ eq_refl Se), !(sixty_count 58%N _ eq_refl Se).
    assert (F : count 43 fr = 0 /\ count 58 fr = 0) by (destruct Fr as [->|(f & _ & Df & ->)]; [split; reflexivity|]; rewrite !count_app, !(count_digits 43%N _ eq_refl Df), !(count_digits 58%N _ eq_refl Df); split; reflexivity). destruct F as [-> ->]. split; [reflexivity|split; [cbn; lia|apply D3]].
  - destruct (DT _ D) as [D1 [D2 D3]]. exists d, z. rewrite D1, D2. split; [reflexivity|]. split; [exact Z|]. split; [reflexivity|]. split; [lia|]. specialize (D3 []). now rewrite app_nil_r in D3.
  - exists (y ++ u "-" ++ mm)%list, z. split; [now rewrite <- !app_assoc|]. split; [exact Z|]. rewrite !count_app, !(year_count 43%N _ _ eq_refl Y), !(year_count 58%N _ _ eq_refl Y), !(two_count 43%N _ _ _ eq_refl M), !(two_count 58%N _ _ _ eq_refl M). split; [reflexivity|split; [cbn; lia|]]. now apply (Y4 y yz).
  - exists y, z. rewrite !(year_count 43%N _ _ eq_refl Y), !(year_count 58%N _ _ eq_refl Y). split; [reflexivity|]. split; [exact Z|]. split; [reflexivity|]. split; [lia|]. destruct Y as [_ [_ [Y _]]]. exact Y.
Qed.

Lemma zone_colons z : zone z -> (count 58 z <= 1)%nat.
Proof.
  intros [->|[->|(sg & h & hz & mm & S & H & M & _ & ->)]]; [cbn; lia|cbn; lia|]. rewrite !count_app, (two_count 58%N _ _ _ eq_refl H), (sixty_count 58%N _ eq_refl M). destruct S as [->| ->]; cbn; lia.
Qed.

(** What follows the first "+". *)
Fixpoint after_plus (s : ustr) : ustr := match s with [] => [] | c :: r => if N.eqb 43 c then r else after_plus r end.
Lemma after_plus_app x z : count 43 x = 0 -> after_plus (x ++ z)%list = after_plus z.
Proof. unfold count. induction x as [|c x IH]; [reflexivity|]. cbn [filter app after_plus]. destruct (N.eqb 43 c); [discriminate|exact IH]. Qed.
Lemma zone_hours z : zone z -> after_plus z <> [] -> (digits_val (firstn 2 (after_plus z)) <= 14)%Z.
Proof.
  intros [->|[->|(sg & h & hz & mm & S & Hd & M & B & ->)]] N; [now destruct N|now destruct N|]. assert (Hd' := Hd). destruct Hd' as [Hl [_ [_ Hv]]]. destruct S as [->| ->].
  - change (u "+" ++ h ++ u ":" ++ mm)%list with (43%N :: (h ++ u ":" ++ mm)%list). cbn [after_plus N.eqb Pos.eqb]. rewrite firstn_app, Hl, Nat.sub_diag, firstn_O, app_nil_r, firstn_all2 by lia. rewrite Hv. lia.
  - exfalso. apply N. change (u "-" ++ h ++ u ":" ++ mm)%list with (45%N :: (h ++ u ":" ++ mm)%list). cbn [after_plus N.eqb Pos.eqb].
    assert (C : count 43 (h ++ u ":" ++ mm)%list = 0).
    { rewrite !count_app, (sixty_count 43%N _ eq_refl M). now rewrite (two_count 43%N _ _ _ eq_refl Hd). }
    rewrite <- (app_nil_r (h ++ u ":" ++ mm)%list). now rewrite (after_plus_app _ []).
Qed.

(** *** Values *)

(** kml:heading "inf"; XML Schema writes INF. *)
Theorem C49_infinity_refuted : exists v, written_badly v.
Proof.
  exists (mk "views.LookAt" [("heading", VFloat (FInf false))]). badly (mk "views.LookAt" [("heading", VFloat (FInf false))]) ("kml", "angle360Type") "inf".
  intro H. destruct (double_chars _ H) as [Q|Q]; [|discriminate Q]. repeat (destruct Q as [Q|Q]; [discriminate Q|]). contradiction.
Qed.
Print Assumptions C49_infinity_refuted.
(** kml:heading "nan"; XML Schema writes NaN. *)
Theorem C49_nan_refuted : exists v, written_badly v.
Proof.
  exists (mk "views.LookAt" [("heading", VFloat FNan)]). badly (mk "views.LookAt" [("heading", VFloat FNan)]) ("kml", "angle360Type") "nan".
  intro H. destruct (double_chars _ H) as [Q|Q]; [|discriminate Q]. repeat (destruct Q as [Q|Q]; [discriminate Q|]). contradiction.
Qed.
Print Assumptions C49_nan_refuted.
(** kml:drawOrder of 2^31 *)
Theorem C49_big_integer_refuted : exists v, written_badly v.
Proof.
  exists (mk "overlays.GroundOverlay" [("draw_order", VInt 2147483648)]). badly (mk "overlays.GroundOverlay" [("draw_order", VInt 2147483648)]) ("xs", "int") "2147483648".
  intro H. assert (Q := int_below _ H eq_refl). vm_compute in Q. now apply Q.
Qed.
Print Assumptions C49_big_integer_refuted.
(** kml:when of the year 999 *)
Theorem C49_early_year_refuted : exists v, written_badly v.
Proof.
  pose (v := mk "times.TimeStamp" [("timestamp", VDate (mkKdt (PDate (mkDate 999 1 1)) RYear))]). exists v. badly v ("kml", "dateTimeType") "999".
  intro H. change (is_kml_date (u "999")) in H. destruct (date_split _ H) as (x & z & E & _ & _ & _ & L). apply (f_equal (@length N)) in E. rewrite app_length in E. cbn in E. lia.
Qed.
Print Assumptions C49_early_year_refuted.
(** kml:when at an offset of thirty seconds *)
Theorem C49_offset_seconds_refuted : exists v, written_badly v.
Proof.
  pose (v := mk "times.TimeStamp" [("timestamp", VDate (mkKdt (PDateTime (mkDT (mkDate 2000 1 1) 0 0 0 0 (Some 30%Z))) RDateTime))]). exists v. badly v ("kml", "dateTimeType") "2000-01-01T00:00:00+00:00:30".
  intro H. change (is_kml_date (u "2000-01-01T00:00:00+00:00:30")) in H. destruct (date_split _ H) as (x & z & E & Z & _ & C & _). assert (C' := zone_colons _ Z). apply (f_equal (count 58)) in E. rewrite count_app in E. change (count 58 (u "2000-01-01T00:00:00+00:00:30")) with 4 in E. lia.
Qed.
Print Assumptions C49_offset_seconds_refuted.
(** kml:when at an offset of fifteen hours *)
Theorem C49_wide_offset_refuted : exists v, written_badly v.
Proof.
  pose (v := mk "times.TimeStamp" [("timestamp", VDate (mkKdt (PDateTime (mkDT (mkDate 2000 1 1) 0 0 0 0 (Some 54000%Z))) RDateTime))]). exists v. badly v ("kml", "dateTimeType") "2000-01-01T00:00:00+15:00".
  intro H. change (is_kml_date (u "2000-01-01T00:00:00+15:00")) in H. destruct (date_split _ H) as (x & z & E & Z & C & _ & _). assert (A := zone_hours z Z). apply (f_equal after_plus) in E. rewrite after_plus_app in E by exact C. rewrite <- E in A.
  assert (Q : (15 <= 14)%Z) by (apply A; vm_compute; discriminate). lia.
Qed.
Print Assumptions C49_wide_offset_refuted.

(** *** Ranges and patterns *)

(** A document with values of all these types. *)
Definition s_ranges : value :=
  mk "containers.Document" [("id", str "d1"); ("atom_author", mk "atom.Author" [("name", str "N"); ("email", str "n@example.org")]);
    ("atom_link", mk "atom.Link" [("href", str "http://example.org"); ("type", str "text/html"); ("hreflang", str "en-GB")]);
    ("view", mk "views.LookAt" [("longitude", fl "-180.0"); ("latitude", fl "89.99999999999999"); ("heading", fl "-0.0"); ("tilt", fl "90.0"); ("range", fl "1e+300")]);
    ("styles", VList [mk "styles.Style" [("id", str "s"); ("styles", VList [mk "styles.LineStyle" [("color", str "fF0a09B8")]])]])].
Example C49_ranges_example : schema_nss nss0 = true /\ typed W0 s_ranges = true /\ regular W0 nss0 s_ranges = true /\ plain_values s_ranges = true /\ fitting W0 s_ranges = true /\
  match etree W0 None Normal s_ranges with
  | Ok e => forallb (fun st => existsb (fun p => sname_eqb st (fst p)) (document_texts e))
              ([("xs", "ID")] ++ [("kml", "angle180Type"); ("kml", "angle90Type"); ("kml", "angle360Type"); ("kml", "anglepos180Type"); ("kml", "colorType")] ++
               [("atom", "atomEmailAddress"); ("atom", "atomMediaType"); ("atom", "atomLanguageTag")])%list
  | Err _ => false
  end = true.
Proof. vm_compute. repeat split. Qed.

Definition written_out_of_range (v : value) : Prop :=
  exists nss e, schema_nss nss = true /\ typed W0 v = true /\ regular W0 nss v = true /\ plain_values v = true /\ etree W0 None Normal v = Ok e /\ ~ facets_valid e.

Lemma out_of_range v e st s : typed W0 v = true -> regular W0 nss0 v = true -> plain_values v = true -> etree W0 None Normal v = Ok e ->
  existsb (fun p => sname_eqb st (fst p) && ueqb s (snd p)) (document_texts e) = true -> ~ facet st s -> written_out_of_range v.
Proof.
  intros T R P E H N. exists nss0, e. repeat split; auto. intro V. apply N. unfold facets_valid, document_values_ok in V. unfold document_texts in H. destruct (lookup _ _ _) as [ty|]; [|discriminate H].
  assert (A := texts_demanded _ _ _ V). rewrite Forall_forall in A. apply existsb_exists in H as [[st' s'] [Hp H]]. specialize (A _ Hp). cbn [fst snd] in *. apply andb_prop in H as [H1 H2]. apply sname_eqb_eq in H1. apply ueqb_eq in H2. now subst.
Qed.
Ltac out_of_range v st s :=
  let e := eval vm_compute in (match etree W0 None Normal v with Ok e => e | Err _ => new_elem ([] : ustr) end) in
  apply (out_of_range v e st (u s)); [vm_compute; reflexivity|vm_compute; reflexivity|vm_compute; reflexivity|vm_compute; reflexivity|vm_compute; reflexivity|].

(** kml:tilt of 180.5 degrees *)
Theorem C49_angle_refuted : exists v, written_out_of_range v.
Proof.
  pose (v := mk "views.LookAt" [("tilt", fl "180.5")]). exists v. out_of_range v ("kml", "anglepos180Type") "180.5".
  intros (f & E & B). vm_compute in E. injection E as <-. vm_compute in B. discriminate B.
Qed.
Print Assumptions C49_angle_refuted.
(** kml:color red *)
Theorem C49_colour_refuted : exists v, written_out_of_range v.
Proof. pose (v := mk "styles.LineStyle" [("color", str "red")]). exists v. out_of_range v ("kml", "colorType") "red". intro H. vm_compute in H. discriminate H. Qed.
Print Assumptions C49_colour_refuted.
(** An identifier that begins with a digit *)
Theorem C49_identifier_refuted : exists v, written_out_of_range v.
Proof. pose (v := mk "views.LookAt" [("id", str "1a"); ("tilt", fl "90.0")]). exists v. out_of_range v ("xs", "ID") "1a". intro H. vm_compute in H. discriminate H. Qed.
Print Assumptions C49_identifier_refuted.
(** atom:email without @ *)
Theorem C49_email_refuted : exists v, written_out_of_range v.
Proof. pose (v := mk "atom.Author" [("name", str "N"); ("email", str "nobody")]). exists v. out_of_range v ("atom", "atomEmailAddress") "nobody". intro H. vm_compute in H. discriminate H. Qed.
Print Assumptions C49_email_refuted.
