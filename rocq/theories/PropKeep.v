(** * Saving never redirects a reference: C79. *)
From Coq Require Import String List NArith ZArith Bool Lia.
From Verif Require Import Ustr UstrProofs Res PyInt PyFloat PyDate Elem Value Geom Codec Tables Spec Settled Same FastkmlOk EmitProofs RoundTrip
  Find FindSpec FindProofs PropFind PropRoundTrip Effective PropVerbosity KeepProofs KeepVerbosity Samples.
Import ListNotations.
Local Open Scope string_scope.
Local Open Scope list_scope.

(** A style is found only if it was there before saving, with the same data and,
    but for white space around it, the same id. *)
Theorem C79_not_invented : forall arrow ga bad_host strict nss c ns nss' attrs e url t', let W := fastkml arrow in let v := VObj c ns nss' attrs in
  id_plain ga -> map_ok (merge_ns nss) = true -> typed W v = true -> regular W (merge_ns nss) v = true -> readable W v = true -> etree W None Normal v = Ok e ->
  strip (fragment url) <> [] ->
  forall v', from_string W strict c None nss e = Ok v' -> get_style_by_url W ga bad_host v' url = Ok (Some t') ->
  exists t s j, t' = OVal s /\ inside v t /\ style W t /\ has_id t j /\ strip j = strip (fragment url) /\ same W t s.
Proof.
  intros arrow ga bad_host strict nss c ns nss' attrs e url t' W v G Hm Ht Hg Hr He Nf v' R F.
  destruct (C01_write_read_same_data arrow strict nss c ns nss' attrs e Hm Ht Hg Hr He) as [v2 [R2 S]]. fold W in R2, S. rewrite R in R2. injection R2 as <-.
  assert (B : bad_host url = false) by (unfold get_style_by_url in F; destruct (bad_host url); [discriminate F|reflexivity]).
  destruct (C20_style_partial W ga bad_host v' url G B) as [[N _]|[s [p [F' [Hi [Hs [Hid _]]]]]]]; [congruence|]. rewrite F in F'. injection F' as ->.
  destruct (C45_reader_is_typed arrow strict e c _ _ v' R) as [T' [_ [attrs' Ev]]]. assert (T2 : vall (typed_node W) v' = true) by (rewrite Ev in *; exact T').
  destruct Hs as [c2 [ns2 [nss2 [at2 [Es Hs]]]]]. destruct (same_inside W v' s Hi v c2 ns2 nss2 at2 S T2 Es) as [t [Hit St]].
  assert (Hs' : style W s) by (exists c2, ns2, nss2, at2; auto).
  destruct (same_style arrow t s (fragment url) St Hs' Hid) as [Ht' Hj]. destruct (Hj Nf) as [j [Hj1 Hj2]].
  exists t, s, j. repeat split; assumption.
Qed.
Print Assumptions C79_not_invented.

(** More generally, every object found in what was loaded, by whatever query,
    has the data of an object of the same class that was there before. *)
Theorem C79_nothing_new : forall arrow ga q strict nss c ns nss' attrs e, let W := fastkml arrow in let v := VObj c ns nss' attrs in
  map_ok (merge_ns nss) = true -> typed W v = true -> regular W (merge_ns nss) v = true -> readable W v = true -> etree W None Normal v = Ok e ->
  forall v' l, from_string W strict c None nss e = Ok v' -> find_all W ga q (OVal v') = Ok l ->
  forall c2 ns2 nss2 attrs2, In (OVal (VObj c2 ns2 nss2 attrs2)) l ->
  exists attrs1, inside v (VObj c2 ns2 nss2 attrs1) /\ same W (VObj c2 ns2 nss2 attrs1) (VObj c2 ns2 nss2 attrs2).
Proof.
  intros arrow ga q strict nss c ns nss' attrs e W v Hm Ht Hg Hr He v' l R F c2 ns2 nss2 attrs2 Hin.
  destruct (C01_write_read_same_data arrow strict nss c ns nss' attrs e Hm Ht Hg Hr He) as [v2 [R2 S]]. fold W in R2, S. rewrite R in R2. injection R2 as <-.
  apply (C19_library_objects W ga q v' l F) in Hin as [Hi _].
  destruct (C45_reader_is_typed arrow strict e c _ _ v' R) as [T' [_ [attrs' Ev]]]. assert (T2 : vall (typed_node W) v' = true) by (rewrite Ev in *; exact T').
  destruct (same_inside W v' _ Hi v c2 ns2 nss2 attrs2 S T2 eq_refl) as [t [Hit St]].
  inversion St as [x Hx| | | | | | | | | | | |? ci ? ? attrs1 ? Hc Hs]; subst; [destruct Hx|]. exists attrs1. split; [exact Hit|exact St].
Qed.
Print Assumptions C79_nothing_new.

(** If no two different styles of the document have the same id (up to white
    space around it), a reference that resolves before saving and afterwards
    resolves to the same data. *)
Theorem C79_not_redirected : forall arrow ga bad_host strict nss c ns nss' attrs e url t t', let W := fastkml arrow in let v := VObj c ns nss' attrs in
  id_plain ga -> map_ok (merge_ns nss) = true -> typed W v = true -> regular W (merge_ns nss) v = true -> readable W v = true -> etree W None Normal v = Ok e ->
  strip (fragment url) <> [] ->
  (forall y z i j, inside v y -> inside v z -> style W y -> style W z -> has_id y i -> has_id z j -> strip i = strip j -> y = z) ->
  forall v', from_string W strict c None nss e = Ok v' ->
  get_style_by_url W ga bad_host v url = Ok (Some t) -> get_style_by_url W ga bad_host v' url = Ok (Some t') ->
  exists s s', t = OVal s /\ t' = OVal s' /\ same W s s'.
Proof.
  intros arrow ga bad_host strict nss c ns nss' attrs e url t t' W v G Hm Ht Hg Hr He Nf Un v' R F F'.
  destruct (C79_not_invented arrow ga bad_host strict nss c ns nss' attrs e url t' G Hm Ht Hg Hr He Nf v' R F') as [y [s' [j [-> [Hy [Sy [Hj [Ej S]]]]]]]].
  assert (B : bad_host url = false) by (unfold get_style_by_url in F; destruct (bad_host url); [discriminate F|reflexivity]).
  destruct (C20_style_partial W ga bad_host v url G B) as [[N _]|[s [p [F2 [Hi [Hs [Hid _]]]]]]]; [congruence|]. rewrite F in F2. injection F2 as ->.
  exists s, s'. split; [reflexivity|]. split; [reflexivity|]. rewrite (Un s y _ _ Hi Hy Hs Sy Hid Hj (eq_sym Ej)). exact S.
Qed.
Print Assumptions C79_not_redirected.

(** The same for a document saved with any verbosity: a style that is found has,
    up to defaults ([alike], C12), the data of a style that was there. *)
Theorem C79_every_verbosity : forall arrow ga bad_host strict vb c ns nss attrs e e0 url t', let W := fastkml arrow in let v := VObj c ns nss attrs in
  id_plain ga -> typed W v = true -> rt_ok W v = true -> readable W v = true -> etree W None vb v = Ok e -> etree W None Normal v = Ok e0 ->
  strip (fragment url) <> [] ->
  forall v', from_element W strict e c ns nss = Ok v' -> get_style_by_url W ga bad_host v' url = Ok (Some t') ->
  exists t s s0 j, t' = OVal s /\ inside v t /\ style W t /\ has_id t j /\ strip j = strip (fragment url) /\ alike W s s0 /\ same W t s0.
Proof.
  intros arrow ga bad_host strict vb c ns nss attrs e e0 url t' W v G Ht Hr Hrd He He0 Nf v' R F.
  destruct (C12_same_effective_values arrow strict None vb c ns nss attrs e e0 Ht Hr He He0) as [x [x0 [R1 [R2 A]]]]. fold W in R1, R2, A. rewrite R in R1. injection R1 as <-.
  destruct (C01_any_name_spaces arrow strict c ns nss attrs e0 Ht Hr He0) as [x2 [R3 S]]. fold W in R3, S. rewrite R2 in R3. injection R3 as <-. specialize (S Hrd).
  assert (B : bad_host url = false) by (unfold get_style_by_url in F; destruct (bad_host url); [discriminate F|reflexivity]).
  destruct (C20_style_partial W ga bad_host v' url G B) as [[N _]|[s [p [F' [Hi [Hs [Hid _]]]]]]]; [congruence|]. rewrite F in F'. injection F' as ->.
  assert (T : forall z k, from_element W strict k c ns nss = Ok z -> vall (typed_node W) z = true).
  { intros z k Rz. destruct (C45_reader_is_typed arrow strict k c _ _ z Rz) as [T' [_ [attrs' Ev]]]. rewrite Ev in *. exact T'. }
  assert (Hs1 := Hs). destruct Hs1 as [c2 [ns2 [nss2 [at2 [Es _]]]]]. destruct (alike_inside arrow v' s Hi x0 c2 ns2 nss2 at2 A (T _ _ R) Es) as [s0 [Hi0 A0]].
  destruct (alike_style arrow s s0 (fragment url) A0 Hs Hid) as [Hs0 Hid0]. assert (Hs2 := Hs0). destruct Hs2 as [c3 [ns3 [nss3 [at3 [Es0 _]]]]].
  destruct (same_inside W x0 s0 Hi0 v c3 ns3 nss3 at3 S (T _ _ R2) Es0) as [t [Hit St]].
  destruct (same_style arrow t s0 (fragment url) St Hs0 Hid0) as [Ht' Hj]. destruct (Hj Nf) as [j [Hj1 Hj2]].
  exists t, s, s0, j. repeat split; assumption.
Qed.
Print Assumptions C79_every_verbosity.

(** A settled document keeps all its references. *)
Theorem C79_settled : forall arrow ga bad_host strict nss c ns nss' attrs e url, let W := fastkml arrow in let v := VObj c ns nss' attrs in
  map_ok (merge_ns nss) = true -> typed W v = true -> regular W (merge_ns nss) v = true -> readable W v = true -> settled W v = true -> etree W None Normal v = Ok e ->
  exists v', from_string W strict c None nss e = Ok v' /\ get_style_by_url W ga bad_host v' url = get_style_by_url W ga bad_host v url.
Proof.
  intros arrow ga bad_host strict nss c ns nss' attrs e url W v Hm Ht Hg Hr Hs He. exists v. split; [|reflexivity]. exact (C01_write_read_identity arrow strict nss c ns nss' attrs e Hm Ht Hg Hr Hs He).
Qed.
Print Assumptions C79_settled.

Definition k_style (name own : string) (subs : list value) : value := mk "styles.Style" [("id", str name); ("target_id", str own); ("styles", VList subs)].
Definition k_line : value := mk "styles.LineStyle" [("width", fl "2")].
Definition k_map (name : string) : value := mk "styles.StyleMap" [("id", str name); ("pairs", VList [mk "styles.Pair" [("key", VEnum "enums.PairKey" (u "normal")); ("style", mk "styles.StyleUrl" [("url", str "#x")])]])].
Definition k_doc (styles : list value) : value := mk "containers.Document" [("styles", VList styles)].
Definition k_saved (v : value) : res value := let! e := etree W0 None Normal v in from_string W0 true "containers.Document" None nss0 e.
Definition k_get (v : value) (x : string) : res (option pyobj) := get_style_by_url W0 instance_attr (fun _ => false) v (u x).
Definition k_fine (v : value) : bool := typed W0 v && regular W0 (merge_ns nss0) v && readable W0 v.

(** References can be lost: a style without contents is not written. *)
Theorem C79_lost : exists v v' x s, k_fine v = true /\ k_saved v = Ok v' /\ k_get v x = Ok (Some s) /\ k_get v' x = Ok None.
Proof. exists (k_doc [k_style "a" "" []]), (k_doc []), "#a", (OVal (k_style "a" "" [])). repeat match goal with |- _ /\ _ => split; [vm_compute; reflexivity|] end. vm_compute. reflexivity. Qed.
Print Assumptions C79_lost.

(** With one id for two styles saving can redirect: styles and style maps are
    grouped. *)
Theorem C79_one_id_twice : exists v v' x s s', k_fine v = true /\ k_saved v = Ok v' /\ k_get v x = Ok (Some (OVal s)) /\ k_get v' x = Ok (Some (OVal s')) /\
  is_class "styles.StyleMap" s = true /\ is_class "styles.Style" s' = true.
Proof.
  exists (k_doc [k_map "a"; k_style "a" "" [k_line]]), (k_doc [k_style "a" "" [k_line]; k_map "a"]), "#a", (k_map "a"), (k_style "a" "" [k_line]). repeat match goal with |- _ /\ _ => split; [vm_compute; reflexivity|] end. vm_compute. reflexivity.
Qed.
Print Assumptions C79_one_id_twice.

Example C79_example :
  let v := k_doc [k_map "m"; k_style "a" " t" [k_line]; k_style "e" "" []] in
  k_fine v = true /\ map_ok (merge_ns nss0) = true /\ settled W0 v = false /\
  (let! v' := k_saved v in k_get v' "#a") = Ok (Some (OVal (k_style "a" " t" [k_line]))) /\ k_get v "#a" = Ok (Some (OVal (k_style "a" " t" [k_line]))) /\
  (let! v' := k_saved v in k_get v' "#m") = Ok (Some (OVal (k_map "m"))) /\ (let! v' := k_saved v in k_get v' "#e") = Ok None.
Proof. cbv zeta. repeat match goal with |- _ /\ _ => split; [vm_compute; reflexivity|] end. vm_compute. reflexivity. Qed.

(** The document of the example has no id twice. *)
Example C79_example_ids :
  let v := k_doc [k_map "m"; k_style "a" " t" [k_line]; k_style "e" "" []] in
  forall y z i j, inside v y -> inside v z -> style W0 y -> style W0 z -> has_id y i -> has_id z j -> strip i = strip j -> y = z.
Proof.
  intro v. set (q := mkQuery (Some ["styles.Style"; "styles.StyleMap"]) []).
  assert (F : find_all W0 instance_attr q (OVal v) = Ok [OVal (k_map "m"); OVal (k_style "a" " t" [k_line]); OVal (k_style "e" "" [])]) by (vm_compute; reflexivity).
  assert (K : forall y i, inside v y -> style W0 y -> has_id y i -> (y = k_map "m" /\ i = u "m") \/ (y = k_style "a" " t" [k_line] /\ i = u "a") \/ (y = k_style "e" "" [] /\ i = u "e")).
  { intros y i Hi Hs Hid. assert (X : In (OVal y) [OVal (k_map "m"); OVal (k_style "a" " t" [k_line]); OVal (k_style "e" "" [])]).
    { apply (C19_sound_and_complete _ _ _ _ _ F). destruct Hs as [c [ns [nss [attrs [-> Hs]]]]]. split; [now apply reach_inside|]. split; [intros ts [= <-]; exact Hs|intros k eq []]. }
    destruct Hid as [c [ns [nss [attrs [E Hid]]]]].
    assert (V : forall w n, OVal w = OVal y -> sget "id" (obj_attrs w) = Some (VStr n) -> y = w /\ i = n).
    { intros w n [= ->] Hn. split; [reflexivity|]. rewrite E in Hn. cbn [obj_attrs] in Hn. rewrite Hid in Hn. now injection Hn. }
    destruct X as [X|[X|[X|[]]]]; [left|right; left|right; right]; (apply V; [exact X|vm_compute; reflexivity]). }
  intros y z i j Hy Hz Sy Sz Iy Iz E. destruct (K y i Hy Sy Iy) as [[-> ->]|[[-> ->]|[-> ->]]]; destruct (K z j Hz Sz Iz) as [[-> ->]|[[-> ->]|[-> ->]]]; try reflexivity; vm_compute in E; discriminate E.
Qed.

(** Saved verbosely, the line style is found with its default spelled out. *)
Example C79_verbose_example :
  let v := k_doc [k_style "a" "" [mk "styles.LineStyle" [("color", str "ff000000")]]] in
  typed W0 v = true /\ rt_ok W0 v = true /\ readable W0 v = true /\
  (let! e := etree W0 None Verbose v in let! v' := from_element W0 true e "containers.Document" KMLNS nss0 in k_get v' "#a") =
  Ok (Some (OVal (k_style "a" "" [mk "styles.LineStyle" [("color", str "ff000000"); ("color_mode", VEnum "enums.ColorMode" (u "normal")); ("width", fl "1")]]))).
Proof. cbv zeta. repeat match goal with |- _ /\ _ => split; [vm_compute; reflexivity|] end. vm_compute. reflexivity. Qed.
