(** * Verbose documents spell out the defaults of the schema, terse ones leave them out: C62. *)
From Coq Require Import String List NArith ZArith Bool Lia.
From Verif Require Import Ustr UstrProofs Res PyInt PyFloat PyDate Elem Value Geom Codec Tables Spec FastkmlOk PyNumProofs CodecProofs EmitProofs ItemProofs RoundTrip
  Generations Effective VerbosityProofs EqualProofs ReadProofs Schema SchemaTables SchemaSpec Lexical SchemaDefaults PropVerbosity PropDefaults Samples.
Import ListNotations.
Local Open Scope string_scope.
Local Open Scope list_scope.

(** Full statement (C62): a verbose document has a text for every attribute
    the bundled schema declares a default for, and a terse document has none
    for an attribute whose value is what that default means.

    It fails for the attributes of [no_default], for which the library has no
    default, and for those of [other_default] (C51), where it has another one:
    see the refutations. *)

(** The attributes with a default in the schema and none in the library. *)
Definition no_default : list (string * string) :=
  [("gx.MultiTrack", "interpolate");
   ("model.Location", "longitude"); ("model.Location", "latitude");
   ("overlays.ImagePyramid", "max_width"); ("overlays.ImagePyramid", "max_height");
   ("overlays.LatLonBox", "north"); ("overlays.LatLonBox", "south"); ("overlays.LatLonBox", "east"); ("overlays.LatLonBox", "west");
   ("overlays.OverlayXY", "x"); ("overlays.OverlayXY", "y"); ("overlays.ScreenXY", "x"); ("overlays.ScreenXY", "y");
   ("overlays.RotationXY", "x"); ("overlays.RotationXY", "y"); ("overlays.Size", "x"); ("overlays.Size", "y");
   ("styles.Pair", "key"); ("views.LookAt", "range");
   ("views.LatLonAltBox", "north"); ("views.LatLonAltBox", "south"); ("views.LatLonAltBox", "east"); ("views.LatLonAltBox", "west")].

(** ** The tables *)

Definition listed (l : list (string * string)) (c a : string) : bool := existsb (fun p => String.eqb (fst p) c && String.eqb (snd p) a) l.

Lemma listed_In l c a : listed l c a = true -> In (c, a) l.
Proof.
  unfold listed. intro H. apply existsb_exists in H as [[c' a'] [H E]]. cbn [fst snd] in E. apply andb_prop in E as [E1 E2].
  apply String.eqb_eq in E1, E2. now subst.
Qed.

(** The library has a default, and every value of the attribute that means the
    default of the schema is equal to it. *)
Definition default_complete (it : item) (t : ustr) : bool :=
  match it_default it with
  | VNone => false
  | VNum n => match int_of_str t with Ok z => num_eq (NInt z) n | Err _ => true end
  | VEnum c m => match it_classes it with [_] => true | _ => false end
  | _ => true
  end.

Definition defaults_complete (W : world) : bool :=
  forallb (fun cc => forallb (fun it =>
    match schema_default W (fst cc) it with
    | Some t => if is_none (it_default it) then listed no_default (fst cc) (it_attr it)
                else negb (listed no_default (fst cc) (it_attr it)) &&
                     (listed other_default (fst cc) (it_attr it) || (default_meant t (it_default it) && default_complete it t))
    | None => negb (listed no_default (fst cc) (it_attr it))
    end) (items_of W (fst cc))) (w_classes W).

Lemma fastkml_defaults_complete arrow : defaults_complete (fastkml arrow) = true.
Proof. vm_compute. reflexivity. Qed.

Lemma defaults_complete_at W c ci it t : defaults_complete W = true -> class_of W c = Some ci -> In it (items_of W c) -> schema_default W c it = Some t ->
  ~ In (c, it_attr it) no_default ->
  is_none (it_default it) = false /\ (~ In (c, it_attr it) other_default -> default_meant t (it_default it) = true /\ default_complete it t = true).
Proof.
  intros H Hc Hin Hs Hn. unfold defaults_complete in H. rewrite forallb_forall in H. specialize (H _ (sget_In _ _ _ Hc)). cbn [fst] in H.
  rewrite forallb_forall in H. specialize (H _ Hin). rewrite Hs in H.
  destruct (is_none (it_default it)); [elim Hn; now apply listed_In|]. apply andb_prop in H as [_ H2]. split; [reflexivity|]. intro Ho. apply orb_prop in H2 as [H2|H2]; [elim Ho; now apply listed_In|].
  now apply andb_prop in H2.
Qed.

(** A value that means the default of the schema equals that of the library. *)
Lemma means_default W it t x : item_typed W it x = true -> item_typed W it (it_default it) = true ->
  default_meant t (it_default it) = true -> default_complete it t = true -> means t x -> scalar_eq x (it_default it) = true.
Proof.
  intros Tx Td Dm Dc M. unfold default_complete in Dc. unfold item_typed in Tx, Td.
  assert (Wd : (ueqb (u "1") (u "0") || ueqb (u "1") (u "false")) = false /\ (ueqb (u "true") (u "0") || ueqb (u "true") (u "false")) = false /\
               (ueqb (u "0") (u "1") || ueqb (u "0") (u "true")) = false /\ (ueqb (u "false") (u "1") || ueqb (u "false") (u "true")) = false) by (repeat split; reflexivity).
  destruct Wd as [W1 [W2 [W3 W4]]].
  destruct M as [s Hs|s Hs|s z Hz|s f Hf|s f n Hf Hn|s c|s].
  - destruct (it_set it), (it_default it) as [ |[|]|[|]| | | | | | | | | ]; try discriminate; cbn [default_meant] in Dm; try reflexivity.
    destruct Hs as [<-|[<-|[]]]; [rewrite W1 in Dm|rewrite W2 in Dm]; discriminate Dm.
  - destruct (it_set it), (it_default it) as [ |[|]|[|]| | | | | | | | | ]; try discriminate; cbn [default_meant] in Dm; try reflexivity.
    destruct Hs as [<-|[<-|[]]]; [rewrite W3 in Dm|rewrite W4 in Dm]; discriminate Dm.
  - destruct (it_default it) as [ |b|n| | | | | | | | | ]; try discriminate; try (destruct (it_set it); discriminate).
    cbn [scalar_eq]. now rewrite Hz in Dc.
  - destruct (it_default it) as [ |b|n| | | | | | | | | ]; try discriminate; try (destruct (it_set it); discriminate).
    cbn [default_meant scalar_eq] in *. rewrite Hf in Dm. now rewrite num_eq_sym.
  - destruct (it_default it) as [ |b|n'| | | | | | | | | ]; try discriminate; try (destruct (it_set it), n as [z0|f0]; discriminate).
    cbn [default_meant scalar_eq] in *. rewrite Hf in Dm. rewrite num_eq_sym in Dm. exact (num_eq_trans _ _ _ Hn Dm).
  - destruct (it_default it) as [ |b|n| |c' m'| | | | | | | ]; try discriminate; try (destruct (it_set it); discriminate).
    cbn [default_meant scalar_eq] in *. rewrite Dm, andb_true_r.
    assert (X : enum_member W (it_classes it) c s = true /\ enum_member W (it_classes it) c' m' = true) by (destruct (it_set it); try discriminate; auto).
    destruct X as [X1 X2]. destruct (it_classes it) as [|k [|]]; try discriminate Dc. cbn [enum_member mem] in X1, X2.
    apply andb_prop in X1 as [X1 _], X2 as [X2 _]. apply String.eqb_eq in X1, X2. subst. apply String.eqb_refl.
  - destruct (it_default it) as [ |b|n|s'| | | | | | | | ]; try discriminate; try (destruct (it_set it); discriminate). exact Dm.
Qed.

(** ** C62 *)

Section Written.
  Variables (arrow : ustr -> option datetime) (prec : option nat) (vb : verbosity) (c : string) (ns : ustr) (nss : nss_t) (attrs : list (string * value)) (e : elem).
  Variables (ci : class_info) (it : item) (t : ustr).
  Let W := fastkml arrow.
  Hypothesis Ht : typed W (VObj c ns nss attrs) = true.
  Hypothesis Hr : rt_ok W (VObj c ns nss attrs) = true.
  Hypothesis Hc : class_of W c = Some ci.
  Hypothesis Hin : In it (items_of W c).
  Hypothesis Hsd : schema_default W c it = Some t.
  Let x := obj_attr ci attrs (it_attr it).
  Let y := get_value vb x (it_default it).
  Hypothesis Hx : x <> VStr [].
  Hypothesis He : etree W prec vb (VObj c ns nss attrs) = Ok e.

  Lemma text_written : item_typed W it x = true /\ item_typed W it (it_default it) = true /\
    if is_none y then ~ (exists s, has_text it e s) else exists s, means s y /\ forall s', has_text it e s' <-> s' = s.
  Proof.
    assert (Hs : scalar_set (it_set it) = true) by (unfold schema_default in Hsd; destruct (it_set it); try discriminate Hsd; reflexivity).
    assert (Hcc := sget_In _ _ _ Hc). assert (HW := fastkml_ok arrow : world_ok W = true).
    assert (HP := fastkml_dates_plain arrow). assert (HB := defaults_shown arrow). fold W in HP, HB.
    assert (Nd : it_set it <> SDate).
    { unfold dates_plain in HP. rewrite forallb_forall in HP. specialize (HP _ Hcc). cbn [fst] in HP. rewrite forallb_forall in HP. specialize (HP _ Hin). intro E. rewrite E, Hsd in HP. discriminate. }
    assert (Bd : blank (it_default it) = false).
    { rewrite forallb_forall in HB. specialize (HB _ Hcc). cbn [fst] in HB. rewrite forallb_forall in HB. specialize (HB _ Hin). now apply negb_true_iff in HB. }
    assert (Bx : blank x = false) by (destruct x as [ | | |[|]| | | | | | | | ]; try reflexivity; now elim Hx).
    destruct (x_typed W vb HW c ci ns nss attrs Ht Hr Hc it Hin Hs) as [Tx [Ty Td]]. fold x in Tx, Ty. fold y in Ty.
    split; [exact Tx|]. split; [exact Td|]. apply (has_text_iff W prec vb HW c ci ns nss attrs e Ht Hr Hc He it Hin Hs).
    - change (blank y = false). unfold y. destruct (get_value_cases vb x (it_default it)) as [E|[E|E]]; rewrite E; auto.
    - change (match y with VDate _ => False | _ => True end). unfold item_typed in Ty. destruct y; try exact I. destruct (it_set it); try discriminate Ty. now elim Nd.
  Qed.
End Written.

(** A verbose document has a text for the attribute, exactly one.  It means the
    value of the attribute or, if that is [None], the default of the schema. *)
Theorem C62_verbose_spells_out_partial :
  forall arrow prec c ns nss attrs e ci it t,
  let W := fastkml arrow in let v := VObj c ns nss attrs in let x := obj_attr ci attrs (it_attr it) in
  typed W v = true -> rt_ok W v = true -> class_of W c = Some ci -> In it (items_of W c) ->
  schema_default W c it = Some t -> ~ In (c, it_attr it) no_default -> x <> VStr [] ->
  etree W prec Verbose v = Ok e ->
  exists s, (forall s', has_text it e s' <-> s' = s) /\
            (~ In (c, it_attr it) other_default -> exists y, means s y /\ (if is_none x then means t y else y = x)).
Proof.
  intros arrow prec c ns nss attrs e ci it t W v x Ht Hr Hc Hin Hsd Hn Hx He.
  destruct (defaults_complete_at W c ci it t (fastkml_defaults_complete arrow) Hc Hin Hsd Hn) as [Dn Dm].
  destruct (text_written arrow prec Verbose c ns nss attrs e ci it t Ht Hr Hc Hin Hsd Hx He) as [Tx [Td P]]. fold x in Tx, P. cbn [get_value] in P. rewrite Dn in P. cbn [negb] in P. rewrite andb_true_r in P.
  assert (Ny : is_none (if is_none x then it_default it else x) = false) by (destruct (is_none x) eqn:E; assumption).
  rewrite Ny in P. destruct P as [s [M P]]. exists s. split; [exact P|]. intro Ho. destruct (Dm Ho) as [D1 D2].
  exists (if is_none x then it_default it else x). split; [exact M|]. destruct (is_none x); [|reflexivity].
  apply (default_meant_means t (it_default it) _ D1 Dn); [now left|]. clear. destruct (it_default it); exact I.
Qed.
Print Assumptions C62_verbose_spells_out_partial.

(** A terse document has no text for an attribute whose value is what the
    default of the schema means. *)
Theorem C62_terse_leaves_out_partial :
  forall arrow prec c ns nss attrs e ci it t,
  let W := fastkml arrow in let v := VObj c ns nss attrs in let x := obj_attr ci attrs (it_attr it) in
  typed W v = true -> rt_ok W v = true -> class_of W c = Some ci -> In it (items_of W c) ->
  schema_default W c it = Some t -> ~ In (c, it_attr it) no_default -> ~ In (c, it_attr it) other_default -> x <> VStr [] ->
  etree W prec Terse v = Ok e -> x = VNone \/ means t x ->
  forall s, ~ has_text it e s.
Proof.
  intros arrow prec c ns nss attrs e ci it t W v x Ht Hr Hc Hin Hsd Hn Ho Hx He M s Hs.
  destruct (defaults_complete_at W c ci it t (fastkml_defaults_complete arrow) Hc Hin Hsd Hn) as [Dn Dm]. destruct (Dm Ho) as [D1 D2].
  destruct (text_written arrow prec Terse c ns nss attrs e ci it t Ht Hr Hc Hin Hsd Hx He) as [Tx [Td P]]. fold x in Tx, P. cbn [get_value] in P.
  assert (Ny : is_none (if scalar_eq x (it_default it) then VNone else x) = true).
  { destruct M as [->|M]; [now destruct (scalar_eq VNone (it_default it))|]. now rewrite (means_default W it t x Tx Td D1 D2 M). }
  rewrite Ny in P. apply P. now exists s.
Qed.
Print Assumptions C62_terse_leaves_out_partial.

(** The list is exact: these attributes, and no others, have a default in the
    schema and none in the library. *)
Theorem C62_no_default :
  forall arrow c ci it, let W := fastkml arrow in
  class_of W c = Some ci -> In it (items_of W c) ->
  In (c, it_attr it) no_default <-> schema_default W c it <> None /\ it_default it = VNone.
Proof.
  intros arrow c ci it W Hc Hin.
  assert (A := fastkml_defaults_complete arrow). fold W in A. unfold defaults_complete in A.
  rewrite forallb_forall in A. specialize (A _ (sget_In _ _ _ Hc)). cbn [fst] in A. rewrite forallb_forall in A. specialize (A _ Hin). split.
  - intro H. assert (L : listed no_default c (it_attr it) = true).
    { unfold listed. apply existsb_exists. exists (c, it_attr it). split; [exact H|]. cbn [fst snd]. now rewrite !String.eqb_refl. }
    rewrite L in A. destruct (schema_default W c it); [|discriminate A]. split; [discriminate|]. destruct (it_default it); try discriminate A. reflexivity.
  - intros [Hs Hd]. apply listed_In. destruct (schema_default W c it); [|now elim Hs]. now rewrite Hd in A.
Qed.
Print Assumptions C62_no_default.

(** ** A document that meets the hypotheses: C51_example shows the overlay in
    the three modes; [visibility] is what the default of the schema means,
    [draw_order] is absent. *)
Example C62_example :
  exists attrs ci, s_overlay = VObj "overlays.GroundOverlay" KMLNS nss0 attrs /\ typed W0 s_overlay = true /\ rt_ok W0 s_overlay = true /\
    class_of W0 "overlays.GroundOverlay" = Some ci /\
    obj_attr ci attrs "visibility" = VBool true /\ means (u "1") (VBool true) /\ obj_attr ci attrs "draw_order" = VNone /\
    map (fun a => schema_default W0 "overlays.GroundOverlay" (item_named "overlays.GroundOverlay" a)) ["visibility"; "draw_order"] = [Some (u "1"); Some (u "0")] /\
    forallb (fun a => negb (listed (no_default ++ other_default) "overlays.GroundOverlay" a)) ["visibility"; "draw_order"] = true /\
    kid_texts "visibility" (etree W0 None Terse s_overlay) = [] /\ kid_texts "drawOrder" (etree W0 None Verbose s_overlay) = [Some (u "0")].
Proof.
  do 2 eexists. do 5 (split; [vm_compute; reflexivity|]). split; [constructor; now left|]. repeat (split; [vm_compute; reflexivity|]). vm_compute. reflexivity.
Qed.

(** ** Where it fails *)

(** overlays.py:992-1035: the sides of a [LatLonBox] have defaults in the schema
    (180, -180, 180, -180) and none in the library. *)
Definition s_box : value := Eval vm_compute in
  mk "overlays.LatLonBox" [("north", fl "180"); ("south", fl "10"); ("east", fl "20")].

Theorem C62_verbose_refuted :
  exists attrs ci e t, s_box = VObj "overlays.LatLonBox" KMLNS nss0 attrs /\ typed W0 s_box = true /\ rt_ok W0 s_box = true /\
    class_of W0 "overlays.LatLonBox" = Some ci /\ In (item_named "overlays.LatLonBox" "west") (items_of W0 "overlays.LatLonBox") /\
    schema_default W0 "overlays.LatLonBox" (item_named "overlays.LatLonBox" "west") = Some t /\
    etree W0 None Verbose s_box = Ok e /\ forall s, ~ has_text (item_named "overlays.LatLonBox" "west") e s.
Proof.
  do 4 eexists. do 4 (split; [vm_compute; reflexivity|]). split; [vm_compute; tauto|]. do 2 (split; [vm_compute; reflexivity|]).
  intros s [n [k (G & I & T & _)]]. vm_compute in I. apply suffix in T. repeat (destruct I as [<-|I]; [vm_compute in T; discriminate T|]). destruct I.
Qed.
Print Assumptions C62_verbose_refuted.

Theorem C62_terse_refuted :
  exists attrs ci e t s, s_box = VObj "overlays.LatLonBox" KMLNS nss0 attrs /\ typed W0 s_box = true /\ rt_ok W0 s_box = true /\
    class_of W0 "overlays.LatLonBox" = Some ci /\ In (item_named "overlays.LatLonBox" "north") (items_of W0 "overlays.LatLonBox") /\
    schema_default W0 "overlays.LatLonBox" (item_named "overlays.LatLonBox" "north") = Some t /\ means t (obj_attr ci attrs "north") /\
    etree W0 None Terse s_box = Ok e /\ has_text (item_named "overlays.LatLonBox" "north") e s.
Proof.
  do 5 eexists. do 4 (split; [vm_compute; reflexivity|]). split; [vm_compute; tauto|]. split; [vm_compute; reflexivity|].
  split; [vm_compute; apply means_float; vm_compute; reflexivity|]. split; [vm_compute; reflexivity|].
  exists KMLNS. eexists. split; [vm_compute; reflexivity|]. split; [vm_compute; left; reflexivity|]. split; vm_compute; reflexivity.
Qed.
Print Assumptions C62_terse_refuted.
