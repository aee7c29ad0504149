(** * Tracks: C23 (the constructor of tracks), C24, C25. *)
From Coq Require Import String List NArith ZArith Bool Lia.
From Verif Require Import Ustr UstrProofs Res PyInt PyFloat PyDate Elem Value Geom Codec Tables Spec Settled FastkmlOk
  EmitProofs CodecProofs ReadProofs RoundTrip SettledProofs NsProofs ReaderTyped Agree AgreeProofs Outcome Create CreateProofs Samples.
Import ListNotations.
Local Open Scope string_scope.

(** ** What a track is made of *)

(** A [when] child with the date it holds. *)
Definition holds_date (arrow : ustr -> option datetime) (k : elem) (d : kmldt) : Prop :=
  exists t, e_text k = Some t /\ kdt_parse arrow t = Ok d.

(** A [gx:coord] or [gx:angles] child with the numbers it holds. *)
Definition holds_numbers (k : elem) (ns : list num) : Prop :=
  exists t, e_text k = Some t /\ t <> [] /\ Forall2 (fun w n => exists f, float_of_str w = Ok f /\ n = NFloat f) (words t) ns.

Lemma floats_of_spec ws ns : Forall2 (fun w n => exists f, float_of_str w = Ok f /\ n = NFloat f) ws ns <-> floats_of ws = Ok ns.
Proof.
  split.
  - induction 1 as [|w n ws ns [f [E ->]] _ IH]; [reflexivity|]. unfold floats_of in *. cbn. rewrite E. cbn. now rewrite IH.
  - revert ns; induction ws as [|w ws IH]; unfold floats_of; cbn; intros ns H; [injection H as <-; constructor|].
    apply bind_ok in H as [y [Hy H]]. apply bind_ok in Hy as [f [Hf Hy]]. injection Hy as <-. apply bind_ok in H as [r [Hr H]]. injection H as <-.
    constructor; [eauto|]. now apply IH.
Qed.

Lemma zip_nth n ws cs as_ l : zip_items ws cs as_ n = Ok l -> length l = n /\ forall i, (i < n)%nat ->
  exists p g, nth_error l i = Some (mkItem (nth i ws None) p (Some g)) /\ mk_point (nth i cs []) = Ok p /\ mk_angle (nth i as_ []) = Ok g.
Proof.
  revert ws cs as_ l; induction n as [|n IH]; intros ws cs as_ l H; cbn [zip_items] in H; [injection H as <-; split; [reflexivity|lia]|].
  apply bind_ok in H as [it [Hi H]]. apply bind_ok in H as [r [Hr H]]. injection H as <-. destruct (IH _ _ _ _ Hr) as [L N].
  split; [cbn; now rewrite L|]. intros [|i] Hlt; cbn [nth_error].
  - unfold mk_titem in Hi. apply bind_ok in Hi as [p [Hp Hi]]. apply bind_ok in Hi as [g [Hg Hi]]. injection Hi as <-.
    exists p, g. destruct ws, cs, as_; repeat split; assumption.
  - destruct (N i ltac:(lia)) as [p [g [E1 [E2 E3]]]]. exists p, g. rewrite E1. destruct ws, cs, as_; cbn [tl nth] in *; repeat split; try (destruct i; assumption); now destruct i.
Qed.

Lemma read_dates_ok arrow strict ks ds : Forall2 (holds_date arrow) ks ds ->
  map_res (read_date (fastkml arrow) strict) (map (kid_reader (fastkml arrow) strict) ks) = Ok (map (fun d => [Some d]) ds).
Proof.
  induction 1 as [|k d ks ds [t [E1 E2]] _ IH]; [reflexivity|]. cbn [map map_res]. unfold read_date at 1. cbn [fst]. rewrite E1.
  cbn [w_arrow fastkml]. rewrite E2. cbn [bind]. now rewrite IH.
Qed.

Lemma read_coords_ok arrow strict ks ps : Forall2 holds_numbers ks ps ->
  map_res (read_coord strict) (map (kid_reader (fastkml arrow) strict) ks) = Ok (map (fun p => [p]) ps).
Proof.
  induction 1 as [|k d ks ds [t [E1 [E2 E3]]] _ IH]; [reflexivity|]. cbn [map map_res]. unfold read_coord at 1. cbn [fst]. rewrite E1.
  apply floats_of_spec in E3. destruct t; [congruence|]. change (uempty _) with false. rewrite E3. cbn [bind]. now rewrite IH.
Qed.

Lemma concat_single {A B} (f : A -> B) l : concat (map (fun x => [f x]) l) = map f l.
Proof. induction l as [|x l IH]; [reflexivity|]. cbn. now rewrite IH. Qed.

Lemma concat_one {A} (l : list A) : concat (map (fun x => [x]) l) = l.
Proof. induction l as [|x l IH]; [reflexivity|]. cbn. now rewrite IH. Qed.

(** [Angle( *numbers )]: missing numbers are 0.0. *)
Definition angle_of (g : list num) : list num := firstn 3 (g ++ [NFloat f_zero; NFloat f_zero; NFloat f_zero])%list.

Definition no_nan (p : list num) : list num := filter (fun n => negb (num_nan n)) p.

(** ** C24

    Full statement: the i-th item of a track that is read pairs the i-th
    [when], the i-th [gx:coord] and the i-th [gx:angles] of the element.  This
    is false: entries that cannot be read are skipped, and those behind them
    move up. *)

Definition gxe (tag : string) (text : option string) : elem := Elem (u "{http://www.google.com/kml/ext/2.2}" ++ u tag)%list [] (option_map u text) [].
Definition track_with (ks : list elem) : elem := Elem (u "{http://www.google.com/kml/ext/2.2}Track") [] None ks.
Definition kwhen (t : string) : elem := ke "when" [] (Some t) [].

(** The first [when] is not a date: in lenient mode the second time moves to the
    first position. *)
Definition e_bad_when : elem :=
  track_with [kwhen "yesterday"; kwhen "2002"; gxe "coord" (Some "1 2 3"); gxe "coord" (Some "4 5 6")].

(** The first angles are missing: even in strict mode the second ones move to
    the first position. *)
Definition e_no_angle : elem :=
  track_with [kwhen "2001"; kwhen "2002"; gxe "coord" (Some "1 2 3"); gxe "coord" (Some "4 5 6"); gxe "angles" None; gxe "angles" (Some "7 8 9")].

Definition items_of_track (v : value) : list titem :=
  match v with VObj _ _ _ attrs => items_in attrs | _ => [] end.

Theorem C24_alignment_refuted :
  (exists v, from_string W0 false "gx.Track" None [] e_bad_when = Ok v /\
     items_of_track v = [mkItem (when "2002") (pt ["1"; "2"; "3"]) (Some zero_angle); mkItem None (pt ["4"; "5"; "6"]) (Some zero_angle)]) /\
  (exists v, from_string W0 true "gx.Track" None [] e_no_angle = Ok v /\
     items_of_track v = [mkItem (when "2001") (pt ["1"; "2"; "3"]) (Some (pt ["7"; "8"; "9"])); mkItem (when "2002") (pt ["4"; "5"; "6"]) (Some zero_angle)]).
Proof. split; eexists; (split; [vm_compute; reflexivity|]); vm_compute; reflexivity. Qed.
Print Assumptions C24_alignment_refuted.

(** What holds: if every [when], [gx:coord] and [gx:angles] child can be read,
    the i-th ones are paired, whatever else the element contains and in
    whatever order.  There is one item per [gx:coord]; a track with fewer
    [when]s has items without a time at its end, one with fewer [gx:angles]
    items with the angle (0, 0, 0). *)
Theorem C24_items_pair_partial :
  forall arrow strict e ns nss v ds ps gs,
  let W := fastkml arrow in
  let m := merge_ns nss in
  let kids (id tag : string) := filter (fun k => ueqb (e_tag k) (ns_get m id ++ u tag)%list) (e_kids e) in
  Forall2 (holds_date arrow) (kids "kml" "when") ds ->
  Forall2 holds_numbers (kids "gx" "coord") ps ->
  Forall2 holds_numbers (kids "gx" "angles") gs ->
  ds <> [] -> ps <> [] -> (gs = [] -> kids "" "angles" = []) ->
  from_element W strict e "gx.Track" ns nss = Ok v ->
  exists attrs items, v = VObj "gx.Track" ns m attrs /\ sget "track_items" attrs = Some (VItems items) /\
    length items = length ps /\ (length ds <= length ps)%nat /\ (length gs <= length ps)%nat /\
    forall i p, nth_error ps i = Some p ->
      nth_error items i = Some (mkItem (nth_error ds i) (no_nan p) (Some (angle_of (nth i gs [])))).
Proof.
  intros arrow strict e ns nss v ds ps gs W m kids Hd Hp Hg Nd Np Ng H. destruct e as [t a x ks]. cbn [e_kids] in kids.
  destruct (read_attrs W strict t a x ks "gx.Track" ns nss v (fastkml_ok arrow) H) as [ci [r [attrs [Hc [-> [Hr [Hkw Hat]]]]]]].
  exists attrs. fold m in Hr |- *.
  assert (Ei : items_of W "gx.Track" = (rg_kml_base__BaseObject ++ rg_gx_Track)%list) by reflexivity.
  vm_compute in Hc. injection Hc as <-.
  assert (E2 := Hat "track_items"). change (ckind_of _ "track_items") with (Some CTrack) in E2. cbv beta iota in E2. destruct E2 as [y [Hm Hy]].
  assert (Hw := Hr (nth 1 rg_gx_Track root_item) ltac:(rewrite Ei; apply in_or_app; right; cbn; tauto)).
  assert (Hcd := Hr (nth 2 rg_gx_Track root_item) ltac:(rewrite Ei; apply in_or_app; right; cbn; tauto)).
  assert (Hag := Hr (nth 3 rg_gx_Track root_item) ltac:(rewrite Ei; apply in_or_app; right; cbn; tauto)).
  cbn [nth rg_gx_Track it_nsids] in Hw, Hcd, Hag. set (iw := mkItm _ _ "whens" _ _ _ _) in Hw. set (ic := mkItm _ _ "coords" _ _ _ _) in Hcd. set (ia := mkItm _ _ "angles" _ _ _ _) in Hag.
  assert (Fd : forall (l : list (list (option kmldt))), concat l = map Some ds -> nilb (concat l) = false) by (intros l ->; destruct ds; [congruence|reflexivity]).
  cbn [try_nsids] in Hw, Hcd, Hag. unfold get_kwarg at 1 in Hw. unfold get_kwarg at 1 in Hcd. unfold get_kwarg at 1 in Hag. subst iw ic ia. cbn [it_get it_node] in Hw, Hcd, Hag.
  rewrite find_kids_with in Hw, Hcd, Hag. unfold with_tag in Hw, Hcd, Hag. fold (kids "kml" "when") in Hw. fold (kids "gx" "coord") in Hcd. fold (kids "gx" "angles") in Hag.
  assert (R1 := read_dates_ok arrow strict _ _ Hd). assert (R2 := read_coords_ok arrow strict _ _ Hp). assert (R3 := read_coords_ok arrow strict _ _ Hg). fold W in R1, R2, R3.
  rewrite R1 in Hw. rewrite R2 in Hcd. rewrite R3 in Hag. clear R1 R2 R3. cbn [bind] in Hw, Hcd, Hag. rewrite !(concat_single Some) in Hw. rewrite !concat_one in Hcd, Hag.
  replace (nilb (map Some ds)) with false in Hw by (destruct ds; [congruence|reflexivity]). injection Hw as Hw.
  replace (nilb ps) with false in Hcd by (destruct ps; [congruence|reflexivity]). injection Hcd as Hcd.
  assert (Ka : exists w, Ok w = points_of match r (nth 3 rg_gx_Track root_item) with Some w => w | None => VNone end /\ w = gs).
  { destruct gs as [|g gs']; [|exists (g :: gs'); split; [cbn [nilb] in Hag; injection Hag as Hag; cbn [nth rg_gx_Track]; rewrite <- Hag; reflexivity|reflexivity]].
    exists []. split; [|reflexivity]. cbn [nilb bind] in Hag. unfold get_kwarg in Hag. cbn [it_get it_node] in Hag. rewrite find_kids_with in Hag. unfold with_tag in Hag. fold (kids "" "angles") in Hag.
    rewrite (Ng eq_refl) in Hag. cbn in Hag. injection Hag as Hag. cbn [nth rg_gx_Track]. rewrite <- Hag. reflexivity. }
  destruct Ka as [w [Ka ->]].
  unfold mk_attr in Hm. rewrite !Hkw in Hm. change (find_item "track_items" (items_of W "gx.Track")) with (@None item) in Hm.
  change (find_item "whens" (items_of W "gx.Track")) with (Some (nth 1 rg_gx_Track root_item)) in Hm.
  change (find_item "coords" (items_of W "gx.Track")) with (Some (nth 2 rg_gx_Track root_item)) in Hm.
  change (find_item "angles" (items_of W "gx.Track")) with (Some (nth 3 rg_gx_Track root_item)) in Hm.
  apply bind_ok in Hm as [y' [Hm E]]. injection E as ->. unfold build_track in Hm. rewrite <- Ka in Hm. cbn [nth rg_gx_Track] in Hm. rewrite <- Hw, <- Hcd in Hm.
  cbn [titems_of dates_of points_of bind] in Hm.
  replace (nilb (map Some ds)) with false in Hm by (destruct ds; [congruence|reflexivity]).
  replace (nilb ps) with false in Hm by (destruct ps; [congruence|reflexivity]). cbn [negb nilb orb andb] in Hm.
  apply bind_ok in Hm as [l [Hz E]]. injection E as <-. destruct (zip_nth _ _ _ _ _ Hz) as [Ll Ln]. rewrite map_length in *.
  assert (Hn : (Nat.max (length ds) (Nat.max (length ps) (length gs)) <= length ps)%nat).
  { destruct (Nat.le_gt_cases (Nat.max (length ds) (Nat.max (length ps) (length gs))) (length ps)) as [?|Hlt]; [assumption|].
    destruct (Ln (length ps) Hlt) as [p [g [_ [E _]]]]. rewrite nth_overflow in E by lia. discriminate E. }
  exists l. split; [reflexivity|]. split; [exact Hy|]. split; [lia|]. split; [lia|]. split; [lia|].
  intros i p Hi. assert (Hlt : (i < length ps)%nat) by (apply nth_error_Some; congruence).
  destruct (Ln i ltac:(lia)) as [p' [g [E1 [E2 E3]]]]. rewrite E1. f_equal. rewrite (nth_error_nth _ _ [] Hi) in E2. f_equal.
  - destruct (nth_error ds i) as [d|] eqn:Ed.
    + rewrite (nth_error_nth (map Some ds) i None (x := Some d)); [reflexivity|]. rewrite nth_error_map, Ed. reflexivity.
    + apply nth_error_None in Ed. rewrite nth_overflow; [reflexivity|]. now rewrite map_length.
  - unfold mk_point in E2. unfold no_nan. destruct (length p) as [|[|[|[|]]]]; try discriminate E2; now injection E2 as <-.
  - f_equal. unfold mk_angle in E3. unfold angle_of. destruct (nth i gs []) as [|g1 [|g2 [|g3 [|]]]]; try discriminate E3; injection E3 as <-; reflexivity.
Qed.
Print Assumptions C24_items_pair_partial.

Lemma read_dates_inv arrow ks l : map_res (read_date (fastkml arrow) true) (map (kid_reader (fastkml arrow) true) ks) = Ok l ->
  exists ds, Forall2 (holds_date arrow) ks ds.
Proof.
  revert l; induction ks as [|k ks IH]; cbn [map map_res]; intros l H; [exists []; constructor|].
  apply bind_ok in H as [d [Hd H]]. apply bind_ok in H as [r [Hr _]]. destruct (IH _ Hr) as [ds Hds].
  unfold read_date in Hd. cbn [fst w_arrow fastkml] in Hd. destruct (e_text k) as [t|] eqn:Et; [|discriminate]. destruct (kdt_parse arrow t) as [y|[]] eqn:Ep; try discriminate Hd.
  exists (y :: ds). constructor; [exists t; auto|exact Hds].
Qed.

Lemma read_coords_inv arrow ks l : (forall k, In k ks -> exists t, e_text k = Some t /\ t <> []) ->
  map_res (read_coord true) (map (kid_reader (fastkml arrow) true) ks) = Ok l ->
  exists ps, Forall2 holds_numbers ks ps.
Proof.
  revert l; induction ks as [|k ks IH]; cbn [map map_res]; intros l Ht H; [exists []; constructor|].
  apply bind_ok in H as [d [Hd H]]. apply bind_ok in H as [r [Hr _]]. destruct (IH r) as [ds Hds]; [auto using in_cons|exact Hr|].
  unfold read_coord in Hd. cbn [fst] in Hd. destruct (Ht k (or_introl eq_refl)) as [t [Et Nt]]. rewrite Et in Hd. destruct t as [|x t]; [congruence|]. change (uempty (x :: t)) with false in Hd.
  destruct (floats_of (words (x :: t))) as [y|[]] eqn:Ep; try discriminate Hd.
  exists (y :: ds). constructor; [exists (x :: t); repeat split; [exact Et|congruence|now apply floats_of_spec]|exact Hds].
Qed.

(** In strict mode a track that is read is aligned whenever its [gx:coord] and
    [gx:angles] children have a text. *)
Theorem C24_strict_partial :
  forall arrow e ns nss v,
  let W := fastkml arrow in
  let m := merge_ns nss in
  let kids (id tag : string) := filter (fun k => ueqb (e_tag k) (ns_get m id ++ u tag)%list) (e_kids e) in
  from_element W true e "gx.Track" ns nss = Ok v ->
  kids "kml" "when" <> [] -> kids "gx" "coord" <> [] -> (kids "gx" "angles" = [] -> kids "" "angles" = []) ->
  (forall k, In k (kids "gx" "coord" ++ kids "gx" "angles")%list -> exists t, e_text k = Some t /\ t <> []) ->
  exists attrs items ds ps gs, v = VObj "gx.Track" ns m attrs /\ sget "track_items" attrs = Some (VItems items) /\
    Forall2 (holds_date arrow) (kids "kml" "when") ds /\ Forall2 holds_numbers (kids "gx" "coord") ps /\ Forall2 holds_numbers (kids "gx" "angles") gs /\
    length items = length ps /\ (length ds <= length ps)%nat /\ (length gs <= length ps)%nat /\
    forall i p, nth_error ps i = Some p ->
      nth_error items i = Some (mkItem (nth_error ds i) (no_nan p) (Some (angle_of (nth i gs [])))).
Proof.
  intros arrow e ns nss v W m kids H Nd Np Ng Ht. destruct e as [t a x ks]. cbn [e_kids] in kids.
  destruct (read_attrs W true t a x ks "gx.Track" ns nss v (fastkml_ok arrow) H) as [ci [r [attrs [_ [_ [Hr _]]]]]]. fold m in Hr.
  assert (Ei : items_of W "gx.Track" = (rg_kml_base__BaseObject ++ rg_gx_Track)%list) by reflexivity.
  assert (Hw := Hr (nth 1 rg_gx_Track root_item) ltac:(rewrite Ei; apply in_or_app; right; cbn; tauto)).
  assert (Hcd := Hr (nth 2 rg_gx_Track root_item) ltac:(rewrite Ei; apply in_or_app; right; cbn; tauto)).
  assert (Hag := Hr (nth 3 rg_gx_Track root_item) ltac:(rewrite Ei; apply in_or_app; right; cbn; tauto)).
  cbn [nth rg_gx_Track it_nsids try_nsids] in Hw, Hcd, Hag. unfold get_kwarg at 1 in Hw. unfold get_kwarg at 1 in Hcd. unfold get_kwarg at 1 in Hag. cbn [it_get it_node] in Hw, Hcd, Hag.
  rewrite find_kids_with in Hw, Hcd, Hag. unfold with_tag in Hw, Hcd, Hag. fold (kids "kml" "when") in Hw. fold (kids "gx" "coord") in Hcd. fold (kids "gx" "angles") in Hag.
  apply bind_ok in Hw as [w [Hw _]]. apply bind_ok in Hw as [lw [Hw _]]. apply read_dates_inv in Hw as [ds Hd].
  apply bind_ok in Hcd as [w' [Hcd _]]. apply bind_ok in Hcd as [lc [Hcd _]]. apply read_coords_inv in Hcd as [ps Hp]; [|intros; apply Ht, in_or_app; now left].
  apply bind_ok in Hag as [w'' [Hag _]]. apply bind_ok in Hag as [la [Hag _]]. apply read_coords_inv in Hag as [gs Hg]; [|intros; apply Ht, in_or_app; now right].
  destruct (C24_items_pair_partial arrow true (Elem t a x ks) ns nss v ds ps gs Hd Hp Hg) as [attrs' [items [E1 [E2 [E3 [E4 [E5 E6]]]]]]]; [intros ->; inversion Hd; congruence|intros ->; inversion Hp; congruence| |exact H|].
  { intros ->. apply Ng. inversion Hg. congruence. }
  exists attrs', items, ds, ps, gs. repeat (split; [assumption|]). assumption.
Qed.
Print Assumptions C24_strict_partial.

Definition e_track3 : elem :=
  track_with [gxe "coord" (Some "1 2 3"); gxe "angles" (Some "7 8 9"); kwhen "2001"; ke "name" [] (Some "noise") []; kwhen "2002-03"; gxe "angles" (Some "10"); gxe "coord" (Some "4 5")].

Example C24_example :
  exists v ds ps gs, from_element W0 true e_track3 "gx.Track" KMLNS [] = Ok v /\
  let kids (id tag : string) := filter (fun k => ueqb (e_tag k) (ns_get (merge_ns []) id ++ u tag)%list) (e_kids e_track3) in
  Forall2 (holds_date (fun _ => None)) (kids "kml" "when") ds /\ Forall2 holds_numbers (kids "gx" "coord") ps /\ Forall2 holds_numbers (kids "gx" "angles") gs /\
  items_of_track v = [mkItem (when "2001") (pt ["1"; "2"; "3"]) (Some (pt ["7"; "8"; "9"]));
                      mkItem (when "2002-03") (pt ["4"; "5"]) (Some (pt ["10"; "0"; "0"]))].
Proof.
  eexists. exists (concat (map (fun o => match o with Some d => [d] | None => [] end) [when "2001"; when "2002-03"])), [pt ["1"; "2"; "3"]; pt ["4"; "5"]], [pt ["7"; "8"; "9"]; pt ["10"]].
  split; [vm_compute; reflexivity|]. intro kids.
  assert (E1 : kids "kml" "when" = [kwhen "2001"; kwhen "2002-03"]) by (vm_compute; reflexivity).
  assert (E2 : kids "gx" "coord" = [gxe "coord" (Some "1 2 3"); gxe "coord" (Some "4 5")]) by (vm_compute; reflexivity).
  assert (E3 : kids "gx" "angles" = [gxe "angles" (Some "7 8 9"); gxe "angles" (Some "10")]) by (vm_compute; reflexivity).
  rewrite E1, E2, E3. split; [|split; [|split; [|vm_compute; reflexivity]]].
  - apply Forall2_cons; [|apply Forall2_cons; [|apply Forall2_nil]]; (eexists; split; [reflexivity|vm_compute; reflexivity]).
  - apply Forall2_cons; [|apply Forall2_cons; [|apply Forall2_nil]]; (eexists; split; [reflexivity|split; [discriminate|]]); apply floats_of_spec; vm_compute; reflexivity.
  - apply Forall2_cons; [|apply Forall2_cons; [|apply Forall2_nil]]; (eexists; split; [reflexivity|split; [discriminate|]]); apply floats_of_spec; vm_compute; reflexivity.
Qed.

(** ** C23: the constructor of [gx.Track]

    [Track(track_items, whens, coords, angles)]: items together with times or
    positions are refused, items alone are stored as they are, and times and
    positions are paired as in C24. *)

Definition some_dates (v : value) : bool := match v with VDates (_ :: _) => true | _ => false end.
Definition some_points (v : value) : bool := match v with VCoords _ (_ :: _) => true | _ => false end.
(** A list of dates or of points, or nothing. *)
Definition dates_or_none (v : value) : bool := match v with VDates _ | VNone => true | _ => false end.
Definition points_or_none (v : value) : bool := match v with VCoords _ _ | VNone => true | _ => false end.

Theorem C23_track : forall arrow ns nss kws,
  let W := fastkml arrow in
  let arg a := kwget kws a in
  dates_or_none (arg "whens") = true -> points_or_none (arg "coords") = true -> points_or_none (arg "angles") = true ->
  (forall i l, arg "track_items" = VItems (i :: l) -> some_dates (arg "whens") = true \/ some_points (arg "coords") = true ->
     new W "gx.Track" ns nss kws = Err EValueError) /\
  (forall l v, arg "track_items" = VItems l -> some_dates (arg "whens") = false -> some_points (arg "coords") = false -> new W "gx.Track" ns nss kws = Ok v ->
     exists n attrs, v = VObj "gx.Track" n (merge_ns nss) attrs /\ sget "track_items" attrs = Some (VItems l)) /\
  (forall ds t ps gs v, is_none (arg "track_items") = true -> arg "whens" = VDates ds -> arg "coords" = VCoords t ps -> ds <> [] -> ps <> [] ->
     arg "angles" = VCoords t gs \/ (gs = [] /\ arg "angles" = VNone) -> new W "gx.Track" ns nss kws = Ok v ->
     exists n attrs items, v = VObj "gx.Track" n (merge_ns nss) attrs /\ sget "track_items" attrs = Some (VItems items) /\
       length items = length ps /\ (length ds <= length ps)%nat /\ (length gs <= length ps)%nat /\
       forall i p, nth_error ps i = Some p ->
         nth_error items i = Some (mkItem (nth i ds None) (no_nan p) (Some (angle_of (nth i gs []))))).
Proof.
  intros arrow ns nss kws W arg Hw Hc Ha.
  assert (NA : forall v, new W "gx.Track" ns nss kws = Ok v -> exists n attrs x, v = VObj "gx.Track" n (merge_ns nss) attrs /\ build_track (arg "track_items") (arg "whens") (arg "coords") (arg "angles") = Ok x /\ sget "track_items" attrs = Some x).
  { intros v H. destruct (new_attr W "gx.Track" cl_gx_Track ns nss kws v "track_items" CTrack eq_refl eq_refl eq_refl eq_refl H) as [n [attrs [x [Hv [Hm Hs]]]]].
    exists n, attrs, x. split; [exact Hv|]. split; [|exact Hs]. unfold mk_attr in Hm. apply bind_ok in Hm as [y [Hy E]]. injection E as <-. exact Hy. }
  assert (Dw : exists ds, dates_of (arg "whens") = Ok ds /\ some_dates (arg "whens") = negb (nilb ds)).
  { clear -Hw. revert Hw. generalize (arg "whens"). intros w Hw. destruct w; try discriminate Hw; cbn; eexists; (split; [reflexivity|]); [reflexivity|]. now destruct l. }
  assert (Dp : forall a, points_or_none (arg a) = true -> exists cs, points_of (arg a) = Ok cs /\ some_points (arg a) = negb (nilb cs)).
  { clear. intros a Hw. revert Hw. generalize (arg a). intros w Hw. destruct w; try discriminate Hw; cbn; eexists; (split; [reflexivity|]); [reflexivity|]. now destruct l. }
  destruct Dw as [ds [Dw Sw]]. destruct (Dp _ Hc) as [cs [Dc Sc]]. destruct (Dp _ Ha) as [an [Da _]]. clear Dp.
  split; [|split].
  - intros i l Hi Hs. unfold new, construct. change (class_of W "gx.Track") with (Some cl_gx_Track). cbv beta iota. change (negb (ci_kwargs cl_gx_Track)) with false. cbn [andb].
    change (ci_pre cl_gx_Track) with [("track_items", CTrack); ("extended_data", CRaw)]. cbn [map_res].
    assert (B : mk_attr W kws ("track_items", CTrack) = Err EValueError).
    { unfold mk_attr. fold (arg "track_items"). fold (arg "whens"). fold (arg "coords"). fold (arg "angles"). rewrite Hi. unfold build_track.
      cbn [titems_of bind]. rewrite Dw, Dc, Da. cbn [bind nilb negb]. rewrite Sw, Sc in Hs. destruct (nilb ds), (nilb cs); try reflexivity. destruct Hs; discriminate. }
    rewrite B. reflexivity.
  - intros l v Hi Hd Hp H. destruct (NA v H) as [n [attrs [x [Hv [Hb Hs]]]]]. exists n, attrs. split; [exact Hv|]. rewrite Hs. f_equal. rewrite Hi in Hb. unfold build_track in Hb.
    cbn [titems_of bind] in Hb. rewrite Dw, Dc, Da in Hb. cbn [bind] in Hb. rewrite Sw in Hd. rewrite Sc in Hp. destruct (nilb ds); [|discriminate Hd]. destruct (nilb cs); [|discriminate Hp].
    cbn [negb orb andb] in Hb. rewrite andb_false_r in Hb. injection Hb as <-. reflexivity.
  - clear ds cs an Dw Sw Dc Sc Da. intros ds t ps gs v Hi Ed Ep Nd Np Eg H. destruct (NA v H) as [n [attrs [x [Hv [Hb Hs]]]]]. exists n, attrs. rewrite Ed, Ep in Hb. unfold build_track in Hb.
    destruct (arg "track_items"); try discriminate Hi. cbn [titems_of dates_of points_of bind] in Hb.
    assert (Eg' : points_of (arg "angles") = Ok gs) by (destruct Eg as [-> |[-> ->]]; reflexivity). rewrite Eg' in Hb. cbn [bind] in Hb.
    replace (nilb ds) with false in Hb by (destruct ds; [congruence|reflexivity]). replace (nilb ps) with false in Hb by (destruct ps; [congruence|reflexivity]). cbn [negb nilb orb andb] in Hb.
    apply bind_ok in Hb as [l [Hz E]]. injection E as <-. destruct (zip_nth _ _ _ _ _ Hz) as [Ll Ln]. exists l. split; [exact Hv|]. split; [exact Hs|].
    assert (Hn : (Nat.max (length ds) (Nat.max (length ps) (length gs)) <= length ps)%nat).
    { destruct (Nat.le_gt_cases (Nat.max (length ds) (Nat.max (length ps) (length gs))) (length ps)) as [?|Hlt]; [assumption|].
      destruct (Ln (length ps) Hlt) as [p [g [_ [E _]]]]. rewrite nth_overflow in E by lia. discriminate E. }
    split; [lia|]. split; [lia|]. split; [lia|]. intros i p Hp. assert (Hlt : (i < length ps)%nat) by (apply nth_error_Some; congruence).
    destruct (Ln i ltac:(lia)) as [p' [g [E1 [E2 E3]]]]. rewrite E1. f_equal. rewrite (nth_error_nth _ _ [] Hp) in E2. f_equal.
    + unfold mk_point in E2. unfold no_nan. destruct (length p) as [|[|[|[|]]]]; try discriminate E2; now injection E2 as <-.
    + f_equal. unfold mk_angle in E3. unfold angle_of. destruct (nth i gs []) as [|g1 [|g2 [|g3 [|]]]]; try discriminate E3; injection E3 as <-; reflexivity.
Qed.
Print Assumptions C23_track.

(** Arguments of the three kinds. *)
Definition t_item : titem := mkItem (when "2001") (pt ["1"; "2"; "3"]) (Some zero_angle).
Example C23_track_example :
  new W0 "gx.Track" None [] [("track_items", VItems [t_item]); ("whens", VDates [when "2001"])] = Err EValueError /\
  (exists v, new W0 "gx.Track" None [] [("track_items", VItems [t_item])] = Ok v) /\
  (exists v, new W0 "gx.Track" None [] [("whens", VDates [when "2001"; when "2002"]); ("coords", VCoords true [pt ["1"; "2"]; pt ["3"; "4"]]); ("angles", VCoords true [pt ["5"]])] = Ok v /\
     items_of_track v = [mkItem (when "2001") (pt ["1"; "2"]) (Some (angle_of (pt ["5"]))); mkItem (when "2002") (pt ["3"; "4"]) (Some zero_angle)]).
Proof. split; [vm_compute; reflexivity|]. split; [eexists; vm_compute; reflexivity|]. eexists. split; [vm_compute; reflexivity|]. vm_compute. reflexivity. Qed.

(** ** C25 *)

(** Reading what is written for a track, with any verbosity and without a
    precision, gives the same items in the same order, if every item has a
    position and an angle given as floats (and, as [rt_ok] says, a time that
    survives its text form, see C09). *)
Theorem C25_track_round_trip :
  forall arrow strict vb ns nss attrs e items,
  let W := fastkml arrow in
  let v := VObj "gx.Track" ns nss attrs in
  typed W v = true -> rt_ok W v = true -> etree W None vb v = Ok e ->
  sget "track_items" attrs = Some (VItems items) ->
  (forall i, In i items -> exists g, ti_angle i = Some g /\ forallb is_float (ti_coord i) = true /\ forallb is_float g = true) ->
  exists attrs', from_element W strict e "gx.Track" ns nss = Ok (VObj "gx.Track" ns nss attrs') /\
    sget "track_items" attrs' = Some (VItems items).
Proof.
  intros arrow strict vb ns nss attrs e items W v Ht Hr He Hs Hf. assert (R := roundtrip W None vb strict _ _ _ _ _ (fastkml_ok arrow) Ht Hr He). fold v in R.
  destruct (norm W None vb v) as [ | | | | | | | | | | |c' n' m' attrs'] eqn:En; try (cbn in En; discriminate En).
  unfold v in En. cbn [norm] in En. unfold norm_with in En. change (class_of W "gx.Track") with (Some cl_gx_Track) in En. injection En as <- <- <- Ea.
  exists attrs'. split; [exact R|]. rewrite <- Ea. cbn [cl_gx_Track ci_pre map app sget fst snd]. rewrite String.eqb_refl. do 2 f_equal.
  unfold items_in. rewrite Hs. clear -Hf. induction items as [|[w p o] l IH]; [reflexivity|]. cbn [map]. rewrite IH by auto using in_cons. f_equal.
  destruct (Hf _ (or_introl eq_refl)) as [g [E1 [E2 E3]]]. cbn in E1, E2, E3. subst o. unfold titem_norm. cbn [ti_when ti_coord ti_angle].
  assert (P : forall q, forallb is_float q = true -> point_norm None q = q).
  { clear. unfold point_norm. induction q as [|[z|f] q IH]; cbn; intro H; [reflexivity|discriminate|]. now rewrite IH. }
  now rewrite !P.
Qed.
Print Assumptions C25_track_round_trip.

Example C25_example :
  exists attrs e items, s_track = VObj "gx.Track" (ns_get nss0 "gx") nss0 attrs /\ typed W0 s_track = true /\ rt_ok W0 s_track = true /\
    etree W0 None Verbose s_track = Ok e /\ sget "track_items" attrs = Some (VItems items) /\ length items = 2%nat /\
    forallb (fun i => match ti_angle i with Some g => forallb is_float (ti_coord i) && forallb is_float g | None => false end) items = true.
Proof. do 3 eexists. repeat (split; [vm_compute; reflexivity|]). vm_compute. reflexivity. Qed.

(** Without angles the items are not the same: they come back with the angle
    (0, 0, 0). *)
Definition track_without_angles : value := Eval vm_compute in
  mk "gx.Track" [("track_items", VItems [mkItem (when "2001") (pt ["1"; "2"; "3"]) None])].

Theorem C25_items_without_angle_refuted :
  exists e v, etree W0 None Normal track_without_angles = Ok e /\ from_string W0 true "gx.Track" None nss0 e = Ok v /\
    items_of_track track_without_angles = [mkItem (when "2001") (pt ["1"; "2"; "3"]) None] /\
    items_of_track v = [mkItem (when "2001") (pt ["1"; "2"; "3"]) (Some zero_angle)].
Proof. do 2 eexists. repeat (split; [vm_compute; reflexivity|]). vm_compute. reflexivity. Qed.
Print Assumptions C25_items_without_angle_refuted.
