(** * Exactly which elements the lenient reader refuses. *)
From Coq Require Import String List NArith ZArith Bool Lia.
From Verif Require Import Ustr UstrProofs Res PyInt PyFloat PyDate Elem Value Geom Codec Spec Settled EmitProofs CodecProofs ReadProofs RoundTrip NsProofs SettledProofs ReaderTyped Agree AgreeProofs CtorProofs StrictProofs Calm.
Import ListNotations.

(** ** The parsers raise nothing but [ValueError] *)

Definition only_value {A} (r : res A) : Prop := match r with Ok _ => True | Err x => x = EValueError end.

Lemma only_bind {A B} (r : res A) (f : A -> res B) : only_value r -> (forall a, only_value (f a)) -> only_value (bind r f).
Proof. destruct r; cbn; auto. Qed.

Lemma only_map {A B} (f : A -> res B) l : (forall a, only_value (f a)) -> only_value (map_res f l).
Proof. intro H. induction l; cbn; [exact I|]. apply only_bind; [apply H|]. intro. apply only_bind; [exact IHl|]. intro. exact I. Qed.

Ltac onlyv := repeat (first [exact I | reflexivity | match goal with
  | |- only_value (match ?x with _ => _ end) => destruct x
  | |- only_value (let '(_, _) := ?x in _) => destruct x
  end]).

Lemma int_only t : only_value (int_of_str t).
Proof. unfold int_of_str. cbv zeta. onlyv. Qed.

Lemma float_only t : only_value (float_of_str t).
Proof. unfold float_of_str. cbv zeta. onlyv. Qed.

Lemma date_only o t : only_value (kdt_parse o t).
Proof.
  assert (M : forall y m d, only_value (mk_date y m d)) by (intros; unfold mk_date; destruct (valid_date _); [exact I|reflexivity]).
  assert (A : only_value (arrow_get o t)).
  { unfold arrow_get. cbv zeta. destruct (match iso_parse t with Some _ => _ | None => _ end); [|reflexivity]. destruct (_ && _); [exact I|reflexivity]. }
  assert (G : forall g, only_value (group_int g)).
  { intros [g|]; cbn; [apply int_only|exact I]. }
  unfold kdt_parse. repeat (first [exact I | reflexivity | apply M | apply A | apply G | apply int_only | apply only_bind; [|intro]
    | match goal with |- only_value (match ?x with _ => _ end) => destruct x end]).
Qed.

Lemma bool_only strict t : only_value (get_boolean_value strict t).
Proof.
  unfold get_boolean_value. cbv zeta. destruct (_ || _); [exact I|]. destruct (_ || _); [exact I|]. destruct strict; [reflexivity|].
  apply only_bind; [apply float_only|]. intro. exact I.
Qed.

Lemma enum_only c e strict t : only_value (get_enum_value c e strict t).
Proof.
  unfold get_enum_value, enum_lookup. destruct (enum_exact e t); [|destruct (enum_relaxed e t); [|reflexivity]]; cbn [bind]; (destruct (_ && _); [reflexivity|exact I]).
Qed.

Lemma floats_only l : only_value (floats_of l).
Proof. apply only_map. intro. apply only_bind; [apply float_only|]. intro. exact I. Qed.

Lemma coordinates_only t : only_value (parse_coordinates t).
Proof. unfold parse_coordinates. apply only_bind; [|intro; exact I]. apply only_map. intro. apply floats_only. Qed.

Lemma guarded_ok r : only_value r -> is_ok (guarded false r) = true.
Proof. destruct r; cbn; [reflexivity|]. now intros ->. Qed.

(** ** Items *)

Lemma forallb_ext_in {A} (f g : A -> bool) l : (forall x, In x l -> f x = g x) -> forallb f l = forallb g l.
Proof. induction l as [|x l IH]; intro H; [reflexivity|]. cbn. rewrite (H x) by now left. rewrite IH; [reflexivity|]. intros. apply H. now right. Qed.

Lemma forallb_map {A B} (f : A -> B) (g : B -> bool) l : forallb g (map f l) = forallb (fun x => g (f x)) l.
Proof. induction l as [|x l IH]; [reflexivity|]. cbn. now rewrite IH. Qed.

Lemma is_ok_bind {A B} (r : res A) (f : A -> res B) : is_ok (bind r f) = match r with Ok a => is_ok (f a) | Err _ => false end.
Proof. now destruct r. Qed.

Lemma is_ok_ret {A B} (r : res A) (f : A -> B) : is_ok (let! a := r in Ok (f a)) = is_ok r.
Proof. now destruct r. Qed.

Lemma is_ok_map {A B} (f : A -> res B) l : is_ok (map_res f l) = forallb (fun a => is_ok (f a)) l.
Proof.
  induction l as [|a l IH]; [reflexivity|]. cbn. destruct (f a); cbn; [|reflexivity]. rewrite <- IH. now destruct (map_res f l).
Qed.

Lemma filled_spec key a : match uget key a with Some t => if uempty t then None else Some t | None => None end = filled key a.
Proof. unfold filled. destruct (uget key a) as [[|]|]; reflexivity. Qed.

Lemma try_attr f nss it a :
  (forall id, f (ns_get nss id) = match filled (ns_get nss id ++ u (it_node it)) a with Some t => let! z := int_of_str t in Ok (Some (VInt z)) | None => Ok None end) ->
  is_ok (try_nsids f nss (it_nsids it)) = match first_some (map (fun key => filled key a) (keys nss it)) with Some t => is_ok (int_of_str t) | None => true end.
Proof.
  intro H. unfold keys. rewrite map_map. induction (it_nsids it) as [|id ids IH]; [reflexivity|]. cbn [try_nsids map first_some]. rewrite H.
  destruct (filled _ a) as [t|]; [|exact IH]. now destruct (int_of_str t).
Qed.

Lemma try_ok f nss ids : (forall id, is_ok (f (ns_get nss id)) = true) -> is_ok (try_nsids f nss ids) = true.
Proof.
  intro H. induction ids as [|id ids IH]; [reflexivity|]. cbn. specialize (H id). destruct (f (ns_get nss id)) as [[v|]|]; [reflexivity|exact IH|discriminate].
Qed.

(** Dates. *)
Lemma read_dates W ks : is_ok (map_res (read_date W false) (map (kid_reader W false) ks)) = forallb has_text ks.
Proof.
  rewrite is_ok_map. induction ks as [|k ks IH]; [reflexivity|]. cbn. rewrite IH. f_equal. unfold read_date, has_text. cbn [fst].
  destruct (e_text k) as [t|]; [|reflexivity]. assert (O := date_only (w_arrow W) t). destruct (kdt_parse _ t); [reflexivity|]. cbn in O. now subst.
Qed.

Lemma read_dates_length W ks l : map_res (read_date W false) (map (kid_reader W false) ks) = Ok l -> length (concat l) = length (good_dates W ks).
Proof.
  revert l. induction ks as [|k ks IH]; intros l H; cbn in H; [injection H as <-; reflexivity|].
  apply bind_ok in H as [x [Hx H]]. apply bind_ok in H as [y [Hy H]]. injection H as <-. cbn. rewrite app_length, (IH _ Hy).
  unfold good_dates, texts. cbn [map concat]. rewrite filter_app, app_length. f_equal. unfold read_date in Hx. cbn [fst] in Hx.
  destruct (e_text k) as [t|]; [|discriminate]. cbn [opt_list filter]. assert (O := date_only (w_arrow W) t). destruct (kdt_parse _ t) as [d|z]; [injection Hx as <-; reflexivity|].
  cbn in O. subst z. injection Hx as <-. reflexivity.
Qed.

Lemma length_nilb {A B} (l : list A) (r : list B) : length l = length r -> nilb l = nilb r.
Proof. destruct l, r; cbn; congruence. Qed.

Lemma try_dates W a x ks nss it : it_get it = GDates ->
  is_ok (try_nsids (fun ns => get_kwarg W false it a x (map (kid_reader W false) ks) ns nss) nss (it_nsids it)) = dates_calm W ks (keys nss it).
Proof.
  intro G. unfold keys. induction (it_nsids it) as [|id ids IH]; [reflexivity|]. cbn [try_nsids map dates_calm].
  unfold get_kwarg at 1. rewrite G, find_kids_with. rewrite <- (read_dates W).
  destruct (map_res _ _) as [l|] eqn:E; [|reflexivity]. cbn [bind is_ok andb].
  rewrite (length_nilb _ _ (read_dates_length _ _ _ E)). destruct (nilb _); [exact IH|reflexivity].
Qed.

(** Tuples. *)
Lemma floats_ok l : is_ok (floats_of l) = forallb (fun w => is_ok (float_of_str w)) l.
Proof. unfold floats_of. rewrite is_ok_map. induction l as [|w l IH]; [reflexivity|]. cbn. rewrite IH. now destruct (float_of_str w). Qed.

Lemma read_coords W ks : exists l, map_res (read_coord false) (map (kid_reader W false) ks) = Ok l /\ map (@length _) (concat l) = good_tuples ks.
Proof.
  induction ks as [|k ks [l [IH1 IH2]]]; [exists []; split; reflexivity|]. cbn [map map_res]. rewrite IH1. unfold good_tuples, texts in *. cbn [map concat]. rewrite filter_app, map_app.
  unfold read_coord. cbn [fst]. destruct (e_text k) as [t|]; cbn [opt_list filter].
  2:{ cbn [bind]. eexists. split; [reflexivity|]. exact IH2. }
  destruct (uempty t); cbn [negb andb]; [cbn [bind]; eexists; split; [reflexivity|exact IH2]|].
  rewrite <- floats_ok. assert (O := floats_only (words t)). destruct (floats_of (words t)) as [c|z] eqn:E; cbn [is_ok].
  - cbn [bind]. eexists. split; [reflexivity|]. cbn. destruct (floats_of_good _ _ E) as [_ [_ ->]]. f_equal. exact IH2.
  - cbn in O. subst z. cbn [bind]. eexists. split; [reflexivity|exact IH2].
Qed.

(** Objects. *)
Definition judge W nss (ks : list elem) : list judged := map (fun k => (k, calm W nss k)) ks.

Lemma with_judge W nss tag ks : with_tag' tag (judge W nss ks) = judge W nss (with_tag tag ks).
Proof. unfold judge, with_tag', with_tag. induction ks as [|k ks IH]; [reflexivity|]. cbn. destruct (ueqb _ _); cbn; now rewrite IH. Qed.

Lemma judge_fst W nss ks : map fst (judge W nss ks) = ks.
Proof. unfold judge. rewrite map_map. apply map_id. Qed.

Definition kid_same W nss (k : elem) : Prop := forall c ns, is_ok (from_element W false k c ns nss) = calm W nss k c.

Lemma known_tag W c : known_class W c = true -> class_tag W c = Ok (u (tag_of W c)).
Proof. unfold known_class, class_tag, tag_of. now destruct (class_of W c). Qed.

Lemma first_some_app {A} (l r : list (option A)) : first_some (l ++ r) = match first_some l with Some x => Some x | None => first_some r end.
Proof. induction l as [|[x|] l IH]; cbn; auto. Qed.

Lemma read_obj_calm W nss ns ks cs : Forall (kid_same W nss) ks -> forallb (known_class W) cs = true ->
  match first_some (map (fun c => option_map (fun k => (c, k)) (hd_error (with_tag' (ns ++ u (tag_of W c)) (judge W nss ks)))) cs) with
  | Some (c, k) => match read_obj W (map (kid_reader W false) ks) ns nss cs with Ok (Some _) => snd k c = true | Ok None => False | Err _ => snd k c = false end
  | None => read_obj W (map (kid_reader W false) ks) ns nss cs = Ok None
  end.
Proof.
  intros Hk Hc. induction cs as [|c cs IH]; [reflexivity|]. cbn [forallb] in Hc. apply andb_prop in Hc as [H1 H2]. cbn [map first_some read_obj].
  rewrite (known_tag _ _ H1). cbn [bind]. rewrite find_kid_with, with_judge. destruct (with_tag (ns ++ u (tag_of W c)) ks) as [|k l] eqn:E; [exact (IH H2)|].
  cbn. assert (Hin : In k ks). { assert (I : In k (with_tag (ns ++ u (tag_of W c)) ks)) by (rewrite E; now left). now apply filter_In in I. }
  rewrite Forall_forall in Hk. rewrite <- (Hk k Hin c ns). now destruct (from_element W false k c ns nss).
Qed.

Lemma get_kwargs_is_ok W its a x ks nss acc :
  is_ok (get_kwargs W false its a x ks nss acc) = forallb (fun it => is_ok (try_nsids (fun ns => get_kwarg W false it a x ks ns nss) nss (it_nsids it))) its.
Proof.
  revert acc. induction its as [|it its IH]; intros acc; [reflexivity|]. cbn [get_kwargs forallb]. rewrite is_ok_bind. destruct (try_nsids _ _ _); cbn; [apply IH|reflexivity].
Qed.

Lemma item_is_calm W nss a x ks it : item_ok W it = true -> Forall (kid_same W nss) ks ->
  is_ok (try_nsids (fun ns => get_kwarg W false it a x (map (kid_reader W false) ks) ns nss) nss (it_nsids it)) = item_calm W nss a (judge W nss ks) it.
Proof.
  intros Hok Hk. assert (Hok' := Hok). unfold item_ok in Hok. rewrite !andb_true_iff in Hok. destruct Hok as [[[Hp _] _] Hcl]. unfold item_calm.
  destruct (it_get it) eqn:G.
  all: try (apply try_ok; intro id; unfold get_kwarg; rewrite G, ?k_leaf_find; unfold classes_ok in Hcl; destruct (it_set it); try discriminate Hp).
  - reflexivity.
  - reflexivity.
  - reflexivity.
  - rewrite bool_match. destruct (match it_classes it with ["bool"%string] => true | _ => false end); [|discriminate].
    destruct (k_leaf _ _); [|reflexivity]. apply guarded_ok, bool_only.
  - destruct (k_leaf _ _); [|reflexivity]. apply guarded_ok, only_bind; [apply int_only|intro; exact I].
  - apply try_attr. intro id. unfold get_kwarg. now rewrite G, filled_spec.
  - destruct (k_leaf _ _); [|reflexivity]. apply guarded_ok, only_bind; [apply float_only|intro; exact I].
  - destruct (match uget _ _ with Some _ => _ | None => _ end); [|reflexivity]. apply guarded_ok, only_bind; [apply float_only|intro; exact I].
  - unfold with_enum. destruct (it_classes it) as [|k [|]]; try discriminate. destruct (sget k _); [|discriminate]. destruct (k_leaf _ _); [|reflexivity]. apply guarded_ok, enum_only.
  - unfold with_enum. destruct (it_classes it) as [|k [|]]; try discriminate. destruct (sget k _); [|discriminate]. destruct (match uget _ _ with Some _ => _ | None => _ end); [|reflexivity]. apply guarded_ok, enum_only.
  - destruct (k_leaf _ _); [|reflexivity]. apply guarded_ok, only_bind; [apply date_only|intro; exact I].
  - rewrite judge_fst. now apply try_dates.
  - rewrite find_kids_with. destruct (read_coords W (with_tag (ns_get nss id ++ u (it_node it)) ks)) as [l [-> _]]. reflexivity.
  - destruct x; [|reflexivity]. apply guarded_ok, coordinates_only.
  - assert (Hcs : forallb (known_class W) (it_classes it) = true).
    { unfold classes_ok in Hcl. destruct (it_set it); try discriminate Hp. now apply andb_prop in Hcl. }
    clear Hp Hcl Hok'. induction (it_nsids it) as [|id ids IH]; [reflexivity|]. cbn [try_nsids map concat]. rewrite first_some_app. unfold get_kwarg at 1. rewrite G.
    assert (R := read_obj_calm W nss (ns_get nss id) ks (it_classes it) Hk Hcs).
    destruct (first_some (map _ (it_classes it))) as [[c k]|].
    + destruct (read_obj _ _ _ _ _) as [[v|]|]; cbn; [now rewrite R|contradiction|now rewrite R].
    + rewrite R. cbn [bind]. exact IH.
  - assert (Hcs : forallb (known_class W) (it_classes it) = true /\ it_nsids it <> []).
    { unfold classes_ok in Hcl. destruct (it_set it); try discriminate Hp. apply andb_prop in Hcl as [H1 H2]. split; [exact H1|]. now destruct (it_nsids it). }
    destruct Hcs as [Hcs Hne]. destruct (it_nsids it) as [|id ids]; [contradiction|]. cbn [try_nsids]. unfold get_kwarg at 1. rewrite G. unfold read_objs.
    match goal with |- _ = ?r => transitivity (is_ok (map_res (fun c => let! tag := class_tag W c in map_res (fun k : rkid => snd k c (ns_get nss id) nss) (find_kids (ns_get nss id ++ tag) (map (kid_reader W false) ks))) (it_classes it))) end.
    { destruct (map_res _ (it_classes it)); reflexivity. }
    rewrite is_ok_map. apply forallb_ext_in. intros c Hc. rewrite forallb_forall in Hcs. rewrite (known_tag _ _ (Hcs c Hc)). cbn [bind].
    rewrite find_kids_with, is_ok_map, with_judge. unfold judge. rewrite !forallb_map. apply forallb_ext_in. intros k Hin. cbn [snd].
    apply filter_In in Hin as [Hin _]. rewrite Forall_forall in Hk. now apply Hk.
Qed.

(** ** Constructors *)

Definition good_dim (n : nat) : bool := Nat.eqb n 2 || Nat.eqb n 3.

Lemma zip_ok n : forall ws cs an, (length ws <= n)%nat -> (length cs <= n)%nat -> (length an <= n)%nat ->
  is_ok (zip_items ws cs an n) =
  Nat.leb n (length cs) && forallb good_dim (map (@length _) cs) && forallb (fun m => Nat.leb m 3) (map (@length _) an).
Proof.
  induction n as [|n IH]; intros ws cs an H1 H2 H3.
  - destruct cs; [|cbn in H2; lia]. destruct an; [|cbn in H3; lia]. reflexivity.
  - cbn [zip_items]. destruct cs as [|c cs]; [reflexivity|]. cbn [hd tl length map forallb Nat.leb].
    assert (E : is_ok (mk_titem (hd None ws) c (hd [] an)) = good_dim (length c) && match an with [] => true | x :: _ => Nat.leb (length x) 3 end).
    { unfold mk_titem, mk_point, good_dim. destruct (length c) as [|[|[|[|m]]]]; cbn; try reflexivity.
      - destruct an as [|[|x [|y [|z [|]]]] an]; reflexivity.
      - destruct an as [|[|x [|y [|z [|]]]] an]; reflexivity. }
    assert (IH' := IH (tl ws) cs (tl an)).
    rewrite is_ok_bind. destruct (mk_titem (hd None ws) c (hd [] an)) as [i|]; cbn [is_ok] in E.
    + symmetry in E. apply andb_prop in E as [E1 E2]. rewrite is_ok_bind. rewrite E1. cbn [andb].
      transitivity (is_ok (zip_items (tl ws) cs (tl an) n)); [now destruct (zip_items _ _ _ _)|].
      rewrite IH'; [|destruct ws; cbn in *; lia|cbn in H2; lia|destruct an; cbn in *; lia].
      destruct an as [|x an]; cbn [tl map forallb]; [reflexivity|]. now rewrite E2.
    + symmetry in E. destruct (good_dim (length c)); cbn [andb] in E; [|now rewrite andb_false_r].
      destruct an as [|x an]; [discriminate|]. cbn [map forallb]. rewrite E. cbn [andb]. now rewrite andb_false_r.
Qed.

Lemma max_leb a b c : Nat.leb (Nat.max a (Nat.max b c)) b = Nat.leb a b && Nat.leb c b.
Proof. destruct (Nat.leb_spec a b), (Nat.leb_spec c b), (Nat.leb_spec (Nat.max a (Nat.max b c)) b); cbn; try reflexivity; lia. Qed.

Lemma build_track_ok whens coords angles ws cs an : dates_of whens = Ok ws -> points_of coords = Ok cs -> points_of angles = Ok an ->
  is_ok (build_track VNone whens coords angles) =
  nilb ws || nilb cs || (Nat.leb (length ws) (length cs) && Nat.leb (length an) (length cs) && forallb good_dim (map (@length _) cs) && forallb (fun m => Nat.leb m 3) (map (@length _) an)).
Proof.
  intros H1 H2 H3. unfold build_track. cbn [titems_of bind]. rewrite H1, H2, H3. cbn [bind nilb negb andb]. rewrite andb_false_r.
  destruct (nilb ws); [reflexivity|]. destruct (nilb cs); [reflexivity|]. cbn [negb andb orb].
  transitivity (is_ok (zip_items ws cs an (Nat.max (length ws) (Nat.max (length cs) (length an))))); [now destruct (zip_items _ _ _ _)|].
  rewrite zip_ok by lia. now rewrite max_leb.
Qed.

Lemma first_nonempty_cons {A} (x : list A) l : first_nonempty (x :: l) = if nilb x then first_nonempty l else x.
Proof. now destruct x. Qed.

(** What the lists of a track are read as. *)
Lemma try_dates_value W a x ks nss it o : it_get it = GDates ->
  try_nsids (fun ns => get_kwarg W false it a x (map (kid_reader W false) ks) ns nss) nss (it_nsids it) = Ok o ->
  exists ws, dates_of (match o with Some v => v | None => VNone end) = Ok ws /\
    length ws = length (first_nonempty (map (fun t => good_dates W (with_tag t ks)) (keys nss it))).
Proof.
  intro G. unfold keys. induction (it_nsids it) as [|id ids IH]; intro H; cbn [try_nsids] in H.
  - injection H as <-. exists []. split; reflexivity.
  - cbn [map]. rewrite first_nonempty_cons. apply bind_ok in H as [r [Hr H]]. unfold get_kwarg in Hr. rewrite G, find_kids_with in Hr. apply bind_ok in Hr as [l [Hl Hr]].
    assert (L := read_dates_length _ _ _ Hl). rewrite <- (length_nilb _ _ L). destruct (nilb (concat l)); injection Hr as <-; [apply IH, H|].
    injection H as <-. exists (concat l). split; [reflexivity|exact L].
Qed.

Lemma try_coords_value W a x ks nss it o : it_get it = GCoordList ->
  try_nsids (fun ns => get_kwarg W false it a x (map (kid_reader W false) ks) ns nss) nss (it_nsids it) = Ok o ->
  exists cs, points_of (match o with Some v => v | None => VNone end) = Ok cs /\
    map (@length _) cs = first_nonempty (map (fun t => good_tuples (with_tag t ks)) (keys nss it)).
Proof.
  intro G. unfold keys. induction (it_nsids it) as [|id ids IH]; intro H; cbn [try_nsids] in H.
  - injection H as <-. exists []. split; reflexivity.
  - cbn [map]. rewrite first_nonempty_cons. apply bind_ok in H as [r [Hr H]]. unfold get_kwarg in Hr. rewrite G, find_kids_with in Hr. apply bind_ok in Hr as [l [Hl Hr]].
    destruct (read_coords W (with_tag (ns_get nss id ++ u (it_node it)) ks)) as [l' [Hl' L]]. rewrite Hl in Hl'. injection Hl' as <-.
    assert (N : nilb (concat l) = nilb (good_tuples (with_tag (ns_get nss id ++ u (it_node it)) ks))) by (rewrite <- L; apply length_nilb; now rewrite map_length).
    rewrite <- N. destruct (nilb (concat l)); injection Hr as <-; [apply IH, H|].
    injection H as <-. exists (concat l). split; [reflexivity|exact L].
Qed.

Lemma try_text_value W a x ks nss it : it_get it = GAttrText ->
  try_nsids (fun ns => get_kwarg W false it a x ks ns nss) nss (it_nsids it) = Ok (option_map VStr (first_some (map (fun key => filled key a) (keys nss it)))).
Proof.
  intro G. unfold keys. rewrite map_map. induction (it_nsids it) as [|id ids IH]; [reflexivity|]. cbn [try_nsids map first_some]. unfold get_kwarg at 1. rewrite G, filled_spec.
  destruct (filled _ a) as [t|]; cbn [bind]; [reflexivity|exact IH].
Qed.

(** Truth values made of plain attributes do not raise. *)
Lemma simple_truth W c ns nss attrs ci : typed_node W c ns nss attrs = true -> class_of W c = Some ci ->
  bool_simple ci (items_of W c) (ci_bool ci) = true -> is_ok (py_bool W (VObj c ns nss attrs)) = true.
Proof.
  intros Ht Hc Hb. unfold py_bool. cbn [sem]. rewrite Hc. cbn [fst].
  set (env := map _ attrs). set (g := eval_geom _ _ _).
  assert (Henv : forall a, sget a env = match sget a attrs with
      | Some x => Some (x, sem W x, match x with VList l => map (sem W) l | _ => [] end) | None => None end).
  { intro a. apply (sget_map (fun _ x => (x, sem W x, match x with VList l => map (sem W) l | _ => [] end))). }
  unfold typed_node in Ht. rewrite Hc in Ht. apply andb_prop in Ht as [Hs Ht]. rewrite forallb_forall in Ht.
  assert (Hin : forall a, existsb (fun ak => String.eqb a (fst ak)) (ctor_attrs ci) = true -> exists x, sget a attrs = Some x).
  { intros a Ha. destruct (sget a attrs) as [x|] eqn:E; [eauto|]. exfalso. apply sget_None in E. apply E.
    unfold shape_ok in Hs. rewrite !andb_true_iff in Hs. destruct Hs as [[Hs _] _]. apply all2_seq_eq in Hs. rewrite Hs.
    apply existsb_exists in Ha as [[b k] [Hin Ea]]. apply String.eqb_eq in Ea. cbn in Ea. subst b. unfold ctor_attrs in Hin.
    apply (in_map fst) in Hin. rewrite map_app in Hin. cbn [fst] in Hin. rewrite !in_app_iff in *. tauto. }
  clearbody g. induction (ci_bool ci) as [|a|a|a| |e1 IH1 e2 IH2|e1 IH1 e2 IH2]; cbn [bool_simple] in Hb; try discriminate Hb; cbn [eval_bool].
  - reflexivity.
  - apply andb_prop in Hb as [H1 H2]. destruct (Hin a H1) as [x Hx]. unfold with_attr. rewrite Henv, Hx. unfold a_bool. cbn [fst snd].
    assert (T := Ht _ (sget_In _ _ _ Hx)). unfold attr_typed in T. apply andb_prop in T as [T1 T2]. destruct x; try reflexivity.
    destruct (find_item a (items_of W c)) as [it|]; [|discriminate]. unfold item_typed in T1. destruct (it_set it); discriminate.
  - destruct (Hin a Hb) as [x Hx]. unfold with_attr. rewrite Henv, Hx. reflexivity.
  - apply andb_prop in Hb as [H1 H2]. specialize (IH1 H1). specialize (IH2 H2). rewrite is_ok_bind. destruct (eval_bool env g e1) as [[|]|]; auto.
  - apply andb_prop in Hb as [H1 H2]. specialize (IH1 H1). specialize (IH2 H2). rewrite is_ok_bind. destruct (eval_bool env g e1) as [[|]|]; auto.
Qed.

Lemma filter_ok_list W l : (forall y, In y l -> is_ok (py_bool W y) = true) -> is_ok (filter_true W l) = true.
Proof.
  induction l as [|y l IH]; intro H; [reflexivity|]. cbn. assert (Hy := H y (or_introl eq_refl)). destruct (py_bool W y); [|discriminate]. cbn.
  assert (Hl : is_ok (filter_true W l) = true) by (apply IH; intros; apply H; now right). now destruct (filter_true W l).
Qed.

Lemma forallb_split {A} (f g : A -> bool) l : forallb (fun x => f x && g x) l = forallb f l && forallb g l.
Proof. induction l as [|x l IH]; [reflexivity|]. cbn. rewrite IH. destruct (f x), (g x), (forallb f l); reflexivity. Qed.

(** Nothing is passed to a constructor that does not take it. *)
Lemma ctor_extras W c ci : class_facts W ci (items_of W c) -> forall r,
  negb (ci_kwargs ci) && negb (nilb (extras_of ci (kw_of r (items_of W c)))) = false.
Proof.
  intros F r. destruct (ci_kwargs ci) eqn:Ek; [reflexivity|]. cbn [negb andb]. apply negb_false_iff. destruct (extras_of ci _) as [|[b v] l] eqn:Ex; [reflexivity|]. exfalso.
  assert (I : In (b, v) (extras_of ci (kw_of r (items_of W c)))) by (rewrite Ex; now left). rewrite kw_of_extras in I. apply in_concat in I as [l' [Hl I]]. apply in_map_iff in Hl as [it [<- Hit]].
  assert (P := cf_placed _ _ _ F it Hit). unfold placed in P. rewrite Ek in P. destruct (mem (it_attr it) (ci_params ci)); [destruct I|discriminate].
Qed.

(** What the constructor makes of the arguments that were read. *)
Lemma ctor_calm W c ci a x ks nss kws : world_ok W = true -> class_of W c = Some ci -> merge_ns nss = nss ->
  get_kwargs W false (items_of W c) a x (map (kid_reader W false) ks) nss [] = Ok kws ->
  (forall ak, In ak (ctor_attrs ci) ->
    is_ok (mk_attr W kws ak) = required_calm nss (items_of W c) a ak && match snd ak with CTrack => track_calm W nss (items_of W c) ks | _ => true end) /\
  negb (ci_kwargs ci) && negb (nilb (extras_of ci kws)) = false.
Proof.
  intros HW Hc Hm Hk. assert (F := world_class _ _ _ HW Hc).
  destruct (get_kwargs_inv W false (items_of W c) a x (map (kid_reader W false) ks) nss [] kws) as [r [-> Hr]]; [exact (cf_attrs _ _ _ F)|exact Hk|]. cbn [app] in *.
  (* what the values look like *)
  assert (Hkids : Forall (kid_ok (read_inv W)) (map (kid_reader W false) ks)).
  { apply Forall_forall. intros k Hin. apply in_map_iff in Hin as [e [<- _]]. intros c' n' m' v Hv. now apply (reader_inv W false e HW) in Hv. }
  assert (Hv : forall it v, In it (items_of W c) -> r it = Some v -> exists n, value_ok W (read_inv W) n nss it v).
  { intros it v Hi Hrv. assert (Hr1 := Hr it Hi). rewrite Hrv in Hr1. apply try_nsids_some in Hr1 as [id [_ Hg]]. exists (ns_get nss id).
    eapply get_kwarg_ok; [exact (cf_items _ _ _ F it Hi)|eapply item_names_nodup; [exact Hi|exact (cf_names _ _ _ F)]|exact Hkids|exact Hg]. }
  set (kws := kw_of r (items_of W c)) in *.
  assert (Kw : forall b, kwget kws b = match find_item b (items_of W c) with Some i => match r i with Some v => v | None => VNone end | None => VNone end).
  { intro b. unfold kwget, kws. rewrite kw_of_get by apply (cf_attrs _ _ _ F). destruct (find_item b (items_of W c)) as [i|]; [|reflexivity]. now destruct (r i). }
  split; [|exact (ctor_extras _ _ _ F r)].
  intros [b k] Hin. destruct (cf_kind _ _ _ F _ Hin) as [Hko Hfo]. cbn [fst snd] in Hko, Hfo. unfold mk_attr, required_calm. cbn [fst snd]. rewrite is_ok_ret.
    enough (G : is_ok match k with
      | CRaw => Ok (kwget kws b) | CClean => clean_string (kwget kws b)
      | CCleanReq => let! b0 := py_bool W (kwget kws b) in if b0 then clean_string (kwget kws b) else Err EKMLSchema
      | COrEmpty => let! b0 := py_bool W (kwget kws b) in Ok (if b0 then kwget kws b else VStr [])
      | COrNone => let! b0 := py_bool W (kwget kws b) in Ok (if b0 then kwget kws b else VNone)
      | CListTruthy | CListNotNone => match kwget kws b with VNone => Ok (VList []) | VList l => Ok (VList l) | _ => Err ETypeError end
      | CFilter => match kwget kws b with VNone => Ok (VList []) | VList l => let! r0 := filter_true W l in Ok (VList r0) | _ => Err ETypeError end
      | CCoordsOr => let! b0 := py_bool W (kwget kws b) in Ok (if b0 then kwget kws b else VCoords false [])
      | CTrack => build_track (kwget kws b) (kwget kws "whens") (kwget kws "coords") (kwget kws "angles")
      end = match k with
      | CCleanReq => match find_item b (items_of W c) with
                     | Some it => match first_some (map (fun key => filled key a) (keys nss it)) with Some _ => true | None => false end
                     | None => false end
      | CTrack => track_calm W nss (items_of W c) ks
      | _ => true end).
    { rewrite G. destruct k; rewrite ?andb_true_r; reflexivity. }
    destruct k; try reflexivity.
    - (* CClean *) rewrite Kw. destruct (find_item b (items_of W c)) as [it|] eqn:Fi; [|reflexivity]. destruct (find_item_In _ _ _ Fi) as [Hi _].
      destruct (r it) as [v|] eqn:Ev; [|reflexivity]. destruct (Hv it v Hi Ev) as [n [T _]]. unfold item_typed in T. cbn in Hko.
      destruct (it_set it); try discriminate Hko; destruct v; try discriminate T; try reflexivity; cbn; destruct (uempty s); reflexivity.
    - (* CCleanReq *) rewrite Kw. destruct (find_item b (items_of W c)) as [it|] eqn:Fi; [|discriminate Hko]. destruct (find_item_In _ _ _ Fi) as [Hi _].
      assert (Hok := cf_items _ _ _ F it Hi). unfold item_ok in Hok. rewrite !andb_true_iff in Hok. destruct Hok as [[[Hp _] _] _].
      cbn in Hko. destruct (it_set it); try discriminate Hko. destruct (it_get it) eqn:G; try discriminate Hp.
      assert (E := Hr it Hi). rewrite (try_text_value W a x _ nss it G) in E. injection E as E. rewrite <- E.
      destruct (first_some (map (fun key => filled key a) (keys nss it))) as [s|] eqn:Es; [|reflexivity]. cbn [option_map py_bool sem fst].
      assert (Hne : uempty s = false).
      { clear -Es. induction (keys nss it) as [|k l IH]; [discriminate|]. cbn in Es. unfold filled in Es at 1. destruct (uget k a) as [[|ch s']|]; auto. now injection Es as <-. }
      unfold py_bool. cbn [sem fst bind]. rewrite Hne. cbn [negb clean_string]. rewrite Hne. reflexivity.
    - (* COrEmpty *) rewrite Kw. destruct (find_item b (items_of W c)) as [it|] eqn:Fi; [|reflexivity]. destruct (find_item_In _ _ _ Fi) as [Hi _].
      destruct (r it) as [v|] eqn:Ev; [|reflexivity]. destruct (Hv it v Hi Ev) as [n [T _]]. unfold item_typed in T. cbn in Hko.
      destruct (it_set it); try discriminate Hko; destruct v; try discriminate T; reflexivity.
    - (* COrNone *) rewrite Kw. destruct (find_item b (items_of W c)) as [it|] eqn:Fi; [|reflexivity]. destruct (find_item_In _ _ _ Fi) as [Hi _].
      destruct (r it) as [v|] eqn:Ev; [|reflexivity]. destruct (Hv it v Hi Ev) as [n [T _]]. unfold item_typed in T. cbn in Hko.
      destruct (it_set it); try discriminate Hko; destruct v; try discriminate T; reflexivity.
    - (* CListTruthy *) rewrite Kw. destruct (find_item b (items_of W c)) as [it|] eqn:Fi; [|discriminate Hko]. destruct (find_item_In _ _ _ Fi) as [Hi _].
      destruct (r it) as [v|] eqn:Ev; [|reflexivity]. destruct (Hv it v Hi Ev) as [n [T _]]. unfold item_typed in T. cbn in Hko.
      destruct (it_set it); try discriminate Hko; destruct v; try discriminate T; reflexivity.
    - (* CListNotNone *) rewrite Kw. destruct (find_item b (items_of W c)) as [it|] eqn:Fi; [|discriminate Hko]. destruct (find_item_In _ _ _ Fi) as [Hi _].
      destruct (r it) as [v|] eqn:Ev; [|reflexivity]. destruct (Hv it v Hi Ev) as [n [T _]]. unfold item_typed in T. cbn in Hko.
      destruct (it_set it); try discriminate Hko; destruct v; try discriminate T; reflexivity.
    - (* CFilter *) rewrite Kw. destruct (find_item b (items_of W c)) as [it|] eqn:Fi; [|discriminate Hko]. destruct (find_item_In _ _ _ Fi) as [Hi _].
      destruct (r it) as [v|] eqn:Ev; [|reflexivity]. destruct (Hv it v Hi Ev) as [n [T [_ Hq]]]. unfold item_typed in T. cbn in Hko.
      destruct (it_set it); try discriminate Hko; destruct v; try discriminate T; try reflexivity.
      rewrite is_ok_bind. enough (Hl : is_ok (filter_true W l) = true) by now destruct (filter_true W l).
      apply filter_ok_list. intros y Hy. destruct (Hq y Hy) as [[Ty _] _]. rewrite forallb_forall in T. specialize (T y Hy). destruct y; try discriminate T.
      cbn [is_obj_of] in T. cbn [filter_ok] in Hfo. rewrite forallb_forall in Hfo. apply mem_In in T. specialize (Hfo _ T). cbn [vall] in Ty. apply andb_prop in Ty as [Ty _].
      destruct (class_of W cls) as [ci'|] eqn:Ec; [|discriminate]. eapply simple_truth; eassumption.
    - (* CCoordsOr *) rewrite Kw. destruct (find_item b (items_of W c)) as [it|] eqn:Fi; [|discriminate Hko]. destruct (find_item_In _ _ _ Fi) as [Hi _].
      destruct (r it) as [v|] eqn:Ev; [|reflexivity]. destruct (Hv it v Hi Ev) as [n [T _]]. unfold item_typed in T. cbn in Hko.
      destruct (it_set it); try discriminate Hko; destruct v; try discriminate T; reflexivity.
    - (* CTrack *) assert (Ht := cf_track _ _ _ F). unfold track_ok in Ht. destruct (is_track ci).
      2:{ rewrite forallb_forall in Ht. specialize (Ht _ Hin). discriminate. }
      rewrite !andb_true_iff in Ht. destruct Ht as [[[[[_ K1] K2] K3] _] _].
      destruct (find_setter _ _ _ K1) as [i1 [A1 A2]]. destruct (find_setter _ _ _ K2) as [i2 [B1 B2]]. destruct (find_setter _ _ _ K3) as [i3 [C1 C2]].
      assert (Gt : forall i s g, find_item s (items_of W c) = Some i -> (forall g', paired g' (it_set i) = true -> g' = g) -> it_get i = g).
      { intros i s g Fi Hg. destruct (find_item_In _ _ _ Fi) as [Hi _]. assert (Hok := cf_items _ _ _ F i Hi). unfold item_ok in Hok. rewrite !andb_true_iff in Hok. apply Hg. tauto. }
      assert (G1 : it_get i1 = GDates) by (apply (Gt i1 _ GDates A1); rewrite A2; intros g'; destruct g'; cbn; congruence).
      assert (G2 : it_get i2 = GCoordList) by (apply (Gt i2 _ GCoordList B1); rewrite B2; intros g'; destruct g'; cbn; congruence).
      assert (G3 : it_get i3 = GCoordList) by (apply (Gt i3 _ GCoordList C1); rewrite C2; intros g'; destruct g'; cbn; congruence).
      destruct (try_dates_value _ _ _ _ _ _ _ G1 (Hr i1 (proj1 (find_item_In _ _ _ A1)))) as [ws [D1 L1]].
      destruct (try_coords_value _ _ _ _ _ _ _ G2 (Hr i2 (proj1 (find_item_In _ _ _ B1)))) as [cs [D2 L2]].
      destruct (try_coords_value _ _ _ _ _ _ _ G3 (Hr i3 (proj1 (find_item_In _ _ _ C1)))) as [an [D3 L3]].
      assert (Hno : find_item b (items_of W c) = None) by (unfold ckind_ok in Hko; now destruct (find_item b (items_of W c))).
      rewrite (Kw b), Hno, (Kw "whens"%string), (Kw "coords"%string), (Kw "angles"%string), A1, B1, C1.
      rewrite (build_track_ok _ _ _ ws cs an D1 D2 D3). unfold track_calm. rewrite A1, B1, C1. cbv zeta. rewrite <- L2, <- L3, <- L1, !map_length, (length_nilb _ _ L1).
      assert (N : nilb (map (@length num) cs) = nilb cs) by (now destruct cs). rewrite N. reflexivity.
Qed.

Theorem lenient_calm W e : world_ok W = true -> forall c ns nss,
  is_ok (from_element W false e c ns nss) = calm W (merge_ns nss) e c.
Proof.
  intro HW.
  enough (H : forall c ns nss, merge_ns nss = nss -> is_ok (from_element W false e c ns nss) = calm W nss e c).
  { intros c ns nss. rewrite <- (H c ns) by apply merge_ns_idem. destruct e. cbn [from_element]. unfold read_with. now rewrite merge_ns_idem. }
  induction e as [t a x ks IH] using elem_ind'. intros c ns nss Hm.
  assert (Hks : Forall (kid_same W nss) ks). { rewrite Forall_forall in *. intros k Hk c' ns'. now apply IH. }
  cbn [from_element calm]. unfold read_with. cbv zeta. rewrite Hm. fold (judge W nss ks).
  destruct (class_of W c) as [ci|] eqn:Hc.
  2:{ unfold items_of. rewrite Hc. cbn [get_kwargs bind]. unfold construct. now rewrite Hc. }
  assert (F := world_class _ _ _ HW Hc).
  assert (E1 : is_ok (get_kwargs W false (items_of W c) a x (map (kid_reader W false) ks) nss []) = forallb (item_calm W nss a (judge W nss ks)) (items_of W c)).
  { rewrite get_kwargs_is_ok. apply forallb_ext_in. intros it Hi. apply item_is_calm; [exact (cf_items _ _ _ F it Hi)|exact Hks]. }
  rewrite <- E1. rewrite is_ok_bind. destruct (get_kwargs W false (items_of W c) a x (map (kid_reader W false) ks) nss []) as [kws|] eqn:Hk; [|reflexivity].
  cbn [is_ok andb]. clear E1.
  destruct (ctor_calm _ _ _ _ _ _ _ _ HW Hc Hm Hk) as [Hat Hx].
  unfold construct. rewrite Hc, Hx, is_ok_bind.
  assert (Es : is_ok (map_res (mk_attr W kws) (ci_pre ci)) && is_ok (map_res (mk_attr W kws) (ci_post ci)) =
    forallb (required_calm nss (items_of W c) a) (ctor_attrs ci) && (if is_track ci then track_calm W nss (items_of W c) ks else true)).
  { rewrite !is_ok_map, <- forallb_app. fold (ctor_attrs ci). rewrite (forallb_ext_in _ _ _ Hat), forallb_split. f_equal.
    assert (Ht := cf_track _ _ _ F). unfold track_ok in Ht. destruct (is_track ci).
    - rewrite !andb_true_iff in Ht. destruct Ht as [[[[[K0 _] _] _] _] _]. apply existsb_exists in K0 as [[b k] [Hin K0]]. cbn [fst snd] in K0. apply andb_prop in K0 as [_ K0]. destruct k; try discriminate.
      destruct (track_calm W nss (items_of W c) ks).
      + apply forallb_forall. intros [b' k'] _. now destruct k'.
      + destruct (forallb _ (ctor_attrs ci)) eqn:E; [|reflexivity]. rewrite forallb_forall in E. specialize (E _ Hin). discriminate.
    - apply forallb_forall. intros ak Hak. rewrite forallb_forall in Ht. specialize (Ht _ Hak). now destruct (snd ak). }
  rewrite <- Es. destruct (map_res (mk_attr W kws) (ci_pre ci)); [|reflexivity]. cbn [is_ok andb]. rewrite is_ok_bind. now destruct (map_res (mk_attr W kws) (ci_post ci)).
Qed.
