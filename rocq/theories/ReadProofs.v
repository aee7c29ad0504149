(** * What the reader depends on. *)
From Coq Require Import String List NArith ZArith Bool Lia.
From Verif Require Import Ustr UstrProofs Res PyInt PyFloat PyNumProofs PyFmtProofs PyDate PyDateProofs Elem Value Geom Codec Spec EmitProofs CodecProofs.
Import ListNotations.

(** Local names of the children, XML attributes and text a getter looks at. *)
Definition get_names (W : world) (it : item) : list string :=
  match it_get it with
  | GText | GBool | GInt | GFloat | GEnum | GDate | GDates | GCoordList => [it_node it]
  | GObj | GObjs => map (tag_of W) (it_classes it)
  | _ => []
  end.
Definition get_attrs (it : item) : list string :=
  match it_get it with
  | GAttrText | GAttrInt | GAttrFloat | GAttrEnum => [it_node it]
  | _ => []
  end.
Definition get_texts (it : item) : bool :=
  match it_get it with GNodeText | GCoords => true | _ => false end.

Lemma find_kid_hd tag ks : find_kid tag ks = hd_error (find_kids tag ks).
Proof.
  induction ks as [|k ks IH]; cbn; [reflexivity|]. destruct (ueqb _ _); [reflexivity|exact IH].
Qed.

Lemma class_tag_of W c t : class_tag W c = Ok t -> t = u (tag_of W c).
Proof. unfold class_tag, tag_of. destruct (class_of W c); congruence. Qed.

Lemma read_obj_ext W ks ks' ns nss classes :
  (forall n, In n (map (tag_of W) classes) -> find_kids (ns ++ u n) ks = find_kids (ns ++ u n) ks') ->
  read_obj W ks ns nss classes = read_obj W ks' ns nss classes.
Proof.
  induction classes as [|c cs IH]; intro H; cbn [read_obj]; [reflexivity|].
  destruct (class_tag W c) as [t|] eqn:E; [|reflexivity]. apply class_tag_of in E. subst t. cbn [bind].
  rewrite !find_kid_hd, (H (tag_of W c)) by now left. rewrite IH; [reflexivity|].
  intros n Hn. apply H. now right.
Qed.

Lemma read_objs_ext W ks ks' ns nss classes :
  (forall n, In n (map (tag_of W) classes) -> find_kids (ns ++ u n) ks = find_kids (ns ++ u n) ks') ->
  read_objs W ks ns nss classes = read_objs W ks' ns nss classes.
Proof.
  intro H. unfold read_objs. f_equal. apply map_res_ext_in. intros c Hc.
  destruct (class_tag W c) as [t|] eqn:E; [|reflexivity]. apply class_tag_of in E. subst t. cbn [bind].
  rewrite H; [reflexivity|]. now apply in_map.
Qed.

Lemma get_kwarg_ext W strict it a a' t t' ks ks' ns nss :
  (forall n, In n (get_names W it) -> find_kids (ns ++ u n) ks = find_kids (ns ++ u n) ks') ->
  (forall n, In n (get_attrs it) -> uget (ns ++ u n) a = uget (ns ++ u n) a') ->
  (get_texts it = true -> t = t') ->
  get_kwarg W strict it a t ks ns nss = get_kwarg W strict it a' t' ks' ns nss.
Proof.
  intros Hk Ha Ht. unfold get_kwarg. unfold get_names, get_attrs, get_texts in *.
  destruct (it_get it); rewrite ?find_kid_hd;
    try rewrite (Ht eq_refl); try rewrite (Hk (it_node it)) by (now left);
    try rewrite (Ha (it_node it)) by (now left); try reflexivity.
  - now apply read_obj_ext.
  - now rewrite (read_objs_ext W ks ks' ns nss).
Qed.

Lemma try_nsids_ext f g nss ids :
  (forall id, In id ids -> f (ns_get nss id) = g (ns_get nss id)) -> try_nsids f nss ids = try_nsids g nss ids.
Proof.
  induction ids as [|id ids IH]; intro H; cbn; [reflexivity|].
  rewrite (H id) by now left. destruct (g _) as [[v|]|]; cbn; try reflexivity.
  apply IH. intros; apply H; now right.
Qed.

Lemma get_kwargs_ext W strict items a a' t t' ks ks' nss acc :
  (forall it id, In it items -> In id (it_nsids it) ->
     get_kwarg W strict it a t ks (ns_get nss id) nss = get_kwarg W strict it a' t' ks' (ns_get nss id) nss) ->
  get_kwargs W strict items a t ks nss acc = get_kwargs W strict items a' t' ks' nss acc.
Proof.
  revert acc; induction items as [|it items IH]; intros acc H; cbn [get_kwargs]; [reflexivity|].
  rewrite (try_nsids_ext _ (fun ns => get_kwarg W strict it a' t' ks' ns nss)).
  - destruct (try_nsids _ _ _); cbn [bind]; [|reflexivity]. apply IH. intros; apply H; [now right|assumption].
  - intros id Hid. apply H; [now left|assumption].
Qed.

(** The value obtained when exactly one name space matches. *)
Lemma try_nsids_one f nss ids n0 r :
  (forall id, In id ids -> f (ns_get nss id) = if ueqb (ns_get nss id) n0 then Ok r else Ok None) ->
  r = None \/ umem n0 (map (ns_get nss) ids) = true ->
  try_nsids f nss ids = Ok r.
Proof.
  intros Hf Hr. destruct r as [v|].
  - destruct Hr as [Hr|Hr]; [discriminate|]. apply umem_In in Hr.
    induction ids as [|id ids IH]; [contradiction|]. cbn [try_nsids]. rewrite (Hf id) by now left.
    destruct (ueqb_spec (ns_get nss id) n0) as [E|E]; [reflexivity|]. cbn [bind].
    apply IH; [intros; apply Hf; now right|]. destruct Hr as [Hr|Hr]; [contradiction|exact Hr].
  - clear Hr. induction ids as [|id ids IH]; [reflexivity|]. cbn [try_nsids]. rewrite (Hf id) by now left.
    destruct (ueqb _ _); cbn [bind]; apply IH; intros; apply Hf; now right.
Qed.

Lemma try_nsids_const f nss ids r :
  (forall id, In id ids -> f (ns_get nss id) = Ok r) -> ids <> [] \/ r = None -> try_nsids f nss ids = Ok r.
Proof.
  intros Hf Hr. destruct r as [v|].
  - destruct ids as [|id ids]; [destruct Hr; congruence|]. cbn [try_nsids]. now rewrite (Hf id) by now left.
  - clear Hr. induction ids as [|id ids IH]; [reflexivity|]. cbn [try_nsids]. rewrite (Hf id) by now left.
    cbn [bind]. apply IH. intros; apply Hf; now right.
Qed.

Lemma ns_get_good nss id : forallb (fun kv : string * ustr => good_ns (snd kv)) nss = true -> good_ns (ns_get nss id) = true.
Proof.
  intro H. unfold ns_get. destruct (sget id nss) as [s|] eqn:E; [|reflexivity].
  apply sget_In in E. rewrite forallb_forall in H. exact (H _ E).
Qed.

(** Children with their readers. *)
Definition rk (W : world) (strict : bool) (k : elem) : rkid := (k, from_element W strict k).

Lemma find_kids_rk W strict tag ks :
  find_kids tag (map (rk W strict) ks) = map (rk W strict) (filter (fun k => ueqb (e_tag k) tag) ks).
Proof.
  induction ks as [|k ks IH]; cbn; [reflexivity|]. unfold find_kids in *. cbn.
  destruct (ueqb (e_tag k) tag); cbn; now rewrite IH.
Qed.

Lemma u_eqb a b : ueqb (u a) (u b) = String.eqb a b.
Proof.
  destruct (String.eqb_spec a b) as [->|N]; [apply ueqb_refl|]. apply ueqb_neq. intro H. now apply u_inj in H.
Qed.

(** ** One child with text *)

Definition guard_text (W : world) (strict : bool) (it : item) (t : ustr) : res (option value) :=
  match it_get it with
  | GText => Ok (match stripped (Some t) with Some t => Some (VStr t) | None => None end)
  | GBool => match stripped (Some t) with Some t => guarded strict (get_boolean_value strict t) | None => Ok None end
  | GInt => match stripped (Some t) with Some t => guarded strict (let! z := int_of_str t in Ok (VInt z)) | None => Ok None end
  | GFloat => match stripped (Some t) with Some t => guarded strict (let! z := float_of_str t in Ok (VFloat z)) | None => Ok None end
  | GEnum => with_enum W (it_classes it) (fun c e =>
       match stripped (Some t) with Some t => guarded strict (get_enum_value c e strict t) | None => Ok None end)
  | GDate => match stripped (Some t) with Some t => guarded strict (let! d := kdt_parse (w_arrow W) t in Ok (VDate d)) | None => Ok None end
  | _ => Ok None
  end.

Definition text_getter (g : getter) : bool :=
  match g with GText | GBool | GInt | GFloat | GEnum | GDate => true | _ => false end.

Lemma kid_read W strict it n0 t n nss :
  text_getter (it_get it) = true -> good_ns n0 = true -> good_ns n = true -> good_name (u (it_node it)) = true ->
  (it_get it = GBool -> it_classes it = ["bool"%string]) ->
  (it_get it = GEnum -> exists c e, it_classes it = [c] /\ sget c (w_enums W) = Some e) ->
  get_kwarg W strict it [] None (map (rk W strict) [text_elem (n0 ++ u (it_node it)) (Some t)]) n nss =
  if ueqb n n0 then guard_text W strict it t else Ok None.
Proof.
  intros Hg H0 Hn Hname Hb He. unfold get_kwarg. rewrite find_kid_hd, find_kids_rk. cbn [filter e_tag text_elem].
  rewrite tag_eqb by assumption. rewrite ueqb_refl, andb_true_r, (ueqb_sym n0 n).
  unfold guard_text. destruct (it_get it); try discriminate;
    try rewrite (Hb eq_refl); try (destruct (He eq_refl) as [c [e [-> Hc]]]; unfold with_enum; rewrite Hc);
    destruct (ueqb n n0); cbn [map hd_error fst e_text text_elem rk]; try reflexivity.
Qed.

(** ** One XML attribute *)

Definition guard_attr (W : world) (strict : bool) (it : item) (t : ustr) : res (option value) :=
  if uempty t then match it_get it with GAttrEnum => with_enum W (it_classes it) (fun _ _ => Ok None) | _ => Ok None end
  else match it_get it with
  | GAttrText => Ok (Some (VStr t))
  | GAttrInt => let! z := int_of_str t in Ok (Some (VInt z))
  | GAttrFloat => guarded strict (let! z := float_of_str t in Ok (VFloat z))
  | GAttrEnum => with_enum W (it_classes it) (fun c e => guarded strict (get_enum_value c e strict t))
  | _ => Ok None
  end.

Definition attr_getter (g : getter) : bool :=
  match g with GAttrText | GAttrInt | GAttrFloat | GAttrEnum => true | _ => false end.

Lemma attr_read W strict it t n nss :
  attr_getter (it_get it) = true -> good_ns n = true -> good_name (u (it_node it)) = true ->
  (it_get it = GAttrEnum -> exists c e, it_classes it = [c] /\ sget c (w_enums W) = Some e) ->
  get_kwarg W strict it [(u (it_node it), t)] None [] n nss =
  if ueqb n [] then guard_attr W strict it t else Ok None.
Proof.
  intros Hg Hn Hname He. unfold get_kwarg. cbn [uget].
  assert (E : ueqb (n ++ u (it_node it)) (u (it_node it)) = ueqb n []).
  { change (u (it_node it)) with ([] ++ u (it_node it)) at 2. rewrite tag_eqb by (assumption || reflexivity).
    now rewrite ueqb_refl, andb_true_r. }
  rewrite E. unfold guard_attr. destruct (it_get it); try discriminate;
    try (destruct (He eq_refl) as [c [e [-> Hc]]]; unfold with_enum; rewrite Hc);
    destruct (ueqb n []); try reflexivity; destruct (uempty t); try reflexivity.
Qed.
