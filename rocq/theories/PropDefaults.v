(** * The default values of the schema: C51. *)
From Coq Require Import String List NArith ZArith Bool Lia.
From Verif Require Import Ustr UstrProofs Res PyInt PyFloat PyDate Elem Value Geom Codec Tables Spec FastkmlOk PyNumProofs CodecProofs EmitProofs ItemProofs RoundTrip
  Generations Effective VerbosityProofs EqualProofs ReadProofs Schema SchemaTables SchemaSpec Lexical SchemaDefaults PropVerbosity Samples.
Import ListNotations.
Local Open Scope string_scope.
Local Open Scope list_scope.

(** Full statement (C51): to someone who knows the default values the bundled
    schema declares, a document says the values of the attributes, whatever the
    verbosity; where an attribute is [None], the document says the default of
    the schema.

    It fails for the three attributes of [other_default], where the default of
    the library is not that of the schema: see the refutations. *)

(** ** The tables *)

Definition default_meant (t : ustr) (d : value) : bool :=
  match d with
  | VNone => true
  | VBool true => ueqb t (u "1") || ueqb t (u "true")
  | VBool false => ueqb t (u "0") || ueqb t (u "false")
  | VNum n => match float_of_str t with Ok f => num_eq n (NFloat f) | Err _ => false end
  | VEnum _ m => ueqb t m
  | VStr s => ueqb t s
  | _ => false
  end.

Definition is_other (c a : string) : bool := existsb (fun p => String.eqb (fst p) c && String.eqb (snd p) a) other_default.

Definition defaults_agree (W : world) : bool :=
  forallb (fun cc => forallb (fun it =>
    is_other (fst cc) (it_attr it) ||
    match schema_default W (fst cc) it with Some t => default_meant t (it_default it) | None => true end)
    (items_of W (fst cc))) (w_classes W).

Lemma fastkml_defaults_agree arrow : defaults_agree (fastkml arrow) = true.
Proof. vm_compute. reflexivity. Qed.

Lemma default_meant_means t d x : default_meant t d = true -> is_none d = false -> x = d \/ scalar_eq x d = true ->
  match x with VBool _ => match d with VBool _ => True | _ => False end | VNum _ => match d with VNum _ => True | _ => False end | _ => True end -> means t x.
Proof.
  intros H N E K. destruct d as [ |b|n|s|c m| | | | | | | ]; try discriminate H; try discriminate N; cbn [default_meant] in H.
  - assert (x = VBool b) as ->. { destruct E as [->|E]; [reflexivity|]. destruct x; try discriminate E; try contradiction K. cbn in E. apply eqb_prop in E. now subst. }
    destruct b; apply orb_prop in H; constructor; cbn; destruct H as [H|H]; apply ueqb_eq in H; auto.
  - destruct (float_of_str t) as [f|] eqn:Ef; [|discriminate]. assert (exists n', x = VNum n' /\ (n' = n \/ num_eq n' n = true)) as [n' [-> E']].
    { destruct E as [->|E]; [eauto|]. destruct x as [ |?|n'| | | | | | | | | ]; try discriminate E; try contradiction K. exists n'. split; [reflexivity|]. now right. }
    apply (means_number _ f); [exact Ef|]. destruct E' as [->|E']; [exact H|]. eapply num_eq_trans; eassumption.
  - apply ueqb_eq in H. subst t. destruct E as [->|E]; [constructor|]. destruct x; try discriminate E. cbn in E. apply ueqb_eq in E. subst. constructor.
  - apply ueqb_eq in H. subst t. destruct E as [->|E]; [constructor|]. destruct x; try discriminate E. cbn in E. apply andb_prop in E as [_ E]. apply ueqb_eq in E. subst. constructor.
Qed.

(** The text written for a value means the value. *)
Lemma written_means n t : num_valid n = true -> num_str n = Ok t -> means t (VNum n).
Proof.
  intros V E. destruct n as [z|f]; [apply means_int; now apply int_roundtrip|]. apply means_float. now apply num_str_spec in E.
Qed.

Section Item.
  Variables (W : world) (prec : option nat) (vb : verbosity).
  Hypothesis HW : world_ok W = true.
  Variables (c : string) (ci : class_info) (ns : ustr) (nss : nss_t) (attrs : list (string * value)) (e : elem).
  Hypothesis Ht : typed W (VObj c ns nss attrs) = true.
  Hypothesis Hr : rt_ok W (VObj c ns nss attrs) = true.
  Hypothesis Hc : class_of W c = Some ci.
  Hypothesis He : etree W prec vb (VObj c ns nss attrs) = Ok e.
  Variable it : item.
  Hypothesis Hin : In it (items_of W c).
  Hypothesis Hs : scalar_set (it_set it) = true.
  Let x := obj_attr ci attrs (it_attr it).
  Let y := get_value vb x (it_default it).
  Hypothesis Hb : blank y = false.
  Hypothesis Hd : match y with VDate _ => False | _ => True end.

  Lemma x_typed : item_typed W it x = true /\ item_typed W it y = true /\ item_typed W it (it_default it) = true.
  Proof.
    assert (F := world_class _ _ _ HW Hc).
    assert (Tx : item_typed W it x = true /\ item_readable x = true).
    { unfold typed in Ht. unfold rt_ok in Hr. cbn [vall] in Ht, Hr. apply andb_prop in Ht as [T1 _]. apply andb_prop in Hr as [R1 _].
      unfold typed_node in T1. unfold rt_node in R1. rewrite Hc in T1, R1. apply andb_prop in T1 as [T1 T2]. rewrite !andb_true_iff in R1. destruct R1 as [[[R1 R2] R3] R4].
      split; [eapply obj_attr_ok; eassumption|eapply obj_attr_readable; eassumption]. }
    destruct Tx as [Tx Rx]. assert (I := cf_items _ _ _ F _ Hin). split; [exact Tx|]. split; [now apply (get_value_typed W it vb x I Hs Tx Rx)|].
    unfold item_ok in I. rewrite !andb_true_iff in I. destruct I as [[_ I] _]. unfold default_ok in I. destruct (it_set it); try discriminate Hs; now apply andb_prop in I.
  Qed.

  Lemma has_text_iff : if is_none y then ~ (exists s, has_text it e s) else exists s, means s y /\ forall s', has_text it e s' <-> s' = s.
  Proof.
    assert (F := world_class _ _ _ HW Hc : class_facts W ci (items_of W c)).
    assert (Hroot : ci_root ci = false).
    { assert (R := cf_root _ _ _ F). unfold root_ok in R. destruct (ci_root ci); [|reflexivity]. destruct (items_of W c) as [|i [|]]; try discriminate R.
      destruct Hin as [<-|[]]. apply andb_prop in R as [_ R]. destruct (it_set i); discriminate. }
    assert (Hgn : good_ns ns = true /\ good_ns (date_ns nss) = true /\ forall ec em, good_ns (enum_ns W ns nss ec em) = true).
    { unfold rt_ok in Hr. cbn [vall] in Hr. apply andb_prop in Hr as [R _]. unfold rt_node in R. rewrite Hc in R. rewrite !andb_true_iff in R. destruct R as [[[R1 R2] _] _].
      split; [exact R1|]. unfold nss_ok in R2. apply andb_prop in R2 as [_ R2]. split; [apply ns_get_good; exact R2|].
      intros ec em. unfold enum_ns. destruct (sget ec (w_enums W)); [|exact R1]. destruct (uget em _) as [[]|]; [now apply ns_get_good|exact R1..]. }
    destruct Hgn as [G1 [G2 G3]].
    destruct (etree_items W prec vb HW c ci ns nss attrs e Ht Hr Hc He it Hin) as [m [Hm [Hi [Hk [Ha Hx]]]]].
    destruct x_typed as [_ [Ty _]].
    assert (Kid : item_names W it = [it_node it] -> forall n t, good_ns n = true -> m = em_kid (n ++ u (it_node it)) t ->
      forall s', (exists n k, good_ns n = true /\ In k (e_kids e) /\ e_tag k = n ++ u (it_node it) /\ e_text k = Some s') <-> s' = t).
    { intros Hn n t Gn -> s'. split.
      - intros [n' [k [Gn' [Ik [Tk Xk]]]]]. assert (Hf := Hk n' (it_node it) Gn'). rewrite Hn in Hf. specialize (Hf (or_introl eq_refl)).
        assert (Q : In k (filter (fun k => ueqb (e_tag k) (n' ++ u (it_node it))) (e_kids e))) by (apply filter_In; split; [exact Ik|rewrite Tk; apply ueqb_refl]).
        rewrite Hf in Q. apply filter_In in Q as [Q _]. cbn in Q. destruct Q as [<-|[]]. cbn in Xk. congruence.
      - intros ->. exists n, (text_elem (n ++ u (it_node it)) (Some t)). split; [exact Gn|]. split; [apply Hi; now left|]. now split. }
    assert (NoKid : item_names W it = [it_node it] -> m = em0 -> ~ exists s n k, good_ns n = true /\ In k (e_kids e) /\ e_tag k = n ++ u (it_node it) /\ e_text k = Some s).
    { intros Hn -> [s [n [k [Gn [Ik [Tk Xk]]]]]]. assert (Hf := Hk n (it_node it) Gn). rewrite Hn in Hf. specialize (Hf (or_introl eq_refl)).
      assert (Q : In k (filter (fun k => ueqb (e_tag k) (n ++ u (it_node it))) (e_kids e))) by (apply filter_In; split; [exact Ik|rewrite Tk; apply ueqb_refl]).
      now rewrite Hf in Q. }
    assert (Att : item_attrs it = [it_node it] -> forall t, m = em_attr (u (it_node it)) t ->
      forall s', (exists n, good_ns n = true /\ uget (n ++ u (it_node it)) (e_attrib e) = Some s') <-> s' = t).
    { intros Hn t -> s'. split.
      - intros [n [Gn E]]. rewrite (Ha Hroot Hn n Gn) in E. cbn in E. destruct (ueqb _ _) in E; [congruence|discriminate].
      - intros ->. exists []. split; [reflexivity|]. rewrite (Ha Hroot Hn [] eq_refl). cbn. now rewrite ueqb_refl. }
    assert (NoAtt : item_attrs it = [it_node it] -> m = em0 -> ~ exists s n, good_ns n = true /\ uget (n ++ u (it_node it)) (e_attrib e) = Some s).
    { intros Hn -> [s [n [Gn E]]]. rewrite (Ha Hroot Hn n Gn) in E. discriminate. }
    unfold emit in Hm. fold x y in Hm. clearbody y. unfold item_typed in Ty. unfold has_text. unfold item_names in Kid, NoKid. unfold item_attrs in Att, NoAtt. unfold item_texts in Hx.
    destruct (it_set it); try discriminate Hs; destruct y as [ |b|[z|f]|s|ec em|dk|pc|tu cl|ds|il|vl|oc on onn oa]; try discriminate Ty; try contradiction Hd; cbn [is_none blank] in *;
      try rewrite Hb in Hm; try (apply bind_ok in Hm as [t [Et Hm]]); injection Hm as <-.
    all: try (exact (NoKid eq_refl eq_refl)); try (exact (NoAtt eq_refl eq_refl)).
    all: try (rewrite (Hx eq_refl); cbn; intros [? ?]; discriminate).
    all: try (eexists; split; [|eapply Kid; [reflexivity| |reflexivity]; auto]; fail).
    all: try (eexists; split; [|eapply Att; reflexivity]).
    all: try (eexists; split; [|eapply Kid; [reflexivity| |reflexivity]; auto]).
    all: try (now constructor).
    all: try (eapply written_means; [|exact Et]; first [exact Ty|reflexivity]).
    all: try (rewrite (Hx eq_refl); cbn; exists s; split; [constructor|]; intro s'; split; congruence).
    all: destruct b; constructor; now left.
  Qed.
End Item.

Definition dates_plain (W : world) : bool :=
  forallb (fun cc => forallb (fun it => match it_set it with SDate => match schema_default W (fst cc) it with None => true | _ => false end | _ => true end)
    (items_of W (fst cc))) (w_classes W).

Lemma fastkml_dates_plain arrow : dates_plain (fastkml arrow) = true.
Proof. vm_compute. reflexivity. Qed.

Lemma is_other_In c a : is_other c a = true -> In (c, a) other_default.
Proof.
  unfold is_other. intro H. apply existsb_exists in H as [[c' a'] [H E]]. cbn [fst snd] in E. apply andb_prop in E as [E1 E2].
  apply String.eqb_eq in E1, E2. now subst.
Qed.

(** ** C51 *)

Lemma schema_defaults_said W : world_ok W = true -> defaults_agree W = true -> dates_plain W = true ->
  forallb (fun cc => forallb (fun it => negb (blank (it_default it))) (items_of W (fst cc))) (w_classes W) = true ->
  forall prec vb c ns nss attrs e ci it t,
  let v := VObj c ns nss attrs in let x := obj_attr ci attrs (it_attr it) in
  typed W v = true -> rt_ok W v = true -> class_of W c = Some ci -> In it (items_of W c) ->
  schema_default W c it = Some t -> ~ In (c, it_attr it) other_default -> x <> VStr [] ->
  etree W prec vb v = Ok e ->
  exists s, (forall s', says it t e s' <-> s' = s) /\
  exists y, means s y /\ (if is_none x then means t y else y = x).
Proof.
  intros HW HA HP HB prec vb c ns nss attrs e ci it t v x Ht Hr Hc Hin Hsd Ho Hx He.
  assert (Hs : scalar_set (it_set it) = true) by (unfold schema_default in Hsd; destruct (it_set it); try discriminate Hsd; reflexivity).
  assert (Hcc := sget_In _ _ _ Hc).
  assert (Dm : default_meant t (it_default it) = true).
  { unfold defaults_agree in HA. rewrite forallb_forall in HA. specialize (HA _ Hcc). cbn [fst] in HA. rewrite forallb_forall in HA. specialize (HA _ Hin). rewrite Hsd in HA.
    apply orb_prop in HA as [HA|HA]; [|exact HA]. exfalso. apply Ho. now apply is_other_In. }
  assert (Nd : it_set it <> SDate).
  { unfold dates_plain in HP. rewrite forallb_forall in HP. specialize (HP _ Hcc). cbn [fst] in HP. rewrite forallb_forall in HP. specialize (HP _ Hin). intro E. rewrite E, Hsd in HP. discriminate. }
  assert (Bd : blank (it_default it) = false).
  { rewrite forallb_forall in HB. specialize (HB _ Hcc). cbn [fst] in HB. rewrite forallb_forall in HB. specialize (HB _ Hin). now apply negb_true_iff in HB. }
  assert (Bx : blank x = false) by (destruct x as [ | | |[|]| | | | | | | | ]; try reflexivity; now elim Hx).
  destruct (x_typed W vb HW c ci ns nss attrs Ht Hr Hc it Hin Hs) as [Tx [Ty Td]]. fold x in Tx, Ty.
  set (y := get_value vb x (it_default it)) in *.
  assert (Cy : y = x \/ (is_none x = true /\ y = it_default it) \/ (is_none y = true /\ scalar_eq x (it_default it) = true)).
  { unfold y, get_value. destruct vb; try (now left).
    - destruct (scalar_eq x (it_default it)) eqn:Es; [|now left]. right. right. now split.
    - destruct (is_none x) eqn:En; [|now left]. destruct (is_none (it_default it)); cbn; auto. }
  assert (By : blank y = false) by (destruct Cy as [->|[[_ ->]|[N _]]]; auto; destruct y; try discriminate N; reflexivity).
  assert (Dy : match y with VDate _ => False | _ => True end).
  { unfold item_typed in Ty. destruct y; try exact I. destruct (it_set it); try discriminate Ty. now elim Nd. }
  assert (P := has_text_iff W prec vb HW c ci ns nss attrs e Ht Hr Hc He it Hin Hs By Dy). fold x in P. fold y in P.
  destruct (is_none y) eqn:Ny.
  - exists t. split. { intro s'. unfold says. split; [intros [S|[_ S]]; [|exact S]|intros ->; now right]. elim P. eauto. }
    destruct (is_none x) eqn:Nx; [exists (VStr t); split; constructor|]. exists x. split; [|reflexivity].
    destruct Cy as [E|[[E _]|[_ E]]]; [rewrite E, Nx in Ny; discriminate Ny|discriminate E|].
    apply (default_meant_means t (it_default it) x Dm); [|now right|].
    + clear -E Nx. clearbody x. destruct (it_default it); try reflexivity. destruct x; discriminate.
    + clear -E Tx Td. clearbody x. unfold item_typed in Tx, Td. destruct x; try exact I; destruct (it_default it); try exact I; destruct (it_set it); try discriminate; cbn in E; discriminate.
  - destruct P as [s [M P]]. exists s. split. { intro s'. unfold says. rewrite P. split; [intros [S|[S _]]; [exact S|]|now left]. elim S. exists s. now apply P. }
    destruct (is_none x) eqn:Nx.
    + destruct Cy as [E|[[_ E]|[E _]]]; [rewrite E, Nx in Ny; discriminate Ny| |discriminate E]. exists y. split; [exact M|]. rewrite E in *.
      apply (default_meant_means t (it_default it) _ Dm); [exact Ny|now left|]. clear. destruct (it_default it); exact I.
    + destruct Cy as [E|[[E _]|[E _]]]; [|discriminate E|discriminate E]. exists y. now split.
Qed.

(** To someone who knows the defaults of the schema, the document says exactly
    one thing about the attribute: its value, or, if it is [None], something
    that means the same as the default of the schema. *)
Theorem C51_schema_defaults_partial :
  forall arrow prec vb c ns nss attrs e ci it t,
  let W := fastkml arrow in let v := VObj c ns nss attrs in let x := obj_attr ci attrs (it_attr it) in
  typed W v = true -> rt_ok W v = true -> class_of W c = Some ci -> In it (items_of W c) ->
  schema_default W c it = Some t -> ~ In (c, it_attr it) other_default -> x <> VStr [] ->
  etree W prec vb v = Ok e ->
  exists s, (forall s', says it t e s' <-> s' = s) /\
  exists y, means s y /\ (if is_none x then means t y else y = x).
Proof.
  intros arrow. cbv zeta. exact (schema_defaults_said (fastkml arrow) (fastkml_ok arrow) (fastkml_defaults_agree arrow) (fastkml_dates_plain arrow) (defaults_shown arrow)).
Qed.
Print Assumptions C51_schema_defaults_partial.

(** Nearly all attributes the library has a default for have one in the
    schema: the exception is the [viewFormat] of links and icons. *)
Theorem C51_defaults_declared_partial :
  forall arrow c ci it, let W := fastkml arrow in
  class_of W c = Some ci -> In it (items_of W c) -> scalar_set (it_set it) = true -> it_default it <> VNone -> class_type W c <> None ->
  it_attr it <> "view_format" -> exists t, schema_default W c it = Some t.
Proof.
  intros arrow c ci it W Hc Hin Hs Hd Ht Hv.
  assert (A : forallb (fun cc => match class_type W (fst cc) with None => true | Some _ => forallb (fun it =>
      negb (scalar_set (it_set it)) || is_none (it_default it) || String.eqb (it_attr it) "view_format" ||
      match schema_default W (fst cc) it with Some _ => true | None => false end) (items_of W (fst cc)) end) (w_classes W) = true) by (vm_compute; reflexivity).
  rewrite forallb_forall in A. specialize (A _ (sget_In _ _ _ Hc)). cbn [fst] in A. destruct (class_type W c); [|congruence].
  rewrite forallb_forall in A. specialize (A _ Hin). rewrite Hs in A. cbn [negb orb] in A. destruct (schema_default W c it); [eauto|].
  rewrite orb_false_r in A. apply orb_prop in A as [A|A]; [destruct (it_default it); try discriminate A; now elim Hd|]. apply String.eqb_eq in A. contradiction.
Qed.
Print Assumptions C51_defaults_declared_partial.

(** ** A document that meets the hypotheses *)

(** An overlay with an attribute at its default ([visibility]), one with
    another value ([isopen]) and one that is absent ([draw_order]): what is
    written for them in terse, normal and verbose mode, and the default of the
    schema. *)
Definition item_named (c a : string) : item :=
  match find_item a (items_of W0 c) with Some it => it | None => mkItm [] [] "" GText SText "" VNone end.
Definition kid_texts (n : string) (r : res elem) : list (option ustr) :=
  match r with Ok e => map e_text (filter (fun k => ueqb (e_tag k) (KMLNS ++ u n)) (e_kids e)) | Err _ => [] end.

Example C51_example :
  exists attrs ci, s_overlay = VObj "overlays.GroundOverlay" KMLNS nss0 attrs /\ typed W0 s_overlay = true /\ rt_ok W0 s_overlay = true /\
    class_of W0 "overlays.GroundOverlay" = Some ci /\
    map (obj_attr ci attrs) ["visibility"; "isopen"; "draw_order"] = [VBool true; VBool true; VNone] /\
    map (fun n => map (fun vb => kid_texts n (etree W0 None vb s_overlay)) [Terse; Normal; Verbose]) ["visibility"; "open"; "drawOrder"] =
      [[[]; [Some (u "1")]; [Some (u "1")]];
       [[Some (u "1")]; [Some (u "1")]; [Some (u "1")]];
       [[]; []; [Some (u "0")]]] /\
    map (fun a => schema_default W0 "overlays.GroundOverlay" (item_named "overlays.GroundOverlay" a)) ["visibility"; "isopen"; "draw_order"] =
      [Some (u "1"); Some (u "0"); Some (u "0")].
Proof. do 2 eexists. repeat (split; [vm_compute; reflexivity|]). vm_compute. reflexivity. Qed.

(** ** Where it fails *)

(** A terse document without text for an attribute of a value other than what
    the default of the schema means. *)
Definition misread (c a : string) (v : value) : Prop :=
  exists attrs ci e t, v = VObj c KMLNS nss0 attrs /\ typed W0 v = true /\ rt_ok W0 v = true /\ class_of W0 c = Some ci /\
    In (item_named c a) (items_of W0 c) /\ it_attr (item_named c a) = a /\
    etree W0 None Terse v = Ok e /\ schema_default W0 c (item_named c a) = Some t /\
    says (item_named c a) t e t /\ obj_attr ci attrs a <> VNone /\ ~ means t (obj_attr ci attrs a).

Lemma suffix (a n b : ustr) : a = n ++ b -> skipn (length a - length b) a = b.
Proof. intros ->. rewrite app_length, Nat.add_sub, skipn_app, skipn_all, Nat.sub_diag. reflexivity. Qed.

(** views.py:716-727: a [Lod] from 256 pixels on is written without
    [minLodPixels], whose default is 0 in the schema. *)
Definition s_lod : value := Eval vm_compute in mk "views.Lod" [("min_lod_pixels", VInt 256); ("max_lod_pixels", VInt 1024)].

Theorem C51_lod_refuted : misread "views.Lod" "min_lod_pixels" s_lod.
Proof.
  do 4 eexists. split; [vm_compute; reflexivity|]. do 3 (split; [vm_compute; reflexivity|]). split; [vm_compute; tauto|].
  do 3 (split; [vm_compute; reflexivity|]). split; [|split; [vm_compute; discriminate|]].
  - right. split; [|reflexivity]. intros [s [n [k (G & I & T & _)]]]. vm_compute in I. destruct I as [<-|[]].
    apply suffix in T. vm_compute in T. discriminate T.
  - vm_compute. intro H. inversion H; subst; match goal with H : _ = Ok _ |- _ => vm_compute in H; try discriminate H; injection H as H; subst end; discriminate.
Qed.
Print Assumptions C51_lod_refuted.

(** styles.py:358-381: the default of [x] and [y] of a hot spot is 0.5; in the
    schema it is 1.0. *)
Definition s_hot_spot : value := Eval vm_compute in mk "styles.HotSpot" [("x", fl "0.5"); ("y", fl "0.25")].

Theorem C51_hot_spot_refuted : misread "styles.HotSpot" "x" s_hot_spot.
Proof.
  do 4 eexists. split; [vm_compute; reflexivity|]. do 3 (split; [vm_compute; reflexivity|]). split; [vm_compute; tauto|].
  do 3 (split; [vm_compute; reflexivity|]). split; [|split; [vm_compute; discriminate|]].
  - right. split; [|reflexivity]. intros [s [n [G E]]]. change (uget (n ++ u "x") [(u "y", u "0.25")] = Some s) in E. cbn [uget] in E.
    destruct (ueqb _ _) eqn:Q in E; [|discriminate E]. apply ueqb_eq in Q. first [apply suffix in Q | symmetry in Q; apply suffix in Q]. vm_compute in Q. discriminate Q.
  - vm_compute. intro H. inversion H; subst; match goal with H : _ = Ok _ |- _ => vm_compute in H; try discriminate H; injection H as H; subst end; discriminate.
Qed.
Print Assumptions C51_hot_spot_refuted.

(** links.py:197-208: the default of [viewFormat] is not in the schema; a terse document
    omits it all the same. *)
Definition s_link : value := Eval vm_compute in
  mk "links.Link" [("href", str "a.kml"); ("view_format", str "BBOX=[bboxWest],[bboxSouth],[bboxEast],[bboxNorth]")].

Theorem C51_view_format_refuted :
  exists attrs e, s_link = VObj "links.Link" KMLNS nss0 attrs /\ typed W0 s_link = true /\ rt_ok W0 s_link = true /\
    schema_default W0 "links.Link" (item_named "links.Link" "view_format") = None /\
    sget "view_format" attrs = Some (str "BBOX=[bboxWest],[bboxSouth],[bboxEast],[bboxNorth]") /\
    etree W0 None Terse s_link = Ok e /\ map e_tag (e_kids e) = [KMLNS ++ u "href"].
Proof. do 2 eexists. repeat (split; [vm_compute; reflexivity|]). vm_compute. reflexivity. Qed.
Print Assumptions C51_view_format_refuted.
