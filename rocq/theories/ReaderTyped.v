(** * What the reader returns is well typed and, truth values aside, settled. *)
From Coq Require Import String List NArith ZArith Bool Lia.
From Verif Require Import Ustr UstrProofs Res PyInt PyFloat PyNumProofs PyDate PyDateProofs Elem Value Geom Codec Spec Settled EmitProofs CodecProofs ReadProofs ItemProofs RoundTrip SettledProofs NsProofs.
Import ListNotations.

Definition anyv : value -> bool := fun _ => true.

Lemma enum_lookup_member e t m : enum_lookup e t = Ok m -> exists o, uget m e = Some o.
Proof.
  assert (M : forall e : enum_info, In m (map fst e) -> exists o, uget m e = Some o).
  { clear. intros e. induction e as [|[x o] e IH]; [intros []|]. cbn [map fst In uget]. destruct (ueqb m x) eqn:E; [eauto|].
    intros [->|H]; [rewrite ueqb_refl in E; discriminate|auto]. }
  unfold enum_lookup. destruct (enum_exact e t) as [m'|] eqn:E.
  - intro H. injection H as ->. apply M. clear -E. induction e as [|[x o] e IH]; [discriminate|]. cbn in E |- *.
    destruct (ueqb x t); [injection E as <-; now left|right; auto].
  - destruct (enum_relaxed e t) as [m'|] eqn:E2; [|discriminate]. intro H. injection H as ->. apply M.
    clear -E2. induction e as [|[x o] e IH]; [discriminate|]. cbn in E2 |- *.
    destruct (ueqb (lower x) (lower t)); [injection E2 as <-; now left|right; auto].
Qed.

Lemma floats_of_good l r : floats_of l = Ok r -> nums_valid r = true /\ forallb is_float r = true /\ length r = length l.
Proof.
  unfold floats_of. revert r; induction l as [|s l IH]; intros r H; cbn in H; [injection H as <-; auto|].
  apply bind_ok in H as [x [Hx H]]. apply bind_ok in Hx as [f [Hf Hx]]. injection Hx as <-.
  apply bind_ok in H as [r' [Hr H]]. injection H as <-. destruct (IH _ Hr) as [A [B C]].
  unfold nums_valid in *. cbn [forallb num_valid is_float length]. rewrite A, B, C, (float_of_str_valid _ _ Hf). auto.
Qed.

Lemma split_on_length c s : split_on c s <> [].
Proof. destruct s as [|x s]; cbn; [discriminate|]. destruct (N.eqb x c); [discriminate|]. destruct (split_on c s); discriminate. Qed.

Lemma words_nonempty s w : In w (words s) -> w <> [].
Proof.
  induction s as [|c s IH]; [intros []|]. cbn [words]. destruct (is_space c); [exact IH|].
  destruct s as [|c' s]; [intros [<-|[]]; discriminate|]. destruct (is_space c').
  - intros [<-|H]; [discriminate|auto].
  - destruct (words (c' :: s)) as [|w' ws]; [intros [<-|[]]; discriminate|]. intros [<-|H]; [discriminate|]. apply IH. now right.
Qed.

Lemma parse_coordinates_good t v : parse_coordinates t = Ok v ->
  exists l, v = VCoords false l /\ forallb nums_valid l = true /\ forallb point_settled l = true.
Proof.
  unfold parse_coordinates. intro H. apply bind_ok in H as [l [H E]]. injection E as <-. exists l. split; [reflexivity|].
  revert l H. induction (words (sub_comma false (strip t))) as [|w ws IH]; intros l H; cbn in H; [injection H as <-; auto|].
  apply bind_ok in H as [c [Hc H]]. apply bind_ok in H as [r [Hr H]]. injection H as <-. destruct (IH _ Hr) as [A B].
  destruct (floats_of_good _ _ Hc) as [F1 [F2 F3]]. cbn [forallb]. rewrite A, B, F1. unfold point_settled. rewrite F2.
  destruct c; [|auto]. destruct (split_on 44 w) eqn:E; [now apply split_on_length in E|discriminate].
Qed.

(** The values of a date list or a coordinate list. *)
Lemma map_res_in {A B} (f : A -> res B) l r y : map_res f l = Ok r -> In y r -> exists x, In x l /\ f x = Ok y.
Proof.
  intros H Hy. apply map_res_ok in H. induction H as [|a b l r H1 H2 IH]; [destruct Hy|].
  destruct Hy as [->|Hy]; [exists a; split; [now left|exact H1]|]. destruct (IH Hy) as [x [Hx E]]. exists x. split; [now right|exact E].
Qed.

Lemma map_res_all {A B} (f : A -> res B) (P : B -> Prop) l r : map_res f l = Ok r ->
  (forall x y, In x l -> f x = Ok y -> P y) -> forall y, In y r -> P y.
Proof. intros H HP y Hy. destruct (map_res_in _ _ _ _ H Hy) as [x [Hx E]]. eauto. Qed.

Lemma stripped_settled t s : stripped t = Some s -> strip s = s /\ uempty s = false.
Proof.
  unfold stripped. destruct t as [t|]; [|discriminate]. destruct (uempty (strip t)) eqn:E; [discriminate|].
  intro H. injection H as <-. split; [apply strip_idem|exact E].
Qed.

Lemma guarded_some strict r v : guarded strict r = Ok (Some v) -> r = Ok v.
Proof. destruct r as [x|e]; cbn; [congruence|]. destruct e; try discriminate. destruct strict; discriminate. Qed.

Section Reader.
  Variables (W : world) (strict : bool).
  Hypothesis HW : world_ok W = true.
  (** A property of the objects made from child elements. *)
  Variable Q : value -> Prop.

  Definition kid_ok (k : rkid) : Prop := forall c ns nss v, snd k c ns nss = Ok v ->
    Q v /\ exists attrs, v = VObj c ns (merge_ns nss) attrs.

  Definition from_ns (ns : ustr) (nss : nss_t) (v : value) : Prop :=
    match v with VObj _ ns' nss' _ => ns' = ns /\ nss' = merge_ns nss | _ => True end.

  Definition value_ok (ns : ustr) (nss : nss_t) (it : item) (v : value) : Prop :=
    item_typed W it v = true /\
    (settled_item anyv it None v = true \/ (it_set it = SCoords /\ v = VCoords false []) \/
     (it_set it = SCoordList /\ exists l, v = VCoords false l /\ forallb (forallb is_float) l = true)) /\
    match v with
    | VList l => forall y, In y l -> Q y /\ from_ns ns nss y
    | VObj _ _ _ _ => Q v /\ from_ns ns nss v
    | _ => True
    end.

  Lemma read_obj_ok ks ns nss cs v : Forall kid_ok ks -> read_obj W ks ns nss cs = Ok (Some v) ->
    Q v /\ exists c attrs, In c cs /\ v = VObj c ns (merge_ns nss) attrs.
  Proof.
    intro Hk. induction cs as [|c cs IH]; [discriminate|]. cbn [read_obj]. intro H. apply bind_ok in H as [tag [Ht H]].
    destruct (find_kid (ns ++ tag) ks) as [k|] eqn:Ef.
    - apply bind_ok in H as [x [Hx H]]. injection H as <-. rewrite Forall_forall in Hk.
      assert (Hin : In k ks).
      { clear -Ef. induction ks as [|k' ks IHk]; [discriminate|]. cbn in Ef. destruct (ueqb _ _); [injection Ef as <-; now left|right; auto]. }
      destruct (Hk _ Hin _ _ _ _ Hx) as [Q1 [attrs Q2]]. split; [exact Q1|]. exists c, attrs. split; [now left|exact Q2].
    - destruct (IH H) as [Q1 [c' [attrs [Q2 Q3]]]]. split; [exact Q1|]. exists c', attrs. split; [now right|exact Q3].
  Qed.

  Lemma grouped_classes (cs : list string) (ls : list (list value)) : NoDup cs ->
    Forall2 (fun c l => forall y, In y l -> is_class c y = true) cs ls -> grouped cs (concat ls) = true.
  Proof.
    intros Hd H. induction H as [|c l cs ls Hl HF IH]; [reflexivity|]. cbn [concat grouped]. inversion Hd as [|? ? Hni Hd']; subst.
    assert (E : drop_class c (l ++ concat ls) = concat ls).
    { assert (E0 : drop_class c (concat ls) = concat ls).
      { assert (Hno : forall y, In y (concat ls) -> is_class c y = false).
        { intros y Hy. destruct (is_class c y) eqn:Ec; [|reflexivity]. exfalso. apply Hni. clear -HF Hy Ec.
          induction HF as [|d l cs ls Hl HF IH]; [destruct Hy|]. cbn in Hy. apply in_app_or in Hy as [Hy|Hy]; [left|right; auto].
          apply Hl in Hy. eapply is_class_inj; eassumption. }
        destruct (concat ls) as [|y r]; [reflexivity|]. cbn. now rewrite (Hno y) by now left. }
      clear IH HF. induction l as [|y l IHl]; [exact E0|]. cbn. rewrite (Hl y) by now left. apply IHl. intros; apply Hl; now right. }
    rewrite E. auto.
  Qed.

  Lemma read_objs_ok ks ns nss cs l : Forall kid_ok ks -> NoDup cs -> read_objs W ks ns nss cs = Ok l ->
    (forall y, In y l -> Q y /\ exists c attrs, In c cs /\ y = VObj c ns (merge_ns nss) attrs) /\ grouped cs l = true.
  Proof.
    intros Hk Hd H. unfold read_objs in H. apply bind_ok in H as [ls [H E]]. injection E as <-. apply map_res_ok in H.
    assert (HF : Forall2 (fun c l => forall y, In y l -> Q y /\ exists attrs, y = VObj c ns (merge_ns nss) attrs) cs ls).
    { eapply Forall2_weaken; [|exact H]. cbn. intros c l Hl y Hy. apply bind_ok in Hl as [tag [_ Hl]].
      destruct (map_res_in _ _ _ _ Hl Hy) as [k [Hin Hr]]. unfold find_kids in Hin. apply filter_In in Hin as [Hin _].
      rewrite Forall_forall in Hk. eauto. exact (Hk _ Hin _ _ _ _ Hr). }
    clear H. split.
    - clear Hd. induction HF as [|c l cs ls Hl HF IH]; [intros y []|]. cbn [concat]. intros y Hy. apply in_app_or in Hy as [Hy|Hy].
      + destruct (Hl y Hy) as [Q1 [attrs Q2]]. split; [exact Q1|]. exists c, attrs. split; [now left|exact Q2].
      + destruct (IH y Hy) as [Q1 [d [attrs [Q2 Q3]]]]. split; [exact Q1|]. exists d, attrs. split; [now right|exact Q3].
    - apply grouped_classes; [exact Hd|]. eapply Forall2_weaken; [|exact HF]. cbn. intros c l Hl y Hy.
      destruct (Hl y Hy) as [_ [attrs ->]]. cbn. apply String.eqb_refl.
  Qed.

  Lemma get_kwarg_ok it at_ tx ks ns nss v : item_ok W it = true -> NoDup (item_names W it) -> Forall kid_ok ks ->
    get_kwarg W strict it at_ tx ks ns nss = Ok (Some v) -> value_ok ns nss it v.
  Proof.
    intros Hok Hnd Hk H. unfold item_ok in Hok. rewrite !andb_true_iff in Hok. destruct Hok as [[[Hp Hg] Hd] Hcl].
    unfold get_kwarg in H. set (key := ns ++ u (it_node it)) in *.
    assert (Htx : forall f v, match match find_kid key ks with Some k => stripped (e_text (fst k)) | None => None end with
                             | Some t => guarded strict (f t) | None => Ok None end = Ok (Some v) -> exists t, f t = Ok v).
    { intros f w Hw. destruct (match find_kid key ks with Some k => _ | None => _ end) as [t|]; [|discriminate]. apply guarded_some in Hw. eauto. }
    unfold value_ok, item_typed, settled_item, classes_ok in *.
    destruct (it_get it); destruct (it_set it) eqn:Es; try discriminate Hp.
    - destruct (stripped tx) as [t|] eqn:E; [|discriminate]. injection H as <-. apply stripped_settled in E as [E1 E2].
      rewrite E2, E1, ueqb_refl. auto.
    - destruct (match find_kid key ks with Some k => _ | None => _ end) as [t|] eqn:E; [|discriminate]. injection H as <-.
      destruct (find_kid key ks); [|discriminate]. apply stripped_settled in E as [E1 E2]. rewrite E2, E1, ueqb_refl. auto.
    - destruct (uget key at_) as [t|]; [|discriminate]. destruct (uempty t) eqn:E; [discriminate|]. injection H as <-. rewrite E. auto.
    - rewrite (bool_classes _ Hcl) in H.
      apply Htx in H as [t H]. unfold get_boolean_value in H.
      destruct (_ || _); [injection H as <-; auto|]. destruct (_ || _); [injection H as <-; auto|]. destruct strict; [discriminate|].
      apply bind_ok in H as [f [_ H]]. injection H as <-. auto.
    - apply Htx in H as [t H]. apply bind_ok in H as [z [_ H]]. injection H as <-. auto.
    - destruct (match uget key at_ with Some t => _ | None => _ end) as [t|]; [|discriminate]. apply bind_ok in H as [z [_ H]]. injection H as <-. auto.
    - apply Htx in H as [t H]. apply bind_ok in H as [z [Hz H]]. injection H as <-. cbn. apply float_of_str_valid in Hz. auto.
    - destruct (match uget key at_ with Some t => _ | None => _ end) as [t|]; [|discriminate]. apply guarded_some in H.
      apply bind_ok in H as [z [Hz H]]. injection H as <-. cbn. apply float_of_str_valid in Hz. auto.
    - unfold with_enum in H. destruct (it_classes it) as [|c [|]] eqn:Ec; try discriminate Hcl. destruct (sget c (w_enums W)) as [e|] eqn:Ee; [|discriminate].
      apply Htx in H as [t H]. unfold get_enum_value in H. apply bind_ok in H as [m [Hm H]]. destruct (_ && _); [discriminate|]. injection H as <-.
      unfold enum_member. rewrite String.eqb_refl, Ee. destruct (enum_lookup_member _ _ _ Hm) as [o ->]. auto.
    - unfold with_enum in H. destruct (it_classes it) as [|c [|]] eqn:Ec; try discriminate Hcl. destruct (sget c (w_enums W)) as [e|] eqn:Ee; [|discriminate].
      destruct (match uget key at_ with Some t => _ | None => _ end) as [t|]; [|discriminate]. apply guarded_some in H.
      unfold get_enum_value in H. apply bind_ok in H as [m [Hm H]]. destruct (_ && _); [discriminate|]. injection H as <-.
      unfold enum_member. rewrite String.eqb_refl, Ee. destruct (enum_lookup_member _ _ _ Hm) as [o ->]. auto.
    - apply Htx in H as [t H]. apply bind_ok in H as [d [Hd' H]]. injection H as <-. apply kdt_parse_normal in Hd' as [Hd' _]. auto.
    - apply bind_ok in H as [l [Hl H]]. destruct (nilb (concat l)) eqn:En; [discriminate|]. injection H as <-. rewrite En. split; [|auto].
      apply forallb_forall. intros o Ho. apply in_concat in Ho as [x [Hx Ho]]. destruct (map_res_in _ _ _ _ Hl Hx) as [k [_ Hr]].
      unfold read_date in Hr. destruct (e_text (fst k)); [|discriminate]. destruct (kdt_parse _ _) as [d|e] eqn:Ed.
      + injection Hr as <-. destruct Ho as [<-|[]]. now apply kdt_parse_normal in Ed.
      + destruct e; try discriminate Hr. destruct strict; [discriminate|]. injection Hr as <-. destruct Ho.
    - apply bind_ok in H as [l [Hl H]]. destruct (nilb (concat l)) eqn:En; [discriminate|]. injection H as <-. rewrite En.
      assert (G : forall c, In c (concat l) -> nums_valid c = true /\ forallb is_float c = true).
      { intros c Hc. apply in_concat in Hc as [x [Hx Hc]]. destruct (map_res_in _ _ _ _ Hl Hx) as [k [_ Hr]].
        unfold read_coord in Hr. destruct (e_text (fst k)) as [t|]; [|injection Hr as <-; destruct Hc]. destruct (uempty t); [injection Hr as <-; destruct Hc|].
        destruct (floats_of (words t)) as [d|e] eqn:Ed.
        - injection Hr as <-. destruct Hc as [<-|[]]. destruct (floats_of_good _ _ Ed) as [A [B _]]. auto.
        - destruct e; try discriminate Hr. destruct strict; [discriminate|]. injection Hr as <-. destruct Hc. }
      split; [apply forallb_forall; intros; now apply G|]. split; [|exact I]. right. right. split; [reflexivity|]. eexists. split; [reflexivity|]. apply forallb_forall. intros; now apply G.
    - destruct tx as [t|]; [|discriminate]. apply guarded_some in H. apply parse_coordinates_good in H as [l [-> [A B]]].
      split; [exact A|]. split; [|exact I]. destruct l; [right; left; auto|left; exact B].
    - destruct (read_obj_ok _ _ _ _ _ Hk H) as [Q1 [c [attrs [Q2 ->]]]]. split; [now apply mem_In|]. split; [left; reflexivity|]. split; [exact Q1|split; reflexivity].
    - apply bind_ok in H as [l [Hl H]]. injection H as <-.
      assert (Hn : NoDup (it_classes it)) by (unfold item_names in Hnd; rewrite Es in Hnd; now apply NoDup_map_inv in Hnd).
      destruct (read_objs_ok _ _ _ _ _ Hk Hn Hl) as [A B]. split; [|split].
      + apply forallb_forall. intros y Hy. destruct (A y Hy) as [_ [c [attrs [Hc ->]]]]. now apply mem_In.
      + left. rewrite B, andb_true_r. apply forallb_forall. reflexivity.
      + intros y Hy. destruct (A y Hy) as [Q1 [c [attrs [_ ->]]]]. split; [exact Q1|split; reflexivity].
  Qed.

  Lemma try_nsids_some f nss ids v : try_nsids f nss ids = Ok (Some v) -> exists id, In id ids /\ f (ns_get nss id) = Ok (Some v).
  Proof.
    induction ids as [|id ids IH]; [discriminate|]. cbn [try_nsids]. intro H. apply bind_ok in H as [o [Ho H]].
    destruct o as [w|]; [injection H as <-; exists id; split; [now left|exact Ho]|].
    destruct (IH H) as [id' [H1 H2]]. exists id'. split; [now right|exact H2].
  Qed.

  Lemma get_kwargs_inv its at_ tx ks nss acc kws : NoDup (map fst acc ++ map it_attr its) ->
    get_kwargs W strict its at_ tx ks nss acc = Ok kws ->
    exists r, kws = acc ++ kw_of r its /\
      forall it, In it its -> try_nsids (fun n => get_kwarg W strict it at_ tx ks n nss) nss (it_nsids it) = Ok (r it).
  Proof.
    intros Hd H.
    set (r := fun it => match try_nsids (fun n => get_kwarg W strict it at_ tx ks n nss) nss (it_nsids it) with Ok o => o | Err _ => None end).
    assert (G : forall it, In it its -> try_nsids (fun n => get_kwarg W strict it at_ tx ks n nss) nss (it_nsids it) = Ok (r it)).
    { clear Hd. revert acc H. unfold r. clear r. induction its as [|i l IH]; intros acc H it Hin; [destruct Hin|]. cbn [get_kwargs] in H.
      apply bind_ok in H as [o [Ho H]]. destruct Hin as [->|Hin]; [now rewrite Ho|]. eapply IH; eassumption. }
    exists r. split; [|exact G]. rewrite (get_kwargs_spec W strict its at_ tx ks nss r acc G Hd) in H. congruence.
  Qed.

  Section Class.
    Variables (c : string) (ci : class_info) (nss : nss_t) (r : item -> option value).
    Hypothesis Hc : class_of W c = Some ci.
    Notation its := (items_of W c).
    Notation kws := (kw_of r its).
    Hypothesis Hr' : forall it v, In it its -> r it = Some v -> exists id,
      In id (it_nsids it) /\ (is_objs it = true -> id = hd EmptyString (it_nsids it)) /\ value_ok (ns_get nss id) nss it v.
    Hypothesis Hobjs : forall it, In it its -> is_objs it = true -> exists v, r it = Some v.
    Let F : class_facts W ci its := world_class _ _ _ HW Hc.

    Lemma kw_get a : kwget kws a = match find_item a its with Some it => match r it with Some v => v | None => VNone end | None => VNone end.
    Proof.
      unfold kwget. rewrite kw_of_get by apply (cf_attrs _ _ _ F). destruct (find_item a its) as [it|]; [|reflexivity]. now destruct (r it).
    Qed.

    Definition child_ok (x : value) : Prop :=
      match x with VList l => forall y, In y l -> Q y | VObj _ _ _ _ => Q x | _ => True end.

    (** Objects below [x] were found in a name space where the item looks for them. *)
    Definition kids_ns (it : item) (x : value) : bool :=
      match it_set it with SObj | SObjs => item_ns_ok W [] nss it x | _ => true end.

    Hypothesis Hnss : merge_ns nss = nss.

    Lemma Hr it v : In it its -> r it = Some v ->
      item_typed W it v = true /\
      (settled_item anyv it None v = true \/ (it_set it = SCoords /\ v = VCoords false []) \/
       (it_set it = SCoordList /\ exists l, v = VCoords false l /\ forallb (forallb is_float) l = true)) /\
      child_ok v.
    Proof.
      intros Hin Hv. destruct (Hr' it v Hin Hv) as [id [_ [_ [T [S C]]]]]. split; [exact T|]. split; [exact S|].
      unfold child_ok. destruct v; auto; [intros y Hy; now apply C|now apply C].
    Qed.

    Lemma Hr_ns it v : In it its -> r it = Some v -> kids_ns it v = true.
    Proof.
      intros Hin Hv. destruct (Hr' it v Hin Hv) as [id [Hid [Ho [T [S C]]]]]. unfold kids_ns, item_ns_ok, item_typed, is_objs in *.
      destruct (it_set it); try reflexivity; destruct v as [ |b|n|s|ec em|dk|pc|tu cl|ds|il|vl|oc on onn oa]; try reflexivity.
      - destruct C as [_ [-> ->]]. rewrite Hnss. fold (same_nss nss nss). rewrite same_nss_refl, andb_true_r. apply umem_map, mem_In, Hid.
      - specialize (Ho eq_refl). subst id. destruct (it_nsids it) as [|id ids]; [destruct Hid|]. cbn [map hd] in *. apply forallb_forall. intros y Hy.
        destruct (C y Hy) as [_ Cy]. destruct y; try reflexivity. destruct Cy as [-> ->]. rewrite Hnss. fold (same_nss nss nss). now rewrite same_nss_refl, ueqb_refl.
    Qed.

    Definition attr_good (ax : string * value) : Prop :=
      attr_typed W ci its ax = true /\ settled_attr anyv ci its ax = true /\ child_ok (snd ax).

    Definition attr_ns_good (ax : string * value) : Prop :=
      forall it, find_item (fst ax) its = Some it -> kids_ns it (snd ax) = true.

    Lemma filter_true_in l r' x : filter_true W l = Ok r' -> In x r' -> In x l.
    Proof.
      revert r'; induction l as [|y l IH]; intros r' H Hx; cbn in H; [injection H as <-; destruct Hx|].
      apply bind_ok in H as [b [_ H]]. apply bind_ok in H as [r1 [H1 H]]. injection H as <-.
      destruct b; [destruct Hx as [->|Hx]; [now left|]|]; right; eauto.
    Qed.

    Lemma filter_true_filter l r' : filter_true W l = Ok r' -> r' = filter (truth W) l.
    Proof.
      revert r'; induction l as [|y l IH]; intros r' H; cbn in H; [now injection H as <-|].
      apply bind_ok in H as [b [Hb H]]. apply bind_ok in H as [r1 [H1 H]]. injection H as <-. cbn. unfold truth at 1. rewrite Hb.
      rewrite (IH _ H1). now destruct b.
    Qed.

    Lemma grouped_filter_true P cs l : NoDup cs -> grouped cs l = true -> grouped cs (filter P l) = true.
    Proof.
      intros Hd Hg.
      assert (E : filter P l = concat (map (fun d => filter P (filter (is_class d) l)) cs)).
      { rewrite <- (grouped_filter cs l Hd Hg) at 1. clear. induction cs as [|d cs IH]; [reflexivity|]. cbn [map concat]. rewrite filter_app, IH. reflexivity. }
      rewrite E. apply grouped_classes; [exact Hd|]. clear. induction cs as [|d cs IH]; constructor; [|exact IH].
      intros y Hy. apply filter_In in Hy as [Hy _]. now apply filter_In in Hy.
    Qed.

    Lemma zip_good ws cs an n l :
      (forall o, In o ws -> match o with Some k => kdt_normal k = true | None => True end) ->
      (forall x, In x cs -> nums_valid x = true /\ forallb is_float x = true) ->
      (forall x, In x an -> nums_valid x = true /\ forallb is_float x = true) ->
      zip_items ws cs an n = Ok l -> forallb titem_typed l = true /\ forallb titem_settled l = true.
    Proof.
      revert ws cs an l; induction n as [|n IH]; intros ws cs an l H1 H2 H3 H; cbn [zip_items] in H; [injection H as <-; auto|].
      apply bind_ok in H as [i [Hi H]]. apply bind_ok in H as [l' [Hl H]]. injection H as <-.
      destruct (IH (tl ws) (tl cs) (tl an) l') as [A B]; auto.
      { intros o Ho. apply H1. destruct ws; [destruct Ho|now right]. }
      { intros o Ho. apply H2. destruct cs; [destruct Ho|now right]. }
      { intros o Ho. apply H3. destruct an; [destruct Ho|now right]. }
      cbn [forallb]. rewrite A, B, !andb_true_r. unfold mk_titem in Hi. apply bind_ok in Hi as [p [Hp Hi]]. apply bind_ok in Hi as [g [Hg Hi]]. injection Hi as <-.
      assert (Hw : match hd None ws with Some k => kdt_normal k | None => true end = true).
      { destruct ws as [|o ws]; [reflexivity|]. specialize (H1 o (or_introl eq_refl)). cbn. now destruct o. }
      assert (Hcs : nums_valid (hd [] cs) = true /\ forallb is_float (hd [] cs) = true) by (destruct cs; [auto|apply H2; now left]).
      assert (Han : nums_valid (hd [] an) = true /\ forallb is_float (hd [] an) = true) by (destruct an; [auto|apply H3; now left]).
      assert (Hp' : nums_valid p = true /\ forallb is_float p = true).
      { unfold mk_point in Hp. destruct (length (hd [] cs)) as [|[|[|[|]]]]; try discriminate Hp; injection Hp as <-;
          unfold nums_valid in *; destruct Hcs as [C1 C2]; rewrite forallb_forall in C1, C2;
          split; apply forallb_forall; intros x Hx; apply filter_In in Hx as [Hx _]; auto. }
      unfold titem_typed, titem_settled. cbn [ti_when ti_coord ti_angle]. destruct Hp' as [P1 P2]. rewrite Hw, P1, P2. cbn [andb].
      destruct Han as [A1 A2]. unfold mk_angle in Hg. unfold nums_valid in *.
      destruct (hd [] an) as [|x [|y [|z [|]]]]; try discriminate Hg; injection Hg as <-; cbn in A1, A2 |- *;
        rewrite ?andb_true_r in *; rewrite ?A1, ?A2; auto.
    Qed.

    Lemma nodup_classes it : In it its -> is_objs it = true -> NoDup (it_classes it).
    Proof.
      intros Hin Ho. assert (H := item_names_nodup W it its Hin (cf_names _ _ _ F)).
      unfold item_names, is_objs in *. destruct (it_set it); try discriminate Ho. now apply NoDup_map_inv in H.
    Qed.

    Lemma track_points a it l : find_item a its = Some it -> it_set it = SCoordList -> points_of (kwget kws a) = Ok l ->
      forall x, In x l -> nums_valid x = true /\ forallb is_float x = true.
    Proof.
      intros Hf Es Hl x Hx. rewrite kw_get, Hf in Hl. destruct (r it) as [v|] eqn:Er; [|injection Hl as <-; destruct Hx].
      destruct (find_item_In _ _ _ Hf) as [Hin _]. destruct (Hr it v Hin Er) as [T [S _]].
      unfold item_typed in T. unfold settled_item in S. rewrite Es in T, S. destruct v; try discriminate Hl; [injection Hl as <-; destruct Hx|].
      injection Hl as <-. rewrite forallb_forall in T. split; [now apply T|].
      destruct S as [S|[[S _]|[_ [l' [E S]]]]]; [|discriminate S|injection E as -> ->; rewrite forallb_forall in S; now apply S].
      destruct tup; [discriminate|]. apply andb_prop in S as [_ S]. rewrite forallb_forall in S. specialize (S _ Hx).
      unfold point_settled in S. now apply andb_prop in S.
    Qed.

    Lemma mk_attr_good ak ax : In ak (ctor_attrs ci) -> mk_attr W kws ak = Ok ax -> attr_good ax.
    Proof.
      destruct ak as [a k]. intros Hin H. unfold mk_attr in H. apply bind_ok in H as [x [Hx H]]. injection H as <-.
      destruct (cf_kind _ _ _ F _ Hin) as [Hk _]. cbn [fst snd] in Hk.
      assert (Hck : ckind_of ci a = Some k) by (apply sget_NoDup; [apply (cf_ctor _ _ _ F)|exact Hin]).
      unfold attr_good, attr_typed, settled_attr, child_ok. cbn [snd]. rewrite Hck. rewrite kw_get in Hx.
      destruct (find_item a its) as [it|] eqn:Hf.
      - destruct (find_item_In _ _ _ Hf) as [Hit Ha]. unfold ckind_ok in Hk.
        assert (Hn := nodup_classes it Hit).
        destruct (r it) as [v|] eqn:Er.
        + destruct (Hr it v Hit Er) as [T [S C]]. unfold item_typed in *. unfold settled_item in *. unfold is_objs in Hn. clear Hobjs.
          destruct k; try discriminate Hk; destruct (it_set it) eqn:Es; try discriminate Hk;
            destruct v as [ |b|n|s|ec em|dk|pc|tu cl|ds|il|vl|oc on onn oa]; try discriminate T;
            destruct S as [S|[[S1 S2]|[S1 [l' [S2 S3]]]]]; try discriminate S; try discriminate S1; try discriminate S2;
            cbn [clean_string py_bool sem fst bind] in Hx; unfold py_bool in Hx; cbn [sem fst bind] in Hx;
            try (injection Hx as <-; rewrite ?S, ?T; cbn [andb]; auto; fail).
          all: try (destruct (uempty s) eqn:Eu; [discriminate S|]; cbn [negb] in Hx; cbn [clean_string] in Hx; rewrite ?Eu in Hx;
                    try (injection Hx as <-; rewrite ?Eu; auto; fail);
                    destruct (uempty (strip s)) eqn:Eu2; injection Hx as <-; cbn; rewrite ?Eu2, ?strip_idem, ?ueqb_refl; auto; fail).
          all: try (apply bind_ok in Hx as [l1 [Hl1 Hx]]; injection Hx as <-; apply andb_prop in S as [S1 S2];
                    rewrite (filter_true_filter _ _ Hl1) in *; split; [|split];
                    [rewrite andb_true_r; rewrite forallb_forall in T |- *; intros y Hy; apply filter_In in Hy as [Hy _]; auto
                    |apply andb_true_intro; split; [apply forallb_forall; reflexivity|apply grouped_filter_true; auto]
                    |intros y Hy; apply filter_In in Hy as [Hy _]; auto]; fail).
          all: try (destruct tu; [discriminate S|]; destruct cl; [discriminate S|]; cbn [nilb negb] in Hx, S |- *; injection Hx as <-; cbn [nilb]; rewrite ?T, ?S; auto; fail).
          all: try (injection S2 as -> ->; cbn [nilb negb] in Hx; injection Hx as <-; auto; fail).
          all: try (destruct cl; cbn [nilb negb] in Hx; injection Hx as <-; cbn; auto; fail).
        + unfold item_typed, settled_item in *. unfold is_objs in *. destruct k; try discriminate Hk; unfold py_bool in Hx; cbn [clean_string sem fst bind] in Hx;
            try discriminate Hx; injection Hx as <-; destruct (it_set it) eqn:Es; try discriminate Hk; auto;
            try (assert (O := Hobjs it Hit); rewrite Es, Er in O; destruct (O eq_refl) as [? O']; discriminate O').
      - destruct k; try discriminate Hk; unfold py_bool in Hx; cbn [clean_string sem fst bind] in Hx;
          try (injection Hx as <-; auto; fail).
        unfold build_track in Hx. cbn [titems_of bind] in Hx.
        apply bind_ok in Hx as [ws [Hws Hx]]. apply bind_ok in Hx as [cs [Hcs Hx]]. apply bind_ok in Hx as [an [Han Hx]].
        cbn [nilb negb andb] in Hx. rewrite andb_false_r in Hx.
        destruct (negb (nilb ws) && negb (nilb cs)) eqn:Eb; cbn [andb] in Hx; [|injection Hx as <-; auto].
        apply bind_ok in Hx as [l [Hl Hx]]. injection Hx as <-.
        assert (Ht := cf_track _ _ _ F). unfold track_ok in Ht. destruct (is_track ci) eqn:Ei.
        2:{ rewrite forallb_forall in Ht. now specialize (Ht _ Hin). }
        rewrite !andb_true_iff in Ht. destruct Ht as [[[[[_ K1] K2] K3] _] _].
        destruct (find_setter _ _ _ K1) as [i1 [A1 A2]]. destruct (find_setter _ _ _ K2) as [i2 [B1 B2]]. destruct (find_setter _ _ _ K3) as [i3 [C1 C2]].
        assert (Hz : forallb titem_typed l = true /\ forallb titem_settled l = true).
        { refine (zip_good _ _ _ _ _ _ _ _ Hl).
          - intros o Ho. rewrite kw_get, A1 in Hws. destruct (r i1) as [v|] eqn:Er; [|injection Hws as <-; destruct Ho].
            destruct (find_item_In _ _ _ A1) as [Hi1 _]. destruct (Hr i1 v Hi1 Er) as [T _]. unfold item_typed in T. rewrite A2 in T.
            destruct v; try discriminate T; try discriminate Hws; injection Hws as <-; try (destruct Ho; fail).
            rewrite forallb_forall in T. specialize (T _ Ho). now destruct o.
          - exact (track_points _ _ _ B1 B2 Hcs).
          - exact (track_points _ _ _ C1 C2 Han). }
        destruct Hz as [Z1 Z2]. rewrite Z1, Z2. auto.
    Qed.

    Lemma extra_good a x : In (a, x) (extras_of ci kws) -> attr_good (a, x).
    Proof.
      rewrite kw_of_extras. intro H. apply in_concat in H as [l [Hl H]]. apply in_map_iff in Hl as [it [<- Hit]].
      destruct (mem (it_attr it) (ci_params ci)) eqn:Em; [destruct H|]. destruct (r it) as [v|] eqn:Er; [|destruct H].
      destruct H as [E|[]]. injection E as <- <-.
      assert (Hf := find_item_NoDup _ _ (cf_attrs _ _ _ F) Hit).
      assert (Hk : ckind_of ci (it_attr it) = None).
      { destruct (ckind_of ci (it_attr it)) as [k|] eqn:Ek; [|reflexivity]. exfalso. apply sget_In in Ek. apply (cf_params _ _ _ F) in Ek. cbn in Ek. congruence. }
      destruct (Hr it v Hit Er) as [T [S C]]. unfold attr_good, attr_typed, settled_attr, child_ok. cbn [snd]. rewrite Hf, Hk, T.
      split; [reflexivity|]. split; [|exact C].
      assert (P := cf_placed _ _ _ F it Hit). unfold placed in P. rewrite Em in P. apply andb_prop in P as [_ P].
      destruct S as [S|[[S _]|[S _]]]; [exact S| |]; rewrite S in P; discriminate.
    Qed.

    Lemma kws_nodup : NoDup (map fst kws).
    Proof.
      assert (H := cf_attrs _ _ _ F). clear -H. unfold kw_of. induction its as [|it l IH]; [constructor|]. cbn [map concat] in *.
      inversion H as [|? ? Hni Hd]; subst. rewrite map_app. destruct (r it) as [v|]; [|now apply IH]. cbn. constructor; [|now apply IH].
      intro Hin. apply Hni. eapply kw_of_keys. exact Hin.
    Qed.

    Lemma mk_attr_ns ak ax : In ak (ctor_attrs ci) -> mk_attr W kws ak = Ok ax -> attr_ns_good ax.
    Proof.
      destruct ak as [a k]. intros Hin H. unfold mk_attr in H. apply bind_ok in H as [x [Hx H]]. injection H as <-.
      intros it Hf. cbn [fst snd] in *. destruct (cf_kind _ _ _ F _ Hin) as [Hk _]. cbn [fst snd] in Hk. rewrite Hf in Hk.
      rewrite kw_get, Hf in Hx. destruct (find_item_In _ _ _ Hf) as [Hit _].
      assert (N := Hr_ns it). unfold kids_ns, ckind_ok in *. destruct (it_set it) eqn:Es; try reflexivity.
      - destruct k; try discriminate Hk. injection Hx as <-. destruct (r it) as [v|]; [now apply N|].
        unfold item_ns_ok. rewrite Es. reflexivity.
      - assert (V : forall v, item_ns_ok W [] nss it v = true -> forall l, v = VList l -> forall P, item_ns_ok W [] nss it (VList (filter P l)) = true).
        { intros v Hv l -> P. unfold item_ns_ok in *. rewrite Es in *. destruct (map (ns_get nss) (it_nsids it)); [reflexivity|].
          rewrite forallb_forall in Hv |- *. intros y Hy. apply filter_In in Hy as [Hy _]. now apply Hv. }
        assert (E0 : item_ns_ok W [] nss it VNone = true /\ item_ns_ok W [] nss it (VList []) = true).
        { unfold item_ns_ok. rewrite Es. split; [reflexivity|]. now destruct (map _ _). }
        destruct (r it) as [v|]; [specialize (N v Hit eq_refl)|]; destruct k; try discriminate Hk;
          try (injection Hx as <-; tauto); try (destruct v; try discriminate Hx; injection Hx as <-; tauto).
        destruct v; try discriminate Hx; [injection Hx as <-; tauto|]. apply bind_ok in Hx as [l1 [Hl1 Hx]]. injection Hx as <-.
        rewrite (filter_true_filter _ _ Hl1). eapply V; [exact N|reflexivity].
    Qed.

    Lemma extra_ns a x : In (a, x) (extras_of ci kws) -> attr_ns_good (a, x).
    Proof.
      rewrite kw_of_extras. intro H. apply in_concat in H as [l [Hl H]]. apply in_map_iff in Hl as [it [<- Hit]].
      destruct (mem (it_attr it) (ci_params ci)) eqn:Em; [destruct H|]. destruct (r it) as [v|] eqn:Er; [|destruct H].
      destruct H as [E|[]]. injection E as <- <-. intros it' Hf. cbn [fst snd] in *.
      rewrite (find_item_NoDup _ _ (cf_attrs _ _ _ F) Hit) in Hf. injection Hf as <-. now apply Hr_ns.
    Qed.

    Lemma construct_typed ns nss0 v : construct W c ns nss0 kws = Ok v ->
      exists attrs, v = VObj c ns (merge_ns nss0) attrs /\
        (forall a x, In (a, x) attrs -> attr_ns_good (a, x)) /\
        (forall ns' nss', typed_node W c ns' nss' attrs = true) /\
        (forall ns' nss', settled_node anyv W c ns' nss' attrs = true) /\
        (forall a x, In (a, x) attrs -> child_ok x).
    Proof.
      unfold construct. rewrite Hc. destruct (_ && _); [discriminate|]. intro H. apply bind_ok in H as [pre [Hpre H]].
      apply bind_ok in H as [post [Hpost H]]. injection H as <-. eexists. split; [reflexivity|].
      apply map_res_ok in Hpre, Hpost.
      assert (Kp : forall l r0, Forall2 (fun ak ax => mk_attr W kws ak = Ok ax) l r0 -> map fst r0 = map fst l).
      { clear. intros l r0 HF. induction HF as [|[a k] ax l r0 H HF IH]; [reflexivity|]. cbn. rewrite IH. f_equal.
        unfold mk_attr in H. apply bind_ok in H as [x [_ H]]. now injection H as <-. }
      assert (Kg : forall P : string * value -> Prop, (forall ak ax, In ak (ctor_attrs ci) -> mk_attr W kws ak = Ok ax -> P ax) ->
        (forall a x, In (a, x) (extras_of ci kws) -> P (a, x)) -> forall ax, In ax (pre ++ extras_of ci kws ++ post) -> P ax).
      { intros P P1 P2 ax Hin.
        assert (G : forall l r0, Forall2 (fun ak ax => mk_attr W kws ak = Ok ax) l r0 -> (forall ak, In ak l -> In ak (ctor_attrs ci)) -> In ax r0 -> P ax).
        { clear Hin. intros l r0 HF. induction HF as [|ak ax' l r0 H HF IH]; intros Hl Hin; [destruct Hin|].
          destruct Hin as [<-|Hin]; [eapply P1; [apply Hl; now left|exact H]|apply IH; auto using in_cons]. }
        apply in_app_or in Hin as [Hin|Hin]; [|apply in_app_or in Hin as [Hin|Hin]].
        - eapply G; [exact Hpre| |exact Hin]. intros; apply in_or_app; now left.
        - destruct ax. now apply P2.
        - eapply G; [exact Hpost| |exact Hin]. intros; apply in_or_app; now right. }
      assert (Good := Kg _ mk_attr_good extra_good).
      assert (Gns := Kg _ mk_attr_ns extra_ns).
      set (attrs := pre ++ extras_of ci kws ++ post) in *.
      assert (Ek : map fst attrs = map fst (ci_pre ci) ++ map fst (extras_of ci kws) ++ map fst (ci_post ci)).
      { unfold attrs. rewrite !map_app, (Kp _ _ Hpre), (Kp _ _ Hpost). reflexivity. }
      assert (Hxp : forall k, In k (map fst (extras_of ci kws)) -> mem k (ci_params ci) = false).
      { intros k Hk. apply in_map_iff in Hk as [[k' x] [<- Hk]]. unfold extras_of in Hk. apply filter_In in Hk as [_ Hk]. now apply negb_true_iff in Hk. }
      assert (Hnd : NoDup (map fst attrs)).
      { rewrite Ek. assert (Hct := cf_ctor _ _ _ F). unfold ctor_attrs in Hct. rewrite map_app in Hct.
        assert (Hpp : forall k, In k (map fst (ci_pre ci) ++ map fst (ci_post ci)) -> mem k (ci_params ci) = true).
        { intros k Hk. rewrite <- map_app in Hk. apply in_map_iff in Hk as [ak [<- Hk]]. now apply (cf_params _ _ _ F). }
        assert (Hxn : NoDup (map fst (extras_of ci kws))).
        { unfold extras_of. assert (Hn := kws_nodup). clear -Hn. induction kws as [|[k x] l IH]; [constructor|]. cbn in Hn |- *. inversion Hn; subst.
          destruct (negb _); [|auto]. cbn. constructor; [|auto]. intro Hin. apply H1. apply in_map_iff in Hin as [y [E Hy]]. apply filter_In in Hy as [Hy _].
          apply (in_map fst) in Hy. now rewrite E in Hy. }
        clear -Hct Hxp Hxn Hpp. induction (map fst (ci_pre ci)) as [|k l IH]; cbn [app] in *.
        - induction (map fst (extras_of ci kws)) as [|k l IH]; cbn [app]; [exact Hct|]. inversion Hxn; subst. constructor.
          + intro Hin. apply in_app_or in Hin as [Hin|Hin]; [contradiction|]. apply Hpp in Hin. rewrite Hxp in Hin by now left. discriminate.
          + apply IH; auto. intros; apply Hxp; now right.
        - inversion Hct; subst. constructor.
          + intro Hin. apply in_app_or in Hin as [Hin|Hin]; [apply H1, in_or_app; now left|]. apply in_app_or in Hin as [Hin|Hin].
            * apply Hxp in Hin. rewrite Hpp in Hin by now left. discriminate.
            * apply H1, in_or_app. now right.
          + apply IH; auto. intros; apply Hpp; now right. }
      assert (Exs : firstn (length (map fst attrs) - length (map fst (ci_pre ci)) - length (map fst (ci_post ci))) (skipn (length (map fst (ci_pre ci))) (map fst attrs)) = map fst (extras_of ci kws)).
      { rewrite Ek, !app_length, skipn_app, skipn_all2 by lia.
        rewrite Nat.sub_diag. cbn [app skipn]. rewrite firstn_app.
        replace (length (map fst (ci_pre ci)) + (length (map fst (extras_of ci kws)) + length (map fst (ci_post ci))) - length (map fst (ci_pre ci)) - length (map fst (ci_post ci)))%nat
          with (length (map fst (extras_of ci kws))) by lia.
        rewrite Nat.sub_diag. cbn [firstn]. rewrite firstn_all, app_nil_r. reflexivity. }
      assert (Sref : forall l, all2 String.eqb l l = true).
      { clear. induction l; [reflexivity|]. cbn. now rewrite String.eqb_refl. }
      split; [intros; now apply Gns|]. split; [|split].
      - intros ns' nss'. unfold typed_node. rewrite Hc. apply andb_true_intro. split.
        + unfold shape_ok. rewrite Exs. rewrite Ek at 1. rewrite Sref. cbn [andb]. apply andb_true_intro. split; [now apply nodups_NoDup|].
          apply forallb_forall. intros k Hk. now rewrite (Hxp k Hk).
        + apply forallb_forall. intros ax Hax. now apply Good.
      - intros ns' nss'. unfold settled_node. rewrite Hc. apply andb_true_intro. split.
        + apply forallb_forall. intros ax Hax. now apply Good.
        + unfold extra_keys. rewrite !map_length in Exs. rewrite map_length, Exs.
          assert (E : map fst (extras_of ci kws) = map it_attr (filter (fun it => negb (mem (it_attr it) (ci_params ci)) && (mem (it_attr it) (map fst attrs) || is_objs it)) its)); [|rewrite E; apply Sref].
          rewrite kw_of_extras.
          set (P := fun it : item => negb (mem (it_attr it) (ci_params ci)) && (mem (it_attr it) (map fst attrs) || is_objs it)).
          rewrite <- (concat_map_fst P (fun it => if mem (it_attr it) (ci_params ci) then None else r it)).
          * f_equal. f_equal. apply map_ext. intro it. now destruct (mem _ _).
          * intros it Hit HP. unfold P in HP. destruct (mem (it_attr it) (ci_params ci)) eqn:Em; [reflexivity|]. cbn [negb andb] in HP.
            apply orb_false_elim in HP as [H1 H2]. destruct (r it) as [v|] eqn:Er; [|reflexivity]. exfalso.
            assert (Hin : In (it_attr it) (map fst attrs)); [|apply mem_In in Hin; congruence].
            rewrite Ek. apply in_or_app. right. apply in_or_app. left. rewrite kw_of_extras. apply in_map_iff. exists (it_attr it, v). split; [reflexivity|].
            apply in_concat. exists [(it_attr it, v)]. split; [|now left]. apply in_map_iff. exists it. now rewrite Em, Er.
          * intros it Hit HP. unfold P in HP. destruct (mem (it_attr it) (ci_params ci)) eqn:Em; [discriminate|]. cbn [negb andb] in HP.
            apply orb_prop in HP as [HP|HP]; [|now apply Hobjs].
            apply mem_In in HP. rewrite Ek in HP. apply in_app_or in HP as [HP|HP]; [|apply in_app_or in HP as [HP|HP]].
            -- exfalso. apply in_map_iff in HP as [ak [E HP]]. assert (In ak (ctor_attrs ci)) by (apply in_or_app; now left).
               apply (cf_params _ _ _ F) in H. congruence.
            -- apply in_map_iff in HP as [[k x] [E HP]]. cbn in E. unfold extras_of in HP. apply filter_In in HP as [HP _].
               assert (G := kw_of_get r its (it_attr it) (cf_attrs _ _ _ F)). rewrite (find_item_NoDup _ _ (cf_attrs _ _ _ F) Hit) in G.
               rewrite (sget_NoDup (it_attr it) _ x kws_nodup) in G; [eauto|]. now rewrite <- E.
            -- exfalso. apply in_map_iff in HP as [ak [E HP]]. assert (In ak (ctor_attrs ci)) by (apply in_or_app; now right).
               apply (cf_params _ _ _ F) in H. congruence.
      - intros a x Hax. now apply (Good (a, x)).
    Qed.
  End Class.
End Reader.

Definition kids_node (W : world) (c : string) (ns : ustr) (nss : nss_t) (attrs : list (string * value)) : bool :=
  forallb (fun ax => match find_item (fst ax) (items_of W c) with
                     | Some it => kids_ns W nss it (snd ax)
                     | None => true
                     end) attrs.

Definition read_inv (W : world) (v : value) : Prop :=
  vall (typed_node W) v = true /\ settled_with anyv W v = true /\ vall (kids_node W) v = true.

Lemma try_nsids_objs f nss id ids v0 : f (ns_get nss id) = Ok (Some v0) -> try_nsids f nss (id :: ids) = Ok (Some v0).
Proof. intro H. cbn. now rewrite H. Qed.

(** Whatever element is read, the objects are typed and, but for falsy
    sub-objects, settled. *)
Theorem reader_inv W strict e : world_ok W = true -> forall c ns nss v,
  from_element W strict e c ns nss = Ok v ->
  read_inv W v /\ exists attrs, v = VObj c ns (merge_ns nss) attrs.
Proof.
  intro HW. induction e as [tg at_ tx kids IH] using elem_ind'. intros c ns nss v H.
  cbn [from_element] in H. unfold read_with in H. cbv zeta in H. set (nss1 := merge_ns nss) in *.
  assert (Hm : merge_ns nss1 = nss1) by apply merge_ns_idem.
  apply bind_ok in H as [kws [Hk H]].
  destruct (class_of W c) as [ci|] eqn:Hc; [|unfold construct in H; rewrite Hc in H; discriminate].
  assert (F := world_class _ _ _ HW Hc).
  set (ks := map (fun k => (k, from_element W strict k)) kids) in *.
  assert (Hkids : Forall (kid_ok (read_inv W)) ks).
  { unfold ks. clear -IH. induction IH as [|k kids Hk Hkids IHk]; [constructor|]. cbn. constructor; [|exact IHk]. exact Hk. }
  destruct (get_kwargs_inv W strict (items_of W c) at_ tx ks nss1 [] kws) as [r [-> Hr]]; [exact (cf_attrs _ _ _ F)|exact Hk|].
  cbn [app] in H.
  assert (Hio : forall it, In it (items_of W c) -> item_ok W it = true).
  { exact (cf_items _ _ _ F). }
  assert (Hobj1 : forall it id ids v, In it (items_of W c) -> is_objs it = true -> it_nsids it = id :: ids -> r it = Some v ->
     get_kwarg W strict it at_ tx ks (ns_get nss1 id) nss1 = Ok (Some v)).
  { intros it id ids w Hit Ho Hids Hw. specialize (Hr it Hit). rewrite Hids, Hw in Hr. cbn [try_nsids] in Hr. apply bind_ok in Hr as [o [Ho1 Hr]].
    destruct o as [w'|]; [congruence|]. exfalso. specialize (Hio it Hit). unfold item_ok in Hio. rewrite !andb_true_iff in Hio. destruct Hio as [[[Hp _] _] _].
    unfold is_objs in Ho. unfold get_kwarg in Ho1. destruct (it_set it); try discriminate Ho. destruct (it_get it); try discriminate Hp.
    apply bind_ok in Ho1 as [l [_ E]]. discriminate. }
  destruct (construct_typed W HW (read_inv W) c ci nss1 r Hc) with (ns := ns) (nss0 := nss1) (v := v) as [attrs [-> [Hns [Ht [Hs Hch]]]]].
  - intros it w Hit Hw. specialize (Hio it Hit).
    assert (Hnd : NoDup (item_names W it)) by (eapply item_names_nodup; [exact Hit|exact (cf_names _ _ _ F)]).
    destruct (is_objs it) eqn:Ho.
    + assert (Hne : it_nsids it <> []).
      { unfold item_ok in Hio. rewrite !andb_true_iff in Hio. destruct Hio as [_ Hcl]. unfold classes_ok in Hcl. unfold is_objs in Ho.
        destruct (it_set it); try discriminate Ho. apply andb_prop in Hcl as [_ Hcl]. now destruct (it_nsids it). }
      destruct (it_nsids it) as [|id ids] eqn:Hids; [congruence|]. exists id. split; [now left|]. split; [reflexivity|].
      eapply get_kwarg_ok; eauto.
    + assert (Hr1 := Hr it Hit). rewrite Hw in Hr1. apply try_nsids_some in Hr1 as [id [Hid Hg]]. exists id. split; [exact Hid|]. split; [discriminate|].
      eapply get_kwarg_ok; eauto.
  - intros it Hit Ho. specialize (Hio it Hit). unfold item_ok in Hio. rewrite !andb_true_iff in Hio. destruct Hio as [[[Hp _] _] Hcl].
    assert (Ho' := Ho). unfold is_objs in Ho. unfold classes_ok in Hcl. destruct (it_set it) eqn:Es; try discriminate Ho.
    apply andb_prop in Hcl as [_ Hcl]. destruct (it_nsids it) as [|id ids] eqn:Hids; [discriminate|].
    specialize (Hr it Hit). rewrite Hids in Hr. cbn [try_nsids] in Hr. apply bind_ok in Hr as [o [Ho1 Hr]].
    destruct o as [w|]; [injection Hr as <-; eauto|]. exfalso. unfold get_kwarg in Ho1. destruct (it_get it); try discriminate Hp.
    apply bind_ok in Ho1 as [l [_ E]]. discriminate.
  - exact Hm.
  - exact H.
  - rewrite Hm. split; [|eauto].
    assert (V : forall P : string -> ustr -> nss_t -> list (string * value) -> bool, P c ns nss1 attrs = true ->
      (forall y, read_inv W y -> vall P y = true) -> vall P (VObj c ns nss1 attrs) = true).
    { intros P HP Hy. cbn [vall]. rewrite HP. cbn [andb]. apply forallb_forall. intros [a x] Hax. specialize (Hch a x Hax). unfold child_ok in Hch.
      destruct x; try reflexivity; [|now apply Hy]. cbn [vall]. apply forallb_forall. intros y Hyl. apply Hy, Hch, Hyl. }
    split; [|split].
    + apply V; [apply Ht|]. now intros y [? _].
    + apply V; [apply Hs|]. now intros y [_ [? _]].
    + apply V; [|now intros y [_ [_ ?]]]. unfold kids_node. apply forallb_forall. intros [a x] Hax. specialize (Hns a x Hax). unfold attr_ns_good in Hns. cbn [fst snd] in *.
      destruct (find_item a (items_of W c)) as [it|]; [|reflexivity]. now apply Hns.
Qed.
