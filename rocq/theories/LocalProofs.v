(** * Elements are read by themselves.  Lemmas for C67. *)
From Coq Require Import String List NArith ZArith Bool Lia.
From Verif Require Import Ustr UstrProofs Res PyInt PyFloat PyNumProofs PyDate Elem Value Geom Codec Spec Settled EmitProofs CodecProofs ReadProofs ItemProofs RoundTrip NsProofs SettledProofs ReaderTyped ValueProofs FoundProofs StrictProofs Outcome Agree AgreeProofs CtorProofs AbsentProofs DamageSpec DamageProofs LocalSpec.
Import ListNotations.
Local Open Scope string_scope.
Local Open Scope list_scope.

(** ** Everything read stands in an element that says the same *)

Section Good.
  Variables (W : world) (strict : bool) (kids : list elem) (nss : nss_t).

  (** Every object in [v] is what some element inside means by itself. *)
  Definition good (v : value) : Prop := forall c ns d attrs, holds v (VObj c ns d attrs) ->
    d = nss /\ exists k0 k, In k0 kids /\ (k = k0 \/ within k k0) /\ e_tag k = ns ++ u (tag_of W c) /\ from_element W strict k c ns d = Ok (VObj c ns d attrs).

  Definition plain (v : value) : bool := match v with VObj _ _ _ _ | VList _ => false | _ => true end.

  Lemma plain_good v : plain v = true -> good v.
  Proof. intros H c ns d attrs Hh. inversion Hh; subst; discriminate. Qed.

  Hypothesis Hn : merge_ns nss = nss.
  Hypothesis IH : forall k, In k kids -> forall c ns v, from_element W strict k c ns nss = Ok v ->
    exists attrs, v = VObj c ns nss attrs /\ forall a x, In (a, x) attrs -> forall c' ns' d attrs', holds x (VObj c' ns' d attrs') ->
      d = nss /\ exists k', within k' k /\ e_tag k' = ns' ++ u (tag_of W c') /\ from_element W strict k' c' ns' d = Ok (VObj c' ns' d attrs').

  Lemma kid_good k c ns v : In k kids -> e_tag k = ns ++ u (tag_of W c) -> from_element W strict k c ns nss = Ok v -> good v.
  Proof.
    intros Hk Ht Hv. destruct (IH k Hk _ _ _ Hv) as [attrs [-> Ha]]. intros c' ns' d attrs' Hh. inversion Hh as [| |? ? ? ? a x y Hin Hx]; subst.
    - split; [reflexivity|]. exists k, k. auto.
    - destruct (Ha a x Hin _ _ _ _ Hx) as [-> [k' [Hw [Et E]]]]. split; [reflexivity|]. exists k, k'. auto.
  Qed.

  Lemma list_good l : (forall x, In x l -> good x) -> good (VList l).
  Proof. intros H c ns d attrs Hh. inversion Hh as [|? x y Hin Hx|]; subst. exact (H x Hin _ _ _ _ Hx). Qed.

  Lemma good_list l : good (VList l) -> forall x, In x l -> good x.
  Proof. intros H x Hx c ns d attrs Hh. apply H. econstructor; eassumption. Qed.

  Notation rks := (map (kid_reader W strict) kids).

  Lemma with_tag_in t k : In k (with_tag t kids) -> In k kids /\ e_tag k = t.
  Proof. unfold with_tag. intro H. apply filter_In in H as [H1 H2]. apply ueqb_eq in H2. auto. Qed.

  Lemma read_obj_good n cs v : read_obj W rks n nss cs = Ok (Some v) -> good v.
  Proof.
    induction cs as [|c cs IHc]; cbn [read_obj]; intro H; [discriminate|]. apply bind_ok in H as [tag [Et H]]. apply class_tag_of in Et. subst tag.
    rewrite find_kid_hd in H. destruct (with_tag (n ++ u (tag_of W c)) kids) as [|k l] eqn:E; cbn [hd_error option_map] in H; [exact (IHc H)|].
    apply bind_ok in H as [w [Hw H]]. injection H as <-. destruct (with_tag_in (n ++ u (tag_of W c)) k) as [Hk Ht]; [rewrite E; now left|]. exact (kid_good k c n w Hk Ht Hw).
  Qed.

  Lemma read_objs_good n cs l : read_objs W rks n nss cs = Ok l -> forall x, In x l -> good x.
  Proof.
    unfold read_objs. intro H. apply bind_ok in H as [ls [H E]]. injection E as <-. intros x Hx. apply in_concat in Hx as [m [Hm Hx]].
    destruct (map_res_in _ _ _ _ H Hm) as [c [_ Hc]]. apply bind_ok in Hc as [tag [Et Hc]]. apply class_tag_of in Et. subst tag.
    rewrite find_kids_with in Hc. destruct (map_res_in _ _ _ _ Hc Hx) as [rk [Hk Hr]]. apply in_map_iff in Hk as [k [<- Hk]]. apply with_tag_in in Hk as [Hk Ht]. exact (kid_good k c n x Hk Ht Hr).
  Qed.

  Lemma guarded_plain r v : guarded strict r = Ok (Some v) -> (forall w, r = Ok w -> plain w = true) -> plain v = true.
  Proof. intros H P. apply ReaderTyped.guarded_some in H. now apply P. Qed.

  Lemma enum_plain c e t v : get_enum_value c e strict t = Ok v -> plain v = true.
  Proof. unfold get_enum_value. intro H. apply bind_ok in H as [m [_ H]]. destruct (strict && negb (ueqb m t)); [discriminate|]. now injection H as <-. Qed.

  Lemma bool_plain t v : get_boolean_value strict t = Ok v -> plain v = true.
  Proof.
    unfold get_boolean_value. cbv zeta. intro H. destruct (ueqb _ _ || ueqb _ _); [now injection H as <-|]. destruct (ueqb _ _ || ueqb _ _); [now injection H as <-|].
    destruct strict; [discriminate|]. apply bind_ok in H as [? [_ H]]. now injection H as <-.
  Qed.

  Lemma on_text_plain (o : option ustr) (f : ustr -> res value) v : match o with Some t => guarded strict (f t) | None => Ok None end = Ok (Some v) ->
    (forall t w, f t = Ok w -> plain w = true) -> plain v = true.
  Proof. destruct o as [t|]; [|discriminate]. intros H P. exact (guarded_plain _ _ H (P t)). Qed.

  Lemma bind_plain {A} (r : res A) (f : A -> value) v : (let! z := r in Ok (f z)) = Ok v -> (forall z, plain (f z) = true) -> plain v = true.
  Proof. intros H P. apply bind_ok in H as [z [_ H]]. injection H as <-. apply P. Qed.

  Lemma bind_some_plain {A} (r : res A) (f : A -> option value) v : (let! z := r in Ok (f z)) = Ok (Some v) -> (forall z w, f z = Some w -> plain w = true) -> plain v = true.
  Proof. intros H P. apply bind_ok in H as [z [_ H]]. injection H as H. exact (P _ _ H). Qed.

  Lemma kwarg_good it a tx n v : get_kwarg W strict it a tx rks n nss = Ok (Some v) -> good v.
  Proof.
    unfold get_kwarg. cbv zeta. intro H. set (nt := match find_kid _ _ with Some k => _ | None => None end) in H. set (at_ := match uget _ _ with Some t => _ | None => None end) in H.
    clearbody nt at_. destruct (it_get it); try (exact (read_obj_good _ _ _ H)); try (apply bind_ok in H as [l [Hl H]]; injection H as <-; apply list_good; exact (read_objs_good _ _ _ Hl)); apply plain_good.
    - destruct (stripped tx); [now injection H as <-|discriminate].
    - destruct nt; [now injection H as <-|discriminate].
    - destruct at_; [now injection H as <-|discriminate].
    - rewrite bool_match in H. destruct (match it_classes it with ["bool"%string] => true | _ => false end); [|discriminate]. exact (on_text_plain _ _ _ H bool_plain).
    - apply (on_text_plain _ _ _ H). intros t w Hw. now apply (bind_plain _ _ _ Hw).
    - destruct at_; [|discriminate]. apply bind_some_plain in H; [exact H|]. intros z w E. now injection E as <-.
    - apply (on_text_plain _ _ _ H). intros t w Hw. now apply (bind_plain _ _ _ Hw).
    - apply (on_text_plain _ _ _ H). intros t w Hw. now apply (bind_plain _ _ _ Hw).
    - unfold with_enum in H. destruct (it_classes it) as [|s [|]]; try discriminate H. destruct (sget s (w_enums W)) as [e|]; [|discriminate]. apply (on_text_plain _ _ _ H). intros t w. apply enum_plain.
    - unfold with_enum in H. destruct (it_classes it) as [|s [|]]; try discriminate H. destruct (sget s (w_enums W)) as [e|]; [|discriminate]. apply (on_text_plain _ _ _ H). intros t w. apply enum_plain.
    - apply (on_text_plain _ _ _ H). intros t w Hw. now apply (bind_plain _ _ _ Hw).
    - apply bind_some_plain in H; [exact H|]. intros z w E. destruct (nilb (concat z)); [discriminate|]. now injection E as <-.
    - apply bind_some_plain in H; [exact H|]. intros z w E. destruct (nilb (concat z)); [discriminate|]. now injection E as <-.
    - apply (on_text_plain _ _ _ H). intros t w Hw. now apply (bind_plain _ _ _ Hw).
  Qed.

  Lemma try_good it a tx ids v : try_nsids (fun n => get_kwarg W strict it a tx rks n nss) nss ids = Ok (Some v) -> good v.
  Proof. intro H. apply try_nsids_some in H as [id [_ H]]. exact (kwarg_good _ _ _ _ _ H). Qed.

  Lemma sset_In a (v : value) l b x : In (b, x) (sset a v l) -> x = v \/ In (b, x) l.
  Proof.
    induction l as [|[k w] l IHl]; cbn [sset]; intro H; [destruct H as [E|[]]; injection E as <- <-; now left|].
    destruct (String.eqb a k); destruct H as [E|H]; try (injection E as <- <-; auto); [right; now right|right; now left|]. destruct (IHl H) as [E|E]; [now left|right; now right].
  Qed.

  Lemma kwargs_good its a tx : forall acc kws, (forall b x, In (b, x) acc -> good x) -> get_kwargs W strict its a tx rks nss acc = Ok kws -> forall b x, In (b, x) kws -> good x.
  Proof.
    induction its as [|it its IHi]; intros acc kws Ha H; cbn [get_kwargs] in H; [injection H as <-; exact Ha|]. apply bind_ok in H as [o [Ho H]].
    refine (IHi _ _ _ H). destruct o as [v|]; [|exact Ha]. intros b x Hx. apply sset_In in Hx as [->|Hx]; [exact (try_good _ _ _ _ _ Ho)|exact (Ha _ _ Hx)].
  Qed.

  Lemma kwget_good kws a : (forall b x, In (b, x) kws -> good x) -> good (kwget kws a).
  Proof. intro H. unfold kwget. destruct (sget a kws) as [v|] eqn:E; [|now apply plain_good]. apply sget_In in E. exact (H _ _ E). Qed.

  Lemma clean_good v w : clean_string v = Ok w -> plain w = true.
  Proof. unfold clean_string. destruct v as [| | |s| | | | | | | |]; try discriminate; intro H; [now injection H as <-|]. destruct (uempty s); [now injection H as <-|]. injection H as <-. now destruct (uempty (strip s)). Qed.

  Lemma mk_attr_good kws ak b x : (forall b x, In (b, x) kws -> good x) -> mk_attr W kws ak = Ok (b, x) -> good x.
  Proof.
    intros Hk H. destruct ak as [a k]. unfold mk_attr in H. assert (Hg := kwget_good kws a Hk). set (v := kwget kws a) in *. clearbody v. apply bind_ok in H as [r [Hr H]]. injection H as <- <-.
    destruct k.
    - now injection Hr as <-.
    - apply plain_good. exact (clean_good _ _ Hr).
    - apply bind_ok in Hr as [t [_ Hr]]. destruct t; [|discriminate]. apply plain_good. exact (clean_good _ _ Hr).
    - apply bind_ok in Hr as [t [_ Hr]]. injection Hr as <-. destruct t; [exact Hg|now apply plain_good].
    - apply bind_ok in Hr as [t [_ Hr]]. injection Hr as <-. destruct t; [exact Hg|now apply plain_good].
    - destruct v; try discriminate Hr; injection Hr as <-; [apply list_good; intros ? []|exact Hg].
    - destruct v; try discriminate Hr; injection Hr as <-; [apply list_good; intros ? []|exact Hg].
    - destruct v; try discriminate Hr; [injection Hr as <-; apply list_good; intros ? []|]. apply bind_ok in Hr as [rr [Hf Hr]]. injection Hr as <-.
      apply list_good. intros y Hy. apply (good_list _ Hg). exact (filter_true_in _ _ _ _ Hf Hy).
    - apply bind_ok in Hr as [t [_ Hr]]. injection Hr as <-. destruct t; [exact Hg|now apply plain_good].
    - apply plain_good. unfold build_track in Hr. apply bind_ok in Hr as [q1 [_ Hr]]. apply bind_ok in Hr as [q2 [_ Hr]]. apply bind_ok in Hr as [q3 [_ Hr]]. apply bind_ok in Hr as [q4 [_ Hr]].
      destruct (_ && _); [discriminate|]. destruct (_ && _ && _); [apply bind_ok in Hr as [q5 [_ Hr]]|]; now injection Hr as <-.
  Qed.

  Lemma construct_good c ns kws v : (forall b x, In (b, x) kws -> good x) -> construct W c ns nss kws = Ok v ->
    exists attrs, v = VObj c ns nss attrs /\ forall a x, In (a, x) attrs -> good x.
  Proof.
    intros Hk H. unfold construct in H. destruct (class_of W c) as [ci|]; [|discriminate]. cbv zeta in H. destruct (_ && _); [discriminate|].
    apply bind_ok in H as [pre [Hp H]]. apply bind_ok in H as [post [Hq H]]. injection H as <-. rewrite Hn. eexists. split; [reflexivity|]. intros a x Hx.
    apply in_app_or in Hx as [Hx|Hx]; [destruct (map_res_in _ _ _ _ Hp Hx) as [ak [_ E]]; exact (mk_attr_good _ _ _ _ Hk E)|].
    apply in_app_or in Hx as [Hx|Hx]; [unfold extras_of in Hx; apply filter_In in Hx as [Hx _]; exact (Hk _ _ Hx)|].
    destruct (map_res_in _ _ _ _ Hq Hx) as [ak [_ E]]; exact (mk_attr_good _ _ _ _ Hk E).
  Qed.
End Good.

(** Every object inside what is read from [e], wherever it lies, is what an
    element inside [e] means by itself. *)
Theorem read_alone W strict e : forall c ns nss v, from_element W strict e c ns nss = Ok v ->
  exists attrs, v = VObj c ns (merge_ns nss) attrs /\ forall a x, In (a, x) attrs -> forall c' ns' d attrs', holds x (VObj c' ns' d attrs') ->
    d = merge_ns nss /\ exists k, within k e /\ e_tag k = ns' ++ u (tag_of W c') /\ from_element W strict k c' ns' d = Ok (VObj c' ns' d attrs').
Proof.
  induction e as [tg at_ tx kids IH] using elem_ind'. intros c ns nss v H. cbn [from_element] in H. unfold read_with in H. cbv zeta in H.
  set (d := merge_ns nss) in *. assert (Hd : merge_ns d = d) by apply merge_ns_idem. apply bind_ok in H as [kws [Hk H]].
  assert (IH' : forall k, In k kids -> forall c ns v, from_element W strict k c ns d = Ok v ->
    exists attrs, v = VObj c ns d attrs /\ forall a x, In (a, x) attrs -> forall c' ns' d' attrs', holds x (VObj c' ns' d' attrs') ->
      d' = d /\ exists k', within k' k /\ e_tag k' = ns' ++ u (tag_of W c') /\ from_element W strict k' c' ns' d' = Ok (VObj c' ns' d' attrs')).
  { intros k Hin c0 ns0 v0 H0. rewrite Forall_forall in IH. destruct (IH k Hin _ _ _ _ H0) as [at0 [E G]]. rewrite Hd in E, G. exists at0. auto. }
  assert (K := kwargs_good W strict kids d Hd IH' (items_of W c) at_ tx [] kws (fun b x F => match F with end) Hk).
  destruct (construct_good W strict kids d Hd c ns kws v K H) as [attrs [-> G]]. exists attrs. split; [reflexivity|].
  intros a x Hx c' ns' d' attrs' Hh. destruct (G a x Hx _ _ _ _ Hh) as [-> [k0 [k [Hk0 [Hw [Et E]]]]]]. split; [reflexivity|]. exists k. split; [|auto].
  destruct Hw as [->|Hw]; [now apply within_kid|exact (within_deeper k k0 (Elem tg at_ tx kids) Hk0 Hw)].
Qed.

(** ** An element pasted among others *)

Section Pasted.
  Variables (W : world) (strict : bool) (d : nss_t) (bf af : list elem) (k : elem).

  Lemma with_tag_pasted t : e_tag k <> t -> with_tag t (bf ++ k :: af) = with_tag t (bf ++ af).
  Proof. intro N. unfold with_tag. rewrite !filter_app. cbn [filter]. destruct (ueqb (e_tag k) t) eqn:Q; [apply ueqb_eq in Q; congruence|reflexivity]. Qed.

  Lemma with_tag_pasted_same : with_tag (e_tag k) (bf ++ k :: af) = with_tag (e_tag k) bf ++ k :: with_tag (e_tag k) af.
  Proof. unfold with_tag. rewrite filter_app. cbn [filter]. now rewrite ueqb_refl. Qed.

  Lemma objs_pasted n cs c' x l : NoDup (map (tag_of W) cs) -> In c' cs -> e_tag k = n ++ u (tag_of W c') -> from_element W strict k c' n d = Ok x ->
    read_objs W (map (kid_reader W strict) (bf ++ af)) n d cs = Ok l ->
    exists l1 l2, l = l1 ++ l2 /\ read_objs W (map (kid_reader W strict) (bf ++ k :: af)) n d cs = Ok (l1 ++ x :: l2).
  Proof.
    intros Hd Hc' Ht Hx H. unfold read_objs in *. apply bind_ok in H as [ls [H E]]. injection E as <-.
    revert ls H. induction cs as [|c cs IH]; intros ls H; [destruct Hc'|]. cbn [map_res map] in *. inversion Hd as [|? ? Hn Hd']; subst.
    apply bind_ok in H as [l [Hl H]]. apply bind_ok in H as [r [Hr H]]. injection H as <-. apply bind_ok in Hl as [tag [Et Hl]]. rewrite Et. cbn [bind]. apply class_tag_of in Et. subst tag. rewrite find_kids_with in Hl |- *.
    destruct (String.eqb_spec c c') as [->|Nc].
    - rewrite <- Ht in Hl |- *. rewrite with_tag_pasted_same. unfold with_tag in Hl. rewrite filter_app, map_app in Hl. rewrite map_app. cbn [map].
      assert (Er : map_res (fun c => let! tag := class_tag W c in map_res (fun k : rkid => snd k c n d) (find_kids (n ++ tag) (map (kid_reader W strict) (bf ++ k :: af)))) cs = Ok r).
      { rewrite <- Hr. clear -Hn Ht. induction cs as [|c cs IH]; [reflexivity|]. cbn [map_res]. rewrite IH by (intro Q; apply Hn; now right). destruct (class_tag W c) as [tag|] eqn:Et; [|reflexivity]. cbn [bind]. apply class_tag_of in Et. subst tag.
        rewrite !find_kids_with, with_tag_pasted; [reflexivity|]. rewrite Ht. intro Q. apply app_inv_head in Q. apply u_inj in Q. apply Hn. left. now rewrite Q. }
      rewrite Er. clear Er.
      assert (App : forall A B (f : A -> res B) m1 m2 r, map_res f (m1 ++ m2) = Ok r -> exists r1 r2, r = r1 ++ r2 /\ map_res f m1 = Ok r1 /\ map_res f m2 = Ok r2 /\ forall y z, f y = Ok z -> map_res f (m1 ++ y :: m2) = Ok (r1 ++ z :: r2)).
      { clear. intros A B f m1 m2. induction m1 as [|m m1 IH]; intros r H; cbn [app map_res] in *.
        - exists [], r. split; [reflexivity|]. split; [reflexivity|]. split; [exact H|]. intros y z E. now rewrite E, H.
        - apply bind_ok in H as [w [Hw H]]. apply bind_ok in H as [q [Hq H]]. injection H as <-. destruct (IH _ Hq) as [r1 [r2 [-> [E1 [E2 E3]]]]]. exists (w :: r1), r2.
          split; [reflexivity|]. rewrite Hw, E1. split; [reflexivity|]. split; [exact E2|]. intros y z E. cbn [bind]. now rewrite (E3 y z E). }
      destruct (App _ _ _ _ _ _ Hl) as [l1 [l2 [-> [_ [_ Ex]]]]]. exists l1, (l2 ++ concat r). cbn [concat]. rewrite <- app_assoc. split; [reflexivity|].
      assert (Ey := Ex (kid_reader W strict k) x Hx). unfold with_tag. etransitivity; [exact (f_equal (fun z => let! l := (let! a := z in let! r0 := Ok r in Ok (a :: r0)) in Ok (concat l)) Ey)|]. cbn [bind concat]. now rewrite <- app_assoc.
    - destruct Hc' as [->|Hc']; [now destruct Nc|]. destruct (IH Hd' Hc' _ Hr) as [l1 [l2 [El Ex]]].
      rewrite with_tag_pasted. 2:{ rewrite Ht. intro Q. apply app_inv_head in Q. apply u_inj in Q. apply Hn. rewrite <- Q. now apply in_map. }
      rewrite Hl. cbn [bind]. apply bind_ok in Ex as [r' [Er Ex]]. rewrite Er. cbn [bind concat]. injection Ex as Ex. exists (l ++ l1), l2. rewrite El, Ex, <- !app_assoc. auto.
  Qed.
End Pasted.

Lemma construct_ok W c ci ns d r r' its v : class_of W c = Some ci -> construct W c ns d (kw_of r its) = Ok v ->
  (forall it, In it its -> (r it = None <-> r' it = None)) ->
  (forall ak, In ak (ci_pre ci ++ ci_post ci) -> forall y, mk_attr W (kw_of r its) ak = Ok y -> exists z, mk_attr W (kw_of r' its) ak = Ok z) ->
  exists v', construct W c ns d (kw_of r' its) = Ok v'.
Proof.
  intros Hc H Hn Hm. unfold construct in *. rewrite Hc in *. cbv zeta in *.
  assert (E : nilb (extras_of ci (kw_of r' its)) = nilb (extras_of ci (kw_of r its))).
  { clear -Hn. unfold extras_of, kw_of. induction its as [|it its IH]; [reflexivity|]. cbn [map concat]. rewrite !filter_app. assert (IH' := IH (fun j Hj => Hn j (or_intror Hj))). assert (N := Hn it (or_introl eq_refl)).
    destruct (r it), (r' it); [|assert (Q := proj2 N eq_refl); discriminate|assert (Q := proj1 N eq_refl); discriminate|exact IH']. cbn [filter fst]. destruct (negb (mem (it_attr it) (ci_params ci))); [reflexivity|exact IH']. }
  rewrite E. destruct (_ && _); [discriminate|]. apply bind_ok in H as [pre [Hp H]]. apply bind_ok in H as [post [Hq _]].
  assert (G : forall l q, incl l (ci_pre ci ++ ci_post ci) -> map_res (mk_attr W (kw_of r its)) l = Ok q -> exists q', map_res (mk_attr W (kw_of r' its)) l = Ok q').
  { induction l as [|ak l IH]; intros q Hi Hq'; [now exists []|]. cbn [map_res] in *. apply bind_ok in Hq' as [y [Hy Hq']]. apply bind_ok in Hq' as [q0 [Hq0 _]].
    destruct (Hm ak (Hi _ (or_introl eq_refl)) y Hy) as [z ->]. destruct (IH q0 (fun j Hj => Hi j (or_intror Hj)) Hq0) as [q' ->]. cbn [bind]. now eexists. }
  destruct (G (ci_pre ci) pre) as [pre' ->]; [apply incl_appl, incl_refl|exact Hp|]. destruct (G (ci_post ci) post) as [post' ->]; [apply incl_appr, incl_refl|exact Hq|]. cbn [bind]. now eexists.
Qed.

Lemma filter_true_insert W l1 x l2 q b : filter_true W (l1 ++ l2) = Ok q -> py_bool W x = Ok b -> exists q', filter_true W (l1 ++ x :: l2) = Ok q'.
Proof.
  intros H Hb. revert q H. induction l1 as [|y l1 IH]; intros q H; cbn [app filter_true] in *.
  - rewrite Hb, H. cbn [bind]. now eexists.
  - apply bind_ok in H as [t [Ht H]]. rewrite Ht. cbn [bind]. apply bind_ok in H as [r [Hr H]]. destruct (IH _ Hr) as [q' ->]. cbn [bind]. now eexists.
Qed.

Theorem paste_read W strict t a tx bf k af c ci ns nss attrs it id c' x b : world_ok W = true -> class_of W c = Some ci ->
  forallb (fun kv : string * ustr => good_ns (snd kv)) (merge_ns nss) = true ->
  In it (items_of W c) -> it_get it = GObjs -> hd_error (it_nsids it) = Some id -> In c' (it_classes it) ->
  e_tag k = ns_get (merge_ns nss) id ++ u (tag_of W c') ->
  from_element W strict k c' (ns_get (merge_ns nss) id) (merge_ns nss) = Ok x -> py_bool W x = Ok b ->
  from_element W strict (Elem t a tx (bf ++ af)) c ns nss = Ok (VObj c ns (merge_ns nss) attrs) ->
  exists attrs' l1 o l2, from_element W strict (Elem t a tx (bf ++ k :: af)) c ns nss = Ok (VObj c ns (merge_ns nss) attrs') /\
    (forall n, n <> it_attr it -> sget n attrs' = sget n attrs) /\
    sget (it_attr it) attrs = Some (VList (l1 ++ l2)) /\ sget (it_attr it) attrs' = Some (VList (l1 ++ o ++ l2)) /\
    (o = [x] \/ (o = [] /\ b = false)).
Proof.
  intros HW Hc Hg Hi G Hid Hc' Ht Hx Hb H. assert (F := world_class _ _ _ HW Hc). set (d := merge_ns nss) in *. assert (Hd : merge_ns d = d) by apply merge_ns_idem.
  assert (Hok := cf_items _ _ _ F it Hi). assert (Hp : paired (it_get it) (it_set it) = true) by (unfold item_ok in Hok; rewrite !andb_true_iff in Hok; tauto).
  assert (H0 := H). cbn [from_element] in H0. unfold read_with in H0. cbv zeta in H0. fold d in H0. apply bind_ok in H0 as [kws [Hk H0]].
  destruct (get_kwargs_inv W strict (items_of W c) a tx (map (kid_reader W strict) (bf ++ af)) d [] kws) as [r [-> Hr]]; [exact (cf_attrs _ _ _ F)|exact Hk|]. cbn [app] in H0.
  assert (Nz : it_nsids it <> []) by (intro Z; rewrite Z in Hid; discriminate).
  destruct (objs_first _ _ _ _ _ _ _ _ G Nz (Hr it Hi)) as [id' [l [Hin [Hid' [Hl Q]]]]]. rewrite Hid in Hid'. injection Hid' as <-.
  assert (Nd : NoDup (map (tag_of W) (it_classes it))).
  { assert (Nn := SettledProofs.item_names_nodup W it _ Hi (cf_names _ _ _ F)). unfold item_names in Nn. rewrite G in Hp. destruct (it_set it); try discriminate Hp. exact Nn. }
  destruct (objs_pasted W strict d bf af k _ _ c' x l Nd Hc' Ht Hx Hl) as [l1 [l2 [-> Hl']]].
  set (r' := fun j => if String.eqb (it_attr j) (it_attr it) then Some (VList (l1 ++ x :: l2)) else r j).
  assert (Uniq : forall j, In j (items_of W c) -> it_attr j = it_attr it -> j = it).
  { intros j Hj E. assert (F1 := find_item_NoDup _ _ (cf_attrs _ _ _ F) Hj). assert (F2 := find_item_NoDup _ _ (cf_attrs _ _ _ F) Hi). rewrite E, F2 in F1. now injection F1. }
  assert (Htag : In (e_tag k) (tags_for W d it)).
  { unfold tags_for. apply in_flat_map. exists id. split; [exact Hin|]. rewrite G, Ht. now apply (in_map (fun c => ns_get d id ++ u (tag_of W c))). }
  assert (Hr' : forall j, In j (items_of W c) -> try_nsids (fun n => get_kwarg W strict j a tx (map (kid_reader W strict) (bf ++ k :: af)) n d) d (it_nsids j) = Ok (r' j)).
  { intros j Hj. unfold r'. destruct (String.eqb_spec (it_attr j) (it_attr it)) as [E|N].
    - apply (Uniq j Hj) in E. subst j. destruct (it_nsids it) as [|i0 ids]; [discriminate Hid|]. injection Hid as ->. cbn [try_nsids]. unfold get_kwarg. rewrite G, Hl'. reflexivity.
    - rewrite <- (Hr j Hj). apply try_nsids_same. intros i Hi'. apply kwarg_same; [exact Hi'| |auto]. intros tg Htg. apply with_tag_pasted. intros <-. apply N. f_equal.
      exact (one_registration W c ci d (e_tag k) j it HW Hc Hg Hj Hi Htg Htag). }
  assert (Ex : exists v', construct W c ns d (kw_of r' (items_of W c)) = Ok v').
  { refine (construct_ok W c ci ns d r r' _ _ Hc H0 _ _).
    - intros j Hj. unfold r'. destruct (String.eqb_spec (it_attr j) (it_attr it)) as [E|N]; [|tauto]. apply (Uniq j Hj) in E. subst j. rewrite Q. split; discriminate.
    - intros [nm kd] Hak y Hy. assert (Kw : forall m, m <> it_attr it -> kwget (kw_of r' (items_of W c)) m = kwget (kw_of r (items_of W c)) m).
      { intros m Nm. unfold kwget. rewrite !kw_of_get by apply (cf_attrs _ _ _ F). destruct (find_item m (items_of W c)) as [j|] eqn:Ej; [|reflexivity]. apply find_item_In in Ej as [_ Ej]. unfold r'. destruct (String.eqb_spec (it_attr j) (it_attr it)); [congruence|reflexivity]. }
      assert (Trk : is_track ci = true -> ~ In (it_attr it) ["whens"; "coords"; "angles"]).
      { intros S0 S2. assert (Htk := cf_track _ _ _ F). unfold track_ok in Htk. rewrite S0 in Htk. rewrite !andb_true_iff in Htk. destruct Htk as [[[[[_ T1] T2] T3] _] _]. assert (Fi := find_item_NoDup _ _ (cf_attrs _ _ _ F) Hi).
        destruct S2 as [Hm|[Hm|[Hm|[]]]]; [destruct (find_setter _ _ _ T1) as [i [Hf Hs]]|destruct (find_setter _ _ _ T2) as [i [Hf Hs]]|destruct (find_setter _ _ _ T3) as [i [Hf Hs]]];
          rewrite <- Hm in Fi; rewrite Fi in Hf; injection Hf as <-; rewrite Hs in Hp; rewrite G in Hp; discriminate. }
      assert (Kd := cf_kind _ _ _ F (nm, kd) Hak). destruct Kd as [Hko _]. cbn [fst snd] in Hko.
      destruct (String.eqb_spec nm (it_attr it)) as [->|N].
      + assert (Fi := find_item_NoDup _ _ (cf_attrs _ _ _ F) Hi). rewrite Fi in Hko. unfold mk_attr in Hy |- *. assert (K' : kwget (kw_of r' (items_of W c)) (it_attr it) = VList (l1 ++ x :: l2)).
        { unfold kwget. rewrite kw_of_get by apply (cf_attrs _ _ _ F). rewrite Fi. unfold r'. now rewrite String.eqb_refl. }
        assert (K0 : kwget (kw_of r (items_of W c)) (it_attr it) = VList (l1 ++ l2)).
        { unfold kwget. rewrite kw_of_get by apply (cf_attrs _ _ _ F). now rewrite Fi, Q. }
        rewrite K'. rewrite K0 in Hy. rewrite G in Hp. destruct (it_set it) eqn:Es; try discriminate Hp.
        destruct kd; cbn [ckind_ok] in Hko; rewrite ?Es in Hko; try discriminate Hko; cbn [bind]; try now eexists.
        apply bind_ok in Hy as [w [Hw _]]. apply bind_ok in Hw as [q [Hq _]]. destruct (filter_true_insert _ _ x _ _ _ Hq Hb) as [q' ->]. cbn [bind]. now eexists.
      + exists y. rewrite <- Hy. unfold mk_attr. rewrite (Kw nm N). destruct kd; try reflexivity.
        assert (T : is_track ci = true).
        { assert (T := cf_track _ _ _ F). unfold track_ok in T. destruct (is_track ci); [reflexivity|]. rewrite forallb_forall in T. now specialize (T _ Hak). }
        rewrite !Kw; [reflexivity| | |]; intro E; apply (Trk T); rewrite <- E; cbn; tauto. }
  destruct Ex as [v' Hv'].
  assert (H' : from_element W strict (Elem t a tx (bf ++ k :: af)) c ns nss = Ok v').
  { cbn [from_element]. unfold read_with. cbv zeta. fold d. change (fun k0 : elem => (k0, from_element W strict k0)) with (kid_reader W strict).
    rewrite (get_kwargs_spec W strict (items_of W c) a tx _ d r' [] Hr'); [exact Hv'|exact (cf_attrs _ _ _ F)]. }
  destruct (read_differs W strict t t a a tx tx _ _ c ns nss _ _ HW H H') as [q [q' [at0 [attrs' [ci' [E0 [E1 [Ec [Hq [Hq' [_ [Sl Sb]]]]]]]]]]]]. rewrite Hc in Ec. injection Ec as <-. injection E0 as <-. fold d in E1, Hq, Hq', Sl, Sb.
  assert (Rq : forall j, In j (items_of W c) -> q j = r j) by (intros j Hj; assert (E := Hq j Hj); rewrite (Hr j Hj) in E; now injection E).
  assert (Rq' : forall j, In j (items_of W c) -> q' j = r' j) by (intros j Hj; assert (E := Hq' j Hj); rewrite (Hr' j Hj) in E; now injection E).
  assert (Ri : r' it = Some (VList (l1 ++ x :: l2))) by (unfold r'; now rewrite String.eqb_refl).
  destruct (Sl it Hi G (l1 ++ l2) (l1 ++ x :: l2)) as [S1 S2]; [now rewrite Rq|now rewrite Rq'|].
  exists attrs'.
  assert (Other : forall n, n <> it_attr it -> sget n attrs' = sget n attrs).
  { intros n Nn. symmetry. apply Sb. intros j Hj Lj. rewrite Rq, Rq' by exact Hj. unfold r'. destruct (String.eqb_spec (it_attr j) (it_attr it)) as [E|]; [|reflexivity]. exfalso.
    destruct Lj as [Lj|[S0 [_ S3]]]; [congruence|]. apply (Uniq j Hj) in E. subst j.
    assert (Htk := cf_track _ _ _ F). unfold track_ok in Htk. rewrite S0 in Htk. rewrite !andb_true_iff in Htk. destruct Htk as [[[[[_ T1] T2] T3] _] _]. assert (Fi := find_item_NoDup _ _ (cf_attrs _ _ _ F) Hi).
    destruct S3 as [Hm|[Hm|[Hm|[]]]]; [destruct (find_setter _ _ _ T1) as [i [Hf Hs]]|destruct (find_setter _ _ _ T2) as [i [Hf Hs]]|destruct (find_setter _ _ _ T3) as [i [Hf Hs]]];
      rewrite <- Hm in Fi; rewrite Fi in Hf; injection Hf as <-; rewrite Hs in Hp; rewrite G in Hp; discriminate. }
  unfold kept in S1, S2. destruct (ckind_of ci (it_attr it)) as [[]|];
    try (exists l1, [x], l2; split; [now rewrite H', E1|]; split; [exact Other|]; split; [exact S1|]; split; [exact S2|now left]).
  exists (filter (truth W) l1), (filter (truth W) [x]), (filter (truth W) l2). split; [now rewrite H', E1|]. split; [exact Other|]. rewrite filter_app in S1. split; [exact S1|].
  split; [rewrite S2, filter_app; cbn [filter]; now destruct (truth W x)|]. cbn [filter]. assert (Tb := truth_ok _ _ _ Hb). rewrite Tb. destruct b; [now left|right; auto].
Qed.
