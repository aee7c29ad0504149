(** * Damage to one element costs at most what is read from it: C63. *)
From Coq Require Import String List NArith ZArith Bool Lia.
From Verif Require Import Ustr UstrProofs Res PyInt PyFloat PyDate Elem Value Geom Codec Spec EmitProofs CodecProofs ReadProofs RoundTrip NsProofs SettledProofs ReaderTyped Agree AgreeProofs CtorProofs AbsentProofs Outcome DamageSpec.
Import ListNotations.
Local Open Scope string_scope.
Local Open Scope list_scope.

Lemma damaged_tag path e e' : damaged path e e' -> e_tag e = e_tag e'.
Proof. intro H. now destruct H. Qed.

(** ** Registrations that look for other things *)

Lemma try_nsids_same (f f' : ustr -> res (option value)) nss ids : (forall id, In id ids -> f (ns_get nss id) = f' (ns_get nss id)) ->
  try_nsids f nss ids = try_nsids f' nss ids.
Proof.
  induction ids as [|id ids IH]; intro H; [reflexivity|]. cbn [try_nsids]. rewrite (H id (or_introl eq_refl)). destruct (f' (ns_get nss id)) as [[v|]|]; cbn [bind]; try reflexivity.
  apply IH. intros. apply H. now right.
Qed.

Lemma with_tag_other tag bf x x' af : e_tag x = e_tag x' -> tag <> e_tag x -> with_tag tag (bf ++ x :: af) = with_tag tag (bf ++ x' :: af).
Proof.
  intros E N. unfold with_tag. rewrite !filter_app. cbn [filter]. rewrite <- E. destruct (ueqb (e_tag x) tag) eqn:Q; [apply ueqb_eq in Q; congruence|reflexivity].
Qed.

Lemma with_tag_same bf x x' af : e_tag x = e_tag x' ->
  exists b a, with_tag (e_tag x) (bf ++ x :: af) = b ++ x :: a /\ with_tag (e_tag x) (bf ++ x' :: af) = b ++ x' :: a.
Proof.
  intro E. unfold with_tag. rewrite !filter_app. cbn [filter]. rewrite <- E, ueqb_refl.
  exists (filter (fun k => ueqb (e_tag k) (e_tag x)) bf), (filter (fun k => ueqb (e_tag k) (e_tag x)) af). auto.
Qed.

Lemma find_kid_hd W strict tag ks : find_kid tag (map (kid_reader W strict) ks) = option_map (kid_reader W strict) (hd_error (with_tag tag ks)).
Proof. induction ks as [|k ks IH]; [reflexivity|]. cbn. destruct (ueqb (e_tag k) tag); [reflexivity|exact IH]. Qed.

Section Same.
  Variables (W : world) (strict : bool) (nss : nss_t) (ks ks' : list elem).

  Lemma read_obj_same n cs : (forall c, In c cs -> with_tag (n ++ u (tag_of W c)) ks = with_tag (n ++ u (tag_of W c)) ks') ->
    read_obj W (map (kid_reader W strict) ks) n nss cs = read_obj W (map (kid_reader W strict) ks') n nss cs.
  Proof.
    induction cs as [|c cs IH]; intro H; [reflexivity|]. cbn [read_obj]. destruct (class_tag W c) as [tag|] eqn:Et; [|reflexivity]. cbn [bind].
    apply class_tag_of in Et. subst tag. rewrite !find_kid_hd, (H c (or_introl eq_refl)), IH by (intros; apply H; now right). reflexivity.
  Qed.

  Lemma read_objs_same n cs : (forall c, In c cs -> with_tag (n ++ u (tag_of W c)) ks = with_tag (n ++ u (tag_of W c)) ks') ->
    read_objs W (map (kid_reader W strict) ks) n nss cs = read_objs W (map (kid_reader W strict) ks') n nss cs.
  Proof.
    intro H. unfold read_objs. f_equal. induction cs as [|c cs IH]; [reflexivity|]. cbn [map_res]. rewrite IH by (intros; apply H; now right).
    destruct (class_tag W c) as [tag|] eqn:Et; [|reflexivity]. cbn [bind]. apply class_tag_of in Et. subst tag. now rewrite !find_kids_with, (H c (or_introl eq_refl)).
  Qed.

  Lemma kwarg_same it a a' x id : In id (it_nsids it) ->
    (forall tag, In tag (tags_for W nss it) -> with_tag tag ks = with_tag tag ks') ->
    (forall key, In key (keys_for nss it) -> uget key a = uget key a') ->
    get_kwarg W strict it a x (map (kid_reader W strict) ks) (ns_get nss id) nss = get_kwarg W strict it a' x (map (kid_reader W strict) ks') (ns_get nss id) nss.
  Proof.
    intros Hid Ht Hk.
    assert (T : forall tag, In tag (match it_get it with
      | GNodeText | GCoords | GAttrText | GAttrInt | GAttrFloat | GAttrEnum => []
      | GObj | GObjs => map (fun c => ns_get nss id ++ u (tag_of W c)) (it_classes it)
      | _ => [ns_get nss id ++ u (it_node it)] end) -> with_tag tag ks = with_tag tag ks').
    { intros tag H. apply Ht. unfold tags_for. apply in_flat_map. exists id. auto. }
    assert (K : forall key, In key (match it_get it with GAttrText | GAttrInt | GAttrFloat | GAttrEnum => [ns_get nss id ++ u (it_node it)] | _ => [] end) -> uget key a = uget key a').
    { intros key H. apply Hk. unfold keys_for. apply in_flat_map. exists id. auto. }
    unfold get_kwarg. rewrite !find_kid_hd, !find_kids_with.
    destruct (it_get it); try reflexivity; try (rewrite (T _ (or_introl eq_refl)); reflexivity); try (rewrite (K _ (or_introl eq_refl)); reflexivity).
    - apply read_obj_same. intros c Hc. apply T. now apply (in_map (fun c => ns_get nss id ++ u (tag_of W c))).
    - rewrite read_objs_same; [reflexivity|]. intros c Hc. apply T. now apply (in_map (fun c => ns_get nss id ++ u (tag_of W c))).
  Qed.
End Same.

(** ** Where objects end up *)

Definition kept (W : world) (ci : class_info) (it : item) (l : list value) : list value :=
  match ckind_of ci (it_attr it) with Some CFilter => filter (truth W) l | _ => l end.

Lemma read_stored W c ci r attrs it : world_ok W = true -> class_of W c = Some ci -> In it (items_of W c) ->
  (forall b, kwget (kw_of r (items_of W c)) b = match find_item b (items_of W c) with Some it => match r it with Some w => w | None => VNone end | None => VNone end) ->
  (forall b, match ckind_of ci b with
      | Some k => exists y, mk_attr W (kw_of r (items_of W c)) (b, k) = Ok (b, y) /\ sget b attrs = Some y
      | None => sget b attrs = if mem b (ci_params ci) then None else match find_item b (items_of W c) with Some it => r it | None => None end
      end) ->
  (it_get it = GObj -> forall y, r it = Some y -> sget (it_attr it) attrs = Some y) /\
  (it_get it = GObjs -> forall l, r it = Some (VList l) -> sget (it_attr it) attrs = Some (VList (kept W ci it l))).
Proof.
  intros HW Hc Hi Hkw Hat. assert (F := world_class _ _ _ HW Hc). assert (Hok := cf_items _ _ _ F it Hi).
  assert (Fi := find_item_NoDup _ _ (cf_attrs _ _ _ F) Hi). specialize (Hat (it_attr it)).
  unfold item_ok in Hok. rewrite !andb_true_iff in Hok. destruct Hok as [[[Hp _] _] _].
  destruct (ckind_of ci (it_attr it)) as [k|] eqn:Ek.
  - destruct Hat as [y [Hm ->]]. unfold mk_attr in Hm. rewrite Hkw, Fi in Hm. apply bind_ok in Hm as [w [Hw E]]. injection E as ->.
    destruct (cf_kind _ _ _ F (it_attr it, k) (sget_In _ _ _ Ek)) as [Hko _]. cbn [fst snd] in Hko. rewrite Fi in Hko. split; intro G; rewrite G in Hp; destruct (it_set it) eqn:Es; try discriminate Hp.
    + intros y0 Ey. rewrite Ey in Hw. destruct k; cbn [ckind_ok] in Hko; rewrite ?Es in Hko; try discriminate Hko. now injection Hw as <-.
    + intros l El. rewrite El in Hw. unfold kept. rewrite Ek. destruct k; cbn [ckind_ok] in Hko; rewrite ?Es in Hko; try discriminate Hko; try (now injection Hw as <-).
      apply bind_ok in Hw as [rr [Hf Hw]]. injection Hw as <-. now rewrite (filter_true_fun _ _ _ Hf).
  - rewrite Fi in Hat. assert (Hpl := cf_placed _ _ _ F it Hi). unfold placed in Hpl. destruct (mem (it_attr it) (ci_params ci)); [|unfold kept; rewrite Hat, Ek; auto].
    assert (X : ~ (it_get it = GObj \/ it_get it = GObjs)); [|split; intro G; exfalso; apply X; auto]. intro G. apply orb_prop in Hpl as [Hpl|Hpl].
    + rewrite existsb_exists in Hpl. destruct Hpl as [[b k] [Hb E]]. apply String.eqb_eq in E. cbn in E. subst b. unfold ckind_of in Ek. now rewrite (sget_NoDup _ _ _ (cf_ctor _ _ _ F) Hb) in Ek.
    + apply andb_prop in Hpl as [Ht Hm]. assert (Htk := cf_track _ _ _ F). unfold track_ok in Htk. rewrite Ht in Htk. rewrite !andb_true_iff in Htk. destruct Htk as [[[[[_ T1] T2] T3] _] _].
      apply EmitProofs.mem_In in Hm. destruct Hm as [Hm|[Hm|[Hm|[]]]]; [destruct (find_setter _ _ _ T1) as [i [Hf Hs]]|destruct (find_setter _ _ _ T2) as [i [Hf Hs]]|destruct (find_setter _ _ _ T3) as [i [Hf Hs]]];
        rewrite <- Hm in Fi; rewrite Fi in Hf; injection Hf as <-; rewrite Hs in Hp; destruct G as [G|G]; rewrite G in Hp; discriminate.
Qed.

(** ** The attributes of both objects *)

Definition lands (ci : class_info) (it : item) (b : string) : Prop :=
  it_attr it = b \/ (is_track ci = true /\ b = "track_items" /\ In (it_attr it) ["whens"; "coords"; "angles"]).

Theorem read_differs W strict t t' a a' x x' ks ks' c ns nss v v' : world_ok W = true ->
  from_element W strict (Elem t a x ks) c ns nss = Ok v -> from_element W strict (Elem t' a' x' ks') c ns nss = Ok v' ->
  exists r r' attrs attrs' ci, v = VObj c ns (merge_ns nss) attrs /\ v' = VObj c ns (merge_ns nss) attrs' /\ class_of W c = Some ci /\
    (forall it, In it (items_of W c) ->
       try_nsids (fun n => get_kwarg W strict it a x (map (kid_reader W strict) ks) n (merge_ns nss)) (merge_ns nss) (it_nsids it) = Ok (r it)) /\
    (forall it, In it (items_of W c) ->
       try_nsids (fun n => get_kwarg W strict it a' x' (map (kid_reader W strict) ks') n (merge_ns nss)) (merge_ns nss) (it_nsids it) = Ok (r' it)) /\
    (forall it, In it (items_of W c) -> it_get it = GObj -> forall y y', r it = Some y -> r' it = Some y' -> sget (it_attr it) attrs = Some y /\ sget (it_attr it) attrs' = Some y') /\
    (forall it, In it (items_of W c) -> it_get it = GObjs -> forall l l', r it = Some (VList l) -> r' it = Some (VList l') ->
       sget (it_attr it) attrs = Some (VList (kept W ci it l)) /\ sget (it_attr it) attrs' = Some (VList (kept W ci it l'))) /\
    forall b, (forall it, In it (items_of W c) -> lands ci it b -> r it = r' it) -> sget b attrs = sget b attrs'.
Proof.
  intros HW H H'. destruct (read_attrs _ _ _ _ _ _ _ _ _ _ HW H) as [ci [r [attrs [Hc [-> [Hr [Hk Ha]]]]]]].
  destruct (read_attrs _ _ _ _ _ _ _ _ _ _ HW H') as [ci' [r' [attrs' [Hc' [-> [Hr' [Hk' Ha']]]]]]]. rewrite Hc in Hc'. injection Hc' as <-.
  exists r, r', attrs, attrs', ci. do 2 (split; [reflexivity|]). split; [exact Hc|]. split; [exact Hr|]. split; [exact Hr'|].
  assert (St := fun it Hi => read_stored W c ci r attrs it HW Hc Hi Hk Ha). assert (St' := fun it Hi => read_stored W c ci r' attrs' it HW Hc Hi Hk' Ha').
  split; [intros it Hi G y y' Ey Ey'; split; [exact (proj1 (St it Hi) G y Ey)|exact (proj1 (St' it Hi) G y' Ey')]|].
  split; [intros it Hi G l l' El El'; split; [exact (proj2 (St it Hi) G l El)|exact (proj2 (St' it Hi) G l' El')]|].
  intros b S. assert (F := world_class _ _ _ HW Hc).
  assert (Kb : forall b', (b' = b \/ (is_track ci = true /\ b = "track_items" /\ In b' ["whens"; "coords"; "angles"])) -> kwget (kw_of r (items_of W c)) b' = kwget (kw_of r' (items_of W c)) b').
  { intros b' Hb. rewrite Hk, Hk'. destruct (find_item b' (items_of W c)) as [it|] eqn:Ef; [|reflexivity]. apply find_item_In in Ef as [Hi Ei].
    rewrite (S it Hi); [reflexivity|]. unfold lands. rewrite Ei. destruct Hb as [->|Hb]; auto. }
  specialize (Ha b). specialize (Ha' b). destruct (ckind_of ci b) as [k|] eqn:Ek.
  - destruct Ha as [y [Hy ->]]. destruct Ha' as [y' [Hy' ->]]. f_equal. cut (mk_attr W (kw_of r (items_of W c)) (b, k) = mk_attr W (kw_of r' (items_of W c)) (b, k)); [congruence|].
    unfold mk_attr. rewrite (Kb b (or_introl eq_refl)). destruct k; try reflexivity.
    assert (Eb : is_track ci = true /\ b = "track_items").
    { assert (T := cf_track _ _ _ F). unfold track_ok in T. apply sget_In in Ek. destruct (is_track ci).
      - rewrite !andb_true_iff in T. destruct T as [[_ T] _]. rewrite forallb_forall in T. specialize (T _ Ek). cbn [fst snd] in T. rewrite orb_false_r in T. split; [reflexivity|]. now apply String.eqb_eq in T.
      - rewrite forallb_forall in T. now specialize (T _ Ek). }
    rewrite (Kb "whens"), (Kb "coords"), (Kb "angles") by (right; split; [apply Eb|split; [apply Eb|cbn; tauto]]). reflexivity.
  - rewrite Ha, Ha'. destruct (mem b (ci_params ci)); [reflexivity|]. destruct (find_item b (items_of W c)) as [it|] eqn:Ef; [|reflexivity]. apply find_item_In in Ef as [Hi Ei].
    apply S; [exact Hi|]. now left.
Qed.

(** ** One child damaged *)

Section Child.
  Variables (W : world) (strict : bool) (nss : nss_t) (bf af : list elem) (x x' : elem).
  Hypothesis Hx : e_tag x = e_tag x'.
  Let ks := bf ++ x :: af.
  Let ks' := bf ++ x' :: af.

  (** An object read from the damaged child, before and after. *)
  Definition from_child (v v' : value) : Prop := exists c n, from_element W strict x c n nss = Ok v /\ from_element W strict x' c n nss = Ok v'.

  Lemma hd_with_tag tag : (hd_error (with_tag tag ks) = hd_error (with_tag tag ks')) \/ (hd_error (with_tag tag ks) = Some x /\ hd_error (with_tag tag ks') = Some x').
  Proof.
    destruct (ueqb tag (e_tag x)) eqn:E.
    - apply ueqb_eq in E. subst tag. unfold ks, ks'. destruct (with_tag_same bf x x' af Hx) as [b [a [-> ->]]]. destruct b; [right|left]; auto.
    - left. unfold ks, ks'. rewrite (with_tag_other tag bf x x' af Hx); [reflexivity|]. intro Q. rewrite Q, ueqb_refl in E. discriminate.
  Qed.

  Lemma obj_child n cs o o' : read_obj W (map (kid_reader W strict) ks) n nss cs = Ok o -> read_obj W (map (kid_reader W strict) ks') n nss cs = Ok o' ->
    o = o' \/ exists v v', o = Some v /\ o' = Some v' /\ from_child v v'.
  Proof.
    revert o o'. induction cs as [|c cs IH]; intros o o' H H'; cbn [read_obj] in *; [injection H as <-; injection H' as <-; now left|].
    destruct (class_tag W c) as [tag|]; [|discriminate H]. cbn [bind] in *. rewrite find_kid_hd in H, H'. destruct (hd_with_tag (n ++ tag)) as [E|[E E']].
    - rewrite E in H. destruct (hd_error (with_tag (n ++ tag) ks')) as [k|]; cbn [option_map snd] in *; [rewrite H in H'; left; congruence|exact (IH _ _ H H')].
    - rewrite E in H. rewrite E' in H'. cbn [option_map snd] in *. apply bind_ok in H as [v [Hv H]]. apply bind_ok in H' as [v' [Hv' H']]. injection H as <-. injection H' as <-.
      right. exists v, v'. split; [reflexivity|]. split; [reflexivity|]. now exists c, n.
  Qed.

  Lemma nsids_child it a tx ids o o' : it_get it = GObj ->
    try_nsids (fun n => get_kwarg W strict it a tx (map (kid_reader W strict) ks) n nss) nss ids = Ok o ->
    try_nsids (fun n => get_kwarg W strict it a tx (map (kid_reader W strict) ks') n nss) nss ids = Ok o' ->
    o = o' \/ exists v v', o = Some v /\ o' = Some v' /\ from_child v v'.
  Proof.
    intro G. revert o o'. induction ids as [|id ids IH]; intros o o' H H'; cbn [try_nsids] in *; [injection H as <-; injection H' as <-; now left|].
    apply bind_ok in H as [p [Hp H]]. apply bind_ok in H' as [p' [Hp' H']]. unfold get_kwarg in Hp, Hp'. rewrite G in Hp, Hp'.
    destruct (obj_child _ _ _ _ Hp Hp') as [<-|[v [v' [-> [-> Hc]]]]].
    - destruct p as [w|]; [injection H as <-; injection H' as <-; now left|exact (IH _ _ H H')].
    - injection H as <-. injection H' as <-. right. now exists v, v'.
  Qed.

  Lemma map_res_app_inv {A B} (f : A -> res B) l1 y l2 r : map_res f (l1 ++ y :: l2) = Ok r ->
    exists r1 z r2, r = r1 ++ z :: r2 /\ map_res f l1 = Ok r1 /\ f y = Ok z /\ map_res f l2 = Ok r2.
  Proof.
    revert r. induction l1 as [|w l1 IH]; intros r H; cbn [app map_res] in H.
    - apply bind_ok in H as [z [Hz H]]. apply bind_ok in H as [r2 [Hr H]]. injection H as <-. exists [], z, r2. auto.
    - apply bind_ok in H as [z [Hz H]]. apply bind_ok in H as [r2 [Hr H]]. injection H as <-. destruct (IH _ Hr) as [r1 [z' [r2' [-> [E1 [E2 E3]]]]]].
      exists (z :: r1), z', r2'. split; [reflexivity|]. split; [|auto]. cbn [map_res]. rewrite Hz, E1. reflexivity.
  Qed.

  Lemma class_child c n l l' tag : class_tag W c = Ok tag ->
    map_res (fun k : rkid => snd k c n nss) (find_kids (n ++ tag) (map (kid_reader W strict) ks)) = Ok l ->
    map_res (fun k : rkid => snd k c n nss) (find_kids (n ++ tag) (map (kid_reader W strict) ks')) = Ok l' ->
    (n ++ tag <> e_tag x /\ l = l') \/ (n ++ tag = e_tag x /\ exists l1 v v' l2, l = l1 ++ v :: l2 /\ l' = l1 ++ v' :: l2 /\ from_child v v').
  Proof.
    intros _ H H'. rewrite find_kids_with in H, H'. destruct (ueqb (n ++ tag) (e_tag x)) eqn:E.
    - apply ueqb_eq in E. rewrite E in H, H'. right. split; [exact E|]. destruct (with_tag_same bf x x' af Hx) as [b [a [Eb Ea]]].
      unfold ks in H. unfold ks' in H'. rewrite Eb in H. rewrite Ea in H'. rewrite map_app in H, H'. cbn [map] in H, H'.
      apply map_res_app_inv in H as [r1 [z [r2 [-> [E1 [E2 E3]]]]]]. apply map_res_app_inv in H' as [r1' [z' [r2' [-> [E1' [E2' E3']]]]]].
      rewrite E1 in E1'. injection E1' as <-. rewrite E3 in E3'. injection E3' as <-. exists r1, z, z', r2. split; [reflexivity|]. split; [reflexivity|]. exists c, n. auto.
    - left. assert (N : n ++ tag <> e_tag x) by (intro Q; rewrite Q, ueqb_refl in E; discriminate). split; [exact N|].
      unfold ks in H. unfold ks' in H'. rewrite (with_tag_other _ bf x x' af Hx N) in H. congruence.
  Qed.

  Lemma objs_child n cs l l' : NoDup (map (tag_of W) cs) ->
    read_objs W (map (kid_reader W strict) ks) n nss cs = Ok l -> read_objs W (map (kid_reader W strict) ks') n nss cs = Ok l' ->
    l = l' \/ exists l1 v v' l2, l = l1 ++ v :: l2 /\ l' = l1 ++ v' :: l2 /\ from_child v v'.
  Proof.
    intros Hd H H'. unfold read_objs in *. apply bind_ok in H as [ls [H E]]. injection E as <-. apply bind_ok in H' as [ls' [H' E]]. injection E as <-.
    revert ls ls' H H'. induction cs as [|c cs IH]; intros ls ls' H H'; cbn [map_res map] in *; [injection H as <-; injection H' as <-; now left|].
    inversion Hd as [|? ? Hn Hd']; subst. apply bind_ok in H as [l [Hl H]]. apply bind_ok in H as [r [Hr H]]. injection H as <-. apply bind_ok in H' as [l' [Hl' H']]. apply bind_ok in H' as [r' [Hr' H']]. injection H' as <-.
    apply bind_ok in Hl as [tag [Et Hl]]. rewrite Et in Hl'. cbn [bind] in Hl'. cbn [concat].
    destruct (class_child c n l l' tag Et Hl Hl') as [[N <-]|[N [l1 [v [v' [l2 [-> [-> Hc]]]]]]]].
    - destruct (IH Hd' _ _ Hr Hr') as [->|[l1 [v [v' [l2 [-> [-> Hc]]]]]]]; [now left|]. right. exists (l ++ l1), v, v', l2. rewrite !app_assoc. auto.
    - assert (Er : r = r').
      { clear IH. apply class_tag_of in Et. subst tag. revert r r' Hr Hr'. clear Hd Hl Hl' Hd'. induction cs as [|d cs IH]; intros r r' Hr Hr'; cbn [map_res map] in *; [congruence|].
        apply bind_ok in Hr as [m [Hm Hr]]. apply bind_ok in Hr as [q [Hq Hr]]. injection Hr as <-. apply bind_ok in Hr' as [m' [Hm' Hr']]. apply bind_ok in Hr' as [q' [Hq' Hr']]. injection Hr' as <-.
        apply bind_ok in Hm as [tag [Et Hm]]. rewrite Et in Hm'. cbn [bind] in Hm'. destruct (class_child d n m m' tag Et Hm Hm') as [[_ <-]|[N' _]].
        - f_equal. apply IH; auto. intro Q. apply Hn. now right.
        - exfalso. apply Hn. left. apply class_tag_of in Et. subst tag. rewrite <- N in N'. apply app_inv_head in N'. now apply u_inj in N'. }
      subst r'. right. exists l1, v, v', (l2 ++ concat r). rewrite <- !app_assoc. cbn [app]. auto.
  Qed.
End Child.

Lemma objs_first W strict nss ks it a tx o : it_get it = GObjs -> it_nsids it <> [] ->
  try_nsids (fun n => get_kwarg W strict it a tx (map (kid_reader W strict) ks) n nss) nss (it_nsids it) = Ok o ->
  exists id l, In id (it_nsids it) /\ hd_error (it_nsids it) = Some id /\ read_objs W (map (kid_reader W strict) ks) (ns_get nss id) nss (it_classes it) = Ok l /\ o = Some (VList l).
Proof.
  intros G N H. destruct (it_nsids it) as [|id ids]; [now destruct N|]. cbn [try_nsids] in H. apply bind_ok in H as [p [Hp H]]. unfold get_kwarg in Hp. rewrite G in Hp.
  apply bind_ok in Hp as [l [Hl Hp]]. injection Hp as <-. injection H as <-. exists id, l. split; [now left|]. auto.
Qed.

(** ** The theorem *)

Theorem damage_contained W strict path e e' : world_ok W = true -> damaged path e e' -> forall c ns nss v v',
  from_element W strict e c ns nss = Ok v -> from_element W strict e' c ns nss = Ok v' -> differs W path v v'.
Proof.
  intros HW H. induction H as [e e' _|tag a tx bf x x' af path Hd IH]; intros c ns nss v v' Hv Hv'; [constructor|].
  assert (Hx := damaged_tag _ _ _ Hd).
  destruct (read_differs W strict tag tag a a tx tx _ _ c ns nss v v' HW Hv Hv') as [r [r' [attrs [attrs' [ci [-> [-> [Hc [Hr [Hr' [So [Sl Sb]]]]]]]]]]]].
  assert (F := world_class _ _ _ HW Hc). constructor. intro b.
  (* an item stored in b that sees the damage, if there is one *)
  assert (D : (forall it, In it (items_of W c) -> lands ci it b -> r it = r' it) \/
              exists it, In it (items_of W c) /\ lands ci it b /\ In (e_tag x) (tags_for W (merge_ns nss) it)).
  { assert (D0 : forall its, incl its (items_of W c) -> (forall it, In it its -> lands ci it b -> r it = r' it) \/ exists it, In it its /\ lands ci it b /\ In (e_tag x) (tags_for W (merge_ns nss) it)).
    { induction its as [|it its IHi]; intro Hs; [left; intros ? []|]. destruct (IHi (fun z Hz => Hs z (or_intror Hz))) as [L|[j [Hj E]]]; [|right; exists j; split; [now right|exact E]].
      destruct (existsb (ueqb (e_tag x)) (tags_for W (merge_ns nss) it)) eqn:Ex.
      - apply existsb_exists in Ex as [t0 [Ht0 Et]]. apply ueqb_eq in Et. subst t0.
        destruct (String.eqb_spec (it_attr it) b) as [Eb|Nb]; [right; exists it; split; [now left|]; split; [now left|exact Ht0]|].
        destruct (is_track ci && (String.eqb b "track_items" && mem (it_attr it) ["whens"; "coords"; "angles"])) eqn:Etr.
        + apply andb_prop in Etr as [E0 Etr]. apply andb_prop in Etr as [E1 E2]. apply String.eqb_eq in E1. apply EmitProofs.mem_In in E2. right. exists it. split; [now left|]. split; [right; auto|exact Ht0].
        + left. intros j [<-|Hj] St; [|now apply L]. exfalso. destruct St as [St|[S0 [S1 S2]]]; [contradiction|]. apply String.eqb_eq in S1. apply EmitProofs.mem_In in S2. rewrite S0, S1, S2 in Etr. discriminate.
      - left. intros j [<-|Hj] St; [|now apply L].
        assert (E : forall t0, In t0 (tags_for W (merge_ns nss) it) -> with_tag t0 (bf ++ x :: af) = with_tag t0 (bf ++ x' :: af)).
        { intros t0 Ht0. apply with_tag_other; [exact Hx|]. intros ->. assert (existsb (ueqb (e_tag x)) (tags_for W (merge_ns nss) it) = true); [|congruence]. apply existsb_exists. exists (e_tag x). split; [exact Ht0|apply ueqb_refl]. }
        assert (Hin := Hs it (or_introl eq_refl)). assert (Q : Ok (r it) = Ok (r' it)); [|now injection Q].
        rewrite <- (Hr it Hin), <- (Hr' it Hin). apply try_nsids_same. intros id Hid. apply kwarg_same; auto. }
    apply D0. intro; auto. }
  destruct D as [D|[it [Hi [St Ht]]]]; [left; now apply Sb|]. assert (Hok := cf_items _ _ _ F it Hi).
  assert (Hp : paired (it_get it) (it_set it) = true) by (unfold item_ok in Hok; rewrite !andb_true_iff in Hok; tauto).
  assert (Fi := find_item_NoDup _ _ (cf_attrs _ _ _ F) Hi).
  assert (Trk : (it_get it = GObj \/ it_get it = GObjs) -> it_attr it = b).
  { intro G. destruct St as [St|[S0 [S1 S2]]]; [exact St|]. exfalso. assert (Htk := cf_track _ _ _ F). unfold track_ok in Htk. rewrite S0 in Htk. rewrite !andb_true_iff in Htk. destruct Htk as [[[[[_ T1] T2] T3] _] _].
    destruct S2 as [Hm|[Hm|[Hm|[]]]]; [destruct (find_setter _ _ _ T1) as [i [Hf Hs]]|destruct (find_setter _ _ _ T2) as [i [Hf Hs]]|destruct (find_setter _ _ _ T3) as [i [Hf Hs]]];
        rewrite <- Hm in Fi; rewrite Fi in Hf; injection Hf as <-; rewrite Hs in Hp; destruct G as [G|G]; rewrite G in Hp; discriminate. }
  (* all that lands in b is read by this one registration, if it reads objects *)
  assert (One : (it_get it = GObj \/ it_get it = GObjs) -> r it = r' it -> sget b attrs = sget b attrs').
  { intros G Q. apply Sb. intros j Hj Sj. assert (Eb := Trk G). destruct Sj as [Ej|[S0 [S1 S2]]].
    - rewrite <- Eb in Ej. assert (Fj := find_item_NoDup _ _ (cf_attrs _ _ _ F) Hj). rewrite Ej, Fi in Fj. now injection Fj as <-.
    - exfalso. assert (Htk := cf_track _ _ _ F). unfold track_ok in Htk. rewrite S0 in Htk. rewrite !andb_true_iff in Htk. destruct Htk as [[[[[T0 _] _] _] _] _].
      apply existsb_exists in T0 as [[b0 k0] [Hb0 T0]]. cbn [fst snd] in T0. apply andb_prop in T0 as [E0 Ek0]. apply String.eqb_eq in E0. subst b0. destruct k0; try discriminate Ek0.
      destruct (cf_kind _ _ _ F _ Hb0) as [Hko _]. cbn [fst snd] in Hko. rewrite <- S1, <- Eb, Fi in Hko. discriminate Hko. }
  assert (Gd : {it_get it = GObj} + {it_get it = GObjs} + {it_get it <> GObj /\ it_get it <> GObjs}).
  { destruct (it_get it); try (right; split; discriminate); left; [left|right]; reflexivity. }
  assert (Sd : stored_in it b) by (destruct St as [St|[_ St]]; [left|right]; assumption).
  destruct Gd as [[G|G]|[G1 G2]].
  - destruct (nsids_child _ _ _ _ _ _ _ Hx _ _ _ _ _ _ G (Hr it Hi) (Hr' it Hi)) as [Q|[y [y' [Q [Q' [d [n [Hy Hy']]]]]]]]; [left; apply One; auto|].
    right. exists it. do 3 (split; [assumption|]). split; [|intro G'; rewrite G in G'; discriminate]. intros _. exists y, y'. rewrite <- (Trk (or_introl G)).
    destruct (So it Hi G _ _ Q Q') as [-> ->]. do 2 (split; [reflexivity|]). exact (IH _ _ _ _ _ Hy Hy').
  - assert (Nz : it_nsids it <> []) by (intro Z; unfold tags_for in Ht; rewrite Z in Ht; destruct Ht).
    destruct (objs_first _ _ _ _ _ _ _ _ G Nz (Hr it Hi)) as [id [l [_ [Hid [Hl Q]]]]]. destruct (objs_first _ _ _ _ _ _ _ _ G Nz (Hr' it Hi)) as [id' [l' [_ [Hid' [Hl' Q']]]]].
    rewrite Hid in Hid'. injection Hid' as <-.
    assert (Nd : NoDup (map (tag_of W) (it_classes it))).
    { assert (Nn := SettledProofs.item_names_nodup W it _ Hi (cf_names _ _ _ F)). unfold item_names in Nn. rewrite G in Hp. destruct (it_set it); try discriminate Hp. exact Nn. }
    destruct (objs_child _ _ _ _ _ _ _ Hx _ _ _ _ Nd Hl Hl') as [<-|[l1 [y [y' [l2 [-> [-> [d [n [Hy Hy']]]]]]]]]]; [left; apply One; [auto|now rewrite Q, Q']|].
    right. exists it. do 3 (split; [assumption|]). split; [intro G'; rewrite G in G'; discriminate|]. intros _. rewrite <- (Trk (or_intror G)).
    destruct (Sl it Hi G _ _ Q Q') as [-> ->]. unfold kept. assert (Dy := IH _ _ _ _ _ Hy Hy').
    assert (Flat : forall f : value -> bool, exists m1 o o' m2, filter f (l1 ++ y :: l2) = m1 ++ o ++ m2 /\ filter f (l1 ++ y' :: l2) = m1 ++ o' ++ m2 /\ length o <= 1 /\ length o' <= 1 /\
       (forall z z', o = [z] -> o' = [z'] -> z = y /\ z' = y')).
    { intro f. exists (filter f l1), (filter f [y]), (filter f [y']), (filter f l2). rewrite !filter_app. cbn [filter].
      split; [now destruct (f y)|]. split; [now destruct (f y')|]. split; [destruct (f y); cbn; auto|]. split; [destruct (f y'); cbn; auto|].
      intros z z' E E'. destruct (f y); [|discriminate]. destruct (f y'); [|discriminate]. injection E as <-. now injection E' as <-. }
    destruct (ckind_of ci (it_attr it)) as [[]|];
      try (exists l1, [y], [y'], l2; do 2 (split; [reflexivity|]); do 2 (split; [cbn; auto|]); intros z z' E E'; injection E as <-; injection E' as <-; exact Dy).
    destruct (Flat (truth W)) as [m1 [o [o' [m2 [-> [-> [L [L' Z]]]]]]]]. exists m1, o, o', m2. do 4 (split; [auto|]). intros z z' E E'. destruct (Z _ _ E E') as [-> ->]. exact Dy.
  - right. exists it. do 3 (split; [assumption|]). split; intro G; contradiction.
Qed.

(** ** One XML attribute, or the text, damaged *)

Lemma lands_stored ci it b : lands ci it b -> stored_in it b.
Proof. intros [H|[_ H]]; [left|right]; assumption. Qed.

Theorem attribute_contained W strict key tag a a' tx ks c ns nss v v' : world_ok W = true ->
  (forall k, k <> key -> uget k a = uget k a') ->
  from_element W strict (Elem tag a tx ks) c ns nss = Ok v -> from_element W strict (Elem tag a' tx ks) c ns nss = Ok v' ->
  exists attrs attrs', v = VObj c ns (merge_ns nss) attrs /\ v' = VObj c ns (merge_ns nss) attrs' /\
    forall b, (forall it, In it (items_of W c) -> stored_in it b -> ~ In key (keys_for (merge_ns nss) it)) -> sget b attrs = sget b attrs'.
Proof.
  intros HW Hk Hv Hv'. destruct (read_differs _ _ _ _ _ _ _ _ _ _ _ _ _ _ _ HW Hv Hv') as [r [r' [attrs [attrs' [ci [-> [-> [Hc [Hr [Hr' [_ [_ Sb]]]]]]]]]]]].
  exists attrs, attrs'. do 2 (split; [reflexivity|]). intros b N. apply Sb. intros it Hi Hl. specialize (N it Hi (lands_stored _ _ _ Hl)).
  assert (Q : Ok (r it) = Ok (r' it)); [|now injection Q]. rewrite <- (Hr it Hi), <- (Hr' it Hi). apply try_nsids_same. intros id Hid. apply kwarg_same; auto.
  intros k Hin. apply Hk. intros ->. contradiction.
Qed.

(** ** A tag is looked for by one registration *)

Lemma shared_name {A} (names : A -> list string) its i j nm : NoDup (concat (map names its)) -> In i its -> In j its -> In nm (names i) -> In nm (names j) -> i = j.
Proof.
  induction its as [|k its IH]; [intros _ []|]. cbn [map concat]. intros Hd Hi Hj Ni Nj.
  assert (Dis : In nm (names k) -> ~ In nm (concat (map names its))).
  { clear -Hd. induction (names k) as [|z l IHl]; [intros []|]. cbn in Hd. inversion Hd as [|? ? H1 H2]; subst. intros [->|Hy]; [|now apply IHl]. intro. apply H1. apply in_or_app. now right. }
  assert (Mem : forall q, In q its -> In nm (names q) -> In nm (concat (map names its))) by (intros q Hq Nq; apply in_concat; exists (names q); split; [now apply in_map|exact Nq]).
  destruct Hi as [<-|Hi], Hj as [<-|Hj]; try reflexivity.
  - destruct (Dis Ni). now apply (Mem j).
  - destruct (Dis Nj). now apply (Mem i).
  - apply IH; auto. now apply NoDup_app_remove_l in Hd.
Qed.

Lemma tags_named W nss it tag : item_ok W it = true -> In tag (tags_for W nss it) -> exists id nm, tag = ns_get nss id ++ u nm /\ In nm (item_names W it) /\ good_name (u nm) = true.
Proof.
  intros Ho H. unfold tags_for in H. apply in_flat_map in H as [id [_ H]]. unfold item_ok in Ho. rewrite !andb_true_iff in Ho. destruct Ho as [[[Hp Hg] _] _]. rewrite forallb_forall in Hg.
  assert (X : exists nm, tag = ns_get nss id ++ u nm /\ In nm (item_names W it)).
  { unfold item_names. destruct (it_get it), (it_set it); try discriminate Hp; try (destruct H; fail); try (destruct H as [<-|[]]; exists (it_node it); split; [reflexivity|now left]).
    all: apply in_map_iff in H as [c [<- Hc]]; exists (tag_of W c); split; [reflexivity|now apply in_map]. }
  destruct X as [nm [E Hn]]. exists id, nm. split; [exact E|]. split; [exact Hn|]. apply Hg. now right.
Qed.

Theorem one_registration W c ci nss tag it it' : world_ok W = true -> class_of W c = Some ci -> forallb (fun kv : string * ustr => good_ns (snd kv)) nss = true ->
  In it (items_of W c) -> In it' (items_of W c) -> In tag (tags_for W nss it) -> In tag (tags_for W nss it') -> it = it'.
Proof.
  intros HW Hc Hn Hi Hi' Ht Ht'. assert (F := world_class _ _ _ HW Hc).
  destruct (tags_named _ _ _ _ (cf_items _ _ _ F it Hi) Ht) as [id [nm [E [Nm Gm]]]]. destruct (tags_named _ _ _ _ (cf_items _ _ _ F it' Hi') Ht') as [id' [nm' [E' [Nm' Gm']]]].
  rewrite E in E'. apply tag_inj in E' as [_ E']; try (apply ns_get_good; exact Hn); try assumption. apply u_inj in E'. subst nm'.
  exact (shared_name _ _ _ _ _ (cf_names _ _ _ F) Hi Hi' Nm Nm').
Qed.
