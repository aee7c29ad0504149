(** * What is read is no larger than the document.  Lemmas for C69. *)
From Coq Require Import String List NArith ZArith Bool Lia.
From Verif Require Import Ustr UstrProofs Res PyInt PyFloat PyDate Elem Value Geom Codec Spec EmitProofs CodecProofs ReadProofs RoundTrip NsProofs SettledProofs ReaderTyped ValueProofs FoundProofs StrictProofs Agree AgreeProofs CtorProofs AbsentProofs DamageSpec DamageProofs LocalSpec LocalProofs SizeSpec.
Import ListNotations.
Local Open Scope string_scope.
Local Open Scope list_scope.

(** ** Counting *)

Definition sum {A} (w : A -> nat) (l : list A) : nat := list_sum (map w l).

Lemma sum_app {A} (w : A -> nat) l m : sum w (l ++ m) = sum w l + sum w m.
Proof. unfold sum. now rewrite map_app, list_sum_app. Qed.
Lemma sum_cons {A} (w : A -> nat) x l : sum w (x :: l) = w x + sum w l.
Proof. reflexivity. Qed.
Lemma sum_le {A} (w w' : A -> nat) l : (forall x, In x l -> w x <= w' x) -> sum w l <= sum w' l.
Proof. induction l as [|x l IH]; intro H; [apply le_n|]. rewrite !sum_cons. assert (H1 := H x (or_introl eq_refl)). assert (H2 := IH (fun y Hy => H y (or_intror Hy))). lia. Qed.
Lemma sum_filter {A} (w : A -> nat) p l : sum w (filter p l) <= sum w l.
Proof. induction l as [|x l IH]; [apply le_n|]. cbn [filter]. destruct (p x); rewrite ?sum_cons; lia. Qed.
Lemma sum_in {A} (w : A -> nat) x l : In x l -> w x <= sum w l.
Proof. induction l as [|y l IH]; [intros []|]. rewrite sum_cons. intros [->|H]; [lia|]. specialize (IH H). lia. Qed.
Lemma sum_concat {A} (w : A -> nat) ls : sum w (concat ls) = sum (sum w) ls.
Proof. induction ls as [|l ls IH]; [reflexivity|]. cbn [concat]. now rewrite sum_app, sum_cons, IH. Qed.
Lemma sum_plus {A} (w w' : A -> nat) l : sum (fun x => w x + w' x) l = sum w l + sum w' l.
Proof. induction l as [|x l IH]; [reflexivity|]. rewrite !sum_cons, IH. lia. Qed.
Lemma sum_zero {A} (w : A -> nat) l : (forall x, In x l -> w x = 0) -> sum w l = 0.
Proof. induction l as [|x l IH]; intro H; [reflexivity|]. rewrite sum_cons, (H x (or_introl eq_refl)), IH; [reflexivity|]. intros y Hy. apply H. now right. Qed.

(** If each [b] is hit by one [a] at most, what all hit is not more than there is. *)
Lemma hit_once {A B} (h : A -> B -> bool) (w : B -> nat) (as_ : list A) (bs : list B) : NoDup as_ ->
  (forall a a' b, In a as_ -> In a' as_ -> In b bs -> h a b = true -> h a' b = true -> a = a') ->
  sum (fun a => sum w (filter (h a) bs)) as_ <= sum w (filter (fun b => existsb (fun a => h a b) as_) bs).
Proof.
  intros Nd. induction bs as [|b bs IH]; intro U; [cbn [filter]; rewrite (sum_zero (fun a => sum w [])); [apply le_n|reflexivity]|].
  assert (IH' : sum (fun a => sum w (filter (h a) bs)) as_ <= sum w (filter (fun b => existsb (fun a => h a b) as_) bs)) by (apply IH; intros a a' b' Ha Ha' Hb; apply U; auto; now right).
  assert (E : sum (fun a => sum w (filter (h a) (b :: bs))) as_ = sum (fun a => if h a b then w b else 0) as_ + sum (fun a => sum w (filter (h a) bs)) as_).
  { rewrite <- sum_plus. unfold sum at 1 3. f_equal. apply map_ext. intro a. cbn [filter]. now destruct (h a b). }
  rewrite E. clear E. cbn [filter].
  assert (O : sum (fun a => if h a b then w b else 0) as_ <= if existsb (fun a => h a b) as_ then w b else 0).
  { assert (U' : forall a a', In a as_ -> In a' as_ -> h a b = true -> h a' b = true -> a = a') by (intros a a' Ha Ha'; apply U; auto; now left).
    clear IH IH' U. induction as_ as [|a l IHl]; [apply le_n|]. inversion Nd as [|? ? N1 N2]; subst. rewrite sum_cons. cbn [existsb]. destruct (h a b) eqn:Eh; cbn [orb].
    - rewrite (sum_zero _ l); [lia|]. intros a' Ha'. destruct (h a' b) eqn:Eh'; [|reflexivity]. destruct N1. rewrite (U' a a'); auto; [now left|now right].
    - apply IHl; [exact N2|]. intros a1 a2 H1 H2. apply U'; now right. }
  destruct (existsb (fun a => h a b) as_); rewrite ?sum_cons; lia.
Qed.

Lemma existsb_map {A B} (p : B -> bool) (m : A -> B) l : existsb p (map m l) = existsb (fun x => p (m x)) l.
Proof. induction l as [|x l IH]; [reflexivity|]. cbn. now rewrite IH. Qed.

(** ** One element *)

Lemma text_flat strict (o : option ustr) (f : ustr -> res value) v : match o with Some t => guarded strict (f t) | None => Ok None end = Ok (Some v) ->
  (forall t w, f t = Ok w -> plain w = true) -> plain v = true.
Proof. destruct o as [t|]; [|discriminate]. intros H P. apply ReaderTyped.guarded_some in H. exact (P _ _ H). Qed.
Lemma bind_flat {A} (r : res A) (f : A -> value) v : (let! z := r in Ok (f z)) = Ok v -> (forall z, plain (f z) = true) -> plain v = true.
Proof. intros H P. apply bind_ok in H as [z [_ H]]. injection H as <-. apply P. Qed.
Lemma bind_some_flat {A} (r : res A) (f : A -> option value) v : (let! z := r in Ok (f z)) = Ok (Some v) -> (forall z w, f z = Some w -> plain w = true) -> plain v = true.
Proof. intros H P. apply bind_ok in H as [z [_ H]]. injection H as H. exact (P _ _ H). Qed.
Lemma enum_flat strict c e t v : get_enum_value c e strict t = Ok v -> plain v = true.
Proof. unfold get_enum_value. intro H. apply bind_ok in H as [m [_ H]]. destruct (strict && negb (ueqb m t)); [discriminate|]. now injection H as <-. Qed.
Lemma bool_flat strict t v : get_boolean_value strict t = Ok v -> plain v = true.
Proof.
  unfold get_boolean_value. cbv zeta. intro H. destruct (ueqb _ _ || ueqb _ _); [now injection H as <-|]. destruct (ueqb _ _ || ueqb _ _); [now injection H as <-|].
  destruct strict; [discriminate|]. apply bind_ok in H as [? [_ H]]. now injection H as <-.
Qed.

Lemma clean_flat v w : clean_string v = Ok w -> plain w = true.
Proof. unfold clean_string. destruct v as [| | |s| | | | | | | |]; try discriminate; intro H; [now injection H as <-|]. destruct (uempty s); [now injection H as <-|]. injection H as <-. now destruct (uempty (strip s)). Qed.
Lemma names_each {A B} (names : A -> list B) l x : NoDup (concat (map names l)) -> In x l -> NoDup (names x).
Proof.
  induction l as [|y l IH]; [intros _ []|]. cbn [map concat]. intros Nd [->|H].
  - clear -Nd. induction (names x) as [|z m IHm]; [constructor|]. cbn in Nd. inversion Nd as [|? ? N1 N2]; subst. constructor; [|now apply IHm]. intro. apply N1. apply in_or_app. now left.
  - apply IH; [now apply NoDup_app_remove_l in Nd|exact H].
Qed.

(** Only the readers of objects yield objects. *)
Lemma kwarg_plain W strict it a tx (ks : list rkid) n nss v : get_kwarg W strict it a tx ks n nss = Ok (Some v) -> it_get it <> GObj -> it_get it <> GObjs -> plain v = true.
Proof.
  unfold get_kwarg. cbv zeta. intros H N1 N2. set (nt := match find_kid _ _ with Some k => _ | None => None end) in H. set (at_ := match uget _ _ with Some t => _ | None => None end) in H.
  clearbody nt at_. destruct (it_get it); try (now destruct N1); try (now destruct N2); clear N1 N2.
  - destruct (stripped tx); [now injection H as <-|discriminate].
  - destruct nt; [now injection H as <-|discriminate].
  - destruct at_; [now injection H as <-|discriminate].
  - rewrite bool_match in H. destruct (match it_classes it with ["bool"%string] => true | _ => false end); [|discriminate]. exact (text_flat _ _ _ _ H (bool_flat _)).
  - apply (text_flat _ _ _ _ H). intros t w Hw. now apply (bind_flat _ _ _ Hw).
  - destruct at_; [|discriminate]. apply bind_some_flat in H; [exact H|]. intros z w E. now injection E as <-.
  - apply (text_flat _ _ _ _ H). intros t w Hw. now apply (bind_flat _ _ _ Hw).
  - apply (text_flat _ _ _ _ H). intros t w Hw. now apply (bind_flat _ _ _ Hw).
  - unfold with_enum in H. destruct (it_classes it) as [|s [|]]; try discriminate H. destruct (sget s (w_enums W)) as [e|]; [|discriminate]. apply (text_flat _ _ _ _ H). intros t w. apply enum_flat.
  - unfold with_enum in H. destruct (it_classes it) as [|s [|]]; try discriminate H. destruct (sget s (w_enums W)) as [e|]; [|discriminate]. apply (text_flat _ _ _ _ H). intros t w. apply enum_flat.
  - apply (text_flat _ _ _ _ H). intros t w Hw. now apply (bind_flat _ _ _ Hw).
  - apply bind_some_flat in H; [exact H|]. intros z w E. destruct (nilb (concat z)); [discriminate|]. now injection E as <-.
  - apply bind_some_flat in H; [exact H|]. intros z w E. destruct (nilb (concat z)); [discriminate|]. now injection E as <-.
  - apply (text_flat _ _ _ _ H). intros t w Hw. now apply (bind_flat _ _ _ Hw).
Qed.

Section Held.
  Variables (W : world) (f : string -> ustr -> nat).
  Notation ob := (objects f).

  Lemma plain_none v : plain v = true -> ob v = 0.
  Proof. now destruct v. Qed.

  Lemma map_res_sum {A B} (r : A -> res B) (w : A -> nat) (w' : B -> nat) l m : map_res r l = Ok m -> (forall x y, In x l -> r x = Ok y -> w' y <= w x) -> sum w' m <= sum w l.
  Proof.
    revert m. induction l as [|x l IHl]; intros m H P; cbn [map_res] in H; [injection H as <-; apply le_n|].
    apply bind_ok in H as [y [Hy H]]. apply bind_ok in H as [q [Hq H]]. injection H as <-. rewrite !sum_cons. assert (H1 := P x y (or_introl eq_refl) Hy). assert (H2 := IHl q Hq (fun x' y' Hx' => P x' y' (or_intror Hx'))). lia.
  Qed.

  Definition held (kws : list (string * value)) : nat := sum (fun ax : string * value => ob (snd ax)) kws.

  Lemma held_sset a v l : held (sset a v l) <= ob v + held l.
  Proof.
    unfold held. induction l as [|[b x] l IHl]; cbn [sset]; [rewrite !sum_cons; cbn [snd]; lia|]. destruct (String.eqb a b); rewrite !sum_cons; cbn [snd]; lia.
  Qed.

  Lemma mk_attr_counted kws ak r : mk_attr W kws ak = Ok r -> ob (snd r) <= ob (kwget kws (fst ak)).
  Proof.
    destruct ak as [a k]. unfold mk_attr. cbn [fst]. set (v := kwget kws a). clearbody v. intro H. apply bind_ok in H as [y [Hr H]]. injection H as <-. cbn [snd].
    destruct k.
    - now injection Hr as <-.
    - rewrite (plain_none _ (clean_flat _ _ Hr)). apply Nat.le_0_l.
    - apply bind_ok in Hr as [t [_ Hr]]. destruct t; [|discriminate]. rewrite (plain_none _ (clean_flat _ _ Hr)). apply Nat.le_0_l.
    - apply bind_ok in Hr as [t [_ Hr]]. injection Hr as <-. destruct t; [apply le_n|apply Nat.le_0_l].
    - apply bind_ok in Hr as [t [_ Hr]]. injection Hr as <-. destruct t; [apply le_n|apply Nat.le_0_l].
    - destruct v; try discriminate Hr; injection Hr as <-; apply le_n.
    - destruct v; try discriminate Hr; injection Hr as <-; apply le_n.
    - destruct v as [| | | | | | | | | |l|]; try discriminate Hr; [injection Hr as <-; apply le_n|]. apply bind_ok in Hr as [q [Hf Hr]]. injection Hr as <-. cbn [objects]. fold (sum ob q) (sum ob l).
      revert q Hf. induction l as [|x l IHl]; intros q Hf; cbn [filter_true] in Hf; [injection Hf as <-; apply le_n|].
      apply bind_ok in Hf as [t [_ Hf]]. apply bind_ok in Hf as [q' [Hq Hf]]. injection Hf as <-. specialize (IHl q' Hq). destruct t; rewrite !sum_cons; lia.
    - apply bind_ok in Hr as [t [_ Hr]]. injection Hr as <-. destruct t; [apply le_n|apply Nat.le_0_l].
    - unfold build_track in Hr. apply bind_ok in Hr as [q1 [_ Hr]]. apply bind_ok in Hr as [q2 [_ Hr]]. apply bind_ok in Hr as [q3 [_ Hr]]. apply bind_ok in Hr as [q4 [_ Hr]].
      destruct (_ && _); [discriminate|]. destruct (_ && _ && _); [apply bind_ok in Hr as [q5 [_ Hr]]|]; injection Hr as <-; apply Nat.le_0_l.
  Qed.

  (** Each argument goes to one place. *)
  Lemma arguments_once (ctor : list (string * ckind)) params kws : NoDup (map fst ctor) -> (forall ak, In ak ctor -> mem (fst ak) params = true) ->
    sum (fun ak => ob (kwget kws (fst ak))) ctor + held (filter (fun kv : string * value => negb (mem (fst kv) params)) kws) <= held kws.
  Proof.
    intros Nd Hp. induction kws as [|[b v] kws IHk]; [unfold held, sum at 2 3; cbn; rewrite (sum_zero _ ctor); [apply le_n|reflexivity]|].
    assert (O : sum (fun ak => ob (kwget ((b, v) :: kws) (fst ak))) ctor <= (if mem b (map fst ctor) then ob v else 0) + sum (fun ak => ob (kwget kws (fst ak))) ctor).
    { clear IHk Hp. induction ctor as [|[a k] l IHl]; [apply le_n|]. cbn [map fst] in Nd. inversion Nd as [|? ? N1 N2]; subst. specialize (IHl N2). rewrite !sum_cons. cbn [fst map].
      unfold kwget at 1. cbn [sget]. destruct (String.eqb_spec a b) as [->|N].
      - assert (M : mem b (map fst l) = false) by (destruct (mem b (map fst l)) eqn:M; [destruct N1; now apply mem_In|reflexivity]). rewrite M in IHl.
        assert (M' : mem b (b :: map fst l) = true) by (apply mem_In; now left). rewrite M'. lia.
      - fold (kwget kws a). assert (M : mem b (a :: map fst l) = mem b (map fst l)).
        { destruct (mem b (map fst l)) eqn:M; [apply mem_In; right; now apply mem_In|]. destruct (mem b (a :: map fst l)) eqn:M2; [|reflexivity]. apply mem_In in M2 as [E|M2]; [congruence|]. apply mem_In in M2. congruence. }
        rewrite M. lia. }
    assert (D : mem b (map fst ctor) = true -> mem b params = true) by (intro M; apply mem_In, in_map_iff in M as [ak [<- Hak]]; now apply Hp).
    cbn [filter fst]. unfold held in *. destruct (mem b params); cbn [negb].
    - rewrite sum_cons. cbn [snd]. destruct (mem b (map fst ctor)); lia.
    - destruct (mem b (map fst ctor)); [specialize (D eq_refl); discriminate|]. rewrite !sum_cons. cbn [snd]. lia.
  Qed.
End Held.

Section One.
  Variables (W : world) (strict : bool) (f : string -> ustr -> nat) (g : ustr -> nat) (kids : list elem) (nss : nss_t).
  Hypothesis Hfg : forall c ns, f c ns <= g (ns ++ u (tag_of W c)).
  Hypothesis IH : forall k, In k kids -> forall c ns v, from_element W strict k c ns nss = Ok v -> objects f v <= f c ns + inner g k.
  Notation rks := (map (kid_reader W strict) kids).
  Notation ob := (objects f).
  Notation el := (elements g).

  Lemma kid_counted k c ns v : In k kids -> e_tag k = ns ++ u (tag_of W c) -> from_element W strict k c ns nss = Ok v -> ob v <= el k.
  Proof. intros Hk Ht Hv. assert (H := IH k Hk _ _ _ Hv). assert (H2 := Hfg c ns). destruct k as [t a x ks]. unfold inner in H. cbn [e_tag e_kids elements] in *. rewrite <- Ht in H2. lia. Qed.

  Definition hits (tags : list ustr) (k : elem) : bool := existsb (ueqb (e_tag k)) tags.

  Lemma read_obj_counted n cs v : read_obj W rks n nss cs = Ok (Some v) -> ob v <= sum el (filter (hits (map (fun c => n ++ u (tag_of W c)) cs)) kids).
  Proof.
    intro H. assert (X : exists k c, In c cs /\ In k kids /\ e_tag k = n ++ u (tag_of W c) /\ from_element W strict k c n nss = Ok v).
    { induction cs as [|c cs IHc]; cbn [read_obj] in H; [discriminate|]. apply bind_ok in H as [tag [Et H]]. apply class_tag_of in Et. subst tag.
      rewrite find_kid_hd in H. destruct (with_tag (n ++ u (tag_of W c)) kids) as [|k l] eqn:E; cbn [hd_error option_map] in H.
      - destruct (IHc H) as [k [c' [Hc R]]]. exists k, c'. split; [now right|exact R].
      - apply bind_ok in H as [w [Hw H]]. injection H as <-. exists k, c. split; [now left|]. destruct (with_tag_in kids (n ++ u (tag_of W c)) k) as [Hk Ht]; [rewrite E; now left|auto]. }
    destruct X as [k [c [Hc [Hk [Ht Hv]]]]]. etransitivity; [exact (kid_counted k c n v Hk Ht Hv)|]. apply sum_in. apply filter_In. split; [exact Hk|].
    unfold hits. apply existsb_exists. exists (e_tag k). split; [|apply ueqb_refl]. rewrite Ht. apply in_map_iff. now exists c.
  Qed.

  Lemma read_objs_counted n cs l : NoDup (map (tag_of W) cs) -> read_objs W rks n nss cs = Ok l -> sum ob l <= sum el (filter (hits (map (fun c => n ++ u (tag_of W c)) cs)) kids).
  Proof.
    intros Nd H. unfold read_objs in H. apply bind_ok in H as [ls [H E]]. injection E as <-. rewrite sum_concat.
    etransitivity; [apply (map_res_sum _ (fun c => sum el (filter (fun k => ueqb (e_tag k) (n ++ u (tag_of W c))) kids)) _ _ _ H)|].
    - intros c m _ Hc. apply bind_ok in Hc as [tag [Et Hc]]. apply class_tag_of in Et. subst tag. rewrite find_kids_with in Hc.
      assert (T : sum (fun rk : rkid => el (fst rk)) (map (kid_reader W strict) (with_tag (n ++ u (tag_of W c)) kids)) = sum el (with_tag (n ++ u (tag_of W c)) kids)) by (unfold sum; now rewrite map_map).
      unfold with_tag in T at 2. etransitivity; [apply (map_res_sum _ (fun rk : rkid => el (fst rk)) _ _ _ Hc)|apply Nat.eq_le_incl; exact T].
      intros rk y Hk Hr. apply in_map_iff in Hk as [k [<- Hk]]. apply with_tag_in in Hk as [Hk Ht]. exact (kid_counted k c n y Hk Ht Hr).
    - etransitivity; [apply hit_once; [exact (NoDup_map_inv _ _ Nd)|]|].
      + intros a a' b Ha Ha' _ E E'. apply ueqb_eq in E, E'. rewrite E in E'. apply app_inv_head in E'. apply u_inj in E'.
        clear -Nd Ha Ha' E'. induction cs as [|c cs IHc]; [destruct Ha|]. cbn [map] in Nd. inversion Nd as [|? ? N1 N2]; subst.
        destruct Ha as [->|Ha], Ha' as [->|Ha']; auto; destruct N1; [rewrite E'|rewrite <- E']; now apply in_map.
      + apply Nat.eq_le_incl. f_equal. apply filter_ext. intro k. unfold hits. rewrite existsb_map. reflexivity.
  Qed.

  Lemma kwarg_counted it a tx n v : item_ok W it = true -> NoDup (item_names W it) -> In n (map (ns_get nss) (it_nsids it)) -> get_kwarg W strict it a tx rks n nss = Ok (Some v) -> ob v <= sum el (filter (hits (tags_for W nss it)) kids).
  Proof.
    intros Ho Nd Hn H.
    assert (Sub : forall tags, (forall t, In t tags -> In t (tags_for W nss it)) -> sum el (filter (hits tags) kids) <= sum el (filter (hits (tags_for W nss it)) kids)).
    { intros tags Ht. clear -Ht. induction kids as [|k l IHl]; [apply le_n|]. cbn [filter]. destruct (hits tags k) eqn:E; [|destruct (hits (tags_for W nss it) k); rewrite ?sum_cons; lia].
      replace (hits (tags_for W nss it) k) with true; [rewrite !sum_cons; lia|]. symmetry. unfold hits in *. apply existsb_exists in E as [t [H1 H2]]. apply existsb_exists. exists t. auto. }
    apply in_map_iff in Hn as [id [En Hid]].
    assert (Tags : it_get it = GObj \/ it_get it = GObjs -> forall t, In t (map (fun c => n ++ u (tag_of W c)) (it_classes it)) -> In t (tags_for W nss it)).
    { intros G t Ht. unfold tags_for. apply in_flat_map. exists id. split; [exact Hid|]. rewrite En. destruct G as [G|G]; rewrite G; exact Ht. }
    assert (P : plain v = true \/ it_get it = GObj \/ it_get it = GObjs).
    { destruct (it_get it) eqn:G; auto; left; apply (kwarg_plain _ _ _ _ _ _ _ _ _ H); rewrite G; discriminate. }
    destruct P as [P|[G|G]]; [rewrite (plain_none _ _ P); apply Nat.le_0_l| |].
    - unfold get_kwarg in H. cbv zeta in H. rewrite G in H. etransitivity; [exact (read_obj_counted _ _ _ H)|]. apply Sub. auto.
    - assert (Nd' : NoDup (map (tag_of W) (it_classes it))).
      { unfold item_ok in Ho. rewrite !andb_true_iff in Ho. destruct Ho as [[[Hp _] _] _]. unfold item_names in Nd. rewrite G in Hp. destruct (it_set it); try discriminate Hp; exact Nd. }
      unfold get_kwarg in H. cbv zeta in H. rewrite G in H. apply bind_ok in H as [l [Hl H]]. injection H as <-. etransitivity; [exact (read_objs_counted _ _ _ Nd' Hl)|]. apply Sub. auto.
  Qed.

  Lemma kwargs_counted its a tx : forall acc kws, (forall it, In it its -> item_ok W it = true /\ NoDup (item_names W it)) -> get_kwargs W strict its a tx rks nss acc = Ok kws ->
    held f kws <= held f acc + sum (fun it => sum el (filter (hits (tags_for W nss it)) kids)) its.
  Proof.
    induction its as [|it its IHi]; intros acc kws Ho H; cbn [get_kwargs] in H; [injection H as <-; lia|]. apply bind_ok in H as [o [Hr H]].
    assert (H1 := IHi _ _ (fun i Hi => Ho i (or_intror Hi)) H). rewrite sum_cons. destruct o as [v|]; [|lia].
    destruct (Ho it (or_introl eq_refl)) as [Oi Ni]. apply try_nsids_some in Hr as [id [Hid Hr]].
    assert (H2 := kwarg_counted it a tx _ v Oi Ni (in_map _ _ _ Hid) Hr). assert (H3 := held_sset f (it_attr it) v acc). lia.
  Qed.

End One.

Lemma objects_obj f c ns d attrs : objects f (VObj c ns d attrs) = f c ns + held f attrs.
Proof. cbn [objects]. unfold held, sum. do 2 f_equal. apply map_ext. now intros []. Qed.

Theorem read_counted W strict f g : world_ok W = true -> (forall c ns, f c ns <= g (ns ++ u (tag_of W c))) ->
  forall e c ns nss v, forallb (fun kv : string * ustr => good_ns (snd kv)) (merge_ns nss) = true -> from_element W strict e c ns nss = Ok v -> objects f v <= f c ns + inner g e.
Proof.
  intros HW Hfg e. induction e as [tg at_ tx kids IH] using elem_ind'. intros c ns nss v Hg H. cbn [from_element] in H. unfold read_with in H. cbv zeta in H.
  set (d := merge_ns nss) in *. assert (Hd : merge_ns d = d) by apply merge_ns_idem. apply bind_ok in H as [kws [Hk H]].
  assert (IH' : forall k, In k kids -> forall c ns v, from_element W strict k c ns d = Ok v -> objects f v <= f c ns + inner g k).
  { intros k Hin c0 ns0 v0. rewrite Forall_forall in IH. apply IH; [exact Hin|]. now rewrite Hd. }
  unfold construct in H. destruct (class_of W c) as [ci|] eqn:Hc; [|discriminate]. cbv zeta in H. destruct (_ && _); [discriminate|].
  apply bind_ok in H as [pre [Hp H]]. apply bind_ok in H as [post [Hq H]]. injection H as <-. rewrite objects_obj. apply Nat.add_le_mono_l.
  assert (F := world_class _ _ _ HW Hc).
  assert (K : held f kws <= inner g (Elem tg at_ tx kids)).
  { etransitivity; [apply (kwargs_counted W strict f g kids d Hfg IH' _ _ _ _ _ (fun it Hi => conj (cf_items _ _ _ F it Hi) (names_each _ _ _ (cf_names _ _ _ F) Hi)) Hk)|]. cbn [held sum map list_sum fold_right]. rewrite Nat.add_0_l.
    etransitivity; [apply (hit_once (fun it k => hits (tags_for W d it) k)); [exact (NoDup_map_inv _ _ (cf_attrs _ _ _ F))|]|apply sum_filter].
    intros it it' k Hi Hi' _ E E'. unfold hits in E, E'. apply existsb_exists in E as [t [Ht E]]. apply existsb_exists in E' as [t' [Ht' E']]. apply ueqb_eq in E, E'. subst t t'.
    exact (one_registration W c ci d (e_tag k) it it' HW Hc Hg Hi Hi' Ht Ht'). }
  etransitivity; [|exact K]. etransitivity; [|exact (arguments_once f (ctor_attrs ci) (ci_params ci) kws (cf_ctor _ _ _ F) (cf_params _ _ _ F))].
  unfold ctor_attrs. rewrite sum_app. unfold held at 1. rewrite !sum_app. fold (held f (extras_of ci kws)). unfold extras_of.
  assert (P1 := map_res_sum _ (fun ak => objects f (kwget kws (fst ak))) (fun ax : string * value => objects f (snd ax)) _ _ Hp (fun x y _ E => mk_attr_counted W f kws x y E)).
  assert (P2 := map_res_sum _ (fun ak => objects f (kwget kws (fst ak))) (fun ax : string * value => objects f (snd ax)) _ _ Hq (fun x y _ E => mk_attr_counted W f kws x y E)).
  fold (held f pre) in P1 |- *. fold (held f post) in P2 |- *. lia.
Qed.

(** ** Depth *)

Lemma max_in {A} (w : A -> nat) x l : In x l -> w x <= list_max (map w l).
Proof. intro H. assert (G := proj1 (list_max_le (map w l) _) (le_n _)). rewrite Forall_forall in G. apply G. now apply in_map. Qed.
Lemma max_bound {A} (w : A -> nat) l n : (forall x, In x l -> w x <= n) -> list_max (map w l) <= n.
Proof. intro H. apply list_max_le. rewrite Forall_forall. intros y Hy. apply in_map_iff in Hy as [x [<- Hx]]. now apply H. Qed.

Lemma within_lower k e : within k e -> height k < height e.
Proof.
  intro H. induction H as [k e Hk|k k' e Hk _ IH].
  - destruct e as [t a x ks]. cbn [e_kids height] in *. apply Nat.lt_succ_r. now apply max_in.
  - apply (Nat.lt_trans _ _ _ IH). destruct e as [t a x ks]. cbn [e_kids height] in *. apply Nat.lt_succ_r. now apply max_in.
Qed.

Lemma nesting_bound n : forall x, (forall c ns d attrs, holds x (VObj c ns d attrs) -> nesting (VObj c ns d attrs) <= n) -> nesting x <= n.
Proof.
  fix F 1. intros [| | | | | | | | | |l|c ns d attrs] H; try apply Nat.le_0_l; [|apply H, holds_self].
  cbn [nesting]. assert (H' : forall x, In x l -> forall c ns d attrs, holds x (VObj c ns d attrs) -> nesting (VObj c ns d attrs) <= n) by (intros x Hx c ns d attrs Hh; apply H; exact (holds_member l x _ Hx Hh)).
  clear H. induction l as [|x l IHl]; [apply Nat.le_0_l|]. cbn [map list_max fold_right]. apply Nat.max_lub; [exact (F x (H' x (or_introl eq_refl)))|]. apply IHl. intros y Hy. exact (H' y (or_intror Hy)).
Qed.

Theorem read_nested W strict : forall n e c ns nss v, height e <= n -> from_element W strict e c ns nss = Ok v -> nesting v <= height e.
Proof.
  induction n as [|n IH]; intros e c ns nss v L H; [destruct e; cbn [height] in L; lia|].
  destruct (read_alone W strict e c ns nss v H) as [attrs [-> G]]. cbn [nesting]. destruct (height e) as [|h] eqn:Eh; [destruct e; discriminate Eh|]. apply le_n_S.
  apply max_bound. intros [a x] Hx. apply nesting_bound. intros c' ns' d attrs' Hh. destruct (G a x Hx _ _ _ _ Hh) as [_ [k [Hw [_ E]]]]. apply within_lower in Hw.
  assert (Q := IH k _ _ _ _ ltac:(lia) E). lia.
Qed.
