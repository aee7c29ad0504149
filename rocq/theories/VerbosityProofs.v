(** * Verbosity does not change effective values. *)
From Coq Require Import String List NArith ZArith Bool Lia.
From Verif Require Import Ustr UstrProofs Res PyInt PyFloat PyNumProofs PyDate Elem Value Geom Codec Spec EmitProofs CodecProofs ReadProofs ItemProofs RoundTrip SettledProofs Settled SameProofs Effective Outcome.
Import ListNotations.

Lemma like_eq d x y : x = y -> like d x y.
Proof. intros ->. now left. Qed.

(** ** Single values *)

Lemma read_back_scalar W prec vb ci attrs ms it : scalar_set (it_set it) = true ->
  read_back W prec vb ci attrs ms it = back (it_set it) (get_value vb (obj_attr ci attrs (it_attr it)) (it_default it)).
Proof. unfold read_back, back. destruct (it_set it); intro H; try discriminate H; reflexivity. Qed.

Lemma back_none s : back s VNone = None.
Proof. now destruct s. Qed.

(** An integer equal to a double is converted to a double equal to it. *)
Lemma to_float_eq n f : num_valid (NFloat f) = true -> num_eq n (NFloat f) = true -> num_eq (NFloat (to_float n)) (NFloat f) = true.
Proof.
  intros Hv H. destruct n as [z|g]; [|exact H]. cbn [num_eq to_float num_valid] in *. unfold float_eq_int in H. destruct f as [| |neg m E]; try discriminate H. cbn [float_num] in H.
  apply Z.eqb_eq in H. unfold float_of_Z. assert (T := two1074_pos).
  assert (F := Hv). apply fvalid_inv in F as [Hm [HE _]]. assert (P := pow2_pos E ltac:(lia)). assert (Fm : (0 <= fmag m E)%Z) by (unfold fmag; nia).
  destruct (Z.eq_dec z 0) as [->|Nz].
  - assert (M0 : fmag m E = 0%Z) by (destruct neg; lia). assert (R : round_ratio (0 <? 0)%Z (Z.abs 0) 1 = FFin false 0 0) by (vm_compute; reflexivity). rewrite R. cbn [float_eq float_num]. apply Z.eqb_eq. rewrite M0. destruct neg; reflexivity.
  - assert (Hneg : (z <? 0)%Z = neg) by (destruct neg; lia). rewrite Hneg, (round_ratio_exact neg (Z.abs z) 1 m E Hv ltac:(lia)); [cbn [float_eq float_num]; apply Z.eqb_refl|].
    destruct neg; lia.
Qed.

Lemma num_eq_refl_int z : num_eq (NInt z) (NInt z) = true.
Proof. apply Z.eqb_refl. Qed.

Lemma scalar_none x : scalar_eq x VNone = true -> x = VNone.
Proof. destruct x; cbn; intro H; try discriminate H; reflexivity. Qed.

Lemma num_eq_sym a b : num_eq a b = num_eq b a.
Proof.
  destruct a as [x|x], b as [y|y]; cbn [num_eq]; try reflexivity; [apply Z.eqb_sym|].
  unfold float_eq. destruct x as [|n|n m E], y as [|n'|n' m' E']; try reflexivity; [destruct n, n'; reflexivity|apply Z.eqb_sym].
Qed.

Lemma ueqb_sym a b : ueqb a b = ueqb b a.
Proof. destruct (ueqb_spec a b) as [E|N], (ueqb_spec b a) as [E'|N']; congruence. Qed.

Lemma all2_sym {A} (f : A -> A -> bool) (Hf : forall a b, f a b = f b a) l r : all2 f l r = all2 f r l.
Proof. revert r; induction l as [|x l IH]; intros [|y r]; try reflexivity. cbn. now rewrite IH, Hf. Qed.

Lemma point_eq_sym a b : point_eq a b = point_eq b a.
Proof. apply all2_sym, num_eq_sym. Qed.

Lemma scalar_eq_sym a b : match b with VDate _ => false | _ => true end = true -> scalar_eq a b = true -> scalar_eq b a = true.
Proof.
  destruct a, b; cbn [scalar_eq]; intros Hn H; try discriminate; try reflexivity.
  - destruct b, b0; assumption || reflexivity.
  - now rewrite num_eq_sym.
  - now rewrite num_eq_sym.
  - now rewrite num_eq_sym.
  - now rewrite ueqb_sym.
  - now rewrite String.eqb_sym, ueqb_sym.
  - now rewrite point_eq_sym.
  - rewrite (all2_sym _ point_eq_sym). destruct tup, tup0; exact H.
Qed.

Lemma effective_eq d y : is_none d = false -> scalar_eq y d = true -> effective d y = y.
Proof. unfold effective. destruct y; try reflexivity. destruct d; discriminate. Qed.

Section Attr.
  Variables (W : world) (ci : class_info) (it : item).
  Hypothesis Hok : item_ok W it = true.
  Hypothesis Hfit : default_fits W ci it = true.
  Hypothesis Hs : scalar_set (it_set it) = true.
  Notation k := (ckind_of ci (it_attr it)).
  Notation d := (it_default it).
  Hypothesis Hk : match k with Some k' => ckind_ok k' (Some it) = true | None => True end.

  Lemma put_num n : put W k (Some (VNum n)) = VNum n.
  Proof.
    unfold put. destruct k as [k'|]; [|reflexivity]. destruct k'; try reflexivity; cbn in Hk; destruct (it_set it); try discriminate Hk; discriminate Hs.
  Qed.

  Lemma fits_inv : is_none d = false -> put W k None = VNone /\ scalar_eq (put W k (back (it_set it) d)) d = true.
  Proof.
    intro Hd. unfold default_fits in Hfit. rewrite Hs, Hd in Hfit. cbn [negb orb] in Hfit. rewrite !andb_true_iff in Hfit. destruct Hfit as [[[F1 F2] _] _].
    split; [|exact F2]. destruct (put W k None); try discriminate F1; reflexivity.
  Qed.

  Lemma default_typed : item_typed W it d = true.
  Proof.
    unfold item_ok in Hok. rewrite !andb_true_iff in Hok. destruct Hok as [[_ D] _]. unfold default_ok in D. destruct (it_set it); try discriminate Hs; now apply andb_prop in D.
  Qed.

  Lemma default_no_date : is_none d = false -> match d with VDate _ => false | _ => true end = true.
  Proof.
    intro Hd. unfold default_fits in Hfit. rewrite Hs, Hd in Hfit. cbn [negb orb] in Hfit. rewrite !andb_true_iff in Hfit. destruct Hfit as [[_ F3] _]. now destruct d.
  Qed.

  (** An attribute equal to the default is read back equal to the default. *)
  Lemma equal_default x : item_typed W it x = true -> is_none d = false -> scalar_eq x d = true -> x = d \/ scalar_eq (put W k (back (it_set it) x)) d = true.
  Proof.
    intros Ht Hd He. assert (Td := default_typed). assert (Pn := put_num).
    assert (Nd := default_no_date Hd). unfold item_typed in Ht, Td. destruct (it_set it) eqn:Es; try discriminate Hs; destruct x as [ |b|n|s|ec em|dk|pc|tu cl|ds|il|vl|oc on onn oa]; try discriminate Ht;
      destruct d as [ |b'|n'|s'|ec' em'|dk'|pc'|tu' cl'|ds'|il'|vl'|oc' on' onn' oa']; try discriminate Hd; try discriminate Td; try discriminate He; try discriminate Nd.
    all: try (left; apply ueqb_eq in He; now subst).
    all: try (left; apply eqb_prop in He; now subst).
    all: try (left; cbn in He; apply andb_prop in He as [He1 He2]; apply String.eqb_eq in He1; apply ueqb_eq in He2; now subst).
    all: try (destruct n as [z|]; [|discriminate Ht]; destruct n' as [z'|]; [|discriminate Td]; left; cbn in He; apply Z.eqb_eq in He; now subst).
    all: destruct n' as [z'|f'];
      [destruct n as [z|f]; [left; cbn in He; apply Z.eqb_eq in He; now subst|right; cbn [back]; rewrite Pn; exact He]
      |right; cbn [back]; rewrite Pn; apply (to_float_eq n f'); assumption].
  Qed.

  Lemma like_value vb x : item_typed W it x = true ->
    like d (put W k (back (it_set it) (get_value vb x d))) (put W k (back (it_set it) x)).
  Proof.
    intro Ht. destruct vb; cbn [get_value].
    - destruct (scalar_eq x d) eqn:He; [|now apply like_eq]. destruct (is_none d) eqn:Hd.
      + assert (Ed : d = VNone) by (destruct d; try discriminate Hd; reflexivity). rewrite Ed in He. apply scalar_none in He. subst x. now apply like_eq.
      + destruct (fits_inv Hd) as [F1 F2]. rewrite back_none, F1. right. unfold effective at 1. cbn [is_none].
        destruct (equal_default x Ht Hd He) as [E|E]; [subst x|].
        * rewrite effective_eq by assumption. apply scalar_eq_sym; [now apply default_no_date|assumption].
        * rewrite effective_eq by assumption. apply scalar_eq_sym; [now apply default_no_date|assumption].
    - now apply like_eq.
    - destruct (is_none x && negb (is_none d)) eqn:E; [|now apply like_eq]. apply andb_prop in E as [E1 E2]. apply negb_true_iff in E2.
      destruct (fits_inv E2) as [F1 F2]. assert (x = VNone) by (destruct x; try discriminate E1; reflexivity). subst x. rewrite back_none, F1. right. unfold effective at 2. cbn [is_none].
      unfold effective. destruct (is_none (put W k (back (it_set it) d))) eqn:En; [|exact F2]. destruct (put W k (back (it_set it) d)); try discriminate En. clear -F2 E2. destruct d; try discriminate.
  Qed.
End Attr.

(** ** The attributes of what is read back *)

Section Node.
  Variables (W : world) (c : string) (ci : class_info) (attrs : list (string * value)) (prec : option nat).
  Hypothesis HW : world_ok W = true.
  Hypothesis Hc : class_of W c = Some ci.
  Notation its := (items_of W c).
  Hypothesis F : class_facts W ci its.
  Hypothesis Hshape : shape_ok ci attrs = true.
  Hypothesis Hattrs : forallb (attr_typed W ci its) attrs = true.
  Hypothesis Hread : forallb (attr_readable ci) attrs = true.
  Notation rb vb := (read_back W prec vb ci attrs (ns_of W prec vb attrs)).
  Notation nat_ vb := (nattrs W ci its attrs prec vb (ns_of W prec vb attrs)).

  Lemma nxtra_get vb (l : list item) a : NoDup (map it_attr l) ->
    sget a (concat (map (fun it => if mem (it_attr it) (ci_params ci) then []
                           else match rb vb it with Some v => [(it_attr it, v)] | None => [] end) l)) =
    match find_item a l with Some it => if mem a (ci_params ci) then None else rb vb it | None => None end.
  Proof.
    induction l as [|it l IH]; intro Hd; [reflexivity|]. cbn [map concat find_item]. inversion Hd; subst. rewrite sget_app.
    destruct (String.eqb_spec a (it_attr it)) as [->|Ne].
    - destruct (mem (it_attr it) (ci_params ci)) eqn:Em.
      + cbn [sget]. rewrite IH by assumption. destruct (find_item _ l); [|reflexivity]. now rewrite ?Em.
      + destruct (rb vb it) as [v|]; [cbn [sget]; now rewrite String.eqb_refl|]. cbn [sget].
        rewrite IH by assumption. destruct (find_item (it_attr it) l) as [it'|] eqn:E; [|reflexivity]. exfalso. apply H1.
        apply find_item_In in E as [E1 E2]. rewrite <- E2. now apply in_map.
    - rewrite (IH H2). destruct (mem (it_attr it) (ci_params ci)); [reflexivity|]. destruct (rb vb it); [|reflexivity]. cbn [sget].
      destruct (String.eqb_spec a (it_attr it)); [congruence|reflexivity].
  Qed.

  Lemma nget_other vb a : ckind_of ci a = None ->
    sget a (nat_ vb) = match find_item a its with Some it => if mem a (ci_params ci) then None else rb vb it | None => None end.
  Proof.
    intro Hk.
    assert (Hn : forall l, sget a l = None -> sget a (map (na W ci its attrs prec vb (ns_of W prec vb attrs)) l) = None).
    { induction l as [|[b k] l IH]; [reflexivity|]. cbn [map na fst snd sget]. destruct (String.eqb a b); [discriminate|exact IH]. }
    unfold ckind_of, ctor_attrs in Hk. rewrite sget_app in Hk. destruct (sget a (ci_pre ci)) eqn:E1; [discriminate|].
    unfold nattrs. rewrite sget_app, (Hn _ E1), sget_app. unfold xtra. rewrite nxtra_get by apply (cf_attrs _ _ _ F). rewrite (Hn _ Hk).
    destruct (find_item a its); [|reflexivity]. destruct (mem a _); [reflexivity|]. now destruct (rb vb i).
  Qed.

  Definition no_track it : Prop := is_track ci = true -> mem (it_attr it) track_attrs = false.

  Lemma track_attr_facts a : is_track ci = true -> mem a track_attrs = true -> mem a (ci_params ci) = true /\ ckind_of ci a = None.
  Proof.
    intros Ht Ha. assert (Tk := cf_track _ _ _ F). unfold track_ok in Tk. rewrite Ht in Tk. rewrite !andb_true_iff in Tk. destruct Tk as [_ Tk].
    rewrite forallb_forall in Tk. apply SettledProofs.mem_In in Ha. specialize (Tk _ Ha). apply andb_prop in Tk as [Tm Te]. split; [exact Tm|]. apply negb_true_iff in Te.
    unfold ckind_of. apply sget_None. intro H. apply in_map_iff in H as [ak [E H]]. apply Bool.not_true_iff_false in Te. apply Te. apply existsb_exists. exists ak. split; [exact H|]. rewrite E. apply String.eqb_refl.
  Qed.

  Lemma nget_track vb it : In it its -> is_track ci = true -> mem (it_attr it) track_attrs = true ->
    obj_attr ci (nat_ vb) (it_attr it) = obj_attr ci (nat_ Normal) (it_attr it).
  Proof.
    intros Hin Ht Ha. destruct (track_attr_facts _ Ht Ha) as [Hp Hk].
    assert (K : In ("track_items"%string, CTrack) (ctor_attrs ci)).
    { assert (Tk := cf_track _ _ _ F). unfold track_ok in Tk. rewrite Ht in Tk. rewrite !andb_true_iff in Tk. destruct Tk as [[[[[Tk _] _] _] _] _].
      apply existsb_exists in Tk as [[a k] [H E]]. apply andb_prop in E as [E1 E2]. cbn in E1, E2. apply seqb_eq in E1. subst a. destruct k; try discriminate. exact H. }
    unfold obj_attr. rewrite (nget_other vb _ Hk), (nget_other Normal _ Hk), (find_item_NoDup _ _ (cf_attrs _ _ _ F) Hin), Hp.
    rewrite !(nattrs_get W ci its attrs F prec _ _ _ _ K). reflexivity.
  Qed.

  Lemma not_track_none it attrs' : no_track it -> sget (it_attr it) attrs' = None -> obj_attr ci attrs' (it_attr it) = VNone.
  Proof.
    intros Nt Hx. unfold obj_attr. rewrite Hx. unfold no_track, is_track in Nt. destruct (ci_geom ci) eqn:Eg; try reflexivity. specialize (Nt eq_refl).
    cbn in Nt. rewrite !orb_false_iff in Nt. destruct Nt as [N1 [N2 [N3 _]]]. rewrite N1, N2, N3. destruct (sget "track_items"%string attrs') as [[]|]; reflexivity.
  Qed.

  Lemma nget_put vb it : In it its -> no_track it ->
    obj_attr ci (nat_ vb) (it_attr it) = put W (ckind_of ci (it_attr it)) (rb vb it) /\
    match ckind_of ci (it_attr it) with Some k => ckind_ok k (Some it) = true /\ filter_ok W k (Some it) = true
    | None => match it_set it with SCoords | SCoordList => false | _ => true end = true end.
  Proof.
    intros Hin Nt. assert (P := cf_placed _ _ _ F it Hin). unfold placed in P. assert (Hf := find_item_NoDup _ _ (cf_attrs _ _ _ F) Hin).
    destruct (ckind_of ci (it_attr it)) as [k|] eqn:Ek.
    - assert (Hk : In (it_attr it, k) (ctor_attrs ci)) by now apply sget_In. destruct (cf_kind _ _ _ F _ Hk) as [Hko Hfo]. cbn [fst snd] in Hko, Hfo. rewrite Hf in Hko, Hfo.
      split; [|auto]. unfold obj_attr. rewrite (nattrs_get W ci its attrs F prec vb _ _ _ Hk). cbn [na fst snd]. unfold rbo. rewrite Hf. destruct k; try reflexivity. discriminate Hko.
    - assert (Hm : mem (it_attr it) (ci_params ci) = false /\ match it_set it with SCoords | SCoordList => false | _ => true end = true).
      { destruct (mem (it_attr it) (ci_params ci)) eqn:Em; [exfalso|split; [reflexivity|now apply andb_prop in P]]. apply orb_prop in P as [P|P].
        - apply existsb_exists in P as [[a k] [Hk E]]. apply seqb_eq in E. cbn in E. subst a. rewrite (ctor_get W ci its F _ _ Hk) in Ek. discriminate.
        - apply andb_prop in P as [P1 P2]. rewrite (Nt P1) in P2. discriminate. }
      destruct Hm as [Hm Hs]. split; [|exact Hs]. assert (G := nget_other vb _ Ek). rewrite Hf, Hm in G. cbn [put]. destruct (rb vb it) as [v|] eqn:Er.
      + unfold obj_attr. now rewrite G.
      + now apply not_track_none.
  Qed.

  (** Kinds of items for which the verbosity makes no difference. *)
  Lemma rb_plain vb it : In it its -> (is_none (it_default it) = true \/ scalar_set (it_set it) = false) -> match it_set it with SObj | SObjs => false | _ => true end = true -> rb vb it = rb Normal it.
  Proof.
    intros Hin Hd Ho. assert (T := obj_attr_ok W ci its attrs F Hattrs Hread it Hin). assert (I := cf_items _ _ _ F it Hin).
    unfold item_ok in I. rewrite !andb_true_iff in I. destruct I as [[_ D] _]. unfold default_ok in D.
    unfold read_back. set (x := obj_attr ci attrs (it_attr it)) in *. unfold item_typed in T.
    destruct Hd as [Hd|Hd].
    - destruct (it_default it); try discriminate Hd. assert (E : get_value vb x VNone = x).
      { destruct vb; cbn [get_value is_none negb]; [|reflexivity|now rewrite andb_false_r]. destruct (scalar_eq x VNone) eqn:E; [|reflexivity]. symmetry. now apply scalar_none. }
      rewrite E. destruct (it_set it); try discriminate Ho; reflexivity.
    - destruct (it_set it); try discriminate Hd; try discriminate Ho; destruct vb; try reflexivity; destruct x as [ |b|n|s|ec em|dk|pc|tu cl|ds|il|vl|oc on onn oa]; try discriminate T; cbn [get_value is_none andb];
        destruct (it_default it) as [ |b'|n'|s'|ec' em'|dk'|pc'|tu' cl'|ds'|il'|vl'|oc' on' onn' oa']; try discriminate D; reflexivity.
  Qed.

  (** ** Truth values *)

  Lemma group_map cs (n : value -> value) l :
    group W cs (map (fun y => (y, n y)) l) = map n (concat (map (fun c => filter (fun y => is_class c y && truth W y) l) cs)).
  Proof.
    unfold group. rewrite concat_map, map_map. f_equal. apply map_ext. intro d.
    induction l as [|y l IH]; [reflexivity|]. cbn [map filter fst]. destruct (_ && _); cbn [map snd]; now rewrite IH.
  Qed.

  Definition members_of it : list value := match sget (it_attr it) attrs with
    | Some (VList l) => concat (map (fun c => filter (fun y => is_class c y && truth W y) l) (it_classes it)) | _ => [] end.

  Lemma rb_objs vb it : it_set it = SObjs -> rb vb it = Some (VList (map (norm W prec vb) (members_of it))).
  Proof.
    intro Es. unfold read_back, members_of. rewrite Es, sget_ns_of. destruct (sget (it_attr it) attrs) as [x|]; [|reflexivity].
    unfold n_attr. destruct x; try reflexivity. now rewrite group_map.
  Qed.

  Lemma members_in it y : In y (members_of it) -> exists l, In (it_attr it, VList l) attrs /\ In y l /\ exists c, In c (it_classes it) /\ is_class c y = true.
  Proof.
    unfold members_of. destruct (sget (it_attr it) attrs) as [x|] eqn:E; [|intros []]. destruct x; try (intros []; fail). intro H. exists l. split; [now apply sget_In|].
    apply in_concat in H as [m [H1 H2]]. apply in_map_iff in H1 as [d [<- H1]]. apply filter_In in H2 as [H2 H3]. apply andb_prop in H3 as [H3 _]. eauto.
  Qed.

  Lemma not_obj_sem v w : not_obj v = true -> not_obj w = true -> (v = w \/ exists l l', v = VList l /\ w = VList l' /\ length l = length l') -> fst (sem W v) = fst (sem W w) /\ is_none v = is_none w.
  Proof. intros _ _ [->|[l [l' [-> [-> H]]]]]; [now split|]. split; [|reflexivity]. cbn. destruct l, l'; try discriminate H; reflexivity. Qed.

  Lemma nbool vb e : bool_simple ci its e = true -> bool_plain ci its e = true -> forall g,
    eval_bool (map (fun av => match av with
            | (a, x) => (a, (x, sem W x, match x with VList l => map (sem W) l | _ => [] end)) end) (nat_ vb)) g e =
    eval_bool (map (fun av => match av with
            | (a, x) => (a, (x, sem W x, match x with VList l => map (sem W) l | _ => [] end)) end) (nat_ Normal)) g e.
  Proof.
    intros H Hp g. set (env := fun vb => map (fun av => match av with
            | (a, x) => (a, (x, sem W x, match x with VList l => map (sem W) l | _ => [] end)) end) (nat_ vb)). fold (env vb). fold (env Normal).
    assert (Henv : forall vb a, sget a (env vb) = match sget a (nat_ vb) with
        | Some x => Some (x, sem W x, match x with VList l => map (sem W) l | _ => [] end) | None => None end).
    { intros vb' a. apply (sget_map (fun _ x => (x, sem W x, match x with VList l => map (sem W) l | _ => [] end))). }
    assert (A : forall a k, In (a, k) (ctor_attrs ci) -> bool_plain ci its (BAttr a) = true ->
       exists v w, sget a (nat_ vb) = Some v /\ sget a (nat_ Normal) = Some w /\ fst (sem W v) = fst (sem W w) /\ is_none v = is_none w).
    { intros a k Hk Hb. rewrite !(nattrs_get W ci its attrs F prec _ _ _ _ Hk). do 2 eexists. split; [reflexivity|]. split; [reflexivity|].
      cbn [na fst snd]. unfold rbo. cbn [bool_plain] in Hb. destruct (find_item a its) as [it|] eqn:Ef; [|now split].
      destruct (find_item_In _ _ _ Ef) as [Hin Ha]. rewrite !andb_true_iff in Hb. destruct Hb as [[Hd Ho] Hcf]. rewrite (ctor_get W ci its F _ _ Hk) in Hcf.
      destruct (it_set it) eqn:Es; try discriminate Ho.
      all: try (rewrite (rb_plain vb it Hin) by (rewrite Es; auto); split; reflexivity).
      rewrite !(rb_objs _ it Es). assert (L : forall vb, length (map (norm W prec vb) (members_of it)) = length (members_of it)) by (intro; apply map_length).
      destruct k; try discriminate Hcf; cbn [store clean_string]; split; try reflexivity; cbn; destruct (members_of it); reflexivity. }
    induction e; cbn [bool_simple bool_plain] in H, Hp; try discriminate H; cbn [eval_bool].
    - reflexivity.
    - apply andb_prop in H as [H1 H2]. apply existsb_exists in H1 as [[a' k] [Hin E]]. apply seqb_eq in E. cbn in E. subst a'.
      destruct (A _ _ Hin Hp) as [v [w [E1 [E2 [E3 _]]]]]. unfold with_attr. rewrite !Henv, E1, E2. exact E3.
    - apply existsb_exists in H as [[a' k] [Hin E]]. apply seqb_eq in E. cbn in E. subst a'.
      destruct (A _ _ Hin Hp) as [v [w [E1 [E2 [_ E3]]]]]. unfold with_attr. rewrite !Henv, E1, E2. unfold a_val. cbn [fst]. f_equal. destruct v, w; try discriminate E3; reflexivity.
    - apply andb_prop in H as [H1 H2]. apply andb_prop in Hp as [P1 P2]. now rewrite IHe1, IHe2.
    - apply andb_prop in H as [H1 H2]. apply andb_prop in Hp as [P1 P2]. now rewrite IHe1, IHe2.
  Qed.
End Node.

Lemma truth_norm W prec vb c ci ns nss attrs : world_ok W = true -> class_of W c = Some ci ->
  typed_node W c ns nss attrs = true -> forallb (attr_readable ci) attrs = true ->
  bool_simple ci (items_of W c) (ci_bool ci) = true -> bool_plain ci (items_of W c) (ci_bool ci) = true ->
  truth W (norm W prec vb (VObj c ns nss attrs)) = truth W (norm W prec Normal (VObj c ns nss attrs)).
Proof.
  intros HW Hc Ht Hr Hb Hp. assert (F := world_class _ _ _ HW Hc).
  unfold typed_node in Ht. rewrite Hc in Ht. apply andb_prop in Ht as [T1 T2].
  rewrite !(norm_nattrs _ _ _ _ _ _ _ _ Hc). unfold truth, py_bool. cbn [sem]. rewrite Hc. cbn [fst].
  rewrite (nbool W c ci attrs prec F T2 Hr vb _ Hb Hp). 
  assert (G : forall e env g g', bool_simple ci (items_of W c) e = true -> eval_bool env g e = eval_bool env g' e).
  { induction e; intros env g g' H; cbn [bool_simple] in H; try discriminate H; try reflexivity; cbn [eval_bool]; apply andb_prop in H as [H1 H2]; rewrite (IHe1 env g g' H1); destruct (eval_bool env g' e1) as [[]|]; cbn [bind]; auto. }
  rewrite (G _ _ _ no_geom Hb). rewrite (G _ _ (eval_geom _ _ _) no_geom Hb). reflexivity.
Qed.

(** ** The whole object *)

Section Alike.
  Variables (W : world) (prec : option nat) (vb : verbosity).
  Hypothesis HW : world_ok W = true.
  Hypothesis HD : world_defaults W = true.
  Notation N := (norm W prec vb).
  Notation M := (norm W prec Normal).

  Lemma defaults_of c ci it : class_of W c = Some ci -> In it (items_of W c) -> default_fits W ci it = true /\ members_plain W ci it = true.
  Proof.
    intros Hc Hin. unfold world_defaults in HD. rewrite forallb_forall in HD. unfold class_of in Hc. apply sget_In in Hc. specialize (HD _ Hc). cbn [fst snd] in HD.
    rewrite forallb_forall in HD. specialize (HD _ Hin). now apply andb_prop in HD.
  Qed.

  Lemma Forall2_map_same {A B} (R : B -> B -> Prop) (f g : A -> B) l : (forall x, In x l -> R (f x) (g x)) -> Forall2 R (map f l) (map g l).
  Proof. induction l; cbn; intro H; constructor; auto. Qed.

  Lemma node_alike c ci ns nss attrs : class_of W c = Some ci ->
    typed_node W c ns nss attrs = true -> forallb (attr_readable ci) attrs = true ->
    (forall a x, In (a, x) attrs -> match x with VObj _ _ _ _ => alike W (N x) (M x)
       | VList l => forall y, In y l -> alike W (N y) (M y) /\ vall (typed_node W) y = true /\
           match y with VObj c' _ _ attrs' => match class_of W c' with Some ci' => forallb (attr_readable ci') attrs' = true | None => False end | _ => True end
       | _ => True end) ->
    alike W (N (VObj c ns nss attrs)) (M (VObj c ns nss attrs)).
  Proof.
    intros Hc Ht Hr Hkids. assert (F := world_class _ _ _ HW Hc). assert (Ht' := Ht). unfold typed_node in Ht. rewrite Hc in Ht. apply andb_prop in Ht as [T1 T2].
    rewrite !(norm_nattrs _ _ _ _ _ _ _ _ Hc). eapply alike_obj; [exact Hc|]. intros it Hin.
    destruct (is_track ci && mem (it_attr it) track_attrs) eqn:Et.
    { apply andb_prop in Et as [E1 E2]. left. apply like_eq. now apply (nget_track W c ci attrs prec F vb it). }
    assert (Nt : no_track ci it) by (intro E; now rewrite E in Et).
    destruct (nget_put W c ci attrs prec F vb it Hin Nt) as [E1 K]. destruct (nget_put W c ci attrs prec F Normal it Hin Nt) as [E2 _]. rewrite E1, E2.
    destruct (defaults_of _ _ _ Hc Hin) as [D1 D2]. assert (Ti := obj_attr_ok W ci _ attrs F T2 Hr it Hin).
    destruct (scalar_set (it_set it)) eqn:Es.
    { left. rewrite !read_back_scalar by exact Es. cbn [get_value]. apply like_value; auto.
      - now apply (cf_items _ _ _ F).
      - destruct (ckind_of ci (it_attr it)); [now destruct K|exact I]. }
    destruct (match it_set it with SObj | SObjs => true | _ => false end) eqn:Eo.
    2: { left. apply like_eq. f_equal. apply (rb_plain W c ci attrs prec F T2 Hr vb it Hin); [now right|]. destruct (it_set it); try discriminate Eo; reflexivity. }
    destruct (it_set it) eqn:Eset; try discriminate Eo.
    - (* an object *)
      assert (Ep : forall o, put W (ckind_of ci (it_attr it)) o = match o with Some v => v | None => VNone end).
      { intro o. unfold put. destruct (ckind_of ci (it_attr it)) as [k|]; [|reflexivity]. destruct K as [K _]. unfold ckind_ok in K. rewrite Eset in K. destruct k; try discriminate K; reflexivity. }
      rewrite !Ep. unfold read_back. rewrite Eset, !sget_ns_of. destruct (truth W _) eqn:Etr; [|left; now apply like_eq].
      unfold obj_attr in Ti, Etr. destruct (sget (it_attr it) attrs) as [x|] eqn:Ex.
      + cbn [n_attr]. unfold item_typed in Ti. rewrite Eset in Ti. destruct x; try discriminate Ti; [left; now apply like_eq|]. right. apply sget_In in Ex. exact (Hkids _ _ Ex).
      + left; now apply like_eq.
    - (* a list *)
      rewrite !(rb_objs W ci attrs prec _ it Eset). right.
      assert (Ha : Forall2 (alike W) (map N (members_of W attrs it)) (map M (members_of W attrs it))).
      { apply Forall2_map_same. intros y Hy. destruct (members_in _ _ _ _ Hy) as [l [H1 [H2 _]]]. exact (proj1 (Hkids _ _ H1 y H2)). }
      unfold put. unfold members_plain in D2. destruct (ckind_of ci (it_attr it)) as [k|] eqn:Ek; [|now apply alike_list].
      destruct K as [K1 K2]. unfold ckind_ok in K1. rewrite Eset in K1. destruct k; try discriminate K1; cbn [store clean_string]; try now apply alike_list.
      (* filtered *)
      apply alike_list. cbn [filter_ok] in K2. rewrite forallb_forall in K2, D2.
      assert (Hm : forall y, In y (members_of W attrs it) -> alike W (N y) (M y) /\ truth W (N y) = truth W (M y)).
      { intros y Hy. destruct (members_in _ _ _ _ Hy) as [l [H1 [H2 [d [H3 H4]]]]]. destruct (Hkids _ _ H1 y H2) as [G1 [G2 G3]]. split; [exact G1|].
        destruct y; try discriminate H4. cbn [is_class] in H4. apply seqb_eq in H4. subst d. specialize (K2 _ H3). specialize (D2 _ H3).
        destruct (class_of W cls) as [ci'|] eqn:Ec'; [|destruct G3]. cbn [vall] in G2. apply andb_prop in G2 as [G2 _].
        now apply (truth_norm W prec vb cls ci'). }
      clear -Hm. induction (members_of W attrs it) as [|y l IH]; [constructor|]. cbn [map filter]. destruct (Hm y (or_introl eq_refl)) as [A B]. rewrite B.
      destruct (truth W (M y)); [constructor; [exact A|]|]; apply IH; intros; apply Hm; now right.
  Qed.
End Alike.

Lemma alike_norm W prec vb v : world_ok W = true -> world_defaults W = true -> typed W v = true -> readable W v = true ->
  alike W (norm W prec vb v) (norm W prec Normal v).
Proof.
  intros HW HD Ht Hr.
  assert (G : forall v, vall (typed_node W) v = true -> readable W v = true ->
    match v with VObj _ _ _ _ => alike W (norm W prec vb v) (norm W prec Normal v)
    | VList l => forall y, In y l -> match y with VObj _ _ _ _ => alike W (norm W prec vb y) (norm W prec Normal y) | _ => True end | _ => True end).
  { clear v Ht Hr. induction v as [ | | | | | | | | | |l IH|c ns nss attrs IH] using value_ind'; intros Ht Hr; try exact I.
    - unfold readable in Hr. cbn [vall] in Ht, Hr. rewrite forallb_forall in Ht, Hr. rewrite Forall_forall in IH. intros y Hy.
      specialize (IH y Hy (Ht y Hy) (Hr y Hy)). now destruct y.
    - unfold readable in Hr. cbn [vall] in Ht, Hr. apply andb_prop in Ht as [T1 T2]. apply andb_prop in Hr as [R1 R2].
      destruct (class_of W c) as [ci|] eqn:Hc; [|discriminate]. rewrite forallb_forall in T2, R2. rewrite Forall_forall in IH.
      apply (node_alike W prec vb HW HD c ci ns nss attrs Hc T1 R1). intros a x Hx. specialize (IH _ Hx (T2 _ Hx) (R2 _ Hx)). cbn [snd] in IH. destruct x; auto.
      intros y Hy. specialize (T2 _ Hx). specialize (R2 _ Hx). cbn in T2, R2. rewrite forallb_forall in T2, R2. specialize (T2 y Hy). specialize (R2 y Hy). specialize (IH y Hy).
      split; [destruct y; try apply alike_refl; exact IH|]. split; [exact T2|]. destruct y; try exact I. cbn [vall] in R2. apply andb_prop in R2 as [R2 _]. destruct (class_of W cls); [exact R2|discriminate]. }
  unfold typed in Ht. specialize (G v). destruct v; try discriminate. now apply G.
Qed.

(** ** What the element contains for an item *)

Section Items.
  Variables (W : world) (prec : option nat) (vb : verbosity).
  Hypothesis HW : world_ok W = true.

  Lemma etree_items c ci ns nss attrs e : typed W (VObj c ns nss attrs) = true -> rt_ok W (VObj c ns nss attrs) = true ->
    class_of W c = Some ci -> etree W prec vb (VObj c ns nss attrs) = Ok e ->
    forall it, In it (items_of W c) -> exists m, emit W prec vb ci ns nss attrs (ws_of W prec vb attrs) it = Ok m /\
      (forall k, In k (m_kids m) -> In k (e_kids e)) /\
      (forall n nm, good_ns n = true -> In nm (item_names W it) ->
         filter (fun k => ueqb (e_tag k) (n ++ u nm)) (e_kids e) = filter (fun k => ueqb (e_tag k) (n ++ u nm)) (m_kids m)) /\
      (ci_root ci = false -> item_attrs it = [it_node it] -> forall n, good_ns n = true -> uget (n ++ u (it_node it)) (e_attrib e) = uget (n ++ u (it_node it)) (m_attr m)) /\
      (item_texts it = [it_node it] -> e_text e = m_text m).
  Proof.
    intros Ht Hr Hc He.
    assert (Hkids : forall a y, sget a attrs = Some y -> kid_rt W prec vb true y /\ Forall (kid_rt W prec vb true) (members y)).
    { intros a y Hy. unfold typed in Ht. unfold rt_ok in Hr. cbn [vall] in Ht, Hr. apply andb_prop in Ht as [_ Ht]. apply andb_prop in Hr as [_ Hr].
      rewrite forallb_forall in Ht, Hr. apply sget_In in Hy. apply value_rt; [exact HW|exact (Ht _ Hy)|exact (Hr _ Hy)]. }
    unfold typed in Ht. unfold rt_ok in Hr. cbn [vall] in Ht, Hr. apply andb_prop in Ht as [Ht _]. apply andb_prop in Hr as [Hr _].
    unfold typed_node in Ht. unfold rt_node in Hr. rewrite Hc in Ht, Hr.
    assert (F := world_class _ _ _ HW Hc). set (its := items_of W c) in *.
    apply andb_prop in Ht as [T1 T2]. rewrite !andb_true_iff in Hr. destruct Hr as [[[R1 R2] R3] R4].
    unfold nss_ok in R2. apply andb_prop in R2 as [R2 R5]. apply pair_list_eq in R2.
    assert (Item : forall it m, In it its -> emit W prec vb ci ns nss attrs (ws_of W prec vb attrs) it = Ok m ->
       item_goal W prec vb true ci nss attrs it m).
    { intros it m Hin Hm. apply (item_rt W prec vb true ci ns nss attrs it) with (m := m); auto.
      - now apply (cf_items _ _ _ F).
      - assert (Hn := cf_names _ _ _ F). clear -Hin Hn. induction its as [|j l IH]; [contradiction|]. cbn [map concat] in Hn.
        destruct Hin as [->|Hin]; [|apply IH; [assumption|now apply NoDup_app_remove_l in Hn]].
        clear IH. induction (item_names W it) as [|x l' IH]; [constructor|]. cbn in Hn. inversion Hn; subst. constructor; auto.
        intro. apply H1. apply in_or_app. now left.
      - eapply obj_attr_ok; eassumption.
      - eapply obj_attr_readable; eassumption.
      - rewrite forallb_forall in R4. now apply R4.
      - intros y Hy. unfold obj_attr. now rewrite Hy.
      - intros y Hy. exact (Hkids _ _ Hy). }
    rewrite etree_obj in He. unfold write_with in He. rewrite Hc in He.
    assert (Hroot := cf_root _ _ _ F). unfold root_ok in Hroot. destruct (ci_root ci) eqn:Eroot.
    - fold its in Hroot. destruct its as [|it [|]] eqn:Eits; try discriminate Hroot. apply andb_prop in Hroot as [Ra Rs]. apply seqb_eq in Ra.
      assert (Es : it_set it = SObjs) by (destruct (it_set it); try discriminate Rs; reflexivity).
      rewrite set_element_emit in He. apply bind_ok in He as [m [Hm He]]. injection He as <-.
      assert (Hm' : emit W prec vb ci ns nss attrs (ws_of W prec vb attrs) it = Ok m).
      { unfold emit in *. rewrite Es, Ra. exact Hm. }
      intros it' [<-|[]]. exists m. split; [exact Hm'|].
      assert (Ek : forall t, e_kids (apply_em m (root_elem ns t)) = m_kids m) by (intro t; unfold root_elem; destruct (uempty ns); reflexivity).
      split; [intros k Hk; now rewrite Ek|]. split; [intros; now rewrite Ek|]. split; [discriminate|].
      intro E. unfold item_texts in E. rewrite Es in E. discriminate.
    - rewrite set_elements_emit in He. apply bind_ok in He as [ms [Hms He]]. injection He as <-. fold its in Hms.
      apply map_res_ok in Hms.
      assert (HG : Forall2 (fun it m => emit W prec vb ci ns nss attrs (ws_of W prec vb attrs) it = Ok m /\ item_goal W prec vb true ci nss attrs it m) its ms).
      { assert (G : forall l r, (forall i, In i l -> In i its) -> Forall2 (fun it m => emit W prec vb ci ns nss attrs (ws_of W prec vb attrs) it = Ok m) l r ->
          Forall2 (fun it m => emit W prec vb ci ns nss attrs (ws_of W prec vb attrs) it = Ok m /\ item_goal W prec vb true ci nss attrs it m) l r).
        { intros l r Hl HF. induction HF as [|i m l r H1 H2 IH]; constructor.
          - split; [exact H1|]. apply Item; [apply Hl; now left|exact H1].
          - apply IH. intros; apply Hl; now right. }
        apply G; auto. }
      intros it Hin. destruct (Forall2_combine_in _ _ _ _ HG Hin) as [m [Hcm [Hm Hgoal]]]. exists m. split; [exact Hm|].
      assert (HF1 : Forall2 (fun i mm => Forall (fun k => exists n' nm', good_ns n' = true /\ In nm' (item_names W i) /\ e_tag k = n' ++ u nm') (m_kids mm)) its ms)
        by (eapply Forall2_weaken; [|exact HG]; intros ? ? [_ H]; apply H).
      assert (HF2 : Forall2 attr_of its ms) by (eapply Forall2_weaken; [|exact HG]; intros ? ? [_ [_ [H _]]]; exact H).
      assert (HF3 : Forall2 (fun i mm => m_text mm = None \/ item_texts i = [it_node i]) its ms)
        by (eapply Forall2_weaken; [|exact HG]; intros ? ? [_ [_ [_ [H _]]]]; exact H).
      rewrite fold_kids. cbn [new_elem e_kids app]. split; [|split; [|split]].
      + intros k Hk. apply in_concat. exists (m_kids m). split; [|exact Hk]. apply in_map. eapply in_combine_r; exact Hcm.
      + intros n nm Hn Hnm. apply (kids_filter (item_names W) its ms _ _ it m); auto.
        * intros i x0 Hi Hx. apply (cf_items _ _ _ F) in Hi. eapply name_good; eassumption.
        * apply (cf_names _ _ _ F).
      + intros _ Hia n Hn. rewrite fold_attrib, uset_fold by (cbn [new_elem e_attrib app]; eapply attrs_nodup; [exact HF2|apply (cf_xattrs _ _ _ F)]).
        cbn [new_elem e_attrib app]. apply (attrs_get its ms _ it m); auto.
        * intros i Hi. apply (cf_items _ _ _ F) in Hi. eapply node_good; eassumption.
        * apply (cf_xattrs _ _ _ F).
      + intro Hx. rewrite fold_text. cbn [new_elem e_text]. apply (text_get its ms it m); auto. apply (cf_texts _ _ _ F).
  Qed.
End Items.
