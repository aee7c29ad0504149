(** * What is read into memory is new, and is what is read on trees. *)
From Coq Require Import String List NArith ZArith Bool Lia PeanoNat Permutation.
From Verif Require Import Ustr UstrProofs Res PyDate Elem Value Geom Codec Api Spec EmitProofs CodecProofs ReadProofs RoundTrip Agree AgreeProofs EmitProofs Alias AliasSpec AliasProofs AliasLoad AliasRead.
Import ListNotations.
Local Open Scope string_scope.
Local Open Scope list_scope.

(** ** References to objects from an address on *)

Definition ref_in (P : nat -> Prop) (e : eref) : Prop := match e with EO a => P a | EV _ => True end.
Definition content_in (P : nat -> Prop) (c : content) : Prop := match c with LObjs l => Forall (ref_in P) l | _ => True end.
Definition hval_in (P : nat -> Prop) (h : hval) : Prop := match h with HE e => ref_in P e | HL _ => True end.
Definition attrs_in (P : nat -> Prop) (kws : list (string * hval)) : Prop := Forall (fun kv => hval_in P (snd kv)) kws.
Definition obj_in (P : nat -> Prop) (o : ocell) : Prop := attrs_in P (o_attrs o).

(** Objects that are in the second memory, but not in the first. *)
Definition between (m0 m : memory) (a : nat) : Prop := length (m_objs m0) <= a < length (m_objs m).

Lemma ref_in_le (P Q : nat -> Prop) e : (forall a, P a -> Q a) -> ref_in P e -> ref_in Q e.
Proof. destruct e; cbn; auto. Qed.
Lemma content_in_le (P Q : nat -> Prop) c : (forall a, P a -> Q a) -> content_in P c -> content_in Q c.
Proof. destruct c; cbn; auto. intros H F. eapply Forall_impl; [|exact F]. intros e. now apply ref_in_le. Qed.
Lemma attrs_in_le (P Q : nat -> Prop) kws : (forall a, P a -> Q a) -> attrs_in P kws -> attrs_in Q kws.
Proof. intros H F. eapply Forall_impl; [|exact F]. intros [a [e|b]]; cbn; [now apply ref_in_le|auto]. Qed.

(** ** Memory that has grown *)

Definition grown (m0 m : memory) (kws : list (string * hval)) : Prop :=
  exists ls os, m = mkM (m_lists m0 ++ ls) (m_objs m0 ++ os) (m_lvars m0) (m_evars m0) /\
    NoDup (held_attrs kws ++ flat_map held_obj os) /\
    (forall a, In a (held_attrs kws ++ flat_map held_obj os) -> length (m_lists m0) <= a < length (m_lists m)) /\
    Forall (content_in (between m0 m)) ls /\ Forall (obj_in (between m0 m)) os /\ attrs_in (between m0 m) kws.

Lemma grown_objs m0 m kws : grown m0 m kws -> length (m_objs m0) <= length (m_objs m).
Proof. intros [ls [os [-> _]]]. cbn. rewrite app_length. lia. Qed.

Lemma grown_refl m : grown m m [].
Proof. exists [], []. rewrite !app_nil_r. split; [now destruct m|]. cbn. split; [constructor|]. split; [intros a []|]. repeat split; constructor. Qed.

Lemma held_sset_any k h attrs : exists l, Permutation (held_val h ++ held_attrs attrs) (l ++ held_attrs (sset k h attrs)).
Proof.
  induction attrs as [|[k' h'] attrs IH]; cbn [sset].
  - exists []. cbn. reflexivity.
  - destruct (String.eqb k k').
    + exists (held_val h'). cbn [held_attrs flat_map snd]. rewrite !app_assoc. apply Permutation_app_tail, Permutation_app_comm.
    + destruct IH as [l IH]. exists l. cbn [held_attrs flat_map snd]. fold (held_attrs attrs). fold (held_attrs (sset k h attrs)).
      transitivity (held_val h' ++ held_val h ++ held_attrs attrs); [rewrite !app_assoc; apply Permutation_app_tail, Permutation_app_comm|].
      rewrite IH, !app_assoc. apply Permutation_app_tail, Permutation_app_comm.
Qed.

Lemma attrs_in_sset P a h kws : hval_in P h -> attrs_in P kws -> attrs_in P (sset a h kws).
Proof.
  intros Hh F. induction F as [|[k' h'] kws H1 H2 IH]; cbn [sset]; [constructor; [exact Hh|constructor]|]. destruct (String.eqb a k'); constructor; auto.
Qed.

Definition opt_kw (a : string) (r : option hval) : list (string * hval) := match r with Some h => [(a, h)] | None => [] end.
Definition opt_set (a : string) (r : option hval) (acc : list (string * hval)) : list (string * hval) := match r with Some h => sset a h acc | None => acc end.

Lemma grown_add m0 m1 m2 a r acc : grown m0 m1 acc -> grown m1 m2 (opt_kw a r) -> grown m0 m2 (opt_set a r acc).
Proof.
  intros G1 G2. assert (Ko1 := grown_objs _ _ _ G1). assert (Ko2 := grown_objs _ _ _ G2). revert G1 G2.
  intros [ls1 [os1 [E1 [N1 [I1 [L1 [O1 K1]]]]]]] [ls2 [os2 [E2 [N2 [I2 [L2 [O2 K2]]]]]]].
  assert (B1 : forall a, between m0 m1 a -> between m0 m2 a) by (unfold between; intros; lia). assert (B2 : forall a, between m1 m2 a -> between m0 m2 a) by (unfold between; intros; lia).
  assert (Len1 : length (m_lists m1) = length (m_lists m0) + length ls1) by (rewrite E1; cbn; apply app_length).
  assert (Len2 : length (m_lists m2) = length (m_lists m1) + length ls2) by (rewrite E2; cbn; apply app_length).
  exists (ls1 ++ ls2), (os1 ++ os2). split; [rewrite E2, E1; cbn [m_lists m_objs m_lvars m_evars]; now rewrite !app_assoc|].
  assert (Big : NoDup ((held_attrs (opt_kw a r) ++ flat_map held_obj os2) ++ (held_attrs acc ++ flat_map held_obj os1)) /\
    forall b, In b ((held_attrs (opt_kw a r) ++ flat_map held_obj os2) ++ (held_attrs acc ++ flat_map held_obj os1)) -> length (m_lists m0) <= b < length (m_lists m2)).
  { split.
    - clear -N1 N2 I1 I2. induction N2 as [|x l Hx N2 IH]; [exact N1|]. cbn [app]. constructor.
      + rewrite in_app_iff. intros [Q|Q]; [contradiction|]. specialize (I1 x Q). specialize (I2 x (or_introl eq_refl)). lia.
      + apply IH. intros b Hb. apply I2. now right.
    - intros b Hb. apply in_app_or in Hb as [Hb|Hb]; [specialize (I2 b Hb)|specialize (I1 b Hb)]; lia. }
  assert (Pm : exists l, Permutation ((held_attrs (opt_kw a r) ++ flat_map held_obj os2) ++ (held_attrs acc ++ flat_map held_obj os1)) (l ++ (held_attrs (opt_set a r acc) ++ flat_map held_obj (os1 ++ os2)))).
  { assert (Q : exists l, Permutation (held_attrs (opt_kw a r) ++ held_attrs acc) (l ++ held_attrs (opt_set a r acc))).
    { destruct r as [h|]; cbn [opt_kw opt_set]; [|exists []; reflexivity]. cbn [held_attrs flat_map snd]. rewrite app_nil_r. apply held_sset_any. }
    destruct Q as [l Q]. exists l. rewrite flat_map_app.
    transitivity ((held_attrs (opt_kw a r) ++ held_attrs acc) ++ (flat_map held_obj os1 ++ flat_map held_obj os2)).
    - rewrite <- !app_assoc. apply Permutation_app_head. transitivity ((held_attrs acc ++ flat_map held_obj os1) ++ flat_map held_obj os2); [apply Permutation_app_comm|now rewrite <- app_assoc].
    - rewrite Q, <- !app_assoc. reflexivity. }
  destruct Pm as [l Pm]. destruct Big as [Bg1 Bg2].
  split; [apply (Permutation_NoDup Pm) in Bg1; now apply NoDup_app_remove_l in Bg1|].
  split; [intros b Hb; apply Bg2; apply (Permutation_in _ (Permutation_sym Pm)); apply in_or_app; now right|].
  split; [apply Forall_app; split; (eapply Forall_impl; [intro c; apply content_in_le|eassumption]); assumption|].
  split; [apply Forall_app; split; (eapply Forall_impl; [intro o; apply attrs_in_le|eassumption]); assumption|].
  apply (attrs_in_le _ _ _ B2) in K2. apply (attrs_in_le _ _ _ B1) in K1. destruct r as [h|]; cbn [opt_set]; [|exact K1]. apply attrs_in_sset; [|exact K1]. now inversion K2.
Qed.

Lemma grown_trans m0 m1 m2 kws : grown m0 m1 [] -> grown m1 m2 kws -> length kws <= 1 -> grown m0 m2 kws.
Proof.
  intros H1 H2 L. destruct kws as [|[a h] [|? ?]]; [exact (grown_add m0 m1 m2 "" None [] H1 H2)|exact (grown_add m0 m1 m2 a (Some h) [] H1 H2)|cbn in L; lia].
Qed.

Lemma grown_less m0 m kws : grown m0 m kws -> grown m0 m [].
Proof.
  intros [ls [os [E [N [I [L [O K]]]]]]]. exists ls, os. split; [exact E|]. cbn [held_attrs flat_map app]. split; [now apply NoDup_app_remove_l in N|].
  split; [intros a Ha; apply I, in_or_app; now right|]. split; [exact L|]. split; [exact O|constructor].
Qed.

Lemma grown_ref m0 m e a : grown m0 m [] -> ref_in (between m0 m) e -> grown m0 m [(a, HE e)].
Proof.
  intros [ls [os [E [N [I [L [O K]]]]]]] H. exists ls, os. split; [exact E|]. split; [exact N|]. split; [exact I|]. split; [exact L|]. split; [exact O|]. constructor; [exact H|constructor].
Qed.

Lemma grown_alloc m c a : content_in (fun _ => False) c -> grown m (fst (alloc m c)) [(a, snd (alloc m c))].
Proof.
  intro H. exists [c], []. cbn. rewrite app_nil_r, app_length. cbn. split; [reflexivity|]. split; [constructor; [intros []|constructor]|]. split; [intros b [<-|[]]; lia|].
  split; [constructor; [eapply content_in_le; [|exact H]; intros ? []|constructor]|]. split; [constructor|]. constructor; [exact I|constructor].
Qed.

Lemma grown_alloc_more m0 m c a : grown m0 m [] -> content_in (between m0 m) c -> grown m0 (fst (alloc m c)) [(a, snd (alloc m c))].
Proof.
  intros [ls [os [E [N [I0 [L [O K]]]]]]] H. exists (ls ++ [c]), os. cbn [alloc fst snd held_attrs flat_map held_val app m_lists].
  split; [rewrite E; cbn [m_lists m_objs m_lvars m_evars]; now rewrite app_assoc|].
  split; [constructor; [|exact N]; intro Q; specialize (I0 _ Q); lia|].
  split; [|split; [apply Forall_app; split; [exact L|constructor; [exact H|constructor]]|split; [exact O|constructor; [exact I|constructor]]]].
  intros b Hb. rewrite app_length. cbn [length]. destruct Hb as [<-|Hb]; [rewrite E; cbn [m_lists]; rewrite app_length; lia|specialize (I0 b Hb); lia].
Qed.

Lemma load_alloc m c f e v : load f m e = Ok v -> load f (fst (alloc m c)) e = Ok v.
Proof. intro H. assert (Q := load_more m [c] [] (m_lvars m) (m_evars m) f e v H). rewrite app_nil_r in Q. exact Q. Qed.

(** ** Loading in memory that has grown *)

Lemma grown_load m0 m kws f e v : grown m0 m kws -> load f m0 e = Ok v -> load f m e = Ok v.
Proof. intros [ls [os [-> _]]] H. now apply load_more. Qed.

Lemma grown_load_hval m0 m kws f h v : grown m0 m kws -> load_hval (load f m0) (m_lists m0) h = Ok v -> load_hval (load f m) (m_lists m) h = Ok v.
Proof. intros G H. destruct G as [ls [os [-> _]]]. cbn [m_lists]. eapply load_hval_more; [|exact H]. intros e w. apply load_more. Qed.

Lemma load_fuel m : forall f f' e v, f <= f' -> load f m e = Ok v -> load f' m e = Ok v.
Proof.
  induction f as [|f IH]; intros [|f'] [x|i] v Hf H; cbn [load] in *; try exact H; try discriminate H; try lia.
  destruct (nth_error (m_objs m) i) as [o|]; [|discriminate H]. apply bind_ok in H as [d [-> H]]. cbn [bind]. apply bind_ok in H as [attrs [Ha H]]. apply map_res_ok in Ha.
  match goal with |- context[map_res ?f (o_attrs o)] => assert (E' : map_res f (o_attrs o) = Ok attrs) end.
  { assert (Hf' : f <= f') by lia. clear -IH Ha Hf'. induction Ha as [|x y l r H1 _ IH']; [reflexivity|]. cbn [map_res]. apply bind_ok in H1 as [v [Hv H1]].
    assert (Q := load_hval_more _ (load f' m) _ [] _ _ (fun e w => IH f' e w Hf') Hv). rewrite app_nil_r in Q. rewrite Q. cbn [bind]. injection H1 as <-. now rewrite IH'. }
  rewrite E'. exact H.
Qed.

Lemma proper_more m0 m kws h : grown m0 m kws -> (forall a, In a (held_val h) -> a < length (m_lists m0)) -> proper (m_lists m0) h = true -> proper (m_lists m) h = true.
Proof.
  intros [ls [os [-> _]]] Hh. destruct h as [e|a]; [auto|]. cbn [proper m_lists]. rewrite contents_app; [auto|]. apply Hh. now left.
Qed.

(** ** Reading *)

Lemma mfind_map (f : elem -> mreader) tag ks : mfind_all tag (map (fun k => (k, f k)) ks) = map (fun k => (k, f k)) (with_tag tag ks).
Proof. unfold mfind_all, with_tag. induction ks as [|k ks IH]; [reflexivity|]. cbn. destruct (ueqb (e_tag k) tag); cbn; now rewrite IH. Qed.

Section Node.
  Variables (W : world) (strict : bool) (kids : list elem) (f : nat).

  Definition kid_ok (k : elem) : Prop := forall c ns nss m,
    match mread W strict k c ns nss m with
    | Ok (m', r) => grown m m' [] /\ ref_in (between m m') r /\ (exists a, r = EO a) /\ exists v, from_element W strict k c ns nss = Ok v /\ load f m' r = Ok v
    | Err x => from_element W strict k c ns nss = Err x
    end.

  Hypothesis Hkids : Forall kid_ok kids.
  Let mks := map (fun k => (k, mread W strict k)) kids.
  Let rks := map (fun k => (k, from_element W strict k)) kids.

  Lemma rfind tag : find_kid tag rks = option_map (fun k => (k, from_element W strict k)) (hd_error (with_tag tag kids)).
  Proof. unfold rks. clear Hkids. induction kids as [|k ks IH]; [reflexivity|]. cbn. destruct (ueqb (e_tag k) tag); [reflexivity|exact IH]. Qed.

  Lemma rfinds tag : find_kids tag rks = map (fun k => (k, from_element W strict k)) (with_tag tag kids).
  Proof. unfold rks, find_kids, with_tag. clear Hkids. induction kids as [|k ks IH]; [reflexivity|]. cbn. destruct (ueqb (e_tag k) tag); cbn; now rewrite IH. Qed.

  Lemma tagged_ok tag : Forall kid_ok (with_tag tag kids).
  Proof. unfold with_tag. rewrite Forall_forall in *. intros k Hk. apply filter_In in Hk as [Hk _]. auto. Qed.

  Lemma hd_ok tag k : hd_error (with_tag tag kids) = Some k -> kid_ok k.
  Proof. intro H. assert (T := tagged_ok tag). destruct (with_tag tag kids) as [|k' l]; [discriminate H|]. injection H as <-. now inversion T. Qed.

  Lemma obj_agrees ns nss cs m :
    match mread_obj W mks ns nss cs m with
    | Ok (m', Some r) => grown m m' [] /\ ref_in (between m m') r /\ (exists a, r = EO a) /\ exists v, read_obj W rks ns nss cs = Ok (Some v) /\ load f m' r = Ok v
    | Ok (m', None) => m' = m /\ read_obj W rks ns nss cs = Ok None
    | Err x => read_obj W rks ns nss cs = Err x
    end.
  Proof.
    induction cs as [|c cs IH]; cbn [mread_obj read_obj]; [auto|]. destruct (class_tag W c) as [tag|x]; cbn [bind]; [|reflexivity].
    rewrite rfind. unfold mks. rewrite mfind_map. fold mks. assert (H := hd_ok (ns ++ tag)). destruct (with_tag (ns ++ tag) kids) as [|k l]; cbn [map hd_error option_map]; [exact IH|].
    specialize (H k eq_refl c ns nss m). cbn [snd]. destruct (mread W strict k c ns nss m) as [[m' r]|x]; cbn [bind]; [|now rewrite H].
    destruct H as [G [R [A [v [-> L]]]]]. cbn [bind]. split; [exact G|]. split; [exact R|]. split; [exact A|]. exists v. auto.
  Qed.

  Lemma kids_agree c ns nss l : Forall kid_ok l -> forall m,
    match mread_kids c ns nss (map (fun k => (k, mread W strict k)) l) m with
    | Ok (m', rs) => grown m m' [] /\ Forall (ref_in (between m m')) rs /\
        exists vs, map_res (fun k : rkid => snd k c ns nss) (map (fun k => (k, from_element W strict k)) l) = Ok vs /\ map_res (load f m') rs = Ok vs
    | Err x => map_res (fun k : rkid => snd k c ns nss) (map (fun k => (k, from_element W strict k)) l) = Err x
    end.
  Proof.
    clear Hkids mks rks. induction 1 as [|k l Hk _ IH]; intro m; cbn [map mread_kids map_res snd].
    - split; [apply grown_refl|]. split; [constructor|]. exists []. auto.
    - specialize (Hk c ns nss m). destruct (mread W strict k c ns nss m) as [[m1 r]|x]; cbn [bind]; [|now rewrite Hk].
      destruct Hk as [G [R [_ [v [-> L]]]]]. cbn [bind]. specialize (IH m1). destruct (mread_kids c ns nss (map (fun k => (k, mread W strict k)) l) m1) as [[m2 rs]|x]; cbn [bind]; [|now rewrite IH].
      destruct IH as [G2 [R2 [vs [-> L2]]]]. cbn [bind]. split; [exact (grown_trans _ _ _ [] G G2 (Nat.le_0_l _))|].
      assert (Ko1 := grown_objs _ _ _ G). assert (Ko2 := grown_objs _ _ _ G2).
      split; [constructor; [eapply ref_in_le; [|exact R]|eapply Forall_impl; [|exact R2]; intro e; apply ref_in_le]; unfold between; intros; lia|].
      exists (v :: vs). split; [reflexivity|]. cbn [map_res]. now rewrite (grown_load _ _ _ _ _ _ G2 L), L2.
  Qed.

  Lemma objs_agree ns nss cs : forall m,
    match mread_objs W mks ns nss cs m with
    | Ok (m', rs) => grown m m' [] /\ Forall (ref_in (between m m')) rs /\ exists vs, read_objs W rks ns nss cs = Ok vs /\ map_res (load f m') rs = Ok vs
    | Err x => read_objs W rks ns nss cs = Err x
    end.
  Proof.
    unfold read_objs. induction cs as [|c cs IH]; intro m; cbn [mread_objs map_res bind].
    - split; [apply grown_refl|]. split; [constructor|]. exists []. auto.
    - destruct (class_tag W c) as [tag|x]; cbn [bind]; [|reflexivity]. rewrite rfinds. unfold mks. rewrite mfind_map. fold mks.
      assert (H := kids_agree c ns nss _ (tagged_ok (ns ++ tag)) m).
      match goal with |- context[mread_kids c ns nss ?l m] =>
        match type of H with context[mread_kids c ns nss ?l' m] => change l' with l in H end; destruct (mread_kids c ns nss l m) as [[m1 rs]|x]; cbn [bind]; [|change (map_res (fun k : rkid => snd k c ns nss) (map (kid_reader W strict) (with_tag (ns ++ tag) kids)) = Err x) in H; now rewrite H] end.
      destruct H as [G [R [vs [-> L]]]]. cbn [bind]. specialize (IH m1). destruct (mread_objs W mks ns nss cs m1) as [[m2 rs2]|x]; cbn [bind].
      + destruct IH as [G2 [R2 [vs2 [E2 L2]]]]. apply bind_ok in E2 as [l2 [-> E2]]. injection E2 as <-. cbn [bind].
        split; [exact (grown_trans _ _ _ [] G G2 (Nat.le_0_l _))|].
        assert (Ko1 := grown_objs _ _ _ G). assert (Ko2 := grown_objs _ _ _ G2).
        split; [apply Forall_app; split; (eapply Forall_impl; [intro e; apply ref_in_le|eassumption]); unfold between; intros; lia|].
        exists (vs ++ concat l2). split; [reflexivity|]. rewrite map_res_app.
        assert (L' : map_res (load f m2) rs = Ok vs).
        { apply map_res_ok in L. clear -L G2. induction L as [|x y l r H1 _ IH]; [reflexivity|]. cbn [map_res]. now rewrite (grown_load _ _ _ _ _ _ G2 H1), IH. }
        rewrite L'. cbn [bind]. now rewrite L2.
      + destruct (map_res _ cs) as [l2|y]; cbn [bind] in *; [discriminate IH|exact IH].
  Qed.

  Definition agrees (m : memory) (a : string) (x : res (memory * option hval)) (y : res (option value)) : Prop :=
    match x with
    | Ok (m', Some h) => grown m m' [(a, h)] /\ exists v, y = Ok (Some v) /\ load_hval (load f m') (m_lists m') h = Ok v /\ proper (m_lists m') h = true
    | Ok (m', None) => grown m m' [] /\ y = Ok None
    | Err e => y = Err e
    end.

  (** Getters that do not make objects. *)
  Lemma blind_same it a tx ns nss : it_get it <> GObj -> it_get it <> GObjs ->
    get_kwarg W strict it a tx (map blind mks) ns nss = get_kwarg W strict it a tx rks ns nss.
  Proof.
    intros N1 N2.
    assert (Fk : forall tag, option_map fst (find_kid tag (map blind mks)) = option_map fst (find_kid tag rks)).
    { intro tag. unfold mks, rks. clear Hkids mks rks. induction kids as [|k ks IH]; [reflexivity|]. cbn. destruct (ueqb (e_tag k) tag); [reflexivity|exact IH]. }
    assert (Fs : forall tag, map fst (find_kids tag (map blind mks)) = map fst (find_kids tag rks)).
    { intro tag. unfold mks, rks, find_kids. clear Hkids mks rks Fk. induction kids as [|k ks IH]; [reflexivity|]. cbn. destruct (ueqb (e_tag k) tag); cbn; now rewrite IH. }
    assert (Tx : forall tag, match find_kid tag (map blind mks) with Some k => stripped (e_text (fst k)) | None => None end = match find_kid tag rks with Some k => stripped (e_text (fst k)) | None => None end).
    { intro tag. specialize (Fk tag). destruct (find_kid tag (map blind mks)) as [k|], (find_kid tag rks) as [k'|]; cbn in Fk; try discriminate Fk; [|reflexivity]. injection Fk as ->. reflexivity. }
    assert (Ds : forall {B} (g : rkid -> res B), (forall k k', fst k = fst k' -> g k = g k') -> forall l l', map fst l = map fst l' -> map_res g l = map_res g l').
    { intros B g Hg. induction l as [|k l IH]; intros [|k' l'] E; cbn in E; try discriminate E; [reflexivity|]. injection E as E1 E2. cbn [map_res]. now rewrite (Hg _ _ E1), (IH _ E2). }
    unfold get_kwarg. rewrite Tx. destruct (it_get it); try reflexivity; try contradiction.
    - erewrite Ds; [reflexivity| |apply Fs]. intros k k' E. unfold read_date. now rewrite E.
    - erewrite Ds; [reflexivity| |apply Fs]. intros k k' E. unfold read_coord. now rewrite E.
  Qed.

  Lemma plain_agrees m a y : (forall v, y = Ok (Some v) -> match v with VList _ => False | _ => True end) ->
    agrees m a (let! r := y in Ok (m, option_map (fun v => HE (EV v)) r)) y.
  Proof.
    intro H. destruct y as [[v|]|x]; cbn [bind option_map agrees]; [|split; [apply grown_refl|reflexivity]|reflexivity].
    split; [apply grown_ref; [apply grown_refl|exact I]|]. exists v. split; [reflexivity|]. specialize (H v eq_refl). split; [now destruct f|]. cbn. now destruct v.
  Qed.

  Lemma list_agrees m a y : (forall v, y = Ok (Some v) -> match v with VCoords _ _ | VDates _ => True | _ => False end) ->
    agrees m a (let! r := y in match r with Some v => let '(m1, h) := alloc m (LPlain v) in Ok (m1, Some h) | None => Ok (m, None) end) y.
  Proof.
    intro H. destruct y as [[v|]|x]; cbn [bind agrees]; [|split; [apply grown_refl|reflexivity]|reflexivity].
    cbn [alloc]. split; [exact (grown_alloc m (LPlain v) a I)|]. exists v. split; [reflexivity|]. cbn [m_lists load_hval proper]. rewrite nth_error_app2, Nat.sub_diag by lia. cbn [nth_error load_content]. split; [reflexivity|].
    unfold contents. rewrite nth_middle. specialize (H v eq_refl). cbn. destruct v; try destruct H; reflexivity.
  Qed.

  Lemma guarded_ok (x : res value) v : guarded strict x = Ok (Some v) -> x = Ok v.
  Proof. unfold guarded. destruct x as [w|[]]; try discriminate; try (destruct strict; discriminate). intro H. now injection H as <-. Qed.

  Lemma bool_class {A} cls (x : res A) v : match cls with ["bool"] => x | _ => Err EAssertion end = Ok v -> x = Ok v.
  Proof.
    intro H. repeat match type of H with match ?x with _ => _ end = Ok _ => destruct x; try discriminate H end. exact H.
  Qed.

  Lemma enum_class {A} cls (g : string -> enum_info -> res A) v : with_enum W cls g = Ok v -> exists c e, g c e = Ok v.
  Proof. unfold with_enum. destruct cls as [|c [|? ?]]; try discriminate. destruct (sget c (w_enums W)) as [e|]; [|discriminate]. intro H. now exists c, e. Qed.

  Lemma enum_val c e t v : get_enum_value c e strict t = Ok v -> exists m, v = VEnum c m.
  Proof. unfold get_enum_value. intro H. apply bind_ok in H as [m [_ H]]. destruct (_ && _); [discriminate H|]. injection H as <-. now exists m. Qed.

  Lemma mget_agrees it at_ tx ns nss m : agrees m (it_attr it) (mget_kwarg W strict it at_ tx mks ns nss m) (get_kwarg W strict it at_ tx rks ns nss).
  Proof.
    unfold mget_kwarg. destruct (it_get it) eqn:G; try rewrite (blind_same it) by (rewrite G; discriminate).
    all: try (apply plain_agrees; intros v Hv; unfold get_kwarg in Hv; rewrite G in Hv).
    all: try (apply list_agrees; intros v Hv; unfold get_kwarg in Hv; rewrite G in Hv).
    all: repeat (match type of Hv with
      | Ok (match ?x with Some _ => _ | None => _ end) = _ => destruct x
      | match ?x with Some _ => _ | None => _ end = _ => destruct x
      end; try discriminate Hv).
    all: try (injection Hv as <-; exact I).
    all: try (apply guarded_ok in Hv).
    all: try (apply bind_ok in Hv as [w [Hw Hv]]; try (destruct (nilb (concat w)); [discriminate Hv|]); injection Hv as <-; exact I).
    - apply bool_class in Hv. destruct (match find_kid (ns ++ u (it_node it)) rks with Some k => stripped (e_text (fst k)) | None => None end) as [t|]; [|discriminate Hv].
      apply guarded_ok in Hv. unfold get_boolean_value in Hv. cbv zeta in Hv. destruct (_ || _); [now injection Hv as <-|]. destruct (_ || _); [now injection Hv as <-|]. destruct strict; [discriminate Hv|].
      apply bind_ok in Hv as [w [_ Hv]]. now injection Hv as <-.
    - apply enum_class in Hv as [c [e Hv]]. destruct (match find_kid (ns ++ u (it_node it)) rks with Some k => stripped (e_text (fst k)) | None => None end) as [t|]; [|discriminate Hv].
      apply guarded_ok, enum_val in Hv as [y ->]. exact I.
    - apply enum_class in Hv as [c [e Hv]]. destruct (match uget (ns ++ u (it_node it)) at_ with Some t => if uempty t then None else Some t | None => None end) as [t|]; [|discriminate Hv].
      apply guarded_ok, enum_val in Hv as [y ->]. exact I.
    - cbn [agrees]. assert (H := obj_agrees ns nss (it_classes it) m). unfold get_kwarg. rewrite G. destruct (mread_obj W mks ns nss (it_classes it) m) as [[m' [r|]]|x]; cbn [bind option_map agrees].
      + destruct H as [H1 [H2 [[a ->] [v [E L]]]]]. split; [now apply grown_ref|]. exists v. auto.
      + destruct H as [-> E]. split; [apply grown_refl|exact E].
      + exact H.
    - cbn [agrees]. assert (H := objs_agree ns nss (it_classes it) m). unfold get_kwarg. rewrite G. destruct (mread_objs W mks ns nss (it_classes it) m) as [[m' l]|x]; cbn [bind alloc agrees].
      + destruct H as [H1 [H2 [vs [E L]]]]. rewrite E. cbn [bind].
        split; [now apply (grown_alloc_more m m' (LObjs l) (it_attr it))|]. exists (VList vs). split; [reflexivity|]. cbn [m_lists load_hval proper]. rewrite nth_error_app2, Nat.sub_diag by lia. cbn [nth_error load_content].
        split; [|unfold contents; now rewrite nth_middle]. apply map_res_ok in L.
        match goal with |- context[map_res ?g l] => assert (E' : map_res g l = Ok vs) end; [|now rewrite E'].
        assert (Q := fun x y => load_alloc m' (LObjs l) f x y). cbn [alloc fst] in Q. revert Q. generalize (mkM (m_lists m' ++ [LObjs l]) (m_objs m') (m_lvars m') (m_evars m')). intros m'' Q.
        clear -L Q. induction L as [|x y l r H1 _ IH]; [reflexivity|]. cbn [map_res]. now rewrite (Q _ _ H1), IH.
      + now rewrite H.
  Qed.

  Lemma mtry_agrees it at_ tx nss ids : forall m,
    agrees m (it_attr it) (mtry_nsids (fun ns => mget_kwarg W strict it at_ tx mks ns nss) nss ids m) (try_nsids (fun ns => get_kwarg W strict it at_ tx rks ns nss) nss ids).
  Proof.
    induction ids as [|id ids IH]; intro m; cbn [mtry_nsids try_nsids]; [split; [apply grown_refl|reflexivity]|].
    assert (H := mget_agrees it at_ tx (ns_get nss id) nss m). destruct (mget_kwarg W strict it at_ tx mks (ns_get nss id) nss m) as [[m1 [h|]]|x]; cbn [bind agrees] in *.
    - destruct H as [G [v [-> [L P]]]]. cbn [bind]. split; [exact G|]. exists v. auto.
    - destruct H as [G ->]. cbn [bind]. specialize (IH m1). destruct (mtry_nsids _ nss ids m1) as [[m2 [h|]]|x]; cbn [agrees] in *; [| |exact IH].
      + destruct IH as [G2 IH]. split; [exact (grown_trans _ _ _ _ G G2 (le_n 1))|exact IH].
      + destruct IH as [G2 IH]. split; [exact (grown_trans _ _ _ _ G G2 (Nat.le_0_l _))|exact IH].
    - now rewrite H.
  Qed.

  (** Arguments collected so far, in memory and on trees. *)
  Record gathered (m0 m : memory) (kws : list (string * hval)) (lk : list (string * value)) : Prop := {
    ga_grown : grown m0 m kws;
    ga_keys : NoDup (map fst kws);
    ga_loads : map_res (load_attr (load f m) (m_lists m)) kws = Ok lk;
    ga_proper : forallb (fun kv => proper (m_lists m) (snd kv)) kws = true
  }.

  Lemma sset_keys {A} a (h : A) acc : NoDup (map fst acc) -> NoDup (map fst (sset a h acc)).
  Proof.
    assert (I : forall acc b, In b (map fst (sset a h acc)) -> b = a \/ In b (map fst acc)).
    { clear. induction acc as [|[k v] acc IH]; cbn [sset map fst]; intros b Hb; [destruct Hb as [<-|[]]; now left|]. destruct (String.eqb a k) eqn:E.
      - apply String.eqb_eq in E. subst k. destruct Hb as [<-|Hb]; [now left|right; now right].
      - destruct Hb as [<-|Hb]; [right; now left|]. destruct (IH b Hb); [now left|right; now right]. }
    induction acc as [|[k v] acc IH]; cbn [sset map fst]; intro H; [constructor; [intros []|constructor]|]. inversion H as [|? ? H1 H2]; subst. destruct (String.eqb a k) eqn:E.
    - apply String.eqb_eq in E. subst k. cbn [map fst]. now constructor.
    - cbn [map fst]. constructor; [|now apply IH]. intro Q. apply I in Q as [->|Q]; [|contradiction]. rewrite String.eqb_refl in E. discriminate.
  Qed.

  Lemma loads_sset (g : string * hval -> res (string * value)) a h v (acc : list (string * hval)) lacc : map_res g acc = Ok lacc -> g (a, h) = Ok (a, v) -> (forall kv w, In kv acc -> g kv = Ok w -> fst w = fst kv) ->
    map_res g (sset a h acc) = Ok (sset (A := value) a v lacc).
  Proof.
    intros H Hg Hf. revert lacc H. induction acc as [|[k h'] acc IH]; intros lacc H; cbn [map_res sset] in *.
    - injection H as <-. rewrite Hg. reflexivity.
    - apply bind_ok in H as [w [Hw H]]. apply bind_ok in H as [r [Hr H]]. injection H as <-. assert (E := Hf _ _ (or_introl eq_refl) Hw). destruct w as [k' w]. cbn [fst] in E. subst k'. cbn [sset].
      destruct (String.eqb a k); cbn [map_res]; [rewrite Hg; cbn [bind]; now rewrite Hr|]. rewrite Hw. cbn [bind]. now rewrite (IH (fun kv w Hin => Hf kv w (or_intror Hin)) _ Hr).
  Qed.

  Lemma gathered_add m0 m1 m2 a r y acc lacc : gathered m0 m1 acc lacc -> agrees m1 a (Ok (m2, r)) (Ok y) ->
    gathered m0 m2 (opt_set a r acc) (match y with Some v => sset a v lacc | None => lacc end).
  Proof.
    intros [G K L P] H.
    assert (G2 : grown m1 m2 (opt_kw a r)) by (destruct r; cbn [agrees opt_kw] in *; apply H).
    assert (Gn := grown_add _ _ _ _ _ _ G G2).
    assert (L2 : map_res (load_attr (load f m2) (m_lists m2)) acc = Ok lacc).
    { apply map_res_ok in L. clear -L G2. induction L as [|x w l r' H1 _ IH]; [reflexivity|]. cbn [map_res]. unfold load_attr in H1 |- * at 1. apply bind_ok in H1 as [v [Hv H1]].
      rewrite (grown_load_hval _ _ _ _ _ _ G2 Hv). cbn [bind]. injection H1 as <-. now rewrite IH. }
    assert (P2 : forallb (fun kv => proper (m_lists m2) (snd kv)) acc = true).
    { rewrite forallb_forall in *. intros kv Hkv. apply (proper_more m1 m2 _ _ G2); [|now apply P]. intros b Hb. destruct G as [ls [os [_ [_ [I0 _]]]]].
      assert (Q : In b (held_attrs acc)) by (unfold held_attrs; apply in_flat_map; exists kv; auto). specialize (I0 b (in_or_app _ _ _ (or_introl Q))). lia. }
    destruct r as [h|]; cbn [opt_set agrees] in *.
    - destruct H as [_ [v [E [Lh Ph]]]]. injection E as ->. constructor; [exact Gn|now apply sset_keys| |].
      + apply loads_sset; [exact L2|unfold load_attr; cbn [fst snd]; now rewrite Lh|]. intros kv w _ Hw. unfold load_attr in Hw. apply bind_ok in Hw as [z [_ Hw]]. now injection Hw as <-.
      + clear -P2 Ph. induction acc as [|[k h'] acc IH]; cbn [sset forallb snd] in *; [now rewrite Ph|]. apply andb_prop in P2 as [Pa Pb]. destruct (String.eqb a k); cbn [forallb snd]; [now rewrite Ph, Pb|now rewrite Pa, IH].
    - destruct H as [_ E]. injection E as ->. constructor; assumption.
  Qed.

  Lemma mkwargs_agree its at_ tx nss : forall m0 m acc lacc, gathered m0 m acc lacc ->
    match mget_kwargs W strict its at_ tx mks nss acc m with
    | Ok (m', kws) => exists lk, get_kwargs W strict its at_ tx rks nss lacc = Ok lk /\ gathered m0 m' kws lk
    | Err x => get_kwargs W strict its at_ tx rks nss lacc = Err x
    end.
  Proof.
    induction its as [|it its IH]; intros m0 m acc lacc Ga; cbn [mget_kwargs get_kwargs]; [now exists lacc|].
    assert (H := mtry_agrees it at_ tx nss (it_nsids it) m). destruct (mtry_nsids _ nss (it_nsids it) m) as [[m1 r]|x]; cbn [bind]; [|cbn [agrees] in H; now rewrite H].
    destruct (try_nsids _ nss (it_nsids it)) as [y|x]; cbn [bind].
    - apply (IH m0 m1 (opt_set (it_attr it) r acc)). exact (gathered_add _ _ _ _ _ _ _ _ Ga H).
    - cbn [agrees] in H. destruct r as [h|]; [destruct H as [_ [v [E _]]]|destruct H as [_ E]]; discriminate E.
  Qed.
End Node.

(** ** The new object *)

Definition names_held (kws : list (string * hval)) (names : list string) : list nat := flat_map (fun a => held_val (hget kws a)) names.

Lemma names_held_in kws names a : In a (names_held kws names) -> In a (held_attrs kws).
Proof.
  unfold names_held. rewrite in_flat_map. intros [n [_ H]]. unfold hget in H. destruct (sget n kws) as [h|] eqn:E; [|destruct H]. apply sget_in in E.
  unfold held_attrs. apply in_flat_map. now exists (n, h).
Qed.

Lemma names_held_once kws names : NoDup names -> NoDup (held_attrs kws) -> NoDup (names_held kws names).
Proof.
  intros Hn Hk. induction Hn as [|n names H1 H2 IH]; [constructor|]. unfold names_held. cbn [flat_map]. fold (names_held kws names).
  destruct (hget kws n) as [e|a] eqn:E; [exact IH|]. cbn [held_val app]. constructor; [|exact IH].
  intro Q. unfold names_held in Q. apply in_flat_map in Q as [n' [Hn' Q]]. destruct (hget kws n') as [e|b] eqn:E'; [destruct Q|]. destruct Q as [->|[]].
  assert (N : n <> n') by congruence. clear -E E' N Hk. unfold hget in *. destruct (sget n kws) as [h|] eqn:S; [|discriminate E]. subst h. destruct (sget n' kws) as [h|] eqn:S'; [|discriminate E']. subst h.
  apply sget_in in S, S'. revert S S'. clear -Hk N. induction kws as [|[k h] kws IH]; [intros []|]. cbn [held_attrs flat_map snd] in Hk. fold (held_attrs kws) in Hk. intros [S|S] [S'|S'].
  - congruence.
  - injection S as -> ->. cbn in Hk. inversion Hk as [|? ? Q _]; subst. apply Q. apply in_held_attrs. now exists n'.
  - injection S' as -> ->. cbn in Hk. inversion Hk as [|? ? Q _]; subst. apply Q. apply in_held_attrs. now exists n.
  - apply IH; auto. now apply NoDup_app_remove_l in Hk.
Qed.

Lemma filter_refs_in W ld P l r : Forall (ref_in P) l -> filter_refs W ld l = Ok r -> Forall (ref_in P) r.
Proof.
  intros F. revert r. induction F as [|x l Hx F IH]; intros r H; cbn [filter_refs] in H; [injection H as <-; constructor|].
  apply bind_ok in H as [v [_ H]]. apply bind_ok in H as [b [_ H]]. apply bind_ok in H as [r' [Hr H]]. injection H as <-. destruct b; [constructor|]; auto.
Qed.

Definition aval_in (P : nat -> Prop) (x : aval) : Prop := match x with AE e => ref_in P e | AL c => content_in P c end.

Lemma stores_in W ld kws a kd s P : aval_in P (aget kws a) -> stores W ld kws (a, kd) = Ok s ->
  match s with Same => True | Alias.Elem e => ref_in P e | Fresh c => content_in P c end.
Proof.
  intros F H. unfold stores in H. cbv zeta in H. destruct kd.
  - injection H as <-. exact I.
  - apply bind_ok in H as [v [_ H]]. apply bind_ok in H as [w [_ H]]. injection H as <-. exact I.
  - apply bind_ok in H as [v [_ H]]. apply bind_ok in H as [b [_ H]]. destruct b; [|discriminate H]. apply bind_ok in H as [w [_ H]]. injection H as <-. exact I.
  - apply bind_ok in H as [v [_ H]]. apply bind_ok in H as [b [_ H]]. injection H as <-. destruct b; exact I.
  - apply bind_ok in H as [v [_ H]]. apply bind_ok in H as [b [_ H]]. injection H as <-. destruct b; exact I.
  - destruct (aget kws a) as [[[]|]|[]]; try discriminate H; injection H as <-; [constructor|exact F].
  - destruct (aget kws a) as [[[]|]|[]]; try discriminate H; injection H as <-; [constructor|exact F].
  - destruct (aget kws a) as [[[]|]|[]]; try discriminate H; [injection H as <-; constructor|]. apply bind_ok in H as [r [Hr H]]. injection H as <-. exact (filter_refs_in _ _ _ _ _ F Hr).
  - apply bind_ok in H as [v [_ H]]. apply bind_ok in H as [b [_ H]]. injection H as <-. destruct b; exact I.
  - apply bind_ok in H as [i [_ H]]. apply bind_ok in H as [w [_ H]]. apply bind_ok in H as [c [_ H]]. apply bind_ok in H as [g [_ H]]. apply bind_ok in H as [r [_ H]]. injection H as <-. exact I.
Qed.

Lemma assign_grown W ld kws ls0 P : (forall a, aval_in P (aget (see_all ls0 kws) a)) -> attrs_in P kws ->
  forall aks ls ls' r, NoDup (map fst aks) -> assign W ld kws (see_all ls0 kws) aks ls = Ok (ls', r) ->
  exists new names, ls' = ls ++ new /\ Forall (content_in P) new /\ attrs_in P r /\
    incl names (map fst aks) /\ NoDup names /\ Permutation (held_attrs r) (names_held kws names ++ seq (length ls) (length new)).
Proof.
  intros V K. induction aks as [|[a kd] aks IH]; intros ls ls' r Hn H; cbn [assign] in H.
  - injection H as <- <-. exists [], []. rewrite app_nil_r. repeat split; try constructor. intros ? [].
  - apply bind_ok in H as [s [Hs H]]. assert (Sf := stores_in _ _ _ _ _ _ P (V a) Hs).
    destruct (match s with Same => (ls, hget kws a) | Alias.Elem e => (ls, HE e) | Fresh c => (ls ++ [c], HL (length ls)) end) as [ls1 h] eqn:E1.
    apply bind_ok in H as [[ls2 r2] [H2 H]]. injection H as <- <-. cbn [map fst] in Hn. inversion Hn as [|? ? Na Hn']; subst.
    destruct (IH _ _ _ Hn' H2) as [new [names [-> [Fn [Fr [Hi [Hd Hp]]]]]]].
    destruct s as [|e|c]; injection E1 as <- <-.
    + exists new, (a :: names). split; [reflexivity|]. split; [exact Fn|]. split.
      { constructor; [|exact Fr]. cbn [snd]. unfold hget. destruct (sget a kws) as [h|] eqn:Eh; [|exact I]. apply sget_in in Eh. unfold attrs_in in K. rewrite Forall_forall in K. exact (K _ Eh). }
      split; [intros b [<-|Hb]; [now left|right; now apply Hi]|]. split; [constructor; [intro Q; now apply Na, Hi|exact Hd]|].
      unfold names_held. cbn [held_attrs flat_map snd]. fold (held_attrs r2) (names_held kws names). rewrite <- app_assoc. now apply Permutation_app_head.
    + exists new, names. split; [reflexivity|]. split; [exact Fn|]. split; [constructor; [exact Sf|exact Fr]|]. split; [intros b Hb; right; now apply Hi|]. split; [exact Hd|]. exact Hp.
    + exists (c :: new), names. split; [now rewrite <- app_assoc|]. split; [now constructor|]. split; [constructor; [exact I|exact Fr]|]. split; [intros b Hb; right; now apply Hi|]. split; [exact Hd|].
      cbn [held_attrs flat_map snd held_val app length seq]. fold (held_attrs r2). rewrite app_length in Hp. cbn [length] in Hp. rewrite Nat.add_1_r in Hp.
      apply Permutation_cons_app. exact Hp.
Qed.

Lemma extras_held ci kws : NoDup (map fst kws) -> held_attrs (extra_args ci kws) = names_held kws (map fst (extra_args ci kws)).
Proof.
  intro Hn. assert (H : forall kv, In kv (extra_args ci kws) -> hget kws (fst kv) = snd kv).
  { intros [k h] Hkv. apply filter_In in Hkv as [Hkv _]. unfold hget. cbn [fst snd]. now rewrite (sget_NoDup _ _ _ Hn Hkv). }
  unfold names_held, held_attrs. induction (extra_args ci kws) as [|kv l IH]; [reflexivity|]. cbn [map flat_map]. rewrite (H kv (or_introl eq_refl)), IH; [reflexivity|]. intros. apply H. now right.
Qed.

Lemma new_grown W c ci f m0 m1 ns nss kws m2 : class_of W c = Some ci -> NoDup (map fst (ctor_attrs ci)) -> (forall ak, In ak (ctor_attrs ci) -> mem (fst ak) (ci_params ci) = true) ->
  grown m0 m1 kws -> NoDup (map fst kws) -> new_obj W f m1 c ns nss kws = Ok m2 ->
  grown m0 (mkM (m_lists m2) (m_objs m2) (m_lvars m0) (m_evars m0)) [].
Proof.
  intros Hc Hctor Hpar [ls [os [E [N [I0 [L [O K]]]]]]] Hk H. unfold new_obj in H. rewrite Hc in H. cbv zeta in H. destruct (_ && _); [discriminate H|].
  assert (B : forall a, In a (held_attrs kws) -> a < length (m_lists m1)) by (intros a Ha; specialize (I0 a (in_or_app _ _ _ (or_introl Ha))); lia).
  rewrite (see_look _ _ B) in H. cbn [bind] in H. apply bind_ok in H as [[ls1 pre] [H1 H]]. apply bind_ok in H as [[ls2 post] [H2 H]]. injection H as <-. cbn [m_lists m_objs].
  set (k := between m0 m1) in *.
  assert (V : forall a, aval_in k (aget (see_all (m_lists m1) kws) a)).
  { intro a. rewrite aget_see. unfold hget. destruct (sget a kws) as [h|] eqn:Eh; [|exact I]. apply sget_in in Eh. destruct h as [e|b]; cbn [see aval_in].
    - unfold attrs_in in K. rewrite Forall_forall in K. exact (K _ Eh).
    - assert (Hb : In b (held_attrs kws)) by (apply in_held_attrs; now exists a). specialize (I0 b (in_or_app _ _ _ (or_introl Hb))). rewrite E in I0 |- *. cbn [m_lists] in *. rewrite app_length in I0.
      unfold contents. rewrite app_nth2 by lia. rewrite Forall_forall in L. apply L, nth_In. lia. }
  unfold ctor_attrs in *. rewrite map_app in Hctor. assert (Hc1 := NoDup_app_remove_r _ _ Hctor). assert (Hc2 := NoDup_app_remove_l _ _ Hctor).
  destruct (assign_grown W _ kws (m_lists m1) k V K _ _ _ _ Hc1 H1) as [n1 [nm1 [-> [F1 [R1 [In1 [D1 P1]]]]]]].
  destruct (assign_grown W _ kws (m_lists m1) k V K _ _ _ _ Hc2 H2) as [n2 [nm2 [-> [F2 [R2 [In2 [D2 P2]]]]]]].
  set (nn := match ns with Some n => n | None => default_ns W c (merge_ns nss) end).
  set (o := mkO c nn (length ((m_lists m1 ++ n1) ++ n2)) (pre ++ extra_args ci kws ++ post)).
  set (names := nm1 ++ map fst (extra_args ci kws) ++ nm2).
  assert (Dn : NoDup names).
  { assert (Dx : NoDup (map fst (extra_args ci kws))).
    { clear -Hk. unfold extra_args. induction kws as [|[a h] l IH]; [constructor|]. cbn [map fst] in Hk. inversion Hk as [|? ? Q1 Q2]; subst. cbn [filter fst]. destruct (negb (mem a (ci_params ci))); [|now apply IH].
      cbn [map fst]. constructor; [|now apply IH]. intro Q. apply Q1. apply in_map_iff in Q as [kv [<- Hkv]]. apply filter_In in Hkv as [Hkv _]. now apply in_map. }
    assert (Xp : forall a, In a (map fst (extra_args ci kws)) -> mem a (ci_params ci) = false).
    { intros a Ha. apply in_map_iff in Ha as [kv [<- Hkv]]. apply filter_In in Hkv as [_ Q]. now apply negb_true_iff in Q. }
    assert (Cp : forall a, In a (map fst (ci_pre ci)) \/ In a (map fst (ci_post ci)) -> mem a (ci_params ci) = true).
    { intros a Ha. assert (Q : In a (map fst (ci_pre ci ++ ci_post ci))) by (rewrite map_app; apply in_or_app; exact Ha). apply in_map_iff in Q as [ak [<- Q]]. now apply Hpar. }
    assert (Nd : forall (l1 l2 : list string), NoDup l1 -> NoDup l2 -> (forall a, In a l1 -> ~ In a l2) -> NoDup (l1 ++ l2)).
    { clear. induction l1 as [|x l1 IH]; intros l2 A1 A2 A3; [exact A2|]. inversion A1 as [|? ? Q1 Q2]; subst. cbn [app]. constructor; [|apply IH; auto; intros a Ha; apply A3; now right].
      rewrite in_app_iff. intros [Q|Q]; [contradiction|]. exact (A3 x (or_introl eq_refl) Q). }
    apply Nd; [exact D1|apply Nd; [exact Dx|exact D2|]|].
    - intros a Ha Ha2. specialize (Xp a Ha). specialize (Cp a (or_intror (In2 a Ha2))). congruence.
    - intros a Ha Ha2. apply in_app_or in Ha2 as [Ha2|Ha2]; [specialize (Xp a Ha2); specialize (Cp a (or_introl (In1 a Ha))); congruence|].
      exact (NoDup_app_in _ _ a Hctor (In1 a Ha) (In2 a Ha2)). }
  assert (Po : Permutation (held_obj o) (names_held kws names ++ seq (length (m_lists m1)) (length n1 + length n2 + 1))).
  { unfold held_obj, o. cbn [o_nss o_attrs]. rewrite !held_attrs_app, (extras_held ci kws Hk). unfold names, names_held. rewrite !flat_map_app. fold (names_held kws nm1) (names_held kws nm2) (names_held kws (map fst (extra_args ci kws))).
    rewrite P1, P2, !app_length, !seq_app. cbn [seq]. rewrite <- !app_assoc. set (X := names_held kws (map fst (extra_args ci kws))). set (A := names_held kws nm1). set (B2 := names_held kws nm2). set (S1 := seq (length (m_lists m1)) (length n1)). set (S2 := seq (length (m_lists m1) + length n1) (length n2)). rewrite Nat.add_assoc.
    rewrite Permutation_cons_append, <- !app_assoc. apply Permutation_app_head. rewrite !app_assoc. apply Permutation_app_tail. apply Permutation_app_tail.
    rewrite (Permutation_app_comm S1 X), <- !app_assoc. apply Permutation_app_head, Permutation_app_comm. }
  exists (ls ++ n1 ++ n2 ++ [LDict (merge_ns nss)]), (os ++ [o]). cbn [m_lists m_objs].
  assert (Ll : ((m_lists m1 ++ n1) ++ n2) ++ [LDict (merge_ns nss)] = m_lists m0 ++ ls ++ n1 ++ n2 ++ [LDict (merge_ns nss)]) by (rewrite E; cbn [m_lists]; now rewrite <- !app_assoc).
  split; [rewrite Ll; f_equal; rewrite E; cbn [m_objs]; now rewrite app_assoc|].
  assert (Hall : Permutation (held_attrs [] ++ flat_map held_obj (os ++ [o])) ((names_held kws names ++ flat_map held_obj os) ++ seq (length (m_lists m1)) (length n1 + length n2 + 1))).
  { cbn [held_attrs flat_map app]. rewrite flat_map_app. cbn [flat_map]. rewrite app_nil_r, Po, <- app_assoc. rewrite app_assoc, (Permutation_app_comm (flat_map held_obj os)), <- app_assoc. reflexivity. }
  assert (Sub : forall a, In a (names_held kws names ++ flat_map held_obj os) -> length (m_lists m0) <= a < length (m_lists m1)).
  { intros a Ha. apply I0. apply in_app_or in Ha as [Ha|Ha]; apply in_or_app; [left; now apply names_held_in in Ha|now right]. }
  split.
  { apply (Permutation_NoDup (Permutation_sym Hall)). apply NoDup_more; [|intros a Ha; now apply Sub].
    assert (Nk := NoDup_app_remove_r _ _ N). assert (No := NoDup_app_remove_l _ _ N). assert (Q := names_held_once kws names Dn Nk).
    assert (Dj : forall a, In a (names_held kws names) -> ~ In a (flat_map held_obj os)) by (intros a Ha; apply (NoDup_app_in _ _ a N); now apply names_held_in in Ha).
    clear -Q No Dj. induction Q as [|x l Hx Q IH]; [exact No|]. cbn [app]. constructor; [rewrite in_app_iff; intros [R|R]; [contradiction|exact (Dj x (or_introl eq_refl) R)]|]. apply IH. intros a Ha. apply Dj. now right. }
  assert (Lm : length (((m_lists m1 ++ n1) ++ n2) ++ [LDict (merge_ns nss)]) = length (m_lists m1) + length n1 + length n2 + 1) by (rewrite !app_length; reflexivity).
  assert (L01 : length (m_lists m0) <= length (m_lists m1)) by (rewrite E; cbn [m_lists]; rewrite app_length; lia).
  split.
  { intros a Ha. rewrite Lm. apply (Permutation_in _ Hall) in Ha. apply in_app_or in Ha as [Ha|Ha]; [specialize (Sub a Ha); lia|apply in_seq in Ha; lia]. }
  match goal with |- Forall (content_in ?Q) _ /\ _ => assert (Bw : forall a, k a -> Q a) by (unfold k, between; cbn [m_objs]; intro a; rewrite app_length; lia) end.
  split; [eapply Forall_impl; [intro; apply (content_in_le k _ _ Bw)|]; rewrite !Forall_app; repeat split; auto; constructor; [exact I|constructor]|].
  split; [|constructor]. eapply Forall_impl; [intro; apply (attrs_in_le k _ _ Bw)|]. apply Forall_app. split; [exact O|]. constructor; [|constructor]. unfold o. cbn [o_attrs]. unfold attrs_in in *. rewrite !Forall_app. split; [exact R1|]. split; [|exact R2].
  rewrite Forall_forall in K |- *. intros kv Hkv. apply filter_In in Hkv as [Hkv _]. now apply K.
Qed.

(** ** Reading *)

Lemma kid_depth k ks : In k ks -> edepth k <= fold_right (fun k d => Nat.max (edepth k) d) 0 ks.
Proof. induction ks as [|k' ks IH]; [intros []|]. intros [->|H]; cbn [fold_right]; [lia|]. specialize (IH H). lia. Qed.

Theorem mread_agrees W strict e : world_ok W = true -> forall f, edepth e <= f -> kid_ok W strict f e.
Proof.
  intro HW. induction e as [t at_ tx ks IH] using elem_ind'. intros f Hf c ns nss m. cbn [edepth] in Hf. set (d := fold_right (fun k d => Nat.max (edepth k) d) 0 ks) in *.
  assert (Hk : Forall (kid_ok W strict d) ks).
  { rewrite Forall_forall in *. intros k Hk. apply (IH k Hk). now apply kid_depth. }
  cbn [mread from_element]. unfold read_with. cbv zeta. fold d.
  assert (G0 : gathered d m m [] []) by (constructor; [apply grown_refl|constructor|reflexivity|reflexivity]).
  assert (H := mkwargs_agree W strict ks d Hk (items_of W c) at_ tx (merge_ns nss) m m [] [] G0).
  match goal with |- context[mget_kwargs W strict _ at_ tx ?l _ [] m] => match type of H with context[mget_kwargs W strict _ at_ tx ?l' _ [] m] => change l' with l in H end; destruct (mget_kwargs W strict (items_of W c) at_ tx l (merge_ns nss) [] m) as [[m1 kws]|x]; cbn [bind] end.
  - destruct H as [lk [Hl Ga]]. match type of Hl with ?a = _ => match goal with |- context[get_kwargs ?A ?B ?C ?D ?E0 ?F0 ?G1 ?H0] => change a with (get_kwargs A B C D E0 F0 G1 H0) in Hl end end. rewrite Hl. cbn [bind]. destruct Ga as [G K L P].
    assert (B : forall a, In a (held_attrs kws) -> a < length (m_lists m1)).
    { destruct G as [ls [os [_ [_ [I0 _]]]]]. intros a Ha. specialize (I0 a (in_or_app _ _ _ (or_introl Ha))). lia. }
    assert (N := new_obj_loads W d m1 c (Some ns) (merge_ns nss) kws lk B L P). unfold make in N.
    destruct (new_obj W d m1 c (Some ns) (merge_ns nss) kws) as [m2|x] eqn:En; cbn [bind]; [|exact N].
    destruct N as [v [Lv Mv]]. destruct (class_of W c) as [ci|] eqn:Ec; [|unfold new_obj in En; rewrite Ec in En; discriminate En].
    assert (F := world_class _ _ _ HW Ec).
    split; [exact (new_grown W c ci d m m1 (Some ns) (merge_ns nss) kws m2 Ec (cf_ctor _ _ _ F) (cf_params _ _ _ F) G K En)|].
    split; [cbn [ref_in]; split; [apply (grown_objs _ _ _ G)|]; cbn [m_objs]; apply nth_error_Some; cbn [load] in Lv; intro Q; rewrite Q in Lv; discriminate Lv|]. split; [now eexists|]. exists v. split; [exact Mv|].
    apply (load_fuel _ (S d)); [exact Hf|]. clear -Lv. assert (Q := load_more m2 [] [] (m_lvars m) (m_evars m) _ _ _ Lv). now rewrite !app_nil_r in Q.
  - match type of H with ?a = _ => match goal with |- context[get_kwargs ?A ?B ?C ?D ?E0 ?F0 ?G1 ?H0] => change a with (get_kwargs A B C D E0 F0 G1 H0) in H end end. now rewrite H.
Qed.
