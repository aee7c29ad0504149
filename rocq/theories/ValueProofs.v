(** * Scalar attribute values: integers, booleans, enumerations, text. *)
From Coq Require Import String List NArith ZArith Bool Lia.
From Verif Require Import Ustr UstrProofs Res PyInt PyFloat PyNumProofs PyDate Elem Value Geom Codec Tables Spec EmitProofs CodecProofs FastkmlOk.
Import ListNotations.

Definition udec (a b : ustr) : {a = b} + {a <> b} := list_eq_dec N.eq_dec a b.

(** ** Integers below the digit limit *)

Lemma digits_aux_len fuel : forall n k, (0 <= n < 10 ^ Z.of_nat k)%Z -> (1 <= k)%nat -> (length (digits_aux fuel n []) <= k)%nat.
Proof.
  induction fuel as [|fuel IH]; intros n k Hn Hk; [cbn; lia|]. cbn [digits_aux].
  destruct (n <? 10)%Z eqn:E; [cbn; lia|]. apply Z.ltb_ge in E. rewrite digits_aux_app, app_length. cbn [length].
  destruct k as [|[|k]]; [lia|change (10 ^ Z.of_nat 1)%Z with 10%Z in Hn; lia|].
  assert (H := IH (n / 10)%Z (S k)). enough (length (digits_aux fuel (n / 10) []) <= S k)%nat by lia. apply H; [|lia].
  split; [apply Z.div_pos; lia|]. apply Z.div_lt_upper_bound; [lia|]. rewrite <- Z.pow_succ_r by lia. now rewrite <- Nat2Z.inj_succ.
Qed.

Lemma small_int_bound z : (Z.abs z < 10 ^ 4300)%Z -> small_int z = true.
Proof.
  intro H. unfold small_int. apply N.leb_le. assert (L := digits_aux_len (S (Z.to_nat (Z.log2 (Z.abs z)))) (Z.abs z) 4300).
  unfold digits_of, int_max_str_digits. change (Z.of_nat 4300) with 4300%Z in L. assert (length (digits_aux (S (Z.to_nat (Z.log2 (Z.abs z)))) (Z.abs z) []) <= 4300)%nat by (apply L; [split; [apply Z.abs_nonneg|exact H]|lia]).
  lia.
Qed.

(** ** One attribute of one element *)

(** [set_element] for one attribute on a fresh element. *)
Definition write_one (W : world) (ci : class_info) (ns : ustr) (nss : nss_t) (it : item) (v : value) : res elem :=
  set_element W None Normal ci ns nss [(it_attr it, v)] [] it (new_elem []).

(** [get_kwarg] for it, looking in the name space [ns]. *)
Definition read_one (W : world) (strict : bool) (ns : ustr) (nss : nss_t) (it : item) (e : elem) : res (option value) :=
  get_kwarg W strict it (e_attrib e) (e_text e) (map (fun k => (k, from_element W strict k)) (e_kids e)) ns nss.

Lemma obj_attr_one ci a v : obj_attr ci [(a, v)] a = v.
Proof. unfold obj_attr. cbn [sget]. now rewrite String.eqb_refl. Qed.

Section One.
  Variables (W : world) (ci : class_info) (ns : ustr) (nss : nss_t) (it : item) (strict : bool).

  Lemma int_one z e : (it_set it, it_get it) = (SInt, GInt) -> write_one W ci ns nss it (VInt z) = Ok e ->
    read_one W strict ns nss it e = Ok (Some (VInt z)).
  Proof.
    intros E H. injection E as E1 E2. unfold write_one, set_element in H. rewrite obj_attr_one, E1 in H. cbn [get_value str_value num_str] in H.
    apply bind_ok in H as [t [Ht H]]. injection H as <-. unfold read_one, get_kwarg. rewrite E2. unfold add_text, append_kid, new_elem, text_elem.
    cbn [e_kids e_attrib e_text app map find_kid fst e_tag]. rewrite ueqb_refl. cbn [fst e_text].
    assert (Hp := str_of_int_plain _ _ Ht). rewrite stripped_text by (try apply plain_no_space; tauto). now rewrite (int_roundtrip _ _ Ht).
  Qed.

  Lemma attr_int_one z e : (it_set it, it_get it) = (SAttrInt, GAttrInt) -> write_one W ci ns nss it (VInt z) = Ok e ->
    read_one W strict [] nss it e = Ok (Some (VInt z)).
  Proof.
    intros E H. injection E as E1 E2. unfold write_one, set_element in H. rewrite obj_attr_one, E1 in H. cbn [get_value str_value num_str] in H.
    apply bind_ok in H as [t [Ht H]]. injection H as <-. unfold read_one, get_kwarg. rewrite E2. unfold set_attr, new_elem.
    cbn [e_kids e_attrib e_text app map uset uget]. rewrite ueqb_refl.
    assert (Hp := str_of_int_plain _ _ Ht). destruct t; [now destruct Hp|]. cbn [uempty]. now rewrite (int_roundtrip _ _ Ht).
  Qed.

  Lemma write_int_one z : (it_set it = SInt \/ it_set it = SAttrInt) -> (Z.abs z < 10 ^ 4300)%Z -> exists e, write_one W ci ns nss it (VInt z) = Ok e.
  Proof.
    intros E H. unfold write_one, set_element. rewrite obj_attr_one. cbn [get_value str_value num_str].
    rewrite (str_of_int_ok z (small_int_bound z H)). cbn [bind]. destruct E as [-> | ->]; eauto.
  Qed.

  Lemma bool_one b : (it_set it, it_get it) = (SBool, GBool) -> it_classes it = ["bool"%string] ->
    exists e, write_one W ci ns nss it (VBool b) = Ok e /\ read_one W strict ns nss it e = Ok (Some (VBool b)).
  Proof.
    intros E Hc. injection E as E1 E2. unfold write_one, set_element. rewrite obj_attr_one, E1. cbn [get_value]. eexists. split; [reflexivity|].
    unfold read_one, get_kwarg. rewrite E2, Hc. unfold add_text, append_kid, new_elem, text_elem.
    cbn [e_kids e_attrib e_text app map find_kid fst e_tag]. rewrite ueqb_refl. cbn [fst e_text].
    rewrite stripped_text by (destruct b; (reflexivity || discriminate)). now rewrite bool_text.
  Qed.

  Lemma enum_one c e m : sget c (w_enums W) = Some e -> enum_ok e = true -> In m (map fst e) -> it_classes it = [c] ->
    (it_set it, it_get it) = (SEnum, GEnum) ->
    exists x, write_one W ci ns nss it (VEnum c m) = Ok x /\ read_one W strict (enum_ns W ns nss c m) nss it x = Ok (Some (VEnum c m)).
  Proof.
    intros Hc Ho Hm Hi E. injection E as E1 E2. unfold write_one, set_element. rewrite obj_attr_one, E1. cbn [get_value]. eexists. split; [reflexivity|].
    unfold read_one, get_kwarg. rewrite E2, Hi. unfold add_text, append_kid, new_elem, text_elem.
    cbn [e_kids e_attrib e_text app map find_kid fst e_tag]. rewrite ueqb_refl. cbn [fst e_text].
    unfold enum_ok in Ho. apply andb_prop in Ho as [_ Ho]. rewrite forallb_forall in Ho.
    assert (Hu : exists i, uget m e = Some i).
    { clear -Hm. induction e as [|[m' i] e IH]; [destruct Hm|]. cbn in *. destruct (ueqb_spec m m'); [eauto|]. destruct Hm; [congruence|auto]. }
    assert (Hn : no_space m = true /\ m <> []).
    { destruct Hu as [i Hu]. apply uget_In, Ho in Hu. cbn in Hu. apply andb_prop in Hu as [H1 H2]. split; [exact H1|]. now destruct m. }
    rewrite stripped_text by tauto. unfold with_enum. rewrite Hc. unfold get_enum_value, enum_lookup. rewrite enum_exact_member by exact Hu.
    cbn [bind]. now rewrite ueqb_refl, andb_false_r.
  Qed.

  Lemma attr_enum_one c e m : sget c (w_enums W) = Some e -> enum_ok e = true -> In m (map fst e) -> it_classes it = [c] ->
    (it_set it, it_get it) = (SAttrEnum, GAttrEnum) ->
    exists x, write_one W ci ns nss it (VEnum c m) = Ok x /\ read_one W strict [] nss it x = Ok (Some (VEnum c m)).
  Proof.
    intros Hc Ho Hm Hi E. injection E as E1 E2. unfold write_one, set_element. rewrite obj_attr_one, E1. cbn [get_value]. eexists. split; [reflexivity|].
    unfold read_one, get_kwarg. rewrite E2, Hi. unfold set_attr, new_elem. cbn [e_kids e_attrib e_text app map uset uget]. rewrite ueqb_refl.
    unfold enum_ok in Ho. apply andb_prop in Ho as [_ Ho]. rewrite forallb_forall in Ho.
    assert (Hu : exists i, uget m e = Some i).
    { clear -Hm. induction e as [|[m' i] e IH]; [destruct Hm|]. cbn in *. destruct (ueqb_spec m m'); [eauto|]. destruct Hm; [congruence|auto]. }
    assert (Hn : uempty m = false).
    { destruct Hu as [i Hu]. apply uget_In, Ho in Hu. cbn in Hu. apply andb_prop in Hu as [H1 H2]. now destruct m. }
    rewrite Hn. unfold with_enum. rewrite Hc. unfold get_enum_value, enum_lookup. rewrite enum_exact_member by exact Hu.
    cbn [bind]. now rewrite ueqb_refl, andb_false_r.
  Qed.
End One.

(** ** Enumerations *)

(** Members that differ only in case do not exist. *)
Definition enums_distinct (W : world) : bool :=
  forallb (fun ce => nodupb ueqb (map (fun m => lower (fst m)) (snd ce)) && enum_ok (snd ce)) (w_enums W).

Lemma fastkml_enums arrow : enums_distinct (fastkml arrow) = true.
Proof. vm_compute. reflexivity. Qed.

Lemma enum_exact_spec e t : enum_exact e t = (if in_dec udec t (map fst e) then Some t else None).
Proof.
  induction e as [|[m i] e IH]; [reflexivity|]. cbn [enum_exact map fst]. destruct (ueqb_spec m t) as [->|Ne].
  - destruct (in_dec udec t (t :: map fst e)) as [|H]; [reflexivity|]. exfalso. apply H. now left.
  - rewrite IH. destruct (in_dec udec t (map fst e)) as [H|H], (in_dec udec t (m :: map fst e)) as [H'|H']; try reflexivity.
    + exfalso. apply H'. now right.
    + exfalso. destruct H'; [congruence|auto].
Qed.

Lemma enum_relaxed_spec e t m : NoDup (map (fun m => lower (fst m)) e) -> In m (map fst e) -> lower m = lower t -> enum_relaxed e t = Some m.
Proof.
  induction e as [|[m' i] e IH]; intros Hd Hm El; [destruct Hm|]. cbn [enum_relaxed map fst] in *. inversion Hd; subst.
  destruct (ueqb_spec (lower m') (lower t)) as [E|Ne].
  - destruct Hm as [->|Hm]; [reflexivity|]. exfalso. apply H1. rewrite E, <- El. rewrite in_map_iff in Hm. destruct Hm as [x [<- Hx]].
    apply in_map_iff. eauto.
  - destruct Hm as [->|Hm]; [congruence|]. auto.
Qed.

Lemma enum_relaxed_none e t : (forall m, In m (map fst e) -> lower m <> lower t) -> enum_relaxed e t = None.
Proof.
  induction e as [|[m i] e IH]; intro H; [reflexivity|]. cbn [enum_relaxed]. destruct (ueqb_spec (lower m) (lower t)) as [E|Ne].
  - exfalso. now apply (H m); [left|].
  - apply IH. intros m' Hm. apply H. now right.
Qed.

Lemma enums_distinct_inv W c e : enums_distinct W = true -> sget c (w_enums W) = Some e ->
  NoDup (map (fun m => lower (fst m)) e) /\ enum_ok e = true.
Proof.
  intros H E. unfold enums_distinct in H. rewrite forallb_forall in H. specialize (H _ (sget_In _ _ _ E)). cbn [snd] in H.
  apply andb_prop in H as [H1 H2]. split; [|exact H2]. now apply (nodupb_NoDup ueqb ueqb_eq).
Qed.

Theorem enum_lenient W c e t : enums_distinct W = true -> sget c (w_enums W) = Some e ->
  (forall m, In m (map fst e) -> lower m = lower t -> get_enum_value c e false t = Ok (VEnum c m)) /\
  ((forall m, In m (map fst e) -> lower m <> lower t) -> get_enum_value c e false t = Err EValueError).
Proof.
  intros HW Hc. destruct (enums_distinct_inv W c e HW Hc) as [Hd _]. unfold get_enum_value, enum_lookup. rewrite enum_exact_spec. split.
  - intros m Hm El. rewrite (enum_relaxed_spec e t m Hd Hm El). destruct (in_dec udec t (map fst e)) as [Ht|_]; cbn [bind andb]; [|reflexivity].
    do 2 f_equal. assert (A := enum_relaxed_spec e t m Hd Hm El). assert (B := enum_relaxed_spec e t t Hd Ht eq_refl). congruence.
  - intro H. destruct (in_dec udec t (map fst e)) as [Ht|_]; [exfalso; now apply (H t)|]. now rewrite enum_relaxed_none.
Qed.

Theorem enum_strict c e t :
  (In t (map fst e) -> get_enum_value c e true t = Ok (VEnum c t)) /\
  (~ In t (map fst e) -> get_enum_value c e true t = Err EValueError).
Proof.
  unfold get_enum_value, enum_lookup. rewrite enum_exact_spec. split; intro H.
  - destruct (in_dec udec t (map fst e)); [|contradiction]. cbn [bind andb]. now rewrite ueqb_refl.
  - destruct (in_dec udec t (map fst e)) as [|_]; [contradiction|]. destruct (enum_relaxed e t) as [m|] eqn:E; [|reflexivity]. cbn [bind andb].
    destruct (ueqb_spec m t) as [->|]; [|reflexivity]. exfalso. apply H. clear -E. induction e as [|[m i] e IH]; [discriminate|]. cbn in *.
    destruct (ueqb (lower m) (lower t)); [left; congruence|right; auto].
Qed.

(** ** Booleans *)

(** What a boolean text says: its own table, else its numeric value. *)
Theorem bool_spec strict t :
  get_boolean_value strict t =
  let t' := if strict then t else lower t in
  if in_dec udec t' [u "1"; u "true"] then Ok (VBool true)
  else if in_dec udec t' [u "0"; u "false"] then Ok (VBool false)
  else if strict then Err EValueError
  else match float_of_str t' with
       | Ok f => Ok (VBool (float_truth f))
       | Err e => Err e
       end.
Proof.
  unfold get_boolean_value. cbv zeta. set (t' := if strict then t else lower t).
  assert (D : forall a b, (ueqb t' a || ueqb t' b) = if in_dec udec t' [a; b] then true else false).
  { intros a b. destruct (in_dec udec t' [a; b]) as [H|H].
    - destruct H as [<-|[<-|[]]]; rewrite ueqb_refl; [reflexivity|apply orb_true_r].
    - apply orb_false_iff. split; apply ueqb_neq; intros ->; apply H; [now left|right; now left]. }
  rewrite !D. destruct (in_dec udec t' [u "1"; u "true"]); [reflexivity|]. destruct (in_dec udec t' [u "0"; u "false"]); [reflexivity|].
  destruct strict; [reflexivity|]. destruct (float_of_str t') as [f|]; reflexivity.
Qed.
