(** * The reader with its log: C60. *)
From Coq Require Import String List NArith ZArith Bool Lia.
From Verif Require Import Ustr UstrProofs Res PyInt PyFloat PyDate Elem Value Geom Codec Spec EmitProofs CodecProofs ReadProofs RoundTrip NsProofs Agree AgreeProofs ValueProofs TotalProofs StrictProofs Report ReportSpec.
Import ListNotations.

(** ** Without the log it is the reader of Codec.v *)

Lemma then_snd {A B} (x : logged A) (f : A -> logged B) : snd (then_ x f) = bind (snd x) (fun a => snd (f a)).
Proof. destruct x as [l [a|e]]; cbn; [|reflexivity]. destruct (f a); reflexivity. Qed.

Lemma each_snd {A A' B} (f : A -> logged B) (g : A' -> res B) l l' :
  Forall2 (fun a b => snd (f a) = g b) l l' -> snd (each f l) = map_res g l'.
Proof.
  induction 1 as [|a b l l' H _ IH]; [reflexivity|]. cbn [each map_res]. rewrite then_snd, H.
  destruct (g b); [|reflexivity]. cbn [bind]. rewrite then_snd, IH. destruct (map_res g l'); reflexivity.
Qed.

Lemma attempt_snd strict m x : snd (attempt strict m x) = guarded strict (snd x).
Proof. destruct x as [l [v|e]]; [reflexivity|]. destruct e; reflexivity. Qed.

Lemma enum_log_snd c e strict t : snd (enum_value_log c e strict t) = get_enum_value c e strict t.
Proof.
  unfold enum_value_log, get_enum_value, enum_lookup_log, enum_lookup.
  destruct (enum_exact e t); [cbn; now destruct (strict && _)|].
  destruct (enum_relaxed e t); [cbn; now destruct (strict && _)|reflexivity].
Qed.

Lemma bool_cases2 {A B} (R : A -> B -> Prop) l x y x' y' : R x x' -> R y y' ->
  R (match l with ["bool"%string] => x | _ => y end) (match l with ["bool"%string] => x' | _ => y' end).
Proof. intros Hx Hy. rewrite (bool_match l x y), (bool_match l x' y'). now destruct (match l with ["bool"%string] => true | _ => false end). Qed.

Definition kid_erases (k : lkid) (k' : rkid) : Prop :=
  fst k = fst k' /\ forall c ns nss, snd (snd k c ns nss) = snd k' c ns nss.

Lemma find_lkids_rel (R : lkid -> rkid -> Prop) tag ks ks' : (forall k k', R k k' -> fst k = fst k') ->
  Forall2 R ks ks' -> Forall2 R (find_lkids tag ks) (find_kids tag ks').
Proof.
  intros HR. induction 1 as [|k k' ks ks' H _ IH]; [constructor|]. unfold find_lkids, find_kids in *. cbn [filter].
  rewrite <- (HR _ _ H). destruct (ueqb _ _); [now constructor|exact IH].
Qed.

Lemma find_lkid_hd tag ks : find_lkid tag ks = hd_error (find_lkids tag ks).
Proof. induction ks as [|k ks IH]; [reflexivity|]. cbn. destruct (ueqb _ _); [reflexivity|exact IH]. Qed.

Lemma obj_log_snd W ks ks' ns nss cs : Forall2 kid_erases ks ks' -> snd (obj_log W ks ns nss cs) = read_obj W ks' ns nss cs.
Proof.
  intro H. induction cs as [|c cs IH]; [reflexivity|]. cbn [obj_log read_obj]. rewrite then_snd. cbn [quiet snd].
  destruct (class_tag W c) as [tag|]; [|reflexivity]. cbn [bind]. rewrite find_lkid_hd, find_kid_hd.
  assert (Hk := find_lkids_rel _ (ns ++ tag) ks ks' (fun k k' (h : kid_erases k k') => proj1 h) H).
  destruct Hk as [|k k' l l' [_ Hk] _]; cbn [hd_error]; [exact IH|]. rewrite then_snd, Hk. reflexivity.
Qed.

Lemma objs_log_snd W ks ks' ns nss cs : Forall2 kid_erases ks ks' -> snd (objs_log W ks ns nss cs) = read_objs W ks' ns nss cs.
Proof.
  intro H. unfold objs_log, read_objs. rewrite then_snd. cbn [quiet snd]. f_equal. apply each_snd, Forall2_self. intro c.
  rewrite then_snd. cbn [quiet snd]. destruct (class_tag W c) as [tag|]; [|reflexivity]. cbn [bind]. apply each_snd.
  eapply Forall2_weaken; [|exact (find_lkids_rel _ (ns ++ tag) ks ks' (fun k k' (h : kid_erases k k') => proj1 h) H)].
  intros k k' [_ Hk]. apply Hk.
Qed.

Lemma get_kwarg_log_snd W strict it e ks ks' ns nss : Forall2 kid_erases ks ks' ->
  snd (get_kwarg_log W strict it e ks ns nss) = get_kwarg W strict it (e_attrib e) (e_text e) ks' ns nss.
Proof.
  intro H. unfold get_kwarg_log, get_kwarg. cbv zeta. set (key := ns ++ u (it_node it)).
  assert (Hf := find_lkids_rel _ key ks ks' (fun k k' (h : kid_erases k k') => proj1 h) H).
  rewrite find_lkid_hd, find_kid_hd.
  assert (Hh : match hd_error (find_lkids key ks), hd_error (find_kids key ks') with
               | Some k, Some k' => fst k = fst k' | None, None => True | _, _ => False end)
    by (destruct Hf as [|k k' l l' [E _] _]; [exact I|exact E]).
  assert (T : forall expected f g, (forall t, snd (f t) = g t) ->
    snd (match hd_error (find_lkids key ks) with
         | Some k => match stripped (e_text (fst k)) with
                     | Some t => attempt strict (Refused e (fst k) expected) (f t)
                     | None => quiet (Ok None)
                     end
         | None => quiet (Ok None) end) =
    match match hd_error (find_kids key ks') with Some k => stripped (e_text (fst k)) | None => None end with
    | Some t => guarded strict (g t) | None => Ok None end).
  { intros ex f g Hg. destruct (hd_error (find_lkids key ks)) as [k|], (hd_error (find_kids key ks')) as [k'|]; try contradiction; [|reflexivity].
    rewrite Hh. destruct (stripped _) as [t|]; [|reflexivity]. now rewrite attempt_snd, Hg. }
  destruct (it_get it); try reflexivity.
  - cbn. do 2 f_equal. destruct (hd_error (find_lkids key ks)) as [k|], (hd_error (find_kids key ks')) as [k'|]; try contradiction; [|reflexivity]. now rewrite Hh.
  - apply (bool_cases2 (fun (x : logged (option value)) y => snd x = y)); [|reflexivity]. now apply T.
  - now apply T.
  - destruct (match uget _ _ with Some _ => _ | None => _ end); reflexivity.
  - now apply T.
  - destruct (match uget _ _ with Some _ => _ | None => _ end); [|reflexivity]. now rewrite attempt_snd.
  - unfold with_enum_log, with_enum. destruct (it_classes it) as [|k [|]]; try reflexivity. destruct (sget k (w_enums W)) as [en|]; [|reflexivity].
    apply T. intro t. apply enum_log_snd.
  - unfold with_enum_log, with_enum. destruct (it_classes it) as [|k [|]]; try reflexivity. destruct (sget k (w_enums W)) as [en|]; [|reflexivity].
    destruct (match uget _ _ with Some _ => _ | None => _ end); [|reflexivity]. rewrite attempt_snd. now rewrite enum_log_snd.
  - now apply T.
  - rewrite then_snd. cbn [quiet snd]. f_equal. apply each_snd. eapply Forall2_weaken; [|exact Hf].
    intros k k' [Ek _]. unfold date_log, read_date. rewrite Ek. destruct (e_text (fst k')) as [t|]; [|reflexivity].
    destruct (kdt_parse _ t) as [|z]; [reflexivity|]. now destruct z.
  - rewrite then_snd. cbn [quiet snd]. f_equal. apply each_snd. eapply Forall2_weaken; [|exact Hf].
    intros k k' [Ek _]. unfold coord_log, read_coord. rewrite Ek. destruct (e_text (fst k')) as [t|]; [|reflexivity].
    destruct (uempty t); [reflexivity|]. destruct (floats_of _) as [|z]; [reflexivity|]. now destruct z.
  - destruct (e_text e); [|reflexivity]. now rewrite attempt_snd.
  - now apply obj_log_snd.
  - rewrite then_snd. cbn [quiet snd]. now rewrite (objs_log_snd W ks ks').
Qed.

Lemma try_log_snd f g nss ids : (forall n, snd (f n) = g n) -> snd (try_nsids_log f nss ids) = try_nsids g nss ids.
Proof.
  intro H. induction ids as [|id ids IH]; [reflexivity|]. cbn [try_nsids_log try_nsids]. rewrite then_snd, H.
  destruct (g _) as [[v|]|]; [reflexivity|exact IH|reflexivity].
Qed.

Lemma get_kwargs_log_snd W strict its e ks ks' nss acc : Forall2 kid_erases ks ks' ->
  snd (get_kwargs_log W strict its e ks nss acc) = get_kwargs W strict its (e_attrib e) (e_text e) ks' nss acc.
Proof.
  intro H. revert acc. induction its as [|it its IH]; intro acc; [reflexivity|]. cbn [get_kwargs_log get_kwargs].
  rewrite then_snd. rewrite (try_log_snd _ (fun n => get_kwarg W strict it (e_attrib e) (e_text e) ks' n nss)).
  - destruct (try_nsids _ _ _); [|reflexivity]. cbn [bind]. apply IH.
  - intro n. now apply get_kwarg_log_snd.
Qed.

Theorem from_element_log_snd W strict e : forall c ns nss,
  snd (from_element_log W strict e c ns nss) = from_element W strict e c ns nss.
Proof.
  induction e as [t a x ks IH] using elem_ind'. intros c ns nss. cbn [from_element_log from_element]. cbv zeta.
  unfold read_with. rewrite then_snd. cbn [quiet snd].
  rewrite (get_kwargs_log_snd W strict (items_of W c) (Elem t a x ks) _ (map (fun k => (k, from_element W strict k)) ks)).
  - reflexivity.
  - clear -IH. induction IH as [|k ks Hk _ IHks]; constructor; [|exact IHks]. split; [reflexivity|]. cbn [snd]. exact Hk.
Qed.

(** ** Strict and lenient reading report the same first *)

(** What a strict reader reports: nothing, or one complaint, which it raises. *)
Inductive one_complaint : list report -> Prop :=
| refused_once p k x : one_complaint [Refused p k x]
| coordinates_once p : one_complaint [BadCoordinates p]
| spelling_once p k c v m : one_complaint [Relaxed c v m; Refused p k "Enum"].

Definition same_start {A} (s l : logged A) : Prop :=
  (fst s = [] /\ s = l) \/
  (snd s = Err EKMLParse /\ one_complaint (fst s) /\
   exists r, hd_error (fst s) = Some r /\ (hd_error (fst l) = Some r \/ relaxed_boolean r)).

Lemma ss_quiet {A} (r : res A) : same_start (quiet r) (quiet r).
Proof. left. now split. Qed.

Lemma ss_then {A B} (s l : logged A) (f g : A -> logged B) :
  same_start s l -> (forall a, same_start (f a) (g a)) -> same_start (then_ s f) (then_ l g).
Proof.
  intros [[E <-]|(E & O & r & Hr & Hl)] H.
  - destruct s as [ls [a|e]]; cbn in E; subst ls; [|now left]. unfold then_. specialize (H a).
    destruct (f a) as [l1 r1], (g a) as [l2 r2]. exact H.
  - right. destruct s as [ls rs]. cbn in E. subst rs. cbn [then_ fst snd]. split; [reflexivity|]. split; [exact O|]. exists r. split; [exact Hr|].
    destruct Hl as [Hl|Hl]; [left|now right]. destruct l as [[|r0 ll] [a|e]]; try discriminate; cbn [then_ fst]; [|exact Hl].
    destruct (g a). exact Hl.
Qed.

Lemma ss_each {A A' B} (f : A -> logged B) (g : A' -> logged B) l l' :
  Forall2 (fun a b => same_start (f a) (g b)) l l' -> same_start (each f l) (each g l').
Proof.
  induction 1 as [|a b l l' H _ IH]; [apply ss_quiet|]. cbn [each]. apply ss_then; [exact H|]. intro x.
  apply ss_then; [exact IH|]. intro. apply ss_quiet.
Qed.

Lemma ss_attempt m (r : res value) : one_complaint [m] ->
  same_start (attempt true m (quiet r)) (attempt false m (quiet r)).
Proof.
  intro O. destruct r as [v|e]; [now left|]. destruct e; try (now left).
  right. cbn. split; [reflexivity|]. split; [exact O|]. exists m. split; [reflexivity|now left].
Qed.

Lemma enum_relaxed_none e t : enum_relaxed e t = None -> forall m, In m (map fst e) -> lower m <> lower t.
Proof.
  induction e as [|[m o] e IH]; cbn; intros H x Hx; [destruct Hx|].
  destruct (ueqb (lower m) (lower t)) eqn:E; [discriminate|]. destruct Hx as [<-|Hx]; [|exact (IH H x Hx)].
  intro K. rewrite K, ueqb_refl in E. discriminate.
Qed.

Lemma enum_relaxed_some e t m : enum_relaxed e t = Some m -> In m (map fst e) /\ lower m = lower t.
Proof.
  induction e as [|[m0 o] e IH]; cbn; intro H; [discriminate|].
  destruct (ueqb (lower m0) (lower t)) eqn:E; [injection H as ->; split; [now left|now apply ueqb_eq]|].
  destruct (IH H). split; [now right|assumption].
Qed.

Lemma enum_exact_some e t m : enum_exact e t = Some m -> m = t /\ In m (map fst e).
Proof.
  induction e as [|[m0 o] e IH]; cbn; intro H; [discriminate|].
  destruct (ueqb m0 t) eqn:E; [injection H as ->; split; [now apply ueqb_eq|now left]|].
  destruct (IH H). split; [assumption|now right].
Qed.

Lemma enum_exact_none e t : enum_exact e t = None -> ~ In t (map fst e).
Proof.
  induction e as [|[m0 o] e IH]; cbn; intro H; [tauto|].
  destruct (ueqb m0 t) eqn:E; [discriminate|]. intros [->|Hi]; [now rewrite ueqb_refl in E|exact (IH H Hi)].
Qed.

(** What the two modes make of an enumeration. *)
Lemma enum_value_cases c e t :
  (enum_value_log c e true t = ([], Ok (VEnum c t)) /\ enum_value_log c e false t = ([], Ok (VEnum c t)) /\ In t (map fst e)) \/
  (exists m, enum_value_log c e true t = ([Relaxed c (lower t) m], Err EValueError) /\
             enum_value_log c e false t = ([Relaxed c (lower t) m], Ok (VEnum c m)) /\
             In m (map fst e) /\ lower m = lower t /\ ~ In t (map fst e)) \/
  (enum_value_log c e true t = ([], Err EValueError) /\ enum_value_log c e false t = ([], Err EValueError) /\
   forall m, In m (map fst e) -> lower m <> lower t).
Proof.
  unfold enum_value_log, enum_lookup_log. destruct (enum_exact e t) as [m|] eqn:E1.
  - left. destruct (enum_exact_some _ _ _ E1) as [-> Hi]. cbn. rewrite ueqb_refl. cbn. auto.
  - right. assert (Hn := enum_exact_none _ _ E1). destruct (enum_relaxed e t) as [m|] eqn:E2.
    + left. exists m. destruct (enum_relaxed_some _ _ _ E2) as [H1 H2]. cbn.
      destruct (ueqb m t) eqn:E3; [apply ueqb_eq in E3; congruence|]. cbn. auto.
    + right. cbn. split; [reflexivity|]. split; [reflexivity|]. now apply enum_relaxed_none.
Qed.

Lemma ss_enum p k c e t : same_start (attempt true (Refused p k "Enum") (enum_value_log c e true t))
                                    (attempt false (Refused p k "Enum") (enum_value_log c e false t)).
Proof.
  destruct (enum_value_cases c e t) as [(-> & -> & _)|[(m & -> & -> & _)|(-> & -> & _)]].
  - now left.
  - right. cbn. split; [reflexivity|]. split; [constructor|]. eexists. split; [reflexivity|now left].
  - right. cbn. split; [reflexivity|]. split; [constructor|]. eexists. split; [reflexivity|now left].
Qed.

Lemma ss_bool p k x : In k (e_kids p) -> e_text k = Some x ->
  same_start (attempt true (Refused p k "Boolean") (quiet (get_boolean_value true (strip x))))
             (attempt false (Refused p k "Boolean") (quiet (get_boolean_value false (strip x)))).
Proof.
  intros Hk Hx. set (t := strip x).
  assert (D : get_boolean_value true t = Err EValueError /\ ~ In t [u "0"; u "1"; u "false"; u "true"] \/ get_boolean_value true t = get_boolean_value false t).
  { rewrite (bool_spec true). cbv zeta.
    destruct (in_dec udec t [u "1"; u "true"]) as [H|H1].
    - right. destruct H as [<-|[<-|[]]]; reflexivity.
    - destruct (in_dec udec t [u "0"; u "false"]) as [H|H2].
      + right. destruct H as [<-|[<-|[]]]; reflexivity.
      + left. split; [reflexivity|]. cbn in *. tauto. }
  destruct D as [[D Dn]|D]; [|rewrite D; apply ss_attempt; constructor].
  rewrite D. right. cbn [quiet attempt fst snd app hd_error]. split; [reflexivity|]. split; [constructor|]. eexists. split; [reflexivity|].
  assert (B := bool_spec false t). cbv zeta in B.
  assert (C : (exists b, get_boolean_value false t = Ok (VBool b)) \/ get_boolean_value false t = Err EValueError).
  { rewrite B. destruct (in_dec _ _ _); [eauto|]. destruct (in_dec _ _ _); [eauto|].
    destruct (float_of_str (lower t)) as [f|z] eqn:Ef; [eauto|]. right.
    unfold float_of_str in Ef. destruct (no_underscores _ _) as [y|]; [|congruence]. destruct (take_sign y) as [neg r].
    destruct (_ || _); [discriminate|]. destruct (ueqb _ _); [discriminate|]. destruct (parse_dec neg r); congruence. }
  destruct C as [[b C]|C].
  - right. exists p, k, x. fold t. repeat split; try assumption. eauto.
  - left. rewrite C. reflexivity.
Qed.

Definition kid_starts (k k' : lkid) : Prop := fst k = fst k' /\ forall c ns nss, same_start (snd k c ns nss) (snd k' c ns nss).

Lemma kids_start tag ks ks' : Forall2 kid_starts ks ks' -> Forall2 kid_starts (find_lkids tag ks) (find_lkids tag ks').
Proof.
  induction 1 as [|k k' ks ks' H _ IH]; [constructor|]. unfold find_lkids in *. cbn [filter]. destruct H as [E H]. rewrite <- E.
  destruct (ueqb _ _); [constructor; [split; assumption|exact IH]|exact IH].
Qed.

Lemma obj_log_ss W ks ks' ns nss cs : Forall2 kid_starts ks ks' -> same_start (obj_log W ks ns nss cs) (obj_log W ks' ns nss cs).
Proof.
  intro H. induction cs as [|c cs IH]; [apply ss_quiet|]. cbn [obj_log]. apply ss_then; [apply ss_quiet|]. intro tag.
  rewrite !find_lkid_hd. destruct (kids_start (ns ++ tag) ks ks' H) as [|k k' l l' [_ Hk] _]; cbn [hd_error]; [exact IH|].
  apply ss_then; [apply Hk|]. intro. apply ss_quiet.
Qed.

Lemma objs_log_ss W ks ks' ns nss cs : Forall2 kid_starts ks ks' -> same_start (objs_log W ks ns nss cs) (objs_log W ks' ns nss cs).
Proof.
  intro H. unfold objs_log. apply ss_then; [|intro; apply ss_quiet]. apply ss_each, Forall2_self. intro c.
  apply ss_then; [apply ss_quiet|]. intro tag. apply ss_each. eapply Forall2_weaken; [|exact (kids_start (ns ++ tag) ks ks' H)].
  intros k k' [_ Hk]. apply Hk.
Qed.

Lemma find_lkids_in tag ks k : In k (find_lkids tag ks) -> In k ks /\ e_tag (fst k) = tag.
Proof. unfold find_lkids. rewrite filter_In. intros [H E]. split; [exact H|now apply ueqb_eq]. Qed.

Lemma get_kwarg_ss W it e ks ks' ns nss : Forall2 kid_starts ks ks' -> Forall (fun k : lkid => In (fst k) (e_kids e)) ks ->
  same_start (get_kwarg_log W true it e ks ns nss) (get_kwarg_log W false it e ks' ns nss).
Proof.
  intros H HI. unfold get_kwarg_log. cbv zeta. set (key := ns ++ u (it_node it)).
  assert (Hf := kids_start key ks ks' H). rewrite !find_lkid_hd.
  assert (Hh : match hd_error (find_lkids key ks), hd_error (find_lkids key ks') with
               | Some k, Some k' => fst k = fst k' /\ In (fst k) (e_kids e) | None, None => True | _, _ => False end).
  { assert (HI' : forall k, In k (find_lkids key ks) -> In (fst k) (e_kids e)).
    { intros k Hk. apply find_lkids_in in Hk as [Hk _]. rewrite Forall_forall in HI. exact (HI k Hk). }
    destruct Hf as [|k k' l l' [E _] _]; [exact I|]. split; [exact E|]. apply HI'. now left. }
  assert (T : forall expected f g,
    (forall k x, In k (e_kids e) -> e_text k = Some x ->
       same_start (attempt true (Refused e k expected) (f (strip x))) (attempt false (Refused e k expected) (g (strip x)))) ->
    same_start (match hd_error (find_lkids key ks) with
         | Some k => match stripped (e_text (fst k)) with
                     | Some t => attempt true (Refused e (fst k) expected) (f t)
                     | None => quiet (Ok None)
                     end
         | None => quiet (Ok None) end)
        (match hd_error (find_lkids key ks') with
         | Some k => match stripped (e_text (fst k)) with
                     | Some t => attempt false (Refused e (fst k) expected) (g t)
                     | None => quiet (Ok None)
                     end
         | None => quiet (Ok None) end)).
  { intros ex f g Hg. destruct (hd_error (find_lkids key ks)) as [k|], (hd_error (find_lkids key ks')) as [k'|]; try contradiction; [|apply ss_quiet].
    destruct Hh as [E Hin]. rewrite <- E. destruct (e_text (fst k)) as [x|] eqn:Ex; [|apply ss_quiet]. cbn [stripped].
    destruct (uempty (strip x)); [apply ss_quiet|]. now apply Hg. }
  destruct (it_get it); try apply ss_quiet.
  - replace (match hd_error (find_lkids key ks') with Some k => stripped (e_text (fst k)) | None => None end)
      with (match hd_error (find_lkids key ks) with Some k => stripped (e_text (fst k)) | None => None end); [apply ss_quiet|].
    destruct (hd_error (find_lkids key ks)) as [k|], (hd_error (find_lkids key ks')) as [k'|]; try contradiction; [|reflexivity]. now destruct Hh as [-> _].
  - apply bool_cases2; [|apply ss_quiet]. apply T. intros. now apply ss_bool.
  - apply T. intros. apply ss_attempt. constructor.
  - destruct (match uget _ _ with Some _ => _ | None => _ end); apply ss_quiet.
  - apply T. intros. apply ss_attempt. constructor.
  - destruct (match uget _ _ with Some _ => _ | None => _ end); [|apply ss_quiet]. apply ss_attempt. constructor.
  - unfold with_enum_log. destruct (it_classes it) as [|k [|]]; try apply ss_quiet. destruct (sget k (w_enums W)) as [en|]; [|apply ss_quiet].
    apply T. intros. apply ss_enum.
  - unfold with_enum_log. destruct (it_classes it) as [|k [|]]; try apply ss_quiet. destruct (sget k (w_enums W)) as [en|]; [|apply ss_quiet].
    destruct (match uget _ _ with Some _ => _ | None => _ end); [|apply ss_quiet]. apply ss_enum.
  - apply T. intros. apply ss_attempt. constructor.
  - apply ss_then; [|intro; apply ss_quiet]. apply ss_each. eapply Forall2_weaken; [|exact Hf].
    intros k k' [Ek _]. unfold date_log. rewrite <- Ek. destruct (e_text (fst k)) as [t|]; [|apply ss_quiet].
    destruct (kdt_parse _ t) as [|z]; [apply ss_quiet|]. destruct z; try apply ss_quiet.
    right. cbn. split; [reflexivity|]. split; [constructor|]. eexists. split; [reflexivity|now left].
  - apply ss_then; [|intro; apply ss_quiet]. apply ss_each. eapply Forall2_weaken; [|exact Hf].
    intros k k' [Ek _]. unfold coord_log. rewrite <- Ek. destruct (e_text (fst k)) as [t|]; [|apply ss_quiet].
    destruct (uempty t); [apply ss_quiet|]. destruct (floats_of _) as [|z]; [apply ss_quiet|]. destruct z; try apply ss_quiet.
    right. cbn. split; [reflexivity|]. split; [constructor|]. eexists. split; [reflexivity|now left].
  - destruct (e_text e); [|apply ss_quiet]. apply ss_attempt. constructor.
  - now apply obj_log_ss.
  - apply ss_then; [now apply objs_log_ss|]. intro. apply ss_quiet.
Qed.

Lemma try_log_ss f g nss ids : (forall n, same_start (f n) (g n)) -> same_start (try_nsids_log f nss ids) (try_nsids_log g nss ids).
Proof.
  intro H. induction ids as [|id ids IH]; [apply ss_quiet|]. cbn. apply ss_then; [apply H|]. intros [v|]; [apply ss_quiet|exact IH].
Qed.

Lemma get_kwargs_ss W its e ks ks' nss acc : Forall2 kid_starts ks ks' -> Forall (fun k : lkid => In (fst k) (e_kids e)) ks ->
  same_start (get_kwargs_log W true its e ks nss acc) (get_kwargs_log W false its e ks' nss acc).
Proof.
  intros H HI. revert acc. induction its as [|it its IH]; intros acc; [apply ss_quiet|]. cbn [get_kwargs_log].
  apply ss_then; [|intro; apply IH]. apply try_log_ss. intro n. now apply get_kwarg_ss.
Qed.

Theorem strict_lenient_log W e : forall c ns nss, same_start (from_element_log W true e c ns nss) (from_element_log W false e c ns nss).
Proof.
  induction e as [t a x ks IH] using elem_ind'. intros c ns nss. cbn [from_element_log]. cbv zeta.
  apply ss_then; [|intro; apply ss_quiet]. apply get_kwargs_ss.
  - clear -IH. induction IH as [|k ks Hk _ IHks]; constructor; [|exact IHks]. split; [reflexivity|]. cbn [snd]. exact Hk.
  - apply Forall_forall. intros k Hk. apply in_map_iff in Hk as (k0 & <- & Hk0). exact Hk0.
Qed.

(** ** Every report is justified *)

Definition all_reports {A} (P : report -> Prop) (m : logged A) : Prop := Forall P (fst m).

Lemma all_quiet {A} P (r : res A) : all_reports P (quiet r).
Proof. constructor. Qed.

Lemma all_then {A B} P (m : logged A) (f : A -> logged B) :
  all_reports P m -> (forall a, all_reports P (f a)) -> all_reports P (then_ m f).
Proof.
  intros H Hf. destruct m as [l [a|e]]; [|exact H]. cbn [then_]. specialize (Hf a). destruct (f a) as [l' r].
  unfold all_reports in *. cbn [fst] in *. now apply Forall_app.
Qed.

Lemma all_each {A B} P (f : A -> logged B) l : (forall a, In a l -> all_reports P (f a)) -> all_reports P (each f l).
Proof.
  induction l as [|a l IH]; intro H; [apply all_quiet|]. cbn [each]. apply all_then; [apply H; now left|]. intro x.
  apply all_then; [apply IH; intros; apply H; now right|]. intro. apply all_quiet.
Qed.

Lemma all_attempt (P : report -> Prop) strict m (r : res value) : (r = Err EValueError -> P m) -> all_reports P (attempt strict m (quiet r)).
Proof.
  intro H. destruct r as [v|e]; [constructor|]. destruct e; try constructor; [|constructor]. now apply H.
Qed.

Lemma map_res_refuses {A B} (f : A -> res B) l e : map_res f l = Err e -> exists a, In a l /\ f a = Err e.
Proof.
  induction l as [|a l IH]; cbn; intro H; [discriminate|]. destruct (f a) as [b|x] eqn:E; cbn in H.
  - destruct (map_res f l) as [bs|y]; cbn in H; [discriminate|]. destruct (IH H) as [a' [Hi Ha]]. exists a'. split; [now right|exact Ha].
  - exists a. split; [now left|]. congruence.
Qed.

Lemma floats_refuses l e : floats_of l = Err e -> exists w, In w l /\ float_of_str w = Err e.
Proof.
  intro H. apply map_res_refuses in H as [w [Hi Hw]]. exists w. split; [exact Hi|]. destruct (float_of_str w); cbn in Hw; congruence.
Qed.

Lemma coordinates_refuse t : parse_coordinates t = Err EValueError ->
  exists w z, In w (words (sub_comma false (strip t))) /\ In z (split_on 44 w) /\ float_of_str z = Err EValueError.
Proof.
  unfold parse_coordinates. intro H.
  destruct (map_res (fun s => floats_of (split_on 44 s)) (words (sub_comma false (strip t)))) as [l|e] eqn:E; cbn in H; [discriminate|].
  injection H as ->. apply map_res_refuses in E as [w [Hw E]]. apply floats_refuses in E as [z [Hz E]]. eauto.
Qed.

Lemma boolean_refuses strict t : get_boolean_value strict t = Err EValueError ->
  if strict then ~ In t [u "0"; u "1"; u "false"; u "true"]
  else ~ In (lower t) [u "0"; u "1"; u "false"; u "true"] /\ float_of_str (lower t) = Err EValueError.
Proof.
  rewrite (bool_spec strict). cbv zeta. destruct (in_dec _ _ _) as [|H1]; [discriminate|]. destruct (in_dec _ _ _) as [|H2]; [discriminate|].
  assert (N : ~ In (if strict then t else lower t) [u "0"; u "1"; u "false"; u "true"]) by (cbn [In] in *; tauto).
  destruct strict; intro H; [exact N|]. split; [exact N|]. destruct (float_of_str _); [discriminate|congruence].
Qed.

Lemma read_part_trans W e c k c2 p c' : read_part W e c k c2 -> read_part W k c2 p c' -> read_part W e c p c'.
Proof. intros H. induction 1 as [|p c1 it c3 ci ns q H1 IH]; [exact H|]. eapply a_child; eassumption. Qed.

Definition sound W strict e c (r : report) : Prop := exists p c', read_part W e c p c' /\ justified W strict p c' r.

Lemma sound_here W strict e c r : justified W strict e c r -> sound W strict e c r.
Proof. intro H. exists e, c. split; [constructor|exact H]. Qed.

Definition kid_sound W strict e (k : lkid) : Prop :=
  In (fst k) (e_kids e) /\ forall c ns nss, all_reports (sound W strict (fst k) c) (snd k c ns nss).

Lemma child_sound W strict e c it k c2 ci ns n nss : In it (items_of W c) -> (it_get it = GObj \/ it_get it = GObjs) ->
  In c2 (it_classes it) -> class_of W c2 = Some ci -> kid_sound W strict e k -> e_tag (fst k) = ns ++ u (ci_tag ci) ->
  all_reports (sound W strict e c) (snd k c2 n nss).
Proof.
  intros Hit Hg Hc Hci [Hk H] Ht. eapply Forall_impl; [|exact (H c2 n nss)]. intros r (p & c' & Hp & Hj).
  exists p, c'. split; [|exact Hj]. eapply read_part_trans; [|exact Hp]. eapply a_child; try eassumption. constructor.
Qed.

Lemma all_then_quiet {A B} P (r : res A) (f : A -> logged B) :
  (forall a, r = Ok a -> all_reports P (f a)) -> all_reports P (then_ (quiet r) f).
Proof. intro H. destruct r as [a|e]; [|constructor]. specialize (H a eq_refl). cbn. now destruct (f a). Qed.

Lemma tag_class W c tag : class_tag W c = Ok tag -> exists ci, class_of W c = Some ci /\ tag = u (ci_tag ci).
Proof. unfold class_tag. destruct (class_of W c) as [ci|]; [|discriminate]. intro H. injection H as <-. eauto. Qed.

Lemma find_lkid_in tag ks k : find_lkid tag ks = Some k -> In k ks /\ e_tag (fst k) = tag.
Proof.
  rewrite find_lkid_hd. intro H. apply find_lkids_in. destruct (find_lkids tag ks); [discriminate|]. injection H as ->. now left.
Qed.

Lemma obj_sound W strict e c it ks ns nss cs : In it (items_of W c) -> it_get it = GObj -> incl cs (it_classes it) ->
  Forall (kid_sound W strict e) ks -> all_reports (sound W strict e c) (obj_log W ks ns nss cs).
Proof.
  intros Hit Hg Hs Hk. induction cs as [|c2 cs IH]; [apply all_quiet|]. cbn [obj_log]. apply all_then_quiet. intros tag Ht.
  apply tag_class in Ht as (ci & Hc & ->). destruct (find_lkid _ ks) as [k|] eqn:Ek.
  - apply all_then; [|intro; apply all_quiet]. apply find_lkid_in in Ek as [Hi Et]. rewrite Forall_forall in Hk.
    eapply child_sound; [exact Hit|left; exact Hg|apply Hs; now left|exact Hc|now apply Hk|exact Et].
  - apply IH. intros x Hx. apply Hs. now right.
Qed.

Lemma objs_sound W strict e c it ks ns nss : In it (items_of W c) -> it_get it = GObjs ->
  Forall (kid_sound W strict e) ks -> all_reports (sound W strict e c) (objs_log W ks ns nss (it_classes it)).
Proof.
  intros Hit Hg Hk. unfold objs_log. apply all_then; [|intro; apply all_quiet]. apply all_each. intros c2 Hc2.
  apply all_then_quiet. intros tag Ht. apply tag_class in Ht as (ci & Hc & ->). apply all_each. intros k Hi.
  apply find_lkids_in in Hi as [Hi Et]. rewrite Forall_forall in Hk.
  eapply child_sound; [exact Hit|right; exact Hg|exact Hc2|exact Hc|now apply Hk|exact Et].
Qed.

Lemma stripped_some x t : stripped x = Some t -> exists y, x = Some y /\ t = strip y /\ t <> [].
Proof.
  unfold stripped. destruct x as [y|]; [|discriminate]. destruct (uempty (strip y)) eqn:E; [discriminate|]. intro H. injection H as <-.
  exists y. split; [reflexivity|]. split; [reflexivity|]. intro K. rewrite K in E. discriminate.
Qed.

Lemma attr_some key a t : match uget key a with Some t => if uempty t then None else Some t | None => None end = Some t ->
  uget key a = Some t /\ t <> [].
Proof. destruct (uget key a) as [x|]; [|discriminate]. destruct x; [discriminate|]. cbn. intro H. injection H as <-. split; [reflexivity|discriminate]. Qed.

Lemma all_enum (P : report -> Prop) (strict : bool) c (e : enum_info) p k t :
  (forall m : ustr, In m (map fst e) -> lower m = lower t -> ~ In t (map fst e) -> P (Relaxed c (lower t) m)) ->
  ((forall m : ustr, In m (map fst e) -> if strict then m <> t else lower m <> lower t) -> P (Refused p k "Enum")) ->
  all_reports P (attempt strict (Refused p k "Enum") (enum_value_log c e strict t)).
Proof.
  intros H1 H2. destruct (enum_value_cases c e t) as [(E1 & E2 & _)|[(m & E1 & E2 & Hm & Hl & Hn)|(E1 & E2 & Hn)]].
  - destruct strict; [rewrite E1|rewrite E2]; constructor.
  - destruct strict; [rewrite E1|rewrite E2]; (constructor; [now apply H1|]); [|constructor].
    constructor; [|constructor]. apply H2. intros m' Hm' ->. now apply Hn.
  - destruct strict; [rewrite E1|rewrite E2]; (constructor; [|constructor]); apply H2; [|exact Hn].
    intros m Hm ->. now apply (Hn t).
Qed.

Lemma get_kwarg_sound W strict it e c ks ns nss : In it (items_of W c) -> Forall (kid_sound W strict e) ks ->
  all_reports (sound W strict e c) (get_kwarg_log W strict it e ks ns nss).
Proof.
  intros Hit Hk. unfold get_kwarg_log. cbv zeta. set (key := ns ++ u (it_node it)).
  assert (T : forall expected f,
    (forall (k : lkid) x, In (fst k) (e_kids e) -> e_tag (fst k) = ns ++ u (it_node it) -> e_text (fst k) = Some x -> strip x <> [] ->
       all_reports (sound W strict e c) (attempt strict (Refused e (fst k) expected) (f (strip x)))) ->
    all_reports (sound W strict e c)
      (match find_lkid key ks with
       | Some k => match stripped (e_text (fst k)) with
                   | Some t => attempt strict (Refused e (fst k) expected) (f t)
                   | None => quiet (Ok None)
                   end
       | None => quiet (Ok None) end)).
  { intros ex f Hf. destruct (find_lkid key ks) as [k|] eqn:Ek; [|apply all_quiet]. apply find_lkid_in in Ek as [Hi Et].
    rewrite Forall_forall in Hk. destruct (Hk k Hi) as [Hin _]. destruct (stripped (e_text (fst k))) as [t|] eqn:Es; [|apply all_quiet].
    apply stripped_some in Es as (x & Ex & -> & Hne). now apply Hf. }
  assert (C : forall expected k x, In (fst k) (e_kids e) -> e_tag (fst k) = ns ++ u (it_node it) -> e_text (fst k) = Some x -> strip x <> [] ->
    match it_get it with GDates | GCoordList => x | _ => strip x end = strip x ->
    unfit W strict it expected (strip x) -> sound W strict e c (Refused e (@fst elem (string -> ustr -> nss_t -> logged value) k) expected)).
  { intros ex k x H1 H2 H3 H4 H5 H6. apply sound_here. eapply on_child; try eassumption; [now symmetry|now left]. }
  assert (A : forall t expected, uget key (e_attrib e) = Some t -> t <> [] -> (it_get it = GAttrFloat \/ it_get it = GAttrEnum) ->
    unfit W strict it expected t -> sound W strict e c (Refused e e expected)).
  { intros t ex H1 H2 H3 H4. apply sound_here. eapply on_attribute; eassumption. }
  destruct (it_get it) eqn:Eg; try apply all_quiet.
  - rewrite bool_match. destruct (match it_classes it with ["bool"%string] => true | _ => false end); [|apply all_quiet].
    apply T. intros k x H1 H2 H3 H4. apply all_attempt. intro R. apply (C "Boolean"%string k x); try assumption; [reflexivity|].
    unfold unfit. rewrite Eg. split; [reflexivity|]. now apply boolean_refuses.
  - apply T. intros k x H1 H2 H3 H4. apply all_attempt. intro R. apply (C "Integer"%string k x); try assumption; [reflexivity|].
    unfold unfit. rewrite Eg. split; [reflexivity|]. destruct (int_of_str (strip x)); cbn in R; congruence.
  - destruct (match uget _ _ with Some _ => _ | None => _ end); apply all_quiet.
  - apply T. intros k x H1 H2 H3 H4. apply all_attempt. intro R. apply (C "Float"%string k x); try assumption; [reflexivity|].
    unfold unfit. rewrite Eg. split; [reflexivity|]. destruct (float_of_str (strip x)); cbn in R; congruence.
  - destruct (match uget _ _ with Some _ => _ | None => _ end) as [t|] eqn:Ea; [|apply all_quiet]. apply attr_some in Ea as [Ea Hne].
    apply all_attempt. intro R. apply (A t "Float"%string Ea Hne); [now left|].
    unfold unfit. rewrite Eg. split; [reflexivity|]. destruct (float_of_str t); cbn in R; congruence.
  - unfold with_enum_log. destruct (it_classes it) as [|cl [|]] eqn:Ecl; try apply all_quiet. destruct (sget cl (w_enums W)) as [en|] eqn:Een; [|apply all_quiet].
    apply T. intros k x H1 H2 H3 H4. apply all_enum.
    + intros m Hm Hl Hn. apply sound_here. eapply on_spelling; try eassumption; [now left|]. left. exists ns, (fst k), x. auto.
    + intro U. apply (C "Enum"%string k x); try assumption; [reflexivity|]. unfold unfit. rewrite Eg. split; [reflexivity|].
      exists cl, en. auto.
  - unfold with_enum_log. destruct (it_classes it) as [|cl [|]] eqn:Ecl; try apply all_quiet. destruct (sget cl (w_enums W)) as [en|] eqn:Een; [|apply all_quiet].
    destruct (match uget _ _ with Some _ => _ | None => _ end) as [t|] eqn:Ea; [|apply all_quiet]. apply attr_some in Ea as [Ea Hne].
    apply all_enum.
    + intros m Hm Hl Hn. apply sound_here. eapply on_spelling; try eassumption; [now right|]. right. exists ns. exact Ea.
    + intro U. apply (A t "Enum"%string Ea Hne); [now right|]. unfold unfit. rewrite Eg. split; [reflexivity|]. exists cl, en. auto.
  - apply T. intros k x H1 H2 H3 H4. apply all_attempt. intro R. apply (C "DateTime"%string k x); try assumption; [reflexivity|].
    unfold unfit. rewrite Eg. split; [reflexivity|]. destruct (kdt_parse _ (strip x)); cbn in R; congruence.
  - apply all_then; [|intro; apply all_quiet]. apply all_each. intros k Hi. apply find_lkids_in in Hi as [Hi Et].
    rewrite Forall_forall in Hk. destruct (Hk k Hi) as [Hin _]. unfold date_log. destruct (e_text (fst k)) as [x|] eqn:Ex; [|apply all_quiet].
    destruct (kdt_parse (w_arrow W) x) as [|z] eqn:Ed; [apply all_quiet|]. destruct z; try apply all_quiet.
    constructor; [|constructor]. apply sound_here. apply (on_child W strict e c it ns (fst k) x x); try assumption.
    + now rewrite Eg.
    + now right.
    + unfold unfit. rewrite Eg. split; [reflexivity|exact Ed].
  - apply all_then; [|intro; apply all_quiet]. apply all_each. intros k Hi. apply find_lkids_in in Hi as [Hi Et].
    rewrite Forall_forall in Hk. destruct (Hk k Hi) as [Hin _]. unfold coord_log. destruct (e_text (fst k)) as [x|] eqn:Ex; [|apply all_quiet].
    destruct x as [|x0 x]; [apply all_quiet|]. cbn [uempty]. destruct (floats_of (words (x0 :: x))) as [|z] eqn:Ed; [apply all_quiet|].
    destruct z; try apply all_quiet.
    constructor; [|constructor]. apply sound_here. apply (on_child W strict e c it ns (fst k) (x0 :: x) (x0 :: x)); try assumption.
    + now rewrite Eg.
    + left. discriminate.
    + unfold unfit. rewrite Eg. split; [reflexivity|]. now apply floats_refuses.
  - destruct (e_text e) as [t|] eqn:Et; [|apply all_quiet]. apply all_attempt. intro R. apply sound_here. eapply on_coordinates; try eassumption.
    now apply coordinates_refuse.
  - eapply obj_sound; try eassumption. intros x Hx. exact Hx.
  - apply all_then; [now apply objs_sound|]. intro. apply all_quiet.
Qed.

Lemma try_log_all P f nss ids : (forall n, all_reports P (f n)) -> all_reports P (try_nsids_log f nss ids).
Proof.
  intro H. induction ids as [|id ids IH]; [apply all_quiet|]. cbn. apply all_then; [apply H|]. intros [v|]; [apply all_quiet|exact IH].
Qed.

Lemma get_kwargs_sound W strict its e c ks nss acc : incl its (items_of W c) -> Forall (kid_sound W strict e) ks ->
  all_reports (sound W strict e c) (get_kwargs_log W strict its e ks nss acc).
Proof.
  intros Hi Hk. revert acc. induction its as [|it its IH]; intros acc; [apply all_quiet|]. cbn [get_kwargs_log].
  apply all_then; [|intro; apply IH; intros x Hx; apply Hi; now right]. apply try_log_all. intro n. apply get_kwarg_sound; [apply Hi; now left|exact Hk].
Qed.

Theorem reports_justified W strict e : forall c ns nss, all_reports (sound W strict e c) (from_element_log W strict e c ns nss).
Proof.
  induction e as [t a x ks IH] using elem_ind'. intros c ns nss. cbn [from_element_log]. cbv zeta.
  apply all_then; [|intro; apply all_quiet]. apply get_kwargs_sound; [apply incl_refl|].
  rewrite Forall_forall in IH. apply Forall_forall. intros k Hk. apply in_map_iff in Hk as (k0 & <- & Hk0). split; [exact Hk0|]. cbn [fst snd].
  now apply IH.
Qed.

(** ** What is dropped is reported *)

Definition due {A} (r : report) (m : logged A) : Prop := forall v, snd m = Ok v -> In r (fst m).

Lemma due_left {A B} r (m : logged A) (f : A -> logged B) : due r m -> due r (then_ m f).
Proof.
  intros H v E. destruct m as [l [a|e]]; [|discriminate]. specialize (H a eq_refl). cbn in *. destruct (f a). cbn. apply in_or_app. now left.
Qed.

Lemma due_right {A B} r (m : logged A) (f : A -> logged B) : (forall a, snd m = Ok a -> due r (f a)) -> due r (then_ m f).
Proof.
  intros H v E. destruct m as [l [a|e]]; [|discriminate]. specialize (H a eq_refl v). cbn in *. destruct (f a) as [l' r']. cbn in *.
  apply in_or_app. right. now apply H.
Qed.

Lemma due_each {A B} r (f : A -> logged B) l x : In x l -> due r (f x) -> due r (each f l).
Proof.
  intros Hx H. induction l as [|a l IH]; [destruct Hx|]. cbn [each]. destruct Hx as [->|Hx]; [now apply due_left|].
  apply due_right. intros z _. apply due_left. now apply IH.
Qed.

Lemma due_kwargs W its it id rest e ks nss acc r : In it its -> it_nsids it = id :: rest ->
  due r (get_kwarg_log W false it e ks (ns_get nss id) nss) -> due r (get_kwargs_log W false its e ks nss acc).
Proof.
  intros Hi Hn H. revert acc. induction its as [|it0 its IH]; intros acc; [destruct Hi|]. cbn [get_kwargs_log]. destruct Hi as [->|Hi].
  - apply due_left. rewrite Hn. cbn [try_nsids_log]. now apply due_left.
  - apply due_right. intros a _. now apply IH.
Qed.

Lemma due_attempt r (x : res value) : x = Err EValueError -> due r (attempt false r (quiet x)).
Proof. intros -> v _. now left. Qed.

Lemma floats_refused l w : In w l -> float_of_str w = Err EValueError -> floats_of l = Err EValueError.
Proof.
  intros Hi Hw. unfold floats_of. induction l as [|a l IH]; [destruct Hi|]. cbn [map_res].
  assert (O := float_only a). destruct (float_of_str a) as [f|x] eqn:E; cbn [bind]; [|cbn in O; now subst].
  destruct Hi as [->|Hi]; [congruence|]. now rewrite (IH Hi).
Qed.

Lemma coordinates_refused t w z : In w (words (sub_comma false (strip t))) -> In z (split_on 44 w) -> float_of_str z = Err EValueError ->
  parse_coordinates t = Err EValueError.
Proof.
  intros Hw Hz Ez. unfold parse_coordinates. induction (words (sub_comma false (strip t))) as [|a l IH]; [destruct Hw|]. cbn [map_res].
  assert (O := floats_only (split_on 44 a)). destruct (floats_of (split_on 44 a)) as [f|x] eqn:E; cbn [bind]; [|cbn in O; now subst].
  destruct Hw as [->|Hw]; [rewrite (floats_refused _ z Hz Ez) in E; discriminate|]. specialize (IH Hw).
  destruct (map_res _ l); cbn in IH; [discriminate|]. now injection IH as ->.
Qed.

Lemma boolean_refused t : ~ In (lower t) [u "0"; u "1"; u "false"; u "true"] -> float_of_str (lower t) = Err EValueError ->
  get_boolean_value false t = Err EValueError.
Proof.
  intros Hn Hf. rewrite (bool_spec false). cbv zeta. cbn [In] in Hn.
  destruct (in_dec _ _ _) as [K|_]; [cbn [In] in K; tauto|]. destruct (in_dec _ _ _) as [K|_]; [cbn [In] in K; tauto|]. now rewrite Hf.
Qed.

Lemma enum_refused c e t : (forall m : ustr, In m (map fst e) -> lower m <> lower t) -> enum_value_log c e false t = quiet (Err EValueError).
Proof.
  intro H. destruct (enum_value_cases c e t) as [(_ & _ & Hi)|[(m & _ & _ & Hm & Hl & _)|(_ & E & _)]]; [now apply H in Hi|now apply H in Hm|exact E].
Qed.

Lemma find_lkid_find (f : elem -> string -> ustr -> nss_t -> logged value) tag es :
  find_lkid tag (map (fun k => (k, f k)) es) = match find (fun x => ueqb (e_tag x) tag) es with Some k => Some (k, f k) | None => None end.
Proof. induction es as [|k es IH]; [reflexivity|]. cbn. now destruct (ueqb (e_tag k) tag). Qed.

Lemma find_lkids_has (f : elem -> string -> ustr -> nss_t -> logged value) tag es k : In k es -> e_tag k = tag ->
  In (k, f k) (find_lkids tag (map (fun k => (k, f k)) es)).
Proof. intros Hi <-. unfold find_lkids. apply filter_In. split; [apply in_map_iff; eauto|]. cbn. apply ueqb_refl. Qed.

Lemma dropped_due W nss e c r (f : elem -> string -> ustr -> nss_t -> logged value) : dropped W nss e c r ->
  due r (get_kwargs_log W false (items_of W c) e (map (fun k => (k, f k)) (e_kids e)) nss []).
Proof.
  intros [it id rest k x ex Hit Hg Hn Hk Hx Hne Hu|it id rest k x ex Hit Hg Hn Hk Ht Hx Hne Hu|it id rest t ex Hit Hg Hn Ha Hne Hu|it id rest t w z Hit Hg Hn Ht Hw Hz Ez];
    eapply due_kwargs; try eassumption; unfold get_kwarg_log; cbv zeta; rewrite ?find_lkid_find, ?Hk, ?Ha; cbn [fst].
  - assert (Es : stripped (e_text k) = Some (strip x)).
    { rewrite Hx. cbn [stripped]. destruct (strip x) as [|]; [congruence|reflexivity]. }
    rewrite Es. unfold unfit in Hu. destruct (it_get it) eqn:Eg; try (now cbn in Hg; intuition discriminate).
    + rewrite bool_match. destruct (match it_classes it with ["bool"%string] => true | _ => false end); [|intros v E; discriminate].
      destruct Hu as [-> [H1 H2]]. apply due_attempt. now apply boolean_refused.
    + destruct Hu as [-> E]. apply due_attempt. now rewrite E.
    + destruct Hu as [-> E]. apply due_attempt. now rewrite E.
    + destruct Hu as (-> & cl & en & Ecl & Een & U). unfold with_enum_log. rewrite Ecl, Een, (enum_refused cl en _ U). now apply due_attempt.
    + destruct Hu as [-> E]. apply due_attempt. now rewrite E.
  - unfold unfit in Hu. destruct (it_get it) eqn:Eg; try (now cbn in Hg; intuition discriminate).
    + destruct Hu as [-> E]. apply due_left. apply (due_each _ _ _ (k, f k)); [now apply find_lkids_has|].
      unfold date_log. cbn [fst]. rewrite Hx, E. intros v _. now left.
    + destruct Hu as (-> & w & Hw & E). apply due_left. apply (due_each _ _ _ (k, f k)); [now apply find_lkids_has|].
      unfold coord_log. cbn [fst]. rewrite Hx. destruct x as [|x0 x]; [congruence|]. cbn [uempty].
      rewrite (floats_refused _ w Hw E). intros v _. now left.
  - assert (Ea : (if uempty t then None else Some t) = Some t) by (destruct t; [congruence|reflexivity]). rewrite Ea.
    unfold unfit in Hu. destruct (it_get it) eqn:Eg; try (now cbn in Hg; intuition discriminate).
    + destruct Hu as [-> E]. apply due_attempt. now rewrite E.
    + destruct Hu as (-> & cl & en & Ecl & Een & U). unfold with_enum_log. rewrite Ecl, Een, (enum_refused cl en _ U). now apply due_attempt.
  - rewrite Hg, Ht. apply due_attempt. now apply (coordinates_refused t w z).
Qed.

Lemma due_obj W e ks ns nss before c2 after ci k r (f : elem -> string -> ustr -> nss_t -> logged value) :
  ks = map (fun k => (k, f k)) (e_kids e) -> class_of W c2 = Some ci ->
  (forall c1 ci1 k1, In c1 before -> class_of W c1 = Some ci1 -> In k1 (e_kids e) -> e_tag k1 <> ns ++ u (ci_tag ci1)) ->
  find (fun x => ueqb (e_tag x) (ns ++ u (ci_tag ci))) (e_kids e) = Some k ->
  due r (f k c2 ns nss) -> due r (obj_log W ks ns nss (before ++ c2 :: after)).
Proof.
  intros -> Hc Hb Hk Hd. induction before as [|c1 before IH]; cbn [app obj_log].
  - apply due_right. intros tag Et. apply tag_class in Et as (ci' & Hc' & ->). rewrite Hc in Hc'. injection Hc' as <-.
    rewrite find_lkid_find, Hk. apply due_left. exact Hd.
  - apply due_right. intros tag Et. apply tag_class in Et as (ci' & Hc' & ->). rewrite find_lkid_find.
    destruct (find (fun x => ueqb (e_tag x) (ns ++ u (ci_tag ci'))) (e_kids e)) as [k1|] eqn:Ef.
    + apply find_some in Ef as [Hi Ek]. apply ueqb_eq in Ek. exfalso. exact (Hb c1 ci' k1 (or_introl eq_refl) Hc' Hi Ek).
    + apply IH. intros. eapply Hb; try eassumption. now right.
Qed.

Theorem dropped_reported W nss e c p c' : visited W (merge_ns nss) e c p c' -> forall ns r, dropped W (merge_ns nss) p c' r ->
  due r (from_element_log W false e c ns nss).
Proof.
  assert (G : forall m e c p c', merge_ns m = m -> visited W m e c p c' -> forall ns r nss, merge_ns nss = m -> dropped W m p c' r -> due r (from_element_log W false e c ns nss)).
  2:{ intro H. intros ns r. apply (G (merge_ns nss) e c p c'); [apply merge_ns_idem|exact H|reflexivity]. }
  clear. intros m e c p c' Hm. induction 1 as [e c|e c it id rest c2 ci k p c' Hit Hg Hn Hc Hci Hk Ht _ IH|e c it id rest before c2 after ci k p c' Hit Hg Hn Hc Hci Hb Hk _ IH];
    intros ns r nss Hs Hd.
  - destruct e as [t a x ks]. cbn [from_element_log]. cbv zeta. rewrite Hs. apply due_left.
    exact (dropped_due W m (Elem t a x ks) c r (from_element_log W false) Hd).
  - destruct e as [t a x ks]. cbn [from_element_log]. cbv zeta. rewrite Hs. apply due_left. eapply due_kwargs; [exact Hit|exact Hn|].
    unfold get_kwarg_log. cbv zeta. rewrite Hg. apply due_left. unfold objs_log. apply due_left. apply (due_each _ _ _ c2 Hc).
    apply due_right. intros tag Et. apply tag_class in Et as (ci' & Hc' & ->). rewrite Hci in Hc'. injection Hc' as <-.
    apply (due_each _ _ _ (k, from_element_log W false k)); [now apply find_lkids_has|]. cbn [snd]. now apply IH.
  - destruct e as [t a x ks]. cbn [from_element_log]. cbv zeta. rewrite Hs. apply due_left. eapply due_kwargs; [exact Hit|exact Hn|].
    unfold get_kwarg_log. cbv zeta. rewrite Hg, Hc. eapply (due_obj W (Elem t a x ks)); try eassumption; [reflexivity|]. now apply IH.
Qed.
