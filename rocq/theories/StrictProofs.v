(** * The strict reader raises [KMLParseError] or does what the lenient one does. *)
From Coq Require Import String List NArith ZArith Bool Lia.
From Verif Require Import Ustr UstrProofs Res PyInt PyFloat PyDate Elem Value Geom Codec Spec EmitProofs CodecProofs ReadProofs RoundTrip NsProofs Agree AgreeProofs ValueProofs.
Import ListNotations.


(** [s] raises [KMLParseError] or is the same as [l]. *)
Definition or_parse {A} (s l : res A) : Prop := s = Err EKMLParse \/ s = l.

Lemma or_same {A} (x : res A) : or_parse x x.
Proof. now right. Qed.

Lemma or_bind {A B} (x y : res A) (f g : A -> res B) : or_parse x y -> (forall a, or_parse (f a) (g a)) -> or_parse (bind x f) (bind y g).
Proof. intros [->| ->] H; [now left|]. destruct y; cbn; [apply H|now right]. Qed.

Lemma or_map {A B C} (f : A -> res C) (g : B -> res C) l l' :
  Forall2 (fun a b => or_parse (f a) (g b)) l l' -> or_parse (map_res f l) (map_res g l').
Proof.
  induction 1 as [|a b l l' H _ IH]; [apply or_same|]. cbn. apply or_bind; [exact H|]. intro x. apply or_bind; [exact IH|]. intro. apply or_same.
Qed.

Lemma or_guarded r r' : r = Err EValueError \/ r = r' -> or_parse (guarded true r) (guarded false r').
Proof. intros [->| ->]; [now left|]. destruct r' as [|z]; [now right|]. destruct z; cbn; (now left) || (now right). Qed.

Lemma bool_strict t : get_boolean_value true t = Err EValueError \/ get_boolean_value true t = get_boolean_value false t.
Proof.
  rewrite (bool_spec true). cbv zeta.
  destruct (in_dec udec t [u "1"; u "true"]) as [H|_].
  - right. destruct H as [<-|[<-|[]]]; reflexivity.
  - destruct (in_dec udec t [u "0"; u "false"]) as [H|_]; [|now left]. right. destruct H as [<-|[<-|[]]]; reflexivity.
Qed.

Lemma enum_strict_or c e t : get_enum_value c e true t = Err EValueError \/ get_enum_value c e true t = get_enum_value c e false t.
Proof.
  unfold get_enum_value. destruct (enum_lookup e t) as [m|]; cbn [bind]; [|now right]. cbn [andb]. destruct (ueqb m t); [now right|now left].
Qed.

Definition kid_or (k k' : rkid) : Prop := fst k = fst k' /\ forall c ns nss, or_parse (snd k c ns nss) (snd k' c ns nss).

Lemma kids_or tag ks ks' : Forall2 kid_or ks ks' -> Forall2 kid_or (find_kids tag ks) (find_kids tag ks').
Proof.
  induction 1 as [|k k' ks ks' H _ IH]; [constructor|]. unfold find_kids in *. cbn [filter]. destruct H as [E H]. rewrite <- E.
  destruct (ueqb _ _); [constructor; [split; assumption|exact IH]|exact IH].
Qed.

Lemma leaf_or tag ks ks' : Forall2 kid_or ks ks' -> k_leaf tag ks = k_leaf tag ks'.
Proof.
  intro H. apply (kids_or tag) in H. unfold k_leaf. destruct H as [|k k' l l' [E _] _]; [reflexivity|]. now rewrite E.
Qed.

Lemma read_obj_or W ks ks' ns nss cs : Forall2 kid_or ks ks' -> or_parse (read_obj W ks ns nss cs) (read_obj W ks' ns nss cs).
Proof.
  intro H. induction cs as [|c cs IH]; [apply or_same|]. cbn [read_obj]. destruct (class_tag W c) as [tag|]; cbn [bind]; [|apply or_same].
  rewrite !find_kid_hd. assert (Hk := kids_or (ns ++ tag) ks ks' H). destruct Hk as [|k k' l l' [_ Hk] _]; cbn [hd_error]; [exact IH|].
  apply or_bind; [apply Hk|]. intro. apply or_same.
Qed.

Lemma Forall2_self {A} (R : A -> A -> Prop) l : (forall x, R x x) -> Forall2 R l l.
Proof. intro H. induction l; constructor; auto. Qed.

Lemma read_objs_or W ks ks' ns nss cs : Forall2 kid_or ks ks' -> or_parse (read_objs W ks ns nss cs) (read_objs W ks' ns nss cs).
Proof.
  intros H. unfold read_objs. apply or_bind; [|intro; apply or_same]. apply or_map, Forall2_self. intro c.
  apply or_bind; [apply or_same|]. intro tag. apply or_map. eapply Forall2_weaken; [|exact (kids_or (ns ++ tag) ks ks' H)]. intros k k' [_ Hk]. apply Hk.
Qed.

Lemma bool_match {A} l (x y : A) : match l with ["bool"%string] => x | _ => y end = if match l with ["bool"%string] => true | _ => false end then x else y.
Proof.
  destruct l as [|k l]; [reflexivity|].
  repeat (match goal with |- context [match ?k with _ => _ end] => is_var k; destruct k; try reflexivity end).
Qed.

Lemma bool_cases {A} (R : A -> A -> Prop) l x y x' y' : R x x' -> R y y' ->
  R (match l with ["bool"%string] => x | _ => y end) (match l with ["bool"%string] => x' | _ => y' end).
Proof. intros Hx Hy. rewrite (bool_match l x y), (bool_match l x' y'). now destruct (match l with ["bool"%string] => true | _ => false end). Qed.

Ltac same := match goal with |- or_parse ?x ?x => exact (or_same x) end.

Lemma get_kwarg_or W it a x ks ks' ns nss : Forall2 kid_or ks ks' ->
  or_parse (get_kwarg W true it a x ks ns nss) (get_kwarg W false it a x ks' ns nss).
Proof.
  intros H. unfold get_kwarg. rewrite !k_leaf_find. rewrite <- (leaf_or (ns ++ u (it_node it)) ks ks' H).
  destruct (it_get it); try same.
  - apply bool_cases; [|same].
    destruct (k_leaf _ ks); [|same]. apply or_guarded, bool_strict.
  - destruct (k_leaf _ ks); [|same]. apply or_guarded. now right.
  - destruct (k_leaf _ ks); [|same]. apply or_guarded. now right.
  - destruct (match uget _ _ with Some _ => _ | None => _ end); [|same]. apply or_guarded. now right.
  - unfold with_enum. destruct (it_classes it) as [|k [|]]; try same. destruct (sget k (w_enums W)); [|same].
    destruct (k_leaf _ ks); [|same]. apply or_guarded, enum_strict_or.
  - unfold with_enum. destruct (it_classes it) as [|k [|]]; try same. destruct (sget k (w_enums W)); [|same].
    destruct (match uget _ _ with Some _ => _ | None => _ end); [|same]. apply or_guarded, enum_strict_or.
  - destruct (k_leaf _ ks); [|same]. apply or_guarded. now right.
  - apply or_bind; [|intro; same]. apply or_map. eapply Forall2_weaken; [|exact (kids_or _ ks ks' H)].
    intros k k' [Ek _]. unfold read_date. rewrite <- Ek. destruct (e_text (fst k)) as [tx|]; [|same].
    destruct (kdt_parse (w_arrow W) tx) as [|z]; [same|]. destruct z; first [left; reflexivity|same].
  - apply or_bind; [|intro; same]. apply or_map. eapply Forall2_weaken; [|exact (kids_or _ ks ks' H)].
    intros k k' [Ek _]. unfold read_coord. rewrite <- Ek. destruct (e_text (fst k)) as [tx|]; [|same].
    destruct (uempty tx); [same|]. destruct (floats_of (words tx)) as [|z]; [same|]. destruct z; first [left; reflexivity|same].
  - destruct x; [|same]. apply or_guarded. now right.
  - now apply read_obj_or.
  - apply or_bind; [now apply read_objs_or|]. intro. same.
Qed.

Lemma try_nsids_or f g nss ids : (forall n, or_parse (f n) (g n)) -> or_parse (try_nsids f nss ids) (try_nsids g nss ids).
Proof.
  intro H. induction ids as [|id ids IH]; [apply or_same|]. cbn. apply or_bind; [apply H|]. intros [v|]; [apply or_same|exact IH].
Qed.

Lemma get_kwargs_or W its a x ks ks' nss acc : Forall2 kid_or ks ks' ->
  or_parse (get_kwargs W true its a x ks nss acc) (get_kwargs W false its a x ks' nss acc).
Proof.
  intro H. revert acc. induction its as [|it its IH]; intros acc; [apply or_same|]. cbn [get_kwargs].
  apply or_bind; [|intro; apply IH]. apply try_nsids_or. intro n. now apply get_kwarg_or.
Qed.

Theorem strict_or_lenient W e : forall c ns nss, or_parse (from_element W true e c ns nss) (from_element W false e c ns nss).
Proof.
  induction e as [t a x ks IH] using elem_ind'. intros c ns nss. cbn [from_element]. unfold read_with. cbv zeta.
  apply or_bind; [|intro; apply or_same]. apply get_kwargs_or.
  clear -IH. induction IH as [|k ks Hk _ IHks]; constructor; [|exact IHks]. split; [reflexivity|]. cbn [snd]. exact Hk.
Qed.

Theorem strict_lenient W e c ns nss v : from_element W true e c ns nss = Ok v -> from_element W false e c ns nss = Ok v.
Proof. intro H. destruct (strict_or_lenient W e c ns nss) as [E|E]; congruence. Qed.
