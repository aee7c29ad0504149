(** * Name space maps *)
From Coq Require Import String List NArith ZArith Bool Lia.
From Verif Require Import Ustr UstrProofs Res Value Geom Codec Spec EmitProofs.
Import ListNotations.

Lemma sset_fresh {A} k (v : A) l : ~ In k (map fst l) -> sset k v l = l ++ [(k, v)].
Proof.
  induction l as [|[a x] l IH]; intro H; [reflexivity|]. cbn in *. destruct (String.eqb_spec k a) as [->|]; [exfalso; auto|].
  rewrite IH by auto. reflexivity.
Qed.

Lemma sset_mid {A} k (v v0 : A) l r : ~ In k (map fst l) -> sset k v (l ++ (k, v0) :: r) = l ++ (k, v) :: r.
Proof.
  induction l as [|[a x] l IH]; intro H; cbn in *; [now rewrite String.eqb_refl|].
  destruct (String.eqb_spec k a) as [->|]; [exfalso; auto|]. rewrite IH by auto. reflexivity.
Qed.

Lemma smerge_prefix {A} (done rest l : list (string * A)) :
  (exists s, map fst l = map fst rest ++ s) -> NoDup (map fst (done ++ l)) -> smerge (done ++ rest) l = done ++ l.
Proof.
  revert done rest; induction l as [|[k v] l IH]; intros done rest [s Hs] Hd.
  - cbn in Hs. destruct rest; [reflexivity|discriminate].
  - assert (Hk : ~ In k (map fst done)).
    { rewrite map_app in Hd. cbn in Hd. apply NoDup_remove_2 in Hd. intro. apply Hd, in_or_app. now left. }
    replace (done ++ (k, v) :: l) with ((done ++ [(k, v)]) ++ l) in * by now rewrite <- app_assoc.
    unfold smerge. cbn [fold_left fst snd]. destruct rest as [|[k' v'] rest].
    + rewrite app_nil_r, sset_fresh by exact Hk. change (smerge (done ++ [(k, v)]) l = (done ++ [(k, v)]) ++ l).
      rewrite <- (app_nil_r (done ++ [(k, v)])) at 1. apply IH; [exists (map fst l); reflexivity|exact Hd].
    + cbn in Hs. injection Hs as <- Hs. rewrite sset_mid by exact Hk.
      replace (done ++ (k, v) :: rest) with ((done ++ [(k, v)]) ++ rest) by now rewrite <- app_assoc.
      apply IH; [exists s; exact Hs|exact Hd].
Qed.

Lemma sset_keys {A} k (v : A) l : map fst (sset k v l) = map fst l \/ (~ In k (map fst l) /\ map fst (sset k v l) = map fst l ++ [k]).
Proof.
  destruct (in_dec string_dec k (map fst l)) as [H|H].
  - left. induction l as [|[a x] l IH]; [destruct H|]. cbn in *. destruct (String.eqb_spec k a) as [->|N]; [reflexivity|].
    cbn. rewrite IH; [reflexivity|]. destruct H; [congruence|assumption].
  - right. split; [exact H|]. rewrite sset_fresh, map_app by exact H. reflexivity.
Qed.

Lemma NoDup_snoc {A} (l : list A) x : NoDup l -> ~ In x l -> NoDup (l ++ [x]).
Proof.
  induction l as [|y l IH]; intros Hd Hn; [repeat constructor; auto|]. inversion Hd; subst. cbn. constructor.
  - intro H. apply in_app_or in H as [H|[H|[]]]; [contradiction|]. subst. apply Hn. now left.
  - apply IH; auto. intro. apply Hn. now right.
Qed.

Lemma smerge_keys {A} (a l : list (string * A)) : NoDup (map fst a) ->
  NoDup (map fst (smerge a l)) /\ exists s, map fst (smerge a l) = map fst a ++ s.
Proof.
  revert a; induction l as [|[k v] l IH]; intros a Hd; [split; [exact Hd|exists []; now rewrite app_nil_r]|].
  unfold smerge. cbn [fold_left fst snd]. fold (smerge (sset k v a) l).
  destruct (sset_keys k v a) as [E|[H E]].
  - destruct (IH (sset k v a)) as [A1 [s A2]]; [now rewrite E|]. split; [exact A1|]. exists s. now rewrite A2, E.
  - destruct (IH (sset k v a)) as [A1 [s A2]]; [rewrite E; now apply NoDup_snoc|]. split; [exact A1|]. exists (k :: s). now rewrite A2, E, <- app_assoc.
Qed.

(** Merging with the built-in map is idempotent. *)
Theorem merge_ns_idem nss : merge_ns (merge_ns nss) = merge_ns nss.
Proof.
  unfold merge_ns. destruct (smerge_keys NAME_SPACES nss) as [Hd [s Hs]]; [repeat constructor; cbn; intuition discriminate|].
  apply (smerge_prefix [] NAME_SPACES); [exists s; exact Hs|exact Hd].
Qed.

(** Lookup in the merged map. *)
Lemma sget_sset {A} k k' (v : A) l : sget k (sset k' v l) = if String.eqb k k' then Some v else sget k l.
Proof.
  induction l as [|[k0 v0] l IH]; cbn; [destruct (String.eqb k k'); reflexivity|].
  destruct (String.eqb_spec k' k0) as [->|Ne]; cbn; [destruct (String.eqb_spec k k0); reflexivity|].
  rewrite IH. destruct (String.eqb_spec k k0) as [->|]; [|reflexivity]. destruct (String.eqb_spec k0 k') as [E|]; [now rewrite E in Ne|reflexivity].
Qed.

Lemma smerge_lookup {A} (a l : list (string * A)) k : NoDup (map fst l) ->
  sget k (smerge a l) = match sget k l with Some v => Some v | None => sget k a end.
Proof.
  revert a; induction l as [|[k' v] l IH]; intros a Hd; [reflexivity|]. unfold smerge in *. cbn [fold_left fst snd sget]. cbn in Hd. inversion Hd; subst.
  rewrite IH by assumption. rewrite sget_sset. destruct (String.eqb_spec k k') as [->|]; [|reflexivity].
  replace (sget k' l) with (@None A); [reflexivity|]. symmetry. clear -H1. induction l as [|[k v0] l IH]; [reflexivity|]. cbn in *. destruct (String.eqb_spec k' k) as [->|]; [exfalso; auto|auto].
Qed.

Theorem merge_lookup nss k : NoDup (map fst nss) ->
  sget k (merge_ns nss) = match sget k nss with Some v => Some v | None => sget k NAME_SPACES end.
Proof. apply smerge_lookup. Qed.
