(** * A document nobody has is changed by nobody. *)
From Coq Require Import String List NArith ZArith Bool Lia PeanoNat.
From Verif Require Import Ustr UstrProofs Res PyDate Elem Value Geom Codec Api Spec EmitProofs Alias AliasSpec AliasProofs AliasLoad AliasRead AliasReadProofs.
Import ListNotations.
Local Open Scope string_scope.
Local Open Scope list_scope.

(** What the program can reach is among the objects [P] and the lists [Q]. *)
Record within (P Q : nat -> Prop) (m : memory) : Prop := {
  wi_vars : Forall (ref_in P) (m_evars m);
  wi_lvars : Forall Q (m_lvars m);
  wi_objs : forall i o, nth_error (m_objs m) i = Some o -> P i -> attrs_in P (o_attrs o) /\ Forall Q (held_obj o);
  wi_lists : forall b c, nth_error (m_lists m) b = Some c -> Q b -> content_in P c
}.

(** Nothing else is changed, and what is new is among them. *)
Record confined (P Q : nat -> Prop) (m m' : memory) : Prop := {
  co_within : within P Q m';
  co_objs : length (m_objs m) <= length (m_objs m');
  co_lists : length (m_lists m) <= length (m_lists m');
  co_obj : forall i, i < length (m_objs m) -> ~ P i -> nth_error (m_objs m') i = nth_error (m_objs m) i;
  co_list : forall b, b < length (m_lists m) -> ~ Q b -> nth_error (m_lists m') b = nth_error (m_lists m) b
}.

Lemma nth_put_same {A} i (x y : A) l : nth_error (put i x l) i = Some y -> y = x.
Proof. revert l. induction i as [|i IH]; intros [|z l] H; cbn in H; try discriminate H; [now injection H as <-|now apply IH in H]. Qed.

Lemma nth_put_other {A} i j (x : A) l : j <> i -> nth_error (put i x l) j = nth_error l j.
Proof. revert l j. induction i as [|i IH]; intros [|z l] [|j] H; cbn; try reflexivity; [congruence|apply IH; congruence]. Qed.

Lemma look_see ls kws views : map_res (fun kv : string * hval => let! x := look ls (snd kv) in Ok (fst kv, x)) kws = Ok views -> views = see_all ls kws.
Proof.
  revert views. induction kws as [|[k h] kws IH]; intros views H; cbn [map_res snd fst] in H; [now injection H as <-|].
  apply bind_ok in H as [y [Hy H]]. apply bind_ok in H as [r [Hr H]]. injection H as <-. apply bind_ok in Hy as [x [Hx Hy]]. injection Hy as <-. rewrite (IH _ Hr). cbn [see_all map fst snd]. f_equal. f_equal.
  destruct h as [e|a]; cbn in Hx |- *; [now injection Hx as <-|]. destruct (nth_error ls a) as [c|] eqn:E; [|discriminate Hx]. injection Hx as <-. unfold contents. now rewrite (nth_error_nth _ _ _ E).
Qed.

Lemma assign_in W ld kws ls0 P : (forall a, aval_in P (aget (see_all ls0 kws) a)) -> attrs_in P kws ->
  forall aks ls ls' r, assign W ld kws (see_all ls0 kws) aks ls = Ok (ls', r) ->
  exists new, ls' = ls ++ new /\ Forall (content_in P) new /\ attrs_in P r /\
    forall b, In b (held_attrs r) -> In b (held_attrs kws) \/ length ls <= b < length ls'.
Proof.
  intros V K. induction aks as [|[a kd] aks IH]; intros ls ls' r H; cbn [assign] in H.
  - injection H as <- <-. exists []. rewrite app_nil_r. split; [reflexivity|]. split; [constructor|]. split; [constructor|]. intros b [].
  - apply bind_ok in H as [s [Hs H]]. assert (Sf := stores_in _ _ _ _ _ _ P (V a) Hs).
    destruct (match s with Same => (ls, hget kws a) | Alias.Elem e => (ls, HE e) | Fresh c => (ls ++ [c], HL (length ls)) end) as [ls1 h] eqn:E1.
    apply bind_ok in H as [[ls2 r2] [H2 H]]. injection H as <- <-. destruct (IH _ _ _ H2) as [new [-> [Fn [Fr Hh]]]].
    destruct s as [|e|c]; injection E1 as <- <-.
    + exists new. split; [reflexivity|]. split; [exact Fn|].
      assert (Hg : hval_in P (hget kws a) /\ forall b, In b (held_val (hget kws a)) -> In b (held_attrs kws)).
      { unfold hget. destruct (sget a kws) as [h|] eqn:Eh; [|split; [exact I|intros b []]]. apply sget_in in Eh. unfold attrs_in in K. rewrite Forall_forall in K. split; [exact (K _ Eh)|].
        intros b Hb. unfold held_attrs. apply in_flat_map. now exists (a, h). }
      split; [constructor; [apply Hg|exact Fr]|]. intros b Hb. cbn [held_attrs flat_map snd] in Hb. apply in_app_or in Hb as [Hb|Hb]; [left; now apply Hg|now apply Hh].
    + exists new. split; [reflexivity|]. split; [exact Fn|]. split; [constructor; [exact Sf|exact Fr]|]. exact Hh.
    + exists (c :: new). split; [now rewrite <- app_assoc|]. split; [now constructor|]. split; [constructor; [exact I|exact Fr]|].
      rewrite !app_length in *. cbn [length] in *. intros b [<-|Hb]; [right; cbn; lia|]. destruct (Hh b Hb); [now left|right; lia].
Qed.

Section Step.
  Variables (P Q : nat -> Prop) (W : world) (fuel : nat) (m : memory).
  Hypothesis H : within P Q m.

  Lemma var_in i e : nth_error (m_evars m) i = Some e -> ref_in P e.
  Proof. intro E. assert (F := wi_vars _ _ _ H). rewrite Forall_forall in F. apply F. now apply nth_error_In in E. Qed.

  Lemma lvar_in i a : nth_error (m_lvars m) i = Some a -> Q a.
  Proof. intro E. assert (F := wi_lvars _ _ _ H). rewrite Forall_forall in F. apply F. now apply nth_error_In in E. Qed.

  Lemma obj_var_in o i : obj_var (m_evars m) o = Ok i -> P i.
  Proof. unfold obj_var. destruct (nth_error (m_evars m) o) as [[v|a]|] eqn:E; try discriminate. intro Q0. injection Q0 as <-. exact (var_in _ _ E). Qed.

  Lemma changed_in old c new : content_in P old -> changed (m_evars m) old c = Ok new -> content_in P new.
  Proof.
    intros Ho Hc. destruct c as [l|v|d]; cbn [changed] in Hc; [|injection Hc as <-; exact I|injection Hc as <-; exact I].
    apply bind_ok in Hc as [es [He Hc]]. injection Hc as <-. apply map_res_ok in He. cbn. induction He as [|p e l r Hp _ IH]; constructor; [|exact IH].
    destruct p as [i|k]; cbn [picked] in Hp.
    - apply the_ok in Hp. exact (var_in _ _ Hp).
    - destruct old as [l0|v|d]; try discriminate Hp. apply the_ok in Hp. cbn in Ho. rewrite Forall_forall in Ho. apply Ho. now apply nth_error_In in Hp.
  Qed.

  Lemma var_confined e : ref_in P e -> confined P Q m (add_var m e).
  Proof.
    intro He. constructor; cbn [add_var m_objs m_lists]; auto. constructor; cbn [add_var m_objs m_lists m_evars m_lvars]; [|apply H|apply H|apply H].
    apply Forall_app. split; [apply H|]. constructor; [exact He|constructor].
  Qed.

  Lemma change_confined a c m' : Q a -> change_at m a c = Ok m' -> confined P Q m m'.
  Proof.
    intros Ha Hc. unfold change_at in Hc. apply bind_ok in Hc as [old [Ho Hc]]. apply the_ok in Ho. apply bind_ok in Hc as [new [Hn Hc]]. injection Hc as <-.
    assert (N := changed_in _ _ _ (wi_lists _ _ _ H _ _ Ho Ha) Hn).
    constructor; cbn [set_lists m_objs m_lists]; rewrite ?put_length; auto.
    - constructor; cbn [set_lists m_objs m_lists m_evars m_lvars]; [apply H|apply H|apply H|]. intros b c0 Hb Qb. destruct (Nat.eq_dec b a) as [->|Nb].
      + apply nth_put_same in Hb. now subst c0.
      + rewrite nth_put_other in Hb by exact Nb. exact (wi_lists _ _ _ H _ _ Hb Qb).
    - intros b _ Nb. apply nth_put_other. intros ->. contradiction.
  Qed.

  Lemma new_confined c ns nss kws m' : attrs_in P kws -> Forall Q (held_attrs kws) ->
    new_obj W fuel m c ns nss kws = Ok m' ->
    (forall a, length (m_objs m) <= a < length (m_objs m') -> P a) -> (forall b, length (m_lists m) <= b < length (m_lists m') -> Q b) ->
    confined P Q m m'.
  Proof.
    intros K Hq Hn Po Qo. unfold new_obj in Hn. destruct (class_of W c) as [ci|]; [|discriminate Hn]. cbv zeta in Hn. destruct (_ && _); [discriminate Hn|].
    apply bind_ok in Hn as [views [Hv Hn]]. apply look_see in Hv as Ev. subst views. apply bind_ok in Hn as [[ls1 pre] [H1 Hn]]. apply bind_ok in Hn as [[ls2 post] [H2 Hn]]. injection Hn as <-. cbn [m_objs m_lists] in Po, Qo.
    assert (V : forall a, aval_in P (aget (see_all (m_lists m) kws) a)).
    { intro a. rewrite aget_see. unfold hget. destruct (sget a kws) as [h|] eqn:Eh; [|exact I]. apply sget_in in Eh. destruct h as [e|b]; cbn [see aval_in].
      - unfold attrs_in in K. rewrite Forall_forall in K. exact (K _ Eh).
      - assert (Qb : Q b) by (rewrite Forall_forall in Hq; apply Hq; apply in_held_attrs; now exists a). unfold contents. destruct (nth_error (m_lists m) b) as [c0|] eqn:Ec.
        + rewrite (nth_error_nth _ _ _ Ec). exact (wi_lists _ _ _ H _ _ Ec Qb).
        + rewrite nth_overflow; [constructor|]. now apply nth_error_None. }
    destruct (assign_in W _ kws (m_lists m) P V K _ _ _ _ H1) as [n1 [-> [F1 [R1 B1]]]]. destruct (assign_in W _ kws (m_lists m) P V K _ _ _ _ H2) as [n2 [-> [F2 [R2 B2]]]].
    set (lm := ((m_lists m ++ n1) ++ n2) ++ [LDict (merge_ns nss)]) in *.
    assert (El : lm = m_lists m ++ (n1 ++ n2 ++ [LDict (merge_ns nss)])) by (unfold lm; now rewrite <- !app_assoc).
    assert (Ll : length lm = length (m_lists m) + length n1 + length n2 + 1) by (unfold lm; rewrite !app_length; reflexivity). rewrite !app_length in B1, B2. cbn [length] in *.
    rewrite Forall_forall in Hq.
    constructor; cbn [m_objs m_lists]; rewrite ?app_length; try lia.
    - constructor; cbn [m_objs m_lists m_evars m_lvars].
      + apply Forall_app. split; [apply H|]. constructor; [|constructor]. cbn. apply Po. rewrite app_length. cbn. lia.
      + apply H.
      + intros i o Hi Pi. destruct (Nat.lt_ge_cases i (length (m_objs m))) as [Li|Li]; [rewrite nth_error_app1 in Hi by exact Li; exact (wi_objs _ _ _ H _ _ Hi Pi)|].
        rewrite nth_error_app2 in Hi by exact Li. destruct (i - length (m_objs m)) as [|[|?]]; cbn in Hi; try discriminate Hi. injection Hi as <-. cbn [o_attrs]. split.
        * unfold attrs_in. rewrite !Forall_app. split; [exact R1|]. split; [|exact R2]. unfold attrs_in in K. rewrite Forall_forall in K |- *. intros kv Hkv. apply filter_In in Hkv as [Hkv _]. now apply K.
        * unfold held_obj. cbn [o_nss o_attrs]. rewrite Forall_forall. intros b [<-|Hb]; [apply Qo; rewrite Ll, ?app_length; lia|].
          rewrite !held_attrs_app in Hb. apply in_app_or in Hb as [Hb|Hb]; [destruct (B1 b Hb); [auto|apply Qo; lia]|]. apply in_app_or in Hb as [Hb|Hb]; [|destruct (B2 b Hb) as [X|X]; [auto|rewrite !app_length in X; apply Qo; lia]].
          apply Hq. apply in_held_attrs in Hb as [k Hk]. apply filter_In in Hk as [Hk _]. apply in_held_attrs. now exists k.
      + intros b c0 Hb Qb. rewrite El in Hb. destruct (Nat.lt_ge_cases b (length (m_lists m))) as [Lb|Lb]; [rewrite nth_error_app1 in Hb by exact Lb; exact (wi_lists _ _ _ H _ _ Hb Qb)|].
        rewrite nth_error_app2 in Hb by exact Lb. apply nth_error_In in Hb. assert (Fa : Forall (content_in P) (n1 ++ n2 ++ [LDict (merge_ns nss)])) by (rewrite !Forall_app; repeat split; auto; constructor; [exact I|constructor]).
        rewrite Forall_forall in Fa. now apply Fa.
    - intros i Li _. now apply nth_error_app1.
    - intros b Lb _. rewrite El. now apply nth_error_app1.
  Qed.

  Theorem step_confined o m' : step W fuel m o = Ok m' ->
    (forall a, length (m_objs m) <= a < length (m_objs m') -> P a) -> (forall b, length (m_lists m) <= b < length (m_lists m') -> Q b) ->
    confined P Q m m'.
  Proof.
    intros Hs Po Qo. destruct o as [v|c|c ns nss kws|l c|o a c|o d|o a|o a k|o a e]; cbn [step] in Hs.
    - injection Hs as <-. now apply var_confined.
    - apply bind_ok in Hs as [new [Hn Hs]]. injection Hs as <-. assert (N := changed_in (LObjs []) _ _ (Forall_nil _) Hn). cbn [m_lists m_objs] in *. rewrite app_length in Qo. cbn [length] in Qo.
      constructor; cbn [m_objs m_lists]; rewrite ?app_length; try lia; auto.
      + constructor; cbn [m_objs m_lists m_evars m_lvars]; [apply H| |apply H|].
        * apply Forall_app. split; [apply H|]. constructor; [|constructor]. apply Qo. lia.
        * intros b c0 Hb Qb. destruct (Nat.lt_ge_cases b (length (m_lists m))) as [Lb|Lb]; [rewrite nth_error_app1 in Hb by exact Lb; exact (wi_lists _ _ _ H _ _ Hb Qb)|].
          rewrite nth_error_app2 in Hb by exact Lb. destruct (b - length (m_lists m)) as [|[|?]]; cbn in Hb; try discriminate Hb. now injection Hb as <-.
      + intros b Lb _. now apply nth_error_app1.
    - apply bind_ok in Hs as [d [_ Hs]]. apply bind_ok in Hs as [hs [Hh Hs]]. apply map_res_ok in Hh.
      assert (X : attrs_in P hs /\ Forall Q (held_attrs hs)).
      { clear -H Hh. induction Hh as [|kv w l r H1 _ [IH1 IH2]]; [split; constructor|]. apply bind_ok in H1 as [h [Hh H1]]. injection H1 as <-. destruct kv as [k [i|i]]; cbn [arg_val snd fst] in *.
        - apply bind_ok in Hh as [e [He Hh]]. injection Hh as <-. apply the_ok in He. split; [constructor; [exact (var_in _ _ He)|exact IH1]|exact IH2].
        - apply bind_ok in Hh as [a [Ha Hh]]. injection Hh as <-. apply the_ok in Ha. split; [constructor; [exact I|exact IH1]|]. cbn [held_attrs flat_map snd held_val app]. constructor; [exact (lvar_in _ _ Ha)|exact IH2]. }
      destruct X as [X1 X2]. exact (new_confined _ _ _ _ _ X1 X2 Hs Po Qo).
    - apply bind_ok in Hs as [a [Ha Hs]]. apply the_ok in Ha. exact (change_confined _ _ _ (lvar_in _ _ Ha) Hs).
    - apply bind_ok in Hs as [i [Hi Hs]]. apply bind_ok in Hs as [x [Hx Hs]]. apply the_ok in Hx. destruct (sget a (o_attrs x)) as [[e|ad]|] eqn:E; try discriminate Hs.
      apply (change_confined ad c); [|exact Hs]. destruct (wi_objs _ _ _ H _ _ Hx (obj_var_in _ _ Hi)) as [_ F]. rewrite Forall_forall in F. apply F. right. apply in_held_attrs. exists a. now apply sget_in.
    - apply bind_ok in Hs as [i [Hi Hs]]. apply bind_ok in Hs as [x [Hx Hs]]. apply the_ok in Hx.
      apply (change_confined (o_nss x) (Dict d)); [|exact Hs]. destruct (wi_objs _ _ _ H _ _ Hx (obj_var_in _ _ Hi)) as [_ F]. rewrite Forall_forall in F. apply F. now left.
    - apply bind_ok in Hs as [i [Hi Hs]]. apply bind_ok in Hs as [x [Hx Hs]]. apply the_ok in Hx. destruct (sget a (o_attrs x)) as [[e|ad]|] eqn:E; try discriminate Hs. injection Hs as <-. apply var_confined.
      destruct (wi_objs _ _ _ H _ _ Hx (obj_var_in _ _ Hi)) as [F _]. unfold attrs_in in F. rewrite Forall_forall in F. exact (F _ (sget_in _ _ _ E)).
    - apply bind_ok in Hs as [i [Hi Hs]]. apply bind_ok in Hs as [x [Hx Hs]]. apply the_ok in Hx. destruct (sget a (o_attrs x)) as [[e|ad]|] eqn:E; try discriminate Hs.
      apply bind_ok in Hs as [c [Hc Hs]]. apply the_ok in Hc. apply bind_ok in Hs as [e [He Hs]]. injection Hs as <-. apply var_confined.
      destruct (wi_objs _ _ _ H _ _ Hx (obj_var_in _ _ Hi)) as [_ F]. rewrite Forall_forall in F. assert (Qa : Q ad) by (apply F; right; apply in_held_attrs; exists a; now apply sget_in).
      assert (C := wi_lists _ _ _ H _ _ Hc Qa). cbn [picked] in He. destruct c as [l|v|d]; try discriminate He. apply the_ok in He. cbn in C. rewrite Forall_forall in C. apply C. now apply nth_error_In in He.
    - apply bind_ok in Hs as [i [Hi Hs]]. apply bind_ok in Hs as [x [Hx Hs]]. apply the_ok in Hx. apply bind_ok in Hs as [e0 [He Hs]]. apply the_ok in He. injection Hs as <-.
      destruct (wi_objs _ _ _ H _ _ Hx (obj_var_in _ _ Hi)) as [F1 F2]. constructor; cbn [m_objs m_lists]; rewrite ?put_length; auto.
      + constructor; cbn [m_objs m_lists m_evars m_lvars]; [apply H|apply H| |apply H]. intros j o' Hj Pj. destruct (Nat.eq_dec j i) as [->|Nj].
        * apply nth_put_same in Hj. subst o'. cbn [o_attrs]. split; [apply attrs_in_sset; [exact (var_in _ _ He)|exact F1]|]. unfold held_obj in *. cbn [o_nss o_attrs] in *. rewrite Forall_forall in *. intros b [<-|Hb]; [apply F2; now left|].
          apply F2. right. destruct (held_sset a e0 (o_attrs x)) as [l Pm]. apply (Permutation.Permutation_in _ (Permutation.Permutation_sym Pm)). apply in_or_app. now right.
        * rewrite nth_put_other in Hj by exact Nj. exact (wi_objs _ _ _ H _ _ Hj Pj).
      + intros j _ Nj. apply nth_put_other. intros ->. apply Nj. exact (obj_var_in _ _ Hi).
  Qed.

  Lemma grown_confined m' : grown m m' [] ->
    (forall a, length (m_objs m) <= a < length (m_objs m') -> P a) -> (forall b, length (m_lists m) <= b < length (m_lists m') -> Q b) ->
    confined P Q m m'.
  Proof.
    clear W fuel. intros [ls [os [E [N [I0 [L [O _]]]]]]] Po Qo. cbn [held_attrs flat_map app] in *.
    assert (Bp : forall a, between m m' a -> P a) by (intros a Ha; now apply Po). rewrite E in Po, Qo |- *. cbn [m_objs m_lists] in Po, Qo. rewrite !app_length in Po, Qo.
    assert (I1 : forall a, In a (flat_map held_obj os) -> Q a) by (intros a Ha; apply Qo; specialize (I0 a Ha); rewrite E in I0; cbn [m_lists] in I0; rewrite app_length in I0; exact I0). clear I0 E.
    constructor; cbn [m_objs m_lists]; rewrite ?app_length; try lia.
    - constructor; cbn [m_objs m_lists m_evars m_lvars]; [apply H|apply H| |].
      + intros i o Hi Pi. destruct (Nat.lt_ge_cases i (length (m_objs m))) as [Li|Li]; [rewrite nth_error_app1 in Hi by exact Li; exact (wi_objs _ _ _ H _ _ Hi Pi)|].
        rewrite nth_error_app2 in Hi by exact Li. apply nth_error_In in Hi. rewrite Forall_forall in O. split; [apply (attrs_in_le _ _ _ Bp); now apply O|].
        rewrite Forall_forall. intros b Hb. apply I1. apply in_flat_map. now exists o.
      + intros b c Hb Qb. destruct (Nat.lt_ge_cases b (length (m_lists m))) as [Lb|Lb]; [rewrite nth_error_app1 in Hb by exact Lb; exact (wi_lists _ _ _ H _ _ Hb Qb)|].
        rewrite nth_error_app2 in Hb by exact Lb. apply nth_error_In in Hb. rewrite Forall_forall in L. apply (content_in_le _ _ _ Bp). now apply L.
    - intros i Li _. now apply nth_error_app1.
    - intros b Lb _. now apply nth_error_app1.
  Qed.
End Step.

Lemma confined_trans P Q m m1 m2 : confined P Q m m1 -> confined P Q m1 m2 -> confined P Q m m2.
Proof.
  intros A B. assert (A1 := co_objs _ _ _ _ A). assert (A2 := co_lists _ _ _ _ A). assert (B1 := co_objs _ _ _ _ B). assert (B2 := co_lists _ _ _ _ B).
  constructor; [apply B|lia|lia| |].
  - intros i Li Ni. rewrite (co_obj _ _ _ _ B) by (auto; lia). now apply (co_obj _ _ _ _ A).
  - intros b Lb Nb. rewrite (co_list _ _ _ _ B) by (auto; lia). now apply (co_list _ _ _ _ A).
Qed.

Theorem hstep_confined W fuel P Q m o m' : world_ok W = true -> within P Q m -> hstep W fuel m o = Ok m' ->
  (forall a, length (m_objs m) <= a < length (m_objs m') -> P a) -> (forall b, length (m_lists m) <= b < length (m_lists m') -> Q b) ->
  confined P Q m m'.
Proof.
  intros HW Hm Hs Po Qo. destruct o as [o|strict c ns nss e]; cbn [hstep] in Hs; [exact (step_confined P Q W fuel m Hm o m' Hs Po Qo)|].
  apply bind_ok in Hs as [d [_ Hs]]. cbv zeta in Hs. apply bind_ok in Hs as [[m1 r] [Hr Hs]]. injection Hs as <-. cbn [add_var m_objs m_lists] in Po, Qo.
  assert (R := mread_agrees W strict e HW _ (le_n _) c (match ns with Some n => n | None => default_ns W c (merge_ns d) end) (merge_ns d) m). rewrite Hr in R. destruct R as [G [Rr _]].
  apply (confined_trans _ _ _ m1); [now apply grown_confined|]. apply var_confined; [|].
  - exact (co_within _ _ _ _ (grown_confined P Q m Hm m1 G Po Qo)).
  - eapply ref_in_le; [|exact Rr]. intros a Ha. now apply Po.
Qed.

(** ** Every reference leads somewhere *)

Definition sound (m : memory) : Prop := within (fun a => a < length (m_objs m)) (fun b => b < length (m_lists m)) m.

Lemma within_le (P Q P' Q' : nat -> Prop) m : (forall a, P a -> P' a) -> (forall b, Q b -> Q' b) -> (forall a, P' a -> a < length (m_objs m) -> P a) -> (forall b, Q' b -> b < length (m_lists m) -> Q b) ->
  within P Q m -> within P' Q' m.
Proof.
  intros Hp Hq Hp' Hq' H. constructor.
  - eapply Forall_impl; [|apply H]. intro e. now apply ref_in_le.
  - eapply Forall_impl; [|apply H]. auto.
  - intros i o Hi Pi. assert (Li : i < length (m_objs m)) by (apply nth_error_Some; congruence). destruct (wi_objs _ _ _ H _ _ Hi (Hp' _ Pi Li)) as [F1 F2].
    split; [now apply (attrs_in_le P)|]. eapply Forall_impl; [|exact F2]. auto.
  - intros b c Hb Qb. assert (Lb : b < length (m_lists m)) by (apply nth_error_Some; congruence). apply (content_in_le P); [exact Hp|]. exact (wi_lists _ _ _ H _ _ Hb (Hq' _ Qb Lb)).
Qed.

Lemma step_lengths W fuel m o m' : world_ok W = true -> sound m -> hstep W fuel m o = Ok m' -> sound m' /\ length (m_objs m) <= length (m_objs m') /\ length (m_lists m) <= length (m_lists m').
Proof.
  intros HW Hm Hs.
  (* everything allowed: the lengths *)
  assert (T : within (fun _ => True) (fun _ => True) m) by (apply (within_le (fun a => a < length (m_objs m)) (fun b => b < length (m_lists m))); auto).
  assert (C := hstep_confined W fuel _ _ m o m' HW T Hs (fun _ _ => I) (fun _ _ => I)). assert (L1 := co_objs _ _ _ _ C). assert (L2 := co_lists _ _ _ _ C).
  assert (X : within (fun a => a < length (m_objs m')) (fun b => b < length (m_lists m')) m).
  { apply (within_le (fun a => a < length (m_objs m)) (fun b => b < length (m_lists m))); auto; intros; lia. }
  assert (C' := hstep_confined W fuel _ _ m o m' HW X Hs (fun a Ha => proj2 Ha) (fun b Hb => proj2 Hb)). split; [exact (co_within _ _ _ _ C')|]. auto.
Qed.

Lemma run_sound W fuel ops : world_ok W = true -> forall m m', sound m -> hrun W fuel m ops = Ok m' -> sound m' /\ length (m_objs m) <= length (m_objs m') /\ length (m_lists m) <= length (m_lists m').
Proof.
  intro HW. induction ops as [|o ops IH]; intros m m' Hm H; cbn [hrun] in H; [injection H as <-; auto|].
  apply bind_ok in H as [m1 [H1 H]]. destruct (step_lengths _ _ _ _ _ HW Hm H1) as [Hm1 [A1 A2]]. destruct (IH _ _ Hm1 H) as [Hm' [B1 B2]]. split; [exact Hm'|]. lia.
Qed.

Lemma sound_empty : sound empty_memory.
Proof. constructor; [constructor|constructor| |]; intros [|?] ? E; discriminate E. Qed.

(** ** The document nobody has *)

Section Frame.
  Variables (W : world) (fuel : nat) (strict : bool) (e : elem) (c : string) (ns : ustr) (nss : nss_t) (m m1 : memory) (r : eref).
  Hypothesis HW : world_ok W = true.
  Hypothesis Hm : sound m.
  Hypothesis Hr : mread W strict e c ns nss m = Ok (m1, r).

  Let P (a : nat) : Prop := a < length (m_objs m) \/ length (m_objs m1) <= a.
  Let Q (b : nat) : Prop := b < length (m_lists m) \/ length (m_lists m1) <= b.

  Lemma read_grown : grown m m1 [] /\ ref_in (between m m1) r /\ exists v, from_element W strict e c ns nss = Ok v /\ load (edepth e) m1 r = Ok v.
  Proof. assert (R := mread_agrees W strict e HW _ (le_n _) c ns nss m). rewrite Hr in R. destruct R as [G [Rr [_ R]]]. auto. Qed.

  Lemma start_within : within P Q m1.
  Proof.
    destruct read_grown as [[ls [os [E [N [I0 [L [O _]]]]]]] _]. assert (Lo : length (m_objs m1) = length (m_objs m) + length os) by (rewrite E; cbn; apply app_length). assert (Ll : length (m_lists m1) = length (m_lists m) + length ls) by (rewrite E; cbn; apply app_length).
    assert (X : within P Q m) by (apply (within_le (fun a => a < length (m_objs m)) (fun b => b < length (m_lists m))); [now left|now left|auto|auto|exact Hm]).
    constructor.
    - rewrite E. cbn [m_evars]. apply X.
    - rewrite E. cbn [m_lvars]. apply X.
    - intros i o Hi Pi. assert (Li : i < length (m_objs m1)) by (apply nth_error_Some; congruence). destruct Pi as [Pi|Pi]; [|lia].
      rewrite E in Hi. cbn [m_objs] in Hi. rewrite nth_error_app1 in Hi by exact Pi. exact (wi_objs _ _ _ X _ _ Hi (or_introl Pi)).
    - intros b c0 Hb Qb. assert (Lb : b < length (m_lists m1)) by (apply nth_error_Some; congruence). destruct Qb as [Qb|Qb]; [|lia].
      rewrite E in Hb. cbn [m_lists] in Hb. rewrite nth_error_app1 in Hb by exact Qb. exact (wi_lists _ _ _ X _ _ Hb (or_introl Qb)).
  Qed.

  Lemma rest_confined ops : forall m2 m3, within P Q m2 -> sound m2 -> length (m_objs m1) <= length (m_objs m2) -> length (m_lists m1) <= length (m_lists m2) ->
    hrun W fuel m2 ops = Ok m3 -> confined P Q m2 m3.
  Proof.
    induction ops as [|o ops IH]; intros m2 m3 Hw Hs L1 L2 H; cbn [hrun] in H.
    - injection H as <-. constructor; auto.
    - apply bind_ok in H as [m' [H1 H]]. destruct (step_lengths _ _ _ _ _ HW Hs H1) as [Hs' [A1 A2]].
      assert (C : confined P Q m2 m').
      { apply (hstep_confined W fuel P Q m2 o m' HW Hw H1); intros a Ha; right; lia. }
      apply (confined_trans _ _ _ m' _ C). apply IH; auto; [apply C| |]; lia.
  Qed.

  Lemma load_same m2 : length (m_objs m1) <= length (m_objs m2) -> (forall i, between m m1 i -> nth_error (m_objs m2) i = nth_error (m_objs m1) i) ->
    (forall b, length (m_lists m) <= b < length (m_lists m1) -> nth_error (m_lists m2) b = nth_error (m_lists m1) b) ->
    forall f x v, ref_in (between m m1) x -> load f m1 x = Ok v -> load f m2 x = Ok v.
  Proof.
    intros Lo So Sl. destruct read_grown as [[ls [os [E [_ [I0 [L [O _]]]]]]] _]. cbn [held_attrs flat_map app] in I0.
    induction f as [|f IH]; intros [w|i] v Hx H; cbn [load] in *; try exact H. cbn in Hx. rewrite (So i Hx).
    destruct (nth_error (m_objs m1) i) as [o|] eqn:Ei; [|exact H].
    assert (Io : In o os) by (rewrite E in Ei; cbn [m_objs] in Ei; rewrite nth_error_app2 in Ei by apply Hx; now apply nth_error_In in Ei).
    assert (Hin : forall b, In b (held_obj o) -> length (m_lists m) <= b < length (m_lists m1)) by (intros b Hb; apply I0; apply in_flat_map; now exists o).
    apply bind_ok in H as [d [Hd H]]. apply bind_ok in H as [attrs [Ha H]].
    assert (D : dict_at (m_lists m2) (o_nss o) = Ok d) by (unfold dict_at in *; rewrite (Sl _ (Hin _ (or_introl eq_refl))); exact Hd).
    rewrite D. cbn [bind]. apply map_res_ok in Ha.
    assert (Fa : attrs_in (between m m1) (o_attrs o)) by (rewrite Forall_forall in O; now apply O).
    assert (Hh : forall b, In b (held_attrs (o_attrs o)) -> length (m_lists m) <= b < length (m_lists m1)) by (intros b Hb; apply Hin; now right).
    match goal with |- context[map_res ?g (o_attrs o)] => assert (E' : map_res g (o_attrs o) = Ok attrs) end; [|now rewrite E'].
    clear -IH Ha Fa Hh Sl L E. induction Ha as [|kv y l r' H1 _ IH']; [reflexivity|]. inversion Fa as [|? ? F1 F2]; subst. cbn [map_res]. apply bind_ok in H1 as [w [Hw H1]]. injection H1 as <-.
    assert (Q1 : load_hval (load f m2) (m_lists m2) (snd kv) = Ok w).
    { destruct kv as [k [x|b]]; cbn [snd load_hval hval_in] in *; [now apply IH|]. assert (Hb := Hh b (or_introl eq_refl)). rewrite (Sl b Hb). destruct (nth_error _ b) as [c0|] eqn:Eb in Hw |- *; [|discriminate Hw].
      cbn [m_lists] in Eb. rewrite nth_error_app2 in Eb by apply Hb. apply nth_error_In in Eb. rewrite Forall_forall in L. specialize (L _ Eb).
      destruct c0 as [es|x|d0]; cbn [load_content content_in] in *; try exact Hw. apply bind_ok in Hw as [vs [Hv Hw]]. apply map_res_ok in Hv. injection Hw as <-.
      assert (E2 : map_res (load f m2) es = Ok vs); [|now rewrite E2]. clear -IH Hv L. induction Hv as [|x y l r0 A _ IH']; [reflexivity|]. inversion L as [|? ? B1 B2]; subst. cbn [map_res]. now rewrite (IH _ _ B1 A), (IH' B2). }
    rewrite Q1. cbn [bind]. rewrite IH'; [reflexivity|exact F2|]. intros b Hb. apply Hh. cbn [held_attrs flat_map]. apply in_or_app. now right.
  Qed.

  Theorem nobody_changes ops m2 : hrun W fuel m1 ops = Ok m2 -> exists v, from_element W strict e c ns nss = Ok v /\ load (edepth e) m2 r = Ok v.
  Proof.
    intro H. destruct read_grown as [G [Rr [v [Fv Lv]]]]. exists v. split; [exact Fv|].
    assert (Hs : sound m1).
    { assert (T := grown_objs _ _ _ G). unfold sound.
      assert (X : within (fun a => a < length (m_objs m1)) (fun b => b < length (m_lists m1)) m).
      { destruct G as [ls [os [E _]]]. assert (Lo : length (m_objs m1) = length (m_objs m) + length os) by (rewrite E; cbn; apply app_length). assert (Ll : length (m_lists m1) = length (m_lists m) + length ls) by (rewrite E; cbn; apply app_length).
        apply (within_le (fun a => a < length (m_objs m)) (fun b => b < length (m_lists m))); auto; intros; lia. }
      exact (co_within _ _ _ _ (grown_confined _ _ m X m1 G (fun a Ha => proj2 Ha) (fun b Hb => proj2 Hb))). }
    assert (C := rest_confined ops m1 m2 start_within Hs (le_n _) (le_n _) H).
    apply (load_same m2); [apply C| | |exact Rr|exact Lv].
    - intros i Hi. apply (co_obj _ _ _ _ C); [apply Hi|]. unfold P. unfold between in Hi. lia.
    - intros b Hb. apply (co_list _ _ _ _ C); [apply Hb|]. unfold Q. lia.
  Qed.
End Frame.

(** ** Lists stay apart *)

Lemma grown_separate m m' : separate m -> grown m m' [] -> separate m'.
Proof.
  intros [S1 S2] [ls [os [E [N [I0 _]]]]]. cbn [held_attrs flat_map app] in *. assert (El : length (m_lists m') = length (m_lists m) + length ls) by (rewrite E; apply app_length).
  assert (Eh : held m' = held m ++ flat_map held_obj os) by (rewrite E; unfold held; cbn [m_lvars m_objs]; now rewrite flat_map_app, app_assoc).
  constructor; rewrite Eh.
  - assert (D : forall a, In a (held m) -> ~ In a (flat_map held_obj os)) by (intros a Ha Hb; specialize (S2 a Ha); specialize (I0 a Hb); lia).
    clear -S1 N D. induction (held m) as [|a l IH]; [exact N|]. inversion S1 as [|? ? A B]; subst. cbn. constructor; [|apply IH; [exact B|intros x Hx; apply D; now right]].
    intro Hi. apply in_app_or in Hi as [Hi|Hi]; [now apply A|]. apply (D a); [now left|exact Hi].
  - intros a Ha. apply in_app_or in Ha as [Ha|Ha]; [specialize (S2 a Ha)|specialize (I0 a Ha)]; lia.
Qed.

Definition hfair (W : world) (o : hop) : bool := match o with Do o => fair W o | Read _ _ _ _ _ => true end.

Lemma hrun_separate W fuel ops : world_ok W = true -> copies_lists W -> forall m m', separate m -> forallb (hfair W) ops = true -> hrun W fuel m ops = Ok m' -> separate m'.
Proof.
  intros HW HC. induction ops as [|o ops IH]; intros m m' Hs Hf H; cbn [hrun forallb] in *; [now injection H as <-|].
  apply andb_true_iff in Hf as [Ho Hf]. apply bind_ok in H as [m1 [H1 H]]. apply (IH m1 m'); auto. clear H m' IH Hf.
  destruct o as [o|strict c ns nss e]; cbn [hstep hfair] in *.
  - assert (S := every_step W fuel m o HC Hs Ho). unfold step_seen in S. rewrite H1 in S. apply S.
  - apply bind_ok in H1 as [d [_ H1]]. cbv zeta in H1. apply bind_ok in H1 as [[m2 r] [Hr H1]]. injection H1 as <-.
    assert (R := mread_agrees W strict e HW _ (le_n _) c (match ns with Some n => n | None => default_ns W c (merge_ns d) end) (merge_ns d) m). rewrite Hr in R. destruct R as [G _].
    apply separate_var. exact (grown_separate _ _ Hs G).
Qed.
