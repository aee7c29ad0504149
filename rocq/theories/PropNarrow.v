(** * Searches can be narrowed and divided: C76. *)
From Coq Require Import String List NArith ZArith Bool Lia Sorting.Permutation.
From Verif Require Import Ustr UstrProofs Res PyInt PyFloat PyDate Value Geom Codec Tables Find FindSpec FindProofs FewerSpec NarrowProofs PropFind Samples.
Import ListNotations.
Local Open Scope string_scope.
Local Open Scope list_scope.

(** None of the conditions raises for [x]: the attribute is missing or the
    comparison gives a truth value. *)
Definition quiet (ga : pyobj -> string -> res pyobj) (conds : list (string * (pyobj -> res bool))) (x : pyobj) : Prop :=
  forall k eq, In (k, eq) conds -> ga x k = Err EAttributeError \/ exists v b, ga x k = Ok v /\ eq v = Ok b.

Lemma quiet_ok ga conds x : quiet ga conds x -> exists b, has_attribute_values ga x conds = Ok b.
Proof.
  unfold quiet. induction conds as [|[k eq] conds IH]; intro H; cbn [has_attribute_values]; [now exists true|].
  destruct (H k eq (or_introl eq_refl)) as [-> |[v [b [-> E]]]]; cbn [bind]; [now exists false|]. rewrite E. destruct b; [|now exists false]. apply IH. intros k' eq' Hin. apply H. now right.
Qed.

(** Further conditions leave those of the objects found that meet them, in the
    same order. *)
Theorem C76_conditions : forall W ga ts args more o l,
  find_all W ga (mkQuery ts args) o = Ok l -> (forall x, In x l -> quiet ga more x) ->
  exists l', find_all W ga (mkQuery ts (args ++ more)) o = Ok l' /\
    fewer eq (fun x => ~ matches W ga (mkQuery None more) x) l' l /\ Forall (matches W ga (mkQuery None more)) l'.
Proof.
  intros W ga ts args more o l H Q.
  set (f := fun x => match has_attribute_values ga x more with Ok b => b | Err _ => false end).
  assert (M : forall x b, has_attribute_values ga x more = Ok b -> b = true <-> matches W ga (mkQuery None more) x).
  { intros x b E. rewrite <- test_true. unfold test. cbn [q_type q_args]. rewrite E. split; congruence. }
  exists (filter f l). split; [|split].
  - unfold find_all in *. apply (walk_narrow W ga (mkQuery ts args) _ f _ _ _ H).
    + intros x. unfold test. cbn [q_type q_args]. destruct (match ts with None => true | Some ts' => isinstance W ts' x end); [|auto]. rewrite args_app. now intros ->.
    + intros x Hx. assert (T : test W ga (mkQuery ts args) x = Ok true) by (apply test_true, (C19_sound_and_complete _ _ _ _ _ H); exact Hx).
      unfold test in *. cbn [q_type q_args] in *. destruct (match ts with None => true | Some ts' => isinstance W ts' x end); [|discriminate T]. rewrite args_app, T. cbn [bind]. unfold f. destruct (quiet_ok ga more x (Q x Hx)) as [b ->]. reflexivity.
  - apply filter_fewer. intros x Hx E. unfold f in E. destruct (quiet_ok ga more x (Q x Hx)) as [b Eb]. rewrite Eb in E. subst b. intro Hm. apply (M x false Eb) in Hm. discriminate.
  - apply Forall_forall. intros x Hx. apply filter_In in Hx as [Hx E]. unfold f in E. destruct (quiet_ok ga more x (Q x Hx)) as [b Eb]. rewrite Eb in E. now apply (M x b Eb).
Qed.
Print Assumptions C76_conditions.

(** So does a choice among the types asked for, or a type where none was asked
    for. *)
Theorem C76_types : forall W ga ts ts' args o l,
  match ts with None => True | Some t => incl ts' t end -> find_all W ga (mkQuery ts args) o = Ok l ->
  exists l', find_all W ga (mkQuery (Some ts') args) o = Ok l' /\
    fewer eq (fun x => forall t, In t ts' -> ~ is_a W x t) l' l /\ Forall (fun x => exists t, In t ts' /\ is_a W x t) l'.
Proof.
  intros W ga ts ts' args o l S H.
  assert (M : forall x, isinstance W ts' x = true <-> exists t, In t ts' /\ is_a W x t).
  { intro x. assert (T := test_true W ga (mkQuery (Some ts') []) x). unfold test, matches in T. cbn [q_type q_args has_attribute_values] in T. split.
    - intro E. rewrite E in T. exact (proj1 (proj1 T eq_refl) ts' eq_refl).
    - intro E. destruct (isinstance W ts' x); [reflexivity|]. assert (X : Ok false = Ok true) by (apply T; split; [intros t [= <-]; exact E|intros k eq []]). discriminate X. }
  assert (I : forall x t, ts = Some t -> isinstance W ts' x = true -> isinstance W t x = true).
  { intros x t -> E. unfold isinstance in *. apply existsb_exists in E as [y [Hy E]]. apply existsb_exists. exists y. split; [now apply S|exact E]. }
  exists (filter (isinstance W ts') l). split; [|split].
  - unfold find_all in *. apply (walk_narrow W ga (mkQuery ts args) _ (isinstance W ts') _ _ _ H).
    + intros x. unfold test. cbn [q_type q_args]. destruct (isinstance W ts' x) eqn:E; [|reflexivity]. destruct ts as [t|]; [now rewrite (I x t eq_refl E)|auto].
    + intros x Hx. assert (T : test W ga (mkQuery ts args) x = Ok true) by (apply test_true, (C19_sound_and_complete _ _ _ _ _ H); exact Hx).
      unfold test in *. cbn [q_type q_args] in *. destruct (match ts with None => true | Some t => isinstance W t x end); [|discriminate T]. rewrite T. now destruct (isinstance W ts' x).
  - apply filter_fewer. intros x Hx E t Ht Ha. assert (X : isinstance W ts' x = true) by (apply M; now exists t). congruence.
  - apply Forall_forall. intros x Hx. apply filter_In in Hx as [_ E]. now apply M.
Qed.
Print Assumptions C76_types.

(** The order of the conditions does not matter. *)
Theorem C76_order : forall W ga ts args args' o,
  Permutation args args' -> (forall x, reach o x -> quiet ga args x) ->
  exists l, find_all W ga (mkQuery ts args) o = Ok l /\ find_all W ga (mkQuery ts args') o = Ok l.
Proof.
  intros W ga ts args args' o P Q.
  destruct (C19_total W ga (mkQuery ts args) o) as [l H]; [intros x k eq Hr Hin; exact (Q x Hr k eq Hin)|]. exists l. split; [exact H|].
  assert (Q' : forall x, reach o x -> quiet ga args' x) by (intros x Hr k eq Hin; apply (Q x Hr k eq), (Permutation_in _ (Permutation_sym P) Hin)).
  destruct (C19_total W ga (mkQuery ts args') o) as [l' H']; [intros x k eq Hr Hin; exact (Q' x Hr k eq Hin)|].
  assert (T : forall x, reach o x -> test W ga (mkQuery ts args) x = test W ga (mkQuery ts args') x).
  { intros x Hr. assert (E := test_true W ga (mkQuery ts args) x). assert (E' := test_true W ga (mkQuery ts args') x).
    assert (M : matches W ga (mkQuery ts args) x <-> matches W ga (mkQuery ts args') x).
    { unfold matches. cbn [q_type q_args]. split; intros [A B]; (split; [exact A|]); intros k eq Hin; apply B; [apply (Permutation_in _ (Permutation_sym P) Hin)|apply (Permutation_in _ P Hin)]. }
    unfold test in *. cbn [q_type q_args] in *. destruct (match ts with None => true | Some t => isinstance W t x end); [|reflexivity].
    destruct (quiet_ok ga args x (Q x Hr)) as [b Eb]. destruct (quiet_ok ga args' x (Q' x Hr)) as [b' Eb']. rewrite Eb, Eb' in *. destruct b, b'; try reflexivity; exfalso; [assert (X : Ok false = Ok true) by (apply E', M, E; reflexivity)|assert (X : Ok false = Ok true) by (apply E, M, E'; reflexivity)]; discriminate X. }
  rewrite <- H. unfold find_all. f_equal. clear l l' H H' Q Q' P. generalize (S (odepth o)) as fuel. intro fuel. revert o T. induction fuel as [|fuel IH]; intros o T; [reflexivity|].
  cbn [walk]. rewrite (T o (reach_self o)). f_equal. f_equal. apply map_ext_in. intros y Hy. apply IH. intros x Hx. apply T. apply (reach_step o y x); [now apply (attrs_step W o y)|exact Hx].
Qed.
Print Assumptions C76_order.

(** What is found in an object is the object itself, if it matches, then what is
    found in each of its parts; the search succeeds if it does in each part. *)
Theorem C76_parts : forall W ga q o,
  (forall l, find_all W ga q o = Ok l ->
     exists ls, Forall2 (fun y r => find_all W ga q y = Ok r) (get_all_attrs W o) ls /\
       ((matches W ga q o /\ l = o :: concat ls) \/ (~ matches W ga q o /\ l = concat ls))) /\
  (forall b ls, test W ga q o = Ok b -> Forall2 (fun y r => find_all W ga q y = Ok r) (get_all_attrs W o) ls -> exists l, find_all W ga q o = Ok l).
Proof.
  intros W ga q o. rewrite find_all_parts. split.
  - intros l H. apply bind_ok in H as [own [E H]]. apply bind_ok in H as [below [Eb H]]. injection H as <-. exists below. split; [now apply map_res_ok in Eb|].
    assert (T := test_true W ga q o). rewrite E in T. destruct own; [left|right]; split; try reflexivity; [now apply T|]. intro M. apply T in M. discriminate M.
  - intros b ls -> F. cbn [bind].
    assert (E : map_res (find_all W ga q) (get_all_attrs W o) = Ok ls).
    { induction F as [|y r ys rs Hy _ IH]; [reflexivity|]. cbn [map_res]. rewrite Hy. cbn [bind]. now rewrite IH. }
    rewrite E. cbn [bind]. eexists. reflexivity.
Qed.
Print Assumptions C76_parts.

(** Conditions on ordinary attributes that compare with a text never raise. *)
Lemma texts_quiet conds x : Forall (fun kc => exists s, snd kc = eq_str s) conds -> quiet instance_attr conds x.
Proof.
  intros F k eq Hin. rewrite Forall_forall in F. destruct (F _ Hin) as [s E]. cbn [snd] in E. subst eq.
  unfold instance_attr. destruct x as [[ | | | | | | | | | | |c ns nss attrs]| | | | | | | ]; try (left; reflexivity). destruct (sget k attrs); [right; do 2 eexists; split; reflexivity|now left].
Qed.

(** The sample has three placemarks among its features, one of them called
    "P & <Q>". *)
Example C76_example :
  let q ts args := find_all W0 instance_attr (mkQuery ts args) (OVal s_kml) in
  let named := [("name", eq_str (u "P & <Q>"))] in
  (forall x, quiet instance_attr named x) /\
  exists l lp ln, q (Some ["features._Feature"; "features.Placemark"]) [] = Ok l /\ q (Some ["features.Placemark"]) [] = Ok lp /\ q (Some ["features.Placemark"]) named = Ok ln /\
    (length l > 3)%nat /\ length lp = 3%nat /\ length ln = 1%nat.
Proof.
  cbv zeta. split; [intro x; apply texts_quiet; repeat constructor; eexists; reflexivity|].
  do 3 eexists. repeat (split; [vm_compute; reflexivity|]). vm_compute. repeat constructor.
Qed.
