(** Lemmas about the string operations of [Ustr.v]. *)
From Coq Require Import String Ascii List NArith ZArith Bool Lia ZifyBool ZifyN.
From Verif Require Import Ustr.
Import ListNotations.
Local Open Scope N_scope.

Lemma ueqb_refl a : ueqb a a = true.
Proof. induction a as [|x a IH]; cbn; [reflexivity|]. now rewrite N.eqb_refl, IH. Qed.

Lemma ueqb_eq a b : ueqb a b = true <-> a = b.
Proof.
  revert b; induction a as [|x a IH]; intros [|y b]; cbn; split; intro H; try congruence.
  - apply andb_prop in H as [H1 H2]. apply N.eqb_eq in H1. apply IH in H2. congruence.
  - inversion H; subst. rewrite N.eqb_refl. cbn. now apply IH.
Qed.

Lemma ueqb_neq a b : ueqb a b = false <-> a <> b.
Proof.
  rewrite <- ueqb_eq. destruct (ueqb a b); split; intros; congruence.
Qed.

Lemma ueqb_spec a b : reflect (a = b) (ueqb a b).
Proof.
  destruct (ueqb a b) eqn:E; constructor.
  - now apply ueqb_eq. - now apply ueqb_neq.
Qed.

Lemma ueqb_sym a b : ueqb a b = ueqb b a.
Proof.
  destruct (ueqb_spec a b) as [->|H]; [now rewrite ueqb_refl|].
  symmetry. apply ueqb_neq. congruence.
Qed.

Lemma u_app a b : u (a ++ b)%string = u a ++ u b.
Proof. induction a as [|c a IH]; cbn; [reflexivity|]. now rewrite IH. Qed.

Lemma u_inj a b : u a = u b -> a = b.
Proof.
  revert b; induction a as [|c a IH]; intros [|d b]; cbn; intro H; try congruence.
  injection H as H1 H2.
  rewrite <- (ascii_N_embedding c), <- (ascii_N_embedding d), H1.
  f_equal. now apply IH.
Qed.

(** ** strip *)

Definition first_ok (s : ustr) : bool :=
  match s with [] => true | c :: _ => negb (is_space c) end.
Definition last_ok (s : ustr) : bool := first_ok (rev s).

Lemma lstrip_first_ok s : first_ok (lstrip s) = true.
Proof. induction s as [|c s IH]; cbn; [reflexivity|]. destruct (is_space c) eqn:E; [exact IH|]. cbn. now rewrite E. Qed.

Lemma lstrip_id s : first_ok s = true -> lstrip s = s.
Proof. destruct s as [|c s]; cbn; [reflexivity|]. destruct (is_space c); cbn; congruence. Qed.

Lemma rstrip_id s : last_ok s = true -> rstrip s = s.
Proof. unfold last_ok, rstrip. intro H. rewrite lstrip_id by exact H. apply rev_involutive. Qed.

Lemma rstrip_last_ok s : last_ok (rstrip s) = true.
Proof. unfold last_ok, rstrip. rewrite rev_involutive. apply lstrip_first_ok. Qed.

Lemma strip_id s : first_ok s = true -> last_ok s = true -> strip s = s.
Proof. intros. unfold strip. rewrite lstrip_id by assumption. now apply rstrip_id. Qed.

Lemma lstrip_suffix s : exists p, s = p ++ lstrip s /\ forallb is_space p = true.
Proof.
  induction s as [|c s IH]; cbn.
  - now exists [].
  - destruct (is_space c) eqn:E.
    + destruct IH as [p [H1 H2]]. exists (c :: p). cbn. rewrite E. split; [now rewrite <- H1|exact H2].
    + now exists [].
Qed.

Lemma rstrip_prefix s : exists p, s = rstrip s ++ p /\ forallb is_space p = true.
Proof.
  unfold rstrip. destruct (lstrip_suffix (rev s)) as [p [H1 H2]].
  exists (rev p). split.
  - rewrite <- rev_app_distr, <- H1. now rewrite rev_involutive.
  - apply forallb_forall. intros x Hx. rewrite <- in_rev in Hx.
    rewrite forallb_forall in H2. auto.
Qed.

Lemma first_ok_prefix a b : a <> [] -> first_ok (a ++ b) = first_ok a.
Proof. destruct a; cbn; congruence. Qed.

Lemma strip_first_ok s : first_ok (strip s) = true.
Proof.
  unfold strip. destruct (rstrip_prefix (lstrip s)) as [p [H _]].
  destruct (rstrip (lstrip s)) as [|c r] eqn:E; [reflexivity|].
  rewrite <- (first_ok_prefix (c :: r) p) by discriminate.
  rewrite <- H. apply lstrip_first_ok.
Qed.

Lemma strip_last_ok s : last_ok (strip s) = true.
Proof. apply rstrip_last_ok. Qed.

Theorem strip_idem s : strip (strip s) = strip s.
Proof. apply strip_id; [apply strip_first_ok | apply strip_last_ok]. Qed.

Lemma strip_fix_iff s : strip s = s <-> first_ok s = true /\ last_ok s = true.
Proof.
  split.
  - intro H. rewrite <- H. split; [apply strip_first_ok | apply strip_last_ok].
  - intros [H1 H2]. now apply strip_id.
Qed.

(** A string without any white space is stripped. *)
Definition no_space (s : ustr) : bool := forallb (fun c => negb (is_space c)) s.

Lemma no_space_app a b : no_space (a ++ b) = no_space a && no_space b.
Proof. apply forallb_app. Qed.

Lemma no_space_rev a : no_space (rev a) = no_space a.
Proof.
  induction a as [|c a IH]; [reflexivity|]. cbn [rev]. rewrite no_space_app, IH. cbn.
  rewrite andb_true_r. apply andb_comm.
Qed.

Lemma no_space_first s : no_space s = true -> first_ok s = true.
Proof. destruct s as [|c s]; cbn; [reflexivity|]. intro H. now apply andb_prop in H as [H _]. Qed.

Lemma strip_no_space s : no_space s = true -> strip s = s.
Proof.
  intro H. apply strip_id; [now apply no_space_first|].
  unfold last_ok. apply no_space_first. now rewrite no_space_rev.
Qed.

Lemma lstrip_spaces p s : forallb is_space p = true -> lstrip (p ++ s) = lstrip s.
Proof.
  induction p as [|c p IH]; cbn; [reflexivity|]. intro H.
  apply andb_prop in H as [H1 H2]. rewrite H1. auto.
Qed.

Lemma lstrip_app_ns a b : first_ok a = true -> a <> [] -> lstrip (a ++ b) = a ++ b.
Proof. intros H Hn. apply lstrip_id. now rewrite first_ok_prefix. Qed.

Lemma lstrip_all_spaces p : forallb is_space p = true -> lstrip p = [].
Proof. intro H. rewrite <- (app_nil_r p), lstrip_spaces by exact H. reflexivity. Qed.

Lemma forallb_rev {A} (f : A -> bool) l : forallb f (rev l) = forallb f l.
Proof.
  induction l as [|x l IH]; [reflexivity|]. cbn [rev forallb].
  rewrite forallb_app, IH. cbn. rewrite andb_true_r. apply andb_comm.
Qed.

Lemma rstrip_spaces s p : forallb is_space p = true -> rstrip (s ++ p) = rstrip s.
Proof.
  intro H. unfold rstrip. rewrite rev_app_distr, lstrip_spaces; [reflexivity|].
  now rewrite forallb_rev.
Qed.

(** White space added on both sides is removed by [strip]. *)
Lemma strip_pad p s q : forallb is_space p = true -> forallb is_space q = true ->
  strip (p ++ s ++ q) = strip s.
Proof.
  intros Hp Hq. unfold strip. rewrite lstrip_spaces by exact Hp.
  destruct (lstrip_suffix s) as [p' [H1 H2]].
  destruct (lstrip s) as [|c r] eqn:E.
  - rewrite app_nil_r in H1. subst p'. rewrite lstrip_spaces by exact H2.
    rewrite lstrip_all_spaces by exact Hq. reflexivity.
  - rewrite H1, <- app_assoc, lstrip_spaces by exact H2.
    rewrite lstrip_app_ns; [|rewrite <- E; apply lstrip_first_ok | discriminate].
    now apply rstrip_spaces.
Qed.

(** ** cut / split *)

Lemma join_cons sep x l : l <> [] -> join sep (x :: l) = x ++ sep ++ join sep l.
Proof. destruct l; [congruence|reflexivity]. Qed.

Definition no_char (c : N) (s : ustr) : bool := forallb (fun x => negb (x =? c)) s.

Lemma split_on_no_char c s : no_char c s = true -> split_on c s = [s].
Proof.
  induction s as [|x s IH]; cbn; [reflexivity|]. intro H.
  apply andb_prop in H as [H1 H2]. destruct (x =? c); [discriminate|].
  rewrite IH by exact H2. reflexivity.
Qed.

Lemma split_on_app c a s : no_char c a = true ->
  split_on c (a ++ c :: s) = a :: split_on c s.
Proof.
  induction a as [|x a IH]; cbn.
  - now rewrite N.eqb_refl.
  - intro H. apply andb_prop in H as [H1 H2]. destruct (x =? c); [discriminate|].
    rewrite IH by exact H2. reflexivity.
Qed.

Lemma split_on_join c l : l <> [] -> forallb (no_char c) l = true ->
  split_on c (join [c] l) = l.
Proof.
  induction l as [|x l IH]; [congruence|]. intros _ H. cbn in H.
  apply andb_prop in H as [H1 H2]. destruct l as [|y l].
  - cbn [join]. now apply split_on_no_char.
  - rewrite join_cons by discriminate. cbn [app]. rewrite split_on_app by exact H1.
    rewrite IH; [reflexivity|discriminate|exact H2].
Qed.

Lemma words_space c s : is_space c = true -> words (c :: s) = words s.
Proof. intro H. cbn. now rewrite H. Qed.

Lemma words_spaces p s : forallb is_space p = true -> words (p ++ s) = words s.
Proof.
  induction p as [|c p IH]; [reflexivity|]. intro H. cbn in H.
  apply andb_prop in H as [H1 H2]. cbn [app]. rewrite words_space by exact H1. auto.
Qed.

Lemma words_single w : no_space w = true -> w <> [] -> words w = [w].
Proof.
  induction w as [|c w IH]; [congruence|]. intros H _. cbn in H.
  apply andb_prop in H as [H1 H2]. cbn. destruct (is_space c); [discriminate|].
  destruct w as [|d w]; [reflexivity|].
  pose proof H2 as H3. cbn in H3. apply andb_prop in H3 as [H3 _].
  destruct (is_space d); [discriminate|]. rewrite IH; [reflexivity|exact H2|discriminate].
Qed.

Lemma words_app w c s : no_space w = true -> w <> [] -> is_space c = true ->
  words (w ++ c :: s) = w :: words s.
Proof.
  induction w as [|d w IH]; [congruence|]. intros H _ Hc. cbn in H.
  apply andb_prop in H as [H1 H2]. cbn [app].
  destruct w as [|e w].
  - cbn. destruct (is_space d); [discriminate|]. now rewrite Hc.
  - cbn [app] in *. cbn [words]. destruct (is_space d); [discriminate|].
    pose proof H2 as H3. cbn in H3. apply andb_prop in H3 as [H3 _].
    destruct (is_space e) eqn:Ee; [discriminate|].
    specialize (IH H2 ltac:(discriminate) Hc). cbn [words] in IH. rewrite Ee in IH.
    rewrite IH. reflexivity.
Qed.

Lemma words_join l : forallb (fun w => no_space w && negb (uempty w)) l = true ->
  words (join [32] l) = l.
Proof.
  induction l as [|w l IH]; [reflexivity|]. intro H. cbn [forallb] in H.
  apply andb_prop in H as [H1 H2]. apply andb_prop in H1 as [H1 H3].
  assert (Hw : w <> []) by (destruct w; [discriminate|congruence]).
  destruct l as [|v l].
  - cbn [join]. now apply words_single.
  - rewrite join_cons by discriminate. cbn [app]. rewrite words_app; try assumption; [|reflexivity].
    now rewrite IH.
Qed.

Lemma words_trail s q : forallb is_space q = true -> words (s ++ q) = words s.
Proof.
  intros Hq. induction s as [|c s IH].
  - cbn [app]. rewrite <- (app_nil_r q), words_spaces by exact Hq. reflexivity.
  - cbn [app words]. destruct (is_space c); [exact IH|].
    destruct s as [|d s].
    + cbn [app]. destruct q as [|e q]; [reflexivity|].
      cbn in Hq. apply andb_prop in Hq as [He Hq]. rewrite He.
      rewrite words_space by exact He.
      rewrite <- (app_nil_r q), words_spaces by exact Hq. reflexivity.
    + cbn [app] in *. destruct (is_space d); [now rewrite IH|]. now rewrite IH.
Qed.

Lemma words_strip s : words (strip s) = words s.
Proof.
  unfold strip. destruct (lstrip_suffix s) as [p [H1 H2]].
  destruct (rstrip_prefix (lstrip s)) as [q [H3 H4]].
  transitivity (words (lstrip s)).
  - rewrite H3 at 2. symmetry. now apply words_trail.
  - rewrite H1 at 2. symmetry. now apply words_spaces.
Qed.

(** Without a comma followed by a space, [sub_comma] is the identity. *)
Lemma sub_comma_no_comma s : forallb (fun c => negb (c =? 44)) s = true ->
  sub_comma false s = s.
Proof.
  induction s as [|c s IH]; cbn; [reflexivity|]. intro H.
  apply andb_prop in H as [H1 H2]. destruct (c =? 44); [discriminate|].
  rewrite andb_false_r. now rewrite IH.
Qed.

Lemma sub_comma_no_sp b s : forallb (fun c => negb (c =? 32)) s = true ->
  sub_comma b s = s.
Proof.
  revert b; induction s as [|c s IH]; intros b; cbn; [reflexivity|]. intro H.
  apply andb_prop in H as [H1 H2]. destruct (c =? 32); [discriminate|].
  cbn. now rewrite IH.
Qed.

Lemma sub_comma_no_sp_app b a s : forallb (fun c => negb (c =? 32)) a = true -> a <> [] ->
  sub_comma b (a ++ s) = a ++ sub_comma (last a 0 =? 44) s.
Proof.
  revert b; induction a as [|c a IH]; intros b; [congruence|]. intros H _.
  cbn in H. apply andb_prop in H as [H1 H2]. cbn [app sub_comma].
  destruct (c =? 32); [discriminate|]. cbn [andb]. f_equal.
  destruct a as [|d a]; [reflexivity|].
  rewrite IH; [reflexivity|exact H2|discriminate].
Qed.

(** ** namespaces and tags *)

(** [{...}] with no closing brace inside, or empty. *)
Definition good_ns (ns : ustr) : bool :=
  match ns with
  | [] => true
  | c :: r => (c =? 123) && match rev r with
                            | d :: r' => (d =? 125) && no_char 125 r'
                            | [] => false
                            end
  end.

Definition good_name (n : ustr) : bool := no_char 123 n && no_char 125 n.

Lemma good_ns_inv ns : good_ns ns = true ->
  ns = [] \/ exists b, ns = 123 :: b ++ [125] /\ no_char 125 b = true.
Proof.
  destruct ns as [|c r]; [now left|]. intro H. right.
  cbn in H. apply andb_prop in H as [Hc H]. apply N.eqb_eq in Hc. subst c.
  destruct (rev r) as [|d r'] eqn:E; [discriminate|].
  apply andb_prop in H as [Hd H]. apply N.eqb_eq in Hd. subst d.
  exists (rev r'). split.
  - apply (f_equal (@rev N)) in E. rewrite rev_involutive in E. now rewrite E.
  - unfold no_char in *. now rewrite forallb_rev.
Qed.

Lemma no_char_app c a b : no_char c (a ++ b) = no_char c a && no_char c b.
Proof. apply forallb_app. Qed.

Lemma no_char_split c a b x y : no_char c a = true -> no_char c b = true ->
  a ++ c :: x = b ++ c :: y -> a = b /\ x = y.
Proof.
  revert b; induction a as [|p a IH]; intros [|q b] Ha Hb H; cbn in *.
  - split; congruence.
  - injection H as -> H. now rewrite N.eqb_refl in Hb.
  - injection H as -> H. now rewrite N.eqb_refl in Ha.
  - apply andb_prop in Ha as [_ Ha]. apply andb_prop in Hb as [_ Hb].
    injection H as -> H. destruct (IH b Ha Hb H). split; congruence.
Qed.

(** Tags decompose uniquely into namespace and local name. *)
Theorem tag_inj n1 a n2 b :
  good_ns n1 = true -> good_ns n2 = true -> good_name a = true -> good_name b = true ->
  n1 ++ a = n2 ++ b -> n1 = n2 /\ a = b.
Proof.
  intros G1 G2 Ga Gb H.
  unfold good_name in *. apply andb_prop in Ga as [Ga1 Ga2]. apply andb_prop in Gb as [Gb1 Gb2].
  apply good_ns_inv in G1 as [->|[x [-> Hx]]]; apply good_ns_inv in G2 as [->|[y [-> Hy]]]; cbn in H.
  - now split.
  - subst a. now cbn in Ga1.
  - subst b. now cbn in Gb1.
  - injection H as H. rewrite <- !app_assoc in H. cbn in H.
    destruct (no_char_split _ _ _ _ _ Hx Hy H) as [-> ->]. now split.
Qed.

Lemma tag_eqb n1 a n2 b :
  good_ns n1 = true -> good_ns n2 = true -> good_name a = true -> good_name b = true ->
  ueqb (n1 ++ a) (n2 ++ b) = ueqb n1 n2 && ueqb a b.
Proof.
  intros G1 G2 Ga Gb.
  destruct (ueqb_spec n1 n2) as [E1|E1]; [destruct (ueqb_spec a b) as [E2|E2]|]; cbn [andb].
  - subst. apply ueqb_refl.
  - apply ueqb_neq. intro H. destruct (tag_inj _ _ _ _ G1 G2 Ga Gb H). congruence.
  - apply ueqb_neq. intro H. destruct (tag_inj _ _ _ _ G1 G2 Ga Gb H). congruence.
Qed.

(** ** lower *)
Lemma lower_cp_idem c : lower_cp (lower_cp c) = lower_cp c.
Proof.
  unfold lower_cp.
  destruct ((65 <=? c) && (c <=? 90)) eqn:E1.
  - replace ((65 <=? c + 32) && (c + 32 <=? 90)) with false by lia.
    replace (c + 32 =? 8490) with false by lia. reflexivity.
  - destruct (c =? 8490) eqn:E2; [reflexivity|]. now rewrite E1, E2.
Qed.

Lemma lower_idem s : lower (lower s) = lower s.
Proof. unfold lower. rewrite map_map. apply map_ext. apply lower_cp_idem. Qed.
