(** * Coordinate texts up to white space (vocabulary of C08). *)
From Coq Require Import String List NArith ZArith Bool Lia.
From Verif Require Import Ustr UstrProofs Res PyFloat PyNumProofs Value Geom Codec Spec CodecProofs.
Import ListNotations.

(** The text of one number: not empty, no white space, no comma. *)
Definition cell (w : ustr) : bool := no_space w && no_char 44 w && negb (uempty w).

(** One tuple: cells separated by a comma and any number of blanks. *)
Inductive tuple_text : list ustr -> ustr -> Prop :=
| tuple_one w : tuple_text [w] w
| tuple_more w k ws t : tuple_text ws t -> tuple_text (w :: ws) (w ++ 44%N :: repeat 32%N k ++ t).

Definition starts_space (s : ustr) : bool := match s with [] => true | c :: _ => is_space c end.

(** Tuples separated, preceded and followed by arbitrary white space. *)
Inductive coords_text : list (list ustr) -> ustr -> Prop :=
| coords_nil w : forallb is_space w = true -> coords_text [] w
| coords_cons w ws t l r :
    forallb is_space w = true -> tuple_text ws t -> starts_space r = true -> coords_text l r ->
    coords_text (ws :: l) (w ++ t ++ r).

(** ** Proofs *)

Lemma sub_comma_blanks k s : sub_comma true (repeat 32%N k ++ s) = sub_comma true s.
Proof. induction k as [|k IH]; [reflexivity|]. cbn. exact IH. Qed.

Lemma cell_inv w : cell w = true -> no_space w = true /\ no_char 44 w = true /\ w <> [].
Proof.
  unfold cell. rewrite !andb_true_iff. intros [[H1 H2] H3]. repeat split; auto. destruct w; [discriminate|congruence].
Qed.

Lemma cell_no32 w : no_space w = true -> forallb (fun c => negb (c =? 32)%N) w = true.
Proof. apply no_char32. Qed.

Lemma sub_comma_cell b w s : no_space w = true -> no_char 44 w = true -> w <> [] ->
  sub_comma b (w ++ s) = w ++ sub_comma false s.
Proof.
  revert b; induction w as [|c w IH]; intros b Hs Hc Hn; [congruence|].
  cbn [app sub_comma]. assert (E1 : (c =? 32)%N = false).
  { apply no_char32 in Hs. cbn in Hs. apply andb_prop in Hs as [Hs _]. now destruct (c =? 32)%N. }
  assert (E2 : (c =? 44)%N = false).
  { cbn in Hc. apply andb_prop in Hc as [Hc _]. now destruct (c =? 44)%N. }
  rewrite E1, E2. cbn [andb]. f_equal. destruct w as [|d w]; [reflexivity|].
  cbn [no_space forallb] in Hs. apply andb_prop in Hs as [_ Hs].
  cbn [no_char forallb] in Hc. apply andb_prop in Hc as [_ Hc]. now apply IH.
Qed.

Lemma sub_comma_tuple ws t b s : forallb cell ws = true -> tuple_text ws t ->
  sub_comma b (t ++ s) = join [44%N] ws ++ sub_comma false s.
Proof.
  intros Hc Ht. revert b Hc; induction Ht as [w|w k ws t Ht IH]; intros b Hc.
  - cbn [forallb] in Hc. apply andb_prop in Hc as [Hc _]. apply cell_inv in Hc as [H1 [H2 H3]].
    now apply sub_comma_cell.
  - cbn [forallb] in Hc. apply andb_prop in Hc as [Hw Hc]. apply cell_inv in Hw as [H1 [H2 H3]].
    rewrite <- app_assoc, sub_comma_cell by assumption. cbn [app sub_comma N.eqb Pos.eqb andb].
    change (44 =? 44)%N with true. rewrite <- app_assoc, sub_comma_blanks, IH by exact Hc.
    rewrite join_cons by (destruct Ht; discriminate). now rewrite <- !app_assoc.
Qed.

Lemma sub_comma_spaces w s : forallb is_space w = true -> sub_comma false (w ++ s) = w ++ sub_comma false s.
Proof.
  induction w as [|c w IH]; [reflexivity|]. cbn [forallb]. rewrite andb_true_iff. intros [Hc Hw].
  cbn [app sub_comma]. rewrite andb_false_r. f_equal.
  destruct (N.eqb_spec c 44) as [->|_]; [discriminate|]. now apply IH.
Qed.

Lemma join_cells_ok ws : forallb cell ws = true -> ws <> [] ->
  no_space (join [44%N] ws) = true /\ join [44%N] ws <> [].
Proof.
  induction ws as [|w ws IH]; [congruence|]. cbn [forallb]. rewrite andb_true_iff. intros [Hw Hc] _.
  apply cell_inv in Hw as [H1 [H2 H3]]. destruct ws as [|v ws].
  - cbn [join]. now split.
  - rewrite join_cons by discriminate. destruct (IH Hc ltac:(discriminate)) as [I1 I2]. split.
    + rewrite no_space_app, H1. cbn [app]. unfold no_space at 1. cbn [forallb]. exact I1.
    + destruct w; [congruence|discriminate].
Qed.

Lemma coords_words l t : forallb (forallb cell) l = true -> coords_text l t ->
  words (sub_comma false t) = map (join [44%N]) l.
Proof.
  intros Hc Ht. revert Hc; induction Ht as [w Hw|w ws t l r Hw Htu Hs Ht IH]; intro Hc.
  - rewrite <- (app_nil_r w), sub_comma_spaces by exact Hw. cbn [sub_comma]. now rewrite words_spaces.
  - cbn [forallb] in Hc. apply andb_prop in Hc as [H1 H2].
    rewrite sub_comma_spaces by exact Hw. rewrite words_spaces by exact Hw.
    rewrite (sub_comma_tuple ws t false r H1 Htu). cbn [map].
    assert (Hne : ws <> []) by (destruct Htu; discriminate).
    destruct (join_cells_ok ws H1 Hne) as [J1 J2].
    destruct r as [|c r].
    + cbn [sub_comma]. rewrite app_nil_r. specialize (IH H2). cbn [sub_comma words] in IH.
      rewrite words_single by assumption. now rewrite <- IH.
    + cbn [starts_space] in Hs. cbn [sub_comma] in *. rewrite andb_false_r in *.
      rewrite words_app by assumption. rewrite <- IH by exact H2. now rewrite words_space.
Qed.

(** [strip] commutes with the substitution as far as words are concerned. *)
Lemma sub_comma_trail b s q : forallb is_space q = true -> exists q',
  sub_comma b (s ++ q) = sub_comma b s ++ q' /\ forallb is_space q' = true.
Proof.
  revert b; induction s as [|c s IH]; intros b Hq.
  - cbn [app sub_comma]. exists (sub_comma b q). split; [reflexivity|].
    revert b; induction q as [|c q IH]; intro b; [reflexivity|]. cbn [forallb] in Hq. apply andb_prop in Hq as [H1 H2].
    cbn [sub_comma]. destruct (_ && b); [now apply IH|]. cbn [forallb]. rewrite H1. now apply IH.
  - cbn [app sub_comma]. destruct (_ && b); [now apply IH|].
    destruct (IH (c =? 44)%N Hq) as [q' [E H]]. exists q'. split; [|exact H]. now rewrite E.
Qed.

Lemma words_sub_strip s : words (sub_comma false (strip s)) = words (sub_comma false s).
Proof.
  destruct (lstrip_suffix s) as [p [E1 Hp]]. destruct (rstrip_prefix (lstrip s)) as [q [E2 Hq]].
  unfold strip. rewrite E1 at 2. rewrite sub_comma_spaces, words_spaces by exact Hp.
  rewrite E2 at 2. destruct (sub_comma_trail false (rstrip (lstrip s)) q Hq) as [q' [-> H]].
  now rewrite words_trail.
Qed.

Lemma coords_text_parse l t : forallb (forallb cell) l = true -> coords_text l t ->
  parse_coordinates t = let! r := map_res floats_of l in Ok (VCoords false r).
Proof.
  intros Hc Ht. unfold parse_coordinates. rewrite words_sub_strip, (coords_words l t Hc Ht).
  assert (E : map_res (fun s => floats_of (split_on 44 s)) (map (join [44%N]) l) = map_res floats_of l).
  { assert (Hne : Forall (fun ws => ws <> []) l).
    { clear Hc. induction Ht as [|? ? ? ? ? ? Htu]; constructor; auto. destruct Htu; discriminate. }
    clear Ht. induction Hne as [|ws l Hn _ IH]; [reflexivity|].
    cbn [forallb] in Hc. apply andb_prop in Hc as [H1 H2].
    cbn [map map_res]. rewrite split_on_join; [now rewrite IH|exact Hn|].
    rewrite forallb_forall in *. intros w Hw. now apply H1, cell_inv in Hw. }
  now rewrite E.
Qed.

(** ** What is written *)

Lemma tuple_text_join ws : ws <> [] -> tuple_text ws (join [44%N] ws).
Proof.
  induction ws as [|w ws IH]; [congruence|]. intros _. destruct ws as [|v ws]; [constructor|].
  rewrite join_cons by discriminate. cbn [app]. apply (tuple_more w 0). apply IH. discriminate.
Qed.

Lemma coords_text_space l t : coords_text l t -> coords_text l (32%N :: t).
Proof.
  destruct 1 as [w Hw|w ws t l r H1 H2 H3 H4]; [now constructor|]. now apply (coords_cons (32%N :: w)).
Qed.

Lemma coords_text_join l : Forall (fun ws => ws <> []) l -> coords_text l (join [32%N] (map (join [44%N]) l)).
Proof.
  induction 1 as [|ws l Hn _ IH]; [now constructor|]. cbn [map].
  destruct l as [|vs l].
  - cbn [map join]. rewrite <- (app_nil_r (join [44%N] ws)). apply (coords_cons [] ws _ [] []); auto using tuple_text_join, coords_nil.
  - cbn [map] in *. rewrite join_cons by discriminate.
    apply (coords_cons [] ws _ (vs :: l)); auto using tuple_text_join.
    apply coords_text_space, IH.
Qed.

Lemma coordinates_cells prec l t : forallb (fun c => nums_valid c && negb (nilb c)) l = true ->
  coordinates_text prec l = Ok t ->
  exists cells, forallb (forallb cell) cells = true /\ coords_text cells t /\
    map_res floats_of cells = Ok (map (point_norm prec) l).
Proof.
  intros Hv H. unfold coordinates_text in H. destruct (dims_ok l); [|discriminate].
  apply bind_ok in H as [ts [Hts H]]. injection H as <-. change (u " ") with [32%N].
  assert (G : exists cells, ts = map (join [44%N]) cells /\ forallb (forallb cell) cells = true /\
     Forall (fun ws => ws <> []) cells /\ map_res floats_of cells = Ok (map (point_norm prec) l)).
  { apply map_res_ok in Hts. revert Hv; induction Hts as [|c t l ts Hc _ IH]; intro Hv; [now exists []|].
    cbn [forallb] in Hv. apply andb_prop in Hv as [H1 H2]. apply andb_prop in H1 as [H1 H3].
    destruct (IH H2) as [cells [-> [I1 [I2 I3]]]].
    unfold join_nums in Hc. apply bind_ok in Hc as [ws [Hws Hc]]. injection Hc as <-.
    destruct (map_text_spec prec c ws H1 Hws) as [J1 [J2 [J3 J4]]].
    exists (ws :: cells). repeat split.
    - cbn [forallb]. rewrite I1, andb_true_r. rewrite forallb_forall in *. intros w Hw.
      unfold cell. rewrite (J3 w Hw), (numtext_no_space w (J2 w Hw)), (numtext_no_comma w (J2 w Hw)). reflexivity.
    - constructor; [|exact I2]. destruct ws; [|discriminate]. destruct c; discriminate.
    - cbn [map_res map]. rewrite J1. cbn [bind]. now rewrite I3. }
  destruct G as [cells [-> [G1 [G2 G3]]]]. exists cells. repeat split; auto. now apply coords_text_join.
Qed.

Lemma coordinates_roundtrip prec l t : forallb (fun c => nums_valid c && negb (nilb c)) l = true ->
  coordinates_text prec l = Ok t ->
  exists cells, coords_text cells t /\ forallb (forallb cell) cells = true /\
    forall t', coords_text cells t' -> parse_coordinates t' = Ok (VCoords false (map (point_norm prec) l)).
Proof.
  intros Hv H. destruct (coordinates_cells prec l t Hv H) as [cells [H1 [H2 H3]]].
  exists cells. split; [exact H2|]. split; [exact H1|].
  intros t' Ht'. rewrite (coords_text_parse cells t' H1 Ht'), H3. reflexivity.
Qed.

Lemma coordinates_written prec l : dims_ok l = true ->
  forallb (forallb (fun n => match n with NFloat _ => true | NInt _ => false end)) l = true ->
  exists t, coordinates_text prec l = Ok t.
Proof.
  intros Hd Hf. unfold coordinates_text. rewrite Hd.
  assert (G : exists ts, map_res (join_nums (u ",") prec) l = Ok ts).
  { clear Hd. induction l as [|c l IH]; [now exists []|]. cbn [forallb] in Hf. apply andb_prop in Hf as [H1 H2].
    destruct (IH H2) as [ts E]. cbn [map_res]. unfold join_nums at 1.
    assert (G : exists ws, map_res (num_text prec) c = Ok ws).
    { clear -H1. induction c as [|[z|f] c IH]; [now exists []|discriminate|]. destruct (IH H1) as [ws E].
      cbn [map_res]. destruct prec; cbn [num_text num_fmt num_str bind] in *; rewrite E; eexists; reflexivity. }
    destruct G as [ws ->]. cbn [bind]. rewrite E. eexists; reflexivity. }
  destruct G as [ts ->]. eexists; reflexivity.
Qed.
