(** * Content models as sequences of slots. *)
From Coq Require Import String List NArith Arith Bool Lia.
From Verif Require Import Ustr UstrProofs Elem Schema.
Import ListNotations.

(** A slot: names, whether something must be there, whether there may be many. *)
Record slot := mkSlot { s_names : list sname; s_req : bool; s_many : bool }.

Definition sname_eqb (a b : sname) : bool := String.eqb (fst a) (fst b) && String.eqb (snd a) (snd b).
Lemma sname_eqb_eq a b : sname_eqb a b = true -> a = b.
Proof. destruct a, b. unfold sname_eqb. cbn. intro H. apply andb_prop in H as [A B]. apply String.eqb_eq in A, B. now subst. Qed.

(** The names of a choice between elements that may be left out. *)
Fixpoint choice_names (one : bool) (ps : list particle) : option (list sname * bool) :=
  match ps with
  | [] => Some ([], false)
  | PEl ns a b :: ps' =>
      match b with Some 0 => None | _ =>
      if Nat.leb a 1 then
        match choice_names one ps' with
        | Some (l, z) => Some (ns ++ l, z || Nat.eqb a 0)
        | None => None
        end
      else None end
  | _ => None
  end.

Fixpoint slots_of (p : particle) : option (list slot) :=
  match p with
  | PEl ns a (Some 1) => if Nat.leb a 1 then Some [mkSlot ns (Nat.eqb a 1) false] else None
  | PEl ns a None => if Nat.leb a 1 then Some [mkSlot ns (Nat.eqb a 1) true] else None
  | PAny _ 0 _ => Some []
  | PSeq ps 1 (Some 1) =>
      (fix go ps := match ps with
                    | [] => Some []
                    | p :: ps' => match slots_of p, go ps' with Some a, Some b => Some (a ++ b) | _, _ => None end
                    end) ps
  | PChoice ps 1 (Some 1) =>
      match choice_names true ps with Some (ns, true) => Some [mkSlot ns false false] | _ => None end
  | PChoice ps 0 None =>
      match choice_names true ps with Some (ns, _) => Some [mkSlot ns false true] | _ => None end
  | _ => None
  end.

Section Slots.
  Variable uris : list (string * string).
  Notation tag := (clark uris).

  Definition slot_ok (s : slot) (ts : list ustr) : Prop :=
    Forall (fun t => exists n, In n (s_names s) /\ t = tag n) ts /\
    (s_req s = true -> ts <> []) /\ (s_many s = false -> length ts <= 1).

  Definition slotted (sl : list slot) (ts : list ustr) : Prop :=
    exists l, ts = concat l /\ Forall2 slot_ok sl l.

  Lemma slotted_app a b ts : slotted (a ++ b) ts -> exists x y, ts = x ++ y /\ slotted a x /\ slotted b y.
  Proof.
    intros [l [-> H]]. apply Forall2_app_inv_l in H as (l1 & l2 & H1 & H2 & ->). exists (concat l1), (concat l2).
    rewrite concat_app. split; [reflexivity|]. split; eexists; (split; [reflexivity|assumption]).
  Qed.
  Lemma slotted_one s ts : slotted [s] ts -> slot_ok s ts.
  Proof. intros [l [-> H]]. inversion H as [|? x ? ? Hx H']; subst. inversion H'; subst. cbn. now rewrite app_nil_r. Qed.

  Lemma once (P : list ustr -> Prop) ts : P ts -> repeated P 1 (Some 1) ts.
  Proof. intro H. exists [ts]. cbn. rewrite app_nil_r. repeat split; auto. Qed.

  Lemma singles (P : ustr -> Prop) (Q : list ustr -> Prop) ts : (forall t, P t -> Q [t]) -> Forall P ts ->
    Forall Q (map (fun t => [t]) ts) /\ concat (map (fun t => [t]) ts) = ts.
  Proof. intros H F. split; [|now induction ts; [|cbn; f_equal; apply IHts; inversion F]]. induction F; constructor; auto. Qed.

  Lemma allows_el ns a b ts : Forall (fun t => exists n, In n ns /\ t = tag n) ts -> a <= length ts ->
    match b with Some m => length ts <= m | None => True end -> allows uris (PEl ns a b) ts.
  Proof.
    intros F A B. destruct (singles (fun t => exists n, In n ns /\ t = tag n) (fun r => exists n, In n ns /\ r = [tag n]) ts) as [F' E]; [intros t [n [I ->]]; eauto|exact F|].
    exists (map (fun t => [t]) ts). rewrite E, map_length. repeat split; auto.
  Qed.

  Lemma choice_none one ps l z : choice_names one ps = Some (l, z) -> z = true -> 
    (fix some ps := match ps with [] => False | p :: ps' => allows uris p [] \/ some ps' end) ps.
  Proof.
    revert l z; induction ps as [|p ps IH]; intros l z H Z; cbn in H; [injection H as <- <-; discriminate|].
    destruct p as [ns a b| | |]; try discriminate H. assert (H' : (if Nat.leb a 1 then match choice_names one ps with Some (l, z) => Some (ns ++ l, z || Nat.eqb a 0) | None => None end else None) = Some (l, z)) by (destruct b as [[|]|]; [discriminate H|exact H|exact H]). clear H.
    destruct (Nat.leb a 1) eqn:A; [|discriminate]. destruct (choice_names one ps) as [[l' z']|] eqn:E; [|discriminate]. injection H' as <- <-.
    destruct (Nat.eqb a 0) eqn:A0.
    - left. apply Nat.eqb_eq in A0. subst a. apply allows_el; [constructor|cbn; lia|]. destruct b; cbn; lia.
    - right. rewrite orb_false_r in Z. eapply IH; eauto.
  Qed.
  Lemma choice_some one ps l z t n : choice_names one ps = Some (l, z) -> In n l -> t = tag n ->
    (fix some ps := match ps with [] => False | p :: ps' => allows uris p [t] \/ some ps' end) ps.
  Proof.
    revert l z; induction ps as [|p ps IH]; intros l z H I T; cbn in H; [injection H as <- <-; contradiction|].
    destruct p as [ns a b| | |]; try discriminate H.
    destruct b as [[|m]|]; [discriminate H| |];
      (destruct (Nat.leb a 1) eqn:A; [|discriminate]; apply Nat.leb_le in A; destruct (choice_names one ps) as [[l' z']|] eqn:E; [|discriminate]; injection H as <- <-;
       apply in_app_or in I as [I|I]; [left; apply allows_el; [constructor; [eauto|constructor]|cbn; lia|cbn; lia || exact Logic.I]|right; eapply IH; eauto]).
  Qed.

  Lemma slots_sound p : forall sl ts, slots_of p = Some sl -> slotted sl ts -> allows uris p ts.
  Proof.
    revert p. fix IH 1. intros p sl ts H S. destruct p as [ns a b|o a b|ps a b|ps a b].
    - cbn [slots_of] in H. assert (K : exists m : bool, b = (if m then None else Some 1) /\ (if Nat.leb a 1 then Some [mkSlot ns (Nat.eqb a 1) m] else None) = Some sl).
      { destruct b as [[|[|]]|]; try discriminate H; [now exists false|now exists true]. }
      destruct K as [m [-> K]]. destruct (Nat.leb a 1) eqn:A; [|discriminate]. injection K as <-. apply slotted_one in S as [F [R M]]. cbn [s_names s_req s_many] in *.
      apply allows_el; [exact F| |destruct m; [exact I|now apply M]]. destruct a as [|[|a]]; [lia| |discriminate A].
      cbn in R. destruct ts; [now destruct R|cbn; lia].
    - cbn in H. destruct a; [|destruct b as [[|]|]; discriminate]. assert (E : sl = []) by (destruct b as [[|]|]; now injection H as <-). subst sl. destruct S as [l [-> S]]. inversion S; subst. exists []. cbn. repeat split; auto. destruct b; [lia|exact I].
    - cbn [slots_of] in H. destruct a as [|[|a]]; try discriminate H. destruct b as [[|[|b]]|]; try discriminate H. cbn [allows]. apply once. revert sl ts H S.
      induction ps as [|p ps IHps]; intros sl ts H S.
      + injection H as <-. destruct S as [l [-> S]]. inversion S; subst. reflexivity.
      + destruct (slots_of p) as [x|] eqn:E1; [|discriminate]. match type of H with match ?g with _ => _ end = _ => destruct g as [y|] eqn:E2; [|discriminate] end.
        injection H as <-. apply slotted_app in S as (t1 & t2 & -> & S1 & S2). exists t1, t2. split; [reflexivity|]. split; [exact (IH p x t1 E1 S1)|exact (IHps y t2 eq_refl S2)].
    - cbn [slots_of] in H. destruct a as [|[|a]]; destruct b as [[|[|b]]|]; try discriminate H.
      + destruct (choice_names true ps) as [[l z]|] eqn:E; [|discriminate]. injection H as <-. apply slotted_one in S as [F _]. cbn [s_names] in F. cbn [allows].
        exists (map (fun t => [t]) ts). rewrite map_length. destruct (singles (fun t => exists n, In n l /\ t = tag n) (fun r => (fix some ps := match ps with [] => False | p :: ps' => allows uris p r \/ some ps' end) ps) ts) as [F' E']; [intros t [n [I T]]; exact (choice_some _ _ _ _ _ _ E I T)|exact F|].
        rewrite E'. repeat split; auto. lia.
      + destruct (choice_names true ps) as [[l [|]]|] eqn:E; try discriminate. injection H as <-. apply slotted_one in S as [F [_ M]]. cbn [s_names s_many] in F, M. cbn [allows]. apply once.
        destruct ts as [|t [|]]; [exact (choice_none _ _ _ _ E eq_refl)| |specialize (M eq_refl); cbn in M; lia].
        inversion F as [|? ? [n [I T]] _]; subst. exact (choice_some _ _ _ _ _ _ E I eq_refl).
  Qed.

  (** ** Putting things into slots, from left to right *)
  Definition sub (a b : list sname) : bool := forallb (fun n => existsb (sname_eqb n) b) a.
  Definition relax (s : slot) (r : bool) : slot := mkSlot (s_names s) (s_req s && negb r) (s_many s).

  Fixpoint align (vs : list slot) : list slot -> bool :=
    fix skip (sl : list slot) : bool :=
    match vs, sl with
    | [], _ => forallb (fun s => negb (s_req s)) sl
    | v :: vs', s :: sl' =>
        if sub (s_names v) (s_names s)
        then if s_many s then align vs' (relax s (s_req v) :: sl')
             else negb (s_many v) && (negb (s_req s) || s_req v) && align vs' sl'
        else negb (s_req s) && skip sl'
    | _ :: _, [] => false
    end.

  Lemma sub_In a b n : sub a b = true -> In n a -> In n b.
  Proof. intros H I. unfold sub in H. rewrite forallb_forall in H. specialize (H _ I). apply existsb_exists in H as [m [Im E]]. apply sname_eqb_eq in E. now subst. Qed.

  Lemma empty_ok s : s_req s = false -> slot_ok s [].
  Proof. intro R. split; [constructor|]. split; [now rewrite R|intros _; cbn; lia]. Qed.

  Lemma align_sound vs : forall sl ls, align vs sl = true -> Forall2 slot_ok vs ls -> slotted sl (concat ls).
  Proof.
    induction vs as [|v vs IH]; intros sl ls H F.
    - inversion F; subst. exists (map (fun _ => []) sl). assert (H' : forallb (fun s => negb (s_req s)) sl = true) by (destruct sl; exact H). clear H F. split; [induction sl; cbn; [reflexivity|]|]; cbn.
      + cbn in H'. apply andb_prop in H' as [_ H']. apply IHsl, H'.
      + induction sl as [|s sl IHs]; cbn; constructor; cbn in H'; apply andb_prop in H' as [R H']; [apply empty_ok; now apply negb_true_iff in R|now apply IHs].
    - inversion F as [|? x ? ls' Hv F']; subst. clear F. revert H. induction sl as [|s sl IHs]; intro H; [discriminate|]. cbn [align] in H.
      destruct (sub (s_names v) (s_names s)) eqn:E.
      + destruct Hv as [Fx [Rx Mx]]. destruct (s_many s) eqn:M.
        * specialize (IH _ _ H F'). destruct IH as [l [El Fl]]. inversion Fl as [|? y ? l' [Fy [Ry _]] Fl']; subst. exists ((x ++ y) :: l'). cbn [concat]. cbn [concat] in El. split; [now rewrite El, app_assoc|].
          constructor; [|exact Fl']. cbn in Fy, Ry. split; [apply Forall_app; split; [|exact Fy]; eapply Forall_impl; [|exact Fx]; cbn; intros t [n [I ->]]; exists n; split; [exact (sub_In _ _ _ E I)|reflexivity]|]. split; [|now rewrite M].
          intros R Q. apply app_eq_nil in Q as [-> ->]. destruct (s_req v); [now apply Rx|]. rewrite R in Ry. now apply Ry.
        * apply andb_prop in H as [H H3]. apply andb_prop in H as [H1 H2]. specialize (IH _ _ H3 F') as [l [El Fl]]. exists (x :: l). cbn [concat]. split; [now rewrite El|]. constructor; [|exact Fl].
          split; [eapply Forall_impl; [|exact Fx]; cbn; intros t [n [I ->]]; exists n; split; [exact (sub_In _ _ _ E I)|reflexivity]|]. split; [intro R; rewrite R in H2; cbn in H2; auto|]. intros _. apply Mx. now apply negb_true_iff.
      + apply andb_prop in H as [R H]. apply negb_true_iff in R. destruct (IHs H) as [l [El Fl]]. exists ([] :: l). cbn [concat app]. split; [exact El|]. constructor; [now apply empty_ok|exact Fl].
  Qed.
End Slots.
