(** * Validity can be computed, for examples and refutations: [valid] is
    equivalent to [check]. *)
From Coq Require Import String List NArith Bool Arith Lia.
From Verif Require Import Ustr UstrProofs Elem Schema.
Import ListNotations.

Section Check.
  Variable uris : list (string * string).

  (** What may remain of the members of [L] after at most [n] runs. *)
  Fixpoint runs_rest (f : list ustr -> list (list ustr)) (n : nat) (L : list (list ustr)) : list (list ustr) :=
    match n with O => L | S n' => L ++ runs_rest f n' (flat_map f L) end.
  (** After exactly [a] runs. *)
  Fixpoint iter_rest (f : list ustr -> list (list ustr)) (a : nat) (L : list (list ustr)) : list (list ustr) :=
    match a with O => L | S a' => iter_rest f a' (flat_map f L) end.
  Definition rep_rest (f : list ustr -> list (list ustr)) (a : nat) (b : option nat) (ts : list ustr) : list (list ustr) :=
    match b with
    | Some m => if Nat.leb a m then runs_rest f (m - a) (iter_rest f a [ts]) else []
    | None => runs_rest f (length ts) (iter_rest f a [ts])
    end.

  Definition el_rest (names : list sname) (ts : list ustr) : list (list ustr) :=
    match ts with [] => [] | t :: r => if existsb (fun n => ueqb t (clark uris n)) names then [r] else [] end.

  Fixpoint rest (p : particle) (ts : list ustr) : list (list ustr) :=
    match p with
    | PEl names a b => rep_rest (el_rest names) a b ts
    | PAny o a b => rep_rest (fun ts => match ts with [] => [] | t :: r => if foreign uris o t then [r] else [] end) a b ts
    | PSeq ps a b => rep_rest (fun ts => (fix each ps L := match ps with [] => L | p :: ps' => each ps' (flat_map (rest p) L) end) ps [ts]) a b ts
    | PChoice ps a b => rep_rest (fun ts => (fix some ps := match ps with [] => [] | p :: ps' => rest p ts ++ some ps' end) ps) a b ts
    end.

  Definition sound (P : list ustr -> Prop) (f : list ustr -> list (list ustr)) : Prop :=
    forall x y, P x -> In y (f (x ++ y)).

  Lemma runs_in (P : list ustr -> Prop) f : sound P f -> forall runs n L y, Forall P runs -> length runs <= n -> In (concat runs ++ y) L -> In y (runs_rest f n L).
  Proof.
    intro S. induction runs as [|r runs IH]; intros n L y F Hn H.
    - destruct n; [exact H|]. cbn [runs_rest]. apply in_or_app. now left.
    - inversion F; subst. destruct n; [cbn in Hn; lia|]. cbn [runs_rest]. apply in_or_app. right. apply IH; [assumption|cbn in Hn; lia|]. apply in_flat_map. exists (concat (r :: runs) ++ y). split; [exact H|].
      cbn [concat]. rewrite <- app_assoc. now apply S.
  Qed.
  Lemma iter_in (P : list ustr -> Prop) f : sound P f -> forall runs L y, Forall P runs -> In (concat runs ++ y) L -> In y (iter_rest f (length runs) L).
  Proof.
    intro S. induction runs as [|r runs IH]; intros L y F H; [exact H|]. inversion F; subst. cbn [length iter_rest]. apply IH; [assumption|]. apply in_flat_map. exists (concat (r :: runs) ++ y). split; [exact H|].
    cbn [concat]. rewrite <- app_assoc. now apply S.
  Qed.

  Lemma split_at {A} n (l : list A) : n <= length l -> exists x y, l = x ++ y /\ length x = n.
  Proof. intro H. exists (firstn n l), (skipn n l). split; [now rewrite firstn_skipn|apply firstn_length_le, H]. Qed.

  Lemma nonempty (P : list ustr -> Prop) runs : Forall P runs -> exists rs, concat rs = concat runs /\ Forall P rs /\ length rs <= length (concat runs).
  Proof.
    induction 1 as [|r runs H _ [rs [E [F L]]]]; [exists []; repeat split; auto|]. destruct r as [|t r]; [exists rs; auto|]. exists ((t :: r) :: rs). cbn [concat]. rewrite E, app_length. repeat split; [now constructor|]. cbn [length]. lia.
  Qed.

  Lemma rep_sound P f a b : sound P f -> sound (repeated P a b) (rep_rest f a b).
  Proof.
    intros S x y [runs [-> [F [Ha Hb]]]]. unfold rep_rest. destruct b as [m|].
    - destruct (Nat.leb_spec a m) as [_|L]; [|lia]. destruct (split_at a runs Ha) as [r1 [r2 [-> L1]]]. apply Forall_app in F as [F1 F2]. rewrite app_length in Hb. rewrite concat_app.
      apply (runs_in P f S r2); [exact F2|lia|]. rewrite <- L1. apply (iter_in P f S r1); [exact F1|]. left. now rewrite app_assoc.
    - destruct (split_at a runs Ha) as [r1 [r2 [-> L1]]]. apply Forall_app in F as [F1 F2]. rewrite concat_app. destruct (nonempty P r2 F2) as [rs [E [F' L]]]. rewrite <- E in *.
      apply (runs_in P f S rs); [exact F'|rewrite !app_length; lia|]. rewrite <- L1. apply (iter_in P f S r1); [exact F1|]. left. now rewrite app_assoc.
  Qed.

  Lemma el_sound names : sound (fun r => exists n, In n names /\ r = [clark uris n]) (el_rest names).
  Proof.
    intros x y [n [I ->]]. cbn. replace (existsb _ names) with true; [now left|]. symmetry. apply existsb_exists. exists n. split; [exact I|apply ueqb_refl].
  Qed.

  Lemma rest_sound : forall p, sound (allows uris p) (rest p).
  Proof.
    fix IH 1. intros [names a b|o a b|ps a b|ps a b].
    - cbn [allows rest]. apply rep_sound, el_sound.
    - cbn [allows rest]. apply rep_sound. intros x y [t [Ht ->]]. cbn. rewrite Ht. now left.
    - cbn [allows rest]. apply rep_sound. intros x y H. assert (G : forall ps L x y, (fix each ps r := match ps with [] => r = [] | p :: ps' => exists x y, r = x ++ y /\ allows uris p x /\ each ps' y end) ps x -> In (x ++ y) L ->
        In y ((fix each ps L := match ps with [] => L | p :: ps' => each ps' (flat_map (rest p) L) end) ps L)).
      { clear - IH. induction ps as [|p ps IHps]; intros L x y H I; [now subst|]. destruct H as [x1 [x2 [-> [H1 H2]]]]. refine (IHps _ x2 y H2 _). apply in_flat_map. exists ((x1 ++ x2) ++ y). split; [exact I|]. rewrite <- app_assoc. exact (IH p x1 _ H1). }
      exact (G ps [x ++ y] x y H (or_introl eq_refl)).
    - cbn [allows rest]. apply rep_sound. intros x y H. induction ps as [|p ps IHps]; [contradiction|]. apply in_or_app. destruct H as [H|H]; [left; exact (IH p x y H)|right; exact (IHps H)].
  Qed.

  (** Nothing else remains. *)
  Definition exact (P : list ustr -> Prop) (f : list ustr -> list (list ustr)) : Prop :=
    forall ts y, In y (f ts) -> exists x, ts = x ++ y /\ P x.

  Lemma runs_out P f : exact P f -> forall n L y, In y (runs_rest f n L) -> exists ts runs, In ts L /\ ts = concat runs ++ y /\ Forall P runs /\ length runs <= n.
  Proof.
    intro X. induction n as [|n IH]; intros L y H; [exists y, []; repeat split; auto|]. cbn [runs_rest] in H. apply in_app_or in H as [H|H]; [exists y, []; repeat split; auto; apply Nat.le_0_l|].
    apply IH in H as [ts [runs [H [-> [F Hn]]]]]. apply in_flat_map in H as [t0 [H0 H]]. apply X in H as [x [-> Px]]. exists (x ++ concat runs ++ y), (x :: runs). repeat split; [exact H0|cbn [concat]; now rewrite app_assoc|now constructor|cbn [length]; lia].
  Qed.
  Lemma iter_out P f : exact P f -> forall a L y, In y (iter_rest f a L) -> exists ts runs, In ts L /\ ts = concat runs ++ y /\ Forall P runs /\ length runs = a.
  Proof.
    intro X. induction a as [|a IH]; intros L y H; [exists y, []; repeat split; auto|]. cbn [iter_rest] in H.
    apply IH in H as [ts [runs [H [-> [F Hn]]]]]. apply in_flat_map in H as [t0 [H0 H]]. apply X in H as [x [-> Px]]. exists (x ++ concat runs ++ y), (x :: runs). repeat split; [exact H0|cbn [concat]; now rewrite app_assoc|now constructor|cbn [length]; lia].
  Qed.
  Lemma rep_exact P f a b : exact P f -> exact (repeated P a b) (rep_rest f a b).
  Proof.
    intros X ts y H. unfold rep_rest in H.
    assert (G : exists n, In y (runs_rest f n (iter_rest f a [ts])) /\ match b with Some m => a + n <= m | None => True end).
    { destruct b as [m|]; [|now exists (length ts)]. destruct (Nat.leb_spec a m); [|contradiction]. exists (m - a). split; [exact H|lia]. }
    destruct G as [n [G Hb]]. apply (runs_out P f X) in G as [t1 [r2 [G [-> [F2 L2]]]]]. apply (iter_out P f X) in G as [t0 [r1 [[<-|[]] [-> [F1 L1]]]]].
    exists (concat r1 ++ concat r2). split; [now rewrite app_assoc|]. exists (r1 ++ r2). rewrite concat_app, app_length. repeat split; [now apply Forall_app|lia|destruct b; [lia|exact I]].
  Qed.

  Lemma rest_exact : forall p, exact (allows uris p) (rest p).
  Proof.
    fix IH 1. intros [names a b|o a b|ps a b|ps a b].
    - cbn [allows rest]. apply rep_exact. intros [|t ts] y H; [contradiction|]. cbn [el_rest] in H. destruct (existsb _ names) eqn:E; [|contradiction]. destruct H as [<-|[]]. apply existsb_exists in E as [n [Hn E]]. apply ueqb_eq in E. subst t. exists [clark uris n]. eauto.
    - cbn [allows rest]. apply rep_exact. intros [|t ts] y H; [contradiction|]. destruct (foreign uris o t) eqn:E; [|contradiction]. destruct H as [<-|[]]. exists [t]. eauto.
    - cbn [allows rest]. apply rep_exact. intros ts y H.
      assert (G : forall ps L y, In y ((fix each ps L := match ps with [] => L | p :: ps' => each ps' (flat_map (rest p) L) end) ps L) ->
        exists ts x, In ts L /\ ts = x ++ y /\ (fix each ps r := match ps with [] => r = [] | p :: ps' => exists x y, r = x ++ y /\ allows uris p x /\ each ps' y end) ps x).
      { clear - IH. induction ps as [|p ps IHps]; intros L y H; [now exists y, []|]. apply IHps in H as [ts [x [H [-> Hx]]]]. apply in_flat_map in H as [t0 [H0 H]]. apply (IH p) in H as [x0 [-> P0]]. exists (x0 ++ x ++ y), (x0 ++ x). split; [exact H0|]. split; [now rewrite app_assoc|]. eauto. }
      apply G in H as [ts' [x [[<-|[]] [-> Hx]]]]. eauto.
    - cbn [allows rest]. apply rep_exact. intros ts y H. induction ps as [|p ps IHps]; [contradiction|]. apply in_app_or in H as [H|H].
      + apply (IH p) in H as [x [E Hx]]. exists x. split; [exact E|now left].
      + destruct (IHps H) as [x [E Hx]]. exists x. split; [exact E|now right].
  Qed.

  Definition fits_model (p : particle) (ts : list ustr) : bool := existsb (fun r => match r with [] => true | _ => false end) (rest p ts).
  Lemma fits_model_iff p ts : fits_model p ts = true <-> allows uris p ts.
  Proof.
    split; intro H.
    - apply existsb_exists in H as [[|t r] [H E]]; [|discriminate]. apply rest_exact in H as [x [-> H]]. now rewrite app_nil_r.
    - apply existsb_exists. exists []. split; [|reflexivity]. rewrite <- (app_nil_r ts). exact (rest_sound p ts [] H).
  Qed.

  Variable types : list (string * decl).
  Variable elements : list (sname * string).

  Fixpoint check (ty : string) (e : elem) : bool :=
    match e with
    | Elem t a x ks =>
        match find (fun p => String.eqb (fst p) ty) types with
        | None => false
        | Some (_, d) =>
            fits_model (d_content d) (map e_tag ks) &&
            forallb (fun k => existsb (fun r => ueqb (fst k) (u (fst (fst r)))) (d_attrs d)) a &&
            forallb (fun r => negb (snd (fst r)) || existsb (fun k => ueqb (fst k) (u (fst (fst r)))) a) (d_attrs d) &&
            match d_text d, x with None, Some _ => false | _, _ => true end &&
            forallb (fun k => match kid_type uris elements d (e_tag k) with Some ty' => check ty' k | None => false end) ks
        end
    end.

  Lemma check_iff : forall e ty, check ty e = true <-> valid uris types elements ty e.
  Proof.
    fix IH 1. intros [t a x ks] ty. cbn [valid check]. destruct (find _ types) as [[? d]|]; [|split; [discriminate|contradiction]]. rewrite !andb_true_iff, fits_model_iff. unfold attrs_valid.
    assert (A1 : forallb (fun k => existsb (fun r => ueqb (fst k) (u (fst (fst r)))) (d_attrs d)) a = true <-> forall k, In k (map fst a) -> exists r, In r (d_attrs d) /\ k = u (fst (fst r))).
    { rewrite forallb_forall. split; intro H.
      - intros k Hk. apply in_map_iff in Hk as [kv [<- Hk]]. specialize (H _ Hk). apply existsb_exists in H as [r [Hr E]]. apply ueqb_eq in E. eauto.
      - intros kv Hk. destruct (H _ (in_map fst _ _ Hk)) as [r [Hr E]]. apply existsb_exists. exists r. split; [exact Hr|]. rewrite E. apply ueqb_refl. }
    assert (A2 : forallb (fun r => negb (snd (fst r)) || existsb (fun k => ueqb (fst k) (u (fst (fst r)))) a) (d_attrs d) = true <-> forall r, In r (d_attrs d) -> snd (fst r) = true -> In (u (fst (fst r))) (map fst a)).
    { rewrite forallb_forall. split; intros H r Hr.
      - intro E. specialize (H r Hr). rewrite E in H. cbn [negb orb] in H. apply existsb_exists in H as [k [Hk E']]. apply ueqb_eq in E'. rewrite <- E'. now apply in_map.
      - destruct (snd (fst r)) eqn:E; [|reflexivity]. cbn [negb orb]. specialize (H r Hr E). apply in_map_iff in H as [k [E' Hk]]. apply existsb_exists. exists k. split; [exact Hk|]. rewrite E'. apply ueqb_refl. }
    assert (A3 : match d_text d, x with None, Some _ => false | _, _ => true end = true <-> (d_text d = None -> x = None)).
    { destruct (d_text d), x; split; intro H; try reflexivity; try discriminate; auto. discriminate (H eq_refl). }
    assert (A4 : forallb (fun k => match kid_type uris elements d (e_tag k) with Some ty' => check ty' k | None => false end) ks = true <->
      (fix every ks := match ks with [] => True | k :: ks' => match kid_type uris elements d (e_tag k) with Some ty' => valid uris types elements ty' k | None => False end /\ every ks' end) ks).
    { clear A1 A2 A3. induction ks as [|k ks IHks]; [split; auto|]. cbn [forallb]. rewrite andb_true_iff, IHks. destruct (kid_type uris elements d (e_tag k)) as [ty'|]; [now rewrite (IH k ty')|]. split; intros [H _]; [discriminate|contradiction]. }
    rewrite A1, A2, A3, A4. tauto.
  Qed.

  Definition check_document (e : elem) : bool := match lookup uris (e_tag e) elements with Some ty => check ty e | None => false end.
  Lemma check_document_iff e : check_document e = true <-> valid_document uris types elements e.
  Proof.
    unfold check_document, valid_document. split.
    - destruct (lookup _ _ _) as [ty|]; [|discriminate]. intro H. exists ty. split; [reflexivity|now apply check_iff].
    - intros [ty [-> V]]. now apply check_iff.
  Qed.
  Lemma check_document_sound e : valid_document uris types elements e -> check_document e = true.
  Proof. apply check_document_iff. Qed.
End Check.
