(** * Proofs about searching. *)
From Coq Require Import String List NArith ZArith Bool Sorting.Sorted Lia.
From Verif Require Import Ustr UstrProofs Res PyInt PyFloat PyDate Value Geom Spec EmitProofs RoundTrip Find FindSpec.
Import ListNotations.

Lemma in_concat_map {A B} (f : A -> list B) l y : In y (concat (map f l)) <-> exists x, In x l /\ In y (f x).
Proof.
  rewrite in_concat. split.
  - intros [z [Hz Hy]]. apply in_map_iff in Hz as [x [<- Hx]]. eauto.
  - intros [x [Hx Hy]]. exists (f x). split; [now apply in_map|exact Hy].
Qed.

Lemma dict_In W c ns nss attrs y : In y (get_all_attrs W (OVal (VObj c ns nss attrs))) <->
  (exists av, In av attrs /\ In y (expand_attr av)) \/ (exists k n, In (k, n) nss /\ y = OKey k).
Proof.
  cbn [get_all_attrs]. set (n := match class_of W c with Some ci => _ | None => _ end).
  rewrite !in_app_iff, !in_concat_map. split.
  - intros [[av [H1 H2]]|[H|[av [H1 H2]]]].
    + left. exists av. split; [|exact H2]. rewrite <- (firstn_skipn n attrs). apply in_or_app. now left.
    + right. apply in_map_iff in H as [[k m] [<- H]]. eauto.
    + left. exists av. split; [|exact H2]. rewrite <- (firstn_skipn n attrs). apply in_or_app. now right.
  - intros [[av [H1 H2]]|[k [m [H1 ->]]]].
    + rewrite <- (firstn_skipn n attrs) in H1. apply in_app_or in H1 as [H1|H1]; eauto.
    + right. left. apply in_map_iff. exists (k, m). auto.
Qed.

Theorem attrs_step W o y : In y (get_all_attrs W o) <-> step o y.
Proof.
  split.
  - destruct o as [v| | | | |i| |a]; try solve [intros []].
    + destruct v as [ | | | | |k| | | | | |c ns nss attrs]; try solve [intros []].
      * intro H. apply in_inv in H as [<-|H]; [constructor|]. apply in_inv in H as [<-|[]]. constructor.
      * intro H. apply dict_In in H as [[[a v] [Hav Hy]]|[k [n [H ->]]]]; [|econstructor; eauto].
        unfold expand_attr in Hy. cbn [fst snd] in Hy. destruct (underscore a) eqn:U; [destruct Hy|].
        destruct v as [ | | | | | | |b l|l|l|l| ]; cbn [expand] in Hy; try (destruct Hy as [<-|[]]; eapply step_attr; eauto; exact I).
        -- destruct Hy.
        -- apply in_map_iff in Hy as [n [<- Hn]]. eapply step_number; eauto.
        -- apply in_map_iff in Hy as [t [<- Ht]]. eapply step_tuple; eauto.
        -- apply in_map_iff in Hy as [[k|] [<- Hk]]; [eapply step_date|eapply step_no_date]; eauto.
        -- apply in_map_iff in Hy as [i [<- Hi]]. eapply step_item; eauto.
        -- apply in_map_iff in Hy as [x [<- Hx]]. eapply step_member; eauto.
    + cbn [get_all_attrs]. rewrite !in_app_iff. cbn [In]. intros [H|[[<-|[]]|[<-|[]]]].
      * destruct (ti_when i) eqn:E; [|destruct H]. destruct H as [<-|[]]. now constructor.
      * constructor.
      * destruct (ti_angle i) eqn:E; now constructor.
    + cbn [get_all_attrs]. intro H. apply in_map_iff in H as [n [<- H]]. now constructor.
  - intro H. destruct H; try (apply dict_In).
    + left. exists (a, v). split; [assumption|]. unfold expand_attr. cbn [fst snd]. rewrite H0. destruct v; try destruct H1; now left.
    + left. exists (a, VList l). split; [assumption|]. unfold expand_attr. cbn [fst snd]. rewrite H0. now apply in_map.
    + left. exists (a, VCoords b l). split; [assumption|]. unfold expand_attr. cbn [fst snd]. rewrite H0. now apply in_map.
    + left. exists (a, VPoint t). split; [assumption|]. unfold expand_attr. cbn [fst snd]. rewrite H0. cbn [expand]. apply in_map_iff. eauto.
    + left. exists (a, VDates l). split; [assumption|]. unfold expand_attr. cbn [fst snd]. rewrite H0. cbn [expand]. apply in_map_iff. exists (Some k). auto.
    + left. exists (a, VDates l). split; [assumption|]. unfold expand_attr. cbn [fst snd]. rewrite H0. cbn [expand]. apply in_map_iff. exists None. auto.
    + left. exists (a, VItems l). split; [assumption|]. unfold expand_attr. cbn [fst snd]. rewrite H0. now apply in_map.
    + right. eauto.
    + now left.
    + right. now left.
    + cbn [get_all_attrs]. rewrite H. now left.
    + cbn [get_all_attrs]. rewrite !in_app_iff. right. left. now left.
    + cbn [get_all_attrs]. rewrite !in_app_iff, H. right. right. now left.
    + cbn [get_all_attrs]. rewrite !in_app_iff, H. right. right. now left.
    + cbn [get_all_attrs]. apply in_map_iff. eauto.
Qed.

(** ** Depth *)

Lemma max_le f (l : list (string * value)) av : In av l -> (f av <= fold_right Nat.max 0 (map f l))%nat.
Proof. induction l as [|x l IH]; [intros []|]. cbn [map fold_right]. intros [->|H]; [lia|]. specialize (IH H). lia. Qed.
Lemma max_le_v (l : list value) v : In v l -> (vdepth v <= fold_right Nat.max 0 (map vdepth l))%nat.
Proof. induction l as [|x l IH]; [intros []|]. cbn [map fold_right]. intros [->|H]; [lia|]. specialize (IH H). lia. Qed.

Lemma expand_depth v y : In y (expand v) -> (odepth y <= vdepth v)%nat.
Proof.
  destruct v; cbn [expand]; intro H; try (destruct H as [<-|[]]; cbn; lia).
  - destruct H.
  - apply in_map_iff in H as [n [<- _]]. cbn. lia.
  - apply in_map_iff in H as [n [<- _]]. cbn. lia.
  - apply in_map_iff in H as [[k|] [<- _]]; cbn; lia.
  - apply in_map_iff in H as [n [<- _]]. cbn. lia.
  - apply in_map_iff in H as [n [<- H]]. cbn [odepth vdepth]. apply max_le_v in H. lia.
Qed.

Lemma kids_depth W o y : In y (get_all_attrs W o) -> (odepth y < odepth o)%nat.
Proof.
  destruct o as [v| | | | |i| |a]; try solve [intros []].
  - destruct v as [ | | | | |k| | | | | |c ns nss attrs]; try solve [intros []].
    + intro H. apply in_inv in H as [<-|H]; [cbn; lia|]. apply in_inv in H as [<-|[]]. cbn; lia.
    + intro H. apply dict_In in H as [[[a v] [Hav Hy]]|[k [n [H ->]]]].
      * unfold expand_attr in Hy. cbn [fst snd] in Hy. destruct (underscore a); [destruct Hy|]. apply expand_depth in Hy.
        apply (max_le (fun av => match av with (_, x) => vdepth x end)) in Hav. cbn [odepth vdepth]. lia.
      * cbn. lia.
  - cbn [get_all_attrs]. rewrite !in_app_iff. cbn [In]. intros [H|[[<-|[]]|[<-|[]]]].
    + destruct (ti_when i); [|destruct H]. destruct H as [<-|[]]. cbn. lia.
    + cbn. lia.
    + destruct (ti_angle i); cbn; lia.
  - cbn [get_all_attrs]. intro H. apply in_map_iff in H as [n [<- _]]. cbn. lia.
Qed.

(** ** The search *)

Lemma Forall2_In_l {A B} (R : A -> B -> Prop) l l' : Forall2 R l l' -> forall a, In a l -> exists b, In b l' /\ R a b.
Proof.
  induction 1 as [|a b l l' H _ IH]; intros z; [intros []|]. intros [<-|Hz]; [exists b; split; [now left|exact H]|].
  destruct (IH z Hz) as [b' [Hb Hr]]. exists b'. split; [now right|exact Hr].
Qed.

Lemma seq_res_app {A} (l1 l2 : list (res A)) r : seq_res (l1 ++ l2) = Ok r -> exists r1 r2, seq_res l1 = Ok r1 /\ seq_res l2 = Ok r2 /\ r = r1 ++ r2.
Proof.
  revert r. induction l1 as [|x l1 IH]; cbn [app seq_res]; intros r H; [eauto|].
  apply bind_ok in H as [a [Ha H]]. apply bind_ok in H as [s [Hs H]]. injection H as <-. destruct (IH s Hs) as [r1 [r2 [H1 [H2 ->]]]].
  exists (a :: r1), r2. rewrite Ha, H1. auto.
Qed.

Lemma seq_res_app_ok {A} (l1 l2 : list (res A)) r1 r2 : seq_res l1 = Ok r1 -> seq_res l2 = Ok r2 -> seq_res (l1 ++ l2) = Ok (r1 ++ r2).
Proof.
  revert r1. induction l1 as [|x l1 IH]; cbn [app seq_res]; intros r1 H H2; [injection H as <-; exact H2|].
  apply bind_ok in H as [a [Ha H]]. apply bind_ok in H as [s [Hs H]]. injection H as <-. now rewrite Ha, (IH s Hs H2).
Qed.

Section Search.
  Variable W : world.
  Variable ga : pyobj -> string -> res pyobj.
  Variable q : query.

  Lemma values_true o args : has_attribute_values ga o args = Ok true <-> forall k eq, In (k, eq) args -> exists x, ga o k = Ok x /\ eq x = Ok true.
  Proof.
    induction args as [|[k eq] args IH]; cbn [has_attribute_values].
    - split; [intros _ k eq []|reflexivity].
    - split.
      + intros H k' eq' [[= <- <-]|Hin].
        * destruct (ga o k) as [x|[]]; cbn [bind] in H; try discriminate. exists x. split; [reflexivity|]. destruct (eq x) as [[]|[]]; congruence.
        * apply IH; [|exact Hin]. destruct (let! x := ga o k in eq x) as [[]|[]]; congruence.
      + intro H. destruct (H k eq (or_introl eq_refl)) as [x [-> Hx]]. cbn [bind]. rewrite Hx. apply IH. intros. apply H. now right.
  Qed.

  Lemma is_a_classes o t : is_a W o t <-> t = "object"%string \/ In t (classes_of W o).
  Proof.
    split.
    - intro H. destruct H; cbn [classes_of]; try (left; reflexivity); right; try (left; reflexivity); try assumption.
      + now rewrite H.
      + rewrite H. now left.
    - intros [-> |H]; [constructor|].
      destruct o as [[ | |[z|f]| | | | |[|]| | | |c ns nss attrs]| | |[d|d]| | | | ]; cbn [classes_of] in H;
        try (destruct H as [<-|[]]; constructor; fail); try (constructor; exact H).
      destruct (class_of W c) as [ci|] eqn:E; [now apply isa_library with ci|]. destruct H as [<-|[]]. now constructor.
  Qed.

  Lemma test_true o : test W ga q o = Ok true <-> matches W ga q o.
  Proof.
    unfold test, matches. destruct (q_type q) as [ts|].
    - unfold isinstance. destruct (existsb _ ts) eqn:E.
      + rewrite values_true. split; [|tauto]. intro H. split; [|exact H]. intros ts' [= <-]. apply existsb_exists in E as [t [Ht E]]. exists t. split; [exact Ht|].
        apply is_a_classes. apply orb_prop in E as [E|E]; [left; now apply String.eqb_eq|right; now apply mem_In].
      + split; [discriminate|]. intros [H _]. destruct (H ts eq_refl) as [t [Ht Hc]]. exfalso. rewrite <- not_true_iff_false in E. apply E. apply existsb_exists. exists t. split; [exact Ht|].
        apply orb_true_iff. apply is_a_classes in Hc. destruct Hc as [->|Hc]; [left; reflexivity|right; now apply mem_In].
    - rewrite values_true. split; [|tauto]. intro H. split; [discriminate|exact H].
  Qed.

  Lemma Forall2_length' {A B} (R : A -> B -> Prop) l l' : Forall2 R l l' -> length l = length l'.
  Proof. induction 1; cbn; congruence. Qed.

  Lemma sorted_app {A} (R : A -> A -> Prop) l1 l2 : StronglySorted R l1 -> StronglySorted R l2 -> (forall a b, In a l1 -> In b l2 -> R a b) -> StronglySorted R (l1 ++ l2).
  Proof.
    induction 1 as [|a l1 Hs IH Ha]; intros H2 H; [exact H2|]. cbn [app]. constructor.
    - apply IH; [exact H2|]. intros. apply H; [now right|assumption].
    - rewrite Forall_forall in *. intros b Hb. apply in_app_or in Hb as [Hb|Hb]; [auto|]. apply H; [now left|assumption].
  Qed.
  Lemma sorted_cons_map i l : StronglySorted before l -> StronglySorted before (map (cons i) l).
  Proof. induction 1 as [|a l Hs IH Ha]; cbn; constructor; [exact IH|]. apply Forall_map. revert Ha. apply Forall_impl. intros. now constructor. Qed.

  Definition good (o : pyobj) (ps : list (list nat)) (l : list pyobj) : Prop :=
    StronglySorted before ps /\ Forall2 (at_path W o) ps l /\ (forall p x, at_path W o p x -> (In p ps <-> test W ga q x = Ok true)).

  (** Children [ys], numbered from [n]. *)
  Definition good_kids (n : nat) (ys : list pyobj) (ps : list (list nat)) (l : list pyobj) : Prop :=
    StronglySorted before ps /\
    Forall2 (fun p x => exists i p' y, p = (n + i)%nat :: p' /\ nth_error ys i = Some y /\ at_path W y p' x) ps l /\
    (forall i p y x, nth_error ys i = Some y -> at_path W y p x -> (In ((n + i)%nat :: p) ps <-> test W ga q x = Ok true)).

  Lemma good_cons n y ys ps l ps' l' : good y ps l -> good_kids (S n) ys ps' l' -> good_kids n (y :: ys) (map (cons n) ps ++ ps') (l ++ l').
  Proof.
    intros [S1 [F1 C1]] [S2 [F2 C2]]. split; [|split].
    - apply sorted_app; [now apply sorted_cons_map|exact S2|]. intros a b Ha Hb. apply in_map_iff in Ha as [p [<- _]].
      apply (Forall2_In_l _ _ _ F2) in Hb as [x [_ [i [p' [z [-> _]]]]]]. apply before_lt. lia.
    - apply Forall2_app.
      + clear -F1. induction F1 as [|p x ps l H _ IH]; cbn; constructor; [|exact IH]. exists 0%nat, p, y. rewrite Nat.add_0_r. auto.
      + revert F2. apply Forall2_weaken. intros p x [i [p' [z [-> [Hn Ha]]]]]. exists (S i), p', z. split; [f_equal; lia|auto].
    - intros i p z x Hn Ha. rewrite in_app_iff. destruct i as [|i].
      + cbn in Hn. injection Hn as <-. rewrite Nat.add_0_r, <- (C1 p x Ha). split; [|intro H; left; now apply in_map].
        intros [H|H]; [apply in_map_iff in H as [p' [[= ->] H]]; exact H|].
        apply (Forall2_In_l _ _ _ F2) in H as [x' [_ [i [p' [z [[= E] _]]]]]]. lia.
      + cbn in Hn. specialize (C2 i p z x Hn Ha). replace (n + S i)%nat with (S n + i)%nat by lia. rewrite <- C2. split; [|auto]. intros [H|H]; [|exact H].
        apply in_map_iff in H as [p' [[= E] _]]. lia.
  Qed.

  Theorem walk_good : forall fuel o l, (odepth o < fuel)%nat -> seq_res (walk W ga fuel q o) = Ok l -> exists ps, good o ps l.
  Proof.
    induction fuel as [|fuel IH]; intros o l Hd H; [lia|]. cbn [walk] in H. apply seq_res_app in H as [l1 [l2 [H1 [H2 ->]]]].
    assert (K : forall ys n l, (forall y, In y ys -> (odepth y < fuel)%nat) -> seq_res (concat (map (walk W ga fuel q) ys)) = Ok l -> exists ps, good_kids n ys ps l).
    { clear -IH. induction ys as [|y ys IHy]; intros n l Hd H; cbn [map concat] in H.
      - injection H as <-. exists []. split; [constructor|]. split; [constructor|]. intros [|i]; discriminate.
      - apply seq_res_app in H as [r1 [r2 [H1 [H2 ->]]]]. destruct (IH y r1) as [ps1 G1]; [apply Hd; now left|exact H1|].
        destruct (IHy (S n) r2) as [ps2 G2]; [intros; apply Hd; now right|exact H2|]. eexists. eapply good_cons; eauto. }
    destruct (K (get_all_attrs W o) 0%nat l2) as [ps [S2 [F2 C2]]]; [intros y Hy; apply kids_depth in Hy; lia|exact H2|].
    destruct (test W ga q o) as [b|e] eqn:T; [|discriminate].
    assert (F2' : Forall2 (at_path W o) ps l2).
    { revert F2. apply Forall2_weaken. intros p x [i [p' [y [-> [Hn Ha]]]]]. cbn. econstructor; eauto. }
    destruct b.
    - injection H1 as <-. exists ([] :: ps). split; [|split].
      + constructor; [exact S2|]. rewrite Forall_forall. intros p Hp. apply (Forall2_In_l _ _ _ F2) in Hp as [x [_ [i [p' [y [-> _]]]]]]. constructor.
      + cbn [app]. constructor; [constructor|exact F2'].
      + intros p x Ha. inversion Ha as [|o' i p' y x' Hn Ha']; subst.
        * split; [intros _; exact T|intros _; now left].
        * rewrite <- (C2 i p' y x Hn Ha'). cbn [Nat.add In]. split; [intros [E|E]; [discriminate|exact E]|auto].
    - injection H1 as <-. exists ps. split; [exact S2|]. split; [exact F2'|].
      intros p x Ha. inversion Ha as [|o' i p' y x' Hn Ha']; subst.
      + rewrite T. split; [|discriminate]. intro H. apply (Forall2_In_l _ _ _ F2) in H as [z [_ [i [p' [y [E _]]]]]]. discriminate.
      + exact (C2 i p' y x Hn Ha').
  Qed.

  (** When no comparison raises, the search does not either. *)
  Theorem walk_ok : forall fuel o, (odepth o < fuel)%nat -> (forall x, reach o x -> exists b, test W ga q x = Ok b) -> exists l, seq_res (walk W ga fuel q o) = Ok l.
  Proof.
    induction fuel as [|fuel IH]; intros o Hd H; [lia|]. cbn [walk].
    assert (K : forall ys, (forall y, In y ys -> (odepth y < fuel)%nat) -> (forall y x, In y ys -> reach y x -> exists b, test W ga q x = Ok b) -> exists l, seq_res (concat (map (walk W ga fuel q) ys)) = Ok l).
    { clear -IH. induction ys as [|y ys IHy]; intros Hd H; cbn [map concat]; [now exists []|].
      destruct (IH y) as [l1 E1]; [apply Hd; now left|intros; eapply H; eauto; now left|]. destruct IHy as [l2 E2]; [intros; apply Hd; now right|intros; eapply H; eauto; now right|].
      eexists. eapply seq_res_app_ok; eauto. }
    destruct (K (get_all_attrs W o)) as [l E]; [intros y Hy; apply kids_depth in Hy; lia|intros y x Hy Hx; apply H; apply attrs_step in Hy; econstructor; eauto|].
    destruct (H o (reach_self o)) as [[] ->].
    - exists (o :: l). exact (seq_res_app_ok [Ok o] _ [o] l eq_refl E).
    - exists l. exact E.
  Qed.

  Lemma at_reach o p x : at_path W o p x -> reach o x.
  Proof. induction 1 as [|o i p y x Hn _ IH]; [constructor|]. apply nth_error_In in Hn. apply attrs_step in Hn. econstructor; eauto. Qed.
  Lemma reach_at o x : reach o x -> exists p, at_path W o p x.
  Proof.
    induction 1 as [|o x y Hs _ [p Hp]]; [exists []; constructor|]. apply (attrs_step W) in Hs. apply In_nth_error in Hs as [i Hi]. exists (i :: p). econstructor; eauto.
  Qed.
  Lemma at_path_fun o p x x' : at_path W o p x -> at_path W o p x' -> x = x'.
  Proof.
    intro H. revert x'. induction H as [|o i p y x Hn _ IH]; intros x' H'; inversion H'; subst; [reflexivity|]. rewrite Hn in *. match goal with E : Some _ = Some _ |- _ => injection E as <- end. auto.
  Qed.

  Lemma first_seq l r : seq_res l = Ok r -> first l = Ok (hd_error r).
  Proof.
    destruct l as [|x l]; cbn [seq_res]; intro H; [now injection H as <-|]. apply bind_ok in H as [a [-> H]]. apply bind_ok in H as [s [_ H]]. injection H as <-. reflexivity.
  Qed.
End Search.

(** ** Library objects *)

Lemma inside_obj x c ns nss attrs : inside x (VObj c ns nss attrs) -> exists c' ns' nss' attrs', x = VObj c' ns' nss' attrs'.
Proof. inversion 1; subst; eauto. Qed.

Theorem reach_inside v c ns nss attrs : reach (OVal v) (OVal (VObj c ns nss attrs)) <-> inside v (VObj c ns nss attrs).
Proof.
  split.
  - intro H. remember (OVal v) as o eqn:Eo. remember (OVal (VObj c ns nss attrs)) as y eqn:Ey. revert v Eo Ey.
    induction H as [o|o x y Hs Hr IH]; intros v Eo Ey.
    + subst. injection Ey as ->. constructor.
    + specialize (fun v E => IH v E Ey). destruct Hs; try discriminate; injection Eo as <-.
      * eapply in_attr; eauto.
      * eapply in_member; eauto.
      * exfalso. subst y. inversion Hr as [|? ? ? Hs' ?]; subst. inversion Hs'.
      * exfalso. subst y. inversion Hr as [|? ? ? Hs' ?]; subst. inversion Hs'.
      * exfalso. subst y. inversion Hr as [|? ? ? Hs' Hr']; subst. inversion Hs'; subst; inversion Hr' as [|? ? ? Hs'' ?]; subst; inversion Hs''.
      * exfalso. subst y. inversion Hr as [|? ? ? Hs' ?]; subst. inversion Hs'.
      * exfalso. subst y. inversion Hr as [|? ? ? Hs' Hr']; subst. inversion Hs'; subst; inversion Hr' as [|? ? ? Hs'' Hr'']; subst; inversion Hs''; subst;
          inversion Hr'' as [|? ? ? Hs3 ?]; subst; inversion Hs3.
      * exfalso. subst y. inversion Hr as [|? ? ? Hs' ?]; subst. inversion Hs'.
      * exfalso. subst y. inversion Hr as [|? ? ? Hs' ?]; subst. inversion Hs'.
      * exfalso. subst y. inversion Hr as [|? ? ? Hs' ?]; subst. inversion Hs'.
  - intro H. remember (VObj c ns nss attrs) as y eqn:Ey. induction H as [|c' ns' nss' attrs' a x y Ha U Hx IH|c' ns' nss' attrs' a l x y Ha U Hl Hx IH].
    + constructor.
    + subst y. destruct (inside_obj _ _ _ _ _ Hx) as [c2 [ns2 [nss2 [at2 ->]]]]. econstructor; [|exact (IH eq_refl)]. eapply step_attr; eauto. exact I.
    + econstructor; [|exact (IH Ey)]. eapply step_member; eauto.
Qed.

(** ** Order of siblings *)

Lemma split_insert {A} (X K Y : list A) : forall p y1 q y2 r, X ++ Y = p ++ y1 :: q ++ y2 :: r ->
  exists p' q' r', X ++ K ++ Y = p' ++ y1 :: q' ++ y2 :: r'.
Proof.
  induction X as [|x X IH]; intros p y1 q y2 r H; cbn [app] in *.
  - exists (K ++ p), q, r. now rewrite H, <- app_assoc.
  - destruct p as [|z p]; cbn [app] in H; injection H as -> H.
    + enough (E : exists q' r', X ++ K ++ Y = q' ++ y2 :: r') by (destruct E as [q' [r' ->]]; now exists [], q', r').
      clear -H. revert q H. induction X as [|x X IH]; intros q H; cbn [app] in *.
      * exists (K ++ q), r. now rewrite H, <- app_assoc.
      * destruct q as [|z q]; cbn [app] in H; injection H as -> H; [now exists [], (X ++ K ++ Y)|].
        destruct (IH q H) as [q' [r' ->]]. now exists (z :: q'), r'.
    + destruct (IH p y1 q y2 r H) as [p' [q' [r' ->]]]. now exists (z :: p'), q', r'.
Qed.

Lemma siblings W c ns nss attrs p y1 q y2 r : concat (map expand_attr attrs) = p ++ y1 :: q ++ y2 :: r ->
  exists i j, (i < j)%nat /\ at_path W (OVal (VObj c ns nss attrs)) [i] y1 /\ at_path W (OVal (VObj c ns nss attrs)) [j] y2.
Proof.
  intro H. set (n := match class_of W c with Some ci => List.length (ci_pre ci) | None => 0%nat end).
  assert (E : exists p' q' r', get_all_attrs W (OVal (VObj c ns nss attrs)) = p' ++ y1 :: q' ++ y2 :: r').
  { cbn [get_all_attrs]. fold n. apply (split_insert _ _ _ p y1 q y2 r). now rewrite <- concat_app, <- map_app, firstn_skipn. }
  destruct E as [p' [q' [r' E]]]. exists (length p'), (length p' + S (length q'))%nat. split; [lia|]. split; (econstructor; [rewrite E|constructor]).
  - now rewrite nth_error_app2, Nat.sub_diag by lia.
  - rewrite nth_error_app2 by lia. replace (length p' + S (length q') - length p')%nat with (S (length q')) by lia. cbn [nth_error].
    now rewrite nth_error_app2, Nat.sub_diag by lia.
Qed.

(** ** Fragments *)

Lemma after_hash_split s f : ~ In 35%N s -> after_hash (s ++ 35%N :: f) = f.
Proof. induction s as [|c s IH]; cbn [app after_hash]; intro H; [reflexivity|]. destruct (N.eqb_spec c 35) as [->|_]; [exfalso; apply H; now left|]. apply IH. intro. apply H. now right. Qed.
Lemma after_hash_none s : ~ In 35%N s -> after_hash s = [].
Proof. induction s as [|c s IH]; cbn [after_hash]; intro H; [reflexivity|]. destruct (N.eqb_spec c 35) as [->|_]; [exfalso; apply H; now left|]. apply IH. intro. apply H. now right. Qed.

Lemma fragment_plain s : (forall c, In c s -> c <> 9%N /\ c <> 10%N /\ c <> 13%N) -> fragment s = after_hash s.
Proof.
  intro H. unfold fragment. f_equal. induction s as [|c s IH]; [reflexivity|]. cbn [filter].
  destruct (H c (or_introl eq_refl)) as [H1 [H2 H3]]. rewrite (proj2 (N.eqb_neq _ _) H1), (proj2 (N.eqb_neq _ _) H2), (proj2 (N.eqb_neq _ _) H3). cbn [orb negb].
  f_equal. apply IH. intros d Hd. apply H. now right.
Qed.
