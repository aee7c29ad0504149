(** * Proofs for C79: verbosities. *)
From Coq Require Import String List NArith ZArith Bool Lia.
From Verif Require Import Ustr UstrProofs Res PyInt PyFloat PyDate Elem Value Geom Codec Tables Spec Settled Same Effective FastkmlOk EmitProofs RoundTrip
  Find FindSpec FindProofs PropFind KeepProofs.
Import ListNotations.
Local Open Scope string_scope.
Local Open Scope list_scope.

(** No default is an object or a list. *)
Lemma plain_defaults arrow : forallb (fun cc => forallb (fun it => match it_default it with VObj _ _ _ _ | VList _ => false | _ => true end) (items_of (fastkml arrow) (fst cc))) (w_classes (fastkml arrow)) = true.
Proof. vm_compute. reflexivity. Qed.

Lemma like_object d x y : match d with VObj _ _ _ _ | VList _ => false | _ => true end = true -> match x with VObj _ _ _ _ | VList _ => True | _ => False end -> like d x y -> x = y.
Proof.
  intros Hd Hx H. assert (E : effective d x = x) by (destruct x; try destruct Hx; reflexivity). unfold like in H. rewrite E in H. destruct H as [H|H].
  - unfold effective in H. destruct (is_none y); [subst d; destruct x; try destruct Hx; discriminate Hd|exact H].
  - destruct x; try destruct Hx; cbn in H; destruct (effective d y); discriminate H.
Qed.

(** What is inside an object has its like inside each object that is alike. *)
Lemma alike_inside arrow x y : let W := fastkml arrow in inside x y -> forall x0 c ns nss attrs, alike W x x0 -> vall (typed_node W) x = true -> y = VObj c ns nss attrs ->
  exists y0, inside x0 y0 /\ alike W y y0.
Proof.
  intro W.
  assert (O : forall ci attrs a x, obj_attr ci attrs a = x -> match x with VObj _ _ _ _ | VList _ => True | _ => False end -> In (a, x) attrs).
  { intros ci attrs a z E Hx. unfold obj_attr in E. destruct (sget a attrs) as [w|] eqn:Ez; [subst w; now apply sget_In|]. exfalso.
    destruct (ci_geom ci), (sget "track_items" attrs) as [[]|]; repeat match type of E with (if ?b then _ else _) = _ => destruct b end; subst z; destruct Hx. }
  assert (K : forall c ns nss attrs a x x0, alike W (VObj c ns nss attrs) x0 -> vall (typed_node W) (VObj c ns nss attrs) = true -> In (a, x) attrs ->
    match x with VObj _ _ _ _ | VList _ => True | _ => False end ->
    vall (typed_node W) x = true /\ exists attrs0 z, x0 = VObj c ns nss attrs0 /\ In (a, z) attrs0 /\ alike W x z).
  { intros c ns nss attrs a z x0 S T Hin Hx. cbn [vall] in T. apply andb_prop in T as [T1 T2]. rewrite forallb_forall in T2. specialize (T2 _ Hin). cbn beta iota in T2. split; [exact T2|].
    inversion S as [w|? ? F|? ci ? ? ? attrs0 Hc Hs]; subst; [exists attrs, z; split; [reflexivity|]; split; [exact Hin|constructor]|]. exists attrs0, (obj_attr ci attrs0 a). split; [reflexivity|].
    unfold typed_node in T1. rewrite Hc in T1. apply andb_prop in T1 as [T1 T3]. rewrite forallb_forall in T3. specialize (T3 _ Hin). unfold attr_typed in T3. apply andb_prop in T3 as [T3 _].
    destruct (find_item a (items_of W c)) as [it|] eqn:Ef; [|destruct z; try destruct Hx; discriminate T3].
    apply find_item_In in Ef as [Hit Ea]. specialize (Hs it Hit). rewrite Ea in Hs.
    assert (E : obj_attr ci attrs a = z).
    { unfold obj_attr. unfold shape_ok in T1. apply andb_prop in T1 as [T1 _]. apply andb_prop in T1 as [_ T1]. apply nodups_NoDup in T1. now rewrite (sget_NoDup _ _ _ T1 Hin). }
    rewrite E in Hs. assert (A : alike W z (obj_attr ci attrs0 a)).
    { destruct Hs as [Hs|Hs]; [|exact Hs]. assert (P := plain_defaults arrow). rewrite forallb_forall in P. specialize (P (c, ci) (sget_In _ _ _ Hc)). cbn [fst] in P. rewrite forallb_forall in P. specialize (P it Hit).
      rewrite <- (like_object _ _ _ P Hx Hs). constructor. }
    split; [|exact A]. apply (O ci attrs0 a _ eq_refl). clear - A Hx. destruct A; [exact Hx|exact I|exact I]. }
  induction 1 as [x|c ns nss attrs a x y Hin U Hi IH|c ns nss attrs a l x y Hin U Hx Hi IH]; intros x0 c0 ns0 nss0 attrs0 S T E.
  - exists x0. split; [constructor|exact S].
  - subst y. destruct (inside_obj _ _ _ _ _ Hi) as [c2 [ns2 [nss2 [at2 E2]]]].
    destruct (K _ _ _ _ _ _ _ S T Hin) as [Tx [attrs1 [z [-> [Hz A]]]]]; [now rewrite E2|].
    destruct (IH _ _ _ _ _ A Tx eq_refl) as [y [Hy Sy]]. exists y. split; [|exact Sy]. exact (in_attr c ns nss attrs1 a z y Hz U Hy).
  - destruct (K _ _ _ _ _ _ _ S T Hin I) as [Tx [attrs1 [z [-> [Hz A]]]]].
    cbn [vall] in Tx. rewrite forallb_forall in Tx. specialize (Tx x Hx).
    assert (Z : exists l' w, z = VList l' /\ In w l' /\ alike W x w).
    { clear - A Hx. remember (VList l) as v eqn:E. destruct A as [v|l1 l2 F|]; [subst v; exists l, x; split; [reflexivity|]; split; [exact Hx|constructor]| |discriminate E].
      injection E as ->. exists l2. clear - F Hx. induction F as [|p q ps qs Hpq _ IH]; [destruct Hx|]. destruct Hx as [<- |Hx]; [exists q; split; [reflexivity|]; split; [now left|exact Hpq]|].
      destruct (IH Hx) as [w [_ [Hw Aw]]]. exists w. split; [reflexivity|]. split; [now right|exact Aw]. }
    destruct Z as [l' [w [-> [Hw Aw]]]]. destruct (IH w _ _ _ _ Aw Tx E) as [y0 [Hy Sy]]. exists y0. split; [|exact Sy]. exact (in_member c ns nss attrs1 a l' w y0 Hz U Hw Hy).
Qed.

(** The ids of the library's styles have no default. *)
Lemma style_ids_default arrow : forallb (fun cc => implb (existsb (fun t => mem t (ci_mro (snd cc))) ["styles.Style"; "styles.StyleMap"])
  (match find_item "id" (items_of (fastkml arrow) (fst cc)) with Some it => is_none (it_default it) | None => false end)) (w_classes (fastkml arrow)) = true.
Proof. vm_compute. reflexivity. Qed.

Lemma alike_style arrow y y0 i : let W := fastkml arrow in alike W y y0 -> style W y -> has_id y i -> style W y0 /\ has_id y0 i.
Proof.
  intros W A Hs Hid. assert (Hs2 := Hs). destruct Hs2 as [c [ns [nss [attrs [-> [t [Ht Ha]]]]]]]. assert (Hid2 := Hid). destruct Hid2 as [? [? [? [? [[= <- <- <- <-] Hi]]]]].
  inversion A as [w|? ? F|? ci ? ? ? attrs0 Hc Hsame]; subst; [auto|].
  assert (M : In t (ci_mro ci)).
  { remember (OVal (VObj c ns nss attrs)) as o eqn:Eo. destruct Ha; try discriminate Eo; [destruct Ht as [X|[X|[]]]; discriminate X| |]; injection Eo as -> -> -> ->; congruence. }
  split.
  - exists c, ns, nss, attrs0. split; [reflexivity|]. exists t. split; [exact Ht|]. eapply isa_library; eauto.
  - assert (P := style_ids_default arrow). rewrite forallb_forall in P. specialize (P (c, ci) (sget_In _ _ _ Hc)). cbn [fst snd] in P.
    assert (X : existsb (fun t => mem t (ci_mro ci)) ["styles.Style"; "styles.StyleMap"] = true) by (apply existsb_exists; exists t; split; [exact Ht|]; now apply mem_In).
    rewrite X in P. cbn [implb] in P. destruct (find_item "id" (items_of (fastkml arrow) c)) as [it|] eqn:Ef; [|discriminate P]. apply find_item_In in Ef as [Hit Ea]. specialize (Hsame it Hit). rewrite Ea in Hsame.
    assert (E : obj_attr ci attrs "id" = VStr i) by (unfold obj_attr; now rewrite Hi). rewrite E in Hsame.
    assert (Y : obj_attr ci attrs0 "id" = VStr i).
    { destruct Hsame as [L|L].
      - unfold like, effective in L. destruct (it_default it); try discriminate P. cbn [is_none] in L. destruct L as [L|L].
        + destruct (obj_attr ci attrs0 "id"); cbn [is_none] in L; congruence.
        + destruct (obj_attr ci attrs0 "id"); cbn [is_none] in L; try discriminate L. cbn in L. apply ueqb_eq in L. now subst.
      - inversion L; reflexivity. }
    exists c, ns, nss, attrs0. split; [reflexivity|]. unfold obj_attr in Y. destruct (sget "id" attrs0); [now subst|]. exfalso. destruct (ci_geom ci), (sget "track_items" attrs0) as [[]|]; repeat match type of Y with (if ?b then _ else _) = _ => destruct b end; discriminate Y.
Qed.
