(** * Proofs for C79. *)
From Coq Require Import String List NArith ZArith Bool Lia.
From Verif Require Import Ustr UstrProofs Res PyInt PyFloat PyDate Elem Value Geom Codec Tables Spec Settled Same FastkmlOk EmitProofs RoundTrip
  Find FindSpec FindProofs PropFind.
Import ListNotations.
Local Open Scope string_scope.
Local Open Scope list_scope.

(** What is inside an object was inside each object with the same data. *)
Lemma same_inside W v' y' : inside v' y' -> forall v c ns nss attrs, same W v v' -> vall (typed_node W) v' = true -> y' = VObj c ns nss attrs ->
  exists y, inside v y /\ same W y y'.
Proof.
  assert (K : forall c ns nss attrs' a x' v, same W v (VObj c ns nss attrs') -> vall (typed_node W) (VObj c ns nss attrs') = true -> In (a, x') attrs' ->
    match x' with VObj _ _ _ _ | VList _ => True | _ => False end ->
    exists ci attrs, v = VObj c ns nss attrs /\ class_of W c = Some ci /\ same W (obj_attr ci attrs a) x' /\ vall (typed_node W) x' = true).
  { intros c ns nss attrs' a x' v S T Hin Hx. cbn [vall] in T. apply andb_prop in T as [T1 T2]. rewrite forallb_forall in T2. specialize (T2 _ Hin). cbn beta iota in T2.
    inversion S as [x Hr| | | | | | | | | | | |? ci ? ? attrs ? Hc Hs]; subst; [destruct Hr|]. exists ci, attrs. split; [reflexivity|]. split; [exact Hc|]. split; [|exact T2].
    unfold typed_node in T1. rewrite Hc in T1. apply andb_prop in T1 as [T1 T3]. rewrite forallb_forall in T3. specialize (T3 _ Hin). unfold attr_typed in T3. apply andb_prop in T3 as [T3 _].
    destruct (find_item a (items_of W c)) as [it|] eqn:Ef; [|destruct x'; try destruct Hx; discriminate T3].
    apply find_item_In in Ef as [Hit Ea]. specialize (Hs it Hit). rewrite Ea in Hs.
    assert (E : obj_attr ci attrs' a = x').
    { unfold obj_attr. unfold shape_ok in T1. apply andb_prop in T1 as [T1 _]. apply andb_prop in T1 as [_ T1]. apply nodups_NoDup in T1. now rewrite (sget_NoDup _ _ _ T1 Hin). }
    now rewrite E in Hs. }
  assert (O : forall ci attrs a x, obj_attr ci attrs a = x -> match x with VObj _ _ _ _ | VList _ => True | _ => False end -> In (a, x) attrs).
  { intros ci attrs a x E Hx. unfold obj_attr in E. destruct (sget a attrs) as [z|] eqn:Ez; [subst z; now apply sget_In|]. exfalso.
    destruct (ci_geom ci), (sget "track_items" attrs) as [[]|]; repeat match type of E with (if ?b then _ else _) = _ => destruct b end; subst x; destruct Hx. }
  induction 1 as [v'|c ns nss attrs' a x' y' Hin U Hi IH|c ns nss attrs' a l x' y' Hin U Hx Hi IH]; intros v c0 ns0 nss0 attrs0 S T E.
  - exists v. split; [constructor|exact S].
  - subst y'. destruct (inside_obj _ _ _ _ _ Hi) as [c2 [ns2 [nss2 [at2 E2]]]].
    destruct (K _ _ _ _ _ _ _ S T Hin) as [ci [attrs [-> [Hc [Hs Tx]]]]]; [now rewrite E2|].
    destruct (IH _ _ _ _ _ Hs Tx eq_refl) as [y [Hy Sy]]. exists y. split; [|exact Sy].
    subst x'. apply (in_attr c ns nss attrs a (obj_attr ci attrs a)); [|exact U|exact Hy]. apply (O ci attrs a _ eq_refl).
    clear - Hs. remember (VObj c2 ns2 nss2 at2) as x' eqn:E. destruct Hs as [x Hr| | | | | | | | | | | |]; try discriminate E; [subst x; destruct Hr|exact I].
  - destruct (K _ _ _ _ _ _ _ S T Hin I) as [ci [attrs [-> [Hc [Hs Tx]]]]].
    cbn [vall] in Tx. rewrite forallb_forall in Tx. specialize (Tx x' Hx). subst y'. destruct (inside_obj _ _ _ _ _ Hi) as [c2 [ns2 [nss2 [at2 E2]]]].
    remember (obj_attr ci attrs a) as x eqn:Ex. symmetry in Ex. inversion Hs as [x0 Hr| | | | | | | | | |k k' F| |]; subst x0 || subst; [destruct Hr| |destruct Hx].
    destruct (F c2) as [m [Fm Em]]. assert (Hm : In (VObj c2 ns2 nss2 at2) m).
    { assert (X : In (VObj c2 ns2 nss2 at2) (filter (is_class c2) l)) by (apply filter_In; split; [exact Hx|]; cbn [is_class]; apply String.eqb_refl).
      destruct Em as [<- |Em]; [exact X|]. rewrite Em in X. now apply filter_In in X. }
    assert (Z : exists z, In z k /\ same W z (VObj c2 ns2 nss2 at2)).
    { assert (Hk : forall z, In z (filter (fun y => is_class c2 y && truth W y) k) -> In z k) by (intros z Hz; now apply filter_In in Hz). clear - Fm Hm Hk. revert Hk. induction Fm as [|p q ps qs Hpq _ IH]; intro Hk; [destruct Hm|]. destruct Hm as [<- |Hm]; [exists p; split; [apply Hk; now left|exact Hpq]|]. apply IH; [exact Hm|]. intros z Hz. apply Hk. now right. }
    destruct Z as [z [Hz Sz]]. destruct (IH z _ _ _ _ Sz Tx eq_refl) as [y [Hy Sy]]. exists y. split; [|exact Sy].
    apply (in_member c ns nss attrs a k z); auto. apply (O ci attrs a); [congruence|exact I].
Qed.

(** The styles of the library have a registered id. *)
Lemma styles_have_ids arrow : forallb (fun cc => implb (existsb (fun t => mem t (ci_mro (snd cc))) ["styles.Style"; "styles.StyleMap"])
  (match find_item "id" (items_of (fastkml arrow) (fst cc)) with Some _ => true | None => false end)) (w_classes (fastkml arrow)) = true.
Proof. vm_compute. reflexivity. Qed.

Lemma same_style arrow y y' i : let W := fastkml arrow in same W y y' -> style W y' -> has_id y' i ->
  style W y /\ (strip i <> [] -> exists j, has_id y j /\ strip j = strip i).
Proof.
  intros W S [c [ns [nss [attrs' [-> [t [Ht Ha]]]]]]] [? [? [? [? [[= <- <- <- <-] Hi]]]]].
  inversion S as [x Hr| | | | | | | | | | | |? ci ? ? attrs ? Hc Hs]; subst; [destruct Hr|].
  assert (M : In t (ci_mro ci)).
  { remember (OVal (VObj c ns nss attrs')) as o eqn:Eo. destruct Ha; try discriminate Eo; [destruct Ht as [X|[X|[]]]; discriminate X| |]; injection Eo as -> -> -> ->; congruence. }
  split.
  - exists c, ns, nss, attrs. split; [reflexivity|]. exists t. split; [exact Ht|]. eapply isa_library; eauto.
  - intro Ni. assert (P := styles_have_ids arrow). rewrite forallb_forall in P. specialize (P (c, ci) (sget_In _ _ _ Hc)). cbn [fst snd] in P.
    assert (X : existsb (fun t => mem t (ci_mro ci)) ["styles.Style"; "styles.StyleMap"] = true) by (apply existsb_exists; exists t; split; [exact Ht|]; now apply mem_In).
    rewrite X in P. cbn [implb] in P. destruct (find_item "id" (items_of (fastkml arrow) c)) as [it|] eqn:Ef; [|discriminate P]. apply find_item_In in Ef as [Hit Ea]. specialize (Hs it Hit). rewrite Ea in Hs.
    assert (E : obj_attr ci attrs' "id" = VStr i) by (unfold obj_attr; now rewrite Hi). rewrite E in Hs.
    assert (Y : forall j, obj_attr ci attrs "id" = VStr j -> has_id (VObj c ns nss attrs) j).
    { intros j Ej. exists c, ns, nss, attrs. split; [reflexivity|]. unfold obj_attr in Ej. destruct (sget "id" attrs); [now subst|]. exfalso. destruct (ci_geom ci), (sget "track_items" attrs) as [[]|]; repeat match type of Ej with (if ?b then _ else _) = _ => destruct b end; discriminate Ej. }
    remember (obj_attr ci attrs "id") as x eqn:Ex. clear - Hs Y Ni. remember (VStr i) as z eqn:Ez. destruct Hs; try discriminate Ez.
    + subst x. exists i. split; [now apply Y|reflexivity].
    + injection Ez as ->. exists s. split; [now apply Y|assumption].
    + injection Ez as <-. destruct Ni. reflexivity.
Qed.
