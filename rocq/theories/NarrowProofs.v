(** * Proofs for C76. *)
From Coq Require Import String List NArith ZArith Bool Lia Sorting.Permutation.
From Verif Require Import Ustr Res PyInt PyFloat PyDate Value Geom Codec Find FindSpec FindProofs FewerSpec.
Import ListNotations.
Local Open Scope string_scope.
Local Open Scope list_scope.

Section Search.
  Variables (W : world) (ga : pyobj -> string -> res pyobj).

  Lemma walk_fuel q : forall fuel fuel' o, (odepth o < fuel)%nat -> (odepth o < fuel')%nat -> walk W ga fuel q o = walk W ga fuel' q o.
  Proof.
    induction fuel as [|fuel IH]; intros [|fuel'] o H H'; try lia. cbn [walk]. do 2 f_equal. apply map_ext_in. intros y Hy. assert (D := kids_depth W o y Hy). apply IH; lia.
  Qed.

  Lemma find_all_parts q o : find_all W ga q o = let! own := test W ga q o in let! below := map_res (find_all W ga q) (get_all_attrs W o) in Ok ((if own then [o] else []) ++ concat below).
  Proof.
    unfold find_all at 1. cbn [walk].
    assert (K : forall ys, (forall y, In y ys -> In y (get_all_attrs W o)) -> seq_res (concat (map (walk W ga (odepth o) q) ys)) = let! below := map_res (find_all W ga q) ys in Ok (concat below)).
    { induction ys as [|y ys IH]; intro H; [reflexivity|]. cbn [map concat map_res]. assert (E : walk W ga (odepth o) q y = walk W ga (S (odepth y)) q y) by (apply walk_fuel; [apply kids_depth with W, H; now left|lia]). rewrite E. fold (find_all W ga q y).
      assert (S : forall (a b : list (res pyobj)), seq_res (a ++ b) = let! x := seq_res a in let! z := seq_res b in Ok (x ++ z)).
      { clear. induction a as [|x a IH]; intro b; cbn [app seq_res bind]; [now destruct (seq_res b)|]. destruct x as [x|]; [|reflexivity]. cbn [bind]. rewrite IH. destruct (seq_res a); cbn [bind]; [|reflexivity]. now destruct (seq_res b). }
      rewrite S. unfold find_all. destruct (seq_res (walk W ga (Datatypes.S (odepth y)) q y)); cbn [bind]; [|reflexivity]. rewrite IH by (intros z Hz; apply H; now right).
      change (fun o0 : pyobj => seq_res (walk W ga (Datatypes.S (odepth o0)) q o0)) with (find_all W ga q). destruct (map_res _ ys); reflexivity. }
    destruct (test W ga q o) as [[|]|]; cbn [bind app seq_res]; [| |reflexivity]; rewrite K by auto; destruct (map_res _ _); reflexivity.
  Qed.

  (** A query that implies another. *)
  Lemma walk_narrow q q' f : forall fuel o l, seq_res (walk W ga fuel q o) = Ok l ->
    (forall x, test W ga q x = Ok false -> test W ga q' x = Ok false) -> (forall x, In x l -> test W ga q' x = Ok (f x)) ->
    seq_res (walk W ga fuel q' o) = Ok (filter f l).
  Proof.
    induction fuel as [|fuel IH]; intros o l H F T; [discriminate H|]. cbn [walk] in *. apply seq_res_app in H as [l1 [l2 [H1 [H2 ->]]]].
    rewrite filter_app. apply seq_res_app_ok.
    - destruct (test W ga q o) as [[|]|] eqn:E; cbn in H1; [|injection H1 as <-; now rewrite (F o E)|discriminate H1].
      injection H1 as <-. rewrite (T o (or_introl eq_refl)). cbn [filter]. destruct (f o); reflexivity.
    - assert (T2 : forall x, In x l2 -> test W ga q' x = Ok (f x)) by (intros x Hx; apply T; apply in_or_app; now right). clear H1 T.
      revert l2 H2 T2. induction (get_all_attrs W o) as [|y ys IHy]; intros l2 H2 T2; cbn [map concat] in *; [injection H2 as <-; reflexivity|].
      apply seq_res_app in H2 as [r1 [r2 [H1 [H2 ->]]]]. rewrite filter_app. apply seq_res_app_ok; [apply IH; auto; intros x Hx; apply T2; apply in_or_app; now left|]. apply IHy; auto. intros x Hx. apply T2. apply in_or_app. now right.
  Qed.

  Lemma filter_fewer (f : pyobj -> bool) (P : pyobj -> Prop) l : (forall x, In x l -> f x = false -> P x) -> fewer eq P (filter f l) l.
  Proof. induction l as [|x l IH]; intro H; cbn [filter]; [constructor|]. destruct (f x) eqn:E; constructor; auto with datatypes; apply IH; intros y Hy; apply H; now right. Qed.

  Lemma args_app o args more : has_attribute_values ga o (args ++ more) = let! b := has_attribute_values ga o args in if b then has_attribute_values ga o more else Ok false.
  Proof.
    induction args as [|[k eq] args IH]; [reflexivity|]. cbn [app has_attribute_values]. destruct (let! x := ga o k in eq x) as [[|]|e]; [exact IH|reflexivity|]. destruct e; reflexivity.
  Qed.
End Search.
