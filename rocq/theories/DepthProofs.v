(** * How deep what is written is: C71. *)
From Coq Require Import String List NArith ZArith Bool Lia.
From Verif Require Import Ustr UstrProofs Res PyInt PyFloat PyDate Elem Value Geom Codec Spec EmitProofs CodecProofs ItemProofs RoundTrip EditSpec EditProofs OnceProofs SizeSpec FewerSpec FewerProofs.
Import ListNotations.
Local Open Scope string_scope.
Local Open Scope list_scope.

Lemma max_in l n : In n l -> (n <= list_max l)%nat.
Proof. induction l as [|x l IH]; intros []; cbn [list_max fold_right] in *; [subst; lia|]. specialize (IH H). unfold list_max in IH. lia. Qed.
Lemma max_below l n : (forall x, In x l -> (x <= n)%nat) -> (list_max l <= n)%nat.
Proof. intro H. apply list_max_le, Forall_forall. exact H. Qed.

Lemma written_depth W prec vb v : (forall e, etree W prec vb v = Ok e -> (height e <= S (nesting v))%nat) /\
  match v with VList l => forall y e, In y l -> etree W prec vb y = Ok e -> (height e <= S (nesting v))%nat | _ => True end.
Proof.
  induction v as [ | | | | | | | | | |l IH|c ns nss attrs IH] using value_ind'; try (split; [intros e E; discriminate E|exact I]).
  - rewrite Forall_forall in IH. split; [intros e E; discriminate E|]. intros y e Hy E. assert (H := proj1 (IH y Hy) e E). cbn [nesting]. assert (M := max_in (map nesting l) (nesting y) (in_map _ _ _ Hy)). lia.
  - split; [|exact I]. rewrite Forall_forall in IH. intros e E.
    assert (B : forall a x, In (a, x) attrs -> (S (nesting x) <= nesting (VObj c ns nss attrs))%nat).
    { intros a x Hx. cbn [nesting]. apply le_n_S. apply max_in. apply (in_map (fun ax : string * value => let (_, x) := ax in nesting x)) in Hx. exact Hx. }
    destruct (class_of W c) as [ci|] eqn:Hc; [|rewrite etree_obj in E; unfold write_with in E; rewrite Hc in E; discriminate E].
    apply (etree_written _ _ _ _ _ _ _ _ _ Hc) in E as [ms [Hm ->]].
    assert (K : forall k, In k (e_kids (fold_left (fun e m => apply_em m e) ms (start_elem ci ns))) -> (height k <= nesting (VObj c ns nss attrs))%nat).
    { rewrite fold_kids. assert (K0 : e_kids (start_elem ci ns) = []) by (unfold start_elem, root_elem; destruct (ci_root ci), (uempty ns); reflexivity). rewrite K0. cbn [app]. intros k Hk.
      apply in_concat in Hk as [ks [Hks Hk]]. apply in_map_iff in Hks as [m [<- Hin]]. apply map_res_ok in Hm.
      assert (X : exists it, emit W prec vb ci ns nss attrs (ws_of W prec vb attrs) it = Ok m).
      { clear -Hm Hin. induction Hm as [|it m' its ms Hi _ IH]; [destruct Hin|]. destruct Hin as [<-|Hin]; [now exists it|now apply IH]. }
      destruct X as [it Hi]. destruct (uses_value it) eqn:Hu.
      - destruct (emit_leaf _ _ _ _ _ _ _ _ _ _ Hu Hi k Hk) as [t [x ->]]. cbn [height nesting map list_max fold_right]. lia.
      - unfold uses_value in Hu. unfold emit in Hi. destruct (it_set it); try discriminate Hu.
        + destruct (obj_attr ci attrs (it_attr it)); try discriminate Hi; [apply ok_inj in Hi; subst; destruct Hk|]. destruct (nilb l); [apply ok_inj in Hi; subst; destruct Hk|]. apply bind_ok in Hi as [t [_ Hi]]. apply ok_inj in Hi. subst. destruct Hk.
        + apply bind_ok in Hi as [b [_ Hi]]. destruct b; [|apply ok_inj in Hi; subst; destruct Hk]. rewrite sget_ws_of in Hi. destruct (sget (it_attr it) attrs) as [x|] eqn:Q; [|discriminate]. unfold w_attr in Hi.
          apply bind_ok in Hi as [k' [Hk' Hi]]. apply ok_inj in Hi. subst m. destruct Hk as [<-|[]]. assert (Q' := EmitProofs.sget_In _ _ _ Q). assert (H := proj1 (IH _ Q') _ Hk'). cbn [snd] in H. specialize (B _ _ Q'). lia.
        + rewrite sget_ws_of in Hi. destruct (sget (it_attr it) attrs) as [x|] eqn:Q; [|apply ok_inj in Hi; subst; destruct Hk]. unfold w_attr in Hi. destruct x; try discriminate Hi; [apply ok_inj in Hi; subst; destruct Hk|].
          apply bind_ok in Hi as [ks [Hks Hi]]. apply ok_inj in Hi. subst m. apply objs_kids_for in Hks. rewrite Forall_forall in Hks. destruct (Hks k Hk) as [y [Hy Ey]].
          assert (Q' := EmitProofs.sget_In _ _ _ Q). assert (H := proj2 (IH _ Q') y k Hy Ey). cbn [snd] in H. specialize (B _ _ Q'). lia. }
    destruct (fold_left _ ms (start_elem ci ns)) as [t a x ks]. cbn [e_kids height] in *. apply le_n_S. apply max_below. intros n Hn. apply in_map_iff in Hn as [k [<- Hk]]. now apply K.
Qed.
