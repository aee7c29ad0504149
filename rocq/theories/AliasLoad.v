(** * Constructors in memory and constructors on trees. *)
From Coq Require Import String List NArith ZArith Bool Lia PeanoNat.
From Verif Require Import Ustr UstrProofs Res PyDate Elem Value Geom Codec Api Alias AliasSpec AliasProofs.
Import ListNotations.
Local Open Scope string_scope.
Local Open Scope list_scope.

(** Lists and objects are in memory, not among the immutable values. *)
Definition proper_ref (e : eref) : bool := match e with EV (VList _) => false | _ => true end.
Definition proper_content (c : content) : bool :=
  match c with
  | LObjs _ => true
  | LPlain (VCoords _ _) | LPlain (VDates _) | LPlain (VItems _) => true
  | LPlain _ | LDict _ => false
  end.
Definition proper (ls : list content) (h : hval) : bool := match h with HE e => proper_ref e | HL a => proper_content (contents ls a) end.

Definition proper_aval (x : aval) : bool := match x with AE e => proper_ref e | AL c => proper_content c end.

Section Loads.
  Variable W : world.
  Variable ld : eref -> res value.
  Hypothesis ld_val : forall v, ld (EV v) = Ok v.
  Hypothesis ld_obj : forall a v, ld (EO a) = Ok v -> exists c ns nss attrs, v = VObj c ns nss attrs.

  Lemma filter_loads l vs : map_res ld l = Ok vs ->
    match filter_refs W ld l with
    | Ok r => exists ws, map_res ld r = Ok ws /\ filter_true W vs = Ok ws
    | Err x => filter_true W vs = Err x
    end.
  Proof.
    revert vs. induction l as [|e l IH]; intros vs H; cbn [map_res] in H; cbn [filter_refs].
    - injection H as <-. exists []. auto.
    - apply bind_ok in H as [v [Ev H]]. apply bind_ok in H as [vs' [El H]]. injection H as <-. rewrite Ev. cbn [bind filter_true].
      destruct (py_bool W v) as [b|x]; cbn [bind]; [|reflexivity].
      specialize (IH _ El). destruct (filter_refs W ld l) as [r|x]; cbn [bind]; [|now rewrite IH].
      destruct IH as [ws [H1 H2]]. rewrite H2. cbn [bind]. destruct b.
      + exists (v :: ws). cbn [map_res]. rewrite Ev, H1. auto.
      + exists ws. auto.
  Qed.

  Variable views : list (string * aval).
  Variable lk : list (string * value).
  Hypothesis views_load : forall a, load_aval ld (aget views a) = Ok (kwget lk a).
  Hypothesis views_proper : forall a, proper_aval (aget views a) = true.

  Lemma stores_loads a k :
    match stores W ld views (a, k) with
    | Ok s => exists v, mk_attr W lk (a, k) = Ok (a, v) /\ match s with Same => v = kwget lk a | Elem e => e = EV v | Fresh c => load_content ld c = Ok v end
    | Err x => mk_attr W lk (a, k) = Err x
    end.
  Proof.
    assert (L := views_load a). assert (P := views_proper a). unfold mk_attr. destruct k; cbn [stores bind].
    - eauto.
    - rewrite L. cbn [bind]. destruct (clean_string (kwget lk a)); cbn [bind]; eauto.
    - rewrite L. cbn [bind]. destruct (py_bool W (kwget lk a)) as [[]|]; cbn [bind]; auto. destruct (clean_string (kwget lk a)); cbn [bind]; eauto.
    - rewrite L. cbn [bind]. destruct (py_bool W (kwget lk a)) as [[]|]; cbn [bind]; eauto.
    - rewrite L. cbn [bind]. destruct (py_bool W (kwget lk a)) as [[]|]; cbn [bind]; eauto.
    - destruct (aget views a) as [[v|i]|[l|v|d]]; cbn [load_aval load_content] in L.
      + rewrite ld_val in L. injection L as L. rewrite <- L. destruct v; cbn [bind]; try reflexivity; [eauto|discriminate P].
      + destruct (ld_obj _ _ L) as [c [ns [nss [attrs ->]]]]. reflexivity.
      + apply bind_ok in L as [vs [Ev L]]. injection L as L. rewrite <- L. cbn [bind]. exists (VList vs). split; [reflexivity|]. cbn [load_content]. now rewrite Ev.
      + injection L as L. rewrite <- L. destruct v; cbn [bind]; try reflexivity; discriminate P.
      + discriminate L.
    - destruct (aget views a) as [[v|i]|[l|v|d]]; cbn [load_aval load_content] in L.
      + rewrite ld_val in L. injection L as L. rewrite <- L. destruct v; cbn [bind]; try reflexivity; [eauto|discriminate P].
      + destruct (ld_obj _ _ L) as [c [ns [nss [attrs ->]]]]. reflexivity.
      + apply bind_ok in L as [vs [Ev L]]. injection L as L. rewrite <- L. cbn [bind]. exists (VList vs). split; [reflexivity|]. cbn [load_content]. now rewrite Ev.
      + injection L as L. rewrite <- L. destruct v; cbn [bind]; try reflexivity; discriminate P.
      + discriminate L.
    - destruct (aget views a) as [[v|i]|[l|v|d]]; cbn [load_aval load_content] in L.
      + rewrite ld_val in L. injection L as L. rewrite <- L. destruct v; cbn [bind]; try reflexivity; [eauto|discriminate P].
      + destruct (ld_obj _ _ L) as [c [ns [nss [attrs ->]]]]. reflexivity.
      + apply bind_ok in L as [vs [Ev L]]. injection L as L. rewrite <- L. cbn [bind].
        assert (F := filter_loads _ _ Ev). destruct (filter_refs W ld l) as [r|x]; cbn [bind]; [|now rewrite F].
        destruct F as [ws [F1 F2]]. rewrite F2. cbn [bind]. exists (VList ws). split; [reflexivity|]. cbn [load_content]. now rewrite F1.
      + injection L as L. rewrite <- L. destruct v; cbn [bind]; try reflexivity; discriminate P.
      + discriminate L.
    - rewrite L. cbn [bind]. destruct (py_bool W (kwget lk a)) as [[]|]; cbn [bind]; eauto.
    - rewrite L, !views_load. cbn [bind]. destruct (build_track (kwget lk a) (kwget lk "whens") (kwget lk "coords") (kwget lk "angles")); cbn [bind]; eauto.
  Qed.
End Loads.

Definition load_attr (ld : eref -> res value) (ls : list content) (kv : string * hval) : res (string * value) :=
  let! v := load_hval ld ls (snd kv) in Ok (fst kv, v).

Lemma load_hval_more ld ld' ls more h v : (forall e v, ld e = Ok v -> ld' e = Ok v) -> load_hval ld ls h = Ok v -> load_hval ld' (ls ++ more) h = Ok v.
Proof.
  intros Hl H. destruct h as [e|a]; cbn [load_hval] in *; [auto|].
  destruct (nth_error ls a) as [c|] eqn:E; [|discriminate H]. rewrite nth_error_app1 by (apply nth_error_Some; congruence). rewrite E.
  destruct c as [l|x|d]; cbn [load_content] in *; auto. apply bind_ok in H as [vs [Hv H]]. apply map_res_ok in Hv.
  assert (E' : map_res ld' l = Ok vs). { clear -Hl Hv. induction Hv as [|x y l r H1 _ IH]; [reflexivity|]. cbn [map_res]. now rewrite (Hl _ _ H1), IH. }
  rewrite E'. exact H.
Qed.

Lemma load_more m ls' os' lv ev : forall fuel e v,
  load fuel m e = Ok v -> load fuel (mkM (m_lists m ++ ls') (m_objs m ++ os') lv ev) e = Ok v.
Proof.
  induction fuel as [|fuel IH]; intros [x|i] v H; cbn [load] in *; try exact H. cbn [m_objs m_lists].
  destruct (nth_error (m_objs m) i) as [o|] eqn:E; [|discriminate H]. rewrite nth_error_app1 by (apply nth_error_Some; congruence). rewrite E.
  apply bind_ok in H as [d [Hd H]]. apply bind_ok in H as [attrs [Ha H]].
  assert (D : dict_at (m_lists m ++ ls') (o_nss o) = Ok d).
  { unfold dict_at in *. destruct (nth_error (m_lists m) (o_nss o)) as [c|] eqn:Ec; [|discriminate Hd].
    rewrite nth_error_app1 by (apply nth_error_Some; congruence). now rewrite Ec. }
  rewrite D. cbn [bind]. apply map_res_ok in Ha.
  match goal with |- context[map_res ?f (o_attrs o)] => assert (E' : map_res f (o_attrs o) = Ok attrs) end.
  { clear -IH Ha. induction Ha as [|x y l r H1 _ IH']; [reflexivity|]. cbn [map_res]. apply bind_ok in H1 as [v [Hv H1]].
    rewrite (load_hval_more _ _ _ ls' _ _ IH Hv). cbn [bind]. injection H1 as <-. now rewrite IH'. }
  rewrite E'. exact H.
Qed.

Lemma load_is_obj fuel m a v : load fuel m (EO a) = Ok v -> exists c ns nss attrs, v = VObj c ns nss attrs.
Proof.
  destruct fuel as [|fuel]; cbn [load]; [discriminate|]. destruct (nth_error (m_objs m) a) as [o|]; [|discriminate].
  intro H. apply bind_ok in H as [d [_ H]]. apply bind_ok in H as [attrs [_ H]]. injection H as <-. eauto.
Qed.

Section Assign.
  Variable W : world.
  Variable ld : eref -> res value.
  Hypothesis ld_val : forall v, ld (EV v) = Ok v.
  Hypothesis ld_obj : forall a v, ld (EO a) = Ok v -> exists c ns nss attrs, v = VObj c ns nss attrs.
  Variable ls0 : list content.
  Variable kws : list (string * hval).
  Variable lk : list (string * value).
  Hypothesis kws_load : map_res (load_attr ld ls0) kws = Ok lk.
  Hypothesis kws_proper : forallb (fun kv => proper ls0 (snd kv)) kws = true.

  Lemma hget_load a : load_hval ld ls0 (hget kws a) = Ok (kwget lk a).
  Proof.
    unfold hget, kwget. clear kws_proper. revert lk kws_load. induction kws as [|[k h] l IH]; intros r H; cbn [map_res] in H.
    - injection H as <-. apply ld_val.
    - apply bind_ok in H as [y [Hy H]]. apply bind_ok in H as [r' [Hr H]]. injection H as <-. unfold load_attr in Hy. cbn [fst snd] in Hy.
      apply bind_ok in Hy as [v [Hv Hy]]. injection Hy as <-. cbn [sget]. destruct (String.eqb a k); [exact Hv|]. exact (IH _ Hr).
  Qed.

  Lemma load_see h v : load_hval ld ls0 h = Ok v -> load_aval ld (see ls0 h) = Ok v.
  Proof.
    destruct h as [e|a]; cbn [load_hval see load_aval]; [auto|]. unfold contents. destruct (nth_error ls0 a) as [c|] eqn:E; [|discriminate].
    now rewrite (nth_error_nth _ _ _ E).
  Qed.

  Lemma view_load a : load_aval ld (aget (see_all ls0 kws) a) = Ok (kwget lk a).
  Proof. rewrite aget_see. apply load_see, hget_load. Qed.

  Lemma view_proper a : proper_aval (aget (see_all ls0 kws) a) = true.
  Proof.
    rewrite aget_see. unfold hget. destruct (sget a kws) as [h|] eqn:E; [|reflexivity].
    assert (P := kws_proper). rewrite forallb_forall in P. specialize (P _ (sget_in _ _ _ E)). cbn [snd] in P. destruct h; exact P.
  Qed.

  Lemma assign_loads aks : forall ls more0, ls = ls0 ++ more0 ->
    match assign W ld kws (see_all ls0 kws) aks ls with
    | Ok (ls', r) => exists new, ls' = ls ++ new /\ exists out, map_res (mk_attr W lk) aks = Ok out /\ map_res (load_attr ld ls') r = Ok out
    | Err x => map_res (mk_attr W lk) aks = Err x
    end.
  Proof.
    induction aks as [|[a k] aks IH]; intros ls more0 Hls; cbn [assign map_res].
    - exists []. rewrite app_nil_r. split; [reflexivity|]. exists []. auto.
    - assert (S := stores_loads W ld ld_val ld_obj _ lk view_load view_proper a k).
      destruct (stores W ld (see_all ls0 kws) (a, k)) as [s|x]; cbn [bind]; [|now rewrite S].
      destruct S as [v [Hm Hv]]. rewrite Hm. cbn [bind].
      destruct (match s with Same => (ls, hget kws a) | Elem e => (ls, HE e) | Fresh c => (ls ++ [c], HL (length ls)) end) as [ls1 h] eqn:E1.
      assert (H1 : exists n1, ls1 = ls ++ n1 /\ load_hval ld ls1 h = Ok v).
      { destruct s as [|e|c]; injection E1 as <- <-.
        - exists []. rewrite app_nil_r. split; [reflexivity|]. subst v ls. eapply load_hval_more; [eauto|]. apply hget_load.
        - exists []. rewrite app_nil_r. split; [reflexivity|]. subst e. apply ld_val.
        - exists [c]. split; [reflexivity|]. cbn [load_hval]. rewrite nth_error_app2, Nat.sub_diag by lia. exact Hv. }
      destruct H1 as [n1 [-> Hh]].
      specialize (IH (ls ++ n1) (more0 ++ n1)). rewrite Hls, <- app_assoc in IH. specialize (IH eq_refl). rewrite Hls, <- app_assoc in Hh |- *.
      destruct (assign W ld kws (see_all ls0 kws) aks (ls0 ++ more0 ++ n1)) as [[ls2 r]|x]; cbn [bind]; [|now rewrite IH].
      destruct IH as [new [-> [out [I1 I2]]]]. rewrite I1. cbn [bind]. exists (n1 ++ new). split; [now rewrite <- !app_assoc|].
      exists ((a, v) :: out). split; [reflexivity|]. cbn [map_res]. unfold load_attr at 1. cbn [fst snd].
      rewrite (load_hval_more ld ld _ new _ _ (fun _ _ H => H) Hh). cbn [bind]. now rewrite I2.
  Qed.
End Assign.

(** The object a constructor leaves in memory is the tree [make] returns for
    the trees of its arguments; if one raises, so does the other. *)
Theorem new_obj_loads W fuel m c ns nss kws lk :
  (forall a, In a (held_attrs kws) -> (a < length (m_lists m))%nat) ->
  map_res (load_attr (load fuel m) (m_lists m)) kws = Ok lk ->
  forallb (fun kv => proper (m_lists m) (snd kv)) kws = true ->
  match new_obj W fuel m c ns nss kws with
  | Ok m' => exists v, load (S fuel) m' (EO (length (m_objs m))) = Ok v /\ make W c ns nss lk = Ok v
  | Err x => make W c ns nss lk = Err x
  end.
Proof.
  intros Hb Hl Hp. unfold new_obj, make, construct. destruct (class_of W c) as [ci|] eqn:Ec; [|reflexivity]. cbv zeta.
  assert (Hx : map_res (load_attr (load fuel m) (m_lists m)) (extra_args ci kws) = Ok (extras_of ci lk)).
  { clear -Hl. unfold extra_args, extras_of. revert lk Hl. induction kws as [|[k h] l IH]; intros r H; cbn [map_res] in H.
    - injection H as <-. reflexivity.
    - apply bind_ok in H as [y [Hy H]]. apply bind_ok in H as [r' [Hr H]]. injection H as <-. unfold load_attr in Hy. cbn [fst snd] in Hy.
      apply bind_ok in Hy as [v [Hv Hy]]. injection Hy as <-. cbn [filter fst]. destruct (negb (mem k (ci_params ci))); [|exact (IH _ Hr)].
      cbn [map_res]. unfold load_attr at 1. cbn [fst snd]. rewrite Hv. cbn [bind]. now rewrite (IH _ Hr). }
  assert (Hn : nilb (extras_of ci lk) = nilb (extra_args ci kws)).
  { apply map_res_ok in Hx. destruct Hx; reflexivity. }
  rewrite Hn. destruct (negb (ci_kwargs ci) && negb (nilb (extra_args ci kws))); [reflexivity|].
  rewrite (see_look _ _ Hb). cbn [bind].
  assert (V : forall v, load fuel m (EV v) = Ok v) by (destruct fuel; reflexivity).
  assert (A1 := assign_loads W _ V (load_is_obj fuel m) (m_lists m) kws lk Hl Hp (ci_pre ci) (m_lists m) [] (eq_sym (app_nil_r _))).
  destruct (assign W (load fuel m) kws (see_all (m_lists m) kws) (ci_pre ci) (m_lists m)) as [[ls1 pre]|x]; cbn [bind]; [|now rewrite A1].
  destruct A1 as [n1 [-> [o1 [E1 L1]]]]. rewrite E1. cbn [bind].
  assert (A2 := assign_loads W _ V (load_is_obj fuel m) (m_lists m) kws lk Hl Hp (ci_post ci) (m_lists m ++ n1) n1 eq_refl).
  destruct (assign W (load fuel m) kws (see_all (m_lists m) kws) (ci_post ci) (m_lists m ++ n1)) as [[ls2 post]|x]; cbn [bind]; [|now rewrite A2].
  destruct A2 as [n2 [-> [o2 [E2 L2]]]]. rewrite E2. cbn [bind]. eexists. split; [|reflexivity].
  cbn [load m_objs]. rewrite nth_error_app2, Nat.sub_diag by lia. cbn [nth_error o_nss o_attrs o_class o_ns m_lists].
  unfold dict_at. rewrite nth_error_app2, Nat.sub_diag by lia. cbn [nth_error bind].
  set (o := mkO _ _ _ _). rewrite <- !app_assoc. set (new := n1 ++ n2 ++ [LDict (merge_ns nss)]).
  set (m' := mkM (m_lists m ++ new) _ _ _).
  assert (M : forall e v, load fuel m e = Ok v -> load fuel m' e = Ok v) by (intros e v H; exact (load_more m new [o] _ _ fuel e v H)).
  match goal with |- context[map_res ?f (pre ++ extra_args ci kws ++ post)] => assert (G : forall l out ls more, map_res (load_attr (load fuel m) ls) l = Ok out -> ls ++ more = m_lists m ++ new -> map_res f l = Ok out) end.
  { intros l out ls more H Hm. apply map_res_ok in H. induction H as [|x y l r H1 _ IH]; [reflexivity|]. cbn [map_res].
    unfold load_attr in H1. apply bind_ok in H1 as [v [Hv H1]]. rewrite <- Hm, (load_hval_more _ _ _ more _ _ M Hv). cbn [bind]. injection H1 as <-. rewrite Hm, IH. reflexivity. }
  rewrite !map_res_app.
  rewrite (G pre o1 _ (n2 ++ [LDict (merge_ns nss)]) L1) by (unfold new; now rewrite <- app_assoc). cbn [bind].
  rewrite (G _ _ _ new Hx) by reflexivity. cbn [bind].
  rewrite (G post o2 _ [LDict (merge_ns nss)] L2) by (unfold new; now rewrite <- !app_assoc). reflexivity.
Qed.
