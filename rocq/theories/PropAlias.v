(** * Objects have lists and dictionaries of their own: C58. *)
From Coq Require Import String List NArith ZArith Bool Lia PeanoNat.
From Verif Require Import Ustr UstrProofs Res PyFloat PyDate Elem Value Geom Codec Tables Api Alias AliasSpec AliasProofs AliasLoad Samples.
Import ListNotations.
Local Open Scope string_scope.
Local Open Scope list_scope.

Definition list_params (W : world) (c : string) : list string :=
  map it_attr (filter (fun it => match it_set it with SObjs => true | _ => false end) (items_of W c))
  ++ (if String.eqb c "gx.Track" then ["track_items"; "whens"; "coords"; "angles"] else []).

Definition copies_listsb (W : world) : bool :=
  forallb (fun cc => forallb (fun a =>
    mem a (ci_params (snd cc)) && forallb (fun ak => if String.eqb (fst ak) a then copies (snd ak) else true) (ci_pre (snd cc) ++ ci_post (snd cc)))
    (list_params W (fst cc))) (w_classes W).

Lemma ok_inj {A} (x y : A) : Ok x = Ok y -> x = y.
Proof. intro H. now injection H. Qed.

Lemma mem_In a l : mem a l = true -> In a l.
Proof. unfold mem. rewrite existsb_exists. intros [x [Hx E]]. apply String.eqb_eq in E. now subst. Qed.

Lemma copies_lists_ok W : copies_listsb W = true -> copies_lists W.
Proof.
  intros H c ci a Hc Hp. unfold copies_listsb in H. rewrite forallb_forall in H.
  specialize (H _ (sget_in _ _ _ Hc)). cbn [fst snd] in H. rewrite forallb_forall in H.
  assert (Ha : In a (list_params W c)).
  { unfold list_param in Hp. unfold list_params. apply in_or_app. apply orb_true_iff in Hp as [Hp|Hp].
    - left. apply existsb_exists in Hp as [it [Hi E]]. apply andb_true_iff in E as [E1 E2]. apply String.eqb_eq in E1. subst a.
      apply in_map, filter_In. auto.
    - right. apply andb_true_iff in Hp as [E1 E2]. rewrite E1. now apply mem_In. }
  specialize (H a Ha). apply andb_true_iff in H as [H1 H2]. split; [exact H1|]. intros k Hk. rewrite forallb_forall in H2.
  specialize (H2 (a, k)). cbn [fst snd] in H2. rewrite String.eqb_refl in H2. apply H2, in_or_app. exact Hk.
Qed.

Lemma fastkml_copies arrow : copies_lists (fastkml arrow).
Proof. apply copies_lists_ok. vm_compute. reflexivity. Qed.

(** C58.  For every history of constructor calls and changes of lists,
    dictionaries and attributes in which lists are given to constructors for
    list parameters only: what is seen in memory is what is seen when lists
    and dictionaries are values that belong to one variable or attribute.
    So no list or dictionary is shared between the caller and an object or
    between two objects.  (Partial: coordinates, see below; a list read from
    or assigned to an attribute by the caller is shared, as always in Python.) *)
Theorem C58_lists_are_values_partial :
  forall arrow fuel ops,
  let W := fastkml arrow in
  forallb (fair W) ops = true ->
  match run W fuel empty_memory ops with
  | Ok m => a_run W fuel (mkAM [] [] []) ops = Ok (seen m) /\ (forall fuel' e, load fuel' m e = aload fuel' (seen m) e)
  | Err x => a_run W fuel (mkAM [] [] []) ops = Err x
  end.
Proof.
  intros arrow fuel ops W Hf. assert (H := every_run W fuel ops empty_memory (fastkml_copies arrow) separate_empty Hf).
  change (seen empty_memory) with (mkAM [] [] []) in H. destruct (run W fuel empty_memory ops) as [m|x]; [|exact H].
  destruct H as [Hs E]. split; [exact E|]. intros fuel' e. apply load_seen. exact (sep_in m Hs).
Qed.
Print Assumptions C58_lists_are_values_partial.

(** After such a history the caller can do with the lists and dictionaries in
    variables whatever they like: no object changes. *)
Theorem C58_callers_lists :
  forall arrow fuel ops m l c m' fuel' e,
  let W := fastkml arrow in
  forallb (fair W) ops = true -> run W fuel empty_memory ops = Ok m ->
  step W fuel m (OSetList l c) = Ok m' -> load fuel' m' e = load fuel' m e.
Proof.
  intros arrow fuel ops m l c m' fuel' e W Hf Hr Hs.
  assert (H := every_run W fuel ops empty_memory (fastkml_copies arrow) separate_empty Hf). rewrite Hr in H. destruct H as [Hm _].
  assert (S := every_step W fuel m (OSetList l c) (fastkml_copies arrow) Hm eq_refl). unfold step_seen in S. rewrite Hs in S. destruct S as [Hm' S].
  rewrite (load_seen fuel' m' (sep_in m' Hm')), (load_seen fuel' m (sep_in m Hm)).
  cbn [a_step] in S. apply bind_ok in S as [old [_ S]]. apply bind_ok in S as [new [_ S]]. apply ok_inj in S. rewrite <- S.
  assert (G : forall f e, aload f (mkAM (am_objs (seen m)) (put l new (am_lvars (seen m))) (am_evars (seen m))) e = aload f (seen m) e).
  { clear. induction f as [|f IH]; intros [v|i]; cbn [aload am_objs]; try reflexivity.
    destruct (nth_error (am_objs (seen m)) i) as [o|]; [|reflexivity]. destruct (as_dict (ao_nss o)); cbn [bind]; [|reflexivity].
    erewrite map_res_ext_in; [reflexivity|]. intros [k [x|[x|x|x]]] _; cbn [load_aval snd fst load_content]; try reflexivity; [now rewrite IH|].
    erewrite map_res_ext_in; [reflexivity|]. intros y _. apply IH. }
  apply G.
Qed.
Print Assumptions C58_callers_lists.

(** Changing a list or the name spaces of an object changes neither the lists
    of the caller nor what any other object has in its attributes. *)
Theorem C58_own_lists :
  forall arrow fuel ops m o a c d m',
  let W := fastkml arrow in
  forallb (fair W) ops = true -> run W fuel empty_memory ops = Ok m ->
  step W fuel m (OSetOwn o a c) = Ok m' \/ step W fuel m (OSetNss o d) = Ok m' ->
  map (contents (m_lists m')) (m_lvars m') = map (contents (m_lists m)) (m_lvars m) /\
  exists i, nth_error (m_evars m) o = Some (EO i) /\
  forall j, j <> i -> nth_error (am_objs (seen m')) j = nth_error (am_objs (seen m)) j.
Proof.
  intros arrow fuel ops m o a c d m' W Hf Hr Hs.
  assert (H := every_run W fuel ops empty_memory (fastkml_copies arrow) separate_empty Hf). rewrite Hr in H. destruct H as [Hm _].
  assert (N : forall (i j : nat) (x : acell) l, j <> i -> nth_error (put i x l) j = nth_error l j).
  { clear. intros i j x l. revert i j. induction l as [|y l IH]; intros [|i] [|j] H; try reflexivity; cbn [put nth_error]; [congruence|]. apply IH. congruence. }
  assert (V : forall i, obj_var (am_evars (seen m)) o = Ok i -> nth_error (m_evars m) o = Some (EO i)).
  { intros i E. unfold obj_var in E. cbn [seen am_evars] in E. destruct (nth_error (m_evars m) o) as [[v|b]|]; try discriminate E. injection E as ->. reflexivity. }
  assert (P : exists i x, obj_var (am_evars (seen m)) o = Ok i /\ seen m' = a_put (seen m) i x).
  { destruct Hs as [Hs|Hs].
    - assert (S := every_step W fuel m (OSetOwn o a c) (fastkml_copies arrow) Hm eq_refl). unfold step_seen in S. rewrite Hs in S. destruct S as [_ S].
      cbn [a_step] in S. apply bind_ok in S as [i [E S]]. apply bind_ok in S as [x [_ S]].
      destruct (sget a (ao_attrs x)) as [[e|old]|]; try discriminate S. apply bind_ok in S as [new [_ S]]. apply ok_inj in S. eauto.
    - assert (S := every_step W fuel m (OSetNss o d) (fastkml_copies arrow) Hm eq_refl). unfold step_seen in S. rewrite Hs in S. destruct S as [_ S].
      cbn [a_step] in S. apply bind_ok in S as [i [E S]]. apply bind_ok in S as [x [_ S]]. apply ok_inj in S. eauto. }
  destruct P as [i [x [E P]]]. split.
  - change (am_lvars (seen m') = am_lvars (seen m)). now rewrite P.
  - exists i. split; [now apply V|]. intros j Hj. rewrite P. cbn [a_put am_objs]. now apply N.
Qed.
Print Assumptions C58_own_lists.

(** The object made is the one of the model on trees (the other properties). *)
Theorem C58_same_object :
  forall arrow fuel m c ns nss kws lk,
  let W := fastkml arrow in
  (forall a, In a (held_attrs kws) -> (a < length (m_lists m))%nat) ->
  map_res (load_attr (load fuel m) (m_lists m)) kws = Ok lk ->
  forallb (fun kv => proper (m_lists m) (snd kv)) kws = true ->
  match new_obj W fuel m c ns nss kws with
  | Ok m' => exists v, load (S fuel) m' (EO (length (m_objs m))) = Ok v /\ make W c ns nss lk = Ok v
  | Err x => make W c ns nss lk = Err x
  end.
Proof. intros arrow fuel m c ns nss kws lk W. apply new_obj_loads. Qed.
Print Assumptions C58_same_object.

(** Not so for coordinates: [Coordinates(coords=l)] keeps the list [l]
    (geometry.py:269), and a later change of [l] changes the object. *)
Theorem C58_coordinates_refuted :
  exists fuel ops m l c m' e,
  run W0 fuel empty_memory ops = Ok m /\ step W0 fuel m (OSetList l c) = Ok m' /\ load fuel m' e <> load fuel m e.
Proof.
  exists 9%nat, [ONewList (Plain (VCoords false [[NInt 1; NInt 2]])); ONewObj "geometry.Coordinates" None None [("coords", LVar 0)]].
  eexists. exists 0%nat, (Plain (VCoords false [[NInt 3; NInt 4]])). eexists. exists (EO 0).
  split; [vm_compute; reflexivity|]. split; [vm_compute; reflexivity|]. vm_compute. discriminate.
Qed.
Print Assumptions C58_coordinates_refuted.

(** One list for two containers, one dictionary for two objects; then
    everything is changed. *)
Definition shared : list op :=
  [ONewVal (VStr (u "A")); ONewList (Dict [("x", u "{y}")]);
   ONewObj "features.Placemark" None (Some 0%nat) [("name", AVar 0)];
   ONewObj "features.Placemark" None (Some 0%nat) [];
   ONewList (Objs [PVar 1]);
   ONewObj "containers.Folder" None None [("features", LVar 1)];
   ONewObj "containers.Document" None None [("features", LVar 1)];
   OSetList 1 (Objs []); OSetList 0 (Dict []);
   OSetOwn 3 "features" (Objs [PItem 0; PVar 2]); OPut 1 "name" 0; OSetNss 1 [];
   OItem 3 "features" 1; OGet 5 "name"].

Definition kids (r : res value) : option (list value) :=
  match r with Ok (VObj _ _ _ attrs) => match sget "features" attrs with Some (VList l) => Some l | _ => None end | _ => None end.
Definition space (r : res value) : nss_t := match r with Ok (VObj _ _ nss _) => nss | _ => [] end.

Example C58_example :
  forallb (fair W0) shared = true /\
  match run W0 9 empty_memory shared with
  | Ok m => option_map (@length _) (kids (load 9 m (EO 2))) = Some 2%nat /\ option_map (@length _) (kids (load 9 m (EO 3))) = Some 1%nat /\
            map (contents (m_lists m)) (m_lvars m) = [LDict []; LObjs []] /\
            space (load 9 m (EO 0)) = [] /\ sget "x" (space (load 9 m (EO 1))) = Some (u "{y}") /\ skipn 5 (m_evars m) = [EO 1; EV VNone]
  | Err _ => False
  end.
Proof.
  split; [vm_compute; reflexivity|]. destruct (run W0 9 empty_memory shared) as [m|x] eqn:E; vm_compute in E; [|discriminate E]. injection E as <-.
  split; [vm_compute; reflexivity|]. split; [vm_compute; reflexivity|]. split; [vm_compute; reflexivity|].
  split; [vm_compute; reflexivity|]. split; vm_compute; reflexivity.
Qed.

(** A track made from lists of dates and coordinates, as on trees. *)
Example C58_same_object_example :
  match new_obj W0 9 (mkM [LPlain (VDates [None]); LPlain (VCoords false [[NInt 1; NInt 2]])] [] [] []) "gx.Track" None [] [("whens", HL 0); ("coords", HL 1)] with
  | Ok m => load 10 m (EO 0) = make W0 "gx.Track" None [] [("whens", VDates [None]); ("coords", VCoords false [[NInt 1; NInt 2]])] /\ length (m_lists m) = 4%nat
  | Err _ => False
  end.
Proof. vm_compute. split; reflexivity. Qed.
