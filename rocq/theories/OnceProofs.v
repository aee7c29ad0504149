(** * Proofs for C71. *)
From Coq Require Import String List NArith ZArith Bool Lia.
From Verif Require Import Ustr UstrProofs Res PyInt PyFloat PyDate Elem Value Geom Codec Spec EmitProofs ItemProofs RoundTrip SizeSpec OnceSpec.
Import ListNotations.
Local Open Scope string_scope.
Local Open Scope list_scope.

Lemma ok_inj {A} (x y : A) : Ok x = Ok y -> x = y.
Proof. intro H. now injection H. Qed.

(** ** Names *)

Lemma no_brace s : no_char 125 s = true -> existsb (N.eqb 125) s = false.
Proof. unfold no_char. induction s as [|c s IH]; [reflexivity|]. cbn [forallb existsb]. intro H. apply andb_prop in H as [H1 H2]. apply negb_true_iff in H1. rewrite N.eqb_sym, H1. now apply IH. Qed.
Lemma local_plain s : no_char 125 s = true -> local s = s.
Proof. intro H. apply no_brace in H. destruct s as [|c s]; [reflexivity|]. cbn [local]. now rewrite H. Qed.
Lemma local_behind a s : no_char 125 s = true -> local (a ++ 125%N :: s) = s.
Proof.
  intro H. induction a as [|c a IH].
  - cbn [app local existsb]. rewrite N.eqb_refl. cbn [orb]. now apply local_plain.
  - cbn [app local]. assert (E : existsb (N.eqb 125) (c :: a ++ 125%N :: s) = true); [|now rewrite E].
    cbn [existsb]. rewrite existsb_app. cbn [existsb]. rewrite N.eqb_refl. now rewrite !orb_true_r.
Qed.
Lemma local_name ns n : good_ns ns = true -> good_name n = true -> local (ns ++ n) = n.
Proof.
  intros H N. unfold good_name in N. apply andb_prop in N as [_ N]. apply good_ns_inv in H as [->|[b [-> _]]]; [now apply local_plain|].
  replace ((123%N :: b ++ [125%N]) ++ n) with ((123%N :: b) ++ 125%N :: n); [now apply local_behind|]. cbn. now rewrite <- app_assoc.
Qed.

(** ** Sums *)

Lemma sum_keyed {A} (w : A -> nat) (keys : list string) (attrs : list (string * A)) : NoDup keys -> NoDup (map fst attrs) ->
  (forall a x, In (a, x) attrs -> w x = 0 \/ In a keys) ->
  list_sum (map (fun k => match sget k attrs with Some x => w x | None => 0 end) keys) = list_sum (map (fun ax => w (snd ax)) attrs).
Proof.
  intros Nk. induction attrs as [|[a x] r IH]; intros Na H.
  - cbn [map sget]. induction keys as [|k ks IHk]; [reflexivity|]. inversion Nk; subst. now apply IHk.
  - inversion Na as [|? ? N1 N2]; subst. cbn [map fst snd] in *. change (list_sum (w x :: ?l)) with (w x + list_sum l). rewrite <- (IH N2) by (intros b y Hy; apply H; now right).
    assert (E : forall ks, NoDup ks -> list_sum (map (fun k => match sget k ((a, x) :: r) with Some y => w y | None => 0 end) ks) =
      (if mem a ks then w x else 0) + list_sum (map (fun k => match sget k r with Some y => w y | None => 0 end) ks)).
    { induction ks as [|k ks IHk]; intro Nd; [reflexivity|]. inversion Nd as [|? ? M1 M2]; subst. cbn [map]. change (list_sum (?u :: ?l)) with (u + list_sum l). rewrite (IHk M2). unfold mem. cbn [existsb sget]. fold (mem a ks).
      destruct (String.eqb_spec k a) as [->|Nka].
      - rewrite String.eqb_refl. cbn [orb]. assert (mem a ks = false) as -> by (destruct (mem a ks) eqn:M; [|reflexivity]; apply EmitProofs.mem_In in M; contradiction).
        rewrite (proj2 (EmitProofs.sget_None a r) N1). lia.
      - destruct (String.eqb_spec a k); [congruence|]. cbn [orb]. lia. }
    rewrite (E keys Nk). destruct (mem a keys) eqn:M; [reflexivity|]. destruct (H a x (or_introl eq_refl)) as [->|Hk]; [reflexivity|]. apply EmitProofs.mem_In in Hk. congruence.
Qed.

Lemma sum_zero {A} (w : A -> nat) l : (forall x, In x l -> w x = 0) -> list_sum (map w l) = 0.
Proof. induction l as [|a l IH]; intro H; [reflexivity|]. cbn [map]. change (w a + list_sum (map w l) = 0). rewrite (H a (or_introl eq_refl)), IH; [reflexivity|]. intros x Hx. apply H. now right. Qed.
Lemma sum_app l m : list_sum (l ++ m) = list_sum l + list_sum m.
Proof. apply list_sum_app. Qed.
Lemma sum_concat {A} (w : A -> nat) (ls : list (list A)) : list_sum (map w (concat ls)) = list_sum (map (fun l => list_sum (map w l)) ls).
Proof. induction ls as [|l ls IH]; [reflexivity|]. cbn [concat map]. rewrite map_app, sum_app, IH. reflexivity. Qed.

Lemma sum_cons {A} (w : A -> nat) a l : list_sum (map w (a :: l)) = w a + list_sum (map w l).
Proof. reflexivity. Qed.

Section Write.
  Variable W : world.
  Variable h : ustr -> nat.
  Hypothesis Hh : forall n, In n (text_names W) -> h (u n) = 0.
  Variables (prec : option nat) (vb : verbosity).
  Notation wt := (elements (fun t => h (local t))).
  Notation wo := (kept W (fun c => h (u (tag_of W c)))).

  Definition part (x : value) : nat := match x with VList _ => wo x | _ => if is_true W x then wo x else 0 end.
  Definition once (x : value) : Prop := forall e, etree W prec vb x = Ok e -> wt e = wo x.
  Definition goal (x : value) : Prop := once x /\ match x with VList l => Forall once l | _ => True end.

  Lemma objs_once l ks : Forall once l -> objs_kids W (map (fun y => (y, etree W prec vb y)) l) = Ok ks -> list_sum (map wt ks) = wo (VList l).
  Proof.
    intro H. revert ks. induction H as [|y l Hy _ IH]; intros ks E; cbn [map objs_kids] in E; [apply ok_inj in E; subst; reflexivity|].
    cbn [kept map]. change (list_sum (?a :: ?r)) with (a + list_sum r). unfold is_true at 1. destruct (py_bool W y) as [[|]|]; cbn [bind] in E; [|exact (IH _ E)|discriminate].
    apply bind_ok in E as [k [Hk E]]. apply bind_ok in E as [r [Hr E]]. apply ok_inj in E. subst ks. rewrite sum_cons, (Hy _ Hk), (IH _ Hr). reflexivity.
  Qed.

  Section Node.
    Variables (c : string) (ci : class_info) (ns : ustr) (nss : nss_t) (attrs : list (string * value)).
    Hypothesis Hc : class_of W c = Some ci.
    Hypothesis HF : class_facts W ci (items_of W c).
    Hypothesis Ht : forallb (attr_typed W ci (items_of W c)) attrs = true.
    Hypothesis Hns : good_ns ns = true.
    Hypothesis Hnss : forallb (fun kv : string * ustr => good_ns (snd kv)) nss = true.

    Lemma get_good id : good_ns (ns_get nss id) = true.
    Proof. unfold ns_get. destruct (sget id nss) as [s|] eqn:E; [|reflexivity]. rewrite forallb_forall in Hnss. exact (Hnss _ (sget_In _ _ _ E)). Qed.
    Lemma enum_good k m : good_ns (enum_ns W ns nss k m) = true.
    Proof. unfold enum_ns. destruct (sget k (w_enums W)) as [en|]; [|exact Hns]. destruct (uget m en) as [[id|]|]; auto using get_good. Qed.

    Lemma text_weight it n t : In it (items_of W c) -> match it_set it with SText | SBool | SInt | SFloat | SEnum | SDate | SDates | SCoordList => True | _ => False end ->
      good_ns n = true -> wt (text_elem (n ++ u (it_node it)) t) = 0.
    Proof.
      intros Hin Hs Hn. unfold text_elem. cbn [elements map]. assert (I := cf_items _ _ _ HF it Hin). unfold item_ok in I. rewrite !andb_true_iff in I. destruct I as [[[_ I] _] _]. cbn [forallb] in I. apply andb_prop in I as [I _].
      rewrite (local_name n _ Hn I), Hh; [reflexivity|]. unfold text_names. apply in_concat. eexists. split; [apply in_map; exact (sget_In _ _ _ Hc)|]. cbn [fst]. apply in_concat. eexists. split; [apply in_map; exact Hin|].
      destruct (it_set it); try contradiction; now left.
    Qed.

    Lemma texts_weight it l ks : In it (items_of W c) -> match it_set it with SText | SBool | SInt | SFloat | SEnum | SDate | SDates | SCoordList => True | _ => False end ->
      (forall (r : res (ustr * ustr)) (q : ustr * ustr), In r l -> r = Ok q -> exists n, good_ns n = true /\ fst q = n ++ u (it_node it)) -> text_kids l = Ok ks -> list_sum (map wt ks) = 0.
    Proof.
      intros Hin Hs. unfold text_kids. revert ks. induction l as [|r l IH]; intros ks H E; cbn [map_res] in E; [apply ok_inj in E; now subst|].
      apply bind_ok in E as [k [Hk E]]. apply bind_ok in E as [ks' [Hks E]]. apply ok_inj in E. subst ks. apply bind_ok in Hk as [q [Hq Hk]]. apply ok_inj in Hk. subst k.
      destruct (H r q (or_introl eq_refl) Hq) as [n [Hn Et]]. rewrite sum_cons, Et, (text_weight it n _ Hin Hs Hn), (IH ks'); auto. intros r' q' Hr'. apply H. now right.
    Qed.

    Definition held (it : item) : nat := match sget (it_attr it) attrs with Some x => part x | None => 0 end.

    Lemma held_typed it x : In it (items_of W c) -> sget (it_attr it) attrs = Some x -> item_typed W it x = true.
    Proof.
      intros Hin Q. assert (T := attr_facts W ci _ attrs Ht _ _ Q). unfold attr_typed in T. rewrite (find_item_NoDup _ _ (cf_attrs _ _ _ HF) Hin) in T. now apply andb_prop in T as [T _].
    Qed.

    Lemma part_flat x : match x with VObj _ _ _ _ | VList _ => False | _ => True end -> part x = 0.
    Proof. destruct x; try contradiction; intros _; unfold part; cbn [kept]; now destruct (is_true W _). Qed.

    Lemma held_flat it : In it (items_of W c) -> match it_set it with SObj | SObjs => False | _ => True end -> held it = 0.
    Proof.
      intros Hin Hs. unfold held. destruct (sget (it_attr it) attrs) as [x|] eqn:Q; [|reflexivity]. apply part_flat. assert (T := held_typed it x Hin Q). unfold item_typed in T. destruct (it_set it); try contradiction; destruct x; try exact I; discriminate T.
    Qed.

    Lemma emit_once it m : In it (items_of W c) -> (forall x, sget (it_attr it) attrs = Some x -> goal x) ->
      emit W prec vb ci ns nss attrs (ws_of W prec vb attrs) it = Ok m -> list_sum (map wt (m_kids m)) = held it.
    Proof.
      intros Hin Hk E. assert (FL := held_flat it Hin). assert (TW := text_weight it). assert (TS := fun l ks => texts_weight it l ks Hin). unfold emit in E.
      destruct (it_set it) eqn:Es; try specialize (FL I).
      all: try (rewrite FL; destruct (get_value vb _ _) as [ |b'|[z|f]|s|c' v|k|c'|b' l|l|l|l|c' n ss at_]; try discriminate E;
        repeat match type of E with
        | (let! _ := _ in _) = Ok _ => apply bind_ok in E as [? [? E]]
        | Ok (if ?b then _ else _) = Ok _ => destruct b
        end; apply ok_inj in E; subst m; try reflexivity;
        try (cbn [em_kid m_kids]; rewrite sum_cons, TW; auto using enum_good, get_good; apply get_good)).
      - eapply TS; [exact I| |eassumption]. intros r q Hr Hq. apply in_map_iff in Hr as [o [<- _]]. apply ok_inj in Hq. subst q. destruct o; cbn [fst]; eexists; split; try reflexivity; [apply get_good|exact Hns].
      - eapply TS; [exact I| |eassumption]. intros r q Hr Hq. apply in_map_iff in Hr as [o [<- _]]. apply bind_ok in Hq as [t [_ Hq]]. apply ok_inj in Hq. subst q. exists ns. now split.
      - rewrite FL. destruct (obj_attr ci attrs (it_attr it)); try discriminate E; [apply ok_inj in E; now subst|]. destruct (nilb l); [apply ok_inj in E; now subst|]. apply bind_ok in E as [t [_ E]]. apply ok_inj in E. now subst.
      - unfold held. rewrite sget_ws_of in E. unfold obj_attr in E. destruct (sget (it_attr it) attrs) as [x|] eqn:Q.
        + assert (T := held_typed it x Hin Q). unfold item_typed in T. rewrite Es in T. unfold part, is_true. destruct x; try discriminate T; [cbn in E; apply ok_inj in E; now subst|].
          destruct (py_bool W _) as [[|]|]; cbn [bind] in E; [|apply ok_inj in E; now subst|discriminate]. unfold w_attr in E. apply bind_ok in E as [k [Hk1 E]]. apply ok_inj in E. subst m. cbn [em_kids m_kids]. rewrite sum_cons. cbn [map list_sum fold_right]. rewrite Nat.add_0_r. exact (proj1 (Hk _ eq_refl) _ Hk1).
        + apply bind_ok in E as [b [_ E]]. destruct b; [discriminate|]. apply ok_inj in E. now subst.
      - unfold held. rewrite sget_ws_of in E. destruct (sget (it_attr it) attrs) as [x|] eqn:Q; [|apply ok_inj in E; now subst].
        assert (T := held_typed it x Hin Q). unfold item_typed in T. rewrite Es in T. unfold w_attr in E. destruct x; try discriminate T; [apply ok_inj in E; now subst|].
        apply bind_ok in E as [ks [Hks E]]. apply ok_inj in E. subst m. cbn [em_kids m_kids part]. exact (objs_once _ _ (proj2 (Hk _ eq_refl)) Hks).
    Qed.

    Lemma emits_once its ms : incl its (items_of W c) -> (forall a x, sget a attrs = Some x -> goal x) ->
      map_res (emit W prec vb ci ns nss attrs (ws_of W prec vb attrs)) its = Ok ms -> list_sum (map wt (concat (map m_kids ms))) = list_sum (map held its).
    Proof.
      revert ms. induction its as [|j its IH]; intros ms I Hk E; cbn [map_res] in *; [apply ok_inj in E; now subst|].
      apply bind_ok in E as [m [Hm E]]. apply bind_ok in E as [r [Hr E]]. apply ok_inj in E. subst ms. cbn [map concat]. rewrite map_app, sum_app. change (list_sum (held j :: map held its)) with (held j + list_sum (map held its)).
      rewrite (emit_once j m); [|apply I; now left|intros x Hx; exact (Hk _ _ Hx)|exact Hm]. rewrite (IH r); auto. intros i Hi. apply I. now right.
    Qed.

    Lemma all_held : NoDup (map fst attrs) -> list_sum (map held (items_of W c)) = list_sum (map (fun ax => part (snd ax)) attrs).
    Proof.
      intro Nd. rewrite <- (sum_keyed part (map it_attr (items_of W c)) attrs (cf_attrs _ _ _ HF) Nd); [now rewrite map_map|].
      intros a x Hin. rewrite forallb_forall in Ht. specialize (Ht _ Hin). unfold attr_typed in Ht. apply andb_prop in Ht as [T _]. destruct (find_item a (items_of W c)) as [it|] eqn:Ef.
      - right. destruct (find_item_In _ _ _ Ef) as [H1 <-]. now apply in_map.
      - left. apply part_flat. destruct x; try exact I; discriminate T.
    Qed.
  End Node.

  Hypothesis HW : world_ok W = true.

  Lemma kept_obj c ns nss attrs : wo (VObj c ns nss attrs) = h (u (tag_of W c)) + list_sum (map (fun ax => part (snd ax)) attrs).
  Proof. cbn [kept]. f_equal. f_equal. apply map_ext. intros [a x]. reflexivity. Qed.

  Theorem written_once v : vall (typed_node W) v = true -> good_spaces v = true -> goal v.
  Proof.
    unfold good_spaces. induction v as [ |b|n|s|c w|k|c|b l|l|l|l IH|c ns nss attrs IH] using value_ind'; intros Ht Hg; try (split; [intros e H; discriminate H|exact I]).
    - split; [intros e H; discriminate H|]. cbn [vall] in Ht, Hg. rewrite forallb_forall in Ht, Hg. apply Forall_forall. intros y Hy. rewrite Forall_forall in IH. exact (proj1 (IH y Hy (Ht y Hy) (Hg y Hy))).
    - split; [|exact I]. cbn [vall] in Ht, Hg. apply andb_prop in Ht as [Hn Ht]. apply andb_prop in Hg as [Gn Hg]. apply andb_prop in Gn as [G1 G2]. rewrite forallb_forall in Ht, Hg. rewrite Forall_forall in IH.
      assert (Hk : forall a x, sget a attrs = Some x -> goal x).
      { intros a x Hx. apply sget_In in Hx. apply (IH (a, x) Hx); [exact (Ht (a, x) Hx)|exact (Hg (a, x) Hx)]. }
      unfold typed_node in Hn. intros e E. rewrite etree_obj in E. unfold write_with in E. rewrite kept_obj. unfold tag_of. destruct (class_of W c) as [ci|] eqn:Hc; [|discriminate]. apply andb_prop in Hn as [Sh Hn]. destruct (shape_inv _ _ Sh) as [_ [_ [Nd _]]].
      assert (F := world_class _ _ _ HW Hc : class_facts W ci (items_of W c)). assert (EM := emits_once c ci ns nss attrs Hc F Hn G1 G2 (items_of W c)). rewrite <- (all_held c ci attrs F Hn Nd).
      assert (L : local (ns ++ u (ci_tag ci)) = u (ci_tag ci)) by (apply local_name; [exact G1|exact (cf_tag _ _ _ F)]).
      destruct (ci_root ci) eqn:Hr.
      + assert (R := cf_root _ _ _ F). unfold root_ok in R. rewrite Hr in R. destruct (items_of W c) as [|it [|]] eqn:Ei; try discriminate R. apply andb_prop in R as [Ra Rs]. apply seqb_eq in Ra.
        assert (Es : it_set it = SObjs) by (destruct (it_set it); try discriminate Rs; reflexivity).
        rewrite set_element_emit in E. apply bind_ok in E as [m [Hm E]]. apply ok_inj in E. subst e.
        assert (Hm' : emit W prec vb ci ns nss attrs (ws_of W prec vb attrs) it = Ok m) by (unfold emit in *; rewrite Es, Ra; exact Hm).
        specialize (EM [m] (fun i H => H) Hk). cbn [map_res] in EM. rewrite Hm' in EM. specialize (EM eq_refl). cbn [map concat] in EM |- *. rewrite app_nil_r in EM. rewrite <- EM.
        unfold root_elem. destruct (uempty ns); cbn; now rewrite L.
      + rewrite set_elements_emit in E. apply bind_ok in E as [ms [Hms E]]. apply ok_inj in E. subst e. specialize (EM ms (fun i H => H) Hk Hms). rewrite <- EM.
        assert (K := fold_kids ms (new_elem (ns ++ u (ci_tag ci)))). cbn [new_elem e_kids app] in K. rewrite <- K. clear K. assert (T := fold_tag ms (new_elem (ns ++ u (ci_tag ci)))). destruct (fold_left _ ms _) as [t a x ks]. cbn [new_elem e_tag e_kids elements] in *. subst t. now rewrite L.
  Qed.
End Write.

(** ** Objects kept *)

Lemma sum_mono {A} (w w' : A -> nat) l : (forall x, In x l -> w x <= w' x) -> list_sum (map w l) <= list_sum (map w' l).
Proof. induction l as [|a l IH]; intro H; [apply le_n|]. cbn [map]. change (w a + list_sum (map w l) <= w' a + list_sum (map w' l)). assert (H1 := H a (or_introl eq_refl)). assert (H2 := IH (fun x Hx => H x (or_intror Hx))). lia. Qed.
Lemma sum_same {A} (w w' : A -> nat) l : (forall x, In x l -> w x = w' x) -> list_sum (map w l) = list_sum (map w' l).
Proof. intro H. f_equal. now apply map_ext_in. Qed.

Lemma kept_some W f v : kept W f v <= objects (fun c _ => f c) v.
Proof.
  induction v as [ |b|n|s|c w|k|c|b l|l|l|l IH|c ns nss attrs IH] using value_ind'; try apply le_n.
  - cbn [kept objects]. rewrite Forall_forall in IH. apply sum_mono. intros y Hy. specialize (IH y Hy). destruct (is_true W y); lia.
  - cbn [kept objects]. apply Nat.add_le_mono_l. rewrite Forall_forall in IH. apply sum_mono. intros [a x] Hx. specialize (IH _ Hx). cbn [snd] in IH. destruct x; try (destruct (is_true W _); lia). exact IH.
Qed.

Lemma kept_all W f v : all_true W v = true -> kept W f v = objects (fun c _ => f c) v.
Proof.
  induction v as [ |b|n|s|c w|k|c|b l|l|l|l IH|c ns nss attrs IH] using value_ind'; intro H; try reflexivity.
  - cbn [kept objects all_true] in *. rewrite forallb_forall in H. rewrite Forall_forall in IH. apply sum_same. intros y Hy. specialize (H y Hy). apply andb_prop in H as [-> H]. now apply IH.
  - cbn [kept objects all_true] in *. f_equal. rewrite forallb_forall in H. rewrite Forall_forall in IH. apply sum_same. intros [a x] Hx. specialize (H _ Hx). specialize (IH _ Hx). cbn [snd] in IH. cbn beta iota in H.
    destruct x; try (now destruct (is_true W _)); [exact (IH H)|]. apply andb_prop in H as [-> H]. exact (IH H).
Qed.

Lemma kept_ext W f g v : (forall c, f c = g c) -> kept W f v = kept W g v.
Proof.
  intro H. induction v as [ |b|n|s|c w|k|c|b l|l|l|l IH|c ns nss attrs IH] using value_ind'; try reflexivity.
  - cbn [kept]. rewrite Forall_forall in IH. apply sum_same. intros y Hy. now rewrite (IH y Hy).
  - cbn [kept]. rewrite H. f_equal. rewrite Forall_forall in IH. apply sum_same. intros [a x] Hx. specialize (IH _ Hx). cbn [snd] in IH. now destruct x; rewrite ?IH.
Qed.
