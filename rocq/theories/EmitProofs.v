(** * The writer as a concatenation of emissions. *)
From Coq Require Import String List NArith ZArith Bool Lia.
From Verif Require Import Ustr UstrProofs Res PyInt PyFloat PyDate PyDateProofs Elem Value Geom Codec Spec.
Import ListNotations.

(** ** Strings and lists *)

Lemma seqb_eq a b : String.eqb a b = true <-> a = b.
Proof. apply String.eqb_eq. Qed.

Lemma mem_In x l : mem x l = true <-> In x l.
Proof.
  unfold mem. rewrite existsb_exists. split.
  - intros [y [Hy E]]. apply seqb_eq in E. now subst.
  - intro H. exists x. split; [assumption|]. now apply seqb_eq.
Qed.

Lemma umem_In x l : umem x l = true <-> In x l.
Proof.
  unfold umem. rewrite existsb_exists. split.
  - intros [y [Hy E]]. apply ueqb_eq in E. now subst.
  - intro H. exists x. split; [assumption|]. now apply ueqb_eq.
Qed.

Lemma nodupb_NoDup {A} (eqb : A -> A -> bool) (He : forall a b, eqb a b = true <-> a = b) l :
  nodupb eqb l = true <-> NoDup l.
Proof.
  induction l as [|x l IH]; cbn.
  - split; [constructor|reflexivity].
  - rewrite andb_true_iff, IH, negb_true_iff. split.
    + intros [H1 H2]. constructor; [|assumption]. intro Hin.
      assert (existsb (eqb x) l = true) by (apply existsb_exists; exists x; split; [assumption|now apply He]).
      congruence.
    + intro H. inversion H as [|? ? Hn Hd]; subst. split; [|assumption].
      destruct (existsb (eqb x) l) eqn:E; [|reflexivity].
      apply existsb_exists in E as [y [Hy E]]. apply He in E. subst. contradiction.
Qed.

Lemma nodups_NoDup l : nodups l = true <-> NoDup l.
Proof. apply nodupb_NoDup. apply String.eqb_eq. Qed.

Lemma sget_In {A} k (l : list (string * A)) v : sget k l = Some v -> In (k, v) l.
Proof.
  induction l as [|[k' v'] l IH]; cbn; [discriminate|].
  destruct (String.eqb_spec k k') as [->|]; intro H; [injection H as ->; now left|right; auto].
Qed.

Lemma sget_NoDup {A} k (l : list (string * A)) v : NoDup (map fst l) -> In (k, v) l -> sget k l = Some v.
Proof.
  induction l as [|[k' v'] l IH]; cbn; [tauto|].
  intros Hn [H|H]; inversion Hn as [|? ? Hni Hnd]; subst.
  - injection H as -> ->. now rewrite String.eqb_refl.
  - destruct (String.eqb_spec k k') as [->|]; [|auto].
    exfalso. apply Hni. change k' with (fst (k', v)). now apply in_map.
Qed.

Lemma sget_None {A} k (l : list (string * A)) : sget k l = None <-> ~ In k (map fst l).
Proof.
  induction l as [|[k' v'] l IH]; cbn; [tauto|].
  destruct (String.eqb_spec k k') as [->|N].
  - split; [discriminate|]. intro H. exfalso. apply H. now left.
  - rewrite IH. split; intros H; [intros [E|E]; [now symmetry in E|auto]|]. intro; apply H; now right.
Qed.

Lemma sget_map {A B} (f : string -> A -> B) k l :
  sget k (map (fun av => match av with (a, x) => (a, f a x) end) l) =
  match sget k l with Some x => Some (f k x) | None => None end.
Proof.
  induction l as [|[k' v'] l IH]; cbn; [reflexivity|].
  destruct (String.eqb_spec k k') as [->|]; [reflexivity|apply IH].
Qed.

Lemma sset_fresh {A} k (v : A) l : ~ In k (map fst l) -> sset k v l = l ++ [(k, v)].
Proof.
  induction l as [|[k' v'] l IH]; cbn; [reflexivity|]. intro H.
  destruct (String.eqb_spec k k') as [->|]; [exfalso; apply H; now left|].
  rewrite IH; [reflexivity|]. intro; apply H; now right.
Qed.

Lemma sget_app {A} k (a b : list (string * A)) :
  sget k (a ++ b) = match sget k a with Some v => Some v | None => sget k b end.
Proof.
  induction a as [|[k' v'] a IH]; cbn; [reflexivity|].
  now destruct (String.eqb k k').
Qed.

Lemma uget_app {A} k (a b : list (ustr * A)) :
  uget k (a ++ b) = match uget k a with Some v => Some v | None => uget k b end.
Proof.
  induction a as [|[k' v'] a IH]; cbn; [reflexivity|].
  now destruct (ueqb k k').
Qed.

Lemma uset_fresh {A} k (v : A) l : uget k l = None -> uset k v l = l ++ [(k, v)].
Proof.
  induction l as [|[k' v'] l IH]; cbn; [reflexivity|].
  destruct (ueqb k k'); [discriminate|]. intro H. now rewrite IH.
Qed.

Lemma all2_eq {A} (eqb : A -> A -> bool) (He : forall a b, eqb a b = true -> a = b) l r :
  all2 eqb l r = true -> l = r.
Proof.
  revert r; induction l as [|x l IH]; destruct r as [|y r]; cbn; try discriminate; [reflexivity|].
  rewrite andb_true_iff. intros [H1 H2]. f_equal; auto.
Qed.

Lemma find_item_In a its it : find_item a its = Some it -> In it its /\ it_attr it = a.
Proof.
  induction its as [|i its IH]; cbn; [discriminate|].
  destruct (String.eqb_spec a (it_attr i)) as [->|]; intro H.
  - injection H as ->. split; [now left|reflexivity].
  - destruct (IH H). split; [now right|assumption].
Qed.

Lemma find_item_NoDup its it : NoDup (map it_attr its) -> In it its -> find_item (it_attr it) its = Some it.
Proof.
  induction its as [|i its IH]; cbn; [tauto|].
  intros Hn [->|H]; [now rewrite String.eqb_refl|].
  inversion Hn as [|? ? Hni Hnd]; subst.
  destruct (String.eqb_spec (it_attr it) (it_attr i)) as [E|]; [|auto].
  exfalso. apply Hni. rewrite <- E. now apply in_map.
Qed.

Lemma find_item_None a its : find_item a its = None <-> ~ In a (map it_attr its).
Proof.
  induction its as [|i its IH]; cbn; [tauto|].
  destruct (String.eqb_spec a (it_attr i)) as [->|N].
  - split; [discriminate|]. intro H. exfalso. apply H. now left.
  - rewrite IH. split; intros H; [intros [E|E]; [now symmetry in E|auto]|]. intro; apply H; now right.
Qed.

(** ** Emissions *)

Record em := mkEm { m_attr : list (ustr * ustr); m_text : option ustr; m_kids : list elem }.
Definition em0 := mkEm [] None [].
Definition em_kid (tag t : ustr) := mkEm [] None [text_elem tag (Some t)].
Definition em_kids (l : list elem) := mkEm [] None l.
Definition em_attr (k v : ustr) := mkEm [(k, v)] None [].
Definition em_text (t : ustr) := mkEm [] (Some t) [].

Definition apply_em (m : em) (e : elem) : elem :=
  let '(Elem t a x c) := e in
  Elem t (fold_left (fun acc kv => uset (fst kv) (snd kv) acc) (m_attr m) a)
    (match m_text m with Some y => Some y | None => x end) (c ++ m_kids m).

Fixpoint objs_kids (W : world) (l : list wkid) : res (list elem) :=
  match l with
  | [] => Ok []
  | (v, w) :: l' =>
      let! b := py_bool W v in
      if b then let! k := w in let! r := objs_kids W l' in Ok (k :: r)
      else objs_kids W l'
  end.

Definition text_kids (l : list (res (ustr * ustr))) : res (list elem) :=
  map_res (fun x => let! t := x in Ok (text_elem (fst t) (Some (snd t)))) l.

Lemma append_kid_app k e l : apply_em (em_kids l) (append_kid k e) = apply_em (em_kids (k :: l)) e.
Proof. destruct e. cbn. now rewrite <- app_assoc. Qed.

Lemma apply_em0 e : apply_em (em_kids []) e = e.
Proof. destruct e. cbn. now rewrite app_nil_r. Qed.

Lemma append_objs_em W l e : append_objs W l e = let! ks := objs_kids W l in Ok (apply_em (em_kids ks) e).
Proof.
  revert e; induction l as [|[v w] l IH]; intro e; cbn [append_objs objs_kids].
  - cbn. now rewrite apply_em0.
  - destruct (py_bool W v) as [[|]|]; cbn; [|apply IH|reflexivity].
    destruct w as [k|]; cbn; [|reflexivity]. rewrite IH.
    destruct (objs_kids W l); cbn; [|reflexivity]. now rewrite append_kid_app.
Qed.

Lemma append_texts_em l e : append_texts l e = let! ks := text_kids l in Ok (apply_em (em_kids ks) e).
Proof.
  revert e; induction l as [|x l IH]; intro e; cbn [append_texts].
  - cbn. now rewrite apply_em0.
  - unfold text_kids in *. cbn. destruct x as [t|]; cbn; [|reflexivity].
    rewrite IH. destruct (map_res _ l); cbn [bind]; [|reflexivity].
    unfold add_text. now rewrite append_kid_app.
Qed.

(** What one item contributes. *)
Definition emit (W : world) (prec : option nat) (vb : verbosity) (ci : class_info)
    (ns : ustr) (nss : nss_t) (attrs : list (string * value)) (ws : list (string * wattr))
    (it : item) : res em :=
  let v0 := obj_attr ci attrs (it_attr it) in
  let v := get_value vb v0 (it_default it) in
  let key := ns ++ u (it_node it) in
  let on_str (f : ustr -> em) :=
    match v with
    | VStr s => Ok (if uempty s then em0 else f s)
    | VNone => Ok em0
    | _ => Err ETypeError
    end in
  match it_set it with
  | SNodeText => on_str em_text
  | SText => on_str (em_kid key)
  | SAttrText => on_str (em_attr (u (it_node it)))
  | SBool => match v with
             | VNone => Ok em0
             | VBool b => Ok (em_kid key (u (if b then "1" else "0")))
             | VNum (NInt z) => let! t := str_of_int z in Ok (em_kid key t)
             | _ => Err ETypeError
             end
  | SInt | SFloat => match v with VNone => Ok em0 | _ => let! t := str_value v in Ok (em_kid key t) end
  | SAttrInt | SAttrFloat =>
      match v with VNone => Ok em0 | _ => let! t := str_value v in Ok (em_attr (u (it_node it)) t) end
  | SEnum => match v with
             | VNone => Ok em0
             | VEnum c m => Ok (em_kid (enum_ns W ns nss c m ++ u (it_node it)) m)
             | _ => Err EAttributeError
             end
  | SAttrEnum => match v with
                 | VNone => Ok em0
                 | VEnum c m => Ok (em_attr (u (it_node it)) m)
                 | _ => Err EAttributeError
                 end
  | SDate => match v with
             | VNone => Ok em0
             | VDate k => Ok (em_kid (date_ns nss ++ u (it_node it)) (kdt_str k))
             | _ => Err ETypeError
             end
  | SDates => match v with
              | VNone => Ok em0
              | VDates l =>
                  let! ks := text_kids (map (fun o => Ok (match o with
                    | Some k => (date_ns nss ++ u (it_node it), kdt_str k)
                    | None => (key, u "()")
                    end)) l) in Ok (em_kids ks)
              | _ => Err ETypeError
              end
  | SCoordList => match v with
                  | VNone => Ok em0
                  | VCoords _ l =>
                      let! ks := text_kids (map (fun c => let! t := join_nums (u " ") prec c in Ok (key, t)) l) in
                      Ok (em_kids ks)
                  | _ => Err ETypeError
                  end
  | SCoords => match v0 with
               | VNone => Ok em0
               | VCoords _ l => if nilb l then Ok em0
                                else let! t := coordinates_text prec l in Ok (em_text t)
               | _ => Err ETypeError
               end
  | SObj => let! b := py_bool W v0 in
            if b then
              match sget (it_attr it) ws with
              | Some (_, w, _) => let! k := w in Ok (em_kids [k])
              | None => Err EAttributeError
              end
            else Ok em0
  | SObjs => match sget (it_attr it) ws with
             | Some (VList _, _, l) => let! ks := objs_kids W l in Ok (em_kids ks)
             | Some (VNone, _, _) | None => Ok em0
             | _ => Err ETypeError
             end
  end.

Lemma apply_em0' e : apply_em em0 e = e.
Proof. apply apply_em0. Qed.
Lemma apply_kid tag t e : apply_em (em_kid tag t) e = add_text tag t e.
Proof. now destruct e. Qed.
Lemma apply_attr k v e : apply_em (em_attr k v) e = set_attr k v e.
Proof. destruct e; cbn. now rewrite app_nil_r. Qed.
Lemma apply_text t e : apply_em (em_text t) e = set_text (Some t) e.
Proof. destruct e; cbn. now rewrite app_nil_r. Qed.

Lemma set_element_emit W prec vb ci ns nss attrs ws it e :
  set_element W prec vb ci ns nss attrs ws it e =
  let! m := emit W prec vb ci ns nss attrs ws it in Ok (apply_em m e).
Proof.
  unfold set_element, emit. destruct (it_set it);
  try (destruct (get_value vb (obj_attr ci attrs (it_attr it)) (it_default it)) as [ |b|[z|f]|s|c v|k|c|b l|l|l|l|c n ss at_];
       cbn [bind str_value num_str]; rewrite ?apply_em0', ?apply_kid, ?apply_attr, ?apply_text; try reflexivity;
       try (destruct (uempty s); rewrite ?apply_em0', ?apply_kid, ?apply_attr, ?apply_text; reflexivity);
       try (destruct (str_of_int z); cbn [bind]; rewrite ?apply_kid, ?apply_attr; reflexivity); fail).
  - destruct (get_value vb (obj_attr ci attrs (it_attr it)) (it_default it)) as [ |b|[z|f]|s|c v|k|c|b l|l|l|l|c n ss at_]; cbn [bind]; rewrite ?apply_em0'; try reflexivity.
    rewrite append_texts_em. destruct (text_kids _); reflexivity.
  - destruct (get_value vb (obj_attr ci attrs (it_attr it)) (it_default it)) as [ |b|[z|f]|s|c v|k|c|b l|l|l|l|c n ss at_]; cbn [bind]; rewrite ?apply_em0'; try reflexivity.
    rewrite append_texts_em. destruct (text_kids _); reflexivity.
  - destruct (obj_attr ci attrs (it_attr it)) as [ |b|[z|f]|s|c v|k|c|b l|l|l|l|c n ss at_]; cbn [bind]; rewrite ?apply_em0'; try reflexivity.
    destruct (nilb l); cbn [bind]; rewrite ?apply_em0'; [reflexivity|].
    destruct (coordinates_text prec l); cbn [bind]; rewrite ?apply_text; reflexivity.
  - destruct (py_bool W _) as [[|]|]; cbn [bind]; rewrite ?apply_em0'; try reflexivity.
    destruct (sget (it_attr it) ws) as [[[? w] ?]|]; [|reflexivity].
    destruct w as [k|]; [|reflexivity]. cbn [bind]. now rewrite <- append_kid_app, apply_em0.
  - destruct (sget (it_attr it) ws) as [[[x w] l]|]; [|cbn; now rewrite apply_em0'].
    destruct x; cbn [bind]; rewrite ?apply_em0'; try reflexivity.
    rewrite append_objs_em. destruct (objs_kids W l); reflexivity.
Qed.

Lemma set_elements_emit W prec vb ci ns nss attrs ws its e :
  set_elements W prec vb ci ns nss attrs ws its e =
  let! ms := map_res (emit W prec vb ci ns nss attrs ws) its in
  Ok (fold_left (fun e m => apply_em m e) ms e).
Proof.
  revert e; induction its as [|it its IH]; intro e; cbn [set_elements map_res]; [reflexivity|].
  rewrite set_element_emit. destruct (emit _ _ _ _ _ _ _ _ it); cbn [bind]; [|reflexivity].
  rewrite IH. destruct (map_res _ its); reflexivity.
Qed.

Lemma fold_kids ms e : e_kids (fold_left (fun e m => apply_em m e) ms e) = e_kids e ++ concat (map m_kids ms).
Proof.
  revert e; induction ms as [|m ms IH]; intro e; cbn [fold_left concat map]; [now rewrite app_nil_r|].
  rewrite IH. destruct e; cbn. now rewrite app_assoc.
Qed.

Lemma fold_tag ms e : e_tag (fold_left (fun e m => apply_em m e) ms e) = e_tag e.
Proof. revert e; induction ms as [|m ms IH]; intro e; cbn [fold_left]; [reflexivity|]. rewrite IH. now destruct e. Qed.

Lemma fold_text ms e : e_text (fold_left (fun e m => apply_em m e) ms e) =
  fold_left (fun t m => match m_text m with Some y => Some y | None => t end) ms (e_text e).
Proof. revert e; induction ms as [|m ms IH]; intro e; cbn [fold_left]; [reflexivity|]. rewrite IH. now destruct e. Qed.

Lemma fold_attrib ms e : e_attrib (fold_left (fun e m => apply_em m e) ms e) =
  fold_left (fun acc kv => uset (fst kv) (snd kv) acc) (concat (map m_attr ms)) (e_attrib e).
Proof.
  revert e; induction ms as [|m ms IH]; intro e; cbn [fold_left concat map]; [reflexivity|].
  rewrite IH, fold_left_app. now destruct e.
Qed.

Lemma uset_fold (l acc : list (ustr * ustr)) :
  NoDup (map fst (acc ++ l)) ->
  fold_left (fun acc kv => uset (fst kv) (snd kv) acc) l acc = acc ++ l.
Proof.
  revert acc; induction l as [|[k v] l IH]; intros acc H; cbn [fold_left]; [now rewrite app_nil_r|].
  cbn [fst snd]. rewrite uset_fresh.
  - rewrite IH; rewrite <- app_assoc; [reflexivity|]. exact H.
  - rewrite map_app in H. cbn in H. apply NoDup_remove_2 in H.
    destruct (uget k acc) as [y|] eqn:E; [|reflexivity]. exfalso. apply H. apply in_or_app. left.
    clear -E. induction acc as [|[k' v'] acc IH]; cbn in *; [discriminate|].
    destruct (ueqb_spec k k') as [->|]; [now left|right; auto].
Qed.
