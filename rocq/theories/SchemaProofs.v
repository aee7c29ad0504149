(** * What is written has the structure of the schema: proofs. *)
From Coq Require Import String List NArith ZArith Arith Bool Lia.
From Verif Require Import Ustr UstrProofs Res PyInt PyFloat PyDate Elem Value Geom Codec Spec Settled EmitProofs CodecProofs ItemProofs RoundTrip VerbosityProofs WriteProofs
  Schema SchemaTables SchemaSpec SlotProofs.
Import ListNotations.
Local Open Scope string_scope.

Notation tag := (clark schema_uris).
Notation S_valid := (valid schema_uris schema_types schema_elements).
Notation S_kid := (kid_type schema_uris schema_elements).

Definition type_decl (ty : string) : option decl :=
  match find (fun p => String.eqb (fst p) ty) schema_types with Some p => Some (snd p) | None => None end.

Definition known_id (id : string) : bool := mem id ["kml"; "gx"; "atom"].

(** The lookups of Schema.v by name, without spelling out the URIs. *)
Definition same_name (a b : sname) : bool :=
  if known_id (fst a) && known_id (fst b) then String.eqb (snd a) (snd b) && String.eqb (fst a) (fst b) else ueqb (tag a) (tag b).
Definition quick {A} (n : sname) (l : list (sname * A)) : option A :=
  match find (fun p => same_name (fst p) n) l with Some p => Some (snd p) | None => None end.
Definition kid_of (d : decl) (n : sname) : option string :=
  match quick n (d_local d) with Some ty => Some ty | None => quick n schema_elements end.
Definition type_of (W : world) (c : string) : option string := quick (class_sname W c) schema_elements.

Lemma same_name_eq a b : same_name a b = ueqb (tag a) (tag b).
Proof.
  unfold same_name. destruct (known_id (fst a) && known_id (fst b)) eqn:E; [|reflexivity]. apply andb_prop in E as [E1 E2]. unfold known_id in E1, E2. apply mem_In in E1, E2.
  destruct a as [i n], b as [j p]. cbn [fst snd] in *. destruct (ueqb (tag (i, n)) (tag (j, p))) eqn:Q.
  - apply ueqb_eq in Q. cbn in E1, E2. destruct E1 as [<-|[<-|[<-|[]]]], E2 as [<-|[<-|[<-|[]]]]; cbn in Q; try discriminate Q; injection Q as Q; apply u_inj in Q; subst; now rewrite String.eqb_refl.
  - destruct (String.eqb n p) eqn:A; [|reflexivity]. destruct (String.eqb i j) eqn:B; [|reflexivity]. apply seqb_eq in A, B. subst. rewrite ueqb_refl in Q. discriminate.
Qed.
Lemma quick_eq {A} n (l : list (sname * A)) : quick n l = lookup schema_uris (tag n) l.
Proof. unfold quick, lookup. induction l as [|p l IH]; [reflexivity|]. cbn [find]. rewrite same_name_eq. now destruct (ueqb _ _). Qed.
Lemma kid_of_eq d n : kid_of d n = S_kid d (tag n).
Proof. unfold kid_of, kid_type. now rewrite !quick_eq. Qed.
Lemma type_of_eq W c : type_of W c = class_type W c.
Proof. apply quick_eq. Qed.

Definition nsid (W : world) (c : string) : string := match class_of W c with Some ci => ci_nsid ci | None => "" end.

(** Names of the elements without children that an item writes. *)
Definition leaf_names (W : world) (c : string) (it : item) : list sname :=
  match it_set it with
  | SText | SBool | SInt | SFloat | SCoordList => [(nsid W c, it_node it)]
  | SDate | SDates => [("kml", it_node it)]
  | SEnum => match it_classes it with
             | [ec] => match sget ec (w_enums W) with
                       | Some e => map (fun m => (match snd m with Some id => id | None => nsid W c end, it_node it)) e
                       | None => []
                       end
             | _ => []
             end
  | _ => []
  end.

Definition groups_of (c : string) (it : item) : list (list string * bool) :=
  match find (fun x => String.eqb (fst (fst x)) c && String.eqb (snd (fst x)) (it_attr it))
          (("styles.Pair", "style", [(["styles.StyleUrl"], false); (["styles.Style"], false)]) :: child_groups) with
  | Some x => snd x
  | None => [(it_classes it, match it_set it with SObjs => true | _ => false end)]
  end.

Definition needed (c a : string) : bool := existsb (fun x => String.eqb (fst x) c && String.eqb (snd x) a) required.

Definition group_slot (W : world) (g : list string * bool) : slot := mkSlot (map (class_sname W) (fst g)) false (snd g).

(** What an item puts into the content, as slots. *)
Definition vitems (W : world) (c : string) (it : item) : list slot :=
  match it_set it with
  | SText => [mkSlot (leaf_names W c it) (needed c (it_attr it)) false]
  | SBool | SInt | SFloat | SDate | SEnum => [mkSlot (leaf_names W c it) false false]
  | SDates | SCoordList => [mkSlot (leaf_names W c it) false true]
  | SObj | SObjs => map (group_slot W) (groups_of c it)
  | _ => []
  end.

Definition leaf_type (ty : string) : bool :=
  match type_decl ty with
  | Some d => match d_text d with Some _ => true | None => false end &&
              match slots_of (d_content d) with Some sl => forallb (fun s => negb (s_req s)) sl | None => false end &&
              forallb (fun x => negb (snd (fst x))) (d_attrs d)
  | None => false
  end.

Definition icon_type : string := "ty_kml_BasicLinkType".

Definition kid_fits (W : world) (c : string) (it : item) (d : decl) (k : string) : bool :=
  known_id (nsid W k) &&
  match kid_of d (class_sname W k) with
  | Some ty => match type_of W k with Some ty' => String.eqb ty ty' | None => false end ||
               (String.eqb k "links.Icon" && String.eqb ty icon_type && String.eqb c "styles.IconStyle" && String.eqb (it_attr it) "icon" &&
                match it_set it with SObj => true | _ => false end)
  | None => false
  end.

Definition item_fits (W : world) (c : string) (d : decl) (it : item) : bool :=
  forallb (fun n => known_id (fst n)) (leaf_names W c it) &&
  (negb (needed c (it_attr it)) || is_none (it_default it)) &&
  match it_set it with
  | SNodeText | SCoords => match d_text d with Some _ => true | None => false end
  | SAttrText | SAttrInt | SAttrFloat | SAttrEnum => existsb (fun x => String.eqb (fst (fst x)) (it_node it)) (d_attrs d)
  | SObj => forallb (kid_fits W c it d) (it_classes it) && forallb (fun k => grouped (groups_of c it) [k]) (it_classes it)
  | SObjs => forallb (kid_fits W c it d) (it_classes it) &&
             (existsb (fun x => String.eqb (fst (fst x)) c && String.eqb (snd (fst x)) (it_attr it)) child_groups ||
              match groups_of c it with [(cs, true)] => all2 String.eqb cs (it_classes it) | _ => false end)
  | _ => forallb (fun n => match kid_of d n with Some ty => leaf_type ty | None => false end) (leaf_names W c it)
  end.

(** Attributes that may be supposed to write nothing. *)
Definition alts (c ty : string) : list (list string) :=
  if String.eqb c "containers.Document" then [["features"]; ["schemata"]]
  else if String.eqb c "links.Icon" && String.eqb ty icon_type then [icon_extras]
  else [[]].

Definition kept (alt : list string) (its : list item) : list item := filter (fun it => negb (mem (it_attr it) alt)) its.

Definition conform (W : world) (c ty : string) (alt : list string) : bool :=
  match type_decl ty with
  | None => false
  | Some d =>
      let its := kept alt (items_of W c) in
      match slots_of (d_content d) with Some sl => align (flat_map (vitems W c) its) sl | None => false end &&
      forallb (item_fits W c d) its &&
      forallb (fun x => negb (snd (fst x)) ||
        existsb (fun it => String.eqb (it_node it) (fst (fst x)) && needed c (it_attr it) &&
                           match it_set it with SAttrText => true | _ => false end) its) (d_attrs d)
  end.

Definition fits (W : world) (c ty : string) : bool := forallb (conform W c ty) (alts c ty).

Definition silent (W : world) (vb : verbosity) (c : string) (attrs : list (string * value)) (a : string) : bool :=
  match find_item a (items_of W c) with
  | Some it => match it_set it with
               | SObjs => nilb (written W attrs a)
               | SText | SFloat | SEnum => match vb with Verbose => false | _ => true end &&
                    match sget a attrs with None | Some VNone => true | _ => false end
               | _ => false
               end
  | None => true
  end.

Definition quiet (W : world) (vb : verbosity) (c ty : string) (attrs : list (string * value)) : bool :=
  existsb (fun alt => forallb (silent W vb c attrs) alt) (alts c ty).

Definition schema_ok (W : world) : bool :=
  forallb (fun cc => match type_of W (fst cc) with Some ty => fits W (fst cc) ty && known_id (nsid W (fst cc)) | None => true end) (w_classes W) &&
  fits W "links.Icon" icon_type &&
  match type_of W "links.Icon" with Some ty => negb (String.eqb ty icon_type) | None => true end &&
  forallb (fun a => match find_item a (items_of W "containers.Document") with
                    | Some it => match it_set it with SObjs => true | _ => false end
                    | None => true
                    end) ["features"; "schemata"] &&
  forallb (fun a => match find_item a (items_of W "links.Icon") with
                    | Some it => match it_set it with SText | SFloat | SEnum => true | _ => false end
                    | None => true
                    end) icon_extras.

(** ** Names *)

Lemma tag_id nss id n : schema_nss nss = true -> known_id id = true -> (ns_get nss id ++ u n)%list = tag (id, n).
Proof.
  intros H K. unfold schema_nss in H. rewrite forallb_forall in H. unfold known_id in K. apply mem_In in K. specialize (H id K).
  unfold clark. cbn [fst snd]. cbn in K. destruct K as [<-|[<-|[<-|[]]]]; cbn in H |- *; apply ueqb_eq in H; rewrite H; reflexivity.
Qed.

(** ** Groups *)

Lemma all2_seq a b : all2 String.eqb a b = true -> a = b.
Proof. apply all2_eq. intros x y. apply seqb_eq. Qed.

Lemma mem_filter_all cs l : Forall (fun c => mem c cs = true) l -> filter (fun c => mem c cs) l = l.
Proof. induction 1; cbn; [reflexivity|]. rewrite H. now f_equal. Qed.

Lemma grouped_slots W gs cs : grouped gs cs = true ->
  exists ls, map (fun c => tag (class_sname W c)) cs = concat ls /\ Forall2 (slot_ok schema_uris) (map (group_slot W) gs) ls.
Proof.
  unfold grouped. intro H. apply andb_prop in H as [H1 H2]. apply all2_seq in H1.
  exists (map (fun g => map (fun c => tag (class_sname W c)) (of_group g cs)) gs). split.
  - rewrite H1 at 1. clear. induction gs as [|g gs IH]; [reflexivity|]. cbn [flat_map map concat]. now rewrite map_app, IH.
  - clear H1. induction gs as [|g gs IH]; [constructor|]. cbn [forallb] in H2. apply andb_prop in H2 as [H2 H3]. cbn [map]. constructor; [|now apply IH]. split; [|split].
    + apply Forall_forall. intros t Ht. apply in_map_iff in Ht as [c [<- Hc]]. unfold of_group in Hc. apply filter_In in Hc as [_ Hc]. apply mem_In in Hc.
      exists (class_sname W c). split; [|reflexivity]. cbn [s_names group_slot]. now apply in_map.
    + discriminate.
    + cbn [s_many group_slot]. intros E. rewrite E in H2. cbn in H2. rewrite map_length. now apply Nat.leb_le.
Qed.

Lemma vall_and P Q R v : (forall c ns nss attrs, P c ns nss attrs = true -> Q c ns nss attrs = true -> R c ns nss attrs = true) ->
  vall P v = true -> vall Q v = true -> vall R v = true.
Proof.
  intro H. induction v as [| | | | | | | | | |l IH|c ns nss attrs IH] using value_ind'; try reflexivity; cbn [vall]; intros V V'; rewrite Forall_forall in IH.
  - rewrite forallb_forall in *. auto.
  - apply andb_prop in V as [V0 V], V' as [V0' V']. rewrite (H _ _ _ _ V0 V0'). cbn [andb]. rewrite forallb_forall in *. intros [a x] Hx. exact (IH _ Hx (V _ Hx) (V' _ Hx)).
Qed.

Section Valid.
  Variable W : world.
  Hypothesis HW : world_ok W = true.
  Hypothesis HS : schema_ok W = true.
  Variables (prec : option nat) (vb : verbosity) (m : nss_t).
  Hypothesis Hm : schema_nss m = true.

  (** ** Leaves *)

  Lemma leaf_valid ty t x : leaf_type ty = true -> S_valid ty (text_elem t x).
  Proof.
    unfold leaf_type, type_decl. unfold text_elem. cbn [valid]. destruct (find _ schema_types) as [[ty' d]|]; [|discriminate]. cbn [snd].
    rewrite !andb_true_iff. intros [[H1 H2] H3]. destruct (slots_of (d_content d)) as [sl|] eqn:E; [|discriminate]. split; [|split; [|split; [|exact I]]].
    - cbn [map]. apply (slots_sound _ _ _ _ E). apply (align_sound _ [] sl []); [destruct sl; exact H2|constructor].
    - split; [intros k []|]. intros y Hy R. rewrite forallb_forall in H3. specialize (H3 _ Hy). rewrite R in H3. discriminate.
    - destruct (d_text d); discriminate.
  Qed.

  (** ** One object *)

  Definition node_ok (c : string) (ns : ustr) (nss : nss_t) (attrs : list (string * value)) : bool :=
    typed_node W c ns nss attrs && (ueqb ns (default_ns W c m) && same_nss nss m) &&
    match class_type W c with Some _ => true | None => false end &&
    forallb (fun av => match snd av with VItems l => forallb (fun i => match ti_when i with Some _ => true | None => false end) l | _ => true end) attrs &&
    orderly_node W vb c attrs.

  Definition goal (v : value) : Prop :=
    match v with
    | VObj c ns nss attrs => forall ty e, fits W c ty = true -> quiet W vb c ty attrs = true -> etree W prec vb v = Ok e -> S_valid ty e
    | _ => True
    end.

  Lemma kid_tag c ns nss attrs e : node_ok c ns nss attrs = true -> known_id (nsid W c) = true ->
    etree W prec vb (VObj c ns nss attrs) = Ok e -> e_tag e = tag (class_sname W c).
  Proof.
    intros N K H. unfold node_ok in N. rewrite !andb_true_iff in N. destruct N as [[[[N1 [N2 _]] _] _] _]. apply ueqb_eq in N2. subst ns.
    rewrite etree_obj in H. unfold write_with in H. unfold default_ns in H. unfold class_sname. unfold nsid in K. destruct (class_of W c) as [ci|] eqn:E; [|discriminate].
    rewrite <- tag_id with (nss := m) by assumption.
    destruct (ci_root ci).
    - rewrite set_element_emit in H. apply bind_ok in H as [x [_ H]]. injection H as <-. unfold root_elem. now destruct (uempty _).
    - rewrite set_elements_emit in H. apply bind_ok in H as [ms [_ H]]. injection H as <-. now rewrite fold_tag.
  Qed.

  Lemma ok_parts :
    forallb (fun cc => match type_of W (fst cc) with Some ty => fits W (fst cc) ty && known_id (nsid W (fst cc)) | None => true end) (w_classes W) = true /\
    fits W "links.Icon" icon_type = true /\
    match class_type W "links.Icon" with Some ty => negb (String.eqb ty icon_type) | None => true end = true /\
    (forall a, In a ["features"; "schemata"] -> match find_item a (items_of W "containers.Document") with Some it => it_set it = SObjs | None => True end) /\
    (forall a, In a icon_extras -> match find_item a (items_of W "links.Icon") with Some it => match it_set it with SText | SFloat | SEnum => True | _ => False end | None => True end).
  Proof.
    unfold schema_ok in HS. rewrite !andb_true_iff in HS. destruct HS as [[[[H1 H2] H3] H4] H5]. rewrite type_of_eq in H3. rewrite forallb_forall in H4, H5. repeat split; auto.
    - intros a Ha. specialize (H4 a Ha). destruct (find_item _ _) as [it|]; [|exact I]. destruct (it_set it); discriminate H4 || reflexivity.
    - intros a Ha. specialize (H5 a Ha). destruct (find_item _ _) as [it|]; [|exact I]. destruct (it_set it); discriminate H5 || exact I.
  Qed.

  Lemma fits_global' c ty : class_type W c = Some ty -> fits W c ty = true /\ known_id (nsid W c) = true.
  Proof.
    intro H. destruct ok_parts as [HS' _]. rewrite forallb_forall in HS'.
    destruct (class_of W c) as [ci|] eqn:E.
    - specialize (HS' _ (sget_In _ _ _ E)). cbn [fst] in HS'. rewrite type_of_eq, H in HS'. now apply andb_prop in HS'.
    - exfalso. unfold class_type, class_sname in H. rewrite E in H. vm_compute in H. discriminate.
  Qed.
  Lemma fits_global c ty : class_type W c = Some ty -> fits W c ty = true.
  Proof. intro H. exact (proj1 (fits_global' c ty H)). Qed.

  Lemma quiet_global c ns nss attrs ty : node_ok c ns nss attrs = true -> class_type W c = Some ty -> quiet W vb c ty attrs = true.
  Proof.
    intros N T. unfold quiet, alts. destruct ok_parts as (_ & _ & P3 & P4 & _). destruct (String.eqb c "containers.Document") eqn:D.
    - unfold node_ok in N. rewrite !andb_true_iff in N. destruct N as [_ N]. unfold orderly_node in N. rewrite !andb_true_iff in N. destruct N as [[_ N] _]. rewrite D in N. cbn [negb orb] in N.
      apply seqb_eq in D. subst c. assert (K : forall a, In a ["features"; "schemata"] -> nilb (written W attrs a) = true -> silent W vb "containers.Document" attrs a = true).
      { intros a Ha Hn. unfold silent. specialize (P4 a Ha). destruct (find_item _ _); [|reflexivity]. now rewrite P4. }
      cbn [existsb forallb]. rewrite !andb_true_r, orb_false_r. apply orb_prop in N as [N|N]; [rewrite (K "features"); cbn; auto|rewrite (K "schemata"); cbn; auto; apply orb_true_r].
    - destruct (String.eqb c "links.Icon" && String.eqb ty icon_type) eqn:E; [|reflexivity]. apply andb_prop in E as [E1 E2]. apply seqb_eq in E1. subst c. rewrite T, E2 in P3. discriminate.
  Qed.

  Lemma quiet_icon attrs : forall c ns nss, bare_icon vb (VObj c ns nss attrs) = true -> quiet W vb "links.Icon" icon_type attrs = true.
  Proof.
    intros c ns nss H. cbn [bare_icon] in H. apply andb_prop in H as [H1 H2]. unfold quiet. change (alts "links.Icon" icon_type) with [icon_extras]. cbn [existsb]. rewrite orb_false_r.
    apply forallb_forall. intros a Ha. rewrite forallb_forall in H2. specialize (H2 a Ha). unfold silent. destruct ok_parts as (_ & _ & _ & _ & P5). specialize (P5 a Ha).
    destruct (find_item a _) as [it|]; [|reflexivity]. destruct (it_set it); try contradiction; now rewrite H1, H2.
  Qed.

  (** *** What an item contributes *)
  Definition attr_set (s : setter) : bool := match s with SAttrText | SAttrInt | SAttrFloat | SAttrEnum => true | _ => false end.
  Definition text_set (s : setter) : bool := match s with SNodeText | SCoords => true | _ => false end.

  Definition kid_good (d : decl) (k : elem) : Prop :=
    match S_kid d (e_tag k) with Some ty => S_valid ty k | None => False end.

  Section Object.
    Variables (c : string) (ci : class_info) (ns : ustr) (nss : nss_t) (attrs : list (string * value)).
    Hypothesis Hc : class_of W c = Some ci.
    Hypothesis N : node_ok c ns nss attrs = true.
    Hypothesis Sub : forall a x, sget a attrs = Some x -> goal x /\ match x with VList l => Forall goal l | _ => True end.
    Hypothesis Kids : forall a x, sget a attrs = Some x -> vall node_ok x = true.

    Lemma F : class_facts W ci (items_of W c).
    Proof. exact (world_class _ _ _ HW Hc). Qed.

    Lemma N_parts : typed_node W c ns nss attrs = true /\ ns = default_ns W c m /\ same_nss nss m = true /\
      forallb (fun av => match snd av with VItems l => forallb (fun i => match ti_when i with Some _ => true | None => false end) l | _ => true end) attrs = true /\
      orderly_node W vb c attrs = true.
    Proof. assert (N' := N). unfold node_ok in N'. rewrite !andb_true_iff in N'. destruct N' as [[[[N1 [N2 N3]] _] N4] N5]. apply ueqb_eq in N2. auto. Qed.

    Lemma x_typed a x it : sget a attrs = Some x -> find_item a (items_of W c) = Some it -> item_typed W it x = true.
    Proof.
      intros Hx Hf. destruct N_parts as [T _]. unfold typed_node in T. rewrite Hc in T. apply andb_prop in T as [_ T]. rewrite forallb_forall in T.
      specialize (T _ (sget_In _ _ _ Hx)). unfold attr_typed in T. rewrite Hf in T. now apply andb_prop in T.
    Qed.

    Lemma own_tag n : known_id (nsid W c) = true -> (ns ++ u n)%list = tag (nsid W c, n).
    Proof. intro K. destruct N_parts as [_ [-> _]]. unfold default_ns, nsid in *. rewrite Hc in *. now apply tag_id. Qed.

    Lemma nss_eq id : ns_get nss id = ns_get m id.
    Proof.
      destruct N_parts as [_ [_ [E _]]]. unfold same_nss in E. apply all2_eq in E; [now subst|]. intros [a b] [a' b'] H. cbn in H. apply andb_prop in H as [A B]. apply seqb_eq in A. apply ueqb_eq in B. now subst.
    Qed.

    Lemma leaf_one it d t tg : item_fits W c d it = true ->
      match it_set it with SObj | SObjs | SNodeText | SCoords | SAttrText | SAttrInt | SAttrFloat | SAttrEnum => False | _ => True end ->
      (exists n, In n (leaf_names W c it) /\ tg = tag n) -> kid_good d (text_elem tg t).
    Proof.
      intros Hf Hs [n [Hn ->]]. unfold item_fits in Hf. apply andb_prop in Hf as [_ Hf]. unfold kid_good. cbn [e_tag text_elem].
      assert (Hf' : forallb (fun n => match kid_of d n with Some ty => leaf_type ty | None => false end) (leaf_names W c it) = true) by (destruct (it_set it); try contradiction; exact Hf).
      rewrite forallb_forall in Hf'. specialize (Hf' _ Hn). rewrite kid_of_eq in Hf'. destruct (S_kid d (tag n)); [|discriminate]. now apply leaf_valid.
    Qed.

    (** The contribution [e] of [it] fits into the content of [d]. *)
    Definition fit (d : decl) (it : item) (e : em) : Prop :=
      (exists ls, map e_tag (m_kids e) = concat ls /\ Forall2 (slot_ok schema_uris) (vitems W c it) ls) /\
      Forall (kid_good d) (m_kids e) /\
      (forall k, In k (map fst (m_attr e)) -> attr_set (it_set it) = true /\ k = u (it_node it)) /\
      (m_text e <> None -> text_set (it_set it) = true).

    Lemma fit_zero d it : Forall (fun s => s_req s = false) (vitems W c it) -> fit d it em0.
    Proof.
      intro H. split; [|split; [constructor|split; [intros k []|now intros []]]]. exists (map (fun _ => []) (vitems W c it)). split.
      - cbn. clear H. now induction (vitems W c it).
      - induction H; cbn; constructor; auto. now apply empty_ok.
    Qed.

    Lemma fit_leaves d it s ks : item_fits W c d it = true ->
      match it_set it with SObj | SObjs | SNodeText | SCoords | SAttrText | SAttrInt | SAttrFloat | SAttrEnum => False | _ => True end ->
      vitems W c it = [s] -> s_names s = leaf_names W c it -> (s_req s = true -> ks <> []) -> (s_many s = false -> length ks <= 1) ->
      Forall (fun k => exists tg t, k = text_elem tg t /\ exists n, In n (leaf_names W c it) /\ tg = tag n) ks -> fit d it (em_kids ks).
    Proof.
      intros Hf Hs V E R M H. split; [|split; [|split; [intros k []|now intros []]]].
      - exists [map e_tag ks]. rewrite V. cbn [m_kids em_kids concat]. rewrite app_nil_r. split; [reflexivity|]. constructor; [|constructor]. split; [|split].
        + rewrite E. apply Forall_forall. intros x Hx. apply in_map_iff in Hx as [k [<- Hk]]. rewrite Forall_forall in H. destruct (H k Hk) as (tg & y & -> & n & Hn & ->). eauto.
        + intros Q. specialize (R Q). now destruct ks.
        + rewrite map_length. exact M.
      - cbn [m_kids em_kids]. eapply Forall_impl; [|exact H]. intros k (tg & y & -> & Hn). now apply (leaf_one it).
    Qed.

    Lemma fit_one d it s tg t : item_fits W c d it = true ->
      match it_set it with SObj | SObjs | SNodeText | SCoords | SAttrText | SAttrInt | SAttrFloat | SAttrEnum => False | _ => True end ->
      vitems W c it = [s] -> s_names s = leaf_names W c it -> (exists n, In n (leaf_names W c it) /\ tg = tag n) -> fit d it (em_kid tg t).
    Proof.
      intros Hf Hs V E Hn. change (em_kid tg t) with (em_kids [text_elem tg (Some t)]). apply fit_leaves with (s := s); auto; [discriminate|]. constructor; [|constructor]. eauto.
    Qed.

    Lemma fit_attr d it x : vitems W c it = [] -> attr_set (it_set it) = true -> fit d it (em_attr (u (it_node it)) x).
    Proof.
      intros V A. split; [|split; [constructor|split; [|now intros []]]].
      - exists []. rewrite V. split; [reflexivity|constructor].
      - cbn. intros k [<-|[]]. auto.
    Qed.

    Lemma fit_text d it x : vitems W c it = [] -> text_set (it_set it) = true -> fit d it (em_text x).
    Proof.
      intros V A. split; [|split; [constructor|split; [intros k []|auto]]]. exists []. rewrite V. split; [reflexivity|constructor].
    Qed.

    Lemma needed_filled it : needed c (it_attr it) = true -> exists s, sget (it_attr it) attrs = Some (VStr s) /\ uempty s = false.
    Proof.
      intro H. unfold needed in H. apply existsb_exists in H as [[c' a] [Hin H]]. cbn [fst snd] in H. apply andb_prop in H as [H1 H2]. apply seqb_eq in H1, H2. subst c' a.
      destruct N_parts as (_ & _ & _ & _ & O). unfold orderly_node in O. rewrite !andb_true_iff in O. destruct O as [[[_ O] _] _]. rewrite forallb_forall in O. specialize (O _ Hin).
      cbn [fst snd] in O. rewrite String.eqb_refl in O. cbn [negb orb] in O. unfold filled in O. destruct (sget (it_attr it) attrs) as [x|]; [|discriminate]. destruct x; try discriminate O. exists s. split; [reflexivity|]. now apply negb_true_iff.
    Qed.

    Lemma needed_value d it : item_fits W c d it = true -> needed c (it_attr it) = true ->
      exists s, get_value vb (obj_attr ci attrs (it_attr it)) (it_default it) = VStr s /\ uempty s = false.
    Proof.
      intros Hf Hn. destruct (needed_filled it Hn) as [s [Hs Es]]. exists s. split; [|exact Es]. unfold item_fits in Hf. rewrite !andb_true_iff in Hf. destruct Hf as [[_ Hf] _]. rewrite Hn in Hf. cbn in Hf.
      unfold obj_attr. rewrite Hs. destruct (it_default it); try discriminate Hf. destruct vb; reflexivity.
    Qed.

    Lemma enum_value it : In it (items_of W c) -> it_set it = SEnum \/ it_set it = SAttrEnum -> forall e mm, get_value vb (obj_attr ci attrs (it_attr it)) (it_default it) = VEnum e mm ->
      enum_member W (it_classes it) e mm = true.
    Proof.
      intros Hin Hs e mm G. assert (T : item_typed W it (VEnum e mm) = true).
      { assert (Hfi := find_item_NoDup _ _ (cf_attrs _ _ _ F) Hin). destruct (ItemProofs.get_value_cases vb (obj_attr ci attrs (it_attr it)) (it_default it)) as [E|[E|E]]; rewrite E in G; [| |discriminate].
        - unfold obj_attr in G. destruct (sget (it_attr it) attrs) as [x|] eqn:Ex; [subst x; exact (x_typed _ _ _ Ex Hfi)|].
          destruct (ci_geom ci); try discriminate G. destruct (sget "track_items" attrs) as [x|]; [|discriminate]. destruct x; try discriminate G.
          repeat match type of G with (if ?b then _ else _) = _ => destruct b end; discriminate.
        - assert (I := cf_items _ _ _ F _ Hin). unfold item_ok in I. rewrite !andb_true_iff in I. destruct I as [[_ I] _]. unfold default_ok in I. destruct Hs as [Hs|Hs]; rewrite Hs in I; apply andb_prop in I as [I _]; now rewrite G in I. }
      unfold item_typed in T. destruct Hs as [Hs|Hs]; rewrite Hs in T; exact T.
    Qed.

    Lemma dates_value it : In it (items_of W c) -> it_set it = SDates -> forall l, get_value vb (obj_attr ci attrs (it_attr it)) (it_default it) = VDates l ->
      Forall (fun o => o <> None) l.
    Proof.
      intros Hin Hs l G. assert (Hfi := find_item_NoDup _ _ (cf_attrs _ _ _ F) Hin). destruct (ItemProofs.get_value_cases vb (obj_attr ci attrs (it_attr it)) (it_default it)) as [E|[E|E]]; rewrite E in G; [| |discriminate].
      - unfold obj_attr in G. destruct (sget (it_attr it) attrs) as [x|] eqn:Ex.
        + subst x. assert (T := x_typed _ _ _ Ex Hfi). unfold item_typed in T. rewrite Hs in T. rewrite forallb_forall in T. apply Forall_forall. intros o Ho. specialize (T _ Ho). now destruct o.
        + destruct (ci_geom ci); try discriminate G. destruct (sget "track_items" attrs) as [x|] eqn:Et; [|discriminate]. destruct x; try discriminate G.
          destruct N_parts as (_ & _ & _ & T & _). rewrite forallb_forall in T. specialize (T _ (sget_In _ _ _ Et)). cbn [snd] in T. rewrite forallb_forall in T.
          destruct (String.eqb (it_attr it) "whens"); [|repeat match type of G with (if ?b then _ else _) = _ => destruct b end; discriminate]. injection G as <-.
          apply Forall_forall. intros o Ho. apply in_map_iff in Ho as [i [<- Hi]]. specialize (T _ Hi). now destruct (ti_when i).
      - assert (I := cf_items _ _ _ F _ Hin). unfold item_ok in I. rewrite !andb_true_iff in I. destruct I as [[_ I] _]. unfold default_ok in I. rewrite Hs, G in I. discriminate.
    Qed.

    (** *** Children that are objects *)
    Lemma obj_kid it d y e : kid_fits W c it d (class_name y) = true -> goal y -> vall node_ok y = true ->
      (it_set it = SObj -> sget (it_attr it) attrs = Some y /\ py_bool W y = Ok true) ->
      etree W prec vb y = Ok e -> e_tag e = tag (class_sname W (class_name y)) /\ kid_good d e.
    Proof.
      intros Hf G V B E. destruct y as [ | | | | | | | | | | |k kns knss kattrs]; try discriminate E. cbn [class_name] in *. cbn [vall] in V. apply andb_prop in V as [V _].
      unfold kid_fits in Hf. apply andb_prop in Hf as [Hk Hf]. assert (T := kid_tag _ _ _ _ _ V Hk E). split; [exact T|]. unfold kid_good. rewrite T. rewrite kid_of_eq, type_of_eq in Hf.
      destruct (S_kid d (tag (class_sname W k))) as [ty|]; [|discriminate]. apply orb_prop in Hf as [Hf|Hf].
      - destruct (class_type W k) as [ty'|] eqn:Et; [|discriminate]. apply seqb_eq in Hf. subst ty'. exact (G ty e (fits_global _ _ Et) (quiet_global _ _ _ _ _ V Et) E).
      - rewrite !andb_true_iff in Hf. destruct Hf as [[[[H1 H2] H3] H4] H5]. apply seqb_eq in H1, H2, H3, H4. subst k ty.
        assert (Hs : it_set it = SObj) by (destruct (it_set it); try discriminate H5; reflexivity). destruct (B Hs) as [Ha Hb].
        apply (G icon_type e); [exact (proj1 (proj2 ok_parts))| |exact E]. apply (quiet_icon _ "links.Icon" kns knss).
        destruct N_parts as (_ & _ & _ & _ & O). unfold orderly_node in O. rewrite !andb_true_iff in O. destruct O as [_ O]. rewrite H3 in O. cbn [negb orb String.eqb] in O.
        rewrite H4 in Ha. unfold written in O. rewrite Ha in O. unfold truth in O. rewrite Hb in O. cbn [forallb] in O. now apply andb_prop in O as [O _].
    Qed.

    Lemma objs_kids_fit it d l ks : it_set it = SObjs -> forallb (kid_fits W c it d) (it_classes it) = true -> forallb (is_obj_of (it_classes it)) l = true ->
      Forall goal l -> vall node_ok (VList l) = true -> objs_kids W (map (fun y => (y, etree W prec vb y)) l) = Ok ks ->
      map e_tag ks = map (fun k => tag (class_sname W k)) (map class_name (filter (truth W) l)) /\ Forall (kid_good d) ks.
    Proof.
      intros Hs Hf T G V. cbn [vall] in V. revert ks. induction l as [|y l IH]; intros ks E; cbn [map objs_kids] in E; [injection E as <-; split; [reflexivity|constructor]|].
      cbn [forallb] in T, V. apply andb_prop in T as [T1 T2]. apply andb_prop in V as [V1 V2]. inversion G as [|? ? G1 G2]; subst. specialize (IH T2 G2 V2).
      apply bind_ok in E as [b [Eb E]]. cbn [filter]. unfold truth at 1. rewrite Eb. destruct b; [|exact (IH _ E)].
      apply bind_ok in E as [k [Ek E]]. apply bind_ok in E as [r [Er E]]. injection E as <-. destruct (IH _ Er) as [I1 I2].
      assert (Hk : kid_fits W c it d (class_name y) = true). { rewrite forallb_forall in Hf. apply Hf. destruct y; try discriminate T1. cbn in *. now apply mem_In. }
      destruct (obj_kid it d y k Hk G1 V1 ltac:(intro; congruence) Ek) as [K1 K2]. cbn [map]. rewrite K1, I1. split; [reflexivity|]. now constructor.
    Qed.

    Lemma fit_objs d it ks cs : match it_set it with SObj | SObjs => True | _ => False end -> grouped (groups_of c it) cs = true ->
      map e_tag ks = map (fun k => tag (class_sname W k)) cs -> Forall (kid_good d) ks -> fit d it (em_kids ks).
    Proof.
      intros Hs G T K. split; [|split; [exact K|split; [intros k []|now intros []]]]. destruct (grouped_slots W _ _ G) as [ls [L1 L2]]. exists ls. cbn [m_kids em_kids]. rewrite T. split; [exact L1|].
      unfold vitems. destruct (it_set it); try contradiction; exact L2.
    Qed.

    Lemma list_grouped it l : it_set it = SObjs -> sget (it_attr it) attrs = Some (VList l) -> forallb (is_obj_of (it_classes it)) l = true ->
      (existsb (fun x => String.eqb (fst (fst x)) c && String.eqb (snd (fst x)) (it_attr it)) child_groups ||
              match groups_of c it with [(cs, true)] => all2 String.eqb cs (it_classes it) | _ => false end) = true ->
      grouped (groups_of c it) (map class_name (filter (truth W) l)) = true.
    Proof.
      intros Hs Ha Ht H. apply orb_prop in H as [H|H].
      - unfold groups_of. cbn [find]. destruct (String.eqb (fst (fst ("styles.Pair", "style", [(["styles.StyleUrl"], false); (["styles.Style"], false)]))) c && String.eqb (snd (fst ("styles.Pair", "style", [(["styles.StyleUrl"], false); (["styles.Style"], false)]))) (it_attr it)) eqn:P.
        { exfalso. cbn [fst snd] in P. apply andb_prop in P as [P1 P2]. apply seqb_eq in P1, P2. subst c. rewrite <- P2 in H. vm_compute in H. discriminate. }
        destruct (find _ child_groups) as [[[c' a'] gs]|] eqn:E.
        + apply find_some in E as [Hin E]. cbn [fst snd] in E. apply andb_prop in E as [E1 E2]. apply seqb_eq in E1, E2. subst c' a'.
          destruct N_parts as (_ & _ & _ & _ & O). unfold orderly_node in O. rewrite !andb_true_iff in O. destruct O as [[[O _] _] _]. rewrite forallb_forall in O. specialize (O _ Hin). cbn beta iota in O.
          rewrite String.eqb_refl in O. cbn [negb orb] in O. unfold written in O. rewrite Ha in O. exact O.
        + exfalso. apply existsb_exists in H as [x [Hin H]]. assert (E' := find_none _ _ E _ Hin). cbn beta in E'. congruence.
      - destruct (groups_of c it) as [|[cs [|]] [|]]; try discriminate H. apply all2_seq in H. subst cs. unfold grouped, of_group. cbn [flat_map forallb fst snd orb andb]. rewrite app_nil_r, andb_true_r.
        rewrite mem_filter_all.
        + clear. induction (map class_name (filter (truth W) l)) as [|x r IH]; [reflexivity|]. cbn. now rewrite String.eqb_refl.
        + apply Forall_forall. intros k Hk. apply in_map_iff in Hk as [y [<- Hy]]. apply filter_In in Hy as [Hy _]. rewrite forallb_forall in Ht. specialize (Ht _ Hy). destruct y; try discriminate Ht. exact Ht.
    Qed.

    Lemma emit_fits it d e : In it (items_of W c) -> item_fits W c d it = true ->
      emit W prec vb ci ns nss attrs (ws_of W prec vb attrs) it = Ok e -> fit d it e.
    Proof.
      intros Hin Hf E. assert (Hfi := find_item_NoDup _ _ (cf_attrs _ _ _ F) Hin).
      assert (Hid : forall n, In n (leaf_names W c it) -> known_id (fst n) = true).
      { assert (Hf' := Hf). unfold item_fits in Hf'. rewrite !andb_true_iff in Hf'. destruct Hf' as [[Hf' _] _]. now rewrite forallb_forall in Hf'. }
      assert (Own : leaf_names W c it = [(nsid W c, it_node it)] -> exists n, In n (leaf_names W c it) /\ (ns ++ u (it_node it))%list = tag n).
      { intro El. exists (nsid W c, it_node it). split; [rewrite El; now left|]. apply own_tag. apply (Hid (nsid W c, it_node it)). rewrite El. now left. }
      unfold emit in E. destruct (it_set it) eqn:Es.
      - (* node text *) destruct (get_value _ _ _); try discriminate E; [injection E as <-; apply fit_zero; unfold vitems; rewrite Es; constructor|].
        destruct (uempty s); injection E as <-; [apply fit_zero; unfold vitems; rewrite Es; constructor|]. apply fit_text; [unfold vitems|]; now rewrite Es.
      - (* text *) assert (V : vitems W c it = [mkSlot (leaf_names W c it) (needed c (it_attr it)) false]) by (unfold vitems; now rewrite Es).
        assert (Z : needed c (it_attr it) = false -> fit d it em0) by (intro Q; apply fit_zero; rewrite V; constructor; [exact Q|constructor]).
        assert (Y : forall s, fit d it (em_kid (ns ++ u (it_node it))%list s)) by (intro s; apply fit_one with (s := mkSlot (leaf_names W c it) (needed c (it_attr it)) false); auto; [now rewrite Es|apply Own; unfold leaf_names; now rewrite Es]).
        destruct (needed c (it_attr it)) eqn:Q.
        + destruct (needed_value d it Hf Q) as [s [G Gs]]. rewrite G, Gs in E. injection E as <-. apply Y.
        + destruct (get_value _ _ _); try discriminate E; [injection E as <-; auto|]. destruct (uempty s); injection E as <-; auto.
      - (* attribute *) destruct (get_value _ _ _); try discriminate E; [injection E as <-; apply fit_zero; unfold vitems; rewrite Es; constructor|].
        destruct (uempty s); injection E as <-; [apply fit_zero; unfold vitems; rewrite Es; constructor|]. apply fit_attr; [unfold vitems|]; now rewrite Es.
      - (* bool *) assert (V : vitems W c it = [mkSlot (leaf_names W c it) false false]) by (unfold vitems; now rewrite Es).
        assert (Z : fit d it em0) by (apply fit_zero; rewrite V; repeat constructor).
        assert (Y : forall s, fit d it (em_kid (ns ++ u (it_node it))%list s)) by (intro s; eapply fit_one; [exact Hf|now rewrite Es|exact V|reflexivity|apply Own; unfold leaf_names; now rewrite Es]).
        destruct (get_value _ _ _) as [ |b|[z|f]| | | | | | | | | ]; try discriminate E; [injection E as <-; auto|injection E as <-; auto|]. apply bind_ok in E as [s [_ E]]. injection E as <-. auto.
      - (* int *) assert (V : vitems W c it = [mkSlot (leaf_names W c it) false false]) by (unfold vitems; now rewrite Es).
        assert (Z : fit d it em0) by (apply fit_zero; rewrite V; repeat constructor).
        assert (Y : forall s, fit d it (em_kid (ns ++ u (it_node it))%list s)) by (intro s; eapply fit_one; [exact Hf|now rewrite Es|exact V|reflexivity|apply Own; unfold leaf_names; now rewrite Es]).
        destruct (get_value _ _ _); try (apply bind_ok in E as [s' [_ E]]); injection E as <-; auto.
      - (* attribute int *) destruct (get_value _ _ _); try (apply bind_ok in E as [s' [_ E]]); injection E as <-;
          try (apply fit_zero; unfold vitems; rewrite Es; constructor); apply fit_attr; unfold vitems; now rewrite Es.
      - (* float *) assert (V : vitems W c it = [mkSlot (leaf_names W c it) false false]) by (unfold vitems; now rewrite Es).
        assert (Z : fit d it em0) by (apply fit_zero; rewrite V; repeat constructor).
        assert (Y : forall s, fit d it (em_kid (ns ++ u (it_node it))%list s)) by (intro s; eapply fit_one; [exact Hf|now rewrite Es|exact V|reflexivity|apply Own; unfold leaf_names; now rewrite Es]).
        destruct (get_value _ _ _); try (apply bind_ok in E as [s' [_ E]]); injection E as <-; auto.
      - (* attribute float *) destruct (get_value _ _ _); try (apply bind_ok in E as [s' [_ E]]); injection E as <-;
          try (apply fit_zero; unfold vitems; rewrite Es; constructor); apply fit_attr; unfold vitems; now rewrite Es.
      - (* enumeration *) assert (V : vitems W c it = [mkSlot (leaf_names W c it) false false]) by (unfold vitems; now rewrite Es).
        assert (Z : fit d it em0) by (apply fit_zero; rewrite V; repeat constructor).
        destruct (get_value _ _ _) as [ | | | |ec mm| | | | | | | ] eqn:G; try discriminate E; injection E as <-; [exact Z|].
        eapply fit_one; [exact Hf|now rewrite Es|exact V|reflexivity|]. assert (M := enum_value it Hin (or_introl Es) _ _ G). unfold enum_member in M. unfold leaf_names in Hid |- *. rewrite Es in Hid |- *.
        destruct (it_classes it) as [|c' [|]]; try discriminate M. apply andb_prop in M as [M1 M]. apply seqb_eq in M1. subst c'. unfold enum_ns. destruct (sget ec (w_enums W)) as [en|]; [|discriminate].
        destruct (uget mm en) as [o|] eqn:U; [|discriminate]. assert (Hi : exists mm', In (mm', o) en).
        { clear -U. induction en as [|[k x] en IH]; [discriminate|]. cbn in U. destruct (ueqb mm k); [injection U as ->; eexists; now left|]. destruct (IH U) as [q Hq]. exists q. now right. }
        destruct Hi as [mm' Hi]. set (n := (match o with Some id => id | None => nsid W c end, it_node it)).
        assert (Hn : In n (map (fun m0 => (match snd m0 with Some id => id | None => nsid W c end, it_node it)) en)) by (unfold n; apply (in_map (fun m0 : ustr * option string => (match snd m0 with Some id => id | None => nsid W c end, it_node it)) en _ Hi)).
        exists n. split; [exact Hn|]. specialize (Hid n Hn). unfold n in *. cbn [fst] in Hid. destruct o as [id|]; [rewrite nss_eq; now apply tag_id|now apply own_tag].
      - (* attribute enumeration *) destruct (get_value _ _ _); try discriminate E; injection E as <-;
          [apply fit_zero; unfold vitems; rewrite Es; constructor|]. apply fit_attr; unfold vitems; now rewrite Es.
      - (* date *) assert (V : vitems W c it = [mkSlot (leaf_names W c it) false false]) by (unfold vitems; now rewrite Es).
        assert (L : leaf_names W c it = [("kml", it_node it)]) by (unfold leaf_names; now rewrite Es).
        destruct (get_value _ _ _); try discriminate E; injection E as <-; [apply fit_zero; rewrite V; repeat constructor|].
        eapply fit_one; [exact Hf|now rewrite Es|exact V|reflexivity|]. exists ("kml", it_node it). split; [rewrite L; now left|]. unfold date_ns. rewrite nss_eq. now apply tag_id.
      - (* dates *) assert (V : vitems W c it = [mkSlot (leaf_names W c it) false true]) by (unfold vitems; now rewrite Es).
        assert (L : leaf_names W c it = [("kml", it_node it)]) by (unfold leaf_names; now rewrite Es).
        destruct (get_value _ _ _) as [ | | | | | | | |l| | | ] eqn:G; try discriminate E; [injection E as <-; apply fit_zero; rewrite V; repeat constructor|].
        apply bind_ok in E as [ks [Ek E]]. injection E as <-. assert (D := dates_value it Hin Es _ G). eapply fit_leaves; [exact Hf|now rewrite Es|exact V|reflexivity|discriminate|discriminate|].
        apply map_res_ok in Ek. clear -Ek D L Hm N. revert ks Ek. induction D as [|o l Ho _ IH]; intros ks Ek; cbn [map] in Ek; inversion Ek as [|? k ? ks' Hk Ek']; subst; constructor; [|now apply IH].
        destruct o as [dt|]; [|contradiction]. cbn in Hk. injection Hk as <-. do 2 eexists. split; [reflexivity|]. exists ("kml", it_node it). split; [rewrite L; now left|]. unfold date_ns. rewrite nss_eq. now apply tag_id.
      - (* list of coordinates *) assert (V : vitems W c it = [mkSlot (leaf_names W c it) false true]) by (unfold vitems; now rewrite Es).
        assert (O : exists n, In n (leaf_names W c it) /\ (ns ++ u (it_node it))%list = tag n) by (apply Own; unfold leaf_names; now rewrite Es).
        destruct (get_value _ _ _) as [ | | | | | | |b l| | | | ] eqn:G; try discriminate E; [injection E as <-; apply fit_zero; rewrite V; repeat constructor|].
        apply bind_ok in E as [ks [Ek E]]. injection E as <-. eapply fit_leaves; [exact Hf|now rewrite Es|exact V|reflexivity|discriminate|discriminate|].
        apply map_res_ok in Ek. clear -Ek O. revert ks Ek. induction l as [|x l IH]; intros ks Ek; cbn [map] in Ek; inversion Ek as [|? k ? ks' Hk Ek']; subst; constructor; [|now apply IH].
        apply bind_ok in Hk as [y [Hy Hk]]. injection Hk as <-. apply bind_ok in Hy as [s [_ Hy]]. injection Hy as <-. do 2 eexists. split; [reflexivity|exact O].
      - (* coordinates *) destruct (obj_attr ci attrs (it_attr it)); try discriminate E; [injection E as <-; apply fit_zero; unfold vitems; rewrite Es; constructor|].
        destruct (nilb l); [injection E as <-; apply fit_zero; unfold vitems; rewrite Es; constructor|]. apply bind_ok in E as [s [_ E]]. injection E as <-. apply fit_text; [unfold vitems|]; now rewrite Es.
      - (* object *) assert (Z : fit d it em0) by (apply fit_zero; unfold vitems; rewrite Es; apply Forall_forall; intros s Hs; apply in_map_iff in Hs as [g [<- _]]; reflexivity).
        apply bind_ok in E as [b [Eb E]]. destruct b; [|injection E as <-; exact Z]. rewrite sget_ws_of in E. unfold obj_attr in Eb. destruct (sget (it_attr it) attrs) as [x|] eqn:Ex; [|discriminate]. unfold w_attr in E.
        apply bind_ok in E as [k [Ek E]]. injection E as <-. assert (T := x_typed _ _ _ Ex Hfi). unfold item_typed in T. rewrite Es in T. destruct x as [ | | | | | | | | | | |kc kns knss kattrs]; try discriminate Ek.
        unfold item_fits in Hf. apply andb_prop in Hf as [_ Hf]. rewrite Es in Hf. apply andb_prop in Hf as [Hf1 Hf2]. rewrite forallb_forall in Hf1, Hf2. apply mem_In in T.
        destruct (obj_kid it d (VObj kc kns knss kattrs) k (Hf1 _ T) (proj1 (Sub _ _ Ex)) (Kids _ _ Ex) ltac:(intros _; split; [exact Ex|exact Eb]) Ek) as [K1 K2].
        apply fit_objs with (cs := [kc]); [now rewrite Es|exact (Hf2 _ T)|cbn [map]; now rewrite K1|constructor; [exact K2|constructor]].
      - (* objects *) assert (Z : fit d it em0) by (apply fit_zero; unfold vitems; rewrite Es; apply Forall_forall; intros s Hs; apply in_map_iff in Hs as [g [<- _]]; reflexivity).
        rewrite sget_ws_of in E. destruct (sget (it_attr it) attrs) as [x|] eqn:Ex; [|injection E as <-; exact Z]. unfold w_attr in E. destruct x; try discriminate E; [injection E as <-; exact Z|].
        apply bind_ok in E as [ks [Ek E]]. injection E as <-. assert (T := x_typed _ _ _ Ex Hfi). unfold item_typed in T. rewrite Es in T.
        unfold item_fits in Hf. apply andb_prop in Hf as [_ Hf]. rewrite Es in Hf. apply andb_prop in Hf as [Hf1 Hf2].
        destruct (objs_kids_fit it d l ks Es Hf1 T (proj2 (Sub _ _ Ex)) (Kids _ _ Ex) Ek) as [K1 K2].
        apply fit_objs with (cs := map class_name (filter (truth W) l)); [now rewrite Es|exact (list_grouped _ _ Es Ex T Hf2)|exact K1|exact K2].
    Qed.

    Lemma emit_silent it e : In it (items_of W c) -> silent W vb c attrs (it_attr it) = true ->
      emit W prec vb ci ns nss attrs (ws_of W prec vb attrs) it = Ok e -> e = em0.
    Proof.
      intros Hin Hs E. assert (Hfi := find_item_NoDup _ _ (cf_attrs _ _ _ F) Hin). unfold silent in Hs. rewrite Hfi in Hs.
      assert (Z : forall x, match vb with Verbose => false | _ => true end && match sget (it_attr it) attrs with None | Some VNone => true | _ => false end = true ->
        obj_attr ci attrs (it_attr it) = x -> is_track ci && mem (it_attr it) track_attrs = false -> get_value vb x (it_default it) = VNone).
      { intros x Q <- Tr. apply andb_prop in Q as [Q1 Q2]. assert (Eo : obj_attr ci attrs (it_attr it) = VNone).
        { unfold obj_attr. destruct (sget (it_attr it) attrs) as [y|] eqn:Ey; [now destruct y|]. unfold is_track in Tr. destruct (ci_geom ci); try reflexivity. cbn [andb] in Tr.
          destruct (sget "track_items" attrs) as [y|]; [|reflexivity]. destruct y; try reflexivity. unfold track_attrs in Tr. cbn [mem existsb] in Tr.
          rewrite !orb_false_iff in Tr. destruct Tr as [T1 [T2 [T3 _]]]. now rewrite T1, T2, T3. }
        rewrite Eo. destruct vb; [|reflexivity|discriminate Q1]. cbn [get_value]. now destruct (scalar_eq VNone (it_default it)). }
      assert (Tr : match it_set it with SText | SFloat | SEnum => is_track ci && mem (it_attr it) track_attrs = false | _ => True end).
      { assert (Hto := cf_track _ _ _ F). unfold track_ok in Hto. destruct (is_track ci); [|now destruct (it_set it)]. cbn [andb]. rewrite !andb_true_iff in Hto. destruct Hto as [[[[[_ A1] A2] A3] _] _].
        destruct (mem (it_attr it) track_attrs) eqn:Mt; [|now destruct (it_set it)]. apply mem_In in Mt. unfold has_track_item in *. cbn in Mt.
        destruct Mt as [Q|[Q|[Q|[]]]]; rewrite <- Q in Hfi; rewrite Hfi in *; destruct (it_set it); discriminate || exact I. }
      unfold emit in E. destruct (it_set it) eqn:Es; try discriminate Hs.
      - rewrite (Z _ Hs eq_refl Tr) in E. now injection E as <-.
      - rewrite (Z _ Hs eq_refl Tr) in E. now injection E as <-.
      - rewrite (Z _ Hs eq_refl Tr) in E. now injection E as <-.
      - rewrite sget_ws_of in E. unfold written in Hs. destruct (sget (it_attr it) attrs) as [x|]; [|now injection E as <-]. unfold w_attr in E. destruct x; try discriminate E; [now injection E as <-|].
        apply bind_ok in E as [ks [Ek E]]. injection E as <-. assert (Q : ks = []); [|now subst]. clear -Ek Hs. revert ks Ek. induction l as [|y l IH]; intros ks Ek; cbn [map objs_kids] in Ek; [now injection Ek as <-|].
        apply bind_ok in Ek as [b [Eb Ek]]. cbn [filter] in Hs. unfold truth at 1 in Hs. rewrite Eb in Hs. destruct b; [discriminate|]. exact (IH Hs _ Ek).
    Qed.

    Lemma object_valid ty e : known_id (nsid W c) = true -> fits W c ty = true -> quiet W vb c ty attrs = true -> etree W prec vb (VObj c ns nss attrs) = Ok e -> S_valid ty e.
    Proof.
      intros Kid Hf Hq He.
      (* the emissions *)
      assert (X : exists ms, Forall2 (fun it e => emit W prec vb ci ns nss attrs (ws_of W prec vb attrs) it = Ok e) (items_of W c) ms /\
        e = fold_left (fun e m => apply_em m e) ms (new_elem (ns ++ u (ci_tag ci))%list)).
      { rewrite etree_obj in He. unfold write_with in He. rewrite Hc in He. assert (Hroot := cf_root _ _ _ F). unfold root_ok in Hroot. destruct (ci_root ci) eqn:Eroot.
        - destruct (items_of W c) as [|it [|]] eqn:Eits; try discriminate Hroot. apply andb_prop in Hroot as [Ra Rs]. apply seqb_eq in Ra.
          assert (Es : it_set it = SObjs) by (destruct (it_set it); try discriminate Rs; reflexivity).
          rewrite set_element_emit in He. apply bind_ok in He as [x [Hx He]]. injection He as <-. exists [x]. split.
          + constructor; [|constructor]. unfold emit in *. rewrite Es, Ra. exact Hx.
          + cbn [fold_left]. unfold root_elem. assert (Q : uempty ns = false); [|now rewrite Q]. destruct N_parts as [_ [-> _]]. unfold default_ns. unfold nsid in Kid. rewrite Hc in *.
            assert (P := tag_id m _ "" Hm Kid). change (u "") with ([] : ustr) in P. rewrite app_nil_r in P. rewrite P. unfold known_id in Kid. apply mem_In in Kid. cbn in Kid. now destruct Kid as [<-|[<-|[<-|[]]]].
        - rewrite set_elements_emit in He. apply bind_ok in He as [ms [Hms He]]. injection He as <-. apply map_res_ok in Hms. exists ms. auto. }
      destruct X as [ms [Hms Ee]].
      unfold quiet in Hq. apply existsb_exists in Hq as [alt [Halt Hq]]. unfold fits in Hf. rewrite forallb_forall in Hf. specialize (Hf _ Halt). unfold conform, type_decl in Hf.
      assert (Et : S_valid ty e <-> match find (fun p => String.eqb (fst p) ty) schema_types with None => False | Some (_, d) =>
            allows schema_uris (d_content d) (map e_tag (e_kids e)) /\ attrs_valid d (e_attrib e) /\ (d_text d = None -> e_text e = None) /\ Forall (kid_good d) (e_kids e) end).
      { destruct e as [t a x ks]. cbn [valid e_kids e_attrib e_text]. destruct (find _ schema_types) as [[? d]|]; [|tauto]. assert (Q : forall ks, (fix every ks := match ks with [] => True | k :: ks' => match S_kid d (e_tag k) with Some ty' => S_valid ty' k | None => False end /\ every ks' end) ks <-> Forall (kid_good d) ks).
        { clear. induction ks as [|k ks IH]; [split; auto|]. rewrite IH. split; [intros [A B]; now constructor|intro H; inversion H; subst; auto]. }
        rewrite Q. reflexivity. }
      apply Et. clear Et. destruct (find _ schema_types) as [[ty' d]|]; [|discriminate]. cbn [snd] in Hf. rewrite !andb_true_iff in Hf. destruct Hf as [[Ha Hi] Hr].
      destruct (slots_of (d_content d)) as [sl|] eqn:Esl; [|discriminate]. rewrite forallb_forall in Hi, Hq.
      (* every kept item fits, the others are silent *)
      assert (Y : forall it x, In it (items_of W c) -> emit W prec vb ci ns nss attrs (ws_of W prec vb attrs) it = Ok x ->
        (mem (it_attr it) alt = true /\ x = em0) \/ (mem (it_attr it) alt = false /\ In it (kept alt (items_of W c)) /\ fit d it x)).
      { intros it x Hin Ex. destruct (mem (it_attr it) alt) eqn:Mt.
        - left. split; [reflexivity|]. apply mem_In in Mt. exact (emit_silent it x Hin (Hq _ Mt) Ex).
        - right. split; [reflexivity|]. assert (Hk : In it (kept alt (items_of W c))) by (unfold kept; apply filter_In; split; [exact Hin|now rewrite Mt]). split; [exact Hk|]. exact (emit_fits it d x Hin (Hi _ Hk) Ex). }
      assert (Kids' : e_kids e = concat (map m_kids ms)) by (rewrite Ee, fold_kids; reflexivity).
      split; [|split; [split|split]].
      - apply (slots_sound _ _ _ _ Esl). rewrite Kids'.
        assert (L : exists ls, map e_tag (concat (map m_kids ms)) = concat ls /\ Forall2 (slot_ok schema_uris) (flat_map (vitems W c) (kept alt (items_of W c))) ls).
        { clear -Hms Y. assert (Y' : forall it x, In it (items_of W c) -> emit W prec vb ci ns nss attrs (ws_of W prec vb attrs) it = Ok x -> (mem (it_attr it) alt = true /\ x = em0) \/ (mem (it_attr it) alt = false /\ fit d it x)) by (intros it x A B; destruct (Y it x A B) as [?|[? [_ ?]]]; auto). clear Y.
          revert Y'. induction Hms as [|it x its ms Hx _ IH]; intro Y.
          - exists []. split; [reflexivity|constructor].
          - destruct IH as [ls [L1 L2]]; [intros; apply Y; auto; now right|]. cbn [map concat kept filter]. rewrite map_app, L1. destruct (Y it x (or_introl eq_refl) Hx) as [[-> ->]|[-> [[l [E1 E2]] _]]]; cbn [negb].
            + exists ls. split; [reflexivity|exact L2].
            + exists (l ++ ls)%list. rewrite E1, concat_app. split; [reflexivity|]. cbn [flat_map]. now apply Forall2_app. }
        destruct L as [ls [-> L]]. exact (align_sound _ _ _ _ Ha L).
      - intros k Hk. rewrite Ee, fold_attrib in Hk. change (e_attrib (new_elem (ns ++ u (ci_tag ci))%list)) with (@nil (ustr * ustr)) in Hk.
        assert (Hk' : In k (map fst (concat (map m_attr ms)))).
        { clear -Hk. assert (G : forall l acc, In k (map fst (fold_left (fun acc (kv : ustr * ustr) => uset (fst kv) (snd kv) acc) l acc)) -> In k (map fst acc) \/ In k (map fst l)).
          { induction l as [|[a b] l IH]; intros acc H; cbn [fold_left] in H; [auto|]. apply IH in H as [H|H]; [|right; now right]. cbn [fst snd] in H.
            assert (Q : In k (map fst acc) \/ k = a). { clear -H. induction acc as [|[a' b'] acc IH]; cbn in H; [destruct H as [H|[]]; auto|]. destruct (ueqb a a') eqn:E; cbn in H.
              - apply ueqb_eq in E. subst. destruct H as [H|H]; [left; now left|left; now right]. - destruct H as [H|H]; [left; now left|]. destruct (IH H); [left; now right|auto]. }
            destruct Q as [Q|Q]; [auto|right; left; auto]. }
          destruct (G _ _ Hk) as [[]|H]. exact H. }
        clear Hk. rewrite concat_map, map_map in Hk'. apply in_concat in Hk' as [l [Hl Hk]]. apply in_map_iff in Hl as [x [<- Hx]].
        assert (Z : exists it, In it (items_of W c) /\ emit W prec vb ci ns nss attrs (ws_of W prec vb attrs) it = Ok x). { clear -Hms Hx. induction Hms as [|it y its ms Hy _ IH]; [contradiction|]. destruct Hx as [->|Hx]; [exists it; split; [now left|exact Hy]|]. destruct (IH Hx) as [i [A B]]. exists i. split; [now right|exact B]. }
        destruct Z as [it [Hin Ex]]. destruct (Y it x Hin Ex) as [[_ ->]|[_ [Hkept [_ [_ [Z _]]]]]]; [contradiction|]. destruct (Z _ Hk) as [As ->]. specialize (Hi _ Hkept). unfold item_fits in Hi. apply andb_prop in Hi as [_ Hi].
        assert (Hi' : existsb (fun x => String.eqb (fst (fst x)) (it_node it)) (d_attrs d) = true) by (destruct (it_set it); try discriminate As; exact Hi). apply existsb_exists in Hi' as [a [Ha' Ea]]. apply seqb_eq in Ea. exists a. split; [exact Ha'|now rewrite Ea].
      - intros a Ha' R. rewrite forallb_forall in Hr. specialize (Hr _ Ha'). rewrite R in Hr. cbn [negb orb] in Hr. apply existsb_exists in Hr as [it [Hk Hr]]. rewrite !andb_true_iff in Hr. destruct Hr as [[R1 R2] R3]. apply seqb_eq in R1.
        assert (Hin : In it (items_of W c)) by (unfold kept in Hk; now apply filter_In in Hk). assert (Es : it_set it = SAttrText) by (destruct (it_set it); try discriminate R3; reflexivity).
        destruct (needed_value d it (Hi _ Hk) R2) as [s [G Gs]]. rewrite Ee, fold_attrib. change (e_attrib (new_elem (ns ++ u (ci_tag ci))%list)) with (@nil (ustr * ustr)).
        assert (Z : exists x, In x ms /\ emit W prec vb ci ns nss attrs (ws_of W prec vb attrs) it = Ok x). { clear -Hms Hin. induction Hms as [|i y its ms Hy _ IH]; [contradiction|]. destruct Hin as [->|Hin]; [exists y; split; [now left|exact Hy]|]. destruct (IH Hin) as [x [A B]]. exists x. split; [now right|exact B]. }
        destruct Z as [x [Hx Ex]]. unfold emit in Ex. rewrite Es, G, Gs in Ex. injection Ex as <-. rewrite <- R1.
        assert (Hl : In (u (it_node it)) (map fst (concat (map m_attr ms)))). { rewrite concat_map, map_map. apply in_concat. exists (map fst (m_attr (em_attr (u (it_node it)) s))). split; [apply in_map_iff; eauto|now left]. }
        clear -Hl. assert (K1 : forall k (v : ustr) acc q, In q (map fst acc) -> In q (map fst (uset k v acc))). { intros k v acc q. induction acc as [|[a b] acc IH]; cbn; [tauto|]. destruct (ueqb k a) eqn:E; cbn; [|intros [H|H]; auto]. apply ueqb_eq in E. subst. tauto. }
        assert (K2 : forall k (v : ustr) acc, In k (map fst (uset k v acc))). { intros k v acc. induction acc as [|[a b] acc IH]; cbn; [auto|]. destruct (ueqb k a) eqn:E; cbn; [|auto]. auto. }
        assert (K3 : forall l acc q, In q (map fst acc) -> In q (map fst (fold_left (fun acc (kv : ustr * ustr) => uset (fst kv) (snd kv) acc) l acc))) by (induction l as [|[a b] l IH]; intros acc q H; cbn [fold_left]; auto).
        generalize (@nil (ustr * ustr)). induction (concat (map m_attr ms)) as [|[a b] l IH]; intro acc; [contradiction|]. cbn [fold_left fst snd]. destruct Hl as [Q|Q]; [cbn in Q; subst a; apply K3, K2|now apply IH].
      - intros Dt. rewrite Ee, fold_text. change (e_text (new_elem (ns ++ u (ci_tag ci))%list)) with (@None ustr).
        assert (Z : Forall (fun x => m_text x = None) ms).
        { clear -Hms Y Dt Hi. apply Forall_forall. intros x Hx. assert (Z : exists it, In it (items_of W c) /\ emit W prec vb ci ns nss attrs (ws_of W prec vb attrs) it = Ok x). { clear -Hms Hx. induction Hms as [|it y its ms Hy _ IH]; [contradiction|]. destruct Hx as [->|Hx]; [exists it; split; [now left|exact Hy]|]. destruct (IH Hx) as [i [A B]]. exists i. split; [now right|exact B]. }
          destruct Z as [it [Hin Ex]]. destruct (Y it x Hin Ex) as [[_ ->]|[_ [Hk [_ [_ [_ Z]]]]]]; [reflexivity|]. destruct (m_text x); [|reflexivity]. exfalso. specialize (Hi _ Hk). unfold item_fits in Hi. apply andb_prop in Hi as [_ Hi].
          specialize (Z ltac:(discriminate)). rewrite Dt in Hi. destruct (it_set it); discriminate. }
        clear -Z. generalize (eq_refl : @None ustr = None). generalize (@None ustr) at 1 3. induction Z as [|x ms Hx _ IH]; intros o Ho; [exact Ho|]. cbn [fold_left]. rewrite Hx. now apply IH.
      - rewrite Kids'. apply Forall_forall. intros k Hk. apply in_concat in Hk as [l [Hl Hk]]. apply in_map_iff in Hl as [x [<- Hx]].
        assert (Z : exists it, In it (items_of W c) /\ emit W prec vb ci ns nss attrs (ws_of W prec vb attrs) it = Ok x). { clear -Hms Hx. induction Hms as [|it y its ms Hy _ IH]; [contradiction|]. destruct Hx as [->|Hx]; [exists it; split; [now left|exact Hy]|]. destruct (IH Hx) as [i [A B]]. exists i. split; [now right|exact B]. }
        destruct Z as [it [Hin Ex]]. destruct (Y it x Hin Ex) as [[_ ->]|[_ [_ [_ [Z _]]]]]; [contradiction|]. rewrite Forall_forall in Z. now apply Z.
    Qed.
  End Object.

  Theorem all_valid v : vall node_ok v = true -> goal v /\ match v with VList l => Forall goal l | _ => True end.
  Proof.
    induction v as [| | | | | | | | | |l IH|c ns nss attrs IH] using value_ind'; intro V; try (split; exact I).
    - split; [exact I|]. cbn [vall] in V. rewrite forallb_forall in V. rewrite Forall_forall in *. intros x Hx. exact (proj1 (IH x Hx (V x Hx))).
    - split; [|exact I]. cbn [vall] in V. apply andb_prop in V as [V1 V2]. rewrite forallb_forall in V2. rewrite Forall_forall in IH. intros ty e Hf Hq He.
      destruct (class_of W c) as [ci|] eqn:Hc; [|unfold node_ok, typed_node in V1; rewrite Hc in V1; discriminate].
      assert (Sub : forall a x, sget a attrs = Some x -> goal x /\ match x with VList l => Forall goal l | _ => True end).
      { intros a x Hx. apply sget_In in Hx. exact (IH _ Hx (V2 _ Hx)). }
      assert (Kids : forall a x, sget a attrs = Some x -> vall node_ok x = true).
      { intros a x Hx. apply sget_In in Hx. exact (V2 _ Hx). }
      eapply object_valid; eauto.
      unfold node_ok in V1. rewrite !andb_true_iff in V1. destruct V1 as [[[_ V1] _] _]. destruct (class_type W c) as [ty'|] eqn:Et; [|discriminate]. exact (proj2 (fits_global' c ty' Et)).
  Qed.

  Theorem document_valid v : typed W v = true -> regular W m v = true -> in_schema W v = true -> timed v = true -> orderly W vb v = true ->
    forall e, etree W prec vb v = Ok e -> schema_valid e.
  Proof.
    intros H1 H2 H3 H4 H5 e He.
    assert (V : vall node_ok v = true).
    { unfold typed in H1. destruct v as [| | | | | | | | | | |c ns nss attrs]; try discriminate H1. clear He. unfold regular, in_schema, timed, orderly in *.
      revert H1 H2 H3 H4 H5. generalize (VObj c ns nss attrs). intros v H1 H2 H3 H4 H5.
      refine (vall_and (fun c ns nss attrs => typed_node W c ns nss attrs && (ueqb ns (default_ns W c m) && same_nss nss m) && match class_type W c with Some _ => true | None => false end && _ attrs) _ node_ok v _ _ H5); [|refine (vall_and (fun c ns nss attrs => typed_node W c ns nss attrs && (ueqb ns (default_ns W c m) && same_nss nss m) && match class_type W c with Some _ => true | None => false end) _ _ v _ _ H4); [|refine (vall_and (fun c ns nss attrs => typed_node W c ns nss attrs && (ueqb ns (default_ns W c m) && same_nss nss m)) _ _ v _ _ H3); [|refine (vall_and _ _ _ v _ H1 H2)]]]; intros c0 ns0 nss0 attrs0 A B; unfold node_ok; now rewrite A, B. }
    destruct v as [| | | | | | | | | | |c ns nss attrs]; try discriminate H1. cbn [vall] in V. apply andb_prop in V as [V1 V2].
    assert (V : vall node_ok (VObj c ns nss attrs) = true) by (cbn [vall]; now rewrite V1, V2).
    assert (T : exists ty, class_type W c = Some ty). { unfold node_ok in V1. rewrite !andb_true_iff in V1. destruct V1 as [[[_ V1] _] _]. destruct (class_type W c); [eauto|discriminate]. }
    destruct T as [ty T]. exists ty. split.
    - rewrite (kid_tag _ _ _ _ _ V1 (proj2 (fits_global' _ _ T)) He). exact T.
    - exact (proj1 (all_valid _ V) ty e (fits_global _ _ T) (quiet_global _ _ _ _ _ V1 T) He).
  Qed.
End Valid.
