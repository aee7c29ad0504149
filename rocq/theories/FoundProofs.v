(** * The values of a document are found under their names: proofs. *)
From Coq Require Import String List NArith ZArith Bool Arith Lia.
From Verif Require Import Ustr UstrProofs Res PyInt PyFloat PyDate Elem Value Geom Codec Spec Settled EmitProofs CodecProofs ReadProofs RoundTrip Agree AgreeProofs NsProofs Outcome AbsentProofs CoordSpec
  Schema SchemaTables SchemaSpec SchemaCheck SlotProofs SchemaProofs Lexical SchemaRead SchemaReadProofs Found.
Import ListNotations.
Local Open Scope string_scope.
Local Open Scope list_scope.

(** ** How often a content model allows some names *)

Definition plus (a b : option nat) : option nat := match a, b with Some x, Some y => Some (x + y) | _, _ => None end.
Definition larger (a b : option nat) : option nat := match a, b with Some x, Some y => Some (Nat.max x y) | _, _ => None end.
Definition times (a b : option nat) : option nat :=
  match a, b with Some 0, _ | _, Some 0 => Some 0 | Some x, Some y => Some (x * y) | _, _ => None end.
Definition within (n : nat) (b : option nat) : Prop := match b with Some m => n <= m | None => True end.

Fixpoint at_most (ns : list sname) (p : particle) : option nat :=
  match p with
  | PEl names _ b => if existsb (fun n => existsb (same_name n) ns) names then b else Some 0
  | PAny o _ b => if existsb (fun n => foreign schema_uris o (tag n)) ns then b else Some 0
  | PSeq ps _ b => times b ((fix go ps := match ps with [] => Some 0 | p :: ps' => plus (at_most ns p) (go ps') end) ps)
  | PChoice ps _ b => times b ((fix go ps := match ps with [] => Some 0 | p :: ps' => larger (at_most ns p) (go ps') end) ps)
  end.

Definition hit (ns : list sname) (t : ustr) : bool := existsb (fun n => ueqb (tag n) t) ns.
Definition hits (ns : list sname) (ts : list ustr) : nat := length (filter (hit ns) ts).

Lemma hits_app ns a b : hits ns (a ++ b) = hits ns a + hits ns b.
Proof. unfold hits. now rewrite filter_app, app_length. Qed.

Lemma within_times n k b c : within n b -> within k c -> within (n * k) (times b c).
Proof.
  intros B C. unfold times. destruct b as [[|b]|].
  - cbn in *. assert (n = 0) by lia. subst. cbn. lia.
  - destruct c as [[|c]|]; cbn in *; [assert (k = 0) by lia; subst; rewrite Nat.mul_0_r; lia| |exact I]. now apply (Nat.mul_le_mono n (S b) k (S c)).
  - destruct c as [[|c]|]; cbn in *; [assert (k = 0) by lia; subst; rewrite Nat.mul_0_r; lia|exact I|exact I].
Qed.
Lemma within_le n k b : n <= k -> within k b -> within n b.
Proof. destruct b; cbn; [lia|auto]. Qed.
Lemma within_plus n k b c : within n b -> within k c -> within (n + k) (plus b c).
Proof. destruct b, c; cbn; try exact (fun _ _ => I); lia. Qed.
Lemma within_left n b c : within n b -> within n (larger b c).
Proof. destruct b, c; cbn; try exact (fun _ => I); lia. Qed.
Lemma within_right n b c : within n c -> within n (larger b c).
Proof. destruct b, c; cbn; try exact (fun _ => I); lia. Qed.

Lemma repeated_hits ns (P : list ustr -> Prop) a b c ts : (forall r, P r -> within (hits ns r) c) -> repeated P a b ts -> within (hits ns ts) (times b c).
Proof.
  intros H (runs & -> & F & _ & L). destruct c as [m|].
  - assert (Q : hits ns (concat runs) <= length runs * m).
    { clear L. induction F as [|r l Hr _ IH]; [apply le_n|]. cbn [concat length]. rewrite hits_app. specialize (H r Hr). cbn in H. lia. }
    eapply within_le; [exact Q|]. apply within_times; [exact L|apply le_n].
  - destruct b as [[|b]|]; [|exact I|exact I]. destruct runs; [apply le_n|cbn in L; lia].
Qed.

Lemma times_one b : times b (Some 1) = b.
Proof. destruct b as [[|b]|]; cbn; [reflexivity|now rewrite Nat.mul_1_r|reflexivity]. Qed.
Lemma times_zero b : times b (Some 0) = Some 0.
Proof. now destruct b as [[|b]|]. Qed.

Lemma at_most_ok ns : forall p ts, allows schema_uris p ts -> within (hits ns ts) (at_most ns p).
Proof.
  fix IH 1. intros [names a b|o a b|ps a b|ps a b] ts H; cbn [allows at_most] in *.
  - destruct (existsb _ names) eqn:E.
    + rewrite <- (times_one b). eapply repeated_hits; [|exact H]. intros r (n & _ & ->). cbn. unfold hits. cbn [filter]. destruct (hit _ _); cbn; lia.
    + rewrite <- (times_zero b). eapply repeated_hits; [|exact H]. intros r (n & Hn & ->). cbn. unfold hits. cbn [filter]. destruct (hit ns (tag n)) eqn:Q; [|cbn; lia]. exfalso. unfold hit in Q. apply existsb_exists in Q as [k [Hk Q]].
      assert (X : existsb (fun n => existsb (same_name n) ns) names = true); [|congruence]. apply existsb_exists. exists n. split; [exact Hn|]. apply existsb_exists. exists k. split; [exact Hk|]. rewrite same_name_eq. apply ueqb_eq in Q. rewrite Q. apply ueqb_refl.
  - destruct (existsb _ ns) eqn:E.
    + rewrite <- (times_one b). eapply repeated_hits; [|exact H]. intros r (t & _ & ->). cbn. unfold hits. cbn [filter]. destruct (hit _ _); cbn; lia.
    + rewrite <- (times_zero b). eapply repeated_hits; [|exact H]. intros r (t & Ht & ->). cbn. unfold hits. cbn [filter]. destruct (hit ns t) eqn:Q; [|cbn; lia]. exfalso. unfold hit in Q. apply existsb_exists in Q as [k [Hk Q]]. apply ueqb_eq in Q. subst t.
      assert (X : existsb (fun n => foreign schema_uris o (tag n)) ns = true); [|congruence]. apply existsb_exists. eauto.
  - eapply repeated_hits; [|exact H]. clear H. induction ps as [|p ps IHp]; intros r H.
    + subst r. cbn. lia.
    + destruct H as (x & y & -> & Hx & Hy). rewrite hits_app. apply within_plus; [now apply IH|now apply IHp].
  - eapply repeated_hits; [|exact H]. clear H. induction ps as [|p ps IHp]; intros r H; [contradiction|]. destruct H as [H|H].
    + apply within_left. now apply IH.
    + apply within_right. now apply IHp.
Qed.

(** ** The check *)

Definition is_leaf (g : getter) : bool := match g with GText | GBool | GInt | GFloat | GEnum | GDate => true | _ => false end.
Definition is_attr (g : getter) : bool := match g with GAttrText | GAttrInt | GAttrFloat | GAttrEnum => true | _ => false end.

Definition locals (W : world) (it : item) : list string :=
  match it_get it with GObj | GObjs => map (tag_of W) (it_classes it) | _ => [it_node it] end.
Definition under (ls : list string) (id : string) : list sname := if known_id id then map (fun l => (id, l)) ls else [].
Definition item_tags (W : world) (it : item) : list sname :=
  flat_map (under (locals W it)) (it_nsids it).
Definition few (ns : list sname) (d : decl) : bool :=
  match at_most ns (d_content d) with Some m => Nat.leb m 1 | None => false end.

(** The names an item looks for before [n]. *)
Fixpoint until (n : sname) (l : list sname) : list sname :=
  match l with [] => [] | x :: l' => if sname_eqb x n then [] else x :: until n l' end.

(** The first child called [n] is the one an item reads. *)
Definition reads_first (W : world) (p : sname) (d : decl) (n : sname) (it : item) : bool :=
  among n (item_tags W it) && (if first_only p then true else few [n] d) &&
  (if forallb (fun x => among x (preferred p n)) (until n (item_tags W it)) then true else few (item_tags W it) d).

Definition untyped (g : getter) (st : sname) : bool := match g with GText | GAttrText | GNodeText => negb (typed_text st) | _ => true end.

Definition keeps_child (W : world) (p : sname) (ci : class_info) (d : decl) (n : sname) (a : string) (it : item) : bool :=
  if negb (String.eqb (it_attr it) a) then false else
  negb (is_track ci && mem (it_attr it) track_attrs) &&
  match it_get it with
  | GObj => reads_first W p d n it
  | GObjs => match it_nsids it with id :: _ => known_id id && existsb (fun c => sname_eqb (id, tag_of W c) n) (it_classes it) | [] => false end &&
             (filtered p || match ckind_of ci (it_attr it) with Some CFilter => false | _ => true end)
  | g => is_leaf g && reads_first W p d n it && bare (it_node it) &&
         match kid_of d n with
         | Some ty => match type_decl ty with
                      | Some d' => forallb (fun y => lost_attribute n (fst (fst y))) (d_attrs d') && match d_text d' with Some st => untyped g st | None => false end
                      | None => false
                      end
         | None => true
         end
  end.

Definition keeps_attr (W : world) (p : sname) (ci : class_info) (y : string * bool * sname) (it : item) : bool :=
  String.eqb (it_attr it) (attribute_for p ("", fst (fst y))) && negb (is_track ci && mem (it_attr it) track_attrs) &&
  is_attr (it_get it) && String.eqb (it_node it) (fst (fst y)) && mem "" (it_nsids it) && untyped (it_get it) (snd y).

Definition keeps_text (p : sname) (ci : class_info) (st : sname) (it : item) : bool :=
  String.eqb (it_attr it) (text_attribute p) && negb (is_track ci && mem (it_attr it) track_attrs) &&
  match it_get it with GNodeText | GCoords => true | _ => false end && negb (nilb (it_nsids it)) && untyped (it_get it) st.

Definition keeps (W : world) (c ty : string) : bool :=
  match type_decl ty, class_of W c with
  | Some d, Some ci =>
      let p := class_sname W c in
      let its := items_of W c in
      forallb (fun n => if lost p n || paired_child p n then true else let a := attribute_for p n in existsb (keeps_child W p ci d n a) its) (names (d_content d)) &&
      forallb (fun y => lost_attribute p (fst (fst y)) || existsb (keeps_attr W p ci y) its) (d_attrs d) &&
      match d_text d with Some st => existsb (keeps_text p ci st) its | None => true end
  | _, _ => false
  end.

Definition keep_ok (W : world) : bool :=
  forallb (fun cc => match type_of W (fst cc) with Some ty => keeps W (fst cc) ty | None => true end) (w_classes W) &&
  keeps W "links.Icon" icon_type.

(** ** What the reader stores *)

Lemma among_In n l : among n l = true -> In n l.
Proof. unfold among. intro H. apply existsb_exists in H as [x [Hx E]]. apply sname_eqb_eq in E. now subst. Qed.
Lemma sname_eqb_refl n : sname_eqb n n = true.
Proof. destruct n. unfold sname_eqb. cbn. now rewrite !String.eqb_refl. Qed.
Lemma In_among n l : In n l -> among n l = true.
Proof. intro H. apply existsb_exists. exists n. split; [exact H|apply sname_eqb_refl]. Qed.

Lemma try_from (g : ustr -> res (option value)) m (Q : value -> Prop) : forall ids r,
  (exists pre id post, ids = pre ++ id :: post /\ (forall i o, In i pre -> g (ns_get m i) = Ok o -> o = None) /\ (forall o, g (ns_get m id) = Ok o -> exists w, o = Some w /\ Q w)) ->
  try_nsids g m ids = Ok r -> exists w, r = Some w /\ Q w.
Proof.
  intros ids r (pre & id & post & -> & Hp & Hq). induction pre as [|i pre IH]; cbn [app try_nsids]; intro H; apply bind_ok in H as [o [Ho H]].
  - destruct (Hq o Ho) as [w [-> Hw]]. injection H as <-. eauto.
  - rewrite (Hp i o (or_introl eq_refl) Ho) in H. apply IH; [|exact H]. intros i' o' Hi'. apply Hp. now right.
Qed.

Lemma text_bool W s b : s <> [] -> py_bool W (VStr s) = Ok b -> b = true.
Proof. intros N H. unfold py_bool in H. cbn in H. destruct s; [contradiction|]. cbn in H. now injection H as <-. Qed.
Lemma enum_bool W c s b : py_bool W (VEnum c s) = Ok b -> b = true.
Proof. unfold py_bool. cbn. congruence. Qed.

Definition fits_getter (g : getter) (w : value) : bool :=
  match g, w with
  | (GNodeText | GText | GAttrText), VStr s => negb (uempty (strip s))
  | GBool, VBool _ | (GInt | GFloat | GAttrInt | GAttrFloat), VNum _ | (GEnum | GAttrEnum), VEnum _ _ | GDate, VDate _ | GCoords, VCoords false _ | GObj, VObj _ _ _ _ => true
  | _, _ => false
  end.
Definition kept (w x : value) : Prop :=
  match w with VStr s => exists t, x = VStr t /\ strip t = strip s | _ => x = w end.

Lemma nonblank s : uempty (strip s) = false -> s <> [].
Proof. intros H ->. discriminate. Qed.

Lemma stored_item W c ci (r : item -> option value) attrs it w : world_ok W = true -> class_of W c = Some ci ->
  (forall b, kwget (kw_of r (items_of W c)) b = match find_item b (items_of W c) with Some it => match r it with Some w => w | None => VNone end | None => VNone end) ->
  (forall b, match ckind_of ci b with
      | Some k => exists y, mk_attr W (kw_of r (items_of W c)) (b, k) = Ok (b, y) /\ sget b attrs = Some y
      | None => sget b attrs = if mem b (ci_params ci) then None else match find_item b (items_of W c) with Some it => r it | None => None end
      end) ->
  In it (items_of W c) -> negb (is_track ci && mem (it_attr it) track_attrs) = true -> r it = Some w -> fits_getter (it_get it) w = true ->
  kept w (stored attrs (it_attr it)).
Proof.
  intros HW Hc Hkw Hat Hi Nt Hr Fg. assert (F := world_class _ _ _ HW Hc). assert (Fi := find_item_NoDup _ _ (cf_attrs _ _ _ F) Hi).
  specialize (Hat (it_attr it)). unfold stored. destruct (ckind_of ci (it_attr it)) as [k|] eqn:Ek.
  - destruct Hat as [y [Hm ->]]. unfold mk_attr in Hm. rewrite Hkw, Fi, Hr in Hm. apply bind_ok in Hm as [z [Hz E]]. injection E as <-.
    destruct (cf_kind _ _ _ F (it_attr it, k) (sget_In _ _ _ Ek)) as [Hko _]. cbn [fst snd] in Hko. rewrite Fi in Hko.
    assert (Hok := cf_items _ _ _ F it Hi). unfold item_ok in Hok. rewrite !andb_true_iff in Hok. destruct Hok as [[[Hp _] _] _].
    destruct (it_get it), w; cbn [fits_getter] in Fg; try discriminate Fg; destruct (it_set it) eqn:Es; try discriminate Hp; destruct k; cbn [ckind_ok] in Hko; rewrite ?Es in Hko; try discriminate Hko; cbn [kept];
      try (injection Hz as <-; eauto; fail).
    all: try (apply negb_true_iff in Fg; assert (Ne := nonblank _ Fg)).
    all: try (unfold clean_string in Hz; destruct s as [|ch s]; [contradiction|]; cbn [uempty] in Hz; cbv zeta in Hz; rewrite Fg in Hz; injection Hz as <-; eexists; split; [reflexivity|apply strip_idem]).
    all: apply bind_ok in Hz as [b [Hb Hz]]; try (rewrite (text_bool _ _ _ Ne Hb) in Hz); try (rewrite (enum_bool _ _ _ _ Hb) in Hz).
    all: try (injection Hz as <-; eauto; fail).
    all: try (unfold clean_string in Hz; destruct s as [|ch s]; [contradiction|]; cbn [uempty] in Hz; cbv zeta in Hz; rewrite Fg in Hz; injection Hz as <-; eexists; split; [reflexivity|apply strip_idem]).
    (* coordinates *)
    destruct tup; [discriminate|]. unfold py_bool in Hb. cbn in Hb. injection Hb as <-. destruct l; injection Hz as <-; reflexivity.
  - rewrite Fi, Hr in Hat. assert (Hpl := cf_placed _ _ _ F it Hi). unfold placed in Hpl. destruct (mem (it_attr it) (ci_params ci)).
    + exfalso. apply orb_prop in Hpl as [Hpl|Hpl]; [|rewrite Hpl in Nt; discriminate].
      rewrite existsb_exists in Hpl. destruct Hpl as [[b k] [Hb E]]. apply String.eqb_eq in E. cbn in E. subst b. unfold ckind_of in Ek. now rewrite (sget_NoDup _ _ _ (cf_ctor _ _ _ F) Hb) in Ek.
    + rewrite Hat. destruct w; cbn [kept]; eauto.
Qed.

(** Values that are kept stand for the text. *)
Lemma kept_stands W st s w x : stands_for W st s w -> kept w x -> stands_for W st s x.
Proof. destruct w; cbn [kept]; try (intros H ->; exact H). intros [H1 H2] [t [-> H3]]. split; [exact H1|congruence]. Qed.

Lemma bool_text s v : get_boolean_value true s = Ok v -> exists b, v = VBool b /\ (if b then s = u "1" \/ s = u "true" else s = u "0" \/ s = u "false").
Proof.
  unfold get_boolean_value. destruct (ueqb s (u "1") || ueqb s (u "true")) eqn:A.
  - intro H. injection H as <-. exists true. split; [reflexivity|]. apply orb_prop in A as [A|A]; apply ueqb_eq in A; auto.
  - destruct (ueqb s (u "0") || ueqb s (u "false")) eqn:B; [|discriminate]. intro H. injection H as <-. exists false. split; [reflexivity|]. apply orb_prop in B as [B|B]; apply ueqb_eq in B; auto.
Qed.
Lemma enum_text c e s v : get_enum_value c e true s = Ok v -> v = VEnum c s.
Proof.
  unfold get_enum_value. intro H. apply bind_ok in H as [k [_ H]]. cbn [andb] in H. destruct (ueqb k s) eqn:E; [|discriminate]. apply ueqb_eq in E. subst. now injection H as <-.
Qed.
Lemma guarded_some r o : guarded true r = Ok o -> exists v, o = Some v /\ r = Ok v.
Proof. destruct r as [v|[]]; cbn; intro H; try discriminate H. injection H as <-. eauto. Qed.

Lemma floats_text l r : floats_of l = Ok r -> Forall2 (fun c n => exists f, float_of_str c = Ok f /\ n = NFloat f) l r.
Proof.
  unfold floats_of. intro H. apply map_res_ok in H. eapply Forall2_weaken; [|exact H]. intros c n E. apply bind_ok in E as [f [Ef E]]. injection E as <-. eauto.
Qed.
Lemma coords_stand W st s l : parse_coordinates s = Ok (VCoords false l) -> stands_for W st (strip s) (VCoords false l).
Proof.
  intros H cells Hc T. assert (E : parse_coordinates (strip s) = parse_coordinates s) by (unfold parse_coordinates; now rewrite strip_idem). rewrite <- E, (coords_text_parse _ _ Hc T) in H.
  apply bind_ok in H as [r [Hr H]]. injection H as <-. apply map_res_ok in Hr. eapply Forall2_weaken; [|exact Hr]. intros. now apply floats_text.
Qed.

Lemma until_app n l : among n l = true -> exists post, l = until n l ++ n :: post.
Proof.
  induction l as [|x l IH]; [discriminate|]. cbn [among existsb until]. destruct (sname_eqb x n) eqn:E.
  - intros _. apply sname_eqb_eq in E. subst. exists l. reflexivity.
  - intro H. assert (E' : sname_eqb n x = false). { destruct (sname_eqb n x) eqn:Q; [|reflexivity]. apply sname_eqb_eq in Q. subst. now rewrite sname_eqb_refl in E. } rewrite E' in H. destruct (IH H) as [post Hp]. exists post. cbn [app]. now f_equal.
Qed.
Lemma until_cons_first {A} (f : A -> sname) n l1 l2 : among n (map f l1) = true -> until n (map f l1 ++ l2) = until n (map f l1).
Proof.
  induction l1 as [|x l1 IH]; [discriminate|]. cbn [map app until among existsb]. destruct (sname_eqb (f x) n) eqn:E; [reflexivity|]. intro H. assert (E' : sname_eqb n (f x) = false). { destruct (sname_eqb n (f x)) eqn:Q; [|reflexivity]. apply sname_eqb_eq in Q. subst. now rewrite sname_eqb_refl in E. } rewrite E' in H. cbn [orb] in H. now rewrite IH.
Qed.
Lemma until_skip n l1 l2 : among n l1 = false -> until n (l1 ++ l2) = l1 ++ until n l2.
Proof.
  induction l1 as [|x l1 IH]; [reflexivity|]. cbn [app until among existsb]. intro H. apply orb_false_elim in H as [H1 H2]. destruct (sname_eqb x n) eqn:E; [apply sname_eqb_eq in E; subst; now rewrite sname_eqb_refl in H1|]. now rewrite IH.
Qed.

Section Finding.
  Variable W : world.
  Hypothesis HW : world_ok W = true.
  Hypothesis HR : read_ok W = true.
  Hypothesis HK : keep_ok W = true.
  Variable m : nss_t.
  Hypothesis Hm : schema_nss m = true.
  Hypothesis He : ns_get m "" = [].
  Hypothesis Hi : merge_ns m = m.

  Definition fgoal (e : elem) : Prop :=
    forall c ty ns v, e_tag e = tag (class_sname W c) -> rfits W c ty = true -> keeps W c ty = true -> S_valid ty e ->
      from_element W true e c ns m = Ok v -> found W (class_sname W c) ty e v.

  Section Element.
    Variables (c : string) (ci : class_info) (d : decl) (a : list (ustr * ustr)) (x : option ustr) (ks : list elem).
    Hypothesis Hc : class_of W c = Some ci.
    Hypothesis Hq : qualified d = true.
    Hypothesis Hb : forallb (fun y => bare (fst (fst y))) (d_attrs d) = true.
    Hypothesis Hir : forallb (item_reads W c d) (items_of W c) = true.
    Hypothesis Hv : allows schema_uris (d_content d) (map e_tag ks).
    Hypothesis Ha : attrs_valid d a.
    Hypothesis Hk : forall k, In k ks -> exists ty, S_kid d (e_tag k) = Some ty /\ S_valid ty k.
    Hypothesis IH : forall k, In k ks -> fgoal k.
    Notation p := (class_sname W c).
    Notation rks := (map (kid_reader W true) ks).

    Lemma fkid_brace k : In k ks -> starts (u "{") (e_tag k) = true.
    Proof.
      intro Hin. destruct (Hk k Hin) as [ty [E _]]. unfold kid_type in E. destruct (lookup schema_uris (e_tag k) (d_local d)) as [ty'|] eqn:El.
      - apply lookup_in in El as [n [Hn <-]]. apply in_map_iff in Hn as [y [<- Hy]]. unfold qualified in Hq. rewrite forallb_forall in Hq. now apply Hq.
      - apply lookup_in in E as [n [Hn <-]]. apply in_map_iff in Hn as [y [<- Hy]]. assert (R := HR). unfold read_ok in R. rewrite !andb_true_iff in R. destruct R as [[R _] _]. rewrite forallb_forall in R. now apply R.
    Qed.

    (** Nothing is found under a name without a name space. *)
    Lemma fkid_known k id n : In k ks -> known_id id || String.eqb id "" = true -> bare n = true -> e_tag k = ns_get m id ++ u n -> known_id id = true /\ e_tag k = tag (id, n).
    Proof.
      intros Hin Hid Hn E. destruct (known_id id) eqn:K.
      - rewrite (tag_id m id n Hm K) in E. now split.
      - cbn [orb] in Hid. apply seqb_eq in Hid. subst id. exfalso. rewrite He in E. cbn [app] in E. assert (B := fkid_brace k Hin). rewrite E in B. unfold bare in Hn. now rewrite B in Hn.
    Qed.

    Lemma few_hits ns k : few ns d = true -> In k ks -> hit ns (e_tag k) = true -> filter (fun k => hit ns (e_tag k)) ks = [k].
    Proof.
      intros F Hin Hh. unfold few in F. assert (L := at_most_ok ns _ _ Hv). destruct (at_most ns (d_content d)) as [q|]; [|discriminate]. apply Nat.leb_le in F. cbn in L.
      assert (L' : length (filter (fun k => hit ns (e_tag k)) ks) <= 1).
      { eapply Nat.le_trans; [|eapply Nat.le_trans; [exact L|exact F]]. unfold hits. clear. induction ks as [|y l IHl]; [apply le_n|]. cbn [map filter]. destruct (hit ns (e_tag y)); cbn [length]; lia. }
      assert (I : In k (filter (fun k => hit ns (e_tag k)) ks)) by (apply filter_In; now split). destruct (filter _ ks) as [|y [|]]; [contradiction| |cbn in L'; lia]. destruct I as [->|[]]. reflexivity.
    Qed.

    Lemma hit_In ns n : In n ns -> hit ns (tag n) = true.
    Proof. intro H. apply existsb_exists. exists n. split; [exact H|apply ueqb_refl]. Qed.

    Lemma find_first bf k af t : ks = bf ++ k :: af -> e_tag k = t -> (forall y, In y bf -> e_tag y <> t) -> find_kid t rks = Some (kid_reader W true k).
    Proof.
      intros Ek E N. rewrite Ek. clear Ek. induction bf as [|y bf IHb].
      - cbn [app map find_kid fst]. now rewrite E, ueqb_refl.
      - cbn [app map find_kid fst]. destruct (ueqb (e_tag y) t) eqn:Q; [apply ueqb_eq in Q; now elim (N y (or_introl eq_refl))|]. apply IHb. intros z Hz. apply N. now right.
    Qed.
    Lemma find_none t : (forall y, In y ks -> e_tag y <> t) -> find_kid t rks = None.
    Proof.
      clear. induction ks as [|y l IHl]; [reflexivity|]. intro N. cbn [map find_kid fst]. destruct (ueqb (e_tag y) t) eqn:Q; [apply ueqb_eq in Q; now elim (N y (or_introl eq_refl))|]. apply IHl. intros z Hz. apply N. now right.
    Qed.

    (** The child [k] is the one the item reads. *)
    Lemma reads_first_ok n it bf k af : reads_first W p d n it = true -> ks = bf ++ k :: af -> e_tag k = tag n -> left_out p n (map e_tag ks) (map e_tag bf) = false ->
      In n (item_tags W it) /\ find_kid (tag n) rks = Some (kid_reader W true k) /\ forall y z, In y (until n (item_tags W it)) -> In z ks -> e_tag z <> tag y.
    Proof.
      intros R E Et L. unfold reads_first in R. rewrite !andb_true_iff in R. destruct R as [[R1 R2] R3]. apply among_In in R1. unfold left_out in L. apply orb_false_elim in L as [L1 L2].
      assert (Hin : In k ks) by (rewrite E; apply in_or_app; right; now left). split; [exact R1|].
      assert (F : find_kid (tag n) rks = Some (kid_reader W true k)).
      { apply (find_first bf k af (tag n) E Et). intros y Hy Ey. destruct (first_only p) eqn:Fo.
        - cbn [andb] in L2. assert (X : existsb (ueqb (tag n)) (map e_tag bf) = true); [|congruence]. apply existsb_exists. exists (e_tag y). split; [now apply in_map|]. rewrite Ey. apply ueqb_refl.
        - assert (S := few_hits [n] k R2 Hin ltac:(rewrite Et; apply hit_In; now left)). rewrite E, filter_app in S. cbn [filter] in S. rewrite Et in S. rewrite (hit_In [n] n (or_introl eq_refl)) in S.
          assert (I : In y (filter (fun k => hit [n] (e_tag k)) bf)) by (apply filter_In; split; [exact Hy|rewrite Ey; apply hit_In; now left]).
          destruct (filter _ bf) as [|y' [|]]; [contradiction|discriminate S|discriminate S]. }
      split; [exact F|]. intros y z Hy Hz Ez. destruct (forallb _ (until n _)) eqn:Fa.
      - rewrite forallb_forall in Fa. specialize (Fa _ Hy). apply among_In in Fa. assert (X : existsb (fun q => existsb (ueqb (tag q)) (map e_tag ks)) (preferred p n) = true); [|congruence].
        apply existsb_exists. exists y. split; [exact Fa|]. apply existsb_exists. exists (e_tag z). split; [now apply in_map|]. rewrite Ez. apply ueqb_refl.
      - destruct (until_app n _ (In_among _ _ R1)) as [post U]. assert (Iy : In y (item_tags W it)) by (rewrite U; apply in_or_app; now left).
        assert (S := few_hits _ k R3 Hin ltac:(rewrite Et; now apply hit_In)).
        assert (I : In z (filter (fun k => hit (item_tags W it) (e_tag k)) ks)) by (apply filter_In; split; [exact Hz|rewrite Ez; now apply hit_In]). rewrite S in I. destruct I as [->|[]].
        rewrite Et in Ez. assert (Q : same_name n y = true) by (rewrite same_name_eq, Ez; apply ueqb_refl).
        assert (Kn : forall q, In q (item_tags W it) -> known_id (fst q) = true).
        { intros q H. unfold item_tags in H. apply in_flat_map in H as [id [_ H]]. unfold under in H. destruct (known_id id) eqn:K; [|contradiction]. apply in_map_iff in H as [l [<- _]]. exact K. }
        unfold same_name in Q. rewrite (Kn n R1), (Kn y Iy) in Q. cbn [andb] in Q. apply andb_prop in Q as [Q1 Q2]. apply seqb_eq in Q1, Q2. assert (y = n) by (destruct y, n; cbn in *; congruence). subst y.
        clear -Hy. induction (item_tags W it) as [|q l IHl]; [contradiction|]. cbn [until] in Hy. destruct (sname_eqb q n) eqn:E; [contradiction|]. destruct Hy as [->|Hy]; [now rewrite sname_eqb_refl in E|now apply IHl].
    Qed.

    Lemma tags_split n ls ids : among n (flat_map (under ls) ids) = true ->
      exists pre id post, ids = pre ++ id :: post /\ known_id id = true /\ fst n = id /\ In (snd n) ls /\
        until n (flat_map (under ls) ids) =
        flat_map (under ls) pre ++ until n (map (fun l => (id, l)) ls).
    Proof.
      clear. induction ids as [|id ids IHd]; [discriminate|]. cbn [flat_map]. intro H. destruct (among n (under ls id)) eqn:A.
      - exists [], id, ids. unfold under in A. destruct (known_id id) eqn:K; [|discriminate]. assert (I := among_In _ _ A). apply in_map_iff in I as [l [<- Hl]]. repeat split; auto. cbn [flat_map app]. unfold under at 1. rewrite K. now apply until_cons_first.
      - assert (H' : among n (flat_map (under ls) ids) = true) by (unfold among in *; rewrite existsb_app in H; apply orb_prop in H as [H|H]; [congruence|exact H]). destruct (IHd H') as (pre & i & post & -> & K & F & I & U). exists (id :: pre), i, post. repeat split; auto. cbn [flat_map]. rewrite <- app_assoc, <- U. now apply until_skip.
    Qed.

    Lemma ids_known it : In it (items_of W c) -> forall id, In id (it_nsids it) -> known_id id || String.eqb id "" = true.
    Proof.
      intros Hit id Hid. rewrite forallb_forall in Hir. specialize (Hir _ Hit). unfold item_reads in Hir. apply andb_prop in Hir as [H _]. rewrite forallb_forall in H. now apply H.
    Qed.

    Lemma leaf_found n it bf k af r st : In it (items_of W c) -> is_leaf (it_get it) = true -> reads_first W p d n it = true -> bare (it_node it) = true ->
      ks = bf ++ k :: af -> e_tag k = tag n -> left_out p n (map e_tag ks) (map e_tag bf) = false -> blank (e_text k) = false -> untyped (it_get it) st = true ->
      try_nsids (fun n => get_kwarg W true it a x rks n m) m (it_nsids it) = Ok r ->
      exists w, r = Some w /\ fits_getter (it_get it) w = true /\ stands_for W st (the_text (e_text k)) w.
    Proof.
      intros Hit Lf R Bn E Et L B U H. destruct (reads_first_ok n it bf k af R E Et L) as (I & Fk & Nu).
      assert (Lo : locals W it = [it_node it]) by (unfold locals; now destruct (it_get it)).
      apply In_among in I. unfold item_tags in I, Nu. rewrite Lo in I, Nu. destruct (tags_split _ _ _ I) as (pre & id & post & Ei & K & Fn & Sn & Un). rewrite Un in Nu. destruct Sn as [Sn|[]].
      assert (En : n = (id, it_node it)) by (destruct n; cbn in *; congruence).
      refine (try_from _ m (fun w => fits_getter (it_get it) w = true /\ stands_for W st (the_text (e_text k)) w) _ _ _ H). exists pre, id, post. split; [exact Ei|]. split.
      - intros i o Hi' Ho. assert (Fn' : find_kid (ns_get m i ++ u (it_node it)) rks = None).
        { apply find_none. intros y Hy Ey. destruct (fkid_known y i (it_node it) Hy (ids_known it Hit i ltac:(rewrite Ei; apply in_or_app; now left)) Bn Ey) as [Ki Ti].
          apply (Nu (i, it_node it) y); [|exact Hy|exact Ti]. apply in_or_app. left. apply in_flat_map. exists i. split; [exact Hi'|]. unfold under. rewrite Ki. now left. }
        unfold get_kwarg in Ho. cbv zeta in Ho. rewrite Fn' in Ho. destruct (it_get it); try discriminate Lf; try congruence.
        + repeat (match type of Ho with context [match ?q with _ => _ end] => is_var q; destruct q; try discriminate Ho | context [match it_classes it with _ => _ end] => destruct (it_classes it); try discriminate Ho end); congruence.
        + unfold with_enum in Ho. destruct (it_classes it) as [|cl [|]]; try discriminate Ho. destruct (sget cl (w_enums W)); [congruence|discriminate].
      - intros o Ho. assert (Ek : ns_get m id ++ u (it_node it) = tag n) by (rewrite En; now apply tag_id).
        unfold get_kwarg in Ho. cbv zeta in Ho. rewrite Ek, Fk in Ho. cbn [fst] in Ho. unfold blank in B. destruct (e_text k) as [s|] eqn:Es; [|discriminate]. cbn [stripped the_text] in *. rewrite B in Ho.
        destruct (it_get it); try discriminate Lf.
        + injection Ho as <-. eexists. split; [reflexivity|]. cbn [fits_getter stands_for untyped] in *. rewrite strip_idem, B. apply negb_true_iff in U. now rewrite U.
        + repeat (match type of Ho with context [match ?q with _ => _ end] => is_var q; destruct q; try discriminate Ho | context [match it_classes it with _ => _ end] => destruct (it_classes it); try discriminate Ho end).
          apply guarded_some in Ho as [v [-> Ho]]. apply bool_text in Ho as [b [-> Hs]]. eexists. split; [reflexivity|]. split; [reflexivity|]. now destruct b.
        + apply guarded_some in Ho as [v [-> Ho]]. apply bind_ok in Ho as [z [Hz Ho]]. injection Ho as <-. eexists. split; [reflexivity|]. now split.
        + apply guarded_some in Ho as [v [-> Ho]]. apply bind_ok in Ho as [z [Hz Ho]]. injection Ho as <-. eexists. split; [reflexivity|]. now split.
        + unfold with_enum in Ho. destruct (it_classes it) as [|cl [|]]; try discriminate Ho. destruct (sget cl (w_enums W)); [|discriminate]. apply guarded_some in Ho as [v [-> Ho]]. apply enum_text in Ho. subst v. eexists. split; [reflexivity|]. now split.
        + apply guarded_some in Ho as [v [-> Ho]]. apply bind_ok in Ho as [z [Hz Ho]]. injection Ho as <-. eexists. split; [reflexivity|]. now split.
    Qed.

    Lemma kid_found k id cl ns ty w : In k ks -> known_id id = true -> kid_reads W d id cl = true -> e_tag k = tag (id, tag_of W cl) -> S_kid d (e_tag k) = Some ty ->
      from_element W true k cl ns m = Ok w -> found W (id, tag_of W cl) ty k w.
    Proof.
      intros Hin K R E Ek Ok. unfold kid_reads in R. rewrite !andb_true_iff in R. destruct R as [[R1 R2] R3]. rewrite K in R3. cbn [negb orb] in R3. rewrite kid_of_eq, <- E, Ek in R3. apply andb_prop in R3 as [Rn R3]. apply seqb_eq in Rn.
      assert (Ec : class_sname W cl = (id, tag_of W cl)) by (unfold class_sname, tag_of, nsid in *; destruct (class_of W cl); [now rewrite Rn|discriminate]).
      destruct (Hk k Hin) as [ty' [E' V]]. rewrite Ek in E'. injection E' as <-.
      assert (RK : rfits W cl ty = true /\ keeps W cl ty = true).
      { assert (R := HR). unfold read_ok in R. rewrite !andb_true_iff in R. destruct R as [[_ R] Ri]. assert (Q := HK). unfold keep_ok in Q. apply andb_prop in Q as [Q Qi]. apply orb_prop in R3 as [R3|R3].
        - destruct (type_of W cl) as [ty'|] eqn:Ety; [|discriminate]. apply seqb_eq in R3. subst ty'. destruct (class_of W cl) as [ci'|] eqn:Ecl; [|discriminate]. rewrite forallb_forall in R, Q. specialize (R _ (sget_In _ _ _ Ecl)). specialize (Q _ (sget_In _ _ _ Ecl)). cbn [fst] in R, Q. rewrite Ety in R, Q. now split.
        - apply andb_prop in R3 as [A B]. apply seqb_eq in A, B. subst. now split. }
      rewrite <- Ec. apply (IH k Hin cl ty ns w); [now rewrite Ec|apply RK|apply RK|exact V|exact Ok].
    Qed.

    Lemma object_found n it bf k af r ty : In it (items_of W c) -> it_get it = GObj -> reads_first W p d n it = true ->
      ks = bf ++ k :: af -> e_tag k = tag n -> left_out p n (map e_tag ks) (map e_tag bf) = false -> S_kid d (e_tag k) = Some ty ->
      try_nsids (fun n => get_kwarg W true it a x rks n m) m (it_nsids it) = Ok r ->
      exists w, r = Some w /\ found W n ty k w.
    Proof.
      intros Hit G R E Et L Ek H. destruct (reads_first_ok n it bf k af R E Et L) as (I & Fk & Nu). assert (Hin : In k ks) by (rewrite E; apply in_or_app; right; now left).
      assert (Lo : locals W it = map (tag_of W) (it_classes it)) by (unfold locals; now rewrite G).
      apply In_among in I. unfold item_tags in I, Nu. rewrite Lo in I, Nu. destruct (tags_split _ _ _ I) as (pre & id & post & Ei & K & Fn & Sn & Un). rewrite Un in Nu.
      assert (Kr : forall i cl, In i (it_nsids it) -> In cl (it_classes it) -> kid_reads W d i cl = true).
      { intros i cl Hi' Hcl. rewrite forallb_forall in Hir. specialize (Hir _ Hit). unfold item_reads in Hir. apply andb_prop in Hir as [_ X]. rewrite G in X. rewrite forallb_forall in X. specialize (X _ Hi'). rewrite forallb_forall in X. now apply X. }
      refine (try_from _ m (fun w => found W n ty k w) _ _ _ H). exists pre, id, post. split; [exact Ei|]. split.
      - intros i o Hi' Ho. unfold get_kwarg in Ho. cbv zeta in Ho. rewrite G in Ho. assert (Ii : In i (it_nsids it)) by (rewrite Ei; apply in_or_app; now left).
        assert (No : forall cl, In cl (it_classes it) -> find_kid (ns_get m i ++ u (tag_of W cl)) rks = None).
        { intros cl Hcl. apply find_none. intros y Hy Ey. assert (Kc := Kr i cl Ii Hcl). unfold kid_reads in Kc. rewrite !andb_true_iff in Kc. destruct Kc as [[_ Kb] _].
          destruct (fkid_known y i _ Hy (ids_known it Hit i Ii) Kb Ey) as [Ki Ti]. apply (Nu (i, tag_of W cl) y); [|exact Hy|exact Ti]. apply in_or_app. left. apply in_flat_map. exists i. split; [exact Hi'|]. unfold under. rewrite Ki. apply in_map. now apply in_map. }
        clear -No Ho. induction (it_classes it) as [|cl cs IHc]; [cbn in Ho; congruence|]. cbn [read_obj] in Ho. apply bind_ok in Ho as [t [Ht Ho]]. apply class_tag_of in Ht. subst t. rewrite (No cl (or_introl eq_refl)) in Ho. apply IHc; [exact Ho|]. intros c' Hc'. apply No. now right.
      - intros o Ho. unfold get_kwarg in Ho. cbv zeta in Ho. rewrite G in Ho. assert (Ii : In id (it_nsids it)) by (rewrite Ei; apply in_or_app; right; now left).
        assert (Nu' : forall y z, In y (until n (map (fun l => (id, l)) (map (tag_of W) (it_classes it)))) -> In z ks -> e_tag z <> tag y) by (intros y z Hy; apply Nu; apply in_or_app; now right).
        assert (Kr' : forall cl, In cl (it_classes it) -> kid_reads W d id cl = true) by (intros; now apply Kr). clear I Un Nu Kr Lo R.
        induction (it_classes it) as [|cl cs IHc]; [contradiction|]. cbn [read_obj] in Ho. apply bind_ok in Ho as [t [Ht Ho]]. apply class_tag_of in Ht. subst t. cbn [map until] in Nu'. rewrite (tag_id m id _ Hm K) in Ho. destruct (sname_eqb (id, tag_of W cl) n) eqn:En.
        + apply sname_eqb_eq in En. rewrite En, Fk in Ho. apply bind_ok in Ho as [w [Hw Ho]]. injection Ho as <-. cbn [snd] in Hw. exists w. split; [reflexivity|]. rewrite <- En. apply (kid_found k id cl (ns_get m id) ty w Hin K (Kr' cl (or_introl eq_refl))); [now rewrite En|exact Ek|exact Hw].
        + rewrite find_none in Ho by (intros y Hy; apply (Nu' (id, tag_of W cl) y (or_introl eq_refl) Hy)). apply IHc; [|exact Ho| |].
          * destruct Sn as [Sn|Sn]; [|exact Sn]. exfalso. assert (X : (id, tag_of W cl) = n) by (destruct n; cbn in *; congruence). rewrite X, sname_eqb_refl in En. discriminate.
          * intros y z Hy. apply Nu'. now right.
          * intros c' Hc'. apply Kr'. now right.
    Qed.

    Lemma attr_found it n st s r : In it (items_of W c) -> is_attr (it_get it) = true -> it_node it = n -> mem "" (it_nsids it) = true -> untyped (it_get it) st = true ->
      uget (u n) a = Some s -> uempty (strip s) = false -> try_nsids (fun n => get_kwarg W true it a x rks n m) m (it_nsids it) = Ok r ->
      exists w, r = Some w /\ fits_getter (it_get it) w = true /\ stands_for W st s w.
    Proof.
      intros Hit At En Me U Us B H. apply mem_In in Me.
      assert (No : forall id, known_id id = true -> uget (ns_get m id ++ u n) a = None).
      { intros id K. destruct (uget (ns_get m id ++ u n) a) as [v|] eqn:Q; [|reflexivity]. exfalso. apply uget_some in Q. destruct (proj1 Ha _ (in_map fst _ _ Q)) as [y [Hy Ek]]. cbn [fst] in Ek. rewrite forallb_forall in Hb. specialize (Hb _ Hy).
        rewrite (tag_id m id _ Hm K) in Ek. unfold bare in Hb. rewrite <- Ek in Hb. unfold known_id in K. apply mem_In in K. cbn in K. destruct K as [<-|[<-|[<-|[]]]]; discriminate Hb. }
      assert (Sp : forall ids, In "" ids -> (forall i, In i ids -> known_id i || String.eqb i "" = true) -> exists pre post, ids = pre ++ "" :: post /\ forall i, In i pre -> known_id i = true).
      { clear. induction ids as [|i ids IHd]; [contradiction|]. intros Hin Hk. destruct (known_id i) eqn:K.
        - destruct Hin as [->|Hin]; [discriminate|]. destruct (IHd Hin ltac:(intros; apply Hk; now right)) as (pre & post & -> & Hp). exists (i :: pre), post. split; [reflexivity|]. intros j [<-|Hj]; [exact K|now apply Hp].
        - specialize (Hk i (or_introl eq_refl)). rewrite K in Hk. cbn [orb] in Hk. apply seqb_eq in Hk. subst i. exists [], ids. split; [reflexivity|]. intros j []. }
      destruct (Sp _ Me (ids_known it Hit)) as (pre & post & Ei & Hp). clear Sp. assert (Ne : uempty s = false) by (destruct s; [discriminate B|reflexivity]).
      refine (try_from _ m (fun w => fits_getter (it_get it) w = true /\ stands_for W st s w) _ _ _ H). exists pre, "", post. split; [exact Ei|]. split.
      - intros i o Hi' Ho. unfold get_kwarg in Ho. cbv zeta in Ho. rewrite En, (No i (Hp i Hi')) in Ho. destruct (it_get it); try discriminate At; try congruence.
        unfold with_enum in Ho. destruct (it_classes it) as [|cl [|]]; try discriminate Ho. destruct (sget cl (w_enums W)); [congruence|discriminate].
      - intros o Ho. unfold get_kwarg in Ho. cbv zeta in Ho. rewrite En, He in Ho. cbn [app] in Ho. rewrite Us, Ne in Ho. destruct (it_get it); try discriminate At.
        + injection Ho as <-. eexists. split; [reflexivity|]. cbn [fits_getter stands_for untyped] in *. rewrite B. apply negb_true_iff in U. now rewrite U.
        + apply bind_ok in Ho as [z [Hz Ho]]. injection Ho as <-. eexists. split; [reflexivity|]. now split.
        + apply guarded_some in Ho as [v [-> Ho]]. apply bind_ok in Ho as [z [Hz Ho]]. injection Ho as <-. eexists. split; [reflexivity|]. now split.
        + unfold with_enum in Ho. destruct (it_classes it) as [|cl [|]]; try discriminate Ho. destruct (sget cl (w_enums W)); [|discriminate]. apply guarded_some in Ho as [v [-> Ho]]. apply enum_text in Ho. subst v. eexists. split; [reflexivity|]. now split.
    Qed.

    Lemma text_found it st r : match it_get it with GNodeText | GCoords => true | _ => false end = true -> nilb (it_nsids it) = false -> untyped (it_get it) st = true ->
      blank x = false -> try_nsids (fun n => get_kwarg W true it a x rks n m) m (it_nsids it) = Ok r ->
      exists w, r = Some w /\ fits_getter (it_get it) w = true /\ stands_for W st (the_text x) w.
    Proof.
      intros G N U B H. unfold blank in B. destruct x as [s|]; [|discriminate]. destruct (it_nsids it) as [|id ids]; [discriminate|]. cbn [try_nsids] in H. apply bind_ok in H as [o [Ho H]]. unfold get_kwarg in Ho. cbv zeta in Ho. cbn [the_text]. destruct (it_get it); try discriminate G.
      - cbn [stripped] in Ho. rewrite B in Ho. injection Ho as <-. injection H as <-. eexists. split; [reflexivity|]. cbn [fits_getter stands_for untyped] in *. rewrite strip_idem, B. apply negb_true_iff in U. now rewrite U.
      - apply guarded_some in Ho as [v [-> Ho]]. injection H as <-. exists v. split; [reflexivity|]. assert (Ho' := Ho). unfold parse_coordinates in Ho'. apply bind_ok in Ho' as [l [_ E]]. injection E as <-. split; [reflexivity|]. now apply coords_stand.
    Qed.

    Lemma list_found n it k ns attrs ty : In it (items_of W c) -> it_get it = GObjs ->
      match it_nsids it with id :: _ => known_id id && existsb (fun c => sname_eqb (id, tag_of W c) n) (it_classes it) | [] => false end = true ->
      filtered p || match ckind_of ci (it_attr it) with Some CFilter => false | _ => true end = true ->
      In k ks -> e_tag k = tag n -> S_kid d (e_tag k) = Some ty -> forall t, from_element W true (Elem t a x ks) c ns m = Ok (VObj c ns m attrs) ->
      exists w, found W n ty k w /\ (is_or_has (stored attrs (it_attr it)) w \/ (filtered p = true /\ truth W w = false)).
    Proof.
      intros Hit G Cv Fl Hin Et Ek t H. destruct (it_nsids it) as [|id ids] eqn:Ei; [discriminate|]. apply andb_prop in Cv as [K Cv]. apply existsb_exists in Cv as [cl [Hcl En]]. apply sname_eqb_eq in En.
      assert (Kr : kid_reads W d id cl = true).
      { rewrite forallb_forall in Hir. specialize (Hir _ Hit). unfold item_reads in Hir. apply andb_prop in Hir as [_ X]. rewrite G, Ei in X. cbn [forallb] in X. apply andb_prop in X as [X _]. rewrite forallb_forall in X. now apply X. }
      destruct (read_list W true (Elem t a x ks) c ns m ns m attrs ci it HW Hc H Hit G) as (id' & ls & E1 & E2 & E3). rewrite Ei in E1. injection E1 as <-. cbn [e_kids] in E2.
      assert (Ex : exists w, from_element W true k cl (ns_get m id) m = Ok w /\ In w (concat ls)).
      { clear E3. induction E2 as [|c' l cs' ls' Hl _ IHl]; [contradiction|]. destruct Hcl as [->|Hcl].
        - unfold of_class in Hl. rewrite (tag_id m id _ Hm K), En in Hl. assert (I : In k (with_tag (tag n) ks)) by (apply filter_In; split; [exact Hin|rewrite Et; apply ueqb_refl]).
          clear -Hl I. induction Hl as [|k' y l1 l2 Hy _ IHy]; [contradiction|]. destruct I as [->|I]; [exists y; split; [exact Hy|now left]|]. destruct (IHy I) as [w [H1 H2]]. exists w. split; [exact H1|now right].
        - destruct (IHl Hcl) as [w [H1 H2]]. exists w. split; [exact H1|]. cbn [concat]. apply in_or_app. now right. }
      destruct Ex as [w [Hw Iw]]. exists w. split; [rewrite <- En; apply (kid_found k id cl (ns_get m id) ty w Hin K Kr); [now rewrite En|exact Ek|exact Hw]|].
      assert (St : forall l, obj_attr ci attrs (it_attr it) = VList l -> stored attrs (it_attr it) = VList l).
      { intros l Q. unfold obj_attr in Q. unfold stored. destruct (sget (it_attr it) attrs); [exact Q|]. exfalso. destruct (ci_geom ci); try discriminate Q. destruct (sget "track_items" attrs) as [[]|]; try discriminate Q.
        destruct (String.eqb _ "whens"); [discriminate|]. destruct (String.eqb _ "coords"); [discriminate|]. destruct (String.eqb _ "angles"); discriminate. }
      destruct E3 as [E3|[Ec E3]]; apply St in E3; rewrite E3.
      - left. right. eauto.
      - rewrite Ec, orb_false_r in Fl. destruct (truth W w) eqn:T; [|right; now split]. left. right. exists (filter (truth W) (concat ls)). split; [reflexivity|]. apply filter_In. now split.
    Qed.
  End Element.

  Lemma valid_every d ks :
    (fix every ks := match ks with [] => True | k :: ks' => match S_kid d (e_tag k) with Some ty' => S_valid ty' k | None => False end /\ every ks' end) ks ->
    forall k, In k ks -> exists ty, S_kid d (e_tag k) = Some ty /\ S_valid ty k.
  Proof.
    induction ks as [|k ks IH]; [intros _ k' []|]. intros H k' [<-|Hk]; [|now apply IH]. destruct H as [H _]. destruct (S_kid d (e_tag k)) as [ty|]; [eauto|contradiction].
  Qed.

  Theorem found_all e : fgoal e.
  Proof.
    induction e as [t a x ks IH] using elem_ind'. rewrite Forall_forall in IH. intros c ty ns v Et Rf Kp V Ok. cbn [e_tag] in Et.
    unfold rfits in Rf. unfold keeps in Kp. unfold type_decl in Rf, Kp. cbn [valid found] in *. unfold decl_for. destruct (find _ schema_types) as [[n0 d]|]; [|contradiction]. cbn [option_map snd] in *.
    destruct (class_of W c) as [ci|] eqn:Hc; [|discriminate]. rewrite !andb_true_iff in Rf. destruct Rf as [[[[Rq Rb] Ri] Rr] Rt]. destruct V as (Va & Vt & Vx & Vk). assert (Vk' := valid_every d ks Vk). clear Vk.
    cbv zeta in Kp. rewrite !andb_true_iff in Kp. destruct Kp as [[Kc Ka] Kt].
    destruct (read_attrs W true t a x ks c ns m v HW Ok) as (ci' & r & attrs & Hc' & -> & Hr & Hkw & Hat). rewrite Hc in Hc'. injection Hc' as <-. rewrite Hi in *.
    assert (Keep := fun it w Hit Nt => stored_item W c ci r attrs it w HW Hc Hkw Hat Hit Nt).
    split; [|split].
    - intros st Hst B. rewrite Hst in Kt. apply existsb_exists in Kt as [it [Hit Kt]]. unfold keeps_text in Kt. rewrite !andb_true_iff in Kt. destruct Kt as [[[[K1 K2] K3] K4] K5]. apply seqb_eq in K1. apply negb_true_iff in K4.
      destruct (text_found a x ks it st (r it) K3 K4 K5 B (Hr it Hit)) as (w & Ew & Fw & Sw). rewrite <- K1. eapply kept_stands; [exact Sw|]. now apply Keep.
    - intros n b st s Hn Us B Ls. rewrite forallb_forall in Ka. specialize (Ka _ Hn). cbn [fst] in Ka. rewrite Ls in Ka. cbn [orb] in Ka. apply existsb_exists in Ka as [it [Hit Kn]]. unfold keeps_attr in Kn. rewrite !andb_true_iff in Kn. cbn [fst snd] in Kn.
      destruct Kn as [[[[[K1 K2] K3] K4] K5] K6]. apply seqb_eq in K1, K4.
      destruct (attr_found c d a x ks Rb Ri Vt it n st s (r it) Hit K3 K4 K5 K6 Us B (Hr it Hit)) as (w & Ew & Fw & Sw). rewrite <- K1. eapply kept_stands; [exact Sw|]. now apply Keep.
    - assert (Every : forall rest before, ks = before ++ rest ->
        (fix every before rest := match rest with
             | [] => True
             | k :: rest' =>
                 (forall n ty', In n (names (d_content d)) -> e_tag k = clark schema_uris n -> kid_type schema_uris schema_elements d (e_tag k) = Some ty' ->
                    lost (class_sname W c) n = false -> paired_child (class_sname W c) n = false -> left_out (class_sname W c) n (map e_tag ks) before = false ->
                    (exists d' st, decl_for ty' = Some d' /\ d_text d' = Some st /\ (forall y, In y (d_attrs d') -> lost_attribute n (fst (fst y)) = true) /\
                       (blank (e_text k) = true \/ stands_for W st (the_text (e_text k)) (stored attrs (attribute_for (class_sname W c) n)))) \/
                    (exists w, found W n ty' k w /\ (is_or_has (stored attrs (attribute_for (class_sname W c) n)) w \/ (filtered (class_sname W c) = true /\ truth W w = false)))) /\
                 every (before ++ [e_tag k]) rest'
             end) (map e_tag before) rest); [|exact (Every ks [] eq_refl)].
      induction rest as [|k rest IHr]; intros before Eks; [exact I|]. split; [|specialize (IHr (before ++ [k])); rewrite map_app in IHr; apply IHr; rewrite <- app_assoc; exact Eks].
      intros n ty' Hn Ek Kt' Ls Pc Lo. assert (Hin : In k ks) by (rewrite Eks; apply in_or_app; right; now left).
      rewrite forallb_forall in Kc. specialize (Kc _ Hn). rewrite Ls, Pc in Kc. cbn [orb] in Kc. cbv zeta in Kc. apply existsb_exists in Kc as [it [Hit Kn]]. unfold keeps_child in Kn.
      destruct (String.eqb (it_attr it) (attribute_for (class_sname W c) n)) eqn:Ea; [|discriminate]. apply seqb_eq in Ea. cbn [negb] in Kn. apply andb_prop in Kn as [K2 Kn]. rewrite <- Ea.
      assert (Leaf : is_leaf (it_get it) = true ->
        is_leaf (it_get it) && reads_first W (class_sname W c) d n it && bare (it_node it) && match kid_of d n with
         | Some ty => match type_decl ty with Some d' => forallb (fun y => lost_attribute n (fst (fst y))) (d_attrs d') && match d_text d' with Some st => untyped (it_get it) st | None => false end | None => false end
         | None => true end = true ->
        exists d' st, decl_for ty' = Some d' /\ d_text d' = Some st /\ (forall y, In y (d_attrs d') -> lost_attribute n (fst (fst y)) = true) /\
          (blank (e_text k) = true \/ stands_for W st (the_text (e_text k)) (stored attrs (it_attr it)))).
      { intros Lf L. rewrite !andb_true_iff in L. destruct L as [[[_ L2] L3] L4]. rewrite kid_of_eq, <- Ek, Kt' in L4. change (decl_for ty') with (type_decl ty'). destruct (type_decl ty') as [d'|]; [|discriminate]. apply andb_prop in L4 as [L4 L5]. destruct (d_text d') as [st|] eqn:Ed; [|discriminate].
        exists d', st. split; [reflexivity|]. split; [exact Ed|]. split; [now apply forallb_forall|]. destruct (blank (e_text k)) eqn:B; [now left|right].
        destruct (leaf_found c d a x ks Rq Ri Va Vk' IH n it before k rest (r it) st Hit Lf L2 L3 Eks Ek Lo B L5 (Hr it Hit)) as (w & Ew & Fw & Sw). eapply kept_stands; [exact Sw|]. now apply Keep. }
      destruct (it_get it) eqn:G; try discriminate Kn; try (left; apply Leaf; [reflexivity|exact Kn]); right.
      + destruct (object_found c d a x ks Rq Ri Va Vk' IH n it before k rest (r it) ty' Hit G Kn Eks Ek Lo Kt' (Hr it Hit)) as (w & Ew & Fw). exists w. split; [exact Fw|]. left. left.
        assert (Ko : kept w (stored attrs (it_attr it))) by (apply (Keep it w Hit K2 Ew); rewrite G; destruct w; destruct k; cbn [found] in Fw; try contradiction; reflexivity). destruct w; destruct k; cbn [found] in Fw; try contradiction. exact Ko.
      + apply andb_prop in Kn as [K3 K4]. exact (list_found c ci d a x ks Hc Ri Vk' IH n it k ns attrs ty' Hit G K3 K4 Hin Ek Kt' t Ok).
  Qed.
End Finding.

(** ** Where the values come from *)

Definition child_named (p : sname) (a n : string) : bool := existsb (fun home => String.eqb (attribute_for p (home, n)) a) ["kml"; "gx"; "atom"].
Definition source_named (W : world) (p : sname) (it : item) : bool :=
  match it_get it with
  | GNodeText | GCoords => String.eqb (text_attribute p) (it_attr it)
  | GAttrText | GAttrInt | GAttrFloat | GAttrEnum => String.eqb (attribute_for p ("", it_node it)) (it_attr it)
  | GText | GBool | GInt | GFloat | GEnum | GDate | GDates | GCoordList => child_named p (it_attr it) (it_node it)
  | GObj | GObjs => forallb (fun c => child_named p (it_attr it) (tag_of W c)) (it_classes it)
  end.
Definition sources_ok (W : world) : bool :=
  forallb (fun cc => match class_type W (fst cc) with
    | None => true
    | Some _ => forallb (fun it => if is_track (snd cc) && mem (it_attr it) track_attrs then true else source_named W (class_sname W (fst cc)) it) (items_of W (fst cc))
    end) (w_classes W).

(** Something in the element belongs to the item. *)
Definition present (W : world) (nss : nss_t) (it : item) (e : elem) : bool :=
  existsb (fun id => match it_get it with
    | GNodeText | GCoords => match e_text e with Some _ => true | None => false end
    | GAttrText | GAttrInt | GAttrFloat | GAttrEnum => match uget (ns_get nss id ++ u (it_node it)) (e_attrib e) with Some _ => true | None => false end
    | GText | GBool | GInt | GFloat | GEnum | GDate | GDates | GCoordList => negb (nilb (with_tag (ns_get nss id ++ u (it_node it)) (e_kids e)))
    | GObj | GObjs => existsb (fun c => negb (nilb (with_tag (ns_get nss id ++ u (tag_of W c)) (e_kids e)))) (it_classes it)
    end) (it_nsids it).

Lemma existsb_none {A} (f : A -> bool) l x : existsb f l = false -> In x l -> f x = false.
Proof. intros H Hx. destruct (f x) eqn:E; [|reflexivity]. assert (existsb f l = true) by (apply existsb_exists; eauto). congruence. Qed.
Lemma nilb_nil {A} (l : list A) : negb (nilb l) = false -> l = [].
Proof. now destruct l. Qed.
Lemma nilb_in tag ks : negb (nilb (with_tag tag ks)) = true -> exists k, In k ks /\ e_tag k = tag.
Proof.
  destruct (with_tag tag ks) as [|k l] eqn:E; [discriminate|]. intros _. assert (H : In k (with_tag tag ks)) by (rewrite E; now left).
  unfold with_tag in H. apply filter_In in H as [H1 H2]. apply ueqb_eq in H2. eauto.
Qed.

Lemma not_present W nss it e : present W nss it e = false -> absent W nss it e.
Proof.
  intros H id Hid. apply (existsb_none _ _ id H) in Hid. cbv beta in Hid. destruct (it_get it); try (now destruct (e_text e)); try (now destruct (uget _ _)); try (now apply nilb_nil);
  intros c Hc; apply (existsb_none _ _ c Hid) in Hc; now apply nilb_nil.
Qed.

Lemma present_source W nss it e p : source_named W p it = true -> present W nss it e = true -> named_source nss p (it_attr it) e.
Proof.
  intros S H. apply existsb_exists in H as [id [_ H]]. unfold source_named in S.
  assert (C : forall n, child_named p (it_attr it) n = true -> negb (nilb (with_tag (ns_get nss id ++ u n) (e_kids e))) = true -> named_source nss p (it_attr it) e).
  { intros n N K. apply nilb_in in K as [k [K1 K2]]. apply existsb_exists in N as [home [N1 N2]]. apply String.eqb_eq in N2. right. right. exists n, id, home, k. auto. }
  destruct (it_get it); try (now apply (C (it_node it)));
  try (apply String.eqb_eq in S; left; split; [exact S|]; now destruct (e_text e));
  try (apply String.eqb_eq in S; right; left; exists (it_node it), id; split; [exact S|]; now destruct (uget _ _));
  apply existsb_exists in H as [c [Hc H]]; rewrite forallb_forall in S; apply (C (tag_of W c)); auto.
Qed.

Lemma named_sources W strict e c ty ns nss v : world_ok W = true -> sources_ok W = true -> class_type W c = Some ty ->
  from_element W strict e c ns nss = Ok v ->
  exists attrs, v = VObj c ns (merge_ns nss) attrs /\
  forall a x, sget a attrs = Some x -> empty_value x = false -> (forall ci, class_of W c = Some ci -> is_track ci = true -> a <> "track_items") ->
  named_source (merge_ns nss) (class_sname W c) a e.
Proof.
  intros HW HS T H. destruct e as [t at_ tx ks]. assert (H' := H). destruct (read_attrs _ _ _ _ _ _ _ _ _ _ HW H') as (ci & r & attrs & Hc & -> & Hr & Hkw & Hat).
  exists attrs. split; [reflexivity|]. intros a x Hx Ex Ntr. specialize (Ntr ci Hc).
  assert (F := world_class _ _ _ HW Hc).
  unfold sources_ok in HS. rewrite forallb_forall in HS. specialize (HS _ (sget_In _ _ _ Hc)). cbn [fst snd] in HS. rewrite T in HS. rewrite forallb_forall in HS.
  destruct (find_item a (items_of W c)) as [it|] eqn:Fi.
  - assert (Hi : In it (items_of W c) /\ it_attr it = a).
    { clear -Fi. induction (items_of W c) as [|i l IH]; cbn [find_item] in Fi; [discriminate|]. destruct (String.eqb a (it_attr i)) eqn:E; [injection Fi as <-; split; [now left|symmetry; now apply String.eqb_eq]|]. destruct (IH Fi). split; [now right|assumption]. }
    destruct Hi as [Hi <-]. specialize (HS it Hi).
    destruct (is_track ci && mem (it_attr it) track_attrs) eqn:Tr.
    + exfalso. apply andb_prop in Tr as [Tr M]. assert (Q := Hat (it_attr it)).
      assert (D := cf_track _ _ _ F). unfold track_ok in D. rewrite Tr in D. apply andb_prop in D as [_ D]. rewrite forallb_forall in D. apply mem_In in M. specialize (D _ M). apply andb_prop in D as [D1 D2]. apply negb_true_iff in D2.
      destruct (ckind_of ci (it_attr it)) as [k|] eqn:Ck.
      * unfold ckind_of in Ck. apply sget_In in Ck. assert (existsb (fun ak => String.eqb (it_attr it) (fst ak)) (ctor_attrs ci) = true) by (apply existsb_exists; exists (it_attr it, k); split; [exact Ck|apply String.eqb_refl]). congruence.
      * rewrite D1 in Q. congruence.
    + destruct (present W (merge_ns nss) it (Elem t at_ tx ks)) eqn:P; [now apply present_source with (W := W)|].
      apply not_present in P. exfalso.
      assert (E := absent_empty W strict _ c ns nss ci ns (merge_ns nss) attrs it HW Hc H Hi P).
      unfold obj_attr in E. rewrite Hx in E. rewrite E in Ex; [discriminate|]. intros Tr' Ea. rewrite Tr', Ea in Tr. discriminate Tr.
  - exfalso. assert (Q := Hat a). destruct (ckind_of ci a) as [k|] eqn:Ck.
    + destruct Q as [y [Hm Hy]]. rewrite Hy in Hx. injection Hx as ->. unfold mk_attr in Hm. rewrite !Hkw, Fi in Hm. apply bind_ok in Hm as [z [Hz E]]. injection E as ->.
      destruct k; cbn in Hz; try (injection Hz as <-; discriminate Ex); try discriminate.
      assert (D := cf_track _ _ _ F). unfold track_ok in D. unfold ckind_of in Ck. apply sget_In in Ck. destruct (is_track ci) eqn:Tr.
      * rewrite !andb_true_iff in D. destruct D as [[_ D] _]. rewrite forallb_forall in D. specialize (D _ Ck). cbn [fst snd] in D. rewrite orb_false_r in D. apply String.eqb_eq in D. now apply Ntr.
      * rewrite forallb_forall in D. specialize (D _ Ck). discriminate D.
    + rewrite Fi in Q. destruct (mem a (ci_params ci)); rewrite Q in Hx; discriminate.
Qed.
