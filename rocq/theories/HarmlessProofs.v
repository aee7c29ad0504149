(** * Elements without the few constructs the lenient reader rejects. *)
From Coq Require Import String List NArith ZArith Bool Lia.
From Verif Require Import Ustr UstrProofs Res PyInt PyFloat PyDate Elem Value Geom Codec Tables Spec EmitProofs CodecProofs ReadProofs RoundTrip NsProofs SettledProofs ReaderTyped Agree AgreeProofs Calm TotalProofs FastkmlOk.
Import ListNotations.

(** An XML attribute that is empty, an integer or not one of the two that must
    be integers ([length] of atom links, [maxLines] of snippets). *)
Definition harmless_attr (kv : ustr * ustr) : bool :=
  negb (ends_with (fst kv) (u "length") || ends_with (fst kv) (u "maxLines")) || uempty (snd kv) || is_ok (int_of_str (snd kv)).

(** No [Schema] and no [Track] elements, no such attributes. *)
Fixpoint harmless (e : elem) : bool :=
  match e with
  | Elem _ a _ ks =>
      forallb harmless_attr a &&
      forallb (fun k => negb (ends_with (e_tag k) (u "Schema")) && negb (ends_with (e_tag k) (u "Track")) && harmless k) ks
  end.

Definition special (c : string) : bool := String.eqb c "data.Schema" || String.eqb c "gx.Track".

Definition hazards_ok (W : world) : bool :=
  forallb (fun cc => special (fst cc) ||
    (forallb (fun it =>
       match it_get it with
       | GAttrInt => String.eqb (it_node it) "length" || String.eqb (it_node it) "maxLines"
       | GDates => false
       | GObj | GObjs => forallb (fun c' => known_class W c' &&
            (negb (special c') || String.eqb (tag_of W c') "Schema" || String.eqb (tag_of W c') "Track")) (it_classes it)
       | _ => true
       end) (items_of W (fst cc)) &&
     forallb (fun ak => match snd ak with CCleanReq => false | _ => true end) (ctor_attrs (snd cc)) &&
     negb (is_track (snd cc)))) (w_classes W).

Lemma fastkml_hazards arrow : hazards_ok (fastkml arrow) = true.
Proof. vm_compute. reflexivity. Qed.


Lemma ends_with_app a b : ends_with (a ++ b) b = true.
Proof.
  unfold ends_with. rewrite app_length. replace (length a + length b - length b)%nat with (length a) by lia.
  rewrite skipn_app, skipn_all, Nat.sub_diag. cbn [app skipn]. rewrite ueqb_refl, andb_true_r. apply Nat.leb_le. lia.
Qed.

Lemma first_some_In {A} (l : list (option A)) x : first_some l = Some x -> In (Some x) l.
Proof. induction l as [|[y|] l IH]; cbn; [discriminate| |]; intro H; [left; congruence|right; auto]. Qed.

Lemma uget_In {A} k (l : list (ustr * A)) v : uget k l = Some v -> In (k, v) l.
Proof. induction l as [|[k' v'] l IH]; cbn; [discriminate|]. destruct (ueqb_spec k k') as [->|]; intro H; [left; congruence|right; auto]. Qed.

Lemma harmless_calm W : hazards_ok W = true -> forall e c nss, known_class W c = true -> special c = false -> harmless e = true -> calm W nss e c = true.
Proof.
  intros HW e. induction e as [t a x ks IH] using elem_ind'. intros c nss Hc Hs He. rewrite Forall_forall in IH.
  cbn [harmless] in He. apply andb_prop in He as [Ha Hk]. rewrite forallb_forall in Ha, Hk.
  cbn [calm]. unfold known_class in Hc. destruct (class_of W c) as [ci|] eqn:E; [|discriminate]. 
  unfold hazards_ok in HW. rewrite forallb_forall in HW. assert (HC := HW (c, ci) (sget_In _ _ _ E)). cbn [fst snd] in HC. rewrite Hs in HC. cbn [orb] in HC.
  rewrite !andb_true_iff in HC. destruct HC as [[H1 H2] H3]. apply negb_true_iff in H3. rewrite H3. rewrite forallb_forall in H1, H2.
  rewrite !andb_true_iff. split; [split; [|]|reflexivity].
  - apply forallb_forall. intros it Hi. specialize (H1 it Hi).
    assert (Kid : forall k c' n, In k (map (fun k => (k, calm W nss k)) ks) -> ueqb (e_tag (fst k)) (n ++ u (tag_of W c')) = true ->
      known_class W c' && (negb (special c') || String.eqb (tag_of W c') "Schema" || String.eqb (tag_of W c') "Track") = true -> snd k c' = true).
    { intros k c' n Hin Ht Hc'. apply in_map_iff in Hin as [k0 [<- Hin]]. cbn [fst snd] in *. apply andb_prop in Hc' as [K1 K2]. specialize (Hk k0 Hin).
      rewrite !andb_true_iff in Hk. destruct Hk as [[K3 K4] K5]. apply ueqb_eq in Ht. rewrite Ht in K3, K4. apply IH; auto.
      destruct (special c'); [|reflexivity]. cbn [negb orb] in K2. apply orb_prop in K2 as [K2|K2]; apply String.eqb_eq in K2; rewrite K2, ends_with_app in *; discriminate. }
    unfold item_calm. destruct (it_get it); try reflexivity; try discriminate H1.
    + destruct (first_some _) as [s|] eqn:Ef; [|reflexivity]. apply first_some_In, in_map_iff in Ef as [key [Ef Hkey]]. unfold keys in Hkey. apply in_map_iff in Hkey as [id [<- _]].
      unfold filled in Ef. destruct (uget _ a) as [[|ch s']|] eqn:Eu; try discriminate. injection Ef as <-. apply uget_In, Ha in Eu. unfold harmless_attr in Eu. cbn [fst snd uempty] in Eu.
      rewrite orb_false_r in Eu. apply orb_prop in Eu as [Eu|Eu]; [|exact Eu]. exfalso. apply negb_true_iff, orb_false_iff in Eu as [E1 E2].
      apply orb_prop in H1 as [H1|H1]; apply String.eqb_eq in H1; rewrite H1, ends_with_app in *; discriminate.
    + rewrite forallb_forall in H1. destruct (first_some _) as [[c' k]|] eqn:Ef; [|reflexivity]. apply first_some_In, in_concat in Ef as [l [Hl Hin]]. apply in_map_iff in Hl as [id [<- _]].
      apply in_map_iff in Hin as [c0 [Ec Hc0]]. destruct (hd_error _) as [k0|] eqn:Eh; [|discriminate]. cbn in Ec. injection Ec as <- <-.
      assert (Hk0 : In k0 (with_tag' (ns_get nss id ++ u (tag_of W c0)) (map (fun k => (k, calm W nss k)) ks))) by (destruct (with_tag' _ _); [discriminate|injection Eh as ->; now left]).
      apply filter_In in Hk0 as [Hk0 Ht]. eapply Kid; [exact Hk0|exact Ht|now apply H1].
    + rewrite forallb_forall in H1. destruct (it_nsids it) as [|id ids]; [reflexivity|]. apply forallb_forall. intros c' Hc'. apply forallb_forall. intros k Hin. apply filter_In in Hin as [Hin Ht].
      eapply Kid; [exact Hin|exact Ht|now apply H1].
  - apply forallb_forall. intros ak Hak. specialize (H2 ak Hak). unfold required_calm. now destruct (snd ak).
Qed.
