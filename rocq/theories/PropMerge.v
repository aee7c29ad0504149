(** * Documents put together: C74. *)
From Coq Require Import String List NArith ZArith Bool.
From Verif Require Import Ustr UstrProofs Res PyFloat Elem Value Geom Codec Tables Spec FastkmlOk RoundTrip OnceSpec MergeSpec MergeProofs PropLists Samples.
Import ListNotations.
Local Open Scope string_scope.
Local Open Scope list_scope.

(** Writing an object whose list is two lists put together: its element is that of
    the object with the first list, with the elements of the true members of the
    second list behind those of the first. *)
Theorem C74_written :
  forall arrow prec vb c ns nss attrs it l1 l2 e1 e2, let W := fastkml arrow in
  let with_list l := VObj c ns nss (sset (it_attr it) (VList l) attrs) in
  In it (items_of W c) -> it_set it = SObjs ->
  etree W prec vb (with_list l1) = Ok e1 -> etree W prec vb (with_list l2) = Ok e2 ->
  exists tag attrib text before k1 k2 after,
    e1 = Elem tag attrib text (before ++ k1 ++ after) /\ e2 = Elem tag attrib text (before ++ k2 ++ after) /\
    Forall2 (fun y k => etree W prec vb y = Ok k) (filter (is_true W) l1) k1 /\
    Forall2 (fun y k => etree W prec vb y = Ok k) (filter (is_true W) l2) k2 /\
    etree W prec vb (with_list (l1 ++ l2)) = Ok (Elem tag attrib text (before ++ k1 ++ k2 ++ after)).
Proof. intros arrow prec vb c ns nss attrs it l1 l2 e1 e2 W with_list. exact (merged W (fastkml_ok arrow) prec vb c ns nss attrs it l1 l2 e1 e2). Qed.
Print Assumptions C74_written.

(** No list names a class twice. *)
Lemma list_classes arrow : forallb (fun cc : string * class_info => forallb (fun it => match it_get it with GObjs => nodups (it_classes it) | _ => true end) (items_of (fastkml arrow) (fst cc))) (w_classes (fastkml arrow)) = true.
Proof. vm_compute. reflexivity. Qed.

(** Reading an element whose children are those of two elements put together: each
    list holds, of every class, the objects read from the first and behind them
    those read from the second. *)
Theorem C74_read :
  forall arrow strict c ns nss it e1 e2 e v1 v2 v k, let W := fastkml arrow in
  In it (items_of W c) -> it_get it = GObjs -> e_kids e = e_kids e1 ++ e_kids e2 ->
  from_element W strict e1 c ns nss = Ok v1 -> from_element W strict e2 c ns nss = Ok v2 -> from_element W strict e c ns nss = Ok v ->
  members_of k (held (it_attr it) v) = members_of k (held (it_attr it) v1) ++ members_of k (held (it_attr it) v2).
Proof.
  intros arrow strict c ns nss it e1 e2 e v1 v2 v k W Hi G. apply (read_merged W (fastkml_ok arrow) strict c ns nss it e1 e2 e v1 v2 v k Hi G).
  destruct (class_of W c) as [ci|] eqn:Hc; [|unfold items_of in Hi; rewrite Hc in Hi; destruct Hi]. assert (L := proj1 (forallb_forall _ _) (list_classes arrow) _ (EmitProofs.sget_In _ _ _ Hc)). cbn [fst] in L.
  rewrite forallb_forall in L. specialize (L it Hi). rewrite G in L. now apply EmitProofs.nodups_NoDup.
Qed.
Print Assumptions C74_read.

(** So nothing is lost and nothing added: the lists have as many objects of each
    class as the two had together. *)
Theorem C74_counted :
  forall arrow strict c ns nss it e1 e2 e v1 v2 v k, let W := fastkml arrow in
  In it (items_of W c) -> it_get it = GObjs -> e_kids e = e_kids e1 ++ e_kids e2 ->
  from_element W strict e1 c ns nss = Ok v1 -> from_element W strict e2 c ns nss = Ok v2 -> from_element W strict e c ns nss = Ok v ->
  length (members_of k (held (it_attr it) v)) = length (members_of k (held (it_attr it) v1)) + length (members_of k (held (it_attr it) v2)).
Proof. intros arrow strict c ns nss it e1 e2 e v1 v2 v k W Hi G E R1 R2 R. rewrite (C74_read arrow strict c ns nss it e1 e2 e v1 v2 v k Hi G E R1 R2 R). apply app_length. Qed.
Print Assumptions C74_counted.

(** ** Examples *)

Definition ex_p (n : string) : value := mk "features.Placemark" [("name", str n)].
Definition ex_f (n : string) : value := mk "containers.Folder" [("name", str n)].
Definition ex_l1 : list value := Eval vm_compute in [ex_p "a"; ex_f "b"].
Definition ex_l2 : list value := Eval vm_compute in [ex_f "c"; ex_p "d"].
Definition ex_attrs : list (string * value) := Eval vm_compute in match mk "containers.Document" [("name", str "D")] with VObj _ _ _ a => a | _ => [] end.
Definition ex_doc (l : list value) : value := VObj "containers.Document" KMLNS nss0 (sset "features" (VList l) ex_attrs).
Definition ex_elem (l : list value) : elem := match etree W0 None Normal (ex_doc l) with Ok e => e | Err _ => Elem [] [] None [] end.
Definition ex_e1 : elem := Eval vm_compute in ex_elem ex_l1.
Definition ex_e2 : elem := Eval vm_compute in ex_elem ex_l2.
Definition ex_e : elem := Eval vm_compute in Elem (e_tag ex_e1) [] None (e_kids ex_e1 ++ e_kids ex_e2).

Example C74_example :
  exists it, In it (items_of W0 "containers.Document") /\ it_set it = SObjs /\ it_get it = GObjs /\ it_attr it = "features" /\
  etree W0 None Normal (ex_doc ex_l1) = Ok ex_e1 /\ etree W0 None Normal (ex_doc ex_l2) = Ok ex_e2 /\ length (e_kids ex_e1) = 3 /\
  e_kids ex_e = e_kids ex_e1 ++ e_kids ex_e2 /\
  let read e := from_element W0 true e "containers.Document" KMLNS nss0 in
  exists v1 v2 v, read ex_e1 = Ok v1 /\ read ex_e2 = Ok v2 /\ read ex_e = Ok v /\
    length (held "features" v1) = 2 /\ length (held "features" v) = 4 /\ length (members_of "containers.Folder" (held "features" v)) = 2.
Proof.
  assert (F : exists it, find_item "features" (items_of W0 "containers.Document") = Some it /\ it_set it = SObjs /\ it_get it = GObjs) by (eexists; split; [vm_compute; reflexivity|split; reflexivity]).
  destruct F as [it [F1 [F2 F3]]]. destruct (EmitProofs.find_item_In _ _ _ F1) as [F4 F5]. exists it. do 4 (split; [assumption|]).
  do 4 (split; [vm_compute; reflexivity|]). eexists. eexists. eexists. do 3 (split; [vm_compute; reflexivity|]). do 2 (split; [vm_compute; reflexivity|]). vm_compute. reflexivity.
Qed.
