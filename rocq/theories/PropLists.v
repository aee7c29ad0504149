(** * Order of lists: C15. *)
From Coq Require Import String List NArith ZArith Bool Lia.
From Verif Require Import Ustr UstrProofs Res PyInt PyFloat PyDate Elem Value Geom Codec Tables Spec Settled FastkmlOk
  EmitProofs RoundTrip SettledProofs NsProofs ReaderTyped Generations Agree Outcome Samples.
Import ListNotations.
Local Open Scope string_scope.

(** [k] keeps some members of [l], in the same order. *)
Inductive keeps {A} : list A -> list A -> Prop :=
| keeps_nil : keeps [] []
| keeps_take x k l : keeps k l -> keeps (x :: k) (x :: l)
| keeps_drop x k l : keeps k l -> keeps k (x :: l).

Lemma keeps_filter {A} (p : A -> bool) l : keeps (filter p l) l.
Proof. induction l as [|x l IH]; cbn; [constructor|]. destruct (p x); now constructor. Qed.

(** ** C15 *)

(** Every list attribute of every object that is read holds, class after class
    in the registered order, what is read from the children with the tag of
    that class, in document order.  (Attributes with constructor [CFilter],
    tracks of a multi track and elements of extended data, leave out the
    members without data.) *)
Theorem C15_document_order_within_class :
  forall arrow strict e c ns nss ns' nss' attrs ci it,
  let W := fastkml arrow in
  from_element W strict e c ns nss = Ok (VObj c ns' nss' attrs) ->
  class_of W c = Some ci -> In it (items_of W c) -> it_get it = GObjs ->
  exists n ls,
    Some n = option_map (ns_get nss') (hd_error (it_nsids it)) /\
    Forall2 (fun c' l => Forall2 (fun k y => from_element W strict k c' n nss' = Ok y)
                           (filter (fun k => ueqb (e_tag k) (n ++ u (tag_of W c'))%list) (e_kids e)) l)
      (it_classes it) ls /\
    (obj_attr ci attrs (it_attr it) = VList (concat ls) \/
     ckind_of ci (it_attr it) = Some CFilter /\ obj_attr ci attrs (it_attr it) = VList (filter (truth W) (concat ls))).
Proof.
  intros arrow strict e c ns nss ns' nss' attrs ci it W H Hc Hi G.
  destruct (read_list W strict e c ns nss ns' nss' attrs ci it (fastkml_ok arrow) Hc H Hi G) as [id [ls [E1 [E2 E3]]]].
  exists (ns_get nss' id), ls. rewrite E1. split; [reflexivity|]. split; [exact E2|exact E3].
Qed.
Print Assumptions C15_document_order_within_class.

(** Writing the object and reading it again does not move members any more: a
    list of the second generation consists of members of the first one without
    their empty sub-objects, in the same order. *)
Theorem C15_grouping_is_stable :
  forall arrow strict e c ns nss v e1 v1 a l,
  let W := fastkml arrow in
  from_element W strict e c ns nss = Ok v -> rt_ok W v = true ->
  etree W None Normal v = Ok e1 -> from_element W strict e1 c ns (merge_ns nss) = Ok v1 ->
  forall attrs attrs1 ns1 nss1 ns2 nss2, v = VObj c ns1 nss1 attrs -> v1 = VObj c ns2 nss2 attrs1 ->
  sget a attrs = Some (VList l) ->
  exists k, keeps k l /\ sget a attrs1 = Some (VList (map (prune W) k)) /\
    (forallb (truth W) l = true -> forallb (truth W) (map (prune W) l) = true -> k = l).
Proof.
  intros arrow strict e c ns nss v e1 v1 a l W Hv Hr He H1 attrs attrs1 ns1 nss1 ns2 nss2 -> -> Ha.
  destruct (reader_inv W strict e (fastkml_ok arrow) _ _ _ _ Hv) as [I [attrs' E]]. injection E as -> -> ->.
  destruct (gen_step W strict (fastkml_ok arrow) _ _ _ _ _ I Hr He) as [Hf _]. rewrite H1 in Hf. rewrite prune_obj in Hf. injection Hf as -> -> ->.
  destruct I as [T _]. cbn [vall] in T. apply andb_prop in T as [T _]. unfold typed_node in T. destruct (class_of W c) as [ci|] eqn:Hc; [|discriminate]. apply andb_prop in T as [T _].
  destruct (shape_inv _ _ T) as [xs [_ [Hd _]]]. rewrite (sget_pr W c (prune W) a attrs' Hd), Ha. cbn [pr_attr map snd hd_error].
  assert (M : forall p : value -> bool, concat (map (fun y => if p y then [prune W y] else []) l) = map (prune W) (filter p l)).
  { intro p. clear. induction l as [|y l IH]; [reflexivity|]. cbn. rewrite IH. now destruct (p y). }
  assert (Fall : forall (p : value -> bool) m, forallb p m = true -> filter p m = m).
  { intros p. induction m as [|y m IH]; [reflexivity|]. cbn. intro H. apply andb_prop in H as [-> H]. now rewrite IH. }
  rewrite M. unfold refilter. rewrite Hc. destruct (match ckind_of ci a with Some CFilter => true | _ => false end) eqn:Ek.
  - exists (filter (fun y => truth W (prune W y)) (filter (truth W) l)). split; [|split].
    + clear. induction l as [|y l IH]; cbn; [constructor|]. destruct (truth W y); cbn; [destruct (truth W (prune W y))|]; now constructor.
    + destruct (ckind_of ci a) as [[]|]; try discriminate Ek. do 2 f_equal. clear. induction (filter (truth W) l) as [|y m IH]; [reflexivity|]. cbn. rewrite IH. now destruct (truth W (prune W y)).
    + intros H2 H3. rewrite (Fall _ l H2). apply Fall. rewrite forallb_forall in H3 |- *. intros y Hy. apply H3. now apply in_map.
  - exists (filter (truth W) l). split; [apply keeps_filter|]. split; [|intros H2 _; now apply Fall].
    destruct (ckind_of ci a) as [[]|]; try discriminate Ek; reflexivity.
Qed.
Print Assumptions C15_grouping_is_stable.

(** [<Folder><Placemark id="b"/><Folder id="x"/><Placemark id="a"/></Folder>] *)
Definition e_mixed : elem :=
  ke "Folder" [] None [ke "Placemark" [("id", "b")] None []; ke "Folder" [("id", "x")] None []; ke "Placemark" [("id", "a")] None []].

Definition ids_of (v : value) : list (option value) :=
  match v with
  | VObj _ _ _ attrs => match sget "features" attrs with
                        | Some (VList l) => map (fun y => match y with VObj _ _ _ at_ => sget "id" at_ | _ => None end) l
                        | _ => []
                        end
  | _ => []
  end.

(** The order of features of different kinds is not kept: the folder in the
    middle moves to the front of the list. *)
Theorem C15_mixed_order_refuted :
  exists v, from_string W0 true "containers.Folder" None [] e_mixed = Ok v /\
    map (fun k => option_map (fun i => VStr i) (uget (u "id") (e_attrib k))) (e_kids e_mixed) = [Some (str "b"); Some (str "x"); Some (str "a")] /\
    ids_of v = [Some (str "x"); Some (str "b"); Some (str "a")].
Proof. eexists. repeat (split; [vm_compute; reflexivity|]). vm_compute. reflexivity. Qed.
Print Assumptions C15_mixed_order_refuted.

(** The hypotheses of the theorems are met by that document. *)
Example C15_example :
  exists attrs ci it e1 v1 l, from_element W0 true e_mixed "containers.Folder" KMLNS [] = Ok (VObj "containers.Folder" KMLNS (merge_ns []) attrs) /\
    class_of W0 "containers.Folder" = Some ci /\ In it (items_of W0 "containers.Folder") /\ it_get it = GObjs /\ it_attr it = "features" /\
    rt_ok W0 (VObj "containers.Folder" KMLNS (merge_ns []) attrs) = true /\
    etree W0 None Normal (VObj "containers.Folder" KMLNS (merge_ns []) attrs) = Ok e1 /\
    from_element W0 true e1 "containers.Folder" KMLNS (merge_ns (merge_ns [])) = Ok v1 /\
    sget "features" attrs = Some (VList l) /\ length l = 3%nat /\ forallb (truth W0) l = true.
Proof.
  do 2 eexists. exists (last (items_of W0 "containers.Folder") root_item). do 3 eexists.
  split; [vm_compute; reflexivity|]. split; [vm_compute; reflexivity|]. split; [vm_compute; tauto|].
  repeat (split; [vm_compute; reflexivity|]). vm_compute. reflexivity.
Qed.
