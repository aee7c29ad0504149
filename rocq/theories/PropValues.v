(** * Values of attributes, constructors, name spaces: properties C07, C35-C38. *)
From Coq Require Import String List NArith ZArith Bool Lia.
From Verif Require Import Ustr UstrProofs Res PyInt PyFloat PyNumProofs PyDate Elem Value Geom Codec Tables Spec EmitProofs CodecProofs ItemProofs NsProofs FastkmlOk Api CtorProofs ValueProofs Samples.
Import ListNotations.

(** ** C07 *)

(** [write_one] puts one attribute on an empty element, [read_one] reads it
    from there.  Integers below the digit limit are always written; whatever
    is written is read, strictly or not, as the same integer. *)
Theorem C07_integers :
  forall W ci ns nss it strict z,
  ((it_set it, it_get it) = (SInt, GInt) \/ (it_set it, it_get it) = (SAttrInt, GAttrInt)) ->
  let ns' := match it_set it with SInt => ns | _ => [] end in
  ((Z.abs z < 10 ^ 4300)%Z -> exists e, write_one W ci ns nss it (VInt z) = Ok e) /\
  (forall e, write_one W ci ns nss it (VInt z) = Ok e -> read_one W strict ns' nss it e = Ok (Some (VInt z))).
Proof.
  intros W ci ns nss it strict z [E|E]; injection E as E1 E2; rewrite E1; cbv zeta; split.
  - intro H. apply write_int_one; auto.
  - intros e. apply int_one. congruence.
  - intro H. apply write_int_one; auto.
  - intros e. apply attr_int_one. congruence.
Qed.
Print Assumptions C07_integers.

Theorem C07_booleans :
  forall W ci ns nss it strict b, (it_set it, it_get it) = (SBool, GBool) -> it_classes it = ["bool"%string] ->
  exists e, write_one W ci ns nss it (VBool b) = Ok e /\ read_one W strict ns nss it e = Ok (Some (VBool b)).
Proof. intros. now apply bool_one. Qed.
Print Assumptions C07_booleans.

(** Every member of every enumeration of the library. *)
Theorem C07_enumerations :
  forall arrow ci ns nss it strict c e m,
  sget c (w_enums (fastkml arrow)) = Some e -> In m (map fst e) -> it_classes it = [c] ->
  ((it_set it, it_get it) = (SEnum, GEnum) ->
   exists x, write_one (fastkml arrow) ci ns nss it (VEnum c m) = Ok x /\
             read_one (fastkml arrow) strict (enum_ns (fastkml arrow) ns nss c m) nss it x = Ok (Some (VEnum c m))) /\
  ((it_set it, it_get it) = (SAttrEnum, GAttrEnum) ->
   exists x, write_one (fastkml arrow) ci ns nss it (VEnum c m) = Ok x /\
             read_one (fastkml arrow) strict [] nss it x = Ok (Some (VEnum c m))).
Proof.
  intros arrow ci ns nss it strict c e m Hc Hm Hi. destruct (enums_distinct_inv _ _ _ (fastkml_enums arrow) Hc) as [_ Ho]. split; intro E.
  - now apply (enum_one _ ci ns nss it strict c e m Hc Ho Hm Hi).
  - now apply (attr_enum_one _ ci ns nss it strict c e m Hc Ho Hm Hi).
Qed.
Print Assumptions C07_enumerations.

(** The attributes of the library are read and written by matching functions,
    so that the theorems above apply to each of them. *)
Theorem C07_library_items :
  forall arrow c it, In it (items_of (fastkml arrow) c) ->
  match it_set it with
  | SInt => it_get it = GInt
  | SAttrInt => it_get it = GAttrInt
  | SBool => it_get it = GBool /\ it_classes it = ["bool"%string]
  | SEnum => it_get it = GEnum /\ exists k e, it_classes it = [k] /\ sget k (w_enums (fastkml arrow)) = Some e
  | SAttrEnum => it_get it = GAttrEnum /\ exists k e, it_classes it = [k] /\ sget k (w_enums (fastkml arrow)) = Some e
  | _ => True
  end.
Proof.
  intros arrow c it Hi. assert (HW := fastkml_ok arrow). unfold world_ok in HW. rewrite forallb_forall in HW.
  unfold items_of in Hi. destruct (class_of (fastkml arrow) c) as [ci|] eqn:Ec; [|destruct Hi].
  specialize (HW _ (sget_In _ _ _ Ec)). cbn [fst snd] in HW. unfold class_ok in HW. rewrite !andb_true_iff in HW.
  destruct HW as [[[[[[[[[[[_ HW] _] _] _] _] _] _] _] _] _] _]. rewrite forallb_forall in HW. unfold items_of in HW. rewrite Ec in HW.
  specialize (HW _ Hi). unfold item_ok in HW. rewrite !andb_true_iff in HW. destruct HW as [[[Hp _] _] Hc]. unfold classes_ok in Hc.
  destruct (it_set it); destruct (it_get it); try discriminate Hp; try exact I; try reflexivity.
  - split; [reflexivity|]. exact (bool_classes _ Hc).
  - split; [reflexivity|]. destruct (it_classes it) as [|k [|]]; try discriminate. destruct (sget k (w_enums (fastkml arrow))) as [e|] eqn:Es; [exists k, e; auto|discriminate].
  - split; [reflexivity|]. destruct (it_classes it) as [|k [|]]; try discriminate. destruct (sget k (w_enums (fastkml arrow))) as [e|] eqn:Es; [exists k, e; auto|discriminate].
Qed.
Print Assumptions C07_library_items.

Definition find_attr (c a : string) : option item := find_item a (items_of W0 c).

Example C07_example :
  (match find_attr "links.Link" "refresh_mode" with
   | Some it => match class_of W0 "links.Link" with
     | Some ci => let! e := write_one W0 ci KMLNS NAME_SPACES it (VEnum "enums.RefreshMode" (u "onInterval")) in read_one W0 true KMLNS NAME_SPACES it e
     | None => Err EAssertion end
   | None => Err EAssertion end) = Ok (Some (VEnum "enums.RefreshMode" (u "onInterval"))) /\
  (match find_attr "views.Lod" "min_lod_pixels" with
   | Some it => it_set it
   | None => SObj end) = SInt /\
  int_of_str (u "-0042") = Ok (-42)%Z /\ str_of_int (-42) = Ok (u "-42").
Proof. vm_compute. repeat split; reflexivity. Qed.

(** ** C35 *)

Theorem C35_lenient :
  forall arrow c e t, sget c (w_enums (fastkml arrow)) = Some e ->
  (forall m, In m (map fst e) -> lower m = lower t -> get_enum_value c e false t = Ok (VEnum c m)) /\
  ((forall m, In m (map fst e) -> lower m <> lower t) -> get_enum_value c e false t = Err EValueError).
Proof. intros arrow c e t. apply enum_lenient. apply fastkml_enums. Qed.
Print Assumptions C35_lenient.

(** At most one member differs from a text only in case. *)
Theorem C35_unique :
  forall arrow c e m m', sget c (w_enums (fastkml arrow)) = Some e ->
  In m (map fst e) -> In m' (map fst e) -> lower m = lower m' -> m = m'.
Proof.
  intros arrow c e m m' Hc Hm Hm' E. destruct (enum_lenient _ c e m (fastkml_enums arrow) Hc) as [H _].
  assert (A := H m Hm eq_refl). assert (B := H m' Hm' (eq_sym E)). congruence.
Qed.
Print Assumptions C35_unique.

Theorem C35_strict :
  forall c e t,
  (In t (map fst e) -> get_enum_value c e true t = Ok (VEnum c t)) /\
  (~ In t (map fst e) -> get_enum_value c e true t = Err EValueError).
Proof. exact enum_strict. Qed.
Print Assumptions C35_strict.

(** The same for a child element: text of no member is reported in strict mode
    and leaves the attribute out in lenient mode. *)
Theorem C35_element :
  forall arrow strict it attrib text ks ns nss c e k t,
  it_get it = GEnum -> it_classes it = [c] -> sget c (w_enums (fastkml arrow)) = Some e ->
  find_kid (ns ++ u (it_node it)) ks = Some k -> stripped (e_text (fst k)) = Some t ->
  get_kwarg (fastkml arrow) strict it attrib text ks ns nss =
  if strict then (if in_dec udec t (map fst e) then Ok (Some (VEnum c t)) else Err EKMLParse)
  else match find (fun m => ueqb (lower m) (lower t)) (map fst e) with
       | Some m => Ok (Some (VEnum c m))
       | None => Ok None
       end.
Proof.
  intros arrow strict it attrib text ks ns nss c e k t Hg Hcl Hc Hk Ht. unfold get_kwarg. rewrite Hg, Hcl. unfold with_enum. rewrite Hc, Hk, Ht.
  destruct strict.
  - destruct (enum_strict c e t) as [H1 H2]. destruct (in_dec udec t (map fst e)); [now rewrite H1|now rewrite H2].
  - destruct (enum_lenient _ c e t (fastkml_enums arrow) Hc) as [H1 H2]. destruct (find _ (map fst e)) as [m|] eqn:Ef.
    + apply find_some in Ef as [Hm E]. apply ueqb_eq in E. now rewrite (H1 m).
    + rewrite H2; [reflexivity|]. intros m Hm E. apply (find_none _ _ Ef) in Hm. rewrite E, ueqb_refl in Hm. discriminate.
Qed.
Print Assumptions C35_element.

Example C35_example :
  (match sget "enums.AltitudeMode"%string (w_enums W0) with
   | Some e => (get_enum_value "enums.AltitudeMode" e false (u "CLAMPTOGROUND"), get_enum_value "enums.AltitudeMode" e true (u "CLAMPTOGROUND"),
                get_enum_value "enums.AltitudeMode" e true (u "clampToGround"), get_enum_value "enums.AltitudeMode" e false (u "clamp"))
   | None => (Err EAssertion, Err EAssertion, Err EAssertion, Err EAssertion) end)
  = (Ok (VEnum "enums.AltitudeMode" (u "clampToGround")), Err EValueError, Ok (VEnum "enums.AltitudeMode" (u "clampToGround")), Err EValueError).
Proof. vm_compute. reflexivity. Qed.

(** ** C36 *)

Theorem C36_strict :
  forall t, get_boolean_value true t =
  if in_dec udec t [u "1"; u "true"] then Ok (VBool true)
  else if in_dec udec t [u "0"; u "false"] then Ok (VBool false)
  else Err EValueError.
Proof. exact (bool_spec true). Qed.
Print Assumptions C36_strict.

(** Case does not matter; any other text is read as a number: false exactly
    for zero; text that is not a number is reported. *)
Theorem C36_lenient :
  forall t,
  (In (lower t) [u "1"; u "true"] -> get_boolean_value false t = Ok (VBool true)) /\
  (In (lower t) [u "0"; u "false"] -> get_boolean_value false t = Ok (VBool false)) /\
  (~ In (lower t) [u "1"; u "true"; u "0"; u "false"] ->
   (forall neg m e, float_of_str (lower t) = Ok (FFin neg m e) -> get_boolean_value false t = Ok (VBool (negb (m =? 0)%Z))) /\
   (forall neg, float_of_str (lower t) = Ok (FInf neg) -> get_boolean_value false t = Ok (VBool true)) /\
   (float_of_str (lower t) = Ok FNan -> get_boolean_value false t = Ok (VBool true)) /\
   (forall x, float_of_str (lower t) = Err x -> get_boolean_value false t = Err x)).
Proof.
  intro t. rewrite (bool_spec false). cbv zeta. split; [|split].
  - intro H. destruct (in_dec udec (lower t) [u "1"; u "true"]); [reflexivity|contradiction].
  - intro H. destruct (in_dec udec (lower t) [u "1"; u "true"]) as [H'|_].
    + exfalso. destruct H as [E|[E|[]]]; rewrite <- E in H'; destruct H' as [H'|[H'|[]]]; discriminate H'.
    + destruct (in_dec udec (lower t) [u "0"; u "false"]); [reflexivity|contradiction].
  - intro H. destruct (in_dec udec (lower t) [u "1"; u "true"]) as [H'|_]; [exfalso; apply H; cbn in *; tauto|].
    destruct (in_dec udec (lower t) [u "0"; u "false"]) as [H'|_]; [exfalso; apply H; cbn in *; tauto|].
    repeat split; intros; rewrite H0; reflexivity.
Qed.
Print Assumptions C36_lenient.

(** "never a wrong boolean" fails in lenient mode: a text that is no number
    reads as true, and a numeral that is not zero reads as false. *)
Theorem C36_numbers_refuted :
  (exists t, float_of_str t = Ok FNan /\ get_boolean_value false t = Ok (VBool true)) /\
  (exists m e, (m <> 0)%Z /\ get_boolean_value false (digits_of m ++ u "e-" ++ digits_of e) = Ok (VBool false)).
Proof.
  split; [exists (u "nan"); vm_compute; auto|]. exists 1%Z, 400%Z. split; [discriminate|vm_compute; reflexivity].
Qed.
Print Assumptions C36_numbers_refuted.

(** For an element: reported means an error in strict mode, absent otherwise. *)
Theorem C36_element :
  forall W strict it attrib text ks ns nss k t,
  it_get it = GBool -> it_classes it = ["bool"%string] ->
  find_kid (ns ++ u (it_node it)) ks = Some k -> stripped (e_text (fst k)) = Some t ->
  get_kwarg W strict it attrib text ks ns nss =
  match get_boolean_value strict t with
  | Ok v => Ok (Some v)
  | Err _ => if strict then Err EKMLParse else Ok None
  end.
Proof.
  intros W strict it attrib text ks ns nss k t Hg Hc Hk Ht. unfold get_kwarg. rewrite Hg, Hc, Hk, Ht. unfold guarded.
  destruct (get_boolean_value strict t) as [v|x] eqn:E; [reflexivity|].
  enough (x = EValueError) by now subst. rewrite bool_spec in E. cbv zeta in E.
  destruct (in_dec udec _ [u "1"; u "true"]); [discriminate|]. destruct (in_dec udec _ [u "0"; u "false"]); [discriminate|].
  destruct strict; [congruence|]. unfold float_of_str in E. destruct (no_underscores _ _) as [q|]; [|congruence].
  destruct (take_sign q). destruct (_ || _); [discriminate|]. destruct (ueqb _ _); [discriminate|]. destruct (parse_dec _ _); [discriminate|congruence].
Qed.
Print Assumptions C36_element.

Example C36_example :
  get_boolean_value false (u "TRUE") = Ok (VBool true) /\ get_boolean_value true (u "TRUE") = Err EValueError /\
  get_boolean_value false (u "0.0") = Ok (VBool false) /\ get_boolean_value true (u "false") = Ok (VBool false).
Proof. vm_compute. repeat split; reflexivity. Qed.

(** ** C37 *)

(** Text attributes of all classes, other than the ids, are stored stripped,
    and as [None] when blank. *)
Theorem C37_text_stripped :
  forall arrow c it ns nss kws ns' nss' attrs s,
  In it (items_of (fastkml arrow) c) ->
  (it_set it = SText \/ it_set it = SNodeText \/ it_set it = SAttrText) ->
  ~ (it_attr it = "id"%string \/ it_attr it = "target_id"%string) ->
  construct (fastkml arrow) c ns nss kws = Ok (VObj c ns' nss' attrs) -> sget (it_attr it) kws = Some (VStr s) ->
  sget (it_attr it) attrs = Some (if uempty (strip s) then VNone else VStr (strip s)).
Proof.
  intros arrow c it ns nss kws ns' nss' attrs s Hi Ht Hid H Hs. unfold items_of in Hi.
  destruct (class_of (fastkml arrow) c) as [ci|] eqn:Ec; [|destruct Hi].
  eapply (construct_clean _ c ci); [apply fastkml_ok|exact Ec| |exact H|exact Hs].
  assert (T : forallb (fun cc => forallb (fun it => match it_set it with
      | SText | SNodeText | SAttrText => String.eqb (it_attr it) "id" || String.eqb (it_attr it) "target_id" ||
          match ckind_of (snd cc) (it_attr it) with Some (CClean | CCleanReq) => true | _ => false end
      | _ => true end) (reg_items (w_registry (fastkml arrow)) (ci_mro (snd cc)))) (w_classes (fastkml arrow)) = true) by (vm_compute; reflexivity).
  rewrite forallb_forall in T. specialize (T _ (sget_In _ _ _ Ec)). cbn [snd] in T. rewrite forallb_forall in T. specialize (T _ Hi).
  assert (T' : String.eqb (it_attr it) "id" || String.eqb (it_attr it) "target_id" ||
          match ckind_of ci (it_attr it) with Some (CClean | CCleanReq) => true | _ => false end = true) by (destruct Ht as [E|[E|E]]; rewrite E in T; exact T).
  destruct (String.eqb_spec (it_attr it) "id") as [|_]; [exfalso; auto|]. destruct (String.eqb_spec (it_attr it) "target_id") as [|_]; [exfalso; auto|]. cbn [orb] in T'.
  destruct (ckind_of ci (it_attr it)) as [[]|]; try discriminate; auto.
Qed.
Print Assumptions C37_text_stripped.

(** Ids are kept as given, blank ones too. *)
Theorem C37_ids_refuted :
  exists attrs, construct W0 "features.Placemark" KMLNS NAME_SPACES [("id"%string, VStr (u "  ")); ("name"%string, VStr (u "  "))] =
    Ok (VObj "features.Placemark" KMLNS NAME_SPACES attrs) /\
  sget "id"%string attrs = Some (VStr (u "  ")) /\ sget "name"%string attrs = Some VNone.
Proof. eexists. split; [vm_compute; reflexivity|split; vm_compute; reflexivity]. Qed.
Print Assumptions C37_ids_refuted.

(** Constructing again from the attributes of an object gives the same object
    ([required_present]: no required attribute has been reduced to [None]). *)
Theorem C37_idempotent :
  forall W c ns nss kws ns' nss' attrs, world_ok W = true ->
  construct W c ns nss kws = Ok (VObj c ns' nss' attrs) -> required_present W c attrs ->
  construct W c ns' nss' attrs = Ok (VObj c ns' nss' attrs).
Proof. exact construct_idem. Qed.
Print Assumptions C37_idempotent.

(** Only the id of a Schema is required. *)
Theorem C37_library_idempotent :
  forall arrow c ns nss kws ns' nss' attrs,
  construct (fastkml arrow) c ns nss kws = Ok (VObj c ns' nss' attrs) ->
  ~ (c = "data.Schema"%string /\ sget "id"%string attrs = Some VNone) ->
  construct (fastkml arrow) c ns' nss' attrs = Ok (VObj c ns' nss' attrs).
Proof.
  intros arrow c ns nss kws ns' nss' attrs H Hs. apply (construct_idem _ c ns nss kws); [apply fastkml_ok|exact H|].
  intros ci a Hc Hk E. apply Hs.
  assert (T : forallb (fun cc => forallb (fun ak => match snd ak with CCleanReq => String.eqb (fst cc) "data.Schema" && String.eqb (fst ak) "id" | _ => true end) (ctor_attrs (snd cc))) (w_classes (fastkml arrow)) = true) by (vm_compute; reflexivity).
  rewrite forallb_forall in T. specialize (T _ (sget_In _ _ _ Hc)). cbn [fst snd] in T. rewrite forallb_forall in T. unfold ckind_of in Hk. specialize (T _ (sget_In _ _ _ Hk)).
  cbn [fst snd] in T. apply andb_prop in T as [T1 T2]. apply String.eqb_eq in T1, T2. now subst.
Qed.
Print Assumptions C37_library_idempotent.

(** A Schema with a blank id can be built, but not from its own attributes. *)
Theorem C37_schema_refuted :
  exists attrs, construct W0 "data.Schema" KMLNS NAME_SPACES [("id"%string, VStr (u " "))] = Ok (VObj "data.Schema" KMLNS NAME_SPACES attrs) /\
  construct W0 "data.Schema" KMLNS NAME_SPACES attrs = Err EKMLSchema.
Proof. eexists. split; [vm_compute; reflexivity|vm_compute; reflexivity]. Qed.
Print Assumptions C37_schema_refuted.

Example C37_example :
  exists attrs, construct W0 "features.Placemark" KMLNS nss0 [("name"%string, VStr (u "  x y ")); ("kml_geometry"%string, s_track)] =
    Ok (VObj "features.Placemark" KMLNS nss0 attrs) /\
  sget "name"%string attrs = Some (VStr (u "x y")) /\ (c_strip (u " ")) = [].
Proof. eexists. split; [vm_compute; reflexivity|split; vm_compute; reflexivity]. Qed.

(** ** C38 *)

Theorem C38_explicit_ns :
  forall W c n nss kws v, make W c (Some n) nss kws = Ok v -> exists nss' attrs, v = VObj c n nss' attrs.
Proof.
  intros W c n nss kws v H. unfold make, construct in H. destruct (class_of W c); [|discriminate]. destruct (_ && _); [discriminate|].
  apply bind_ok in H as [pre [_ H]]. apply bind_ok in H as [post [_ H]]. injection H as <-. eauto.
Qed.
Print Assumptions C38_explicit_ns.

(** Without an explicit name space: the user's entry for the default id of the
    class, else the built-in one, else none. *)
Theorem C38_default_ns :
  forall W c ci nss kws v, class_of W c = Some ci -> NoDup (map fst nss) -> make W c None nss kws = Ok v ->
  exists nss' attrs, v = VObj c (match sget (ci_nsid ci) nss with
                                 | Some n => n
                                 | None => match sget (ci_nsid ci) NAME_SPACES with Some n => n | None => [] end
                                 end) nss' attrs.
Proof.
  intros W c ci nss kws v Hc Hd H. unfold make, construct, default_ns in H. rewrite Hc in H. destruct (_ && _); [discriminate|].
  apply bind_ok in H as [pre [_ H]]. apply bind_ok in H as [post [_ H]]. injection H as <-. do 2 eexists. f_equal.
  unfold ns_get. rewrite merge_lookup by exact Hd. now destruct (sget (ci_nsid ci) nss).
Qed.
Print Assumptions C38_default_ns.

(** The effective map: the user's entries win, the built-in ones stay. *)
Theorem C38_effective_map :
  forall W c ns nss kws c' ns' nss' attrs, NoDup (map fst nss) -> make W c ns nss kws = Ok (VObj c' ns' nss' attrs) ->
  forall k, sget k nss' = match sget k nss with Some n => Some n | None => sget k NAME_SPACES end.
Proof.
  intros W c ns nss kws c' ns' nss' attrs Hd H k. unfold make, construct in H. destruct (class_of W c); [|discriminate]. destruct (_ && _); [discriminate|].
  apply bind_ok in H as [pre [_ H]]. apply bind_ok in H as [post [_ H]]. injection H as <- <- <- <-. now apply merge_lookup.
Qed.
Print Assumptions C38_effective_map.

(** The map and the default name space are unchanged by constructing again
    from them. *)
Theorem C38_map_idempotent :
  forall W c ns nss kws c' ns' nss' attrs, make W c ns nss kws = Ok (VObj c' ns' nss' attrs) ->
  forall kws' c'' ns'' nss'' attrs', make W c None nss' kws' = Ok (VObj c'' ns'' nss'' attrs') ->
  nss'' = nss' /\ (ns = None -> ns'' = ns').
Proof.
  intros W c ns nss kws c' ns' nss' attrs H kws' c'' ns'' nss'' attrs' H'. unfold make, construct in *. destruct (class_of W c) as [ci|]; [|discriminate].
  destruct (_ && _) in H; [discriminate|]. destruct (_ && _) in H'; [discriminate|].
  apply bind_ok in H as [pre [_ H]]. apply bind_ok in H as [post [_ H]]. injection H as <- <- <- <-.
  apply bind_ok in H' as [pre' [_ H']]. apply bind_ok in H' as [post' [_ H']]. injection H' as <- <- <- <-. rewrite merge_ns_idem. split; [reflexivity|]. now intros ->.
Qed.
Print Assumptions C38_map_idempotent.

(** The reader obeys the same precedence (base.py:279-296, 445-452). *)
Theorem C38_reader :
  forall W strict c ci ns nss e v, class_of W c = Some ci -> NoDup (map fst nss) -> from_string W strict c ns nss e = Ok v ->
  exists nss' attrs, v = VObj c (match ns with
      | Some n => n
      | None => match sget (ci_nsid ci) nss with
                | Some n => n
                | None => match sget (ci_nsid ci) NAME_SPACES with Some n => n | None => [] end
                end
      end) nss' attrs /\
  forall k, sget k nss' = match sget k nss with Some n => Some n | None => sget k NAME_SPACES end.
Proof.
  intros W strict c ci ns nss e v Hc Hd H. unfold from_string in H. destruct e as [tag attrib text kids]. cbn [from_element] in H. unfold read_with in H.
  apply bind_ok in H as [kws [_ H]]. unfold construct in H. rewrite Hc in H. destruct (_ && _) in H; [discriminate|].
  apply bind_ok in H as [pre [_ H]]. apply bind_ok in H as [post [_ H]]. injection H as <-. do 2 eexists. split.
  - f_equal. destruct ns; [reflexivity|]. unfold default_ns, ns_get. rewrite Hc, merge_lookup by exact Hd. now destruct (sget (ci_nsid ci) nss).
  - intro k. rewrite !merge_ns_idem. now apply merge_lookup.
Qed.
Print Assumptions C38_reader.

Example C38_example :
  (exists v, make W0 "gx.Track" None [("gx"%string, u "{urn:mine}")] [] = Ok v /\ match v with VObj _ ns nss _ => ns = u "{urn:mine}" /\ sget "kml"%string nss = Some KMLNS | _ => False end) /\
  (exists v, make W0 "gx.Track" (Some []) [("gx"%string, u "{urn:mine}")] [] = Ok v /\ match v with VObj _ ns nss _ => ns = [] | _ => False end).
Proof. split; (eexists; split; [vm_compute; reflexivity|vm_compute; auto]). Qed.
