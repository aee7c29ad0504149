(** * What is read is shared with nobody: C64. *)
From Coq Require Import String List NArith ZArith Bool Lia PeanoNat.
From Verif Require Import Ustr UstrProofs Res PyFloat PyDate Elem Value Geom Codec Tables Api Spec FastkmlOk Alias AliasSpec AliasProofs AliasLoad AliasRead AliasReadProofs AliasFrame Samples PropAlias.
Import ListNotations.
Local Open Scope string_scope.
Local Open Scope list_scope.

(** C64.  Reading on a memory with addresses gives the object of the reader on
    trees (all other properties) or its exception.  Nothing that was there
    before is changed, no variable gets anything, and what could be looked at
    before looks the same. *)
Theorem C64_reading :
  forall arrow strict e c ns nss m,
  let W := fastkml arrow in
  match mread W strict e c ns nss m with
  | Ok (m', r) =>
      (exists v, from_element W strict e c ns nss = Ok v /\ load (edepth e) m' r = Ok v) /\
      (exists ls os, m' = mkM (m_lists m ++ ls) (m_objs m ++ os) (m_lvars m) (m_evars m)) /\
      (forall fuel x v, load fuel m x = Ok v -> load fuel m' x = Ok v)
  | Err x => from_element W strict e c ns nss = Err x
  end.
Proof.
  intros arrow strict e c ns nss m W. assert (R := mread_agrees W strict e (fastkml_ok arrow) _ (le_n _) c ns nss m).
  destruct (mread W strict e c ns nss m) as [[m' r]|x]; [|exact R]. destruct R as [G [_ [_ R]]]. destruct G as [ls [os [-> _]]]. split; [exact R|]. split; [eauto|]. intros fuel x v. apply load_more.
Qed.
Print Assumptions C64_reading.

(** Let a program run, a document be read, and the program go on without the
    object that was read: whatever it does to the objects, lists and
    dictionaries that it has, and whatever it reads, be it the same document,
    the object stays as it was read.  So an object that is read shares no
    part that can be changed with anything that was there before, nor with
    anything that is read or made later. *)
Theorem C64_nobody_else :
  forall arrow fuel before m strict e c ns nss m1 r more m2,
  let W := fastkml arrow in
  hrun W fuel empty_memory before = Ok m ->
  mread W strict e c ns nss m = Ok (m1, r) ->
  hrun W fuel m1 more = Ok m2 ->
  exists v, from_element W strict e c ns nss = Ok v /\ load (edepth e) m1 r = Ok v /\ load (edepth e) m2 r = Ok v.
Proof.
  intros arrow fuel before m strict e c ns nss m1 r more m2 W Hb Hr Hm. assert (HW := fastkml_ok arrow).
  destruct (run_sound W fuel before HW _ _ sound_empty Hb) as [Hs _].
  destruct (read_grown W strict e c ns nss m m1 r HW Hr) as [_ [_ [v [Fv Lv]]]].
  destruct (nobody_changes W fuel strict e c ns nss m m1 r HW Hs Hr more m2 Hm) as [v' [Fv' Lv']]. rewrite Fv in Fv'. injection Fv' as <-. eauto.
Qed.
Print Assumptions C64_nobody_else.

(** With the objects that are read, C58 goes on: after any history of reading,
    of constructor calls and of changes, lists and dictionaries are values
    that belong to one variable or attribute. *)
Theorem C64_lists_are_values :
  forall arrow fuel before m more,
  let W := fastkml arrow in
  hrun W fuel empty_memory before = Ok m ->
  forallb (fun o => match o with Do o => fair W o | Read _ _ _ _ _ => true end) before = true -> forallb (fair W) more = true ->
  match run W fuel m more with
  | Ok m' => a_run W fuel (seen m) more = Ok (seen m') /\ (forall fuel' e, load fuel' m' e = aload fuel' (seen m') e)
  | Err x => a_run W fuel (seen m) more = Err x
  end.
Proof.
  intros arrow fuel before m more W Hb Hf Hm.
  assert (Hs := hrun_separate W fuel before (fastkml_ok arrow) (fastkml_copies arrow) _ _ separate_empty Hf Hb).
  assert (H := every_run W fuel more m (fastkml_copies arrow) Hs Hm). destruct (run W fuel m more) as [m'|x]; [|exact H].
  destruct H as [Hs' E]. split; [exact E|]. intros fuel' e. apply load_seen. exact (sep_in m' Hs').
Qed.
Print Assumptions C64_lists_are_values.

(** A document with a folder is read twice; everything of the second is
    changed, and the first is as it was. *)
Definition twice_doc : elem :=
  Elem.Elem (KMLNS ++ u "Document") [] None
    [Elem.Elem (KMLNS ++ u "Folder") [] None
       [Elem.Elem (KMLNS ++ u "name") [] (Some (u "F")) []; Elem.Elem (KMLNS ++ u "Placemark") [] None [Elem.Elem (KMLNS ++ u "name") [] (Some (u "A")) []]]].

Definition twice_more : list hop :=
  [Read true "containers.Document" None (Some 0%nat) twice_doc;
   Do (OItem 0 "features" 0); Do (OItem 1 "features" 0); Do (ONewVal (VStr (u "B"))); Do (OPut 2 "name" 3);
   Do (OSetOwn 1 "features" (Objs [])); Do (OSetNss 1 []); Do (OSetOwn 0 "features" (Objs [PItem 0; PVar 1; PVar 2])); Do (OSetList 0 (Dict []))].

Example C64_example :
  exists m m1 r m2 v w,
  hrun W0 9 empty_memory [Do (ONewList (Dict [("x", u "{y}")]))] = Ok m /\
  mread W0 true twice_doc "containers.Document" KMLNS [] m = Ok (m1, r) /\
  hrun W0 9 m1 twice_more = Ok m2 /\
  load 9 m2 r = Ok v /\ from_element W0 true twice_doc "containers.Document" KMLNS [] = Ok v /\
  load 9 m2 (nth 0 (m_evars m2) (EV VNone)) = Ok w /\
  option_map (@length _) (kids (Ok v)) = Some 1%nat /\ option_map (@length _) (kids (Ok w)) = Some 3%nat.
Proof.
  do 6 eexists. split; [vm_compute; reflexivity|]. split; [vm_compute; reflexivity|]. split; [vm_compute; reflexivity|]. split; [vm_compute; reflexivity|].
  split; [vm_compute; reflexivity|]. split; [vm_compute; reflexivity|]. split; vm_compute; reflexivity.
Qed.
