(** * Verbosity only adds: C75. *)
From Coq Require Import String List NArith ZArith Bool.
From Verif Require Import Ustr UstrProofs Res PyInt PyFloat PyDate Elem Value Geom Codec Tables Spec FastkmlOk FewerSpec FewerProofs Samples.
Import ListNotations.
Local Open Scope string_scope.

Lemma fastkml_defaults_write arrow : defaults_write (fastkml arrow) = true.
Proof. vm_compute. reflexivity. Qed.

(** Whatever can be written with normal verbosity can be written tersely and
    verbosely.  The terse document is the normal one, and the normal one is the
    verbose one, with XML attributes, texts and elements that consist of a text
    left out: nothing else is left out, nothing is changed or moved. *)
Theorem C75_only_adds :
  forall arrow prec v e,
  let W := fastkml arrow in
  typed W v = true -> etree W prec Normal v = Ok e ->
  exists et ev, etree W prec Terse v = Ok et /\ etree W prec Verbose v = Ok ev /\
                within et e /\ within e ev /\ within et ev.
Proof.
  intros arrow prec v e W T E. destruct (verbosity_writes W prec Normal Terse v e (fastkml_ok arrow : world_ok W = true) (fastkml_defaults_write arrow) T ltac:(discriminate) E) as [et Et].
  destruct (verbosity_writes W prec Normal Verbose v e (fastkml_ok arrow : world_ok W = true) (fastkml_defaults_write arrow) T ltac:(discriminate) E) as [ev Ev]. exists et, ev.
  assert (HW := fastkml_ok arrow : world_ok W = true).
  split; [exact Et|]. split; [exact Ev|]. split; [|split].
  - now apply (verbosity_adds W prec Terse Normal v); auto.
  - now apply (verbosity_adds W prec Normal Verbose v); auto.
  - now apply (verbosity_adds W prec Terse Verbose v); auto.
Qed.
Print Assumptions C75_only_adds.

(** The verbose document exists only if the normal one does. *)
Theorem C75_verbose_writes :
  forall arrow prec v ev,
  let W := fastkml arrow in
  typed W v = true -> etree W prec Verbose v = Ok ev -> exists e, etree W prec Normal v = Ok e /\ within e ev.
Proof.
  intros arrow prec v ev W T E. destruct (verbosity_writes W prec Verbose Normal v ev (fastkml_ok arrow : world_ok W = true) (fastkml_defaults_write arrow) T ltac:(discriminate) E) as [e En]. exists e.
  split; [exact En|]. apply (verbosity_adds W prec Normal Verbose v); auto using fastkml_ok.
Qed.
Print Assumptions C75_verbose_writes.

(** A ground overlay with a region: the children of the overlay and of the level
    of detail in the three documents. *)
Definition overlay_c75 : value := Eval vm_compute in
  mk "overlays.GroundOverlay" [("id", str "i"); ("name", str "o"); ("visibility", VBool true); ("color", str "ffffffff");
    ("region", mk "views.Region" [("lat_lon_alt_box", mk "views.LatLonAltBox" [("north", fl "2"); ("south", fl "1"); ("east", fl "4"); ("west", fl "3")]);
                                  ("lod", mk "views.Lod" [("min_lod_pixels", VInt 256); ("max_lod_pixels", VInt 1024)])])].
Fixpoint named (n : string) (e : elem) : list elem :=
  let '(Elem t _ _ ks) := e in (if ueqb t (KMLNS ++ u n)%list then [e] else []) ++ concat (map (named n) ks).

Example C75_example :
  exists e et ev, typed W0 overlay_c75 = true /\ etree W0 None Normal overlay_c75 = Ok e /\ etree W0 None Terse overlay_c75 = Ok et /\ etree W0 None Verbose overlay_c75 = Ok ev /\
    map (fun x => length (e_kids x)) [et; e; ev] = [2; 4; 8]%nat /\
    map (fun x => map (fun l => length (e_kids l)) (named "Lod" x)) [et; e; ev] = [[1]; [2]; [4]]%nat.
Proof. do 3 eexists. repeat (split; [vm_compute; reflexivity|]). vm_compute. reflexivity. Qed.
