(** * Proofs for PropDates.v. *)
From Coq Require Import String List NArith ZArith Bool Lia.
From Verif Require Import Ustr UstrProofs Res PyInt PyNumProofs PyDate PyDateProofs DateForms.
Import ListNotations.
Local Open Scope Z_scope.

Lemma kml_datetime_spec p r :
  let k := kml_datetime p r in
  match k_res k with
  | RYear => k_dt k = PDate (mkDate (dy (date_of p)) 1 1)
  | RYearMonth => k_dt k = PDate (mkDate (dy (date_of p)) (dm (date_of p)) 1)
  | RDate => k_dt k = PDate (date_of p)
  | RDateTime => k_dt k = p /\ is_datetime p = true
  end /\
  k_res k = match r with
            | Some RDateTime | None => if is_datetime p then RDateTime else RDate
            | Some x => x
            end /\
  kml_datetime (k_dt k) (Some (k_res k)) = k /\
  (match r with None => kml_datetime (k_dt k) None = k | _ => True end).
Proof. destruct p as [[y m d]|t], r as [[| | |]|]; cbn; repeat split; reflexivity. Qed.

Definition old_year : kmldt := mkKdt (PDate (mkDate 999 1 1)) RYear.
Lemma old_year_lost oracle : (forall s, oracle s = None) -> kdt_parse oracle (kdt_str old_year) = Err EValueError.
Proof.
  intro H. change (kdt_str old_year) with (u "999"). unfold kdt_parse.
  change (ymd_match (u "999")) with (@None (ustr * option ustr * option ustr)). cbv beta iota.
  unfold arrow_get. change (iso_parse (u "999")) with (@None datetime). cbv beta iota. rewrite H. reflexivity.
Qed.

Lemma kml_datetime_valid p r : valid_pydate p = true -> valid_pydate (k_dt (kml_datetime p r)) = true.
Proof.
  intro H. apply (kml_datetime_normal p r) in H. destruct (kml_datetime p r) as [[d|t] [| | |]]; cbn in *;
  rewrite ?andb_true_iff in H; intuition discriminate || auto; try apply H; discriminate.
Qed.
