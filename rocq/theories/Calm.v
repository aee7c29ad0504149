(** * Elements the lenient reader accepts (specification vocabulary). *)
From Coq Require Import String List NArith ZArith Bool.
From Verif Require Import Ustr Res PyInt PyFloat PyDate Elem Value Geom Codec Spec Agree.
Import ListNotations.

Fixpoint first_some {A} (l : list (option A)) : option A :=
  match l with [] => None | Some x :: _ => Some x | None :: l' => first_some l' end.

Fixpoint first_nonempty {A} (l : list (list A)) : list A :=
  match l with [] => [] | [] :: l' => first_nonempty l' | x :: _ => x end.

(** Value of an XML attribute, when it is not empty. *)
Definition filled (key : ustr) (a : list (ustr * ustr)) : option ustr :=
  match uget key a with Some (c :: s) => Some (c :: s) | _ => None end.

(** The keys under which an item is looked up, in order of preference. *)
Definition keys (nss : nss_t) (it : item) : list ustr := map (fun id => ns_get nss id ++ u (it_node it)) (it_nsids it).

Definition texts (ks : list elem) : list ustr := concat (map (fun k => opt_list (e_text k)) ks).

(** The texts that are dates; the number of members of the texts that are
    tuples of numbers. *)
Definition good_dates (W : world) (ks : list elem) : list ustr :=
  filter (fun t => is_ok (kdt_parse (w_arrow W) t)) (texts ks).
Definition good_tuples (ks : list elem) : list nat :=
  map (fun t => length (words t))
    (filter (fun t => negb (uempty t) && forallb (fun w => is_ok (float_of_str w)) (words t)) (texts ks)).

Definition has_text (k : elem) : bool := match e_text k with Some _ => true | None => false end.

(** Lists of dates: no child without any text, as far as the reader looks. *)
Fixpoint dates_calm (W : world) (ks : list elem) (tags : list ustr) : bool :=
  match tags with
  | [] => true
  | tag :: tags' => forallb has_text (with_tag tag ks) &&
      (if nilb (good_dates W (with_tag tag ks)) then dates_calm W ks tags' else true)
  end.

(** A child together with the answer for each class it may be read as. *)
Definition judged := (elem * (string -> bool))%type.
Definition with_tag' (tag : ustr) (ks : list judged) : list judged := filter (fun k => ueqb (e_tag (fst k)) tag) ks.

Definition item_calm (W : world) (nss : nss_t) (a : list (ustr * ustr)) (ks : list judged) (it : item) : bool :=
  match it_get it with
  | GAttrInt => match first_some (map (fun key => filled key a) (keys nss it)) with
                | Some t => is_ok (int_of_str t)
                | None => true
                end
  | GDates => dates_calm W (map fst ks) (keys nss it)
  | GObj => match first_some (concat (map (fun id => map (fun c =>
                option_map (fun k => (c, k)) (hd_error (with_tag' (ns_get nss id ++ u (tag_of W c)) ks)))
                (it_classes it)) (it_nsids it))) with
            | Some (c, k) => snd k c
            | None => true
            end
  | GObjs => match it_nsids it with
             | id :: _ => forallb (fun c => forallb (fun k => snd k c) (with_tag' (ns_get nss id ++ u (tag_of W c)) ks)) (it_classes it)
             | [] => true
             end
  | _ => true
  end.

(** Positions exist for all times and angles, and are points. *)
Definition track_calm (W : world) (nss : nss_t) (its : list item) (ks : list elem) : bool :=
  match find_item "whens" its, find_item "coords" its, find_item "angles" its with
  | Some wi, Some ci, Some ai =>
      let ws := first_nonempty (map (fun t => good_dates W (with_tag t ks)) (keys nss wi)) in
      let cs := first_nonempty (map (fun t => good_tuples (with_tag t ks)) (keys nss ci)) in
      let an := first_nonempty (map (fun t => good_tuples (with_tag t ks)) (keys nss ai)) in
      nilb ws || nilb cs ||
      (Nat.leb (length ws) (length cs) && Nat.leb (length an) (length cs) &&
       forallb (fun n => Nat.eqb n 2 || Nat.eqb n 3) cs && forallb (fun n => Nat.leb n 3) an)
  | _, _, _ => false
  end.

Definition required_calm (nss : nss_t) (its : list item) (a : list (ustr * ustr)) (ak : string * ckind) : bool :=
  match snd ak with
  | CCleanReq => match find_item (fst ak) its with
                 | Some it => match first_some (map (fun key => filled key a) (keys nss it)) with Some _ => true | None => false end
                 | None => false
                 end
  | _ => true
  end.

(** The lenient reader accepts the element as an instance of [c]. *)
Fixpoint calm (W : world) (nss : nss_t) (e : elem) (c : string) {struct e} : bool :=
  match e with
  | Elem _ a _ kids =>
      let ks := map (fun k => (k, calm W nss k)) kids in
      match class_of W c with
      | None => false
      | Some ci =>
          let its := items_of W c in
          forallb (item_calm W nss a ks) its &&
          forallb (required_calm nss its a) (ctor_attrs ci) &&
          (if is_track ci then track_calm W nss its kids else true)
      end
  end.
