(** * Documents independent of name space URIs (specification vocabulary). *)
From Coq Require Import String List NArith ZArith Bool.
From Verif Require Import Ustr UstrProofs Res Elem Value Geom Codec Spec.
Import ListNotations.

(** An XML document as it is written down: tags are a prefix and a local name,
    XML attributes carry no prefix. *)
Inductive qelem : Type :=
| QElem (pre : string) (local : ustr) (attrib : list (ustr * ustr)) (text : option ustr) (kids : list qelem).

Definition q_pre (q : qelem) : string := let '(QElem p _ _ _ _) := q in p.
Definition q_local (q : qelem) : ustr := let '(QElem _ n _ _ _) := q in n.
Definition q_text (q : qelem) : option ustr := let '(QElem _ _ _ x _) := q in x.

Section QelemInd.
  Variable P : qelem -> Prop.
  Hypothesis H : forall p n a x ks, Forall P ks -> P (QElem p n a x ks).
  Fixpoint qelem_ind' (q : qelem) : P q :=
    match q with
    | QElem p n a x ks =>
        H p n a x ks ((fix go (l : list qelem) : Forall P l :=
          match l with
          | [] => Forall_nil _
          | k :: l' => Forall_cons _ (qelem_ind' k) (go l')
          end) ks)
    end.
End QelemInd.

(** The element tree an XML parser makes of it, prefixes being bound by [m]. *)
Fixpoint bound (m : nss_t) (q : qelem) : elem :=
  match q with
  | QElem p n a x ks => Elem (ns_get m p ++ n) a x (map (bound m) ks)
  end.

(** Names are XML names without braces (in fact without [{] and [}]). *)
Fixpoint plain_names (q : qelem) : bool :=
  match q with
  | QElem _ n a _ ks => good_name n && forallb (fun kv => good_name (fst kv)) a && forallb plain_names ks
  end.

(** The prefixes used in a document. *)
Fixpoint prefixes (q : qelem) : list string :=
  match q with
  | QElem p _ _ _ ks => p :: concat (map prefixes ks)
  end.

(** The prefixes known to the classes of the library. *)
Definition known_prefixes (W : world) : list string := concat (map it_nsids (concat (map (fun cc => items_of W (fst cc)) (w_classes W)))).

(** Two bindings that tell the same prefixes apart. *)
Definition same_distinctions (ps : list string) (m m' : nss_t) : Prop :=
  forall p p', In p ps -> In p' ps -> (ns_get m p = ns_get m p' <-> ns_get m' p = ns_get m' p').

(** ** Documents with and without the KML name space *)

(** All elements carry the prefix [p]. *)
Fixpoint under (p : string) (q : qelem) : qelem :=
  match q with
  | QElem _ n a x ks => QElem p n a x (map (under p) ks)
  end.

Definition has_local (n : ustr) (ks : list qelem) : bool := existsb (fun k => ueqb (q_local k) n) ks.

(** The item looks in the KML name space and in no name space. *)
Definition looks_both (it : item) : bool := mem "kml" (it_nsids it) && mem "" (it_nsids it).

(** Children that the class keeps in lists or looks for in one name space only
    do not occur, here and in the children that become objects. *)
Fixpoint fallback_ok (W : world) (q : qelem) (c : string) {struct q} : bool :=
  match q with
  | QElem _ _ _ _ kids =>
      let ks := map (fun k => (k, fallback_ok W k)) kids in
      forallb (fun it =>
        match it_get it with
        | GNodeText | GCoords | GAttrText | GAttrInt | GAttrFloat | GAttrEnum => true
        | GText | GBool | GInt | GFloat | GEnum | GDate | GDates | GCoordList =>
            looks_both it || negb (has_local (u (it_node it)) kids)
        | GObj =>
            forallb (fun c' =>
              negb (has_local (u (tag_of W c')) kids) ||
              (looks_both it && forallb (fun k : qelem * (string -> bool) => negb (ueqb (q_local (fst k)) (u (tag_of W c'))) || snd k c') ks))
              (it_classes it)
        | GObjs => forallb (fun c' => negb (has_local (u (tag_of W c')) kids)) (it_classes it)
        end) (items_of W c)
  end.
