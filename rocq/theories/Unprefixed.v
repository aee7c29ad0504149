(** * Documents written without prefix (specification vocabulary). *)
From Coq Require Import String List NArith ZArith Bool.
From Verif Require Import Ustr UstrProofs Res Elem Value Geom Codec Spec Settled.
Import ListNotations.

(** The tag is in Clark notation with a name space. *)
Definition qualified (t : ustr) : bool := match t with c :: _ => N.eqb c 123 | [] => false end.

(** Namespaces in XML, section 6.2: the [xmlns] attribute of an element is no
    attribute but the default name space of the element and of what is inside
    it, that is of the tags without prefix. *)
Definition default_of (d : ustr) (a : list (ustr * ustr)) : ustr :=
  match uget (u "xmlns") a with
  | Some uri => if uempty uri then [] else u "{" ++ uri ++ u "}"
  | None => d
  end.

(** The element tree an XML parser builds from the text of [e]; [d] is the
    default name space around it. *)
Fixpoint as_read (d : ustr) (e : elem) : elem :=
  match e with
  | Elem t a x ks =>
      let d' := default_of d a in
      Elem (if qualified t then t else d' ++ t)
           (filter (fun kv => negb (ueqb (fst kv) (u "xmlns"))) a) x (map (as_read d') ks)
  end.

(** Every element is in the name space [K]. *)
Fixpoint all_in (K : ustr) (e : elem) : bool :=
  match e with
  | Elem t _ _ ks => ueqb (firstn (length K) t) K && good_name (skipn (length K) t) && forallb (all_in K) ks
  end.

(** The object with the KML name space instead of none, at every depth. *)
Fixpoint in_kml (v : value) : value :=
  match v with
  | VObj c ns nss attrs =>
      VObj c (if uempty ns then KMLNS else ns) nss (map (fun av => match av with (a, x) => (a, in_kml x) end) attrs)
  | VList l => VList (map in_kml l)
  | _ => v
  end.

(** Every object has no name space: [ns='']. *)
Definition no_ns (v : value) : bool := vall (fun _ ns _ _ => uempty ns) v.

(** No enumeration member that belongs to another name space than KML. *)
Definition kml_member (W : world) (v : value) : bool :=
  match v with
  | VEnum c m => match sget c (w_enums W) with
                 | Some e => match uget m e with Some (Some id) => String.eqb id "kml" | _ => true end
                 | None => true
                 end
  | _ => true
  end.
Definition kml_members (W : world) (v : value) : bool :=
  vall (fun _ _ _ attrs => forallb (fun av => kml_member W (snd av)) attrs) v.

(** Objects of KML classes have no name space, the others (gx, atom) have
    their own; all carry the map [m]. *)
Definition unprefixed (W : world) (m : nss_t) (v : value) : bool :=
  vall (fun c ns nss _ =>
    ueqb (if uempty ns then KMLNS else ns) (default_ns W c m) && same_nss nss m) v.
