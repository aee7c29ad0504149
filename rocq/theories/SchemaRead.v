(** * Documents of schema values the strict reader accepts (specification vocabulary). *)
From Coq Require Import String List NArith ZArith Bool.
From Verif Require Import Ustr Elem PyDate Value Schema SchemaTables Lexical CoordSpec.
Import ListNotations.

Definition text_of (e : elem) : ustr := match e_text e with Some t => t | None => [] end.

(** The element and everything inside it. *)
Fixpoint everywhere (P : elem -> Prop) (e : elem) {struct e} : Prop :=
  match e with
  | Elem t a x ks => P (Elem t a x ks) /\
      (fix all ks := match ks with [] => True | k :: ks' => everywhere P k /\ all ks' end) ks
  end.

(** The schema declares every attribute and every element inside, whatever
    their order and number; the values satisfy [P], which gets the simple type. *)
Fixpoint declared (P : sname -> ustr -> Prop) (ty : string) (e : elem) {struct e} : Prop :=
  match e with
  | Elem _ a x ks =>
      match find (fun p => String.eqb (fst p) ty) schema_types with
      | None => False
      | Some (_, d) =>
          match d_text d with Some st => P st (match x with Some t => t | None => [] end) | None => True end /\
          (forall k v, In (k, v) a -> exists y, In y (d_attrs d) /\ k = u (fst (fst y)) /\ P (snd y) v) /\
          (fix every ks := match ks with
                           | [] => True
                           | k :: ks' => match kid_type schema_uris schema_elements d (e_tag k) with
                                         | Some ty' => declared P ty' k
                                         | None => False
                                         end /\ every ks'
                           end) ks
      end
  end.

(** ** Values *)

(** Dates: years of four digits and no zone unless there is a time; a time
    has no fraction of a second or one of six digits, and no zone or one of
    hours and minutes -- or else the parser of arrow, which is not modelled,
    accepts it. *)
Definition plain_year (y : ustr) : Prop := exists yz, year_text y yz /\ length y = 4.
Definition plain_day (s : ustr) : Prop :=
  exists y yz m mz d, year_text y yz /\ length y = 4 /\ month_text m mz /\ day_text d yz mz /\ s = (y ++ u "-" ++ m ++ u "-" ++ d)%list.
Definition plain_date_time (s : ustr) : Prop :=
  exists d h hz m sec fr z, plain_day d /\ denotes_in 2 h hz /\ (0 <= hz < 24)%Z /\ sixty m /\ sixty sec /\
    (fr = [] \/ exists x, length x = 6 /\ digits x /\ fr = (u "." ++ x)%list) /\ zone z /\ z <> u "Z" /\
    s = (d ++ u "T" ++ h ++ u ":" ++ m ++ u ":" ++ sec ++ fr ++ z)%list.
Definition readable_date (arrow : ustr -> option datetime) (s : ustr) : Prop :=
  plain_year s \/
  (exists y m mz, plain_year y /\ month_text m mz /\ s = (y ++ u "-" ++ m)%list) \/
  plain_day s \/
  plain_date_time s \/
  (is_date_time s /\ exists t, arrow s = Some t /\ valid_time t = true /\ aware t = true).

(** Python refuses integers of more than 4300 digits, leading zeros included. *)
Definition short_int (s : ustr) : Prop := is_int s /\ length s <= 4300.

Definition readable_value (arrow : ustr -> option datetime) (st : sname) (s : ustr) : Prop :=
  well_written st s /\
  (st = ("xs", "int")%string -> short_int s) /\
  (st = ("kml", "dateTimeType")%string -> readable_date arrow s).

(** ** Elements *)

Local Open Scope string_scope.
Definition name (id n : string) : ustr := clark schema_uris (id, n).

(** What the schema leaves open or has another idea of:
    - the numbers of a [Lod] are integers,
    - [coordinates], [gx:coord] and [gx:angles] contain numbers,
    - so does the length of a link,
    - the type of a [SimpleField] is one of those of OGC KML,
    - a [Schema] has an [id],
    - the positions of a [gx:Track] are points, and there are as many of them
      as there are times and angles. *)
Definition lod_numbers : list string := ["minLodPixels"; "maxLodPixels"; "minFadeExtent"; "maxFadeExtent"].

Definition field_types : list string := ["string"; "int"; "uint"; "short"; "ushort"; "float"; "double"; "bool"].

Definition count (t : ustr) (ks : list elem) : nat := length (filter (fun k => ueqb (e_tag k) t) ks).

Definition readable_element (e : elem) : Prop :=
  (forall n, In n lod_numbers -> e_tag e = name "kml" n -> short_int (text_of e)) /\
  (e_tag e = name "kml" "coordinates" -> exists cells, coords_text cells (text_of e) /\ Forall (Forall is_double) cells) /\
  (e_tag e = name "gx" "coord" \/ e_tag e = name "gx" "angles" -> Forall is_double (words (text_of e))) /\
  (e_tag e = name "atom" "link" -> forall v, In (u "length", v) (e_attrib e) -> short_int v) /\
  (e_tag e = name "kml" "SimpleField" -> forall v, In (u "type", v) (e_attrib e) -> In v (map u field_types)) /\
  (e_tag e = name "kml" "Schema" -> (exists v, In (u "id", v) (e_attrib e)) /\ forall v, In (u "id", v) (e_attrib e) -> v <> []) /\
  (e_tag e = name "gx" "Track" ->
     count (name "kml" "when") (e_kids e) <= count (name "gx" "coord") (e_kids e) /\
     count (name "gx" "angles") (e_kids e) <= count (name "gx" "coord") (e_kids e) /\
     forall k, In k (e_kids e) ->
       (e_tag k = name "gx" "coord" -> length (words (text_of k)) = 2 \/ length (words (text_of k)) = 3) /\
       (e_tag k = name "gx" "angles" -> length (words (text_of k)) <= 3)).
