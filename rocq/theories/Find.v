(** * Searching: utils.py, Document.get_style_by_url, StyleMap, TimeMixin. *)
From Coq Require Import String Ascii List NArith ZArith Bool.
From Verif Require Import Ustr Res PyInt PyFloat PyDate Value Geom.
Import ListNotations.
Local Open Scope string_scope.

(** The Python objects that [find_all] visits: attribute values and members of
    lists, and inside of them the keys of a [name_spaces] dictionary, tuples of
    numbers, the parts of a [KmlDateTime], track items, their pygeoif points
    and their angles. *)
Inductive pyobj :=
| OVal (v : value)
| OKey (k : string)
| OTuple (c : list num)
| OMoment (d : pydate)
| ORes (r : resolution)
| OItem (i : titem)
| OPoint (c : list num)
| OAngle (c : list num).

(** [attr.startswith("_")] *)
Definition underscore (a : string) : bool :=
  match a with String c _ => Ascii.eqb c "_"%char | EmptyString => false end.

(** utils.py:50-57, one attribute: strings are skipped, iterables are entered,
    anything else is given as it is. *)
Definition expand (v : value) : list pyobj :=
  match v with
  | VStr _ => []
  | VList l => map OVal l
  | VCoords _ l => map OTuple l
  | VPoint c => map (fun n => OVal (VNum n)) c
  | VDates l => map (fun o => match o with Some k => OVal (VDate k) | None => OTuple [] end) l
  | VItems l => map OItem l
  | _ => [OVal v]
  end.

Definition expand_attr (av : string * value) : list pyobj :=
  if underscore (fst av) then [] else expand (snd av).

(** utils.py:33-57 [get_all_attrs].  [__dict__] holds the attributes assigned
    before [_XMLObject.__init__], then [name_spaces] (whose iteration gives its
    keys) and [ns] (a string), then the others.  Objects without [__dict__],
    enum members (private attributes only) and pygeoif points have none. *)
Definition get_all_attrs (W : world) (o : pyobj) : list pyobj :=
  match o with
  | OVal (VObj c _ nss attrs) =>
      let n := match class_of W c with Some ci => List.length (ci_pre ci) | None => 0%nat end in
      concat (map expand_attr (firstn n attrs)) ++ map (fun kv => OKey (fst kv)) nss ++ concat (map expand_attr (skipn n attrs))
  | OVal (VDate k) => [OMoment (k_dt k); ORes (k_res k)]
  | OItem i =>
      (match ti_when i with Some k => [OVal (VDate k)] | None => [] end) ++
      [OPoint (ti_coord i)] ++
      [match ti_angle i with Some a => OAngle a | None => OVal VNone end]
  | OAngle c => map (fun n => OVal (VNum n)) c
  | _ => []
  end.

(** Names of the classes of which [o] is an instance. *)
Definition classes_of (W : world) (o : pyobj) : list string :=
  match o with
  | OVal (VObj c _ _ _) => match class_of W c with Some ci => ci_mro ci | None => [c] end
  | OVal VNone => ["NoneType"]
  | OVal (VBool _) => ["bool"; "int"]
  | OVal (VNum (NInt _)) => ["int"]
  | OVal (VNum (NFloat _)) => ["float"]
  | OVal (VStr _) | OKey _ => ["str"]
  | OVal (VEnum c _) => [c; "enums.RelaxedEnum"; "enum.Enum"]
  | OVal (VDate _) => ["times.KmlDateTime"]
  | OVal (VList _) | OVal (VItems _) | OVal (VDates _) => ["list"]
  | OVal (VCoords b _) => [if b then "tuple" else "list"]
  | OVal (VPoint _) | OTuple _ => ["tuple"]
  | OMoment (PDate _) => ["datetime.date"]
  | OMoment (PDateTime _) => ["datetime.datetime"; "datetime.date"]
  | ORes _ => ["enums.DateTimeResolution"; "enums.RelaxedEnum"; "enum.Enum"]
  | OItem _ => ["gx.TrackItem"]
  | OPoint _ => ["pygeoif.Point"]
  | OAngle _ => ["gx.Angle"]
  end.

(** [isinstance(o, of_type)] *)
Definition isinstance (W : world) (ts : list string) (o : pyobj) : bool :=
  existsb (fun t => String.eqb t "object" || mem t (classes_of W o)) ts.

(** A query: [of_type], and for each keyword argument the comparison with the
    given value.  [getattr] is a parameter: attributes of instances, class
    attributes and properties. *)
Record query := mkQuery {
  q_type : option (list string);
  q_args : list (string * (pyobj -> res bool))
}.

Section Search.
  Variable W : world.
  Variable getattr : pyobj -> string -> res pyobj.

  (** utils.py:13-30 [has_attribute_values] *)
  Fixpoint has_attribute_values (o : pyobj) (args : list (string * (pyobj -> res bool))) : res bool :=
    match args with
    | [] => Ok true
    | (k, eq) :: args' =>
        match (let! x := getattr o k in eq x) with
        | Ok true => has_attribute_values o args'
        | Ok false => Ok false
        | Err EAttributeError => Ok false
        | Err e => Err e
        end
    end.

  (** utils.py:81-86 *)
  Definition test (q : query) (o : pyobj) : res bool :=
    if match q_type q with None => true | Some ts => isinstance W ts o end
    then has_attribute_values o (q_args q) else Ok false.

  (** utils.py:60-89 [find_all]: what the generator does, in order; [Err]: it
      raises.  [fuel] is the depth of the Python call stack. *)
  Fixpoint walk (fuel : nat) (q : query) (o : pyobj) : list (res pyobj) :=
    match fuel with
    | O => [Err ERecursion]
    | S fuel' =>
        (match test q o with Ok true => [Ok o] | Ok false => [] | Err e => [Err e] end) ++
        concat (map (walk fuel' q) (get_all_attrs W o))
    end.

  (** utils.py:92-113 [find]: the first thing the generator does. *)
  Definition first (l : list (res pyobj)) : res (option pyobj) :=
    match l with [] => Ok None | Ok o :: _ => Ok (Some o) | Err e :: _ => Err e end.
End Search.

(** Depth of an object. *)
Fixpoint vdepth (v : value) : nat :=
  match v with
  | VList l => S (fold_right Nat.max 0%nat (map vdepth l))
  | VObj _ _ _ attrs => S (fold_right Nat.max 0%nat (map (fun av => match av with (_, x) => vdepth x end) attrs))
  | VItems _ => 4
  | _ => 2
  end.
Definition odepth (o : pyobj) : nat :=
  match o with
  | OVal v => vdepth v
  | OItem _ => 4
  | OAngle _ => 3
  | _ => 0
  end.

(** Enough stack for the object. *)
Definition find_all (W : world) getattr (q : query) (o : pyobj) : res (list pyobj) :=
  seq_res (walk W getattr (S (odepth o)) q o).
Definition find (W : world) getattr (q : query) (o : pyobj) : res (option pyobj) :=
  first (walk W getattr (S (odepth o)) q o).

(** ** Styles *)

(** Text after the first [#]. *)
Fixpoint after_hash (s : ustr) : ustr :=
  match s with
  | [] => []
  | c :: s' => if N.eqb c 35 then s' else after_hash s'
  end.

(** [urllib.parse.urlparse(url).fragment]: tabs and line breaks are removed;
    everything after the first [#].  A malformed bracketed host, for which
    [urlparse] raises ValueError, is the parameter [bad_host]. *)
Definition fragment (url : ustr) : ustr :=
  after_hash (filter (fun c => negb (N.eqb c 9 || N.eqb c 10 || N.eqb c 13)) url).

Definition eq_str (s : ustr) (o : pyobj) : res bool :=
  Ok (match o with OVal (VStr t) => ueqb t s | _ => false end).

(** containers.py:304-329 [Document.get_style_by_url] *)
Definition get_style_by_url (W : world) getattr (bad_host : ustr -> bool) (doc : value) (url : ustr) : res (option pyobj) :=
  if bad_host url then Err EValueError
  else find W getattr (mkQuery (Some ["styles.Style"; "styles.StyleMap"]) [("id", eq_str (fragment url))]) (OVal doc).

Definition attr_of (v : value) (a : string) : res value :=
  match v with
  | VObj _ _ _ attrs => match sget a attrs with Some x => Ok x | None => Err EAttributeError end
  | _ => Err EAttributeError
  end.

(** styles.py:1384-1401: [next((p.style for p in pairs if p.key == key), None)] *)
Fixpoint first_pair (key : ustr) (l : list value) : res value :=
  match l with
  | [] => Ok VNone
  | p :: l' =>
      let! k := attr_of p "key" in
      if scalar_eq k (VEnum "enums.PairKey" key) then attr_of p "style" else first_pair key l'
  end.

Definition style_of_key (key : string) (v : value) : res value :=
  let! ps := attr_of v "pairs" in
  match ps with VList l => first_pair (u key) l | _ => Err ETypeError end.

(** styles.py:1371-1384 *)
Definition stylemap_normal := style_of_key "normal".
(** styles.py:1386-1400 *)
Definition stylemap_highlight := style_of_key "highlight".

(** ** mixins.py:30-48 [TimeMixin] *)

(** [self.times]; the class attribute is [None]. *)
Definition times_of (v : value) : value :=
  match attr_of v "times" with Ok x => x | Err _ => VNone end.

Definition time_attr (W : world) (cls attr : string) (v : value) : res value :=
  let t := times_of v in
  if isinstance W [cls] (OVal t) then attr_of t attr else Ok VNone.

Definition time_stamp (W : world) := time_attr W "times.TimeStamp" "timestamp".
Definition time_begin (W : world) := time_attr W "times.TimeSpan" "begin".
Definition time_end (W : world) := time_attr W "times.TimeSpan" "end".
