(** * Equality of library objects: the [__eq__] methods.

    [==] between distinct Python objects: the shortcut by which dictionaries,
    lists and tuples take identical members to be equal is not modelled (it
    only matters for NaN and for geometries that do not equal themselves). *)
From Coq Require Import String List NArith ZArith Bool.
From Verif Require Import Ustr Res PyInt PyFloat PyDate Value Geom.
Import ListNotations.
Local Open Scope string_scope.

(** [all(...)]: stops at the first that is false or raises. *)
Fixpoint all_of (l : list (res bool)) : res bool :=
  match l with
  | [] => Ok true
  | Ok true :: l' => all_of l'
  | r :: _ => r
  end.

(** [==] of dictionaries of strings. *)
Definition nss_eq (a b : nss_t) : bool :=
  Nat.eqb (List.length a) (List.length b) &&
  forallb (fun kv => match sget (fst kv) b with Some v => ueqb (snd kv) v | None => false end) a.

Definition opt_eq {A} (f : A -> A -> bool) (a b : option A) : bool :=
  match a, b with Some x, Some y => f x y | None, None => true | _, _ => false end.

(** Lists without members, whatever they are for. *)
Definition empty_list (v : value) : bool :=
  match v with VList [] | VDates [] | VItems [] | VCoords false [] => true | _ => false end.

(** [f] applied to both, the left operand first. *)
Definition oriented {A B} (flip : bool) (f : A -> A -> B) (x y : A) : B := if flip then f y x else f x y.

(** Constructor attributes and, between them, what came in [**kwargs]; the
    names of the latter are kept in [_XMLObject__kwarg_keys] (base.py:84-88). *)
Definition extras (ci : class_info) (attrs : list (string * value)) : list (string * value) :=
  filter (fun kv => negb (mem (fst kv) (map fst (ci_pre ci ++ ci_post ci)))) attrs.

(** base.py:249-263 [_get_splat] *)
Definition get_splat (ci : class_info) (attrs : list (string * value)) : list (string * value) :=
  filter (fun kv => match snd kv with VNone => false | _ => true end) (extras ci attrs).

(** Which [__eq__] a class has: the class that defines it and the attributes it
    compares besides [geometry], geometry.py:467-480, 634-647, 1118-1131.
    [None]: base.py:120-135. *)
Definition eq_kind (ci : class_info) : option (string * list string) :=
  if mem "geometry.Point" (ci_mro ci) then Some ("geometry.Point", ["extrude"; "altitude_mode"])
  else if mem "geometry.LineString" (ci_mro ci) then Some ("geometry.LineString", ["extrude"; "tessellate"])
  else if mem "geometry.Polygon" (ci_mro ci) then Some ("geometry.Polygon", ["extrude"; "tessellate"])
  else None.

Section Equal.
  Variable W : world.
  (** [==] of pygeoif geometries. *)
  Variable geq : geo -> geo -> bool.

  (** [issubclass(c, d)] *)
  Definition subclass (c d : string) : bool :=
    match class_of W c with Some ci => mem d (ci_mro ci) | None => false end.
  Definition strict_subclass (c d : string) : bool := negb (String.eqb c d) && subclass c d.

  (** gx.py:127-163: dataclasses. *)
  Definition titem_eq (a b : titem) : bool :=
    opt_eq kdt_eq (ti_when a) (ti_when b) &&
    geq (GPoint (ti_coord a)) (GPoint (ti_coord b)) &&
    opt_eq point_eq (ti_angle a) (ti_angle b).

  Definition geometry_eq (a b : value) : res bool :=
    let! g := geometry W a in
    let! h := geometry W b in
    Ok (opt_eq geq g h).

  Fixpoint apply_all (fs : list (value -> res bool)) (l : list value) : list (res bool) :=
    match fs, l with f :: fs', y :: l' => f y :: apply_all fs' l' | _, _ => [] end.

  (** [a == b], or [b == a] if [flip]. *)
  Fixpoint eqv (a : value) (flip : bool) (b : value) {struct a} : res bool :=
    match a, b with
    | VObj c ns nss attrs, VObj c' ns' nss' attrs' =>
        (* Python asks the right operand first if its class is a proper
           subclass of that of the left one *)
        let a_first := if flip then strict_subclass c c' else negb (strict_subclass c' c) in
        let cmps := map (fun av => match av with (k, x) => (k, eqv x (negb a_first)) end) attrs in
        match class_of W (if a_first then c else c') with
        | None => Err EAttributeError
        | Some ci =>
            let self := if a_first then attrs else attrs' in
            let other := if a_first then c' else c in
            match eq_kind ci with
            | Some (k, names) =>
                if subclass other k then
                  let attr n := match sget n cmps, sget n attrs' with
                                | Some f, Some y => f y
                                | _, _ => Err EAttributeError
                                end in
                  all_of (map attr names ++
                        [oriented (negb a_first) geometry_eq a b; Ok (ueqb ns ns'); Ok (oriented (negb a_first) nss_eq nss nss'); attr "id"; attr "target_id"] ++
                        map attr (map fst (get_splat ci self)))
                else Ok false
            | None =>
                if String.eqb c c' then
                  let member n := match sget n cmps, sget n attrs' with
                                  | Some f, Some y => f y
                                  | _, _ => Ok false
                                  end in
                  let ks := map fst self in
                  let n := List.length (ci_pre ci) in
                  let m := List.length (extras ci self) in
                  if Nat.eqb (List.length attrs) (List.length attrs') then
                    all_of (map member (firstn n ks) ++ [Ok (oriented (negb a_first) nss_eq nss nss'); Ok (ueqb ns ns')] ++
                          map member (firstn m (skipn n ks)) ++
                          [Ok (all2 String.eqb (map fst (extras ci attrs)) (map fst (extras ci attrs')))] ++
                          map member (skipn m (skipn n ks)))
                  else Ok false
                else Ok false
            end
        end
    | VList l, VList l' =>
        if Nat.eqb (List.length l) (List.length l')
        then all_of (apply_all (map (fun x => eqv x flip) l) l') else Ok false
    | VItems l, VItems l' => Ok (all2 (oriented flip titem_eq) l l')
    | VDates l, VDates l' => Ok (all2 (opt_eq kdt_eq) l l')
    | _, _ => Ok (scalar_eq a b || (empty_list a && empty_list b))
    end.

  (** [a == b] *)
  Definition py_eq (a b : value) : res bool := eqv a false b.
End Equal.
