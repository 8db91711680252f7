(** Signals and their types: /repo/draftsman/data/signals.py, the tables made by
    environment/update.py 1367-1627 and the type check of signatures.py 437-461.

    A set of types is a list without repetitions; which type [next(iter(...))]
    gives is left open ([pick]).  The eight lists of names are one dictionary from
    types.  Of [raw] the name and the type are kept.  InvalidSignalError and
    InvalidMapperError are [DraftsmanError], of which they are subclasses. *)
From Coq Require Import ZArith List Bool String.
From Verif Require Import Common Dict Ranking_Model.
Import ListNotations.
Local Open Scope string_scope.
Local Open Scope list_scope.

Definition sdict := dict pystr.
Record signals := mkSig {
  sg_raw : sdict (option pystr * option pystr);
  sg_types : sdict (list pystr);
  sg_lists : sdict (list pystr) }.

(** signals.py 52-61. *)
Definition permitted : list pystr :=
  [str "item"; str "fluid"; str "recipe"; str "entity"; str "space-location"; str "asteroid-chunk"; str "quality"; str "virtual"].
(** [s.add(x)]. *)
Definition set_add (x : pystr) (s : list pystr) : list pystr := if existsb (pystr_eqb x) s then s else s ++ [x].
(** [d[k].append(x)] and [d[k].add(x)], starting the entry if missing. *)
Definition list_of (d : sdict (list pystr)) (k : pystr) : list pystr :=
  match dget pystr_eqb d k with Some l => l | None => [] end.

(** signals.py 33-87; an exception comes before any change. *)
Definition add_signal (s : signals) (name type : pystr) : result signals :=
  if negb (existsb (pystr_eqb type) permitted) then Err ValueError
  else Ok (mkSig (dset pystr_eqb (sg_raw s) name (Some name, Some type))
                 (dset pystr_eqb (sg_types s) name
                    match dget pystr_eqb (sg_types s) name with Some ts => set_add type ts | None => [type] end)
                 (dset pystr_eqb (sg_lists s) type (list_of (sg_lists s) type ++ [name]))).

(** signals.py 106-109. *)
Definition get_signal_types (s : signals) (name : pystr) : result (list pystr) :=
  match dget pystr_eqb (sg_types s) name with Some ts => Ok ts | None => Err DraftsmanError end.

Section Pick.
  (** The element a set shows first. *)
  Variable pick : list pystr -> pystr.
  (** signals.py 112-130, for a name; what is returned is (name, type). *)
  Definition signal_dict (s : signals) (name : pystr) : result (pystr * pystr) :=
    let* ts := get_signal_types s name in
    Ok (name, if existsb (pystr_eqb (str "item")) ts then str "item" else pick ts).
End Pick.
(** signatures.py 449-459: whether a warning is issued. *)
Definition mismatch (s : signals) (sig : pystr * pystr) : bool :=
  match dget pystr_eqb (sg_raw s) (fst sig) with
  | Some _ => match get_signal_types s (fst sig) with Ok ts => negb (existsb (pystr_eqb (snd sig)) ts) | Err _ => false end
  | None => false
  end.

(** signals.py 133-144. *)
Definition get_mapper_type (modules entities : list pystr) (name : pystr) : result pystr :=
  if existsb (pystr_eqb name) modules then Ok (str "item")
  else if existsb (pystr_eqb name) entities then Ok (str "entity") else Err DraftsmanError.

(** update.py 1389-1416: one category, given as its prototypes by name.  The
    prototypes of each type are gathered in [found]. *)
Record gathered := mkGa {
  ga_raw : sdict proto; ga_types : sdict (list pystr); ga_found : sdict (list proto) }.
Definition found_of (g : gathered) (t : pystr) : list proto :=
  match dget pystr_eqb (ga_found g) t with Some l => l | None => [] end.
Definition gather_one (type : pystr) (g : gathered) (p : pystr * proto) : gathered :=
  let (name, obj) := p in
  mkGa (dset pystr_eqb (ga_raw g) name obj)
       (dset pystr_eqb (ga_types g) name
          match dget pystr_eqb (ga_types g) name with None => [type] | Some ts => set_add type ts end)
       (dset pystr_eqb (ga_found g) type (found_of g type ++ [obj])).
Definition add_signals (g : gathered) (c : pystr * list (pystr * proto)) : gathered :=
  fold_left (gather_one (fst c)) (snd c) g.
(** 1375-1385 and the calls 1419-1589. *)
Definition gather (cats : list (pystr * list (pystr * proto))) : gathered :=
  fold_left add_signals cats (mkGa [] [] []).
(** 1591-1617: the order in which the lists are joined and sorted. *)
Definition listed : list pystr :=
  [str "virtual"; str "item"; str "fluid"; str "recipe"; str "entity"; str "space-location"; str "asteroid-chunk"; str "quality"].

Section Extract.
  Variable items : table proto.
  Variable subgroups : table subgroup.
  Variable groups : table group.
  Fixpoint sort_lists (g : gathered) (ts : list pystr) : result (sdict (list pystr)) :=
    match ts with
    | [] => Ok []
    | t :: ts' =>
        let* l := get_order (found_of g t) items subgroups groups in
        let* r := sort_lists g ts' in Ok ((t, l) :: r)
    end.
  Fixpoint raw_of (g : gathered) (names : list pystr) (acc : sdict (option pystr * option pystr)) : result (sdict (option pystr * option pystr)) :=
    match names with
    | [] => Ok acc
    | n :: ns =>
        match dget pystr_eqb (ga_raw g) n with
        | Some o => raw_of g ns (dset pystr_eqb acc n (p_name o, p_type o))
        | None => Err KeyError
        end
    end.
  Definition extract_signals (cats : list (pystr * list (pystr * proto))) : result signals :=
    let g := gather cats in
    let* all := get_order (flat_map (found_of g) listed) items subgroups groups in
    let* lists := sort_lists g listed in
    let* raw := raw_of g all [] in
    Ok (mkSig raw (ga_types g) lists).
End Extract.
