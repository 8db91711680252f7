(** Prototype order: [get_order], /repo/draftsman/environment/update.py 122-232
    (the same function: /repo/draftsman/env.py 299-).

    A prototype is its fields read here, each possibly missing; [p_mined] is
    ["minable"]["result"], missing when either key is.  Fields are taken to be
    strings when present.  Tables are dictionaries from names. *)
From Coq Require Import ZArith NArith List Bool String.
From Verif Require Import Common Dict Order.
Import ListNotations.
Local Open Scope string_scope.
Local Open Scope list_scope.

Record proto := mkP {
  p_name : option pystr; p_type : option pystr; p_order : option pystr; p_subgroup : option pystr; p_mined : option pystr }.
Record subgroup := mkS { s_name : option pystr; s_order : option pystr; s_group : option pystr }.
Record group := mkG { g_name : option pystr; g_order : option pystr }.
Definition table (A : Type) := list (pystr * A).
Definition find {A} (t : table A) (k : pystr) : option A := dget pystr_eqb t k.
(** [d[k]] *)
Definition need {A} (o : option A) : result A := match o with Some v => Ok v | None => Err KeyError end.
(** 201-216: the sort key. *)
Record key := mkK {
  k_group : pystr * pystr; k_subgroup : pystr * pystr;
  k_missing : bool; k_order : option pystr; k_sort : pystr; k_name : pystr }.

Section Tables.
  Variable items : table proto.
  Variable subgroups : table subgroup.
  Variable groups : table group.

  (** 150-161; an empty string counts as none (163). *)
  Definition associated (o : proto) : result (option pystr) :=
    match p_mined o with
    | Some r => Ok (match r with [] => None | _ => Some r end)
    | None =>
        let* n := need (p_name o) in
        match find items n with
        | Some _ => Ok (match n with [] => None | _ => Some n end)
        | None => Ok None
        end
    end.
  (** 170-179: the item's own subgroup. *)
  Definition item_subgroup (it : proto) : result subgroup :=
    match p_subgroup it with
    | Some s => need (find subgroups s)
    | None => need (find subgroups (str "other"))
    end.
  (** 189-199: the prototype's own subgroup. *)
  Definition own_subgroup (o : proto) : result subgroup :=
    match p_subgroup o with
    | Some s => need (find subgroups s)
    | None =>
        let* t := need (p_type o) in
        if pystr_eqb t (str "fluid") then need (find subgroups (str "fluid")) else need (find subgroups (str "other"))
    end.
  Definition key_of (o : proto) : result key :=
    let* a := associated o in
    let* (nosg, sg) :=
      match a with
      | Some i =>
          let* it := need (find items i) in
          let* n := need (p_name it) in
          let order := match p_order it with Some s => Some s | None => p_order o end in
          let* s := item_subgroup it in
          Ok (n, order, s)
      | None =>
          let* n := need (p_name o) in
          let* s := own_subgroup o in
          Ok (n, p_order o, s)
      end in
    let (sort_name, order) := (nosg : pystr * option pystr) in
    let* gn := need (s_group sg) in
    let* g := need (find groups gn) in
    let* name := need (p_name o) in
    let* so := need (s_order sg) in
    let* sn := need (s_name sg) in
    let* go := need (g_order g) in
    let* gname := need (g_name g) in
    Ok (mkK (go, gname) (so, sn) (match order with None => true | Some _ => false end) order sort_name name).
End Tables.

(** Python's [<] on the keys: the first components that differ decide; two
    orders are compared only then, and a string with [None] is a TypeError. *)
Definition str_ltb (a b : pystr) : bool := match str_cmp a b with Lt => true | _ => false end.
Definition pair_eqb (a b : pystr * pystr) : bool := pystr_eqb (fst a) (fst b) && pystr_eqb (snd a) (snd b).
Definition pair_ltb (a b : pystr * pystr) : bool :=
  if pystr_eqb (fst a) (fst b) then str_ltb (snd a) (snd b) else str_ltb (fst a) (fst b).
Definition opt_eqb (a b : option pystr) : bool :=
  match a, b with Some x, Some y => pystr_eqb x y | None, None => true | _, _ => false end.
Definition opt_lt (a b : option pystr) : result bool :=
  match a, b with Some x, Some y => Ok (str_ltb x y) | _, _ => Err TypeError end.
Definition key_lt (a b : key) : result bool :=
  if negb (pair_eqb (k_group a) (k_group b)) then Ok (pair_ltb (k_group a) (k_group b))
  else if negb (pair_eqb (k_subgroup a) (k_subgroup b)) then Ok (pair_ltb (k_subgroup a) (k_subgroup b))
  else if negb (Bool.eqb (k_missing a) (k_missing b)) then Ok (negb (k_missing a) && k_missing b)
  else if negb (opt_eqb (k_order a) (k_order b)) then opt_lt (k_order a) (k_order b)
  else if negb (pystr_eqb (k_sort a) (k_sort b)) then Ok (str_ltb (k_sort a) (k_sort b))
  else Ok (str_ltb (k_name a) (k_name b)).
(** [sorted]: the stable sort made of such comparisons. *)
Fixpoint insert (x : key) (l : list key) : result (list key) :=
  match l with
  | [] => Ok [x]
  | y :: r => let* b := key_lt y x in if b then let* r' := insert x r in Ok (y :: r') else Ok (x :: l)
  end.
Fixpoint sort (l : list key) : result (list key) :=
  match l with [] => Ok [] | x :: r => let* r' := sort r in insert x r' end.
Fixpoint keys_of (items : table proto) (subgroups : table subgroup) (groups : table group) (l : list proto) : result (list key) :=
  match l with
  | [] => Ok []
  | o :: r => let* k := key_of items subgroups groups o in let* ks := keys_of items subgroups groups r in Ok (k :: ks)
  end.
Definition get_order (l : list proto) (items : table proto) (subgroups : table subgroup) (groups : table group) : result (list pystr) :=
  let* ks := keys_of items subgroups groups l in
  let* s := sort ks in
  Ok (map k_name s).
