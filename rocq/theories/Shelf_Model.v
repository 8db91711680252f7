(** Groups, subgroups and items in their order: [get_items],
    /repo/draftsman/environment/update.py 734-856.

    Of the prototypes the fields read here are kept; a missing one is [None]; all
    are strings when present.  The prototypes of the fifteen categories of items
    come as one list, in the order they are visited (802-818).  The mutable lists of
    a group and a subgroup are dictionaries from their names. *)
From Coq Require Import ZArith NArith List Bool String.
From Verif Require Import Common Dict Order.
Import ListNotations.
Local Open Scope string_scope.
Local Open Scope list_scope.

Definition sdict := dict pystr.
Record grp := mkG { g_name : pystr; g_order : option pystr }.
Record sub := mkS { s_name : pystr; s_order : option pystr; s_group : option pystr }.
Record item := mkI { i_name : pystr; i_order : option pystr; i_sub : option pystr }.

(** [lambda x: (x.get("order") is None, x.get("order"), x["name"])] and its
    comparison: two orders are compared only when both are missing (then equal) or
    both present, so a missing one may stand as the empty string. *)
Definition key := (bool * (pystr * pystr))%type.
Definition key_of (order : option pystr) (name : pystr) : key :=
  match order with Some o => (false, (o, name)) | None => (true, ([], name)) end.
Definition key_cmp : key -> key -> comparison := pair_cmp bool_cmp (pair_cmp str_cmp str_cmp).
Definition sort_groups : list grp -> list grp := stable_sort (fun g => key_of (g_order g) (g_name g)) key_cmp.
Definition sort_subs : list sub -> list sub := stable_sort (fun s => key_of (s_order s) (s_name s)) key_cmp.
Definition sort_items : list item -> list item := stable_sort (fun i => key_of (i_order i) (i_name i)) key_cmp.
(** 745-749. *)
Definition ordered_dict {A} (name : A -> pystr) (l : list A) : sdict A := dict_of pystr_eqb (map (fun x => (name x, x)) l).

(** 775-781. *)
Fixpoint place_subs (subs : list sub) (gi : sdict (list sub)) : result (sdict (list sub)) :=
  match subs with
  | [] => Ok gi
  | s :: r =>
      match s_group s with
      | None => Err KeyError
      | Some g => match dget pystr_eqb gi g with
                  | None => Err KeyError
                  | Some l => place_subs r (dset pystr_eqb gi g (l ++ [s]))
                  end
      end
  end.
(** 783-794. *)
Definition fill (i : item) : item :=
  match i_order i with Some _ => i | None => mkI (i_name i) (Some []) (i_sub i) end.
Fixpoint place_items (items : list item) (si : sdict (list item)) : result (sdict (list item)) :=
  match items with
  | [] => Ok si
  | i :: r =>
      let s := match i_sub i with Some s => s | None => str "other" end in
      match dget pystr_eqb si s with
      | None => Err KeyError
      | Some l => place_items r (dset pystr_eqb si s (l ++ [fill i]))
      end
  end.
Definition list_of {A} (d : sdict (list A)) (k : pystr) : list A := match dget pystr_eqb d k with Some l => l | None => [] end.

Record shelf := mkShelf {
  o_items : sdict item;
  o_subs : sdict (sub * sdict item);
  o_groups : sdict (grp * sdict sub) }.
(** 820-854. *)
Definition shelve (groups : list grp) (subs : list sub) (gi : sdict (list sub)) (si : sdict (list item)) : shelf :=
  let items_of s := ordered_dict i_name (sort_items (list_of si (s_name s))) in
  let subs_of g := ordered_dict s_name (sort_subs (list_of gi (g_name g))) in
  mkShelf
    (fold_left (fun out g =>
       fold_left (fun out s => fold_left (fun out i => dset pystr_eqb out (i_name (snd i)) (snd i)) (items_of (snd s)) out)
         (subs_of g) out)
       (sort_groups groups) [])
    (map (fun p => (fst p, (snd p, items_of (snd p)))) (ordered_dict s_name (sort_subs subs)))
    (map (fun p => (fst p, (snd p, subs_of (snd p)))) (ordered_dict g_name (sort_groups groups))).
(** 734-856; [groups] and [subs] are the values of the dictionaries of the game's data. *)
Definition get_items (groups : list grp) (subs : list sub) (items : list item) : result shelf :=
  let* gi := place_subs subs (dict_of pystr_eqb (map (fun g => (g_name g, [])) groups)) in
  let* si := place_items items (dict_of pystr_eqb (map (fun s => (s_name s, [])) subs)) in
  Ok (shelve groups subs gi si).
