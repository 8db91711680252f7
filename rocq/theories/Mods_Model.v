(** Choosing and ordering mods:
    /repo/draftsman/environment/mod_list.py 16-20 [Dependency], 142-147
    [Mod.get_depth], 423-515 [discover_mods];
    /repo/draftsman/environment/update.py 490-568 (start of
    [run_data_lifecycle]).

    Not modelled: reading folders and archives ([register_mod]); [found] is the
    list of the [Mod] objects it returned, in the order in which
    the directories list them.  Each mod has its own dependency list.  A
    dependency's flag and operation are what [Mod.dependency_regex] can produce. *)
From Coq Require Import ZArith NArith List Bool String.
From Verif Require Import Common Dict Order Version_Model.
Import ListNotations.
Local Open Scope string_scope.
Local Open Scope list_scope.
Local Open Scope Z_scope.

Inductive flag := Bang | Optional | Hidden | Tilde.  (* "!", "?", "(?)", "~" *)
Inductive oper := OEq2 | OGe | OLe | OGt | OLt | OEq1.  (* "==", ">=", "<=", ">", "<", "=" *)
Inductive dep :=
| Named (f : option flag) (name : pystr) (op : option oper) (version : option pystr)
| Loaded (name : pystr).   (* the [Mod] object itself *)
Record amod := mkMod { ident : Z; mname : pystr; mversion : pystr; archive : bool; enabled : bool; deps : list dep }.

Definition CORE := str "core".
Definition BASE := str "base".
Definition named (ms : list (pystr * amod)) (n : pystr) : option amod := dget pystr_eqb ms n.

(** *** discover_mods 473-497: grouping by name. *)
Definition group_one (d : list (pystr * list amod)) (m : amod) : list (pystr * list amod) :=
  match dget pystr_eqb d (mname m) with
  | Some l => dset pystr_eqb d (mname m) (l ++ [m])
  | None => dset pystr_eqb d (mname m) [m]
  end.
Definition group (found : list amod) : list (pystr * list amod) := fold_left group_one found [].

(** 504-511: newest first, folders before archives. *)
Definition version_key_cmp := pair_cmp tuple_cmp bool_cmp.
Definition keyed (m : amod) : result ((list Z * bool) * amod) :=
  let* v := version_string_to_tuple (mversion m) in Ok ((v, negb (archive m)), m).
Definition sort_versions (l : list amod) : result (list amod) :=
  let* kl := map_result keyed l in Ok (map snd (stable_sort fst (rev_cmp version_key_cmp) kl)).
Definition sort_entry (e : pystr * list amod) : result (pystr * list amod) :=
  if pystr_eqb (fst e) CORE then Ok e
  else let* l := sort_versions (snd e) in Ok (fst e, l).
Definition discover (found : list amod) : result (list (pystr * list amod)) :=
  map_result sort_entry (group found).

(** *** update.py 490: one enabled mod per name.  The lists are never empty. *)
Definition select (d : list (pystr * list amod)) : list (pystr * amod) :=
  flat_map (fun e => match snd e with m :: _ => if enabled m then [(fst e, m)] else [] | [] => [] end) d.

(** *** 492-562: resolving dependencies. *)
(** 541 [eval(expr)]. *)
Definition holds (op : oper) (a b : list Z) : bool :=
  match op, tuple_cmp a b with
  | (OEq2 | OEq1), Eq => true
  | OGe, (Gt | Eq) => true
  | OLe, (Lt | Eq) => true
  | OGt, Gt => true
  | OLt, Lt => true
  | _, _ => false
  end.
(** 530-551. *)
Definition check_version (target : amod) (op : option oper) (version : option pystr) : result unit :=
  match version with
  | None => Ok tt
  | Some v =>
      match op with
      | None | Some OEq1 => Err AssertionError
      | Some op =>
          let* a := version_string_to_tuple (mversion target) in
          let* b := version_string_to_tuple v in
          if holds op a b then Ok tt else Err IncorrectModVersionError
      end
  end.
(** 506-562: one round of the inner loop; the new list entry. *)
Definition resolve_dep (ms : list (pystr * amod)) (d : dep) : result dep :=
  match d with
  | Loaded _ => Err AttributeError
  | Named f n op v =>
      let present := match named ms n with Some _ => true | None => false end in
      match f, present with
      | Some Bang, true => Err IncompatableModError
      | Some Bang, false => Ok d
      | Some Optional, false | Some Hidden, false => Ok d
      | _, _ =>
          match named ms n with
          | None => Err MissingModError
          | Some target =>
              let* _ := check_version target op v in
              match f with Some Tilde => Ok d | _ => Ok (Loaded n) end
          end
      end
  end.
(** 492-501. *)
Definition resolve_mod (ms : list (pystr * amod)) (e : pystr * amod) : result (pystr * list dep) :=
  let (n, m) := e in
  if pystr_eqb n CORE then Ok (n, deps m)
  else
    let* ds := map_result (resolve_dep ms) (if pystr_eqb n BASE then [Named None CORE None None] else deps m) in
    Ok (n, ds).

(** *** mod_list.py 142-147 [get_depth]; running out of fuel is Python's
    recursion limit. *)
Fixpoint depth (fuel : nat) (rs : list (pystr * list dep)) (n : pystr) : result Z :=
  match fuel with
  | O => Err RecursionError
  | S f =>
      match dget pystr_eqb rs n with
      | None => Err KeyError (* no such object; does not occur *)
      | Some ds =>
          fold_left (fun acc d => let* a := acc in
                                  match d with
                                  | Named _ _ _ _ => Err AttributeError
                                  | Loaded n' => let* k := depth f rs n' in Ok (Z.max a (a + k))
                                  end) ds (Ok 1)
      end
  end.
(** 566-568. *)
Definition order_key_cmp := pair_cmp Z.compare str_cmp.
Definition load_order (fuel : nat) (ms : list (pystr * amod)) : result (list pystr) :=
  let* rs := map_result (resolve_mod ms) ms in
  let* ks := map_result (fun e => let* k := depth fuel rs (fst e) in Ok (k, fst e)) rs in
  Ok (map snd (stable_sort (fun p => p) order_key_cmp ks)).
(** All of it. *)
Definition load (fuel : nat) (found : list amod) : result (list pystr) :=
  let* d := discover found in load_order fuel (select d).
