(** Tables of the game's data, fluids and tiles (C69):
    /repo/draftsman/environment/update.py 713-731 and 1640-1668 (the same
    functions in env.py), data/fluids.py 19-67, data/tiles.py, classes/tile.py
    230-232.

    The keys of Lua tables are integers and strings; a table is the list of its
    entries in the order Lua gives them.  Of fluids and tiles the fields read here
    are kept, a missing one is [None]; the other keywords of [add_fluid] are left
    out.  Sets are lists.  Temperatures are rationals. *)
From Coq Require Import ZArith QArith List Bool String.
From Verif Require Import Common Dict Order Ranking_Model Shelf_Model.
Import ListNotations.
Local Open Scope string_scope.
Local Open Scope list_scope.

(** ** Lua tables *)
Inductive scalar := SNum (q : Q) | SStr (s : pystr) | SBool (b : bool).
Inductive lkey := KInt (z : Z) | KStr (s : pystr).
Inductive lua := LVal (v : scalar) | LTab (entries : list (lkey * lua)).
Inductive pyv := PVal (v : scalar) | PList (l : list pyv) | PDict (d : list (lkey * pyv)).
Definition is_int (k : lkey) : bool := match k with KInt _ => true | KStr _ => false end.
(** update.py 713-731; values that are no tables stay as they are (723-724). *)
Fixpoint convert (t : lua) : pyv :=
  match t with
  | LVal v => PVal v
  | LTab entries =>
      let out := map (fun e => (fst e, convert (snd e))) entries in
      if forallb (fun e => is_int (fst e)) out then PList (map snd out) else PDict out
  end.

(** ** Tiles *)
Definition key_scalar (k : lkey) : scalar := match k with KInt z => SNum (inject_Z z) | KStr s => SStr s end.
Fixpoint scalars (l : list pyv) : result (list scalar) :=
  match l with
  | [] => Ok []
  | PVal v :: r => let* s := scalars r in Ok (v :: s)
  | _ :: _ => Err TypeError
  end.
(** Python's [set]: the keys of a dictionary, the elements of a list if they can
    be hashed, the characters of a string. *)
Definition set_of (v : pyv) : result (list scalar) :=
  match v with
  | PDict d => Ok (map (fun e => key_scalar (fst e)) d)
  | PList l => scalars l
  | PVal (SStr s) => Ok (map (fun c => SStr [c]) s)
  | PVal _ => Err TypeError
  end.
(** A tile as the game has it, and as it is kept. *)
Record raw_tile := mkRT { rt_order : option pystr; rt_mask : option lua }.
Record tile := mkTile { t_order : option pystr; t_mask : list scalar }.
(** update.py 1649-1652, one tile: KeyError without a mask. *)
Definition read_tile (t : raw_tile) : result tile :=
  let* m := need (rt_mask t) in
  let* s := set_of (convert m) in
  Ok (mkTile (rt_order t) s).
Fixpoint read_tiles (l : list (pystr * raw_tile)) : result (list (pystr * tile)) :=
  match l with
  | [] => Ok []
  | (n, t) :: r => let* t' := read_tile t in let* r' := read_tiles r in Ok ((n, t') :: r')
  end.
(** 1640-1662: sorted by whether the order is missing, order and name. *)
Definition extract_tiles (tiles : list (pystr * raw_tile)) : result (sdict tile) :=
  let* l := read_tiles tiles in
  Ok (dict_of pystr_eqb (stable_sort (fun p => Shelf_Model.key_of (t_order (snd p)) (fst p)) key_cmp l)).
(** tiles.py 15-23. *)
Definition add_tile (raw : sdict tile) (name : pystr) (mask : list scalar) : sdict tile :=
  dset pystr_eqb raw name (mkTile None mask).
(** tile.py 230-232. *)
Definition collision_mask (raw : sdict tile) (name : pystr) : option (list scalar) :=
  match dget pystr_eqb raw name with Some t => Some (t_mask t) | None => None end.

(** ** Fluids *)
Record fluid := mkFluid { f_order : option pystr; f_default : option Q; f_max : option Q }.
(** The temperature keywords of [add_fluid]. *)
Record temps := mkTemps { k_default : option Q; k_max : option Q }.
Definition first_of {A} (a b : option A) : option A := match a with Some x => Some x | None => b end.
(** fluids.py 19-43: the existing default is preferred to the keyword (28-30), but
    the keywords are unpacked last (37). *)
Definition add_fluid (raw : sdict fluid) (name : pystr) (order : option pystr) (kw : temps) : sdict fluid :=
  let old := dget pystr_eqb raw name in
  let old_default := match old with Some f => f_default f | None => None end in
  let old_max := match old with Some f => f_max f | None => None end in
  let default := first_of old_default (Some (match k_default kw with Some d => d | None => 25%Q end)) in
  dset pystr_eqb raw name
    (mkFluid (Some (match order with Some o => o | None => [] end)) (first_of (k_default kw) default) (first_of (k_max kw) old_max)).
(** fluids.py 46-67; InvalidFluidError is a DraftsmanError (error.py 189). *)
Definition get_temperature_range (raw : sdict fluid) (name : pystr) : result (Q * Q) :=
  match dget pystr_eqb raw name with
  | None => Err DraftsmanError
  | Some f => let* d := need (f_default f) in Ok (d, match f_max f with Some m => m | None => d end)
  end.
