(** /repo/draftsman/classes/tile_list.py [TileList] together with its
    [SpatialHashMap].

    A tile object is a number into a heap; of a tile we keep its name and its
    integer position (tile.py 54-311).  Coordinates handed to the spatial map are
    in thousandths of a tile, so the cell size 8 is 8000 and the margin 0.001
    is 1.  Not modelled: validation (warnings, or an error raised before the
    list is touched), construction from names and dicts, [copy=False]: every
    insertion stores a new object, as [copy=True] does; the [_parent] links. *)
From Coq Require Import ZArith NArith List Bool.
From Verif Require Import Common Dict Spatial_Model.
Import ListNotations.

(** tile.py: name and position. *)
Record tile := mkTile { t_name : pystr; t_x : Z; t_y : Z }.
(** tile.py 297-302 [__eq__], and 236-250 [mergable_with], which is the same
    test. *)
Definition tile_eqb (a b : tile) : bool :=
  pystr_eqb (t_name a) (t_name b) && ((t_x a =? t_x b)%Z && (t_y a =? t_y b)%Z).
(** tile.py 51 (the unit square) and spatial_like.py 54-80
    [get_world_bounding_box]. *)
Definition tile_box (t : tile) : option zbox :=
  (Some (mkZ (t_x t * 1000) (t_y t * 1000) ((t_x t + 1) * 1000) ((t_y t + 1) * 1000)))%Z.

Record tlist := mkTL {
  th : list tile;        (* every tile object created so far *)
  troot : list nat;      (* self._root *)
  tmap : smap nat        (* self.spatial_map.map *)
}.
Definition empty_tiles (h : list tile) : tlist := mkTL h [] [].

Definition no_tile : tile := mkTile [] 0 0.
Definition tval (h : list tile) (o : nat) : tile := nth o h no_tile.
Definition obox (h : list tile) (o : nat) : option zbox := tile_box (tval h o).
Definition oeq (h : list tile) (a b : nat) : bool := tile_eqb (tval h a) (tval h b).

(** spatial_hashmap.py, instantiated. *)
Definition map_add (h : list tile) := sm_add 8000 1 (obox h).
Definition map_remove (h : list tile) := sm_remove 8000 1 (obox h) (oeq h).

(** 85-143 [insert]; spatial_hashmap.py 39-59 [add] with and without [merge]
    ([Tile.merge], tile.py 252-262, does nothing). *)
Definition tl_insert (s : tlist) (idx : Z) (t : tile) (merge : bool) : tlist :=
  let o := length (th s) in
  let h := th s ++ [t] in
  let target := if merge
                then merge_target 8000 1 (obox h) (oeq h) (oeq h) (tmap s) o
                else None in
  match target with
  | Some _ => mkTL h (troot s) (tmap s)
  | None => mkTL h (py_insert (troot s) idx o) (map_add h (tmap s) o)
  end.

(** 266-277 [__delitem__], index. *)
Definition tl_del (s : tlist) (idx : Z) : tlist * option exn :=
  match py_pos (Z.of_nat (length (troot s))) idx with
  | None => (s, Some IndexError)
  | Some i => (mkTL (th s) (remove_nth (troot s) i)
                    (map_remove (th s) (tmap s) (nth i (troot s) O)), None)
  end.
(** 266-277 [__delitem__], slice. *)
Definition tl_del_slice (s : tlist) (a b c : option Z) : tlist * option exn :=
  if match c with Some 0%Z => true | _ => false end then (s, Some ValueError)
  else
    let '(start, stop, step) := slice_indices a b c (Z.of_nat (length (troot s))) in
    let r := py_range start stop step in
    (mkTL (th s) (keep_pos (fun p => negb (existsb (Z.eqb p) r)) 0 (troot s))
          (fold_left (fun m i => map_remove (th s) m (nth (Z.to_nat i) (troot s) O)) r (tmap s)),
     None).

(** 245-264 [__setitem__]. *)
Definition tl_set (s : tlist) (idx : Z) (t : tile) : tlist * option exn :=
  match py_pos (Z.of_nat (length (troot s))) idx with
  | None => (s, Some IndexError)
  | Some i =>
      let m1 := map_remove (th s) (tmap s) (nth i (troot s) O) in
      let o := length (th s) in
      let h := th s ++ [t] in
      (mkTL h (replace_nth (troot s) i o) (map_add h m1 o), None)
  end.

(** 145-147 [clear]. *)
Definition tl_clear (s : tlist) : tlist := mkTL (th s) [] [].

(** tile.py 150-158: assigning [name] to a tile of the list. *)
Definition tl_rename (s : tlist) (p : nat) (nm : pystr) : tlist * option exn :=
  match nth_error (troot s) p with
  | None => (s, Some IndexError)
  | Some o => (mkTL (replace_nth (th s) o (mkTile nm (t_x (tval (th s) o)) (t_y (tval (th s) o))))
                    (troot s) (tmap s), None)
  end.

Inductive top :=
| TAppend (t : tile) (merge : bool)
| TInsert (idx : Z) (t : tile) (merge : bool)
| TDel (idx : Z)
| TDelSlice (a b c : option Z)
| TSet (idx : Z) (t : tile)
| TClear
| TRename (p : nat) (nm : pystr).
Definition tl_step (s : tlist) (o : top) : tlist * option exn :=
  match o with
  | TAppend t merge => (tl_insert s (Z.of_nat (length (troot s))) t merge, None)   (* 73-83 *)
  | TInsert idx t merge => (tl_insert s idx t merge, None)
  | TDel idx => tl_del s idx
  | TDelSlice a b c => tl_del_slice s a b c
  | TSet idx t => tl_set s idx t
  | TClear => (tl_clear s, None)
  | TRename p nm => tl_rename s p nm
  end.
Definition run_tiles (ops : list top) : tlist :=
  fold_left (fun s o => fst (tl_step s o)) ops (empty_tiles []).

(** What iterating the list shows. *)
Definition tiles (s : tlist) : list tile := map (tval (th s)) (troot s).
(** What the spatial map holds: spatial_hashmap.py 173-179. *)
Definition indexed (s : tlist) : list tile := map (tval (th s)) (sm_all (tmap s)).

(** Inner loops of 187-240. *)
Fixpoint tile_found (h : list tile) (x : nat) (other : list nat) : bool :=
  match other with
  | [] => false
  | y :: other' => if oeq h y x then true else tile_found h x other'
  end.
Definition tl_append (s : tlist) (o : nat) : tlist :=
  fst (tl_step s (TAppend (tval (th s) o) false)).
(** 187-206 [union], 208-223 [intersection], 225-240 [difference]; both
    operands live in heap [h]. *)
Definition tl_union (h : list tile) (a b : list nat) : tlist :=
  let r := fold_left tl_append a (empty_tiles h) in
  fold_left (fun r o => if tile_found h o a then r else tl_append r o) b r.
Definition tl_intersection (h : list tile) (a b : list nat) : tlist :=
  fold_left (fun r o => if tile_found h o b then tl_append r o else r) a (empty_tiles h).
Definition tl_difference (h : list tile) (a b : list nat) : tlist :=
  fold_left (fun r o => if tile_found h o b then r else tl_append r o) a (empty_tiles h).
