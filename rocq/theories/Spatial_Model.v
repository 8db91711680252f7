(** /repo/draftsman/classes/spatial_hashmap.py [SpatialHashMap].

    Coordinates are exact integers in some fixed unit (any fraction of a tile);
    [cs] is the cell size and [eps] the rounding margin 0.001 in that unit, both
    arbitrary positive numbers.  [float // floor] on them is [Z.div].
    An item is anything with a world bounding box ([None] when it has no known
    dimensions), a global position and Python equality [ieq]
    ([list.index]/[list.remove] compare with it).  The box of an item does not
    change while it is in the map. *)
From Coq Require Import ZArith List Bool.
Import ListNotations.
Local Open Scope Z_scope.

(** A box in world coordinates: left, top, right, bottom. *)
Record zbox := mkZ { bl : Z; bt : Z; br : Z; bb : Z }.
Definition zpt := (Z * Z)%type.

(** utils.py 581-592 [point_in_aabb] on a world box. *)
Definition zpoint_in (p : zpt) (b : zbox) : bool :=
  ((bl b <=? fst p) && (fst p <=? br b)) && ((bt b <=? snd p) && (snd p <=? bb b)).

(** utils.py 595-611 [aabb_overlaps_aabb] on world boxes. *)
Definition zoverlaps (a b : zbox) : bool :=
  ((bl a <? br b) && (bl b <? br a)) && ((bt a <? bb b) && (bt b <? bb a)).

(** utils.py 614-627 [point_in_circle]. *)
Definition zpoint_in_circle (p : zpt) (r : Z) (c : zpt) : bool :=
  let dx := fst p - fst c in
  let dy := snd p - snd c in
  dx * dx + dy * dy <=? r * r.

(** utils.py 630-664 [aabb_overlaps_circle] for an AABB at position (0,0);
    every quantity is doubled to avoid the halves. *)
Definition zbox_overlaps_circle (a : zbox) (r : Z) (c : zpt) : bool :=
  let w := br a - bl a in
  let h := bb a - bt a in
  let dx := Z.abs (2 * fst c - (2 * bl a + w)) in
  let dy := Z.abs (2 * snd c - (2 * bt a + h)) in
  if w + 2 * r <? dx then false
  else if h + 2 * r <? dy then false
  else if dx <=? w then true
  else if dy <=? h then true
  else (dx - w) * (dx - w) + (dy - h) * (dy - h) <=? (2 * r) * (2 * r).

(** Python [range(a, b)]. *)
Definition zrange (a b : Z) : list Z :=
  map (fun k => a + Z.of_nat k) (seq 0 (Z.to_nat (b - a))).

Section Map.
  Context {item : Type}.
  Variable cs eps : Z.
  Variable box : item -> option zbox.
  Variable pos : item -> zpt.
  Variable ieq : item -> item -> bool.

  (** The dict [self.map] (insertion order kept). *)
  Definition smap := list (zpt * list item).
  Definition cell_eqb (a b : zpt) : bool := (fst a =? fst b) && (snd a =? snd b).

  Fixpoint cell_get (m : smap) (c : zpt) : option (list item) :=
    match m with
    | [] => None
    | (k, v) :: m' => if cell_eqb k c then Some v else cell_get m' c
    end.
  Fixpoint cell_set (m : smap) (c : zpt) (v : list item) : smap :=
    match m with
    | [] => [(c, v)]
    | (k, w) :: m' => if cell_eqb k c then (k, v) :: m' else (k, w) :: cell_set m' c v
    end.
  Fixpoint cell_del (m : smap) (c : zpt) : smap :=
    match m with
    | [] => []
    | (k, w) :: m' => if cell_eqb k c then m' else (k, w) :: cell_del m' c
    end.

  (** 234-243 [_map_coords]. *)
  Definition map_coords (p : zpt) : zpt := (fst p / cs, snd p / cs).

  (** 245-270 [_cell_coords_from_aabb]. *)
  Definition cells_of_box (b : option zbox) : list zpt :=
    match b with
    | None => []
    | Some b =>
        let gmin := map_coords (bl b, bt b) in
        let gmax := map_coords (br b - eps, bb b - eps) in
        let w := fst gmax - fst gmin + 1 in
        let h := snd gmax - snd gmin + 1 in
        flat_map (fun j => map (fun i => (i, j)) (zrange (fst gmin) (fst gmin + w)))
                 (zrange (snd gmin) (snd gmin + h))
    end.

  (** 272-302 [_cell_coords_from_radius]. *)
  Definition cells_of_radius (r : Z) (p : zpt) : list zpt :=
    let gmin := map_coords (fst p - r, snd p - r) in
    let gmax := map_coords (fst p + r, snd p + r) in
    let w := fst gmax - fst gmin + 1 in
    let h := snd gmax - snd gmin + 1 in
    filter (fun c => zbox_overlaps_circle
                       (mkZ (fst c * cs) (snd c * cs) ((fst c + 1) * cs) ((snd c + 1) * cs)) r p)
      (flat_map (fun j => map (fun i => (i, j)) (zrange (fst gmin) (fst gmin + w)))
                (zrange (snd gmin) (snd gmin + h))).

  (** 51-57: append to every covered cell. *)
  Definition add_cell (it : item) (m : smap) (c : zpt) : smap :=
    match cell_get m c with
    | Some l => cell_set m c (l ++ [it])
    | None => cell_set m c [it]
    end.
  (** 39-59 [add] with [merge=False]. *)
  Definition sm_add (m : smap) (it : item) : smap :=
    fold_left (add_cell it) (cells_of_box (box it)) m.

  (** Python [list.remove(x)]: drop the first equal element, [None] is
      [ValueError]. *)
  Fixpoint remove_first (l : list item) (it : item) : option (list item) :=
    match l with
    | [] => None
    | x :: l' => if ieq x it then Some l'
                 else option_map (cons x) (remove_first l' it)
    end.

  (** 84-91: one round of [remove]; every exception is swallowed. *)
  Definition remove_cell (it : item) (m : smap) (c : zpt) : smap :=
    match cell_get m c with
    | None => m
    | Some l =>
        match remove_first l it with
        | None => m
        | Some [] => cell_del m c
        | Some l' => cell_set m c l'
        end
    end.
  (** 82-91 [remove]. *)
  Definition sm_remove (m : smap) (it : item) : smap :=
    fold_left (remove_cell it) (cells_of_box (box it)) m.

  (** 173-179 [get_all_entities]. *)
  Definition sm_all (m : smap) : list item := flat_map snd m.

  (** [limit is not None and len(items) >= limit]. *)
  Definition full (limit : option Z) (items : list item) : bool :=
    match limit with None => false | Some n => n <=? Z.of_nat (length items) end.

  (** 202-214 [get_on_point]: the loop over one cell with its [break]. *)
  Fixpoint point_loop (p : zpt) (limit : option Z) (l items : list item) : list item :=
    match l with
    | [] => items
    | it :: l' =>
        if match box it with Some b => zpoint_in p b | None => false end then
          if full limit items then items
          else point_loop p limit l' (items ++ [it])
        else point_loop p limit l' items
    end.
  Definition get_on_point (m : smap) (p : zpt) (limit : option Z) : list item :=
    match cell_get m (map_coords p) with
    | None => []
    | Some l => point_loop p limit l []
    end.

  (** The inner loops of 181-200 and 216-232: test, limit, deduplicate by
      equality. *)
  Fixpoint collect_loop (test : item -> bool) (limit : option Z) (l items : list item)
    : list item :=
    match l with
    | [] => items
    | it :: l' =>
        if test it then
          if full limit items then items
          else if existsb (fun x => ieq x it) items then collect_loop test limit l' items
          else collect_loop test limit l' (items ++ [it])
        else collect_loop test limit l' items
    end.
  Definition collect (test : item -> bool) (limit : option Z) (m : smap) (cells : list zpt)
    : list item :=
    fold_left (fun items c => match cell_get m c with
                              | None => items
                              | Some l => collect_loop test limit l items
                              end) cells [].

  (** 216-232 [get_in_aabb]; the query is given by its local corners [q] and its
      offset [off]: the cells come from the local corners, the overlap test
      from the world corners. *)
  Definition shift_box (q : zbox) (off : zpt) : zbox :=
    mkZ (bl q + fst off) (bt q + snd off) (br q + fst off) (bb q + snd off).
  Definition overlaps_item (q : zbox) (it : item) : bool :=
    match box it with Some b => zoverlaps b q | None => false end.
  Definition get_in_aabb (m : smap) (q : zbox) (off : zpt) (limit : option Z) : list item :=
    collect (overlaps_item (shift_box q off)) limit m (cells_of_box (Some q)).

  (** 181-200 [get_in_radius]. *)
  Definition get_in_radius (m : smap) (r : Z) (p : zpt) (limit : option Z) : list item :=
    collect (fun it => zpoint_in_circle (pos it) r p) limit m (cells_of_radius r p).

  (** 39-59 [add] with [merge=True]: the first overlapping item that can be
      merged absorbs the new one, and the map is unchanged. *)
  Definition merge_target (mergable : item -> item -> bool) (m : smap) (it : item)
    : option item :=
    match box it with
    | None => None
    | Some b => find (fun x => mergable x it) (get_in_aabb m b (0, 0) None)
    end.
End Map.

Arguments smap : clear implicits.

(** Operations on a map, for histories. *)
Inductive map_op (item : Type) : Type :=
| MAdd (it : item)
| MRemove (it : item)
| MClear.
Arguments MAdd {item}. Arguments MRemove {item}. Arguments MClear {item}.

(** [clear] is 100-101. *)
Definition run_map_op {item} cs eps (box : item -> option zbox) ieq (m : smap item)
  (o : map_op item) : smap item :=
  match o with
  | MAdd it => sm_add cs eps box m it
  | MRemove it => sm_remove cs eps box ieq m it
  | MClear => []
  end.
Definition run_map {item} cs eps (box : item -> option zbox) ieq (ops : list (map_op item))
  : smap item :=
  fold_left (run_map_op cs eps box ieq) ops [].
