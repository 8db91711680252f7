(** Collision sets: placing, turning and bounding them, the tables of the
    straight and legacy curved rails, and the collision rectangle of rolling
    stock.

    Coordinates are exact real numbers as in [Geometry_Model].  A set is the
    list of its shapes.  [AABB.rotate] hands its position vector on to the new
    box (utils.py 228, [Vector.from_other] returns the same object); nothing in
    the modelled code changes it afterwards except [CollisionSet.__init__],
    which is called with the zero offset on rotated sets, so shapes are values
    here. *)
From Coq Require Import Reals ZArith List Bool.
From Verif Require Import Common Version_Model Geometry_Model.
Import ListNotations.
Local Open Scope R_scope.

(** classes/collision_set.py 30-33: one turn of the loop, adding an offset to
    the position of a shape. *)
Definition shape_move (v : pt) (s : shape) : shape :=
  match s with
  | SBox a => SBox (mkAABB (x1 a) (y1 a) (x2 a) (y2 a)
                           (fst (apos a) + fst v, snd (apos a) + snd v))
  | SRect r => SRect (mkRect (fst (rpos r) + fst v, snd (rpos r) + snd v)
                             (rw r) (rh r) (rangle r))
  end.

(** classes/collision_set.py 20-33 [CollisionSet.__init__]. *)
Definition set_new (shapes : list shape) (position : pt) : list shape :=
  map (shape_move position) shapes.

(** utils.py 168-185, 316-340 [get_bounding_box]. *)
Definition shape_box (s : shape) : option aabb :=
  match s with
  | SBox a => Some (aabb_bounding_box a)
  | SRect r => rect_bounding_box r
  end.

(** classes/collision_set.py 35-48 [CollisionSet.get_bounding_box]. *)
Definition set_box (s : list shape) : option aabb :=
  match s with
  | [a] => shape_box a
  | _ => fold_left (fun area a => extend_aabb area (shape_box a)) s None
  end.

(** utils.py 187-228, 342-359 [rotate]. *)
Definition shape_rotate (amt : Z) (s : shape) : result shape :=
  match s with
  | SBox a => let* b := aabb_rotate amt a in Ok (SBox b)
  | SRect r => Ok (SRect (rect_rotate amt r))
  end.

(** classes/collision_set.py 70-85 [CollisionSet.rotate]. *)
Definition set_rotate (amt : Z) (s : list shape) : result (list shape) :=
  let* l := map_result (shape_rotate amt) s in Ok (set_new l (0, 0)).

(** classes/spatial_like.py 54-77 [get_world_bounding_box], for a known
    collision set. *)
Definition world_box (s : list shape) (global : pt) : option aabb :=
  match set_box s with
  | None => None
  | Some b => Some (mkAABB (x1 b + fst global) (y1 b + snd global)
                           (x2 b + fst global) (y2 b + snd global) (apos b))
  end.

(** classes/spatial_like.py 79-91 [get_world_collision_set]. *)
Definition world_set (s : list shape) (global : pt) : list shape := set_new s global.

(** ** Rails *)

(** prototypes/straight_rail.py 16-28 (again 30-42; the same in
    legacy_straight_rail.py): the table by direction.  Diagonals of the
    sixteen-way enumeration have no entry. *)
Definition vertical_collision (eps : R) : list shape :=
  [SBox (mkAABB (- (3 / 4)) (-1 + eps) (3 / 4) (1 - eps) (0, 0))].
Definition diagonal_collision : list shape :=
  [SRect (mkRect (- (1 / 2), - (1 / 2)) (5 / 4) (7 / 5) 45)].
Definition straight_rail_set (eps : R) (d : Z) : option (result (list shape)) :=
  let horizontal := set_rotate 4 (vertical_collision eps) in
  match d with
  | 0%Z => Some (Ok (vertical_collision eps))
  | 2%Z => Some (set_rotate 4 diagonal_collision)
  | 4%Z => Some horizontal
  | 6%Z => Some (set_rotate 8 diagonal_collision)
  | 8%Z => Some (Ok (vertical_collision eps))
  | 10%Z => Some (set_rotate (-4) diagonal_collision)
  | 12%Z => Some horizontal
  | 14%Z => Some (Ok diagonal_collision)
  | _ => None
  end.

(** prototypes/legacy_curved_rail.py 18-32 (again 34-48). *)
Definition left_turn : list shape :=
  [SBox (mkAABB (1 / 4) (9 / 5) (7 / 4) (39 / 10) (0, 0));
   SRect (mkRect (- (3 / 8), - (287 / 400)) (7 / 5) (109 / 20) (-35))].
Definition right_turn : list shape :=
  [SBox (mkAABB (- (7 / 4)) (9 / 5) (- (1 / 4)) (39 / 10) (0, 0));
   SRect (mkRect (3 / 8, - (287 / 400)) (7 / 5) (109 / 20) 35)].
Definition curved_rail_set (d : Z) : option (result (list shape)) :=
  match d with
  | 0%Z => Some (Ok left_turn)
  | 2%Z => Some (Ok right_turn)
  | 4%Z => Some (set_rotate 4 left_turn)
  | 6%Z => Some (set_rotate 4 right_turn)
  | 8%Z => Some (set_rotate 8 left_turn)
  | 10%Z => Some (set_rotate 8 right_turn)
  | 12%Z => Some (set_rotate 12 left_turn)
  | 14%Z => Some (set_rotate 12 right_turn)
  | _ => None
  end.

(** ** Rolling stock *)

(** A [Rectangle] object with the attribute [normals], which its constructor
    computes once (utils.py 284-295), beside the attributes that
    [get_points] reads each time. *)
Record cached := mkCached { cr : rect; cn : list pt }.

(** utils.py 263-295 [Rectangle.__init__]. *)
Definition rectangle_new (position : pt) (w h angle : R) : cached :=
  let r := mkRect position w h angle in mkCached r (rect_normals r).

(** classes/mixins/orientation.py 40-47: the rectangle made from the box of
    the prototype. *)
Definition stock_new (original : aabb) : cached :=
  rectangle_new (0, 0) (x2 original - x1 original) (y2 original - y1 original) 0.

(** Values assigned to [orientation]: [None], a number ([float], [int] or
    [Orientation], which is a [float]), anything else. *)
Inductive ovalue := ONone | ONum (v : R) | OOther.

(** Python [v % 1.0]. *)
Definition frac (v : R) : R := v - IZR (Int_part v).

(** classes/mixins/orientation.py 81-99: the setter's effect on the angle of the
    collision rectangle (assignment to the attribute, the normals stay). *)
Definition set_orientation (value : ovalue) (s : cached) : cached :=
  let set_angle a := mkCached (mkRect (rpos (cr s)) (rw (cr s)) (rh (cr s)) a) (cn s) in
  match value with
  | ONone => set_angle 0
  | ONum v => set_angle (frac v * 360)
  | OOther => s
  end.

(** classes/spatial_like.py 88-91 on the single shape of rolling stock: the deep
    copy keeps the normals, the constructor moves the position. *)
Definition stock_world (s : cached) (global : pt) : cached :=
  mkCached (mkRect (fst (rpos (cr s)) + fst global, snd (rpos (cr s)) + snd global)
                   (rw (cr s)) (rh (cr s)) (rangle (cr s))) (cn s).

(** utils.py 297-298 with 713-737: [overlaps] of rolling stock, against rolling
    stock and against an ordinary shape. *)
Definition stock_overlaps_stock (a b : cached) : bool :=
  sat_overlaps (rect_points (cr a)) (cn a) (rect_points (cr b)) (cn b).
Definition stock_overlaps_shape (a : cached) (b : shape) : bool :=
  sat_overlaps (rect_points (cr a)) (cn a) (shape_points b) (shape_normals b).
(** utils.py 147-153 and 297-298: the same with the stock as [other]. *)
Definition shape_overlaps_stock (a : shape) (b : cached) : bool :=
  sat_overlaps (shape_points a) (shape_normals a) (rect_points (cr b)) (cn b).

(** classes/spatial_like.py 54-77 for rolling stock. *)
Definition stock_world_box (s : cached) (global : pt) : option aabb :=
  world_box [SRect (cr s)] global.

(** The rectangle of an object after any sequence of assignments to its
    [orientation], the first of which is made by the constructor
    (classes/mixins/orientation.py 34-50). *)
Definition history (vs : list ovalue) (a : aabb) : cached :=
  fold_left (fun s v => set_orientation v s) vs (stock_new a).
