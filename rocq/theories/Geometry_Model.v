(** Plane geometry of /repo/draftsman/utils.py.

    Coordinates are exact real numbers; IEEE rounding is not modelled.
    [float("inf")] is modelled by [None] in the scans that start from it. *)
From Coq Require Import Reals ZArith List Bool.
From Verif Require Import Common.
Import ListNotations.
Local Open Scope R_scope.

(** utils.py 17-21: a primitive vector is a pair of numbers. *)
Definition pt := (R * R)%type.

Definition Rltb (x y : R) : bool := if Rlt_dec x y then true else false.
Definition Rleb (x y : R) : bool := if Rle_dec x y then true else false.

(** utils.py 56-105 [AABB]: local corners [(x1,y1)], [(x2,y2)] and an offset.
    The cached fields [points] and [normals] (lines 103-105) are the functions
    [aabb_points] and [aabb_normals] below; [get_bounding_box] is the only
    routine that changes the corners without the cached points, and its result
    is never used for its points in the modelled code. *)
Record aabb := mkAABB { x1 : R; y1 : R; x2 : R; y2 : R; apos : pt }.

(** utils.py 123-145 [world_top_left], [world_bot_right]. *)
Definition world_tl (a : aabb) : pt := (x1 a + fst (apos a), y1 a + snd (apos a)).
Definition world_br (a : aabb) : pt := (x2 a + fst (apos a), y2 a + snd (apos a)).

(** utils.py 581-592 [point_in_aabb]. *)
Definition point_in_aabb (p : pt) (a : aabb) : bool :=
  (Rleb (fst (world_tl a)) (fst p) && Rleb (fst p) (fst (world_br a)))
  && (Rleb (snd (world_tl a)) (snd p) && Rleb (snd p) (snd (world_br a))).

(** utils.py 595-611 [aabb_overlaps_aabb]. *)
Definition aabb_overlaps_aabb (a b : aabb) : bool :=
  (Rltb (fst (world_tl a)) (fst (world_br b))
   && Rltb (fst (world_tl b)) (fst (world_br a)))
  && (Rltb (snd (world_tl a)) (snd (world_br b))
      && Rltb (snd (world_tl b)) (snd (world_br a))).

(** utils.py 168-185 [AABB.get_bounding_box]. *)
Definition aabb_bounding_box (a : aabb) : aabb :=
  mkAABB (x1 a + fst (apos a)) (y1 a + snd (apos a))
         (x2 a + fst (apos a)) (y2 a + snd (apos a)) (0, 0).

(** utils.py 238-240 [AABB.__add__]. *)
Definition aabb_add (a : aabb) (v : pt) : aabb :=
  mkAABB (x1 a) (y1 a) (x2 a) (y2 a)
         (fst (apos a) + fst v, snd (apos a) + snd v).

(** utils.py 514-526 [rotate_point]. *)
Definition rotate_point (a : pt) (angle : R) : pt :=
  (fst a * cos angle - snd a * sin angle,
   fst a * sin angle + snd a * cos angle).

(** Python [math.radians]. *)
Definition radians (deg : R) : R := deg * (PI / 180).

(** utils.py 187-228 [AABB.rotate]. *)
Definition aabb_rotate (amt : Z) (a : aabb) : result aabb :=
  if negb (Z.eqb (amt mod 4) 0) then Err ValueError
  else
    let tl := rotate_point (x1 a, y1 a) (radians (IZR amt * (45 / 2))) in
    let br := rotate_point (x2 a, y2 a) (radians (IZR amt * (45 / 2))) in
    Ok (mkAABB (Rmin (fst tl) (fst br)) (Rmin (snd tl) (snd br))
               (Rmax (fst tl) (fst br)) (Rmax (snd tl) (snd br)) (apos a)).

(** utils.py 740-762 [extend_aabb]. *)
Definition extend_aabb (a b : option aabb) : option aabb :=
  match a, b with
  | None, _ => b
  | Some a, None => Some a
  | Some a, Some b =>
      Some (mkAABB (Rmin (fst (world_tl a)) (fst (world_tl b)))
                   (Rmin (snd (world_tl a)) (snd (world_tl b)))
                   (Rmax (fst (world_br a)) (fst (world_br b)))
                   (Rmax (snd (world_br a)) (snd (world_br b))) (0, 0))
  end.

(** Python [math.ceil]. *)
Definition Rceil (x : R) : Z := (- Int_part (- x))%Z.

(** utils.py 765-785 [aabb_to_dimensions]. *)
Definition aabb_to_dimensions (a : option aabb) : Z * Z :=
  match a with
  | None => (0, 0)%Z
  | Some a => (Rceil (x2 a - x1 a), Rceil (y2 a - y1 a))
  end.

(** Members of a collection: an entity (or tile) with its world bounding box
    (classes/spatial_like.py [get_world_bounding_box], [None] when its
    dimensions are unknown), or a group of members. *)
Inductive member : Type :=
| Leaf (box : option aabb)
| Grp (entities : list member).

(** classes/group.py 529-537 [Group.get_world_bounding_box], with the loop
    written as a fold. *)
Fixpoint member_box (m : member) : option aabb :=
  match m with
  | Leaf b => b
  | Grp l => (fix go (area : option aabb) (l : list member) : option aabb :=
                match l with
                | [] => area
                | e :: l' => go (extend_aabb area (member_box e)) l'
                end) None l
  end.

(** classes/blueprint.py 998-1015 [Blueprint.get_world_bounding_box]. *)
Definition blueprint_box (entities : list member) (tiles : list (option aabb))
  : option aabb :=
  let area := fold_left (fun area e => extend_aabb area (member_box e)) entities None in
  fold_left (fun area t => extend_aabb area t) tiles area.

(** classes/blueprint.py 1017-1026, classes/group.py 539-543 [get_dimensions]. *)
Definition blueprint_dimensions entities tiles : Z * Z :=
  aabb_to_dimensions (blueprint_box entities tiles).

(** ** Rotated rectangles *)

(** utils.py 256-286 [Rectangle]; [angle] in degrees. *)
Record rect := mkRect { rpos : pt; rw : R; rh : R; rangle : R }.

Definition rect_local_points (r : rect) : list pt :=
  let hw := rw r / 2 in
  let hh := rh r / 2 in
  [(- hw, - hh); (hw, - hh); (hw, hh); (- hw, hh)].

(** utils.py 300-314 [Rectangle.get_points]. *)
Definition rect_points (r : rect) : list pt :=
  map (fun p => (fst p + fst (rpos r), snd p + snd (rpos r)))
      (map (fun p => rotate_point p (radians (rangle r))) (rect_local_points r)).

(** utils.py 529-573 [dot_product], [magnitude], [normalize], [perpendicular]. *)
Definition dot_product (a b : pt) : R := fst a * fst b + snd a * snd b.
Definition magnitude (a : pt) : R := sqrt (dot_product a a).
Definition normalize (a : pt) : pt := (fst a / magnitude a, snd a / magnitude a).
Definition perpendicular (a : pt) : pt := (snd a, - fst a).

(** utils.py 288-295: the normals of a corner list, edge by edge. *)
Definition edge_normal (p1 p2 : pt) : pt :=
  normalize (perpendicular (fst p2 - fst p1, snd p2 - snd p1)).
Fixpoint edge_normals (first : pt) (ps : list pt) : list pt :=
  match ps with
  | [] => []
  | [p] => [edge_normal p first]
  | p :: ((q :: _) as ps') => edge_normal p q :: edge_normals first ps'
  end.
Definition rect_normals (r : rect) : list pt :=
  match rect_points r with
  | [] => []
  | (p :: _) as ps => edge_normals p ps
  end.

(** utils.py 342-359 [Rectangle.rotate]. *)
Definition rect_rotate (amt : Z) (r : rect) : rect :=
  mkRect (rotate_point (rpos r) (radians (IZR amt * (45 / 2)))) (rw r) (rh r)
         (rangle r + IZR amt * (45 / 2)).

(** One coordinate of the scan of utils.py 325-338, which tests
    [if c < min ... elif c > max ...]; [None] stands for the infinities. *)
Definition scan_step (acc : option R * option R) (c : R) : option R * option R :=
  let '(mn, mx) := acc in
  let below := match mn with None => true | Some m => Rltb c m end in
  if below then (Some c, mx)
  else let above := match mx with None => true | Some m => Rltb m c end in
       if above then (mn, Some c) else (mn, mx).
Definition scan (cs : list R) : option R * option R :=
  fold_left scan_step cs (None, None).

(** utils.py 316-340 [Rectangle.get_bounding_box].  A coordinate left at an
    infinity (impossible for a rectangle, see the proofs) gives [None]. *)
Definition rect_bounding_box (r : rect) : option aabb :=
  match scan (map fst (rect_points r)), scan (map snd (rect_points r)) with
  | (Some xa, Some xb), (Some ya, Some yb) => Some (mkAABB xa ya xb yb (0, 0))
  | _, _ => None
  end.

(** ** Separating axis test *)

(** utils.py 155-166 [AABB.get_points] and 103-105. *)
Definition aabb_points (a : aabb) : list pt :=
  map (fun p => (fst p + fst (apos a), snd p + snd (apos a)))
      [(x1 a, y1 a); (x2 a, y1 a); (x2 a, y2 a); (x1 a, y2 a)].
Definition aabb_normals : list pt := [(0, -1); (1, 0); (0, 1); (-1, 0)].

(** utils.py 667-686 [flatten_points_on]: least and greatest projection. *)
Definition flatten_step (axis : pt) (acc : option (R * R)) (p : pt) : option (R * R) :=
  let d := dot_product p axis in
  match acc with
  | None => Some (d, d)
  | Some (mn, mx) =>
      Some (if Rltb d mn then d else mn, if Rltb mx d then d else mx)
  end.
Definition flatten_points_on (points : list pt) (axis : pt) : option (R * R) :=
  fold_left (flatten_step axis) points None.

(** utils.py 689-710 [is_separating_axis].  Empty point lists do not occur. *)
Definition is_separating_axis (a_points b_points : list pt) (axis : pt) : bool :=
  match flatten_points_on a_points axis, flatten_points_on b_points axis with
  | Some (a0, a1), Some (b0, b1) => Rleb b1 a0 || Rleb a1 b0
  | _, _ => true
  end.

(** utils.py 713-737 [rect_overlaps_rect], on the points and normals of two
    shapes (it is called with any mix of [AABB] and [Rectangle]). *)
Definition sat_overlaps (a_points a_normals b_points b_normals : list pt) : bool :=
  negb (existsb (is_separating_axis a_points b_points) a_normals)
  && negb (existsb (is_separating_axis a_points b_points) b_normals).

Inductive shape := SBox (a : aabb) | SRect (r : rect).
Definition shape_points (s : shape) : list pt :=
  match s with SBox a => aabb_points a | SRect r => rect_points r end.
Definition shape_normals (s : shape) : list pt :=
  match s with SBox a => aabb_normals | SRect r => rect_normals r end.
Definition rect_overlaps_rect (a b : shape) : bool :=
  sat_overlaps (shape_points a) (shape_normals a) (shape_points b) (shape_normals b).

(** utils.py 147-153 and 297-298 [overlaps]. *)
Definition shape_overlaps (a b : shape) : bool :=
  match a, b with
  | SBox a, SBox b => aabb_overlaps_aabb a b
  | _, _ => rect_overlaps_rect a b
  end.

(** classes/collision_set.py 50-68 [CollisionSet.overlaps]; the early exit for
    two singletons computes the same value as the loops. *)
Definition set_overlaps (s t : list shape) : bool :=
  match s, t with
  | [a], [b] => shape_overlaps a b
  | _, _ => existsb (fun a => existsb (fun b => shape_overlaps a b) t) s
  end.
