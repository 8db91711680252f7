(** C52, C53: collision sets of placed and turned objects, and of rolling stock. *)
From Coq Require Import Reals ZArith List Bool Lra Lia.
From Verif Require Import Common Geometry_Model Geometry_Spec Collide_Model Collide_Spec
  Collide_Proofs Collide_Stock_Proofs Collide_More_Proofs.
Import ListNotations.
Local Open Scope R_scope.

(** C52: a turned collision set is the turned set of points. *)
Theorem C52_rotated_set_is_turned : forall amt s t, set_rotate amt s = Ok t ->
  Forall proper_shape s -> Forall centred s ->
  forall p, inside_set p t <-> exists q, inside_set q s /\ p = plane_turn (IZR amt * (45 / 2)) q.
Proof. exact set_rotate_image. Qed.
Print Assumptions C52_rotated_set_is_turned.

(** It fails exactly when a box is to be turned by something else than quarter
    turns. *)
Theorem C52_rotation_fails_iff : forall amt s e, set_rotate amt s = Err e <->
  e = ValueError /\ (amt mod 4 <> 0)%Z /\ exists a, In a s /\ is_box a.
Proof. exact set_rotate_err. Qed.
Print Assumptions C52_rotation_fails_iff.

Theorem C52_rotations_compose : forall m n s t, Forall proper_shape s -> set_rotate m s = Ok t ->
  set_rotate n t = set_rotate (m + n) s.
Proof. exact set_rotate_add. Qed.
Print Assumptions C52_rotations_compose.

(** Turning two sets together, or moving them together, changes no collision. *)
Theorem C52_rotation_keeps_collisions : forall amt s t s' t',
  Forall proper_shape s -> Forall centred s -> Forall proper_shape t -> Forall centred t ->
  set_rotate amt s = Ok s' -> set_rotate amt t = Ok t' ->
  set_overlaps s' t' = set_overlaps s t.
Proof. exact set_rotate_overlaps. Qed.
Print Assumptions C52_rotation_keeps_collisions.

Theorem C52_placed_set : forall s v p, inside_set (moved v p) (world_set s v) <-> inside_set p s.
Proof. exact world_inside. Qed.
Print Assumptions C52_placed_set.

Theorem C52_placing_keeps_collisions : forall s t v, Forall proper_shape s -> Forall proper_shape t ->
  set_overlaps (world_set s v) (world_set t v) = set_overlaps s t.
Proof. exact world_overlaps. Qed.
Print Assumptions C52_placing_keeps_collisions.

(** The box of a placed set is contained in every box around all corners, and
    contains them all if every rectangle has a tractable angle. *)
Theorem C52_world_box : forall s v, Forall proper_shape s -> s <> [] ->
  exists b, world_box s v = Some b /\
    (Forall good_angle s -> forall p, set_corner p (world_set s v) -> in_box p b) /\
    (forall c, (forall p, set_corner p (world_set s v) -> in_box p c) -> box_subset b c).
Proof. exact world_box_spec. Qed.
Print Assumptions C52_world_box.

Theorem C52_empty_set_has_no_box : forall v, world_box [] v = None.
Proof. exact world_box_empty. Qed.
Print Assumptions C52_empty_set_has_no_box.

(** The tables of the rails: two steps of the direction are a quarter turn. *)
Theorem C52_straight_rail_table : forall eps d, eps < 1 -> In d [0; 2; 4; 6; 8; 10; 12; 14]%Z ->
  exists s s', straight_rail_set eps d = Some (Ok s) /\
    straight_rail_set eps ((d + 4) mod 16) = Some (Ok s') /\
    forall p, inside_set p s' <-> exists q, inside_set q s /\ p = turn q.
Proof. exact straight_rails. Qed.
Print Assumptions C52_straight_rail_table.
(** The shape the diagonal ones are turned from, legacy_straight_rail.py. *)
Theorem C52_diagonal : forall eps,
  straight_rail_set eps 14 = Some (Ok [SRect (mkRect (- (1 / 2), - (1 / 2)) (5 / 4) (7 / 5) 45)]).
Proof. reflexivity. Qed.
Print Assumptions C52_diagonal.

Theorem C52_curved_rail_table : forall d, In d [0; 2; 4; 6; 8; 10; 12; 14]%Z ->
  exists s s', curved_rail_set d = Some (Ok s) /\
    curved_rail_set ((d + 4) mod 16) = Some (Ok s') /\
    forall p, inside_set p s' <-> exists q, inside_set q s /\ p = turn q.
Proof. exact curved_rails. Qed.
Print Assumptions C52_curved_rail_table.

(** The table mixes two shapes; they are mirror images. *)
Theorem C52_curved_rail_mirror : exists l r, curved_rail_set 0 = Some (Ok l) /\ curved_rail_set 2 = Some (Ok r) /\
  forall p, inside_set p l <-> inside_set (- fst p, snd p) r.
Proof. exact curves_mirror. Qed.
Print Assumptions C52_curved_rail_mirror.

(** "Every set may be turned" is false of the code: a box with an offset is
    turned in place. *)
Theorem C52_offset_refuted :
  let s := [SBox (mkAABB (-1) (-1) 1 1 (5, 0))] in
  exists t p, Forall proper_shape s /\ set_rotate 4 s = Ok t /\ inside_set p s /\
    ~ inside_set (turn p) t.
Proof. exact offset_refuted. Qed.
Print Assumptions C52_offset_refuted.

(** A rectangle beside a box, turned by a quarter. *)
Example C52_ex :
  let s := [SBox (mkAABB (-1) (-2) 1 2 (0, 0)); SRect (mkRect (3, 0) 1 2 30)] in
  Forall proper_shape s /\ Forall centred s /\ inside_set (3, 0) s /\
  exists t, set_rotate 4 s = Ok t /\ inside_set (0, 3) t /\ set_rotate 2 s = Err ValueError.
Proof.
  set (s := [SBox (mkAABB (-1) (-2) 1 2 (0, 0)); SRect (mkRect (3, 0) 1 2 30)]).
  assert (P : Forall proper_shape s).
  { constructor; [unfold proper_shape, proper; simpl; lra|]. constructor; [simpl; lra|constructor]. }
  assert (C : Forall centred s) by (constructor; [reflexivity|constructor; [exact I|constructor]]).
  assert (N : inside_set (3, 0) s).
  { exists (SRect (mkRect (3, 0) 1 2 30)). split; [right; left; reflexivity|].
    exists 0, 0. simpl. repeat split; lra. }
  cbv zeta. split; [assumption|]. split; [assumption|]. split; [assumption|].
  destruct (rotate_exists 4 s eq_refl) as [t Ht]. exists t. split; [assumption|]. split.
  - apply (set_rotate_image 4 s t Ht P C). exists (3, 0). split; [assumption|].
    replace (4 * (45 / 2)) with 90 by field. rewrite turn_quarter. unfold turn. simpl. f_equal; ring.
  - apply set_rotate_err. split; [reflexivity|]. split; [discriminate|].
    exists (SBox (mkAABB (-1) (-2) 1 2 (0, 0))). split; [left; reflexivity|exact I].
Qed.

(** C53: whatever was assigned before, the corners of the rectangle of rolling
    stock are those of the upright rectangle turned by the orientation. *)
Theorem C53_corners_follow_orientation : forall vs v a g p,
  corner_of p (cr (stock_world (set_orientation (ONum v) (history vs a)) g)) <->
  exists q, (fst q = (x2 a - x1 a) / 2 \/ fst q = - ((x2 a - x1 a) / 2)) /\
    (snd q = (y2 a - y1 a) / 2 \/ snd q = - ((y2 a - y1 a) / 2)) /\
    p = moved g (plane_turn (v * 360) q).
Proof. exact corners_follow. Qed.
Print Assumptions C53_corners_follow_orientation.

(** No collision is missed, between stock and any shape in either order and
    between stock and stock. *)
Theorem C53_no_missed_collision_with_shape : forall vs a g b p, proper a -> proper_shape b ->
  inside_rect p (cr (stock_world (history vs a) g)) -> inside_shape p b ->
  stock_overlaps_shape (stock_world (history vs a) g) b = true /\
  shape_overlaps_stock b (stock_world (history vs a) g) = true.
Proof. exact stock_shape_sound. Qed.
Print Assumptions C53_no_missed_collision_with_shape.

Theorem C53_no_missed_collision_between_stock : forall vs a g ws b h p, proper a -> proper b ->
  inside_rect p (cr (stock_world (history vs a) g)) -> inside_rect p (cr (stock_world (history ws b) h)) ->
  stock_overlaps_stock (stock_world (history vs a) g) (stock_world (history ws b) h) = true.
Proof. exact stock_stock_sound. Qed.
Print Assumptions C53_no_missed_collision_between_stock.

(** What is actually decided: whether the horizontal and vertical extents meet. *)
Theorem C53_stock_collision_iff_extents_meet : forall vs a g ws b h, proper a -> proper b ->
  (stock_overlaps_stock (stock_world (history vs a) g) (stock_world (history ws b) h) = true <->
   exists p, in_extent p (cr (stock_world (history vs a) g)) /\ in_extent p (cr (stock_world (history ws b) h))).
Proof. exact stock_stock_iff. Qed.
Print Assumptions C53_stock_collision_iff_extents_meet.

Theorem C53_box_collision_iff_extent_meets : forall vs a g b, proper a -> proper b ->
  (stock_overlaps_shape (stock_world (history vs a) g) (SBox b) = true <->
   exists p, in_extent p (cr (stock_world (history vs a) g)) /\ inside_box p b) /\
  shape_overlaps_stock (SBox b) (stock_world (history vs a) g) =
  stock_overlaps_shape (stock_world (history vs a) g) (SBox b).
Proof. exact stock_box_iff. Qed.
Print Assumptions C53_box_collision_iff_extent_meets.

(** Facing the four main directions the answer is exact ... *)
Theorem C53_exact_on_quarters : forall vs a g ws b h (i j : Z), proper a -> proper b ->
  let s := stock_world (history (vs ++ [ONum (IZR i / 4)]) a) g in
  let t := stock_world (history (ws ++ [ONum (IZR j / 4)]) b) h in
  (stock_overlaps_stock s t = true <-> exists p, inside_rect p (cr s) /\ inside_rect p (cr t)).
Proof. exact quarter_exact. Qed.
Print Assumptions C53_exact_on_quarters.

(** ... and on diagonals it is not: stock on parallel tracks is reported to collide. *)
Theorem C53_exactness_refuted : exists a g h, proper a /\
  let s := stock_world (history [ONum (1 / 8)] a) g in
  let t := stock_world (history [ONum (1 / 8)] a) h in
  stock_overlaps_stock s t = true /\ ~ exists p, inside_rect p (cr s) /\ inside_rect p (cr t).
Proof. exact false_alarm. Qed.
Print Assumptions C53_exactness_refuted.

(** Against any other shape, too, the main directions are exact, in either order. *)
Theorem C53_exact_with_shape : forall vs a g b (i : Z), proper a -> proper_shape b ->
  let s := stock_world (history (vs ++ [ONum (IZR i / 4)]) a) g in
  (stock_overlaps_shape s b = true <-> exists p, inside_rect p (cr s) /\ inside_shape p b) /\
  shape_overlaps_stock b s = stock_overlaps_shape s b.
Proof. exact quarter_shape_exact. Qed.
Print Assumptions C53_exact_with_shape.

(** Assigning [None] puts the rectangle upright; another value that is no
    number leaves it where it is. *)
Theorem C53_not_a_number : forall vs a g p,
  (corner_of p (cr (stock_world (history (vs ++ [ONone]) a) g)) <->
   (fst p = fst g + (x2 a - x1 a) / 2 \/ fst p = fst g - (x2 a - x1 a) / 2) /\
   (snd p = snd g + (y2 a - y1 a) / 2 \/ snd p = snd g - (y2 a - y1 a) / 2)) /\
  history (vs ++ [OOther]) a = history vs a.
Proof. exact not_a_number. Qed.
Print Assumptions C53_not_a_number.

(** The bounding box encloses the rectangle exactly for half of the
    orientations, and never exceeds the least enclosing box. *)
Theorem C53_world_box : forall vs v a g, proper a ->
  let s := set_orientation (ONum v) (history vs a) in
  exists b, stock_world_box s g = Some b /\
    ((forall p, corner_of p (cr (stock_world s g)) -> in_box p b) <->
     (0 <= cos (2 * PI * v) \/ sin (2 * PI * v) = 0)) /\
    (forall c, (forall p, corner_of p (cr (stock_world s g)) -> in_box p c) -> box_subset b c).
Proof. exact stock_box_exact. Qed.
Print Assumptions C53_world_box.

(** Two wagons one behind the other on a diagonal track, too close. *)
Example C53_ex :
  let a := mkAABB (-1) (-3) 1 3 (0, 0) in
  proper a /\
  stock_overlaps_stock (stock_world (history [ONum (3 / 8); ONum (1 / 8)] a) (0, 0))
                       (stock_world (history [ONum (1 / 8)] a) (2, -2)) = true.
Proof.
  set (a := mkAABB (-1) (-3) 1 3 (0, 0)).
  assert (P : proper a) by (unfold proper; simpl; lra).
  split; [assumption|]. apply stock_stock_sound with (p := (1, -1)); [assumption..| |].
  - unfold stock_world, history. cbn [fold_left set_orientation cr rpos rw rh rangle stock_new rectangle_new a x1 x2 y1 y2].
    rewrite frac_eighth. unfold inside_rect. cbn [rpos rw rh rangle fst snd].
    assert (A : 1 / 8 * 360 * (PI / 180) = PI / 4) by field. rewrite A, cos_PI4, sin_PI4.
    pose proof Rlt_sqrt2_0 as Q. pose proof (sqrt_sqrt 2 ltac:(lra)) as Q2.
    assert (K : sqrt 2 < 3).
    { apply Rnot_le_lt. intros L. assert (3 * 3 <= sqrt 2 * sqrt 2) by (apply Rmult_le_compat; lra). lra. }
    exists 0, (- sqrt 2).
    repeat split; try lra; apply (Rmult_eq_reg_r (sqrt 2)); try lra; field_simplify; nra.
  - unfold stock_world, history. cbn [fold_left set_orientation cr rpos rw rh rangle stock_new rectangle_new a x1 x2 y1 y2].
    rewrite frac_eighth. unfold inside_rect. cbn [rpos rw rh rangle fst snd].
    assert (A : 1 / 8 * 360 * (PI / 180) = PI / 4) by field. rewrite A, cos_PI4, sin_PI4.
    pose proof Rlt_sqrt2_0 as Q. pose proof (sqrt_sqrt 2 ltac:(lra)) as Q2.
    assert (K : sqrt 2 < 3).
    { apply Rnot_le_lt. intros L. assert (3 * 3 <= sqrt 2 * sqrt 2) by (apply Rmult_le_compat; lra). lra. }
    exists 0, (sqrt 2).
    repeat split; try lra; apply (Rmult_eq_reg_r (sqrt 2)); try lra; field_simplify; nra.
Qed.
