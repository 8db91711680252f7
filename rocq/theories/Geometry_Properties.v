(** C04-C08: plane geometry. *)
From Coq Require Import Reals ZArith List Lra Lia.
From Verif Require Import Common Geometry_Model Geometry_Spec Geometry_Proofs Geometry_SAT_Proofs.
Import ListNotations.
Local Open Scope R_scope.

(** C04: overlap of boxes of positive size is "some point strictly inside both". *)
Theorem C04_overlap_iff_common_interior_point : forall a b, proper a -> proper b ->
  (aabb_overlaps_aabb a b = true <-> exists p, inside_box p a /\ inside_box p b).
Proof. exact overlaps_iff. Qed.
Print Assumptions C04_overlap_iff_common_interior_point.

Theorem C04_overlap_symmetric : forall a b, aabb_overlaps_aabb a b = aabb_overlaps_aabb b a.
Proof. exact overlaps_sym. Qed.
Print Assumptions C04_overlap_symmetric.

Theorem C04_overlap_translation : forall a b v,
  aabb_overlaps_aabb (aabb_add a v) (aabb_add b v) = aabb_overlaps_aabb a b.
Proof. exact overlaps_translate. Qed.
Print Assumptions C04_overlap_translation.

(** Sharing only an edge or a corner is not overlapping. *)
Theorem C04_touching_is_not_overlap : forall a b,
  (fst (world_br a) <= fst (world_tl b) \/ snd (world_br a) <= snd (world_tl b)) ->
  aabb_overlaps_aabb a b = false /\ aabb_overlaps_aabb b a = false.
Proof. exact touching. Qed.
Print Assumptions C04_touching_is_not_overlap.

(** The closed containment test is exact, and the world bounding box of a box
    has the same points and overlaps the same boxes. *)
Theorem C04_point_in_box_iff : forall p a, point_in_aabb p a = true <-> in_box p a.
Proof. exact point_in_aabb_spec. Qed.
Print Assumptions C04_point_in_box_iff.

Theorem C04_world_box_same_points : forall p a, in_box p (aabb_bounding_box a) <-> in_box p a.
Proof. exact bounding_box_same_points. Qed.
Print Assumptions C04_world_box_same_points.

Example C04_ex :
  let a := mkAABB (-1) (-1) 1 1 (5, 5) in
  let b := mkAABB 0 0 2 2 (5, 5) in
  let c := mkAABB 0 0 2 2 (6, 6) in
  proper a /\ proper b /\ proper c /\
  aabb_overlaps_aabb a b = true /\ aabb_overlaps_aabb a c = false.
Proof.
  unfold proper; simpl. repeat split; try lra.
  - apply overlaps_coords; simpl; lra.
  - apply (touching (mkAABB (-1) (-1) 1 1 (5, 5)) (mkAABB 0 0 2 2 (6, 6))). simpl. lra.
Qed.

(** C05: the blueprint's box is the least box around all entity boxes (through
    groups of any depth) and all tile boxes. *)
Theorem C05_bounding_box_least : forall es ts area,
  (forall b, (exists m, In m es /\ leaf_of b m) \/ In (Some b) ts -> ordered b) ->
  blueprint_box es ts = Some area ->
  (forall b, (exists m, In m es /\ leaf_of b m) \/ In (Some b) ts -> box_subset b area) /\
  (forall c, (forall b, (exists m, In m es /\ leaf_of b m) \/ In (Some b) ts -> box_subset b c) ->
     box_subset area c) /\
  ordered area.
Proof. exact blueprint_box_least. Qed.
Print Assumptions C05_bounding_box_least.

Theorem C05_no_box_iff_empty : forall es ts,
  (forall b, (exists m, In m es /\ leaf_of b m) \/ In (Some b) ts -> ordered b) ->
  (blueprint_box es ts = None <->
   forall b, ~ ((exists m, In m es /\ leaf_of b m) \/ In (Some b) ts)).
Proof. exact blueprint_box_none. Qed.
Print Assumptions C05_no_box_iff_empty.

(** C05: dimensions are the extents rounded up, (0, 0) without a box. *)
Theorem C05_dimensions : forall es ts w h, blueprint_dimensions es ts = (w, h) ->
  match blueprint_box es ts with
  | None => w = 0%Z /\ h = 0%Z
  | Some a => IZR w - 1 < x2 a - x1 a <= IZR w /\ IZR h - 1 < y2 a - y1 a <= IZR h
  end.
Proof. exact dimensions_spec. Qed.
Print Assumptions C05_dimensions.

Example C05_ex :
  let a := mkAABB (-1) (-1) 1 1 (5, 5) in
  let b := mkAABB 0 0 1 1 (0, 0) in
  let es := [Grp [Leaf (Some a); Leaf None]; Leaf None] in
  (forall x, (exists m, In m es /\ leaf_of x m) \/ In (Some x) [Some b] -> ordered x) /\
  exists area, blueprint_box es [Some b] = Some area /\
    x1 area = 0 /\ y1 area = 0 /\ x2 area = 6 /\ y2 area = 6.
Proof.
  simpl. split.
  - intros x [[m [[<-|[<-|[]]] H]]|[H|[]]].
    + inversion H as [|? ? ? H1 H2]; subst. destruct H1 as [<-|[<-|[]]]; inversion H2; subst.
      unfold ordered; simpl; lra.
    + inversion H.
    + inversion H; subst. unfold ordered; simpl; lra.
  - eexists. split; [reflexivity|]. simpl. unfold Rmin, Rmax.
    repeat match goal with |- context [Rle_dec ?u ?v] => destruct (Rle_dec u v) end; lra.
Qed.

(** C06: the separating-axis test decides exactly whether two rectangles (any
    position, size and angle, or axis-aligned boxes) share an interior point. *)
Theorem C06_rectangle_overlap_iff_common_interior_point : forall a b,
  proper_shape a -> proper_shape b ->
  (rect_overlaps_rect a b = true <-> exists p, inside_shape p a /\ inside_shape p b).
Proof. exact rect_overlaps_iff. Qed.
Print Assumptions C06_rectangle_overlap_iff_common_interior_point.

Theorem C06_shape_overlap_iff : forall a b, proper_shape a -> proper_shape b ->
  (shape_overlaps a b = true <-> exists p, inside_shape p a /\ inside_shape p b).
Proof. exact shape_overlaps_iff. Qed.
Print Assumptions C06_shape_overlap_iff.

(** C06: collision sets overlap exactly when some two of their shapes do. *)
Theorem C06_collision_set_overlap_iff : forall s t,
  Forall proper_shape s -> Forall proper_shape t ->
  (set_overlaps s t = true <->
   exists p a b, In a s /\ In b t /\ inside_shape p a /\ inside_shape p b).
Proof. exact set_overlaps_iff. Qed.
Print Assumptions C06_collision_set_overlap_iff.

(** A square turned by 45 degrees reaches past the corner region of its own
    bounding box only along the axes: it meets a box on the axis and misses
    one at the corner, although the bounding boxes overlap. *)
Example C06_ex :
  let r := SRect (mkRect (0, 0) 2 2 45) in
  proper_shape r /\
  proper_shape (SBox (mkAABB (6/5) (-1) 3 1 (0, 0))) /\
  proper_shape (SBox (mkAABB 1 1 3 3 (0, 0))) /\
  rect_overlaps_rect r (SBox (mkAABB (6/5) (-1) 3 1 (0, 0))) = true /\
  rect_overlaps_rect r (SBox (mkAABB 1 1 3 3 (0, 0))) = false.
Proof.
  intros r.
  assert (P0 : proper_shape r) by (simpl; lra).
  assert (P1 : proper_shape (SBox (mkAABB (6/5) (-1) 3 1 (0, 0)))) by (unfold proper_shape, proper; simpl; lra).
  assert (P2 : proper_shape (SBox (mkAABB 1 1 3 3 (0, 0)))) by (unfold proper_shape, proper; simpl; lra).
  assert (A : 45 * (PI / 180) = PI / 4) by field.
  pose proof Rlt_sqrt2_0 as Q. pose proof (sqrt_sqrt 2 ltac:(lra)) as Q2.
  assert (K : 7/5 < sqrt 2 < 3/2).
  { split.
    - apply Rnot_le_lt. intros L. assert (sqrt 2 * sqrt 2 <= (7/5) * (7/5)) by (apply Rmult_le_compat; lra). lra.
    - apply Rnot_le_lt. intros L. assert ((3/2) * (3/2) <= sqrt 2 * sqrt 2) by (apply Rmult_le_compat; lra). lra. }
  assert (I : 1 / sqrt 2 = sqrt 2 / 2) by (apply (Rmult_eq_reg_r (2 * sqrt 2)); [field_simplify; nra|lra]).
  repeat split; try (simpl; lra); try assumption.
  - apply rect_overlaps_iff; try assumption.
    exists (13/10, 0). simpl. unfold inside_rect, inside_box. simpl. rewrite A, cos_PI4, sin_PI4, I.
    split; [|lra]. exists ((13/10) * (sqrt 2 / 2)), (- ((13/10) * (sqrt 2 / 2))).
    repeat split; nra.
  - destruct (rect_overlaps_rect r (SBox (mkAABB 1 1 3 3 (0, 0)))) eqn:E; [|reflexivity].
    apply rect_overlaps_iff in E; try assumption. destruct E as [[x y] [H1 H2]].
    exfalso. simpl in H1, H2. unfold inside_rect, inside_box in *. simpl in *.
    rewrite A, cos_PI4, sin_PI4, I in H1.
    destruct H1 as [u [v [Hu [Hv [E1 E2]]]]].
    assert (x + y = u * sqrt 2) by (rewrite E1, E2; field). nra.
Qed.

(** C07, refuted: the reported box does not always contain the rectangle. *)
Theorem C07_rotated_box_encloses_refuted :
  exists b p, rect_bounding_box (mkRect (0, 0) 2 2 135) = Some b /\
  corner_of p (mkRect (0, 0) 2 2 135) /\ ~ in_box p b.
Proof. exact rect_box_135. Qed.
Print Assumptions C07_rotated_box_encloses_refuted.

(** C07, exact: it contains all corners exactly when the angle has a
    non-negative cosine or is a multiple of 180 degrees, and it is never larger
    than any box that contains all corners. *)
Theorem C07_rotated_box_encloses_iff : forall r, 0 < rw r -> 0 < rh r ->
  exists b, rect_bounding_box r = Some b /\ apos b = (0, 0) /\
    ((forall p, corner_of p r -> in_box p b) <->
     (0 <= cos (rangle r * (PI / 180)) \/ sin (rangle r * (PI / 180)) = 0)) /\
    (forall c, (forall p, corner_of p r -> in_box p c) -> box_subset b c).
Proof. exact rect_box_exact. Qed.
Print Assumptions C07_rotated_box_encloses_iff.

Example C07_ex : 0 <= cos (rangle (mkRect (1, 2) 3 1 45) * (PI / 180)).
Proof.
  simpl. replace (45 * (PI / 180)) with (PI / 4) by field. rewrite cos_PI4.
  pose proof Rlt_sqrt2_0. left. apply Rdiv_lt_0_compat; lra.
Qed.

(** C08: a quarter-turn amount turns the local box as a set of points; the
    offset is kept. *)
Theorem C08_rotate_is_plane_rotation : forall k a, ordered a -> exists b,
  aabb_rotate (4 * k) a = Ok b /\ apos b = apos a /\ ordered b /\
  forall p, in_local p b <-> exists q, in_local q a /\ p = turns (Z.to_nat (k mod 4)) q.
Proof. exact aabb_rotate_image. Qed.
Print Assumptions C08_rotate_is_plane_rotation.

Theorem C08_rotate_composes : forall m n a b, ordered a ->
  aabb_rotate m a = Ok b -> (n mod 4 = 0)%Z -> aabb_rotate n b = aabb_rotate (m + n) a.
Proof. exact aabb_rotate_add. Qed.
Print Assumptions C08_rotate_composes.

Theorem C08_full_turn_identity : forall k a, ordered a -> aabb_rotate (16 * k) a = Ok a.
Proof. exact aabb_rotate_full. Qed.
Print Assumptions C08_full_turn_identity.

Theorem C08_rejected_iff_not_quarter : forall amt a,
  (amt mod 4 <> 0)%Z <-> aabb_rotate amt a = Err ValueError.
Proof. exact aabb_rotate_err. Qed.
Print Assumptions C08_rejected_iff_not_quarter.

Example C08_ex : exists b, aabb_rotate 4 (mkAABB (-1) (-2) 1 5 (7, 7)) = Ok b /\
  x1 b = -5 /\ y1 b = -1 /\ x2 b = 2 /\ y2 b = 1 /\ apos b = (7, 7).
Proof.
  exists (rot_box 1 (mkAABB (-1) (-2) 1 5 (7, 7))). split.
  - apply (aabb_rotate_box 1). unfold ordered; simpl; lra.
  - simpl. repeat split; lra.
Qed.
