(** Specification of collision sets as sets of points. *)
From Coq Require Import Reals ZArith List.
From Verif Require Import Geometry_Model Geometry_Spec.
Import ListNotations.
Local Open Scope R_scope.

(** Interior points of a set. *)
Definition inside_set (p : pt) (s : list shape) : Prop :=
  exists a, In a s /\ inside_shape p a.

(** Clockwise turn of the plane about the origin by an angle in degrees. *)
Definition plane_turn (deg : R) (p : pt) : pt :=
  (fst p * cos (deg * (PI / 180)) - snd p * sin (deg * (PI / 180)),
   fst p * sin (deg * (PI / 180)) + snd p * cos (deg * (PI / 180))).
Definition moved (v p : pt) : pt := (fst p + fst v, snd p + snd v).

(** The shapes the library turns correctly: a box must have no offset. *)
Definition centred (s : shape) : Prop :=
  match s with SBox a => apos a = (0, 0) | SRect _ => True end.
Definition is_box (s : shape) : Prop :=
  match s with SBox _ => True | SRect _ => False end.

(** Corners of a shape. *)
Definition shape_corner (p : pt) (s : shape) : Prop :=
  match s with
  | SBox a => (fst p = x1 a + fst (apos a) \/ fst p = x2 a + fst (apos a)) /\
              (snd p = y1 a + snd (apos a) \/ snd p = y2 a + snd (apos a))
  | SRect r => corner_of p r
  end.
Definition set_corner (p : pt) (s : list shape) : Prop :=
  exists a, In a s /\ shape_corner p a.

(** Angles at which the scan for the greatest coordinates works (C07). *)
Definition good_angle (s : shape) : Prop :=
  match s with
  | SBox _ => True
  | SRect r => 0 <= cos (rangle r * (PI / 180)) \/ sin (rangle r * (PI / 180)) = 0
  end.

(** [p] lies strictly within the horizontal and vertical extent of [r]. *)
Definition in_extent (p : pt) (r : rect) : Prop :=
  (exists c d, corner_of c r /\ corner_of d r /\ fst c < fst p < fst d) /\
  (exists c d, corner_of c r /\ corner_of d r /\ snd c < snd p < snd d).
