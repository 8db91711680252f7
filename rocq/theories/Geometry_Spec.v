(** Independent specification of plane geometry: point sets. *)
From Coq Require Import Reals ZArith List.
From Verif Require Import Geometry_Model.
Import ListNotations.
Local Open Scope R_scope.

(** Points of an axis-aligned box, in world coordinates. *)
Definition in_box (p : pt) (a : aabb) : Prop :=
  x1 a + fst (apos a) <= fst p <= x2 a + fst (apos a) /\
  y1 a + snd (apos a) <= snd p <= y2 a + snd (apos a).
Definition inside_box (p : pt) (a : aabb) : Prop :=
  x1 a + fst (apos a) < fst p < x2 a + fst (apos a) /\
  y1 a + snd (apos a) < snd p < y2 a + snd (apos a).

Definition proper (a : aabb) : Prop := x1 a < x2 a /\ y1 a < y2 a.
Definition ordered (a : aabb) : Prop := x1 a <= x2 a /\ y1 a <= y2 a.

(** [area] is the least box around the boxes of [bs]. *)
Definition box_subset (a b : aabb) : Prop := forall p, in_box p a -> in_box p b.
Definition least_box (bs : list aabb) (area : aabb) : Prop :=
  (forall b, In b bs -> box_subset b area) /\
  (forall c, (forall b, In b bs -> box_subset b c) -> box_subset area c).

(** Boxes of all entities in a collection tree. *)
Inductive leaf_of : aabb -> member -> Prop :=
| leaf_here : forall b, leaf_of b (Leaf (Some b))
| leaf_group : forall b l m, In m l -> leaf_of b m -> leaf_of b (Grp l).

(** Quarter turn clockwise on screen (y axis pointing down). *)
Definition turn (p : pt) : pt := (- snd p, fst p).
Fixpoint turns (n : nat) (p : pt) : pt :=
  match n with O => p | S n => turn (turns n p) end.

(** Local box of an AABB (the offset left out). *)
Definition in_local (p : pt) (a : aabb) : Prop :=
  x1 a <= fst p <= x2 a /\ y1 a <= snd p <= y2 a.

(** Points strictly inside a rotated rectangle: the images of the points
    [(u,v)] of the unrotated open rectangle. *)
Definition inside_rect (p : pt) (r : rect) : Prop :=
  exists u v, - (rw r / 2) < u < rw r / 2 /\ - (rh r / 2) < v < rh r / 2 /\
    fst p = fst (rpos r) + (u * cos (rangle r * (PI / 180)) - v * sin (rangle r * (PI / 180))) /\
    snd p = snd (rpos r) + (u * sin (rangle r * (PI / 180)) + v * cos (rangle r * (PI / 180))).

Definition inside_shape (p : pt) (s : shape) : Prop :=
  match s with SBox a => inside_box p a | SRect r => inside_rect p r end.
Definition proper_shape (s : shape) : Prop :=
  match s with SBox a => proper a | SRect r => 0 < rw r /\ 0 < rh r end.

(** The four corners of a rotated rectangle. *)
Definition corner_of (p : pt) (r : rect) : Prop :=
  exists u v, (u = rw r / 2 \/ u = - (rw r / 2)) /\ (v = rh r / 2 \/ v = - (rh r / 2)) /\
    fst p = fst (rpos r) + (u * cos (rangle r * (PI / 180)) - v * sin (rangle r * (PI / 180))) /\
    snd p = snd (rpos r) + (u * sin (rangle r * (PI / 180)) + v * cos (rangle r * (PI / 180))).
