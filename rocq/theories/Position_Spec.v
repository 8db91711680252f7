(** What "the position and the tile position describe the same place" means,
    stated on plain numbers. *)
From Coq Require Import ZArith List Bool.
From Verif Require Import Common Position_Model.
Local Open Scope Z_scope.

(** [k] is the whole number nearest to [n / d], the even one of two equally
    near ones. *)
Definition nearest_even (n d k : Z) : Prop :=
  Z.abs (2 * (n - k * d)) <= d /\ (Z.abs (2 * (n - k * d)) = d -> Z.Even k).

(** Position [p] of an object [s] tiles wide, whose tile coordinate is [t]
    (all in units, [2*H] per tile). *)
Definition in_step (H s p t : Z) : Prop :=
  exists k, t = k * (2 * H) /\ nearest_even (p - s * H) (2 * H) k.
(** The object fits the grid at position [p]. *)
Definition on_grid (H s p : Z) : Prop := exists k, p = k * (2 * H) + s * H.

Definition agree (H : Z) (e : ent) : Prop :=
  in_step H (w e) (px e) (tx e) /\ in_step H (h e) (py e) (ty e).

(** Assignments through the documented attributes with whole tile
    coordinates. *)
Definition whole (H v : Z) : Prop := exists k, v = k * (2 * H).
Definition proper (H : Z) (o : pop) : Prop :=
  match o with
  | PTileSet (PVector x y) => whole H x /\ whole H y
  | PTX v | PTY v => whole H v
  | PItem _ _ | PTItem _ _ => False
  | _ => True
  end.
(** The size an object was created with, possibly turned. *)
Definition sized (e : ent) : Prop := (w e = sw e /\ h e = sh e) \/ (w e = sh e /\ h e = sw e).

(** *** Directions (C54) *)
(** [q] is the last quarter turn (north, east, south, west: 0, 4, 8, 12) not
    after [v]. *)
Definition quarter_before (v q : Z) : Prop := (exists k, q = 4 * k) /\ q <= v < q + 4.
Definition sideways (d : Z) : Prop := d = 4 \/ d = 12.
Definition directional (e : ent) : Prop := kd e = Dir4 \/ kd e = Dir8.
(** The size an object of static size [sw e] by [sh e] has facing north, east,
    south or west. *)
Definition faces (e : ent) (d : Z) : Prop :=
  (sideways d -> w e = sh e /\ h e = sw e) /\ (~ sideways d -> w e = sw e /\ h e = sh e).
(** Placed exactly on the grid. *)
Definition seated (H : Z) (e : ent) : Prop := px e = tx e + w e * H /\ py e = ty e + h e * H.
