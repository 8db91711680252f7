(** What directions and orientations are supposed to be. *)
From Coq Require Import ZArith List Bool Reals.
From Verif Require Import Common Compass_Model.
Local Open Scope Z_scope.

Definition is_direction (d : Z) : Prop := 0 <= d < 16.
(** The eight compass points have even numbers. *)
Definition compass_point (d : Z) : Prop := is_direction d /\ Z.Even d.

Definition negated (v w : R * R) : Prop := (fst w = - fst v /\ snd w = - snd v)%R.
Definition length_is (v : R * R) (m : R) : Prop := (fst v * fst v + snd v * snd v = m * m)%R.

(** Two integers that differ by whole turns of [m]. *)
Definition congruent (m a b : Z) : Prop := exists k, a = b + m * k.

(** [q] is the integer nearest to [a / b], the even one if two are. *)
Definition nearest (a b q : Z) : Prop :=
  2 * Z.abs (a - q * b) < b \/ (2 * Z.abs (a - q * b) = b /\ Z.Even q).

(** The values of [LegacyDirection]: eighths of a turn. *)
Definition is_eighth (d : Z) : Prop := 0 <= d < 8.
