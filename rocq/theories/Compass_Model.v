(** Directions and orientations: /repo/draftsman/constants.py 16-170 [Direction],
    173-311 [LegacyDirection], 335-526 [Orientation].

    A direction is its integer value.  Orientations are exact: a full turn is
    [16 * K] units for an arbitrary [K > 0], so every rational orientation is
    covered; IEEE rounding is not modelled (for a negative number very close to
    zero the code's [value % 1.0] rounds to 1.0).  Coordinates of vectors are
    real numbers. *)
From Coq Require Import ZArith List Bool Reals.
From Verif Require Import Common.
Import ListNotations.
Local Open Scope Z_scope.

(** The enum constructor [Direction(z)] (constants.py 16-49). *)
Definition direction (z : Z) : result Z := if (0 <=? z) && (z <? 16) then Ok z else Err ValueError.

(** 51-62. *)
Definition opposite (d : Z) : result Z := direction ((d + 8) mod 16).
(** 64-82, 84-104. *)
Definition next (four_way : bool) (d : Z) : result Z := direction ((d + (if four_way then 4 else 1)) mod 16).
Definition previous (four_way : bool) (d : Z) : result Z := direction ((d - (if four_way then 4 else 1)) mod 16).

Fixpoint steps (f : Z -> result Z) (n : nat) (d : Z) : result Z :=
  match n with O => Ok d | S m => let* d' := f d in steps f m d' end.

(** 132-170: [srt2 = 2 ** (-1 / 2)], then [mapping[self] * magnitude]. *)
Definition srt2 : R := (/ sqrt 2)%R.
Definition unit_vector (d : Z) : result (R * R) :=
  match d with
  | 0 => Ok (0, -1)%R
  | 1 => Ok (0, 0)%R
  | 2 => Ok (srt2, - srt2)%R
  | 3 => Ok (0, 0)%R
  | 4 => Ok (1, 0)%R
  | 5 => Ok (0, 0)%R
  | 6 => Ok (srt2, srt2)%R
  | 7 => Ok (0, 0)%R
  | 8 => Ok (0, 1)%R
  | 9 => Ok (0, 0)%R
  | 10 => Ok (- srt2, srt2)%R
  | 11 => Ok (0, 0)%R
  | 12 => Ok (-1, 0)%R
  | 13 => Ok (0, 0)%R
  | 14 => Ok (- srt2, - srt2)%R
  | 15 => Ok (0, 0)%R
  | _ => Err KeyError
  end.
Definition to_vector (m : R) (d : Z) : result (R * R) :=
  let* v := unit_vector d in Ok (fst v * m, snd v * m)%R.

(** ** [LegacyDirection] 173-311: its methods return [Direction]s; the keys of
    the tables are [Direction]s, found by their integer value. *)
Definition legacy_opposite (d : Z) : result Z := direction ((d + 4) mod 8).
Definition legacy_next (eight_way : bool) (d : Z) : result Z := direction ((d + 1 + (if eight_way then 0 else 1)) mod 8).
Definition legacy_previous (eight_way : bool) (d : Z) : result Z := direction ((d - 1 - (if eight_way then 0 else 1)) mod 8).

Section Orientation.
  Variable K : Z.
  Definition turn : Z := 16 * K.

  (** An [Orientation] is a [float] with the raw number it was made from, and
      [_value_ = value % 1.0] (373-388). *)
  Record orientation := mkO { raw : Z }.
  Definition value (o : orientation) : Z := raw o mod turn.

  (** 390-404. *)
  Definition o_opposite (o : orientation) : orientation := mkO ((value o + 8 * K) mod turn).

  (** 106-130: the eight keys; [KeyError] for the others. *)
  Definition to_orientation (d : Z) : result orientation :=
    match d with
    | 0 => Ok (mkO 0) | 2 => Ok (mkO (2 * K)) | 4 => Ok (mkO (4 * K)) | 6 => Ok (mkO (6 * K))
    | 8 => Ok (mkO (8 * K)) | 10 => Ok (mkO (10 * K)) | 12 => Ok (mkO (12 * K)) | 14 => Ok (mkO (14 * K))
    | _ => Err KeyError
    end.
  (** 273-297 [LegacyDirection.to_orientation]: the same table. *)
  Definition legacy_to_orientation (d : Z) : result orientation := to_orientation d.

  (** Python [round(a / b)], ties to even. *)
  Definition round_div (a b : Z) : Z :=
    let q := a / b in let r := a mod b in
    if 2 * r <? b then q else if b <? 2 * r then q + 1 else if Z.even q then q else q + 1.
  (** 406-428. *)
  Definition to_direction (sixteen_way : bool) (o : orientation) : result Z :=
    if sixteen_way then direction (round_div (value o) K)
    else direction (round_div (value o) (4 * K) * 4).

  (** ** Operators 453-500.  The other operand: an orientation, a [float], or
      something else (an [int], a string). *)
  Inductive operand := Ori (o : orientation) | Flo (x : Z) | Other.

  Definition o_add (o : orientation) (b : operand) : result orientation :=
    match b with
    | Ori p => Ok (mkO (value o + value p))
    | Flo x => Ok (mkO (value o + x))
    | Other => Err TypeError
    end.
  Definition o_radd (x : Z) (o : orientation) : orientation := mkO (x + value o).
  Definition o_sub (o : orientation) (b : operand) : result orientation :=
    match b with
    | Ori p => Ok (mkO (value o - value p))
    | Flo x => Ok (mkO (value o - x))
    | Other => Err TypeError
    end.
  Definition o_rsub (x : Z) (o : orientation) : orientation := mkO (x - value o).
  (** [==] and [<] of two orientations. *)
  Definition o_eq (o p : orientation) : bool := value o =? value p.
  Definition o_lt (o p : orientation) : bool := value o <? value p.
  (** [total_ordering] replaces only what is inherited from [object]; the other
      comparisons are those of [float], on the raw numbers. *)
  Definition o_le (o p : orientation) : bool := raw o <=? raw p.
  Definition o_gt (o p : orientation) : bool := raw p <? raw o.
  Definition o_ge (o p : orientation) : bool := raw p <=? raw o.
End Orientation.
