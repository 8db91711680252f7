(** Property theorems C31 and C32: directions and orientations.  A full turn is
    [16 * K] units, for any [K > 0]. *)
From Coq Require Import ZArith List Bool Lia Reals Lra.
From Verif Require Import Common Compass_Model Compass_Spec Compass_Proofs.
Import ListNotations.
Local Open Scope Z_scope.

(** ** C31 *)
Theorem C31_opposite : forall d, is_direction d -> exists d', opposite d = Ok d' /\ is_direction d' /\
  d' <> d /\ congruent 16 d' (d + 8) /\ opposite d' = Ok d.
Proof. exact opposite_spec. Qed.
Print Assumptions C31_opposite.

Theorem C31_next_previous : forall four d, is_direction d -> exists n p,
  next four d = Ok n /\ previous four d = Ok p /\ is_direction n /\ is_direction p /\
  previous four n = Ok d /\ next four p = Ok d /\
  congruent 16 n (d + if four then 4 else 1) /\ congruent 16 p (d - if four then 4 else 1).
Proof. exact next_previous. Qed.
Print Assumptions C31_next_previous.

(** Any number of steps returns to the start exactly if it is a multiple of 4
    (quarter turns) or 16. *)
Theorem C31_cycle : forall (four : bool) n d, is_direction d ->
  let p := if four then 4 else 16 in
  (steps (next four) n d = Ok d <-> congruent p (Z.of_nat n) 0) /\
  (steps (previous four) n d = Ok d <-> congruent p (Z.of_nat n) 0).
Proof. exact steps_return. Qed.
Print Assumptions C31_cycle.

Theorem C31_vector_opposite : forall d m, is_direction d -> exists d' v w,
  opposite d = Ok d' /\ to_vector m d = Ok v /\ to_vector m d' = Ok w /\ negated v w.
Proof. exact vector_opposite. Qed.
Print Assumptions C31_vector_opposite.

(** The vector of a compass point has the requested length; the eight directions
    in between have the zero vector, against the documentation. *)
Theorem C31_vector_length : forall d m, is_direction d -> exists v, to_vector m d = Ok v /\
  (Z.Even d -> length_is v m) /\ (~ Z.Even d -> v = (0, 0)%R).
Proof. exact vector_length. Qed.
Print Assumptions C31_vector_length.
Theorem C31_unit_refuted : exists d v, is_direction d /\ to_vector 1 d = Ok v /\ ~ length_is v 1.
Proof.
  exists 1. eexists. split; [unfold is_direction; lia|]. split; [reflexivity|]. unfold length_is. cbn [fst snd]. lra.
Qed.
Print Assumptions C31_unit_refuted.

(** [LegacyDirection] counts in eighths: its values are turned by one or two
    eighths, and by half a turn, as they should … *)
Theorem C31_legacy : forall eight d, is_eighth d -> exists o n p,
  legacy_opposite d = Ok o /\ legacy_next eight d = Ok n /\ legacy_previous eight d = Ok p /\
  is_eighth o /\ is_eighth n /\ is_eighth p /\
  legacy_opposite o = Ok d /\ legacy_previous eight n = Ok d /\ legacy_next eight p = Ok d /\
  congruent 8 o (d + 4) /\ congruent 8 n (d + if eight then 1 else 2) /\ congruent 8 p (d - if eight then 1 else 2).
Proof. exact legacy_eighths. Qed.
Print Assumptions C31_legacy.
Example C31_ex_legacy : legacy_next true 7 = Ok 0 /\ legacy_previous false 1 = Ok 7 /\ legacy_opposite 6 = Ok 2.
Proof. repeat split. Qed.
(** … but the result is a [Direction] (sixteenths): [LegacyDirection] (eighths of a turn) computes with sixteenths: south is
    converted to east, northeast not at all, and the direction opposite to north
    is a [Direction] to the east. *)
Theorem C31_legacy_refuted : forall K, 0 < K ->
  (exists o, legacy_to_orientation K 4 = Ok o /\ to_orientation K 4 = Ok o /\ value K o <> 8 * K) /\
  legacy_to_orientation K 1 = Err KeyError /\
  (exists e o, legacy_opposite 0 = Ok e /\ to_orientation K e = Ok o /\ value K o <> 8 * K).
Proof.
  intros K HK. assert (V : value K (mkO (4 * K)) = 4 * K) by (apply value_small; unfold turn; lia).
  split; [|split; [reflexivity|]].
  - eexists. split; [reflexivity|]. split; [reflexivity|]. rewrite V. lia.
  - do 2 eexists. split; [reflexivity|]. split; [reflexivity|]. rewrite V. lia.
Qed.
Print Assumptions C31_legacy_refuted.

Example C31_example : opposite 3 = Ok 11 /\ next true 14 = Ok 2 /\ next false 15 = Ok 0 /\ previous true 0 = Ok 12 /\
  steps (next true) 6 1 = Ok 9.
Proof. repeat split. Qed.
Example C31_example_vector : to_vector (-7) 4 = Ok (1 * -7, 0 * -7)%R.
Proof. reflexivity. Qed.

(** ** C32 *)
(** Values stay within one turn; addition and subtraction make a commutative
    group (up to [==]). *)
Theorem C32_group : forall K, 0 < K -> forall o p q,
  (0 <= value K o < turn K) /\
  (exists a, o_add K o (Ori p) = Ok a /\ o_add K p (Ori o) = Ok a) /\
  (exists ab bc l r, o_add K o (Ori p) = Ok ab /\ o_add K p (Ori q) = Ok bc /\
     o_add K ab (Ori q) = Ok l /\ o_add K o (Ori bc) = Ok r /\ o_eq K l r = true) /\
  (exists z, o_add K o (Ori (mkO 0)) = Ok z /\ o_eq K z o = true) /\
  (exists a b, o_add K o (Ori p) = Ok a /\ o_sub K a (Ori p) = Ok b /\ o_eq K b o = true) /\
  (exists a b, o_sub K o (Ori p) = Ok a /\ o_add K a (Ori p) = Ok b /\ o_eq K b o = true) /\
  (exists z, o_sub K o (Ori o) = Ok z /\ o_eq K z (mkO 0) = true).
Proof. exact group_laws. Qed.
Print Assumptions C32_group.
(** [==] is equality up to whole turns of the numbers the orientations were made
    from. *)
Theorem C32_equality : forall K, 0 < K -> forall o p, o_eq K o p = true <-> congruent (turn K) (raw o) (raw p).
Proof. exact eq_value. Qed.
Print Assumptions C32_equality.
Theorem C32_number_operand : forall K, 0 < K -> forall o x,
  (exists a b, o_add K o (Flo x) = Ok a /\ o_add K o (Ori (mkO x)) = Ok b /\ o_eq K a b = true) /\
  (exists a b, o_sub K o (Flo x) = Ok a /\ o_sub K o (Ori (mkO x)) = Ok b /\ o_eq K a b = true) /\
  (exists b, o_add K (mkO x) (Ori o) = Ok b /\ o_eq K (o_radd K x o) b = true) /\
  (exists b, o_sub K (mkO x) (Ori o) = Ok b /\ o_eq K (o_rsub K x o) b = true).
Proof. intros K _. exact (number_operand K). Qed.
Print Assumptions C32_number_operand.

(** Half a turn. *)
Theorem C32_opposite : forall K, 0 < K -> forall o,
  o_eq K (o_opposite K (o_opposite K o)) o = true /\ o_eq K (o_opposite K o) o = false /\
  exists h, to_orientation K 8 = Ok h /\ o_add K o (Ori h) = Ok (mkO (value K o + 8 * K)) /\
    o_eq K (mkO (value K o + 8 * K)) (o_opposite K o) = true.
Proof. exact opposite_laws. Qed.
Print Assumptions C32_opposite.

Theorem C32_roundtrip : forall K, 0 < K -> forall d, compass_point d -> exists o, to_orientation K d = Ok o /\
  value K o = d * K /\ to_direction K true o = Ok d /\
  ((exists q, d = 4 * q) -> to_direction K false o = Ok d) /\
  (forall p, to_orientation K d = Ok p -> p = o).
Proof. exact direction_roundtrip. Qed.
Print Assumptions C32_roundtrip.
(** The eight directions between have no orientation. *)
Theorem C32_to_orientation : forall K d, is_direction d ->
  (forall o, to_orientation K d = Ok o <-> (Z.Even d /\ o = mkO (d * K))) /\
  (~ Z.Even d -> to_orientation K d = Err KeyError).
Proof. exact to_orientation_spec. Qed.
Print Assumptions C32_to_orientation.

(** The nearest of 16 or 4 directions, ties to the even one. *)
Theorem C32_to_direction : forall K, 0 < K -> forall sixteen o d,
  to_direction K sixteen o = Ok d <->
  is_direction d /\ (if sixteen then nearest (value K o) K d else exists q, d = 4 * q /\ nearest (value K o) (4 * K) q).
Proof. exact to_direction_spec. Qed.
Print Assumptions C32_to_direction.
(** In the last half step before a full turn the conversion fails instead of
    giving north. *)
Theorem C32_to_direction_fails : forall K, 0 < K -> forall (sixteen : bool) o,
  (to_direction K sixteen o = Err ValueError <-> (if sixteen then 31 * K <= 2 * value K o else 14 * (2 * K) <= 2 * value K o)) /\
  ((exists d, to_direction K sixteen o = Ok d) <-> ~ (if sixteen then 31 * K <= 2 * value K o else 14 * (2 * K) <= 2 * value K o)).
Proof. exact to_direction_fails. Qed.
Print Assumptions C32_to_direction_fails.
(** Four-way, a diagonal is a tie: northeast goes north, southeast and southwest
    both go south, northwest fails. *)
Theorem C32_diagonals : forall K, 0 < K -> forall q, 0 <= q < 4 -> exists o, to_orientation K (4 * q + 2) = Ok o /\
  to_direction K false o = (if q =? 3 then Err ValueError else Ok (if Z.even q then 4 * q else 4 * q + 4)).
Proof. exact diagonal_tie. Qed.
Print Assumptions C32_diagonals.

Theorem C32_comparisons : forall K o p, 0 <= raw o < turn K -> 0 <= raw p < turn K ->
  o_le o p = (o_lt K o p || o_eq K o p) /\ o_ge o p = negb (o_lt K o p) /\ o_gt o p = o_lt K p o.
Proof. exact comparisons. Qed.
Print Assumptions C32_comparisons.
(** But a sum that passed a full turn is both less than and greater than another
    orientation, and equal to one it is not less than or equal to. *)
Theorem C32_order_refuted : forall K, 0 < K -> exists w s e a,
  to_orientation K 12 = Ok w /\ to_orientation K 8 = Ok s /\ to_orientation K 4 = Ok e /\
  o_add K w (Ori s) = Ok a /\
  o_lt K a s = true /\ o_gt a s = true /\ o_eq K a e = true /\ o_le a e = false.
Proof.
  intros K HK. do 4 eexists. do 3 (split; [reflexivity|]). split; [reflexivity|].
  assert (T : turn K = 16 * K) by reflexivity.
  assert (W : value K (mkO (12 * K)) = 12 * K) by (apply value_small; lia).
  assert (S : value K (mkO (8 * K)) = 8 * K) by (apply value_small; lia).
  assert (E : value K (mkO (4 * K)) = 4 * K) by (apply value_small; lia).
  rewrite W, S. assert (A : value K (mkO (12 * K + 8 * K)) = 4 * K).
  { rewrite value_mkO, T. symmetry. apply Z.mod_unique_pos with (q := 1); lia. }
  unfold o_lt, o_gt, o_eq, o_le. rewrite A, S, E. cbn [raw].
  repeat split; [apply Z.ltb_lt; lia|apply Z.ltb_lt; lia|apply Z.eqb_refl|apply Z.leb_gt; lia].
Qed.
Print Assumptions C32_order_refuted.

(** In thousandths of a sixteenth: 0.9 and its opposite 0.4. *)
Example C32_example : value 1000 (o_opposite 1000 (mkO 14400)) = 6400 /\ value 1000 (mkO (-4000)) = 12000 /\
  to_direction 1000 true (mkO 5333) = Ok 5 /\ to_direction 1000 false (mkO 5333) = Ok 4 /\
  to_direction 1000 true (mkO 15500) = Err ValueError /\ to_direction 1000 true (mkO 15499) = Ok 15.
Proof. repeat split. Qed.
