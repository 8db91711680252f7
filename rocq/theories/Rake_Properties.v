(** C55, C56: which cars make up a train, and in which order they are found. *)
From Coq Require Import ZArith List Bool Lia Reals Lra Relations.
From Verif Require Import Common Dict Compass_Model Compass_Spec Schedule_Model Schedule_Spec Train_Model Train_Spec
  Rake_Model Rake_Spec Rake_Proofs Rake_Order_Proofs Rake_Place_Proofs Rake_Witness_Proofs.
Import ListNotations.
Local Open Scope Z_scope.

(** ** C55 *)
(** The train found from a car consists of exactly the cars connected to it. *)
Theorem C55_members : forall K, 0 < K -> forall at_ near limit w t,
  find_train_from_wagon K at_ near limit w = Ok t ->
  forall n, In n t <-> connected K at_ near w n.
Proof. exact members. Qed.
Print Assumptions C55_members.

(** No car is listed twice unless both bogies of a car touch the same one. *)
Theorem C55_once : forall K, 0 < K -> forall at_ near,
  (forall w n, In n (near w) -> aligned K at_ w n -> ~ straddles K at_ w n) ->
  forall limit w t, find_train_from_wagon K at_ near limit w = Ok t -> NoDup t.
Proof. exact once. Qed.
Print Assumptions C55_once.

(** The search ends: the recursion is never deeper than there is rolling stock. *)
Theorem C55_deep_enough : forall K, 0 < K -> forall at_ near ws limit w,
  (forall w, In w ws -> incl (near w) ws) -> In w ws -> (length ws <= limit)%nat ->
  exists t, find_train_from_wagon K at_ near limit w = Ok t.
Proof. exact deep_enough. Qed.
Print Assumptions C55_deep_enough.

(** Rolling stock more than 7.1 tiles away is not coupled, so looking 7.5 tiles
    around is enough. *)
Theorem C55_reach : forall K at_ near w n,
  (71 / 10 < far (place at_ w) (place at_ n))%R -> ~ coupled K at_ near w n.
Proof. exact far_apart. Qed.
Print Assumptions C55_reach.

(** Cars in line are found in order, seen the way the car started from points;
    turned over if no locomotive points that way. *)
Theorem C55_in_order : forall K, 0 < K -> forall at_ near fwd cs w limit,
  lined_up K at_ near fwd cs -> In w cs -> (length cs <= limit)%nat ->
  find_train_from_wagon K at_ near limit w =
    Ok (if Bool.eqb (fwd w) (existsb (fun c => car_loco (e_car (at_ c)) && Bool.eqb (fwd c) (fwd w)) cs) then cs else rev cs).
Proof. exact in_order. Qed.
Print Assumptions C55_in_order.

(** A car standing beside another one is listed twice. *)
Theorem C55_twice_refuted : exists K at_ near w n t, 0 < K /\
  (forall a b, In a [w; n] -> (In b (near a) <-> In b [w; n] /\ far (place at_ a) (place at_ b) <= 15 / 2)%R) /\
  find_train_from_wagon K at_ near 3 w = Ok t /\ count_occ Nat.eq_dec t n = 2%nat.
Proof. exact twice. Qed.
Print Assumptions C55_twice_refuted.

(** Two cars three tiles apart, less than an eighth of a turn from each other but
    on both sides of north, are not found to be coupled. *)
Theorem C55_across_north_refuted : exists K at_ near w n, 0 < K /\
  (forall a b, In a [w; n] -> (In b (near a) <-> In b [w; n] /\ far (place at_ a) (place at_ b) <= 15 / 2)%R) /\
  touches K at_ w true n /\ (exists z, Z.abs z < 2 * K /\ angle K at_ n = (angle K at_ w + z) mod (16 * K)) /\
  find_train_from_wagon K at_ near 3 w = Ok [w] /\ find_train_from_wagon K at_ near 3 n = Ok [n].
Proof. exact wrap. Qed.
Print Assumptions C55_across_north_refuted.

(** Being in the same train is not mutual. *)
Theorem C55_mutual_refuted : exists K at_ near w n t, 0 < K /\
  (forall a b, In a [w; n] -> (In b (near a) <-> In b [w; n] /\ far (place at_ a) (place at_ b) <= 15 / 2)%R) /\
  find_train_from_wagon K at_ near 3 w = Ok t /\ In n t /\ find_train_from_wagon K at_ near 3 n = Ok [n].
Proof. exact one_way. Qed.
Print Assumptions C55_mutual_refuted.

(** ** C56 *)
(** A train placed on a compass point is found again from any of its cars,
    complete and in order. *)
Theorem C56_at_position : forall K c cars pos d s c' at_ near limit k x, 0 < K -> compass_point d -> sound c ->
  (forall s', s = Some s' -> forall i, In i (targets (s_locos s')) -> (i < fresh c)%nat) ->
  Forall (straight K) cars -> add_train_at_position K c cars pos d s = (c', None) ->
  let ids := seq (fresh c) (length cars) in
  surroundings K at_ near c' ids -> (length cars <= limit)%nat -> nth_error cars k = Some x ->
  find_train_from_wagon K at_ near limit (fresh c + k) =
    Ok (if Bool.eqb (faces K x) (existsb (fun y => car_loco y && Bool.eqb (faces K y) (faces K x)) cars) then ids else rev ids).
Proof. exact found_at_position. Qed.
Print Assumptions C56_at_position.

Theorem C56_at_station : forall K c cars spos d s c' at_ near limit k x, 0 < K -> compass_point d -> sound c ->
  (forall s', s = Some s' -> forall i, In i (targets (s_locos s')) -> (i < fresh c)%nat) ->
  Forall (straight K) cars -> add_train_at_station K c cars true spos d s = (c', None) ->
  let ids := seq (fresh c) (length cars) in
  surroundings K at_ near c' ids -> (length cars <= limit)%nat -> nth_error cars k = Some x ->
  find_train_from_wagon K at_ near limit (fresh c + k) =
    Ok (if Bool.eqb (faces K x) (existsb (fun y => car_loco y && Bool.eqb (faces K y) (faces K x)) cars) then ids else rev ids).
Proof. exact found_at_station. Qed.
Print Assumptions C56_at_station.

(** Without a locomotive the first car listed is the last one in the direction
    the car started from points. *)
Theorem C56_first_car_refuted : exists K c' at_ near, 0 < K /\
  add_train_at_position K (mkColl [] 0 []) [wagon; wagon] (0, 0)%R 0 None = (c', None) /\
  surroundings K at_ near c' [0; 1]%nat /\ Forall (straight K) [wagon; wagon] /\
  find_train_from_wagon K at_ near 2 0 = Ok [1; 0]%nat /\ find_train_from_wagon K at_ near 2 1 = Ok [1; 0]%nat.
Proof. exact unpowered. Qed.
Print Assumptions C56_first_car_refuted.

(** A locomotive, a wagon and a locomotive facing backwards. *)
Example C56_ex : exists c' at_ near,
  add_train_at_position 1 (mkColl [] 0 []) [engine; wagon; rear_engine] (5, 0)%R 4 None = (c', None) /\
  surroundings 1 at_ near c' [0; 1; 2]%nat /\ Forall (straight 1) [engine; wagon; rear_engine] /\
  find_train_from_wagon 1 at_ near 3 0 = Ok [0; 1; 2]%nat /\ find_train_from_wagon 1 at_ near 3 1 = Ok [0; 1; 2]%nat /\
  find_train_from_wagon 1 at_ near 3 2 = Ok [2; 1; 0]%nat.
Proof. exact shuttle. Qed.
