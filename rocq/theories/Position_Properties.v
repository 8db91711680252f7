(** Property theorems C22: positions and tile positions. *)
From Coq Require Import ZArith List Bool Lia.
From Verif Require Import Common Position_Model Position_Spec Position_Proofs.
Import ListNotations.
Local Open Scope Z_scope.

(** After any sequence of assignments to the position, the tile position, their
    components and the direction, the tile position is the whole number nearest
    to position minus half the size (ties to even), and on the grid the
    position is exactly the tile position plus half the size. *)
Theorem C22_in_step : forall H, 0 < H -> forall ops e,
  Forall (proper H) ops -> kd e <> Grp -> sized e -> agree H e ->
  let e' := run_pops H e ops in
  agree H e' /\
  (on_grid H (w e') (px e') -> px e' = tx e' + w e' * H) /\
  (on_grid H (h e') (py e') -> py e' = ty e' + h e' * H).
Proof. exact after_run. Qed.
Print Assumptions C22_in_step.

(** Setting the position stores it exactly, whatever the state before, and
    changes nothing but position and tile position. *)
Theorem C22_set_position : forall H, 0 < H -> forall e v x y,
  kd e <> Grp -> held e = false -> arg_xy v x y ->
  exists e', set_position H e v = Ok e' /\ px e' = x /\ py e' = y /\ agree H e' /\
    (on_grid H (w e) x -> tx e' = x - w e * H) /\ (on_grid H (h e) y -> ty e' = y - h e * H) /\
    with_pos e' (px e) (py e) (tx e) (ty e) = e.
Proof. exact set_position_exact. Qed.
Print Assumptions C22_set_position.

Theorem C22_set_tile_position : forall H, 0 < H -> forall e v x y,
  kd e <> Grp -> arg_xy v x y -> whole H x -> whole H y ->
  exists e', set_tile_position H e v = Ok e' /\ tx e' = x /\ ty e' = y /\
    px e' = x + w e * H /\ py e' = y + h e * H /\ agree H e' /\
    with_pos e' (px e) (py e) (tx e) (ty e) = e.
Proof. exact set_tile_exact. Qed.
Print Assumptions C22_set_tile_position.

(** The tile coordinate is determined by position and size; an odd number of
    half tiles off the grid it is the even neighbour. *)
Theorem C22_tile_determined : forall H, 0 < H ->
  (forall s p t t', in_step H s p t -> in_step H s p t' -> t = t') /\
  (forall s k p, p = s * H + (2 * k + 1) * H ->
     in_step H s p ((if Z.even k then k else k + 1) * (2 * H))).
Proof. intros H HH. split; [exact (in_step_unique H HH)|exact (tie H HH)]. Qed.
Print Assumptions C22_tile_determined.

(** Not so for assignments by index ([position[0] = v], [position["x"] = v]),
    for fractional tile components, and for a fractional [Vector] given as tile
    position. *)
Definition unit_entity : ent := mkEnt Fixed VStrict None (Some true) 1 1 1 1 5 5 0 0 false 0.
Example unit_entity_ok : agree 5 unit_entity /\ sized unit_entity.
Proof. split; [split; exists 0; (split; [reflexivity|split; simpl; lia])|left; split; reflexivity]. Qed.
Theorem C22_other_assignments_refuted : exists e, agree 5 e /\ sized e /\ kd e <> Grp /\
  ~ agree 5 (run_pops 5 e [PItem false 105]) /\
  ~ agree 5 (run_pops 5 e [PTX 17]) /\
  ~ agree 5 (run_pops 5 e [PTileSet (PVector 4 0)]).
Proof.
  exists unit_entity. split; [exact (proj1 unit_entity_ok)|]. split; [exact (proj2 unit_entity_ok)|].
  split; [discriminate|].
  repeat split; intros [[k [E [A _]]] _].
  all: match goal with H : context [run_pops 5 unit_entity ?o] |- _ =>
         let r := eval vm_compute in (run_pops 5 unit_entity o) in
         change (run_pops 5 unit_entity o) with r in * end.
  all: cbn [px tx w] in E, A; lia.
Qed.
Print Assumptions C22_other_assignments_refuted.

(** A 3 by 2 machine (unit: tenth of a tile) put at (4.5, 7), turned east, and
    pushed off the grid by half a tile. *)
Example C22_ex :
  let e := mkEnt Dir4 VStrict (Some 0) (Some true) 3 2 3 2 0 0 0 0 false 7 in
  let e1 := run_pops 5 e [PSet (PTuple 45 70)] in
  let e2 := run_pops 5 e1 [PDir 4] in
  let e3 := run_pops 5 e2 [PX 45] in
  (tx e1, ty e1) = (30, 60) /\ (px e2, py e2, tx e2, ty e2, w e2, h e2) = (40, 75, 30, 60, 2, 3) /\
  (px e3, tx e3) = (45, 40).
Proof. repeat split. Qed.
