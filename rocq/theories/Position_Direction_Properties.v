(** Property theorems C54: assigning directions. *)
From Coq Require Import ZArith List Bool Lia.
From Verif Require Import Common Position_Model Position_Spec Position_Direction_Proofs.
Import ListNotations.
Local Open Scope Z_scope.

(** Assigning a direction succeeds exactly when validation is off or the value
    is one of the sixteen directions; otherwise it raises [DataFormatError]. *)
Theorem C54_accepted : forall H e v, directional e ->
  ((exists e', set_direction H e v = Ok e') <-> vm e = VNone \/ 0 <= v < 16) /\
  (forall x, set_direction H e v = Err x -> x = DataFormatError).
Proof. exact accepts. Qed.
Print Assumptions C54_accepted.

(** What is stored: the last quarter turn not after the value for a four-way
    object validated strictly, the value itself in all other cases.  Tile
    position, static size and everything else stay. *)
Theorem C54_stored_direction : forall H e v e', directional e -> set_direction H e v = Ok e' ->
  exists d, dir e' = Some d /\
    (kd e = Dir4 /\ vm e = VStrict -> quarter_before v d) /\ (~ (kd e = Dir4 /\ vm e = VStrict) -> d = v) /\
    kd e' = kd e /\ vm e' = vm e /\ flips e' = flips e /\ sw e' = sw e /\ sh e' = sh e /\
    tx e' = tx e /\ ty e' = ty e /\ held e' = held e /\ other e' = other e.
Proof. exact stored. Qed.
Print Assumptions C54_stored_direction.

(** The size of a four-way object fits the stored direction exactly when its
    static size is square or the value was not a diagonal after east or west
    that strict validation rounded. *)
Theorem C54_four_way_size : forall H e v e' d, kd e = Dir4 -> set_direction H e v = Ok e' -> dir e' = Some d ->
  (faces e' d <-> sw e = sh e \/ ~ (vm e = VStrict /\ (4 < v < 8 \/ 12 < v < 16))).
Proof. exact four_way_size. Qed.
Print Assumptions C54_four_way_size.

(** The size of an eight-way object facing north, east, south or west fits that
    direction exactly when its static size is square or it faces north or
    south. *)
Theorem C54_eight_way_size : forall H e v e', kd e = Dir8 -> set_direction H e v = Ok e' -> (exists k, v = 4 * k) ->
  (faces e' v <-> sw e = sh e \/ ~ sideways v).
Proof. exact eight_way_size. Qed.
Print Assumptions C54_eight_way_size.

(** An object sitting exactly on the grid still does so after turning. *)
Theorem C54_seated : forall H e v e', directional e -> sized e -> seated H e -> set_direction H e v = Ok e' ->
  seated H e' /\ sized e'.
Proof. exact set_seated. Qed.
Print Assumptions C54_seated.

(** Turning has no memory: after any sequence of assignments the object is what
    the last accepted one alone would have made of it, and untouched if none
    was accepted. *)
Theorem C54_last_counts : forall H vs e, directional e -> sized e -> seated H e ->
  run_pops H e (map PDir vs) = e /\ Forall (fun v => exists x, set_direction H e v = Err x) vs \/
  exists before v after e', vs = before ++ v :: after /\ Forall (fun v => exists x, set_direction H e v = Err x) after /\
    set_direction H e v = Ok e' /\ run_pops H e (map PDir vs) = e'.
Proof. exact last_counts. Qed.
Print Assumptions C54_last_counts.

Definition pump : ent := mkEnt Dir4 VStrict (Some 0) (Some true) 1 2 1 2 5 10 0 0 false 0.
Definition long_signal : ent := mkEnt Dir8 VStrict (Some 0) (Some true) 1 2 1 2 5 10 0 0 false 0.
Example pump_turned : seated 5 pump /\ sized pump /\
  run_pops 5 pump (map PDir [4; 99; 8; 12; 16]) = mkEnt Dir4 VStrict (Some 12) (Some true) 1 2 2 1 10 5 0 0 false 0.
Proof. repeat split. left. split; reflexivity. Qed.

(** So a strictly validated 1x2 object told to face 5 is stored as facing east
    with the size of one facing north, and a 1x2 eight-way object facing east
    keeps the size of one facing north. *)
Theorem C54_size_refuted :
  (exists H e v e' d, kd e = Dir4 /\ sized e /\ seated H e /\ set_direction H e v = Ok e' /\ dir e' = Some d /\ ~ faces e' d) /\
  (exists H e v e' d, kd e = Dir8 /\ sized e /\ seated H e /\ set_direction H e v = Ok e' /\ dir e' = Some d /\ ~ faces e' d).
Proof.
  split.
  - exists 5, pump, 5, (mkEnt Dir4 VStrict (Some 4) (Some true) 1 2 1 2 5 10 0 0 false 0), 4.
    split; [reflexivity|]. split; [left; split; reflexivity|]. split; [split; reflexivity|].
    split; [reflexivity|]. split; [reflexivity|]. intros [F _]. destruct F as [F _]; [left; reflexivity|]. discriminate F.
  - exists 5, long_signal, 4, (mkEnt Dir8 VStrict (Some 4) (Some true) 1 2 1 2 5 10 0 0 false 0), 4.
    split; [reflexivity|]. split; [left; split; reflexivity|]. split; [split; reflexivity|].
    split; [reflexivity|]. split; [reflexivity|]. intros [F _]. destruct F as [F _]; [left; reflexivity|]. discriminate F.
Qed.
Print Assumptions C54_size_refuted.
