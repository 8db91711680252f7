(** Where searching trains goes wrong: witnesses; and an example. *)
From Coq Require Import String ZArith List Bool Lia Reals Lra Relations.
From Verif Require Import Common Dict Compass_Model Compass_Spec Schedule_Model Schedule_Spec Train_Model Train_Spec
  Rake_Model Rake_Spec Rake_Proofs Rake_Witness_Proofs Rake_Filter_Spec Rake_Filter_Proofs.
Import ListNotations.
Local Open Scope string_scope.
Local Open Scope list_scope.
Local Open Scope Z_scope.

Definition alone (_ : nat) : list nat := [].
Definition nothing : query := mkQuery None None NoStation [] [] None None.
Definition wagons_only (_ : nat) : pystr := str "cargo-wagon".
Definition one_car (o : Z) (_ : nat) : entity := mkEntity (mkCar 0 false (mkO o)) (0, 0)%R.

Lemma no_driver : exists K at_ near kind name stops schedules ws q ss, 0 < K /\ q = mkQuery None None NoStation [] [] None (Some ss) /\
  find_trains_filtered K at_ near kind name stops schedules 2 ws q false None = Err UnboundLocalError.
Proof.
  exists 1, (one_car 0), alone, wagons_only, wagons_only, [], [mkSchedule [] []], [0%nat]. eexists. exists [].
  split; [lia|]. split; [reflexivity|]. reflexivity.
Qed.
Lemma full_turn : exists K at_ near kind name stops schedules w o, 0 < K /\ value K (car_orient (e_car (at_ w))) = value K o /\
  find_trains_filtered K at_ near kind name stops schedules 2 [w] (mkQuery None (Some o) NoStation [] [] None None) false None = Ok [].
Proof.
  exists 1, (one_car 16), alone, wagons_only, wagons_only, [], [], 0%nat, (mkO 0). split; [lia|]. split; reflexivity.
Qed.
Lemma last_eighth : exists K at_ near kind name stops schedules w, 0 < K /\
  find_trains_filtered K at_ near kind name stops schedules 2 [w] (mkQuery None None AnyStation [] [] None None) false None = Err ValueError.
Proof. exists 1, (one_car 15), alone, wagons_only, wagons_only, [], [], 0%nat. split; [lia|]. reflexivity. Qed.
Lemma empty_set : exists K at_ near kind name schedules w, 0 < K /\
  find_trains_filtered K at_ near kind name [] schedules 2 [w] (mkQuery None None (Stations []) [] [] None None) false None = Ok [[w]].
Proof. exists 1, (one_car 0), alone, wagons_only, wagons_only, [], 0%nat. split; [lia|]. reflexivity. Qed.
Lemma overlap : exists K at_ near kind name stops schedules w n t, 0 < K /\ w <> n /\
  (forall a b, In a [w; n] -> (In b (near a) <-> In b [w; n] /\ far (place at_ a) (place at_ b) <= 15 / 2)%R) /\
  find_trains_filtered K at_ near kind name stops schedules 3 [n; w] nothing false None = Ok [[n]; t] /\ In n t /\ In w t.
Proof.
  assert (CL : forall w, In w [0; 1]%nat -> incl (both w) [0; 1]%nat) by (intros w _; apply incl_refl).
  destruct (deep_enough 2 ltac:(lia) (two 1 15) both [0; 1]%nat 3 0 CL) as [t T]; [left; reflexivity|cbn; lia|].
  exists 2, (two 1 15), both, wagons_only, wagons_only, [], [], 0%nat, 1%nat, t. split; [lia|]. split; [discriminate|].
  assert (N : In 1%nat t).
  { apply (members 2 ltac:(lia) (two 1 15) both 3 0 t T). apply rt_step. split; [right; left; reflexivity|]. split.
    + right. unfold close_to. cbn. lia.
    + left. apply one_way_touch. }
  split; [|split; [|split; [exact N|]]].
  - intros a b A. unfold both. split; [|tauto]. intros B. split; [exact B|]. apply two_near; assumption.
  - unfold find_trains_filtered. assert (F : find_train_from_wagon 2 (two 1 15) both 3 1 = Ok [1%nat]) by reflexivity.
    cbn [collect mem existsb]. rewrite F. cbn [bind app]. change (mem 0 [1%nat]) with false. cbv iota. rewrite T. reflexivity.
  - apply (members 2 ltac:(lia) (two 1 15) both 3 0 t T). apply rt_refl.
Qed.

(** A locomotive at a stop heading east, and a wagon elsewhere. *)
Definition yard (i : nat) : entity := if Nat.eqb i 0 then mkEntity (mkCar 1 true (mkO 4)) (0, 0)%R else mkEntity (mkCar 0 false (mkO 0)) (100, 0)%R.
Definition yard_kind (i : nat) : pystr := if Nat.eqb i 0 then str "locomotive" else str "cargo-wagon".
Definition yard_stops : list stop_ent := [mkStopEnt (3, 1)%R 4 (Some (str "B")); mkStopEnt (3, 2)%R 4 (Some (str "A")); mkStopEnt (3, 2)%R 4 (Some (str "C"))].
Definition at_stop (x : string) : query := mkQuery None None (Stations [str x]) [] [] None None.
Lemma at_work : forall invert x, In x ["A"; "C"] ->
  find_trains_filtered 1 yard alone yard_kind yard_kind yard_stops [] 2 [1; 0]%nat (at_stop x) invert None =
    Ok (if invert then (if String.eqb x "A" then [[1]] else [[1]; [0]])%nat else (if String.eqb x "A" then [[0]] else [])%nat).
Proof.
  intros invert x X.
  assert (A0 : train_at_station 1 yard yard_stops [0%nat] = Ok (Some (Some (str "A")))).
  { unfold train_at_station, looks_for_stop. change (to_direction 1 false (car_orient (e_car (yard 0)))) with (Ok 4). cbn [bind].
    change (next true 4) with (Ok 8). cbn [bind]. unfold to_vector. cbn [unit_vector Z.modulo bind fst snd].
    unfold yard_stops, shift. cbn [find_stop t_pos t_dir t_station fst snd yard Nat.eqb e_pos]. unfold req.
    repeat match goal with |- context [Req_EM_T ?a ?b] => destruct (Req_EM_T a b) as [?|?]; [try (exfalso; lra)|try (exfalso; lra)] end; reflexivity. }
  assert (A1 : train_at_station 1 yard yard_stops [1%nat] = Ok None).
  { unfold train_at_station, looks_for_stop. change (to_direction 1 false (car_orient (e_car (yard 1)))) with (Ok 0). cbn [bind].
    change (next true 0) with (Ok 4). cbn [bind]. unfold to_vector. cbn [unit_vector Z.modulo bind fst snd].
    unfold yard_stops, shift. cbn [find_stop t_pos t_dir t_station fst snd yard Nat.eqb e_pos].
    rewrite !andb_false_r. reflexivity. }
  unfold find_trains_filtered. change (collect 1 yard alone 2 [1; 0]%nat []) with (Ok [[1]; [0]]%nat). cbn [bind filter_result].
  unfold test. cbn [at_stop q_length q_station negb]. rewrite A0, A1. cbn [bind].
  destruct X as [<-|[<-|[]]]; destruct invert; reflexivity.
Qed.
