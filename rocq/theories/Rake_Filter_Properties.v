(** C57: searching trains.  C58: giving trains a schedule and removing them. *)
From Coq Require Import String ZArith List Bool Lia Reals Relations Permutation.
From Verif Require Import Common Dict Compass_Model Compass_Spec Schedule_Model Schedule_Spec Train_Model Train_Spec
  Rake_Model Rake_Spec Rake_Witness_Proofs Rake_Filter_Spec Rake_Filter_Proofs Rake_Filter_Witness_Proofs Rake_Edit_Spec Rake_Edit_Proofs.
Import ListNotations.
Local Open Scope string_scope.
Local Open Scope list_scope.
Local Open Scope Z_scope.

(** ** C57 *)
(** The trains considered: each car is in one of them, each is the whole train
    of one of the cars. *)
Theorem C57_all_trains : forall K, 0 < K -> forall at_ near limit ws ts, collect K at_ near limit ws [] = Ok ts ->
  (forall w, In w ws -> exists t, In t ts /\ In w t) /\
  (forall t, In t ts -> exists w, In w ws /\ In w t /\ find_train_from_wagon K at_ near limit w = Ok t /\
     forall n, In n t <-> connected K at_ near w n).
Proof. exact all_trains. Qed.
Print Assumptions C57_all_trains.

(** If coupling is mutual, no car is in two of them. *)
Theorem C57_partition : forall K, 0 < K -> forall at_ near limit ws ts, collect K at_ near limit ws [] = Ok ts ->
  (forall a b, coupled K at_ near a b -> connected K at_ near b a) ->
  forall i j t u n, nth_error ts i = Some t -> nth_error ts j = Some u -> In n t -> In n u -> i = j.
Proof. exact partition. Qed.
Print Assumptions C57_partition.

Theorem C57_deep_enough : forall K, 0 < K -> forall at_ near limit ws,
  (forall w, In w ws -> incl (near w) ws) -> (List.length ws <= limit)%nat -> exists ts, collect K at_ near limit ws [] = Ok ts.
Proof. exact search_deep. Qed.
Print Assumptions C57_deep_enough.

(** The result: in order, the trains that meet (or, inverted, do not meet) every
    condition given, cut to the limit; an error exactly when some train makes the
    search fail, and then the first one's. *)
Theorem C57_result : forall K, 0 < K -> forall at_ kind name stops schedules near limit ws q (invert : bool) max ts,
  collect K at_ near limit ws [] = Ok ts ->
  match find_trains_filtered K at_ near kind name stops schedules limit ws q invert max with
  | Ok r => (forall t, In t ts -> ~ faceless K at_ q t /\ ~ driverless K at_ kind name stops schedules q t) /\
            exists kept, selects (fun t => if invert then ~ matching K at_ kind name stops schedules q t
                                           else matching K at_ kind name stops schedules q t) ts kept /\ truncated max kept r
  | Err e => exists pre t post, ts = pre ++ t :: post /\
      (forall x, In x pre -> ~ faceless K at_ q x /\ ~ driverless K at_ kind name stops schedules q x) /\
      ((e = ValueError /\ faceless K at_ q t) \/ (e = UnboundLocalError /\ driverless K at_ kind name stops schedules q t))
  end.
Proof. exact search_spec. Qed.
Print Assumptions C57_result.

Theorem C57_too_deep : forall K at_ kind name stops schedules near limit ws q invert max,
  (forall ts, collect K at_ near limit ws [] <> Ok ts) ->
  find_trains_filtered K at_ near kind name stops schedules limit ws q invert max = Err RecursionError.
Proof. exact search_fails. Qed.
Print Assumptions C57_too_deep.

(** A single wagon anywhere makes a search by schedule fail. *)
Theorem C57_driverless_refuted : exists K at_ near kind name stops schedules ws q ss, 0 < K /\ q = mkQuery None None NoStation [] [] None (Some ss) /\
  find_trains_filtered K at_ near kind name stops schedules 2 ws q false None = Err UnboundLocalError.
Proof. exact no_driver. Qed.
Print Assumptions C57_driverless_refuted.

(** A head turned by more than seven eighths makes a search by station fail. *)
Theorem C57_faceless_refuted : exists K at_ near kind name stops schedules w, 0 < K /\
  find_trains_filtered K at_ near kind name stops schedules 2 [w] (mkQuery None None AnyStation [] [] None None) false None = Err ValueError.
Proof. exact last_eighth. Qed.
Print Assumptions C57_faceless_refuted.

(** Orientations a full turn apart are the same and yet are told apart. *)
Theorem C57_orientation_refuted : exists K at_ near kind name stops schedules w o, 0 < K /\ value K (car_orient (e_car (at_ w))) = value K o /\
  find_trains_filtered K at_ near kind name stops schedules 2 [w] (mkQuery None (Some o) NoStation [] [] None None) false None = Ok [].
Proof. exact full_turn. Qed.
Print Assumptions C57_orientation_refuted.

(** "At one of no stations" finds trains at no station. *)
Theorem C57_no_names_refuted : exists K at_ near kind name schedules w, 0 < K /\
  find_trains_filtered K at_ near kind name [] schedules 2 [w] (mkQuery None None (Stations []) [] [] None None) false None = Ok [[w]].
Proof. exact empty_set. Qed.
Print Assumptions C57_no_names_refuted.

(** Without mutual coupling a car is reported in two trains. *)
Theorem C57_overlap_refuted : exists K at_ near kind name stops schedules w n t, 0 < K /\ w <> n /\
  (forall a b, In a [w; n] -> (In b (near a) <-> In b [w; n] /\ far (place at_ a) (place at_ b) <= 15 / 2)%R) /\
  find_trains_filtered K at_ near kind name stops schedules 3 [n; w] nothing false None = Ok [[n]; t] /\ In n t /\ In w t.
Proof. exact overlap. Qed.
Print Assumptions C57_overlap_refuted.

(** A locomotive at the second of three stops, which hides the third. *)
Example C57_ex : forall invert x, In x ["A"; "C"] ->
  find_trains_filtered 1 yard alone yard_kind yard_kind yard_stops [] 2 [1; 0]%nat (at_stop x) invert None =
    Ok (if invert then (if String.eqb x "A" then [[1]] else [[1]; [0]])%nat else (if String.eqb x "A" then [[0]] else [])%nat).
Proof. exact at_work. Qed.

(** ** C58 *)
(** Every locomotive of every train touched leaves its schedules and, if there is
    a new one, joins the last with the same stops; nothing else changes. *)
Theorem C58_set : forall K, 0 < K -> forall at_ near kind schedules order, (forall l, Permutation (order l) l) ->
  forall limit cars s ss', set_train_schedule K at_ near kind schedules order limit cars s = Ok ss' ->
  Forall (fun x => NoDup (targets (s_locos x))) schedules ->
  exists ws, Forall2 (stripped (touched_engine K at_ near kind cars)) schedules ws /\
    match s with None => ss' = ws | Some s => given (touched_engine K at_ near kind cars) s ws ss' end.
Proof. exact set_spec. Qed.
Print Assumptions C58_set.

(** Who is in which schedule afterwards. *)
Theorem C58_members : forall K, 0 < K -> forall at_ near kind schedules order, (forall l, Permutation (order l) l) ->
  forall limit cars s ss', set_train_schedule K at_ near kind schedules order limit cars (Some s) = Ok ss' ->
  Forall (fun x => NoDup (targets (s_locos x))) schedules ->
  exists k z, nth_error ss' k = Some z /\ s_stops z = s_stops s /\
    (List.length schedules <= List.length ss')%nat /\
    (forall j y, (j < List.length schedules)%nat -> nth_error ss' j = Some y -> exists x, nth_error schedules j = Some x /\ s_stops y = s_stops x) /\
    forall j y i, nth_error ss' j = Some y ->
      (In i (targets (s_locos y)) <-> (touched_engine K at_ near kind cars i /\ j = k) \/
         (~ touched_engine K at_ near kind cars i /\ exists x, nth_error schedules j = Some x /\ In i (targets (s_locos x))) \/
         (j = List.length schedules /\ In i (targets (s_locos s)))).
Proof. exact set_members. Qed.
Print Assumptions C58_members.

(** A train given a schedule is found by it. *)
Theorem C58_found : forall K, 0 < K -> forall at_ near kind schedules order, (forall l, Permutation (order l) l) ->
  forall limit cars s ss' c t l q, set_train_schedule K at_ near kind schedules order limit cars (Some s) = Ok ss' ->
  Forall (fun x => NoDup (targets (s_locos x))) schedules ->
  In c cars -> find_train_from_wagon K at_ near limit c = Ok t -> In l t -> kind l = str "locomotive" -> q_schedule q = Some (s_stops s) ->
  scheduled kind ss' q t.
Proof. exact set_found. Qed.
Print Assumptions C58_found.

Theorem C58_set_total : forall K at_ near kind schedules order limit cars s,
  (forall c, In c cars -> exists t, find_train_from_wagon K at_ near limit c = Ok t) ->
  exists ss', set_train_schedule K at_ near kind schedules order limit cars s = Ok ss'.
Proof. exact set_total. Qed.
Print Assumptions C58_set_total.

(** A locomotive listed twice stays in the schedule. *)
Theorem C58_cleared_refuted : exists K at_ near kind schedules order limit cars i x, 0 < K /\ (forall l, Permutation (order l) l) /\
  touched_engine K at_ near kind cars i /\
  set_train_schedule K at_ near kind schedules order limit cars None = Ok [x] /\ In i (targets (s_locos x)).
Proof.
  exists 1, yard, alone, yard_kind, [mkSchedule [] [LRef (Some 0%nat); LRef (Some 0%nat)]], (fun l => l), 2%nat, [0%nat], 0%nat, (mkSchedule [] [LRef (Some 0%nat)]).
  split; [lia|]. split; [reflexivity|]. split; [split; [reflexivity|]; exists 0%nat; split; [left; reflexivity|apply rt_refl]|]. split; [reflexivity|left; reflexivity].
Qed.
Print Assumptions C58_cleared_refuted.

(** Removal, when no member equals one of the cars without being it: it succeeds
    exactly for distinct members, and removes those and their associations; on
    failure the cars before the offending one are gone, the schedules are as they were. *)
Theorem C58_remove : forall kind veq ents schedules cars, NoDup ents ->
  (forall x c, In x ents -> In c cars -> veq x c = true -> x = c) ->
  Forall (fun x => NoDup (targets (s_locos x))) schedules ->
  match remove_train kind veq ents schedules cars with
  | (e, ss, None) => NoDup cars /\ incl cars ents /\ selects (fun x => ~ In x cars) ents e /\
                     Forall2 (stripped (fun i => In i cars /\ kind i = str "locomotive")) schedules ss
  | (e, ss, Some x) => x = ValueError /\ ss = schedules /\ exists pre c post, cars = pre ++ c :: post /\ NoDup pre /\ incl pre ents /\
                     (In c pre \/ ~ In c ents) /\ selects (fun x => ~ In x pre) ents e
  end.
Proof. exact Rake_Edit_Proofs.remove_spec. Qed.
Print Assumptions C58_remove.

(** The first equal entity goes instead of the one given. *)
Theorem C58_remove_equal_refuted : exists kind veq ents cars e, NoDup ents /\ incl cars ents /\ NoDup cars /\
  (forall x, veq x x = true) /\ (forall x y, veq x y = veq y x) /\
  remove_train kind veq ents [] cars = (e, [], None) /\ exists c, In c cars /\ In c e.
Proof.
  exists wagons_only, (fun _ _ => true), [0; 1]%nat, [1]%nat, [1]%nat.
  split; [repeat constructor; cbn; intuition discriminate|]. split; [intros x [<-|[]]; right; left; reflexivity|]. split; [repeat constructor; intros []|].
  split; [reflexivity|]. split; [reflexivity|]. split; [reflexivity|]. exists 1%nat. split; left; reflexivity.
Qed.
Print Assumptions C58_remove_equal_refuted.

(** A failing removal leaves a schedule with a locomotive that is gone. *)
Theorem C58_atomic_refuted : exists kind veq ents schedules cars e x i, 
  remove_train kind veq ents schedules cars = (e, schedules, Some x) /\ In i ents /\ ~ In i e /\ In i (targets (flat_map s_locos schedules)).
Proof.
  exists yard_kind, Nat.eqb, [0%nat], [mkSchedule [] [LRef (Some 0%nat)]], [0; 1]%nat, [], ValueError, 0%nat.
  split; [reflexivity|]. split; [left; reflexivity|]. split; [intros []|left; reflexivity].
Qed.
Print Assumptions C58_atomic_refuted.

(** One locomotive moves from its schedule to the last with the given stops. *)
Example C58_ex :
  let a := [mkStop (str "A") []] in let b := [mkStop (str "B") []] in
  set_train_schedule 1 yard alone yard_kind
    [mkSchedule a [LNum 7; LRef (Some 0%nat); LRef (Some 5%nat)]; mkSchedule b []; mkSchedule b [LRef (Some 6%nat)]] (fun l => l) 2 [1; 0]%nat (Some (mkSchedule b [LRef (Some 9%nat)]))
  = Ok [mkSchedule a [LNum 7; LRef (Some 5%nat)]; mkSchedule b []; mkSchedule b [LRef (Some 6%nat); LRef (Some 0%nat)]] /\
  remove_train yard_kind Nat.eqb [0; 1; 2]%nat [mkSchedule a [LRef (Some 2%nat); LRef (Some 0%nat)]] [1; 0]%nat
  = ([2%nat], [mkSchedule a [LRef (Some 2%nat)]], None).
Proof. split; reflexivity. Qed.
