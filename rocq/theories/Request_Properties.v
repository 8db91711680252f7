(** Property theorems C37: item requests. *)
From Coq Require Import ZArith String List Bool Lia.
From Verif Require Import Common Dict Planner_Model Slots_Model Slots_Spec Request_Model Request_Spec Request_Proofs.
Import ListNotations.
Local Open Scope string_scope.
Local Open Scope list_scope.
Local Open Scope Z_scope.

(** The first request of an item and quality: exactly that amount in exactly
    that slot and nothing anywhere else. *)
Theorem C37_first_request : forall strict st item c q inv slot, c <> 0 -> ~ mentions_quality st item q -> all_valid st ->
  let s0 := match slot with Some s => s | None => Z.of_nat (List.length st) end in
  new_valid c q inv s0 ->
  exists st', set_item_request strict st item (Some c) q inv slot = (st', Ok tt) /\ all_valid st' /\
    (forall i s, requested st' item q i s = if place_is i s inv s0 then c else 0).
Proof. exact first_spec. Qed.
Print Assumptions C37_first_request.
(** A later request adds to what is requested there, unless a stored inventory
    number happens to equal the argument. *)
Theorem C37_later_request_adds : forall strict st item c q inv slot, c <> 0 -> mentions_quality st item q -> all_valid st -> has_slots st ->
  ~ stored_at st item q inv slot -> new_valid c q inv slot ->
  exists st', set_item_request strict st item (Some c) q inv (Some slot) = (st', Ok tt) /\ all_valid st' /\ has_slots st' /\
    (forall i s, requested st' item q i s = requested st item q i s + if place_is i s inv slot then c else 0).
Proof. exact again_spec. Qed.
Print Assumptions C37_later_request_adds.
(** Every history of requests into the first inventory: amounts accumulate until
    zero of the item is asked for. *)
Theorem C37_history : forall strict cs st, from_one st -> all_valid st -> Forall proper cs ->
  Forall (fun r => r = Ok tt) (snd (run_all (do_call strict) st cs)) /\
  from_one (fst (run_all (do_call strict) st cs)) /\ all_valid (fst (run_all (do_call strict) st cs)) /\
  forall n q s, requested (fst (run_all (do_call strict) st cs)) n q 0 s = fold_left (accumulated n q s) cs (requested st n q 0 s).
Proof. exact history. Qed.
Print Assumptions C37_history.
(** Zero (or no amount) removes every request of the item and nothing else. *)
Theorem C37_zero_removes : forall strict st item count q inv slot, count = None \/ count = Some 0 -> all_valid st ->
  set_item_request strict st item count q inv slot = (other_items item st, Ok tt) /\ ~ mentions (other_items item st) item.
Proof. exact zero_spec. Qed.
Print Assumptions C37_zero_removes.
(** No call ever changes the requests of other items, whatever its outcome; a
    positive amount does not change those of other qualities either. *)
Theorem C37_other_items : forall strict st item count q inv slot,
  other_items item (fst (set_item_request strict st item count q inv slot)) = other_items item st.
Proof. exact others_items. Qed.
Print Assumptions C37_other_items.
Theorem C37_other_qualities : forall strict st item c q inv slot, c <> 0 ->
  other_requests item q (fst (set_item_request strict st item (Some c) q inv slot)) = other_requests item q st.
Proof. exact others_requests. Qed.
Print Assumptions C37_other_qualities.
(** A call that raises changes nothing. *)
Theorem C37_failure_no_effect : forall strict st item count q inv slot e,
  snd (set_item_request strict st item count q inv slot) = Err e -> fst (set_item_request strict st item count q inv slot) = st.
Proof. exact failure_no_effect. Qed.
Print Assumptions C37_failure_no_effect.

Definition speed := str "speed-module".
Definition beacon := str "productivity-module".
Definition normal := str "normal".
(** Refuted: asking again for the same slot replaces the amount.  It adds a second
    entry for the slot. *)
Theorem C37_replaces_refuted : exists st st', all_valid st /\ requested st speed normal 0 0 = 5 /\
  set_item_request true st speed (Some 3) normal 0 (Some 0) = (st', Ok tt) /\ requested st' speed normal 0 0 = 8.
Proof.
  exists (fst (set_item_request true [] speed (Some 5) normal 0 (Some 0))).
  exists (fst (set_item_request true (fst (set_item_request true [] speed (Some 5) normal 0 (Some 0))) speed (Some 3) normal 0 (Some 0))).
  split; [repeat constructor|]. split; [vm_compute; reflexivity|]. split; vm_compute; reflexivity.
Qed.
Print Assumptions C37_replaces_refuted.
(** Refuted: a request goes into the inventory named.  A request for the second
    inventory overwrites that of the first and the second gets nothing. *)
Theorem C37_inventory_refuted : exists st st', all_valid st /\ requested st speed normal 0 2 = 5 /\ requested st speed normal 1 2 = 0 /\
  set_item_request true st speed (Some 3) normal 1 (Some 2) = (st', Ok tt) /\
  requested st' speed normal 1 2 = 0 /\ requested st' speed normal 0 2 = 3.
Proof.
  exists (fst (set_item_request true [] speed (Some 5) normal 0 (Some 2))).
  exists (fst (set_item_request true (fst (set_item_request true [] speed (Some 5) normal 0 (Some 2))) speed (Some 3) normal 1 (Some 2))).
  split; [repeat constructor|]. repeat split; vm_compute; reflexivity.
Qed.
Print Assumptions C37_inventory_refuted.
(** Refuted: asking for zero of one quality in one slot leaves the other
    qualities and slots of the item. *)
Theorem C37_zero_only_there_refuted : exists st, all_valid st /\ requested st speed (str "epic") 0 1 = 7 /\
  requested (fst (set_item_request true st speed (Some 0) normal 0 (Some 0))) speed (str "epic") 0 1 = 0.
Proof.
  exists (fst (set_item_request true [] speed (Some 7) (str "epic") 0 (Some 1))).
  split; [repeat constructor|]. split; vm_compute; reflexivity.
Qed.
Print Assumptions C37_zero_only_there_refuted.
(** Refuted: an omitted slot means the next open one.  It is the number of
    requests, which may be taken; and for an item already requested it raises. *)
Theorem C37_next_open_slot_refuted : exists st st', all_valid st /\ requested st speed normal 0 1 = 1 /\
  set_item_request true st beacon (Some 1) normal 0 None = (st', Ok tt) /\
  requested st' speed normal 0 1 = 1 /\ requested st' beacon normal 0 1 = 1 /\
  set_item_request true st speed (Some 1) normal 0 None = (st, Err DataFormatError).
Proof.
  exists (fst (set_item_request true [] speed (Some 1) normal 0 (Some 1))).
  exists (fst (set_item_request true (fst (set_item_request true [] speed (Some 1) normal 0 (Some 1))) beacon (Some 1) normal 0 None)).
  split; [repeat constructor|]. repeat split; vm_compute; reflexivity.
Qed.
Print Assumptions C37_next_open_slot_refuted.

Example request_example :
  let st := fst (run_all (do_call true) []
     [mkCall speed 2 normal 0; mkCall beacon 1 normal 1; mkCall speed 4 (str "epic") 3; mkCall beacon 0 normal 0; mkCall beacon 6 normal 2]) in
  requested st speed normal 0 0 = 2 /\ requested st speed (str "epic") 0 3 = 4 /\ requested st beacon normal 0 1 = 0 /\
  requested st beacon normal 0 2 = 6 /\ List.length st = 3%nat.
Proof. vm_compute. repeat split. Qed.
