(** C65: adding entities and groups with merging. *)
From Coq Require Import ZArith QArith String List Bool.
From Verif Require Import Common Dict Trim_Model Trim_Proofs Wires_Model Merge_Model Merge_Classes Merge_Spec Merge_Proofs
  Absorb_Model Absorb_Spec Absorb_Proofs.
Import ListNotations.
Local Open Scope list_scope.

(** Each new entity goes into the one that is in its place, if there is one, and
    is added otherwise.  The group that is added lacks the former, and its wires
    lead to where they went.  All other entities stay as they were. *)
Theorem C65_insert : forall check near c idx i,
  in_order c -> fit check (c_heap c) (c_grid c) i -> reports near (c_heap c) (c_grid c ++ leaves i) -> new_id c i ->
  exists into c', insert check near c idx true true i = Ok c' /\
    (forall o, In o (leaves i) -> forall x, into o = Some x <-> In x (c_grid c) /\ same_place (c_heap c x) (c_heap c o)) /\
    c_grid c' = c_grid c ++ filter (fun o => match into o with None => true | Some _ => false end) (leaves i) /\
    c_items c' = (match i with
                  | One o => match into o with Some _ => c_items c | None => py_insert (c_items c) idx i end
                  | Many _ _ _ => py_insert (c_items c) idx (thin into i)
                  end) /\
    (forall o x, In o (leaves i) -> into o = Some x -> took_over (c_heap c x) (c_heap c o) (c_heap c' x)) /\
    (forall x, (forall o, In o (leaves i) -> into o <> Some x) -> c_heap c' x = c_heap c x) /\
    in_order c'.
Proof. exact insert_exact. Qed.
Print Assumptions C65_insert.

(** Copies of what was just added bring no entity and change none. *)
Theorem C65_again : forall check near c idx i c' idx2 i2,
  in_order c -> fit check (c_heap c) (c_grid c) i -> reports near (c_heap c) (c_grid c ++ leaves i) -> new_id c i ->
  insert check near c idx true true i = Ok c' ->
  fit check (c_heap c') (c_grid c') i2 -> reports near (c_heap c') (c_grid c' ++ leaves i2) -> new_id c' i2 ->
  (forall o2, In o2 (leaves i2) -> exists o, In o (leaves i) /\ c_heap c' o2 = c_heap c o) ->
  exists c'', insert check near c' idx2 true true i2 = Ok c'' /\
    c_grid c'' = c_grid c' /\
    (forall x, same_entity (c_heap c' x) (c_heap c'' x)) /\
    match i2 with
    | One _ => c_items c'' = c_items c'
    | Many _ _ _ => exists g, c_items c'' = py_insert (c_items c') idx2 g /\ leaves g = []
    end.
Proof. exact again. Qed.
Print Assumptions C65_again.

(** However many items are added, unless an ID is there already: the members and
    the index stay in step, every place an entity was brought to is filled, by
    the last one brought there, and nothing else changes. *)
Theorem C65_history : forall check near l c,
  in_order c -> Forall (fun p => fit check (c_heap c) (c_grid c) (snd p)) l -> NoDup (all_leaves (map snd l)) ->
  reports near (c_heap c) (c_grid c ++ all_leaves (map snd l)) ->
  insert_all check near c l = Err DuplicateIDError \/
  exists c', insert_all check near c l = Ok c' /\ in_order c' /\
    incl (c_grid c) (c_grid c') /\ incl (c_grid c') (c_grid c ++ all_leaves (map snd l)) /\
    (forall x, (forall o, In o (all_leaves (map snd l)) -> ~ same_place (c_heap c x) (c_heap c o)) -> c_heap c' x = c_heap c x) /\
    (forall o, In o (all_leaves (map snd l)) -> exists x, In x (c_grid c') /\ same_place (c_heap c' x) (c_heap c o)) /\
    (forall l1 p l2 o, l = l1 ++ p :: l2 -> In o (leaves (snd p)) ->
       (forall o', In o' (all_leaves (map snd l2)) -> ~ same_place (c_heap c o) (c_heap c o')) ->
       exists x, In x (c_grid c') /\ same_place (c_heap c' x) (c_heap c o) /\
         forall f, In f (fields_of (e_class (c_heap c o))) -> stays (e_class (c_heap c o)) f = false ->
           get (e_root (c_heap c' x)) f = get (e_root (c_heap c o)) f).
Proof. exact history'. Qed.
Print Assumptions C65_history.

(** If the wires of each group lead to entities directly in it, no wire leads
    outside the collection afterwards. *)
Theorem C65_wires : forall check near c idx i c',
  in_order c -> fit check (c_heap c) (c_grid c) i -> reports near (c_heap c) (c_grid c ++ leaves i) -> new_id c i ->
  wires_inside c -> local i -> insert check near c idx true true i = Ok c' -> wires_inside c'.
Proof. exact wires_stay. Qed.
Print Assumptions C65_wires.

(** An entity with an ID that is there already is refused, even if it could be
    merged with the entity of that ID. *)
Theorem C65_id : forall check near c idx m i j s, In j (c_items c) -> id_of (c_heap c) j = Some s -> s <> [] ->
  id_of (c_heap c) i = Some s -> insert check near c idx true m i = Err DuplicateIDError.
Proof. exact id_taken. Qed.
Print Assumptions C65_id.

(** Not so without that: a wire of the outer group to an entity in a nested group
    that is merged leads nowhere afterwards. *)
Theorem C65_wires_refuted : exists c i c', in_order c /\ fit lax (c_heap c) (c_grid c) i /\
  reports everything (c_heap c) (c_grid c ++ leaves i) /\ new_id c i /\ wires_inside c /\ incl (refs i) (leaves i) /\
  insert lax everything c 1 true true i = Ok c' /\ ~ wires_inside c'.
Proof. exact wire_lost. Qed.
Print Assumptions C65_wires_refuted.

(** Not so: a group with two entities in the same place can be added. The
    members and the index are out of step. *)
Theorem C65_overlap_refuted : exists h l c',
  (forall o, In o l -> sound (h o) /\ controlled (h o) /\ forall b, accepted lax b (h o)) /\ NoDup l /\
  insert lax everything (nothing h) 0 true true (Many None [] (map One l)) = Ok c' /\
  (exists o, In o (c_grid c') /\ ~ In o (all_leaves (c_items c'))) /\
  (exists o, In o (all_leaves (c_items c')) /\ ~ In o (c_grid c')).
Proof. exact wrong_removed. Qed.
Print Assumptions C65_overlap_refuted.

(** Only copies are merged: to merge the thing itself is refused, to add it without
    merging is not. *)
Theorem C65_no_copy : forall check near c idx i,
  insert check near c idx false true i = Err ValueError /\
  insert check near c idx false false i = insert check near c idx true false i.
Proof. exact (fun check near c idx i => Logic.conj (no_copy check near c idx i) (uncopied check near c idx i)). Qed.
Print Assumptions C65_no_copy.

(** A group of 1 and 2, wired, where 0 is in the place of 1. *)
Example C65_example : exists c', insert lax everything first 1 true true pair = Ok c' /\
  c_grid c' = [0; 2]%nat /\ c_items c' = [One 0; Many None [cable 0 2] [One 2]] /\
  get (e_root (c_heap c' 0%nat)) (str "tags") = Some (VMap tag).
Proof. eexists. split; [vm_compute; reflexivity|]. repeat split. Qed.
Example C65_example_fits : in_order first /\ fit lax (c_heap first) (c_grid first) pair /\
  reports everything (c_heap first) (c_grid first ++ leaves pair) /\ new_id first pair /\ wires_inside first /\ local pair.
Proof.
  split; [exact first_in_order|]. split; [exact pair_fit|]. split; [apply everything_reports|].
  split; [intros s H; discriminate H|]. split; [intros x []|]. split; [|repeat split].
  intros x H. exact H.
Qed.
