(** C78: when two blueprints are the same. *)
From Coq Require Import ZArith NArith QArith String List Bool.
From Verif Require Import Common Dict Trim_Model Trim_Proofs Merge_Classes Merge_Model Merge_Spec Merge_Proofs TileList_Model
  Equal_Model Equal_Spec Equal_Proofs Equal_List_Spec Equal_List_Proofs.
Import ListNotations.
Local Open Scope string_scope.
Local Open Scope list_scope.

(** Comparing two blueprints never fails, and answers yes exactly if the nine
    attributes are equal, the members of the entity lists are the same in order,
    the tiles are the same in order and the schedules are the same in order. *)
Theorem C78_blueprints : forall alive a b, good a -> good b ->
  exists r, blueprint_eq alive a b = Ok r /\ (r = true <-> blueprint_same alive a b).
Proof. exact blueprint_spec. Qed.
Print Assumptions C78_blueprints.

(** At any one time it is an equivalence. *)
Theorem C78_reflexive : forall alive a, good a -> blueprint_eq alive a a = Ok true.
Proof. exact eq_refl_bp. Qed.
Print Assumptions C78_reflexive.
Theorem C78_symmetric : forall alive a b, good a -> good b -> blueprint_eq alive a b = blueprint_eq alive b a.
Proof. exact eq_sym_bp. Qed.
Print Assumptions C78_symmetric.
Theorem C78_transitive : forall alive a b c, good a -> good b -> good c ->
  blueprint_eq alive a b = Ok true -> blueprint_eq alive b c = Ok true -> blueprint_eq alive a c = Ok true.
Proof. exact eq_trans_bp. Qed.
Print Assumptions C78_transitive.

(** The lists by themselves. *)
Theorem C78_entities : forall a b, Forall member_good a -> Forall member_good b ->
  exists r, entity_list_eq a b = Ok r /\ (r = true <-> Forall2 member_same a b).
Proof. exact entity_list_spec. Qed.
Print Assumptions C78_entities.
Theorem C78_tiles : forall a b, tile_list_eq a b = true <-> a = b.
Proof. exact tiles_spec. Qed.
Print Assumptions C78_tiles.
Theorem C78_schedules : forall alive a b, schedule_list_eq alive a b = true <-> Forall2 (schedule_same alive) a b.
Proof. exact schedules_spec. Qed.
Print Assumptions C78_schedules.

(** Wires, couplings and the index do not count: blueprints that differ in nothing
    else are equal, and no other comparison can tell them apart. *)
Theorem C78_relinked : forall alive a b, good a -> relinked a b ->
  blueprint_eq alive a b = Ok true /\ forall c, blueprint_eq alive c b = blueprint_eq alive c a.
Proof. intros alive a b G R. exact (Logic.conj (relinked_equal alive a b G R) (fun c => eq_relinked alive a b c R)). Qed.
Print Assumptions C78_relinked.

(** Not so: equal blueprints have the same wires and couplings. *)
Theorem C78_wires_refuted : forall alive, exists a b, good a /\ good b /\ b_wires a <> b_wires b /\ b_stock a <> b_stock b /\
  blueprint_eq alive a b = Ok true.
Proof. exact wires_ignored. Qed.
Print Assumptions C78_wires_refuted.

(** Equal blueprints share their groups, and, while the locomotives exist, their
    locomotives: these are compared as objects. *)
Theorem C78_groups : forall alive a b i o x, good a -> good b -> blueprint_eq alive a b = Ok true ->
  nth_error (b_entities a) i = Some (MGrp o) -> nth_error (b_entities b) i = Some x -> x = MGrp o.
Proof. exact groups_identical. Qed.
Print Assumptions C78_groups.
Theorem C78_locomotives : forall alive a b, good a -> good b -> manned alive a -> manned alive b ->
  blueprint_eq alive a b = Ok true -> map s_locomotives (b_schedules a) = map s_locomotives (b_schedules b).
Proof. exact manned_locomotives. Qed.
Print Assumptions C78_locomotives.

(** Not so: blueprints with the same content are equal. Two groups with nothing in
    them differ. *)
Theorem C78_copied_group_refuted : forall alive,
  blueprint_eq alive (with_members [MGrp 0]) (with_members [MGrp 1]) = Ok false /\
  good (with_members [MGrp 0]) /\ good (with_members [MGrp 1]).
Proof. exact groups_differ. Qed.
Print Assumptions C78_copied_group_refuted.

(** Nor are those with the same schedule for another locomotive, as a blueprint
    and what is imported from its string are. *)
Theorem C78_reimported_train_refuted : forall alive o p, alive o = true -> o <> p ->
  good (with_schedules [line o]) /\ good (with_schedules [line p]) /\
  s_stops (line o) = s_stops (line p) /\
  blueprint_eq alive (with_schedules [line o]) (with_schedules [line p]) = Ok false.
Proof. exact trains_differ. Qed.
Print Assumptions C78_reimported_train_refuted.

(** Not so: the answer stays the same while the blueprints do. Different
    locomotives that are collected become equal. *)
Theorem C78_collected_refuted : exists alive later a b, good a /\ good b /\ (forall o, later o = true -> alive o = true) /\
  blueprint_eq alive a b = Ok false /\ blueprint_eq later a b = Ok true.
Proof. exact death_equates. Qed.
Print Assumptions C78_collected_refuted.

(** Not so: comparing never fails. An accumulator without control behavior makes
    the comparison of its blueprint with itself raise. *)
Theorem C78_raises_refuted : exists a, (forall k, wf (b_attr a k)) /\
  (forall x, In x (b_entities a) -> exists i e, x = MEnt i e /\ sound e) /\
  forall alive, blueprint_eq alive a a = Err AttributeError.
Proof. exact bp_raises. Qed.
Print Assumptions C78_raises_refuted.

(** Planners and books are equal to themselves only. *)
Theorem C78_others : forall alive a o, (sheet_eq alive a (SOther o) = Ok true <-> object_of a = o) /\
  sheet_eq alive a (SOther o) = sheet_eq alive (SOther o) a.
Proof. exact others. Qed.
Print Assumptions C78_others.

(** Entities of every class hash to their address over sixteen, but for two
    classes that cannot be hashed. *)
Theorem C78_hash : forall o e, In (e_class e) classes ->
  (hash o e = Err TypeError /\ (e_class e = str "SimpleEntityWithForce" \/ e_class e = str "SimpleEntityWithOwner")) \/
  (hash o e = Ok (Z.shiftr o 4) /\ e_class e <> str "SimpleEntityWithForce" /\ e_class e <> str "SimpleEntityWithOwner").
Proof. exact hash_listed. Qed.
Print Assumptions C78_hash.

(** Not so: equal entities have equal hashes. *)
Theorem C78_hash_refuted : exists e o p, sound e /\ controlled e /\ meq e e = Ok true /\ hash o e <> hash p e.
Proof. exact hash_disagrees. Qed.
Print Assumptions C78_hash_refuted.

(** The list of schedules: whatever is done to it, unless a sequence is assigned to
    a single place, only schedules are inside; what fails changes nothing; and
    what is appended comes last. *)
Theorem C78_list : forall ops l, Forall plain ops -> only_schedules l -> only_schedules (sl_run l ops).
Proof. exact run_plain. Qed.
Print Assumptions C78_list.
Theorem C78_list_fails : forall l o e, snd (sl_step l o) = Some e -> fst (sl_step l o) = l.
Proof. exact step_failed. Qed.
Print Assumptions C78_list_fails.
Theorem C78_list_append : forall l s, sl_step l (SAppend (GOne s)) = (l ++ [One s], None).
Proof. exact append_last. Qed.
Print Assumptions C78_list_append.

(** Each operation does what a Python list does, and refuses all but schedules. *)
Theorem C78_list_does : forall l o, does l o (sl_step l o).
Proof. exact step_does. Qed.
Print Assumptions C78_list_does.

(** Not so in general: assigning a list of schedules to a place puts the list there. *)
Theorem C78_list_refuted : exists ops, only_schedules [] /\ ~ only_schedules (sl_run [] ops) /\
  exists i s, ops = [SAppend (GOne s); SSet i (GSeq [Some s])].
Proof. exact list_broken. Qed.
Print Assumptions C78_list_refuted.

Example C78_example_equal :
  blueprint_eq (fun _ => true) (with_members [MEnt 0 battery; MGrp 3]) (with_members [MEnt 5 battery; MGrp 3]) = Ok true.
Proof. vm_compute. reflexivity. Qed.
Example C78_example_different :
  blueprint_eq (fun _ => true) (with_members [MEnt 0 battery; MGrp 3]) (with_members [MGrp 3; MEnt 0 battery]) = Ok false.
Proof. vm_compute. reflexivity. Qed.
Example C78_example_trains :
  blueprint_eq (fun o => Nat.ltb o 5) (with_schedules [line 7]) (with_schedules [line 8]) = Ok true /\
  blueprint_eq (fun o => Nat.ltb o 5) (with_schedules [line 3]) (with_schedules [line 8]) = Ok false.
Proof. vm_compute. split; reflexivity. Qed.
