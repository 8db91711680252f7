(** C59: deep copies of groups and blueprints. *)
From Coq Require Import ZArith List Bool Lia PeanoNat.
From Verif Require Import Common Wires_Model Copy_Model Copy_Spec Copy_Proofs Copy_Export_Proofs.
Import ListNotations.

(** The copy of a group has the same structure over new objects, each standing
    for one of the original; wires and schedules, at every depth, lead to the
    copies of what they led to, with the same connectors and in the same order. *)
Theorem C59_group : forall k n m, NoDup (ids n) -> deepcopy k n = Ok m ->
  exists f, renews f k (ids n) /\ (forall i, In i (ids n) -> f i < k + List.length (ids n)) /\ m = move f n.
Proof. exact deepcopy_ok. Qed.
Print Assumptions C59_group.

(** So it shares nothing with the original, and its associations stay within it. *)
Theorem C59_apart : forall k n m, NoDup (ids n) -> Forall (fun i => i < k) (ids n) -> deepcopy k n = Ok m ->
  NoDup (ids m) /\ (forall i, In i (ids m) -> ~ In i (ids n)) /\
  (forall e, leads_to m e -> exists i, e = WRef (Some i) /\ In i (ids m)).
Proof. exact deepcopy_apart. Qed.
Print Assumptions C59_apart.

(** Copying succeeds exactly if every association of every nested group leads to
    a living object inside that group or before it. *)
Theorem C59_succeeds : forall k n, NoDup (ids n) -> ((exists m, deepcopy k n = Ok m) <-> copyable n).
Proof. exact deepcopy_iff. Qed.
Print Assumptions C59_succeeds.

Theorem C59_contained : forall k n, NoDup (ids n) -> self_contained n -> exists m, deepcopy k n = Ok m.
Proof. intros k n D H. apply (deepcopy_iff k n D), self_contained_copyable, H. Qed.
Print Assumptions C59_contained.

(** Otherwise it is a [KeyError]. *)
Theorem C59_error : forall k n, NoDup (ids n) -> associated n -> (deepcopy k n = Err KeyError <-> ~ copyable n).
Proof. exact copy_iff_error. Qed.
Print Assumptions C59_error.

(** The documentation: all associations are kept, except those that point outside
    the copied group.  A group with a wire to an entity outside cannot be copied. *)
Theorem C59_outside_refuted : exists n e, inside (Ent 1 0) n /\ leads_to n e /\ e = WRef (Some 9) /\
  NoDup (ids n) /\ deepcopy 10 n = Err KeyError.
Proof.
  exists (Grp 0 0 [Ent 1 0] [] [(WRef (Some 1), 1%Z, WRef (Some 9), 1%Z)]), (WRef (Some 9)). split.
  - eapply inside_kid; [left; reflexivity|constructor].
  - split; [eexists; split; [constructor|cbn; auto]|]. split; [reflexivity|]. split; [|reflexivity].
    repeat (constructor; [cbn; intuition discriminate|]). constructor.
Qed.
Print Assumptions C59_outside_refuted.

(** Whether it can be copied depends on the order of members. *)
Theorem C59_order_refuted : exists a b : node, let top l := Grp 0 0 l [] [] in
  is_ok (deepcopy 10 (top [a; b])) = true /\ deepcopy 10 (top [b; a]) = Err KeyError /\
  NoDup (ids (top [a; b])) /\ NoDup (ids (top [b; a])).
Proof.
  exists (Ent 1 0), (Grp 2 0 [Ent 3 0] [] [(WRef (Some 3), 1%Z, WRef (Some 1), 1%Z)]). cbn zeta.
  repeat split; try reflexivity; repeat (constructor; [cbn; intuition discriminate|]); constructor.
Qed.
Print Assumptions C59_order_refuted.

(** ** Blueprints *)
(** The copy of a blueprint: its entities are copied like those of a group, but
    its own schedules and wires lead where they led before. *)
Theorem C59_blueprint : forall k b b', NoDup (ids (body b)) -> copy_blueprint k b = Ok b' ->
  exists f, renews f k (ids (body b)) /\
    b' = mkB (f (b_id b)) (map (move f) (b_ents b)) (b_ss b) (b_ws b) /\
    (** Exported, the copy is as the original, if copies compare as their originals. *)
    forall veq, alike veq f (ids (body b)) ->
      export veq (seen_blueprint b') (b_ss b') =
      match export veq (seen_blueprint b) (b_ss b) with
      | Ok x => Ok (mkX (map (fun p => (f (fst p), snd p)) (x_ents x)) (x_scheds x) (x_wires x))
      | Err e => Err e
      end.
Proof. exact export_copy. Qed.
Print Assumptions C59_blueprint.

Theorem C59_blueprint_succeeds : forall k b, NoDup (ids (body b)) ->
  ((exists b', copy_blueprint k b = Ok b') <-> copyable (body b)).
Proof. exact blueprint_iff. Qed.
Print Assumptions C59_blueprint_succeeds.

(** A copied group loses nothing when everything else is gone; a blueprint loses
    all its own associations, and with a wire of its own it cannot be exported. *)
Theorem C59_group_survives : forall k n m, NoDup (ids n) -> Forall (fun i => i < k) (ids n) ->
  deepcopy k n = Ok m -> weaken_node (ids m) m = m.
Proof. exact survives. Qed.
Print Assumptions C59_group_survives.

Theorem C59_orphan : forall veq k b b', NoDup (ids (body b)) -> copy_blueprint k b = Ok b' ->
  Forall (old_end k) (concat (b_ss b) ++ flat_map wire_ends (b_ws b)) ->
  let lone := weaken_blueprint (ids (body b')) b' in
  Forall (fun e => e = WRef None) (concat (b_ss lone) ++ flat_map wire_ends (b_ws lone)) /\
  (b_ss b = [] -> b_ws b <> [] -> export veq (seen_blueprint lone) [] = Err InvalidAssociationError).
Proof. exact orphan. Qed.
Print Assumptions C59_orphan.

(** "The copy leads to copies" is false of blueprints. *)
Theorem C59_blueprint_refuted : exists b b' w, NoDup (ids (body b)) /\ copy_blueprint 10 b = Ok b' /\
  In w (b_ws b') /\ (forall e, In e (wire_ends w) -> exists i, e = WRef (Some i) /\ In i (ids (body b)) /\ ~ In i (ids (body b'))).
Proof.
  exists (mkB 0 [Ent 1 0; Ent 2 0] [] [(WRef (Some 1), 1%Z, WRef (Some 2), 1%Z)]). eexists. eexists.
  split; [repeat (constructor; [cbn; intuition discriminate|]); constructor|]. split; [reflexivity|].
  split; [left; reflexivity|]. intros e [<-|[<-|[]]]; eexists; (split; [reflexivity|cbn; intuition lia]).
Qed.
Print Assumptions C59_blueprint_refuted.

(** A group with a locomotive and a nested group that is wired to it. *)
Definition lnk (a p b q : nat) : wire := (WRef (Some a), Z.of_nat p, WRef (Some b), Z.of_nat q).
Definition ex_group : node :=
  Grp 0 7 [Ent 1 5; Grp 2 7 [Ent 3 5; Ent 4 6] [] [lnk 3 1 1 2]]
    [[WRef (Some 1); WRef (Some 4)]] [lnk 4 5 2 5].
Example C59_ex : deepcopy 20 ex_group = Ok
  (Grp 20 7 [Ent 21 5; Grp 22 7 [Ent 23 5; Ent 24 6] [] [lnk 23 1 21 2]]
    [[WRef (Some 21); WRef (Some 24)]] [lnk 24 5 22 5]).
Proof. reflexivity. Qed.
Example C59_ex_nodup : NoDup (ids ex_group).
Proof. repeat (constructor; [cbn; intuition discriminate|]). constructor. Qed.
Definition ex_blueprint : blueprint := mkB 0 [Ent 1 5; Grp 2 7 [Ent 3 6] [] []] [] [lnk 1 1 3 2].
Definition ex_twin (i j : nat) : bool := Nat.eqb (Nat.modulo i 20) (Nat.modulo j 20).
Example C59_ex_blueprint : exists b', copy_blueprint 20 ex_blueprint = Ok b' /\
  export ex_twin (seen_blueprint ex_blueprint) [] = Ok (mkX [(1, 1%Z); (3, 2%Z)] [] [(1, 1, 2, 2)%Z]) /\
  export ex_twin (seen_blueprint b') [] = Ok (mkX [(21, 1%Z); (23, 2%Z)] [] [(1, 1, 2, 2)%Z]) /\
  export Nat.eqb (seen_blueprint b') [] = Err InvalidAssociationError.
Proof. eexists. split; [reflexivity|]. repeat split; reflexivity. Qed.
