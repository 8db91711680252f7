(** Property theorems C13-C16: the entity list. *)
From Coq Require Import ZArith NArith List Bool String.
From Verif Require Import Common Dict EntityList_Model EntityList_Spec EntityList_Proofs EntityList_More_Proofs.
Import ListNotations.
Local Open Scope string_scope.
Local Open Scope list_scope.

Definition named (k : string) (v : Z) : ent := mkEnt (Some (str k)) v false.
Definition plain (v : Z) : ent := mkEnt None v false.
Definition group_named (k : string) : ent := mkEnt (Some (str k)) 0 true.
(** Run operations, ignoring raised errors as a caller catching them would. *)
Definition run_list (ops : list eop) : estate := fold_left (fun s o => fst (el_step s o)) ops empty_list.

Ltac reach := unfold run_list; cbn [fold_left]; repeat (apply reach_step; [|discriminate]); apply reach_empty.

(** ** C13 *)

(** IDs, positions and members agree after any history of covered operations. *)
Theorem C13_ids_consistent : forall s, reachable s -> consistent s.
Proof. exact reachable_consistent. Qed.
Print Assumptions C13_ids_consistent.

(** And every covered operation does to the members exactly what it does to a
    plain list, with the same error. *)
Theorem C13_refines_plain_list : forall s o, reachable s -> covered (members s) o ->
  (members (fst (el_step s o)), snd (el_step s o)) = spec_step (List.length (heap s)) (members s) o.
Proof. exact reachable_refines. Qed.
Print Assumptions C13_refines_plain_list.

(** Outside the covered operations the claim is false.  Inserting at a negative
    index records a wrong position for the keyed members before it: *)
Theorem C13_negative_insert_refuted : exists s idx e, reachable s /\ ~ consistent (fst (el_step s (EInsert idx e))) /\
  (* the entity called "a" is still listed after deleting "a" *)
  exists m, In m (members (fst (el_step (fst (el_step s (EInsert idx e))) (EDelKey (str "a"))))) /\
    e_id (snd m) = Some (str "a").
Proof.
  exists (run_list [EAppend (named "a" 1); EAppend (plain 2)]), (-1)%Z, (plain 3).
  split; [|split].
  - reach.
  - intros C. pose proof (c_index _ C (str "a") 0) as K.
    destruct K as [_ K]; [discriminate|].
    specialize (K (ex_intro _ (0%nat, named "a" 1) (conj eq_refl eq_refl))). discriminate K.
  - exists (0%nat, named "a" 1). split; [vm_compute; auto|reflexivity].
Qed.
Print Assumptions C13_negative_insert_refuted.

(** Assigning an ID another member already has raises, but only after the old
    ID was dropped and the new one stored: two members now carry one ID and the
    member can no longer be found. *)
Theorem C13_duplicate_id_assignment_refuted : exists s p v, reachable s /\
  snd (el_step s (ESetId p v)) = Some DuplicateIDError /\
  map (fun m => e_id (snd m)) (members (fst (el_step s (ESetId p v)))) = [v; v] /\
  ~ consistent (fst (el_step s (ESetId p v))).
Proof.
  exists (run_list [EAppend (named "a" 1); EAppend (named "b" 2)]), 0%nat, (Some (str "b")).
  split; [|split; [reflexivity|split; [reflexivity|]]].
  - reach.
  - intros C. pose proof (c_unique _ C 0 1 (0%nat, named "b" 1) (1%nat, named "b" 2) (str "b") eq_refl eq_refl eq_refl eq_refl).
    discriminate.
Qed.
Print Assumptions C13_duplicate_id_assignment_refuted.

(** Replacing through a negative index leaves the replaced member's ID behind. *)
Theorem C13_negative_replace_refuted : exists s idx e, reachable s /\
  snd (el_step s (ESetIdx idx e)) = None /\
  exists k o, el_get_key (fst (el_step s (ESetIdx idx e))) k = Ok o /\
    ~ In o (map fst (members (fst (el_step s (ESetIdx idx e))))).
Proof.
  exists (run_list [EAppend (named "a" 1)]), (-1)%Z, (plain 3). split; [|split; [reflexivity|]].
  - reach.
  - exists (str "a"), 0%nat. split; [reflexivity|]. vm_compute. intros [H|[]]. discriminate.
Qed.
Print Assumptions C13_negative_replace_refuted.

(** An entity with the empty string as ID is listed but not found under it. *)
Theorem C13_empty_id_refuted : exists e, snd (el_step empty_list (EAppend e)) = None /\
  e_id e = Some [] /\ el_get_key (fst (el_step empty_list (EAppend e))) [] = Err KeyError.
Proof. exists (mkEnt (Some []) 1 false). repeat split. Qed.
Print Assumptions C13_empty_id_refuted.

(** Clearing the IDs of two groups in one list raises the duplicate-ID error,
    because a group's setter registers [None] as an ID. *)
Theorem C13_group_none_id_refuted : exists s, reachable s /\
  snd (el_step s (ESetId 0 None)) = None /\
  snd (el_step (fst (el_step s (ESetId 0 None))) (ESetId 1 None)) = Some DuplicateIDError.
Proof.
  exists (run_list [EAppend (group_named "a"); EAppend (group_named "b")]). split; [|split; reflexivity].
  reach.
Qed.
Print Assumptions C13_group_none_id_refuted.

(** Deleting a position beyond the end does not raise: the index wraps around
    and another member disappears. *)
Theorem C13_delete_out_of_range_wraps : forall s idx, reachable s -> members s <> [] ->
  el_step s (EDelIdx idx) = el_step s (EDelIdx (idx mod Z.of_nat (List.length (root s)))) /\
  snd (el_step s (EDelIdx idx)) = None.
Proof.
  intros s idx H Hne. destruct (reachable_inv s H) as [I _]. split.
  - cbn [el_step]. unfold el_del_idx. destruct (root s) eqn:R; [reflexivity|]. rewrite Zmod_mod. reflexivity.
  - pose proof (reachable_refines s (EDelIdx idx) H Logic.I) as R. apply (f_equal snd) in R.
    cbn [snd] in R. rewrite R. cbn [spec_step]. destruct (members s); [contradiction|reflexivity].
Qed.
Print Assumptions C13_delete_out_of_range_wraps.

Example C13_ex :
  let s := run_list [EAppend (named "a" 1); EAppend (plain 2); EInsert 0 (named "c" 3);
                     ESetId 2 (Some (str "d")); EDelKey (str "a"); ESetIdx 0 (named "e" 4)] in
  reachable s /\ el_get_key s (str "d") = Ok 1%nat /\ el_get_key s (str "e") = Ok 3%nat /\
  el_get_key s (str "a") = Err KeyError /\ el_get_key s (str "c") = Err KeyError /\
  members s = [(3%nat, named "e" 4); (1%nat, named "d" 2)].
Proof.
  split; [|repeat split].
  unfold run_list. cbn [fold_left].
  apply reach_step; [|split; discriminate].
  apply reach_step; [|discriminate].
  apply reach_step; [|split; [discriminate|split]].
  - apply reach_step; [|split; [discriminate|left; discriminate]].
    do 2 (apply reach_step; [|discriminate]). apply reach_empty.
  - intros q m H1 H2 _. destruct q as [|[|[|[|q]]]]; inversion H1; subst; try discriminate.
  - intros m H1 H2. inversion H1; subst. discriminate.
Qed.

(** ** C14 *)

(** Wherever it would be inserted, an entity with an ID is rejected with the
    duplicate-ID error exactly when some member has that ID, and then nothing at
    all changes. *)
Theorem C14_duplicate_insert_rejected : forall s idx e k, reachable s -> e_id e = Some k -> k <> [] ->
  (snd (el_step s (EInsert idx e)) = Some DuplicateIDError <->
   exists m, In m (members s) /\ e_id (snd m) = Some k) /\
  (snd (el_step s (EInsert idx e)) = Some DuplicateIDError -> fst (el_step s (EInsert idx e)) = s).
Proof. exact insert_rejected_iff. Qed.
Print Assumptions C14_duplicate_insert_rejected.

(** Every other failing covered operation leaves the members as they were and
    the lookups consistent. *)
Theorem C14_failures_leave_list : forall s o s' x, reachable s -> covered (members s) o ->
  el_step s o = (s', Some x) -> members s' = members s /\ consistent s'.
Proof. exact any_rejection_untouched. Qed.
Print Assumptions C14_failures_leave_list.

(** Assigning a member an ID that another member has raises the same error, but
    the assignment has happened: the ID stays with the other member, and the
    assigned one is no longer found under its old ID. *)
Theorem C14_duplicate_assignment : forall s p q m n (k : pystr), reachable s -> k <> [] -> p <> q ->
  nth_error (members s) p = Some m -> nth_error (members s) q = Some n -> e_id (snd n) = Some k ->
  snd (el_step s (ESetId p (Some k))) = Some DuplicateIDError /\
  members (fst (el_step s (ESetId p (Some k)))) =
    replace_nth (members s) p (fst m, mkEnt (Some k) (e_val (snd m)) (e_grp (snd m))) /\
  el_get_key (fst (el_step s (ESetId p (Some k)))) k = Ok (fst n) /\
  forall k', e_id (snd m) = Some k' -> el_get_key (fst (el_step s (ESetId p (Some k)))) k' = Err KeyError.
Proof. exact assign_used_id. Qed.
Print Assumptions C14_duplicate_assignment.

Example C14_ex_assignment :
  let s := run_list [EAppend (named "a" 1); EAppend (named "b" 2)] in
  snd (el_step s (ESetId 0 (Some (str "b")))) = Some DuplicateIDError /\
  el_get_key (fst (el_step s (ESetId 0 (Some (str "b"))))) (str "a") = Err KeyError /\
  el_get_key (fst (el_step s (ESetId 0 (Some (str "b"))))) (str "b") = Ok 1%nat.
Proof. repeat split. Qed.

Example C14_ex :
  let s := run_list [EAppend (named "a" 1); EAppend (plain 2)] in
  el_step s (EInsert 1 (named "a" 9)) = (s, Some DuplicateIDError) /\
  snd (el_step s (EInsert 1 (named "b" 9))) = None.
Proof. split; reflexivity. Qed.

(** ** C15 *)

(** Deleting any slice removes exactly the positions of the slice, and
    afterwards looking an ID up finds exactly the surviving member with it. *)
Theorem C15_slice_deletion : forall s a b c start stop step, reachable s -> c <> Some 0%Z ->
  slice_indices a b c (Z.of_nat (List.length (members s))) = (start, stop, step) ->
  snd (el_step s (EDelSlice a b c)) = None /\
  members (fst (el_step s (EDelSlice a b c))) = survivors (members s) start stop step /\
  forall (k : pystr) o, k <> [] ->
    (el_get_key (fst (el_step s (EDelSlice a b c))) k = Ok o <->
     exists e, In (o, e) (survivors (members s) start stop step) /\ e_id e = Some k).
Proof. exact slice_lookup. Qed.
Print Assumptions C15_slice_deletion.

Theorem C15_zero_step_rejected : forall s a b, el_step s (EDelSlice a b (Some 0%Z)) = (s, Some ValueError).
Proof. reflexivity. Qed.
Print Assumptions C15_zero_step_rejected.

(** The recorded positions are another matter.  For a slice of consecutive
    members they stay right exactly when every later keyed member stands at
    least twice as far (less two) from the start of the slice as it is long: *)
Theorem C15_positions_criterion : forall s start n, reachable s -> (0 <= start)%nat -> (1 <= n)%nat ->
  (start + n <= List.length (members s))%nat ->
  let s' := fst (el_step s (EDelSlice (Some (Z.of_nat start)) (Some (Z.of_nat (start + n))) None)) in
  (consistent s' <->
   forall p m, nth_error (members s) p = Some m -> e_id (snd m) <> None ->
     (start + n <= p)%nat -> (start + 2 * (n - 1) <= p)%nat).
Proof. exact slice_step_one. Qed.
Print Assumptions C15_positions_criterion.

(** So the next operation through an ID may hit the wrong member: after
    deleting the first three, [del list["a"]] deletes "b" and keeps "a". *)
Theorem C15_positions_refuted : exists s, reachable s /\
  let s' := fst (el_step s (EDelSlice (Some 0%Z) (Some 3%Z) None)) in
  snd (el_step s' (EDelKey (str "a"))) = None /\
  map (fun m => e_id (snd m)) (members s') = [Some (str "a"); None] /\
  map (fun m => e_id (snd m)) (members (fst (el_step s' (EDelKey (str "a"))))) = [Some (str "a")].
Proof.
  exists (run_list [EAppend (plain 1); EAppend (plain 2); EAppend (plain 3); EAppend (named "a" 4); EAppend (plain 5)]).
  split; [|repeat split].
  reach.
Qed.
Print Assumptions C15_positions_refuted.

(** With a step other than one, even one deleted member goes wrong. *)
Theorem C15_stepped_slice_refuted : exists s, reachable s /\
  map (fun m => e_id (snd m)) (members (fst (el_step s (EDelSlice (Some 0%Z) (Some 1%Z) (Some 2%Z))))) = [Some (str "a")] /\
  dget key_eqb (key_to_idx (fst (el_step s (EDelSlice (Some 0%Z) (Some 1%Z) (Some 2%Z))))) (Some (str "a")) = Some (-1)%Z.
Proof.
  exists (run_list [EAppend (plain 1); EAppend (named "a" 4)]). split; [|split; reflexivity].
  reach.
Qed.
Print Assumptions C15_stepped_slice_refuted.

Example C15_ex :
  let s := run_list [EAppend (named "x" 1); EAppend (plain 2); EAppend (named "a" 4); EAppend (plain 5); EAppend (named "b" 6)] in
  let s' := fst (el_step s (EDelSlice (Some (-5)%Z) None (Some 3%Z))) in
  map fst (members s') = [1; 2; 4]%nat /\
  el_get_key s' (str "a") = Ok 2%nat /\ el_get_key s' (str "b") = Ok 4%nat /\ el_get_key s' (str "x") = Err KeyError.
Proof. repeat split. Qed.

(** ** C16 *)

(** Intersection: exactly the members of the first list equal to some member of
    the second, in order; a well-formed list; no errors. *)
Theorem C16_intersection : forall h a b, in_bounds h a -> in_bounds h b -> no_empty_id h a ->
  NoDup (ids (attributes h a)) ->
  exists keep, (forall o, In o a -> (keep o = true <-> equal_to_some h b o)) /\
    reachable (fst (el_intersection h a b)) /\
    snd (el_intersection h a b) = None /\
    map snd (members (fst (el_intersection h a b))) = attributes h (filter keep a).
Proof. exact intersection_spec. Qed.
Print Assumptions C16_intersection.

Theorem C16_difference : forall h a b, in_bounds h a -> in_bounds h b -> no_empty_id h a ->
  NoDup (ids (attributes h a)) ->
  exists keep, (forall o, In o a -> (keep o = true <-> ~ equal_to_some h b o)) /\
    reachable (fst (el_difference h a b)) /\
    snd (el_difference h a b) = None /\
    map snd (members (fst (el_difference h a b))) = attributes h (filter keep a).
Proof. exact difference_spec. Qed.
Print Assumptions C16_difference.

(** Union: the first list followed by the members of the second equal to none
    of the first, when the IDs of these are distinct; otherwise the
    duplicate-ID error. *)
Theorem C16_union : forall h a b, in_bounds h a -> in_bounds h b -> no_empty_id h a -> no_empty_id h b ->
  exists keep, (forall o, In o b -> (keep o = true <-> ~ equal_to_some h a o)) /\
    (NoDup (ids (attributes h a ++ attributes h (filter keep b))) ->
       reachable (fst (el_union h a b)) /\ snd (el_union h a b) = None /\
       map snd (members (fst (el_union h a b))) = attributes h a ++ attributes h (filter keep b)) /\
    (~ NoDup (ids (attributes h a ++ attributes h (filter keep b))) ->
       snd (el_union h a b) = Some DuplicateIDError).
Proof. exact union_spec. Qed.
Print Assumptions C16_union.

(** The union of two perfectly good lists can fail: different entities with one
    ID. *)
Theorem C16_union_total_refuted : exists h a b,
  in_bounds h a /\ in_bounds h b /\ NoDup (ids (attributes h a)) /\ NoDup (ids (attributes h b)) /\
  snd (el_union h a b) = Some DuplicateIDError.
Proof.
  exists [named "a" 1; named "a" 2], [0%nat], [1%nat].
  repeat split; try (intros o [<-|[]]; repeat constructor); repeat constructor; intros [].
Qed.
Print Assumptions C16_union_total_refuted.

Example C16_ex :
  let h := [named "a" 1; plain 2; plain 3; named "a" 1; plain 3; plain 7; group_named "g"] in
  let a := [0; 1; 2; 6]%nat in let b := [3; 4; 5]%nat in
  map snd (members (fst (el_union h a b))) = [named "a" 1; plain 2; plain 3; group_named "g"; plain 7] /\
  map snd (members (fst (el_intersection h a b))) = [named "a" 1; plain 3] /\
  map snd (members (fst (el_difference h a b))) = [plain 2; group_named "g"].
Proof. repeat split. Qed.
