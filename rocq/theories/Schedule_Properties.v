(** Property theorems C28 and C29: wait conditions and schedules. *)
From Coq Require Import ZArith String List Bool Lia Permutation.
From Verif Require Import Common Dict Schedule_Model Schedule_Spec Schedule_Proofs Schedule_More_Proofs.
Import ListNotations.
Local Open Scope string_scope.
Local Open Scope list_scope.

(** ** C28 *)
(** An operator yields the conditions of both operands in order, the first of
    the right operand compared as the operator says; the result consists of new
    objects and no old one changes. *)
Theorem C28_operator : forall conj h a b la lb, contents h a la -> contents h b lb ->
  a <> Foreign -> b <> Foreign -> (exists i, a = One i \/ b = One i) -> lb <> [] -> NoDup (members b) ->
  exists h' r, py_op conj h a b = Ok (h', Many r) /\ untouched h h' /\
    contents h' (Many r) (la ++ with_first conj lb) /\
    Forall (fun i => List.length h <= i < List.length h') r /\ (NoDup (members a) -> NoDup r).
Proof.
  intros conj h a b la lb CA CB FA FB K N D.
  destruct (py_op_spec conj h a b la lb (with_first conj lb) CA CB FA FB K N) as [h' [r [R [U [C [F O]]]]]].
  - apply recompared_nodup; [exact D|]. eapply forall2_length'. exact CB.
  - exists h', r. repeat split; auto.
Qed.
Print Assumptions C28_operator.
(** The same without the assumption that the right list has no object twice. *)
Theorem C28_operator_aliased : forall conj h a b la lb lb', contents h a la -> contents h b lb ->
  a <> Foreign -> b <> Foreign -> (exists i, a = One i \/ b = One i) -> lb <> [] -> recompared conj (members b) lb lb' ->
  exists h' r, py_op conj h a b = Ok (h', Many r) /\ untouched h h' /\ contents h' (Many r) (la ++ lb') /\
    Forall (fun i => List.length h <= i < List.length h') r /\
    (NoDup (members a) -> NoDup (members b) -> NoDup r).
Proof. exact py_op_spec. Qed.
Print Assumptions C28_operator_aliased.
(** All other combinations raise. *)
Theorem C28_operator_errors : forall conj h,
  (forall l l', py_op conj h (Many l) (Many l') = Err TypeError) /\
  (forall i, py_op conj h (One i) (Many []) = Err IndexError) /\
  (forall a b, a = Foreign \/ b = Foreign -> py_op conj h a b = Err TypeError).
Proof.
  intros conj h. split; [reflexivity|]. split.
  - intros i. cbn [py_op]. unfold op_forward. destruct (copy_one h i). reflexivity.
  - intros a b [E|E]; subst; [destruct b|destruct a]; try reflexivity; cbn [py_op]; unfold op_forward, op_reflected; destruct (copy_one h i); reflexivity.
Qed.
Print Assumptions C28_operator_errors.

Theorem C28_or : forall fulfilled la lb, la <> [] -> lb <> [] ->
  (holds fulfilled (la ++ with_first false lb) <-> holds fulfilled la \/ holds fulfilled lb).
Proof. exact or_meaning. Qed.
Print Assumptions C28_or.
Theorem C28_and : forall fulfilled la lb, clause la -> clause lb ->
  (holds fulfilled (la ++ with_first true lb) <-> holds fulfilled la /\ holds fulfilled lb) /\
  clause (la ++ with_first true lb).
Proof. exact and_pure. Qed.
Print Assumptions C28_and.
(** What "and" means for any operands: it joins the last clause of the left one
    to the first clause of the right one. *)
Theorem C28_and_general : forall fulfilled la lb cs1 c1 c2 cs2, clauses la (cs1 ++ [c1]) -> clauses lb (c2 :: cs2) ->
  (holds fulfilled (la ++ with_first true lb) <->
    (exists c, In c (cs1 ++ cs2) /\ Forall (sat fulfilled) c) \/ (Forall (sat fulfilled) c1 /\ Forall (sat fulfilled) c2)).
Proof. exact and_meaning. Qed.
Print Assumptions C28_and_general.
(** Every list splits into clauses in exactly one way. *)
Theorem C28_clauses : forall l, exists cs, clauses l cs /\ forall cs', clauses l cs' -> cs' = cs.
Proof.
  intros l. exists (split l). split; [apply split_clauses|apply clauses_unique].
Qed.
Print Assumptions C28_clauses.

(** Whole expressions over existing conditions. *)
Theorem C28_expression : forall e h, Forall (fun i => i < List.length h) (atoms e) -> evaluable e ->
  exists h' o l, run h e = Ok (h', o) /\ untouched h h' /\ contents h' o l /\ l <> [] /\
    (paren_free e -> forall fulfilled, holds fulfilled l <-> means fulfilled h e).
Proof.
  intros e h F V. destruct (run_ok e h F V) as [h' [o [l [R [U [C [N [_ [_ [_ [_ P]]]]]]]]]]]. exists h', o, l. auto.
Qed.
Print Assumptions C28_expression.
Theorem C28_expression_error : forall e h, Forall (fun i => i < List.length h) (atoms e) -> ~ evaluable e ->
  run h e = Err TypeError.
Proof. exact run_error. Qed.
Print Assumptions C28_expression_error.

Definition cnd (n : nat) : wc := mkWC (str "time") false None n.
Definition four : heap := [cnd 0; cnd 1; cnd 2; cnd 3].
Notation A := (Atom 0). Notation B := (Atom 1). Notation C := (Atom 2). Notation D := (Atom 3).
(** [a & b | c] *)
Example C28_ex1 : exists h r, run four (Op false (Op true A B) C) = Ok (h, Many r) /\
  contents h (Many r) [cnd 0; set_and true (cnd 1); cnd 2] /\ evaluable (Op false (Op true A B) C) /\ paren_free (Op false (Op true A B) C).
Proof. do 2 eexists. split; [reflexivity|]. split; [repeat constructor|]. cbn. tauto. Qed.

(** [(a | b) & c] is a | (b & c): true when only the first holds. *)
Theorem C28_parentheses_refuted : exists e h h' r l fulfilled,
  Forall (fun i => i < List.length h) (atoms e) /\ run h e = Ok (h', Many r) /\ contents h' (Many r) l /\
  holds fulfilled l /\ ~ means fulfilled h e.
Proof.
  exists (Op true (Op false A B) C), four. do 2 eexists. exists [cnd 0; cnd 1; set_and true (cnd 2)].
  exists (fun _ _ n => n = 0). split; [repeat constructor; simpl; lia|]. split; [reflexivity|]. split; [repeat constructor|]. split.
  - right. exists [[cnd 0]; [cnd 1; set_and true (cnd 2)]], [cnd 0]. split; [|split; [left; reflexivity|repeat constructor]].
    split; [reflexivity|]. split.
    + constructor; [exists (cnd 0), []; auto|]. constructor; [|constructor]. do 2 eexists. split; [reflexivity|]. repeat constructor.
    + constructor; [|constructor]. do 2 eexists. split; reflexivity.
  - intros [_ [w [E S]]]. cbn in E. inversion E; subst. discriminate.
Qed.
Print Assumptions C28_parentheses_refuted.
(** [a & b | c & d], which needs no parentheses, raises. *)
Theorem C28_two_lists_refuted : exists e h, Forall (fun i => i < List.length h) (atoms e) /\ paren_free e /\ run h e = Err TypeError.
Proof.
  exists (Op false (Op true A B) (Op true C D)), four. split; [repeat constructor; simpl; lia|]. split; [cbn; tauto|reflexivity].
Qed.
Print Assumptions C28_two_lists_refuted.
(** A list holding one object twice: [x & [a; b; a]] with "or" in front of both
    occurrences of [a] changes also the second one. *)
Theorem C28_aliased_refuted : exists h a b h' r la lb l fulfilled,
  contents h a la /\ contents h b lb /\ clause la /\ py_op true h a b = Ok (h', Many r) /\
  contents h' (Many r) l /\ clauses lb [[cnd 0]; [cnd 1]; [cnd 0]] /\
  holds fulfilled (la ++ with_first true lb) /\ ~ holds fulfilled l.
Proof.
  exists four, (One 3), (Many [0; 1; 0]). do 2 eexists. exists [cnd 3], [cnd 0; cnd 1; cnd 0].
  exists [cnd 3; set_and true (cnd 0); cnd 1; set_and true (cnd 0)]. exists (fun _ _ n => n = 0).
  assert (CL : clauses [cnd 0; cnd 1; cnd 0] [[cnd 0]; [cnd 1]; [cnd 0]]).
  { split; [reflexivity|]. split; repeat constructor; do 2 eexists; (split; [reflexivity|]); constructor. }
  assert (C3 : clauses [cnd 3] ([] ++ [[cnd 3]])).
  { split; [reflexivity|]. split; repeat constructor. do 2 eexists. split; [reflexivity|]. constructor. }
  split; [repeat constructor|]. split; [repeat constructor|]. split; [exists (cnd 3), []; auto|].
  split; [reflexivity|]. split; [repeat constructor|]. split; [exact CL|]. split.
  - rewrite (C28_and_general _ _ _ _ _ _ _ C3 CL). left. exists [cnd 0]. split; [right; left; reflexivity|repeat constructor].
  - rewrite holds_split by discriminate. vm_compute. intros H. inversion H as [? ? F|? ? F]; subst; clear H.
    + inversion F. discriminate.
    + inversion F as [? ? F'|? ? F']; subst; clear F; [inversion F'; discriminate|inversion F'].
Qed.
Print Assumptions C28_aliased_refuted.

(** ** C29 *)
Theorem C29_add : forall locomotive ls i r, add_locomotive locomotive ls i = r <->
  (locomotive i = false /\ r = Err TypeError) \/
  (locomotive i = true /\ In i (targets ls) /\ r = Ok ls) \/
  (locomotive i = true /\ ~ In i (targets ls) /\ r = Ok (ls ++ [LRef (Some i)])).
Proof. exact add_spec. Qed.
Print Assumptions C29_add.
Theorem C29_remove : forall ls i, 
  (forall r, remove_locomotive ls i = Ok r <-> first_removed (fun e => e = LRef (Some i)) ls r) /\
  (remove_locomotive ls i = Err ValueError <-> ~ In i (targets ls)) /\
  (In i (targets ls) -> exists r, remove_locomotive ls i = Ok r).
Proof. exact remove_spec. Qed.
Print Assumptions C29_remove.
(** Any history, from any list that has each locomotive once. *)
Theorem C29_history : forall locomotive ops ls, NoDup (targets ls) ->
  NoDup (targets (lrun locomotive ls ops)) /\
  filter not_live (lrun locomotive ls ops) = filter not_live ls /\
  forall i, In i (targets (lrun locomotive ls ops)) <->
    present locomotive ops i \/ (In i (targets ls) /\ ~ In (RemoveLoco i) ops).
Proof. exact lrun_spec. Qed.
Print Assumptions C29_history.
Theorem C29_new_schedule : forall locomotive ops,
  NoDup (targets (lrun locomotive [] ops)) /\
  forall i, In i (targets (lrun locomotive [] ops)) <-> present locomotive ops i.
Proof.
  intros locomotive ops. destruct (lrun_spec locomotive ops []) as [N [_ M]]; [constructor|]. split; [exact N|].
  intros i. rewrite M. simpl. tauto.
Qed.
Print Assumptions C29_new_schedule.
Example C29_ex1 : lrun (fun i => negb (Nat.eqb i 9)) [LNum 4] [AddLoco 1; AddLoco 2; AddLoco 1; AddLoco 9; RemoveLoco 1; RemoveLoco 7; AddLoco 1]
  = [LNum 4; LRef (Some 2); LRef (Some 1)].
Proof. reflexivity. Qed.

Theorem C29_insert : forall l index name w,
  (exists i, place (List.length l) index i /\ i <= length l) /\
  (forall i, place (List.length l) index i -> insert_stop l index name w = firstn i l ++ new_stop name w :: skipn i l) /\
  append_stop l name w = l ++ [new_stop name w].
Proof.
  intros l index name w. split; [apply place_exists|]. split; [intros i; apply insert_stop_spec|apply append_stop_spec].
Qed.
Print Assumptions C29_insert.
Theorem C29_remove_stop : forall l name w,
  (forall r, remove_stop l name w = Ok r <-> first_removed (matching name w) l r) /\
  (remove_stop l name w = Err ValueError <-> forall s, In s l -> ~ matching name w s) /\
  ((exists s, In s l /\ matching name w s) -> exists r, remove_stop l name w = Ok r).
Proof. exact remove_stop_spec. Qed.
Print Assumptions C29_remove_stop.

(** Inserting a stop and removing it restores the list exactly if no stop before
    the place matches, apart from copies of the new one directly before it. *)
Theorem C29_insert_remove : forall l index name w i, place (List.length l) index i ->
  (remove_stop (insert_stop l index name w) name w = Ok l <->
   exists a m, firstn i l = a ++ repeat (new_stop name w) m /\ forall s, In s a -> ~ matching name w s).
Proof. exact insert_remove. Qed.
Print Assumptions C29_insert_remove.
(** The stops stay the same up to order if conditions are given. *)
Theorem C29_insert_remove_same : forall l index name w, w <> NoConds ->
  exists r, remove_stop (insert_stop l index name w) name w = Ok r /\ Permutation r l.
Proof. exact insert_remove_same. Qed.
Print Assumptions C29_insert_remove_same.
Definition sA := mkStop (str "A") []. Definition sB := mkStop (str "B") [cnd 1]. Definition sA' := mkStop (str "A") [cnd 2].
Example C29_ex2 : insert_stop [sA; sB] (-1) (str "B") (OneCond (cnd 2)) = [sA; mkStop (str "B") [cnd 2]; sB] /\
  remove_stop [sA; mkStop (str "B") [cnd 2]; sB] (str "B") (OneCond (cnd 1)) = Ok [sA; mkStop (str "B") [cnd 2]].
Proof. split; reflexivity. Qed.
(** The order may change; without conditions another stop may be lost. *)
Theorem C29_insert_remove_refuted :
  (exists l name w r, w <> NoConds /\ remove_stop (append_stop l name w) name w = Ok r /\ r <> l) /\
  (exists l name r, remove_stop (append_stop l name NoConds) name NoConds = Ok r /\ ~ Permutation r l).
Proof.
  split.
  - exists [sA'; sB], (str "A"), (Conds [cnd 2]), [sB; sA']. split; [discriminate|]. split; [reflexivity|discriminate].
  - exists [sA'], (str "A"), [sA]. split; [reflexivity|]. intros P. apply Permutation_length_1_inv in P. discriminate.
Qed.
Print Assumptions C29_insert_remove_refuted.
