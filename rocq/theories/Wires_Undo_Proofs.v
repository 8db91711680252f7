(** Proofs about undoing connections. *)
From Coq Require Import ZArith List Bool String Lia Permutation.
From Verif Require Import Common Dict Wires_Model Wires_Spec Wires_Proofs Wires_More_Proofs.
Import ListNotations.
Local Open Scope Z_scope.
Local Open Scope list_scope.

Lemma unlinked_iff : forall a t1 b t2 ws ws', unlinked a t1 b t2 ws ws' <->
  ws' = both_removed (link a t1 b t2) (link b t2 a t1) ws.
Proof.
  intros. split.
  - intros [mid [A B]]. eapply both_removed_unique; eassumption.
  - intros ->. apply both_removed_first.
Qed.
Lemma unlinked_swap : forall a t1 b t2 ws ws', unlinked a t1 b t2 ws ws' <-> unlinked b t2 a t1 ws ws'.
Proof. intros. rewrite !unlinked_iff. unfold both_removed. rewrite list_remove_comm. reflexivity. Qed.
Lemma unlinked_copies : forall a t1 b t2 ws ws', unlinked a t1 b t2 ws ws' -> forall v, copies v ws' =
  (copies v ws - (if wire_dec v (link a t1 b t2) then 1 else 0) - (if wire_dec v (link b t2 a t1) then 1 else 0))%nat.
Proof. intros a t1 b t2 ws ws' U v. apply unlinked_iff in U. subst. apply both_removed_count. Qed.
Lemma unlinked_absent : forall a t1 b t2 ws ws', unlinked a t1 b t2 ws ws' -> ~ joined ws a t1 b t2 -> ws' = ws.
Proof. intros a t1 b t2 ws ws' U N. apply unlinked_iff in U. subst. unfold joined in N. apply both_removed_absent; tauto. Qed.

Lemma refers_same : forall c c' r a, c_ents c' = c_ents c -> c_ids c' = c_ids c -> (refers c' r a <-> refers c r a).
Proof. intros c c' [i|k] a E F; simpl; [reflexivity|]. rewrite E, F. reflexivity. Qed.
Lemma inside_same : forall veq c c' a, c_ents c' = c_ents c -> (inside veq c' a <-> inside veq c a).
Proof. intros veq c c' a E. unfold inside. rewrite E. reflexivity. Qed.
Lemma refers_unique : forall c r a a', refers c r a -> refers c r a' -> a = a'.
Proof. intros c r a a' A B. apply resolve_refers in A. apply resolve_refers in B. congruence. Qed.
Lemma power_side_unique : forall s t t', power_side s t -> power_side s t' -> t = t'.
Proof. intros s t t' A B. apply power_value_side in A. apply power_value_side in B. congruence. Qed.
Lemma circuit_side_unique : forall col s t t', circuit_side col s t -> circuit_side col s t' -> t = t'.
Proof. intros col s t t' A B. apply circuit_value_side in A. apply circuit_value_side in B. congruence. Qed.

Section Undo.
  Variable attr : nat -> obj.
  Variable veq : nat -> nat -> bool.

  Theorem remove_power_unlinked : forall c r1 r2 s1 s2 c',
    remove_power veq c r1 r2 s1 s2 = Ok c' <->
    exists a b t1 t2, refers c r1 a /\ refers c r2 b /\ inside veq c a /\ inside veq c b /\
      power_side s1 t1 /\ power_side s2 t2 /\
      exists ws', unlinked a t1 b t2 (c_wires c) ws' /\ rewired c c' ws'.
  Proof.
    intros. rewrite remove_power_iff. split; intros [a [b [t1 [t2 [A [B [IA [IB [S1 [S2 R]]]]]]]]]]; exists a, b, t1, t2;
      repeat (split; [assumption|]).
    - eexists. split; [apply unlinked_iff; reflexivity|exact R].
    - destruct R as [ws' [U R]]. apply unlinked_iff in U. subst ws'. exact R.
  Qed.
  Theorem remove_circuit_unlinked : forall c col r1 r2 s1 s2 c',
    remove_circuit veq c col r1 r2 s1 s2 = Ok c' <->
    exists a b t1 t2, refers c r1 a /\ refers c r2 b /\ inside veq c a /\ inside veq c b /\
      circuit_side col s1 t1 /\ circuit_side col s2 t2 /\
      exists ws', unlinked a t1 b t2 (c_wires c) ws' /\ rewired c c' ws'.
  Proof.
    intros. rewrite remove_circuit_iff. split; intros [a [b [t1 [t2 [A [B [IA [IB [S1 [S2 R]]]]]]]]]]; exists a, b, t1, t2;
      repeat (split; [assumption|]).
    - eexists. split; [apply unlinked_iff; reflexivity|exact R].
    - destruct R as [ws' [U R]]. apply unlinked_iff in U. subst ws'. exact R.
  Qed.

  Theorem power_undo : forall c r1 r2 s1 s2 c1 ws, add_power attr veq c r1 r2 s1 s2 = Ok (c1, ws) ->
    exists a b t1 t2 c2, refers c r1 a /\ refers c r2 b /\ power_side s1 t1 /\ power_side s2 t2 /\
      remove_power veq c1 r1 r2 s1 s2 = Ok c2 /\ c_ents c2 = c_ents c /\ c_ids c2 = c_ids c /\
      (~ joined (c_wires c) a t1 b t2 -> c2 = c) /\
      (Permutation (c_wires c2) (c_wires c) <-> ~ In (link b t2 a t1) (c_wires c)).
  Proof.
    intros c r1 r2 s1 s2 c1 ws E. apply add_power_iff in E.
    destruct E as [a [b [t1 [t2 [ra [rb [A [B [IA [IB [S1 [S2 [_ [_ [_ [_ [[E1 [E2 E3]] _]]]]]]]]]]]]]]]]].
    exists a, b, t1, t2, (with_wires c (both_removed (link a t1 b t2) (link b t2 a t1) (c_wires c1))).
    repeat (split; [assumption|]). split.
    { apply remove_power_iff. exists a, b, t1, t2. rewrite !(refers_same c c1) by assumption.
      rewrite !(inside_same veq c c1) by assumption. repeat (split; [assumption|]).
      unfold rewired. rewrite E1, E2. repeat split. }
    split; [reflexivity|]. split; [reflexivity|]. rewrite E3. split.
    - intros N. unfold joined in N. rewrite both_removed_undo by tauto. destruct c; reflexivity.
    - apply both_removed_undo_iff.
  Qed.
  Theorem circuit_undo : forall c col r1 r2 s1 s2 c1 ws, add_circuit attr veq c col r1 r2 s1 s2 = Ok (c1, ws) ->
    exists a b t1 t2 c2, refers c r1 a /\ refers c r2 b /\ circuit_side col s1 t1 /\ circuit_side col s2 t2 /\
      remove_circuit veq c1 col r1 r2 s1 s2 = Ok c2 /\ remove_circuit veq c1 col r2 r1 s2 s1 = Ok c2 /\
      c_ents c2 = c_ents c /\ c_ids c2 = c_ids c /\
      (~ joined (c_wires c) a t1 b t2 -> c2 = c) /\
      (Permutation (c_wires c2) (c_wires c) <-> ~ In (link b t2 a t1) (c_wires c)).
  Proof.
    intros c col r1 r2 s1 s2 c1 ws E. apply add_circuit_iff in E.
    destruct E as [a [b [t1 [t2 [ra [rb [w1 [w2 [w3 [A [B [IA [IB [S1 [S2 [_ [_ [_ [_ [[E1 [E2 E3]] _]]]]]]]]]]]]]]]]]]]].
    exists a, b, t1, t2, (with_wires c (both_removed (link a t1 b t2) (link b t2 a t1) (c_wires c1))).
    repeat (split; [assumption|]). split; [|split].
    { apply remove_circuit_iff. exists a, b, t1, t2. rewrite !(refers_same c c1) by assumption.
      rewrite !(inside_same veq c c1) by assumption. repeat (split; [assumption|]).
      unfold rewired. rewrite E1, E2. repeat split. }
    { apply remove_circuit_iff. exists b, a, t2, t1. rewrite !(refers_same c c1) by assumption.
      rewrite !(inside_same veq c c1) by assumption. repeat (split; [assumption|]).
      unfold rewired, both_removed. rewrite E1, E2, list_remove_comm. repeat split. }
    split; [reflexivity|]. split; [reflexivity|]. rewrite E3. split.
    - intros N. unfold joined in N. rewrite both_removed_undo by tauto. destruct c; reflexivity.
    - apply both_removed_undo_iff.
  Qed.

  Theorem remove_circuit_swap : forall c col r1 r2 s1 s2 c',
    remove_circuit veq c col r1 r2 s1 s2 = Ok c' <-> remove_circuit veq c col r2 r1 s2 s1 = Ok c'.
  Proof.
    assert (H : forall c col r1 r2 s1 s2 c', remove_circuit veq c col r1 r2 s1 s2 = Ok c' -> remove_circuit veq c col r2 r1 s2 s1 = Ok c').
    { intros c col r1 r2 s1 s2 c'. rewrite !remove_circuit_unlinked.
      intros [a [b [t1 [t2 [A [B [IA [IB [S1 [S2 [ws' [U R]]]]]]]]]]]]. exists b, a, t2, t1. repeat (split; [assumption|]).
      exists ws'. split; [apply unlinked_swap; exact U|exact R]. }
    intros; split; apply H.
  Qed.
  Theorem remove_power_swap : forall c r1 r2 s1 s2 c',
    remove_power veq c r1 r2 s1 s2 = Ok c' <-> remove_power veq c r2 r1 s2 s1 = Ok c'.
  Proof.
    assert (H : forall c r1 r2 s1 s2 c', remove_power veq c r1 r2 s1 s2 = Ok c' -> remove_power veq c r2 r1 s2 s1 = Ok c').
    { intros c r1 r2 s1 s2 c'. rewrite !remove_power_unlinked.
      intros [a [b [t1 [t2 [A [B [IA [IB [S1 [S2 [ws' [U R]]]]]]]]]]]]. exists b, a, t2, t1. repeat (split; [assumption|]).
      exists ws'. split; [apply unlinked_swap; exact U|exact R]. }
    intros; split; apply H.
  Qed.
End Undo.

Lemma circuit_side_inj : forall col s col' s' t, circuit_side col s t -> circuit_side col' s' t -> col = col' /\ s = s'.
Proof. unfold circuit_side. intros. intuition (subst; try lia; auto). Qed.
