(** What setting and removing conditions does. *)
From Coq Require Import ZArith NArith String List Bool Lia.
From Verif Require Import Common Dict Assign_Model Condition_Model Condition_Spec Condition_Proofs.
Import ListNotations.
Local Open Scope string_scope.
Local Open Scope list_scope.
Local Open Scope Z_scope.

(** For the examples. *)
Definition sig (n t : string) : signal := mkSignal (Some (str n)) (str t) (Some (str "normal")).
Definition world0 : world :=
  mkWorld (fun s => if pystr_eqb s (str "signal-A") then Some (sig "signal-A" "virtual")
                    else if pystr_eqb s (str "iron-ore") then Some (sig "iron-ore" "item") else None)
          (fun s => if pystr_eqb s (str "10") then Some 10 else None)
          (fun s => pystr_eqb s (str "signal-A") || pystr_eqb s (str "iron-ore")).
Definition old : condition := mkCondition (Some (sig "iron-ore" "item")) (true, false) (str ">") (Some 7) None (true, true).
Definition belt (m : mode) : entity :=
  mkEntity (str "TransportBelt") m true (Model (mkControl (Some old) (Some old) None [str "foo"] 3)).

(** Which entities have which condition. *)
Theorem C84_classes cls :
  (In Circuit (slots_of cls) <-> is_one cls (circuit_only ++ circuit_logistic ++ turrets))
  /\ (In Logistic (slots_of cls) <-> is_one cls (circuit_logistic ++ turrets))
  /\ (In Ignore (slots_of cls) <-> is_one cls turrets).
Proof. exact (Logic.conj (circuit_classes cls) (Logic.conj (logistic_classes cls) (ignore_classes cls))). Qed.
Print Assumptions C84_classes.
Example C84_classes_example : slots_of (str "FluidTurret") = [Circuit; Logistic; Ignore] /\ slots_of (str "Lamp") = [Circuit] /\ slots_of (str "Beacon") = [].
Proof. vm_compute. repeat split. Qed.

(** Arguments that make sense ask for exactly one condition. *)
Theorem C84_asks W a c b : (exists n, condition_for W a c b n) <-> left_ok W a /\ spelled c /\ right_ok W b.
Proof. exact (condition_exists W a c b). Qed.
Print Assumptions C84_asks.
Theorem C84_unique W a c b n n' : condition_for W a c b n -> condition_for W a c b n' -> n = n'.
Proof. exact (condition_unique W a c b n n'). Qed.
Print Assumptions C84_unique.

(** Setting puts that condition in its place and touches nothing else. *)
Theorem C84_set W e s a c b k n :
  In s (slots_of (e_class e)) -> e_control e = Model k -> condition_for W a c b n ->
  exists e' k' w, set_condition W e s a c b = (e', (w, None)) /\ only_control e e' /\ e_control e' = Model k'
    /\ cond_at s k' = Some n /\ same_but s k k'.
Proof. exact (set_does W e s a c b k n). Qed.
Print Assumptions C84_set.
Example C84_set_example :
  e_control (fst (set_condition world0 (belt MStrict) Circuit (AName (str "signal-A")) (str ">=") (AInt 10)))
  = Model (mkControl (Some (mkCondition (Some (sig "signal-A" "virtual")) (true, true) [8805%N] (Some 10) None (true, true)))
                     (Some old) None [str "foo"] 3)
  /\ e_control (fst (set_condition world0 (belt MNone) Logistic ANone (str "=") (AName (str "iron-ore"))))
  = Model (mkControl (Some old)
                     (Some (mkCondition None (true, true) (str "=") (Some 0) (Some (sig "iron-ore" "item")) (true, true)))
                     None [str "foo"] 3).
Proof. split; vm_compute; reflexivity. Qed.

(** The condition means what was written, in either spelling. *)
Theorem C84_means_constant W a c b n v g z :
  condition_for W a c b n -> signal_of W a g -> number_of W b z -> (met v n <-> compares c (v g) z).
Proof. exact (means_constant W a c b n v g z). Qed.
Print Assumptions C84_means_constant.
Theorem C84_means_signal W a c b n v g h :
  condition_for W a c b n -> signal_of W a g -> signal_of W b h -> (met v n <-> compares c (v g) (v h)).
Proof. exact (means_signal W a c b n v g h). Qed.
Print Assumptions C84_means_signal.
Theorem C84_means_nothing W c b n v : condition_for W ANone c b n -> ~ met v n.
Proof. exact (means_nothing W c b n v). Qed.
Print Assumptions C84_means_nothing.
Example C84_means_example :
  met (fun g => if pystr_eqb (s_type g) (str "virtual") then 12 else 0)
      (make (Some (sig "signal-A" "virtual")) (str ">=") (Constant 10))
  /\ ~ met (fun g => if pystr_eqb (s_type g) (str "virtual") then 9 else 0)
      (make (Some (sig "signal-A" "virtual")) (str ">=") (Constant 10)).
Proof.
  split.
  - exists (sig "signal-A" "virtual"). split; [reflexivity|]. apply c_ge. vm_compute. discriminate.
  - intros [a [A H]]. injection A as <-. apply (proj1 (cmp_ge _ _)) in H. vm_compute in H. apply H. reflexivity.
Qed.

(** When it fails nothing changes and nothing is said; when it fails. *)
Theorem C84_failure W e s a c b e' w x : set_condition W e s a c b = (e', (w, Some x)) -> e' = e /\ w = [].
Proof. exact (set_fails W e s a c b e' w x). Qed.
Print Assumptions C84_failure.
Theorem C84_value W e s a c b :
  snd (snd (set_condition W e s a c b)) = Some ValueError
  <-> In s (slots_of (e_class e)) /\ ~ (left_ok W a /\ spelled c /\ right_ok W b).
Proof. exact (set_raises_value W e s a c b). Qed.
Print Assumptions C84_value.
Theorem C84_attribute W e s a c b :
  snd (snd (set_condition W e s a c b)) = Some AttributeError
  <-> ~ In s (slots_of (e_class e)) \/ (exists z, e_control e = Plain z) /\ left_ok W a /\ spelled c /\ right_ok W b.
Proof. exact (set_raises_attribute W e s a c b). Qed.
Print Assumptions C84_attribute.
Theorem C84_nothing_else W e s a c b x :
  snd (snd (set_condition W e s a c b)) = Some x -> x = ValueError \/ x = AttributeError.
Proof. exact (set_raises_other W e s a c b x). Qed.
Print Assumptions C84_nothing_else.
Example C84_failure_example :
  snd (set_condition world0 (belt MStrict) Circuit (AName (str "nonsense")) (str ">") (AInt 0)) = ([], Some ValueError)
  /\ snd (set_condition world0 (belt MStrict) Circuit ANone (str "=>") (AInt 0)) = ([], Some ValueError)
  /\ snd (set_condition world0 (belt MStrict) Circuit ANone (str ">") (AInt 2147483648)) = ([], Some ValueError)
  /\ snd (set_condition world0 (belt MStrict) Circuit ANone (str ">") (AInt 2147483647)) = ([UnknownKeyword [str "foo"]], None)
  /\ snd (set_condition world0 (belt MStrict) Circuit ANone (str ">") ANone) = ([], Some ValueError)
  /\ snd (set_condition world0 (belt MStrict) Ignore ANone (str ">") (AInt 0)) = ([], Some AttributeError).
Proof. vm_compute. repeat split. Qed.

(** The warnings. *)
Theorem C84_warns W e s a c b k n e' w :
  e_control e = Model k -> condition_for W a c b n -> set_condition W e s a c b = (e', (w, None)) ->
  if mode_le (e_mode e) MMinimum then w = []
  else exists w1 w2 w3, w = w1 ++ w2 ++ w3 /\ warned W (first_signal n) w1 /\ warned W (second_signal n) w2
       /\ if e_known e then warned_keys (extras k) w3 else w3 = [].
Proof. exact (set_warns W e s a c b k n e' w). Qed.
Print Assumptions C84_warns.
Example C84_warns_example :
  snd (set_condition world0 (belt MStrict) Circuit (ASignal (sig "x" "item")) (str ">") (ASignal (sig "y" "item")))
  = ([UnknownSignal (str "x"); UnknownSignal (str "y"); UnknownKeyword [str "foo"]], None)
  /\ snd (set_condition world0 (belt MMinimum) Circuit (ASignal (sig "x" "item")) (str ">") (ASignal (sig "y" "item")))
  = ([], None).
Proof. vm_compute. split; reflexivity. Qed.

(** Removing. *)
Theorem C84_remove e s k : In s (slots_of (e_class e)) -> e_control e = Model k ->
  exists e' k', remove_condition e s = (e', None) /\ only_control e e' /\ e_control e' = Model k'
    /\ cond_at s k' = None /\ same_but s k k'.
Proof. exact (remove_does e s k). Qed.
Print Assumptions C84_remove.
Theorem C84_remove_failure e s :
  (~ In s (slots_of (e_class e)) \/ exists z, e_control e = Plain z) -> remove_condition e s = (e, Some AttributeError).
Proof. exact (remove_fails e s). Qed.
Print Assumptions C84_remove_failure.
Example C84_remove_example :
  remove_condition (belt MStrict) Logistic
  = (mkEntity (str "TransportBelt") MStrict true (Model (mkControl (Some old) None None [str "foo"] 3)), None)
  /\ snd (remove_condition (belt MStrict) Ignore) = Some AttributeError.
Proof. vm_compute. split; reflexivity. Qed.

(** After any calls a place shows what the last accepted call put there. *)
Theorem C84_history W e s k os v :
  e_control e = Model k -> shows W (e_class e) s (cond_at s k) os v -> field s (run W os e) = Some v.
Proof. exact (history W e s k os v). Qed.
Print Assumptions C84_history.
Theorem C84_history_total W cls s v0 os : ~ In Clear os -> exists v, shows W cls s v0 os v.
Proof. exact (history_total W cls s v0 os). Qed.
Print Assumptions C84_history_total.
Theorem C84_history_rest W e k os k' :
  e_control e = Model k -> e_control (run W os e) = Model k' -> extras k' = extras k /\ rest k' = rest k.
Proof. exact (history_rest W e k os k'). Qed.
Print Assumptions C84_history_rest.
Theorem C84_cleared W e os : In Clear os -> exists z, e_control (run W os e) = Plain z.
Proof. exact (cleared W e os). Qed.
Print Assumptions C84_cleared.
Example C84_history_example :
  field Circuit (run world0 [Set_ Circuit (AName (str "signal-A")) (str "==") (AInt 1); Remove Logistic;
                             Set_ Circuit ANone (str "?") (AInt 1); Set_ Ignore ANone (str "=") (AInt 1)] (belt MStrict))
  = Some (Some (mkCondition (Some (sig "signal-A" "virtual")) (true, true) (str "=") (Some 1) None (true, true)))
  /\ field Logistic (run world0 [Remove Logistic] (belt MNone)) = Some None
  /\ field Circuit (run world0 [Clear; Set_ Circuit ANone (str "=") (AInt 1)] (belt MNone)) = None.
Proof. vm_compute. repeat split. Qed.

(** Claimed: "DataFormatError: If a is not a valid signal name, if cmp is not a valid
    operation, or if b is neither".  It is never a DataFormatError. *)
Theorem C84_exception_refuted :
  ~ (forall W e s a c b, In s (slots_of (e_class e)) -> ~ (left_ok W a /\ spelled c /\ right_ok W b) ->
       snd (snd (set_condition W e s a c b)) = Some DataFormatError).
Proof.
  intros H. assert (D : In Circuit (slots_of (e_class (belt MStrict)))) by (vm_compute; left; reflexivity).
  assert (N : ~ (left_ok world0 ANone /\ spelled (str "?") /\ right_ok world0 (AInt 1))).
  { intros [_ [[x [y C]] _]]. inversion C. }
  specialize (H world0 (belt MStrict) Circuit ANone (str "?") (AInt 1) D N). vm_compute in H. discriminate.
Qed.
Print Assumptions C84_exception_refuted.
(** Claimed: control behaviour "gets set to an empty dict if set to None", and
    removing "does nothing if the Entity has no condition to remove". *)
Theorem C84_none_refuted :
  ~ (forall e s, In s (slots_of (e_class e)) -> snd (remove_condition (clear e) s) = None).
Proof.
  intros H. assert (D : In Circuit (slots_of (e_class (belt MStrict)))) by (vm_compute; left; reflexivity).
  specialize (H (belt MStrict) Circuit D). vm_compute in H. discriminate.
Qed.
Print Assumptions C84_none_refuted.
(** Claimed: comparators of two characters "remain that way until exported". *)
Theorem C84_spelling_refuted :
  ~ (forall W e a c b n, set_condition W e Circuit a c b = (fst (set_condition W e Circuit a c b), ([], None)) ->
       field Circuit (fst (set_condition W e Circuit a c b)) = Some (Some n) -> comparator n = c).
Proof.
  intros H.
  specialize (H world0 (belt MNone) ANone (str ">=") (AInt 1) (make None (str ">=") (Constant 1)) ltac:(vm_compute; reflexivity) ltac:(vm_compute; reflexivity)).
  vm_compute in H. discriminate.
Qed.
Print Assumptions C84_spelling_refuted.
(** A string that is no signal can be accepted, as a number. *)
Theorem C84_text_refuted :
  ~ (forall W e s a c t, (forall g, ~ signal_of W (AName t) g) ->
       snd (snd (set_condition W e s a c (AName t))) <> None).
Proof.
  intros H. apply (H world0 (belt MStrict) Circuit ANone (str "=") (str "10")); [|vm_compute; reflexivity].
  intros g G. apply as_signal_iff in G. vm_compute in G. discriminate.
Qed.
Print Assumptions C84_text_refuted.
