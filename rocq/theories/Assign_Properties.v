(** C47: validated assignment. *)
From Coq Require Import ZArith NArith QArith String List Bool.
From Verif Require Import Common Slots_Model Assign_Model Assign_Spec Assign_Proofs.
Import ListNotations.
Local Open Scope string_scope.
Local Open Scope list_scope.
Local Open Scope Z_scope.

(** An assignment succeeds exactly when the value stands for one of the declared
    type that is not refused, and no warning it earns has been made an error. *)
Theorem C47_accepts : forall e fatal a m o v, m <> MNone -> well_behaved e -> (fluid_attr a -> typed_fluid o) ->
  error (assign e fatal a m o v) = None <->
  exists w, stands_for e a v w /\ ~ refused e a m o w /\ ~ trips e a m o v w /\
            (forall x, warned e a m o v w x -> fatal x = false).
Proof. exact accepts. Qed.
Print Assumptions C47_accepts.

(** It then stores that value and shows exactly the warnings earned. *)
Theorem C47_success : forall e fatal a m o v w, m <> MNone -> well_behaved e -> (fluid_attr a -> typed_fluid o) ->
  stands_for e a v w -> error (assign e fatal a m o v) = None ->
  (forall b, after (assign e fatal a m o v) b = put o a (stored a m w) b) /\
  (forall x, In x (issued (assign e fatal a m o v)) <-> warned e a m o v w x).
Proof. exact success. Qed.
Print Assumptions C47_success.

(** What is stored has the declared type, with its range. *)
Theorem C47_typed : forall e fatal a m o v, m <> MNone -> well_behaved e -> (fluid_attr a -> typed_fluid o) ->
  error (assign e fatal a m o v) = None -> has_type (type_of a) (after (assign e fatal a m o v) a).
Proof. exact typed_after. Qed.
Print Assumptions C47_typed.

Theorem C47_data_format : forall e fatal a m o v, m <> MNone -> well_behaved e -> (fluid_attr a -> typed_fluid o) ->
  error (assign e fatal a m o v) = Some DataFormat <->
  (forall w, ~ stands_for e a v w) \/ (exists w, stands_for e a v w /\ refused e a m o w).
Proof. exact data_format. Qed.
Print Assumptions C47_data_format.

(** The only other exception that validation raises is a TypeError, for a
    direction of [None] and for a recipe without known ingredients on a machine
    with requested items. *)
Theorem C47_crash : forall e fatal a m o v x, m <> MNone -> well_behaved e -> (fluid_attr a -> typed_fluid o) ->
  error (assign e fatal a m o v) = Some (Crash x) <->
  x = TypeError /\ exists w, stands_for e a v w /\ trips e a m o v w.
Proof. exact crash. Qed.
Print Assumptions C47_crash.

Theorem C47_escalated : forall e fatal a m o v x, m <> MNone -> well_behaved e -> (fluid_attr a -> typed_fluid o) ->
  error (assign e fatal a m o v) = Some (Escalated x) ->
  exists w, stands_for e a v w /\ warned e a m o v w x /\ fatal x = true /\
    (forall y, In y (issued (assign e fatal a m o v)) -> warned e a m o v w y /\ fatal y = false).
Proof. exact escalated. Qed.
Print Assumptions C47_escalated.

(** Errors come before warnings: an error leaves no warning behind. *)
Theorem C47_errors_first : forall e fatal a m o v, well_behaved e -> (fluid_attr a -> typed_fluid o) ->
  (error (assign e fatal a m o v) = Some DataFormat \/ exists x, error (assign e fatal a m o v) = Some (Crash x)) ->
  issued (assign e fatal a m o v) = [].
Proof. exact errors_first. Qed.
Print Assumptions C47_errors_first.

(** A rejected assignment leaves the object as it was, unless the setter stores
    first (recipe, recipe quality) or the check comes after storing (the
    infinity pipe) or a warning was made an error. *)
Theorem C47_atomic : forall e fatal a m o v f, well_behaved e ->
  ~ hasty a -> ~ fluid_attr a -> (forall x, f <> Escalated x) ->
  error (assign e fatal a m o v) = Some f -> forall b, after (assign e fatal a m o v) b = o b.
Proof. exact atomic. Qed.
Print Assumptions C47_atomic.

(** What exactly is left behind in every case. *)
Theorem C47_leaves : forall e fatal a m o v f, m <> MNone -> well_behaved e -> (fluid_attr a -> typed_fluid o) ->
  error (assign e fatal a m o v) = Some f ->
  leaves e a m o v f (after (assign e fatal a m o v) a) /\
  (forall b, b <> a -> after (assign e fatal a m o v) b = o b).
Proof. exact leaves_ok. Qed.
Print Assumptions C47_leaves.

(** A rejected recipe stays, a rejected temperature stays, and so does a value
    whose warning was made an error. *)
Theorem C47_recipe_refuted : exists e o v, well_behaved e /\
  error (assign e quiet Recipe MStrict o v) = Some DataFormat /\
  after (assign e quiet Recipe MStrict o v) Recipe = v /\ o Recipe <> v.
Proof.
  exists toy, fresh, (VInt 5). split; [exact toy_well_behaved|]. destruct hasty_example as [A B].
  split; [exact A|split; [exact B|discriminate]].
Qed.
Print Assumptions C47_recipe_refuted.

Theorem C47_temperature_refuted : exists e o v, well_behaved e /\ typed_fluid o /\
  error (assign e quiet FluidTemperature MStrict o v) = Some DataFormat /\
  after (assign e quiet FluidTemperature MStrict o v) FluidTemperature = v /\ o FluidTemperature <> v.
Proof.
  exists toy, fresh, (VInt 50). split; [exact toy_well_behaved|]. split; [exact fresh_typed|].
  destruct temperature_example as [A B]. split; [exact A|split; [exact B|discriminate]].
Qed.
Print Assumptions C47_temperature_refuted.

Theorem C47_escalation_refuted : exists e o v x, well_behaved e /\
  error (assign e loud Facing MStrict o v) = Some (Escalated x) /\
  after (assign e loud Facing MStrict o v) Facing <> o Facing.
Proof.
  exists toy, fresh, (VInt 5), (WDirection (VInt 4)). split; [exact toy_well_behaved|].
  destruct loud_example as [A B]. split; [exact A|]. rewrite B. discriminate.
Qed.
Print Assumptions C47_escalation_refuted.

(** Nothing but the assigned attribute changes. *)
Theorem C47_others : forall e fatal a m o v b, well_behaved e -> (fluid_attr a -> typed_fluid o) -> b <> a ->
  after (assign e fatal a m o v) b = o b.
Proof. exact untouched. Qed.
Print Assumptions C47_others.

(** Without validation everything is stored, silently. *)
Theorem C47_none : forall e fatal a o v, well_behaved e ->
  error (assign e fatal a MNone o v) = None /\ issued (assign e fatal a MNone o v) = [] /\
  exists x, unvalidated e a v x /\ forall b, after (assign e fatal a MNone o v) b = put o a x b.
Proof. exact none_mode. Qed.
Print Assumptions C47_none.

(** A stricter mode never loses an error, nor (when it accepts) a warning. *)
Theorem C47_stricter : forall e fatal a m n o v, well_behaved e -> (fluid_attr a -> typed_fluid o) ->
  at_most m n -> error (assign e fatal a m o v) <> None -> error (assign e fatal a n o v) <> None.
Proof. exact stricter_fails. Qed.
Print Assumptions C47_stricter.

Theorem C47_stricter_warnings : forall e fatal a m n o v, well_behaved e -> (fluid_attr a -> typed_fluid o) ->
  at_most m n -> error (assign e fatal a n o v) = None ->
  incl (issued (assign e fatal a m o v)) (issued (assign e fatal a n o v)).
Proof. exact stricter_warns. Qed.
Print Assumptions C47_stricter_warnings.

(** Reissuing a result of [validate()]. *)
Theorem C47_reissue_errors : forall fatal r, error_list r <> [] ->
  exists f rest, error_list r = f :: rest /\ reissue_all fatal r = ([], Some f).
Proof. exact reissue_errors. Qed.
Print Assumptions C47_reissue_errors.

Theorem C47_reissue_warnings : forall fatal r,
  error_list r = [] -> (forall w, In w (warning_list r) -> fatal w = false) ->
  reissue_all fatal r = (warning_list r, None).
Proof. exact reissue_warnings. Qed.
Print Assumptions C47_reissue_warnings.

(** … and of the results of many objects added up: the first error of the first
    object with one is raised, otherwise all warnings are issued in order. *)
Theorem C47_combined_error : forall fatal rs before r after f rest, rs = before ++ r :: after ->
  Forall (fun b => error_list b = []) before -> error_list r = f :: rest ->
  reissue_all fatal (fold_left combine_results rs (mkVR [] [])) = ([], Some f).
Proof. exact combined_error. Qed.
Print Assumptions C47_combined_error.
Theorem C47_combined_warnings : forall fatal rs, Forall (fun r => error_list r = []) rs ->
  (forall r w, In r rs -> In w (warning_list r) -> fatal w = false) ->
  reissue_all fatal (fold_left combine_results rs (mkVR [] [])) = (concat (map warning_list rs), None).
Proof. exact combined_warnings. Qed.
Print Assumptions C47_combined_warnings.

(** ** Examples *)
Definition shown a m v := let r := assign toy quiet a m fresh v in (after r a, issued r, error r).

Example volume_minimum : shown Volume MMinimum (VFloat (Fin 2)) = (VFloat (Fin 2), [], None).
Proof. reflexivity. Qed.
Example volume_strict : shown Volume MStrict (VFloat (Fin 2)) = (VFloat (Fin 2), [WVolume (VFloat (Fin 2))], None).
Proof. reflexivity. Qed.
Example volume_pedantic : shown Volume MPedantic (VFloat (Fin 2)) = (VFloat (Fin 1), [], Some DataFormat).
Proof. reflexivity. Qed.
Example link_wraps : shown LinkId MStrict (VInt (2 ^ 32 + 7)) = (VInt 7, [], None).
Proof. reflexivity. Qed.
Example link_none : shown LinkId MStrict VNone = (VInt 0, [], None).
Proof. reflexivity. Qed.
Example direction_rounded : shown Facing MStrict (VInt 7) = (VInt 4, [WDirection (VInt 4)], None).
Proof. reflexivity. Qed.
Example direction_none : shown Facing MStrict VNone = (VInt 0, [], Some (Crash TypeError)).
Proof. reflexivity. Qed.
Example direction_none_minimum : shown Facing MMinimum VNone = (VNone, [], None).
Proof. reflexivity. Qed.
Example bar_two : shown Bar MPedantic (VInt 20) = (VInt 20, [WBarBeyond (VInt 20) 16], None).
Proof. reflexivity. Qed.
Example recipe_unknown : shown Recipe MStrict (VStr (str "soup")) = (VStr (str "soup"), [], Some (Crash TypeError)).
Proof. reflexivity. Qed.
Example recipe_known : shown Recipe MStrict (VStr (str "iron-gear-wheel")) = (VStr (str "iron-gear-wheel"), [], None).
Proof. reflexivity. Qed.
Example items_revert : shown Items MStrict (VInt 3) = (VItems [str "iron-plate"], [], Some DataFormat).
Proof. reflexivity. Qed.
Example fluid_needs_name : shown FluidTemperature MMinimum (VInt 50) = (VInt 50, [], None).
Proof. reflexivity. Qed.
Example none_anything : shown Bar MNone (VStr (str "soup")) = (VStr (str "soup"), [], None).
Proof. reflexivity. Qed.
