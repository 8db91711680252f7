(** C71: arithmetic combinators show what was assigned last. *)
From Coq Require Import ZArith NArith String List Bool.
From Verif Require Import Common Assign_Model Decider_Model Arith_Model Arith_Spec Arith_Proofs.
Import ListNotations.
Local Open Scope string_scope.
Local Open Scope list_scope.
Local Open Scope Z_scope.

(** Every program that does not switch the validation off goes as the
    specification with one slot per part says, warnings and exceptions included. *)
Theorem C71_history : forall known m p, m <> MNone -> Forall validating p ->
  exists sh, goes known m (Parts fresh) p sh (outcomes known (new_state m) p) /\ shows (exec_all known (new_state m) p) sh.
Proof. exact history_new. Qed.
Print Assumptions C71_history.
Theorem C71_deterministic : forall known m sh t a b r q,
  does known m sh t a r -> does known m sh t b q -> a = b /\ r = q.
Proof. exact does_deterministic. Qed.
Print Assumptions C71_deterministic.
Theorem C71_one_reading : forall s a b, shows s a -> shows s b -> a = b.
Proof. exact shows_fun. Qed.
Print Assumptions C71_one_reading.
Example C71_history_ex :
  let p := [SetFirst (AName each); SetOutput (AName each); SetOperation (AName (str "xOr")); SetSecond (AInt 3000000000);
            SetSecond (ABool true); SetFirst (AName (str "signal-everything"))] in
  let s := exec_all all_known (new_state MStrict) p in
  outcomes all_known (new_state MStrict) p =
    [Ok []; Ok []; Ok []; Err DataFormatError; Ok []; Ok [WForbidden (str "signal-everything"); WEach]] /\
  get_first s = Ok (sg "signal-everything") /\ get_operation s = Ok (AName (str "XOR")) /\
  get_second s = Ok (AInt 1) /\ get_output s = Ok (sg "signal-each").
Proof. vm_compute. repeat split. Qed.

(** How strict the validation is does not change what is stored. *)
Theorem C71_modes_agree : forall known p m1 m2, m1 <> MNone -> m2 <> MNone -> Forall mode_free p ->
  st_cb (exec_all known (new_state m1) p) = st_cb (exec_all known (new_state m2) p).
Proof. intros known p m1 m2 M1 M2 F. exact (modes_agree known p m1 m2 _ (inv_new m1 M1) M2 F). Qed.
Print Assumptions C71_modes_agree.
Theorem C71_minimum_silent : forall known sh t sh' r, does known MMinimum sh t sh' r -> r = Ok [] \/ exists e, r = Err e.
Proof. exact minimum_silent. Qed.
Print Assumptions C71_minimum_silent.

(** All at once: what can be read afterwards. *)
Theorem C71_all_read : forall known m cb fo fw op so sw out ws,
  m <> MNone -> snd (exec known (mkState m cb) (SetAll fo fw op so sw out)) = Ok ws ->
  let s := fst (exec known (mkState m cb) (SetAll fo fw op so sw out)) in
  (exists a, operand_meant known fo a /\ get_first s = Ok a) /\
  (exists o, operation_meant (or_times op) o /\ get_operation s = Ok o) /\
  (exists b, operand_meant known (not_none so) b /\ get_second s = Ok b) /\
  (exists u, signal_meant known out u /\ get_output s = Ok u).
Proof. exact all_read. Qed.
Print Assumptions C71_all_read.
Theorem C71_second_none_refuted : forall m, m <> MNone ->
  get_second (fst (exec all_known (new_state m) (SetAll ANone [] ANone ANone [] ANone))) = Ok (AInt 0).
Proof. exact second_none_refuted. Qed.
Print Assumptions C71_second_none_refuted.
Theorem C71_removed_refuted : forall known m o,
  let s := fst (exec known (mkState m (CModel o)) Remove) in
  get_second s = Ok (AInt 0) /\ get_operation s = Ok (AName (str "*")) /\ networks s <> None.
Proof. exact removed_refuted. Qed.
Print Assumptions C71_removed_refuted.

(** Refusals: which exception, and that nothing changes. *)
Theorem C71_refused : forall known m p t e, m <> MNone -> Forall validating p -> validating t ->
  let s := exec_all known (new_state m) p in
  snd (exec known s t) = Err e ->
  (st_cb s <> CModel None -> exists sh, shows s sh /\ shows (fst (exec known s t)) sh) /\
  e = match st_cb s with
      | CModel _ => DataFormatError
      | _ => match t with SetAll _ _ _ _ _ _ => DataFormatError | _ => AttributeError end
      end.
Proof.
  intros known m p t e M F V s E. destruct (history known p (new_state m) (inv_new m M) F) as [_ H].
  destruct (refused_same known s t e H V E) as [A B]. split; [|exact B].
  intros N. exists (shown_of s). split; [apply shows_of; exact H|]. rewrite <- (A N). apply shows_of.
  exact (proj1 (proj2 (exec_does known s t H V))).
Qed.
Print Assumptions C71_refused.
Theorem C71_refused_creates_refuted : exists p,
  let s := exec_all all_known (new_state MStrict) p in
  snd (exec all_known s (SetOutput (ABad 0))) = Err DataFormatError /\
  get_second s = Ok ANone /\ get_second (fst (exec all_known s (SetOutput (ABad 0)))) = Ok (AInt 0).
Proof. exact refused_creates_refuted. Qed.
Print Assumptions C71_refused_creates_refuted.

(** Warnings that do not fit what is there afterwards. *)
Theorem C71_constant_warnings_refuted :
  (exists p z ws, snd (exec all_known (exec_all all_known (new_state MStrict) p) (SetFirst (AInt z))) = Ok ws /\
     ws = [WForbidden (str "signal-anything")] /\
     shown_of (fst (exec all_known (exec_all all_known (new_state MStrict) p) (SetFirst (AInt z)))) = Parts (with_first (AInt z) fresh))
  /\ (exists p z, snd (exec all_known (exec_all all_known (new_state MStrict) p) (SetFirst (AInt z))) = Ok [] /\
     exists v, shown_of (fst (exec all_known (exec_all all_known (new_state MStrict) p) (SetFirst (AInt z)))) = Parts v /\
       complaints v = [WEach]).
Proof. exact constant_warnings_refuted. Qed.
Print Assumptions C71_constant_warnings_refuted.
Theorem C71_unset_warnings_refuted : exists p,
  snd (exec all_known (exec_all all_known (new_state MStrict) p) (SetFirst ANone)) = Ok [] /\
  get_output (fst (exec all_known (exec_all all_known (new_state MStrict) p) (SetFirst ANone))) = Ok (ASig (Some each)) /\
  get_first (fst (exec all_known (exec_all all_known (new_state MStrict) p) (SetFirst ANone))) = Ok ANone /\
  get_second (fst (exec all_known (exec_all all_known (new_state MStrict) p) (SetFirst ANone))) = Ok (AInt 0).
Proof. exact unset_warnings_refuted. Qed.
Print Assumptions C71_unset_warnings_refuted.
Theorem C71_two_each_refuted : forall m, m <> MNone ->
  exists p, Forall2 (fun (_ : stmt) r => r = Ok []) p (outcomes all_known (new_state m) p) /\
  get_first (exec_all all_known (new_state m) p) = Ok (ASig (Some each)) /\
  get_second (exec_all all_known (new_state m) p) = Ok (ASig (Some each)).
Proof. exact two_each_refuted. Qed.
Print Assumptions C71_two_each_refuted.

(** Without validation. *)
Theorem C71_unvalidated : forall known c t,
  let s := mkState MNone (CModel (Some c)) in
  match t with
  | SetFirst v => get_first (fst (exec known s t)) = Ok v /\ get_second (fst (exec known s t)) = get_second s /\
      get_operation (fst (exec known s t)) = get_operation s /\ get_output (fst (exec known s t)) = get_output s
  | SetSecond v => get_second (fst (exec known s t)) = Ok v /\ get_first (fst (exec known s t)) = get_first s /\
      get_operation (fst (exec known s t)) = get_operation s /\ get_output (fst (exec known s t)) = get_output s
  | SetOperation v => get_operation (fst (exec known s t)) = Ok v /\ get_first (fst (exec known s t)) = get_first s /\
      get_second (fst (exec known s t)) = get_second s /\ get_output (fst (exec known s t)) = get_output s
  | SetOutput v => get_output (fst (exec known s t)) = Ok v /\ get_first (fst (exec known s t)) = get_first s /\
      get_second (fst (exec known s t)) = get_second s /\ get_operation (fst (exec known s t)) = get_operation s
  | _ => True
  end /\ snd (exec known s t) = Ok [] /\ networks (fst (exec known s t)) = match t with
      | SetAll _ _ _ _ _ _ | NoConditions | NoBehavior => None
      | Remove => Some (both, both)
      | _ => networks s end.
Proof. exact unvalidated. Qed.
Print Assumptions C71_unvalidated.
Theorem C71_unvalidated_all_refuted : forall known cb fo fw op so sw out,
  let s := fst (exec known (mkState MNone cb) (SetAll fo fw op so sw out)) in
  snd (exec known (mkState MNone cb) (SetAll fo fw op so sw out)) = Ok [] /\
  get_first s = Err AttributeError /\ get_second s = Err AttributeError /\
  get_operation s = Err AttributeError /\ get_output s = Err AttributeError /\
  forall t, match t with SetFirst _ | SetSecond _ | SetOperation _ | SetOutput _ | Remove => True | _ => False end ->
    exec known s t = (s, Err AttributeError).
Proof. exact unvalidated_all_refuted. Qed.
Print Assumptions C71_unvalidated_all_refuted.
Theorem C71_raw_name_refuted : exists p,
  let s := exec_all all_known (new_state MNone) p in
  snd (exec all_known s (SetOutput (AName (str "signal-A")))) = Err AttributeError /\
  get_output s = Ok ANone /\
  get_output (fst (exec all_known s (SetOutput (AName (str "signal-A"))))) = Ok (sg "signal-A").
Proof. exact raw_name_refuted. Qed.
Print Assumptions C71_raw_name_refuted.
