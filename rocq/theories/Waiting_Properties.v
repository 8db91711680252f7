(** Theorems for C89. *)
From Coq Require Import ZArith NArith List Bool String.
From Verif Require Import Common Dict Assign_Model Waiting_Model Waiting_Spec Waiting_Proofs.
Import ListNotations.
Local Open Scope string_scope.
Local Open Scope list_scope.
Local Open Scope Z_scope.

(** ** Construction *)
(** With validation exactly the arguments that fit are accepted; ticks and condition
    that are not given have the default of the type, and nothing else is changed. *)
Theorem C89_construct : forall E a m vm w ws, mode_named (a_validate a) m -> m <> MNone -> mode_named (a_assign a) vm ->
  construct E a = Ok (w, ws) <->
  a_wait_type (a_type a) /\ w_type w = a_type a
  /\ a_compare_type (a_compare a) /\ w_compare w = a_compare a
  /\ (exists t, meant_ticks (a_type a) (a_ticks a) t /\ says_ticks E t (w_ticks w))
  /\ (exists c c', meant_cond (a_type a) (a_cond a) c /\ taken E c (w_cond w) /\ says_condition E m (w_cond w) c' ws)
  /\ w_assign w = vm.
Proof. exact construct_iff. Qed.
Print Assumptions C89_construct.
Theorem C89_construct_refused : forall E a m vm c c1, mode_named (a_validate a) m -> mode_named (a_assign a) vm ->
  hashable (a_type a) -> meant_cond (a_type a) (a_cond a) c -> taken E c c1 ->
  (c1 = VNone \/ forall e, cond E false m c1 <> Raises e) ->
  (exists w ws, construct E a = Ok (w, ws)) \/ construct E a = Err DataFormatError.
Proof. exact construct_fails. Qed.
Print Assumptions C89_construct_refused.
(** Without validation everything is kept as it is, except what can be read. *)
Theorem C89_construct_none : forall E a vm c c1, mode_named (a_validate a) MNone -> mode_named (a_assign a) vm ->
  hashable (a_type a) -> meant_cond (a_type a) (a_cond a) c -> taken E c c1 ->
  exists w t, construct E a = Ok (w, []) /\ w_type w = a_type a /\ w_compare w = a_compare a /\ w_cond w = c1
    /\ w_assign w = vm /\ meant_ticks (a_type a) (a_ticks a) t
    /\ (says_ticks E t (w_ticks w) \/ ((forall x, ~ says_ticks E t x) /\ w_ticks w = t)).
Proof. exact construct_none. Qed.
Print Assumptions C89_construct_none.
(** Types that cannot be hashed, conditions that raise, and modes that are none. *)
Theorem C89_construct_unhashable : forall E a, ~ hashable (a_type a) -> construct E a = Err TypeError.
Proof. exact construct_unhashable. Qed.
Print Assumptions C89_construct_unhashable.
Theorem C89_construct_raises : forall E a c e, hashable (a_type a) -> meant_cond (a_type a) (a_cond a) c ->
  c <> VNone -> cond E true MNone c = Raises e -> construct E a = Err e.
Proof. exact construct_raises. Qed.
Print Assumptions C89_construct_raises.
Theorem C89_construct_modes : forall E a c c1, hashable (a_type a) -> meant_cond (a_type a) (a_cond a) c -> taken E c c1 ->
  (forall m, ~ mode_named (a_assign a) m) \/ (forall m, ~ mode_named (a_validate a) m) -> construct E a = Err ValueError.
Proof. exact construct_modes. Qed.
Print Assumptions C89_construct_modes.
Example C89_construct_example :
  construct E0 (mkArgs (VStr (str "circuit")) (VStr (str "and")) (VStr (str "5")) (VList 2) (VStr (str "strict")) (VStr (str "none")))
    = Ok (mkWait (VStr (str "circuit")) (VStr (str "and")) (VInt 5) (VCond 7) MNone, [])
  /\ construct E0 (plain "inactivity" "minimum")
    = Ok (mkWait (VStr (str "inactivity")) (VStr (str "or")) (VInt 300) VNone MMinimum, [])
  /\ construct E0 (plain "item_count" "strict")
    = Ok (mkWait (VStr (str "item_count")) (VStr (str "or")) VNone (VCond 0) MStrict, [])
  /\ construct E0 (plain "never" "strict") = Err DataFormatError
  /\ construct E0 (plain "never" "none") = Ok (mkWait (VStr (str "never")) (VStr (str "or")) VNone VNone MNone, []).
Proof. repeat split. Qed.
(** "Without validation no argument is refused". *)
Theorem C89_construct_none_refuted : exists E a b, a_validate a = VStr (str "none") /\ construct E a = Err IndexError
  /\ a_validate b = VStr (str "none") /\ construct E b = Err TypeError.
Proof. exact none_fails. Qed.
Print Assumptions C89_construct_none_refuted.

(** ** Setters and validation *)
Theorem C89_set : forall E w f v x ws, w_assign w <> MNone -> means E (w_assign w) f v x ws ->
  snd (step E w (OSet f v)) = Ok ws /\ get f (fst (step E w (OSet f v))) = x
  /\ (forall g, g <> f -> get g (fst (step E w (OSet f v))) = get g w)
  /\ w_assign (fst (step E w (OSet f v))) = w_assign w.
Proof. exact set_ok. Qed.
Print Assumptions C89_set.
Theorem C89_set_refused : forall E w f v, w_assign w <> MNone -> (forall x ws, ~ means E (w_assign w) f v x ws) ->
  fst (step E w (OSet f v)) = w /\
  (snd (step E w (OSet f v)) = Err DataFormatError
   \/ exists e, f = FCond /\ cond E false (w_assign w) v = Raises e /\ snd (step E w (OSet f v)) = Err e).
Proof. exact set_refused. Qed.
Print Assumptions C89_set_refused.
Theorem C89_set_raw : forall E w f v, w_assign w = MNone ->
  snd (step E w (OSet f v)) = Ok [] /\ get f (fst (step E w (OSet f v))) = v
  /\ (forall g, g <> f -> get g (fst (step E w (OSet f v))) = get g w)
  /\ w_assign (fst (step E w (OSet f v))) = MNone.
Proof. exact set_raw. Qed.
Print Assumptions C89_set_raw.
Theorem C89_mode : forall E w v,
  (forall f, get f (fst (step E w (OMode v))) = get f w) /\
  ((exists m, mode_named v m /\ snd (step E w (OMode v)) = Ok [] /\ w_assign (fst (step E w (OMode v))) = m)
   \/ ((forall m, ~ mode_named v m) /\ step E w (OMode v) = (w, Err ValueError))).
Proof. exact mode_step. Qed.
Print Assumptions C89_mode.
(** "Raises a DataFormatError if set to an invalid value". *)
Theorem C89_mode_refuted : exists E w v, step E w (OMode v) = (w, Err ValueError).
Proof. exact wrong_mode. Qed.
Print Assumptions C89_mode_refuted.
(** Validation reports exactly what does not fit, and changes nothing. *)
Theorem C89_validate : forall E w m force,
  fst (step E w (OValidate m force)) = w /\
  (forall ws, snd (step E w (OValidate m force)) = Ok ws <->
     (m = MNone /\ force = false /\ ws = [])
     \/ ((m <> MNone \/ force = true) /\ a_wait_type (w_type w) /\ a_compare_type (w_compare w)
         /\ (exists t, says_ticks E (w_ticks w) t) /\ exists c, says_condition E m (w_cond w) c ws))
  /\ (forall e, snd (step E w (OValidate m force)) = Err e -> e = DataFormatError
        \/ (w_cond w <> VNone /\ cond E false m (w_cond w) = Raises e)).
Proof. exact validate_step. Qed.
Print Assumptions C89_validate.
(** "Validation coerces the object into a known form": a number given as a string
    passes, and is a string afterwards. *)
Theorem C89_validate_refuted : exists E w os m, run E w os = w /\ snd (step E w (OValidate m false)) = Ok [] /\ m <> MNone
  /\ In (OValidate m false) os /\ ~ a_tick_count (w_ticks w).
Proof. exact not_converted. Qed.
Print Assumptions C89_validate_refuted.
(** From construction on, as long as validation is on, every field fits. *)
Theorem C89_life : forall E a m vm w ws os, stable E -> mode_named (a_validate a) m -> m <> MNone ->
  mode_named (a_assign a) vm -> vm <> MNone -> construct E a = Ok (w, ws) -> Forall careful os ->
  all_fit E (run E w os).
Proof. exact life. Qed.
Print Assumptions C89_life.
Theorem C89_untouched : forall E os w f, (forall o, In o os -> ~ sets f o) -> get f (run E w os) = get f w.
Proof. exact untouched. Qed.
Print Assumptions C89_untouched.
Example C89_life_example :
  stable E0 /\ run E0 (mkWait (VStr (str "full")) (VStr (str "or")) VNone VNone MStrict)
    [OSet FTicks (VInt (-1)); OSet FTicks (VStr (str "5")); OMode (VStr (str "pedantic")); OSet FCond (VList 1);
     OSet FCond (VList 2); OSet FCompare (VStr (str "xor")); OValidate MStrict true]
  = mkWait (VStr (str "full")) (VStr (str "or")) (VInt 5) (VCond 7) MPedantic.
Proof. split; [exact E0_stable|reflexivity]. Qed.
(** "Ticks default to 30 seconds if the type is time": not if the type is set later. *)
Theorem C89_type_later_refuted : exists E w ws, construct E (plain "full" "strict") = Ok (w, ws) /\ exists w',
  step E w (OSet FType (VStr (str "time"))) = (w', Ok []) /\ w_ticks w' = VNone
  /\ exists w2 ws2, construct E (plain "time" "strict") = Ok (w2, ws2) /\ w_ticks w2 = VInt 1800.
Proof. exact retyped. Qed.
Print Assumptions C89_type_later_refuted.

(** ** Lists of them *)
Theorem C89_call : forall E d a, known_keys d -> entry d "type" = Some (a_type a) ->
  entry_or d "compare_type" (VStr (str "or")) (a_compare a) -> entry_or d "ticks" VNone (a_ticks a) ->
  entry_or d "condition" VNone (a_cond a) -> entry_or d "validate" (VStr (str "strict")) (a_validate a) ->
  entry_or d "validate_assignment" (VStr (str "strict")) (a_assign a) ->
  call E d = construct E a.
Proof. exact call_args. Qed.
Print Assumptions C89_call.
Theorem C89_call_fails : forall E d, (~ known_keys d \/ entry d "type" = None) -> call E d = Err TypeError.
Proof. exact call_fails. Qed.
Print Assumptions C89_call_fails.
(** Every dictionary is replaced by its condition, in place, up to the first that
    stands for none. *)
Theorem C89_make : forall E l,
  (exists lw ws, make E l = (map IWait lw, ws, None) /\ stand_for E l lw ws)
  \/ (exists pre lw ws x post e, l = pre ++ x :: post /\ make E l = (map IWait lw ++ x :: post, ws, Some e)
        /\ stand_for E pre lw ws /\ stands_for_none E x e).
Proof. exact make_cases. Qed.
Print Assumptions C89_make.
(** "A list of conditions that is refused is left as it was". *)
Theorem C89_make_refuted : exists E d1 d2 w, make E [IDict d1; IDict d2] = ([IWait w; IDict d2], [], Some DataFormatError).
Proof. exact partly_made. Qed.
Print Assumptions C89_make_refuted.
(** "Conditions that are read from a blueprint are validated": the data can say no. *)
Theorem C89_call_refuted : exists E d w ws, known_keys d /\ entry d "type" = Some (VStr (str "never")) /\
  call E d = Ok (w, ws) /\ ~ a_wait_type (w_type w).
Proof. exact switched_off. Qed.
Print Assumptions C89_call_refuted.

(** ** Export *)
Theorem C89_export : forall E w,
  entry (export E w) "type" = (match w_type w with VNone => None | v => Some v end)
  /\ (entry (export E w) "compare_type" = None <-> w_compare w = VNone \/ w_compare w = VStr (str "or"))
  /\ (forall v, entry (export E w) "compare_type" = Some v -> v = w_compare w)
  /\ entry (export E w) "ticks" = (match w_ticks w with VNone => None | v => Some v end)
  /\ (entry (export E w) "condition" = None <-> w_cond w = VNone \/ w_cond w = VCond 0)
  /\ (forall c, w_cond w = VCond c -> c <> 0 -> entry (export E w) "condition" = Some (dump E c))
  /\ (forall v, w_cond w = v -> v <> VNone -> (forall c, v <> VCond c) -> entry (export E w) "condition" = Some v).
Proof. exact export_entries. Qed.
Print Assumptions C89_export.
Theorem C89_export_keys : forall E w k v, In (k, v) (export E w) ->
  k = str "type" \/ k = str "compare_type" \/ k = str "ticks" \/ k = str "condition".
Proof. exact export_keys. Qed.
Print Assumptions C89_export_keys.
(** What is exported is read back, ticks and conditions that are missing as the
    defaults of the type. *)
Theorem C89_round_trip : forall E w, plain_default E -> a_wait_type (w_type w) -> a_compare_type (w_compare w) ->
  a_tick_count (w_ticks w) -> (w_cond w = VNone \/ exists c, w_cond w = VCond c /\ (c <> 0 -> faithful E c)) ->
  exists w' ws, call E (export E w) = Ok (w', ws)
    /\ w_type w' = w_type w /\ w_compare w' = w_compare w /\ w_assign w' = MStrict
    /\ (w_ticks w <> VNone -> w_ticks w' = w_ticks w) /\ (w_ticks w = VNone -> w_ticks w' = default_ticks (w_type w))
    /\ (w_cond w <> VNone -> w_cond w <> VCond 0 -> w_cond w' = w_cond w)
    /\ (w_cond w = VNone \/ w_cond w = VCond 0 -> default_cond (w_type w) (w_cond w')).
Proof. exact round_trip. Qed.
Print Assumptions C89_round_trip.
Example C89_round_trip_example : faithful E0 7 /\ plain_default E0 /\
  export E0 (mkWait (VStr (str "circuit")) (VStr (str "and")) (VInt 5) (VCond 7) MNone)
  = [(str "type", VStr (str "circuit")); (str "compare_type", VStr (str "and")); (str "ticks", VInt 5); (str "condition", VList 7)]
  /\ call E0 [(str "type", VStr (str "circuit")); (str "compare_type", VStr (str "and")); (str "ticks", VInt 5); (str "condition", VList 7)]
  = Ok (mkWait (VStr (str "circuit")) (VStr (str "and")) (VInt 5) (VCond 7) MStrict, []).
Proof.
  split; [split; [discriminate|]; split; [exists []; reflexivity|exists (VCond 7), []; reflexivity]|].
  split; [exact E0_default|]. split; reflexivity.
Qed.
(** "Every condition that was built with validation is read back": a default condition
    given to a type that does not use it is gone. *)
Theorem C89_round_trip_refuted : exists E a w ws w' ws', stable E /\ plain_default E /\ a_validate a = VStr (str "strict") /\
  construct E a = Ok (w, ws) /\ call E (export E w) = Ok (w', ws') /\ w_cond w = VCond 0 /\ w_cond w' = VNone.
Proof. exact lost. Qed.
Print Assumptions C89_round_trip_refuted.
