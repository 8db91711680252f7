(** C85: what the tune of a speaker becomes, what is warned of, and the names that
    are kept beside the numbers. *)
From Coq Require Import ZArith NArith List Bool String.
From Verif Require Import Common Dict Assign_Model Tune_Model Tune_Spec Speaker_Model Speaker_Spec Speaker_Proofs Speaker_Read_Proofs.
Import ListNotations.
Local Open Scope string_scope.
Local Open Scope list_scope.
Local Open Scope Z_scope.

(** In a mode that validates, an accepted value does what is said of it, with a
    warning if and only if it is unknown; any other value changes nothing. *)
Theorem C85_assign : forall E x m s v w, coherent E -> proper s -> m <> MNone -> accepts E x v w ->
  exists s' ws, assign E x m s v = (s', (ws, None)) /\ does E s x w s' /\ warned E m s x w ws.
Proof. exact assign_does. Qed.
Print Assumptions C85_assign.
Theorem C85_refuses : forall E x m s v, m <> MNone -> (forall w, ~ accepts E x v w) ->
  assign E x m s v = (s, ([], Some DataFormatError)).
Proof. exact assign_refuses. Qed.
Print Assumptions C85_refuses.
(** What is said of a value is one thing. *)
Theorem C85_meaning : forall E s, coherent E ->
  (forall x v w w', accepts E x v w -> accepts E x v w' -> w = w')
  /\ (forall n k k', number_of E s n k -> number_of E s n k' -> k = k')
  /\ (forall n k k', note_of E s n k -> note_of E s n k' -> k = k').
Proof.
  exact (fun E s C => Logic.conj (accepts_fun E) (Logic.conj (fun n k k' => number_fun E s n k k' C) (fun n k k' => note_fun E s n k k' C))).
Qed.
Print Assumptions C85_meaning.
Theorem C85_proper : forall E cs s, coherent E -> proper s -> Forall validating cs -> proper (run E cs s).
Proof. exact run_proper. Qed.
Print Assumptions C85_proper.
(** In the mode NONE names give the same numbers and are not kept; numbers are
    stored as they are given. *)
Theorem C85_none_instrument : forall E s v, coherent E -> is_name v ->
  exists s', assign E InstrumentName MNone s v = (s', ([], None)) /\ sp s' = sp s /\ iname s' = iname s /\ nid s' = nid s /\ nname s' = nname s
    /\ match v with VStr n => number_of E s n (iid s') | _ => iid s' = VNone end.
Proof. exact none_iname. Qed.
Print Assumptions C85_none_instrument.
Theorem C85_none_numbers : forall E s v,
  assign E InstrumentId MNone s v = (mkParams (sp s) v (iname s) (nid s) (nname s), ([], None))
  /\ assign E NoteId MNone s v = (mkParams (sp s) (iid s) (iname s) v (nname s), ([], None)).
Proof. exact (fun E s v => Logic.conj eq_refl eq_refl). Qed.
Print Assumptions C85_none_numbers.
Theorem C85_none_note : forall E s v, coherent E -> proper s -> is_name v ->
  exists s', assign E NoteName MNone s v = (s', ([], None)) /\ sp s' = sp s /\ iid s' = iid s /\ iname s' = iname s /\ nname s' = nname s
    /\ match v with VStr n => note_of E s n (nid s') | _ => nid s' = VNone end.
Proof. exact none_nname. Qed.
Print Assumptions C85_none_note.
(** The names kept are those last given and accepted, whatever the numbers became. *)
Theorem C85_last_instrument : forall E cs s v, coherent E -> proper s -> Forall validating cs ->
  (last_name InstrumentName (iname s) cs v <-> v = iname (run E cs s)).
Proof. exact (fun E cs s v C P F => run_kept E cs s InstrumentName v C P F (or_introl eq_refl)). Qed.
Print Assumptions C85_last_instrument.
Theorem C85_last_note : forall E cs s v, coherent E -> proper s -> Forall validating cs ->
  (last_name NoteName (nname s) cs v <-> v = nname (run E cs s)).
Proof. exact (fun E cs s v C P F => run_kept E cs s NoteName v C P F (or_intror eq_refl)). Qed.
Print Assumptions C85_last_note.
(** Validation of the whole changes nothing and says of the four fields, in their
    order, what would be said if they were assigned again. *)
Theorem C85_validate : forall E m force others s, coherent E -> proper s ->
  if mode_eq m MNone && negb force then validate E m force others s = (s, (0%nat, [], None))
  else exists w1 w2 w3 w4,
    validate E m force others s = (s, ((if others then 0 else 1)%nat, w1 ++ w2 ++ w3 ++ w4, None))
    /\ warned E m s InstrumentId (iid s) w1 /\ warned E m s InstrumentName (iname s) w2
    /\ warned E m s NoteId (nid s) w3 /\ warned E m s NoteName (nname s) w4.
Proof. exact validate_does. Qed.
Print Assumptions C85_validate.
(** The same for states that no validating call reaches: a field that is not accepted
    is an error and nothing changes; otherwise all fields become what they mean. *)
Theorem C85_validate_refused : forall E m force others s x, (forall z, iid s <> VList z) -> m <> MNone \/ force = true ->
  (forall w, ~ accepts E x (kept_for s x) w) -> exists ws, validate E m force others s = (s, (1%nat, ws, None)).
Proof. exact validate_refused. Qed.
Print Assumptions C85_validate_refused.
Theorem C85_validate_coerces : forall E m force s w1 w2 w3 w4, (forall z, iid s <> VList z) -> m <> MNone \/ force = true ->
  accepts E InstrumentId (iid s) w1 -> accepts E InstrumentName (iname s) w2 -> accepts E NoteId (nid s) w3 -> accepts E NoteName (nname s) w4 ->
  exists ws, validate E m force true s = (mkParams (sp s) w1 w2 w3 w4, (0%nat, ws, None)).
Proof. exact validate_coerces. Qed.
Print Assumptions C85_validate_coerces.
(** What is read of any state. *)
Theorem C85_instrument_name : forall E s, coherent E -> reads_instrument E s (instrument_name E s).
Proof. exact instrument_reads. Qed.
Print Assumptions C85_instrument_name.
Theorem C85_note_name : forall E s, coherent E -> reads_note E s (note_name E s).
Proof. exact note_reads. Qed.
Print Assumptions C85_note_name.
(** If the number of the instrument is something that cannot be looked up, notes
    cannot be assigned; the name of the note may be kept nevertheless. *)
Theorem C85_list : forall E m s z v w l, m = MStrict \/ m = MPedantic -> plays E s l -> iid s = VList z ->
  (accepts E NoteId v w -> assign E NoteId m s v = (s, ([], Some TypeError)))
  /\ (accepts E NoteName v w -> assign E NoteName m s v = (s, ([], Some TypeError))).
Proof. exact list_raises. Qed.
Print Assumptions C85_list.
Theorem C85_list_minimum : forall E s z v w, iid s = VList z -> accepts E NoteName v w -> w <> VNone ->
  assign E NoteName MMinimum s v = (mkParams (sp s) (iid s) (iname s) (nid s) w, ([], Some TypeError)).
Proof. exact list_minimum. Qed.
Print Assumptions C85_list_minimum.
(** Exported are the numbers that are neither none nor 0, in this order. *)
Theorem C85_export : forall s,
  (forall k v, In (k, v) (export s) <->
     (k = str "instrument_id" /\ v = iid s \/ k = str "note_id" /\ v = nid s) /\ v <> VNone /\ v <> VInt 0)
  /\ (map fst (export s) = [] \/ map fst (export s) = [str "instrument_id"] \/ map fst (export s) = [str "note_id"]
      \/ map fst (export s) = [str "instrument_id"; str "note_id"]).
Proof. exact (fun s => Logic.conj (fun k v => export_in s k v) (export_keys s)). Qed.
Print Assumptions C85_export.
(** Speakers are equal if the numbers and the names kept are; speakers that were
    given no names are equal if the numbers are. *)
Theorem C85_equal : forall a b, equal a b = true <-> a = b.
Proof. exact equal_iff. Qed.
Print Assumptions C85_equal.
Theorem C85_equal_numbers : forall E n cs cs', coherent E -> Forall validating cs -> Forall validating cs' ->
  (forall c, In c (cs ++ cs') -> ~ names_something c) ->
  (equal (run E cs (fresh n)) (run E cs' (fresh n)) = true
   <-> iid (run E cs (fresh n)) = iid (run E cs' (fresh n)) /\ nid (run E cs (fresh n)) = nid (run E cs' (fresh n))).
Proof. exact equal_by_numbers. Qed.
Print Assumptions C85_equal_numbers.
(** Export and import keep the numbers, make 0 of no number, and lose the names. *)
Theorem C85_reimport : forall s, import (sp s) (export s) =
  mkParams (sp s) (match iid s with VNone => VInt 0 | _ => iid s end) VNone (match nid s with VNone => VInt 0 | _ => nid s end) VNone.
Proof. exact import_export. Qed.
Print Assumptions C85_reimport.
Theorem C85_reimport_same : forall s, iid s <> VNone -> nid s <> VNone -> iname s = VNone -> nname s = VNone ->
  import (sp s) (export s) = s.
Proof. exact import_same. Qed.
Print Assumptions C85_reimport_same.

(** Speakers with the same tune, made in the same mode, need not be equal; and a
    speaker need not be equal to itself exported and imported. *)
Theorem C85_equal_refuted : exists E n cs cs', coherent E /\ Forall validating cs /\ Forall validating cs'
  /\ export (run E cs (fresh n)) = export (run E cs' (fresh n))
  /\ instrument_name E (run E cs (fresh n)) = instrument_name E (run E cs' (fresh n))
  /\ note_name E (run E cs (fresh n)) = note_name E (run E cs' (fresh n))
  /\ iid (run E cs (fresh n)) = iid (run E cs' (fresh n)) /\ nid (run E cs (fresh n)) = nid (run E cs' (fresh n))
  /\ equal (run E cs (fresh n)) (run E cs' (fresh n)) = false.
Proof.
  exists game, (str "programmable-speaker"), [Assign InstrumentName MStrict (VStr (str "drum-kit"))], [Assign InstrumentId MStrict (VInt 1)].
  split; [exact game_coherent|]. repeat split; repeat constructor; discriminate.
Qed.
Print Assumptions C85_equal_refuted.
Theorem C85_reimport_refuted : exists E n cs, coherent E /\ Forall validating cs
  /\ equal (run E cs (fresh n)) (import n (export (run E cs (fresh n)))) = false
  /\ iid (run E cs (fresh n)) = iid (import n (export (run E cs (fresh n)))) /\ nid (run E cs (fresh n)) = nid (import n (export (run E cs (fresh n)))).
Proof.
  exists game, (str "programmable-speaker"), [Assign InstrumentName MStrict (VStr (str "drum-kit"))].
  split; [exact game_coherent|]. repeat split; repeat constructor; discriminate.
Qed.
Print Assumptions C85_reimport_refuted.
(** The same calls in the mode NONE give another speaker. *)
Theorem C85_mode_refuted : exists E n x v, coherent E /\ is_name v
  /\ iid (fst (assign E x MNone (fresh n) v)) = iid (fst (assign E x MStrict (fresh n) v))
  /\ equal (fst (assign E x MNone (fresh n) v)) (fst (assign E x MStrict (fresh n) v)) = false.
Proof.
  exists game, (str "programmable-speaker"), InstrumentName, (VStr (str "drum-kit")).
  split; [exact game_coherent|]. split; [right; eexists; reflexivity|]. split; reflexivity.
Qed.
Print Assumptions C85_mode_refuted.
(** Validation warns of a name the speaker does not have any more. *)
Theorem C85_stale_refuted : exists E n cs v, coherent E /\ Forall validating cs
  /\ (exists m, note_name E (run E cs (fresh n)) = Ok (VStr m) /\ VStr m <> v)
  /\ snd (validate E MStrict false true (run E cs (fresh n))) = (0%nat, [UnknownNote v], None).
Proof.
  exists game, (str "programmable-speaker"),
    [Assign InstrumentName MStrict (VStr (str "drum-kit")); Assign NoteName MStrict (VStr (str "kick")); Assign InstrumentId MStrict (VInt 0)],
    (VStr (str "kick")).
  split; [exact game_coherent|]. split; [repeat constructor; discriminate|].
  split; [exists (str "siren"); split; [reflexivity|discriminate]|reflexivity].
Qed.
Print Assumptions C85_stale_refuted.
(** An assignment that raises an exception may have changed what is kept. *)
Theorem C85_partial_refuted : exists E n cs v x, coherent E
  /\ snd (assign E NoteName MMinimum (run E cs (fresh n)) v) = ([], Some x)
  /\ equal (fst (assign E NoteName MMinimum (run E cs (fresh n)) v)) (run E cs (fresh n)) = false.
Proof.
  exists game, (str "programmable-speaker"), [Assign InstrumentId MNone (VList 0)], (VStr (str "kick")), TypeError.
  split; [exact game_coherent|]. split; reflexivity.
Qed.
Print Assumptions C85_partial_refuted.

Example C85_assign_example :
  assign game InstrumentName MStrict speaker (VStr (str "drum-kit"))
  = (mkParams (str "programmable-speaker") (VInt 1) (VStr (str "drum-kit")) (VInt 0) VNone, ([], None))
  /\ assign game InstrumentId MStrict speaker (VStr (str "1"))
     = (mkParams (str "programmable-speaker") (VInt 1) VNone (VInt 0) VNone, ([], None))
  /\ assign game InstrumentName MPedantic speaker (VStr (str "flute"))
     = (mkParams (str "programmable-speaker") VNone (VStr (str "flute")) (VInt 0) VNone, ([UnknownInstrument (VStr (str "flute"))], None))
  /\ assign game InstrumentName MMinimum speaker (VStr (str "flute"))
     = (mkParams (str "programmable-speaker") VNone (VStr (str "flute")) (VInt 0) VNone, ([], None))
  /\ assign game NoteName MStrict speaker (VStr (str "buzzer"))
     = (mkParams (str "programmable-speaker") (VInt 0) VNone (VInt 1) (VStr (str "buzzer")), ([], None))
  /\ assign game NoteId MStrict speaker (VInt 2)
     = (mkParams (str "programmable-speaker") (VInt 0) VNone (VInt 2) VNone, ([UnknownNote (VInt 2)], None))
  /\ assign game NoteId MStrict speaker (VInt (-1)) = (speaker, ([], Some DataFormatError))
  /\ assign game InstrumentId MStrict speaker (VStr (str "drum-kit")) = (speaker, ([], Some DataFormatError)).
Proof. repeat split. Qed.
Example C85_validate_example :
  snd (validate game MStrict false true (mkParams (str "programmable-speaker") (VInt 1) (VStr (str "flute")) (VInt 3) (VStr (str "hat"))))
  = (0%nat, [UnknownInstrument (VStr (str "flute")); UnknownNote (VInt 3)], None)
  /\ snd (validate game MNone true true (mkParams (str "programmable-speaker") (VInt 1) (VStr (str "flute")) (VInt 3) (VStr (str "hat"))))
     = (0%nat, [], None).
Proof. split; reflexivity. Qed.
Example C85_last_example : exists cs, Forall validating cs
  /\ run game cs speaker = mkParams (str "programmable-speaker") (VInt 0) (VStr (str "drum-kit")) (VInt 2) (VStr (str "hat"))
  /\ export (run game cs speaker) = [(str "note_id", VInt 2)]
  /\ import (str "programmable-speaker") (export (run game cs speaker))
     = mkParams (str "programmable-speaker") (VInt 0) VNone (VInt 2) VNone.
Proof.
  exists [Assign InstrumentName MStrict (VStr (str "drum-kit")); Assign NoteName MMinimum (VStr (str "hat")); Assign InstrumentId MStrict (VInt 0);
          Assign NoteName MStrict (VInt 5)].
  split; [repeat constructor; discriminate|]. repeat split.
Qed.
Example C85_read_example :
  note_name game (mkParams (str "programmable-speaker") (VInt 1) VNone (VStr (str "self")) VNone) = Ok (VStr (str "drum-kit"))
  /\ note_name game (mkParams (str "programmable-speaker") (VInt 0) VNone (VInt 1) VNone) = Ok (VStr (str "buzzer"))
  /\ note_name game (mkParams (str "programmable-speaker") (VInt 7) VNone (VInt 1) VNone) = Ok VNone
  /\ note_name game (mkParams (str "programmable-speaker") (VInt 0) VNone (VList 1) VNone) = Err TypeError
  /\ instrument_name game (mkParams (str "programmable-speaker") (VInt 1) VNone (VInt 0) VNone) = Ok (VStr (str "drum-kit")).
Proof. repeat split. Qed.
