(** Conditions of entities:
    /repo/draftsman/classes/mixins/control_behavior.py 66-94 and 112-168,
    circuit_condition.py 71-106, logistic_condition.py 69-105 and
    target_priorities.py 166-202.

    [world] says what a signal name stands for (C61), which strings pydantic reads
    as an int, and which names of signals are known; a string that is both is taken
    for a signal.  A signal has no extra keys.  The control behaviour of an entity is its
    three conditions, the keys that are no fields, and the rest. *)
From Coq Require Import ZArith NArith String List Bool.
From Verif Require Import Common Dict Assign_Model.
Import ListNotations.
Local Open Scope string_scope.
Local Open Scope list_scope.
Local Open Scope Z_scope.

(** [SignalID], signatures.py 349-375. *)
Record signal := mkSignal { s_name : option pystr; s_type : pystr; s_quality : option pystr }.
Definition mem (x : pystr) (l : list pystr) : bool := existsb (pystr_eqb x) l.
Definition types : list pystr :=
  map str ["virtual"; "item"; "fluid"; "recipe"; "entity"; "space-location"; "asteroid-chunk"; "quality"].
Definition qualities : list pystr :=
  map str ["normal"; "uncommon"; "rare"; "epic"; "legendary"; "quality-unknown"; "any"].
Definition fit (s : signal) : bool :=
  mem (s_type s) types && match s_quality s with Some q => mem q qualities | None => true end.

Record world := mkWorld { resolve : pystr -> option signal; numeral : pystr -> option Z; known : pystr -> bool }.

(** What is passed: nothing, a string, a SignalID or a dictionary with a name, what
    pydantic reads as an int, or anything else. *)
Inductive arg := ANone | AName (s : pystr) | ASignal (s : signal) | AInt (z : Z) | AOther.
Inductive right := Signal (s : signal) | Constant (z : Z).

(** [SignalID] of an argument, signatures.py 377-397. *)
Definition as_signal (W : world) (x : arg) : option signal :=
  match x with
  | AName s => match resolve W s with Some g => if fit g then Some g else None | None => None end
  | ASignal s => if fit s then Some s else None
  | _ => None
  end.
(** [int32], signatures.py 62. *)
Definition int32 (z : Z) : option Z := if (-2147483648 <=? z) && (z <? 2147483648) then Some z else None.
Definition as_int (W : world) (x : arg) : option Z :=
  match x with
  | AInt z => int32 z
  | AName s => match numeral W s with Some z => int32 z | None => None end
  | _ => None
  end.

(** [@validate_call] of [_set_condition], control_behavior.py 112-119. *)
Definition left_of (W : world) (x : arg) : option (option signal) :=
  match x with ANone => Some None | _ => option_map Some (as_signal W x) end.
Definition GE : pystr := [8805%N].
Definition LE : pystr := [8804%N].
Definition NE : pystr := [8800%N].
Definition comparators : list pystr := [str ">"; str "<"; str "="; str "=="; GE; str ">="; LE; str "<="; NE; str "!="].
Definition right_of (W : world) (x : arg) : option right :=
  match as_signal W x with
  | Some s => Some (Signal s)
  | None => option_map Constant (as_int W x)
  end.

(** [Condition], signatures.py 702-741; the networks are (red, green). *)
Record condition := mkCondition {
  first_signal : option signal; first_networks : bool * bool; comparator : pystr;
  constant : option Z; second_signal : option signal; second_networks : bool * bool }.
Definition default_condition : condition := mkCondition None (true, true) (str "<") (Some 0) None (true, true).
(** signatures.py 767-774 *)
Definition normalize (c : pystr) : pystr :=
  if pystr_eqb c (str "==") then str "="
  else if pystr_eqb c (str ">=") then GE
  else if pystr_eqb c (str "<=") then LE
  else if pystr_eqb c (str "!=") then NE
  else c.
(** control_behavior.py 137-166: a new condition, and what its validation makes of it. *)
Definition make (a : option signal) (c : pystr) (b : right) : condition :=
  mkCondition a (true, true) (normalize c)
    (match b with Constant z => Some z | Signal _ => constant default_condition end)
    (match b with Signal s => Some s | Constant _ => second_signal default_condition end) (true, true).

Inductive slot := Circuit | Logistic | Ignore.
Record control := mkControl { circuit : option condition; logistic : option condition; ignore : option condition;
                              extras : list pystr; rest : Z }.
Definition cond_at (s : slot) (c : control) : option condition :=
  match s with Circuit => circuit c | Logistic => logistic c | Ignore => ignore c end.
Definition put (s : slot) (v : option condition) (c : control) : control :=
  match s with
  | Circuit => mkControl v (logistic c) (ignore c) (extras c) (rest c)
  | Logistic => mkControl (circuit c) v (ignore c) (extras c) (rest c)
  | Ignore => mkControl (circuit c) (logistic c) v (extras c) (rest c)
  end.

(** Which conditions a class has: the mixins among its bases and those of its
    [Format.ControlBehavior] agree for every class in /repo/draftsman/prototypes. *)
Definition table : list (pystr * list slot) :=
  map (fun p => (str (fst p), snd p))
  [("AgriculturalTower", [Circuit; Logistic]); ("AmmoTurret", [Circuit; Logistic; Ignore]);
   ("ArtilleryTurret", [Circuit; Logistic]); ("AsteroidCollector", [Circuit]);
   ("ElectricTurret", [Circuit; Logistic; Ignore]); ("FilterInserter", [Circuit; Logistic]);
   ("FluidTurret", [Circuit; Logistic; Ignore]); ("Inserter", [Circuit; Logistic]); ("Lamp", [Circuit]);
   ("LogisticActiveContainer", [Circuit]); ("LogisticBufferContainer", [Circuit]);
   ("LogisticPassiveContainer", [Circuit]); ("LogisticRequestContainer", [Circuit]);
   ("LogisticStorageContainer", [Circuit]); ("MiningDrill", [Circuit; Logistic]);
   ("OffshorePump", [Circuit; Logistic]); ("PowerSwitch", [Circuit; Logistic]); ("ProgrammableSpeaker", [Circuit]);
   ("Pump", [Circuit]); ("RailSignal", [Circuit]); ("TrainStop", [Circuit; Logistic]);
   ("TransportBelt", [Circuit; Logistic]); ("Wall", [Circuit])].
Definition slots_of (c : pystr) : list slot := match dget pystr_eqb table c with Some l => l | None => [] end.
Definition slot_eqb (a b : slot) : bool :=
  match a, b with Circuit, Circuit | Logistic, Logistic | Ignore, Ignore => true | _, _ => false end.
Definition has (c : pystr) (s : slot) : bool := existsb (slot_eqb s) (slots_of c).

(** What [_root.control_behavior] is: a model, or [None] or a dictionary. *)
Inductive holder := Model (c : control) | Plain (z : Z).
Record entity := mkEntity { e_class : pystr; e_mode : mode; e_known : bool; e_control : holder }.
Definition with_control (e : entity) (h : holder) : entity := mkEntity (e_class e) (e_mode e) (e_known e) h.

Inductive warning := UnknownSignal (n : pystr) | UnknownKeyword (ks : list pystr).
Definition strict (m : mode) : bool := negb (mode_le m MMinimum).
(** signatures.py 76-100. *)
Definition says (W : world) (s : option signal) : list warning :=
  match s with
  | Some s => match s_name s with Some n => if known W n then [] else [UnknownSignal n] | None => [] end
  | None => []
  end.
(** exportable.py 14-46 for one of the conditions; signatures.py 143-180 is run for the
    control behaviour at the end. *)
Definition warnings (W : world) (e : entity) (k : control) (c : condition) : list warning :=
  if strict (e_mode e)
  then says W (first_signal c) ++ says W (second_signal c)
       ++ (if e_known e then match extras k with [] => [] | ks => [UnknownKeyword ks] end else [])
  else [].

(** [set_circuit_condition] and the like: circuit_condition.py 71-98,
    logistic_condition.py 69-98, target_priorities.py 166-195.  A pydantic
    ValidationError is a ValueError. *)
Definition set_condition (W : world) (e : entity) (s : slot) (a : arg) (c : pystr) (b : arg)
    : entity * (list warning * option exn) :=
  if has (e_class e) s then
    match left_of W a, mem c comparators, right_of W b with
    | Some l, true, Some r =>
        match e_control e with
        | Plain _ => (e, ([], Some AttributeError))
        | Model k =>
            let n := make l c r in
            (with_control e (Model (put s (Some n) k)), (warnings W e k n, None))
        end
    | _, _, _ => (e, ([], Some ValueError))
    end
  else (e, ([], Some AttributeError)).
(** circuit_condition.py 100-106, logistic_condition.py 100-105, target_priorities.py 197-202. *)
Definition remove_condition (e : entity) (s : slot) : entity * option exn :=
  if has (e_class e) s then
    match e_control e with
    | Plain _ => (e, Some AttributeError)
    | Model k => (with_control e (Model (put s None k)), None)
    end
  else (e, Some AttributeError).
(** control_behavior.py 81-89 with [None]: the field is optional in every class. *)
Definition clear (e : entity) : entity := with_control e (Plain 0).

Inductive call := Set_ (s : slot) (a : arg) (c : pystr) (b : arg) | Remove (s : slot) | Clear.
Definition exec (W : world) (e : entity) (o : call) : entity * option exn :=
  match o with
  | Set_ s a c b => let (e', r) := set_condition W e s a c b in (e', snd r)
  | Remove s => remove_condition e s
  | Clear => (clear e, None)
  end.
Definition run (W : world) (os : list call) (e : entity) : entity := fold_left (fun e o => fst (exec W e o)) os e.
