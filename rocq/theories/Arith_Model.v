(** Arithmetic combinators: /repo/draftsman/prototypes/arithmetic_combinator.py
    46-218 (the models and their validators) and 264-573 (the attributes);
    classes/exportable.py 14-44 ([attempt_and_reissue]); signatures.py 63 (int32),
    76-100 ([known_name]), 349-397 ([SignalID]); classes/mixins/control_behavior.py
    63-86 (the setter of [control_behavior]).

    A signal is an object known by its name; type and quality are left out.  What
    pydantic does is modelled as recorded in Assign_Model: the validated value is
    stored in the model, then the "after" validators run on it; a failed
    conversion is a ValidationError, which [attempt_and_reissue] turns into a
    DataFormatError.  [signals.raw] and [signal_dict] are one oracle ([known]).
    Not modelled: the texts of warnings, numbers that are not integers,
    dictionaries with other keys, and the other attributes of the entity. *)
From Coq Require Import ZArith NArith String List Bool.
From Verif Require Import Common Assign_Model Decider_Model.
Import ListNotations.
Local Open Scope string_scope.
Local Open Scope list_scope.
Local Open Scope Z_scope.

(** What can be assigned or stored. *)
Inductive val :=
| ANone
| ABool (b : bool)
| AInt (z : Z)
| AName (s : pystr)              (** a string *)
| ASig (name : option pystr)     (** a [SignalID] object *)
| ADict (name : option pystr)    (** [{"name": ...}] *)
| ABad (n : Z).                  (** anything else *)
Inductive awarn :=
| WUnknownSignal (s : pystr)
| WForbidden (s : pystr)         (** PureVirtualDisallowedWarning *)
| WEach.                         (** SignalConfigurationWarning *)

(** 47-108 [ArithmeticConditions] *)
Record conds := mkConds {
  first_constant : val; first_signal : val; first_nets : nets;
  operation : val;
  second_constant : val; second_signal : val; second_nets : nets;
  output_signal : val }.
Definition both : nets := mkNets true true.
(** The defaults. *)
Definition new_conds : conds := mkConds ANone ANone both (AName (str "*")) (AInt 0) ANone both ANone.
(** [control_behavior]: None, a dict kept as it is, or the model of 214-218.  Of a
    dict it is known whether its conditions are None. *)
Inductive behavior := CNone | CDict (empty : bool) | CModel (c : option conds).
Record state := mkState { st_mode : mode; st_cb : behavior }.

Inductive field := FFirstConstant | FFirstSignal | FOperation | FSecondConstant | FSecondSignal | FOutput.
Definition store (f : field) (v : val) (c : conds) : conds :=
  match c with
  | mkConds a b n o d e m u =>
      match f with
      | FFirstConstant => mkConds v b n o d e m u
      | FFirstSignal => mkConds a v n o d e m u
      | FOperation => mkConds a b n v d e m u
      | FSecondConstant => mkConds a b n o v e m u
      | FSecondSignal => mkConds a b n o d v m u
      | FOutput => mkConds a b n o d e m v
      end
  end.

(** [str.upper] on ASCII letters; no other character becomes one of the letters
    of the operations. *)
Definition upper_char (c : N) : N := if ((97 <=? c) && (c <=? 122))%N then (c - 32)%N else c.
Definition upper (s : pystr) : pystr := map upper_char s.
(** 69-76. *)
Definition operations : list pystr :=
  [str "*"; str "/"; str "+"; str "-"; str "%"; str "^"; str "<<"; str ">>"; str "AND"; str "OR"; str "XOR"].

Section oracles.
(** [name in signals.raw]; [signal_dict(name)] succeeds. *)
Variable known : pystr -> bool.

(** [Optional[int32]], not strict: booleans count. *)
Definition conv_int (v : val) : option val :=
  match v with
  | ANone => Some ANone
  | ABool b => Some (AInt (if b then 1 else 0))
  | AInt z => if (- 2 ^ 31 <=? z) && (z <? 2 ^ 31) then Some (AInt z) else None
  | _ => None
  end.
(** [Optional[SignalID]]: 378-397 for strings; revalidated otherwise. *)
Definition conv_signal (v : val) : option val :=
  match v with
  | ANone => Some ANone
  | AName s => if known s then Some (ASig (Some s)) else None
  | ASig n => Some (ASig n)
  | ADict n => Some (ASig n)
  | _ => None
  end.
(** 110-115 [ensure_upper] and the literal. *)
Definition conv_operation (v : val) : option val :=
  match v with
  | ANone => Some ANone
  | AName s => if existsb (pystr_eqb (upper s)) operations then Some (AName (upper s)) else None
  | _ => None
  end.
Definition conv (f : field) : val -> option val :=
  match f with
  | FFirstConstant | FSecondConstant => conv_int
  | FFirstSignal | FSecondSignal | FOutput => conv_signal
  | FOperation => conv_operation
  end.
(** signatures.py 81-98, for the name of a signal that has been accepted. *)
Definition name_warnings (m : mode) (v : val) : list awarn :=
  if mode_le m MMinimum then []
  else match v with
       | ASig (Some s) => if known s then [] else [WUnknownSignal s]
       | _ => []
       end.

(** [signal.name] *)
Definition name_of (v : val) : result (option pystr) :=
  match v with ASig n => Ok n | _ => Err AttributeError end.
Definition is_none (v : val) : bool := match v with ANone => true | _ => false end.
Definition named (s : pystr) (n : option pystr) : bool :=
  match n with Some t => pystr_eqb t s | None => false end.
Definition forbidden (n : option pystr) : bool :=
  named (str "signal-anything") n || named (str "signal-everything") n.
(** 126-142, the loop. *)
Fixpoint find_forbidden (signals : list val) : result (list awarn) :=
  match signals with
  | [] => Ok []
  | v :: rest =>
      let* n := name_of v in
      if forbidden n then Ok [WForbidden (match n with Some s => s | None => [] end)] else find_forbidden rest
  end.
(** 117-144 [ensure_no_forbidden_signals] *)
Definition ensure_no_forbidden_signals (m : mode) (c : conds) : result (list awarn) :=
  if mode_le m MMinimum then Ok []
  else find_forbidden (filter (fun v => negb (is_none v)) [first_signal c; second_signal c; output_signal c]).
(** [self.x is not None and self.x.name == s] *)
Definition is_named (s : pystr) (v : val) : result bool :=
  match v with ANone => Ok false | _ => let* n := name_of v in Ok (named s n) end.
Definition each : pystr := str "signal-each".
(** 174-212 [ensure_proper_each_configuration] *)
Definition ensure_proper_each_configuration (m : mode) (c : conds) : result (list awarn) :=
  if mode_le m MMinimum then Ok []
  else
    let* a := is_named each (first_signal c) in
    let* inputs := (if a then Ok true else is_named each (second_signal c)) in
    let* out := is_named each (output_signal c) in
    Ok (if out && negb inputs then [WEach] else []).
Definition after_validators (m : mode) (c : conds) : result (list awarn) :=
  let* w1 := ensure_no_forbidden_signals m c in
  let* w2 := ensure_proper_each_configuration m c in
  Ok (w1 ++ w2).

(** What a statement does: the new state, and the warnings or the exception. *)
Definition outcome := (conds * result (list awarn))%type.
(** [validate_assignment]/[attempt_and_reissue] on the conditions: nothing is
    stored if the value cannot be converted. *)
Definition attempt (m : mode) (c : conds) (f : field) (v : val) : outcome :=
  match conv f v with
  | None => (c, Err DataFormatError)
  | Some v' =>
      let c' := store f v' c in
      (c', let* ws := after_validators m c' in Ok (name_warnings m v' ++ ws))
  end.
(** [if self.validate_assignment: value = attempt_and_reissue(...)], then the
    value is stored and the other field of the operand is cleared. *)
Definition put_field (m : mode) (c : conds) (f : field) (other : option field) (v : val) : outcome :=
  let clear c := match other with Some g => store g ANone c | None => c end in
  if mode_bool m then
    match attempt m c f v with
    | (c', Ok ws) => (clear c', Ok ws)
    | (c', Err e) => (c', Err e)
    end
  else (clear (store f v c), Ok []).
(** 299-328 and 421-450: an operand; [isinstance(value, int)] holds for booleans. *)
Definition set_operand (m : mode) (c : conds) (constant signal : field) (v : val) : outcome :=
  match v with
  | ANone => (store constant ANone (store signal ANone c), Ok [])
  | ABool _ | AInt _ => put_field m c constant (Some signal) v
  | _ => put_field m c signal (Some constant) v
  end.

(** 527-561: the dictionary made by [set_arithmetic_conditions], and what the
    model makes of it: keys not given have their defaults. *)
Definition is_int (v : val) : bool := match v with ABool _ | AInt _ => true | _ => false end.
Definition given (fo : val) (fw : list pystr) (op so : val) (sw : list pystr) (out : val) : conds :=
  mkConds (if is_int fo then fo else ANone) (if is_int fo then ANone else fo) (nets_of fw)
          (match op with ANone => AName (str "*") | _ => op end)
          (if is_int so then so else AInt 0) (if is_int so then ANone else so) (nets_of sw)
          out.
Definition opt_bind {A B} (o : option A) (k : A -> option B) : option B :=
  match o with Some a => k a | None => None end.
Definition validate_conds (c : conds) : option conds :=
  opt_bind (conv FFirstConstant (first_constant c)) (fun a =>
  opt_bind (conv FFirstSignal (first_signal c)) (fun b =>
  opt_bind (conv FOperation (operation c)) (fun o =>
  opt_bind (conv FSecondConstant (second_constant c)) (fun d =>
  opt_bind (conv FSecondSignal (second_signal c)) (fun e =>
  opt_bind (conv FOutput (output_signal c)) (fun u =>
  Some (mkConds a b (first_nets c) o d e (second_nets c) u))))))).

(** The statements of a program. *)
Inductive stmt :=
| SetFirst (v : val)
| SetOperation (v : val)
| SetSecond (v : val)
| SetOutput (v : val)
| SetAll (fo : val) (fw : list pystr) (op so : val) (sw : list pystr) (out : val)
| Remove                          (** [remove_arithmetic_conditions()] *)
| NoConditions                    (** [control_behavior = {"arithmetic_conditions": None}] *)
| NoBehavior                      (** [control_behavior = None] *)
| SetMode (m : mode).             (** [validate_assignment = m] *)

(** The first lines of every setter: conditions that are not there are made;
    [None] or a dict has no attribute [arithmetic_conditions]. *)
Definition on_conds (s : state) (k : conds -> outcome) : state * result (list awarn) :=
  match st_cb s with
  | CModel o =>
      let '(c, r) := k (match o with Some c => c | None => new_conds end) in
      (mkState (st_mode s) (CModel (Some c)), r)
  | _ => (s, Err AttributeError)
  end.
Definition exec (s : state) (t : stmt) : state * result (list awarn) :=
  let m := st_mode s in
  match t with
  | SetFirst v => on_conds s (fun c => set_operand m c FFirstConstant FFirstSignal v)
  | SetSecond v => on_conds s (fun c => set_operand m c FSecondConstant FSecondSignal v)
  | SetOperation v => on_conds s (fun c => put_field m c FOperation None v)
  | SetOutput v => on_conds s (fun c => put_field m c FOutput None v)
  | SetAll fo fw op so sw out =>
      if mode_bool m then
        match validate_conds (given fo fw op so sw out) with
        | None => (s, Err DataFormatError)
        | Some c =>
            match after_validators m c with
            | Err e => (s, Err e)
            | Ok ws => (mkState m (CModel (Some c)),
                        Ok (name_warnings m (first_signal c) ++ name_warnings m (second_signal c) ++
                            name_warnings m (output_signal c) ++ ws))
            end
        end
      else (mkState m (CDict false), Ok [])
  | Remove =>
      match st_cb s with
      | CModel _ => (mkState m (CModel (Some new_conds)), Ok [])
      | _ => (s, Err AttributeError)
      end
  | NoConditions => (mkState m (if mode_bool m then CModel None else CDict true), Ok [])
  | NoBehavior => (mkState m CNone, Ok [])
  | SetMode m' => (mkState m' (st_cb s), Ok [])
  end.
Fixpoint exec_all (s : state) (p : list stmt) : state :=
  match p with [] => s | t :: p' => exec_all (fst (exec s t)) p' end.
(** A new combinator; the mode is strict by default, 231-233. *)
Definition new_state (m : mode) : state := mkState m (CModel (Some new_conds)).

(** The getters: 287-296, 409-418, 475-479. *)
Definition get (s : state) (f : conds -> val) : result val :=
  match st_cb s with
  | CModel (Some c) => Ok (f c)
  | CModel None => Ok ANone
  | _ => Err AttributeError
  end.
Definition pick (signal constant : val) : val := if is_none signal then constant else signal.
Definition get_first (s : state) : result val := get s (fun c => pick (first_signal c) (first_constant c)).
Definition get_second (s : state) : result val := get s (fun c => pick (second_signal c) (second_constant c)).
(** 353-357: [control_behavior.get("arithmetic_conditions", None)] comes first. *)
Definition get_operation (s : state) : result val :=
  match st_cb s with CDict true => Ok ANone | _ => get s operation end.
Definition get_output (s : state) : result val := get s output_signal.
End oracles.
