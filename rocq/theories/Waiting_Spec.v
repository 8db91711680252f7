(** What is expected of wait conditions: see C89 in properties.jsonl. *)
From Coq Require Import ZArith NArith List Bool String.
From Verif Require Import Common Dict Assign_Model Waiting_Model.
Import ListNotations.
Local Open Scope string_scope.
Local Open Scope list_scope.
Local Open Scope Z_scope.

(** The nine types and the two ways to combine. *)
Definition a_wait_type (v : val) : Prop :=
  v = VStr (str "time") \/ v = VStr (str "inactivity") \/ v = VStr (str "full") \/ v = VStr (str "empty")
  \/ v = VStr (str "item_count") \/ v = VStr (str "fluid_count") \/ v = VStr (str "circuit")
  \/ v = VStr (str "passenger_present") \/ v = VStr (str "passenger_not_present").
Definition a_compare_type (v : val) : Prop := v = VStr (str "and") \/ v = VStr (str "or").
Definition a_tick_count (v : val) : Prop := v = VNone \/ exists z, v = VInt z /\ 0 <= z < 2 ^ 32.
(** [v] is, or says, the number of ticks [t]. *)
Definition says_ticks (E : env) (v t : val) : Prop :=
  (v = VNone /\ t = VNone)
  \/ exists z, t = VInt z /\ 0 <= z < 2 ^ 32 /\ (v = VInt z \/ exists s, v = VStr s /\ numeral E s = Some z).
Definition says_condition (E : env) (m : mode) (v c : val) (ws : list Z) : Prop :=
  (v = VNone /\ c = VNone /\ ws = []) \/ (v <> VNone /\ cond E false m v = Read c ws).

(** A value that the game's format accepts for a field, in a mode. *)
Definition fits (E : env) (m : mode) (f : field) (v : val) : Prop :=
  match f with
  | FType => a_wait_type v
  | FCompare => a_compare_type v
  | FTicks => a_tick_count v
  | FCond => exists c ws, says_condition E m v c ws
  end.
(** [v], given for field [f], means [x], and there is [ws] to warn of. *)
Definition means (E : env) (m : mode) (f : field) (v x : val) (ws : list Z) : Prop :=
  match f with
  | FType => a_wait_type v /\ x = v /\ ws = []
  | FCompare => a_compare_type v /\ x = v /\ ws = []
  | FTicks => says_ticks E v x /\ ws = []
  | FCond => says_condition E m v x ws
  end.

(** Whether a value is a condition does not depend on the mode, and the condition
    read from it is one. *)
Definition stable (E : env) : Prop :=
  forall m v c ws, cond E false m v = Read c ws ->
  c <> VNone /\ forall m', (exists c' ws', cond E false m' c = Read c' ws') /\ (exists c' ws', cond E false m' v = Read c' ws').

Definition all_fit (E : env) (w : wait) : Prop := forall m f, fits E m f (get f w).

(** The number of ticks and the condition a new wait condition has if none is given. *)
Definition default_ticks (ty : val) : val :=
  match ty with
  | VStr s => if pystr_eqb s (str "time") then VInt (30 * 60)
              else if pystr_eqb s (str "inactivity") then VInt (5 * 60) else VNone
  | _ => VNone
  end.
Definition uses_condition (ty : val) : Prop :=
  ty = VStr (str "item_count") \/ ty = VStr (str "fluid_count") \/ ty = VStr (str "circuit").
Definition meant_ticks (ty v x : val) : Prop := (v = VNone /\ x = default_ticks ty) \/ (v <> VNone /\ x = v).
Definition meant_cond (ty v x : val) : Prop :=
  (v = VNone /\ uses_condition ty /\ x = VCond 0) \/ (v = VNone /\ ~ uses_condition ty /\ x = VNone)
  \/ (v <> VNone /\ x = v).

(** The four modes by name. *)
Definition mode_named (v : val) (m : mode) : Prop :=
  (v = VStr (str "none") /\ m = MNone) \/ (v = VStr (str "minimum") /\ m = MMinimum)
  \/ (v = VStr (str "strict") /\ m = MStrict) \/ (v = VStr (str "pedantic") /\ m = MPedantic).

Definition hashable (v : val) : Prop := (forall n, v <> VList n) /\ (forall n, v <> VCond n).

(** [c] is what the constructor makes of the condition [v] before it is validated. *)
Definition taken (E : env) (v c : val) : Prop :=
  (v = VNone /\ c = VNone)
  \/ (v <> VNone /\ ((exists ws, cond E true MNone v = Read c ws) \/ (exists ws, cond E true MNone v = Refused ws) /\ c = v)).

(** Operations that keep validation switched on. *)
Definition careful (o : op) : Prop := match o with OMode v => v <> VStr (str "none") | _ => True end.
Definition sets (f : field) (o : op) : Prop := match o with OSet g _ => g = f | _ => False end.

(** Item [i] stands for the wait condition [w], with [ws] to warn of. *)
Definition stands_for (E : env) (i : item) (w : wait) (ws : list Z) : Prop :=
  (i = IWait w /\ ws = []) \/ exists d, i = IDict d /\ call E d = Ok (w, ws).
Inductive stand_for (E : env) : list item -> list wait -> list Z -> Prop :=
| sf_nil : stand_for E [] [] []
| sf_cons : forall i w ws l lw lws, stands_for E i w ws -> stand_for E l lw lws ->
    stand_for E (i :: l) (w :: lw) (ws ++ lws).
Definition stands_for_none (E : env) (i : item) (e : exn) : Prop :=
  (exists n, i = IOther n /\ e = TypeError) \/ exists d, i = IDict d /\ call E d = Err e.
Definition known_keys (d : sdict val) : Prop :=
  forall k v, In (k, v) d ->
    k = str "type" \/ k = str "compare_type" \/ k = str "ticks" \/ k = str "condition"
    \/ k = str "validate" \/ k = str "validate_assignment".

(** The entry of an exported dictionary. *)
Definition entry (d : sdict val) (k : string) : option val := dget pystr_eqb d (str k).
Definition entry_or (d : sdict val) (k : string) (v x : val) : Prop :=
  entry d k = Some x \/ (entry d k = None /\ x = v).
Definition default_cond (ty x : val) : Prop :=
  (uses_condition ty /\ x = VCond 0) \/ (~ uses_condition ty /\ x = VNone).
(** [Condition()] is read as itself, and what [c] is exported to is read as [c]. *)
Definition plain_default (E : env) : Prop := forall b m, cond E b m (VCond 0) = Read (VCond 0) [].
Definition faithful (E : env) (c : Z) : Prop :=
  dump E c <> VNone /\ (exists ws, cond E true MNone (dump E c) = Read (VCond c) ws)
  /\ exists x ws, cond E false MStrict (VCond c) = Read x ws.
