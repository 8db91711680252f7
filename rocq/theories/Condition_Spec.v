(** What is said about conditions. *)
From Coq Require Import ZArith NArith String List Bool.
From Verif Require Import Common Dict Assign_Model Condition_Model.
Import ListNotations.
Local Open Scope string_scope.
Local Open Scope list_scope.
Local Open Scope Z_scope.

(** What a comparison means, in every spelling. *)
Inductive compares : pystr -> Z -> Z -> Prop :=
| c_gt x y : y < x -> compares (str ">") x y
| c_lt x y : x < y -> compares (str "<") x y
| c_eq x : compares (str "=") x x
| c_eq2 x : compares (str "==") x x
| c_ge x y : y <= x -> compares [8805%N] x y
| c_ge2 x y : y <= x -> compares (str ">=") x y
| c_le x y : x <= y -> compares [8804%N] x y
| c_le2 x y : x <= y -> compares (str "<=") x y
| c_ne x y : x <> y -> compares [8800%N] x y
| c_ne2 x y : x <> y -> compares (str "!=") x y.
(** A condition is met by the values of the signals: the second signal goes before
    the constant. *)
Definition met (v : signal -> Z) (c : condition) : Prop :=
  exists a, first_signal c = Some a
    /\ match second_signal c, constant c with
       | Some b, _ => compares (comparator c) (v a) (v b)
       | None, Some z => compares (comparator c) (v a) z
       | None, None => False
       end.

(** Which entities have which condition, by the documentation of the classes. *)
Definition circuit_only : list string :=
  ["AsteroidCollector"; "Lamp"; "LogisticActiveContainer"; "LogisticBufferContainer"; "LogisticPassiveContainer";
   "LogisticRequestContainer"; "LogisticStorageContainer"; "ProgrammableSpeaker"; "Pump"; "RailSignal"; "Wall"].
Definition circuit_logistic : list string :=
  ["AgriculturalTower"; "ArtilleryTurret"; "FilterInserter"; "Inserter"; "MiningDrill"; "OffshorePump";
   "PowerSwitch"; "TrainStop"; "TransportBelt"].
Definition turrets : list string := ["AmmoTurret"; "ElectricTurret"; "FluidTurret"].
Definition is_one (cls : pystr) (l : list string) : Prop := exists n, In n l /\ cls = str n.

(** Signals that make sense. *)
Definition sensible (g : signal) : Prop :=
  is_one (s_type g) ["virtual"; "item"; "fluid"; "recipe"; "entity"; "space-location"; "asteroid-chunk"; "quality"]
  /\ (s_quality g = None \/ exists q, s_quality g = Some q
      /\ is_one q ["normal"; "uncommon"; "rare"; "epic"; "legendary"; "quality-unknown"; "any"]).

(** What an argument means. *)
Inductive signal_of (W : world) : arg -> signal -> Prop :=
| so_name s g : resolve W s = Some g -> sensible g -> signal_of W (AName s) g
| so_full g : sensible g -> signal_of W (ASignal g) g.
Inductive number_of (W : world) : arg -> Z -> Prop :=
| no_int z : -2147483648 <= z < 2147483648 -> number_of W (AInt z) z
| no_text s z : (forall g, ~ signal_of W (AName s) g) -> numeral W s = Some z -> -2147483648 <= z < 2147483648 ->
    number_of W (AName s) z.
Definition left_ok (W : world) (a : arg) : Prop := a = ANone \/ exists g, signal_of W a g.
Definition right_ok (W : world) (b : arg) : Prop := (exists g, signal_of W b g) \/ (exists z, number_of W b z).
Definition spelled (c : pystr) : Prop := exists x y, compares c x y.

(** The condition that is asked for: one character for the comparison, both
    networks, and the constant zero beside a second signal. *)
Definition condition_for (W : world) (a : arg) (c : pystr) (b : arg) (n : condition) : Prop :=
  (a = ANone /\ first_signal n = None \/ exists g, signal_of W a g /\ first_signal n = Some g)
  /\ spelled c /\ List.length (comparator n) = 1%nat /\ (forall x y, compares (comparator n) x y <-> compares c x y)
  /\ first_networks n = (true, true) /\ second_networks n = (true, true)
  /\ ((exists z, number_of W b z /\ constant n = Some z /\ second_signal n = None)
      \/ (exists g, signal_of W b g /\ constant n = Some 0 /\ second_signal n = Some g)).

(** All but one condition is the same. *)
Definition same_but (s : slot) (k k' : control) : Prop :=
  extras k = extras k' /\ rest k = rest k' /\ forall t, t <> s -> cond_at t k = cond_at t k'.
Definition only_control (e e' : entity) : Prop :=
  e_class e = e_class e' /\ e_mode e = e_mode e' /\ e_known e = e_known e'.

(** What a call puts in a slot of an entity of a class. *)
Inductive gives (W : world) (cls : pystr) (s : slot) : call -> option condition -> Prop :=
| g_set a c b n : In s (slots_of cls) -> condition_for W a c b n -> gives W cls s (Set_ s a c b) (Some n)
| g_remove : In s (slots_of cls) -> gives W cls s (Remove s) None.
(** What a slot shows after some calls, the last one at the end. *)
Inductive shows (W : world) (cls : pystr) (s : slot) (v0 : option condition) : list call -> option condition -> Prop :=
| s_start : shows W cls s v0 [] v0
| s_given os o v u : shows W cls s v0 os u -> gives W cls s o v -> shows W cls s v0 (os ++ [o]) v
| s_kept os o v : shows W cls s v0 os v -> (forall u, ~ gives W cls s o u) -> o <> Clear -> shows W cls s v0 (os ++ [o]) v.
Definition field (s : slot) (e : entity) : option (option condition) :=
  match e_control e with Model k => Some (cond_at s k) | Plain _ => None end.

(** Warnings: an unknown name, or keys that are no fields. *)
Inductive warned (W : world) : option signal -> list warning -> Prop :=
| w_none : warned W None []
| w_blank g : s_name g = None -> warned W (Some g) []
| w_known g n : s_name g = Some n -> known W n = true -> warned W (Some g) []
| w_unknown g n : s_name g = Some n -> known W n = false -> warned W (Some g) [UnknownSignal n].
Inductive warned_keys : list pystr -> list warning -> Prop :=
| wk_none : warned_keys [] []
| wk_some k ks : warned_keys (k :: ks) [UnknownKeyword (k :: ks)].
