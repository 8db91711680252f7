(** What surfaces allow (C68). *)
From Coq Require Import QArith List Bool String.
From Verif Require Import Common Dict Surface_Model.
Import ListNotations.
Local Open Scope string_scope.
Local Open Scope list_scope.

(** A value is within the bounds of a condition. *)
Definition within (c : condition) (v : Q) : Prop :=
  (forall m, c_min c = Some m -> m <= v) /\ (forall m, c_max c = Some m -> v <= m).
(** The properties meet a condition: those that have no such property do. *)
Definition meets (props : sdict Q) (c : condition) : Prop :=
  forall p v, c_property c = Some p -> dget pystr_eqb props p = Some v -> within c v.
Definition proper (l : list condition) : Prop := forall c, In c l -> c_property c <> None.
(** The properties every surface has when nothing is said. *)
Inductive standard : pystr -> Q -> Prop :=
| st_solar : standard (str "solar-power") 100
| st_magnetic : standard (str "magnetic-field") 90
| st_pressure : standard (str "pressure") 1000
| st_gravity : standard (str "gravity") 10.
(** What the game says of a planet: its surface properties, else the standard. *)
Definition really (p : planet) (k : pystr) (v : Q) : Prop :=
  dget pystr_eqb (p_surface p) k = Some v \/ (dget pystr_eqb (p_surface p) k = None /\ standard k v).
(** Planets as they are extracted: all properties in the nested table. *)
Definition nested (raw : sdict planet) : Prop :=
  forall n p k v, dget pystr_eqb raw n = Some p -> standard k v -> dget pystr_eqb (p_fields p) k = None.
