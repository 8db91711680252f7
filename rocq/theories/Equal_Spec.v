(** What it means for two blueprints to be the same, without the functions that
    compare them. *)
From Coq Require Import ZArith NArith QArith String List Bool.
From Verif Require Import Common Dict Trim_Model Trim_Proofs Merge_Model Merge_Spec TileList_Model Equal_Model.
Import ListNotations.
Local Open Scope string_scope.
Local Open Scope list_scope.

(** Values that Python calls equal. *)
Definition eqv (v w : val) : Prop := py_eq v w = true.

(** Entities of one class, at one place, with one id, that agree in every field
    but the overlooked ones (C64). *)
Definition ent_same (e o : ent) : Prop :=
  e_class e = e_class o /\
  (fst (e_pos e) == fst (e_pos o))%Q /\ (snd (e_pos e) == snd (e_pos o))%Q /\
  e_id e = e_id o /\
  (forall f, In f (fields_of (e_class e)) -> overlooked (e_class e) f = false -> agree e o f).

(** Members: groups are the same only if they are the same object. *)
Inductive member_same : member -> member -> Prop :=
| same_ent i j e f : ent_same e f -> member_same (MEnt i e) (MEnt j f)
| same_grp i : member_same (MGrp i) (MGrp i).

Definition wait_same (a b : wait) : Prop :=
  eqv (w_type a) (w_type b) /\ eqv (w_compare a) (w_compare b) /\ eqv (w_ticks a) (w_ticks b) /\ eqv (w_condition a) (w_condition b).
Definition stop_same (a b : stop) : Prop :=
  eqv (st_station a) (st_station b) /\ Forall2 wait_same (st_waits a) (st_waits b).
(** Locomotives: the same object, or both are gone. *)
Definition loco_same (alive : nat -> bool) (a b : nat) : Prop :=
  a = b \/ (alive a = false /\ alive b = false).
Definition schedule_same (alive : nat -> bool) (a b : schedule) : Prop :=
  Forall2 (loco_same alive) (s_locomotives a) (s_locomotives b) /\ Forall2 stop_same (s_stops a) (s_stops b).

Definition blueprint_same (alive : nat -> bool) (a b : blueprint) : Prop :=
  (forall k, eqv (b_attr a k) (b_attr b k)) /\
  Forall2 member_same (b_entities a) (b_entities b) /\
  b_tiles a = b_tiles b /\
  Forall2 (schedule_same alive) (b_schedules a) (b_schedules b).

(** Well formed: values are, and entities have the fields of their class. *)
Definition member_good (x : member) : Prop := match x with MEnt _ e => sound e /\ controlled e | MGrp _ => True end.
Definition wait_good (w : wait) : Prop := wf (w_type w) /\ wf (w_compare w) /\ wf (w_ticks w) /\ wf (w_condition w).
Definition stop_good (s : stop) : Prop := wf (st_station s) /\ Forall wait_good (st_waits s).
Definition schedule_good (s : schedule) : Prop := Forall stop_good (s_stops s).
Definition good (a : blueprint) : Prop :=
  (forall k, wf (b_attr a k)) /\ Forall member_good (b_entities a) /\ Forall schedule_good (b_schedules a).

(** Another blueprint with other wires, couplings and index. *)
Definition relinked (a b : blueprint) : Prop :=
  b_attr b = b_attr a /\ b_entities b = b_entities a /\ b_tiles b = b_tiles a /\ b_schedules b = b_schedules a.

(** No association of the schedules leads to an object that is gone. *)
Definition manned (alive : nat -> bool) (a : blueprint) : Prop :=
  forall s o, In s (b_schedules a) -> In o (s_locomotives s) -> alive o = true.

(** Only schedules. *)
Definition only_schedules (l : list slot) : Prop := Forall (fun x => exists s, x = One s) l.
(** No sequence is assigned to a single place. *)
Definition plain (o : sop) : Prop := match o with SSet _ (GSeq _) => False | _ => True end.
