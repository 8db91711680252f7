(** What giving trains a schedule and removing them is supposed to do. *)
From Coq Require Import String ZArith List Bool Reals.
From Verif Require Import Common Dict Schedule_Model Schedule_Spec Train_Model Rake_Model Rake_Spec Rake_Filter_Spec.
Import ListNotations.
Local Open Scope string_scope.
Local Open Scope list_scope.

(** The schedule without the associations to what [P] holds of. *)
Definition stripped (P : nat -> Prop) (x y : schedule) : Prop :=
  s_stops y = s_stops x /\ selects (fun l => forall i, l = LRef (Some i) -> ~ P i) (s_locos x) (s_locos y).
(** [l] lists what [P] holds of, once each. *)
Definition listing (P : nat -> Prop) (l : list nat) : Prop := NoDup l /\ forall i, In i l <-> P i.
Definition joined (x : schedule) (l : list nat) : schedule :=
  mkSchedule (s_stops x) (s_locos x ++ map (fun i => LRef (Some i)) l).
(** The locomotives of all trains one of the cars belongs to. *)
Definition touched_engine (K : Z) (at_ : nat -> entity) (near : nat -> list nat) (kind : nat -> pystr) (cars : list nat) (i : nat) : Prop :=
  kind i = str "locomotive" /\ exists c, In c cars /\ connected K at_ near c i.
(** The last schedule with the stops of [s] takes the engines [P], or, if there
    is none, [s] itself does, at the end. *)
Definition given (P : nat -> Prop) (s : schedule) (ws ss' : list schedule) : Prop :=
  (exists pre x post l, ws = pre ++ x :: post /\ s_stops x = s_stops s /\ (forall y, In y post -> s_stops y <> s_stops s) /\
     listing P l /\ ss' = pre ++ joined x l :: post) \/
  ((forall y, In y ws -> s_stops y <> s_stops s) /\
   exists l, listing (fun i => P i /\ ~ In i (targets (s_locos s))) l /\ ss' = ws ++ [joined s l]).
