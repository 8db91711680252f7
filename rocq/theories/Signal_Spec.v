(** What the tables of signals should say. *)
From Coq Require Import ZArith List Bool String.
From Verif Require Import Common Dict Ranking_Model Signal_Model.
Import ListNotations.
Local Open Scope string_scope.
Local Open Scope list_scope.

(** [n] is a signal of type [t], according to the table of types; and by the lists. *)
Definition has_type (s : signals) (n t : pystr) : Prop := exists ts, dget pystr_eqb (sg_types s) n = Some ts /\ In t ts.
Definition in_list (s : signals) (n t : pystr) : Prop := exists l, dget pystr_eqb (sg_lists s) t = Some l /\ In n l.
(** A known name. *)
Definition known (s : signals) (n : pystr) : Prop := exists x, dget pystr_eqb (sg_raw s) n = Some x.
(** The tables tell one story. *)
Definition one_story (s : signals) : Prop :=
  (forall n t, has_type s n t <-> in_list s n t) /\
  (forall n, known s n <-> exists t, has_type s n t) /\
  (forall n ts, dget pystr_eqb (sg_types s) n = Some ts -> ts <> [] /\ NoDup ts) /\
  (forall n t, has_type s n t -> In t permitted).
Definition listed_once (s : signals) : Prop := forall t l, dget pystr_eqb (sg_lists s) t = Some l -> NoDup l.
(** A sequence of additions, stopping at the first exception with what was done before. *)
Fixpoint add_signal_list (s : signals) (l : list (pystr * pystr)) : signals * option exn :=
  match l with
  | [] => (s, None)
  | (n, t) :: l' => match add_signal s n t with Ok s' => add_signal_list s' l' | Err e => (s, Some e) end
  end.
(** The game's data: every prototype under its own name, every type permitted. *)
Definition proper_data (cats : list (pystr * list (pystr * proto))) : Prop :=
  Forall (fun c => In (fst c) permitted /\ Forall (fun p => p_name (snd p) = Some (fst p)) (snd c)) cats.
Definition offered (cats : list (pystr * list (pystr * proto))) (n t : pystr) : Prop :=
  exists c o, In (t, c) cats /\ In (n, o) c.
(** How often. *)
Definition offers (cats : list (pystr * list (pystr * proto))) (t : pystr) : list pystr :=
  flat_map (fun c => if pystr_eqb (fst c) t then map fst (snd c) else []) cats.
