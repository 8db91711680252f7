(** What an indexed table of mappings is. *)
From Coq Require Import ZArith List Bool Sorted.
From Verif Require Import Common Planner_Model.
Import ListNotations.
Local Open Scope Z_scope.

(** A table: at most one mapping per index. *)
Definition table := Z -> option (option mid * option mid).
Definition empty : table := fun _ => None.
Definition put (m m' : table) (i : Z) (v : option (option mid * option mid)) : Prop :=
  m' i = v /\ forall j, j <> i -> m' j = m j.

(** The meaning of each call. *)
Inductive step (m : table) : op -> outcome -> table -> Prop :=
| step_set : forall f t i m', put m m' i (Some (f, t)) -> step m (Set_ f t i) Done m'
| step_pop : forall i f t m', m i = Some (f, t) -> put m m' i None -> step m (Pop i) (Gave i f t) m'
| step_pop_missing : forall i e, m i = None -> step m (Pop i) (Raised e) m
| step_remove : forall f t i m', m i = Some (f, t) -> (forall j, j < i -> m j <> Some (f, t)) ->
    put m m' i None -> step m (Remove f t None) Done m'
| step_remove_missing : forall f t e, (forall i, m i <> Some (f, t)) -> step m (Remove f t None) (Raised e) m
| step_remove_at : forall f t i m', m i = Some (Some f, Some t) -> put m m' i None ->
    step m (Remove (Some f) (Some t) (Some i)) Done m'
| step_remove_at_missing : forall f t i e, m i <> Some (f, t) -> step m (Remove f t (Some i)) (Raised e) m
(** the quirk: a mapping with a blank side is not found by its index *)
| step_remove_at_blank : forall f t i e, f = None \/ t = None -> step m (Remove f t (Some i)) (Raised e) m.
Inductive steps : table -> list op -> list outcome -> table -> Prop :=
| steps_nil : forall m m', (forall i, m' i = m i) -> steps m [] [] m'
| steps_cons : forall m m1 m2 o r os rs, step m o r m1 -> steps m1 os rs m2 -> steps m (o :: os) (r :: rs) m2.

(** The stored list shows the table: sorted by index, no index twice, and
    exactly the mappings of the table. *)
Definition entries (st : state) : list mapping := match st with Some l => l | None => [] end.
Definition shows (st : state) (m : table) : Prop :=
  StronglySorted Z.lt (map m_index (entries st)) /\
  forall i f t, m i = Some (f, t) <-> exists e, In e (entries st) /\ m_index e = i /\ m_from e = f /\ m_to e = t.

(** Calls that do not depend on how the mappings are stored. *)
Definition set_or_pop (o : op) : Prop := match o with Remove _ _ _ => False | _ => True end.
(** Every mapping is a dict stored by [set_mapping]. *)
Definition all_set_here (st : state) : Prop := Forall (fun e => m_dict e = true) (entries st).
