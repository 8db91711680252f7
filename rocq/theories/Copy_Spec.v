(** What copying is supposed to do. *)
From Coq Require Import ZArith List Bool.
From Verif Require Import Common Wires_Model Copy_Model.
Import ListNotations.

(** All objects of a tree, outermost first. *)
Fixpoint ids (n : node) : list nat :=
  match n with
  | Ent i _ => [i]
  | Grp i _ kids _ _ => i :: flat_map ids kids
  end.
(** Ends of wires and locomotives of a group's own. *)
Definition wire_ends (w : wire) : list wend := let '(a, _, b, _) := w in [a; b].
Definition own_ends (n : node) : list wend :=
  match n with
  | Ent _ _ => []
  | Grp _ _ _ ss ws => concat ss ++ flat_map wire_ends ws
  end.
(** [h] is [g] or inside it. *)
Inductive inside (h : node) : node -> Prop :=
| inside_here : inside h h
| inside_kid i v kids ss ws k : In k kids -> inside h k -> inside h (Grp i v kids ss ws).
(** Everything the associations within a tree lead to. *)
Definition leads_to (n : node) (e : wend) : Prop := exists h, inside h n /\ In e (own_ends h).

(** The same structure over other objects. *)
Definition move_end (f : nat -> nat) (w : wend) : wend := match w with WRef (Some i) => WRef (Some (f i)) | _ => w end.
Definition move_wire (f : nat -> nat) (w : wire) : wire := let '(a, p, b, q) := w in (move_end f a, p, move_end f b, q).
Fixpoint move (f : nat -> nat) (n : node) : node :=
  match n with
  | Ent i v => Ent (f i) v
  | Grp i v kids ss ws => Grp (f i) v (map (move f) kids) (map (map (move_end f)) ss) (map (move_wire f) ws)
  end.
(** [f] takes the objects [l] to different new ones, from [k] on. *)
Definition renews (f : nat -> nat) (k : nat) (l : list nat) : Prop :=
  (forall i j, In i l -> In j l -> f i = f j -> i = j) /\ (forall i, In i l -> k <= f i).

(** The objects copied when the group [h] of the tree has been: those that come
    before it and its own. *)
Definition known (all : list nat) (h : node) (i : nat) : Prop :=
  In i (ids h) \/ exists pre post, all = pre ++ ident h :: post /\ In i pre.
(** Every association of every group of the tree leads to a living object known
    by then. *)
Definition sound_end (P : nat -> Prop) (e : wend) : Prop := exists i, e = WRef (Some i) /\ P i.
Definition copyable (n : node) : Prop :=
  forall h, inside h n -> Forall (sound_end (known (ids n) h)) (own_ends h).
(** Every association of every group leads into that group. *)
Definition self_contained (n : node) : Prop :=
  forall h, inside h n -> Forall (sound_end (fun i => In i (ids h))) (own_ends h).
(** No number stands where an association should. *)
Definition associated (n : node) : Prop := forall e, leads_to n e -> exists o, e = WRef o.
(** A blueprint without its own schedules and wires, as a group. *)
Definition body (b : blueprint) : node := Grp (b_id b) 0 (b_ents b) [] [].
(** A copy compares as its original does. *)
Definition alike (veq : nat -> nat -> bool) (f : nat -> nat) (l : list nat) : Prop :=
  (forall i, veq i i = true) /\ forall i j, In i l -> veq (f i) j = veq i j /\ veq j (f i) = veq j i.
(** An association, dead or to an object that exists already. *)
Definition old_end (k : nat) (e : wend) : Prop := exists o, e = WRef o /\ forall i, o = Some i -> i < k.
