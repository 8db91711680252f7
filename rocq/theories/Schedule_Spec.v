(** What combining conditions and editing schedules is supposed to do. *)
From Coq Require Import ZArith List Bool.
From Verif Require Import Common Schedule_Model.
Import ListNotations.

(** ** Meaning of a list of wait conditions in the game: a condition with
    "or" starts a new clause; all of some clause must hold.  The first
    condition's own compare type does not matter.  Nothing to wait for holds. *)
Definition clause (c : list wc) : Prop :=
  exists w r, c = w :: r /\ Forall (fun v => wc_and v = true) r.
Definition opened (c : list wc) : Prop := exists w r, c = w :: r /\ wc_and w = false.
Definition clauses (l : list wc) (cs : list (list wc)) : Prop :=
  concat cs = l /\ Forall clause cs /\ Forall opened (tl cs).

Section Meaning.
  (** Which conditions are fulfilled; it does not depend on the compare type. *)
  Variable fulfilled : pystr -> option Z -> nat -> Prop.
  Definition sat (w : wc) : Prop := fulfilled (wc_type w) (wc_ticks w) (wc_cond w).
  Definition holds (l : list wc) : Prop :=
    l = [] \/ exists cs c, clauses l cs /\ In c cs /\ Forall sat c.
  (** Meaning of an expression. *)
  Fixpoint means (h : heap) (e : expr) : Prop :=
    match e with
    | Atom i => exists w, nth_error h i = Some w /\ sat w
    | Op true a b => means h a /\ means h b
    | Op false a b => means h a \/ means h b
    end.
End Meaning.

(** Contents of a value. *)
Definition members (o : operand) : list nat := match o with One i => [i] | Many l => l | Foreign => [] end.
Definition contents (h : heap) (o : operand) (l : list wc) : Prop :=
  Forall2 (fun i w => nth_error h i = Some w) (members o) l.
Definition real (h : heap) (o : operand) : Prop := Forall (fun i => i < length h) (members o).
(** Every old object is as it was. *)
Definition untouched (h h' : heap) : Prop := forall i w, nth_error h i = Some w -> nth_error h' i = Some w.
(** Objects that did not exist in [h], all different. *)
Definition new_objects (h : heap) (o : operand) : Prop := NoDup (members o) /\ Forall (fun i => length h <= i) (members o).

Definition with_first (b : bool) (l : list wc) : list wc :=
  match l with [] => [] | w :: r => set_and b w :: r end.

(** The compare type of the first object of the list is set; if that object
    occurs again in the list, it shows there too. *)
Definition recompared (conj : bool) (l : list nat) (ws ws' : list wc) : Prop :=
  match l with
  | [] => ws' = []
  | i0 :: _ => ws' = map (fun p => if Nat.eqb (fst p) i0 then set_and conj (snd p) else snd p) (combine l ws)
  end.

(** Expressions that Python can evaluate: no operator has two compound
    operands. *)
Definition atomic (e : expr) : Prop := match e with Atom _ => True | Op _ _ _ => False end.
Fixpoint evaluable (e : expr) : Prop :=
  match e with
  | Atom _ => True
  | Op _ a b => evaluable a /\ evaluable b /\ (atomic a \/ atomic b)
  end.
(** No disjunction below a conjunction. *)
Fixpoint conjunctive (e : expr) : Prop :=
  match e with Atom _ => True | Op true a b => conjunctive a /\ conjunctive b | Op false _ _ => False end.
Fixpoint paren_free (e : expr) : Prop :=
  match e with
  | Atom _ => True
  | Op true a b => conjunctive a /\ conjunctive b
  | Op false a b => paren_free a /\ paren_free b
  end.
Fixpoint atoms (e : expr) : list nat :=
  match e with Atom i => [i] | Op _ a b => atoms a ++ atoms b end.

(** ** Schedules *)
Definition targets (ls : list loco) : list nat :=
  flat_map (fun e => match e with LRef (Some i) => [i] | _ => [] end) ls.
(** Entries that do not refer to a living object. *)
Definition not_live (e : loco) : bool := match e with LRef (Some _) => false | _ => true end.
(** [i] was added (as a locomotive) and not removed since. *)
Definition present (locomotive : nat -> bool) (ops : list lop) (i : nat) : Prop :=
  locomotive i = true /\ exists pre post, ops = pre ++ AddLoco i :: post /\ ~ In (RemoveLoco i) post.

(** [l'] is [l] without its first element with [P]. *)
Definition first_removed {A} (P : A -> Prop) (l l' : list A) : Prop :=
  exists pre x post, l = pre ++ x :: post /\ P x /\ (forall y, In y pre -> ~ P y) /\ l' = pre ++ post.
Definition matching (name : pystr) (w : warg) (s : stop) : Prop :=
  station s = name /\ match w with NoConds => True | OneCond x => conds s = [x] | Conds cs => conds s = cs end.
Definition new_stop (name : pystr) (w : warg) : stop :=
  mkStop name (match w with NoConds => [] | OneCond x => [x] | Conds cs => cs end).
(** The place a Python insertion index means. *)
Definition place (n : nat) (index : Z) (i : nat) : Prop :=
  (Z.of_nat n <= index /\ i = n)%Z \/ (0 <= index < Z.of_nat n /\ Z.of_nat i = index)%Z \/
  (- Z.of_nat n <= index < 0 /\ Z.of_nat i = index + Z.of_nat n)%Z \/ (index < - Z.of_nat n /\ i = O)%Z.
