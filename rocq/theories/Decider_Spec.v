(** What decider conditions mean. *)
From Coq Require Import ZArith NArith List Bool String.
From Verif Require Import Common Decider_Model.
Import ListNotations.
Local Open Scope string_scope.
Local Open Scope list_scope.
Local Open Scope Z_scope.

(** Which comparison the game makes for a comparator. *)
Inductive compares : pystr -> (Z -> Z -> Prop) -> Prop :=
| c_gt : compares (str ">") (fun x y => x > y)
| c_lt : compares (str "<") (fun x y => x < y)
| c_eq : compares (str "=") (fun x y => x = y)
| c_ge : compares [8805%N] (fun x y => x >= y)
| c_le : compares [8804%N] (fun x y => x <= y)
| c_ne : compares [8800%N] (fun x y => x <> y).
(** And Python for an operator. *)
Definition python (o : pyop) (x y : Z) : Prop :=
  match o with PEq => x = y | PNe => x <> y | PGt => x > y | PLt => x < y | PGe => x >= y | PLe => x <= y end.

Section Meaning.
  (** The value of a signal read from the red and/or green network. *)
  Variable val : pystr -> bool -> bool -> Z.

  Definition right_value (r : rhs) : Z := match r with RConst z => z | RSig s n => val s (red n) (green n) end.
  Definition true_cond (c : cond) : Prop :=
    exists P, compares (c_cmp c) P /\ P (val (c_first c) (red (c_nets c)) (green (c_nets c))) (right_value (c_rhs c)).

  (** A list of conditions in the game: "and" extends the current clause, "or"
      starts a new one; some clause must hold as a whole. *)
  Fixpoint holds_from (clause : Prop) (l : list cond) : Prop :=
    match l with
    | [] => clause
    | c :: r => if c_and c then holds_from (clause /\ true_cond c) r else clause \/ holds_from (true_cond c) r
    end.
  Definition holds (l : list cond) : Prop := match l with [] => False | c :: r => holds_from (true_cond c) r end.

  Definition term_value (t : term) : Z :=
    match t with
    | Input s n => val s (if in_dec pystr_eq_dec (str "red") n then true else false) (if in_dec pystr_eq_dec (str "green") n then true else false)
    | Int z => z
    | Other => 0
    end.
  (** Meaning of an expression of comparisons, as written. *)
  Fixpoint means (e : expr) : Prop :=
    match e with
    | Cmp o a b => python o (term_value a) (term_value b)
    | Var _ => False
    | Op true a b => means a /\ means b
    | Op false a b => means a \/ means b
    end.
  (** With all parentheses between & and | removed: the comparisons with the
      operator in front of each. *)
  Fixpoint flat (front : bool) (e : expr) : list (bool * (pyop * term * term)) :=
    match e with
    | Cmp o a b => [(front, (o, a, b))]
    | Var _ => []
    | Op c a b => flat front a ++ flat c b
    end.
End Meaning.

Definition objects (h : heap) (l : list nat) (cs : list cond) : Prop := Forall2 (fun i c => nth_error h i = Some c) l cs.
Definition members (o : operand) : list nat := match o with One i => [i] | Many l => l | Foreign => [] end.
Definition untouched (h h' : heap) : Prop := forall i c, nth_error h i = Some c -> nth_error h' i = Some c.

(** Comparisons between inputs or between an input and a number. *)
Definition sensible (a b : term) : Prop :=
  match a, b with Input _ _, Input _ _ | Input _ _, Int _ | Int _, Input _ _ => True | _, _ => False end.
Definition strict_or_equal (o : pyop) : Prop := o <> PGe /\ o <> PLe.
Definition atomic (e : expr) : Prop := match e with Op _ _ _ => False | _ => True end.
(** Expressions of comparisons that Python can evaluate. *)
Fixpoint evaluable (e : expr) : Prop :=
  match e with
  | Cmp _ a b => sensible a b
  | Var _ => False
  | Op _ a b => evaluable a /\ evaluable b /\ (atomic a \/ atomic b)
  end.
Fixpoint comparisons (e : expr) : list (pyop * term * term) :=
  match e with Cmp o a b => [(o, a, b)] | Var _ => [] | Op _ a b => comparisons a ++ comparisons b end.
Fixpoint conjunctive (e : expr) : Prop :=
  match e with Op true a b => conjunctive a /\ conjunctive b | Op false _ _ => False | _ => True end.
Fixpoint paren_free (e : expr) : Prop :=
  match e with
  | Op true a b => conjunctive a /\ conjunctive b
  | Op false a b => paren_free a /\ paren_free b
  | _ => True
  end.
