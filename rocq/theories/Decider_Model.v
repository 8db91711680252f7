(** Decider conditions: /repo/draftsman/prototypes/decider_combinator.py 90-217
    ([DeciderCondition], [DeciderInput]); /repo/draftsman/signatures.py 684-774
    ([NetworkSpecification.convert_from_set], [Condition]).

    Conditions are objects with identity: a heap is a list of conditions, an
    object is its index.  A signal is its name.  [model_validate] in construction
    mode keeps whatever it is given; only the comparator and the network sets are
    converted.  Not modelled: other operands with comparison or bit operators of
    their own. *)
From Coq Require Import ZArith NArith List Bool String.
From Verif Require Import Common.
Import ListNotations.
Local Open Scope string_scope.
Local Open Scope list_scope.

(** [convert_from_set] 693-699: red and green are on if they are in the set. *)
Record nets := mkNets { red : bool; green : bool }.
Definition nets_of (s : list pystr) : nets :=
  mkNets (existsb (pystr_eqb (str "red")) s) (existsb (pystr_eqb (str "green")) s).
Inductive rhs := RConst (z : Z) | RSig (s : pystr) (n : nets).
Record cond := mkCond { c_first : pystr; c_nets : nets; c_cmp : pystr; c_rhs : rhs; c_and : bool }.
Definition set_and (b : bool) (c : cond) : cond := mkCond (c_first c) (c_nets c) (c_cmp c) (c_rhs c) b.
Definition heap := list cond.
Fixpoint update (h : heap) (i : nat) (f : cond -> cond) : heap :=
  match h, i with
  | [], _ => []
  | w :: h', O => f w :: h'
  | w :: h', S i' => w :: update h' i' f
  end.

(** signatures.py 767-774. *)
Definition GE : pystr := [8805%N].
Definition LE : pystr := [8804%N].
Definition NE : pystr := [8800%N].
Definition normalize_comparator (s : pystr) : pystr :=
  if pystr_eqb s (str "==") then str "="
  else if pystr_eqb s (str ">=") then GE
  else if pystr_eqb s (str "<=") then LE
  else if pystr_eqb s (str "!=") then NE
  else s.

(** What can be compared, and the Python operators. *)
Inductive term := Input (s : pystr) (networks : list pystr) | Int (z : Z) | Other.
Inductive pyop := PEq | PNe | PGt | PLt | PGe | PLe.
(** 200-217: the text each method passes on. *)
Definition method_text (o : pyop) : pystr :=
  match o with
  | PEq => str "="
  | PNe => str "!="
  | PGt => str ">"
  | PLt => str "<"
  | PGe => str "<="
  | PLe => str ">="
  end.
(** [b.op(a)] that Python tries when [a.op(b)] is not implemented. *)
Definition mirrored (o : pyop) : pyop :=
  match o with PEq => PEq | PNe => PNe | PGt => PLt | PLt => PGt | PGe => PLe | PLe => PGe end.
(** 180-198 [_output_condition]; [None]: [NotImplemented].  The compare type is
    "or" by default. *)
Definition output_condition (s : pystr) (n : list pystr) (text : pystr) (other : term) : option cond :=
  match other with
  | Input s' n' => Some (mkCond s (nets_of n) (normalize_comparator text) (RSig s' (nets_of n')) false)
  | Int z => Some (mkCond s (nets_of n) (normalize_comparator text) (RConst z) false)
  | Other => None
  end.
(** A value: a condition, a list of conditions or something else. *)
Inductive operand := One (i : nat) | Many (l : list nat) | Foreign.
(** [a op b]. *)
Definition py_compare (h : heap) (o : pyop) (a b : term) : result (heap * operand) :=
  let found := match a, b with
               | Input s n, _ => output_condition s n (method_text o) b
               | _, Input s n => output_condition s n (method_text (mirrored o)) a
               | _, _ => None
               end in
  match found with
  | Some c => Ok (h ++ [c], One (List.length h))
  | None => match o with PEq | PNe => Ok (h, Foreign) (* a bool *) | _ => Err TypeError end
  end.

(** 134-142 [__or__], 154-162 [__and__]. *)
Definition op_forward (conj : bool) (h : heap) (self : nat) (other : operand) : result (heap * operand) :=
  match other with
  | One i => Ok (update h i (set_and conj), Many [self; i])
  | Many [] => Err IndexError
  | Many (i :: l) => Ok (update h i (set_and conj), Many (self :: i :: l))
  | Foreign => Err TypeError
  end.
(** 144-152 [__ror__], 164-172 [__rand__]. *)
Definition op_reflected (conj : bool) (h : heap) (self : nat) (other : operand) : result (heap * operand) :=
  match other with
  | Many l => Ok (update h self (set_and conj), Many (l ++ [self]))
  | _ => Err TypeError
  end.
(** [a & b], [a | b]; lists have neither operator. *)
Definition py_op (conj : bool) (h : heap) (a b : operand) : result (heap * operand) :=
  match a, b with
  | One i, _ => op_forward conj h i b
  | _, One i => op_reflected conj h i a
  | _, _ => Err TypeError
  end.

(** A program expression. *)
Inductive expr := Cmp (o : pyop) (a b : term) | Var (o : operand) | Op (conj : bool) (a b : expr).
Fixpoint run (h : heap) (e : expr) : result (heap * operand) :=
  match e with
  | Cmp o a b => py_compare h o a b
  | Var o => Ok (h, o)
  | Op c a b =>
      let* (h1, x) := run h a in
      let* (h2, y) := run h1 b in
      py_op c h2 x y
  end.
