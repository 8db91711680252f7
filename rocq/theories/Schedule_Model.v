(** Wait conditions and train schedules: /repo/draftsman/classes/schedule.py.

    Conditions are objects with identity: a heap is a list of conditions, an
    object is its index.  Locomotives are identities, stops are values.  Not
    modelled: validation (the operators only assign the valid values "and" and
    "or"), warnings, mutation of a condition already stored in a stop. *)
From Coq Require Import ZArith List Bool.
From Verif Require Import Common Dict.
Import ListNotations.

(** [WaitCondition] 33-163.  [wc_and]: [compare_type == "and"] (the other value
    is "or").  [wc_cond] stands for the circuit condition. *)
Record wc := mkWC { wc_type : pystr; wc_and : bool; wc_ticks : option Z; wc_cond : nat }.
Definition set_and (b : bool) (w : wc) : wc := mkWC (wc_type w) b (wc_ticks w) (wc_cond w).

Definition heap := list wc.
(** Replace object [i]. *)
Fixpoint update (h : heap) (i : nat) (f : wc -> wc) : heap :=
  match h, i with
  | [], _ => []
  | w :: h', O => f w :: h'
  | w :: h', S i' => w :: update h' i' f
  end.

(** A Python value met by the operators: a [WaitCondition], a [WaitConditions]
    (its list), or something else. *)
Inductive operand := One (i : nat) | Many (l : list nat) | Foreign.

(** [copy.deepcopy]: with its memo an object met twice is copied once. *)
Definition copy_one (h : heap) (i : nat) : heap * nat :=
  match nth_error h i with Some w => (h ++ [w], length h) | None => (h, i) end.
Fixpoint copy_list (h : heap) (memo : list (nat * nat)) (l : list nat) : heap * list nat :=
  match l with
  | [] => (h, [])
  | i :: l' =>
      match dget Nat.eqb memo i with
      | Some j => let '(h', r) := copy_list h memo l' in (h', j :: r)
      | None =>
          let '(h1, j) := copy_one h i in
          let '(h', r) := copy_list h1 ((i, j) :: memo) l' in (h', j :: r)
      end
  end.

(** 293-305 [__and__] and 318-330 [__or__] ([conj] tells which). *)
Definition op_forward (conj : bool) (h : heap) (self : nat) (other : operand) : result (heap * operand) :=
  let '(h1, s) := copy_one h self in
  match other with
  | One i => let '(h2, o) := copy_one h1 i in Ok (update h2 o (set_and conj), Many [s; o])
  | Many l =>
      let '(h2, r) := copy_list h1 [] l in
      match r with
      | [] => Err IndexError
      | o :: _ => Ok (update h2 o (set_and conj), Many (s :: r))
      end
  | Foreign => Err TypeError
  end.
(** 307-316 [__rand__] and 332-341 [__ror__]. *)
Definition op_reflected (conj : bool) (h : heap) (self : nat) (other : operand) : result (heap * operand) :=
  let '(h1, s) := copy_one h self in
  match other with
  | Many l => let '(h2, r) := copy_list h1 [] l in Ok (update h2 s (set_and conj), Many (r ++ [s]))
  | _ => Err TypeError
  end.
(** [a & b] and [a | b] as Python evaluates them: [WaitConditions] (356-401)
    defines no operators; two values without a fitting method are a
    [TypeError]. *)
Definition py_op (conj : bool) (h : heap) (a b : operand) : result (heap * operand) :=
  match a, b with
  | One i, _ => op_forward conj h i b
  | _, One i => op_reflected conj h i a
  | _, _ => Err TypeError
  end.

(** An expression in a program, evaluated left to right. *)
Inductive expr := Atom (i : nat) | Op (conj : bool) (a b : expr).
Fixpoint run (h : heap) (e : expr) : result (heap * operand) :=
  match e with
  | Atom i => Ok (h, One i)
  | Op c a b =>
      let* (h1, x) := run h a in
      let* (h2, y) := run h1 b in
      py_op c h2 x y
  end.

(** ** [Schedule] 404-719 *)
(** An entry of [locomotives]: an [Association] (the target may be gone), or a
    number not yet resolved. *)
Inductive loco := LRef (o : option nat) | LNum (n : Z).
(** [loco_association == entry], the entry an association to a live object
    (association.py 32-56). *)
Definition is_loco (i : nat) (e : loco) : bool := match e with LRef (Some j) => Nat.eqb i j | _ => false end.

Inductive lop := AddLoco (i : nat) | RemoveLoco (i : nat).
Section Locos.
  (** [isinstance(x, Locomotive)]. *)
  Variable locomotive : nat -> bool.
  (** 542-558. *)
  Definition add_locomotive (ls : list loco) (i : nat) : result (list loco) :=
    if locomotive i then
      Ok (if existsb (is_loco i) ls then ls else ls ++ [LRef (Some i)])
    else Err TypeError.
  (** 560-571: [list.remove]. *)
  Fixpoint remove_first {A} (p : A -> bool) (l : list A) : option (list A) :=
    match l with
    | [] => None
    | x :: l' => if p x then Some l' else option_map (cons x) (remove_first p l')
    end.
  Definition remove_locomotive (ls : list loco) (i : nat) : result (list loco) :=
    match remove_first (is_loco i) ls with Some r => Ok r | None => Err ValueError end.

  (** A history; an operation that raises leaves the list as it was. *)
  Definition lstep (ls : list loco) (o : lop) : list loco :=
    match (match o with AddLoco i => add_locomotive ls i | RemoveLoco i => remove_locomotive ls i end) with
    | Ok r => r | Err _ => ls
    end.
  Definition lrun (ls : list loco) (ops : list lop) : list loco := fold_left lstep ops ls.
End Locos.

(** A stop: 413-444. *)
Record stop := mkStop { station : pystr; conds : list wc }.
(** 343-350 and 377-386: equality of conditions and of lists of them. *)
Definition opt_eqb (a b : option Z) : bool :=
  match a, b with Some x, Some y => Z.eqb x y | None, None => true | _, _ => false end.
Definition wc_eqb (a b : wc) : bool :=
  pystr_eqb (wc_type a) (wc_type b) && Bool.eqb (wc_and a) (wc_and b) &&
  opt_eqb (wc_ticks a) (wc_ticks b) && Nat.eqb (wc_cond a) (wc_cond b).
Fixpoint wcs_eqb (a b : list wc) : bool :=
  match a, b with
  | [], [] => true
  | x :: a', y :: b' => wc_eqb x y && wcs_eqb a' b'
  | _, _ => false
  end.

(** The [wait_conditions] argument: nothing, one condition, or a list. *)
Inductive warg := NoConds | OneCond (w : wc) | Conds (l : list wc).
(** 585-609. *)
Definition insert_stop (l : list stop) (index : Z) (name : pystr) (w : warg) : list stop :=
  let c := match w with NoConds => [] | OneCond x => [x] | Conds cs => cs end in
  py_insert l index (mkStop name c).
(** 573-583. *)
Definition append_stop (l : list stop) (name : pystr) (w : warg) : list stop :=
  insert_stop l (Z.of_nat (length l)) name w.
(** 611-649. *)
Definition matches (name : pystr) (w : warg) (s : stop) : bool :=
  match w with
  | NoConds => pystr_eqb (station s) name
  | OneCond x => pystr_eqb (station s) name && wcs_eqb (conds s) [x]
  | Conds cs => pystr_eqb (station s) name && wcs_eqb (conds s) cs
  end.
Definition remove_stop (l : list stop) (name : pystr) (w : warg) : result (list stop) :=
  match remove_first (matches name w) l with Some r => Ok r | None => Err ValueError end.
