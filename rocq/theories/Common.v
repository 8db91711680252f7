(** Shared conventions of the model: Python exceptions as values, Python
    strings as lists of Unicode code points. *)
From Coq Require Import ZArith NArith List String Ascii Bool.
Import ListNotations.

(** The exception classes that the modelled functions can raise
    (builtins and /repo/draftsman/error.py). *)
Inductive exn : Type :=
| ValueError | TypeError | KeyError | IndexError | AttributeError
| AssertionError | StopIteration | UnboundLocalError | RecursionError
| StructError | UnicodeError | OverflowError | ZeroDivisionError
| DraftsmanError | DataFormatError | DuplicateIDError | RotationError
| FlippingError | MalformedBlueprintStringError | InvalidAssociationError
| EntityNotPowerConnectableError | EntityNotCircuitConnectableError
| InvalidSideError | InvalidConnectionSideError | EntityNotInCollection | InvalidWireTypeError
| InvalidModeError | IncompatableModError | MissingModError
| IncorrectModVersionError | UnreasonablySizedBlueprintError
| IncorrectBlueprintTypeError
| OutOfFuel (** only used by fuelled loops; never a Python exception *).

Inductive result (A : Type) : Type :=
| Ok (a : A)
| Err (e : exn).
Arguments Ok {A} a.
Arguments Err {A} e.

Definition bind {A B} (r : result A) (f : A -> result B) : result B :=
  match r with Ok a => f a | Err e => Err e end.

Notation "'let*' x ':=' r 'in' k" := (bind r (fun x => k))
  (at level 200, x pattern, r at level 100, k at level 200).

Definition is_ok {A} (r : result A) : bool :=
  match r with Ok _ => true | Err _ => false end.

(** Python [str]: a list of Unicode code points. *)
Definition pystr := list N.

Definition str (s : string) : pystr := map N_of_ascii (list_ascii_of_string s).

Fixpoint pystr_eqb (a b : pystr) : bool :=
  match a, b with
  | [], [] => true
  | x :: a', y :: b' => N.eqb x y && pystr_eqb a' b'
  | _, _ => false
  end.

Lemma pystr_eqb_eq : forall a b, pystr_eqb a b = true <-> a = b.
Proof.
  induction a as [|x a IH]; intros [|y b]; simpl; split; intro H;
    try discriminate; try reflexivity.
  - apply andb_true_iff in H. destruct H as [H1 H2].
    apply N.eqb_eq in H1. apply IH in H2. congruence.
  - inversion H; subst. rewrite N.eqb_refl. apply IH. reflexivity.
Qed.

Lemma pystr_eqb_refl : forall a, pystr_eqb a a = true.
Proof. intro a. apply pystr_eqb_eq. reflexivity. Qed.

Lemma pystr_eqb_neq : forall a b, pystr_eqb a b = false <-> a <> b.
Proof.
  intros a b. split.
  - intros H E. apply pystr_eqb_eq in E. congruence.
  - intros H. destruct (pystr_eqb a b) eqn:E; [|reflexivity].
    apply pystr_eqb_eq in E. contradiction.
Qed.

Definition pystr_eq_dec (a b : pystr) : {a = b} + {a <> b} :=
  list_eq_dec N.eq_dec a b.

(** Sequencing of [option] computations. *)
Definition obind {A B} (o : option A) (f : A -> option B) : option B :=
  match o with Some a => f a | None => None end.
