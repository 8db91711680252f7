(** Independent specification for version numbers. *)
From Coq Require Import ZArith List NArith.
From Verif Require Import Common.
Import ListNotations.
Local Open Scope Z_scope.

Definition u16 (x : Z) : Prop := 0 <= x < 65536.

(** Lexicographic order on version quadruples. *)
Definition version_lt (a b : Z * Z * Z * Z) : Prop :=
  let '(a1, a2, a3, a4) := a in
  let '(b1, b2, b3, b4) := b in
  a1 < b1 \/ (a1 = b1 /\ (a2 < b2 \/ (a2 = b2 /\ (a3 < b3 \/ (a3 = b3 /\ a4 < b4))))).

(** [parts] is what is found between the dots of [s]. *)
Inductive dotted : pystr -> list pystr -> Prop :=
| dotted_one : forall w, ~ In 46%N w -> dotted w [w]
| dotted_more : forall w s ws, ~ In 46%N w -> dotted s ws ->
    dotted (w ++ 46%N :: s) (w :: ws).
