(** Specification of energy strings. *)
From Coq Require Import ZArith NArith List.
From Verif Require Import Common Version_Model.
Import ListNotations.
Local Open Scope Z_scope.

(** Power of ten of a prefix letter: k or K, M, G, T, P, E, Z, Y. *)
Inductive prefix : pystr -> Z -> Prop :=
| p_none : prefix [] 0
| p_k : prefix [107%N] 3 | p_K : prefix [75%N] 3 | p_M : prefix [77%N] 6 | p_G : prefix [71%N] 9
| p_T : prefix [84%N] 12 | p_P : prefix [80%N] 15 | p_E : prefix [69%N] 18 | p_Z : prefix [90%N] 21 | p_Y : prefix [89%N] 24.
(** [s] is a number [n], a prefix for [10^k] and a unit, J or W. *)
Definition energy_text (s : pystr) (n k : Z) (watts : bool) : Prop :=
  exists d p, s = d ++ p ++ [if watts then 87%N else 74%N] /\ prefix p k /\ py_int d = Ok n.
