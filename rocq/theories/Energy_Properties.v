(** Property theorems C41: energy strings. *)
From Coq Require Import ZArith NArith List String Lia.
From Verif Require Import Common Version_Model Version_Proofs Energy_Model Energy_Spec Energy_Proofs.
Import ListNotations.
Local Open Scope string_scope.
Local Open Scope list_scope.
Local Open Scope Z_scope.

(** [other] says which characters beyond ASCII are letters; it never matters. *)

(** Joules are exact. *)
Theorem C41_joules : forall other s n k, energy_text s n k false -> parse_energy other s = Ok (n * 10 ^ k).
Proof. exact joules. Qed.
Print Assumptions C41_joules.
(** Watts: within half a joule per tick and one part in 2^50 of a sixtieth … *)
Theorem C41_watts : forall other s n k, energy_text s n k true -> Z.abs n < 2 ^ 900 ->
  exists r, parse_energy other s = Ok r /\ 2 ^ 50 * (Z.abs (60 * r - n * 10 ^ k) - 30) <= Z.abs (n * 10 ^ k).
Proof. exact watts. Qed.
Print Assumptions C41_watts.
(** … which below 10^15 watts is an integer nearest to the exact sixtieth. *)
Theorem C41_watts_nearest : forall other s n k, energy_text s n k true -> Z.abs (n * 10 ^ k) < 2 ^ 50 ->
  exists r, parse_energy other s = Ok r /\ Z.abs (60 * r - n * 10 ^ k) <= 30.
Proof. exact watts_nearest. Qed.
Print Assumptions C41_watts_nearest.
(** Every other string is rejected. *)
Theorem C41_rejected : forall other s, (forall n k w, ~ energy_text s n k w) ->
  parse_energy other s = Err (match s with [] => IndexError | _ => ValueError end).
Proof. exact parse_other. Qed.
Print Assumptions C41_rejected.
(** Every integer in decimal with a prefix and a unit is an energy text. *)
Theorem C41_numbers : forall n p k (w : bool), prefix p k -> energy_text (int_str n ++ p ++ [if w then 87%N else 74%N]) n k w.
Proof. intros n p k w P. exists (int_str n), p. split; [reflexivity|]. split; [exact P|apply py_int_int_str]. Qed.
Print Assumptions C41_numbers.

Example C41_ex : forall other, parse_energy other (str "5MJ") = Ok 5000000 /\ parse_energy other (str "150kW") = Ok 2500 /\
  parse_energy other (str "100W") = Ok 2 /\ parse_energy other (str "5mJ") = Err ValueError /\ parse_energy other (str "5M") = Err ValueError.
Proof. intros. repeat split; vm_compute; reflexivity. Qed.
Example C41_ex_text : energy_text (str "150kW") 150 3 true.
Proof. exists (str "150"), (str "k"). split; [reflexivity|]. split; [constructor|reflexivity]. Qed.

(** Refuted: watts are exact: 60YW is not 10^24 joules per tick. *)
Theorem C41_watts_exact_refuted : exists s n k r, energy_text s n k true /\ (forall other, parse_energy other s = Ok r) /\ n * 10 ^ k = 60 * 10 ^ 24 /\ r <> 10 ^ 24.
Proof.
  exists (str "60YW"), 60, 24, 999999999999999983222784.
  split; [exists (str "60"), (str "Y"); split; [reflexivity|split; [constructor|reflexivity]]|].
  split; [intros other; vm_compute; reflexivity|]. split; [reflexivity|discriminate].
Qed.
Print Assumptions C41_watts_exact_refuted.
(** Refuted: a bad string raises ValueError; the empty one raises IndexError. *)
Theorem C41_empty_refuted : forall other, parse_energy other [] = Err IndexError.
Proof. reflexivity. Qed.
Print Assumptions C41_empty_refuted.
(** Refuted: only digits, an optional prefix and a unit are accepted. *)
Theorem C41_strict_format_refuted : forall other,
  parse_energy other (str "-5J") = Ok (-5) /\ parse_energy other (str " 1_0 J") = Ok 10.
Proof. intros. split; vm_compute; reflexivity. Qed.
Print Assumptions C41_strict_format_refuted.
(** Refuted: every number of watts is accepted: 10^400 of them raise OverflowError. *)
Theorem C41_huge_watts_refuted : forall other, exists n, parse_energy other (int_str n ++ str "W") = Err OverflowError.
Proof. intros. exists (10 ^ 400). vm_compute. reflexivity. Qed.
Print Assumptions C41_huge_watts_refuted.
