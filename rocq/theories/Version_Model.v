(** Version numbers and version strings: /repo/draftsman/utils.py 425-493. *)
From Coq Require Import ZArith NArith List Bool.
From Verif Require Import Common.
Import ListNotations.
Local Open Scope Z_scope.

(** utils.py 425-441 [encode_version]. *)
Definition encode_version (major minor patch dev : Z) : Z :=
  Z.lor (Z.lor (Z.lor (Z.shiftl major 48) (Z.shiftl minor 32))
               (Z.shiftl patch 16)) dev.

(** utils.py 444-460 [decode_version]. *)
Definition decode_version (v : Z) : Z * Z * Z * Z :=
  (Z.land (Z.shiftr v 48) 65535,
   Z.land (Z.shiftr v 32) 65535,
   Z.land (Z.shiftr v 16) 65535,
   Z.land v 65535).

(** [str.split(sep)] for a one-character separator (utils.py 477). *)
Fixpoint split_on (sep : N) (s : pystr) : list pystr :=
  match s with
  | [] => [[]]
  | c :: s' =>
      match split_on sep s' with
      | [] => [[c]] (* unreachable: [split_on] is never empty *)
      | w :: ws => if N.eqb c sep then [] :: w :: ws else (c :: w) :: ws
      end
  end.

Definition DOT : N := 46%N.

(** ASCII digits.  Python's [int] also accepts other Unicode decimal digits;
    those are not modelled. *)
Definition is_digit (c : N) : bool := (48 <=? c)%N && (c <=? 57)%N.
Definition digit_val (c : N) : Z := Z.of_N (c - 48)%N.

(** White space removed by [int()] (ASCII subset). *)
Definition is_space (c : N) : bool :=
  ((9 <=? c)%N && (c <=? 13)%N) || ((28 <=? c)%N && (c <=? 32)%N).

Fixpoint lstrip (s : pystr) : pystr :=
  match s with
  | [] => []
  | c :: s' => if is_space c then lstrip s' else s
  end.
Definition strip (s : pystr) : pystr := rev (lstrip (rev (lstrip s))).

(** Digits with single underscores between digits, as accepted by [int()].
    [after] says whether the previous character was a digit. *)
Fixpoint digits_val (after : bool) (acc : Z) (s : pystr) : option Z :=
  match s with
  | [] => if after then Some acc else None
  | c :: s' =>
      if is_digit c then digits_val true (10 * acc + digit_val c) s'
      else if N.eqb c 95 && after then digits_val false acc s'
      else None
  end.

(** Python [int(s)] on a string: surrounding white space, a sign, digits. *)
Definition py_int (s : pystr) : result Z :=
  match strip s with
  | [] => Err ValueError
  | c :: s' =>
      let r := if N.eqb c 43 then digits_val false 0 s'
               else if N.eqb c 45 then option_map Z.opp (digits_val false 0 s')
               else digits_val false 0 (c :: s') in
      match r with Some z => Ok z | None => Err ValueError end
  end.

Fixpoint map_result {A B} (f : A -> result B) (l : list A) : result (list B) :=
  match l with
  | [] => Ok []
  | x :: l' => let* y := f x in let* ys := map_result f l' in Ok (y :: ys)
  end.

(** utils.py 463-477 [version_string_to_tuple]. *)
Definition version_string_to_tuple (s : pystr) : result (list Z) :=
  map_result py_int (split_on DOT s).

(** Decimal digits of a natural number, most significant first, with explicit
    fuel ([str(int)]). *)
Fixpoint dec_digits (fuel : nat) (n : N) (acc : pystr) : pystr :=
  match fuel with
  | O => acc
  | S f =>
      let acc' := (48 + n mod 10)%N :: acc in
      if (n <? 10)%N then acc' else dec_digits f (n / 10) acc'
  end.
Definition nat_str (n : N) : pystr := dec_digits (S (N.to_nat (N.log2 n))) n [].

(** Python [str(z)] on an integer. *)
Definition int_str (z : Z) : pystr :=
  if z <? 0 then 45%N :: nat_str (Z.to_N (- z)) else nat_str (Z.to_N z).

(** [sep.join(l)]. *)
Fixpoint join_with (sep : pystr) (l : list pystr) : pystr :=
  match l with
  | [] => []
  | [w] => w
  | w :: l' => w ++ sep ++ join_with sep l'
  end.

(** utils.py 480-493 [version_tuple_to_string]. *)
Definition version_tuple_to_string (t : list Z) : pystr :=
  join_with [DOT] (map int_str t).
