(** /repo/draftsman/utils.py 830-879 [parse_energy].

    A Python float is a dyadic number [m * 2^e] here; [fl] rounds a quotient to
    53 bits, ties to even, which is what the hardware does for every number that
    occurs below (none is small enough to be subnormal; a number of 2^1024 or
    more is [OverflowError], raised by the conversion of the integer or by
    [round(inf)]). *)
From Coq Require Import ZArith NArith List Bool.
From Verif Require Import Common Version_Model.
Import ListNotations.
Local Open Scope Z_scope.

Record dyadic := mkD { mant : Z; expo : Z }.

(** The integer nearest to [n / d], ties to even ([d > 0]); Python [round]. *)
Definition nearest_even (n d : Z) : Z :=
  let q := n / d in
  let r := n mod d in
  if 2 * r <? d then q
  else if d <? 2 * r then q + 1
  else if Z.even q then q else q + 1.

(** The double nearest to [n / d]. *)
Definition fl (n d : Z) : dyadic :=
  if n =? 0 then mkD 0 0
  else
    let k := Z.log2 (Z.abs n) - Z.log2 d in
    (* 2^(k-1) < |n/d| < 2^(k+1) *)
    let e := if (if 0 <=? k then d * 2 ^ k <=? Z.abs n else d <=? Z.abs n * 2 ^ (- k)) then k - 52 else k - 53 in
    mkD (if 0 <=? e then nearest_even n (d * 2 ^ e) else nearest_even (n * 2 ^ (- e)) d) e.
(** Float multiplication. *)
Definition fmul (a b : dyadic) : dyadic :=
  let m := mant a * mant b in
  let e := expo a + expo b in
  if 0 <=? e then fl (m * 2 ^ e) 1 else fl m (2 ^ (- e)).
(** [round(x)] of a float. *)
Definition fround (a : dyadic) : Z :=
  if 0 <=? expo a then mant a * 2 ^ expo a else nearest_even (mant a) (2 ^ (- expo a)).
(** Not a finite double. *)
Definition too_large (a : dyadic) : bool :=
  if 0 <=? expo a then 2 ^ 1024 <=? Z.abs (mant a) * 2 ^ expo a else 2 ^ 1024 * 2 ^ (- expo a) <=? Z.abs (mant a).

(** 855-865 [energy_chars]; the value is 10 to the power given. *)
Definition energy_chars : list (N * Z) :=
  [(107%N, 3); (75%N, 3); (77%N, 6); (71%N, 9); (84%N, 12); (80%N, 15); (69%N, 18); (90%N, 21); (89%N, 24)].
Fixpoint assoc (l : list (N * Z)) (c : N) : option Z :=
  match l with [] => None | (k, v) :: l' => if N.eqb k c then Some v else assoc l' c end.

(** [str.isalpha] of one character; [other] decides beyond ASCII. *)
Definition is_alpha (other : N -> bool) (c : N) : bool :=
  if (c <? 128)%N then ((65 <=? c)%N && (c <=? 90)%N) || ((97 <=? c)%N && (c <=? 122)%N) else other c.

(** 879 [round(int(digits_string) * multiplier)], the multiplier being
    [10^k], or [1 / 60 * 10^k] (871, 875; no multiplication without a
    magnitude). *)
Definition scaled (watts : bool) (k : option Z) (n : Z) : result Z :=
  if watts then
    let base := fl 1 60 in
    let mult := match k with None => base | Some k => fmul base (fl (10 ^ k) 1) end in
    let fn := fl n 1 in
    if too_large fn then Err OverflowError
    else let x := fmul fn mult in if too_large x then Err OverflowError else Ok (fround x)
  else Ok (n * match k with None => 1 | Some k => 10 ^ k end).

Definition parse_energy (other : N -> bool) (s : pystr) : result Z :=
  match rev s with
  | [] => Err IndexError                                   (* 867 *)
  | ending :: before =>
      if negb (N.eqb ending 74 || N.eqb ending 87) then Err ValueError  (* 868-869 *)
      else
        let watts := N.eqb ending 87 in
        match before with
        | c :: digits =>
            if is_alpha other c then
              match assoc energy_chars c with
              | None => Err ValueError                     (* 874-875 *)
              | Some k => let* n := py_int (rev digits) in scaled watts (Some k) n
              end
            else let* n := py_int (rev before) in scaled watts None n
        | [] => let* n := py_int [] in scaled watts None n
        end
  end.
