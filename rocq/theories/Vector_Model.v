(** Vectors, /repo/draftsman/classes/vector.py 14-181, and ticks,
    /repo/draftsman/constants.py 680-726.

    A number is a Python int or a finite float.  What depends on binary64 is
    given by [floats]: rounding a rational to the nearest float, [//] of two
    floats and [round(x, p)] of a float for [p <> 0].  Overflow, infinities and
    NaN are left out, as are vectors of anything but numbers; strings as operands
    are left out too ([int * str] repeats them).  Vectors are objects; the calls of
    a program refer to them by names, the first vector got is 0 and so on. *)
From Coq Require Import ZArith NArith QArith Qround Qabs String List Bool.
From Verif Require Import Common Dict.
Import ListNotations.
Local Open Scope string_scope.
Local Open Scope list_scope.
Local Open Scope Z_scope.

Inductive num := Int (z : Z) | Flt (q : Q).
Record floats := mkFloats { fl : Q -> Q; ffloordiv : Q -> Q -> Q; fround : Q -> Z -> Q }.

(** ** Numbers *)
(** [float(n)] *)
Definition as_float (F : floats) (n : num) : Q := match n with Int z => fl F (inject_Z z) | Flt q => q end.
(** [int(n)] truncates. *)
Definition as_int (n : num) : Z := match n with Int z => z | Flt q => Z.quot (Qnum q) (Zpos (Qden q)) end.
Definition exactly (n : num) : Q := match n with Int z => inject_Z z | Flt q => q end.
(** Comparing an int with a float is exact. *)
Definition num_eq (a b : num) : bool := Qeq_bool (exactly a) (exactly b).
Definition is_zero (n : num) : bool := match n with Int z => z =? 0 | Flt q => Qeq_bool q 0 end.

Inductive op := Add | Sub | Mul | Div | FloorDiv.
Definition calc (F : floats) (o : op) (a b : num) : result num :=
  match o with
  | Add => Ok (match a, b with Int x, Int y => Int (x + y) | _, _ => Flt (fl F (as_float F a + as_float F b)) end)
  | Sub => Ok (match a, b with Int x, Int y => Int (x - y) | _, _ => Flt (fl F (as_float F a - as_float F b)) end)
  | Mul => Ok (match a, b with Int x, Int y => Int (x * y) | _, _ => Flt (fl F (as_float F a * as_float F b)) end)
  | Div =>
      if is_zero b then Err ZeroDivisionError
      else Ok (match a, b with
               | Int x, Int y => Flt (fl F (inject_Z x / inject_Z y))
               | _, _ => Flt (fl F (as_float F a / as_float F b))
               end)
  | FloorDiv =>
      if is_zero b then Err ZeroDivisionError
      else Ok (match a, b with
               | Int x, Int y => Int (x / y)
               | _, _ => Flt (ffloordiv F (as_float F a) (as_float F b))
               end)
  end.
Definition num_abs (n : num) : num := match n with Int z => Int (Z.abs z) | Flt q => Flt (Qabs q) end.
(** Nearest integer, halves to even. *)
Definition nearest (q : Q) : Z :=
  let f := Qfloor q in
  match (q - inject_Z f ?= 1 # 2)%Q with
  | Lt => f
  | Gt => f + 1
  | Eq => if Z.even f then f else f + 1
  end.
(** [round(n, p)], [None]: without [p]. *)
Definition num_round (F : floats) (n : num) (p : option Z) : num :=
  match n, p with
  | Int z, None => Int z
  | Int z, Some p =>
      if 0 <=? p then Int z
      else let t := 10 ^ (- p) in Int (t * nearest (inject_Z z / inject_Z t))
  | Flt q, None => Int (nearest q)
  | Flt q, Some p => if p =? 0 then Flt (inject_Z (nearest q)) else Flt (fround F q p)
  end.

(** ** Operands *)
Inductive key := KInt (i : Z) | KStr (s : pystr).
Definition key_eqb (a b : key) : bool :=
  match a, b with KInt x, KInt y => x =? y | KStr x, KStr y => pystr_eqb x y | _, _ => false end.
(** A vector, a tuple or list, a dictionary, a number, anything else. *)
Inductive operand (A : Type) := Vec (a : A) | Seq (l : list num) | Dict (d : list (key * num)) | Num (n : num) | Other.
Arguments Vec {A} a. Arguments Seq {A} l. Arguments Dict {A} d. Arguments Num {A} n. Arguments Other {A}.
Definition vector := (num * num)%type.

Definition nth_of (l : list num) (i : nat) : result num :=
  match nth_error l i with Some n => Ok n | None => Err IndexError end.
Definition key_of (d : list (key * num)) (k : key) : result num :=
  match dget key_eqb d k with Some n => Ok n | None => Err KeyError end.
(** [other[0]] and [other[1]]; for a vector 122-128. *)
Definition first (x : operand vector) : result num :=
  match x with Vec v => Ok (fst v) | Seq l => nth_of l 0 | Dict d => key_of d (KInt 0) | Num _ | Other => Err TypeError end.
Definition second (x : operand vector) : result num :=
  match x with Vec v => Ok (snd v) | Seq l => nth_of l 1 | Dict d => key_of d (KInt 1) | Num _ | Other => Err TypeError end.

(** 138-172: the five operators. *)
Definition pairwise (F : floats) (o : op) (v : vector) (x : operand vector) : result vector :=
  let* c := first x in
  let* a := calc F o (fst v) c in
  let* d := second x in
  let* b := calc F o (snd v) d in
  Ok (a, b).
Definition with_scalar (F : floats) (o : op) (v : vector) (x : operand vector) : result vector :=
  match x with
  | Num n => let* a := calc F o (fst v) n in let* b := calc F o (snd v) n in Ok (a, b)
  | _ => Err TypeError
  end.
Definition binary (F : floats) (o : op) (v : vector) (x : operand vector) : result vector :=
  match pairwise F o v x with Err TypeError => with_scalar F o v x | r => r end.
(** 174-175 *)
Definition equal (v : vector) (x : operand vector) : bool :=
  match x with Vec w => num_eq (fst v) (fst w) && num_eq (snd v) (snd w) | _ => false end.
(** 177-178 *)
Definition absolute (v : vector) : vector := (num_abs (fst v), num_abs (snd v)).
(** 180-181; [round(v)] is with precision 0. *)
Definition rounded (F : floats) (v : vector) (p : option Z) : vector := (num_round F (fst v) p, num_round F (snd v) p).
(** 112-118 *)
Definition to_dict (v : vector) : list (key * num) := [(KStr (str "x"), fst v); (KStr (str "y"), snd v)].

(** The casts that are passed. *)
Inductive cast := CFloat | CInt.
Definition apply (F : floats) (c : cast) (n : num) : num :=
  match c with CFloat => Flt (as_float F n) | CInt => Int (as_int n) end.
(** 76-83 and 103-110, for what is not a vector. *)
Definition convert {A} (F : floats) (x : operand A) (c : cast) : result vector :=
  match x with
  | Seq l => let* a := nth_of l 0 in let* b := nth_of l 1 in Ok (apply F c a, apply F c b)
  | Dict d => let* a := key_of d (KStr (str "x")) in let* b := key_of d (KStr (str "y")) in Ok (apply F c a, apply F c b)
  | _ => Err TypeError
  end.
(** 122-136: which number an index means. *)
Definition place (k : key) : result bool :=
  match k with
  | KStr s => if pystr_eqb s (str "x") then Ok false else if pystr_eqb s (str "y") then Ok true else Err TypeError
  | KInt i => if (i =? 0) || (i =? -2) then Ok false else if (i =? 1) || (i =? -1) then Ok true else Err IndexError
  end.
Definition getitem (v : vector) (k : key) : result num := let* p := place k in Ok (if p then snd v else fst v).
Definition setitem (v : vector) (k : key) (n : num) : result vector :=
  let* p := place k in Ok (if p then (fst v, n) else (n, snd v)).

(** ** Objects *)
Definition heap := list vector.
Record state := mkState { objects : heap; names : list nat }.
Definition nowhere : state := mkState [] [].

Inductive call :=
| New (x y : num)
| From (x : operand nat) (c : cast)         (** 63-83 *)
| SetX (i : nat) (n : num)                  (** 40-42 *)
| SetY (i : nat) (n : num)                  (** 55-57 *)
| SetItem (i : nat) (k : key) (n : num)
| Update (i : nat) (x y : num)              (** 85-91 *)
| UpdateFrom (i : nat) (x : operand nat) (c : cast)   (** 93-110 *)
| Binary (o : op) (i : nat) (x : operand nat)
| Abs (i : nat)
| Round (i : nat) (p : option Z).

Definition object (st : state) (i : nat) : option nat := nth_error (names st) i.
Definition value (st : state) (i : nat) : option vector :=
  match object st i with Some r => nth_error (objects st) r | None => None end.
(** A name that is not bound raises before the call. *)
Definition operand_value (st : state) (x : operand nat) : option (operand vector) :=
  match x with
  | Vec i => option_map Vec (value st i)
  | Seq l => Some (Seq l)
  | Dict d => Some (Dict d)
  | Num n => Some (Num n)
  | Other => Some Other
  end.
Definition fresh (st : state) (v : vector) : state :=
  mkState (objects st ++ [v]) (names st ++ [List.length (objects st)]).
Definition store (st : state) (i : nat) (v : vector) : state :=
  match object st i with
  | Some r => mkState (replace_nth (objects st) r v) (names st)
  | None => st
  end.
Definition creates (st : state) (r : result vector) : state * option exn :=
  match r with Ok v => (fresh st v, None) | Err e => (st, Some e) end.
Definition writes (st : state) (i : nat) (r : result vector) : state * option exn :=
  match r with Ok v => (store st i v, None) | Err e => (st, Some e) end.

Definition exec (F : floats) (st : state) (c : call) : state * option exn :=
  let unbound := (st, Some UnboundLocalError) in
  let on (i : nat) (k : vector -> state * option exn) := match value st i with Some v => k v | None => unbound end in
  let arg (x : operand nat) (k : operand vector -> state * option exn) :=
    match operand_value st x with Some y => k y | None => unbound end in
  match c with
  | New x y => (fresh st (x, y), None)
  | From x c =>
      match x with
      | Vec i => match object st i with
                 | Some r => (mkState (objects st) (names st ++ [r]), None)
                 | None => unbound
                 end
      | _ => creates st (convert F x c)
      end
  | SetX i n => on i (fun v => (store st i (n, snd v), None))
  | SetY i n => on i (fun v => (store st i (fst v, n), None))
  | SetItem i k n => on i (fun v => writes st i (setitem v k n))
  | Update i x y => on i (fun _ => (store st i (x, y), None))
  | UpdateFrom i x c =>
      on i (fun _ => arg x (fun y => match y with
                                     | Vec w => (store st i w, None)
                                     | _ => writes st i (convert F y c)
                                     end))
  | Binary o i x => on i (fun v => arg x (fun y => creates st (binary F o v y)))
  | Abs i => on i (fun v => (fresh st (absolute v), None))
  | Round i p => on i (fun v => (fresh st (rounded F v p), None))
  end.
Definition run (F : floats) (cs : list call) (st : state) : state := fold_left (fun s c => fst (exec F s c)) cs st.

(** ** Ticks *)
(** constants.py 680-699 *)
Definition SECOND : Z := 60.
Definition MINUTE : Z := 60 * SECOND.
Definition HOUR : Z := 60 * MINUTE.
Definition DAY : Z := 24 * HOUR.
(** A [timedelta] keeps days, seconds and microseconds in normal form. *)
Record timedelta := mkDelta { days : Z; seconds : Z; microseconds : Z }.
(** 702-726 *)
Definition from_timedelta (F : floats) (t : timedelta) : Z :=
  days t * DAY + seconds t * SECOND
  + nearest (fl F (inject_Z (microseconds t * 60) / inject_Z 1000000)).
