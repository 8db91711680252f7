(** What is said about vectors and ticks. *)
From Coq Require Import ZArith QArith Qabs String List Bool.
From Verif Require Import Common Dict Vector_Model.
Import ListNotations.
Local Open Scope list_scope.
Local Open Scope Z_scope.

(** ** Names *)
(** Without objects: every name has its own copy of the value and belongs to a
    family; a write goes to all names of the family. *)
Record cell := mkCell { family : nat; shows : vector }.
Definition world := list cell.
Definition read (w : world) (i : nat) : option vector := option_map shows (nth_error w i).
Definition operand_of (w : world) (x : operand nat) : option (operand vector) :=
  match x with
  | Vec i => option_map Vec (read w i)
  | Seq l => Some (Seq l) | Dict d => Some (Dict d) | Num n => Some (Num n) | Other => Some Other
  end.
Definition born (w : world) (v : vector) : world := w ++ [mkCell (List.length w) v].
Definition written (w : world) (i : nat) (v : vector) : world :=
  match nth_error w i with
  | Some c => map (fun d => if Nat.eqb (family d) (family c) then mkCell (family d) v else d) w
  | None => w
  end.

(** Some name in a call is not bound. *)
Inductive mentions : call -> (nat -> Prop) -> Prop :=
| m_from i c (P : nat -> Prop) : P i -> mentions (From (Vec i) c) P
| m_x i n (P : nat -> Prop) : P i -> mentions (SetX i n) P
| m_y i n (P : nat -> Prop) : P i -> mentions (SetY i n) P
| m_item i k n (P : nat -> Prop) : P i -> mentions (SetItem i k n) P
| m_update i x y (P : nat -> Prop) : P i -> mentions (Update i x y) P
| m_update_from i x c (P : nat -> Prop) : P i -> mentions (UpdateFrom i x c) P
| m_update_vec i j c (P : nat -> Prop) : P j -> mentions (UpdateFrom i (Vec j) c) P
| m_op o i x (P : nat -> Prop) : P i -> mentions (Binary o i x) P
| m_op_vec o i j (P : nat -> Prop) : P j -> mentions (Binary o i (Vec j)) P
| m_abs i (P : nat -> Prop) : P i -> mentions (Abs i) P
| m_round i p (P : nat -> Prop) : P i -> mentions (Round i p) P.

(** What a call does. *)
Inductive does (F : floats) (w : world) : call -> world -> option exn -> Prop :=
| does_new x y : does F w (New x y) (born w (x, y)) None
| does_same i c d : nth_error w i = Some d -> does F w (From (Vec i) c) (w ++ [d]) None
| does_from x c v : (forall i, x <> Vec i) -> convert F x c = Ok v -> does F w (From x c) (born w v) None
| does_from_not x c e : (forall i, x <> Vec i) -> convert F x c = Err e -> does F w (From x c) w (Some e)
| does_x i n v : read w i = Some v -> does F w (SetX i n) (written w i (n, snd v)) None
| does_y i n v : read w i = Some v -> does F w (SetY i n) (written w i (fst v, n)) None
| does_item i k n v v' : read w i = Some v -> setitem v k n = Ok v' -> does F w (SetItem i k n) (written w i v') None
| does_item_not i k n v e : read w i = Some v -> setitem v k n = Err e -> does F w (SetItem i k n) w (Some e)
| does_update i x y v : read w i = Some v -> does F w (Update i x y) (written w i (x, y)) None
| does_update_vec i j c v u : read w i = Some v -> read w j = Some u ->
    does F w (UpdateFrom i (Vec j) c) (written w i u) None
| does_update_from i x c v u : (forall j, x <> Vec j) -> read w i = Some v -> convert F x c = Ok u ->
    does F w (UpdateFrom i x c) (written w i u) None
| does_update_not i x c v e : (forall j, x <> Vec j) -> read w i = Some v -> convert F x c = Err e ->
    does F w (UpdateFrom i x c) w (Some e)
| does_op o i x v y u : read w i = Some v -> operand_of w x = Some y -> binary F o v y = Ok u ->
    does F w (Binary o i x) (born w u) None
| does_op_not o i x v y e : read w i = Some v -> operand_of w x = Some y -> binary F o v y = Err e ->
    does F w (Binary o i x) w (Some e)
| does_abs i v : read w i = Some v -> does F w (Abs i) (born w (absolute v)) None
| does_round i p v : read w i = Some v -> does F w (Round i p) (born w (rounded F v p)) None
| does_unbound c : mentions c (fun i => read w i = None) -> does F w c w (Some UnboundLocalError).
Inductive does_all (F : floats) : list call -> world -> Prop :=
| all_none : does_all F [] []
| all_more cs c w w' e : does_all F cs w -> does F w c w' e -> does_all F (cs ++ [c]) w'.

(** The state shows the world. *)
Definition agree (st : state) (w : world) : Prop :=
  List.length (names st) = List.length w
  /\ (forall i, value st i = read w i)
  /\ (forall i j r s c d, object st i = Some r -> object st j = Some s ->
        nth_error w i = Some c -> nth_error w j = Some d -> (r = s <-> family c = family d)).

(** ** Numbers *)
Definition integer (n : num) : Prop := exists z, n = Int z.
Definition integers (v : vector) : Prop := integer (fst v) /\ integer (snd v).
Definition zero (n : num) : Prop := (exactly n == 0)%Q.
Definition divides (o : op) : Prop := o = Div \/ o = FloorDiv.
(** [P] of the integers, or [R] of the floats: an int becomes the nearest float. *)
Definition if_ints (F : floats) (a b : num) (P : Z -> Z -> Prop) (R : Q -> Q -> Prop) : Prop :=
  match a, b with
  | Int x, Int y => P x y
  | Int x, Flt y => R (fl F (inject_Z x)) y
  | Flt x, Int y => R x (fl F (inject_Z y))
  | Flt x, Flt y => R x y
  end.
(** What an operator makes of two numbers [a] and [b]. *)
Definition makes (F : floats) (o : op) (a b c : num) : Prop :=
  match o with
  | Add => if_ints F a b (fun _ _ => integer c /\ exactly c == exactly a + exactly b)%Q (fun x y => c = Flt (fl F (x + y)))%Q
  | Sub => if_ints F a b (fun _ _ => integer c /\ exactly c == exactly a - exactly b)%Q (fun x y => c = Flt (fl F (x - y)))%Q
  | Mul => if_ints F a b (fun _ _ => integer c /\ exactly c == exactly a * exactly b)%Q (fun x y => c = Flt (fl F (x * y)))%Q
  | Div => if_ints F a b (fun _ _ => c = Flt (fl F (exactly a / exactly b)))%Q (fun x y => c = Flt (fl F (x / y)))%Q
  | FloorDiv => if_ints F a b (fun x y => exists z r, c = Int z /\ x = y * z + r /\ Z.abs r < Z.abs y /\ 0 <= r * y)
                            (fun x y => c = Flt (ffloordiv F x y))
  end.

(** The pair an operand stands for: a number stands for itself twice. *)
Definition pair_of (x : operand vector) : option vector :=
  match x with
  | Vec v => Some v
  | Seq (a :: b :: _) => Some (a, b)
  | Dict d => match dget key_eqb d (KInt 0), dget key_eqb d (KInt 1) with Some a, Some b => Some (a, b) | _, _ => None end
  | Num n => Some (n, n)
  | _ => None
  end.
(** What is missing in an operand that stands for no pair. *)
Definition complaint (x : operand vector) : exn :=
  match x with Seq _ => IndexError | Dict _ => KeyError | _ => TypeError end.

(** The nearest integer, halves to even. *)
Definition closest (q : Q) (z : Z) : Prop :=
  (Qabs (q - inject_Z z) <= 1 # 2)%Q /\ ((Qabs (q - inject_Z z) == 1 # 2)%Q -> Z.Even z).
(** [m] is [n] rounded to [p] digits. *)
Definition rounds_to (F : floats) (n : num) (p : option Z) (m : num) : Prop :=
  match n, p with
  | Int z, None => m = Int z
  | Int z, Some p => 0 <= p /\ m = Int z
                     \/ p < 0 /\ exists k, m = Int (10 ^ (- p) * k) /\ closest (inject_Z z / inject_Z (10 ^ (- p))) k
  | Flt q, None => exists k, m = Int k /\ closest q k
  | Flt q, Some p => (p = 0 -> exists k, m = Flt (inject_Z k) /\ closest q k) /\ (p <> 0 -> m = Flt (fround F q p))
  end.
(** What rounding to floats is like. *)
Definition proper (F : floats) : Prop := forall p q, (p == q -> fl F p == fl F q)%Q.
Definition precise (F : floats) : Prop := forall q, (0 <= q <= 60 -> Qabs (fl F q - q) <= 1 # 1000000000)%Q.
Definition halves (F : floats) : Prop := forall n, 0 <= n <= 120 -> (fl F (n # 2) == n # 2)%Q.

(** Equality of what two vectors show. *)
Definition alike (v w : vector) : Prop := (exactly (fst v) == exactly (fst w) /\ exactly (snd v) == exactly (snd w))%Q.

(** ** Ticks *)
Definition normal (t : timedelta) : Prop := 0 <= seconds t < 86400 /\ 0 <= microseconds t < 1000000.
Definition duration (t : timedelta) : Z := (days t * 86400 + seconds t) * 1000000 + microseconds t.
