(** Specification of the property-tree format. *)
From Coq Require Import ZArith NArith List Bool.
From Verif Require Import Common Utf8 Settings_Model.
Import ListNotations.
Local Open Scope N_scope.

Inductive tree :=
| TNone
| TBool (b : bool)
| TFloat (bits : N)
| TStr (s : option pystr)
| TInt (z : Z)
| TDict (l : list (option pystr * tree)).

(** [n] bytes, least significant first. *)
Inductive little : nat -> N -> bytes -> Prop :=
| little_nil : little 0 0 []
| little_cons : forall n v b x, x < 256 -> little n v b -> little (S n) (x + 256 * v) (x :: b).

Definition size (b : bytes) : N := N.of_nat (List.length b).
Inductive stored_string : option pystr -> bytes -> Prop :=
| ss_absent : forall x, 0 < x < 256 -> stored_string None [x]
| ss_short : forall s b, utf8_encode s = Some b -> size b < 255 -> stored_string (Some s) (0 :: size b :: b)
| ss_long : forall s b nb, utf8_encode s = Some b -> little 4 (size b) nb -> stored_string (Some s) (0 :: 255 :: nb ++ b).

(** A node is its kind, a byte that is ignored, and its content. *)
Inductive encodes : tree -> bytes -> Prop :=
| e_none : forall f, f < 256 -> encodes TNone [0; f]
| e_false : forall f, f < 256 -> encodes (TBool false) [1; f; 0]
| e_true : forall f x, f < 256 -> 0 < x < 256 -> encodes (TBool true) [1; f; x]
| e_float : forall f bits b, f < 256 -> little 8 bits b -> encodes (TFloat bits) (2 :: f :: b)
| e_string : forall f s b, f < 256 -> stored_string s b -> encodes (TStr s) (3 :: f :: b)
| e_int : forall f z b, f < 256 -> (- 2 ^ 63 <= z < 2 ^ 63)%Z -> little 8 (Z.to_N (z mod 2 ^ 64)) b -> encodes (TInt z) (6 :: f :: b)
| e_dict : forall f l nb body, f < 256 -> little 4 (N.of_nat (List.length l)) nb -> encodes_all l body -> encodes (TDict l) (5 :: f :: nb ++ body)
with encodes_all : list (option pystr * tree) -> bytes -> Prop :=
| ea_nil : encodes_all [] []
| ea_cons : forall k kb v vb l body, stored_string k kb -> encodes v vb -> encodes_all l body -> encodes_all ((k, v) :: l) (kb ++ vb ++ body).

(** The whole file: eight bytes of version, a zero, a node. *)
Definition file_of (t : tree) (b : bytes) : Prop :=
  exists version vb nb, little 8 version vb /\ encodes t nb /\ b = vb ++ 0 :: nb.

(** A dictionary lists each key once, where it first occurred, with the value
    of its last occurrence. *)
Definition key_dec (a b : option pystr) : {a = b} + {a <> b}.
Proof. decide equality. apply (list_eq_dec N.eq_dec). Defined.
Fixpoint first_seen (l : list (option pystr)) : list (option pystr) :=
  match l with
  | [] => []
  | k :: l' => k :: filter (fun k' => if key_dec k k' then false else true) (first_seen l')
  end.
Definition last_of {V} (k : option pystr) (l : list (option pystr * V)) : option V :=
  match find (fun p => if key_dec k (fst p) then true else false) (rev l) with Some p => Some (snd p) | None => None end.
Definition collapse {V} (l : list (option pystr * V)) : list (option pystr * V) :=
  flat_map (fun k => match last_of k l with Some v => [(k, v)] | None => [] end) (first_seen (map fst l)).
Fixpoint value_of (t : tree) : value :=
  match t with
  | TNone => VNone
  | TBool b => VBool b
  | TFloat x => VFloat x
  | TStr None => VNone
  | TStr (Some s) => VStr s
  | TInt z => VInt z
  | TDict l => VDict (collapse (map (fun p => (fst p, value_of (snd p))) l))
  end.
Fixpoint levels (t : tree) : nat :=
  match t with TDict l => S (fold_right Nat.max 0%nat (map (fun p => levels (snd p)) l)) | _ => 1 end.

(** Input with something in it that is refused, nested less than [limit] deep. *)
Inductive refused : nat -> bytes -> exn -> Prop :=
| r_unknown : forall limit t f, 8 <= t -> refused (S limit) [t; f] ValueError
| r_list : forall limit f b, List.length b = 4%nat -> refused (S limit) (4 :: f :: b) TypeError
| r_unsigned : forall limit f, refused (S limit) [7; f] TypeError
| r_inside : forall limit f n nb l body k kb b e, little 4 n nb -> N.of_nat (List.length l) < n -> encodes_all l body ->
    (forall k t, In (k, t) l -> (levels t <= limit)%nat) -> stored_string k kb ->
    refused limit b e -> refused (S limit) (5 :: f :: nb ++ body ++ kb ++ b) e.
