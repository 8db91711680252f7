(** What each operation on a list of schedules does. *)
From Coq Require Import ZArith List.
From Verif Require Import Common Dict Equal_Model.
Import ListNotations.

(** Places in a list of [n], counted as in Python: from the end if negative. *)
Definition place (n : Z) (i : Z) (p : nat) : Prop :=
  (0 <= i < n /\ Z.of_nat p = i)%Z \/ (- n <= i < 0 /\ Z.of_nat p = n + i)%Z.
(** The end of a slice: the ends of the list beyond them. *)
Definition bound (n : Z) (default : Z) (i : option Z) (p : Z) : Prop :=
  match i with
  | None => p = default
  | Some i => ((0 <= i <= n /\ p = i) \/ (n < i /\ p = n) \/ (- n <= i < 0 /\ p = n + i) \/ (i < - n /\ p = 0))%Z
  end.
(** A schedule, or schedules only. *)
Definition proper (x : input) (ss : list schedule) : Prop := x = GSeq (map Some ss).
(** What each operation does to the list. *)
Inductive does (l : list slot) : sop -> list slot * option exn -> Prop :=
| d_insert : forall i s l1 l2, l = l1 ++ l2 -> bound (Z.of_nat (List.length l)) 0 (Some i) (Z.of_nat (List.length l1)) ->
    does l (SInsert i (GOne s)) (l1 ++ One s :: l2, None)
| d_insert_bad : forall i x, (forall s, x <> GOne s) -> does l (SInsert i x) (l, Some TypeError)
| d_append : forall s, does l (SAppend (GOne s)) (l ++ [One s], None)
| d_append_bad : forall x, (forall s, x <> GOne s) -> does l (SAppend x) (l, Some TypeError)
| d_set : forall i x l1 y l2 z, l = l1 ++ y :: l2 -> place (Z.of_nat (List.length l)) i (List.length l1) ->
    (exists s, x = GOne s /\ z = One s) \/ (exists ss, proper x ss /\ z = Many ss) ->
    does l (SSet i x) (l1 ++ z :: l2, None)
| d_set_out : forall i x, (i < - Z.of_nat (List.length l) \/ Z.of_nat (List.length l) <= i)%Z ->
    (exists s, x = GOne s) \/ (exists ss, proper x ss) -> does l (SSet i x) (l, Some IndexError)
| d_set_bad : forall i x, (forall s, x <> GOne s) -> (forall ss, ~ proper x ss) -> does l (SSet i x) (l, Some TypeError)
| d_slice : forall a b x ss l1 mid l2 n m, l = l1 ++ mid ++ l2 -> proper x ss ->
    bound (Z.of_nat (List.length l)) 0 a n -> bound (Z.of_nat (List.length l)) (Z.of_nat (List.length l)) b m ->
    Z.of_nat (List.length l1) = n -> Z.of_nat (List.length mid) = Z.max 0 (m - n) ->
    does l (SSetSlice a b x) (l1 ++ map One ss ++ l2, None)
| d_slice_bad : forall a b x, (forall ss, ~ proper x ss) -> does l (SSetSlice a b x) (l, Some TypeError)
| d_del : forall i l1 y l2, l = l1 ++ y :: l2 -> place (Z.of_nat (List.length l)) i (List.length l1) -> does l (SDel i) (l1 ++ l2, None)
| d_del_out : forall i, (i < - Z.of_nat (List.length l) \/ Z.of_nat (List.length l) <= i)%Z -> does l (SDel i) (l, Some IndexError)
| d_clear : does l SClear ([], None).
