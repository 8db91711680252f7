(** What a table is, said without the functions of the model. *)
From Coq Require Import NArith List Bool String.
From Verif Require Import Common Listing_Model.
Import ListNotations.
Local Open Scope list_scope.

(** A line whose columns have the given widths, with separators between, and anything
    after the last separator. *)
Fixpoint columns (seps : list pystr) (ws : list nat) (line : pystr) : Prop :=
  match ws, seps with
  | [], _ => True
  | w :: ws', sep :: seps' =>
      exists cell rest, line = cell ++ sep ++ rest /\ List.length cell = w /\ columns seps' ws' rest
  | _, [] => False
  end.
(** [t] is [s], or a beginning of [s] with three dots that has length [w]. *)
Definition cut_to (w : nat) (s t : pystr) : Prop :=
  (List.length s <= w /\ t = s) \/
  (w < List.length s /\ List.length t = w /\ exists a b, s = a ++ b /\ t = a ++ str "...").
(** A cell: the text and only spaces beside it. *)
Definition flush_left (t cell : pystr) : Prop := exists k, cell = t ++ repeat 32%N k.
Definition flush_right (t cell : pystr) : Prop := exists k, cell = repeat 32%N k ++ t.
(** The marks of a mod are the ones for its first version, further ones, and the last. *)
Definition line_of (c : N) (key t : pystr) : Prop :=
  exists k, t = c :: repeat 9472%N k ++ str ">" /\ (2 <= List.length key -> List.length t = List.length key).
(** Every name that has several versions fits the column. *)
Definition names_fit (ms : mods) : Prop :=
  forall key l, In (key, l) ms -> 2 <= List.length l -> List.length key <= 50.
Definition largest (l : list nat) (n : nat) : Prop := In n l /\ forall k, In k l -> k <= n.
Definition within (lo n hi r : nat) : Prop :=
  lo <= r <= hi /\ (lo <= n <= hi -> r = n) /\ (n < lo -> r = lo) /\ (hi < n -> r = hi).
(** The separators of the table, of the rule below its head, and of the short table. *)
Definition long_seps : list pystr := repeat [32; 9475; 32]%N 4.
Definition cross_seps : list pystr := repeat [9473; 9547; 9473]%N 4.
Definition short_seps : list pystr := [str " "; str " "; str "    "].
