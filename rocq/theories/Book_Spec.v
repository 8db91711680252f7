(** What a book's export must contain, and what a re-import must give back. *)
From Coq Require Import ZArith String List Bool.
From Verif Require Import Common Dict Book_Model.
Import ListNotations.
Local Open Scope Z_scope.

(** The member of a dictionary under a key. *)
Definition holds (d : list (pystr * jval)) (key : pystr) (v : jval) : Prop := dget pystr_eqb d key = Some v.
Definition lacks (d : list (pystr * jval)) (key : pystr) : Prop := ~ In key (map fst d).

(** The index under which the member at position [i] is emitted by a trimmed
    export: its own if it has one, its position otherwise. *)
Definition emitted_index (i : nat) (m : item) : Z :=
  match item_index m with Some z => z | None => Z.of_nat i end.
(** … by an export with both trimming options off, members without an index of
    their own keep having none. *)
Definition kept_index (trim : bool) (i : nat) (m : item) : option Z :=
  match item_index m with Some z => Some z | None => if trim then Some (Z.of_nat i) else None end.

(** Same class and content, and the same for all members, in order. *)
Inductive same_shape : item -> item -> Prop :=
| Same : forall k c i i' e e' ms ms',
    Forall2 same_shape ms ms' -> same_shape (Item k c i e ms) (Item k c i' e' ms').

(** Nothing but books has members, and no key unknown to the format is called
    like a root key or ["index"]. *)
Definition no_root_keys (extras : list (pystr * jval)) : Prop :=
  lacks extras K_index /\ forall k, lacks extras (root_item k).
Inductive clean : item -> Prop :=
| CleanBook : forall c i e ms, no_root_keys e -> (forall m, In m ms -> clean m) -> clean (Item KBook c i e ms)
| CleanLeaf : forall k c i e, k <> KBook -> no_root_keys e -> clean (Item k c i e []).

(** Every index emitted for a member, at any depth, is an unsigned 16 bit number. *)
Inductive indices_fit (trim : bool) : item -> Prop :=
| Fit : forall k c i e ms,
    (forall n m, nth_error ms n = Some m ->
       (forall z, kept_index trim n m = Some z -> 0 <= z < 65536) /\ indices_fit trim m) ->
    indices_fit trim (Item k c i e ms).

(** After a re-import every member, at any depth, has the index it was emitted
    with. *)
Inductive indices_pinned (trim : bool) : item -> item -> Prop :=
| Pinned : forall k c i e ms k' c' i' e' ms', List.length ms = List.length ms' ->
    (forall n m m', nth_error ms n = Some m -> nth_error ms' n = Some m' ->
       item_index m' = kept_index trim n m /\ indices_pinned trim m m') ->
    indices_pinned trim (Item k c i e ms) (Item k' c' i' e' ms').

(** Python positions: [idx] counts from the end if negative … *)
Definition refers (n idx pos : Z) : Prop := 0 <= pos < n /\ (pos = idx \/ idx < 0 /\ pos = idx + n).
(** … and inserting brings it into range. *)
Definition clamped (n idx : Z) : Z := if idx <? 0 then Z.max 0 (idx + n) else Z.min idx n.
