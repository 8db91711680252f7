(** What reversing belts should do. *)
From Coq Require Import ZArith List Bool.
From Verif Require Import Common Belts_Model.
Import ListNotations.

(** Belts, undergrounds and everything else each on tiles of their own. *)
Definition solid (l : list entity) : Prop :=
  (forall i j a b t, nth_error l i = Some a -> nth_error l j = Some b -> In t (e_tiles a) -> In t (e_tiles b) -> i = j) /\
  (forall e, In e l -> match e_kind e with Belt | Under _ => e_tiles e = [e_pos e] | _ => True end).

(** Belts, underground exits and splitters send items ahead. *)
Definition sends (e : entity) : Prop := match e_kind e with Belt | Under true | Splitter => True | _ => False end.
Definition feeds (l : list entity) (i j : nat) : Prop := exists a b t,
  nth_error l i = Some a /\ nth_error l j = Some b /\ sends a /\ In t (e_tiles a) /\ In (ahead (e_dir a) t) (e_tiles b).
Definition only_feeder (l : list entity) (j i : nat) : Prop := feeds l j i /\ forall k, feeds l k i -> k = j.

(** How each entity is turned. *)
Definition turned (l : list entity) (i : nat) (a b : entity) : Prop :=
  match e_kind a with
  | Belt => (forall j f, only_feeder l j i -> nth_error l j = Some f -> b = set_dir (opposite (e_dir f)) a) /\
            ((forall j, ~ only_feeder l j i) -> b = set_dir (opposite (e_dir a)) a)
  | Under o => b = set_kind (Under (negb o)) (set_dir (opposite (e_dir a)) a)
  | Splitter => b = set_dir (opposite (e_dir a)) a
  | Thing _ => b = a
  end.

(** Places and tiles stay, undergrounds change sides, nothing else changes kind. *)
Definition kept (a b : entity) : Prop :=
  e_pos b = e_pos a /\ e_tiles b = e_tiles a /\ e_kind b = match e_kind a with Under o => Under (negb o) | k => k end.

(** A straight line of [n] belts from [p]. *)
Fixpoint line (d : dir) (p : tile) (n : nat) : list entity :=
  match n with O => [] | S k => mkE Belt d p [p] :: line d (ahead d p) k end.

Definition belt_at (l : list entity) (i : nat) : Prop := exists e, nth_error l i = Some e /\ e_kind e = Belt.
(** Simple chains and loops of belts: no undergrounds or splitters, and no belt
    fed twice. *)
Definition no_double (l : list entity) : Prop :=
  (forall e, In e l -> is_belt e = true -> e_kind e = Belt) /\
  (forall i a j k, nth_error l i = Some a -> e_kind a = Belt -> feeds l j i -> feeds l k i -> j = k).
(** Moreover the tile behind the start of a chain holds no belt. *)
Definition threads (l : list entity) : Prop :=
  (forall e, In e l -> is_belt e = true -> e_kind e = Belt) /\
  (forall i a j k, nth_error l i = Some a -> e_kind a = Belt -> feeds l j i -> feeds l k i -> j = k) /\
  (forall i a k b, nth_error l i = Some a -> e_kind a = Belt -> (forall j, ~ feeds l j i) ->
     nth_error l k = Some b -> e_kind b = Belt -> ~ In (ahead (opposite (e_dir a)) (e_pos a)) (e_tiles b)).
(** An underground exit facing something without a direction. *)
Definition dead_exit (l : list entity) : Prop :=
  exists i j a b, nth_error l i = Some a /\ nth_error l j = Some b /\ feeds l i j /\ e_kind a = Under true /\ e_kind b = Thing false.
