(** Addresses inside nested groups, and sums of positions along them. *)
From Coq Require Import ZArith List Bool Sorting.Sorted.
From Verif Require Import Common Spatial_Model Group_Model.
Import ListNotations.
Local Open Scope Z_scope.

(** [reach h l a gs x]: following the address [a] from the list [l] one passes
    the groups [gs] (outermost first) and arrives at [x]. *)
Inductive reach (h : heap) : list oid -> list nat -> list oid -> oid -> Prop :=
| RHere : forall l i x, nth_error l i = Some x -> reach h l [i] [] x
| RInside : forall l i g a gs x, nth_error l i = Some g -> knd (objs h g) = Group ->
    reach h (kids h g) a gs x -> reach h l (i :: a) (g :: gs) x.

(** Reading order of addresses. *)
Inductive before : list nat -> list nat -> Prop :=
| BHead : forall i j a b, (i < j)%nat -> before (i :: a) (j :: b)
| BTail : forall i a b, before a b -> before (i :: a) (i :: b).

(** At most [n] groups deep. *)
Inductive nested (h : heap) : nat -> list oid -> Prop :=
| Nested : forall n l, (forall g, In g l -> knd (objs h g) = Group -> exists m, (m < n)%nat /\ nested h m (kids h g)) -> nested h n l.

(** Every member of a collection says it belongs to that collection. *)
Definition consistent (h : heap) : Prop := forall c x, In x (kids h c) -> parent (objs h x) = Some c.
(** No collection lists an object twice. *)
Definition distinct (h : heap) : Prop := forall c, NoDup (kids h c).
(** The object is listed nowhere. *)
Definition loose (h : heap) (x : oid) : Prop := forall c, ~ In x (kids h c).

Fixpoint total (ps : list zpt) : zpt :=
  match ps with [] => (0, 0) | p :: r => (fst p + fst (total r), snd p + snd (total r)) end.
Definition position_of (h : heap) (x : oid) : zpt := at_ (objs h x).
(** The collection is not placed in a group itself. *)
Definition topmost (h : heap) (c : oid) : Prop :=
  knd (objs h c) = Blueprint \/ (knd (objs h c) = Group /\
    (parent (objs h c) = None \/ exists b, parent (objs h c) = Some b /\ knd (objs h b) <> Group)).
(** What a top-level collection itself adds to the positions of its members. *)
Definition base (h : heap) (c : oid) : zpt :=
  match knd (objs h c) with Group => position_of h c | _ => (0, 0) end.

(** [es] lists the entities found at the addresses below [l], each address once,
    in reading order. *)
Definition lists (h : heap) (l es : list oid) : Prop :=
  Forall (fun x => knd (objs h x) <> Group) es /\
  exists addrs, StronglySorted before addrs /\
    (forall a, In a addrs <-> exists gs x, reach h l a gs x /\ knd (objs h x) <> Group) /\
    Forall2 (fun a x => exists gs, reach h l a gs x) addrs es.
(** Moved by the same vector as something that went from [a] to [b]. *)
Definition shift (a b p : zpt) : zpt := (fst p + (fst b - fst a), snd p + (snd b - snd a)).

(** Histories in which only objects that are listed nowhere get added. *)
Definition allowed (h : heap) (o : op) : Prop := match o with OAdd c x => loose h x | _ => True end.
Fixpoint allowed_all (fuel : nat) (cs eps : Z) (h : heap) (os : list op) : Prop :=
  match os with
  | [] => True
  | o :: r => allowed h o /\ forall h', run_op fuel cs eps h o = Ok h' -> allowed_all fuel cs eps h' r
  end.

(** Listed in [b] or in a group in it, at any depth. *)
Definition below (h : heap) (b y : oid) : Prop := exists a gs, reach h (kids h b) a gs y.
(** Operations that leave what is already placed in the blueprint [b] alone:
    fresh objects, in trees of less than [n] groups, are put into [b], members of
    [b] are deleted, and anything happens to what is not in [b]. *)
Definition settled (n : nat) (b : oid) (h : heap) (o : op) : Prop :=
  match o with
  | OAdd c x => loose h x /\ parent (objs h x) = None /\ knd (objs h x) <> Blueprint /\
      (c = b -> knd (objs h x) = Group -> exists m, (m < n)%nat /\ nested h m (kids h x)) /\
      (c = b \/ ~ below h b c)
  | ODelete c i => c = b \/ ~ below h b c
  | OSet x v | OUpdate x v => ~ below h b x
  end.
Fixpoint settled_all (fuel : nat) (cs eps : Z) (n : nat) (b : oid) (h : heap) (os : list op) : Prop :=
  match os with
  | [] => True
  | o :: r => settled n b h o /\ forall h', run_op fuel cs eps h o = Ok h' -> settled_all fuel cs eps n b h' r
  end.
