(** What the wire operations are supposed to do. *)
From Coq Require Import ZArith List Bool String Sorted.
From Verif Require Import Common Dict Wires_Model.
Import ListNotations.
Local Open Scope Z_scope.

Definition wend_dec (a b : wend) : {a = b} + {a <> b}.
Proof. repeat decide equality. Defined.
Definition wire_dec (a b : wire) : {a = b} + {a <> b}.
Proof. repeat decide equality. Defined.

(** A wire from connector [t1] of [a] to connector [t2] of [b]. *)
Definition link (a : nat) (t1 : Z) (b : nat) (t2 : Z) : wire := (WRef (Some a), t1, WRef (Some b), t2).
Definition joined (ws : list wire) (a : nat) (t1 : Z) (b : nat) (t2 : Z) : Prop :=
  In (link a t1 b t2) ws \/ In (link b t2 a t1) ws.

(** [ws'] is [ws] without its first [w], if there is one. *)
Definition without_first (w : wire) (ws ws' : list wire) : Prop :=
  (~ In w ws /\ ws' = ws) \/
  (exists pre post, ws = pre ++ w :: post /\ ~ In w pre /\ ws' = pre ++ post).
Definition copies (w : wire) (ws : list wire) : nat := count_occ wire_dec ws w.

(** [c] with the wires [ws]; nothing else differs. *)
Definition rewired (c c' : coll) (ws : list wire) : Prop :=
  c_ents c' = c_ents c /\ c_ids c' = c_ids c /\ c_wires c' = ws.

(** Connector numbers. *)
Definition power_side (s : pystr) (t : Z) : Prop :=
  (s = str "input" /\ t = 5) \/ (s = str "output" /\ t = 6).
Definition circuit_side (col s : pystr) (t : Z) : Prop :=
  (col = str "red" /\ s = str "input" /\ t = 1) \/ (col = str "green" /\ s = str "input" /\ t = 2) \/
  (col = str "red" /\ s = str "output" /\ t = 3) \/ (col = str "green" /\ s = str "output" /\ t = 4).

(** [t] is somewhere in the tree below the list [l]. *)
Inductive below : tree -> list tree -> Prop :=
| below_here : forall t l, In t l -> below t l
| below_deep : forall t i ws kids ids l, In (Node i ws kids ids) l -> below t kids -> below t l.

(** The entity a name leads to, from a list with its IDs. *)
Inductive names : list tree -> list (pystr * nat) -> key -> tree -> Prop :=
| names_int : forall l ids z n t,
    (0 <= z /\ z = Z.of_nat n \/ z < 0 /\ z + Z.of_nat (List.length l) = Z.of_nat n) ->
    nth_error l n = Some t -> names l ids (KInt z) t
| names_id : forall l ids s n t, dget pystr_eqb ids s = Some n -> nth_error l n = Some t -> names l ids (KStr s) t
| names_two : forall l ids k k' i ws kids kids_ids t,
    names l ids k (Node i ws kids kids_ids) -> names kids kids_ids k' t ->
    names l ids (KTup [k; k']) t
| names_more : forall l ids k k' k'' rest i ws kids kids_ids t,
    names l ids k (Node i ws kids kids_ids) -> names kids kids_ids (KTup (k' :: k'' :: rest)) t ->
    names l ids (KTup (k :: k' :: k'' :: rest)) t.

Definition refers (c : coll) (r : ref) (a : nat) : Prop :=
  match r with
  | RObj i => a = i
  | RKey k => exists t, names (c_ents c) (c_ids c) k t /\ a = tid t
  end.

Section Spec.
  Variable attr : nat -> obj.
  Variable veq : nat -> nat -> bool.

  (** The collection has a member, at any depth, that is [a] or equal to it. *)
  Definition inside (c : coll) (a : nat) : Prop :=
    exists t, below t (c_ents c) /\ (tid t = a \/ veq (tid t) a = true).

  Definition far (m : Z) (a b : nat) : Prop :=
    m < 0 \/ m * m < (o_x (attr a) - o_x (attr b)) ^ 2 + (o_y (attr a) - o_y (attr b)) ^ 2.
  (** Warn exactly when the wire is longer than the shorter of two reaches. *)
  Definition distance_warned (ra rb : Z) (a b : nat) (ws : list warn) : Prop :=
    (ws = [DistanceWarning] /\ (far ra a b \/ far rb a b)) \/
    (ws = [] /\ ~ far ra a b /\ ~ far rb a b).
  Definition side_warned (s : pystr) (a : nat) (ws : list warn) : Prop :=
    (ws = [SideWarning] /\ s = str "output" /\ o_dual (attr a) = false) \/
    (ws = [] /\ ~ (s = str "output" /\ o_dual (attr a) = false)).

  (** ** Power generation *)
  Definition pole (c : coll) (i : nat) : Prop :=
    below (Leaf i) (c_ents c) /\ o_type (attr i) = str "electric-pole".
  Definition in_line (a b : nat) : Prop := o_x (attr a) = o_x (attr b) \/ o_y (attr a) = o_y (attr b).
  Definition reachable (a b : nat) : Prop :=
    exists ra rb, o_pmax (attr a) = Some ra /\ o_pmax (attr b) = Some rb /\ ~ far ra a b /\ ~ far rb a b.
  Definition wanted (only_axis : bool) (c : coll) (a b : nat) : Prop :=
    pole c a /\ pole c b /\ a <> b /\ reachable a b /\ (only_axis = true -> in_line a b).
  Definition sq (a b : nat) : Z := (o_x (attr a) - o_x (attr b)) ^ 2 + (o_y (attr a) - o_y (attr b)) ^ 2.

  (** A reach is needed to decide about [a] and [b], and then it is known. *)
  Definition known (only_axis : bool) (a b : nat) : Prop :=
    b <> a -> (only_axis = true -> in_line a b) -> o_pmax (attr a) <> None /\ o_pmax (attr b) <> None.
  (** [x] is wired to [a] before [y]: the farther one first, with [prefer_axis]
      those off the axes before those on them. *)
  Definition farther (prefer : bool) (a x y : nat) : Prop :=
    if prefer then
      (~ in_line x a /\ in_line y a) \/ ((in_line x a <-> in_line y a) /\ sq y a <= sq x a)
    else sq y a <= sq x a.

  (** ** Export *)
  (** The number of an object is the first place of an equal one. *)
  Definition number_is (fl : list nat) (x : nat) (n : Z) : Prop :=
    exists pre y post, fl = pre ++ y :: post /\ n = Z.of_nat (List.length pre) + 1 /\
      (y = x \/ veq y x = true) /\ forall z, In z pre -> z <> x /\ veq z x = false.
  Definition end_is (fl : list nat) (w : wend) (n : Z) : Prop :=
    exists x, w = WRef (Some x) /\ number_is fl x n.
  Definition wire_is (fl : list nat) (w : wire) (x : xwire) : Prop :=
    end_is fl (fst (fst (fst w))) (fst (fst (fst x))) /\ snd (fst (fst w)) = snd (fst (fst x)) /\
    end_is fl (snd (fst w)) (snd (fst x)) /\ snd w = snd x.
End Spec.

(** The entities of a blueprint in order, groups opened in place; the wires of
    the blueprint and of all groups. *)
Inductive flat : list tree -> list nat -> Prop :=
| flat_nil : flat [] []
| flat_leaf : forall i l o, flat l o -> flat (Leaf i :: l) (i :: o)
| flat_node : forall i ws kids ids l o o', flat kids o -> flat l o' -> flat (Node i ws kids ids :: l) (o ++ o').
Inductive flat_wires : list tree -> list wire -> Prop :=
| flatw_nil : flat_wires [] []
| flatw_leaf : forall i l o, flat_wires l o -> flat_wires (Leaf i :: l) o
| flatw_node : forall i ws kids ids l o o', flat_wires kids o -> flat_wires l o' ->
    flat_wires (Node i ws kids ids :: l) (ws ++ o ++ o').

(** [d] lists each element of [l] once, in order of first occurrence. *)
Inductive deduped {A} : list A -> list A -> Prop :=
| dd_nil : deduped [] []
| dd_new : forall l d x, deduped l d -> ~ In x l -> deduped (l ++ [x]) (d ++ [x])
| dd_old : forall l d x, deduped l d -> In x l -> deduped (l ++ [x]) d.

(** The group at a path, and the tree without wires. *)
Fixpoint wires_at (path : list nat) (t : tree) : option (list wire) :=
  match t with
  | Leaf _ => None
  | Node _ ws kids _ =>
      match path with
      | [] => Some ws
      | n :: p => match nth_error kids n with Some k => wires_at p k | None => None end
      end
  end.
Fixpoint shape (t : tree) : tree :=
  match t with Leaf i => Leaf i | Node i _ kids ids => Node i [] (map shape kids) ids end.
Definition root (c : coll) : tree := Node 0 (c_wires c) (c_ents c) (c_ids c).

(** Importing [n] into a list of objects. *)
Definition imported (ents : list tree) (z : Z) (w : wend) : Prop :=
  exists t, w = WRef (Some (tid t)) /\
    ((1 <= z /\ nth_error ents (Z.to_nat (z - 1)) = Some t) \/
     (z < 1 /\ nth_error ents (Z.to_nat (z - 1 + Z.of_nat (List.length ents))) = Some t /\ 0 <= z - 1 + Z.of_nat (List.length ents))).

(** Wires starting at one of the connectors [lo] to [hi]. *)
Definition from_connector (lo hi : Z) (w : wire) : bool :=
  (lo <=? snd (fst (fst w))) && (snd (fst (fst w)) <=? hi).

(** Equal to nothing but itself. *)
Definition distinct (veq : nat -> nat -> bool) (fl : list nat) : Prop :=
  NoDup fl /\ forall x y, In x fl -> In y fl -> veq x y = true -> x = y.

(** [w'] joins the new objects at the places of the objects [w] joins. *)
Definition moved_end (fl : list nat) (ents : list tree) (e e' : wend) : Prop :=
  exists i a t, e = WRef (Some a) /\ nth_error fl i = Some a /\ nth_error ents i = Some t /\ e' = WRef (Some (tid t)).
Definition moved (fl : list nat) (ents : list tree) (w w' : wire) : Prop :=
  moved_end fl ents (fst (fst (fst w))) (fst (fst (fst w'))) /\ snd (fst (fst w)) = snd (fst (fst w')) /\
  moved_end fl ents (snd (fst w)) (snd (fst w')) /\ snd w = snd w'.

(** An exported wire as read back. *)
Definition read_wire (x : xwire) : wire :=
  let '(a, t1, b, t2) := x in (WInt a, t1, WInt b, t2).

(** [ws'] is [ws] without one wire in each orientation between two connectors. *)
Definition unlinked (a : nat) (t1 : Z) (b : nat) (t2 : Z) (ws ws' : list wire) : Prop :=
  exists mid, without_first (link a t1 b t2) ws mid /\ without_first (link b t2 a t1) mid ws'.

(** A wire end that is no member: its target is gone or equal to no member. *)
Definition lost (veq : nat -> nat -> bool) (fl : list nat) (e : wend) : Prop :=
  e = WRef None \/ exists x, e = WRef (Some x) /\ forall y, In y fl -> y <> x /\ veq y x = false.
Definition has_lost (veq : nat -> nat -> bool) (fl : list nat) (ws : list wire) : Prop :=
  exists w, In w ws /\ (lost veq fl (fst (fst (fst w))) \/ lost veq fl (snd (fst w))).
(** Every end is an association, not a number. *)
Definition associations (ws : list wire) : Prop :=
  forall w, In w ws -> (exists o, fst (fst (fst w)) = WRef o) /\ exists o, snd (fst w) = WRef o.
(** The targets of wires are members. *)
Definition attached_to (fl : list nat) (ws : list wire) : Prop :=
  forall w y, In w ws -> fst (fst (fst w)) = WRef (Some y) \/ snd (fst w) = WRef (Some y) -> In y fl.
