(** What adding with merging should do (C65). *)
From Coq Require Import ZArith QArith String List Bool.
From Verif Require Import Common Dict Trim_Model Trim_Proofs Wires_Model Merge_Model Merge_Classes Merge_Spec Absorb_Model.
Import ListNotations.
Local Open Scope list_scope.

(** The entities of an item, at any depth. *)
Fixpoint leaves (i : item) : list nat :=
  match i with
  | One o => [o]
  | Many _ _ l => flat_map leaves l
  end.
Definition all_leaves (l : list item) : list nat := flat_map leaves l.
(** The entities directly in a group. *)
Definition own (l : list item) : list nat := flat_map (fun i => match i with One o => [o] | Many _ _ _ => [] end) l.

(** No two of these could be merged. *)
Definition apart (h : heap) (l : list nat) : Prop :=
  forall x y, In x l -> In y l -> same_place (h x) (h y) -> x = y.

(** [e'] is [e] with the fields of [o] taken over, and equal to [o]. *)
Definition took_over (e o e' : ent) : Prop :=
  e_class e' = e_class e /\ e_pos e' = e_pos e /\ e_id e' = e_id e /\
  (forall f, In f (fields_of (e_class e)) -> stays (e_class e) f = false -> get (e_root e') f = get (e_root o) f) /\
  (forall f, ~ In f (fields_of (e_class e)) \/ stays (e_class e) f = true -> get (e_root e') f = get (e_root e) f) /\
  equal methods_table bases_table e' o = Ok true.

(** Every wire end at a member merged into another entity leads there. *)
Definition lead (into : nat -> option nat) (members : list nat) (w : wend) : wend :=
  match w with
  | WRef (Some o) =>
      if existsb (Nat.eqb o) members then match into o with Some x => WRef (Some x) | None => w end else w
  | _ => w
  end.
Definition lead_wire (into : nat -> option nat) (members : list nat) (w : wire) : wire :=
  let '(a, s, b, t) := w in (lead into members a, s, lead into members b, t).
(** Without the entities that were merged. *)
Fixpoint thin (into : nat -> option nat) (i : item) : item :=
  match i with
  | One o => One o
  | Many gid ws l =>
      Many gid (map (lead_wire into (own l)) ws)
        (flat_map (fun j => match j with
                            | One o => match into o with Some _ => [] | None => [j] end
                            | Many _ _ _ => [thin into j]
                            end) l)
  end.

(** The wires of each group lead to objects, not numbers, and to those of its own
    entities only that wires can be attached to. *)
Fixpoint tidy (h : heap) (i : item) : Prop :=
  match i with
  | One _ => True
  | Many _ ws l =>
      associated ws /\
      (forall w o, In w ws -> In (WRef (Some o)) (ends w) -> In o (own l) -> wired (e_class (h o))) /\
      (fix each (l : list item) : Prop := match l with [] => True | j :: l' => tidy h j /\ each l' end) l
  end.

(** The index reports only what it holds, and if it holds no two entities that
    could be merged, all that are in the same place as the object. *)
Definition reports (near : list nat -> nat -> list nat) (h : heap) (all : list nat) : Prop :=
  forall grid o, incl grid all -> In o all ->
    (forall x, In x (near grid o) -> In x grid) /\
    (apart h grid -> forall x, In x grid -> same_place (h x) (h o) -> In x (near grid o)).

(** New objects, of which no two could be merged, that can be compared and whose
    values validation accepts. *)
Definition fit check (h : heap) (grid : list nat) (i : item) : Prop :=
  NoDup (leaves i) /\
  (forall o, In o (leaves i) -> ~ In o grid) /\
  apart h (leaves i) /\
  (forall o, In o (leaves i) -> sound (h o) /\ controlled (h o) /\ forall b, accepted check b (h o)) /\
  tidy h i.

(** The members and the index hold the same entities, each once, no two of which
    could be merged. *)
Definition in_order (c : coll) : Prop :=
  NoDup (c_grid c) /\ NoDup (all_leaves (c_items c)) /\
  (forall o, In o (c_grid c) <-> In o (all_leaves (c_items c))) /\
  apart (c_heap c) (c_grid c) /\
  (forall o, In o (c_grid c) -> sound (c_heap c o)).

(** No member has the ID of the item. *)
Definition new_id (c : coll) (i : item) : Prop :=
  forall s, id_of (c_heap c) i = Some s -> s <> [] -> forall j, In j (c_items c) -> id_of (c_heap c) j <> Some s.

(** The objects the wires of an item lead to, at any depth. *)
Definition wire_refs (ws : list wire) : list nat :=
  flat_map (fun w => flat_map (fun e => match e with WRef (Some o) => [o] | _ => [] end) (ends w)) ws.
Fixpoint refs (i : item) : list nat :=
  match i with
  | One _ => []
  | Many _ ws l => wire_refs ws ++ flat_map refs l
  end.
(** The wires of each group lead to entities directly in it. *)
Fixpoint local (i : item) : Prop :=
  match i with
  | One _ => True
  | Many _ ws l =>
      incl (wire_refs ws) (own l) /\
      (fix each (l : list item) : Prop := match l with [] => True | j :: l' => local j /\ each l' end) l
  end.
(** Every wire in the collection leads to an entity of the collection. *)
Definition wires_inside (c : coll) : Prop := incl (flat_map refs (c_items c)) (c_grid c).

(** The same, but for the order of the fields. *)
Definition same_entity (e e' : ent) : Prop :=
  e_class e' = e_class e /\ e_pos e' = e_pos e /\ e_id e' = e_id e /\ forall f, get (e_root e') f = get (e_root e) f.
