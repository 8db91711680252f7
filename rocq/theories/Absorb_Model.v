(** Adding entities and groups with [merge=True] (C65).

    Models draftsman/classes/entity_list.py 205-329 [insert] and
    draftsman/classes/spatial_hashmap.py 39-80 [add], [recursive_add], on top
    of Merge_Model.

    Objects are numbers; the heap says what each is.  The argument of [insert]
    has been copied already (or is new), so its objects are new and it has no
    parent.  The key maps are those of EntityList_Model: here only the IDs of the
    members matter.  The overlap warnings (103-171) and the search indices
    of the inserted groups themselves are left out.  Of the index of the
    collection we keep which entities it holds, in the order they were added. *)
From Coq Require Import ZArith String List Bool.
From Verif Require Import Common Dict Trim_Model Wires_Model Merge_Model Merge_Classes.
Import ListNotations.
Local Open Scope list_scope.

(** An entity, or a group with its ID, wires and members. *)
Inductive item :=
| One (o : nat)
| Many (gid : option pystr) (ws : list wire) (items : list item).

Definition heap := nat -> ent.
Definition put (h : heap) (x : nat) (e : ent) : heap := fun y => if Nat.eqb y x then e else h y.

Section Absorb.
  (** Validation, as in Merge_Model. *)
  Variable check : pystr -> bool -> pystr -> val -> result val.
  (** spatial_hashmap.py 216-232 [get_in_aabb] with the box of the object: which
      of the entities in the index it reports, in which order. *)
  Variable near : list nat -> nat -> list nat.

  (** 44-50: the first one reported that the object can be merged with. *)
  Fixpoint first_mergable (h : heap) (o : nat) (l : list nat) : result (option nat) :=
    match l with
    | [] => Ok None
    | x :: l' =>
        let* b := mergable methods_table bases_table (h x) (h o) in
        if b then Ok (Some x) else first_mergable h o l'
    end.

  (** What [add] leaves behind: the heap, the index, the wires of the parent of
      the object if it has one, and whether the object was put into the index. *)
  Record added := mkAdded { a_heap : heap; a_grid : list nat; a_wires : option (list wire); a_new : bool }.

  (** spatial_hashmap.py 39-59 [add]. *)
  Definition add (m : bool) (h : heap) (grid : list nat) (ws : option (list wire)) (o : nat) : result added :=
    let* found := if m then first_mergable h o (near grid o) else Ok None in
    match found with
    | Some x =>
        match merge check methods_table bases_table x o (h x) (h o) ws with
        | ((e, ws'), None) => Ok (mkAdded (put h x e) grid ws' false)
        | (_, Some ex) => Err ex
        end
    | None => Ok (mkAdded h (grid ++ [o]) ws true)
    end.

  (** [item.entities.remove(entity)]: the first member that is, or is equal to,
      the entity; groups are compared by identity. *)
  Fixpoint remove_first (h : heap) (o : nat) (l : list item) : result (list item) :=
    match l with
    | [] => Err ValueError
    | One x :: l' =>
        let* b := if Nat.eqb x o then Ok true else equal methods_table bases_table (h x) (h o) in
        if b then Ok l' else let* r := remove_first h o l' in Ok (One x :: r)
    | i :: l' => let* r := remove_first h o l' in Ok (i :: r)
    end.
  Fixpoint remove_all (h : heap) (os : list nat) (l : list item) : result (list item) :=
    match os with
    | [] => Ok l
    | o :: os' => let* l' := remove_first h o l in remove_all h os' l'
    end.

  (** What [recursive_add] leaves behind; [None] for an entity that was merged. *)
  Record placed := mkPlaced { p_heap : heap; p_grid : list nat; p_wires : option (list wire); p_item : option item }.
  (** The members of a group handled so far: the members, and those merged. *)
  Record handled := mkHandled { d_heap : heap; d_grid : list nat; d_wires : list wire; d_items : list item; d_merged : list nat }.

  (** spatial_hashmap.py 61-80 [recursive_add]. *)
  Fixpoint radd (m : bool) (i : item) (h : heap) (grid : list nat) (ws : option (list wire)) {struct i} : result placed :=
    match i with
    | One o =>
        let* a := add m h grid ws o in
        Ok (mkPlaced (a_heap a) (a_grid a) (a_wires a) (if a_new a then Some i else None))
    | Many gid gws items =>
        let* d :=
          (fix go (l : list item) (h : heap) (grid : list nat) (gws : list wire) {struct l} : result handled :=
             match l with
             | [] => Ok (mkHandled h grid gws [] [])
             | j :: l' =>
                 let* p := radd m j h grid (Some gws) in
                 let* d := go l' (p_heap p) (p_grid p) (match p_wires p with Some w => w | None => gws end) in
                 Ok (mkHandled (d_heap d) (d_grid d) (d_wires d)
                       (match p_item p with Some j' => j' | None => j end :: d_items d)
                       (match p_item p, j with None, One o => o :: d_merged d | _, _ => d_merged d end))
             end) items h grid gws in
        let* items' := remove_all (d_heap d) (d_merged d) (d_items d) in
        Ok (mkPlaced (d_heap d) (d_grid d) ws (Some (Many gid (d_wires d) items')))
    end.

  (** A collection: what its objects are, its index and its members. *)
  Record coll := mkColl { c_heap : heap; c_grid : list nat; c_items : list item }.

  Definition id_of (h : heap) (i : item) : option pystr :=
    match i with One o => e_id (h o) | Many gid _ _ => gid end.
  (** entity_list.py 372-373: the ID is registered already; 321-322: empty IDs
      never are. *)
  Definition taken_id (c : coll) (k : option pystr) : bool :=
    match k with
    | None => false
    | Some [] => false
    | Some s => existsb (fun i => match id_of (c_heap c) i with Some t => pystr_eqb t s | None => false end) (c_items c)
    end.

  (** entity_list.py 285-329. *)
  Definition insert (c : coll) (idx : Z) (copy m : bool) (i : item) : result coll :=
    if negb copy && m then Err ValueError
    else if taken_id c (id_of (c_heap c) i) then Err DuplicateIDError
    else
      let* p := radd m i (c_heap c) (c_grid c) None in
      Ok (mkColl (p_heap p) (p_grid p)
            (match p_item p with Some i' => py_insert (c_items c) idx i' | None => c_items c end)).
End Absorb.

(** Insertions one after the other; the first failure ends it. *)
Fixpoint insert_all check near (c : coll) (l : list (Z * item)) : result coll :=
  match l with
  | [] => Ok c
  | (idx, i) :: l' => let* c' := insert check near c idx true true i in insert_all check near c' l'
  end.
