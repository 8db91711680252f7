(** Nested groups: parents, global positions, flattening and the search index.

    /repo/draftsman/utils.py 811-827 [flatten_entities];
    /repo/draftsman/classes/group.py 305-372 (position, global_position), 505-514
    [get]; /repo/draftsman/classes/entity.py 451-490, 536-555;
    /repo/draftsman/classes/entity_like.py 186-199 [get];
    /repo/draftsman/classes/entity_list.py 285-329 [insert], 577-613
    [__delitem__]; /repo/draftsman/classes/spatial_hashmap.py 61-99
    [recursive_add], [recursive_remove].

    Objects are numbers.  Lengths are exact integers as in Spatial_Model.  [add]
    is [entities.append(x, copy=False)] without merging; the checks on IDs and
    the overlap warnings belong to other areas. *)
From Coq Require Import ZArith List Bool.
From Verif Require Import Common Dict Spatial_Model.
Import ListNotations.
Local Open Scope Z_scope.

Definition oid := Z.
(** A blueprint has no [global_position]; a group has one. *)
Inductive kind := Entity | Group | Blueprint.
Record obj := mkObj {
  knd : kind;
  at_ : zpt;                (* position *)
  shape : option zbox;      (* collision box around the position *)
  parent : option oid       (* _parent *)
}.
Record heap := mkHeap { objs : oid -> obj; kids : oid -> list oid; index : oid -> smap oid }.

Definition vadd (a b : zpt) : zpt := (fst a + fst b, snd a + snd b).

(** entity.py 551-555, group.py 369-372: the parent's global position, if the
    parent has that attribute, plus one's own position.  The fuel stands for
    Python's recursion limit. *)
Fixpoint global_position (fuel : nat) (h : heap) (x : oid) : result zpt :=
  match fuel with
  | O => Err RecursionError
  | S f =>
      match parent (objs h x) with
      | Some c =>
          match knd (objs h c) with
          | Group => let* p := global_position f h c in Ok (vadd p (at_ (objs h x)))
          | _ => Ok (at_ (objs h x))
          end
      | None => Ok (at_ (objs h x))
      end
  end.

(** utils.py 811-827: a group's [get] is the flattened list of its entities
    (group.py 514), which is then flattened once more. *)
Fixpoint flatten_entities (fuel : nat) (h : heap) (l : list oid) : result (list oid) :=
  match fuel with
  | O => Err RecursionError
  | S f =>
      (fix go (l : list oid) : result (list oid) :=
         match l with
         | [] => Ok []
         | x :: r =>
             let* here := match knd (objs h x) with
                          | Group => let* inner := flatten_entities f h (kids h x) in flatten_entities f h inner
                          | _ => Ok [x]
                          end in
             let* rest := go r in
             Ok (here ++ rest)
         end) l
  end.

(** spatial_like.py 60-80 [get_world_bounding_box] of an entity. *)
Definition world_box (fuel : nat) (h : heap) (x : oid) : option zbox :=
  match shape (objs h x), global_position fuel h x with
  | Some b, Ok p => Some (mkZ (bl b + fst p) (bt b + snd p) (br b + fst p) (bb b + snd p))
  | _, _ => None
  end.

Section Heap.
  Variable fuel : nat.
  Variable cs eps : Z.

  Definition upd {A} (f : oid -> A) (x : oid) (v : A) : oid -> A := fun y => if y =? x then v else f y.
  Definition with_parent (o : obj) (p : option oid) : obj := mkObj (knd o) (at_ o) (shape o) p.
  Definition with_at (o : obj) (v : zpt) : obj := mkObj (knd o) v (shape o) (parent o).

  (** entity_list.py 309-329: first the index of the container is extended by the
      object's entities, at the global positions they have then; only afterwards
      is the parent set. *)
  Definition add (h : heap) (c x : oid) : result heap :=
    let* leaves := flatten_entities fuel h [x] in
    let m := fold_left (sm_add cs eps (world_box fuel h)) leaves (index h c) in
    Ok (mkHeap (upd (objs h) x (with_parent (objs h x) (Some c)))
               (upd (kids h) c (kids h c ++ [x]))
               (upd (index h) c m)).

  (** entity_list.py 596-613 [__delitem__] with an index: [_parent] is left alone. *)
  Definition delete (h : heap) (c : oid) (i : nat) : result heap :=
    match nth_error (kids h c) i with
    | None => Err IndexError
    | Some x =>
        let* leaves := flatten_entities fuel h [x] in
        let m := fold_left (sm_remove cs eps (world_box fuel h) Z.eqb) leaves (index h c) in
        Ok (mkHeap (objs h) (upd (kids h) c (remove_nth (kids h c) i)) (upd (index h) c m))
    end.

  (** [x.position = v]: entity.py 477-490, group.py 341-349. *)
  Definition set_position (h : heap) (x : oid) (v : zpt) : result heap :=
    match parent (objs h x) with
    | Some _ => Err DraftsmanError
    | None => Ok (mkHeap (upd (objs h) x (with_at (objs h x) v)) (kids h) (index h))
    end.
  (** [x.position.update(v.x, v.y)] (vector.py 85-91): no check. *)
  Definition update_position (h : heap) (x : oid) (v : zpt) : heap :=
    mkHeap (upd (objs h) x (with_at (objs h x) v)) (kids h) (index h).

  (** collection.py 163-179 [find_entity_at_position]. *)
  Definition find_at (h : heap) (c : oid) (p : zpt) : option oid :=
    hd_error (get_on_point cs (world_box fuel h) (index h c) p None).

  Inductive op := OAdd (c x : oid) | ODelete (c : oid) (i : nat) | OSet (x : oid) (v : zpt) | OUpdate (x : oid) (v : zpt).
  Definition run_op (h : heap) (o : op) : result heap :=
    match o with
    | OAdd c x => add h c x
    | ODelete c i => delete h c i
    | OSet x v => set_position h x v
    | OUpdate x v => Ok (update_position h x v)
    end.
  Fixpoint run (h : heap) (os : list op) : result heap :=
    match os with
    | [] => Ok h
    | o :: r => let* h' := run_op h o in run h' r
    end.
End Heap.
