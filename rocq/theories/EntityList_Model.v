(** /repo/draftsman/classes/entity_list.py [EntityList] with its key maps, and
    the [id] setters of entities (entity.py 407-426) and groups
    (group.py 305-316).

    Objects are numbers into a heap.  Of an object we keep its ID, whether it is
    a [Group] (compared by identity) and [e_val], standing for everything else
    that entity equality compares (type, name, position, tags, ...).
    Not modelled here: the spatial map side (see Spatial_Model.v), merging
    ([merge=True]), validation of the inserted object (which can only issue
    warnings or raise before the list is touched), construction from strings or
    dicts, and inserting one object twice with [copy=False]: every insertion
    stores a new object. *)
From Coq Require Import ZArith NArith List Bool.
From Verif Require Import Common Dict.
Import ListNotations.

Record ent := mkEnt { e_id : option pystr; e_val : Z; e_grp : bool }.
(** Dictionary keys: a string, or [None] (which a group's ID setter can
    register). *)
Definition key := option pystr.
Definition key_eqb (a b : key) : bool :=
  match a, b with
  | None, None => true
  | Some x, Some y => pystr_eqb x y
  | _, _ => false
  end.
(** [if entitylike.id:] *)
Definition truthy (k : key) : bool :=
  match k with Some (_ :: _) => true | _ => false end.

Record estate := mkES {
  heap : list ent;                 (* every object created so far *)
  root : list nat;                 (* self._root *)
  key_map : dict key nat;          (* self.key_map *)
  key_to_idx : dict key Z;         (* self.key_to_idx *)
  idx_to_key : dict Z key          (* self.idx_to_key *)
}.

Definition empty_list : estate := mkES [] [] [] [] [].

Definition id_of (h : list ent) (o : nat) : key :=
  match nth_error h o with Some e => e_id e | None => None end.
Definition is_group (h : list ent) (o : nat) : bool :=
  match nth_error h o with Some e => e_grp e | None => false end.

(** Python [a is b or a == b]: entity.py 755-762; groups have no [__eq__]. *)
Definition ent_eqb (x y : ent) : bool :=
  negb (e_grp x) && negb (e_grp y) && key_eqb (e_id x) (e_id y) && (e_val x =? e_val y)%Z.
Definition obj_eqb (h : list ent) (a b : nat) : bool :=
  Nat.eqb a b ||
  match nth_error h a, nth_error h b with
  | Some x, Some y => ent_eqb x y
  | _, _ => false
  end.

Definition outcome := (estate * option exn)%type.
Definition andthen (r : outcome) (f : estate -> outcome) : outcome :=
  match snd r with None => f (fst r) | Some _ => r end.

Definition with_root (s : estate) (r : list nat) : estate :=
  mkES (heap s) r (key_map s) (key_to_idx s) (idx_to_key s).
Definition with_heap (s : estate) (h : list ent) : estate :=
  mkES h (root s) (key_map s) (key_to_idx s) (idx_to_key s).

(** 752-766 [_remove_key]. *)
Definition remove_key (s : estate) (k : key) : outcome :=
  match k with
  | None => (s, None)
  | Some _ =>
      match dget key_eqb (key_to_idx s) k with
      | None => (s, Some KeyError)
      | Some idx =>
          match dget key_eqb (key_map s) k with
          | None => (s, Some KeyError)
          | Some _ =>
              let s1 := mkES (heap s) (root s) (ddel key_eqb (key_map s) k)
                             (ddel key_eqb (key_to_idx s) k) (idx_to_key s) in
              match dget Z.eqb (idx_to_key s1) idx with
              | None => (s1, Some KeyError)
              | Some _ =>
                  (mkES (heap s1) (root s1) (key_map s1) (key_to_idx s1)
                        (ddel Z.eqb (idx_to_key s1) idx), None)
              end
          end
      end
  end.

(** 768-786 [_set_key]. *)
Definition set_key (s : estate) (k : key) (o : nat) : outcome :=
  match dget key_eqb (key_map s) k with
  | Some _ => (s, Some DuplicateIDError)
  | None =>
      match index_of (obj_eqb (heap s)) (root s) o with
      | None => (s, Some ValueError)
      | Some i =>
          (mkES (heap s) (root s) (dset key_eqb (key_map s) k o)
                (dset key_eqb (key_to_idx s) k (Z.of_nat i))
                (dset Z.eqb (idx_to_key s) (Z.of_nat i) k), None)
      end
  end.

(** 788-802 [_shift_key_indices]. *)
Definition shift_keys (s : estate) (idx amt : Z) : estate :=
  let k2i := map (fun kv => (fst kv, if (idx <=? snd kv)%Z then (snd kv + amt)%Z else snd kv))
                 (key_to_idx s) in
  mkES (heap s) (root s) (key_map s) k2i
       (dict_of Z.eqb (map (fun kv => (snd kv, fst kv)) k2i)).

(** 360-391 [check_entitylike]. *)
Definition id_taken (s : estate) (k : key) : bool :=
  match k with
  | None => false
  | Some _ => match dget key_eqb (key_map s) k with Some _ => true | None => false end
  end.

(** 205-329 [insert]. *)
Definition el_insert (s : estate) (idx : Z) (e : ent) : outcome :=
  if id_taken s (e_id e) then (s, Some DuplicateIDError)
  else
    let o := length (heap s) in
    let s1 := mkES (heap s ++ [e]) (py_insert (root s) idx o) (key_map s) (key_to_idx s) (idx_to_key s) in
    let s2 := shift_keys s1 idx 1 in
    if truthy (e_id e) then set_key s2 (e_id e) o else (s2, None).

(** 529-575 [__setitem__] after [get_pair]. *)
Definition el_replace (s : estate) (idx : Z) (k : key) (e : ent) : outcome :=
  if id_taken s (e_id e) then (s, Some DuplicateIDError)
  else
    match py_pos (Z.of_nat (length (root s))) idx with
    | None => (s, Some IndexError)
    | Some i =>
        let o := length (heap s) in
        let s1 := mkES (heap s ++ [e]) (replace_nth (root s) i o) (key_map s) (key_to_idx s) (idx_to_key s) in
        andthen (if truthy k then remove_key s1 k else (s1, None)) (fun s2 =>
        if truthy (e_id e) then set_key s2 (e_id e) o else (s2, None))
    end.
(** 393-408 [get_pair] for an index. *)
Definition key_at (s : estate) (idx : Z) : key :=
  match dget Z.eqb (idx_to_key s) idx with Some k => k | None => None end.
Definition el_set_idx (s : estate) (idx : Z) (e : ent) : outcome :=
  el_replace s idx (key_at s idx) e.
Definition el_set_key (s : estate) (k : pystr) (e : ent) : outcome :=
  match dget key_eqb (key_to_idx s) (Some k) with
  | None => (s, Some KeyError)
  | Some idx => el_replace s idx (Some k) e
  end.

(** 600-613 [__delitem__] after [get_pair]. *)
Definition el_delete (s : estate) (idx : Z) (k : key) : outcome :=
  match py_pos (Z.of_nat (length (root s))) idx with
  | None => (s, Some IndexError)
  | Some i =>
      let s1 := with_root s (remove_nth (root s) i) in
      andthen (remove_key s1 k) (fun s2 => (shift_keys s2 idx (-1), None))
  end.
(** An integer index is first reduced modulo the length (597-598). *)
Definition el_del_idx (s : estate) (idx : Z) : outcome :=
  match root s with
  | [] => (s, Some ZeroDivisionError)
  | _ => let i := (idx mod Z.of_nat (length (root s)))%Z in el_delete s i (key_at s i)
  end.
Definition el_del_key (s : estate) (k : pystr) : outcome :=
  match dget key_eqb (key_to_idx s) (Some k) with
  | None => (s, Some KeyError)
  | Some idx => el_delete s idx (Some k)
  end.

(** 577-594 [__delitem__] for a slice. *)
Definition el_del_slice (s : estate) (a b c : option Z) : outcome :=
  if match c with Some 0%Z => true | _ => false end then (s, Some ValueError)
  else
    let '(start, stop, step) := slice_indices a b c (Z.of_nat (length (root s))) in
    let r := py_range start stop step in
    andthen (fold_left (fun acc i => andthen acc (fun s1 => remove_key s1 (key_at s1 i))) r (s, None))
      (fun s1 =>
         let s2 := fold_left (fun s i => shift_keys s i (- step)) r s1 in
         (with_root s2 (keep_pos (fun p => negb (existsb (Z.eqb p) r)) 0 (root s2)), None)).

Definition set_id (h : list ent) (o : nat) (k : key) : list ent :=
  match nth_error h o with
  | Some e => replace_nth h o (mkEnt k (e_val e) (e_grp e))
  | None => h
  end.
(** entity.py 407-426 and group.py 305-316: assigning [id] to the member at
    position [p] (it has a parent). *)
Definition el_set_id (s : estate) (p : nat) (v : key) : outcome :=
  match nth_error (root s) p with
  | None => (s, Some IndexError)
  | Some o =>
      let old := id_of (heap s) o in
      if is_group (heap s) o then
        let s1 := with_heap s (set_id (heap s) o v) in
        andthen (remove_key s1 old) (fun s2 => set_key s2 v o)
      else
        match v with
        | None => andthen (remove_key s old) (fun s1 => (with_heap s1 (set_id (heap s1) o None), None))
        | Some _ =>
            andthen (remove_key s old) (fun s1 =>
            let s2 := with_heap s1 (set_id (heap s1) o v) in
            set_key s2 v o)
        end
  end.

(** 465-470 [clear]. *)
Definition el_clear (s : estate) : outcome := (mkES (heap s) [] [] [] [], None).

(** The public operations. *)
Inductive eop :=
| EAppend (e : ent)
| EInsert (idx : Z) (e : ent)
| EDelIdx (idx : Z)
| EDelKey (k : pystr)
| EDelSlice (a b c : option Z)
| ESetIdx (idx : Z) (e : ent)
| ESetKey (k : pystr) (e : ent)
| ESetId (p : nat) (v : key)
| EClear.
Definition el_step (s : estate) (o : eop) : outcome :=
  match o with
  | EAppend e => el_insert s (Z.of_nat (length (root s))) e    (* 115-176 *)
  | EInsert idx e => el_insert s idx e
  | EDelIdx idx => el_del_idx s idx
  | EDelKey k => el_del_key s k
  | EDelSlice a b c => el_del_slice s a b c
  | ESetIdx idx e => el_set_idx s idx e
  | ESetKey k e => el_set_key s k e
  | ESetId p v => el_set_id s p v
  | EClear => el_clear s
  end.

(** 514-526 [__getitem__]: by key and by index. *)
Definition el_get_key (s : estate) (k : pystr) : result nat :=
  match dget key_eqb (key_map s) (Some k) with Some o => Ok o | None => Err KeyError end.
Definition el_get_idx (s : estate) (idx : Z) : result nat :=
  match py_nth (root s) idx with Some o => Ok o | None => Err IndexError end.

(** The members with their attributes, in order: what iterating the list
    shows. *)
Definition members (s : estate) : list (nat * ent) :=
  flat_map (fun o => match nth_error (heap s) o with Some e => [(o, e)] | None => [] end) (root s).

(** The inner loops of 410-463: is [x] equal to some element of [other]? *)
Fixpoint found_in (h : list ent) (x : nat) (other : list nat) : bool :=
  match other with
  | [] => false
  | y :: other' => if obj_eqb h y x then true else found_in h x other'
  end.
(** Append (a copy of) object [o] of heap [h] to the list being built. *)
Definition append_copy (h : list ent) (r : outcome) (o : nat) : outcome :=
  andthen r (fun s => match nth_error h o with
                      | Some e => el_step s (EAppend e)
                      | None => (s, None)
                      end).
(** 410-429 [union], 431-446 [intersection], 448-463 [difference]: both
    operands are lists of objects in one heap [h]; the result is a new list. *)
Definition el_union (h : list ent) (a b : list nat) : outcome :=
  let r := fold_left (append_copy h) a (empty_list, None) in
  fold_left (fun r o => if found_in h o a then r else append_copy h r o) b r.
Definition el_intersection (h : list ent) (a b : list nat) : outcome :=
  fold_left (fun r o => if found_in h o b then append_copy h r o else r) a (empty_list, None).
Definition el_difference (h : list ent) (a b : list nat) : outcome :=
  fold_left (fun r o => if found_in h o b then r else append_copy h r o) a (empty_list, None).
