(** Specification of an entity list: a plain list of (object, attributes) with
    no key maps at all. *)
From Coq Require Import ZArith NArith List Bool.
From Verif Require Import Common Dict EntityList_Model.
Import ListNotations.

Definition member := (nat * ent)%type.

(** Some member carries the (non-empty) ID [k]. *)
Definition has_id (k : key) (m : member) : bool := key_eqb (e_id (snd m)) k.
Definition used (l : list member) (k : key) : bool :=
  match k with None => false | Some _ => existsb (has_id k) l end.
Fixpoint position (l : list member) (k : key) : option nat :=
  match l with
  | [] => None
  | m :: l' => if has_id k m then Some O else option_map S (position l' k)
  end.

(** What each operation should do to the plain list; [fresh] is the identity of
    the object being inserted. *)
Definition spec_replace (l : list member) (idx : Z) (fresh : nat) (e : ent)
  : list member * option exn :=
  if used l (e_id e) then (l, Some DuplicateIDError)
  else match py_pos (Z.of_nat (length l)) idx with
       | None => (l, Some IndexError)
       | Some i => (replace_nth l i (fresh, e), None)
       end.
Definition spec_insert (l : list member) (idx : Z) (fresh : nat) (e : ent)
  : list member * option exn :=
  if used l (e_id e) then (l, Some DuplicateIDError) else (py_insert l idx (fresh, e), None).
Definition spec_step (fresh : nat) (l : list member) (o : eop) : list member * option exn :=
  match o with
  | EAppend e => spec_insert l (Z.of_nat (length l)) fresh e
  | EInsert idx e => spec_insert l idx fresh e
  | EDelIdx idx =>
      match l with
      | [] => (l, Some ZeroDivisionError)
      | _ => (remove_nth l (Z.to_nat (idx mod Z.of_nat (length l))), None)
      end
  | EDelKey k =>
      match position l (Some k) with
      | None => (l, Some KeyError)
      | Some i => (remove_nth l i, None)
      end
  | EDelSlice a b c => (l, None)   (* not used, see C15 *)
  | ESetIdx idx e => spec_replace l idx fresh e
  | ESetKey k e =>
      match position l (Some k) with
      | None => (l, Some KeyError)
      | Some i => spec_replace l (Z.of_nat i) fresh e
      end
  | ESetId p v =>
      match nth_error l p with
      | None => (l, Some IndexError)
      | Some (o, e) => (replace_nth l p (o, mkEnt v (e_val e) (e_grp e)), None)
      end
  | EClear => ([], None)
  end.

(** The uses covered by C13: no empty-string IDs, insertion positions counted
    from the front (or at the very front), replacement by non-negative index,
    ID changes to an unused ID ([None] only for non-groups), no slices. *)
Definition covered (l : list member) (o : eop) : Prop :=
  match o with
  | EAppend e => e_id e <> Some []
  | EInsert idx e => e_id e <> Some [] /\ (0 <= idx \/ idx <= - Z.of_nat (length l))%Z
  | EDelIdx _ | EClear => True
  | EDelKey k => k <> []
  | EDelSlice _ _ _ => False
  | ESetIdx idx e => e_id e <> Some [] /\ (0 <= idx)%Z
  | ESetKey k e => k <> [] /\ e_id e <> Some []
  | ESetId p v =>
      v <> Some [] /\
      (forall q m, nth_error l q = Some m -> q <> p -> v <> None -> e_id (snd m) <> v) /\
      (forall m, nth_error l p = Some m -> e_grp (snd m) = true -> v <> None)
  end.

(** States reachable from the empty list by covered operations. *)
Inductive reachable : estate -> Prop :=
| reach_empty : reachable empty_list
| reach_step : forall s o, reachable s -> covered (members s) o ->
    reachable (fst (el_step s o)).

(** Lookup by ID and by position agree with the members. *)
Record consistent (s : estate) : Prop := {
  c_lookup : forall (k : pystr) o, k <> [] ->
    (el_get_key s k = Ok o <-> exists e, In (o, e) (members s) /\ e_id e = Some k);
  c_distinct : NoDup (map fst (members s));
  c_unique : forall i j m n k, nth_error (members s) i = Some m -> nth_error (members s) j = Some n ->
    e_id (snd m) = Some k -> e_id (snd n) = Some k -> i = j;
  c_index : forall (k : pystr) i, k <> [] ->
    (dget key_eqb (key_to_idx s) (Some k) = Some (Z.of_nat i) <->
     exists m, nth_error (members s) i = Some m /\ e_id (snd m) = Some k);
  c_no_stale : forall k, dget key_eqb (key_map s) k <> None ->
    exists m, In m (members s) /\ e_id (snd m) = k
}.

(** *** Slices (C15) *)
(** The positions a slice selects, by the usual Python reading: between the
    (adjusted) bounds and a whole number of steps from the start. *)
Definition in_slice (start stop step : Z) (p : Z) : bool :=
  existsb (Z.eqb p) (py_range start stop step).
Definition survivors (l : list member) (start stop step : Z) : list member :=
  keep_pos (fun p => negb (in_slice start stop step p)) 0 l.

(** *** Set operations (C16) *)
Definition equal_to_some (h : list ent) (l : list nat) (o : nat) : Prop :=
  exists x, In x l /\
    (x = o \/ exists e f, nth_error h x = Some e /\ nth_error h o = Some f /\
               e_grp e = false /\ f = e).
(** The list of attributes of objects [os]. *)
Definition attributes (h : list ent) (os : list nat) : list ent :=
  map (fun o => nth o h (mkEnt None 0 false)) os.
Definition ids (es : list ent) : list pystr :=
  flat_map (fun e => match e_id e with Some k => [k] | None => [] end) es.
