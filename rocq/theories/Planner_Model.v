(** Upgrade planner mappings: /repo/draftsman/classes/upgrade_planner.py.

    The state is [UpgradePlanner.mappers]: [None] or the list of mappings.
    A mapping is a plain dict (as [set_mapping] stores it) or a validated
    [Mapper] model (as importing or assigning [mappers] stores it); pydantic
    models never equal dicts.  A blank side is absent from the dict and [None]
    in the model.  Ids are name/type pairs: resolving a bare name to its type
    ([mapper_dict], data/signals.py 145-158) happens before.  Indices are
    integers ([int(index)]).  Not modelled: dicts with other keys, dicts holding
    an explicit [None] side (only storable with validation switched off). *)
From Coq Require Import ZArith List Bool.
From Verif Require Import Common Dict.
Import ListNotations.

(** [MapperID], signatures.py 248-277: name and type. *)
Definition mid := (pystr * pystr)%type.
Definition mid_eqb (a b : mid) : bool := pystr_eqb (fst a) (fst b) && pystr_eqb (snd a) (snd b).
Definition side_eqb (a b : option mid) : bool :=
  match a, b with None, None => true | Some x, Some y => mid_eqb x y | _, _ => false end.

(** [Mapper], signatures.py 280-306, or the dict of [set_mapping] 626-631. *)
Record mapping := mkMapping { m_index : Z; m_from : option mid; m_to : option mid; m_dict : bool }.

(** [mapping.get(side, None) == obj]: the side of a model is a [MapperID] or
    [None] and only the latter can equal a dict or [None]. *)
Definition get_eq (dict : bool) (side obj : option mid) : bool :=
  if dict then side_eqb side obj else match side, obj with None, None => true | _, _ => false end.

(** The first position satisfying a test (a [for] loop over [enumerate]). *)
Fixpoint first_index {A} (p : A -> bool) (l : list A) : option nat :=
  match l with [] => None | x :: l' => if p x then Some O else option_map S (first_index p l') end.

(** CPython's [bisect.bisect_right] on [m_index]; [fuel] bounds the loop and is
    always sufficient when it exceeds [hi - lo]. *)
Fixpoint bisect_right (fuel : nat) (l : list mapping) (x : Z) (lo hi : nat) : nat :=
  match fuel with
  | O => lo
  | S fuel' =>
      if Nat.ltb lo hi then
        let mid := Nat.div (lo + hi) 2 in
        match nth_error l mid with
        | Some m => if (x <? m_index m)%Z then bisect_right fuel' l x lo mid else bisect_right fuel' l x (S mid) hi
        | None => lo
        end
      else lo
  end.
(** [list.insert] at a position. *)
Definition insert_at {A} (l : list A) (i : nat) (x : A) : list A := firstn i l ++ x :: skipn i l.
Definition insort (l : list mapping) (m : mapping) : list mapping :=
  insert_at l (bisect_right (S (length l)) l (m_index m) 0 (length l)) m.

Definition state := option (list mapping).
(** [set_mapping] 598-642. *)
Definition set_mapping (st : state) (f t : option mid) (i : Z) : state :=
  let l := match st with Some l => l | None => [] end in
  let new := mkMapping i f t true in
  match first_index (fun m => (m_index m =? i)%Z) l with
  | Some k => Some (replace_nth l k new)
  | None => Some (insort l new)
  end.

(** [pop_mapping] 695-718: iterating over [None] is a TypeError. *)
Definition pop_mapping (st : state) (i : Z) : state * result mapping :=
  match st with
  | None => (st, Err TypeError)
  | Some l =>
      match first_index (fun m => (m_index m =? i)%Z) l with
      | Some k => match nth_error l k with Some m => (Some (remove_nth l k), Ok m) | None => (st, Err IndexError) end
      | None => (st, Err ValueError)
      end
  end.

(** [self.mappers.remove({"from":..,"to":..,"index":..})] compares dicts: the
    stored one must have exactly these three keys. *)
Definition whole_eq (f t : option mid) (i : Z) (m : mapping) : bool :=
  m_dict m && (m_index m =? i)%Z &&
  match m_from m, m_to m with Some a, Some b => side_eqb (Some a) f && side_eqb (Some b) t | _, _ => false end.
(** [remove_mapping] 644-693. *)
Definition remove_mapping (st : state) (f t : option mid) (index : option Z) : state * result unit :=
  match index with
  | None =>
      match st with
      | None => (st, Err TypeError)
      | Some l =>
          match first_index (fun m => get_eq (m_dict m) (m_from m) f && get_eq (m_dict m) (m_to m) t) l with
          | Some k => (Some (remove_nth l k), Ok tt)
          | None => (st, Err ValueError)
          end
      end
  | Some i =>
      match st with
      | None => (st, Err AttributeError)
      | Some l =>
          match first_index (whole_eq f t i) l with
          | Some k => (Some (remove_nth l k), Ok tt)
          | None => (st, Err ValueError)
          end
      end
  end.

(** Any sequence of calls and what each of them does. *)
Inductive op := Set_ (f t : option mid) (i : Z) | Pop (i : Z) | Remove (f t : option mid) (index : option Z).
Inductive outcome := Done | Gave (i : Z) (f t : option mid) | Raised (e : exn).
Definition apply (st : state) (o : op) : state * outcome :=
  match o with
  | Set_ f t i => (set_mapping st f t i, Done)
  | Pop i =>
      match pop_mapping st i with
      | (st', Ok m) => (st', Gave (m_index m) (m_from m) (m_to m))
      | (st', Err e) => (st', Raised e)
      end
  | Remove f t i =>
      match remove_mapping st f t i with (st', Ok _) => (st', Done) | (st', Err e) => (st', Raised e) end
  end.
Fixpoint run (st : state) (os : list op) : state * list outcome :=
  match os with
  | [] => (st, [])
  | o :: os' => let '(st1, r) := apply st o in let '(st2, rs) := run st1 os' in (st2, r :: rs)
  end.
