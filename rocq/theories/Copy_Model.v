(** Copying groups and blueprints: /repo/draftsman/classes/group.py 582-633,
    classes/blueprint.py 1159-1206, classes/entity_list.py 662-735,
    classes/entity_like.py 201-227, classes/association.py 62-67, and the memo
    of Python's [copy.deepcopy].

    Objects are numbers; a new object gets the next unused number.  An object is
    shown with what it contains: an entity with its contents (an abstract value),
    a group with its members, the locomotives of each of its schedules and its
    wires (ends as in Wires_Model).  Not modelled: the other attributes, which
    are copied plainly; the ID map of the new list, which [append] builds as in
    EntityList_Model; groups that contain themselves; the connections and
    neighbours of entities in the format of game version 1 (no entity has them). *)
From Coq Require Import ZArith List Bool.
From Verif Require Import Common Dict Wires_Model.
Import ListNotations.

Inductive node :=
| Ent (i v : nat)
| Grp (i v : nat) (kids : list node) (ss : list (list wend)) (ws : list wire).
Definition ident (n : node) : nat := match n with Ent i _ => i | Grp i _ _ _ _ => i end.

(** The memo, latest entries first, and the next unused number. *)
Record state := mkS { memo : list (nat * node); next : nat }.
Definition fresh (s : state) : nat * state := (next s, mkS (memo s) (S (next s))).
Definition remember (i : nat) (n : node) (s : state) : state := mkS ((i, n) :: memo s) (next s).

(** [Association(memo[id(old())])]: numbers are not callable, [None] is never in
    the memo. *)
Definition rewire (s : state) (w : wend) : result wend :=
  match w with
  | WInt _ => Err TypeError
  | WRef None => Err KeyError
  | WRef (Some i) => match dget Nat.eqb (memo s) i with Some n => Ok (WRef (Some (ident n))) | None => Err KeyError end
  end.
Fixpoint mapR {A B} (f : A -> result B) (l : list A) : result (list B) :=
  match l with
  | [] => Ok []
  | x :: l' => let* y := f x in let* r := mapR f l' in Ok (y :: r)
  end.
Definition rewire_wire (s : state) (w : wire) : result wire :=
  let '(a, p, b, q) := w in
  let* a' := rewire s a in
  let* b' := rewire s b in
  Ok (a', p, b', q).

(** entity_list.py 687-690: the members one after the other. *)
Definition copy_kids (copy : node -> state -> result (node * state)) :=
  fix go (l : list node) (s : state) : result (list node * state) :=
  match l with
  | [] => Ok ([], s)
  | n :: l' =>
      let* (n', s1) := copy n s in
      let* (r, s2) := go l' (remember (ident n) n' s1) in
      Ok (n' :: r, s2)
  end.

(** [copy.deepcopy(n, memo)]: entity_like.py 201-227 and group.py 582-633.
    Schedules and wires are copied as they are, then rewired. *)
Fixpoint copy_node (n : node) (s : state) : result (node * state) :=
  match dget Nat.eqb (memo s) (ident n) with
  | Some m => Ok (m, s)
  | None =>
      match n with
      | Ent i v =>
          let '(j, s1) := fresh s in
          Ok (Ent j v, remember i (Ent j v) s1)
      | Grp i v kids ss ws =>
          let '(j, s1) := fresh s in
          let* (kids', s2) := copy_kids copy_node kids (remember i (Grp j v [] [] []) s1) in
          let* ss' := mapR (mapR (rewire s2)) ss in
          let* ws' := mapR (rewire_wire s2) ws in
          let g := Grp j v kids' ss' ws' in
          Ok (g, remember i g s2)
      end
  end.

(** [copy.deepcopy(n)]; [k]: numbers from here on are unused. *)
Definition deepcopy (k : nat) (n : node) : result node :=
  let* (n', _) := copy_node n (mkS [] k) in Ok n'.

(** A blueprint: its own number, entities, schedules and wires.
    blueprint.py 1159-1206: associations are copied as they are (association.py
    62-67) and not rewired. *)
Record blueprint := mkB { b_id : nat; b_ents : list node; b_ss : list (list wend); b_ws : list wire }.
Definition copy_blueprint (k : nat) (b : blueprint) : result blueprint :=
  let '(j, s) := fresh (mkS [] k) in
  let* (kids, _) := copy_kids copy_node (b_ents b) (remember (b_id b) (Grp j 0 [] [] []) s) in
  Ok (mkB j kids (b_ss b) (b_ws b)).

(** Weak references die with the objects that are not in [alive]. *)
Definition weaken (alive : list nat) (w : wend) : wend :=
  match w with
  | WRef (Some i) => if existsb (Nat.eqb i) alive then w else WRef None
  | _ => w
  end.
Definition weaken_wire (alive : list nat) (w : wire) : wire :=
  let '(a, p, b, q) := w in (weaken alive a, p, weaken alive b, q).
Fixpoint weaken_node (alive : list nat) (n : node) : node :=
  match n with
  | Ent i v => Ent i v
  | Grp i v kids ss ws =>
      Grp i v (map (weaken_node alive) kids) (map (map (weaken alive)) ss) (map (weaken_wire alive) ws)
  end.
Definition weaken_blueprint (alive : list nat) (b : blueprint) : blueprint :=
  mkB (b_id b) (map (weaken_node alive) (b_ents b)) (map (map (weaken alive)) (b_ss b)) (map (weaken_wire alive) (b_ws b)).

(** The same objects as Wires_Model sees them. *)
Fixpoint seen (n : node) : tree :=
  match n with
  | Ent i _ => Leaf i
  | Grp i _ kids _ ws => Node i ws (map seen kids) []
  end.
Definition seen_blueprint (b : blueprint) : coll := mkC (map seen (b_ents b)) [] (b_ws b).
