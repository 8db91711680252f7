(** Lists of entities in groups in groups, each with its spatial map:
    /repo/draftsman/classes/entity_list.py 115-329, 331-358, 465-470, 529-575,
    577-613, 620-629; classes/spatial_hashmap.py 61-99; classes/entity.py 537-555,
    755-762; classes/group.py 360-372; classes/spatial_like.py 54-78.

    Coordinates and cells are those of C09-C12 (Spatial_Model.v).  A [Leaf] is an
    entity: the object, what it is compared by besides its place (type, name, id and
    tags as one number), its position and its bounding box if it has one.  A [Group]
    is compared as an object.  Groups have their own list and map.

    An object that is not in a list yet has no parent, or still has the one it was
    removed from; [d] is the global position of that parent ((0, 0) for none and for
    blueprints, which have no global position).  Only when it is inserted does it get
    the new parent, after its boxes were looked up (entity_list.py 310-327).

    Left out: merging (C65), ids (C13-C16), slices (C15), overlap warnings (C47), the
    same object in two lists, changes of position while in a list. *)
From Coq Require Import ZArith List Bool.
From Verif Require Import Common Dict Spatial_Model.
Import ListNotations.
Local Open Scope Z_scope.

Definition plus (a b : zpt) : zpt := (fst a + fst b, snd a + snd b).
Definition pt_eqb (a b : zpt) : bool := (fst a =? fst b) && (snd a =? snd b).

(** What is in a map: the object and its place relative to the owner of the map. *)
Record thing := mkThing { t_object : nat; t_kind : Z; t_place : zpt; t_box : option zbox }.
(** entity.py 755-762 for two things under the same owner. *)
Definition same (a b : thing) : bool := (t_kind a =? t_kind b) && pt_eqb (t_place a) (t_place b).
(** spatial_like.py 54-78, the owner being at [d]. *)
Definition placed (d : zpt) (t : thing) : option zbox := option_map (fun b => shift_box b (plus d (t_place t))) (t_box t).

Definition index := smap thing.
Inductive node :=
| Leaf (o : nat) (k : Z) (p : zpt) (b : option zbox)
| Group (o : nat) (p : zpt) (ms : list node) (ix : index).

(** What an object is compared with: the object and, of an entity, kind and global
    position. *)
Record item := mkItem { i_object : nat; i_look : option (Z * zpt) }.
(** [v is item or v == item] for a member of a list whose owner is at [off]. *)
Definition equals (off : zpt) (q : item) (n : node) : bool :=
  match n with
  | Leaf o k p _ =>
      Nat.eqb o (i_object q) || match i_look q with Some (k', g) => (k =? k') && pt_eqb (plus off p) g | None => false end
  | Group o _ _ _ => Nat.eqb o (i_object q)
  end.
(** [EntityList.index], from [collections.abc.Sequence]. *)
Fixpoint find_pos {A} (f : A -> bool) (l : list A) : option nat :=
  match l with
  | [] => None
  | x :: l' => if f x then Some O else option_map S (find_pos f l')
  end.

Section Nest.
  Variable cs eps : Z.
  (** spatial_hashmap.py 61-80 [recursive_add], without merging.  [r]: where the group
      is relative to the owner of the map. *)
  Fixpoint add_node (d r : zpt) (ix : index) (n : node) {struct n} : index :=
    match n with
    | Leaf o k p b => sm_add cs eps (placed d) ix (mkThing o k (plus r p) b)
    | Group _ p ms _ => (fix go (ix : index) (l : list node) : index :=
                           match l with [] => ix | m :: l' => go (add_node d (plus r p) ix m) l' end) ix ms
    end.
  (** 93-99 [recursive_remove]. *)
  Fixpoint remove_node (d r : zpt) (ix : index) (n : node) {struct n} : index :=
    match n with
    | Leaf o k p b => sm_remove cs eps (placed d) same ix (mkThing o k (plus r p) b)
    | Group _ p ms _ => (fix go (ix : index) (l : list node) : index :=
                           match l with [] => ix | m :: l' => go (remove_node d (plus r p) ix m) l' end) ix ms
    end.

  Definition state := (list node * index)%type.
  Definition out := (state * option exn)%type.
  (** entity_list.py 205-329 *)
  Definition insert (s : state) (idx : Z) (d : zpt) (n : node) : out :=
    ((py_insert (fst s) idx n, add_node d (0, 0) (snd s) n), None).
  (** 577-613 with an int; the owner is at [off]. *)
  Definition delete (off : zpt) (s : state) (idx : Z) : out :=
    match fst s with
    | [] => (s, Some ZeroDivisionError)
    | _ => let i := Z.to_nat (idx mod Z.of_nat (length (fst s))) in
           match nth_error (fst s) i with
           | None => (s, Some IndexError)
           | Some n => ((remove_nth (fst s) i, remove_node off (0, 0) (snd s) n), None)
           end
    end.
  (** 529-575 *)
  Definition replace (off : zpt) (s : state) (idx : Z) (d : zpt) (n : node) : out :=
    match py_pos (Z.of_nat (length (fst s))) idx with
    | None => (s, Some IndexError)
    | Some i => match nth_error (fst s) i with
                | None => (s, Some IndexError)
                | Some m => ((replace_nth (fst s) i n, add_node d (0, 0) (remove_node off (0, 0) (snd s) m) n), None)
                end
    end.
  (** [remove], from [collections.abc.MutableSequence]: [del self[self.index(item)]]. *)
  Definition remove (off : zpt) (s : state) (q : item) : out :=
    match find_pos (equals off q) (fst s) with
    | None => (s, Some ValueError)
    | Some i => delete off s (Z.of_nat i)
    end.
  (** 331-358 [recursive_remove]: the first group from which it can be removed. *)
  Fixpoint remove_below (off : zpt) (q : item) (ms : list node) : option (list node) :=
    match ms with
    | [] => None
    | Group o p l ix :: ms' =>
        match remove (plus off p) (l, ix) q with
        | ((l', ix'), None) => Some (Group o p l' ix' :: ms')
        | (_, Some _) => option_map (cons (Group o p l ix)) (remove_below off q ms')
        end
    | m :: ms' => option_map (cons m) (remove_below off q ms')
    end.
  Definition recursive_remove (off : zpt) (s : state) (q : item) : out :=
    match remove off s q with
    | (s', None) => (s', None)
    | _ => match remove_below off q (fst s) with
           | Some ms => ((ms, snd s), None)
           | None => (s, Some ValueError)
           end
    end.
  (** 620-629 [__contains__]. *)
  Fixpoint holds (off : zpt) (q : item) (n : node) : bool :=
    match n with
    | Leaf _ _ _ _ => false
    | Group _ p ms _ => existsb (equals (plus off p) q) ms || existsb (holds (plus off p) q) ms
    end.
  Definition contains (off : zpt) (s : state) (q : item) : bool :=
    existsb (equals off q) (fst s) || existsb (holds off q) (fst s).
  (** collection.py 179-203 [find_entities], the owner being at [off]. *)
  Definition found (off : zpt) (s : state) (q : zbox) : list thing :=
    get_in_aabb cs eps (placed off) same (snd s) q (0, 0) None.

  (** ** Histories *)
  Inductive op :=
  | Insert (idx : Z) (d : zpt) (n : node)
  | Delete (idx : Z)
  | Replace (idx : Z) (d : zpt) (n : node)
  | Clear
  | RecursiveRemove (q : item).
  Definition step (off : zpt) (s : state) (o : op) : out :=
    match o with
    | Insert idx d n => insert s idx d n
    | Delete idx => delete off s idx
    | Replace idx d n => replace off s idx d n
    | Clear => (([], []), None)
    | RecursiveRemove q => recursive_remove off s q
    end.
  (** An operation on the list of the group that is reached by these positions. *)
  Fixpoint step_at (path : list nat) (off : zpt) (s : state) (o : op) : out :=
    match path with
    | [] => step off s o
    | i :: path' =>
        match nth_error (fst s) i with
        | None => (s, Some IndexError)
        | Some (Leaf _ _ _ _) => (s, Some AttributeError)
        | Some (Group g p ms ix) =>
            let '((ms', ix'), e) := step_at path' (plus off p) (ms, ix) o in
            ((replace_nth (fst s) i (Group g p ms' ix'), snd s), e)
        end
    end.
  Definition run (off : zpt) (cs : list (list nat * op)) (s : state) : state :=
    fold_left (fun s c => fst (step_at (fst c) off s (snd c))) cs s.
End Nest.
