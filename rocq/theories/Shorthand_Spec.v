(** What the short forms stand for, entry by entry. *)
From Coq Require Import ZArith NArith String List Bool.
From Verif Require Import Common Assign_Model Shorthand_Model.
Import ListNotations.
Local Open Scope string_scope.
Local Open Scope list_scope.
Local Open Scope Z_scope.

(** [b] is [a] with the entry at position [i] (from 0) replaced as [R i] says. *)
Definition entrywise (R : nat -> py -> py -> Prop) (a b : list py) : Prop :=
  List.length a = List.length b /\
  forall i x, nth_error a i = Some x -> exists y, nth_error b i = Some y /\ R i x y.

(** A string becomes a dict with its place, counted from 1; all else stays. *)
Inductive named_at (i : nat) : py -> py -> Prop :=
| na_string s : named_at i (PStr s) (PDict [(str "index", PInt (Z.of_nat i + 1)); (str "name", PStr s)])
| na_other e : (forall s, e <> PStr s) -> named_at i e e.
Inductive icon_at (i : nat) : py -> py -> Prop :=
| ia_string s : icon_at i (PStr s) (PDict [(str "signal", PStr s); (str "index", PInt (Z.of_nat i + 1))])
| ia_other e : (forall s, e <> PStr s) -> icon_at i e e.
Definition typed (e : py) : Prop := exists d v, e = PDict d /\ In (str "type", v) d.
Inductive planner_icon_at (sd : pystr -> option py) (i : nat) : py -> py -> Prop :=
| pia_string s d : sd s = Some d ->
    planner_icon_at sd i (PStr s) (PDict [(str "index", PInt (Z.of_nat i + 1)); (str "signal", d)])
| pia_typed e : typed e -> planner_icon_at sd i e (PDict [(str "index", PInt (Z.of_nat i + 1)); (str "signal", e)])
| pia_other e : (forall s, e <> PStr s) -> ~ typed e -> planner_icon_at sd i e e.
(** What is false: None, False, 0 and what is empty. *)
Inductive falsy : py -> Prop :=
| f_none : falsy PNone | f_false : falsy (PBool false) | f_zero : falsy (PInt 0)
| f_str : falsy (PStr []) | f_list : falsy (PList []) | f_tuple : falsy (PTuple []) | f_dict : falsy (PDict []).
Inductive side_is (k : string) : py -> list (pystr * py) -> Prop :=
| side_empty v : falsy v -> side_is k v []
| side_full v : ~ falsy v -> side_is k v [(str k, v)].
(** The elements of lists, tuples and strings. *)
Inductive elements : py -> list py -> Prop :=
| el_list l : elements (PList l) l
| el_tuple l : elements (PTuple l) l
| el_str s : elements (PStr s) (map (fun c => PStr [c]) s).
Inductive mapper_at (i : nat) : py -> py -> Prop :=
| ma_pair m a b rest f t : elements m (a :: b :: rest) -> side_is "from" a f -> side_is "to" b t ->
    mapper_at i m (PDict ((str "index", PInt (Z.of_nat i)) :: f ++ t))
| ma_other m : (forall l, ~ elements m l) -> mapper_at i m m.
(** A pair that has not two elements. *)
Definition short (m : py) : Prop := exists l, elements m l /\ (List.length l < 2)%nat.

(** A tuple of name and count in a section. *)
Inductive section_at (type_of : pystr -> option (list pystr)) (i : nat) : py -> py -> Prop :=
| sa_tuple s c rest ts t : type_of s = Some ts ->
    t = (if existsb (pystr_eqb (str "item")) ts then str "item" else hd [] ts) -> ts <> [] ->
    section_at type_of i (PTuple (PStr s :: c :: rest))
      (PDict [(str "index", PInt (Z.of_nat i + 1)); (str "name", PStr s); (str "type", PStr t);
              (str "comparator", PStr (str "=")); (str "count", c)])
| sa_other e : (forall l, e <> PTuple l) -> section_at type_of i e e.

(** Dicts with the same fields in whatever order. *)
Definition same_fields (a b : py) : Prop :=
  match a, b with PDict d, PDict e => forall p, In p d <-> In p e | _, _ => a = b end.
(** Booleans are numbers. *)
Definition number (v : py) : Prop := (exists z, v = PInt z) \/ (exists b, v = PBool b).
(** What python cannot hash. *)
Inductive unhashable : py -> Prop :=
| uh_list l : unhashable (PList l)
| uh_dict d : unhashable (PDict d)
| uh_tuple l : Exists unhashable l -> unhashable (PTuple l).
(** The tuples a section cannot read, and what is raised. *)
Inductive bad_filter (type_of : pystr -> option (list pystr)) : list py -> exn -> Prop :=
| bf_empty : bad_filter type_of [] IndexError
| bf_list n rest : unhashable n -> bad_filter type_of (n :: rest) TypeError
| bf_other n rest : ~ unhashable n -> (forall s, n <> PStr s) -> bad_filter type_of (n :: rest) DraftsmanError
| bf_unknown s rest : type_of s = None -> bad_filter type_of (PStr s :: rest) DraftsmanError
| bf_untyped s rest : type_of s = Some [] -> bad_filter type_of (PStr s :: rest) StopIteration
| bf_short s ts : type_of s = Some ts -> ts <> [] -> bad_filter type_of [PStr s] IndexError.

(** ** Bits *)
Definition bit (z : Z) (i : Z) : bool := Z.odd (z / 2 ^ i).
(** Whether link [i] is on after a program, by the last statement about it. *)
Fixpoint link_on (on : bool) (p : list link_stmt) (i : Z) : bool :=
  match p with
  | [] => on
  | SetId None :: p' => link_on false p' i
  | SetId (Some z) :: p' => link_on (bit z i) p' i
  | SetLink n b :: p' => link_on (if n =? i then b else on) p' i
  | LinkMode _ :: p' => link_on on p' i
  end.
Definition checked (t : link_stmt) : Prop := t <> LinkMode MNone.
