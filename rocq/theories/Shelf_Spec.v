(** The order of groups, subgroups and items. *)
From Coq Require Import ZArith NArith List Bool String Permutation Sorting.Sorted.
From Verif Require Import Common Dict Ranking_Spec Shelf_Model.
Import ListNotations.
Local Open Scope string_scope.
Local Open Scope list_scope.

(** Where something stands among its kind: by its order if it has one, before those without, then by name. *)
Definition place := (option pystr * pystr)%type.
Definition place_lt (a b : place) : Prop := order_lt (fst a) (fst b) \/ fst a = fst b /\ text_lt (snd a) (snd b).
Definition g_place (g : grp) : place := (g_order g, g_name g).
Definition s_place (s : sub) : place := (s_order s, s_name s).
Definition i_place (i : item) : place := (i_order i, i_name i).

Record rank := mkRank { r_group : place; r_sub : place; r_item : place }.
Definition before (a b : rank) : Prop :=
  place_lt (r_group a) (r_group b) \/ r_group a = r_group b /\
  (place_lt (r_sub a) (r_sub b) \/ r_sub a = r_sub b /\ place_lt (r_item a) (r_item b)).
(** The subgroup an item names, "other" if none. *)
Definition wanted (i : item) : pystr := match i_sub i with Some s => s | None => str "other" end.
Definition ranked (groups : list grp) (subs : list sub) (i : item) (r : rank) : Prop :=
  exists s g, In s subs /\ s_name s = wanted i /\ In g groups /\ s_group s = Some (g_name g) /\
    r = mkRank (g_place g) (s_place s) (i_place i).
(** An item without an order gets the empty one. *)
Inductive filled : item -> item -> Prop :=
| filled_as_is : forall n o s, filled (mkI n (Some o) s) (mkI n (Some o) s)
| filled_empty : forall n s, filled (mkI n None s) (mkI n (Some []) s).
(** Names are unique, being keys of dictionaries. *)
Definition unique (groups : list grp) (subs : list sub) (items : list item) : Prop :=
  NoDup (map g_name groups) /\ NoDup (map s_name subs) /\ NoDup (map i_name items).
(** Everything is where it says it is. *)
Definition complete (groups : list grp) (subs : list sub) (items : list item) : Prop :=
  (forall s, In s subs -> exists g, In g groups /\ s_group s = Some (g_name g)) /\
  (forall i, In i items -> exists s, In s subs /\ s_name s = wanted i).
(** A table that lists [l] under their names. *)
Definition under_names {A} (name : A -> pystr) (l : list A) (d : sdict A) : Prop := d = combine (map name l) l.
