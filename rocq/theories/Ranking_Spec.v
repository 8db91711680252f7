(** What the order of prototypes should be. *)
From Coq Require Import ZArith NArith List Bool String Permutation Sorting.Sorted.
From Verif Require Import Common Ranking_Model.
Import ListNotations.
Local Open Scope string_scope.
Local Open Scope list_scope.

(** Strict total orders. *)
Record strict {A} (R : A -> A -> Prop) : Prop := {
  s_irrefl : forall a, ~ R a a; s_trans : forall a b c, R a b -> R b c -> R a c; s_total : forall a b, R a b \/ a = b \/ R b a }.

(** Dictionary order of texts. *)
Definition text_lt (a b : pystr) : Prop :=
  (exists c r, b = a ++ c :: r) \/ (exists p x y r s, a = p ++ x :: r /\ b = p ++ y :: s /\ (x < y)%N).
Definition named_lt (a b : pystr * pystr) : Prop := text_lt (fst a) (fst b) \/ fst a = fst b /\ text_lt (snd a) (snd b).

(** Where a prototype stands: its group and subgroup (order, name), its order if
    any, the name it is sorted by and its own name. *)
Record rank := mkR { r_group : pystr * pystr; r_subgroup : pystr * pystr; r_order : option pystr; r_sort : pystr; r_name : pystr }.
Definition order_lt (a b : option pystr) : Prop :=
  match a, b with Some x, Some y => text_lt x y | Some _, None => True | None, _ => False end.
Definition earlier (a b : rank) : Prop :=
  named_lt (r_group a) (r_group b) \/ r_group a = r_group b /\
  (named_lt (r_subgroup a) (r_subgroup b) \/ r_subgroup a = r_subgroup b /\
   (order_lt (r_order a) (r_order b) \/ r_order a = r_order b /\
    (text_lt (r_sort a) (r_sort b) \/ r_sort a = r_sort b /\ text_lt (r_name a) (r_name b)))).

Section Tables.
  Variable items : table proto.
  Variable subgroups : table subgroup.
  Variable groups : table group.
  (** The item an object stands for: what mining it gives, or the item of its name. *)
  Inductive stands_for (o : proto) : option pystr -> Prop :=
  | sf_mined : forall r, p_mined o = Some r -> r <> [] -> stands_for o (Some r)
  | sf_mined_nothing : p_mined o = Some [] -> stands_for o None
  | sf_item : forall n it, p_mined o = None -> p_name o = Some n -> n <> [] -> find items n = Some it -> stands_for o (Some n)
  | sf_nameless : forall it, p_mined o = None -> p_name o = Some [] -> find items [] = Some it -> stands_for o None
  | sf_none : forall n, p_mined o = None -> p_name o = Some n -> find items n = None -> stands_for o None.
  Definition first_of (a b : option pystr) : option pystr := match a with Some _ => a | None => b end.
  (** Name to sort by, order and subgroup. *)
  Inductive sorted_as (o : proto) : pystr -> option pystr -> pystr -> Prop :=
  | sa_item : forall i it n, stands_for o (Some i) -> find items i = Some it -> p_name it = Some n ->
      sorted_as o n (first_of (p_order it) (p_order o)) (match p_subgroup it with Some s => s | None => str "other" end)
  | sa_own : forall n s, stands_for o None -> p_name o = Some n -> p_subgroup o = Some s -> sorted_as o n (p_order o) s
  | sa_plain : forall n t, stands_for o None -> p_name o = Some n -> p_subgroup o = None -> p_type o = Some t ->
      sorted_as o n (p_order o) (if pystr_eqb t (str "fluid") then str "fluid" else str "other").
  Definition ranked (o : proto) (r : rank) : Prop :=
    p_name o = Some (r_name r) /\ exists sub s gn g,
      sorted_as o (r_sort r) (r_order r) sub /\ find subgroups sub = Some s /\
      s_order s = Some (fst (r_subgroup r)) /\ s_name s = Some (snd (r_subgroup r)) /\
      s_group s = Some gn /\ find groups gn = Some g /\
      g_order g = Some (fst (r_group r)) /\ g_name g = Some (snd (r_group r)).
End Tables.
