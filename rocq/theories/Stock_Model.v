(** Adding groups, subgroups and items: /repo/draftsman/data/items.py.

    A container is a list (what [append] wants) or an ordered dictionary (what
    [get_items] leaves, update.py 822-843).  Groups and subgroups refer to their
    containers, which live in two tables; number 0 is the list made once as the
    default value of [add_group] and [add_subgroup].  A list given by the caller
    becomes a new container.  Further keyword arguments are left out, and so are
    the fields a group or subgroup inherits from an item of its name, except for
    the order.  Each function gives the new state and the exception, if any. *)
From Coq Require Import ZArith List Bool String.
From Verif Require Import Common Dict Shelf_Model.
Import ListNotations.
Local Open Scope string_scope.
Local Open Scope list_scope.

Record thing := mkTh { th_name : pystr; th_stack : option Z; th_order : option pystr; th_sub : option pystr }.
Record subrec := mkSr { sr_name : pystr; sr_order : option pystr; sr_box : nat }.
Record grec := mkGr { gr_name : pystr; gr_order : option pystr; gr_box : nat }.
Inductive box (A : Type) := BList (l : list A) | BDict (d : sdict A).
Arguments BList {A}. Arguments BDict {A}.
Record shop := mkShop {
  raw : sdict thing; subgroups : sdict subrec; groups : sdict grec;
  item_boxes : list (box thing); sub_boxes : list (box subrec) }.

(** [x.append(v)]; a dictionary has no such attribute. *)
Definition append {A} (boxes : list (box A)) (k : nat) (v : A) : option (list (box A)) :=
  match nth_error boxes k with
  | Some (BList l) => Some (replace_nth boxes k (BList (l ++ [v])))
  | _ => None
  end.
(** 27-28, 50-51, 98: an existing *item* of the name has priority. *)
Definition order_for (s : shop) (name order : pystr) : pystr :=
  match dget pystr_eqb (raw s) name with
  | Some t => match th_order t with Some o => o | None => order end
  | None => order
  end.

(** 22-42. *)
Definition add_group (s : shop) (name order : pystr) (subs : option (list subrec)) : shop :=
  let k := match subs with None => 0 | Some _ => List.length (sub_boxes s) end in
  mkShop (raw s) (subgroups s) (dset pystr_eqb (groups s) name (mkGr name (Some (order_for s name order)) k))
    (item_boxes s) (match subs with None => sub_boxes s | Some l => sub_boxes s ++ [BList l] end).

(** 45-72. *)
Definition add_subgroup (s : shop) (name group : pystr) (items : option (list thing)) (order : pystr) : shop * option exn :=
  match dget pystr_eqb (groups s) group with
  | None => (s, Some TypeError)
  | Some g =>
      let k := match items with None => 0 | Some _ => List.length (item_boxes s) end in
      let boxes := match items with None => item_boxes s | Some l => item_boxes s ++ [BList l] end in
      let new := mkSr name (Some (order_for s name order)) k in
      let subs := dset pystr_eqb (subgroups s) name new in
      match append (sub_boxes s) (gr_box g) new with
      | Some b => (mkShop (raw s) subs (groups s) boxes b, None)
      | None => (mkShop (raw s) subs (groups s) boxes (sub_boxes s), Some AttributeError)
      end
  end.

(** 75-121. *)
Definition add_item (s : shop) (name : pystr) (stack : Z) (order subgroup : pystr) : shop * option exn :=
  let sub := match dget pystr_eqb (raw s) name with
             | Some t => match th_sub t with Some x => x | None => subgroup end
             | None => subgroup
             end in
  let new := mkTh name (Some stack) (Some (order_for s name order)) (Some sub) in
  match dget pystr_eqb (subgroups s) sub with
  | None => (s, Some TypeError)
  | Some r =>
      let raw' := dset pystr_eqb (raw s) name new in
      match append (item_boxes s) (sr_box r) new with
      | Some b => (mkShop raw' (subgroups s) (groups s) b (sub_boxes s), None)
      | None => (mkShop raw' (subgroups s) (groups s) (item_boxes s) (sub_boxes s), Some AttributeError)
      end
  end.

(** 126-135. *)
Definition get_stack_size (s : shop) (name : pystr) : result (option Z) :=
  match dget pystr_eqb (raw s) name with
  | None => Ok None
  | Some t => match th_stack t with Some n => Ok (Some n) | None => Err KeyError end
  end.

Inductive op :=
| OpGroup (name order : pystr) (subs : option (list subrec))
| OpSub (name group : pystr) (items : option (list thing)) (order : pystr)
| OpItem (name : pystr) (stack : Z) (order subgroup : pystr).
Definition step (s : shop) (o : op) : shop * option exn :=
  match o with
  | OpGroup n o l => (add_group s n o l, None)
  | OpSub n g l o => add_subgroup s n g l o
  | OpItem n k o b => add_item s n k o b
  end.
(** A sequence, exceptions being caught. *)
Definition run (l : list op) (s : shop) : shop := fold_left (fun s o => fst (step s o)) l s.

(** The tables as [get_items] leaves them (items.py 9-13), [stack] telling the sizes. *)
Definition thing_of (stack : pystr -> option Z) (i : item) : thing := mkTh (i_name i) (stack (i_name i)) (i_order i) (i_sub i).
Fixpoint number {A} (k : nat) (l : list A) : list (nat * A) :=
  match l with [] => [] | x :: r => (k, x) :: number (S k) r end.
Definition stocked (stack : pystr -> option Z) (sh : shelf) : shop :=
  let subs := map (fun p => let '(k, (n, (s, _))) := p in (n, mkSr (s_name s) (s_order s) k)) (number 1 (o_subs sh)) in
  mkShop (map (fun p => (fst p, thing_of stack (snd p))) (o_items sh))
    subs
    (map (fun p => let '(k, (n, (g, _))) := p in (n, mkGr (g_name g) (g_order g) k)) (number 1 (o_groups sh)))
    (BList [] :: map (fun p => BDict (map (fun q => (fst q, thing_of stack (snd q))) (snd (snd p)))) (o_subs sh))
    (BList [] :: map (fun p => BDict (flat_map (fun q => match dget pystr_eqb subs (fst q) with Some r => [(fst q, r)] | None => [] end) (snd (snd p)))) (o_groups sh)).
