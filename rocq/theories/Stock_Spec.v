(** What adding groups, subgroups and items should do. *)
From Coq Require Import ZArith List Bool String.
From Verif Require Import Common Dict Shelf_Model Stock_Model.
Import ListNotations.
Local Open Scope string_scope.
Local Open Scope list_scope.

(** What is in a group and in a subgroup. *)
Definition values {A} (b : box A) : list A := match b with BList l => l | BDict d => map snd d end.
Definition subs_of (s : shop) (g : pystr) : option (list subrec) :=
  obind (dget pystr_eqb (groups s) g) (fun r => option_map values (nth_error (sub_boxes s) (gr_box r))).
Definition items_of (s : shop) (n : pystr) : option (list thing) :=
  obind (dget pystr_eqb (subgroups s) n) (fun r => option_map values (nth_error (item_boxes s) (sr_box r))).
(** Those kept in an ordered dictionary. *)
Definition closed_group (s : shop) (g : pystr) : Prop :=
  exists r d, dget pystr_eqb (groups s) g = Some r /\ nth_error (sub_boxes s) (gr_box r) = Some (BDict d).
Definition closed_sub (s : shop) (n : pystr) : Prop :=
  exists r d, dget pystr_eqb (subgroups s) n = Some r /\ nth_error (item_boxes s) (sr_box r) = Some (BDict d).
(** Made with the default list. *)
Definition default_group (s : shop) (g : pystr) : Prop := exists r, dget pystr_eqb (groups s) g = Some r /\ gr_box r = 0.
Definition default_sub (s : shop) (n : pystr) : Prop := exists r, dget pystr_eqb (subgroups s) n = Some r /\ sr_box r = 0.
(** Containers exist and are shared only by way of the default. *)
Definition sound (s : shop) : Prop :=
  (forall g r, dget pystr_eqb (groups s) g = Some r -> gr_box r < List.length (sub_boxes s)) /\
  (forall g h r q, dget pystr_eqb (groups s) g = Some r -> dget pystr_eqb (groups s) h = Some q -> gr_box r = gr_box q -> g = h \/ gr_box r = 0) /\
  (forall n r, dget pystr_eqb (subgroups s) n = Some r -> sr_box r < List.length (item_boxes s)) /\
  (forall n m r q, dget pystr_eqb (subgroups s) n = Some r -> dget pystr_eqb (subgroups s) m = Some q -> sr_box r = sr_box q -> n = m \/ sr_box r = 0) /\
  (exists l, nth_error (item_boxes s) 0 = Some (BList l)) /\ (exists l, nth_error (sub_boxes s) 0 = Some (BList l)).
(** Every item is found in the subgroup it names. *)
Definition shelved (s : shop) : Prop :=
  forall n t, dget pystr_eqb (raw s) n = Some t -> exists b l, th_sub t = Some b /\ items_of s b = Some l /\ In t l.
(** The item [add_item] makes: the order and subgroup it had stay. *)
Definition kept_or {A} (o : option A) (d : A) : A := match o with Some x => x | None => d end.
Definition made (s : shop) (name : pystr) (stack : Z) (order subgroup : pystr) : thing :=
  let old := dget pystr_eqb (raw s) name in
  mkTh name (Some stack) (Some (kept_or (obind old th_order) order)) (Some (kept_or (obind old th_sub) subgroup)).
(** Nothing but the items has changed. *)
Definition same_subs (s s' : shop) : Prop := subgroups s' = subgroups s /\ groups s' = groups s /\ sub_boxes s' = sub_boxes s.
(** What a new subgroup holds: the list given, or whatever the default list holds by now. *)
Definition holds (s : shop) (items : option (list thing)) : option (list thing) :=
  match items with Some l => Some l | None => option_map values (nth_error (item_boxes s) 0) end.
(** The operation makes that subgroup, that group anew. *)
Definition renames_sub (n : pystr) (o : op) : Prop := match o with OpSub m _ _ _ => m = n | _ => False end.
Definition renames_group (n : pystr) (o : op) : Prop := match o with OpGroup m _ _ => m = n | _ => False end.
(** The operation makes anew a subgroup there is. *)
Definition remakes_sub (o : op) (s : shop) : Prop :=
  match o with OpSub n _ _ _ => dget pystr_eqb (subgroups s) n <> None | _ => False end.
(** Nothing at all, and some sequences. *)
Definition empty : shop := mkShop [] [] [] [BList []] [BList []].
Definition twice : list op := [OpGroup (str "g") [] (Some []); OpSub (str "s") (str "g") (Some []) []; OpItem (str "x") 50 [] (str "s"); OpItem (str "x") 100 [] (str "s")].
Definition mixed : list op := [OpGroup (str "g") [] None; OpSub (str "a") (str "g") None []; OpSub (str "b") (str "g") None []; OpItem (str "x") 50 [] (str "a")].
Definition lost : list op := [OpGroup (str "g") [] (Some []); OpSub (str "s") (str "g") (Some []) []; OpItem (str "x") 50 [] (str "s"); OpSub (str "s") (str "g") (Some []) []].
