(** C63: adding groups, subgroups and items to the game's data
    (/repo/draftsman/data/items.py 22-135). *)
From Coq Require Import ZArith List Bool String.
From Verif Require Import Common Dict Shelf_Model Stock_Model Stock_Spec Stock_Proofs.
Import ListNotations.
Local Open Scope string_scope.
Local Open Scope list_scope.

(** Whatever is added to the game's data, no two groups or subgroups share a list
    unless both were made with the default. *)
Theorem C63_sound : forall stack sh l, sound (run l (stocked stack sh)).
Proof. intros stack sh l. exact (sound_run l _ (stocked_sound stack sh)). Qed.
Print Assumptions C63_sound.

(** Adding an item: it goes to the subgroup it already had, else to the one given,
    and nowhere else but into lists shared with that subgroup's.  An unknown
    subgroup changes nothing; one of the game's data fails after the item has
    been registered. *)
Theorem C63_add_item : forall s name stack order subgroup, sound s ->
  let (s', e) := add_item s name stack order subgroup in
  let new := made s name stack order subgroup in
  let sub := kept_or (th_sub new) [] in
  match e with
  | None => items_of s sub <> None /\ ~ closed_sub s sub /\
      (forall n, dget pystr_eqb (raw s') n = if pystr_eqb name n then Some new else dget pystr_eqb (raw s) n) /\
      (forall b, b = sub \/ default_sub s b /\ default_sub s sub -> items_of s' b = option_map (fun l => l ++ [new]) (items_of s b)) /\
      (forall b, b <> sub -> ~ (default_sub s b /\ default_sub s sub) -> items_of s' b = items_of s b) /\
      same_subs s s'
  | Some TypeError => dget pystr_eqb (subgroups s) sub = None /\ s' = s
  | Some AttributeError => closed_sub s sub /\
      (forall n, dget pystr_eqb (raw s') n = if pystr_eqb name n then Some new else dget pystr_eqb (raw s) n) /\
      item_boxes s' = item_boxes s /\ same_subs s s'
  | Some _ => False
  end.
Proof. exact add_item_spec. Qed.
Print Assumptions C63_add_item.

(** Its stack size is the one given, also when the call fails halfway, and all
    other stack sizes stay. *)
Theorem C63_stack_size : forall s name stack order subgroup, sound s ->
  let (s', e) := add_item s name stack order subgroup in
  e <> Some TypeError -> get_stack_size s' name = Ok (Some stack) /\ forall n, n <> name -> get_stack_size s' n = get_stack_size s n.
Proof. exact stack_spec. Qed.
Print Assumptions C63_stack_size.
(** Unknown items have none, and no others. *)
Theorem C63_stack_known : forall s name,
  (forall k, get_stack_size s name = Ok (Some k) <-> exists t, dget pystr_eqb (raw s) name = Some t /\ th_stack t = Some k) /\
  (get_stack_size s name = Ok None <-> dget pystr_eqb (raw s) name = None) /\
  (forall e, get_stack_size s name = Err e -> e = KeyError /\ exists t, dget pystr_eqb (raw s) name = Some t /\ th_stack t = None).
Proof. exact stack_known. Qed.
Print Assumptions C63_stack_known.

(** Adding a subgroup. *)
Theorem C63_add_subgroup : forall s name group items order, sound s ->
  let (s', e) := add_subgroup s name group items order in
  match e with
  | Some TypeError => dget pystr_eqb (groups s) group = None /\ s' = s
  | Some AttributeError => closed_group s group /\ sub_boxes s' = sub_boxes s
  | Some _ => False
  | None => ~ closed_group s group /\ exists r, dget pystr_eqb (subgroups s') name = Some r /\
      (forall g, g = group \/ default_group s g /\ default_group s group -> subs_of s' g = option_map (fun l => l ++ [r]) (subs_of s g)) /\
      (forall g, g <> group -> ~ (default_group s g /\ default_group s group) -> subs_of s' g = subs_of s g)
  end /\
  (e <> Some TypeError -> raw s' = raw s /\ groups s' = groups s /\
     (exists r, dget pystr_eqb (subgroups s') name = Some r /\ sr_name r = name /\ sr_order r = Some (kept_or (obind (dget pystr_eqb (raw s) name) th_order) order)) /\
     items_of s' name = holds s items /\ (default_sub s' name <-> items = None) /\
     (forall n, n <> name -> items_of s' n = items_of s n /\ dget pystr_eqb (subgroups s') n = dget pystr_eqb (subgroups s) n)).
Proof. exact add_subgroup_spec. Qed.
Print Assumptions C63_add_subgroup.

(** Adding a group, which never fails and replaces a group of that name. *)
Theorem C63_add_group : forall s name order subs, sound s ->
  let s' := add_group s name order subs in
  raw s' = raw s /\ subgroups s' = subgroups s /\ item_boxes s' = item_boxes s /\
  subs_of s' name = (match subs with Some l => Some l | None => option_map values (nth_error (sub_boxes s) 0) end) /\
  (exists r, dget pystr_eqb (groups s') name = Some r /\ gr_name r = name /\ gr_order r = Some (kept_or (obind (dget pystr_eqb (raw s) name) th_order) order)) /\
  (default_group s' name <-> subs = None) /\ ~ closed_group s' name /\
  (forall g, g <> name -> subs_of s' g = subs_of s g /\ dget pystr_eqb (groups s') g = dget pystr_eqb (groups s) g).
Proof. exact add_group_spec. Qed.
Print Assumptions C63_add_group.

(** Every item is found in the subgroup it names, and stays there through any
    addition that succeeds and makes no subgroup anew. *)
Theorem C63_shelved : forall s o, sound s -> shelved s -> snd (step s o) = None -> ~ remakes_sub o s -> shelved (fst (step s o)).
Proof. exact shelved_step. Qed.
Print Assumptions C63_shelved.

(** An item can not be moved: whatever subgroup is given, it stays in its own. *)
Theorem C63_stays : forall s name k order b t b0, sound s -> dget pystr_eqb (raw s) name = Some t -> th_sub t = Some b0 ->
  forall t', dget pystr_eqb (raw (fst (add_item s name k order b))) name = Some t' -> th_sub t' = Some b0.
Proof. exact stays. Qed.
Print Assumptions C63_stays.

(** A subgroup of the game's own data takes no new item, whatever was added before
    (unless it was made anew): the call fails, leaves the item registered, and no
    subgroup contains it. *)
Theorem C63_data_subgroup : forall stack sh l b name k order, dget pystr_eqb (subgroups (stocked stack sh)) b <> None ->
  Forall (fun o => ~ renames_sub b o) l ->
  let s := run l (stocked stack sh) in dget pystr_eqb (raw s) name = None ->
  let (s', e) := add_item s name k order b in
  e = Some AttributeError /\ get_stack_size s' name = Ok (Some k) /\ forall b', items_of s' b' = items_of s b'.
Proof. exact data_sub_refuses. Qed.
Print Assumptions C63_data_subgroup.

(** Nor does a group of the game's own data take a new subgroup. *)
Theorem C63_data_group : forall stack sh l g name items order, dget pystr_eqb (groups (stocked stack sh)) g <> None ->
  Forall (fun o => ~ renames_group g o) l ->
  let s := run l (stocked stack sh) in
  let (s', e) := add_subgroup s name g items order in
  e = Some AttributeError /\ items_of s' name = holds s items /\ forall g', subs_of s' g' = subs_of s g'.
Proof. exact data_group_refuses. Qed.
Print Assumptions C63_data_group.

(** Subgroups made without a list of items always show the same items. *)
Theorem C63_shared : forall s n m, default_sub s n -> default_sub s m -> items_of s n = items_of s m.
Proof. exact shared_subs. Qed.
Print Assumptions C63_shared.
Theorem C63_shared_groups : forall s n m, default_group s n -> default_group s m -> subs_of s n = subs_of s m.
Proof. exact shared_groups. Qed.
Print Assumptions C63_shared_groups.

(** So an item put into one of them shows up in the other. *)
Theorem C63_own_items_refuted : exists ops l t,
  items_of (run ops empty) (str "b") = Some l /\ In t l /\ th_sub t = Some (str "a") /\ str "a" <> str "b".
Proof. exists mixed. exact mixed_up. Qed.
Print Assumptions C63_own_items_refuted.

(** An item added again keeps its outdated record in the subgroup. *)
Theorem C63_modify_refuted : exists ops l t t',
  items_of (run ops empty) (str "s") = Some l /\ In t l /\ In t' l /\ th_name t = th_name t' /\ t <> t' /\
  dget pystr_eqb (raw (run ops empty)) (th_name t) = Some t'.
Proof. exists twice. exact stale. Qed.
Print Assumptions C63_modify_refuted.

(** Making a subgroup anew loses the items it had. *)
Theorem C63_anew_refuted : exists ops, shelved (run (removelast ops) empty) /\ ~ shelved (run ops empty).
Proof. exists lost. exact lost_item. Qed.
Print Assumptions C63_anew_refuted.

(** A group with one subgroup taking two items; then an unknown subgroup. *)
Definition ex_ops : list op := [OpGroup (str "g") (str "z") (Some []); OpSub (str "s") (str "g") (Some []) (str "a"); OpItem (str "x") 50 (str "b") (str "s"); OpItem (str "y") 20 (str "a") (str "s")].
Example C63_example :
  option_map (map th_name) (items_of (run ex_ops empty) (str "s")) = Some [str "x"; str "y"] /\
  option_map (map sr_name) (subs_of (run ex_ops empty) (str "g")) = Some [str "s"] /\
  get_stack_size (run ex_ops empty) (str "y") = Ok (Some 20%Z) /\
  snd (add_item (run ex_ops empty) (str "w") 5 [] (str "nowhere")) = Some TypeError.
Proof. repeat split; vm_compute; reflexivity. Qed.
(** The game's data: one group with one subgroup. *)
Definition ex_shelf : shelf := mkShelf [(str "iron", mkI (str "iron") None (Some (str "raw")))]
  [(str "raw", (mkS (str "raw") None (Some (str "g")), [(str "iron", mkI (str "iron") None (Some (str "raw")))]))]
  [(str "g", (mkG (str "g") None, []))].
Example C63_example_data :
  dget pystr_eqb (subgroups (stocked (fun _ => Some 50%Z) ex_shelf)) (str "raw") <> None /\
  snd (add_item (stocked (fun _ => Some 50%Z) ex_shelf) (str "lead") 50 [] (str "raw")) = Some AttributeError.
Proof. split; [discriminate|vm_compute; reflexivity]. Qed.
