(** Theorems for C88. *)
From Coq Require Import Reals ZArith QArith String List Bool.
From Verif Require Import Common Dict Assign_Model Slots_Model Request_Model Geometry_Model Geometry_Spec
  Capacity_Model Capacity_Spec Capacity_Proofs Capacity_More_Proofs.
Import ListNotations.
Local Open Scope Z_scope.

(** The numbers in the code are the doubles closest to the tenths, and what is
    computed with them is what would be computed exactly. *)
Theorem C88_multipliers : forall q t, improves q t -> exists k, dget pystr_eqb multipliers q = Some k /\ closest k t /\
  forall n, 0 <= n < 2 ^ 40 -> floor (times (float_of n) k) = n * t / 10.
Proof. exact multiplied. Qed.
Print Assumptions C88_multipliers.

(** Rounding is to the nearest, and to the even one of two. *)
Theorem C88_rounding : forall m k, 0 < k -> 2 * Z.abs (shift_even m k * 2 ^ k - m) <= 2 ^ k /\
  (2 * Z.abs (shift_even m k * 2 ^ k - m) = 2 ^ k -> Z.Even (shift_even m k)).
Proof. exact nearest. Qed.
Print Assumptions C88_rounding.

Theorem C88_size : forall D name n q t, sized D name n true -> 0 <= n < 2 ^ 40 -> improves q t ->
  inventory_size D name (Some q) = Ok (Some (n * t / 10)).
Proof. exact size_exact. Qed.
Print Assumptions C88_size.
Theorem C88_size_fixed : forall D name n q, sized D name n false -> inventory_size D name q = Ok (Some n).
Proof. exact size_fixed. Qed.
Print Assumptions C88_size_fixed.
Theorem C88_size_none : forall D name q, unsized D name -> inventory_size D name q = Ok None.
Proof. exact size_none. Qed.
Print Assumptions C88_size_none.
Theorem C88_size_grows : forall D name n q q' t t', sized D name n true -> 0 <= n < 2 ^ 40 -> improves q t -> improves q' t' ->
  t < t' -> exists a b, inventory_size D name (Some q) = Ok (Some a) /\ inventory_size D name (Some q') = Ok (Some b) /\
  a <= b /\ (4 <= n -> a < b).
Proof. exact size_grows. Qed.
Print Assumptions C88_size_grows.
(** "Every entity has a size or none": not if its quality is none of the five. *)
Theorem C88_size_refuted : forall D name n q, sized D name n true -> (forall s t, q = Some s -> ~ improves s t) ->
  inventory_size D name q = Err KeyError.
Proof. exact size_raises. Qed.
Print Assumptions C88_size_refuted.
Theorem C88_wagon : forall D name,
  (forall n, wagon_size D name = Ok (Some n) <-> exists p, dget pystr_eqb D name = Some p /\ p_size p = Some n) /\
  (wagon_size D name = Ok None <-> dget pystr_eqb D name = None) /\
  (wagon_size D name = Err KeyError <-> exists p, dget pystr_eqb D name = Some p /\ p_size p = None).
Proof. exact wagon. Qed.
Print Assumptions C88_wagon.

(** What prototypes do not say. *)
Theorem C88_defaults : forall D name,
  (dget pystr_eqb D name = None -> bar_enabled D name = None /\ total_module_slots D name = None) /\
  forall p, dget pystr_eqb D name = Some p ->
    (forall b, bar_enabled D name = Some b <-> p_bar p = Some b \/ (p_bar p = None /\ b = true)) /\
    (forall n, total_module_slots D name = Some n <-> p_modules p = Some n \/ (p_modules p = None /\ n = 0)).
Proof. exact defaults. Qed.
Print Assumptions C88_defaults.

(** What is not given is normal quality, the first inventory, and no slot. *)
Theorem C88_arguments : forall strict st i c q v s c' q' v' s',
  given_or c None c' -> given_or q (str "normal") q' -> given_or v 0 v' -> given_or s None s' ->
  plain_request strict st (mkArgs i c q v s) = set_item_request strict st i c' q' v' s'.
Proof. exact arguments. Qed.
Print Assumptions C88_arguments.
(** "An accepted request raises nothing": every request to a container but an
    infinity container raises; what could be stored is stored all the same. *)
Theorem C88_chest_refuted : forall D stacks is_module c strict name q st a, chest c ->
  snd (snd (request D stacks is_module c strict name q st a)) <> None.
Proof. exact chest_raises. Qed.
Print Assumptions C88_chest_refuted.
Theorem C88_chest : forall D stacks is_module c strict name q st a st', chest c -> item_and_count a ->
  plain_request strict st a = (st', Ok tt) ->
  request D stacks is_module c strict name q st a = (st', ([], Some AttributeError)).
Proof. exact chest_stored. Qed.
Print Assumptions C88_chest.
(** "Quality, inventory and slot can be given". *)
Theorem C88_arguments_refuted : forall D stacks is_module c strict name q st a, c <> InfinityContainer -> ~ item_and_count a ->
  request D stacks is_module c strict name q st a = (st, ([], Some TypeError)).
Proof. exact others_refused. Qed.
Print Assumptions C88_arguments_refuted.
Theorem C88_refused : forall D stacks is_module c strict name q st a st' e, item_and_count a \/ c = InfinityContainer ->
  plain_request strict st a = (st', Err e) -> request D stacks is_module c strict name q st a = (st, ([], Some e)).
Proof. exact not_stored. Qed.
Print Assumptions C88_refused.
Theorem C88_infinity : forall D stacks is_module strict name q st a st', plain_request strict st a = (st', Ok tt) ->
  request D stacks is_module InfinityContainer strict name q st a = (st', ([], None)).
Proof. exact infinity. Qed.
Print Assumptions C88_infinity.
(** Labs say so if an item is neither a module nor one of their inputs. *)
Theorem C88_lab : forall D stacks is_module strict name q st a st', item_and_count a -> plain_request strict st a = (st', Ok tt) ->
  exists w e, request D stacks is_module Lab strict name q st a = (st', (w, e)) /\ lab_says D is_module name (a_item a) w e.
Proof. exact lab. Qed.
Print Assumptions C88_lab.
(** "What is requested is counted": not a single request is. *)
Theorem C88_counted_refuted : forall stacks is_module l, module_items is_module (Requests l) = Err AttributeError /\
  slots_occupied stacks (Requests l) = Err AttributeError /\
  (l <> [] -> module_slots_occupied is_module (Requests l) = Err TypeError).
Proof. exact no_modules. Qed.
Print Assumptions C88_counted_refuted.
(** In a dictionary of counts modules are found, but not counted: its keys are taken
    for pairs. *)
Theorem C88_module_counts : forall is_module d,
  ((exists k n, In (k, n) d /\ List.length k <> 2%nat) -> module_slots_occupied is_module (Counts d) = Err ValueError) /\
  ((forall k n, In (k, n) d -> List.length k = 2%nat) ->
     ((exists x y n, In ([x; y], n) d /\ is_module [x] = true) -> module_slots_occupied is_module (Counts d) = Err TypeError) /\
     ((forall x y n, In ([x; y], n) d -> is_module [x] = false) -> module_slots_occupied is_module (Counts d) = Ok 0)) /\
  module_items is_module (Counts d) = Ok (filter (fun kv => is_module (fst kv)) d).
Proof. exact module_counts. Qed.
Print Assumptions C88_module_counts.
(** A dictionary of counts, as of old, would be. *)
Theorem C88_counted : forall stacks d, exists ks, Forall2 (stacks_for stacks) d ks /\
  slots_occupied stacks (Counts d) = Ok (total ks).
Proof. exact counted. Qed.
Print Assumptions C88_counted.

(** A blueprint is too large if two of its boxes reach more than 10000 tiles. *)
Theorem C88_unreasonable : forall m es ts, (forall b, part es ts b -> ordered b) ->
  (check_size m (blueprint_dimensions es ts) = Some UnreasonablySizedBlueprintError <->
   careful m /\ exists a b, part es ts a /\ part es ts b /\ apart 10000 a b) /\
  (check_size m (blueprint_dimensions es ts) <> Some UnreasonablySizedBlueprintError ->
   check_size m (blueprint_dimensions es ts) = None).
Proof. exact unreasonable. Qed.
Print Assumptions C88_unreasonable.
Theorem C88_index : forall m dims old v,
  (set_index m dims old v = (old, Some DataFormatError) /\ m <> MNone /\ exists z, v = Some z /\ ~ 0 <= z < 65536) \/
  (fst (set_index m dims old v) = v /\ snd (set_index m dims old v) = check_size m dims).
Proof. exact index_set. Qed.
Print Assumptions C88_index.
(** "An assignment that raises changes nothing": the index of a blueprint that is
    too large is changed. *)
Theorem C88_index_refuted : forall m w h old z, careful m -> 10000 < w \/ 10000 < h -> 0 <= z < 65536 ->
  set_index m (w, h) old (Some z) = (Some z, Some UnreasonablySizedBlueprintError).
Proof. exact index_stays. Qed.
Print Assumptions C88_index_refuted.

(** Rails at odd places are told where they will be: on the grid of two tiles, up
    and to the left. *)
Theorem C88_grid : forall m x y,
  (check_grid m x y = Some (aligned x, aligned y) <->
   careful m /\ ((exists k, x == inject_Z (2 * k + 1))%Q \/ (exists k, y == inject_Z (2 * k + 1))%Q)) /\
  (check_grid m x y = None \/ check_grid m x y = Some (aligned x, aligned y)).
Proof. exact grid_said. Qed.
Print Assumptions C88_grid.
Theorem C88_aligned : forall q, exists k, aligned q = 2 * k /\ (inject_Z (aligned q) <= q /\ q < inject_Z (aligned q + 2))%Q.
Proof. exact aligned_spec. Qed.
Print Assumptions C88_aligned.
Theorem C88_grid_whole : forall m a b, careful m -> (check_grid m (inject_Z a) (inject_Z b) = None <->
  aligned (inject_Z a) = a /\ aligned (inject_Z b) = b).
Proof. exact grid_whole. Qed.
Print Assumptions C88_grid_whole.
(** "Whoever is moved is told": not between tiles. *)
Theorem C88_grid_refuted : forall m, careful m -> check_grid m (1 # 2) 0 = None /\ ~ (inject_Z (aligned (1 # 2)) == 1 # 2)%Q.
Proof. exact grid_half. Qed.
Print Assumptions C88_grid_refuted.

(** ** Examples *)
Definition data : protos :=
  [(str "steel-chest", mkProto (Some 48) None None None None); (str "lab", mkProto None None None (Some [str "science"]) (Some 2));
   (str "wagon", mkProto (Some 40) (Some false) None None None)].
Example ex_sizes : map (fun q => inventory_size data (str "steel-chest") (Some (str q)))
    ["normal"; "uncommon"; "rare"; "epic"; "legendary"; "mythic"]%string =
  [Ok (Some 48); Ok (Some 62); Ok (Some 76); Ok (Some 91); Ok (Some 120); Err KeyError] /\
  inventory_size data (str "wagon") (Some (str "epic")) = Ok (Some 40) /\ inventory_size data (str "lab") None = Ok None /\
  wagon_size data (str "lab") = Err KeyError.
Proof. vm_compute. repeat split. Qed.
(** 70 * 1.9 is 133 although the double for 1.9 is less than 1.9. *)
Example ex_rounding : floor (times (float_of 70) (8556839292003942, -52)) = 133 /\ 70 * 8556839292003942 / 2 ^ 52 = 132.
Proof. vm_compute. split; reflexivity. Qed.
Definition stack (i : pystr) : option positive := if pystr_eqb i (str "plate") then Some 100%positive else None.
Definition no_module (i : pystr) : bool := pystr_eqb i (str "speed").
Definition plates : args := mkArgs (str "plate") (Some (Some 250)) None None None.
Example ex_requests :
  (let '(st, (w, e)) := request data stack no_module Container true (str "steel-chest") (Some (str "normal")) [] plates in
   map r_name st = [Some (str "plate")] /\ w = [] /\ e = Some AttributeError) /\
  snd (request data stack no_module Lab true (str "lab") None [] plates) = ([NotPlaceable (str "plate")], None) /\
  snd (request data stack no_module Lab true (str "oven") None [] plates) = ([], Some TypeError) /\
  snd (request data stack no_module InfinityContainer true (str "x") None [] plates) = ([], None) /\
  slots_occupied stack (Counts [(str "plate", 250); (str "unknown", 3); (str "plate2", 1)]) = Ok 3.
Proof. vm_compute. repeat split. Qed.
Example ex_limits : check_size MStrict (10000, 10001) = Some UnreasonablySizedBlueprintError /\ check_size MStrict (10000, 1) = None /\
  check_size MMinimum (20000, 1) = None /\ set_index MStrict (1, 1) (Some 3) (Some 70000) = (Some 3, Some DataFormatError) /\
  check_grid MStrict (inject_Z (-3)) (inject_Z 4) = Some (-4, 4).
Proof. vm_compute. repeat split. Qed.
