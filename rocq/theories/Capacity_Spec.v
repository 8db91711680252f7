(** What the limits are meant to be. *)
From Coq Require Import Reals ZArith QArith String List Bool.
From Verif Require Import Common Dict Assign_Model Request_Model Geometry_Model Geometry_Spec Capacity_Model.
Import ListNotations.
Local Open Scope Z_scope.

(** By how many tenths a quality multiplies. *)
Inductive improves : pystr -> Z -> Prop :=
| normal : improves (str "normal") 10
| uncommon : improves (str "uncommon") 13
| rare : improves (str "rare") 16
| epic : improves (str "epic") 19
| legendary : improves (str "legendary") 25.

(** No double is closer to [t / 10] than [m * 2 ^ e]: it is that number, or it has
    53 bits and is at most half a unit of the last one away. *)
Definition closest (x : float) (t : Z) : Prop :=
  let '(m, e) := x in e <= 0 /\
  (10 * m = t * 2 ^ (- e) \/ (2 ^ 52 <= m < 2 ^ 53 /\ 2 * Z.abs (10 * m - t * 2 ^ (- e)) <= 10)).

(** A prototype with a size, changed by quality or not. *)
Definition sized (D : protos) (name : pystr) (n : Z) (changes : bool) : Prop :=
  exists p, dget pystr_eqb D name = Some p /\ p_size p = Some n /\ (p_affects p = Some false <-> changes = false).
Definition unsized (D : protos) (name : pystr) : Prop :=
  forall p, dget pystr_eqb D name = Some p -> p_size p = None.

(** Which method a class has. *)
Definition chest (c : class) : Prop := c <> InfinityContainer /\ c <> Lab.
Definition item_and_count (a : args) : Prop :=
  (exists n, a_count a = Some n) /\ a_quality a = None /\ a_inventory a = None /\ a_slot a = None.
(** What a lab says about an item. *)
Inductive lab_says (D : protos) (is_module : pystr -> bool) (name item : pystr) : list warning -> option exn -> Prop :=
| says_module : is_module item = true -> lab_says D is_module name item [] None
| says_input p l : is_module item = false -> dget pystr_eqb D name = Some p -> p_inputs p = Some l -> In item l ->
    lab_says D is_module name item [] None
| says_no_input p l : is_module item = false -> dget pystr_eqb D name = Some p -> p_inputs p = Some l -> ~ In item l ->
    lab_says D is_module name item [NotPlaceable item] None
| says_no_inputs p : is_module item = false -> dget pystr_eqb D name = Some p -> p_inputs p = None ->
    lab_says D is_module name item [] (Some KeyError)
| says_unknown : is_module item = false -> dget pystr_eqb D name = None ->
    lab_says D is_module name item [] (Some TypeError).

(** [k] is the least number of stacks of [s] that hold [c]. *)
Definition stacks_for (stacks : pystr -> option positive) (kv : pystr * Z) (k : Z) : Prop :=
  match stacks (fst kv) with
  | Some s => (k - 1) * Zpos s < snd kv <= k * Zpos s
  | None => k = 0
  end.
Definition total (l : list Z) : Z := fold_right Z.add 0 l.

Definition careful (m : mode) : Prop := m = MStrict \/ m = MPedantic.
(** The boxes of a blueprint. *)
Definition part (es : list member) (ts : list (option aabb)) (b : aabb) : Prop :=
  (exists m, In m es /\ leaf_of b m) \/ In (Some b) ts.
Local Open Scope R_scope.
(** The far sides of two boxes are more than [d] apart. *)
Definition apart (d : R) (a b : aabb) : Prop :=
  fst (world_br b) - fst (world_tl a) > d \/ snd (world_br b) - snd (world_tl a) > d.
(** An argument, or its default if it is not given. *)
Definition given_or {A} (o : option A) (a x : A) : Prop := o = Some x \/ (o = None /\ x = a).
