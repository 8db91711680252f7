(** What comparing and merging entities should do (C64). *)
From Coq Require Import ZArith QArith String List Bool.
From Verif Require Import Common Dict Trim_Model Trim_Proofs Trim_Classes Wires_Model Merge_Model Merge_Classes.
Import ListNotations.
Local Open Scope string_scope.
Local Open Scope list_scope.

(** The fields of a class (Trim_Classes.v; those of ElectricEnergyInterface,
    prototypes/electric_energy_interface.py 30-65, are listed here). *)
Definition interface_fields : list pystr :=
  [str "name"; str "quality"; str "position"; str "entity_number"; str "tags";
   str "buffer_size"; str "power_production"; str "power_usage"].
Definition fields_of (k : pystr) : list pystr :=
  if pystr_eqb k (str "ElectricEnergyInterface") then interface_fields
  else match find (fun c => pystr_eqb k (c_name c)) entity_classes with
       | Some c => map (fun ft => attr (fst ft)) (c_fields c)
       | None => []
       end.
Definition classes : list pystr := map fst bases_table.

(** What identifies an entity; two entities that differ in these are not merged. *)
Definition identifying : list pystr :=
  [str "name"; str "position"; str "entity_number"; str "direction"; str "orientation"].

(** Fields that merging forgets to take over. *)
Definition forgotten_table : list (list pystr * list pystr) :=
  [([str "ArithmeticCombinator"; str "ConstantCombinator"; str "DeciderCombinator"; str "SelectorCombinator"],
    [str "player_description"]);
   ([str "AmmoTurret"; str "ElectricTurret"; str "FluidTurret"], [str "priority_list"; str "ignore_unprioritized"]);
   ([str "ArtilleryTurret"; str "ArtilleryWagon"], [str "artillery_auto_targeting"]);
   ([str "ArtilleryWagon"; str "CargoWagon"; str "FluidWagon"; str "Locomotive"; str "Car"; str "SpiderVehicle"],
    [str "enable_logistics_while_moving"; str "grid"]);
   ([str "Car"; str "SpiderVehicle"],
    [str "trunk_inventory"; str "ammo_inventory"; str "driver_is_main_gunner"; str "selected_gun_index"]);
   ([str "SpiderVehicle"], [str "automatic_targeting_parameters"]);
   ([str "AssemblingMachine"; str "RocketSilo"], [str "recipe_quality"]);
   ([str "AsteroidCollector"], [str "result_inventory"; str "chunk_filter"]);
   ([str "DisplayPanel"], [str "text"; str "icon"; str "always_show"; str "show_in_chart"]);
   ([str "Inserter"], [str "use_filters"; str "spoil_priority"]);
   ([str "Loader"], [str "use_filters"]);
   ([str "Lamp"], [str "color"; str "always_on"]);
   ([str "SimpleEntityWithForce"; str "SimpleEntityWithOwner"], [str "variation"]);
   ([str "SpacePlatformHub"], [str "request_missing_construction_materials"])].
Definition listed (t : list (list pystr * list pystr)) (k f : pystr) : bool :=
  existsb (fun row => mem k (fst row) && mem f (snd row)) t.
Definition forgotten (k f : pystr) : bool :=
  pystr_eqb f (str "quality") || listed forgotten_table k f.
(** Fields that keep the value they had. *)
Definition stays (k f : pystr) : bool := mem f identifying || forgotten k f.

(** Fields that comparing does not look at; the position is compared as the
    global position. *)
Definition overlooked (k f : pystr) : bool :=
  mem f [str "position"; str "entity_number"] || forgotten k f ||
  (pystr_eqb k (str "Inserter") && mem f [str "pickup_position"; str "drop_position"; str "filter_mode"]).

(** An entity of a known class with all its fields, in which no dictionary has
    a key twice. *)
Definition sound (e : ent) : Prop :=
  In (e_class e) classes /\
  (forall f, In f (fields_of (e_class e)) -> exists v, get (e_root e) f = Some v /\ wf v).
(** Classes whose methods look into the control behavior: with which fields. *)
Definition signals (k : pystr) : list pystr :=
  if pystr_eqb k (str "Accumulator") then [str "output_signal"]
  else if pystr_eqb k (str "RailSignal") || pystr_eqb k (str "RailChainSignal")
  then [str "red_output_signal"; str "yellow_output_signal"; str "green_output_signal"]
  else [].
(** Its control behavior is there, and not [None]. *)
Definition controlled (e : ent) : Prop :=
  forall g, In g (signals (e_class e)) ->
    exists c fs ex v, get (e_root e) (str "control_behavior") = Some (VRec c fs ex) /\ get fs g = Some v.

(** Validation lets the values of [o] through unchanged, and [o] holds no
    [None] where the setters would replace it. *)
Definition accepted (check : pystr -> bool -> pystr -> val -> result val) (validates : bool) (o : ent) : Prop :=
  (forall f v, get (e_root o) f = Some v -> check (e_class o) validates f v = Ok v) /\
  (forall c fs ex g v, get (e_root o) (str "control_behavior") = Some (VRec c fs ex) -> get fs g = Some v ->
     check c true g v = Ok v) /\
  get (e_root o) (str "items") <> Some VNone /\
  get (e_root o) (str "link_id") <> Some VNone.

(** Classes that wires can be attached to. *)
Definition wired (k : pystr) : Prop :=
  exists l, get bases_table k = Some l /\
    (In (str "CircuitConnectableMixin") l \/ In (str "PowerConnectableMixin") l).
Definition moved_end (self other : nat) (w : wend) : wend :=
  match w with
  | WRef (Some o) => if Nat.eqb o other then WRef (Some self) else w
  | _ => w
  end.
Definition moved (self other : nat) (w : wire) : wire :=
  let '(a, s, b, t) := w in (moved_end self other a, s, moved_end self other b, t).
(** All ends are associations, as in the wires of blueprints and groups. *)
Definition associated (ws : list wire) : Prop :=
  Forall (fun w => let '(a, _, b, _) := w in (forall n, a <> WInt n) /\ (forall n, b <> WInt n)) ws.
Definition ends (w : wire) : list wend := let '(a, _, b, _) := w in [a; b].

(** Two entities agree on a field. *)
Definition agree (e o : ent) (f : pystr) : Prop :=
  exists v w, get (e_root e) f = Some v /\ get (e_root o) f = Some w /\ py_eq v w = true.
(** Same class, name, global position, ID and direction. *)
Definition same_place (e o : ent) : Prop :=
  e_class e = e_class o /\
  agree e o (str "name") /\
  (fst (e_pos e) == fst (e_pos o))%Q /\ (snd (e_pos e) == snd (e_pos o))%Q /\
  e_id e = e_id o /\
  (forall f, In f [str "direction"; str "orientation"] -> In f (fields_of (e_class e)) -> agree e o f).
(** The value a model gives for a field, its own or an extra one. *)
Inductive gives : val -> pystr -> val -> Prop :=
| gv_own : forall c fs ex g v, get fs g = Some v -> gives (VRec c fs ex) g v
| gv_extra : forall c fs ex g v, get fs g = None -> get ex g = Some v -> gives (VRec c fs ex) g v.
