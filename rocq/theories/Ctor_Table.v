(** Data of [Ctor_Model]: the initialisers of entities and their mixins.

    Every row names the file and the lines. Written by a program that parses the
    sources; statements that concern collision sets, sets of valid fuels and
    ingredients, and the notes of speakers are left out. *)
From Coq Require Import String List.
From Verif Require Import Ctor_Model.
Import ListNotations.
Local Open Scope string_scope.
Local Open Scope list_scope.

Definition inits : list (string * init) := [
  ("Accumulator", (* prototypes/accumulator.py 41-69 *)
    {| i_params := [("name", true); ("position", true); ("tile_position", true); ("control_behavior", true); ("tags", true); ("validate_assignment", true)];
       i_call := [("name", (Param "name")); ("similar_entities", (Const DNames)); ("position", (Param "position")); ("tile_position", (Param "tile_position")); ("control_behavior", (Param "control_behavior")); ("tags", (Param "tags"))];
       i_post := [Mode (Param "validate_assignment")] |});
  ("AgriculturalTower", (* prototypes/agricultural_tower.py 56-84 *)
    {| i_params := [("name", true); ("position", true); ("tile_position", true); ("direction", true); ("override_stack_size", true); ("control_behavior", true); ("items", true); ("tags", true); ("validate_assignment", true)];
       i_call := [("name", (Param "name")); ("similar_entities", (Const DNames)); ("position", (Param "position")); ("tile_position", (Param "tile_position")); ("direction", (Param "direction")); ("override_stack_size", (Param "override_stack_size")); ("control_behavior", (Param "control_behavior")); ("items", (Param "items")); ("tags", (Param "tags"))];
       i_post := [Mode (Param "validate_assignment")] |});
  ("AmmoTurret", (* prototypes/ammo_turret.py 69-99 *)
    {| i_params := [("name", true); ("position", true); ("tile_position", true); ("direction", true); ("items", true); ("tags", true); ("validate_assignment", true)];
       i_call := [("name", (Param "name")); ("similar_entities", (Const DNames)); ("position", (Param "position")); ("tile_position", (Param "tile_position")); ("direction", (Param "direction")); ("items", (Param "items")); ("tags", (Param "tags"))];
       i_post := [Mode (Param "validate_assignment")] |});
  ("ArithmeticCombinator", (* prototypes/arithmetic_combinator.py 222-254 *)
    {| i_params := [("name", true); ("position", true); ("tile_position", true); ("direction", true); ("player_description", true); ("control_behavior", true); ("tags", true); ("validate_assignment", true)];
       i_call := [("name", (Param "name")); ("similar_entities", (Const DNames)); ("position", (Param "position")); ("tile_position", (Param "tile_position")); ("direction", (Param "direction")); ("player_description", (Param "player_description")); ("control_behavior", (Param "control_behavior")); ("tags", (Param "tags"))];
       i_post := [Mode (Param "validate_assignment")] |});
  ("ArtilleryAutoTargetMixin", (* classes/mixins/artillery_auto_target.py 24-27 *)
    {| i_params := [("name", false); ("similar_entities", false)];
       i_call := [("name", (Param "name")); ("similar_entities", (Param "similar_entities"))];
       i_post := [Attribute "auto_target" (Kw "artillery_auto_targeting" DNone)] |});
  ("ArtilleryTurret", (* prototypes/artillery_turret.py 71-98 *)
    {| i_params := [("name", true); ("position", true); ("tile_position", true); ("direction", true); ("artillery_auto_targeting", true); ("control_behavior", true); ("tags", true); ("validate_assignment", true)];
       i_call := [("name", (Param "name")); ("similar_entities", (Const DNames)); ("position", (Param "position")); ("tile_position", (Param "tile_position")); ("direction", (Param "direction")); ("artillery_auto_targeting", (Param "artillery_auto_targeting")); ("control_behavior", (Param "control_behavior")); ("tags", (Param "tags"))];
       i_post := [Mode (Param "validate_assignment")] |});
  ("ArtilleryWagon", (* prototypes/artillery_wagon.py 41-75 *)
    {| i_params := [("name", true); ("position", true); ("tile_position", true); ("orientation", true); ("enable_logistics_while_moving", true); ("grid", true); ("artillery_auto_targeting", true); ("items", true); ("tags", true); ("validate_assignment", true)];
       i_call := [("name", (Param "name")); ("similar_entities", (Const DNames)); ("position", (Param "position")); ("tile_position", (Param "tile_position")); ("orientation", (Param "orientation")); ("enable_logistics_while_moving", (Param "enable_logistics_while_moving")); ("grid", (Param "grid")); ("artillery_auto_targeting", (Param "artillery_auto_targeting")); ("items", (Param "items")); ("tags", (Param "tags"))];
       i_post := [Mode (Param "validate_assignment")] |});
  ("AssemblingMachine", (* prototypes/assembling_machine.py 86-116 *)
    {| i_params := [("name", true); ("position", true); ("tile_position", true); ("direction", true); ("recipe", true); ("items", true); ("tags", true); ("validate_assignment", true)];
       i_call := [("name", (Param "name")); ("similar_entities", (Const DNames)); ("position", (Param "position")); ("tile_position", (Param "tile_position")); ("direction", (Param "direction")); ("recipe", (Param "recipe")); ("items", (Param "items")); ("tags", (Param "tags"))];
       i_post := [Mode (Param "validate_assignment")] |});
  ("AsteroidCollector", (* prototypes/asteroid_collector.py 95-131 *)
    {| i_params := [("name", true); ("position", true); ("tile_position", true); ("direction", true); ("result_inventory", true); ("chunk_filter", true); ("control_behavior", true); ("tags", true); ("validate_assignment", true)];
       i_call := [("name", (Param "name")); ("similar_entities", (Const DNames)); ("position", (Param "position")); ("tile_position", (Param "tile_position")); ("direction", (Param "direction")); ("control_behavior", (Param "control_behavior")); ("tags", (Param "tags"))];
       i_post := [Mode (Param "validate_assignment"); Attribute "chunk_filter" (Param "chunk_filter")] |});
  ("Beacon", (* prototypes/beacon.py 32-58 *)
    {| i_params := [("name", true); ("position", true); ("tile_position", true); ("items", true); ("tags", true); ("validate_assignment", true)];
       i_call := [("name", (Param "name")); ("similar_entities", (Const DNames)); ("position", (Param "position")); ("tile_position", (Param "tile_position")); ("items", (Param "items")); ("tags", (Param "tags"))];
       i_post := [Mode (Param "validate_assignment")] |});
  ("Boiler", (* prototypes/boiler.py 26-54 *)
    {| i_params := [("name", true); ("position", true); ("tile_position", true); ("direction", true); ("items", true); ("tags", true); ("validate_assignment", true)];
       i_call := [("name", (Param "name")); ("similar_entities", (Const DNames)); ("position", (Param "position")); ("tile_position", (Param "tile_position")); ("direction", (Param "direction")); ("items", (Param "items")); ("tags", (Param "tags"))];
       i_post := [Mode (Param "validate_assignment")] |});
  ("BurnerEnergySourceMixin", (* classes/mixins/burner_energy_source.py 102-129 *)
    {| i_params := [("name", false); ("similar_entities", false)];
       i_call := [("name", (Param "name")); ("similar_entities", (Param "similar_entities"))];
       i_post := [] |});
  ("BurnerGenerator", (* prototypes/burner_generator.py 69-97 *)
    {| i_params := [("name", true); ("position", true); ("tile_position", true); ("direction", true); ("items", true); ("tags", true); ("validate_assignment", true)];
       i_call := [("name", (Param "name")); ("similar_entities", (Const DNames)); ("position", (Param "position")); ("tile_position", (Param "tile_position")); ("direction", (Param "direction")); ("items", (Param "items")); ("tags", (Param "tags"))];
       i_post := [Mode (Param "validate_assignment")] |});
  ("Car", (* prototypes/car.py 38-77 *)
    {| i_params := [("name", true); ("position", true); ("tile_position", true); ("orientation", true); ("enable_logistics_while_moving", true); ("grid", true); ("trunk_inventory", true); ("ammo_inventory", true); ("driver_is_main_gunner", true); ("selected_gun_index", true); ("items", true); ("tags", true); ("validate_assignment", true)];
       i_call := [("name", (Param "name")); ("similar_entities", (Const DNames)); ("position", (Param "position")); ("tile_position", (Param "tile_position")); ("orientation", (Param "orientation")); ("enable_logistics_while_moving", (Param "enable_logistics_while_moving")); ("grid", (Param "grid")); ("trunk_inventory", (Param "trunk_inventory")); ("ammo_inventory", (Param "ammo_inventory")); ("driver_is_main_gunner", (Param "driver_is_main_gunner")); ("selected_gun_index", (Param "selected_gun_index")); ("items", (Param "items")); ("tags", (Param "tags"))];
       i_post := [Mode (Param "validate_assignment")] |});
  ("CargoBay", (* prototypes/cargo_bay.py 28-52 *)
    {| i_params := [("name", true); ("position", true); ("tile_position", true); ("tags", true); ("validate_assignment", true)];
       i_call := [("name", (Param "name")); ("similar_entities", (Const DNames)); ("position", (Param "position")); ("tile_position", (Param "tile_position")); ("tags", (Param "tags"))];
       i_post := [Mode (Param "validate_assignment")] |});
  ("CargoLandingPad", (* prototypes/cargo_landing_pad.py 48-74 *)
    {| i_params := [("name", true); ("position", true); ("tile_position", true); ("control_behavior", true); ("tags", true); ("validate_assignment", true)];
       i_call := [("name", (Param "name")); ("similar_entities", (Const DNames)); ("position", (Param "position")); ("tile_position", (Param "tile_position")); ("control_behavior", (Param "control_behavior")); ("tags", (Param "tags"))];
       i_post := [Mode (Param "validate_assignment")] |});
  ("CargoWagon", (* prototypes/cargo_wagon.py 41-71 *)
    {| i_params := [("name", true); ("position", true); ("tile_position", true); ("orientation", true); ("enable_logistics_while_moving", true); ("grid", true); ("items", true); ("inventory", true); ("tags", true); ("validate_assignment", true)];
       i_call := [("name", (Param "name")); ("similar_entities", (Const DNames)); ("position", (Param "position")); ("tile_position", (Param "tile_position")); ("orientation", (Param "orientation")); ("enable_logistics_while_moving", (Param "enable_logistics_while_moving")); ("grid", (Param "grid")); ("items", (Param "items")); ("inventory", (Param "inventory")); ("tags", (Param "tags"))];
       i_post := [Mode (Param "validate_assignment")] |});
  ("ColorMixin", (* classes/mixins/color.py 34-39 *)
    {| i_params := [("name", false); ("similar_entities", false)];
       i_call := [("name", (Param "name")); ("similar_entities", (Param "similar_entities"))];
       i_post := [Attribute "color" (Kw "color" DNone)] |});
  ("ConstantCombinator", (* prototypes/constant_combinator.py 100-135 *)
    {| i_params := [("name", true); ("position", true); ("tile_position", true); ("direction", true); ("player_description", true); ("connections", true); ("control_behavior", true); ("tags", true); ("validate_assignment", true)];
       i_call := [("name", (Param "name")); ("similar_entities", (Const DNames)); ("position", (Param "position")); ("tile_position", (Param "tile_position")); ("direction", (Param "direction")); ("player_description", (Param "player_description")); ("connections", (Else "connections" DDict)); ("control_behavior", (Else "control_behavior" DDict)); ("tags", (Else "tags" DDict))];
       i_post := [Mode (Param "validate_assignment")] |});
  ("Container", (* prototypes/container.py 33-61 *)
    {| i_params := [("name", true); ("position", true); ("tile_position", true); ("bar", true); ("items", true); ("tags", true); ("validate_assignment", true)];
       i_call := [("name", (Param "name")); ("similar_entities", (Const DNames)); ("position", (Param "position")); ("tile_position", (Param "tile_position")); ("bar", (Param "bar")); ("items", (Param "items")); ("tags", (Param "tags"))];
       i_post := [Mode (Param "validate_assignment")] |});
  ("ControlBehaviorMixin", (* classes/mixins/control_behavior.py 55-58 *)
    {| i_params := [("name", false); ("similar_entities", false)];
       i_call := [("name", (Param "name")); ("similar_entities", (Param "similar_entities"))];
       i_post := [] |});
  ("CurvedRailA", (* prototypes/curved_rail_a.py 25-51 *)
    {| i_params := [("name", true); ("position", true); ("tile_position", true); ("direction", true); ("tags", true); ("validate_assignment", true)];
       i_call := [("name", (Param "name")); ("similar_entities", (Const DNames)); ("position", (Param "position")); ("tile_position", (Param "tile_position")); ("direction", (Param "direction")); ("tags", (Param "tags"))];
       i_post := [Mode (Param "validate_assignment")] |});
  ("CurvedRailB", (* prototypes/curved_rail_b.py 25-51 *)
    {| i_params := [("name", true); ("position", true); ("tile_position", true); ("direction", true); ("tags", true); ("validate_assignment", true)];
       i_call := [("name", (Param "name")); ("similar_entities", (Const DNames)); ("position", (Param "position")); ("tile_position", (Param "tile_position")); ("direction", (Param "direction")); ("tags", (Param "tags"))];
       i_post := [Mode (Param "validate_assignment")] |});
  ("DeciderCombinator", (* prototypes/decider_combinator.py 466-498 *)
    {| i_params := [("name", true); ("position", true); ("tile_position", true); ("direction", true); ("player_description", true); ("control_behavior", true); ("tags", true); ("validate_assignment", true)];
       i_call := [("name", (Param "name")); ("similar_entities", (Const DNames)); ("position", (Param "position")); ("tile_position", (Param "tile_position")); ("direction", (Param "direction")); ("player_description", (Param "player_description")); ("control_behavior", (Else "control_behavior" DDict)); ("tags", (Param "tags"))];
       i_post := [Mode (Param "validate_assignment")] |});
  ("DirectionalMixin", (* classes/mixins/directional.py 75-136 *)
    {| i_params := [("name", false); ("similar_entities", false); ("tile_position", true)];
       i_call := [("name", (Param "name")); ("similar_entities", (Param "similar_entities"))];
       i_post := [Custom "direction" (Kw "direction" DNorth); Place] |});
  ("DisplayPanel", (* prototypes/display_panel.py 66-103 *)
    {| i_params := [("name", true); ("position", true); ("tile_position", true); ("direction", true); ("text", true); ("icon", true); ("always_show", true); ("show_in_chart", true); ("control_behavior", true); ("tags", true); ("validate_assignment", true)];
       i_call := [("name", (Param "name")); ("similar_entities", (Const DNames)); ("position", (Param "position")); ("tile_position", (Param "tile_position")); ("direction", (Param "direction")); ("control_behavior", (Param "control_behavior")); ("tags", (Param "tags"))];
       i_post := [Attribute "text" (Param "text"); Attribute "icon" (Param "icon"); Attribute "always_show" (Param "always_show"); Attribute "show_in_chart" (Param "show_in_chart"); Mode (Param "validate_assignment")] |});
  ("EightWayDirectionalMixin", (* classes/mixins/eight_way_directional.py 49-100 *)
    {| i_params := [("name", false); ("similar_entities", false); ("tile_position", true)];
       i_call := [("name", (Param "name")); ("similar_entities", (Param "similar_entities"))];
       i_post := [Custom "direction" (Kw "direction" DNorth); Place] |});
  ("ElectricEnergyInterface", (* prototypes/electric_energy_interface.py 53-97 *)
    {| i_params := [("name", true); ("position", true); ("tile_position", true); ("buffer_size", true); ("power_production", true); ("power_usage", true); ("tags", true); ("validate_assignment", true)];
       i_call := [("name", (Param "name")); ("similar_entities", (Const DNames)); ("position", (Param "position")); ("tile_position", (Param "tile_position")); ("tags", (Param "tags"))];
       i_post := [Attribute "buffer_size" (Else "buffer_size" (DOf "default_buffer_size")); Attribute "power_production" (Else "power_production" (DOf "default_power_production")); Attribute "power_usage" (Else "power_usage" (DOf "default_power_usage")); Mode (Param "validate_assignment")] |});
  ("ElectricPole", (* prototypes/electric_pole.py 27-51 *)
    {| i_params := [("name", true); ("position", true); ("tile_position", true); ("tags", true); ("validate_assignment", true)];
       i_call := [("name", (Param "name")); ("similar_entities", (Const DNames)); ("position", (Param "position")); ("tile_position", (Param "tile_position")); ("tags", (Else "tags" DDict))];
       i_post := [Mode (Param "validate_assignment")] |});
  ("ElectricTurret", (* prototypes/electric_turret.py 69-99 *)
    {| i_params := [("name", true); ("position", true); ("tile_position", true); ("direction", true); ("items", true); ("tags", true); ("validate_assignment", true)];
       i_call := [("name", (Param "name")); ("similar_entities", (Const DNames)); ("position", (Param "position")); ("tile_position", (Param "tile_position")); ("direction", (Param "direction")); ("items", (Param "items")); ("tags", (Param "tags"))];
       i_post := [Mode (Param "validate_assignment")] |});
  ("ElevatedCurvedRailA", (* prototypes/elevated_curved_rail_a.py 25-51 *)
    {| i_params := [("name", true); ("position", true); ("tile_position", true); ("direction", true); ("tags", true); ("validate_assignment", true)];
       i_call := [("name", (Param "name")); ("similar_entities", (Const DNames)); ("position", (Param "position")); ("tile_position", (Param "tile_position")); ("direction", (Param "direction")); ("tags", (Param "tags"))];
       i_post := [Mode (Param "validate_assignment")] |});
  ("ElevatedCurvedRailB", (* prototypes/elevated_curved_rail_b.py 25-51 *)
    {| i_params := [("name", true); ("position", true); ("tile_position", true); ("direction", true); ("tags", true); ("validate_assignment", true)];
       i_call := [("name", (Param "name")); ("similar_entities", (Const DNames)); ("position", (Param "position")); ("tile_position", (Param "tile_position")); ("direction", (Param "direction")); ("tags", (Param "tags"))];
       i_post := [Mode (Param "validate_assignment")] |});
  ("ElevatedHalfDiagonalRail", (* prototypes/elevated_half_diagonal_rail.py 27-53 *)
    {| i_params := [("name", true); ("position", true); ("tile_position", true); ("direction", true); ("tags", true); ("validate_assignment", true)];
       i_call := [("name", (Param "name")); ("similar_entities", (Const DNames)); ("position", (Param "position")); ("tile_position", (Param "tile_position")); ("direction", (Param "direction")); ("tags", (Param "tags"))];
       i_post := [Mode (Param "validate_assignment")] |});
  ("ElevatedStraightRail", (* prototypes/elevated_straight_rail.py 25-51 *)
    {| i_params := [("name", true); ("position", true); ("tile_position", true); ("direction", true); ("tags", true); ("validate_assignment", true)];
       i_call := [("name", (Param "name")); ("similar_entities", (Const DNames)); ("position", (Param "position")); ("tile_position", (Param "tile_position")); ("direction", (Param "direction")); ("tags", (Param "tags"))];
       i_post := [Mode (Param "validate_assignment")] |});
  ("EquipmentGridMixin", (* classes/mixins/equipment_grid.py 36-44 *)
    {| i_params := [("name", false); ("similar_entities", false)];
       i_call := [("name", (Param "name")); ("similar_entities", (Param "similar_entities"))];
       i_post := [Attribute "enable_logistics_while_moving" (Kw "enable_logistics_while_moving" DNone); Keep "grid" (Kw "grid" DNone)] |});
  ("FiltersMixin", (* classes/mixins/filters.py 45-50 *)
    {| i_params := [("name", false); ("similar_entities", false)];
       i_call := [("name", (Param "name")); ("similar_entities", (Param "similar_entities"))];
       i_post := [Attribute "filters" (Kw "filters" DNone)] |});
  ("FluidTurret", (* prototypes/fluid_turret.py 69-99 *)
    {| i_params := [("name", true); ("position", true); ("tile_position", true); ("direction", true); ("items", true); ("tags", true); ("validate_assignment", true)];
       i_call := [("name", (Param "name")); ("similar_entities", (Const DNames)); ("position", (Param "position")); ("tile_position", (Param "tile_position")); ("direction", (Param "direction")); ("items", (Param "items")); ("tags", (Param "tags"))];
       i_post := [Mode (Param "validate_assignment")] |});
  ("FluidWagon", (* prototypes/fluid_wagon.py 24-54 *)
    {| i_params := [("name", true); ("position", true); ("tile_position", true); ("orientation", true); ("enable_logistics_while_moving", true); ("grid", true); ("tags", true); ("validate_assignment", true)];
       i_call := [("name", (Param "name")); ("similar_entities", (Const DNames)); ("position", (Param "position")); ("tile_position", (Param "tile_position")); ("orientation", (Param "orientation")); ("enable_logistics_while_moving", (Param "enable_logistics_while_moving")); ("grid", (Param "grid")); ("tags", (Param "tags"))];
       i_post := [Mode (Param "validate_assignment")] |});
  ("Furnace", (* prototypes/furnace.py 112-160 *)
    {| i_params := [("name", true); ("position", true); ("tile_position", true); ("direction", true); ("items", true); ("tags", true); ("validate_assignment", true)];
       i_call := [("name", (Param "name")); ("similar_entities", (Const DNames)); ("position", (Param "position")); ("tile_position", (Param "tile_position")); ("direction", (Param "direction")); ("items", (Param "items")); ("tags", (Param "tags"))];
       i_post := [Mode (Param "validate_assignment")] |});
  ("FusionGenerator", (* prototypes/fusion_generator.py 23-49 *)
    {| i_params := [("name", true); ("position", true); ("tile_position", true); ("direction", true); ("tags", true); ("validate_assignment", true)];
       i_call := [("name", (Param "name")); ("similar_entities", (Const DNames)); ("position", (Param "position")); ("tile_position", (Param "tile_position")); ("direction", (Param "direction")); ("tags", (Param "tags"))];
       i_post := [Mode (Param "validate_assignment")] |});
  ("FusionReactor", (* prototypes/fusion_reactor.py 23-49 *)
    {| i_params := [("name", true); ("position", true); ("tile_position", true); ("direction", true); ("tags", true); ("validate_assignment", true)];
       i_call := [("name", (Param "name")); ("similar_entities", (Const DNames)); ("position", (Param "position")); ("tile_position", (Param "tile_position")); ("direction", (Param "direction")); ("tags", (Param "tags"))];
       i_post := [Mode (Param "validate_assignment")] |});
  ("Gate", (* prototypes/gate.py 23-49 *)
    {| i_params := [("name", true); ("position", true); ("tile_position", true); ("direction", true); ("tags", true); ("validate_assignment", true)];
       i_call := [("name", (Param "name")); ("similar_entities", (Const DNames)); ("position", (Param "position")); ("tile_position", (Param "tile_position")); ("direction", (Param "direction")); ("tags", (Param "tags"))];
       i_post := [Mode (Param "validate_assignment")] |});
  ("Generator", (* prototypes/generator.py 24-46 *)
    {| i_params := [("name", true); ("position", true); ("tile_position", true); ("direction", true); ("tags", true); ("validate_assignment", true)];
       i_call := [("name", (Param "name")); ("similar_entities", (Const DNames)); ("position", (Param "position")); ("tile_position", (Param "tile_position")); ("direction", (Param "direction")); ("tags", (Param "tags"))];
       i_post := [Mode (Param "validate_assignment")] |});
  ("HalfDiagonalRail", (* prototypes/half_diagonal_rail.py 25-51 *)
    {| i_params := [("name", true); ("position", true); ("tile_position", true); ("direction", true); ("tags", true); ("validate_assignment", true)];
       i_call := [("name", (Param "name")); ("similar_entities", (Const DNames)); ("position", (Param "position")); ("tile_position", (Param "tile_position")); ("direction", (Param "direction")); ("tags", (Param "tags"))];
       i_post := [Mode (Param "validate_assignment")] |});
  ("HeatInterface", (* prototypes/heat_interface.py 61-91 *)
    {| i_params := [("name", true); ("position", true); ("tile_position", true); ("temperature", true); ("mode", true); ("tags", true); ("validate_assignment", true)];
       i_call := [("name", (Param "name")); ("similar_entities", (Const DNames)); ("position", (Param "position")); ("tile_position", (Param "tile_position")); ("tags", (Param "tags"))];
       i_post := [Attribute "temperature" (Param "temperature"); Attribute "mode" (Param "mode"); Mode (Param "validate_assignment")] |});
  ("HeatPipe", (* prototypes/heat_pipe.py 22-46 *)
    {| i_params := [("name", true); ("position", true); ("tile_position", true); ("tags", true); ("validate_assignment", true)];
       i_call := [("name", (Param "name")); ("similar_entities", (Const DNames)); ("position", (Param "position")); ("tile_position", (Param "tile_position")); ("tags", (Param "tags"))];
       i_post := [Mode (Param "validate_assignment")] |});
  ("IOTypeMixin", (* classes/mixins/io_type.py 31-42 *)
    {| i_params := [("name", false); ("similar_entities", false)];
       i_call := [("name", (Param "name")); ("similar_entities", (Param "similar_entities"))];
       i_post := [Attribute "io_type" (Const DInput); Attribute "io_type" (KwOf "type" "io_type")] |});
  ("InfinityContainer", (* prototypes/infinity_container.py 77-110 *)
    {| i_params := [("name", true); ("position", true); ("tile_position", true); ("bar", true); ("items", true); ("infinity_settings", true); ("tags", true); ("validate_assignment", true)];
       i_call := [("name", (Param "name")); ("similar_entities", (Const DNames)); ("position", (Param "position")); ("tile_position", (Param "tile_position")); ("bar", (Param "bar")); ("items", (Param "items")); ("tags", (Param "tags"))];
       i_post := [Attribute "infinity_settings" (Param "infinity_settings"); Mode (Param "validate_assignment")] |});
  ("InfinityPipe", (* prototypes/infinity_pipe.py 95-124 *)
    {| i_params := [("name", true); ("position", true); ("tile_position", true); ("infinity_settings", true); ("tags", true); ("validate_assignment", true)];
       i_call := [("name", (Param "name")); ("similar_entities", (Const DNames)); ("position", (Param "position")); ("tile_position", (Param "tile_position")); ("tags", (Param "tags"))];
       i_post := [Attribute "infinity_settings" (Param "infinity_settings"); Mode (Param "validate_assignment")] |});
  ("InputIngredientsMixin", (* classes/mixins/input_ingredients.py 81-82 *)
    {| i_params := [("name", false); ("similar_entities", false)];
       i_call := [("name", (Param "name")); ("similar_entities", (Param "similar_entities"))];
       i_post := [] |});
  ("Inserter", (* prototypes/inserter.py 114-151 *)
    {| i_params := [("name", true); ("position", true); ("tile_position", true); ("direction", true); ("pickup_position", true); ("drop_position", true); ("filter_mode", true); ("spoil_priority", true); ("override_stack_size", true); ("control_behavior", true); ("tags", true); ("validate_assignment", true)];
       i_call := [("name", (Param "name")); ("similar_entities", (Const DNames)); ("position", (Param "position")); ("tile_position", (Param "tile_position")); ("direction", (Param "direction")); ("override_stack_size", (Param "override_stack_size")); ("control_behavior", (Param "control_behavior")); ("tags", (Param "tags"))];
       i_post := [Attribute "pickup_position" (Param "pickup_position"); Attribute "drop_position" (Param "drop_position"); Attribute "filter_mode" (Param "filter_mode"); Attribute "spoil_priority" (Param "spoil_priority"); Mode (Param "validate_assignment")] |});
  ("InventoryFilterMixin", (* classes/mixins/inventory_filter.py 85-90 *)
    {| i_params := [("name", false); ("similar_entities", false)];
       i_call := [("name", (Param "name")); ("similar_entities", (Param "similar_entities"))];
       i_post := [Attribute "inventory" (Kw "inventory" DFilters)] |});
  ("InventoryMixin", (* classes/mixins/inventory.py 67-74 *)
    {| i_params := [("name", false); ("similar_entities", false)];
       i_call := [("name", (Param "name")); ("similar_entities", (Param "similar_entities"))];
       i_post := [Field "bar" (Kw "bar" DNone)] |});
  ("Lab", (* prototypes/lab.py 31-57 *)
    {| i_params := [("name", true); ("position", true); ("tile_position", true); ("items", true); ("tags", true); ("validate_assignment", true)];
       i_call := [("name", (Param "name")); ("similar_entities", (Const DNames)); ("position", (Param "position")); ("tile_position", (Param "tile_position")); ("items", (Param "items")); ("tags", (Param "tags"))];
       i_post := [Mode (Param "validate_assignment")] |});
  ("Lamp", (* prototypes/lamp.py 67-99 *)
    {| i_params := [("name", true); ("position", true); ("tile_position", true); ("always_on", true); ("control_behavior", true); ("tags", true); ("validate_assignment", true)];
       i_call := [("name", (Param "name")); ("similar_entities", (Const DNames)); ("position", (Param "position")); ("tile_position", (Param "tile_position")); ("control_behavior", (Param "control_behavior")); ("tags", (Param "tags"))];
       i_post := [Attribute "always_on" (Param "always_on"); Mode (Param "validate_assignment")] |});
  ("LandMine", (* prototypes/land_mine.py 22-46 *)
    {| i_params := [("name", true); ("position", true); ("tile_position", true); ("tags", true); ("validate_assignment", true)];
       i_call := [("name", (Param "name")); ("similar_entities", (Const DNames)); ("position", (Param "position")); ("tile_position", (Param "tile_position")); ("tags", (Param "tags"))];
       i_post := [Mode (Param "validate_assignment")] |});
  ("LegacyCurvedRail", (* prototypes/legacy_curved_rail.py 61-97 *)
    {| i_params := [("name", true); ("position", true); ("tile_position", true); ("direction", true); ("tags", true); ("validate_assignment", true)];
       i_call := [("name", (Param "name")); ("similar_entities", (Const DNames)); ("position", (Param "position")); ("tile_position", (Param "tile_position")); ("direction", (Param "direction")); ("tags", (Param "tags"))];
       i_post := [Mode (Param "validate_assignment")] |});
  ("LegacyStraightRail", (* prototypes/legacy_straight_rail.py 55-95 *)
    {| i_params := [("name", true); ("position", true); ("tile_position", true); ("direction", true); ("tags", true); ("validate_assignment", true)];
       i_call := [("name", (Param "name")); ("similar_entities", (Const DNames)); ("position", (Param "position")); ("tile_position", (Param "tile_position")); ("direction", (Param "direction")); ("tags", (Param "tags"))];
       i_post := [Mode (Param "validate_assignment")] |});
  ("LightningAttractor", (* prototypes/lightning_attractor.py 23-47 *)
    {| i_params := [("name", true); ("position", true); ("tile_position", true); ("tags", true); ("validate_assignment", true)];
       i_call := [("name", (Param "name")); ("similar_entities", (Const DNames)); ("position", (Param "position")); ("tile_position", (Param "tile_position")); ("tags", (Param "tags"))];
       i_post := [Mode (Param "validate_assignment")] |});
  ("LinkedBelt", (* prototypes/linked_belt.py 29-54 *)
    {| i_params := [("name", true); ("position", true); ("tile_position", true); ("direction", true); ("tags", true); ("validate_assignment", true)];
       i_call := [("name", (Param "name")); ("similar_entities", (Const DNames)); ("position", (Param "position")); ("tile_position", (Param "tile_position")); ("direction", (Param "direction")); ("tags", (Param "tags"))];
       i_post := [Mode (Param "validate_assignment")] |});
  ("LinkedContainer", (* prototypes/linked_container.py 46-79 *)
    {| i_params := [("name", true); ("position", true); ("tile_position", true); ("bar", true); ("link_id", true); ("items", true); ("tags", true); ("validate_assignment", true)];
       i_call := [("name", (Param "name")); ("similar_entities", (Const DNames)); ("position", (Param "position")); ("tile_position", (Param "tile_position")); ("bar", (Param "bar")); ("items", (Param "items")); ("tags", (Param "tags"))];
       i_post := [Custom "link_id" (Param "link_id"); Mode (Param "validate_assignment")] |});
  ("Loader", (* prototypes/loader.py 30-56 *)
    {| i_params := [("name", true); ("position", true); ("tile_position", true); ("direction", true); ("io_type", true); ("filters", true); ("tags", true); ("validate_assignment", true)];
       i_call := [("name", (Param "name")); ("similar_entities", (Const DNames)); ("position", (Param "position")); ("tile_position", (Param "tile_position")); ("direction", (Param "direction")); ("io_type", (Param "io_type")); ("filters", (Param "filters")); ("tags", (Param "tags"))];
       i_post := [Mode (Param "validate_assignment")] |});
  ("Locomotive", (* prototypes/locomotive.py 37-65 *)
    {| i_params := [("name", true); ("position", true); ("tile_position", true); ("orientation", true); ("enable_logistics_while_moving", true); ("grid", true); ("items", true); ("tags", true); ("validate_assignment", true)];
       i_call := [("name", (Param "name")); ("similar_entities", (Const DNames)); ("position", (Param "position")); ("tile_position", (Param "tile_position")); ("orientation", (Param "orientation")); ("enable_logistics_while_moving", (Param "enable_logistics_while_moving")); ("grid", (Param "grid")); ("items", (Param "items")); ("tags", (Param "tags"))];
       i_post := [Mode (Param "validate_assignment")] |});
  ("LogisticActiveContainer", (* prototypes/logistic_active_container.py 57-81 *)
    {| i_params := [("name", true); ("position", true); ("tile_position", true); ("bar", true); ("items", true); ("tags", true); ("validate_assignment", true)];
       i_call := [("name", (Param "name")); ("similar_entities", (Const DNames)); ("position", (Param "position")); ("tile_position", (Param "tile_position")); ("bar", (Param "bar")); ("items", (Param "items")); ("tags", (Param "tags"))];
       i_post := [Mode (Param "validate_assignment")] |});
  ("LogisticBufferContainer", (* prototypes/logistic_buffer_container.py 64-96 *)
    {| i_params := [("name", true); ("position", true); ("tile_position", true); ("bar", true); ("request_filters", true); ("items", true); ("control_behavior", true); ("tags", true); ("validate_assignment", true)];
       i_call := [("name", (Param "name")); ("similar_entities", (Const DNames)); ("position", (Param "position")); ("tile_position", (Param "tile_position")); ("bar", (Param "bar")); ("request_filters", (Param "request_filters")); ("items", (Param "items")); ("control_behavior", (Param "control_behavior")); ("tags", (Param "tags"))];
       i_post := [Mode (Param "validate_assignment")] |});
  ("LogisticPassiveContainer", (* prototypes/logistic_passive_container.py 57-83 *)
    {| i_params := [("name", true); ("position", true); ("tile_position", true); ("bar", true); ("items", true); ("control_behavior", true); ("tags", true); ("validate_assignment", true)];
       i_call := [("name", (Param "name")); ("similar_entities", (Const DNames)); ("position", (Param "position")); ("tile_position", (Param "tile_position")); ("bar", (Param "bar")); ("items", (Param "items")); ("control_behavior", (Param "control_behavior")); ("tags", (Param "tags"))];
       i_post := [Mode (Param "validate_assignment")] |});
  ("LogisticRequestContainer", (* prototypes/logistic_request_container.py 76-106 *)
    {| i_params := [("name", true); ("position", true); ("tile_position", true); ("bar", true); ("request_filters", true); ("items", true); ("control_behavior", true); ("tags", true); ("validate_assignment", true)];
       i_call := [("name", (Param "name")); ("similar_entities", (Const DNames)); ("position", (Param "position")); ("tile_position", (Param "tile_position")); ("bar", (Param "bar")); ("request_filters", (Param "request_filters")); ("items", (Param "items")); ("control_behavior", (Param "control_behavior")); ("tags", (Param "tags"))];
       i_post := [Mode (Param "validate_assignment")] |});
  ("LogisticStorageContainer", (* prototypes/logistic_storage_container.py 59-91 *)
    {| i_params := [("name", true); ("position", true); ("tile_position", true); ("bar", true); ("request_filters", true); ("items", true); ("control_behavior", true); ("tags", true); ("validate_assignment", true)];
       i_call := [("name", (Param "name")); ("similar_entities", (Const DNames)); ("position", (Param "position")); ("tile_position", (Param "tile_position")); ("bar", (Param "bar")); ("request_filters", (Param "request_filters")); ("items", (Param "items")); ("control_behavior", (Param "control_behavior")); ("tags", (Param "tags"))];
       i_post := [Mode (Param "validate_assignment")] |});
  ("MiningDrill", (* prototypes/mining_drill.py 70-100 *)
    {| i_params := [("name", true); ("position", true); ("tile_position", true); ("direction", true); ("items", true); ("control_behavior", true); ("tags", true); ("validate_assignment", true)];
       i_call := [("name", (Param "name")); ("similar_entities", (Const DNames)); ("position", (Param "position")); ("tile_position", (Param "tile_position")); ("direction", (Param "direction")); ("items", (Param "items")); ("control_behavior", (Param "control_behavior")); ("tags", (Param "tags"))];
       i_post := [Mode (Param "validate_assignment")] |});
  ("ModulesMixin", (* classes/mixins/modules.py 91-96 *)
    {| i_params := [("name", false); ("similar_entities", false)];
       i_call := [("name", (Param "name")); ("similar_entities", (Param "similar_entities"))];
       i_post := [] |});
  ("OffshorePump", (* prototypes/offshore_pump.py 53-83 *)
    {| i_params := [("name", true); ("position", true); ("tile_position", true); ("direction", true); ("control_behavior", true); ("tags", true); ("validate_assignment", true)];
       i_call := [("name", (Param "name")); ("similar_entities", (Const DNames)); ("position", (Param "position")); ("tile_position", (Param "tile_position")); ("direction", (Param "direction")); ("control_behavior", (Param "control_behavior")); ("tags", (Param "tags"))];
       i_post := [Mode (Param "validate_assignment")] |});
  ("OrientationMixin", (* classes/mixins/orientation.py 34-53 *)
    {| i_params := [("name", false); ("similar_entities", false)];
       i_call := [("name", (Param "name")); ("similar_entities", (Param "similar_entities"))];
       i_post := [Custom "orientation" (Kw "orientation" DNorthward)] |});
  ("Pipe", (* prototypes/pipe.py 22-46 *)
    {| i_params := [("name", true); ("position", true); ("tile_position", true); ("tags", true); ("validate_assignment", true)];
       i_call := [("name", (Param "name")); ("similar_entities", (Const DNames)); ("position", (Param "position")); ("tile_position", (Param "tile_position")); ("tags", (Param "tags"))];
       i_post := [Mode (Param "validate_assignment")] |});
  ("PlayerDescriptionMixin", (* classes/mixins/player_description.py 25-30 *)
    {| i_params := [("name", false); ("similar_entities", false)];
       i_call := [("name", (Param "name")); ("similar_entities", (Param "similar_entities"))];
       i_post := [Attribute "player_description" (Kw "player_description" DNone)] |});
  ("PlayerPort", (* prototypes/player_port.py 22-46 *)
    {| i_params := [("name", true); ("position", true); ("tile_position", true); ("tags", true); ("validate_assignment", true)];
       i_call := [("name", (Param "name")); ("similar_entities", (Const DNames)); ("position", (Param "position")); ("tile_position", (Param "tile_position")); ("tags", (Param "tags"))];
       i_post := [Mode (Param "validate_assignment")] |});
  ("PowerConnectableMixin", (* classes/mixins/power_connectable.py 28-31 *)
    {| i_params := [("name", false); ("similar_entities", false)];
       i_call := [("name", (Param "name")); ("similar_entities", (Param "similar_entities"))];
       i_post := [] |});
  ("PowerSwitch", (* prototypes/power_switch.py 65-90 *)
    {| i_params := [("name", true); ("position", true); ("tile_position", true); ("control_behavior", true); ("switch_state", true); ("tags", true); ("validate_assignment", true)];
       i_call := [("name", (Param "name")); ("similar_entities", (Const DNames)); ("position", (Param "position")); ("tile_position", (Param "tile_position")); ("control_behavior", (Param "control_behavior")); ("tags", (Param "tags"))];
       i_post := [Attribute "switch_state" (Param "switch_state"); Mode (Param "validate_assignment")] |});
  ("ProgrammableSpeaker", (* prototypes/programmable_speaker.py 333-375 *)
    {| i_params := [("name", true); ("position", true); ("tile_position", true); ("control_behavior", true); ("parameters", true); ("alert_parameters", true); ("tags", true); ("validate_assignment", true)];
       i_call := [("name", (Param "name")); ("similar_entities", (Const DNames)); ("position", (Param "position")); ("tile_position", (Param "tile_position")); ("control_behavior", (Param "control_behavior")); ("tags", (Param "tags"))];
       i_post := [Attribute "parameters" (Param "parameters"); Attribute "alert_parameters" (Param "alert_parameters"); Mode (Param "validate_assignment")] |});
  ("Pump", (* prototypes/pump.py 46-68 *)
    {| i_params := [("name", true); ("position", true); ("tile_position", true); ("direction", true); ("tags", true); ("validate_assignment", true)];
       i_call := [("name", (Param "name")); ("similar_entities", (Const DNames)); ("position", (Param "position")); ("tile_position", (Param "tile_position")); ("direction", (Param "direction")); ("tags", (Param "tags"))];
       i_post := [Mode (Param "validate_assignment")] |});
  ("Radar", (* prototypes/radar.py 23-43 *)
    {| i_params := [("name", true); ("position", true); ("tile_position", true); ("tags", true); ("validate_assignment", true)];
       i_call := [("name", (Param "name")); ("similar_entities", (Const DNames)); ("position", (Param "position")); ("tile_position", (Param "tile_position")); ("tags", (Param "tags"))];
       i_post := [Mode (Param "validate_assignment")] |});
  ("RailChainSignal", (* prototypes/rail_chain_signal.py 53-88 *)
    {| i_params := [("name", true); ("position", true); ("tile_position", true); ("direction", true); ("control_behavior", true); ("tags", true); ("validate_assignment", true)];
       i_call := [("name", (Param "name")); ("similar_entities", (Const DNames)); ("position", (Param "position")); ("tile_position", (Param "tile_position")); ("direction", (Param "direction")); ("control_behavior", (Param "control_behavior")); ("tags", (Param "tags"))];
       i_post := [Mode (Param "validate_assignment")] |});
  ("RailRamp", (* prototypes/rail_ramp.py 25-51 *)
    {| i_params := [("name", true); ("position", true); ("tile_position", true); ("direction", true); ("tags", true); ("validate_assignment", true)];
       i_call := [("name", (Param "name")); ("similar_entities", (Const DNames)); ("position", (Param "position")); ("tile_position", (Param "tile_position")); ("direction", (Param "direction")); ("tags", (Param "tags"))];
       i_post := [Mode (Param "validate_assignment")] |});
  ("RailSignal", (* prototypes/rail_signal.py 72-107 *)
    {| i_params := [("name", true); ("position", true); ("tile_position", true); ("direction", true); ("control_behavior", true); ("tags", true); ("validate_assignment", true)];
       i_call := [("name", (Param "name")); ("similar_entities", (Const DNames)); ("position", (Param "position")); ("tile_position", (Param "tile_position")); ("direction", (Param "direction")); ("control_behavior", (Param "control_behavior")); ("tags", (Param "tags"))];
       i_post := [Mode (Param "validate_assignment")] |});
  ("RailSupport", (* prototypes/rail_support.py 25-51 *)
    {| i_params := [("name", true); ("position", true); ("tile_position", true); ("direction", true); ("tags", true); ("validate_assignment", true)];
       i_call := [("name", (Param "name")); ("similar_entities", (Const DNames)); ("position", (Param "position")); ("tile_position", (Param "tile_position")); ("direction", (Param "direction")); ("tags", (Param "tags"))];
       i_post := [Mode (Param "validate_assignment")] |});
  ("Reactor", (* prototypes/reactor.py 58-91 *)
    {| i_params := [("name", true); ("position", true); ("tile_position", true); ("items", true); ("control_behavior", true); ("tags", true); ("validate_assignment", true)];
       i_call := [("name", (Param "name")); ("similar_entities", (Const DNames)); ("position", (Param "position")); ("tile_position", (Param "tile_position")); ("items", (Param "items")); ("control_behavior", (Param "control_behavior")); ("tags", (Param "tags"))];
       i_post := [Mode (Param "validate_assignment")] |});
  ("RecipeMixin", (* classes/mixins/recipe.py 114-121 *)
    {| i_params := [("name", false); ("similar_entities", false)];
       i_call := [("name", (Param "name")); ("similar_entities", (Param "similar_entities"))];
       i_post := [Attribute "recipe" (Kw "recipe" DNone); Attribute "recipe_quality" (Kw "recipe_quality" DNone)] |});
  ("RequestFiltersMixin", (* classes/mixins/request_filters.py 67-72 *)
    {| i_params := [("name", false); ("similar_entities", false)];
       i_call := [("name", (Param "name")); ("similar_entities", (Param "similar_entities"))];
       i_post := [Attribute "request_filters" (Kw "request_filters" DNone)] |});
  ("RequestItemsMixin", (* classes/mixins/request_items.py 74-79 *)
    {| i_params := [("name", false); ("similar_entities", false)];
       i_call := [("name", (Param "name")); ("similar_entities", (Param "similar_entities"))];
       i_post := [Custom "items" (Kw "items" DDict)] |});
  ("Roboport", (* prototypes/roboport.py 75-103 *)
    {| i_params := [("name", true); ("position", true); ("tile_position", true); ("control_behavior", true); ("tags", true); ("validate_assignment", true)];
       i_call := [("name", (Param "name")); ("similar_entities", (Const DNames)); ("position", (Param "position")); ("tile_position", (Param "tile_position")); ("control_behavior", (Param "control_behavior")); ("tags", (Param "tags"))];
       i_post := [Mode (Param "validate_assignment")] |});
  ("RocketSilo", (* prototypes/rocket_silo.py 62-104 *)
    {| i_params := [("name", true); ("position", true); ("tile_position", true); ("recipe", true); ("recipe_quality", true); ("transitional_request_index", true); ("items", true); ("control_behavior", true); ("tags", true); ("validate_assignment", true)];
       i_call := [("name", (Param "name")); ("similar_entities", (Const DNames)); ("position", (Param "position")); ("tile_position", (Param "tile_position")); ("recipe", (Param "recipe")); ("recipe_quality", (Param "recipe_quality")); ("items", (Param "items")); ("control_behavior", (Param "control_behavior")); ("tags", (Param "tags"))];
       i_post := [Attribute "transitional_request_index" (Param "transitional_request_index"); Mode (Param "validate_assignment")] |});
  ("SelectorCombinator", (* prototypes/selector_combinator.py 106-136 *)
    {| i_params := [("name", true); ("position", true); ("tile_position", true); ("direction", true); ("player_description", true); ("control_behavior", true); ("tags", true); ("validate_assignment", true)];
       i_call := [("name", (Param "name")); ("similar_entities", (Const DNames)); ("position", (Param "position")); ("tile_position", (Param "tile_position")); ("direction", (Param "direction")); ("player_description", (Param "player_description")); ("control_behavior", (Param "control_behavior")); ("tags", (Param "tags"))];
       i_post := [Mode (Param "validate_assignment")] |});
  ("SimpleEntityWithForce", (* prototypes/simple_entity_with_force.py 34-65 *)
    {| i_params := [("name", true); ("position", true); ("tile_position", true); ("direction", true); ("tags", true); ("variation", true); ("validate_assignment", true)];
       i_call := [("name", (Param "name")); ("similar_entities", (Const DNames)); ("position", (Param "position")); ("tile_position", (Param "tile_position")); ("direction", (Param "direction")); ("tags", (Param "tags"))];
       i_post := [Attribute "variation" (Param "variation"); Mode (Param "validate_assignment")] |});
  ("SimpleEntityWithOwner", (* prototypes/simple_entity_with_owner.py 34-65 *)
    {| i_params := [("name", true); ("position", true); ("tile_position", true); ("direction", true); ("tags", true); ("variation", true); ("validate_assignment", true)];
       i_call := [("name", (Param "name")); ("similar_entities", (Const DNames)); ("position", (Param "position")); ("tile_position", (Param "tile_position")); ("direction", (Param "direction")); ("tags", (Param "tags"))];
       i_post := [Attribute "variation" (Param "variation"); Mode (Param "validate_assignment")] |});
  ("SolarPanel", (* prototypes/solar_panel.py 22-46 *)
    {| i_params := [("name", true); ("position", true); ("tile_position", true); ("tags", true); ("validate_assignment", true)];
       i_call := [("name", (Param "name")); ("similar_entities", (Const DNames)); ("position", (Param "position")); ("tile_position", (Param "tile_position")); ("tags", (Param "tags"))];
       i_post := [Mode (Param "validate_assignment")] |});
  ("SpacePlatformHub", (* prototypes/space_platform_hub.py 77-109 *)
    {| i_params := [("name", true); ("position", true); ("tile_position", true); ("control_behavior", true); ("request_missing_construction_materials", true); ("tags", true); ("validate_assignment", true)];
       i_call := [("name", (Param "name")); ("similar_entities", (Const DNames)); ("position", (Param "position")); ("tile_position", (Param "tile_position")); ("control_behavior", (Param "control_behavior")); ("tags", (Param "tags"))];
       i_post := [Attribute "request_missing_construction_materials" (Param "request_missing_construction_materials"); Mode (Param "validate_assignment")] |});
  ("SpiderVehicle", (* prototypes/spider_vehicle.py 78-122 *)
    {| i_params := [("name", true); ("position", true); ("tile_position", true); ("orientation", true); ("enable_logistics_while_moving", true); ("grid", true); ("trunk_inventory", true); ("ammo_inventory", true); ("driver_is_main_gunner", true); ("selected_gun_index", true); ("automatic_targeting_parameters", true); ("request_filters", true); ("items", true); ("tags", true); ("validate_assignment", true)];
       i_call := [("name", (Param "name")); ("similar_entities", (Const DNames)); ("position", (Param "position")); ("tile_position", (Param "tile_position")); ("orientation", (Param "orientation")); ("enable_logistics_while_moving", (Param "enable_logistics_while_moving")); ("grid", (Param "grid")); ("trunk_inventory", (Param "trunk_inventory")); ("ammo_inventory", (Param "ammo_inventory")); ("driver_is_main_gunner", (Param "driver_is_main_gunner")); ("selected_gun_index", (Param "selected_gun_index")); ("items", (Param "items")); ("tags", (Param "tags"))];
       i_post := [Attribute "automatic_targeting_parameters" (Param "automatic_targeting_parameters"); Attribute "request_filters" (Param "request_filters"); Mode (Param "validate_assignment")] |});
  ("Splitter", (* prototypes/splitter.py 56-91 *)
    {| i_params := [("name", true); ("position", true); ("tile_position", true); ("direction", true); ("input_priority", true); ("output_priority", true); ("filter", true); ("tags", true); ("validate_assignment", true)];
       i_call := [("name", (Param "name")); ("similar_entities", (Const DNames)); ("position", (Param "position")); ("tile_position", (Param "tile_position")); ("direction", (Param "direction")); ("tags", (Param "tags"))];
       i_post := [Attribute "input_priority" (Param "input_priority"); Attribute "output_priority" (Param "output_priority"); Attribute "filter" (Param "filter"); Mode (Param "validate_assignment")] |});
  ("StackSizeMixin", (* classes/mixins/stack_size.py 52-57 *)
    {| i_params := [("name", false); ("similar_entities", false)];
       i_call := [("name", (Param "name")); ("similar_entities", (Param "similar_entities"))];
       i_post := [Attribute "override_stack_size" (Kw "override_stack_size" DNone)] |});
  ("StorageTank", (* prototypes/storage_tank.py 29-55 *)
    {| i_params := [("name", true); ("position", true); ("tile_position", true); ("direction", true); ("tags", true); ("validate_assignment", true)];
       i_call := [("name", (Param "name")); ("similar_entities", (Const DNames)); ("position", (Param "position")); ("tile_position", (Param "tile_position")); ("direction", (Param "direction")); ("tags", (Param "tags"))];
       i_post := [Mode (Param "validate_assignment")] |});
  ("StraightRail", (* prototypes/straight_rail.py 55-95 *)
    {| i_params := [("name", true); ("position", true); ("tile_position", true); ("direction", true); ("tags", true); ("validate_assignment", true)];
       i_call := [("name", (Param "name")); ("similar_entities", (Const DNames)); ("position", (Param "position")); ("tile_position", (Param "tile_position")); ("direction", (Param "direction")); ("tags", (Param "tags"))];
       i_post := [Mode (Param "validate_assignment")] |});
  ("Thruster", (* prototypes/thruster.py 22-46 *)
    {| i_params := [("name", true); ("position", true); ("tile_position", true); ("tags", true); ("validate_assignment", true)];
       i_call := [("name", (Param "name")); ("similar_entities", (Const DNames)); ("position", (Param "position")); ("tile_position", (Param "tile_position")); ("tags", (Param "tags"))];
       i_post := [Mode (Param "validate_assignment")] |});
  ("TrainStop", (* prototypes/train_stop.py 137-171 *)
    {| i_params := [("name", true); ("position", true); ("tile_position", true); ("direction", true); ("control_behavior", true); ("tags", true); ("validate_assignment", true)];
       i_call := [("name", (Param "name")); ("similar_entities", (Const DNames)); ("position", (Param "position")); ("tile_position", (Param "tile_position")); ("direction", (Param "direction")); ("control_behavior", (Param "control_behavior")); ("tags", (Param "tags"))];
       i_post := [Attribute "station" (Kw "station" DNone); Attribute "manual_trains_limit" (Kw "manual_trains_limit" DNone); Mode (Param "validate_assignment")] |});
  ("TransportBelt", (* prototypes/transport_belt.py 60-88 *)
    {| i_params := [("name", true); ("position", true); ("tile_position", true); ("direction", true); ("control_behavior", true); ("tags", true); ("validate_assignment", true)];
       i_call := [("name", (Param "name")); ("similar_entities", (Const DNames)); ("position", (Param "position")); ("tile_position", (Param "tile_position")); ("direction", (Param "direction")); ("control_behavior", (Param "control_behavior")); ("tags", (Param "tags"))];
       i_post := [Mode (Param "validate_assignment")] |});
  ("Turret", (* prototypes/turret.py 26-56 *)
    {| i_params := [("name", true); ("position", true); ("tile_position", true); ("direction", true); ("items", true); ("tags", true); ("validate_assignment", true)];
       i_call := [("name", (Param "name")); ("similar_entities", (Const DNames)); ("position", (Param "position")); ("tile_position", (Param "tile_position")); ("direction", (Param "direction")); ("items", (Param "items")); ("tags", (Param "tags"))];
       i_post := [Mode (Param "validate_assignment")] |});
  ("UndergroundBelt", (* prototypes/underground_belt.py 23-56 *)
    {| i_params := [("name", true); ("position", true); ("tile_position", true); ("direction", true); ("io_type", true); ("tags", true); ("validate_assignment", true)];
       i_call := [("name", (Param "name")); ("similar_entities", (Const DNames)); ("position", (Param "position")); ("tile_position", (Param "tile_position")); ("direction", (Param "direction")); ("io_type", (InputOr "io_type" "type")); ("tags", (Param "tags"))];
       i_post := [Mode (Param "validate_assignment")] |});
  ("UndergroundPipe", (* prototypes/underground_pipe.py 23-49 *)
    {| i_params := [("name", true); ("position", true); ("tile_position", true); ("direction", true); ("tags", true); ("validate_assignment", true)];
       i_call := [("name", (Param "name")); ("similar_entities", (Const DNames)); ("position", (Param "position")); ("tile_position", (Param "tile_position")); ("direction", (Param "direction")); ("tags", (Param "tags"))];
       i_post := [Mode (Param "validate_assignment")] |});
  ("VehicleMixin", (* classes/mixins/vehicle.py 29-37 *)
    {| i_params := [("name", false); ("similar_entities", false)];
       i_call := [("name", (Param "name")); ("similar_entities", (Param "similar_entities"))];
       i_post := [Attribute "driver_is_main_gunner" (Kw "driver_is_main_gunner" DNone); Attribute "selected_gun_index" (Kw "selected_gun_index" DNone)] |});
  ("Wall", (* prototypes/wall.py 74-101 *)
    {| i_params := [("name", true); ("position", true); ("tile_position", true); ("control_behavior", true); ("tags", true); ("validate_assignment", true)];
       i_call := [("name", (Param "name")); ("similar_entities", (Const DNames)); ("position", (Param "position")); ("tile_position", (Param "tile_position")); ("control_behavior", (Param "control_behavior")); ("tags", (Param "tags"))];
       i_post := [Mode (Param "validate_assignment")] |})
].

(** Fields with another name in blueprints. *)
Definition aliases : list (string * (string * string)) := [
  ("AsteroidCollector.Format", ("result_inventory", "result-inventory")); (* prototypes/asteroid_collector.py 64 *)
  ("AsteroidCollector.Format", ("chunk_filter", "chunk-filter")); (* prototypes/asteroid_collector.py 68 *)
  ("IOTypeMixin.Format", ("io_type", "type")); (* classes/mixins/io_type.py 22 *)
  ("ReadRailSignalMixin.ControlFormat", ("yellow_output_signal", "orange_output_signal")); (* classes/mixins/read_rail_signal.py 27 *)
  ("TargetPrioritiesMixin.Format", ("priority_list", "priority-list")) (* classes/mixins/target_priorities.py 43 *)
].

(** Classes of [prototypes] without bases. *)
Definition baseless : list string := ["CargoBay"; "FusionReactor"; "HalfDiagonalRail"; "RailSupport"]. (* prototypes/cargo_bay.py 16, prototypes/fusion_reactor.py 15, prototypes/half_diagonal_rail.py 15, prototypes/rail_support.py 15 *)

Definition tables : data := {| d_inits := inits; d_aliases := aliases; d_baseless := baseless |}.
