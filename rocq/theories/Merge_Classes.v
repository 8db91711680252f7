(** The [mergable_with], [merge] and [__eq__] methods of draftsman/classes and
    draftsman/prototypes and the bases of every entity class, as data.
    Transcribed from the sources by a script.

    Left out: FilterInserter, whose module imports a class that does not exist
    (prototypes/filter_inserter.py 13), and the four classes that cannot be
    constructed (see Trim_Classes.v). *)
From Coq Require Import String List.
From Verif Require Import Common Merge_Model.
Import ListNotations.
Local Open Scope string_scope.
Local Open Scope list_scope.

(** Which classes define the methods, each with its file and lines. *)
Definition methods_table : list (pystr * methods) :=
  [ (* classes/entity.py 742-748, 750-753, 755-762 *)
    (str "Entity", mkMethods (Some [TType; TAttr (Fld (str "name")); TPosition; TId]) (Some [Copy (Fld (str "tags"))]) (Some [TType; TAttr (Fld (str "name")); TPosition; TId; TAttr (Fld (str "tags"))]))
  ; (* classes/mixins/circuit_connectable.py 94-198 *)
    (str "CircuitConnectableMixin", mkMethods None (Some [Super; Rewire]) None)
  ; (* classes/mixins/color.py 88-91, 95-96 *)
    (str "ColorMixin", mkMethods None (Some [Super; Copy (Fld (str "color"))]) (Some [TSuper; TAttr (Fld (str "color"))]))
  ; (* classes/mixins/control_behavior.py 93-96, 172-173 *)
    (str "ControlBehaviorMixin", mkMethods None (Some [Super; Copy (Fld (str "control_behavior"))]) (Some [TSuper; TAttr (Fld (str "control_behavior"))]))
  ; (* classes/mixins/directional.py 239-241, 245-246 *)
    (str "DirectionalMixin", mkMethods (Some [TSuper; TAttr (Fld (str "direction"))]) None (Some [TSuper; TAttr (Fld (str "direction"))]))
  ; (* classes/mixins/eight_way_directional.py 196-198, 202-203 *)
    (str "EightWayDirectionalMixin", mkMethods (Some [TSuper; TAttr (Fld (str "direction"))]) None (Some [TSuper; TAttr (Fld (str "direction"))]))
  ; (* classes/mixins/filters.py 201-204, 208-209 *)
    (str "FiltersMixin", mkMethods None (Some [Super; Copy (Fld (str "filters"))]) (Some [TSuper; TAttr (Fld (str "filters"))]))
  ; (* classes/mixins/io_type.py 75-78, 82-83 *)
    (str "IOTypeMixin", mkMethods None (Some [Super; Copy (Fld (str "io_type"))]) (Some [TSuper; TAttr (Fld (str "io_type"))]))
  ; (* classes/mixins/inventory_filter.py 326-332, 336-337 *)
    (str "InventoryFilterMixin", mkMethods None (Some [Super; Copy (Fld (str "inventory"))]) (Some [TSuper; TAttr (Fld (str "inventory"))]))
  ; (* classes/mixins/inventory.py 209-212, 216-217 *)
    (str "InventoryMixin", mkMethods None (Some [Super; Copy (Fld (str "bar"))]) (Some [TSuper; TAttr (Fld (str "bar"))]))
  ; (* classes/mixins/orientation.py 106-108, 112-113 *)
    (str "OrientationMixin", mkMethods (Some [TSuper; TAttr (Fld (str "orientation"))]) None (Some [TSuper; TAttr (Fld (str "orientation"))]))
  ; (* classes/mixins/read_rail_signal.py 159-164 *)
    (str "ReadRailSignalMixin", mkMethods None (Some [Super; Copy (Sub (str "control_behavior") (str "red_output_signal")); Copy (Sub (str "control_behavior") (str "yellow_output_signal")); Copy (Sub (str "control_behavior") (str "green_output_signal"))]) None)
  ; (* classes/mixins/recipe.py 208-211, 215-216 *)
    (str "RecipeMixin", mkMethods None (Some [Copy (Fld (str "recipe")); Super]) (Some [TSuper; TAttr (Fld (str "recipe"))]))
  ; (* classes/mixins/request_filters.py 298-301, 317-318 *)
    (str "RequestFiltersMixin", mkMethods None (Some [Super; Copy (Fld (str "request_filters"))]) (Some [TSuper; TAttr (Fld (str "request_filters"))]))
  ; (* classes/mixins/request_items.py 227-230, 234-235 *)
    (str "RequestItemsMixin", mkMethods None (Some [Super; Copy (Fld (str "items"))]) (Some [TSuper; TAttr (Fld (str "items"))]))
  ; (* classes/mixins/stack_size.py 159-162, 166-170 *)
    (str "StackSizeMixin", mkMethods None (Some [Super; Copy (Fld (str "override_stack_size"))]) (Some [TSuper; TAttr (Fld (str "override_stack_size"))]))
  ; (* prototypes/accumulator.py 106-107 *)
    (str "Accumulator", mkMethods None None (Some [TSuper; TAttr (Sub (str "control_behavior") (str "output_signal"))]))
  ; (* prototypes/electric_energy_interface.py 234-239, 245-251 *)
    (str "ElectricEnergyInterface", mkMethods None (Some [Super; Copy (Fld (str "buffer_size")); Copy (Fld (str "power_production")); Copy (Fld (str "power_usage"))]) (Some [TSuper; TAttr (Fld (str "buffer_size")); TAttr (Fld (str "power_production")); TAttr (Fld (str "power_usage"))]))
  ; (* prototypes/heat_interface.py 159-163, 169-174 *)
    (str "HeatInterface", mkMethods None (Some [Super; Copy (Fld (str "temperature")); Copy (Fld (str "mode"))]) (Some [TSuper; TAttr (Fld (str "temperature")); TAttr (Fld (str "mode"))]))
  ; (* prototypes/infinity_container.py 228-231, 237-240 *)
    (str "InfinityContainer", mkMethods None (Some [Super; Copy (Fld (str "infinity_settings"))]) (Some [TSuper; TAttr (Fld (str "infinity_settings"))]))
  ; (* prototypes/infinity_pipe.py 359-362, 368-371 *)
    (str "InfinityPipe", mkMethods None (Some [Super; Copy (Fld (str "infinity_settings"))]) (Some [TSuper; TAttr (Fld (str "infinity_settings"))]))
  ; (* prototypes/inserter.py 284-289 *)
    (str "Inserter", mkMethods None (Some [Super; Copy (Fld (str "pickup_position")); Copy (Fld (str "drop_position")); Copy (Fld (str "filter_mode"))]) None)
  ; (* prototypes/linked_container.py 133-136, 142-143 *)
    (str "LinkedContainer", mkMethods None (Some [Super; Copy (Fld (str "link_id"))]) (Some [TSuper; TAttr (Fld (str "link_id"))]))
  ; (* prototypes/power_switch.py 143-146, 152-153 *)
    (str "PowerSwitch", mkMethods None (Some [Super; Copy (Fld (str "switch_state"))]) (Some [TSuper; TAttr (Fld (str "switch_state"))]))
  ; (* prototypes/programmable_speaker.py 835-839, 845-850 *)
    (str "ProgrammableSpeaker", mkMethods None (Some [Super; Copy (Fld (str "parameters")); Copy (Fld (str "alert_parameters"))]) (Some [TSuper; TAttr (Fld (str "parameters")); TAttr (Fld (str "alert_parameters"))]))
  ; (* prototypes/rocket_silo.py 175-179, 185-190 *)
    (str "RocketSilo", mkMethods None (Some [Super; Copy (Fld (str "transitional_request_index"))]) (Some [TSuper; TAttr (Fld (str "transitional_request_index"))]))
  ; (* prototypes/splitter.py 175-180, 186-192 *)
    (str "Splitter", mkMethods None (Some [Super; Copy (Fld (str "input_priority")); Copy (Fld (str "output_priority")); Copy (Fld (str "filter"))]) (Some [TSuper; TAttr (Fld (str "input_priority")); TAttr (Fld (str "output_priority")); TAttr (Fld (str "filter"))]))
  ; (* prototypes/train_stop.py 411-415, 421-426 *)
    (str "TrainStop", mkMethods None (Some [Super; Copy (Fld (str "station")); Copy (Fld (str "manual_trains_limit"))]) (Some [TSuper; TAttr (Fld (str "station")); TAttr (Fld (str "manual_trains_limit"))])) ].

(** The classes with their bases, in order. *)
Definition bases_table : list (pystr * list pystr) :=
  [ (* prototypes/accumulator.py 18 *)
    (str "Accumulator", [str "ControlBehaviorMixin"; str "CircuitConnectableMixin"; str "Entity"])
  ; (* prototypes/agricultural_tower.py 21 *)
    (str "AgriculturalTower", [str "LogisticConditionMixin"; str "CircuitConditionMixin"; str "ControlBehaviorMixin"; str "CircuitConnectableMixin"; str "Entity"])
  ; (* prototypes/ammo_turret.py 26 *)
    (str "AmmoTurret", [str "RequestItemsMixin"; str "ReadAmmoMixin"; str "TargetPrioritiesMixin"; str "CircuitConditionMixin"; str "LogisticConditionMixin"; str "CircuitEnableMixin"; str "ControlBehaviorMixin"; str "CircuitConnectableMixin"; str "DirectionalMixin"; str "Entity"])
  ; (* prototypes/arithmetic_combinator.py 29 *)
    (str "ArithmeticCombinator", [str "PlayerDescriptionMixin"; str "ControlBehaviorMixin"; str "CircuitConnectableMixin"; str "DirectionalMixin"; str "Entity"])
  ; (* prototypes/artillery_turret.py 29 *)
    (str "ArtilleryTurret", [str "ArtilleryAutoTargetMixin"; str "RequestItemsMixin"; str "ReadAmmoMixin"; str "CircuitConditionMixin"; str "LogisticConditionMixin"; str "CircuitEnableMixin"; str "ControlBehaviorMixin"; str "CircuitConnectableMixin"; str "DirectionalMixin"; str "Entity"])
  ; (* prototypes/artillery_wagon.py 21 *)
    (str "ArtilleryWagon", [str "ArtilleryAutoTargetMixin"; str "EquipmentGridMixin"; str "RequestItemsMixin"; str "OrientationMixin"; str "Entity"])
  ; (* prototypes/assembling_machine.py 25 *)
    (str "AssemblingMachine", [str "InputIngredientsMixin"; str "ModulesMixin"; str "RequestItemsMixin"; str "CircuitConnectableMixin"; str "RecipeMixin"; str "DirectionalMixin"; str "Entity"])
  ; (* prototypes/asteroid_collector.py 24 *)
    (str "AsteroidCollector", [str "CircuitSetFiltersMixin"; str "CircuitConditionMixin"; str "CircuitEnableMixin"; str "ControlBehaviorMixin"; str "CircuitConnectableMixin"; str "DirectionalMixin"; str "Entity"])
  ; (* prototypes/beacon.py 20 *)
    (str "Beacon", [str "ModulesMixin"; str "RequestItemsMixin"; str "Entity"])
  ; (* prototypes/boiler.py 17 *)
    (str "Boiler", [str "RequestItemsMixin"; str "DirectionalMixin"; str "Entity"])
  ; (* prototypes/burner_generator.py 22 *)
    (str "BurnerGenerator", [str "BurnerEnergySourceMixin"; str "RequestItemsMixin"; str "DirectionalMixin"; str "Entity"])
  ; (* prototypes/car.py 22 *)
    (str "Car", [str "VehicleMixin"; str "EquipmentGridMixin"; str "RequestItemsMixin"; str "OrientationMixin"; str "Entity"])
  ; (* prototypes/cargo_landing_pad.py 21 *)
    (str "CargoLandingPad", [str "RequestFiltersMixin"; str "CargoHubModeOfOperationMixin"; str "ControlBehaviorMixin"; str "CircuitConnectableMixin"; str "Entity"])
  ; (* prototypes/cargo_wagon.py 21 *)
    (str "CargoWagon", [str "EquipmentGridMixin"; str "RequestItemsMixin"; str "InventoryFilterMixin"; str "OrientationMixin"; str "Entity"])
  ; (* prototypes/constant_combinator.py 32 *)
    (str "ConstantCombinator", [str "PlayerDescriptionMixin"; str "ControlBehaviorMixin"; str "CircuitConnectableMixin"; str "DirectionalMixin"; str "Entity"])
  ; (* prototypes/container.py 20 *)
    (str "Container", [str "InventoryMixin"; str "RequestItemsMixin"; str "CircuitConnectableMixin"; str "Entity"])
  ; (* prototypes/curved_rail_a.py 15 *)
    (str "CurvedRailA", [str "DoubleGridAlignedMixin"; str "EightWayDirectionalMixin"; str "Entity"])
  ; (* prototypes/curved_rail_b.py 15 *)
    (str "CurvedRailB", [str "DoubleGridAlignedMixin"; str "EightWayDirectionalMixin"; str "Entity"])
  ; (* prototypes/decider_combinator.py 278 *)
    (str "DeciderCombinator", [str "PlayerDescriptionMixin"; str "ControlBehaviorMixin"; str "CircuitConnectableMixin"; str "DirectionalMixin"; str "Entity"])
  ; (* prototypes/display_panel.py 21 *)
    (str "DisplayPanel", [str "ControlBehaviorMixin"; str "CircuitConnectableMixin"; str "DirectionalMixin"; str "Entity"])
  ; (* prototypes/electric_energy_interface.py 21 *)
    (str "ElectricEnergyInterface", [str "Entity"])
  ; (* prototypes/electric_pole.py 17 *)
    (str "ElectricPole", [str "CircuitConnectableMixin"; str "PowerConnectableMixin"; str "Entity"])
  ; (* prototypes/electric_turret.py 26 *)
    (str "ElectricTurret", [str "RequestItemsMixin"; str "ReadAmmoMixin"; str "TargetPrioritiesMixin"; str "CircuitConditionMixin"; str "LogisticConditionMixin"; str "CircuitEnableMixin"; str "ControlBehaviorMixin"; str "CircuitConnectableMixin"; str "DirectionalMixin"; str "Entity"])
  ; (* prototypes/elevated_curved_rail_a.py 15 *)
    (str "ElevatedCurvedRailA", [str "DoubleGridAlignedMixin"; str "EightWayDirectionalMixin"; str "Entity"])
  ; (* prototypes/elevated_curved_rail_b.py 15 *)
    (str "ElevatedCurvedRailB", [str "DoubleGridAlignedMixin"; str "EightWayDirectionalMixin"; str "Entity"])
  ; (* prototypes/elevated_half_diagonal_rail.py 15 *)
    (str "ElevatedHalfDiagonalRail", [str "DoubleGridAlignedMixin"; str "EightWayDirectionalMixin"; str "Entity"])
  ; (* prototypes/elevated_straight_rail.py 15 *)
    (str "ElevatedStraightRail", [str "DoubleGridAlignedMixin"; str "EightWayDirectionalMixin"; str "Entity"])
  ; (* prototypes/fluid_turret.py 26 *)
    (str "FluidTurret", [str "RequestItemsMixin"; str "ReadAmmoMixin"; str "TargetPrioritiesMixin"; str "CircuitConditionMixin"; str "LogisticConditionMixin"; str "CircuitEnableMixin"; str "ControlBehaviorMixin"; str "CircuitConnectableMixin"; str "DirectionalMixin"; str "Entity"])
  ; (* prototypes/fluid_wagon.py 16 *)
    (str "FluidWagon", [str "OrientationMixin"; str "Entity"])
  ; (* prototypes/furnace.py 27 *)
    (str "Furnace", [str "InputIngredientsMixin"; str "BurnerEnergySourceMixin"; str "ModulesMixin"; str "RequestItemsMixin"; str "DirectionalMixin"; str "Entity"])
  ; (* prototypes/fusion_generator.py 15 *)
    (str "FusionGenerator", [str "DirectionalMixin"; str "Entity"])
  ; (* prototypes/gate.py 15 *)
    (str "Gate", [str "DirectionalMixin"; str "Entity"])
  ; (* prototypes/generator.py 16 *)
    (str "Generator", [str "DirectionalMixin"; str "Entity"])
  ; (* prototypes/heat_interface.py 16 *)
    (str "HeatInterface", [str "Entity"])
  ; (* prototypes/heat_pipe.py 14 *)
    (str "HeatPipe", [str "Entity"])
  ; (* prototypes/infinity_container.py 20 *)
    (str "InfinityContainer", [str "RequestItemsMixin"; str "InventoryMixin"; str "Entity"])
  ; (* prototypes/infinity_pipe.py 18 *)
    (str "InfinityPipe", [str "Entity"])
  ; (* prototypes/inserter.py 28 *)
    (str "Inserter", [str "FiltersMixin"; str "StackSizeMixin"; str "CircuitReadHandMixin"; str "InserterModeOfOperationMixin"; str "CircuitConditionMixin"; str "LogisticConditionMixin"; str "CircuitEnableMixin"; str "ControlBehaviorMixin"; str "CircuitConnectableMixin"; str "DirectionalMixin"; str "Entity"])
  ; (* prototypes/lab.py 19 *)
    (str "Lab", [str "ModulesMixin"; str "RequestItemsMixin"; str "Entity"])
  ; (* prototypes/lamp.py 21 *)
    (str "Lamp", [str "CircuitConditionMixin"; str "ControlBehaviorMixin"; str "CircuitConnectableMixin"; str "Entity"])
  ; (* prototypes/land_mine.py 14 *)
    (str "LandMine", [str "Entity"])
  ; (* prototypes/legacy_curved_rail.py 51 *)
    (str "LegacyCurvedRail", [str "DoubleGridAlignedMixin"; str "EightWayDirectionalMixin"; str "Entity"])
  ; (* prototypes/legacy_straight_rail.py 45 *)
    (str "LegacyStraightRail", [str "DoubleGridAlignedMixin"; str "EightWayDirectionalMixin"; str "Entity"])
  ; (* prototypes/lightning_attractor.py 14 *)
    (str "LightningAttractor", [str "Entity"])
  ; (* prototypes/linked_belt.py 15 *)
    (str "LinkedBelt", [str "DirectionalMixin"; str "Entity"])
  ; (* prototypes/linked_container.py 17 *)
    (str "LinkedContainer", [str "InventoryMixin"; str "RequestItemsMixin"; str "Entity"])
  ; (* prototypes/loader.py 16 *)
    (str "Loader", [str "FiltersMixin"; str "IOTypeMixin"; str "DirectionalMixin"; str "Entity"])
  ; (* prototypes/locomotive.py 21 *)
    (str "Locomotive", [str "EquipmentGridMixin"; str "RequestItemsMixin"; str "ColorMixin"; str "OrientationMixin"; str "Entity"])
  ; (* prototypes/logistic_active_container.py 24 *)
    (str "LogisticActiveContainer", [str "InventoryMixin"; str "RequestItemsMixin"; str "LogisticModeOfOperationMixin"; str "CircuitConditionMixin"; str "ControlBehaviorMixin"; str "CircuitConnectableMixin"; str "Entity"])
  ; (* prototypes/logistic_buffer_container.py 29 *)
    (str "LogisticBufferContainer", [str "InventoryMixin"; str "RequestItemsMixin"; str "LogisticModeOfOperationMixin"; str "CircuitConditionMixin"; str "ControlBehaviorMixin"; str "CircuitConnectableMixin"; str "RequestFiltersMixin"; str "Entity"])
  ; (* prototypes/logistic_passive_container.py 24 *)
    (str "LogisticPassiveContainer", [str "InventoryMixin"; str "RequestItemsMixin"; str "LogisticModeOfOperationMixin"; str "CircuitConditionMixin"; str "ControlBehaviorMixin"; str "CircuitConnectableMixin"; str "Entity"])
  ; (* prototypes/logistic_request_container.py 29 *)
    (str "LogisticRequestContainer", [str "InventoryMixin"; str "RequestItemsMixin"; str "LogisticModeOfOperationMixin"; str "CircuitConditionMixin"; str "ControlBehaviorMixin"; str "CircuitConnectableMixin"; str "RequestFiltersMixin"; str "Entity"])
  ; (* prototypes/logistic_storage_container.py 24 *)
    (str "LogisticStorageContainer", [str "InventoryMixin"; str "RequestItemsMixin"; str "LogisticModeOfOperationMixin"; str "CircuitConditionMixin"; str "ControlBehaviorMixin"; str "CircuitConnectableMixin"; str "RequestFiltersMixin"; str "Entity"])
  ; (* prototypes/mining_drill.py 27 *)
    (str "MiningDrill", [str "BurnerEnergySourceMixin"; str "ModulesMixin"; str "RequestItemsMixin"; str "CircuitReadResourceMixin"; str "CircuitConditionMixin"; str "LogisticConditionMixin"; str "CircuitEnableMixin"; str "ControlBehaviorMixin"; str "CircuitConnectableMixin"; str "DirectionalMixin"; str "Entity"])
  ; (* prototypes/offshore_pump.py 22 *)
    (str "OffshorePump", [str "CircuitConditionMixin"; str "LogisticConditionMixin"; str "ControlBehaviorMixin"; str "CircuitConnectableMixin"; str "DirectionalMixin"; str "Entity"])
  ; (* prototypes/pipe.py 14 *)
    (str "Pipe", [str "Entity"])
  ; (* prototypes/player_port.py 14 *)
    (str "PlayerPort", [str "Entity"])
  ; (* prototypes/power_switch.py 25 *)
    (str "PowerSwitch", [str "CircuitConditionMixin"; str "LogisticConditionMixin"; str "ControlBehaviorMixin"; str "CircuitConnectableMixin"; str "PowerConnectableMixin"; str "Entity"])
  ; (* prototypes/programmable_speaker.py 33 *)
    (str "ProgrammableSpeaker", [str "CircuitConditionMixin"; str "CircuitEnableMixin"; str "ControlBehaviorMixin"; str "CircuitConnectableMixin"; str "Entity"])
  ; (* prototypes/pump.py 21 *)
    (str "Pump", [str "CircuitConditionMixin"; str "ControlBehaviorMixin"; str "CircuitConnectableMixin"; str "DirectionalMixin"; str "Entity"])
  ; (* prototypes/radar.py 15 *)
    (str "Radar", [str "CircuitConnectableMixin"; str "Entity"])
  ; (* prototypes/rail_chain_signal.py 22 *)
    (str "RailChainSignal", [str "ReadRailSignalMixin"; str "ControlBehaviorMixin"; str "CircuitConnectableMixin"; str "EightWayDirectionalMixin"; str "Entity"])
  ; (* prototypes/rail_ramp.py 15 *)
    (str "RailRamp", [str "DoubleGridAlignedMixin"; str "EightWayDirectionalMixin"; str "Entity"])
  ; (* prototypes/rail_signal.py 24 *)
    (str "RailSignal", [str "ReadRailSignalMixin"; str "CircuitConditionMixin"; str "CircuitEnableMixin"; str "ControlBehaviorMixin"; str "CircuitConnectableMixin"; str "EightWayDirectionalMixin"; str "Entity"])
  ; (* prototypes/reactor.py 22 *)
    (str "Reactor", [str "BurnerEnergySourceMixin"; str "RequestItemsMixin"; str "ControlBehaviorMixin"; str "CircuitConnectableMixin"; str "Entity"])
  ; (* prototypes/roboport.py 20 *)
    (str "Roboport", [str "ControlBehaviorMixin"; str "CircuitConnectableMixin"; str "Entity"])
  ; (* prototypes/rocket_silo.py 23 *)
    (str "RocketSilo", [str "ModulesMixin"; str "RequestItemsMixin"; str "ControlBehaviorMixin"; str "CircuitConnectableMixin"; str "RecipeMixin"; str "Entity"])
  ; (* prototypes/selector_combinator.py 22 *)
    (str "SelectorCombinator", [str "PlayerDescriptionMixin"; str "ControlBehaviorMixin"; str "CircuitConnectableMixin"; str "DirectionalMixin"; str "Entity"])
  ; (* prototypes/simple_entity_with_force.py 17 *)
    (str "SimpleEntityWithForce", [str "DirectionalMixin"; str "Entity"])
  ; (* prototypes/simple_entity_with_owner.py 17 *)
    (str "SimpleEntityWithOwner", [str "DirectionalMixin"; str "Entity"])
  ; (* prototypes/solar_panel.py 14 *)
    (str "SolarPanel", [str "Entity"])
  ; (* prototypes/space_platform_hub.py 21 *)
    (str "SpacePlatformHub", [str "RequestFiltersMixin"; str "ControlBehaviorMixin"; str "CircuitConnectableMixin"; str "Entity"])
  ; (* prototypes/spider_vehicle.py 23 *)
    (str "SpiderVehicle", [str "VehicleMixin"; str "EquipmentGridMixin"; str "RequestFiltersMixin"; str "RequestItemsMixin"; str "OrientationMixin"; str "Entity"])
  ; (* prototypes/splitter.py 22 *)
    (str "Splitter", [str "DirectionalMixin"; str "Entity"])
  ; (* prototypes/storage_tank.py 17 *)
    (str "StorageTank", [str "CircuitConnectableMixin"; str "DirectionalMixin"; str "Entity"])
  ; (* prototypes/straight_rail.py 45 *)
    (str "StraightRail", [str "DoubleGridAlignedMixin"; str "EightWayDirectionalMixin"; str "Entity"])
  ; (* prototypes/thruster.py 14 *)
    (str "Thruster", [str "Entity"])
  ; (* prototypes/train_stop.py 29 *)
    (str "TrainStop", [str "ColorMixin"; str "CircuitConditionMixin"; str "LogisticConditionMixin"; str "CircuitEnableMixin"; str "ControlBehaviorMixin"; str "CircuitConnectableMixin"; str "DoubleGridAlignedMixin"; str "DirectionalMixin"; str "Entity"])
  ; (* prototypes/transport_belt.py 24 *)
    (str "TransportBelt", [str "CircuitReadContentsMixin"; str "CircuitConditionMixin"; str "LogisticConditionMixin"; str "CircuitEnableMixin"; str "ControlBehaviorMixin"; str "CircuitConnectableMixin"; str "DirectionalMixin"; str "Entity"])
  ; (* prototypes/turret.py 16 *)
    (str "Turret", [str "RequestItemsMixin"; str "DirectionalMixin"; str "Entity"])
  ; (* prototypes/underground_belt.py 15 *)
    (str "UndergroundBelt", [str "IOTypeMixin"; str "DirectionalMixin"; str "Entity"])
  ; (* prototypes/underground_pipe.py 15 *)
    (str "UndergroundPipe", [str "DirectionalMixin"; str "Entity"])
  ; (* prototypes/wall.py 22 *)
    (str "Wall", [str "CircuitConditionMixin"; str "CircuitEnableMixin"; str "ControlBehaviorMixin"; str "CircuitConnectableMixin"; str "Entity"]) ].
