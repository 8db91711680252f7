(** The classes of entities, transcribed from /repo/draftsman by reading the class
    statements, the annotated fields of the models and the bodies of the properties.

    [bases]: every class of prototypes/*.py that is imported (all but FilterInserter,
    whose module names a mixin that does not exist), [Entity], and the classes they
    inherit from or contain. Bases are written with the names of the classes they
    denote.
    [fields]: the annotated names of each model that do not start with an underscore.
    [props]: the properties whose getter returns a place below [self._root], with
    their setters. Not in the table, for their setters do more than check and store:
    ArithmeticCombinator.first_operand, ArithmeticCombinator.operation,
    ArithmeticCombinator.second_operand, ArithmeticCombinator.output_signal,
    DirectionalMixin.direction, EightWayDirectionalMixin.direction, Entity.name,
    Entity.id, Entity.position, Entity.tile_position,
    Exportable.validate_assignment, LinkedContainer.link_id,
    OrientationMixin.orientation, ProgrammableSpeaker.instrument_name,
    ProgrammableSpeaker.note_name, RequestItemsMixin.items. *)
From Coq Require Import String List.
From Verif Require Import Attr_Model.
Import ListNotations.
Local Open Scope string_scope.
Local Open Scope list_scope.

Definition root (ss : list step) : place := {| base := None; steps := ss |}.
Definition self (a : string) (ss : list step) : place := {| base := Some a; steps := ss |}.

(** class statements: name, bases, file and line. *)
Definition bases : list (cls * list cls) := [
  ("Accumulator", ["ControlBehaviorMixin"; "CircuitConnectableMixin"; "Entity"]); (* prototypes/accumulator.py 18 *)
  ("Accumulator.Format", ["ControlBehaviorMixin.Format"; "CircuitConnectableMixin.Format"; "Entity.Format"]); (* prototypes/accumulator.py 23 *)
  ("Accumulator.Format.ControlBehavior", ["DraftsmanBaseModel"]); (* prototypes/accumulator.py 28 *)
  ("AgriculturalTower", ["LogisticConditionMixin"; "CircuitConditionMixin"; "ControlBehaviorMixin"; "CircuitConnectableMixin"; "Entity"]); (* prototypes/agricultural_tower.py 21 *)
  ("AgriculturalTower.Format", ["CircuitConditionMixin.Format"; "LogisticConditionMixin.Format"; "ControlBehaviorMixin.Format"; "CircuitConnectableMixin.Format"; "Entity.Format"]); (* prototypes/agricultural_tower.py 32 *)
  ("AgriculturalTower.Format.ControlBehavior", ["CircuitConditionMixin.ControlFormat"; "LogisticConditionMixin.ControlFormat"; "DraftsmanBaseModel"]); (* prototypes/agricultural_tower.py 39 *)
  ("AmmoTurret", ["RequestItemsMixin"; "ReadAmmoMixin"; "TargetPrioritiesMixin"; "CircuitConditionMixin"; "LogisticConditionMixin"; "CircuitEnableMixin"; "ControlBehaviorMixin"; "CircuitConnectableMixin"; "DirectionalMixin"; "Entity"]); (* prototypes/ammo_turret.py 26 *)
  ("AmmoTurret.Format", ["RequestItemsMixin.Format"; "ReadAmmoMixin.Format"; "TargetPrioritiesMixin.Format"; "CircuitConditionMixin.Format"; "LogisticConditionMixin.Format"; "CircuitEnableMixin.Format"; "ControlBehaviorMixin.Format"; "CircuitConnectableMixin.Format"; "DirectionalMixin.Format"; "Entity.Format"]); (* prototypes/ammo_turret.py 43 *)
  ("AmmoTurret.Format.ControlBehavior", ["ReadAmmoMixin.ControlFormat"; "TargetPrioritiesMixin.ControlFormat"; "CircuitConditionMixin.ControlFormat"; "LogisticConditionMixin.ControlFormat"; "CircuitEnableMixin.ControlFormat"; "DraftsmanBaseModel"]); (* prototypes/ammo_turret.py 55 *)
  ("ArithmeticCombinator", ["PlayerDescriptionMixin"; "ControlBehaviorMixin"; "CircuitConnectableMixin"; "DirectionalMixin"; "Entity"]); (* prototypes/arithmetic_combinator.py 29 *)
  ("ArithmeticCombinator.Format", ["PlayerDescriptionMixin.Format"; "ControlBehaviorMixin.Format"; "CircuitConnectableMixin.Format"; "DirectionalMixin.Format"; "Entity.Format"]); (* prototypes/arithmetic_combinator.py 41 *)
  ("ArithmeticCombinator.Format.ControlBehavior", ["DraftsmanBaseModel"]); (* prototypes/arithmetic_combinator.py 48 *)
  ("ArithmeticCombinator.Format.ControlBehavior.ArithmeticConditions", ["DraftsmanBaseModel"]); (* prototypes/arithmetic_combinator.py 49 *)
  ("ArtilleryAutoTargetMixin", ["object"]); (* classes/mixins/artillery_auto_target.py 9 *)
  ("ArtilleryAutoTargetMixin.Format", ["BaseModel"]); (* classes/mixins/artillery_auto_target.py 15 *)
  ("ArtilleryTurret", ["ArtilleryAutoTargetMixin"; "RequestItemsMixin"; "ReadAmmoMixin"; "CircuitConditionMixin"; "LogisticConditionMixin"; "CircuitEnableMixin"; "ControlBehaviorMixin"; "CircuitConnectableMixin"; "DirectionalMixin"; "Entity"]); (* prototypes/artillery_turret.py 29 *)
  ("ArtilleryTurret.Format", ["ArtilleryAutoTargetMixin.Format"; "RequestItemsMixin.Format"; "ReadAmmoMixin.Format"; "CircuitConditionMixin.Format"; "LogisticConditionMixin.Format"; "CircuitEnableMixin.Format"; "ControlBehaviorMixin.Format"; "CircuitConnectableMixin.Format"; "DirectionalMixin.Format"; "Entity.Format"]); (* prototypes/artillery_turret.py 46 *)
  ("ArtilleryTurret.Format.ControlBehavior", ["ReadAmmoMixin.ControlFormat"; "CircuitConditionMixin.ControlFormat"; "LogisticConditionMixin.ControlFormat"; "CircuitEnableMixin.ControlFormat"; "DraftsmanBaseModel"]); (* prototypes/artillery_turret.py 58 *)
  ("ArtilleryWagon", ["ArtilleryAutoTargetMixin"; "EquipmentGridMixin"; "RequestItemsMixin"; "OrientationMixin"; "Entity"]); (* prototypes/artillery_wagon.py 21 *)
  ("ArtilleryWagon.Format", ["ArtilleryAutoTargetMixin.Format"; "EquipmentGridMixin.Format"; "RequestItemsMixin.Format"; "OrientationMixin.Format"; "Entity.Format"]); (* prototypes/artillery_wagon.py 32 *)
  ("AssemblingMachine", ["InputIngredientsMixin"; "ModulesMixin"; "RequestItemsMixin"; "CircuitConnectableMixin"; "RecipeMixin"; "DirectionalMixin"; "Entity"]); (* prototypes/assembling_machine.py 25 *)
  ("AssemblingMachine.Format", ["InputIngredientsMixin.Format"; "ModulesMixin.Format"; "RequestItemsMixin.Format"; "RecipeMixin.Format"; "DirectionalMixin.Format"; "Entity.Format"]); (* prototypes/assembling_machine.py 40 *)
  ("AsteroidCollector", ["CircuitSetFiltersMixin"; "CircuitConditionMixin"; "CircuitEnableMixin"; "ControlBehaviorMixin"; "CircuitConnectableMixin"; "DirectionalMixin"; "Entity"]); (* prototypes/asteroid_collector.py 24 *)
  ("AsteroidCollector.Format", ["CircuitSetFiltersMixin.Format"; "CircuitConditionMixin.Format"; "CircuitEnableMixin.Format"; "ControlBehaviorMixin.Format"; "CircuitConnectableMixin.Format"; "DirectionalMixin.Format"; "Entity.Format"]); (* prototypes/asteroid_collector.py 37 *)
  ("AsteroidCollector.Format.ControlBehavior", ["CircuitSetFiltersMixin.ControlFormat"; "CircuitConditionMixin.ControlFormat"; "CircuitEnableMixin.ControlFormat"; "DraftsmanBaseModel"]); (* prototypes/asteroid_collector.py 46 *)
  ("Beacon", ["ModulesMixin"; "RequestItemsMixin"; "Entity"]); (* prototypes/beacon.py 20 *)
  ("Beacon.Format", ["ModulesMixin.Format"; "RequestItemsMixin.Format"; "Entity.Format"]); (* prototypes/beacon.py 25 *)
  ("Boiler", ["RequestItemsMixin"; "DirectionalMixin"; "Entity"]); (* prototypes/boiler.py 17 *)
  ("Boiler.Format", ["RequestItemsMixin.Format"; "DirectionalMixin.Format"; "Entity.Format"]); (* prototypes/boiler.py 23 *)
  ("BurnerEnergySourceMixin", ["object"]); (* classes/mixins/burner_energy_source.py 21 *)
  ("BurnerEnergySourceMixin.Format", ["BaseModel"]); (* classes/mixins/burner_energy_source.py 28 *)
  ("BurnerGenerator", ["BurnerEnergySourceMixin"; "RequestItemsMixin"; "DirectionalMixin"; "Entity"]); (* prototypes/burner_generator.py 22 *)
  ("BurnerGenerator.Format", ["BurnerEnergySourceMixin.Format"; "RequestItemsMixin.Format"; "DirectionalMixin.Format"; "Entity.Format"]); (* prototypes/burner_generator.py 29 *)
  ("Car", ["VehicleMixin"; "EquipmentGridMixin"; "RequestItemsMixin"; "OrientationMixin"; "Entity"]); (* prototypes/car.py 22 *)
  ("Car.Format", ["VehicleMixin.Format"; "EquipmentGridMixin.Format"; "RequestItemsMixin.Format"; "OrientationMixin.Format"; "Entity.Format"]); (* prototypes/car.py 29 *)
  ("CargoHubModeOfOperationMixin", ["object"]); (* classes/mixins/mode_of_operation.py 107 *)
  ("CargoHubModeOfOperationMixin.ControlFormat", ["BaseModel"]); (* classes/mixins/mode_of_operation.py 114 *)
  ("CargoHubModeOfOperationMixin.Format", ["BaseModel"]); (* classes/mixins/mode_of_operation.py 123 *)
  ("CargoLandingPad", ["RequestFiltersMixin"; "CargoHubModeOfOperationMixin"; "ControlBehaviorMixin"; "CircuitConnectableMixin"; "Entity"]); (* prototypes/cargo_landing_pad.py 21 *)
  ("CargoLandingPad.Format", ["RequestFiltersMixin.Format"; "CargoHubModeOfOperationMixin.Format"; "ControlBehaviorMixin.Format"; "CircuitConnectableMixin.Format"; "Entity.Format"]); (* prototypes/cargo_landing_pad.py 32 *)
  ("CargoLandingPad.Format.ControlBehavior", ["CargoHubModeOfOperationMixin.ControlFormat"; "DraftsmanBaseModel"]); (* prototypes/cargo_landing_pad.py 39 *)
  ("CargoWagon", ["EquipmentGridMixin"; "RequestItemsMixin"; "InventoryFilterMixin"; "OrientationMixin"; "Entity"]); (* prototypes/cargo_wagon.py 21 *)
  ("CargoWagon.Format", ["EquipmentGridMixin.Format"; "RequestItemsMixin.Format"; "InventoryFilterMixin.Format"; "OrientationMixin.Format"; "Entity.Format"]); (* prototypes/cargo_wagon.py 32 *)
  ("CircuitConditionMixin", ["object"]); (* classes/mixins/circuit_condition.py 10 *)
  ("CircuitConditionMixin.ControlFormat", ["BaseModel"]); (* classes/mixins/circuit_condition.py 17 *)
  ("CircuitConditionMixin.Format", ["BaseModel"]); (* classes/mixins/circuit_condition.py 33 *)
  ("CircuitConnectableMixin", ["object"]); (* classes/mixins/circuit_connectable.py 17 *)
  ("CircuitConnectableMixin.Format", ["DraftsmanBaseModel"]); (* classes/mixins/circuit_connectable.py 22 *)
  ("CircuitEnableMixin", ["object"]); (* classes/mixins/circuit_enable.py 9 *)
  ("CircuitEnableMixin.ControlFormat", ["BaseModel"]); (* classes/mixins/circuit_enable.py 17 *)
  ("CircuitEnableMixin.Format", ["BaseModel"]); (* classes/mixins/circuit_enable.py 27 *)
  ("CircuitReadContentsMixin", ["object"]); (* classes/mixins/circuit_read_contents.py 10 *)
  ("CircuitReadContentsMixin.ControlFormat", ["BaseModel"]); (* classes/mixins/circuit_read_contents.py 22 *)
  ("CircuitReadContentsMixin.Format", ["BaseModel"]); (* classes/mixins/circuit_read_contents.py 37 *)
  ("CircuitReadHandMixin", ["object"]); (* classes/mixins/circuit_read_hand.py 10 *)
  ("CircuitReadHandMixin.ControlFormat", ["BaseModel"]); (* classes/mixins/circuit_read_hand.py 22 *)
  ("CircuitReadHandMixin.Format", ["BaseModel"]); (* classes/mixins/circuit_read_hand.py 37 *)
  ("CircuitReadResourceMixin", ["object"]); (* classes/mixins/circuit_read_resource.py 10 *)
  ("CircuitReadResourceMixin.ControlFormat", ["BaseModel"]); (* classes/mixins/circuit_read_resource.py 22 *)
  ("CircuitReadResourceMixin.Format", ["BaseModel"]); (* classes/mixins/circuit_read_resource.py 38 *)
  ("CircuitSetFiltersMixin", ["object"]); (* classes/mixins/circuit_set_filters.py 9 *)
  ("CircuitSetFiltersMixin.ControlFormat", ["BaseModel"]); (* classes/mixins/circuit_set_filters.py 16 *)
  ("CircuitSetFiltersMixin.Format", ["BaseModel"]); (* classes/mixins/circuit_set_filters.py 24 *)
  ("ColorMixin", ["object"]); (* classes/mixins/color.py 21 *)
  ("ColorMixin.Format", ["BaseModel"]); (* classes/mixins/color.py 26 *)
  ("ConstantCombinator", ["PlayerDescriptionMixin"; "ControlBehaviorMixin"; "CircuitConnectableMixin"; "DirectionalMixin"; "Entity"]); (* prototypes/constant_combinator.py 32 *)
  ("ConstantCombinator.Format", ["PlayerDescriptionMixin.Format"; "ControlBehaviorMixin.Format"; "CircuitConnectableMixin.Format"; "DirectionalMixin.Format"; "Entity.Format"]); (* prototypes/constant_combinator.py 44 *)
  ("ConstantCombinator.Format.ControlBehavior", ["DraftsmanBaseModel"]); (* prototypes/constant_combinator.py 81 *)
  ("Container", ["InventoryMixin"; "RequestItemsMixin"; "CircuitConnectableMixin"; "Entity"]); (* prototypes/container.py 20 *)
  ("Container.Format", ["InventoryMixin.Format"; "RequestItemsMixin.Format"; "CircuitConnectableMixin.Format"; "Entity.Format"]); (* prototypes/container.py 25 *)
  ("ControlBehaviorMixin", ["object"]); (* classes/mixins/control_behavior.py 22 *)
  ("ControlBehaviorMixin.Format", ["DraftsmanBaseModel"]); (* classes/mixins/control_behavior.py 48 *)
  ("CurvedRailA", ["DoubleGridAlignedMixin"; "EightWayDirectionalMixin"; "Entity"]); (* prototypes/curved_rail_a.py 15 *)
  ("CurvedRailA.Format", ["DoubleGridAlignedMixin.Format"; "EightWayDirectionalMixin.Format"; "Entity.Format"]); (* prototypes/curved_rail_a.py 20 *)
  ("CurvedRailB", ["DoubleGridAlignedMixin"; "EightWayDirectionalMixin"; "Entity"]); (* prototypes/curved_rail_b.py 15 *)
  ("CurvedRailB.Format", ["DoubleGridAlignedMixin.Format"; "EightWayDirectionalMixin.Format"; "Entity.Format"]); (* prototypes/curved_rail_b.py 20 *)
  ("DeciderCombinator", ["PlayerDescriptionMixin"; "ControlBehaviorMixin"; "CircuitConnectableMixin"; "DirectionalMixin"; "Entity"]); (* prototypes/decider_combinator.py 278 *)
  ("DeciderCombinator.Format", ["PlayerDescriptionMixin.Format"; "ControlBehaviorMixin.Format"; "CircuitConnectableMixin.Format"; "DirectionalMixin.Format"; "Entity.Format"]); (* prototypes/decider_combinator.py 384 *)
  ("DeciderCombinator.Format.ControlBehavior", ["DraftsmanBaseModel"]); (* prototypes/decider_combinator.py 391 *)
  ("DeciderCombinator.Format.ControlBehavior.DeciderConditions", ["DraftsmanBaseModel"]); (* prototypes/decider_combinator.py 392 *)
  ("DirectionalMixin", ["object"]); (* classes/mixins/directional.py 26 *)
  ("DirectionalMixin.Format", ["BaseModel"]); (* classes/mixins/directional.py 36 *)
  ("DisplayPanel", ["ControlBehaviorMixin"; "CircuitConnectableMixin"; "DirectionalMixin"; "Entity"]); (* prototypes/display_panel.py 21 *)
  ("DisplayPanel.Format", ["ControlBehaviorMixin.Format"; "CircuitConnectableMixin.Format"; "DirectionalMixin.Format"; "Entity.Format"]); (* prototypes/display_panel.py 28 *)
  ("DisplayPanel.Format.ControlBehavior", ["DraftsmanBaseModel"]); (* prototypes/display_panel.py 34 *)
  ("DisplayPanel.Format.ControlBehavior.PanelMessage", ["DraftsmanBaseModel"]); (* prototypes/display_panel.py 35 *)
  ("DoubleGridAlignedMixin", ["object"]); (* classes/mixins/double_grid_aligned.py 14 *)
  ("DoubleGridAlignedMixin.Format", ["BaseModel"]); (* classes/mixins/double_grid_aligned.py 20 *)
  ("DraftsmanBaseModel", ["BaseModel"]); (* signatures.py 120 *)
  ("EightWayDirectionalMixin", ["object"]); (* classes/mixins/eight_way_directional.py 27 *)
  ("EightWayDirectionalMixin.Format", ["BaseModel"]); (* classes/mixins/eight_way_directional.py 37 *)
  ("ElectricEnergyInterface", ["Entity"]); (* prototypes/electric_energy_interface.py 21 *)
  ("ElectricEnergyInterface.Format", ["Entity.Format"]); (* prototypes/electric_energy_interface.py 26 *)
  ("ElectricPole", ["CircuitConnectableMixin"; "PowerConnectableMixin"; "Entity"]); (* prototypes/electric_pole.py 17 *)
  ("ElectricPole.Format", ["CircuitConnectableMixin.Format"; "PowerConnectableMixin.Format"; "Entity.Format"]); (* prototypes/electric_pole.py 22 *)
  ("ElectricTurret", ["RequestItemsMixin"; "ReadAmmoMixin"; "TargetPrioritiesMixin"; "CircuitConditionMixin"; "LogisticConditionMixin"; "CircuitEnableMixin"; "ControlBehaviorMixin"; "CircuitConnectableMixin"; "DirectionalMixin"; "Entity"]); (* prototypes/electric_turret.py 26 *)
  ("ElectricTurret.Format", ["RequestItemsMixin.Format"; "ReadAmmoMixin.Format"; "TargetPrioritiesMixin.Format"; "CircuitConditionMixin.Format"; "LogisticConditionMixin.Format"; "CircuitEnableMixin.Format"; "ControlBehaviorMixin.Format"; "CircuitConnectableMixin.Format"; "DirectionalMixin.Format"; "Entity.Format"]); (* prototypes/electric_turret.py 43 *)
  ("ElectricTurret.Format.ControlBehavior", ["ReadAmmoMixin.ControlFormat"; "TargetPrioritiesMixin.ControlFormat"; "CircuitConditionMixin.ControlFormat"; "LogisticConditionMixin.ControlFormat"; "CircuitEnableMixin.ControlFormat"; "DraftsmanBaseModel"]); (* prototypes/electric_turret.py 55 *)
  ("ElevatedCurvedRailA", ["DoubleGridAlignedMixin"; "EightWayDirectionalMixin"; "Entity"]); (* prototypes/elevated_curved_rail_a.py 15 *)
  ("ElevatedCurvedRailA.Format", ["DoubleGridAlignedMixin.Format"; "EightWayDirectionalMixin.Format"; "Entity.Format"]); (* prototypes/elevated_curved_rail_a.py 20 *)
  ("ElevatedCurvedRailB", ["DoubleGridAlignedMixin"; "EightWayDirectionalMixin"; "Entity"]); (* prototypes/elevated_curved_rail_b.py 15 *)
  ("ElevatedCurvedRailB.Format", ["DoubleGridAlignedMixin.Format"; "EightWayDirectionalMixin.Format"; "Entity.Format"]); (* prototypes/elevated_curved_rail_b.py 20 *)
  ("ElevatedHalfDiagonalRail", ["DoubleGridAlignedMixin"; "EightWayDirectionalMixin"; "Entity"]); (* prototypes/elevated_half_diagonal_rail.py 15 *)
  ("ElevatedHalfDiagonalRail.Format", ["DoubleGridAlignedMixin.Format"; "EightWayDirectionalMixin.Format"; "Entity.Format"]); (* prototypes/elevated_half_diagonal_rail.py 22 *)
  ("ElevatedStraightRail", ["DoubleGridAlignedMixin"; "EightWayDirectionalMixin"; "Entity"]); (* prototypes/elevated_straight_rail.py 15 *)
  ("ElevatedStraightRail.Format", ["DoubleGridAlignedMixin.Format"; "EightWayDirectionalMixin.Format"; "Entity.Format"]); (* prototypes/elevated_straight_rail.py 20 *)
  ("Entity", ["Exportable"; "EntityLike"]); (* classes/entity.py 86 *)
  ("Entity.Format", ["DraftsmanBaseModel"]); (* classes/entity.py 93 *)
  ("EntityLike", ["SpatialLike"]); (* classes/entity_like.py 17 *)
  ("EquipmentGridMixin", ["object"]); (* classes/mixins/equipment_grid.py 13 *)
  ("EquipmentGridMixin.Format", ["BaseModel"]); (* classes/mixins/equipment_grid.py 18 *)
  ("EquipmentGridMixin.Format.EquipmentComponent", ["DraftsmanBaseModel"]); (* classes/mixins/equipment_grid.py 19 *)
  ("EquipmentGridMixin.Format.EquipmentComponent.EquipmentID", ["DraftsmanBaseModel"]); (* classes/mixins/equipment_grid.py 20 *)
  ("Exportable", ["object"]); (* classes/exportable.py 190 *)
  ("Exportable.Format", ["BaseModel"]); (* classes/exportable.py 198 *)
  ("FiltersMixin", ["object"]); (* classes/mixins/filters.py 12 *)
  ("FiltersMixin.Format", ["DraftsmanBaseModel"]); (* classes/mixins/filters.py 17 *)
  ("FluidTurret", ["RequestItemsMixin"; "ReadAmmoMixin"; "TargetPrioritiesMixin"; "CircuitConditionMixin"; "LogisticConditionMixin"; "CircuitEnableMixin"; "ControlBehaviorMixin"; "CircuitConnectableMixin"; "DirectionalMixin"; "Entity"]); (* prototypes/fluid_turret.py 26 *)
  ("FluidTurret.Format", ["RequestItemsMixin.Format"; "ReadAmmoMixin.Format"; "TargetPrioritiesMixin.Format"; "CircuitConditionMixin.Format"; "LogisticConditionMixin.Format"; "CircuitEnableMixin.Format"; "ControlBehaviorMixin.Format"; "CircuitConnectableMixin.Format"; "DirectionalMixin.Format"; "Entity.Format"]); (* prototypes/fluid_turret.py 43 *)
  ("FluidTurret.Format.ControlBehavior", ["ReadAmmoMixin.ControlFormat"; "TargetPrioritiesMixin.ControlFormat"; "CircuitConditionMixin.ControlFormat"; "LogisticConditionMixin.ControlFormat"; "CircuitEnableMixin.ControlFormat"; "DraftsmanBaseModel"]); (* prototypes/fluid_turret.py 55 *)
  ("FluidWagon", ["OrientationMixin"; "Entity"]); (* prototypes/fluid_wagon.py 16 *)
  ("FluidWagon.Format", ["EquipmentGridMixin.Format"; "OrientationMixin.Format"; "Entity.Format"]); (* prototypes/fluid_wagon.py 21 *)
  ("Furnace", ["InputIngredientsMixin"; "BurnerEnergySourceMixin"; "ModulesMixin"; "RequestItemsMixin"; "DirectionalMixin"; "Entity"]); (* prototypes/furnace.py 27 *)
  ("Furnace.Format", ["InputIngredientsMixin.Format"; "BurnerEnergySourceMixin.Format"; "ModulesMixin.Format"; "RequestItemsMixin.Format"; "DirectionalMixin.Format"; "Entity.Format"]); (* prototypes/furnace.py 39 *)
  ("FusionGenerator", ["DirectionalMixin"; "Entity"]); (* prototypes/fusion_generator.py 15 *)
  ("FusionGenerator.Format", ["DirectionalMixin.Format"; "Entity.Format"]); (* prototypes/fusion_generator.py 20 *)
  ("Gate", ["DirectionalMixin"; "Entity"]); (* prototypes/gate.py 15 *)
  ("Gate.Format", ["DirectionalMixin.Format"; "Entity.Format"]); (* prototypes/gate.py 20 *)
  ("Generator", ["DirectionalMixin"; "Entity"]); (* prototypes/generator.py 16 *)
  ("Generator.Format", ["DirectionalMixin.Format"; "Entity.Format"]); (* prototypes/generator.py 21 *)
  ("HeatInterface", ["Entity"]); (* prototypes/heat_interface.py 16 *)
  ("HeatInterface.Format", ["Entity.Format"]); (* prototypes/heat_interface.py 21 *)
  ("HeatPipe", ["Entity"]); (* prototypes/heat_pipe.py 14 *)
  ("HeatPipe.Format", ["Entity.Format"]); (* prototypes/heat_pipe.py 19 *)
  ("IOTypeMixin", ["object"]); (* classes/mixins/io_type.py 16 *)
  ("IOTypeMixin.Format", ["BaseModel"]); (* classes/mixins/io_type.py 21 *)
  ("InfinityContainer", ["RequestItemsMixin"; "InventoryMixin"; "Entity"]); (* prototypes/infinity_container.py 20 *)
  ("InfinityContainer.Format", ["RequestItemsMixin.Format"; "InventoryMixin.Format"; "Entity.Format"]); (* prototypes/infinity_container.py 25 *)
  ("InfinityContainer.Format.InfinitySettings", ["DraftsmanBaseModel"]); (* prototypes/infinity_container.py 26 *)
  ("InfinityContainer.Format.InfinitySettings.InfinityFilter", ["DraftsmanBaseModel"]); (* prototypes/infinity_container.py 27 *)
  ("InfinityPipe", ["Entity"]); (* prototypes/infinity_pipe.py 18 *)
  ("InfinityPipe.Format", ["Entity.Format"]); (* prototypes/infinity_pipe.py 23 *)
  ("InfinityPipe.Format.InfinitySettings", ["DraftsmanBaseModel"]); (* prototypes/infinity_pipe.py 24 *)
  ("InputIngredientsMixin", ["object"]); (* classes/mixins/input_ingredients.py 11 *)
  ("InputIngredientsMixin.Format", ["BaseModel"]); (* classes/mixins/input_ingredients.py 12 *)
  ("Inserter", ["FiltersMixin"; "StackSizeMixin"; "CircuitReadHandMixin"; "InserterModeOfOperationMixin"; "CircuitConditionMixin"; "LogisticConditionMixin"; "CircuitEnableMixin"; "ControlBehaviorMixin"; "CircuitConnectableMixin"; "DirectionalMixin"; "Entity"]); (* prototypes/inserter.py 28 *)
  ("Inserter.Format", ["FiltersMixin.Format"; "StackSizeMixin.Format"; "CircuitReadHandMixin.Format"; "InserterModeOfOperationMixin.Format"; "CircuitConditionMixin.Format"; "LogisticConditionMixin.Format"; "CircuitEnableMixin.Format"; "ControlBehaviorMixin.Format"; "CircuitConnectableMixin.Format"; "DirectionalMixin.Format"; "Entity.Format"]); (* prototypes/inserter.py 51 *)
  ("Inserter.Format.ControlBehavior", ["StackSizeMixin.ControlFormat"; "CircuitReadHandMixin.ControlFormat"; "InserterModeOfOperationMixin.ControlFormat"; "CircuitConditionMixin.ControlFormat"; "LogisticConditionMixin.ControlFormat"; "CircuitEnableMixin.ControlFormat"; "DraftsmanBaseModel"]); (* prototypes/inserter.py 64 *)
  ("InserterModeOfOperationMixin", ["object"]); (* classes/mixins/mode_of_operation.py 11 *)
  ("InserterModeOfOperationMixin.ControlFormat", ["BaseModel"]); (* classes/mixins/mode_of_operation.py 18 *)
  ("InserterModeOfOperationMixin.Format", ["BaseModel"]); (* classes/mixins/mode_of_operation.py 27 *)
  ("InventoryFilterMixin", ["object"]); (* classes/mixins/inventory_filter.py 35 *)
  ("InventoryFilterMixin.Format", ["BaseModel"]); (* classes/mixins/inventory_filter.py 40 *)
  ("InventoryFilterMixin.Format.InventoryFilters", ["DraftsmanBaseModel"]); (* classes/mixins/inventory_filter.py 41 *)
  ("InventoryMixin", ["object"]); (* classes/mixins/inventory.py 24 *)
  ("InventoryMixin.Format", ["DraftsmanBaseModel"]); (* classes/mixins/inventory.py 31 *)
  ("Lab", ["ModulesMixin"; "RequestItemsMixin"; "Entity"]); (* prototypes/lab.py 19 *)
  ("Lab.Format", ["ModulesMixin.Format"; "RequestItemsMixin.Format"; "Entity.Format"]); (* prototypes/lab.py 24 *)
  ("Lamp", ["CircuitConditionMixin"; "ControlBehaviorMixin"; "CircuitConnectableMixin"; "Entity"]); (* prototypes/lamp.py 21 *)
  ("Lamp.Format", ["CircuitConditionMixin.Format"; "ControlBehaviorMixin.Format"; "CircuitConnectableMixin.Format"; "Entity.Format"]); (* prototypes/lamp.py 28 *)
  ("Lamp.Format.ControlBehavior", ["CircuitConditionMixin.ControlFormat"; "DraftsmanBaseModel"]); (* prototypes/lamp.py 34 *)
  ("LandMine", ["Entity"]); (* prototypes/land_mine.py 14 *)
  ("LandMine.Format", ["Entity.Format"]); (* prototypes/land_mine.py 19 *)
  ("LegacyCurvedRail", ["DoubleGridAlignedMixin"; "EightWayDirectionalMixin"; "Entity"]); (* prototypes/legacy_curved_rail.py 51 *)
  ("LegacyCurvedRail.Format", ["DoubleGridAlignedMixin.Format"; "EightWayDirectionalMixin.Format"; "Entity.Format"]); (* prototypes/legacy_curved_rail.py 56 *)
  ("LegacyStraightRail", ["DoubleGridAlignedMixin"; "EightWayDirectionalMixin"; "Entity"]); (* prototypes/legacy_straight_rail.py 45 *)
  ("LegacyStraightRail.Format", ["DoubleGridAlignedMixin.Format"; "EightWayDirectionalMixin.Format"; "Entity.Format"]); (* prototypes/legacy_straight_rail.py 50 *)
  ("LightningAttractor", ["Entity"]); (* prototypes/lightning_attractor.py 14 *)
  ("LightningAttractor.Format", ["Entity.Format"]); (* prototypes/lightning_attractor.py 20 *)
  ("LinkedBelt", ["DirectionalMixin"; "Entity"]); (* prototypes/linked_belt.py 15 *)
  ("LinkedBelt.Format", ["DirectionalMixin.Format"; "Entity.Format"]); (* prototypes/linked_belt.py 26 *)
  ("LinkedContainer", ["InventoryMixin"; "RequestItemsMixin"; "Entity"]); (* prototypes/linked_container.py 17 *)
  ("LinkedContainer.Format", ["InventoryMixin.Format"; "RequestItemsMixin.Format"; "Entity.Format"]); (* prototypes/linked_container.py 23 *)
  ("Loader", ["FiltersMixin"; "IOTypeMixin"; "DirectionalMixin"; "Entity"]); (* prototypes/loader.py 16 *)
  ("Loader.Format", ["FiltersMixin.Format"; "IOTypeMixin.Format"; "DirectionalMixin.Format"; "Entity.Format"]); (* prototypes/loader.py 22 *)
  ("Locomotive", ["EquipmentGridMixin"; "RequestItemsMixin"; "ColorMixin"; "OrientationMixin"; "Entity"]); (* prototypes/locomotive.py 21 *)
  ("Locomotive.Format", ["EquipmentGridMixin.Format"; "RequestItemsMixin.Format"; "ColorMixin.Format"; "OrientationMixin.Format"; "Entity.Format"]); (* prototypes/locomotive.py 28 *)
  ("LogisticActiveContainer", ["InventoryMixin"; "RequestItemsMixin"; "LogisticModeOfOperationMixin"; "CircuitConditionMixin"; "ControlBehaviorMixin"; "CircuitConnectableMixin"; "Entity"]); (* prototypes/logistic_active_container.py 24 *)
  ("LogisticActiveContainer.Format", ["InventoryMixin.Format"; "RequestItemsMixin.Format"; "LogisticModeOfOperationMixin.Format"; "CircuitConditionMixin.Format"; "ControlBehaviorMixin.Format"; "CircuitConnectableMixin.Format"; "Entity.Format"]); (* prototypes/logistic_active_container.py 38 *)
  ("LogisticActiveContainer.Format.ControlBehavior", ["LogisticModeOfOperationMixin.ControlFormat"; "CircuitConditionMixin.ControlFormat"]); (* prototypes/logistic_active_container.py 47 *)
  ("LogisticBufferContainer", ["InventoryMixin"; "RequestItemsMixin"; "LogisticModeOfOperationMixin"; "CircuitConditionMixin"; "ControlBehaviorMixin"; "CircuitConnectableMixin"; "RequestFiltersMixin"; "Entity"]); (* prototypes/logistic_buffer_container.py 29 *)
  ("LogisticBufferContainer.Format", ["InventoryMixin.Format"; "RequestItemsMixin.Format"; "LogisticModeOfOperationMixin.Format"; "CircuitConditionMixin.Format"; "ControlBehaviorMixin.Format"; "CircuitConnectableMixin.Format"; "RequestFiltersMixin.Format"; "Entity.Format"]); (* prototypes/logistic_buffer_container.py 43 *)
  ("LogisticBufferContainer.Format.ControlBehavior", ["LogisticModeOfOperationMixin.ControlFormat"; "CircuitConditionMixin.ControlFormat"; "DraftsmanBaseModel"]); (* prototypes/logistic_buffer_container.py 53 *)
  ("LogisticConditionMixin", ["object"]); (* classes/mixins/logistic_condition.py 10 *)
  ("LogisticConditionMixin.ControlFormat", ["BaseModel"]); (* classes/mixins/logistic_condition.py 18 *)
  ("LogisticConditionMixin.Format", ["BaseModel"]); (* classes/mixins/logistic_condition.py 34 *)
  ("LogisticModeOfOperationMixin", ["object"]); (* classes/mixins/mode_of_operation.py 59 *)
  ("LogisticModeOfOperationMixin.ControlFormat", ["BaseModel"]); (* classes/mixins/mode_of_operation.py 66 *)
  ("LogisticModeOfOperationMixin.Format", ["BaseModel"]); (* classes/mixins/mode_of_operation.py 75 *)
  ("LogisticPassiveContainer", ["InventoryMixin"; "RequestItemsMixin"; "LogisticModeOfOperationMixin"; "CircuitConditionMixin"; "ControlBehaviorMixin"; "CircuitConnectableMixin"; "Entity"]); (* prototypes/logistic_passive_container.py 24 *)
  ("LogisticPassiveContainer.Format", ["InventoryMixin.Format"; "RequestItemsMixin.Format"; "LogisticModeOfOperationMixin.Format"; "CircuitConditionMixin.Format"; "ControlBehaviorMixin.Format"; "CircuitConnectableMixin.Format"; "Entity.Format"]); (* prototypes/logistic_passive_container.py 38 *)
  ("LogisticPassiveContainer.Format.ControlBehavior", ["LogisticModeOfOperationMixin.ControlFormat"; "CircuitConditionMixin.ControlFormat"]); (* prototypes/logistic_passive_container.py 47 *)
  ("LogisticRequestContainer", ["InventoryMixin"; "RequestItemsMixin"; "LogisticModeOfOperationMixin"; "CircuitConditionMixin"; "ControlBehaviorMixin"; "CircuitConnectableMixin"; "RequestFiltersMixin"; "Entity"]); (* prototypes/logistic_request_container.py 29 *)
  ("LogisticRequestContainer.Format", ["InventoryMixin.Format"; "RequestItemsMixin.Format"; "LogisticModeOfOperationMixin.Format"; "CircuitConditionMixin.Format"; "ControlBehaviorMixin.Format"; "CircuitConnectableMixin.Format"; "RequestFiltersMixin.Format"; "Entity.Format"]); (* prototypes/logistic_request_container.py 43 *)
  ("LogisticRequestContainer.Format.ControlBehavior", ["LogisticModeOfOperationMixin.ControlFormat"; "CircuitConditionMixin.ControlFormat"; "DraftsmanBaseModel"]); (* prototypes/logistic_request_container.py 53 *)
  ("LogisticRequestContainer.Format.LogisticsRequestFilters", ["RequestFiltersMixin.Format.RequestFilters"]); (* prototypes/logistic_request_container.py 64 *)
  ("LogisticStorageContainer", ["InventoryMixin"; "RequestItemsMixin"; "LogisticModeOfOperationMixin"; "CircuitConditionMixin"; "ControlBehaviorMixin"; "CircuitConnectableMixin"; "RequestFiltersMixin"; "Entity"]); (* prototypes/logistic_storage_container.py 24 *)
  ("LogisticStorageContainer.Format", ["InventoryMixin.Format"; "RequestItemsMixin.Format"; "LogisticModeOfOperationMixin.Format"; "CircuitConditionMixin.Format"; "ControlBehaviorMixin.Format"; "CircuitConnectableMixin.Format"; "RequestFiltersMixin.Format"; "Entity.Format"]); (* prototypes/logistic_storage_container.py 39 *)
  ("LogisticStorageContainer.Format.ControlBehavior", ["LogisticModeOfOperationMixin.ControlFormat"; "CircuitConditionMixin.ControlFormat"]); (* prototypes/logistic_storage_container.py 49 *)
  ("MiningDrill", ["BurnerEnergySourceMixin"; "ModulesMixin"; "RequestItemsMixin"; "CircuitReadResourceMixin"; "CircuitConditionMixin"; "LogisticConditionMixin"; "CircuitEnableMixin"; "ControlBehaviorMixin"; "CircuitConnectableMixin"; "DirectionalMixin"; "Entity"]); (* prototypes/mining_drill.py 27 *)
  ("MiningDrill.Format", ["BurnerEnergySourceMixin.Format"; "ModulesMixin.Format"; "RequestItemsMixin.Format"; "CircuitReadResourceMixin.Format"; "CircuitConditionMixin.Format"; "LogisticConditionMixin.Format"; "CircuitEnableMixin.Format"; "ControlBehaviorMixin.Format"; "CircuitConnectableMixin.Format"; "DirectionalMixin.Format"; "Entity.Format"]); (* prototypes/mining_drill.py 44 *)
  ("MiningDrill.Format.ControlBehavior", ["CircuitReadResourceMixin.ControlFormat"; "CircuitConditionMixin.ControlFormat"; "LogisticConditionMixin.ControlFormat"; "CircuitEnableMixin.ControlFormat"; "DraftsmanBaseModel"]); (* prototypes/mining_drill.py 57 *)
  ("ModulesMixin", ["object"]); (* classes/mixins/modules.py 12 *)
  ("ModulesMixin.Format", ["BaseModel"]); (* classes/mixins/modules.py 20 *)
  ("OffshorePump", ["CircuitConditionMixin"; "LogisticConditionMixin"; "ControlBehaviorMixin"; "CircuitConnectableMixin"; "DirectionalMixin"; "Entity"]); (* prototypes/offshore_pump.py 22 *)
  ("OffshorePump.Format", ["CircuitConditionMixin.Format"; "LogisticConditionMixin.Format"; "ControlBehaviorMixin.Format"; "CircuitConnectableMixin.Format"; "DirectionalMixin.Format"; "Entity.Format"]); (* prototypes/offshore_pump.py 34 *)
  ("OffshorePump.Format.ControlBehavior", ["CircuitConditionMixin.ControlFormat"; "LogisticConditionMixin.ControlFormat"; "DraftsmanBaseModel"]); (* prototypes/offshore_pump.py 42 *)
  ("OrientationMixin", ["object"]); (* classes/mixins/orientation.py 19 *)
  ("OrientationMixin.Format", ["BaseModel"]); (* classes/mixins/orientation.py 24 *)
  ("Pipe", ["Entity"]); (* prototypes/pipe.py 14 *)
  ("Pipe.Format", ["Entity.Format"]); (* prototypes/pipe.py 19 *)
  ("PlayerDescriptionMixin", ["object"]); (* classes/mixins/player_description.py 10 *)
  ("PlayerDescriptionMixin.Format", ["BaseModel"]); (* classes/mixins/player_description.py 16 *)
  ("PlayerPort", ["Entity"]); (* prototypes/player_port.py 14 *)
  ("PlayerPort.Format", ["Entity.Format"]); (* prototypes/player_port.py 19 *)
  ("PowerConnectableMixin", ["object"]); (* classes/mixins/power_connectable.py 11 *)
  ("PowerConnectableMixin.Format", ["BaseModel"]); (* classes/mixins/power_connectable.py 16 *)
  ("PowerSwitch", ["CircuitConditionMixin"; "LogisticConditionMixin"; "ControlBehaviorMixin"; "CircuitConnectableMixin"; "PowerConnectableMixin"; "Entity"]); (* prototypes/power_switch.py 25 *)
  ("PowerSwitch.Format", ["CircuitConditionMixin.Format"; "LogisticConditionMixin.Format"; "ControlBehaviorMixin.Format"; "CircuitConnectableMixin.Format"; "PowerConnectableMixin.Format"; "Entity.Format"]); (* prototypes/power_switch.py 38 *)
  ("PowerSwitch.Format.ControlBehavior", ["CircuitConditionMixin.ControlFormat"; "LogisticConditionMixin.ControlFormat"; "DraftsmanBaseModel"]); (* prototypes/power_switch.py 46 *)
  ("ProgrammableSpeaker", ["CircuitConditionMixin"; "CircuitEnableMixin"; "ControlBehaviorMixin"; "CircuitConnectableMixin"; "Entity"]); (* prototypes/programmable_speaker.py 33 *)
  ("ProgrammableSpeaker.Format", ["CircuitConditionMixin.Format"; "CircuitEnableMixin.Format"; "ControlBehaviorMixin.Format"; "CircuitConnectableMixin.Format"; "Entity.Format"]); (* prototypes/programmable_speaker.py 45 *)
  ("ProgrammableSpeaker.Format.AlertParameters", ["DraftsmanBaseModel"]); (* prototypes/programmable_speaker.py 295 *)
  ("ProgrammableSpeaker.Format.ControlBehavior", ["CircuitConditionMixin.ControlFormat"; "CircuitEnableMixin.ControlFormat"; "DraftsmanBaseModel"]); (* prototypes/programmable_speaker.py 52 *)
  ("ProgrammableSpeaker.Format.ControlBehavior.CircuitParameters", ["DraftsmanBaseModel"]); (* prototypes/programmable_speaker.py 57 *)
  ("ProgrammableSpeaker.Format.Parameters", ["DraftsmanBaseModel"]); (* prototypes/programmable_speaker.py 246 *)
  ("Pump", ["CircuitConditionMixin"; "ControlBehaviorMixin"; "CircuitConnectableMixin"; "DirectionalMixin"; "Entity"]); (* prototypes/pump.py 21 *)
  ("Pump.Format", ["CircuitConditionMixin.Format"; "ControlBehaviorMixin.Format"; "CircuitConnectableMixin.Format"; "DirectionalMixin.Format"; "Entity.Format"]); (* prototypes/pump.py 32 *)
  ("Pump.Format.ControlBehavior", ["CircuitConditionMixin.ControlFormat"; "DraftsmanBaseModel"]); (* prototypes/pump.py 39 *)
  ("Radar", ["CircuitConnectableMixin"; "Entity"]); (* prototypes/radar.py 15 *)
  ("Radar.Format", ["CircuitConnectableMixin.Format"; "Entity.Format"]); (* prototypes/radar.py 20 *)
  ("RailChainSignal", ["ReadRailSignalMixin"; "ControlBehaviorMixin"; "CircuitConnectableMixin"; "EightWayDirectionalMixin"; "Entity"]); (* prototypes/rail_chain_signal.py 22 *)
  ("RailChainSignal.Format", ["ReadRailSignalMixin.Format"; "ControlBehaviorMixin.Format"; "CircuitConnectableMixin.Format"; "EightWayDirectionalMixin.Format"; "Entity.Format"]); (* prototypes/rail_chain_signal.py 34 *)
  ("RailChainSignal.Format.ControlBehavior", ["ReadRailSignalMixin.ControlFormat"; "DraftsmanBaseModel"]); (* prototypes/rail_chain_signal.py 41 *)
  ("RailRamp", ["DoubleGridAlignedMixin"; "EightWayDirectionalMixin"; "Entity"]); (* prototypes/rail_ramp.py 15 *)
  ("RailRamp.Format", ["DoubleGridAlignedMixin.Format"; "EightWayDirectionalMixin.Format"; "Entity.Format"]); (* prototypes/rail_ramp.py 20 *)
  ("RailSignal", ["ReadRailSignalMixin"; "CircuitConditionMixin"; "CircuitEnableMixin"; "ControlBehaviorMixin"; "CircuitConnectableMixin"; "EightWayDirectionalMixin"; "Entity"]); (* prototypes/rail_signal.py 24 *)
  ("RailSignal.Format", ["ReadRailSignalMixin.Format"; "CircuitConditionMixin.Format"; "CircuitEnableMixin.Format"; "ControlBehaviorMixin.Format"; "CircuitConnectableMixin.Format"; "EightWayDirectionalMixin.Format"; "Entity.Format"]); (* prototypes/rail_signal.py 38 *)
  ("RailSignal.Format.ControlBehavior", ["ReadRailSignalMixin.ControlFormat"; "CircuitConditionMixin.ControlFormat"; "CircuitEnableMixin.ControlFormat"; "DraftsmanBaseModel"]); (* prototypes/rail_signal.py 47 *)
  ("Reactor", ["BurnerEnergySourceMixin"; "RequestItemsMixin"; "ControlBehaviorMixin"; "CircuitConnectableMixin"; "Entity"]); (* prototypes/reactor.py 22 *)
  ("Reactor.Format", ["BurnerEnergySourceMixin.Format"; "RequestItemsMixin.Format"; "ControlBehaviorMixin.Format"; "CircuitConnectableMixin.Format"; "Entity.Format"]); (* prototypes/reactor.py 33 *)
  ("Reactor.Format.ControlBehavior", ["DraftsmanBaseModel"]); (* prototypes/reactor.py 40 *)
  ("ReadAmmoMixin", ["object"]); (* classes/mixins/read_ammo.py 9 *)
  ("ReadAmmoMixin.ControlFormat", ["BaseModel"]); (* classes/mixins/read_ammo.py 16 *)
  ("ReadAmmoMixin.Format", ["BaseModel"]); (* classes/mixins/read_ammo.py 25 *)
  ("ReadRailSignalMixin", ["object"]); (* classes/mixins/read_rail_signal.py 15 *)
  ("ReadRailSignalMixin.ControlFormat", ["BaseModel"]); (* classes/mixins/read_rail_signal.py 22 *)
  ("ReadRailSignalMixin.Format", ["BaseModel"]); (* classes/mixins/read_rail_signal.py 37 *)
  ("RecipeMixin", ["object"]); (* classes/mixins/recipe.py 21 *)
  ("RecipeMixin.Format", ["BaseModel"]); (* classes/mixins/recipe.py 27 *)
  ("RequestFiltersMixin", ["object"]); (* classes/mixins/request_filters.py 17 *)
  ("RequestFiltersMixin.Format", ["BaseModel"]); (* classes/mixins/request_filters.py 23 *)
  ("RequestFiltersMixin.Format.RequestFilters", ["DraftsmanBaseModel"]); (* classes/mixins/request_filters.py 24 *)
  ("RequestItemsMixin", ["object"]); (* classes/mixins/request_items.py 18 *)
  ("RequestItemsMixin.Format", ["DraftsmanBaseModel"]); (* classes/mixins/request_items.py 32 *)
  ("Roboport", ["ControlBehaviorMixin"; "CircuitConnectableMixin"; "Entity"]); (* prototypes/roboport.py 20 *)
  ("Roboport.Format", ["ControlBehaviorMixin.Format"; "CircuitConnectableMixin.Format"; "Entity.Format"]); (* prototypes/roboport.py 25 *)
  ("Roboport.Format.ControlBehavior", ["DraftsmanBaseModel"]); (* prototypes/roboport.py 28 *)
  ("RocketSilo", ["ModulesMixin"; "RequestItemsMixin"; "ControlBehaviorMixin"; "CircuitConnectableMixin"; "RecipeMixin"; "Entity"]); (* prototypes/rocket_silo.py 23 *)
  ("RocketSilo.Format", ["ModulesMixin.Format"; "RequestItemsMixin.Format"; "ControlBehaviorMixin.Format"; "CircuitConnectableMixin.Format"; "RecipeMixin.Format"; "Entity.Format"]); (* prototypes/rocket_silo.py 35 *)
  ("RocketSilo.Format.ControlBehavior", ["DraftsmanBaseModel"]); (* prototypes/rocket_silo.py 51 *)
  ("SelectorCombinator", ["PlayerDescriptionMixin"; "ControlBehaviorMixin"; "CircuitConnectableMixin"; "DirectionalMixin"; "Entity"]); (* prototypes/selector_combinator.py 22 *)
  ("SelectorCombinator.Format", ["PlayerDescriptionMixin.Format"; "ControlBehaviorMixin.Format"; "CircuitConnectableMixin.Format"; "DirectionalMixin.Format"; "Entity.Format"]); (* prototypes/selector_combinator.py 33 *)
  ("SelectorCombinator.Format.ControlBehavior", ["DraftsmanBaseModel"]); (* prototypes/selector_combinator.py 40 *)
  ("SimpleEntityWithForce", ["DirectionalMixin"; "Entity"]); (* prototypes/simple_entity_with_force.py 17 *)
  ("SimpleEntityWithForce.Format", ["DirectionalMixin.Format"; "Entity.Format"]); (* prototypes/simple_entity_with_force.py 22 *)
  ("SimpleEntityWithOwner", ["DirectionalMixin"; "Entity"]); (* prototypes/simple_entity_with_owner.py 17 *)
  ("SimpleEntityWithOwner.Format", ["DirectionalMixin.Format"; "Entity.Format"]); (* prototypes/simple_entity_with_owner.py 22 *)
  ("SolarPanel", ["Entity"]); (* prototypes/solar_panel.py 14 *)
  ("SolarPanel.Format", ["Entity.Format"]); (* prototypes/solar_panel.py 19 *)
  ("SpacePlatformHub", ["RequestFiltersMixin"; "ControlBehaviorMixin"; "CircuitConnectableMixin"; "Entity"]); (* prototypes/space_platform_hub.py 21 *)
  ("SpacePlatformHub.Format", ["RequestFiltersMixin.Format"; "ControlBehaviorMixin.Format"; "CircuitConnectableMixin.Format"; "Entity.Format"]); (* prototypes/space_platform_hub.py 28 *)
  ("SpacePlatformHub.Format.ControlBehavior", ["DraftsmanBaseModel"]); (* prototypes/space_platform_hub.py 34 *)
  ("SpatialLike", ["object"]); (* classes/spatial_like.py 12 *)
  ("SpiderVehicle", ["VehicleMixin"; "EquipmentGridMixin"; "RequestFiltersMixin"; "RequestItemsMixin"; "OrientationMixin"; "Entity"]); (* prototypes/spider_vehicle.py 23 *)
  ("SpiderVehicle.Format", ["VehicleMixin.Format"; "EquipmentGridMixin.Format"; "RequestFiltersMixin.Format"; "RequestItemsMixin.Format"; "OrientationMixin.Format"; "Entity.Format"]); (* prototypes/spider_vehicle.py 35 *)
  ("SpiderVehicle.Format.AutoTargetParameters", ["DraftsmanBaseModel"]); (* prototypes/spider_vehicle.py 43 *)
  ("SpiderVehicle.Format.RequestFilters", ["DraftsmanBaseModel"]); (* prototypes/spider_vehicle.py 55 *)
  ("Splitter", ["DirectionalMixin"; "Entity"]); (* prototypes/splitter.py 22 *)
  ("Splitter.Format", ["DirectionalMixin.Format"; "Entity.Format"]); (* prototypes/splitter.py 28 *)
  ("StackSizeMixin", ["object"]); (* classes/mixins/stack_size.py 19 *)
  ("StackSizeMixin.ControlFormat", ["BaseModel"]); (* classes/mixins/stack_size.py 27 *)
  ("StackSizeMixin.Format", ["BaseModel"]); (* classes/mixins/stack_size.py 43 *)
  ("StorageTank", ["CircuitConnectableMixin"; "DirectionalMixin"; "Entity"]); (* prototypes/storage_tank.py 17 *)
  ("StorageTank.Format", ["CircuitConnectableMixin.Format"; "DirectionalMixin.Format"; "Entity.Format"]); (* prototypes/storage_tank.py 22 *)
  ("StraightRail", ["DoubleGridAlignedMixin"; "EightWayDirectionalMixin"; "Entity"]); (* prototypes/straight_rail.py 45 *)
  ("StraightRail.Format", ["DoubleGridAlignedMixin.Format"; "EightWayDirectionalMixin.Format"; "Entity.Format"]); (* prototypes/straight_rail.py 50 *)
  ("TargetPrioritiesMixin", ["object"]); (* classes/mixins/target_priorities.py 11 *)
  ("TargetPrioritiesMixin.ControlFormat", ["BaseModel"]); (* classes/mixins/target_priorities.py 17 *)
  ("TargetPrioritiesMixin.Format", ["BaseModel"]); (* classes/mixins/target_priorities.py 42 *)
  ("Thruster", ["Entity"]); (* prototypes/thruster.py 14 *)
  ("Thruster.Format", ["Entity.Format"]); (* prototypes/thruster.py 19 *)
  ("TrainStop", ["ColorMixin"; "CircuitConditionMixin"; "LogisticConditionMixin"; "CircuitEnableMixin"; "ControlBehaviorMixin"; "CircuitConnectableMixin"; "DoubleGridAlignedMixin"; "DirectionalMixin"; "Entity"]); (* prototypes/train_stop.py 29 *)
  ("TrainStop.Format", ["ColorMixin.Format"; "CircuitConditionMixin.Format"; "LogisticConditionMixin.Format"; "CircuitEnableMixin.Format"; "ControlBehaviorMixin.Format"; "CircuitConnectableMixin.Format"; "DoubleGridAlignedMixin.Format"; "DirectionalMixin.Format"; "Entity.Format"]); (* prototypes/train_stop.py 44 *)
  ("TrainStop.Format.ControlBehavior", ["CircuitConditionMixin.ControlFormat"; "LogisticConditionMixin.ControlFormat"; "CircuitEnableMixin.ControlFormat"; "DraftsmanBaseModel"]); (* prototypes/train_stop.py 55 *)
  ("TransportBelt", ["CircuitReadContentsMixin"; "CircuitConditionMixin"; "LogisticConditionMixin"; "CircuitEnableMixin"; "ControlBehaviorMixin"; "CircuitConnectableMixin"; "DirectionalMixin"; "Entity"]); (* prototypes/transport_belt.py 24 *)
  ("TransportBelt.Format", ["CircuitReadContentsMixin.Format"; "CircuitConditionMixin.Format"; "LogisticConditionMixin.Format"; "CircuitEnableMixin.Format"; "ControlBehaviorMixin.Format"; "CircuitConnectableMixin.Format"; "DirectionalMixin.Format"; "Entity.Format"]); (* prototypes/transport_belt.py 38 *)
  ("TransportBelt.Format.ControlBehavior", ["CircuitReadContentsMixin.ControlFormat"; "CircuitConditionMixin.ControlFormat"; "LogisticConditionMixin.ControlFormat"; "CircuitEnableMixin.ControlFormat"]); (* prototypes/transport_belt.py 48 *)
  ("Turret", ["RequestItemsMixin"; "DirectionalMixin"; "Entity"]); (* prototypes/turret.py 16 *)
  ("Turret.Format", ["RequestItemsMixin.Format"; "DirectionalMixin.Format"; "Entity.Format"]); (* prototypes/turret.py 23 *)
  ("UndergroundBelt", ["IOTypeMixin"; "DirectionalMixin"; "Entity"]); (* prototypes/underground_belt.py 15 *)
  ("UndergroundBelt.Format", ["IOTypeMixin.Format"; "DirectionalMixin.Format"; "Entity.Format"]); (* prototypes/underground_belt.py 20 *)
  ("UndergroundPipe", ["DirectionalMixin"; "Entity"]); (* prototypes/underground_pipe.py 15 *)
  ("UndergroundPipe.Format", ["DirectionalMixin.Format"; "Entity.Format"]); (* prototypes/underground_pipe.py 20 *)
  ("VehicleMixin", ["object"]); (* classes/mixins/vehicle.py 10 *)
  ("VehicleMixin.Format", ["BaseModel"]); (* classes/mixins/vehicle.py 15 *)
  ("Wall", ["CircuitConditionMixin"; "CircuitEnableMixin"; "ControlBehaviorMixin"; "CircuitConnectableMixin"; "Entity"]); (* prototypes/wall.py 22 *)
  ("Wall.Format", ["CircuitConditionMixin.Format"; "CircuitEnableMixin.Format"; "ControlBehaviorMixin.Format"; "CircuitConnectableMixin.Format"; "Entity.Format"]); (* prototypes/wall.py 33 *)
  ("Wall.Format.ControlBehavior", ["CircuitConditionMixin.ControlFormat"; "CircuitEnableMixin.ControlFormat"; "DraftsmanBaseModel"]); (* prototypes/wall.py 40 *)
  ("BaseModel", ["object"]); (* pydantic *)
  ("object", []) (* Python *)
].

(** Annotated fields of the models. *)
Definition fields : list (cls * list string) := [
  ("Accumulator.Format", ["control_behavior"]); (* prototypes/accumulator.py 23 *)
  ("Accumulator.Format.ControlBehavior", ["output_signal"]); (* prototypes/accumulator.py 28 *)
  ("AgriculturalTower.Format", ["control_behavior"]); (* prototypes/agricultural_tower.py 32 *)
  ("AgriculturalTower.Format.ControlBehavior", ["read_contents"]); (* prototypes/agricultural_tower.py 39 *)
  ("AmmoTurret.Format", ["control_behavior"]); (* prototypes/ammo_turret.py 43 *)
  ("ArithmeticCombinator.Format", ["control_behavior"]); (* prototypes/arithmetic_combinator.py 41 *)
  ("ArithmeticCombinator.Format.ControlBehavior", ["arithmetic_conditions"]); (* prototypes/arithmetic_combinator.py 48 *)
  ("ArithmeticCombinator.Format.ControlBehavior.ArithmeticConditions", ["first_constant"; "first_signal"; "first_signal_networks"; "operation"; "second_constant"; "second_signal"; "second_signal_networks"; "output_signal"]); (* prototypes/arithmetic_combinator.py 49 *)
  ("ArtilleryAutoTargetMixin.Format", ["artillery_auto_targeting"]); (* classes/mixins/artillery_auto_target.py 15 *)
  ("ArtilleryTurret.Format", ["control_behavior"]); (* prototypes/artillery_turret.py 46 *)
  ("AsteroidCollector.Format", ["control_behavior"; "result_inventory"; "chunk_filter"]); (* prototypes/asteroid_collector.py 37 *)
  ("AsteroidCollector.Format.ControlBehavior", ["circuit_read_contents"; "include_hands"]); (* prototypes/asteroid_collector.py 46 *)
  ("CargoHubModeOfOperationMixin.ControlFormat", ["circuit_mode_of_operation"]); (* classes/mixins/mode_of_operation.py 114 *)
  ("CargoLandingPad.Format", ["control_behavior"]); (* prototypes/cargo_landing_pad.py 32 *)
  ("CircuitConditionMixin.ControlFormat", ["circuit_condition_enabled"; "circuit_condition"]); (* classes/mixins/circuit_condition.py 17 *)
  ("CircuitEnableMixin.ControlFormat", ["circuit_enabled"]); (* classes/mixins/circuit_enable.py 17 *)
  ("CircuitReadContentsMixin.ControlFormat", ["circuit_read_hand_contents"; "circuit_contents_read_mode"]); (* classes/mixins/circuit_read_contents.py 22 *)
  ("CircuitReadHandMixin.ControlFormat", ["circuit_read_hand_contents"; "circuit_hand_read_mode"]); (* classes/mixins/circuit_read_hand.py 22 *)
  ("CircuitReadResourceMixin.ControlFormat", ["circuit_read_resources"; "circuit_resource_read_mode"]); (* classes/mixins/circuit_read_resource.py 22 *)
  ("CircuitSetFiltersMixin.ControlFormat", ["circuit_set_filters"]); (* classes/mixins/circuit_set_filters.py 16 *)
  ("ColorMixin.Format", ["color"]); (* classes/mixins/color.py 26 *)
  ("ConstantCombinator.Format", ["control_behavior"]); (* prototypes/constant_combinator.py 44 *)
  ("ConstantCombinator.Format.ControlBehavior", ["sections"; "is_on"]); (* prototypes/constant_combinator.py 81 *)
  ("DeciderCombinator.Format", ["control_behavior"]); (* prototypes/decider_combinator.py 384 *)
  ("DeciderCombinator.Format.ControlBehavior", ["decider_conditions"]); (* prototypes/decider_combinator.py 391 *)
  ("DeciderCombinator.Format.ControlBehavior.DeciderConditions", ["conditions"; "outputs"]); (* prototypes/decider_combinator.py 392 *)
  ("DirectionalMixin.Format", ["direction"]); (* classes/mixins/directional.py 36 *)
  ("DisplayPanel.Format", ["control_behavior"; "text"; "icon"; "always_show"; "show_in_chart"]); (* prototypes/display_panel.py 28 *)
  ("DisplayPanel.Format.ControlBehavior", ["parameters"]); (* prototypes/display_panel.py 34 *)
  ("DisplayPanel.Format.ControlBehavior.PanelMessage", ["condition"; "icon"; "text"]); (* prototypes/display_panel.py 35 *)
  ("EightWayDirectionalMixin.Format", ["direction"]); (* classes/mixins/eight_way_directional.py 37 *)
  ("ElectricEnergyInterface.Format", ["buffer_size"; "power_production"; "power_usage"]); (* prototypes/electric_energy_interface.py 26 *)
  ("ElectricTurret.Format", ["control_behavior"]); (* prototypes/electric_turret.py 43 *)
  ("Entity.Format", ["name"; "quality"; "position"; "entity_number"; "tags"]); (* classes/entity.py 93 *)
  ("EquipmentGridMixin.Format", ["enable_logistics_while_moving"; "grid"]); (* classes/mixins/equipment_grid.py 18 *)
  ("EquipmentGridMixin.Format.EquipmentComponent", ["equipment"; "position"]); (* classes/mixins/equipment_grid.py 19 *)
  ("EquipmentGridMixin.Format.EquipmentComponent.EquipmentID", ["name"]); (* classes/mixins/equipment_grid.py 20 *)
  ("FiltersMixin.Format", ["use_filters"; "filters"]); (* classes/mixins/filters.py 17 *)
  ("FluidTurret.Format", ["control_behavior"]); (* prototypes/fluid_turret.py 43 *)
  ("HeatInterface.Format", ["temperature"; "mode"]); (* prototypes/heat_interface.py 21 *)
  ("IOTypeMixin.Format", ["io_type"]); (* classes/mixins/io_type.py 21 *)
  ("InfinityContainer.Format", ["infinity_settings"]); (* prototypes/infinity_container.py 25 *)
  ("InfinityContainer.Format.InfinitySettings", ["filters"; "remove_unfiltered_items"]); (* prototypes/infinity_container.py 26 *)
  ("InfinityContainer.Format.InfinitySettings.InfinityFilter", ["index"; "name"; "count"; "mode"]); (* prototypes/infinity_container.py 27 *)
  ("InfinityPipe.Format", ["infinity_settings"]); (* prototypes/infinity_pipe.py 23 *)
  ("InfinityPipe.Format.InfinitySettings", ["name"; "percentage"; "mode"; "temperature"]); (* prototypes/infinity_pipe.py 24 *)
  ("Inserter.Format", ["control_behavior"; "pickup_position"; "drop_position"; "filter_mode"; "spoil_priority"]); (* prototypes/inserter.py 51 *)
  ("Inserter.Format.ControlBehavior", ["circuit_set_filters"]); (* prototypes/inserter.py 64 *)
  ("InserterModeOfOperationMixin.ControlFormat", ["circuit_mode_of_operation"]); (* classes/mixins/mode_of_operation.py 18 *)
  ("InventoryFilterMixin.Format", ["inventory"]); (* classes/mixins/inventory_filter.py 40 *)
  ("InventoryFilterMixin.Format.InventoryFilters", ["filters"; "bar"]); (* classes/mixins/inventory_filter.py 41 *)
  ("InventoryMixin.Format", ["bar"]); (* classes/mixins/inventory.py 31 *)
  ("Lamp.Format", ["control_behavior"; "color"; "always_on"]); (* prototypes/lamp.py 28 *)
  ("Lamp.Format.ControlBehavior", ["use_colors"; "color_mode"]); (* prototypes/lamp.py 34 *)
  ("LinkedContainer.Format", ["link_id"]); (* prototypes/linked_container.py 23 *)
  ("LogisticActiveContainer.Format", ["control_behavior"]); (* prototypes/logistic_active_container.py 38 *)
  ("LogisticBufferContainer.Format", ["control_behavior"]); (* prototypes/logistic_buffer_container.py 43 *)
  ("LogisticConditionMixin.ControlFormat", ["connect_to_logistic_network"; "logistic_condition"]); (* classes/mixins/logistic_condition.py 18 *)
  ("LogisticModeOfOperationMixin.ControlFormat", ["circuit_mode_of_operation"]); (* classes/mixins/mode_of_operation.py 66 *)
  ("LogisticPassiveContainer.Format", ["control_behavior"]); (* prototypes/logistic_passive_container.py 38 *)
  ("LogisticRequestContainer.Format", ["control_behavior"; "request_filters"]); (* prototypes/logistic_request_container.py 43 *)
  ("LogisticRequestContainer.Format.ControlBehavior", ["circuit_condition_enabled"]); (* prototypes/logistic_request_container.py 53 *)
  ("LogisticRequestContainer.Format.LogisticsRequestFilters", ["request_from_buffers"]); (* prototypes/logistic_request_container.py 64 *)
  ("LogisticStorageContainer.Format", ["control_behavior"]); (* prototypes/logistic_storage_container.py 39 *)
  ("MiningDrill.Format", ["control_behavior"]); (* prototypes/mining_drill.py 44 *)
  ("OffshorePump.Format", ["control_behavior"]); (* prototypes/offshore_pump.py 34 *)
  ("OrientationMixin.Format", ["orientation"]); (* classes/mixins/orientation.py 24 *)
  ("PlayerDescriptionMixin.Format", ["player_description"]); (* classes/mixins/player_description.py 16 *)
  ("PowerSwitch.Format", ["control_behavior"; "switch_state"]); (* prototypes/power_switch.py 38 *)
  ("ProgrammableSpeaker.Format", ["control_behavior"; "parameters"; "alert_parameters"]); (* prototypes/programmable_speaker.py 45 *)
  ("ProgrammableSpeaker.Format.AlertParameters", ["show_alert"; "show_on_map"; "icon_signal_id"; "alert_message"]); (* prototypes/programmable_speaker.py 295 *)
  ("ProgrammableSpeaker.Format.ControlBehavior", ["circuit_parameters"]); (* prototypes/programmable_speaker.py 52 *)
  ("ProgrammableSpeaker.Format.ControlBehavior.CircuitParameters", ["signal_value_is_pitch"; "instrument_id"; "instrument_name"; "note_id"; "note_name"]); (* prototypes/programmable_speaker.py 57 *)
  ("ProgrammableSpeaker.Format.Parameters", ["playback_volume"; "playback_globally"; "allow_polyphony"]); (* prototypes/programmable_speaker.py 246 *)
  ("Pump.Format", ["control_behavior"]); (* prototypes/pump.py 32 *)
  ("RailChainSignal.Format", ["control_behavior"]); (* prototypes/rail_chain_signal.py 34 *)
  ("RailChainSignal.Format.ControlBehavior", ["blue_output_signal"]); (* prototypes/rail_chain_signal.py 41 *)
  ("RailSignal.Format", ["control_behavior"]); (* prototypes/rail_signal.py 38 *)
  ("RailSignal.Format.ControlBehavior", ["circuit_close_signal"; "circuit_read_signal"]); (* prototypes/rail_signal.py 47 *)
  ("Reactor.Format", ["control_behavior"]); (* prototypes/reactor.py 33 *)
  ("Reactor.Format.ControlBehavior", ["read_burner_fuel"; "read_temperature"; "temperature_signal"]); (* prototypes/reactor.py 40 *)
  ("ReadAmmoMixin.ControlFormat", ["read_ammo"]); (* classes/mixins/read_ammo.py 16 *)
  ("ReadRailSignalMixin.ControlFormat", ["red_output_signal"; "yellow_output_signal"; "green_output_signal"]); (* classes/mixins/read_rail_signal.py 22 *)
  ("RecipeMixin.Format", ["recipe"; "recipe_quality"]); (* classes/mixins/recipe.py 27 *)
  ("RequestFiltersMixin.Format", ["request_filters"]); (* classes/mixins/request_filters.py 23 *)
  ("RequestFiltersMixin.Format.RequestFilters", ["sections"; "trash_not_requested"; "request_from_buffers"; "enabled"]); (* classes/mixins/request_filters.py 24 *)
  ("RequestItemsMixin.Format", ["items"]); (* classes/mixins/request_items.py 32 *)
  ("Roboport.Format", ["control_behavior"]); (* prototypes/roboport.py 25 *)
  ("Roboport.Format.ControlBehavior", ["read_logistics"; "read_robot_stats"; "available_logistic_output_signal"; "total_logistic_output_signal"; "available_construction_output_signal"; "total_construction_output_signal"]); (* prototypes/roboport.py 28 *)
  ("RocketSilo.Format", ["control_behavior"; "transitional_request_index"]); (* prototypes/rocket_silo.py 35 *)
  ("RocketSilo.Format.ControlBehavior", ["read_items_mode"]); (* prototypes/rocket_silo.py 51 *)
  ("SelectorCombinator.Format", ["control_behavior"]); (* prototypes/selector_combinator.py 33 *)
  ("SelectorCombinator.Format.ControlBehavior", ["operation"; "select_max"; "index_constant"; "index_signal"; "count_signal"; "random_update_interval"; "quality_filter"; "select_quality_from_signal"; "quality_source_static"; "quality_source_signal"; "quality_destination_signal"]); (* prototypes/selector_combinator.py 40 *)
  ("SimpleEntityWithForce.Format", ["variation"]); (* prototypes/simple_entity_with_force.py 22 *)
  ("SimpleEntityWithOwner.Format", ["variation"]); (* prototypes/simple_entity_with_owner.py 22 *)
  ("SpacePlatformHub.Format", ["control_behavior"; "request_missing_construction_materials"]); (* prototypes/space_platform_hub.py 28 *)
  ("SpacePlatformHub.Format.ControlBehavior", ["read_contents"; "send_to_platform"; "read_moving_from"; "read_moving_to"; "read_speed"; "speed_signal"; "read_damage_taken"; "damage_taken_signal"]); (* prototypes/space_platform_hub.py 34 *)
  ("SpiderVehicle.Format", ["automatic_targeting_parameters"; "request_filters"]); (* prototypes/spider_vehicle.py 35 *)
  ("SpiderVehicle.Format.AutoTargetParameters", ["auto_target_without_gunner"; "auto_target_with_gunner"]); (* prototypes/spider_vehicle.py 43 *)
  ("SpiderVehicle.Format.RequestFilters", ["sections"; "trash_not_requested"; "request_from_buffers"; "enabled"]); (* prototypes/spider_vehicle.py 55 *)
  ("Splitter.Format", ["input_priority"; "output_priority"; "filter"]); (* prototypes/splitter.py 28 *)
  ("StackSizeMixin.ControlFormat", ["circuit_set_stack_size"; "stack_control_input_signal"]); (* classes/mixins/stack_size.py 27 *)
  ("StackSizeMixin.Format", ["override_stack_size"]); (* classes/mixins/stack_size.py 43 *)
  ("TargetPrioritiesMixin.ControlFormat", ["set_priority_list"; "set_ignore_unlisted_targets"; "ignore_unlisted_targets_condition"]); (* classes/mixins/target_priorities.py 17 *)
  ("TargetPrioritiesMixin.Format", ["priority_list"; "ignore_unprioritized"]); (* classes/mixins/target_priorities.py 42 *)
  ("TrainStop.Format", ["control_behavior"; "station"; "manual_trains_limit"]); (* prototypes/train_stop.py 44 *)
  ("TrainStop.Format.ControlBehavior", ["send_to_train"; "set_trains_limit"; "trains_limit_signal"; "read_from_train"; "read_stopped_train"; "train_stopped_signal"; "read_trains_count"; "trains_count_signal"]); (* prototypes/train_stop.py 55 *)
  ("TransportBelt.Format", ["control_behavior"]); (* prototypes/transport_belt.py 38 *)
  ("VehicleMixin.Format", ["trunk_inventory"; "ammo_inventory"; "driver_is_main_gunner"; "selected_gun_index"]); (* classes/mixins/vehicle.py 15 *)
  ("Wall.Format", ["control_behavior"]); (* prototypes/wall.py 33 *)
  ("Wall.Format.ControlBehavior", ["circuit_open_gate"; "circuit_read_sensor"; "output_signal"]) (* prototypes/wall.py 40 *)
].

(** Properties: name, getter, setter, lines. *)
Definition props : list (cls * list (string * property)) := [
  (* prototypes/accumulator.py *)
  ("Accumulator", [
    ("output_signal", {| p_get := (self "control_behavior" [SAttr "output_signal"]); p_set := Plain Late ["ControlBehavior"] (self "control_behavior" []) "output_signal" (self "control_behavior" [SAttr "output_signal"]) (self "control_behavior" [SAttr "output_signal"]) |}) (* 74-100 *)
  ]);
  (* prototypes/agricultural_tower.py *)
  ("AgriculturalTower", [
    ("read_contents", {| p_get := (self "control_behavior" [SAttr "read_contents"]); p_set := Plain Late ["ControlBehavior"] (self "control_behavior" []) "read_contents" (self "control_behavior" [SAttr "read_contents"]) (self "control_behavior" [SAttr "read_contents"]) |}) (* 89-114 *)
  ]);
  (* classes/mixins/artillery_auto_target.py *)
  ("ArtilleryAutoTargetMixin", [
    ("auto_target", {| p_get := (root [SAttr "artillery_auto_targeting"]); p_set := Plain Late [] (root []) "artillery_auto_targeting" (root [SAttr "artillery_auto_targeting"]) (root [SAttr "artillery_auto_targeting"]) |}) (* 32-50 *)
  ]);
  (* prototypes/asteroid_collector.py *)
  ("AsteroidCollector", [
    ("result_inventory", {| p_get := (root [SAttr "result_inventory"]); p_set := ReadOnly |}); (* 136-140 *)
    ("chunk_filter", {| p_get := (root [SAttr "chunk_filter"]); p_set := Plain Late [] (root []) "chunk_filter" (root [SAttr "chunk_filter"]) (root [SAttr "chunk_filter"]) |}); (* 145-159 *)
    ("read_contents", {| p_get := (self "control_behavior" [SAttr "circuit_read_contents"]); p_set := Plain Late ["ControlBehavior"] (self "control_behavior" []) "circuit_read_contents" (self "control_behavior" [SAttr "circuit_read_contents"]) (self "control_behavior" [SAttr "circuit_read_contents"]) |}); (* 164-189 *)
    ("include_hands", {| p_get := (self "control_behavior" [SAttr "include_hands"]); p_set := Plain Late ["ControlBehavior"] (self "control_behavior" []) "include_hands" (self "control_behavior" [SAttr "include_hands"]) (self "control_behavior" [SAttr "include_hands"]) |}) (* 194-219 *)
  ]);
  (* classes/mixins/mode_of_operation.py *)
  ("CargoHubModeOfOperationMixin", [
    ("mode_of_operation", {| p_get := (self "control_behavior" [SAttr "circuit_mode_of_operation"]); p_set := Plain Late ["ControlBehavior"] (self "control_behavior" []) "circuit_mode_of_operation" (self "control_behavior" [SAttr "circuit_mode_of_operation"]) (self "control_behavior" [SAttr "circuit_mode_of_operation"]) |}) (* 127-152 *)
  ]);
  (* classes/mixins/circuit_condition.py *)
  ("CircuitConditionMixin", [
    ("circuit_enabled", {| p_get := (self "control_behavior" [SAttr "circuit_enabled"]); p_set := Plain Late ["ControlBehavior"] (self "control_behavior" []) "circuit_enabled" (self "control_behavior" [SAttr "circuit_enabled"]) (self "control_behavior" [SAttr "circuit_enabled"]) |}) (* 39-67 *)
  ]);
  (* classes/mixins/circuit_enable.py *)
  ("CircuitEnableMixin", [
    ("circuit_enabled", {| p_get := (self "control_behavior" [SAttr "circuit_enable"]); p_set := Plain Late ["ControlBehavior"] (self "control_behavior" []) "circuit_enable" (self "control_behavior" [SAttr "circuit_enable"]) (self "control_behavior" [SAttr "circuit_enable"]) |}) (* 31-59 *)
  ]);
  (* classes/mixins/circuit_read_contents.py *)
  ("CircuitReadContentsMixin", [
    ("read_contents", {| p_get := (self "control_behavior" [SAttr "circuit_read_hand_contents"]); p_set := Plain Late ["ControlBehavior"] (self "control_behavior" []) "circuit_read_hand_contents" (self "control_behavior" [SAttr "circuit_read_hand_contents"]) (self "control_behavior" [SAttr "circuit_read_hand_contents"]) |}); (* 41-66 *)
    ("read_mode", {| p_get := (self "control_behavior" [SAttr "circuit_contents_read_mode"]); p_set := Plain Late ["ControlBehavior"] (self "control_behavior" []) "circuit_contents_read_mode" (self "control_behavior" [SAttr "circuit_contents_read_mode"]) (self "control_behavior" [SAttr "circuit_contents_read_mode"]) |}) (* 71-96 *)
  ]);
  (* classes/mixins/circuit_read_hand.py *)
  ("CircuitReadHandMixin", [
    ("read_hand_contents", {| p_get := (self "control_behavior" [SAttr "circuit_read_hand_contents"]); p_set := Plain Late ["ControlBehavior"] (self "control_behavior" []) "circuit_read_hand_contents" (self "control_behavior" [SAttr "circuit_read_hand_contents"]) (self "control_behavior" [SAttr "circuit_read_hand_contents"]) |}); (* 41-67 *)
    ("read_mode", {| p_get := (self "control_behavior" [SAttr "circuit_hand_read_mode"]); p_set := Plain Late ["ControlBehavior"] (self "control_behavior" []) "circuit_hand_read_mode" (self "control_behavior" [SAttr "circuit_hand_read_mode"]) (self "control_behavior" [SAttr "circuit_hand_read_mode"]) |}) (* 72-97 *)
  ]);
  (* classes/mixins/circuit_read_resource.py *)
  ("CircuitReadResourceMixin", [
    ("read_resources", {| p_get := (self "control_behavior" [SAttr "circuit_read_resources"]); p_set := Plain Late ["ControlBehavior"] (self "control_behavior" []) "circuit_read_resources" (self "control_behavior" [SAttr "circuit_read_resources"]) (self "control_behavior" [SAttr "circuit_read_resources"]) |}); (* 42-67 *)
    ("read_mode", {| p_get := (self "control_behavior" [SAttr "circuit_resource_read_mode"]); p_set := Plain Late ["ControlBehavior"] (self "control_behavior" []) "circuit_resource_read_mode" (self "control_behavior" [SAttr "circuit_resource_read_mode"]) (self "control_behavior" [SAttr "circuit_resource_read_mode"]) |}) (* 72-98 *)
  ]);
  (* classes/mixins/circuit_set_filters.py *)
  ("CircuitSetFiltersMixin", [
    ("circuit_set_filters", {| p_get := (self "control_behavior" [SAttr "circuit_set_filters"]); p_set := Plain Late ["ControlBehavior"] (self "control_behavior" []) "circuit_set_filters" (self "control_behavior" [SAttr "circuit_set_filters"]) (self "control_behavior" [SAttr "circuit_set_filters"]) |}) (* 30-48 *)
  ]);
  (* classes/mixins/color.py *)
  ("ColorMixin", [
    ("color", {| p_get := (root [SAttr "color"]); p_set := Test [] (root []) "color" |}) (* 44-77 *)
  ]);
  (* prototypes/constant_combinator.py *)
  ("ConstantCombinator", [
    ("sections", {| p_get := (self "control_behavior" [SAttr "sections"; SAttr "sections"]); p_set := Plain Late ["ControlBehavior"; "Sections"] (self "control_behavior" [SAttr "sections"]) "sections" (self "control_behavior" [SAttr "sections"; SAttr "sections"]) (self "control_behavior" [SAttr "sections"; SAttr "sections"]) |}); (* 199-214 *)
    ("is_on", {| p_get := (self "control_behavior" [SAttr "is_on"]); p_set := Plain Late ["ControlBehavior"] (self "control_behavior" []) "is_on" (self "control_behavior" [SAttr "is_on"]) (self "control_behavior" [SAttr "is_on"]) |}) (* 219-243 *)
  ]);
  (* classes/mixins/control_behavior.py *)
  ("ControlBehaviorMixin", [
    ("control_behavior", {| p_get := (root [SAttr "control_behavior"]); p_set := Plain Late [] (root []) "control_behavior" (root [SAttr "control_behavior"]) (root [SAttr "control_behavior"]) |}) (* 68-89 *)
  ]);
  (* prototypes/decider_combinator.py *)
  ("DeciderCombinator", [
    ("conditions", {| p_get := (self "control_behavior" [SAttr "decider_conditions"; SAttr "conditions"]); p_set := Plain Late ["ControlBehavior"; "DeciderConditions"] (self "control_behavior" [SAttr "decider_conditions"]) "conditions" (self "control_behavior" [SAttr "decider_conditions"; SAttr "conditions"]) (self "control_behavior" [SAttr "decider_conditions"; SAttr "conditions"]) |}); (* 509-524 *)
    ("outputs", {| p_get := (self "control_behavior" [SAttr "decider_conditions"; SAttr "outputs"]); p_set := Plain Late ["ControlBehavior"; "DeciderConditions"] (self "control_behavior" [SAttr "decider_conditions"]) "outputs" (self "control_behavior" [SAttr "decider_conditions"; SAttr "outputs"]) (self "control_behavior" [SAttr "decider_conditions"; SAttr "outputs"]) |}) (* 529-544 *)
  ]);
  (* prototypes/display_panel.py *)
  ("DisplayPanel", [
    ("text", {| p_get := (root [SAttr "text"]); p_set := Plain Late [] (root []) "text" (root [SAttr "text"]) (root [SAttr "text"]) |}); (* 108-119 *)
    ("icon", {| p_get := (root [SAttr "icon"]); p_set := Plain Late [] (root []) "icon" (root [SAttr "icon"]) (root [SAttr "icon"]) |}); (* 124-135 *)
    ("always_show", {| p_get := (root [SAttr "always_show"]); p_set := Plain Late [] (root []) "always_show" (root [SAttr "always_show"]) (root [SAttr "always_show"]) |}); (* 140-151 *)
    ("show_in_chart", {| p_get := (root [SAttr "show_in_chart"]); p_set := Plain Late [] (root []) "show_in_chart" (root [SAttr "show_in_chart"]) (root [SAttr "show_in_chart"]) |}) (* 156-167 *)
  ]);
  (* prototypes/electric_energy_interface.py *)
  ("ElectricEnergyInterface", [
    ("buffer_size", {| p_get := (root [SAttr "buffer_size"]); p_set := Plain Late [] (root []) "buffer_size" (root [SAttr "buffer_size"]) (root [SAttr "buffer_size"]) |}); (* 145-165 *)
    ("power_production", {| p_get := (root [SAttr "power_production"]); p_set := Plain Late [] (root []) "power_production" (root [SAttr "power_production"]) (root [SAttr "power_production"]) |}); (* 170-190 *)
    ("power_usage", {| p_get := (root [SAttr "power_usage"]); p_set := Plain Late [] (root []) "power_usage" (root [SAttr "power_usage"]) (root [SAttr "power_usage"]) |}) (* 195-215 *)
  ]);
  (* classes/entity.py *)
  ("Entity", [
    ("quality", {| p_get := (root [SAttr "quality"]); p_set := Plain Late [] (root []) "quality" (root [SAttr "quality"]) (root [SAttr "quality"]) |}); (* 431-446 *)
    ("tags", {| p_get := (root [SAttr "tags"]); p_set := Plain Late [] (root []) "tags" (root [SAttr "tags"]) (root [SAttr "tags"]) |}) (* 662-684 *)
  ]);
  (* classes/mixins/equipment_grid.py *)
  ("EquipmentGridMixin", [
    ("enable_logistics_while_moving", {| p_get := (root [SAttr "enable_logistics_while_moving"]); p_set := Plain Late [] (root []) "enable_logistics_while_moving" (root [SAttr "enable_logistics_while_moving"]) (root [SAttr "enable_logistics_while_moving"]) |}); (* 60-78 *)
    ("equipment_grid", {| p_get := (root [SAttr "grid"]); p_set := Plain Late [] (root []) "grid" (root [SAttr "grid"]) (root [SAttr "grid"]) |}) (* 83-97 *)
  ]);
  (* classes/mixins/filters.py *)
  ("FiltersMixin", [
    ("use_filters", {| p_get := (root [SAttr "use_filters"]); p_set := Test [] (root []) "use_filters" |}); (* 69-85 *)
    ("filters", {| p_get := (root [SAttr "filters"]); p_set := Test [] (root []) "filters" |}) (* 90-105 *)
  ]);
  (* prototypes/heat_interface.py *)
  ("HeatInterface", [
    ("temperature", {| p_get := (root [SAttr "temperature"]); p_set := Plain Late [] (root []) "temperature" (root [SAttr "temperature"]) (root [SAttr "temperature"]) |}); (* 96-119 *)
    ("mode", {| p_get := (root [SAttr "mode"]); p_set := Plain Late [] (root []) "mode" (root [SAttr "mode"]) (root [SAttr "mode"]) |}) (* 124-155 *)
  ]);
  (* classes/mixins/io_type.py *)
  ("IOTypeMixin", [
    ("io_type", {| p_get := (root [SAttr "io_type"]); p_set := Plain Late [] (root []) "io_type" (root [SAttr "io_type"]) (root [SAttr "io_type"]) |}) (* 47-71 *)
  ]);
  (* prototypes/infinity_container.py *)
  ("InfinityContainer", [
    ("infinity_settings", {| p_get := (root [SAttr "infinity_settings"]); p_set := Test [] (root []) "infinity_settings" |}); (* 115-138 *)
    ("remove_unfiltered_items", {| p_get := (self "infinity_settings" [SAttr "remove_unfiltered_items"]); p_set := Plain Late ["InfinitySettings"] (self "infinity_settings" []) "remove_unfiltered_items" (self "infinity_settings" [SAttr "remove_unfiltered_items"]) (self "infinity_settings" [SAttr "remove_unfiltered_items"]) |}) (* 150-172 *)
  ]);
  (* prototypes/infinity_pipe.py *)
  ("InfinityPipe", [
    ("infinity_settings", {| p_get := (root [SAttr "infinity_settings"]); p_set := Test [] (root []) "infinity_settings" |}); (* 129-152 *)
    ("infinite_fluid_name", {| p_get := (self "infinity_settings" [SGet "name"]); p_set := Test ["InfinitySettings"] (self "infinity_settings" []) "name" |}); (* 164-185 *)
    ("infinite_fluid_percentage", {| p_get := (self "infinity_settings" [SGet "percentage"]); p_set := Test ["InfinitySettings"] (self "infinity_settings" []) "percentage" |}); (* 201-222 *)
    ("infinite_fluid_mode", {| p_get := (self "infinity_settings" [SGet "mode"]); p_set := Test ["InfinitySettings"] (self "infinity_settings" []) "mode" |}); (* 238-272 *)
    ("infinite_fluid_temperature", {| p_get := (self "infinity_settings" [SGet "temperature"]); p_set := Test ["InfinitySettings"] (self "infinity_settings" []) "temperature" |}) (* 288-311 *)
  ]);
  (* prototypes/inserter.py *)
  ("Inserter", [
    ("pickup_position", {| p_get := (root [SAttr "pickup_position"]); p_set := Plain Late [] (root []) "pickup_position" (root [SAttr "pickup_position"]) (root [SAttr "pickup_position"]) |}); (* 156-176 *)
    ("drop_position", {| p_get := (root [SAttr "drop_position"]); p_set := Plain Late [] (root []) "drop_position" (root [SAttr "drop_position"]) (root [SAttr "drop_position"]) |}); (* 181-201 *)
    ("filter_mode", {| p_get := (root [SAttr "filter_mode"]); p_set := Plain Late [] (root []) "filter_mode" (root [SAttr "filter_mode"]) (root [SAttr "filter_mode"]) |}); (* 206-228 *)
    ("spoil_priority", {| p_get := (root [SAttr "spoil_priority"]); p_set := Plain Late [] (root []) "spoil_priority" (root [SAttr "spoil_priority"]) (root [SAttr "spoil_priority"]) |}); (* 233-252 *)
    ("circuit_set_filters", {| p_get := (self "control_behavior" [SAttr "circuit_set_filters"]); p_set := Plain Late ["ControlBehavior"] (self "control_behavior" []) "circuit_set_filters" (self "control_behavior" [SAttr "circuit_set_filters"]) (self "control_behavior" [SAttr "circuit_set_filters"]) |}) (* 257-280 *)
  ]);
  (* classes/mixins/mode_of_operation.py *)
  ("InserterModeOfOperationMixin", [
    ("mode_of_operation", {| p_get := (self "control_behavior" [SAttr "circuit_mode_of_operation"]); p_set := Plain Late ["ControlBehavior"] (self "control_behavior" []) "circuit_mode_of_operation" (self "control_behavior" [SAttr "circuit_mode_of_operation"]) (self "control_behavior" [SAttr "circuit_mode_of_operation"]) |}) (* 31-56 *)
  ]);
  (* classes/mixins/inventory_filter.py *)
  ("InventoryFilterMixin", [
    ("inventory", {| p_get := (root [SAttr "inventory"]); p_set := Test [] (root []) "inventory" |}); (* 107-140 *)
    ("filters", {| p_get := (self "inventory" [SAttr "filters"]); p_set := Test ["InventoryFilters"] (self "inventory" []) "filters" |}); (* 166-181 *)
    ("bar", {| p_get := (self "inventory" [SAttr "bar"]); p_set := Test ["InventoryFilters"] (self "inventory" []) "bar" |}) (* 197-225 *)
  ]);
  (* classes/mixins/inventory.py *)
  ("InventoryMixin", [
    ("bar", {| p_get := (root [SAttr "bar"]); p_set := Plain Late [] (root []) "bar" (root [SAttr "bar"]) (root [SAttr "bar"]) |}) (* 153-181 *)
  ]);
  (* prototypes/lamp.py *)
  ("Lamp", [
    ("use_colors", {| p_get := (self "control_behavior" [SAttr "use_colors"]); p_set := Plain Late ["ControlBehavior"] (self "control_behavior" []) "use_colors" (self "control_behavior" [SAttr "use_colors"]) (self "control_behavior" [SAttr "use_colors"]) |}); (* 104-129 *)
    ("color_mode", {| p_get := (self "control_behavior" [SAttr "color_mode"]); p_set := Raw (self "control_behavior" [SAttr "color_mode"]) |}); (* 134-142 *)
    ("always_on", {| p_get := (root [SAttr "always_on"]); p_set := Raw (root [SAttr "always_on"]) |}); (* 147-162 *)
    ("color", {| p_get := (root [SAttr "color"]); p_set := Raw (root [SAttr "color"]) |}) (* 167-175 *)
  ]);
  (* classes/mixins/logistic_condition.py *)
  ("LogisticConditionMixin", [
    ("connect_to_logistic_network", {| p_get := (self "control_behavior" [SAttr "connect_to_logistic_network"]); p_set := Plain Late ["ControlBehavior"] (self "control_behavior" []) "connect_to_logistic_network" (self "control_behavior" [SAttr "connect_to_logistic_network"]) (self "control_behavior" [SAttr "connect_to_logistic_network"]) |}) (* 38-65 *)
  ]);
  (* classes/mixins/mode_of_operation.py *)
  ("LogisticModeOfOperationMixin", [
    ("mode_of_operation", {| p_get := (self "control_behavior" [SAttr "circuit_mode_of_operation"]); p_set := Plain Late ["ControlBehavior"] (self "control_behavior" []) "circuit_mode_of_operation" (self "control_behavior" [SAttr "circuit_mode_of_operation"]) (self "control_behavior" [SAttr "circuit_mode_of_operation"]) |}) (* 79-104 *)
  ]);
  (* classes/mixins/player_description.py *)
  ("PlayerDescriptionMixin", [
    ("player_description", {| p_get := (root [SAttr "player_description"]); p_set := Plain (EarlyAlways (root [SAttr "player_description"])) [] (root []) "player_description" (root [SAttr "player_description"]) (root [SAttr "player_description"]) |}) (* 35-56 *)
  ]);
  (* prototypes/power_switch.py *)
  ("PowerSwitch", [
    ("switch_state", {| p_get := (root [SGet "switch_state"]); p_set := Plain Late [] (root []) "switch_state" (root [SItem "switch_state"]) (root [SItem "switch_state"]) |}) (* 119-139 *)
  ]);
  (* prototypes/programmable_speaker.py *)
  ("ProgrammableSpeaker", [
    ("parameters", {| p_get := (root [SAttr "parameters"]); p_set := Test [] (root []) "parameters" |}); (* 392-413 *)
    ("alert_parameters", {| p_get := (root [SAttr "alert_parameters"]); p_set := Test [] (root []) "alert_parameters" |}); (* 425-447 *)
    ("volume", {| p_get := (self "parameters" [SAttr "playback_volume"]); p_set := Plain Late ["Parameters"] (root [SAttr "parameters"]) "playback_volume" (root [SAttr "parameters"; SAttr "playback_volume"]) (root [SAttr "parameters"; SAttr "playback_volume"]) |}); (* 459-487 *)
    ("global_playback", {| p_get := (self "parameters" [SAttr "playback_globally"]); p_set := Plain Late ["Parameters"] (root [SAttr "parameters"]) "playback_globally" (root [SAttr "parameters"; SAttr "playback_globally"]) (root [SAttr "parameters"; SAttr "playback_globally"]) |}); (* 492-513 *)
    ("show_alert", {| p_get := (self "alert_parameters" [SAttr "show_alert"]); p_set := Plain Late ["AlertParameters"] (root [SAttr "alert_parameters"]) "show_alert" (root [SAttr "alert_parameters"; SAttr "show_alert"]) (root [SAttr "alert_parameters"; SAttr "show_alert"]) |}); (* 518-538 *)
    ("allow_polyphony", {| p_get := (self "parameters" [SAttr "allow_polyphony"]); p_set := Plain Late ["Parameters"] (root [SAttr "parameters"]) "allow_polyphony" (root [SAttr "parameters"; SAttr "allow_polyphony"]) (root [SAttr "parameters"; SAttr "allow_polyphony"]) |}); (* 543-563 *)
    ("show_alert_on_map", {| p_get := (self "alert_parameters" [SAttr "show_on_map"]); p_set := Plain Late ["AlertParameters"] (root [SAttr "alert_parameters"]) "show_on_map" (root [SAttr "alert_parameters"; SAttr "show_on_map"]) (root [SAttr "alert_parameters"; SAttr "show_on_map"]) |}); (* 568-588 *)
    ("alert_icon", {| p_get := (self "alert_parameters" [SGet "icon_signal_id"]); p_set := Plain Late ["AlertParameters"] (root [SAttr "alert_parameters"]) "icon_signal_id" (self "alert_parameters" [SItem "icon_signal_id"]) (self "alert_parameters" [SItem "icon_signal_id"]) |}); (* 593-617 *)
    ("alert_message", {| p_get := (self "alert_parameters" [SGet "alert_message"]); p_set := Plain Late ["AlertParameters"] (self "alert_parameters" []) "alert_message" (root [SAttr "alert_parameters"; SAttr "alert_message"]) (root [SAttr "alert_parameters"; SAttr "alert_message"]) |}); (* 622-646 *)
    ("signal_value_is_pitch", {| p_get := (self "control_behavior" [SAttr "circuit_parameters"; SAttr "signal_value_is_pitch"]); p_set := Plain Late ["ControlBehavior"; "CircuitParameters"] (self "control_behavior" [SAttr "circuit_parameters"]) "signal_value_is_pitch" (self "control_behavior" [SAttr "circuit_parameters"; SAttr "signal_value_is_pitch"]) (self "control_behavior" [SAttr "circuit_parameters"; SAttr "signal_value_is_pitch"]) |}); (* 651-673 *)
    ("instrument_id", {| p_get := (self "control_behavior" [SItem "circuit_parameters"; SItem "instrument_id"]); p_set := Plain Late ["ControlBehavior"; "CircuitParameters"] (self "control_behavior" [SAttr "circuit_parameters"]) "instrument_id" (self "control_behavior" [SAttr "circuit_parameters"; SAttr "instrument_id"]) (self "control_behavior" [SAttr "circuit_parameters"; SAttr "instrument_id"]) |}); (* 678-706 *)
    ("note_id", {| p_get := (self "control_behavior" [SAttr "circuit_parameters"; SAttr "note_id"]); p_set := Plain Late ["ControlBehavior"; "CircuitParameters"] (self "control_behavior" [SAttr "circuit_parameters"]) "note_id" (self "control_behavior" [SAttr "circuit_parameters"; SAttr "note_id"]) (self "control_behavior" [SAttr "circuit_parameters"; SAttr "note_id"]) |}) (* 759-785 *)
  ]);
  (* prototypes/rail_chain_signal.py *)
  ("RailChainSignal", [
    ("blue_output_signal", {| p_get := (self "control_behavior" [SAttr "blue_output_signal"]); p_set := Plain Late ["ControlBehavior"] (self "control_behavior" []) "blue_output_signal" (self "control_behavior" [SAttr "blue_output_signal"]) (self "control_behavior" [SAttr "blue_output_signal"]) |}) (* 93-127 *)
  ]);
  (* prototypes/rail_signal.py *)
  ("RailSignal", [
    ("enable_disable", {| p_get := (self "control_behavior" [SAttr "circuit_close_signal"]); p_set := Plain Late ["ControlBehavior"] (self "control_behavior" []) "circuit_close_signal" (self "control_behavior" [SAttr "circuit_close_signal"]) (self "control_behavior" [SAttr "circuit_close_signal"]) |}); (* 112-127 *)
    ("read_signal", {| p_get := (self "control_behavior" [SAttr "circuit_read_signal"]); p_set := Plain Late ["ControlBehavior"] (self "control_behavior" []) "circuit_read_signal" (self "control_behavior" [SAttr "circuit_read_signal"]) (self "control_behavior" [SAttr "circuit_read_signal"]) |}) (* 132-158 *)
  ]);
  (* prototypes/reactor.py *)
  ("Reactor", [
    ("read_burner_fuel", {| p_get := (self "control_behavior" [SAttr "read_burner_fuel"]); p_set := Plain Late ["ControlBehavior"] (self "control_behavior" []) "read_burner_fuel" (self "control_behavior" [SAttr "read_burner_fuel"]) (self "control_behavior" [SAttr "read_burner_fuel"]) |}); (* 102-120 *)
    ("read_temperature", {| p_get := (self "control_behavior" [SAttr "read_temperature"]); p_set := Plain Late ["ControlBehavior"] (self "control_behavior" []) "read_temperature" (self "control_behavior" [SAttr "read_temperature"]) (self "control_behavior" [SAttr "read_temperature"]) |}); (* 125-143 *)
    ("temperature_signal", {| p_get := (self "control_behavior" [SAttr "temperature_signal"]); p_set := Plain Late ["ControlBehavior"] (self "control_behavior" []) "temperature_signal" (self "control_behavior" [SAttr "temperature_signal"]) (self "control_behavior" [SAttr "temperature_signal"]) |}) (* 148-166 *)
  ]);
  (* classes/mixins/read_ammo.py *)
  ("ReadAmmoMixin", [
    ("read_ammo", {| p_get := (self "control_behavior" [SAttr "read_ammo"]); p_set := Plain Late ["ControlBehavior"] (self "control_behavior" []) "read_ammo" (self "control_behavior" [SAttr "read_ammo"]) (self "control_behavior" [SAttr "read_ammo"]) |}) (* 31-49 *)
  ]);
  (* classes/mixins/read_rail_signal.py *)
  ("ReadRailSignalMixin", [
    ("red_output_signal", {| p_get := (self "control_behavior" [SAttr "red_output_signal"]); p_set := Plain Late ["ControlBehavior"] (self "control_behavior" []) "red_output_signal" (self "control_behavior" [SAttr "red_output_signal"]) (self "control_behavior" [SAttr "red_output_signal"]) |}); (* 43-77 *)
    ("yellow_output_signal", {| p_get := (self "control_behavior" [SAttr "yellow_output_signal"]); p_set := Plain Late ["ControlBehavior"] (self "control_behavior" []) "yellow_output_signal" (self "control_behavior" [SAttr "yellow_output_signal"]) (self "control_behavior" [SAttr "yellow_output_signal"]) |}); (* 82-116 *)
    ("green_output_signal", {| p_get := (self "control_behavior" [SAttr "green_output_signal"]); p_set := Plain Late ["ControlBehavior"] (self "control_behavior" []) "green_output_signal" (self "control_behavior" [SAttr "green_output_signal"]) (self "control_behavior" [SAttr "green_output_signal"]) |}) (* 121-155 *)
  ]);
  (* classes/mixins/recipe.py *)
  ("RecipeMixin", [
    ("recipe", {| p_get := (root [SAttr "recipe"]); p_set := Plain (EarlyChecked (root [SAttr "recipe"])) [] (root []) "recipe" (root [SAttr "recipe"]) (root [SAttr "recipe"]) |}); (* 148-178 *)
    ("recipe_quality", {| p_get := (root [SAttr "recipe"]); p_set := Plain (EarlyChecked (root [SAttr "recipe_quality"])) [] (root []) "recipe_quality" (root [SAttr "recipe_quality"]) (root [SAttr "recipe_quality"]) |}) (* 183-204 *)
  ]);
  (* classes/mixins/request_filters.py *)
  ("RequestFiltersMixin", [
    ("request_filters", {| p_get := (root [SAttr "request_filters"]); p_set := Always [] (root []) "request_filters" (root [SAttr "request_filters"]) |}); (* 145-167 *)
    ("trash_not_requested", {| p_get := (self "request_filters" [SAttr "trash_not_requested"]); p_set := Plain Late ["RequestFilters"] (self "request_filters" []) "trash_not_requested" (self "request_filters" [SAttr "trash_not_requested"]) (self "request_filters" [SAttr "trash_not_requested"]) |}); (* 172-190 *)
    ("request_from_buffers", {| p_get := (self "request_filters" [SItem "request_from_buffers"]); p_set := Plain Late ["RequestFilters"] (self "request_filters" []) "request_from_buffers" (self "request_filters" [SAttr "request_from_buffers"]) (self "request_filters" [SItem "request_from_buffers"]) |}); (* 195-213 *)
    ("requests_enabled", {| p_get := (self "request_filters" [SAttr "enabled"]); p_set := Plain Late ["RequestFilters"] (self "request_filters" []) "enabled" (self "request_filters" [SAttr "enabled"]) (self "request_filters" [SAttr "enabled"]) |}); (* 218-236 *)
    ("sections", {| p_get := (self "request_filters" [SAttr "sections"]); p_set := Plain Late ["RequestFilters"] (self "request_filters" []) "sections" (self "request_filters" [SAttr "sections"]) (self "request_filters" [SAttr "sections"]) |}) (* 241-259 *)
  ]);
  (* prototypes/roboport.py *)
  ("Roboport", [
    ("read_logistics", {| p_get := (self "control_behavior" [SAttr "read_logistics"]); p_set := Plain Late ["ControlBehavior"] (self "control_behavior" []) "read_logistics" (self "control_behavior" [SAttr "read_logistics"]) (self "control_behavior" [SAttr "read_logistics"]) |}); (* 108-133 *)
    ("read_robot_stats", {| p_get := (self "control_behavior" [SAttr "read_robot_stats"]); p_set := Plain Late ["ControlBehavior"] (self "control_behavior" []) "read_robot_stats" (self "control_behavior" [SAttr "read_robot_stats"]) (self "control_behavior" [SAttr "read_robot_stats"]) |}); (* 138-164 *)
    ("available_logistic_signal", {| p_get := (self "control_behavior" [SAttr "available_logistic_output_signal"]); p_set := Plain Late ["ControlBehavior"] (self "control_behavior" []) "available_logistic_output_signal" (self "control_behavior" [SAttr "available_logistic_output_signal"]) (self "control_behavior" [SAttr "available_logistic_output_signal"]) |}); (* 169-196 *)
    ("total_logistic_signal", {| p_get := (self "control_behavior" [SAttr "total_logistic_output_signal"]); p_set := Plain Late ["ControlBehavior"] (self "control_behavior" []) "total_logistic_output_signal" (self "control_behavior" [SAttr "total_logistic_output_signal"]) (self "control_behavior" [SAttr "total_logistic_output_signal"]) |}); (* 201-227 *)
    ("available_construction_signal", {| p_get := (self "control_behavior" [SAttr "available_construction_output_signal"]); p_set := Plain Late ["ControlBehavior"] (self "control_behavior" []) "available_construction_output_signal" (self "control_behavior" [SAttr "available_construction_output_signal"]) (self "control_behavior" [SAttr "available_construction_output_signal"]) |}); (* 232-259 *)
    ("total_construction_signal", {| p_get := (self "control_behavior" [SAttr "total_construction_output_signal"]); p_set := Plain Late ["ControlBehavior"] (self "control_behavior" []) "total_construction_output_signal" (self "control_behavior" [SAttr "total_construction_output_signal"]) (self "control_behavior" [SAttr "total_construction_output_signal"]) |}) (* 264-291 *)
  ]);
  (* prototypes/rocket_silo.py *)
  ("RocketSilo", [
    ("auto_launch", {| p_get := (root [SAttr "auto_launch"]); p_set := Plain Late [] (root []) "auto_launch" (root [SAttr "auto_launch"]) (root [SAttr "auto_launch"]) |}); (* 109-129 *)
    ("read_items_mode", {| p_get := (self "control_behavior" [SAttr "read_items_mode"]); p_set := Plain Late ["ControlBehavior"] (self "control_behavior" []) "read_items_mode" (self "control_behavior" [SAttr "read_items_mode"]) (self "control_behavior" [SAttr "read_items_mode"]) |}); (* 134-152 *)
    ("transitional_request_index", {| p_get := (root [SAttr "transitional_request_index"]); p_set := Plain Late [] (root []) "transitional_request_index" (root [SAttr "transitional_request_index"]) (root [SAttr "transitional_request_index"]) |}) (* 157-171 *)
  ]);
  (* prototypes/simple_entity_with_force.py *)
  ("SimpleEntityWithForce", [
    ("variation", {| p_get := (root [SAttr "variation"]); p_set := Plain Late [] (root []) "variation" (root [SAttr "variation"]) (root [SAttr "variation"]) |}) (* 70-84 *)
  ]);
  (* prototypes/simple_entity_with_owner.py *)
  ("SimpleEntityWithOwner", [
    ("variation", {| p_get := (root [SAttr "variation"]); p_set := Plain Late [] (root []) "variation" (root [SAttr "variation"]) (root [SAttr "variation"]) |}) (* 70-84 *)
  ]);
  (* prototypes/space_platform_hub.py *)
  ("SpacePlatformHub", [
    ("request_missing_construction_materials", {| p_get := (root [SAttr "request_missing_construction_materials"]); p_set := Plain Late [] (root []) "request_missing_construction_materials" (root [SAttr "request_missing_construction_materials"]) (root [SAttr "request_missing_construction_materials"]) |}) (* 114-132 *)
  ]);
  (* prototypes/spider_vehicle.py *)
  ("SpiderVehicle", [
    ("automatic_targeting_parameters", {| p_get := (root [SAttr "automatic_targeting_parameters"]); p_set := Plain Late [] (root []) "automatic_targeting_parameters" (root [SAttr "automatic_targeting_parameters"]) (root [SAttr "automatic_targeting_parameters"]) |}); (* 127-147 *)
    ("auto_target_without_gunner", {| p_get := (self "automatic_targeting_parameters" [SAttr "auto_target_without_gunner"]); p_set := Plain Late ["AutoTargetParameters"] (self "automatic_targeting_parameters" []) "auto_target_without_gunner" (self "automatic_targeting_parameters" [SAttr "auto_target_without_gunner"]) (self "automatic_targeting_parameters" [SAttr "auto_target_without_gunner"]) |}); (* 152-170 *)
    ("auto_target_with_gunner", {| p_get := (self "automatic_targeting_parameters" [SAttr "auto_target_with_gunner"]); p_set := Plain Late ["AutoTargetParameters"] (self "automatic_targeting_parameters" []) "auto_target_with_gunner" (self "automatic_targeting_parameters" [SAttr "auto_target_with_gunner"]) (self "automatic_targeting_parameters" [SAttr "auto_target_with_gunner"]) |}) (* 175-193 *)
  ]);
  (* prototypes/splitter.py *)
  ("Splitter", [
    ("input_priority", {| p_get := (root [SAttr "input_priority"]); p_set := Plain Late [] (root []) "input_priority" (root [SAttr "input_priority"]) (root [SAttr "input_priority"]) |}); (* 96-118 *)
    ("output_priority", {| p_get := (root [SAttr "output_priority"]); p_set := Plain Late [] (root []) "output_priority" (root [SAttr "output_priority"]) (root [SAttr "output_priority"]) |}); (* 123-145 *)
    ("filter", {| p_get := (root [SAttr "filter"]); p_set := Plain Late [] (root []) "filter" (root [SAttr "filter"]) (root [SAttr "filter"]) |}) (* 150-171 *)
  ]);
  (* classes/mixins/stack_size.py *)
  ("StackSizeMixin", [
    ("override_stack_size", {| p_get := (root [SAttr "override_stack_size"]); p_set := Plain Late [] (root []) "override_stack_size" (root [SAttr "override_stack_size"]) (root [SAttr "override_stack_size"]) |}); (* 62-82 *)
    ("circuit_stack_size_enabled", {| p_get := (self "control_behavior" [SAttr "circuit_set_stack_size"]); p_set := Plain Late ["ControlBehavior"] (self "control_behavior" []) "circuit_set_stack_size" (self "control_behavior" [SAttr "circuit_set_stack_size"]) (self "control_behavior" [SAttr "circuit_set_stack_size"]) |}); (* 87-113 *)
    ("stack_size_control_signal", {| p_get := (self "control_behavior" [SAttr "stack_control_input_signal"]); p_set := Plain Late ["ControlBehavior"] (self "control_behavior" []) "stack_control_input_signal" (self "control_behavior" [SAttr "stack_control_input_signal"]) (self "control_behavior" [SAttr "stack_control_input_signal"]) |}) (* 118-155 *)
  ]);
  (* classes/mixins/target_priorities.py *)
  ("TargetPrioritiesMixin", [
    ("priority_list", {| p_get := (root [SAttr "priority_list"]); p_set := Plain Late [] (root []) "priority_list" (root [SAttr "priority_list"]) (root [SAttr "priority_list"]) |}); (* 75-93 *)
    ("ignore_unprioritized", {| p_get := (root [SAttr "ignore_unprioritized"]); p_set := Plain Late [] (root []) "ignore_unprioritized" (root [SAttr "ignore_unprioritized"]) (root [SAttr "ignore_unprioritized"]) |}); (* 98-116 *)
    ("set_priority_list", {| p_get := (self "control_behavior" [SAttr "set_priority_list"]); p_set := Plain Late ["ControlBehavior"] (self "control_behavior" []) "set_priority_list" (self "control_behavior" [SAttr "set_priority_list"]) (self "control_behavior" [SAttr "set_priority_list"]) |}); (* 121-139 *)
    ("set_ignore_unlisted_targets", {| p_get := (self "control_behavior" [SAttr "set_ignore_unlisted_targets"]); p_set := Plain Late ["ControlBehavior"] (self "control_behavior" []) "set_ignore_unlisted_targets" (self "control_behavior" [SAttr "set_ignore_unlisted_targets"]) (self "control_behavior" [SAttr "set_ignore_unlisted_targets"]) |}) (* 144-162 *)
  ]);
  (* prototypes/train_stop.py *)
  ("TrainStop", [
    ("station", {| p_get := (root [SAttr "station"]); p_set := Plain Late [] (root []) "station" (root [SAttr "station"]) (root [SAttr "station"]) |}); (* 182-197 *)
    ("manual_trains_limit", {| p_get := (root [SAttr "manual_trains_limit"]); p_set := Plain Late [] (root []) "manual_trains_limit" (root [SAttr "manual_trains_limit"]) (root [SAttr "manual_trains_limit"]) |}); (* 202-217 *)
    ("send_to_train", {| p_get := (self "control_behavior" [SAttr "send_to_train"]); p_set := Plain Late ["ControlBehavior"] (self "control_behavior" []) "send_to_train" (self "control_behavior" [SAttr "send_to_train"]) (self "control_behavior" [SAttr "send_to_train"]) |}); (* 222-241 *)
    ("read_from_train", {| p_get := (self "control_behavior" [SAttr "read_from_train"]); p_set := Plain Late ["ControlBehavior"] (self "control_behavior" []) "read_from_train" (self "control_behavior" [SAttr "read_from_train"]) (self "control_behavior" [SAttr "read_from_train"]) |}); (* 246-265 *)
    ("read_stopped_train", {| p_get := (self "control_behavior" [SAttr "read_stopped_train"]); p_set := Plain Late ["ControlBehavior"] (self "control_behavior" []) "read_stopped_train" (self "control_behavior" [SAttr "read_stopped_train"]) (self "control_behavior" [SAttr "read_stopped_train"]) |}); (* 270-289 *)
    ("train_stopped_signal", {| p_get := (self "control_behavior" [SAttr "train_stopped_signal"]); p_set := Plain Late ["ControlBehavior"] (self "control_behavior" []) "train_stopped_signal" (self "control_behavior" [SAttr "train_stopped_signal"]) (self "control_behavior" [SAttr "train_stopped_signal"]) |}); (* 294-313 *)
    ("signal_limits_trains", {| p_get := (self "control_behavior" [SAttr "set_trains_limit"]); p_set := Plain Late ["ControlBehavior"] (self "control_behavior" []) "set_trains_limit" (self "control_behavior" [SAttr "set_trains_limit"]) (self "control_behavior" [SAttr "set_trains_limit"]) |}); (* 318-337 *)
    ("trains_limit_signal", {| p_get := (self "control_behavior" [SAttr "trains_limit_signal"]); p_set := Plain Late ["ControlBehavior"] (self "control_behavior" []) "trains_limit_signal" (self "control_behavior" [SAttr "trains_limit_signal"]) (self "control_behavior" [SAttr "trains_limit_signal"]) |}); (* 342-360 *)
    ("read_trains_count", {| p_get := (self "control_behavior" [SAttr "read_trains_count"]); p_set := Plain Late ["ControlBehavior"] (self "control_behavior" []) "read_trains_count" (self "control_behavior" [SAttr "read_trains_count"]) (self "control_behavior" [SAttr "read_trains_count"]) |}); (* 365-383 *)
    ("trains_count_signal", {| p_get := (self "control_behavior" [SAttr "trains_count_signal"]); p_set := Plain Late ["ControlBehavior"] (self "control_behavior" []) "trains_count_signal" (self "control_behavior" [SAttr "trains_count_signal"]) (self "control_behavior" [SAttr "trains_count_signal"]) |}) (* 388-407 *)
  ]);
  (* classes/mixins/vehicle.py *)
  ("VehicleMixin", [
    ("trunk_inventory", {| p_get := (root [SAttr "trunk_inventory"]); p_set := ReadOnly |}); (* 42-46 *)
    ("ammo_inventory", {| p_get := (root [SAttr "trunk_inventory"]); p_set := ReadOnly |}); (* 51-55 *)
    ("driver_is_main_gunner", {| p_get := (root [SAttr "driver_is_main_gunner"]); p_set := Plain Late [] (root []) "driver_is_main_gunner" (root [SAttr "driver_is_main_gunner"]) (root [SAttr "driver_is_main_gunner"]) |}); (* 60-74 *)
    ("selected_gun_index", {| p_get := (root [SAttr "selected_gun_index"]); p_set := Plain Late [] (root []) "selected_gun_index" (root [SAttr "selected_gun_index"]) (root [SAttr "selected_gun_index"]) |}) (* 79-93 *)
  ]);
  (* prototypes/wall.py *)
  ("Wall", [
    ("enable_disable", {| p_get := (self "control_behavior" [SAttr "circuit_open_gate"]); p_set := Plain Late ["ControlBehavior"] (self "control_behavior" []) "circuit_open_gate" (self "control_behavior" [SAttr "circuit_open_gate"]) (self "control_behavior" [SAttr "circuit_open_gate"]) |}); (* 106-121 *)
    ("read_gate", {| p_get := (self "control_behavior" [SAttr "circuit_read_sensor"]); p_set := Plain Late ["ControlBehavior"] (self "control_behavior" []) "circuit_read_sensor" (self "control_behavior" [SAttr "circuit_read_sensor"]) (self "control_behavior" [SAttr "circuit_read_sensor"]) |}); (* 126-145 *)
    ("output_signal", {| p_get := (self "control_behavior" [SAttr "output_signal"]); p_set := Plain Late ["ControlBehavior"] (self "control_behavior" []) "output_signal" (self "control_behavior" [SAttr "output_signal"]) (self "control_behavior" [SAttr "output_signal"]) |}) (* 150-169 *)
  ])
].

Definition draftsman : lib := {| l_bases := bases; l_fields := fields; l_props := props |}.

(** The classes of entities. *)
Definition entity_classes : list cls := [
  "Accumulator"; "AgriculturalTower"; "AmmoTurret"; "ArithmeticCombinator";
  "ArtilleryTurret"; "ArtilleryWagon"; "AssemblingMachine"; "AsteroidCollector";
  "Beacon"; "Boiler"; "BurnerGenerator"; "Car"; "CargoLandingPad"; "CargoWagon";
  "ConstantCombinator"; "Container"; "CurvedRailA"; "CurvedRailB";
  "DeciderCombinator"; "DisplayPanel"; "ElectricEnergyInterface";
  "ElectricPole"; "ElectricTurret"; "ElevatedCurvedRailA";
  "ElevatedCurvedRailB"; "ElevatedHalfDiagonalRail"; "ElevatedStraightRail";
  "FluidTurret"; "FluidWagon"; "Furnace"; "FusionGenerator"; "Gate";
  "Generator"; "HeatInterface"; "HeatPipe"; "InfinityContainer"; "InfinityPipe";
  "Inserter"; "Lab"; "Lamp"; "LandMine"; "LegacyCurvedRail";
  "LegacyStraightRail"; "LightningAttractor"; "LinkedBelt"; "LinkedContainer";
  "Loader"; "Locomotive"; "LogisticActiveContainer"; "LogisticBufferContainer";
  "LogisticPassiveContainer"; "LogisticRequestContainer";
  "LogisticStorageContainer"; "MiningDrill"; "OffshorePump"; "Pipe";
  "PlayerPort"; "PowerSwitch"; "ProgrammableSpeaker"; "Pump"; "Radar";
  "RailChainSignal"; "RailRamp"; "RailSignal"; "Reactor"; "Roboport";
  "RocketSilo"; "SelectorCombinator"; "SimpleEntityWithForce";
  "SimpleEntityWithOwner"; "SolarPanel"; "SpacePlatformHub"; "SpiderVehicle";
  "Splitter"; "StorageTank"; "StraightRail"; "Thruster"; "TrainStop";
  "TransportBelt"; "Turret"; "UndergroundBelt"; "UndergroundPipe"; "Wall";
  "Entity"
].
