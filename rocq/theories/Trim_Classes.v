(** The entity classes of draftsman/prototypes, as data: the fields of every
    [Format] with their defaults, the parameters of every constructor with
    theirs, what the constructor hands on and what it and the mixins assign.
    Transcribed from the declarations by a script; enumerations are written as
    their integers, names checked against the game's data as strings.

    Left out: ElectricEnergyInterface, whose defaults come from the game's data
    (see Trim_Model.v), and CargoBay, FusionReactor, HalfDiagonalRail and RailSupport,
    which do not inherit from [Entity] (draftsman/prototypes/cargo_bay.py 16,
    fusion_reactor.py 15, half_diagonal_rail.py 15, rail_support.py 15) so that their constructors raise [TypeError].
    The conditions and outputs of decider combinators are untyped lists. *)
From Coq Require Import ZArith NArith QArith String List Bool.
From Verif Require Import Common Trim_Model.
Import ListNotations.
Local Open Scope string_scope.
Local Open Scope list_scope.
Local Open Scope Z_scope.

(** draftsman/signatures.py 626-638 *)
Definition m_FloatPosition : typ := Model (str "FloatPosition") [
  (mkField (str "x") None None false, (Plain (LFloat None None)));
  (mkField (str "y") None None false, (Plain (LFloat None None)))].

(** draftsman/signatures.py 349-460 *)
Definition m_SignalID : typ := Model (str "SignalID") [
  (mkField (str "name") None None false, (Opt (Plain LStr)));
  (mkField (str "type") None (Some (VStr (str "item"))) false, (Plain (LLiteral [(str "virtual"); (str "item"); (str "fluid"); (str "recipe"); (str "entity"); (str "space-location"); (str "asteroid-chunk"); (str "quality")])));
  (mkField (str "quality") None (Some (VStr (str "normal"))) false, (Opt (Plain (LLiteral [(str "normal"); (str "uncommon"); (str "rare"); (str "epic"); (str "legendary"); (str "quality-unknown"); (str "any")]))))].

(** draftsman/prototypes/accumulator.py 28-35 *)
Definition m_Accumulator_ControlBehavior : typ := Model (str "Accumulator.Format.ControlBehavior") [
  (mkField (str "output_signal") None (Some (VRec (str "SignalID") [((str "name"), (VStr (str "signal-A"))); ((str "type"), (VStr (str "virtual"))); ((str "quality"), (VStr (str "normal")))] [])) false, (Opt m_SignalID))].

(** draftsman/prototypes/accumulator.py 18-69 *)
Definition c_Accumulator : class_ := mkClass (str "Accumulator")
  [(mkField (str "name") None None false, (Plain LStr));
   (mkField (str "quality") None (Some (VStr (str "normal"))) false, (Plain (LLiteral [(str "normal"); (str "uncommon"); (str "rare"); (str "epic"); (str "legendary")])));
   (mkField (str "position") None None false, m_FloatPosition);
   (mkField (str "entity_number") None None true, (Plain (LInt (Some 0) (Some 18446744073709551615))));
   (mkField (str "tags") None (Some (VMap [])) false, (Opt (Plain LDict)));
   (mkField (str "control_behavior") None (Some (VRec (str "Accumulator.Format.ControlBehavior") [((str "output_signal"), (VRec (str "SignalID") [((str "name"), (VStr (str "signal-A"))); ((str "type"), (VStr (str "virtual"))); ((str "quality"), (VStr (str "normal")))] []))] [])) false, (Opt m_Accumulator_ControlBehavior))]
  [((str "name"), VNone); ((str "position"), VNone); ((str "tile_position"), (VSeq [(VInt 0); (VInt 0)])); ((str "control_behavior"), (VMap [])); ((str "tags"), (VMap [])); ((str "validate_assignment"), (VStr (str "strict"))); ((str "id"), VNone); ((str "similar_entities"), VNone); ((str "validate"), VNone)]
  [Pass (str "name") None; Pass (str "position") None; Pass (str "control_behavior") None; Pass (str "tags") None]
  [Store (str "name") (Kwarg [(str "name")] VNone) None;
   Store (str "quality") (Kwarg [(str "quality")] (VStr (str "normal"))) None;
   Store (str "tags") (Kwarg [(str "tags")] (VMap [])) None]
  true.

(** draftsman/signatures.py 684-699 *)
Definition m_NetworkSpecification : typ := Model (str "NetworkSpecification") [
  (mkField (str "red") None (Some (VBool true)) false, (Opt (Plain LBool)));
  (mkField (str "green") None (Some (VBool true)) false, (Opt (Plain LBool)))].

(** draftsman/signatures.py 702-774 *)
Definition m_Condition : typ := Model (str "Condition") [
  (mkField (str "first_signal") None (Some VNone) false, (Opt m_SignalID));
  (mkField (str "first_signal_networks") None (Some (VRec (str "NetworkSpecification") [((str "red"), (VBool true)); ((str "green"), (VBool true))] [])) false, (Opt m_NetworkSpecification));
  (mkField (str "comparator") None (Some (VStr (str "<"))) false, (Opt (Plain (LLiteral [(str ">"); (str "<"); (str "="); [8805%N]; [8804%N]; [8800%N]]))));
  (mkField (str "constant") None (Some (VInt 0)) false, (Opt (Plain (LInt (Some (-2147483648)) (Some 2147483647)))));
  (mkField (str "second_signal") None (Some VNone) false, (Opt m_SignalID));
  (mkField (str "second_signal_networks") None (Some (VRec (str "NetworkSpecification") [((str "red"), (VBool true)); ((str "green"), (VBool true))] [])) false, (Opt m_NetworkSpecification))].

(** draftsman/prototypes/agricultural_tower.py 39-50 *)
Definition m_AgriculturalTower_ControlBehavior : typ := Model (str "AgriculturalTower.Format.ControlBehavior") [
  (mkField (str "connect_to_logistic_network") None (Some (VBool false)) false, (Opt (Plain LBool)));
  (mkField (str "logistic_condition") None (Some (VRec (str "Condition") [((str "first_signal"), VNone); ((str "first_signal_networks"), (VRec (str "NetworkSpecification") [((str "red"), (VBool true)); ((str "green"), (VBool true))] [])); ((str "comparator"), (VStr (str "<"))); ((str "constant"), (VInt 0)); ((str "second_signal"), VNone); ((str "second_signal_networks"), (VRec (str "NetworkSpecification") [((str "red"), (VBool true)); ((str "green"), (VBool true))] []))] [])) false, (Opt m_Condition));
  (mkField (str "circuit_condition_enabled") None (Some (VBool false)) false, (Opt (Plain LBool)));
  (mkField (str "circuit_condition") None (Some (VRec (str "Condition") [((str "first_signal"), VNone); ((str "first_signal_networks"), (VRec (str "NetworkSpecification") [((str "red"), (VBool true)); ((str "green"), (VBool true))] [])); ((str "comparator"), (VStr (str "<"))); ((str "constant"), (VInt 0)); ((str "second_signal"), VNone); ((str "second_signal_networks"), (VRec (str "NetworkSpecification") [((str "red"), (VBool true)); ((str "green"), (VBool true))] []))] [])) false, (Opt m_Condition));
  (mkField (str "read_contents") None (Some (VBool false)) false, (Opt (Plain LBool)))].

(** draftsman/prototypes/agricultural_tower.py 21-84 *)
Definition c_AgriculturalTower : class_ := mkClass (str "AgriculturalTower")
  [(mkField (str "name") None None false, (Plain LStr));
   (mkField (str "quality") None (Some (VStr (str "normal"))) false, (Plain (LLiteral [(str "normal"); (str "uncommon"); (str "rare"); (str "epic"); (str "legendary")])));
   (mkField (str "position") None None false, m_FloatPosition);
   (mkField (str "entity_number") None None true, (Plain (LInt (Some 0) (Some 18446744073709551615))));
   (mkField (str "tags") None (Some (VMap [])) false, (Opt (Plain LDict)));
   (mkField (str "control_behavior") None (Some (VRec (str "AgriculturalTower.Format.ControlBehavior") [((str "connect_to_logistic_network"), (VBool false)); ((str "logistic_condition"), (VRec (str "Condition") [((str "first_signal"), VNone); ((str "first_signal_networks"), (VRec (str "NetworkSpecification") [((str "red"), (VBool true)); ((str "green"), (VBool true))] [])); ((str "comparator"), (VStr (str "<"))); ((str "constant"), (VInt 0)); ((str "second_signal"), VNone); ((str "second_signal_networks"), (VRec (str "NetworkSpecification") [((str "red"), (VBool true)); ((str "green"), (VBool true))] []))] [])); ((str "circuit_condition_enabled"), (VBool false)); ((str "circuit_condition"), (VRec (str "Condition") [((str "first_signal"), VNone); ((str "first_signal_networks"), (VRec (str "NetworkSpecification") [((str "red"), (VBool true)); ((str "green"), (VBool true))] [])); ((str "comparator"), (VStr (str "<"))); ((str "constant"), (VInt 0)); ((str "second_signal"), VNone); ((str "second_signal_networks"), (VRec (str "NetworkSpecification") [((str "red"), (VBool true)); ((str "green"), (VBool true))] []))] [])); ((str "read_contents"), (VBool false))] [])) false, (Opt m_AgriculturalTower_ControlBehavior))]
  [((str "name"), VNone); ((str "position"), VNone); ((str "tile_position"), (VSeq [(VInt 0); (VInt 0)])); ((str "direction"), (VInt 0)); ((str "override_stack_size"), VNone); ((str "control_behavior"), (VMap [])); ((str "items"), (VMap [])); ((str "tags"), (VMap [])); ((str "validate_assignment"), (VStr (str "strict"))); ((str "id"), VNone); ((str "similar_entities"), VNone); ((str "validate"), VNone)]
  [Pass (str "name") None; Pass (str "position") None; Pass (str "direction") None; Pass (str "override_stack_size") None; Pass (str "control_behavior") None; Pass (str "items") None; Pass (str "tags") None]
  [Store (str "name") (Kwarg [(str "name")] VNone) None;
   Store (str "quality") (Kwarg [(str "quality")] (VStr (str "normal"))) None;
   Store (str "tags") (Kwarg [(str "tags")] (VMap [])) None]
  true.

(** draftsman/signatures.py 482-484 *)
Definition m_TargetID : typ := Model (str "TargetID") [
  (mkField (str "index") None None false, (Plain (LInt (Some 0) (Some 4294967295))));
  (mkField (str "name") None None false, (Plain LStr))].

(** draftsman/signatures.py 1309-1319 *)
Definition m_ItemSpecification_InventoryLocation : typ := Model (str "ItemSpecification.InventoryLocation") [
  (mkField (str "inventory") None None false, (Plain (LInt (Some 0) (Some 4294967295))));
  (mkField (str "stack") None None false, (Plain (LInt (Some 0) (Some 4294967295))));
  (mkField (str "count") None (Some (VInt 1)) false, (Opt (Plain (LInt (Some 0) (Some 4294967295)))))].

(** draftsman/signatures.py 1308-1326 *)
Definition m_ItemSpecification : typ := Model (str "ItemSpecification") [
  (mkField (str "in_inventory") None (Some (VSeq [])) false, (Opt (ListOf m_ItemSpecification_InventoryLocation)));
  (mkField (str "grid_count") None (Some (VInt 0)) false, (Opt (Plain (LInt (Some 0) (Some 4294967295)))))].

(** draftsman/signatures.py 1329-1337 *)
Definition m_ItemRequest : typ := Model (str "ItemRequest") [
  (mkField (str "id") None None false, m_SignalID);
  (mkField (str "items") None None false, m_ItemSpecification)].

(** draftsman/prototypes/ammo_turret.py 55-63 *)
Definition m_AmmoTurret_ControlBehavior : typ := Model (str "AmmoTurret.Format.ControlBehavior") [
  (mkField (str "circuit_enabled") None (Some (VBool false)) false, (Opt (Plain LBool)));
  (mkField (str "connect_to_logistic_network") None (Some (VBool false)) false, (Opt (Plain LBool)));
  (mkField (str "logistic_condition") None (Some (VRec (str "Condition") [((str "first_signal"), VNone); ((str "first_signal_networks"), (VRec (str "NetworkSpecification") [((str "red"), (VBool true)); ((str "green"), (VBool true))] [])); ((str "comparator"), (VStr (str "<"))); ((str "constant"), (VInt 0)); ((str "second_signal"), VNone); ((str "second_signal_networks"), (VRec (str "NetworkSpecification") [((str "red"), (VBool true)); ((str "green"), (VBool true))] []))] [])) false, (Opt m_Condition));
  (mkField (str "circuit_condition_enabled") None (Some (VBool false)) false, (Opt (Plain LBool)));
  (mkField (str "circuit_condition") None (Some (VRec (str "Condition") [((str "first_signal"), VNone); ((str "first_signal_networks"), (VRec (str "NetworkSpecification") [((str "red"), (VBool true)); ((str "green"), (VBool true))] [])); ((str "comparator"), (VStr (str "<"))); ((str "constant"), (VInt 0)); ((str "second_signal"), VNone); ((str "second_signal_networks"), (VRec (str "NetworkSpecification") [((str "red"), (VBool true)); ((str "green"), (VBool true))] []))] [])) false, (Opt m_Condition));
  (mkField (str "set_priority_list") None (Some (VBool false)) false, (Opt (Plain LBool)));
  (mkField (str "set_ignore_unlisted_targets") None (Some (VBool false)) false, (Opt (Plain LBool)));
  (mkField (str "ignore_unlisted_targets_condition") None (Some (VRec (str "Condition") [((str "first_signal"), VNone); ((str "first_signal_networks"), (VRec (str "NetworkSpecification") [((str "red"), (VBool true)); ((str "green"), (VBool true))] [])); ((str "comparator"), (VStr (str "<"))); ((str "constant"), (VInt 0)); ((str "second_signal"), VNone); ((str "second_signal_networks"), (VRec (str "NetworkSpecification") [((str "red"), (VBool true)); ((str "green"), (VBool true))] []))] [])) false, (Opt m_Condition));
  (mkField (str "read_ammo") None (Some (VBool true)) false, (Opt (Plain LBool)))].

(** draftsman/prototypes/ammo_turret.py 26-99 *)
Definition c_AmmoTurret : class_ := mkClass (str "AmmoTurret")
  [(mkField (str "name") None None false, (Plain LStr));
   (mkField (str "quality") None (Some (VStr (str "normal"))) false, (Plain (LLiteral [(str "normal"); (str "uncommon"); (str "rare"); (str "epic"); (str "legendary")])));
   (mkField (str "position") None None false, m_FloatPosition);
   (mkField (str "entity_number") None None true, (Plain (LInt (Some 0) (Some 18446744073709551615))));
   (mkField (str "tags") None (Some (VMap [])) false, (Opt (Plain LDict)));
   (mkField (str "direction") None (Some (VInt 0)) false, (Opt (Plain (LEnum [0; 1; 2; 3; 4; 5; 6; 7; 8; 9; 10; 11; 12; 13; 14; 15]))));
   (mkField (str "priority_list") (Some (str "priority-list")) (Some (VSeq [])) false, (Opt (ListOf m_TargetID)));
   (mkField (str "ignore_unprioritized") None (Some (VBool false)) false, (Opt (Plain LBool)));
   (mkField (str "items") None (Some (VSeq [])) false, (Opt (ListOf m_ItemRequest)));
   (mkField (str "control_behavior") None (Some (VRec (str "AmmoTurret.Format.ControlBehavior") [((str "circuit_enabled"), (VBool false)); ((str "connect_to_logistic_network"), (VBool false)); ((str "logistic_condition"), (VRec (str "Condition") [((str "first_signal"), VNone); ((str "first_signal_networks"), (VRec (str "NetworkSpecification") [((str "red"), (VBool true)); ((str "green"), (VBool true))] [])); ((str "comparator"), (VStr (str "<"))); ((str "constant"), (VInt 0)); ((str "second_signal"), VNone); ((str "second_signal_networks"), (VRec (str "NetworkSpecification") [((str "red"), (VBool true)); ((str "green"), (VBool true))] []))] [])); ((str "circuit_condition_enabled"), (VBool false)); ((str "circuit_condition"), (VRec (str "Condition") [((str "first_signal"), VNone); ((str "first_signal_networks"), (VRec (str "NetworkSpecification") [((str "red"), (VBool true)); ((str "green"), (VBool true))] [])); ((str "comparator"), (VStr (str "<"))); ((str "constant"), (VInt 0)); ((str "second_signal"), VNone); ((str "second_signal_networks"), (VRec (str "NetworkSpecification") [((str "red"), (VBool true)); ((str "green"), (VBool true))] []))] [])); ((str "set_priority_list"), (VBool false)); ((str "set_ignore_unlisted_targets"), (VBool false)); ((str "ignore_unlisted_targets_condition"), (VRec (str "Condition") [((str "first_signal"), VNone); ((str "first_signal_networks"), (VRec (str "NetworkSpecification") [((str "red"), (VBool true)); ((str "green"), (VBool true))] [])); ((str "comparator"), (VStr (str "<"))); ((str "constant"), (VInt 0)); ((str "second_signal"), VNone); ((str "second_signal_networks"), (VRec (str "NetworkSpecification") [((str "red"), (VBool true)); ((str "green"), (VBool true))] []))] [])); ((str "read_ammo"), (VBool true))] [])) false, (Opt m_AmmoTurret_ControlBehavior))]
  [((str "name"), VNone); ((str "position"), VNone); ((str "tile_position"), (VSeq [(VInt 0); (VInt 0)])); ((str "direction"), (VInt 0)); ((str "items"), (VSeq [])); ((str "tags"), (VMap [])); ((str "validate_assignment"), (VStr (str "strict"))); ((str "id"), VNone); ((str "similar_entities"), VNone); ((str "validate"), VNone)]
  [Pass (str "name") None; Pass (str "position") None; Pass (str "direction") None; Pass (str "items") None; Pass (str "tags") None]
  [Store (str "name") (Kwarg [(str "name")] VNone) None;
   Store (str "quality") (Kwarg [(str "quality")] (VStr (str "normal"))) None;
   Store (str "tags") (Kwarg [(str "tags")] (VMap [])) None;
   Store (str "direction") (Kwarg [(str "direction")] (VInt 0)) None;
   Store (str "items") (Kwarg [(str "items")] (VMap [])) (Some (VSeq []))]
  true.

(** draftsman/prototypes/arithmetic_combinator.py 49-212 *)
Definition m_ArithmeticCombinator_ControlBehavior_ArithmeticConditions : typ := Model (str "ArithmeticCombinator.Format.ControlBehavior.ArithmeticConditions") [
  (mkField (str "first_constant") None (Some VNone) false, (Opt (Plain (LInt (Some (-2147483648)) (Some 2147483647)))));
  (mkField (str "first_signal") None (Some VNone) false, (Opt m_SignalID));
  (mkField (str "first_signal_networks") None (Some (VRec (str "NetworkSpecification") [((str "red"), (VBool true)); ((str "green"), (VBool true))] [])) false, (Opt m_NetworkSpecification));
  (mkField (str "operation") None (Some (VStr (str "*"))) false, (Opt (Plain (LLiteral [(str "*"); (str "/"); (str "+"); (str "-"); (str "%"); (str "^"); (str "<<"); (str ">>"); (str "AND"); (str "OR"); (str "XOR")]))));
  (mkField (str "second_constant") None (Some (VInt 0)) false, (Opt (Plain (LInt (Some (-2147483648)) (Some 2147483647)))));
  (mkField (str "second_signal") None (Some VNone) false, (Opt m_SignalID));
  (mkField (str "second_signal_networks") None (Some (VRec (str "NetworkSpecification") [((str "red"), (VBool true)); ((str "green"), (VBool true))] [])) false, (Opt m_NetworkSpecification));
  (mkField (str "output_signal") None (Some VNone) false, (Opt m_SignalID))].

(** draftsman/prototypes/arithmetic_combinator.py 48-216 *)
Definition m_ArithmeticCombinator_ControlBehavior : typ := Model (str "ArithmeticCombinator.Format.ControlBehavior") [
  (mkField (str "arithmetic_conditions") None (Some (VRec (str "ArithmeticCombinator.Format.ControlBehavior.ArithmeticConditions") [((str "first_constant"), VNone); ((str "first_signal"), VNone); ((str "first_signal_networks"), (VRec (str "NetworkSpecification") [((str "red"), (VBool true)); ((str "green"), (VBool true))] [])); ((str "operation"), (VStr (str "*"))); ((str "second_constant"), (VInt 0)); ((str "second_signal"), VNone); ((str "second_signal_networks"), (VRec (str "NetworkSpecification") [((str "red"), (VBool true)); ((str "green"), (VBool true))] [])); ((str "output_signal"), VNone)] [])) false, (Opt m_ArithmeticCombinator_ControlBehavior_ArithmeticConditions))].

(** draftsman/prototypes/arithmetic_combinator.py 29-254 *)
Definition c_ArithmeticCombinator : class_ := mkClass (str "ArithmeticCombinator")
  [(mkField (str "name") None None false, (Plain LStr));
   (mkField (str "quality") None (Some (VStr (str "normal"))) false, (Plain (LLiteral [(str "normal"); (str "uncommon"); (str "rare"); (str "epic"); (str "legendary")])));
   (mkField (str "position") None None false, m_FloatPosition);
   (mkField (str "entity_number") None None true, (Plain (LInt (Some 0) (Some 18446744073709551615))));
   (mkField (str "tags") None (Some (VMap [])) false, (Opt (Plain LDict)));
   (mkField (str "direction") None (Some (VInt 0)) false, (Opt (Plain (LEnum [0; 1; 2; 3; 4; 5; 6; 7; 8; 9; 10; 11; 12; 13; 14; 15]))));
   (mkField (str "player_description") None (Some VNone) false, (Opt (Plain LStr)));
   (mkField (str "control_behavior") None (Some (VRec (str "ArithmeticCombinator.Format.ControlBehavior") [((str "arithmetic_conditions"), (VRec (str "ArithmeticCombinator.Format.ControlBehavior.ArithmeticConditions") [((str "first_constant"), VNone); ((str "first_signal"), VNone); ((str "first_signal_networks"), (VRec (str "NetworkSpecification") [((str "red"), (VBool true)); ((str "green"), (VBool true))] [])); ((str "operation"), (VStr (str "*"))); ((str "second_constant"), (VInt 0)); ((str "second_signal"), VNone); ((str "second_signal_networks"), (VRec (str "NetworkSpecification") [((str "red"), (VBool true)); ((str "green"), (VBool true))] [])); ((str "output_signal"), VNone)] []))] [])) false, (Opt m_ArithmeticCombinator_ControlBehavior))]
  [((str "name"), VNone); ((str "position"), VNone); ((str "tile_position"), (VSeq [(VInt 0); (VInt 0)])); ((str "direction"), (VInt 0)); ((str "player_description"), VNone); ((str "control_behavior"), (VMap [])); ((str "tags"), (VMap [])); ((str "validate_assignment"), (VStr (str "strict"))); ((str "id"), VNone); ((str "similar_entities"), VNone); ((str "validate"), VNone)]
  [Pass (str "name") None; Pass (str "position") None; Pass (str "direction") None; Pass (str "player_description") None; Pass (str "control_behavior") None; Pass (str "tags") None]
  [Store (str "name") (Kwarg [(str "name")] VNone) None;
   Store (str "quality") (Kwarg [(str "quality")] (VStr (str "normal"))) None;
   Store (str "tags") (Kwarg [(str "tags")] (VMap [])) None;
   Store (str "direction") (Kwarg [(str "direction")] (VInt 0)) None;
   Store (str "player_description") (Kwarg [(str "player_description")] VNone) None]
  true.

(** draftsman/prototypes/artillery_turret.py 58-65 *)
Definition m_ArtilleryTurret_ControlBehavior : typ := Model (str "ArtilleryTurret.Format.ControlBehavior") [
  (mkField (str "circuit_enabled") None (Some (VBool false)) false, (Opt (Plain LBool)));
  (mkField (str "connect_to_logistic_network") None (Some (VBool false)) false, (Opt (Plain LBool)));
  (mkField (str "logistic_condition") None (Some (VRec (str "Condition") [((str "first_signal"), VNone); ((str "first_signal_networks"), (VRec (str "NetworkSpecification") [((str "red"), (VBool true)); ((str "green"), (VBool true))] [])); ((str "comparator"), (VStr (str "<"))); ((str "constant"), (VInt 0)); ((str "second_signal"), VNone); ((str "second_signal_networks"), (VRec (str "NetworkSpecification") [((str "red"), (VBool true)); ((str "green"), (VBool true))] []))] [])) false, (Opt m_Condition));
  (mkField (str "circuit_condition_enabled") None (Some (VBool false)) false, (Opt (Plain LBool)));
  (mkField (str "circuit_condition") None (Some (VRec (str "Condition") [((str "first_signal"), VNone); ((str "first_signal_networks"), (VRec (str "NetworkSpecification") [((str "red"), (VBool true)); ((str "green"), (VBool true))] [])); ((str "comparator"), (VStr (str "<"))); ((str "constant"), (VInt 0)); ((str "second_signal"), VNone); ((str "second_signal_networks"), (VRec (str "NetworkSpecification") [((str "red"), (VBool true)); ((str "green"), (VBool true))] []))] [])) false, (Opt m_Condition));
  (mkField (str "read_ammo") None (Some (VBool true)) false, (Opt (Plain LBool)))].

(** draftsman/prototypes/artillery_turret.py 29-98 *)
Definition c_ArtilleryTurret : class_ := mkClass (str "ArtilleryTurret")
  [(mkField (str "name") None None false, (Plain LStr));
   (mkField (str "quality") None (Some (VStr (str "normal"))) false, (Plain (LLiteral [(str "normal"); (str "uncommon"); (str "rare"); (str "epic"); (str "legendary")])));
   (mkField (str "position") None None false, m_FloatPosition);
   (mkField (str "entity_number") None None true, (Plain (LInt (Some 0) (Some 18446744073709551615))));
   (mkField (str "tags") None (Some (VMap [])) false, (Opt (Plain LDict)));
   (mkField (str "direction") None (Some (VInt 0)) false, (Opt (Plain (LEnum [0; 1; 2; 3; 4; 5; 6; 7; 8; 9; 10; 11; 12; 13; 14; 15]))));
   (mkField (str "items") None (Some (VSeq [])) false, (Opt (ListOf m_ItemRequest)));
   (mkField (str "artillery_auto_targeting") None (Some (VBool true)) false, (Opt (Plain LBool)));
   (mkField (str "control_behavior") None (Some (VRec (str "ArtilleryTurret.Format.ControlBehavior") [((str "circuit_enabled"), (VBool false)); ((str "connect_to_logistic_network"), (VBool false)); ((str "logistic_condition"), (VRec (str "Condition") [((str "first_signal"), VNone); ((str "first_signal_networks"), (VRec (str "NetworkSpecification") [((str "red"), (VBool true)); ((str "green"), (VBool true))] [])); ((str "comparator"), (VStr (str "<"))); ((str "constant"), (VInt 0)); ((str "second_signal"), VNone); ((str "second_signal_networks"), (VRec (str "NetworkSpecification") [((str "red"), (VBool true)); ((str "green"), (VBool true))] []))] [])); ((str "circuit_condition_enabled"), (VBool false)); ((str "circuit_condition"), (VRec (str "Condition") [((str "first_signal"), VNone); ((str "first_signal_networks"), (VRec (str "NetworkSpecification") [((str "red"), (VBool true)); ((str "green"), (VBool true))] [])); ((str "comparator"), (VStr (str "<"))); ((str "constant"), (VInt 0)); ((str "second_signal"), VNone); ((str "second_signal_networks"), (VRec (str "NetworkSpecification") [((str "red"), (VBool true)); ((str "green"), (VBool true))] []))] [])); ((str "read_ammo"), (VBool true))] [])) false, (Opt m_ArtilleryTurret_ControlBehavior))]
  [((str "name"), VNone); ((str "position"), VNone); ((str "tile_position"), (VSeq [(VInt 0); (VInt 0)])); ((str "direction"), (VInt 0)); ((str "artillery_auto_targeting"), (VBool true)); ((str "control_behavior"), (VMap [])); ((str "tags"), (VMap [])); ((str "validate_assignment"), (VStr (str "strict"))); ((str "id"), VNone); ((str "similar_entities"), VNone); ((str "validate"), VNone)]
  [Pass (str "name") None; Pass (str "position") None; Pass (str "direction") None; Pass (str "artillery_auto_targeting") None; Pass (str "control_behavior") None; Pass (str "tags") None]
  [Store (str "name") (Kwarg [(str "name")] VNone) None;
   Store (str "quality") (Kwarg [(str "quality")] (VStr (str "normal"))) None;
   Store (str "tags") (Kwarg [(str "tags")] (VMap [])) None;
   Store (str "direction") (Kwarg [(str "direction")] (VInt 0)) None;
   Store (str "items") (Kwarg [(str "items")] (VMap [])) (Some (VSeq []));
   Store (str "artillery_auto_targeting") (Kwarg [(str "artillery_auto_targeting")] VNone) None]
  true.

(** draftsman/classes/mixins/equipment_grid.py 20-21 *)
Definition m_EquipmentGridMixin_EquipmentComponent_EquipmentID : typ := Model (str "EquipmentGridMixin.Format.EquipmentComponent.EquipmentID") [
  (mkField (str "name") None None false, (Plain LStr))].

(** draftsman/signatures.py 641-653 *)
Definition m_IntPosition : typ := Model (str "IntPosition") [
  (mkField (str "x") None None false, (Plain (LInt None None)));
  (mkField (str "y") None None false, (Plain (LInt None None)))].

(** draftsman/classes/mixins/equipment_grid.py 19-27 *)
Definition m_EquipmentGridMixin_EquipmentComponent : typ := Model (str "EquipmentGridMixin.Format.EquipmentComponent") [
  (mkField (str "equipment") None None false, m_EquipmentGridMixin_EquipmentComponent_EquipmentID);
  (mkField (str "position") None None false, m_IntPosition)].

(** draftsman/prototypes/artillery_wagon.py 21-75 *)
Definition c_ArtilleryWagon : class_ := mkClass (str "ArtilleryWagon")
  [(mkField (str "name") None None false, (Plain LStr));
   (mkField (str "quality") None (Some (VStr (str "normal"))) false, (Plain (LLiteral [(str "normal"); (str "uncommon"); (str "rare"); (str "epic"); (str "legendary")])));
   (mkField (str "position") None None false, m_FloatPosition);
   (mkField (str "entity_number") None None true, (Plain (LInt (Some 0) (Some 18446744073709551615))));
   (mkField (str "tags") None (Some (VMap [])) false, (Opt (Plain LDict)));
   (mkField (str "orientation") None (Some (VFloat 0)) false, (Opt (Plain LOrientation)));
   (mkField (str "items") None (Some (VSeq [])) false, (Opt (ListOf m_ItemRequest)));
   (mkField (str "enable_logistics_while_moving") None (Some (VBool true)) false, (Opt (Plain LBool)));
   (mkField (str "grid") None (Some (VSeq [])) false, (ListOf m_EquipmentGridMixin_EquipmentComponent));
   (mkField (str "artillery_auto_targeting") None (Some (VBool true)) false, (Opt (Plain LBool)))]
  [((str "name"), VNone); ((str "position"), VNone); ((str "tile_position"), (VSeq [(VInt 0); (VInt 0)])); ((str "orientation"), (VFloat 0)); ((str "enable_logistics_while_moving"), (VBool false)); ((str "grid"), (VSeq [])); ((str "artillery_auto_targeting"), (VBool true)); ((str "items"), (VSeq [])); ((str "tags"), (VMap [])); ((str "validate_assignment"), (VStr (str "strict"))); ((str "id"), VNone); ((str "similar_entities"), VNone); ((str "validate"), VNone)]
  [Pass (str "name") None; Pass (str "position") None; Pass (str "orientation") None; Pass (str "enable_logistics_while_moving") None; Pass (str "grid") None; Pass (str "artillery_auto_targeting") None; Pass (str "items") None; Pass (str "tags") None]
  [Store (str "name") (Kwarg [(str "name")] VNone) None;
   Store (str "quality") (Kwarg [(str "quality")] (VStr (str "normal"))) None;
   Store (str "tags") (Kwarg [(str "tags")] (VMap [])) None;
   Store (str "orientation") (Kwarg [(str "orientation")] (VFloat 0)) (Some (VFloat 0));
   Store (str "items") (Kwarg [(str "items")] (VMap [])) (Some (VSeq []));
   Store (str "enable_logistics_while_moving") (Kwarg [(str "enable_logistics_while_moving")] VNone) None;
   Store (str "artillery_auto_targeting") (Kwarg [(str "artillery_auto_targeting")] VNone) None]
  false.

(** draftsman/prototypes/assembling_machine.py 25-116 *)
Definition c_AssemblingMachine : class_ := mkClass (str "AssemblingMachine")
  [(mkField (str "name") None None false, (Plain LStr));
   (mkField (str "quality") None (Some (VStr (str "normal"))) false, (Plain (LLiteral [(str "normal"); (str "uncommon"); (str "rare"); (str "epic"); (str "legendary")])));
   (mkField (str "position") None None false, m_FloatPosition);
   (mkField (str "entity_number") None None true, (Plain (LInt (Some 0) (Some 18446744073709551615))));
   (mkField (str "tags") None (Some (VMap [])) false, (Opt (Plain LDict)));
   (mkField (str "direction") None (Some (VInt 0)) false, (Opt (Plain (LEnum [0; 1; 2; 3; 4; 5; 6; 7; 8; 9; 10; 11; 12; 13; 14; 15]))));
   (mkField (str "recipe") None (Some VNone) false, (Opt (Plain LStr)));
   (mkField (str "recipe_quality") None (Some (VStr (str "normal"))) false, (Opt (Plain (LLiteral [(str "normal"); (str "uncommon"); (str "rare"); (str "epic"); (str "legendary")]))));
   (mkField (str "items") None (Some (VSeq [])) false, (Opt (ListOf m_ItemRequest)))]
  [((str "name"), VNone); ((str "position"), VNone); ((str "tile_position"), (VSeq [(VInt 0); (VInt 0)])); ((str "direction"), (VInt 0)); ((str "recipe"), VNone); ((str "items"), (VSeq [])); ((str "tags"), (VMap [])); ((str "validate_assignment"), (VStr (str "strict"))); ((str "id"), VNone); ((str "similar_entities"), VNone); ((str "validate"), VNone)]
  [Pass (str "name") None; Pass (str "position") None; Pass (str "direction") None; Pass (str "recipe") None; Pass (str "items") None; Pass (str "tags") None]
  [Store (str "name") (Kwarg [(str "name")] VNone) None;
   Store (str "quality") (Kwarg [(str "quality")] (VStr (str "normal"))) None;
   Store (str "tags") (Kwarg [(str "tags")] (VMap [])) None;
   Store (str "direction") (Kwarg [(str "direction")] (VInt 0)) None;
   Store (str "recipe") (Kwarg [(str "recipe")] VNone) None;
   Store (str "recipe_quality") (Kwarg [(str "recipe_quality")] VNone) None;
   Store (str "items") (Kwarg [(str "items")] (VMap [])) (Some (VSeq []))]
  false.

(** draftsman/prototypes/asteroid_collector.py 46-60 *)
Definition m_AsteroidCollector_ControlBehavior : typ := Model (str "AsteroidCollector.Format.ControlBehavior") [
  (mkField (str "circuit_enabled") None (Some (VBool false)) false, (Opt (Plain LBool)));
  (mkField (str "circuit_condition_enabled") None (Some (VBool false)) false, (Opt (Plain LBool)));
  (mkField (str "circuit_condition") None (Some (VRec (str "Condition") [((str "first_signal"), VNone); ((str "first_signal_networks"), (VRec (str "NetworkSpecification") [((str "red"), (VBool true)); ((str "green"), (VBool true))] [])); ((str "comparator"), (VStr (str "<"))); ((str "constant"), (VInt 0)); ((str "second_signal"), VNone); ((str "second_signal_networks"), (VRec (str "NetworkSpecification") [((str "red"), (VBool true)); ((str "green"), (VBool true))] []))] [])) false, (Opt m_Condition));
  (mkField (str "circuit_set_filters") None (Some (VBool false)) false, (Opt (Plain LBool)));
  (mkField (str "circuit_read_contents") None (Some (VBool false)) false, (Opt (Plain LBool)));
  (mkField (str "include_hands") None (Some (VBool true)) false, (Opt (Plain LBool)))].

(** draftsman/signatures.py 487-489 *)
Definition m_AsteroidChunkID : typ := Model (str "AsteroidChunkID") [
  (mkField (str "index") None None false, (Plain (LInt (Some 0) (Some 4294967295))));
  (mkField (str "name") None None false, (Plain LStr))].

(** draftsman/prototypes/asteroid_collector.py 24-131 *)
Definition c_AsteroidCollector : class_ := mkClass (str "AsteroidCollector")
  [(mkField (str "name") None None false, (Plain LStr));
   (mkField (str "quality") None (Some (VStr (str "normal"))) false, (Plain (LLiteral [(str "normal"); (str "uncommon"); (str "rare"); (str "epic"); (str "legendary")])));
   (mkField (str "position") None None false, m_FloatPosition);
   (mkField (str "entity_number") None None true, (Plain (LInt (Some 0) (Some 18446744073709551615))));
   (mkField (str "tags") None (Some (VMap [])) false, (Opt (Plain LDict)));
   (mkField (str "direction") None (Some (VInt 0)) false, (Opt (Plain (LEnum [0; 1; 2; 3; 4; 5; 6; 7; 8; 9; 10; 11; 12; 13; 14; 15]))));
   (mkField (str "control_behavior") None (Some (VRec (str "AsteroidCollector.Format.ControlBehavior") [((str "circuit_enabled"), (VBool false)); ((str "circuit_condition_enabled"), (VBool false)); ((str "circuit_condition"), (VRec (str "Condition") [((str "first_signal"), VNone); ((str "first_signal_networks"), (VRec (str "NetworkSpecification") [((str "red"), (VBool true)); ((str "green"), (VBool true))] [])); ((str "comparator"), (VStr (str "<"))); ((str "constant"), (VInt 0)); ((str "second_signal"), VNone); ((str "second_signal_networks"), (VRec (str "NetworkSpecification") [((str "red"), (VBool true)); ((str "green"), (VBool true))] []))] [])); ((str "circuit_set_filters"), (VBool false)); ((str "circuit_read_contents"), (VBool false)); ((str "include_hands"), (VBool true))] [])) false, (Opt m_AsteroidCollector_ControlBehavior));
   (mkField (str "result_inventory") (Some (str "result-inventory")) (Some VNone) false, (Plain LNothing));
   (mkField (str "chunk_filter") (Some (str "chunk-filter")) (Some (VSeq [])) false, (Opt (ListOf m_AsteroidChunkID)))]
  [((str "name"), VNone); ((str "position"), VNone); ((str "tile_position"), (VSeq [(VInt 0); (VInt 0)])); ((str "direction"), (VInt 0)); ((str "result_inventory"), VNone); ((str "chunk_filter"), (VSeq [])); ((str "control_behavior"), (VMap [])); ((str "tags"), (VMap [])); ((str "validate_assignment"), (VStr (str "strict"))); ((str "id"), VNone); ((str "similar_entities"), VNone); ((str "validate"), VNone)]
  [Pass (str "name") None; Pass (str "position") None; Pass (str "direction") None; Pass (str "control_behavior") None; Pass (str "tags") None]
  [Store (str "name") (Kwarg [(str "name")] VNone) None;
   Store (str "quality") (Kwarg [(str "quality")] (VStr (str "normal"))) None;
   Store (str "tags") (Kwarg [(str "tags")] (VMap [])) None;
   Store (str "direction") (Kwarg [(str "direction")] (VInt 0)) None;
   Store (str "chunk_filter") (Param (str "chunk_filter")) None]
  true.

(** draftsman/prototypes/beacon.py 20-58 *)
Definition c_Beacon : class_ := mkClass (str "Beacon")
  [(mkField (str "name") None None false, (Plain LStr));
   (mkField (str "quality") None (Some (VStr (str "normal"))) false, (Plain (LLiteral [(str "normal"); (str "uncommon"); (str "rare"); (str "epic"); (str "legendary")])));
   (mkField (str "position") None None false, m_FloatPosition);
   (mkField (str "entity_number") None None true, (Plain (LInt (Some 0) (Some 18446744073709551615))));
   (mkField (str "tags") None (Some (VMap [])) false, (Opt (Plain LDict)));
   (mkField (str "items") None (Some (VSeq [])) false, (Opt (ListOf m_ItemRequest)))]
  [((str "name"), VNone); ((str "position"), VNone); ((str "tile_position"), (VSeq [(VInt 0); (VInt 0)])); ((str "items"), (VSeq [])); ((str "tags"), (VMap [])); ((str "validate_assignment"), (VStr (str "strict"))); ((str "id"), VNone); ((str "similar_entities"), VNone); ((str "validate"), VNone)]
  [Pass (str "name") None; Pass (str "position") None; Pass (str "items") None; Pass (str "tags") None]
  [Store (str "name") (Kwarg [(str "name")] VNone) None;
   Store (str "quality") (Kwarg [(str "quality")] (VStr (str "normal"))) None;
   Store (str "tags") (Kwarg [(str "tags")] (VMap [])) None;
   Store (str "items") (Kwarg [(str "items")] (VMap [])) (Some (VSeq []))]
  false.

(** draftsman/prototypes/boiler.py 17-54 *)
Definition c_Boiler : class_ := mkClass (str "Boiler")
  [(mkField (str "name") None None false, (Plain LStr));
   (mkField (str "quality") None (Some (VStr (str "normal"))) false, (Plain (LLiteral [(str "normal"); (str "uncommon"); (str "rare"); (str "epic"); (str "legendary")])));
   (mkField (str "position") None None false, m_FloatPosition);
   (mkField (str "entity_number") None None true, (Plain (LInt (Some 0) (Some 18446744073709551615))));
   (mkField (str "tags") None (Some (VMap [])) false, (Opt (Plain LDict)));
   (mkField (str "direction") None (Some (VInt 0)) false, (Opt (Plain (LEnum [0; 1; 2; 3; 4; 5; 6; 7; 8; 9; 10; 11; 12; 13; 14; 15]))));
   (mkField (str "items") None (Some (VSeq [])) false, (Opt (ListOf m_ItemRequest)))]
  [((str "name"), VNone); ((str "position"), VNone); ((str "tile_position"), (VSeq [(VInt 0); (VInt 0)])); ((str "direction"), (VInt 0)); ((str "items"), (VSeq [])); ((str "tags"), (VMap [])); ((str "validate_assignment"), (VStr (str "strict"))); ((str "id"), VNone); ((str "similar_entities"), VNone); ((str "validate"), VNone)]
  [Pass (str "name") None; Pass (str "position") None; Pass (str "direction") None; Pass (str "items") None; Pass (str "tags") None]
  [Store (str "name") (Kwarg [(str "name")] VNone) None;
   Store (str "quality") (Kwarg [(str "quality")] (VStr (str "normal"))) None;
   Store (str "tags") (Kwarg [(str "tags")] (VMap [])) None;
   Store (str "direction") (Kwarg [(str "direction")] (VInt 0)) None;
   Store (str "items") (Kwarg [(str "items")] (VMap [])) (Some (VSeq []))]
  false.

(** draftsman/prototypes/burner_generator.py 22-97 *)
Definition c_BurnerGenerator : class_ := mkClass (str "BurnerGenerator")
  [(mkField (str "name") None None false, (Plain LStr));
   (mkField (str "quality") None (Some (VStr (str "normal"))) false, (Plain (LLiteral [(str "normal"); (str "uncommon"); (str "rare"); (str "epic"); (str "legendary")])));
   (mkField (str "position") None None false, m_FloatPosition);
   (mkField (str "entity_number") None None true, (Plain (LInt (Some 0) (Some 18446744073709551615))));
   (mkField (str "tags") None (Some (VMap [])) false, (Opt (Plain LDict)));
   (mkField (str "direction") None (Some (VInt 0)) false, (Opt (Plain (LEnum [0; 1; 2; 3; 4; 5; 6; 7; 8; 9; 10; 11; 12; 13; 14; 15]))));
   (mkField (str "items") None (Some (VSeq [])) false, (Opt (ListOf m_ItemRequest)))]
  [((str "name"), VNone); ((str "position"), VNone); ((str "tile_position"), (VSeq [(VInt 0); (VInt 0)])); ((str "direction"), (VInt 0)); ((str "items"), (VSeq [])); ((str "tags"), (VMap [])); ((str "validate_assignment"), (VStr (str "strict"))); ((str "id"), VNone); ((str "similar_entities"), VNone); ((str "validate"), VNone)]
  [Pass (str "name") None; Pass (str "position") None; Pass (str "direction") None; Pass (str "items") None; Pass (str "tags") None]
  [Store (str "name") (Kwarg [(str "name")] VNone) None;
   Store (str "quality") (Kwarg [(str "quality")] (VStr (str "normal"))) None;
   Store (str "tags") (Kwarg [(str "tags")] (VMap [])) None;
   Store (str "direction") (Kwarg [(str "direction")] (VInt 0)) None;
   Store (str "items") (Kwarg [(str "items")] (VMap [])) (Some (VSeq []))]
  false.

(** draftsman/prototypes/car.py 22-77 *)
Definition c_Car : class_ := mkClass (str "Car")
  [(mkField (str "name") None None false, (Plain LStr));
   (mkField (str "quality") None (Some (VStr (str "normal"))) false, (Plain (LLiteral [(str "normal"); (str "uncommon"); (str "rare"); (str "epic"); (str "legendary")])));
   (mkField (str "position") None None false, m_FloatPosition);
   (mkField (str "entity_number") None None true, (Plain (LInt (Some 0) (Some 18446744073709551615))));
   (mkField (str "tags") None (Some (VMap [])) false, (Opt (Plain LDict)));
   (mkField (str "orientation") None (Some (VFloat 0)) false, (Opt (Plain LOrientation)));
   (mkField (str "items") None (Some (VSeq [])) false, (Opt (ListOf m_ItemRequest)));
   (mkField (str "enable_logistics_while_moving") None (Some (VBool true)) false, (Opt (Plain LBool)));
   (mkField (str "grid") None (Some (VSeq [])) false, (ListOf m_EquipmentGridMixin_EquipmentComponent));
   (mkField (str "trunk_inventory") None (Some VNone) false, (Plain LNothing));
   (mkField (str "ammo_inventory") None (Some VNone) false, (Plain LNothing));
   (mkField (str "driver_is_main_gunner") None (Some (VBool true)) false, (Opt (Plain LBool)));
   (mkField (str "selected_gun_index") None (Some (VInt 1)) false, (Opt (Plain (LInt (Some 0) (Some 4294967295)))))]
  [((str "name"), VNone); ((str "position"), VNone); ((str "tile_position"), (VSeq [(VInt 0); (VInt 0)])); ((str "orientation"), (VFloat 0)); ((str "enable_logistics_while_moving"), (VBool true)); ((str "grid"), (VSeq [])); ((str "trunk_inventory"), VNone); ((str "ammo_inventory"), VNone); ((str "driver_is_main_gunner"), (VBool true)); ((str "selected_gun_index"), (VInt 1)); ((str "items"), (VMap [])); ((str "tags"), (VMap [])); ((str "validate_assignment"), (VStr (str "strict"))); ((str "id"), VNone); ((str "similar_entities"), VNone); ((str "validate"), VNone)]
  [Pass (str "name") None; Pass (str "position") None; Pass (str "orientation") None; Pass (str "enable_logistics_while_moving") None; Pass (str "grid") None; Pass (str "trunk_inventory") None; Pass (str "ammo_inventory") None; Pass (str "driver_is_main_gunner") None; Pass (str "selected_gun_index") None; Pass (str "items") None; Pass (str "tags") None]
  [Store (str "name") (Kwarg [(str "name")] VNone) None;
   Store (str "quality") (Kwarg [(str "quality")] (VStr (str "normal"))) None;
   Store (str "tags") (Kwarg [(str "tags")] (VMap [])) None;
   Store (str "orientation") (Kwarg [(str "orientation")] (VFloat 0)) (Some (VFloat 0));
   Store (str "items") (Kwarg [(str "items")] (VMap [])) (Some (VSeq []));
   Store (str "enable_logistics_while_moving") (Kwarg [(str "enable_logistics_while_moving")] VNone) None;
   Store (str "driver_is_main_gunner") (Kwarg [(str "driver_is_main_gunner")] VNone) None;
   Store (str "selected_gun_index") (Kwarg [(str "selected_gun_index")] VNone) None]
  false.

(** draftsman/signatures.py 1061-1180 *)
Definition m_SignalFilter : typ := Model (str "SignalFilter") [
  (mkField (str "index") None None false, (Plain (LInt (Some (-9223372036854775808)) (Some 9223372036854775807))));
  (mkField (str "name") None None false, (Plain LStr));
  (mkField (str "type") None (Some (VStr (str "item"))) false, (Opt (Plain (LLiteral [(str "virtual"); (str "item"); (str "fluid"); (str "recipe"); (str "entity"); (str "space-location"); (str "asteroid-chunk"); (str "quality")]))));
  (mkField (str "quality") None (Some (VStr (str "any"))) false, (Opt (Plain (LLiteral [(str "normal"); (str "uncommon"); (str "rare"); (str "epic"); (str "legendary"); (str "quality-unknown"); (str "any")]))));
  (mkField (str "comparator") None (Some (VStr (str "="))) false, (Opt (Plain (LLiteral [(str ">"); (str "<"); (str "="); [8805%N]; [8804%N]; [8800%N]]))));
  (mkField (str "count") None None false, (Plain (LInt (Some (-2147483648)) (Some 2147483647))));
  (mkField (str "max_count") None (Some VNone) false, (Opt (Plain (LInt (Some (-2147483648)) (Some 2147483647)))))].

(** draftsman/signatures.py 1183-1276 *)
Definition m_Section : typ := Model (str "Section") [
  (mkField (str "index") None None false, (Plain (LInt (Some 0) (Some 4294967295))));
  (mkField (str "filters") None (Some (VSeq [])) false, (Opt (ListOf m_SignalFilter)));
  (mkField (str "group") None (Some VNone) false, (Opt (Plain LStr)))].

(** draftsman/classes/mixins/request_filters.py 24-39 *)
Definition m_RequestFiltersMixin_RequestFilters : typ := Model (str "RequestFiltersMixin.Format.RequestFilters") [
  (mkField (str "sections") None (Some (VSeq [])) false, (Opt (ListOf m_Section)));
  (mkField (str "trash_not_requested") None (Some (VBool false)) false, (Opt (Plain LBool)));
  (mkField (str "request_from_buffers") None (Some (VBool true)) false, (Opt (Plain LBool)));
  (mkField (str "enabled") None (Some (VBool true)) false, (Opt (Plain LBool)))].

(** draftsman/prototypes/cargo_landing_pad.py 39-42 *)
Definition m_CargoLandingPad_ControlBehavior : typ := Model (str "CargoLandingPad.Format.ControlBehavior") [
  (mkField (str "circuit_mode_of_operation") None (Some VNone) false, (Opt (Plain (LEnum [0; 1; 2]))))].

(** draftsman/prototypes/cargo_landing_pad.py 21-74 *)
Definition c_CargoLandingPad : class_ := mkClass (str "CargoLandingPad")
  [(mkField (str "name") None None false, (Plain LStr));
   (mkField (str "quality") None (Some (VStr (str "normal"))) false, (Plain (LLiteral [(str "normal"); (str "uncommon"); (str "rare"); (str "epic"); (str "legendary")])));
   (mkField (str "position") None None false, m_FloatPosition);
   (mkField (str "entity_number") None None true, (Plain (LInt (Some 0) (Some 18446744073709551615))));
   (mkField (str "tags") None (Some (VMap [])) false, (Opt (Plain LDict)));
   (mkField (str "request_filters") None (Some (VRec (str "RequestFiltersMixin.Format.RequestFilters") [((str "sections"), (VSeq [])); ((str "trash_not_requested"), (VBool false)); ((str "request_from_buffers"), (VBool true)); ((str "enabled"), (VBool true))] [])) false, (Opt m_RequestFiltersMixin_RequestFilters));
   (mkField (str "control_behavior") None (Some (VRec (str "CargoLandingPad.Format.ControlBehavior") [((str "circuit_mode_of_operation"), VNone)] [])) false, (Opt m_CargoLandingPad_ControlBehavior))]
  [((str "name"), VNone); ((str "position"), VNone); ((str "tile_position"), (VSeq [(VInt 0); (VInt 0)])); ((str "control_behavior"), (VMap [])); ((str "tags"), (VMap [])); ((str "validate_assignment"), (VStr (str "strict"))); ((str "id"), VNone); ((str "similar_entities"), VNone); ((str "validate"), VNone)]
  [Pass (str "name") None; Pass (str "position") None; Pass (str "control_behavior") None; Pass (str "tags") None]
  [Store (str "name") (Kwarg [(str "name")] VNone) None;
   Store (str "quality") (Kwarg [(str "quality")] (VStr (str "normal"))) None;
   Store (str "tags") (Kwarg [(str "tags")] (VMap [])) None;
   Store (str "request_filters") (Kwarg [(str "request_filters")] VNone) None]
  true.

(** draftsman/signatures.py 907-925 *)
Definition m_ItemFilter : typ := Model (str "ItemFilter") [
  (mkField (str "index") None None false, (Plain (LInt (Some (-9223372036854775808)) (Some 9223372036854775807))));
  (mkField (str "name") None None false, (Plain LStr));
  (mkField (str "quality") None (Some (VStr (str "any"))) false, (Opt (Plain (LLiteral [(str "normal"); (str "uncommon"); (str "rare"); (str "epic"); (str "legendary"); (str "quality-unknown"); (str "any")]))));
  (mkField (str "comparator") None (Some VNone) false, (Opt (Plain (LLiteral [(str ">"); (str "<"); (str "="); [8805%N]; [8804%N]; [8800%N]]))))].

(** draftsman/classes/mixins/inventory_filter.py 41-74 *)
Definition m_InventoryFilterMixin_InventoryFilters : typ := Model (str "InventoryFilterMixin.Format.InventoryFilters") [
  (mkField (str "filters") None (Some VNone) false, (Opt (ListOf m_ItemFilter)));
  (mkField (str "bar") None (Some VNone) false, (Opt (Plain (LInt (Some 0) (Some 65535)))))].

(** draftsman/prototypes/cargo_wagon.py 21-71 *)
Definition c_CargoWagon : class_ := mkClass (str "CargoWagon")
  [(mkField (str "name") None None false, (Plain LStr));
   (mkField (str "quality") None (Some (VStr (str "normal"))) false, (Plain (LLiteral [(str "normal"); (str "uncommon"); (str "rare"); (str "epic"); (str "legendary")])));
   (mkField (str "position") None None false, m_FloatPosition);
   (mkField (str "entity_number") None None true, (Plain (LInt (Some 0) (Some 18446744073709551615))));
   (mkField (str "tags") None (Some (VMap [])) false, (Opt (Plain LDict)));
   (mkField (str "orientation") None (Some (VFloat 0)) false, (Opt (Plain LOrientation)));
   (mkField (str "inventory") None (Some (VRec (str "InventoryFilterMixin.Format.InventoryFilters") [((str "filters"), VNone); ((str "bar"), VNone)] [])) false, (Opt m_InventoryFilterMixin_InventoryFilters));
   (mkField (str "items") None (Some (VSeq [])) false, (Opt (ListOf m_ItemRequest)));
   (mkField (str "enable_logistics_while_moving") None (Some (VBool true)) false, (Opt (Plain LBool)));
   (mkField (str "grid") None (Some (VSeq [])) false, (ListOf m_EquipmentGridMixin_EquipmentComponent))]
  [((str "name"), VNone); ((str "position"), VNone); ((str "tile_position"), (VSeq [(VInt 0); (VInt 0)])); ((str "orientation"), (VFloat 0)); ((str "enable_logistics_while_moving"), (VBool true)); ((str "grid"), (VSeq [])); ((str "items"), (VSeq [])); ((str "inventory"), (VMap [])); ((str "tags"), (VMap [])); ((str "validate_assignment"), (VStr (str "strict"))); ((str "id"), VNone); ((str "similar_entities"), VNone); ((str "validate"), VNone)]
  [Pass (str "name") None; Pass (str "position") None; Pass (str "orientation") None; Pass (str "enable_logistics_while_moving") None; Pass (str "grid") None; Pass (str "items") None; Pass (str "inventory") None; Pass (str "tags") None]
  [Store (str "name") (Kwarg [(str "name")] VNone) None;
   Store (str "quality") (Kwarg [(str "quality")] (VStr (str "normal"))) None;
   Store (str "tags") (Kwarg [(str "tags")] (VMap [])) None;
   Store (str "orientation") (Kwarg [(str "orientation")] (VFloat 0)) (Some (VFloat 0));
   Store (str "inventory") (Kwarg [(str "inventory")] (VRec (str "InventoryFilterMixin.Format.InventoryFilters") [((str "filters"), VNone); ((str "bar"), VNone)] [])) None;
   Store (str "items") (Kwarg [(str "items")] (VMap [])) (Some (VSeq []));
   Store (str "enable_logistics_while_moving") (Kwarg [(str "enable_logistics_while_moving")] VNone) None]
  false.

(** draftsman/signatures.py 1340-1441 *)
Definition m_Sections : typ := Model (str "Sections") [
  (mkField (str "sections") None (Some (VSeq [])) false, (Opt (ListOf m_Section)))].

(** draftsman/prototypes/constant_combinator.py 81-94 *)
Definition m_ConstantCombinator_ControlBehavior : typ := Model (str "ConstantCombinator.Format.ControlBehavior") [
  (mkField (str "sections") None (Some (VRec (str "Sections") [((str "sections"), (VSeq []))] [])) false, (Opt m_Sections));
  (mkField (str "is_on") None (Some (VBool true)) false, (Opt (Plain LBool)))].

(** draftsman/prototypes/constant_combinator.py 32-135 *)
Definition c_ConstantCombinator : class_ := mkClass (str "ConstantCombinator")
  [(mkField (str "name") None None false, (Plain LStr));
   (mkField (str "quality") None (Some (VStr (str "normal"))) false, (Plain (LLiteral [(str "normal"); (str "uncommon"); (str "rare"); (str "epic"); (str "legendary")])));
   (mkField (str "position") None None false, m_FloatPosition);
   (mkField (str "entity_number") None None true, (Plain (LInt (Some 0) (Some 18446744073709551615))));
   (mkField (str "tags") None (Some (VMap [])) false, (Opt (Plain LDict)));
   (mkField (str "direction") None (Some (VInt 0)) false, (Opt (Plain (LEnum [0; 1; 2; 3; 4; 5; 6; 7; 8; 9; 10; 11; 12; 13; 14; 15]))));
   (mkField (str "player_description") None (Some VNone) false, (Opt (Plain LStr)));
   (mkField (str "control_behavior") None (Some (VRec (str "ConstantCombinator.Format.ControlBehavior") [((str "sections"), (VRec (str "Sections") [((str "sections"), (VSeq []))] [])); ((str "is_on"), (VBool true))] [])) false, (Opt m_ConstantCombinator_ControlBehavior))]
  [((str "name"), VNone); ((str "position"), VNone); ((str "tile_position"), (VSeq [(VInt 0); (VInt 0)])); ((str "direction"), (VInt 0)); ((str "player_description"), VNone); ((str "connections"), VNone); ((str "control_behavior"), VNone); ((str "tags"), VNone); ((str "validate_assignment"), (VStr (str "strict"))); ((str "id"), VNone); ((str "similar_entities"), VNone); ((str "validate"), VNone)]
  [Pass (str "name") None; Pass (str "position") None; Pass (str "direction") None; Pass (str "player_description") None; Pass (str "connections") (Some (VMap [])); Pass (str "control_behavior") (Some (VMap [])); Pass (str "tags") (Some (VMap []))]
  [Store (str "name") (Kwarg [(str "name")] VNone) None;
   Store (str "quality") (Kwarg [(str "quality")] (VStr (str "normal"))) None;
   Store (str "tags") (Kwarg [(str "tags")] (VMap [])) None;
   Store (str "direction") (Kwarg [(str "direction")] (VInt 0)) None;
   Store (str "player_description") (Kwarg [(str "player_description")] VNone) None]
  true.

(** draftsman/prototypes/container.py 20-61 *)
Definition c_Container : class_ := mkClass (str "Container")
  [(mkField (str "name") None None false, (Plain LStr));
   (mkField (str "quality") None (Some (VStr (str "normal"))) false, (Plain (LLiteral [(str "normal"); (str "uncommon"); (str "rare"); (str "epic"); (str "legendary")])));
   (mkField (str "position") None None false, m_FloatPosition);
   (mkField (str "entity_number") None None true, (Plain (LInt (Some 0) (Some 18446744073709551615))));
   (mkField (str "tags") None (Some (VMap [])) false, (Opt (Plain LDict)));
   (mkField (str "items") None (Some (VSeq [])) false, (Opt (ListOf m_ItemRequest)));
   (mkField (str "bar") None (Some VNone) false, (Opt (Plain (LInt (Some 0) (Some 65535)))))]
  [((str "name"), VNone); ((str "position"), VNone); ((str "tile_position"), (VSeq [(VInt 0); (VInt 0)])); ((str "bar"), VNone); ((str "items"), (VSeq [])); ((str "tags"), (VMap [])); ((str "validate_assignment"), (VStr (str "strict"))); ((str "id"), VNone); ((str "similar_entities"), VNone); ((str "validate"), VNone)]
  [Pass (str "name") None; Pass (str "position") None; Pass (str "bar") None; Pass (str "items") None; Pass (str "tags") None]
  [Store (str "name") (Kwarg [(str "name")] VNone) None;
   Store (str "quality") (Kwarg [(str "quality")] (VStr (str "normal"))) None;
   Store (str "tags") (Kwarg [(str "tags")] (VMap [])) None;
   Store (str "items") (Kwarg [(str "items")] (VMap [])) (Some (VSeq []));
   Store (str "bar") (Kwarg [(str "bar")] VNone) None]
  false.

(** draftsman/prototypes/curved_rail_a.py 15-51 *)
Definition c_CurvedRailA : class_ := mkClass (str "CurvedRailA")
  [(mkField (str "name") None None false, (Plain LStr));
   (mkField (str "quality") None (Some (VStr (str "normal"))) false, (Plain (LLiteral [(str "normal"); (str "uncommon"); (str "rare"); (str "epic"); (str "legendary")])));
   (mkField (str "position") None None false, m_FloatPosition);
   (mkField (str "entity_number") None None true, (Plain (LInt (Some 0) (Some 18446744073709551615))));
   (mkField (str "tags") None (Some (VMap [])) false, (Opt (Plain LDict)));
   (mkField (str "direction") None (Some (VInt 0)) false, (Opt (Plain (LEnum [0; 1; 2; 3; 4; 5; 6; 7; 8; 9; 10; 11; 12; 13; 14; 15]))))]
  [((str "name"), VNone); ((str "position"), VNone); ((str "tile_position"), (VSeq [(VInt 0); (VInt 0)])); ((str "direction"), (VInt 0)); ((str "tags"), (VMap [])); ((str "validate_assignment"), (VStr (str "strict"))); ((str "id"), VNone); ((str "similar_entities"), VNone); ((str "validate"), VNone)]
  [Pass (str "name") None; Pass (str "position") None; Pass (str "direction") None; Pass (str "tags") None]
  [Store (str "name") (Kwarg [(str "name")] VNone) None;
   Store (str "quality") (Kwarg [(str "quality")] (VStr (str "normal"))) None;
   Store (str "tags") (Kwarg [(str "tags")] (VMap [])) None;
   Store (str "direction") (Kwarg [(str "direction")] (VInt 0)) None]
  false.

(** draftsman/prototypes/curved_rail_b.py 15-51 *)
Definition c_CurvedRailB : class_ := mkClass (str "CurvedRailB")
  [(mkField (str "name") None None false, (Plain LStr));
   (mkField (str "quality") None (Some (VStr (str "normal"))) false, (Plain (LLiteral [(str "normal"); (str "uncommon"); (str "rare"); (str "epic"); (str "legendary")])));
   (mkField (str "position") None None false, m_FloatPosition);
   (mkField (str "entity_number") None None true, (Plain (LInt (Some 0) (Some 18446744073709551615))));
   (mkField (str "tags") None (Some (VMap [])) false, (Opt (Plain LDict)));
   (mkField (str "direction") None (Some (VInt 0)) false, (Opt (Plain (LEnum [0; 1; 2; 3; 4; 5; 6; 7; 8; 9; 10; 11; 12; 13; 14; 15]))))]
  [((str "name"), VNone); ((str "position"), VNone); ((str "tile_position"), (VSeq [(VInt 0); (VInt 0)])); ((str "direction"), (VInt 0)); ((str "tags"), (VMap [])); ((str "validate_assignment"), (VStr (str "strict"))); ((str "id"), VNone); ((str "similar_entities"), VNone); ((str "validate"), VNone)]
  [Pass (str "name") None; Pass (str "position") None; Pass (str "direction") None; Pass (str "tags") None]
  [Store (str "name") (Kwarg [(str "name")] VNone) None;
   Store (str "quality") (Kwarg [(str "quality")] (VStr (str "normal"))) None;
   Store (str "tags") (Kwarg [(str "tags")] (VMap [])) None;
   Store (str "direction") (Kwarg [(str "direction")] (VInt 0)) None]
  false.

(** draftsman/prototypes/decider_combinator.py 392-423 *)
Definition m_DeciderCombinator_ControlBehavior_DeciderConditions : typ := Model (str "DeciderCombinator.Format.ControlBehavior.DeciderConditions") [
  (mkField (str "conditions") None (Some (VSeq [])) false, (Plain LList));
  (mkField (str "outputs") None (Some (VSeq [])) false, (Plain LList))].

(** draftsman/prototypes/decider_combinator.py 391-460 *)
Definition m_DeciderCombinator_ControlBehavior : typ := Model (str "DeciderCombinator.Format.ControlBehavior") [
  (mkField (str "decider_conditions") None (Some (VRec (str "DeciderCombinator.Format.ControlBehavior.DeciderConditions") [((str "conditions"), (VSeq [])); ((str "outputs"), (VSeq []))] [])) false, (Opt m_DeciderCombinator_ControlBehavior_DeciderConditions))].

(** draftsman/prototypes/decider_combinator.py 278-498 *)
Definition c_DeciderCombinator : class_ := mkClass (str "DeciderCombinator")
  [(mkField (str "name") None None false, (Plain LStr));
   (mkField (str "quality") None (Some (VStr (str "normal"))) false, (Plain (LLiteral [(str "normal"); (str "uncommon"); (str "rare"); (str "epic"); (str "legendary")])));
   (mkField (str "position") None None false, m_FloatPosition);
   (mkField (str "entity_number") None None true, (Plain (LInt (Some 0) (Some 18446744073709551615))));
   (mkField (str "tags") None (Some (VMap [])) false, (Opt (Plain LDict)));
   (mkField (str "direction") None (Some (VInt 0)) false, (Opt (Plain (LEnum [0; 1; 2; 3; 4; 5; 6; 7; 8; 9; 10; 11; 12; 13; 14; 15]))));
   (mkField (str "player_description") None (Some VNone) false, (Opt (Plain LStr)));
   (mkField (str "control_behavior") None (Some (VRec (str "DeciderCombinator.Format.ControlBehavior") [((str "decider_conditions"), (VRec (str "DeciderCombinator.Format.ControlBehavior.DeciderConditions") [((str "conditions"), (VSeq [])); ((str "outputs"), (VSeq []))] []))] [])) false, (Opt m_DeciderCombinator_ControlBehavior))]
  [((str "name"), VNone); ((str "position"), VNone); ((str "tile_position"), (VSeq [(VInt 0); (VInt 0)])); ((str "direction"), (VInt 0)); ((str "player_description"), VNone); ((str "control_behavior"), VNone); ((str "tags"), (VMap [])); ((str "validate_assignment"), (VStr (str "strict"))); ((str "id"), VNone); ((str "similar_entities"), VNone); ((str "validate"), VNone)]
  [Pass (str "name") None; Pass (str "position") None; Pass (str "direction") None; Pass (str "player_description") None; Pass (str "control_behavior") (Some (VMap [])); Pass (str "tags") None]
  [Store (str "name") (Kwarg [(str "name")] VNone) None;
   Store (str "quality") (Kwarg [(str "quality")] (VStr (str "normal"))) None;
   Store (str "tags") (Kwarg [(str "tags")] (VMap [])) None;
   Store (str "direction") (Kwarg [(str "direction")] (VInt 0)) None;
   Store (str "player_description") (Kwarg [(str "player_description")] VNone) None]
  true.

(** draftsman/prototypes/display_panel.py 35-43 *)
Definition m_DisplayPanel_ControlBehavior_PanelMessage : typ := Model (str "DisplayPanel.Format.ControlBehavior.PanelMessage") [
  (mkField (str "condition") None (Some (VRec (str "Condition") [((str "first_signal"), VNone); ((str "first_signal_networks"), (VRec (str "NetworkSpecification") [((str "red"), (VBool true)); ((str "green"), (VBool true))] [])); ((str "comparator"), (VStr (str "<"))); ((str "constant"), (VInt 0)); ((str "second_signal"), VNone); ((str "second_signal_networks"), (VRec (str "NetworkSpecification") [((str "red"), (VBool true)); ((str "green"), (VBool true))] []))] [])) false, (Opt m_Condition));
  (mkField (str "icon") None (Some VNone) false, (Opt m_SignalID));
  (mkField (str "text") None (Some (VStr (str ""))) false, (Opt (Plain LStr)))].

(** draftsman/prototypes/display_panel.py 34-48 *)
Definition m_DisplayPanel_ControlBehavior : typ := Model (str "DisplayPanel.Format.ControlBehavior") [
  (mkField (str "parameters") None (Some (VSeq [])) false, (ListOf m_DisplayPanel_ControlBehavior_PanelMessage))].

(** draftsman/prototypes/display_panel.py 21-103 *)
Definition c_DisplayPanel : class_ := mkClass (str "DisplayPanel")
  [(mkField (str "name") None None false, (Plain LStr));
   (mkField (str "quality") None (Some (VStr (str "normal"))) false, (Plain (LLiteral [(str "normal"); (str "uncommon"); (str "rare"); (str "epic"); (str "legendary")])));
   (mkField (str "position") None None false, m_FloatPosition);
   (mkField (str "entity_number") None None true, (Plain (LInt (Some 0) (Some 18446744073709551615))));
   (mkField (str "tags") None (Some (VMap [])) false, (Opt (Plain LDict)));
   (mkField (str "direction") None (Some (VInt 0)) false, (Opt (Plain (LEnum [0; 1; 2; 3; 4; 5; 6; 7; 8; 9; 10; 11; 12; 13; 14; 15]))));
   (mkField (str "control_behavior") None (Some (VRec (str "DisplayPanel.Format.ControlBehavior") [((str "parameters"), (VSeq []))] [])) false, (Opt m_DisplayPanel_ControlBehavior));
   (mkField (str "text") None (Some (VStr (str ""))) false, (Opt (Plain LStr)));
   (mkField (str "icon") None (Some VNone) false, (Opt m_SignalID));
   (mkField (str "always_show") None (Some (VBool false)) false, (Opt (Plain LBool)));
   (mkField (str "show_in_chart") None (Some (VBool false)) false, (Opt (Plain LBool)))]
  [((str "name"), VNone); ((str "position"), VNone); ((str "tile_position"), (VSeq [(VInt 0); (VInt 0)])); ((str "direction"), (VInt 0)); ((str "text"), (VStr (str ""))); ((str "icon"), VNone); ((str "always_show"), (VBool false)); ((str "show_in_chart"), (VBool false)); ((str "control_behavior"), (VMap [])); ((str "tags"), (VMap [])); ((str "validate_assignment"), (VStr (str "strict"))); ((str "id"), VNone); ((str "similar_entities"), VNone); ((str "validate"), VNone)]
  [Pass (str "name") None; Pass (str "position") None; Pass (str "direction") None; Pass (str "control_behavior") None; Pass (str "tags") None]
  [Store (str "name") (Kwarg [(str "name")] VNone) None;
   Store (str "quality") (Kwarg [(str "quality")] (VStr (str "normal"))) None;
   Store (str "tags") (Kwarg [(str "tags")] (VMap [])) None;
   Store (str "direction") (Kwarg [(str "direction")] (VInt 0)) None;
   Store (str "text") (Param (str "text")) None;
   Store (str "icon") (Param (str "icon")) None;
   Store (str "always_show") (Param (str "always_show")) None;
   Store (str "show_in_chart") (Param (str "show_in_chart")) None]
  true.

(** draftsman/prototypes/electric_pole.py 17-51 *)
Definition c_ElectricPole : class_ := mkClass (str "ElectricPole")
  [(mkField (str "name") None None false, (Plain LStr));
   (mkField (str "quality") None (Some (VStr (str "normal"))) false, (Plain (LLiteral [(str "normal"); (str "uncommon"); (str "rare"); (str "epic"); (str "legendary")])));
   (mkField (str "position") None None false, m_FloatPosition);
   (mkField (str "entity_number") None None true, (Plain (LInt (Some 0) (Some 18446744073709551615))));
   (mkField (str "tags") None (Some (VMap [])) false, (Opt (Plain LDict)))]
  [((str "name"), VNone); ((str "position"), VNone); ((str "tile_position"), (VSeq [(VInt 0); (VInt 0)])); ((str "tags"), VNone); ((str "validate_assignment"), (VStr (str "strict"))); ((str "id"), VNone); ((str "similar_entities"), VNone); ((str "validate"), VNone)]
  [Pass (str "name") None; Pass (str "position") None; Pass (str "tags") (Some (VMap []))]
  [Store (str "name") (Kwarg [(str "name")] VNone) None;
   Store (str "quality") (Kwarg [(str "quality")] (VStr (str "normal"))) None;
   Store (str "tags") (Kwarg [(str "tags")] (VMap [])) None]
  false.

(** draftsman/prototypes/electric_turret.py 55-63 *)
Definition m_ElectricTurret_ControlBehavior : typ := Model (str "ElectricTurret.Format.ControlBehavior") [
  (mkField (str "circuit_enabled") None (Some (VBool false)) false, (Opt (Plain LBool)));
  (mkField (str "connect_to_logistic_network") None (Some (VBool false)) false, (Opt (Plain LBool)));
  (mkField (str "logistic_condition") None (Some (VRec (str "Condition") [((str "first_signal"), VNone); ((str "first_signal_networks"), (VRec (str "NetworkSpecification") [((str "red"), (VBool true)); ((str "green"), (VBool true))] [])); ((str "comparator"), (VStr (str "<"))); ((str "constant"), (VInt 0)); ((str "second_signal"), VNone); ((str "second_signal_networks"), (VRec (str "NetworkSpecification") [((str "red"), (VBool true)); ((str "green"), (VBool true))] []))] [])) false, (Opt m_Condition));
  (mkField (str "circuit_condition_enabled") None (Some (VBool false)) false, (Opt (Plain LBool)));
  (mkField (str "circuit_condition") None (Some (VRec (str "Condition") [((str "first_signal"), VNone); ((str "first_signal_networks"), (VRec (str "NetworkSpecification") [((str "red"), (VBool true)); ((str "green"), (VBool true))] [])); ((str "comparator"), (VStr (str "<"))); ((str "constant"), (VInt 0)); ((str "second_signal"), VNone); ((str "second_signal_networks"), (VRec (str "NetworkSpecification") [((str "red"), (VBool true)); ((str "green"), (VBool true))] []))] [])) false, (Opt m_Condition));
  (mkField (str "set_priority_list") None (Some (VBool false)) false, (Opt (Plain LBool)));
  (mkField (str "set_ignore_unlisted_targets") None (Some (VBool false)) false, (Opt (Plain LBool)));
  (mkField (str "ignore_unlisted_targets_condition") None (Some (VRec (str "Condition") [((str "first_signal"), VNone); ((str "first_signal_networks"), (VRec (str "NetworkSpecification") [((str "red"), (VBool true)); ((str "green"), (VBool true))] [])); ((str "comparator"), (VStr (str "<"))); ((str "constant"), (VInt 0)); ((str "second_signal"), VNone); ((str "second_signal_networks"), (VRec (str "NetworkSpecification") [((str "red"), (VBool true)); ((str "green"), (VBool true))] []))] [])) false, (Opt m_Condition));
  (mkField (str "read_ammo") None (Some (VBool true)) false, (Opt (Plain LBool)))].

(** draftsman/prototypes/electric_turret.py 26-99 *)
Definition c_ElectricTurret : class_ := mkClass (str "ElectricTurret")
  [(mkField (str "name") None None false, (Plain LStr));
   (mkField (str "quality") None (Some (VStr (str "normal"))) false, (Plain (LLiteral [(str "normal"); (str "uncommon"); (str "rare"); (str "epic"); (str "legendary")])));
   (mkField (str "position") None None false, m_FloatPosition);
   (mkField (str "entity_number") None None true, (Plain (LInt (Some 0) (Some 18446744073709551615))));
   (mkField (str "tags") None (Some (VMap [])) false, (Opt (Plain LDict)));
   (mkField (str "direction") None (Some (VInt 0)) false, (Opt (Plain (LEnum [0; 1; 2; 3; 4; 5; 6; 7; 8; 9; 10; 11; 12; 13; 14; 15]))));
   (mkField (str "priority_list") (Some (str "priority-list")) (Some (VSeq [])) false, (Opt (ListOf m_TargetID)));
   (mkField (str "ignore_unprioritized") None (Some (VBool false)) false, (Opt (Plain LBool)));
   (mkField (str "items") None (Some (VSeq [])) false, (Opt (ListOf m_ItemRequest)));
   (mkField (str "control_behavior") None (Some (VRec (str "ElectricTurret.Format.ControlBehavior") [((str "circuit_enabled"), (VBool false)); ((str "connect_to_logistic_network"), (VBool false)); ((str "logistic_condition"), (VRec (str "Condition") [((str "first_signal"), VNone); ((str "first_signal_networks"), (VRec (str "NetworkSpecification") [((str "red"), (VBool true)); ((str "green"), (VBool true))] [])); ((str "comparator"), (VStr (str "<"))); ((str "constant"), (VInt 0)); ((str "second_signal"), VNone); ((str "second_signal_networks"), (VRec (str "NetworkSpecification") [((str "red"), (VBool true)); ((str "green"), (VBool true))] []))] [])); ((str "circuit_condition_enabled"), (VBool false)); ((str "circuit_condition"), (VRec (str "Condition") [((str "first_signal"), VNone); ((str "first_signal_networks"), (VRec (str "NetworkSpecification") [((str "red"), (VBool true)); ((str "green"), (VBool true))] [])); ((str "comparator"), (VStr (str "<"))); ((str "constant"), (VInt 0)); ((str "second_signal"), VNone); ((str "second_signal_networks"), (VRec (str "NetworkSpecification") [((str "red"), (VBool true)); ((str "green"), (VBool true))] []))] [])); ((str "set_priority_list"), (VBool false)); ((str "set_ignore_unlisted_targets"), (VBool false)); ((str "ignore_unlisted_targets_condition"), (VRec (str "Condition") [((str "first_signal"), VNone); ((str "first_signal_networks"), (VRec (str "NetworkSpecification") [((str "red"), (VBool true)); ((str "green"), (VBool true))] [])); ((str "comparator"), (VStr (str "<"))); ((str "constant"), (VInt 0)); ((str "second_signal"), VNone); ((str "second_signal_networks"), (VRec (str "NetworkSpecification") [((str "red"), (VBool true)); ((str "green"), (VBool true))] []))] [])); ((str "read_ammo"), (VBool true))] [])) false, (Opt m_ElectricTurret_ControlBehavior))]
  [((str "name"), VNone); ((str "position"), VNone); ((str "tile_position"), (VSeq [(VInt 0); (VInt 0)])); ((str "direction"), (VInt 0)); ((str "items"), (VMap [])); ((str "tags"), (VMap [])); ((str "validate_assignment"), (VStr (str "strict"))); ((str "id"), VNone); ((str "similar_entities"), VNone); ((str "validate"), VNone)]
  [Pass (str "name") None; Pass (str "position") None; Pass (str "direction") None; Pass (str "items") None; Pass (str "tags") None]
  [Store (str "name") (Kwarg [(str "name")] VNone) None;
   Store (str "quality") (Kwarg [(str "quality")] (VStr (str "normal"))) None;
   Store (str "tags") (Kwarg [(str "tags")] (VMap [])) None;
   Store (str "direction") (Kwarg [(str "direction")] (VInt 0)) None;
   Store (str "items") (Kwarg [(str "items")] (VMap [])) (Some (VSeq []))]
  true.

(** draftsman/prototypes/elevated_curved_rail_a.py 15-51 *)
Definition c_ElevatedCurvedRailA : class_ := mkClass (str "ElevatedCurvedRailA")
  [(mkField (str "name") None None false, (Plain LStr));
   (mkField (str "quality") None (Some (VStr (str "normal"))) false, (Plain (LLiteral [(str "normal"); (str "uncommon"); (str "rare"); (str "epic"); (str "legendary")])));
   (mkField (str "position") None None false, m_FloatPosition);
   (mkField (str "entity_number") None None true, (Plain (LInt (Some 0) (Some 18446744073709551615))));
   (mkField (str "tags") None (Some (VMap [])) false, (Opt (Plain LDict)));
   (mkField (str "direction") None (Some (VInt 0)) false, (Opt (Plain (LEnum [0; 1; 2; 3; 4; 5; 6; 7; 8; 9; 10; 11; 12; 13; 14; 15]))))]
  [((str "name"), VNone); ((str "position"), VNone); ((str "tile_position"), (VSeq [(VInt 0); (VInt 0)])); ((str "direction"), (VInt 0)); ((str "tags"), (VMap [])); ((str "validate_assignment"), (VStr (str "strict"))); ((str "id"), VNone); ((str "similar_entities"), VNone); ((str "validate"), VNone)]
  [Pass (str "name") None; Pass (str "position") None; Pass (str "direction") None; Pass (str "tags") None]
  [Store (str "name") (Kwarg [(str "name")] VNone) None;
   Store (str "quality") (Kwarg [(str "quality")] (VStr (str "normal"))) None;
   Store (str "tags") (Kwarg [(str "tags")] (VMap [])) None;
   Store (str "direction") (Kwarg [(str "direction")] (VInt 0)) None]
  false.

(** draftsman/prototypes/elevated_curved_rail_b.py 15-51 *)
Definition c_ElevatedCurvedRailB : class_ := mkClass (str "ElevatedCurvedRailB")
  [(mkField (str "name") None None false, (Plain LStr));
   (mkField (str "quality") None (Some (VStr (str "normal"))) false, (Plain (LLiteral [(str "normal"); (str "uncommon"); (str "rare"); (str "epic"); (str "legendary")])));
   (mkField (str "position") None None false, m_FloatPosition);
   (mkField (str "entity_number") None None true, (Plain (LInt (Some 0) (Some 18446744073709551615))));
   (mkField (str "tags") None (Some (VMap [])) false, (Opt (Plain LDict)));
   (mkField (str "direction") None (Some (VInt 0)) false, (Opt (Plain (LEnum [0; 1; 2; 3; 4; 5; 6; 7; 8; 9; 10; 11; 12; 13; 14; 15]))))]
  [((str "name"), VNone); ((str "position"), VNone); ((str "tile_position"), (VSeq [(VInt 0); (VInt 0)])); ((str "direction"), (VInt 0)); ((str "tags"), (VMap [])); ((str "validate_assignment"), (VStr (str "strict"))); ((str "id"), VNone); ((str "similar_entities"), VNone); ((str "validate"), VNone)]
  [Pass (str "name") None; Pass (str "position") None; Pass (str "direction") None; Pass (str "tags") None]
  [Store (str "name") (Kwarg [(str "name")] VNone) None;
   Store (str "quality") (Kwarg [(str "quality")] (VStr (str "normal"))) None;
   Store (str "tags") (Kwarg [(str "tags")] (VMap [])) None;
   Store (str "direction") (Kwarg [(str "direction")] (VInt 0)) None]
  false.

(** draftsman/prototypes/elevated_half_diagonal_rail.py 15-53 *)
Definition c_ElevatedHalfDiagonalRail : class_ := mkClass (str "ElevatedHalfDiagonalRail")
  [(mkField (str "name") None None false, (Plain LStr));
   (mkField (str "quality") None (Some (VStr (str "normal"))) false, (Plain (LLiteral [(str "normal"); (str "uncommon"); (str "rare"); (str "epic"); (str "legendary")])));
   (mkField (str "position") None None false, m_FloatPosition);
   (mkField (str "entity_number") None None true, (Plain (LInt (Some 0) (Some 18446744073709551615))));
   (mkField (str "tags") None (Some (VMap [])) false, (Opt (Plain LDict)));
   (mkField (str "direction") None (Some (VInt 0)) false, (Opt (Plain (LEnum [0; 1; 2; 3; 4; 5; 6; 7; 8; 9; 10; 11; 12; 13; 14; 15]))))]
  [((str "name"), VNone); ((str "position"), VNone); ((str "tile_position"), (VSeq [(VInt 0); (VInt 0)])); ((str "direction"), (VInt 0)); ((str "tags"), (VMap [])); ((str "validate_assignment"), (VStr (str "strict"))); ((str "id"), VNone); ((str "similar_entities"), VNone); ((str "validate"), VNone)]
  [Pass (str "name") None; Pass (str "position") None; Pass (str "direction") None; Pass (str "tags") None]
  [Store (str "name") (Kwarg [(str "name")] VNone) None;
   Store (str "quality") (Kwarg [(str "quality")] (VStr (str "normal"))) None;
   Store (str "tags") (Kwarg [(str "tags")] (VMap [])) None;
   Store (str "direction") (Kwarg [(str "direction")] (VInt 0)) None]
  false.

(** draftsman/prototypes/elevated_straight_rail.py 15-51 *)
Definition c_ElevatedStraightRail : class_ := mkClass (str "ElevatedStraightRail")
  [(mkField (str "name") None None false, (Plain LStr));
   (mkField (str "quality") None (Some (VStr (str "normal"))) false, (Plain (LLiteral [(str "normal"); (str "uncommon"); (str "rare"); (str "epic"); (str "legendary")])));
   (mkField (str "position") None None false, m_FloatPosition);
   (mkField (str "entity_number") None None true, (Plain (LInt (Some 0) (Some 18446744073709551615))));
   (mkField (str "tags") None (Some (VMap [])) false, (Opt (Plain LDict)));
   (mkField (str "direction") None (Some (VInt 0)) false, (Opt (Plain (LEnum [0; 1; 2; 3; 4; 5; 6; 7; 8; 9; 10; 11; 12; 13; 14; 15]))))]
  [((str "name"), VNone); ((str "position"), VNone); ((str "tile_position"), (VSeq [(VInt 0); (VInt 0)])); ((str "direction"), (VInt 0)); ((str "tags"), (VMap [])); ((str "validate_assignment"), (VStr (str "strict"))); ((str "id"), VNone); ((str "similar_entities"), VNone); ((str "validate"), VNone)]
  [Pass (str "name") None; Pass (str "position") None; Pass (str "direction") None; Pass (str "tags") None]
  [Store (str "name") (Kwarg [(str "name")] VNone) None;
   Store (str "quality") (Kwarg [(str "quality")] (VStr (str "normal"))) None;
   Store (str "tags") (Kwarg [(str "tags")] (VMap [])) None;
   Store (str "direction") (Kwarg [(str "direction")] (VInt 0)) None]
  false.

(** draftsman/prototypes/filter_inserter.py 68-77 *)
Definition m_FilterInserter_ControlBehavior : typ := Model (str "FilterInserter.Format.ControlBehavior") [
  (mkField (str "connect_to_logistic_network") None (Some (VBool false)) false, (Opt (Plain LBool)));
  (mkField (str "logistic_condition") None (Some (VRec (str "Condition") [((str "first_signal"), VNone); ((str "first_signal_networks"), (VRec (str "NetworkSpecification") [((str "red"), (VBool true)); ((str "green"), (VBool true))] [])); ((str "comparator"), (VStr (str "<"))); ((str "constant"), (VInt 0)); ((str "second_signal"), VNone); ((str "second_signal_networks"), (VRec (str "NetworkSpecification") [((str "red"), (VBool true)); ((str "green"), (VBool true))] []))] [])) false, (Opt m_Condition));
  (mkField (str "circuit_condition_enabled") None (Some (VBool false)) false, (Opt (Plain LBool)));
  (mkField (str "circuit_condition") None (Some (VRec (str "Condition") [((str "first_signal"), VNone); ((str "first_signal_networks"), (VRec (str "NetworkSpecification") [((str "red"), (VBool true)); ((str "green"), (VBool true))] [])); ((str "comparator"), (VStr (str "<"))); ((str "constant"), (VInt 0)); ((str "second_signal"), VNone); ((str "second_signal_networks"), (VRec (str "NetworkSpecification") [((str "red"), (VBool true)); ((str "green"), (VBool true))] []))] [])) false, (Opt m_Condition));
  (mkField (str "circuit_mode_of_operation") None (Some VNone) false, (Opt (Plain (LEnum [0; 1; 2; 3]))));
  (mkField (str "circuit_read_hand_contents") None (Some VNone) false, (Opt (Plain LBool)));
  (mkField (str "circuit_hand_read_mode") None (Some VNone) false, (Opt (Plain (LEnum [0; 1]))));
  (mkField (str "circuit_set_stack_size") None (Some VNone) false, (Opt (Plain LBool)));
  (mkField (str "stack_control_input_signal") None (Some VNone) false, (Opt m_SignalID))].

(** draftsman/prototypes/filter_inserter.py 30-146 *)
Definition c_FilterInserter : class_ := mkClass (str "FilterInserter")
  [(mkField (str "name") None None false, (Plain LStr));
   (mkField (str "quality") None (Some (VStr (str "normal"))) false, (Plain (LLiteral [(str "normal"); (str "uncommon"); (str "rare"); (str "epic"); (str "legendary")])));
   (mkField (str "position") None None false, m_FloatPosition);
   (mkField (str "entity_number") None None true, (Plain (LInt (Some 0) (Some 18446744073709551615))));
   (mkField (str "tags") None (Some (VMap [])) false, (Opt (Plain LDict)));
   (mkField (str "direction") None (Some (VInt 0)) false, (Opt (Plain (LEnum [0; 1; 2; 3; 4; 5; 6; 7; 8; 9; 10; 11; 12; 13; 14; 15]))));
   (mkField (str "override_stack_size") None (Some VNone) false, (Opt (Plain (LInt (Some 0) (Some 255)))));
   (mkField (str "use_filters") None (Some (VBool false)) false, (Opt (Plain LBool)));
   (mkField (str "filters") None (Some (VSeq [])) false, (Opt (ListOf m_ItemFilter)));
   (mkField (str "control_behavior") None (Some (VRec (str "FilterInserter.Format.ControlBehavior") [((str "connect_to_logistic_network"), (VBool false)); ((str "logistic_condition"), (VRec (str "Condition") [((str "first_signal"), VNone); ((str "first_signal_networks"), (VRec (str "NetworkSpecification") [((str "red"), (VBool true)); ((str "green"), (VBool true))] [])); ((str "comparator"), (VStr (str "<"))); ((str "constant"), (VInt 0)); ((str "second_signal"), VNone); ((str "second_signal_networks"), (VRec (str "NetworkSpecification") [((str "red"), (VBool true)); ((str "green"), (VBool true))] []))] [])); ((str "circuit_condition_enabled"), (VBool false)); ((str "circuit_condition"), (VRec (str "Condition") [((str "first_signal"), VNone); ((str "first_signal_networks"), (VRec (str "NetworkSpecification") [((str "red"), (VBool true)); ((str "green"), (VBool true))] [])); ((str "comparator"), (VStr (str "<"))); ((str "constant"), (VInt 0)); ((str "second_signal"), VNone); ((str "second_signal_networks"), (VRec (str "NetworkSpecification") [((str "red"), (VBool true)); ((str "green"), (VBool true))] []))] [])); ((str "circuit_mode_of_operation"), VNone); ((str "circuit_read_hand_contents"), VNone); ((str "circuit_hand_read_mode"), VNone); ((str "circuit_set_stack_size"), VNone); ((str "stack_control_input_signal"), VNone)] [])) false, (Opt m_FilterInserter_ControlBehavior));
   (mkField (str "filter_mode") None (Some (VStr (str "whitelist"))) false, (Opt (Plain (LLiteral [(str "whitelist"); (str "blacklist")]))))]
  [((str "name"), VNone); ((str "position"), VNone); ((str "tile_position"), (VSeq [(VInt 0); (VInt 0)])); ((str "direction"), (VInt 0)); ((str "override_stack_size"), VNone); ((str "filters"), (VSeq [])); ((str "filter_mode"), (VStr (str "whitelist"))); ((str "connections"), (VMap [])); ((str "control_behavior"), (VMap [])); ((str "tags"), (VMap [])); ((str "validate_assignment"), (VStr (str "strict"))); ((str "id"), VNone); ((str "similar_entities"), VNone); ((str "validate"), VNone)]
  [Pass (str "name") None; Pass (str "position") None; Pass (str "direction") None; Pass (str "override_stack_size") None; Pass (str "filters") None; Pass (str "connections") None; Pass (str "control_behavior") None; Pass (str "tags") None]
  [Store (str "name") (Kwarg [(str "name")] VNone) None;
   Store (str "quality") (Kwarg [(str "quality")] (VStr (str "normal"))) None;
   Store (str "tags") (Kwarg [(str "tags")] (VMap [])) None;
   Store (str "direction") (Kwarg [(str "direction")] (VInt 0)) None;
   Store (str "override_stack_size") (Kwarg [(str "override_stack_size")] VNone) None;
   Store (str "filters") (Kwarg [(str "filters")] VNone) None;
   Store (str "filter_mode") (Param (str "filter_mode")) None]
  true.

(** draftsman/prototypes/fluid_turret.py 55-63 *)
Definition m_FluidTurret_ControlBehavior : typ := Model (str "FluidTurret.Format.ControlBehavior") [
  (mkField (str "circuit_enabled") None (Some (VBool false)) false, (Opt (Plain LBool)));
  (mkField (str "connect_to_logistic_network") None (Some (VBool false)) false, (Opt (Plain LBool)));
  (mkField (str "logistic_condition") None (Some (VRec (str "Condition") [((str "first_signal"), VNone); ((str "first_signal_networks"), (VRec (str "NetworkSpecification") [((str "red"), (VBool true)); ((str "green"), (VBool true))] [])); ((str "comparator"), (VStr (str "<"))); ((str "constant"), (VInt 0)); ((str "second_signal"), VNone); ((str "second_signal_networks"), (VRec (str "NetworkSpecification") [((str "red"), (VBool true)); ((str "green"), (VBool true))] []))] [])) false, (Opt m_Condition));
  (mkField (str "circuit_condition_enabled") None (Some (VBool false)) false, (Opt (Plain LBool)));
  (mkField (str "circuit_condition") None (Some (VRec (str "Condition") [((str "first_signal"), VNone); ((str "first_signal_networks"), (VRec (str "NetworkSpecification") [((str "red"), (VBool true)); ((str "green"), (VBool true))] [])); ((str "comparator"), (VStr (str "<"))); ((str "constant"), (VInt 0)); ((str "second_signal"), VNone); ((str "second_signal_networks"), (VRec (str "NetworkSpecification") [((str "red"), (VBool true)); ((str "green"), (VBool true))] []))] [])) false, (Opt m_Condition));
  (mkField (str "set_priority_list") None (Some (VBool false)) false, (Opt (Plain LBool)));
  (mkField (str "set_ignore_unlisted_targets") None (Some (VBool false)) false, (Opt (Plain LBool)));
  (mkField (str "ignore_unlisted_targets_condition") None (Some (VRec (str "Condition") [((str "first_signal"), VNone); ((str "first_signal_networks"), (VRec (str "NetworkSpecification") [((str "red"), (VBool true)); ((str "green"), (VBool true))] [])); ((str "comparator"), (VStr (str "<"))); ((str "constant"), (VInt 0)); ((str "second_signal"), VNone); ((str "second_signal_networks"), (VRec (str "NetworkSpecification") [((str "red"), (VBool true)); ((str "green"), (VBool true))] []))] [])) false, (Opt m_Condition));
  (mkField (str "read_ammo") None (Some (VBool true)) false, (Opt (Plain LBool)))].

(** draftsman/prototypes/fluid_turret.py 26-99 *)
Definition c_FluidTurret : class_ := mkClass (str "FluidTurret")
  [(mkField (str "name") None None false, (Plain LStr));
   (mkField (str "quality") None (Some (VStr (str "normal"))) false, (Plain (LLiteral [(str "normal"); (str "uncommon"); (str "rare"); (str "epic"); (str "legendary")])));
   (mkField (str "position") None None false, m_FloatPosition);
   (mkField (str "entity_number") None None true, (Plain (LInt (Some 0) (Some 18446744073709551615))));
   (mkField (str "tags") None (Some (VMap [])) false, (Opt (Plain LDict)));
   (mkField (str "direction") None (Some (VInt 0)) false, (Opt (Plain (LEnum [0; 1; 2; 3; 4; 5; 6; 7; 8; 9; 10; 11; 12; 13; 14; 15]))));
   (mkField (str "priority_list") (Some (str "priority-list")) (Some (VSeq [])) false, (Opt (ListOf m_TargetID)));
   (mkField (str "ignore_unprioritized") None (Some (VBool false)) false, (Opt (Plain LBool)));
   (mkField (str "items") None (Some (VSeq [])) false, (Opt (ListOf m_ItemRequest)));
   (mkField (str "control_behavior") None (Some (VRec (str "FluidTurret.Format.ControlBehavior") [((str "circuit_enabled"), (VBool false)); ((str "connect_to_logistic_network"), (VBool false)); ((str "logistic_condition"), (VRec (str "Condition") [((str "first_signal"), VNone); ((str "first_signal_networks"), (VRec (str "NetworkSpecification") [((str "red"), (VBool true)); ((str "green"), (VBool true))] [])); ((str "comparator"), (VStr (str "<"))); ((str "constant"), (VInt 0)); ((str "second_signal"), VNone); ((str "second_signal_networks"), (VRec (str "NetworkSpecification") [((str "red"), (VBool true)); ((str "green"), (VBool true))] []))] [])); ((str "circuit_condition_enabled"), (VBool false)); ((str "circuit_condition"), (VRec (str "Condition") [((str "first_signal"), VNone); ((str "first_signal_networks"), (VRec (str "NetworkSpecification") [((str "red"), (VBool true)); ((str "green"), (VBool true))] [])); ((str "comparator"), (VStr (str "<"))); ((str "constant"), (VInt 0)); ((str "second_signal"), VNone); ((str "second_signal_networks"), (VRec (str "NetworkSpecification") [((str "red"), (VBool true)); ((str "green"), (VBool true))] []))] [])); ((str "set_priority_list"), (VBool false)); ((str "set_ignore_unlisted_targets"), (VBool false)); ((str "ignore_unlisted_targets_condition"), (VRec (str "Condition") [((str "first_signal"), VNone); ((str "first_signal_networks"), (VRec (str "NetworkSpecification") [((str "red"), (VBool true)); ((str "green"), (VBool true))] [])); ((str "comparator"), (VStr (str "<"))); ((str "constant"), (VInt 0)); ((str "second_signal"), VNone); ((str "second_signal_networks"), (VRec (str "NetworkSpecification") [((str "red"), (VBool true)); ((str "green"), (VBool true))] []))] [])); ((str "read_ammo"), (VBool true))] [])) false, (Opt m_FluidTurret_ControlBehavior))]
  [((str "name"), VNone); ((str "position"), VNone); ((str "tile_position"), (VSeq [(VInt 0); (VInt 0)])); ((str "direction"), (VInt 0)); ((str "items"), (VMap [])); ((str "tags"), (VMap [])); ((str "validate_assignment"), (VStr (str "strict"))); ((str "id"), VNone); ((str "similar_entities"), VNone); ((str "validate"), VNone)]
  [Pass (str "name") None; Pass (str "position") None; Pass (str "direction") None; Pass (str "items") None; Pass (str "tags") None]
  [Store (str "name") (Kwarg [(str "name")] VNone) None;
   Store (str "quality") (Kwarg [(str "quality")] (VStr (str "normal"))) None;
   Store (str "tags") (Kwarg [(str "tags")] (VMap [])) None;
   Store (str "direction") (Kwarg [(str "direction")] (VInt 0)) None;
   Store (str "items") (Kwarg [(str "items")] (VMap [])) (Some (VSeq []))]
  true.

(** draftsman/prototypes/fluid_wagon.py 16-54 *)
Definition c_FluidWagon : class_ := mkClass (str "FluidWagon")
  [(mkField (str "name") None None false, (Plain LStr));
   (mkField (str "quality") None (Some (VStr (str "normal"))) false, (Plain (LLiteral [(str "normal"); (str "uncommon"); (str "rare"); (str "epic"); (str "legendary")])));
   (mkField (str "position") None None false, m_FloatPosition);
   (mkField (str "entity_number") None None true, (Plain (LInt (Some 0) (Some 18446744073709551615))));
   (mkField (str "tags") None (Some (VMap [])) false, (Opt (Plain LDict)));
   (mkField (str "orientation") None (Some (VFloat 0)) false, (Opt (Plain LOrientation)));
   (mkField (str "enable_logistics_while_moving") None (Some (VBool true)) false, (Opt (Plain LBool)));
   (mkField (str "grid") None (Some (VSeq [])) false, (ListOf m_EquipmentGridMixin_EquipmentComponent))]
  [((str "name"), VNone); ((str "position"), VNone); ((str "tile_position"), (VSeq [(VInt 0); (VInt 0)])); ((str "orientation"), (VFloat 0)); ((str "enable_logistics_while_moving"), (VBool true)); ((str "grid"), (VSeq [])); ((str "tags"), (VMap [])); ((str "validate_assignment"), (VStr (str "strict"))); ((str "id"), VNone); ((str "similar_entities"), VNone); ((str "validate"), VNone)]
  [Pass (str "name") None; Pass (str "position") None; Pass (str "orientation") None; Pass (str "enable_logistics_while_moving") None; Pass (str "grid") None; Pass (str "tags") None]
  [Store (str "name") (Kwarg [(str "name")] VNone) None;
   Store (str "quality") (Kwarg [(str "quality")] (VStr (str "normal"))) None;
   Store (str "tags") (Kwarg [(str "tags")] (VMap [])) None;
   Store (str "orientation") (Kwarg [(str "orientation")] (VFloat 0)) (Some (VFloat 0))]
  false.

(** draftsman/prototypes/furnace.py 27-160 *)
Definition c_Furnace : class_ := mkClass (str "Furnace")
  [(mkField (str "name") None None false, (Plain LStr));
   (mkField (str "quality") None (Some (VStr (str "normal"))) false, (Plain (LLiteral [(str "normal"); (str "uncommon"); (str "rare"); (str "epic"); (str "legendary")])));
   (mkField (str "position") None None false, m_FloatPosition);
   (mkField (str "entity_number") None None true, (Plain (LInt (Some 0) (Some 18446744073709551615))));
   (mkField (str "tags") None (Some (VMap [])) false, (Opt (Plain LDict)));
   (mkField (str "direction") None (Some (VInt 0)) false, (Opt (Plain (LEnum [0; 1; 2; 3; 4; 5; 6; 7; 8; 9; 10; 11; 12; 13; 14; 15]))));
   (mkField (str "items") None (Some (VSeq [])) false, (Opt (ListOf m_ItemRequest)))]
  [((str "name"), VNone); ((str "position"), VNone); ((str "tile_position"), (VSeq [(VInt 0); (VInt 0)])); ((str "direction"), (VInt 0)); ((str "items"), (VSeq [])); ((str "tags"), (VMap [])); ((str "validate_assignment"), (VStr (str "strict"))); ((str "id"), VNone); ((str "similar_entities"), VNone); ((str "validate"), VNone)]
  [Pass (str "name") None; Pass (str "position") None; Pass (str "direction") None; Pass (str "items") None; Pass (str "tags") None]
  [Store (str "name") (Kwarg [(str "name")] VNone) None;
   Store (str "quality") (Kwarg [(str "quality")] (VStr (str "normal"))) None;
   Store (str "tags") (Kwarg [(str "tags")] (VMap [])) None;
   Store (str "direction") (Kwarg [(str "direction")] (VInt 0)) None;
   Store (str "items") (Kwarg [(str "items")] (VMap [])) (Some (VSeq []))]
  false.

(** draftsman/prototypes/fusion_generator.py 15-49 *)
Definition c_FusionGenerator : class_ := mkClass (str "FusionGenerator")
  [(mkField (str "name") None None false, (Plain LStr));
   (mkField (str "quality") None (Some (VStr (str "normal"))) false, (Plain (LLiteral [(str "normal"); (str "uncommon"); (str "rare"); (str "epic"); (str "legendary")])));
   (mkField (str "position") None None false, m_FloatPosition);
   (mkField (str "entity_number") None None true, (Plain (LInt (Some 0) (Some 18446744073709551615))));
   (mkField (str "tags") None (Some (VMap [])) false, (Opt (Plain LDict)));
   (mkField (str "direction") None (Some (VInt 0)) false, (Opt (Plain (LEnum [0; 1; 2; 3; 4; 5; 6; 7; 8; 9; 10; 11; 12; 13; 14; 15]))))]
  [((str "name"), VNone); ((str "position"), VNone); ((str "tile_position"), (VSeq [(VInt 0); (VInt 0)])); ((str "direction"), (VInt 0)); ((str "tags"), (VMap [])); ((str "validate_assignment"), (VStr (str "strict"))); ((str "id"), VNone); ((str "similar_entities"), VNone); ((str "validate"), VNone)]
  [Pass (str "name") None; Pass (str "position") None; Pass (str "direction") None; Pass (str "tags") None]
  [Store (str "name") (Kwarg [(str "name")] VNone) None;
   Store (str "quality") (Kwarg [(str "quality")] (VStr (str "normal"))) None;
   Store (str "tags") (Kwarg [(str "tags")] (VMap [])) None;
   Store (str "direction") (Kwarg [(str "direction")] (VInt 0)) None]
  false.

(** draftsman/prototypes/gate.py 15-49 *)
Definition c_Gate : class_ := mkClass (str "Gate")
  [(mkField (str "name") None None false, (Plain LStr));
   (mkField (str "quality") None (Some (VStr (str "normal"))) false, (Plain (LLiteral [(str "normal"); (str "uncommon"); (str "rare"); (str "epic"); (str "legendary")])));
   (mkField (str "position") None None false, m_FloatPosition);
   (mkField (str "entity_number") None None true, (Plain (LInt (Some 0) (Some 18446744073709551615))));
   (mkField (str "tags") None (Some (VMap [])) false, (Opt (Plain LDict)));
   (mkField (str "direction") None (Some (VInt 0)) false, (Opt (Plain (LEnum [0; 1; 2; 3; 4; 5; 6; 7; 8; 9; 10; 11; 12; 13; 14; 15]))))]
  [((str "name"), VNone); ((str "position"), VNone); ((str "tile_position"), (VSeq [(VInt 0); (VInt 0)])); ((str "direction"), (VInt 0)); ((str "tags"), (VMap [])); ((str "validate_assignment"), (VStr (str "strict"))); ((str "id"), VNone); ((str "similar_entities"), VNone); ((str "validate"), VNone)]
  [Pass (str "name") None; Pass (str "position") None; Pass (str "direction") None; Pass (str "tags") None]
  [Store (str "name") (Kwarg [(str "name")] VNone) None;
   Store (str "quality") (Kwarg [(str "quality")] (VStr (str "normal"))) None;
   Store (str "tags") (Kwarg [(str "tags")] (VMap [])) None;
   Store (str "direction") (Kwarg [(str "direction")] (VInt 0)) None]
  false.

(** draftsman/prototypes/generator.py 16-46 *)
Definition c_Generator : class_ := mkClass (str "Generator")
  [(mkField (str "name") None None false, (Plain LStr));
   (mkField (str "quality") None (Some (VStr (str "normal"))) false, (Plain (LLiteral [(str "normal"); (str "uncommon"); (str "rare"); (str "epic"); (str "legendary")])));
   (mkField (str "position") None None false, m_FloatPosition);
   (mkField (str "entity_number") None None true, (Plain (LInt (Some 0) (Some 18446744073709551615))));
   (mkField (str "tags") None (Some (VMap [])) false, (Opt (Plain LDict)));
   (mkField (str "direction") None (Some (VInt 0)) false, (Opt (Plain (LEnum [0; 1; 2; 3; 4; 5; 6; 7; 8; 9; 10; 11; 12; 13; 14; 15]))))]
  [((str "name"), VNone); ((str "position"), VNone); ((str "tile_position"), (VSeq [(VInt 0); (VInt 0)])); ((str "direction"), (VInt 0)); ((str "tags"), (VMap [])); ((str "validate_assignment"), (VStr (str "strict"))); ((str "id"), VNone); ((str "similar_entities"), VNone); ((str "validate"), VNone)]
  [Pass (str "name") None; Pass (str "position") None; Pass (str "direction") None; Pass (str "tags") None]
  [Store (str "name") (Kwarg [(str "name")] VNone) None;
   Store (str "quality") (Kwarg [(str "quality")] (VStr (str "normal"))) None;
   Store (str "tags") (Kwarg [(str "tags")] (VMap [])) None;
   Store (str "direction") (Kwarg [(str "direction")] (VInt 0)) None]
  false.

(** draftsman/prototypes/heat_interface.py 16-91 *)
Definition c_HeatInterface : class_ := mkClass (str "HeatInterface")
  [(mkField (str "name") None None false, (Plain LStr));
   (mkField (str "quality") None (Some (VStr (str "normal"))) false, (Plain (LLiteral [(str "normal"); (str "uncommon"); (str "rare"); (str "epic"); (str "legendary")])));
   (mkField (str "position") None None false, m_FloatPosition);
   (mkField (str "entity_number") None None true, (Plain (LInt (Some 0) (Some 18446744073709551615))));
   (mkField (str "tags") None (Some (VMap [])) false, (Opt (Plain LDict)));
   (mkField (str "temperature") None (Some (VFloat (0 # 1))) false, (Opt (Plain (LFloat None None))));
   (mkField (str "mode") None (Some (VStr (str "at-least"))) false, (Opt (Plain (LLiteral [(str "at-least"); (str "at-most"); (str "exactly"); (str "add"); (str "remove")]))))]
  [((str "name"), VNone); ((str "position"), VNone); ((str "tile_position"), (VSeq [(VInt 0); (VInt 0)])); ((str "temperature"), (VFloat (0 # 1))); ((str "mode"), (VStr (str "at-least"))); ((str "tags"), (VMap [])); ((str "validate_assignment"), (VStr (str "strict"))); ((str "id"), VNone); ((str "similar_entities"), VNone); ((str "validate"), VNone)]
  [Pass (str "name") None; Pass (str "position") None; Pass (str "tags") None]
  [Store (str "name") (Kwarg [(str "name")] VNone) None;
   Store (str "quality") (Kwarg [(str "quality")] (VStr (str "normal"))) None;
   Store (str "tags") (Kwarg [(str "tags")] (VMap [])) None;
   Store (str "temperature") (Param (str "temperature")) None;
   Store (str "mode") (Param (str "mode")) None]
  false.

(** draftsman/prototypes/heat_pipe.py 14-46 *)
Definition c_HeatPipe : class_ := mkClass (str "HeatPipe")
  [(mkField (str "name") None None false, (Plain LStr));
   (mkField (str "quality") None (Some (VStr (str "normal"))) false, (Plain (LLiteral [(str "normal"); (str "uncommon"); (str "rare"); (str "epic"); (str "legendary")])));
   (mkField (str "position") None None false, m_FloatPosition);
   (mkField (str "entity_number") None None true, (Plain (LInt (Some 0) (Some 18446744073709551615))));
   (mkField (str "tags") None (Some (VMap [])) false, (Opt (Plain LDict)))]
  [((str "name"), VNone); ((str "position"), VNone); ((str "tile_position"), (VSeq [(VInt 0); (VInt 0)])); ((str "tags"), (VMap [])); ((str "validate_assignment"), (VStr (str "strict"))); ((str "id"), VNone); ((str "similar_entities"), VNone); ((str "validate"), VNone)]
  [Pass (str "name") None; Pass (str "position") None; Pass (str "tags") None]
  [Store (str "name") (Kwarg [(str "name")] VNone) None;
   Store (str "quality") (Kwarg [(str "quality")] (VStr (str "normal"))) None;
   Store (str "tags") (Kwarg [(str "tags")] (VMap [])) None]
  false.

(** draftsman/prototypes/infinity_container.py 27-56 *)
Definition m_InfinityContainer_InfinitySettings_InfinityFilter : typ := Model (str "InfinityContainer.Format.InfinitySettings.InfinityFilter") [
  (mkField (str "index") None None false, (Plain (LInt (Some 0) (Some 65535))));
  (mkField (str "name") None None false, (Plain LStr));
  (mkField (str "count") None (Some (VInt 0)) false, (Opt (Plain (LInt (Some 0) (Some 4294967295)))));
  (mkField (str "mode") None (Some (VStr (str "at-least"))) false, (Opt (Plain (LLiteral [(str "at-least"); (str "at-most"); (str "exactly")]))))].

(** draftsman/prototypes/infinity_container.py 26-71 *)
Definition m_InfinityContainer_InfinitySettings : typ := Model (str "InfinityContainer.Format.InfinitySettings") [
  (mkField (str "filters") None (Some (VSeq [])) false, (Opt (ListOf m_InfinityContainer_InfinitySettings_InfinityFilter)));
  (mkField (str "remove_unfiltered_items") None (Some (VBool false)) false, (Opt (Plain LBool)))].

(** draftsman/prototypes/infinity_container.py 20-110 *)
Definition c_InfinityContainer : class_ := mkClass (str "InfinityContainer")
  [(mkField (str "name") None None false, (Plain LStr));
   (mkField (str "quality") None (Some (VStr (str "normal"))) false, (Plain (LLiteral [(str "normal"); (str "uncommon"); (str "rare"); (str "epic"); (str "legendary")])));
   (mkField (str "position") None None false, m_FloatPosition);
   (mkField (str "entity_number") None None true, (Plain (LInt (Some 0) (Some 18446744073709551615))));
   (mkField (str "tags") None (Some (VMap [])) false, (Opt (Plain LDict)));
   (mkField (str "bar") None (Some VNone) false, (Opt (Plain (LInt (Some 0) (Some 65535)))));
   (mkField (str "items") None (Some (VSeq [])) false, (Opt (ListOf m_ItemRequest)));
   (mkField (str "infinity_settings") None (Some (VRec (str "InfinityContainer.Format.InfinitySettings") [((str "filters"), (VSeq [])); ((str "remove_unfiltered_items"), (VBool false))] [])) false, (Opt m_InfinityContainer_InfinitySettings))]
  [((str "name"), VNone); ((str "position"), VNone); ((str "tile_position"), (VSeq [(VInt 0); (VInt 0)])); ((str "bar"), VNone); ((str "items"), (VSeq [])); ((str "infinity_settings"), (VMap [])); ((str "tags"), (VMap [])); ((str "validate_assignment"), (VStr (str "strict"))); ((str "id"), VNone); ((str "similar_entities"), VNone); ((str "validate"), VNone)]
  [Pass (str "name") None; Pass (str "position") None; Pass (str "bar") None; Pass (str "items") None; Pass (str "tags") None]
  [Store (str "name") (Kwarg [(str "name")] VNone) None;
   Store (str "quality") (Kwarg [(str "quality")] (VStr (str "normal"))) None;
   Store (str "tags") (Kwarg [(str "tags")] (VMap [])) None;
   Store (str "bar") (Kwarg [(str "bar")] VNone) None;
   Store (str "items") (Kwarg [(str "items")] (VMap [])) (Some (VSeq []));
   Store (str "infinity_settings") (Param (str "infinity_settings")) None]
  false.

(** draftsman/prototypes/infinity_pipe.py 24-89 *)
Definition m_InfinityPipe_InfinitySettings : typ := Model (str "InfinityPipe.Format.InfinitySettings") [
  (mkField (str "name") None (Some VNone) false, (Opt (Plain LStr)));
  (mkField (str "percentage") None (Some (VFloat (0 # 1))) false, (Opt (Plain (LFloat (Some (0 # 1)) None))));
  (mkField (str "mode") None (Some (VStr (str "at-least"))) false, (Opt (Plain (LLiteral [(str "at-least"); (str "at-most"); (str "exactly"); (str "add"); (str "remove")]))));
  (mkField (str "temperature") None (Some VNone) false, (Opt (Plain (LInt (Some (-9223372036854775808)) (Some 9223372036854775807)))))].

(** draftsman/prototypes/infinity_pipe.py 18-124 *)
Definition c_InfinityPipe : class_ := mkClass (str "InfinityPipe")
  [(mkField (str "name") None None false, (Plain LStr));
   (mkField (str "quality") None (Some (VStr (str "normal"))) false, (Plain (LLiteral [(str "normal"); (str "uncommon"); (str "rare"); (str "epic"); (str "legendary")])));
   (mkField (str "position") None None false, m_FloatPosition);
   (mkField (str "entity_number") None None true, (Plain (LInt (Some 0) (Some 18446744073709551615))));
   (mkField (str "tags") None (Some (VMap [])) false, (Opt (Plain LDict)));
   (mkField (str "infinity_settings") None (Some (VRec (str "InfinityPipe.Format.InfinitySettings") [((str "name"), VNone); ((str "percentage"), (VFloat (0 # 1))); ((str "mode"), (VStr (str "at-least"))); ((str "temperature"), VNone)] [])) false, (Opt m_InfinityPipe_InfinitySettings))]
  [((str "name"), VNone); ((str "position"), VNone); ((str "tile_position"), (VSeq [(VInt 0); (VInt 0)])); ((str "infinity_settings"), (VMap [])); ((str "tags"), (VMap [])); ((str "validate_assignment"), (VStr (str "strict"))); ((str "id"), VNone); ((str "similar_entities"), VNone); ((str "validate"), VNone)]
  [Pass (str "name") None; Pass (str "position") None; Pass (str "tags") None]
  [Store (str "name") (Kwarg [(str "name")] VNone) None;
   Store (str "quality") (Kwarg [(str "quality")] (VStr (str "normal"))) None;
   Store (str "tags") (Kwarg [(str "tags")] (VMap [])) None;
   Store (str "infinity_settings") (Param (str "infinity_settings")) None]
  false.

(** draftsman/prototypes/inserter.py 64-79 *)
Definition m_Inserter_ControlBehavior : typ := Model (str "Inserter.Format.ControlBehavior") [
  (mkField (str "circuit_enabled") None (Some (VBool false)) false, (Opt (Plain LBool)));
  (mkField (str "connect_to_logistic_network") None (Some (VBool false)) false, (Opt (Plain LBool)));
  (mkField (str "logistic_condition") None (Some (VRec (str "Condition") [((str "first_signal"), VNone); ((str "first_signal_networks"), (VRec (str "NetworkSpecification") [((str "red"), (VBool true)); ((str "green"), (VBool true))] [])); ((str "comparator"), (VStr (str "<"))); ((str "constant"), (VInt 0)); ((str "second_signal"), VNone); ((str "second_signal_networks"), (VRec (str "NetworkSpecification") [((str "red"), (VBool true)); ((str "green"), (VBool true))] []))] [])) false, (Opt m_Condition));
  (mkField (str "circuit_condition_enabled") None (Some (VBool false)) false, (Opt (Plain LBool)));
  (mkField (str "circuit_condition") None (Some (VRec (str "Condition") [((str "first_signal"), VNone); ((str "first_signal_networks"), (VRec (str "NetworkSpecification") [((str "red"), (VBool true)); ((str "green"), (VBool true))] [])); ((str "comparator"), (VStr (str "<"))); ((str "constant"), (VInt 0)); ((str "second_signal"), VNone); ((str "second_signal_networks"), (VRec (str "NetworkSpecification") [((str "red"), (VBool true)); ((str "green"), (VBool true))] []))] [])) false, (Opt m_Condition));
  (mkField (str "circuit_mode_of_operation") None (Some VNone) false, (Opt (Plain (LEnum [0; 1; 2; 3]))));
  (mkField (str "circuit_read_hand_contents") None (Some VNone) false, (Opt (Plain LBool)));
  (mkField (str "circuit_hand_read_mode") None (Some VNone) false, (Opt (Plain (LEnum [0; 1]))));
  (mkField (str "circuit_set_stack_size") None (Some VNone) false, (Opt (Plain LBool)));
  (mkField (str "stack_control_input_signal") None (Some VNone) false, (Opt m_SignalID));
  (mkField (str "circuit_set_filters") None (Some (VBool false)) false, (Opt (Plain LBool)))].

(** draftsman/prototypes/inserter.py 28-151 *)
Definition c_Inserter : class_ := mkClass (str "Inserter")
  [(mkField (str "name") None None false, (Plain LStr));
   (mkField (str "quality") None (Some (VStr (str "normal"))) false, (Plain (LLiteral [(str "normal"); (str "uncommon"); (str "rare"); (str "epic"); (str "legendary")])));
   (mkField (str "position") None None false, m_FloatPosition);
   (mkField (str "entity_number") None None true, (Plain (LInt (Some 0) (Some 18446744073709551615))));
   (mkField (str "tags") None (Some (VMap [])) false, (Opt (Plain LDict)));
   (mkField (str "direction") None (Some (VInt 0)) false, (Opt (Plain (LEnum [0; 1; 2; 3; 4; 5; 6; 7; 8; 9; 10; 11; 12; 13; 14; 15]))));
   (mkField (str "override_stack_size") None (Some VNone) false, (Opt (Plain (LInt (Some 0) (Some 255)))));
   (mkField (str "use_filters") None (Some (VBool false)) false, (Opt (Plain LBool)));
   (mkField (str "filters") None (Some (VSeq [])) false, (Opt (ListOf m_ItemFilter)));
   (mkField (str "control_behavior") None (Some (VRec (str "Inserter.Format.ControlBehavior") [((str "circuit_enabled"), (VBool false)); ((str "connect_to_logistic_network"), (VBool false)); ((str "logistic_condition"), (VRec (str "Condition") [((str "first_signal"), VNone); ((str "first_signal_networks"), (VRec (str "NetworkSpecification") [((str "red"), (VBool true)); ((str "green"), (VBool true))] [])); ((str "comparator"), (VStr (str "<"))); ((str "constant"), (VInt 0)); ((str "second_signal"), VNone); ((str "second_signal_networks"), (VRec (str "NetworkSpecification") [((str "red"), (VBool true)); ((str "green"), (VBool true))] []))] [])); ((str "circuit_condition_enabled"), (VBool false)); ((str "circuit_condition"), (VRec (str "Condition") [((str "first_signal"), VNone); ((str "first_signal_networks"), (VRec (str "NetworkSpecification") [((str "red"), (VBool true)); ((str "green"), (VBool true))] [])); ((str "comparator"), (VStr (str "<"))); ((str "constant"), (VInt 0)); ((str "second_signal"), VNone); ((str "second_signal_networks"), (VRec (str "NetworkSpecification") [((str "red"), (VBool true)); ((str "green"), (VBool true))] []))] [])); ((str "circuit_mode_of_operation"), VNone); ((str "circuit_read_hand_contents"), VNone); ((str "circuit_hand_read_mode"), VNone); ((str "circuit_set_stack_size"), VNone); ((str "stack_control_input_signal"), VNone); ((str "circuit_set_filters"), (VBool false))] [])) false, (Opt m_Inserter_ControlBehavior));
   (mkField (str "pickup_position") None (Some VNone) false, (Opt (ListOf (Plain (LFloat None None)))));
   (mkField (str "drop_position") None (Some VNone) false, (Opt (ListOf (Plain (LFloat None None)))));
   (mkField (str "filter_mode") None (Some (VStr (str "whitelist"))) false, (Opt (Plain (LLiteral [(str "whitelist"); (str "blacklist")]))));
   (mkField (str "spoil_priority") None (Some VNone) false, (Opt (Plain (LLiteral [(str "spoiled-first"); (str "fresh-first")]))))]
  [((str "name"), VNone); ((str "position"), VNone); ((str "tile_position"), (VSeq [(VInt 0); (VInt 0)])); ((str "direction"), (VInt 0)); ((str "pickup_position"), VNone); ((str "drop_position"), VNone); ((str "filter_mode"), (VStr (str "whitelist"))); ((str "spoil_priority"), VNone); ((str "override_stack_size"), VNone); ((str "control_behavior"), (VMap [])); ((str "tags"), (VMap [])); ((str "validate_assignment"), (VStr (str "strict"))); ((str "id"), VNone); ((str "similar_entities"), VNone); ((str "validate"), VNone)]
  [Pass (str "name") None; Pass (str "position") None; Pass (str "direction") None; Pass (str "override_stack_size") None; Pass (str "control_behavior") None; Pass (str "tags") None]
  [Store (str "name") (Kwarg [(str "name")] VNone) None;
   Store (str "quality") (Kwarg [(str "quality")] (VStr (str "normal"))) None;
   Store (str "tags") (Kwarg [(str "tags")] (VMap [])) None;
   Store (str "direction") (Kwarg [(str "direction")] (VInt 0)) None;
   Store (str "override_stack_size") (Kwarg [(str "override_stack_size")] VNone) None;
   Store (str "filters") (Kwarg [(str "filters")] VNone) None;
   Store (str "pickup_position") (Param (str "pickup_position")) None;
   Store (str "drop_position") (Param (str "drop_position")) None;
   Store (str "filter_mode") (Param (str "filter_mode")) None;
   Store (str "spoil_priority") (Param (str "spoil_priority")) None]
  true.

(** draftsman/prototypes/lab.py 19-57 *)
Definition c_Lab : class_ := mkClass (str "Lab")
  [(mkField (str "name") None None false, (Plain LStr));
   (mkField (str "quality") None (Some (VStr (str "normal"))) false, (Plain (LLiteral [(str "normal"); (str "uncommon"); (str "rare"); (str "epic"); (str "legendary")])));
   (mkField (str "position") None None false, m_FloatPosition);
   (mkField (str "entity_number") None None true, (Plain (LInt (Some 0) (Some 18446744073709551615))));
   (mkField (str "tags") None (Some (VMap [])) false, (Opt (Plain LDict)));
   (mkField (str "items") None (Some (VSeq [])) false, (Opt (ListOf m_ItemRequest)))]
  [((str "name"), VNone); ((str "position"), VNone); ((str "tile_position"), (VSeq [(VInt 0); (VInt 0)])); ((str "items"), (VSeq [])); ((str "tags"), (VMap [])); ((str "validate_assignment"), (VStr (str "strict"))); ((str "id"), VNone); ((str "similar_entities"), VNone); ((str "validate"), VNone)]
  [Pass (str "name") None; Pass (str "position") None; Pass (str "items") None; Pass (str "tags") None]
  [Store (str "name") (Kwarg [(str "name")] VNone) None;
   Store (str "quality") (Kwarg [(str "quality")] (VStr (str "normal"))) None;
   Store (str "tags") (Kwarg [(str "tags")] (VMap [])) None;
   Store (str "items") (Kwarg [(str "items")] (VMap [])) (Some (VSeq []))]
  false.

(** draftsman/prototypes/lamp.py 34-49 *)
Definition m_Lamp_ControlBehavior : typ := Model (str "Lamp.Format.ControlBehavior") [
  (mkField (str "circuit_condition_enabled") None (Some (VBool false)) false, (Opt (Plain LBool)));
  (mkField (str "circuit_condition") None (Some (VRec (str "Condition") [((str "first_signal"), VNone); ((str "first_signal_networks"), (VRec (str "NetworkSpecification") [((str "red"), (VBool true)); ((str "green"), (VBool true))] [])); ((str "comparator"), (VStr (str "<"))); ((str "constant"), (VInt 0)); ((str "second_signal"), VNone); ((str "second_signal_networks"), (VRec (str "NetworkSpecification") [((str "red"), (VBool true)); ((str "green"), (VBool true))] []))] [])) false, (Opt m_Condition));
  (mkField (str "use_colors") None (Some (VBool false)) false, (Opt (Plain LBool)));
  (mkField (str "color_mode") None (Some (VInt 0)) false, (Opt (Plain (LEnum [0; 1; 2]))))].

(** draftsman/signatures.py 586-606 *)
Definition m_Color : typ := Model (str "Color") [
  (mkField (str "r") None None false, (Plain (LFloat (Some (0 # 1)) (Some (255 # 1)))));
  (mkField (str "g") None None false, (Plain (LFloat (Some (0 # 1)) (Some (255 # 1)))));
  (mkField (str "b") None None false, (Plain (LFloat (Some (0 # 1)) (Some (255 # 1)))));
  (mkField (str "a") None (Some VNone) false, (Opt (Plain (LFloat (Some (0 # 1)) (Some (255 # 1))))))].

(** draftsman/prototypes/lamp.py 21-99 *)
Definition c_Lamp : class_ := mkClass (str "Lamp")
  [(mkField (str "name") None None false, (Plain LStr));
   (mkField (str "quality") None (Some (VStr (str "normal"))) false, (Plain (LLiteral [(str "normal"); (str "uncommon"); (str "rare"); (str "epic"); (str "legendary")])));
   (mkField (str "position") None None false, m_FloatPosition);
   (mkField (str "entity_number") None None true, (Plain (LInt (Some 0) (Some 18446744073709551615))));
   (mkField (str "tags") None (Some (VMap [])) false, (Opt (Plain LDict)));
   (mkField (str "control_behavior") None (Some (VRec (str "Lamp.Format.ControlBehavior") [((str "circuit_condition_enabled"), (VBool false)); ((str "circuit_condition"), (VRec (str "Condition") [((str "first_signal"), VNone); ((str "first_signal_networks"), (VRec (str "NetworkSpecification") [((str "red"), (VBool true)); ((str "green"), (VBool true))] [])); ((str "comparator"), (VStr (str "<"))); ((str "constant"), (VInt 0)); ((str "second_signal"), VNone); ((str "second_signal_networks"), (VRec (str "NetworkSpecification") [((str "red"), (VBool true)); ((str "green"), (VBool true))] []))] [])); ((str "use_colors"), (VBool false)); ((str "color_mode"), (VInt 0))] [])) false, (Opt m_Lamp_ControlBehavior));
   (mkField (str "color") None (Some (VRec (str "Color") [((str "r"), (VFloat (1 # 1))); ((str "g"), (VFloat (1 # 1))); ((str "b"), (VFloat (1 # 1))); ((str "a"), (VFloat (1 # 1)))] [])) false, (Opt m_Color));
   (mkField (str "always_on") None (Some (VBool false)) false, (Opt (Plain LBool)))]
  [((str "name"), VNone); ((str "position"), VNone); ((str "tile_position"), (VSeq [(VInt 0); (VInt 0)])); ((str "always_on"), (VBool false)); ((str "control_behavior"), (VMap [])); ((str "tags"), (VMap [])); ((str "validate_assignment"), (VStr (str "strict"))); ((str "id"), VNone); ((str "similar_entities"), VNone); ((str "validate"), VNone)]
  [Pass (str "name") None; Pass (str "position") None; Pass (str "control_behavior") None; Pass (str "tags") None]
  [Store (str "name") (Kwarg [(str "name")] VNone) None;
   Store (str "quality") (Kwarg [(str "quality")] (VStr (str "normal"))) None;
   Store (str "tags") (Kwarg [(str "tags")] (VMap [])) None;
   Store (str "always_on") (Param (str "always_on")) None]
  true.

(** draftsman/prototypes/land_mine.py 14-46 *)
Definition c_LandMine : class_ := mkClass (str "LandMine")
  [(mkField (str "name") None None false, (Plain LStr));
   (mkField (str "quality") None (Some (VStr (str "normal"))) false, (Plain (LLiteral [(str "normal"); (str "uncommon"); (str "rare"); (str "epic"); (str "legendary")])));
   (mkField (str "position") None None false, m_FloatPosition);
   (mkField (str "entity_number") None None true, (Plain (LInt (Some 0) (Some 18446744073709551615))));
   (mkField (str "tags") None (Some (VMap [])) false, (Opt (Plain LDict)))]
  [((str "name"), VNone); ((str "position"), VNone); ((str "tile_position"), (VSeq [(VInt 0); (VInt 0)])); ((str "tags"), (VMap [])); ((str "validate_assignment"), (VStr (str "strict"))); ((str "id"), VNone); ((str "similar_entities"), VNone); ((str "validate"), VNone)]
  [Pass (str "name") None; Pass (str "position") None; Pass (str "tags") None]
  [Store (str "name") (Kwarg [(str "name")] VNone) None;
   Store (str "quality") (Kwarg [(str "quality")] (VStr (str "normal"))) None;
   Store (str "tags") (Kwarg [(str "tags")] (VMap [])) None]
  false.

(** draftsman/prototypes/legacy_curved_rail.py 51-97 *)
Definition c_LegacyCurvedRail : class_ := mkClass (str "LegacyCurvedRail")
  [(mkField (str "name") None None false, (Plain LStr));
   (mkField (str "quality") None (Some (VStr (str "normal"))) false, (Plain (LLiteral [(str "normal"); (str "uncommon"); (str "rare"); (str "epic"); (str "legendary")])));
   (mkField (str "position") None None false, m_FloatPosition);
   (mkField (str "entity_number") None None true, (Plain (LInt (Some 0) (Some 18446744073709551615))));
   (mkField (str "tags") None (Some (VMap [])) false, (Opt (Plain LDict)));
   (mkField (str "direction") None (Some (VInt 0)) false, (Opt (Plain (LEnum [0; 1; 2; 3; 4; 5; 6; 7; 8; 9; 10; 11; 12; 13; 14; 15]))))]
  [((str "name"), VNone); ((str "position"), VNone); ((str "tile_position"), (VSeq [(VInt 0); (VInt 0)])); ((str "direction"), (VInt 0)); ((str "tags"), (VMap [])); ((str "validate_assignment"), (VStr (str "strict"))); ((str "id"), VNone); ((str "similar_entities"), VNone); ((str "validate"), VNone)]
  [Pass (str "name") None; Pass (str "position") None; Pass (str "direction") None; Pass (str "tags") None]
  [Store (str "name") (Kwarg [(str "name")] VNone) None;
   Store (str "quality") (Kwarg [(str "quality")] (VStr (str "normal"))) None;
   Store (str "tags") (Kwarg [(str "tags")] (VMap [])) None;
   Store (str "direction") (Kwarg [(str "direction")] (VInt 0)) None]
  false.

(** draftsman/prototypes/legacy_straight_rail.py 45-95 *)
Definition c_LegacyStraightRail : class_ := mkClass (str "LegacyStraightRail")
  [(mkField (str "name") None None false, (Plain LStr));
   (mkField (str "quality") None (Some (VStr (str "normal"))) false, (Plain (LLiteral [(str "normal"); (str "uncommon"); (str "rare"); (str "epic"); (str "legendary")])));
   (mkField (str "position") None None false, m_FloatPosition);
   (mkField (str "entity_number") None None true, (Plain (LInt (Some 0) (Some 18446744073709551615))));
   (mkField (str "tags") None (Some (VMap [])) false, (Opt (Plain LDict)));
   (mkField (str "direction") None (Some (VInt 0)) false, (Opt (Plain (LEnum [0; 1; 2; 3; 4; 5; 6; 7; 8; 9; 10; 11; 12; 13; 14; 15]))))]
  [((str "name"), VNone); ((str "position"), VNone); ((str "tile_position"), (VSeq [(VInt 0); (VInt 0)])); ((str "direction"), (VInt 0)); ((str "tags"), (VMap [])); ((str "validate_assignment"), (VStr (str "strict"))); ((str "id"), VNone); ((str "similar_entities"), VNone); ((str "validate"), VNone)]
  [Pass (str "name") None; Pass (str "position") None; Pass (str "direction") None; Pass (str "tags") None]
  [Store (str "name") (Kwarg [(str "name")] VNone) None;
   Store (str "quality") (Kwarg [(str "quality")] (VStr (str "normal"))) None;
   Store (str "tags") (Kwarg [(str "tags")] (VMap [])) None;
   Store (str "direction") (Kwarg [(str "direction")] (VInt 0)) None]
  false.

(** draftsman/prototypes/lightning_attractor.py 14-47 *)
Definition c_LightningAttractor : class_ := mkClass (str "LightningAttractor")
  [(mkField (str "name") None None false, (Plain LStr));
   (mkField (str "quality") None (Some (VStr (str "normal"))) false, (Plain (LLiteral [(str "normal"); (str "uncommon"); (str "rare"); (str "epic"); (str "legendary")])));
   (mkField (str "position") None None false, m_FloatPosition);
   (mkField (str "entity_number") None None true, (Plain (LInt (Some 0) (Some 18446744073709551615))));
   (mkField (str "tags") None (Some (VMap [])) false, (Opt (Plain LDict)))]
  [((str "name"), VNone); ((str "position"), VNone); ((str "tile_position"), (VSeq [(VInt 0); (VInt 0)])); ((str "tags"), (VMap [])); ((str "validate_assignment"), (VStr (str "strict"))); ((str "id"), VNone); ((str "similar_entities"), VNone); ((str "validate"), VNone)]
  [Pass (str "name") None; Pass (str "position") None; Pass (str "tags") None]
  [Store (str "name") (Kwarg [(str "name")] VNone) None;
   Store (str "quality") (Kwarg [(str "quality")] (VStr (str "normal"))) None;
   Store (str "tags") (Kwarg [(str "tags")] (VMap [])) None]
  false.

(** draftsman/prototypes/linked_belt.py 15-54 *)
Definition c_LinkedBelt : class_ := mkClass (str "LinkedBelt")
  [(mkField (str "name") None None false, (Plain LStr));
   (mkField (str "quality") None (Some (VStr (str "normal"))) false, (Plain (LLiteral [(str "normal"); (str "uncommon"); (str "rare"); (str "epic"); (str "legendary")])));
   (mkField (str "position") None None false, m_FloatPosition);
   (mkField (str "entity_number") None None true, (Plain (LInt (Some 0) (Some 18446744073709551615))));
   (mkField (str "tags") None (Some (VMap [])) false, (Opt (Plain LDict)));
   (mkField (str "direction") None (Some (VInt 0)) false, (Opt (Plain (LEnum [0; 1; 2; 3; 4; 5; 6; 7; 8; 9; 10; 11; 12; 13; 14; 15]))))]
  [((str "name"), VNone); ((str "position"), VNone); ((str "tile_position"), (VSeq [(VInt 0); (VInt 0)])); ((str "direction"), (VInt 0)); ((str "tags"), (VMap [])); ((str "validate_assignment"), (VStr (str "strict"))); ((str "id"), VNone); ((str "similar_entities"), VNone); ((str "validate"), VNone)]
  [Pass (str "name") None; Pass (str "position") None; Pass (str "direction") None; Pass (str "tags") None]
  [Store (str "name") (Kwarg [(str "name")] VNone) None;
   Store (str "quality") (Kwarg [(str "quality")] (VStr (str "normal"))) None;
   Store (str "tags") (Kwarg [(str "tags")] (VMap [])) None;
   Store (str "direction") (Kwarg [(str "direction")] (VInt 0)) None]
  false.

(** draftsman/prototypes/linked_container.py 17-79 *)
Definition c_LinkedContainer : class_ := mkClass (str "LinkedContainer")
  [(mkField (str "name") None None false, (Plain LStr));
   (mkField (str "quality") None (Some (VStr (str "normal"))) false, (Plain (LLiteral [(str "normal"); (str "uncommon"); (str "rare"); (str "epic"); (str "legendary")])));
   (mkField (str "position") None None false, m_FloatPosition);
   (mkField (str "entity_number") None None true, (Plain (LInt (Some 0) (Some 18446744073709551615))));
   (mkField (str "tags") None (Some (VMap [])) false, (Opt (Plain LDict)));
   (mkField (str "items") None (Some (VSeq [])) false, (Opt (ListOf m_ItemRequest)));
   (mkField (str "bar") None (Some VNone) false, (Opt (Plain (LInt (Some 0) (Some 65535)))));
   (mkField (str "link_id") None (Some (VInt 0)) false, (Opt (Plain (LInt (Some 0) (Some 4294967295)))))]
  [((str "name"), VNone); ((str "position"), VNone); ((str "tile_position"), (VSeq [(VInt 0); (VInt 0)])); ((str "bar"), VNone); ((str "link_id"), (VInt 0)); ((str "items"), (VSeq [])); ((str "tags"), (VMap [])); ((str "validate_assignment"), (VStr (str "strict"))); ((str "id"), VNone); ((str "similar_entities"), VNone); ((str "validate"), VNone)]
  [Pass (str "name") None; Pass (str "position") None; Pass (str "bar") None; Pass (str "items") None; Pass (str "tags") None]
  [Store (str "name") (Kwarg [(str "name")] VNone) None;
   Store (str "quality") (Kwarg [(str "quality")] (VStr (str "normal"))) None;
   Store (str "tags") (Kwarg [(str "tags")] (VMap [])) None;
   Store (str "items") (Kwarg [(str "items")] (VMap [])) (Some (VSeq []));
   Store (str "bar") (Kwarg [(str "bar")] VNone) None;
   Store (str "link_id") (Param (str "link_id")) (Some (VInt 0))]
  false.

(** draftsman/prototypes/loader.py 16-56 *)
Definition c_Loader : class_ := mkClass (str "Loader")
  [(mkField (str "name") None None false, (Plain LStr));
   (mkField (str "quality") None (Some (VStr (str "normal"))) false, (Plain (LLiteral [(str "normal"); (str "uncommon"); (str "rare"); (str "epic"); (str "legendary")])));
   (mkField (str "position") None None false, m_FloatPosition);
   (mkField (str "entity_number") None None true, (Plain (LInt (Some 0) (Some 18446744073709551615))));
   (mkField (str "tags") None (Some (VMap [])) false, (Opt (Plain LDict)));
   (mkField (str "direction") None (Some (VInt 0)) false, (Opt (Plain (LEnum [0; 1; 2; 3; 4; 5; 6; 7; 8; 9; 10; 11; 12; 13; 14; 15]))));
   (mkField (str "io_type") (Some (str "type")) (Some (VStr (str "input"))) false, (Opt (Plain (LLiteral [(str "input"); (str "output")]))));
   (mkField (str "use_filters") None (Some (VBool false)) false, (Opt (Plain LBool)));
   (mkField (str "filters") None (Some (VSeq [])) false, (Opt (ListOf m_ItemFilter)))]
  [((str "name"), VNone); ((str "position"), VNone); ((str "tile_position"), (VSeq [(VInt 0); (VInt 0)])); ((str "direction"), (VInt 0)); ((str "io_type"), (VStr (str "input"))); ((str "filters"), (VSeq [])); ((str "tags"), (VMap [])); ((str "validate_assignment"), (VStr (str "strict"))); ((str "id"), VNone); ((str "similar_entities"), VNone); ((str "validate"), VNone)]
  [Pass (str "name") None; Pass (str "position") None; Pass (str "direction") None; Pass (str "io_type") None; Pass (str "filters") None; Pass (str "tags") None]
  [Store (str "name") (Kwarg [(str "name")] VNone) None;
   Store (str "quality") (Kwarg [(str "quality")] (VStr (str "normal"))) None;
   Store (str "tags") (Kwarg [(str "tags")] (VMap [])) None;
   Store (str "direction") (Kwarg [(str "direction")] (VInt 0)) None;
   Store (str "io_type") (Kwarg [(str "type"); (str "io_type")] VNone) None;
   Store (str "filters") (Kwarg [(str "filters")] VNone) None]
  false.

(** draftsman/prototypes/locomotive.py 21-65 *)
Definition c_Locomotive : class_ := mkClass (str "Locomotive")
  [(mkField (str "name") None None false, (Plain LStr));
   (mkField (str "quality") None (Some (VStr (str "normal"))) false, (Plain (LLiteral [(str "normal"); (str "uncommon"); (str "rare"); (str "epic"); (str "legendary")])));
   (mkField (str "position") None None false, m_FloatPosition);
   (mkField (str "entity_number") None None true, (Plain (LInt (Some 0) (Some 18446744073709551615))));
   (mkField (str "tags") None (Some (VMap [])) false, (Opt (Plain LDict)));
   (mkField (str "orientation") None (Some (VFloat 0)) false, (Opt (Plain LOrientation)));
   (mkField (str "color") None (Some VNone) false, (Opt m_Color));
   (mkField (str "items") None (Some (VSeq [])) false, (Opt (ListOf m_ItemRequest)));
   (mkField (str "enable_logistics_while_moving") None (Some (VBool true)) false, (Opt (Plain LBool)));
   (mkField (str "grid") None (Some (VSeq [])) false, (ListOf m_EquipmentGridMixin_EquipmentComponent))]
  [((str "name"), VNone); ((str "position"), VNone); ((str "tile_position"), (VSeq [(VInt 0); (VInt 0)])); ((str "orientation"), (VFloat 0)); ((str "enable_logistics_while_moving"), (VBool true)); ((str "grid"), (VSeq [])); ((str "items"), (VSeq [])); ((str "tags"), (VMap [])); ((str "validate_assignment"), (VStr (str "strict"))); ((str "id"), VNone); ((str "similar_entities"), VNone); ((str "validate"), VNone)]
  [Pass (str "name") None; Pass (str "position") None; Pass (str "orientation") None; Pass (str "enable_logistics_while_moving") None; Pass (str "grid") None; Pass (str "items") None; Pass (str "tags") None]
  [Store (str "name") (Kwarg [(str "name")] VNone) None;
   Store (str "quality") (Kwarg [(str "quality")] (VStr (str "normal"))) None;
   Store (str "tags") (Kwarg [(str "tags")] (VMap [])) None;
   Store (str "orientation") (Kwarg [(str "orientation")] (VFloat 0)) (Some (VFloat 0));
   Store (str "color") (Kwarg [(str "color")] VNone) None;
   Store (str "items") (Kwarg [(str "items")] (VMap [])) (Some (VSeq []));
   Store (str "enable_logistics_while_moving") (Kwarg [(str "enable_logistics_while_moving")] VNone) None]
  false.

(** draftsman/prototypes/logistic_active_container.py 47-51 *)
Definition m_LogisticActiveContainer_ControlBehavior : typ := Model (str "LogisticActiveContainer.Format.ControlBehavior") [
  (mkField (str "circuit_condition_enabled") None (Some (VBool false)) false, (Opt (Plain LBool)));
  (mkField (str "circuit_condition") None (Some (VRec (str "Condition") [((str "first_signal"), VNone); ((str "first_signal_networks"), (VRec (str "NetworkSpecification") [((str "red"), (VBool true)); ((str "green"), (VBool true))] [])); ((str "comparator"), (VStr (str "<"))); ((str "constant"), (VInt 0)); ((str "second_signal"), VNone); ((str "second_signal_networks"), (VRec (str "NetworkSpecification") [((str "red"), (VBool true)); ((str "green"), (VBool true))] []))] [])) false, (Opt m_Condition));
  (mkField (str "circuit_mode_of_operation") None (Some VNone) false, (Opt (Plain (LEnum [0; 1; 2]))))].

(** draftsman/prototypes/logistic_active_container.py 24-81 *)
Definition c_LogisticActiveContainer : class_ := mkClass (str "LogisticActiveContainer")
  [(mkField (str "name") None None false, (Plain LStr));
   (mkField (str "quality") None (Some (VStr (str "normal"))) false, (Plain (LLiteral [(str "normal"); (str "uncommon"); (str "rare"); (str "epic"); (str "legendary")])));
   (mkField (str "position") None None false, m_FloatPosition);
   (mkField (str "entity_number") None None true, (Plain (LInt (Some 0) (Some 18446744073709551615))));
   (mkField (str "tags") None (Some (VMap [])) false, (Opt (Plain LDict)));
   (mkField (str "items") None (Some (VSeq [])) false, (Opt (ListOf m_ItemRequest)));
   (mkField (str "bar") None (Some VNone) false, (Opt (Plain (LInt (Some 0) (Some 65535)))));
   (mkField (str "control_behavior") None (Some (VRec (str "LogisticActiveContainer.Format.ControlBehavior") [((str "circuit_condition_enabled"), (VBool false)); ((str "circuit_condition"), (VRec (str "Condition") [((str "first_signal"), VNone); ((str "first_signal_networks"), (VRec (str "NetworkSpecification") [((str "red"), (VBool true)); ((str "green"), (VBool true))] [])); ((str "comparator"), (VStr (str "<"))); ((str "constant"), (VInt 0)); ((str "second_signal"), VNone); ((str "second_signal_networks"), (VRec (str "NetworkSpecification") [((str "red"), (VBool true)); ((str "green"), (VBool true))] []))] [])); ((str "circuit_mode_of_operation"), VNone)] [])) false, (Opt m_LogisticActiveContainer_ControlBehavior))]
  [((str "name"), VNone); ((str "position"), VNone); ((str "tile_position"), (VSeq [(VInt 0); (VInt 0)])); ((str "bar"), VNone); ((str "items"), (VSeq [])); ((str "tags"), (VMap [])); ((str "validate_assignment"), (VStr (str "strict"))); ((str "id"), VNone); ((str "similar_entities"), VNone); ((str "validate"), VNone)]
  [Pass (str "name") None; Pass (str "position") None; Pass (str "bar") None; Pass (str "items") None; Pass (str "tags") None]
  [Store (str "name") (Kwarg [(str "name")] VNone) None;
   Store (str "quality") (Kwarg [(str "quality")] (VStr (str "normal"))) None;
   Store (str "tags") (Kwarg [(str "tags")] (VMap [])) None;
   Store (str "items") (Kwarg [(str "items")] (VMap [])) (Some (VSeq []));
   Store (str "bar") (Kwarg [(str "bar")] VNone) None]
  true.

(** draftsman/prototypes/logistic_buffer_container.py 53-58 *)
Definition m_LogisticBufferContainer_ControlBehavior : typ := Model (str "LogisticBufferContainer.Format.ControlBehavior") [
  (mkField (str "circuit_condition_enabled") None (Some (VBool false)) false, (Opt (Plain LBool)));
  (mkField (str "circuit_condition") None (Some (VRec (str "Condition") [((str "first_signal"), VNone); ((str "first_signal_networks"), (VRec (str "NetworkSpecification") [((str "red"), (VBool true)); ((str "green"), (VBool true))] [])); ((str "comparator"), (VStr (str "<"))); ((str "constant"), (VInt 0)); ((str "second_signal"), VNone); ((str "second_signal_networks"), (VRec (str "NetworkSpecification") [((str "red"), (VBool true)); ((str "green"), (VBool true))] []))] [])) false, (Opt m_Condition));
  (mkField (str "circuit_mode_of_operation") None (Some VNone) false, (Opt (Plain (LEnum [0; 1; 2]))))].

(** draftsman/prototypes/logistic_buffer_container.py 29-96 *)
Definition c_LogisticBufferContainer : class_ := mkClass (str "LogisticBufferContainer")
  [(mkField (str "name") None None false, (Plain LStr));
   (mkField (str "quality") None (Some (VStr (str "normal"))) false, (Plain (LLiteral [(str "normal"); (str "uncommon"); (str "rare"); (str "epic"); (str "legendary")])));
   (mkField (str "position") None None false, m_FloatPosition);
   (mkField (str "entity_number") None None true, (Plain (LInt (Some 0) (Some 18446744073709551615))));
   (mkField (str "tags") None (Some (VMap [])) false, (Opt (Plain LDict)));
   (mkField (str "request_filters") None (Some (VRec (str "RequestFiltersMixin.Format.RequestFilters") [((str "sections"), (VSeq [])); ((str "trash_not_requested"), (VBool false)); ((str "request_from_buffers"), (VBool true)); ((str "enabled"), (VBool true))] [])) false, (Opt m_RequestFiltersMixin_RequestFilters));
   (mkField (str "items") None (Some (VSeq [])) false, (Opt (ListOf m_ItemRequest)));
   (mkField (str "bar") None (Some VNone) false, (Opt (Plain (LInt (Some 0) (Some 65535)))));
   (mkField (str "control_behavior") None (Some (VRec (str "LogisticBufferContainer.Format.ControlBehavior") [((str "circuit_condition_enabled"), (VBool false)); ((str "circuit_condition"), (VRec (str "Condition") [((str "first_signal"), VNone); ((str "first_signal_networks"), (VRec (str "NetworkSpecification") [((str "red"), (VBool true)); ((str "green"), (VBool true))] [])); ((str "comparator"), (VStr (str "<"))); ((str "constant"), (VInt 0)); ((str "second_signal"), VNone); ((str "second_signal_networks"), (VRec (str "NetworkSpecification") [((str "red"), (VBool true)); ((str "green"), (VBool true))] []))] [])); ((str "circuit_mode_of_operation"), VNone)] [])) false, (Opt m_LogisticBufferContainer_ControlBehavior))]
  [((str "name"), VNone); ((str "position"), VNone); ((str "tile_position"), (VSeq [(VInt 0); (VInt 0)])); ((str "bar"), VNone); ((str "request_filters"), (VMap [])); ((str "items"), (VSeq [])); ((str "control_behavior"), (VMap [])); ((str "tags"), (VMap [])); ((str "validate_assignment"), (VStr (str "strict"))); ((str "id"), VNone); ((str "similar_entities"), VNone); ((str "validate"), VNone)]
  [Pass (str "name") None; Pass (str "position") None; Pass (str "bar") None; Pass (str "request_filters") None; Pass (str "items") None; Pass (str "control_behavior") None; Pass (str "tags") None]
  [Store (str "name") (Kwarg [(str "name")] VNone) None;
   Store (str "quality") (Kwarg [(str "quality")] (VStr (str "normal"))) None;
   Store (str "tags") (Kwarg [(str "tags")] (VMap [])) None;
   Store (str "request_filters") (Kwarg [(str "request_filters")] VNone) None;
   Store (str "items") (Kwarg [(str "items")] (VMap [])) (Some (VSeq []));
   Store (str "bar") (Kwarg [(str "bar")] VNone) None]
  true.

(** draftsman/prototypes/logistic_passive_container.py 47-51 *)
Definition m_LogisticPassiveContainer_ControlBehavior : typ := Model (str "LogisticPassiveContainer.Format.ControlBehavior") [
  (mkField (str "circuit_condition_enabled") None (Some (VBool false)) false, (Opt (Plain LBool)));
  (mkField (str "circuit_condition") None (Some (VRec (str "Condition") [((str "first_signal"), VNone); ((str "first_signal_networks"), (VRec (str "NetworkSpecification") [((str "red"), (VBool true)); ((str "green"), (VBool true))] [])); ((str "comparator"), (VStr (str "<"))); ((str "constant"), (VInt 0)); ((str "second_signal"), VNone); ((str "second_signal_networks"), (VRec (str "NetworkSpecification") [((str "red"), (VBool true)); ((str "green"), (VBool true))] []))] [])) false, (Opt m_Condition));
  (mkField (str "circuit_mode_of_operation") None (Some VNone) false, (Opt (Plain (LEnum [0; 1; 2]))))].

(** draftsman/prototypes/logistic_passive_container.py 24-83 *)
Definition c_LogisticPassiveContainer : class_ := mkClass (str "LogisticPassiveContainer")
  [(mkField (str "name") None None false, (Plain LStr));
   (mkField (str "quality") None (Some (VStr (str "normal"))) false, (Plain (LLiteral [(str "normal"); (str "uncommon"); (str "rare"); (str "epic"); (str "legendary")])));
   (mkField (str "position") None None false, m_FloatPosition);
   (mkField (str "entity_number") None None true, (Plain (LInt (Some 0) (Some 18446744073709551615))));
   (mkField (str "tags") None (Some (VMap [])) false, (Opt (Plain LDict)));
   (mkField (str "items") None (Some (VSeq [])) false, (Opt (ListOf m_ItemRequest)));
   (mkField (str "bar") None (Some VNone) false, (Opt (Plain (LInt (Some 0) (Some 65535)))));
   (mkField (str "control_behavior") None (Some (VRec (str "LogisticPassiveContainer.Format.ControlBehavior") [((str "circuit_condition_enabled"), (VBool false)); ((str "circuit_condition"), (VRec (str "Condition") [((str "first_signal"), VNone); ((str "first_signal_networks"), (VRec (str "NetworkSpecification") [((str "red"), (VBool true)); ((str "green"), (VBool true))] [])); ((str "comparator"), (VStr (str "<"))); ((str "constant"), (VInt 0)); ((str "second_signal"), VNone); ((str "second_signal_networks"), (VRec (str "NetworkSpecification") [((str "red"), (VBool true)); ((str "green"), (VBool true))] []))] [])); ((str "circuit_mode_of_operation"), VNone)] [])) false, (Opt m_LogisticPassiveContainer_ControlBehavior))]
  [((str "name"), VNone); ((str "position"), VNone); ((str "tile_position"), (VSeq [(VInt 0); (VInt 0)])); ((str "bar"), VNone); ((str "items"), (VSeq [])); ((str "control_behavior"), (VMap [])); ((str "tags"), (VMap [])); ((str "validate_assignment"), (VStr (str "strict"))); ((str "id"), VNone); ((str "similar_entities"), VNone); ((str "validate"), VNone)]
  [Pass (str "name") None; Pass (str "position") None; Pass (str "bar") None; Pass (str "items") None; Pass (str "control_behavior") None; Pass (str "tags") None]
  [Store (str "name") (Kwarg [(str "name")] VNone) None;
   Store (str "quality") (Kwarg [(str "quality")] (VStr (str "normal"))) None;
   Store (str "tags") (Kwarg [(str "tags")] (VMap [])) None;
   Store (str "items") (Kwarg [(str "items")] (VMap [])) (Some (VSeq []));
   Store (str "bar") (Kwarg [(str "bar")] VNone) None]
  true.

(** draftsman/prototypes/logistic_request_container.py 64-70 *)
Definition m_LogisticRequestContainer_LogisticsRequestFilters : typ := Model (str "LogisticRequestContainer.Format.LogisticsRequestFilters") [
  (mkField (str "sections") None (Some (VSeq [])) false, (Opt (ListOf m_Section)));
  (mkField (str "trash_not_requested") None (Some (VBool false)) false, (Opt (Plain LBool)));
  (mkField (str "request_from_buffers") None (Some (VBool false)) false, (Opt (Plain LBool)));
  (mkField (str "enabled") None (Some (VBool true)) false, (Opt (Plain LBool)))].

(** draftsman/prototypes/logistic_request_container.py 53-60 *)
Definition m_LogisticRequestContainer_ControlBehavior : typ := Model (str "LogisticRequestContainer.Format.ControlBehavior") [
  (mkField (str "circuit_condition_enabled") None (Some (VBool false)) false, (Opt (Plain LBool)));
  (mkField (str "circuit_condition") None (Some (VRec (str "Condition") [((str "first_signal"), VNone); ((str "first_signal_networks"), (VRec (str "NetworkSpecification") [((str "red"), (VBool true)); ((str "green"), (VBool true))] [])); ((str "comparator"), (VStr (str "<"))); ((str "constant"), (VInt 0)); ((str "second_signal"), VNone); ((str "second_signal_networks"), (VRec (str "NetworkSpecification") [((str "red"), (VBool true)); ((str "green"), (VBool true))] []))] [])) false, (Opt m_Condition));
  (mkField (str "circuit_mode_of_operation") None (Some VNone) false, (Opt (Plain (LEnum [0; 1; 2]))))].

(** draftsman/prototypes/logistic_request_container.py 29-106 *)
Definition c_LogisticRequestContainer : class_ := mkClass (str "LogisticRequestContainer")
  [(mkField (str "name") None None false, (Plain LStr));
   (mkField (str "quality") None (Some (VStr (str "normal"))) false, (Plain (LLiteral [(str "normal"); (str "uncommon"); (str "rare"); (str "epic"); (str "legendary")])));
   (mkField (str "position") None None false, m_FloatPosition);
   (mkField (str "entity_number") None None true, (Plain (LInt (Some 0) (Some 18446744073709551615))));
   (mkField (str "tags") None (Some (VMap [])) false, (Opt (Plain LDict)));
   (mkField (str "request_filters") None (Some (VRec (str "LogisticRequestContainer.Format.LogisticsRequestFilters") [((str "sections"), (VSeq [])); ((str "trash_not_requested"), (VBool false)); ((str "request_from_buffers"), (VBool false)); ((str "enabled"), (VBool true))] [])) false, (Opt m_LogisticRequestContainer_LogisticsRequestFilters));
   (mkField (str "items") None (Some (VSeq [])) false, (Opt (ListOf m_ItemRequest)));
   (mkField (str "bar") None (Some VNone) false, (Opt (Plain (LInt (Some 0) (Some 65535)))));
   (mkField (str "control_behavior") None (Some (VRec (str "LogisticRequestContainer.Format.ControlBehavior") [((str "circuit_condition_enabled"), (VBool false)); ((str "circuit_condition"), (VRec (str "Condition") [((str "first_signal"), VNone); ((str "first_signal_networks"), (VRec (str "NetworkSpecification") [((str "red"), (VBool true)); ((str "green"), (VBool true))] [])); ((str "comparator"), (VStr (str "<"))); ((str "constant"), (VInt 0)); ((str "second_signal"), VNone); ((str "second_signal_networks"), (VRec (str "NetworkSpecification") [((str "red"), (VBool true)); ((str "green"), (VBool true))] []))] [])); ((str "circuit_mode_of_operation"), VNone)] [])) false, (Opt m_LogisticRequestContainer_ControlBehavior))]
  [((str "name"), VNone); ((str "position"), VNone); ((str "tile_position"), (VSeq [(VInt 0); (VInt 0)])); ((str "bar"), VNone); ((str "request_filters"), (VMap [])); ((str "items"), (VSeq [])); ((str "control_behavior"), (VMap [])); ((str "tags"), (VMap [])); ((str "validate_assignment"), (VStr (str "strict"))); ((str "id"), VNone); ((str "similar_entities"), VNone); ((str "validate"), VNone)]
  [Pass (str "name") None; Pass (str "position") None; Pass (str "bar") None; Pass (str "request_filters") None; Pass (str "items") None; Pass (str "control_behavior") None; Pass (str "tags") None]
  [Store (str "name") (Kwarg [(str "name")] VNone) None;
   Store (str "quality") (Kwarg [(str "quality")] (VStr (str "normal"))) None;
   Store (str "tags") (Kwarg [(str "tags")] (VMap [])) None;
   Store (str "request_filters") (Kwarg [(str "request_filters")] VNone) None;
   Store (str "items") (Kwarg [(str "items")] (VMap [])) (Some (VSeq []));
   Store (str "bar") (Kwarg [(str "bar")] VNone) None]
  true.

(** draftsman/prototypes/logistic_storage_container.py 49-53 *)
Definition m_LogisticStorageContainer_ControlBehavior : typ := Model (str "LogisticStorageContainer.Format.ControlBehavior") [
  (mkField (str "circuit_condition_enabled") None (Some (VBool false)) false, (Opt (Plain LBool)));
  (mkField (str "circuit_condition") None (Some (VRec (str "Condition") [((str "first_signal"), VNone); ((str "first_signal_networks"), (VRec (str "NetworkSpecification") [((str "red"), (VBool true)); ((str "green"), (VBool true))] [])); ((str "comparator"), (VStr (str "<"))); ((str "constant"), (VInt 0)); ((str "second_signal"), VNone); ((str "second_signal_networks"), (VRec (str "NetworkSpecification") [((str "red"), (VBool true)); ((str "green"), (VBool true))] []))] [])) false, (Opt m_Condition));
  (mkField (str "circuit_mode_of_operation") None (Some VNone) false, (Opt (Plain (LEnum [0; 1; 2]))))].

(** draftsman/prototypes/logistic_storage_container.py 24-91 *)
Definition c_LogisticStorageContainer : class_ := mkClass (str "LogisticStorageContainer")
  [(mkField (str "name") None None false, (Plain LStr));
   (mkField (str "quality") None (Some (VStr (str "normal"))) false, (Plain (LLiteral [(str "normal"); (str "uncommon"); (str "rare"); (str "epic"); (str "legendary")])));
   (mkField (str "position") None None false, m_FloatPosition);
   (mkField (str "entity_number") None None true, (Plain (LInt (Some 0) (Some 18446744073709551615))));
   (mkField (str "tags") None (Some (VMap [])) false, (Opt (Plain LDict)));
   (mkField (str "request_filters") None (Some (VRec (str "RequestFiltersMixin.Format.RequestFilters") [((str "sections"), (VSeq [])); ((str "trash_not_requested"), (VBool false)); ((str "request_from_buffers"), (VBool true)); ((str "enabled"), (VBool true))] [])) false, (Opt m_RequestFiltersMixin_RequestFilters));
   (mkField (str "items") None (Some (VSeq [])) false, (Opt (ListOf m_ItemRequest)));
   (mkField (str "bar") None (Some VNone) false, (Opt (Plain (LInt (Some 0) (Some 65535)))));
   (mkField (str "control_behavior") None (Some (VRec (str "LogisticStorageContainer.Format.ControlBehavior") [((str "circuit_condition_enabled"), (VBool false)); ((str "circuit_condition"), (VRec (str "Condition") [((str "first_signal"), VNone); ((str "first_signal_networks"), (VRec (str "NetworkSpecification") [((str "red"), (VBool true)); ((str "green"), (VBool true))] [])); ((str "comparator"), (VStr (str "<"))); ((str "constant"), (VInt 0)); ((str "second_signal"), VNone); ((str "second_signal_networks"), (VRec (str "NetworkSpecification") [((str "red"), (VBool true)); ((str "green"), (VBool true))] []))] [])); ((str "circuit_mode_of_operation"), VNone)] [])) false, (Opt m_LogisticStorageContainer_ControlBehavior))]
  [((str "name"), VNone); ((str "position"), VNone); ((str "tile_position"), (VSeq [(VInt 0); (VInt 0)])); ((str "bar"), VNone); ((str "request_filters"), (VSeq [])); ((str "items"), (VSeq [])); ((str "control_behavior"), (VMap [])); ((str "tags"), (VMap [])); ((str "validate_assignment"), (VStr (str "strict"))); ((str "id"), VNone); ((str "similar_entities"), VNone); ((str "validate"), VNone)]
  [Pass (str "name") None; Pass (str "position") None; Pass (str "bar") None; Pass (str "request_filters") None; Pass (str "items") None; Pass (str "control_behavior") None; Pass (str "tags") None]
  [Store (str "name") (Kwarg [(str "name")] VNone) None;
   Store (str "quality") (Kwarg [(str "quality")] (VStr (str "normal"))) None;
   Store (str "tags") (Kwarg [(str "tags")] (VMap [])) None;
   Store (str "request_filters") (Kwarg [(str "request_filters")] VNone) None;
   Store (str "items") (Kwarg [(str "items")] (VMap [])) (Some (VSeq []));
   Store (str "bar") (Kwarg [(str "bar")] VNone) None]
  true.

(** draftsman/prototypes/mining_drill.py 57-64 *)
Definition m_MiningDrill_ControlBehavior : typ := Model (str "MiningDrill.Format.ControlBehavior") [
  (mkField (str "circuit_enabled") None (Some (VBool false)) false, (Opt (Plain LBool)));
  (mkField (str "connect_to_logistic_network") None (Some (VBool false)) false, (Opt (Plain LBool)));
  (mkField (str "logistic_condition") None (Some (VRec (str "Condition") [((str "first_signal"), VNone); ((str "first_signal_networks"), (VRec (str "NetworkSpecification") [((str "red"), (VBool true)); ((str "green"), (VBool true))] [])); ((str "comparator"), (VStr (str "<"))); ((str "constant"), (VInt 0)); ((str "second_signal"), VNone); ((str "second_signal_networks"), (VRec (str "NetworkSpecification") [((str "red"), (VBool true)); ((str "green"), (VBool true))] []))] [])) false, (Opt m_Condition));
  (mkField (str "circuit_condition_enabled") None (Some (VBool false)) false, (Opt (Plain LBool)));
  (mkField (str "circuit_condition") None (Some (VRec (str "Condition") [((str "first_signal"), VNone); ((str "first_signal_networks"), (VRec (str "NetworkSpecification") [((str "red"), (VBool true)); ((str "green"), (VBool true))] [])); ((str "comparator"), (VStr (str "<"))); ((str "constant"), (VInt 0)); ((str "second_signal"), VNone); ((str "second_signal_networks"), (VRec (str "NetworkSpecification") [((str "red"), (VBool true)); ((str "green"), (VBool true))] []))] [])) false, (Opt m_Condition));
  (mkField (str "circuit_read_resources") None (Some VNone) false, (Opt (Plain LBool)));
  (mkField (str "circuit_resource_read_mode") None (Some VNone) false, (Opt (Plain (LEnum [0; 1]))))].

(** draftsman/prototypes/mining_drill.py 27-100 *)
Definition c_MiningDrill : class_ := mkClass (str "MiningDrill")
  [(mkField (str "name") None None false, (Plain LStr));
   (mkField (str "quality") None (Some (VStr (str "normal"))) false, (Plain (LLiteral [(str "normal"); (str "uncommon"); (str "rare"); (str "epic"); (str "legendary")])));
   (mkField (str "position") None None false, m_FloatPosition);
   (mkField (str "entity_number") None None true, (Plain (LInt (Some 0) (Some 18446744073709551615))));
   (mkField (str "tags") None (Some (VMap [])) false, (Opt (Plain LDict)));
   (mkField (str "direction") None (Some (VInt 0)) false, (Opt (Plain (LEnum [0; 1; 2; 3; 4; 5; 6; 7; 8; 9; 10; 11; 12; 13; 14; 15]))));
   (mkField (str "items") None (Some (VSeq [])) false, (Opt (ListOf m_ItemRequest)));
   (mkField (str "control_behavior") None (Some (VRec (str "MiningDrill.Format.ControlBehavior") [((str "circuit_enabled"), (VBool false)); ((str "connect_to_logistic_network"), (VBool false)); ((str "logistic_condition"), (VRec (str "Condition") [((str "first_signal"), VNone); ((str "first_signal_networks"), (VRec (str "NetworkSpecification") [((str "red"), (VBool true)); ((str "green"), (VBool true))] [])); ((str "comparator"), (VStr (str "<"))); ((str "constant"), (VInt 0)); ((str "second_signal"), VNone); ((str "second_signal_networks"), (VRec (str "NetworkSpecification") [((str "red"), (VBool true)); ((str "green"), (VBool true))] []))] [])); ((str "circuit_condition_enabled"), (VBool false)); ((str "circuit_condition"), (VRec (str "Condition") [((str "first_signal"), VNone); ((str "first_signal_networks"), (VRec (str "NetworkSpecification") [((str "red"), (VBool true)); ((str "green"), (VBool true))] [])); ((str "comparator"), (VStr (str "<"))); ((str "constant"), (VInt 0)); ((str "second_signal"), VNone); ((str "second_signal_networks"), (VRec (str "NetworkSpecification") [((str "red"), (VBool true)); ((str "green"), (VBool true))] []))] [])); ((str "circuit_read_resources"), VNone); ((str "circuit_resource_read_mode"), VNone)] [])) false, (Opt m_MiningDrill_ControlBehavior))]
  [((str "name"), VNone); ((str "position"), VNone); ((str "tile_position"), (VSeq [(VInt 0); (VInt 0)])); ((str "direction"), (VInt 0)); ((str "items"), (VSeq [])); ((str "control_behavior"), (VMap [])); ((str "tags"), (VMap [])); ((str "validate_assignment"), (VStr (str "strict"))); ((str "id"), VNone); ((str "similar_entities"), VNone); ((str "validate"), VNone)]
  [Pass (str "name") None; Pass (str "position") None; Pass (str "direction") None; Pass (str "items") None; Pass (str "control_behavior") None; Pass (str "tags") None]
  [Store (str "name") (Kwarg [(str "name")] VNone) None;
   Store (str "quality") (Kwarg [(str "quality")] (VStr (str "normal"))) None;
   Store (str "tags") (Kwarg [(str "tags")] (VMap [])) None;
   Store (str "direction") (Kwarg [(str "direction")] (VInt 0)) None;
   Store (str "items") (Kwarg [(str "items")] (VMap [])) (Some (VSeq []))]
  true.

(** draftsman/prototypes/offshore_pump.py 42-47 *)
Definition m_OffshorePump_ControlBehavior : typ := Model (str "OffshorePump.Format.ControlBehavior") [
  (mkField (str "connect_to_logistic_network") None (Some (VBool false)) false, (Opt (Plain LBool)));
  (mkField (str "logistic_condition") None (Some (VRec (str "Condition") [((str "first_signal"), VNone); ((str "first_signal_networks"), (VRec (str "NetworkSpecification") [((str "red"), (VBool true)); ((str "green"), (VBool true))] [])); ((str "comparator"), (VStr (str "<"))); ((str "constant"), (VInt 0)); ((str "second_signal"), VNone); ((str "second_signal_networks"), (VRec (str "NetworkSpecification") [((str "red"), (VBool true)); ((str "green"), (VBool true))] []))] [])) false, (Opt m_Condition));
  (mkField (str "circuit_condition_enabled") None (Some (VBool false)) false, (Opt (Plain LBool)));
  (mkField (str "circuit_condition") None (Some (VRec (str "Condition") [((str "first_signal"), VNone); ((str "first_signal_networks"), (VRec (str "NetworkSpecification") [((str "red"), (VBool true)); ((str "green"), (VBool true))] [])); ((str "comparator"), (VStr (str "<"))); ((str "constant"), (VInt 0)); ((str "second_signal"), VNone); ((str "second_signal_networks"), (VRec (str "NetworkSpecification") [((str "red"), (VBool true)); ((str "green"), (VBool true))] []))] [])) false, (Opt m_Condition))].

(** draftsman/prototypes/offshore_pump.py 22-83 *)
Definition c_OffshorePump : class_ := mkClass (str "OffshorePump")
  [(mkField (str "name") None None false, (Plain LStr));
   (mkField (str "quality") None (Some (VStr (str "normal"))) false, (Plain (LLiteral [(str "normal"); (str "uncommon"); (str "rare"); (str "epic"); (str "legendary")])));
   (mkField (str "position") None None false, m_FloatPosition);
   (mkField (str "entity_number") None None true, (Plain (LInt (Some 0) (Some 18446744073709551615))));
   (mkField (str "tags") None (Some (VMap [])) false, (Opt (Plain LDict)));
   (mkField (str "direction") None (Some (VInt 0)) false, (Opt (Plain (LEnum [0; 1; 2; 3; 4; 5; 6; 7; 8; 9; 10; 11; 12; 13; 14; 15]))));
   (mkField (str "control_behavior") None (Some (VRec (str "OffshorePump.Format.ControlBehavior") [((str "connect_to_logistic_network"), (VBool false)); ((str "logistic_condition"), (VRec (str "Condition") [((str "first_signal"), VNone); ((str "first_signal_networks"), (VRec (str "NetworkSpecification") [((str "red"), (VBool true)); ((str "green"), (VBool true))] [])); ((str "comparator"), (VStr (str "<"))); ((str "constant"), (VInt 0)); ((str "second_signal"), VNone); ((str "second_signal_networks"), (VRec (str "NetworkSpecification") [((str "red"), (VBool true)); ((str "green"), (VBool true))] []))] [])); ((str "circuit_condition_enabled"), (VBool false)); ((str "circuit_condition"), (VRec (str "Condition") [((str "first_signal"), VNone); ((str "first_signal_networks"), (VRec (str "NetworkSpecification") [((str "red"), (VBool true)); ((str "green"), (VBool true))] [])); ((str "comparator"), (VStr (str "<"))); ((str "constant"), (VInt 0)); ((str "second_signal"), VNone); ((str "second_signal_networks"), (VRec (str "NetworkSpecification") [((str "red"), (VBool true)); ((str "green"), (VBool true))] []))] []))] [])) false, (Opt m_OffshorePump_ControlBehavior))]
  [((str "name"), VNone); ((str "position"), VNone); ((str "tile_position"), (VSeq [(VInt 0); (VInt 0)])); ((str "direction"), (VInt 0)); ((str "control_behavior"), (VMap [])); ((str "tags"), (VMap [])); ((str "validate_assignment"), (VStr (str "strict"))); ((str "id"), VNone); ((str "similar_entities"), VNone); ((str "validate"), VNone)]
  [Pass (str "name") None; Pass (str "position") None; Pass (str "direction") None; Pass (str "control_behavior") None; Pass (str "tags") None]
  [Store (str "name") (Kwarg [(str "name")] VNone) None;
   Store (str "quality") (Kwarg [(str "quality")] (VStr (str "normal"))) None;
   Store (str "tags") (Kwarg [(str "tags")] (VMap [])) None;
   Store (str "direction") (Kwarg [(str "direction")] (VInt 0)) None]
  true.

(** draftsman/prototypes/pipe.py 14-46 *)
Definition c_Pipe : class_ := mkClass (str "Pipe")
  [(mkField (str "name") None None false, (Plain LStr));
   (mkField (str "quality") None (Some (VStr (str "normal"))) false, (Plain (LLiteral [(str "normal"); (str "uncommon"); (str "rare"); (str "epic"); (str "legendary")])));
   (mkField (str "position") None None false, m_FloatPosition);
   (mkField (str "entity_number") None None true, (Plain (LInt (Some 0) (Some 18446744073709551615))));
   (mkField (str "tags") None (Some (VMap [])) false, (Opt (Plain LDict)))]
  [((str "name"), VNone); ((str "position"), VNone); ((str "tile_position"), (VSeq [(VInt 0); (VInt 0)])); ((str "tags"), (VMap [])); ((str "validate_assignment"), (VStr (str "strict"))); ((str "id"), VNone); ((str "similar_entities"), VNone); ((str "validate"), VNone)]
  [Pass (str "name") None; Pass (str "position") None; Pass (str "tags") None]
  [Store (str "name") (Kwarg [(str "name")] VNone) None;
   Store (str "quality") (Kwarg [(str "quality")] (VStr (str "normal"))) None;
   Store (str "tags") (Kwarg [(str "tags")] (VMap [])) None]
  false.

(** draftsman/prototypes/player_port.py 14-46 *)
Definition c_PlayerPort : class_ := mkClass (str "PlayerPort")
  [(mkField (str "name") None None false, (Plain LStr));
   (mkField (str "quality") None (Some (VStr (str "normal"))) false, (Plain (LLiteral [(str "normal"); (str "uncommon"); (str "rare"); (str "epic"); (str "legendary")])));
   (mkField (str "position") None None false, m_FloatPosition);
   (mkField (str "entity_number") None None true, (Plain (LInt (Some 0) (Some 18446744073709551615))));
   (mkField (str "tags") None (Some (VMap [])) false, (Opt (Plain LDict)))]
  [((str "name"), VNone); ((str "position"), VNone); ((str "tile_position"), (VSeq [(VInt 0); (VInt 0)])); ((str "tags"), (VMap [])); ((str "validate_assignment"), (VStr (str "strict"))); ((str "id"), VNone); ((str "similar_entities"), VNone); ((str "validate"), VNone)]
  [Pass (str "name") None; Pass (str "position") None; Pass (str "tags") None]
  [Store (str "name") (Kwarg [(str "name")] VNone) None;
   Store (str "quality") (Kwarg [(str "quality")] (VStr (str "normal"))) None;
   Store (str "tags") (Kwarg [(str "tags")] (VMap [])) None]
  false.

(** draftsman/prototypes/power_switch.py 46-51 *)
Definition m_PowerSwitch_ControlBehavior : typ := Model (str "PowerSwitch.Format.ControlBehavior") [
  (mkField (str "connect_to_logistic_network") None (Some (VBool false)) false, (Opt (Plain LBool)));
  (mkField (str "logistic_condition") None (Some (VRec (str "Condition") [((str "first_signal"), VNone); ((str "first_signal_networks"), (VRec (str "NetworkSpecification") [((str "red"), (VBool true)); ((str "green"), (VBool true))] [])); ((str "comparator"), (VStr (str "<"))); ((str "constant"), (VInt 0)); ((str "second_signal"), VNone); ((str "second_signal_networks"), (VRec (str "NetworkSpecification") [((str "red"), (VBool true)); ((str "green"), (VBool true))] []))] [])) false, (Opt m_Condition));
  (mkField (str "circuit_condition_enabled") None (Some (VBool false)) false, (Opt (Plain LBool)));
  (mkField (str "circuit_condition") None (Some (VRec (str "Condition") [((str "first_signal"), VNone); ((str "first_signal_networks"), (VRec (str "NetworkSpecification") [((str "red"), (VBool true)); ((str "green"), (VBool true))] [])); ((str "comparator"), (VStr (str "<"))); ((str "constant"), (VInt 0)); ((str "second_signal"), VNone); ((str "second_signal_networks"), (VRec (str "NetworkSpecification") [((str "red"), (VBool true)); ((str "green"), (VBool true))] []))] [])) false, (Opt m_Condition))].

(** draftsman/prototypes/power_switch.py 25-90 *)
Definition c_PowerSwitch : class_ := mkClass (str "PowerSwitch")
  [(mkField (str "name") None None false, (Plain LStr));
   (mkField (str "quality") None (Some (VStr (str "normal"))) false, (Plain (LLiteral [(str "normal"); (str "uncommon"); (str "rare"); (str "epic"); (str "legendary")])));
   (mkField (str "position") None None false, m_FloatPosition);
   (mkField (str "entity_number") None None true, (Plain (LInt (Some 0) (Some 18446744073709551615))));
   (mkField (str "tags") None (Some (VMap [])) false, (Opt (Plain LDict)));
   (mkField (str "control_behavior") None (Some (VRec (str "PowerSwitch.Format.ControlBehavior") [((str "connect_to_logistic_network"), (VBool false)); ((str "logistic_condition"), (VRec (str "Condition") [((str "first_signal"), VNone); ((str "first_signal_networks"), (VRec (str "NetworkSpecification") [((str "red"), (VBool true)); ((str "green"), (VBool true))] [])); ((str "comparator"), (VStr (str "<"))); ((str "constant"), (VInt 0)); ((str "second_signal"), VNone); ((str "second_signal_networks"), (VRec (str "NetworkSpecification") [((str "red"), (VBool true)); ((str "green"), (VBool true))] []))] [])); ((str "circuit_condition_enabled"), (VBool false)); ((str "circuit_condition"), (VRec (str "Condition") [((str "first_signal"), VNone); ((str "first_signal_networks"), (VRec (str "NetworkSpecification") [((str "red"), (VBool true)); ((str "green"), (VBool true))] [])); ((str "comparator"), (VStr (str "<"))); ((str "constant"), (VInt 0)); ((str "second_signal"), VNone); ((str "second_signal_networks"), (VRec (str "NetworkSpecification") [((str "red"), (VBool true)); ((str "green"), (VBool true))] []))] []))] [])) false, (Opt m_PowerSwitch_ControlBehavior));
   (mkField (str "switch_state") None (Some (VBool false)) false, (Opt (Plain LBool)))]
  [((str "name"), VNone); ((str "position"), VNone); ((str "tile_position"), (VSeq [(VInt 0); (VInt 0)])); ((str "control_behavior"), (VMap [])); ((str "switch_state"), (VBool false)); ((str "tags"), (VMap [])); ((str "validate_assignment"), (VStr (str "strict"))); ((str "id"), VNone); ((str "similar_entities"), VNone); ((str "validate"), VNone)]
  [Pass (str "name") None; Pass (str "position") None; Pass (str "control_behavior") None; Pass (str "tags") None]
  [Store (str "name") (Kwarg [(str "name")] VNone) None;
   Store (str "quality") (Kwarg [(str "quality")] (VStr (str "normal"))) None;
   Store (str "tags") (Kwarg [(str "tags")] (VMap [])) None;
   Store (str "switch_state") (Param (str "switch_state")) None]
  true.

(** draftsman/prototypes/programmable_speaker.py 57-240 *)
Definition m_ProgrammableSpeaker_ControlBehavior_CircuitParameters : typ := Model (str "ProgrammableSpeaker.Format.ControlBehavior.CircuitParameters") [
  (mkField (str "signal_value_is_pitch") None (Some (VBool false)) false, (Opt (Plain LBool)));
  (mkField (str "instrument_id") None (Some (VInt 0)) false, (Opt (Plain (LInt (Some 0) (Some 4294967295)))));
  (mkField (str "instrument_name") None (Some VNone) true, (Opt (Plain LStr)));
  (mkField (str "note_id") None (Some (VInt 0)) false, (Opt (Plain (LInt (Some 0) (Some 4294967295)))));
  (mkField (str "note_name") None (Some VNone) true, (Opt (Plain LStr)))].

(** draftsman/prototypes/programmable_speaker.py 52-242 *)
Definition m_ProgrammableSpeaker_ControlBehavior : typ := Model (str "ProgrammableSpeaker.Format.ControlBehavior") [
  (mkField (str "circuit_enabled") None (Some (VBool false)) false, (Opt (Plain LBool)));
  (mkField (str "circuit_condition_enabled") None (Some (VBool false)) false, (Opt (Plain LBool)));
  (mkField (str "circuit_condition") None (Some (VRec (str "Condition") [((str "first_signal"), VNone); ((str "first_signal_networks"), (VRec (str "NetworkSpecification") [((str "red"), (VBool true)); ((str "green"), (VBool true))] [])); ((str "comparator"), (VStr (str "<"))); ((str "constant"), (VInt 0)); ((str "second_signal"), VNone); ((str "second_signal_networks"), (VRec (str "NetworkSpecification") [((str "red"), (VBool true)); ((str "green"), (VBool true))] []))] [])) false, (Opt m_Condition));
  (mkField (str "circuit_parameters") None (Some (VRec (str "ProgrammableSpeaker.Format.ControlBehavior.CircuitParameters") [((str "signal_value_is_pitch"), (VBool false)); ((str "instrument_id"), (VInt 0)); ((str "instrument_name"), VNone); ((str "note_id"), (VInt 0)); ((str "note_name"), VNone)] [])) false, (Opt m_ProgrammableSpeaker_ControlBehavior_CircuitParameters))].

(** draftsman/prototypes/programmable_speaker.py 246-291 *)
Definition m_ProgrammableSpeaker_Parameters : typ := Model (str "ProgrammableSpeaker.Format.Parameters") [
  (mkField (str "playback_volume") None (Some (VFloat (1 # 1))) false, (Opt (Plain (LFloat None None))));
  (mkField (str "playback_globally") None (Some (VBool false)) false, (Opt (Plain LBool)));
  (mkField (str "allow_polyphony") None (Some (VBool false)) false, (Opt (Plain LBool)))].

(** draftsman/prototypes/programmable_speaker.py 295-327 *)
Definition m_ProgrammableSpeaker_AlertParameters : typ := Model (str "ProgrammableSpeaker.Format.AlertParameters") [
  (mkField (str "show_alert") None (Some (VBool false)) false, (Opt (Plain LBool)));
  (mkField (str "show_on_map") None (Some (VBool true)) false, (Opt (Plain LBool)));
  (mkField (str "icon_signal_id") None (Some VNone) false, (Opt m_SignalID));
  (mkField (str "alert_message") None (Some VNone) false, (Opt (Plain LStr)))].

(** draftsman/prototypes/programmable_speaker.py 33-375 *)
Definition c_ProgrammableSpeaker : class_ := mkClass (str "ProgrammableSpeaker")
  [(mkField (str "name") None None false, (Plain LStr));
   (mkField (str "quality") None (Some (VStr (str "normal"))) false, (Plain (LLiteral [(str "normal"); (str "uncommon"); (str "rare"); (str "epic"); (str "legendary")])));
   (mkField (str "position") None None false, m_FloatPosition);
   (mkField (str "entity_number") None None true, (Plain (LInt (Some 0) (Some 18446744073709551615))));
   (mkField (str "tags") None (Some (VMap [])) false, (Opt (Plain LDict)));
   (mkField (str "control_behavior") None (Some (VRec (str "ProgrammableSpeaker.Format.ControlBehavior") [((str "circuit_enabled"), (VBool false)); ((str "circuit_condition_enabled"), (VBool false)); ((str "circuit_condition"), (VRec (str "Condition") [((str "first_signal"), VNone); ((str "first_signal_networks"), (VRec (str "NetworkSpecification") [((str "red"), (VBool true)); ((str "green"), (VBool true))] [])); ((str "comparator"), (VStr (str "<"))); ((str "constant"), (VInt 0)); ((str "second_signal"), VNone); ((str "second_signal_networks"), (VRec (str "NetworkSpecification") [((str "red"), (VBool true)); ((str "green"), (VBool true))] []))] [])); ((str "circuit_parameters"), (VRec (str "ProgrammableSpeaker.Format.ControlBehavior.CircuitParameters") [((str "signal_value_is_pitch"), (VBool false)); ((str "instrument_id"), (VInt 0)); ((str "instrument_name"), VNone); ((str "note_id"), (VInt 0)); ((str "note_name"), VNone)] []))] [])) false, (Opt m_ProgrammableSpeaker_ControlBehavior));
   (mkField (str "parameters") None (Some (VRec (str "ProgrammableSpeaker.Format.Parameters") [((str "playback_volume"), (VFloat (1 # 1))); ((str "playback_globally"), (VBool false)); ((str "allow_polyphony"), (VBool false))] [])) false, (Opt m_ProgrammableSpeaker_Parameters));
   (mkField (str "alert_parameters") None (Some (VRec (str "ProgrammableSpeaker.Format.AlertParameters") [((str "show_alert"), (VBool false)); ((str "show_on_map"), (VBool true)); ((str "icon_signal_id"), VNone); ((str "alert_message"), VNone)] [])) false, (Opt m_ProgrammableSpeaker_AlertParameters))]
  [((str "name"), VNone); ((str "position"), VNone); ((str "tile_position"), (VSeq [(VInt 0); (VInt 0)])); ((str "control_behavior"), (VMap [])); ((str "parameters"), (VMap [])); ((str "alert_parameters"), (VMap [])); ((str "tags"), (VMap [])); ((str "validate_assignment"), (VStr (str "strict"))); ((str "id"), VNone); ((str "similar_entities"), VNone); ((str "validate"), VNone)]
  [Pass (str "name") None; Pass (str "position") None; Pass (str "control_behavior") None; Pass (str "tags") None]
  [Store (str "name") (Kwarg [(str "name")] VNone) None;
   Store (str "quality") (Kwarg [(str "quality")] (VStr (str "normal"))) None;
   Store (str "tags") (Kwarg [(str "tags")] (VMap [])) None;
   Store (str "parameters") (Param (str "parameters")) None;
   Store (str "alert_parameters") (Param (str "alert_parameters")) None]
  true.

(** draftsman/prototypes/pump.py 39-40 *)
Definition m_Pump_ControlBehavior : typ := Model (str "Pump.Format.ControlBehavior") [
  (mkField (str "circuit_condition_enabled") None (Some (VBool false)) false, (Opt (Plain LBool)));
  (mkField (str "circuit_condition") None (Some (VRec (str "Condition") [((str "first_signal"), VNone); ((str "first_signal_networks"), (VRec (str "NetworkSpecification") [((str "red"), (VBool true)); ((str "green"), (VBool true))] [])); ((str "comparator"), (VStr (str "<"))); ((str "constant"), (VInt 0)); ((str "second_signal"), VNone); ((str "second_signal_networks"), (VRec (str "NetworkSpecification") [((str "red"), (VBool true)); ((str "green"), (VBool true))] []))] [])) false, (Opt m_Condition))].

(** draftsman/prototypes/pump.py 21-68 *)
Definition c_Pump : class_ := mkClass (str "Pump")
  [(mkField (str "name") None None false, (Plain LStr));
   (mkField (str "quality") None (Some (VStr (str "normal"))) false, (Plain (LLiteral [(str "normal"); (str "uncommon"); (str "rare"); (str "epic"); (str "legendary")])));
   (mkField (str "position") None None false, m_FloatPosition);
   (mkField (str "entity_number") None None true, (Plain (LInt (Some 0) (Some 18446744073709551615))));
   (mkField (str "tags") None (Some (VMap [])) false, (Opt (Plain LDict)));
   (mkField (str "direction") None (Some (VInt 0)) false, (Opt (Plain (LEnum [0; 1; 2; 3; 4; 5; 6; 7; 8; 9; 10; 11; 12; 13; 14; 15]))));
   (mkField (str "control_behavior") None (Some (VRec (str "Pump.Format.ControlBehavior") [((str "circuit_condition_enabled"), (VBool false)); ((str "circuit_condition"), (VRec (str "Condition") [((str "first_signal"), VNone); ((str "first_signal_networks"), (VRec (str "NetworkSpecification") [((str "red"), (VBool true)); ((str "green"), (VBool true))] [])); ((str "comparator"), (VStr (str "<"))); ((str "constant"), (VInt 0)); ((str "second_signal"), VNone); ((str "second_signal_networks"), (VRec (str "NetworkSpecification") [((str "red"), (VBool true)); ((str "green"), (VBool true))] []))] []))] [])) false, (Opt m_Pump_ControlBehavior))]
  [((str "name"), VNone); ((str "position"), VNone); ((str "tile_position"), (VSeq [(VInt 0); (VInt 0)])); ((str "direction"), (VInt 0)); ((str "tags"), (VMap [])); ((str "validate_assignment"), (VStr (str "strict"))); ((str "id"), VNone); ((str "similar_entities"), VNone); ((str "validate"), VNone)]
  [Pass (str "name") None; Pass (str "position") None; Pass (str "direction") None; Pass (str "tags") None]
  [Store (str "name") (Kwarg [(str "name")] VNone) None;
   Store (str "quality") (Kwarg [(str "quality")] (VStr (str "normal"))) None;
   Store (str "tags") (Kwarg [(str "tags")] (VMap [])) None;
   Store (str "direction") (Kwarg [(str "direction")] (VInt 0)) None]
  true.

(** draftsman/prototypes/radar.py 15-43 *)
Definition c_Radar : class_ := mkClass (str "Radar")
  [(mkField (str "name") None None false, (Plain LStr));
   (mkField (str "quality") None (Some (VStr (str "normal"))) false, (Plain (LLiteral [(str "normal"); (str "uncommon"); (str "rare"); (str "epic"); (str "legendary")])));
   (mkField (str "position") None None false, m_FloatPosition);
   (mkField (str "entity_number") None None true, (Plain (LInt (Some 0) (Some 18446744073709551615))));
   (mkField (str "tags") None (Some (VMap [])) false, (Opt (Plain LDict)))]
  [((str "name"), VNone); ((str "position"), VNone); ((str "tile_position"), (VSeq [(VInt 0); (VInt 0)])); ((str "tags"), (VMap [])); ((str "validate_assignment"), (VStr (str "strict"))); ((str "id"), VNone); ((str "similar_entities"), VNone); ((str "validate"), VNone)]
  [Pass (str "name") None; Pass (str "position") None; Pass (str "tags") None]
  [Store (str "name") (Kwarg [(str "name")] VNone) None;
   Store (str "quality") (Kwarg [(str "quality")] (VStr (str "normal"))) None;
   Store (str "tags") (Kwarg [(str "tags")] (VMap [])) None]
  false.

(** draftsman/prototypes/rail_chain_signal.py 41-47 *)
Definition m_RailChainSignal_ControlBehavior : typ := Model (str "RailChainSignal.Format.ControlBehavior") [
  (mkField (str "red_output_signal") None (Some (VRec (str "SignalID") [((str "name"), (VStr (str "signal-red"))); ((str "type"), (VStr (str "virtual"))); ((str "quality"), (VStr (str "normal")))] [])) false, (Opt m_SignalID));
  (mkField (str "yellow_output_signal") (Some (str "orange_output_signal")) (Some (VRec (str "SignalID") [((str "name"), (VStr (str "signal-yellow"))); ((str "type"), (VStr (str "virtual"))); ((str "quality"), (VStr (str "normal")))] [])) false, (Opt m_SignalID));
  (mkField (str "green_output_signal") None (Some (VRec (str "SignalID") [((str "name"), (VStr (str "signal-green"))); ((str "type"), (VStr (str "virtual"))); ((str "quality"), (VStr (str "normal")))] [])) false, (Opt m_SignalID));
  (mkField (str "blue_output_signal") None (Some (VRec (str "SignalID") [((str "name"), (VStr (str "signal-blue"))); ((str "type"), (VStr (str "virtual"))); ((str "quality"), (VStr (str "normal")))] [])) false, (Opt m_SignalID))].

(** draftsman/prototypes/rail_chain_signal.py 22-88 *)
Definition c_RailChainSignal : class_ := mkClass (str "RailChainSignal")
  [(mkField (str "name") None None false, (Plain LStr));
   (mkField (str "quality") None (Some (VStr (str "normal"))) false, (Plain (LLiteral [(str "normal"); (str "uncommon"); (str "rare"); (str "epic"); (str "legendary")])));
   (mkField (str "position") None None false, m_FloatPosition);
   (mkField (str "entity_number") None None true, (Plain (LInt (Some 0) (Some 18446744073709551615))));
   (mkField (str "tags") None (Some (VMap [])) false, (Opt (Plain LDict)));
   (mkField (str "direction") None (Some (VInt 0)) false, (Opt (Plain (LEnum [0; 1; 2; 3; 4; 5; 6; 7; 8; 9; 10; 11; 12; 13; 14; 15]))));
   (mkField (str "control_behavior") None (Some (VRec (str "RailChainSignal.Format.ControlBehavior") [((str "red_output_signal"), (VRec (str "SignalID") [((str "name"), (VStr (str "signal-red"))); ((str "type"), (VStr (str "virtual"))); ((str "quality"), (VStr (str "normal")))] [])); ((str "yellow_output_signal"), (VRec (str "SignalID") [((str "name"), (VStr (str "signal-yellow"))); ((str "type"), (VStr (str "virtual"))); ((str "quality"), (VStr (str "normal")))] [])); ((str "green_output_signal"), (VRec (str "SignalID") [((str "name"), (VStr (str "signal-green"))); ((str "type"), (VStr (str "virtual"))); ((str "quality"), (VStr (str "normal")))] [])); ((str "blue_output_signal"), (VRec (str "SignalID") [((str "name"), (VStr (str "signal-blue"))); ((str "type"), (VStr (str "virtual"))); ((str "quality"), (VStr (str "normal")))] []))] [])) false, (Opt m_RailChainSignal_ControlBehavior))]
  [((str "name"), VNone); ((str "position"), VNone); ((str "tile_position"), (VSeq [(VInt 0); (VInt 0)])); ((str "direction"), (VInt 0)); ((str "control_behavior"), (VMap [])); ((str "tags"), (VMap [])); ((str "validate_assignment"), (VStr (str "strict"))); ((str "id"), VNone); ((str "similar_entities"), VNone); ((str "validate"), VNone)]
  [Pass (str "name") None; Pass (str "position") None; Pass (str "direction") None; Pass (str "control_behavior") None; Pass (str "tags") None]
  [Store (str "name") (Kwarg [(str "name")] VNone) None;
   Store (str "quality") (Kwarg [(str "quality")] (VStr (str "normal"))) None;
   Store (str "tags") (Kwarg [(str "tags")] (VMap [])) None;
   Store (str "direction") (Kwarg [(str "direction")] (VInt 0)) None]
  true.

(** draftsman/prototypes/rail_ramp.py 15-51 *)
Definition c_RailRamp : class_ := mkClass (str "RailRamp")
  [(mkField (str "name") None None false, (Plain LStr));
   (mkField (str "quality") None (Some (VStr (str "normal"))) false, (Plain (LLiteral [(str "normal"); (str "uncommon"); (str "rare"); (str "epic"); (str "legendary")])));
   (mkField (str "position") None None false, m_FloatPosition);
   (mkField (str "entity_number") None None true, (Plain (LInt (Some 0) (Some 18446744073709551615))));
   (mkField (str "tags") None (Some (VMap [])) false, (Opt (Plain LDict)));
   (mkField (str "direction") None (Some (VInt 0)) false, (Opt (Plain (LEnum [0; 1; 2; 3; 4; 5; 6; 7; 8; 9; 10; 11; 12; 13; 14; 15]))))]
  [((str "name"), VNone); ((str "position"), VNone); ((str "tile_position"), (VSeq [(VInt 0); (VInt 0)])); ((str "direction"), (VInt 0)); ((str "tags"), (VMap [])); ((str "validate_assignment"), (VStr (str "strict"))); ((str "id"), VNone); ((str "similar_entities"), VNone); ((str "validate"), VNone)]
  [Pass (str "name") None; Pass (str "position") None; Pass (str "direction") None; Pass (str "tags") None]
  [Store (str "name") (Kwarg [(str "name")] VNone) None;
   Store (str "quality") (Kwarg [(str "quality")] (VStr (str "normal"))) None;
   Store (str "tags") (Kwarg [(str "tags")] (VMap [])) None;
   Store (str "direction") (Kwarg [(str "direction")] (VInt 0)) None]
  false.

(** draftsman/prototypes/rail_signal.py 47-66 *)
Definition m_RailSignal_ControlBehavior : typ := Model (str "RailSignal.Format.ControlBehavior") [
  (mkField (str "circuit_enabled") None (Some (VBool false)) false, (Opt (Plain LBool)));
  (mkField (str "circuit_condition_enabled") None (Some (VBool false)) false, (Opt (Plain LBool)));
  (mkField (str "circuit_condition") None (Some (VRec (str "Condition") [((str "first_signal"), VNone); ((str "first_signal_networks"), (VRec (str "NetworkSpecification") [((str "red"), (VBool true)); ((str "green"), (VBool true))] [])); ((str "comparator"), (VStr (str "<"))); ((str "constant"), (VInt 0)); ((str "second_signal"), VNone); ((str "second_signal_networks"), (VRec (str "NetworkSpecification") [((str "red"), (VBool true)); ((str "green"), (VBool true))] []))] [])) false, (Opt m_Condition));
  (mkField (str "red_output_signal") None (Some (VRec (str "SignalID") [((str "name"), (VStr (str "signal-red"))); ((str "type"), (VStr (str "virtual"))); ((str "quality"), (VStr (str "normal")))] [])) false, (Opt m_SignalID));
  (mkField (str "yellow_output_signal") (Some (str "orange_output_signal")) (Some (VRec (str "SignalID") [((str "name"), (VStr (str "signal-yellow"))); ((str "type"), (VStr (str "virtual"))); ((str "quality"), (VStr (str "normal")))] [])) false, (Opt m_SignalID));
  (mkField (str "green_output_signal") None (Some (VRec (str "SignalID") [((str "name"), (VStr (str "signal-green"))); ((str "type"), (VStr (str "virtual"))); ((str "quality"), (VStr (str "normal")))] [])) false, (Opt m_SignalID));
  (mkField (str "circuit_close_signal") None (Some (VBool false)) false, (Opt (Plain LBool)));
  (mkField (str "circuit_read_signal") None (Some (VBool true)) false, (Opt (Plain LBool)))].

(** draftsman/prototypes/rail_signal.py 24-107 *)
Definition c_RailSignal : class_ := mkClass (str "RailSignal")
  [(mkField (str "name") None None false, (Plain LStr));
   (mkField (str "quality") None (Some (VStr (str "normal"))) false, (Plain (LLiteral [(str "normal"); (str "uncommon"); (str "rare"); (str "epic"); (str "legendary")])));
   (mkField (str "position") None None false, m_FloatPosition);
   (mkField (str "entity_number") None None true, (Plain (LInt (Some 0) (Some 18446744073709551615))));
   (mkField (str "tags") None (Some (VMap [])) false, (Opt (Plain LDict)));
   (mkField (str "direction") None (Some (VInt 0)) false, (Opt (Plain (LEnum [0; 1; 2; 3; 4; 5; 6; 7; 8; 9; 10; 11; 12; 13; 14; 15]))));
   (mkField (str "control_behavior") None (Some (VRec (str "RailSignal.Format.ControlBehavior") [((str "circuit_enabled"), (VBool false)); ((str "circuit_condition_enabled"), (VBool false)); ((str "circuit_condition"), (VRec (str "Condition") [((str "first_signal"), VNone); ((str "first_signal_networks"), (VRec (str "NetworkSpecification") [((str "red"), (VBool true)); ((str "green"), (VBool true))] [])); ((str "comparator"), (VStr (str "<"))); ((str "constant"), (VInt 0)); ((str "second_signal"), VNone); ((str "second_signal_networks"), (VRec (str "NetworkSpecification") [((str "red"), (VBool true)); ((str "green"), (VBool true))] []))] [])); ((str "red_output_signal"), (VRec (str "SignalID") [((str "name"), (VStr (str "signal-red"))); ((str "type"), (VStr (str "virtual"))); ((str "quality"), (VStr (str "normal")))] [])); ((str "yellow_output_signal"), (VRec (str "SignalID") [((str "name"), (VStr (str "signal-yellow"))); ((str "type"), (VStr (str "virtual"))); ((str "quality"), (VStr (str "normal")))] [])); ((str "green_output_signal"), (VRec (str "SignalID") [((str "name"), (VStr (str "signal-green"))); ((str "type"), (VStr (str "virtual"))); ((str "quality"), (VStr (str "normal")))] [])); ((str "circuit_close_signal"), (VBool false)); ((str "circuit_read_signal"), (VBool true))] [])) false, (Opt m_RailSignal_ControlBehavior))]
  [((str "name"), VNone); ((str "position"), VNone); ((str "tile_position"), (VSeq [(VInt 0); (VInt 0)])); ((str "direction"), (VInt 0)); ((str "control_behavior"), (VMap [])); ((str "tags"), (VMap [])); ((str "validate_assignment"), (VStr (str "strict"))); ((str "id"), VNone); ((str "similar_entities"), VNone); ((str "validate"), VNone)]
  [Pass (str "name") None; Pass (str "position") None; Pass (str "direction") None; Pass (str "control_behavior") None; Pass (str "tags") None]
  [Store (str "name") (Kwarg [(str "name")] VNone) None;
   Store (str "quality") (Kwarg [(str "quality")] (VStr (str "normal"))) None;
   Store (str "tags") (Kwarg [(str "tags")] (VMap [])) None;
   Store (str "direction") (Kwarg [(str "direction")] (VInt 0)) None]
  true.

(** draftsman/prototypes/reactor.py 40-52 *)
Definition m_Reactor_ControlBehavior : typ := Model (str "Reactor.Format.ControlBehavior") [
  (mkField (str "read_burner_fuel") None (Some (VBool false)) false, (Opt (Plain LBool)));
  (mkField (str "read_temperature") None (Some (VBool false)) false, (Opt (Plain LBool)));
  (mkField (str "temperature_signal") None (Some (VRec (str "SignalID") [((str "name"), (VStr (str "signal-T"))); ((str "type"), (VStr (str "virtual"))); ((str "quality"), (VStr (str "normal")))] [])) false, (Opt m_SignalID))].

(** draftsman/prototypes/reactor.py 22-91 *)
Definition c_Reactor : class_ := mkClass (str "Reactor")
  [(mkField (str "name") None None false, (Plain LStr));
   (mkField (str "quality") None (Some (VStr (str "normal"))) false, (Plain (LLiteral [(str "normal"); (str "uncommon"); (str "rare"); (str "epic"); (str "legendary")])));
   (mkField (str "position") None None false, m_FloatPosition);
   (mkField (str "entity_number") None None true, (Plain (LInt (Some 0) (Some 18446744073709551615))));
   (mkField (str "tags") None (Some (VMap [])) false, (Opt (Plain LDict)));
   (mkField (str "items") None (Some (VSeq [])) false, (Opt (ListOf m_ItemRequest)));
   (mkField (str "control_behavior") None (Some (VRec (str "Reactor.Format.ControlBehavior") [((str "read_burner_fuel"), (VBool false)); ((str "read_temperature"), (VBool false)); ((str "temperature_signal"), (VRec (str "SignalID") [((str "name"), (VStr (str "signal-T"))); ((str "type"), (VStr (str "virtual"))); ((str "quality"), (VStr (str "normal")))] []))] [])) false, (Opt m_Reactor_ControlBehavior))]
  [((str "name"), VNone); ((str "position"), VNone); ((str "tile_position"), (VSeq [(VInt 0); (VInt 0)])); ((str "items"), (VSeq [])); ((str "control_behavior"), (VMap [])); ((str "tags"), (VMap [])); ((str "validate_assignment"), (VStr (str "strict"))); ((str "id"), VNone); ((str "similar_entities"), VNone); ((str "validate"), VNone)]
  [Pass (str "name") None; Pass (str "position") None; Pass (str "items") None; Pass (str "control_behavior") None; Pass (str "tags") None]
  [Store (str "name") (Kwarg [(str "name")] VNone) None;
   Store (str "quality") (Kwarg [(str "quality")] (VStr (str "normal"))) None;
   Store (str "tags") (Kwarg [(str "tags")] (VMap [])) None;
   Store (str "items") (Kwarg [(str "items")] (VMap [])) (Some (VSeq []))]
  true.

(** draftsman/prototypes/roboport.py 28-69 *)
Definition m_Roboport_ControlBehavior : typ := Model (str "Roboport.Format.ControlBehavior") [
  (mkField (str "read_logistics") None (Some (VBool true)) false, (Opt (Plain LBool)));
  (mkField (str "read_robot_stats") None (Some (VBool false)) false, (Opt (Plain LBool)));
  (mkField (str "available_logistic_output_signal") None (Some (VRec (str "SignalID") [((str "name"), (VStr (str "signal-X"))); ((str "type"), (VStr (str "virtual"))); ((str "quality"), (VStr (str "normal")))] [])) false, (Opt m_SignalID));
  (mkField (str "total_logistic_output_signal") None (Some (VRec (str "SignalID") [((str "name"), (VStr (str "signal-Y"))); ((str "type"), (VStr (str "virtual"))); ((str "quality"), (VStr (str "normal")))] [])) false, (Opt m_SignalID));
  (mkField (str "available_construction_output_signal") None (Some (VRec (str "SignalID") [((str "name"), (VStr (str "signal-Z"))); ((str "type"), (VStr (str "virtual"))); ((str "quality"), (VStr (str "normal")))] [])) false, (Opt m_SignalID));
  (mkField (str "total_construction_output_signal") None (Some (VRec (str "SignalID") [((str "name"), (VStr (str "signal-T"))); ((str "type"), (VStr (str "virtual"))); ((str "quality"), (VStr (str "normal")))] [])) false, (Opt m_SignalID))].

(** draftsman/prototypes/roboport.py 20-103 *)
Definition c_Roboport : class_ := mkClass (str "Roboport")
  [(mkField (str "name") None None false, (Plain LStr));
   (mkField (str "quality") None (Some (VStr (str "normal"))) false, (Plain (LLiteral [(str "normal"); (str "uncommon"); (str "rare"); (str "epic"); (str "legendary")])));
   (mkField (str "position") None None false, m_FloatPosition);
   (mkField (str "entity_number") None None true, (Plain (LInt (Some 0) (Some 18446744073709551615))));
   (mkField (str "tags") None (Some (VMap [])) false, (Opt (Plain LDict)));
   (mkField (str "control_behavior") None (Some (VRec (str "Roboport.Format.ControlBehavior") [((str "read_logistics"), (VBool true)); ((str "read_robot_stats"), (VBool false)); ((str "available_logistic_output_signal"), (VRec (str "SignalID") [((str "name"), (VStr (str "signal-X"))); ((str "type"), (VStr (str "virtual"))); ((str "quality"), (VStr (str "normal")))] [])); ((str "total_logistic_output_signal"), (VRec (str "SignalID") [((str "name"), (VStr (str "signal-Y"))); ((str "type"), (VStr (str "virtual"))); ((str "quality"), (VStr (str "normal")))] [])); ((str "available_construction_output_signal"), (VRec (str "SignalID") [((str "name"), (VStr (str "signal-Z"))); ((str "type"), (VStr (str "virtual"))); ((str "quality"), (VStr (str "normal")))] [])); ((str "total_construction_output_signal"), (VRec (str "SignalID") [((str "name"), (VStr (str "signal-T"))); ((str "type"), (VStr (str "virtual"))); ((str "quality"), (VStr (str "normal")))] []))] [])) false, (Opt m_Roboport_ControlBehavior))]
  [((str "name"), VNone); ((str "position"), VNone); ((str "tile_position"), (VSeq [(VInt 0); (VInt 0)])); ((str "control_behavior"), (VMap [])); ((str "tags"), (VMap [])); ((str "validate_assignment"), (VStr (str "strict"))); ((str "id"), VNone); ((str "similar_entities"), VNone); ((str "validate"), VNone)]
  [Pass (str "name") None; Pass (str "position") None; Pass (str "control_behavior") None; Pass (str "tags") None]
  [Store (str "name") (Kwarg [(str "name")] VNone) None;
   Store (str "quality") (Kwarg [(str "quality")] (VStr (str "normal"))) None;
   Store (str "tags") (Kwarg [(str "tags")] (VMap [])) None]
  true.

(** draftsman/prototypes/rocket_silo.py 51-52 *)
Definition m_RocketSilo_ControlBehavior : typ := Model (str "RocketSilo.Format.ControlBehavior") [
  (mkField (str "read_items_mode") None (Some (VInt 1)) false, (Opt (Plain (LEnum [0; 1; 2]))))].

(** draftsman/prototypes/rocket_silo.py 23-104 *)
Definition c_RocketSilo : class_ := mkClass (str "RocketSilo")
  [(mkField (str "name") None None false, (Plain LStr));
   (mkField (str "quality") None (Some (VStr (str "normal"))) false, (Plain (LLiteral [(str "normal"); (str "uncommon"); (str "rare"); (str "epic"); (str "legendary")])));
   (mkField (str "position") None None false, m_FloatPosition);
   (mkField (str "entity_number") None None true, (Plain (LInt (Some 0) (Some 18446744073709551615))));
   (mkField (str "tags") None (Some (VMap [])) false, (Opt (Plain LDict)));
   (mkField (str "recipe") None (Some VNone) false, (Opt (Plain LStr)));
   (mkField (str "recipe_quality") None (Some (VStr (str "normal"))) false, (Opt (Plain (LLiteral [(str "normal"); (str "uncommon"); (str "rare"); (str "epic"); (str "legendary")]))));
   (mkField (str "items") None (Some (VSeq [])) false, (Opt (ListOf m_ItemRequest)));
   (mkField (str "control_behavior") None (Some (VRec (str "RocketSilo.Format.ControlBehavior") [((str "read_items_mode"), (VInt 1))] [])) false, (Opt m_RocketSilo_ControlBehavior));
   (mkField (str "transitional_request_index") None (Some (VInt 0)) false, (Opt (Plain (LInt (Some 0) (Some 4294967295)))))]
  [((str "name"), VNone); ((str "position"), VNone); ((str "tile_position"), (VSeq [(VInt 0); (VInt 0)])); ((str "recipe"), (VStr (str "rocket-part"))); ((str "recipe_quality"), (VStr (str "normal"))); ((str "transitional_request_index"), (VInt 0)); ((str "items"), (VSeq [])); ((str "control_behavior"), (VMap [])); ((str "tags"), (VMap [])); ((str "validate_assignment"), (VStr (str "strict"))); ((str "id"), VNone); ((str "similar_entities"), VNone); ((str "validate"), VNone)]
  [Pass (str "name") None; Pass (str "position") None; Pass (str "recipe") None; Pass (str "recipe_quality") None; Pass (str "items") None; Pass (str "control_behavior") None; Pass (str "tags") None]
  [Store (str "name") (Kwarg [(str "name")] VNone) None;
   Store (str "quality") (Kwarg [(str "quality")] (VStr (str "normal"))) None;
   Store (str "tags") (Kwarg [(str "tags")] (VMap [])) None;
   Store (str "recipe") (Kwarg [(str "recipe")] VNone) None;
   Store (str "recipe_quality") (Kwarg [(str "recipe_quality")] VNone) None;
   Store (str "items") (Kwarg [(str "items")] (VMap [])) (Some (VSeq []));
   Store (str "transitional_request_index") (Param (str "transitional_request_index")) None]
  true.

(** draftsman/signatures.py 1287-1305 *)
Definition m_QualityFilter : typ := Model (str "QualityFilter") [
  (mkField (str "quality") None (Some (VStr (str "any"))) false, (Opt (Plain (LLiteral [(str "normal"); (str "uncommon"); (str "rare"); (str "epic"); (str "legendary"); (str "quality-unknown"); (str "any")]))));
  (mkField (str "comparator") None (Some (VStr (str "="))) false, (Opt (Plain (LLiteral [(str ">"); (str "<"); (str "="); [8805%N]; [8804%N]; [8800%N]]))))].

(** draftsman/prototypes/selector_combinator.py 40-100 *)
Definition m_SelectorCombinator_ControlBehavior : typ := Model (str "SelectorCombinator.Format.ControlBehavior") [
  (mkField (str "operation") None (Some (VStr (str "select"))) false, (Plain (LLiteral [(str "select"); (str "count"); (str "random"); (str "stack-size"); (str "rocket-capacity"); (str "quality-filter"); (str "quality-transfer")])));
  (mkField (str "select_max") None (Some (VBool true)) false, (Opt (Plain LBool)));
  (mkField (str "index_constant") None (Some (VInt 0)) false, (Opt (Plain (LInt (Some 0) (Some 4294967295)))));
  (mkField (str "index_signal") None (Some VNone) false, (Opt m_SignalID));
  (mkField (str "count_signal") None (Some VNone) false, (Opt m_SignalID));
  (mkField (str "random_update_interval") None (Some (VInt 0)) false, (Opt (Plain (LInt (Some 0) (Some 4294967295)))));
  (mkField (str "quality_filter") None (Some VNone) false, (Opt m_QualityFilter));
  (mkField (str "select_quality_from_signal") None (Some (VBool false)) false, (Opt (Plain LBool)));
  (mkField (str "quality_source_static") None (Some (VStr (str "normal"))) false, (Opt (Plain (LLiteral [(str "normal"); (str "uncommon"); (str "rare"); (str "epic"); (str "legendary")]))));
  (mkField (str "quality_source_signal") None (Some VNone) false, (Opt m_SignalID));
  (mkField (str "quality_destination_signal") None (Some VNone) false, (Opt m_SignalID))].

(** draftsman/prototypes/selector_combinator.py 22-136 *)
Definition c_SelectorCombinator : class_ := mkClass (str "SelectorCombinator")
  [(mkField (str "name") None None false, (Plain LStr));
   (mkField (str "quality") None (Some (VStr (str "normal"))) false, (Plain (LLiteral [(str "normal"); (str "uncommon"); (str "rare"); (str "epic"); (str "legendary")])));
   (mkField (str "position") None None false, m_FloatPosition);
   (mkField (str "entity_number") None None true, (Plain (LInt (Some 0) (Some 18446744073709551615))));
   (mkField (str "tags") None (Some (VMap [])) false, (Opt (Plain LDict)));
   (mkField (str "direction") None (Some (VInt 0)) false, (Opt (Plain (LEnum [0; 1; 2; 3; 4; 5; 6; 7; 8; 9; 10; 11; 12; 13; 14; 15]))));
   (mkField (str "player_description") None (Some VNone) false, (Opt (Plain LStr)));
   (mkField (str "control_behavior") None (Some (VRec (str "SelectorCombinator.Format.ControlBehavior") [((str "operation"), (VStr (str "select"))); ((str "select_max"), (VBool true)); ((str "index_constant"), (VInt 0)); ((str "index_signal"), VNone); ((str "count_signal"), VNone); ((str "random_update_interval"), (VInt 0)); ((str "quality_filter"), VNone); ((str "select_quality_from_signal"), (VBool false)); ((str "quality_source_static"), (VStr (str "normal"))); ((str "quality_source_signal"), VNone); ((str "quality_destination_signal"), VNone)] [])) false, (Opt m_SelectorCombinator_ControlBehavior))]
  [((str "name"), VNone); ((str "position"), VNone); ((str "tile_position"), (VSeq [(VInt 0); (VInt 0)])); ((str "direction"), (VInt 0)); ((str "player_description"), VNone); ((str "control_behavior"), (VMap [])); ((str "tags"), (VMap [])); ((str "validate_assignment"), (VStr (str "strict"))); ((str "id"), VNone); ((str "similar_entities"), VNone); ((str "validate"), VNone)]
  [Pass (str "name") None; Pass (str "position") None; Pass (str "direction") None; Pass (str "player_description") None; Pass (str "control_behavior") None; Pass (str "tags") None]
  [Store (str "name") (Kwarg [(str "name")] VNone) None;
   Store (str "quality") (Kwarg [(str "quality")] (VStr (str "normal"))) None;
   Store (str "tags") (Kwarg [(str "tags")] (VMap [])) None;
   Store (str "direction") (Kwarg [(str "direction")] (VInt 0)) None;
   Store (str "player_description") (Kwarg [(str "player_description")] VNone) None]
  true.

(** draftsman/prototypes/simple_entity_with_force.py 17-65 *)
Definition c_SimpleEntityWithForce : class_ := mkClass (str "SimpleEntityWithForce")
  [(mkField (str "name") None None false, (Plain LStr));
   (mkField (str "quality") None (Some (VStr (str "normal"))) false, (Plain (LLiteral [(str "normal"); (str "uncommon"); (str "rare"); (str "epic"); (str "legendary")])));
   (mkField (str "position") None None false, m_FloatPosition);
   (mkField (str "entity_number") None None true, (Plain (LInt (Some 0) (Some 18446744073709551615))));
   (mkField (str "tags") None (Some (VMap [])) false, (Opt (Plain LDict)));
   (mkField (str "direction") None (Some (VInt 0)) false, (Opt (Plain (LEnum [0; 1; 2; 3; 4; 5; 6; 7; 8; 9; 10; 11; 12; 13; 14; 15]))));
   (mkField (str "variation") None (Some (VInt 1)) false, (Opt (Plain (LInt (Some 0) (Some 65535)))))]
  [((str "name"), VNone); ((str "position"), VNone); ((str "tile_position"), (VSeq [(VInt 0); (VInt 0)])); ((str "direction"), (VInt 0)); ((str "tags"), (VMap [])); ((str "variation"), (VInt 1)); ((str "validate_assignment"), (VStr (str "strict"))); ((str "id"), VNone); ((str "similar_entities"), VNone); ((str "validate"), VNone)]
  [Pass (str "name") None; Pass (str "position") None; Pass (str "direction") None; Pass (str "tags") None]
  [Store (str "name") (Kwarg [(str "name")] VNone) None;
   Store (str "quality") (Kwarg [(str "quality")] (VStr (str "normal"))) None;
   Store (str "tags") (Kwarg [(str "tags")] (VMap [])) None;
   Store (str "direction") (Kwarg [(str "direction")] (VInt 0)) None;
   Store (str "variation") (Param (str "variation")) None]
  false.

(** draftsman/prototypes/simple_entity_with_owner.py 17-65 *)
Definition c_SimpleEntityWithOwner : class_ := mkClass (str "SimpleEntityWithOwner")
  [(mkField (str "name") None None false, (Plain LStr));
   (mkField (str "quality") None (Some (VStr (str "normal"))) false, (Plain (LLiteral [(str "normal"); (str "uncommon"); (str "rare"); (str "epic"); (str "legendary")])));
   (mkField (str "position") None None false, m_FloatPosition);
   (mkField (str "entity_number") None None true, (Plain (LInt (Some 0) (Some 18446744073709551615))));
   (mkField (str "tags") None (Some (VMap [])) false, (Opt (Plain LDict)));
   (mkField (str "direction") None (Some (VInt 0)) false, (Opt (Plain (LEnum [0; 1; 2; 3; 4; 5; 6; 7; 8; 9; 10; 11; 12; 13; 14; 15]))));
   (mkField (str "variation") None (Some (VInt 1)) false, (Opt (Plain (LInt (Some 0) (Some 65535)))))]
  [((str "name"), VNone); ((str "position"), VNone); ((str "tile_position"), (VSeq [(VInt 0); (VInt 0)])); ((str "direction"), (VInt 0)); ((str "tags"), (VMap [])); ((str "variation"), (VInt 1)); ((str "validate_assignment"), (VStr (str "strict"))); ((str "id"), VNone); ((str "similar_entities"), VNone); ((str "validate"), VNone)]
  [Pass (str "name") None; Pass (str "position") None; Pass (str "direction") None; Pass (str "tags") None]
  [Store (str "name") (Kwarg [(str "name")] VNone) None;
   Store (str "quality") (Kwarg [(str "quality")] (VStr (str "normal"))) None;
   Store (str "tags") (Kwarg [(str "tags")] (VMap [])) None;
   Store (str "direction") (Kwarg [(str "direction")] (VInt 0)) None;
   Store (str "variation") (Param (str "variation")) None]
  false.

(** draftsman/prototypes/solar_panel.py 14-46 *)
Definition c_SolarPanel : class_ := mkClass (str "SolarPanel")
  [(mkField (str "name") None None false, (Plain LStr));
   (mkField (str "quality") None (Some (VStr (str "normal"))) false, (Plain (LLiteral [(str "normal"); (str "uncommon"); (str "rare"); (str "epic"); (str "legendary")])));
   (mkField (str "position") None None false, m_FloatPosition);
   (mkField (str "entity_number") None None true, (Plain (LInt (Some 0) (Some 18446744073709551615))));
   (mkField (str "tags") None (Some (VMap [])) false, (Opt (Plain LDict)))]
  [((str "name"), VNone); ((str "position"), VNone); ((str "tile_position"), (VSeq [(VInt 0); (VInt 0)])); ((str "tags"), (VMap [])); ((str "validate_assignment"), (VStr (str "strict"))); ((str "id"), VNone); ((str "similar_entities"), VNone); ((str "validate"), VNone)]
  [Pass (str "name") None; Pass (str "position") None; Pass (str "tags") None]
  [Store (str "name") (Kwarg [(str "name")] VNone) None;
   Store (str "quality") (Kwarg [(str "quality")] (VStr (str "normal"))) None;
   Store (str "tags") (Kwarg [(str "tags")] (VMap [])) None]
  false.

(** draftsman/prototypes/space_platform_hub.py 34-66 *)
Definition m_SpacePlatformHub_ControlBehavior : typ := Model (str "SpacePlatformHub.Format.ControlBehavior") [
  (mkField (str "read_contents") None (Some (VBool true)) false, (Opt (Plain LBool)));
  (mkField (str "send_to_platform") None (Some (VBool true)) false, (Opt (Plain LBool)));
  (mkField (str "read_moving_from") None (Some (VBool false)) false, (Opt (Plain LBool)));
  (mkField (str "read_moving_to") None (Some (VBool false)) false, (Opt (Plain LBool)));
  (mkField (str "read_speed") None (Some (VBool false)) false, (Opt (Plain LBool)));
  (mkField (str "speed_signal") None (Some (VRec (str "SignalID") [((str "name"), (VStr (str "signal-V"))); ((str "type"), (VStr (str "virtual"))); ((str "quality"), (VStr (str "normal")))] [])) false, (Opt m_SignalID));
  (mkField (str "read_damage_taken") None (Some (VBool false)) false, (Opt (Plain LBool)));
  (mkField (str "damage_taken_signal") None (Some (VRec (str "SignalID") [((str "name"), (VStr (str "signal-D"))); ((str "type"), (VStr (str "virtual"))); ((str "quality"), (VStr (str "normal")))] [])) false, (Opt m_SignalID))].

(** draftsman/prototypes/space_platform_hub.py 21-109 *)
Definition c_SpacePlatformHub : class_ := mkClass (str "SpacePlatformHub")
  [(mkField (str "name") None None false, (Plain LStr));
   (mkField (str "quality") None (Some (VStr (str "normal"))) false, (Plain (LLiteral [(str "normal"); (str "uncommon"); (str "rare"); (str "epic"); (str "legendary")])));
   (mkField (str "position") None None false, m_FloatPosition);
   (mkField (str "entity_number") None None true, (Plain (LInt (Some 0) (Some 18446744073709551615))));
   (mkField (str "tags") None (Some (VMap [])) false, (Opt (Plain LDict)));
   (mkField (str "request_filters") None (Some (VRec (str "RequestFiltersMixin.Format.RequestFilters") [((str "sections"), (VSeq [])); ((str "trash_not_requested"), (VBool false)); ((str "request_from_buffers"), (VBool true)); ((str "enabled"), (VBool true))] [])) false, (Opt m_RequestFiltersMixin_RequestFilters));
   (mkField (str "control_behavior") None (Some (VRec (str "SpacePlatformHub.Format.ControlBehavior") [((str "read_contents"), (VBool true)); ((str "send_to_platform"), (VBool true)); ((str "read_moving_from"), (VBool false)); ((str "read_moving_to"), (VBool false)); ((str "read_speed"), (VBool false)); ((str "speed_signal"), (VRec (str "SignalID") [((str "name"), (VStr (str "signal-V"))); ((str "type"), (VStr (str "virtual"))); ((str "quality"), (VStr (str "normal")))] [])); ((str "read_damage_taken"), (VBool false)); ((str "damage_taken_signal"), (VRec (str "SignalID") [((str "name"), (VStr (str "signal-D"))); ((str "type"), (VStr (str "virtual"))); ((str "quality"), (VStr (str "normal")))] []))] [])) false, (Opt m_SpacePlatformHub_ControlBehavior));
   (mkField (str "request_missing_construction_materials") None (Some (VBool true)) false, (Opt (Plain LBool)))]
  [((str "name"), VNone); ((str "position"), VNone); ((str "tile_position"), (VSeq [(VInt 0); (VInt 0)])); ((str "control_behavior"), (VMap [])); ((str "request_missing_construction_materials"), (VBool true)); ((str "tags"), (VMap [])); ((str "validate_assignment"), (VStr (str "strict"))); ((str "id"), VNone); ((str "similar_entities"), VNone); ((str "validate"), VNone)]
  [Pass (str "name") None; Pass (str "position") None; Pass (str "control_behavior") None; Pass (str "tags") None]
  [Store (str "name") (Kwarg [(str "name")] VNone) None;
   Store (str "quality") (Kwarg [(str "quality")] (VStr (str "normal"))) None;
   Store (str "tags") (Kwarg [(str "tags")] (VMap [])) None;
   Store (str "request_filters") (Kwarg [(str "request_filters")] VNone) None;
   Store (str "request_missing_construction_materials") (Param (str "request_missing_construction_materials")) None]
  true.

(** draftsman/prototypes/spider_vehicle.py 55-70 *)
Definition m_SpiderVehicle_RequestFilters : typ := Model (str "SpiderVehicle.Format.RequestFilters") [
  (mkField (str "sections") None (Some (VSeq [])) false, (Opt (ListOf m_Section)));
  (mkField (str "trash_not_requested") None (Some (VBool false)) false, (Opt (Plain LBool)));
  (mkField (str "request_from_buffers") None (Some (VBool true)) false, (Opt (Plain LBool)));
  (mkField (str "enabled") None (Some (VBool true)) false, (Opt (Plain LBool)))].

(** draftsman/prototypes/spider_vehicle.py 43-49 *)
Definition m_SpiderVehicle_AutoTargetParameters : typ := Model (str "SpiderVehicle.Format.AutoTargetParameters") [
  (mkField (str "auto_target_without_gunner") None (Some (VBool true)) false, (Plain LBool));
  (mkField (str "auto_target_with_gunner") None (Some (VBool false)) false, (Plain LBool))].

(** draftsman/prototypes/spider_vehicle.py 23-122 *)
Definition c_SpiderVehicle : class_ := mkClass (str "SpiderVehicle")
  [(mkField (str "name") None None false, (Plain LStr));
   (mkField (str "quality") None (Some (VStr (str "normal"))) false, (Plain (LLiteral [(str "normal"); (str "uncommon"); (str "rare"); (str "epic"); (str "legendary")])));
   (mkField (str "position") None None false, m_FloatPosition);
   (mkField (str "entity_number") None None true, (Plain (LInt (Some 0) (Some 18446744073709551615))));
   (mkField (str "tags") None (Some (VMap [])) false, (Opt (Plain LDict)));
   (mkField (str "orientation") None (Some (VFloat 0)) false, (Opt (Plain LOrientation)));
   (mkField (str "items") None (Some (VSeq [])) false, (Opt (ListOf m_ItemRequest)));
   (mkField (str "request_filters") None (Some (VRec (str "SpiderVehicle.Format.RequestFilters") [((str "sections"), (VSeq [])); ((str "trash_not_requested"), (VBool false)); ((str "request_from_buffers"), (VBool true)); ((str "enabled"), (VBool true))] [])) false, m_SpiderVehicle_RequestFilters);
   (mkField (str "enable_logistics_while_moving") None (Some (VBool true)) false, (Opt (Plain LBool)));
   (mkField (str "grid") None (Some (VSeq [])) false, (ListOf m_EquipmentGridMixin_EquipmentComponent));
   (mkField (str "trunk_inventory") None (Some VNone) false, (Plain LNothing));
   (mkField (str "ammo_inventory") None (Some VNone) false, (Plain LNothing));
   (mkField (str "driver_is_main_gunner") None (Some (VBool true)) false, (Opt (Plain LBool)));
   (mkField (str "selected_gun_index") None (Some (VInt 1)) false, (Opt (Plain (LInt (Some 0) (Some 4294967295)))));
   (mkField (str "automatic_targeting_parameters") None (Some (VRec (str "SpiderVehicle.Format.AutoTargetParameters") [((str "auto_target_without_gunner"), (VBool true)); ((str "auto_target_with_gunner"), (VBool false))] [])) false, (Opt m_SpiderVehicle_AutoTargetParameters))]
  [((str "name"), VNone); ((str "position"), VNone); ((str "tile_position"), (VSeq [(VInt 0); (VInt 0)])); ((str "orientation"), (VFloat 0)); ((str "enable_logistics_while_moving"), (VBool true)); ((str "grid"), (VSeq [])); ((str "trunk_inventory"), VNone); ((str "ammo_inventory"), VNone); ((str "driver_is_main_gunner"), (VBool true)); ((str "selected_gun_index"), (VInt 1)); ((str "automatic_targeting_parameters"), (VMap [])); ((str "request_filters"), (VMap [])); ((str "items"), (VMap [])); ((str "tags"), (VMap [])); ((str "validate_assignment"), (VStr (str "strict"))); ((str "id"), VNone); ((str "similar_entities"), VNone); ((str "validate"), VNone)]
  [Pass (str "name") None; Pass (str "position") None; Pass (str "orientation") None; Pass (str "enable_logistics_while_moving") None; Pass (str "grid") None; Pass (str "trunk_inventory") None; Pass (str "ammo_inventory") None; Pass (str "driver_is_main_gunner") None; Pass (str "selected_gun_index") None; Pass (str "items") None; Pass (str "tags") None]
  [Store (str "name") (Kwarg [(str "name")] VNone) None;
   Store (str "quality") (Kwarg [(str "quality")] (VStr (str "normal"))) None;
   Store (str "tags") (Kwarg [(str "tags")] (VMap [])) None;
   Store (str "orientation") (Kwarg [(str "orientation")] (VFloat 0)) (Some (VFloat 0));
   Store (str "items") (Kwarg [(str "items")] (VMap [])) (Some (VSeq []));
   Store (str "request_filters") (Kwarg [(str "request_filters")] VNone) None;
   Store (str "enable_logistics_while_moving") (Kwarg [(str "enable_logistics_while_moving")] VNone) None;
   Store (str "driver_is_main_gunner") (Kwarg [(str "driver_is_main_gunner")] VNone) None;
   Store (str "selected_gun_index") (Kwarg [(str "selected_gun_index")] VNone) None;
   Store (str "automatic_targeting_parameters") (Param (str "automatic_targeting_parameters")) None;
   Store (str "request_filters") (Param (str "request_filters")) None]
  false.

(** draftsman/prototypes/splitter.py 22-91 *)
Definition c_Splitter : class_ := mkClass (str "Splitter")
  [(mkField (str "name") None None false, (Plain LStr));
   (mkField (str "quality") None (Some (VStr (str "normal"))) false, (Plain (LLiteral [(str "normal"); (str "uncommon"); (str "rare"); (str "epic"); (str "legendary")])));
   (mkField (str "position") None None false, m_FloatPosition);
   (mkField (str "entity_number") None None true, (Plain (LInt (Some 0) (Some 18446744073709551615))));
   (mkField (str "tags") None (Some (VMap [])) false, (Opt (Plain LDict)));
   (mkField (str "direction") None (Some (VInt 0)) false, (Opt (Plain (LEnum [0; 1; 2; 3; 4; 5; 6; 7; 8; 9; 10; 11; 12; 13; 14; 15]))));
   (mkField (str "input_priority") None (Some (VStr (str "none"))) false, (Opt (Plain (LLiteral [(str "left"); (str "none"); (str "right")]))));
   (mkField (str "output_priority") None (Some (VStr (str "none"))) false, (Opt (Plain (LLiteral [(str "left"); (str "none"); (str "right")]))));
   (mkField (str "filter") None (Some VNone) false, (Opt (Plain LStr)))]
  [((str "name"), VNone); ((str "position"), VNone); ((str "tile_position"), (VSeq [(VInt 0); (VInt 0)])); ((str "direction"), (VInt 0)); ((str "input_priority"), (VStr (str "none"))); ((str "output_priority"), (VStr (str "none"))); ((str "filter"), VNone); ((str "tags"), (VMap [])); ((str "validate_assignment"), (VStr (str "strict"))); ((str "id"), VNone); ((str "similar_entities"), VNone); ((str "validate"), VNone)]
  [Pass (str "name") None; Pass (str "position") None; Pass (str "direction") None; Pass (str "tags") None]
  [Store (str "name") (Kwarg [(str "name")] VNone) None;
   Store (str "quality") (Kwarg [(str "quality")] (VStr (str "normal"))) None;
   Store (str "tags") (Kwarg [(str "tags")] (VMap [])) None;
   Store (str "direction") (Kwarg [(str "direction")] (VInt 0)) None;
   Store (str "input_priority") (Param (str "input_priority")) None;
   Store (str "output_priority") (Param (str "output_priority")) None;
   Store (str "filter") (Param (str "filter")) None]
  false.

(** draftsman/prototypes/storage_tank.py 17-55 *)
Definition c_StorageTank : class_ := mkClass (str "StorageTank")
  [(mkField (str "name") None None false, (Plain LStr));
   (mkField (str "quality") None (Some (VStr (str "normal"))) false, (Plain (LLiteral [(str "normal"); (str "uncommon"); (str "rare"); (str "epic"); (str "legendary")])));
   (mkField (str "position") None None false, m_FloatPosition);
   (mkField (str "entity_number") None None true, (Plain (LInt (Some 0) (Some 18446744073709551615))));
   (mkField (str "tags") None (Some (VMap [])) false, (Opt (Plain LDict)));
   (mkField (str "direction") None (Some (VInt 0)) false, (Opt (Plain (LEnum [0; 1; 2; 3; 4; 5; 6; 7; 8; 9; 10; 11; 12; 13; 14; 15]))))]
  [((str "name"), VNone); ((str "position"), VNone); ((str "tile_position"), (VSeq [(VInt 0); (VInt 0)])); ((str "direction"), (VInt 0)); ((str "tags"), (VMap [])); ((str "validate_assignment"), (VStr (str "strict"))); ((str "id"), VNone); ((str "similar_entities"), VNone); ((str "validate"), VNone)]
  [Pass (str "name") None; Pass (str "position") None; Pass (str "direction") None; Pass (str "tags") None]
  [Store (str "name") (Kwarg [(str "name")] VNone) None;
   Store (str "quality") (Kwarg [(str "quality")] (VStr (str "normal"))) None;
   Store (str "tags") (Kwarg [(str "tags")] (VMap [])) None;
   Store (str "direction") (Kwarg [(str "direction")] (VInt 0)) None]
  false.

(** draftsman/prototypes/straight_rail.py 45-95 *)
Definition c_StraightRail : class_ := mkClass (str "StraightRail")
  [(mkField (str "name") None None false, (Plain LStr));
   (mkField (str "quality") None (Some (VStr (str "normal"))) false, (Plain (LLiteral [(str "normal"); (str "uncommon"); (str "rare"); (str "epic"); (str "legendary")])));
   (mkField (str "position") None None false, m_FloatPosition);
   (mkField (str "entity_number") None None true, (Plain (LInt (Some 0) (Some 18446744073709551615))));
   (mkField (str "tags") None (Some (VMap [])) false, (Opt (Plain LDict)));
   (mkField (str "direction") None (Some (VInt 0)) false, (Opt (Plain (LEnum [0; 1; 2; 3; 4; 5; 6; 7; 8; 9; 10; 11; 12; 13; 14; 15]))))]
  [((str "name"), VNone); ((str "position"), VNone); ((str "tile_position"), (VSeq [(VInt 0); (VInt 0)])); ((str "direction"), (VInt 0)); ((str "tags"), (VMap [])); ((str "validate_assignment"), (VStr (str "strict"))); ((str "id"), VNone); ((str "similar_entities"), VNone); ((str "validate"), VNone)]
  [Pass (str "name") None; Pass (str "position") None; Pass (str "direction") None; Pass (str "tags") None]
  [Store (str "name") (Kwarg [(str "name")] VNone) None;
   Store (str "quality") (Kwarg [(str "quality")] (VStr (str "normal"))) None;
   Store (str "tags") (Kwarg [(str "tags")] (VMap [])) None;
   Store (str "direction") (Kwarg [(str "direction")] (VInt 0)) None]
  false.

(** draftsman/prototypes/thruster.py 14-46 *)
Definition c_Thruster : class_ := mkClass (str "Thruster")
  [(mkField (str "name") None None false, (Plain LStr));
   (mkField (str "quality") None (Some (VStr (str "normal"))) false, (Plain (LLiteral [(str "normal"); (str "uncommon"); (str "rare"); (str "epic"); (str "legendary")])));
   (mkField (str "position") None None false, m_FloatPosition);
   (mkField (str "entity_number") None None true, (Plain (LInt (Some 0) (Some 18446744073709551615))));
   (mkField (str "tags") None (Some (VMap [])) false, (Opt (Plain LDict)))]
  [((str "name"), VNone); ((str "position"), VNone); ((str "tile_position"), (VSeq [(VInt 0); (VInt 0)])); ((str "tags"), (VMap [])); ((str "validate_assignment"), (VStr (str "strict"))); ((str "id"), VNone); ((str "similar_entities"), VNone); ((str "validate"), VNone)]
  [Pass (str "name") None; Pass (str "position") None; Pass (str "tags") None]
  [Store (str "name") (Kwarg [(str "name")] VNone) None;
   Store (str "quality") (Kwarg [(str "quality")] (VStr (str "normal"))) None;
   Store (str "tags") (Kwarg [(str "tags")] (VMap [])) None]
  false.

(** draftsman/prototypes/train_stop.py 55-117 *)
Definition m_TrainStop_ControlBehavior : typ := Model (str "TrainStop.Format.ControlBehavior") [
  (mkField (str "circuit_enabled") None (Some (VBool false)) false, (Opt (Plain LBool)));
  (mkField (str "connect_to_logistic_network") None (Some (VBool false)) false, (Opt (Plain LBool)));
  (mkField (str "logistic_condition") None (Some (VRec (str "Condition") [((str "first_signal"), VNone); ((str "first_signal_networks"), (VRec (str "NetworkSpecification") [((str "red"), (VBool true)); ((str "green"), (VBool true))] [])); ((str "comparator"), (VStr (str "<"))); ((str "constant"), (VInt 0)); ((str "second_signal"), VNone); ((str "second_signal_networks"), (VRec (str "NetworkSpecification") [((str "red"), (VBool true)); ((str "green"), (VBool true))] []))] [])) false, (Opt m_Condition));
  (mkField (str "circuit_condition_enabled") None (Some (VBool false)) false, (Opt (Plain LBool)));
  (mkField (str "circuit_condition") None (Some (VRec (str "Condition") [((str "first_signal"), VNone); ((str "first_signal_networks"), (VRec (str "NetworkSpecification") [((str "red"), (VBool true)); ((str "green"), (VBool true))] [])); ((str "comparator"), (VStr (str "<"))); ((str "constant"), (VInt 0)); ((str "second_signal"), VNone); ((str "second_signal_networks"), (VRec (str "NetworkSpecification") [((str "red"), (VBool true)); ((str "green"), (VBool true))] []))] [])) false, (Opt m_Condition));
  (mkField (str "send_to_train") None (Some (VBool true)) false, (Opt (Plain LBool)));
  (mkField (str "set_trains_limit") None (Some (VBool false)) false, (Opt (Plain LBool)));
  (mkField (str "trains_limit_signal") None (Some (VRec (str "SignalID") [((str "name"), (VStr (str "signal-L"))); ((str "type"), (VStr (str "virtual"))); ((str "quality"), (VStr (str "normal")))] [])) false, (Opt m_SignalID));
  (mkField (str "read_from_train") None (Some (VBool false)) false, (Opt (Plain LBool)));
  (mkField (str "read_stopped_train") None (Some (VBool false)) false, (Opt (Plain LBool)));
  (mkField (str "train_stopped_signal") None (Some (VRec (str "SignalID") [((str "name"), (VStr (str "signal-T"))); ((str "type"), (VStr (str "virtual"))); ((str "quality"), (VStr (str "normal")))] [])) false, (Opt m_SignalID));
  (mkField (str "read_trains_count") None (Some (VBool false)) false, (Opt (Plain LBool)));
  (mkField (str "trains_count_signal") None (Some (VRec (str "SignalID") [((str "name"), (VStr (str "signal-C"))); ((str "type"), (VStr (str "virtual"))); ((str "quality"), (VStr (str "normal")))] [])) false, (Opt m_SignalID))].

(** draftsman/prototypes/train_stop.py 29-171 *)
Definition c_TrainStop : class_ := mkClass (str "TrainStop")
  [(mkField (str "name") None None false, (Plain LStr));
   (mkField (str "quality") None (Some (VStr (str "normal"))) false, (Plain (LLiteral [(str "normal"); (str "uncommon"); (str "rare"); (str "epic"); (str "legendary")])));
   (mkField (str "position") None None false, m_FloatPosition);
   (mkField (str "entity_number") None None true, (Plain (LInt (Some 0) (Some 18446744073709551615))));
   (mkField (str "tags") None (Some (VMap [])) false, (Opt (Plain LDict)));
   (mkField (str "direction") None (Some (VInt 0)) false, (Opt (Plain (LEnum [0; 1; 2; 3; 4; 5; 6; 7; 8; 9; 10; 11; 12; 13; 14; 15]))));
   (mkField (str "color") None (Some VNone) false, (Opt m_Color));
   (mkField (str "control_behavior") None (Some (VRec (str "TrainStop.Format.ControlBehavior") [((str "circuit_enabled"), (VBool false)); ((str "connect_to_logistic_network"), (VBool false)); ((str "logistic_condition"), (VRec (str "Condition") [((str "first_signal"), VNone); ((str "first_signal_networks"), (VRec (str "NetworkSpecification") [((str "red"), (VBool true)); ((str "green"), (VBool true))] [])); ((str "comparator"), (VStr (str "<"))); ((str "constant"), (VInt 0)); ((str "second_signal"), VNone); ((str "second_signal_networks"), (VRec (str "NetworkSpecification") [((str "red"), (VBool true)); ((str "green"), (VBool true))] []))] [])); ((str "circuit_condition_enabled"), (VBool false)); ((str "circuit_condition"), (VRec (str "Condition") [((str "first_signal"), VNone); ((str "first_signal_networks"), (VRec (str "NetworkSpecification") [((str "red"), (VBool true)); ((str "green"), (VBool true))] [])); ((str "comparator"), (VStr (str "<"))); ((str "constant"), (VInt 0)); ((str "second_signal"), VNone); ((str "second_signal_networks"), (VRec (str "NetworkSpecification") [((str "red"), (VBool true)); ((str "green"), (VBool true))] []))] [])); ((str "send_to_train"), (VBool true)); ((str "set_trains_limit"), (VBool false)); ((str "trains_limit_signal"), (VRec (str "SignalID") [((str "name"), (VStr (str "signal-L"))); ((str "type"), (VStr (str "virtual"))); ((str "quality"), (VStr (str "normal")))] [])); ((str "read_from_train"), (VBool false)); ((str "read_stopped_train"), (VBool false)); ((str "train_stopped_signal"), (VRec (str "SignalID") [((str "name"), (VStr (str "signal-T"))); ((str "type"), (VStr (str "virtual"))); ((str "quality"), (VStr (str "normal")))] [])); ((str "read_trains_count"), (VBool false)); ((str "trains_count_signal"), (VRec (str "SignalID") [((str "name"), (VStr (str "signal-C"))); ((str "type"), (VStr (str "virtual"))); ((str "quality"), (VStr (str "normal")))] []))] [])) false, (Opt m_TrainStop_ControlBehavior));
   (mkField (str "station") None (Some VNone) false, (Opt (Plain LStr)));
   (mkField (str "manual_trains_limit") None (Some VNone) false, (Opt (Plain (LInt (Some 0) (Some 4294967295)))))]
  [((str "name"), VNone); ((str "position"), VNone); ((str "tile_position"), (VSeq [(VInt 0); (VInt 0)])); ((str "direction"), (VInt 0)); ((str "control_behavior"), (VMap [])); ((str "tags"), (VMap [])); ((str "validate_assignment"), (VStr (str "strict"))); ((str "id"), VNone); ((str "similar_entities"), VNone); ((str "validate"), VNone)]
  [Pass (str "name") None; Pass (str "position") None; Pass (str "direction") None; Pass (str "control_behavior") None; Pass (str "tags") None]
  [Store (str "name") (Kwarg [(str "name")] VNone) None;
   Store (str "quality") (Kwarg [(str "quality")] (VStr (str "normal"))) None;
   Store (str "tags") (Kwarg [(str "tags")] (VMap [])) None;
   Store (str "direction") (Kwarg [(str "direction")] (VInt 0)) None;
   Store (str "color") (Kwarg [(str "color")] VNone) None;
   Store (str "station") (Kwarg [(str "station")] VNone) None;
   Store (str "manual_trains_limit") (Kwarg [(str "manual_trains_limit")] VNone) None]
  true.

(** draftsman/prototypes/transport_belt.py 48-54 *)
Definition m_TransportBelt_ControlBehavior : typ := Model (str "TransportBelt.Format.ControlBehavior") [
  (mkField (str "circuit_enabled") None (Some (VBool false)) false, (Opt (Plain LBool)));
  (mkField (str "connect_to_logistic_network") None (Some (VBool false)) false, (Opt (Plain LBool)));
  (mkField (str "logistic_condition") None (Some (VRec (str "Condition") [((str "first_signal"), VNone); ((str "first_signal_networks"), (VRec (str "NetworkSpecification") [((str "red"), (VBool true)); ((str "green"), (VBool true))] [])); ((str "comparator"), (VStr (str "<"))); ((str "constant"), (VInt 0)); ((str "second_signal"), VNone); ((str "second_signal_networks"), (VRec (str "NetworkSpecification") [((str "red"), (VBool true)); ((str "green"), (VBool true))] []))] [])) false, (Opt m_Condition));
  (mkField (str "circuit_condition_enabled") None (Some (VBool false)) false, (Opt (Plain LBool)));
  (mkField (str "circuit_condition") None (Some (VRec (str "Condition") [((str "first_signal"), VNone); ((str "first_signal_networks"), (VRec (str "NetworkSpecification") [((str "red"), (VBool true)); ((str "green"), (VBool true))] [])); ((str "comparator"), (VStr (str "<"))); ((str "constant"), (VInt 0)); ((str "second_signal"), VNone); ((str "second_signal_networks"), (VRec (str "NetworkSpecification") [((str "red"), (VBool true)); ((str "green"), (VBool true))] []))] [])) false, (Opt m_Condition));
  (mkField (str "circuit_read_hand_contents") None (Some VNone) false, (Opt (Plain LBool)));
  (mkField (str "circuit_contents_read_mode") None (Some VNone) false, (Opt (Plain (LEnum [0; 1; 2]))))].

(** draftsman/prototypes/transport_belt.py 24-88 *)
Definition c_TransportBelt : class_ := mkClass (str "TransportBelt")
  [(mkField (str "name") None None false, (Plain LStr));
   (mkField (str "quality") None (Some (VStr (str "normal"))) false, (Plain (LLiteral [(str "normal"); (str "uncommon"); (str "rare"); (str "epic"); (str "legendary")])));
   (mkField (str "position") None None false, m_FloatPosition);
   (mkField (str "entity_number") None None true, (Plain (LInt (Some 0) (Some 18446744073709551615))));
   (mkField (str "tags") None (Some (VMap [])) false, (Opt (Plain LDict)));
   (mkField (str "direction") None (Some (VInt 0)) false, (Opt (Plain (LEnum [0; 1; 2; 3; 4; 5; 6; 7; 8; 9; 10; 11; 12; 13; 14; 15]))));
   (mkField (str "control_behavior") None (Some (VRec (str "TransportBelt.Format.ControlBehavior") [((str "circuit_enabled"), (VBool false)); ((str "connect_to_logistic_network"), (VBool false)); ((str "logistic_condition"), (VRec (str "Condition") [((str "first_signal"), VNone); ((str "first_signal_networks"), (VRec (str "NetworkSpecification") [((str "red"), (VBool true)); ((str "green"), (VBool true))] [])); ((str "comparator"), (VStr (str "<"))); ((str "constant"), (VInt 0)); ((str "second_signal"), VNone); ((str "second_signal_networks"), (VRec (str "NetworkSpecification") [((str "red"), (VBool true)); ((str "green"), (VBool true))] []))] [])); ((str "circuit_condition_enabled"), (VBool false)); ((str "circuit_condition"), (VRec (str "Condition") [((str "first_signal"), VNone); ((str "first_signal_networks"), (VRec (str "NetworkSpecification") [((str "red"), (VBool true)); ((str "green"), (VBool true))] [])); ((str "comparator"), (VStr (str "<"))); ((str "constant"), (VInt 0)); ((str "second_signal"), VNone); ((str "second_signal_networks"), (VRec (str "NetworkSpecification") [((str "red"), (VBool true)); ((str "green"), (VBool true))] []))] [])); ((str "circuit_read_hand_contents"), VNone); ((str "circuit_contents_read_mode"), VNone)] [])) false, (Opt m_TransportBelt_ControlBehavior))]
  [((str "name"), VNone); ((str "position"), VNone); ((str "tile_position"), (VSeq [(VInt 0); (VInt 0)])); ((str "direction"), (VInt 0)); ((str "control_behavior"), (VMap [])); ((str "tags"), (VMap [])); ((str "validate_assignment"), (VStr (str "strict"))); ((str "id"), VNone); ((str "similar_entities"), VNone); ((str "validate"), VNone)]
  [Pass (str "name") None; Pass (str "position") None; Pass (str "direction") None; Pass (str "control_behavior") None; Pass (str "tags") None]
  [Store (str "name") (Kwarg [(str "name")] VNone) None;
   Store (str "quality") (Kwarg [(str "quality")] (VStr (str "normal"))) None;
   Store (str "tags") (Kwarg [(str "tags")] (VMap [])) None;
   Store (str "direction") (Kwarg [(str "direction")] (VInt 0)) None]
  true.

(** draftsman/prototypes/turret.py 16-56 *)
Definition c_Turret : class_ := mkClass (str "Turret")
  [(mkField (str "name") None None false, (Plain LStr));
   (mkField (str "quality") None (Some (VStr (str "normal"))) false, (Plain (LLiteral [(str "normal"); (str "uncommon"); (str "rare"); (str "epic"); (str "legendary")])));
   (mkField (str "position") None None false, m_FloatPosition);
   (mkField (str "entity_number") None None true, (Plain (LInt (Some 0) (Some 18446744073709551615))));
   (mkField (str "tags") None (Some (VMap [])) false, (Opt (Plain LDict)));
   (mkField (str "direction") None (Some (VInt 0)) false, (Opt (Plain (LEnum [0; 1; 2; 3; 4; 5; 6; 7; 8; 9; 10; 11; 12; 13; 14; 15]))));
   (mkField (str "items") None (Some (VSeq [])) false, (Opt (ListOf m_ItemRequest)))]
  [((str "name"), VNone); ((str "position"), VNone); ((str "tile_position"), (VSeq [(VInt 0); (VInt 0)])); ((str "direction"), (VInt 0)); ((str "items"), (VMap [])); ((str "tags"), (VMap [])); ((str "validate_assignment"), (VStr (str "strict"))); ((str "id"), VNone); ((str "similar_entities"), VNone); ((str "validate"), VNone)]
  [Pass (str "name") None; Pass (str "position") None; Pass (str "direction") None; Pass (str "items") None; Pass (str "tags") None]
  [Store (str "name") (Kwarg [(str "name")] VNone) None;
   Store (str "quality") (Kwarg [(str "quality")] (VStr (str "normal"))) None;
   Store (str "tags") (Kwarg [(str "tags")] (VMap [])) None;
   Store (str "direction") (Kwarg [(str "direction")] (VInt 0)) None;
   Store (str "items") (Kwarg [(str "items")] (VMap [])) (Some (VSeq []))]
  false.

(** draftsman/prototypes/underground_belt.py 15-56 *)
Definition c_UndergroundBelt : class_ := mkClass (str "UndergroundBelt")
  [(mkField (str "name") None None false, (Plain LStr));
   (mkField (str "quality") None (Some (VStr (str "normal"))) false, (Plain (LLiteral [(str "normal"); (str "uncommon"); (str "rare"); (str "epic"); (str "legendary")])));
   (mkField (str "position") None None false, m_FloatPosition);
   (mkField (str "entity_number") None None true, (Plain (LInt (Some 0) (Some 18446744073709551615))));
   (mkField (str "tags") None (Some (VMap [])) false, (Opt (Plain LDict)));
   (mkField (str "direction") None (Some (VInt 0)) false, (Opt (Plain (LEnum [0; 1; 2; 3; 4; 5; 6; 7; 8; 9; 10; 11; 12; 13; 14; 15]))));
   (mkField (str "io_type") (Some (str "type")) (Some (VStr (str "input"))) false, (Opt (Plain (LLiteral [(str "input"); (str "output")]))))]
  [((str "name"), VNone); ((str "position"), VNone); ((str "tile_position"), (VSeq [(VInt 0); (VInt 0)])); ((str "direction"), (VInt 0)); ((str "io_type"), (VStr (str "input"))); ((str "tags"), (VMap [])); ((str "validate_assignment"), (VStr (str "strict"))); ((str "id"), VNone); ((str "similar_entities"), VNone); ((str "validate"), VNone)]
  [Pass (str "name") None; Pass (str "position") None; Pass (str "direction") None; PassOr (str "io_type") (str "type") (VStr (str "input")); Pass (str "tags") None]
  [Store (str "name") (Kwarg [(str "name")] VNone) None;
   Store (str "quality") (Kwarg [(str "quality")] (VStr (str "normal"))) None;
   Store (str "tags") (Kwarg [(str "tags")] (VMap [])) None;
   Store (str "direction") (Kwarg [(str "direction")] (VInt 0)) None;
   Store (str "io_type") (Kwarg [(str "type"); (str "io_type")] VNone) None]
  false.

(** draftsman/prototypes/underground_pipe.py 15-49 *)
Definition c_UndergroundPipe : class_ := mkClass (str "UndergroundPipe")
  [(mkField (str "name") None None false, (Plain LStr));
   (mkField (str "quality") None (Some (VStr (str "normal"))) false, (Plain (LLiteral [(str "normal"); (str "uncommon"); (str "rare"); (str "epic"); (str "legendary")])));
   (mkField (str "position") None None false, m_FloatPosition);
   (mkField (str "entity_number") None None true, (Plain (LInt (Some 0) (Some 18446744073709551615))));
   (mkField (str "tags") None (Some (VMap [])) false, (Opt (Plain LDict)));
   (mkField (str "direction") None (Some (VInt 0)) false, (Opt (Plain (LEnum [0; 1; 2; 3; 4; 5; 6; 7; 8; 9; 10; 11; 12; 13; 14; 15]))))]
  [((str "name"), VNone); ((str "position"), VNone); ((str "tile_position"), (VSeq [(VInt 0); (VInt 0)])); ((str "direction"), (VInt 0)); ((str "tags"), (VMap [])); ((str "validate_assignment"), (VStr (str "strict"))); ((str "id"), VNone); ((str "similar_entities"), VNone); ((str "validate"), VNone)]
  [Pass (str "name") None; Pass (str "position") None; Pass (str "direction") None; Pass (str "tags") None]
  [Store (str "name") (Kwarg [(str "name")] VNone) None;
   Store (str "quality") (Kwarg [(str "quality")] (VStr (str "normal"))) None;
   Store (str "tags") (Kwarg [(str "tags")] (VMap [])) None;
   Store (str "direction") (Kwarg [(str "direction")] (VInt 0)) None]
  false.

(** draftsman/prototypes/wall.py 40-66 *)
Definition m_Wall_ControlBehavior : typ := Model (str "Wall.Format.ControlBehavior") [
  (mkField (str "circuit_enabled") None (Some (VBool false)) false, (Opt (Plain LBool)));
  (mkField (str "circuit_condition_enabled") None (Some (VBool false)) false, (Opt (Plain LBool)));
  (mkField (str "circuit_condition") None (Some (VRec (str "Condition") [((str "first_signal"), VNone); ((str "first_signal_networks"), (VRec (str "NetworkSpecification") [((str "red"), (VBool true)); ((str "green"), (VBool true))] [])); ((str "comparator"), (VStr (str "<"))); ((str "constant"), (VInt 0)); ((str "second_signal"), VNone); ((str "second_signal_networks"), (VRec (str "NetworkSpecification") [((str "red"), (VBool true)); ((str "green"), (VBool true))] []))] [])) false, (Opt m_Condition));
  (mkField (str "circuit_open_gate") None (Some (VBool true)) false, (Opt (Plain LBool)));
  (mkField (str "circuit_read_sensor") None (Some (VBool false)) false, (Opt (Plain LBool)));
  (mkField (str "output_signal") None (Some (VRec (str "SignalID") [((str "name"), (VStr (str "signal-G"))); ((str "type"), (VStr (str "virtual"))); ((str "quality"), (VStr (str "normal")))] [])) false, (Opt m_SignalID))].

(** draftsman/prototypes/wall.py 22-101 *)
Definition c_Wall : class_ := mkClass (str "Wall")
  [(mkField (str "name") None None false, (Plain LStr));
   (mkField (str "quality") None (Some (VStr (str "normal"))) false, (Plain (LLiteral [(str "normal"); (str "uncommon"); (str "rare"); (str "epic"); (str "legendary")])));
   (mkField (str "position") None None false, m_FloatPosition);
   (mkField (str "entity_number") None None true, (Plain (LInt (Some 0) (Some 18446744073709551615))));
   (mkField (str "tags") None (Some (VMap [])) false, (Opt (Plain LDict)));
   (mkField (str "control_behavior") None (Some (VRec (str "Wall.Format.ControlBehavior") [((str "circuit_enabled"), (VBool false)); ((str "circuit_condition_enabled"), (VBool false)); ((str "circuit_condition"), (VRec (str "Condition") [((str "first_signal"), VNone); ((str "first_signal_networks"), (VRec (str "NetworkSpecification") [((str "red"), (VBool true)); ((str "green"), (VBool true))] [])); ((str "comparator"), (VStr (str "<"))); ((str "constant"), (VInt 0)); ((str "second_signal"), VNone); ((str "second_signal_networks"), (VRec (str "NetworkSpecification") [((str "red"), (VBool true)); ((str "green"), (VBool true))] []))] [])); ((str "circuit_open_gate"), (VBool true)); ((str "circuit_read_sensor"), (VBool false)); ((str "output_signal"), (VRec (str "SignalID") [((str "name"), (VStr (str "signal-G"))); ((str "type"), (VStr (str "virtual"))); ((str "quality"), (VStr (str "normal")))] []))] [])) false, (Opt m_Wall_ControlBehavior))]
  [((str "name"), VNone); ((str "position"), VNone); ((str "tile_position"), (VSeq [(VInt 0); (VInt 0)])); ((str "control_behavior"), (VMap [])); ((str "tags"), (VMap [])); ((str "validate_assignment"), (VStr (str "strict"))); ((str "id"), VNone); ((str "similar_entities"), VNone); ((str "validate"), VNone)]
  [Pass (str "name") None; Pass (str "position") None; Pass (str "control_behavior") None; Pass (str "tags") None]
  [Store (str "name") (Kwarg [(str "name")] VNone) None;
   Store (str "quality") (Kwarg [(str "quality")] (VStr (str "normal"))) None;
   Store (str "tags") (Kwarg [(str "tags")] (VMap [])) None]
  true.

(** Every entity class. *)
Definition entity_classes : list class_ :=
  [c_Accumulator;
   c_AgriculturalTower;
   c_AmmoTurret;
   c_ArithmeticCombinator;
   c_ArtilleryTurret;
   c_ArtilleryWagon;
   c_AssemblingMachine;
   c_AsteroidCollector;
   c_Beacon;
   c_Boiler;
   c_BurnerGenerator;
   c_Car;
   c_CargoLandingPad;
   c_CargoWagon;
   c_ConstantCombinator;
   c_Container;
   c_CurvedRailA;
   c_CurvedRailB;
   c_DeciderCombinator;
   c_DisplayPanel;
   c_ElectricPole;
   c_ElectricTurret;
   c_ElevatedCurvedRailA;
   c_ElevatedCurvedRailB;
   c_ElevatedHalfDiagonalRail;
   c_ElevatedStraightRail;
   c_FilterInserter;
   c_FluidTurret;
   c_FluidWagon;
   c_Furnace;
   c_FusionGenerator;
   c_Gate;
   c_Generator;
   c_HeatInterface;
   c_HeatPipe;
   c_InfinityContainer;
   c_InfinityPipe;
   c_Inserter;
   c_Lab;
   c_Lamp;
   c_LandMine;
   c_LegacyCurvedRail;
   c_LegacyStraightRail;
   c_LightningAttractor;
   c_LinkedBelt;
   c_LinkedContainer;
   c_Loader;
   c_Locomotive;
   c_LogisticActiveContainer;
   c_LogisticBufferContainer;
   c_LogisticPassiveContainer;
   c_LogisticRequestContainer;
   c_LogisticStorageContainer;
   c_MiningDrill;
   c_OffshorePump;
   c_Pipe;
   c_PlayerPort;
   c_PowerSwitch;
   c_ProgrammableSpeaker;
   c_Pump;
   c_Radar;
   c_RailChainSignal;
   c_RailRamp;
   c_RailSignal;
   c_Reactor;
   c_Roboport;
   c_RocketSilo;
   c_SelectorCombinator;
   c_SimpleEntityWithForce;
   c_SimpleEntityWithOwner;
   c_SolarPanel;
   c_SpacePlatformHub;
   c_SpiderVehicle;
   c_Splitter;
   c_StorageTank;
   c_StraightRail;
   c_Thruster;
   c_TrainStop;
   c_TransportBelt;
   c_Turret;
   c_UndergroundBelt;
   c_UndergroundPipe;
   c_Wall].
