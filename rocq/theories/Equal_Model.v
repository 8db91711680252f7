(** Comparing blueprints, lists, schedules and associations; hashing entities;
    the list of schedules.

    /repo/draftsman/classes/blueprint.py 1140-1157, entity_list.py 649-660,
    tile_list.py 305-315, tile.py 297-302, schedule_list.py 16-80, schedule.py
    343-350, 379-387 and 714-719, association.py 34-61, entity.py 764-765 and the
    lines [__hash__ = Entity.__hash__] of the prototypes.

    Entities are those of Merge_Model, with the methods [__eq__] of all classes.
    Groups, planners and books have no [__eq__] of their own, so Python compares
    them by identity: objects carry a number.  An association is the number of
    the object it was made for; [alive] tells which objects still exist.

    Simplifications: values of attributes are those of Trim_Model (numbers are
    rationals); stops have no extra fields; slices have no step. *)
From Coq Require Import ZArith NArith QArith String List Bool.
From Verif Require Import Common Dict Trim_Model Merge_Classes Merge_Model TileList_Model.
Import ListNotations.
Local Open Scope string_scope.
Local Open Scope list_scope.

(** ** Associations, association.py 34-61 *)
(** [self()] *)
Definition deref (alive : nat -> bool) (a : nat) : option nat := if alive a then Some a else None.
(** [self() is other()] *)
Definition same_object (a b : option nat) : bool :=
  match a, b with Some a, Some b => Nat.eqb a b | None, None => true | _, _ => false end.
Definition association_eq (alive : nat -> bool) (a b : nat) : bool := same_object (deref alive a) (deref alive b).

(** ** Schedules *)
(** schedule.py 60-95. *)
Record wait := mkWait { w_type : val; w_compare : val; w_ticks : val; w_condition : val }.
(** schedule.py 413-423. *)
Record stop := mkStop { st_station : val; st_waits : list wait }.
Record schedule := mkSchedule { s_locomotives : list nat; s_stops : list stop }.

(** Two lists of the same length whose members are equal in order: Python's [==]
    on lists, and the loops schedule.py 382-387 and schedule_list.py 75-80. *)
Fixpoint list_eq {A} (eqb : A -> A -> bool) (a b : list A) : bool :=
  match a, b with
  | [], [] => true
  | x :: a, y :: b => eqb x y && list_eq eqb a b
  | _, _ => false
  end.

(** schedule.py 343-350. *)
Definition wait_eq (a b : wait) : bool :=
  py_eq (w_type a) (w_type b) && py_eq (w_compare a) (w_compare b) &&
  py_eq (w_ticks a) (w_ticks b) && py_eq (w_condition a) (w_condition b).
(** pydantic's comparison of two stops; 379-387 for the conditions. *)
Definition stop_eq (a b : stop) : bool :=
  py_eq (st_station a) (st_station b) && list_eq wait_eq (st_waits a) (st_waits b).
(** schedule.py 714-719. *)
Definition schedule_eq (alive : nat -> bool) (a b : schedule) : bool :=
  list_eq (association_eq alive) (s_locomotives a) (s_locomotives b) && list_eq stop_eq (s_stops a) (s_stops b).

(** ** Members of entity lists *)
Inductive member := MEnt (object : nat) (e : ent) | MGrp (object : nat).
(** [a != b] *)
Definition member_ne (a b : member) : result bool :=
  match a, b with
  | MEnt _ e, MEnt _ f => let* r := equal methods_table bases_table e f in Ok (negb r)
  | MGrp i, MGrp j => Ok (negb (Nat.eqb i j))
  | _, _ => Ok true
  end.
(** The loop entity_list.py 656-660. *)
Fixpoint members_eq (a b : list member) : result bool :=
  match a, b with
  | x :: a, y :: b => let* ne := member_ne x y in if ne then Ok false else members_eq a b
  | _, _ => Ok true
  end.
(** entity_list.py 649-660. *)
Definition entity_list_eq (a b : list member) : result bool :=
  if negb (Nat.eqb (List.length a) (List.length b)) then Ok false else members_eq a b.

(** tile_list.py 305-315, tile.py 297-302. *)
Definition tile_list_eq (a b : list tile) : bool := list_eq tile_eqb a b.

(** schedule_list.py 72-80. *)
Definition schedule_list_eq (alive : nat -> bool) (a b : list schedule) : bool := list_eq (schedule_eq alive) a b.

(** ** Blueprints *)
(** The attributes compared in blueprint.py 1144-1153. *)
Inductive battr := Label | LabelColor | Description | Icons | Version
| SnappingGridSize | SnappingGridPosition | AbsoluteSnapping | PositionRelativeToGrid.

Record blueprint := mkBlueprint {
  b_attr : battr -> val;
  b_entities : list member;
  b_tiles : list tile;
  b_schedules : list schedule;
  b_wires : list (nat * Z * nat * Z);    (** blueprint.py 936-959 *)
  b_stock : list (nat * option nat * option nat);  (** blueprint.py 964-976 *)
  b_index : option Z                     (** blueprintable.py 409-438 *) }.

(** blueprint.py 1140-1157. *)
Definition blueprint_eq (alive : nat -> bool) (a b : blueprint) : result bool :=
  if negb (py_eq (b_attr a Label) (b_attr b Label)) then Ok false
  else if negb (py_eq (b_attr a LabelColor) (b_attr b LabelColor)) then Ok false
  else if negb (py_eq (b_attr a Description) (b_attr b Description)) then Ok false
  else if negb (py_eq (b_attr a Icons) (b_attr b Icons)) then Ok false
  else if negb (py_eq (b_attr a Version) (b_attr b Version)) then Ok false
  else if negb (py_eq (b_attr a SnappingGridSize) (b_attr b SnappingGridSize)) then Ok false
  else if negb (py_eq (b_attr a SnappingGridPosition) (b_attr b SnappingGridPosition)) then Ok false
  else if negb (py_eq (b_attr a AbsoluteSnapping) (b_attr b AbsoluteSnapping)) then Ok false
  else if negb (py_eq (b_attr a PositionRelativeToGrid) (b_attr b PositionRelativeToGrid)) then Ok false
  else
    let* same := entity_list_eq (b_entities a) (b_entities b) in
    if negb same then Ok false
    else if negb (tile_list_eq (b_tiles a) (b_tiles b)) then Ok false
    else Ok (schedule_list_eq alive (b_schedules a) (b_schedules b)).

(** Anything that has a blueprint string: [NotImplemented] leaves the comparison
    with something else to Python, which compares identities. *)
Inductive sheet := SBlueprint (object : nat) (b : blueprint) | SOther (object : nat).
Definition object_of (s : sheet) : nat := match s with SBlueprint o _ => o | SOther o => o end.
Definition sheet_eq (alive : nat -> bool) (a b : sheet) : result bool :=
  match a, b with
  | SBlueprint _ x, SBlueprint _ y => blueprint_eq alive x y
  | _, _ => Ok (Nat.eqb (object_of a) (object_of b))
  end.

(** ** Hashing *)
(** Classes with a line [__hash__ = Entity.__hash__], and Entity (entity.py 764-765). *)
Definition hash_classes : list pystr := [
  str "Entity"; str "Accumulator"; str "AgriculturalTower"; str "AmmoTurret"; str "ArithmeticCombinator";
  str "ArtilleryTurret"; str "ArtilleryWagon"; str "AssemblingMachine"; str "AsteroidCollector"; str "Beacon";
  str "Boiler"; str "BurnerGenerator"; str "Car"; str "CargoBay"; str "CargoLandingPad";
  str "CargoWagon"; str "ConstantCombinator"; str "Container"; str "CurvedRailA"; str "CurvedRailB";
  str "DeciderCombinator"; str "DisplayPanel"; str "ElectricEnergyInterface"; str "ElectricPole"; str "ElectricTurret";
  str "ElevatedCurvedRailA"; str "ElevatedCurvedRailB"; str "ElevatedHalfDiagonalRail"; str "ElevatedStraightRail"; str "FilterInserter";
  str "FluidTurret"; str "FluidWagon"; str "Furnace"; str "FusionGenerator"; str "FusionReactor";
  str "Gate"; str "Generator"; str "HalfDiagonalRail"; str "HeatInterface"; str "HeatPipe";
  str "InfinityContainer"; str "InfinityPipe"; str "Inserter"; str "Lab"; str "Lamp";
  str "LandMine"; str "LegacyCurvedRail"; str "LegacyStraightRail"; str "LightningAttractor"; str "LinkedBelt";
  str "LinkedContainer"; str "Loader"; str "Locomotive"; str "LogisticActiveContainer"; str "LogisticBufferContainer";
  str "LogisticPassiveContainer"; str "LogisticRequestContainer"; str "LogisticStorageContainer"; str "MiningDrill"; str "OffshorePump";
  str "Pipe"; str "PowerSwitch"; str "ProgrammableSpeaker"; str "Pump"; str "Radar";
  str "RailChainSignal"; str "RailRamp"; str "RailSignal"; str "RailSupport"; str "Reactor";
  str "Roboport"; str "RocketSilo"; str "SelectorCombinator"; str "SolarPanel"; str "SpacePlatformHub";
  str "SpiderVehicle"; str "Splitter"; str "StorageTank"; str "StraightRail"; str "Thruster";
  str "TrainStop"; str "TransportBelt"; str "Turret"; str "UndergroundBelt"; str "UndergroundPipe";
  str "Wall"].
(** [hash(e)]: Python takes [__hash__] of the first class in the order of
    resolution that has one, and a class that defines [__eq__] alone has
    [__hash__ = None]. *)
Fixpoint hash_along (object : Z) (mro : list pystr) : result Z :=
  match mro with
  | [] => Err AttributeError
  | k :: rest =>
      if mem k hash_classes then Ok (Z.shiftr object 4)
      else match get methods_table k with
           | Some r => match m_eq r with Some _ => Err TypeError | None => hash_along object rest end
           | None => hash_along object rest
           end
  end.
(** [object] is [id(e)]. *)
Definition hash (object : Z) (e : ent) : result Z := hash_along object (mro bases_table (e_class e)).

(** ** The list of schedules, schedule_list.py 16-80 *)
(** What [data] may hold. *)
Inductive slot := One (s : schedule) | Many (l : list schedule).
(** What may be given: a schedule, a sequence of things some of which are
    schedules, or anything else. *)
Inductive input := GOne (s : schedule) | GSeq (l : list (option schedule)) | GOther.

Fixpoint all_schedules (l : list (option schedule)) : option (list schedule) :=
  match l with
  | [] => Some []
  | Some s :: l => match all_schedules l with Some r => Some (s :: r) | None => None end
  | None :: _ => None
  end.

(** 34-41. *)
Definition sl_insert (l : list slot) (i : Z) (x : input) : list slot * option exn :=
  match x with GOne s => (py_insert l i (One s), None) | _ => (l, Some TypeError) end.
(** [self.data[index] = item] for a number. *)
Definition store_at (l : list slot) (i : Z) (x : slot) : list slot * option exn :=
  match py_pos (Z.of_nat (List.length l)) i with
  | Some p => (replace_nth l p x, None)
  | None => (l, Some IndexError)
  end.
(** 49-62 for a number. *)
Definition sl_set (l : list slot) (i : Z) (x : input) : list slot * option exn :=
  match x with
  | GSeq xs => match all_schedules xs with Some ss => store_at l i (Many ss) | None => (l, Some TypeError) end
  | GOne s => store_at l i (One s)
  | GOther => (l, Some TypeError)
  end.
(** 49-62 for a slice; a schedule cannot be iterated over. *)
Definition sl_set_slice (l : list slot) (a b : option Z) (x : input) : list slot * option exn :=
  match x with
  | GSeq xs =>
      match all_schedules xs with
      | Some ss =>
          let '(start, stop, _) := slice_indices a b None (Z.of_nat (List.length l)) in
          (firstn (Z.to_nat start) l ++ map One ss ++ skipn (Z.to_nat (Z.max start stop)) l, None)
      | None => (l, Some TypeError)
      end
  | _ => (l, Some TypeError)
  end.
(** 64-65. *)
Definition sl_del (l : list slot) (i : Z) : list slot * option exn :=
  match py_pos (Z.of_nat (List.length l)) i with
  | Some p => (remove_nth l p, None)
  | None => (l, Some IndexError)
  end.

Inductive sop := SInsert (i : Z) (x : input) | SAppend (x : input) | SSet (i : Z) (x : input)
| SSetSlice (a b : option Z) (x : input) | SDel (i : Z) | SClear.
Definition sl_step (l : list slot) (o : sop) : list slot * option exn :=
  match o with
  | SInsert i x => sl_insert l i x
  | SAppend x => sl_insert l (Z.of_nat (List.length l)) x   (* MutableSequence.append *)
  | SSet i x => sl_set l i x
  | SSetSlice a b x => sl_set_slice l a b x
  | SDel i => sl_del l i
  | SClear => ([], None)
  end.
Definition sl_run (l : list slot) (ops : list sop) : list slot := fold_left (fun l o => fst (sl_step l o)) ops l.
