(** The register of entities (C67): /repo/draftsman/environment/update.py 38-120
    and 887-1170 (the same functions in env.py), data/entities.py 134-255,
    entity.py 106-322, classes/entity.py 634-643.

    Of the prototypes the fields used here are kept; a missing one is [None].
    Boxes are four numbers.  Sets are lists; a mask given as a table is the list of
    its keys, which is what [set] makes of it.  The collision sets that add_entity
    leaves in the running library during extraction are left out. *)
From Coq Require Import ZArith List Bool String.
From Verif Require Import Common Dict Ranking_Model.
Import ListNotations.
Local Open Scope string_scope.
Local Open Scope list_scope.

Definition sdict := dict pystr.
Definition mem (x : pystr) (l : list pystr) : bool := existsb (pystr_eqb x) l.
Definition box := (Z * Z * Z * Z)%type.

(** A prototype as it is in [data.raw]. *)
Record source := mkSrc {
  s_name : option pystr; s_type : option pystr; s_box : option box; s_mask : option (list pystr);
  s_hidden : bool; s_flags : option (list pystr);
  s_order : option pystr; s_subgroup : option pystr; s_mined : option pystr; s_mode : option pystr }.
(** ... and as it is registered. *)
Record entry := mkE {
  e_name : pystr; e_type : pystr; e_box : box; e_mask : list pystr; e_flags : list pystr;
  e_order : option pystr; e_subgroup : option pystr; e_mined : option pystr; e_mode : option pystr }.
Definition proto_of (e : entry) : proto := mkP (Some (e_name e)) (Some (e_type e)) (e_order e) (e_subgroup e) (e_mined e).

(** update.py 38-120. *)
Definition default_mask (t : pystr) : list pystr :=
  let is x := pystr_eqb t (str x) in
  if is "gate" then [str "item-layer"; str "object-layer"; str "player-layer"; str "water-tile"; str "train-layer"]
  else if is "heat-pipe" then [str "object-layer"; str "floor-layer"; str "water-tile"]
  else if is "land-mine" then [str "object-layer"; str "water-tile"]
  else if is "linked-belt" then [str "object-layer"; str "item-layer"; str "transport-belt-layer"; str "water-tile"]
  else if is "loader" then [str "object-layer"; str "item-layer"; str "transport-belt-layer"; str "water-tile"]
  else if is "straight-rail" || is "curved-rail" then
    [str "item-layer"; str "object-layer"; str "rail-layer"; str "floor-layer"; str "water-tile"]
  else if is "rail-signal" || is "rail-chain-signal" then [str "floor-layer"; str "rail-layer"; str "item-layer"]
  else if is "locomotive" || is "cargo-wagon" || is "fluid-wagon" || is "artillery-wagon" then [str "train-layer"]
  else if is "splitter" then [str "object-layer"; str "item-layer"; str "transport-belt-layer"; str "water-tile"]
  else if is "transport-belt" then [str "object-layer"; str "floor-layer"; str "transport-belt-layer"; str "water-tile"]
  else if is "underground-belt" then [str "object-layer"; str "item-layer"; str "transport-belt-layer"; str "water-tile"]
  else [str "item-layer"; str "object-layer"; str "player-layer"; str "water-tile"].

(** The end of add_entity (data/entities.py 252-255). *)
Definition enlist (types : sdict (list pystr)) (t n : pystr) : sdict (list pystr) :=
  dset pystr_eqb types t (match dget pystr_eqb types t with Some l => l ++ [n] | None => [n] end).
(** The entry add_entity makes (220-238): keyword arguments, [flags] among them,
    overwrite what was put there before. *)
Definition made (n t : pystr) (b : box) (s : source) : entry :=
  mkE n t b (match s_mask s with Some m => m | None => default_mask t end)
    (match s_flags s with Some f => f | None => if s_hidden s then [str "hidden"] else [] end)
    (s_order s) (s_subgroup s) (s_mined s) (s_mode s).

(** ** Extraction *)
Record ext := mkX { x_raw : sdict entry; x_types : sdict (list pystr); x_flip : sdict bool }.

(** update.py 887-969 and 971-987: [None] for one that is passed over; else the
    mask is settled and it is noted whether it can be flipped. *)
Definition flippable_of (s : source) : result bool :=
  let* n := need (s_name s) in
  if mem n [str "pumpjack"; str "chemical-plant"; str "oil-refinery"] then Ok false
  else let* t := need (s_type s) in
       Ok (negb (mem t [str "rail-signal"; str "rail-chain-signal"; str "train-stop"])).
Definition categorize (key : pystr) (s : source) (flip : sdict bool) : result (option (source * sdict bool)) :=
  if mem (str "not-blueprintable") (match s_flags s with Some f => f | None => [] end) then Ok None
  else
    let* m := match s_mask s with
              | Some (a :: l) => Ok (a :: l)
              | _ => let* t := need (s_type s) in Ok (default_mask t)
              end in
    let* b := flippable_of s in
    Ok (Some (mkSrc (s_name s) (s_type s) (s_box s) (Some m) (s_hidden s) (s_flags s) (s_order s) (s_subgroup s) (s_mined s) (s_mode s),
              dset pystr_eqb flip key b)).
(** [add_entity( **contents)]: its first three parameters have no default. *)
Definition register (s : source) (x : ext) : result ext :=
  match s_name s, s_type s, s_box s with
  | Some n, Some t, Some b => Ok (mkX (dset pystr_eqb (x_raw x) n (made n t b s)) (enlist (x_types x) t n) (x_flip x))
  | _, _, _ => Err TypeError
  end.
Definition add_source (key : pystr) (s : source) (x : ext) : result (option ext) :=
  let* c := categorize key s (x_flip x) in
  match c with
  | None => Ok None
  | Some (s', flip) => let* x' := register s' (mkX (x_raw x) (x_types x) flip) in Ok (Some x')
  end.
Fixpoint add_sources (l : list (pystr * source)) (x : ext) : result ext :=
  match l with
  | [] => Ok x
  | (k, s) :: l' =>
      let* r := add_source k s x in
      add_sources l' (match r with None => x | Some x' => x' end)
  end.
(** 999-1010: an empty table has become an empty list, which has no [items]. *)
Definition add_table (data : sdict (list (pystr * source))) (p : pystr) (x : ext) : result ext :=
  match dget pystr_eqb data p with
  | None => Ok (mkX (x_raw x) (dset pystr_eqb (x_types x) p []) (x_flip x))
  | Some [] => Err AttributeError
  | Some l =>
      let* x' := add_sources l x in
      let* _ := need (dget pystr_eqb (x_types x') p) in
      Ok x'
  end.
Fixpoint add_tables (data : sdict (list (pystr * source))) (ps : list pystr) (x : ext) : result ext :=
  match ps with [] => Ok x | p :: r => let* x' := add_table data p x in add_tables data r x' end.
(** 1065-1096. *)
Definition modes : list (pystr * pystr) :=
  [(str "passive-provider", str "logistic-container-passive"); (str "active-provider", str "logistic-container-active");
   (str "storage", str "logistic-container-storage"); (str "buffer", str "logistic-container-buffer");
   (str "requester", str "logistic-container-request")].
Fixpoint add_logistic (l : list (pystr * source)) (x : ext) : result ext :=
  match l with
  | [] => Ok x
  | (k, s) :: l' =>
      let* r := add_source k s x in
      match r with
      | None => add_logistic l' x
      | Some x' =>
          let* m := need (s_mode s) in
          match dget pystr_eqb modes m with
          | None => add_logistic l' x'
          | Some t =>
              let* ns := need (dget pystr_eqb (x_types x') t) in
              add_logistic l' (mkX (x_raw x') (dset pystr_eqb (x_types x') t (ns ++ [k])) (x_flip x'))
          end
      end
  end.
Definition logistic (data : sdict (list (pystr * source))) (x : ext) : result ext :=
  let types := fold_left (fun d t => dset pystr_eqb d t []) (map snd modes) (x_types x) in
  match dget pystr_eqb data (str "logistic-container") with
  | None => Err TypeError
  | Some [] => Err AttributeError
  | Some l => add_logistic l (mkX (x_raw x) types (x_flip x))
  end.
(** 1012-1063 and 1098-1129: the tables in the order they are gone through. *)
Definition tables_before : list pystr :=
  [str "accumulator"; str "agricultural-tower"; str "ammo-turret"; str "arithmetic-combinator";
   str "artillery-turret"; str "artillery-wagon"; str "assembling-machine"; str "asteroid-collector";
   str "beacon"; str "boiler"; str "burner-generator"; str "car"; str "cargo-bay"; str "cargo-landing-pad";
   str "cargo-wagon"; str "constant-combinator"; str "container"; str "curved-rail-a"; str "curved-rail-b";
   str "decider-combinator"; str "display-panel"; str "electric-energy-interface"; str "electric-pole";
   str "electric-turret"; str "elevated-curved-rail-a"; str "elevated-curved-rail-b";
   str "elevated-half-diagonal-rail"; str "elevated-straight-rail"; str "fluid-turret"; str "fluid-wagon";
   str "furnace"; str "fusion-generator"; str "fusion-reactor"; str "gate"; str "generator";
   str "half-diagonal-rail"; str "heat-interface"; str "heat-pipe"; str "infinity-container";
   str "infinity-pipe"; str "inserter"; str "lab"; str "lamp"; str "land-mine"; str "legacy-straight-rail";
   str "legacy-curved-rail"; str "lightning-attractor"; str "linked-belt"; str "linked-container";
   str "loader"; str "loader-1x1"; str "locomotive"].
Definition tables_after : list pystr :=
  [str "market"; str "mining-drill"; str "offshore-pump"; str "pipe"; str "pipe-to-ground";
   str "player-port"; str "power-switch"; str "programmable-speaker"; str "pump"; str "radar";
   str "rail-chain-signal"; str "rail-ramp"; str "rail-signal"; str "rail-support"; str "reactor";
   str "roboport"; str "rocket-silo"; str "selector-combinator"; str "simple-entity-with-force";
   str "simple-entity-with-owner"; str "solar-panel"; str "space-platform-hub"; str "spider-vehicle";
   str "splitter"; str "storage-tank"; str "straight-rail"; str "thruster"; str "train-stop";
   str "transport-belt"; str "turret"; str "underground-belt"; str "wall"].

Record reg := mkReg { raw : sdict entry; of_type : sdict (list pystr); flippable : sdict bool; sets : sdict (list box) }.
Section Extract.
  Variable items : table proto.
  Variable subgroups : table subgroup.
  Variable groups : table group.
  (** 1148-1151. *)
  Fixpoint pick (unsorted : sdict entry) (names : list pystr) (acc : sdict entry) : result (sdict entry) :=
    match names with
    | [] => Ok acc
    | n :: ns => let* e := need (dget pystr_eqb unsorted n) in pick unsorted ns (dset pystr_eqb acc n e)
    end.
  (** 1153-1166: every entry has a box. *)
  Definition sets_of (r : sdict entry) (names : list pystr) : result (sdict (list box)) :=
    fold_left (fun d n => let* d := d in let* e := need (dget pystr_eqb r n) in Ok (dset pystr_eqb d n [e_box e])) names (Ok []).
  (** 878-1170. *)
  Definition extract_entities (data : sdict (list (pystr * source))) : result reg :=
    let* x := add_tables data tables_before (mkX [] [] []) in
    let* x := logistic data x in
    let* x := add_tables data tables_after x in
    let* names := get_order (map (fun p => proto_of (snd p)) (x_raw x)) items subgroups groups in
    let* r := pick (x_raw x) names [] in
    let* cs := sets_of r names in
    Ok (mkReg r (x_types x) (x_flip x) cs).
End Extract.

(** ** The running library *)
(** data/entities.py 134-255 with the default target. *)
Definition add_entity (r : reg) (n t : pystr) (b : box) (s : source) : reg :=
  mkReg (dset pystr_eqb (raw r) n (made n t b s)) (enlist (of_type r) t n) (flippable r) (dset pystr_eqb (sets r) n [b]).

(** entity.py 128-297: types and classes in the order they are tried. *)
Definition factory : list (pystr * pystr) :=
  [(str "accumulator", str "Accumulator"); (str "agricultural-tower", str "AgriculturalTower");
   (str "ammo-turret", str "AmmoTurret"); (str "arithmetic-combinator", str "ArithmeticCombinator");
   (str "artillery-turret", str "ArtilleryTurret"); (str "artillery-wagon", str "ArtilleryWagon");
   (str "assembling-machine", str "AssemblingMachine"); (str "beacon", str "Beacon");
   (str "boiler", str "Boiler"); (str "burner-generator", str "BurnerGenerator"); (str "car", str "Car");
   (str "cargo-bay", str "CargoBay"); (str "cargo-landing-pad", str "CargoLandingPad");
   (str "cargo-wagon", str "CargoWagon"); (str "constant-combinator", str "ConstantCombinator");
   (str "container", str "Container"); (str "curved-rail-a", str "CurvedRailA");
   (str "curved-rail-b", str "CurvedRailB"); (str "decider-combinator", str "DeciderCombinator");
   (str "display-panel", str "DisplayPanel");
   (str "electric-energy-interface", str "ElectricEnergyInterface");
   (str "electric-pole", str "ElectricPole"); (str "electric-turret", str "ElectricTurret");
   (str "elevated-curved-rail-a", str "ElevatedCurvedRailA");
   (str "elevated-curved-rail-b", str "ElevatedCurvedRailB");
   (str "elevated-half-diagonal-rail", str "ElevatedHalfDiagonalRail");
   (str "elevated-straight-rail", str "ElevatedStraightRail"); (str "fluid-turret", str "FluidTurret");
   (str "fluid-wagon", str "FluidWagon"); (str "furnace", str "Furnace");
   (str "fusion-generator", str "FusionGenerator"); (str "fusion-reactor", str "FusionReactor");
   (str "gate", str "Gate"); (str "generator", str "Generator");
   (str "half-diagonal-rail", str "HalfDiagonalRail"); (str "heat-interface", str "HeatInterface");
   (str "heat-pipe", str "HeatPipe"); (str "infinity-container", str "InfinityContainer");
   (str "infinity-pipe", str "InfinityPipe"); (str "inserter", str "Inserter"); (str "lab", str "Lab");
   (str "lamp", str "Lamp"); (str "land-mine", str "LandMine");
   (str "legacy-curved-rail", str "LegacyCurvedRail");
   (str "legacy-straight-rail", str "LegacyStraightRail");
   (str "lightning-attractor", str "LightningAttractor"); (str "linked-belt", str "LinkedBelt");
   (str "linked-container", str "LinkedContainer"); (str "loader", str "Loader");
   (str "locomotive", str "Locomotive"); (str "logistic-container-active", str "LogisticActiveContainer");
   (str "logistic-container-buffer", str "LogisticBufferContainer");
   (str "logistic-container-passive", str "LogisticPassiveContainer");
   (str "logistic-container-request", str "LogisticRequestContainer");
   (str "logistic-container-storage", str "LogisticStorageContainer");
   (str "mining-drill", str "MiningDrill"); (str "offshore-pump", str "OffshorePump");
   (str "pipe", str "Pipe"); (str "player-port", str "PlayerPort"); (str "power-switch", str "PowerSwitch");
   (str "programmable-speaker", str "ProgrammableSpeaker"); (str "pump", str "Pump");
   (str "radar", str "Radar"); (str "rail-chain-signal", str "RailChainSignal");
   (str "rail-ramp", str "RailRamp"); (str "rail-signal", str "RailSignal");
   (str "rail-support", str "RailSupport"); (str "reactor", str "Reactor"); (str "roboport", str "Roboport");
   (str "rocket-silo", str "RocketSilo"); (str "selector-combinator", str "SelectorCombinator");
   (str "simple-entity-with-force", str "SimpleEntityWithForce");
   (str "simple-entity-with-owner", str "SimpleEntityWithOwner"); (str "solar-panel", str "SolarPanel");
   (str "space-platform-hub", str "SpacePlatformHub"); (str "spider-vehicle", str "SpiderVehicle");
   (str "splitter", str "Splitter"); (str "storage-tank", str "StorageTank");
   (str "straight-rail", str "StraightRail"); (str "thruster", str "Thruster");
   (str "train-stop", str "TrainStop"); (str "transport-belt", str "TransportBelt");
   (str "underground-belt", str "UndergroundBelt"); (str "pipe-to-ground", str "UndergroundPipe");
   (str "wall", str "Wall")].
(** 106-322; [None] is the generic class. *)
Fixpoint class_in (l : list (pystr * pystr)) (types : sdict (list pystr)) (name : pystr) : result (option pystr) :=
  match l with
  | [] => Ok None
  | (t, c) :: r => let* ns := need (dget pystr_eqb types t) in if mem name ns then Ok (Some c) else class_in r types name
  end.
Definition new_entity (r : reg) (name : pystr) : result (option pystr) := class_in factory (of_type r) name.
(** classes/entity.py 634-643. *)
Definition is_flippable (r : reg) (name : pystr) : result bool := need (dget pystr_eqb (flippable r) name).
