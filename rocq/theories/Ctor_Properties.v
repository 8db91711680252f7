(** C74: constructed entities have the attributes they were given. *)
From Coq Require Import ZArith String List Bool.
From Verif Require Import Common Dict Assign_Model Attr_Model Attr_Table Attr_Spec Attr_Facts_Proofs Ctor_Model Ctor_Table Ctor_Spec
  Ctor_Facts_Proofs Ctor_Claims_Proofs Ctor_Other_Proofs Ctor_Passed_Proofs.
Import ListNotations.
Local Open Scope string_scope.
Local Open Scope list_scope.

(** ** What attributes read *)
(** An attribute that is a field of the entity reads the value given for it, or the
    default of its class; an attribute inside of the value reads there. *)
Theorem C74_given : forall W kw c a b rest v w o, prototype c -> outer c b -> ~ once c b -> ~ strictly c b -> ~ odd c b ->
  touches draftsman c b a rest -> new tables W draftsman c kw = Ok o -> supplied W c kw (keyword b) v -> filled W c b v w ->
  get draftsman c a (o_root o) = read w rest.
Proof. exact kept_inner. Qed.
Print Assumptions C74_given.
(** Inventories, filters, parameters and colours read what validation makes of it ... *)
Theorem C74_validated : forall W kw c a b rest v o, prototype c -> outer c b -> strictly c b ->
  touches draftsman c b a rest -> new tables W draftsman c kw = Ok o -> supplied W c kw (keyword b) v ->
  exists w, takes draftsman (verify W) c MNone b v w /\ get draftsman c a (o_root o) = read w rest.
Proof. exact strict_inner. Qed.
Print Assumptions C74_validated.
(** ... and control behaviours and a few others what validating the whole model made. *)
Theorem C74_modelled : forall W kw c a x o, prototype c -> outer c a -> once c a -> new tables W draftsman c kw = Ok o -> entered W c kw a x ->
  exists M w, model_of draftsman c [] = Ok M /\ get draftsman c a (o_root o) = Ok w /\
    match x with Some v => convert W M (keyword a) v = Ok w | None => w = fresh W M (keyword a) end.
Proof. exact once_get. Qed.
Print Assumptions C74_modelled.
Theorem C74_modelled_inside : forall W kw c a b x s rest o, prototype c -> outer c b -> once c b -> new tables W draftsman c kw = Ok o -> entered W c kw b x ->
  reads draftsman c a (s :: rest) -> skey s = keyword b ->
  exists M w, model_of draftsman c [] = Ok M /\ get draftsman c a (o_root o) = read w rest /\
    match x with Some v => convert W M (keyword b) v = Ok w | None => w = fresh W M (keyword b) end.
Proof. exact once_inner. Qed.
Print Assumptions C74_modelled_inside.
(** Names, directions, orientations, requests and links. *)
Theorem C74_handmade : forall W kw c f v o, prototype c -> handmade c f -> (c, f) <> ("ArtilleryTurret", "items") ->
  new tables W draftsman c kw = Ok o -> supplied W c kw f v -> exists w, holds o f w /\ settled W f v w.
Proof. exact hand_get. Qed.
Print Assumptions C74_handmade.
(** The ones that are not like the others. *)
Theorem C74_io_type : forall W kw c v o, In c ["Loader"; "UndergroundBelt"] -> new tables W draftsman c kw = Ok o ->
  dget String.eqb kw "type" = Some v \/ dget String.eqb kw "type" = None /\ supplied W c kw "io_type" v -> get draftsman c "io_type" (o_root o) = Ok v.
Proof. exact io_get. Qed.
Print Assumptions C74_io_type.
Theorem C74_interface : forall W kw a v n o, In a ["buffer_size"; "power_production"; "power_usage"] -> new tables W draftsman "ElectricEnergyInterface" kw = Ok o ->
  supplied W "ElectricEnergyInterface" kw a v -> supplied W "ElectricEnergyInterface" kw "name" n ->
  get draftsman "ElectricEnergyInterface" a (o_root o) = Ok (if is_none v then computed W (String.append "default_" a) n else v).
Proof. exact eei_get. Qed.
Print Assumptions C74_interface.
Theorem C74_chunk_filter : forall W kw v m md o, new tables W draftsman "AsteroidCollector" kw = Ok o -> supplied W "AsteroidCollector" kw "chunk_filter" v ->
  supplied W "AsteroidCollector" kw "validate_assignment" m -> to_mode W m = Ok md ->
  exists w, takes draftsman (verify W) "AsteroidCollector" md "chunk_filter" v w /\ get draftsman "AsteroidCollector" "chunk_filter" (o_root o) = Ok w.
Proof. exact chunk_get. Qed.
Print Assumptions C74_chunk_filter.
(** Parameters without an attribute become fields, and there are no others. *)
Theorem C74_passed : forall W kw c k v o, passed c k -> new tables W draftsman c kw = Ok o -> supplied W c kw k v ->
  exists M w, model_of draftsman c [] = Ok M /\ holds o k w /\
    along W M k (if is_none v && (String.eqb c "ConstantCombinator" && String.eqb k "connections") then constant W DDict else v) w.
Proof. exact passed_field. Qed.
Print Assumptions C74_passed.
Theorem C74_parameters : forall c k, prototype c -> has_parameter c k ->
  (exists a, outer c a /\ keyword a = k) \/ handmade c k \/ In k ["position"; "tile_position"; "id"; "validate_assignment"; "validate"] \/ passed c k \/
  (c, k) = ("AsteroidCollector", "result_inventory").
Proof. exact parameters_said. Qed.
Print Assumptions C74_parameters.
(** Other keywords are kept as they are, and nothing else is added. *)
Theorem C74_extra : forall W kw c k o, prototype c -> new tables W draftsman c kw = Ok o -> ~ known c k ->
  exists fs, o_root o = TModel fs /\ dget String.eqb fs k = dget String.eqb kw k.
Proof. exact (fun W kw c k o => extra_field W kw c k o). Qed.
Print Assumptions C74_extra.
(** Mode, place, id and similar entities. *)
Theorem C74_around : forall W kw c o m p t i, prototype c -> new tables W draftsman c kw = Ok o ->
  supplied W c kw "validate_assignment" m -> supplied W c kw "position" p -> supplied W c kw "tile_position" t -> supplied W c kw "id" i ->
  to_mode W m = Ok (o_mode o) /\ (p <> TNone -> o_place o = (true, p)) /\ (p = TNone -> o_place o = (false, t)) /\
  dget String.eqb (o_own o) "id" = Some i /\ dget String.eqb (o_own o) "similar_entities" = Some (constant W DNames).
Proof. exact made_around. Qed.
Print Assumptions C74_around.
(** An attribute keeps reading it until an assignment touches it. *)
Theorem C74_afterwards : forall W kw c a v w o p check, prototype c -> outer c a -> ~ once c a -> ~ strictly c a -> ~ odd c a -> ~ In (c, a) misread ->
  new tables W draftsman c kw = Ok o -> supplied W c kw (keyword a) v -> filled W c a v w ->
  proper c a p -> quiet draftsman check c a (o_mode o, o_root o) p ->
  get draftsman c a (snd (run draftsman check c (o_mode o, o_root o) p)) = Ok w.
Proof. exact made_then. Qed.
Print Assumptions C74_afterwards.

(** ** Failing *)
Theorem C74_made : forall W kw c v, lenient W -> prototype c -> dget String.eqb kw "similar_entities" = None ->
  supplied W c kw "name" v -> v <> TNone -> exists o, new tables W draftsman c kw = Ok o.
Proof. exact made. Qed.
Print Assumptions C74_made.
Theorem C74_nameless : forall W kw c, prototype c -> dget String.eqb kw "similar_entities" = None -> supplied W c kw "name" TNone ->
  new tables W draftsman c kw = Err DataFormatError.
Proof. exact nameless_refused. Qed.
Print Assumptions C74_nameless.
Theorem C74_similar : forall W kw c v, prototype c -> dget String.eqb kw "similar_entities" = Some v -> new tables W draftsman c kw = Err TypeError.
Proof. exact similar_refused. Qed.
Print Assumptions C74_similar.

(** ** What does not hold *)
(** The contents of asteroid collectors are lost. *)
Theorem C74_inventory_refuted : forall W kw o, new tables W draftsman "AsteroidCollector" kw = Ok o -> dget String.eqb kw "result-inventory" = None ->
  exists M, model_of draftsman "AsteroidCollector" [] = Ok M /\ holds o "result_inventory" (fresh W M "result_inventory").
Proof. exact inventory_lost. Qed.
Print Assumptions C74_inventory_refuted.
(** Four classes can not be constructed at all. *)
Theorem C74_baseless_refuted : forall W kw c, In c baseless -> exists e, new tables W draftsman c kw = Err e.
Proof. exact baseless_never. Qed.
Print Assumptions C74_baseless_refuted.
(** Rocket silos have no [auto_launch] unless it is given. *)
Theorem C74_launch_refuted : forall W kw o, new tables W draftsman "RocketSilo" kw = Ok o ->
  get draftsman "RocketSilo" "auto_launch" (o_root o) = match dget String.eqb kw "auto_launch" with Some v => Ok v | None => Err AttributeError end.
Proof. exact launch_get. Qed.
Print Assumptions C74_launch_refuted.
(** The targets of spidertrons can not be read unless a model is given, and the default
    is a dict. *)
Theorem C74_targets_refuted : forall W kw a v o, In a ["auto_target_without_gunner"; "auto_target_with_gunner"] -> new tables W draftsman "SpiderVehicle" kw = Ok o ->
  supplied W "SpiderVehicle" kw "automatic_targeting_parameters" v -> (forall fs, v <> TModel fs) -> get draftsman "SpiderVehicle" a (o_root o) = Err AttributeError.
Proof. exact spider_refused. Qed.
Print Assumptions C74_targets_refuted.
Theorem C74_quality_refuted : forall W kw c o v, In c ["AssemblingMachine"; "RocketSilo"] -> new tables W draftsman c kw = Ok o -> supplied W c kw "recipe" v ->
  get draftsman c "recipe_quality" (o_root o) = Ok v.
Proof. exact quality_reads_recipe. Qed.
Print Assumptions C74_quality_refuted.
(** Artillery turrets have no parameter [items]: an empty dict takes the place of an
    empty list. *)
Theorem C74_turret_refuted : forall W kw o, new tables W draftsman "ArtilleryTurret" kw = Ok o ->
  exists w, holds o "items" w /\ settled W "items" (match dget String.eqb kw "items" with Some v => v | None => constant W DDict end) w.
Proof. exact turret_items. Qed.
Print Assumptions C74_turret_refuted.

(** ** Examples *)
Definition ex_world : world :=
  {| default := fun c k => if String.eqb k "validate_assignment" then TVal 2 else if String.eqb k "tags" then TDict [] else if String.eqb k "bar" then TNone else TVal 100;
     constant := fun d => match d with DDict => TDict [] | DNames => TVal 1000 | _ => TVal 200 end;
     computed := fun a n => TVal 300;
     is_input := fun v => match v with TVal 100 => true | _ => false end;
     orientation_of := fun v => match v with TVal n => Ok (TVal (n mod 1000)) | _ => Err TypeError end;
     to_mode := fun v => match v with TVal 0 => Ok MNone | TVal 2 => Ok MStrict | _ => Err ValueError end;
     fresh := fun _ f => if String.eqb f "control_behavior" then TModel [] else TNone;
     convert := fun _ _ v => match v with TDict l => Ok (TModel l) | _ => Ok v end;
     verify := fun _ _ _ _ _ v => match v with TVal n => if (n <? 0)%Z then Err DataFormatError else Ok (TVal (n + 1)) | TDict l => Ok (TModel l) | _ => Ok v end |}.
Definition ex_made (c : cls) (kw : dict) (f : obj -> result tree) : result tree := let* o := new tables ex_world draftsman c kw in f o.
Definition ex_read (c : cls) (a : string) (o : obj) : result tree := get draftsman c a (o_root o).
Definition ex_field (f : string) (o : obj) : result tree := child (o_root o) (SAttr f).
(** A container: its limit, its name, tags by default, an unknown key, and a place. *)
Example C74_ex :
  let kw := [("name", TVal 7); ("bar", TVal (-3)); ("luck", TVal 13); ("position", TVal 5)]%Z in
  (ex_made "Container" kw (ex_read "Container" "bar"), ex_made "Container" kw (ex_field "name"), ex_made "Container" kw (ex_read "Container" "tags"),
   ex_made "Container" kw (ex_field "luck"), ex_made "Container" kw (fun o => Ok (snd (o_place o)))) =
  (Ok (TVal (-3)), Ok (TVal 7), Ok (TDict []), Ok (TVal 13), Ok (TVal 5))%Z.
Proof. vm_compute. reflexivity. Qed.
(** A control behaviour given as a dict is a model afterwards, and attributes read in it. *)
Example C74_ex_control :
  let kw := [("control_behavior", TDict [("circuit_open_gate", TVal 1)])]%Z in
  (ex_made "Wall" kw (ex_read "Wall" "control_behavior"), ex_made "Wall" kw (ex_read "Wall" "enable_disable")) =
  (Ok (TModel [("circuit_open_gate", TVal 1)]), Ok (TVal 1))%Z.
Proof. vm_compute. reflexivity. Qed.
(** Validated in any mode, and in the mode that was given. *)
Example C74_ex_validated :
  (ex_made "Locomotive" [("color", TVal 4)] (ex_read "Locomotive" "color"), ex_made "Locomotive" [("color", TVal (-4))] (ex_read "Locomotive" "color"),
   ex_made "AsteroidCollector" [("chunk_filter", TVal (-1))] (ex_read "AsteroidCollector" "chunk_filter"),
   ex_made "AsteroidCollector" [("chunk_filter", TVal (-1)); ("validate_assignment", TVal 0)] (ex_read "AsteroidCollector" "chunk_filter")) =
  (Ok (TVal 5), Err DataFormatError, Err DataFormatError, Ok (TVal (-1)))%Z.
Proof. vm_compute. reflexivity. Qed.
(** Loaders imported from dicts, and silos. *)
Example C74_ex_odd :
  (ex_made "Loader" [("type", TVal 9)] (ex_read "Loader" "io_type"), ex_made "Loader" [("io_type", TVal 8)] (ex_read "Loader" "io_type"),
   ex_made "RocketSilo" [] (ex_read "RocketSilo" "auto_launch"), ex_made "ElectricEnergyInterface" [("buffer_size", TNone)] (ex_read "ElectricEnergyInterface" "buffer_size")) =
  (Ok (TVal 9), Ok (TVal 8), Err AttributeError, Ok (TVal 300))%Z.
Proof. vm_compute. reflexivity. Qed.
(** Refused. *)
Example C74_ex_refused :
  (ex_made "Container" [("name", TNone)] (ex_field "name"), ex_made "Container" [("similar_entities", TNone)] (ex_field "name"),
   ex_made "CargoBay" [] (ex_field "name"), ex_made "Container" [("validate_assignment", TVal 77)] (ex_field "name")) =
  (Err DataFormatError, Err TypeError, Err TypeError, Err ValueError)%Z.
Proof. vm_compute. reflexivity. Qed.
