(** What is expected of constructed entities, apart from how keywords travel. *)
From Coq Require Import ZArith String List Bool.
From Verif Require Import Common Dict Assign_Model Attr_Model Attr_Table Attr_Spec Ctor_Model Ctor_Table.
Import ListNotations.
Local Open Scope string_scope.
Local Open Scope list_scope.

(** The classes of entities that are exported by [draftsman.entity]. *)
Definition prototype (c : cls) : Prop := In c entity_classes /\ c <> "Entity".
(** [d.__init__] names a parameter. *)
Definition has_parameter (d : cls) (k : string) : Prop :=
  if String.eqb d "Entity" then In k ["name"; "similar_entities"; "quality"; "tile_position"; "id"; "validate"; "validate_assignment"]
  else exists i, dget String.eqb inits d = Some i /\ In k (map fst (i_params i)).
(** The value of a keyword: the one given, else the default of the parameter of the
    class, else of [Entity], else [None]. *)
Inductive supplied (W : world) (c : cls) (kw : dict) (k : string) : tree -> Prop :=
| supplied_given v : dget String.eqb kw k = Some v -> supplied W c kw k v
| supplied_default : dget String.eqb kw k = None -> has_parameter c k -> supplied W c kw k (default W c k)
| supplied_entity : dget String.eqb kw k = None -> ~ has_parameter c k -> has_parameter "Entity" k -> supplied W c kw k (default W "Entity" k)
| supplied_none : dget String.eqb kw k = None -> ~ has_parameter c k -> ~ has_parameter "Entity" k -> supplied W c kw k TNone.

(** ** Attributes *)
(** Attributes that are fields of the object itself. *)
Definition outer (c : cls) (a : string) : Prop := exists f, writes draftsman c a ([], f).
(** The keyword for an attribute. *)
Definition keyword (a : string) : string :=
  if String.eqb a "auto_target" then "artillery_auto_targeting" else if String.eqb a "equipment_grid" then "grid" else a.
(** Set when the object is validated as a whole, and not again. *)
Definition once (c : cls) (a : string) : Prop :=
  In a ["control_behavior"; "equipment_grid"; "priority_list"; "ignore_unprioritized"; "use_filters"] \/ (c, a) = ("Lamp", "color").
(** Validated by their setters in any mode. *)
Definition strictly (c : cls) (a : string) : Prop :=
  In a ["request_filters"; "inventory"; "filters"; "infinity_settings"; "parameters"; "alert_parameters"; "color"] /\ (c, a) <> ("Lamp", "color").
(** Not like the others. *)
Definition odd (c : cls) (a : string) : Prop :=
  In (c, a) [("Loader", "io_type"); ("UndergroundBelt", "io_type");
             ("AsteroidCollector", "chunk_filter"); ("RocketSilo", "auto_launch");
             ("ElectricEnergyInterface", "buffer_size"); ("ElectricEnergyInterface", "power_production"); ("ElectricEnergyInterface", "power_usage")].
(** [None] is replaced by an empty dict. *)
Definition emptied (c : cls) (a : string) : Prop :=
  In (c, a) [("ConstantCombinator", "tags"); ("ElectricPole", "tags"); ("ConstantCombinator", "control_behavior"); ("DeciderCombinator", "control_behavior")].
Inductive filled (W : world) (c : cls) (a : string) (v : tree) : tree -> Prop :=
| filled_not : v <> TNone \/ ~ emptied c a -> filled W c a v v
| filled_so : v = TNone -> emptied c a -> filled W c a v (constant W DDict).

(** Another name of the field in the dict that is validated. *)
Definition other_key (a : string) : option string := if String.eqb a "priority_list" then Some "priority-list" else None.
(** What is validated as the value of a field, if anything is. *)
Inductive entered (W : world) (c : cls) (kw : dict) (a : string) : option tree -> Prop :=
| entered_other k v : other_key a = Some k -> dget String.eqb kw k = Some v -> entered W c kw a (Some v)
| entered_supplied v w :
    (forall k, other_key a = Some k -> dget String.eqb kw k = None) ->
    dget String.eqb kw (keyword a) <> None \/ has_parameter c (keyword a) ->
    supplied W c kw (keyword a) v -> filled W c a v w -> entered W c kw a (Some w)
| entered_not :
    (forall k, other_key a = Some k -> dget String.eqb kw k = None) ->
    dget String.eqb kw (keyword a) = None -> ~ has_parameter c (keyword a) -> entered W c kw a None.

(** A field of the object. *)
Definition holds (o : obj) (f : string) (v : tree) : Prop := exists fs, o_root o = TModel fs /\ dget String.eqb fs f = Some v.

(** Fields whose setters are written by hand, and the class that has the setter. *)
Definition handmade (c : cls) (f : string) : Prop :=
  exists m d, order draftsman c = Ok m /\ In d m /\
    In (f, d) [("name", "Entity"); ("direction", "DirectionalMixin"); ("direction", "EightWayDirectionalMixin");
               ("orientation", "OrientationMixin"); ("items", "RequestItemsMixin"); ("link_id", "LinkedContainer")].
(** What they make of a value. *)
Inductive settled (W : world) (f : string) (v : tree) : tree -> Prop :=
| settled_items : f = "items" -> v = TNone -> settled W f v (constant W DList)
| settled_orientation w : f = "orientation" -> orientation_of W v = Ok w -> settled W f v w
| settled_as_is : f <> "orientation" -> f <> "items" \/ v <> TNone -> settled W f v v.

(** The keywords a class knows: parameters of the initialisers of its bases, fields of
    its format and their aliases. *)
Definition known (c : cls) (k : string) : Prop :=
  (exists m d, order draftsman c = Ok m /\ In d m /\ has_parameter d k) \/
  (exists M, model_of draftsman c [] = Ok M /\
     (declared draftsman M k = true \/ exists m d f, order draftsman M = Ok m /\ In d m /\ In (d, (f, k)) aliases)) \/
  In k ["position"; "tags"; "entity_number"].

(** Parameters of a class that no attribute of it reads or sets. *)
Definition passed (c : cls) (k : string) : Prop :=
  In (c, k) [("AgriculturalTower", "direction"); ("AgriculturalTower", "override_stack_size"); ("AgriculturalTower", "items");
             ("Car", "trunk_inventory"); ("Car", "ammo_inventory"); ("SpiderVehicle", "trunk_inventory"); ("SpiderVehicle", "ammo_inventory");
             ("FluidWagon", "enable_logistics_while_moving"); ("FluidWagon", "grid"); ("ConstantCombinator", "connections")].
(** They are fields all the same: validated with the whole model if it declares them,
    else kept as they are. *)
Inductive along (W : world) (M : cls) (k : string) (v : tree) : tree -> Prop :=
| along_declared w : declared draftsman M k = true -> convert W M k v = Ok w -> along W M k v w
| along_extra : declared draftsman M k = false -> along W M k v v.

(** Values that are accepted everywhere. *)
Definition lenient (W : world) : Prop :=
  (forall M f v, exists w, convert W M f v = Ok w) /\ (forall md s M n t v, exists w, verify W md s M n t v = Ok w) /\
  (forall v, exists w, orientation_of W v = Ok w) /\ (forall v, exists m, to_mode W v = Ok m).
