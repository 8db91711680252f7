(** What "trimmed exports re-import to the same object" means (C48). *)
From Coq Require Import ZArith QArith String List Bool.
From Verif Require Import Common Trim_Model.
Import ListNotations.
Local Open Scope string_scope.
Local Open Scope list_scope.

(** All the names a field of a schema goes by. *)
Definition names (f : field) : list pystr :=
  match alias f with
  | Some k => if pystr_eqb k (attr f) then [attr f] else [k; attr f]
  | None => [attr f]
  end.
Definition all_names (fs : list (field * typ)) : list pystr := flat_map (fun ft => names (fst ft)) fs.

(** An object of a type: every declared field is present and of its type; extra
    fields are JSON under names no declared field has. *)
Inductive fits : typ -> val -> Prop :=
| fits_plain k v : typed k v = true -> fits (Plain k) v
| fits_none t : fits (Opt t) VNone
| fits_some t v : fits t v -> fits (Opt t) v
| fits_list t l : Forall (fits t) l -> fits (ListOf t) (VSeq l)
| fits_model c fs r ex :
    Forall2 (fun ft kv => fst kv = attr (fst ft) /\ fits (snd ft) (snd kv)) fs r ->
    NoDup (map fst ex) ->
    (forall k, In k (map fst ex) -> ~ In k (all_names fs)) ->
    Forall (fun kv => plain (snd kv) = true) ex ->
    fits (Model c fs) (VRec c r ex).

(** Nothing was explicitly cleared: a field is [None] only if that is its
    default, and no extra field is [None] (matters only if [None] is left out,
    [xn]). Fields that are never exported have their default. *)
Inductive intact (xn : bool) : typ -> val -> Prop :=
| intact_plain k v : intact xn (Plain k) v
| intact_none t : intact xn (Opt t) VNone
| intact_some t v : intact xn t v -> intact xn (Opt t) v
| intact_list t l : Forall (intact xn t) l -> intact xn (ListOf t) (VSeq l)
| intact_model c fs c' r ex :
    Forall2 (fun ft kv =>
        (xn = true -> snd kv = VNone -> default (fst ft) = Some VNone) /\
        (hidden (fst ft) = true -> default (fst ft) = Some (snd kv)) /\
        intact xn (snd ft) (snd kv)) fs r ->
    (xn = true -> Forall (fun kv => snd kv <> VNone) ex) ->
    intact xn (Model c fs) (VRec c' r ex).

(** A schema in which no two fields share a name, and whose defaults are of the
    declared types. *)
Inductive sane : typ -> Prop :=
| sane_plain k : sane (Plain k)
| sane_opt t : sane t -> sane (Opt t)
| sane_list t : sane t -> sane (ListOf t)
| sane_model c fs :
    NoDup (all_names fs) ->
    Forall (fun ft => sane (snd ft)) fs ->
    (forall f t d, In (f, t) fs -> default f = Some d -> fits t d) ->
    sane (Model c fs).

(** ** Entities *)
(** An entity with contents [r] and extra fields [ex] in which nothing has been
    explicitly cleared and whose extra fields are not constructor parameters. *)
Definition uncleared (c : class_) (r ex : list (pystr * val)) : Prop :=
  fits (format c) (VRec (c_name c) r ex) /\
  (forall f t v, In (f, t) (c_fields c) -> hidden f = false -> get r (attr f) = Some v ->
     (v = VNone -> default f = Some VNone) /\ intact true t v) /\
  (forall k v, get ex k = Some v -> v <> VNone /\ ~ In k (map fst (c_params c))).

(** Everything an entity holds is there again, apart from the fields that are
    never exported and those listed in [lost]; and there is nothing new, apart
    from extra fields listed in [leaked]. *)
Definition comes_back (c : class_) (lost leaked : list pystr) (r ex r' ex' : list (pystr * val)) : Prop :=
  (forall f t v, In (f, t) (c_fields c) -> hidden f = false -> ~ In (attr f) lost -> get r (attr f) = Some v ->
     exists v', get r' (attr f) = Some v' /\ py_eq v v' = true) /\
  (forall k v, get ex k = Some v -> get ex' k = Some v) /\
  (forall k v, get ex' k = Some v -> ~ In k leaked -> get ex k = Some v).

(** Classes whose default entity does not pass validation. *)
Definition invalid_by_default : list pystr :=
  [str "ArtilleryTurret"; str "Car"; str "ElectricTurret"; str "FluidTurret"; str "SpiderVehicle"; str "Turret";
   str "LogisticStorageContainer"].
(** Fields that do not come back. *)
Definition lost_fields (c : pystr) : list pystr :=
  if pystr_eqb c (str "ArtilleryWagon") then [str "enable_logistics_while_moving"]
  else if pystr_eqb c (str "AssemblingMachine") then [str "recipe_quality"]
  else if pystr_eqb c (str "AsteroidCollector") then [str "chunk_filter"]
  else if pystr_eqb c (str "CargoLandingPad") then [str "request_filters"]
  else if pystr_eqb c (str "SpacePlatformHub") then [str "request_filters"]
  else if pystr_eqb c (str "Inserter") then [str "filters"]
  else if pystr_eqb c (str "RocketSilo") then [str "recipe"]
  else [].
(** Constructor arguments that end up as extra fields. *)
Definition leaked_arguments (c : pystr) : list pystr :=
  if pystr_eqb c (str "AgriculturalTower") then [str "direction"; str "override_stack_size"; str "items"]
  else if pystr_eqb c (str "ConstantCombinator") then [str "connections"]
  else if pystr_eqb c (str "FilterInserter") then [str "connections"]
  else [].

(** An entity whose re-import fails. *)
Definition cannot_return (c : class_) : Prop :=
  exists r, uncleared c r [] /\ forall lax, reimport lax c (to_dict true true c (VRec (c_name c) r [])) = None.
(** An entity of which a field comes back different. *)
Definition field_changes (c : class_) (a : pystr) : Prop :=
  exists r v, uncleared c r [] /\ get r a = Some v /\
    forall lax, exists r' ex' v',
      reimport lax c (to_dict true true c (VRec (c_name c) r [])) = Some (VRec (c_name c) r' ex') /\
      get r' a = Some v' /\ py_eq v v' = false.
