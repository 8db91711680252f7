(** Trimmed exports re-import to the same object (C48). *)
From Coq Require Import ZArith QArith String List Bool.
From Verif Require Import Common Dict Trim_Model Trim_Spec Trim_Proofs Trim_Classes Trim_Check Trim_Class_Proofs Trim_Witness_Proofs.
Import ListNotations.
Local Open Scope string_scope.
Local Open Scope list_scope.
Local Open Scope Z_scope.

(** Over any schema: whatever is left out, the object that comes back is equal. *)
Theorem C48_trimmed_exports_restore : forall lax con xn xd t x, sane t -> fits t x -> intact xn t x ->
  exists y, load lax con t (dump xn xd t x) = Some y /\ fits t y /\ py_eq x y = true.
Proof. exact roundtrip. Qed.
Print Assumptions C48_trimmed_exports_restore.

(** The condition is needed: a cleared field, and a field that is never
    exported, comes back as its default, and if it has none, nothing comes back;
    a cleared extra field is gone. *)
Theorem C48_cleared_field_becomes_default : forall lax con xd c fs r ex r' ex' f t,
  sane (Model c fs) -> fits (Model c fs) (VRec c r ex) -> In (f, t) fs -> get r (attr f) = Some VNone \/ hidden f = true ->
  load lax con (Model c fs) (dump true xd (Model c fs) (VRec c r ex)) = Some (VRec c r' ex') ->
  get r' (attr f) = default f.
Proof. exact cleared_default. Qed.
Print Assumptions C48_cleared_field_becomes_default.

Theorem C48_cleared_required_field_fails : forall lax con xd c fs r ex f t,
  sane (Model c fs) -> fits (Model c fs) (VRec c r ex) -> In (f, t) fs -> get r (attr f) = Some VNone -> default f = None ->
  load lax con (Model c fs) (dump true xd (Model c fs) (VRec c r ex)) = None.
Proof. exact cleared_required. Qed.
Print Assumptions C48_cleared_required_field_fails.

Theorem C48_cleared_extra_field_lost : forall lax con xd c fs r ex r' ex' k,
  sane (Model c fs) -> fits (Model c fs) (VRec c r ex) -> get ex k = Some VNone ->
  load lax con (Model c fs) (dump true xd (Model c fs) (VRec c r ex)) = Some (VRec c r' ex') -> get ex' k = None.
Proof. exact cleared_extra. Qed.
Print Assumptions C48_cleared_extra_field_lost.

(** Entities of the 83 classes. *)
Theorem C48_entities_come_back : forall lax xd c r ex,
  In c entity_classes -> c_name c <> str "Loader" -> ~ In (c_name c) invalid_by_default -> uncleared c r ex ->
  exists r' ex', reimport lax c (to_dict true xd c (VRec (c_name c) r ex)) = Some (VRec (c_name c) r' ex') /\
    comes_back c (lost_fields (c_name c)) (leaked_arguments (c_name c)) r ex r' ex'.
Proof. exact entities_back. Qed.
Print Assumptions C48_entities_come_back.

Theorem C48_default_entities_refuted :
  Forall cannot_return [c_ArtilleryTurret; c_Car; c_ElectricTurret; c_FluidTurret; c_SpiderVehicle; c_Turret; c_LogisticStorageContainer].
Proof. exact invalid_fail. Qed.
Print Assumptions C48_default_entities_refuted.

Theorem C48_lost_fields_refuted :
  Forall (fun ca => field_changes (fst ca) (snd ca))
    [(c_ArtilleryWagon, str "enable_logistics_while_moving");
     (c_AssemblingMachine, str "recipe_quality");
     (c_CargoLandingPad, str "request_filters");
     (c_SpacePlatformHub, str "request_filters");
     (c_Inserter, str "filters");
     (c_RocketSilo, str "recipe")].
Proof. exact lost_change. Qed.
Print Assumptions C48_lost_fields_refuted.

Theorem C48_chunk_filter_refuted : field_changes c_AsteroidCollector (str "chunk_filter").
Proof. exact chunk_filter_change. Qed.
Print Assumptions C48_chunk_filter_refuted.

Theorem C48_loader_type_refuted : field_changes c_Loader (str "io_type").
Proof. exact loader_change. Qed.
Print Assumptions C48_loader_type_refuted.

(** The electric energy interface also leaves out what equals the defaults of
    its prototype. *)
Theorem C48_energy_interface : forall xn size production usage c v d,
  sane (format c) -> fits (format c) v ->
  energy_to_dict xn true size production usage c v = Ok d ->
  (forall k dflt w, In (k, dflt) [(str "buffer_size", size); (str "power_production", production); (str "power_usage", usage)] ->
     get (to_dict xn true c v) k = Some w -> num_of w <> None -> py_eq w (energy_field dflt (get d k)) = true) /\
  (forall k, ~ In k [str "buffer_size"; str "power_production"; str "power_usage"] -> get d k = get (to_dict xn true c v) k).
Proof. exact energy_back. Qed.
Print Assumptions C48_energy_interface.

Theorem C48_energy_interface_refuted : forall xn size production usage c v,
  get (to_dict xn true c v) (str "buffer_size") = None -> size = VNone ->
  energy_to_dict xn true size production usage c v = Err KeyError.
Proof. exact energy_fails. Qed.
Print Assumptions C48_energy_interface_refuted.

(** ** Examples *)
Definition belt (direction : Z) (io : string) (extra : list (pystr * val)) : val :=
  VRec (str "UndergroundBelt") (sample c_UndergroundBelt [(str "direction", VInt direction); (str "io_type", VStr (str io))]) extra.

Example trimmed_belt : to_dict true true c_UndergroundBelt (belt 4 "output" [(str "note", VInt 7)]) =
  [(str "name", VStr (str "thing"));
   (str "position", VMap [(str "x", VFloat (1 # 2)); (str "y", VFloat (1 # 2))]);
   (str "direction", VInt 4); (str "type", VStr (str "output")); (str "note", VInt 7)].
Proof. vm_compute. reflexivity. Qed.
Example plain_belt : to_dict true true c_UndergroundBelt (belt 0 "input" []) =
  [(str "name", VStr (str "thing")); (str "position", VMap [(str "x", VFloat (1 # 2)); (str "y", VFloat (1 # 2))])].
Proof. vm_compute. reflexivity. Qed.
Example full_belt : map fst (to_dict true false c_UndergroundBelt (belt 0 "input" [])) =
  [str "name"; str "quality"; str "position"; str "tags"; str "direction"; str "type"].
Proof. vm_compute. reflexivity. Qed.
Example belt_back :
  reimport nolax c_UndergroundBelt (to_dict true true c_UndergroundBelt (belt 4 "output" [(str "note", VInt 7)])) =
  Some (belt 4 "output" [(str "note", VInt 7)]).
Proof. vm_compute. reflexivity. Qed.
(** Every class has entities the theorem speaks of. *)
Example uncleared_entities : Forall (fun c => uncleared c (sample c []) []) entity_classes.
Proof. apply Forall_forall. exact default_uncleared. Qed.
Example classes_covered : List.length entity_classes = 83%nat.
Proof. reflexivity. Qed.
Example lab_back :
  reimport nolax c_Lab (to_dict true true c_Lab (VRec (str "Lab") (sample c_Lab []) [])) = Some (VRec (str "Lab") (sample c_Lab []) []).
Proof. vm_compute. reflexivity. Qed.
(** The tower's constructor adds fields of its own. *)
Example tower_leaks :
  match reimport nolax c_AgriculturalTower (to_dict true true c_AgriculturalTower (VRec (str "AgriculturalTower") (sample c_AgriculturalTower []) [])) with
  | Some (VRec _ _ ex) => map fst ex = [str "direction"; str "override_stack_size"; str "items"]
  | _ => False
  end.
Proof. vm_compute. reflexivity. Qed.
