(** C67: the register of entities and the classes made from it
    (/repo/draftsman/environment/update.py 38-120 and 878-1170,
    data/entities.py 134-255, entity.py 106-322). *)
From Coq Require Import ZArith NArith List Bool String Permutation.
From Verif Require Import Common Dict Ranking_Model Ranking_Spec Registry_Model Registry_Spec Registry_Proofs.
Import ListNotations.
Local Open Scope string_scope.
Local Open Scope list_scope.

(** When the register can be made at all: every table that is there has something
    to register, there are logistic containers, everything registered has a box,
    every logistic container a mode, and everything can be put in order. *)
Theorem C67_extract_iff : forall items subgroups groups data, tidy data ->
  ((exists r, extract_entities items subgroups groups data = Ok r) <->
    (forall p l, In p all_tables -> p <> str "logistic-container" -> dget pystr_eqb data p = Some l -> chosen data p <> []) /\
    (exists l, dget pystr_eqb data (str "logistic-container") = Some l /\ l <> []) /\
    (forall p k s, In p all_tables -> In (k, s) (chosen data p) -> s_box s <> None) /\
    (forall k s, In (k, s) (chosen data (str "logistic-container")) -> s_mode s <> None) /\
    (forall p k s e, In p all_tables -> In (k, s) (chosen data p) -> registers p k s e -> exists rk, ranked items subgroups groups (proto_of e) rk)).
Proof. exact extract_iff. Qed.
Print Assumptions C67_extract_iff.

(** What is registered: exactly what is not passed over, once each, in order, with
    its box. *)
Theorem C67_register : forall items subgroups groups data r, tidy data -> extract_entities items subgroups groups data = Ok r ->
  NoDup (map fst (raw r)) /\
  (forall k e, In (k, e) (raw r) <-> exists p s, In p all_tables /\ In (k, s) (chosen data p) /\ registers p k s e) /\
  (exists es, Permutation es (raw r) /\ get_order (map (fun p => proto_of (snd p)) es) items subgroups groups = Ok (map fst (raw r))) /\
  (forall n, dget pystr_eqb (sets r) n = match dget pystr_eqb (raw r) n with Some e => Some [e_box e] | None => None end).
Proof. exact extract_register. Qed.
Print Assumptions C67_register.

(** The list of each type, and of each mode of logistic container; no others. *)
Theorem C67_types : forall items subgroups groups data r, tidy data -> extract_entities items subgroups groups data = Ok r ->
  (forall p, In p all_tables -> p <> str "logistic-container" -> dget pystr_eqb (of_type r) p = Some (map fst (chosen data p))) /\
  (dget pystr_eqb (of_type r) (str "logistic-container") = match map fst (chosen data (str "logistic-container")) with [] => None | l => Some l end) /\
  (forall m t, logistic_list m t -> dget pystr_eqb (of_type r) t = Some (of_mode data m)) /\
  (forall t, ~ In t all_tables -> (forall m, ~ logistic_list m t) -> dget pystr_eqb (of_type r) t = None).
Proof. exact extract_types. Qed.
Print Assumptions C67_types.

Theorem C67_flips : forall items subgroups groups data r, tidy data -> extract_entities items subgroups groups data = Ok r ->
  (forall p k s, In p all_tables -> In (k, s) (chosen data p) -> exists b, is_flippable r k = Ok b /\ (b = true <-> flips p k)) /\
  (forall k, ~ In k (map fst (raw r)) -> is_flippable r k = Err KeyError).
Proof. exact extract_flips. Qed.
Print Assumptions C67_flips.

(** The classes tried are those of the types that have one, each once. *)
Theorem C67_factory : (forall t c, In (t, c) factory <-> typed t /\ c = class_name t) /\ NoDup (map fst factory) /\ NoDup (map snd factory).
Proof. exact (Logic.conj factory_exact factory_nodup). Qed.
Print Assumptions C67_factory.

(** Every registered entity gets the class of its type, or of its mode; any other
    name the generic one. *)
Theorem C67_class : forall items subgroups groups data r, tidy data -> extract_entities items subgroups groups data = Ok r ->
  (forall p k s, In p all_tables -> In (k, s) (chosen data p) -> exists c, classed p s c /\ new_entity r k = Ok c) /\
  (forall k, ~ In k (map fst (raw r)) -> new_entity r k = Ok None).
Proof. exact extract_class. Qed.
Print Assumptions C67_class.

Example C67_ex :
  match extract_entities [] rg_subgroups rg_groups rg_data with
  | Ok r =>
      tidy rg_data /\ map fst (raw r) = [str "asteroid-collector"; str "buffer-chest"; str "odd-chest"; str "train-stop"; str "stone-wall"] /\
      new_entity r (str "buffer-chest") = Ok (Some (str "LogisticBufferContainer")) /\ new_entity r (str "odd-chest") = Ok None /\
      new_entity r (str "train-stop") = Ok (Some (str "TrainStop")) /\ new_entity r (str "asteroid-collector") = Ok None /\
      new_entity r (str "ghost") = Ok None /\ is_flippable r (str "train-stop") = Ok false /\ is_flippable r (str "stone-wall") = Ok true
  | Err _ => False
  end.
Proof.
  destruct (extract_entities [] rg_subgroups rg_groups rg_data) as [r|e] eqn:E; [|vm_compute in E; discriminate].
  split; [exact rg_tidy|]. vm_compute in E. inversion E; subst r. repeat split; vm_compute; reflexivity.
Qed.
(** An empty table stops it, as does one with nothing to register. *)
Example C67_ex_stops :
  extract_entities [] rg_subgroups rg_groups ((str "loader", []) :: rg_data) = Err AttributeError /\
  extract_entities [] rg_subgroups rg_groups ((str "loader", [src "ghost" "loader" (Some [str "not-blueprintable"]) None]) :: rg_data) = Err KeyError.
Proof. split; vm_compute; reflexivity. Qed.

(** Any number of additions of new names: each gets its class and its entry, what
    was there stays as it was, the lists grow at the end. *)
Theorem C67_additions : forall l r, complete r -> fresh r l ->
  complete (perform_all l r) /\
  (forall n, ~ In n (map a_name l) -> new_entity (perform_all l r) n = new_entity r n /\ dget pystr_eqb (raw (perform_all l r)) n = dget pystr_eqb (raw r) n /\
     dget pystr_eqb (sets (perform_all l r)) n = dget pystr_eqb (sets r) n) /\
  (forall a, In a l ->
     (typed (a_type a) -> new_entity (perform_all l r) (a_name a) = Ok (Some (class_name (a_type a)))) /\
     (~ typed (a_type a) -> new_entity (perform_all l r) (a_name a) = Ok None) /\
     dget pystr_eqb (raw (perform_all l r)) (a_name a) = Some (made (a_name a) (a_type a) (a_box a) (a_rest a)) /\
     dget pystr_eqb (sets (perform_all l r)) (a_name a) = Some [a_box a] /\ is_flippable (perform_all l r) (a_name a) = Err KeyError) /\
  (forall n, is_flippable (perform_all l r) n = is_flippable r n) /\
  (forall t, match dget pystr_eqb (of_type (perform_all l r)) t with Some ns => ns | None => [] end =
     match dget pystr_eqb (of_type r) t with Some ns => ns | None => [] end ++ map a_name (filter (fun a => pystr_eqb (a_type a) t) l)).
Proof. exact additions. Qed.
Print Assumptions C67_additions.
(** The register that is made is one to add to. *)
Theorem C67_complete : forall items subgroups groups data r, tidy data -> extract_entities items subgroups groups data = Ok r -> complete r.
Proof. exact extract_complete. Qed.
Print Assumptions C67_complete.
Example C67_ex_add : complete blank /\
  new_entity (perform_all [mkAdd (str "a") (str "wall") ex_box plain; mkAdd (str "b") (str "logistic-container") ex_box plain] blank) (str "a") = Ok (Some (str "Wall")) /\
  new_entity (perform_all [mkAdd (str "a") (str "wall") ex_box plain; mkAdd (str "b") (str "logistic-container") ex_box plain] blank) (str "b") = Ok None.
Proof. split; [exact blank_complete|]. split; vm_compute; reflexivity. Qed.

(** An entity added again under another type keeps its old class, and added again
    is listed twice. *)
Theorem C67_added_again_refuted : exists r a e, complete r /\ typed (a_type a) /\ dget pystr_eqb (raw (perform r a)) (a_name a) = Some e /\ e_type e = a_type a /\
  new_entity (perform r a) (a_name a) = Ok (Some (str "Container")) /\ class_name (a_type a) = str "Wall" /\
  dget pystr_eqb (of_type (perform (perform r a) a)) (a_type a) = Some [a_name a; a_name a].
Proof. exact readded. Qed.
Print Assumptions C67_added_again_refuted.
(** [hidden] is lost when flags are given. *)
Theorem C67_hidden_refuted : exists r a e, complete r /\ fresh r [a] /\ s_hidden (a_rest a) = true /\ s_flags (a_rest a) = Some [str "placeable-neutral"] /\
  dget pystr_eqb (raw (perform r a)) (a_name a) = Some e /\ ~ In (str "hidden") (e_flags e).
Proof. exact hidden_lost. Qed.
Print Assumptions C67_hidden_refuted.

(** The layer of objects is in every default but those of rail signals and rolling
    stock. *)
Theorem C67_object_layer : forall t, In (str "object-layer") (default_mask t) <->
  ~ In t [str "rail-signal"; str "rail-chain-signal"; str "locomotive"; str "cargo-wagon"; str "fluid-wagon"; str "artillery-wagon"].
Proof. exact object_layer. Qed.
Print Assumptions C67_object_layer.
(** The other layers, type by type. *)
Theorem C67_other_layers : forall t,
  (In (str "train-layer") (default_mask t) <-> In t [str "gate"; str "locomotive"; str "cargo-wagon"; str "fluid-wagon"; str "artillery-wagon"]) /\
  (In (str "transport-belt-layer") (default_mask t) <-> In t [str "linked-belt"; str "loader"; str "splitter"; str "transport-belt"; str "underground-belt"]) /\
  (In (str "rail-layer") (default_mask t) <-> In t [str "straight-rail"; str "curved-rail"; str "rail-signal"; str "rail-chain-signal"]) /\
  (In (str "floor-layer") (default_mask t) <-> In t [str "heat-pipe"; str "straight-rail"; str "curved-rail"; str "rail-signal"; str "rail-chain-signal"; str "transport-belt"]) /\
  (In (str "item-layer") (default_mask t) <-> ~ In t [str "heat-pipe"; str "land-mine"; str "transport-belt"; str "locomotive"; str "cargo-wagon"; str "fluid-wagon"; str "artillery-wagon"]) /\
  (In (str "water-tile") (default_mask t) <-> ~ In t [str "rail-signal"; str "rail-chain-signal"; str "locomotive"; str "cargo-wagon"; str "fluid-wagon"; str "artillery-wagon"]) /\
  (In (str "player-layer") (default_mask t) <-> ~ In t [str "heat-pipe"; str "land-mine"; str "linked-belt"; str "loader"; str "straight-rail"; str "curved-rail"; str "rail-signal"; str "rail-chain-signal"; str "locomotive"; str "cargo-wagon"; str "fluid-wagon"; str "artillery-wagon"; str "splitter"; str "transport-belt"; str "underground-belt"]).
Proof. exact other_layers. Qed.
Print Assumptions C67_other_layers.
(** An entity whose layers are given as a table shares no layer with any that has
    the default, so the two are never seen to overlap. *)
Theorem C67_given_layers_refuted : forall r a b e e', a_name a <> a_name b -> s_mask (a_rest a) = Some [str "layers"] -> s_mask (a_rest b) = None ->
  dget pystr_eqb (raw (perform (perform r a) b)) (a_name a) = Some e -> dget pystr_eqb (raw (perform (perform r a) b)) (a_name b) = Some e' ->
  forall layer, In layer (e_mask e) -> ~ In layer (e_mask e').
Proof. exact given_layers. Qed.
Print Assumptions C67_given_layers_refuted.
