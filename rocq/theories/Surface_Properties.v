(** C68: what surfaces allow (/repo/draftsman/data/planets.py, utils.py 882-902,
    data/recipes.py 75-84, classes/entity.py 647-698). *)
From Coq Require Import QArith List Bool String.
From Verif Require Import Common Dict Surface_Model Surface_Spec Surface_Proofs.
Import ListNotations.
Local Open Scope string_scope.
Local Open Scope list_scope.

(** Conditions pass if every one about a property that is there is met; it fails
    only at one that names no property. *)
Theorem C68_passes : forall props l,
  (passes_surface_conditions None props = Ok true) /\
  (passes_surface_conditions (Some l) props = Ok true <-> proper l /\ forall c, In c l -> meets props c) /\
  (proper l -> passes_surface_conditions (Some l) props = Ok true \/ passes_surface_conditions (Some l) props = Ok false) /\
  (forall e, passes_surface_conditions (Some l) props = Err e <->
     e = KeyError /\ exists l1 c l2, l = l1 ++ c :: l2 /\ c_property c = None /\ proper l1 /\ forall c', In c' l1 -> meets props c').
Proof. exact passes_spec. Qed.
Print Assumptions C68_passes.
(** Neither order nor repetition matters. *)
Theorem C68_passes_set : forall props l l', proper l -> (forall c, In c l <-> In c l') ->
  passes_surface_conditions (Some l) props = passes_surface_conditions (Some l') props.
Proof. exact passes_set. Qed.
Print Assumptions C68_passes_set.

(** A known surface has the four properties, its own value or the standard one, and
    no others; an unknown one has none. *)
Theorem C68_properties : forall raw n,
  (forall p k, dget pystr_eqb raw n = Some p -> forall v, dget pystr_eqb (get_surface_properties raw n) k = Some v <->
     exists d, standard k d /\ v = match dget pystr_eqb (p_fields p) k with Some x => x | None => d end) /\
  (dget pystr_eqb raw n = None -> get_surface_properties raw n = []).
Proof. exact properties_exact. Qed.
Print Assumptions C68_properties.

(** Unknown entities and those without conditions go anywhere, all on unknown
    surfaces. *)
Theorem C68_placable : forall raw entities e n,
  (dget pystr_eqb entities e = None \/ dget pystr_eqb entities e = Some None -> is_placable_on raw entities e n = Ok true) /\
  (forall l, dget pystr_eqb entities e = Some (Some l) -> is_placable_on raw entities e n = passes_surface_conditions (Some l) (get_surface_properties raw n)) /\
  (forall l, dget pystr_eqb entities e = Some (Some l) -> proper l -> dget pystr_eqb raw n = None -> is_placable_on raw entities e n = Ok true).
Proof. exact placable. Qed.
Print Assumptions C68_placable.
(** Recipes the same, but an unknown one fails. *)
Theorem C68_usable : forall raw recipes r n,
  (dget pystr_eqb recipes r = None -> is_usable_on raw recipes r n = Err KeyError) /\
  (forall x, dget pystr_eqb recipes r = Some x -> is_usable_on raw recipes r n = is_placable_on raw recipes r n).
Proof. exact usable. Qed.
Print Assumptions C68_usable.

(** The answer is the game's where the planet's own fields say what its surface
    properties say. *)
Theorem C68_right : forall raw entities e n p l, dget pystr_eqb raw n = Some p -> dget pystr_eqb entities e = Some (Some l) -> proper l ->
  (forall k d, standard k d -> dget pystr_eqb (p_surface p) k = dget pystr_eqb (p_fields p) k) ->
  (forall c k, In c l -> c_property c = Some k -> exists d, standard k d) ->
  (is_placable_on raw entities e n = Ok true <-> forall c k v, In c l -> c_property c = Some k -> really p k v -> within c v).
Proof. exact right_when. Qed.
Print Assumptions C68_right.

(** But in the extracted data the properties are one level down, so that all known
    planets are alike ... *)
Theorem C68_alike_refuted : forall raw entities e n n', nested raw -> dget pystr_eqb raw n <> None -> dget pystr_eqb raw n' <> None ->
  is_placable_on raw entities e n = is_placable_on raw entities e n'.
Proof. exact all_alike. Qed.
Print Assumptions C68_alike_refuted.
(** ... and entities are placed where the game refuses them ... *)
Theorem C68_placable_refuted : exists raw entities e n p l, nested raw /\ dget pystr_eqb raw n = Some p /\ dget pystr_eqb entities e = Some (Some l) /\ proper l /\
  is_placable_on raw entities e n = Ok true /\ exists c k v, In c l /\ c_property c = Some k /\ really p k v /\ ~ within c v.
Proof. exact wrong_place. Qed.
Print Assumptions C68_placable_refuted.
(** ... and recipes refused where the game takes them. *)
Theorem C68_usable_refuted : exists raw recipes r n p l, nested raw /\ dget pystr_eqb raw n = Some p /\ dget pystr_eqb recipes r = Some (Some l) /\ proper l /\
  is_usable_on raw recipes r n = Ok false /\ forall c k v, In c l -> c_property c = Some k -> really p k v -> within c v.
Proof. exact wrong_recipe. Qed.
Print Assumptions C68_usable_refuted.
(** Conditions on any other property are ignored. *)
Theorem C68_other_property_refuted : exists raw entities e n p l, dget pystr_eqb raw n = Some p /\ dget pystr_eqb entities e = Some (Some l) /\ proper l /\
  is_placable_on raw entities e n = Ok true /\
  exists c k v, In c l /\ c_property c = Some k /\ dget pystr_eqb (p_fields p) k = Some v /\ dget pystr_eqb (p_surface p) k = Some v /\ ~ within c v.
Proof. exact ignored. Qed.
Print Assumptions C68_other_property_refuted.

Example C68_example :
  let raw := [(str "x", mkPlanet [(str "pressure", 300)] [(str "pressure", 300)])] in
  let entities := [(str "biolab", Some biolab); (str "boiler", Some [mkCond (Some (str "pressure")) (Some 10) None; mkCond (Some (str "gravity")) None (Some 10)]); (str "lamp", None)] in
  is_placable_on raw entities (str "biolab") (str "x") = Ok false /\ is_placable_on raw entities (str "boiler") (str "x") = Ok true /\
  is_placable_on raw entities (str "lamp") (str "x") = Ok true /\ is_placable_on raw entities (str "biolab") (str "y") = Ok true /\
  is_usable_on raw entities (str "none") (str "x") = Err KeyError.
Proof. repeat split; vm_compute; reflexivity. Qed.
