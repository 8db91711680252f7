(** C64: comparing and merging entities. *)
From Coq Require Import ZArith QArith String List Bool.
From Verif Require Import Common Dict Trim_Model Trim_Proofs Wires_Model Merge_Model Merge_Classes Merge_Spec Merge_Proofs.
Import ListNotations.
Local Open Scope string_scope.
Local Open Scope list_scope.

(** Two entities may be merged exactly if they have the same class, name, global
    position, ID and direction; asking never fails. *)
Theorem C64_mergable : forall e o, sound e -> sound o ->
  exists b, mergable methods_table bases_table e o = Ok b /\ (b = true <-> same_place e o).
Proof. exact mergable_spec. Qed.
Print Assumptions C64_mergable.

(** Two entities are equal exactly if they agree in class, global position, ID
    and every field that is not overlooked. *)
Theorem C64_equal : forall e o, sound e -> sound o -> controlled e -> controlled o ->
  exists b, equal methods_table bases_table e o = Ok b /\
    (b = true <-> e_class e = e_class o /\
                  (fst (e_pos e) == fst (e_pos o))%Q /\ (snd (e_pos e) == snd (e_pos o))%Q /\
                  e_id e = e_id o /\
                  (forall f, In f (fields_of (e_class e)) -> overlooked (e_class e) f = false -> agree e o f)).
Proof. exact equal_spec. Qed.
Print Assumptions C64_equal.

Theorem C64_equal_refl : forall e, sound e -> controlled e -> equal methods_table bases_table e e = Ok true.
Proof. exact equal_refl. Qed.
Print Assumptions C64_equal_refl.

Theorem C64_equal_sym : forall e o, sound e -> sound o -> controlled e -> controlled o ->
  equal methods_table bases_table e o = equal methods_table bases_table o e.
Proof. exact equal_sym. Qed.
Print Assumptions C64_equal_sym.

Theorem C64_equal_trans : forall a b c, sound a -> sound b -> sound c -> controlled a -> controlled b -> controlled c ->
  equal methods_table bases_table a b = Ok true -> equal methods_table bases_table b c = Ok true ->
  equal methods_table bases_table a c = Ok true.
Proof. exact equal_trans. Qed.
Print Assumptions C64_equal_trans.

(** Equal entities may be merged. *)
Theorem C64_equal_mergable : forall e o, sound e -> sound o -> controlled e -> controlled o ->
  equal methods_table bases_table e o = Ok true -> mergable methods_table bases_table e o = Ok true.
Proof. exact equal_same_place. Qed.
Print Assumptions C64_equal_mergable.

(** Merging takes over every field but those that identify the entity and the
    forgotten ones, and redirects the wires of classes wires attach to. *)
Theorem C64_merge : forall check self other e o ws,
  self <> other -> sound e -> sound o -> controlled o -> e_class e = e_class o ->
  accepted check (e_validates e) o -> (forall w, ws = Some w -> associated w) ->
  exists e' ws',
    merge check methods_table bases_table self other e o ws = ((e', ws'), None) /\
    e_class e' = e_class e /\ e_pos e' = e_pos e /\ e_id e' = e_id e /\ e_validates e' = e_validates e /\
    (forall f, In f (fields_of (e_class e)) -> stays (e_class e) f = false -> get (e_root e') f = get (e_root o) f) /\
    (forall f, ~ In f (fields_of (e_class e)) \/ stays (e_class e) f = true -> get (e_root e') f = get (e_root e) f) /\
    (wired (e_class e) -> ws' = option_map (map (moved self other)) ws) /\
    (~ wired (e_class e) -> ws' = ws).
Proof. exact merge_spec. Qed.
Print Assumptions C64_merge.

(** Afterwards the two are equal. *)
Theorem C64_merged_equal : forall check self other e o ws,
  self <> other -> sound e -> sound o -> controlled o -> same_place e o ->
  accepted check (e_validates e) o -> (forall w, ws = Some w -> associated w) ->
  exists e' ws',
    merge check methods_table bases_table self other e o ws = ((e', ws'), None) /\
    equal methods_table bases_table e' o = Ok true /\ mergable methods_table bases_table e' o = Ok true.
Proof. exact merged_equal. Qed.
Print Assumptions C64_merged_equal.

(** Merging once more changes nothing. *)
Theorem C64_merge_twice : forall check self other e o ws,
  self <> other -> sound e -> sound o -> controlled o -> same_place e o ->
  accepted check (e_validates e) o -> (forall w, ws = Some w -> associated w) ->
  forall e' ws', merge check methods_table bases_table self other e o ws = ((e', ws'), None) ->
    exists e'', merge check methods_table bases_table self other e' o ws' = ((e'', ws'), None) /\
      e_class e'' = e_class e' /\ e_pos e'' = e_pos e' /\ e_id e'' = e_id e' /\
      forall f, get (e_root e'') f = get (e_root e') f.
Proof. exact merge_twice. Qed.
Print Assumptions C64_merge_twice.

(** No wire to the other entity is left, and none is lost. *)
Theorem C64_no_wire_left : forall check self other e o ws e' ws',
  self <> other -> sound e -> sound o -> controlled o -> e_class e = e_class o ->
  accepted check (e_validates e) o -> associated ws -> wired (e_class e) ->
  merge check methods_table bases_table self other e o (Some ws) = ((e', Some ws'), None) ->
  List.length ws' = List.length ws /\ (forall w, In w ws' -> ~ In (WRef (Some other)) (ends w)).
Proof. exact no_wire_left. Qed.
Print Assumptions C64_no_wire_left.

(** However validation answers, an attempt to merge leaves what identifies the
    entity, its extra fields and the forgotten fields alone. *)
Theorem C64_refused : forall check self other e o ws, In (e_class e) classes ->
  let e' := fst (fst (merge check methods_table bases_table self other e o ws)) in
  e_class e' = e_class e /\ e_pos e' = e_pos e /\ e_id e' = e_id e /\ e_validates e' = e_validates e /\
  (forall f, ~ In f (fields_of (e_class e)) \/ stays (e_class e) f = true -> get (e_root e') f = get (e_root e) f).
Proof. exact merge_framed. Qed.
Print Assumptions C64_refused.

(** Some attributes are checked even if the entity is not to check assignments;
    the others take anything then. *)
Theorem C64_always : forall check e f v x, e_validates e = false -> check (e_class e) false f v = Err x -> f <> str "recipe" -> v <> VNone ->
  let always := map str ["color"; "filters"; "inventory"; "request_filters"; "infinity_settings"; "parameters"; "alert_parameters"] in
  (In f always -> write check e (Fld f) v = (e, Some x)) /\
  (~ In f always -> write check e (Fld f) v = (with_root e (set (e_root e) f v), None)).
Proof.
  intros check e f v x V C NR NN always. assert (M : forall l, mem f l = true <-> In f l).
  { intro l. unfold mem. rewrite existsb_exists. split; [intros (y & I & E); apply pystr_eqb_eq in E; subst; exact I|].
    intro I. exists f. split; [exact I|apply pystr_eqb_refl]. }
  unfold write. rewrite V. cbn [orb]. change always_checked with always. split; intro I.
  - rewrite (proj2 (M always) I), C. destruct (pystr_eqb f (str "recipe")) eqn:E; [apply pystr_eqb_eq in E; contradiction|reflexivity].
  - destruct (mem f always) eqn:E; [apply M in E; contradiction|]. destruct v; try reflexivity. contradiction.
Qed.
Print Assumptions C64_always.

(** An overlooked field can be anything: the entities are equal all the same. *)
Theorem C64_overlooked : forall e f v, sound e -> controlled e -> overlooked (e_class e) f = true -> f <> str "position" -> wf v ->
  equal methods_table bases_table e (with_root e (set (e_root e) f v)) = Ok true.
Proof. exact (fun e f v S C O _ W => overlooked_equal e f v S C O W). Qed.
Print Assumptions C64_overlooked.

(** Not so: equal entities have the same quality. *)
Theorem C64_equal_same_refuted : exists e o, sound e /\ sound o /\ controlled e /\ controlled o /\
  equal methods_table bases_table e o = Ok true /\ ~ agree e o (str "quality").
Proof. exact equal_different. Qed.
Print Assumptions C64_equal_same_refuted.

(** Not so: attributes of the other entity take precedence
    (entity_like.py 165-185). *)
Theorem C64_precedence_refuted : exists e o e', sound e /\ sound o /\ controlled o /\ same_place e o /\ accepted lax true o /\
  merge lax methods_table bases_table 0 1 e o None = ((e', None), None) /\ ~ agree e' o (str "quality").
Proof. exact merge_loses. Qed.
Print Assumptions C64_precedence_refuted.

(** Not so: comparing never fails. An accumulator whose control behavior is
    [None] cannot even be compared with itself. *)
Theorem C64_comparable_refuted : exists e, sound e /\ equal methods_table bases_table e e = Err AttributeError.
Proof. exact equal_raises. Qed.
Print Assumptions C64_comparable_refuted.
(** In full for accumulators: those that agree otherwise are equal if the signals
    their control behaviors give are; if one gives none the comparison fails. *)
Theorem C64_accumulator : forall e o v w,
  e_class e = str "Accumulator" -> e_class o = str "Accumulator" ->
  (forall f, f <> str "control_behavior" -> In f (fields_of (str "Accumulator")) -> agree e o f) ->
  (fst (e_pos e) == fst (e_pos o))%Q -> (snd (e_pos e) == snd (e_pos o))%Q -> e_id e = e_id o ->
  get (e_root e) (str "control_behavior") = Some v -> get (e_root o) (str "control_behavior") = Some w -> py_eq v w = true ->
  (forall x y, gives v (str "output_signal") x -> gives w (str "output_signal") y -> equal methods_table bases_table e o = Ok (py_eq x y)) /\
  ((forall x, ~ gives v (str "output_signal") x) \/ (forall y, ~ gives w (str "output_signal") y) -> equal methods_table bases_table e o = Err AttributeError).
Proof. exact accumulator_exact. Qed.
Print Assumptions C64_accumulator.

(** Not so: a merge that fails leaves the entity as it was. *)
Theorem C64_untouched_refuted : exists e o e', sound e /\ controlled e /\ sound o /\ same_place e o /\ accepted lax true o /\
  merge lax methods_table bases_table 0 1 e o None = ((e', None), Some AttributeError) /\
  get (e_root e') (str "tags") = get (e_root o) (str "tags") /\ get (e_root e') (str "tags") <> get (e_root e) (str "tags").
Proof. exact half_merged. Qed.
Print Assumptions C64_untouched_refuted.

(** Two accumulators, one with tags, merged; a wire is redirected. *)
Example C64_example :
  let e := accumulator (str "normal") charge [] in
  let o := accumulator (str "normal") charge [(str "a", VInt 1)] in
  equal methods_table bases_table e o = Ok false /\
  mergable methods_table bases_table e o = Ok true /\
  merge lax methods_table bases_table 0 1 e o (Some [(WRef (Some 1%nat), 1%Z, WRef (Some 2%nat), 1%Z)]) =
    ((o, Some [(WRef (Some 0%nat), 1%Z, WRef (Some 2%nat), 1%Z)]), None).
Proof. vm_compute. repeat split. Qed.
(** The hypotheses above are met by them. *)
Example C64_example_sound :
  sound (accumulator (str "normal") charge []) /\ controlled (accumulator (str "normal") charge []) /\
  accepted lax true (accumulator (str "normal") charge []) /\ wired (str "Accumulator") /\ ~ wired (str "Pipe").
Proof.
  split; [exact (accumulator_sound _ _ _ charge_wf empty_wf)|]. split; [apply accumulator_controlled|].
  split; [apply lax_accepted; discriminate|].
  split; [eexists; split; [reflexivity|left; vm_compute; tauto]|].
  intros (l & G & H). injection G as <-. destruct H as [[H|[]]|[H|[]]]; discriminate.
Qed.
