(** C76: what upgrade planners say about their mappings. *)
From Coq Require Import ZArith String List Bool Sorted.
From Verif Require Import Common Dict Assign_Model Upgrade_Model Upgrade_Spec Upgrade_Proofs Upgrade_Claims_Proofs.
Import ListNotations.

(** ** One pair *)
(** Names that are neither of an entity nor of an item are named, and nothing else is said. *)
Theorem C76_unknown : forall W f t ns, strange W [f; t] ns -> ns <> [] -> check_pair W f t = Ok (Some (map UnknownElement ns)).
Proof. exact check_unknown. Qed.
Print Assumptions C76_unknown.
(** A mapping of something to itself, and between an entity and an item. *)
Theorem C76_itself : forall W a, known W (m_name a) -> check_pair W (Some a) (Some a) = Ok (Some [NoEffect (m_name a)]).
Proof. exact check_itself. Qed.
Print Assumptions C76_itself.
Theorem C76_types : forall W a b, known W (m_name a) -> known W (m_name b) -> m_type a <> m_type b ->
  check_pair W (Some a) (Some b) = Ok (Some [Prohibited (TypesDiffer (m_name a) (m_type a) (m_name b) (m_type b))]).
Proof. exact check_types. Qed.
Print Assumptions C76_types.
(** Two entities: the first rule that is broken is named, and if nothing is said none is. *)
Theorem C76_entities : forall W a b x y, a <> b -> m_type a = Entity -> m_type b = Entity ->
  entity_of W (m_name a) x -> entity_of W (m_name b) y -> readable W x ->
  (check_pair W (Some a) (Some b) = Ok None /\ forall r, ~ forbidden W x (m_name a) y (m_name b) r) \/
  (exists r, check_pair W (Some a) (Some b) = Ok (Some [Prohibited r]) /\ forbidden W x (m_name a) y (m_name b) r /\
             forall r', forbidden W x (m_name a) y (m_name b) r' -> rank r <= rank r').
Proof. exact check_readable. Qed.
Print Assumptions C76_entities.
(** Nothing is prohibited without a reason. *)
Theorem C76_sound : forall W f t ws r, check_pair W f t = Ok (Some ws) -> In (Prohibited r) ws ->
  exists a b, f = Some a /\ t = Some b /\ ws = [Prohibited r] /\
    ((r = TypesDiffer (m_name a) (m_type a) (m_name b) (m_type b) /\ m_type a <> m_type b) \/
     (m_type a = Entity /\ m_type b = Entity /\ exists x y, entity_of W (m_name a) x /\ entity_of W (m_name b) y /\
      forbidden W x (m_name a) y (m_name b) r)).
Proof. exact check_sound. Qed.
Print Assumptions C76_sound.
(** The pairs nothing is said about, and the pairs that raise, and with what. *)
Theorem C76_fine : forall W f t, check_pair W f t = Ok None <-> fine W f t.
Proof. exact check_fine. Qed.
Print Assumptions C76_fine.
Theorem C76_raises : forall W f t e, check_pair W f t = Err e <-> e = KeyError /\ stumbles W f t.
Proof. exact check_raises. Qed.
Print Assumptions C76_raises.
(** Two upgrades of entities in a row may be made at once. *)
Theorem C76_chain : forall W a b c, a <> c -> m_type a = Entity ->
  check_pair W (Some a) (Some b) = Ok None -> check_pair W (Some b) (Some c) = Ok None -> check_pair W (Some a) (Some c) = Ok None.
Proof. exact check_chain. Qed.
Print Assumptions C76_chain.

(** ** The mappers of a planner *)
(** First what is said about each pair, in order, then once for every index that is used
    more than once, in the order of first use, how often and what is there last. *)
Theorem C76_mappers : forall W md ms ws, md = MStrict \/ md = MPedantic -> ensure_mappers W md (Some ms) = Ok ws ->
  exists xs os is, ws = List.concat (map (fun x => match x with Some y => y | None => [] end) xs) ++ os /\
    Forall2 (fun m x => check_pair W (from m) (to m) = Ok x) ms xs /\
    (forall w, In w os <-> clash ms w) /\ map warned_index os = map Some is /\ StronglySorted (before ms) is.
Proof. exact ensure_ok. Qed.
Print Assumptions C76_mappers.
Theorem C76_silent : forall W md ms, md = MStrict \/ md = MPedantic ->
  (ensure_mappers W md (Some ms) = Ok [] <-> NoDup (map index ms) /\ Forall (fun m => fine W (from m) (to m)) ms).
Proof. exact ensure_silent. Qed.
Print Assumptions C76_silent.
Theorem C76_mappers_raise : forall W md ms e, md = MStrict \/ md = MPedantic ->
  (ensure_mappers W md (Some ms) = Err e <-> e = KeyError /\ Exists (fun m => stumbles W (from m) (to m)) ms).
Proof. exact ensure_raises. Qed.
Print Assumptions C76_mappers_raise.
Theorem C76_lenient : forall W md ms, md = MNone \/ md = MMinimum -> ensure_mappers W md ms = Ok [].
Proof. exact lenient_silent. Qed.
Print Assumptions C76_lenient.

(** ** What does not hold *)
(** A warning for every pair that makes no sense: minable entities that leave nothing
    (crash-site-chest-1 and the logos of the game are such), ... *)
Theorem C76_productless_refuted : forall W a b x, a <> b -> m_type a = Entity -> m_type b = Entity -> entity_of W (m_name a) x -> known W (m_name b) ->
  ~ In (str "not-upgradable") (e_flags x) -> e_minable x = Mined None None -> check_pair W (Some a) (Some b) = Err KeyError.
Proof. exact productless. Qed.
Print Assumptions C76_productless_refuted.
(** ... entities that leave something that is no item, ... *)
Theorem C76_fluid_refuted : forall W a b x n, a <> b -> m_type a = Entity -> m_type b = Entity -> entity_of W (m_name a) x -> known W (m_name b) ->
  ~ In (str "not-upgradable") (e_flags x) -> products x [n] -> (forall i, ~ item_of W n i) -> check_pair W (Some a) (Some b) = Err KeyError.
Proof. exact fluid_product. Qed.
Print Assumptions C76_fluid_refuted.
(** ... and items that are called entities. *)
Theorem C76_item_refuted : forall W a b i, a <> b -> m_type a = Entity -> m_type b = Entity -> item_of W (m_name a) i ->
  (forall x, ~ entity_of W (m_name a) x) -> known W (m_name b) -> check_pair W (Some a) (Some b) = Err KeyError.
Proof. exact item_as_entity. Qed.
Print Assumptions C76_item_refuted.
(** Whether items are hidden is looked up among their flags; the field of the game is
    never looked at, and hidden items go unnoticed. *)
Theorem C76_hidden_ignored : forall h W f t, check_pair (rehide h W) f t = check_pair W f t.
Proof. exact rehide_check. Qed.
Print Assumptions C76_hidden_ignored.
Theorem C76_hidden_refuted : exists W a b x i, entity_of W (m_name a) x /\ products x [m_name a] /\ item_of W (m_name a) i /\ i_hidden i = true /\
  check_pair W (Some a) (Some b) = Ok None.
Proof. exact loaders. Qed.
Print Assumptions C76_hidden_refuted.
(** The rule that something has to build the target is not looked at. *)
Theorem C76_target_refuted : exists W a b y, entity_of W (m_name b) y /\ e_minable y = Unminable /\ (forall i, ~ item_of W (m_name b) i) /\
  check_pair W (Some a) (Some b) = Ok None.
Proof. exact unbuildable. Qed.
Print Assumptions C76_target_refuted.

(** ** Examples *)
Definition at_ (i : Z) (f t : option mid) : mapper := {| from := f; to := t; index := i |}.
Example C76_ex_belt : check_pair excerpt (ent "transport-belt") (ent "fast-transport-belt") = Ok None.
Proof. reflexivity. Qed.
Example C76_ex_wagon : check_pair excerpt (ent "cargo-wagon") (ent "fluid-wagon") = Ok (Some [Prohibited (RollingStock (str "cargo-wagon"))]).
Proof. reflexivity. Qed.
Example C76_ex_crash : check_pair excerpt (ent "crash-site-chest-1") (ent "wooden-chest") = Err KeyError.
Proof. reflexivity. Qed.
Example C76_ex_mappers :
  ensure_mappers excerpt MStrict (Some [at_ 3 (ent "a") (ent "b"); at_ 5 None None; at_ 3 (ent "small-worm-turret") (ent "loader"); at_ 5 None (ent "loader"); at_ 3 None None]) =
  Ok [UnknownElement (str "a"); UnknownElement (str "b"); Prohibited (NotMinable (str "small-worm-turret"));
      Overwritten 3 2 None None; Overwritten 5 1 None (Some (str "loader"))].
Proof. reflexivity. Qed.
