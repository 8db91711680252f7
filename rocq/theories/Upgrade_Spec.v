(** What the warnings about a mapping mean, written without the functions. *)
From Coq Require Import ZArith String List Bool.
From Verif Require Import Common Dict Assign_Model Upgrade_Model.
Import ListNotations.

Definition entity_of (W : world) (n : pystr) (e : entity) : Prop := dget pystr_eqb (entities W) n = Some e.
Definition item_of (W : world) (n : pystr) (i : item) : Prop := dget pystr_eqb (items W) n = Some i.
Definition known (W : world) (n : pystr) : Prop := (exists e, entity_of W n e) \/ (exists i, item_of W n i).

(** Of the sides that are given, the names that are not known, in order. *)
Inductive strange (W : world) : list (option mid) -> list pystr -> Prop :=
| strange_nil : strange W [] []
| strange_blank l ns : strange W l ns -> strange W (None :: l) ns
| strange_known m l ns : known W (m_name m) -> strange W l ns -> strange W (Some m :: l) ns
| strange_unknown m l ns : ~ known W (m_name m) -> strange W l ns -> strange W (Some m :: l) (m_name m :: ns).

(** Names of what is left after mining. *)
Inductive products (a : entity) : list pystr -> Prop :=
| several ns r : e_minable a = Mined (Some (map Some ns)) r -> products a ns
| single n : e_minable a = Mined None (Some n) -> products a [n].

(** The rules of the game as quoted in the sources (124-132), as far as they are looked
    at: why [a], named [f], may not become [b], named [t]. *)
Inductive forbidden (W : world) (a : entity) (f : pystr) (b : entity) (t : pystr) : reason -> Prop :=
| not_upgradable : In (str "not-upgradable") (e_flags a) -> forbidden W a f b t (NotUpgradable f)
| not_minable : e_minable a = Unminable -> forbidden W a f b t (NotMinable f)
| hidden_result ns n i : products a ns -> In n ns -> item_of W n i -> In (str "hidden") (i_flags i) -> forbidden W a f b t (HiddenResult n f)
| rolling_stock k : e_type a = Some k -> In k [str "locomotive"; str "cargo-wagon"; str "fluid-wagon"; str "artillery-wagon"] ->
    forbidden W a f b t (RollingStock f)
| boxes : e_box a <> e_box b -> forbidden W a f b t (BoxesDiffer f t)
| masks : e_mask a <> e_mask b -> forbidden W a f b t (MasksDiffer f t)
| groups : e_group a <> e_group b -> forbidden W a f b t (GroupsDiffer f t).
(** The order in which rules are looked at. *)
Definition rank (r : reason) : nat :=
  match r with
  | TypesDiffer _ _ _ _ => 0 | NotUpgradable _ => 1 | NotMinable _ => 2 | HiddenResult _ _ => 3 | RollingStock _ => 4
  | BoxesDiffer _ _ => 5 | MasksDiffer _ _ => 6 | GroupsDiffer _ _ => 7
  end.

(** Prototypes the function does not stumble over: either it does not come to the
    products, or there are products and they are items, up to the first hidden one. *)
Definition shown (W : world) (n : pystr) : Prop := exists i, item_of W n i /\ ~ In (str "hidden") (i_flags i).
Definition concealed (W : world) (n : pystr) : Prop := exists i, item_of W n i /\ In (str "hidden") (i_flags i).
Inductive readable (W : world) (a : entity) : Prop :=
| by_flag : In (str "not-upgradable") (e_flags a) -> readable W a
| by_unminable : e_minable a = Unminable -> readable W a
| by_shown ns : products a ns -> Forall (shown W) ns -> readable W a
| by_concealed ns n r : products a (ns ++ n :: r) -> Forall (shown W) ns -> concealed W n -> readable W a.

(** A pair nothing is said about. *)
Inductive fine (W : world) : option mid -> option mid -> Prop :=
| fine_blank f t : f = None \/ t = None -> strange W [f; t] [] -> fine W f t
| fine_items a b : a <> b -> known W (m_name a) -> known W (m_name b) -> m_type a = Item -> m_type b = Item -> fine W (Some a) (Some b)
| fine_entities a b x y : a <> b -> m_type a = Entity -> m_type b = Entity -> entity_of W (m_name a) x -> entity_of W (m_name b) y ->
    readable W x -> (forall r, ~ forbidden W x (m_name a) y (m_name b) r) -> fine W (Some a) (Some b).

(** A pair the function raises KeyError for. *)
Inductive stumbles (W : world) : option mid -> option mid -> Prop :=
| no_entity a b : a <> b -> m_type a = Entity -> m_type b = Entity -> known W (m_name a) -> known W (m_name b) ->
    (forall x, ~ entity_of W (m_name a) x) \/ (forall y, ~ entity_of W (m_name b) y) -> stumbles W (Some a) (Some b)
| unreadable a b x : a <> b -> m_type a = Entity -> m_type b = Entity -> entity_of W (m_name a) x -> known W (m_name b) ->
    ~ readable W x -> stumbles W (Some a) (Some b).

(** The mappers at an index, and the warning for an index that is used more than once. *)
Definition at_index (ms : list mapper) (i : Z) : list mapper := filter (fun m => Z.eqb (index m) i) ms.
Definition side_name (m : option mid) (n : option pystr) : Prop := match m with Some x => n = Some (m_name x) | None => n = None end.
Inductive clash (ms : list mapper) : warning -> Prop :=
| clashing i l m f t : at_index ms i = l ++ [m] -> l <> [] -> side_name (from m) f -> side_name (to m) t ->
    clash ms (Overwritten i (Z.of_nat (length l)) f t).
Definition warned_index (w : warning) : option Z := match w with Overwritten i _ _ _ => Some i | _ => None end.
(** [i] appears first before [j] does. *)
Definition before (ms : list mapper) (i j : Z) : Prop :=
  exists l m r, ms = l ++ m :: r /\ index m = i /\ Forall (fun x => index x <> j) (l ++ [m]).
