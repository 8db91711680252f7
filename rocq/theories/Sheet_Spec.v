(** What is expected of the attributes of blueprints, planners and books. *)
From Coq Require Import ZArith String List Bool.
From Verif Require Import Common Dict Version_Model Assign_Model Attr_Model Sheet_Model.
Import ListNotations.
Local Open Scope string_scope.
Local Open Scope list_scope.

(** ** Objects *)
Definition model (t : tree) : Prop := exists fs, t = TModel fs.
(** What [isinstance] would tell of [_root], of its body, and of its settings. *)
Definition shape (k : sheet) (t : tree) : Prop :=
  exists fs b bs, t = TModel fs /\ dget eqs fs (root k) = Some b /\ b = TModel bs /\
    (In k [Deconstruction; Upgrade] -> exists s, dget eqs bs "settings" = Some s /\ model s).

(** ** Attributes *)
Definition attributes (k : sheet) : list string :=
  match k with
  | Blueprint => ["label"; "label_color"; "description"; "icons"; "version"; "snapping_grid_size"; "snapping_grid_position";
      "absolute_snapping"; "position_relative_to_grid"; "entities"; "tiles"; "schedules"; "wires"; "stock_connections"; "index"]
  | Book => ["label"; "label_color"; "description"; "icons"; "active_index"; "version"; "index"; "blueprints"]
  | Deconstruction => ["label"; "version"; "entity_filter_mode"; "entity_filters"; "trees_and_rocks_only"; "tile_filter_mode";
      "tile_filters"; "tile_selection_mode"; "description"; "icons"; "index"]
  | Upgrade => ["label"; "version"; "index"; "description"; "icons"; "mappers"]
  end.
(** Kinds of values. *)
Definition vectors : list string := ["snapping_grid_size"; "snapping_grid_position"; "position_relative_to_grid"].
Definition containers : list string := ["entities"; "tiles"; "schedules"; "blueprints"].
Definition plain_lists : list string := ["wires"; "stock_connections"].
(** Checked whatever the mode. *)
Definition always_checked (k : sheet) : list string :=
  match k with
  | Blueprint | Book => ["label"; "icons"]
  | Deconstruction => ["label"]
  | Upgrade => ["label"; "description"; "icons"; "mappers"]
  end.
Definition never_checked : list string := vectors ++ containers ++ plain_lists.
(** The model that declares the field of a checked attribute. *)
Definition declares (k : sheet) (a : string) : cls :=
  if eqs a "index" then format k
  else match k with
       | Blueprint | Book => body_format k
       | Deconstruction | Upgrade => if mem a ["label"; "version"] then body_format k else settings_format k
       end.
(** Where an attribute is kept below [_root]. *)
Definition place (k : sheet) (a : string) : list string :=
  if eqs a "index" then ["index"]
  else if mem a ("wires" :: containers) then [("_" ++ a)%string]
  else if eqs a "snapping_grid_size" then [root k; "_snap_to_grid"]
  else if mem a vectors then [root k; ("_" ++ a)%string]
  else match k with
       | Blueprint | Book => [root k; a]
       | Deconstruction | Upgrade => if mem a ["label"; "version"] then [root k; a] else [root k; "settings"; a]
       end.
(** What a value is before it is checked. *)
Definition becomes (W : world) (a : string) (v x : tree) : Prop :=
  if mem a vectors then (v = TNone /\ x = origin W) \/ (v <> TNone /\ to_vector W v = Ok x)
  else if mem a containers then (v = TNone /\ x = empty W) \/ (v <> TNone /\ to_list W ("_" ++ a)%string v = Ok x)
  else if mem a plain_lists then (v = TNone /\ x = empty W) \/ (v <> TNone /\ x = v)
  else if eqs a "version" then x = normalize W v
  else x = v.
(** What is kept of it. *)
Definition accepts (W : world) (k : sheet) (md : mode) (a : string) (x w : tree) : Prop :=
  if mem a never_checked then w = x
  else if mem a (always_checked k) then exists o, check W md true (declares k a) a o x = Ok w
  else match md with
       | MNone => w = x
       | _ => exists o, check W md false (declares k a) a o x = Ok w
       end.
Definition takes (W : world) (k : sheet) (md : mode) (a : string) (v w : tree) : Prop :=
  exists x, becomes W a v x /\ accepts W k md a x w.

(** ** [setup] *)
(** The names under which [setup] takes an attribute, and the default. *)
Definition parameters (W : world) (k : sheet) : list (string * (list string * tree)) :=
  match k with
  | Blueprint => [
      ("label", (["label"], TNone)); ("label_color", (["label_color"], TNone)); ("description", (["description"], TNone));
      ("icons", (["icons"], TNone)); ("version", (["version"], game W));
      ("snapping_grid_size", (["snap-to-grid"; "snapping_grid_size"], TNone));
      ("snapping_grid_position", (["snapping_grid_position"], TNone));
      ("absolute_snapping", (["absolute-snapping"; "absolute_snapping"], yes W));
      ("position_relative_to_grid", (["position-relative-to-grid"; "position_relative_to_grid"], TNone));
      ("entities", (["entities"], empty W)); ("tiles", (["tiles"], empty W)); ("schedules", (["schedules"], empty W));
      ("wires", (["wires"], TNone)); ("stock_connections", (["stock_connections"], TNone)); ("index", (["index"], TNone))]
  | Book => [
      ("label", (["label"], TNone)); ("label_color", (["label_color"], TNone)); ("description", (["description"], TNone));
      ("icons", (["icons"], TNone)); ("active_index", (["active_index"], zero W)); ("version", (["version"], game W));
      ("index", (["index"], TNone)); ("blueprints", (["blueprints"], empty W))]
  | Deconstruction | Upgrade => [("label", (["label"], TNone)); ("version", (["version"], game W)); ("index", (["index"], TNone))]
  end.
(** The attributes a deconstruction planner takes from its settings. *)
Definition filters (W : world) : list (string * tree) := [
  ("entity_filter_mode", whitelist W); ("entity_filters", empty W); ("trees_and_rocks_only", no W);
  ("tile_filter_mode", whitelist W); ("tile_filters", empty W); ("tile_selection_mode", never W);
  ("description", TNone); ("icons", TNone)].
(** The first name that is given decides. *)
Inductive chosen (kw : keywords) (d : tree) : list string -> tree -> Prop :=
| chosen_default : chosen kw d [] d
| chosen_here n r v : dget eqs kw n = Some v -> chosen kw d (n :: r) v
| chosen_later n r v : dget eqs kw n = None -> chosen kw d r v -> chosen kw d (n :: r) v.
Definition members (t : tree) (fs : list (string * tree)) : Prop := t = TModel fs \/ t = TDict fs.
(** The value that [setup] is to give to an attribute. *)
Inductive wants (W : world) (k : sheet) (kw : keywords) (a : string) : tree -> Prop :=
| wants_keyword keys d v : In (a, (keys, d)) (parameters W k) -> chosen kw d keys v -> wants W k kw a v
| wants_setting d s fs v : k = Deconstruction -> In (a, d) (filters W) -> chosen kw (TDict []) ["settings"] s -> members s fs ->
    chosen fs d [a] v -> wants W k kw a v.
(** The lists that [setup] builds anew, also from [None]. *)
Definition gives (W : world) (k : sheet) (md : mode) (a : string) (v w : tree) : Prop :=
  if mem a containers then to_list W ("_" ++ a)%string v = Ok w else takes W k md a v w.
(** Attributes that hold a value of a call of [setup]. *)
Definition filled (W : world) (k : sheet) (md : mode) (kw : keywords) (a : string) (t : tree) : Prop :=
  exists v w, wants W k kw a v /\ gives W k md a v w /\ get k a t = Ok w.
(** Filters are left alone by [settings=None]. *)
Definition spared (W : world) (k : sheet) (kw : keywords) (a : string) : Prop :=
  k = Deconstruction /\ In a (map fst (filters W)) /\ chosen kw (TDict []) ["settings"] TNone.
(** What the settings of an upgrade planner are. *)
Definition replaced (W : world) (md : mode) (kw : keywords) (t : tree) : Prop :=
  exists v w o, chosen kw (TDict []) ["settings"] v /\ check W md true (body_format Upgrade) "settings" o v = Ok w /\
    read t [SItem "upgrade_planner"; SItem "settings"] = Ok w.
(** The order in which [setup] works. *)
Definition sequence (k : sheet) : list string :=
  match k with
  | Upgrade => ["label"; "version"; "settings"; "index"]
  | _ => attributes k
  end.
(** One of them is done: the attribute has its value, or is spared and reads as before. *)
Definition finished (W : world) (k : sheet) (md : mode) (kw : keywords) (t t' : tree) (a : string) : Prop :=
  if eqs a "settings" then replaced W md kw t'
  else filled W k md kw a t' \/ (spared W k kw a /\ get k a t' = get k a t).
(** Or is not: it reads as before. *)
Definition untouched (k : sheet) (t t' : tree) (a : string) : Prop :=
  if eqs a "settings" then forall b, In b ["description"; "icons"; "mappers"] -> get k b t' = get k b t
  else get k a t' = get k a t.

(** Names that are stored in [_root] itself. *)
Definition hidden (k : sheet) : list string :=
  match k with Blueprint => ["_entities"; "_tiles"; "_schedules"; "_wires"] | Book => ["_blueprints"] | _ => [] end.
(** Keywords that stand for something. *)
Definition meant (W : world) (k : sheet) (n : string) : Prop :=
  n = "item" \/ (exists a keys d, In (a, (keys, d)) (parameters W k) /\ In n keys) \/ (n = "settings" /\ In k [Deconstruction; Upgrade]).
(** Unknown keywords that are no names of something else. *)
Definition unknown (k : sheet) (kw : keywords) (n : string) : Prop := In n (map fst kw) /\ ~ In n (known k).
Definition harmless (k : sheet) (kw : keywords) : Prop := forall n, unknown k kw n -> n <> root k /\ ~ In n (hidden k).
(** Attributes that hold associations after [setup]. *)
Definition linked (k : sheet) : list string := match k with Blueprint => ["schedules"; "wires"] | _ => [] end.
(** No check looks at the object. *)
Definition blind (W : world) : Prop := forall md s M n o o' v, check W md s M n o v = check W md s M n o' v.

(** ** Constructors *)
(** The keywords a constructor passes on. *)
Inductive passes (k : sheet) : source -> keywords -> Prop :=
| passes_nothing : passes k Nothing []
| passes_data d fs i : dget eqs d (root k) = Some (TDict fs) -> chosen d TNone ["index"] i -> passes k (Data d) (fs ++ [("index", i)])
| passes_text d fs i : dget eqs d (root k) = Some (TDict fs) -> chosen d TNone ["index"] i -> passes k (Text (Ok d)) (fs ++ [("index", i)]).

(** ** What can be set up *)
Definition possible (W : world) (k : sheet) (md : mode) (kw : keywords) (a : string) : Prop :=
  if eqs a "settings" then exists v w o, chosen kw (TDict []) ["settings"] v /\ check W md true (body_format Upgrade) "settings" o v = Ok w
  else spared W k kw a \/ exists v w, wants W k kw a v /\ gives W k md a v w.
(** Validation finds nothing, and all numbers are good. *)
Definition content (W : world) (k : sheet) (vm : mode) : Prop :=
  (forall es ss ws, snd (link W es ss ws) = None) /\ (forall t, snd (review W k vm t) = None).
