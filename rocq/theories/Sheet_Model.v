(** Blueprints, deconstruction planners, upgrade planners and blueprint books: their
    attributes, [setup] and the constructor.

    /repo/draftsman/classes/blueprintable.py 47-145 (constructor), 184-432 (label,
    description, icons, version, index); classes/blueprint.py 492-640 ([setup]), 642-976
    (attributes); classes/blueprint_book.py 256-345 ([setup]), 347-470 (attributes);
    classes/deconstruction_planner.py 251-328 ([setup]), 345-560 (attributes);
    classes/upgrade_planner.py 406-486 ([setup]), 488-590 (attributes);
    signatures.py 206-217, 540-544.

    An object is the tree of models below [self._root], as in [Attr_Model]; private
    attributes of models are members of the model. What checks a value against a
    declared field, what turns values into vectors and lists, what replaces numbers in
    schedules and wires, and the final validation are oracles.
    Simplifications: a vector and a list are values, so that the identity of vectors
    that are updated in place and of lists that are cleared is left out; what
    [EntityList] and [setup] do to the dicts of the caller is left out; validators that
    run after the assignment of a field do not fail; warnings are left out. *)
From Coq Require Import ZArith String List Bool.
From Verif Require Import Common Dict Version_Model Assign_Model Attr_Model.
Import ListNotations.
Local Open Scope string_scope.
Local Open Scope list_scope.

Inductive sheet := Blueprint | Deconstruction | Upgrade | Book.
(** [self._root_item] (blueprint.py 468, deconstruction_planner.py 269,
    upgrade_planner.py 441, blueprint_book.py 279) *)
Definition root (k : sheet) : string :=
  match k with
  | Blueprint => "blueprint" | Deconstruction => "deconstruction_planner"
  | Upgrade => "upgrade_planner" | Book => "blueprint_book"
  end.
(** The model of the body, [self._root_format], and the whole, [self.Format]. *)
Definition format (k : sheet) : cls :=
  match k with
  | Blueprint => "Blueprint.Format" | Deconstruction => "DeconstructionPlanner.Format"
  | Upgrade => "UpgradePlanner.Format" | Book => "BlueprintBook.Format"
  end.
Definition body_format (k : sheet) : cls :=
  match k with
  | Blueprint => "Blueprint.Format.BlueprintObject"
  | Deconstruction => "DeconstructionPlanner.Format.DeconstructionPlannerObject"
  | Upgrade => "UpgradePlanner.Format.UpgradePlannerObject"
  | Book => "BlueprintBook.Format.BlueprintBookObject"
  end.
Definition settings_format (k : sheet) : cls := (body_format k ++ ".Settings")%string.

(** What is outside: checking, [normalize_version], [Vector], the list classes, numbers
    to associations, [validate(...).reissue_all()], and some constants. *)
Record world := {
  check : mode -> bool -> cls -> string -> tree -> tree -> result tree;
  normalize : tree -> tree;
  to_vector : tree -> result tree;
  to_list : string -> tree -> result tree;
  (** entities, schedules, wires; the new schedules and wires, and an exception *)
  link : tree -> tree -> tree -> (tree * tree) * option exn;
  (** for books, the new object *)
  review : sheet -> mode -> tree -> tree * option exn;
  origin : tree; empty : tree; game : tree; whitelist : tree; never : tree; yes : tree; no : tree; zero : tree
}.

(** How setters treat a value before it is stored.
    - [Checked]: [if self.validate_assignment: attempt_and_reissue else: value];
    - [Tested]: [test_replace_me];
    - [Direct]: not at all. *)
Inductive way := Checked (M : cls) | Tested (M : cls) | Direct.
(** And before that.
    - [AsIs];
    - [Versioned]: [normalize_version] (blueprintable.py 397);
    - [Vectored]: [update_from_other(value, int)], [(0, 0)] for [None];
    - [Listed]: one of the list classes, empty for [None];
    - [Orempty]: [[]] for [None]. *)
Inductive prepare := AsIs | Versioned | Vectored | Listed | Orempty.
(** An attribute: the object that holds the field, the field, how it is read. *)
Record attr := { holder : list step; name : string; getter : list step; first : prepare; how : way }.

Definition body (k : sheet) : list step := [SItem (root k)].
Definition in_settings (k : sheet) : list step := [SItem (root k); SItem "settings"].
Definition label_attr k := {| holder := body k; name := "label"; getter := body k ++ [SItem "label"]; first := AsIs; how := Tested (body_format k) |}.
Definition icons_attr k := {| holder := body k; name := "icons"; getter := body k ++ [SItem "icons"]; first := AsIs; how := Tested (body_format k) |}.
Definition body_attr k n := {| holder := body k; name := n; getter := body k ++ [SGet n]; first := AsIs; how := Checked (body_format k) |}.
Definition version_attr k := {| holder := body k; name := "version"; getter := body k ++ [SGet "version"]; first := Versioned; how := Checked (body_format k) |}.
Definition index_attr k := {| holder := []; name := "index"; getter := [SGet "index"]; first := AsIs; how := Checked (format k) |}.
Definition vector_attr n := {| holder := [SAttr "blueprint"]; name := n; getter := [SAttr "blueprint"; SAttr n]; first := Vectored; how := Direct |}.
Definition list_attr n := {| holder := []; name := n; getter := [SAttr n]; first := Listed; how := Direct |}.
Definition checked_setting k n := {| holder := in_settings k; name := n; getter := in_settings k ++ [SGet n]; first := AsIs; how := Checked (settings_format k) |}.
Definition tested_setting k n := {| holder := in_settings k; name := n; getter := in_settings k ++ [SGet n]; first := AsIs; how := Tested (settings_format k) |}.

(** The attributes that have setters. *)
Definition attrs (k : sheet) : list (string * attr) :=
  match k with
  | Blueprint => [
      ("label", label_attr k); ("label_color", body_attr k "label_color"); ("description", body_attr k "description");
      ("icons", icons_attr k); ("version", version_attr k);
      ("snapping_grid_size", vector_attr "_snap_to_grid");
      ("snapping_grid_position", vector_attr "_snapping_grid_position");
      ("absolute_snapping", body_attr k "absolute_snapping");
      ("position_relative_to_grid", vector_attr "_position_relative_to_grid");
      ("entities", list_attr "_entities"); ("tiles", list_attr "_tiles"); ("schedules", list_attr "_schedules");
      ("wires", {| holder := []; name := "_wires"; getter := [SAttr "_wires"]; first := Orempty; how := Direct |});
      ("stock_connections", {| holder := [SAttr "blueprint"]; name := "stock_connections";
                               getter := [SAttr "blueprint"; SAttr "stock_connections"]; first := Orempty; how := Direct |});
      ("index", index_attr k)]
  | Book => [
      ("label", label_attr k); ("label_color", body_attr k "label_color"); ("description", body_attr k "description");
      ("icons", icons_attr k); ("active_index", body_attr k "active_index"); ("version", version_attr k);
      ("index", index_attr k); ("blueprints", list_attr "_blueprints")]
  | Deconstruction => [
      ("label", label_attr k); ("version", version_attr k);
      ("entity_filter_mode", checked_setting k "entity_filter_mode"); ("entity_filters", checked_setting k "entity_filters");
      ("trees_and_rocks_only", checked_setting k "trees_and_rocks_only");
      ("tile_filter_mode", checked_setting k "tile_filter_mode"); ("tile_filters", checked_setting k "tile_filters");
      ("tile_selection_mode", checked_setting k "tile_selection_mode");
      ("description", checked_setting k "description"); ("icons", checked_setting k "icons"); ("index", index_attr k)]
  | Upgrade => [
      ("label", label_attr k); ("version", version_attr k); ("index", index_attr k);
      ("description", tested_setting k "description"); ("icons", tested_setting k "icons"); ("mappers", tested_setting k "mappers")]
  end.
(** What [UpgradePlanner.setup] replaces as a whole (upgrade_planner.py 464-471). *)
Definition settings_attr := {| holder := body Upgrade; name := "settings"; getter := in_settings Upgrade; first := AsIs; how := Tested (body_format Upgrade) |}.

(** [self.a] *)
Definition read_attr (p : attr) (t : tree) : result tree := read t (getter p).
Definition get (k : sheet) (a : string) (t : tree) : result tree :=
  match dget eqs (attrs k) a with Some p => read_attr p t | None => Err AttributeError end.

Definition prepared (W : world) (p : attr) (v : tree) : result tree :=
  match first p with
  | AsIs => Ok v
  | Versioned => Ok (normalize W v)
  | Vectored => match v with TNone => Ok (origin W) | _ => to_vector W v end
  | Listed => match v with TNone => Ok (empty W) | _ => to_list W (name p) v end
  | Orempty => match v with TNone => Ok (empty W) | _ => Ok v end
  end.
(** [holder.name = v], [holder["name"] = v] *)
Definition put (p : attr) (w : tree) (t : tree) : result tree := update t (holder p) (store (SItem (name p)) w).
(** What is checked has to be a model. *)
Definition examined (W : world) (md : mode) (strict : bool) (M : cls) (p : attr) (v t : tree) : result tree :=
  let* u := read t (holder p) in
  match u with TModel _ => check W md strict M (name p) t v | _ => Err AttributeError end.
Definition set_attr (W : world) (md : mode) (p : attr) (v t : tree) : outcome :=
  done t (let* x := prepared W p v in
          let* w := match how p with
                    | Checked M => if mode_bool md then examined W md false M p x t else Ok x
                    | Tested M => examined W md true M p x t
                    | Direct => Ok x
                    end in
          put p w t).
(** [self.a = v]; attributes without setters are not in the table. *)
Definition assign (W : world) (k : sheet) (md : mode) (t : tree) (a : string) (v : tree) : outcome :=
  match dget eqs (attrs k) a with Some p => set_attr W md p v t | None => (t, Some AttributeError) end.

Inductive op := Assign (a : string) (v : tree) | SetMode (m : mode).
Definition exec (W : world) (k : sheet) (s : mode * tree) (o : op) : mode * tree :=
  match o with
  | Assign a v => (fst s, fst (assign W k (fst s) (snd s) a v))
  | SetMode m => (m, snd s)
  end.
Definition run (W : world) (k : sheet) (s : mode * tree) (p : list op) : mode * tree := fold_left (exec W k) p s.

(** ** [setup] *)
(** One statement of [setup]:
    - [Take]: [self.a = keyword], where some keywords go before others;
    - [Build]: [self._root._a = List(keyword)];
    - [From]: [self.a = settings.get("a", default)], unless [settings] is [None];
    - [Whole]: the settings of an upgrade planner. *)
Inductive line := Take (a : string) (keys : list string) (d : tree) | Build (a : string) (d : tree)
  | From (a : string) (d : tree) | Whole.
Definition lines (W : world) (k : sheet) : list line :=
  match k with
  | Blueprint => [
      Take "label" ["label"] TNone; Take "label_color" ["label_color"] TNone; Take "description" ["description"] TNone;
      Take "icons" ["icons"] TNone; Take "version" ["version"] (game W);
      Take "snapping_grid_size" ["snap-to-grid"; "snapping_grid_size"] TNone;
      Take "snapping_grid_position" ["snapping_grid_position"] TNone;
      Take "absolute_snapping" ["absolute-snapping"; "absolute_snapping"] (yes W);
      Take "position_relative_to_grid" ["position-relative-to-grid"; "position_relative_to_grid"] TNone;
      Build "entities" (empty W); Build "tiles" (empty W); Build "schedules" (empty W);
      Take "wires" ["wires"] TNone; Take "stock_connections" ["stock_connections"] TNone; Take "index" ["index"] TNone]
  | Book => [
      Take "label" ["label"] TNone; Take "label_color" ["label_color"] TNone; Take "description" ["description"] TNone;
      Take "icons" ["icons"] TNone; Take "active_index" ["active_index"] (zero W); Take "version" ["version"] (game W);
      Take "index" ["index"] TNone; Build "blueprints" (empty W)]
  | Deconstruction => [
      Take "label" ["label"] TNone; Take "version" ["version"] (game W);
      From "entity_filter_mode" (whitelist W); From "entity_filters" (empty W); From "trees_and_rocks_only" (no W);
      From "tile_filter_mode" (whitelist W); From "tile_filters" (empty W); From "tile_selection_mode" (never W);
      From "description" TNone; From "icons" TNone; Take "index" ["index"] TNone]
  | Upgrade => [
      Take "label" ["label"] TNone; Take "version" ["version"] (game W); Whole; Take "index" ["index"] TNone]
  end.
Definition keywords := list (string * tree).
(** The value of a parameter: the first of its names that is given. *)
Fixpoint given (kw : keywords) (keys : list string) (d : tree) : tree :=
  match keys with
  | [] => d
  | k :: r => match dget eqs kw k with Some v => v | None => given kw r d end
  end.
(** [settings.get(a, d)] *)
Definition get_default (s : tree) (a : string) (d : tree) : result tree :=
  match s with
  | TModel fs | TDict fs => match dget eqs fs a with Some v => Ok v | None => Ok d end
  | _ => Err AttributeError
  end.
Definition play (W : world) (k : sheet) (md : mode) (kw : keywords) (l : line) (t : tree) : outcome :=
  match l with
  | Take a keys d => assign W k md t a (given kw keys d)
  | Build a d =>
    match dget eqs (attrs k) a with
    | Some p => done t (let* w := to_list W (name p) (given kw [a] d) in put p w t)
    | None => (t, Some AttributeError)
    end
  | From a d =>
    match given kw ["settings"] (TDict []) with
    | TNone => (t, None)
    | s => match get_default s a d with Ok v => assign W k md t a v | Err e => (t, Some e) end
    end
  | Whole => set_attr W md settings_attr (given kw ["settings"] (TDict [])) t
  end.
Fixpoint play_all (W : world) (k : sheet) (md : mode) (kw : keywords) (ls : list line) (t : tree) : outcome :=
  match ls with [] => (t, None) | l :: r => then_ (play W k md kw l t) (play_all W k md kw r) end.

(** Keywords that are not in [**kwargs] when its loop runs. *)
Definition known (k : sheet) : list string :=
  "item" ::
  match k with
  | Blueprint => ["label"; "label_color"; "description"; "icons"; "version"; "snapping_grid_size"; "snapping_grid_position";
      "absolute_snapping"; "position_relative_to_grid"; "entities"; "tiles"; "schedules"; "wires"; "stock_connections"; "index";
      "snap-to-grid"; "absolute-snapping"; "position-relative-to-grid"]
  | Book => ["label"; "label_color"; "description"; "icons"; "version"; "active_index"; "blueprints"; "index"]
  | Deconstruction | Upgrade => ["label"; "version"; "settings"; "index"]
  end.
Definition extras (k : sheet) (kw : keywords) : keywords := filter (fun kv => negb (mem (fst kv) (known k))) kw.
(** [for kwarg, value in kwargs.items(): self._root[kwarg] = value] *)
Definition leave (es : keywords) (t : tree) : outcome :=
  fold_left (fun o kv => then_ o (fun t => done t (store (SItem (fst kv)) (snd kv) t))) es (t, None).
(** Numbers of locomotives and ends of wires (blueprint.py 609-626). *)
Definition joined (W : world) (k : sheet) (t : tree) : outcome :=
  match k with
  | Blueprint =>
    match (let* es := get k "entities" t in let* ss := get k "schedules" t in let* ws := get k "wires" t in Ok (link W es ss ws)) with
    | Err e => (t, Some e)
    | Ok ((ss, ws), e) =>
      then_ (done t (let* t := put (list_attr "_schedules") ss t in put (list_attr "_wires") ws t)) (fun t => (t, e))
    end
  | _ => (t, None)
  end.
(** [if validate: self.validate(mode=validate).reissue_all()]: only books take over what
    validation makes of them (blueprint_book.py 500-506; blueprintable.py 515-516). *)
Definition reviewed (W : world) (k : sheet) (vm : mode) (t : tree) : outcome :=
  if mode_bool vm then
    match k with Book => review W k vm t | _ => (t, snd (review W k vm t)) end
  else (t, None).
(** [self.setup( **kw, validate=vm)] *)
Definition setup (W : world) (k : sheet) (md : mode) (kw : keywords) (vm : mode) (t : tree) : outcome :=
  then_ (play_all W k md kw (lines W k) t) (fun t =>
  then_ (leave (extras k kw) t) (fun t =>
  then_ (joined W k t) (reviewed W k vm))).

(** ** The constructor *)
(** [None], a string that decodes to a JSON object or does not, a dict, or something else. *)
Inductive source := Nothing | Text (d : result keywords) | Data (d : keywords) | Other.
(** The names a call may not give twice. *)
Definition twice (d : keywords) : bool := mem "index" (map fst d) || mem "validate" (map fst d) || mem "self" (map fst d).
(** [self.setup( **d[root], index=d.get("index", None), validate=vm)] *)
Definition setup_from (W : world) (k : sheet) (d : keywords) (missing : exn) (vm : mode) (t : tree) : outcome :=
  match dget eqs d (root k) with
  | None => (t, Some missing)
  | Some (TDict fs) =>
    if twice fs then (t, Some TypeError)
    else setup W k MNone (fs ++ [("index", given d ["index"] TNone)]) vm t
  | Some _ => (t, Some TypeError)
  end.
(** [blank] is [self.Format.model_validate(...)] with the given index; while it is
    filled, assignments are not validated (blueprintable.py 69-100). *)
Definition make (W : world) (k : sheet) (blank : tree -> tree) (src : source) (index : tree) (vm am : mode) : result (mode * tree) :=
  let t := blank index in
  match (match src with
         | Nothing => setup W k MNone [] MStrict t
         | Text (Err e) => (t, Some e)
         | Text (Ok d) => setup_from W k d IncorrectBlueprintTypeError vm t
         | Data d => setup_from W k d KeyError vm t
         | Other => (t, Some DataFormatError)
         end) with
  | (t, None) => Ok (am, t)
  | (_, Some e) => Err e
  end.
