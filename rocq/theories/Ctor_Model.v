(** Constructors of entities: keyword arguments handed up the method resolution order.

    /repo/draftsman/classes/entity.py 200-331 ([Entity.__init__]); exportable.py 201-212;
    entity_like.py 37-40; the [__init__] of classes/mixins/*.py and prototypes/*.py, which
    are the data of [Ctor_Table]; signatures.py 243-247 (extra keys kept, names and
    aliases). Setters are those of [Attr_Model].

    A tree stands for a Python object, the same tree for the same object. Arguments
    are given by name; given by position they have the name of the parameter.
    Simplifications: sizes, collision sets, sets of valid fuels and ingredients, and
    notes are left out (their computation does not fail); where the entity is placed
    is recorded, not computed ([Position_Model] does), and placing it does not fail;
    names of entities are hashable; a key that is the name of a field whose alias is
    given too is dropped. *)
From Coq Require Import ZArith String List Bool.
From Verif Require Import Common Dict Version_Model Assign_Model Attr_Model.
Import ListNotations.
Local Open Scope string_scope.
Local Open Scope list_scope.

(** ** Data: what initialisers say *)
(** Values written in the sources: [None], [{}], [[]], ["input"], [Direction.NORTH],
    [Orientation.NORTH], [self.Format.InventoryFilters()], [self.a], and the list of
    names of a kind of entity. *)
Inductive dflt := DNone | DDict | DList | DInput | DNorth | DNorthward | DFilters | DOf (a : string) | DNames.
(** [p]; [d if p is None else p]; [kwargs.get("k", d)]; [kwargs["k"] if "k" in kwargs
    else kwargs["j"]]; [d]; [kwargs["k"] if "k" in kwargs and p == "input" else p]. *)
Inductive expr :=
| Param (p : string)
| Else (p : string) (d : dflt)
| Kw (k : string) (d : dflt)
| KwOf (k j : string)
| Const (d : dflt)
| InputOr (p k : string).
(** [self.a = e] of a property of [Attr_Table]; of a property written by hand that
    stores in [self._root.a]; of no property; [self._root.f = e]; setting the position
    if there is one in [kwargs], else the tile position; [self.validate_assignment = e]. *)
Inductive stmt :=
| Attribute (a : string) (e : expr)
| Custom (a : string) (e : expr)
| Keep (a : string) (e : expr)
| Field (f : string) (e : expr)
| Place
| Mode (e : expr).
(** Parameters (and whether they have a default), the keywords of the call of the next
    initialiser (before [kwargs]), and the statements after it. *)
Record init := { i_params : list (string * bool); i_call : list (string * expr); i_post : list stmt }.
Record data := { d_inits : list (string * init); d_aliases : list (string * (string * string)); d_baseless : list string }.

(** ** What is not computed here *)
Record world := {
  default : cls -> string -> tree;               (** the default of a parameter, made once *)
  constant : dflt -> tree;                       (** values written in the sources, but [None] *)
  computed : string -> tree -> tree;             (** [self.default_buffer_size] and alike, of the name *)
  is_input : tree -> bool;                       (** [v == "input"] *)
  orientation_of : tree -> result tree;          (** mixins/orientation.py 91-100 *)
  to_mode : tree -> result mode;                 (** [ValidationMode(v)] *)
  fresh : cls -> string -> tree;                 (** the default of a field of a model *)
  convert : cls -> string -> tree -> result tree;(** pydantic, in mode NONE *)
  verify : oracle
}.

(** ** Objects *)
(** Where: [(true, v)] after [self.position = v], [(false, v)] after [self.tile_position = v]. *)
Record obj := { o_mode : mode; o_root : tree; o_place : bool * tree; o_own : list (string * tree) }.
Definition set_root (o : obj) (t : tree) : obj := {| o_mode := o_mode o; o_root := t; o_place := o_place o; o_own := o_own o |}.
Definition set_place (o : obj) (p : bool * tree) : obj := {| o_mode := o_mode o; o_root := o_root o; o_place := p; o_own := o_own o |}.
Definition set_own (o : obj) (a : string) (v : tree) : obj := {| o_mode := o_mode o; o_root := o_root o; o_place := o_place o; o_own := dset eqs (o_own o) a v |}.
Definition set_mode (o : obj) (m : mode) : obj := {| o_mode := m; o_root := o_root o; o_place := o_place o; o_own := o_own o |}.

Definition dict := list (string * tree).
Definition has (d : dict) (k : string) : bool := match dget eqs d k with Some _ => true | None => false end.
Definition is_none (v : tree) : bool := match v with TNone => true | _ => false end.
Definition without (ks : list string) (d : dict) : dict := filter (fun kv => negb (mem (fst kv) ks)) d.

Section Construct.
Variables (T : data) (W : world).

(** ** Building the model (pydantic) *)
Definition field_names (L : lib) (M : cls) : list string :=
  match order L M with
  | Ok m => List.concat (map (fun d => match dget eqs (l_fields L) d with Some fs => fs | None => [] end) m)
  | Err _ => []
  end.
Definition own_alias (f : string) (d : cls) : option string :=
  first_some (fun r => if eqs (fst r) d && eqs (fst (snd r)) f then Some (snd (snd r)) else None) (d_aliases T).
Definition alias (L : lib) (M : cls) (f : string) : option string :=
  match order L M with Ok m => first_some (own_alias f) m | Err _ => None end.
(** The alias is looked up first, then the name. *)
Definition value_for (L : lib) (M : cls) (d : dict) (f : string) : option tree :=
  match alias L M f with
  | Some k => match dget eqs d k with Some v => Some v | None => dget eqs d f end
  | None => dget eqs d f
  end.
Definition field_value (L : lib) (M : cls) (d : dict) (f : string) : result (string * tree) :=
  let* v := match value_for L M d f with Some v => convert W M f v | None => Ok (fresh W M f) end in
  Ok (f, v).
Definition claimed (L : lib) (M : cls) (k : string) : bool :=
  mem k (field_names L M) || existsb (fun f => match alias L M f with Some a => eqs a k | None => false end) (field_names L M).
Definition build (L : lib) (M : cls) (d : dict) : result tree :=
  let* fs := map_result (field_value L M d) (field_names L M) in
  Ok (TModel (fs ++ filter (fun kv => negb (claimed L M (fst kv))) d)).

(** ** Calls *)
Definition eval (env kwargs : dict) (root : tree) (e : expr) : result tree :=
  let of d := match d with
              | DNone => Ok TNone
              | DOf a => let* n := child root (SAttr "name") in Ok (computed W a n)
              | _ => Ok (constant W d)
              end in
  match e with
  | Param p => match dget eqs env p with Some v => Ok v | None => Err UnboundLocalError end
  | Else p d => match dget eqs env p with Some v => if is_none v then of d else Ok v | None => Err UnboundLocalError end
  | Kw k d => match dget eqs kwargs k with Some v => Ok v | None => of d end
  | KwOf k j => match dget eqs kwargs k with
                | Some v => Ok v
                | None => match dget eqs kwargs j with Some v => Ok v | None => Err KeyError end
                end
  | Const d => of d
  | InputOr p k => match dget eqs env p with
                   | Some v => match dget eqs kwargs k with Some u => Ok (if is_input W v then u else v) | None => Ok v end
                   | None => Err UnboundLocalError
                   end
  end.
(** Binding arguments to parameters; the rest is [kwargs]. *)
Fixpoint bind_params (d : cls) (ps : list (string * bool)) (kw : dict) : result dict :=
  match ps with
  | [] => Ok []
  | (p, opt) :: r =>
    let* v := match dget eqs kw p with
              | Some v => Ok v
              | None => if opt then Ok (default W d p) else Err TypeError
              end in
    let* env := bind_params d r kw in
    Ok ((p, v) :: env)
  end.
(** The keywords of a call, one after the other, then [kwargs]. A keyword that is in
    both is an error. *)
Fixpoint args (env kwargs : dict) (call : list (string * expr)) : result dict :=
  match call with
  | [] => Ok kwargs
  | (k, e) :: r =>
    let* v := eval env kwargs TNone e in
    let* d := args env kwargs r in
    if has kwargs k then Err TypeError else Ok ((k, v) :: d)
  end.

(** ** Statements *)
(** Setters written by hand, in mode NONE: request_items.py 97-118, orientation.py
    84-102, and those that store what they are given. *)
Definition adapt (a : string) (v : tree) : result tree :=
  if eqs a "items" then Ok (if is_none v then constant W DList else v)
  else if eqs a "orientation" then orientation_of W v
  else Ok v.
Definition where_to (env kwargs : dict) : bool * tree :=
  match dget eqs kwargs "position" with
  | Some v => if is_none v then (false, match dget eqs env "tile_position" with Some u => u | None => TNone end) else (true, v)
  | None => (false, match dget eqs env "tile_position" with Some u => u | None => TNone end)
  end.
Definition step_stmt (L : lib) (c : cls) (env kwargs : dict) (o : obj) (s : stmt) : result obj :=
  match s with
  | Attribute a e =>
    let* v := eval env kwargs (o_root o) e in
    match assign L (verify W) c (o_mode o) (o_root o) a v with
    | (t, None) => Ok (set_root o t)
    | (_, Some x) => Err x
    end
  | Custom a e =>
    let* v := eval env kwargs (o_root o) e in
    let* w := adapt a v in
    let* t := store (SAttr a) w (o_root o) in
    Ok (set_root o t)
  | Keep a e => let* v := eval env kwargs (o_root o) e in Ok (set_own o a v)
  | Field f e =>
    let* v := eval env kwargs (o_root o) e in
    let* t := store (SAttr f) v (o_root o) in
    Ok (set_root o t)
  | Place => Ok (set_place o (where_to env kwargs))
  | Mode e => let* v := eval env kwargs (o_root o) e in let* m := to_mode W v in Ok (set_mode o m)
  end.
Fixpoint stmts (L : lib) (c : cls) (env kwargs : dict) (o : obj) (ss : list stmt) : result obj :=
  match ss with
  | [] => Ok o
  | s :: r => let* o' := step_stmt L c env kwargs o s in stmts L c env kwargs o' r
  end.

(** ** [Entity.__init__] *)
Definition entity_params : list (string * bool) :=
  [("name", false); ("similar_entities", false); ("quality", true); ("tile_position", true); ("id", true); ("validate", true); ("validate_assignment", true)].
(** entity.py 288-331, after the model is built. *)
Definition entity_post : list stmt :=
  [Keep "similar_entities" (Param "similar_entities"); Custom "name" (Param "name"); Attribute "quality" (Param "quality");
   Keep "id" (Param "id"); Place; Attribute "tags" (Kw "tags" DDict)].
(** [{"x": 0, "y": 0}] *)
Definition origin : tree := TDict [("x", TVal 0); ("y", TVal 0)].
(** Of two bindings of a key, the first counts. *)
Definition entity_init (L : lib) (c : cls) (kw : dict) : result obj :=
  let* env := bind_params "Entity" entity_params kw in
  let kwargs := without (map fst entity_params) kw in
  let name := match dget eqs env "name" with Some v => v | None => TNone end in
  let quality := match dget eqs env "quality" with Some v => v | None => TNone end in
  if is_none name then Err DataFormatError else
  let kwargs := match dget eqs kwargs "position" with
                | Some v => if is_none v then without ["position"] kwargs else kwargs
                | None => kwargs
                end in
  let* M := model_of L c [] in
  let d := kwargs ++ [("name", name); ("quality", quality); ("position", origin); ("entity_number", TVal 0)] in
  let* root := build L M d in
  stmts L c env kwargs {| o_mode := MNone; o_root := root; o_place := (false, TVal 0); o_own := [] |} entity_post.

(** ** Constructing an entity *)
(** The initialisers from [d] on, in the order of the class [c]. *)
Fixpoint construct (L : lib) (c : cls) (chain : list cls) (kw : dict) : result obj :=
  match chain with
  | [] => Err TypeError
  | d :: r =>
    if eqs d "Entity" then entity_init L c kw
    else match dget eqs (d_inits T) d with
         | None => construct L c r kw
         | Some i =>
           let* env := bind_params d (i_params i) kw in
           let kwargs := without (map fst (i_params i)) kw in
           let* kw' := args env kwargs (i_call i) in
           let* o := construct L c r kw' in
           stmts L c env kwargs o (i_post i)
         end
  end.
Definition chain (L : lib) (c : cls) : result (list cls) :=
  if mem c (d_baseless T) then Ok [c; "object"] else order L c.
(** [C] called with the keywords [kw]. *)
Definition new (L : lib) (c : cls) (kw : dict) : result obj :=
  let* m := chain L c in construct L c m kw.
End Construct.
