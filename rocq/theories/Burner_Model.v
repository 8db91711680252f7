(** Fuel: which items an entity burns, and what it says about requests for others.

    /repo/draftsman/classes/mixins/burner_energy_source.py 27-68 (the validator),
    102-129 (the cache filled by the constructor), 134-201;
    prototypes/burner_generator.py 35-63 and 101-103, prototypes/furnace.py 47-77,
    classes/mixins/request_items.py 90-118, environment/update.py 1244-1251.

    What pydantic makes of a value assigned to [items] is an oracle
    ([convert]): a list of requests, nothing, or a refusal, in each case with
    warnings.  As in Assign_Model, validators of base classes run first, and
    exceptions other than ValueError and AssertionError pass through.

    Simplifications: of a request only the name of the item is looked at, the
    rest is a token; an entity keeps the name it was made with; the texts of
    warnings are constructors with the values in them; sets are lists. *)
From Coq Require Import ZArith String List Bool.
From Verif Require Import Common Dict Assign_Model.
Import ListNotations.
Local Open Scope string_scope.
Local Open Scope list_scope.

(** ** What burns *)
(** [items.fuels], update.py 1244-1251: the declared categories, then the items
    with their categories in order. *)
Definition fuels := list (pystr * list pystr).
Definition mem (x : pystr) (l : list pystr) : bool := existsb (pystr_eqb x) l.
Definition add (x : pystr) (l : list pystr) : list pystr := if mem x l then l else l ++ [x].
Definition declared (categories : list pystr) : fuels := fold_left (fun f c => dset pystr_eqb f c []) categories [].
Fixpoint sort_items (f : fuels) (its : list (pystr * option pystr)) : result fuels :=
  match its with
  | [] => Ok f
  | (_, None) :: r => sort_items f r
  | (i, Some c) :: r =>
    match dget pystr_eqb f c with
    | Some l => sort_items (dset pystr_eqb f c (add i l)) r
    | None => Err KeyError
    end
  end.
Definition extract_fuels (categories : list pystr) (its : list (pystr * option pystr)) : result fuels :=
  sort_items (declared categories) its.
(** [items.all_fuel_items], data/items.py 17-19. *)
Definition all_fuel_items (f : fuels) : list pystr := flat_map snd f.

(** An energy source: its type, and the categories of fuel in the two ways they can be given. *)
Record source := mkSource { s_type : option pystr; s_categories : option (list pystr); s_category : option pystr }.
(** A prototype; [None]: no such key. *)
Record proto := mkProto { p_energy : option source; p_burner : option source }.
Record world := mkWorld { w_entities : list (pystr * proto); w_fuels : fuels }.

Inductive kind := Drill | Reactor | Furnace | BurnerGenerator.
(** [input_energy_source]: burner_energy_source.py 134-144, burner_generator.py 101-103. *)
Definition input_energy_source (k : kind) (p : proto) : result (option source) :=
  match k with
  | BurnerGenerator => match p_burner p with Some s => Ok (Some s) | None => Err KeyError end
  | _ =>
    match p_energy p with
    | None => Err KeyError
    | Some s =>
      match s_type s with
      | None => Err KeyError
      | Some t => if pystr_eqb t (str "burner") then Ok (Some s) else Ok None
      end
    end
  end.
(** 115-122 *)
Definition categories (s : source) : list pystr :=
  match s_categories s with
  | Some cs => cs
  | None => [match s_category s with Some c => c | None => str "chemical" end]
  end.

(** [_valid_fuel_items]: shared by all entities of the four classes. *)
Definition cache := list (pystr * option (list pystr)).
(** The loop 125-126: what is there when it ends, and how it ends. *)
Fixpoint gather (f : fuels) (cs : list pystr) (acc : list pystr) : list pystr * option exn :=
  match cs with
  | [] => (acc, None)
  | c :: r =>
    match dget pystr_eqb f c with
    | Some l => gather f r (fold_left (fun a i => add i a) l acc)
    | None => (acc, Some KeyError)
    end
  end.
(** 102-129: what constructing an entity does to the cache. *)
Definition construct (W : world) (k : kind) (n : pystr) (c : cache) : cache * option exn :=
  match dget pystr_eqb c n with
  | Some _ => (c, None)
  | None =>
    match dget pystr_eqb (w_entities W) n with
    | None => (dset pystr_eqb c n None, None)
    | Some p =>
      match input_energy_source k p with
      | Err e => (c, Some e)
      | Ok None => (dset pystr_eqb c n (Some []), None)
      | Ok (Some s) => let (l, e) := gather (w_fuels W) (categories s) [] in (dset pystr_eqb c n (Some l), e)
      end
    end
  end.
(** Constructions one after the other, each in the data of its time; whoever
    makes them may catch the exceptions. *)
Definition constructs (c : cache) (l : list (world * kind * pystr)) : cache :=
  fold_left (fun c x => fst (construct (fst (fst x)) (snd (fst x)) (snd x) c)) l c.
(** [allowed_fuel_items] 178-187 *)
Definition allowed_fuel_items (c : cache) (n : pystr) : option (list pystr) :=
  match dget pystr_eqb c n with Some l => l | None => None end.

(** ** What is assigned *)
(** [ItemRequest]: the name of the item and the rest. *)
Record request := mkRequest { r_name : option pystr; r_rest : Z }.
(** What stands under ["id"] in a dictionary. *)
Inductive ident :=
| Short (s : pystr)                        (** a string *)
| Long (name : option (option pystr)).     (** a dictionary or a SignalID; [None]: no ["name"] *)
Inductive entry :=
| Plain (id : option ident) (rest : Z)     (** a dictionary; [None]: no ["id"] *)
| Model (r : request)
| Text (s : pystr)
| Thing (z : Z).                           (** anything else, neither subscriptable nor hashable *)
Inductive value :=
| VNone
| VList (l : list entry)
| VKeys (ks : list pystr)                  (** a dictionary *)
| VIterator (l : list entry)               (** yields its contents once *)
| VOther (z : Z).

(** [for item in …], after the conversion has gone through the value. *)
Definition contents (v : value) : result (list entry) :=
  match v with
  | VList l => Ok l
  | VKeys ks => Ok (map Text ks)
  | VIterator _ => Ok []
  | VNone | VOther _ => Err TypeError
  end.
(** [item["id"]["name"]] *)
Definition name_of (e : entry) : result (option pystr) :=
  match e with
  | Plain None _ => Err KeyError
  | Plain (Some (Short _)) _ => Err TypeError
  | Plain (Some (Long None)) _ => Err KeyError
  | Plain (Some (Long (Some n))) _ => Ok n
  | Model r => Ok (r_name r)
  | Text _ | Thing _ => Err TypeError
  end.

Inductive warning :=
| Said (n : Z)                                    (** by the conversion *)
| FuelLimitation (item : pystr) (valid : list pystr)
| ItemLimitation (item : pystr).

(** ** Validators *)
(** What they look at besides the items. *)
Record env := mkEnv {
  convert : mode -> value -> list warning * option (option (list request));
  allowed : option (list pystr);                  (** [entity.allowed_fuel_items] *)
  all_fuel : list pystr;                          (** [items.all_fuel_items] *)
  item_known : pystr -> bool;                     (** [items.raw] *)
  module_known : pystr -> bool;                   (** [modules.raw] *)
  ingredients : option (list pystr) }.            (** [entity.allowed_input_ingredients] *)

(** [fuel_items] 191-201 *)
Fixpoint fuel_items (E : env) (es : list entry) : result (list pystr) :=
  match es with
  | [] => Ok []
  | e :: r =>
    let* n := name_of e in
    let* ns := fuel_items E r in
    Ok (match n with Some x => if mem x (all_fuel E) then x :: ns else ns | None => ns end)
  end.
(** [ensure_fuel_type_valid] 31-68, above MINIMUM and for a value that is not None. *)
Definition check_fuel (E : env) (items : value) : result (list warning) :=
  match allowed E with
  | None => Ok []
  | Some l =>
    let* es := contents items in
    let* ns := fuel_items E es in
    Ok (flat_map (fun n => if mem n l then [] else [FuelLimitation n l]) ns)
  end.
(** [item in d] of a dictionary with strings as keys. *)
Definition among (known : pystr -> bool) (e : entry) : result bool :=
  match e with Text s => Ok (known s) | _ => Err TypeError end.
(** [only_allow_fuel_item_requests] burner_generator.py 37-63 *)
Fixpoint only_fuel (E : env) (es : list entry) : result (list warning) :=
  match es with
  | [] => Ok []
  | e :: r =>
    let* b := among (item_known E) e in
    let* ws := only_fuel E r in
    Ok (match e with Text s => if b && negb (mem s (all_fuel E)) then ItemLimitation s :: ws else ws | _ => ws end)
  end.
Definition check_only_fuel (E : env) (items : value) : result (list warning) :=
  match allowed E with
  | None => Ok []
  | Some _ => let* es := contents items in only_fuel E es
  end.
(** [ensure_input_ingredients_are_valid] furnace.py 49-77 *)
Fixpoint smelts (E : env) (es : list entry) : result (list warning) :=
  match es with
  | [] => Ok []
  | e :: r =>
    let* b := among (module_known E) e in
    let* w := (if b then Ok []
               else match ingredients E, e with
                    | Some l, Text s => Ok (if mem s l then [] else [ItemLimitation s])
                    | _, _ => Err TypeError
                    end) in
    let* ws := smelts E r in
    Ok (w ++ ws)
  end.
Definition check_smelts (E : env) (items : value) : result (list warning) :=
  let* es := contents items in smelts E es.

(** The validators of [items] of a class, in order. *)
Definition validators (k : kind) : list (env -> value -> result (list warning)) :=
  match k with
  | Drill | Reactor => [check_fuel]
  | Furnace => [check_fuel; check_smelts]
  | BurnerGenerator => [check_fuel; check_only_fuel]
  end.
Fixpoint run_all (vs : list (env -> value -> result (list warning))) (E : env) (items : value) : result (list warning) :=
  match vs with
  | [] => Ok []
  | v :: r => let* a := v E items in let* b := run_all r E items in Ok (a ++ b)
  end.

(** ** [entity.items = v], request_items.py 97-118: the items then, the warnings
    issued and the exception raised. *)
Definition nothing (v : value) : value := match v with VNone => VList [] | _ => v end.
Definition assign (E : env) (k : kind) (m : mode) (old v : value) : value * list warning * option exn :=
  if mode_bool m then
    match convert E m v with
    | (_, None) => (old, [], Some DataFormatError)
    | (ws, Some r) =>
      let said := match r with
                  | None => Ok []
                  | Some _ => if mode_le m MMinimum then Ok [] else run_all (validators k) E v
                  end in
      match said with
      | Err e => (v, [], Some e)
      | Ok ws' => (match r with None => VList [] | Some rs => VList (map Model rs) end, ws ++ ws', None)
      end
    end
  else (nothing v, [], None).
