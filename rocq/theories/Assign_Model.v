(** Validated attribute assignment.

    /repo/draftsman/classes/exportable.py 14-44 (attempt_and_reissue) and 81-130
    (test_replace_me), constants.py 801-849 (ValidationMode), signatures.py
    76-100 (known_name), 118-205 (DraftsmanBaseModel), and the validators and
    property setters of the attributes listed in [attr] below.

    The object is the collection of its attributes: [obj] gives the value stored
    for every attribute, whether it lives in [_root] or in a nested model.
    Validators that read attributes of the entity read this same object.  Python
    values are reduced to those that matter for the modelled attributes; any
    other value is [VOther].

    What pydantic does is modelled from its documented behaviour:
    - converting an input to the declared type of a field is an oracle
      ([coerce] in [env]);
    - field validators run from the inside out in order of definition, those of
      base classes first, so [construct_fields] (signatures.py 145-161) surrounds
      only the type conversion and the validators attached to the type;
    - ValueError and AssertionError raised by a validator, and a failed
      conversion, end in ValidationError; every other exception passes through;
    - [validate_assignment] stores the validated value in the model given to it
      and then runs the "after" validators of the model.

    Game data (known recipes, fluids, inventory sizes ...) are fields of [env].
    Not modelled: the nested whole-model assignments ([infinity_settings = ...]),
    the texts of warnings, and what setters do after storing the value
    (direction updates the tile width and height, Transform_Model). *)
From Coq Require Import ZArith NArith QArith String List Bool.
From Verif Require Import Common Slots_Model.
Import ListNotations.
Local Open Scope string_scope.
Local Open Scope list_scope.
Local Open Scope Z_scope.

(** ** ValidationMode, constants.py 801-849 *)
Inductive mode := MNone | MMinimum | MStrict | MPedantic.

(** [_member_names_.index(self.name)]: 830-833 in order of definition. *)
Definition mode_index (m : mode) : Z :=
  match m with MNone => 0 | MMinimum => 1 | MStrict => 2 | MPedantic => 3 end.
(** [__eq__] 838-843. *)
Definition mode_eq (a b : mode) : bool := mode_index a =? mode_index b.
(** [__gt__] 845-849. *)
Definition mode_gt (a b : mode) : bool := mode_index a >? mode_index b.
(** [<=], derived by [total_ordering] from [__gt__]. *)
Definition mode_le (a b : mode) : bool := negb (mode_gt a b).
(** [__bool__] 835-836. *)
Definition mode_bool (m : mode) : bool := negb (mode_eq m MNone).

(** ** Values *)
(** A float: finite, infinite or not a number. *)
Inductive num := Fin (q : Q) | Infinity (negative : bool) | NaN.

Inductive pyval :=
| VNone
| VBool (b : bool)
| VInt (z : Z)
| VFloat (f : num)
| VStr (s : pystr)
| VItems (names : list pystr)      (** a list of item requests, by item name *)
| VOther (n : Z).

(** ** Attributes *)
Inductive attr :=
| Volume            (** prototypes/programmable_speaker.py 476-487 *)
| GlobalPlayback    (** prototypes/programmable_speaker.py 502-513 *)
| InstrumentId      (** prototypes/programmable_speaker.py 695-706 *)
| NoteId            (** prototypes/programmable_speaker.py 765-785 *)
| HeatTemperature   (** prototypes/heat_interface.py 102-110 *)
| HeatMode          (** prototypes/heat_interface.py 134-144 *)
| LinkId            (** prototypes/linked_container.py 96-107 *)
| Bar               (** classes/mixins/inventory.py 170-178 *)
| Recipe            (** classes/mixins/recipe.py 169-178 *)
| RecipeQuality     (** classes/mixins/recipe.py 195-204 *)
| Facing            (** classes/mixins/directional.py 191-199 *)
| Items             (** classes/mixins/request_items.py 96-118 *)
| FluidName         (** prototypes/infinity_pipe.py 177-186 *)
| FluidPercentage   (** prototypes/infinity_pipe.py 214-223 *)
| FluidMode         (** prototypes/infinity_pipe.py 261-272 *)
| FluidTemperature  (** prototypes/infinity_pipe.py 305-314 *).

Definition attr_eq_dec (a b : attr) : {a = b} + {a <> b}.
Proof. decide equality. Defined.

Definition obj := attr -> pyval.
(** [root.name = value] *)
Definition put (o : obj) (a : attr) (v : pyval) : obj := fun b => if attr_eq_dec a b then v else o b.

(** Declared types; every one of them is [Optional]. *)
Inductive ty :=
| TBool | TFloat | TNonNegative | TUint16 | TUint32 | TInt64 | TStr | TDirection | TItems
| TLiteral (options : list pystr).

(** ** Warnings and failures *)
Inductive warn :=
| WVolume (v : pyval)
| WInstrument (v : pyval)
| WNote (v : pyval)
| WTemperature (v : pyval)
| WBarDisabled
| WBarBeyond (v : pyval) (size : Z)
| WUnknownRecipe (v : pyval)
| WRecipeLimitation (v : pyval)
| WItemLimitation (item : pystr) (recipe : pyval)
| WModuleLimitation (item : pystr) (recipe : pyval)
| WDirection (d : pyval)
| WUnknownFluid (v : pyval)
| WUnknownKeyword.

(** What stops a validation: [Invalid] ends in pydantic's ValidationError,
    anything else passes through. *)
Inductive stop := Invalid | Raised (e : exn).

(** A validator appends warnings and returns a value or stops. *)
Definition comp (A : Type) := (list warn * (A + stop))%type.
Definition ret {A} (a : A) : comp A := ([], inl a).
Definition halt {A} (s : stop) : comp A := ([], inr s).
Definition tell (ws : list warn) : comp unit := (ws, inl tt).
Definition andthen {A B} (c : comp A) (k : A -> comp B) : comp B :=
  match c with
  | (ws, inr s) => (ws, inr s)
  | (ws, inl a) => let (ws', r) := k a in (ws ++ ws', r)
  end.

(** ** Surroundings: pydantic's conversions and the game data *)
Record env := mkEnv {
  coerce : bool -> ty -> pyval -> option pyval;    (** strict?, declared type, input *)
  instruments : option (list Z);                   (** [instruments_data.name_of[entity.name]] *)
  notes : Z -> list Z;                             (** [name_of[entity.name][instrument]] *)
  bar_enabled : option bool;                       (** [inventory_bar_enabled] *)
  inventory_size : option Z;
  recipe_known : pystr -> bool;                    (** [recipes.raw] *)
  machine_recipes : option (list pystr);           (** [entity.allowed_recipes] *)
  allowed_items : pyval -> option (list pystr);    (** [entity.allowed_items] when the recipe is the given one *)
  limitation : pystr -> option (list pystr);       (** [modules.raw[item]["limitation"]] *)
  fluid_known : pystr -> bool;                     (** [fluids.raw] *)
  fluid_range : pystr -> Q * Q;                    (** [fluids.get_temperature_range] *)
  unknown_entity : bool;                           (** [entity.unknown] *)
  extra_keys : attr -> bool                        (** the nested model holding the attribute has unknown keys *)
}.

Definition validator := env -> mode -> obj -> pyval -> comp pyval.
Definition gated (limit : mode) (v : validator) : validator :=
  fun e m o x => if mode_le m limit then ret x else v e m o x.

(** [lo <= x <= hi]; comparing a number with anything else is a TypeError. *)
Definition between (lo hi : Q) (x : pyval) : comp bool :=
  match x with
  | VFloat (Fin q) => ret (Qle_bool lo q && Qle_bool q hi)
  | VFloat _ => ret false
  | VInt z => ret (Qle_bool lo (inject_Z z) && Qle_bool (inject_Z z) hi)
  | VBool b => ret (let q := inject_Z (Z.b2z b) in Qle_bool lo q && Qle_bool q hi)
  | _ => halt (Raised TypeError)
  end.

(** ** The validators *)
(** [volume_in_range], programmable_speaker.py 272-291; the gate is [is MINIMUM]. *)
Definition volume_in_range : validator := fun e m o x =>
  if mode_eq m MMinimum then ret x else
  match x with
  | VNone => ret x
  | _ =>
      andthen (between 0 1 x) (fun inside =>
      if inside then ret x
      else if mode_eq m MPedantic then halt Invalid
      else andthen (tell [WVolume x]) (fun _ => ret x))
  end.

(** [ensure_instrument_id_known] 98-128. *)
Definition instrument_known : validator := gated MMinimum (fun e m o x =>
  match instruments e with
  | None => ret x
  | Some known =>
      match x with
      | VNone => ret x
      | VInt i => if existsb (Z.eqb i) known then ret x else andthen (tell [WInstrument x]) (fun _ => ret x)
      | _ => andthen (tell [WInstrument x]) (fun _ => ret x)
      end
  end).

(** [ensure_note_id_known] 162-200. *)
Definition note_known : validator := gated MMinimum (fun e m o x =>
  match instruments e with
  | None => ret x
  | Some known =>
      match o InstrumentId with
      | VInt i =>
          if existsb (Z.eqb i) known then
            match x with
            | VNone => ret x
            | VInt n => if existsb (Z.eqb n) (notes e i) then ret x
                        else andthen (tell [WNote x]) (fun _ => ret x)
            | _ => andthen (tell [WNote x]) (fun _ => ret x)
            end
          else ret x
      | _ => ret x
      end
  end).

(** [clamp_temperature], heat_interface.py 38-56. *)
Definition clamp_temperature : validator := fun e m o x =>
  match x with
  | VNone => ret x
  | _ => gated MStrict (fun e m o x =>
           andthen (between 0 1000 x) (fun inside =>
           if inside then ret x else andthen (tell [WTemperature x]) (fun _ => ret x))) e m o x
  end.

(** [ensure_inventory_bar_enabled], inventory.py 39-58. *)
Definition bar_allowed : validator := fun e m o x =>
  match x with
  | VNone => ret x
  | _ => gated MMinimum (fun e m o x =>
           match bar_enabled e with
           | Some false => andthen (tell [WBarDisabled]) (fun _ => ret x)
           | _ => ret x
           end) e m o x
  end.

(** [ensure_bar_less_than_inventory_size], signatures.py 928-947. *)
Definition bar_within_size : validator := fun e m o x =>
  match x with
  | VNone => ret x
  | _ => gated MStrict (fun e m o x =>
           match inventory_size e with
           | None => ret x
           | Some size =>
               if size =? 0 then ret x else
               match x with
               | VInt z => if z >=? size then andthen (tell [WBarBeyond x size]) (fun _ => ret x) else ret x
               | _ => halt (Raised TypeError)
               end
           end) e m o x
  end.

(** [ensure_recipe_known], recipe.py 37-56; an unhashable value cannot get here. *)
Definition in_recipes (e : env) (x : pyval) : bool :=
  match x with VStr s => recipe_known e s | _ => false end.
Definition recipe_is_known : validator := fun e m o x =>
  match x with
  | VNone => ret x
  | _ => gated MMinimum (fun e m o x =>
           if in_recipes e x then ret x else andthen (tell [WUnknownRecipe x]) (fun _ => ret x)) e m o x
  end.

(** [ensure_recipe_allowed_in_machine] 58-83. *)
Definition recipe_is_allowed : validator := fun e m o x =>
  match x with
  | VNone => ret x
  | _ => gated MMinimum (fun e m o x =>
           match machine_recipes e with
           | None => ret x
           | Some l =>
               let allowed := match x with VStr s => one_of l s | _ => false end in
               if in_recipes e x && negb allowed then andthen (tell [WRecipeLimitation x]) (fun _ => ret x)
               else ret x
           end) e m o x
  end.

(** The items of the entity; the check [entity.items == {}] (95) never holds
    because the items are a list. *)
Definition item_names (v : pyval) : list pystr := match v with VItems l => l | _ => [] end.

(** [check_items_fit_in_recipe] 85-111: the loop stops at the first item that
    does not fit; with no known set of allowed items [not in None] fails. *)
Fixpoint first_misfit (allowed : option (list pystr)) (l : list pystr) : comp (option pystr) :=
  match l with
  | [] => ret None
  | i :: r =>
      match allowed with
      | None => halt (Raised TypeError)
      | Some a => if one_of a i then first_misfit allowed r else ret (Some i)
      end
  end.
Definition items_fit_recipe : validator := fun e m o x =>
  match x with
  | VNone => ret x
  | _ => gated MMinimum (fun e m o x =>
           andthen (first_misfit (allowed_items e (o Recipe)) (item_names (o Items))) (fun misfit =>
           match misfit with
           | None => ret x
           | Some i => andthen (tell [WItemLimitation i (o Recipe)]) (fun _ => ret x)
           end)) e m o x
  end.

(** [ensure_module_permitted_with_recipe], assembling_machine.py 48-82. *)
Definition module_limited (e : env) (recipe : pyval) (item : pystr) : bool :=
  match limitation e item with
  | None => false
  | Some l => negb (match recipe with VStr r => one_of l r | _ => false end)
  end.
Definition modules_permitted : validator := fun e m o x =>
  match x with
  | VNone => ret x
  | _ => gated MMinimum (fun e m o x =>
           match o Recipe with
           | VNone => ret x
           | r => andthen (tell (map (fun i => WModuleLimitation i r)
                                     (filter (module_limited e r) (item_names (o Items)))))
                          (fun _ => ret x)
           end) e m o x
  end.

(** [ensure_4_way], directional.py 48-72; [None / 4] is a TypeError. *)
Definition four_way : validator := gated MMinimum (fun e m o x =>
  match x with
  | VInt d =>
      if (d =? 0) || (d =? 4) || (d =? 8) || (d =? 12) then ret x
      else let out := VInt (d / 4 * 4) in andthen (tell [WDirection out]) (fun _ => ret out)
  | _ => halt (Raised TypeError)
  end).

(** [known_name("fluid", ...)], signatures.py 76-100, attached to the type and so
    not run for [None]. *)
Definition fluid_is_known : validator := fun e m o x =>
  match x with
  | VNone => ret x
  | _ => gated MMinimum (fun e m o x =>
           match x with
           | VStr s => if fluid_known e s then ret x else andthen (tell [WUnknownFluid x]) (fun _ => ret x)
           | _ => andthen (tell [WUnknownFluid x]) (fun _ => ret x)
           end) e m o x
  end.

(** [only_use_lowest_bits], linked_container.py 36-42 (a bool is an int). *)
Definition lowest_bits (x : pyval) : pyval :=
  match x with
  | VInt z => VInt (Z.land z 4294967295)
  | VBool b => VInt (Z.land (Z.b2z b) 4294967295)
  | _ => x
  end.

(** "after" validators of models *)
Definition check := env -> mode -> obj -> comp unit.

(** [warn_unused_arguments], signatures.py 163-205: skipped for the model of the
    object itself, so only for attributes of nested models. *)
Definition unused_arguments (a : attr) : check := fun e m o =>
  if mode_le m MMinimum then ret tt
  else if unknown_entity e then ret tt
  else if extra_keys e a then tell [WUnknownKeyword] else ret tt.

(** [validate_temperature], infinity_pipe.py 63-91. *)
Definition temperature_allowed : check := fun e m o =>
  if mode_le m MMinimum then ret tt else
  match o FluidTemperature with
  | VNone => ret tt
  | t =>
      match o FluidName with
      | VNone => halt Invalid
      | VStr s =>
          if fluid_known e s then
            andthen (between (fst (fluid_range e s)) (snd (fluid_range e s)) t) (fun inside =>
            if inside then ret tt else halt Invalid)
          else ret tt
      | _ => ret tt
      end
  end.

(** ** The attributes: types, validators, setters *)
Definition before (a : attr) : pyval -> pyval :=
  match a with LinkId => lowest_bits | _ => fun x => x end.

Definition qualities : list pystr :=
  [str "normal"; str "uncommon"; str "rare"; str "epic"; str "legendary"].
Definition flow_modes : list pystr :=
  [str "at-least"; str "at-most"; str "exactly"; str "add"; str "remove"].

Definition type_of (a : attr) : ty :=
  match a with
  | Volume => TFloat | GlobalPlayback => TBool | InstrumentId => TUint32 | NoteId => TUint32
  | HeatTemperature => TFloat | HeatMode => TLiteral flow_modes
  | LinkId => TUint32 | Bar => TUint16
  | Recipe => TStr | RecipeQuality => TLiteral qualities
  | Facing => TDirection | Items => TItems
  | FluidName => TStr | FluidPercentage => TNonNegative | FluidMode => TLiteral flow_modes
  | FluidTemperature => TInt64
  end.

(** Validators attached to the type. *)
Definition inner (a : attr) : list validator :=
  match a with FluidName => [fluid_is_known] | _ => [] end.
(** Field validators of the class, innermost first. *)
Definition outer (a : attr) : list validator :=
  match a with
  | Volume => [volume_in_range]
  | InstrumentId => [instrument_known]
  | NoteId => [note_known]
  | HeatTemperature => [clamp_temperature]
  | Bar => [bar_allowed; bar_within_size]
  | Recipe => [recipe_is_known; recipe_is_allowed; items_fit_recipe]
  | Facing => [four_way]
  | Items => [modules_permitted]
  | _ => []
  end.
Definition checks (a : attr) : list check :=
  match a with
  | Volume | GlobalPlayback | InstrumentId | NoteId => [unused_arguments a]
  | FluidName | FluidPercentage | FluidMode | FluidTemperature => [unused_arguments a; temperature_allowed]
  | _ => []
  end.

(** How the setter is written. *)
Inductive setter :=
| Plain                     (** validate, store; NONE stores directly *)
| Defaulting (d : pyval)    (** the same, but [None] is stored as [d] *)
| StoreFirst                (** store the raw value, validate, store *)
| Reverting (d : pyval)     (** store the raw value, validate, undo on DataFormatError; [None] becomes [d] *)
| Replacing                 (** test_replace_me *).

Definition setter_of (a : attr) : setter :=
  match a with
  | LinkId => Defaulting (VInt 0)
  | Recipe | RecipeQuality => StoreFirst
  | Items => Reverting (VItems [])
  | FluidName | FluidPercentage | FluidMode | FluidTemperature => Replacing
  | _ => Plain
  end.

(** ** Validation of one field *)
Fixpoint run_all (vs : list validator) (e : env) (m : mode) (o : obj) (x : pyval) : comp pyval :=
  match vs with
  | [] => ret x
  | v :: r => andthen (v e m o x) (run_all r e m o)
  end.

(** [construct_fields], signatures.py 145-161, around the conversion. *)
Definition convert (e : env) (strict construction : bool) (a : attr) (m : mode) (o : obj) (x : pyval) : comp pyval :=
  let handler :=
    match coerce e strict (type_of a) x with
    | None => halt Invalid
    | Some w => run_all (inner a) e m o w
    end in
  if construction then
    match handler with
    | (ws, inr Invalid) => (ws, inl x)
    | r => r
    end
  else handler.

Definition validate_field (e : env) (strict construction : bool) (a : attr) (m : mode) (o : obj) (x : pyval) : comp pyval :=
  andthen (convert e strict construction a m o (before a x)) (run_all (outer a) e m o).

Fixpoint run_checks (cs : list check) (e : env) (m : mode) (o : obj) : comp unit :=
  match cs with
  | [] => ret tt
  | c :: r => andthen (c e m o) (fun _ => run_checks r e m o)
  end.

(** [__pydantic_validator__.validate_assignment]: store, then check the model. *)
Definition validate_assignment (e : env) (strict construction : bool) (a : attr) (m : mode) (o : obj) (x : pyval)
  : obj * comp pyval :=
  match validate_field e strict construction a m o x with
  | (ws, inr s) => (o, (ws, inr s))
  | (ws, inl w) =>
      let o' := put o a w in
      (o', match run_checks (checks a) e m o' with
           | (ws', inr s) => (ws ++ ws', inr s)
           | (ws', inl _) => (ws ++ ws', inl w)
           end)
  end.

(** ** Assignment *)
Inductive failure := DataFormat | Crash (e : exn) | Escalated (w : warn).

(** What a setter leaves behind: the object, the warnings shown, the failure. *)
Record outcome := mkOut { after : obj; issued : list warn; error : option failure }.

(** [warnings.warn] for every warning; the active warning filters may turn some
    of them into exceptions. *)
Fixpoint issue (fatal : warn -> bool) (ws : list warn) : list warn * option warn :=
  match ws with
  | [] => ([], None)
  | w :: r => if fatal w then ([], Some w) else let (i, s) := issue fatal r in (w :: i, s)
  end.

(** The part shared by attempt_and_reissue 14-44 and test_replace_me 81-130;
    [k] is what the caller does with the returned value. *)
Definition attempt (e : env) (fatal : warn -> bool) (strict : bool) (a : attr) (m : mode) (o : obj) (x : pyval)
  (k : obj -> pyval -> obj) : outcome :=
  let construction := mode_eq m MNone in
  match validate_assignment e strict construction a m o x with
  | (o', (_, inr Invalid)) => mkOut o' [] (Some DataFormat)
  | (o', (_, inr (Raised exc))) => mkOut o' [] (Some (Crash exc))
  | (o', (ws, inl w)) =>
      match issue fatal ws with
      | (i, Some s) => mkOut o' i (Some (Escalated s))
      | (i, None) => mkOut (k o' w) i None
      end
  end.

Definition none_as (d x : pyval) : pyval := match x with VNone => d | _ => x end.

(** [entity.a = x] with [validate_assignment] set to [m]. *)
Definition assign (e : env) (fatal : warn -> bool) (a : attr) (m : mode) (o : obj) (x : pyval) : outcome :=
  match setter_of a with
  | Plain =>
      if mode_bool m then attempt e fatal false a m o x (fun o' w => put o' a w)
      else mkOut (put o a x) [] None
  | Defaulting d =>
      if mode_bool m then attempt e fatal false a m o x (fun o' w => put o' a (none_as d w))
      else mkOut (put o a (none_as d x)) [] None
  | StoreFirst =>
      if mode_bool m then attempt e fatal false a m (put o a x) x (fun o' w => put o' a w)
      else mkOut (put o a x) [] None
  | Reverting d =>
      if mode_bool m then
        let r := attempt e fatal false a m (put o a x) x (fun o' w => put o' a (none_as d w)) in
        match error r with
        | Some DataFormat => mkOut (put (after r) a (o a)) (issued r) (error r)
        | _ => r
        end
      else mkOut (put o a (none_as d x)) [] None
  | Replacing => attempt e fatal true a m o x (fun o' w => put o' a w)
  end.

(** ** ValidationResult, exportable.py 133-176 *)
Record vresult := mkVR { error_list : list failure; warning_list : list warn }.
(** [reissue_all] 143-147. *)
Definition reissue_all (fatal : warn -> bool) (r : vresult) : list warn * option failure :=
  match error_list r with
  | er :: _ => ([], Some er)
  | [] => match issue fatal (warning_list r) with
          | (i, Some w) => (i, Some (Escalated w))
          | (i, None) => (i, None)
          end
  end.
(** [__iadd__] 171-176 with another ValidationResult. *)
Definition combine_results (a b : vresult) : vresult :=
  mkVR (error_list a ++ error_list b) (warning_list a ++ warning_list b).
