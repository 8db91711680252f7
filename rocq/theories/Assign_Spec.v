(** What an attribute assignment may do, attribute by attribute, without
    reference to how validation is organised. *)
From Coq Require Import ZArith NArith QArith String List Bool.
From Verif Require Import Common Slots_Model Assign_Model.
Import ListNotations.
Local Open Scope string_scope.
Local Open Scope list_scope.
Local Open Scope Z_scope.

(** The four modes from the laxest to the strictest. *)
Definition strictness (m : mode) : nat :=
  match m with MNone => 0 | MMinimum => 1 | MStrict => 2 | MPedantic => 3 end.
Definition at_most (m n : mode) : Prop := (strictness m <= strictness n)%nat.
(** The modes that look at values and not only at types. *)
Definition inspecting (m : mode) : Prop := m = MStrict \/ m = MPedantic.

(** Values of a declared type. *)
Definition has_type (t : ty) (v : pyval) : Prop :=
  v = VNone \/
  match t with
  | TBool => exists b, v = VBool b
  | TFloat => exists f, v = VFloat f
  | TNonNegative => (exists q, v = VFloat (Fin q) /\ (0 <= q)%Q) \/ v = VFloat (Infinity false)
  | TUint16 => exists z, v = VInt z /\ 0 <= z < 2 ^ 16
  | TUint32 => exists z, v = VInt z /\ 0 <= z < 2 ^ 32
  | TInt64 => exists z, v = VInt z /\ - 2 ^ 63 <= z < 2 ^ 63
  | TStr => exists s, v = VStr s
  | TDirection => exists z, v = VInt z /\ 0 <= z < 16
  | TItems => exists l, v = VItems l
  | TLiteral l => exists s, v = VStr s /\ In s l
  end.

(** What is assumed of pydantic's conversions: they produce values of the type,
    and leave values of the type alone; item lists come from item lists. *)
Record well_behaved (e : env) : Prop := {
  converts : forall s t v w, coerce e s t v = Some w -> has_type t w;
  keeps : forall s t v, has_type t v -> coerce e s t v = Some v;
  items_kept : forall s v w, coerce e s TItems v = Some w -> w = v
}.

(** Number comparisons. *)
Definition within (lo hi : Q) (v : pyval) : Prop :=
  match v with
  | VFloat (Fin q) => (lo <= q /\ q <= hi)%Q
  | VInt z => (lo <= inject_Z z /\ inject_Z z <= hi)%Q
  | _ => False
  end.

(** The attributes of the infinity pipe's settings. *)
Definition fluid_attr (a : attr) : Prop :=
  a = FluidName \/ a = FluidPercentage \/ a = FluidMode \/ a = FluidTemperature.
(** The attributes whose setter stores first and asks later. *)
Definition hasty (a : attr) : Prop := a = Recipe \/ a = RecipeQuality.

(** The value that is converted: a link id counts modulo 2^32. *)
Definition input (a : attr) (v : pyval) : pyval :=
  match a, v with
  | LinkId, VInt z => VInt (z mod 2 ^ 32)
  | LinkId, VBool b => VInt (if b then 1 else 0)
  | _, _ => v
  end.
(** Strings count as numbers and so on, except for the infinity pipe. *)
Definition strict_types (a : attr) : bool :=
  match a with FluidName | FluidPercentage | FluidMode | FluidTemperature => true | _ => false end.
(** [w] is the value of the declared type that [v] stands for. *)
Definition stands_for (e : env) (a : attr) (v w : pyval) : Prop :=
  coerce e (strict_types a) (type_of a) (input a v) = Some w.

(** A temperature needs a fluid, and has to be in the range of a known fluid. *)
Definition consistent_fluid (e : env) (o : obj) : Prop :=
  o FluidTemperature = VNone \/
  (exists s, o FluidName = VStr s /\
     (fluid_known e s = true ->
      within (fst (fluid_range e s)) (snd (fluid_range e s)) (o FluidTemperature))).

(** Well-typed values that are refused with DataFormatError ... *)
Definition refused (e : env) (a : attr) (m : mode) (o : obj) (w : pyval) : Prop :=
  (a = Volume /\ m = MPedantic /\ w <> VNone /\ ~ within 0 1 w) \/
  (fluid_attr a /\ inspecting m /\ ~ consistent_fluid e (put o a w)).
(** ... and those on which a validator trips over with a TypeError; [v] is the
    value as given. *)
Definition trips (e : env) (a : attr) (m : mode) (o : obj) (v w : pyval) : Prop :=
  (a = Facing /\ inspecting m /\ w = VNone) \/
  (a = Recipe /\ inspecting m /\ w <> VNone /\ item_names (o Items) <> [] /\ allowed_items e v = None).

(** The value that the attribute has after validation, and after the setter. *)
Definition settled (a : attr) (m : mode) (w : pyval) : pyval :=
  match a, m, w with
  | Facing, MStrict, VInt d | Facing, MPedantic, VInt d => VInt (d - d mod 4)
  | _, _, _ => w
  end.
Definition stored (a : attr) (m : mode) (w : pyval) : pyval :=
  match a, w with
  | LinkId, VNone => VInt 0
  | Items, VNone => VItems []
  | _, _ => settled a m w
  end.

(** The fluid settings are plain data: the temperature is an integer or absent,
    the name a string or absent. *)
Definition typed_fluid (o : obj) : Prop :=
  has_type TInt64 (o FluidTemperature) /\ has_type TStr (o FluidName).

(** ** Warnings *)
(** [warned e a m o v w x]: assigning [v], which stands for [w], earns warning [x]. *)
Inductive warned (e : env) : attr -> mode -> obj -> pyval -> pyval -> warn -> Prop :=
| warned_volume : forall o v w, w <> VNone -> ~ within 0 1 w -> warned e Volume MStrict o v w (WVolume w)
| warned_instrument : forall m o v i known, inspecting m ->
    instruments e = Some known -> ~ In i known ->
    warned e InstrumentId m o v (VInt i) (WInstrument (VInt i))
| warned_note : forall m o v i n known, inspecting m ->
    instruments e = Some known -> o InstrumentId = VInt i -> In i known -> ~ In n (notes e i) ->
    warned e NoteId m o v (VInt n) (WNote (VInt n))
| warned_temperature : forall o v w, w <> VNone -> ~ within 0 1000 w ->
    warned e HeatTemperature MPedantic o v w (WTemperature w)
| warned_no_bar : forall m o v w, inspecting m -> w <> VNone -> bar_enabled e = Some false ->
    warned e Bar m o v w WBarDisabled
| warned_far_bar : forall o v z size, inventory_size e = Some size -> size <> 0 -> size <= z ->
    warned e Bar MPedantic o v (VInt z) (WBarBeyond (VInt z) size)
| warned_unknown_recipe : forall m o v r, inspecting m -> recipe_known e r = false ->
    warned e Recipe m o v (VStr r) (WUnknownRecipe (VStr r))
| warned_wrong_recipe : forall m o v r l, inspecting m -> recipe_known e r = true ->
    machine_recipes e = Some l -> ~ In r l ->
    warned e Recipe m o v (VStr r) (WRecipeLimitation (VStr r))
| warned_item : forall m o v r l i before after, inspecting m ->
    allowed_items e v = Some l ->
    item_names (o Items) = before ++ i :: after -> (forall j, In j before -> In j l) -> ~ In i l ->
    warned e Recipe m o v (VStr r) (WItemLimitation i v)
| warned_module : forall m o l i lim, inspecting m -> o Recipe <> VNone ->
    In i l -> limitation e i = Some lim -> (forall r, o Recipe = VStr r -> ~ In r lim) ->
    warned e Items m o (VItems l) (VItems l) (WModuleLimitation i (o Recipe))
| warned_direction : forall m o v d, inspecting m -> d mod 4 <> 0 ->
    warned e Facing m o v (VInt d) (WDirection (VInt (d - d mod 4)))
| warned_fluid : forall m o v s, inspecting m -> fluid_known e s = false ->
    warned e FluidName m o v (VStr s) (WUnknownFluid (VStr s))
| warned_extra : forall a m o v w, inspecting m -> unknown_entity e = false -> extra_keys e a = true ->
    (fluid_attr a \/ a = Volume \/ a = GlobalPlayback \/ a = InstrumentId \/ a = NoteId) ->
    warned e a m o v w WUnknownKeyword.

(** ** The object after a failed assignment *)
(** [leaves e a m o v f x]: after failing with [f] the attribute holds [x]. *)
Definition leaves (e : env) (a : attr) (m : mode) (o : obj) (v : pyval) (f : failure) (x : pyval) : Prop :=
  match f with
  | Escalated _ => exists w, stands_for e a v w /\ x = settled a m w
  | _ =>
      (hasty a /\ x = v) \/
      (fluid_attr a /\ stands_for e a v x) \/
      (fluid_attr a /\ (forall w, ~ stands_for e a v w) /\ x = o a) \/
      (~ hasty a /\ ~ fluid_attr a /\ x = o a)
  end.

(** The value stored when nothing is validated. *)
Definition unvalidated (e : env) (a : attr) (v x : pyval) : Prop :=
  match a, v with
  | LinkId, VNone => x = VInt 0
  | Items, VNone => x = VItems []
  | (FluidName | FluidPercentage | FluidMode | FluidTemperature), _ =>
      stands_for e a v x \/ ((forall w, ~ stands_for e a v w) /\ x = v)
  | _, _ => x = v
  end.
