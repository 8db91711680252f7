(** Limits: how much an inventory holds, how large a blueprint may be, where
    rails may stand, and requests that look at the limits.

    /repo/draftsman/classes/mixins/inventory.py 76-156 and 183-205,
    classes/mixins/inventory_filter.py 92-100, classes/mixins/modules.py 98-122
    and 162-172, prototypes/lab.py 64-97, classes/blueprint.py 430-448,
    classes/blueprintable.py 426-432,
    classes/mixins/double_grid_aligned.py 20-44; the bases of the classes in
    prototypes/*container.py.

    Numbers that Python rounds ([inventory_size * multiplier]) are rounded to
    binary64 here, to nearest and ties to even; sizes are ints, and too small for
    an overflow.  Simplifications: qualities are strings or [None]; of a prototype
    only the keys read here are kept; item requests are those of C37. *)
From Coq Require Import Reals ZArith QArith Qround String List Bool.
From Verif Require Import Common Dict Assign_Model Slots_Model Request_Model Geometry_Model.
Import ListNotations.
Local Open Scope string_scope.
Local Open Scope list_scope.
Local Open Scope Z_scope.

(** ** Binary64 *)
(** The number [mantissa * 2 ^ exponent]. *)
Definition float := (Z * Z)%type.
(** [m / 2 ^ k] to the nearest integer, ties to even. *)
Definition shift_even (m k : Z) : Z :=
  let d := 2 ^ k in
  let q := m / d in
  let r := m mod d in
  if 2 * r <? d then q else if d <? 2 * r then q + 1 else if Z.even q then q else q + 1.
(** To 53 bits. *)
Definition rounded (x : float) : float :=
  let k := Z.log2 (Z.abs (fst x)) - 52 in
  if k <=? 0 then x else (shift_even (fst x) k, snd x + k).
Definition float_of (n : Z) : float := rounded (n, 0).
Definition times (a b : float) : float := rounded (fst a * fst b, snd a + snd b).
(** [math.floor] *)
Definition floor (x : float) : Z := if 0 <=? snd x then fst x * 2 ^ snd x else fst x / 2 ^ (- snd x).

(** ** Inventories *)
Record proto := mkProto { p_size : option Z; p_affects : option bool; p_bar : option bool; p_inputs : option (list pystr);
                          p_modules : option Z }.
Definition protos := list (pystr * proto).

(** 115-121: the floats 1.0, 1.3, 1.6, 1.9 and 2.5. *)
Definition multipliers : list (pystr * float) :=
  [(str "normal", (1, 0)); (str "uncommon", (5854679515581645, -52)); (str "rare", (7205759403792794, -52));
   (str "epic", (8556839292003942, -52)); (str "legendary", (5, -1))].

(** 76-87 [inventory_bar_enabled] *)
Definition bar_enabled (D : protos) (name : pystr) : option bool :=
  match dget pystr_eqb D name with
  | None => None
  | Some p => Some (match p_bar p with Some b => b | None => true end)
  end.
(** 89-99 [quality_affects_inventory_size] *)
Definition affects (D : protos) (name : pystr) : option bool :=
  match dget pystr_eqb D name with
  | None => None
  | Some p => Some (match p_affects p with Some b => b | None => true end)
  end.
(** 101-122 [inventory_size]; [entities.raw.get(name, {}).get("inventory_size", None)]. *)
Definition inventory_size (D : protos) (name : pystr) (quality : option pystr) : result (option Z) :=
  match obind (dget pystr_eqb D name) p_size with
  | None => Ok None
  | Some n =>
      match affects D name with
      | Some true =>
          match obind quality (dget pystr_eqb multipliers) with
          | None => Err KeyError
          | Some k => Ok (Some (floor (times (float_of n) k)))
          end
      | _ => Ok (Some n)
      end
  end.
(** inventory_filter.py 92-100, for cargo wagons. *)
Definition wagon_size (D : protos) (name : pystr) : result (option Z) :=
  match dget pystr_eqb D name with
  | None => Ok None
  | Some p => match p_size p with Some n => Ok (Some n) | None => Err KeyError end
  end.
(** modules.py 98-112 [total_module_slots] *)
Definition total_module_slots (D : protos) (name : pystr) : option Z :=
  match dget pystr_eqb D name with
  | None => None
  | Some p => Some (match p_modules p with Some n => n | None => 0 end)
  end.

(** ** Requests *)
(** The arguments of a call; [None]: not given. *)
Record args := mkArgs { a_item : pystr; a_count : option (option Z); a_quality : option pystr; a_inventory : option Z;
                        a_slot : option (option Z) }.
(** The classes with an inventory ([InfinityContainer] has [RequestItemsMixin]
    first, the others [InventoryMixin]), and [Lab]. *)
Inductive class := Container | LinkedContainer | ActiveContainer | BufferContainer | PassiveContainer | RequestContainer
                 | StorageContainer | InfinityContainer | Lab.
Definition or_else {A} (o : option A) (a : A) : A := match o with Some x => x | None => a end.
(** request_items.py 122-223 *)
Definition plain_request (strict : bool) (st : list req) (a : args) : list req * result unit :=
  set_item_request strict st (a_item a) (or_else (a_count a) None) (or_else (a_quality a) (str "normal"))
    (or_else (a_inventory a) 0) (or_else (a_slot a) None).
(** [set_item_request(self, item, count)], inventory.py 183 and lab.py 79: any
    other arguments, and a missing [count], are refused by Python. *)
Definition two_arguments (a : args) : bool :=
  match a_count a, a_quality a, a_inventory a, a_slot a with Some _, None, None, None => true | _, _, _, _ => false end.
(** What is in [items]: a list, unless it was assigned without validation. *)
Inductive holding := Requests (l : list req) | Counts (d : list (pystr * Z)).
(** 126-156 [inventory_slots_occupied]; [stacks]: the stack size of an item,
    [None] if it is not in [items.raw].  [int(math.ceil(count / float(size)))];
    the quotient is exact here. *)
Definition slots_occupied (stacks : pystr -> option positive) (h : holding) : result Z :=
  match h with
  | Requests _ => Err AttributeError
  | Counts d => Ok (fold_left (fun n kv => match stacks (fst kv) with
                                           | Some s => n + Qceiling (snd kv # s)
                                           | None => n
                                           end) d 0)
  end.
Inductive warning := Exceeded | NotPlaceable (item : pystr).

Section Requesting.
  Variable D : protos.
  Variable stacks : pystr -> option positive.
  Variable is_module : pystr -> bool.

  (** lab.py 64-71 [inputs] *)
  Definition inputs (name : pystr) : result (option (list pystr)) :=
    match dget pystr_eqb D name with
    | None => Ok None
    | Some p => match p_inputs p with Some l => Ok (Some l) | None => Err KeyError end
    end.
  (** inventory.py 183-205; [None > n] and [n > None] raise TypeError. *)
  Definition inventory_request (strict : bool) (name : pystr) (quality : option pystr) (st : list req) (a : args)
    : list req * (list warning * option exn) :=
    if two_arguments a then
      match plain_request strict st a with
      | (st', Err e) => (st', ([], Some e))
      | (st', Ok _) =>
          match slots_occupied stacks (Requests st') with
          | Err e => (st', ([], Some e))
          | Ok n =>
              match inventory_size D name quality with
              | Err e => (st', ([], Some e))
              | Ok None => (st', ([], Some TypeError))
              | Ok (Some size) => (st', (if size <? n then [Exceeded] else [], None))
              end
          end
      end
    else (st, ([], Some TypeError)).
  (** lab.py 78-97 *)
  Definition lab_request (strict : bool) (name : pystr) (st : list req) (a : args) : list req * (list warning * option exn) :=
    if two_arguments a then
      match plain_request strict st a with
      | (st', Err e) => (st', ([], Some e))
      | (st', Ok _) =>
          if is_module (a_item a) then (st', ([], None))
          else match inputs name with
               | Err e => (st', ([], Some e))
               | Ok None => (st', ([], Some TypeError))
               | Ok (Some l) => (st', (if existsb (pystr_eqb (a_item a)) l then [] else [NotPlaceable (a_item a)], None))
               end
      end
    else (st, ([], Some TypeError)).
  Definition request (c : class) (strict : bool) (name : pystr) (quality : option pystr) (st : list req) (a : args)
    : list req * (list warning * option exn) :=
    match c with
    | Lab => lab_request strict name st a
    | InfinityContainer =>
        let (st', r) := plain_request strict st a in (st', ([], match r with Ok _ => None | Err e => Some e end))
    | _ => inventory_request strict name quality st a
    end.

  (** modules.py 162-172 [module_items] *)
  Definition module_items (h : holding) : result (list (pystr * Z)) :=
    match h with
    | Requests _ => Err AttributeError
    | Counts d => Ok (filter (fun kv => is_module (fst kv)) d)
    end.
  (** 114-122 [module_slots_occupied]: [for k, v in self.items]; a request of two
      fields is unpacked into (name, value) pairs, the first of which is not
      hashable; a key is unpacked into its characters, and a character cannot be
      added to a number. *)
  Definition module_slots_occupied (h : holding) : result Z :=
    match h with
    | Requests [] => Ok 0
    | Requests (_ :: _) => Err TypeError
    | Counts d =>
        if forallb (fun kv => Nat.eqb (List.length (fst kv)) 2) d
        then if existsb (fun kv => is_module (firstn 1 (fst kv))) d then Err TypeError else Ok 0
        else Err ValueError
    end.
End Requesting.

(** ** Blueprints *)
(** blueprint.py 430-448 *)
Definition check_size (m : mode) (dims : Z * Z) : option exn :=
  if mode_le m MMinimum then None
  else if (10000 <? fst dims) || (10000 <? snd dims) then Some UnreasonablySizedBlueprintError
  else None.
(** [index = v], an assignment to the outermost model: the value is stored before
    the validators of the model run, and only ValidationErrors are translated. *)
Definition uint16 (z : Z) : bool := (0 <=? z) && (z <? 65536).
Definition set_index (m : mode) (dims : Z * Z) (old v : option Z) : option Z * option exn :=
  if mode_bool m then
    if opt_ok uint16 v then (v, check_size m dims) else (old, Some DataFormatError)
  else (v, None).

(** ** Rails *)
(** double_grid_aligned.py 20-44: the position it will be cast to, if that is
    said.  [x % 2 == 1]. *)
Definition modulo2 (q : Q) : Q := q - inject_Z (2 * Qfloor (q / 2)).
Definition odd (q : Q) : bool := Qeq_bool (modulo2 q) 1.
Definition aligned (q : Q) : Z := Qfloor (q / 2) * 2.
Definition check_grid (m : mode) (x y : Q) : option (Z * Z) :=
  if mode_le m MMinimum then None
  else if odd x || odd y then Some (aligned x, aligned y) else None.
