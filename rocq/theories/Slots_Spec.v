(** What an indexed table of slots is. *)
From Coq Require Import ZArith String List Bool.
From Verif Require Import Common Slots_Model.
Import ListNotations.
Local Open Scope Z_scope.

(** At most one value per slot. *)
Definition table (V : Type) := Z -> option V.
Definition put {V} (m m' : table V) (slot : Z) (v : option V) : Prop :=
  m' slot = v /\ forall s, s <> slot -> m' s = m s.

(** Assigning an argument to a slot, or clearing it. *)
Inductive sop (A : Type) := Assign (slot : Z) (a : A) | Clear (slot : Z).
Arguments Assign {A}. Arguments Clear {A}.

(** One assignment or clearing of a table: which arguments are accepted, what
    is written over the previous value, and the error for clearing an empty
    slot. *)
Inductive tstep {A V} (accepts : Z -> A -> Prop) (write : option V -> A -> V) (unset : exn) (m : table V)
  : sop A -> result unit -> table V -> Prop :=
| t_assign : forall s a m', accepts s a -> put m m' s (Some (write (m s) a)) -> tstep accepts write unset m (Assign s a) (Ok tt) m'
| t_reject : forall s a, ~ accepts s a -> tstep accepts write unset m (Assign s a) (Err DataFormatError) m
| t_clear : forall s m', m s <> None -> put m m' s None -> tstep accepts write unset m (Clear s) (Ok tt) m'
| t_clear_empty : forall s, m s = None -> tstep accepts write unset m (Clear s) (Err unset) m.
Inductive tsteps {A V} (accepts : Z -> A -> Prop) (write : option V -> A -> V) (unset : exn)
  : table V -> list (sop A) -> list (result unit) -> table V -> Prop :=
| ts_nil : forall m, tsteps accepts write unset m [] [] m
| ts_cons : forall m o r m1 os rs m2, tstep accepts write unset m o r m1 -> tsteps accepts write unset m1 os rs m2 ->
    tsteps accepts write unset m (o :: os) (r :: rs) m2.
(** What was assigned last replaces what was there. *)
Definition replace {A} (old : option A) (a : A) : A := a.

Definition between (lo hi z : Z) : Prop := lo <= z < hi.

(** A list of entries shows a table: no slot listed twice (stored slots count
    from one) and exactly the table's values. *)
Definition slots {E} (key : E -> option Z) (l : list E) : list Z :=
  flat_map (fun e => match key e with Some k => [k] | None => [] end) l.
Definition listed {E} (st : option (list E)) : list E := match st with Some l => l | None => [] end.
Definition shows {E V} (key : E -> option Z) (val : E -> V) (st : option (list E)) (m : table V) : Prop :=
  NoDup (slots key (listed st)) /\
  forall s v, m s = Some v <-> exists e, In e (listed st) /\ key e = Some (s + 1) /\ val e = v.
(** The entries of other slots (and entries without a slot) are the same, in
    the same order. *)
Definition others_kept {E} (key : E -> option Z) (slot : Z) (st st' : option (list E)) : Prop :=
  filter (fun e => negb (zopt_eqb (key e) (slot + 1))) (listed st') = filter (fun e => negb (zopt_eqb (key e) (slot + 1))) (listed st).

(** The calls as assignments: [None] clears. *)
Definition by_name (o : sop pystr) : Z * option pystr :=
  match o with Assign s n => (s, Some n) | Clear s => (s, None) end.
Definition apply_named (strict : bool) (st : option (list nfilter)) (o : sop pystr) :=
  set_named_filter strict st (fst (by_name o)) (snd (by_name o)).

(** An item with the quality and comparator asked for. *)
Definition wanted := (pystr * option pystr * option pystr)%type.
Definition apply_item (strict : bool) (st : option (list ifilter)) (o : sop wanted) :=
  match o with
  | Assign s (n, q, c) => set_item_filter strict st s (Some n) q c
  | Clear s => set_item_filter strict st s None (Some (str "normal")) (Some (str "="))
  end.
Definition apply_inventory (strict : bool) (st : option (list ifilter)) (o : sop wanted) :=
  match o with
  | Assign s (n, q, c) => set_inventory_filter strict st s (Some n) q c
  | Clear s => set_inventory_filter strict st s None (Some (str "normal")) (Some (str "="))
  end.
Definition allowed_quality (q : option pystr) : Prop := match q with Some s => In s qualities | None => True end.
Definition allowed_comparator (c : option pystr) : Prop := match c with Some s => In s comparators | None => True end.
(** The quirks: an occupied slot keeps its quality and comparator; the cargo
    wagon ignores them. *)
Definition rename (old : option wanted) (a : wanted) : wanted :=
  match old with Some (_, q, c) => (fst (fst a), q, c) | None => a end.
Definition plain (old : option wanted) (a : wanted) : wanted :=
  match old with Some (_, q, c) => (fst (fst a), q, c) | None => (fst (fst a), Some (str "any"), None) end.

(** An infinity filter: item, mode, amount ([None]: the stack size). *)
Definition supply := (pystr * option pystr * option Z)%type.
Definition apply_infinity (stack_size : pystr -> Z) (st : option (list ffilter)) (o : sop supply) :=
  match o with
  | Assign s (n, md, c) => set_infinity_filter stack_size st s (Some n) md c
  | Clear s => set_infinity_filter stack_size st s None (Some (str "at-least")) None
  end.
Definition amount (stack_size : pystr -> Z) (a : supply) : Z :=
  match a with (n, _, Some c) => c | (n, _, None) => stack_size n end.
Definition supplied (stack_size : pystr -> Z) (a : supply) : pystr * option pystr * Z :=
  (fst (fst a), snd (fst a), amount stack_size a).
Definition allowed_mode (q : option pystr) : Prop := match q with Some s => In s modes | None => True end.

(** A signal: name, amount, quality, type. *)
Definition signal := (pystr * Z * option pystr * option pystr)%type.
Definition apply_signal (st : option (list sfilter)) (o : sop signal) :=
  match o with
  | Assign s (n, c, q, t) => set_signal st s (Some n) c q t
  | Clear s => set_signal st s None 0 (Some (str "normal")) None
  end.
Definition signal_of (f : sfilter) : signal := (s_name f, s_count f, s_quality f, s_type f).
Definition allowed_type (t : option pystr) : Prop := match t with Some s => In s signal_types | None => True end.
