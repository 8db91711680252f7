(** Sections of signals and of requests.

    /repo/draftsman/classes/mixins/request_filters.py 23-42 (the format), 67-72,
    145-165 and 241-294; prototypes/constant_combinator.py 81-96, 198-214 and
    247-278; signatures.py 1156-1180 ([ensure_not_pure_virtual]), 1183-1234
    ([Section]), 1340 and 1433-1441 ([Sections]) and 143-180 ([warn_unused_arguments]);
    classes/entity.py 700-740 ([validate]); classes/exportable.py 14-44; the
    constructors of the seven classes that have sections.

    Sections are objects: the user holds references to them, the entity a list of
    them.  [revalidate_instances="always"] (signatures.py 243-247) makes pydantic
    build new objects whenever a list of sections is validated.  Simplified:
    entries of the list are sections or dictionaries with the keys of one; extra
    keys are [active] only, a bool; of the warnings only those about extra keys of
    sections are kept; the list itself is not shared. *)
From Coq Require Import ZArith NArith String List Bool.
From Verif Require Import Common Dict Assign_Model Slots_Model.
Import ListNotations.
Local Open Scope string_scope.
Local Open Scope list_scope.
Local Open Scope Z_scope.

(** [Section], signatures.py 1183-1189; [active] is an extra key. *)
Record section := mkSection { index : Z; filters : option (list sfilter); group : option pystr; active : option bool }.

(** What a list of sections may hold; a dictionary is given by what it says. *)
Inductive item := Obj (r : nat) | Raw (s : section).

(** What stands where the list should be: [None] on the way to it, something that
    is not a model, or the field [sections]. *)
Inductive holder := Missing | Junk | Held (l : option (list item)).

Inductive class := ConstantCombinator | LogisticRequestContainer | LogisticBufferContainer | SpiderVehicle
                 | LogisticStorageContainer | CargoLandingPad | SpacePlatformHub.

(** After [__init__] without arguments: constant_combinator.py 100-133;
    logistic_request_container.py 82-99 and logistic_buffer_container.py 70-89 pass
    [{}] and spider_vehicle.py 91-120 assigns it; logistic_storage_container.py
    65-84 passes [[]], which is not a model; cargo_landing_pad.py 48-72 and
    space_platform_hub.py 77-107 pass nothing, so request_filters.py 72 assigns
    [None]. *)
Definition start (c : class) : holder :=
  match c with
  | ConstantCombinator | LogisticRequestContainer | LogisticBufferContainer | SpiderVehicle => Held (Some [])
  | LogisticStorageContainer => Junk
  | CargoLandingPad | SpacePlatformHub => Missing
  end.

(** The objects made so far, and the entity. *)
Record state := mkState { objects : list section; held : holder }.

(** [self.sections], request_filters.py 241-245, constant_combinator.py 198-200. *)
Definition sections (st : state) : result (option (list item)) :=
  match held st with Held l => Ok l | _ => Err AttributeError end.

(** [Section( )], signatures.py 62-74 and 1183-1189.  A pydantic [ValidationError]
    is a [ValueError]. *)
Definition new_section (i : Z) (g : option pystr) (a : bool) : result section :=
  if is_uint32 i then Ok (mkSection i (Some []) g (Some a)) else Err ValueError.

(** [add_section] request_filters.py 263-294, constant_combinator.py 247-278. *)
Definition add_section (st : state) (g : option pystr) (idx : option Z) (a : bool) : state * result nat :=
  let number : result Z :=
    match idx with
    | Some i => Ok (i + 1)
    | None => let* l := sections st in
              match l with Some l => Ok (Z.of_nat (List.length l) + 1) | None => Err TypeError end
    end in
  match (let* i := number in new_section i g a) with
  | Err e => (st, Err e)
  | Ok s =>
      match sections st with
      | Err e => (st, Err e)
      | Ok None => (st, Err AttributeError)
      | Ok (Some l) =>
          let r := List.length (objects st) in
          (mkState (objects st ++ [s]) (Held (Some (l ++ [Obj r]))), Ok r)
      end
  end.

(** Changing an object. *)
Fixpoint update {A} (l : list A) (n : nat) (a : A) : list A :=
  match l, n with
  | [], _ => []
  | _ :: l', O => a :: l'
  | x :: l', S n' => x :: update l' n' a
  end.
Definition with_filters (s : section) (f : option (list sfilter)) : section := mkSection (index s) f (group s) (active s).

(** [Section.set_signal] on the object [r], signatures.py 1191-1234. *)
Definition write (st : state) (r : nat) (i : Z) (name : option pystr) (count : Z) (q t : option pystr) : state * result unit :=
  match nth_error (objects st) r with
  | None => (st, Err AttributeError)
  | Some s =>
      let (f, res) := set_signal (filters s) i name count q t in
      (mkState (update (objects st) r (with_filters s f)) (held st), res)
  end.

(** ** Validation *)
(** data/signals.py 30. *)
Definition pure_virtual : list pystr := [str "signal-everything"; str "signal-anything"; str "signal-each"].

(** What an entry of the list says. *)
Definition content (st : state) (x : item) : option section :=
  match x with Obj r => nth_error (objects st) r | Raw s => Some s end.
Fixpoint contents (st : state) (l : list item) : option (list section) :=
  match l with
  | [] => Some []
  | x :: l' => match content st x, contents st l' with Some a, Some b => Some (a :: b) | _, _ => None end
  end.
Definition entries (s : section) : list sfilter := match filters s with Some l => l | None => [] end.
(** signatures.py 1156-1180: the message of the warning asks a string for its
    [name], which raises AttributeError. *)
Definition asks_name (s : section) : bool := existsb (fun f => one_of pure_virtual (s_name f)) (entries s).
Definition valid (s : section) : bool := is_uint32 (index s) && forallb s_valid (entries s).
Definition strict (m : mode) : bool := negb (mode_le m MMinimum).

(** One warning for a section with an extra key, signatures.py 143-180; [known] is
    whether the entity is.  It is made after the section has been accepted. *)
Inductive warning := Unused (s : section).
Definition says (m : mode) (known : bool) (s : section) : list warning :=
  if strict m && known && valid s then match active s with Some _ => [Unused s] | None => [] end else [].

(** What becomes of a list of sections: an exception that is not pydantic's goes
    through; else the warnings and, if all are accepted, the copies. *)
Inductive outcome := Raised (e : exn) | Refused (w : list warning) | Accepted (w : list warning) (l : list section).
Definition check (m : mode) (known : bool) (l : list section) : outcome :=
  if strict m && existsb asks_name l then Raised AttributeError
  else if forallb valid l then Accepted (flat_map (says m known) l) l
  else Refused (flat_map (says m known) l).

(** New objects with these contents, in the list. *)
Definition copied (st : state) (l : list section) : state :=
  mkState (objects st ++ l) (Held (Some (map Obj (seq (List.length (objects st)) (List.length l))))).

(** [Entity.validate] entity.py 700-740 for the field of the sections; [others] is
    whether all other fields are accepted.  The number of errors, the warnings
    and what is raised. *)
Definition validate (st : state) (m : mode) (force known others : bool) : state * (nat * list warning * option exn) :=
  if mode_eq m MNone && negb force then (st, (0%nat, [], None)) else
  match held st with
  | Missing => (st, ((if others then 0 else 1)%nat, [], None))
  | Junk => (st, (1%nat, [], None))
  | Held None => (st, ((if others then 0 else 1)%nat, [], None))
  | Held (Some l) =>
      match contents st l with
      | None => (st, (1%nat, [], None))
      | Some cs =>
          match check m known cs with
          | Raised e => (st, (0%nat, [], Some e))
          | Refused w => (st, (1%nat, w, None))
          | Accepted w cs' => if others then (copied st cs', (0%nat, w, None)) else (st, (1%nat, w, None))
          end
      end
  end.

(** [self.sections = v], request_filters.py 248-259 and constant_combinator.py
    203-214, where [type(self).Format.ControlBehavior.Sections] does not exist.
    The warnings and what is raised. *)
Definition assign (c : class) (st : state) (m : mode) (known : bool) (v : option (list item)) : state * (list warning * option exn) :=
  let raw :=
    match held st with
    | Held _ => (mkState (objects st) (Held v), ([], None))
    | _ => (st, ([], Some AttributeError))
    end in
  if mode_bool m then
    match c, held st with
    | ConstantCombinator, _ => (st, ([], Some AttributeError))
    | _, Held _ =>
        match v with
        | None => raw
        | Some l =>
            match contents st l with
            | None => (st, ([], Some DataFormatError))
            | Some cs =>
                match check m known cs with
                | Raised e => (st, ([], Some e))
                | Refused _ => (st, ([], Some DataFormatError))
                | Accepted w cs' => (copied st cs', (w, None))
                end
            end
        end
    | _, _ => (st, ([], Some AttributeError))
    end
  else raw.

(** ** Looking up *)
Inductive key := Name (s : pystr) | Place (i : Z).
Definition named (g : pystr) (o : option pystr) : bool := match o with Some s => pystr_eqb s g | None => false end.

(** [next(section for section in self.sections if section.group == key)]; a
    dictionary has no attribute [group]. *)
Fixpoint find_group (st : state) (g : pystr) (l : list item) : result item :=
  match l with
  | [] => Err StopIteration
  | Raw _ :: _ => Err AttributeError
  | Obj r :: l' =>
      match nth_error (objects st) r with
      | None => Err AttributeError
      | Some s => if named g (group s) then Ok (Obj r) else find_group st g l'
      end
  end.
Definition list_item {A} (l : list A) (i : Z) : result A :=
  let j := if i <? 0 then i + Z.of_nat (List.length l) else i in
  if j <? 0 then Err IndexError
  else match nth_error l (Z.to_nat j) with Some x => Ok x | None => Err IndexError end.

(** [Sections.__getitem__] signatures.py 1435-1441. *)
Definition getitem (st : state) (k : key) : result item :=
  let* l := sections st in
  match l with
  | None => Err TypeError
  | Some l => match k with Name g => find_group st g l | Place i => list_item l i end
  end.

(** ** Histories *)
(** Calls on one entity; [Write] names the section by the number of the call of
    [add_section] that gave it. *)
Inductive call :=
| Add (g : option pystr) (idx : option Z) (a : bool)
| Write (k : nat) (i : Z) (name : option pystr) (count : Z) (q t : option pystr)
| Validate (m : mode) (force known others : bool)
| Assign (m : mode) (known : bool) (v : option (list section)).

(** The state and the references got so far. *)
Definition exec (c : class) (st : state * list nat) (o : call) : state * list nat :=
  let (s, refs) := st in
  match o with
  | Add g idx a => match add_section s g idx a with (s', Ok r) => (s', refs ++ [r]) | (s', Err _) => (s', refs) end
  | Write k i name count q t =>
      match nth_error refs k with
      | Some r => (fst (write s r i name count q t), refs)
      | None => (s, refs)
      end
  | Validate m force known others => (fst (validate s m force known others), refs)
  | Assign m known v => (fst (assign c s m known (option_map (map Raw) v)), refs)
  end.
Definition execs (c : class) (os : list call) (st : state * list nat) : state * list nat := fold_left (exec c) os st.
