(** Whole lists of item filters:
    /repo/draftsman/classes/mixins/filters.py 17-43 (the format), 53-64 ([filter_count]),
    166-197 ([set_item_filters]); classes/mixins/inventory_filter.py 41-67 and 294-322
    ([set_inventory_filters]); signatures.py 77-105 (known names), 141-161 (construction),
    907-925 ([ItemFilter]); classes/exportable.py 14-46.

    A dictionary and an [ItemFilter] with the same entries are the same entry here: an
    instance is validated again by its fields.  Bools and floats that pydantic reads as
    ints are ints here.  Keys besides the four are left out (an unknown key costs a
    warning), except that a dictionary may lack each of the four.  The model the list
    belongs to has no keys of its own to warn about. *)
From Coq Require Import ZArith NArith List Bool String.
From Verif Require Import Common Dict Assign_Model Slots_Model.
Import ListNotations.
Local Open Scope list_scope.
Local Open Scope Z_scope.

Inductive val := VNone | VInt (z : Z) | VStr (s : pystr) | VOther (n : Z).
(** [ItemFilter], signatures.py 907-925; without validation its fields are anything. *)
Record ifil := mkFil { x_index : val; x_name : val; x_quality : val; x_comparator : val }.
(** An entry of a list as it is given. *)
Inductive entry :=
| EName (s : pystr)
| EDict (index name quality comparator : option val)
| EOther (n : Z).
(** The argument, and what [filters] holds. *)
Inductive given := GNone | GSeq (l : list entry) | GOther (n : Z).
Inductive held := HNone | HFilters (l : list ifil) | HRaw (l : list entry) | HOther (n : Z).

(** [normalize_filters], filters.py 31-43, inventory_filter.py 55-67: [{"index": i + 1,
    "name": entry}]. *)
Definition long_form (i : Z) (e : entry) : entry :=
  match e with EName s => EDict (Some (VInt (i + 1))) (Some (VStr s)) None None | _ => e end.
Fixpoint number (i : Z) (l : list entry) : list entry :=
  match l with [] => [] | e :: l' => long_form i e :: number (i + 1) l' end.

Section Reading.
  (** [numeral]: the strings pydantic reads as ints; [known]: the keys of [items.raw]. *)
  Variable numeral : pystr -> option Z.
  Variable known : pystr -> bool.

  (** The four fields, signatures.py 908-925. *)
  Definition in_int64 (z : Z) : option val := if is_int64 z then Some (VInt z) else None.
  Definition read_index (v : val) : option val :=
    match v with
    | VInt z => in_int64 z
    | VStr s => match numeral s with Some z => in_int64 z | None => None end
    | _ => None
    end.
  Definition read_name (v : val) : option val := match v with VStr s => Some (VStr s) | _ => None end.
  Definition read_choice (l : list pystr) (v : val) : option val :=
    match v with
    | VNone => Some VNone
    | VStr s => if one_of l s then Some (VStr s) else None
    | _ => None
    end.
  (** [construct_fields], signatures.py 141-161: without validation a field that cannot
      be read stays as it is. *)
  Definition field (m : mode) (read : val -> option val) (v : val) : option val :=
    match read v with
    | Some w => Some w
    | None => if mode_bool m then None else Some v
    end.
  (** A field that is not required has a default, which is not validated. *)
  Definition optional (m : mode) (read : val -> option val) (default : val) (o : option val) : option val :=
    match o with Some v => field m read v | None => Some default end.
  Definition read_entry (m : mode) (e : entry) : option ifil :=
    match e with
    | EDict (Some i) (Some n) q c =>
        match field m read_index i, field m read_name n,
              optional m (read_choice qualities) (VStr (str "any")) q,
              optional m (read_choice comparators) VNone c with
        | Some i', Some n', Some q', Some c' => Some (mkFil i' n' q' c')
        | _, _, _, _ => None
        end
    | _ => None
    end.
  Fixpoint read_all (m : mode) (l : list entry) : option (list ifil) :=
    match l with
    | [] => Some []
    | e :: l' => match read_entry m e, read_all m l' with
                 | Some f, Some fs => Some (f :: fs)
                 | _, _ => None
                 end
    end.
  (** [known_name], signatures.py 77-98. *)
  Definition name_warning (m : mode) (f : ifil) : list pystr :=
    if mode_le m MMinimum then []
    else match x_name f with VStr s => if known s then [] else [s] | _ => [] end.

  (** [attempt_and_reissue(self, ..., "filters", filters)] and the assignment after it:
      what is held then, and the names warned about. *)
  Definition assign (m : mode) (h : held) (g : given) : held * result (list pystr) :=
    match g with
    | GNone => (HNone, Ok [])
    | GSeq l =>
        let l' := number 0 l in
        match read_all m l' with
        | Some fs => (HFilters fs, Ok (flat_map (name_warning m) fs))
        | None => if mode_bool m then (h, Err DataFormatError) else (HRaw l', Ok [])
        end
    | GOther n => if mode_bool m then (h, Err DataFormatError) else (HOther n, Ok [])
    end.

  (** [set_inventory_filters], inventory_filter.py 294-322. *)
  Definition set_inventory_filters (m : mode) (h : held) (g : given) : held * result (list pystr) :=
    assign m h g.
  (** [set_item_filters], filters.py 166-197: the arguments are collected in a tuple. *)
  Inductive argument := ANone | AEntry (e : entry) | AList (l : list entry).
  Definition as_entry (a : argument) : entry :=
    match a with ANone => EOther 0 | AEntry e => e | AList _ => EOther 1 end.
  Definition set_item_filters (m : mode) (h : held) (args : list argument) : held * result (list pystr) :=
    match args with
    | [ANone] => assign m h GNone
    | _ => assign m h (GSeq (map as_entry args))
    end.

  (** Any calls, one after the other. *)
  Inductive op := SetAll (g : given) | SetItems (args : list argument).
  Definition step (m : mode) (h : held) (o : op) : held * result (list pystr) :=
    match o with
    | SetAll g => set_inventory_filters m h g
    | SetItems args => set_item_filters m h args
    end.
  Fixpoint run (h : held) (l : list (mode * op)) : held :=
    match l with [] => h | (m, o) :: l' => run (fst (step m h o)) l' end.
End Reading.

(** What is held, given again. *)
Definition entry_of (f : ifil) : entry :=
  EDict (Some (x_index f)) (Some (x_name f)) (Some (x_quality f)) (Some (x_comparator f)).
Definition given_of (h : held) : given :=
  match h with HNone => GNone | HFilters l => GSeq (map entry_of l) | HRaw l => GSeq l | HOther n => GOther n end.

(** [filter_count], filters.py 53-64: for each known entity its "filter_count", if it
    has one. *)
Definition filter_count (raw : dict pystr (option Z)) (name : pystr) : option Z :=
  match dget pystr_eqb raw name with
  | None => None
  | Some None => Some 0
  | Some (Some n) => Some n
  end.
