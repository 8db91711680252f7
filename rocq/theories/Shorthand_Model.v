(** Short forms of input: the functions that run before pydantic looks at a value.

    /repo/draftsman/signatures.py 523-544 ([normalize_icons], [normalize_version]),
    586-606 ([Color]), 743-757 ([Condition]), 1254-1274 ([Section]);
    classes/blueprint.py 399-411, classes/deconstruction_planner.py 199-235,
    classes/upgrade_planner.py 289-304, 385-390, classes/mixins/filters.py 31-43,
    classes/mixins/inventory_filter.py 55-67, classes/mixins/target_priorities.py
    58-70, prototypes/asteroid_collector.py 77-91, prototypes/linked_container.py
    36-42, 96-131.

    Values are None, booleans, integers, strings, lists, tuples, dicts with string
    keys in order, and other objects, which are neither iterable nor integers.
    Not modelled: bytes, sets, floats. *)
From Coq Require Import ZArith NArith String List Bool.
From Verif Require Import Common Assign_Model.
Import ListNotations.
Local Open Scope string_scope.
Local Open Scope list_scope.
Local Open Scope Z_scope.

Inductive py :=
| PNone
| PBool (b : bool)
| PInt (z : Z)
| PStr (s : pystr)
| PList (l : list py)
| PTuple (l : list py)
| PDict (d : list (pystr * py))
| PObj (n : Z).

(** [for x in v]: [None] if it is not iterable. *)
Definition chars (s : pystr) : list py := map (fun c => PStr [c]) s.
Definition iterate (v : py) : option (list py) :=
  match v with
  | PStr s => Some (chars s)
  | PList l | PTuple l => Some l
  | PDict d => Some (map (fun p => PStr (fst p)) d)
  | _ => None
  end.
(** [isinstance(v, Sequence)], with its elements. *)
Definition sequence (v : py) : option (list py) :=
  match v with
  | PStr s => Some (chars s)
  | PList l | PTuple l => Some l
  | _ => None
  end.
(** [isinstance(v, (list, tuple))] *)
Definition list_or_tuple (v : py) : option (list py) :=
  match v with PList l | PTuple l => Some l | _ => None end.
Definition truthy (v : py) : bool :=
  match v with
  | PNone => false
  | PBool b => b
  | PInt z => negb (z =? 0)
  | PStr s => match s with [] => false | _ => true end
  | PList l | PTuple l => match l with [] => false | _ => true end
  | PDict d => match d with [] => false | _ => true end
  | PObj _ => true
  end.
Definition has_key (k : pystr) (d : list (pystr * py)) : bool := existsb (fun p => pystr_eqb (fst p) k) d.
(** [isinstance(v, int)]: its value. *)
Definition as_int (v : py) : option Z :=
  match v with PInt z => Some z | PBool b => Some (if b then 1 else 0) | _ => None end.

(** ** Lists of names *)
(** The loop that numbers the strings from [i] on; [entry] makes the dict. *)
Fixpoint numbered (entry : Z -> pystr -> py) (i : Z) (l : list py) : list py :=
  match l with
  | [] => []
  | PStr s :: l' => entry (i + 1) s :: numbered entry (i + 1) l'
  | e :: l' => e :: numbered entry (i + 1) l'
  end.
Definition name_entry (i : Z) (s : pystr) : py := PDict [(str "index", PInt i); (str "name", PStr s)].
Definition icon_entry (i : Z) (s : pystr) : py := PDict [(str "signal", PStr s); (str "index", PInt i)].
(** mixins/filters.py 31-43, mixins/inventory_filter.py 55-67,
    deconstruction_planner.py 199-225, asteroid_collector.py 77-91. *)
Definition normalize_filters (v : py) : py :=
  match list_or_tuple v with Some l => PList (numbered name_entry 0 l) | None => v end.
(** mixins/target_priorities.py 58-70. *)
Definition normalize_priorities (v : py) : py :=
  match iterate v with Some l => PList (numbered name_entry 0 l) | None => v end.
(** blueprint.py 399-411. *)
Definition normalize_blueprint_icons (v : py) : py :=
  match list_or_tuple v with Some l => PList (numbered icon_entry 0 l) | None => v end.

Section oracles.
(** [signal_dict], [type_of]: [None] if there is no such signal. *)
Variable signal_dict : pystr -> option py.
Variable type_of : pystr -> option (list pystr).

(** signatures.py 523-537.  InvalidSignalError is a DraftsmanError. *)
Fixpoint planner_icons (i : Z) (l : list py) : result (list py) :=
  match l with
  | [] => Ok []
  | e :: l' =>
      let* e' := match e with
                 | PStr s => match signal_dict s with
                             | Some d => Ok (PDict [(str "index", PInt (i + 1)); (str "signal", d)])
                             | None => Err DraftsmanError
                             end
                 | PDict d => Ok (if has_key (str "type") d then PDict [(str "index", PInt (i + 1)); (str "signal", e)] else e)
                 | _ => Ok e
                 end in
      let* r := planner_icons (i + 1) l' in
      Ok (e' :: r)
  end.
Definition normalize_planner_icons (v : py) : result py :=
  match v with
  | PStr _ => Ok v
  | _ => match sequence v with
         | Some l => let* r := planner_icons 0 l in Ok (PList r)
         | None => Ok v
         end
  end.

(** What becomes of the signal of an icon: signatures.py 378-397 ([SignalID]), a
    ValueError and so a DataFormatError for unknown names. *)
Definition finish_field (p : pystr * py) : result (pystr * py) :=
  match p with
  | (k, PStr s) => if pystr_eqb k (str "signal")
                   then match signal_dict s with Some d => Ok (k, d) | None => Err DataFormatError end
                   else Ok p
  | _ => Ok p
  end.
Fixpoint finish_fields (d : list (pystr * py)) : result (list (pystr * py)) :=
  match d with
  | [] => Ok []
  | p :: d' => let* q := finish_field p in let* r := finish_fields d' in Ok (q :: r)
  end.
Definition finish_icon (e : py) : result py :=
  match e with PDict d => let* d' := finish_fields d in Ok (PDict d') | _ => Ok e end.
Fixpoint finish_icons (l : list py) : result (list py) :=
  match l with
  | [] => Ok []
  | e :: l' => let* e' := finish_icon e in let* r := finish_icons l' in Ok (e' :: r)
  end.

(** upgrade_planner.py 289-304; the IndexError of a pair that is too short is
    caught and the value returned as it was. *)
Definition side (k : string) (v : py) : list (pystr * py) := if truthy v then [(str k, v)] else [].
Fixpoint mappers (i : Z) (l : list py) : option (list py) :=
  match l with
  | [] => Some []
  | m :: l' =>
      match (match sequence m with
             | Some (a :: b :: _) => Some (PDict ((str "index", PInt i) :: side "from" a ++ side "to" b))
             | Some _ => None
             | None => Some m
             end), mappers (i + 1) l' with
      | Some m', Some r => Some (m' :: r)
      | _, _ => None
      end
  end.
Definition normalize_mappers (v : py) : py :=
  match iterate v with
  | Some l => match mappers 0 l with Some r => PList r | None => v end
  | None => v
  end.

(** signatures.py 592-606. *)
Definition normalize_color (v : py) : result py :=
  match list_or_tuple v with
  | Some (r :: g :: b :: rest) =>
      Ok (PDict ([(str "r", r); (str "g", g); (str "b", b)] ++ match rest with a :: _ => [(str "a", a)] | [] => [] end))
  | Some _ => Err IndexError
  | None => Ok v
  end.
(** signatures.py 743-757. *)
Definition normalize_condition (v : py) : result py :=
  match sequence v with
  | Some (a :: c :: b :: _) =>
      Ok (PDict [(str "first_signal", a); (str "comparator", c);
                 ((match as_int b with Some _ => str "constant" | None => str "second_signal" end), b)])
  | Some _ => Err IndexError
  | None => Ok v
  end.

(** utils.py 425-441 called with the elements of a sequence. *)
Definition encode_version (l : list py) : result Z :=
  match map as_int l with
  | [Some a; Some b] => Ok (Z.lor (Z.shiftl a 48) (Z.shiftl b 32))
  | [Some a; Some b; Some c] => Ok (Z.lor (Z.lor (Z.shiftl a 48) (Z.shiftl b 32)) (Z.shiftl c 16))
  | [Some a; Some b; Some c; Some d] => Ok (Z.lor (Z.lor (Z.lor (Z.shiftl a 48) (Z.shiftl b 32)) (Z.shiftl c 16)) d)
  | _ => Err TypeError
  end.
(** deconstruction_planner.py 229-235, upgrade_planner.py 385-390 and
    signatures.py 540-544. *)
Definition version_deconstruction (v : py) : result py :=
  match list_or_tuple v with Some l => let* z := encode_version l in Ok (PInt z) | None => Ok v end.
Definition version_upgrade (v : py) : result py :=
  match sequence v with Some l => let* z := encode_version l in Ok (PInt z) | None => Ok v end.
Definition normalize_version (v : py) : py :=
  match iterate v with
  | Some l => match encode_version l with Ok z => PInt z | Err _ => v end
  | None => v
  end.

(** ** [Section.filters], signatures.py 1254-1274: the list given is changed *)
Fixpoint hashable (v : py) : bool :=
  match v with
  | PList _ | PDict _ => false
  | PTuple l => forallb hashable l
  | _ => true
  end.
(** data/signals.py 105-108 [get_signal_types]. *)
Definition get_signal_types (v : py) : result (list pystr) :=
  if hashable v then
    match v with
    | PStr s => match type_of s with Some ts => Ok ts | None => Err DraftsmanError end
    | _ => Err DraftsmanError
    end
  else Err TypeError.
Definition filter_of (i : Z) (l : list py) : result py :=
  match l with
  | [] => Err IndexError
  | n :: rest =>
      let* ts := get_signal_types n in
      let* t := (if existsb (pystr_eqb (str "item")) ts then Ok (str "item")
                 else match ts with t :: _ => Ok t | [] => Err StopIteration end) in
      match rest with
      | c :: _ => Ok (PDict [(str "index", PInt i); (str "name", n); (str "type", PStr t);
                             (str "comparator", PStr (str "=")); (str "count", c)])
      | [] => Err IndexError
      end
  end.
(** The list afterwards, and the exception if there is one. *)
Fixpoint section_filters (i : Z) (l : list py) : list py * option exn :=
  match l with
  | [] => ([], None)
  | PTuple t :: l' =>
      match filter_of (i + 1) t with
      | Ok e => let (r, x) := section_filters (i + 1) l' in (e :: r, x)
      | Err x => (l, Some x)
      end
  | e :: l' => let (r, x) := section_filters (i + 1) l' in (e :: r, x)
  end.
End oracles.

(** ** Links, linked_container.py *)
(** 36-42 on integers. *)
Definition lowest_bits (z : Z) : Z := Z.land z (Z.ones 32).
Record link := mkLink { l_mode : mode; l_id : Z }.
Inductive link_stmt :=
| SetId (v : option Z)                    (** [link_id = v] *)
| SetLink (number : Z) (enabled : bool)   (** [set_link(number, enabled)] *)
| LinkMode (m : mode).                    (** [validate_assignment = m] *)
(** 96-107. *)
Definition set_id (s : link) (v : option Z) : link :=
  mkLink (l_mode s) (match v with
                     | None => 0
                     | Some z => if mode_bool (l_mode s) then lowest_bits z else z
                     end).
(** 111-131. *)
Definition link_exec (s : link) (t : link_stmt) : link * option exn :=
  match t with
  | SetId v => (set_id s v, None)
  | SetLink n b =>
      if negb ((0 <=? n) && (n <? 32)) then (s, Some ValueError)
      else (set_id s (Some (if b then Z.lor (l_id s) (Z.shiftl 1 n) else Z.land (l_id s) (Z.lnot (Z.shiftl 1 n)))), None)
  | LinkMode m => (mkLink m (l_id s), None)
  end.
Fixpoint link_run (s : link) (p : list link_stmt) : link :=
  match p with [] => s | t :: p' => link_run (fst (link_exec s t)) p' end.
