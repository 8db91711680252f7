(** Wires of a blueprint or group: adding, removing, generating
    (/repo/draftsman/classes/collection.py 349-1074), exporting
    (classes/blueprint.py 137-275) and importing (blueprint.py 576, 612-630).

    Objects are numbers (identities); what the code asks of an object is given
    by [attr] (its properties) and [veq] (Python [==]).  Lengths and positions
    are integers in an arbitrary unit, so that a distance is compared by
    squares; the code takes a floating-point square root (utils.py 501-511).
    Not modelled: slices as entity names. *)
From Coq Require Import ZArith List Bool String.
From Verif Require Import Common Dict.
Import ListNotations.
Local Open Scope Z_scope.

(** One end of a wire: a number (as imported) or an [Association]
    (association.py), a weak reference whose target may be gone. *)
Inductive wend := WInt (n : Z) | WRef (o : option nat).
Definition wire := (wend * Z * wend * Z)%type.

(** An entity, or a group with its wires, its members and its ID map
    (ID to position in the member list, see EntityList_Model). *)
Inductive tree :=
| Leaf (i : nat)
| Node (i : nat) (ws : list wire) (kids : list tree) (ids : list (pystr * nat)).
Definition tid (t : tree) : nat := match t with Leaf i => i | Node i _ _ _ => i end.

Record coll := mkC { c_ents : list tree; c_ids : list (pystr * nat); c_wires : list wire }.
Definition with_wires (c : coll) (ws : list wire) : coll := mkC (c_ents c) (c_ids c) ws.

(** What the code reads off an object: entity_like.py 56-92,
    mixins/power_connectable.py 38-52, mixins/circuit_connectable.py 45-60,
    prototypes/power_switch.py 95-113 ([None] for an unknown entity name). *)
Record obj := mkObj {
  o_power : bool; o_circuit : bool; o_dual : bool;
  o_pmax : option Z; o_cmax : option Z; o_x : Z; o_y : Z; o_type : pystr }.

Inductive warn := DistanceWarning | SideWarning.

(** How the caller names an entity. *)
Inductive key := KInt (z : Z) | KStr (s : pystr) | KTup (l : list key).
Inductive ref := RObj (i : nat) | RKey (k : key).

Definition wend_eqb (a b : wend) : bool :=
  match a, b with
  | WInt x, WInt y => x =? y
  | WRef (Some x), WRef (Some y) => Nat.eqb x y
  | WRef None, WRef None => true
  | _, _ => false
  end.
(** List equality of two wires; association.py 32-56: identity of targets. *)
Definition wire_eqb (a b : wire) : bool :=
  let '(a1, s1, a2, s2) := a in let '(b1, t1, b2, t2) := b in
  wend_eqb a1 b1 && (s1 =? t1) && wend_eqb a2 b2 && (s2 =? t2).

(** [try: self.wires.remove(w) except ValueError: pass]. *)
Fixpoint list_remove (w : wire) (ws : list wire) : list wire :=
  match ws with
  | [] => []
  | v :: ws' => if wire_eqb v w then ws' else v :: list_remove w ws'
  end.

(** Python [list.sort(key=...)]: stable. *)
Section Sort.
  Context {A : Type} (lt : A -> A -> bool).
  Fixpoint insert_sorted (x : A) (l : list A) : list A :=
    match l with
    | [] => [x]
    | y :: l' => if lt y x then y :: insert_sorted x l' else x :: l
    end.
  Fixpoint py_sort (l : list A) : list A :=
    match l with [] => [] | x :: l' => insert_sorted x (py_sort l') end.
End Sort.

(** entity_list.py 514-526 [__getitem__]. *)
Fixpoint getitem (k : key) (ents : list tree) (ids : list (pystr * nat)) {struct k} : result tree :=
  match k with
  | KInt z => match py_nth ents z with Some t => Ok t | None => Err IndexError end
  | KStr s =>
      match dget pystr_eqb ids s with
      | Some n => match nth_error ents n with Some t => Ok t | None => Err KeyError end
      | None => Err KeyError
      end
  | KTup [] => Err IndexError
  | KTup (k0 :: rest) =>
      let* base := getitem k0 ents ids in
      (fix walk (rest : list key) (base : tree) {struct rest} : result tree :=
         match base with
         | Leaf _ => Err AttributeError
         | Node _ _ kids kids_ids =>
             match rest with
             | [] => Err IndexError
             | k1 :: [] => getitem k1 kids kids_ids
             | k1 :: rest' => let* b := getitem k1 kids kids_ids in walk rest' b
             end
         end) rest base
  end.

(** utils.py 811-827 [flatten_entities], group.py 505-514 [get]. *)
Fixpoint leaves (t : tree) : list nat :=
  match t with
  | Leaf i => [i]
  | Node _ _ kids _ => flat_map leaves kids
  end.
Definition flatten (l : list tree) : list nat := flat_map leaves l.

(** blueprint.py 240-248 [flatten_wires]. *)
Fixpoint inner_wires (t : tree) : list wire :=
  match t with
  | Leaf _ => []
  | Node _ ws kids _ => ws ++ flat_map inner_wires kids
  end.

Definition side_ok (s : pystr) : bool := pystr_eqb s (str "input") || pystr_eqb s (str "output").
Definition color_ok (s : pystr) : bool := pystr_eqb s (str "red") || pystr_eqb s (str "green").
(** [{"input": 5, "output": 6}[side]]. *)
Definition power_value (s : pystr) : result Z :=
  if pystr_eqb s (str "input") then Ok 5 else if pystr_eqb s (str "output") then Ok 6 else Err KeyError.
(** [{"red": 1, "green": 2}[color] + {"input": 0, "output": 2}[side]]. *)
Definition circuit_value (col s : pystr) : result Z :=
  let* a := (if pystr_eqb col (str "red") then Ok 1 else if pystr_eqb col (str "green") then Ok 2 else Err KeyError) in
  let* b := (if pystr_eqb s (str "input") then Ok 0 else if pystr_eqb s (str "output") then Ok 2 else Err KeyError) in
  Ok (a + b).

Section Wires.
  Variable attr : nat -> obj.
  Variable veq : nat -> nat -> bool.

  (** Python [in] and [index]: identical or equal. *)
  Definition same (a b : nat) : bool := Nat.eqb a b || veq a b.

  (** entity_list.py 620-629 [__contains__]. *)
  Fixpoint in_group (x : nat) (t : tree) : bool :=
    match t with
    | Leaf _ => false
    | Node _ _ kids _ => existsb (fun k => same (tid k) x) kids || existsb (in_group x) kids
    end.
  Definition contains (x : nat) (l : list tree) : bool :=
    existsb (fun k => same (tid k) x) l || existsb (in_group x) l.

  Definition resolve (c : coll) (r : ref) : result nat :=
    match r with
    | RObj i => Ok i
    | RKey k => let* t := getitem k (c_ents c) (c_ids c) in Ok (tid t)
    end.
  Definition check_inside (c : coll) (i : nat) : result unit :=
    if contains i (c_ents c) then Ok tt else Err InvalidAssociationError.
  Definition require (b : bool) (e : exn) : result unit := if b then Ok tt else Err e.

  Definition sqdist (a b : nat) : Z :=
    (o_x (attr a) - o_x (attr b)) * (o_x (attr a) - o_x (attr b)) +
    (o_y (attr a) - o_y (attr b)) * (o_y (attr a) - o_y (attr b)).
  (** [min] of two lengths, a [TypeError] if one is [None]. *)
  Definition min_reach (p q : option Z) : result Z :=
    match p, q with Some a, Some b => Ok (Z.min a b) | _, _ => Err TypeError end.
  (** [distance(a, b) <= m]. *)
  Definition within_reach (a b : nat) (m : Z) : bool := (0 <=? m) && (sqdist a b <=? m * m).

  (** collection.py 349-512. *)
  Definition add_power (c : coll) (r1 r2 : ref) (s1 s2 : pystr) : result (coll * list warn) :=
    let* a := resolve c r1 in
    let* b := resolve c r2 in
    let* _ := check_inside c a in
    let* _ := check_inside c b in
    let* _ := require (side_ok s1) InvalidConnectionSideError in
    let* _ := require (side_ok s2) InvalidConnectionSideError in
    let* _ := require (o_power (attr a)) EntityNotPowerConnectableError in
    let* _ := require (o_power (attr b)) EntityNotPowerConnectableError in
    let* m := min_reach (o_pmax (attr a)) (o_pmax (attr b)) in
    let ws := if within_reach a b m then [] else [DistanceWarning] in
    let* t1 := power_value s1 in
    let* t2 := power_value s2 in
    Ok (with_wires c (c_wires c ++ [(WRef (Some a), t1, WRef (Some b), t2)]), ws).

  (** collection.py 514-625. *)
  Definition remove_power (c : coll) (r1 r2 : ref) (s1 s2 : pystr) : result coll :=
    let* a := resolve c r1 in
    let* b := resolve c r2 in
    let* _ := check_inside c a in
    let* _ := check_inside c b in
    let* t1 := power_value s1 in
    let* t2 := power_value s2 in
    let ws1 := list_remove (WRef (Some a), t1, WRef (Some b), t2) (c_wires c) in
    Ok (with_wires c (list_remove (WRef (Some b), t2, WRef (Some a), t1) ws1)).

  (** collection.py 734-914.  Only entities passed as objects are checked for
      membership. *)
  Definition resolve_checked (c : coll) (r : ref) : result nat :=
    match r with
    | RObj i => let* _ := check_inside c i in Ok i
    | RKey k => resolve c r
    end.
  Definition add_circuit (c : coll) (col : pystr) (r1 r2 : ref) (s1 s2 : pystr) : result (coll * list warn) :=
    let* a := resolve_checked c r1 in
    let* b := resolve_checked c r2 in
    let* _ := require (color_ok col) InvalidWireTypeError in
    let* _ := require (side_ok s1) InvalidConnectionSideError in
    let* _ := require (side_ok s2) InvalidConnectionSideError in
    let* _ := require (o_circuit (attr a)) EntityNotCircuitConnectableError in
    let* _ := require (o_circuit (attr b)) EntityNotCircuitConnectableError in
    let w1 := if pystr_eqb s1 (str "output") && negb (o_dual (attr a)) then [SideWarning] else [] in
    let w2 := if pystr_eqb s2 (str "output") && negb (o_dual (attr b)) then [SideWarning] else [] in
    let* m := min_reach (o_cmax (attr a)) (o_cmax (attr b)) in
    let w3 := if within_reach a b m then [] else [DistanceWarning] in
    let* t1 := circuit_value col s1 in
    let* t2 := circuit_value col s2 in
    Ok (with_wires c (c_wires c ++ [(WRef (Some a), t1, WRef (Some b), t2)]), w1 ++ w2 ++ w3).

  (** collection.py 916-1047. *)
  Definition remove_circuit (c : coll) (col : pystr) (r1 r2 : ref) (s1 s2 : pystr) : result coll :=
    let* a := resolve c r1 in
    let* b := resolve c r2 in
    let* _ := check_inside c a in
    let* _ := check_inside c b in
    let* _ := require (color_ok col) InvalidWireTypeError in
    let* _ := require (side_ok s1) InvalidConnectionSideError in
    let* _ := require (side_ok s2) InvalidConnectionSideError in
    let* t1 := circuit_value col s1 in
    let* t2 := circuit_value col s2 in
    let ws1 := list_remove (WRef (Some a), t1, WRef (Some b), t2) (c_wires c) in
    Ok (with_wires c (list_remove (WRef (Some b), t2, WRef (Some a), t1) ws1)).

  (** collection.py 627-655 and 1049-1074: [wire[1] not in {...}], in the
      groups first. *)
  Fixpoint strip (bad : list Z) (t : tree) : tree :=
    match t with
    | Leaf i => Leaf i
    | Node i ws kids ids =>
        Node i (filter (fun w : wire => negb (existsb (Z.eqb (snd (fst (fst w)))) bad)) ws)
          (map (strip bad) kids) ids
    end.
  Definition strip_all (bad : list Z) (c : coll) : coll :=
    mkC (map (strip bad) (c_ents c)) (c_ids c)
      (filter (fun w : wire => negb (existsb (Z.eqb (snd (fst (fst w)))) bad)) (c_wires c)).
  Definition remove_powers (c : coll) : coll := strip_all [5; 6] c.
  Definition remove_circuits (c : coll) : coll := strip_all [1; 2; 3; 4] c.

  (** collection.py 657-730. *)
  Definition on_axis (a b : nat) : bool :=
    (o_x (attr a) =? o_x (attr b)) || (o_y (attr a) =? o_y (attr b)).
  (** 685-705 [power_connectable]. *)
  Definition candidate (only_axis : bool) (cur other : nat) : result bool :=
    if Nat.eqb other cur then Ok false
    else if negb (on_axis cur other) && only_axis then Ok false
    else let* m := min_reach (o_pmax (attr cur)) (o_pmax (attr other)) in Ok (within_reach cur other m).
  Fixpoint candidates (only_axis : bool) (cur : nat) (l : list nat) : result (list nat) :=
    match l with
    | [] => Ok []
    | o :: l' =>
        let* b := candidate only_axis cur o in
        let* r := candidates only_axis cur l' in
        Ok (if b then o :: r else r)
    end.
  Definition by_distance (cur : nat) (l : list nat) : list nat :=
    py_sort (fun a b => sqdist a cur <? sqdist b cur) l.
  Definition by_axis (cur : nat) (l : list nat) : list nat :=
    py_sort (fun a b => on_axis a cur && negb (on_axis b cur)) l.
  (** The [while] loop pops from the end. *)
  Fixpoint connect_all (c : coll) (cur : nat) (l : list nat) : coll * option exn :=
    match l with
    | [] => (c, None)
    | n :: l' =>
        match add_power c (RObj cur) (RObj n) (str "input") (str "input") with
        | Ok (c', _) => connect_all c' cur l'
        | Err e => (c, Some e)
        end
    end.
  Fixpoint generate_loop (prefer_axis only_axis : bool) (poles todo : list nat) (c : coll) : coll * option exn :=
    match todo with
    | [] => (c, None)
    | cur :: todo' =>
        match candidates only_axis cur poles with
        | Err e => (c, Some e)
        | Ok near =>
            let s := by_distance cur near in
            let s := if prefer_axis then by_axis cur s else s in
            match connect_all c cur (rev s) with
            | (c', None) => generate_loop prefer_axis only_axis poles todo' c'
            | (c', Some e) => (c', Some e)
            end
        end
    end.
  Definition generate_power (prefer_axis only_axis : bool) (c : coll) : coll * option exn :=
    let poles := filter (fun i => pystr_eqb (o_type (attr i)) (str "electric-pole")) (flatten (c_ents c)) in
    generate_loop prefer_axis only_axis poles poles c.

  (** ** Export: blueprint.py 137-275 [_normalize_internal_structure]. *)
  (** [flattened_entities.index(x) + 1], a [ValueError] if absent. *)
  Definition number (fl : list nat) (x : nat) : result Z :=
    match index_of same fl x with Some n => Ok (Z.of_nat n + 1) | None => Err ValueError end.
  (** 228-233: a dead association runs into [locomotive["name"]]; a number is
      not callable. *)
  Definition export_loco (fl : list nat) (w : wend) : result Z :=
    match w with
    | WInt _ => Err TypeError
    | WRef None => Err TypeError
    | WRef (Some x) => number fl x
    end.
  Fixpoint mapM {A B} (f : A -> result B) (l : list A) : result (list B) :=
    match l with
    | [] => Ok []
    | a :: l' => let* b := f a in let* r := mapM f l' in Ok (b :: r)
    end.
  (** 223-233: a schedule without locomotives is dumped without the key
      (exportable.py 319-334, [exclude_defaults]). *)
  Definition export_schedule (fl : list nat) (locos : list wend) : result (list Z) :=
    match locos with [] => Err KeyError | _ => mapM (export_loco fl) locos end.
  Definition export_end (fl : list nat) (w : wend) : result Z :=
    match w with
    | WInt _ => Err TypeError
    | WRef None => Err InvalidAssociationError
    | WRef (Some x) => if existsb (fun y => same y x) fl then number fl x else Err InvalidAssociationError
    end.
  Definition xwire := (Z * Z * Z * Z)%type.
  Definition xwire_eqb (a b : xwire) : bool :=
    let '(a1, s1, a2, s2) := a in let '(b1, t1, b2, t2) := b in
    (a1 =? b1) && (s1 =? t1) && (a2 =? b2) && (s2 =? t2).
  Definition export_wire (fl : list nat) (w : wire) : result xwire :=
    let '(e1, t1, e2, t2) := w in
    let* a := export_end fl e1 in
    let* b := export_end fl e2 in
    Ok (a, t1, b, t2).
  (** 254-273. *)
  Fixpoint export_wires (fl : list nat) (ws : list wire) (out : list xwire) : result (list xwire) :=
    match ws with
    | [] => Ok out
    | w :: ws' =>
        let* n := export_wire fl w in
        export_wires fl ws' (if existsb (xwire_eqb n) out then out else out ++ [n])
    end.
  (** Exported: each source object with its [entity_number], the locomotives of
      each schedule, the wires. *)
  Record exported := mkX { x_ents : list (nat * Z); x_scheds : list (list Z); x_wires : list xwire }.
  Fixpoint numbered (i : Z) (l : list nat) : list (nat * Z) :=
    match l with [] => [] | x :: l' => (x, i + 1) :: numbered (i + 1) l' end.
  Definition export (c : coll) (scheds : list (list wend)) : result exported :=
    let fl := flatten (c_ents c) in
    let* ss := mapM (export_schedule fl) scheds in
    let* ws := export_wires fl (c_wires c ++ flat_map inner_wires (c_ents c)) [] in
    Ok (mkX (numbered 0 fl) ss ws).

  (** ** Import: blueprint.py 612-630, the ends that are numbers become
      associations to [self.entities[n - 1]]. *)
  Definition attach (ents : list tree) (w : wend) : result wend :=
    match w with
    | WInt z => match py_nth ents (z - 1) with Some t => Ok (WRef (Some (tid t))) | None => Err IndexError end
    | WRef o => Ok (WRef o)
    end.
  Definition attach_wire (ents : list tree) (w : wire) : result wire :=
    let '(e1, t1, e2, t2) := w in
    let* a := attach ents e1 in
    let* b := attach ents e2 in
    Ok (a, t1, b, t2).
  (** The new objects [ents], and the imported locomotives and wires. *)
  Definition import (ents : list tree) (ids : list (pystr * nat)) (scheds : list (list wend)) (ws : list wire)
    : result (coll * list (list wend)) :=
    let* ss := mapM (mapM (attach ents)) scheds in
    let* ws' := mapM (attach_wire ents) ws in
    Ok (mkC ents ids ws', ss).
End Wires.
