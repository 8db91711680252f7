(** Comparing and merging entities (C64).

    Models
    - draftsman/classes/entity.py 742-762 [mergable_with], [merge], [__eq__];
    - the methods of the same names of the mixins and prototypes, as data
      (Merge_Classes.v), dispatched along the method resolution order;
    - the getters and setters of the attributes they touch.

    Simplifications: no mixin has a base class of its own, so the resolution
    order of a class is the class followed by its bases; entities are values
    ([deepcopy] is the identity, and two entities never share a control
    behavior); of an entity we keep its class, its global position, its ID,
    whether assignments are validated, and the fields of its [_root]; numbers
    are rationals. *)
From Coq Require Import ZArith QArith String List Bool.
From Verif Require Import Common Dict Trim_Model Wires_Model.
Import ListNotations.
Local Open Scope string_scope.
Local Open Scope list_scope.
Local Open Scope Z_scope.

Record ent := mkEnt {
  e_class : pystr;
  e_pos : Q * Q;             (* global_position, entity.py 536-556 *)
  e_id : option pystr;       (* entity.py 388-406 *)
  e_validates : bool;        (* bool(validate_assignment) *)
  e_root : list (pystr * val)
}.
Definition with_root (e : ent) (r : list (pystr * val)) : ent :=
  mkEnt (e_class e) (e_pos e) (e_id e) (e_validates e) r.

(** An attribute: [self._root.f], or a field of that. *)
Inductive place := Fld (f : pystr) | Sub (f g : pystr).

(** The statements of the [merge] methods. *)
Inductive stmt :=
| Super                 (* super().merge(other) *)
| Copy (a : place)      (* self.a = other.a *)
| Rewire.               (* circuit_connectable.py 190-195 *)
(** The conjuncts of the [mergable_with] and [__eq__] methods. *)
Inductive test :=
| TSuper                (* super().mergable_with(other), super().__eq__(other) *)
| TType                 (* type(self) == type(other) *)
| TPosition             (* self.global_position == other.global_position *)
| TId                   (* self.id == other.id *)
| TAttr (a : place).    (* self.a == other.a *)

Record methods := mkMethods {
  m_mergable : option (list test);
  m_merge : option (list stmt);
  m_eq : option (list test)
}.

(** ** Attributes *)
(** The getters, e.g. control_behavior.py 67-79, read_rail_signal.py 43-63;
    pydantic models also answer for their extra fields. *)
Definition read (e : ent) (a : place) : result val :=
  match a with
  | Fld f => match get (e_root e) f with Some v => Ok v | None => Err AttributeError end
  | Sub f g =>
      match get (e_root e) f with
      | None => Err AttributeError
      | Some (VRec _ fs ex) =>
          match get fs g with
          | Some v => Ok v
          | None => match get ex g with Some v => Ok v | None => Err AttributeError end
          end
      | Some _ => Err AttributeError
      end
  end.

(** Setters that validate whatever [validate_assignment] says: color.py 67-76,
    filters.py 96-100, inventory_filter.py 131-140, request_filters.py 151-158,
    infinity_container.py 129-138, infinity_pipe.py 143-152,
    programmable_speaker.py 404-413, 438-447. *)
Definition always_checked : list pystr :=
  [str "color"; str "filters"; str "inventory"; str "request_filters"; str "infinity_settings";
   str "parameters"; str "alert_parameters"].
(** What setters put in place of [None]: request_items.py 112-115 and
    linked_container.py 103-106. *)
Definition instead_of_none (f : pystr) (v : val) : val :=
  match v with
  | VNone => if pystr_eqb f (str "items") then VSeq []
             else if pystr_eqb f (str "link_id") then VInt 0 else VNone
  | _ => v
  end.

Section Merge.
  (** exportable.py 14-44 and 81-140, pydantic's validation of one assignment:
      model, whether validating, field, value. *)
  Variable check : pystr -> bool -> pystr -> val -> result val.
  (** The tables of Merge_Classes.v. *)
  Variable methods_table : list (pystr * methods).
  Variable bases_table : list (pystr * list pystr).

  (** The setters. [recipe] is stored before it is validated
      (recipe.py 170-178); the others store what validation returns. *)
  Definition write (e : ent) (a : place) (v : val) : ent * option exn :=
    match a with
    | Fld f =>
        let r := if e_validates e || mem f always_checked then check (e_class e) (e_validates e) f v else Ok v in
        match r with
        | Ok w => (with_root e (set (e_root e) f (instead_of_none f w)), None)
        | Err x =>
            (if pystr_eqb f (str "recipe") then with_root e (set (e_root e) f v) else e, Some x)
        end
    | Sub f g =>
        match get (e_root e) f with
        | Some (VRec c fs ex) =>
            match (if e_validates e then check c true g v else Ok v) with
            | Ok w =>
                (with_root e (set (e_root e) f (if has fs g then VRec c (set fs g w) ex
                                                else VRec c fs (set ex g w))), None)
            | Err x => (e, Some x)
            end
        | _ => (e, Some AttributeError)
        end
    end.

  (** [wire[0]()]: calling a number is a [TypeError]. *)
  Definition redirect_end (self other : nat) (w : wend) : result wend :=
    match w with
    | WInt _ => Err TypeError
    | WRef (Some o) => Ok (WRef (Some (if Nat.eqb o other then self else o)))
    | WRef None => Ok (WRef None)
    end.
  (** circuit_connectable.py 190-195; the wires before an offending one have
      been changed already. *)
  Fixpoint redirect (self other : nat) (ws : list wire) : list wire * option exn :=
    match ws with
    | [] => ([], None)
    | (a, s, b, t) :: ws' =>
        match redirect_end self other a with
        | Err x => (ws, Some x)
        | Ok a' =>
            match redirect_end self other b with
            | Err x => ((a', s, b, t) :: ws', Some x)
            | Ok b' =>
                let '(ws1, x) := redirect self other ws' in ((a', s, b', t) :: ws1, x)
            end
        end
    end.

  (** The entity being merged into, and the wires of the other one's parent if
      it has one. *)
  Definition mstate := (ent * option (list wire))%type.
  Definition moutcome := (mstate * option exn)%type.

  Definition step (self other : nat) (o : ent) (super : mstate -> moutcome) (s : stmt) (st : mstate) : moutcome :=
    match s with
    | Super => super st
    | Copy a =>
        match read o a with
        | Err x => (st, Some x)
        | Ok v => let '(e, x) := write (fst st) a v in ((e, snd st), x)
        end
    | Rewire =>
        match snd st with
        | None => (st, None)
        | Some ws => let '(ws', x) := redirect self other ws in ((fst st, Some ws'), x)
        end
    end.
  Fixpoint body (self other : nat) (o : ent) (super : mstate -> moutcome) (l : list stmt) (st : mstate) : moutcome :=
    match l with
    | [] => (st, None)
    | s :: l' =>
        match step self other o super s st with
        | (st', None) => body self other o super l' st'
        | r => r
        end
    end.

  Definition method {A} (sel : methods -> option A) (k : pystr) : option A :=
    match get methods_table k with Some m => sel m | None => None end.

  (** [merge] looked up along the resolution order [mro]. *)
  Fixpoint merge_along (self other : nat) (o : ent) (mro : list pystr) (st : mstate) : moutcome :=
    match mro with
    | [] => (st, Some AttributeError)
    | k :: rest =>
        match method m_merge k with
        | None => merge_along self other o rest st
        | Some l => body self other o (merge_along self other o rest) l st
        end
    end.

  Definition pos_eqb (p q : Q * Q) : bool := Qeq_bool (fst p) (fst q) && Qeq_bool (snd p) (snd q).
  Definition id_eqb (a b : option pystr) : bool :=
    match a, b with
    | None, None => true
    | Some x, Some y => pystr_eqb x y
    | _, _ => false
    end.
  Definition holds (super : result bool) (e o : ent) (t : test) : result bool :=
    match t with
    | TSuper => super
    | TType => Ok (pystr_eqb (e_class e) (e_class o))
    | TPosition => Ok (pos_eqb (e_pos e) (e_pos o))
    | TId => Ok (id_eqb (e_id e) (e_id o))
    | TAttr a => let* v := read e a in let* w := read o a in Ok (py_eq v w)
    end.
  (** [x and y and ...] stops at the first that is false. *)
  Fixpoint conj (super : result bool) (e o : ent) (l : list test) : result bool :=
    match l with
    | [] => Ok true
    | t :: l' => let* b := holds super e o t in if b then conj super e o l' else Ok false
    end.
  Fixpoint test_along (sel : methods -> option (list test)) (e o : ent) (mro : list pystr) : result bool :=
    match mro with
    | [] => Err AttributeError
    | k :: rest =>
        match method sel k with
        | None => test_along sel e o rest
        | Some l => conj (test_along sel e o rest) e o l
        end
    end.

  Definition mro (k : pystr) : list pystr :=
    k :: match get bases_table k with Some l => l | None => [] end.

  (** [self.mergable_with(other)] *)
  Definition mergable (e o : ent) : result bool := test_along m_mergable e o (mro (e_class e)).
  (** [self == other] *)
  Definition equal (e o : ent) : result bool := test_along m_eq e o (mro (e_class e)).
  (** [self.merge(other)] *)
  Definition merge (self other : nat) (e o : ent) (ws : option (list wire)) : moutcome :=
    merge_along self other o (mro (e_class e)) (e, ws).
End Merge.
