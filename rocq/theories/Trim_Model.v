(** Trimmed exports and re-import (C48).

    Models
    - draftsman/classes/exportable.py 319-334 [Exportable.to_dict], that is
      pydantic's [model_dump(by_alias=True, exclude_none, exclude_defaults)];
    - draftsman/classes/mixins/control_behavior.py 100-108 [to_dict];
    - draftsman/signatures.py 120-247 [DraftsmanBaseModel], that is pydantic's
      [model_validate] with [extra="allow"], [populate_by_name=True] and
      [revalidate_instances="always"], and the "construction" wrapper of fields;
    - draftsman/classes/entity.py 199-322 [Entity.__init__] and 700-740
      [Entity.validate];
    - the constructors of the prototypes and mixins, as data (Trim_Classes.v).

    Simplifications: validators that only inspect (warnings) are left out, and
    so are validators that rewrite shorthand input, which return dictionaries
    unchanged; floats are rationals; a dumped record lists its fields in the
    order of the class, which is the order pydantic creates them in. *)
From Coq Require Import ZArith NArith QArith String List Bool.
From Verif Require Import Common Dict.
Import ListNotations.
Local Open Scope string_scope.
Local Open Scope list_scope.
Local Open Scope Z_scope.

(** ** Values *)
(** Python values: [VRec c fields extra] is an instance of the pydantic model
    [c] with its [__dict__] and [__pydantic_extra__]. *)
Inductive val :=
| VNone
| VBool (b : bool)
| VInt (z : Z)
| VFloat (q : Q)
| VStr (s : pystr)
| VSeq (l : list val)
| VMap (d : list (pystr * val))
| VRec (c : pystr) (fields extra : list (pystr * val)).

Definition is_none (v : val) : bool := match v with VNone => true | _ => false end.
Definition get {A} (d : list (pystr * A)) (k : pystr) : option A := dget pystr_eqb d k.
Definition has {A} (d : list (pystr * A)) (k : pystr) : bool :=
  match get d k with Some _ => true | None => false end.
Definition set {A} (d : list (pystr * A)) (k : pystr) (v : A) : list (pystr * A) := dset pystr_eqb d k v.
Definition del {A} (d : list (pystr * A)) (k : pystr) : list (pystr * A) := ddel pystr_eqb d k.
(** [d.update(e)] *)
Definition update {A} (d e : list (pystr * A)) : list (pystr * A) :=
  fold_left (fun d kv => set d (fst kv) (snd kv)) e d.
Definition mem (k : pystr) (l : list pystr) : bool := existsb (pystr_eqb k) l.

(** Numbers compare by value: [True == 1 == 1.0]. *)
Definition num_of (v : val) : option Q :=
  match v with
  | VBool b => Some (if b then 1 else 0)%Q
  | VInt z => Some (inject_Z z)
  | VFloat q => Some q
  | _ => None
  end.

(** Python's [==]; dictionaries compare regardless of order, pydantic models by
    class, fields and extra fields. *)
Fixpoint py_eq (a b : val) {struct a} : bool :=
  let items := fix items (d e : list (pystr * val)) {struct d} : bool :=
    match d with
    | [] => true
    | (k, x) :: d' => match get e k with Some y => py_eq x y | None => false end && items d' e
    end in
  match num_of a, num_of b with
  | Some p, Some q => Qeq_bool p q
  | Some _, None | None, Some _ => false
  | None, None =>
      match a, b with
      | VNone, VNone => true
      | VStr s, VStr t => pystr_eqb s t
      | VSeq l, VSeq m =>
          (fix seq (l m : list val) {struct l} : bool :=
             match l, m with
             | [], [] => true
             | x :: l', y :: m' => py_eq x y && seq l' m'
             | _, _ => false
             end) l m
      | VMap d, VMap e => Nat.eqb (List.length d) (List.length e) && items d e
      | VRec c f x, VRec c' f' x' =>
          pystr_eqb c c' && Nat.eqb (List.length f) (List.length f') && items f f' &&
          Nat.eqb (List.length x) (List.length x') && items x x'
      | _, _ => false
      end
  end.

(** ** Schemas *)
Inductive leaf :=
| LBool
| LInt (lo hi : option Z)
| LFloat (lo hi : option Q)
| LStr
| LLiteral (options : list pystr)
| LEnum (options : list Z)
| LOrientation
| LNothing
| LDict
| LList
| LAny.

(** [attr] is the attribute name, [alias] the key it is exported under if that
    is another one; [default] is absent for required fields; [hidden] is
    [Field(exclude=True)]. *)
Record field := mkField {
  attr : pystr;
  alias : option pystr;
  default : option val;
  hidden : bool
}.
Definition key (f : field) : pystr := match alias f with Some k => k | None => attr f end.

Inductive typ :=
| Plain (k : leaf)
| Opt (t : typ)
| ListOf (t : typ)
| Model (c : pystr) (fs : list (field * typ)).

(** JSON values: no model instances, and no dictionary has a key twice. *)
Fixpoint distinct (l : list pystr) : bool :=
  match l with [] => true | k :: l' => negb (mem k l') && distinct l' end.
Fixpoint plain (v : val) : bool :=
  match v with
  | VSeq l => forallb plain l
  | VMap d => distinct (map fst d) && forallb (fun kv => plain (snd kv)) d
  | VRec _ _ _ => false
  | _ => true
  end.

Definition above (lo : option Q) (q : Q) : bool := match lo with Some l => Qle_bool l q | None => true end.
Definition below (hi : option Q) (q : Q) : bool := match hi with Some h => Qle_bool q h | None => true end.
(** Whether a value is of a type. *)
Definition typed (k : leaf) (v : val) : bool :=
  match k, v with
  | LBool, VBool _ => true
  | LInt lo hi, VInt z =>
      match lo with Some l => l <=? z | None => true end && match hi with Some h => z <=? h | None => true end
  | LFloat lo hi, VFloat q => above lo q && below hi q
  | LStr, VStr _ => true
  | LLiteral l, VStr s => mem s l
  | LEnum l, VInt z => existsb (Z.eqb z) l
  | LOrientation, VFloat _ => true
  | LNothing, VNone => true
  | LDict, VMap _ => plain v
  | LList, VSeq _ => plain v
  | LAny, _ => plain v
  | _, _ => false
  end.

(** ** Export *)
Definition is_default (f : field) (v : val) : bool :=
  match default f with Some d => py_eq v d | None => false end.

(** draftsman/classes/exportable.py 319-334. [xn] is [exclude_none] and [xd]
    [exclude_defaults]. Values that do not have the declared shape are emitted
    as they are ([warnings=False]). *)
Definition trimmed (xn xd : bool) (f : field) (v : val) : bool :=
  hidden f || (xn && is_none v) || (xd && is_default f v).
Definition extras (xn : bool) (ex : list (pystr * val)) : list (pystr * val) :=
  filter (fun kv => negb (xn && is_none (snd kv))) ex.
Fixpoint dump (xn xd : bool) (t : typ) (v : val) {struct t} : val :=
  match t with
  | Plain _ => v
  | Opt t => dump xn xd t v
  | ListOf t => match v with VSeq l => VSeq (map (dump xn xd t) l) | _ => v end
  | Model _ fs =>
      match v with
      | VRec _ r ex =>
          VMap (update
            ((fix each (fs : list (field * typ)) : list (pystr * val) :=
                match fs with
                | [] => []
                | (f, t) :: fs' =>
                    match get r (attr f) with
                    | Some x => if trimmed xn xd f x then each fs' else (key f, dump xn xd t x) :: each fs'
                    | None => each fs'
                    end
                end) fs)
            (extras xn ex))
      | _ => v
      end
  end.

(** ** Import *)
(** pydantic looks a field up by its alias first, then by its name. *)
Definition lookup (f : field) (d : list (pystr * val)) : option (pystr * val) :=
  match get d (key f) with
  | Some v => Some (key f, v)
  | None => match get d (attr f) with Some v => Some (attr f, v) | None => None end
  end.
Definition used (fs : list (field * typ)) (d : list (pystr * val)) : list pystr :=
  flat_map (fun ft => match lookup (fst ft) d with Some (k, _) => [k] | None => [] end) fs.

(** [lax k v] is what pydantic makes of a value that is not of the type. *)
Definition oracle := leaf -> val -> option val.
Definition convert (lax : oracle) (k : leaf) (v : val) : option val :=
  if typed k v then Some v else lax k v.

Fixpoint all_some {A} (l : list (option A)) : option (list A) :=
  match l with
  | [] => Some []
  | Some x :: l' => match all_some l' with Some r => Some (x :: r) | None => None end
  | None :: _ => None
  end.

(** [model_validate]; [con] is the "construction" context of
    draftsman/signatures.py 145-161, under which a field that does not validate
    keeps its value. [None] is a [ValidationError]. *)
Definition fallback (con : bool) (x : val) (o : option val) : option val :=
  match o with Some y => Some y | None => if con then Some x else None end.
Definition pick (f : field) (d : list (pystr * val)) (k : val -> option val) : option (pystr * val) :=
  match lookup f d with
  | Some (_, x) => match k x with Some y => Some (attr f, y) | None => None end
  | None => match default f with Some v => Some (attr f, v) | None => None end
  end.
Fixpoint load (lax : oracle) (con : bool) (t : typ) (v : val) {struct t} : option val :=
  match t with
  | Plain k => convert lax k v
  | Opt t => if is_none v then Some VNone else load lax con t v
  | ListOf t =>
      match v with
      | VSeq l => match all_some (map (load lax con t) l) with Some l' => Some (VSeq l') | None => None end
      | _ => None
      end
  | Model c fs =>
      let from d :=
        match all_some ((fix each (fs : list (field * typ)) : list (option (pystr * val)) :=
                 match fs with
                 | [] => []
                 | (f, t) :: fs' =>
                     pick f d (fun x => fallback con x (load lax con t x)) :: each fs'
                 end) fs) with
        | Some r => Some (VRec c r (filter (fun kv => negb (mem (fst kv) (used fs d))) d))
        | None => None
        end in
      match v with
      | VMap d => from d
      | VRec c' r ex => if pystr_eqb c c' then from (update r ex) else None
      | _ => None
      end
  end.

(** ** Constructors *)
(** A keyword handed to [super().__init__]: a parameter, possibly with [None]
    replaced ([{} if tags is None else tags]); or the parameter unless it has its
    default value and another keyword was given
    (draftsman/prototypes/underground_belt.py 47-49). *)
Inductive arg :=
| Pass (p : pystr) (if_none : option val)
| PassOr (p other : pystr) (unless : val).
Definition arg_name (a : arg) : pystr := match a with Pass p _ => p | PassOr p _ _ => p end.

(** Where an attribute assigned in a constructor comes from: the first of some
    keywords that was handed on, or a default; or a parameter. *)
Inductive source :=
| Kwarg (keys : list pystr) (dflt : val)
| Param (p : pystr).
(** [Store a s n]: attribute [a] of the format is assigned from [s]; if the
    setter replaces [None], by [n]. *)
Inductive step := Store (a : pystr) (s : source) (if_none : option val).

Record class_ := mkClass {
  c_name : pystr;
  c_fields : list (field * typ);
  c_params : list (pystr * val);
  c_passed : list arg;
  c_steps : list step;
  c_control : bool
}.

Definition none_to (d : option val) (v : val) : val :=
  match d, v with Some w, VNone => w | _, _ => v end.
Definition param (c : class_) (kw : list (pystr * val)) (p : pystr) : val :=
  match get kw p with
  | Some v => v
  | None => match get (c_params c) p with Some v => v | None => VNone end
  end.
Definition argument (c : class_) (kw : list (pystr * val)) (a : arg) : val :=
  match a with
  | Pass p n => none_to n (param c kw p)
  | PassOr p k u =>
      match get kw k with
      | Some v => if py_eq (param c kw p) u then v else param c kw p
      | None => param c kw p
      end
  end.
(** [**kwargs]: the keywords that are not parameters. *)
Definition rest (c : class_) (kw : list (pystr * val)) : list (pystr * val) :=
  filter (fun kv => negb (has (c_params c) (fst kv))) kw.
(** What [Entity.__init__] receives; it treats a position of [None] as absent
    (draftsman/classes/entity.py 251-253). *)
Definition handed (c : class_) (kw : list (pystr * val)) : list (pystr * val) :=
  filter (fun kv => negb (pystr_eqb (fst kv) (str "position") && is_none (snd kv)))
    (map (fun a => (arg_name a, argument c kw a)) (c_passed c) ++ rest c kw).
(** draftsman/classes/entity.py 266-276. *)
Definition zero : val := VMap [(str "x", VInt 0); (str "y", VInt 0)].
Definition base_dict : list (pystr * val) :=
  [(str "quality", VStr (str "normal")); (str "position", zero); (str "entity_number", VInt 0)].

Fixpoint first_of (keys : list pystr) (d : list (pystr * val)) (dflt : val) : val :=
  match keys with
  | [] => dflt
  | k :: keys' => match get d k with Some v => v | None => first_of keys' d dflt end
  end.
Definition from (c : class_) (kw : list (pystr * val)) (s : source) : val :=
  match s with
  | Kwarg keys dflt => first_of keys (handed c kw) dflt
  | Param p => param c kw p
  end.
(** Assignments in a constructor are not validated ([validate_assignment] is
    [NONE]); setters that coerce ([test_replace_me], [request_filters]) do it
    as [validate] does afterwards and are not distinguished. *)
Definition perform (c : class_) (kw : list (pystr * val)) (r : list (pystr * val)) (s : step) : list (pystr * val) :=
  match s with
  | Store a s n => set r a (none_to n (from c kw s))
  end.

Definition format (c : class_) : typ := Model (c_name c) (c_fields c).
Definition construct (lax : oracle) (c : class_) (kw : list (pystr * val)) : option val :=
  match load lax true (format c) (VMap (update base_dict (handed c kw))) with
  | Some (VRec n r ex) => Some (VRec n (fold_left (perform c kw) (c_steps c) r) ex)
  | Some _ | None => None
  end.

(** draftsman/classes/entity.py 700-740: the result of validation replaces the
    contents, except for direction and orientation. *)
Definition keep_raw (a : pystr) (old new : list (pystr * val)) : list (pystr * val) :=
  match get old a with Some v => set new a v | None => new end.
Definition validate (lax : oracle) (c : class_) (v : val) : option val :=
  match v, load lax false (format c) v with
  | VRec _ old _, Some (VRec n r ex) =>
      Some (VRec n (keep_raw (str "orientation") old (keep_raw (str "direction") old r)) ex)
  | _, _ => None
  end.
(** draftsman/classes/entity_list.py 538 [new_entity( **value)] followed by the
    validation of the collection it is put into (entity_list.py 472-508). *)
Definition reimport (lax : oracle) (c : class_) (kw : list (pystr * val)) : option val :=
  match construct lax c kw with Some v => validate lax c v | None => None end.

(** draftsman/classes/mixins/control_behavior.py 100-108. *)
Definition to_dict (xn xd : bool) (c : class_) (v : val) : list (pystr * val) :=
  match dump xn xd (format c) v with
  | VMap d =>
      if c_control c then
        match get d (str "control_behavior") with
        | Some (VMap []) => del d (str "control_behavior")
        | _ => d
        end
      else d
  | _ => []
  end.

(** ** Electric energy interface *)
(** draftsman/prototypes/electric_energy_interface.py 219-231: [to_dict] of the
    entity, then three fields compared with the defaults of the prototype;
    [del] of an absent key raises [KeyError]. *)
Definition del_default (d : list (pystr * val)) (k : pystr) (dflt : val) : result (list (pystr * val)) :=
  let v := match get d k with Some v => v | None => VNone end in
  if py_eq v dflt then match get d k with Some _ => Ok (del d k) | None => Err KeyError end else Ok d.
Definition energy_to_dict (xn xd : bool) (size production usage : val) (c : class_) (v : val) : result (list (pystr * val)) :=
  let d := to_dict xn xd c v in
  if xd then
    let* d := del_default d (str "buffer_size") size in
    let* d := del_default d (str "power_production") production in
    del_default d (str "power_usage") usage
  else Ok d.
(** draftsman/prototypes/electric_energy_interface.py 80-93: [None] stands for
    the prototype's default. *)
Definition energy_field (dflt : val) (given : option val) : val :=
  match given with Some VNone | None => dflt | Some v => v end.
