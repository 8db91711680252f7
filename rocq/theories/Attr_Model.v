(** Attributes of entities: class headers, method resolution order, properties,
    and what their getters and setters read and write.

    /repo/draftsman/classes/exportable.py 14-44 ([attempt_and_reissue]), 81-130
    ([test_replace_me]); classes/entity.py, classes/entity_like.py,
    classes/spatial_like.py, classes/mixins/*.py, prototypes/*.py (the properties);
    signatures.py 107-247 ([DraftsmanBaseModel]). The classes, their bases, their
    fields and their properties are the data of [Attr_Table].

    An entity is the tree below [self._root]. Values are [None], opaque values, models
    (with their fields, declared or extra) and dicts. Checking a value against a
    declared field is an oracle. It may look at the whole object; its error is the
    exception the caller sees. A field that the model does not declare takes any
    value, for the models are configured with [extra="allow"] (243-247).
    Simplifications: two entities do not share a model object; [get] of a model
    looks into [__dict__], where extra fields are not, which matters only for fields
    that are not declared; validators that run after the assignment of a field do
    not fail; values of attributes that are not properties (methods of dicts) do not
    occur. *)
From Coq Require Import ZArith String List Bool.
From Verif Require Import Common Dict Version_Model Assign_Model.
Import ListNotations.
Local Open Scope string_scope.
Local Open Scope list_scope.

(** ** Data: what class statements say *)
(** A class, by its qualified name: ["Lamp.Format.ControlBehavior"]. *)
Definition cls := string.
(** [.k], [["k"]], [.get("k", None)]. *)
Inductive step := SAttr (k : string) | SItem (k : string) | SGet (k : string).
Definition skey (s : step) : string := match s with SAttr k | SItem k | SGet k => k end.
(** [self._root] or [self.p], then steps. *)
Record place := { base : option string; steps : list step }.

(** What a setter does before it checks: nothing, or store the value in any case, or
    store it when it is going to check. *)
Inductive early := Late | EarlyAlways (p : place) | EarlyChecked (p : place).
(** Setters: [type(self).Format] and the classes nested in it that are named, the
    object that is checked, the name of the field, and where values are stored.
    - [Plain]: [if self.validate_assignment: p1 = attempt_and_reissue(...) else: p2 = value];
    - [Test]: [test_replace_me(...)];
    - [Raw]: [p = value];
    - [Always]: [p = attempt_and_reissue(...)];
    - [ReadOnly]: there is no setter. *)
Inductive setter :=
| Plain (e : early) (m : list string) (target : place) (name : string) (p1 p2 : place)
| Test (m : list string) (target : place) (name : string)
| Raw (p : place)
| Always (m : list string) (target : place) (name : string) (p : place)
| ReadOnly.
Record property := { p_get : place; p_set : setter }.

Record lib := {
  l_bases : list (cls * list cls);              (** [class C(B1, ..., Bn)] *)
  l_fields : list (cls * list string);          (** annotated fields of a model *)
  l_props : list (cls * list (string * property))
}.

(** ** Method resolution order (C3), as Python computes it for a class statement *)
Definition eqs := String.eqb.
Definition mem (c : string) (l : list string) : bool := existsb (eqs c) l.
Definition tails (seqs : list (list cls)) : list (list cls) := map (@tl cls) seqs.
(** The first head that is in no tail. *)
Fixpoint pick (all seqs : list (list cls)) : option cls :=
  match seqs with
  | [] => None
  | [] :: r => pick all r
  | (c :: _) :: r => if existsb (mem c) (tails all) then pick all r else Some c
  end.
Definition drop (c : cls) (s : list cls) : list cls :=
  match s with x :: r => if eqs x c then r else s | [] => [] end.
Definition nonempty (s : list cls) : bool := match s with [] => false | _ => true end.
Fixpoint merge (fuel : nat) (seqs : list (list cls)) : result (list cls) :=
  match fuel with
  | O => Err OutOfFuel
  | S n =>
    match filter nonempty seqs with
    | [] => Ok []
    | seqs' =>
      match pick seqs' seqs' with
      | None => Err TypeError
      | Some c => let* r := merge n (map (drop c) seqs') in Ok (c :: r)
      end
    end
  end.
(** A name that is not bound when the class statement runs: [KeyError] here. *)
Fixpoint mro (fuel : nat) (L : lib) (c : cls) : result (list cls) :=
  match fuel with
  | O => Err OutOfFuel
  | S n =>
    match dget eqs (l_bases L) c with
    | None => Err KeyError
    | Some bs =>
      let* ls := map_result (mro n L) bs in
      let* r := merge (S (List.length (List.concat ls) + List.length bs)) (ls ++ [bs]) in
      Ok (c :: r)
    end
  end.
(** No chain of classes here is longer. *)
Definition depth : nat := 24.
Definition order (L : lib) (c : cls) : result (list cls) := mro depth L c.

(** ** Looking up attributes of classes *)
Fixpoint first_some {A B} (f : A -> option B) (l : list A) : option B :=
  match l with
  | [] => None
  | x :: r => match f x with Some y => Some y | None => first_some f r end
  end.
Definition own_prop (L : lib) (a : string) (d : cls) : option property :=
  match dget eqs (l_props L) d with Some ps => dget eqs ps a | None => None end.
(** [type(self).a] of a property. *)
Definition find_prop (L : lib) (c : cls) (a : string) : option property :=
  match order L c with Ok m => first_some (own_prop L a) m | Err _ => None end.
Definition own_class (L : lib) (n : string) (d : cls) : option cls :=
  let q := (d ++ "." ++ n)%string in
  match dget eqs (l_bases L) q with Some _ => Some q | None => None end.
(** [C.n] of a class that is nested in [C] or inherited. *)
Definition find_class (L : lib) (c : cls) (n : string) : option cls :=
  match order L c with Ok m => first_some (own_class L n) m | Err _ => None end.
Fixpoint find_path (L : lib) (c : cls) (ns : list string) : result cls :=
  match ns with
  | [] => Ok c
  | n :: r => match find_class L c n with Some d => find_path L d r | None => Err AttributeError end
  end.
(** [type(self).Format.M1...Mk] *)
Definition model_of (L : lib) (c : cls) (m : list string) : result cls := find_path L c ("Format" :: m).
(** Fields of a model are its own and those of its bases. *)
Definition declared (L : lib) (M : cls) (f : string) : bool :=
  match order L M with
  | Ok m => existsb (fun d => match dget eqs (l_fields L) d with Some fs => mem f fs | None => false end) m
  | Err _ => false
  end.

(** ** Objects *)
Inductive tree :=
| TNone
| TVal (n : Z)
| TModel (fs : list (string * tree))
| TDict (fs : list (string * tree)).

(** [t.k], [t["k"]] (signatures.py 206-207), [t.get("k", None)] (216-217). *)
Definition child (t : tree) (s : step) : result tree :=
  match t, s with
  | TModel fs, (SAttr k | SItem k) => match dget eqs fs k with Some v => Ok v | None => Err AttributeError end
  | TModel fs, SGet k => match dget eqs fs k with Some v => Ok v | None => Ok TNone end
  | TDict fs, SItem k => match dget eqs fs k with Some v => Ok v | None => Err KeyError end
  | TDict fs, SGet k => match dget eqs fs k with Some v => Ok v | None => Ok TNone end
  | TDict _, SAttr _ => Err AttributeError
  | _, SItem _ => Err TypeError
  | _, _ => Err AttributeError
  end.
Fixpoint read (t : tree) (ss : list step) : result tree :=
  match ss with [] => Ok t | s :: r => let* u := child t s in read u r end.
(** The object again, after one of its members was changed in place. *)
Definition replace (t : tree) (k : string) (u : tree) : tree :=
  match t with
  | TModel fs => TModel (dset eqs fs k u)
  | TDict fs => TDict (dset eqs fs k u)
  | _ => t
  end.
Fixpoint update (t : tree) (ss : list step) (f : tree -> result tree) : result tree :=
  match ss with
  | [] => f t
  | s :: r => let* u := child t s in let* u' := update u r f in Ok (replace t (skey s) u')
  end.
(** [t.k = v], [t["k"] = v] (signatures.py 209-210). *)
Definition store (s : step) (v t : tree) : result tree :=
  match t, s with
  | TModel _, (SAttr k | SItem k) => Ok (replace t k v)
  | TDict _, SItem k => Ok (replace t k v)
  | _, SItem _ => Err TypeError
  | _, _ => Err AttributeError
  end.

(** Where a place is below [self._root]: the properties it goes through only read. *)
Fixpoint locate (fuel : nat) (L : lib) (c : cls) (p : place) : result (list step) :=
  match base p with
  | None => Ok (steps p)
  | Some a =>
    match fuel with
    | O => Err OutOfFuel
    | S n =>
      match find_prop L c a with
      | None => Err AttributeError
      | Some q => let* ss := locate n L c (p_get q) in Ok (ss ++ steps p)
      end
    end
  end.
(** No getter goes through more properties. *)
Definition through : nat := 4.
Definition where_ (L : lib) (c : cls) (p : place) : result (list step) := locate through L c p.

(** [self.a] *)
Definition get (L : lib) (c : cls) (a : string) (t : tree) : result tree :=
  match find_prop L c a with
  | None => Err AttributeError
  | Some q => let* ss := where_ L c (p_get q) in read t ss
  end.

(** [p = v] *)
Definition put (L : lib) (c : cls) (p : place) (v t : tree) : result tree :=
  let* ss := where_ L c p in
  match rev ss with
  | [] => Err AttributeError
  | s :: r => update t (rev r) (store s v)
  end.

(** The oracle: mode, strictness, model, field, object, value. *)
Definition oracle := mode -> bool -> cls -> string -> tree -> tree -> result tree.

(** [validate_assignment(target, name, value)] of a model, and the value that is then
    in the field; the target is changed in place. Something that is no model has no
    [__dict__]. *)
Definition attempt (L : lib) (check : oracle) (md : mode) (strict : bool) (c : cls)
    (m : list string) (target : place) (name : string) (v t : tree) : result (tree * tree) :=
  let* M := model_of L c m in
  let* ss := where_ L c target in
  let* u := read t ss in
  match u with
  | TModel _ =>
    let* w := if declared L M name then check md strict M name t v else Ok v in
    let* t' := update t ss (store (SAttr name) w) in
    Ok (t', w)
  | _ => Err AttributeError
  end.

(** The object after a step and the exception, if one is raised. *)
Definition outcome := (tree * option exn)%type.
Definition done (t : tree) (r : result tree) : outcome :=
  match r with Ok t' => (t', None) | Err e => (t, Some e) end.
Definition then_ (o : outcome) (k : tree -> outcome) : outcome :=
  match o with (t, None) => k t | (t, Some e) => (t, Some e) end.
Definition checked (L : lib) (check : oracle) (md : mode) (strict : bool) (c : cls)
    (m : list string) (target : place) (name : string) (p : place) (v t : tree) : outcome :=
  match attempt L check md strict c m target name v t with
  | Err e => (t, Some e)
  | Ok (t', w) => done t' (put L c p w t')
  end.
(** [target[name]] *)
Definition item (target : place) (name : string) : place :=
  {| base := base target; steps := steps target ++ [SItem name] |}.

(** [self.a = v] *)
Definition assign (L : lib) (check : oracle) (c : cls) (md : mode) (t : tree) (a : string) (v : tree) : outcome :=
  match find_prop L c a with
  | None => (t, Some AttributeError)
  | Some q =>
    match p_set q with
    | Plain e m target name p1 p2 =>
      then_ (match e with
             | Late => (t, None)
             | EarlyAlways p => done t (put L c p v t)
             | EarlyChecked p => if mode_bool md then done t (put L c p v t) else (t, None)
             end)
        (fun t => if mode_bool md then checked L check md false c m target name p1 v t
                  else done t (put L c p2 v t))
    | Test m target name => checked L check md true c m target name (item target name) v t
    | Raw p => done t (put L c p v t)
    | Always m target name p => checked L check md false c m target name p v t
    | ReadOnly => (t, Some AttributeError)
    end
  end.

(** Programs: assignments and changes of [validate_assignment]. *)
Inductive op := Assign (a : string) (v : tree) | SetMode (m : mode).
Definition exec (L : lib) (check : oracle) (c : cls) (s : mode * tree) (o : op) : mode * tree :=
  match o with
  | Assign a v => (fst s, fst (assign L check c (fst s) (snd s) a v))
  | SetMode m => (m, snd s)
  end.
Definition run (L : lib) (check : oracle) (c : cls) (s : mode * tree) (p : list op) : mode * tree :=
  fold_left (exec L check c) p s.
