(** Validation of whole objects and the reports it returns.

    /repo/draftsman/classes/exportable.py 133-182 (ValidationResult), entity.py
    700-740, tile.py 263-293, entity_list.py 47-62 and 472-508, tile_list.py
    149-185, group.py 557-573, blueprintable.py 497-527, blueprint.py 1028-1044,
    blueprint_book.py 476-524.

    What pydantic's [model_validate] says about the fields of one object is an
    oracle ([checker]): it accepts them, possibly converted, or rejects them with
    one ValidationError, in either case with the warnings collected in the
    context until then; or a validator raises something else, which no
    [validate] catches.  The oracle sees the mode and the fields of the object.

    Every function returns the object as it is afterwards, also if it raises.

    Simplifications: the argument [mode] is a member of ValidationMode (any
    other value raises ValueError before anything else); an entity list and a
    tile list have no field that could be rejected except the ids (entity_list.py
    53-62); weak references are left out; books do not contain themselves. *)
From Coq Require Import ZArith QArith List Bool.
From Verif Require Import Common Assign_Model.
Import ListNotations.

(** ** ValidationResult, exportable.py 133-141 *)
Record report (E W : Type) := { errors : list E; warnings : list W }.
Arguments Build_report {E W} _ _.
Arguments errors {E W} _.
Arguments warnings {E W} _.

(** [ValidationResult([], [])] *)
Definition empty_report {E W} : report E W := Build_report [] [].

(** [__iadd__] 171-176, for another ValidationResult. *)
Definition add_report {E W} (a b : report E W) : report E W :=
  Build_report (errors a ++ errors b) (warnings a ++ warnings b).

(** Any operand: [raise NotImplemented] raises TypeError, as NotImplemented is
    no exception. *)
Definition iadd {E W} (a : report E W) (b : option (report E W)) : result (report E W) :=
  match b with None => Err TypeError | Some b => Ok (add_report a b) end.

(** [reissue_all] 143-147: the error raised, if any, and the warnings issued. *)
Definition reissue_all {E W} (a : report E W) : option E * list W :=
  match errors a with
  | e :: _ => (Some e, [])
  | [] => (None, warnings a)
  end.

(** [__eq__] 149-169: messages have a type and arguments, compared with [te] and [ae]. *)
Definition length_differs {A B} (a : list A) (b : list B) : bool := negb (Nat.eqb (length a) (length b)).
Fixpoint same_messages {T A} (te : T -> T -> bool) (ae : A -> A -> bool) (a b : list (T * A)) : bool :=
  match a, b with
  | x :: a', y :: b' =>
      if negb (te (fst x) (fst y)) || negb (ae (snd x) (snd y)) then false else same_messages te ae a' b'
  | _, _ => true
  end.
Definition eq_report {T A} (te : T -> T -> bool) (ae : A -> A -> bool) (a b : report (T * A) (T * A)) : bool :=
  if length_differs (errors a) (errors b) || length_differs (warnings a) (warnings b) then false
  else if negb (same_messages te ae (errors a) (errors b)) then false
  else same_messages te ae (warnings a) (warnings b).

(** ** Objects *)
(** The fields of an entity, entity.py 725-732: its place apart from the rest. *)
Record root (B : Type) := {
  body : B;
  position : Q * Q;
  tile_position : Z * Z;
  direction : option Z;      (** [None]: no such field *)
  orientation : option Q }.
Arguments Build_root {B} _ _ _ _ _.
Arguments body {B} _.
Arguments position {B} _.
Arguments tile_position {B} _.
Arguments direction {B} _.
Arguments orientation {B} _.

(** Members of entity lists: entities and groups, with their ids. *)
Inductive part (B T : Type) :=
| Ent (id : option pystr) (r : root B)
| Grp (id : option pystr) (members : list (part B T)) (tiles : list T).
Arguments Ent {B T} _ _.
Arguments Grp {B T} _ _ _.

Definition ident {B T} (p : part B T) : option pystr :=
  match p with Ent id _ => id | Grp id _ _ => id end.

(** Blueprints, planners of both kinds, and books: their own fields and what they contain. *)
Inductive sheet (B T O : Type) :=
| Blueprint (own : O) (entities : list (part B T)) (tiles : list T)
| Planner (own : O)
| Book (own : O) (blueprints : list (sheet B T O)).
Arguments Blueprint {B T O} _ _ _.
Arguments Planner {B T O} _.
Arguments Book {B T O} _ _.

(** ** The oracle *)
Inductive outcome (R E W : Type) :=
| Accepted (r : R) (ws : list W)
| Rejected (e : E) (ws : list W)
| Raised (x : exn).
Arguments Accepted {R E W} _ _.
Arguments Rejected {R E W} _ _.
Arguments Raised {R E W} _.

Record checker (B T O E W : Type) := {
  ck_entity : mode -> root B -> outcome (root B) E W;
  ck_tile : mode -> T -> outcome unit E W;
  ck_own : mode -> O -> outcome unit E W;
  ck_book : mode -> O -> outcome O E W;
  (** the ValidationError made from the AssertionError of entity_list.py 57-59 *)
  same_ids : E }.
Arguments ck_entity {B T O E W} _ _ _.
Arguments ck_tile {B T O E W} _ _ _.
Arguments ck_own {B T O E W} _ _ _.
Arguments ck_book {B T O E W} _ _ _.
Arguments same_ids {B T O E W} _.

(** ** Validation *)
(** [if mode is ValidationMode.NONE and not force: return output] *)
Definition skipped (m : mode) (force : bool) : bool := mode_eq m MNone && negb force.

(** [try: model_validate … except ValidationError as e: error_list.append(DataFormatError(e))],
    then [warning_list += context["warning_list"]]; [kept] and [keep] are the
    fields before and what is done with accepted fields. *)
Definition settle {R S E W} (kept : S) (keep : R -> S) (o : outcome R E W) : S * result (report E W) :=
  match o with
  | Accepted r ws => (keep r, Ok (Build_report [] ws))
  | Rejected e ws => (kept, Ok (Build_report [e] ws))
  | Raised x => (kept, Err x)
  end.

(** entity.py 725-734: the accepted fields, at the place of the old ones. *)
Definition restore {B} (old new : root B) : root B := {|
  body := body new;
  position := position old;
  tile_position := tile_position old;
  direction := match direction old with Some d => Some d | None => direction new end;
  orientation := match orientation old with Some d => Some d | None => orientation new end |}.

(** entity.py 700-740. *)
Definition validate_entity {B T O E W} (C : checker B T O E W) (m : mode) (force : bool) (r : root B)
  : root B * result (report E W) :=
  if skipped m force then (r, Ok empty_report) else settle r (restore r) (ck_entity C m r).

(** tile.py 263-293. *)
Definition validate_tile {B T O E W} (C : checker B T O E W) (m : mode) (force : bool) (t : T)
  : T * result (report E W) :=
  if skipped m force then (t, Ok empty_report) else settle t (fun _ => t) (ck_tile C m t).

(** blueprintable.py 497-527. *)
Definition validate_own {B T O E W} (C : checker B T O E W) (m : mode) (force : bool) (o : O)
  : O * result (report E W) :=
  if skipped m force then (o, Ok empty_report) else settle o (fun _ => o) (ck_own C m o).

(** The loops entity_list.py 503-506, tile_list.py 180-183 and
    blueprint_book.py 513-516 over the members, [out] so far. *)
Section Each.
  Context {X E W : Type} (f : X -> X * result (report E W)).
  Fixpoint each (xs : list X) (out : report E W) : list X * result (report E W) :=
    match xs with
    | [] => ([], Ok out)
    | x :: xs =>
        let (x', r) := f x in
        match r with
        | Err e => (x' :: xs, Err e)
        | Ok a => let (xs', r') := each xs (add_report out a) in (x' :: xs', r')
        end
    end.
End Each.

(** [ensure_no_duplicate_ids] entity_list.py 52-62. *)
Definition id_in (i : pystr) (l : list pystr) : bool := existsb (pystr_eqb i) l.
Fixpoint duplicate_ids (known : list pystr) (ids : list (option pystr)) : bool :=
  match ids with
  | [] => false
  | None :: ids => duplicate_ids known ids
  | Some i :: ids => if id_in i known then true else duplicate_ids (i :: known) ids
  end.

(** entity_list.py 489-501: what is said about the list itself. *)
Definition list_report {B T O E W} (C : checker B T O E W) (xs : list (part B T)) : report E W :=
  if duplicate_ids [] (map ident xs) then Build_report [same_ids C] [] else empty_report.

(** entity_list.py 472-508, [f] validates a member. *)
Definition validate_list {B T O E W} (C : checker B T O E W) (m : mode) (force : bool)
  (f : part B T -> part B T * result (report E W)) (xs : list (part B T)) : list (part B T) * result (report E W) :=
  if skipped m force then (xs, Ok empty_report) else each f xs (list_report C xs).

(** Members: entity.py 700-740 and group.py 557-573, which does not look at tiles. *)
Fixpoint validate_part {B T O E W} (C : checker B T O E W) (m : mode) (force : bool) (p : part B T)
  : part B T * result (report E W) :=
  match p with
  | Ent id r => let (r', o) := validate_entity C m force r in (Ent id r', o)
  | Grp id xs ts =>
      let (xs', o) := validate_list C m force (validate_part C m force) xs in
      (Grp id xs' ts, let* a := o in Ok (add_report empty_report a))
  end.

(** tile_list.py 149-185. *)
Definition validate_tiles {B T O E W} (C : checker B T O E W) (m : mode) (force : bool) (ts : list T)
  : list T * result (report E W) :=
  if skipped m force then (ts, Ok empty_report) else each (validate_tile C m force) ts empty_report.

(** Blueprints: blueprint.py 1028-1044; planners inherit blueprintable.py
    497-527; books: blueprint_book.py 476-524. *)
Fixpoint validate {B T O E W} (C : checker B T O E W) (m : mode) (force : bool) (s : sheet B T O)
  : sheet B T O * result (report E W) :=
  match s with
  | Planner o => let (o', r) := validate_own C m force o in (Planner o', r)
  | Blueprint o xs ts =>
      let (o', r) := validate_own C m force o in
      match r with
      | Err e => (Blueprint o' xs ts, Err e)
      | Ok a =>
          let (xs', r) := validate_list C m force (validate_part C m force) xs in
          match r with
          | Err e => (Blueprint o' xs' ts, Err e)
          | Ok b =>
              let (ts', r) := validate_tiles C m force ts in
              (Blueprint o' xs' ts', let* c := r in Ok (add_report (add_report a b) c))
          end
      end
  | Book o bs =>
      if skipped m force then (Book o bs, Ok empty_report)
      else
        let (o', r) := settle o (fun o' => o') (ck_book C m o) in
        match r with
        | Err e => (Book o' bs, Err e)
        | Ok a => let (bs', r) := each (validate C m force) bs a in (Book o' bs', r)
        end
  end.
