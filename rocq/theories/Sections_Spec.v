(** What sections are meant to be: a list of contents, and for every section the
    user was given the place it has in this list, if it still has one. *)
From Coq Require Import ZArith NArith String List Bool.
From Verif Require Import Common Assign_Model Slots_Model Sections_Model.
Import ListNotations.
Local Open Scope Z_scope.

(** What an entity shows: nothing, something else, or its sections. *)
Inductive shown := Nothing | Other | Shown (l : option (list section)).
Definition reads (st : state) (x : item) (s : section) : Prop :=
  match x with Obj r => nth_error (objects st) r = Some s | Raw d => s = d end.
Definition looks (st : state) (v : shown) : Prop :=
  match held st, v with
  | Missing, Nothing | Junk, Other | Held None, Shown None => True
  | Held (Some l), Shown (Some cs) => Forall2 (reads st) l cs
  | _, _ => False
  end.

(** The object [r] is the section at place [p] and at no other. *)
Definition stands (st : state) (r p : nat) : Prop :=
  exists l, held st = Held (Some l) /\ nth_error l p = Some (Obj r) /\ forall q, nth_error l q = Some (Obj r) -> q = p.
(** It is at no place. *)
Definition gone (st : state) (r : nat) : Prop :=
  forall l, held st = Held (Some l) -> ~ In (Obj r) l.
Definition known_place (st : state) (r : nat) (p : option nat) : Prop :=
  match p with Some p => stands st r p | None => gone st r end.

Definition uint32_range (z : Z) : Prop := 0 <= z < 2 ^ 32.
(** Where an added section says it is. *)
Definition number (l : list section) (idx : option Z) : Z :=
  match idx with Some i => i + 1 | None => Z.of_nat (length l) + 1 end.
Definition fresh (l : list section) (g : option pystr) (idx : option Z) (a : bool) : section :=
  mkSection (number l idx) (Some []) g (Some a).

Definition careful (m : mode) : Prop := m = MStrict \/ m = MPedantic.
(** Signals of a section. *)
Definition lists (s : section) (f : sfilter) : Prop := exists l, filters s = Some l /\ In f l.
Definition wellformed (s : section) : Prop := uint32_range (index s) /\ forall f, lists s f -> s_valid f = true.
(** Holding one of the signals that stand for others. *)
Definition virtual (s : section) : Prop :=
  exists f, lists s f /\ (s_name f = str "signal-everything" \/ s_name f = str "signal-anything" \/ s_name f = str "signal-each").
Definition acceptable (m : mode) (l : list section) : Prop :=
  (careful m -> forall s, In s l -> ~ virtual s) /\ forall s, In s l -> wellformed s.

(** The same list but for the place [p]. *)
Definition changed_at {A} (l : list A) (p : nat) (a : A) (l' : list A) : Prop :=
  length l' = length l /\ nth_error l' p = Some a /\ forall q, q <> p -> nth_error l' q = nth_error l q.

(** One call, for those who only look at what is shown. *)
Inductive step (c : class) : shown * list (option nat) -> call -> shown * list (option nat) -> Prop :=
| SAdd : forall l live g idx a, uint32_range (number l idx) ->
    step c (Shown (Some l), live) (Add g idx a) (Shown (Some (l ++ [fresh l g idx a])), live ++ [Some (length l)])
| SAddFails : forall v live g idx a,
    (forall l, v = Shown (Some l) -> ~ uint32_range (number l idx)) ->
    step c (v, live) (Add g idx a) (v, live)
| SWrite : forall l live k p s l' i name count q t,
    nth_error live k = Some (Some p) -> nth_error l p = Some s ->
    changed_at l p (mkSection (index s) (fst (set_signal (filters s) i name count q t)) (group s) (active s)) l' ->
    step c (Shown (Some l), live) (Write k i name count q t) (Shown (Some l'), live)
| SWriteLost : forall v live k i name count q t,
    (nth_error live k = Some None \/ nth_error live k = None) -> step c (v, live) (Write k i name count q t) (v, live)
| SValidate : forall l live m force known, m <> MNone \/ force = true -> acceptable m l ->
    step c (Shown (Some l), live) (Validate m force known true) (Shown (Some l), map (fun _ => None) live)
| SValidateNot : forall v live m force known others,
    (m = MNone /\ force = false) \/ others = false \/ (forall l, v = Shown (Some l) -> ~ acceptable m l) ->
    step c (v, live) (Validate m force known others) (v, live)
| SAssign : forall o live m known v,
    (m <> MNone -> c <> ConstantCombinator /\ forall l, v = Some l -> acceptable m l) ->
    step c (Shown o, live) (Assign m known v) (Shown v, map (fun _ => None) live)
| SAssignNot : forall w live m known v,
    (forall o, w <> Shown o) \/ (m <> MNone /\ (c = ConstantCombinator \/ exists l, v = Some l /\ ~ acceptable m l)) ->
    step c (w, live) (Assign m known v) (w, live).
Inductive steps (c : class) : shown * list (option nat) -> list call -> shown * list (option nat) -> Prop :=
| steps_nil : forall v, steps c v [] v
| steps_cons : forall v v' v'' o os, step c v o v' -> steps c v' os v'' -> steps c v (o :: os) v''.

(** At the beginning. *)
Definition first_shown (c : class) : shown :=
  match c with
  | CargoLandingPad | SpacePlatformHub => Nothing
  | LogisticStorageContainer => Other
  | _ => Shown (Some [])
  end.

(** Sections numbered one to [n] in order. *)
Definition numbered (l : list section) : Prop := map index l = map (fun n => Z.of_nat n + 1) (seq 0 (length l)).

(** The first of a group. *)
Definition first_of (g : pystr) (l : list section) (p : nat) : Prop :=
  (exists s, nth_error l p = Some s /\ group s = Some g) /\
  forall q s, (q < p)%nat -> nth_error l q = Some s -> group s <> Some g.
