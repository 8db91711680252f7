(** What validation should report, independent of the functions of the model:
    the parts that are looked at, in order, and what is said about each. *)
From Coq Require Import ZArith QArith List Bool.
From Verif Require Import Common Assign_Model Report_Model.
Import ListNotations.

(** Something that is looked at. *)
Inductive look (B T O : Type) :=
| LEntity (r : root B) | LIds (ids : list (option pystr)) | LTile (t : T) | LOwn (o : O) | LBook (o : O).
Arguments LEntity {B T O} _.
Arguments LIds {B T O} _.
Arguments LTile {B T O} _.
Arguments LOwn {B T O} _.
Arguments LBook {B T O} _.

(** The order: depth first, every list before its members. *)
Fixpoint tour {B T O} (p : part B T) : list (look B T O) :=
  match p with
  | Ent _ r => [LEntity r]
  | Grp _ xs _ => LIds (map ident xs) :: flat_map tour xs
  end.
Fixpoint course {B T O} (s : sheet B T O) : list (look B T O) :=
  match s with
  | Planner o => [LOwn o]
  | Blueprint o xs ts => LOwn o :: LIds (map ident xs) :: flat_map tour xs ++ map LTile ts
  | Book o bs => LBook o :: flat_map course bs
  end.

(** The ids that are there. *)
Definition given (ids : list (option pystr)) : list pystr :=
  flat_map (fun i => match i with Some i => [i] | None => [] end) ids.

(** What an outcome says. *)
Inductive spoken {R E W} : outcome R E W -> list E -> list W -> Prop :=
| spoken_accept r ws : spoken (Accepted r ws) [] ws
| spoken_reject e ws : spoken (Rejected e ws) [e] ws.

(** What is said about one thing, and what looking at it raises. *)
Inductive says {B T O E W} (C : checker B T O E W) (m : mode) : look B T O -> list E * list W -> Prop :=
| says_entity r es ws : spoken (ck_entity C m r) es ws -> says C m (LEntity r) (es, ws)
| says_unique ids : NoDup (given ids) -> says C m (LIds ids) ([], [])
| says_same ids : ~ NoDup (given ids) -> says C m (LIds ids) ([same_ids C], [])
| says_tile t es ws : spoken (ck_tile C m t) es ws -> says C m (LTile t) (es, ws)
| says_own o es ws : spoken (ck_own C m o) es ws -> says C m (LOwn o) (es, ws)
| says_book o es ws : spoken (ck_book C m o) es ws -> says C m (LBook o) (es, ws).
Inductive bursts {B T O E W} (C : checker B T O E W) (m : mode) : look B T O -> exn -> Prop :=
| bursts_entity r x : ck_entity C m r = Raised x -> bursts C m (LEntity r) x
| bursts_tile t x : ck_tile C m t = Raised x -> bursts C m (LTile t) x
| bursts_own o x : ck_own C m o = Raised x -> bursts C m (LOwn o) x
| bursts_book o x : ck_book C m o = Raised x -> bursts C m (LBook o) x.

(** The whole report of a course: everything said, in order. *)
Definition told {B T O E W} (C : checker B T O E W) (m : mode) (ls : list (look B T O)) (a : report E W) : Prop :=
  exists vs, Forall2 (says C m) ls vs /\ errors a = flat_map fst vs /\ warnings a = flat_map snd vs.
(** Nothing is wrong with one thing, though there may be warnings. *)
Definition passes {B T O E W} (C : checker B T O E W) (m : mode) (l : look B T O) : Prop := exists ws, says C m l ([], ws).
(** A course that is broken off by an exception. *)
Definition broken {B T O E W} (C : checker B T O E W) (m : mode) (ls : list (look B T O)) (x : exn) : Prop :=
  exists before l after, ls = before ++ l :: after /\ bursts C m l x /\
    Forall (fun l => exists v, says C m l v) before.

(** ** What becomes of the object *)
Definition same_place {B} (a b : root B) : Prop :=
  position b = position a /\ tile_position b = tile_position a /\
  (direction a <> None -> direction b = direction a) /\ (orientation a <> None -> orientation b = orientation a).

(** Fields after validation: converted if accepted, else as before. *)
Inductive became {B T O E W} (C : checker B T O E W) (m : mode) : root B -> root B -> Prop :=
| became_new r r' r'' ws : ck_entity C m r = Accepted r' ws -> body r'' = body r' -> same_place r r'' ->
    (direction r = None -> direction r'' = direction r') -> (orientation r = None -> orientation r'' = orientation r') ->
    became C m r r''
| became_old r e ws : ck_entity C m r = Rejected e ws -> became C m r r.

(** Objects with the same members, ids, tiles and places; [R] relates the fields of entities and [S] those of books. *)
Inductive akin {B T} (R : root B -> root B -> Prop) : part B T -> part B T -> Prop :=
| akin_ent id r r' : R r r' -> akin R (Ent id r) (Ent id r')
| akin_grp id xs xs' ts : Forall2 (akin R) xs xs' -> akin R (Grp id xs ts) (Grp id xs' ts).
Inductive alike {B T O} (R : root B -> root B -> Prop) (S : O -> O -> Prop) : sheet B T O -> sheet B T O -> Prop :=
| alike_planner o : alike R S (Planner o) (Planner o)
| alike_blueprint o xs xs' ts : Forall2 (akin R) xs xs' -> alike R S (Blueprint o xs ts) (Blueprint o xs' ts)
| alike_book o o' bs bs' : S o o' -> Forall2 (alike R S) bs bs' -> alike R S (Book o bs) (Book o' bs').

Inductive rebound {B T O E W} (C : checker B T O E W) (m : mode) : O -> O -> Prop :=
| rebound_new o o' ws : ck_book C m o = Accepted o' ws -> rebound C m o o'
| rebound_old o e ws : ck_book C m o = Rejected e ws -> rebound C m o o.

(** Conversion settles: what was accepted is accepted again, unchanged, with the same warnings. *)
Definition settled {B T O E W} (C : checker B T O E W) (m : mode) : Prop :=
  (forall r r' r'' ws, ck_entity C m r = Accepted r' ws -> body r'' = body r' -> same_place r r'' ->
     (direction r = None -> direction r'' = direction r') -> (orientation r = None -> orientation r'' = orientation r') ->
     exists s, ck_entity C m r'' = Accepted s ws /\ body s = body r'' /\
       (direction r'' = None -> direction s = None) /\ (orientation r'' = None -> orientation s = None)) /\
  (forall o o' ws, ck_book C m o = Accepted o' ws -> ck_book C m o' = Accepted o' ws).

(** The tiles inside groups taken away, and tiles inside groups. *)
Fixpoint bare {B T} (p : part B T) : part B T :=
  match p with Ent id r => Ent id r | Grp id xs _ => Grp id (map bare xs) [] end.

(** ** Where entities and tiles are *)
Inductive within {B T} (r : root B) : part B T -> Prop :=
| within_self id : within r (Ent id r)
| within_group id xs ts p : In p xs -> within r p -> within r (Grp id xs ts).
Inductive contains {B T O} (r : root B) : sheet B T O -> Prop :=
| contains_entity o xs ts p : In p xs -> within r p -> contains r (Blueprint o xs ts)
| contains_book o bs s : In s bs -> contains r s -> contains r (Book o bs).
Inductive paved {B T O} (t : T) : sheet B T O -> Prop :=
| paved_tile o xs ts : In t ts -> paved t (Blueprint o xs ts)
| paved_book o bs s : In s bs -> paved t s -> paved t (Book o bs).
