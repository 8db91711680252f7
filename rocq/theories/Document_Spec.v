(** What the dictionary of a blueprint says, and what is read from it, without the
    functions that write and read it. *)
From Coq Require Import ZArith NArith QArith String List Bool.
From Verif Require Import Common Dict Trim_Model Wires_Model Wires_Spec Document_Model.
Import ListNotations.
Local Open Scope string_scope.
Local Open Scope list_scope.

(** Entities in order, groups opened in place, each at the sum of its own position
    and those of the groups around it. *)
Inductive spread : Q -> Q -> list part -> list (Q * Q * dict) -> Prop :=
| spread_nil ox oy : spread ox oy [] []
| spread_ent ox oy i x y body X Y ps l : (X == ox + x)%Q -> (Y == oy + y)%Q ->
    spread ox oy ps l -> spread ox oy (Ent i x y body :: ps) ((X, Y, body) :: l)
| spread_grp ox oy i x y ws kids ids tiles k ps l : spread (ox + x) (oy + y) kids k -> spread ox oy ps l ->
    spread ox oy (Grp i x y ws kids ids tiles :: ps) (k ++ l).

(** The dictionary of an entity: everything it says itself, its place less the
    origin, and its number. *)
Definition entity_shown (o : Z * Z) (n : Z) (e : Q * Q * dict) (d : dict) : Prop :=
  (exists x y, get d (str "position") = Some (VMap [(str "x", VFloat x); (str "y", VFloat y)]) /\
     (x == fst (fst e) - inject_Z (fst o))%Q /\ (y == snd (fst e) - inject_Z (snd o))%Q) /\
  get d (str "entity_number") = Some (VInt n) /\
  forall k, k <> str "position" -> k <> str "entity_number" -> get d k = get (snd e) k.
Inductive entities_shown (o : Z * Z) : Z -> list (Q * Q * dict) -> list dict -> Prop :=
| es_nil n : entities_shown o n [] []
| es_cons n e d l ds : entity_shown o n e d -> entities_shown o (n + 1) l ds -> entities_shown o n (e :: l) (d :: ds).
Definition tile_shown (o : Z * Z) (t : tile) (d : dict) : Prop :=
  d = [(str "name", t_name t);
       (str "position", VMap [(str "x", VInt (t_x t - fst o)); (str "y", VInt (t_y t - snd o))])].
Definition sched_shown (numbers : list Z) (s : sched) (d : dict) : Prop :=
  get d (str "locomotives") = Some (VSeq (map VInt numbers)) /\
  forall k, k <> str "locomotives" -> get d k = get (sc_rest s) k.

(** A value that is left out if it is nothing or as by default. *)
Definition appears (en ed : bool) (default v : val) (o : option val) : Prop :=
  (o = None /\ ((en = true /\ v = VNone) \/ (ed = true /\ py_eq v default = true))) \/
  (o = Some v /\ (en = false \/ v <> VNone) /\ (ed = false \/ py_eq v default = false)).
Definition pair_appears (p : Z * Z) (o : option val) : Prop :=
  (p = (0, 0)%Z /\ o = None) \/
  (p <> (0, 0)%Z /\ o = Some (VMap [(str "x", VInt (fst p)); (str "y", VInt (snd p))])).
Definition list_appears (l : list val) (o : option val) : Prop :=
  (l = [] /\ o = None) \/ (l <> [] /\ o = Some (VSeq l)).

Definition body_keys : list pystr :=
  map str ["item"; "label"; "label_color"; "description"; "icons"; "version"; "snap-to-grid"; "absolute-snapping";
    "position-relative-to-grid"; "entities"; "tiles"; "schedules"; "wires"; "stock_connections"].

(** The body of the dictionary. *)
Definition body_shown (en ed : bool) (b : sheet) (es ts ss : list dict) (ws : list xwire) (d : dict) : Prop :=
  get d (str "item") = Some (VStr (str "blueprint")) /\
  appears en ed VNone (b_label b) (get d (str "label")) /\
  appears en ed VNone (b_color b) (get d (str "label_color")) /\
  appears en ed VNone (b_description b) (get d (str "description")) /\
  appears en ed VNone (b_icons b) (get d (str "icons")) /\
  appears en ed VNone (b_version b) (get d (str "version")) /\
  pair_appears (b_size b) (get d (str "snap-to-grid")) /\
  appears en ed (VBool true) (match b_absolute b with Some f => VBool f | None => VNone end) (get d (str "absolute-snapping")) /\
  pair_appears (b_relative b) (get d (str "position-relative-to-grid")) /\
  list_appears (map VMap es) (get d (str "entities")) /\
  list_appears (map VMap ts) (get d (str "tiles")) /\
  list_appears (map VMap ss) (get d (str "schedules")) /\
  list_appears (map (fun w => let '(a, s, c, t) := w in VSeq [VInt a; VInt s; VInt c; VInt t]) ws) (get d (str "wires")) /\
  appears en ed (VSeq []) (VSeq (b_stock b)) (get d (str "stock_connections")) /\
  forall k, ~ In k body_keys -> get d k = None.

Definition coll_of (b : sheet) : coll := mkC (map Document_Model.shape (b_parts b)) (b_ids b) (b_wires b).

(** The whole dictionary: numbers of locomotives and wires are as C23 says. *)
Definition shown (veq : nat -> nat -> bool) (en ed : bool) (b : sheet) (doc : dict) : Prop :=
  exists body l fl inner all es ts ss ns ws,
    get doc (str "blueprint") = Some (VMap body) /\
    appears en ed VNone (b_index b) (get doc (str "index")) /\
    (forall k, k <> str "blueprint" -> k <> str "index" -> get doc k = None) /\
    body_shown en ed b es ts ss ws body /\
    spread 0 0 (b_parts b) l /\ entities_shown (b_origin b) 1 l es /\
    Forall2 (tile_shown (b_origin b)) (b_tiles b) ts /\
    flat (c_ents (coll_of b)) fl /\ flat_wires (c_ents (coll_of b)) inner /\
    Forall2 (fun s out => sc_locos s <> [] /\ Forall2 (end_is veq fl) (sc_locos s) out) (b_scheds b) ns /\
    Forall2 (fun p d => sched_shown (fst p) (snd p) d) (combine ns (b_scheds b)) ss /\
    Forall2 (wire_is veq fl) (b_wires b ++ inner) all /\ deduped all ws.

(** A constructor keeps what an entity says, apart from the position. *)
Definition keeps (rebuild : dict -> result dict) (d : dict) : Prop :=
  exists d', rebuild d = Ok d' /\ forall v, set d' (str "position") v = set d (str "position") v.
(** Entities do not say their number themselves, and are kept wherever they are. *)
Definition readable (rebuild : dict -> result dict) (b : sheet) : Prop :=
  forall l e x y, spread 0 0 (b_parts b) l -> In e l ->
    get (snd e) (str "entity_number") = None /\
    keeps rebuild (set (snd e) (str "position") (VMap [(str "x", VFloat x); (str "y", VFloat y)])).

(** An entity read back. *)
Definition entity_read (o : Z * Z) (i : nat) (e : Q * Q * dict) (p : part) : Prop :=
  exists x y body, p = Ent i x y body /\
    (x == fst (fst e) - inject_Z (fst o))%Q /\ (y == snd (fst e) - inject_Z (snd o))%Q /\
    forall k, k <> str "position" -> get body k = get (snd e) k.
Inductive entities_read (o : Z * Z) : nat -> list (Q * Q * dict) -> list part -> Prop :=
| er_nil i : entities_read o i [] []
| er_cons i e p l ps : entity_read o i e p -> entities_read o (S i) l ps -> entities_read o i (e :: l) (p :: ps).

(** The same blueprint, with entities and tiles moved instead of the origin, and
    groups dissolved. *)
Definition read_as (en ed : bool) (current : val) (base : nat) (b b' : sheet) : Prop :=
  b_label b' = b_label b /\ b_color b' = b_color b /\ b_description b' = b_description b /\ b_icons b' = b_icons b /\
  b_version b' = (match b_version b with VNone => if en || ed then current else VNone | v => v end) /\
  b_size b' = b_size b /\ b_origin b' = (0, 0)%Z /\
  b_absolute b' = (match b_absolute b with None => if en then Some true else None | f => f end) /\
  b_relative b' = b_relative b /\
  (exists l, spread 0 0 (b_parts b) l /\ entities_read (b_origin b) base l (b_parts b')) /\
  b_tiles b' = map (fun t => mkTile (t_name t) (t_x t - fst (b_origin b)) (t_y t - snd (b_origin b))) (b_tiles b) /\
  map sc_rest (b_scheds b') = map sc_rest (b_scheds b) /\
  b_stock b' = b_stock b /\ b_index b' = b_index b.

