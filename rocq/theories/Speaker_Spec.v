(** What is said about the tune of a speaker. *)
From Coq Require Import ZArith NArith List Bool String.
From Verif Require Import Common Dict Assign_Model Tune_Model Tune_Spec Speaker_Model.
Import ListNotations.
Local Open Scope string_scope.
Local Open Scope list_scope.
Local Open Scope Z_scope.

(** The tables are those made of lists of instruments with distinct names and notes,
    numbers of which have 32 bits. *)
Definition countable {A} (l : list A) : Prop := Z.of_nat (List.length l) <= 4294967296.
Definition coherent (E : env) : Prop :=
  forall n t, dget pystr_eqb (reg E) n = Some t ->
    exists l, sound_instruments l /\ countable l /\ Forall (fun x => countable (snd x)) l /\ t = extract l.
(** The instruments of a speaker. *)
Definition plays (E : env) (s : params) (l : list (pystr * list pystr)) : Prop :=
  dget pystr_eqb (reg E) (sp s) = Some (extract l).

(** Numbers are no value or 32 bits; names are no value or strings. *)
Definition is_id (v : val) : Prop := v = VNone \/ exists z, v = VInt z /\ 0 <= z < 4294967296.
Definition is_name (v : val) : Prop := v = VNone \/ exists n, v = VStr n.
Definition proper (s : params) : Prop := is_id (iid s) /\ is_name (iname s) /\ is_id (nid s) /\ is_name (nname s).

(** What a value given for a field means. *)
Inductive accepts (E : env) : what -> val -> val -> Prop :=
| a_none x : accepts E x VNone VNone
| a_int x z : x = InstrumentId \/ x = NoteId -> 0 <= z < 4294967296 -> accepts E x (VInt z) (VInt z)
| a_text x s z : x = InstrumentId \/ x = NoteId -> numeral E s = Some z -> 0 <= z < 4294967296 -> accepts E x (VStr s) (VInt z)
| a_name x s : x = InstrumentName \/ x = NoteName -> accepts E x (VStr s) (VStr s).

(** A value nothing is known of. *)
Inductive unknown (E : env) (s : params) : what -> val -> Prop :=
| u_iid l k : plays E s l -> (forall i, ~ at_place l k i) -> unknown E s InstrumentId (VInt k)
| u_iname l n : plays E s l -> ~ In n (map fst l) -> unknown E s InstrumentName (VStr n)
| u_nid l k i ns j : plays E s l -> iid s = VInt k -> at_place l k (i, ns) -> (forall n, ~ at_place ns j n) ->
    unknown E s NoteId (VInt j)
| u_nname l k i ns n : plays E s l -> iid s = VInt k -> at_place l k (i, ns) -> ~ In n ns -> n <> str "self" ->
    unknown E s NoteName (VStr n).
Definition complaint (x : what) (v : val) : warning :=
  match x with InstrumentId | InstrumentName => UnknownInstrument v | NoteId | NoteName => UnknownNote v end.
(** A warning if and only if the mode is above MINIMUM and the value is unknown. *)
Definition warned (E : env) (m : mode) (s : params) (x : what) (v : val) (ws : list warning) : Prop :=
  ((m = MStrict \/ m = MPedantic) /\ unknown E s x v /\ ws = [complaint x v])
  \/ (~ ((m = MStrict \/ m = MPedantic) /\ unknown E s x v) /\ ws = []).

(** What an accepted value does. *)
Inductive number_of (E : env) (s : params) : pystr -> val -> Prop :=
| n_at l k n ns : plays E s l -> at_place l k (n, ns) -> number_of E s n (VInt k)
| n_not n : (forall l, plays E s l -> ~ In n (map fst l)) -> number_of E s n VNone.
(** Notes of the instrument the speaker has; ["self"] is its number. *)
Inductive note_of (E : env) (s : params) : pystr -> val -> Prop :=
| o_at l k i ns n j : plays E s l -> iid s = VInt k -> at_place l k (i, ns) -> at_place ns j n -> note_of E s n (VInt j)
| o_self l k i ns : plays E s l -> iid s = VInt k -> at_place l k (i, ns) -> note_of E s (str "self") (VInt k)
| o_not l k i ns n : plays E s l -> iid s = VInt k -> at_place l k (i, ns) -> ~ In n ns -> n <> str "self" -> note_of E s n VNone
| o_silent n : (forall l k i, plays E s l -> iid s = VInt k -> ~ at_place l k i) -> note_of E s n VNone.
Inductive does (E : env) (s : params) : what -> val -> params -> Prop :=
| d_iid w : does E s InstrumentId w (mkParams (sp s) w (iname s) (nid s) (nname s))
| d_iname_none : does E s InstrumentName VNone (mkParams (sp s) VNone VNone (nid s) (nname s))
| d_iname n k : number_of E s n k -> does E s InstrumentName (VStr n) (mkParams (sp s) k (VStr n) (nid s) (nname s))
| d_nid w : does E s NoteId w (mkParams (sp s) (iid s) (iname s) w (nname s))
| d_nname_none : does E s NoteName VNone (mkParams (sp s) (iid s) (iname s) VNone VNone)
| d_nname n k : note_of E s n k -> does E s NoteName (VStr n) (mkParams (sp s) (iid s) (iname s) k (VStr n)).

(** Calls in modes that validate. *)
Definition validating (c : call) : Prop := match c with Assign _ m _ => m <> MNone | Validate _ _ _ => True end.
(** The name that was last given and accepted, the last call at the end. *)
Inductive last_name (x : what) (v0 : val) : list call -> val -> Prop :=
| l_start : last_name x v0 [] v0
| l_given cs m v u : last_name x v0 cs u -> m <> MNone -> is_name v -> last_name x v0 (cs ++ [Assign x m v]) v
| l_kept cs c v : last_name x v0 cs v -> (forall m u, c = Assign x m u -> m = MNone \/ ~ is_name u) -> last_name x v0 (cs ++ [c]) v.
(** Calls that give names in modes that validate. *)
Definition names_something (c : call) : Prop :=
  exists x m v, c = Assign x m v /\ (x = InstrumentName \/ x = NoteName) /\ m <> MNone /\ is_name v.

(** What the names are read as: of the instrument with the number kept, of its note
    with the number kept; ["self"] in place of a note's number is the instrument. *)
Inductive reads_instrument (E : env) (s : params) : result val -> Prop :=
| ri_at l k n ns : plays E s l -> iid s = VInt k -> at_place l k (n, ns) -> reads_instrument E s (Ok (VStr n))
| ri_not : (forall z, iid s <> VList z) -> (forall l k i, plays E s l -> iid s = VInt k -> ~ at_place l k i) ->
    reads_instrument E s (Ok VNone)
| ri_list z : iid s = VList z -> reads_instrument E s (Err TypeError).
Inductive reads_note (E : env) (s : params) : result val -> Prop :=
| rn_at l k i ns j n : plays E s l -> iid s = VInt k -> at_place l k (i, ns) -> nid s = VInt j -> at_place ns j n ->
    reads_note E s (Ok (VStr n))
| rn_self l k i ns : plays E s l -> iid s = VInt k -> at_place l k (i, ns) -> nid s = VStr (str "self") ->
    reads_note E s (Ok (VStr i))
| rn_not : (forall z, iid s <> VList z) -> (forall z, nid s <> VList z) ->
    (forall l k i ns, plays E s l -> iid s = VInt k -> at_place l k (i, ns) ->
       nid s <> VStr (str "self") /\ forall j n, nid s = VInt j -> ~ at_place ns j n) ->
    reads_note E s (Ok VNone)
| rn_list z : iid s = VList z \/ nid s = VList z -> reads_note E s (Err TypeError).
(** What is kept for a field. *)
Definition kept_for (s : params) (x : what) : val :=
  match x with InstrumentId => iid s | InstrumentName => iname s | NoteId => nid s | NoteName => nname s end.
