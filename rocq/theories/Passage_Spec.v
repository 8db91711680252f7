(** What can be sent as a string, and when two blueprints are the same. *)
From Coq Require Import ZArith NArith QArith String List Bool.
From Verif Require Import Common Dict Codec_Model Codec_Spec Trim_Model Wires_Model Document_Model Document_Spec Passage_Model.
Import ListNotations.
Local Open Scope string_scope.
Local Open Scope list_scope.

(** Floating point numbers and their values: the value of a number is a fraction in
    lowest terms, and equal values are one number. *)
Record exact_numbers {L : lib} (N : numbers L) : Prop := {
  lowest : forall f, Qred (of_flt N f) = of_flt N f;
  one_number : forall q r, (q == r)%Q -> to_flt N q = to_flt N r }.
(** A value that is a floating point number. *)
Definition fits {L : lib} (N : numbers L) (q : Q) : Prop := (of_flt N (to_flt N q) == q)%Q.

(** Values that can be sent: nested at most [n] deep, without surrogate pairs in
    texts, with distinct keys, and with numbers that fit. *)
Inductive sendable {L : lib} (N : numbers L) : nat -> val -> Prop :=
| se_none n : sendable N n VNone
| se_bool n b : sendable N n (VBool b)
| se_int n z : sendable N n (VInt z)
| se_float n q : fits N q -> Qred q = q -> sendable N n (VFloat q)
| se_str n s : clean s -> sendable N n (VStr s)
| se_seq n l : (forall v, In v l -> sendable N n v) -> sendable N (S n) (VSeq l)
| se_map n d : NoDup (map fst d) -> (forall k v, In (k, v) d -> clean k) -> (forall k v, In (k, v) d -> sendable N n v) ->
    sendable N (S n) (VMap d).

(** A blueprint whose parts can be sent; the places of its entities, less the
    origin, need only fit. *)
Record sendable_sheet {L : lib} (N : numbers L) (h : nat) (b : sheet) : Prop := {
  ss_values : forall v, In v [b_label b; b_color b; b_description b; b_icons b; b_version b; b_index b] -> sendable N h v;
  ss_stock : forall v, In v (b_stock b) -> sendable N h v;
  ss_tiles : forall t, In t (b_tiles b) -> sendable N h (t_name t);
  ss_scheds : forall s, In s (b_scheds b) -> ~ In (str "locomotives") (map fst (sc_rest s)) /\ sendable N (S h) (VMap (sc_rest s));
  ss_parts : forall l e, spread 0 0 (b_parts b) l -> In e l -> sendable N (S h) (VMap (snd e)) /\
    fits N (fst (fst e) - inject_Z (fst (b_origin b))) /\ fits N (snd (fst e) - inject_Z (snd (b_origin b))) }.

(** The same entity at the same place, however the fraction is written. *)
Definition same_part (p q : part) : Prop :=
  exists i x y d x' y' d', p = Ent i x y d /\ q = Ent i x' y' d' /\ (x == x')%Q /\ (y == y')%Q /\
    forall v, set d (str "position") v = set d' (str "position") v.
Definition same_sheet (b b' : sheet) : Prop :=
  b_label b' = b_label b /\ b_color b' = b_color b /\ b_description b' = b_description b /\ b_icons b' = b_icons b /\
  b_version b' = b_version b /\ b_size b' = b_size b /\ b_origin b' = b_origin b /\ b_absolute b' = b_absolute b /\
  b_relative b' = b_relative b /\ Forall2 same_part (b_parts b) (b_parts b') /\ b_ids b' = b_ids b /\
  b_tiles b' = b_tiles b /\ b_scheds b' = b_scheds b /\ b_wires b' = b_wires b /\ b_stock b' = b_stock b /\ b_index b' = b_index b.
