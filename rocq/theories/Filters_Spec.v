(** What a list of filters means, said without the functions of the model. *)
From Coq Require Import ZArith NArith List Bool String.
From Verif Require Import Common Assign_Model Slots_Model Filters_Model.
Import ListNotations.
Local Open Scope Z_scope.

Definition int64 (z : Z) : Prop := -(2^63) <= z < 2^63.
Definition quality_names : list pystr :=
  map str ["normal"; "uncommon"; "rare"; "epic"; "legendary"; "quality-unknown"; "any"]%string.
Definition comparator_names : list pystr :=
  [str ">"; str "<"; str "="; [8805%N]; [8804%N]; [8800%N]].

Section Meaning.
  Variable numeral : pystr -> option Z.
  (** A value stands for the index [z]. *)
  Definition index_of (v : val) (z : Z) : Prop :=
    int64 z /\ (v = VInt z \/ exists s, v = VStr s /\ numeral s = Some z).
  (** A choice that may be left out or None. *)
  Definition choice (names : list pystr) (default : val) (o : option val) (v : val) : Prop :=
    match o with
    | None => v = default
    | Some w => v = w /\ (w = VNone \/ exists s, w = VStr s /\ In s names)
    end.
  (** The entry at position [i], counted from 1, stands for the filter. *)
  Definition stands (i : Z) (e : entry) (f : ifil) : Prop :=
    match e with
    | EName s => int64 i /\ f = mkFil (VInt i) (VStr s) (VStr (str "any")) VNone
    | EDict oi on oq oc =>
        exists vi z s,
          oi = Some vi /\ index_of vi z /\ on = Some (VStr s) /\
          x_index f = VInt z /\ x_name f = VStr s /\
          choice quality_names (VStr (str "any")) oq (x_quality f) /\
          choice comparator_names VNone oc (x_comparator f)
    | EOther _ => False
    end.
  Fixpoint stands_all (i : Z) (l : list entry) (fs : list ifil) : Prop :=
    match l, fs with
    | [], [] => True
    | e :: l', f :: fs' => stands i e f /\ stands_all (i + 1) l' fs'
    | _, _ => False
    end.
  (** A filter as it must be. *)
  Definition proper (f : ifil) : Prop :=
    exists z s, x_index f = VInt z /\ int64 z /\ x_name f = VStr s /\
      (x_quality f = VNone \/ exists q, x_quality f = VStr q /\ In q quality_names) /\
      (x_comparator f = VNone \/ exists c, x_comparator f = VStr c /\ In c comparator_names).
  Definition proper_held (h : held) : Prop :=
    match h with HNone => True | HFilters fs => Forall proper fs | _ => False end.
End Meaning.

(** The names warned about: the unknown ones, in order, in the two strict modes. *)
Definition warned (known : pystr -> bool) (m : mode) (names : list pystr) : list pystr :=
  match m with
  | MStrict | MPedantic => filter (fun s => negb (known s)) names
  | _ => []
  end.
Definition validating (m : mode) : Prop := m <> MNone.
(** The filters for names at slots [i], [i + 1], ... *)
Definition plain (i : Z) (s : pystr) : ifil := mkFil (VInt i) (VStr s) (VStr (str "any")) VNone.
Fixpoint slots (i : Z) (names : list pystr) : list ifil :=
  match names with [] => [] | s :: l => plain i s :: slots (i + 1) l end.
Definition names_of (fs : list ifil) : list pystr :=
  flat_map (fun f => match x_name f with VStr s => [s] | _ => [] end) fs.
(** A dictionary has what a filter cannot be made without. *)
Definition has_both (e : entry) : Prop :=
  match e with EName _ => True | EDict (Some _) (Some _) _ _ => True | _ => False end.
(** The filters of [Slots_Model]. *)
Definition as_slots (f : ifil) : option ifilter :=
  match x_index f, x_name f, x_quality f, x_comparator f with
  | VInt z, VStr s, VStr q, VNone => Some (mkI z s (Some q) None)
  | VInt z, VStr s, VStr q, VStr c => Some (mkI z s (Some q) (Some c))
  | VInt z, VStr s, VNone, VNone => Some (mkI z s None None)
  | VInt z, VStr s, VNone, VStr c => Some (mkI z s None (Some c))
  | _, _, _, _ => None
  end.
(** Plain filters at slots [i], [i + 1], ... as [Slots_Model] has them. *)
Fixpoint plain_slots (i : Z) (names : list pystr) : list ifilter :=
  match names with [] => [] | s :: l => mkI i s (Some (str "any")) None :: plain_slots (i + 1) l end.
(** The list with the name at position [k] replaced. *)
Definition with_name (k : nat) (x : pystr) (names : list pystr) : list pystr :=
  firstn k names ++ x :: skipn (S k) names.
