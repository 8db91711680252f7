(** Specification of the choice and the order of mods. *)
From Coq Require Import ZArith NArith List Bool.
From Verif Require Import Common Version_Model Mods_Model.
Import ListNotations.
Local Open Scope Z_scope.

(** Version tuples: the first difference decides, a proper beginning is older. *)
Inductive older : list Z -> list Z -> Prop :=
| older_prefix : forall y b, older [] (y :: b)
| older_here : forall x y a b, x < y -> older (x :: a) (y :: b)
| older_later : forall x a b, older a b -> older (x :: a) (x :: b).
Definition satisfies (op : oper) (a b : list Z) : Prop :=
  match op with
  | OEq2 | OEq1 => a = b
  | OGe => older b a \/ a = b
  | OLe => older a b \/ a = b
  | OGt => older b a
  | OLt => older a b
  end.

Definition present (ms : list (pystr * amod)) (n : pystr) : Prop := In n (map fst ms).
(** The version asked for, if any, is met by the mod found. *)
Definition fits (target : amod) (op : option oper) (v : option pystr) : Prop :=
  v = None \/ exists o s a b, op = Some o /\ o <> OEq1 /\ v = Some s /\
    version_string_to_tuple (mversion target) = Ok a /\ version_string_to_tuple s = Ok b /\ satisfies o a b.

(** A dependency that makes another mod load first. *)
Definition usable (ms : list (pystr * amod)) (d : dep) : Prop :=
  exists f n op v target, d = Named f n op v /\ (f = None \/ f = Some Optional \/ f = Some Hidden) /\
    In (n, target) ms /\ fits target op v.
(** A dependency that is no obstacle. *)
Definition passable (ms : list (pystr * amod)) (d : dep) : Prop :=
  exists f n op v, d = Named f n op v /\
    ((f = Some Bang \/ f = Some Optional \/ f = Some Hidden) /\ ~ present ms n \/
     f <> Some Bang /\ exists target, In (n, target) ms /\ fits target op v).
(** A dependency that has to be reported. *)
Inductive fault (ms : list (pystr * amod)) : dep -> exn -> Prop :=
| f_incompatible : forall n op v, present ms n -> fault ms (Named (Some Bang) n op v) IncompatableModError
| f_missing : forall f n op v, f = None \/ f = Some Tilde -> ~ present ms n -> fault ms (Named f n op v) MissingModError
| f_version : forall f n o s target a b, f <> Some Bang -> In (n, target) ms -> o <> OEq1 ->
    version_string_to_tuple (mversion target) = Ok a -> version_string_to_tuple s = Ok b -> ~ satisfies o a b ->
    fault ms (Named f n (Some o) (Some s)) IncorrectModVersionError.

(** What a mod depends on: base depends on core, core on nothing. *)
Definition entries (n : pystr) (m : amod) : list dep :=
  if pystr_eqb n CORE then [] else if pystr_eqb n BASE then [Named None CORE None None] else deps m.
Definition dep_name (d : dep) : pystr := match d with Named _ n _ _ => n | Loaded n => n end.
Definition requires (ms : list (pystr * amod)) (a b : pystr) : Prop :=
  exists m, In (a, m) ms /\ In b (map dep_name (entries a m)).

Definition acceptable (ms : list (pystr * amod)) : Prop :=
  forall n m, In (n, m) ms -> (n = CORE -> deps m = []) /\ forall d, In d (entries n m) -> usable ms d.
Definition acyclic (ms : list (pystr * amod)) (bound : nat) : Prop :=
  exists rank : pystr -> nat, (forall a, present ms a -> (rank a < bound)%nat) /\ forall a b, requires ms a b -> (rank b < rank a)%nat.

(** The weight by which mods are ordered: one more than the weights of all mods
    depended on. *)
Definition weighs (ms : list (pystr * amod)) (w : pystr -> Z) : Prop :=
  forall n m, In (n, m) ms -> w n = 1 + fold_right Z.add 0 (map (fun d => w (dep_name d)) (entries n m)).

(** Alphabetical order. *)
Inductive alphabetical : pystr -> pystr -> Prop :=
| alpha_prefix : forall y b, alphabetical [] (y :: b)
| alpha_here : forall x y a b, (x < y)%N -> alphabetical (x :: a) (y :: b)
| alpha_later : forall x a b, alphabetical a b -> alphabetical (x :: a) (x :: b).

(** Better: a newer version, or the same version in a folder rather than an
    archive. *)
Definition better (a b : amod) : Prop :=
  exists u v, version_string_to_tuple (mversion a) = Ok u /\ version_string_to_tuple (mversion b) = Ok v /\
    (older v u \/ u = v /\ archive a = false /\ archive b = true).
Definition even (a b : amod) : Prop :=
  exists u, version_string_to_tuple (mversion a) = Ok u /\ version_string_to_tuple (mversion b) = Ok u /\ archive a = archive b.

(** Dependencies as read from the mods' files. *)
Definition unresolved (ms : list (pystr * amod)) : Prop :=
  forall n m d, In (n, m) ms -> In d (deps m) -> exists f b op v, d = Named f b op v.

(** Lighter mods first, equally heavy ones alphabetically. *)
Definition sooner (w : pystr -> Z) (a b : pystr) : Prop := w a < w b \/ w a = w b /\ alphabetical a b.

(** One element stands somewhere before another. *)
Definition before {A} (a b : A) (l : list A) : Prop := exists l1 l2 l3, l = l1 ++ a :: l2 ++ b :: l3.

Definition called (n : pystr) (m : amod) : bool := pystr_eqb (mname m) n.
