(** What the register of entities should be (C67). *)
From Coq Require Import ZArith NArith List Bool String.
From Verif Require Import Common Dict Ranking_Model Ranking_Spec Registry_Model.
Import ListNotations.
Local Open Scope string_scope.
Local Open Scope list_scope.

(** ** The source *)
Definition all_tables : list pystr := tables_before ++ [str "logistic-container"] ++ tables_after.
Definition table_of (data : sdict (list (pystr * source))) (p : pystr) : list (pystr * source) :=
  match dget pystr_eqb data p with Some l => l | None => [] end.
(** Not to be passed over. *)
Definition usable (s : source) : bool := match s_flags s with Some f => if in_dec pystr_eq_dec (str "not-blueprintable") f then false else true | None => true end.
Definition chosen (data : sdict (list (pystr * source))) (p : pystr) : list (pystr * source) :=
  filter (fun ks => usable (snd ks)) (table_of data p).
(** Every prototype has the name it is filed under and the type of its table, and
    no two have the same name. *)
Definition tidy (data : sdict (list (pystr * source))) : Prop :=
  (forall p k s, In p all_tables -> In (k, s) (table_of data p) -> s_name s = Some k /\ s_type s = Some p) /\
  NoDup (flat_map (fun p => map fst (table_of data p)) all_tables).

(** ** The register *)
(** An entry says what the prototype says; a missing or empty mask is replaced. *)
Record registers (p k : pystr) (s : source) (e : entry) : Prop := {
  rg_name : e_name e = k; rg_type : e_type e = p; rg_box : s_box s = Some (e_box e);
  rg_mask : e_mask e = match s_mask s with Some (a :: l) => a :: l | _ => default_mask p end;
  rg_flags : e_flags e = match s_flags s with Some f => f | None => if s_hidden s then [str "hidden"] else [] end;
  rg_order : e_order e = s_order s; rg_sub : e_subgroup e = s_subgroup s; rg_mined : e_mined e = s_mined s;
  rg_mode : e_mode e = s_mode s }.
(** Whether it can be flipped. *)
Definition flips (p k : pystr) : Prop :=
  ~ In k [str "pumpjack"; str "chemical-plant"; str "oil-refinery"] /\
  ~ In p [str "rail-signal"; str "rail-chain-signal"; str "train-stop"].
(** The list a logistic container goes to. *)
Inductive logistic_list : pystr -> pystr -> Prop :=
| ll_passive : logistic_list (str "passive-provider") (str "logistic-container-passive")
| ll_active : logistic_list (str "active-provider") (str "logistic-container-active")
| ll_storage : logistic_list (str "storage") (str "logistic-container-storage")
| ll_buffer : logistic_list (str "buffer") (str "logistic-container-buffer")
| ll_request : logistic_list (str "requester") (str "logistic-container-request").

(** ** Classes: the type in camel case, but for six. *)
Definition upper (c : N) : N := if (N.leb 97 c && N.leb c 122)%bool then (c - 32)%N else c.
Fixpoint camel (start : bool) (s : pystr) : pystr :=
  match s with
  | [] => []
  | c :: r => if N.eqb c 45 then camel true r else (if start then upper c else c) :: camel false r
  end.
Definition class_name (t : pystr) : pystr :=
  if pystr_eqb t (str "pipe-to-ground") then str "UndergroundPipe"
  else if pystr_eqb t (str "logistic-container-passive") then str "LogisticPassiveContainer"
  else if pystr_eqb t (str "logistic-container-active") then str "LogisticActiveContainer"
  else if pystr_eqb t (str "logistic-container-storage") then str "LogisticStorageContainer"
  else if pystr_eqb t (str "logistic-container-buffer") then str "LogisticBufferContainer"
  else if pystr_eqb t (str "logistic-container-request") then str "LogisticRequestContainer"
  else camel true t.
(** Types without a class. *)
Definition classless : list pystr := [str "asteroid-collector"; str "loader-1x1"; str "market"; str "turret"; str "logistic-container"].

(** The logistic containers of a mode. *)
Definition of_mode (data : sdict (list (pystr * source))) (m : pystr) : list pystr :=
  map fst (filter (fun ks => match s_mode (snd ks) with Some m' => if pystr_eq_dec m' m then true else false | None => false end)
             (chosen data (str "logistic-container"))).
(** The class of a prototype of a table, [None] being the generic one. *)
Inductive classed (p : pystr) (s : source) : option pystr -> Prop :=
| cl_own : ~ In p classless -> classed p s (Some (class_name p))
| cl_none : In p classless -> p <> str "logistic-container" -> classed p s None
| cl_logistic : forall m t, p = str "logistic-container" -> s_mode s = Some m -> logistic_list m t -> classed p s (Some (class_name t))
| cl_other : p = str "logistic-container" -> (forall m t, s_mode s = Some m -> ~ logistic_list m t) -> classed p s None.
(** The types a class can be found for. *)
Definition typed (t : pystr) : Prop := (In t all_tables /\ ~ In t classless) \/ exists m, logistic_list m t.

(** Additions to the register. *)
Record addition := mkAdd { a_name : pystr; a_type : pystr; a_box : box; a_rest : source }.
Definition perform (r : reg) (a : addition) : reg := add_entity r (a_name a) (a_type a) (a_box a) (a_rest a).
Definition perform_all (l : list addition) (r : reg) : reg := fold_left perform l r.
(** The names listed under some type. *)
Definition listed (r : reg) (n : pystr) : Prop := exists t l, dget pystr_eqb (of_type r) t = Some l /\ In n l.
(** Every type with a class has a list. *)
Definition complete (r : reg) : Prop := forall t, typed t -> dget pystr_eqb (of_type r) t <> None.
(** Additions of new names, each different. *)
Definition fresh (r : reg) (l : list addition) : Prop :=
  NoDup (map a_name l) /\ forall a, In a l -> ~ listed r (a_name a) /\ ~ In (a_name a) (map fst (raw r)) /\ ~ In (a_name a) (map fst (flippable r)).
