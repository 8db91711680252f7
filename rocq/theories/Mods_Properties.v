(** C42 and C43: choosing and ordering mods. *)
From Coq Require Import ZArith NArith List Bool String Permutation Sorted.
From Verif Require Import Common Version_Model Mods_Model Mods_Spec Mods_Proofs.
Import ListNotations.
Local Open Scope string_scope.
Local Open Scope list_scope.
Local Open Scope Z_scope.

(** ** C42: Mods load after everything they depend on *)

(** Every chosen mod is in the order once, and nothing else is. *)
Theorem C42_order_complete : forall fuel ms o, NoDup (map fst ms) -> unresolved ms -> load_order fuel ms = Ok o ->
  NoDup o /\ forall n, In n o <-> present ms n.
Proof. exact order_perm. Qed.
Print Assumptions C42_order_complete.

(** A mod stands after all mods it depends on. *)
Theorem C42_dependencies_first : forall fuel ms o, NoDup (map fst ms) -> unresolved ms -> load_order fuel ms = Ok o ->
  forall a b, requires ms a b -> before b a o.
Proof. exact order_depends. Qed.
Print Assumptions C42_dependencies_first.

(** The order is by weight (one more than the weights of all dependencies
    together), then by name. *)
Theorem C42_order_sorted : forall fuel ms o w, NoDup (map fst ms) -> unresolved ms -> load_order fuel ms = Ok o -> weighs ms w ->
  StronglySorted (sooner w) o.
Proof. exact order_sorted. Qed.
Print Assumptions C42_order_sorted.
Theorem C42_weights_exist : forall fuel ms o, NoDup (map fst ms) -> unresolved ms -> load_order fuel ms = Ok o -> exists w, weighs ms w.
Proof. exact order_weights. Qed.
Print Assumptions C42_weights_exist.

(** There is an order exactly when all dependency entries are usable and there
    is no cycle. *)
Theorem C42_order_iff : forall ms, NoDup (map fst ms) -> unresolved ms ->
  ((exists fuel o, load_order fuel ms = Ok o) <-> acceptable ms /\ exists bound, acyclic ms bound).
Proof. exact order_iff. Qed.
Print Assumptions C42_order_iff.
(** A recursion limit above the longest dependency chain suffices. *)
Theorem C42_order_exists : forall fuel ms, NoDup (map fst ms) -> acceptable ms -> acyclic ms fuel -> exists o, load_order fuel ms = Ok o.
Proof. exact order_exists. Qed.
Print Assumptions C42_order_exists.
(** A ring of mods [a -> l_0 -> ... -> a] never loads. *)
Theorem C42_no_order_for_cycles : forall fuel ms o, NoDup (map fst ms) -> unresolved ms -> load_order fuel ms = Ok o ->
  forall a l, ~ (exists b, hd_error l = Some b /\ requires ms a b /\
    (forall i x y, nth_error l i = Some x -> nth_error l (S i) = Some y -> requires ms x y) /\ nth_error l (List.length l - 1) = Some a).
Proof. exact order_cyclic. Qed.
Print Assumptions C42_no_order_for_cycles.

(** The first problem met is the one reported: an incompatible mod that is
    present, a required mod that is missing or a version that does not fit. *)
Theorem C42_first_problem_reported : forall fuel ms ms1 n m ms2 d1 d d2 e,
  NoDup (map fst ms) -> ms = ms1 ++ (n, m) :: ms2 -> entries n m = d1 ++ d :: d2 ->
  (forall n' m' d', In (n', m') ms1 -> In d' (entries n' m') -> passable ms d') -> (forall d', In d' d1 -> passable ms d') ->
  fault ms d e -> load_order fuel ms = Err e.
Proof. exact first_fault. Qed.
Print Assumptions C42_first_problem_reported.

(** Any entry that is not usable stops the load. *)
Theorem C42_unusable_blocks : forall fuel ms n m d, NoDup (map fst ms) -> unresolved ms -> In (n, m) ms -> In d (entries n m) -> ~ usable ms d ->
  forall o, load_order fuel ms <> Ok o.
Proof. exact order_blocked. Qed.
Print Assumptions C42_unusable_blocks.

Definition req (n : string) := Named None (str n) None None.
Definition amod_of (i : Z) (n : string) (ds : list dep) : pystr * amod := (str n, mkMod i (str n) (str "1.1.0") true true ds).
Definition core_mod := amod_of 0 "core" [].
Definition base_mod := amod_of 1 "base" [].
Definition factory : list (pystr * amod) :=
  [base_mod; core_mod;
   amod_of 2 "zlib" [req "base"];
   amod_of 3 "power" [req "base"; req "zlib"];
   amod_of 4 "aai" [Named (Some Optional) (str "base") (Some OGe) (Some (str "1.0"))]].

(** Optional, incompatible and unordered ("~") dependencies should be no obstacle
    when they are met; they are: the entry stays in the list as text, and
    [get_depth] fails on it. *)
Theorem C42_absent_optional_refuted : exists ms n d,
  (forall k m d, In (k, m) ms -> In d (entries k m) -> passable ms d) /\ In (n, snd (amod_of 2 "a" [req "base"; d])) ms /\
  d = Named (Some Optional) (str "alien") None None /\ ~ present ms (str "alien") /\ load_order 10 ms = Err AttributeError.
Proof.
  exists [core_mod; base_mod; amod_of 2 "a" [req "base"; Named (Some Optional) (str "alien") None None]], (str "a"), (Named (Some Optional) (str "alien") None None).
  split.
  { intros k m d [E|[E|[E|[]]]]; injection E as <- <-; intros I; vm_compute in I; [destruct I|destruct I as [<-|[]]|destruct I as [<-|[<-|[]]]].
    - exists None, CORE, None, None. split; [reflexivity|]. right. split; [discriminate|]. eexists. split; [left; reflexivity|left; reflexivity].
    - exists None, BASE, None, None. split; [reflexivity|]. right. split; [discriminate|]. eexists. split; [right; left; reflexivity|left; reflexivity].
    - exists (Some Optional), (str "alien"), None, None. split; [reflexivity|]. left. split; [right; left; reflexivity|].
      unfold present. vm_compute. intros [E|[E|[E|[]]]]; discriminate. }
  split; [right; right; left; reflexivity|]. split; [reflexivity|]. split; [|vm_compute; reflexivity].
  vm_compute. intros [E|[E|[E|[]]]]; discriminate.
Qed.
Print Assumptions C42_absent_optional_refuted.
Theorem C42_absent_incompatible_refuted : exists ms,
  (forall k m d, In (k, m) ms -> In d (entries k m) -> passable ms d) /\ acyclic ms 10 /\ load_order 10 ms = Err AttributeError.
Proof.
  exists [core_mod; base_mod; amod_of 2 "a" [req "base"; Named (Some Bang) (str "alien") None None]].
  split; [|split; [|vm_compute; reflexivity]].
  { intros k m d [E|[E|[E|[]]]]; injection E as <- <-; intros I; vm_compute in I; [destruct I|destruct I as [<-|[]]|destruct I as [<-|[<-|[]]]].
    - exists None, CORE, None, None. split; [reflexivity|]. right. split; [discriminate|]. eexists. split; [left; reflexivity|left; reflexivity].
    - exists None, BASE, None, None. split; [reflexivity|]. right. split; [discriminate|]. eexists. split; [right; left; reflexivity|left; reflexivity].
    - exists (Some Bang), (str "alien"), None, None. split; [reflexivity|]. left. split; [left; reflexivity|].
      unfold present. vm_compute. intros [E|[E|[E|[]]]]; discriminate. }
  exists (fun n => if pystr_eqb n (str "a") then 2 else if pystr_eqb n BASE then 1 else 0)%nat. split.
  - intros a _. destruct (pystr_eqb a (str "a")); [|destruct (pystr_eqb a BASE)]; repeat constructor.
  - intros a b (m & [E|[E|[E|[]]]] & J); injection E as <- <-; vm_compute in J; [destruct J|destruct J as [<-|[]]|destruct J as [<-|[<-|[]]]]; vm_compute; repeat constructor.
Qed.
Print Assumptions C42_absent_incompatible_refuted.
Theorem C42_tilde_refuted : exists ms,
  (forall k m d, In (k, m) ms -> In d (entries k m) -> passable ms d) /\ acyclic ms 10 /\ load_order 10 ms = Err AttributeError.
Proof.
  exists [core_mod; base_mod; amod_of 2 "a" [req "base"; Named (Some Tilde) (str "base") None None]].
  split; [|split; [|vm_compute; reflexivity]].
  { intros k m d [E|[E|[E|[]]]]; injection E as <- <-; intros I; vm_compute in I; [destruct I|destruct I as [<-|[]]|destruct I as [<-|[<-|[]]]].
    - exists None, CORE, None, None. split; [reflexivity|]. right. split; [discriminate|]. eexists. split; [left; reflexivity|left; reflexivity].
    - exists None, BASE, None, None. split; [reflexivity|]. right. split; [discriminate|]. eexists. split; [right; left; reflexivity|left; reflexivity].
    - exists (Some Tilde), BASE, None, None. split; [reflexivity|]. right. split; [discriminate|]. eexists. split; [right; left; reflexivity|left; reflexivity]. }
  exists (fun n => if pystr_eqb n (str "a") then 2 else if pystr_eqb n BASE then 1 else 0)%nat. split.
  - intros a _. destruct (pystr_eqb a (str "a")); [|destruct (pystr_eqb a BASE)]; repeat constructor.
  - intros a b (m & [E|[E|[E|[]]]] & J); injection E as <- <-; vm_compute in J; [destruct J|destruct J as [<-|[]]|destruct J as [<-|[<-|[]]]]; vm_compute; repeat constructor.
Qed.
Print Assumptions C42_tilde_refuted.
(** "=" compares versions in the game; here it is an assertion failure. *)
Theorem C42_single_equals_refuted : exists ms target s,
  In (str "base", target) ms /\ mversion target = s /\ In (amod_of 2 "a" [Named None (str "base") (Some OEq1) (Some s)]) ms /\
  load_order 10 ms = Err AssertionError.
Proof.
  exists [core_mod; base_mod; amod_of 2 "a" [Named None (str "base") (Some OEq1) (Some (str "1.1.0"))]], (snd base_mod), (str "1.1.0").
  split; [right; left; reflexivity|]. split; [reflexivity|]. split; [right; right; left; reflexivity|]. vm_compute. reflexivity.
Qed.
Print Assumptions C42_single_equals_refuted.

Example C42_ex_order : load_order 10 factory = Ok [str "core"; str "base"; str "aai"; str "zlib"; str "power"].
Proof. vm_compute. reflexivity. Qed.
Example C42_ex_missing : load_order 10 [core_mod; base_mod; amod_of 2 "a" [req "base"; req "b"]] = Err MissingModError.
Proof. vm_compute. reflexivity. Qed.
Example C42_ex_incompatible : load_order 10 [core_mod; base_mod; amod_of 2 "a" [Named (Some Bang) (str "base") None None]] = Err IncompatableModError.
Proof. vm_compute. reflexivity. Qed.
Example C42_ex_version : load_order 10 [core_mod; base_mod; amod_of 2 "a" [Named None (str "base") (Some OGe) (Some (str "1.1.1"))]] = Err IncorrectModVersionError.
Proof. vm_compute. reflexivity. Qed.
Example C42_ex_cycle : load_order 100 [core_mod; base_mod; amod_of 2 "a" [req "b"]; amod_of 3 "b" [req "a"]] = Err RecursionError.
Proof. vm_compute. reflexivity. Qed.
(** The weight adds up all dependencies, so a mod with many direct dependencies
    comes after one with a longer chain. *)
Example C42_ex_weight : load_order 10 [core_mod; base_mod; amod_of 2 "wide" [req "base"; req "core"; req "x"]; amod_of 3 "x" [req "base"]; amod_of 4 "y" [req "x"]]
  = Ok [str "core"; str "base"; str "x"; str "y"; str "wide"].
Proof. vm_compute. reflexivity. Qed.

(** ** C43: The newest version of a mod is the one used *)

(** Names are those found; each once. *)
Theorem C43_names_kept : forall found d, discover found = Ok d ->
  NoDup (map fst d) /\ forall n, In n (map fst d) <-> exists m, In m found /\ mname m = n.
Proof. exact discover_keys. Qed.
Print Assumptions C43_names_kept.

(** Of every name all versions are kept, best first, equally good ones in the
    order in which they were found. *)
Theorem C43_versions_sorted : forall found d n l, discover found = Ok d -> In (n, l) d -> n <> CORE ->
  Permutation l (filter (called n) found) /\ StronglySorted (fun a b => ~ better b a) l /\
  forall a b, mname a = n -> even a b -> mname b = n -> (before a b l <-> before a b found).
Proof. exact discover_entry. Qed.
Print Assumptions C43_versions_sorted.
(** The core mod's versions stay as found. *)
Theorem C43_core_unsorted : forall found d l, discover found = Ok d -> In (CORE, l) d -> l = filter (called CORE) found.
Proof. exact discover_core. Qed.
Print Assumptions C43_core_unsorted.

(** The mod used is the best of its name, and the first found of equally good
    ones. *)
Theorem C43_newest_chosen : forall found d n m, discover found = Ok d -> In (n, m) (select d) ->
  In m found /\ mname m = n /\ enabled m = true /\
  (n <> CORE -> (forall m', In m' found -> mname m' = n -> ~ better m' m) /\
                forall m', In m' found -> mname m' = n -> even m' m -> m' = m \/ before m m' found).
Proof. exact chosen. Qed.
Print Assumptions C43_newest_chosen.
(** A name is used exactly when its first version is enabled. *)
Theorem C43_enabled_chosen : forall found d n, discover found = Ok d -> (exists m, In m found /\ mname m = n) ->
  exists m l, In (n, m :: l) d /\ (enabled m = true <-> exists m', In (n, m') (select d)).
Proof. exact chosen_all. Qed.
Print Assumptions C43_enabled_chosen.
Theorem C43_one_per_name : forall found d, discover found = Ok d -> NoDup (map fst (select d)).
Proof. exact select_nodup. Qed.
Print Assumptions C43_one_per_name.

(** It only fails on an unreadable version of a mod other than core. *)
Theorem C43_discovery_iff : forall found,
  (exists d, discover found = Ok d) <-> forall m, In m found -> mname m <> CORE -> exists v, version_string_to_tuple (mversion m) = Ok v.
Proof. exact discover_iff. Qed.
Print Assumptions C43_discovery_iff.
Theorem C43_discovery_error : forall found e, discover found = Err e -> e = ValueError.
Proof. exact discover_error. Qed.
Print Assumptions C43_discovery_error.

Definition ver (i : Z) (n v : string) (zip : bool) := mkMod i (str n) (str v) zip true [req "base"].
Definition shelf := [ver 1 "lib" "1.9.0" true; ver 2 "core" "1.0.0" false; ver 3 "lib" "1.10.0" true; ver 4 "base" "1.1.0" false; ver 5 "lib" "1.10.0" false; ver 6 "lib" "1.10" true].
Example C43_ex_discover :
  match discover shelf with Ok d => map (fun e => map ident (snd e)) d = [[5; 3; 6; 1]; [2]; [4]] | Err _ => False end.
Proof. vm_compute. reflexivity. Qed.
Example C43_ex_select : match discover shelf with Ok d => map (fun e => ident (snd e)) (select d) = [5; 2; 4] | Err _ => False end.
Proof. vm_compute. reflexivity. Qed.
