(** C62: groups, subgroups and items in their order. *)
From Coq Require Import ZArith NArith List Bool String Permutation Sorting.Sorted.
From Verif Require Import Common Dict Ranking_Spec Shelf_Model Shelf_Spec Shelf_Proofs.
Import ListNotations.
Local Open Scope string_scope.
Local Open Scope list_scope.

(** The items come, each once and under its name, by group, then subgroup, then
    item; among each by order, those without one last, then by name. *)
Theorem C62_items : forall groups subs items o, unique groups subs items -> get_items groups subs items = Ok o ->
  exists l rs items', under_names i_name l (o_items o) /\ Permutation l items' /\ Forall2 filled items items' /\
    Forall2 (ranked groups subs) l rs /\ StronglySorted before rs.
Proof. exact items_spec. Qed.
Print Assumptions C62_items.

(** The subgroups, each with exactly its items in order. *)
Theorem C62_subgroups : forall groups subs items o, unique groups subs items -> get_items groups subs items = Ok o ->
  exists l, Permutation l subs /\ StronglySorted (fun a b => place_lt (s_place a) (s_place b)) l /\
    map fst (o_subs o) = map s_name l /\ map (fun p => fst (snd p)) (o_subs o) = l /\
    forall n s d, In (n, (s, d)) (o_subs o) -> exists mine, under_names i_name mine d /\
      (forall i, In i mine <-> exists j, In j items /\ wanted j = s_name s /\ filled j i) /\
      StronglySorted (fun a b => place_lt (i_place a) (i_place b)) mine.
Proof. exact subs_spec. Qed.
Print Assumptions C62_subgroups.

(** The groups, each with exactly its subgroups in order. *)
Theorem C62_groups : forall groups subs items o, unique groups subs items -> get_items groups subs items = Ok o ->
  exists l, Permutation l groups /\ StronglySorted (fun a b => place_lt (g_place a) (g_place b)) l /\
    map fst (o_groups o) = map g_name l /\ map (fun p => fst (snd p)) (o_groups o) = l /\
    forall n g d, In (n, (g, d)) (o_groups o) -> exists mine, under_names s_name mine d /\
      (forall s, In s mine <-> In s subs /\ s_group s = Some (g_name g)) /\
      StronglySorted (fun a b => place_lt (s_place a) (s_place b)) mine.
Proof. exact groups_spec. Qed.
Print Assumptions C62_groups.

(** It fails exactly when a subgroup's group or an item's subgroup is missing. *)
Theorem C62_iff : forall groups subs items, unique groups subs items ->
  ((exists o, get_items groups subs items = Ok o) <-> complete groups subs items) /\
  (forall e, get_items groups subs items = Err e -> e = KeyError).
Proof. exact get_items_iff. Qed.
Print Assumptions C62_iff.

Definition ex_groups := [mkG (str "combat") (Some (str "b")); mkG (str "logistics") (Some (str "a"))].
Definition ex_subs := [mkS (str "other") None (Some (str "logistics")); mkS (str "gun") (Some (str "a")) (Some (str "combat"));
  mkS (str "belt") (Some (str "b")) (Some (str "logistics")); mkS (str "chest") (Some (str "a")) (Some (str "logistics"))].
Definition ex_items := [mkI (str "pistol") (Some (str "a")) (Some (str "gun")); mkI (str "junk") None None;
  mkI (str "fast") (Some (str "b")) (Some (str "belt")); mkI (str "steel") (Some (str "a")) (Some (str "chest"));
  mkI (str "slow") (Some (str "a")) (Some (str "belt")); mkI (str "iron") (Some (str "a")) (Some (str "chest"))].
Example C62_example : unique ex_groups ex_subs ex_items /\ exists o, get_items ex_groups ex_subs ex_items = Ok o /\
  map fst (o_items o) = [str "iron"; str "steel"; str "slow"; str "fast"; str "junk"; str "pistol"] /\
  map fst (o_subs o) = [str "chest"; str "gun"; str "belt"; str "other"] /\
  map (fun p => (fst p, map fst (snd (snd p)))) (o_groups o) =
    [(str "logistics", [str "chest"; str "belt"; str "other"]); (str "combat", [str "gun"])].
Proof.
  split; [repeat split; repeat constructor; cbn; intuition discriminate|]. eexists. split; [reflexivity|]. repeat split; reflexivity.
Qed.
Example C62_example_error : get_items ex_groups [mkS (str "gun") None (Some (str "combat"))] [mkI (str "junk") None None] = Err KeyError.
Proof. reflexivity. Qed.
