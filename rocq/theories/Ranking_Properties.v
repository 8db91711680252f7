(** C49: the order of prototypes. *)
From Coq Require Import ZArith NArith List Bool String Permutation Sorting.Sorted.
From Verif Require Import Common Ranking_Model Ranking_Spec Ranking_Proofs.
Import ListNotations.
Local Open Scope string_scope.
Local Open Scope list_scope.

(** The result lists the prototypes' names arranged by group, subgroup, order
    (missing ones last), sort name and name... *)
Theorem C49_sorted : forall l items subgroups groups out, get_order l items subgroups groups = Ok out ->
  exists rs s, Forall2 (ranked items subgroups groups) l rs /\ Permutation rs s /\ StronglySorted (fun a b => ~ earlier b a) s /\ out = map r_name s.
Proof. exact order_sorted. Qed.
Print Assumptions C49_sorted.
(** ... and any such arrangement is the result. *)
Theorem C49_complete : forall l items subgroups groups rs s, Forall2 (ranked items subgroups groups) l rs -> Permutation rs s ->
  StronglySorted (fun a b => ~ earlier b a) s -> get_order l items subgroups groups = Ok (map r_name s).
Proof. exact order_complete. Qed.
Print Assumptions C49_complete.
(** Every prototype exactly once. *)
Theorem C49_once : forall l items subgroups groups out, get_order l items subgroups groups = Ok out ->
  Permutation (map p_name l) (map Some out).
Proof. exact order_names. Qed.
Print Assumptions C49_once.
(** The order is a strict total one. *)
Theorem C49_total : strict earlier.
Proof. exact earlier_strict. Qed.
Print Assumptions C49_total.
(** Missing orders come last within a subgroup. *)
Theorem C49_missing_last : forall s1 a s2 b s3, StronglySorted (fun x y => ~ earlier y x) (s1 ++ a :: s2 ++ b :: s3) ->
  r_group a = r_group b -> r_subgroup a = r_subgroup b -> r_order a = None -> r_order b = None.
Proof. exact missing_last. Qed.
Print Assumptions C49_missing_last.
(** Comparing two keys never compares a missing order with a present one. *)
Theorem C49_comparable : forall items subgroups groups o1 o2 k1 k2,
  key_of items subgroups groups o1 = Ok k1 -> key_of items subgroups groups o2 = Ok k2 -> exists r, key_lt k1 k2 = Ok r.
Proof. exact key_never_fails. Qed.
Print Assumptions C49_comparable.
(** Sorting succeeds exactly when every prototype has a place: its item, its
    subgroup, that one's group and their names and orders exist.  The only
    exception is KeyError. *)
Theorem C49_iff : forall l items subgroups groups,
  ((exists out, get_order l items subgroups groups = Ok out) <-> (forall o, In o l -> exists r, ranked items subgroups groups o r)) /\
  (forall e, get_order l items subgroups groups = Err e -> e = KeyError).
Proof. exact order_iff. Qed.
Print Assumptions C49_iff.

Definition ex_groups : table group := [(str "logistics", mkG (Some (str "logistics")) (Some (str "a")))].
Definition ex_subgroups : table subgroup :=
  [(str "belt", mkS (Some (str "belt")) (Some (str "b")) (Some (str "logistics")));
   (str "other", mkS (Some (str "other")) (Some (str "z")) (Some (str "logistics")))].
Definition ex_items : table proto := [(str "fast-belt", mkP (Some (str "fast-belt")) (Some (str "item")) (Some (str "b")) (Some (str "belt")) None)].
Definition ex_list : list proto :=
  [mkP (Some (str "cliff")) (Some (str "cliff")) None None None;
   mkP (Some (str "tree")) (Some (str "tree")) (Some (str "zz")) None None;
   mkP (Some (str "fast-belt-entity")) (Some (str "transport-belt")) None None (Some (str "fast-belt"));
   mkP (Some (str "belt")) (Some (str "transport-belt")) (Some (str "a")) (Some (str "belt")) None].
Example C49_ex : get_order ex_list ex_items ex_subgroups ex_groups = Ok [str "belt"; str "fast-belt-entity"; str "tree"; str "cliff"].
Proof. reflexivity. Qed.
(** So it does fail, when mining an entity gives an item the table lacks. *)
Theorem C49_never_fails_refuted : exists l items subgroups groups, get_order l items subgroups groups = Err KeyError /\
  Forall (fun o => p_name o <> None /\ p_type o <> None /\ p_order o <> None /\ p_subgroup o <> None) l /\
  get_order ex_list items subgroups groups = Ok [str "belt"; str "fast-belt-entity"; str "tree"; str "cliff"].
Proof.
  exists [mkP (Some (str "x")) (Some (str "t")) (Some (str "o")) (Some (str "belt")) (Some (str "gone"))], ex_items, ex_subgroups, ex_groups.
  split; [reflexivity|]. split; [|reflexivity]. repeat constructor; discriminate.
Qed.
Print Assumptions C49_never_fails_refuted.
