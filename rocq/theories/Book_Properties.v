(** Property theorems C38: blueprint books. *)
From Coq Require Import ZArith String List Bool Lia.
From Verif Require Import Common Dict Book_Model Book_Spec Book_Proofs Book_More_Proofs.
Import ListNotations.
Local Open Scope string_scope.
Local Open Scope list_scope.
Local Open Scope Z_scope.

(** Exporting emits the members in order, each with its own index if it has one
    and its position otherwise, and otherwise as the member exports itself. *)
Theorem C38_export_in_order : forall en ed c i e ms, ms <> [] -> no_root_keys e -> (forall m, In m ms -> no_root_keys (item_extras m)) ->
  exists entries,
    holds (to_dict en ed (Item KBook c i e ms)) (root_item KBook) (JObj c [(str "blueprints", JList entries)]) /\
    List.length entries = List.length ms /\
    forall n m, nth_error ms n = Some m -> exists d,
      nth_error entries n = Some (JObj [] d) /\
      holds d (str "index") (match kept_index (en || ed) n m with Some z => JInt z | None => JNone end) /\
      (forall key, key <> str "index" -> dget pystr_eqb d key = dget pystr_eqb (to_dict en ed m) key).
Proof. exact export_spec. Qed.
Print Assumptions C38_export_in_order.
(** An empty book exports no list at all. *)
Theorem C38_export_empty : forall en ed c i e,
  holds (to_dict en ed (Item KBook c i e [])) (root_item KBook) (JObj c []).
Proof. exact export_empty. Qed.
Print Assumptions C38_export_empty.
(** Two members without an index of their own never get the same index. *)
Theorem C38_positions_distinct : forall n m (ms : list item) x y, nth_error ms n = Some x -> nth_error ms m = Some y ->
  item_index x = None -> item_index y = None -> emitted_index n x = emitted_index m y -> n = m.
Proof. exact positions_distinct. Qed.
Print Assumptions C38_positions_distinct.
(** Re-importing an export gives back every member, at every depth, in order, of
    the same class and with the same content, pinned to the index it was emitted
    with … *)
Theorem C38_reimport : forall en ed x, clean x ->
  (forall z, item_index x = Some z -> 0 <= z < 65536) -> indices_fit (en || ed) x ->
  exists y, load_as (item_kind x) true (to_dict en ed x) = Ok y /\ same_shape x y /\
    item_index y = item_index x /\ indices_pinned (en || ed) x y.
Proof. exact reimport_spec. Qed.
Print Assumptions C38_reimport.
(** … exactly when all emitted indices are unsigned 16 bit numbers. *)
Theorem C38_reimport_fails : forall en ed x, clean x -> ~ indices_fit (en || ed) x -> forall strict,
  load_as (item_kind x) strict (to_dict en ed x) = Err DataFormatError.
Proof. exact reimport_fails. Qed.
Print Assumptions C38_reimport_fails.
(** The class is recognised without being told. *)
Theorem C38_kind_recognised : forall en ed x, clean x ->
  get_blueprintable_from_JSON (to_dict en ed x) = load_as (item_kind x) true (to_dict en ed x).
Proof. exact generic_same. Qed.
Print Assumptions C38_kind_recognised.

(** Editing the list: inserting puts the new member at the (clamped) position and
    keeps all others in order … *)
Theorem C38_insert : forall l idx x, exists l1 l2, l = l1 ++ l2 /\
  list_insert l idx (Blueprintable x) = Ok (l1 ++ x :: l2) /\
  Z.of_nat (List.length l1) = clamped (Z.of_nat (List.length l)) idx.
Proof. exact insert_at. Qed.
Print Assumptions C38_insert.
(** … assigning and deleting affect exactly the member referred to … *)
Theorem C38_assign : forall l idx x l', list_set l idx (Blueprintable x) = Ok l' <->
  exists l1 y l2, l = l1 ++ y :: l2 /\ l' = l1 ++ x :: l2 /\ refers (Z.of_nat (List.length l)) idx (Z.of_nat (List.length l1)).
Proof. exact set_at. Qed.
Print Assumptions C38_assign.
Theorem C38_delete : forall l idx l', list_del l idx = Ok l' <->
  exists l1 y l2, l = l1 ++ y :: l2 /\ l' = l1 ++ l2 /\ refers (Z.of_nat (List.length l)) idx (Z.of_nat (List.length l1)).
Proof. exact del_at. Qed.
Print Assumptions C38_delete.
(** … and the only failures are a value that is no blueprintable and a position
    that is out of range. *)
Theorem C38_list_errors : forall l idx e,
  (forall v, list_insert l idx v = Err e <-> v = Foreign /\ e = TypeError) /\
  (forall v, list_set l idx v = Err e <->
     v = Foreign /\ e = TypeError \/ (v <> Foreign /\ e = IndexError /\ (idx < - Z.of_nat (List.length l) \/ Z.of_nat (List.length l) <= idx))) /\
  (list_del l idx = Err e <-> e = IndexError /\ (idx < - Z.of_nat (List.length l) \/ Z.of_nat (List.length l) <= idx)).
Proof. exact list_errors. Qed.
Print Assumptions C38_list_errors.
(** Loading anything at all either works or answers one of three exceptions; the
    KeyError exactly if the root key is missing. *)
Theorem C38_load_errors : forall k strict d e, load_as k strict d = Err e ->
  e = KeyError \/ e = TypeError \/ e = DataFormatError.
Proof. exact load_as_errors. Qed.
Print Assumptions C38_load_errors.
Theorem C38_load_missing_key : forall k strict d, load_as k strict d = Err KeyError <-> lacks d (root_item k).
Proof. exact load_as_key. Qed.
Print Assumptions C38_load_missing_key.
(** A dictionary without any of the four root keys is refused by the generic
    loader and by the list of a book. *)
Theorem C38_unknown_dictionaries : forall d,
  (get_blueprintable_from_JSON d = Err IncorrectBlueprintTypeError <-> d <> [] /\ forall k, lacks d (root_item k)) /\
  (get_blueprintable_from_JSON d = Err IndexError <-> d = []) /\
  ((forall k, lacks d (root_item k)) -> from_element d = Err DataFormatError).
Proof. exact generic_unknown. Qed.
Print Assumptions C38_unknown_dictionaries.

Definition bp (s : string) := Item KBlueprint (str s) None [] [].
Definition up (s : string) := Item KUpgrade (str s) None [] [].
Definition book (l : list item) := Item KBook (str "book") None [] l.
Definition at_index (z : Z) (x : item) := Item (item_kind x) (item_content x) (Some z) (item_extras x) (item_members x).

(** The indices of the entries of an exported book. *)
Definition listed (d : list (pystr * jval)) : list jval :=
  match dget pystr_eqb d (root_item KBook) with
  | Some (JObj _ fs) =>
      match dget pystr_eqb fs (str "blueprints") with
      | Some (JList l) => map (fun v => match v with JObj _ f => match dget pystr_eqb f (str "index") with Some i => i | None => JNone end | _ => JNone end) l
      | _ => [] end
  | _ => [] end.
Example C38_ex_export : listed (to_dict true true (book [bp "a"; at_index 7 (up "b"); book [bp "c"]])) = [JInt 0; JInt 7; JInt 2].
Proof. reflexivity. Qed.
Example C38_ex_reimport : load_as KBook true (to_dict true true (book [bp "a"; book [bp "c"; at_index 9 (up "d")]])) =
  Ok (book [at_index 0 (bp "a"); at_index 1 (book [at_index 0 (bp "c"); at_index 9 (up "d")])]).
Proof. reflexivity. Qed.

Example C38_ex_edit : list_insert [bp "a"; bp "b"; bp "c"] (-1) (Blueprintable (up "n")) = Ok [bp "a"; bp "b"; up "n"; bp "c"] /\
  list_set [bp "a"; bp "b"; bp "c"] (-1) (Blueprintable (up "n")) = Ok [bp "a"; bp "b"; up "n"] /\
  list_del [bp "a"; bp "b"; bp "c"] 1 = Ok [bp "a"; bp "c"] /\ list_del [bp "a"] 1 = Err IndexError.
Proof. repeat split; reflexivity. Qed.
Example C38_ex_unknown : get_blueprintable_from_JSON [(str "tile", JNone)] = Err IncorrectBlueprintTypeError /\
  load_as KBook true (to_dict true true (bp "a")) = Err KeyError.
Proof. repeat split; reflexivity. Qed.

(** Refuted: all emitted indices are distinct.  An index of one's own may be the
    position of another member. *)
Theorem C38_indices_distinct_refuted : exists ms, Forall clean ms /\
  ~ NoDup (listed (to_dict true true (book ms))).
Proof.
  exists [at_index 1 (bp "a"); bp "b"]. split.
  - repeat constructor; try discriminate; try (intros []); intros [] [].
  - intros H. inversion H as [|? ? A _]. apply A. left. reflexivity.
Qed.
Print Assumptions C38_indices_distinct_refuted.
(** Refuted: the members of an imported book are renumbered when the book is
    edited.  The import pins every index, so a member put in front collides. *)
Theorem C38_renumbered_after_import_refuted : exists ms b l, Forall clean ms /\ Forall (fun m => item_index m = None) ms /\
  load_as KBook true (to_dict true true (book ms)) = Ok b /\
  list_insert (item_members b) 0 (Blueprintable (bp "new")) = Ok l /\
  ~ NoDup (listed (to_dict true true (book l))).
Proof.
  exists [bp "a"; bp "b"]. eexists. eexists. split; [|split; [|split; [reflexivity|split; [reflexivity|]]]].
  - repeat constructor; try discriminate; try (intros []); intros [] [].
  - repeat constructor.
  - intros H. inversion H as [|? ? A _]. apply A. left. reflexivity.
Qed.
Print Assumptions C38_renumbered_after_import_refuted.
(** Refuted: members always come back as what they were.  A key unknown to the
    format ends up beside the root key, and if it is called like the root key of
    another class the member comes back as that class. *)
Theorem C38_kind_kept_refuted : exists x y ms, load_as KBook true
    [(root_item KBook, JObj (str "book") [(root_item KBlueprint, JObj (str "odd") [])])] = Ok x /\
  item_kind x = KBook /\
  load_as KBook true (to_dict true true (book [x])) = Ok y /\ item_members y = [ms] /\ item_kind ms = KBlueprint.
Proof. do 3 eexists. repeat split; reflexivity. Qed.
Print Assumptions C38_kind_kept_refuted.
(** Refuted: every exported member has an index.  With both trimming options off
    it is null. *)
Theorem C38_index_always_present_refuted : exists ms, Forall clean ms /\
  In JNone (listed (to_dict false false (book ms))).
Proof.
  exists [bp "a"]. split; [|left; reflexivity].
  repeat constructor; try discriminate; try (intros []); intros [] [].
Qed.
Print Assumptions C38_index_always_present_refuted.
