(** Property theorems C90: whole lists of item filters. *)
From Coq Require Import ZArith NArith List Bool String Lia.
From Verif Require Import Common Dict Assign_Model Slots_Model Filters_Model Filters_Spec Filters_Proofs.
Import ListNotations.
Local Open Scope list_scope.
Local Open Scope Z_scope.

(** With validation a list is accepted exactly if every entry stands for a filter; then
    it holds exactly these, and the unknown names are warned about. *)
Theorem C90_set : forall numeral known m h l ws fs, validating m ->
  (assign numeral known m h (GSeq l) = (HFilters fs, Ok ws) <->
   stands_all numeral 1 l fs /\ ws = warned known m (names_of fs)).
Proof. exact accepted_iff. Qed.
Print Assumptions C90_set.
(** Otherwise it is refused, and nothing changes. *)
Theorem C90_refused : forall numeral known m h l, validating m -> (forall fs, ~ stands_all numeral 1 l fs) ->
  assign numeral known m h (GSeq l) = (h, Err DataFormatError).
Proof. exact set_not_meant. Qed.
Print Assumptions C90_refused.
Theorem C90_refused_keeps : forall numeral known m h g e, snd (assign numeral known m h g) = Err e ->
  fst (assign numeral known m h g) = h /\ e = DataFormatError /\ validating m.
Proof. exact refused_keeps. Qed.
Print Assumptions C90_refused_keeps.
(** Every list has at most one meaning, and it is the same in every mode. *)
Theorem C90_one_meaning : forall numeral l i fs fs', stands_all numeral i l fs -> stands_all numeral i l fs' -> fs = fs'.
Proof. exact stands_all_same. Qed.
Print Assumptions C90_one_meaning.
Theorem C90_any_mode : forall numeral known m h l fs, stands_all numeral 1 l fs ->
  assign numeral known m h (GSeq l) = (HFilters fs, Ok (warned known m (names_of fs))).
Proof. exact any_mode. Qed.
Print Assumptions C90_any_mode.

(** Names fill the slots from the first on, in order, in every mode. *)
Theorem C90_names : forall numeral known m h names, Z.of_nat (List.length names) < 2^63 ->
  assign numeral known m h (GSeq (map EName names)) = (HFilters (slots 1 names), Ok (warned known m names)).
Proof. exact set_names. Qed.
Print Assumptions C90_names.
Theorem C90_slot : forall names i k s, nth_error names k = Some s ->
  nth_error (slots i names) k = Some (plain (i + Z.of_nat k) s) /\ List.length (slots i names) = List.length names.
Proof. intros names i k s K. split; [exact (slots_nth names i k s K)|exact (slots_length names i)]. Qed.
Print Assumptions C90_slot.
(** One slot set afterwards replaces the name there, or is the next one. *)
Theorem C90_then_one : forall strict names k x q c, Z.of_nat (List.length names) < 2^63 -> (k < List.length names)%nat ->
  map as_slots (slots 1 names) = map Some (plain_slots 1 names) /\
  set_inventory_filter strict (Some (plain_slots 1 names)) (Z.of_nat k) (Some x) q c
  = (Some (plain_slots 1 (with_name k x names)), Ok tt).
Proof. intros. split; [apply slots_as|now apply then_one]. Qed.
Print Assumptions C90_then_one.
Theorem C90_then_next : forall strict names x q c, Z.of_nat (List.length names) + 1 < 2^63 ->
  set_inventory_filter strict (Some (plain_slots 1 names)) (Z.of_nat (List.length names)) (Some x) q c
  = (Some (plain_slots 1 (names ++ [x])), Ok tt).
Proof. exact then_next. Qed.
Print Assumptions C90_then_next.

(** Without validation nothing fails and nothing is warned about.  A list whose
    dictionaries all have an index and a name becomes filters, each field read if that
    is possible; any other list is kept with its names numbered. *)
Theorem C90_unvalidated : forall numeral known h g, exists h', assign numeral known MNone h g = (h', Ok []).
Proof. exact unvalidated_never_fails. Qed.
Print Assumptions C90_unvalidated.
Theorem C90_unvalidated_list : forall numeral known h l, Forall has_both l ->
  exists fs, fst (assign numeral known MNone h (GSeq l)) = HFilters fs /\ List.length fs = List.length l /\
    forall k oi on oq oc, nth_error l k = Some (EDict (Some oi) (Some on) oq oc) ->
      exists f, nth_error fs k = Some f /\ x_name f = on /\
        (forall z, index_of numeral oi z -> x_index f = VInt z) /\
        ((forall z, ~ index_of numeral oi z) -> x_index f = oi) /\
        x_quality f = match oq with Some q => q | None => VStr (str "any") end /\
        x_comparator f = match oc with Some c => c | None => VNone end.
Proof. exact unvalidated_list. Qed.
Print Assumptions C90_unvalidated_list.
Theorem C90_unvalidated_raw : forall numeral known h l, ~ Forall has_both l ->
  assign numeral known MNone h (GSeq l) = (HRaw (number 0 l), Ok []).
Proof. exact unvalidated_raw. Qed.
Print Assumptions C90_unvalidated_raw.

(** While validation is on every filter held is proper, whatever is called, and what is
    held can be given again in any mode. *)
Theorem C90_run : forall numeral known l h, Forall (fun p => validating (fst p)) l -> proper_held h ->
  proper_held (run numeral known h l).
Proof. exact run_proper. Qed.
Print Assumptions C90_run.
Theorem C90_again : forall numeral known m h h0, proper_held h ->
  fst (assign numeral known m h0 (given_of h)) = h /\ exists ws, snd (assign numeral known m h0 (given_of h)) = Ok ws.
Proof. exact again. Qed.
Print Assumptions C90_again.

(** [set_item_filters] takes the entries one by one; None alone clears. *)
Theorem C90_arguments : forall numeral known m h es,
  set_item_filters numeral known m h (map AEntry es) = set_inventory_filters numeral known m h (GSeq es).
Proof. exact items_are. Qed.
Print Assumptions C90_arguments.
Theorem C90_clear : forall numeral known m h,
  set_item_filters numeral known m h [ANone] = (HNone, Ok []) /\
  set_inventory_filters numeral known m h GNone = (HNone, Ok []) /\
  set_item_filters numeral known m h [] = (HFilters [], Ok []).
Proof. intros. split; [reflexivity|]. split; reflexivity. Qed.
Print Assumptions C90_clear.
(** Anything that is no list and not None is refused, or kept without validation. *)
Theorem C90_no_list : forall numeral known m h n,
  (validating m -> set_inventory_filters numeral known m h (GOther n) = (h, Err DataFormatError)) /\
  set_inventory_filters numeral known MNone h (GOther n) = (HOther n, Ok []).
Proof.
  intros numeral known m h n. split; [|reflexivity]. intro V. apply validating_bool in V.
  unfold set_inventory_filters, assign. rewrite V. reflexivity.
Qed.
Print Assumptions C90_no_list.
(** The number of filter slots: None for an unknown entity, 0 for one without. *)
Theorem C90_count_unknown : forall raw name, filter_count raw name = None <-> ~ In name (map fst raw).
Proof. exact count_known. Qed.
Print Assumptions C90_count_unknown.
Theorem C90_count : forall raw name o, NoDup (map fst raw) -> In (name, o) raw ->
  filter_count raw name = Some (match o with Some n => n | None => 0 end).
Proof. exact count_is. Qed.
Print Assumptions C90_count.

(** Refuted: that [set_item_filters] takes a list, as its documentation shows it. *)
Theorem C90_list_refuted : forall numeral known m h l args, validating m -> In (AList l) args ->
  set_item_filters numeral known m h args = (h, Err DataFormatError).
Proof. exact documented_list. Qed.
Print Assumptions C90_list_refuted.
(** Refuted: that None clears wherever it is given. *)
Theorem C90_none_refuted : forall numeral known h,
  set_item_filters numeral known MStrict h [ANone; ANone] = (h, Err DataFormatError).
Proof. reflexivity. Qed.
Print Assumptions C90_none_refuted.
(** Refuted: that an index outside of the slots of the entity is an IndexError.  Any
    int64 is accepted without a warning, zero and negative ones too. *)
Theorem C90_bounds_refuted : forall numeral known m h z s, int64 z -> known s = true ->
  set_inventory_filters numeral known m h (GSeq [EDict (Some (VInt z)) (Some (VStr s)) None None])
  = (HFilters [plain z s], Ok []).
Proof.
  intros numeral known m h z s B K. unfold set_inventory_filters.
  rewrite (any_mode numeral known m h _ [plain z s]).
  - unfold warned, names_of, plain. cbn [flat_map x_name app filter]. rewrite K. cbn [negb]. destruct m; reflexivity.
  - cbn. split; [|exact Logic.I]. exists (VInt z), z, s. split; [reflexivity|]. split; [split; [exact B|left; reflexivity]|].
    repeat (split; [reflexivity|]). reflexivity.
Qed.
Print Assumptions C90_bounds_refuted.
(** Refuted: that an unknown item is an InvalidItemError.  It is accepted, with a
    warning in the strict modes and silently with minimum validation. *)
Theorem C90_unknown_refuted : forall numeral known h s, known s = false ->
  set_inventory_filters numeral known MStrict h (GSeq [EName s]) = (HFilters [plain 1 s], Ok [s]) /\
  set_inventory_filters numeral known MMinimum h (GSeq [EName s]) = (HFilters [plain 1 s], Ok []).
Proof.
  intros numeral known h s K.
  assert (G : forall m, set_inventory_filters numeral known m h (GSeq [EName s]) = (HFilters [plain 1 s], Ok (warned known m [s]))).
  { intro m. exact (set_names numeral known m h [s] ltac:(cbn; lia)). }
  split; rewrite G; unfold warned; cbn [filter]; rewrite ?K; reflexivity.
Qed.
Print Assumptions C90_unknown_refuted.
(** Refuted: that each slot is filled once. *)
Theorem C90_slots_refuted : forall numeral known h, exists l f g,
  fst (set_inventory_filters numeral known MPedantic h (GSeq l)) = HFilters [f; g] /\
  x_index f = x_index g /\ x_name f <> x_name g.
Proof.
  intros numeral known h.
  exists [EDict (Some (VInt 2)) (Some (VStr (str "iron-plate"))) None None; EName (str "coal")].
  exists (plain 2 (str "iron-plate")), (plain 2 (str "coal")).
  split; [reflexivity|]. split; [reflexivity|]. discriminate.
Qed.
Print Assumptions C90_slots_refuted.
(** Refuted: that the documented entries with "signal" are accepted.  They have no
    "name". *)
Theorem C90_signal_refuted : forall numeral known m h z before after, validating m ->
  set_inventory_filters numeral known m h (GSeq (before ++ EDict (Some (VInt z)) None None None :: after))
  = (h, Err DataFormatError).
Proof.
  intros numeral known m h z before after V. apply set_not_meant; [exact V|]. generalize 1 as i.
  induction before as [|e l IH]; intros i fs S; destruct fs as [|f fs]; cbn [app stands_all] in S; try contradiction.
  - destruct S as ((vi & y & s & _ & _ & K & _) & _). discriminate.
  - exact (IH (i + 1) fs (proj2 S)).
Qed.
Print Assumptions C90_signal_refuted.

(** ** Examples *)
Definition one_numeral (s : pystr) : option Z := if pystr_eqb s (str "7") then Some 7 else None.
Definition some_known (s : pystr) : bool := negb (pystr_eqb s (str "bogus")).
Example C90_example_mixed :
  set_item_filters one_numeral some_known MStrict HNone
    [AEntry (EName (str "coal")); AEntry (EDict (Some (VStr (str "7"))) (Some (VStr (str "bogus"))) (Some VNone) (Some (VStr (str ">"))));
     AEntry (EName (str "wood"))]
  = (HFilters [plain 1 (str "coal"); mkFil (VInt 7) (VStr (str "bogus")) VNone (VStr (str ">")); plain 3 (str "wood")],
     Ok [str "bogus"]).
Proof. reflexivity. Qed.
Example C90_example_refused :
  let h := HFilters [plain 1 (str "coal")] in
  set_inventory_filters one_numeral some_known MMinimum h (GSeq [EName (str "wood"); EDict (Some (VStr (str "x"))) (Some (VStr (str "coal"))) None None])
  = (h, Err DataFormatError).
Proof. reflexivity. Qed.
Example C90_example_quality :
  set_inventory_filters one_numeral some_known MMinimum HNone (GSeq [EDict (Some (VInt 1)) (Some (VStr (str "coal"))) (Some (VStr (str "shiny"))) None])
  = (HNone, Err DataFormatError) /\
  set_inventory_filters one_numeral some_known MNone HNone (GSeq [EDict (Some (VInt 1)) (Some (VStr (str "coal"))) (Some (VStr (str "shiny"))) None])
  = (HFilters [mkFil (VInt 1) (VStr (str "coal")) (VStr (str "shiny")) VNone], Ok []).
Proof. split; reflexivity. Qed.
Example C90_example_run :
  run one_numeral some_known HNone
    [(MStrict, SetItems [AEntry (EName (str "coal"))]); (MPedantic, SetAll (GOther 3)); (MMinimum, SetItems [AList []])]
  = HFilters [plain 1 (str "coal")].
Proof. reflexivity. Qed.
Example C90_example_then :
  set_inventory_filter true (Some (plain_slots 1 [str "coal"; str "wood"; str "stone"])) 1 (Some (str "fish")) None None
  = (Some (plain_slots 1 [str "coal"; str "fish"; str "stone"]), Ok tt).
Proof. reflexivity. Qed.
Example C90_example_count :
  let raw := [(str "fast-inserter", Some 5); (str "inserter", None)] in
  filter_count raw (str "fast-inserter") = Some 5 /\ filter_count raw (str "inserter") = Some 0 /\
  filter_count raw (str "other") = None.
Proof. split; [reflexivity|]. split; reflexivity. Qed.
