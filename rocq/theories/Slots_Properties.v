(** Property theorems C34, C35 and C36: filters and signals in numbered slots. *)
From Coq Require Import ZArith String List Bool Lia.
From Verif Require Import Common Dict Planner_Model Slots_Model Slots_Spec Slots_Proofs Slots_More_Proofs.
Import ListNotations.
Local Open Scope string_scope.
Local Open Scope list_scope.
Local Open Scope Z_scope.

(** ** C34 *)
(** Any sequence of assignments and clearings of a filter list behaves like the
    indexed table; [unset] is the UnboundLocalError of clearing an empty slot.
    Under validation the very last slot 2^64-1 is excluded (see below). *)
Theorem C34_filters : forall strict os st m, shows n_key n_name st m -> n_ok strict st -> Forall (n_good strict) os ->
  exists m', tsteps n_accepts replace UnboundLocalError m os (snd (run_all (apply_named strict) st os)) m' /\
    shows n_key n_name (fst (run_all (apply_named strict) st os)) m' /\ n_ok strict (fst (run_all (apply_named strict) st os)).
Proof. exact named_run. Qed.
Print Assumptions C34_filters.
(** One call: other entries stay as they are, in order, and a call that raises
    changes nothing. *)
Theorem C34_one_call : forall strict st m o, shows n_key n_name st m -> n_ok strict st -> n_good strict o ->
  exists m', tstep n_accepts replace UnboundLocalError m o (snd (apply_named strict st o)) m' /\
    shows n_key n_name (fst (apply_named strict st o)) m' /\ n_ok strict (fst (apply_named strict st o)) /\
    others_kept n_key (fst (by_name o)) st (fst (apply_named strict st o)) /\
    (is_ok (snd (apply_named strict st o)) = false -> fst (apply_named strict st o) = st).
Proof. exact named_step. Qed.
Print Assumptions C34_one_call.
(** Entity filters and tile filters do not affect each other. *)
Theorem C34_independent : forall strict os p,
  d_entities (fst (run_all (d_apply strict) p os)) = fst (run_all (apply_named strict) (d_entities p) (flat_map on_entities os)) /\
  d_tiles (fst (run_all (d_apply strict) p os)) = fst (run_all (apply_named strict) (d_tiles p) (flat_map on_tiles os)).
Proof. exact d_run_split. Qed.
Print Assumptions C34_independent.
(** [set_entity_filters] replaces the list; [set_tile_filters] overlays it. *)
Theorem C34_set_entity_filters : forall strict st names, Z.of_nat (List.length names) < 2 ^ 64 ->
  set_entity_filters strict st names = (Some (numbered 0 names), Ok tt) /\
  shows n_key n_name (Some (numbered 0 names)) (named_list names).
Proof. intros. split; [now apply set_entity_filters_spec|apply numbered_shows]. Qed.
Print Assumptions C34_set_entity_filters.
Theorem C34_set_tile_filters : forall strict names st m, shows n_key n_name st m -> n_ok strict st ->
  Z.of_nat (List.length names) < 2 ^ 64 ->
  exists st', set_tile_filters strict st (map Some names) = (st', Ok tt) /\
    shows n_key n_name st' (overlaid m 0 names) /\ n_ok strict st'.
Proof. intros strict names st m H K L. apply set_tile_filters_spec; auto; lia. Qed.
Print Assumptions C34_set_tile_filters.
(** Refuted: a failing assignment leaves the filters alone.  Assigning the last
    slot fails but stays in the list, and then every later call fails. *)
Theorem C34_failure_no_effect_refuted : exists st s n, n_ok true st /\
  snd (apply_named true st (Assign s n)) = Err DataFormatError /\ fst (apply_named true st (Assign s n)) <> st /\
  forall s' n', between 0 (2 ^ 64) s' ->
    snd (apply_named true (fst (apply_named true st (Assign s n))) (Assign s' n')) = Err DataFormatError.
Proof.
  exists (Some []), (2 ^ 64 - 1), (str "rock"). split; [intros _; constructor|].
  split; [vm_compute; reflexivity|]. split; [vm_compute; discriminate|]. intros s' n' B.
  replace (fst (apply_named true (Some []) (Assign (2 ^ 64 - 1) (str "rock")))) with (Some [mkN (Some (2 ^ 64)) (str "rock")])
    by (vm_compute; reflexivity).
  apply uint64_iff in B. unfold apply_named, set_named_filter. cbn [by_name fst snd]. rewrite B.
  cbn [first_index n_index zopt_eqb option_map].
  destruct (2 ^ 64 =? s' + 1); cbn [nth_error replace_nth n_index app]; unfold store; cbn [forallb andb n_valid n_index opt_ok];
    replace (is_uint64 (2 ^ 64)) with false by (vm_compute; reflexivity); reflexivity.
Qed.
Print Assumptions C34_failure_no_effect_refuted.

Example filters_example :
  run_all (apply_named true) None
    [Assign 3 (str "tree"); Clear 1; Assign 0 (str "rock"); Assign 3 (str "cliff"); Assign (-1) (str "rock"); Clear 0]
  = (Some [mkN (Some 4) (str "cliff")],
     [Ok tt; Err UnboundLocalError; Ok tt; Ok tt; Err DataFormatError; Ok tt]).
Proof. vm_compute. reflexivity. Qed.

(** ** C35 *)
(** Item filters of inserters and loaders: the item of every slot is the last one
    assigned; an occupied slot keeps the quality and comparator it had. *)
Theorem C35_item_filters : forall strict os st m, shows i_key i_val st m -> i_ok strict st -> Forall (i_good strict) os ->
  exists m', tsteps (i_accepts given_item) rename UnboundLocalError m os (snd (run_all (apply_item strict) st os)) m' /\
    shows i_key i_val (fst (run_all (apply_item strict) st os)) m' /\ i_ok strict (fst (run_all (apply_item strict) st os)).
Proof.
  intros strict os st m H K G. rewrite (run_all_ext _ _ _ _ _ (apply_item_by strict)).
  destruct (item_run given_item strict os st m H K G) as [m' [T R]]. exists m'. split; [|exact R].
  clear - T. induction T as [|m o r m1 os rs m2 S T IH]; [constructor|]. econstructor; [|exact IH].
  destruct S as [s [[n q] c] m' A P|s a A|s m' N P|s N]; [apply t_assign|apply t_reject|apply t_clear|apply t_clear_empty]; auto.
Qed.
Print Assumptions C35_item_filters.
(** The qualities, comparators and modes accepted. *)
Theorem C35_words : forall w,
  (allowed_quality (Some w) <-> In w [str "normal"; str "uncommon"; str "rare"; str "epic"; str "legendary"; str "quality-unknown"; str "any"]) /\
  (allowed_comparator (Some w) <-> In w [str ">"; str "<"; str "="; [8805%N]; [8804%N]; [8800%N]]) /\
  (allowed_mode (Some w) <-> In w [str "at-least"; str "at-most"; str "exactly"]).
Proof. intros w. repeat split; exact (fun H => H). Qed.
Print Assumptions C35_words.
(** Cargo wagons: the same, and quality and comparator are always ignored. *)
Theorem C35_inventory_filters : forall strict os st m, shows i_key i_val st m -> i_ok strict st -> Forall (i_good strict) os ->
  exists m', tsteps (fun s _ => between (- 2 ^ 63) (2 ^ 63) s) plain UnboundLocalError m os (snd (run_all (apply_inventory strict) st os)) m' /\
    shows i_key i_val (fst (run_all (apply_inventory strict) st os)) m' /\ i_ok strict (fst (run_all (apply_inventory strict) st os)).
Proof.
  intros strict os st m H K G. rewrite (run_all_ext _ _ _ _ _ (apply_inventory_by strict)).
  destruct (item_run given_inventory strict os st m H K G) as [m' [T R]]. exists m'. split; [|exact R].
  assert (A : forall s a, i_accepts given_inventory s a <-> between (- 2 ^ 63) (2 ^ 63) s).
  { intros s a. unfold i_accepts. cbn [given_inventory fst snd]. split; [tauto|]. intros B. repeat split; try apply B.
    cbn [allowed_quality]. unfold qualities. cbn [In]. tauto. }
  clear - T A. induction T as [|m o r m1 os rs m2 S T IH]; [constructor|]. econstructor; [|exact IH].
  destruct S as [s a m' AC P|s a AC|s m' N P|s N].
  - apply t_assign; [exact (proj1 (A s a) AC)|]. destruct (m s) as [[[n0 q0] c0]|]; exact P.
  - apply t_reject. intros B. apply AC. exact (proj2 (A s a) B).
  - now apply t_clear.
  - now apply t_clear_empty.
Qed.
Print Assumptions C35_inventory_filters.
(** One call of either: other entries stay, in order; raising changes nothing. *)
Theorem C35_one_call : forall given strict st m o, shows i_key i_val st m -> i_ok strict st -> i_good strict o ->
  exists m', tstep (i_accepts given) (i_write given) UnboundLocalError m o (snd (item_by given strict st o)) m' /\
    shows i_key i_val (fst (item_by given strict st o)) m' /\ i_ok strict (fst (item_by given strict st o)) /\
    others_kept i_key (slot_of o) st (fst (item_by given strict st o)) /\
    (is_ok (snd (item_by given strict st o)) = false -> fst (item_by given strict st o) = st).
Proof. exact item_step. Qed.
Print Assumptions C35_one_call.
Theorem C35_both_calls : forall strict st o,
  apply_item strict st o = item_by given_item strict st o /\ apply_inventory strict st o = item_by given_inventory strict st o.
Proof. intros. split; [apply apply_item_by|apply apply_inventory_by]. Qed.
Print Assumptions C35_both_calls.
(** Refuted: the quality asked for is the quality stored. *)
Theorem C35_quality_refuted : exists os m', tsteps (i_accepts given_item) replace UnboundLocalError (fun _ => None) os (snd (run_all (apply_item true) None os)) m' /\
  ~ shows i_key i_val (fst (run_all (apply_item true) None os)) m'.
Proof.
  set (o1 := Assign 0 (str "iron-ore", Some (str "normal"), Some (str "="))).
  set (o2 := Assign 0 (str "iron-ore", Some (str "epic"), Some (str ">"))).
  exists [o1; o2], (updated (updated (fun _ => None) 0 (Some (str "iron-ore", Some (str "normal"), Some (str "="))))
                      0 (Some (str "iron-ore", Some (str "epic"), Some (str ">")))).
  assert (Q : run_all (apply_item true) None [o1; o2] =
    (Some [mkI 1 (str "iron-ore") (Some (str "normal")) (Some (str "="))], [Ok tt; Ok tt])) by (vm_compute; reflexivity).
  rewrite Q. cbn [fst snd]. split.
  - econstructor; [|econstructor; [|constructor]].
    + apply t_assign; [|apply updated_put]. split; [unfold between; lia|]. split; cbn; tauto.
    + apply t_assign; [|unfold replace; apply updated_put]. split; [unfold between; lia|]. split; cbn; tauto.
  - intros [_ S]. destruct (proj1 (S 0 _) eq_refl) as [e [[<-|[]] [_ V]]]. vm_compute in V. discriminate.
Qed.
Print Assumptions C35_quality_refuted.
(** Refuted: a failing assignment leaves the filters alone (last slot). *)
Theorem C35_failure_no_effect_refuted : exists st s n, i_ok true st /\
  snd (apply_item true st (Assign s n)) = Err DataFormatError /\ fst (apply_item true st (Assign s n)) <> st /\
  snd (apply_inventory true st (Assign s n)) = Err DataFormatError /\ fst (apply_inventory true st (Assign s n)) <> st.
Proof.
  exists (Some []), (2 ^ 63 - 1), (str "iron-ore", Some (str "normal"), Some (str "=")). split; [intros _; constructor|].
  repeat split; try (vm_compute; reflexivity); vm_compute; discriminate.
Qed.
Print Assumptions C35_failure_no_effect_refuted.
(** The comparators the signature offers in Python spelling are rejected. *)
Theorem C35_python_comparators_rejected : forall strict st s n q c, In c [str "=="; str ">="; str "<="; str "!="] ->
  apply_item strict st (Assign s (n, q, Some c)) = (st, Err DataFormatError).
Proof.
  intros strict st s n q c I. rewrite apply_item_by. unfold item_by.
  replace (i_valid _) with false; [reflexivity|]. symmetry. unfold i_valid. apply andb_false_iff. right.
  cbn in I. destruct I as [<-|[<-|[<-|[<-|[]]]]]; vm_compute; reflexivity.
Qed.
Print Assumptions C35_python_comparators_rejected.

(** Infinity filters: whole entries are replaced, and failures change nothing. *)
Theorem C35_infinity_filters : forall stack_size os st m, f_inv st m ->
  exists m', tsteps (f_accepts stack_size) (fun _ a => supplied stack_size a) DataFormatError m os (snd (run_all (apply_infinity stack_size) st os)) m' /\
    f_inv (fst (run_all (apply_infinity stack_size) st os)) m'.
Proof. exact infinity_run. Qed.
Print Assumptions C35_infinity_filters.
Theorem C35_infinity_one_call : forall stack_size l m o, shows f_key f_val (Some l) m ->
  exists m' l', tstep (f_accepts stack_size) (fun _ a => supplied stack_size a) DataFormatError m o (snd (apply_infinity stack_size (Some l) o)) m' /\
    fst (apply_infinity stack_size (Some l) o) = Some l' /\ shows f_key f_val (Some l') m' /\
    others_kept f_key (slot_of o) (Some l) (Some l') /\
    (is_ok (snd (apply_infinity stack_size (Some l) o)) = false -> l' = l).
Proof. exact infinity_step. Qed.
Print Assumptions C35_infinity_one_call.

Example item_example :
  run_all (apply_item true) None
    [Assign 1 (str "coal", Some (str "normal"), Some (str "=")); Assign 0 (str "stone", Some (str "rare"), Some [8805%N]);
     Assign 1 (str "wood", Some (str "epic"), None); Clear 5; Assign 2 (str "coal", Some (str "best"), None)]
  = (Some [mkI 2 (str "wood") (Some (str "normal")) (Some (str "=")); mkI 1 (str "stone") (Some (str "rare")) (Some [8805%N])],
     [Ok tt; Ok tt; Ok tt; Err UnboundLocalError; Err DataFormatError]).
Proof. vm_compute. reflexivity. Qed.
Example infinity_example :
  run_all (apply_infinity (fun _ => 50)) (Some [])
    [Assign 0 (str "coal", Some (str "exactly"), None); Assign 1 (str "wood", None, Some 7); Clear 0; Clear 0;
     Assign 1 (str "stone", Some (str "at-most"), Some 3); Assign 65535 (str "stone", None, None)]
  = (Some [mkF 2 (str "stone") 3 (Some (str "at-most"))], [Ok tt; Ok tt; Ok tt; Err DataFormatError; Ok tt; Err DataFormatError]).
Proof. vm_compute. reflexivity. Qed.

(** ** C36 *)
(** The types accepted. *)
Theorem C36_types : forall t, allowed_type (Some t) <->
  In t [str "virtual"; str "item"; str "fluid"; str "recipe"; str "entity"; str "space-location"; str "asteroid-chunk"; str "quality"].
Proof. intros t. split; exact (fun H => H). Qed.
Print Assumptions C36_types.
(** Any sequence of signal assignments to a section having a filter list. *)
Theorem C36_signals : forall os st m, s_inv st m -> Forall is_assign os ->
  exists m', tsteps s_accepts replace DataFormatError m os (snd (run_all apply_signal st os)) m' /\
    s_inv (fst (run_all apply_signal st os)) m'.
Proof. exact signal_run. Qed.
Print Assumptions C36_signals.
Theorem C36_one_call : forall l m o, shows s_key signal_of (Some l) m -> is_assign o ->
  exists m' l', tstep s_accepts replace DataFormatError m o (snd (apply_signal (Some l) o)) m' /\
    fst (apply_signal (Some l) o) = Some l' /\ shows s_key signal_of (Some l') m' /\
    others_kept s_key (slot_of o) (Some l) (Some l') /\
    (is_ok (snd (apply_signal (Some l) o)) = false -> l' = l).
Proof. exact signal_step. Qed.
Print Assumptions C36_one_call.
(** Reading a slot gives the table's signal, as an entry of that slot. *)
Theorem C36_get_signal : forall st m s, shows s_key signal_of st m -> option_map signal_of (get_signal st s) = m s.
Proof. exact get_signal_spec. Qed.
Print Assumptions C36_get_signal.
Theorem C36_get_signal_entry : forall st s f, get_signal st s = Some f -> s_index f = s + 1 /\ In f (listed st).
Proof. exact get_signal_slot. Qed.
Print Assumptions C36_get_signal_entry.
(** Refuted: a slot can be cleared.  Clearing always raises. *)
Theorem C36_clear_always_raises : forall st s, apply_signal st (Clear s) = (st, Err DataFormatError).
Proof. reflexivity. Qed.
Print Assumptions C36_clear_always_raises.
Theorem C36_clear_refuted : exists st m s, s_inv st m /\ m s <> None /\
  is_ok (snd (apply_signal st (Clear s))) = false /\ get_signal (fst (apply_signal st (Clear s))) s <> None.
Proof.
  exists (Some [mkS 1 (str "signal-A") 5 None None]), (updated (fun _ => None) 0 (Some (str "signal-A", 5, None, None))), 0.
  split; [|split; [discriminate|split; [reflexivity|discriminate]]]. split; [discriminate|].
  apply (shows_appended s_key signal_of (Some []) (fun _ => None) (mkS 1 (str "signal-A") 5 None None) 0); try reflexivity.
  split; [constructor|]. intros s v. split; [discriminate|]. intros [e [[] _]].
Qed.
Print Assumptions C36_clear_refuted.
(** Refuted: an accepted assignment can be read back.  With missing filters it is
    lost without an error. *)
Theorem C36_missing_filters_lost : forall s n c q t,
  fst (apply_signal None (Assign s (n, c, q, t))) = None /\ get_signal (fst (apply_signal None (Assign s (n, c, q, t)))) s = None /\
  (s_accepts s (n, c, q, t) -> snd (apply_signal None (Assign s (n, c, q, t))) = Ok tt).
Proof.
  intros s n c q t. cbn [apply_signal]. unfold set_signal. destruct (s_valid (mkS s n c q t)) eqn:B; cbn [fst snd get_signal].
  - repeat split.
  - repeat split. intros A. exfalso. rewrite <- not_true_iff_false in B. apply B. apply s_valid_iff. exact A.
Qed.
Print Assumptions C36_missing_filters_lost.
Theorem C36_read_back_refuted : exists st s a, snd (apply_signal st (Assign s a)) = Ok tt /\ get_signal (fst (apply_signal st (Assign s a))) s = None.
Proof. exists None, 0, (str "signal-A", 5, None, None). split; vm_compute; reflexivity. Qed.
Print Assumptions C36_read_back_refuted.

Example signals_example :
  let st := fst (run_all apply_signal (Some [])
     [Assign 0 (str "signal-A", 10, Some (str "normal"), Some (str "virtual")); Assign 4 (str "coal", 3, None, None);
      Assign 0 (str "iron-ore", -7, None, Some (str "item")); Assign 1 (str "wood", 2 ^ 31, None, None)]) in
  option_map signal_of (get_signal st 0) = Some (str "iron-ore", -7, None, Some (str "item")) /\
  option_map signal_of (get_signal st 4) = Some (str "coal", 3, None, None) /\ get_signal st 1 = None.
Proof. vm_compute. repeat split. Qed.
