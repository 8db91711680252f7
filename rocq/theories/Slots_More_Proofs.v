(** Lemmas about filters, continued: both planner lists, item, inventory and
    infinity filters, signal sections. *)
From Coq Require Import ZArith String List Bool Lia FinFun.
From Verif Require Import Common Dict Planner_Model Planner_Proofs Slots_Model Slots_Spec Slots_Proofs.
Import ListNotations.
Local Open Scope Z_scope.

(** ** Both lists of the planner *)
Definition on_entities (o : dop) : list (sop pystr) :=
  match o with SetEntity i (Some n) => [Assign i n] | SetEntity i None => [Clear i] | _ => [] end.
Definition on_tiles (o : dop) : list (sop pystr) :=
  match o with SetTile i (Some n) => [Assign i n] | SetTile i None => [Clear i] | _ => [] end.

Lemma run_all_cons : forall S O R (f : S -> O -> S * R) s o os,
  fst (run_all f s (o :: os)) = fst (run_all f (fst (f s o)) os).
Proof. intros. cbn [run_all]. destruct (f s o) as [s1 r]. cbn [fst]. destruct (run_all f s1 os). reflexivity. Qed.
Lemma d_run_split : forall strict os p,
  d_entities (fst (run_all (d_apply strict) p os)) = fst (run_all (apply_named strict) (d_entities p) (flat_map on_entities os)) /\
  d_tiles (fst (run_all (d_apply strict) p os)) = fst (run_all (apply_named strict) (d_tiles p) (flat_map on_tiles os)).
Proof.
  intros strict. induction os as [|o os IH]; intros p; [split; reflexivity|].
  rewrite run_all_cons. destruct (IH (fst (d_apply strict p o))) as [J1 J2]. rewrite J1, J2. cbn [flat_map].
  assert (D : fst (d_apply strict p o) =
    mkD (match on_entities o with o' :: _ => fst (apply_named strict (d_entities p) o') | [] => d_entities p end)
        (match on_tiles o with o' :: _ => fst (apply_named strict (d_tiles p) o') | [] => d_tiles p end)).
  { destruct o as [i [n|]|i [n|]]; unfold apply_named; cbn [on_entities on_tiles d_apply by_name fst snd];
      destruct (set_named_filter _ _ _ _); reflexivity. }
  rewrite D. cbn [d_entities d_tiles].
  destruct o as [i [n|]|i [n|]]; cbn [on_entities on_tiles app]; rewrite run_all_cons; split; reflexivity.
Qed.

(** ** Whole lists *)
Lemma numbered_slots : forall names i, slots n_key (numbered i names) = map (fun k => i + 1 + Z.of_nat k) (seq 0 (length names)).
Proof.
  induction names as [|n ns IH]; intros i; [reflexivity|]. cbn [numbered length seq map]. unfold slots, n_key in *. cbn [flat_map n_index app].
  rewrite IH, <- seq_shift, map_map. f_equal; [lia|]. apply map_ext. intros k. lia.
Qed.
Lemma numbered_in : forall names i e, In e (numbered i names) <->
  exists k, nth_error names k = Some (n_name e) /\ n_index e = Some (i + 1 + Z.of_nat k).
Proof.
  induction names as [|n ns IH]; intros i e; cbn [numbered In].
  - split; [intros []|]. intros [[|k] [N _]]; discriminate.
  - split.
    + intros [<-|I].
      * exists O. split; [reflexivity|]. cbn [n_index]. f_equal. lia.
      * apply IH in I. destruct I as [k [N K]]. exists (S k). split; [exact N|]. rewrite K. f_equal. lia.
    + intros [[|k] [N K]].
      * left. cbn in N. inversion N as [N1]. destruct e as [x y]. cbn [n_index n_name] in *. subst. f_equal. f_equal. lia.
      * right. apply IH. exists k. split; [exact N|]. rewrite K. f_equal. lia.
Qed.
Definition named_list (names : list pystr) : table pystr :=
  fun s => if s <? 0 then None else nth_error names (Z.to_nat s).
Lemma numbered_shows : forall names, shows n_key n_name (Some (numbered 0 names)) (named_list names).
Proof.
  intros names. split; cbn [listed].
  - rewrite numbered_slots. apply FinFun.Injective_map_NoDup; [|apply seq_NoDup]. intros x y. lia.
  - intros s v. unfold named_list. destruct (s <? 0) eqn:N.
    + apply Z.ltb_lt in N. split; [discriminate|]. intros [e [I [K W]]]. apply numbered_in in I. destruct I as [k [_ J]].
      unfold n_key in K. rewrite K in J. assert (JJ : s + 1 = 0 + 1 + Z.of_nat k) by congruence. lia.
    + apply Z.ltb_ge in N. split.
      * intros Q. exists (mkN (Some (s + 1)) v). split; [|auto]. apply numbered_in. exists (Z.to_nat s). split; [exact Q|].
        cbn [n_index]. f_equal. lia.
      * intros [e [I [K W]]]. apply numbered_in in I. destruct I as [k [Q J]]. unfold n_key in K. rewrite K in J.
        assert (JJ : s + 1 = 0 + 1 + Z.of_nat k) by congruence. replace (Z.to_nat s) with k by lia. congruence.
Qed.
Lemma numbered_valid : forall names, Z.of_nat (length names) < 2 ^ 64 -> Forall (fun e => n_valid e = true) (numbered 0 names).
Proof.
  intros names L. rewrite Forall_forall. intros e I. apply numbered_in in I. destruct I as [k [N K]].
  unfold n_valid. rewrite K. cbn [opt_ok]. apply uint64_iff. unfold between.
  assert (k < length names)%nat by (apply nth_error_Some; congruence). lia.
Qed.
Lemma set_entity_filters_spec : forall strict st names, Z.of_nat (length names) < 2 ^ 64 ->
  set_entity_filters strict st names = (Some (numbered 0 names), Ok tt).
Proof.
  intros strict st names L. unfold set_entity_filters.
  replace (forallb n_valid (numbered 0 names)) with true; [now rewrite andb_false_r|].
  symmetry. apply forallb_forall. pose proof (numbered_valid names L) as F. rewrite Forall_forall in F. exact F.
Qed.

Definition overlaid (m : table pystr) (i : Z) (names : list pystr) : table pystr :=
  fun s => match (if s <? i then None else nth_error names (Z.to_nat (s - i))) with Some n => Some n | None => m s end.
Lemma set_tile_filters_spec : forall strict names i st m, shows n_key n_name st m -> n_ok strict st ->
  0 <= i -> i + Z.of_nat (length names) < 2 ^ 64 ->
  exists st', set_tile_filters_from strict i st (map Some names) = (st', Ok tt) /\
    shows n_key n_name st' (overlaid m i names) /\ n_ok strict st'.
Proof.
  intros strict. induction names as [|n ns IH]; intros i st m H K I L; cbn [map set_tile_filters_from].
  - exists st. split; [reflexivity|]. split; [|exact K]. destruct H as [H1 H2]. split; [exact H1|]. intros s v. unfold overlaid.
    destruct (s <? i); [apply H2|]. destruct (Z.to_nat (s - i)); apply H2.
  - cbn [length] in L. destruct (named_step strict st m (Assign i n) H K) as [m' [T [S' [K' _]]]]; [intros _; lia|].
    unfold apply_named in *. cbn [by_name fst snd] in *.
    destruct (set_named_filter strict st i (Some n)) as [st1 r]. cbn [fst snd] in *.
    inversion T as [s a m1 Acc P|s a Rej| |]; subst.
    2:{ exfalso. apply Rej. unfold n_accepts, between. lia. }
    destruct (IH (i + 1) st1 m' S' K' ltac:(lia) ltac:(lia)) as [st' [R [S2 K2]]]. exists st'. split; [exact R|]. split; [|exact K2].
    destruct S2 as [A B]. split; [exact A|]. intros s v. rewrite <- B. unfold overlaid, put in *. destruct P as [P1 P2]. unfold replace in P1.
    destruct (s <? i) eqn:C1.
    + apply Z.ltb_lt in C1. replace (s <? i + 1) with true by (symmetry; apply Z.ltb_lt; lia). rewrite P2 by lia. tauto.
    + apply Z.ltb_ge in C1. destruct (Z.eq_dec s i) as [->|N].
      * rewrite Z.sub_diag. cbn [Z.to_nat nth_error]. replace (i <? i + 1) with true by (symmetry; apply Z.ltb_lt; lia). now rewrite P1.
      * replace (s <? i + 1) with false by (symmetry; apply Z.ltb_ge; lia).
        replace (Z.to_nat (s - i)) with (S (Z.to_nat (s - (i + 1)))) by lia. cbn [nth_error].
        destruct (nth_error ns _); [tauto|]. rewrite P2 by exact N. tauto.
Qed.

(** ** Item and inventory filters *)
Definition i_key (f : ifilter) : option Z := Some (i_index f).
Definition i_val (f : ifilter) : wanted := (i_name f, i_quality f, i_comparator f).
Definition i_ok (strict : bool) (st : option (list ifilter)) : Prop :=
  strict = true -> Forall (fun e => i_valid e = true) (listed st).
Definition i_good {A} (strict : bool) (o : sop A) : Prop :=
  strict = true -> match o with Assign s _ => s <> 2 ^ 63 - 1 | Clear _ => True end.
Definition slot_of {A} (o : sop A) : Z := match o with Assign s _ => s | Clear s => s end.

Definition item_body (strict : bool) (st : option (list ifilter)) (index : Z) (item : option pystr) (new_entry : option ifilter)
  : option (list ifilter) * result unit :=
  let new_filters := match st with Some l => l | None => [] end in
  match first_index (fun f => i_index f =? index + 1) new_filters with
  | Some i =>
      match item with
      | None => store strict i_valid st (remove_nth new_filters i)
      | Some n =>
          match nth_error new_filters i with
          | Some f => store strict i_valid st (replace_nth new_filters i (mkI (i_index f) n (i_quality f) (i_comparator f)))
          | None => (st, Err IndexError)
          end
      end
  | None =>
      match new_entry with
      | None => (st, Err UnboundLocalError)
      | Some e => store strict i_valid st (new_filters ++ [e])
      end
  end.
(** What both functions do, for the quality and comparator of a new entry. *)
Definition item_by (given : wanted -> option pystr * option pystr) (strict : bool) (st : option (list ifilter)) (o : sop wanted) :=
  match o with
  | Assign s a =>
      if i_valid (mkI s (fst (fst a)) (fst (given a)) (snd (given a)))
      then item_body strict st s (Some (fst (fst a))) (Some (mkI (s + 1) (fst (fst a)) (fst (given a)) (snd (given a))))
      else (st, Err DataFormatError)
  | Clear s => item_body strict st s None None
  end.
Definition given_item (a : wanted) := (snd (fst a), snd a).
Definition given_inventory (a : wanted) : option pystr * option pystr := (Some (str "any"), None).
Lemma apply_item_by : forall strict st o, apply_item strict st o = item_by given_item strict st o.
Proof. intros strict st [s [[n q] c]|s]; reflexivity. Qed.
Lemma apply_inventory_by : forall strict st o, apply_inventory strict st o = item_by given_inventory strict st o.
Proof. intros strict st [s [[n q] c]|s]; reflexivity. Qed.

Definition i_accepts (given : wanted -> option pystr * option pystr) (s : Z) (a : wanted) : Prop :=
  between (- 2 ^ 63) (2 ^ 63) s /\ allowed_quality (fst (given a)) /\ allowed_comparator (snd (given a)).
Definition i_write (given : wanted -> option pystr * option pystr) (old : option wanted) (a : wanted) : wanted :=
  match old with Some (_, q, c) => (fst (fst a), q, c) | None => (fst (fst a), fst (given a), snd (given a)) end.
Lemma i_valid_iff : forall f, i_valid f = true <->
  between (- 2 ^ 63) (2 ^ 63) (i_index f) /\ allowed_quality (i_quality f) /\ allowed_comparator (i_comparator f).
Proof.
  intros [i n q c]. unfold i_valid. cbn [i_index i_quality i_comparator]. rewrite !andb_true_iff, int64_iff.
  unfold allowed_quality, allowed_comparator, opt_ok. destruct q as [q|], c as [c|]; rewrite ?one_of_iff; tauto.
Qed.

Lemma item_step : forall given strict st m o, shows i_key i_val st m -> i_ok strict st -> i_good strict o ->
  exists m', tstep (i_accepts given) (i_write given) UnboundLocalError m o (snd (item_by given strict st o)) m' /\
    shows i_key i_val (fst (item_by given strict st o)) m' /\ i_ok strict (fst (item_by given strict st o)) /\
    others_kept i_key (slot_of o) st (fst (item_by given strict st o)) /\
    (is_ok (snd (item_by given strict st o)) = false -> fst (item_by given strict st o) = st).
Proof.
  intros given strict st m o H K T.
  destruct (first_slot i_key (fun f => i_index f =? slot_of o + 1) (listed st) (slot_of o + 1))
    as [[a [x [b [L [KX [F N]]]]]]|[U F]].
  { intros e. unfold i_key. rewrite Z.eqb_eq. split; congruence. }
  - assert (MX : m (slot_of o) = Some (i_val x)) by (apply (shows_at i_key i_val st m x _ H); [rewrite L; apply in_elt|exact KX]).
    destruct o as [s w|s]; cbn [item_by slot_of] in *; unfold item_body; fold (listed st); rewrite F.
    + destruct (i_valid (mkI s (fst (fst w)) (fst (given w)) (snd (given w)))) eqn:B.
      * apply i_valid_iff in B. cbn [i_index i_quality i_comparator] in B. rewrite N, L, replace_nth_mid.
        assert (W : strict = true -> Forall (fun e => i_valid e = true) (a ++ mkI (i_index x) (fst (fst w)) (i_quality x) (i_comparator x) :: b)).
        { intros S. specialize (K S). rewrite L in K. apply forall_mid in K. destruct K as [K1 [K2 K3]].
          apply forall_mid_intro; auto. }
        rewrite store_ok by exact W. cbn [fst snd].
        exists (updated m s (Some (fst (fst w), i_quality x, i_comparator x))). split.
        { apply t_assign; [exact B|]. rewrite MX. cbn [i_write i_val]. apply updated_put. }
        split. { apply (shows_replaced i_key i_val st m a x (mkI (i_index x) (fst (fst w)) (i_quality x) (i_comparator x)) b s H L KX KX). }
        split. { exact W. }
        split. { eapply kept_replaced; eauto. }
        discriminate.
      * cbn [fst snd]. exists m. split; [|split; [|split; [|split]]]; auto.
        -- apply t_reject. intros Q. rewrite <- not_true_iff_false in B. apply B. apply i_valid_iff. exact Q.
        -- reflexivity.
    + rewrite L, remove_nth_mid.
      assert (W : strict = true -> Forall (fun e => i_valid e = true) (a ++ b)).
      { intros S. specialize (K S). rewrite L in K. apply forall_mid in K. destruct K as [K1 [K2 K3]]. apply Forall_app; auto. }
      rewrite store_ok by exact W. cbn [fst snd]. exists (updated m s None). split.
      { apply t_clear; [|apply updated_put]. rewrite MX. discriminate. }
      split. { eapply shows_removed; eauto. }
      split. { exact W. }
      split. { eapply kept_removed; eauto. }
      discriminate.
  - pose proof (proj2 (shows_none i_key i_val st m _ H) U) as M.
    destruct o as [s w|s]; cbn [item_by slot_of] in *; unfold item_body; fold (listed st); rewrite F.
    + destruct (i_valid (mkI s (fst (fst w)) (fst (given w)) (snd (given w)))) eqn:B.
      * apply i_valid_iff in B. cbn [i_index i_quality i_comparator] in B.
        set (new := mkI (s + 1) (fst (fst w)) (fst (given w)) (snd (given w))).
        assert (W : strict = true -> Forall (fun e => i_valid e = true) (listed st ++ [new])).
        { intros S. apply Forall_app. split; [apply K; exact S|]. constructor; [|constructor]. apply i_valid_iff.
          cbn [new i_index i_quality i_comparator]. specialize (T S). cbn in T. unfold between in *. destruct B as [B1 B2]. split; [lia|exact B2]. }
        rewrite store_ok by exact W. cbn [fst snd]. exists (updated m s (Some (i_val new))). split.
        { apply t_assign; [exact B|]. rewrite M. apply (updated_put _ m s (Some (i_val new))). }
        split. { apply (shows_appended i_key i_val st m new s H M eq_refl). }
        split. { exact W. }
        split. { apply kept_appended. reflexivity. }
        discriminate.
      * cbn [fst snd]. exists m. split; [|split; [|split; [|split]]]; auto.
        -- apply t_reject. intros Q. rewrite <- not_true_iff_false in B. apply B. apply i_valid_iff. exact Q.
        -- reflexivity.
    + cbn [fst snd]. exists m. split; [|split; [|split; [|split]]]; auto.
      -- apply t_clear_empty. exact M.
      -- reflexivity.
Qed.
Lemma item_run : forall given strict os st m, shows i_key i_val st m -> i_ok strict st -> Forall (i_good strict) os ->
  exists m', tsteps (i_accepts given) (i_write given) UnboundLocalError m os (snd (run_all (item_by given strict) st os)) m' /\
    shows i_key i_val (fst (run_all (item_by given strict) st os)) m' /\ i_ok strict (fst (run_all (item_by given strict) st os)).
Proof.
  intros given strict os st m H K G.
  apply (run_all_refines _ _ _ (i_accepts given) (i_write given) UnboundLocalError (fun s m => shows i_key i_val s m /\ i_ok strict s) (i_good strict) (item_by given strict)); auto.
  intros s m0 o [I1 I2] Go. destruct (item_step given strict s m0 o I1 I2 Go) as [m' [T [A [B _]]]]. exists m'. auto.
Qed.
Lemma run_all_ext : forall S O R (f g : S -> O -> S * R), (forall s o, f s o = g s o) -> forall os s, run_all f s os = run_all g s os.
Proof.
  intros S O R f g E. induction os as [|o os IH]; intros s; cbn [run_all]; [reflexivity|].
  rewrite E. destruct (g s o) as [s1 r]. now rewrite IH.
Qed.

(** ** Infinity filters *)
Definition f_key (f : ffilter) : option Z := Some (f_index f).
Definition f_val (f : ffilter) : pystr * option pystr * Z := (f_name f, f_mode f, f_count f).
Definition f_accepts (stack_size : pystr -> Z) (s : Z) (a : supply) : Prop :=
  between (-1) (2 ^ 16 - 1) s /\ between 0 (2 ^ 32) (amount stack_size a) /\ allowed_mode (snd (fst a)).
Lemma f_valid_iff : forall f, f_valid f = true <->
  between 0 (2 ^ 16) (f_index f) /\ between 0 (2 ^ 32) (f_count f) /\ allowed_mode (f_mode f).
Proof.
  intros [i n c md]. unfold f_valid. cbn [f_index f_count f_mode]. rewrite !andb_true_iff, uint16_iff, uint32_iff.
  unfold allowed_mode, opt_ok. destruct md as [md|]; rewrite ?one_of_iff; tauto.
Qed.
Lemma infinity_step : forall stack_size l m o, shows f_key f_val (Some l) m ->
  exists m' l', tstep (f_accepts stack_size) (fun _ a => supplied stack_size a) DataFormatError m o (snd (apply_infinity stack_size (Some l) o)) m' /\
    fst (apply_infinity stack_size (Some l) o) = Some l' /\ shows f_key f_val (Some l') m' /\
    others_kept f_key (slot_of o) (Some l) (Some l') /\
    (is_ok (snd (apply_infinity stack_size (Some l) o)) = false -> l' = l).
Proof.
  intros stack_size l m o H.
  destruct (first_slot f_key (fun f => slot_of o + 1 =? f_index f) l (slot_of o + 1))
    as [[a [x [b [L [KX [F N]]]]]]|[U F]].
  { intros e. unfold f_key. rewrite Z.eqb_eq. split; congruence. }
  - assert (MX : m (slot_of o) = Some (f_val x)) by (apply (shows_at f_key f_val (Some l) m x _ H); [cbn [listed]; rewrite L; apply in_elt|exact KX]).
    destruct o as [s [[n md] c]|s]; cbn [apply_infinity slot_of] in *; unfold set_infinity_filter; rewrite F.
    + set (cnt := match c with Some c' => c' | None => stack_size n end).
      replace (match c with Some c' => c' | None => _ end) with cnt by reflexivity.
      assert (AM : amount stack_size (n, md, c) = cnt) by (destruct c; reflexivity).
      destruct (f_valid (mkF (s + 1) n cnt md)) eqn:B.
      * apply f_valid_iff in B. cbn [f_index f_count f_mode] in B. cbn [fst snd].
        assert (R : replace_nth l (length a) (mkF (s + 1) n cnt md) = a ++ mkF (s + 1) n cnt md :: b) by (rewrite L; apply replace_nth_mid).
        exists (updated m s (Some (n, md, cnt))), (a ++ mkF (s + 1) n cnt md :: b). rewrite R. split.
        { apply t_assign.
          - unfold f_accepts. rewrite AM. unfold between in *. cbn [fst snd]. destruct B as [B1 B2]. split; [lia|exact B2].
          - unfold supplied. rewrite AM. apply updated_put. }
        split; [reflexivity|]. split. { apply (shows_replaced f_key f_val (Some l) m a x (mkF (s + 1) n cnt md) b s H L KX eq_refl). }
        split. { eapply kept_replaced; eauto. }
        discriminate.
      * cbn [fst snd]. exists m, l. split; [|split; [|split; [|split]]]; auto; [|reflexivity].
        apply t_reject. intros [Q1 [Q2 Q3]]. rewrite <- not_true_iff_false in B. apply B. apply f_valid_iff.
        cbn [f_index f_count f_mode]. rewrite AM in Q2. unfold between in *. cbn [fst snd] in Q3. repeat split; auto; lia.
    + assert (R : remove_nth l (length a) = a ++ b) by (rewrite L; apply remove_nth_mid). rewrite R. cbn [fst snd].
      exists (updated m s None), (a ++ b). split.
      { apply t_clear; [|apply updated_put]. rewrite MX. discriminate. }
      split; [reflexivity|]. split. { eapply shows_removed; eauto. }
      split. { eapply kept_removed; eauto. }
      discriminate.
  - pose proof (proj2 (shows_none f_key f_val (Some l) m _ H) U) as M.
    destruct o as [s [[n md] c]|s]; cbn [apply_infinity slot_of] in *; unfold set_infinity_filter; rewrite F.
    + set (cnt := match c with Some c' => c' | None => stack_size n end).
      replace (match c with Some c' => c' | None => _ end) with cnt by reflexivity.
      assert (AM : amount stack_size (n, md, c) = cnt) by (destruct c; reflexivity).
      destruct (f_valid (mkF (s + 1) n cnt md)) eqn:B.
      * apply f_valid_iff in B. cbn [f_index f_count f_mode] in B. cbn [fst snd].
        exists (updated m s (Some (n, md, cnt))), (l ++ [mkF (s + 1) n cnt md]). split.
        { apply t_assign.
          - unfold f_accepts. rewrite AM. unfold between in *. cbn [fst snd]. destruct B as [B1 B2]. split; [lia|exact B2].
          - unfold supplied. rewrite AM. apply updated_put. }
        split; [reflexivity|]. split. { apply (shows_appended f_key f_val (Some l) m (mkF (s + 1) n cnt md) s H M eq_refl). }
        split. { apply (kept_appended f_key (Some l)). reflexivity. }
        discriminate.
      * cbn [fst snd]. exists m, l. split; [|split; [|split; [|split]]]; auto; [|reflexivity].
        apply t_reject. intros [Q1 [Q2 Q3]]. rewrite <- not_true_iff_false in B. apply B. apply f_valid_iff.
        cbn [f_index f_count f_mode]. rewrite AM in Q2. unfold between in *. cbn [fst snd] in Q3. repeat split; auto; lia.
    + cbn [fst snd]. exists m, l. split; [|split; [|split; [|split]]]; auto; [|reflexivity].
      apply t_clear_empty. exact M.
Qed.
Definition f_inv (st : option (list ffilter)) (m : table (pystr * option pystr * Z)) : Prop :=
  st <> None /\ shows f_key f_val st m.
Lemma infinity_run : forall stack_size os st m, f_inv st m ->
  exists m', tsteps (f_accepts stack_size) (fun _ a => supplied stack_size a) DataFormatError m os (snd (run_all (apply_infinity stack_size) st os)) m' /\
    f_inv (fst (run_all (apply_infinity stack_size) st os)) m'.
Proof.
  intros stack_size os st m H.
  apply (run_all_refines _ _ _ (f_accepts stack_size) (fun _ a => supplied stack_size a) DataFormatError f_inv (fun _ => True) (apply_infinity stack_size)); auto.
  - intros s m0 o [N I] _. destruct s as [l|]; [|congruence].
    destruct (infinity_step stack_size l m0 o I) as [m' [l' [T [E [S' _]]]]]. exists m'. split; [exact T|]. rewrite E. split; [discriminate|exact S'].
  - apply Forall_forall. auto.
Qed.

(** ** Signal sections *)
Definition s_key (f : sfilter) : option Z := Some (s_index f).
Definition s_accepts (s : Z) (a : signal) : Prop :=
  match a with (_, c, q, t) => between (- 2 ^ 63) (2 ^ 63) s /\ between (- 2 ^ 31) (2 ^ 31) c /\ allowed_quality q /\ allowed_type t end.
Lemma s_valid_iff : forall f, s_valid f = true <->
  between (- 2 ^ 63) (2 ^ 63) (s_index f) /\ between (- 2 ^ 31) (2 ^ 31) (s_count f) /\ allowed_quality (s_quality f) /\ allowed_type (s_type f).
Proof.
  intros [i n c q t]. unfold s_valid. cbn [s_index s_count s_quality s_type]. rewrite !andb_true_iff, int64_iff, int32_iff.
  unfold allowed_quality, allowed_type, opt_ok. destruct q as [q|], t as [t|]; rewrite ?one_of_iff; tauto.
Qed.
Definition is_assign {A} (o : sop A) : Prop := match o with Assign _ _ => True | Clear _ => False end.
Lemma signal_step : forall l m o, shows s_key signal_of (Some l) m -> is_assign o ->
  exists m' l', tstep s_accepts replace DataFormatError m o (snd (apply_signal (Some l) o)) m' /\
    fst (apply_signal (Some l) o) = Some l' /\ shows s_key signal_of (Some l') m' /\
    others_kept s_key (slot_of o) (Some l) (Some l') /\
    (is_ok (snd (apply_signal (Some l) o)) = false -> l' = l).
Proof.
  intros l m [s [[[n c] q] t]|s] H A; [|destruct A]. cbn [apply_signal slot_of]. unfold set_signal.
  destruct (s_valid (mkS s n c q t)) eqn:B.
  - apply s_valid_iff in B. cbn [s_index s_count s_quality s_type] in B.
    destruct (first_slot s_key (fun f => s + 1 =? s_index f) l (s + 1)) as [[a [x [b [L [KX [F N]]]]]]|[U F]].
    { intros e. unfold s_key. rewrite Z.eqb_eq. split; congruence. }
    + rewrite F. assert (R : replace_nth l (length a) (mkS (s + 1) n c q t) = a ++ mkS (s + 1) n c q t :: b) by (rewrite L; apply replace_nth_mid).
      rewrite R. cbn [fst snd]. exists (updated m s (Some (n, c, q, t))), (a ++ mkS (s + 1) n c q t :: b). split.
      { apply t_assign; [exact B|]. apply (updated_put _ m s (Some (n, c, q, t))). }
      split; [reflexivity|]. split. { apply (shows_replaced s_key signal_of (Some l) m a x (mkS (s + 1) n c q t) b s H L KX eq_refl). }
      split. { eapply kept_replaced; eauto. }
      discriminate.
    + rewrite F. pose proof (proj2 (shows_none s_key signal_of (Some l) m _ H) U) as M.
      cbn [fst snd]. exists (updated m s (Some (n, c, q, t))), (l ++ [mkS (s + 1) n c q t]). split.
      { apply t_assign; [exact B|]. apply (updated_put _ m s (Some (n, c, q, t))). }
      split; [reflexivity|]. split. { apply (shows_appended s_key signal_of (Some l) m (mkS (s + 1) n c q t) s H M eq_refl). }
      split. { apply (kept_appended s_key (Some l)). reflexivity. }
      discriminate.
  - cbn [fst snd]. exists m, l. split; [|split; [|split; [|split]]]; auto; [|reflexivity].
    apply t_reject. intros Q. rewrite <- not_true_iff_false in B. apply B. apply s_valid_iff. exact Q.
Qed.
Definition s_inv (st : option (list sfilter)) (m : table signal) : Prop := st <> None /\ shows s_key signal_of st m.
Lemma signal_run : forall os st m, s_inv st m -> Forall is_assign os ->
  exists m', tsteps s_accepts replace DataFormatError m os (snd (run_all apply_signal st os)) m' /\
    s_inv (fst (run_all apply_signal st os)) m'.
Proof.
  intros os st m H G.
  apply (run_all_refines _ _ _ s_accepts replace DataFormatError s_inv is_assign apply_signal); auto.
  intros s m0 o [N I] A. destruct s as [l|]; [|congruence].
  destruct (signal_step l m0 o I A) as [m' [l' [T [E [S' _]]]]]. exists m'. split; [exact T|]. rewrite E. split; [discriminate|exact S'].
Qed.
Lemma get_signal_spec : forall st m s, shows s_key signal_of st m -> option_map signal_of (get_signal st s) = m s.
Proof.
  intros st m s H.
  assert (G : get_signal st s = find (fun f => s_index f =? s + 1) (listed st)) by (destruct st as [[|x l]|]; reflexivity).
  rewrite G. destruct (find _ (listed st)) as [f|] eqn:F.
  - apply find_some in F. destruct F as [I K]. apply Z.eqb_eq in K. symmetry. cbn [option_map].
    apply (shows_at s_key signal_of st m f s H I). unfold s_key. now rewrite K.
  - symmetry. apply (shows_none s_key signal_of st m s H). intros e I K.
    apply (find_none _ _ F) in I. apply Z.eqb_neq in I. unfold s_key in K. congruence.
Qed.
Lemma get_signal_slot : forall st s f, get_signal st s = Some f -> s_index f = s + 1 /\ In f (listed st).
Proof.
  intros st s f G.
  assert (G' : get_signal st s = find (fun f => s_index f =? s + 1) (listed st)) by (destruct st as [[|x l]|]; reflexivity).
  rewrite G' in G. apply find_some in G. destruct G as [I K]. apply Z.eqb_eq in K. auto.
Qed.
