(** Proofs that the list of schedules does what is said. *)
From Coq Require Import ZArith List Lia Bool.
From Verif Require Import Common Dict Equal_Model Equal_List_Spec Equal_Proofs.
Import ListNotations.
Local Open Scope list_scope.

Lemma pos_place : forall A (l : list A) i p, py_pos (Z.of_nat (length l)) i = Some p ->
  place (Z.of_nat (length l)) i p /\ exists l1 y l2, l = l1 ++ y :: l2 /\ length l1 = p.
Proof.
  intros A l i p. unfold py_pos. cbv zeta. set (j := if (i <? 0)%Z then (i + Z.of_nat (length l))%Z else i).
  destruct ((0 <=? j)%Z && (j <? Z.of_nat (length l))%Z) eqn:E; [|discriminate].
  apply andb_true_iff in E. rewrite Z.leb_le, Z.ltb_lt in E. intros H. injection H as <-. split.
  - unfold place. subst j. destruct (Z.ltb_spec i 0); lia.
  - destruct (nth_error l (Z.to_nat j)) as [y|] eqn:N.
    + destruct (nth_error_split l (Z.to_nat j) N) as (l1 & l2 & E1 & E2). exists l1, y, l2. auto.
    + apply nth_error_None in N. lia.
Qed.
Lemma pos_out : forall n i, py_pos (Z.of_nat n) i = None -> (i < - Z.of_nat n \/ Z.of_nat n <= i)%Z.
Proof.
  intros n i. unfold py_pos. cbv zeta. destruct (Z.ltb_spec i 0);
    match goal with |- context[if ?b then _ else _] => destruct b eqn:E end; try discriminate; intros _;
    apply andb_false_iff in E; rewrite Z.leb_gt, Z.ltb_ge in E; lia.
Qed.
Lemma replace_at : forall A (l1 : list A) y l2 x, replace_nth (l1 ++ y :: l2) (length l1) x = l1 ++ x :: l2.
Proof. induction l1 as [|a l1 IH]; intros; cbn; [reflexivity|]. rewrite IH. reflexivity. Qed.
Lemma remove_at : forall A (l1 : list A) y l2, remove_nth (l1 ++ y :: l2) (length l1) = l1 ++ l2.
Proof. induction l1 as [|a l1 IH]; intros; cbn; [reflexivity|]. rewrite IH. reflexivity. Qed.
Lemma all_some : forall l ss, all_schedules l = Some ss <-> l = map Some ss.
Proof.
  induction l as [|[s|] l IH]; intros ss; cbn.
  - split; [intros H; injection H as <-; reflexivity|destruct ss; [reflexivity|discriminate]].
  - destruct (all_schedules l) as [r|] eqn:E.
    + split; [intros H; injection H as <-; cbn; f_equal; apply IH; reflexivity|].
      destruct ss as [|s' ss]; [discriminate|]. cbn. intros H. injection H as <- H. apply IH in H. congruence.
    + split; [discriminate|]. destruct ss as [|s' ss]; [discriminate|]. cbn. intros H. injection H as _ H. apply IH in H. discriminate.
  - split; [discriminate|]. destruct ss; discriminate.
Qed.
Lemma store_does : forall l i x z, (exists s, x = GOne s /\ z = One s) \/ (exists ss, proper x ss /\ z = Many ss) ->
  does l (SSet i x) (store_at l i z).
Proof.
  intros l i x z H. unfold store_at. destruct (py_pos (Z.of_nat (length l)) i) as [p|] eqn:P.
  - apply pos_place in P as (P & l1 & y & l2 & E & <-). rewrite E at 2. rewrite replace_at. eapply d_set; eassumption.
  - apply pos_out in P. apply d_set_out; [exact P|]. destruct H as [(s & -> & _)|(ss & R & _)]; eauto.
Qed.
Lemma bound_start : forall n a, (0 <= n)%Z -> bound n 0 a (match a with None => 0 | Some v => if (v <? 0)%Z then Z.max (v + n) 0 else Z.min v n end)%Z.
Proof. intros n [v|] H; cbn; [|reflexivity]. destruct (Z.ltb_spec v 0); lia. Qed.
Lemma bound_stop : forall n a, (0 <= n)%Z -> bound n n a (match a with None => n | Some v => if (v <? 0)%Z then Z.max (v + n) 0 else Z.min v n end)%Z.
Proof. intros n [v|] H; cbn; [|reflexivity]. destruct (Z.ltb_spec v 0); lia. Qed.
Lemma bound_range : forall n d i p, (0 <= n)%Z -> (0 <= d <= n)%Z -> bound n d i p -> (0 <= p <= n)%Z.
Proof. intros n d [i|] p N D B; cbn in B; lia. Qed.
Lemma skip_skip : forall A (l : list A) a b, skipn a (skipn b l) = skipn (b + a) l.
Proof. intros A l a b. revert l. induction b as [|b IH]; intros [|x l]; cbn; auto. destruct a; reflexivity. Qed.
Lemma step_does : forall l o, does l o (sl_step l o).
Proof.
  intros l o. destruct o as [i x|x|i x|a b x|i|]; cbn [sl_step].
  - destruct x as [s|xs|]; cbn [sl_insert]; [|apply d_insert_bad; discriminate|apply d_insert_bad; discriminate].
    unfold py_insert. cbv zeta. set (k := if (i <? 0)%Z then Z.max 0 (i + Z.of_nat (length l)) else Z.min i (Z.of_nat (length l))).
    assert (K : (0 <= k <= Z.of_nat (length l))%Z) by (subst k; destruct (Z.ltb_spec i 0); lia).
    apply d_insert; [symmetry; apply firstn_skipn|]. rewrite firstn_length_le by lia. rewrite Z2Nat.id by lia.
    cbn. subst k. destruct (Z.ltb_spec i 0); lia.
  - destruct x as [s|xs|]; [|apply d_append_bad; discriminate|apply d_append_bad; discriminate].
    pose proof (append_last l s) as A. cbn [sl_step] in A. rewrite A. apply d_append.
  - destruct x as [s|xs|]; cbn [sl_set].
    + apply store_does. left. eauto.
    + destruct (all_schedules xs) as [ss|] eqn:E.
      * apply store_does. right. exists ss. split; [|reflexivity]. unfold proper. f_equal. apply all_some, E.
      * apply d_set_bad; [discriminate|]. intros ss P. injection P as ->. rewrite (proj2 (all_some (map Some ss) ss) eq_refl) in E. discriminate.
    + apply d_set_bad; [discriminate|]. intros ss P. discriminate.
  - destruct x as [s|xs|]; cbn [sl_set_slice]; [apply d_slice_bad; intros ss P; discriminate| |apply d_slice_bad; intros ss P; discriminate].
    destruct (all_schedules xs) as [ss|] eqn:E.
    + unfold slice_indices. cbv zeta. cbn [Z.ltb Z.compare].
      set (n := match a with None => 0%Z | Some v => _ end). set (m := match b with None => Z.of_nat (length l) | Some v => _ end).
      assert (N : bound (Z.of_nat (length l)) 0 a n) by (apply bound_start; lia).
      assert (M : bound (Z.of_nat (length l)) (Z.of_nat (length l)) b m) by (apply bound_stop; lia).
      assert (RN : (0 <= n <= Z.of_nat (length l))%Z) by (refine (bound_range _ _ _ _ _ _ N); lia).
      assert (RM : (0 <= m <= Z.of_nat (length l))%Z) by (refine (bound_range _ _ _ _ _ _ M); lia).
      eapply d_slice with (mid := firstn (Z.to_nat (Z.max n m - n)) (skipn (Z.to_nat n) l)) (n := n) (m := m).
      * replace (skipn (Z.to_nat (Z.max n m)) l) with (skipn (Z.to_nat (Z.max n m - n)) (skipn (Z.to_nat n) l)).
        -- rewrite firstn_skipn, firstn_skipn. reflexivity.
        -- rewrite skip_skip. f_equal. lia.
      * unfold proper. f_equal. apply all_some, E.
      * exact N.
      * exact M.
      * rewrite firstn_length_le by lia. lia.
      * rewrite firstn_length_le by (rewrite skipn_length; lia). lia.
    + apply d_slice_bad. intros ss P. injection P as ->. rewrite (proj2 (all_some (map Some ss) ss) eq_refl) in E. discriminate.
  - unfold sl_del. destruct (py_pos (Z.of_nat (length l)) i) as [p|] eqn:P.
    + apply pos_place in P as (P & l1 & y & l2 & E & <-). rewrite E at 2. rewrite remove_at. eapply d_del; eassumption.
    + apply d_del_out, pos_out, P.
  - apply d_clear.
Qed.
