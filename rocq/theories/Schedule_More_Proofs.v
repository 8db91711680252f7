(** Proofs about locomotives and stops of a schedule. *)
From Coq Require Import ZArith List Bool Lia Permutation.
From Verif Require Import Common Dict Schedule_Model Schedule_Spec.
Import ListNotations.

(** ** First match *)
Lemma remove_first_some : forall A (p : A -> bool) l r,
  remove_first p l = Some r <-> first_removed (fun x => p x = true) l r.
Proof.
  intros A p l. induction l as [|x l IH]; intros r; cbn [remove_first].
  - split; [discriminate|]. intros [[|a pre] [y [post [E _]]]]; discriminate.
  - destruct (p x) eqn:P.
    + split.
      * intros E. inversion E; subst. exists [], x, r. repeat split; auto.
      * intros [pre [y [post [E [Y [N ->]]]]]]. destruct pre as [|a pre]; cbn [app] in *; inversion E; subst; [reflexivity|].
        exfalso. apply (N a); [left; reflexivity|exact P].
    + split.
      * destruct (remove_first p l) as [r'|] eqn:R; [|discriminate]. intros E. simpl in E. inversion E; subst.
        destruct (proj1 (IH r') eq_refl) as [pre [y [post [-> [Y [N ->]]]]]]. exists (x :: pre), y, post. repeat split; auto.
        intros z [<-|I]; [congruence|apply N; exact I].
      * intros [pre [y [post [E [Y [N ->]]]]]]. destruct pre as [|a pre]; cbn [app] in *; inversion E; subst; [congruence|].
        rewrite (proj2 (IH (pre ++ post))); [reflexivity|]. exists pre, y, post. repeat split; auto. intros z I. apply N. right. exact I.
Qed.
Lemma remove_first_none : forall A (p : A -> bool) l, remove_first p l = None <-> (forall x, In x l -> p x = false).
Proof.
  intros A p l. induction l as [|x l IH]; cbn [remove_first].
  - split; [intros _ x []|reflexivity].
  - destruct (p x) eqn:P.
    + split; [discriminate|]. intros H. rewrite (H x (or_introl eq_refl)) in P. discriminate.
    + split.
      * destruct (remove_first p l); [discriminate|]. intros _ y [<-|I]; [exact P|]. apply IH; auto.
      * intros H. rewrite (proj2 IH); [reflexivity|]. intros y I. apply H. right. exact I.
Qed.
Lemma first_removed_ext : forall A (P Q : A -> Prop) l r, (forall x, P x <-> Q x) -> first_removed P l r -> first_removed Q l r.
Proof.
  intros A P Q l r H [pre [x [post [E [X [N R]]]]]]. exists pre, x, post. split; [exact E|]. split; [apply H; exact X|].
  split; [|exact R]. intros y I C. apply (N y I). apply H. exact C.
Qed.

(** ** Locomotives *)
Lemma targets_app : forall a b, targets (a ++ b) = targets a ++ targets b.
Proof. intros. apply flat_map_app. Qed.
Lemma is_loco_eq : forall i e, is_loco i e = true <-> e = LRef (Some i).
Proof.
  intros i [[j|]|n]; simpl; split; try discriminate.
  - intros E. apply Nat.eqb_eq in E. subst. reflexivity.
  - intros E. inversion E. apply Nat.eqb_refl.
Qed.
Lemma in_targets : forall ls i, In i (targets ls) <-> In (LRef (Some i)) ls.
Proof.
  intros ls i. unfold targets. rewrite in_flat_map. split.
  - intros [[[j|]|n] [I H]]; simpl in H; try contradiction. destruct H as [->|[]]. exact I.
  - intros I. exists (LRef (Some i)). split; [exact I|left; reflexivity].
Qed.
Lemma existsb_loco : forall ls i, existsb (is_loco i) ls = true <-> In i (targets ls).
Proof.
  intros ls i. rewrite existsb_exists, in_targets. split.
  - intros [e [I E]]. apply is_loco_eq in E. subst. exact I.
  - intros I. exists (LRef (Some i)). split; [exact I|apply is_loco_eq; reflexivity].
Qed.
Theorem add_spec : forall locomotive ls i r, add_locomotive locomotive ls i = r <->
  (locomotive i = false /\ r = Err TypeError) \/
  (locomotive i = true /\ In i (targets ls) /\ r = Ok ls) \/
  (locomotive i = true /\ ~ In i (targets ls) /\ r = Ok (ls ++ [LRef (Some i)])).
Proof.
  intros locomotive ls i r. unfold add_locomotive. destruct (locomotive i).
  - destruct (existsb (is_loco i) ls) eqn:E.
    + apply existsb_loco in E. split; [intros <-; right; left; auto|]. intros [[X _]|[[_ [_ ->]]|[_ [X _]]]]; [discriminate|reflexivity|contradiction].
    + assert (N : ~ In i (targets ls)) by (rewrite <- existsb_loco; congruence).
      split; [intros <-; right; right; auto|]. intros [[X _]|[[_ [X _]]|[_ [_ ->]]]]; [discriminate|contradiction|reflexivity].
  - split; [intros <-; auto|]. intros [[_ ->]|[[X _]|[X _]]]; [reflexivity|discriminate|discriminate].
Qed.
Theorem remove_spec : forall ls i, 
  (forall r, remove_locomotive ls i = Ok r <-> first_removed (fun e => e = LRef (Some i)) ls r) /\
  (remove_locomotive ls i = Err ValueError <-> ~ In i (targets ls)) /\
  (In i (targets ls) -> exists r, remove_locomotive ls i = Ok r).
Proof.
  intros ls i. unfold remove_locomotive. destruct (remove_first (is_loco i) ls) as [r|] eqn:E.
  - split; [|split].
    + intros r'. split.
      * intros X. inversion X; subst. apply remove_first_some in E. revert E. apply first_removed_ext. apply is_loco_eq.
      * intros F. apply (first_removed_ext _ _ (fun x => is_loco i x = true)) in F; [|intros x; symmetry; apply is_loco_eq].
        apply remove_first_some in F. congruence.
    + split; [discriminate|]. intros N. exfalso. apply N. apply remove_first_some in E. destruct E as [pre [x [post [-> [X _]]]]].
      apply is_loco_eq in X. subst. apply in_targets. apply in_app_iff. right. left. reflexivity.
    + eauto.
  - rewrite remove_first_none in E. assert (N : ~ In i (targets ls)).
    { intros C. apply in_targets in C. apply E in C. assert (is_loco i (LRef (Some i)) = true) by (apply is_loco_eq; reflexivity). congruence. }
    split; [|split].
    + intros r. split; [discriminate|]. intros [pre [x [post [-> [-> _]]]]]. exfalso. apply N. apply in_targets. apply in_app_iff. right. left. reflexivity.
    + split; [intros _; exact N|reflexivity].
    + intros C. contradiction.
Qed.

Lemma lstep_spec : forall locomotive ls o, NoDup (targets ls) ->
  let ls' := lstep locomotive ls o in
  NoDup (targets ls') /\ filter not_live ls' = filter not_live ls /\
  forall i, In i (targets ls') <-> (o = AddLoco i /\ locomotive i = true) \/ (In i (targets ls) /\ o <> RemoveLoco i).
Proof.
  intros locomotive ls [k|k] N ls'; unfold ls', lstep.
  - pose proof (proj1 (add_spec locomotive ls k _) eq_refl) as S. destruct S as [[L S]|[[L [I S]]|[L [I S]]]]; rewrite S.
    + split; [exact N|]. split; [reflexivity|]. intros i. split; [intros X; right; split; [exact X|discriminate]|].
      intros [[X Y]|[X _]]; [inversion X; subst; congruence|exact X].
    + split; [exact N|]. split; [reflexivity|]. intros i. split; [intros X; right; split; [exact X|discriminate]|].
      intros [[X Y]|[X _]]; [inversion X; subst; exact I|exact X].
    + rewrite targets_app, filter_app. cbn [targets flat_map app filter not_live]. rewrite app_nil_r. split; [|split; [reflexivity|]].
      * apply (Permutation_NoDup (Permutation_cons_append _ _)). constructor; assumption.
      * intros i. rewrite in_app_iff. simpl. split.
        -- intros [X|[<-|[]]]; [right; split; [exact X|discriminate]|left; auto].
        -- intros [[X Y]|[X _]]; [inversion X; subst; right; left; reflexivity|left; exact X].
  - destruct (remove_spec ls k) as [R [V W]]. destruct (remove_locomotive ls k) as [r|e] eqn:E.
    + destruct (proj1 (R r) eq_refl) as [pre [x [post [-> [-> [NP ->]]]]]].
      rewrite !targets_app in *. cbn [targets flat_map app] in *. fold (targets post) in *.
      split; [apply NoDup_remove_1 with k; exact N|]. split; [rewrite !filter_app; reflexivity|].
      intros i. apply NoDup_remove_2 in N. rewrite !in_app_iff in *. simpl. split.
      * intros X. right. split; [tauto|]. intros C. inversion C; subst. contradiction.
      * intros [[C _]|[X Y]]; [discriminate|]. assert (k <> i) by congruence. tauto.
    + split; [exact N|]. split; [reflexivity|]. assert (NI : ~ In k (targets ls)). { intros C. apply W in C. destruct C. discriminate. }
      intros i. split.
      * intros X. right. split; [exact X|]. intros C. inversion C; subst. contradiction.
      * intros [[C _]|[X _]]; [discriminate|exact X].
Qed.
Lemma present_snoc : forall locomotive ops o i, present locomotive (ops ++ [o]) i <->
  (o = AddLoco i /\ locomotive i = true) \/ (present locomotive ops i /\ o <> RemoveLoco i).
Proof.
  intros locomotive ops o i. unfold present. split.
  - intros [L [pre [post [E N]]]]. destruct post as [|p post] using rev_ind.
    + apply app_inj_tail in E. destruct E as [-> ->]. left. auto.
    + clear IHpost. change (pre ++ AddLoco i :: post ++ [p]) with (pre ++ (AddLoco i :: post) ++ [p]) in E. rewrite app_assoc in E.
      apply app_inj_tail in E. destruct E as [-> ->]. right. split.
      * split; [exact L|]. exists pre, post. split; [reflexivity|]. intros C. apply N. apply in_app_iff. left. exact C.
      * intros ->. apply N. apply in_app_iff. right. left. reflexivity.
  - intros [[-> L]|[[L [pre [post [-> N]]]] D]]; (split; [exact L|]).
    + exists ops, []. split; [reflexivity|intros []].
    + exists pre, (post ++ [o]). rewrite <- app_assoc. split; [reflexivity|]. rewrite in_app_iff. intros [C|[C|[]]]; contradiction.
Qed.
Theorem lrun_spec : forall locomotive ops ls, NoDup (targets ls) ->
  NoDup (targets (lrun locomotive ls ops)) /\
  filter not_live (lrun locomotive ls ops) = filter not_live ls /\
  forall i, In i (targets (lrun locomotive ls ops)) <->
    present locomotive ops i \/ (In i (targets ls) /\ ~ In (RemoveLoco i) ops).
Proof.
  intros locomotive ops ls N. induction ops as [|o ops IH] using rev_ind.
  - cbn [lrun fold_left]. split; [exact N|]. split; [reflexivity|]. intros i. split; [intros X; right; split; [exact X|intros []]|].
    intros [[_ [pre [post [E _]]]]|[X _]]; [destruct pre; discriminate|exact X].
  - unfold lrun in *. rewrite fold_left_app. cbn [fold_left].
    destruct IH as [N1 [F1 M1]]. destruct (lstep_spec locomotive _ o N1) as [N2 [F2 M2]]. split; [exact N2|]. split; [congruence|].
    intros i. rewrite M2, M1, present_snoc, in_app_iff. simpl. split.
    + intros [X|[[X|[X Y]] D]]; [left; left; exact X|left; right; auto|]. right. split; [exact X|]. intros [C|[C|[]]]; [contradiction|congruence].
    + intros [[X|[X D]]|[X Y]]; [left; exact X|right; auto|]. right. split; [right; split; [exact X|tauto]|]. intros C. apply Y. right. left. exact C.
Qed.

(** ** Stops *)
Lemma opt_eqb_eq : forall a b, opt_eqb a b = true <-> a = b.
Proof. intros [a|] [b|]; simpl; split; try discriminate; try reflexivity; [intros E; apply Z.eqb_eq in E; congruence|intros E; inversion E; apply Z.eqb_refl]. Qed.
Lemma wc_eqb_eq : forall a b, wc_eqb a b = true <-> a = b.
Proof.
  intros [t1 a1 k1 c1] [t2 a2 k2 c2]. unfold wc_eqb. cbn [wc_type wc_and wc_ticks wc_cond].
  rewrite !andb_true_iff, pystr_eqb_eq, eqb_true_iff, opt_eqb_eq, Nat.eqb_eq. split.
  - intros [[[-> ->] ->] ->]. reflexivity.
  - intros E. inversion E. auto.
Qed.
Lemma wcs_eqb_eq : forall a b, wcs_eqb a b = true <-> a = b.
Proof.
  induction a as [|x a IH]; intros [|y b]; simpl; split; try discriminate; try reflexivity.
  - intros E. apply andb_true_iff in E. destruct E as [X Y]. apply wc_eqb_eq in X. apply IH in Y. congruence.
  - intros E. inversion E; subst. apply andb_true_iff. split; [apply wc_eqb_eq; reflexivity|apply IH; reflexivity].
Qed.
Lemma matches_spec : forall name w s, matches name w s = true <-> matching name w s.
Proof.
  intros name [|x|cs] s; unfold matches, matching; rewrite ?andb_true_iff, pystr_eqb_eq, ?wcs_eqb_eq; tauto.
Qed.
Theorem remove_stop_spec : forall l name w,
  (forall r, remove_stop l name w = Ok r <-> first_removed (matching name w) l r) /\
  (remove_stop l name w = Err ValueError <-> forall s, In s l -> ~ matching name w s) /\
  ((exists s, In s l /\ matching name w s) -> exists r, remove_stop l name w = Ok r).
Proof.
  intros l name w. unfold remove_stop. destruct (remove_first (matches name w) l) as [r|] eqn:E.
  - split; [|split; [|eauto]].
    + intros r'. split.
      * intros X. inversion X; subst. apply remove_first_some in E. revert E. apply first_removed_ext. apply matches_spec.
      * intros F. apply (first_removed_ext _ _ (fun x => matches name w x = true)) in F; [|intros x; symmetry; apply matches_spec].
        apply remove_first_some in F. congruence.
    + split; [discriminate|]. intros N. exfalso. apply remove_first_some in E. destruct E as [pre [x [post [-> [X _]]]]].
      apply (N x); [apply in_app_iff; right; left; reflexivity|apply matches_spec; exact X].
  - rewrite remove_first_none in E.
    assert (N : forall s, In s l -> ~ matching name w s). { intros s I M. apply matches_spec in M. rewrite E in M by exact I. discriminate. }
    split; [|split].
    + intros r. split; [discriminate|]. intros [pre [x [post [-> [X _]]]]]. exfalso. apply (N x); [apply in_app_iff; right; left; reflexivity|exact X].
    + split; [intros _; exact N|reflexivity].
    + intros [s [I M]]. exfalso. exact (N s I M).
Qed.
Theorem insert_stop_spec : forall l index name w i, place (length l) index i ->
  insert_stop l index name w = firstn i l ++ new_stop name w :: skipn i l.
Proof.
  intros l index name w i P. unfold insert_stop, new_stop, py_insert.
  assert (E : Z.to_nat (if (index <? 0)%Z then Z.max 0 (index + Z.of_nat (length l)) else Z.min index (Z.of_nat (length l))) = i).
  { unfold place in P. destruct (Z.ltb_spec index 0); lia. }
  rewrite E. destruct w; reflexivity.
Qed.
Lemma place_exists : forall n index, exists i, place n index i /\ i <= n.
Proof.
  intros n index. unfold place.
  destruct (Z_lt_le_dec index 0); [destruct (Z_lt_le_dec index (- Z.of_nat n))|destruct (Z_lt_le_dec index (Z.of_nat n))].
  - exists O. lia.
  - exists (Z.to_nat (index + Z.of_nat n)). lia.
  - exists (Z.to_nat index). lia.
  - exists n. lia.
Qed.
Theorem append_stop_spec : forall l name w, append_stop l name w = l ++ [new_stop name w].
Proof.
  intros l name w. unfold append_stop. rewrite (insert_stop_spec l _ name w (length l)); [|left; lia].
  rewrite firstn_all, skipn_all. reflexivity.
Qed.

Lemma repeat_shift : forall A (x y : A) b, b ++ [x] = y :: b -> b = repeat x (length b) /\ y = x.
Proof.
  intros A x y b. revert y. induction b as [|z b IH]; intros y E; cbn [app] in E.
  - inversion E. auto.
  - injection E as Ey E. destruct (IH z E) as [R Z]. split; [cbn [length repeat]; rewrite <- R, Z; reflexivity|congruence].
Qed.
Lemma repeat_snoc : forall A (x : A) m, repeat x m ++ [x] = x :: repeat x m.
Proof. intros A x m. induction m; simpl; [reflexivity|]. rewrite IHm. reflexivity. Qed.
Lemma restored : forall A (P : A -> Prop) (x : A) pre post r, (forall y, P y \/ ~ P y) -> P x ->
  first_removed P (pre ++ x :: post) r ->
  (r = pre ++ post <-> exists a m, pre = a ++ repeat x m /\ forall y, In y a -> ~ P y).
Proof.
  intros A P x pre post r D Px [a [y [b [E [Py [N ->]]]]]].
  assert (K : (pre = a /\ y = x /\ b = post) \/ exists c, pre = a ++ y :: c /\ b = c ++ x :: post).
  { clear - E Py N Px. revert a E N. induction pre as [|z pre IH]; intros [|u a] E N; cbn [app] in E.
    - inversion E; subst. auto.
    - inversion E; subst. exfalso. apply (N u); [left; reflexivity|exact Px].
    - inversion E; subst. right. exists pre. auto.
    - inversion E; subst. destruct (IH a) as [[-> [-> ->]]|[c [-> ->]]]; [assumption|intros v I; apply N; right; exact I|left; auto|right; exists c; auto]. }
  destruct K as [[-> [-> ->]]|[c [-> ->]]].
  - split; [|reflexivity]. intros _. exists a, O. simpl. rewrite app_nil_r. auto.
  - split.
    + intros R. rewrite <- app_assoc in R. apply app_inv_head in R. cbn [app] in R.
      change (c ++ x :: post) with (c ++ [x] ++ post) in R. rewrite app_assoc in R.
      change (y :: c ++ post) with ((y :: c) ++ post) in R. apply app_inv_tail in R.
      apply repeat_shift in R. destruct R as [R ->]. exists a, (S (length c)). simpl. rewrite <- R. auto.
    + intros [a' [m [R N']]].
      (* the first match inside [a ++ y :: c] is where the repetition starts *)
      assert (Q : a' = a /\ y :: c = repeat x m).
      { clear E. revert a' R N'. induction a as [|z a IHa]; intros [|u a'] R N'; cbn [app] in R.
        - auto.
        - inversion R; subst. exfalso. apply (N' u); [left; reflexivity|exact Py].
        - destruct m; simpl in R; [discriminate|]. inversion R; subst. exfalso. apply (N x); [left; reflexivity|exact Px].
        - inversion R; subst. destruct (IHa (fun v I => N v (or_intror I)) a') as [-> Q]; [assumption|intros v I; apply N'; right; exact I|auto]. }
      destruct Q as [-> Q]. destruct m; simpl in Q; [discriminate|]. inversion Q; subst.
      rewrite <- !app_assoc. f_equal. cbn [app]. change (repeat x m ++ x :: post) with (repeat x m ++ [x] ++ post).
      rewrite app_assoc, repeat_snoc. reflexivity.
Qed.
Lemma matching_dec : forall name w s, matching name w s \/ ~ matching name w s.
Proof. intros name w s. rewrite <- matches_spec. destruct (matches name w s); [left|right]; congruence. Qed.
Lemma matching_new : forall name w, matching name w (new_stop name w).
Proof. intros name [|x|cs]; split; reflexivity. Qed.
Theorem insert_remove : forall l index name w i, place (length l) index i ->
  (remove_stop (insert_stop l index name w) name w = Ok l <->
   exists a m, firstn i l = a ++ repeat (new_stop name w) m /\ forall s, In s a -> ~ matching name w s).
Proof.
  intros l index name w i P. rewrite (insert_stop_spec l index name w i P).
  destruct (remove_stop_spec (firstn i l ++ new_stop name w :: skipn i l) name w) as [R [_ X]].
  destruct X as [r E]. { exists (new_stop name w). split; [apply in_app_iff; right; left; reflexivity|apply matching_new]. }
  pose proof (proj1 (R r) E) as F. apply restored in F; [|apply matching_dec|apply matching_new].
  rewrite firstn_skipn in F. rewrite E. rewrite <- F. split; [intros Q; inversion Q; reflexivity|intros ->; reflexivity].
Qed.
Theorem insert_remove_same : forall l index name w, w <> NoConds ->
  exists r, remove_stop (insert_stop l index name w) name w = Ok r /\ Permutation r l.
Proof.
  intros l index name w NC. destruct (place_exists (length l) index) as [i [P _]]. rewrite (insert_stop_spec l index name w i P).
  destruct (remove_stop_spec (firstn i l ++ new_stop name w :: skipn i l) name w) as [R [_ X]].
  destruct X as [r E]. { exists (new_stop name w). split; [apply in_app_iff; right; left; reflexivity|apply matching_new]. }
  exists r. split; [exact E|]. apply R in E. destruct E as [pre [y [post [E [Y [_ ->]]]]]].
  assert (YX : y = new_stop name w). { destruct Y as [Y1 Y2]. destruct y as [st cs]. cbn [station conds] in *. destruct w; [contradiction| |]; subst; reflexivity. }
  subst y. apply (Permutation_cons_inv (a := new_stop name w)).
  rewrite Permutation_middle, <- E, <- Permutation_middle, firstn_skipn. reflexivity.
Qed.
