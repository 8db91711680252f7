(** Proofs about lists in lists. *)
From Coq Require Import ZArith List Bool Lia Permutation.
From Verif Require Import Common Dict Spatial_Model Nest_Model Nest_Spec.
From Verif Require Spatial_Spec Spatial_Proofs.
Import ListNotations.
Local Open Scope Z_scope.

Lemma node_ind' (P : node -> Prop) : (forall o k p b, P (Leaf o k p b)) ->
  (forall o p ms ix, Forall P ms -> P (Group o p ms ix)) -> forall n, P n.
Proof.
  intros HL HG. fix F 1. intros [o k p b|o p ms ix]; [apply HL|]. apply HG. induction ms as [|m ms IH]; constructor; [apply F|exact IH].
Qed.

(** Equality of things. *)
Lemma pt_eqb_eq a b : pt_eqb a b = true <-> a = b.
Proof.
  unfold pt_eqb. rewrite andb_true_iff, !Z.eqb_eq. destruct a, b; cbn. split; [intros [-> ->]; reflexivity|intros H; injection H as -> ->; split; reflexivity].
Qed.
Lemma same_iff a b : same a b = true <-> t_kind a = t_kind b /\ t_place a = t_place b.
Proof. unfold same. rewrite andb_true_iff, Z.eqb_eq, pt_eqb_eq. reflexivity. Qed.
Lemma same_refl a : same a a = true.
Proof. apply same_iff. split; reflexivity. Qed.
Lemma same_sym a b : same a b = same b a.
Proof.
  destruct (same a b) eqn:E, (same b a) eqn:F; try reflexivity.
  - apply same_iff in E as [E1 E2]. assert (same b a = true) by (apply same_iff; split; congruence). congruence.
  - apply same_iff in F as [E1 E2]. assert (same a b = true) by (apply same_iff; split; congruence). congruence.
Qed.
Lemma same_cong a b c : same a b = true -> same c a = same c b.
Proof.
  intros H. apply same_iff in H as [K P]. unfold same. rewrite K, P. reflexivity.
Qed.

(** Tallies. *)
Lemma tally_app f a b : tally f (a ++ b) = (tally f a + tally f b)%nat.
Proof. unfold tally. rewrite filter_app, app_length. reflexivity. Qed.
Lemma tally_cons f x l : tally f (x :: l) = ((if f x then 1 else 0) + tally f l)%nat.
Proof. unfold tally. cbn. destruct (f x); reflexivity. Qed.
Lemma tally_perm f a b : Permutation a b -> tally f a = tally f b.
Proof. intros H. induction H; rewrite ?tally_cons; lia. Qed.
Lemma tally_drop x l t : tally (same x) (Spatial_Spec.drop_first same l t)
  = (tally (same x) l - if same x t && Nat.ltb 0 (tally (same t) l) then 1 else 0)%nat.
Proof.
  induction l as [|y l IH]; [cbn; destruct (same x t); reflexivity|]. cbn [Spatial_Spec.drop_first]. destruct (same y t) eqn:E.
  - rewrite !tally_cons. rewrite (same_sym t y), E. rewrite (same_cong y t x E). cbn [Nat.add Nat.ltb Nat.leb].
    rewrite andb_true_r. destruct (same x t); lia.
  - rewrite !tally_cons, IH. rewrite (same_sym t y), E. cbn [Nat.add].
    destruct (same x t) eqn:X; cbn [andb]; [|lia].
    assert (Y : same x y = false).
    { rewrite (same_sym x y). rewrite <- E. apply same_cong. exact X. }
    rewrite Y. lia.
Qed.
Lemma filter_perm (f : thing -> bool) a b : Permutation a b -> Permutation (filter f a) (filter f b).
Proof.
  intros H. induction H; cbn.
  - constructor.
  - destruct (f x); [constructor|]; assumption.
  - destruct (f x), (f y); try constructor; apply Permutation_refl.
  - eapply Permutation_trans; eassumption.
Qed.
Lemma filter_and (f g : thing -> bool) l : filter (fun t => f t && g t) l = filter f (filter g l).
Proof. induction l as [|x l IH]; [reflexivity|]. cbn. destruct (g x); cbn; [destruct (f x); cbn; rewrite IH; reflexivity|rewrite andb_false_r; exact IH]. Qed.
Lemma distinct_cons t l : distinct (t :: l) <-> (forall x, In x l -> same t x = false) /\ distinct l.
Proof.
  unfold distinct. split.
  - intros H. inversion H as [|a b F G]; subst. rewrite Forall_forall in F. split; assumption.
  - intros [F G]. constructor; [apply Forall_forall; exact F|exact G].
Qed.
Lemma distinct_perm a b : Permutation a b -> distinct a -> distinct b.
Proof.
  intros H. induction H; intros D.
  - exact D.
  - apply distinct_cons in D as [F D]. apply distinct_cons. split; [|auto]. intros y I. apply F. eapply Permutation_in; [apply Permutation_sym|]; eassumption.
  - apply distinct_cons in D as [F D]. apply distinct_cons in D as [G D]. apply distinct_cons. split.
    + intros z [<-|I]; [rewrite same_sym; apply F; left; reflexivity|apply G, I].
    + apply distinct_cons. split; [intros z I; apply F; right; exact I|exact D].
  - auto.
Qed.
Lemma distinct_app a b : distinct (a ++ b) -> distinct a /\ distinct b.
Proof.
  induction a as [|x a IH]; cbn [app]; intros D.
  - split; [constructor|exact D].
  - apply distinct_cons in D as [F D]. destruct (IH D) as [A B]. split; [|exact B]. apply distinct_cons. split; [|exact A].
    intros y I. apply F, in_app_iff. left. exact I.
Qed.
Lemma drop_split l t : tally (same t) l <> 0%nat -> exists a x b, l = a ++ x :: b /\ same x t = true /\ Spatial_Spec.drop_first same l t = a ++ b.
Proof.
  induction l as [|y l IH]; [cbn; congruence|]. cbn [Spatial_Spec.drop_first]. destruct (same y t) eqn:E; intros N.
  - exists [], y, l. repeat split. exact E.
  - rewrite tally_cons, (same_sym t y), E in N. destruct (IH N) as [a [x [b [-> [X D]]]]]. exists (y :: a), x, b. repeat split; [exact X|].
    rewrite D. reflexivity.
Qed.

(** The map. *)
Definition ok (ix : index) : Prop := NoDup (map fst ix) /\ forall c l, cell_get ix c = Some l -> l <> [].
Section S.
  Variables cs eps : Z.
  Hypothesis Hcs : 0 < cs.
  Notation touches := (touches cs eps).
  Lemma cells_touch d t c : In c (cells_of_box cs eps (placed d t)) <-> touches d c t = true.
  Proof.
    unfold placed, Nest_Spec.touches. destruct (t_box t) as [b|]; cbn [option_map]; [|cbn; split; [intros []|discriminate]].
    rewrite (Spatial_Proofs.cells_spec cs eps Hcs). unfold Spatial_Spec.touches, shift_box, plus. cbn [bl br bt bb fst snd].
    rewrite !andb_true_iff, !Z.ltb_lt, !Z.leb_le. tauto.
  Qed.
  Lemma cells_touch_if {A} d t c (x y : A) :
    (if in_dec Spatial_Proofs.cell_dec c (cells_of_box cs eps (placed d t)) then x else y) = if touches d c t then x else y.
  Proof.
    pose proof (cells_touch d t c) as E. destruct (in_dec _ c _) as [I|I]; destruct (touches d c t); try reflexivity.
    - apply E in I. discriminate.
    - destruct I. apply E. reflexivity.
  Qed.
  Lemma add_one d ix t : ok ix -> ok (sm_add cs eps (placed d) ix t)
    /\ forall c, in_cell (sm_add cs eps (placed d) ix t) c = in_cell ix c ++ if touches d c t then [t] else [].
  Proof.
    intros [N E]. destruct (Spatial_Proofs.add_fold t (cells_of_box cs eps (placed d t)) ix (Spatial_Proofs.cells_nodup cs eps _) N) as [K1 K2].
    split; [split; [exact K1|]|].
    - intros c l. unfold sm_add. rewrite K2, cells_touch_if. destruct (touches d c t); [|apply E].
      intros H X. subst l. injection H as H. destruct (cell_get ix c) as [[|]|]; discriminate H.
    - intros c. unfold in_cell, sm_add. rewrite K2, cells_touch_if. destruct (touches d c t); [reflexivity|rewrite app_nil_r; reflexivity].
  Qed.
  Lemma remove_one d ix t : ok ix -> ok (sm_remove cs eps (placed d) same ix t)
    /\ forall c, in_cell (sm_remove cs eps (placed d) same ix t) c =
         if touches d c t then Spatial_Spec.drop_first same (in_cell ix c) t else in_cell ix c.
  Proof.
    intros [N E]. destruct (Spatial_Proofs.remove_fold same t (cells_of_box cs eps (placed d t)) ix (Spatial_Proofs.cells_nodup cs eps _) N E) as [K1 K2].
    split; [split; [exact K1|]|].
    - intros c l. unfold sm_remove. rewrite K2, cells_touch_if. destruct (touches d c t); [|apply E].
      intros H X. subst l. destruct (Spatial_Spec.drop_first _ _ _); discriminate H.
    - intros c. unfold in_cell, sm_remove. rewrite K2, cells_touch_if. destruct (touches d c t); [|reflexivity].
      destruct (Spatial_Spec.drop_first _ _ _); reflexivity.
  Qed.
  (** Nodes are added and removed thing by thing. *)
  Lemma add_flat d n : forall r ix, add_node cs eps d r ix n = fold_left (sm_add cs eps (placed d)) (standing r n) ix.
  Proof.
    induction n as [o k p b|o p ms jx IH] using node_ind'; intros r ix; [reflexivity|]. cbn [add_node standing].
    change (fst r + fst p, snd r + snd p) with (plus r p). revert ix. induction ms as [|m ms IHm]; intros ix; [reflexivity|].
    inversion IH as [|x y P Q]; subst. cbn [flat_map]. rewrite fold_left_app, <- P. apply IHm. exact Q.
  Qed.
  Lemma remove_flat d n : forall r ix, remove_node cs eps d r ix n = fold_left (sm_remove cs eps (placed d) same) (standing r n) ix.
  Proof.
    induction n as [o k p b|o p ms jx IH] using node_ind'; intros r ix; [reflexivity|]. cbn [remove_node standing].
    change (fst r + fst p, snd r + snd p) with (plus r p). revert ix. induction ms as [|m ms IHm]; intros ix; [reflexivity|].
    inversion IH as [|x y P Q]; subst. cbn [flat_map]. rewrite fold_left_app, <- P. apply IHm. exact Q.
  Qed.
  Lemma add_all d l : forall ix, ok ix -> ok (fold_left (sm_add cs eps (placed d)) l ix)
    /\ forall c, in_cell (fold_left (sm_add cs eps (placed d)) l ix) c = in_cell ix c ++ filter (touches d c) l.
  Proof.
    induction l as [|t l IH]; intros ix O; cbn [fold_left filter].
    - split; [exact O|]. intros c. rewrite app_nil_r. reflexivity.
    - destruct (add_one d ix t O) as [O' C]. destruct (IH _ O') as [O'' C']. split; [exact O''|]. intros c. rewrite C', C.
      destruct (touches d c t); [rewrite <- app_assoc; reflexivity|rewrite app_nil_r; reflexivity].
  Qed.

  (** Maps of lists of things. *)
  Definition faithful' (d : zpt) (l : list thing) (ix : index) : Prop :=
    forall x c, tally (same x) (in_cell ix c) = tally (fun t => same x t && touches d c t) l.
  Definition exact' (d : zpt) (l : list thing) (ix : index) : Prop :=
    forall c, Permutation (in_cell ix c) (filter (touches d c) l).
  Lemma faithful_perm d l l' ix : Permutation l l' -> faithful' d l ix -> faithful' d l' ix.
  Proof. intros P F x c. rewrite (F x c). apply tally_perm, P. Qed.
  Lemma exact_perm d l l' ix : Permutation l l' -> exact' d l ix -> exact' d l' ix.
  Proof. intros P F c. eapply Permutation_trans; [apply F|apply filter_perm, P]. Qed.
  Lemma exact_faithful d l ix : exact' d l ix -> faithful' d l ix.
  Proof. intros F x c. rewrite (tally_perm _ _ _ (F c)). unfold tally. rewrite filter_and. reflexivity. Qed.
  Lemma faithful_add d l k ix : ok ix -> faithful' d l ix -> faithful' d (l ++ k) (fold_left (sm_add cs eps (placed d)) k ix).
  Proof.
    intros O F x c. rewrite (proj2 (add_all d k ix O) c), !tally_app, (F x c). unfold tally. rewrite !filter_and. reflexivity.
  Qed.
  Lemma exact_add d l k ix : ok ix -> exact' d l ix -> exact' d (l ++ k) (fold_left (sm_add cs eps (placed d)) k ix).
  Proof.
    intros O F c. rewrite (proj2 (add_all d k ix O) c), filter_app. apply Permutation_app_tail, F.
  Qed.
  Lemma faithful_remove d k : forall l ix, ok ix -> faithful' d (k ++ l) ix ->
    ok (fold_left (sm_remove cs eps (placed d) same) k ix) /\ faithful' d l (fold_left (sm_remove cs eps (placed d) same) k ix).
  Proof.
    induction k as [|t k IH]; intros l ix O F; cbn [fold_left]; [split; assumption|].
    destruct (remove_one d ix t O) as [O' C]. apply IH; [exact O'|]. intros x c. rewrite C.
    pose proof (F x c) as Fx. pose proof (F t c) as Ft. cbn [app] in Fx, Ft. rewrite tally_cons in Fx, Ft. rewrite same_refl in Ft.
    destruct (touches d c t) eqn:T; [|rewrite andb_false_r in Fx; exact Fx].
    rewrite tally_drop. cbn [andb] in Ft. rewrite andb_true_r in Fx.
    destruct (same x t) eqn:X; cbn [andb] in *; [|lia]. destruct (Nat.ltb_spec 0 (tally (same t) (in_cell ix c))); lia.
  Qed.
  Lemma exact_remove d k : forall l ix, ok ix -> distinct (k ++ l) -> exact' d (k ++ l) ix ->
    ok (fold_left (sm_remove cs eps (placed d) same) k ix) /\ exact' d l (fold_left (sm_remove cs eps (placed d) same) k ix).
  Proof.
    induction k as [|t k IH]; intros l ix O D F; cbn [fold_left]; [split; assumption|].
    cbn [app] in D, F. apply distinct_cons in D as [D1 D2].
    destruct (remove_one d ix t O) as [O' C]. apply IH; [exact O'|exact D2|]. intros c. rewrite C.
    pose proof (F c) as Fc. cbn [filter] in Fc. destruct (touches d c t) eqn:T; [|exact Fc].
    destruct (drop_split (in_cell ix c) t) as [a [x [b [E [X Y]]]]].
    { rewrite (tally_perm _ _ _ Fc), tally_cons, same_refl. discriminate. }
    rewrite Y. rewrite E in Fc.
    assert (Z1 : x = t).
    { assert (I : In x (t :: filter (touches d c) (k ++ l))) by (eapply Permutation_in; [exact Fc|apply in_elt]).
      destruct I as [I|I]; [congruence|]. apply filter_In in I as [I _]. pose proof (D1 x I) as N. rewrite same_sym in N. congruence. }
    subst x. apply Permutation_cons_inv with (a := t).
    eapply Permutation_trans; [apply Permutation_middle|exact Fc].
  Qed.

  (** Members. *)
  Lemma standing_mid a n b : Permutation (all_standing (a ++ n :: b)) (standing (0, 0) n ++ all_standing (a ++ b)).
  Proof.
    unfold all_standing. rewrite !flat_map_app. cbn [flat_map]. rewrite app_assoc.
    eapply Permutation_trans; [apply Permutation_app_tail, Permutation_app_comm|]. rewrite <- app_assoc. apply Permutation_refl.
  Qed.
  Lemma insert_mid (ms : list node) idx n : exists a b, ms = a ++ b /\ py_insert ms idx n = a ++ n :: b.
  Proof.
    unfold py_insert. eexists _, _. split; [symmetry; apply firstn_skipn|reflexivity].
  Qed.
  Lemma remove_mid {A} (ms : list A) i n : nth_error ms i = Some n -> exists a b, length a = i /\ ms = a ++ n :: b /\ remove_nth ms i = a ++ b
    /\ forall m, replace_nth ms i m = a ++ m :: b.
  Proof.
    revert i. induction ms as [|x ms IH]; intros [|i] H; cbn in H; try discriminate.
    - injection H as ->. exists [], ms. repeat split.
    - destruct (IH i H) as [a [b [L [-> [R S]]]]]. exists (x :: a), b. cbn. rewrite L, R. repeat split. intros m. rewrite S. reflexivity.
  Qed.
  Definition good (off : zpt) (s : state) : Prop := ok (snd s) /\ faithful' off (all_standing (fst s)) (snd s).
  Lemma empty_good off : good off ([], []).
  Proof. split; [split; [constructor|discriminate]|]. intros x c. reflexivity. Qed.
  Lemma insert_good d s idx n : good d s -> good d (fst (insert cs eps s idx d n)).
  Proof.
    intros [O F]. cbn [insert fst]. destruct (insert_mid (fst s) idx n) as [a [b [E ->]]]. split; cbn [snd fst]; rewrite add_flat.
    - apply add_all, O.
    - eapply faithful_perm; [|apply faithful_add; [exact O|exact F]].
      rewrite E. eapply Permutation_trans; [apply Permutation_app_comm|]. apply Permutation_sym, standing_mid.
  Qed.
  Lemma step_good off s o : plain off o -> good off s -> good off (fst (step cs eps off s o)).
  Proof.
    intros P G. destruct o as [idx d n|idx|idx d n| |q]; cbn [step plain] in *.
    - subst d. apply insert_good, G.
    - unfold delete. destruct (fst s) as [|m ms] eqn:E; [exact G|]. rewrite <- E. set (i := Z.to_nat _).
      destruct (nth_error (fst s) i) as [n|] eqn:N; [|exact G]. destruct (remove_mid _ _ _ N) as [a [b [_ [A [B _]]]]].
      cbn [fst]. rewrite B. unfold good. cbn [fst snd]. rewrite remove_flat. destruct G as [O F].
      apply faithful_remove; [exact O|]. eapply faithful_perm; [|exact F]. rewrite A. apply standing_mid.
    - subst d. unfold replace. destruct (py_pos _ _) as [i|]; [|exact G]. destruct (nth_error (fst s) i) as [m|] eqn:N; [|exact G].
      destruct (remove_mid _ _ _ N) as [a [b [_ [A [_ B]]]]]. cbn [fst]. rewrite (B n). destruct G as [O F].
      unfold good. cbn [fst snd]. rewrite add_flat, remove_flat.
      destruct (faithful_remove off (standing (0, 0) m) (all_standing (a ++ b)) (snd s) O) as [O' F'].
      { eapply faithful_perm; [|exact F]. rewrite A. apply standing_mid. }
      split; [apply add_all, O'|]. eapply faithful_perm; [|apply faithful_add; [exact O'|exact F']].
      eapply Permutation_trans; [apply Permutation_app_comm|]. apply Permutation_sym, standing_mid.
    - apply empty_good.
    - destruct P.
  Qed.
  Definition own (ops : list op) : list (list nat * op) := map (fun o => ([], o)) ops.
  Lemma run_good off ops : Forall (plain off) ops -> good off (run cs eps off (own ops) ([], [])).
  Proof.
    intros F. assert (G : good off ([], [])) by apply empty_good. revert G. generalize (([], []) : state).
    induction ops as [|o ops IH]; intros s G; [exact G|]. inversion F; subst.
    change (run cs eps off (own (o :: ops)) s) with (run cs eps off (own ops) (fst (step cs eps off s o))).
    apply IH; [assumption|]. apply step_good; assumption.
  Qed.
  Lemma run_index off ops s : Forall (plain off) ops -> s = run cs eps off (own ops) ([], []) ->
    faithful cs eps off (fst s) (snd s) /\ forall c, cell_get (snd s) c <> Some [].
  Proof.
    intros F ->. destruct (run_good off ops F) as [[_ O] G]. split; [exact G|]. intros c H. exact (O _ _ H eq_refl).
  Qed.
  (** Things that come without a parent are put where they would be at the origin. *)
  Lemma run_brought off ops s : Forall brings ops -> s = run cs eps off (own ops) ([], []) -> faithful cs eps (0, 0) (fst s) (snd s).
  Proof.
    intros F ->. assert (G : good (0, 0) ([], [])) by apply empty_good. apply proj2 with (A := ok (snd (run cs eps off (own ops) ([], [])))).
    fold (good (0, 0) (run cs eps off (own ops) ([], []))). revert G. generalize (([], []) : state).
    induction ops as [|o ops IH]; intros s G; [exact G|]. inversion F as [|o' ops' B F']; subst.
    change (run cs eps off (own (o :: ops)) s) with (run cs eps off (own ops) (fst (step cs eps off s o))).
    apply IH; [assumption|]. destruct o as [idx d n| | | |]; cbn [brings] in B; try contradiction. subst d. apply insert_good, G.
  Qed.

  (** By objects. *)
  Definition fine (off : zpt) (used : list thing) (s : state) : Prop :=
    ok (snd s) /\ exact' off (all_standing (fst s)) (snd s) /\ exists rest, Permutation used (all_standing (fst s) ++ rest).
  Lemma add_fine off used s a b n : fst s = a ++ b -> fine off used s -> fine off (used ++ standing (0, 0) n)
    (a ++ n :: b, add_node cs eps off (0, 0) (snd s) n).
  Proof.
    intros E [O [F [r R]]]. unfold fine. cbn [fst snd]. rewrite add_flat. split; [apply add_all, O|]. split.
    - eapply exact_perm; [|apply exact_add; [exact O|exact F]]. rewrite E.
      eapply Permutation_trans; [apply Permutation_app_comm|]. apply Permutation_sym, standing_mid.
    - exists r. eapply Permutation_trans; [apply Permutation_app_tail, R|]. rewrite E.
      eapply Permutation_trans; [apply Permutation_app_comm|]. rewrite app_assoc. apply Permutation_app_tail.
      apply Permutation_sym, standing_mid.
  Qed.
  Lemma remove_fine off used s a b n : distinct used -> fst s = a ++ n :: b -> fine off used s ->
    fine off used (a ++ b, remove_node cs eps off (0, 0) (snd s) n).
  Proof.
    intros D E [O [F [r R]]]. unfold fine. cbn [fst snd]. rewrite remove_flat.
    destruct (exact_remove off (standing (0, 0) n) (all_standing (a ++ b)) (snd s) O) as [O' F'].
    - apply (distinct_perm (all_standing (fst s))); [rewrite E; apply standing_mid|].
      exact (proj1 (distinct_app _ r (distinct_perm _ _ R D))).
    - eapply exact_perm; [|exact F]. rewrite E. apply standing_mid.
    - split; [exact O'|split; [exact F'|]]. exists (standing (0, 0) n ++ r). eapply Permutation_trans; [exact R|].
      rewrite E. eapply Permutation_trans; [apply Permutation_app_tail, standing_mid|].
      rewrite app_assoc. apply Permutation_app_tail, Permutation_app_comm.
  Qed.
  Lemma step_fine off used s o : plain off o -> distinct (used ++ brought o) -> fine off used s ->
    fine off (used ++ brought o) (fst (step cs eps off s o)).
  Proof.
    intros P D G. destruct o as [idx d n|idx|idx d n| |q]; cbn [step plain brought] in *.
    - subst d. cbn [insert fst]. destruct (insert_mid (fst s) idx n) as [a [b [E ->]]]. apply add_fine; assumption.
    - rewrite app_nil_r in *. unfold delete. destruct (fst s) as [|m ms] eqn:E; [exact G|]. rewrite <- E. set (i := Z.to_nat _).
      destruct (nth_error (fst s) i) as [n|] eqn:N; [|exact G]. destruct (remove_mid _ _ _ N) as [a [b [_ [A [B _]]]]].
      cbn [fst]. rewrite B. apply remove_fine; assumption.
    - subst d. unfold replace.
      assert (K : fine off (used ++ standing (0, 0) n) s).
      { destruct G as [O [F [r R]]]. split; [exact O|split; [exact F|]]. exists (r ++ standing (0, 0) n).
        rewrite app_assoc. apply Permutation_app_tail, R. }
      destruct (py_pos _ _) as [i|]; [|exact K]. destruct (nth_error (fst s) i) as [m|] eqn:N; [|exact K].
      destruct (remove_mid _ _ _ N) as [a [b [_ [A [_ B]]]]]. cbn [fst]. rewrite (B n).
      apply (add_fine off used (a ++ b, remove_node cs eps off (0, 0) (snd s) m) a b n eq_refl).
      apply remove_fine; [exact (proj1 (distinct_app _ _ D))|exact A|exact G].
    - rewrite app_nil_r in *. split; [split; [constructor|discriminate]|]. split; [intros c; constructor|]. exists used. apply Permutation_refl.
    - destruct P.
  Qed.
  Lemma run_exact off ops s : Forall (plain off) ops -> distinct (flat_map brought ops) -> s = run cs eps off (own ops) ([], []) ->
    exact cs eps off (fst s) (snd s).
  Proof.
    intros F D ->.
    assert (G : fine off [] ([], [])).
    { split; [split; [constructor|discriminate]|]. split; [intros c; constructor|]. exists []. constructor. }
    assert (K : exists used, fine off used (run cs eps off (own ops) ([], []))); [|destruct K as [u [_ [K _]]]; exact K].
    revert G. change (distinct ([] ++ flat_map brought ops)) in D. revert D. generalize (([], []) : state). generalize ([] : list thing).
    induction ops as [|o ops IH]; intros used s D G; [exists used; exact G|]. inversion F; subst.
    change (run cs eps off (own (o :: ops)) s) with (run cs eps off (own ops) (fst (step cs eps off s o))).
    cbn [flat_map] in D. rewrite app_assoc in D.
    apply (IH ltac:(assumption) (used ++ brought o)); [exact D|]. apply step_fine; [assumption|exact (proj1 (distinct_app _ _ D))|exact G].
  Qed.
End S.
