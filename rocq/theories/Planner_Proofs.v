(** Lemmas about upgrade planner mappings. *)
From Coq Require Import ZArith List Bool Lia Sorted.
From Verif Require Import Common Dict Planner_Model Planner_Spec.
Import ListNotations.
Local Open Scope Z_scope.

Lemma first_index_split : forall A (p : A -> bool) l k, first_index p l = Some k ->
  exists a x b, l = a ++ x :: b /\ length a = k /\ p x = true /\ Forall (fun y => p y = false) a.
Proof.
  intros A p. induction l as [|x l IH]; intros k E; cbn [first_index] in E; [discriminate|].
  destruct (p x) eqn:P.
  - inversion E; subst. exists [], x, l. repeat split; auto.
  - destruct (first_index p l) as [j|]; [|discriminate]. inversion E; subst.
    destruct (IH j eq_refl) as [a [y [b [-> [L [Q F]]]]]]. exists (x :: a), y, b.
    repeat split; cbn [length]; auto.
Qed.
Lemma first_index_none : forall A (p : A -> bool) l, first_index p l = None -> Forall (fun y => p y = false) l.
Proof.
  intros A p. induction l as [|x l IH]; intros E; cbn [first_index] in E; [constructor|].
  destruct (p x) eqn:P; [discriminate|]. destruct (first_index p l); [discriminate|]. constructor; auto.
Qed.
Lemma replace_nth_mid : forall A (a : list A) x b y, replace_nth (a ++ x :: b) (length a) y = a ++ y :: b.
Proof. induction a as [|z a IH]; intros; cbn; [reflexivity|]. now rewrite IH. Qed.
Lemma remove_nth_mid : forall A (a : list A) x b, remove_nth (a ++ x :: b) (length a) = a ++ b.
Proof. induction a as [|z a IH]; intros; cbn; [reflexivity|]. now rewrite IH. Qed.
Lemma nth_error_mid : forall A (a : list A) x b, nth_error (a ++ x :: b) (length a) = Some x.
Proof. intros. rewrite nth_error_app2 by lia. now rewrite Nat.sub_diag. Qed.

Lemma mid_eqb_eq : forall a b, mid_eqb a b = true <-> a = b.
Proof.
  intros [a1 a2] [b1 b2]. unfold mid_eqb. cbn [fst snd]. rewrite andb_true_iff, !pystr_eqb_eq.
  split; [intros [-> ->]; reflexivity|]. intros E. inversion E. auto.
Qed.
Lemma side_eqb_eq : forall a b, side_eqb a b = true <-> a = b.
Proof.
  intros [a|] [b|]; cbn [side_eqb]; try (split; congruence).
  rewrite mid_eqb_eq. split; congruence.
Qed.

(** ** Sorted lists *)
Definition sorted (l : list mapping) : Prop := StronglySorted Z.lt (map m_index l).

Lemma sorted_app : forall a b, sorted (a ++ b) <->
  sorted a /\ sorted b /\ (forall x y, In x a -> In y b -> m_index x < m_index y).
Proof.
  unfold sorted. induction a as [|z a IH]; intros b; cbn [app map].
  - split; [|tauto]. intros S. split; [constructor|]. split; [exact S|]. intros x y [].
  - split.
    + intros S. inversion S as [|? ? S' F]; subst. apply IH in S'. destruct S' as [A [B C]].
      rewrite map_app, Forall_app in F. destruct F as [F1 F2]. split; [constructor; auto|]. split; [exact B|].
      intros x y [<-|I] J; [|auto]. rewrite Forall_forall in F2. apply F2. now apply in_map.
    + intros [A [B C]]. inversion A as [|? ? A' F]; subst. constructor.
      * apply IH. repeat split; auto. intros. apply C; cbn; auto.
      * rewrite map_app, Forall_app. split; [exact F|]. rewrite Forall_forall. intros k K.
        apply in_map_iff in K. destruct K as [y [<- Y]]. apply C; cbn; auto.
Qed.
Lemma sorted_cons : forall x b, sorted (x :: b) <-> sorted b /\ (forall y, In y b -> m_index x < m_index y).
Proof.
  unfold sorted. intros x b. cbn [map]. split.
  - intros S. inversion S as [|? ? S' F]; subst. split; [exact S'|]. intros y Y. rewrite Forall_forall in F. apply F. now apply in_map.
  - intros [S F]. constructor; [exact S|]. rewrite Forall_forall. intros k K. apply in_map_iff in K.
    destruct K as [y [<- Y]]. auto.
Qed.
Lemma sorted_mid : forall a x b, sorted (a ++ x :: b) <->
  sorted (a ++ b) /\ (forall y, In y a -> m_index y < m_index x) /\ (forall y, In y b -> m_index x < m_index y).
Proof.
  intros a x b. rewrite !sorted_app, sorted_cons. split.
  - intros [A [[B C] D]]. repeat split; auto.
    + intros. apply D; cbn; auto.
    + intros. apply D; cbn; auto.
  - intros [[A [B C]] [D E]]. repeat split; auto. intros u v U [<-|V]; auto.
Qed.
Lemma sorted_same : forall a x y b, m_index x = m_index y -> sorted (a ++ x :: b) -> sorted (a ++ y :: b).
Proof. intros a x y b E. rewrite !sorted_mid, E. tauto. Qed.
Lemma in_mid : forall a x b e, sorted (a ++ x :: b) ->
  (In e (a ++ b) <-> In e (a ++ x :: b) /\ m_index e <> m_index x).
Proof.
  intros a x b e S. apply sorted_mid in S. destruct S as [_ [A B]]. rewrite !in_app_iff. cbn [In]. split.
  - intros [I|I]; [specialize (A e I)|specialize (B e I)]; split; auto; lia.
  - intros [[I|[<-|I]] N]; auto. congruence.
Qed.
Lemma sorted_unique : forall l x y, sorted l -> In x l -> In y l -> m_index x = m_index y -> x = y.
Proof.
  intros l x y S X Y E. apply in_split in X. destruct X as [a [b ->]].
  apply sorted_mid in S. destruct S as [_ [A B]]. rewrite in_app_iff in Y. destruct Y as [Y|[Y|Y]]; auto.
  - specialize (A y Y). lia.
  - specialize (B y Y). lia.
Qed.

(** ** [bisect] *)
Lemma sorted_nth : forall l i j x y, sorted l -> nth_error l i = Some x -> nth_error l j = Some y -> (i < j)%nat -> m_index x < m_index y.
Proof.
  intros l i j x y S X Y L. apply nth_error_split in X. destruct X as [a [b [-> Q]]].
  apply sorted_mid in S. destruct S as [_ [_ B]]. apply B. subst i.
  rewrite nth_error_app2 in Y by lia. destruct (j - length a)%nat eqn:D; [lia|]. cbn in Y. eapply nth_error_In. exact Y.
Qed.
Lemma bisect_right_spec : forall l x fuel lo hi, sorted l -> (lo <= hi <= length l)%nat -> (hi - lo < fuel)%nat ->
  (forall j m, nth_error l j = Some m -> (j < lo)%nat -> m_index m <= x) ->
  (forall j m, nth_error l j = Some m -> (hi <= j)%nat -> x < m_index m) ->
  let k := bisect_right fuel l x lo hi in
  (k <= length l)%nat /\
  (forall j m, nth_error l j = Some m -> (j < k)%nat -> m_index m <= x) /\
  (forall j m, nth_error l j = Some m -> (k <= j)%nat -> x < m_index m).
Proof.
  intros l x. induction fuel as [|fuel IH]; intros lo hi S B F L H; [lia|]. cbn [bisect_right].
  destruct (Nat.ltb lo hi) eqn:C.
  - apply Nat.ltb_lt in C.
    assert (M1 : (lo <= (lo + hi) / 2)%nat) by (apply Nat.div_le_lower_bound; lia).
    assert (M2 : ((lo + hi) / 2 < hi)%nat) by (apply Nat.div_lt_upper_bound; lia).
    destruct (nth_error l ((lo + hi) / 2)) as [m|] eqn:N.
    2:{ apply nth_error_None in N. lia. }
    destruct (x <? m_index m) eqn:T.
    + apply Z.ltb_lt in T. apply IH; auto; try lia. intros j m' J K.
      destruct (Nat.eq_dec j ((lo + hi) / 2)) as [->|D]; [congruence|].
      pose proof (sorted_nth l _ j m m' S N J ltac:(lia)). lia.
    + apply Z.ltb_ge in T. apply IH; auto; try lia. intros j m' J K.
      destruct (Nat.eq_dec j ((lo + hi) / 2)) as [->|D]; [congruence|].
      pose proof (sorted_nth l j _ m' m S J N ltac:(lia)). lia.
  - apply Nat.ltb_ge in C. cbv zeta. assert (hi = lo) by lia. subst hi. repeat split; auto; lia.
Qed.
Lemma nth_firstn : forall A (l : list A) k j, (j < k)%nat -> nth_error (firstn k l) j = nth_error l j.
Proof.
  intros A l k j. revert l k. induction j as [|j IH]; intros [|z l] [|k] J; try lia; cbn; try reflexivity. apply IH. lia.
Qed.
Lemma nth_skipn : forall A (l : list A) k j, nth_error (skipn k l) j = nth_error l (k + j).
Proof.
  intros A. induction l as [|z l IH]; intros [|k] j; cbn; try reflexivity; [now destruct j|]. apply IH.
Qed.
Lemma insort_spec : forall l m, sorted l -> exists a b, l = a ++ b /\ insort l m = a ++ m :: b /\
  (forall y, In y a -> m_index y <= m_index m) /\ (forall y, In y b -> m_index m < m_index y).
Proof.
  intros l m S. unfold insort, insert_at.
  destruct (bisect_right_spec l (m_index m) (Datatypes.S (length l)) 0 (length l) S) as [K [A B]]; try lia.
  - intros j e E. assert (j < length l)%nat by (apply nth_error_Some; congruence). lia.
  - set (k := bisect_right _ _ _ _ _) in *. exists (firstn k l), (skipn k l).
    split; [symmetry; apply firstn_skipn|]. split; [reflexivity|]. split.
    + intros y Y. apply In_nth_error in Y. destruct Y as [j J].
      assert (J' : (j < k)%nat).
      { assert (j < length (firstn k l))%nat by (apply nth_error_Some; congruence). rewrite firstn_length in H. lia. }
      apply (A j); [|exact J']. now rewrite <- J, nth_firstn by exact J'.
    + intros y Y. apply In_nth_error in Y. destruct Y as [j J]. apply (B (k + j)%nat); [|lia].
      now rewrite <- J, nth_skipn.
Qed.

(** ** The table shown *)
Lemma shows_sorted : forall st m, shows st m -> sorted (entries st).
Proof. intros st m [S _]. exact S. Qed.
Lemma shows_at : forall st m e, shows st m -> In e (entries st) -> m (m_index e) = Some (m_from e, m_to e).
Proof. intros st m e [_ H] I. apply H. exists e. auto. Qed.
Lemma shows_none : forall st m i, shows st m -> (m i = None <-> forall e, In e (entries st) -> m_index e <> i).
Proof.
  intros st m i H. split.
  - intros N e I E. pose proof (shows_at st m e H I). rewrite E in *. congruence.
  - intros N. destruct (m i) as [[f t]|] eqn:E; [|reflexivity].
    apply (proj2 H) in E. destruct E as [e [I [J _]]]. now apply N in I.
Qed.
Lemma shows_ext : forall st m m', shows st m -> (forall i, m' i = m i) -> shows st m'.
Proof. intros st m m' [S H] E. split; [exact S|]. intros. rewrite E. apply H. Qed.

Definition updated (m : table) (i : Z) v : table := fun j => if j =? i then v else m j.
Lemma updated_put : forall m i v, put m (updated m i v) i v.
Proof.
  intros m i v. unfold put, updated. split; [now rewrite Z.eqb_refl|]. intros j N.
  destruct (j =? i) eqn:E; [|reflexivity]. apply Z.eqb_eq in E. congruence.
Qed.

Lemma shows_set : forall st m f t i, shows st m -> shows (set_mapping st f t i) (updated m i (Some (f, t))).
Proof.
  intros st m f t i H. unfold set_mapping. fold (entries st).
  destruct (first_index _ (entries st)) as [k|] eqn:F.
  - apply first_index_split in F. destruct F as [a [x [b [E [L [P _]]]]]]. apply Z.eqb_eq in P.
    pose proof (shows_sorted _ _ H) as S. rewrite E in *. subst k. rewrite replace_nth_mid. split; cbn [entries].
    + apply (sorted_same a x); [exact P|]. exact S.
    + intros j f' t'. unfold updated. split.
      * destruct (j =? i) eqn:J.
        -- apply Z.eqb_eq in J. subst j. intros Q. inversion Q; subst. eexists. split; [apply in_elt|]. auto.
        -- apply Z.eqb_neq in J. intros Q. apply (proj2 H) in Q. rewrite E in Q. destruct Q as [e [I [Q1 Q2]]].
           exists e. split; [|auto]. apply in_or_app. rewrite in_app_iff in I. destruct I as [I|[I|I]]; auto; [|right; right; auto].
           subst. congruence.
      * intros [e [I [Q1 [Q2 Q3]]]].
        assert (C : e = mkMapping i f t true \/ In e (a ++ b)).
        { rewrite in_app_iff in *. destruct I as [I|[I|I]]; auto. }
        destruct C as [-> |I'].
        -- cbn in Q1, Q2, Q3. subst. now rewrite Z.eqb_refl.
        -- apply (in_mid a x b e S) in I'. destruct I' as [I' N]. destruct (j =? i) eqn:J; [apply Z.eqb_eq in J; congruence|].
           rewrite <- Q1, <- Q2, <- Q3. apply (shows_at st m e H). rewrite E. exact I'.
  - apply first_index_none in F. rewrite Forall_forall in F.
    pose proof (shows_sorted _ _ H) as S.
    destruct (insort_spec (entries st) (mkMapping i f t true) S) as [a [b [E [R [A B]]]]].
    assert (S' : sorted (a ++ mkMapping i f t true :: b)).
    { apply sorted_mid. rewrite <- E. repeat split; auto. intros y Y. specialize (A y Y). cbn [m_index] in *.
      assert (I : In y (entries st)) by (rewrite E; apply in_or_app; auto). specialize (F y I). apply Z.eqb_neq in F. lia. }
    rewrite R. split; cbn [entries]; [exact S'|]. intros j f' t'. unfold updated. split.
    + destruct (j =? i) eqn:J.
      * apply Z.eqb_eq in J. subst j. intros Q. inversion Q; subst. eexists. split; [apply in_elt|]. auto.
      * apply Z.eqb_neq in J. intros Q. apply (proj2 H) in Q. rewrite E in Q. destruct Q as [e [I Q]]. exists e.
        split; [|exact Q]. rewrite in_app_iff in *. cbn [In]. tauto.
    + intros [e [I [Q1 [Q2 Q3]]]].
      assert (C : e = mkMapping i f t true \/ In e (a ++ b)).
      { rewrite in_app_iff in *. destruct I as [I|[I|I]]; auto. }
      destruct C as [-> |I'].
      * cbn in Q1, Q2, Q3. subst. now rewrite Z.eqb_refl.
      * apply (in_mid a (mkMapping i f t true) b e S') in I'. destruct I' as [I' N]. cbn [m_index] in N.
        destruct (j =? i) eqn:J; [apply Z.eqb_eq in J; congruence|].
        rewrite <- Q1, <- Q2, <- Q3. apply (shows_at st m e H). rewrite E.
        rewrite in_app_iff in *. destruct I' as [I'|[I'|I']]; auto. subst e. cbn in N. congruence.
Qed.

Lemma shows_removed : forall l m a x b, shows (Some l) m -> l = a ++ x :: b ->
  shows (Some (a ++ b)) (updated m (m_index x) None).
Proof.
  intros l m a x b H E. pose proof (shows_sorted _ _ H) as S. cbn [entries] in S. rewrite E in S. split; cbn [entries].
  - apply sorted_mid in S. apply S.
  - intros j f t. unfold updated. split.
    + destruct (j =? m_index x) eqn:J; [discriminate|]. apply Z.eqb_neq in J. intros Q. apply (proj2 H) in Q.
      cbn [entries] in Q. destruct Q as [e [I [Q1 Q2]]]. exists e. split; [|auto]. apply (in_mid a x b e S).
      rewrite <- E. split; [exact I|]. congruence.
    + intros [e [I [Q1 [Q2 Q3]]]]. apply (in_mid a x b e S) in I. destruct I as [I N].
      destruct (j =? m_index x) eqn:J; [apply Z.eqb_eq in J; congruence|].
      rewrite <- Q1, <- Q2, <- Q3. apply (shows_at (Some l) m e H). cbn [entries]. rewrite E. exact I.
Qed.

Lemma apply_set_pop : forall st m o, shows st m -> set_or_pop o ->
  exists m', step m o (snd (apply st o)) m' /\ shows (fst (apply st o)) m'.
Proof.
  intros st m [f t i|i|f t i] H P; [| |destruct P]; cbn [apply].
  - eexists. split; [apply step_set; apply updated_put|]. apply shows_set. exact H.
  - unfold pop_mapping. destruct st as [l|].
    + destruct (first_index _ l) as [k|] eqn:F.
      * apply first_index_split in F. destruct F as [a [x [b [E [L [Q _]]]]]]. apply Z.eqb_eq in Q.
        assert (M : nth_error l k = Some x) by (subst; apply nth_error_mid). rewrite M.
        assert (R : remove_nth l k = a ++ b) by (subst; apply remove_nth_mid). rewrite R. cbn [fst snd].
        exists (updated m i None). split.
        -- rewrite Q. apply step_pop; [|apply updated_put]. rewrite <- Q. apply (shows_at (Some l) m x H).
           cbn [entries]. rewrite E. apply in_elt.
        -- rewrite <- Q. eapply shows_removed; eauto.
      * cbn [fst snd]. exists m. split; [|exact H]. apply step_pop_missing. apply (shows_none _ _ i H).
        apply first_index_none in F. rewrite Forall_forall in F. intros e I. cbn [entries] in I. specialize (F e I).
        now apply Z.eqb_neq.
    + cbn [fst snd]. exists m. split; [|exact H]. apply step_pop_missing. apply (shows_none _ _ i H). intros e [].
Qed.

Lemma set_keeps : forall st f t i, all_set_here st -> all_set_here (set_mapping st f t i).
Proof.
  intros st f t i A. unfold set_mapping. fold (entries st). unfold all_set_here in *.
  destruct (first_index _ _) as [k|] eqn:F; cbn [entries].
  - apply first_index_split in F. destruct F as [a [x [b [E [L _]]]]]. rewrite E in *. subst k. rewrite replace_nth_mid.
    apply Forall_app in A. destruct A as [A B]. apply Forall_app. split; [exact A|]. constructor; [reflexivity|].
    exact (Forall_inv_tail B).
  - unfold insort, insert_at. set (k := bisect_right _ _ _ _ _). rewrite <- (firstn_skipn k (entries st)) in A.
    apply Forall_app in A. destruct A as [A B]. apply Forall_app. split; [exact A|]. constructor; [reflexivity|exact B].
Qed.
Lemma remove_keeps : forall a (x : mapping) b, all_set_here (Some (a ++ x :: b)) -> all_set_here (Some (a ++ b)).
Proof.
  unfold all_set_here. cbn [entries]. intros a x b A. apply Forall_app in A. destruct A as [A B]. apply Forall_app.
  split; [exact A|]. exact (Forall_inv_tail B).
Qed.

Lemma apply_here : forall st m o, shows st m -> all_set_here st ->
  exists m', step m o (snd (apply st o)) m' /\ shows (fst (apply st o)) m' /\ all_set_here (fst (apply st o)).
Proof.
  intros st m o H A. destruct o as [f t i|i|f t idx].
  - destruct (apply_set_pop st m (Set_ f t i) H I) as [m' [S H']]. exists m'. repeat split; auto; try apply H'.
    cbn [apply fst]. now apply set_keeps.
  - destruct (apply_set_pop st m (Pop i) H I) as [m' [S H']]. exists m'. split; [exact S|]. split; [exact H'|].
    cbn [apply]. unfold pop_mapping. destruct st as [l|]; [|exact A].
    destruct (first_index _ l) as [k|] eqn:F; [|exact A].
    apply first_index_split in F. destruct F as [a [x [b [E [L _]]]]]. subst. rewrite nth_error_mid, remove_nth_mid.
    cbn [fst]. eapply remove_keeps. exact A.
  - cbn [apply]. unfold remove_mapping. destruct idx as [i|].
    + destruct st as [l|].
      * destruct (first_index _ l) as [k|] eqn:F.
        -- apply first_index_split in F. destruct F as [a [x [b [E [L [Q _]]]]]].
           assert (R : remove_nth l k = a ++ b) by (subst; apply remove_nth_mid). rewrite R. cbn [fst snd].
           unfold whole_eq in Q. rewrite !andb_true_iff, Z.eqb_eq in Q. destruct Q as [[_ Q] T].
           destruct (m_from x) as [fx|] eqn:FX; [|discriminate]. destruct (m_to x) as [tx|] eqn:TX; [|discriminate].
           apply andb_true_iff in T. destruct T as [T1 T2]. apply side_eqb_eq in T1, T2. subst f t.
           exists (updated m i None). split; [|split].
           ++ apply step_remove_at; [|apply updated_put]. rewrite <- Q. rewrite (shows_at (Some l) m x H); [congruence|].
              cbn [entries]. rewrite E. apply in_elt.
           ++ rewrite <- Q. eapply shows_removed; eauto.
           ++ subst l. eapply remove_keeps. exact A.
        -- cbn [fst snd]. exists m. split; [|auto]. apply first_index_none in F. rewrite Forall_forall in F.
           destruct f as [f|]; [|apply step_remove_at_blank; auto]. destruct t as [t|]; [|apply step_remove_at_blank; auto].
           apply step_remove_at_missing. intros Q. apply (proj2 H) in Q. cbn [entries] in Q. destruct Q as [e [I [Q1 [Q2 Q3]]]].
           specialize (F e I). unfold whole_eq in F. unfold all_set_here in A. rewrite Forall_forall in A.
           rewrite (A e I), Q1, Q2, Q3, Z.eqb_refl in F. cbn [andb] in F.
           rewrite (proj2 (side_eqb_eq _ _) eq_refl), (proj2 (side_eqb_eq _ _) eq_refl) in F. discriminate.
      * cbn [fst snd]. exists m. split; [|auto]. apply step_remove_at_missing.
        rewrite (proj2 (shows_none _ _ i H)); [discriminate|]. intros e [].
    + destruct st as [l|].
      * destruct (first_index _ l) as [k|] eqn:F.
        -- apply first_index_split in F. destruct F as [a [x [b [E [L [Q Y]]]]]].
           assert (R : remove_nth l k = a ++ b) by (subst; apply remove_nth_mid). rewrite R. cbn [fst snd].
           unfold all_set_here in A. rewrite Forall_forall in A. cbn [entries] in A.
           rewrite (A x) in Q by (rewrite E; apply in_elt). cbn [get_eq] in Q.
           apply andb_true_iff in Q. destruct Q as [T1 T2]. apply side_eqb_eq in T1, T2.
           exists (updated m (m_index x) None). split; [|split].
           ++ apply (step_remove _ _ _ (m_index x)); [| |apply updated_put].
              ** rewrite (shows_at (Some l) m x H); [congruence|]. cbn [entries]. rewrite E. apply in_elt.
              ** intros j J Q. apply (proj2 H) in Q. cbn [entries] in Q. destruct Q as [e [I [Q1 [Q2 Q3]]]].
                 pose proof (shows_sorted _ _ H) as S. cbn [entries] in S. rewrite E in S, I.
                 assert (IA : In e a).
                 { apply sorted_mid in S. destruct S as [_ [_ S]]. rewrite in_app_iff in I. destruct I as [I|[I|I]]; auto.
                   - subst. lia.
                   - specialize (S e I). lia. }
                 rewrite Forall_forall in Y. specialize (Y e IA). rewrite (A e) in Y by (rewrite E; apply in_or_app; auto).
                 cbn [get_eq] in Y. rewrite Q2, Q3 in Y.
                 rewrite (proj2 (side_eqb_eq _ _) eq_refl), (proj2 (side_eqb_eq _ _) eq_refl) in Y. discriminate.
           ++ eapply shows_removed; eauto.
           ++ subst l. eapply remove_keeps. unfold all_set_here. rewrite Forall_forall. exact A.
        -- cbn [fst snd]. exists m. split; [|auto]. apply first_index_none in F. rewrite Forall_forall in F.
           apply step_remove_missing. intros i Q. apply (proj2 H) in Q. cbn [entries] in Q. destruct Q as [e [I [Q1 [Q2 Q3]]]].
           specialize (F e I). unfold all_set_here in A. rewrite Forall_forall in A.
           rewrite (A e I), Q2, Q3 in F. cbn [get_eq] in F.
           rewrite (proj2 (side_eqb_eq _ _) eq_refl), (proj2 (side_eqb_eq _ _) eq_refl) in F. discriminate.
      * cbn [fst snd]. exists m. split; [|auto]. apply step_remove_missing. intros i.
        rewrite (proj2 (shows_none _ _ i H)); [discriminate|]. intros e [].
Qed.

Lemma run_set_pop : forall os st m, shows st m -> Forall set_or_pop os ->
  exists m', steps m os (snd (run st os)) m' /\ shows (fst (run st os)) m'.
Proof.
  induction os as [|o os IH]; intros st m H F; cbn [run].
  - exists m. split; [now constructor|exact H].
  - destruct (apply_set_pop st m o H (Forall_inv F)) as [m1 [S H1]].
    destruct (apply st o) as [st1 r]. cbn [fst snd] in *.
    destruct (IH st1 m1 H1 (Forall_inv_tail F)) as [m2 [S2 H2]]. destruct (run st1 os) as [st2 rs]. cbn [fst snd] in *.
    exists m2. split; [econstructor; eauto|exact H2].
Qed.
Lemma run_here : forall os st m, shows st m -> all_set_here st ->
  exists m', steps m os (snd (run st os)) m' /\ shows (fst (run st os)) m' /\ all_set_here (fst (run st os)).
Proof.
  induction os as [|o os IH]; intros st m H A; cbn [run].
  - exists m. split; [now constructor|auto].
  - destruct (apply_here st m o H A) as [m1 [S [H1 A1]]].
    destruct (apply st o) as [st1 r]. cbn [fst snd] in *.
    destruct (IH st1 m1 H1 A1) as [m2 [S2 [H2 A2]]]. destruct (run st1 os) as [st2 rs]. cbn [fst snd] in *.
    exists m2. split; [econstructor; eauto|auto].
Qed.

(** ** Failures *)
Lemma apply_raised : forall st o e, snd (apply st o) = Raised e -> fst (apply st o) = st.
Proof.
  intros st [f t i|i|f t i] e; cbn [apply].
  - discriminate.
  - unfold pop_mapping. destruct st as [l|]; [|reflexivity]. destruct (first_index _ l); [|reflexivity].
    destruct (nth_error l n); [discriminate|reflexivity].
  - unfold remove_mapping. destruct i as [i|]; (destruct st as [l|]; [|reflexivity]); (destruct (first_index _ l); [discriminate|reflexivity]).
Qed.
Lemma pop_first : forall l i, snd (apply (Some l) (Pop i)) = Raised ValueError /\ (forall e, In e l -> m_index e <> i) \/
  exists a x b, l = a ++ x :: b /\ m_index x = i /\ (forall e, In e a -> m_index e <> i) /\
    apply (Some l) (Pop i) = (Some (a ++ b), Gave i (m_from x) (m_to x)).
Proof.
  intros l i. cbn [apply]. unfold pop_mapping. destruct (first_index _ l) as [k|] eqn:F.
  - right. apply first_index_split in F. destruct F as [a [x [b [E [L [Q Y]]]]]]. apply Z.eqb_eq in Q. subst.
    exists a, x, b. repeat split; auto.
    + rewrite Forall_forall in Y. intros e I. apply Z.eqb_neq. auto.
    + now rewrite nth_error_mid, remove_nth_mid.
  - left. split; [reflexivity|]. apply first_index_none in F. rewrite Forall_forall in F. intros e I. apply Z.eqb_neq. auto.
Qed.
Lemma imported_not_found : forall l f t index,
  Forall (fun e => m_dict e = false) l -> (f <> None \/ t <> None \/ index <> None) ->
  apply (Some l) (Remove f t index) = (Some l, Raised ValueError).
Proof.
  intros l f t index F N. cbn [apply]. unfold remove_mapping. rewrite Forall_forall in F.
  destruct index as [i|].
  - destruct (first_index _ l) as [k|] eqn:G; [|reflexivity]. exfalso. apply first_index_split in G.
    destruct G as [a [x [b [E [L [Q _]]]]]]. unfold whole_eq in Q. rewrite (F x) in Q by (subst; apply in_elt). discriminate.
  - destruct (first_index _ l) as [k|] eqn:G; [|reflexivity]. exfalso. apply first_index_split in G.
    destruct G as [a [x [b [E [L [Q _]]]]]]. rewrite (F x) in Q by (subst; apply in_elt). cbn [get_eq] in Q.
    destruct (m_from x), (m_to x), f, t; try discriminate. destruct N as [N|[N|N]]; congruence.
Qed.

(** ** The meaning of the calls is unambiguous *)
Definition same_kind (r r' : outcome) : Prop :=
  match r, r' with Raised _, Raised _ => True | _, _ => r = r' end.
Lemma step_deterministic : forall m o r r' m1 m2, step m o r m1 -> step m o r' m2 ->
  same_kind r r' /\ forall i, m1 i = m2 i.
Proof.
  assert (P : forall (m m1 m2 : table) i v, put m m1 i v -> put m m2 i v -> forall j, m1 j = m2 j).
  { intros m m1 m2 i v [A B] [C D] j. destruct (Z.eq_dec j i) as [->|N]; [congruence|]. now rewrite B, D. }
  intros m o r r' m1 m2 S1 S2. destruct S1; inversion S2; subst; cbn [same_kind];
    repeat match goal with
    | A : ?x = Some _, B : ?x = Some _ |- _ => rewrite A in B; inversion B; subst; clear B
    | A : ?x = Some _, B : ?x = None |- _ => congruence
    | A : None = Some _ \/ _ |- _ => destruct A
    | A : Some _ = None \/ _ |- _ => destruct A as [A|A]; discriminate
    end; try (split; [reflexivity|]); eauto; try (exfalso; congruence).
  - assert (E : i = i0); [|subst; eauto]. match goal with A : forall j, j < i0 -> _ |- _ => rename A into L0 end.
    match goal with A : forall j, j < i -> _ |- _ => rename A into L1 end.
    destruct (Z.lt_trichotomy i i0) as [L|[E|L]]; auto; exfalso; [now apply (L0 i L)|now apply (L1 i0 L)].
Qed.
