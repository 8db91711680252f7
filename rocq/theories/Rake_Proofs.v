(** Proofs about finding trains: members of a train. *)
From Coq Require Import ZArith List Bool Lia Reals Lra Relations.
From Verif Require Import Common Compass_Model Schedule_Model Train_Model Rake_Model Rake_Spec.
Import ListNotations.
Local Open Scope Z_scope.

Lemma rlt_iff : forall a b, rlt a b = true <-> (a < b)%R.
Proof. intros a b. unfold rlt. destruct (Rlt_dec a b); split; auto; discriminate || contradiction. Qed.
Lemma rle_iff : forall a b, rle a b = true <-> (a <= b)%R.
Proof. intros a b. unfold rle. destruct (Rle_dec a b); split; auto; discriminate || contradiction. Qed.
Lemma gap_iff : forall p q, gap p q = true <-> (29 / 10 < far p q <= 31 / 10)%R.
Proof. intros p q. unfold gap. rewrite andb_true_iff, rlt_iff, rle_iff. reflexivity. Qed.
Lemma mem_iff : forall n l, mem n l = true <-> In n l.
Proof.
  intros n l. unfold mem. rewrite existsb_exists. split.
  - intros [x [I E]]. apply Nat.eqb_eq in E. subst. exact I.
  - intros I. exists n. split; [exact I|apply Nat.eqb_refl].
Qed.
Lemma mem_false : forall n l, mem n l = false <-> ~ In n l.
Proof. intros n l. rewrite <- mem_iff. destruct (mem n l); split; congruence. Qed.

Section Rake.
  Variable K : Z.
  Hypothesis HK : 0 < K.
  Variable at_ : nat -> entity.
  Variable near : nat -> list nat.

  Notation ori := (ori at_). Notation pos := (pos at_).
  Notation traverse := (traverse K at_ near). Notation visit := (visit K at_).
  Notation facing_ok := (facing_ok K at_). Notation in_front := (in_front K at_). Notation in_back := (in_back K at_).
  Notation coupled := (coupled K at_ near). Notation touches := (touches K at_).

  (** ** headings *)
  Lemma turn_R : (IZR (16 * K) <> 0)%R.
  Proof. apply not_0_IZR. lia. Qed.
  Lemma vector_heading : forall o m, o_vector K o m = (fst (heading K (value K o)) * m, snd (heading K (value K o)) * m)%R.
  Proof.
    intros o m. unfold o_vector, heading, turn. cbn [fst snd].
    replace (IZR (value K o) / IZR (16 * K) * PI * 2)%R with (2 * PI * (IZR (value K o) / IZR (16 * K)))%R by ring. reflexivity.
  Qed.
  Lemma heading_half : forall z, 0 <= z < 16 * K ->
    heading K ((z + 8 * K) mod (16 * K)) = (- fst (heading K z), - snd (heading K z))%R.
  Proof.
    intros z B. unfold heading. cbn [fst snd]. pose proof turn_R as T.
    assert (E : IZR (8 * K) = (IZR (16 * K) / 2)%R) by (rewrite !mult_IZR; lra).
    destruct (Z_lt_ge_dec z (8 * K)) as [C|C].
    - rewrite Z.mod_small by lia. rewrite plus_IZR, E.
      replace (2 * PI * ((IZR z + IZR (16 * K) / 2) / IZR (16 * K)))%R with (2 * PI * (IZR z / IZR (16 * K)) + PI)%R by (field; exact T).
      rewrite neg_sin, neg_cos. reflexivity.
    - replace ((z + 8 * K) mod (16 * K)) with (z - 8 * K) by (apply (Z.mod_unique_pos _ _ 1); lia).
      rewrite minus_IZR, E.
      replace (2 * PI * (IZR z / IZR (16 * K)))%R with (2 * PI * ((IZR z - IZR (16 * K) / 2) / IZR (16 * K)) + PI)%R by (field; exact T).
      rewrite neg_sin, neg_cos, !Ropp_involutive. reflexivity.
  Qed.
  Lemma value_angle : forall w, value K (ori w) = angle K at_ w.
  Proof. reflexivity. Qed.
  Lemma angle_bounds : forall w, 0 <= angle K at_ w < 16 * K.
  Proof. intros w. apply Z.mod_pos_bound. lia. Qed.
  Lemma opposite_value : forall o, value K (o_opposite K o) = (value K o + 8 * K) mod (16 * K).
  Proof. intros o. unfold o_opposite, value, turn. cbn [raw]. rewrite Z.mod_mod by lia. reflexivity. Qed.

  (** The bogies as the code computes them. *)
  Lemma shift_front : forall w, shift (pos w) (o_vector K (ori w) 2) = bogie K at_ w true.
  Proof. intros w. rewrite vector_heading, value_angle. unfold shift, bogie. cbn [fst snd]. unfold place, pos. f_equal; ring. Qed.
  Lemma shift_rear : forall w, shift (pos w) (o_vector K (ori w) (-2)) = bogie K at_ w false.
  Proof. intros w. rewrite vector_heading, value_angle. unfold shift, bogie. cbn [fst snd]. unfold place, pos. f_equal; ring. Qed.
  Lemma shift_opp : forall w m, shift (pos w) (o_vector K (o_opposite K (ori w)) m) = shift (pos w) (o_vector K (ori w) (- m)).
  Proof.
    intros w m. rewrite !vector_heading, opposite_value, value_angle, heading_half by apply angle_bounds.
    unfold shift. cbn [fst snd]. f_equal; ring.
  Qed.
  Lemma truck_spec : forall w n, exists his, nearer_bogie K at_ w n his /\ truck K at_ w n = bogie K at_ n his.
  Proof.
    intros w n. unfold truck. rewrite shift_front, shift_rear.
    change (distance (pos w)) with (far (place at_ w)).
    destruct (rlt (far (place at_ w) (bogie K at_ n true)) (far (place at_ w) (bogie K at_ n false))) eqn:E.
    - exists true. split; [apply rlt_iff; exact E|reflexivity].
    - exists false. split; [|reflexivity]. unfold nearer_bogie. apply Rnot_lt_le. intros C. apply rlt_iff in C. congruence.
  Qed.
  Lemma nearer_unique : forall w n a b, nearer_bogie K at_ w n a -> nearer_bogie K at_ w n b -> a = b.
  Proof. intros w n [|] [|]; unfold nearer_bogie; intros; try reflexivity; exfalso; lra. Qed.
  Lemma gap_truck : forall w mine n, gap (bogie K at_ w mine) (truck K at_ w n) = true <-> touches w mine n.
  Proof.
    intros w mine n. destruct (truck_spec w n) as [his [N T]]. rewrite T, gap_iff. unfold touches. split.
    - intros G. exists his. auto.
    - intros [h [N' G]]. rewrite (nearer_unique w n his h N N'). exact G.
  Qed.
  Lemma front_iff : forall w bw n, in_front w bw n = true <-> touches w (negb bw) n.
  Proof.
    intros w bw n. unfold in_front, forward. destruct bw; cbn [negb].
    - rewrite shift_opp, <- gap_truck. replace (- (2))%R with (-2)%R by ring. rewrite shift_rear. reflexivity.
    - rewrite shift_front. apply gap_truck.
  Qed.
  Lemma back_iff : forall w bw n, in_back w bw n = true <-> touches w bw n.
  Proof.
    intros w bw n. unfold in_back, forward. destruct bw.
    - rewrite shift_opp, <- gap_truck. replace (- (-2))%R with 2%R by ring. rewrite shift_front. reflexivity.
    - rewrite shift_rear. apply gap_truck.
  Qed.
  Lemma facing_iff : forall w n, facing_ok w n = true <-> aligned K at_ w n.
  Proof.
    intros w n. unfold facing_ok, in_window, aligned, close_to. rewrite orb_true_iff, !andb_true_iff, !Z.ltb_lt. reflexivity.
  Qed.
  Lemma coupled_iff : forall w bw n, coupled w n <->
    In n (near w) /\ facing_ok w n = true /\ (in_front w bw n = true \/ in_back w bw n = true).
  Proof.
    intros w bw n. unfold coupled. rewrite facing_iff, front_iff, back_iff.
    assert (E : touches w true n \/ touches w false n <-> touches w (negb bw) n \/ touches w bw n) by (destruct bw; cbn; tauto).
    tauto.
  Qed.

  (** ** the members of a train *)
  Definition grows (s s' : walk) : Prop := incl (used s) (used s').
  Lemma mark_same : forall w bw s, used (if loco at_ w && negb bw then mkWalk (used s) (train s) false else s) = used s /\
    train (if loco at_ w && negb bw then mkWalk (used s) (train s) false else s) = train s.
  Proof. intros w bw s. destruct (loco at_ w && negb bw); auto. Qed.

  (** What a visit preserves: [used] grows, contains exactly what is in [train],
      everything new is connected to [w] and has all its couplings in [used]. *)
  Definition good (w : nat) (s s' : walk) : Prop :=
    incl (used s) (used s') /\
    (forall n, In n (train s') <-> In n (train s) \/ (In n (used s') /\ ~ In n (used s))) /\
    (forall n, In n (used s') -> In n (used s) \/ connected K at_ near w n) /\
    (forall n, In n (used s') -> ~ In n (used s) -> forall m, coupled n m -> In m (used s')).

  Lemma good_refl : forall w s, good w s s.
  Proof. intros w s. split; [apply incl_refl|]. split; [intros n; tauto|]. split; [tauto|]. intros n A B; contradiction. Qed.
  Lemma good_trans : forall w a b c, good w a b -> good w b c -> good w a c.
  Proof.
    intros w a b c [G1 [G2 [G3 G4]]] [H1 [H2 [H3 H4]]]. split; [eapply incl_tran; eassumption|]. split; [|split].
    - intros n. rewrite H2, G2. split.
      + intros [[A|[A B]]|[A B]]; [tauto|right; split; [apply H1; exact A|exact B]|right; split; [exact A|intros C; apply B, G1, C]].
      + intros [A|[A B]]; [tauto|]. destruct (in_dec Nat.eq_dec n (used b)); tauto.
    - intros n N. destruct (H3 n N) as [N'|N']; [apply G3; exact N'|right; exact N'].
    - intros n N N' m C. destruct (in_dec Nat.eq_dec n (used b)) as [B|B].
      + apply H1. apply (G4 n B N' m C).
      + apply (H4 n N B m C).
  Qed.

  (** A call of [traverse] for [n], already entered. *)
  Definition entered (n : nat) (s s' : walk) : Prop := In n (used s) -> good n s s' /\ forall m, coupled n m -> In m (used s').

  Lemma visit_good : forall tr w bw,
    (forall n b s s', tr n b s = Ok s' -> entered n s s') ->
    forall ns s s', visit tr w bw ns s = Ok s' -> incl ns (near w) ->
      good w s s' /\ forall m, In m ns -> coupled w m -> In m (used s').
  Proof.
    intros tr w bw TR. induction ns as [|n ns IH]; intros s s' E NS; cbn [Rake_Model.visit] in E.
    - injection E as <-. split; [apply good_refl|]. intros m [].
    - assert (NS' : incl ns (near w)) by (intros x X; apply NS; right; exact X).
      destruct (mem n (used s)) eqn:M.
      { destruct (IH s s' E NS') as [G C]. split; [exact G|]. intros m [<-|I] Q; [apply G, mem_iff, M|apply C; assumption]. }
      apply mem_false in M.
      destruct (facing_ok w n) eqn:F.
      2: { destruct (IH s s' E NS') as [G C]. split; [exact G|]. intros m [<-|I] Q; [|apply C; assumption].
           apply (coupled_iff w bw) in Q. destruct Q as [_ [Q _]]. congruence. }
      cbv zeta in E.
      (* entering [n] *)
      assert (ENTER : coupled w n -> forall s0 x b s1, incl (used s) (used s0) -> (used s0 = used s \/ In n (used s0)) ->
                (forall y, In y x <-> y = n \/ In y (train s0)) ->
                tr n b (mkWalk (n :: used s0) x (all_back s0)) = Ok s1 ->
                (In n (used s0) -> In n (train s0)) ->
                good w s0 s1 /\ In n (used s1)).
      { intros Q s0 x b s1 I0 CASE X R T0. destruct (TR _ _ _ _ R) as [[G1 [G2 [G3 G4]]] C]; [left; reflexivity|]. cbn [used train] in *.
        assert (N1 : In n (used s1)) by (apply G1; left; reflexivity). split; [|exact N1].
        split; [intros y Y; apply G1; right; exact Y|]. split; [|split].
        - intros y. rewrite G2, X. cbn [In]. destruct (Nat.eq_dec y n) as [->|D].
          + split; [|intros _; left; left; reflexivity]. intros _.
            destruct (in_dec Nat.eq_dec n (used s0)) as [U|U]; [left; apply T0; exact U|right; auto].
          + assert (n <> y) by congruence. tauto.
        - intros y Y. destruct (G3 y Y) as [[->|Y']|Y'].
          + right. apply rt_step. exact Q.
          + left. exact Y'.
          + right. eapply rt_trans; [apply rt_step; exact Q|exact Y'].
        - intros y Y N' m CM. destruct (Nat.eq_dec y n) as [->|D]; [apply C; exact CM|].
          apply (G4 y Y) with (m := m); [|exact CM]. intros [->|Y']; [congruence|contradiction]. }
      assert (CONS : forall s0 y, In y (n :: train s0) <-> y = n \/ In y (train s0)).
      { intros s0 y. cbn [In]. split; intros [A|A]; auto. }
      assert (SNOC : forall s0 y, In y (train s0 ++ [n]) <-> y = n \/ In y (train s0)).
      { intros s0 y. rewrite in_app_iff. cbn [In]. split; [intros [A|[A|[]]]; auto|intros [A|A]; auto]. }
      assert (QF : in_front w bw n = true \/ in_back w bw n = true -> coupled w n).
      { intros D. apply (coupled_iff w bw). split; [apply NS; left; reflexivity|]. auto. }
      destruct (in_front w bw n) eqn:FR.
      + destruct (tr n (is_backwards K at_ w bw n) (mkWalk (n :: used s) (n :: train s) (all_back s))) as [s1|] eqn:R1; cbn [bind] in E; [|discriminate].
        destruct (ENTER (QF (or_introl eq_refl)) s (n :: train s) _ _ (incl_refl _) (or_introl eq_refl) (CONS s) R1) as [G1 N1]; [tauto|].
        assert (T1 : In n (train s1)) by (apply G1; right; auto).
        destruct (in_back w bw n) eqn:BK.
        * destruct (tr n (is_backwards K at_ w bw n) (mkWalk (n :: used s1) (train s1 ++ [n]) (all_back s1))) as [s2|] eqn:R2; cbn [bind] in E; [|discriminate].
          destruct (ENTER (QF (or_introl eq_refl)) s1 (train s1 ++ [n]) _ _ (proj1 G1) (or_intror N1) (SNOC s1) R2) as [G2 N2]; [auto|].
          destruct (IH s2 s' E NS') as [G C]. split; [eapply good_trans; [eapply good_trans|]; eassumption|].
          intros m [<-|I] Q; [apply G, N2|apply C; assumption].
        * cbn [bind] in E. destruct (IH s1 s' E NS') as [G C]. split; [eapply good_trans; eassumption|].
          intros m [<-|I] Q; [apply G, N1|apply C; assumption].
      + cbn [bind] in E. destruct (in_back w bw n) eqn:BK.
        * destruct (tr n (is_backwards K at_ w bw n) (mkWalk (n :: used s) (train s ++ [n]) (all_back s))) as [s2|] eqn:R2; cbn [bind] in E; [|discriminate].
          destruct (ENTER (QF (or_intror eq_refl)) s (train s ++ [n]) _ _ (incl_refl _) (or_introl eq_refl) (SNOC s) R2) as [G2 N2]; [tauto|].
          destruct (IH s2 s' E NS') as [G C]. split; [eapply good_trans; eassumption|].
          intros m [<-|I] Q; [apply G, N2|apply C; assumption].
        * cbn [bind] in E. destruct (IH s s' E NS') as [G C]. split; [exact G|].
          intros m [<-|I] Q; [|apply C; assumption]. apply (coupled_iff w bw) in Q. destruct Q as [_ [_ [Q|Q]]]; congruence.
  Qed.

  Lemma good_mark : forall w (s s' : walk) b, good w (mkWalk (used s) (train s) b) s' -> good w s s'.
  Proof. intros w s s' b G. exact G. Qed.
  Lemma traverse_good : forall limit w bw s s', traverse limit w bw s = Ok s' -> entered w s s'.
  Proof.
    induction limit as [|l IH]; intros w bw s s' E; cbn [Rake_Model.traverse] in E; [discriminate|]. intros W.
    destruct (visit_good (traverse l) w bw (fun n b a a' => IH n b a a') (near w) _ s' E (incl_refl _)) as [G C].
    split; [|intros m Q; apply C; [apply Q|exact Q]].
    destruct (loco at_ w && negb bw); [apply (good_mark w s s' false)|]; exact G.
  Qed.

  Theorem members : forall limit w t, find_train_from_wagon K at_ near limit w = Ok t ->
    forall n, In n t <-> connected K at_ near w n.
  Proof.
    intros limit w t E n. unfold find_train_from_wagon in E.
    destruct (traverse limit w false (mkWalk [w] [w] true)) as [s|] eqn:T; cbn [bind] in E; [|discriminate]. injection E as <-.
    destruct (traverse_good limit w false _ s T (or_introl eq_refl)) as [[G1 [G2 [G3 G4]]] C]. cbn [used train] in *.
    assert (I : In n (if all_back s then rev (train s) else train s) <-> In n (train s)) by (destruct (all_back s); [symmetry; apply in_rev|tauto]).
    rewrite I, G2. clear I. cbn [In]. split.
    - intros [[->|[]]|[A _]]; [apply rt_refl|]. destruct (G3 n A) as [[->|[]]|R]; [apply rt_refl|exact R].
    - intros R. assert (U : In n (used s)).
      { apply clos_rt_rtn1 in R. induction R as [|a b ST R IH]; [apply G1; left; reflexivity|].
        destruct (Nat.eq_dec a w) as [->|D]; [apply C; exact ST|]. apply (G4 a IH) with (m := b); [|exact ST]. intros [E|[]]; congruence. }
      destruct (Nat.eq_dec w n); auto. right. split; [exact U|]. intros [->|[]]. contradiction.
  Qed.

  (** ** no member twice *)
  Definition simple (s : walk) : Prop := NoDup (train s) /\ forall n, In n (train s) <-> In n (used s).
  Lemma visit_simple : forall tr w bw, (forall n, In n (near w) -> aligned K at_ w n -> ~ straddles K at_ w n) ->
    (forall n b s s', tr n b s = Ok s' -> simple s -> simple s') ->
    forall ns s s', incl ns (near w) -> visit tr w bw ns s = Ok s' -> simple s -> simple s'.
  Proof.
    intros tr w bw NS TR. induction ns as [|n ns IH]; intros s s' INC E S; cbn [Rake_Model.visit] in E; [injection E as <-; exact S|].
    assert (INC' : incl ns (near w)) by (intros x X; apply INC; right; exact X).
    destruct (mem n (used s)) eqn:M; [apply (IH s s' INC' E S)|]. apply mem_false in M.
    destruct (facing_ok w n) eqn:F; [|apply (IH s s' INC' E S)]. cbv zeta in E.
    assert (NB : in_front w bw n = true -> in_back w bw n = true -> False).
    { rewrite front_iff, back_iff. intros A B. apply (NS n); [apply INC; left; reflexivity|apply facing_iff; exact F|].
      unfold straddles. destruct bw; auto. }
    destruct S as [ND ST]. assert (NT : ~ In n (train s)) by (rewrite ST; exact M).
    assert (S1 : simple (mkWalk (n :: used s) (n :: train s) (all_back s))).
    { split; cbn [used train]; [constructor; assumption|]. intros y. cbn [In]. rewrite ST. tauto. }
    assert (S2 : simple (mkWalk (n :: used s) (train s ++ [n]) (all_back s))).
    { split; cbn [used train]; [|intros y; rewrite in_app_iff, ST; cbn [In]; tauto].
      apply NoDup_rev in ND. rewrite <- (rev_involutive (train s ++ [n])). apply NoDup_rev. rewrite rev_app_distr. cbn [rev app].
      constructor; [rewrite <- in_rev; exact NT|exact ND]. }
    destruct (in_front w bw n) eqn:FR.
    - destruct (tr n (is_backwards K at_ w bw n) (mkWalk (n :: used s) (n :: train s) (all_back s))) as [s1|] eqn:R1; cbn [bind] in E; [|discriminate].
      destruct (in_back w bw n) eqn:BK; [exfalso; apply NB; reflexivity|]. cbn [bind] in E.
      apply (IH s1 s' INC' E). apply (TR _ _ _ _ R1 S1).
    - cbn [bind] in E. destruct (in_back w bw n) eqn:BK.
      + destruct (tr n (is_backwards K at_ w bw n) (mkWalk (n :: used s) (train s ++ [n]) (all_back s))) as [s2|] eqn:R2; cbn [bind] in E; [|discriminate].
        apply (IH s2 s' INC' E). apply (TR _ _ _ _ R2 S2).
      + cbn [bind] in E. apply (IH s s' INC' E). split; assumption.
  Qed.
  Theorem once : (forall w n, In n (near w) -> aligned K at_ w n -> ~ straddles K at_ w n) ->
    forall limit w t, find_train_from_wagon K at_ near limit w = Ok t -> NoDup t.
  Proof.
    intros NS limit w t E. unfold find_train_from_wagon in E.
    destruct (traverse limit w false (mkWalk [w] [w] true)) as [s|] eqn:T; cbn [bind] in E; [|discriminate]. injection E as <-.
    assert (S : simple s).
    { assert (G : forall limit w bw s s', traverse limit w bw s = Ok s' -> simple s -> simple s').
      { clear -NS HK. induction limit as [|l IH]; intros w bw s s' E S; cbn [Rake_Model.traverse] in E; [discriminate|].
        apply (visit_simple (traverse l) w bw (NS w) (fun n b a a' => IH n b a a') (near w) _ s' (incl_refl _) E).
        destruct (loco at_ w && negb bw); exact S. }
      apply (G _ _ _ _ _ T). split; cbn [used train]; [constructor; [intros []|constructor]|tauto]. }
    destruct (all_back s); [apply NoDup_rev|]; apply S.
  Qed.

  (** ** recursion deep enough *)
  Definition left_over (ws : list nat) (s : walk) : nat := length (filter (fun n => negb (mem n (used s))) ws).
  Lemma left_mono : forall ws s s', incl (used s) (used s') -> (left_over ws s' <= left_over ws s)%nat.
  Proof.
    intros ws s s' I. unfold left_over. induction ws as [|x ws IH]; [reflexivity|]. cbn [filter].
    destruct (mem x (used s)) eqn:M; destruct (mem x (used s')) eqn:M'; cbn [negb length]; try lia.
    apply mem_iff, I, mem_iff in M. congruence.
  Qed.
  Lemma left_less : forall ws s s' n, incl (used s) (used s') -> In n ws -> ~ In n (used s) -> In n (used s') -> (left_over ws s' < left_over ws s)%nat.
  Proof.
    intros ws s s' n I W N N'. unfold left_over. induction ws as [|x ws IH]; [contradiction|]. cbn [filter].
    pose proof (left_mono ws s s' I) as L. unfold left_over in L.
    destruct W as [->|W].
    - assert (M : mem n (used s) = false) by (apply mem_false; exact N). assert (M' : mem n (used s') = true) by (apply mem_iff; exact N').
      rewrite M, M'. cbn [negb length]. lia.
    - specialize (IH W). destruct (mem x (used s)) eqn:M; destruct (mem x (used s')) eqn:M'; cbn [negb length]; try lia.
      apply mem_iff, I, mem_iff in M. congruence.
  Qed.
  Lemma visit_enough : forall ws l, (forall w, In w ws -> incl (near w) ws) ->
    (forall n b s, In n ws -> In n (used s) -> (left_over ws s < l)%nat -> exists s', traverse l n b s = Ok s') ->
    forall w bw, In w ws -> forall ns s, incl ns (near w) -> (left_over ws s <= l)%nat ->
      exists s', visit (traverse l) w bw ns s = Ok s'.
  Proof.
    intros ws l CL TR w bw W. induction ns as [|n ns IH]; intros s INC L; cbn [Rake_Model.visit]; [eauto|].
    assert (INC' : incl ns (near w)) by (intros x X; apply INC; right; exact X).
    destruct (mem n (used s)) eqn:M; [apply IH; assumption|]. apply mem_false in M.
    destruct (facing_ok w n) eqn:F; [|apply IH; assumption]. cbv zeta.
    assert (NW : In n ws) by (apply (CL w W), INC; left; reflexivity).
    assert (GO : forall b u x f, incl (used s) u -> exists s', traverse l n b (mkWalk (n :: u) x f) = Ok s').
    { intros b u x f I. apply TR; [exact NW|left; reflexivity|].
      assert ((left_over ws (mkWalk (n :: u) x f) < left_over ws s)%nat); [|lia].
      apply (left_less ws s _ n); cbn [used]; [intros y Y; right; apply I; exact Y|exact NW|exact M|left; reflexivity]. }
    assert (GR : forall b u x f s', incl (used s) u -> traverse l n b (mkWalk (n :: u) x f) = Ok s' -> incl (used s) (used s')).
    { intros b u x f s' I R. destruct (traverse_good _ _ _ _ _ R (or_introl eq_refl)) as [[G _] _]. intros y Y. apply G. right. apply I. exact Y. }
    destruct (in_front w bw n).
    - destruct (GO (is_backwards K at_ w bw n) (used s) (n :: train s) (all_back s) (incl_refl _)) as [s1 R1]. rewrite R1. cbn [bind].
      pose proof (GR _ _ _ _ _ (incl_refl _) R1) as I1.
      destruct (in_back w bw n).
      + destruct (GO (is_backwards K at_ w bw n) (used s1) (train s1 ++ [n]) (all_back s1) I1) as [s2 R2]. rewrite R2. cbn [bind].
        apply IH; [exact INC'|]. pose proof (left_mono ws s s2 (GR _ _ _ _ _ I1 R2)). lia.
      + cbn [bind]. apply IH; [exact INC'|]. pose proof (left_mono ws s s1 I1). lia.
    - cbn [bind]. destruct (in_back w bw n).
      + destruct (GO (is_backwards K at_ w bw n) (used s) (train s ++ [n]) (all_back s) (incl_refl _)) as [s2 R2]. rewrite R2. cbn [bind].
        apply IH; [exact INC'|]. pose proof (left_mono ws s s2 (GR _ _ _ _ _ (incl_refl _) R2)). lia.
      + cbn [bind]. apply IH; assumption.
  Qed.
  Lemma traverse_enough : forall ws, (forall w, In w ws -> incl (near w) ws) ->
    forall l n b s, In n ws -> In n (used s) -> (left_over ws s < l)%nat -> exists s', traverse l n b s = Ok s'.
  Proof.
    intros ws CL. induction l as [|l IH]; intros n b s N U L; [lia|]. cbn [Rake_Model.traverse].
    apply (visit_enough ws l CL IH n b N (near n)); [apply incl_refl|].
    destruct (loco at_ n && negb b); [change (left_over ws (mkWalk (used s) (train s) false)) with (left_over ws s)|]; lia.
  Qed.
  Theorem deep_enough : forall ws limit w, (forall w, In w ws -> incl (near w) ws) -> In w ws -> (length ws <= limit)%nat ->
    exists t, find_train_from_wagon K at_ near limit w = Ok t.
  Proof.
    intros ws limit w CL W L. unfold find_train_from_wagon.
    destruct (traverse_enough ws CL limit w false (mkWalk [w] [w] true) W (or_introl eq_refl)) as [s ->].
    - assert (X : forall l : list nat, In w l -> (left_over l (mkWalk [w] [w] true) < length l)%nat).
      { clear. unfold left_over. cbn [used]. induction l as [|x l IH]; intros I; [contradiction|]. cbn [filter].
        assert (LE : (length (filter (fun n => negb (mem n [w])) l) <= length l)%nat).
        { clear. induction l; cbn [filter length]; [lia|]. destruct (negb (mem a [w])); cbn [length]; lia. }
        destruct I as [->|I].
        - assert (M : mem w [w] = true) by (apply mem_iff; left; reflexivity). rewrite M. cbn [negb length]. lia.
        - specialize (IH I). destruct (negb (mem x [w])); cbn [length]; lia. }
      specialize (X ws W). lia.
    - cbn [bind]. eauto.
  Qed.
End Rake.
