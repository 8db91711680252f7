(** Proofs about the search index of a blueprint with groups (C40). *)
From Coq Require Import ZArith List Bool Lia Permutation Sorting.Sorted.
From Verif Require Import Common Dict Spatial_Model Spatial_Spec Spatial_Proofs Group_Model Group_Spec Group_Proofs
  Wires_Proofs.
Import ListNotations.
Local Open Scope Z_scope.

(** ** Heaps that look the same from a list *)
Definition agree (h h' : heap) (l : list oid) : Prop :=
  forall a gs y, reach h l a gs y -> knd (objs h' y) = knd (objs h y) /\ (knd (objs h y) = Group -> kids h' y = kids h y).

Lemma agree_head : forall h h' x l, agree h h' (x :: l) ->
  knd (objs h' x) = knd (objs h x) /\ (knd (objs h x) = Group -> kids h' x = kids h x).
Proof. intros h h' x l A. apply (A [O] []). constructor. reflexivity. Qed.
Lemma agree_tail : forall h h' x l, agree h h' (x :: l) -> agree h h' l.
Proof.
  intros h h' x l A a gs y R. destruct a as [|i a]; [inversion R|].
  apply (A (S i :: a) gs). apply reach_cons_S. assumption.
Qed.
Lemma agree_kids : forall h h' l g, agree h h' l -> In g l -> knd (objs h g) = Group -> agree h h' (kids h g).
Proof.
  intros h h' l g A I K a gs y R. apply In_nth_error in I. destruct I as [i I].
  apply (A (i :: a) (g :: gs)). econstructor; eassumption.
Qed.

Lemma flatten_agree : forall f h h' l, agree h h' l -> flatten_entities f h' l = flatten_entities f h l.
Proof.
  induction f as [|f IH]; intros h h' l A; [reflexivity|]. rewrite !flatten_S.
  assert (G : forall l0, (forall x, In x l0 -> In x l) -> go_flat h' f l0 = go_flat h f l0).
  { induction l0 as [|x l0 IHl]; intros Sub; [reflexivity|]. cbn [go_flat].
    rewrite IHl by (intros; apply Sub; right; assumption).
    assert (I : In x l) by (apply Sub; left; reflexivity).
    assert (X : knd (objs h' x) = knd (objs h x) /\ (knd (objs h x) = Group -> kids h' x = kids h x)).
    { apply In_nth_error in I. destruct I as [i I]. apply (A [i] []). constructor. assumption. }
    destruct X as [X1 X2]. rewrite X1. destruct (knd (objs h x)) eqn:K; try reflexivity.
    rewrite (X2 eq_refl). rewrite (IH h h' (kids h x)) by (eapply agree_kids; eassumption).
    destruct (flatten_entities f h (kids h x)) as [inner|e] eqn:F; [|reflexivity]. cbn [bind].
    destruct f as [|f']; [discriminate|].
    pose proof (flatten_spec _ _ _ _ F) as [N [addrs [_ [_ F2]]]].
    rewrite (flatten_leaves f' h inner N). rewrite flatten_leaves; [reflexivity|].
    apply Forall_forall. intros y Iy.
    assert (R : exists a gs, reach h (kids h x) a gs y).
    { clear - F2 Iy. induction F2 as [|a z addrs es [gs R] F2 IH]; [destruct Iy|]. destruct Iy as [<-|Iy]; eauto. }
    destruct R as [a [gs R]]. destruct (agree_kids h h' l x A I K a gs y R) as [-> _].
    rewrite Forall_forall in N. apply N. assumption. }
  apply G. auto.
Qed.

Lemma nested_agree : forall n h h' l, agree h h' l -> nested h n l -> nested h' n l.
Proof.
  induction n as [n IH] using lt_wf_ind. intros h h' l A N. inversion N as [n0 l0 H]; subst. constructor.
  intros g I K. pose proof I as I'. apply In_nth_error in I'. destruct I' as [i E].
  destruct (A [i] [] g) as [A1 A2]; [constructor; assumption|]. rewrite A1 in K.
  destruct (H g I K) as [m [Lm Nm]]. exists m. split; [assumption|]. rewrite (A2 K).
  apply IH with (h := h); [assumption| |assumption]. eapply agree_kids; eassumption.
Qed.

Lemma reach_agree : forall h h' l a gs y, agree h h' l -> reach h l a gs y -> reach h' l a gs y.
Proof.
  intros h h' l a gs y A R. induction R as [l i x E|l i g a gs x E K R IH].
  - constructor. assumption.
  - destruct (A [i] [] g) as [A1 A2]; [constructor; assumption|].
    econstructor; [eassumption|congruence|]. rewrite (A2 K). apply IH.
    eapply agree_kids; [eassumption| |assumption]. eapply nth_error_In. eassumption.
Qed.

Lemma reach_depth : forall h l a gs x, reach h l a gs x -> forall n, nested h n l -> (List.length gs <= n)%nat.
Proof.
  intros h l a gs x R. induction R as [|l i g a gs x E K R IH]; intros n N; [simpl; lia|].
  inversion N as [n0 l0 H]; subst. destruct (H g (nth_error_In _ _ E) K) as [m [Lm Nm]].
  specialize (IH m Nm). simpl. lia.
Qed.

Lemma reach_app_l : forall h l r a gs y, reach h l a gs y -> reach h (l ++ r) a gs y.
Proof.
  intros h l r a gs y R. destruct R as [l i x E|l i g a gs x E K R].
  - constructor. rewrite nth_error_app1; [assumption|]. apply nth_error_Some. congruence.
  - econstructor; [|eassumption|eassumption]. rewrite nth_error_app1; [assumption|]. apply nth_error_Some. congruence.
Qed.

Lemma path_group : forall h l a gs y, reach h l a gs y -> forall g, In g gs -> exists a' gs', reach h l a' gs' g.
Proof.
  intros h l a gs y R. induction R as [l i x E|l i g0 a gs x E K R IH]; intros g I; [destruct I|].
  destruct I as [<-|I].
  - exists [i], []. constructor. assumption.
  - destruct (IH g I) as [a' [gs' R']]. exists (i :: a'), (g0 :: gs'). econstructor; eassumption.
Qed.

(** ** Flattening lists piece by piece *)
Lemma flatten_app : forall f h l r, flatten_entities (S f) h (l ++ r) =
  let* a := flatten_entities (S f) h l in let* b := flatten_entities (S f) h r in Ok (a ++ b).
Proof.
  intros f h l r. rewrite !flatten_S. induction l as [|x l IH].
  - cbn [app go_flat bind]. destruct (go_flat h f r); reflexivity.
  - cbn [app go_flat]. rewrite IH.
    destruct (match knd (objs h x) with Group => _ | _ => _ end); [|reflexivity]. cbn [bind].
    destruct (go_flat h f l); [|reflexivity]. cbn [bind].
    destruct (go_flat h f r); [|reflexivity]. cbn [bind]. rewrite app_assoc. reflexivity.
Qed.

Lemma nth_split_remove : forall {A} (l : list A) i x, nth_error l i = Some x ->
  exists l1 l2, l = l1 ++ [x] ++ l2 /\ remove_nth l i = l1 ++ l2.
Proof.
  induction l as [|a l IH]; intros [|i] x E; simpl in E; try discriminate.
  - injection E as <-. exists [], l. split; reflexivity.
  - destruct (IH i x E) as [l1 [l2 [E1 E2]]]. exists (a :: l1), l2. simpl. rewrite E2. split; [rewrite E1; reflexivity|reflexivity].
Qed.

(** ** The representation invariant *)
Section Index.
  Variable fuel : nat.
  Variable cs eps : Z.
  Hypothesis Hcs : 0 < cs.
  Hypothesis Heps : 0 < eps.

  Lemma rep_ext : forall (B B' : oid -> option zbox) m s, (forall y, In y s -> B' y = B y) ->
    Rep cs eps B m s -> Rep cs eps B' m s.
  Proof.
    intros B B' m s E [N G]. split; [assumption|]. intros c. rewrite G. f_equal.
    clear G. induction s as [|y s IH]; [reflexivity|]. simpl.
    rewrite IH by (intros; apply E; right; assumption).
    unfold coversb. rewrite (E y) by (left; reflexivity). reflexivity.
  Qed.

  Lemma fold_add_rep : forall (B : oid -> option zbox) (l : list oid) m (s : list oid), Rep cs eps B m s -> Rep cs eps B (fold_left (sm_add cs eps B) l m) (s ++ l).
  Proof.
    intros B. induction l as [|y l IH]; intros m s R; simpl; [rewrite app_nil_r; assumption|].
    replace (s ++ y :: l) with ((s ++ [y]) ++ l) by (rewrite <- app_assoc; reflexivity).
    apply IH. apply add_rep. assumption.
  Qed.
  Lemma fold_remove_rep : forall (B : oid -> option zbox) (l : list oid) m (s : list oid), Rep cs eps B m s ->
    Rep cs eps B (fold_left (sm_remove cs eps B Z.eqb) l m) (fold_left (drop_first Z.eqb) l s).
  Proof.
    intros B. induction l as [|y l IH]; intros m s R; simpl; [assumption|].
    apply IH. apply remove_rep; [exact Hcs| |assumption].
    intros a b E. apply Z.eqb_eq in E. congruence.
  Qed.
  Lemma drop_skip : forall (a : list oid) y b, ~ In y a -> drop_first Z.eqb (a ++ y :: b) y = a ++ b.
  Proof.
    induction a as [|z a IH]; intros y b N; simpl.
    - rewrite Z.eqb_refl. reflexivity.
    - destruct (Z.eqb_spec z y) as [->|D]; [exfalso; apply N; left; reflexivity|].
      rewrite IH; [reflexivity|]. intros I. apply N. right. assumption.
  Qed.
  Lemma fold_drop : forall (l a b : list oid), NoDup (a ++ l ++ b) -> fold_left (drop_first Z.eqb) l (a ++ l ++ b) = a ++ b.
  Proof.
    induction l as [|y l IH]; intros a b N; [reflexivity|]. simpl.
    rewrite drop_skip.
    - apply IH. eapply NoDup_remove_1. simpl in N. exact N.
    - simpl in N. apply NoDup_remove_2 in N. intros I. apply N. apply in_or_app. auto.
  Qed.

  (** Everything the index of [b] relies on. *)
  Definition Inv (n : nat) (b : oid) (h : heap) : Prop :=
    consistent h /\ distinct h /\ knd (objs h b) = Blueprint /\ nested h n (kids h b) /\
    exists leaves, flatten_entities fuel h (kids h b) = Ok leaves /\ Rep cs eps (world_box fuel h) (index h b) leaves.

  Lemma box_same : forall h h' b n gs y a a', consistent h -> consistent h' ->
    knd (objs h b) = Blueprint -> knd (objs h' b) = Blueprint -> (n + 2 <= fuel)%nat -> (List.length gs <= n)%nat ->
    reach h (kids h b) a gs y -> reach h' (kids h' b) a' gs y ->
    (forall g, In g gs -> position_of h' g = position_of h g) -> position_of h' y = position_of h y ->
    shape (objs h' y) = shape (objs h y) ->
    world_box fuel h' y = world_box fuel h y.
  Proof.
    intros h h' b n gs y a a' C C' K K' Fu Le R R' Pg Py Sh.
    unfold world_box. rewrite Sh.
    rewrite (global_spec h b a gs y fuel C (or_introl K) R) by lia.
    rewrite (global_spec h' b a' gs y fuel C' (or_introl K') R') by lia.
    unfold base. rewrite K, K', Py.
    assert (E : map (position_of h') gs = map (position_of h) gs) by (apply map_ext_in; assumption).
    rewrite E. reflexivity.
  Qed.

  Lemma leaf_reach : forall f h l leaves y, flatten_entities f h l = Ok leaves -> In y leaves ->
    knd (objs h y) <> Group /\ exists a gs, reach h l a gs y.
  Proof.
    intros f h l leaves y F I. pose proof (flatten_spec _ _ _ _ F) as [N [addrs [_ [_ F2]]]]. split.
    - rewrite Forall_forall in N. apply N. assumption.
    - clear - F2 I. induction F2 as [|a z addrs es [gs R] F2 IH]; [destruct I|]. destruct I as [<-|I]; eauto.
  Qed.

  (** A change that leaves everything below [b] alone. *)
  Lemma inv_agree : forall n b h h', (n + 2 <= fuel)%nat -> Inv n b h -> consistent h' -> distinct h' ->
    agree h h' (kids h b) -> kids h' b = kids h b -> knd (objs h' b) = Blueprint -> index h' b = index h b ->
    (forall y, below h b y -> position_of h' y = position_of h y /\ shape (objs h' y) = shape (objs h y)) ->
    Inv n b h'.
  Proof.
    intros n b h h' Fu [C [D [K [N [leaves [F R]]]]]] C' D' A Kd K' Ix P.
    split; [assumption|]. split; [assumption|]. split; [assumption|]. rewrite Kd.
    split; [eapply nested_agree; eassumption|]. exists leaves. split.
    - rewrite (flatten_agree fuel h h' _ A). assumption.
    - rewrite Ix. eapply rep_ext; [|exact R]. intros y Iy.
      destruct (leaf_reach _ _ _ _ y F Iy) as [_ [a [gs Ry]]].
      apply (box_same h h' b n gs y a a); try assumption.
      + eapply reach_depth; eassumption.
      + rewrite Kd. eapply reach_agree; eassumption.
      + intros g Ig. apply P. eapply path_group; eassumption.
      + apply P. exists a, gs. assumption.
      + apply P. exists a, gs. assumption.
  Qed.

  Lemma inv_moved : forall n b h x v, (n + 2 <= fuel)%nat -> Inv n b h -> ~ below h b x ->
    consistent (update_position h x v) -> distinct (update_position h x v) ->
    Inv n b (update_position h x v).
  Proof.
    intros n b h x v Fu V B C' D'. apply (inv_agree n b h); try assumption; try reflexivity.
    - intros a gs y _. split; [apply upd_knd|reflexivity].
    - rewrite upd_knd. apply V.
    - intros y By. split; [|apply upd_shape]. rewrite upd_pos. destruct (Z.eqb_spec y x) as [->|]; [contradiction|reflexivity].
  Qed.

  Lemma below_listed : forall h b y, below h b y -> exists c, In y (kids h c).
  Proof.
    intros h b y [a [gs R]]. remember (kids h b) as l eqn:E. revert b E.
    induction R as [l i x N|l i g a gs x N K R IH]; intros b ->.
    - exists b. eapply nth_error_In. eassumption.
    - apply (IH g eq_refl).
  Qed.

  Lemma kids_other : forall h c x h', add fuel cs eps h c x = Ok h' -> forall d, d <> c -> kids h' d = kids h d.
  Proof.
    intros h c x h' A d Dc. unfold add in A. apply bind_ok in A. destruct A as [lv [_ A]]. injection A as <-.
    cbn [kids]. apply upd_other. assumption.
  Qed.
  Lemma add_shape : forall h c x h', add fuel cs eps h c x = Ok h' -> forall y, shape (objs h' y) = shape (objs h y).
  Proof.
    intros h c x h' A y. unfold add in A. apply bind_ok in A. destruct A as [lv [_ A]]. injection A as <-.
    cbn [objs]. unfold upd. destruct (Z.eqb_spec y x); subst; reflexivity.
  Qed.

  Lemma step_inv : forall n b h o h', (n + 3 <= fuel)%nat -> Inv n b h -> settled n b h o ->
    run_op fuel cs eps h o = Ok h' -> Inv n b h'.
  Proof.
    intros n b h o h' Fu V S R. pose proof V as [C [D [K [N [leaves [F Rp]]]]]].
    assert (AL : allowed h o) by (destruct o; simpl in *; tauto).
    pose proof (step_ok fuel cs eps h o h' (conj C D) AL R) as [C' D'].
    destruct o as [c x|c i|x v|x v]; simpl in R, S.
    - destruct S as [Lo [Px [Kx [S1 S2]]]].
      pose proof (add_knd fuel cs eps _ _ _ _ R) as AK. pose proof (add_pos fuel cs eps _ _ _ _ R) as AP.
      pose proof (kids_other _ _ _ _ R) as KO. pose proof (add_shape _ _ _ _ R) as AS.
      destruct (Z.eq_dec c b) as [->|Dc].
      + (* into the blueprint itself *)
        assert (Dx : b <> x) by (intros ->; congruence).
        assert (AG : forall l, agree h h' l).
        { intros l a gs y _. split; [apply AK|]. intros G. apply KO. intros ->. congruence. }
        pose proof R as R0. unfold add in R0. apply bind_ok in R0. destruct R0 as [lx [Fx R0]].
        assert (Kb : kids h' b = kids h b ++ [x]) by (injection R0 as <-; cbn [kids]; apply upd_same).
        assert (Ib : index h' b = fold_left (sm_add cs eps (world_box fuel h)) lx (index h b))
          by (injection R0 as <-; cbn [index]; apply upd_same).
        clear R0. split; [assumption|]. split; [assumption|]. split; [rewrite AK; assumption|].
        assert (N' : nested h' n (kids h' b)).
        { apply nested_agree with (h := h); [apply AG|]. rewrite Kb. constructor. intros g Ig Kg.
          apply in_app_or in Ig. destruct Ig as [Ig|[<-|[]]].
          - inversion N as [n0 l0 H]; subst. apply H; assumption.
          - apply S1; [reflexivity|assumption]. }
        split; [exact N'|]. exists (leaves ++ lx). split.
        * rewrite (flatten_agree fuel h h' _ (AG _)), Kb. destruct fuel as [|f]; [discriminate|].
          rewrite flatten_app, F, Fx. reflexivity.
        * rewrite Ib. apply rep_ext with (B := world_box fuel h); [|apply fold_add_rep; assumption].
          intros y Iy. apply in_app_or in Iy. destruct Iy as [Iy|Iy].
          -- destruct (leaf_reach _ _ _ _ y F Iy) as [_ [a [gs Ry]]].
             apply (box_same h h' b n gs y a a); try assumption; try (rewrite AK; assumption); try lia.
             ++ eapply reach_depth; eassumption.
             ++ rewrite Kb. apply reach_app_l. eapply reach_agree; [apply AG|assumption].
             ++ intros; apply AP.
             ++ apply AP.
             ++ apply AS.
          -- destruct (leaf_reach _ _ _ _ y Fx Iy) as [Ly [a [gs Ry]]].
             unfold world_box. rewrite AS.
             assert (W : y = x \/ knd (objs h x) = Group /\ exists a' gs', reach h (kids h x) a' gs' y /\ ~ In b gs' /\ (List.length gs' + 3 <= fuel)%nat).
             { destruct a as [|j a]; [inversion Ry|]. inversion Ry as [l1 i1 x1 E1|l1 i1 g1 a1 gs1 x1 E1 G1 R1]; subst.
               - left. destruct j as [|j]; simpl in E1; [congruence|destruct j; discriminate].
               - right. assert (g1 = x) by (destruct j as [|j]; simpl in E1; [congruence|destruct j; discriminate]). subst g1.
                 split; [assumption|]. exists a, gs1. split; [assumption|]. split.
                 + intros Ib'. destruct (path_tail _ _ _ _ _ R1 b Ib') as [Q _]. congruence.
                 + destruct (S1 eq_refl G1) as [m [Lm Nm]]. pose proof (reach_depth _ _ _ _ _ R1 _ Nm). lia. }
             assert (GP : exists p, global_position fuel h y = Ok p).
             { destruct W as [->|[Kg [a' [gs' [R' [_ L']]]]]].
               - destruct fuel as [|f]; [lia|]. cbn [global_position]. rewrite Px. eauto.
               - assert (Tx : topmost h x) by (right; split; [assumption|left; assumption]).
                 rewrite (global_spec h x a' gs' y fuel C Tx R') by lia. eauto. }
             destruct GP as [p GP]. rewrite GP.
             rewrite (add_offset fuel cs eps h b x h' y p C (or_introl K) Lo Px Dx Kx W ltac:(lia) R GP).
             unfold base. rewrite K, vadd_0_l. reflexivity.
      + destruct S2 as [S2|S2]; [contradiction|].
        assert (Ix : index h' b = index h b).
        { unfold add in R. apply bind_ok in R. destruct R as [lv [_ R]]. injection R as <-. cbn [index]. apply upd_other. congruence. }
        apply (inv_agree n b h h'); try assumption; try lia.
        * intros a gs y Ry. split; [apply AK|]. intros G. apply KO. intros ->. apply S2. exists a, gs. assumption.
        * apply KO. congruence.
        * rewrite AK. assumption.
        * intros y _. split; [apply AP|apply AS].
    - unfold delete in R. destruct (nth_error (kids h c) i) as [x|] eqn:E; [|discriminate].
      apply bind_ok in R. destruct R as [lx [Fx R]].
      destruct (Z.eq_dec c b) as [->|Dc].
      + assert (Kb : kids h' b = remove_nth (kids h b) i) by (injection R as <-; cbn [kids]; apply upd_same).
        assert (KO : forall d, d <> b -> kids h' d = kids h d) by (intros; injection R as <-; cbn [kids]; apply upd_other; assumption).
        assert (OB : objs h' = objs h) by (injection R as <-; reflexivity).
        assert (Ib : index h' b = fold_left (sm_remove cs eps (world_box fuel h) Z.eqb) lx (index h b))
          by (injection R as <-; cbn [index]; apply upd_same).
        assert (AG : forall l, agree h h' l).
        { intros l a gs y _. rewrite OB. split; [reflexivity|]. intros G. apply KO. intros ->. congruence. }
        destruct (nth_split_remove _ _ _ E) as [l1 [l2 [E1 E2]]].
        split; [assumption|]. split; [assumption|]. split; [rewrite OB; assumption|]. split.
        * apply nested_agree with (h := h); [apply AG|]. rewrite Kb, E2. inversion N as [n0 l0 H]; subst.
          constructor. intros g Ig. apply H. rewrite E1. apply in_app_or in Ig. apply in_or_app. simpl. tauto.
        * pose proof (lists_nodup h b n leaves C D N (flatten_spec _ _ _ _ F)) as ND.
          clear R S AL. destruct fuel as [|f]; [discriminate|].
          rewrite E1, flatten_app in F. apply bind_ok in F. destruct F as [f1 [F1 F]].
          rewrite flatten_app, Fx in F. cbn [bind] in F. apply bind_ok in F. destruct F as [f23 [F F']].
          apply bind_ok in F. destruct F as [f2 [F2 F3]]. injection F3 as <-. injection F' as <-.
          exists (f1 ++ f2). split.
          -- rewrite (flatten_agree (S f) h h' _ (AG _)), Kb, E2, flatten_app, F1, F2. reflexivity.
          -- rewrite Ib. apply rep_ext with (B := world_box (S f) h).
             ++ intros y _. unfold world_box. rewrite OB.
                assert (G : forall k z, global_position k h' z = global_position k h z).
                { clear - OB. induction k as [|k IH]; intros z; [reflexivity|]. cbn [global_position]. rewrite OB.
                  destruct (parent (objs h z)) as [d|]; [|reflexivity]. destruct (knd (objs h d)); [reflexivity| |reflexivity].
                  rewrite IH. reflexivity. }
                rewrite G. reflexivity.
             ++ rewrite <- (fold_drop lx f1 f2 ND). apply fold_remove_rep. assumption.
      + destruct S as [S|S]; [contradiction|]. injection R as <-.
        apply (inv_agree n b h); try assumption; try lia; cbn [kids objs index]; auto.
        * intros a gs y Ry. split; [reflexivity|]. intros G. cbn [kids]. apply upd_other.
          intros ->. apply S. exists a, gs. assumption.
        * apply upd_other. congruence.
        * apply upd_other. congruence.
    - unfold set_position in R. destruct (parent (objs h x)); [discriminate|]. injection R as <-.
      apply (inv_moved n b h x v); assumption || lia.
    - injection R as <-. apply (inv_moved n b h x v); assumption || lia.
  Qed.

  Lemma run_inv : forall n b os h h', (n + 3 <= fuel)%nat -> Inv n b h -> settled_all fuel cs eps n b h os ->
    run fuel cs eps h os = Ok h' -> Inv n b h'.
  Proof.
    intros n b. induction os as [|o os IH]; intros h h' Fu V S R; simpl in R.
    - injection R as <-. assumption.
    - destruct S as [S1 S2]. apply bind_ok in R. destruct R as [h1 [R1 R2]].
      apply (IH h1); auto. eapply step_inv; eassumption.
  Qed.

  (** A point lookup in a represented map. *)
  Lemma lookup_filter : forall (B : oid -> option zbox) m s p, Rep cs eps B m s ->
    exists f, (forall y, f y = true <-> exists bx, B y = Some bx /\ in_zbox p bx /\ ~ seam cs eps p bx) /\
      get_on_point cs B m p None = filter f s.
  Proof.
    intros B m s p R.
    exists (fun y => pin B p y && coversb cs eps B (map_coords cs p) y).
    split.
    - intros y. rewrite andb_true_iff, (pin_spec B), (coversb_spec cs eps B Hcs). unfold item_touches. split.
      + intros [[bx [E1 E2]] [b' [E3 E4]]]. exists bx. rewrite E1 in E3. inversion E3; subst.
        rewrite (covers_at cs eps Hcs) in E4 by assumption. auto.
      + intros [bx [E1 [E2 E3]]]. split; [eauto|]. exists bx. rewrite (covers_at cs eps Hcs) by assumption. auto.
    - unfold get_on_point. pose proof (rep_content cs eps B _ _ (map_coords cs p) R) as Q.
      rewrite <- (filter_filter (pin B p)), <- Q.
      destruct (cell_get m (map_coords cs p)) as [l|]; [|reflexivity]. rewrite (point_loop_spec B). reflexivity.
  Qed.

  Lemma blueprint_search : forall n b os h h' p, (n + 3 <= fuel)%nat ->
    consistent h -> distinct h -> knd (objs h b) = Blueprint -> kids h b = [] -> index h b = [] ->
    settled_all fuel cs eps n b h os -> run fuel cs eps h os = Ok h' ->
    exists leaves f, lists h' (kids h' b) leaves /\ NoDup leaves /\
      (forall y, f y = true <-> exists bx, world_box fuel h' y = Some bx /\ in_zbox p bx /\ ~ seam cs eps p bx) /\
      get_on_point cs (world_box fuel h') (index h' b) p None = filter f leaves /\
      find_at fuel cs h' b p = hd_error (filter f leaves).
  Proof.
    intros n b os h h' p Fu C D K Kd Ix S R.
    assert (V : Inv n b h).
    { split; [assumption|]. split; [assumption|]. split; [assumption|]. rewrite Kd. split; [constructor; intros g []|].
      exists []. split; [destruct fuel; [lia|reflexivity]|]. rewrite Ix. split; [constructor|reflexivity]. }
    pose proof (run_inv n b os h h' Fu V S R) as [C' [D' [K' [N' [leaves [F Rp]]]]]].
    destruct (lookup_filter _ _ _ p Rp) as [f [Hf Hg]].
    exists leaves, f. split; [eapply flatten_spec; eassumption|].
    split; [eapply lists_nodup; try eassumption; eapply flatten_spec; eassumption|].
    split; [assumption|]. split; [assumption|]. unfold find_at. rewrite Hg. reflexivity.
  Qed.
End Index.

(** The box of an entity below a topmost collection. *)
Lemma world_box_at : forall f h c a gs x, consistent h -> topmost h c -> reach h (kids h c) a gs x ->
  (List.length gs + 2 <= f)%nat ->
  world_box f h x = match shape (objs h x) with
    | None => None
    | Some b => let p := vadd (base h c) (vadd (total (map (position_of h) gs)) (position_of h x)) in
                Some (shift_box b p)
    end.
Proof.
  intros f h c a gs x C T R L. unfold world_box. rewrite (global_spec h c a gs x f C T R L).
  destruct (shape (objs h x)); reflexivity.
Qed.
