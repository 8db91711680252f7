From Coq Require Import ZArith List Bool Lia Permutation.
From Verif Require Import Common Spatial_Model Spatial_Spec Spatial_Proofs Position_Model Position_Spec
  Position_Proofs Transform_Model Transform_Spec.
Import ListNotations.
Local Open Scope Z_scope.

Section Loop.
  Context {A : Type}.
  Variable cs eps : Z.
  Variable box : A -> option nat -> option zbox.
  Variable eeq : A * option nat -> A * option nat -> bool.
  Variable set_held : A -> bool -> A.
  Variable f : A -> result A.

  (** The list part of the loop. *)
  Fixpoint work (l : list A) : list A * option exn :=
    match l with
    | [] => ([], None)
    | a :: l' =>
        match f (set_held a false) with
        | Err x => (set_held a false :: l', Some x)
        | Ok a2 => (set_held a2 true :: fst (work l'), snd (work l'))
        end
    end.

  Lemma put_app : forall (pre rest : list A) a b, put (pre ++ a :: rest) (length pre) b = pre ++ b :: rest.
  Proof.
    intros. unfold put.
    rewrite firstn_app, firstn_all, Nat.sub_diag. cbn [firstn]. rewrite app_nil_r. do 2 f_equal.
    replace (S (length pre)) with (length (pre ++ [a])) by (rewrite app_length; simpl; lia).
    replace (pre ++ a :: rest) with ((pre ++ [a]) ++ rest) by (rewrite <- app_assoc; reflexivity).
    rewrite skipn_app, skipn_all, Nat.sub_diag. reflexivity.
  Qed.
  Lemma nth_mid : forall (pre rest : list A) a, nth_error (pre ++ a :: rest) (length pre) = Some a.
  Proof. intros. rewrite nth_error_app2 by lia. rewrite Nat.sub_diag. reflexivity. Qed.

  Lemma walk_work : forall rest pre m,
    let r := walk cs eps box eeq set_held f (seq (length pre) (length rest)) (pre ++ rest) m in
    fst (fst r) = pre ++ fst (work rest) /\ snd r = snd (work rest).
  Proof.
    induction rest as [|a rest IH]; intros pre m; cbn zeta.
    - simpl. auto.
    - cbn [length seq walk]. rewrite nth_mid. cbn [work].
      destruct (f (set_held a false)) as [a2|x] eqn:F.
      + rewrite put_app.
        replace (pre ++ set_held a2 true :: rest) with ((pre ++ [set_held a2 true]) ++ rest)
          by (rewrite <- app_assoc; reflexivity).
        replace (S (length pre)) with (length (pre ++ [set_held a2 true])) by (rewrite app_length; simpl; lia).
        specialize (IH (pre ++ [set_held a2 true])). cbn zeta in IH.
        destruct (IH (sm_add cs eps (ibox box ((pre ++ [set_held a2 true]) ++ rest))
            (sm_remove cs eps (ibox box (pre ++ a :: rest)) (ieqb eeq (pre ++ a :: rest)) m (length pre, None))
            (length pre, None))) as [I1 I2].
        rewrite I1, I2. rewrite <- app_assoc. simpl. auto.
      + rewrite put_app. simpl. auto.
  Qed.

  Lemma walk_all_work : forall l m,
    fst (fst (walk_all cs eps box eeq set_held f l m)) = fst (work l) /\
    snd (walk_all cs eps box eeq set_held f l m) = snd (work l).
  Proof. intros. apply (walk_work l [] m). Qed.

  (** Success and failure of the list part. *)
  Lemma work_ok : forall l (Q : A -> A -> Prop),
    Forall (fun a => exists a2, f (set_held a false) = Ok a2 /\ Q a (set_held a2 true)) l ->
    snd (work l) = None /\ Forall2 Q l (fst (work l)).
  Proof.
    intros l Q. induction 1 as [|a l [a2 [E q]] _ [I1 I2]]; simpl; [auto|].
    rewrite E. simpl. auto.
  Qed.
  Lemma work_none : forall l, snd (work l) = None ->
    Forall (fun a => exists a2, f (set_held a false) = Ok a2) l.
  Proof.
    induction l as [|a l IH]; simpl; intros E; constructor.
    - destruct (f (set_held a false)); [eauto|discriminate].
    - destruct (f (set_held a false)); [apply IH; assumption|discriminate].
  Qed.
  Lemma work_err : forall l x, snd (work l) = Some x -> exists pre a post,
    l = pre ++ a :: post /\ f (set_held a false) = Err x /\
    Forall (fun a => exists a2, f (set_held a false) = Ok a2) pre /\
    fst (work l) = fst (work pre) ++ set_held a false :: post /\ snd (work pre) = None.
  Proof.
    induction l as [|a l IH]; simpl; intros x E; [discriminate|].
    destruct (f (set_held a false)) as [a2|y] eqn:F; simpl in *.
    - destruct (IH x E) as [pre [b [post [E1 [E2 [E3 [E4 E5]]]]]]].
      exists (a :: pre), b, post. simpl. rewrite F, E4. simpl. subst. repeat split; auto.
      constructor; eauto.
    - inversion E; subst. exists [], a, l. simpl. repeat split; auto.
  Qed.
End Loop.

(** *** the index *)
Section Index.
  Context {A : Type}.
  Variable cs eps : Z.
  Hypothesis Hcs : 0 < cs.
  Variable box : A -> option nat -> option zbox.
  Variable eeq : A * option nat -> A * option nat -> bool.
  Hypothesis Heq : equality box eeq.
  Variable set_held : A -> bool -> A.
  Variable f : A -> result A.

  Notation RepL l := (Rep cs eps (ibox box l)).

  Lemma filter_ext_in2 : forall (s : list item) g g', (forall x, In x s -> g x = g' x) -> filter g s = filter g' s.
  Proof.
    induction s as [|x s IH]; simpl; intros g g' E; [reflexivity|].
    rewrite (E x) by (left; reflexivity). rewrite (IH g g') by (intros; apply E; right; assumption). reflexivity.
  Qed.

  Lemma holds_rep : forall l m s, holds cs eps box l m s <-> RepL l m s.
  Proof.
    intros l m s. split; intros [N G]; (split; [assumption|]); intros c.
    - destruct (G c) as [g [G1 G2]]. rewrite G2.
      rewrite (filter_ext_in2 s g (coversb cs eps (ibox box l) c)).
      + unfold wrap. destruct (filter (coversb cs eps (ibox box l) c) s); reflexivity.
      + intros x _. specialize (G1 x). pose proof (coversb_spec cs eps (ibox box l) Hcs c x) as C.
        destruct (g x), (coversb cs eps (ibox box l) c x); intuition.
    - exists (coversb cs eps (ibox box l) c). split; [intros; apply coversb_spec; assumption|].
      rewrite G. unfold wrap. destruct (filter (coversb cs eps (ibox box l) c) s); reflexivity.
  Qed.

  Lemma rep_ext : forall b1 b2 m (s : list item), (forall x, In x s -> b1 x = b2 x) ->
    Rep cs eps b1 m s -> Rep cs eps b2 m s.
  Proof.
    intros b1 b2 m s E [N G]. split; [assumption|]. intros c. rewrite G. f_equal.
    apply filter_ext_in2. intros x Hx. unfold coversb. rewrite (E x Hx). reflexivity.
  Qed.

  Lemma ieqb_box : forall l a b, ieqb eeq l a b = true -> ibox box l a = ibox box l b.
  Proof.
    intros l a b. unfold ieqb, ibox. destruct (nth_error l (fst a)), (nth_error l (fst b)); try discriminate.
    intros E. apply (proj2 Heq) in E. exact E.
  Qed.
  Lemma ieqb_refl : forall l a, (fst a < length l)%nat -> ieqb eeq l a a = true.
  Proof.
    intros l a E. unfold ieqb. destruct (nth_error l (fst a)) eqn:N.
    - apply (proj1 Heq).
    - apply nth_error_None in N. lia.
  Qed.

  Definition from (i k : nat) : list item := map (fun i => (i, None)) (seq i k).
  Lemma from_in : forall i k x, In x (from i k) <-> snd x = None /\ (i <= fst x < i + k)%nat.
  Proof.
    intros i k [j o]. unfold from. rewrite in_map_iff. simpl. split.
    - intros [n [E Hn]]. inversion E; subst. apply in_seq in Hn. split; [reflexivity|lia].
    - intros [-> Hj]. exists j. split; [reflexivity|]. apply in_seq. lia.
  Qed.
  Lemma from_nodup : forall i k, NoDup (from i k).
  Proof. intros. apply FinFun.Injective_map_NoDup; [intros x y E; congruence|apply seq_NoDup]. Qed.
  Lemma from_S : forall i k, from i (S k) = (i, None) :: from (S i) k.
  Proof. reflexivity. Qed.

  Lemma drop_split : forall (ieq : item -> item -> bool) it s tl moved, ieq it it = true ->
    filter (fun x => ieq x it) s = it :: tl ->
    exists r1 r2, s = r1 ++ it :: r2 /\ drop_first ieq (s ++ moved) it = (r1 ++ r2) ++ moved.
  Proof.
    intros ieq it s tl moved R. induction s as [|x s IH]; simpl; intros E; [discriminate|].
    destruct (ieq x it) eqn:F.
    - inversion E; subst. exists [], s. auto.
    - destruct (IH E) as [r1 [r2 [E1 E2]]]. exists (x :: r1), r2. subst s. simpl. rewrite E2. auto.
  Qed.

  (** The state in the middle of the loop. *)
  Definition mid (l : list A) (m : smap item) (i k : nat) (moved : list item) : Prop :=
    exists s, RepL l m (s ++ moved) /\ Permutation s (from i k) /\
      forall y, In y (from i k) ->
        filter (fun x => ieqb eeq l x y) s = filter (fun x => ieqb eeq l x y) (from i k).

  Lemma mid_remove : forall l m i k moved, mid l m i (S k) moved -> (i < length l)%nat ->
    exists s, RepL l (sm_remove cs eps (ibox box l) (ieqb eeq l) m (i, None)) (s ++ moved) /\
      Permutation s (from (S i) k) /\
      forall y, In y (from (S i) k) ->
        filter (fun x => ieqb eeq l x y) s = filter (fun x => ieqb eeq l x y) (from (S i) k).
  Proof.
    intros l m i k moved [s [R [P O]]] Hi.
    assert (Rf : ieqb eeq l (i, None) (i, None) = true) by (apply ieqb_refl; assumption).
    assert (F : filter (fun x => ieqb eeq l x (i, None)) s =
      (i, None) :: filter (fun x => ieqb eeq l x (i, None)) (from (S i) k)).
    { rewrite (O (i, None)); [|rewrite from_S; left; reflexivity]. rewrite from_S. simpl. rewrite Rf. reflexivity. }
    destruct (drop_split (ieqb eeq l) (i, None) s _ moved Rf F) as [r1 [r2 [E1 E2]]].
    exists (r1 ++ r2). split; [|split].
    - rewrite <- E2. apply remove_rep; try assumption. intros a b. apply ieqb_box.
    - subst s. rewrite from_S in P. symmetry in P. apply Permutation_cons_app_inv in P. symmetry. assumption.
    - intros y Hy. assert (Hy' : In y (from i (S k))) by (rewrite from_S; right; assumption).
      specialize (O y Hy'). rewrite from_S in O. subst s. rewrite filter_app in O |- *. simpl in O.
      destruct (ieqb eeq l (i, None) y) eqn:G; [|assumption].
      assert (ND : NoDup (r1 ++ (i, None) :: r2)).
      { eapply Permutation_NoDup; [symmetry; exact P|]. apply from_nodup. }
      destruct (filter (fun x => ieqb eeq l x y) r1) as [|z t] eqn:FR.
      + simpl in *. injection O as O. assumption.
      + simpl in O. injection O as Oz _. exfalso.
        assert (Hz : In z r1).
        { assert (In z (filter (fun x => ieqb eeq l x y) r1)) by (rewrite FR; left; reflexivity).
          apply filter_In in H. tauto. }
        subst z. apply NoDup_remove_2 in ND. apply ND. apply in_or_app. left. assumption.
  Qed.

  Lemma nth_put_other : forall (pre rest : list A) a b j, j <> length pre ->
    nth_error (pre ++ a :: rest) j = nth_error (pre ++ b :: rest) j.
  Proof.
    intros pre rest a b j N. destruct (Nat.lt_ge_cases j (length pre)).
    - rewrite !nth_error_app1 by assumption. reflexivity.
    - rewrite !nth_error_app2 by assumption. destruct (j - length pre)%nat eqn:E; [lia|reflexivity].
  Qed.

  Lemma walk_index : forall rest pre m moved,
    (forall x, In x moved -> snd x = None /\ (fst x < length pre)%nat) ->
    mid (pre ++ rest) m (length pre) (length rest) moved ->
    let r := walk cs eps box eeq set_held f (seq (length pre) (length rest)) (pre ++ rest) m in
    (snd r = None -> RepL (fst (fst r)) (snd (fst r)) (moved ++ from (length pre) (length rest))) /\
    (forall x, snd r = Some x -> exists j s, (length pre <= j < length pre + length rest)%nat /\
       RepL (fst (fst r)) (snd (fst r)) s /\
       Permutation ((j, None) :: s) (moved ++ from (length pre) (length rest)) /\
       exists a, nth_error (pre ++ rest) j = Some a /\ f (set_held a false) = Err x).
  Proof.
    induction rest as [|a rest IH]; intros pre m moved Hm M; cbn zeta.
    - simpl. split; [|discriminate]. intros _. destruct M as [s [R [P _]]]. simpl in *.
      apply Permutation_sym, Permutation_nil in P. subst. simpl in R. rewrite !app_nil_r in *. assumption.
    - cbn [length] in M. destruct (mid_remove _ _ _ _ _ M) as [s [R [P O]]];
        [rewrite app_length; simpl; lia|].
      cbn [length seq walk]. rewrite nth_mid.
      assert (Hs : forall x, In x (s ++ moved) -> fst x <> length pre).
      { intros x Hx. apply in_app_or in Hx. destruct Hx as [Hx|Hx].
        - eapply Permutation_in in Hx; [|exact P]. apply from_in in Hx. lia.
        - apply Hm in Hx. lia. }
      assert (Bx : forall b x, In x (s ++ moved) -> ibox box (pre ++ a :: rest) x = ibox box (pre ++ b :: rest) x).
      { intros b x Hx. unfold ibox. rewrite (nth_put_other pre rest a b) by (apply Hs; assumption). reflexivity. }
      destruct (f (set_held a false)) as [a2|x] eqn:F.
      + rewrite put_app.
        set (m1 := sm_remove cs eps (ibox box (pre ++ a :: rest)) (ieqb eeq (pre ++ a :: rest)) m (length pre, None)) in *.
        replace (pre ++ set_held a2 true :: rest) with ((pre ++ [set_held a2 true]) ++ rest)
          by (rewrite <- app_assoc; reflexivity).
        replace (S (length pre)) with (length (pre ++ [set_held a2 true])) by (rewrite app_length; simpl; lia).
        destruct (IH (pre ++ [set_held a2 true])
          (sm_add cs eps (ibox box ((pre ++ [set_held a2 true]) ++ rest)) m1 (length pre, None))
          (moved ++ [(length pre, None)])) as [I1 I2].
        * intros x Hx. rewrite app_length. simpl. apply in_app_or in Hx. destruct Hx as [Hx|[<-|[]]].
          -- apply Hm in Hx. split; [tauto|lia].
          -- split; [reflexivity|simpl; lia].
        * rewrite <- !app_assoc. cbn [app]. rewrite app_length. cbn [length].
          replace (length pre + 1)%nat with (S (length pre)) by lia.
          exists s. split; [|split; [exact P|]].
          -- rewrite app_assoc. apply add_rep. eapply rep_ext; [|exact R].
             intros x Hx. apply Bx. assumption.
          -- intros y Hy. specialize (O y Hy).
             assert (Q : forall x, In x (from (S (length pre)) (length rest)) ->
               ieqb eeq (pre ++ set_held a2 true :: rest) x y = ieqb eeq (pre ++ a :: rest) x y).
             { intros x Hx. apply from_in in Hx. apply from_in in Hy. unfold ieqb.
               rewrite !(nth_put_other pre rest (set_held a2 true) a) by lia. reflexivity. }
             rewrite (filter_ext_in2 (from _ _) _ (fun x => ieqb eeq (pre ++ a :: rest) x y)) by exact Q.
             rewrite <- O. apply filter_ext_in2. intros x Hx. apply Q. eapply Permutation_in; eassumption.
        * rewrite app_length in I1, I2 |- *. cbn [length] in I1, I2 |- *.
          replace (length pre + 1)%nat with (S (length pre)) in * by lia.
          assert (Fr : (moved ++ [(length pre, None)]) ++ from (S (length pre)) (length rest)
                       = moved ++ from (length pre) (S (length rest))) by (rewrite <- app_assoc; reflexivity).
          rewrite Fr in I1, I2. split; [assumption|]. intros x Hx.
          destruct (I2 x Hx) as [j [s' [Hj [R' [P' [b [N' F']]]]]]].
          exists j, s'. split; [lia|]. split; [assumption|]. split; [assumption|].
          exists b. split; [|assumption]. rewrite <- N'. rewrite <- app_assoc. simpl.
          apply nth_put_other. lia.
      + rewrite put_app. cbn [fst snd]. split; [discriminate|]. intros y E. inversion E; subst.
        exists (length pre), (s ++ moved). split; [simpl; lia|]. split; [|split].
        * eapply rep_ext; [|exact R]. intros z Hz. apply Bx. assumption.
        * rewrite from_S. rewrite (Permutation_app_comm s moved).
          rewrite P. rewrite <- Permutation_middle. reflexivity.
        * exists a. split; [apply nth_mid|assumption].
  Qed.

  Lemma synced_mid : forall l m, synced cs eps box eeq l m -> mid l m 0 (length l) [].
  Proof.
    intros l m [s [Ho [P O]]]. exists s. rewrite app_nil_r. split; [apply holds_rep; assumption|].
    split; [exact P|]. exact O.
  Qed.

  Lemma walk_all_ok : forall l m r, synced cs eps box eeq l m ->
    r = walk_all cs eps box eeq set_held f l m -> snd r = None ->
    holds cs eps box (fst (fst r)) (snd (fst r)) (members (fst (fst r))).
  Proof.
    intros l m r S -> E. apply holds_rep.
    assert (L : length (fst (fst (walk_all cs eps box eeq set_held f l m))) = length l).
    { rewrite (proj1 (walk_all_work cs eps box eeq set_held f l m)).
      rewrite (proj2 (walk_all_work cs eps box eeq set_held f l m)) in E. clear -E.
      induction l as [|a l IH]; simpl in *; [reflexivity|].
      destruct (f (set_held a false)); [|discriminate]. simpl in *. rewrite IH by assumption. reflexivity. }
    unfold members. rewrite L.
    apply (proj1 (walk_index l [] m [] ltac:(simpl; tauto) (synced_mid l m S))). exact E.
  Qed.

  Lemma holds_synced : forall l m, holds cs eps box l m (members l) -> synced cs eps box eeq l m.
  Proof. intros l m Hh. exists (members l). auto. Qed.

  Lemma walk_all_err : forall l m r x, synced cs eps box eeq l m ->
    r = walk_all cs eps box eeq set_held f l m -> snd r = Some x ->
    exists j s, (j < length l)%nat /\ holds cs eps box (fst (fst r)) (snd (fst r)) s /\
      Permutation ((j, None) :: s) (members l) /\
      exists a, nth_error l j = Some a /\ f (set_held a false) = Err x.
  Proof.
    intros l m r x S -> E.
    destruct (proj2 (walk_index l [] m [] ltac:(simpl; tauto) (synced_mid l m S)) x E)
      as [j [s [Hj [R [P N]]]]].
    exists j, s. split; [simpl in Hj; lia|]. split; [apply holds_rep; exact R|]. split; [exact P|exact N].
  Qed.

  (** Without equal duplicates any exact index is in order. *)
  Lemma distinct_synced : forall l m s, holds cs eps box l m s -> Permutation s (members l) ->
    (forall x y, In x (members l) -> In y (members l) -> ieqb eeq l x y = true -> x = y) ->
    synced cs eps box eeq l m.
  Proof.
    intros l m s Ho P D. exists s. split; [assumption|]. split; [assumption|]. intros y Hy.
    assert (ND : NoDup (members l)) by (unfold members; apply (from_nodup 0 (length l))).
    assert (G : forall l0, (forall x, In x l0 -> In x (members l)) -> NoDup l0 -> In y l0 ->
        filter (fun x => ieqb eeq l x y) l0 = [y]).
      { induction l0 as [|z l0 IH]; intros Sub N I; [contradiction|]. inversion N; subst. simpl.
        destruct (ieqb eeq l z y) eqn:E.
        - assert (z = y) by (apply D; [apply Sub; left; reflexivity|assumption|assumption]). subst z.
          f_equal. assert (Z : forall l1, (forall x, In x l1 -> In x (members l)) -> ~ In y l1 ->
            filter (fun x => ieqb eeq l x y) l1 = []).
          { induction l1 as [|u l1 IH1]; intros S1 N1; [reflexivity|]. simpl.
            destruct (ieqb eeq l u y) eqn:E1.
            - exfalso. apply N1. left. apply D; [apply S1; left; reflexivity|assumption|assumption].
            - apply IH1; [intros; apply S1; right; assumption|intros I1; apply N1; right; assumption]. }
          apply Z; [intros; apply Sub; right; assumption|assumption].
        - apply IH; [intros; apply Sub; right; assumption|assumption|].
          destruct I as [->|I]; [|assumption]. exfalso.
          assert (ieqb eeq l y y = true).
          { apply ieqb_refl. unfold members in Hy. apply (from_in 0 (length l)) in Hy. lia. }
          congruence. }
    rewrite !G; auto.
      + intros x Hx. eapply Permutation_in; eassumption.
      + eapply Permutation_NoDup; [symmetry; exact P|assumption].
      + eapply Permutation_in; [symmetry; exact P|assumption].
  Qed.
End Index.
