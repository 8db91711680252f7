From Coq Require Import ZArith List Bool Lia Sorting.Sorted Permutation.
From Verif Require Import Common Dict Spatial_Model Wires_Proofs Group_Model Group_Spec.
Import ListNotations.
Local Open Scope Z_scope.

(** ** Addresses *)
Lemma reach_snoc : forall h l a gs g x, reach h l a (gs ++ [g]) x ->
  exists a0 i, a = a0 ++ [i] /\ reach h l a0 gs g /\ knd (objs h g) = Group /\ nth_error (kids h g) i = Some x.
Proof.
  intros h l a gs g x. revert l a. induction gs as [|g0 gs IH]; intros l a R; simpl in R.
  - inversion R as [|l' i g' a' gs' x' H1 H2 H3]; subst. inversion H3; subst.
    exists [i], i0. repeat split; try assumption. constructor. assumption.
  - inversion R as [|l' i g' a' gs' x' H1 H2 H3]; subst.
    destruct (IH _ _ H3) as [a0 [j [-> [A [B C]]]]]. exists (i :: a0), j.
    repeat split; try assumption. econstructor; eassumption.
Qed.
Lemma reach_nonempty : forall h l gs x, ~ reach h l [] gs x.
Proof. intros h l gs x R. inversion R. Qed.
Lemma reach_parent : forall h, consistent h -> forall c a gs x, reach h (kids h c) a gs x ->
  parent (objs h x) = Some (last gs c).
Proof.
  intros h C c a gs x. destruct gs as [|g0 gs0] using rev_ind; intros R.
  - inversion R; subst. simpl. apply C. eapply nth_error_In. eassumption.
  - apply reach_snoc in R. destruct R as [a0 [i [_ [_ [_ N]]]]]. rewrite last_last. apply C. eapply nth_error_In. eassumption.
Qed.

Lemma nested_in : forall h l a gs x, reach h l a gs x -> forall n, nested h n l ->
  forall g, In g gs -> exists m, (m < n)%nat /\ nested h m (kids h g).
Proof.
  intros h l a gs x R. induction R as [|l i g a gs x E K R IH]; intros n N g' I; [destruct I|].
  inversion N as [n0 l0 H]; subst. destruct (H g (nth_error_In _ _ E) K) as [m [Lm Nm]].
  destruct I as [<-|I]; [exists m; auto|]. destruct (IH m Nm g' I) as [m' [L' N']]. exists m'. split; [lia|assumption].
Qed.
Lemma no_self : forall h n g, nested h n (kids h g) -> forall a gs x, reach h (kids h g) a gs x -> ~ In g gs.
Proof.
  intros h n. induction n as [n IH] using lt_wf_ind. intros g N a gs x R I.
  destruct (nested_in h _ a gs x R n N g I) as [m [L M]]. exact (IH m L g M a gs x R I).
Qed.
Lemma nested_end : forall h l a gs x, reach h l a gs x -> forall n, nested h n l ->
  knd (objs h x) = Group -> exists m, (m < n)%nat /\ nested h m (kids h x).
Proof.
  intros h l a gs x R. induction R as [l i x E|l i g a gs x E K R IH]; intros n N G; inversion N as [n0 l0 H]; subst.
  - apply H; [eapply nth_error_In; eassumption|assumption].
  - destruct (H g (nth_error_In _ _ E) K) as [m [Lm Nm]]. destruct (IH m Nm G) as [m' [L' N']]. exists m'. split; [lia|assumption].
Qed.
Lemma path_tail : forall h l a gs x, reach h l a gs x -> forall g, In g gs ->
  knd (objs h g) = Group /\ exists a' gs', reach h (kids h g) a' gs' x.
Proof.
  intros h l a gs x R. induction R as [|l i g a gs x E K R IH]; intros g' I; [destruct I|].
  destruct I as [<-|I]; [split; [assumption|eauto]|auto].
Qed.
Lemma not_below : forall h l a gs x n, nested h n l -> reach h l a gs x -> ~ In x gs.
Proof.
  intros h l a gs x n N R I. destruct (path_tail _ _ _ _ _ R x I) as [K [a' [gs' Q]]].
  destruct (nested_in _ _ _ _ _ R n N x I) as [m [_ M]]. clear - K Q M.
  induction m as [m IH] using lt_wf_ind. destruct (nested_end _ _ _ _ _ Q m M K) as [j [Lj Nj]]. exact (IH j Lj Nj).
Qed.
Lemma path_distinct : forall h l a gs x, reach h l a gs x -> forall n, nested h n l -> NoDup gs.
Proof.
  intros h l a gs x R. induction R as [|l i g a gs x E K R IH]; intros n N; [constructor|].
  inversion N as [n0 l0 H]; subst. destruct (H g (nth_error_In _ _ E) K) as [m [Lm Nm]].
  constructor; [eapply no_self; eassumption|eapply IH; eassumption].
Qed.

Lemma nodup_nth : forall {A} (l : list A) i j x, NoDup l -> nth_error l i = Some x -> nth_error l j = Some x -> i = j.
Proof.
  intros A l i j x N Hi Hj. apply (proj1 (NoDup_nth_error l) N).
  - apply nth_error_Some. congruence.
  - congruence.
Qed.
Lemma reach_unique : forall h c n, consistent h -> distinct h -> nested h n (kids h c) ->
  forall gs a gs' a' x, reach h (kids h c) a gs x -> reach h (kids h c) a' gs' x -> a = a'.
Proof.
  intros h c n C D N gs. induction gs as [|g gs IH] using rev_ind; intros a gs' a' x R R'.
  - destruct gs' as [|g' gs'] using rev_ind.
    + inversion R; inversion R'; subst. f_equal. eapply nodup_nth; [apply D| |]; eassumption.
    + clear IHgs'. pose proof (reach_parent h C _ _ _ _ R) as P. pose proof (reach_parent h C _ _ _ _ R') as P'.
      rewrite last_last in P'. simpl in P. assert (g' = c) by congruence. subst.
      exfalso. eapply (no_self h n c N a' (gs' ++ [c]) x R'). apply in_or_app. right. left. reflexivity.
  - destruct gs' as [|g' gs'] using rev_ind.
    + pose proof (reach_parent h C _ _ _ _ R) as P. pose proof (reach_parent h C _ _ _ _ R') as P'.
      rewrite last_last in P. simpl in P'. assert (g = c) by congruence. subst.
      exfalso. eapply (no_self h n c N a (gs ++ [c]) x R). apply in_or_app. right. left. reflexivity.
    + clear IHgs'. pose proof (reach_parent h C _ _ _ _ R) as P. pose proof (reach_parent h C _ _ _ _ R') as P'.
      rewrite last_last in P, P'. assert (g' = g) by congruence. subst.
      apply reach_snoc in R. apply reach_snoc in R'.
      destruct R as [a0 [i [-> [A [_ E]]]]], R' as [b0 [j [-> [B [_ F]]]]].
      rewrite (IH a0 gs' b0 g A B). f_equal. f_equal. eapply nodup_nth; [apply D| |]; eassumption.
Qed.

(** ** Flattening *)
Definition go_flat (h : heap) (f : nat) := fix go (l : list oid) : result (list oid) :=
  match l with
  | [] => Ok []
  | x :: r =>
      let* here := match knd (objs h x) with
                   | Group => let* inner := flatten_entities f h (kids h x) in flatten_entities f h inner
                   | _ => Ok [x]
                   end in
      let* rest := go r in
      Ok (here ++ rest)
  end.
Lemma flatten_S : forall f h l, flatten_entities (S f) h l = go_flat h f l.
Proof. reflexivity. Qed.
Lemma flatten_leaves : forall f h l, Forall (fun x => knd (objs h x) <> Group) l -> flatten_entities (S f) h l = Ok l.
Proof.
  intros f h l H. rewrite flatten_S. induction H as [|x l Hx _ IH]; [reflexivity|].
  cbn [go_flat]. rewrite IH. destruct (knd (objs h x)); try reflexivity. congruence.
Qed.

Definition bump (a : list nat) : list nat := match a with [] => [] | i :: r => S i :: r end.
Lemma reach_cons_S : forall h x r i a gs y, reach h (x :: r) (S i :: a) gs y <-> reach h r (i :: a) gs y.
Proof.
  intros. split; intros R; inversion R; subst.
  - constructor. assumption.
  - econstructor; eassumption.
  - constructor. assumption.
  - econstructor; eassumption.
Qed.
Lemma reach_cons_0_leaf : forall h x r a gs y, knd (objs h x) <> Group ->
  (reach h (x :: r) (O :: a) gs y <-> a = [] /\ gs = [] /\ y = x).
Proof.
  intros h x r a gs y K. split.
  - intros R. inversion R as [l i y' E|l i g a' gs' y' E G R']; subst; simpl in E; injection E as E; subst; [auto|congruence].
  - intros [-> [-> ->]]. constructor. reflexivity.
Qed.
Lemma reach_cons_0_group : forall h x r a gs y, knd (objs h x) = Group -> knd (objs h y) <> Group ->
  (reach h (x :: r) (O :: a) gs y <-> exists gs', gs = x :: gs' /\ reach h (kids h x) a gs' y).
Proof.
  intros h x r a gs y K L. split.
  - intros R. inversion R as [l i y' E|l i g a' gs' y' E G R']; subst; simpl in E; injection E as E; subst; [congruence|eauto].
  - intros [gs' [-> R]]. econstructor; [reflexivity|assumption|assumption].
Qed.
Lemma sorted_app : forall (R : list nat -> list nat -> Prop) l1 l2, StronglySorted R l1 -> StronglySorted R l2 ->
  (forall a b, In a l1 -> In b l2 -> R a b) -> StronglySorted R (l1 ++ l2).
Proof.
  induction 1 as [|a l1 S IH F]; intros S2 X; simpl; [assumption|]. constructor.
  - apply IH; [assumption|]. intros. apply X; [right|]; assumption.
  - apply Forall_app. split; [assumption|]. apply Forall_forall. intros b I. apply X; [left; reflexivity|assumption].
Qed.
Lemma sorted_map : forall (R : list nat -> list nat -> Prop) f l, (forall a b, In a l -> In b l -> R a b -> R (f a) (f b)) ->
  StronglySorted R l -> StronglySorted R (map f l).
Proof.
  intros R f l X S. induction S as [|a l S IH F]; simpl; constructor.
  - apply IH. intros. apply X; try right; assumption.
  - rewrite Forall_forall in *. intros b I. apply in_map_iff in I. destruct I as [c [<- I]].
    apply X; [left; reflexivity|right; assumption|apply F; assumption].
Qed.
Lemma forall2_map1 : forall {A B C} (R : C -> B -> Prop) (f : A -> C) l l',
  Forall2 (fun a b => R (f a) b) l l' -> Forall2 R (map f l) l'.
Proof. induction 1; simpl; constructor; assumption. Qed.

Lemma lists_nil : forall h, lists h [] [].
Proof.
  intros h. split; [constructor|]. exists []. split; [constructor|]. split; [|constructor].
  intros a. split; [intros []|]. intros [gs [x [R _]]]. inversion R; subst; destruct i; discriminate.
Qed.
Lemma lists_cons : forall h x r here rest,
  match knd (objs h x) with Group => lists h (kids h x) here | _ => here = [x] end ->
  lists h r rest -> lists h (x :: r) (here ++ rest).
Proof.
  intros h x r here rest H [L [ar [Sr [Ir Fr]]]].
  assert (X : Forall (fun x => knd (objs h x) <> Group) here /\ exists ah, StronglySorted before ah /\
    (forall a, In a ah <-> exists a', a = O :: a' /\ exists gs y, reach h (x :: r) a gs y /\ knd (objs h y) <> Group) /\
    Forall2 (fun a y => exists gs, reach h (x :: r) a gs y) ah here).
  { destruct (knd (objs h x)) eqn:K.
    2:{ destruct H as [HL [ah [Sh [Ih Fh]]]]. split; [assumption|]. exists (map (cons O) ah). split; [|split].
        - apply sorted_map; [|assumption]. intros. apply BTail. assumption.
        - intros a. rewrite in_map_iff. split.
          + intros [a' [<- I]]. exists a'. split; [reflexivity|]. apply Ih in I. destruct I as [gs [y [R Ky]]].
            exists (x :: gs), y. split; [|assumption]. apply reach_cons_0_group; eauto.
          + intros [a' [-> [gs [y [R Ky]]]]]. exists a'. split; [reflexivity|]. apply Ih.
            apply reach_cons_0_group in R; [|assumption|assumption]. destruct R as [gs' [-> R]]. exists gs', y. auto.
        - apply forall2_map1. clear - Fh K. induction Fh as [|a y ah here [gs R] _ IH]; constructor; [|assumption].
          exists (x :: gs). econstructor; [reflexivity|assumption|assumption]. }
    all: subst here; split; [constructor; [congruence|constructor]|]; exists [[O]]; split; [constructor; constructor|]; split;
      [|constructor; [exists []; constructor; reflexivity|constructor]];
      intros a; split;
      [intros [<-|[]]; exists []; split; [reflexivity|]; exists [], x; split; [constructor; reflexivity|congruence]
      |intros [a' [-> [gs [y [R Ky]]]]]; left; apply reach_cons_0_leaf in R; [|congruence]; destruct R as [-> _]; reflexivity]. }
  destruct X as [HL [ah [Sh [Ih Fh]]]]. split; [apply Forall_app; split; assumption|].
  exists (ah ++ map bump ar).
  assert (NE : forall a, In a ar -> exists i b, a = i :: b).
  { intros a I. apply Ir in I. destruct I as [gs [y [R _]]]. destruct a; [exfalso; eapply reach_nonempty; eassumption|eauto]. }
  split; [|split].
  - apply sorted_app; [assumption| |].
    + apply sorted_map; [|assumption]. intros a b Ia Ib B. destruct (NE _ Ia) as [i [a' ->]], (NE _ Ib) as [j [b' ->]].
      simpl. inversion B; subst; [apply BHead; lia|apply BTail; assumption].
    + intros a b Ia Ib. apply Ih in Ia. destruct Ia as [a' [-> _]]. apply in_map_iff in Ib. destruct Ib as [b' [<- Ib]].
      destruct (NE _ Ib) as [j [b'' ->]]. simpl. apply BHead. lia.
  - intros a. rewrite in_app_iff, Ih, in_map_iff. split.
    + intros [[a' [-> [gs [y R]]]]|[a' [<- I]]]; [eauto|].
      destruct (NE _ I) as [i [b ->]]. apply Ir in I. destruct I as [gs [y [R Ky]]]. exists gs, y. split; [|assumption].
      simpl. apply reach_cons_S. assumption.
    + intros [gs [y [R Ky]]]. destruct a as [|[|i] a]; [exfalso; eapply reach_nonempty; eassumption| |].
      * left. exists a. split; [reflexivity|]. eauto.
      * right. exists (i :: a). split; [reflexivity|]. apply Ir. exists gs, y. split; [|assumption].
        apply reach_cons_S in R. assumption.
  - apply Forall2_app; [assumption|]. apply forall2_map1.
    assert (G : Forall2 (fun a y => (exists i b, a = i :: b) /\ exists gs, reach h r a gs y) ar rest).
    { clear - Fr NE. induction Fr as [|a y ar rest R _ IH]; constructor.
      - split; [apply NE; left; reflexivity|assumption].
      - apply IH. intros. apply NE. right. assumption. }
    clear - G. induction G as [|a y ar rest [[i [b ->]] [gs R]] _ IH]; constructor; [|assumption].
    exists gs. simpl. apply reach_cons_S. assumption.
Qed.

Lemma flatten_spec : forall f h l es, flatten_entities f h l = Ok es -> lists h l es.
Proof.
  induction f as [|f IH]; intros h l es H; [discriminate|]. rewrite flatten_S in H.
  revert es H. induction l as [|x l IHl]; intros es H; cbn [go_flat] in H.
  - injection H as <-. apply lists_nil.
  - apply bind_ok in H. destruct H as [here [H1 H2]]. apply bind_ok in H2. destruct H2 as [rest [H2 H3]].
    injection H3 as <-. fold (go_flat h f) in H2. apply lists_cons; [|apply IHl; assumption].
    destruct (knd (objs h x)).
    + injection H1 as <-. reflexivity.
    + apply bind_ok in H1. destruct H1 as [inner [H1 H4]]. pose proof (IH h _ _ H1) as L.
      destruct f as [|f]; [discriminate|]. rewrite flatten_leaves in H4 by apply L. injection H4 as <-. assumption.
    + injection H1 as <-. reflexivity.
Qed.
Lemma flatten_total : forall n h l, nested h n l -> forall f, (n < f)%nat -> exists es, flatten_entities f h l = Ok es.
Proof.
  induction n as [n IH] using lt_wf_ind. intros h l N f L. destruct f as [|f]; [lia|]. rewrite flatten_S.
  inversion N as [n0 l0 H]; subst. clear N. induction l as [|x l IHl]; [exists []; reflexivity|].
  cbn [go_flat]. fold (go_flat h f).
  destruct IHl as [rest R]. { intros g I. apply H. right. assumption. }
  rewrite R. destruct (knd (objs h x)) eqn:K.
  1,3: eexists; reflexivity.
  destruct (H x (or_introl eq_refl) K) as [m [Lm Nm]].
  destruct (IH m Lm h _ Nm f ltac:(lia)) as [inner E]. rewrite E. cbn [bind].
  destruct (flatten_spec _ _ _ _ E) as [A _]. destruct f as [|f]; [lia|]. rewrite flatten_leaves by assumption.
  eexists. reflexivity.
Qed.
Lemma before_irrefl : forall a, ~ before a a.
Proof. induction a as [|i a IH]; intros B; inversion B; subst; [lia|]. apply IH. assumption. Qed.

Lemma lists_nodup : forall h c n es, consistent h -> distinct h -> nested h n (kids h c) -> lists h (kids h c) es -> NoDup es.
Proof.
  intros h c n es C D N [_ [addrs [S [I F]]]]. clear I. induction F as [|a x addrs es [gs R] F IH]; constructor.
  - intros J. inversion S as [|? ? S' B]; subst. rewrite Forall_forall in B.
    assert (E : exists a', In a' addrs /\ exists gs', reach h (kids h c) a' gs' x).
    { clear - F J. induction F as [|a y addrs es R F IH]; [destruct J|]. destruct J as [<-|J].
      - exists a. split; [left; reflexivity|assumption].
      - destruct (IH J) as [a' [A B]]. exists a'. split; [right|]; assumption. }
    destruct E as [a' [Ia [gs' R']]]. specialize (B a' Ia).
    rewrite (reach_unique h c n C D N gs a gs' a' x R R') in B. exact (before_irrefl _ B).
  - apply IH. inversion S; assumption.
Qed.

(** ** Global positions *)
Lemma vadd_assoc : forall a b c, vadd (vadd a b) c = vadd a (vadd b c).
Proof. intros [] [] []. unfold vadd. cbn [fst snd]. f_equal; lia. Qed.
Lemma total_cons : forall p r, total (p :: r) = vadd p (total r).
Proof. reflexivity. Qed.
Lemma vadd_0_r : forall a, vadd a (0, 0) = a.
Proof. intros []. unfold vadd. cbn [fst snd]. f_equal; lia. Qed.
Lemma vadd_0_l : forall a, vadd (0, 0) a = a.
Proof. intros []. reflexivity. Qed.

Lemma global_chain : forall h, consistent h -> forall l a gs x, reach h l a gs x -> forall c P F, l = kids h c ->
  (knd (objs h c) = Group -> forall f, (F <= f)%nat -> global_position f h c = Ok P) ->
  (knd (objs h c) <> Group -> P = (0, 0)) ->
  forall f, (F + List.length gs + 1 <= f)%nat ->
  global_position f h x = Ok (vadd P (vadd (total (map (position_of h) gs)) (position_of h x))).
Proof.
  intros h C l a gs x R. induction R as [l i x E|l i g a gs x E K R IH]; intros c P F -> HG HN f L; simpl List.length in L.
  - destruct f as [|f]; [lia|]. cbn [global_position]. rewrite (C c x) by (eapply nth_error_In; eassumption).
    cbn [map total]. rewrite vadd_0_l. unfold position_of.
    destruct (knd (objs h c)) eqn:K.
    + rewrite HN by discriminate. rewrite vadd_0_l. reflexivity.
    + rewrite HG by (try reflexivity; lia). reflexivity.
    + rewrite HN by discriminate. rewrite vadd_0_l. reflexivity.
  - rewrite (IH g (vadd P (position_of h g)) (S F) eq_refl); [| | |lia].
    + cbn [map]. rewrite total_cons, !vadd_assoc. reflexivity.
    + intros _ f' L'. destruct f' as [|f']; [lia|]. cbn [global_position].
      rewrite (C c g) by (eapply nth_error_In; eassumption). destruct (knd (objs h c)) eqn:Kc.
      * rewrite HN by discriminate. rewrite vadd_0_l. reflexivity.
      * rewrite HG by (try reflexivity; lia). reflexivity.
      * rewrite HN by discriminate. rewrite vadd_0_l. reflexivity.
    + intros Kn. congruence.
Qed.
Lemma topmost_global : forall h c, topmost h c -> knd (objs h c) = Group -> forall f, (1 <= f)%nat -> global_position f h c = Ok (base h c).
Proof.
  intros h c T K f L. destruct f as [|f]; [lia|]. cbn [global_position]. unfold base. rewrite K.
  destruct T as [T|[_ [T|[b [T Kb]]]]]; [congruence|rewrite T; reflexivity|].
  rewrite T. destruct (knd (objs h b)); try reflexivity. congruence.
Qed.
Lemma global_spec : forall h c a gs x f, consistent h -> topmost h c -> reach h (kids h c) a gs x ->
  (List.length gs + 2 <= f)%nat ->
  global_position f h x = Ok (vadd (base h c) (vadd (total (map (position_of h) gs)) (position_of h x))).
Proof.
  intros h c a gs x f C T R L. apply (global_chain h C (kids h c) a gs x R c (base h c) 1 eq_refl).
  - apply topmost_global. assumption.
  - intros K. unfold base. destruct (knd (objs h c)); congruence.
  - lia.
Qed.

(** ** Moving *)
Lemma upd_same : forall {A} (f : oid -> A) x v, upd f x v x = v.
Proof. intros. unfold upd. rewrite Z.eqb_refl. reflexivity. Qed.
Lemma upd_other : forall {A} (f : oid -> A) x v y, y <> x -> upd f x v y = f y.
Proof. intros. unfold upd. destruct (Z.eqb_spec y x); [contradiction|reflexivity]. Qed.
Lemma upd_knd : forall h x v y, knd (objs (update_position h x v) y) = knd (objs h y).
Proof. intros. simpl. unfold upd. destruct (Z.eqb_spec y x); subst; reflexivity. Qed.
Lemma upd_parent : forall h x v y, parent (objs (update_position h x v) y) = parent (objs h y).
Proof. intros. simpl. unfold upd. destruct (Z.eqb_spec y x); subst; reflexivity. Qed.
Lemma upd_shape : forall h x v y, shape (objs (update_position h x v) y) = shape (objs h y).
Proof. intros. simpl. unfold upd. destruct (Z.eqb_spec y x); subst; reflexivity. Qed.
Lemma upd_reach : forall h x v l a gs y, reach h l a gs y -> reach (update_position h x v) l a gs y.
Proof.
  intros h x v l a gs y R. induction R; [constructor; assumption|].
  econstructor; [eassumption|rewrite upd_knd; assumption|assumption].
Qed.
Lemma upd_consistent : forall h x v, consistent h -> consistent (update_position h x v).
Proof. intros h x v C c y I. rewrite upd_parent. apply C. exact I. Qed.
Lemma upd_topmost : forall h x v c, topmost h c -> topmost (update_position h x v) c.
Proof.
  intros h x v c [T|[K [T|[b [T Kb]]]]]; unfold topmost; rewrite upd_knd, upd_parent; [auto|auto|].
  right. split; [assumption|]. right. exists b. rewrite upd_knd. auto.
Qed.
Lemma upd_pos : forall h g v x, position_of (update_position h g v) x = if x =? g then v else position_of h x.
Proof. intros. unfold position_of. simpl. unfold upd. destruct (x =? g); reflexivity. Qed.
Lemma total_moved : forall h g v gs, NoDup gs ->
  total (map (position_of (update_position h g v)) gs) =
  if in_dec Z.eq_dec g gs then shift (position_of h g) v (total (map (position_of h) gs)) else total (map (position_of h) gs).
Proof.
  intros h g v gs ND. induction ND as [|y gs N ND IH]; [reflexivity|].
  cbn [map]. rewrite !total_cons, upd_pos, IH. destruct (Z.eqb_spec y g) as [->|D].
  - destruct (in_dec Z.eq_dec g gs); [contradiction|].
    destruct (in_dec Z.eq_dec g (g :: gs)) as [I|I]; [|exfalso; apply I; left; reflexivity].
    unfold shift, vadd. cbn [fst snd]. f_equal; lia.
  - destruct (in_dec Z.eq_dec g gs) as [I|I]; destruct (in_dec Z.eq_dec g (y :: gs)) as [J|J].
    + unfold shift, vadd. cbn [fst snd]. f_equal; lia.
    + exfalso. apply J. right. assumption.
    + exfalso. destruct J as [J|J]; contradiction.
    + reflexivity.
Qed.

Lemma move_spec : forall h c n g v a gs x f p, consistent h -> topmost h c -> nested h n (kids h c) ->
  reach h (kids h c) a gs x -> (List.length gs + 2 <= f)%nat -> g <> c -> global_position f h x = Ok p ->
  (In g gs -> global_position f (update_position h g v) x = Ok (shift (position_of h g) v p)) /\
  (~ In g gs -> g <> x -> global_position f (update_position h g v) x = Ok p).
Proof.
  intros h c n g v a gs x f p C T N R L Gc G.
  pose proof (path_distinct _ _ _ _ _ R _ N) as ND.
  rewrite (global_spec h c a gs x f C T R L) in G. injection G as <-.
  rewrite (global_spec (update_position h g v) c a gs x f (upd_consistent _ _ _ C) (upd_topmost _ _ _ _ T) (upd_reach _ _ _ _ _ _ _ R) L).
  rewrite total_moved by assumption. rewrite upd_pos.
  assert (B : base (update_position h g v) c = base h c).
  { unfold base. rewrite upd_knd, upd_pos. destruct (Z.eqb_spec c g); [congruence|reflexivity]. }
  rewrite B. split.
  - intros I. destruct (in_dec Z.eq_dec g gs) as [J|J]; [|contradiction].
    destruct (Z.eqb_spec x g) as [->|D].
    + exfalso. eapply not_below; eassumption.
    + f_equal. unfold shift, vadd. cbn [fst snd]. f_equal; lia.
  - intros NI D. destruct (in_dec Z.eq_dec g gs); [contradiction|]. destruct (Z.eqb_spec x g); [congruence|reflexivity].
Qed.
Lemma move_root_spec : forall h c n v a gs x f p, consistent h -> topmost h c -> nested h n (kids h c) -> knd (objs h c) = Group ->
  reach h (kids h c) a gs x -> (List.length gs + 2 <= f)%nat -> global_position f h x = Ok p -> c <> x ->
  global_position f (update_position h c v) x = Ok (shift (position_of h c) v p).
Proof.
  intros h c n v a gs x f p C T N K R L G Cx.
  pose proof (path_distinct _ _ _ _ _ R _ N) as ND.
  rewrite (global_spec h c a gs x f C T R L) in G. injection G as <-.
  rewrite (global_spec (update_position h c v) c a gs x f (upd_consistent _ _ _ C) (upd_topmost _ _ _ _ T) (upd_reach _ _ _ _ _ _ _ R) L).
  rewrite total_moved by assumption. rewrite upd_pos.
  destruct (in_dec Z.eq_dec c gs) as [I|I]; [exfalso; eapply no_self; eassumption|].
  destruct (Z.eqb_spec x c); [congruence|].
  unfold base. rewrite upd_knd, K, upd_pos, Z.eqb_refl. f_equal. unfold shift, vadd. cbn [fst snd]. f_equal; lia.
Qed.

(** ** Histories *)
Section Histories.
  Variable fuel : nat.
  Variable cs eps : Z.
  Local Notation run_op := (run_op fuel cs eps).
  Local Notation run := (run fuel cs eps).

  Local Notation allowed_all := (allowed_all fuel cs eps).

  Lemma remove_nth_in : forall {A} (l : list A) i x, In x (remove_nth l i) -> In x l.
  Proof.
    induction l as [|a l IH]; intros [|i] x I; simpl in *; auto. destruct I as [I|I]; [auto|]. right. eapply IH. eassumption.
  Qed.
  Lemma remove_nth_nodup : forall {A} (l : list A) i, NoDup l -> NoDup (remove_nth l i).
  Proof.
    induction l as [|a l IH]; intros [|i] N; simpl; [constructor|constructor|inversion N; assumption|].
    inversion N; subst. constructor; [|auto]. intros I. apply remove_nth_in in I. contradiction.
  Qed.
  Lemma step_ok : forall h o h', consistent h /\ distinct h -> allowed h o -> run_op h o = Ok h' -> consistent h' /\ distinct h'.
  Proof.
    intros h o h' [C D] A R. destruct o as [c x|c i|x v|x v]; simpl in R.
    - unfold add in R. apply bind_ok in R. destruct R as [leaves [_ R]]. injection R as <-. split.
      + intros c' y I. cbn [objs kids] in *. unfold upd in *. destruct (Z.eqb_spec y x) as [->|Dy].
        * destruct (Z.eqb_spec c' c) as [E|Dc]; [rewrite E; reflexivity|]. exfalso. exact (A c' I).
        * destruct (Z.eqb_spec c' c) as [E|Dc]; [rewrite E in *|apply C; assumption].
          apply in_app_or in I. destruct I as [I|[I|[]]]; [apply C; assumption|congruence].
      + intros c'. cbn [kids]. unfold upd. destruct (Z.eqb_spec c' c) as [E|Dc]; [rewrite ?E|apply D].
        apply (Permutation_NoDup (Permutation_cons_append (kids h c) x)). constructor; [apply A|apply D].
    - unfold delete in R. destruct (nth_error (kids h c) i) as [x|]; [|discriminate].
      apply bind_ok in R. destruct R as [leaves [_ R]]. injection R as <-. split.
      + intros c' y I. cbn [objs kids] in *. unfold upd in I. destruct (Z.eqb_spec c' c) as [E|Dc]; [rewrite E in *|apply C; assumption].
        apply C. eapply remove_nth_in. eassumption.
      + intros c'. cbn [kids]. unfold upd. destruct (Z.eqb_spec c' c) as [E|Dc]; [rewrite ?E|apply D]. apply remove_nth_nodup. apply D.
    - unfold set_position in R. destruct (parent (objs h x)) eqn:P; [discriminate|]. injection R as <-. split; [|exact D].
      exact (upd_consistent h x v C).
    - injection R as <-. split; [|exact D]. exact (upd_consistent h x v C).
  Qed.
  Lemma history_ok : forall os h h', consistent h -> distinct h -> allowed_all h os -> run h os = Ok h' -> consistent h' /\ distinct h'.
  Proof.
    induction os as [|o os IH]; intros h h' C D A R; simpl in R.
    - injection R as <-. auto.
    - destruct A as [A1 A2]. apply bind_ok in R. destruct R as [h1 [R1 R2]].
      destruct (step_ok h o h1 (conj C D) A1 R1) as [C1 D1]. apply (IH h1); auto.
  Qed.

  (** ** The index *)
  Lemma add_reach : forall h c x h', add fuel cs eps h c x = Ok h' -> forall l a gs y, ~ In c gs ->
    reach h l a gs y -> reach h' l a gs y.
  Proof.
    intros h c x h' A l a gs y NI R. unfold add in A. apply bind_ok in A. destruct A as [lv [_ A]]. injection A as <-.
    induction R as [l i y E|l i g a gs y E K R IH]; [constructor; assumption|].
    econstructor; [eassumption| |].
    - cbn [objs]. unfold upd. destruct (Z.eqb_spec g x); [subst; assumption|assumption].
    - cbn [kids]. unfold upd. destruct (Z.eqb_spec g c) as [->|D]; [exfalso; apply NI; left; reflexivity|].
      apply IH. intros I. apply NI. right. assumption.
  Qed.
  Lemma add_consistent : forall h c x h', consistent h -> loose h x -> add fuel cs eps h c x = Ok h' -> consistent h'.
  Proof.
    intros h c x h' C A R. unfold add in R. apply bind_ok in R. destruct R as [leaves [_ R]]. injection R as <-.
    intros c' y I. cbn [objs kids] in *. unfold upd in *. destruct (Z.eqb_spec y x) as [->|Dy].
    - destruct (Z.eqb_spec c' c) as [E|Dc]; [rewrite E; reflexivity|]. exfalso. exact (A c' I).
    - destruct (Z.eqb_spec c' c) as [E|Dc]; [rewrite E in *|apply C; assumption].
      apply in_app_or in I. destruct I as [I|[I|[]]]; [apply C; assumption|congruence].
  Qed.
  Lemma add_pos : forall h c x h', add fuel cs eps h c x = Ok h' -> forall y, position_of h' y = position_of h y.
  Proof.
    intros h c x h' A y. unfold add in A. apply bind_ok in A. destruct A as [lv [_ A]]. injection A as <-.
    unfold position_of. cbn [objs]. unfold upd. destruct (Z.eqb_spec y x); subst; reflexivity.
  Qed.
  Lemma add_knd : forall h c x h', add fuel cs eps h c x = Ok h' -> forall y, knd (objs h' y) = knd (objs h y).
  Proof.
    intros h c x h' A y. unfold add in A. apply bind_ok in A. destruct A as [lv [_ A]]. injection A as <-.
    cbn [objs]. unfold upd. destruct (Z.eqb_spec y x); subst; reflexivity.
  Qed.
  Lemma add_last : forall h c x h', add fuel cs eps h c x = Ok h' -> nth_error (kids h' c) (List.length (kids h c)) = Some x.
  Proof.
    intros h c x h' A. unfold add in A. apply bind_ok in A. destruct A as [lv [_ A]]. injection A as <-.
    cbn [kids]. rewrite upd_same. rewrite nth_error_app2 by lia. rewrite Nat.sub_diag. reflexivity.
  Qed.
  Lemma add_topmost : forall h c x h', c <> x -> topmost h c -> add fuel cs eps h c x = Ok h' -> topmost h' c.
  Proof.
    intros h c x h' D T A. pose proof (add_knd _ _ _ _ A) as K. unfold add in A. apply bind_ok in A. destruct A as [lv [_ A]]. injection A as E.
    assert (P : parent (objs h' c) = parent (objs h c)). { subst h'. cbn [objs]. rewrite upd_other by assumption. reflexivity. }
    destruct T as [T|[Kc [T|[b [T Kb]]]]]; unfold topmost; rewrite !K, P; [auto|auto|].
    right. split; [assumption|]. right. exists b. rewrite K. auto.
  Qed.

  (** The entities of a loose object: below it, or itself. *)
  Lemma add_offset : forall h c x h' y p, consistent h -> topmost h c -> loose h x -> parent (objs h x) = None -> c <> x ->
    knd (objs h x) <> Blueprint ->
    (y = x \/ knd (objs h x) = Group /\ exists a gs, reach h (kids h x) a gs y /\ ~ In c gs /\ (List.length gs + 3 <= fuel)%nat) ->
    (3 <= fuel)%nat ->
    add fuel cs eps h c x = Ok h' -> global_position fuel h y = Ok p ->
    global_position fuel h' y = Ok (vadd (base h c) p).
  Proof.
    intros h c x h' y p C T Lo Px Dx Kx W F A G.
    pose proof (add_consistent _ _ _ _ C Lo A) as C'. pose proof (add_topmost _ _ _ _ Dx T A) as T'.
    assert (B : base h' c = base h c). { unfold base. rewrite (add_knd _ _ _ _ A), (add_pos _ _ _ _ A). reflexivity. }
    destruct W as [->|[Kg [a [gs [R [NI L]]]]]].
    - rewrite (global_spec h' c [List.length (kids h c)] [] x fuel C' T'); [|constructor; apply (add_last _ _ _ _ A)|simpl; lia].
      cbn [map total]. rewrite vadd_0_l, B, (add_pos _ _ _ _ A).
      destruct fuel as [|f]; [lia|]. cbn [global_position] in G. rewrite Px in G. injection G as <-. reflexivity.
    - assert (Tx : topmost h x) by (right; split; [assumption|left; assumption]).
      rewrite (global_spec h x a gs y fuel C Tx R) in G by lia. injection G as <-.
      rewrite (global_spec h' c (List.length (kids h c) :: a) (x :: gs) y fuel C' T').
      + cbn [map]. rewrite total_cons, B, !(add_pos _ _ _ _ A).
        rewrite (map_ext _ _ (add_pos _ _ _ _ A)). assert (Bx : base h x = position_of h x) by (unfold base; rewrite Kg; reflexivity). rewrite Bx, !vadd_assoc. reflexivity.
      + econstructor; [apply (add_last _ _ _ _ A)|rewrite (add_knd _ _ _ _ A); assumption|].
        assert (KX : kids h' x = kids h x).
        { unfold add in A. apply bind_ok in A. destruct A as [lv [_ A]]. injection A as <-. cbn [kids]. rewrite upd_other by congruence. reflexivity. }
        rewrite KX. eapply add_reach; eassumption.
      + simpl. lia.
  Qed.
End Histories.

(** An index entry in a cell its member does not reach is never found. *)
Lemma lost_entry : forall f h c x b, index h c = [((0, 0), [x])] -> world_box f h x = Some b -> 8000 <= bl b ->
  forall p, find_at f 8000 h c p = None.
Proof.
  intros f h c x b I W L [px py]. unfold find_at, get_on_point. rewrite I. cbn [cell_get]. unfold cell_eqb, map_coords. cbn [fst snd].
  destruct (Z.eqb_spec 0 (px / 8000)) as [X|X]; [|reflexivity]. cbn [andb].
  destruct (0 =? py / 8000); [|reflexivity]. cbn [point_loop]. rewrite W.
  assert (px < 8000) by (pose proof (Z.div_mod px 8000 ltac:(lia)); pose proof (Z.mod_pos_bound px 8000 ltac:(lia)); lia).
  unfold zpoint_in. cbn [fst snd].
  replace (bl b <=? px) with false by (symmetry; apply Z.leb_gt; lia). reflexivity.
Qed.
