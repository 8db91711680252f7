(** Lemmas about filters kept as lists of entries with a slot number. *)
From Coq Require Import ZArith String List Bool Lia.
From Verif Require Import Common Dict Planner_Model Planner_Proofs Slots_Model Slots_Spec.
Import ListNotations.
Local Open Scope Z_scope.

Definition updated {V} (m : table V) (i : Z) v : table V := fun j => if j =? i then v else m j.
Lemma updated_put : forall V (m : table V) i v, put m (updated m i v) i v.
Proof.
  intros V m i v. unfold put, updated. split; [now rewrite Z.eqb_refl|]. intros j N.
  destruct (j =? i) eqn:E; [|reflexivity]. apply Z.eqb_eq in E. congruence.
Qed.
Lemma zopt_eqb_eq : forall a k, zopt_eqb a k = true <-> a = Some k.
Proof.
  intros [a|] k; cbn [zopt_eqb]; [|split; discriminate]. rewrite Z.eqb_eq. split; congruence.
Qed.

(** ** Lists of entries in general *)
Section Generic.
  Context {E V : Type} (key : E -> option Z) (val : E -> V).

  Lemma slots_app : forall a b, slots key (a ++ b) = slots key a ++ slots key b.
  Proof. intros a b. unfold slots. apply flat_map_app. Qed.
  Lemma slots_in : forall l k, In k (slots key l) <-> exists e, In e l /\ key e = Some k.
  Proof.
    intros l k. unfold slots. rewrite in_flat_map. split.
    - intros [e [I J]]. exists e. split; [exact I|]. destruct (key e); [|destruct J]. destruct J as [<-|[]]. reflexivity.
    - intros [e [I J]]. exists e. split; [exact I|]. rewrite J. now left.
  Qed.
  Lemma shows_at : forall st m e s, shows key val st m -> In e (listed st) -> key e = Some (s + 1) -> m s = Some (val e).
  Proof. intros st m e s [_ H] I K. apply H. exists e. auto. Qed.
  Lemma shows_none : forall st m s, shows key val st m ->
    (m s = None <-> forall e, In e (listed st) -> key e <> Some (s + 1)).
  Proof.
    intros st m s H. split.
    - intros N e I K. pose proof (shows_at st m e s H I K). congruence.
    - intros N. destruct (m s) as [v|] eqn:X; [|reflexivity]. apply (proj2 H) in X. destruct X as [e [I [K _]]].
      now apply N in I.
  Qed.
  Lemma nodup_mid : forall a x b k, NoDup (slots key (a ++ x :: b)) -> key x = Some k ->
    NoDup (slots key (a ++ b)) /\ (forall e, In e (a ++ b) -> key e <> Some k).
  Proof.
    intros a x b k N K. rewrite slots_app in N. unfold slots in N at 2. cbn [flat_map] in N. rewrite K in N. cbn [app] in N.
    fold (slots key b) in N. split.
    - rewrite slots_app. eapply NoDup_remove_1. exact N.
    - intros e I J. apply NoDup_remove_2 in N. apply N. rewrite <- slots_app. apply slots_in. eauto.
  Qed.

  Lemma shows_replaced : forall st m a x y b s, shows key val st m -> listed st = a ++ x :: b ->
    key x = Some (s + 1) -> key y = Some (s + 1) -> shows key val (Some (a ++ y :: b)) (updated m s (Some (val y))).
  Proof.
    intros st m a x y b s H L KX KY. pose proof (proj1 H) as N. rewrite L in N. split; cbn [listed].
    - replace (slots key (a ++ y :: b)) with (slots key (a ++ x :: b)); [exact N|].
      rewrite !slots_app. unfold slots. cbn [flat_map]. now rewrite KX, KY.
    - destruct (nodup_mid a x b (s + 1) N KX) as [_ U]. intros s' v. unfold updated. split.
      + destruct (s' =? s) eqn:D.
        * apply Z.eqb_eq in D. subst s'. intros Q. inversion Q; subst. exists y. split; [apply in_elt|]. auto.
        * apply Z.eqb_neq in D. intros Q. apply (proj2 H) in Q. rewrite L in Q. destruct Q as [e [I [K W]]].
          exists e. split; [|auto]. rewrite in_app_iff in *. destruct I as [I|[I|I]]; cbn [In]; auto.
          subst. rewrite KX in K. inversion K. lia.
      + intros [e [I [K W]]]. assert (C : e = y \/ In e (a ++ b)).
        { rewrite in_app_iff in *. destruct I as [I|[I|I]]; auto. }
        destruct C as [-> |C].
        * rewrite KY in K. inversion K. replace s' with s by lia. rewrite Z.eqb_refl. congruence.
        * destruct (s' =? s) eqn:D.
          -- apply Z.eqb_eq in D. subst s'. exfalso. now apply (U e C).
          -- rewrite <- W. apply (shows_at st m e s' H); [|exact K]. rewrite L. rewrite in_app_iff in *. cbn [In]. tauto.
  Qed.
  Lemma shows_appended : forall st m y s, shows key val st m -> m s = None -> key y = Some (s + 1) ->
    shows key val (Some (listed st ++ [y])) (updated m s (Some (val y))).
  Proof.
    intros st m y s H M KY. pose proof (proj1 (shows_none st m s H) M) as U. split; cbn [listed].
    - rewrite slots_app. unfold slots at 2. cbn [flat_map]. rewrite KY. cbn [app].
      rewrite <- (rev_involutive (_ ++ _)). apply NoDup_rev. rewrite rev_app_distr. cbn [rev app]. constructor.
      + rewrite <- in_rev, slots_in. intros [e [I K]]. now apply (U e I).
      + apply NoDup_rev. apply H.
    - intros s' v. unfold updated. split.
      + destruct (s' =? s) eqn:D.
        * apply Z.eqb_eq in D. subst s'. intros Q. inversion Q; subst. exists y. split; [apply in_elt|]. auto.
        * intros Q. apply (proj2 H) in Q. destruct Q as [e [I K]]. exists e. split; [apply in_or_app; auto|exact K].
      + intros [e [I [K W]]]. apply in_app_or in I. destruct I as [I|[<-|[]]].
        * destruct (s' =? s) eqn:D.
          -- apply Z.eqb_eq in D. subst s'. exfalso. now apply (U e I).
          -- rewrite <- W. now apply (shows_at st m e s' H).
        * rewrite KY in K. inversion K. replace s' with s by lia. rewrite Z.eqb_refl. congruence.
  Qed.
  Lemma shows_removed : forall st m a x b s, shows key val st m -> listed st = a ++ x :: b -> key x = Some (s + 1) ->
    shows key val (Some (a ++ b)) (updated m s None).
  Proof.
    intros st m a x b s H L KX. pose proof (proj1 H) as N. rewrite L in N.
    destruct (nodup_mid a x b (s + 1) N KX) as [N' U]. split; [exact N'|]. cbn [listed]. intros s' v. unfold updated. split.
    - destruct (s' =? s) eqn:D; [discriminate|]. apply Z.eqb_neq in D. intros Q. apply (proj2 H) in Q. rewrite L in Q.
      destruct Q as [e [I [K W]]]. exists e. split; [|auto]. rewrite in_app_iff in *. destruct I as [I|[I|I]]; auto.
      subst. rewrite KX in K. inversion K. lia.
    - intros [e [I [K W]]]. destruct (s' =? s) eqn:D.
      + apply Z.eqb_eq in D. subst s'. exfalso. now apply (U e I).
      + rewrite <- W. apply (shows_at st m e s' H); [|exact K]. rewrite L. rewrite in_app_iff in *. cbn [In]. tauto.
  Qed.

  Lemma first_slot : forall p l k, (forall e, p e = true <-> key e = Some k) ->
    (exists a x b, l = a ++ x :: b /\ key x = Some k /\ first_index p l = Some (length a) /\ nth_error l (length a) = Some x) \/
    ((forall e, In e l -> key e <> Some k) /\ first_index p l = None).
  Proof.
    intros p l k P. destruct (first_index p l) as [i|] eqn:F.
    - left. apply first_index_split in F. destruct F as [a [x [b [L [Q [R _]]]]]]. exists a, x, b. subst.
      split; [reflexivity|]. split; [now apply P|]. split; [reflexivity|]. apply nth_error_mid.
    - right. split; [|reflexivity]. apply first_index_none in F. rewrite Forall_forall in F. intros e I K.
      apply P in K. rewrite (F e I) in K. discriminate.
  Qed.

  (** ** Entries of other slots *)
  Lemma kept_replaced : forall st a x y b s, listed st = a ++ x :: b -> key x = Some (s + 1) -> key y = Some (s + 1) ->
    others_kept key s st (Some (a ++ y :: b)).
  Proof.
    intros st a x y b s L KX KY. unfold others_kept. cbn [listed]. rewrite L, !filter_app. cbn [filter].
    rewrite KX, KY. cbn [zopt_eqb]. rewrite Z.eqb_refl. reflexivity.
  Qed.
  Lemma kept_removed : forall st a x b s, listed st = a ++ x :: b -> key x = Some (s + 1) ->
    others_kept key s st (Some (a ++ b)).
  Proof.
    intros st a x b s L KX. unfold others_kept. cbn [listed]. rewrite L, !filter_app. cbn [filter].
    rewrite KX. cbn [zopt_eqb]. rewrite Z.eqb_refl. reflexivity.
  Qed.
  Lemma kept_appended : forall st y s, key y = Some (s + 1) -> others_kept key s st (Some (listed st ++ [y])).
  Proof.
    intros st y s KY. unfold others_kept. cbn [listed]. rewrite filter_app. cbn [filter].
    rewrite KY. cbn [zopt_eqb]. rewrite Z.eqb_refl. cbn [negb]. now rewrite app_nil_r.
  Qed.

  (** ** Storing *)
  Lemma store_ok : forall strict (valid : E -> bool) old changed,
    (strict = true -> Forall (fun e => valid e = true) changed) ->
    store strict valid old changed = (Some changed, Ok tt).
  Proof.
    intros strict valid old changed H. unfold store. destruct strict; [|reflexivity].
    replace (forallb valid changed) with true; [reflexivity|]. symmetry. apply forallb_forall.
    specialize (H eq_refl). rewrite Forall_forall in H. exact H.
  Qed.
End Generic.

Lemma forall_mid : forall A (P : A -> Prop) a x b, Forall P (a ++ x :: b) -> Forall P a /\ P x /\ Forall P b.
Proof. intros A P a x b H. apply Forall_app in H. destruct H as [H1 H2]. split; [exact H1|]. split; [exact (Forall_inv H2)|exact (Forall_inv_tail H2)]. Qed.
Lemma forall_mid_intro : forall A (P : A -> Prop) a x b, Forall P a -> P x -> Forall P b -> Forall P (a ++ x :: b).
Proof. intros. apply Forall_app. split; auto. Qed.

(** ** Many calls *)
Lemma run_all_refines : forall A V S (accepts : Z -> A -> Prop) (write : option V -> A -> V) unset
    (Inv : S -> table V -> Prop) (Good : sop A -> Prop) (f : S -> sop A -> S * result unit),
  (forall s m o, Inv s m -> Good o -> exists m', tstep accepts write unset m o (snd (f s o)) m' /\ Inv (fst (f s o)) m') ->
  forall os s m, Inv s m -> Forall Good os ->
  exists m', tsteps accepts write unset m os (snd (run_all f s os)) m' /\ Inv (fst (run_all f s os)) m'.
Proof.
  intros A V S accepts write unset Inv Good f Hf. induction os as [|o os IH]; intros s m I G; cbn [run_all].
  - exists m. split; [constructor|exact I].
  - destruct (Hf s m o I (Forall_inv G)) as [m1 [T I1]]. destruct (f s o) as [s1 r]. cbn [fst snd] in *.
    destruct (IH s1 m1 I1 (Forall_inv_tail G)) as [m2 [T2 I2]]. destruct (run_all f s1 os) as [s2 rs]. cbn [fst snd] in *.
    exists m2. split; [econstructor; eauto|exact I2].
Qed.

(** ** Deconstruction planner *)
Definition n_key := n_index.
Definition n_ok (strict : bool) (st : option (list nfilter)) : Prop :=
  strict = true -> Forall (fun e => n_valid e = true) (listed st).
Definition n_accepts (s : Z) (n : pystr) : Prop := between 0 (2 ^ 64) s.

Lemma uint64_iff : forall z, is_uint64 z = true <-> between 0 (2 ^ 64) z.
Proof. intros z. unfold is_uint64, between. rewrite andb_true_iff, Z.leb_le, Z.ltb_lt. tauto. Qed.
Lemma int64_iff : forall z, is_int64 z = true <-> between (- 2 ^ 63) (2 ^ 63) z.
Proof. intros z. unfold is_int64, between. rewrite andb_true_iff, Z.leb_le, Z.ltb_lt. tauto. Qed.
Lemma int32_iff : forall z, is_int32 z = true <-> between (- 2 ^ 31) (2 ^ 31) z.
Proof. intros z. unfold is_int32, between. rewrite andb_true_iff, Z.leb_le, Z.ltb_lt. tauto. Qed.
Lemma uint32_iff : forall z, is_uint32 z = true <-> between 0 (2 ^ 32) z.
Proof. intros z. unfold is_uint32, between. rewrite andb_true_iff, Z.leb_le, Z.ltb_lt. tauto. Qed.
Lemma uint16_iff : forall z, is_uint16 z = true <-> between 0 (2 ^ 16) z.
Proof. intros z. unfold is_uint16, between. rewrite andb_true_iff, Z.leb_le, Z.ltb_lt. tauto. Qed.
Lemma one_of_iff : forall l s, one_of l s = true <-> In s l.
Proof.
  intros l s. unfold one_of. rewrite existsb_exists. split.
  - intros [x [I E]]. apply pystr_eqb_eq in E. now subst.
  - intros I. exists s. split; [exact I|]. now apply pystr_eqb_eq.
Qed.

Lemma named_step : forall strict st m o, shows n_key n_name st m -> n_ok strict st ->
  (strict = true -> match o with Assign s _ => s <> 2 ^ 64 - 1 | Clear _ => True end) ->
  exists m', tstep n_accepts replace UnboundLocalError m o (snd (apply_named strict st o)) m' /\
    shows n_key n_name (fst (apply_named strict st o)) m' /\ n_ok strict (fst (apply_named strict st o)) /\
    others_kept n_key (fst (by_name o)) st (fst (apply_named strict st o)) /\
    (is_ok (snd (apply_named strict st o)) = false -> fst (apply_named strict st o) = st).
Proof.
  intros strict st m o H K T. unfold apply_named, set_named_filter. fold (listed st).
  destruct (first_slot n_key (fun f => zopt_eqb (n_index f) (fst (by_name o) + 1)) (listed st) (fst (by_name o) + 1))
    as [[a [x [b [L [KX [F N]]]]]]|[U F]].
  { intros e. apply zopt_eqb_eq. }
  - destruct o as [s n|s]; cbn [by_name fst snd] in *; rewrite F.
    + destruct (is_uint64 s) eqn:B.
      * apply uint64_iff in B. rewrite N, L, replace_nth_mid. rewrite store_ok.
        -- cbn [fst snd]. exists (updated m s (Some n)). split.
           { apply t_assign; [exact B|]. apply (updated_put _ m s (Some n)). }
           split. { apply (shows_replaced n_key n_name st m a x (mkN (n_index x) n) b s H L KX KX). }
           split. { intros S. specialize (K S). rewrite L in K. apply forall_mid in K. destruct K as [K1 [K2 K3]]. apply forall_mid_intro; auto. }
           split. { eapply kept_replaced; eauto. }
           discriminate.
        -- intros S. specialize (K S). rewrite L in K. apply forall_mid in K. destruct K as [K1 [K2 K3]].
           apply forall_mid_intro; auto.
      * cbn [fst snd]. exists m. split; [|split; [|split; [|split]]]; auto.
        -- apply t_reject. intros Q. apply uint64_iff in Q. congruence.
        -- reflexivity.
    + rewrite L, remove_nth_mid. rewrite store_ok.
      * cbn [fst snd]. exists (updated m s None). split.
        { apply t_clear; [|apply updated_put]. rewrite (shows_at n_key n_name st m x s H); [discriminate| |exact KX]. rewrite L. apply in_elt. }
        split. { eapply shows_removed; eauto. }
        split. { intros S. specialize (K S). rewrite L in K. apply forall_mid in K. destruct K as [K1 [K2 K3]]. apply Forall_app; auto. }
        split. { eapply kept_removed; eauto. }
        discriminate.
      * intros S. specialize (K S). rewrite L in K. apply forall_mid in K. destruct K as [K1 [K2 K3]]. apply Forall_app; auto.
  - destruct o as [s n|s]; cbn [by_name fst snd] in *; rewrite F.
    + pose proof (proj2 (shows_none n_key n_name st m s H) U) as M.
      destruct (is_uint64 s) eqn:B.
      * apply uint64_iff in B. assert (W : strict = true -> Forall (fun e => n_valid e = true) (listed st ++ [mkN (Some (s + 1)) n])).
        { intros S. apply Forall_app. split; [apply K; exact S|]. constructor; [|constructor]. unfold n_valid. cbn [n_index opt_ok].
          apply uint64_iff. unfold between in *. specialize (T S). lia. }
        rewrite store_ok by exact W. cbn [fst snd]. exists (updated m s (Some n)). split.
        { apply t_assign; [exact B|]. apply (updated_put _ m s (Some n)). }
        split. { apply (shows_appended n_key n_name st m (mkN (Some (s + 1)) n) s H M eq_refl). }
        split. { exact W. }
        split. { apply kept_appended. reflexivity. }
        discriminate.
      * cbn [fst snd]. exists m. split; [|split; [|split; [|split]]]; auto.
        -- apply t_reject. intros Q. apply uint64_iff in Q. congruence.
        -- reflexivity.
    + cbn [fst snd]. exists m. split; [|split; [|split; [|split]]]; auto.
      -- apply t_clear_empty. now apply (shows_none n_key n_name st m s H).
      -- reflexivity.
Qed.

Definition n_good (strict : bool) (o : sop pystr) : Prop :=
  strict = true -> match o with Assign s _ => s <> 2 ^ 64 - 1 | Clear _ => True end.
Lemma named_run : forall strict os st m, shows n_key n_name st m -> n_ok strict st -> Forall (n_good strict) os ->
  exists m', tsteps n_accepts replace UnboundLocalError m os (snd (run_all (apply_named strict) st os)) m' /\
    shows n_key n_name (fst (run_all (apply_named strict) st os)) m' /\ n_ok strict (fst (run_all (apply_named strict) st os)).
Proof.
  intros strict os st m H K G.
  apply (run_all_refines _ _ _ n_accepts replace UnboundLocalError (fun s m => shows n_key n_name s m /\ n_ok strict s) (n_good strict) (apply_named strict)); auto.
  intros s m0 o [I1 I2] Go. destruct (named_step strict s m0 o I1 I2 Go) as [m' [T [A [B _]]]]. exists m'. auto.
Qed.
