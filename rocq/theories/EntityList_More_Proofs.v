(** Proofs about rejected insertions, slice deletion and set operations
    (C14-C16). *)
From Coq Require Import ZArith NArith List Bool Lia.
From Verif Require Import Common Dict EntityList_Model EntityList_Spec EntityList_Proofs.
Import ListNotations.

Lemma nth_error_same : forall A (a b : list A), (forall i, nth_error a i = nth_error b i) -> a = b.
Proof.
  induction a as [|x a IH]; intros [|y b] H; [reflexivity|specialize (H 0%nat); discriminate|specialize (H 0%nat); discriminate|].
  pose proof (H 0%nat) as E. injection E as ->. f_equal. apply IH. intros i. exact (H (S i)).
Qed.

(** *** C14 *)
(** Assigning to the member at [p] an ID another member has. *)
Lemma assign_used_id : forall s p q m n (k : pystr), reachable s -> k <> [] -> p <> q ->
  nth_error (members s) p = Some m -> nth_error (members s) q = Some n -> e_id (snd n) = Some k ->
  snd (el_step s (ESetId p (Some k))) = Some DuplicateIDError /\
  members (fst (el_step s (ESetId p (Some k)))) =
    replace_nth (members s) p (fst m, mkEnt (Some k) (e_val (snd m)) (e_grp (snd m))) /\
  el_get_key (fst (el_step s (ESetId p (Some k)))) k = Ok (fst n) /\
  forall k', e_id (snd m) = Some k' -> el_get_key (fst (el_step s (ESetId p (Some k)))) k' = Err KeyError.
Proof.
  intros s p q m n k H Hk Hpq Hm Hn Hid. destruct (reachable_inv s H) as [I C]. rewrite (members_M s I) in *.
  pose proof Hm as Hm'. pose proof Hn as Hn'.
  unfold M in Hm, Hn. rewrite nth_error_map in Hm, Hn.
  destruct (nth_error (root s) p) as [o|] eqn:E; [|discriminate]. injection Hm as <-.
  destruct (nth_error (root s) q) as [x|] eqn:F; [|discriminate]. injection Hn as <-. cbn [fst snd] in *.
  assert (Ho : (o < length (heap s))%nat) by (apply (i_heap _ _ I); eapply nth_error_In; eassumption).
  assert (Hx : (x < length (heap s))%nat) by (apply (i_heap _ _ I); eapply nth_error_In; eassumption).
  assert (Hp : (p < length (root s))%nat) by (apply nth_error_Some; congruence).
  assert (Hox : x <> o).
  { intros ->. apply Hpq. pose proof (i_nodup _ _ I) as N. rewrite NoDup_nth_error in N. apply N; [assumption|congruence]. }
  rewrite <- id_look in Hid by assumption.
  assert (T : truthy (Some k) = true) by (destruct k; [contradiction|reflexivity]).
  destruct (remove_key_at s p o I E) as [s1 [S1 [S2 [S3 S4]]]].
  rewrite (remove_key_id s p o I C E) in S1.
  set (s2 := with_heap s1 (set_id (heap s) o (Some k))).
  assert (I2 : Inv (but o) s2).
  { unfold s2. rewrite <- S2. apply inv_set_id; [rewrite S2; assumption|assumption]. }
  assert (X : dget key_eqb (key_map s2) (Some k) = Some x).
  { apply (i_map _ _ I2). exists q. unfold s2, keyed, but. cbn [with_heap heap root]. rewrite S3.
    rewrite id_set_id by assumption. destruct (Nat.eqb_spec x o); [contradiction|]. auto. }
  assert (R : el_step s (ESetId p (Some k)) = (s2, Some DuplicateIDError)).
  { cbn [el_step]. unfold el_set_id. rewrite E. destruct (is_group (heap s) o).
    - rewrite remove_key_heap, S1. unfold andthen. cbn [fst snd]. fold s2. unfold set_key. rewrite X. reflexivity.
    - rewrite S1. unfold andthen. cbn [fst snd]. rewrite S2. fold s2. unfold set_key. rewrite X. reflexivity. }
  rewrite R. cbn [fst snd]. split; [reflexivity|]. split; [|split].
  - rewrite members_map by (apply (i_heap _ _ I2)). unfold M, s2. cbn [with_heap heap root]. rewrite S3.
    apply nth_error_same. intros j. rewrite nth_replace by (rewrite map_length; assumption).
    rewrite !nth_error_map. destruct (nth_error (root s) j) as [y|] eqn:J; cbn [option_map].
    + assert (Hy : (y < length (heap s))%nat) by (apply (i_heap _ _ I); eapply nth_error_In; eassumption).
      rewrite look_set_id by assumption. destruct (Nat.eqb_spec j p) as [->|Hj].
      * assert (y = o) by congruence. subst. rewrite Nat.eqb_refl. reflexivity.
      * destruct (Nat.eqb_spec y o) as [->|]; [|reflexivity]. exfalso. apply Hj.
        pose proof (i_nodup _ _ I) as N. rewrite NoDup_nth_error in N.
        apply N; [apply nth_error_Some; congruence|congruence].
    + destruct (Nat.eqb_spec j p) as [->|Hj]; [congruence|reflexivity].
  - unfold el_get_key. rewrite X. reflexivity.
  - intros k' Hk'. unfold el_get_key.
    destruct (dget key_eqb (key_map s2) (Some k')) as [y|] eqn:Y; [|reflexivity]. exfalso.
    apply (i_map _ _ I2) in Y. destruct Y as [j [J [B [D T']]]]. unfold but in B. unfold s2 in J, D.
    cbn [with_heap heap root] in J, D. rewrite S3 in J. rewrite id_set_id in D by assumption.
    destruct (Nat.eqb_spec y o); [contradiction|].
    rewrite <- id_look in Hk' by assumption.
    assert (A : dget key_eqb (key_map s) (Some k') = Some y) by (apply (i_map _ _ I); exists j; repeat split; assumption).
    assert (A' : dget key_eqb (key_map s) (Some k') = Some o) by (apply (i_map _ _ I); exists p; repeat split; assumption).
    congruence.
Qed.

Lemma insert_rejected_iff : forall s idx e k, reachable s -> e_id e = Some k -> k <> [] ->
  (snd (el_step s (EInsert idx e)) = Some DuplicateIDError <->
   exists m, In m (members s) /\ e_id (snd m) = Some k) /\
  (snd (el_step s (EInsert idx e)) = Some DuplicateIDError -> fst (el_step s (EInsert idx e)) = s).
Proof.
  intros s idx e k H He Hk. destruct (reachable_inv s H) as [I C]. rewrite (members_M s I).
  assert (Hne : e_id e <> Some []) by (rewrite He; intros X; inversion X; contradiction).
  pose proof (used_taken s (e_id e) I C Hne) as U.
  assert (UU : used (M s) (e_id e) = true <-> exists m, In m (M s) /\ e_id (snd m) = Some k).
  { rewrite He. simpl. rewrite existsb_exists. unfold has_id.
    split; intros [m [H1 H2]]; exists m; (split; [assumption|apply key_eqb_eq; assumption]). }
  rewrite <- UU, U. cbn [el_step]. unfold el_insert.
  destruct (id_taken s (e_id e)) eqn:T; cbn [fst snd]; [tauto|].
  assert (N : forall s2 o, key_map s2 = key_map s -> snd (set_key s2 (e_id e) o) <> Some DuplicateIDError).
  { intros s2 o E. unfold set_key. rewrite E. unfold id_taken in T. rewrite He in *.
    destruct (dget key_eqb (key_map s) (Some k)); [discriminate|].
    destruct (index_of _ _ _); discriminate. }
  destruct (truthy (e_id e)).
  - specialize (N (shift_keys (mkES (heap s ++ [e]) (py_insert (root s) idx (length (heap s)))
       (key_map s) (key_to_idx s) (idx_to_key s)) idx 1) (length (heap s)) eq_refl).
    split; [split; [intros X; contradiction|discriminate]|intros X; contradiction].
  - simpl. split; [split; discriminate|discriminate].
Qed.

Lemma any_rejection_untouched : forall s o s' x, reachable s -> covered (members s) o ->
  el_step s o = (s', Some x) -> members s' = members s /\ consistent s'.
Proof.
  intros s o s' x H Hc E. pose proof (reachable_refines s o H Hc) as R. rewrite E in R. cbn [fst snd] in R.
  assert (reachable s') by (replace s' with (fst (el_step s o)) by (rewrite E; reflexivity); constructor; assumption).
  split; [|apply reachable_consistent; assumption].
  destruct o; cbn [spec_step] in R; unfold spec_insert, spec_replace in R;
    repeat match type of R with
           | context [if ?c then _ else _] => destruct c
           | context [match ?c with _ => _ end] => destruct c eqn:?
           end; inversion R; try reflexivity; try discriminate; try congruence.
Qed.

(** *** C15 *)
Lemma range_len_bound : forall start stop step k, (step <> 0)%Z ->
  (0 <= k < py_range_len start stop step)%Z ->
  ((0 < step)%Z -> (start <= start + k * step < stop)%Z) /\
  ((step < 0)%Z -> (stop < start + k * step <= start)%Z).
Proof.
  intros start stop step k Hs Hk. unfold py_range_len in Hk. split; intros Hp.
  - destruct (Z.ltb_spec 0 step); [|lia]. destruct (Z.ltb_spec start stop); [|lia].
    assert (k <= (stop - start - 1) / step)%Z by lia.
    pose proof (Z.mul_div_le (stop - start - 1) step Hp). nia.
  - destruct (Z.ltb_spec 0 step); [lia|]. destruct (Z.ltb_spec stop start); [|lia].
    assert (k <= (start - stop - 1) / (- step))%Z by lia.
    assert (0 < - step)%Z by lia.
    pose proof (Z.mul_div_le (start - stop - 1) (- step) H2). nia.
Qed.

Lemma range_in : forall start stop step x, (step <> 0)%Z -> In x (py_range start stop step) ->
  ((0 < step)%Z -> (start <= x < stop)%Z) /\ ((step < 0)%Z -> (stop < x <= start)%Z).
Proof.
  intros start stop step x Hs H. unfold py_range in H. apply in_map_iff in H. destruct H as [k [<- H]].
  apply in_seq in H. apply range_len_bound; [assumption|]. lia.
Qed.
Lemma range_nodup : forall start stop step, (step <> 0)%Z -> NoDup (py_range start stop step).
Proof.
  intros. unfold py_range. apply FinFun.Injective_map_NoDup; [|apply seq_NoDup].
  intros a b E. nia.
Qed.

Lemma slice_in_bounds : forall a b c n start stop step x, (0 <= n)%Z ->
  c <> Some 0%Z -> slice_indices a b c n = (start, stop, step) ->
  (step <> 0)%Z /\ (In x (py_range start stop step) -> (0 <= x < n)%Z).
Proof.
  intros a b c n start stop step x Hn Hc E. unfold slice_indices in E.
  assert (Hstep : step = match c with Some s => s | None => 1%Z end) by (inversion E; reflexivity).
  assert (S0 : (step <> 0)%Z) by (rewrite Hstep; destruct c as [[|?|?]|]; [congruence|lia|lia|lia]).
  split; [assumption|]. intros H. apply range_in in H; [|assumption].
  rewrite <- Hstep in E. cbv zeta in E. injection E as E1 E2.
  destruct (Z.ltb_spec step 0) as [P|P].
  - destruct H as [_ H]. specialize (H P).
    assert (start <= n - 1)%Z.
    { rewrite <- E1. destruct a as [a|]; [|lia]. destruct (Z.ltb_spec a 0); lia. }
    assert (-1 <= stop)%Z.
    { rewrite <- E2. destruct b as [b|]; [|lia]. destruct (Z.ltb_spec b 0); lia. }
    lia.
  - destruct H as [H _]. specialize (H ltac:(lia)).
    assert (0 <= start)%Z.
    { rewrite <- E1. destruct a as [a|]; [|lia]. destruct (Z.ltb_spec a 0); lia. }
    assert (stop <= n)%Z.
    { rewrite <- E2. destruct b as [b|]; [|lia]. destruct (Z.ltb_spec b 0); lia. }
    lia.
Qed.

(** Objects at positions outside [del]. *)
Definition outside (r : list nat) (dl : list Z) (x : nat) : Prop :=
  exists i, nth_error r i = Some x /\ ~ In (Z.of_nat i) dl.

Lemma key_at_gen : forall R s i o, Inv R s -> nth_error (root s) i = Some o -> R o ->
  key_at s (Z.of_nat i) = if truthy (id_of (heap s) o) then id_of (heap s) o else None.
Proof.
  intros R s i o I Hi HR. unfold key_at.
  destruct (dget Z.eqb (idx_to_key s) (Z.of_nat i)) as [k|] eqn:E.
  - apply (i_inv _ _ I) in E. apply (i_idx _ _ I) in E. destruct E as [j [x [E1 [E2 [_ [E3 E4]]]]]].
    assert (j = i) by lia. subst j. assert (x = o) by congruence. subst x. rewrite E3, E4. reflexivity.
  - destruct (truthy (id_of (heap s) o)) eqn:T; [|reflexivity].
    assert (dget Z.eqb (idx_to_key s) (Z.of_nat i) = Some (id_of (heap s) o)); [|congruence].
    apply (i_inv _ _ I). apply (i_idx _ _ I). exists i, o. split; [reflexivity|]. repeat split; auto.
Qed.

Lemma outside_ext : forall r dl x i o, NoDup r -> nth_error r i = Some o ->
  (outside r (Z.of_nat i :: dl) x <-> outside r dl x /\ x <> o).
Proof.
  intros r dl x i o Hn Hi. rewrite NoDup_nth_error in Hn. unfold outside. split.
  - intros [j [J1 J2]]. simpl in J2. split; [exists j; tauto|]. intros ->.
    apply J2. left. f_equal. apply Hn; [apply nth_error_Some; congruence|congruence].
  - intros [[j [J1 J2]] N]. exists j. split; [assumption|]. intros [E|E]; [|contradiction].
    apply N. assert (i = j) by lia. subst. congruence.
Qed.

Lemma remove_loop : forall dl s dl0,
  Inv (outside (root s) dl0) s -> NoDup dl -> (forall z, In z dl -> ~ In z dl0) ->
  (forall z, In z dl -> (0 <= z < Z.of_nat (length (root s)))%Z) ->
  exists s', fold_left (fun acc i => andthen acc (fun s1 => remove_key s1 (key_at s1 i))) dl (s, None) = (s', None) /\
    heap s' = heap s /\ root s' = root s /\ Inv (outside (root s) (rev dl ++ dl0)) s'.
Proof.
  induction dl as [|z dl IH]; intros s dl0 I Hn Hd Hr; simpl.
  - exists s. auto.
  - inversion Hn; subst. unfold andthen at 2. cbn [fst snd].
    assert (Hz := Hr z (or_introl eq_refl)). set (i := Z.to_nat z). assert (Ez : z = Z.of_nat i) by (unfold i; lia).
    destruct (nth_error (root s) i) as [o|] eqn:E; [|apply nth_error_None in E; lia].
    assert (Ro : outside (root s) dl0 o).
    { exists i. split; [assumption|]. rewrite <- Ez. apply Hd. left. reflexivity. }
    assert (K : exists s1, remove_key s (key_at s z) = (s1, None) /\ heap s1 = heap s /\ root s1 = root s /\
                 Inv (outside (root s) (z :: dl0)) s1).
    { rewrite Ez, (key_at_gen _ s i o I E Ro). destruct (truthy (id_of (heap s) o)) eqn:T.
      - destruct (remove_key_gen _ s o i I E Ro T) as [s1 [A [B [C D]]]]. exists s1.
        split; [assumption|]. split; [assumption|]. split; [assumption|].
        eapply inv_ext; [|exact D]. intros x _. rewrite (outside_ext _ _ _ _ o); [tauto|apply (i_nodup _ _ I)|assumption].
      - exists s. split; [reflexivity|]. split; [reflexivity|]. split; [reflexivity|].
        assert (Ex : forall k j x, keyed (heap s) (root s) (outside (root s) (Z.of_nat i :: dl0)) k j x <->
                        keyed (heap s) (root s) (outside (root s) dl0) k j x).
        { intros k j x. unfold keyed. rewrite (outside_ext _ _ _ _ o); [|apply (i_nodup _ _ I)|assumption].
          split; [tauto|]. intros [A [B [C D]]]. split; [assumption|]. split; [|tauto]. split; [assumption|].
          intros ->. congruence. }
        destruct I as [I1 I2 I3 I4 I5 I6 I7 I8]. split; try assumption.
        + intros k x. rewrite I6. split; intros [j Kj]; exists j; apply Ex; assumption.
        + intros k w. rewrite I7. split; intros [j [x [K1 K2]]]; exists j, x; (split; [assumption|apply Ex; assumption]). }
    destruct K as [s1 [A [B [C D]]]]. rewrite A.
    destruct (IH s1 (z :: dl0)) as [s' [P1 [P2 [P3 P4]]]].
    + rewrite C. assumption.
    + assumption.
    + intros w Hw [F|F]; [congruence|]. apply (Hd w); [right; assumption|assumption].
    + intros w Hw. rewrite C. apply Hr. right. assumption.
    + exists s'. split; [assumption|]. split; [congruence|]. split; [congruence|].
      rewrite C in P4. rewrite <- app_assoc. simpl. exact P4.
Qed.

Lemma shift_fold_frame : forall dl s amt,
  heap (fold_left (fun s i => shift_keys s i amt) dl s) = heap s /\
  root (fold_left (fun s i => shift_keys s i amt) dl s) = root s /\
  key_map (fold_left (fun s i => shift_keys s i amt) dl s) = key_map s.
Proof.
  induction dl as [|z dl IH]; intros s amt; simpl; [auto|].
  destruct (IH (shift_keys s z amt) amt) as [A [B C]]. rewrite A, B, C. auto.
Qed.

Lemma keep_pos_in : forall A (f : Z -> bool) (l : list A) n x,
  In x (keep_pos f n l) <-> exists i, nth_error l i = Some x /\ f (n + Z.of_nat i)%Z = true.
Proof.
  intros A f. induction l as [|y l IH]; intros n x; simpl.
  - split; [contradiction|]. intros [i [H _]]. destruct i; discriminate.
  - destruct (f n) eqn:E; simpl; rewrite IH.
    + split.
      * intros [->|[i [H1 H2]]].
        -- exists O. split; [reflexivity|]. rewrite Z.add_0_r. assumption.
        -- exists (S i). split; [assumption|]. replace (n + Z.of_nat (S i))%Z with (n + 1 + Z.of_nat i)%Z by lia. assumption.
      * intros [[|i] [H1 H2]]; [left; simpl in H1; congruence|]. right. exists i. split; [assumption|].
        replace (n + 1 + Z.of_nat i)%Z with (n + Z.of_nat (S i))%Z by lia. assumption.
    + split.
      * intros [i [H1 H2]]. exists (S i). split; [assumption|]. replace (n + Z.of_nat (S i))%Z with (n + 1 + Z.of_nat i)%Z by lia. assumption.
      * intros [[|i] [H1 H2]]; [rewrite Z.add_0_r in H2; congruence|]. exists i. split; [assumption|].
        replace (n + 1 + Z.of_nat i)%Z with (n + Z.of_nat (S i))%Z by lia. assumption.
Qed.
Lemma map_keep_pos : forall A B (g : A -> B) f l n, map g (keep_pos f n l) = keep_pos f n (map g l).
Proof.
  intros A B g f. induction l as [|y l IH]; intros n; simpl; [reflexivity|].
  destruct (f n); simpl; rewrite IH; reflexivity.
Qed.
Lemma keep_pos_nodup : forall A (f : Z -> bool) (l : list A) n, NoDup l -> NoDup (keep_pos f n l).
Proof.
  intros A f. induction l as [|y l IH]; intros n H; simpl; [constructor|]. inversion H; subst.
  destruct (f n); [|auto]. constructor; [|auto]. intros K. apply keep_pos_in in K. destruct K as [i [K _]].
  apply nth_error_In in K. contradiction.
Qed.

Lemma existsb_zeq : forall p l, existsb (Z.eqb p) l = true <-> In p l.
Proof.
  intros. rewrite existsb_exists. split.
  - intros [x [H1 H2]]. apply Z.eqb_eq in H2. subst. assumption.
  - intros H. exists p. split; [assumption|apply Z.eqb_refl].
Qed.

(** State after the key removals of a slice deletion. *)
Lemma slice_removed : forall s a b c start stop step, reachable s -> c <> Some 0%Z ->
  slice_indices a b c (Z.of_nat (length (root s))) = (start, stop, step) ->
  exists s1, heap s1 = heap s /\ root s1 = root s /\
    Inv (outside (root s) (rev (py_range start stop step))) s1 /\
    el_del_slice s a b c =
      (with_root (fold_left (fun s i => shift_keys s i (- step)) (py_range start stop step) s1)
         (keep_pos (fun p => negb (existsb (Z.eqb p) (py_range start stop step))) 0 (root s)), None).
Proof.
  intros s a b c start stop step H Hc E. destruct (reachable_inv s H) as [I C].
  destruct (slice_in_bounds a b c _ start stop step 0%Z (Nat2Z.is_nonneg _) Hc E) as [S0 _].
  destruct (remove_loop (py_range start stop step) s []) as [s1 [A [B [D F]]]].
  - eapply inv_ext; [|exact I]. intros x Hx. unfold all, outside. split; [|trivial]. intros _.
    apply In_nth_error in Hx. destruct Hx as [i Hi]. exists i. split; [assumption|]. intros [].
  - apply range_nodup. assumption.
  - intros z _ [].
  - intros z Hz. destruct (slice_in_bounds a b c _ start stop step z (Nat2Z.is_nonneg _) Hc E) as [_ Q]. auto.
  - exists s1. rewrite app_nil_r in F. split; [assumption|]. split; [assumption|]. split; [assumption|].
    unfold el_del_slice. rewrite E.
    assert (G : (match c with Some 0%Z => true | _ => false end) = false) by (destruct c as [[|?|?]|]; congruence).
    rewrite G, A. unfold andthen. cbn [fst snd].
    destruct (shift_fold_frame (py_range start stop step) s1 (- step)) as [_ [R _]]. rewrite R, D. reflexivity.
Qed.

Lemma slice_lookup : forall s a b c start stop step, reachable s -> c <> Some 0%Z ->
  slice_indices a b c (Z.of_nat (length (members s))) = (start, stop, step) ->
  snd (el_step s (EDelSlice a b c)) = None /\
  members (fst (el_step s (EDelSlice a b c))) = survivors (members s) start stop step /\
  forall (k : pystr) o, k <> [] ->
    (el_get_key (fst (el_step s (EDelSlice a b c))) k = Ok o <->
     exists e, In (o, e) (survivors (members s) start stop step) /\ e_id e = Some k).
Proof.
  intros s a b c start stop step H Hc E. destruct (reachable_inv s H) as [I C].
  rewrite (members_M s I) in *.
  assert (LM : length (M s) = length (root s)) by (unfold M; apply map_length). unfold M in E; rewrite map_length in E; idtac.
  destruct (slice_removed s a b c start stop step H Hc E) as [s1 [A1 [A2 [A3 A4]]]].
  cbn [el_step]. rewrite A4. cbn [fst snd].
  destruct (shift_fold_frame (py_range start stop step) s1 (- step)) as [B1 [B2 B3]].
  set (s2 := fold_left (fun s i => shift_keys s i (- step)) (py_range start stop step) s1) in *.
  set (kp := keep_pos (fun p => negb (existsb (Z.eqb p) (py_range start stop step))) 0 (root s)).
  assert (MM : members (with_root s2 kp) = survivors (M s) start stop step).
  { rewrite members_map.
    - cbn [with_root root heap]. rewrite B1, A1. unfold survivors, M, kp. rewrite map_keep_pos. reflexivity.
    - intros o Ho. cbn [with_root root heap] in *. rewrite B1, A1. unfold kp in Ho. apply keep_pos_in in Ho.
      destruct Ho as [i [Hi _]]. apply (i_heap _ _ I). eapply nth_error_In; eassumption. }
  split; [reflexivity|]. split; [exact MM|].
  intros k o Hk. unfold el_get_key. cbn [with_root key_map]. rewrite B3.
  assert (K : forall o, dget key_eqb (key_map s1) (Some k) = Some o <->
     exists e, In (o, e) (survivors (M s) start stop step) /\ e_id e = Some k).
  { intros x. rewrite (i_map _ _ A3). rewrite A1, A2. split.
    - intros [i [K1 [K2 [K3 K4]]]]. exists (look (heap s) x). split.
      + unfold survivors. apply keep_pos_in. destruct K2 as [j [J1 J2]].
        exists j. split; [unfold M; rewrite nth_error_map, J1; reflexivity|].
        unfold in_slice. simpl. destruct (existsb (Z.eqb (Z.of_nat j)) (py_range start stop step)) eqn:F; [|reflexivity].
        apply existsb_zeq in F. rewrite <- in_rev in J2. contradiction.
      + rewrite <- id_look; [assumption|]. apply (i_heap _ _ I). eapply nth_error_In; eassumption.
    - intros [e [K1 K2]]. unfold survivors in K1. apply keep_pos_in in K1. destruct K1 as [j [J1 J2]].
      apply nth_M in J1. destruct J1 as [y [J1 E1]]. inversion E1; subst.
      exists j. repeat split; auto.
      + exists j. split; [assumption|]. simpl in J2. rewrite <- in_rev. intros F.
        apply existsb_zeq in F. unfold in_slice in J2. rewrite F in J2. discriminate.
      + rewrite id_look; [assumption|]. apply (i_heap _ _ I). eapply nth_error_In; eassumption.
      + destruct k; [congruence|reflexivity]. }
  destruct (dget key_eqb (key_map s1) (Some k)) as [y|] eqn:F.
  - rewrite <- K. split; [|congruence]. intros G. congruence.
  - split; [discriminate|]. intros G. apply K in G. congruence.
Qed.

(** Exact criterion for the positional maps, slices of step one. *)
Lemma shift_fold_reindex : forall dl s amt, dl <> [] ->
  fold_left (fun s i => shift_keys s i amt) dl s =
  reindex s (fun z => fold_left (fun z i => if (i <=? z)%Z then (z + amt)%Z else z) dl z).
Proof.
  intros dl s amt. revert s. induction dl as [|i dl IH]; intros s H; [congruence|].
  simpl. destruct dl as [|j dl].
  - reflexivity.
  - rewrite IH by discriminate. unfold reindex, shift_keys. cbn [key_to_idx heap root key_map].
    rewrite !map_map. reflexivity.
Qed.

Lemma py_range_one : forall start n, (0 <= n)%Z -> py_range start (start + n) 1 =
  map (fun k => (start + Z.of_nat k)%Z) (seq 0 (Z.to_nat n)).
Proof.
  intros start n Hn. unfold py_range, py_range_len. simpl (0 <? 1)%Z. cbv iota.
  destruct (Z.ltb_spec start (start + n)).
  - rewrite Z.div_1_r. replace (start + n - start - 1 + 1)%Z with n by lia.
    apply map_ext. intros. lia.
  - assert (n = 0%Z) by lia. subst. reflexivity.
Qed.

Lemma shift_closed : forall m start z, (start <= z)%Z ->
  fold_left (fun z i => if (i <=? z)%Z then (z + (-1))%Z else z)
    (map (fun k => (start + Z.of_nat k)%Z) (seq 0 m)) z
  = (z - Z.min (Z.of_nat m) ((z - start) / 2 + 1))%Z.
Proof.
  induction m as [|m IH]; intros start z Hz.
  - simpl. pose proof (Z.div_pos (z - start) 2). lia.
  - rewrite seq_S, map_app, fold_left_app, IH by assumption. cbn [map fold_left plus].
    pose proof (Z.mul_div_le (z - start) 2). pose proof (Z.mul_succ_div_gt (z - start) 2).
    set (q := ((z - start) / 2)%Z) in *. 
    destruct (Z.leb_spec (start + Z.of_nat m) (z - Z.min (Z.of_nat m) (q + 1))); lia.
Qed.
Lemma shift_closed_below : forall m start z, (z < start)%Z ->
  fold_left (fun z i => if (i <=? z)%Z then (z + (-1))%Z else z)
    (map (fun k => (start + Z.of_nat k)%Z) (seq 0 m)) z = z.
Proof.
  induction m as [|m IH]; intros start z Hz; [reflexivity|].
  rewrite seq_S, map_app, fold_left_app, IH by assumption. cbn [map fold_left plus].
  destruct (Z.leb_spec (start + Z.of_nat m) z); lia.
Qed.

Lemma keep_outside : forall A (l : list A) a n i,
  (a + n <= length l)%nat ->
  nth_error (keep_pos (fun p => negb (existsb (Z.eqb p)
     (map (fun k => (Z.of_nat a + Z.of_nat k)%Z) (seq 0 n)))) 0 l) i
  = if Nat.ltb i a then nth_error l i else nth_error l (i + n).
Proof.
  intros A l a n i Hl.
  assert (G : forall (l : list A) b a i, (a + n <= length l)%nat ->
     nth_error (keep_pos (fun p => negb (existsb (Z.eqb p)
       (map (fun k => (Z.of_nat (b + a) + Z.of_nat k)%Z) (seq 0 n)))) (Z.of_nat b) l) i
     = if Nat.ltb i a then nth_error l i else nth_error l (i + n)).
  { clear. induction l as [|x l IH]; intros b a i Hl; simpl.
    - destruct (i <? a)%nat; [reflexivity|]. destruct i; simpl; [destruct n|]; reflexivity.
    - destruct (existsb (Z.eqb (Z.of_nat b)) (map (fun k => (Z.of_nat (b + a) + Z.of_nat k)%Z) (seq 0 n))) eqn:E; simpl.
      + apply existsb_zeq in E. apply in_map_iff in E. destruct E as [k [E1 E2]]. apply in_seq in E2.
        assert (a = 0%nat) by lia. subst. assert (k = 0%nat) by lia. subst.
        rewrite (Nat.add_comm i n).
        (* all of the first n are dropped *)
        clear E1 IH. simpl in Hl.
        assert (D : forall m (l : list A) c, (m <= length l)%nat -> (m <= n)%nat -> c = (b + (n - m))%nat ->
          keep_pos (fun p => negb (existsb (Z.eqb p) (map (fun k => (Z.of_nat (b + 0) + Z.of_nat k)%Z) (seq 0 n)))) (Z.of_nat c) l
          = skipn m l).
        { induction m as [|m IHm]; intros l' c L1 L2 ->.
          - simpl. clear L1. replace (n - 0)%nat with n by lia. remember (b + n)%nat as c eqn:Hc.
            assert (Hc' : (b + n <= c)%nat) by lia. clear Hc. revert c Hc'.
            induction l' as [|y l' IHl]; intros c Hc; simpl; [reflexivity|].
            destruct (existsb (Z.eqb (Z.of_nat c)) (map (fun k => (Z.of_nat (b + 0) + Z.of_nat k)%Z) (seq 0 n))) eqn:F.
            + apply existsb_zeq in F. apply in_map_iff in F. destruct F as [k [F1 F2]]. apply in_seq in F2. lia.
            + simpl. f_equal. replace (Z.of_nat c + 1)%Z with (Z.of_nat (S c)) by lia. apply IHl. lia.
          - destruct l' as [|y l']; simpl in L1; [lia|]. simpl.
            destruct (existsb (Z.eqb (Z.of_nat (b + (n - S m)))) (map (fun k => (Z.of_nat (b + 0) + Z.of_nat k)%Z) (seq 0 n))) eqn:F.
            + simpl. replace (Z.of_nat (b + (n - S m)) + 1)%Z with (Z.of_nat (b + (n - m))) by lia. apply IHm; lia.
            + exfalso. assert (existsb (Z.eqb (Z.of_nat (b + (n - S m)))) (map (fun k => (Z.of_nat (b + 0) + Z.of_nat k)%Z) (seq 0 n)) = true); [|congruence].
              apply existsb_zeq. apply in_map_iff. exists (n - S m)%nat. split; [lia|]. apply in_seq. lia. }
        replace (n + i)%nat with (S ((n - 1) + i))%nat by lia. cbn [nth_error].
        replace (Z.of_nat b + 1)%Z with (Z.of_nat (b + 1)) by lia.
        rewrite (D (n - 1)%nat l (b + 1)%nat) by lia.
        generalize (n - 1)%nat. clear. intros m. revert l. induction m as [|m IH]; intros l; simpl; [reflexivity|].
        destruct l; simpl; [destruct i; reflexivity|]. apply IH.
      + destruct a as [|a].
        * destruct n as [|n'].
          -- rewrite Nat.add_0_r. replace (Z.of_nat b + 1)%Z with (Z.of_nat (S b)) by lia.
             destruct i as [|i]; simpl; [reflexivity|].
             assert (N : forall (l : list A) c, keep_pos (fun p => negb (existsb (Z.eqb p) (map (fun k => (Z.of_nat (b + 0) + Z.of_nat k)%Z) (seq 0 0)))) c l = l).
             { clear. induction l as [|y l IHl]; intros c; simpl; [reflexivity|]. f_equal. apply IHl. }
             rewrite (N l). rewrite ?Nat.add_0_r; reflexivity.
          -- exfalso. assert (existsb (Z.eqb (Z.of_nat b)) (map (fun k => (Z.of_nat (b + 0) + Z.of_nat k)%Z) (seq 0 (S n'))) = true); [|congruence].
             apply existsb_zeq. apply in_map_iff. exists 0%nat. split; [lia|]. apply in_seq. lia.
        * replace (Z.of_nat b + 1)%Z with (Z.of_nat (S b)) by lia.
          destruct i as [|i]; simpl; [reflexivity|].
          replace (b + S a)%nat with (S b + a)%nat by lia. rewrite IH by (simpl in Hl; lia). reflexivity. }
  specialize (G l 0%nat a i Hl). exact G.
Qed.

Lemma slice_step_one : forall s start n, reachable s -> (0 <= start)%nat -> (1 <= n)%nat ->
  (start + n <= length (members s))%nat ->
  let s' := fst (el_step s (EDelSlice (Some (Z.of_nat start)) (Some (Z.of_nat (start + n))) None)) in
  (consistent s' <->
   forall p m, nth_error (members s) p = Some m -> e_id (snd m) <> None ->
     (start + n <= p)%nat -> (start + 2 * (n - 1) <= p)%nat).
Proof.
  intros s start n H _ Hn Hl s'. destruct (reachable_inv s H) as [I C].
  rewrite (members_M s I) in *.
  assert (LM : length (M s) = length (root s)) by (unfold M; apply map_length).
  assert (Hl' : (start + n <= length (root s))%nat) by (unfold M in Hl; rewrite map_length in Hl; exact Hl).
  set (a := Z.of_nat start). set (b := Z.of_nat (start + n)).
  assert (E : slice_indices (Some a) (Some b) None (Z.of_nat (length (root s))) = (a, b, 1%Z)).
  { unfold slice_indices. cbv zeta. change (1 <? 0)%Z with false. cbv iota. unfold a, b.
    destruct (Z.ltb_spec (Z.of_nat start) 0); [lia|]. destruct (Z.ltb_spec (Z.of_nat (start + n)) 0); [lia|].
    rewrite !Z.min_l by lia. reflexivity. }
  destruct (slice_removed s (Some a) (Some b) None a b 1 H ltac:(discriminate) E) as [s1 [A1 [A2 [A3 A4]]]].
  assert (Er : py_range a b 1 = map (fun k => (a + Z.of_nat k)%Z) (seq 0 n)).
  { replace b with (a + Z.of_nat n)%Z by (unfold a, b; lia). rewrite py_range_one, Nat2Z.id by lia. reflexivity. }
  assert (Es : s' = with_root (reindex s1 (fun z => fold_left (fun z i => if (i <=? z)%Z then (z + (-1))%Z else z) (py_range a b 1) z))
     (keep_pos (fun p => negb (existsb (Z.eqb p) (py_range a b 1))) 0 (root s))).
  { unfold s'. cbn [el_step]. fold a b. rewrite A4. cbn [fst]. rewrite shift_fold_reindex; [reflexivity|].
    rewrite Er. destruct n; [lia|]. discriminate. }
  set (f := fun z => fold_left (fun z i => if (i <=? z)%Z then (z + (-1))%Z else z) (py_range a b 1) z) in *.
  set (kp := keep_pos (fun p => negb (existsb (Z.eqb p) (py_range a b 1))) 0 (root s)) in *.
  assert (Hkp : forall i, nth_error kp i = if Nat.ltb i start then nth_error (root s) i else nth_error (root s) (i + n)).
  { intros i. unfold kp. rewrite Er. apply keep_outside. lia. }
  assert (Hf : forall z, f z = (if (z <? a)%Z then z else z - Z.min (Z.of_nat n) ((z - a) / 2 + 1))%Z).
  { intros z. unfold f. rewrite Er. destruct (Z.ltb_spec z a).
    - apply shift_closed_below. assumption.
    - apply shift_closed. assumption. }
  assert (Hsurv : forall k i o, keyed (heap s) (root s) (outside (root s) (rev (py_range a b 1))) k i o ->
     (i < start \/ start + n <= i)%nat).
  { intros k i o [K1 [[j [J1 J2]] _]]. pose proof (i_nodup _ _ I) as N. rewrite NoDup_nth_error in N.
    assert (i = j) by (apply N; [apply nth_error_Some; congruence|congruence]). subst j.
    rewrite <- in_rev, Er in J2. destruct (Nat.lt_ge_cases i start); [left; assumption|].
    destruct (Nat.lt_ge_cases i (start + n)); [|right; assumption].
    exfalso. apply J2. apply in_map_iff. exists (i - start)%nat. split; [unfold a; lia|]. apply in_seq. lia. }
  assert (Ms' : members s' = M s').
  { apply members_map. rewrite Es. cbn [with_root reindex root heap]. rewrite A1. intros o Ho.
    unfold kp in Ho. apply keep_pos_in in Ho. destruct Ho as [i [Hi _]]. apply (i_heap _ _ I). eapply nth_error_In; eassumption. }
  assert (Hs'h : heap s' = heap s) by (rewrite Es; cbn [with_root reindex heap]; exact A1).
  assert (Hs'r : root s' = kp) by (rewrite Es; reflexivity).
  split.
  - intros Cs p m Hp Hid Hlt. apply nth_M in Hp. destruct Hp as [o [Hp ->]]. simpl in Hid.
    destruct (e_id (look (heap s) o)) as [k|] eqn:Ek; [|congruence].
    assert (Hk : k <> []).
    { intros ->. apply (C (o, look (heap s) o)); [|assumption]. unfold M. apply in_map_iff. exists o.
      split; [reflexivity|]. eapply nth_error_In; eassumption. }
    assert (Ko : keyed (heap s) (root s) (outside (root s) (rev (py_range a b 1))) (Some k) p o).
    { repeat split; auto.
      - exists p. split; [assumption|]. rewrite <- in_rev, Er. intros F. apply in_map_iff in F.
        destruct F as [j [F1 F2]]. apply in_seq in F2. unfold a in F1. lia.
      - rewrite id_look; [assumption|]. apply (i_heap _ _ I). eapply nth_error_In; eassumption.
      - destruct k; [congruence|reflexivity]. }
    assert (Hidx : dget key_eqb (key_to_idx s1) (Some k) = Some (Z.of_nat p)).
    { apply (i_idx _ _ A3). exists p, o. split; [reflexivity|]. rewrite A1, A2. assumption. }
    assert (Hidx' : dget key_eqb (key_to_idx s') (Some k) = Some (f (Z.of_nat p))).
    { rewrite Es. cbn [with_root reindex key_to_idx]. rewrite dget_map, Hidx. reflexivity. }
    assert (Hpos : nth_error (M s') (p - n) = Some (o, look (heap s) o)).
    { unfold M. rewrite nth_error_map, Hs'r, Hs'h, Hkp. destruct (Nat.ltb_spec (p - n) start); [lia|].
      replace (p - n + n)%nat with p by lia. rewrite Hp. reflexivity. }
    pose proof (proj2 (c_index s' Cs k (p - n) Hk)) as Ci. rewrite Ms' in Ci.
    rewrite Hidx' in Ci. specialize (Ci (ex_intro _ _ (conj Hpos Ek))). inversion Ci as [Ci'].
    rewrite Hf in Ci'. unfold a in Ci'. destruct (Z.ltb_spec (Z.of_nat p) (Z.of_nat start)); [lia|].
    pose proof (Z.mul_div_le (Z.of_nat p - Z.of_nat start) 2). lia.
  - intros Hcond. apply inv_consistent.
    + assert (I1 : Inv (outside (root s) (rev (py_range a b 1))) (reindex (with_root s1 kp) f)).
      { apply reindex_ok.
        - assumption.
        - apply keep_pos_nodup. apply (i_nodup _ _ I).
        - rewrite A1. intros o Ho. unfold kp in Ho. apply keep_pos_in in Ho. destruct Ho as [i [Hi _]].
          apply (i_heap _ _ I). eapply nth_error_In; eassumption.
        - rewrite A1, A2. intros k i o K. pose proof (Hsurv _ _ _ K) as S. destruct K as [K1 [K2 [K3 K4]]].
          rewrite Hf. unfold a. destruct (Z.ltb_spec (Z.of_nat i) (Z.of_nat start)).
          + exists i. split; [reflexivity|]. rewrite Hkp. destruct (Nat.ltb_spec i start); [assumption|lia].
          + exists (i - n)%nat. split.
            * assert (start + 2 * (n - 1) <= i)%nat.
              { apply (Hcond i (o, look (heap s) o)).
                - unfold M. rewrite nth_error_map, K1. reflexivity.
                - simpl. rewrite <- id_look; [|apply (i_heap _ _ I); eapply nth_error_In; eassumption].
                  rewrite K3. destruct k; [discriminate|simpl in K4; discriminate].
                - lia. }
              pose proof (Z.mul_succ_div_gt (Z.of_nat i - Z.of_nat start) 2). lia.
            * rewrite Hkp. destruct (Nat.ltb_spec (i - n) start); [lia|].
              replace (i - n + n)%nat with i by lia. assumption.
        - rewrite A1, A2. intros j o Hj _ _. apply nth_error_In in Hj. unfold kp in Hj. apply keep_pos_in in Hj.
          destruct Hj as [i [Hi _]]. eapply nth_error_In; eassumption. }
      rewrite Es. change (Inv all (reindex (with_root s1 kp) f)).
      eapply inv_ext; [|exact I1]. intros x Hx. unfold all. split; [trivial|]. intros _.
      cbn [reindex with_root root] in Hx. unfold kp in Hx. apply keep_pos_in in Hx. destruct Hx as [i [Hi1 Hi2]].
      exists i. split; [assumption|]. rewrite <- in_rev. intros F. apply existsb_zeq in F.
      simpl in Hi2. rewrite F in Hi2. discriminate.
    + intros m Hm. unfold M in Hm. rewrite Hs'r, Hs'h in Hm. apply in_map_iff in Hm. destruct Hm as [o [<- Ho]].
      apply C. unfold M. apply in_map_iff. exists o. split; [reflexivity|]. unfold kp in Ho. apply keep_pos_in in Ho.
      destruct Ho as [i [Hi _]]. eapply nth_error_In; eassumption.
Qed.

(** *** C16 *)
Lemma found_in_spec : forall h x l, (x < length h)%nat -> (forall o, In o l -> (o < length h)%nat) ->
  (found_in h x l = true <-> equal_to_some h l x).
Proof.
  intros h x l Hx. unfold equal_to_some. induction l as [|y l IH]; intros Hl; simpl.
  - split; [discriminate|]. intros [z [[] _]].
  - destruct (obj_eqb h y x) eqn:E.
    + split; [intros _|reflexivity]. exists y. split; [left; reflexivity|].
      unfold obj_eqb in E. apply orb_true_iff in E. destruct E as [E|E]; [left; apply Nat.eqb_eq; assumption|].
      right. destruct (nth_error h y) as [e|] eqn:F; [|discriminate]. destruct (nth_error h x) as [f|] eqn:G; [|discriminate].
      unfold ent_eqb in E. rewrite !andb_true_iff in E. destruct E as [[[E1 E2] E3] E4].
      exists e, f. split; [reflexivity|]. split; [reflexivity|]. apply negb_true_iff in E1, E2. split; [assumption|].
      apply key_eqb_eq in E3. apply Z.eqb_eq in E4. destruct e, f; simpl in *; congruence.
    + rewrite IH by (intros o Ho; apply Hl; right; assumption). split.
      * intros [z [Z1 Z2]]. exists z. split; [right; assumption|assumption].
      * intros [z [[->|Z1] Z2]]; [|exists z; auto]. exfalso. unfold obj_eqb in E. apply orb_false_iff in E. destruct E as [E1 E2].
        destruct Z2 as [->|[e [f [F1 [F2 [F3 F4]]]]]]; [rewrite Nat.eqb_refl in E1; discriminate|].
        rewrite F1, F2 in E2. subst f. unfold ent_eqb in E2. rewrite F3, key_eqb_refl, Z.eqb_refl in E2. discriminate.
Qed.

Lemma py_insert_end : forall A (l : list A) x, py_insert l (Z.of_nat (length l)) x = l ++ [x].
Proof.
  intros A l x. unfold py_insert. destruct (Z.ltb_spec (Z.of_nat (length l)) 0); [lia|].
  rewrite Z.min_id, Nat2Z.id, firstn_all, skipn_all. reflexivity.
Qed.

(** Appending a list of new members to a reachable list. *)
Lemma append_all_spec : forall h os s, reachable s -> (forall o, In o os -> (o < length h)%nat) ->
  (forall e, In e (attributes h os) -> e_id e <> Some []) ->
  let r := fold_left (append_copy h) os (s, None) in
  (NoDup (ids (map snd (members s) ++ attributes h os)) ->
     reachable (fst r) /\ snd r = None /\ map snd (members (fst r)) = map snd (members s) ++ attributes h os) /\
  (~ NoDup (ids (map snd (members s) ++ attributes h os)) -> NoDup (ids (map snd (members s))) ->
     snd r = Some DuplicateIDError).
Proof.
  intros h os. induction os as [|o os IH]; intros s Hs Ho He r.
  - simpl. rewrite app_nil_r. split; [auto|]. intros N1 N2. contradiction.
  - destruct (reachable_inv s Hs) as [I C]. pose proof (members_M s I) as EM.
    set (e := nth o h (mkEnt None 0 false)).
    assert (Hne : nth_error h o = Some e) by (apply nth_error_nth'; apply Ho; left; reflexivity).
    assert (Hce : e_id e <> Some []) by (apply He; left; reflexivity).
    assert (Hcov : covered (members s) (EAppend e)) by exact Hce.
    pose proof (reachable_refines s _ Hs Hcov) as R. cbn [spec_step] in R. unfold spec_insert in R.
    assert (Er : r = fold_left (append_copy h) os (el_step s (EAppend e))).
    { unfold r. simpl. unfold append_copy at 2, andthen. cbn [fst snd]. rewrite Hne. reflexivity. }
    assert (Erep : ids (map snd (members s) ++ attributes h (o :: os)) =
                   ids ((map snd (members s) ++ [e]) ++ attributes h os)).
    { rewrite <- app_assoc. reflexivity. }
    destruct (used (members s) (e_id e)) eqn:U.
    + (* duplicate *)
      injection R as R1 R2.
      assert (Err : forall os x s0, fold_left (append_copy h) os (s0, Some x) = (s0, Some x)).
      { clear. induction os as [|o os IH]; intros x s0; simpl; [reflexivity|]. apply IH. }
      assert (ND : ~ NoDup (ids (map snd (members s) ++ attributes h (o :: os)))).
      { unfold used in U. destruct (e_id e) as [k|] eqn:Ek; [|discriminate].
        apply existsb_exists in U. destruct U as [m [U1 U2]]. apply key_eqb_eq in U2.
        unfold ids. rewrite flat_map_app. simpl. fold e. rewrite Ek.
        intros N. apply NoDup_remove_2 in N. apply N. apply in_or_app. left.
        apply in_flat_map. exists (snd m). split; [apply in_map; assumption|]. rewrite U2. left. reflexivity. }
      split; [contradiction|]. intros _ _. rewrite Er.
      change (el_insert s (Z.of_nat (length (root s))) e) with (el_step s (EAppend e)) in R2. destruct (el_step s (EAppend e)) as [s1 x1]. simpl in R2. subst x1. rewrite Err. reflexivity.
    + injection R as R1 R2. change (el_insert s (Z.of_nat (length (root s))) e) with (el_step s (EAppend e)) in R1, R2.
      assert (Hs1 : reachable (fst (el_step s (EAppend e)))) by (constructor; assumption).
      destruct (el_step s (EAppend e)) as [s1 x1] eqn:Es. cbn [fst snd] in *. subst x1.
      assert (M1 : map snd (members s1) = map snd (members s) ++ [e]).
      { rewrite R1. transitivity (map snd (members s ++ [(length (heap s), e)])).
        - f_equal. apply py_insert_end.
        - apply map_app. }
      destruct (IH s1 Hs1) as [J1 J2].
      * intros x Hx. apply Ho. right. assumption.
      * intros x Hx. apply He. right. assumption.
      * rewrite M1 in J1, J2. rewrite Erep. rewrite Er. split.
        -- intros N. destruct (J1 N) as [K1 [K2 K3]]. split; [assumption|]. split; [assumption|].
           rewrite K3. rewrite <- app_assoc. reflexivity.
        -- intros N1 N2. apply J2; [assumption|].
           unfold ids. rewrite flat_map_app. simpl. rewrite app_nil_r.
           destruct (e_id e) as [k|] eqn:Ek; [|rewrite app_nil_r; exact N2].
           apply (Permutation.Permutation_NoDup (l := k :: ids (map snd (members s)))).
           ++ apply Permutation.Permutation_cons_append.
           ++ constructor; [|assumption]. intros F. unfold ids in F. apply in_flat_map in F.
              destruct F as [m [F1 F2]]. apply in_map_iff in F1. destruct F1 as [mm [<- F1]].
              destruct (e_id (snd mm)) as [k'|] eqn:Ek'; [|contradiction]. destruct F2 as [->|[]].
              unfold used in U. assert (existsb (has_id (Some k)) (members s) = true); [|congruence].
              apply existsb_exists. exists mm. split; [assumption|]. unfold has_id. rewrite Ek'. apply key_eqb_refl.
Qed.

Lemma fold_if_filter : forall (f : outcome -> nat -> outcome) (c : nat -> bool) l r,
  fold_left (fun r o => if c o then f r o else r) l r = fold_left f (filter c l) r.
Proof.
  intros f c. induction l as [|o l IH]; intros r; simpl; [reflexivity|].
  destruct (c o); simpl; apply IH.
Qed.
Lemma fold_if_filter_neg : forall (f : outcome -> nat -> outcome) (c : nat -> bool) l r,
  fold_left (fun r o => if c o then r else f r o) l r = fold_left f (filter (fun o => negb (c o)) l) r.
Proof.
  intros f c. induction l as [|o l IH]; intros r; simpl; [reflexivity|].
  destruct (c o); simpl; apply IH.
Qed.

Lemma nodup_ids_filter : forall h c l, NoDup (ids (attributes h l)) -> NoDup (ids (attributes h (filter c l))).
Proof.
  intros h c. induction l as [|o l IH]; simpl; intros H; [constructor|].
  unfold ids in *. simpl in H.
  set (hd := match e_id (nth o h (mkEnt None 0 false)) with Some k => [k] | None => [] end) in *.
  assert (H2 : NoDup (flat_map (fun e => match e_id e with Some k => [k] | None => [] end) (attributes h l))).
  { unfold hd in H. destruct (e_id _); simpl in H; [inversion H; assumption|assumption]. }
  destruct (c o); [|auto]. simpl. fold hd. unfold hd in *. destruct (e_id (nth o h (mkEnt None 0 false))) as [k|]; simpl in *; [|auto].
  inversion H; subst. constructor; [|auto]. intros F. apply H3. apply in_flat_map in F. destruct F as [e [F1 F2]].
  apply in_flat_map. exists e. split; [|assumption]. unfold attributes in *. apply in_map_iff in F1.
  destruct F1 as [x [<- F1]]. apply in_map_iff. exists x. apply filter_In in F1. tauto.
Qed.

Definition in_bounds (h : list ent) (l : list nat) : Prop := forall o, In o l -> (o < length h)%nat.
Definition no_empty_id (h : list ent) (l : list nat) : Prop :=
  forall e, In e (attributes h l) -> e_id e <> Some [].

Lemma filter_prop : forall (c : nat -> bool) (P : nat -> Prop) l, (forall o, In o l -> (c o = true <-> P o)) ->
  forall o, In o (filter c l) <-> In o l /\ P o.
Proof. intros c P l H o. rewrite filter_In. split; intros [A B]; specialize (H o A); tauto. Qed.

Lemma intersection_spec : forall h a b, in_bounds h a -> in_bounds h b -> no_empty_id h a ->
  NoDup (ids (attributes h a)) ->
  exists keep, (forall o, In o a -> (keep o = true <-> equal_to_some h b o)) /\
    reachable (fst (el_intersection h a b)) /\
    snd (el_intersection h a b) = None /\
    map snd (members (fst (el_intersection h a b))) = attributes h (filter keep a).
Proof.
  intros h a b Ha Hb He Hn. exists (fun o => found_in h o b).
  split; [intros o Ho; apply found_in_spec; auto|].
  unfold el_intersection. rewrite fold_if_filter.
  set (l := filter (fun o => found_in h o b) a).
  destruct (append_all_spec h l empty_list reach_empty) as [K _].
  - intros o Ho. unfold l in Ho. apply filter_In in Ho. apply Ha. tauto.
  - intros e Hin. apply He. unfold attributes in *. apply in_map_iff in Hin. destruct Hin as [x [<- Hx]].
    apply in_map_iff. exists x. unfold l in Hx. apply filter_In in Hx. tauto.
  - simpl in K. destruct K as [K1 [K2 K3]]; [apply nodup_ids_filter; assumption|]. auto.
Qed.

Lemma difference_spec : forall h a b, in_bounds h a -> in_bounds h b -> no_empty_id h a ->
  NoDup (ids (attributes h a)) ->
  exists keep, (forall o, In o a -> (keep o = true <-> ~ equal_to_some h b o)) /\
    reachable (fst (el_difference h a b)) /\
    snd (el_difference h a b) = None /\
    map snd (members (fst (el_difference h a b))) = attributes h (filter keep a).
Proof.
  intros h a b Ha Hb He Hn. exists (fun o => negb (found_in h o b)).
  split.
  { intros o Ho. rewrite <- (found_in_spec h o b) by auto. destruct (found_in h o b); simpl; split; congruence. }
  unfold el_difference. rewrite fold_if_filter_neg.
  set (l := filter (fun o => negb (found_in h o b)) a).
  destruct (append_all_spec h l empty_list reach_empty) as [K _].
  - intros o Ho. unfold l in Ho. apply filter_In in Ho. apply Ha. tauto.
  - intros e Hin. apply He. unfold attributes in *. apply in_map_iff in Hin. destruct Hin as [x [<- Hx]].
    apply in_map_iff. exists x. unfold l in Hx. apply filter_In in Hx. tauto.
  - simpl in K. destruct K as [K1 [K2 K3]]; [apply nodup_ids_filter; assumption|]. auto.
Qed.

Lemma union_spec : forall h a b, in_bounds h a -> in_bounds h b -> no_empty_id h a -> no_empty_id h b ->
  exists keep, (forall o, In o b -> (keep o = true <-> ~ equal_to_some h a o)) /\
    (NoDup (ids (attributes h a ++ attributes h (filter keep b))) ->
       reachable (fst (el_union h a b)) /\ snd (el_union h a b) = None /\
       map snd (members (fst (el_union h a b))) = attributes h a ++ attributes h (filter keep b)) /\
    (~ NoDup (ids (attributes h a ++ attributes h (filter keep b))) ->
       snd (el_union h a b) = Some DuplicateIDError).
Proof.
  intros h a b Ha Hb Hea Heb. exists (fun o => negb (found_in h o a)).
  split.
  { intros o Ho. rewrite <- (found_in_spec h o a) by auto. destruct (found_in h o a); simpl; split; congruence. }
  unfold el_union. rewrite fold_if_filter_neg, <- fold_left_app.
  set (l := filter (fun o => negb (found_in h o a)) b).
  destruct (append_all_spec h (a ++ l) empty_list reach_empty) as [K1 K2].
  - intros o Ho. apply in_app_or in Ho. destruct Ho as [Ho|Ho]; [auto|]. unfold l in Ho. apply filter_In in Ho. apply Hb. tauto.
  - intros e Hin. unfold attributes in *. rewrite map_app in Hin. apply in_app_or in Hin. destruct Hin as [Hin|Hin]; [apply Hea; assumption|].
    apply Heb. apply in_map_iff in Hin. destruct Hin as [x [<- Hx]].
    unfold attributes. apply in_map_iff. exists x. unfold l in Hx. apply filter_In in Hx. tauto.
  - assert (Eat : attributes h (a ++ l) = attributes h a ++ attributes h l) by (unfold attributes; apply map_app).
    rewrite Eat in *. simpl in K1, K2. split.
    + intros N. destruct (K1 N) as [J1 [J2 J3]]. auto.
    + intros N. apply K2; [assumption|constructor].
Qed.
