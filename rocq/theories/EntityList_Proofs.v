(** Proofs about entity lists (C13-C16). *)
From Coq Require Import ZArith NArith List Bool Lia Permutation.
From Verif Require Import Common Dict EntityList_Model EntityList_Spec.
Import ListNotations.

Lemma key_eqb_eq : forall a b, key_eqb a b = true <-> a = b.
Proof.
  intros [a|] [b|]; simpl; try (split; congruence).
  rewrite pystr_eqb_eq. split; congruence.
Qed.
Lemma key_eqb_refl : forall a, key_eqb a a = true.
Proof. intros. apply key_eqb_eq. reflexivity. Qed.
Lemma key_eqb_neq : forall a b, key_eqb a b = false <-> a <> b.
Proof. intros. apply keqb_neq. apply key_eqb_eq. Qed.
Lemma key_dec : forall a b : key, {a = b} + {a <> b}.
Proof. intros. destruct (key_eqb a b) eqn:E; [left; apply key_eqb_eq|right; apply key_eqb_neq]; assumption. Qed.

Lemma truthy_some : forall k, truthy k = true <-> exists s, k = Some s /\ s <> [].
Proof.
  intros [[|c s]|]; simpl; split; try discriminate; try (intros [t [E N]]; congruence).
  - intros _. exists (c :: s). split; [reflexivity|discriminate].
Qed.

(** *** list positions *)
Lemma nth_insert : forall A (l : list A) i x j, (i <= length l)%nat ->
  nth_error (firstn i l ++ x :: skipn i l) j =
  if Nat.ltb j i then nth_error l j else if Nat.eqb j i then Some x else nth_error l (j - 1).
Proof.
  intros A. induction l as [|y l IH]; intros i x j H; simpl in *.
  - assert (i = 0%nat) by lia. subst. simpl. destruct j as [|j]; simpl; [reflexivity|].
    rewrite Nat.sub_0_r. destruct j; reflexivity.
  - destruct i as [|i]; simpl.
    + destruct j as [|j]; simpl; [reflexivity|]. rewrite Nat.sub_0_r. reflexivity.
    + destruct j as [|j]; simpl; [reflexivity|]. rewrite IH by lia.
      change (S j <? S i)%nat with (j <? i)%nat. destruct (Nat.ltb_spec j i); [reflexivity|].
      destruct (Nat.eqb_spec j i); [reflexivity|]. destruct j as [|j]; [lia|]. simpl. rewrite Nat.sub_0_r. reflexivity.
Qed.
Lemma nth_remove : forall A (l : list A) i j,
  nth_error (remove_nth l i) j = if Nat.ltb j i then nth_error l j else nth_error l (S j).
Proof.
  intros A. induction l as [|y l IH]; intros i j; simpl.
  - destruct (j <? i)%nat; destruct j; reflexivity.
  - destruct i as [|i]; simpl; [reflexivity|].
    destruct j as [|j]; simpl; [reflexivity|]. rewrite IH. reflexivity.
Qed.
Lemma nth_replace : forall A (l : list A) i v j, (i < length l)%nat ->
  nth_error (replace_nth l i v) j = if Nat.eqb j i then Some v else nth_error l j.
Proof.
  intros A. induction l as [|y l IH]; intros i v j H; simpl in *; [lia|].
  destruct i as [|i]; destruct j as [|j]; simpl; try reflexivity. apply IH. lia.
Qed.
Lemma replace_nth_length : forall A (l : list A) i v, length (replace_nth l i v) = length l.
Proof.
  intros A. induction l as [|y l IH]; intros i v; simpl; [reflexivity|].
  destruct i; simpl; [reflexivity|]. rewrite IH. reflexivity.
Qed.
Lemma remove_nth_in : forall A (l : list A) i x, In x (remove_nth l i) -> In x l.
Proof.
  intros A. induction l as [|y l IH]; intros i x; simpl; [auto|].
  destruct i; simpl; [auto|]. intros [H|H]; [auto|]. right. eapply IH. eassumption.
Qed.
Lemma remove_nth_nodup : forall A (l : list A) i, NoDup l -> NoDup (remove_nth l i).
Proof.
  intros A. induction l as [|y l IH]; intros i H; simpl; [constructor|].
  inversion H; subst. destruct i; [assumption|]. constructor; [|auto].
  intros I. apply remove_nth_in in I. contradiction.
Qed.
Lemma map_insert : forall A B (f : A -> B) l i x,
  map f (firstn i l ++ x :: skipn i l) = firstn i (map f l) ++ f x :: skipn i (map f l).
Proof. intros. rewrite map_app. simpl. rewrite firstn_map, skipn_map. reflexivity. Qed.
Lemma map_remove_nth : forall A B (f : A -> B) l i, map f (remove_nth l i) = remove_nth (map f l) i.
Proof.
  intros A B f. induction l as [|y l IH]; intros i; simpl; [reflexivity|].
  destruct i; simpl; [reflexivity|]. rewrite IH. reflexivity.
Qed.
Lemma map_replace_nth : forall A B (f : A -> B) l i v, map f (replace_nth l i v) = replace_nth (map f l) i (f v).
Proof.
  intros A B f. induction l as [|y l IH]; intros i v; simpl; [reflexivity|].
  destruct i; simpl; [reflexivity|]. rewrite IH. reflexivity.
Qed.

(** *** dictionary of swapped pairs *)
Lemma dict_of_spec : forall (items : list (Z * key)), NoDup (map fst items) ->
  dwf (dict_of Z.eqb items) /\
  forall z k, dget Z.eqb (dict_of Z.eqb items) z = Some k <-> In (z, k) items.
Proof.
  intros items. unfold dict_of.
  assert (G : forall (d : dict Z key), dwf d -> NoDup (map fst items) ->
     (forall z, In z (map fst items) -> dget Z.eqb d z = None) ->
     dwf (fold_left (fun d kv => dset Z.eqb d (fst kv) (snd kv)) items d) /\
     forall z k, dget Z.eqb (fold_left (fun d kv => dset Z.eqb d (fst kv) (snd kv)) items d) z = Some k
                 <-> In (z, k) items \/ dget Z.eqb d z = Some k).
  { induction items as [|[z0 k0] items IH]; simpl; intros d Hd Hn Hf.
    - split; [assumption|]. tauto.
    - inversion Hn; subst.
      destruct (IH (dset Z.eqb d z0 k0)) as [I1 I2].
      + apply dset_wf; [apply Z.eqb_eq|assumption].
      + assumption.
      + intros z Hz. rewrite dget_dset by apply Z.eqb_eq.
        destruct (Z.eqb_spec z0 z); [subst; contradiction|]. apply Hf. right. assumption.
      + split; [assumption|]. intros z k. rewrite I2, dget_dset by apply Z.eqb_eq.
        destruct (Z.eqb_spec z0 z).
        * subst. rewrite (Hf z (or_introl eq_refl)). split.
          -- intros [H|H]; [auto|]. inversion H; subst. auto.
          -- intros [[H|H]|H]; [inversion H; auto|auto|discriminate].
        * split; [tauto|]. intros [[H|H]|H]; [congruence|auto|auto]. }
  intros Hn. destruct (G []) as [G1 G2].
  - constructor.
  - assumption.
  - reflexivity.
  - split; [assumption|]. intros z k. rewrite G2. simpl. intuition discriminate.
Qed.

Lemma dget_map : forall (d : dict key Z) (f : Z -> Z) k,
  dget key_eqb (map (fun kv => (fst kv, f (snd kv))) d) k = option_map f (dget key_eqb d k).
Proof.
  induction d as [|[k0 v] d IH]; intros f k; simpl; [reflexivity|].
  destruct (key_eqb k0 k); [reflexivity|apply IH].
Qed.

(** *** the invariant *)
Definition keyed (h : list ent) (r : list nat) (R : nat -> Prop) (k : key) (i : nat) (o : nat) : Prop :=
  nth_error r i = Some o /\ R o /\ id_of h o = k /\ truthy k = true.

Record Inv (R : nat -> Prop) (s : estate) : Prop := {
  i_nodup : NoDup (root s);
  i_heap : forall o, In o (root s) -> (o < length (heap s))%nat;
  i_wf1 : dwf (key_map s);
  i_wf2 : dwf (key_to_idx s);
  i_wf3 : dwf (idx_to_key s);
  i_map : forall k o, dget key_eqb (key_map s) k = Some o <-> exists i, keyed (heap s) (root s) R k i o;
  i_idx : forall k z, dget key_eqb (key_to_idx s) k = Some z <->
            exists i o, z = Z.of_nat i /\ keyed (heap s) (root s) R k i o;
  i_inv : forall k z, dget Z.eqb (idx_to_key s) z = Some k <-> dget key_eqb (key_to_idx s) k = Some z
}.
Definition all (o : nat) : Prop := True.
Definition but (o x : nat) : Prop := x <> o.

Lemma inv_k2i_inj : forall R s k1 k2 z, Inv R s ->
  dget key_eqb (key_to_idx s) k1 = Some z -> dget key_eqb (key_to_idx s) k2 = Some z -> k1 = k2.
Proof.
  intros R s k1 k2 z I H1 H2. apply (i_inv R s I) in H1, H2. congruence.
Qed.

(** An unregistered object without an ID does not matter. *)
Lemma inv_but_all : forall o s, Inv (but o) s -> truthy (id_of (heap s) o) = false -> Inv all s.
Proof.
  intros o s I H.
  assert (E : forall k i x, keyed (heap s) (root s) all k i x <-> keyed (heap s) (root s) (but o) k i x).
  { intros k i x. unfold keyed, all, but. split; [|tauto]. intros [A [_ [B C]]].
    repeat split; try assumption. intros ->. congruence. }
  destruct I as [I1 I2 I3 I4 I5 I6 I7 I8]. split; try assumption.
  - intros k x. rewrite I6. split; intros [i K]; exists i; apply E; assumption.
  - intros k z. rewrite I7. split; intros [i [x [K1 K2]]]; exists i, x; (split; [assumption|apply E; assumption]).
Qed.
Lemma inv_all_but : forall o s, Inv all s -> truthy (id_of (heap s) o) = false -> Inv (but o) s.
Proof.
  intros o s I H.
  assert (E : forall k i x, keyed (heap s) (root s) all k i x <-> keyed (heap s) (root s) (but o) k i x).
  { intros k i x. unfold keyed, all, but. split; [|tauto]. intros [A [_ [B C]]].
    repeat split; try assumption. intros ->. congruence. }
  destruct I as [I1 I2 I3 I4 I5 I6 I7 I8]. split; try assumption.
  - intros k x. rewrite I6. split; intros [i K]; exists i; apply E; assumption.
  - intros k z. rewrite I7. split; intros [i [x [K1 K2]]]; exists i, x; (split; [assumption|apply E; assumption]).
Qed.

Lemma remove_key_unfold : forall s k idx o k', k <> None ->
  dget key_eqb (key_to_idx s) k = Some idx -> dget key_eqb (key_map s) k = Some o ->
  dget Z.eqb (idx_to_key s) idx = Some k' ->
  remove_key s k = (mkES (heap s) (root s) (ddel key_eqb (key_map s) k)
                         (ddel key_eqb (key_to_idx s) k) (ddel Z.eqb (idx_to_key s) idx), None).
Proof.
  intros s [k|] idx o k' Hk H1 H2 H3; [|congruence]. unfold remove_key. rewrite H1, H2.
  cbn [idx_to_key]. rewrite H3. reflexivity.
Qed.

(** [_remove_key] of the ID of a registered member. *)
Lemma inv_ext : forall (R R' : nat -> Prop) s, (forall x, In x (root s) -> (R x <-> R' x)) -> Inv R s -> Inv R' s.
Proof.
  intros R R' s H I.
  assert (E : forall k i x, keyed (heap s) (root s) R' k i x <-> keyed (heap s) (root s) R k i x).
  { intros k i x. unfold keyed. split; intros [A B]; assert (X := A); apply nth_error_In in X; specialize (H x X); tauto. }
  destruct I as [I1 I2 I3 I4 I5 I6 I7 I8]. split; try assumption.
  - intros k x. rewrite I6. split; intros [i K]; exists i; apply E; assumption.
  - intros k z. rewrite I7. split; intros [i [x [K1 K2]]]; exists i, x; (split; [assumption|apply E; assumption]).
Qed.

Lemma remove_key_gen : forall R s o i, Inv R s -> nth_error (root s) i = Some o -> R o ->
  truthy (id_of (heap s) o) = true ->
  exists s', remove_key s (id_of (heap s) o) = (s', None) /\
    heap s' = heap s /\ root s' = root s /\ Inv (fun x => R x /\ x <> o) s'.
Proof.
  intros R s o i I Hi HR Ht. set (k := id_of (heap s) o) in *.
  assert (K : keyed (heap s) (root s) R k i o) by (repeat split; auto).
  assert (Hidx : dget key_eqb (key_to_idx s) k = Some (Z.of_nat i)).
  { apply (i_idx _ _ I). exists i, o. auto. }
  assert (Hmap : dget key_eqb (key_map s) k = Some o).
  { apply (i_map _ _ I). exists i. assumption. }
  assert (Hinv : dget Z.eqb (idx_to_key s) (Z.of_nat i) = Some k).
  { apply (i_inv _ _ I). assumption. }
  assert (Hk : k <> None) by (intros E; rewrite E in Ht; discriminate).
  rewrite (remove_key_unfold s k _ _ _ Hk Hidx Hmap Hinv). eexists. split; [reflexivity|].
  cbn [heap root key_map key_to_idx]. split; [reflexivity|]. split; [reflexivity|].
  assert (U : forall j x k', keyed (heap s) (root s) R k' j x -> k' = k -> x = o).
  { intros j x k' Kx ->. assert (dget key_eqb (key_map s) k = Some x) by (apply (i_map _ _ I); eauto). congruence. }
  assert (E : forall k' j x, keyed (heap s) (root s) (fun x => R x /\ x <> o) k' j x <->
      k' <> k /\ keyed (heap s) (root s) R k' j x).
  { intros k' j x. split.
    - intros [A [[B0 B] [C D]]]. assert (keyed (heap s) (root s) R k' j x) by (repeat split; auto).
      split; [|assumption]. intros F. apply B. eapply U; eassumption.
    - intros [N [A [B0 [B C]]]]. repeat split; try assumption. intros F. subst x. apply N.
      unfold k. symmetry. exact B. }
  destruct I as [I1 I2 I3 I4 I5 I6 I7 I8]. split; cbn [heap root key_map key_to_idx idx_to_key].
  - assumption.
  - assumption.
  - apply ddel_wf; assumption.
  - apply ddel_wf; assumption.
  - apply ddel_wf; assumption.
  - intros k' x. rewrite dget_ddel by (assumption || apply key_eqb_eq).
    destruct (key_eqb k k') eqn:F.
    + apply key_eqb_eq in F. subst k'. split; [discriminate|]. intros [j Kj]. apply E in Kj. tauto.
    + rewrite I6. apply key_eqb_neq in F. split; intros [j Kj]; exists j.
      * apply E. split; [congruence|assumption].
      * apply E in Kj. tauto.
  - intros k' z. rewrite dget_ddel by (assumption || apply key_eqb_eq).
    destruct (key_eqb k k') eqn:F.
    + apply key_eqb_eq in F. subst k'. split; [discriminate|]. intros [j [x [_ Kj]]]. apply E in Kj. tauto.
    + rewrite I7. apply key_eqb_neq in F. split; intros [j [x [Z1 Kj]]]; exists j, x; (split; [assumption|]).
      * apply E. split; [congruence|assumption].
      * apply E in Kj. tauto.
  - intros k' z. rewrite !dget_ddel by (assumption || apply key_eqb_eq || apply Z.eqb_eq).
    destruct (Z.eqb_spec (Z.of_nat i) z) as [F|F].
    + subst z. destruct (key_eqb k k') eqn:G; [split; discriminate|].
      split; [discriminate|]. intros H. apply I8 in H. apply key_eqb_neq in G. congruence.
    + rewrite I8. destruct (key_eqb k k') eqn:G; [|tauto].
      apply key_eqb_eq in G. subst k'. split; [|discriminate]. intros H. congruence.
Qed.

Lemma remove_key_ok : forall s o i, Inv all s -> nth_error (root s) i = Some o ->
  truthy (id_of (heap s) o) = true ->
  exists s', remove_key s (id_of (heap s) o) = (s', None) /\
    heap s' = heap s /\ root s' = root s /\ Inv (but o) s'.
Proof.
  intros s o i I Hi Ht. destruct (remove_key_gen all s o i I Hi Logic.I Ht) as [s' [A [B [C D]]]].
  exists s'. split; [assumption|]. split; [assumption|]. split; [assumption|].
  eapply inv_ext; [|exact D]. intros x _. unfold all, but. tauto.
Qed.

(** [_set_key] for an unregistered member with a fresh ID. *)
Lemma index_of_unique : forall h r o i, NoDup r -> nth_error r i = Some o ->
  (forall x, In x r -> x <> o -> obj_eqb h x o = false) ->
  index_of (obj_eqb h) r o = Some i.
Proof.
  induction r as [|y r IH]; intros o i Hn Hi Hx; simpl in *; [destruct i; discriminate|].
  inversion Hn; subst. destruct i as [|i]; simpl in Hi.
  - inversion Hi; subst. unfold obj_eqb. rewrite Nat.eqb_refl. reflexivity.
  - assert (y <> o) by (intros ->; apply H1; eapply nth_error_In; eassumption).
    rewrite Hx by auto. rewrite (IH o i); auto.
Qed.

Lemma obj_eqb_id : forall h a b, obj_eqb h a b = true -> id_of h a = id_of h b.
Proof.
  intros h a b. unfold obj_eqb, id_of, ent_eqb. rewrite orb_true_iff. intros [H|H].
  - apply Nat.eqb_eq in H. subst. reflexivity.
  - destruct (nth_error h a), (nth_error h b); try discriminate.
    rewrite !andb_true_iff in H. apply key_eqb_eq. tauto.
Qed.

Lemma set_key_ok : forall s o i, Inv (but o) s -> nth_error (root s) i = Some o ->
  truthy (id_of (heap s) o) = true -> dget key_eqb (key_map s) (id_of (heap s) o) = None ->
  exists s', set_key s (id_of (heap s) o) o = (s', None) /\
    heap s' = heap s /\ root s' = root s /\ Inv all s'.
Proof.
  intros s o i I Hi Ht Hf. set (k := id_of (heap s) o) in *.
  assert (Hindex : index_of (obj_eqb (heap s)) (root s) o = Some i).
  { apply index_of_unique; [apply (i_nodup _ _ I)|assumption|].
    intros x Hx Nx. destruct (obj_eqb (heap s) x o) eqn:E; [|reflexivity].
    apply obj_eqb_id in E. fold k in E. apply In_nth_error in Hx. destruct Hx as [j Hj].
    assert (dget key_eqb (key_map s) k = Some x).
    { apply (i_map _ _ I). exists j. repeat split; auto. }
    congruence. }
  unfold set_key. rewrite Hf, Hindex. eexists. split; [reflexivity|].
  cbn [heap root key_map key_to_idx idx_to_key]. split; [reflexivity|]. split; [reflexivity|].
  assert (Hf2 : dget key_eqb (key_to_idx s) k = None).
  { destruct (dget key_eqb (key_to_idx s) k) as [z|] eqn:E; [|reflexivity].
    apply (i_idx _ _ I) in E. destruct E as [j [x [_ Kx]]].
    assert (dget key_eqb (key_map s) k = Some x) by (apply (i_map _ _ I); eauto). congruence. }
  assert (Hf3 : dget Z.eqb (idx_to_key s) (Z.of_nat i) = None).
  { destruct (dget Z.eqb (idx_to_key s) (Z.of_nat i)) as [k'|] eqn:E; [|reflexivity].
    apply (i_inv _ _ I) in E. apply (i_idx _ _ I) in E. destruct E as [j [x [E1 [E2 [E3 _]]]]].
    assert (j = i) by lia. subst. unfold but in E3. congruence. }
  assert (E : forall k' j x, keyed (heap s) (root s) all k' j x <->
      keyed (heap s) (root s) (but o) k' j x \/ (k' = k /\ j = i /\ x = o)).
  { intros k' j x. unfold keyed, but, all. split.
    - intros [A [_ [B C]]]. destruct (Nat.eq_dec x o) as [->|N]; [|left; tauto].
      right. repeat split; try congruence; [unfold k; congruence|].
      apply (NoDup_nth_error (root s)); [apply (i_nodup _ _ I)| |congruence].
      apply nth_error_Some. congruence.
    - intros [[A [_ [B C]]]|[-> [-> ->]]]; repeat split; auto. }
  destruct I as [I1 I2 I3 I4 I5 I6 I7 I8]. split; cbn [heap root key_map key_to_idx idx_to_key].
  - assumption.
  - assumption.
  - apply dset_wf; [apply key_eqb_eq|assumption].
  - apply dset_wf; [apply key_eqb_eq|assumption].
  - apply dset_wf; [apply Z.eqb_eq|assumption].
  - intros k' x. rewrite dget_dset by apply key_eqb_eq. destruct (key_eqb k k') eqn:F.
    + apply key_eqb_eq in F. subst k'. split.
      * intros H. inversion H; subst. exists i. apply E. right. auto.
      * intros [j Kj]. apply E in Kj. destruct Kj as [Kj|[_ [_ ->]]]; [|reflexivity].
        assert (dget key_eqb (key_map s) k = Some x) by (apply I6; eauto). congruence.
    + apply key_eqb_neq in F. rewrite I6. split; intros [j Kj]; exists j.
      * apply E. left. assumption.
      * apply E in Kj. destruct Kj as [Kj|[Kj _]]; [assumption|congruence].
  - intros k' z. rewrite dget_dset by apply key_eqb_eq. destruct (key_eqb k k') eqn:F.
    + apply key_eqb_eq in F. subst k'. split.
      * intros H. inversion H; subst. exists i, o. split; [reflexivity|]. apply E. right. auto.
      * intros [j [x [Z1 Kj]]]. apply E in Kj. destruct Kj as [Kj|[_ [-> _]]]; [|congruence].
        assert (dget key_eqb (key_map s) k = Some x) by (apply I6; eauto). congruence.
    + apply key_eqb_neq in F. rewrite I7. split; intros [j [x [Z1 Kj]]]; exists j, x; (split; [assumption|]).
      * apply E. left. assumption.
      * apply E in Kj. destruct Kj as [Kj|[Kj _]]; [assumption|congruence].
  - intros k' z. rewrite !dget_dset by (apply key_eqb_eq || apply Z.eqb_eq).
    destruct (Z.eqb_spec (Z.of_nat i) z) as [F|F].
    + subst z. destruct (key_eqb k k') eqn:G.
      * apply key_eqb_eq in G. subst. tauto.
      * apply key_eqb_neq in G. split; [congruence|]. intros H. apply I8 in H. congruence.
    + rewrite I8. destruct (key_eqb k k') eqn:G; [|tauto].
      apply key_eqb_eq in G. subst k'. rewrite Hf2. split; [discriminate|]. congruence.
Qed.

(** Re-indexing after a change of positions. *)
Definition reindex (s : estate) (f : Z -> Z) : estate :=
  let k2i := map (fun kv => (fst kv, f (snd kv))) (key_to_idx s) in
  mkES (heap s) (root s) (key_map s) k2i
       (dict_of Z.eqb (map (fun kv => (snd kv, fst kv)) k2i)).
Lemma reindex_ok : forall R s r' f,
  Inv R s -> NoDup r' -> (forall o, In o r' -> (o < length (heap s))%nat) ->
  (forall k i o, keyed (heap s) (root s) R k i o ->
     exists j, Z.of_nat j = f (Z.of_nat i) /\ nth_error r' j = Some o) ->
  (forall j o, nth_error r' j = Some o -> R o -> truthy (id_of (heap s) o) = true -> In o (root s)) ->
  Inv R (reindex (with_root s r') f).
Proof.
  intros R s r' f I Hn Hh Hmv Hold.
  set (k2i := map (fun kv => (fst kv, f (snd kv))) (key_to_idx s)).
  assert (G : forall k, dget key_eqb k2i k = option_map f (dget key_eqb (key_to_idx s) k)) by (intros; apply dget_map).
  assert (W2 : dwf k2i).
  { unfold dwf, k2i. rewrite map_map. simpl. apply (i_wf2 _ _ I). }
  assert (B : forall k z, dget key_eqb k2i k = Some z <->
            exists j o, z = Z.of_nat j /\ keyed (heap s) r' R k j o).
  { intros k z. rewrite G. split.
    - destruct (dget key_eqb (key_to_idx s) k) as [w|] eqn:E; [|discriminate]. simpl. intros H. inversion H; subst.
      apply (i_idx _ _ I) in E. destruct E as [i [o [-> K]]]. destruct (Hmv _ _ _ K) as [j [J1 J2]].
      exists j, o. split; [congruence|]. destruct K as [K1 [K2 [K3 K4]]]. repeat split; assumption.
    - intros [j [o [-> [K1 [K2 [K3 K4]]]]]].
      assert (Ho : In o (root s)) by (eapply Hold; try eassumption; congruence).
      apply In_nth_error in Ho. destruct Ho as [i Hi].
      assert (K : keyed (heap s) (root s) R k i o) by (repeat split; assumption).
      destruct (Hmv _ _ _ K) as [j' [J1 J2]].
      assert (j' = j).
      { apply (NoDup_nth_error r'); [assumption| |congruence]. apply nth_error_Some. congruence. }
      subst j'. assert (E : dget key_eqb (key_to_idx s) k = Some (Z.of_nat i)) by (apply (i_idx _ _ I); eauto).
      rewrite E. simpl. congruence. }
  assert (N : NoDup (map fst (map (fun kv : key * Z => (snd kv, fst kv)) k2i))).
  { rewrite map_map. cbn [fst].
    assert (Inj : forall a b, In a k2i -> In b k2i -> snd a = snd b -> a = b).
    { intros [k1 z1] [k2 z2] H1 H2 E. cbn in E. subst z2.
      apply (dget_in key_eqb key_eqb_eq) in H1; [|assumption]. apply (dget_in key_eqb key_eqb_eq) in H2; [|assumption].
      apply B in H1. apply B in H2. destruct H1 as [j1 [o1 [E1 [A1 [_ [A2 _]]]]]].
      destruct H2 as [j2 [o2 [E2 [A3 [_ [A4 _]]]]]]. assert (j1 = j2) by lia. subst. congruence. }
    assert (D : NoDup k2i) by (eapply NoDup_map_inv; exact W2).
    clear - Inj D. induction k2i as [|a l IH]; simpl; [constructor|]. inversion D; subst. constructor.
    - intros H. apply in_map_iff in H. destruct H as [b [E Hb]]. apply H1.
      rewrite (Inj a b); simpl; auto.
    - apply IH; [|assumption]. intros a' b' Ha Hb. apply Inj; right; assumption. }
  destruct (dict_of_spec _ N) as [D1 D2].
  split; cbn [reindex with_root heap root key_map key_to_idx idx_to_key].
  - assumption.
  - assumption.
  - apply (i_wf1 _ _ I).
  - exact W2.
  - exact D1.
  - intros k o. rewrite (i_map _ _ I). split.
    + intros [i K]. destruct (Hmv _ _ _ K) as [j [J1 J2]]. exists j. destruct K as [K1 [K2 [K3 K4]]]. repeat split; assumption.
    + intros [j [K1 [K2 [K3 K4]]]]. assert (Ho : In o (root s)) by (eapply Hold; try eassumption; congruence).
      apply In_nth_error in Ho. destruct Ho as [i Hi]. exists i. repeat split; assumption.
  - exact B.
  - intros k z.
    change (dget Z.eqb (dict_of Z.eqb (map (fun kv : key * Z => (snd kv, fst kv)) k2i)) z = Some k
            <-> dget key_eqb k2i k = Some z).
    rewrite D2. rewrite (dget_in key_eqb key_eqb_eq _ _ _ W2), in_map_iff. split.
    + intros [[k' z'] [E H]]. inversion E; subst. assumption.
    + intros H. exists (k, z). auto.
Qed.

(** [_shift_key_indices] after a change of positions. *)
Lemma shift_ok : forall R s r' idx amt,
  Inv R s -> NoDup r' -> (forall o, In o r' -> (o < length (heap s))%nat) ->
  (forall k i o, keyed (heap s) (root s) R k i o ->
     exists j, Z.of_nat j = (if (idx <=? Z.of_nat i)%Z then Z.of_nat i + amt else Z.of_nat i)%Z /\
     nth_error r' j = Some o) ->
  (forall j o, nth_error r' j = Some o -> R o -> truthy (id_of (heap s) o) = true -> In o (root s)) ->
  Inv R (shift_keys (with_root s r') idx amt).
Proof.
  intros R s r' idx amt I Hn Hh Hmv Hold.
  apply (reindex_ok R s r' (fun z => (if (idx <=? z)%Z then z + amt else z)%Z)); assumption.
Qed.

(** *** members *)
Definition look (h : list ent) (o : nat) : ent := nth o h (mkEnt None 0 false).
Lemma members_map : forall s, (forall o, In o (root s) -> (o < length (heap s))%nat) ->
  members s = map (fun o => (o, look (heap s) o)) (root s).
Proof.
  intros s. unfold members. induction (root s) as [|o r IH]; simpl; intros H; [reflexivity|].
  rewrite IH by auto. rewrite (nth_error_nth' (heap s) (mkEnt None 0 false)) by auto. reflexivity.
Qed.
Lemma id_look : forall h o, (o < length h)%nat -> id_of h o = e_id (look h o).
Proof. intros. unfold id_of. rewrite (nth_error_nth' h (mkEnt None 0 false)) by auto. reflexivity. Qed.
Lemma group_look : forall h o, (o < length h)%nat -> is_group h o = e_grp (look h o).
Proof. intros. unfold is_group. rewrite (nth_error_nth' h (mkEnt None 0 false)) by auto. reflexivity. Qed.

Definition M (s : estate) : list member := map (fun o => (o, look (heap s) o)) (root s).

(** No member has an empty ID (kept by covered operations). *)
Definition clean (s : estate) : Prop := forall m, In m (M s) -> e_id (snd m) <> Some [].

Lemma used_taken : forall s k, Inv all s -> clean s -> k <> Some [] ->
  used (M s) k = id_taken s k.
Proof.
  intros s k I C Hk. unfold used, id_taken. destruct k as [k|]; [|reflexivity].
  destruct (dget key_eqb (key_map s) (Some k)) as [o|] eqn:E.
  - apply (i_map _ _ I) in E. destruct E as [i [E1 [_ [E2 _]]]].
    apply existsb_exists. exists (o, look (heap s) o). split.
    + unfold M. apply in_map_iff. exists o. split; [reflexivity|]. eapply nth_error_In; eassumption.
    + unfold has_id. simpl. apply key_eqb_eq. rewrite <- id_look; [assumption|].
      apply (i_heap _ _ I). eapply nth_error_In; eassumption.
  - destruct (existsb (has_id (Some k)) (M s)) eqn:F; [|reflexivity].
    apply existsb_exists in F. destruct F as [m [F1 F2]]. unfold M in F1. apply in_map_iff in F1.
    destruct F1 as [o [<- F1]]. unfold has_id in F2. simpl in F2. apply key_eqb_eq in F2.
    assert (H := F1). apply In_nth_error in F1. destruct F1 as [i F1].
    rewrite <- id_look in F2 by (apply (i_heap _ _ I); assumption).
    assert (dget key_eqb (key_map s) (Some k) = Some o).
    { apply (i_map _ _ I). exists i. repeat split; auto. destruct k; [congruence|reflexivity]. }
    congruence.
Qed.

Lemma position_spec : forall l k i, position l k = Some i ->
  exists m, nth_error l i = Some m /\ e_id (snd m) = k.
Proof.
  induction l as [|m l IH]; simpl; intros k i H; [discriminate|].
  destruct (has_id k m) eqn:E.
  - inversion H; subst. exists m. split; [reflexivity|]. apply key_eqb_eq. assumption.
  - destruct (position l k) eqn:F; [|discriminate]. inversion H; subst. simpl. apply IH. assumption.
Qed.
Lemma position_none : forall l k, position l k = None -> forall m, In m l -> e_id (snd m) <> k.
Proof.
  induction l as [|m l IH]; simpl; intros k H n Hn; [contradiction|].
  destruct (has_id k m) eqn:E; [discriminate|].
  destruct (position l k) eqn:F; [discriminate|].
  destruct Hn as [<-|Hn]; [apply key_eqb_neq; assumption|eapply IH; eassumption].
Qed.

Lemma nth_M : forall s i m, nth_error (M s) i = Some m ->
  exists o, nth_error (root s) i = Some o /\ m = (o, look (heap s) o).
Proof.
  intros s i m. unfold M. rewrite nth_error_map. destruct (nth_error (root s) i) as [o|]; [|discriminate].
  simpl. intros H. inversion H. eauto.
Qed.

Lemma position_k2i : forall s (k : pystr), Inv all s -> k <> [] ->
  dget key_eqb (key_to_idx s) (Some k) = option_map Z.of_nat (position (M s) (Some k)).
Proof.
  intros s k I Hk. destruct (position (M s) (Some k)) as [i|] eqn:E; simpl.
  - apply position_spec in E. destruct E as [m [E1 E2]]. apply nth_M in E1. destruct E1 as [o [E1 ->]].
    simpl in E2. apply (i_idx _ _ I). exists i, o. split; [reflexivity|]. repeat split; auto.
    + rewrite id_look; [assumption|]. apply (i_heap _ _ I). eapply nth_error_In; eassumption.
    + destruct k; [congruence|reflexivity].
  - destruct (dget key_eqb (key_to_idx s) (Some k)) as [z|] eqn:F; [|reflexivity].
    apply (i_idx _ _ I) in F. destruct F as [i [o [_ [F1 [_ [F2 _]]]]]].
    exfalso. refine (position_none _ _ E (o, look (heap s) o) _ _).
    + unfold M. apply in_map_iff. exists o. split; [reflexivity|]. eapply nth_error_In; eassumption.
    + simpl. rewrite <- id_look; [assumption|]. apply (i_heap _ _ I). eapply nth_error_In; eassumption.
Qed.

(** *** individual operations *)
Definition good (s : estate) (r : outcome) (spec : list member * option exn) : Prop :=
  Inv all (fst r) /\ clean (fst r) /\ M (fst r) = fst spec /\ snd r = snd spec.

Lemma look_app_l : forall h e o, (o < length h)%nat -> look (h ++ [e]) o = look h o.
Proof. intros. unfold look. apply app_nth1. assumption. Qed.
Lemma look_app_r : forall h e, look (h ++ [e]) (length h) = e.
Proof. intros. unfold look. rewrite app_nth2, Nat.sub_diag by lia. reflexivity. Qed.
Lemma id_app_l : forall h e o, (o < length h)%nat -> id_of (h ++ [e]) o = id_of h o.
Proof. intros. unfold id_of. rewrite nth_error_app1 by assumption. reflexivity. Qed.
Lemma id_app_r : forall h e, id_of (h ++ [e]) (length h) = e_id e.
Proof. intros. unfold id_of. rewrite nth_error_app2, Nat.sub_diag by lia. reflexivity. Qed.

(** Allocating an unregistered object keeps the invariant. *)
Lemma inv_alloc : forall s e, Inv all s -> Inv (but (length (heap s))) (with_heap s (heap s ++ [e])).
Proof.
  intros s e I.
  assert (E : forall k i o, keyed (heap s ++ [e]) (root s) (but (length (heap s))) k i o <->
                            keyed (heap s) (root s) all k i o).
  { intros k i o. unfold keyed, but, all. split.
    - intros [A [B [C D]]]. repeat split; try assumption.
      rewrite <- C. symmetry. apply id_app_l. apply (i_heap _ _ I). eapply nth_error_In; eassumption.
    - intros [A [B [C D]]].
      assert (L : (o < length (heap s))%nat) by (apply (i_heap _ _ I); eapply nth_error_In; eassumption).
      repeat split; try assumption; [lia|]. rewrite id_app_l; assumption. }
  destruct I as [I1 I2 I3 I4 I5 I6 I7 I8]. split; cbn [with_heap heap root key_map key_to_idx idx_to_key]; try assumption.
  - intros o Ho. rewrite app_length. simpl. specialize (I2 o Ho). lia.
  - intros k o. rewrite I6. split; intros [i K]; exists i; apply E; assumption.
  - intros k z. rewrite I7. split; intros [i [o [Z1 K]]]; exists i, o; (split; [assumption|]); apply E; assumption.
Qed.

Lemma clean_M : forall s l, M s = l -> (forall m, In m l -> e_id (snd m) <> Some []) -> clean s.
Proof. intros s l <- H. exact H. Qed.

Lemma in_insert : forall A (l : list A) i x y, In y (firstn i l ++ x :: skipn i l) <-> y = x \/ In y l.
Proof.
  intros. rewrite in_app_iff. simpl.
  rewrite <- (firstn_skipn i l) at 3. rewrite in_app_iff. intuition.
Qed.
Lemma nodup_insert : forall A (l : list A) i x, NoDup l -> ~ In x l -> NoDup (firstn i l ++ x :: skipn i l).
Proof.
  intros A l i x H N. apply (Permutation_NoDup (l := x :: l)).
  - rewrite <- (firstn_skipn i l) at 1. apply Permutation_middle.
  - constructor; assumption.
Qed.

Lemma M_insert : forall h r e i,
  (forall o, In o r -> (o < length h)%nat) ->
  map (fun o => (o, look (h ++ [e]) o)) (firstn i r ++ length h :: skipn i r) =
  firstn i (map (fun o => (o, look h o)) r) ++ (length h, e) :: skipn i (map (fun o => (o, look h o)) r).
Proof.
  intros h r e i H. rewrite map_insert. rewrite look_app_r.
  assert (E : map (fun o => (o, look (h ++ [e]) o)) r = map (fun o => (o, look h o)) r).
  { apply map_ext_in. intros o Ho. rewrite look_app_l by auto. reflexivity. }
  rewrite E. reflexivity.
Qed.

Lemma insert_good : forall s idx e, Inv all s -> clean s -> e_id e <> Some [] ->
  (0 <= idx \/ idx <= - Z.of_nat (length (root s)))%Z ->
  good s (el_insert s idx e) (spec_insert (M s) idx (length (heap s)) e).
Proof.
  intros s idx e I C He Hidx. unfold good, el_insert, spec_insert.
  rewrite (used_taken s (e_id e) I C He).
  destruct (id_taken s (e_id e)) eqn:T; [simpl; auto|].
  set (o := length (heap s)).
  unfold py_insert. assert (LM : length (M s) = length (root s)) by (unfold M; apply map_length).
  rewrite LM. set (n := Z.of_nat (length (root s))) in *.
  set (i := Z.to_nat (if (idx <? 0)%Z then Z.max 0 (idx + n) else Z.min idx n)).
  assert (Hi : (i <= length (root s))%nat) by (unfold i, n; destruct (Z.ltb_spec idx 0); lia).
  set (r' := firstn i (root s) ++ o :: skipn i (root s)).
  assert (Hfresh : ~ In o (root s)).
  { intros H. apply (i_heap _ _ I) in H. unfold o in H. lia. }
  assert (I1 : Inv (but o) (shift_keys (with_root (with_heap s (heap s ++ [e])) r') idx 1)).
  { apply shift_ok.
    - apply inv_alloc. assumption.
    - apply nodup_insert; [apply (i_nodup _ _ I)|assumption].
    - intros x Hx. cbn [with_heap heap]. rewrite app_length. simpl. unfold r' in Hx.
      apply in_insert in Hx. destruct Hx as [->|Hx]; [unfold o; lia|]. apply (i_heap _ _ I) in Hx. lia.
    - intros k j x [K1 _]. cbn [with_heap heap root] in K1.
      assert (j < length (root s))%nat by (apply nth_error_Some; congruence).
      destruct (Z.leb_spec idx (Z.of_nat j)).
      + exists (S j). split; [lia|]. unfold r'. rewrite nth_insert by assumption.
        assert (i <= j)%nat by (unfold i, n; destruct (Z.ltb_spec idx 0); lia).
        destruct (Nat.ltb_spec (S j) i); [lia|]. destruct (Nat.eqb_spec (S j) i); [lia|].
        replace (S j - 1)%nat with j by lia. assumption.
      + exists j. split; [lia|]. unfold r'. rewrite nth_insert by assumption.
        assert (j < i)%nat by (unfold i, n; destruct (Z.ltb_spec idx 0); lia).
        destruct (Nat.ltb_spec j i); [assumption|lia].
    - intros j x Hj Rx _. cbn [with_heap root]. unfold but in Rx. apply nth_error_In in Hj.
      unfold r' in Hj. apply in_insert in Hj. destruct Hj; [contradiction|assumption]. }
  change (mkES (heap s ++ [e]) r' (key_map s) (key_to_idx s) (idx_to_key s))
    with (with_root (with_heap s (heap s ++ [e])) r').
  set (s2 := shift_keys (with_root (with_heap s (heap s ++ [e])) r') idx 1) in *.
  assert (Hh : heap s2 = heap s ++ [e]) by reflexivity.
  assert (Hr : root s2 = r') by reflexivity.
  assert (MM : forall s', heap s' = heap s ++ [e] -> root s' = r' ->
     M s' = firstn i (M s) ++ (o, e) :: skipn i (M s)).
  { intros s' H1 H2. unfold M. rewrite H1, H2. apply M_insert. apply (i_heap _ _ I). }
  assert (CC : forall s', heap s' = heap s ++ [e] -> root s' = r' -> clean s').
  { intros s' H1 H2. eapply clean_M; [apply MM; assumption|]. intros m Hm.
    apply in_insert in Hm. destruct Hm as [->|Hm]; [assumption|apply C; assumption]. }
  assert (Hid : id_of (heap s2) o = e_id e) by (rewrite Hh; apply id_app_r).
  destruct (truthy (e_id e)) eqn:Tr.
  - rewrite <- Hid. destruct (set_key_ok s2 o i) as [s3 [S1 [S2 [S3 S4]]]].
    + assumption.
    + rewrite Hr. unfold r'. rewrite nth_insert by assumption. rewrite Nat.ltb_irrefl, Nat.eqb_refl. reflexivity.
    + congruence.
    + rewrite Hid. unfold id_taken in T. destruct (e_id e); [|discriminate].
      change (key_map s2) with (key_map s). destruct (dget key_eqb (key_map s) (Some p)); [discriminate|reflexivity].
    + rewrite S1. cbn [fst snd]. split; [assumption|]. split; [apply CC; congruence|].
      split; [apply MM; congruence|reflexivity].
  - cbn [fst snd]. split; [|split; [apply CC; reflexivity|split; [apply MM; reflexivity|reflexivity]]].
    eapply inv_but_all; [eassumption|]. congruence.
Qed.

Lemma remove_key_root : forall s r k, remove_key (with_root s r) k =
  (with_root (fst (remove_key s k)) r, snd (remove_key s k)).
Proof.
  intros s r [k|]; [|reflexivity]. unfold remove_key. cbn [with_root key_to_idx key_map idx_to_key heap root].
  destruct (dget key_eqb (key_to_idx s) (Some k)); [|reflexivity].
  destruct (dget key_eqb (key_map s) (Some k)); [|reflexivity].
  destruct (dget Z.eqb (idx_to_key s) z); reflexivity.
Qed.
Lemma remove_key_heap : forall s h k, remove_key (with_heap s h) k =
  (with_heap (fst (remove_key s k)) h, snd (remove_key s k)).
Proof.
  intros s h [k|]; [|reflexivity]. unfold remove_key. cbn [with_heap key_to_idx key_map idx_to_key heap root].
  destruct (dget key_eqb (key_to_idx s) (Some k)); [|reflexivity].
  destruct (dget key_eqb (key_map s) (Some k)); [|reflexivity].
  destruct (dget Z.eqb (idx_to_key s) z); reflexivity.
Qed.

(** The key found at a position is the member's ID if it is registered. *)
Lemma key_at_spec : forall s i o, Inv all s -> nth_error (root s) i = Some o ->
  key_at s (Z.of_nat i) = if truthy (id_of (heap s) o) then id_of (heap s) o else None.
Proof.
  intros s i o I Hi. unfold key_at.
  destruct (dget Z.eqb (idx_to_key s) (Z.of_nat i)) as [k|] eqn:E.
  - apply (i_inv _ _ I) in E. apply (i_idx _ _ I) in E. destruct E as [j [x [E1 [E2 [_ [E3 E4]]]]]].
    assert (j = i) by lia. subst j. assert (x = o) by congruence. subst x. rewrite E3, E4. reflexivity.
  - destruct (truthy (id_of (heap s) o)) eqn:T; [|reflexivity].
    assert (dget Z.eqb (idx_to_key s) (Z.of_nat i) = Some (id_of (heap s) o)); [|congruence].
    apply (i_inv _ _ I). apply (i_idx _ _ I). exists i, o. split; [reflexivity|]. repeat split; auto.
Qed.

(** Removing the key of the member at [i] (if any). *)
Lemma remove_key_at : forall s i o, Inv all s -> nth_error (root s) i = Some o ->
  exists s', remove_key s (if truthy (id_of (heap s) o) then id_of (heap s) o else None) = (s', None) /\
    heap s' = heap s /\ root s' = root s /\ Inv (but o) s'.
Proof.
  intros s i o I Hi. destruct (truthy (id_of (heap s) o)) eqn:T.
  - apply (remove_key_ok s o i); assumption.
  - exists s. split; [reflexivity|]. split; [reflexivity|]. split; [reflexivity|].
    apply inv_all_but; assumption.
Qed.

Lemma delete_good : forall s i o, Inv all s -> clean s -> nth_error (root s) i = Some o ->
  forall k, k = (if truthy (id_of (heap s) o) then id_of (heap s) o else None) ->
  good s (el_delete s (Z.of_nat i) k) (remove_nth (M s) i, None).
Proof.
  intros s i o I C Hi k ->. assert (Hl : (i < length (root s))%nat) by (apply nth_error_Some; congruence).
  unfold el_delete, py_pos.
  destruct (Z.ltb_spec (Z.of_nat i) 0); [lia|].
  destruct (Z.leb_spec 0 (Z.of_nat i)); [|lia]. destruct (Z.ltb_spec (Z.of_nat i) (Z.of_nat (length (root s)))); [|lia].
  cbn [andb]. rewrite Nat2Z.id. rewrite remove_key_root.
  destruct (remove_key_at s i o I Hi) as [s1 [S1 [S2 [S3 S4]]]]. rewrite S1.
  unfold andthen. cbn [fst snd].
  assert (I2 : Inv (but o) (shift_keys (with_root s1 (remove_nth (root s) i)) (Z.of_nat i) (-1))).
  { apply shift_ok.
    - assumption.
    - apply remove_nth_nodup. apply (i_nodup _ _ I).
    - intros x Hx. rewrite S2. apply (i_heap _ _ I). eapply remove_nth_in; eassumption.
    - intros k j x [K1 [K2 _]]. rewrite S3 in K1. unfold but in K2.
      destruct (Z.leb_spec (Z.of_nat i) (Z.of_nat j)).
      + assert (j <> i) by (intros ->; congruence). exists (j - 1)%nat. split; [lia|].
        rewrite nth_remove. destruct (Nat.ltb_spec (j - 1) i); [lia|].
        replace (S (j - 1)) with j by lia. assumption.
      + exists j. split; [lia|]. rewrite nth_remove. destruct (Nat.ltb_spec j i); [assumption|lia].
    - intros j x Hj _ _. rewrite S3. eapply remove_nth_in. eapply nth_error_In; eassumption. }
  assert (MM : M (shift_keys (with_root s1 (remove_nth (root s) i)) (Z.of_nat i) (-1)) = remove_nth (M s) i).
  { unfold M. cbn [shift_keys with_root heap root]. rewrite S2. apply map_remove_nth. }
  split; [|split; [|split; [assumption|reflexivity]]]; cbn [fst].
  - assert (E : forall k i' x, keyed (heap s1) (remove_nth (root s) i) all k i' x <->
                        keyed (heap s1) (remove_nth (root s) i) (but o) k i' x).
    { intros k i' x. unfold keyed, all, but. split; [|tauto]. intros [A [_ B]].
      split; [assumption|]. split; [|assumption]. intros ->.
      rewrite nth_remove in A. pose proof (i_nodup _ _ I) as Hn. rewrite NoDup_nth_error in Hn.
      destruct (Nat.ltb_spec i' i).
      - assert (i' = i); [|lia]. apply Hn; [|congruence]. lia.
      - assert (S i' = i); [|lia]. apply Hn; [|congruence]. apply nth_error_Some. congruence. }
    destruct I2 as [J1 J2 J3 J4 J5 J6 J7 J8]. split; try assumption.
    + intros k x. rewrite J6. cbn [shift_keys with_root heap root]. split; intros [j K]; exists j; apply E; assumption.
    + intros k z. rewrite J7. cbn [shift_keys with_root heap root]. split; intros [j [x [Z1 K]]]; exists j, x; (split; [assumption|apply E; assumption]).
  - eapply clean_M; [exact MM|]. intros m Hm. apply C. eapply remove_nth_in; eassumption.
Qed.

Lemma del_idx_good : forall s idx, Inv all s -> clean s ->
  good s (el_del_idx s idx) (spec_step (length (heap s)) (M s) (EDelIdx idx)).
Proof.
  intros s idx I C. unfold el_del_idx. cbn [spec_step].
  assert (LM : length (M s) = length (root s)) by (unfold M; apply map_length). rewrite LM.
  destruct (root s) as [|o0 r0] eqn:R.
  - unfold M at 1. rewrite R. simpl. unfold good. simpl.
    split; [assumption|split; [assumption|split; [unfold M; rewrite R; reflexivity|reflexivity]]].
  - assert (LN : (0 < Z.of_nat (length (root s)))%Z) by (rewrite R; simpl; lia). rewrite <- R.
    set (z := (idx mod Z.of_nat (length (root s)))%Z).
    assert (Hz : (0 <= z < Z.of_nat (length (root s)))%Z) by (apply Z.mod_pos_bound; assumption).
    assert (MS : forall X Y : list member * option exn, match M s with [] => X | _ :: _ => Y end = Y).
    { intros. unfold M. rewrite R. reflexivity. }
    rewrite MS.
    destruct (nth_error (root s) (Z.to_nat z)) as [o|] eqn:E; [|apply nth_error_None in E; lia].
    replace z with (Z.of_nat (Z.to_nat z)) at 1 2 by lia.
    apply (delete_good s (Z.to_nat z) o); auto. apply key_at_spec; assumption.
Qed.

Lemma del_key_good : forall s (k : pystr), Inv all s -> clean s -> k <> [] ->
  good s (el_del_key s k) (spec_step (length (heap s)) (M s) (EDelKey k)).
Proof.
  intros s k I C Hk. unfold el_del_key. cbn [spec_step]. rewrite position_k2i by assumption.
  destruct (position (M s) (Some k)) as [i|] eqn:E; simpl.
  - apply position_spec in E. destruct E as [m [E1 E2]]. apply nth_M in E1. destruct E1 as [o [E1 ->]].
    apply (delete_good s i o); auto. simpl in E2. rewrite id_look; [|apply (i_heap _ _ I); eapply nth_error_In; eassumption].
    rewrite E2. destruct k; [congruence|reflexivity].
  - unfold good. simpl. auto.
Qed.

Lemma in_replace : forall A (l : list A) i x y, In y (replace_nth l i x) -> y = x \/ In y l.
Proof.
  intros A. induction l as [|z l IH]; simpl; intros i x y H; [auto|].
  destruct i; simpl in H; [intuition|]. destruct H as [H|H]; [auto|]. apply IH in H. intuition.
Qed.

Lemma nodup_replace : forall A (l : list A) i x, NoDup l -> ~ In x l -> NoDup (replace_nth l i x).
Proof.
  intros A. induction l as [|y l IH]; intros i x H N; simpl; [constructor|].
  inversion H; subst. simpl in N. destruct i; constructor; auto.
  intros I. apply in_replace in I. destruct I; [subst; apply N; left; reflexivity|contradiction].
Qed.

Lemma replace_good : forall s i o e k, Inv all s -> clean s -> e_id e <> Some [] ->
  nth_error (root s) i = Some o -> k = (if truthy (id_of (heap s) o) then id_of (heap s) o else None) ->
  good s (el_replace s (Z.of_nat i) k e) (spec_replace (M s) (Z.of_nat i) (length (heap s)) e).
Proof.
  intros s i o e k I C He Hi ->. unfold good, el_replace, spec_replace.
  rewrite (used_taken s (e_id e) I C He).
  destruct (id_taken s (e_id e)) eqn:T; [simpl; auto|].
  assert (LM : length (M s) = length (root s)) by (unfold M; apply map_length). rewrite LM.
  assert (Hl : (i < length (root s))%nat) by (apply nth_error_Some; congruence).
  unfold py_pos.
  destruct (Z.ltb_spec (Z.of_nat i) 0); [lia|].
  destruct (Z.leb_spec 0 (Z.of_nat i)); [|lia]. destruct (Z.ltb_spec (Z.of_nat i) (Z.of_nat (length (root s)))); [|lia].
  cbn [andb]. rewrite Nat2Z.id.
  set (n := length (heap s)). set (r' := replace_nth (root s) i n).
  assert (Hfresh : ~ In n (root s)).
  { intros H'. apply (i_heap _ _ I) in H'. unfold n in H'. lia. }
  change (mkES (heap s ++ [e]) r' (key_map s) (key_to_idx s) (idx_to_key s))
    with (with_root (with_heap s (heap s ++ [e])) r').
  destruct (remove_key_at s i o I Hi) as [s1 [S1 [S2 [S3 S4]]]].
  set (kk := if truthy (id_of (heap s) o) then id_of (heap s) o else None) in *.
  assert (E0 : (if truthy kk then remove_key (with_root (with_heap s (heap s ++ [e])) r') kk
     else (with_root (with_heap s (heap s ++ [e])) r', None)) = (with_root (with_heap s1 (heap s ++ [e])) r', None)).
  { rewrite remove_key_root, remove_key_heap, S1. cbn [fst snd]. destruct (truthy kk) eqn:F; [reflexivity|].
    assert (kk = None).
    { unfold kk in *. destruct (truthy (id_of (heap s) o)) eqn:G; [congruence|reflexivity]. }
    rewrite H2 in S1. simpl in S1. inversion S1. reflexivity. }
  rewrite E0. unfold andthen. cbn [fst snd].
  set (s2 := with_root (with_heap s1 (heap s ++ [e])) r').
  assert (Hh : heap s2 = heap s ++ [e]) by reflexivity.
  assert (Hr : root s2 = r') by reflexivity.
  assert (I2 : Inv (but n) s2).
  { assert (E : forall k j x, keyed (heap s ++ [e]) r' (but n) k j x <-> keyed (heap s1) (root s1) (but o) k j x).
    { intros k j x. rewrite S2, S3. unfold keyed, but, r'. rewrite nth_replace by assumption.
      pose proof (i_nodup _ _ I) as Hn. rewrite NoDup_nth_error in Hn. split.
      - intros [A [B [D F]]]. destruct (Nat.eqb_spec j i); [congruence|].
        split; [assumption|]. split.
        + intros ->. assert (j = i); [|contradiction]. apply Hn; [apply nth_error_Some; congruence|congruence].
        + split; [|assumption]. rewrite <- D. symmetry. apply id_app_l. apply (i_heap _ _ I). eapply nth_error_In; eassumption.
      - intros [A [B [D F]]].
        assert (x < length (heap s))%nat by (apply (i_heap _ _ I); eapply nth_error_In; eassumption).
        destruct (Nat.eqb_spec j i); [congruence|]. split; [assumption|]. split; [unfold n; lia|].
        split; [|assumption]. rewrite id_app_l; assumption. }
    destruct S4 as [J1 J2 J3 J4 J5 J6 J7 J8]. split; cbn [s2 with_root with_heap heap root key_map key_to_idx idx_to_key]; try assumption.
    - apply nodup_replace; [apply (i_nodup _ _ I)|assumption].
    - intros x Hx. apply in_replace in Hx. rewrite app_length. simpl. destruct Hx as [->|Hx]; [unfold n; lia|].
      apply (i_heap _ _ I) in Hx. lia.
    - intros k x. rewrite J6. split; intros [j K]; exists j; apply E; assumption.
    - intros k z. rewrite J7. split; intros [j [x [Z1 K]]]; exists j, x; (split; [assumption|apply E; assumption]). }
  assert (MM : forall s', heap s' = heap s ++ [e] -> root s' = r' -> M s' = replace_nth (M s) i (n, e)).
  { intros s' H1' H2'. unfold M. rewrite H1', H2'. unfold r'. rewrite map_replace_nth.
    unfold n. rewrite look_app_r. f_equal. apply map_ext_in. intros x Hx.
    rewrite look_app_l; [reflexivity|]. apply (i_heap _ _ I); assumption. }
  assert (CC : forall s', heap s' = heap s ++ [e] -> root s' = r' -> clean s').
  { intros s' H1' H2'. eapply clean_M; [apply MM; assumption|]. intros m Hm.
    apply in_replace in Hm. destruct Hm as [->|Hm]; [assumption|apply C; assumption]. }
  assert (Hid : id_of (heap s2) n = e_id e) by (rewrite Hh; apply id_app_r).
  destruct (truthy (e_id e)) eqn:Tr.
  - rewrite <- Hid. destruct (set_key_ok s2 n i) as [s3 [T1 [T2 [T3 T4]]]].
    + assumption.
    + rewrite Hr. unfold r'. rewrite nth_replace by assumption. rewrite Nat.eqb_refl. reflexivity.
    + congruence.
    + rewrite Hid. destruct (dget key_eqb (key_map s2) (e_id e)) as [x|] eqn:F; [|reflexivity].
      exfalso. apply (i_map _ _ I2) in F. destruct F as [j [A [B [D _]]]].
      rewrite Hr in A. unfold r' in A. rewrite nth_replace in A by assumption.
      destruct (Nat.eqb_spec j i); [unfold but in B; congruence|].
      assert (Hx : (x < length (heap s))%nat) by (apply (i_heap _ _ I); eapply nth_error_In; eassumption).
      rewrite Hh, id_app_l in D by assumption.
      assert (G : dget key_eqb (key_map s) (e_id e) = Some x).
      { apply (i_map _ _ I). exists j. repeat split; auto. }
      unfold id_taken in T. destruct (e_id e); [rewrite G in T|]; discriminate.
    + rewrite T1. cbn [fst snd]. split; [assumption|]. split; [apply CC; congruence|].
      split; [apply MM; congruence|reflexivity].
  - cbn [fst snd]. split; [|split; [apply CC; reflexivity|split; [apply MM; reflexivity|reflexivity]]].
    eapply inv_but_all; [eassumption|]. congruence.
Qed.

Lemma set_idx_good : forall s idx e, Inv all s -> clean s -> e_id e <> Some [] -> (0 <= idx)%Z ->
  good s (el_set_idx s idx e) (spec_step (length (heap s)) (M s) (ESetIdx idx e)).
Proof.
  intros s idx e I C He H0. unfold el_set_idx. cbn [spec_step].
  destruct (nth_error (root s) (Z.to_nat idx)) as [o|] eqn:E.
  - replace idx with (Z.of_nat (Z.to_nat idx)) by lia.
    apply (replace_good s (Z.to_nat idx) o); auto. apply key_at_spec; assumption.
  - apply nth_error_None in E. unfold el_replace, spec_replace. rewrite (used_taken s (e_id e) I C He).
    assert (LM : length (M s) = length (root s)) by (unfold M; apply map_length). rewrite LM.
    destruct (id_taken s (e_id e)); [unfold good; simpl; auto|].
    assert (P : py_pos (Z.of_nat (length (root s))) idx = None).
    { unfold py_pos. destruct (Z.ltb_spec idx 0); [lia|]. destruct (Z.leb_spec 0 idx); [|reflexivity].
      destruct (Z.ltb_spec idx (Z.of_nat (length (root s)))); [lia|reflexivity]. }
    rewrite P. unfold good. simpl. auto.
Qed.

Lemma set_key_op_good : forall s (k : pystr) e, Inv all s -> clean s -> k <> [] -> e_id e <> Some [] ->
  good s (el_set_key s k e) (spec_step (length (heap s)) (M s) (ESetKey k e)).
Proof.
  intros s k e I C Hk He. unfold el_set_key. cbn [spec_step]. rewrite position_k2i by assumption.
  destruct (position (M s) (Some k)) as [i|] eqn:E; simpl.
  - apply position_spec in E. destruct E as [m [E1 E2]]. apply nth_M in E1. destruct E1 as [o [E1 ->]].
    apply (replace_good s i o); auto. simpl in E2. rewrite id_look; [|apply (i_heap _ _ I); eapply nth_error_In; eassumption].
    rewrite E2. destruct k; [congruence|reflexivity].
  - unfold good. simpl. auto.
Qed.

(** Changing the ID of an unregistered object. *)
Lemma set_id_length : forall h o k, length (set_id h o k) = length h.
Proof. intros. unfold set_id. destruct (nth_error h o); [apply replace_nth_length|reflexivity]. Qed.
Lemma id_set_id : forall h o k x, (o < length h)%nat ->
  id_of (set_id h o k) x = if Nat.eqb x o then k else id_of h x.
Proof.
  intros h o k x H. unfold set_id, id_of. destruct (nth_error h o) as [e|] eqn:E.
  - rewrite nth_replace by assumption. destruct (Nat.eqb x o); reflexivity.
  - apply nth_error_None in E. lia.
Qed.
Lemma look_set_id : forall h o k x, (o < length h)%nat -> (x < length h)%nat ->
  look (set_id h o k) x = if Nat.eqb x o then mkEnt k (e_val (look h o)) (e_grp (look h o)) else look h x.
Proof.
  intros h o k x H Hx. unfold set_id.
  rewrite (nth_error_nth' h (mkEnt None 0 false)) by assumption. fold (look h o).
  pose proof (nth_replace _ h o (mkEnt k (e_val (look h o)) (e_grp (look h o))) x H) as N.
  unfold look at 1. destruct (Nat.eqb x o).
  - apply nth_error_nth. assumption.
  - rewrite (nth_error_nth' h (mkEnt None 0 false)) in N by assumption. apply nth_error_nth. assumption.
Qed.
Lemma inv_set_id : forall s o k, (o < length (heap s))%nat -> Inv (but o) s ->
  Inv (but o) (with_heap s (set_id (heap s) o k)).
Proof.
  intros s o k Ho I.
  assert (E : forall k' i x, keyed (set_id (heap s) o k) (root s) (but o) k' i x <-> keyed (heap s) (root s) (but o) k' i x).
  { intros k' i x. unfold keyed, but. rewrite id_set_id by assumption.
    destruct (Nat.eqb_spec x o); [tauto|]. tauto. }
  destruct I as [I1 I2 I3 I4 I5 I6 I7 I8]. split; cbn [with_heap heap root key_map key_to_idx idx_to_key]; try assumption.
  - intros x Hx. rewrite set_id_length. auto.
  - intros k' x. rewrite I6. split; intros [j K]; exists j; apply E; assumption.
  - intros k' z. rewrite I7. split; intros [j [x [Z1 K]]]; exists j, x; (split; [assumption|apply E; assumption]).
Qed.

Lemma remove_key_id : forall s i o, Inv all s -> clean s -> nth_error (root s) i = Some o ->
  (if truthy (id_of (heap s) o) then id_of (heap s) o else None) = id_of (heap s) o.
Proof.
  intros s i o I C Hi. destruct (truthy (id_of (heap s) o)) eqn:T; [reflexivity|].
  assert (H : id_of (heap s) o <> Some []).
  { rewrite id_look by (apply (i_heap _ _ I); eapply nth_error_In; eassumption).
    apply (C (o, look (heap s) o)). unfold M. apply in_map_iff. exists o. split; [reflexivity|].
    eapply nth_error_In; eassumption. }
  destruct (id_of (heap s) o) as [[|c k]|]; [exfalso; apply H; reflexivity|discriminate|reflexivity].
Qed.

Lemma set_id_good : forall s p v, Inv all s -> clean s -> covered (M s) (ESetId p v) ->
  good s (el_set_id s p v) (spec_step (length (heap s)) (M s) (ESetId p v)).
Proof.
  intros s p v I C [V1 [V2 V3]]. unfold el_set_id. cbn [spec_step].
  destruct (nth_error (root s) p) as [o|] eqn:E.
  2: { assert (E2 : nth_error (M s) p = None) by (unfold M; rewrite nth_error_map, E; reflexivity).
       rewrite E2. unfold good. simpl. auto. }
  assert (E2 : nth_error (M s) p = Some (o, look (heap s) o)) by (unfold M; rewrite nth_error_map, E; reflexivity).
  rewrite E2.
  assert (Ho : (o < length (heap s))%nat) by (apply (i_heap _ _ I); eapply nth_error_In; eassumption).
  assert (Hp : (p < length (root s))%nat) by (apply nth_error_Some; congruence).
  destruct (remove_key_at s p o I E) as [s1 [S1 [S2 [S3 S4]]]].
  rewrite (remove_key_id s p o I C E) in S1.
  set (s2 := with_heap s1 (set_id (heap s) o v)).
  assert (I2 : Inv (but o) s2).
  { unfold s2. rewrite <- S2. apply inv_set_id; [rewrite S2; assumption|assumption]. }
  assert (Hh : heap s2 = set_id (heap s) o v) by reflexivity.
  assert (Hr : root s2 = root s) by exact S3.
  assert (MM : forall s', heap s' = set_id (heap s) o v -> root s' = root s ->
     M s' = replace_nth (M s) p (o, mkEnt v (e_val (look (heap s) o)) (e_grp (look (heap s) o)))).
  { intros s' H1 H2. unfold M. rewrite H1, H2.
    apply nth_ext with (d := (O, mkEnt None 0 false)) (d' := (O, mkEnt None 0 false)).
    - rewrite replace_nth_length, !map_length. reflexivity.
    - rewrite map_length. intros j Hj.
      destruct (nth_error (root s) j) as [x|] eqn:Ej; [|apply nth_error_None in Ej; lia].
      assert (Hx : (x < length (heap s))%nat) by (apply (i_heap _ _ I); eapply nth_error_In; eassumption).
      rewrite (nth_error_nth (map _ (root s)) j (x := (x, look (set_id (heap s) o v) x)) (O, mkEnt None 0 false))
        by (rewrite nth_error_map, Ej; reflexivity).
      symmetry. apply nth_error_nth. rewrite nth_replace by (rewrite map_length; assumption).
      rewrite nth_error_map, Ej. simpl. rewrite look_set_id by assumption.
      destruct (Nat.eqb_spec j p).
      + subst. assert (x = o) by congruence. subst. rewrite Nat.eqb_refl. reflexivity.
      + destruct (Nat.eqb_spec x o); [|reflexivity]. subst. exfalso. apply n.
        pose proof (i_nodup _ _ I) as Hn. rewrite NoDup_nth_error in Hn. apply Hn; [assumption|congruence]. }
  assert (CC : forall s', heap s' = set_id (heap s) o v -> root s' = root s -> clean s').
  { intros s' H1 H2. eapply clean_M; [apply MM; assumption|]. intros m Hm.
    apply in_replace in Hm. destruct Hm as [->|Hm]; [exact V1|apply C; assumption]. }
  assert (Hid : id_of (heap s2) o = v) by (rewrite Hh, id_set_id, Nat.eqb_refl by assumption; reflexivity).
  (* both setters reach the same state *)
  assert (K : v <> None -> good s (set_key s2 v o) (replace_nth (M s) p (o, mkEnt v (e_val (look (heap s) o)) (e_grp (look (heap s) o))), None)).
  { intros Hv. rewrite <- Hid at 1. destruct (set_key_ok s2 o p) as [s3 [T1 [T2 [T3 T4]]]].
    - assumption.
    - rewrite Hr. assumption.
    - rewrite Hid. destruct v as [[|c v]|]; [exfalso; apply V1; reflexivity|reflexivity|exfalso; apply Hv; reflexivity].
    - rewrite Hid. destruct (dget key_eqb (key_map s2) v) as [x|] eqn:F; [|reflexivity].
      exfalso. apply (i_map _ _ I2) in F. destruct F as [j [A [B [D _]]]]. rewrite Hr in A.
      unfold but in B. rewrite Hh, id_set_id in D by assumption. destruct (Nat.eqb_spec x o); [contradiction|].
      assert (Hx : (x < length (heap s))%nat) by (apply (i_heap _ _ I); eapply nth_error_In; eassumption).
      apply (V2 j (x, look (heap s) x)).
      + unfold M. rewrite nth_error_map, A. reflexivity.
      + intros ->. congruence.
      + assumption.
      + simpl. rewrite <- id_look by assumption. assumption.
    - rewrite T1. split; [assumption|]. split; [apply CC; cbn [fst]; congruence|].
      split; [apply MM; cbn [fst]; congruence|reflexivity]. }
  destruct (is_group (heap s) o) eqn:G.
  - rewrite remove_key_heap, S1. unfold andthen. cbn [fst snd]. apply K.
    rewrite group_look in G by assumption. apply (V3 _ E2). assumption.
  - destruct v as [v|].
    + rewrite S1. unfold andthen. cbn [fst snd]. rewrite S2. apply K. discriminate.
    + rewrite S1. unfold andthen. cbn [fst snd]. rewrite S2.
      split; [|split; [apply CC; auto|split; [apply MM; auto|reflexivity]]].
      cbn [fst]. eapply inv_but_all; [exact I2|]. change (truthy (id_of (heap s2) o) = false). rewrite Hid. reflexivity.
Qed.

Lemma inv_empty : forall h, Inv all (mkES h [] [] [] []).
Proof.
  intros h. split; cbn [heap root key_map key_to_idx idx_to_key].
  - constructor.
  - intros o [].
  - constructor.
  - constructor.
  - constructor.
  - intros k o. split; [discriminate|]. intros [i [K _]]. destruct i; discriminate.
  - intros k z. split; [discriminate|]. intros [i [x [_ [K _]]]]. destruct i; discriminate.
  - intros k z. split; discriminate.
Qed.

Lemma step_good : forall s o, Inv all s -> clean s -> covered (M s) o ->
  good s (el_step s o) (spec_step (length (heap s)) (M s) o).
Proof.
  intros s o I C H.
  assert (LM : length (M s) = length (root s)) by (unfold M; apply map_length).
  destruct o; simpl in H.
  - simpl. rewrite LM. apply insert_good; auto. left. lia.
  - destruct H as [H1 H2]. simpl. apply insert_good; auto. rewrite LM in H2. assumption.
  - apply del_idx_good; assumption.
  - apply del_key_good; assumption.
  - contradiction.
  - destruct H as [H1 H2]. apply set_idx_good; assumption.
  - destruct H as [H1 H2]. apply set_key_op_good; assumption.
  - apply set_id_good; assumption.
  - simpl. unfold good. simpl. split; [|split; [|split; reflexivity]].
    + apply inv_empty.
    + intros m [].
Qed.

Lemma reachable_inv : forall s, reachable s -> Inv all s /\ clean s.
Proof.
  intros s H. induction H as [|s o H IH Hc].
  - split.
    + apply inv_empty.
    + intros m [].
  - destruct IH as [I C]. rewrite members_map in Hc by apply (i_heap _ _ I).
    destruct (step_good s o I C Hc) as [G1 [G2 _]]. auto.
Qed.

Lemma members_M : forall s, Inv all s -> members s = M s.
Proof. intros s I. apply members_map. apply (i_heap _ _ I). Qed.

Lemma reachable_refines : forall s o, reachable s -> covered (members s) o ->
  (members (fst (el_step s o)), snd (el_step s o)) = spec_step (length (heap s)) (members s) o.
Proof.
  intros s o H Hc. destruct (reachable_inv s H) as [I C]. rewrite (members_M s I) in *.
  destruct (step_good s o I C Hc) as [G1 [G2 [G3 G4]]]. rewrite members_M by assumption.
  rewrite G3, G4. destruct (spec_step _ _ _); reflexivity.
Qed.

Lemma inv_consistent : forall s, Inv all s -> clean s -> consistent s.
Proof.
  intros s I C.
  assert (L : forall o, In o (root s) -> (o < length (heap s))%nat) by apply (i_heap _ _ I).
  split; rewrite ?(members_M s I).
  - intros k o Hk. unfold el_get_key. split.
    + destruct (dget key_eqb (key_map s) (Some k)) as [x|] eqn:E; [|discriminate].
      intros H. inversion H; subst. apply (i_map _ _ I) in E. destruct E as [i [E1 [_ [E2 _]]]].
      apply nth_error_In in E1. exists (look (heap s) o). split.
      * unfold M. apply in_map_iff. eauto.
      * rewrite <- id_look; auto.
    + intros [e [H1 H2]]. unfold M in H1. apply in_map_iff in H1. destruct H1 as [x [E H1]]. inversion E; subst.
      assert (K := H1). apply In_nth_error in K. destruct K as [i K].
      assert (G : dget key_eqb (key_map s) (Some k) = Some o).
      { apply (i_map _ _ I). exists i. repeat split; auto.
        - rewrite id_look by auto. assumption.
        - destruct k; [congruence|reflexivity]. }
      rewrite G. reflexivity.
  - unfold M. rewrite map_map. simpl. rewrite map_id. apply (i_nodup _ _ I).
  - intros i j m n k H1 H2 H3 H4.
    assert (Hk : k <> []). { intros ->. apply (C m); [eapply nth_error_In; eassumption|assumption]. }
    apply nth_M in H1. destruct H1 as [x [H1 ->]].
    apply nth_M in H2. destruct H2 as [y [H2 ->]]. simpl in H3, H4.
    assert (G : forall i x, nth_error (root s) i = Some x -> e_id (look (heap s) x) = Some k ->
       dget key_eqb (key_to_idx s) (Some k) = Some (Z.of_nat i)).
    { intros i' x' A B. apply (i_idx _ _ I). exists i', x'. split; [reflexivity|]. repeat split; auto.
      - rewrite id_look; [assumption|]. apply L. eapply nth_error_In; eassumption.
      - destruct k; [congruence|reflexivity]. }
    pose proof (G _ _ H1 H3). pose proof (G _ _ H2 H4). assert (Z.of_nat i = Z.of_nat j) by congruence. lia.
  - intros k i Hk. rewrite (i_idx _ _ I). split.
    + intros [j [o [E1 [E2 [_ [E3 _]]]]]]. assert (j = i) by lia. subst. exists (o, look (heap s) o). split.
      * unfold M. rewrite nth_error_map, E2. reflexivity.
      * simpl. rewrite <- id_look; [assumption|]. apply L. eapply nth_error_In; eassumption.
    + intros [m [E1 E2]]. apply nth_M in E1. destruct E1 as [o [E1 ->]]. exists i, o. split; [reflexivity|].
      simpl in E2. repeat split; auto.
      * rewrite id_look; [assumption|]. apply L. eapply nth_error_In; eassumption.
      * destruct k; [congruence|reflexivity].
  - intros k H. destruct (dget key_eqb (key_map s) k) as [o|] eqn:E; [|congruence].
    apply (i_map _ _ I) in E. destruct E as [i [E1 [_ [E2 _]]]]. apply nth_error_In in E1.
    exists (o, look (heap s) o). split.
    + unfold M. apply in_map_iff. eauto.
    + simpl. rewrite <- id_look; auto.
Qed.

Lemma reachable_consistent : forall s, reachable s -> consistent s.
Proof. intros s H. destruct (reachable_inv s H). apply inv_consistent; assumption. Qed.
