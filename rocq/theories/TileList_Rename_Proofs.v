(** Proofs about renaming listed tiles (C17). *)
From Coq Require Import ZArith NArith List Bool Lia Permutation.
From Verif Require Import Common Dict Spatial_Model Spatial_Spec Spatial_Proofs
  EntityList_Proofs EntityList_More_Proofs TileList_Model TileList_Spec TileList_Proofs.
Import ListNotations.

(** *** the list alone, whatever the history *)
Definition sound (s : tlist) : Prop :=
  NoDup (troot s) /\ forall o, In o (troot s) -> (o < length (th s))%nat.

Lemma sound_new : forall s t, sound s -> ~ In (length (th s)) (troot s) /\
  forall o, In o (troot s) -> (o < length (th s ++ [t]))%nat.
Proof.
  intros s t [_ B]. split.
  - intros H. apply B in H. lia.
  - intros o H. apply B in H. rewrite app_length. simpl. lia.
Qed.

Lemma keep_pos_incl : forall A (f : Z -> bool) (l : list A) n x, In x (keep_pos f n l) -> In x l.
Proof.
  induction l as [|y l IH]; intros n x H; [assumption|]. cbn [keep_pos] in H.
  destruct (f n); [destruct H as [->|H]; [left; reflexivity|]|]; right; eapply IH; eassumption.
Qed.
Lemma keep_pos_unique : forall A (f : Z -> bool) (l : list A) n, NoDup l -> NoDup (keep_pos f n l).
Proof.
  induction l as [|y l IH]; intros n H; [constructor|]. inversion H; subst. cbn [keep_pos].
  destruct (f n); [constructor; [intros G; apply keep_pos_incl in G; contradiction|]|]; apply IH; assumption.
Qed.

Lemma sound_insert : forall s idx t merge, sound s -> sound (tl_insert s idx t merge).
Proof.
  intros s idx t merge H. destruct (sound_new s t H) as [N B]. destruct H as [D _]. unfold tl_insert.
  destruct (if merge then _ else _).
  - split; assumption.
  - split; cbn [th troot].
    + eapply Permutation_NoDup; [apply Permutation_sym, py_insert_perm|]. constructor; assumption.
    + intros o Ho. apply py_insert_in in Ho. destruct Ho as [->|Ho]; [|auto]. rewrite app_length. simpl. lia.
Qed.

Lemma sound_step : forall s o, sound s -> sound (fst (tl_step s o)).
Proof.
  intros s o H. destruct o as [t m|idx t m|idx|a b c|idx t| |p nm]; cbn [tl_step fst].
  - apply sound_insert, H.
  - apply sound_insert, H.
  - unfold tl_del. destruct (py_pos _ idx) as [i|]; [|exact H]. destruct H as [D B].
    split; cbn [fst th troot]; [apply remove_nth_nodup, D|]. intros o Ho. apply B. eapply remove_nth_in; eassumption.
  - unfold tl_del_slice. destruct (match c with Some 0%Z => true | _ => false end); [exact H|].
    destruct (slice_indices _ _ _ _) as [[st sp] se]. destruct H as [D B]. split; cbn [fst th troot].
    + apply keep_pos_unique, D.
    + intros o Ho. apply B. eapply keep_pos_incl; eassumption.
  - unfold tl_set. destruct (py_pos _ idx) as [i|]; [|exact H]. destruct (sound_new s t H) as [N B].
    destruct H as [D _]. split; cbn [fst th troot]; [apply nodup_replace; assumption|].
    intros o Ho. apply in_replace in Ho. destruct Ho as [->|Ho]; [|auto]. rewrite app_length. simpl. lia.
  - split; cbn [tl_clear th troot]; [constructor|intros o []].
  - unfold tl_rename. destruct (nth_error (troot s) p) as [o|]; [|exact H]. destruct H as [D B].
    split; cbn [fst th troot]; [assumption|]. intros x Hx. rewrite replace_nth_length. auto.
Qed.
Lemma sound_run : forall ops, sound (run_tiles ops).
Proof.
  intros ops. unfold run_tiles.
  assert (G : forall s, sound s -> sound (fold_left (fun s o => fst (tl_step s o)) ops s)).
  { induction ops as [|o ops IH]; intros s H; [assumption|]. apply IH, sound_step, H. }
  apply G. split; [constructor|intros o []].
Qed.

Lemma rename_run : forall ops p nm, let s := run_tiles ops in
  plain_step (tiles s) (TRename p nm) (tiles (fst (tl_step s (TRename p nm)))) (snd (tl_step s (TRename p nm))).
Proof. intros ops p nm. destruct (sound_run ops) as [D B]. apply rename_plain; assumption. Qed.

(** *** the index, when equal tiles were never listed together *)
Definition exact_index (s : tlist) : Prop := TInv s /\ Permutation (sm_all (tmap s)) (troot s).

Lemma injective_on : forall A B (f : A -> B) l x y, NoDup (map f l) -> In x l -> In y l -> f x = f y -> x = y.
Proof.
  intros A B f. induction l as [|z l IH]; intros x y N Hx Hy E; [contradiction|]. inversion N; subst.
  destruct Hx as [->|Hx]; destruct Hy as [->|Hy]; auto.
  - exfalso. apply H1. rewrite E. apply in_map, Hy.
  - exfalso. apply H1. rewrite <- E. apply in_map, Hx.
Qed.

Lemma same_objects : forall s l, TInv s -> NoDup (tiles s) -> NoDup (map (tval (th s)) l) ->
  incl (sm_all (tmap s)) l -> incl (troot s) l -> exact_index s.
Proof.
  intros s l T N L I1 I2. split; [assumption|]. destruct T as [Hr [bg [Hb [R P]]]].
  assert (Q : Permutation (map (tval (th s)) (sm_all (tmap s))) (map (tval (th s)) (troot s))).
  { rewrite (Permutation_map _ (mrep_all _ _ _ R)). exact P. }
  unfold tiles in N. apply NoDup_Permutation.
  - apply (NoDup_map_inv (tval (th s))). eapply Permutation_NoDup; [apply Permutation_sym; exact Q|exact N].
  - apply (NoDup_map_inv (tval (th s))), N.
  - intros x. split; intros Hx.
    + assert (H : In (tval (th s) x) (map (tval (th s)) (troot s))) by (eapply Permutation_in; [exact Q|apply in_map, Hx]).
      apply in_map_iff in H. destruct H as [y [E Hy]].
      rewrite (injective_on _ _ _ l x y L (I1 x Hx) (I2 y Hy) (eq_sym E)). assumption.
    + assert (H : In (tval (th s) x) (map (tval (th s)) (sm_all (tmap s))))
        by (eapply Permutation_in; [apply Permutation_sym; exact Q|apply in_map, Hx]).
      apply in_map_iff in H. destruct H as [y [E Hy]].
      rewrite (injective_on _ _ _ l x y L (I2 x Hx) (I1 y Hy) (eq_sym E)). assumption.
Qed.

Lemma map_remove_sub : forall h m bg y, MRep h m bg ->
  MRep h (map_remove h m y) (drop_first (oeq h) bg y) /\ incl (sm_all (map_remove h m y)) (sm_all m).
Proof.
  intros h m bg y R.
  assert (R' : MRep h (map_remove h m y) (drop_first (oeq h) bg y)) by (apply remove_rep; [reflexivity|apply oeq_box|assumption]).
  split; [assumption|]. intros x Hx.
  apply (Permutation_in _ (Permutation_sym (mrep_all _ _ _ R))). eapply drop_in.
  apply (Permutation_in _ (mrep_all _ _ _ R')). eassumption.
Qed.
Lemma removes_sub : forall h (at_ : Z -> nat) r m bg, MRep h m bg ->
  incl (sm_all (fold_left (fun m i => map_remove h m (at_ i)) r m)) (sm_all m).
Proof.
  intros h at_. induction r as [|i r IH]; intros m bg R; cbn [fold_left]; [apply incl_refl|].
  destruct (map_remove_sub h m bg (at_ i) R) as [R' S]. eapply incl_tran; [eapply IH; exact R'|exact S].
Qed.

Lemma exact_insert : forall s idx t, exact_index s -> NoDup (tiles s) -> NoDup (tiles (tl_insert s idx t true)) ->
  exact_index (tl_insert s idx t true).
Proof.
  intros s idx t [T P] N N'. pose proof T as [Hr [bg [Hb [R Q]]]].
  destruct (insert_tgood s idx t true T) as [T' _].
  apply (same_objects _ (troot (tl_insert s idx t true)) T' N' N'); [|apply incl_refl].
  unfold tl_insert. set (h := th s ++ [t]). set (o := length (th s)).
  assert (R' : MRep h (tmap s) bg) by (eapply mrep_heap; [|exact R]; intros x Hx; symmetry; apply tval_app; auto).
  destruct (merge_target _ _ _ _ _ _ _); cbn [troot tmap]; intros x Hx.
  - apply (Permutation_in _ P). assumption.
  - apply py_insert_in. assert (R2 : MRep h (map_add h (tmap s) o) (bg ++ [o])) by (apply add_rep; assumption).
    apply (Permutation_in _ (mrep_all _ _ _ R2)) in Hx. apply in_app_or in Hx. destruct Hx as [Hx|[<-|[]]]; [right|left; reflexivity].
    apply (Permutation_in _ P), (Permutation_in _ (Permutation_sym (mrep_all _ _ _ R))), Hx.
Qed.

Lemma exact_step : forall s o, merging_op o = true -> exact_index s -> NoDup (tiles s) -> NoDup (tiles (fst (tl_step s o))) ->
  exact_index (fst (tl_step s o)).
Proof.
  intros s o M X N N'.
  destruct o as [t m|idx t m|idx|a b c|idx t| |p nm]; cbn [merging_op] in M; subst; try discriminate.
  - apply exact_insert; assumption.
  - apply exact_insert; assumption.
  - destruct X as [T P]. pose proof T as [Hr [bg [Hb [R Q]]]]. destruct (del_tgood s idx T) as [T' _].
    assert (F : th (fst (tl_step s (TDel idx))) = th s) by (cbn [tl_step]; unfold tl_del; destruct (py_pos _ idx); reflexivity).
    apply (same_objects _ (troot s) T' N'); [rewrite F; exact N| |]; cbn [tl_step]; unfold tl_del;
      destruct (py_pos _ idx) as [i|]; cbn [fst troot tmap]; try apply incl_refl;
      try (intros x Hx; apply (Permutation_in _ P); exact Hx).
    + eapply incl_tran; [apply (map_remove_sub _ _ bg); exact R|]. intros x Hx. apply (Permutation_in _ P), Hx.
    + intros x Hx. eapply remove_nth_in; eassumption.
  - destruct X as [T P]. pose proof T as [Hr [bg [Hb [R Q]]]]. destruct (slice_tgood s a b c T) as [T' _].
    revert T' N'. cbn [tl_step]. unfold tl_del_slice.
    destruct (match c with Some 0%Z => true | _ => false end); [intros; split; assumption|].
    destruct (slice_indices _ _ _ _) as [[st sp] se]. intros T' N'.
    apply (same_objects _ (troot s) T' N' N); cbn [fst troot tmap].
    + eapply incl_tran; [eapply (removes_sub (th s) (fun i => nth (Z.to_nat i) (troot s) O)); exact R|].
      intros x Hx. apply (Permutation_in _ P), Hx.
    + intros x Hx. eapply keep_pos_incl; eassumption.
  - split; [apply (clear_tgood s), X|constructor].
Qed.

Lemma exact_run : forall ops, forallb merging_op ops = true -> exact_index (run_tiles ops).
Proof.
  intros ops. induction ops as [|o ops IH] using rev_ind; intros H.
  - split; [apply inv_empty_tiles|constructor].
  - pose proof (merging_nodup _ H) as N'. rewrite forallb_app in H. apply andb_true_iff in H. destruct H as [H1 H2].
    cbn [forallb] in H2. rewrite andb_true_r in H2. unfold run_tiles in *. rewrite fold_left_app in *. cbn [fold_left] in *.
    apply exact_step; [assumption|auto|apply merging_nodup; assumption|assumption].
Qed.

Lemma rename_tval : forall h o t x, (o < length h)%nat -> tval (replace_nth h o t) x = if Nat.eqb x o then t else tval h x.
Proof.
  intros h o t x Ho. unfold tval. destruct (Nat.lt_ge_cases x (length h)) as [G|G].
  - assert (N : nth_error (replace_nth h o t) x = Some (if Nat.eqb x o then t else nth x h no_tile)).
    { rewrite nth_replace by assumption. destruct (x =? o)%nat; [reflexivity|]. apply nth_error_nth'. assumption. }
    apply (nth_error_nth _ _ no_tile) in N. assumption.
  - rewrite !nth_overflow; [|assumption|rewrite replace_nth_length; assumption].
    destruct (Nat.eqb_spec x o); [lia|reflexivity].
Qed.

Lemma exact_rename : forall s p nm, exact_index s -> exact_index (fst (tl_step s (TRename p nm))).
Proof.
  intros s p nm X. cbn [tl_step]. unfold tl_rename. destruct (nth_error (troot s) p) as [o|] eqn:E; [|exact X].
  destruct X as [[Hr [bg [Hb [R Q]]]] P]. cbn [fst].
  assert (Ho : (o < length (th s))%nat) by (apply Hr; eapply nth_error_In; eassumption).
  set (t := mkTile nm (t_x (tval (th s) o)) (t_y (tval (th s) o))). split; [|exact P].
  split; cbn [th troot tmap].
  - intros x Hx. rewrite replace_nth_length. auto.
  - exists bg. split; [intros x Hx; rewrite replace_nth_length; auto|]. split.
    + destruct R as [R1 R2]. split; [assumption|]. intros c. rewrite R2. f_equal. apply filter_ext_on. intros x Hx.
      assert (C : cell_of (tval (replace_nth (th s) o t) x) = cell_of (tval (th s) x))
        by (rewrite rename_tval by assumption; destruct (Nat.eqb_spec x o) as [->|]; reflexivity).
      destruct (coversb 8000 1 (obox (th s)) c x) eqn:A; destruct (coversb 8000 1 (obox (replace_nth (th s) o t)) c x) eqn:B; try reflexivity.
      * apply covers_cell in A. rewrite <- C in A. apply covers_cell in A. congruence.
      * apply covers_cell in B. rewrite C in B. apply covers_cell in B. congruence.
    + unfold tiles. cbn [th troot]. apply Permutation_map. rewrite <- (mrep_all _ _ _ R). exact P.
Qed.

Lemma renames_indexed : forall ops rs, forallb merging_op ops = true -> forallb is_rename rs = true ->
  let s := run_tiles (ops ++ rs) in
  Permutation (indexed s) (tiles s) /\
  forall c t, (In t (match cell_get (tmap s) c with Some l => map (tval (th s)) l | None => [] end) <->
               In t (tiles s) /\ cell_of t = c).
Proof.
  intros ops rs H1 H2. cbv zeta. apply tinv_index. unfold run_tiles. rewrite fold_left_app. fold (run_tiles ops).
  assert (G : forall s, exact_index s -> exact_index (fold_left (fun s o => fst (tl_step s o)) rs s)).
  { induction rs as [|r rs IH]; intros s X; [assumption|]. cbn [forallb] in H2. apply andb_true_iff in H2. destruct H2 as [A B].
    cbn [fold_left]. apply IH; [assumption|]. destruct r; try discriminate. apply exact_rename, X. }
  apply G, exact_run, H1.
Qed.
