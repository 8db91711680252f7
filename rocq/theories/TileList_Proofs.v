(** Proofs about the tile list (C17). *)
From Coq Require Import ZArith NArith List Bool Lia Permutation FinFun.
From Verif Require Import Common Dict Spatial_Model Spatial_Spec Spatial_Proofs
  EntityList_Proofs EntityList_More_Proofs TileList_Model TileList_Spec.
Import ListNotations.

Lemma tile_eqb_eq : forall a b, tile_eqb a b = true <-> a = b.
Proof.
  intros [n1 x1 y1] [n2 x2 y2]. unfold tile_eqb. simpl.
  rewrite !andb_true_iff, pystr_eqb_eq, !Z.eqb_eq. split; [intros [-> [-> ->]]; reflexivity|].
  intros E. inversion E. auto.
Qed.
Lemma tile_dec : forall a b : tile, {a = b} + {a <> b}.
Proof.
  intros. destruct (tile_eqb a b) eqn:E; [left; apply tile_eqb_eq; assumption|].
  right. intros F. apply tile_eqb_eq in F. congruence.
Qed.
Lemma oeq_spec : forall h a b, oeq h a b = true <-> tval h a = tval h b.
Proof. intros. apply tile_eqb_eq. Qed.
Lemma oeq_box : forall h a b, oeq h a b = true -> obox h a = obox h b.
Proof. intros h a b H. apply oeq_spec in H. unfold obox. rewrite H. reflexivity. Qed.
Lemma oeq_refl : forall h a, oeq h a a = true.
Proof. intros. apply oeq_spec. reflexivity. Qed.

(** A tile occupies exactly one cell. *)
Lemma tile_cell : forall t c, (exists b, tile_box t = Some b /\ touches 8000 1 b c) <-> cell_of t = c.
Proof.
  intros [n x y] [i j]. unfold tile_box, cell_of, touches. cbn [t_x t_y fst snd].
  pose proof (Z.mul_div_le x 8 ltac:(lia)). pose proof (Z.mul_succ_div_gt x 8 ltac:(lia)).
  pose proof (Z.mul_div_le y 8 ltac:(lia)). pose proof (Z.mul_succ_div_gt y 8 ltac:(lia)).
  split.
  - intros [b [E T]]. inversion E; subst b; cbn [bl bt br bb] in T. f_equal; lia.
  - intros E. inversion E; subst. eexists. split; [reflexivity|]. cbn [bl bt br bb]. lia.
Qed.
Lemma covers_cell : forall h c o, coversb 8000 1 (obox h) c o = true <-> cell_of (tval h o) = c.
Proof. intros. rewrite coversb_spec by reflexivity. unfold item_touches, obox. apply tile_cell. Qed.

Definition MRep (h : list tile) := Rep 8000 1 (obox h).

Lemma filter_ext_on : forall A (f g : A -> bool) l, (forall x, In x l -> f x = g x) -> filter f l = filter g l.
Proof.
  intros A f g. induction l as [|x l IH]; simpl; intros H; [reflexivity|].
  rewrite (H x) by auto. rewrite IH by auto. reflexivity.
Qed.
Lemma mrep_heap : forall h h' m s, (forall o, In o s -> tval h o = tval h' o) -> MRep h m s -> MRep h' m s.
Proof.
  intros h h' m s H [R1 R2]. split; [assumption|]. intros c. rewrite R2. f_equal. apply filter_ext_on.
  intros o Ho. destruct (coversb 8000 1 (obox h) c o) eqn:E; destruct (coversb 8000 1 (obox h') c o) eqn:F; try reflexivity.
  - apply covers_cell in E. rewrite (H o Ho) in E. apply covers_cell in E. congruence.
  - apply covers_cell in F. rewrite <- (H o Ho) in F. apply covers_cell in F. congruence.
Qed.

(** *** all items of the map *)
Lemma cells_partition : forall A (cell : A -> zpt) keys s, NoDup keys ->
  (forall x, In x s -> In (cell x) keys) ->
  Permutation (flat_map (fun c => filter (fun x => if cell_dec (cell x) c then true else false) s) keys) s.
Proof.
  intros A cell keys s Hn. revert s. induction Hn as [|k keys Hk Hn IH]; intros s Hs; simpl.
  - destruct s as [|x s]; [constructor|]. exfalso. apply (Hs x). left. reflexivity.
  - set (inb := fun x => if cell_dec (cell x) k then true else false).
    assert (E : flat_map (fun c => filter (fun x => if cell_dec (cell x) c then true else false) s) keys =
                flat_map (fun c => filter (fun x => if cell_dec (cell x) c then true else false) (filter (fun x => negb (inb x)) s)) keys).
    { clear IH Hs Hn. induction keys as [|c keys IHk]; simpl; [reflexivity|].
      rewrite IHk by (intros F; apply Hk; right; assumption). f_equal.
      clear IHk. induction s as [|x s IHs]; simpl; [reflexivity|].
      unfold inb at 1. destruct (cell_dec (cell x) k) as [E1|E1]; simpl.
      - destruct (cell_dec (cell x) c) as [E2|E2]; [|assumption].
        exfalso. apply Hk. left. congruence.
      - destruct (cell_dec (cell x) c); rewrite IHs; reflexivity. }
    rewrite E, IH.
    + clear. induction s as [|x s IHs]; simpl; [constructor|].
      unfold inb in *. destruct (cell_dec (cell x) k); simpl.
      * constructor. assumption.
      * apply Permutation_sym. apply Permutation_cons_app. apply Permutation_sym. assumption.
    + intros x Hx. apply filter_In in Hx. destruct Hx as [Hx1 Hx2]. destruct (Hs x Hx1) as [F|F]; [|assumption].
      exfalso. unfold inb in Hx2. destruct (cell_dec (cell x) k); [discriminate|congruence].
Qed.

Lemma sm_all_content : forall (m : smap nat), NoDup (map fst m) ->
  sm_all m = flat_map (fun c => match cell_get m c with Some l => l | None => [] end) (map fst m).
Proof.
  assert (G : forall (m pre : smap nat), NoDup (map fst (pre ++ m)) ->
    flat_map snd m = flat_map (fun c => match cell_get (pre ++ m) c with Some l => l | None => [] end) (map fst m)).
  { induction m as [|[k l] m IH]; intros pre H; simpl; [reflexivity|]. f_equal.
    - assert (Hk : ~ In k (map fst pre)).
      { rewrite map_app in H. simpl in H. apply NoDup_remove_2 in H. intros F. apply H. apply in_or_app. auto. }
      clear IH H. induction pre as [|[k' l'] pre IHp]; simpl in *.
      + rewrite cell_eqb_refl. reflexivity.
      + destruct (cell_eqb k' k) eqn:E; [apply cell_eqb_eq in E; tauto|]. apply IHp. tauto.
    - specialize (IH (pre ++ [(k, l)])). rewrite <- app_assoc in IH. apply IH. assumption. }
  intros m H. apply (G m [] H).
Qed.

Lemma mrep_all : forall h m s, MRep h m s -> Permutation (sm_all m) s.
Proof.
  intros h m s R. assert (R' := R). destruct R' as [R1 R2]. rewrite sm_all_content by assumption.
  assert (E : forall c, (match cell_get m c with Some l => l | None => [] end) =
     filter (fun x => if cell_dec (cell_of (tval h x)) c then true else false) s).
  { intros c. rewrite (rep_content _ _ _ _ _ c R). apply filter_ext. intros x.
    destruct (cell_dec (cell_of (tval h x)) c) as [F|F].
    - apply covers_cell. assumption.
    - destruct (coversb 8000 1 (obox h) c x) eqn:G; [|reflexivity]. apply covers_cell in G. contradiction. }
  rewrite (flat_map_ext _ _ E). apply cells_partition; [assumption|].
  intros x Hx. destruct (in_dec cell_dec (cell_of (tval h x)) (map fst m)) as [I|I]; [assumption|].
  exfalso. apply get_none in I. specialize (E (cell_of (tval h x))). rewrite I in E.
  assert (In x []); [|contradiction]. rewrite E. apply filter_In. split; [assumption|].
  destruct (cell_dec (cell_of (tval h x)) (cell_of (tval h x))); congruence.
Qed.

(** *** the invariant *)
Definition TInv (s : tlist) : Prop :=
  (forall o, In o (troot s) -> (o < length (th s))%nat) /\
  exists bagl, (forall o, In o bagl -> (o < length (th s))%nat) /\
    MRep (th s) (tmap s) bagl /\ Permutation (map (tval (th s)) bagl) (tiles s).

Lemma tval_app : forall h t o, (o < length h)%nat -> tval (h ++ [t]) o = tval h o.
Proof. intros. unfold tval. apply app_nth1. assumption. Qed.
Lemma tval_new : forall h t, tval (h ++ [t]) (length h) = t.
Proof. intros. unfold tval. rewrite app_nth2, Nat.sub_diag by lia. reflexivity. Qed.
Lemma map_tval_app : forall h t l, (forall o, In o l -> (o < length h)%nat) ->
  map (tval (h ++ [t])) l = map (tval h) l.
Proof. intros. apply map_ext_in. intros o Ho. apply tval_app. auto. Qed.

Lemma inv_empty_tiles : forall h, TInv (empty_tiles h).
Proof.
  intros h. split; [intros o []|]. exists []. split; [intros o []|]. split; [|constructor].
  split; [constructor|]. intros c. reflexivity.
Qed.

Lemma py_insert_split : forall A (l : list A) idx, exists i, (i <= length l)%nat /\
  forall x, py_insert l idx x = firstn i l ++ x :: skipn i l.
Proof.
  intros A l idx. unfold py_insert.
  exists (Z.to_nat (if (idx <? 0)%Z then Z.max 0 (idx + Z.of_nat (length l)) else Z.min idx (Z.of_nat (length l)))).
  split; [|reflexivity]. destruct (Z.ltb_spec idx 0); lia.
Qed.
Lemma py_insert_map : forall A B (f : A -> B) l idx x, map f (py_insert l idx x) = py_insert (map f l) idx (f x).
Proof. intros. unfold py_insert. rewrite map_length, map_insert. reflexivity. Qed.
Lemma py_insert_perm : forall A (l : list A) idx x, Permutation (py_insert l idx x) (x :: l).
Proof.
  intros. destruct (py_insert_split A l idx) as [i [_ H]]. rewrite H.
  apply Permutation_sym. rewrite <- (firstn_skipn i l) at 1. apply Permutation_middle.
Qed.
Lemma py_insert_in : forall A (l : list A) idx x y, In y (py_insert l idx x) <-> y = x \/ In y l.
Proof. intros. destruct (py_insert_split A l idx) as [i [_ H]]. rewrite H. apply in_insert. Qed.

Lemma drop_perm : forall h s o, In (tval h o) (map (tval h) s) ->
  Permutation (map (tval h) s) (tval h o :: map (tval h) (drop_first (oeq h) s o)).
Proof.
  intros h s o. induction s as [|x s IH]; simpl; [contradiction|]. intros H.
  destruct (oeq h x o) eqn:E.
  - apply oeq_spec in E. rewrite E. apply Permutation_refl.
  - simpl. destruct H as [H|H]; [apply oeq_spec in H; congruence|].
    rewrite (IH H) at 1. apply perm_swap.
Qed.
Lemma drop_in : forall h s o x, In x (drop_first (oeq h) s o) -> In x s.
Proof.
  intros h s o x. induction s as [|y s IH]; simpl; [auto|].
  destruct (oeq h y o); simpl; intuition.
Qed.

Lemma merge_target_spec : forall h m s o, MRep h m s ->
  (merge_target 8000 1 (obox h) (oeq h) (oeq h) m o <> None <-> In (tval h o) (map (tval h) s)).
Proof.
  intros h m s o R. unfold merge_target. unfold obox at 1. unfold tile_box.
  set (b := mkZ _ _ _ _).
  unfold get_in_aabb. rewrite collect_spec. cbn [limited].
  set (str := flat_map _ _).
  assert (Hs : forall x, In x str -> In x s).
  { intros x Hx. unfold str in Hx. apply in_flat_map in Hx. destruct Hx as [c [_ Hx]]. apply filter_In in Hx.
    unfold content in Hx. rewrite (rep_content _ _ _ _ _ c R) in Hx. destruct Hx as [Hx _]. apply filter_In in Hx. tauto. }
  split.
  - destruct (find (fun x => oeq h x o) (fresh (oeq h) [] str)) as [x|] eqn:E; [|congruence]. intros _.
    apply find_some in E. destruct E as [E1 E2]. apply fresh_in in E1. apply oeq_spec in E2. rewrite <- E2.
    apply in_map. auto.
  - intros H. apply in_map_iff in H. destruct H as [x [E Hx]].
    assert (X : In x str).
    { unfold str. apply in_flat_map. exists (cell_of (tval h o)). split.
      - apply cells_spec; [reflexivity|]. destruct (proj2 (tile_cell (tval h o) _) eq_refl) as [b' [B1 B2]].
        unfold tile_box in B1. inversion B1; subst b'. exact B2.
      - apply filter_In. split.
        + unfold content. rewrite (rep_content _ _ _ _ _ _ R). apply filter_In. split; [assumption|].
          apply covers_cell. congruence.
        + unfold overlaps_item, obox, tile_box. rewrite E. unfold zoverlaps, shift_box, b. cbn [bl bt br bb fst snd].
          rewrite !andb_true_iff, !Z.ltb_lt. lia. }
    destruct (fresh_complete (oeq h) (oeq_refl h) str [] x X) as [y [Y1 Y2]]. simpl in Y1.
    destruct (find (fun x => oeq h x o) (fresh (oeq h) [] str)) as [z|] eqn:F; [congruence|].
    exfalso. apply (find_none _ _ F) in Y1. apply oeq_spec in Y2. assert (oeq h y o = true); [|congruence].
    apply oeq_spec. congruence.
Qed.

(** A step is good when it keeps the invariant and acts as on a plain list. *)
Definition tgood (s : tlist) (o : top) : Prop :=
  TInv (fst (tl_step s o)) /\
  plain_step (tiles s) o (tiles (fst (tl_step s o))) (snd (tl_step s o)).

Lemma insert_tgood : forall s idx t merge, TInv s ->
  TInv (tl_insert s idx t merge) /\ plain_insert (tiles s) idx t merge (tiles (tl_insert s idx t merge)).
Proof.
  intros s idx t merge [Hr [bg [Hb [R P]]]]. unfold tl_insert.
  set (h := th s ++ [t]). set (o := length (th s)).
  assert (R' : MRep h (tmap s) bg).
  { eapply mrep_heap; [|exact R]. intros x Hx. symmetry. apply tval_app. auto. }
  assert (Eb : map (tval h) bg = map (tval (th s)) bg) by (apply map_tval_app; assumption).
  assert (Et : map (tval h) (troot s) = tiles s) by (apply map_tval_app; assumption).
  assert (Hlen : length h = S (length (th s))) by (unfold h; rewrite app_length; simpl; lia).
  assert (Eo : tval h o = t) by apply tval_new.
  set (target := if merge then _ else _).
  assert (T : target <> None <-> merge = true /\ In t (tiles s)).
  { unfold target. destruct merge; [|split; [congruence|intros [? _]; discriminate]].
    rewrite (merge_target_spec h (tmap s) bg o R'), Eo, Eb. split.
    - intros H. split; [reflexivity|]. eapply Permutation_in; eassumption.
    - intros [_ H]. eapply Permutation_in; [apply Permutation_sym; eassumption|assumption]. }
  destruct target as [x|].
  - destruct T as [T _]. destruct T as [T1 T2]; [discriminate|]. split.
    + split; cbn [th troot tmap]; [intros y Hy; specialize (Hr y Hy); lia|].
      exists bg. split; [intros y Hy; specialize (Hb y Hy); lia|]. split; [assumption|].
      unfold tiles. cbn [th troot]. rewrite Eb, Et. assumption.
    + left. split; [assumption|]. split; [assumption|]. exact Et.
  - split.
    + split; cbn [th troot tmap].
      * intros y Hy. apply py_insert_in in Hy. destruct Hy as [->|Hy]; [unfold o; lia|specialize (Hr y Hy); lia].
      * exists (bg ++ [o]). split.
        -- intros y Hy. apply in_app_or in Hy. destruct Hy as [Hy|[<-|[]]]; [specialize (Hb y Hy); lia|unfold o; lia].
        -- split; [apply add_rep; assumption|]. unfold tiles. cbn [th troot].
           rewrite py_insert_map, Et, Eo, map_app, Eb. simpl. rewrite Eo.
           rewrite py_insert_perm, P. apply Permutation_sym, Permutation_cons_append.
    + right. split.
      * destruct merge; [|left; reflexivity]. right. intros F. apply (proj2 T); [auto|reflexivity].
      * unfold tiles at 1. cbn [th troot]. rewrite py_insert_map, Et, Eo. reflexivity.
Qed.

Lemma remove_nth_perm : forall A (l : list A) i d, (i < length l)%nat ->
  Permutation l (nth i l d :: remove_nth l i).
Proof.
  intros A. induction l as [|x l IH]; intros i d H; simpl in *; [lia|].
  destruct i as [|i]; [apply Permutation_refl|]. rewrite (IH i d) at 1 by lia. apply perm_swap.
Qed.
Lemma remove_nth_incl : forall A (l : list A) i x, In x (remove_nth l i) -> In x l.
Proof. exact remove_nth_in. Qed.
Lemma py_pos_lt : forall n idx i, py_pos (Z.of_nat n) idx = Some i -> (i < n)%nat.
Proof.
  intros n idx i. unfold py_pos. destruct (Z.ltb_spec idx 0); destruct (_ && _)%bool eqn:E; try discriminate;
  intros X; inversion X; subst; apply andb_true_iff in E; rewrite Z.leb_le, Z.ltb_lt in E; lia.
Qed.

(** Removing a tile of the bag from the map. *)
Lemma map_remove_good : forall h m bg x l, MRep h m bg -> (forall o, In o bg -> (o < length h)%nat) ->
  Permutation (map (tval h) bg) (tval h x :: l) ->
  exists bg', MRep h (map_remove h m x) bg' /\ (forall o, In o bg' -> (o < length h)%nat) /\
    Permutation (map (tval h) bg') l.
Proof.
  intros h m bg x l R Hb P. exists (drop_first (oeq h) bg x).
  split; [apply remove_rep; [reflexivity|apply oeq_box|assumption]|].
  split; [intros o Ho; apply Hb; eapply drop_in; eassumption|].
  assert (I : In (tval h x) (map (tval h) bg)).
  { eapply Permutation_in; [apply Permutation_sym; exact P|left; reflexivity]. }
  apply (Permutation_cons_inv (a := tval h x)). rewrite <- (drop_perm h bg x I). assumption.
Qed.

Lemma del_tgood : forall s idx, TInv s -> tgood s (TDel idx).
Proof.
  intros s idx [Hr [bg [Hb [R P]]]]. unfold tgood. cbn [tl_step plain_step]. unfold tl_del.
  assert (L : length (tiles s) = length (troot s)) by apply map_length. rewrite L.
  destruct (py_pos (Z.of_nat (length (troot s))) idx) as [i|] eqn:E; cbn [fst snd].
  - apply py_pos_lt in E.
    assert (Hp : Permutation (map (tval (th s)) bg)
               (tval (th s) (nth i (troot s) O) :: map (tval (th s)) (remove_nth (troot s) i))).
    { rewrite P. unfold tiles. rewrite <- map_cons. apply Permutation_map. apply remove_nth_perm. assumption. }
    destruct (map_remove_good _ _ _ _ _ R Hb Hp) as [bg' [K1 [K2 K3]]].
    split; [|split; [|reflexivity]].
    + split; cbn [th troot tmap].
      * intros o Ho. apply Hr. eapply remove_nth_incl. eassumption.
      * exists bg'. auto.
    + unfold tiles. cbn [th troot]. apply map_remove_nth.
  - split; [split; [assumption|exists bg; auto]|]. auto.
Qed.

Lemma set_tgood : forall s idx t, TInv s -> tgood s (TSet idx t).
Proof.
  intros s idx t [Hr [bg [Hb [R P]]]]. unfold tgood. cbn [tl_step plain_step]. unfold tl_set.
  assert (L : length (tiles s) = length (troot s)) by apply map_length. rewrite L.
  destruct (py_pos (Z.of_nat (length (troot s))) idx) as [i|] eqn:E; cbn [fst snd].
  - apply py_pos_lt in E.
    assert (Hp : Permutation (map (tval (th s)) bg)
               (tval (th s) (nth i (troot s) O) :: map (tval (th s)) (remove_nth (troot s) i))).
    { rewrite P. unfold tiles. rewrite <- map_cons. apply Permutation_map. apply remove_nth_perm. assumption. }
    destruct (map_remove_good _ _ _ _ _ R Hb Hp) as [bg' [K1 [K2 K3]]].
    set (h := th s ++ [t]). set (o := length (th s)).
    assert (Hlen : length h = S (length (th s))) by (unfold h; rewrite app_length; simpl; lia).
    assert (Et : tiles (mkTL h (replace_nth (troot s) i o) (map_add h (map_remove (th s) (tmap s) (nth i (troot s) O)) o))
                 = replace_nth (tiles s) i t).
    { unfold tiles. cbn [th troot]. rewrite map_replace_nth. f_equal; [apply map_tval_app; assumption|apply tval_new]. }
    split; [|split; [exact Et|reflexivity]].
    split; cbn [th troot tmap].
    + intros y Hy. assert (In y (o :: troot s)).
      { apply In_nth_error in Hy. destruct Hy as [j Hj]. rewrite nth_replace in Hj by assumption.
        destruct (j =? i)%nat; [left; congruence|right; eapply nth_error_In; eassumption]. }
      destruct H as [<-|H]; [unfold o; lia|specialize (Hr y H); lia].
    + exists (bg' ++ [o]). split.
      * intros y Hy. apply in_app_or in Hy. destruct Hy as [Hy|[<-|[]]]; [specialize (K2 y Hy); lia|unfold o; lia].
      * split.
        -- apply add_rep. eapply mrep_heap; [|exact K1]. intros y Hy. symmetry. apply tval_app. auto.
        -- rewrite Et. rewrite map_app. simpl. unfold h at 2. unfold o. rewrite tval_new.
           unfold h. rewrite map_tval_app by assumption. rewrite K3.
           rewrite map_remove_nth. fold (tiles s).
           clear - E L. rewrite <- L in E. generalize dependent (tiles s). intros l _ E. revert i E.
           induction l as [|x l IH]; intros i E; simpl in *; [lia|].
           destruct i as [|i]; [apply Permutation_sym, Permutation_cons_append|].
           simpl. constructor. apply IH. lia.
  - split; [split; [assumption|exists bg; auto]|]. auto.
Qed.

Lemma keep_pos_ext : forall A (f g : Z -> bool) (l : list A) n,
  (forall i, (i < length l)%nat -> f (n + Z.of_nat i)%Z = g (n + Z.of_nat i)%Z) -> keep_pos f n l = keep_pos g n l.
Proof.
  intros A f g. induction l as [|x l IH]; intros n H; simpl; [reflexivity|].
  assert (H0 := H O). simpl in H0. rewrite Z.add_0_r in H0. rewrite H0 by lia.
  rewrite (IH (n + 1)%Z).
  - reflexivity.
  - intros i Hi. replace (n + 1 + Z.of_nat i)%Z with (n + Z.of_nat (S i))%Z by lia. apply H. simpl. lia.
Qed.

Lemma keep_pos_drop : forall A (l : list A) dl i n d, (i < length l)%nat -> ~ In (n + Z.of_nat i)%Z dl ->
  Permutation (keep_pos (fun p => negb (existsb (Z.eqb p) dl)) n l)
    (nth i l d :: keep_pos (fun p => negb (existsb (Z.eqb p) ((n + Z.of_nat i)%Z :: dl))) n l).
Proof.
  intros A l dl. induction l as [|x l IH]; intros i n d Hi Hd; simpl in Hi; [lia|].
  destruct i as [|i].
  - simpl. rewrite Z.add_0_r in *. rewrite Z.eqb_refl. simpl.
    destruct (existsb (Z.eqb n) dl) eqn:E; [apply existsb_zeq in E; contradiction|]. simpl. constructor.
    match goal with |- Permutation ?a ?b => assert (X : a = b); [apply keep_pos_ext|rewrite X; apply Permutation_refl] end.
    intros j Hj. destruct (Z.eqb_spec (n + 1 + Z.of_nat j) n); [lia|]. reflexivity.
  - replace (n + Z.of_nat (S i))%Z with (n + 1 + Z.of_nat i)%Z in * by lia.
    specialize (IH i (n + 1)%Z d ltac:(lia) Hd). cbn [keep_pos nth].
    assert (Eb : existsb (Z.eqb n) ((n + 1 + Z.of_nat i)%Z :: dl) = existsb (Z.eqb n) dl).
    { simpl. destruct (Z.eqb_spec n (n + 1 + Z.of_nat i)); [lia|]. reflexivity. }
    rewrite Eb. destruct (existsb (Z.eqb n) dl); simpl negb; cbv iota; [assumption|].
    rewrite IH. apply perm_swap.
Qed.

Lemma slice_loop : forall h rt dl m bg done,
  (forall o, In o rt -> (o < length h)%nat) ->
  MRep h m bg -> (forall o, In o bg -> (o < length h)%nat) ->
  Permutation (map (tval h) bg) (map (tval h) (keep_pos (fun p => negb (existsb (Z.eqb p) done)) 0 rt)) ->
  NoDup dl -> (forall z, In z dl -> ~ In z done) -> (forall z, In z dl -> (0 <= z < Z.of_nat (length rt))%Z) ->
  exists bg', MRep h (fold_left (fun m i => map_remove h m (nth (Z.to_nat i) rt O)) dl m) bg' /\
    (forall o, In o bg' -> (o < length h)%nat) /\
    Permutation (map (tval h) bg') (map (tval h) (keep_pos (fun p => negb (existsb (Z.eqb p) (rev dl ++ done))) 0 rt)).
Proof.
  intros h rt. induction dl as [|z dl IH]; intros m bg done Hr R Hb P Hn Hd Hz; simpl.
  - exists bg. auto.
  - inversion Hn; subst. assert (Hzz := Hz z (or_introl eq_refl)).
    assert (Ez : z = (0 + Z.of_nat (Z.to_nat z))%Z) by lia.
    assert (Hp : Permutation (map (tval h) bg) (tval h (nth (Z.to_nat z) rt O) ::
              map (tval h) (keep_pos (fun p => negb (existsb (Z.eqb p) (z :: done))) 0 rt))).
    { rewrite P, <- map_cons. apply Permutation_map.
      pose proof (keep_pos_drop nat rt done (Z.to_nat z) 0 O) as K. rewrite <- Ez in K. apply K; [lia|].
      apply Hd. left. reflexivity. }
    destruct (map_remove_good _ _ _ _ _ R Hb Hp) as [bg1 [K1 [K2 K3]]].
    destruct (IH _ bg1 (z :: done) Hr K1 K2 K3) as [bg' [J1 [J2 J3]]].
    + assumption.
    + intros w Hw [F|F]; [congruence|]. apply (Hd w); [right; assumption|assumption].
    + intros w Hw. apply Hz. right. assumption.
    + exists bg'. split; [assumption|]. split; [assumption|]. rewrite <- app_assoc. simpl. exact J3.
Qed.

Lemma slice_tgood : forall s a b c, TInv s -> tgood s (TDelSlice a b c).
Proof.
  intros s a b c [Hr [bg [Hb [R P]]]]. unfold tgood. cbn [tl_step plain_step]. unfold tl_del_slice.
  assert (L : length (tiles s) = length (troot s)) by apply map_length. rewrite L.
  destruct c as [[|c|c]|]; [split; [split; [assumption|exists bg; auto]|auto]| | |];
  (destruct (slice_indices a b _ (Z.of_nat (length (troot s)))) as [[start stop] step] eqn:E; cbn [fst snd];
   match type of E with slice_indices _ _ ?cc _ = _ =>
     destruct (slice_in_bounds a b cc _ start stop step 0%Z (Nat2Z.is_nonneg _) ltac:(discriminate) E) as [S0 _];
     assert (SB : forall z, In z (py_range start stop step) -> (0 <= z < Z.of_nat (length (troot s)))%Z)
       by (intros z; apply (slice_in_bounds a b cc _ start stop step z (Nat2Z.is_nonneg _) ltac:(discriminate) E))
   end;
   split; [|split; [unfold tiles; cbn [th troot]; apply map_keep_pos|reflexivity]];
   split; cbn [th troot tmap];
   [ intros o Ho; apply keep_pos_in in Ho; destruct Ho as [i [Hi _]]; apply Hr; eapply nth_error_In; eassumption
   | destruct (slice_loop (th s) (troot s) (py_range start stop step) (tmap s) bg []) as [bg' [K1 [K2 K3]]];
     [assumption|assumption|assumption| |apply range_nodup; assumption|intros z _ []|assumption|];
     [ simpl; rewrite P; unfold tiles; apply Permutation_map;
       assert (KA : forall (l : list nat) n, keep_pos (fun _ => true) n l = l)
         by (induction l as [|x l IHl]; intros n; simpl; [reflexivity|rewrite IHl; reflexivity]);
       rewrite KA; apply Permutation_refl
     | exists bg'; split; [assumption|]; split; [assumption|]; rewrite K3; unfold tiles; cbn [th troot];
       apply Permutation_map; rewrite app_nil_r;
       match goal with |- Permutation ?a ?b => assert (X : a = b); [apply keep_pos_ext|rewrite X; apply Permutation_refl] end;
       intros i _; f_equal; apply eq_iff_eq_true; rewrite !existsb_zeq, <- in_rev; tauto ] ]).
Qed.

Lemma clear_tgood : forall s, TInv s -> tgood s TClear.
Proof.
  intros s _. split; [|split; reflexivity]. split; [intros o []|]. exists [].
  split; [intros o []|]. split; [|constructor]. split; [constructor|]. reflexivity.
Qed.

Lemma step_tgood : forall s o, TInv s -> is_rename o = false -> tgood s o.
Proof.
  intros s [t m|idx t m|idx|a b c|idx t| |p nm] I H; try discriminate.
  - destruct (insert_tgood s (Z.of_nat (length (troot s))) t m I) as [A B]. split; [exact A|].
    split; [|reflexivity]. replace (length (tiles s)) with (length (troot s)) by (symmetry; apply map_length). exact B.
  - destruct (insert_tgood s idx t m I) as [A B]. split; [exact A|]. split; [exact B|reflexivity].
  - apply del_tgood; assumption.
  - apply slice_tgood; assumption.
  - apply set_tgood; assumption.
  - apply clear_tgood; assumption.
Qed.

Lemma run_tinv : forall ops, forallb (fun o => negb (is_rename o)) ops = true -> TInv (run_tiles ops).
Proof.
  intros ops. unfold run_tiles. assert (G : forall s, TInv s -> forallb (fun o => negb (is_rename o)) ops = true ->
    TInv (fold_left (fun s o => fst (tl_step s o)) ops s)).
  { induction ops as [|o ops IH]; intros s I H; simpl in *; [assumption|].
    apply andb_true_iff in H. destruct H as [H1 H2]. apply IH; [|assumption].
    apply step_tgood; [assumption|]. apply negb_true_iff. assumption. }
  apply G. apply inv_empty_tiles.
Qed.

Lemma tinv_index : forall s, TInv s ->
  Permutation (indexed s) (tiles s) /\
  forall c t, (In t (match cell_get (tmap s) c with Some l => map (tval (th s)) l | None => [] end) <->
               In t (tiles s) /\ cell_of t = c).
Proof.
  intros s [Hr [bg [Hb [R P]]]]. split.
  - unfold indexed. rewrite <- P. apply Permutation_map. eapply mrep_all. eassumption.
  - intros c t.
    assert (E : (match cell_get (tmap s) c with Some l => map (tval (th s)) l | None => [] end)
       = map (tval (th s)) (filter (coversb 8000 1 (obox (th s)) c) bg)).
    { rewrite <- (rep_content _ _ _ _ _ c R). destruct (cell_get (tmap s) c); reflexivity. }
    rewrite E, in_map_iff. split.
    + intros [o [<- H]]. apply filter_In in H. destruct H as [H1 H2]. apply covers_cell in H2. split; [|assumption].
      eapply Permutation_in; [exact P|]. apply in_map. assumption.
    + intros [H1 H2]. eapply Permutation_in in H1; [|apply Permutation_sym; exact P].
      apply in_map_iff in H1. destruct H1 as [o [<- H1]]. exists o. split; [reflexivity|]. apply filter_In.
      split; [assumption|]. apply covers_cell. assumption.
Qed.

(** The list acts as a plain list whatever the history, renames included: only
    merging looks at the index. *)
Lemma rename_plain : forall s p nm, (forall o, In o (troot s) -> (o < length (th s))%nat) -> NoDup (troot s) ->
  plain_step (tiles s) (TRename p nm) (tiles (fst (tl_step s (TRename p nm)))) (snd (tl_step s (TRename p nm))).
Proof.
  intros s p nm Hr Hn. cbn [tl_step plain_step]. unfold tl_rename.
  assert (E : nth_error (tiles s) p = option_map (tval (th s)) (nth_error (troot s) p)) by apply nth_error_map.
  rewrite E. destruct (nth_error (troot s) p) as [o|] eqn:F; simpl; [|auto]. split; [|reflexivity].
  assert (Ho : (o < length (th s))%nat) by (apply Hr; eapply nth_error_In; eassumption).
  unfold tiles. cbn [th troot].
  set (t := mkTile nm (t_x (tval (th s) o)) (t_y (tval (th s) o))).
  assert (V : forall x, tval (replace_nth (th s) o t) x = if Nat.eqb x o then t else tval (th s) x).
  { intros x. unfold tval. destruct (Nat.lt_ge_cases x (length (th s))) as [G|G].
    - assert (N : nth_error (replace_nth (th s) o t) x = Some (if Nat.eqb x o then t else nth x (th s) no_tile)).
      { rewrite nth_replace by assumption. destruct (x =? o)%nat; [reflexivity|]. apply nth_error_nth'. assumption. }
      apply (nth_error_nth _ _ no_tile) in N. assumption.
    - rewrite !nth_overflow; [|assumption|rewrite replace_nth_length; assumption].
      destruct (Nat.eqb_spec x o); [lia|reflexivity]. }
  clear E Hr Ho. revert p F. induction (troot s) as [|x r IH]; intros p F; [destruct p; discriminate|].
  inversion Hn; subst. destruct p as [|p]; simpl in *.
  - inversion F; subst. rewrite V, Nat.eqb_refl. f_equal. apply map_ext_in. intros y Hy. rewrite V.
    destruct (Nat.eqb_spec y o); [subst; contradiction|reflexivity].
  - rewrite V. destruct (Nat.eqb_spec x o) as [->|Nx]; [apply nth_error_In in F; contradiction|].
    f_equal. apply IH; assumption.
Qed.

(** *** set operations *)
Lemma tile_found_spec : forall h x l, tile_found h x l = true <-> In (tval h x) (map (tval h) l).
Proof.
  intros h x. induction l as [|y l IH]; simpl; [split; [discriminate|contradiction]|].
  destruct (oeq h y x) eqn:E.
  - apply oeq_spec in E. split; [auto|reflexivity].
  - rewrite IH. split; [auto|]. intros [F|F]; [apply oeq_spec in F; congruence|assumption].
Qed.

Lemma append_fold : forall h os s, TInv s -> (exists ext, th s = h ++ ext) ->
  (forall o, In o os -> (o < length h)%nat) ->
  TInv (fold_left tl_append os s) /\ tiles (fold_left tl_append os s) = tiles s ++ map (tval h) os.
Proof.
  intros h. induction os as [|o os IH]; intros s I [ext Ex] Ho; simpl.
  - rewrite app_nil_r. auto.
  - assert (Vo : tval (th s) o = tval h o).
    { rewrite Ex. unfold tval. apply app_nth1. apply Ho. left. reflexivity. }
    destruct (step_tgood s (TAppend (tval (th s) o) false) I eq_refl) as [A [B _]].
    assert (T : tiles (tl_append s o) = tiles s ++ [tval h o]).
    { unfold tl_append. destruct B as [[B _]|[_ B]]; [discriminate|]. rewrite B, py_insert_end, Vo. reflexivity. }
    destruct (IH (tl_append s o)) as [K1 K2].
    + exact A.
    + exists (ext ++ [tval (th s) o]). unfold tl_append. cbn [tl_step fst]. unfold tl_insert. cbn [th]. rewrite Ex, app_assoc. reflexivity.
    + intros x Hx. apply Ho. right. assumption.
    + split; [assumption|]. rewrite K2, T, <- app_assoc. reflexivity.
Qed.

Lemma tfold_filter : forall (f : tlist -> nat -> tlist) (c : nat -> bool) l r,
  fold_left (fun r o => if c o then f r o else r) l r = fold_left f (filter c l) r.
Proof.
  intros f c. induction l as [|o l IH]; intros r; simpl; [reflexivity|].
  destruct (c o); simpl; apply IH.
Qed.
Lemma tfold_filter_neg : forall (f : tlist -> nat -> tlist) (c : nat -> bool) l r,
  fold_left (fun r o => if c o then r else f r o) l r = fold_left f (filter (fun o => negb (c o)) l) r.
Proof.
  intros f c. induction l as [|o l IH]; intros r; simpl; [reflexivity|].
  destruct (c o); simpl; apply IH.
Qed.
Lemma map_filter : forall A B (f : A -> B) (p : B -> bool) l, map f (filter (fun x => p (f x)) l) = filter p (map f l).
Proof.
  intros A B f p. induction l as [|x l IH]; simpl; [reflexivity|]. destruct (p (f x)); simpl; rewrite IH; reflexivity.
Qed.

Definition in_tiles (l : list tile) (t : tile) : bool := if in_dec tile_dec t l then true else false.
Lemma in_tiles_spec : forall l t, in_tiles l t = true <-> In t l.
Proof. intros. unfold in_tiles. destruct (in_dec tile_dec t l); split; congruence || auto. Qed.
Lemma found_in_tiles : forall h x l, tile_found h x l = in_tiles (map (tval h) l) (tval h x).
Proof. intros. apply eq_iff_eq_true. rewrite tile_found_spec, in_tiles_spec. tauto. Qed.

Lemma tile_sets : forall h a b, (forall o, In o a -> (o < length h)%nat) -> (forall o, In o b -> (o < length h)%nat) ->
  let va := map (tval h) a in let vb := map (tval h) b in
  (TInv (tl_union h a b) /\ tiles (tl_union h a b) = va ++ filter (fun t => negb (in_tiles va t)) vb) /\
  (TInv (tl_intersection h a b) /\ tiles (tl_intersection h a b) = filter (in_tiles vb) va) /\
  (TInv (tl_difference h a b) /\ tiles (tl_difference h a b) = filter (fun t => negb (in_tiles vb t)) va).
Proof.
  intros h a b Ha Hb va vb. split; [|split].
  - unfold tl_union. rewrite tfold_filter_neg, <- fold_left_app.
    destruct (append_fold h (a ++ filter (fun o => negb (tile_found h o a)) b) (empty_tiles h) (inv_empty_tiles h)) as [K1 K2].
    + exists []. rewrite app_nil_r. reflexivity.
    + intros o Ho. apply in_app_or in Ho. destruct Ho as [Ho|Ho]; [auto|]. apply filter_In in Ho. apply Hb. tauto.
    + split; [assumption|]. rewrite K2. simpl. rewrite map_app. f_equal.
      unfold vb. rewrite <- map_filter. f_equal. apply filter_ext. intros o. rewrite found_in_tiles. reflexivity.
  - unfold tl_intersection. rewrite tfold_filter.
    destruct (append_fold h (filter (fun o => tile_found h o b) a) (empty_tiles h) (inv_empty_tiles h)) as [K1 K2].
    + exists []. rewrite app_nil_r. reflexivity.
    + intros o Ho. apply filter_In in Ho. apply Ha. tauto.
    + split; [assumption|]. rewrite K2. simpl.
      unfold va. rewrite <- map_filter. f_equal. apply filter_ext. intros o. rewrite found_in_tiles. reflexivity.
  - unfold tl_difference. rewrite tfold_filter_neg.
    destruct (append_fold h (filter (fun o => negb (tile_found h o b)) a) (empty_tiles h) (inv_empty_tiles h)) as [K1 K2].
    + exists []. rewrite app_nil_r. reflexivity.
    + intros o Ho. apply filter_In in Ho. apply Ha. tauto.
    + split; [assumption|]. rewrite K2. simpl.
      unfold va. rewrite <- map_filter. f_equal. apply filter_ext. intros o. rewrite found_in_tiles. reflexivity.
Qed.

Lemma set_operations : forall h a b,
  (forall o, In o a -> (o < length h)%nat) -> (forall o, In o b -> (o < length h)%nat) ->
  let va := map (tval h) a in let vb := map (tval h) b in
  exists ina inb : tile -> bool,
    (forall t, ina t = true <-> In t va) /\ (forall t, inb t = true <-> In t vb) /\
    tiles (tl_union h a b) = va ++ filter (fun t => negb (ina t)) vb /\
    tiles (tl_intersection h a b) = filter inb va /\
    tiles (tl_difference h a b) = filter (fun t => negb (inb t)) va /\
    Permutation (indexed (tl_union h a b)) (tiles (tl_union h a b)) /\
    Permutation (indexed (tl_intersection h a b)) (tiles (tl_intersection h a b)) /\
    Permutation (indexed (tl_difference h a b)) (tiles (tl_difference h a b)).
Proof.
  intros h a b Ha Hb va vb. exists (in_tiles va), (in_tiles vb).
  destruct (tile_sets h a b Ha Hb) as [[A1 A2] [[B1 B2] [C1 C2]]].
  split; [apply in_tiles_spec|]. split; [apply in_tiles_spec|].
  split; [assumption|]. split; [assumption|]. split; [assumption|].
  split; [apply tinv_index; assumption|]. split; apply tinv_index; assumption.
Qed.

Lemma keep_pos_nodup_t : forall (f : Z -> bool) (l : list tile) n, NoDup l -> NoDup (keep_pos f n l).
Proof. intros. apply keep_pos_nodup. assumption. Qed.

Definition merging_op (o : top) : bool :=
  match o with
  | TAppend _ m | TInsert _ _ m => m
  | TSet _ _ | TRename _ _ => false
  | _ => true
  end.
Lemma plain_merge_nodup : forall l idx t r, plain_insert l idx t true r -> NoDup l -> NoDup r.
Proof.
  intros l idx t r [[_ [_ ->]]|[[H|H] ->]] N; [assumption|discriminate|].
  eapply Permutation_NoDup; [apply Permutation_sym, py_insert_perm|]. constructor; assumption.
Qed.
Lemma merging_nodup : forall ops, forallb merging_op ops = true -> NoDup (tiles (run_tiles ops)).
Proof.
  intros ops. unfold run_tiles. assert (G : forall s, TInv s -> NoDup (tiles s) -> forallb merging_op ops = true ->
    NoDup (tiles (fold_left (fun s o => fst (tl_step s o)) ops s))).
  { induction ops as [|o ops IH]; intros s I N H; [assumption|]. cbn [forallb] in H. cbn [fold_left].
    apply andb_true_iff in H. destruct H as [H1 H2].
    assert (R : is_rename o = false) by (destruct o; try reflexivity; discriminate).
    destruct (step_tgood s o I R) as [A B]. apply IH; [assumption| |assumption].
    destruct o as [t m|idx t m|idx|a b c|idx t| |p nm]; cbn [plain_step] in B; cbn [merging_op] in H1; subst; try discriminate.
    - destruct B as [B _]. eapply plain_merge_nodup; eassumption.
    - destruct B as [B _]. eapply plain_merge_nodup; eassumption.
    - destruct (py_pos _ idx); destruct B as [B _]; rewrite B; [apply remove_nth_nodup; assumption|assumption].
    - destruct c as [[|c|c]|]; [destruct B as [B _]; rewrite B; assumption| | |];
      (destruct (slice_indices _ _ _ _) as [[st sp] se]; destruct B as [B _]; rewrite B; apply keep_pos_nodup_t; assumption).
    - destruct B as [B _]. rewrite B. constructor. }
  intros H. apply G; [apply inv_empty_tiles|constructor|assumption].
Qed.
