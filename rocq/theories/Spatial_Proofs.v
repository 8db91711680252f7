(** Proofs about the spatial hash map (C09-C12). *)
From Coq Require Import ZArith List Bool Lia Psatz FinFun.
From Verif Require Import Spatial_Model Spatial_Spec.
Import ListNotations.
Local Open Scope Z_scope.

Lemma zrange_in : forall a b x, In x (zrange a b) <-> a <= x < b.
Proof.
  intros. unfold zrange. rewrite in_map_iff. split.
  - intros [k [E H]]. apply in_seq in H. lia.
  - intros H. exists (Z.to_nat (x - a)). split; [lia|]. apply in_seq. lia.
Qed.
Lemma zrange_nodup : forall a b, NoDup (zrange a b).
Proof.
  intros. unfold zrange. generalize (Z.to_nat (b - a)) as n. intros n.
  apply Injective_map_NoDup.
  - intros x y H. lia.
  - apply seq_NoDup.
Qed.

Lemma grid_nodup : forall (xs ys : list Z), NoDup xs -> NoDup ys ->
  NoDup (flat_map (fun j => map (fun i => (i, j)) xs) ys).
Proof.
  intros xs ys Hx Hy. induction Hy as [|y ys Hn Hy IH]; simpl; [constructor|].
  assert (D : forall l1 l2 : list (Z * Z), NoDup l1 -> NoDup l2 ->
    (forall z, In z l1 -> ~ In z l2) -> NoDup (l1 ++ l2)).
  { induction l1 as [|z l1 IHl]; intros l2 H1 H2 H3; simpl; [assumption|].
    inversion H1; subst. constructor.
    - rewrite in_app_iff. intros [H|H]; [contradiction|]. apply (H3 z); [left; reflexivity|assumption].
    - apply IHl; auto. intros w Hw. apply H3. right. assumption. }
  apply D; [|assumption|].
  - apply Injective_map_NoDup; [|assumption]. intros a b H. congruence.
  - intros z Hz Hz'. apply in_map_iff in Hz. destruct Hz as [i [<- _]].
    apply in_flat_map in Hz'. destruct Hz' as [j [Hj Hz']]. apply in_map_iff in Hz'.
    destruct Hz' as [i' [E _]]. inversion E; subst. contradiction.
Qed.

Lemma grid_in : forall (xs ys : list Z) c,
  In c (flat_map (fun j => map (fun i => (i, j)) xs) ys) <-> In (fst c) xs /\ In (snd c) ys.
Proof.
  intros xs ys [i j]. rewrite in_flat_map. simpl. split.
  - intros [k [H1 H2]]. apply in_map_iff in H2. destruct H2 as [l [E H2]]. inversion E; subst. auto.
  - intros [H1 H2]. exists j. split; [assumption|]. apply in_map_iff. exists i. auto.
Qed.

Lemma cell_eqb_eq : forall a b, cell_eqb a b = true <-> a = b.
Proof.
  intros [a b] [c d]. unfold cell_eqb. simpl. rewrite andb_true_iff, !Z.eqb_eq. split.
  - intros [-> ->]. reflexivity.
  - intros E. inversion E. auto.
Qed.
Lemma cell_eqb_refl : forall a, cell_eqb a a = true.
Proof. intros. apply cell_eqb_eq. reflexivity. Qed.
Lemma cell_eqb_neq : forall a b, cell_eqb a b = false <-> a <> b.
Proof.
  intros. destruct (cell_eqb a b) eqn:E.
  - apply cell_eqb_eq in E. split; congruence.
  - split; [|reflexivity]. intros _ H. apply cell_eqb_eq in H. congruence.
Qed.
Lemma cell_dec : forall a b : zpt, {a = b} + {a <> b}.
Proof. intros. destruct (cell_eqb a b) eqn:E; [left; apply cell_eqb_eq|right; apply cell_eqb_neq]; assumption. Qed.

Section Map.
  Context {item : Type}.
  Variable cs eps : Z.
  Variable box : item -> option zbox.
  Variable ieq : item -> item -> bool.
  Hypothesis Hcs : 0 < cs.
  Hypothesis Heps : 0 < eps.
  (** Python equality is reflexive, and equal items occupy the same box. *)
  Hypothesis ieq_refl : forall a, ieq a a = true.
  Hypothesis ieq_box : forall a b, ieq a b = true -> box a = box b.

  Notation smap := (smap item).
  Notation cells b := (cells_of_box cs eps b).

  (** *** cells *)
  Lemma div_range : forall a b i, a / cs <= i <= b / cs <-> a < (i + 1) * cs /\ i * cs <= b.
  Proof.
    intros a b i. split.
    - intros [H1 H2]. split.
      + pose proof (Z.mul_succ_div_gt a cs Hcs). nia.
      + pose proof (Z.mul_div_le b cs Hcs). nia.
    - intros [H1 H2]. split.
      + assert (a / cs < i + 1); [|lia]. apply Z.div_lt_upper_bound; lia.
      + apply Z.div_le_lower_bound; lia.
  Qed.

  Lemma cells_spec : forall b c, In c (cells (Some b)) <-> touches cs eps b c.
  Proof.
    intros b c. unfold cells_of_box, map_coords, touches. cbn [fst snd]. rewrite grid_in, !zrange_in.
    rewrite <- !div_range. lia.
  Qed.

  Lemma cells_item : forall it c, In c (cells (box it)) <-> item_touches cs eps box c it.
  Proof.
    intros it c. unfold item_touches. destruct (box it) as [b|].
    - rewrite cells_spec. split; [eauto|]. intros [b' [E H]]. inversion E; subst. assumption.
    - simpl. split; [contradiction|]. intros [b [E _]]. discriminate.
  Qed.

  Lemma cells_nodup : forall b, NoDup (cells b).
  Proof.
    intros [b|]; [|constructor]. unfold cells_of_box. apply grid_nodup; apply zrange_nodup.
  Qed.

  Definition coversb (c : zpt) (it : item) : bool :=
    if in_dec cell_dec c (cells (box it)) then true else false.
  Lemma coversb_spec : forall c it, coversb c it = true <-> item_touches cs eps box c it.
  Proof.
    intros. unfold coversb. destruct (in_dec cell_dec c (cells (box it))) as [H|H].
    - rewrite cells_item in H. tauto.
    - rewrite cells_item in H. split; [discriminate|tauto].
  Qed.
  Lemma coversb_in : forall c it, coversb c it = true <-> In c (cells (box it)).
  Proof. intros. rewrite coversb_spec, cells_item. tauto. Qed.

  (** *** dictionaries *)
  Lemma get_set : forall (m : smap) c v c', cell_get (cell_set m c v) c' =
    if cell_eqb c c' then Some v else cell_get m c'.
  Proof.
    induction m as [|[k w] m IH]; intros c v c'; simpl.
    - reflexivity.
    - destruct (cell_eqb k c) eqn:E; simpl.
      + apply cell_eqb_eq in E. subst. destruct (cell_eqb c c'); reflexivity.
      + destruct (cell_eqb k c') eqn:E'.
        * apply cell_eqb_eq in E'. subst. apply cell_eqb_neq in E.
          destruct (cell_eqb c c') eqn:F; [|reflexivity]. apply cell_eqb_eq in F. congruence.
        * apply IH.
  Qed.
  Lemma set_keys_in : forall (m : smap) c v x,
    In x (map fst (cell_set m c v)) -> x = c \/ In x (map fst m).
  Proof.
    induction m as [|[k w] m IH]; simpl; intros c v x H.
    - intuition.
    - destruct (cell_eqb k c); simpl in H; [intuition|].
      destruct H as [H|H]; [intuition|]. apply IH in H. intuition.
  Qed.
  Lemma set_keys : forall (m : smap) c v, NoDup (map fst m) -> NoDup (map fst (cell_set m c v)).
  Proof.
    induction m as [|[k w] m IH]; simpl; intros c v H.
    - constructor; [intros []|constructor].
    - inversion H; subst. destruct (cell_eqb k c) eqn:E; simpl.
      + constructor; assumption.
      + constructor; [|apply IH; assumption].
        intros I. apply set_keys_in in I.
        destruct I as [->|G]; [rewrite cell_eqb_refl in E; discriminate|contradiction].
  Qed.
  Lemma get_none : forall (m : smap) c, ~ In c (map fst m) -> cell_get m c = None.
  Proof.
    induction m as [|[k w] m IH]; simpl; intros c H; [reflexivity|].
    destruct (cell_eqb k c) eqn:E; [apply cell_eqb_eq in E; intuition|]. apply IH. intuition.
  Qed.
  Lemma get_del : forall (m : smap) c c', NoDup (map fst m) -> cell_get (cell_del m c) c' =
    if cell_eqb c c' then None else cell_get m c'.
  Proof.
    induction m as [|[k w] m IH]; intros c c' H; simpl.
    - destruct (cell_eqb c c'); reflexivity.
    - inversion H; subst. destruct (cell_eqb k c) eqn:E; simpl.
      + apply cell_eqb_eq in E. subst. destruct (cell_eqb c c') eqn:F; [|reflexivity].
        apply cell_eqb_eq in F. subst. apply get_none. assumption.
      + destruct (cell_eqb k c') eqn:E'.
        * apply cell_eqb_eq in E'. subst. destruct (cell_eqb c c') eqn:F; [|reflexivity].
          apply cell_eqb_eq in F. subst. rewrite cell_eqb_refl in E. discriminate.
        * apply IH. assumption.
  Qed.
  Lemma del_keys : forall (m : smap) c, NoDup (map fst m) -> NoDup (map fst (cell_del m c)).
  Proof.
    induction m as [|[k w] m IH]; simpl; intros c H; [constructor|].
    inversion H; subst. destruct (cell_eqb k c); simpl; [assumption|].
    constructor; [|apply IH; assumption]. intros I. apply H2. clear -I.
    induction m as [|[k' w'] m IH]; simpl in *; [contradiction|].
    destruct (cell_eqb k' c); simpl in *; intuition.
  Qed.

  (** *** representation invariant *)
  Definition wrap (l : list item) : option (list item) :=
    match l with [] => None | _ => Some l end.
  Definition Rep (m : smap) (s : list item) : Prop :=
    NoDup (map fst m) /\ forall c, cell_get m c = wrap (filter (coversb c) s).

  Lemma add_fold : forall it cells (m : smap), NoDup cells -> NoDup (map fst m) ->
    NoDup (map fst (fold_left (add_cell it) cells m)) /\
    forall c, cell_get (fold_left (add_cell it) cells m) c =
      if in_dec cell_dec c cells
      then Some (match cell_get m c with Some l => l | None => [] end ++ [it])
      else cell_get m c.
  Proof.
    intros it. induction cells as [|k cells IH]; intros m Hn Hm; simpl.
    - auto.
    - inversion Hn; subst.
      assert (Hm' : NoDup (map fst (add_cell it m k))).
      { unfold add_cell. destruct (cell_get m k); apply set_keys; assumption. }
      destruct (IH _ H2 Hm') as [K1 K2]. split; [assumption|]. intros c. rewrite K2.
      assert (A : cell_get (add_cell it m k) c =
        if cell_eqb k c then Some (match cell_get m k with Some l => l | None => [] end ++ [it])
        else cell_get m c).
      { unfold add_cell. destruct (cell_get m k); rewrite get_set; reflexivity. }
      rewrite A. destruct (cell_dec k c) as [->|N].
      + rewrite cell_eqb_refl. destruct (in_dec cell_dec c cells); [contradiction|]. reflexivity.
      + rewrite (proj2 (cell_eqb_neq k c) N). destruct (in_dec cell_dec c cells); reflexivity.
  Qed.

  Lemma add_rep : forall m s it, Rep m s -> Rep (sm_add cs eps box m it) (s ++ [it]).
  Proof.
    intros m s it [Hm Hg].
    destruct (add_fold it (cells (box it)) m (cells_nodup _) Hm) as [K1 K2].
    split; [assumption|]. intros c. unfold sm_add. rewrite K2, filter_app. simpl.
    unfold coversb at 2. destruct (in_dec cell_dec c (cells (box it))); rewrite Hg.
    - destruct (filter (coversb c) s); reflexivity.
    - rewrite app_nil_r. reflexivity.
  Qed.

  Lemma remove_first_none : forall l it, remove_first ieq l it = None -> drop_first ieq l it = l /\
    forall x, In x l -> ieq x it = false.
  Proof.
    induction l as [|x l IH]; simpl; intros it H; [intuition|].
    destruct (ieq x it) eqn:E; [discriminate|].
    destruct (remove_first ieq l it) eqn:F; [discriminate|].
    destruct (IH _ F) as [K1 K2]. rewrite K1. split; [reflexivity|].
    intros y [<-|Hy]; auto.
  Qed.
  Lemma remove_first_some : forall l it l', remove_first ieq l it = Some l' -> drop_first ieq l it = l'.
  Proof.
    induction l as [|x l IH]; simpl; intros it l' H; [discriminate|].
    destruct (ieq x it) eqn:E; [congruence|].
    destruct (remove_first ieq l it) eqn:F; [|discriminate]. simpl in H. inversion H; subst.
    f_equal. apply IH. assumption.
  Qed.

  Lemma remove_fold : forall it cells (m : smap), NoDup cells -> NoDup (map fst m) ->
    (forall c l, cell_get m c = Some l -> l <> []) ->
    NoDup (map fst (fold_left (remove_cell ieq it) cells m)) /\
    forall c, cell_get (fold_left (remove_cell ieq it) cells m) c =
      if in_dec cell_dec c cells
      then wrap (drop_first ieq (match cell_get m c with Some l => l | None => [] end) it)
      else cell_get m c.
  Proof.
    intros it. induction cells as [|k cells IH]; intros m Hn Hm He; simpl.
    - auto.
    - inversion Hn; subst.
      assert (A : NoDup (map fst (remove_cell ieq it m k)) /\ forall c, cell_get (remove_cell ieq it m k) c =
        if cell_eqb k c then wrap (drop_first ieq (match cell_get m k with Some l => l | None => [] end) it)
        else cell_get m c).
      { unfold remove_cell. destruct (cell_get m k) as [l|] eqn:G.
        - destruct (remove_first ieq l it) as [l'|] eqn:F.
          + apply remove_first_some in F. rewrite F. destruct l' as [|y l'].
            * split; [apply del_keys; assumption|]. intros c. rewrite get_del by assumption. reflexivity.
            * split; [apply set_keys; assumption|]. intros c. rewrite get_set. reflexivity.
          + apply remove_first_none in F. destruct F as [F _]. rewrite F.
            split; [assumption|]. intros c. destruct (cell_eqb k c) eqn:E; [|reflexivity].
            apply cell_eqb_eq in E. subst. rewrite G. specialize (He _ _ G). destruct l; [contradiction|reflexivity].
        - split; [assumption|]. intros c. destruct (cell_eqb k c) eqn:E; [|reflexivity].
          apply cell_eqb_eq in E. subst. rewrite G. reflexivity. }
      destruct A as [A1 A2].
      assert (He' : forall c l, cell_get (remove_cell ieq it m k) c = Some l -> l <> []).
      { intros c l. rewrite A2. destruct (cell_eqb k c).
        - intros E ->. destruct (drop_first _ _ _); discriminate.
        - apply He. }
      destruct (IH _ H2 A1 He') as [K1 K2]. split; [assumption|]. intros c. rewrite K2, A2.
      destruct (cell_dec k c) as [->|N].
      + rewrite cell_eqb_refl. destruct (in_dec cell_dec c cells); [contradiction|]. reflexivity.
      + rewrite (proj2 (cell_eqb_neq k c) N). destruct (in_dec cell_dec c cells); reflexivity.
  Qed.

  Lemma covers_eq : forall a b c, ieq a b = true -> coversb c a = coversb c b.
  Proof. intros a b c H. unfold coversb. rewrite (ieq_box a b H). reflexivity. Qed.

  Lemma drop_filter : forall c it s,
    filter (coversb c) (drop_first ieq s it) =
    if coversb c it then drop_first ieq (filter (coversb c) s) it else filter (coversb c) s.
  Proof.
    intros c it. induction s as [|x s IH]; simpl.
    - destruct (coversb c it); reflexivity.
    - destruct (ieq x it) eqn:E.
      + rewrite (covers_eq x it c E). destruct (coversb c it) eqn:F; simpl; [|reflexivity].
        rewrite E. reflexivity.
      + simpl. rewrite IH. destruct (coversb c x), (coversb c it); simpl; try rewrite E; reflexivity.
  Qed.

  Lemma remove_rep : forall m s it, Rep m s ->
    Rep (sm_remove cs eps box ieq m it) (drop_first ieq s it).
  Proof.
    intros m s it [Hm Hg].
    destruct (remove_fold it (cells (box it)) m (cells_nodup _) Hm) as [K1 K2].
    { intros c l. rewrite Hg. destruct (filter (coversb c) s); simpl; congruence. }
    split; [assumption|]. intros c. unfold sm_remove. rewrite K2, drop_filter.
    destruct (in_dec cell_dec c (cells (box it))) as [I|I]; rewrite Hg.
    - rewrite (proj2 (coversb_in c it) I). destruct (filter (coversb c) s); reflexivity.
    - rewrite <- coversb_in in I. destruct (coversb c it); [exfalso; apply I; reflexivity|reflexivity].
  Qed.

  Lemma run_rep : forall ops, Rep (run_map cs eps box ieq ops) (bag ieq ops).
  Proof.
    intros ops. unfold run_map, bag.
    assert (G : forall m s, Rep m s -> Rep (fold_left (run_map_op cs eps box ieq) ops m) (fold_left (bag_op ieq) ops s)).
    { induction ops as [|o ops IH]; intros m s H; simpl; [assumption|].
      apply IH. destruct o; simpl.
      - apply add_rep. assumption.
      - apply remove_rep. assumption.
      - split; [constructor|reflexivity]. }
    apply G. split; [constructor|reflexivity].
  Qed.

  Lemma rep_content : forall m s c, Rep m s ->
    match cell_get m c with Some l => l | None => [] end = filter (coversb c) s.
  Proof. intros m s c [_ H]. rewrite H. destruct (filter (coversb c) s); reflexivity. Qed.

  (** *** C12 *)
  Lemma map_contents : forall ops c it,
    In it (match cell_get (run_map cs eps box ieq ops) c with Some l => l | None => [] end) <->
    In it (bag ieq ops) /\ item_touches cs eps box c it.
  Proof.
    intros. rewrite (rep_content _ _ c (run_rep ops)), filter_In, coversb_spec. tauto.
  Qed.

  Lemma map_contents_order : forall ops c, exists f,
    (forall it, f it = true <-> item_touches cs eps box c it) /\
    match cell_get (run_map cs eps box ieq ops) c with Some l => l | None => [] end
    = filter f (bag ieq ops).
  Proof.
    intros. exists (coversb c). split; [apply coversb_spec|]. apply rep_content. apply run_rep.
  Qed.

  Lemma map_no_empty_cells : forall ops c l,
    cell_get (run_map cs eps box ieq ops) c = Some l -> l <> [].
  Proof.
    intros ops c l. destruct (run_rep ops) as [_ H]. rewrite H.
    destruct (filter (coversb c) (bag ieq ops)); simpl; congruence.
  Qed.

  Lemma remove_absent : forall ops it,
    (forall x, In x (bag ieq ops) -> ieq x it = false) ->
    forall c, cell_get (run_map cs eps box ieq (ops ++ [MRemove it])) c
              = cell_get (run_map cs eps box ieq ops) c.
  Proof.
    intros ops it H c. destruct (run_rep (ops ++ [MRemove it])) as [_ H1]. destruct (run_rep ops) as [_ H2].
    rewrite H1, H2. f_equal. f_equal. unfold bag. rewrite fold_left_app. simpl.
    fold (bag ieq ops). clear - H.
    induction (bag ieq ops) as [|x s IH]; simpl; [reflexivity|].
    rewrite (H x) by (left; reflexivity). f_equal. apply IH. intros y Hy. apply H. right. assumption.
  Qed.

  Lemma remove_keeps : forall ops it x c, ieq x it = false ->
    (In x (match cell_get (run_map cs eps box ieq (ops ++ [MRemove it])) c with Some l => l | None => [] end) <->
     In x (match cell_get (run_map cs eps box ieq ops) c with Some l => l | None => [] end)).
  Proof.
    intros ops it x c H. rewrite !map_contents.
    assert (E : bag ieq (ops ++ [MRemove it]) = drop_first ieq (bag ieq ops) it).
    { unfold bag. rewrite fold_left_app. reflexivity. }
    rewrite E. assert (D : forall l, In x (drop_first ieq l it) <-> In x l); [|rewrite D; tauto].
    induction l as [|y l IH]; simpl; [tauto|].
    destruct (ieq y it) eqn:F; simpl; [|rewrite IH; tauto].
    split; [auto|]. intros [->|I]; [congruence|assumption].
  Qed.

  (** *** C09 *)
  Definition pin (p : zpt) (it : item) : bool :=
    match box it with Some b => zpoint_in p b | None => false end.

  Lemma pin_spec : forall p it, pin p it = true <-> exists b, box it = Some b /\ in_zbox p b.
  Proof.
    intros p it. unfold pin. destruct (box it) as [b|].
    - unfold zpoint_in, in_zbox. rewrite !andb_true_iff, !Z.leb_le. split.
      + intros H. exists b. tauto.
      + intros [b' [E H]]. inversion E; subst. tauto.
    - split; [discriminate|]. intros [b [E _]]. discriminate.
  Qed.

  Lemma point_loop_spec : forall p limit l items,
    point_loop box p limit l items =
    items ++ match limit with
             | None => filter (pin p) l
             | Some n => firstn (Z.to_nat n - length items) (filter (pin p) l)
             end.
  Proof.
    intros p limit. induction l as [|it l IH]; intros items; simpl.
    - destruct limit; [rewrite firstn_nil|]; rewrite app_nil_r; reflexivity.
    - change (match box it with Some b => zpoint_in p b | None => false end) with (pin p it).
      destruct (pin p it) eqn:E.
      + unfold full. destruct limit as [n|].
        * destruct (Z.leb_spec n (Z.of_nat (length items))) as [F|F].
          -- replace (Z.to_nat n - length items)%nat with 0%nat by lia. rewrite app_nil_r. reflexivity.
          -- rewrite IH, <- app_assoc. simpl.
             replace (Z.to_nat n - length items)%nat with (S (Z.to_nat n - length (items ++ [it])))
               by (rewrite app_length; simpl; lia). reflexivity.
        * rewrite IH, <- app_assoc. reflexivity.
      + apply IH.
  Qed.

  Lemma filter_filter : forall (f g : item -> bool) l, filter f (filter g l) = filter (fun x => f x && g x) l.
  Proof.
    intros f g. induction l as [|x l IH]; simpl; [reflexivity|].
    destruct (g x); simpl; rewrite ?IH; destruct (f x); simpl; rewrite ?IH; reflexivity.
  Qed.

  Lemma get_on_point_list : forall ops p limit,
    get_on_point cs box (run_map cs eps box ieq ops) p limit =
    limited limit (filter (fun it => pin p it && coversb (map_coords cs p) it) (bag ieq ops)).
  Proof.
    intros ops p limit. unfold get_on_point.
    pose proof (rep_content _ _ (map_coords cs p) (run_rep ops)) as R.
    rewrite <- filter_filter, <- R.
    destruct (cell_get _ _) as [l|].
    - rewrite point_loop_spec. destruct limit; simpl; rewrite ?Nat.sub_0_r; reflexivity.
    - destruct limit; [simpl; rewrite firstn_nil|]; reflexivity.
  Qed.

  Lemma covers_at : forall p b, in_zbox p b ->
    (touches cs eps b (map_coords cs p) <-> ~ seam cs eps p b).
  Proof.
    intros [x y] b [H1 H2]. unfold touches, seam, map_coords. cbn [fst snd] in *.
    pose proof (Z.mul_div_le x cs Hcs). pose proof (Z.mul_div_le y cs Hcs).
    pose proof (Z.mul_succ_div_gt x cs Hcs). pose proof (Z.mul_succ_div_gt y cs Hcs).
    split.
    - intros [[A1 A2] [A3 A4]] [k [[K1 K2]|[K1 K2]]].
      + assert (k <= x / cs) by (apply Z.div_le_lower_bound; lia). nia.
      + assert (k <= y / cs) by (apply Z.div_le_lower_bound; lia). nia.
    - intros N. repeat split; try nia.
      + destruct (Z_le_gt_dec (x / cs * cs) (br b - eps)); [assumption|].
        exfalso. apply N. exists (x / cs). left. lia.
      + destruct (Z_le_gt_dec (y / cs * cs) (bb b - eps)); [assumption|].
        exfalso. apply N. exists (y / cs). right. lia.
  Qed.

  Lemma get_on_point_exact : forall ops p it,
    In it (get_on_point cs box (run_map cs eps box ieq ops) p None) <->
    In it (bag ieq ops) /\ exists b, box it = Some b /\ in_zbox p b /\ ~ seam cs eps p b.
  Proof.
    intros ops p it. rewrite get_on_point_list. cbn [limited].
    rewrite filter_In, andb_true_iff, pin_spec, coversb_spec. unfold item_touches. split.
    - intros [H [[b [E1 E2]] [b' [E3 E4]]]]. split; [assumption|]. exists b.
      rewrite E1 in E3. inversion E3; subst. rewrite covers_at in E4 by assumption. auto.
    - intros [H [b [E1 [E2 E3]]]]. split; [assumption|]. split; [eauto|]. exists b.
      rewrite covers_at by assumption. auto.
  Qed.

  Lemma get_on_point_limit : forall ops p limit,
    get_on_point cs box (run_map cs eps box ieq ops) p limit =
    limited limit (get_on_point cs box (run_map cs eps box ieq ops) p None).
  Proof. intros. rewrite !get_on_point_list. reflexivity. Qed.

  (** *** collecting with deduplication *)
  Fixpoint fresh (acc l : list item) : list item :=
    match l with
    | [] => []
    | x :: l' => if existsb (fun y => ieq y x) acc then fresh acc l' else x :: fresh (acc ++ [x]) l'
    end.

  Lemma fresh_app : forall l1 l2 acc, fresh acc (l1 ++ l2) = fresh acc l1 ++ fresh (acc ++ fresh acc l1) l2.
  Proof.
    induction l1 as [|x l1 IH]; intros l2 acc; simpl.
    - rewrite app_nil_r. reflexivity.
    - destruct (existsb (fun y => ieq y x) acc).
      + apply IH.
      + simpl. rewrite IH, <- app_assoc. reflexivity.
  Qed.

  Lemma fresh_in : forall l acc x, In x (fresh acc l) -> In x l.
  Proof.
    induction l as [|y l IH]; simpl; intros acc x H; [assumption|].
    destruct (existsb _ acc); [right; eapply IH; eassumption|].
    destruct H as [->|H]; [left; reflexivity|right; eapply IH; eassumption].
  Qed.

  Lemma fresh_complete : forall l acc x, In x l ->
    exists y, In y (acc ++ fresh acc l) /\ ieq y x = true.
  Proof.
    induction l as [|y l IH]; simpl; intros acc x H; [contradiction|].
    destruct (existsb (fun z => ieq z y) acc) eqn:E.
    - destruct H as [->|H].
      + apply existsb_exists in E. destruct E as [z [E1 E2]]. exists z. split; [|assumption].
        apply in_or_app. left. assumption.
      + apply IH. assumption.
    - destruct H as [->|H].
      + exists x. split; [|apply ieq_refl]. apply in_or_app. right. left. reflexivity.
      + destruct (IH (acc ++ [y]) x H) as [z [Z1 Z2]]. exists z. split; [|assumption].
        rewrite <- app_assoc in Z1. assumption.
  Qed.

  Lemma fresh_distinct : forall l acc,
    ForallOrdPairs (fun a b => ieq a b = false) (fresh acc l) /\
    forall a b, In a acc -> In b (fresh acc l) -> ieq a b = false.
  Proof.
    induction l as [|x l IH]; intros acc; simpl.
    - split; [constructor|]. intros a b _ [].
    - destruct (existsb (fun y => ieq y x) acc) eqn:E; [apply IH|].
      destruct (IH (acc ++ [x])) as [I1 I2]. split.
      + constructor; [|assumption]. rewrite Forall_forall. intros b Hb. apply I2; [|assumption].
        apply in_or_app. right. left. reflexivity.
      + intros a b Ha [<-|Hb].
        * destruct (ieq a x) eqn:F; [|reflexivity].
          assert (existsb (fun y => ieq y x) acc = true) by (apply existsb_exists; eauto). congruence.
        * apply I2; [|assumption]. apply in_or_app. left. assumption.
  Qed.

  Lemma collect_loop_spec : forall test limit l items,
    collect_loop ieq test limit l items =
    items ++ match limit with
             | None => fresh items (filter test l)
             | Some n => firstn (Z.to_nat n - length items) (fresh items (filter test l))
             end.
  Proof.
    intros test limit. induction l as [|it l IH]; intros items; simpl.
    - destruct limit; [rewrite firstn_nil|]; rewrite app_nil_r; reflexivity.
    - destruct (test it) eqn:E; [|apply IH]. simpl. unfold full.
      destruct limit as [n|].
      + destruct (Z.leb_spec n (Z.of_nat (length items))) as [F|F].
        * replace (Z.to_nat n - length items)%nat with 0%nat by lia. rewrite app_nil_r. reflexivity.
        * destruct (existsb (fun x => ieq x it) items); rewrite IH; [reflexivity|].
          rewrite <- app_assoc. simpl.
          replace (Z.to_nat n - length items)%nat with (S (Z.to_nat n - length (items ++ [it])))
            by (rewrite app_length; simpl; lia). reflexivity.
      + destruct (existsb (fun x => ieq x it) items); rewrite IH; [reflexivity|].
        rewrite <- app_assoc. reflexivity.
  Qed.

  Definition content (m : smap) (c : zpt) : list item :=
    match cell_get m c with Some l => l | None => [] end.

  Lemma collect_spec : forall test limit m cells,
    collect ieq test limit m cells =
    limited limit (fresh [] (flat_map (fun c => filter test (content m c)) cells)).
  Proof.
    intros test limit m cells0. unfold collect.
    assert (G : forall cells items,
      (match limit with None => True | Some n => (length items <= Z.to_nat n)%nat end) ->
      fold_left (fun items c => match cell_get m c with
                              | None => items
                              | Some l => collect_loop ieq test limit l items
                              end) cells items =
      items ++ match limit with
             | None => fresh items (flat_map (fun c => filter test (content m c)) cells)
             | Some n => firstn (Z.to_nat n - length items)
                           (fresh items (flat_map (fun c => filter test (content m c)) cells))
             end).
    { induction cells as [|c cells IH]; intros items Hl; simpl.
      - destruct limit; [rewrite firstn_nil|]; rewrite app_nil_r; reflexivity.
      - rewrite fresh_app. unfold content at 1 2 4 5.
        destruct (cell_get m c) as [l|]; simpl.
        + rewrite collect_loop_spec. destruct limit as [n|].
          * set (d := fresh items (filter test l)).
            rewrite IH by (rewrite app_length, firstn_length; lia).
            rewrite <- app_assoc. f_equal. rewrite firstn_app. rewrite app_length, firstn_length.
            destruct (le_lt_dec (length d) (Z.to_nat n - length items)) as [L|L].
            -- rewrite Nat.min_r by lia. rewrite (firstn_all2 d) by lia.
               replace (Z.to_nat n - (length items + length d))%nat
                 with (Z.to_nat n - length items - length d)%nat by lia. reflexivity.
            -- replace (Z.to_nat n - length items - length d)%nat with 0%nat by lia.
               replace (Z.to_nat n - (length items + Nat.min (Z.to_nat n - length items) (length d)))%nat
                 with 0%nat by lia. reflexivity.
          * rewrite IH by exact I. rewrite <- app_assoc. reflexivity.
        + rewrite IH by assumption. rewrite app_nil_r. reflexivity. }
    rewrite G; [|destruct limit; [simpl; lia|exact I]]. 
    destruct limit; simpl; rewrite ?Nat.sub_0_r; reflexivity.
  Qed.

  Lemma stream_in : forall ops test cells it,
    In it (flat_map (fun c => filter test (content (run_map cs eps box ieq ops) c)) cells) <->
    In it (bag ieq ops) /\ test it = true /\ exists c, In c cells /\ item_touches cs eps box c it.
  Proof.
    intros. rewrite in_flat_map. split.
    - intros [c [H1 H2]]. apply filter_In in H2. destruct H2 as [H2 H3].
      apply map_contents in H2. destruct H2. eauto.
    - intros [H1 [H2 [c [H3 H4]]]]. exists c. split; [assumption|]. apply filter_In.
      split; [|assumption]. apply map_contents. auto.
  Qed.

  Lemma limited_in : forall limit (l : list item) x, In x (limited limit l) -> In x l.
  Proof.
    intros [n|] l x; simpl; [|auto]. intros H. rewrite <- (firstn_skipn (Z.to_nat n) l).
    apply in_or_app. left. assumption.
  Qed.

  Lemma fop_firstn : forall (R : item -> item -> Prop) n l, ForallOrdPairs R l -> ForallOrdPairs R (firstn n l).
  Proof.
    intros R. induction n as [|n IH]; intros l H; simpl; [constructor|].
    destruct H as [|a l Ha H]; constructor.
    - rewrite Forall_forall in *. intros x Hx. apply Ha.
      rewrite <- (firstn_skipn n l). apply in_or_app. left. assumption.
    - apply IH. assumption.
  Qed.

  (** *** C10 *)
  Lemma meets_spec : forall b q, zoverlaps b q = true <-> boxes_meet b q.
  Proof. intros. unfold zoverlaps, boxes_meet. rewrite !andb_true_iff, !Z.ltb_lt. tauto. Qed.
  Lemma overlaps_item_spec : forall q it,
    overlaps_item box q it = true <-> exists b, box it = Some b /\ boxes_meet b q.
  Proof.
    intros q it. unfold overlaps_item. destruct (box it) as [b|].
    - rewrite meets_spec. split; [eauto|]. intros [b' [E H]]. inversion E; subst. assumption.
    - split; [discriminate|]. intros [b [E _]]. discriminate.
  Qed.

  Lemma get_in_aabb_sound : forall ops q off limit it,
    In it (get_in_aabb cs eps box ieq (run_map cs eps box ieq ops) q off limit) ->
    In it (bag ieq ops) /\ exists b, box it = Some b /\ boxes_meet b (shift_box q off).
  Proof.
    intros ops q off limit it H. unfold get_in_aabb in H. rewrite collect_spec in H.
    apply limited_in, fresh_in, stream_in in H. destruct H as [H1 [H2 _]].
    split; [assumption|]. apply overlaps_item_spec. assumption.
  Qed.

  Lemma collect_distinct : forall test limit m cells,
    ForallOrdPairs (fun a b => ieq a b = false) (collect ieq test limit m cells).
  Proof.
    intros. rewrite collect_spec.
    destruct (fresh_distinct (flat_map (fun c => filter test (content m c)) cells) []) as [H _].
    destruct limit; simpl; [apply fop_firstn|]; assumption.
  Qed.

  Lemma collect_limit : forall test limit m cells,
    collect ieq test limit m cells = limited limit (collect ieq test None m cells).
  Proof. intros. rewrite !collect_spec. reflexivity. Qed.

  Lemma shared_cell : forall b q,
    bl b <= br b - eps -> bt b <= bb b - eps -> bl q <= br q - eps -> bt q <= bb q - eps ->
    bl b <= br q - eps -> bl q <= br b - eps -> bt b <= bb q - eps -> bt q <= bb b - eps ->
    exists c, touches cs eps q c /\ touches cs eps b c.
  Proof.
    intros b q H1 H2 H3 H4 H5 H6 H7 H8.
    exists (Z.max (bl b) (bl q) / cs, Z.max (bt b) (bt q) / cs).
    unfold touches. cbn [fst snd].
    pose proof (Z.mul_div_le (Z.max (bl b) (bl q)) cs Hcs).
    pose proof (Z.mul_succ_div_gt (Z.max (bl b) (bl q)) cs Hcs).
    pose proof (Z.mul_div_le (Z.max (bt b) (bt q)) cs Hcs).
    pose proof (Z.mul_succ_div_gt (Z.max (bt b) (bt q)) cs Hcs).
    repeat split; nia.
  Qed.

  Lemma get_in_aabb_complete : forall ops q it b,
    In it (bag ieq ops) -> box it = Some b ->
    bl b <= br b - eps -> bt b <= bb b - eps -> bl q <= br q - eps -> bt q <= bb q - eps ->
    bl b <= br q - eps -> bl q <= br b - eps -> bt b <= bb q - eps -> bt q <= bb b - eps ->
    exists it', In it' (get_in_aabb cs eps box ieq (run_map cs eps box ieq ops) q (0, 0) None) /\
                ieq it' it = true.
  Proof.
    intros ops q it b Hi Hb H1 H2 H3 H4 H5 H6 H7 H8. unfold get_in_aabb. rewrite collect_spec.
    cbn [limited].
    destruct (shared_cell b q) as [c [C1 C2]]; try assumption.
    destruct (fresh_complete (flat_map (fun c => filter (overlaps_item box (shift_box q (0, 0)))
       (content (run_map cs eps box ieq ops) c)) (cells (Some q))) [] it) as [y [Y1 Y2]].
    - apply stream_in. split; [assumption|]. split.
      + apply overlaps_item_spec. exists b. split; [assumption|]. unfold boxes_meet, shift_box. simpl. lia.
      + exists c. split; [apply cells_spec; assumption|]. exists b. auto.
    - exists y. auto.
  Qed.

  (** *** C11 *)
  Variable pos : item -> zpt.
  Lemma circle_spec : forall p r c, zpoint_in_circle p r c = true <-> within p r c.
  Proof. intros. unfold zpoint_in_circle, within. rewrite Z.leb_le. rewrite !Z.pow_2_r. tauto. Qed.

  Lemma circle_cell : forall p r c, 0 <= r -> within p r c ->
    In (map_coords cs p) (cells_of_radius cs r c).
  Proof.
    intros [x y] r [cx cy] Hr W. unfold within in W. cbn [fst snd] in W. rewrite !Z.pow_2_r in W.
    assert (Hx : Z.abs (x - cx) <= r).
    { apply Z.square_le_simpl_nonneg; [assumption|]. pose proof (Z.abs_square (x - cx)).
      pose proof (Z.abs_square (y - cy)). pose proof (Z.square_nonneg (x - cx)).
      pose proof (Z.square_nonneg (y - cy)). unfold Z.square in *. lia. }
    assert (Hy : Z.abs (y - cy) <= r).
    { apply Z.square_le_simpl_nonneg; [assumption|]. pose proof (Z.abs_square (x - cx)).
      pose proof (Z.abs_square (y - cy)). pose proof (Z.square_nonneg (x - cx)).
      pose proof (Z.square_nonneg (y - cy)). unfold Z.square in *. lia. }
    unfold cells_of_radius. apply filter_In. split.
    - rewrite grid_in, !zrange_in. unfold map_coords. simpl.
      assert ((cx - r) / cs <= x / cs) by (apply Z.div_le_mono; lia).
      assert (x / cs <= (cx + r) / cs) by (apply Z.div_le_mono; lia).
      assert ((cy - r) / cs <= y / cs) by (apply Z.div_le_mono; lia).
      assert (y / cs <= (cy + r) / cs) by (apply Z.div_le_mono; lia).
      lia.
    - unfold zbox_overlaps_circle, map_coords. cbn [fst snd bl bt br bb].
      pose proof (Z.mul_div_le x cs Hcs). pose proof (Z.mul_succ_div_gt x cs Hcs).
      pose proof (Z.mul_div_le y cs Hcs). pose proof (Z.mul_succ_div_gt y cs Hcs).
      set (i := x / cs) in *. set (j := y / cs) in *. clearbody i j.
      replace ((i + 1) * cs - i * cs) with cs by ring. replace ((j + 1) * cs - j * cs) with cs by ring.
      set (dx := Z.abs (2 * cx - (2 * (i * cs) + cs))).
      set (dy := Z.abs (2 * cy - (2 * (j * cs) + cs))).
      assert (Dx : dx - cs <= 2 * Z.abs (x - cx)) by (unfold dx; lia).
      assert (Dy : dy - cs <= 2 * Z.abs (y - cy)) by (unfold dy; lia).
      destruct (Z.ltb_spec (cs + 2 * r) dx); [lia|].
      destruct (Z.ltb_spec (cs + 2 * r) dy); [lia|].
      destruct (Z.leb_spec dx cs); [reflexivity|].
      destruct (Z.leb_spec dy cs); [reflexivity|].
      apply Z.leb_le.
      assert (A1 : (dx - cs) * (dx - cs) <= 4 * ((x - cx) * (x - cx))).
      { assert ((dx - cs) * (dx - cs) <= (2 * Z.abs (x - cx)) * (2 * Z.abs (x - cx))) by (apply Z.mul_le_mono_nonneg; lia).
        replace (4 * ((x - cx) * (x - cx))) with ((2 * Z.abs (x - cx)) * (2 * Z.abs (x - cx))); [assumption|].
        pose proof (Z.abs_square (x - cx)). lia. }
      assert (A2 : (dy - cs) * (dy - cs) <= 4 * ((y - cy) * (y - cy))).
      { assert ((dy - cs) * (dy - cs) <= (2 * Z.abs (y - cy)) * (2 * Z.abs (y - cy))) by (apply Z.mul_le_mono_nonneg; lia).
        replace (4 * ((y - cy) * (y - cy))) with ((2 * Z.abs (y - cy)) * (2 * Z.abs (y - cy))); [assumption|].
        pose proof (Z.abs_square (y - cy)). lia. }
      lia.
  Qed.

  Lemma get_in_radius_sound : forall ops r c limit it,
    In it (get_in_radius cs pos ieq (run_map cs eps box ieq ops) r c limit) ->
    In it (bag ieq ops) /\ within (pos it) r c.
  Proof.
    intros ops r c limit it H. unfold get_in_radius in H. rewrite collect_spec in H.
    apply limited_in, fresh_in, stream_in in H. destruct H as [H1 [H2 _]].
    split; [assumption|]. apply circle_spec. assumption.
  Qed.

  Lemma get_in_radius_complete : forall ops r c it, 0 <= r ->
    In it (bag ieq ops) -> within (pos it) r c -> item_touches cs eps box (map_coords cs (pos it)) it ->
    exists it', In it' (get_in_radius cs pos ieq (run_map cs eps box ieq ops) r c None) /\
                ieq it' it = true.
  Proof.
    intros ops r c it Hr Hi Hw Ht. unfold get_in_radius. rewrite collect_spec. cbn [limited].
    destruct (fresh_complete (flat_map (fun k => filter (fun it => zpoint_in_circle (pos it) r c)
       (content (run_map cs eps box ieq ops) k)) (cells_of_radius cs r c)) [] it) as [y [Y1 Y2]].
    - apply stream_in. split; [assumption|]. split; [apply circle_spec; assumption|].
      exists (map_coords cs (pos it)). split; [|assumption]. apply circle_cell; assumption.
    - exists y. auto.
  Qed.

  Lemma touches_pos : forall p b, bl b <= fst p -> fst p <= br b - eps -> bt b <= snd p -> snd p <= bb b - eps ->
    touches cs eps b (map_coords cs p).
  Proof.
    intros [x y] b H1 H2 H3 H4. unfold touches, map_coords. cbn [fst snd] in *.
    pose proof (Z.mul_div_le x cs Hcs). pose proof (Z.mul_succ_div_gt x cs Hcs).
    pose proof (Z.mul_div_le y cs Hcs). pose proof (Z.mul_succ_div_gt y cs Hcs).
    repeat split; nia.
  Qed.
End Map.
