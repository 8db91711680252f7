(** Proofs about plane geometry (C04-C08). *)
From Coq Require Import Reals ZArith List Bool Lra Lia Psatz.
From Verif Require Import Common Geometry_Model Geometry_Spec.
Import ListNotations.
Local Open Scope R_scope.

Lemma Rltb_true : forall x y, Rltb x y = true <-> x < y.
Proof. intros. unfold Rltb. destruct (Rlt_dec x y); split; intros; try lra; congruence. Qed.
Lemma Rleb_true : forall x y, Rleb x y = true <-> x <= y.
Proof. intros. unfold Rleb. destruct (Rle_dec x y); split; intros; try lra; congruence. Qed.
Lemma Rltb_false : forall x y, Rltb x y = false <-> y <= x.
Proof. intros. unfold Rltb. destruct (Rlt_dec x y); split; intros; try lra; congruence. Qed.
Lemma Rleb_false : forall x y, Rleb x y = false <-> y < x.
Proof. intros. unfold Rleb. destruct (Rle_dec x y); split; intros; try lra; congruence. Qed.

(** ** C04 *)
Lemma point_in_aabb_spec : forall p a, point_in_aabb p a = true <-> in_box p a.
Proof.
  intros [px py] [a1 b1 a2 b2 [ox oy]]. unfold point_in_aabb, in_box. simpl.
  rewrite !andb_true_iff, !Rleb_true. tauto.
Qed.

Lemma overlaps_coords : forall a b, aabb_overlaps_aabb a b = true <->
  (fst (world_tl a) < fst (world_br b) /\ fst (world_tl b) < fst (world_br a)) /\
  (snd (world_tl a) < snd (world_br b) /\ snd (world_tl b) < snd (world_br a)).
Proof.
  intros. unfold aabb_overlaps_aabb. rewrite !andb_true_iff, !Rltb_true. tauto.
Qed.

Lemma between2 : forall l1 l2 u1 u2 : R, l1 < u1 -> l1 < u2 -> l2 < u1 -> l2 < u2 ->
  exists x, l1 < x /\ l2 < x /\ x < u1 /\ x < u2.
Proof.
  intros. exists ((Rmax l1 l2 + Rmin u1 u2) / 2).
  unfold Rmax, Rmin. destruct (Rle_dec l1 l2), (Rle_dec u1 u2); lra.
Qed.

Lemma overlaps_iff : forall a b, proper a -> proper b ->
  (aabb_overlaps_aabb a b = true <-> exists p, inside_box p a /\ inside_box p b).
Proof.
  intros [a1 b1 a2 b2 [ox oy]] [c1 d1 c2 d2 [qx qy]] [Ha1 Ha2] [Hb1 Hb2].
  rewrite overlaps_coords. unfold inside_box. simpl in *. split.
  - intros [[H1 H2] [H3 H4]].
    destruct (between2 (a1 + ox) (c1 + qx) (a2 + ox) (c2 + qx)) as [x Hx]; try lra.
    destruct (between2 (b1 + oy) (d1 + qy) (b2 + oy) (d2 + qy)) as [y Hy]; try lra.
    exists (x, y). simpl. intuition.
  - intros [[px py] H]. simpl in H. lra.
Qed.

Lemma overlaps_sym : forall a b, aabb_overlaps_aabb a b = aabb_overlaps_aabb b a.
Proof.
  intros. apply eq_true_iff_eq. rewrite !overlaps_coords. tauto.
Qed.

Lemma overlaps_translate : forall a b v,
  aabb_overlaps_aabb (aabb_add a v) (aabb_add b v) = aabb_overlaps_aabb a b.
Proof.
  intros [a1 b1 a2 b2 [ox oy]] [c1 d1 c2 d2 [qx qy]] [vx vy].
  apply eq_true_iff_eq. rewrite !overlaps_coords. simpl. lra.
Qed.

Lemma overlaps_bounding_box : forall a b,
  aabb_overlaps_aabb (aabb_bounding_box a) b = aabb_overlaps_aabb a b.
Proof.
  intros [a1 b1 a2 b2 [ox oy]] [c1 d1 c2 d2 [qx qy]].
  apply eq_true_iff_eq. rewrite !overlaps_coords. simpl. lra.
Qed.

Lemma bounding_box_same_points : forall p a, in_box p (aabb_bounding_box a) <-> in_box p a.
Proof. intros [x y] [a1 b1 a2 b2 [ox oy]]. unfold in_box. simpl. lra. Qed.

(** Boxes whose closed regions meet only on an edge or corner do not overlap. *)
Lemma touching : forall a b,
  (fst (world_br a) <= fst (world_tl b) \/ snd (world_br a) <= snd (world_tl b)) ->
  aabb_overlaps_aabb a b = false /\ aabb_overlaps_aabb b a = false.
Proof.
  intros a b H. rewrite (overlaps_sym b a). split;
  (destruct (aabb_overlaps_aabb a b) eqn:E; [|reflexivity];
   apply overlaps_coords in E; lra).
Qed.

(** ** C05 *)
Definition corners_le (b a : aabb) : Prop :=
  fst (world_tl a) <= fst (world_tl b) /\ snd (world_tl a) <= snd (world_tl b) /\
  fst (world_br b) <= fst (world_br a) /\ snd (world_br b) <= snd (world_br a).

Lemma subset_corners : forall a b, ordered b -> (box_subset b a <-> corners_le b a).
Proof.
  intros [a1 b1 a2 b2 [ox oy]] [c1 d1 c2 d2 [qx qy]] [H1 H2]. unfold box_subset, corners_le, in_box.
  simpl in *. split.
  - intros H. pose proof (H (c1 + qx, d1 + qy)) as Ha. pose proof (H (c2 + qx, d2 + qy)) as Hb.
    simpl in *. lra.
  - intros H [x y]. simpl. lra.
Qed.

(** Invariant of the folds: [area] bounds exactly the boxes of [bs]. *)
Definition bounds (bs : list aabb) (area : option aabb) : Prop :=
  match area with
  | None => bs = []
  | Some a => bs <> [] /\ ordered a /\ (forall b, In b bs -> corners_le b a) /\
              (forall c, (forall b, In b bs -> corners_le b c) -> corners_le a c)
  end.

Lemma bounds_single : forall b, ordered b -> bounds [b] (Some b).
Proof.
  intros b H. simpl. split; [discriminate|]. split; [assumption|]. split.
  - intros c [E|[]]. subst. unfold corners_le. lra.
  - intros c Hc. apply Hc. left. reflexivity.
Qed.

Lemma bounds_extend : forall bs cs a b, bounds bs a -> bounds cs b ->
  bounds (bs ++ cs) (extend_aabb a b).
Proof.
  intros bs cs [a|] [b|] Ha Hb; simpl in *.
  - destruct Ha as [Na [Oa [Ua La]]]. destruct Hb as [Nb [Ob [Ub Lb]]].
    assert (Ha2 : corners_le a a) by (unfold corners_le; lra).
    split; [destruct bs; [contradiction|discriminate]|].
    split.
    { unfold ordered in *. simpl. destruct a as [p1 q1 p2 q2 [ox oy]], b as [r1 s1 r2 s2 [qx qy]].
      simpl in *. unfold Rmin, Rmax.
      destruct (Rle_dec (p1 + ox) (r1 + qx)), (Rle_dec (q1 + oy) (s1 + qy)),
        (Rle_dec (p2 + ox) (r2 + qx)), (Rle_dec (q2 + oy) (s2 + qy)); lra. }
    split.
    + intros c Hc. apply in_app_or in Hc. destruct Hc as [Hc|Hc].
      * apply Ua in Hc. unfold corners_le in *. simpl.
        pose proof (Rmin_l (fst (world_tl a)) (fst (world_tl b))).
        pose proof (Rmin_l (snd (world_tl a)) (snd (world_tl b))).
        pose proof (Rmax_l (fst (world_br a)) (fst (world_br b))).
        pose proof (Rmax_l (snd (world_br a)) (snd (world_br b))). simpl in *. lra.
      * apply Ub in Hc. unfold corners_le in *. simpl.
        pose proof (Rmin_r (fst (world_tl a)) (fst (world_tl b))).
        pose proof (Rmin_r (snd (world_tl a)) (snd (world_tl b))).
        pose proof (Rmax_r (fst (world_br a)) (fst (world_br b))).
        pose proof (Rmax_r (snd (world_br a)) (snd (world_br b))). simpl in *. lra.
    + intros c Hc.
      assert (H1 : corners_le a c) by (apply La; intros; apply Hc; apply in_or_app; auto).
      assert (H2 : corners_le b c) by (apply Lb; intros; apply Hc; apply in_or_app; auto).
      unfold corners_le in *. simpl in *.
      repeat split; unfold Rmin, Rmax;
        match goal with |- context [Rle_dec ?u ?v] => destruct (Rle_dec u v) end; lra.
  - subst. rewrite app_nil_r. assumption.
  - subst. assumption.
  - subst. reflexivity.
Qed.

(** Leaf boxes of a tree, in order. *)
Fixpoint leaves (m : member) : list aabb :=
  match m with
  | Leaf None => []
  | Leaf (Some b) => [b]
  | Grp l => flat_map leaves l
  end.

Section member_ind.
  Variable P : member -> Prop.
  Hypothesis HL : forall b, P (Leaf b).
  Hypothesis HG : forall l, Forall P l -> P (Grp l).
  Fixpoint member_rect (m : member) : P m :=
    match m with
    | Leaf b => HL b
    | Grp l => HG l ((fix go l : Forall P l :=
                        match l with
                        | [] => Forall_nil _
                        | x :: l' => Forall_cons x (member_rect x) (go l')
                        end) l)
    end.
End member_ind.

Lemma leaves_spec : forall m b, In b (leaves m) <-> leaf_of b m.
Proof.
  induction m as [[a|]|l IH] using member_rect; intros b; simpl.
  - split; intros H.
    + destruct H as [->|[]]. constructor.
    + inversion H; subst. auto.
  - split; intros H; [contradiction|inversion H].
  - rewrite in_flat_map. rewrite Forall_forall in IH. split.
    + intros [m [H1 H2]]. econstructor; [eassumption|]. apply IH; assumption.
    + intros H. inversion H; subst. exists m. split; [assumption|]. apply IH; assumption.
Qed.

Lemma bounds_fold : forall l bs area, bounds bs area ->
  Forall (fun m => bounds (leaves m) (member_box m)) l ->
  bounds (bs ++ flat_map leaves l)
    (fold_left (fun area e => extend_aabb area (member_box e)) l area).
Proof.
  induction l as [|m l IH]; intros bs area Hb Hf; simpl.
  - rewrite app_nil_r. assumption.
  - inversion Hf; subst. rewrite app_assoc. apply IH; [|assumption].
    apply bounds_extend; assumption.
Qed.

Lemma member_box_fold : forall l area,
  (fix go (area : option aabb) (l : list member) : option aabb :=
     match l with [] => area | e :: l' => go (extend_aabb area (member_box e)) l' end) area l
  = fold_left (fun area e => extend_aabb area (member_box e)) l area.
Proof. induction l as [|m l IH]; intros area; simpl; [reflexivity|apply IH]. Qed.

Lemma bounds_member : forall m, Forall ordered (leaves m) -> bounds (leaves m) (member_box m).
Proof.
  induction m as [[a|]|l IH] using member_rect; intros Hf.
  - apply bounds_single. inversion Hf; assumption.
  - reflexivity.
  - simpl. rewrite member_box_fold.
    apply (bounds_fold l [] None); [reflexivity|].
    simpl in Hf. rewrite Forall_forall in *. intros m Hm. apply IH; [assumption|].
    rewrite Forall_forall. intros b Hb. apply Hf. apply in_flat_map. eauto.
Qed.

Definition opt_list (o : option aabb) : list aabb :=
  match o with None => [] | Some b => [b] end.

Lemma bounds_tiles : forall l bs area, bounds bs area ->
  Forall ordered (flat_map opt_list l) ->
  bounds (bs ++ flat_map opt_list l) (fold_left extend_aabb l area).
Proof.
  induction l as [|[t|] l IH]; intros bs area Hb Hf; simpl in *.
  - rewrite app_nil_r. assumption.
  - inversion Hf; subst. change (t :: flat_map opt_list l) with ([t] ++ flat_map opt_list l).
    rewrite app_assoc. apply IH; [|assumption].
    apply bounds_extend; [assumption|]. apply bounds_single. assumption.
  - replace (extend_aabb area None) with area by (destruct area; reflexivity).
    apply IH; assumption.
Qed.

(** All boxes of a blueprint. *)
Definition all_boxes (es : list member) (ts : list (option aabb)) : list aabb :=
  flat_map leaves es ++ flat_map opt_list ts.

Lemma all_boxes_spec : forall es ts b, In b (all_boxes es ts) <->
  (exists m, In m es /\ leaf_of b m) \/ In (Some b) ts.
Proof.
  intros. unfold all_boxes. rewrite in_app_iff, !in_flat_map. split.
  - intros [[m [H1 H2]]|[o [H1 H2]]].
    + left. exists m. split; [assumption|]. apply leaves_spec. assumption.
    + right. destruct o as [c|]; [|contradiction]. destruct H2 as [->|[]]. assumption.
  - intros [[m [H1 H2]]|H].
    + left. exists m. split; [assumption|]. apply leaves_spec. assumption.
    + right. exists (Some b). split; [assumption|]. left. reflexivity.
Qed.

Lemma blueprint_bounds : forall es ts,
  (forall b, (exists m, In m es /\ leaf_of b m) \/ In (Some b) ts -> ordered b) ->
  bounds (all_boxes es ts) (blueprint_box es ts).
Proof.
  intros es ts H. unfold blueprint_box, all_boxes.
  replace (fold_left (fun area t => extend_aabb area t) ts)
    with (fold_left extend_aabb ts) by reflexivity.
  apply bounds_tiles.
  - apply (bounds_fold es [] None); [reflexivity|].
    rewrite Forall_forall. intros m Hm. apply bounds_member.
    rewrite Forall_forall. intros b Hb. apply H. left. exists m. split; [assumption|].
    apply leaves_spec. assumption.
  - rewrite Forall_forall. intros b Hb. apply H. apply all_boxes_spec.
    unfold all_boxes. apply in_or_app. right. assumption.
Qed.

Lemma blueprint_box_least : forall es ts area,
  (forall b, (exists m, In m es /\ leaf_of b m) \/ In (Some b) ts -> ordered b) ->
  blueprint_box es ts = Some area ->
  (forall b, (exists m, In m es /\ leaf_of b m) \/ In (Some b) ts -> box_subset b area) /\
  (forall c, (forall b, (exists m, In m es /\ leaf_of b m) \/ In (Some b) ts -> box_subset b c) ->
     box_subset area c) /\
  ordered area.
Proof.
  intros es ts area H E. pose proof (blueprint_bounds es ts H) as B. rewrite E in B.
  destruct B as [_ [O [U L]]]. split; [|split; [|assumption]].
  - intros b Hb. apply subset_corners; [apply H; assumption|]. apply U. apply all_boxes_spec. assumption.
  - intros c Hc. apply subset_corners; [assumption|]. apply L. intros b Hb.
    apply all_boxes_spec in Hb. apply subset_corners; [apply H; assumption|]. apply Hc. assumption.
Qed.

Lemma blueprint_box_none : forall es ts,
  (forall b, (exists m, In m es /\ leaf_of b m) \/ In (Some b) ts -> ordered b) ->
  (blueprint_box es ts = None <->
   forall b, ~ ((exists m, In m es /\ leaf_of b m) \/ In (Some b) ts)).
Proof.
  intros es ts H. pose proof (blueprint_bounds es ts H) as B. split.
  - intros E b Hb. rewrite E in B. simpl in B. apply all_boxes_spec in Hb. rewrite B in Hb.
    contradiction.
  - intros Hn. destruct (blueprint_box es ts) as [a|]; [|reflexivity].
    destruct B as [Nn _]. exfalso. destruct (all_boxes es ts) as [|b l] eqn:E; [contradiction|].
    apply (Hn b). apply all_boxes_spec. rewrite E. left. reflexivity.
Qed.

Lemma Rceil_spec : forall x n, Rceil x = n <-> IZR n - 1 < x <= IZR n.
Proof.
  intros x n. unfold Rceil.
  pose proof (base_Int_part (- x)) as [H1 H2]. split.
  - intros E. rewrite <- E. rewrite opp_IZR. lra.
  - intros [H3 H4].
    assert (A : IZR (- n) - 1 < IZR (Int_part (- x)) < IZR (- n) + 1)
      by (rewrite opp_IZR; lra).
    destruct A as [A1 A2].
    replace (IZR (- n) - 1) with (IZR (- n - 1)) in A1 by (rewrite minus_IZR; reflexivity).
    replace (IZR (- n) + 1) with (IZR (- n + 1)) in A2 by (rewrite plus_IZR; reflexivity).
    apply lt_IZR in A1. apply lt_IZR in A2. lia.
Qed.

Lemma dimensions_spec : forall es ts w h, blueprint_dimensions es ts = (w, h) ->
  match blueprint_box es ts with
  | None => w = 0%Z /\ h = 0%Z
  | Some a => IZR w - 1 < x2 a - x1 a <= IZR w /\ IZR h - 1 < y2 a - y1 a <= IZR h
  end.
Proof.
  intros es ts w h. unfold blueprint_dimensions, aabb_to_dimensions.
  destruct (blueprint_box es ts) as [a|]; intros E; inversion E; subst; clear E.
  - split; apply Rceil_spec; reflexivity.
  - split; reflexivity.
Qed.

(** ** C08 *)
Lemma cos_period_Z : forall x (k : Z), cos (x + 2 * IZR k * PI) = cos x.
Proof.
  intros x k. destruct (Z_le_gt_dec 0 k) as [H|H].
  - rewrite <- (cos_period x (Z.to_nat k)). rewrite INR_IZR_INZ, Z2Nat.id by assumption. reflexivity.
  - rewrite <- (cos_period (x + 2 * IZR k * PI) (Z.to_nat (- k))).
    rewrite INR_IZR_INZ, Z2Nat.id by lia. rewrite opp_IZR. f_equal. ring.
Qed.
Lemma sin_period_Z : forall x (k : Z), sin (x + 2 * IZR k * PI) = sin x.
Proof.
  intros x k. destruct (Z_le_gt_dec 0 k) as [H|H].
  - rewrite <- (sin_period x (Z.to_nat k)). rewrite INR_IZR_INZ, Z2Nat.id by assumption. reflexivity.
  - rewrite <- (sin_period (x + 2 * IZR k * PI) (Z.to_nat (- k))).
    rewrite INR_IZR_INZ, Z2Nat.id by lia. rewrite opp_IZR. f_equal. ring.
Qed.

Lemma sin_3PI2' : sin (3 * (PI / 2)) = -1.
Proof. apply sin_3PI2. Qed.
Lemma cos_3PI2' : cos (3 * (PI / 2)) = 0.
Proof.
  replace (3 * (PI / 2)) with (PI / 2 + PI) by field. rewrite neg_cos, cos_PI2. ring.
Qed.

Lemma quarter_angle : forall amt k, amt = (4 * k)%Z ->
  exists j, (0 <= j < 4)%Z /\ j = (k mod 4)%Z /\
    cos (radians (IZR amt * (45 / 2))) = cos (IZR j * (PI / 2)) /\
    sin (radians (IZR amt * (45 / 2))) = sin (IZR j * (PI / 2)).
Proof.
  intros amt k ->. exists (k mod 4)%Z.
  pose proof (Z.mod_pos_bound k 4 ltac:(lia)). split; [assumption|]. split; [reflexivity|].
  assert (E : radians (IZR (4 * k) * (45 / 2)) = IZR (k mod 4) * (PI / 2) + 2 * IZR (k / 4) * PI).
  { unfold radians. rewrite mult_IZR.
    pose proof (Z.div_mod k 4 ltac:(lia)) as D.
    apply (f_equal IZR) in D. rewrite plus_IZR, mult_IZR in D. rewrite D. field. }
  rewrite E, cos_period_Z, sin_period_Z. split; reflexivity.
Qed.

Lemma rotate_turns : forall amt k p, amt = (4 * k)%Z ->
  rotate_point p (radians (IZR amt * (45 / 2))) = turns (Z.to_nat (k mod 4)) p.
Proof.
  intros amt k [x y] E. destruct (quarter_angle amt k E) as [j [Hj [Ej [Hc Hs]]]].
  unfold rotate_point. rewrite Hc, Hs, <- Ej. clear Hc Hs Ej.
  assert (D : (j = 0 \/ j = 1 \/ j = 2 \/ j = 3)%Z) by lia.
  destruct D as [-> | [-> | [-> | ->]]]; simpl; unfold turn; simpl.
  - rewrite Rmult_0_l, cos_0, sin_0. f_equal; ring.
  - rewrite Rmult_1_l, cos_PI2, sin_PI2. f_equal; ring.
  - replace (2 * (PI / 2)) with PI by field. rewrite cos_PI, sin_PI. f_equal; ring.
  - rewrite cos_3PI2', sin_3PI2'. f_equal; ring.
Qed.

Lemma mod4_form : forall amt, (amt mod 4 = 0)%Z -> amt = (4 * (amt / 4))%Z.
Proof. intros amt H. pose proof (Z.div_mod amt 4 ltac:(lia)). lia. Qed.

Lemma aabb_rotate_err : forall amt a,
  (amt mod 4 <> 0)%Z <-> aabb_rotate amt a = Err ValueError.
Proof.
  intros. unfold aabb_rotate. destruct (Z.eqb_spec (amt mod 4) 0); simpl; split; intros; auto;
    try contradiction; discriminate.
Qed.

Definition rot_box (j : nat) (a : aabb) : aabb :=
  match j with
  | 0%nat => a
  | 1%nat => mkAABB (- y2 a) (x1 a) (- y1 a) (x2 a) (apos a)
  | 2%nat => mkAABB (- x2 a) (- y2 a) (- x1 a) (- y1 a) (apos a)
  | _ => mkAABB (y1 a) (- x2 a) (y2 a) (- x1 a) (apos a)
  end.

Lemma quarters : forall k : Z, exists j, (j < 4)%nat /\ Z.to_nat (k mod 4) = j.
Proof.
  intros k. pose proof (Z.mod_pos_bound k 4 ltac:(lia)). exists (Z.to_nat (k mod 4)). split; [lia|reflexivity].
Qed.

Lemma aabb_rotate_box : forall k a, ordered a ->
  aabb_rotate (4 * k) a = Ok (rot_box (Z.to_nat (k mod 4)) a).
Proof.
  intros k a [H1 H2]. unfold aabb_rotate.
  replace ((4 * k) mod 4)%Z with 0%Z by (rewrite Z.mul_comm, Z.mod_mul by lia; reflexivity).
  change (negb (0 =? 0)%Z) with false. cbv beta iota zeta.
  rewrite (rotate_turns (4 * k) k (x1 a, y1 a) eq_refl), (rotate_turns (4 * k) k (x2 a, y2 a) eq_refl).
  f_equal. destruct (quarters k) as [j [Hj ->]].
  destruct a as [a1 b1 a2 b2 [ox oy]]; simpl in *.
  destruct j as [|[|[|[|j]]]]; try lia; simpl;
    unfold Rmin, Rmax; f_equal; repeat match goal with |- context [Rle_dec ?u ?v] => destruct (Rle_dec u v) end; lra.
Qed.

Lemma rot_box_image : forall j a p, (j < 4)%nat ->
  (in_local p (rot_box j a) <-> exists q, in_local q a /\ p = turns j q).
Proof.
  intros j [a1 b1 a2 b2 [ox oy]] [x y] Hj. unfold in_local.
  destruct j as [|[|[|[|j]]]]; try lia; simpl; unfold turn; simpl; split.
  - intros H. exists (x, y). auto.
  - intros [[u v] [H E]]. inversion E; subst. assumption.
  - intros H. exists (y, - x). simpl. split; [lra|f_equal; lra].
  - intros [[u v] [H E]]. inversion E; subst. simpl in *. lra.
  - intros H. exists (- x, - y). simpl. split; [lra|f_equal; lra].
  - intros [[u v] [H E]]. inversion E; subst. simpl in *. lra.
  - intros H. exists (- y, x). simpl. split; [lra|f_equal; lra].
  - intros [[u v] [H E]]. inversion E; subst. simpl in *. lra.
Qed.

Lemma rot_box_ordered : forall j a, ordered a -> ordered (rot_box j a).
Proof.
  intros j [a1 b1 a2 b2 [ox oy]] H. unfold ordered in *.
  destruct j as [|[|[|j]]]; simpl in *; lra.
Qed.

Lemma aabb_rotate_image : forall k a, ordered a -> exists b,
  aabb_rotate (4 * k) a = Ok b /\ apos b = apos a /\ ordered b /\
  forall p, in_local p b <-> exists q, in_local q a /\ p = turns (Z.to_nat (k mod 4)) q.
Proof.
  intros k a H. exists (rot_box (Z.to_nat (k mod 4)) a).
  destruct (quarters k) as [j [Hj E]].
  split; [apply aabb_rotate_box; assumption|]. rewrite E.
  split; [destruct j as [|[|[|j]]]; reflexivity|].
  split; [apply rot_box_ordered; assumption|]. intros p. apply rot_box_image. assumption.
Qed.

Lemma aabb_rotate_add : forall m n a b, ordered a ->
  aabb_rotate m a = Ok b -> (n mod 4 = 0)%Z -> aabb_rotate n b = aabb_rotate (m + n) a.
Proof.
  intros m n a b Ho E Hn.
  destruct (Z.eq_dec (m mod 4) 0) as [Hm|Hm].
  2:{ apply (aabb_rotate_err m a) in Hm. congruence. }
  rewrite (mod4_form m Hm) in *. rewrite (mod4_form n Hn) in *.
  set (k := (m / 4)%Z) in *. set (l := (n / 4)%Z) in *. clearbody k l. clear Hm Hn m n.
  rewrite <- Z.mul_add_distr_l.
  rewrite aabb_rotate_box in E by assumption. inversion E; subst; clear E.
  rewrite !aabb_rotate_box by (try apply rot_box_ordered; assumption). f_equal.
  assert (M : Z.to_nat ((k + l) mod 4) = ((Z.to_nat (k mod 4) + Z.to_nat (l mod 4)) mod 4)%nat).
  { rewrite Z.add_mod by lia.
    pose proof (Z.mod_pos_bound k 4 ltac:(lia)). pose proof (Z.mod_pos_bound l 4 ltac:(lia)).
    rewrite Z2Nat.inj_mod by lia. rewrite Z2Nat.inj_add by lia. reflexivity. }
  rewrite M. destruct (quarters k) as [i [Hi ->]]. destruct (quarters l) as [j [Hj ->]].
  destruct a as [a1 b1 a2 b2 [ox oy]].
  destruct i as [|[|[|[|i]]]]; try lia; destruct j as [|[|[|[|j]]]]; try lia; simpl; f_equal; lra.
Qed.

Lemma aabb_rotate_full : forall k a, ordered a -> aabb_rotate (16 * k) a = Ok a.
Proof.
  intros k a H. replace (16 * k)%Z with (4 * (k * 4))%Z by ring.
  rewrite aabb_rotate_box by assumption. rewrite Z.mod_mul by lia. reflexivity.
Qed.
