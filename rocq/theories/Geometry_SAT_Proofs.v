(** Rotated rectangles: separating axes (C06) and bounding boxes (C07). *)
From Coq Require Import Reals ZArith List Bool Lra Lia Psatz.
From Verif Require Import Common Geometry_Model Geometry_Spec Geometry_Proofs.
Import ListNotations.
Local Open Scope R_scope.

(** ** Oriented boxes: a common view of [AABB] and [Rectangle] *)
Record obox := mkO { oc : pt; ohw : R; ohh : R; ocs : R; osn : R }.
Definition okbox (o : obox) : Prop :=
  0 < ohw o /\ 0 < ohh o /\ ocs o * ocs o + osn o * osn o = 1.
Definition oat (o : obox) (u v : R) : pt :=
  (fst (oc o) + (u * ocs o - v * osn o), snd (oc o) + (u * osn o + v * ocs o)).
Definition opoints (o : obox) : list pt :=
  [oat o (- ohw o) (- ohh o); oat o (ohw o) (- ohh o); oat o (ohw o) (ohh o);
   oat o (- ohw o) (ohh o)].
Definition onormals (o : obox) : list pt :=
  [(osn o, - ocs o); (ocs o, osn o); (- osn o, ocs o); (- ocs o, - osn o)].
Definition oinside (p : pt) (o : obox) : Prop :=
  exists u v, - ohw o < u < ohw o /\ - ohh o < v < ohh o /\ p = oat o u v.

Definition obox_of (s : shape) : obox :=
  match s with
  | SBox a => mkO ((x1 a + x2 a) / 2 + fst (apos a), (y1 a + y2 a) / 2 + snd (apos a))
                  ((x2 a - x1 a) / 2) ((y2 a - y1 a) / 2) 1 0
  | SRect r => mkO (rpos r) (rw r / 2) (rh r / 2)
                   (cos (rangle r * (PI / 180))) (sin (rangle r * (PI / 180)))
  end.

Lemma cos2sin2 : forall t, cos t * cos t + sin t * sin t = 1.
Proof. intros. pose proof (sin2_cos2 t) as H. unfold Rsqr in H. lra. Qed.

Lemma obox_ok : forall s, proper_shape s -> okbox (obox_of s).
Proof.
  intros [a|r]; unfold okbox; simpl; intros [H1 H2].
  - repeat split; lra.
  - repeat split; try lra. apply cos2sin2.
Qed.

Lemma pt_eq : forall a b c d : R, a = c -> b = d -> (a, b) = (c, d).
Proof. intros; subst; reflexivity. Qed.

Lemma list4_eq : forall a b c d a' b' c' d' : pt, a = a' -> b = b' -> c = c' -> d = d' ->
  [a; b; c; d] = [a'; b'; c'; d'].
Proof. intros; subst; reflexivity. Qed.

Lemma shape_points_o : forall s, shape_points s = opoints (obox_of s).
Proof.
  intros [[a1 b1 a2 b2 [ox oy]]|[[ox oy] w h t]]; simpl; unfold opoints, oat, aabb_points, rect_points;
    simpl; unfold rotate_point, radians; simpl;
    repeat (apply f_equal2; [apply pt_eq; field|]); reflexivity.
Qed.

Lemma norm_scaled : forall k c s, 0 < k -> c * c + s * s = 1 ->
  normalize (k * c, k * s) = (c, s).
Proof.
  intros k c s Hk E. unfold normalize, magnitude, dot_product. simpl.
  replace (k * c * (k * c) + k * s * (k * s)) with (k * k) by nra.
  rewrite sqrt_square by lra. apply pt_eq; field; lra.
Qed.

Lemma shape_normals_o : forall s, proper_shape s -> shape_normals s = onormals (obox_of s).
Proof.
  intros [[a1 b1 a2 b2 [ox oy]]|r] Hp.
  - simpl. unfold aabb_normals, onormals. simpl.
    repeat (f_equal; try (apply pt_eq; lra)).
  - change (shape_normals (SRect r)) with (rect_normals r). unfold rect_normals.
    change (rect_points r) with (shape_points (SRect r)). rewrite shape_points_o.
    pose proof (obox_ok _ Hp) as [H1 [H2 H3]].
    set (o := obox_of (SRect r)) in *. clearbody o. destruct o as [[cx cy] w h c s]. simpl in *.
    unfold opoints, onormals, edge_normal, perpendicular, oat. simpl.
    rewrite <- (norm_scaled (2 * w) s (- c)), <- (norm_scaled (2 * h) c s),
      <- (norm_scaled (2 * w) (- s) c), <- (norm_scaled (2 * h) (- c) (- s)); try lra.
    apply list4_eq; apply f_equal; apply pt_eq; ring.
Qed.

Lemma inside_shape_o : forall s p, inside_shape p s <-> oinside p (obox_of s).
Proof.
  intros [[a1 b1 a2 b2 [ox oy]]|r] [px py]; simpl; unfold inside_box, inside_rect, oinside, oat; simpl.
  - split.
    + intros H. exists (px - (a1 + a2) / 2 - ox), (py - (b1 + b2) / 2 - oy).
      repeat split; try lra. apply pt_eq; field.
    + intros [u [v [H1 [H2 E]]]]. inversion E; subst. lra.
  - split.
    + intros [u [v [H1 [H2 [E1 E2]]]]]. exists u, v. repeat split; try lra. apply pt_eq; assumption.
    + intros [u [v [H1 [H2 E]]]]. exists u, v. inversion E; subst. repeat split; lra.
Qed.

(** ** Projections *)
Definition support (o : obox) (n : pt) : R :=
  ohw o * Rabs (ocs o * fst n + osn o * snd n) + ohh o * Rabs (- osn o * fst n + ocs o * snd n).

Lemma if_min : forall d m, (if Rltb d m then d else m) = Rmin m d.
Proof.
  intros. unfold Rltb, Rmin. destruct (Rlt_dec d m), (Rle_dec m d); lra.
Qed.
Lemma if_max : forall d m, (if Rltb m d then d else m) = Rmax m d.
Proof.
  intros. unfold Rltb, Rmax. destruct (Rlt_dec m d), (Rle_dec m d); lra.
Qed.

Lemma flatten_o : forall o n, 0 < ohw o -> 0 < ohh o ->
  flatten_points_on (opoints o) n =
    Some (dot_product (oc o) n - support o n, dot_product (oc o) n + support o n).
Proof.
  intros [[cx cy] w h c s] [n1 n2] Hw Hh. simpl in *.
  unfold flatten_points_on, opoints, support, oat. simpl. unfold dot_product. simpl.
  set (P := c * n1 + s * n2). set (Q := - s * n1 + c * n2).
  set (M := cx * n1 + cy * n2).
  replace ((cx + (- w * c - - h * s)) * n1 + (cy + (- w * s + - h * c)) * n2) with (M - w * P - h * Q)
    by (unfold M, P, Q; ring).
  replace ((cx + (w * c - - h * s)) * n1 + (cy + (w * s + - h * c)) * n2) with (M + w * P - h * Q)
    by (unfold M, P, Q; ring).
  replace ((cx + (w * c - h * s)) * n1 + (cy + (w * s + h * c)) * n2) with (M + w * P + h * Q)
    by (unfold M, P, Q; ring).
  replace ((cx + (- w * c - h * s)) * n1 + (cy + (- w * s + h * c)) * n2) with (M - w * P + h * Q)
    by (unfold M, P, Q; ring).
  clearbody P Q M. clear - Hw Hh.
  assert (EP : w * Rabs P = Rabs (w * P)) by (rewrite Rabs_mult, (Rabs_pos_eq w) by lra; reflexivity).
  assert (EQ : h * Rabs Q = Rabs (h * Q)) by (rewrite Rabs_mult, (Rabs_pos_eq h) by lra; reflexivity).
  rewrite EP, EQ. set (p := w * P). set (q := h * Q). clearbody p q. clear.
  rewrite !if_max, !if_min.
  apply f_equal. apply pt_eq; unfold Rabs; destruct (Rcase_abs p), (Rcase_abs q);
    unfold Rmin, Rmax;
    repeat match goal with
           | |- context [Rle_dec ?u ?v] =>
               lazymatch u with context [Rle_dec _ _] => fail | _ =>
               lazymatch v with context [Rle_dec _ _] => fail | _ => destruct (Rle_dec u v) end end
           end; lra.
Qed.

Lemma sep_o : forall a b n, okbox a -> okbox b ->
  (is_separating_axis (opoints a) (opoints b) n = false <->
   Rabs (dot_product (oc a) n - dot_product (oc b) n) < support a n + support b n).
Proof.
  intros a b n [A1 [A2 _]] [B1 [B2 _]]. unfold is_separating_axis.
  rewrite !flatten_o by assumption. rewrite orb_false_iff, !Rleb_false.
  unfold Rabs. destruct (Rcase_abs _); lra.
Qed.

Lemma sat_conditions : forall a b, okbox a -> okbox b ->
  (sat_overlaps (opoints a) (onormals a) (opoints b) (onormals b) = true <->
   forall n, In n (onormals a ++ onormals b) ->
     Rabs (dot_product (oc a) n - dot_product (oc b) n) < support a n + support b n).
Proof.
  intros a b Ha Hb. unfold sat_overlaps.
  assert (G : forall l, negb (existsb (is_separating_axis (opoints a) (opoints b)) l) = true <->
    forall n, In n l -> Rabs (dot_product (oc a) n - dot_product (oc b) n) < support a n + support b n).
  { induction l as [|m l IH]; simpl.
    - split; intros; [contradiction|reflexivity].
    - rewrite negb_orb, andb_true_iff, IH, negb_true_iff, sep_o by assumption. split.
      + intros [H1 H2] n [<-|Hn]; auto.
      + intros H. split; auto. }
  rewrite andb_true_iff, !G. split.
  - intros [H1 H2] n Hn. apply in_app_or in Hn. destruct Hn; auto.
  - intros H. split; intros; apply H; apply in_or_app; auto.
Qed.

(** ** The core of the separating axis theorem *)
Lemma between_lists : forall L U : list R, (forall l u, In l L -> In u U -> l < u) ->
  exists x, (forall l, In l L -> l < x) /\ (forall u, In u U -> x < u).
Proof.
  assert (M : forall (l : R) L, exists m, In m (l :: L) /\ forall k, In k (l :: L) -> k <= m).
  { intros l L. revert l. induction L as [|k L IH]; intros l.
    - exists l. split; [left; reflexivity|]. intros k [->|[]]. lra.
    - destruct (IH k) as [m [Hm1 Hm2]]. destruct (Rle_dec l m).
      + exists m. split; [right; assumption|]. intros j [->|Hj]; auto.
      + exists l. split; [left; reflexivity|]. intros j [->|Hj]; [lra|]. apply Hm2 in Hj. lra. }
  assert (M' : forall (l : R) L, exists m, In m (l :: L) /\ forall k, In k (l :: L) -> m <= k).
  { intros l L. revert l. induction L as [|k L IH]; intros l.
    - exists l. split; [left; reflexivity|]. intros k [->|[]]. lra.
    - destruct (IH k) as [m [Hm1 Hm2]]. destruct (Rle_dec m l).
      + exists m. split; [right; assumption|]. intros j [->|Hj]; auto.
      + exists l. split; [left; reflexivity|]. intros j [->|Hj]; [lra|]. apply Hm2 in Hj. lra. }
  intros [|l L] [|u U] H.
  - exists 0. split; intros ? [].
  - destruct (M' u U) as [m [H1 H2]]. exists (m - 1). split; [intros ? []|].
    intros k Hk. apply H2 in Hk. lra.
  - destruct (M l L) as [m [H1 H2]]. exists (m + 1). split; [|intros ? []].
    intros k Hk. apply H2 in Hk. lra.
  - destruct (M l L) as [m [H1 H2]]. destruct (M' u U) as [m' [H1' H2']].
    pose proof (H m m' H1 H1'). exists ((m + m') / 2). split; intros k Hk.
    + apply H2 in Hk. lra.
    + apply H2' in Hk. lra.
Qed.

Lemma div_lt : forall a b c, 0 < c -> (a / c < b <-> a < b * c).
Proof.
  intros a b c Hc. split; intros H.
  - apply (Rmult_lt_compat_r c) in H; [|assumption]. replace (a / c * c) with a in H by (field; lra). lra.
  - apply (Rmult_lt_reg_r c); [assumption|]. replace (a / c * c) with a by (field; lra). lra.
Qed.
Lemma lt_div : forall a b c, 0 < c -> (b < a / c <-> b * c < a).
Proof.
  intros a b c Hc. split; intros H.
  - apply (Rmult_lt_compat_r c) in H; [|assumption]. replace (a / c * c) with a in H by (field; lra). lra.
  - apply (Rmult_lt_reg_r c); [assumption|]. replace (a / c * c) with a by (field; lra). lra.
Qed.
Lemma div_lt_div : forall a b c d, 0 < c -> 0 < d -> (a / c < b / d <-> a * d < b * c).
Proof.
  intros a b c d Hc Hd. rewrite div_lt, <- (Rmult_comm c) by assumption.
  replace (c * (b / d)) with (b * c / d) by (field; lra). rewrite lt_div by assumption. lra.
Qed.

Lemma sat_core_pos : forall c s a1 a2 b1 b2 k1 k2,
  0 < c -> 0 < s -> c * c + s * s = 1 -> 0 < a1 -> 0 < a2 -> 0 < b1 -> 0 < b2 ->
  - (a1 + b1 * c + b2 * s) < c * k1 - s * k2 < a1 + b1 * c + b2 * s ->
  - (a2 + b1 * s + b2 * c) < s * k1 + c * k2 < a2 + b1 * s + b2 * c ->
  - (b1 + a1 * c + a2 * s) < k1 < b1 + a1 * c + a2 * s ->
  - (b2 + a1 * s + a2 * c) < k2 < b2 + a1 * s + a2 * c ->
  exists x y, - a1 < x < a1 /\ - a2 < y < a2 /\
    - b1 < c * x + s * y - k1 < b1 /\ - b2 < - s * x + c * y - k2 < b2.
Proof.
  intros c s a1 a2 b1 b2 k1 k2 Hc Hs E A1 A2 B1 B2 S1 S2 S3 S4.
  assert (X : exists x,
    (forall l, In l [- a1; (k1 - b1 - s * a2) / c; (- (k2 + b2) - c * a2) / s; c * (k1 - b1) - s * (k2 + b2)] -> l < x) /\
    (forall u, In u [a1; (k1 + b1 + s * a2) / c; (c * a2 - k2 + b2) / s; c * (k1 + b1) - s * (k2 - b2)] -> x < u)).
  { apply between_lists. intros l u Hl Hu. simpl in Hl, Hu.
    assert (CC : 0 < c * c) by nra. assert (SS : 0 < s * s) by nra.
    assert (CS : 0 < c * s) by nra.
    destruct Hl as [<-|[<-|[<-|[<-|[]]]]]; destruct Hu as [<-|[<-|[<-|[<-|[]]]]];
      try (rewrite div_lt_div by assumption); try (rewrite div_lt by assumption);
      try (rewrite lt_div by assumption); nra. }
  destruct X as [x [XL XU]].
  assert (Y : exists y,
    (forall l, In l [- a2; (k1 - b1 - c * x) / s; (k2 - b2 + s * x) / c] -> l < y) /\
    (forall u, In u [a2; (k1 + b1 - c * x) / s; (k2 + b2 + s * x) / c] -> y < u)).
  { apply between_lists.
    pose proof (XL (- a1) (or_introl eq_refl)) as L0.
    pose proof (XL _ (or_intror (or_introl eq_refl))) as L1.
    pose proof (XL _ (or_intror (or_intror (or_introl eq_refl)))) as L2.
    pose proof (XL _ (or_intror (or_intror (or_intror (or_introl eq_refl))))) as L3.
    pose proof (XU _ (or_introl eq_refl)) as U0.
    pose proof (XU _ (or_intror (or_introl eq_refl))) as U1.
    pose proof (XU _ (or_intror (or_intror (or_introl eq_refl)))) as U2.
    pose proof (XU _ (or_intror (or_intror (or_intror (or_introl eq_refl))))) as U3.
    rewrite div_lt in L1, L2 by assumption. rewrite lt_div in U1, U2 by assumption.
    assert (XE : x = x * (c * c) + x * (s * s)) by nra.
    intros l u Hl Hu. simpl in Hl, Hu.
    destruct Hl as [<-|[<-|[<-|[]]]]; destruct Hu as [<-|[<-|[<-|[]]]];
      try (rewrite div_lt_div by assumption); try (rewrite div_lt by assumption);
      try (rewrite lt_div by assumption); nra. }
  destruct Y as [y [YL YU]]. exists x, y.
  pose proof (XL (- a1) (or_introl eq_refl)) as L0.
  pose proof (XU _ (or_introl eq_refl)) as U0.
  pose proof (YL _ (or_introl eq_refl)) as M0.
  pose proof (YL _ (or_intror (or_introl eq_refl))) as M1.
  pose proof (YL _ (or_intror (or_intror (or_introl eq_refl)))) as M2.
  pose proof (YU _ (or_introl eq_refl)) as N0.
  pose proof (YU _ (or_intror (or_introl eq_refl))) as N1.
  pose proof (YU _ (or_intror (or_intror (or_introl eq_refl)))) as N2.
  rewrite div_lt in M1, M2 by assumption. rewrite lt_div in N1, N2 by assumption.
  repeat split; lra.
Qed.

Lemma sat_core : forall c s a1 a2 b1 b2 k1 k2,
  c * c + s * s = 1 -> 0 < a1 -> 0 < a2 -> 0 < b1 -> 0 < b2 ->
  Rabs (c * k1 - s * k2) < a1 + b1 * Rabs c + b2 * Rabs s ->
  Rabs (s * k1 + c * k2) < a2 + b1 * Rabs s + b2 * Rabs c ->
  Rabs k1 < b1 + a1 * Rabs c + a2 * Rabs s ->
  Rabs k2 < b2 + a1 * Rabs s + a2 * Rabs c ->
  exists x y, - a1 < x < a1 /\ - a2 < y < a2 /\
    - b1 < c * x + s * y - k1 < b1 /\ - b2 < - s * x + c * y - k2 < b2.
Proof.
  intros c s a1 a2 b1 b2 k1 k2 E A1 A2 B1 B2 S1 S2 S3 S4.
  apply Rabs_def2 in S1. apply Rabs_def2 in S2. apply Rabs_def2 in S3. apply Rabs_def2 in S4.
  destruct (Req_dec s 0) as [->|Hs].
  { assert (Hc : c = 1 \/ c = -1) by (assert ((c - 1) * (c + 1) = 0) by lra;
      apply Rmult_integral in H; destruct H; [left|right]; lra).
    assert (Ec : Rabs c = 1) by (destruct Hc as [-> | ->]; [apply Rabs_R1|];
      replace (-1) with (- (1)) by ring; rewrite Rabs_Ropp; apply Rabs_R1).
    rewrite Ec, Rabs_R0 in *.
    destruct Hc as [-> | ->].
    - destruct (between2 (- a1) (k1 - b1) a1 (k1 + b1)) as [x Hx]; try lra.
      destruct (between2 (- a2) (k2 - b2) a2 (k2 + b2)) as [y Hy]; try lra.
      exists x, y. lra.
    - destruct (between2 (- a1) (- k1 - b1) a1 (- k1 + b1)) as [x Hx]; try lra.
      destruct (between2 (- a2) (- k2 - b2) a2 (- k2 + b2)) as [y Hy]; try lra.
      exists x, y. lra. }
  destruct (Req_dec c 0) as [->|Hc].
  { assert (Hd : s = 1 \/ s = -1) by (assert ((s - 1) * (s + 1) = 0) by lra;
      apply Rmult_integral in H; destruct H; [left|right]; lra).
    assert (Es : Rabs s = 1) by (destruct Hd as [-> | ->]; [apply Rabs_R1|];
      replace (-1) with (- (1)) by ring; rewrite Rabs_Ropp; apply Rabs_R1).
    rewrite Es, Rabs_R0 in *.
    destruct Hd as [-> | ->].
    - destruct (between2 (- a1) (- k2 - b2) a1 (- k2 + b2)) as [x Hx]; try lra.
      destruct (between2 (- a2) (k1 - b1) a2 (k1 + b1)) as [y Hy]; try lra.
      exists x, y. lra.
    - destruct (between2 (- a1) (k2 - b2) a1 (k2 + b2)) as [x Hx]; try lra.
      destruct (between2 (- a2) (- k1 - b1) a2 (- k1 + b1)) as [y Hy]; try lra.
      exists x, y. lra. }
  destruct (Rlt_dec 0 c) as [Pc|Pc]; destruct (Rlt_dec 0 s) as [Ps|Ps].
  - rewrite (Rabs_pos_eq c), (Rabs_pos_eq s) in * by lra.
    apply sat_core_pos; try assumption; lra.
  - rewrite (Rabs_pos_eq c), (Rabs_left s) in * by lra.
    destruct (sat_core_pos c (- s) a1 a2 b1 b2 k1 (- k2)) as [x [y H]]; try lra.
    exists x, (- y). repeat split; lra.
  - rewrite (Rabs_left c), (Rabs_pos_eq s) in * by lra.
    destruct (sat_core_pos (- c) s a1 a2 b1 b2 (- k1) k2) as [x [y H]]; try lra.
    exists x, (- y). repeat split; lra.
  - rewrite (Rabs_left c), (Rabs_left s) in * by lra.
    destruct (sat_core_pos (- c) (- s) a1 a2 b1 b2 (- k1) (- k2)) as [x [y H]]; try lra.
    exists x, y. repeat split; lra.
Qed.

(** ** Soundness and completeness on oriented boxes *)
Lemma support_inside : forall o p n, okbox o -> oinside p o ->
  fst n * fst n + snd n * snd n = 1 ->
  Rabs (dot_product p n - dot_product (oc o) n) < support o n.
Proof.
  intros [[cx cy] w h c s] p [n1 n2] [Hw [Hh E]] [u [v [Hu [Hv Ep]]]] N. subst p.
  unfold support, oat, dot_product. simpl in *.
  set (P := c * n1 + s * n2). set (Q := - s * n1 + c * n2).
  replace ((cx + (u * c - v * s)) * n1 + (cy + (u * s + v * c)) * n2 - (cx * n1 + cy * n2))
    with (u * P + v * Q) by (unfold P, Q; ring).
  assert (PQ : P * P + Q * Q = 1).
  { unfold P, Q.
    replace ((c * n1 + s * n2) * (c * n1 + s * n2) + (- s * n1 + c * n2) * (- s * n1 + c * n2))
      with ((c * c + s * s) * (n1 * n1 + n2 * n2)) by ring. rewrite E, N. ring. }
  clearbody P Q.
  assert (H1 : Rabs u < w) by (unfold Rabs; destruct (Rcase_abs u); lra).
  assert (H2 : Rabs v < h) by (unfold Rabs; destruct (Rcase_abs v); lra).
  apply Rle_lt_trans with (Rabs u * Rabs P + Rabs v * Rabs Q).
  { eapply Rle_trans; [apply Rabs_triang|]. rewrite !Rabs_mult. lra. }
  pose proof (Rabs_pos P). pose proof (Rabs_pos Q). pose proof (Rabs_pos u). pose proof (Rabs_pos v).
  destruct (Req_dec P 0) as [->|HP].
  - assert (HQ : Q <> 0) by (intros ->; lra). apply Rabs_pos_lt in HQ. rewrite Rabs_R0. nra.
  - apply Rabs_pos_lt in HP. nra.
Qed.

Lemma normals_unit : forall o n, okbox o -> In n (onormals o) -> fst n * fst n + snd n * snd n = 1.
Proof.
  intros [[cx cy] w h c s] n [Hw [Hh E]] H. simpl in *.
  destruct H as [<-|[<-|[<-|[<-|[]]]]]; simpl; lra.
Qed.

Lemma sat_sound : forall a b p, okbox a -> okbox b -> oinside p a -> oinside p b ->
  sat_overlaps (opoints a) (onormals a) (opoints b) (onormals b) = true.
Proof.
  intros a b p Ha Hb Ia Ib. apply sat_conditions; [assumption..|].
  intros n Hn.
  assert (U : fst n * fst n + snd n * snd n = 1).
  { apply in_app_or in Hn. destruct Hn as [Hn|Hn]; [apply (normals_unit a)|apply (normals_unit b)]; assumption. }
  pose proof (support_inside a p n Ha Ia U) as H1. pose proof (support_inside b p n Hb Ib U) as H2.
  apply Rabs_def2 in H1. apply Rabs_def2 in H2. apply Rabs_def1; lra.
Qed.

Lemma sat_complete : forall a b, okbox a -> okbox b ->
  sat_overlaps (opoints a) (onormals a) (opoints b) (onormals b) = true ->
  exists p, oinside p a /\ oinside p b.
Proof.
  intros [[ax ay] aw ah ac asn] [[bx by_] bw bh bc bs] Ha Hb H.
  rewrite sat_conditions in H by assumption.
  destruct Ha as [A1 [A2 EA]]. destruct Hb as [B1 [B2 EB]]. simpl in *.
  pose proof (H _ (or_intror (or_introl eq_refl))) as S1.
  pose proof (H _ (or_intror (or_intror (or_introl eq_refl)))) as S2.
  pose proof (H _ (or_intror (or_intror (or_intror (or_intror (or_intror (or_introl eq_refl))))))) as S3.
  pose proof (H _ (or_intror (or_intror (or_intror (or_intror (or_intror (or_intror (or_introl eq_refl)))))))) as S4.
  clear H. unfold dot_product, support in *. simpl in *.
  (* coordinates of b in the frame of a *)
  set (c := ac * bc + asn * bs). set (s := - asn * bc + ac * bs).
  set (k1 := (bx - ax) * bc + (by_ - ay) * bs). set (k2 := - (bx - ax) * bs + (by_ - ay) * bc).
  assert (E : c * c + s * s = 1).
  { unfold c, s.
    replace ((ac * bc + asn * bs) * (ac * bc + asn * bs) + (- asn * bc + ac * bs) * (- asn * bc + ac * bs))
      with ((ac * ac + asn * asn) * (bc * bc + bs * bs)) by ring. rewrite EA, EB. ring. }
  assert (F1 : (bx - ax) * ac + (by_ - ay) * asn = c * k1 - s * k2).
  { unfold c, s, k1, k2.
    transitivity (((bx - ax) * ac + (by_ - ay) * asn) * (bc * bc + bs * bs)); [rewrite EB; ring|ring]. }
  assert (F2 : - (bx - ax) * asn + (by_ - ay) * ac = s * k1 + c * k2).
  { unfold c, s, k1, k2.
    transitivity ((- (bx - ax) * asn + (by_ - ay) * ac) * (bc * bc + bs * bs)); [rewrite EB; ring|ring]. }
  destruct (sat_core c s aw ah bw bh k1 k2) as [x [y [X [Y [P Q]]]]]; try assumption.
  - rewrite <- F1.
    replace (Rabs ((bx - ax) * ac + (by_ - ay) * asn)) with (Rabs (ax * ac + ay * asn - (bx * ac + by_ * asn)))
      by (rewrite <- Rabs_Ropp; f_equal; ring).
    replace (ac * ac + asn * asn) with 1 in S1 by lra.
    replace (- asn * ac + ac * asn) with 0 in S1 by ring. rewrite Rabs_R1, Rabs_R0 in S1.
    replace (bc * ac + bs * asn) with c in S1 by (unfold c; ring).
    replace (- bs * ac + bc * asn) with (- s) in S1 by (unfold s; ring). rewrite Rabs_Ropp in S1. lra.
  - rewrite <- F2.
    replace (Rabs (- (bx - ax) * asn + (by_ - ay) * ac)) with (Rabs (ax * - asn + ay * ac - (bx * - asn + by_ * ac)))
      by (rewrite <- Rabs_Ropp; f_equal; ring).
    replace (ac * - asn + asn * ac) with 0 in S2 by ring.
    replace (- asn * - asn + ac * ac) with 1 in S2 by lra. rewrite Rabs_R1, Rabs_R0 in S2.
    replace (bc * - asn + bs * ac) with s in S2 by (unfold s; ring).
    replace (- bs * - asn + bc * ac) with c in S2 by (unfold c; ring). lra.
  - replace (Rabs k1) with (Rabs (ax * bc + ay * bs - (bx * bc + by_ * bs)))
      by (rewrite <- Rabs_Ropp; f_equal; unfold k1; ring).
    replace (bc * bc + bs * bs) with 1 in S3 by lra.
    replace (- bs * bc + bc * bs) with 0 in S3 by ring. rewrite Rabs_R1, Rabs_R0 in S3.
    replace (- asn * bc + ac * bs) with s in S3 by reflexivity.
    replace (ac * bc + asn * bs) with c in S3 by reflexivity. lra.
  - replace (Rabs k2) with (Rabs (ax * - bs + ay * bc - (bx * - bs + by_ * bc)))
      by (rewrite <- Rabs_Ropp; f_equal; unfold k2; ring).
    replace (bc * - bs + bs * bc) with 0 in S4 by ring.
    replace (- bs * - bs + bc * bc) with 1 in S4 by lra. rewrite Rabs_R1, Rabs_R0 in S4.
    replace (ac * - bs + asn * bc) with (- s) in S4 by (unfold s; ring). rewrite Rabs_Ropp in S4.
    replace (- asn * - bs + ac * bc) with c in S4 by (unfold c; ring). lra.
  - exists (ax + (x * ac - y * asn), ay + (x * asn + y * ac)). split.
    + exists x, y. simpl. repeat split; lra.
    + exists (c * x + s * y - k1), (- s * x + c * y - k2). simpl. repeat split; try lra.
      unfold oat. simpl. apply pt_eq.
      * transitivity (bx + ((c * x + s * y) * bc - (- s * x + c * y) * bs) - (k1 * bc - k2 * bs)); [|ring].
        replace (k1 * bc - k2 * bs) with ((bx - ax) * (bc * bc + bs * bs)) by (unfold k1, k2; ring).
        replace ((c * x + s * y) * bc - (- s * x + c * y) * bs)
          with ((x * ac - y * asn) * (bc * bc + bs * bs)) by (unfold c, s; ring).
        rewrite EB. ring.
      * transitivity (by_ + ((c * x + s * y) * bs + (- s * x + c * y) * bc) - (k1 * bs + k2 * bc)); [|ring].
        replace (k1 * bs + k2 * bc) with ((by_ - ay) * (bc * bc + bs * bs)) by (unfold k1, k2; ring).
        replace ((c * x + s * y) * bs + (- s * x + c * y) * bc)
          with ((x * asn + y * ac) * (bc * bc + bs * bs)) by (unfold c, s; ring).
        rewrite EB. ring.
Qed.

Lemma rect_overlaps_iff : forall a b, proper_shape a -> proper_shape b ->
  (rect_overlaps_rect a b = true <-> exists p, inside_shape p a /\ inside_shape p b).
Proof.
  intros a b Ha Hb. unfold rect_overlaps_rect.
  rewrite !shape_points_o, !shape_normals_o by assumption. split.
  - intros H. apply sat_complete in H; [|apply obox_ok; assumption..].
    destruct H as [p [H1 H2]]. exists p. rewrite !inside_shape_o. auto.
  - intros [p [H1 H2]]. rewrite inside_shape_o in H1, H2.
    eapply sat_sound; try eassumption; apply obox_ok; assumption.
Qed.

Lemma shape_overlaps_iff : forall a b, proper_shape a -> proper_shape b ->
  (shape_overlaps a b = true <-> exists p, inside_shape p a /\ inside_shape p b).
Proof.
  intros a b Ha Hb. destruct a as [a|a], b as [b|b];
    try (apply rect_overlaps_iff; assumption).
  apply overlaps_iff; assumption.
Qed.

Lemma set_overlaps_exists : forall s t, set_overlaps s t = true <->
  exists a b, In a s /\ In b t /\ shape_overlaps a b = true.
Proof.
  intros s t.
  assert (G : existsb (fun a => existsb (fun b => shape_overlaps a b) t) s = true <->
    exists a b, In a s /\ In b t /\ shape_overlaps a b = true).
  { rewrite existsb_exists. split.
    - intros [a [H1 H2]]. apply existsb_exists in H2. destruct H2 as [b [H2 H3]]. eauto.
    - intros [a [b [H1 [H2 H3]]]]. exists a. split; [assumption|]. apply existsb_exists. eauto. }
  unfold set_overlaps. destruct s as [|a [|a' s]]; try apply G.
  destruct t as [|b [|b' t]]; try apply G.
  split.
  - intros H. exists a, b. simpl. auto.
  - intros [a' [b' [[->|[]] [[->|[]] H]]]]. assumption.
Qed.

Lemma set_overlaps_iff : forall s t, Forall proper_shape s -> Forall proper_shape t ->
  (set_overlaps s t = true <->
   exists p a b, In a s /\ In b t /\ inside_shape p a /\ inside_shape p b).
Proof.
  intros s t Hs Ht. rewrite Forall_forall in Hs, Ht. rewrite set_overlaps_exists. split.
  - intros [a [b [H1 [H2 H3]]]]. apply shape_overlaps_iff in H3; auto.
    destruct H3 as [p [H3 H4]]. exists p, a, b. auto.
  - intros [p [a [b [H1 [H2 [H3 H4]]]]]]. exists a, b. split; [assumption|]. split; [assumption|].
    apply shape_overlaps_iff; auto. exists p. auto.
Qed.

(** ** C07: the bounding box of a rotated rectangle *)

Lemma scan4 : forall a b c d, a + c = b + d -> exists mn mx,
  scan [a; b; c; d] = (Some mn, Some mx) /\
  mn <= a /\ mn <= b /\ mn <= c /\ mn <= d /\
  (mn = a \/ mn = b \/ mn = c \/ mn = d) /\
  (mx = b \/ mx = c \/ mx = d) /\
  (a <= b \/ a <= c \/ a <= d -> a <= mx /\ b <= mx /\ c <= mx /\ d <= mx).
Proof.
  intros a b c d E. unfold scan. simpl.
  repeat (match goal with |- context [Rltb ?u ?v] =>
            unfold Rltb at 1; destruct (Rlt_dec u v) end; simpl);
    try (exfalso; lra); eexists; eexists; (split; [reflexivity|]); lra.
Qed.

Lemma corner_points : forall r p, corner_of p r <-> In p (rect_points r).
Proof.
  intros r [px py]. change (rect_points r) with (shape_points (SRect r)).
  rewrite shape_points_o. destruct r as [[ox oy] w h t]. unfold corner_of, opoints, oat. simpl. split.
  - intros [u [v [[-> | ->] [[-> | ->] [E1 E2]]]]]; simpl in E1, E2; subst; tauto.
  - intros [H|[H|[H|[H|[]]]]]; inversion H; subst.
    + exists (- (w / 2)), (- (h / 2)). tauto.
    + exists (w / 2), (- (h / 2)). tauto.
    + exists (w / 2), (h / 2). tauto.
    + exists (- (w / 2)), (h / 2). tauto.
Qed.

Lemma rect_box_exact : forall r, 0 < rw r -> 0 < rh r ->
  exists b, rect_bounding_box r = Some b /\ apos b = (0, 0) /\
    ((forall p, corner_of p r -> in_box p b) <->
     (0 <= cos (rangle r * (PI / 180)) \/ sin (rangle r * (PI / 180)) = 0)) /\
    (forall c, (forall p, corner_of p r -> in_box p c) -> box_subset b c).
Proof.
  intros r Hw Hh. unfold rect_bounding_box.
  assert (EP : forall p, corner_of p r <-> In p (opoints (obox_of (SRect r)))).
  { intros p. rewrite corner_points, <- shape_points_o. reflexivity. }
  change (rect_points r) with (shape_points (SRect r)). rewrite shape_points_o.
  pose proof (cos2sin2 (rangle r * (PI / 180))) as CS.
  set (o := obox_of (SRect r)) in *.
  assert (Ec : ocs o = cos (rangle r * (PI / 180))) by reflexivity.
  assert (Es : osn o = sin (rangle r * (PI / 180))) by reflexivity.
  rewrite <- Ec, <- Es in *.
  assert (O1 : 0 < ohw o) by (unfold o; simpl; lra).
  assert (O2 : 0 < ohh o) by (unfold o; simpl; lra).
  clearbody o. clear Ec Es Hw Hh. destruct o as [[cx cy] w h c s]. simpl in *.
  unfold opoints, oat in *. simpl in *.
  destruct (scan4 (cx + (- w * c - - h * s)) (cx + (w * c - - h * s)) (cx + (w * c - h * s))
     (cx + (- w * c - h * s)) ltac:(ring)) as [xa [xb [Ex [X1 [X2 [X3 [X4 [X5 [X6 X7]]]]]]]]].
  destruct (scan4 (cy + (- w * s + - h * c)) (cy + (w * s + - h * c)) (cy + (w * s + h * c))
     (cy + (- w * s + h * c)) ltac:(ring)) as [ya [yb [Ey [Y1 [Y2 [Y3 [Y4 [Y5 [Y6 Y7]]]]]]]]].
  rewrite Ex, Ey. eexists. split; [reflexivity|]. split; [reflexivity|]. split.
  - split.
    + intros H. pose proof (H _ (proj2 (EP _) (or_introl eq_refl))) as [[_ H1] [_ H2]].
      simpl in H1, H2. rewrite Rplus_0_r in H1, H2.
      destruct (Rle_dec 0 c) as [Hc|Hc]; [left; assumption|]. right.
      destruct (Rtotal_order s 0) as [Hs|[Hs|Hs]]; [exfalso|assumption|exfalso].
      * (* s < 0: the first corner is the strict maximum in y *)
        clear H1 X7 X5 X6. assert (W1 : 0 < w * - s) by nra. assert (W2 : 0 < h * - c) by nra.
        destruct Y6 as [-> | [-> | ->]]; lra.
      * clear H2 Y7 Y5 Y6. assert (W1 : 0 < h * s) by nra. assert (W2 : 0 < w * - c) by nra.
        destruct X6 as [-> | [-> | ->]]; lra.
    + intros H p Hp. apply EP in Hp.
      assert (AX : cx + (- w * c - - h * s) <= cx + (w * c - - h * s) \/
                   cx + (- w * c - - h * s) <= cx + (w * c - h * s) \/
                   cx + (- w * c - - h * s) <= cx + (- w * c - h * s)).
      { destruct H as [H|H]; [left; nra|].
        destruct (Rle_dec 0 c); [left; nra|]. right. right. nra. }
      assert (AY : cy + (- w * s + - h * c) <= cy + (w * s + - h * c) \/
                   cy + (- w * s + - h * c) <= cy + (w * s + h * c) \/
                   cy + (- w * s + - h * c) <= cy + (- w * s + h * c)).
      { destruct H as [H|H]; [right; right; nra|]. left. nra. }
      apply X7 in AX. apply Y7 in AY. unfold in_box. simpl.
      destruct Hp as [<-|[<-|[<-|[<-|[]]]]]; simpl; lra.
  - intros b Hb p Hp. unfold in_box in *. simpl in Hp.
    pose proof (Hb _ (proj2 (EP _) (or_introl eq_refl))) as B1.
    pose proof (Hb _ (proj2 (EP _) (or_intror (or_introl eq_refl)))) as B2.
    pose proof (Hb _ (proj2 (EP _) (or_intror (or_intror (or_introl eq_refl))))) as B3.
    pose proof (Hb _ (proj2 (EP _) (or_intror (or_intror (or_intror (or_introl eq_refl)))))) as B4.
    simpl in B1, B2, B3, B4.
    clear Ex Ey EP Hb CS X1 X2 X3 X4 X7 Y1 Y2 Y3 Y4 Y7.
    assert (K1 : x1 b + fst (apos b) <= xa) by (destruct X5 as [-> | [-> | [-> | ->]]]; lra).
    assert (K2 : xb <= x2 b + fst (apos b)) by (destruct X6 as [-> | [-> | ->]]; lra).
    assert (K3 : y1 b + snd (apos b) <= ya) by (destruct Y5 as [-> | [-> | [-> | ->]]]; lra).
    assert (K4 : yb <= y2 b + snd (apos b)) by (destruct Y6 as [-> | [-> | ->]]; lra).
    lra.
Qed.

(** A unit square turned by 135 degrees: its rightmost corner sticks out. *)
Lemma rect_box_135 : exists b p, rect_bounding_box (mkRect (0, 0) 2 2 135) = Some b /\
  corner_of p (mkRect (0, 0) 2 2 135) /\ ~ in_box p b.
Proof.
  destruct (rect_box_exact (mkRect (0, 0) 2 2 135)) as [b [E [_ [H _]]]]; simpl; try lra.
  assert (A : 135 * (PI / 180) = 3 * (PI / 4)) by field.
  assert (C : cos (135 * (PI / 180)) < 0).
  { rewrite A, cos_3PI4. pose proof (Rlt_sqrt2_0) as Q.
    assert (0 < 1 / sqrt 2) by (apply Rdiv_lt_0_compat; lra).
    replace (-1 / sqrt 2) with (- (1 / sqrt 2)) by (field; lra). lra. }
  assert (S : 0 < sin (135 * (PI / 180))).
  { rewrite A, sin_3PI4. pose proof (Rlt_sqrt2_0). apply Rdiv_lt_0_compat; lra. }
  (* one of the four corners is outside: otherwise the exact criterion applies *)
  set (r := mkRect (0, 0) 2 2 135) in *.
  assert (D : forall q, in_box q b \/ ~ in_box q b).
  { intros q. destruct (point_in_aabb q b) eqn:F; [left|right].
    - apply point_in_aabb_spec. assumption.
    - intros G. apply point_in_aabb_spec in G. congruence. }
  assert (N : exists q, In q (rect_points r) /\ ~ in_box q b).
  { assert (K : forall l, (exists q, In q l /\ ~ in_box q b) \/ (forall q, In q l -> in_box q b)).
    { induction l as [|q l [IH|IH]].
      - right. intros ? [].
      - left. destruct IH as [q' [I1 I2]]. exists q'. split; [right|]; assumption.
      - destruct (D q) as [I|I].
        + right. intros q' [<-|I']; auto.
        + left. exists q. split; [left; reflexivity|assumption]. }
    destruct (K (rect_points r)) as [I|I]; [assumption|]. exfalso.
    destruct H as [H _]. unfold r in H. simpl in H.
    destruct H as [H|H]; [|lra|lra].
    intros q Hq. apply I. apply corner_points. assumption. }
  destruct N as [q [N1 N2]]. exists b, q. split; [assumption|]. split; [|assumption].
  apply corner_points. assumption.
Qed.
