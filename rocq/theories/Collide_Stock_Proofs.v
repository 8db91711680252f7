(** Proofs about the collision rectangle of rolling stock (C53). *)
From Coq Require Import Reals ZArith List Bool Lra Lia Psatz.
From Verif Require Import Common Version_Model Geometry_Model Geometry_Spec Geometry_Proofs
  Geometry_SAT_Proofs Collide_Model Collide_Spec Collide_Proofs.
Import ListNotations.
Local Open Scope R_scope.

Lemma history_shape : forall vs a, exists t,
  cr (history vs a) = mkRect (0, 0) (x2 a - x1 a) (y2 a - y1 a) t /\
  cn (history vs a) = cn (stock_new a).
Proof.
  intros vs a. unfold history.
  assert (G : forall vs s, (exists t, cr s = mkRect (0, 0) (x2 a - x1 a) (y2 a - y1 a) t) /\ cn s = cn (stock_new a) ->
    exists t, cr (fold_left (fun s v => set_orientation v s) vs s) = mkRect (0, 0) (x2 a - x1 a) (y2 a - y1 a) t /\
      cn (fold_left (fun s v => set_orientation v s) vs s) = cn (stock_new a)).
  { clear vs. induction vs as [|v vs IH]; intros s [[t Hr] Hn]; simpl.
    - exists t. auto.
    - apply IH. destruct v as [|v|]; simpl; rewrite Hr; simpl; split; eauto. }
  apply G. split; [exists 0; reflexivity|reflexivity].
Qed.

Definition axes : list pt := [(0, -1); (1, 0); (0, 1); (-1, 0)].

Lemma stock_axes : forall a, proper a -> cn (stock_new a) = axes.
Proof.
  intros a Hp. unfold stock_new, rectangle_new. cbn [cn].
  change (rect_normals ?r) with (shape_normals (SRect r)).
  rewrite shape_normals_o by (unfold proper in Hp; simpl; lra).
  unfold onormals, obox_of. cbn [ocs osn rangle]. rewrite Rmult_0_l, cos_0, sin_0.
  unfold axes. apply list4_eq; apply pt_eq; ring.
Qed.

Lemma frac_turns : forall v, exists k : Z, frac v = v - IZR k.
Proof. intros v. exists (Int_part v). reflexivity. Qed.

Lemma frac_range : forall v, 0 <= frac v < 1.
Proof. intros v. unfold frac. pose proof (base_Int_part v). lra. Qed.

Lemma frac_turn : forall v p, plane_turn (frac v * 360) p = plane_turn (v * 360) p.
Proof.
  intros v p. destruct (frac_turns v) as [k ->].
  replace ((v - IZR k) * 360) with (v * 360 + 360 * IZR (- k)) by (rewrite opp_IZR; ring).
  apply turn_period.
Qed.

(** Corners of an upright rectangle about the origin, turned and moved. *)
Lemma corner_turned : forall g w h t p,
  corner_of p (mkRect g w h t) <->
  exists q, (fst q = w / 2 \/ fst q = - (w / 2)) /\ (snd q = h / 2 \/ snd q = - (h / 2)) /\
    p = moved g (plane_turn t q).
Proof.
  intros [gx gy] w h t [px py]. unfold corner_of, moved, plane_turn. cbn [rpos rw rh rangle fst snd]. split.
  - intros [u [v [H1 [H2 [H3 H4]]]]]. exists (u, v). cbn [fst snd]. split; [assumption|]. split; [assumption|].
    apply pt_eq; lra.
  - intros [[u v] [H1 [H2 E]]]. cbn [fst snd] in *. exists u, v. inversion E; subst. repeat split; try assumption; ring.
Qed.

Lemma corners_follow : forall vs v a g p,
  corner_of p (cr (stock_world (set_orientation (ONum v) (history vs a)) g)) <->
  exists q, (fst q = (x2 a - x1 a) / 2 \/ fst q = - ((x2 a - x1 a) / 2)) /\
    (snd q = (y2 a - y1 a) / 2 \/ snd q = - ((y2 a - y1 a) / 2)) /\
    p = moved g (plane_turn (v * 360) q).
Proof.
  intros vs v a g p. destruct (history_shape vs a) as [t [E _]].
  unfold stock_world, set_orientation. cbn [cr rpos rw rh rangle]. rewrite E. cbn [rpos rw rh rangle fst snd].
  rewrite corner_turned.
  assert (G : forall q, moved (0 + fst g, 0 + snd g) (plane_turn (frac v * 360) q) = moved g (plane_turn (v * 360) q)).
  { intros q. rewrite frac_turn, !Rplus_0_l. destruct g; reflexivity. }
  split; intros [q [H1 [H2 H3]]]; exists q; (split; [assumption|]); (split; [assumption|]); rewrite H3; rewrite G; reflexivity.
Qed.

(** ** The separating-axis loop with arbitrary normals *)
Lemma sat_general : forall a b na nb, okbox a -> okbox b ->
  (sat_overlaps (opoints a) na (opoints b) nb = true <->
   forall n, In n (na ++ nb) ->
     Rabs (dot_product (oc a) n - dot_product (oc b) n) < support a n + support b n).
Proof.
  intros a b na nb Ha Hb. unfold sat_overlaps.
  assert (G : forall l, negb (existsb (is_separating_axis (opoints a) (opoints b)) l) = true <->
    forall n, In n l -> Rabs (dot_product (oc a) n - dot_product (oc b) n) < support a n + support b n).
  { induction l as [|m l IH]; simpl.
    - split; intros; [contradiction|reflexivity].
    - rewrite negb_orb, andb_true_iff, IH, negb_true_iff, sep_o by assumption. split.
      + intros [H1 H2] n [<-|Hn]; auto.
      + intros H. split; auto. }
  rewrite andb_true_iff, !G. split.
  - intros [H1 H2] n Hn. apply in_app_or in Hn. destruct Hn; auto.
  - intros H. split; intros; apply H; apply in_or_app; auto.
Qed.

Lemma sat_general_sound : forall a b na nb p, okbox a -> okbox b -> oinside p a -> oinside p b ->
  (forall n, In n (na ++ nb) -> fst n * fst n + snd n * snd n = 1) ->
  sat_overlaps (opoints a) na (opoints b) nb = true.
Proof.
  intros a b na nb p Ha Hb Ia Ib U. apply sat_general; [assumption..|].
  intros n Hn. specialize (U n Hn).
  pose proof (support_inside a p n Ha Ia U) as H1. pose proof (support_inside b p n Hb Ib U) as H2.
  apply Rabs_def2 in H1. apply Rabs_def2 in H2. apply Rabs_def1; lra.
Qed.

Lemma axes_unit : forall n, In n axes -> fst n * fst n + snd n * snd n = 1.
Proof. intros n [<-|[<-|[<-|[<-|[]]]]]; simpl; lra. Qed.

(** Rolling stock placed in the world, as an oriented box. *)
Lemma world_rect : forall vs a g, proper a ->
  proper_shape (SRect (cr (stock_world (history vs a) g))) /\ cn (stock_world (history vs a) g) = axes.
Proof.
  intros vs a g Hp. destruct (history_shape vs a) as [t [E N]]. split.
  - unfold stock_world. cbn [cr]. rewrite E. unfold proper in Hp. simpl. lra.
  - unfold stock_world. cbn [cn]. rewrite N. apply stock_axes. assumption.
Qed.

Lemma points_o : forall r, rect_points r = opoints (obox_of (SRect r)).
Proof. intros r. change (rect_points r) with (shape_points (SRect r)). apply shape_points_o. Qed.

Lemma stock_shape_sound : forall vs a g b p, proper a -> proper_shape b ->
  inside_rect p (cr (stock_world (history vs a) g)) -> inside_shape p b ->
  stock_overlaps_shape (stock_world (history vs a) g) b = true /\
  shape_overlaps_stock b (stock_world (history vs a) g) = true.
Proof.
  intros vs a g b p Ha Hb I J. destruct (world_rect vs a g Ha) as [P N].
  set (r := stock_world (history vs a) g) in *.
  unfold stock_overlaps_shape, shape_overlaps_stock. rewrite N, points_o, shape_points_o, shape_normals_o by assumption.
  pose proof (obox_ok _ P) as K1. pose proof (obox_ok _ Hb) as K2.
  change (inside_rect p (cr r)) with (inside_shape p (SRect (cr r))) in I. rewrite inside_shape_o in I, J.
  split; eapply sat_general_sound; try eassumption; intros n Hn; apply in_app_or in Hn;
    destruct Hn as [Hn|Hn]; (apply axes_unit; assumption) || (eapply normals_unit; eassumption).
Qed.

Lemma stock_stock_sound : forall vs a g ws b h p, proper a -> proper b ->
  inside_rect p (cr (stock_world (history vs a) g)) -> inside_rect p (cr (stock_world (history ws b) h)) ->
  stock_overlaps_stock (stock_world (history vs a) g) (stock_world (history ws b) h) = true.
Proof.
  intros vs a g ws b h p Ha Hb I J.
  destruct (world_rect vs a g Ha) as [P N]. destruct (world_rect ws b h Hb) as [P' N'].
  unfold stock_overlaps_stock. rewrite N, N', !points_o.
  pose proof (obox_ok _ P) as K1. pose proof (obox_ok _ P') as K2.
  change (inside_rect p ?r) with (inside_shape p (SRect r)) in I. change (inside_rect p ?r) with (inside_shape p (SRect r)) in J.
  rewrite inside_shape_o in I, J.
  eapply sat_general_sound; try eassumption. intros n Hn. apply axes_unit.
  apply in_app_or in Hn. destruct Hn; assumption.
Qed.

(** ** Extents *)
Lemma extent_iff : forall r p, 0 < rw r -> 0 < rh r ->
  let c := cos (rangle r * (PI / 180)) in let s := sin (rangle r * (PI / 180)) in
  (in_extent p r <->
   Rabs (fst p - fst (rpos r)) < rw r / 2 * Rabs c + rh r / 2 * Rabs s /\
   Rabs (snd p - snd (rpos r)) < rw r / 2 * Rabs s + rh r / 2 * Rabs c).
Proof.
  intros r p Hw Hh c s.
  assert (EP : forall q, corner_of q r <-> In q (opoints (obox_of (SRect r)))).
  { intros q. rewrite corner_points, <- points_o. reflexivity. }
  unfold in_extent.
  assert (G : forall (f : pt -> R) m l x, 0 <= m -> 0 <= l ->
     (forall q, corner_of q r -> f q = x + m + l \/ f q = x + m - l \/ f q = x - m + l \/ f q = x - m - l) ->
     (exists q, corner_of q r /\ f q = x + m + l) -> (exists q, corner_of q r /\ f q = x - m - l) ->
     ((exists q q', corner_of q r /\ corner_of q' r /\ f q < f p < f q') <-> Rabs (f p - x) < m + l)).
  { intros f m l x Hm Hl A [q1 [Q1 E1]] [q2 [Q2 E2]]. split.
    - intros [q [q' [C1 [C2 [L U]]]]]. apply A in C1. apply A in C2. apply Rabs_def1; lra.
    - intros H. apply Rabs_def2 in H. exists q2, q1. repeat split; try assumption; lra. }
  assert (AC : rw r / 2 * Rabs c = Rabs (rw r / 2 * c)) by (rewrite Rabs_mult, (Rabs_pos_eq (rw r / 2)) by lra; reflexivity).
  assert (AS : rh r / 2 * Rabs s = Rabs (rh r / 2 * s)) by (rewrite Rabs_mult, (Rabs_pos_eq (rh r / 2)) by lra; reflexivity).
  assert (BC : rh r / 2 * Rabs c = Rabs (rh r / 2 * c)) by (rewrite Rabs_mult, (Rabs_pos_eq (rh r / 2)) by lra; reflexivity).
  assert (BS : rw r / 2 * Rabs s = Rabs (rw r / 2 * s)) by (rewrite Rabs_mult, (Rabs_pos_eq (rw r / 2)) by lra; reflexivity).
  assert (C4 : forall u v, (u = rw r / 2 \/ u = - (rw r / 2)) -> (v = rh r / 2 \/ v = - (rh r / 2)) ->
    corner_of (fst (rpos r) + (u * c - v * s), snd (rpos r) + (u * s + v * c)) r).
  { intros u v Hu Hv. exists u, v. repeat split; assumption. }
  assert (Q : forall (x : R), exists e, (e = 1 \/ e = -1) /\ e * x = Rabs x).
  { intros x. unfold Rabs. destruct (Rcase_abs x); [exists (-1)|exists 1]; split; try lra. }
  destruct (Q (rw r / 2 * c)) as [e1 [F1 M1]]. destruct (Q (rh r / 2 * s)) as [e2 [F2 M2]].
  destruct (Q (rw r / 2 * s)) as [e3 [F3 M3]]. destruct (Q (rh r / 2 * c)) as [e4 [F4 M4]].
  rewrite AC, AS, BC, BS.
  assert (AI : forall A B C D : Prop, (A <-> C) -> (B <-> D) -> (A /\ B <-> C /\ D)) by tauto. apply AI; clear AI.
  - apply (G fst).
    + apply Rabs_pos.
    + apply Rabs_pos.
    + intros q [u [v [Hu [Hv [E _]]]]]. fold c s in E. rewrite E. unfold Rabs.
      destruct (Rcase_abs (rw r / 2 * c)), (Rcase_abs (rh r / 2 * s)), Hu as [-> | ->], Hv as [-> | ->]; lra.
    + eexists. split; [apply (C4 (e1 * (rw r / 2)) (- e2 * (rh r / 2)))|].
      * destruct F1 as [-> | ->]; lra.
      * destruct F2 as [-> | ->]; lra.
      * cbn [fst]. rewrite <- M1, <- M2. ring.
    + eexists. split; [apply (C4 (- e1 * (rw r / 2)) (e2 * (rh r / 2)))|].
      * destruct F1 as [-> | ->]; lra.
      * destruct F2 as [-> | ->]; lra.
      * cbn [fst]. rewrite <- M1, <- M2. ring.
  - apply (G snd).
    + apply Rabs_pos.
    + apply Rabs_pos.
    + intros q [u [v [Hu [Hv [_ E]]]]]. fold c s in E. rewrite E. unfold Rabs.
      destruct (Rcase_abs (rw r / 2 * s)), (Rcase_abs (rh r / 2 * c)), Hu as [-> | ->], Hv as [-> | ->]; lra.
    + eexists. split; [apply (C4 (e3 * (rw r / 2)) (e4 * (rh r / 2)))|].
      * destruct F3 as [-> | ->]; lra.
      * destruct F4 as [-> | ->]; lra.
      * cbn [snd]. rewrite <- M3, <- M4. ring.
    + eexists. split; [apply (C4 (- e3 * (rw r / 2)) (- e4 * (rh r / 2)))|].
      * destruct F3 as [-> | ->]; lra.
      * destruct F4 as [-> | ->]; lra.
      * cbn [snd]. rewrite <- M3, <- M4. ring.
Qed.

Lemma meet : forall x y e f, 0 < e -> 0 < f ->
  (Rabs (x - y) < e + f <-> exists p, Rabs (p - x) < e /\ Rabs (p - y) < f).
Proof.
  intros x y e f He Hf. split.
  - intros H. apply Rabs_def2 in H.
    destruct (between2 (x - e) (y - f) (x + e) (y + f)) as [p P]; try lra.
    exists p. split; apply Rabs_def1; lra.
  - intros [p [H1 H2]]. apply Rabs_def2 in H1. apply Rabs_def2 in H2. apply Rabs_def1; lra.
Qed.

Lemma extents_meet : forall r q, 0 < rw r -> 0 < rh r -> 0 < rw q -> 0 < rh q ->
  (sat_overlaps (rect_points r) axes (rect_points q) axes = true <->
   exists p, in_extent p r /\ in_extent p q).
Proof.
  intros r q R1 R2 Q1 Q2. rewrite !points_o.
  rewrite sat_general by (apply obox_ok; simpl; auto).
  set (c := cos (rangle r * (PI / 180))). set (s := sin (rangle r * (PI / 180))).
  set (c' := cos (rangle q * (PI / 180))). set (s' := sin (rangle q * (PI / 180))).
  pose proof (cos2sin2 (rangle r * (PI / 180))) as CS. fold c s in CS.
  pose proof (cos2sin2 (rangle q * (PI / 180))) as CS'. fold c' s' in CS'.
  assert (POS : forall w h c s, 0 < w -> 0 < h -> c * c + s * s = 1 -> 0 < w / 2 * Rabs c + h / 2 * Rabs s).
  { clear. intros w h c s Hw Hh E. pose proof (Rabs_pos c). pose proof (Rabs_pos s).
    destruct (Req_dec c 0) as [->|N].
    - assert (s <> 0) by (intros ->; lra). apply Rabs_pos_lt in H1. rewrite Rabs_R0. nra.
    - apply Rabs_pos_lt in N. nra. }
  assert (EX : forall p, (in_extent p r /\ in_extent p q) <->
    (Rabs (fst p - fst (rpos r)) < rw r / 2 * Rabs c + rh r / 2 * Rabs s /\
     Rabs (fst p - fst (rpos q)) < rw q / 2 * Rabs c' + rh q / 2 * Rabs s') /\
    (Rabs (snd p - snd (rpos r)) < rw r / 2 * Rabs s + rh r / 2 * Rabs c /\
     Rabs (snd p - snd (rpos q)) < rw q / 2 * Rabs s' + rh q / 2 * Rabs c')).
  { intros p. rewrite !extent_iff by assumption. cbv zeta. fold c s c' s'. tauto. }
  transitivity (Rabs (fst (rpos r) - fst (rpos q)) <
      (rw r / 2 * Rabs c + rh r / 2 * Rabs s) + (rw q / 2 * Rabs c' + rh q / 2 * Rabs s') /\
    Rabs (snd (rpos r) - snd (rpos q)) <
      (rw r / 2 * Rabs s + rh r / 2 * Rabs c) + (rw q / 2 * Rabs s' + rh q / 2 * Rabs c')).
  - unfold axes, support, dot_product, obox_of. cbn [oc ohw ohh ocs osn]. fold c s c' s'. split.
    + intros H. pose proof (H (1, 0) ltac:(simpl; tauto)) as H1. pose proof (H (0, 1) ltac:(simpl; tauto)) as H2.
      cbn [fst snd] in H1, H2.
      replace (c * 1 + s * 0) with c in H1 by ring. replace (- s * 1 + c * 0) with (- s) in H1 by ring.
      replace (c' * 1 + s' * 0) with c' in H1 by ring. replace (- s' * 1 + c' * 0) with (- s') in H1 by ring.
      replace (c * 0 + s * 1) with s in H2 by ring. replace (- s * 0 + c * 1) with c in H2 by ring.
      replace (c' * 0 + s' * 1) with s' in H2 by ring. replace (- s' * 0 + c' * 1) with c' in H2 by ring.
      rewrite !Rabs_Ropp in H1.
      replace (fst (rpos r) * 1 + snd (rpos r) * 0 - (fst (rpos q) * 1 + snd (rpos q) * 0))
        with (fst (rpos r) - fst (rpos q)) in H1 by ring.
      replace (fst (rpos r) * 0 + snd (rpos r) * 1 - (fst (rpos q) * 0 + snd (rpos q) * 1))
        with (snd (rpos r) - snd (rpos q)) in H2 by ring. split; assumption.
    + intros [H1 H2].
      assert (A : forall n, In n axes ->
        Rabs (fst (rpos r) * fst n + snd (rpos r) * snd n - (fst (rpos q) * fst n + snd (rpos q) * snd n)) <
        rw r / 2 * Rabs (c * fst n + s * snd n) + rh r / 2 * Rabs (- s * fst n + c * snd n) +
        (rw q / 2 * Rabs (c' * fst n + s' * snd n) + rh q / 2 * Rabs (- s' * fst n + c' * snd n))).
      { intros n [<-|[<-|[<-|[<-|[]]]]]; cbn [fst snd].
        - replace (c * 0 + s * -1) with (- s) by ring. replace (- s * 0 + c * -1) with (- c) by ring.
          replace (c' * 0 + s' * -1) with (- s') by ring. replace (- s' * 0 + c' * -1) with (- c') by ring.
          replace (fst (rpos r) * 0 + snd (rpos r) * -1 - (fst (rpos q) * 0 + snd (rpos q) * -1))
            with (- (snd (rpos r) - snd (rpos q))) by ring. rewrite !Rabs_Ropp. assumption.
        - replace (c * 1 + s * 0) with c by ring. replace (- s * 1 + c * 0) with (- s) by ring.
          replace (c' * 1 + s' * 0) with c' by ring. replace (- s' * 1 + c' * 0) with (- s') by ring.
          replace (fst (rpos r) * 1 + snd (rpos r) * 0 - (fst (rpos q) * 1 + snd (rpos q) * 0))
            with (fst (rpos r) - fst (rpos q)) by ring. rewrite !Rabs_Ropp. assumption.
        - replace (c * 0 + s * 1) with s by ring. replace (- s * 0 + c * 1) with c by ring.
          replace (c' * 0 + s' * 1) with s' by ring. replace (- s' * 0 + c' * 1) with c' by ring.
          replace (fst (rpos r) * 0 + snd (rpos r) * 1 - (fst (rpos q) * 0 + snd (rpos q) * 1))
            with (snd (rpos r) - snd (rpos q)) by ring. assumption.
        - replace (c * -1 + s * 0) with (- c) by ring. replace (- s * -1 + c * 0) with s by ring.
          replace (c' * -1 + s' * 0) with (- c') by ring. replace (- s' * -1 + c' * 0) with s' by ring.
          replace (fst (rpos r) * -1 + snd (rpos r) * 0 - (fst (rpos q) * -1 + snd (rpos q) * 0))
            with (- (fst (rpos r) - fst (rpos q))) by ring. rewrite !Rabs_Ropp. assumption. }
      intros n Hn. apply in_app_or in Hn. apply A. destruct Hn; assumption.
  - pose proof (POS _ _ c s R1 R2 CS) as P1. pose proof (POS _ _ c' s' Q1 Q2 CS') as P2.
    pose proof (POS _ _ s c R1 R2 ltac:(lra)) as P3. pose proof (POS _ _ s' c' Q1 Q2 ltac:(lra)) as P4.
    rewrite (meet _ _ _ _ P1 P2), (meet _ _ _ _ P3 P4). split.
    + intros [[x X] [y Y]]. exists (x, y). apply EX. split; assumption.
    + intros [p H]. apply EX in H. destruct H as [H1 H2]. split; [exists (fst p)|exists (snd p)]; assumption.
Qed.

Lemma stock_stock_iff : forall vs a g ws b h, proper a -> proper b ->
  (stock_overlaps_stock (stock_world (history vs a) g) (stock_world (history ws b) h) = true <->
   exists p, in_extent p (cr (stock_world (history vs a) g)) /\ in_extent p (cr (stock_world (history ws b) h))).
Proof.
  intros vs a g ws b h Ha Hb.
  destruct (world_rect vs a g Ha) as [[P1 P2] N]. destruct (world_rect ws b h Hb) as [[P1' P2'] N'].
  unfold stock_overlaps_stock. rewrite N, N'. apply extents_meet; assumption.
Qed.

(** Against a plain box, whose extent is itself. *)
Lemma box_as_rect : forall b, proper b ->
  opoints (obox_of (SBox b)) = opoints (obox_of (SRect (mkRect ((x1 b + x2 b) / 2 + fst (apos b), (y1 b + y2 b) / 2 + snd (apos b))
    (x2 b - x1 b) (y2 b - y1 b) 0))).
Proof.
  intros b _. unfold obox_of. cbn [rpos rw rh rangle]. rewrite Rmult_0_l, cos_0, sin_0. reflexivity.
Qed.

Lemma stock_box_iff : forall vs a g b, proper a -> proper b ->
  (stock_overlaps_shape (stock_world (history vs a) g) (SBox b) = true <->
   exists p, in_extent p (cr (stock_world (history vs a) g)) /\ inside_box p b) /\
  shape_overlaps_stock (SBox b) (stock_world (history vs a) g) =
  stock_overlaps_shape (stock_world (history vs a) g) (SBox b).
Proof.
  intros vs a g b Ha Hb. destruct (world_rect vs a g Ha) as [[P1 P2] N].
  set (s := stock_world (history vs a) g) in *.
  set (q := mkRect ((x1 b + x2 b) / 2 + fst (apos b), (y1 b + y2 b) / 2 + snd (apos b)) (x2 b - x1 b) (y2 b - y1 b) 0).
  assert (EQ : forall p, in_extent p q <-> inside_box p b).
  { intros p. unfold proper in Hb. rewrite extent_iff by (simpl; lra). cbn [rangle rpos rw rh q].
    rewrite Rmult_0_l, cos_0, sin_0, Rabs_R0, Rabs_R1. unfold inside_box. cbn [fst snd]. split.
    - intros [H1 H2]. apply Rabs_def2 in H1. apply Rabs_def2 in H2. lra.
    - intros H. split; apply Rabs_def1; lra. }
  unfold stock_overlaps_shape, shape_overlaps_stock. rewrite shape_points_o, (box_as_rect b Hb), <- points_o. fold q.
  change (shape_normals (SBox b)) with axes. rewrite N. split.
  - rewrite extents_meet by (try assumption; unfold proper in Hb; simpl; lra).
    split; intros [p [H1 H2]]; exists p; (split; [assumption|]); apply EQ; assumption.
  - apply bool_iff.
    assert (Q1 : 0 < rw q) by (unfold proper in Hb; simpl; lra). assert (Q2 : 0 < rh q) by (unfold proper in Hb; simpl; lra).
    rewrite !extents_meet by assumption. split; intros [p [H1 H2]]; exists p; auto.
Qed.

(** Facing one of the four directions, extent and rectangle agree. *)
Lemma upright_extent : forall r p, 0 < rw r -> 0 < rh r ->
  cos (rangle r * (PI / 180)) = 0 \/ sin (rangle r * (PI / 180)) = 0 ->
  (in_extent p r <-> inside_rect p r).
Proof.
  intros r p Hw Hh H. rewrite extent_iff by assumption. cbv zeta. unfold inside_rect.
  pose proof (cos2sin2 (rangle r * (PI / 180))) as CS.
  set (c := cos (rangle r * (PI / 180))) in *. set (s := sin (rangle r * (PI / 180))) in *. clearbody c s.
  set (X := fst p - fst (rpos r)). set (Y := snd p - snd (rpos r)).
  assert (D : (c = 0 /\ (s = 1 \/ s = -1)) \/ (s = 0 /\ (c = 1 \/ c = -1))).
  { destruct H as [->| ->]; [left|right]; (split; [reflexivity|]).
    - assert ((s - 1) * (s + 1) = 0) by lra. apply Rmult_integral in H. lra.
    - assert ((c - 1) * (c + 1) = 0) by lra. apply Rmult_integral in H. lra. }
  assert (A0 := Rabs_R0). assert (A1 := Rabs_R1). assert (A2 : Rabs (-1) = 1) by (rewrite Rabs_left; lra).
  split.
  - intros [H1 H2]. exists (X * c + Y * s), (- X * s + Y * c).
    apply Rabs_def2 in H1. apply Rabs_def2 in H2.
    destruct D as [[-> [-> | ->]]|[-> [-> | ->]]]; rewrite ?A0, ?A1, ?A2 in H1, H2; unfold X, Y in *; repeat split; lra.
  - intros [u [v [Hu [Hv [E1 E2]]]]].
    assert (F1 : X = u * c - v * s) by (unfold X; lra). assert (F2 : Y = u * s + v * c) by (unfold Y; lra).
    rewrite F1, F2.
    destruct D as [[-> [-> | ->]]|[-> [-> | ->]]]; rewrite ?A0, ?A1, ?A2; split; apply Rabs_def1; lra.
Qed.

Definition upright (r : rect) : Prop :=
  cos (rangle r * (PI / 180)) = 0 \/ sin (rangle r * (PI / 180)) = 0.

Lemma quarter_upright : forall vs v a g (k : Z), v = IZR k / 4 ->
  upright (cr (stock_world (set_orientation (ONum v) (history vs a)) g)).
Proof.
  intros vs v a g k E. unfold upright, stock_world, set_orientation. cbn [cr rangle].
  unfold frac. set (m := Int_part v). clearbody m. subst v.
  assert (F : (IZR k / 4 - IZR m) * 360 * (PI / 180) = radians (IZR (4 * (k - 4 * m)) * (45 / 2))).
  { unfold radians. rewrite mult_IZR, minus_IZR, mult_IZR. field. }
  rewrite F. destruct (quarter_angle (4 * (k - 4 * m)) (k - 4 * m) eq_refl) as [j [Hj [_ [Hc Hs]]]].
  rewrite Hc, Hs. assert (D : (j = 0 \/ j = 1 \/ j = 2 \/ j = 3)%Z) by lia.
  destruct D as [-> | [-> | [-> | ->]]].
  - right. rewrite Rmult_0_l. apply sin_0.
  - left. rewrite Rmult_1_l. apply cos_PI2.
  - right. replace (2 * (PI / 2)) with PI by field. apply sin_PI.
  - left. apply cos_3PI2'.
Qed.

Lemma history_snoc : forall vs v a, history (vs ++ [v]) a = set_orientation v (history vs a).
Proof. intros. unfold history. rewrite fold_left_app. reflexivity. Qed.

Lemma quarter_exact : forall vs a g ws b h (i j : Z), proper a -> proper b ->
  let s := stock_world (history (vs ++ [ONum (IZR i / 4)]) a) g in
  let t := stock_world (history (ws ++ [ONum (IZR j / 4)]) b) h in
  (stock_overlaps_stock s t = true <-> exists p, inside_rect p (cr s) /\ inside_rect p (cr t)).
Proof.
  intros vs a g ws b h i j Ha Hb s t. unfold s, t. rewrite stock_stock_iff by assumption.
  destruct (world_rect (vs ++ [ONum (IZR i / 4)]) a g Ha) as [[P1 P2] _].
  destruct (world_rect (ws ++ [ONum (IZR j / 4)]) b h Hb) as [[P1' P2'] _].
  assert (U : upright (cr (stock_world (history (vs ++ [ONum (IZR i / 4)]) a) g)))
    by (rewrite history_snoc; eapply quarter_upright; reflexivity).
  assert (U' : upright (cr (stock_world (history (ws ++ [ONum (IZR j / 4)]) b) h)))
    by (rewrite history_snoc; eapply quarter_upright; reflexivity).
  split; intros [p [H1 H2]]; exists p.
  - rewrite upright_extent in H1 by assumption. rewrite upright_extent in H2 by assumption. auto.
  - rewrite !upright_extent by assumption. auto.
Qed.

(** Two wagons side by side on parallel diagonal tracks. *)
Lemma frac_eighth : frac (1 / 8) = 1 / 8.
Proof.
  unfold frac. pose proof (base_Int_part (1 / 8)) as H.
  assert (E : (Int_part (1 / 8) = 0)%Z).
  { assert (H1 : IZR (Int_part (1 / 8)) < 1) by lra. assert (H2 : -1 < IZR (Int_part (1 / 8))) by lra.
    apply lt_IZR in H1. apply lt_IZR in H2. lia. }
  rewrite E. lra.
Qed.

Lemma false_alarm : exists a g h, proper a /\
  let s := stock_world (history [ONum (1 / 8)] a) g in
  let t := stock_world (history [ONum (1 / 8)] a) h in
  stock_overlaps_stock s t = true /\ ~ exists p, inside_rect p (cr s) /\ inside_rect p (cr t).
Proof.
  exists (mkAABB (-1) (-3) 1 3 (0, 0)), (0, 0), (2, 2).
  assert (Hp : proper (mkAABB (-1) (-3) 1 3 (0, 0))) by (unfold proper; simpl; lra).
  split; [assumption|]. cbv zeta.
  assert (E : forall g, cr (stock_world (history [ONum (1 / 8)] (mkAABB (-1) (-3) 1 3 (0, 0))) g) =
    mkRect (0 + fst g, 0 + snd g) (1 - -1) (3 - -3) (1 / 8 * 360)).
  { intros g. unfold stock_world, history. cbn [fold_left]. unfold set_orientation, stock_new, rectangle_new.
    cbn [cr rpos rw rh rangle x1 x2 y1 y2 fst snd]. rewrite frac_eighth. reflexivity. }
  assert (A : 1 / 8 * 360 * (PI / 180) = PI / 4) by field.
  pose proof Rlt_sqrt2_0 as Q. pose proof (sqrt_sqrt 2 ltac:(lra)) as Q2.
  assert (K : 7/5 < sqrt 2 < 3/2).
  { split.
    - apply Rnot_le_lt. intros L. assert (sqrt 2 * sqrt 2 <= (7/5) * (7/5)) by (apply Rmult_le_compat; lra). lra.
    - apply Rnot_le_lt. intros L. assert ((3/2) * (3/2) <= sqrt 2 * sqrt 2) by (apply Rmult_le_compat; lra). lra. }
  assert (I : 1 / sqrt 2 = sqrt 2 / 2) by (apply (Rmult_eq_reg_r (2 * sqrt 2)); [field_simplify; nra|lra]).
  split.
  - apply stock_stock_iff; [assumption..|]. exists (1, 1). rewrite !E.
    rewrite !extent_iff by (cbn [rw rh]; lra). cbn [rangle rpos rw rh fst snd]. rewrite A, cos_PI4, sin_PI4, I.
    rewrite (Rabs_pos_eq (sqrt 2 / 2)) by lra.
    repeat split; apply Rabs_def1; lra.
  - intros [p [H1 H2]]. rewrite E in H1. rewrite E in H2. unfold inside_rect in *. cbn [rangle rpos rw rh fst snd] in *.
    rewrite A, cos_PI4, sin_PI4, I in *.
    destruct H1 as [u [v [Hu [Hv [E1 E2]]]]]. destruct H2 as [u' [v' [Hu' [Hv' [E3 E4]]]]].
    assert (S1 : fst p + snd p = u * sqrt 2) by (rewrite E1, E2; field).
    assert (S2 : fst p + snd p = 4 + u' * sqrt 2) by (rewrite E3, E4; field). nra.
Qed.

(** The world bounding box of rolling stock. *)
Lemma stock_box_exact : forall vs v a g, proper a ->
  let s := set_orientation (ONum v) (history vs a) in
  exists b, stock_world_box s g = Some b /\
    ((forall p, corner_of p (cr (stock_world s g)) -> in_box p b) <->
     (0 <= cos (2 * PI * v) \/ sin (2 * PI * v) = 0)) /\
    (forall c, (forall p, corner_of p (cr (stock_world s g)) -> in_box p c) -> box_subset b c).
Proof.
  intros vs v a g Hp s. destruct (history_shape vs a) as [t [E N]].
  assert (Er : cr s = mkRect (0, 0) (x2 a - x1 a) (y2 a - y1 a) (frac v * 360)).
  { unfold s, set_orientation. cbn [cr]. rewrite E. reflexivity. }
  unfold proper in Hp. destruct (rect_box_exact (cr s)) as [b [B1 [B2 [B3 B4]]]]; try (rewrite Er; simpl; lra).
  unfold stock_world_box, world_box. cbn [set_box shape_box]. rewrite B1.
  assert (W : forall p, corner_of (moved g p) (cr (stock_world s g)) <-> corner_of p (cr s)).
  { intros p. pose proof (world_set_corner [SRect (cr s)] g p) as H. unfold set_corner, world_set, set_new in H. simpl in H.
    unfold stock_world. cbn [cr]. split; intros K.
    - destruct (proj1 H) as [x [[<-|[]] Y]]; [|exact Y]. eexists. split; [left; reflexivity|]. exact K.
    - destruct (proj2 H) as [x [[<-|[]] Y]]; [|exact Y]. eexists. split; [left; reflexivity|]. exact K. }
  assert (T : frac v * 360 * (PI / 180) = 2 * PI * v + 2 * IZR (- Int_part v) * PI)
    by (unfold frac; rewrite opp_IZR; field).
  eexists. split; [reflexivity|]. split.
  - replace (cos (2 * PI * v)) with (cos (rangle (cr s) * (PI / 180)))
      by (rewrite Er; cbn [rangle]; rewrite T; apply cos_period_Z).
    replace (sin (2 * PI * v)) with (sin (rangle (cr s) * (PI / 180)))
      by (rewrite Er; cbn [rangle]; rewrite T; apply sin_period_Z).
    rewrite <- B3. split; intros H p Hp'.
    + specialize (H (moved g p)). rewrite W in H. specialize (H Hp'). unfold in_box, moved in *. simpl in *. rewrite B2 in *. simpl in *. lra.
    + rewrite <- (unmove g p), W in Hp'. specialize (H _ Hp'). unfold in_box, moved in *. simpl in *. rewrite B2 in *. simpl in *. lra.
  - intros c Hc p Hp'.
    assert (S : box_subset b (mkAABB (x1 c - fst g) (y1 c - snd g) (x2 c - fst g) (y2 c - snd g) (apos c))).
    { apply B4. intros q Hq. apply W in Hq. apply Hc in Hq. unfold in_box, moved in *. simpl in *. lra. }
    assert (I : in_box (fst p - fst g, snd p - snd g) b).
    { unfold in_box in *. simpl in *. rewrite B2 in *. simpl in *. lra. }
    apply S in I. unfold in_box in *. simpl in *. lra.
Qed.
