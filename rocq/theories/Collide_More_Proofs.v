(** Further proofs about collision sets. *)
From Coq Require Import Reals ZArith List Bool Lra Lia.
From Verif Require Import Common Geometry_Model Geometry_Spec Geometry_SAT_Proofs Collide_Model Collide_Spec
  Collide_Proofs Collide_Stock_Proofs.
Import ListNotations.
Local Open Scope R_scope.

(** Facing a main direction, the stored normals are right whatever the other
    shape is. *)
Lemma upright_normals : forall r n, upright r -> In n (onormals (obox_of (SRect r))) -> In n axes.
Proof.
  intros [[gx gy] w h t] n U H. unfold upright in U. unfold onormals, obox_of in H. cbn [ocs osn rangle] in *.
  pose proof (cos2sin2 (t * (PI / 180))) as CS.
  set (c := cos (t * (PI / 180))) in *. set (s := sin (t * (PI / 180))) in *. clearbody c s.
  assert (V : (c = 0 /\ (s = 1 \/ s = -1)) \/ (s = 0 /\ (c = 1 \/ c = -1))).
  { destruct U as [->| ->].
    - left. split; [reflexivity|]. assert (P : (s - 1) * (s + 1) = 0) by nra. apply Rmult_integral in P. destruct P; [left|right]; lra.
    - right. split; [reflexivity|]. assert (P : (c - 1) * (c + 1) = 0) by nra. apply Rmult_integral in P. destruct P; [left|right]; lra. }
  unfold axes. cbn [In].
  destruct V as [[-> [->| ->]]|[-> [->| ->]]]; destruct H as [<-|[<-|[<-|[<-|[]]]]];
    match goal with |- (?a, ?b) = (?x, ?y) \/ _ => idtac | _ => idtac end;
    try (left; apply pt_eq; ring); try (right; left; apply pt_eq; ring); try (right; right; left; apply pt_eq; ring);
    right; right; right; left; apply pt_eq; ring.
Qed.
Lemma quarter_shape_exact : forall vs a g b (i : Z), proper a -> proper_shape b ->
  let s := stock_world (history (vs ++ [ONum (IZR i / 4)]) a) g in
  (stock_overlaps_shape s b = true <-> exists p, inside_rect p (cr s) /\ inside_shape p b) /\
  shape_overlaps_stock b s = stock_overlaps_shape s b.
Proof.
  intros vs a g b i Ha Hb s. destruct (world_rect (vs ++ [ONum (IZR i / 4)]) a g Ha) as [P N].
  fold s in P, N.
  assert (U : upright (cr s)) by (unfold s; rewrite history_snoc; apply (quarter_upright vs _ a g i); reflexivity).
  assert (OA : okbox (obox_of (SRect (cr s)))) by (apply obox_ok; exact P).
  assert (OB : okbox (obox_of b)) by (apply obox_ok; exact Hb).
  split.
  - split.
    + unfold stock_overlaps_shape. rewrite N, points_o, shape_points_o, shape_normals_o by assumption.
      intros H. rewrite sat_general in H by assumption.
      destruct (sat_complete (obox_of (SRect (cr s))) (obox_of b) OA OB) as [p [I J]].
      * apply sat_conditions; [assumption..|]. intros n Hn. apply H. rewrite in_app_iff in *.
        destruct Hn as [Hn|Hn]; [left; apply (upright_normals (cr s)); assumption|right; exact Hn].
      * exists p. split; [change (inside_shape p (SRect (cr s)))|]; apply inside_shape_o; assumption.
    + intros [p [I J]]. apply (stock_shape_sound (vs ++ [ONum (IZR i / 4)]) a g b p); assumption.
  - unfold stock_overlaps_shape, shape_overlaps_stock. rewrite N, points_o, shape_points_o, shape_normals_o by assumption.
    match goal with |- ?x = ?y => assert (E : x = true <-> y = true) end.
    { rewrite !sat_general by assumption. split; intros H n Hn; rewrite Rabs_minus_sym, Rplus_comm; apply H;
        rewrite in_app_iff in *; tauto. }
    match goal with |- ?x = ?y => destruct x; destruct y; try reflexivity; destruct E as [E1 E2] end;
      [symmetry; apply E1; reflexivity|apply E2; reflexivity].
Qed.

(** [None] puts the rectangle upright, anything else that is no number leaves it. *)
Lemma not_a_number : forall vs a g p,
  (corner_of p (cr (stock_world (history (vs ++ [ONone]) a) g)) <->
   (fst p = fst g + (x2 a - x1 a) / 2 \/ fst p = fst g - (x2 a - x1 a) / 2) /\
   (snd p = snd g + (y2 a - y1 a) / 2 \/ snd p = snd g - (y2 a - y1 a) / 2)) /\
  history (vs ++ [OOther]) a = history vs a.
Proof.
  intros vs a g [px py]. rewrite !history_snoc. split; [|reflexivity].
  destruct (history_shape vs a) as [t [E _]]. unfold set_orientation, stock_world. cbn [cr]. rewrite E. cbn [rpos rw rh rangle fst snd].
  rewrite corner_turned. unfold moved, plane_turn. cbn [fst snd].
  unfold radians. rewrite ?Rmult_0_l, ?cos_0, ?sin_0.
  split.
  - intros [q [A [B C]]]. injection C as -> ->. split; [destruct A as [->| ->]; [left|right]|destruct B as [->| ->]; [left|right]]; cbn [fst snd]; ring.
  - intros [A B]. exists (px - fst g, py - snd g). cbn [fst snd]. split; [destruct A; [left|right]; lra|]. split; [destruct B; [left|right]; lra|].
    apply pt_eq; ring.
Qed.

(** The left-hand curve is the mirror image of the right-hand one. *)
Lemma curves_mirror : exists l r, curved_rail_set 0 = Some (Ok l) /\ curved_rail_set 2 = Some (Ok r) /\
  forall p, inside_set p l <-> inside_set (- fst p, snd p) r.
Proof.
  exists left_turn, right_turn. split; [reflexivity|]. split; [reflexivity|]. intros [px py]. cbn [fst snd].
  assert (BX : inside_box (px, py) (mkAABB (1 / 4) (9 / 5) (7 / 4) (39 / 10) (0, 0)) <->
               inside_box (- px, py) (mkAABB (- (7 / 4)) (9 / 5) (- (1 / 4)) (39 / 10) (0, 0))).
  { unfold inside_box. cbn. lra. }
  assert (RX : inside_rect (px, py) (mkRect (- (3 / 8), - (287 / 400)) (7 / 5) (109 / 20) (-35)) <->
               inside_rect (- px, py) (mkRect (3 / 8, - (287 / 400)) (7 / 5) (109 / 20) 35)).
  { unfold inside_rect. cbn [rpos rw rh rangle fst snd].
    replace (-35 * (PI / 180)) with (- (35 * (PI / 180))) by field. rewrite cos_neg, sin_neg.
    set (c := cos (35 * (PI / 180))). set (s := sin (35 * (PI / 180))). clearbody c s.
    split; intros [u [v [H1 [H2 [H3 H4]]]]]; exists (- u), v; repeat split; try lra; nra. }
  unfold inside_set, left_turn, right_turn. split; intros [x [[<-|[<-|[]]] I]]; cbn [inside_shape] in *.
  - eexists. split; [left; reflexivity|]. cbn [inside_shape]. apply BX. exact I.
  - eexists. split; [right; left; reflexivity|]. cbn [inside_shape]. apply RX. exact I.
  - eexists. split; [left; reflexivity|]. cbn [inside_shape]. apply BX. exact I.
  - eexists. split; [right; left; reflexivity|]. cbn [inside_shape]. apply RX. exact I.
Qed.
