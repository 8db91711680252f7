(** Proofs about collision sets (C52). *)
From Coq Require Import Reals ZArith List Bool Lra Lia Psatz.
From Verif Require Import Common Version_Model Geometry_Model Geometry_Spec Geometry_Proofs
  Geometry_SAT_Proofs Collide_Model Collide_Spec.
Import ListNotations.
Local Open Scope R_scope.

(** ** Plane turns *)
Lemma turn_add : forall a b p, plane_turn a (plane_turn b p) = plane_turn (a + b) p.
Proof.
  intros a b [x y]. unfold plane_turn. cbn [fst snd].
  replace ((a + b) * (PI / 180)) with (a * (PI / 180) + b * (PI / 180)) by ring.
  rewrite cos_plus, sin_plus. apply pt_eq; ring.
Qed.

Lemma turn_zero : forall p, plane_turn 0 p = p.
Proof.
  intros [x y]. unfold plane_turn. cbn [fst snd]. rewrite Rmult_0_l, cos_0, sin_0. apply pt_eq; ring.
Qed.

Lemma turn_period : forall a (k : Z) p, plane_turn (a + 360 * IZR k) p = plane_turn a p.
Proof.
  intros a k p. unfold plane_turn.
  replace ((a + 360 * IZR k) * (PI / 180)) with (a * (PI / 180) + 2 * IZR k * PI) by field.
  rewrite cos_period_Z, sin_period_Z. reflexivity.
Qed.

Lemma turn_quarter : forall p, plane_turn 90 p = turn p.
Proof.
  intros [x y]. unfold plane_turn, turn. cbn [fst snd].
  replace (90 * (PI / 180)) with (PI / 2) by field. rewrite cos_PI2, sin_PI2. apply pt_eq; ring.
Qed.

Lemma turn_inj : forall a p q, plane_turn a p = plane_turn a q -> p = q.
Proof.
  intros a p q E. apply (f_equal (plane_turn (- a))) in E. rewrite !turn_add in E.
  rewrite Rplus_opp_l, !turn_zero in E. exact E.
Qed.

Lemma rotate_is_turn : forall p amt, rotate_point p (radians (IZR amt * (45 / 2))) = plane_turn (IZR amt * (45 / 2)) p.
Proof. reflexivity. Qed.

(** ** Lists of results *)
Lemma map_result_forall2 : forall (A B : Type) (f : A -> result B) l l',
  map_result f l = Ok l' <-> Forall2 (fun a b => f a = Ok b) l l'.
Proof.
  intros A B f. induction l as [|a l IH]; intros l'; simpl.
  - split; intros H; inversion H; subst; constructor.
  - destruct (f a) as [b|e] eqn:E; simpl.
    + destruct (map_result f l) as [r|e] eqn:M; simpl.
      * split; intros H.
        -- inversion H; subst. constructor; [assumption|]. apply IH. reflexivity.
        -- inversion H; subst. rewrite E in H2. inversion H2; subst.
           apply IH in H4. inversion H4; subst. reflexivity.
      * split; intros H; [discriminate|]. inversion H; subst. apply IH in H4. discriminate.
    + split; intros H; [discriminate|]. inversion H; subst. congruence.
Qed.

(** ** Moving *)
Lemma move_zero : forall s, shape_move (0, 0) s = s.
Proof.
  intros [[a b c d [ox oy]]|[[ox oy] w h t]]; unfold shape_move; cbn [fst snd x1 y1 x2 y2 apos rpos rw rh rangle];
    rewrite !Rplus_0_r; reflexivity.
Qed.

Lemma set_new_zero : forall l, set_new l (0, 0) = l.
Proof.
  unfold set_new. induction l as [|a l IH]; [reflexivity|]. cbn [map]. rewrite move_zero, IH. reflexivity.
Qed.

Lemma set_rotate_forall2 : forall amt s t, set_rotate amt s = Ok t <->
  Forall2 (fun a b => shape_rotate amt a = Ok b) s t.
Proof.
  intros amt s t. unfold set_rotate. rewrite <- map_result_forall2.
  destruct (map_result (shape_rotate amt) s) as [l|e]; simpl.
  - rewrite set_new_zero. reflexivity.
  - split; discriminate.
Qed.

Lemma move_inside : forall v s p, inside_shape (moved v p) (shape_move v s) <-> inside_shape p s.
Proof.
  intros [vx vy] [[a b c d [ox oy]]|[[ox oy] w h t]] [px py]; unfold moved; simpl.
  - unfold inside_box. simpl. split; intros; lra.
  - unfold inside_rect. simpl.
    split; intros [u [v [H1 [H2 [H3 H4]]]]]; exists u, v; repeat split; lra.
Qed.

Lemma move_proper : forall v s, proper_shape s -> proper_shape (shape_move v s).
Proof. intros v [a|r]; unfold proper_shape, proper; simpl; tauto. Qed.

Lemma forall_move : forall v s, Forall proper_shape s -> Forall proper_shape (world_set s v).
Proof.
  intros v s H. unfold world_set, set_new. rewrite Forall_map.
  eapply Forall_impl; [|exact H]. intros a. apply move_proper.
Qed.

Lemma world_inside : forall s v p, inside_set (moved v p) (world_set s v) <-> inside_set p s.
Proof.
  intros s v p. unfold inside_set, world_set, set_new. split.
  - intros [a [Ha I]]. apply in_map_iff in Ha. destruct Ha as [b [<- Hb]].
    exists b. split; [assumption|]. apply move_inside in I. assumption.
  - intros [a [Ha I]]. exists (shape_move v a). split; [apply in_map; assumption|].
    apply move_inside. assumption.
Qed.

Lemma overlap_inside : forall s t, Forall proper_shape s -> Forall proper_shape t ->
  (set_overlaps s t = true <-> exists p, inside_set p s /\ inside_set p t).
Proof.
  intros s t Hs Ht. rewrite set_overlaps_iff by assumption. unfold inside_set. split.
  - intros [p [a [b [H1 [H2 [H3 H4]]]]]]. exists p. split; [exists a|exists b]; auto.
  - intros [p [[a [H1 H2]] [b [H3 H4]]]]. exists p, a, b. auto.
Qed.

Lemma bool_iff : forall a b : bool, (a = true <-> b = true) -> a = b.
Proof. intros [] [] H; try reflexivity; destruct H as [H1 H2]; [symmetry; apply H1|apply H2]; reflexivity. Qed.

Lemma unmove : forall v p, moved v (fst p - fst v, snd p - snd v) = p.
Proof. intros [vx vy] [x y]. unfold moved. simpl. apply pt_eq; ring. Qed.

Lemma world_overlaps : forall s t v, Forall proper_shape s -> Forall proper_shape t ->
  set_overlaps (world_set s v) (world_set t v) = set_overlaps s t.
Proof.
  intros s t v Hs Ht. apply bool_iff. rewrite !overlap_inside by (try apply forall_move; assumption).
  split; intros [p [H1 H2]].
  - exists (fst p - fst v, snd p - snd v). rewrite <- (unmove v p), world_inside in H1.
    rewrite <- (unmove v p), world_inside in H2. auto.
  - exists (moved v p). rewrite !world_inside. auto.
Qed.

(** ** Turning *)
Lemma rot_box_inside : forall j a p, (j < 4)%nat -> apos a = (0, 0) ->
  (inside_box p (rot_box j a) <-> exists q, inside_box q a /\ p = turns j q).
Proof.
  intros j [a1 b1 a2 b2 o] [x y] Hj E. simpl in E. subst o. unfold inside_box.
  destruct j as [|[|[|[|j]]]]; try lia; simpl; unfold turn; simpl; split.
  - intros H. exists (x, y). auto.
  - intros [[u v] [H E]]. inversion E; subst. assumption.
  - intros H. exists (y, - x). simpl. split; [lra|f_equal; lra].
  - intros [[u v] [H E]]. inversion E; subst. simpl in *. lra.
  - intros H. exists (- x, - y). simpl. split; [lra|f_equal; lra].
  - intros [[u v] [H E]]. inversion E; subst. simpl in *. lra.
  - intros H. exists (- y, x). simpl. split; [lra|f_equal; lra].
  - intros [[u v] [H E]]. inversion E; subst. simpl in *. lra.
Qed.

Lemma rect_rotate_inside : forall amt r p,
  inside_rect p (rect_rotate amt r) <->
  exists q, inside_rect q r /\ p = plane_turn (IZR amt * (45 / 2)) q.
Proof.
  intros amt [[ox oy] w h t] [px py]. unfold rect_rotate, inside_rect.
  cbn [rpos rw rh rangle]. rewrite rotate_is_turn. unfold plane_turn. cbn [fst snd].
  set (f := IZR amt * (45 / 2) * (PI / 180)).
  replace ((t + IZR amt * (45 / 2)) * (PI / 180)) with (t * (PI / 180) + f) by (unfold f; ring).
  rewrite cos_plus, sin_plus. split.
  - intros [u [v [H1 [H2 [H3 H4]]]]].
    exists (ox + (u * cos (t * (PI / 180)) - v * sin (t * (PI / 180))),
            oy + (u * sin (t * (PI / 180)) + v * cos (t * (PI / 180)))).
    split; [exists u, v; cbn [fst snd]; auto|]. cbn [fst snd]. rewrite H3, H4. apply pt_eq; ring.
  - intros [[qx qy] [[u [v [H1 [H2 [H3 H4]]]]] E]]. cbn [fst snd] in *. subst qx qy.
    exists u, v. inversion E; subst. repeat split; try lra; ring.
Qed.

Lemma shape_rotate_ok : forall amt s t, shape_rotate amt s = Ok t ->
  proper_shape s -> centred s ->
  proper_shape t /\ centred t /\
  forall p, inside_shape p t <-> exists q, inside_shape q s /\ p = plane_turn (IZR amt * (45 / 2)) q.
Proof.
  intros amt [a|r] t E Hp Hc; simpl in E.
  - destruct (Z.eq_dec (amt mod 4) 0) as [M|M].
    2:{ apply (aabb_rotate_err amt a) in M. rewrite M in E. discriminate. }
    apply mod4_form in M. set (k := (amt / 4)%Z) in *. clearbody k. subst amt.
    assert (O : ordered a) by (unfold ordered, proper_shape, proper in *; lra).
    rewrite aabb_rotate_box in E by assumption. simpl in E. inversion E; subst; clear E.
    destruct (quarters k) as [j [Hj Ej]]. rewrite Ej. simpl in Hc. split.
    { unfold proper_shape, proper in *. destruct j as [|[|[|j]]]; simpl; lra. }
    split; [destruct j as [|[|[|j]]]; exact Hc|].
    intros p. simpl. rewrite rot_box_inside by assumption.
    split; intros [q [H1 H2]]; exists q; (split; [assumption|]); subst p;
      rewrite <- rotate_is_turn, (rotate_turns (4 * k) k) by reflexivity; rewrite Ej; reflexivity.
  - inversion E; subst. split; [exact Hp|]. split; [exact I|]. intros p. apply rect_rotate_inside.
Qed.

Lemma set_rotate_ok : forall amt s t, set_rotate amt s = Ok t ->
  Forall proper_shape s -> Forall centred s ->
  Forall proper_shape t /\ Forall centred t /\
  forall p, inside_set p t <-> exists q, inside_set q s /\ p = plane_turn (IZR amt * (45 / 2)) q.
Proof.
  intros amt s t E. apply set_rotate_forall2 in E. induction E as [|a b s t E F IH]; intros Hp Hc.
  - split; [constructor|]. split; [constructor|]. intros p. unfold inside_set. simpl.
    split; [intros [a [[] _]]|intros [q [[a [[] _]] _]]].
  - inversion Hp; subst. inversion Hc; subst.
    destruct (shape_rotate_ok _ _ _ E) as [K1 [K2 K3]]; [assumption..|].
    destruct IH as [L1 [L2 L3]]; [assumption..|].
    split; [constructor; assumption|]. split; [constructor; assumption|].
    intros p. specialize (K3 p). specialize (L3 p). unfold inside_set in *. simpl. split.
    + intros [x [[<-|Hx] Ix]].
      * apply K3 in Ix. destruct Ix as [q [I1 I2]]. exists q. split; [exists a; auto|assumption].
      * destruct (proj1 L3 (ex_intro _ x (conj Hx Ix))) as [q [[y [Y1 Y2]] I2]].
        exists q. split; [exists y; auto|assumption].
    + intros [q [[x [[<-|Hx] Ix]] I2]].
      * exists b. split; [auto|]. apply K3. exists q. auto.
      * destruct (proj2 L3 (ex_intro _ q (conj (ex_intro _ x (conj Hx Ix)) I2))) as [y [Y1 Y2]].
        exists y. auto.
Qed.

Lemma set_rotate_image : forall amt s t, set_rotate amt s = Ok t ->
  Forall proper_shape s -> Forall centred s ->
  forall p, inside_set p t <-> exists q, inside_set q s /\ p = plane_turn (IZR amt * (45 / 2)) q.
Proof. intros amt s t E Hp Hc. apply (set_rotate_ok amt s t E Hp Hc). Qed.

Lemma set_rotate_overlaps : forall amt s t s' t',
  Forall proper_shape s -> Forall centred s -> Forall proper_shape t -> Forall centred t ->
  set_rotate amt s = Ok s' -> set_rotate amt t = Ok t' ->
  set_overlaps s' t' = set_overlaps s t.
Proof.
  intros amt s t s' t' Ps Cs Pt Ct Es Et.
  destruct (set_rotate_ok _ _ _ Es Ps Cs) as [Ps' [_ Is]].
  destruct (set_rotate_ok _ _ _ Et Pt Ct) as [Pt' [_ It]].
  apply bool_iff. rewrite !overlap_inside by assumption. split.
  - intros [p [H1 H2]]. apply Is in H1. apply It in H2. destruct H1 as [q [H1 E1]]. destruct H2 as [q' [H2 E2]].
    assert (q = q') by (apply (turn_inj (IZR amt * (45 / 2))); congruence). subst q'. exists q. auto.
  - intros [p [H1 H2]]. exists (plane_turn (IZR amt * (45 / 2)) p). split; [apply Is|apply It]; exists p; auto.
Qed.

Lemma set_rotate_err : forall amt s e, set_rotate amt s = Err e <->
  e = ValueError /\ (amt mod 4 <> 0)%Z /\ exists a, In a s /\ is_box a.
Proof.
  intros amt s e. unfold set_rotate.
  assert (G : forall l, map_result (shape_rotate amt) l = Err e <->
    e = ValueError /\ (amt mod 4 <> 0)%Z /\ exists a, In a l /\ is_box a).
  { induction l as [|a l IH]; simpl.
    - split; [discriminate|]. intros [_ [_ [a [[] _]]]].
    - destruct a as [a|r]; simpl.
      + destruct (Z.eq_dec (amt mod 4) 0) as [M|M].
        * assert (exists b, aabb_rotate amt a = Ok b) as [b ->].
          { unfold aabb_rotate. rewrite M. simpl. eexists. reflexivity. }
          simpl. destruct (map_result (shape_rotate amt) l) as [r|e'] eqn:F; simpl.
          -- split; [discriminate|]. intros [_ [N _]]. contradiction.
          -- rewrite IH. split; [intros [_ [N _]]; contradiction|intros [_ [N _]]; contradiction].
        * pose proof M as M'. apply (aabb_rotate_err amt a) in M'. rewrite M'. simpl. split.
          -- intros E. inversion E; subst. split; [reflexivity|]. split; [assumption|].
             exists (SBox a). split; [left; reflexivity|exact I].
          -- intros [-> _]. reflexivity.
      + destruct (map_result (shape_rotate amt) l) as [r'|e'] eqn:F; simpl.
        * split; [discriminate|]. intros [E [N [x [[<-|Hx] B]]]]; [destruct B|].
          exfalso. assert (@Ok (list shape) r' = Err e) by (apply IH; split; [assumption|]; split; [assumption|]; exists x; auto).
          discriminate.
        * rewrite IH. split; intros [E [N [x [Hx B]]]]; (split; [assumption|]); (split; [assumption|]).
          -- exists x. auto.
          -- destruct Hx as [<-|Hx]; [destruct B|]. exists x. auto. }
  rewrite <- G. destruct (map_result (shape_rotate amt) s); simpl; split; intros H; try discriminate; exact H.
Qed.

Lemma set_rotate_cases : forall amt s, (exists t, set_rotate amt s = Ok t) \/ set_rotate amt s = Err ValueError.
Proof.
  intros amt s. destruct (set_rotate amt s) as [t|e] eqn:E; [left; eauto|].
  right. apply set_rotate_err in E. destruct E as [-> _]. reflexivity.
Qed.

Lemma rect_rotate_add : forall m n r, rect_rotate n (rect_rotate m r) = rect_rotate (m + n) r.
Proof.
  intros m n [o w h t]. unfold rect_rotate. cbn [rpos rw rh rangle].
  rewrite !rotate_is_turn, turn_add, plus_IZR. f_equal; [|ring]. f_equal. ring.
Qed.

Lemma shape_rotate_add : forall m n a b, proper_shape a -> shape_rotate m a = Ok b ->
  shape_rotate n b = shape_rotate (m + n) a.
Proof.
  intros m n [a|r] b Hp E; simpl in E.
  - destruct (aabb_rotate m a) as [a'|] eqn:Ea; simpl in E; [|discriminate]. inversion E; subst; clear E.
    assert (O : ordered a) by (unfold ordered, proper_shape, proper in *; lra). simpl.
    assert (M : (m mod 4 = 0)%Z).
    { destruct (Z.eq_dec (m mod 4) 0) as [M|M]; [assumption|].
      apply (aabb_rotate_err m a) in M. congruence. }
    destruct (Z.eq_dec (n mod 4) 0) as [N|N].
    + rewrite (aabb_rotate_add m n a a') by assumption. reflexivity.
    + assert (N' : ((m + n) mod 4 <> 0)%Z) by (rewrite Z.add_mod by lia; rewrite M; simpl; rewrite Z.mod_mod by lia; assumption).
      apply (aabb_rotate_err n a') in N. apply (aabb_rotate_err (m + n) a) in N'. rewrite N, N'. reflexivity.
  - inversion E; subst. simpl. rewrite rect_rotate_add. reflexivity.
Qed.

Lemma set_rotate_add : forall m n s t, Forall proper_shape s -> set_rotate m s = Ok t ->
  set_rotate n t = set_rotate (m + n) s.
Proof.
  intros m n s t Hp E. apply set_rotate_forall2 in E. unfold set_rotate.
  assert (G : map_result (shape_rotate n) t = map_result (shape_rotate (m + n)) s).
  { induction E as [|a b s t E F IH]; [reflexivity|]. inversion Hp; subst. simpl.
    rewrite (shape_rotate_add m n a b) by assumption. rewrite IH by assumption. reflexivity. }
  rewrite G. reflexivity.
Qed.

(** A box away from the centre of its set is turned in place. *)
Lemma offset_refuted :
  let s := [SBox (mkAABB (-1) (-1) 1 1 (5, 0))] in
  exists t p, Forall proper_shape s /\ set_rotate 4 s = Ok t /\ inside_set p s /\
    ~ inside_set (turn p) t.
Proof.
  set (a := mkAABB (-1) (-1) 1 1 (5, 0)).
  exists [SBox (rot_box 1 a)], (5, 0). split; [|split; [|split]].
  - constructor; [unfold proper_shape, proper; simpl; lra|constructor].
  - apply set_rotate_forall2. constructor; [|constructor]. unfold shape_rotate.
    pose proof (aabb_rotate_box 1 a ltac:(unfold ordered; simpl; lra)) as R.
    change (4 * 1)%Z with 4%Z in R. rewrite R. reflexivity.
  - exists (SBox a). split; [left; reflexivity|]. simpl. unfold inside_box. simpl. lra.
  - intros [x [[<-|[]] H]]. simpl in H. unfold inside_box in H. simpl in H. lra.
Qed.

(** ** Bounding boxes *)
Lemma rect_box_ordered : forall r b, rect_bounding_box r = Some b -> ordered b.
Proof.
  intros r b. unfold rect_bounding_box.
  change (rect_points r) with (shape_points (SRect r)). rewrite shape_points_o.
  destruct (obox_of (SRect r)) as [[cx cy] w h c s]. unfold opoints, oat. simpl.
  destruct (scan4 (cx + (- w * c - - h * s)) (cx + (w * c - - h * s)) (cx + (w * c - h * s))
     (cx + (- w * c - h * s)) ltac:(ring)) as [xa [xb [Ex [X1 [X2 [X3 [X4 [_ [X6 _]]]]]]]]].
  destruct (scan4 (cy + (- w * s + - h * c)) (cy + (w * s + - h * c)) (cy + (w * s + h * c))
     (cy + (- w * s + h * c)) ltac:(ring)) as [ya [yb [Ey [Y1 [Y2 [Y3 [Y4 [_ [Y6 _]]]]]]]]].
  rewrite Ex, Ey. intros E. inversion E; subst. unfold ordered. simpl.
  split; [destruct X6 as [-> | [-> | ->]]|destruct Y6 as [-> | [-> | ->]]]; lra.
Qed.

Lemma shape_box_spec : forall s, proper_shape s -> exists b, shape_box s = Some b /\
  ordered b /\ apos b = (0, 0) /\
  (good_angle s -> forall p, shape_corner p s -> in_box p b) /\
  (forall c, (forall p, shape_corner p s -> in_box p c) -> box_subset b c).
Proof.
  intros [a|r] Hp.
  - exists (aabb_bounding_box a). destruct a as [a1 b1 a2 b2 [ox oy]].
    unfold proper_shape, proper in Hp. simpl in *. split; [reflexivity|].
    split; [unfold ordered; simpl; lra|]. split; [reflexivity|]. split.
    + intros _ [px py] [H1 H2]. unfold in_box. simpl in *. lra.
    + intros c H [px py] I. unfold in_box in *. simpl in *.
      pose proof (H (a1 + ox, b1 + oy)) as K1. pose proof (H (a2 + ox, b2 + oy)) as K2. simpl in *. lra.
  - destruct Hp as [Hw Hh]. destruct (rect_box_exact r Hw Hh) as [b [E [P [H1 H2]]]].
    exists b. split; [exact E|]. split; [eapply rect_box_ordered; exact E|]. split; [exact P|].
    split; [intros G; apply H1; exact G|exact H2].
Qed.

Lemma fold_shapes : forall s area,
  fold_left (fun area a => extend_aabb area (shape_box a)) s area =
  fold_left (fun area t => extend_aabb area t) (map shape_box s) area.
Proof. induction s as [|a s IH]; intros; simpl; [reflexivity|apply IH]. Qed.

Lemma set_box_fold : forall s, set_box s = fold_left (fun area t => extend_aabb area t) (map shape_box s) None.
Proof.
  intros s. rewrite <- fold_shapes. destruct s as [|a [|b s]]; try reflexivity.
Qed.

Definition boxes (s : list shape) : list aabb :=
  flat_map (fun a => match shape_box a with Some b => [b] | None => [] end) s.

Lemma boxes_in : forall s b, In b (boxes s) <-> exists a, In a s /\ shape_box a = Some b.
Proof.
  intros s b. unfold boxes. rewrite in_flat_map. split; intros [a [H1 H2]]; exists a; (split; [assumption|]).
  - destruct (shape_box a) as [c|]; [destruct H2 as [->|[]]; reflexivity|destruct H2].
  - rewrite H2. left. reflexivity.
Qed.

Lemma extend_pos : forall a b c, extend_aabb a b = Some c ->
  (forall x, a = Some x -> apos x = (0, 0)) -> (forall x, b = Some x -> apos x = (0, 0)) -> apos c = (0, 0).
Proof.
  intros [a|] [b|] c E Ha Hb; simpl in E; inversion E; subst; auto.
Qed.

Lemma set_box_bounds : forall s, Forall proper_shape s ->
  bounds (boxes s) (set_box s) /\ forall b, set_box s = Some b -> apos b = (0, 0).
Proof.
  intros s Hs. rewrite set_box_fold.
  assert (G : forall s bs area, Forall proper_shape s -> bounds bs area ->
    (forall b, area = Some b -> apos b = (0, 0)) ->
    bounds (bs ++ boxes s) (fold_left (fun area t => extend_aabb area t) (map shape_box s) area) /\
    forall b, fold_left (fun area t => extend_aabb area t) (map shape_box s) area = Some b -> apos b = (0, 0)).
  { clear. induction s as [|a s IH]; intros bs area Hs HB HP; simpl.
    - rewrite app_nil_r. auto.
    - inversion Hs; subst. destruct (shape_box_spec a) as [b [E [O [P _]]]]; [assumption|].
      rewrite E. rewrite app_assoc. apply IH; [assumption| |].
      + apply bounds_extend; [assumption|]. simpl. rewrite <- (app_nil_r [b]), app_nil_r. apply bounds_single. assumption.
      + intros x Ex. eapply extend_pos; [exact Ex|assumption|]. intros y Ey. inversion Ey; subst. assumption. }
  apply (G s [] None); [assumption|reflexivity|discriminate].
Qed.

Lemma world_set_corner : forall s v p, set_corner (moved v p) (world_set s v) <-> set_corner p s.
Proof.
  intros s v p. unfold set_corner, world_set, set_new.
  assert (G : forall a, shape_corner (moved v p) (shape_move v a) <-> shape_corner p a).
  { destruct v as [vx vy], p as [px py].
    intros [[a1 b1 a2 b2 [ox oy]]|[[ox oy] w h t]]; unfold moved; simpl.
    - split; intros [H1 H2]; split; (destruct H1 || idtac); (destruct H2 || idtac); lra.
    - unfold corner_of. simpl.
      split; intros [u [v [H1 [H2 [H3 H4]]]]]; exists u, v; repeat split; try assumption; lra. }
  split.
  - intros [a [Ha Hc]]. apply in_map_iff in Ha. destruct Ha as [b [<- Hb]]. exists b. rewrite G in Hc. auto.
  - intros [a [Ha Hc]]. exists (shape_move v a). rewrite G. split; [apply in_map; assumption|assumption].
Qed.

Lemma world_box_spec : forall s v, Forall proper_shape s -> s <> [] ->
  exists b, world_box s v = Some b /\
    (Forall good_angle s -> forall p, set_corner p (world_set s v) -> in_box p b) /\
    (forall c, (forall p, set_corner p (world_set s v) -> in_box p c) -> box_subset b c).
Proof.
  intros s v Hs Hn. destruct (set_box_bounds s Hs) as [B P]. unfold world_box.
  assert (NE : boxes s <> []).
  { destruct s as [|a s]; [contradiction|]. inversion Hs; subst.
    destruct (shape_box_spec a) as [b [E _]]; [assumption|].
    intros F. assert (In b (boxes (a :: s))) by (apply boxes_in; exists a; split; [left; reflexivity|assumption]).
    rewrite F in H. destruct H. }
  destruct (set_box s) as [b|] eqn:Eb; [|simpl in B; contradiction].
  simpl in B. destruct B as [_ [O [U L]]]. specialize (P b eq_refl).
  eexists. split; [reflexivity|]. split.
  - intros G p Hp. rewrite <- (unmove v p), world_set_corner in Hp.
    destruct Hp as [a [Ha Hc]].
    destruct (shape_box_spec a) as [c [E [Oc [_ [K _]]]]]; [rewrite Forall_forall in Hs; auto|].
    assert (I : in_box (fst p - fst v, snd p - snd v) c) by (apply K; [rewrite Forall_forall in G; auto|assumption]).
    assert (C : corners_le c b) by (apply U; apply boxes_in; exists a; auto).
    apply (subset_corners b c Oc) in C. apply C in I. unfold in_box in *. simpl in *. rewrite P in *. simpl in *. lra.
  - intros c Hc.
    assert (C : corners_le b (mkAABB (x1 c - fst v) (y1 c - snd v) (x2 c - fst v) (y2 c - snd v) (apos c))).
    { apply L. intros d Hd. apply boxes_in in Hd. destruct Hd as [a [Ha Ed]].
      destruct (shape_box_spec a) as [d' [E [Oc [_ [_ K]]]]]; [rewrite Forall_forall in Hs; auto|].
      rewrite Ed in E. inversion E; subst d'.
      apply (subset_corners _ d Oc). apply K. intros q Hq.
      assert (I : in_box (moved v q) c) by (apply Hc; apply world_set_corner; exists a; auto).
      unfold in_box, moved in *. simpl in *. lra. }
    apply (subset_corners _ b O) in C. intros p Hp.
    assert (I : in_box (fst p - fst v, snd p - snd v) b).
    { unfold in_box in *. simpl in *. rewrite P in *. simpl in *. lra. }
    apply C in I. unfold in_box in *. simpl in *. lra.
Qed.

Lemma world_box_empty : forall v, world_box [] v = None.
Proof. reflexivity. Qed.

(** ** Rails *)
Definition turned (deg : R) (base s : list shape) : Prop :=
  forall p, inside_set p s <-> exists q, inside_set q base /\ p = plane_turn deg q.

Lemma turned_id : forall s, turned 0 s s.
Proof. intros s p. split; [intros H; exists p; rewrite turn_zero; auto|intros [q [H ->]]; rewrite turn_zero; assumption]. Qed.

Lemma turned_next : forall base s s' a b (k : Z), turned a base s -> turned b base s' ->
  b = a + 90 + 360 * IZR k ->
  forall p, inside_set p s' <-> exists q, inside_set q s /\ p = turn q.
Proof.
  intros base s s' a b k Hs Hs' E p. rewrite (Hs' p). split.
  - intros [q [H1 ->]]. exists (plane_turn a q). split; [apply Hs; exists q; auto|].
    rewrite <- turn_quarter, turn_add, E, turn_period. f_equal. ring.
  - intros [q [H1 ->]]. apply Hs in H1. destruct H1 as [r [H1 ->]]. exists r. split; [assumption|].
    rewrite <- turn_quarter, turn_add, E, turn_period. f_equal. ring.
Qed.

Lemma turned_rotate : forall amt s t, Forall proper_shape s -> Forall centred s ->
  set_rotate amt s = Ok t -> turned (IZR amt * (45 / 2)) s t.
Proof. intros amt s t Hp Hc E p. apply (set_rotate_image amt s t E Hp Hc). Qed.

Lemma vertical_half : forall eps, turned 180 (vertical_collision eps) (vertical_collision eps).
Proof.
  intros eps p.
  assert (T : forall q, plane_turn 180 q = (- fst q, - snd q)).
  { intros [x y]. unfold plane_turn. cbn [fst snd]. replace (180 * (PI / 180)) with PI by field.
    rewrite cos_PI, sin_PI. apply pt_eq; ring. }
  unfold inside_set, vertical_collision. simpl. split.
  - intros [a [[<-|[]] H]]. exists (- fst p, - snd p). split.
    + eexists. split; [left; reflexivity|]. simpl in *. unfold inside_box in *. simpl in *. lra.
    + rewrite T. cbn [fst snd]. rewrite !Ropp_involutive. destruct p; reflexivity.
  - intros [q [[a [[<-|[]] H]] ->]]. rewrite T. eexists. split; [left; reflexivity|].
    simpl in *. unfold inside_box in *. simpl in *. lra.
Qed.

Lemma turned_trans : forall base s t a b, turned a base s -> turned b s t -> turned (b + a) base t.
Proof.
  intros base s t a b Hs Ht p. rewrite (Ht p). split.
  - intros [q [H ->]]. apply Hs in H. destruct H as [r [H ->]]. exists r. rewrite turn_add. auto.
  - intros [q [H ->]]. exists (plane_turn a q). rewrite turn_add. split; [apply Hs; exists q; auto|reflexivity].
Qed.

Lemma vertical_ok : forall eps, eps < 1 ->
  Forall proper_shape (vertical_collision eps) /\ Forall centred (vertical_collision eps).
Proof.
  intros eps H. split; repeat constructor; unfold proper_shape, proper; simpl; lra.
Qed.
Lemma diagonal_ok : Forall proper_shape diagonal_collision /\ Forall centred diagonal_collision.
Proof. split; repeat constructor; unfold proper_shape, proper; simpl; lra. Qed.
Lemma left_ok : Forall proper_shape left_turn /\ Forall centred left_turn.
Proof. split; repeat constructor; unfold proper_shape, proper; simpl; lra. Qed.
Lemma right_ok : Forall proper_shape right_turn /\ Forall centred right_turn.
Proof. split; repeat constructor; unfold proper_shape, proper; simpl; lra. Qed.

Lemma rotate_exists : forall amt s, (amt mod 4 = 0)%Z -> exists t, set_rotate amt s = Ok t.
Proof.
  intros amt s H. destruct (set_rotate_cases amt s) as [E|E]; [exact E|].
  apply set_rotate_err in E. destruct E as [_ [N _]]. contradiction.
Qed.

Lemma straight_rails : forall eps d, eps < 1 -> In d [0; 2; 4; 6; 8; 10; 12; 14]%Z ->
  exists s s', straight_rail_set eps d = Some (Ok s) /\
    straight_rail_set eps ((d + 4) mod 16) = Some (Ok s') /\
    forall p, inside_set p s' <-> exists q, inside_set q s /\ p = turn q.
Proof.
  intros eps d He Hd.
  destruct (vertical_ok eps He) as [PV CV]. destruct diagonal_ok as [PD CD].
  destruct (rotate_exists 4 (vertical_collision eps) eq_refl) as [hv Hv].
  destruct (rotate_exists 4 diagonal_collision eq_refl) as [d4 H4].
  destruct (rotate_exists 8 diagonal_collision eq_refl) as [d8 H8].
  destruct (rotate_exists (-4) diagonal_collision eq_refl) as [d12 H12].
  pose proof (turned_rotate _ _ _ PV CV Hv) as Tv.
  pose proof (turned_rotate _ _ _ PD CD H4) as T4.
  pose proof (turned_rotate _ _ _ PD CD H8) as T8.
  pose proof (turned_rotate _ _ _ PD CD H12) as T12.
  pose proof (turned_id (vertical_collision eps)) as V0.
  pose proof (turned_id diagonal_collision) as D0.
  pose proof (vertical_half eps) as V8.
  pose proof (turned_trans _ _ _ _ _ V8 Tv) as Tv12.
  destruct Hd as [<-|[<-|[<-|[<-|[<-|[<-|[<-|[<-|[]]]]]]]]]; simpl;
    rewrite ?Hv, ?H4, ?H8, ?H12; do 2 eexists; (split; [reflexivity|]); (split; [reflexivity|]).
  - apply (turned_next _ _ _ _ _ 0 V0 Tv). lra.
  - apply (turned_next _ _ _ _ _ 0 T4 T8). lra.
  - apply (turned_next _ _ _ _ _ 0 Tv V8). lra.
  - apply (turned_next _ _ _ _ _ (-1) T8 T12). lra.
  - apply (turned_next _ _ _ _ _ 0 V8 Tv12). lra.
  - apply (turned_next _ _ _ _ _ 0 T12 D0). lra.
  - apply (turned_next _ _ _ _ _ (-1) Tv12 V0). lra.
  - apply (turned_next _ _ _ _ _ 0 D0 T4). lra.
Qed.

Lemma curved_rails : forall d, In d [0; 2; 4; 6; 8; 10; 12; 14]%Z ->
  exists s s', curved_rail_set d = Some (Ok s) /\
    curved_rail_set ((d + 4) mod 16) = Some (Ok s') /\
    forall p, inside_set p s' <-> exists q, inside_set q s /\ p = turn q.
Proof.
  intros d Hd.
  destruct left_ok as [PL CL]. destruct right_ok as [PR CR].
  destruct (rotate_exists 4 left_turn eq_refl) as [l4 L4].
  destruct (rotate_exists 8 left_turn eq_refl) as [l8 L8].
  destruct (rotate_exists 12 left_turn eq_refl) as [l12 L12].
  destruct (rotate_exists 4 right_turn eq_refl) as [r4 R4].
  destruct (rotate_exists 8 right_turn eq_refl) as [r8 R8].
  destruct (rotate_exists 12 right_turn eq_refl) as [r12 R12].
  pose proof (turned_rotate _ _ _ PL CL L4) as TL4.
  pose proof (turned_rotate _ _ _ PL CL L8) as TL8.
  pose proof (turned_rotate _ _ _ PL CL L12) as TL12.
  pose proof (turned_rotate _ _ _ PR CR R4) as TR4.
  pose proof (turned_rotate _ _ _ PR CR R8) as TR8.
  pose proof (turned_rotate _ _ _ PR CR R12) as TR12.
  pose proof (turned_id left_turn) as TL0. pose proof (turned_id right_turn) as TR0.
  destruct Hd as [<-|[<-|[<-|[<-|[<-|[<-|[<-|[<-|[]]]]]]]]]; cbn -[set_rotate left_turn right_turn];
    rewrite ?L4, ?L8, ?L12, ?R4, ?R8, ?R12; do 2 eexists; (split; [reflexivity|]); (split; [reflexivity|]).
  - apply (turned_next _ _ _ _ _ 0 TL0 TL4). lra.
  - apply (turned_next _ _ _ _ _ 0 TR0 TR4). lra.
  - apply (turned_next _ _ _ _ _ 0 TL4 TL8). lra.
  - apply (turned_next _ _ _ _ _ 0 TR4 TR8). lra.
  - apply (turned_next _ _ _ _ _ 0 TL8 TL12). lra.
  - apply (turned_next _ _ _ _ _ 0 TR8 TR12). lra.
  - apply (turned_next _ _ _ _ _ (-1) TL12 TL0). lra.
  - apply (turned_next _ _ _ _ _ (-1) TR12 TR0). lra.
Qed.
