(** Proofs for C88. *)
From Coq Require Import Reals ZArith QArith Qround String List Bool Lia Lra.
From Verif Require Import Common Dict Assign_Model Slots_Model Request_Model Geometry_Model Geometry_Spec Geometry_Proofs
  Capacity_Model Capacity_Spec.
Import ListNotations.
Local Open Scope Z_scope.

(** ** Rounding *)
Lemma shift_near : forall m k, 0 <= k -> 2 * m - 2 ^ k <= 2 * (shift_even m k * 2 ^ k) <= 2 * m + 2 ^ k.
Proof.
  intros m k K. unfold shift_even. assert (P : 0 < 2 ^ k) by (apply Z.pow_pos_nonneg; lia).
  set (d := 2 ^ k) in *. pose proof (Z.div_mod m d ltac:(lia)) as E. pose proof (Z.mod_pos_bound m d P) as B.
  set (q := m / d) in *. set (r := m mod d) in *. clearbody q r d.
  destruct (2 * r <? d) eqn:L; [apply Z.ltb_lt in L; nia|apply Z.ltb_ge in L].
  destruct (d <? 2 * r) eqn:G; [apply Z.ltb_lt in G; nia|apply Z.ltb_ge in G].
  destruct (Z.even q); nia.
Qed.
(** The product of a small number and a number of 53 bits. *)
Lemma scaled : forall n m q t e, 0 <= n < 2 ^ 40 -> 2 ^ 52 <= m < 2 ^ 53 -> e = 52 ->
  10 * q <= n * t < 10 * (q + 1) -> 0 < t < 2 ^ 5 ->
  -4 <= 10 * m - t * 2 ^ e <= 5 -> (0 <= 10 * m - t * 2 ^ e \/ 19 <= t) ->
  floor (times (n, 0) (m, - e)) = q.
Proof.
  intros n m q t e N M E Q T C C'. unfold times, rounded, floor. cbn [fst snd]. rewrite Z.add_0_l.
  assert (W : -4 * n <= 10 * (n * m) - n * t * 2 ^ e <= 5 * n) by nia.
  assert (W' : 0 <= 10 * (n * m) - n * t * 2 ^ e \/ 19 * n <= n * t) by (destruct C'; [left|right]; nia).
  clear C C'.
  assert (P0 : 0 <= n * m) by nia. rewrite (Z.abs_eq _ P0).
  set (k := Z.log2 (n * m) - 52).
  assert (EP : 0 < 2 ^ e) by (apply Z.pow_pos_nonneg; lia).
  destruct (Z.leb_spec k 0) as [S|S].
  - cbn [fst snd]. assert (n * m < 2 ^ 53).
    { destruct (Z.eq_dec (n * m) 0) as [->|]; [lia|]. pose proof (Z.log2_spec (n * m) ltac:(lia)) as [_ L].
      apply (Z.lt_le_trans _ _ _ L). apply Z.pow_le_mono_r; unfold k in S; lia. }
    replace (0 <=? - e) with false by (symmetry; apply Z.leb_gt; lia). replace (- - e) with e by lia.
    symmetry. apply (Z.div_unique_pos _ _ _ (n * m - 2 ^ e * q)); [|lia].
    assert (X : n = 0 \/ n = 1) by nia. subst e; destruct X as [-> | ->]; lia.
  - cbn [fst snd].
    assert (NM : 0 < n * m).
    { destruct (Z.eq_dec (n * m) 0) as [Z0|]; [|lia]. unfold k in S. rewrite Z0 in S. cbn in S. lia. }
    pose proof (Z.log2_spec (n * m) NM) as [L1 L2]. replace (Z.log2 (n * m)) with (k + 52) in L1, L2 by (unfold k; lia).
    assert (K : k <= 41).
    { assert (n * m < 2 ^ 94) by (change (2 ^ 94) with (2 ^ 41 * 2 ^ 53); nia).
      destruct (Z_le_gt_dec k 41); [assumption|]. exfalso.
      assert (2 ^ 94 <= 2 ^ (k + 52)) by (apply Z.pow_le_mono_r; lia). lia. }
    replace (0 <=? - e + k) with false by (symmetry; apply Z.leb_gt; lia). replace (- (- e + k)) with (e - k) by lia.
    pose proof (shift_near (n * m) k ltac:(lia)) as R. set (m' := shift_even (n * m) k) in *. clearbody m'.
    assert (XY : 2 ^ k * 2 ^ (e - k) = 2 ^ e) by (rewrite <- Z.pow_add_r by lia; f_equal; lia).
    assert (Y0 : 0 < 2 ^ (e - k)) by (apply Z.pow_pos_nonneg; lia).
    assert (X0 : 0 < 2 ^ k) by (apply Z.pow_pos_nonneg; lia).
    replace (Z.succ (k + 52)) with (k + 53) in L2 by lia.
    rewrite Z.pow_add_r in L1 by lia. rewrite Z.pow_add_r in L2 by lia.
    clearbody k. set (X := 2 ^ k) in *. set (Y := 2 ^ (e - k)) in *. clearbody X Y.
    symmetry. apply (Z.div_unique_pos _ _ _ (m' - Y * q)); [|lia].
    assert (U : n * 2 ^ 52 <= n * m < 2 ^ 53 * n) by nia.
    assert (A : q * Y <= m').
    { destruct (Z_le_gt_dec (q * Y) m') as [|G]; [assumption|]. exfalso.
      assert (H : (m' + 1) * X <= q * 2 ^ e).
      { rewrite <- XY. replace (q * (X * Y)) with (q * Y * X) by ring. apply Z.mul_le_mono_nonneg_r; lia. }
      assert (H2 : 2 * (n * m) + X <= 2 * (q * 2 ^ e)) by lia.
      set (P := n * m) in *; set (V := n * t) in *; clearbody P V; subst e; lia. }
    assert (B : m' < (q + 1) * Y).
    { destruct (Z_lt_ge_dec m' ((q + 1) * Y)) as [|G]; [assumption|]. exfalso.
      assert (H : (q + 1) * 2 ^ e <= m' * X).
      { rewrite <- XY. replace ((q + 1) * (X * Y)) with ((q + 1) * Y * X) by ring. apply Z.mul_le_mono_nonneg_r; lia. }
      assert (H2 : 2 * ((q + 1) * 2 ^ e) <= 2 * (n * m) + X) by lia.
      set (P := n * m) in *; set (V := n * t) in *; clearbody P V; clear R A L2 G H Y0 XY;
      assert (X2 : X < 2 * n) by lia;
      assert (H3 : 2 * ((V + 1) * 2 ^ e) <= 20 * P + 10 * X) by nia;
      assert (H4 : 2 * 2 ^ e <= 10 * n + 10 * X) by lia; subst e; lia. }
    lia.
Qed.
Lemma rounded_small : forall n e, 0 <= n < 2 ^ 53 -> rounded (n, e) = (n, e).
Proof.
  intros n e N. unfold rounded. cbn [fst snd]. rewrite Z.abs_eq by lia.
  destruct (Z.leb_spec (Z.log2 n - 52) 0) as [|G]; [reflexivity|]. exfalso.
  destruct (Z.eq_dec n 0) as [->|]; [cbn in G; lia|].
  pose proof (Z.log2_lt_pow2 n 53 ltac:(lia)) as L. lia.
Qed.
Lemma multiplied : forall q t, improves q t -> exists k, dget pystr_eqb multipliers q = Some k /\ closest k t /\
  forall n, 0 <= n < 2 ^ 40 -> floor (times (float_of n) k) = n * t / 10.
Proof.
  intros q t I.
  assert (F : forall n, 0 <= n < 2 ^ 40 -> float_of n = (n, 0)) by (intros n N; apply rounded_small; lia).
  assert (Q : forall n u, 10 * (n * u / 10) <= n * u < 10 * (n * u / 10 + 1)).
  { intros n u. pose proof (Z.div_mod (n * u) 10 ltac:(lia)). pose proof (Z.mod_pos_bound (n * u) 10 ltac:(lia)). lia. }
  destruct I; eexists; (split; [vm_compute; reflexivity|]); (split; [unfold closest; cbn; lia|]); intros n N; rewrite F by assumption.
  - unfold times. cbn [fst snd]. rewrite rounded_small by lia. unfold floor. cbn [fst snd]. cbn [Z.leb Z.compare Z.add Z.pow].
    rewrite Z.div_mul by lia. lia.
  - apply (scaled n _ _ 13 52); try lia; auto; apply Q.
  - apply (scaled n _ _ 16 52); try lia; auto; apply Q.
  - apply (scaled n _ _ 19 52); try lia; auto; apply Q.
  - unfold times. cbn [fst snd]. rewrite rounded_small by lia. unfold floor. cbn [fst snd].
    change (0 <=? 0 + -1) with false. change (2 ^ (- (0 + -1))) with 2. cbv iota.
    replace (n * 25) with (n * 5 * 5) by lia. change 10 with (2 * 5). rewrite Z.div_mul_cancel_r by lia. reflexivity.
Qed.
Lemma affects_sized : forall D name n b, sized D name n b ->
  obind (dget pystr_eqb D name) p_size = Some n /\ affects D name = Some b.
Proof.
  intros D name n b (p & G & S & A). unfold affects. rewrite G. simpl. split; [exact S|].
  destruct (p_affects p) as [[|]|]; destruct b; try reflexivity;
    first [discriminate (proj1 A eq_refl) | discriminate (proj2 A eq_refl)].
Qed.
Lemma size_exact : forall D name n q t, sized D name n true -> 0 <= n < 2 ^ 40 -> improves q t ->
  inventory_size D name (Some q) = Ok (Some (n * t / 10)).
Proof.
  intros D name n q t S N I. destruct (affects_sized _ _ _ _ S) as [O A]. unfold inventory_size. rewrite O, A. cbn [obind].
  destruct (multiplied q t I) as (k & -> & _ & F). rewrite F by assumption. reflexivity.
Qed.
Lemma size_fixed : forall D name n q, sized D name n false -> inventory_size D name q = Ok (Some n).
Proof. intros D name n q S. destruct (affects_sized _ _ _ _ S) as [O A]. unfold inventory_size. rewrite O, A. reflexivity. Qed.
Lemma size_none : forall D name q, unsized D name -> inventory_size D name q = Ok None.
Proof.
  intros D name q U. unfold inventory_size. destruct (dget pystr_eqb D name) as [p|] eqn:G; simpl; [rewrite (U p G)|]; reflexivity.
Qed.
Lemma quality_known : forall q k, dget pystr_eqb multipliers q = Some k -> exists t, improves q t.
Proof.
  intros q k H. apply (dget_some_in _ pystr_eqb_eq) in H. simpl in H.
  destruct H as [H|[H|[H|[H|[H|[]]]]]]; injection H as <- _; eexists; constructor.
Qed.
Lemma size_raises : forall D name n q, sized D name n true -> (forall s t, q = Some s -> ~ improves s t) ->
  inventory_size D name q = Err KeyError.
Proof.
  intros D name n q S U. destruct (affects_sized _ _ _ _ S) as [O A]. unfold inventory_size. rewrite O, A. cbn [obind].
  destruct q as [s|]; [cbn [obind]|reflexivity]. destruct (dget pystr_eqb multipliers s) as [k|] eqn:G; [|reflexivity].
  destruct (quality_known _ _ G) as (t & T). destruct (U s t eq_refl T).
Qed.
Lemma size_grows : forall D name n q q' t t', sized D name n true -> 0 <= n < 2 ^ 40 -> improves q t -> improves q' t' ->
  t < t' -> exists a b, inventory_size D name (Some q) = Ok (Some a) /\ inventory_size D name (Some q') = Ok (Some b) /\
  a <= b /\ (4 <= n -> a < b).
Proof.
  intros D name n q q' t t' S N I I' L. exists (n * t / 10), (n * t' / 10). rewrite (size_exact _ _ _ _ _ S N I), (size_exact _ _ _ _ _ S N I').
  split; [reflexivity|]. split; [reflexivity|]. split; [apply Z.div_le_mono; nia|].
  intros H. assert (D3 : t + 3 <= t') by (destruct I; destruct I'; lia).
  assert (n * t + 10 <= n * t') by nia. apply Z.lt_le_trans with ((n * t + 1 * 10) / 10); [rewrite Z.div_add by lia; lia|apply Z.div_le_mono; lia].
Qed.
Lemma wagon : forall D name,
  (forall n, wagon_size D name = Ok (Some n) <-> exists p, dget pystr_eqb D name = Some p /\ p_size p = Some n) /\
  (wagon_size D name = Ok None <-> dget pystr_eqb D name = None) /\
  (wagon_size D name = Err KeyError <-> exists p, dget pystr_eqb D name = Some p /\ p_size p = None).
Proof.
  intros D name. unfold wagon_size. destruct (dget pystr_eqb D name) as [p|]; [destruct (p_size p) as [z|] eqn:E|];
    repeat split; intros; try congruence; try (eexists; split; [reflexivity|]); try congruence;
    match goal with H : exists _, _ |- _ => destruct H as (x & X & Y) end; congruence.
Qed.

Lemma defaults : forall D name,
  (dget pystr_eqb D name = None -> bar_enabled D name = None /\ total_module_slots D name = None) /\
  forall p, dget pystr_eqb D name = Some p ->
    (forall b, bar_enabled D name = Some b <-> p_bar p = Some b \/ (p_bar p = None /\ b = true)) /\
    (forall n, total_module_slots D name = Some n <-> p_modules p = Some n \/ (p_modules p = None /\ n = 0)).
Proof.
  intros D name. unfold bar_enabled, total_module_slots. split; [intros ->; auto|]. intros p ->.
  split; [destruct (p_bar p)|destruct (p_modules p)]; intros x; split; intros H;
    try (left; congruence); try (right; split; congruence); destruct H as [H|[H H']]; congruence.
Qed.

(** ** Requests *)
Lemma two_spec : forall a, two_arguments a = true <-> item_and_count a.
Proof.
  intros a. unfold two_arguments, item_and_count.
  destruct (a_count a), (a_quality a), (a_inventory a), (a_slot a); split; intros H; try discriminate;
    try (destruct H as [(n & X) (Y & V & W)]; discriminate); repeat split; try reflexivity; eexists; reflexivity.
Qed.
Section R.
  Variable D : protos.
  Variable stacks : pystr -> option positive.
  Variable is_module : pystr -> bool.
  Notation request' := (request D stacks is_module).
  Lemma chest_method : forall c strict name q st a, chest c ->
    request' c strict name q st a = inventory_request D stacks strict name q st a.
  Proof. intros c strict name q st a [A B]. destruct c; try reflexivity; congruence. Qed.
  Lemma chest_stored : forall c strict name q st a st', chest c -> item_and_count a ->
    plain_request strict st a = (st', Ok tt) -> request' c strict name q st a = (st', ([], Some AttributeError)).
  Proof.
    intros c strict name q st a st' C A P. rewrite chest_method by assumption. unfold inventory_request.
    rewrite (proj2 (two_spec a) A), P. reflexivity.
  Qed.
  Lemma refused : forall strict st a st' e, plain_request strict st a = (st', Err e) -> st' = st.
  Proof.
    intros strict st a st' e. unfold plain_request, set_item_request. cbv zeta.
    match goal with |- match ?x with _ => _ end = _ -> _ => destruct x as [l|x'] end; [|intros H; injection H as <- _; reflexivity].
    destruct (strict && negb (forallb req_valid l)); intros H; [injection H as <- _; reflexivity|discriminate].
  Qed.
  Lemma chest_raises : forall c strict name q st a, chest c -> snd (snd (request' c strict name q st a)) <> None.
  Proof.
    intros c strict name q st a C. rewrite chest_method by assumption. unfold inventory_request.
    destruct (two_arguments a); [|simpl; discriminate]. destruct (plain_request strict st a) as [st' [[]|e]]; simpl; discriminate.
  Qed.
  Lemma others_refused : forall c strict name q st a, c <> InfinityContainer -> ~ item_and_count a ->
    request' c strict name q st a = (st, ([], Some TypeError)).
  Proof.
    intros c strict name q st a C A. assert (T : two_arguments a = false).
    { destruct (two_arguments a) eqn:E; [|reflexivity]. destruct (A (proj1 (two_spec a) E)). }
    destruct c; try congruence; simpl; unfold inventory_request, lab_request; rewrite T; reflexivity.
  Qed.
  Lemma not_stored : forall c strict name q st a st' e, item_and_count a \/ c = InfinityContainer ->
    plain_request strict st a = (st', Err e) -> request' c strict name q st a = (st, ([], Some e)).
  Proof.
    intros c strict name q st a st' e A P. pose proof (refused _ _ _ _ _ P) as ->.
    destruct A as [A| ->].
    - destruct c; simpl; unfold inventory_request, lab_request; rewrite ?(proj2 (two_spec a) A), P; reflexivity.
    - simpl. rewrite P. reflexivity.
  Qed.
  Lemma infinity : forall strict name q st a st', plain_request strict st a = (st', Ok tt) ->
    request' InfinityContainer strict name q st a = (st', ([], None)).
  Proof. intros. simpl. rewrite H. reflexivity. Qed.
  Lemma existsb_in : forall x l, existsb (pystr_eqb x) l = true <-> In x l.
  Proof.
    intros x l. rewrite existsb_exists. split.
    - intros (y & I & E). apply pystr_eqb_eq in E. subst. exact I.
    - intros I. exists x. split; [exact I|]. apply pystr_eqb_refl.
  Qed.
  Lemma lab : forall strict name q st a st', item_and_count a -> plain_request strict st a = (st', Ok tt) ->
    exists w e, request' Lab strict name q st a = (st', (w, e)) /\ lab_says D is_module name (a_item a) w e.
  Proof.
    intros strict name q st a st' A P. simpl. unfold lab_request. rewrite (proj2 (two_spec a) A), P.
    destruct (is_module (a_item a)) eqn:M; [eexists; eexists; split; [reflexivity|]; constructor; exact M|].
    unfold inputs. destruct (dget pystr_eqb D name) as [p|] eqn:G.
    - destruct (p_inputs p) as [l|] eqn:L.
      + eexists; eexists; split; [reflexivity|]. destruct (existsb (pystr_eqb (a_item a)) l) eqn:E.
        * eapply says_input; try eassumption. apply existsb_in. exact E.
        * eapply says_no_input; try eassumption. intros I. apply existsb_in in I. congruence.
      + eexists; eexists; split; [reflexivity|]. eapply says_no_inputs; eassumption.
    - eexists; eexists; split; [reflexivity|]. apply says_unknown; assumption.
  Qed.
  Lemma no_modules : forall l, module_items is_module (Requests l) = Err AttributeError /\
    slots_occupied stacks (Requests l) = Err AttributeError /\
    (l <> [] -> module_slots_occupied is_module (Requests l) = Err TypeError).
  Proof. intros l. repeat split. destruct l; [congruence|reflexivity]. Qed.
  Lemma ceiling : forall c s k, (k - 1) * Zpos s < c <= k * Zpos s -> Qceiling (c # s) = k.
  Proof.
    intros c s k H. unfold Qceiling, Qfloor, Qopp. simpl Qnum. simpl Qden.
    assert (- c / Zpos s = - k); [|lia]. symmetry. apply (Z.div_unique_pos _ _ _ (k * Zpos s - c)); lia.
  Qed.
  Lemma ceiling_spec : forall c s, (Qceiling (c # s) - 1) * Zpos s < c <= Qceiling (c # s) * Zpos s.
  Proof.
    intros c s. unfold Qceiling, Qfloor, Qopp. simpl Qnum. simpl Qden.
    pose proof (Z.div_mod (- c) (Zpos s) ltac:(lia)). pose proof (Z.mod_pos_bound (- c) (Zpos s) ltac:(lia)). nia.
  Qed.
  Lemma counted : forall d, exists ks, Forall2 (stacks_for stacks) d ks /\ slots_occupied stacks (Counts d) = Ok (total ks).
  Proof.
    intros d. unfold slots_occupied.
    assert (H : forall n, exists ks, Forall2 (stacks_for stacks) d ks /\
      fold_left (fun n kv => match stacks (fst kv) with Some s => n + Qceiling (snd kv # s) | None => n end) d n = n + total ks).
    { induction d as [|[i c] d IH]; intros n; [exists []; split; [constructor|simpl; lia]|]. simpl.
      destruct (stacks i) as [s|] eqn:S.
      - destruct (IH (n + Qceiling (c # s))) as (ks & F & E). exists (Qceiling (c # s) :: ks). split.
        + constructor; [|exact F]. unfold stacks_for. simpl. rewrite S. apply ceiling_spec.
        + rewrite E. simpl. lia.
      - destruct (IH n) as (ks & F & E). exists (0 :: ks). split.
        + constructor; [|exact F]. unfold stacks_for. simpl. rewrite S. reflexivity.
        + rewrite E. simpl. lia. }
    destruct (H 0) as (ks & F & E). exists ks. split; [exact F|]. rewrite E. f_equal.
  Qed.
End R.

(** ** Blueprints *)
Lemma careful_spec : forall m, mode_le m MMinimum = false <-> careful m.
Proof. intros [| | |]; unfold careful; simpl; split; intros H; try discriminate; auto; destruct H; discriminate. Qed.
Lemma least : forall (f : aabb -> R) l, l <> [] -> exists b, In b l /\ forall c, In c l -> (f b <= f c)%R.
Proof.
  intros f l. induction l as [|a [|a' l] IH]; intros N; [congruence| |].
  - exists a. split; [left; reflexivity|]. intros c [->|[]]. lra.
  - destruct IH as (b & I & B); [discriminate|]. destruct (Rle_dec (f a) (f b)) as [L|L].
    + exists a. split; [left; reflexivity|]. intros c [<-|C]; [lra|]. specialize (B c C). lra.
    + exists b. split; [right; exact I|]. intros c [<-|C]; [lra|]. auto.
Qed.
Lemma Rceil_gt : forall x n, (n < Rceil x)%Z <-> (IZR n < x)%R.
Proof.
  intros x n. pose proof (proj1 (Rceil_spec x _) eq_refl) as [A B]. split; intros H.
  - apply Z.le_succ_l in H. apply IZR_le in H. rewrite succ_IZR in H. lra.
  - apply lt_IZR. lra.
Qed.
Lemma unreasonable : forall m es ts, (forall b, part es ts b -> ordered b) ->
  (check_size m (blueprint_dimensions es ts) = Some UnreasonablySizedBlueprintError <->
   careful m /\ exists a b, part es ts a /\ part es ts b /\ apart 10000 a b) /\
  (check_size m (blueprint_dimensions es ts) <> Some UnreasonablySizedBlueprintError -> check_size m (blueprint_dimensions es ts) = None).
Proof.
  intros m es ts O. unfold check_size. split; [|destruct (mode_le m MMinimum); [reflexivity|]; destruct (_ || _); congruence].
  destruct (mode_le m MMinimum) eqn:M.
  { split; [discriminate|]. intros [C _]. apply careful_spec in C. congruence. }
  apply careful_spec in M.
  assert (K : ((10000 <? fst (blueprint_dimensions es ts)) || (10000 <? snd (blueprint_dimensions es ts))) = true <->
              exists a b, part es ts a /\ part es ts b /\ apart 10000 a b).
  { rewrite orb_true_iff, !Z.ltb_lt. pose proof (blueprint_bounds es ts O) as B. unfold blueprint_dimensions, aabb_to_dimensions.
    destruct (blueprint_box es ts) as [r|] eqn:R; cbn [fst snd].
    - rewrite !Rceil_gt. destruct B as (NE & OR & U & L).
      assert (P : forall b, part es ts b <-> In b (all_boxes es ts)) by (intros b; symmetry; apply all_boxes_spec).
      split.
      + intros [H|H].
        * destruct (least (fun b => fst (world_tl b)) _ NE) as (a & Ia & La).
          destruct (least (fun b => (- fst (world_br b))%R) _ NE) as (b & Ib & Lb).
          exists a, b. rewrite !P. split; [exact Ia|]. split; [exact Ib|]. left.
          assert (C : corners_le r (mkAABB (fst (world_tl a)) (snd (world_tl r)) (fst (world_br b)) (snd (world_br r)) (0, 0)%R)).
          { apply L. intros c Ic. specialize (La c Ic). specialize (Lb c Ic). destruct (U c Ic) as (_ & U2 & _ & U4).
            unfold corners_le, world_tl, world_br in *. cbn [fst snd x1 x2 y1 y2 apos] in *. lra. }
          unfold corners_le, world_tl, world_br in *. cbn [fst snd x1 x2 y1 y2 apos] in *. lra.
        * destruct (least (fun b => snd (world_tl b)) _ NE) as (a & Ia & La).
          destruct (least (fun b => (- snd (world_br b))%R) _ NE) as (b & Ib & Lb).
          exists a, b. rewrite !P. split; [exact Ia|]. split; [exact Ib|]. right.
          assert (C : corners_le r (mkAABB (fst (world_tl r)) (snd (world_tl a)) (fst (world_br r)) (snd (world_br b)) (0, 0)%R)).
          { apply L. intros c Ic. specialize (La c Ic). specialize (Lb c Ic). destruct (U c Ic) as (U1 & _ & U3 & _).
            unfold corners_le, world_tl, world_br in *. cbn [fst snd x1 x2 y1 y2 apos] in *. lra. }
          unfold corners_le, world_tl, world_br in *. cbn [fst snd x1 x2 y1 y2 apos] in *. lra.
      + intros (a & b & Pa & Pb & A). apply P in Pa. apply P in Pb. pose proof (U a Pa) as Ua. pose proof (U b Pb) as Ub.
        unfold corners_le, apart, world_tl, world_br in *. cbn [fst snd x1 x2 y1 y2 apos] in *. destruct A; [left|right]; lra.
    - simpl in B. split; [intros [H|H]; lia|]. intros (a & b & Pa & _). apply all_boxes_spec in Pa. rewrite B in Pa. destruct Pa. }
  destruct (_ || _); split.
  - intros _. split; [exact M|]. apply K. reflexivity.
  - reflexivity.
  - discriminate.
  - intros [_ H]. apply K in H. discriminate.
Qed.
Lemma index_set : forall m dims old v,
  (set_index m dims old v = (old, Some DataFormatError) /\ m <> MNone /\ exists z, v = Some z /\ ~ 0 <= z < 65536) \/
  (fst (set_index m dims old v) = v /\ snd (set_index m dims old v) = check_size m dims).
Proof.
  intros m dims old v. unfold set_index. destruct m; simpl; try (right; split; reflexivity);
    (destruct v as [z|]; simpl; [|right; split; reflexivity]; destruct (uint16 z) eqn:E; [right; split; reflexivity|];
     left; split; [reflexivity|]; split; [discriminate|]; exists z; split; [reflexivity|];
     unfold uint16 in E; apply andb_false_iff in E; rewrite Z.leb_gt, Z.ltb_ge in E; lia).
Qed.
Lemma index_stays : forall m w h old z, careful m -> 10000 < w \/ 10000 < h -> 0 <= z < 65536 ->
  set_index m (w, h) old (Some z) = (Some z, Some UnreasonablySizedBlueprintError).
Proof.
  intros m w h old z C W R. unfold set_index. assert (B : mode_bool m = true) by (destruct C as [-> | ->]; reflexivity). rewrite B.
  simpl. assert (U : uint16 z = true) by (unfold uint16; apply andb_true_iff; rewrite Z.leb_le, Z.ltb_lt; lia). rewrite U.
  f_equal. unfold check_size. apply careful_spec in C. rewrite C. cbn [fst snd].
  assert (T : (10000 <? w) || (10000 <? h) = true) by (rewrite orb_true_iff, !Z.ltb_lt; exact W). rewrite T. reflexivity.
Qed.

(** ** Rails *)
Lemma aligned_spec : forall q, exists k, aligned q = 2 * k /\ (inject_Z (aligned q) <= q /\ q < inject_Z (aligned q + 2))%Q.
Proof.
  intros q. exists (Qfloor (q / 2)). unfold aligned. split; [lia|].
  pose proof (Qfloor_le (q / 2)) as A. pose proof (Qlt_floor (q / 2)) as B.
  assert (E : (q == (q / 2) * 2)%Q) by (field). split.
  - rewrite inject_Z_mult. apply Qle_trans with (q / 2 * 2)%Q; [apply Qmult_le_compat_r; [exact A|discriminate]|].
    rewrite <- E. apply Qle_refl.
  - replace (Qfloor (q / 2) * 2 + 2) with ((Qfloor (q / 2) + 1) * 2) by lia. rewrite inject_Z_mult.
    apply Qle_lt_trans with (q / 2 * 2)%Q; [rewrite <- E; apply Qle_refl|]. apply Qmult_lt_compat_r; [reflexivity|exact B].
Qed.
Lemma odd_spec : forall q, odd q = true <-> exists k, (q == inject_Z (2 * k + 1))%Q.
Proof.
  intros q. unfold odd, modulo2. rewrite Qeq_bool_iff. split.
  - intros H. exists (Qfloor (q / 2)). rewrite inject_Z_plus. rewrite <- H. ring.
  - intros (k & H). assert (F : Qfloor (q / 2) = k).
    { assert (E : (q / 2 == inject_Z k + (1 # 2))%Q) by (rewrite H, inject_Z_plus, inject_Z_mult; field).
      rewrite E. unfold Qfloor, Qplus, inject_Z. simpl. symmetry. apply (Z.div_unique_pos _ _ _ 1); lia. }
    rewrite F, H, inject_Z_plus. ring.
Qed.
Lemma grid : forall m x y, check_grid m x y =
  if mode_le m MMinimum then None else if odd x || odd y then Some (aligned x, aligned y) else None.
Proof. reflexivity. Qed.
Lemma grid_said : forall m x y,
  (check_grid m x y = Some (aligned x, aligned y) <->
   careful m /\ ((exists k, x == inject_Z (2 * k + 1))%Q \/ (exists k, y == inject_Z (2 * k + 1))%Q)) /\
  (check_grid m x y = None \/ check_grid m x y = Some (aligned x, aligned y)).
Proof.
  intros m x y. rewrite <- !odd_spec, <- careful_spec. rewrite grid. destruct (mode_le m MMinimum).
  - split; [split; [discriminate|intros [H _]; discriminate]|auto].
  - rewrite <- orb_true_iff. destruct (odd x || odd y); split; auto; split; auto; try discriminate. intros [_ H]. discriminate.
Qed.
Lemma grid_whole : forall m a b, careful m -> (check_grid m (inject_Z a) (inject_Z b) = None <->
  aligned (inject_Z a) = a /\ aligned (inject_Z b) = b).
Proof.
  intros m a b C. unfold check_grid. rewrite (proj2 (careful_spec m) C).
  assert (E : forall z, odd (inject_Z z) = false <-> aligned (inject_Z z) = z).
  { intros z. destruct (aligned_spec (inject_Z z)) as (k & K & L & U). rewrite <- Zle_Qle in L. rewrite <- Zlt_Qlt in U.
    split.
    - intros H. destruct (Z.eq_dec z (2 * k + 1)) as [Z1|]; [|lia].
      assert (odd (inject_Z z) = true) by (apply odd_spec; exists k; rewrite Z1; reflexivity). congruence.
    - intros H. destruct (odd (inject_Z z)) eqn:O; [|reflexivity]. apply odd_spec in O. destruct O as (j & J).
      pose proof (proj1 (inject_Z_injective _ _) J) as J'. rewrite H in K. lia. }
  rewrite <- !E. destruct (odd (inject_Z a)), (odd (inject_Z b)); simpl; split; intuition congruence.
Qed.
Lemma grid_half : forall m, careful m -> check_grid m (1 # 2) 0 = None /\ ~ (inject_Z (aligned (1 # 2)) == 1 # 2)%Q.
Proof. intros m C. split; [destruct C as [-> | ->]; reflexivity|]. intros H. discriminate. Qed.
