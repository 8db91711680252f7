From Coq Require Import ZArith List Bool Lia.
From Verif Require Import Common Position_Model Position_Spec.
Import ListNotations.
Local Open Scope Z_scope.

Section P.
  Variable H : Z.
  Hypothesis HH : 0 < H.

  Lemma nearest_unique : forall n d k k', 0 < d -> nearest_even n d k -> nearest_even n d k' -> k = k'.
  Proof.
    intros n d k k' Hd [A1 A2] [B1 B2].
    assert (C : Z.abs (k - k') <= 1) by nia.
    destruct (Z.eq_dec k k') as [|N]; [assumption|exfalso].
    assert (E : k' = k + 1 \/ k' = k - 1) by lia.
    assert (T : Z.abs (2 * (n - k * d)) = d /\ Z.abs (2 * (n - k' * d)) = d) by (destruct E; subst; nia).
    destruct T as [T1 T2]. destruct (A2 T1) as [a Ea]. destruct (B2 T2) as [b Eb]. lia.
  Qed.

  Lemma round_nearest : forall n, nearest_even n (2 * H) (py_round H n).
  Proof.
    intros n. unfold py_round, nearest_even.
    pose proof (Z.div_mod n (2 * H) ltac:(lia)) as E.
    pose proof (Z.mod_pos_bound n (2 * H) ltac:(lia)) as B.
    set (q := n / (2 * H)) in *. set (r := n mod (2 * H)) in *.
    destruct (Z.ltb_spec r H).
    - assert (n - q * (2 * H) = r) by lia. split; [lia|intros; lia].
    - destruct (Z.ltb_spec H r).
      + assert (n - (q + 1) * (2 * H) = r - 2 * H) by lia. split; [lia|intros; lia].
      + destruct (Z.even q) eqn:F.
        * assert (n - q * (2 * H) = r) by lia. split; [lia|]. intros _. apply Z.even_spec. assumption.
        * assert (n - (q + 1) * (2 * H) = r - 2 * H) by lia. split; [lia|].
          intros _. apply Z.even_spec. rewrite Z.even_add, F. reflexivity.
  Qed.

  Lemma snap_in_step : forall s p, in_step H s p (snap H (p - s * H)).
  Proof. intros. exists (py_round H (p - s * H)). split; [unfold snap; ring|apply round_nearest]. Qed.
  Lemma nearest_exact : forall d k, 0 < d -> nearest_even (k * d) d k.
  Proof. intros. unfold nearest_even. replace (k * d - k * d) with 0 by ring. simpl. split; [lia|intros; lia]. Qed.
  Lemma in_step_unique : forall s p t t', in_step H s p t -> in_step H s p t' -> t = t'.
  Proof.
    intros s p t t' [k [-> A]] [k' [-> B]]. f_equal. eapply nearest_unique; [|exact A|exact B]. lia.
  Qed.
  Lemma in_step_snap : forall s p t, in_step H s p t -> t = snap H (p - s * H).
  Proof. intros. eapply in_step_unique; [eassumption|apply snap_in_step]. Qed.
  Lemma tile_in_step : forall s t, whole H t -> in_step H s (t + s * H) t.
  Proof.
    intros s t [k ->]. exists k. split; [reflexivity|].
    replace (k * (2 * H) + s * H - s * H) with (k * (2 * H)) by ring. apply nearest_exact. lia.
  Qed.
  Lemma grid_in_step : forall s p t, on_grid H s p -> in_step H s p t -> p = t + s * H.
  Proof.
    intros s p t [k ->] S. pose proof (tile_in_step s (k * (2 * H)) ltac:(exists k; reflexivity)) as S'.
    rewrite (in_step_unique _ _ _ _ S S'). reflexivity.
  Qed.
  Lemma trunc_whole : forall v, whole H (trunc H v).
  Proof. intros. unfold trunc. exists (Z.quot v (2 * H)). ring. Qed.
  Lemma trunc_id : forall v, whole H v -> trunc H v = v.
  Proof. intros v [k ->]. unfold trunc. rewrite Z.quot_mul by lia. ring. Qed.

  Lemma in_step_whole : forall s p t, in_step H s p t -> whole H t.
  Proof. intros s p t [k [-> _]]. exists k. reflexivity. Qed.

  Lemma reset_agree : forall e, whole H (tx e) -> whole H (ty e) -> agree H (reset_tile H e).
  Proof. intros e A B. split; simpl; apply tile_in_step; assumption. Qed.

  Lemma set_direction_inv : forall e v e', set_direction H e v = Ok e' ->
    sized e -> agree H e -> sized e' /\ agree H e' /\ kd e' = kd e.
  Proof.
    intros e v e' E S [A1 A2]. unfold set_direction in E. destruct (kd e) eqn:K; try discriminate.
    - destruct (checked_direction e v) as [d|x]; [|discriminate]. simpl in E.
      destruct ((v =? 4) || (v =? 12)); inversion E; subst; clear E.
      + destruct (Z.eqb_spec (sh e) (sw e)); destruct (Z.eqb_spec (w e) (sh e)); destruct (Z.eqb_spec (h e) (sw e)); simpl.
        all: split; [unfold sized in *; simpl; tauto|split; [|assumption]].
        all: try (apply reset_agree; simpl; eapply in_step_whole; eassumption).
        all: unfold agree, with_size, with_dir; simpl; unfold sized in S; split.
        all: first [replace (sh e) with (w e) by lia; assumption | replace (sw e) with (h e) by lia; assumption].
      + destruct (Z.eqb_spec (sw e) (sh e)); destruct (Z.eqb_spec (w e) (sw e)); destruct (Z.eqb_spec (h e) (sh e)); simpl.
        all: split; [unfold sized in *; simpl; tauto|split; [|assumption]].
        all: try (apply reset_agree; simpl; eapply in_step_whole; eassumption).
        all: unfold agree, with_size, with_dir; simpl; unfold sized in S; split.
        all: first [replace (sw e) with (w e) by lia; assumption | replace (sh e) with (h e) by lia; assumption].
    - destruct (checked_direction e v) as [d|x]; [|discriminate]. simpl in E.
      destruct ((d =? 2) || (d =? 3) || (d =? 6) || (d =? 7)); inversion E; subst; clear E.
      all: split; [unfold sized in *; simpl; tauto|split; [|assumption]].
      all: apply reset_agree; simpl; eapply in_step_whole; eassumption.
  Qed.

  Lemma pstep_inv : forall e o, proper H o -> kd e <> Grp -> sized e -> agree H e ->
    let e' := fst (pstep H e o) in kd e' = kd e /\ sized e' /\ agree H e'.
  Proof.
    intros e o P K S A. assert (A' := A). destruct A' as [A1 A2]. destruct o as [v|v|v|v|v|v|i v|i v|v]; simpl.
    - unfold set_position. destruct (held e); simpl; [auto|].
      destruct v as [x y|x y|]; simpl; [| |auto].
      all: destruct (kd e) eqn:KE; try congruence; simpl; split; auto; split; auto.
      all: split; simpl; apply snap_in_step.
    - unfold set_tile_position. destruct (kd e) eqn:KE; try congruence.
      all: destruct v as [x y|x y|]; simpl in *; [| |auto].
      all: split; auto; split; auto.
      all: split; simpl; apply tile_in_step; try apply trunc_whole; tauto.
    - unfold set_pos_x. destruct (kd e) eqn:KE; try congruence; simpl; split; auto; split; auto.
      all: split; simpl; [apply snap_in_step|assumption].
    - unfold set_pos_y. destruct (kd e) eqn:KE; try congruence; simpl; split; auto; split; auto.
      all: split; simpl; [assumption|apply snap_in_step].
    - split; auto; split; auto. split; simpl; [|assumption].
      rewrite (trunc_id v P). apply tile_in_step. assumption.
    - split; auto; split; auto. split; simpl; [assumption|].
      rewrite (trunc_id v P). apply tile_in_step. assumption.
    - contradiction.
    - contradiction.
    - destruct (set_direction H e v) as [e'|x] eqn:E; simpl; [|auto].
      apply set_direction_inv in E; tauto.
  Qed.

  Lemma run_inv : forall ops e, Forall (proper H) ops -> kd e <> Grp -> sized e -> agree H e ->
    kd (run_pops H e ops) = kd e /\ sized (run_pops H e ops) /\ agree H (run_pops H e ops).
  Proof.
    induction ops as [|o ops IH]; intros e P K S A; [simpl; auto|].
    inversion P; subst. destruct (pstep_inv e o H2 K S A) as [K1 [S1 A1]]. simpl.
    destruct (IH (fst (pstep H e o)) H3) as [K2 [S2 A2]]; [congruence|assumption|assumption|].
    unfold run_pops in *. rewrite K2, K1. auto.
  Qed.

  Lemma after_run : forall ops e, Forall (proper H) ops -> kd e <> Grp -> sized e -> agree H e ->
    let e' := run_pops H e ops in
    agree H e' /\
    (on_grid H (w e') (px e') -> px e' = tx e' + w e' * H) /\
    (on_grid H (h e') (py e') -> py e' = ty e' + h e' * H).
  Proof.
    intros ops e P K S A e'. destruct (run_inv ops e P K S A) as [_ [_ A']]. fold e' in A'.
    split; [assumption|]. destruct A' as [B1 B2]. split; intros G; apply grid_in_step; assumption.
  Qed.

  Definition arg_xy (v : parg) (x y : Z) : Prop := v = PVector x y \/ v = PTuple x y.

  Lemma set_position_exact : forall e v x y, kd e <> Grp -> held e = false -> arg_xy v x y ->
    exists e', set_position H e v = Ok e' /\ px e' = x /\ py e' = y /\ agree H e' /\
      (on_grid H (w e) x -> tx e' = x - w e * H) /\ (on_grid H (h e) y -> ty e' = y - h e * H) /\
      with_pos e' (px e) (py e) (tx e) (ty e) = e.
  Proof.
    intros e v x y K Hh A. unfold set_position. rewrite Hh.
    exists (with_pos e x y (snap H (x - w e * H)) (snap H (y - h e * H))).
    split. { destruct A; subst; simpl; destruct (kd e); congruence. }
    split; [reflexivity|]. split; [reflexivity|].
    assert (B : agree H (with_pos e x y (snap H (x - w e * H)) (snap H (y - h e * H)))).
    { split; simpl; apply snap_in_step. }
    split; [assumption|]. destruct B as [B1 B2]. simpl in B1, B2.
    split; [intros G; pose proof (grid_in_step _ _ _ G B1); simpl; lia|].
    split; [intros G; pose proof (grid_in_step _ _ _ G B2); simpl; lia|].
    destruct e; reflexivity.
  Qed.

  Lemma set_tile_exact : forall e v x y, kd e <> Grp -> arg_xy v x y -> whole H x -> whole H y ->
    exists e', set_tile_position H e v = Ok e' /\ tx e' = x /\ ty e' = y /\
      px e' = x + w e * H /\ py e' = y + h e * H /\ agree H e' /\
      with_pos e' (px e) (py e) (tx e) (ty e) = e.
  Proof.
    intros e v x y K A Wx Wy.
    exists (with_pos e (x + w e * H) (y + h e * H) x y).
    split.
    { unfold set_tile_position. destruct A; subst; simpl; rewrite ?trunc_id by assumption; destruct (kd e); congruence. }
    repeat split; simpl; try (apply tile_in_step; assumption).
    destruct e; reflexivity.
  Qed.

  Lemma held_refused : forall e v, held e = true -> set_position H e v = Err DraftsmanError.
  Proof. intros e v E. unfold set_position. rewrite E. reflexivity. Qed.

  (** The tile coordinate of a position given as [2*k+1] half tiles off: the
      even neighbour. *)
  Lemma tie : forall s k p, p = s * H + (2 * k + 1) * H ->
    in_step H s p ((if Z.even k then k else k + 1) * (2 * H)).
  Proof.
    intros s k p ->. exists (if Z.even k then k else k + 1). split; [reflexivity|].
    split; [destruct (Z.even k); nia|]. intros _.
    apply Z.even_spec. destruct (Z.even k) eqn:E; [assumption|]. rewrite Z.even_add, E. reflexivity.
  Qed.
End P.
