From Coq Require Import ZArith List Bool Lia Permutation.
From Verif Require Import Common Spatial_Model Spatial_Spec Spatial_Proofs Position_Model Position_Spec
  Position_Proofs Transform_Model Transform_Spec Transform_Proofs Transform_More_Proofs.
Import ListNotations.
Local Open Scope Z_scope.

Section T.
  Variable H : Z.
  Hypothesis HH : 0 < H.
  Notation place_ent := (place_ent H).

  (** *** placing *)
  Lemma place_twice : forall e x y x' y', place_ent (place_ent e x y) x' y' = place_ent e x' y'.
  Proof.
    intros. unfold Transform_More_Proofs.place_ent. destruct (kd e) eqn:K; cbn; rewrite K; reflexivity.
  Qed.
  Lemma place_back : forall e, held e = true -> (kd e <> Grp -> agree H e) -> place_ent e (px e) (py e) = e.
  Proof.
    intros e E A. unfold Transform_More_Proofs.place_ent.
    assert (B : kd e <> Grp -> with_held (with_pos e (px e) (py e) (snap H (px e - w e * H)) (snap H (py e - h e * H))) true = e).
    { intros K. destruct (A K) as [A1 A2]. apply (in_step_snap H HH) in A1. apply (in_step_snap H HH) in A2.
      rewrite <- A1, <- A2. destruct e; simpl in *; subst; reflexivity. }
    destruct (kd e) eqn:K; try (apply B; discriminate). destruct e; simpl in *; subst; reflexivity.
  Qed.

  (** *** quarter turns *)
  Lemma turned_add : forall a b p, turned a (turned b p) = turned (a + b) p.
  Proof. intros a b p. unfold turned. induction a; simpl; [reflexivity|]. rewrite IHa. reflexivity. Qed.
  Lemma turned_4 : forall p, turned 4 p = p.
  Proof. intros [x y]. unfold turned, quarter. cbn. f_equal; lia. Qed.
  Lemma turned_mod : forall k p, turned (k mod 4) p = turned k p.
  Proof.
    intros k p. rewrite (Nat.div_mod k 4) at 2 by lia. generalize (k / 4)%nat as n. intros n.
    induction n as [|n IH]; [reflexivity|].
    replace (4 * S n + k mod 4)%nat with (4 + (4 * n + k mod 4))%nat by lia.
    rewrite <- turned_add, turned_4. exact IH.
  Qed.

  Definition angle_ok (r : Z) : Prop := r = 0 \/ r = 4 \/ r = 8 \/ r = 12.
  Definition turns (r : Z) : nat := Z.to_nat (r / 4).
  Lemma mod_ok : forall a, a mod 4 = 0 <-> angle_ok (a mod 16).
  Proof.
    intros a. unfold angle_ok.
    pose proof (Z.div_mod a 16 ltac:(lia)). pose proof (Z.mod_pos_bound a 16 ltac:(lia)).
    pose proof (Z.div_mod a 4 ltac:(lia)). pose proof (Z.mod_pos_bound a 4 ltac:(lia)). lia.
  Qed.
  Lemma mod_mod_4 : forall a, (a mod 16) mod 4 = a mod 4.
  Proof.
    intros a. pose proof (Z.div_mod a 16 ltac:(lia)) as E. rewrite E at 2.
    replace (16 * (a / 16) + a mod 16) with (a mod 16 + (4 * (a / 16)) * 4) by ring.
    rewrite Z_mod_plus_full. reflexivity.
  Qed.

  Definition rot_pt (r : Z) (p : pt) : pt := turned (turns r) p.

  Lemma matrix_turn : forall r x y, angle_ok r ->
    let '(m0, m1, m2, m3) := matrix r in (x * m0 + y * m2, x * m1 + y * m3) = rot_pt r (x, y).
  Proof.
    intros r x y A. destruct A as [-> | [-> | [-> | ->]]]; cbn [matrix]; unfold rot_pt.
    - change (turns 0) with 0%nat. cbn. f_equal; lia.
    - change (turns 4) with 1%nat. unfold turned, quarter. cbn [Nat.iter nat_rect fst snd]. f_equal; lia.
    - change (turns 8) with 2%nat. unfold turned, quarter. cbn [Nat.iter nat_rect fst snd]. f_equal; lia.
    - change (turns 12) with 3%nat. unfold turned, quarter. cbn [Nat.iter nat_rect fst snd]. f_equal; lia.
  Qed.

  Lemma rotate_ent_act : forall r e, angle_ok r ->
    finish with_held (rotate_ent H r) e =
    finish with_held (act H (fun _ => r) (fst (rot_pt r (place e))) (snd (rot_pt r (place e)))) e.
  Proof.
    intros r e A. unfold finish, rotate_ent, act.
    pose proof (matrix_turn r (px e) (py e) A) as M. unfold place.
    destruct (matrix r) as [[[m0 m1] m2] m3]. rewrite <- M. reflexivity.
  Qed.

  Lemma checked_ok : forall e v, is_ok (checked_direction e v) = true <-> vm e = VNone \/ 0 <= v < 16.
  Proof.
    intros e v. unfold checked_direction.
    destruct (vm e) eqn:M; [split; [auto|reflexivity]|..];
    destruct (Z.leb_spec 0 v), (Z.ltb_spec v 16); simpl;
      try (split; [discriminate|intros [?|?]; [discriminate|lia]]);
      try (split; [intros _; right; lia|intros _]); destruct (kd e); try reflexivity;
      destruct ((v =? 0) || (v =? 4) || (v =? 8) || (v =? 12)); reflexivity.
  Qed.
  Lemma checked_val : forall e v, vm e <> VNone -> (kd e = Dir4 -> v mod 4 = 0) -> 0 <= v < 16 ->
    checked_direction e v = Ok v.
  Proof.
    intros e v M K B. unfold checked_direction.
    assert (T : (0 <=? v) && (v <? 16) = true) by (apply andb_true_iff; rewrite Z.leb_le, Z.ltb_lt; lia).
    rewrite T. destruct (vm e); [congruence|..]; destruct (kd e); try reflexivity.
    assert (v = 0 \/ v = 4 \/ v = 8 \/ v = 12).
    { specialize (K eq_refl). pose proof (Z.div_mod v 4 ltac:(lia)). lia. }
    destruct H0 as [-> | [-> | [-> | ->]]]; reflexivity.
  Qed.

  Lemma act_ok : forall g x y e, is_ok (finish with_held (act H g x y) e) = true <->
    match kd e with
    | Fixed => True
    | Grp => False
    | _ => exists d, dir e = Some d /\ (vm e = VNone \/ 0 <= d + g d < 16)
    end.
  Proof.
    intros g x y e. change (act H g x y) with (fun e => act H g x y e). rewrite act_closed.
    destruct (kd e) eqn:K.
    - simpl. tauto.
    - destruct (dir e) as [d|]; [|simpl; split; [discriminate|intros [d [? _]]; discriminate]].
      pose proof (checked_ok e (d + g d)) as C. destruct (checked_direction e (d + g d)); simpl in *.
      + split; [intros _; exists d; split; [reflexivity|tauto]|reflexivity].
      + split; [discriminate|]. intros [d' [E Q]]. inversion E; subst. tauto.
    - destruct (dir e) as [d|]; [|simpl; split; [discriminate|intros [d [? _]]; discriminate]].
      pose proof (checked_ok e (d + g d)) as C. destruct (checked_direction e (d + g d)); simpl in *.
      + split; [intros _; exists d; split; [reflexivity|tauto]|reflexivity].
      + split; [discriminate|]. intros [d' [E Q]]. inversion E; subst. tauto.
    - simpl. split; [discriminate|contradiction].
  Qed.

  (** Acting on a well faced entity. *)
  Definition faced (e : ent) (d : Z) : ent := match kd e with Dir4 | Dir8 => face e d d | _ => e end.
  Lemma act_val : forall g x y e, well_faced e -> (forall d, d mod 4 = 0 -> (d + g d) mod 4 = 0) ->
    is_ok (finish with_held (act H g x y) e) = true ->
    finish with_held (act H g x y) e =
      Ok (place_ent (faced e (match dir e with Some d => d + g d | None => 0 end)) x y) /\
    (directional e -> exists d, dir e = Some d /\ 0 <= d + g d < 16).
  Proof.
    intros g x y e F G O. apply act_ok in O. change (act H g x y) with (fun e => act H g x y e).
    rewrite act_closed. unfold faced, well_faced, directional in *. destruct (kd e) eqn:K.
    - split; [reflexivity|intros [?|?]; discriminate].
    - destruct O as [d [E O]]. destruct (F (or_introl eq_refl)) as [d' [E' [B [S [M C]]]]].
      assert (d' = d) by congruence. subst d'. rewrite E. destruct O as [O|O]; [contradiction|].
      rewrite checked_val; [|assumption|intros _; apply G; apply C; reflexivity|assumption].
      split; [reflexivity|]. intros _. exists d. auto.
    - destruct O as [d [E O]]. destruct (F (or_intror eq_refl)) as [d' [E' [B [S [M C]]]]].
      assert (d' = d) by congruence. subst d'. rewrite E. destruct O as [O|O]; [contradiction|].
      rewrite checked_val; [|assumption|intros Q; congruence|assumption].
      split; [reflexivity|]. intros _. exists d. auto.
    - contradiction.
  Qed.

  Lemma faced_props : forall e d x y, held e = true ->
    same_thing e (place_ent (faced e d) x y) /\ place (place_ent (faced e d) x y) = (x, y) /\
    (kd e <> Grp -> agree H (place_ent (faced e d) x y)) /\
    dir (place_ent (faced e d) x y) = (match kd e with Dir4 | Dir8 => Some d | _ => dir e end) /\
    (directional e -> (w (place_ent (faced e d) x y), h (place_ent (faced e d) x y)) = size_facing e d).
  Proof.
    intros e d x y E.
    assert (Kf : kd (faced e d) = kd e) by (unfold faced; destruct (kd e) eqn:K; unfold face; cbn; congruence).
    split; [|split; [apply place_place|split; [intros K; apply place_agree; [assumption|congruence]|split]]].
    - unfold same_thing, Transform_More_Proofs.place_ent, faced, face. destruct (kd e) eqn:K; cbn; rewrite ?K; repeat split; assumption || auto.
    - rewrite place_dir. unfold faced, face. destruct (kd e); reflexivity.
    - intros D. unfold Transform_More_Proofs.place_ent. rewrite Kf. unfold faced, face.
      destruct D as [K|K]; rewrite K; cbn; destruct (size_facing e d); reflexivity.
  Qed.

  Lemma faced_well : forall e d x y, held e = true -> well_faced e ->
    (directional e -> 0 <= d < 16 /\ (kd e = Dir4 -> d mod 4 = 0)) ->
    well_faced (place_ent (faced e d) x y).
  Proof.
    intros e d x y E F B. destruct (faced_props e d x y E) as [S [_ [_ [D Z]]]].
    destruct S as [S1 [S2 [S3 [S4 [S5 _]]]]].
    unfold well_faced. intros D'. assert (De : directional e) by (unfold directional in *; rewrite S1 in D'; assumption).
    exists d. rewrite D. destruct (B De) as [B1 B2]. destruct (F De) as [d0 [_ [_ [_ [M _]]]]].
    split; [destruct De as [K|K]; rewrite K; reflexivity|]. split; [assumption|].
    split; [rewrite (Z De); unfold size_facing; rewrite S1, S4, S5; reflexivity|].
    split; [congruence|]. rewrite S1. assumption.
  Qed.

  Lemma faced_twice : forall e d x y d' x' y',
    place_ent (faced (place_ent (faced e d) x y) d') x' y' = place_ent (faced e d') x' y'.
  Proof.
    intros [k ? ? ? ? ? ? ? ? ? ? ? ? ?] d x y d' x' y'. destruct k; reflexivity.
  Qed.
  Lemma faced_back : forall e d, held e = true -> (kd e <> Grp -> agree H e) -> well_faced e ->
    (directional e -> dir e = Some d) ->
    place_ent (faced e d) (px e) (py e) = e.
  Proof.
    intros e d E A F D.
    assert (Q : faced e d = e).
    { unfold faced. destruct (kd e) eqn:K; try reflexivity.
      all: assert (De : directional e) by (unfold directional; auto).
      all: destruct (F De) as [d0 [F1 [_ [F3 _]]]]; specialize (D De); assert (d0 = d) by congruence; subst d0.
      all: unfold face; rewrite <- F3; destruct e; cbn in *; subst; reflexivity. }
    rewrite Q. apply place_back; assumption.
  Qed.

  Variable cs eps : Z.
  Variable box : ent -> option nat -> option zbox.
  Variable eeq : ent * option nat -> ent * option nat -> bool.
  Variable tbox : ttile -> option nat -> option zbox.
  Variable teq : ttile * option nat -> ttile * option nat -> bool.
  Notation translate' := (translate H cs eps box eeq tbox teq).
  Notation rotate' := (rotate H cs eps box eeq tbox teq).
  Notation flip' := (flip H cs eps box eeq tbox teq).

  (** *** translation *)
  Definition shift_ent (v : pt) (e : ent) : ent := place_ent e (px e + fst v) (py e + snd v).
  Definition shift_tile (v : pt) (t : ttile) : ttile := mkTT (tt_name t) (tt_x t + fst v) (tt_y t + snd v) true.

  Lemma translate_map : forall b x y,
    snd (translate' b x y) = None /\
    b_ents (fst (translate' b x y)) = map (shift_ent (x, y)) (b_ents b) /\
    b_tiles (fst (translate' b x y)) = map (shift_tile (x, y)) (b_tiles b).
  Proof.
    intros. apply both_map; intros; [apply move_closed|reflexivity].
  Qed.

  Lemma shift_image : forall v e, held e = true -> image H (shifted v) (dir e) e (shift_ent v e).
  Proof.
    intros v e E. unfold shift_ent. split; [apply place_same; assumption|].
    split; [apply place_place|]. split; [apply place_dir|]. intros K. apply place_agree; assumption.
  Qed.
  Lemma shift_size : forall v e, w (shift_ent v e) = w e /\ h (shift_ent v e) = h e.
  Proof. intros. unfold shift_ent, Transform_More_Proofs.place_ent. destruct (kd e); auto. Qed.

  Lemma translate_rigid : forall b x y, all_held b ->
    exists b', translate' b x y = (b', None) /\ all_held b' /\
      Forall2 (fun e e' => image H (shifted (x, y)) (dir e) e e' /\ w e' = w e /\ h e' = h e) (b_ents b) (b_ents b') /\
      Forall2 (fun t t' => tile_image H (shifted (x, y)) t t') (b_tiles b) (b_tiles b').
  Proof.
    intros b x y [A1 A2]. destruct (translate_map b x y) as [E1 [E2 E3]].
    destruct (translate' b x y) as [b' z]. cbn in E1. subst z. exists b'. cbn [fst] in *.
    rewrite Forall_forall in A1, A2.
    assert (F1 : Forall2 (fun e e' => image H (shifted (x, y)) (dir e) e e' /\ w e' = w e /\ h e' = h e) (b_ents b) (b_ents b')).
    { rewrite E2. apply forall2_map. intros e He. split; [apply shift_image; auto|apply shift_size]. }
    assert (F2 : Forall2 (fun t t' => tile_image H (shifted (x, y)) t t') (b_tiles b) (b_tiles b')).
    { rewrite E3. apply forall2_map. intros t Ht. unfold tile_image, shift_tile, centre, shifted. cbn.
      rewrite (A2 t Ht). repeat split. f_equal; lia. }
    split; [reflexivity|]. split; [|auto]. split.
    - rewrite E2. apply Forall_forall. intros e' I. apply in_map_iff in I. destruct I as [e [<- I]].
      unfold shift_ent, Transform_More_Proofs.place_ent. destruct (kd e); reflexivity.
    - rewrite E3. apply Forall_forall. intros e' I. apply in_map_iff in I. destruct I as [e [<- I]]. reflexivity.
  Qed.

  Lemma translate_compose : forall b x y x' y',
    let b2 := fst (translate' (fst (translate' b x y)) x' y') in
    let b3 := fst (translate' b (x + x') (y + y')) in
    b_ents b2 = b_ents b3 /\ b_tiles b2 = b_tiles b3.
  Proof.
    intros. subst b2 b3.
    destruct (translate_map b x y) as [_ [E2 E3]].
    destruct (translate_map (fst (translate' b x y)) x' y') as [_ [F2 F3]].
    destruct (translate_map b (x + x') (y + y')) as [_ [G2 G3]].
    rewrite F2, F3, E2, E3, G2, G3, !map_map. split; apply map_ext; intros a.
    - unfold shift_ent. cbn [fst snd]. rewrite place_twice.
      assert (P : px (place_ent a (px a + x) (py a + y)) = px a + x /\ py (place_ent a (px a + x) (py a + y)) = py a + y).
      { pose proof (place_place H a (px a + x) (py a + y)) as P. split; [exact (f_equal fst P)|exact (f_equal snd P)]. }
      destruct P as [-> ->]. f_equal; lia.
    - unfold shift_tile. cbn. f_equal; lia.
  Qed.

  Lemma translate_undo : forall b x y, all_held b ->
    Forall (fun e => kd e <> Grp -> agree H e) (b_ents b) ->
    let b2 := fst (translate' (fst (translate' b x y)) (- x) (- y)) in
    b_ents b2 = b_ents b /\ b_tiles b2 = b_tiles b.
  Proof.
    intros b x y [A1 A2] G b2. destruct (translate_compose b x y (- x) (- y)) as [E1 E2].
    subst b2. rewrite E1, E2. destruct (translate_map b (x + - x) (y + - y)) as [_ [F1 F2]].
    rewrite F1, F2. rewrite Forall_forall in *. split.
    - rewrite <- (map_id (b_ents b)) at 2. apply map_ext_in. intros e He. unfold shift_ent. cbn [fst snd].
      replace (px e + (x + - x)) with (px e) by lia. replace (py e + (y + - y)) with (py e) by lia.
      apply place_back; auto.
    - rewrite <- (map_id (b_tiles b)) at 2. apply map_ext_in. intros t Ht. unfold shift_tile. cbn.
      specialize (A2 t Ht). destruct t; cbn in *. subst. f_equal; lia.
  Qed.

  (** Whole translations of entities on the grid move the tile position too. *)
  Lemma in_step_shift : forall s p t k, on_grid H s p -> in_step H s p t ->
    in_step H s (p + k * (2 * H)) (t + k * (2 * H)).
  Proof.
    intros s p t k G S. pose proof (grid_in_step H HH s p t G S) as E. subst p.
    pose proof (in_step_whole H s _ t S) as [j ->].
    replace (j * (2 * H) + s * H + k * (2 * H)) with ((j + k) * (2 * H) + s * H) by ring.
    replace (j * (2 * H) + k * (2 * H)) with ((j + k) * (2 * H)) by ring.
    apply tile_in_step; [assumption|]. exists (j + k). reflexivity.
  Qed.

  Lemma image_shift_tile : forall e e' j k, kd e <> Grp -> agree H e ->
    image H (shifted (j * (2 * H), k * (2 * H))) (dir e) e e' -> w e' = w e -> h e' = h e ->
    (on_grid H (w e) (px e) -> tx e' = tx e + j * (2 * H)) /\
    (on_grid H (h e) (py e) -> ty e' = ty e + k * (2 * H)).
  Proof.
    intros e e' j k K [A1 A2] [_ [P [_ A]]] W1 W2. destruct (A K) as [B1 B2].
    unfold place, shifted in P. cbn in P. inversion P as [[P1 P2]].
    rewrite P1, W1 in B1. rewrite P2, W2 in B2.
    split; intros G.
    - eapply in_step_unique; [exact HH|exact B1|apply in_step_shift; assumption].
    - eapply in_step_unique; [exact HH|exact B2|apply in_step_shift; assumption].
  Qed.

  (** *** rotation *)
  Definition rot (r : Z) (e : ent) : ent :=
    place_ent (faced e (match dir e with Some d => d + r | None => 0 end))
      (fst (rot_pt r (place e))) (snd (rot_pt r (place e))).
  Definition rot_tile (r : Z) (t : ttile) : ttile :=
    let p := rot_pt r (centre H t) in
    mkTT (tt_name t) (trunc H (fst p - H)) (trunc H (snd p - H)) true.

  Lemma rotate_tile_closed : forall r t, angle_ok r -> finish tt_set_held (rotate_tile H r) t = Ok (rot_tile r t).
  Proof.
    intros r t A. unfold finish, rotate_tile, rot_tile, set_tile_pos, centre.
    pose proof (matrix_turn r (tt_x t + H) (tt_y t + H) A) as M.
    destruct (matrix r) as [[[m0 m1] m2] m3]. rewrite <- M. reflexivity.
  Qed.

  Lemma rotate_unfold : forall b a, angle_ok (a mod 16) ->
    rotate' b a = both cs eps box eeq tbox teq (rotate_ent H (a mod 16)) (rotate_tile H (a mod 16)) b.
  Proof.
    intros b a A. unfold rotate. rewrite mod_mod_4.
    apply mod_ok in A. rewrite A. reflexivity.
  Qed.
  Lemma rotate_reject : forall b a, a mod 4 <> 0 -> rotate' b a = (b, Some RotationError).
  Proof.
    intros b a A. unfold rotate. rewrite mod_mod_4. destruct (Z.eqb_spec (a mod 4) 0); [contradiction|reflexivity].
  Qed.

  Lemma both_ok_iff : forall fe ft b,
    (forall t, In t (b_tiles b) -> is_ok (finish tt_set_held ft t) = true) ->
    (snd (both cs eps box eeq tbox teq fe ft b) = None <->
     forall e, In e (b_ents b) -> is_ok (finish with_held fe e) = true).
  Proof.
    intros fe ft b T. pose proof (both_lists cs eps box eeq tbox teq fe ft b) as B. cbn zeta in B.
    rewrite <- work_some. apply work_some in T.
    destruct (snd (work with_held fe (b_ents b))) as [x|].
    - destruct B as [B _]. rewrite B. split; discriminate.
    - destruct B as [B _]. rewrite B, T. tauto.
  Qed.

  Lemma rotate_tiles_ok : forall r b, angle_ok r ->
    forall t, In t (b_tiles b) -> is_ok (finish tt_set_held (rotate_tile H r) t) = true.
  Proof. intros r b A t _. rewrite rotate_tile_closed by assumption. reflexivity. Qed.

  Lemma rotate_criterion : forall b a,
    snd (rotate' b a) = None <-> a mod 4 = 0 /\ Forall (can_turn (a mod 16)) (b_ents b).
  Proof.
    intros b a. destruct (Z.eq_dec (a mod 4) 0) as [A|A].
    - assert (A' := A). apply mod_ok in A'. rewrite rotate_unfold by assumption.
      rewrite both_ok_iff by (apply rotate_tiles_ok; assumption). rewrite Forall_forall.
      split.
      + intros O. split; [assumption|]. intros e He. specialize (O e He). rewrite rotate_ent_act in O by assumption.
        apply act_ok in O. unfold can_turn. exact O.
      + intros [_ O] e He. rewrite rotate_ent_act by assumption. apply act_ok. exact (O e He).
    - rewrite rotate_reject by assumption. split; [discriminate|tauto].
  Qed.

  Lemma rotate_map : forall b a, Forall well_faced (b_ents b) -> snd (rotate' b a) = None ->
    b_ents (fst (rotate' b a)) = map (rot (a mod 16)) (b_ents b) /\
    b_tiles (fst (rotate' b a)) = map (rot_tile (a mod 16)) (b_tiles b) /\
    angle_ok (a mod 16) /\
    forall e, In e (b_ents b) -> directional e -> exists d, dir e = Some d /\ 0 <= d + a mod 16 < 16.
  Proof.
    intros b a F O. assert (O' := O). apply rotate_criterion in O'. destruct O' as [A C]. apply mod_ok in A.
    rewrite rotate_unfold in * by assumption. rewrite Forall_forall in *.
    assert (V : forall e, In e (b_ents b) ->
      finish with_held (rotate_ent H (a mod 16)) e = Ok (rot (a mod 16) e) /\
      (directional e -> exists d, dir e = Some d /\ 0 <= d + a mod 16 < 16)).
    { intros e He. rewrite rotate_ent_act by assumption. apply act_val; [auto| |].
      - intros d D. rewrite Zplus_mod, D, mod_mod_4. simpl. apply mod_ok in A. rewrite A. reflexivity.
      - apply act_ok. exact (C e He). }
    destruct (both_map cs eps box eeq tbox teq (rotate_ent H (a mod 16)) (rotate_tile H (a mod 16))
      (rot (a mod 16)) (rot_tile (a mod 16)) b) as [_ [E1 E2]].
    - intros e He. apply V. assumption.
    - intros t _. apply rotate_tile_closed. assumption.
    - split; [assumption|]. split; [assumption|]. split; [assumption|]. intros e He. apply V. assumption.
  Qed.

  Lemma rot_tile_image : forall r t, angle_ok r -> tt_held t = true -> whole_tile H t ->
    tile_image H (turned (turns r)) t (rot_tile r t) /\ whole_tile H (rot_tile r t).
  Proof.
    intros r t A E [[i Wx] [j Wy]].
    assert (W : whole H (fst (rot_pt r (centre H t)) - H) /\ whole H (snd (rot_pt r (centre H t)) - H)).
    { pose proof (matrix_turn r (tt_x t + H) (tt_y t + H) A) as M. unfold centre, whole.
      destruct A as [-> | [-> | [-> | ->]]]; cbn [matrix] in M; rewrite <- M; cbn [fst snd];
        rewrite Wx, Wy; split;
        first [exists i; ring | exists j; ring | exists (- i - 1); ring | exists (- j - 1); ring]. }
    destruct W as [W1 W2]. split.
    - split; [reflexivity|]. split; [cbn; congruence|].
      unfold rot_tile, centre at 1. cbn [tt_x tt_y].
      rewrite !(trunc_id H HH) by assumption. fold (rot_pt r (centre H t)).
      destruct (rot_pt r (centre H t)); cbn [fst snd]. f_equal; lia.
    - split; cbn; apply trunc_whole.
  Qed.

  Lemma dir_turned_val : forall a e, well_faced e -> directional e ->
    (exists d, dir e = Some d /\ 0 <= d + a mod 16 < 16) ->
    dir_turned a e = Some (match dir e with Some d => d + a mod 16 | None => 0 end).
  Proof.
    intros a e F D [d [E B]]. unfold dir_turned. rewrite E. cbn [option_map]. unfold turned_dir.
    assert (Q : (d + a) mod 16 = d + a mod 16).
    { rewrite <- (Z.mod_small (d + a mod 16) 16) by assumption. rewrite Zplus_mod_idemp_r. reflexivity. }
    rewrite Q. destruct D as [K|K]; rewrite K; reflexivity.
  Qed.

  Lemma rotate_image : forall b a b', all_held b -> Forall well_faced (b_ents b) ->
    Forall (whole_tile H) (b_tiles b) -> rotate' b a = (b', None) ->
    let k := Z.to_nat ((a mod 16) / 4) in
    Forall2 (fun e e' => image H (turned k) (dir_turned a e) e e' /\ well_faced e') (b_ents b) (b_ents b') /\
    Forall2 (fun t t' => tile_image H (turned k) t t' /\ whole_tile H t') (b_tiles b) (b_tiles b').
  Proof.
    intros b a b' [A1 A2] F W E k.
    destruct (rotate_map b a F) as [E1 [E2 [A B]]]; [rewrite E; reflexivity|].
    rewrite E in E1, E2. cbn [fst] in E1, E2. rewrite E1, E2. rewrite Forall_forall in *.
    split; apply forall2_map.
    - intros e He. unfold rot.
      set (d := match dir e with Some d => d + a mod 16 | None => 0 end).
      destruct (faced_props e d (fst (rot_pt (a mod 16) (place e))) (snd (rot_pt (a mod 16) (place e))) (A1 e He))
        as [S [P [G [D _]]]].
      split.
      + split; [exact S|]. split; [rewrite P; unfold rot_pt; destruct (turned _ _); reflexivity|].
        split; [|exact G]. rewrite D.
        destruct (kd e) eqn:K.
        * unfold dir_turned. rewrite K. reflexivity.
        * rewrite dir_turned_val; auto; [left; assumption|]. apply B; [assumption|left; assumption].
        * rewrite dir_turned_val; auto; [right; assumption|]. apply B; [assumption|right; assumption].
        * unfold dir_turned. rewrite K. reflexivity.
      + apply faced_well; [auto|auto|]. intros De. destruct (B e He De) as [d0 [E0 B0]]. unfold d. rewrite E0.
        split; [assumption|]. intros K. destruct (F e He De) as [d1 [F1 [_ [_ [_ F5]]]]].
        assert (d1 = d0) by congruence. subst d1.
        rewrite Zplus_mod, (F5 K), mod_mod_4. apply mod_ok in A. rewrite A. reflexivity.
    - intros t Ht. apply rot_tile_image; auto.
  Qed.

  Lemma turns_add : forall a b, angle_ok (a mod 16) -> angle_ok (b mod 16) ->
    turns ((a + b) mod 16) = ((turns (b mod 16) + turns (a mod 16)) mod 4)%nat.
  Proof.
    intros a b A B. rewrite Zplus_mod.
    destruct A as [-> | [-> | [-> | ->]]], B as [-> | [-> | [-> | ->]]]; reflexivity.
  Qed.
  Lemma rot_pt_add : forall a b p, angle_ok (a mod 16) -> angle_ok (b mod 16) ->
    rot_pt (b mod 16) (rot_pt (a mod 16) p) = rot_pt ((a + b) mod 16) p.
  Proof.
    intros a b p A B. unfold rot_pt. rewrite turned_add, turns_add by assumption. rewrite turned_mod. reflexivity.
  Qed.

  Lemma rotate_compose : forall b a1 a2 b1 b2, all_held b -> Forall well_faced (b_ents b) ->
    Forall (whole_tile H) (b_tiles b) ->
    rotate' b a1 = (b1, None) -> rotate' b1 a2 = (b2, None) ->
    exists b3, rotate' b (a1 + a2) = (b3, None) /\ b_ents b3 = b_ents b2 /\ b_tiles b3 = b_tiles b2.
  Proof.
    intros b a1 a2 b1 b2 Hh F W R1 R2.
    destruct (rotate_image b a1 b1 Hh F W R1) as [I1 I2].
    destruct (rotate_map b a1 F ltac:(rewrite R1; reflexivity)) as [E1 [E2 [O1 B1]]].
    rewrite R1 in E1, E2. cbn [fst] in E1, E2.
    assert (F1 : Forall well_faced (b_ents b1)).
    { clear -I1. induction I1; constructor; [tauto|assumption]. }
    destruct (rotate_map b1 a2 F1 ltac:(rewrite R2; reflexivity)) as [E3 [E4 [O2 B2]]].
    rewrite R2 in E3, E4. cbn [fst] in E3, E4.
    rewrite Forall_forall in F. destruct Hh as [H1 H2]. rewrite Forall_forall in H1, H2, W.
    assert (D : forall e, In e (b_ents b) -> directional e ->
      exists d, dir e = Some d /\ (a1 + a2) mod 16 = a1 mod 16 + a2 mod 16 /\ 0 <= d + (a1 + a2) mod 16 < 16).
    { intros e He De. destruct (B1 e He De) as [d [Ed Bd]].
      assert (I : In (rot (a1 mod 16) e) (b_ents b1)) by (rewrite E1; apply in_map; assumption).
      destruct (faced_props e (match dir e with Some d => d + a1 mod 16 | None => 0 end)
        (fst (rot_pt (a1 mod 16) (place e))) (snd (rot_pt (a1 mod 16) (place e))) (H1 e He)) as [S [_ [_ [Dd _]]]].
      destruct (B2 _ I) as [d2 [E2' B2']].
      - unfold rot. unfold directional in *. destruct S as [-> _]. assumption.
      - unfold rot in E2'. rewrite Dd, Ed in E2'. exists d. split; [assumption|].
        assert (d2 = d + a1 mod 16) by (destruct De as [K|K]; rewrite K in E2'; congruence). subst d2.
        destruct (F e He De) as [d' [Ed' [Bd' _]]]. assert (d' = d) by congruence. subst d'.
        pose proof (Z.mod_pos_bound a1 16 ltac:(lia)). pose proof (Z.mod_pos_bound a2 16 ltac:(lia)).
        assert (Q : (a1 + a2) mod 16 = a1 mod 16 + a2 mod 16).
        { rewrite Zplus_mod. apply Z.mod_small. lia. }
        split; [assumption|]. lia. }
    assert (R3 : snd (rotate' b (a1 + a2)) = None).
    { apply rotate_criterion. split.
      - apply mod_ok in O1, O2. rewrite Zplus_mod, O1, O2. reflexivity.
      - apply Forall_forall. intros e He. unfold can_turn. destruct (kd e) eqn:K; [exact I|..].
        + destruct (D e He (or_introl K)) as [d [Ed [_ Bd]]]. exists d. auto.
        + destruct (D e He (or_intror K)) as [d [Ed [_ Bd]]]. exists d. auto.
        + assert (C : snd (rotate' b a1) = None) by (rewrite R1; reflexivity).
          apply rotate_criterion in C. destruct C as [_ C]. rewrite Forall_forall in C.
          specialize (C e He). unfold can_turn in C. rewrite K in C. exact C. }
    destruct (rotate_map b (a1 + a2) ltac:(apply Forall_forall; assumption) R3) as [E5 [E6 _]].
    destruct (rotate' b (a1 + a2)) as [b3 z]. cbn [fst snd] in *. subst z. exists b3. split; [reflexivity|].
    rewrite E5, E6, E3, E4, E1, E2, !map_map. split; apply map_ext_in.
    - intros e He.
      assert (P : place (rot (a1 mod 16) e) = rot_pt (a1 mod 16) (place e)).
      { unfold rot. rewrite place_place. destruct (rot_pt _ _); reflexivity. }
      assert (Dd : dir (rot (a1 mod 16) e) = match kd e with Dir4 | Dir8 => Some (match dir e with Some d => d + a1 mod 16 | None => 0 end) | _ => dir e end).
      { unfold rot. apply faced_props. auto. }
      assert (X : rot (a2 mod 16) (rot (a1 mod 16) e) =
        place_ent (faced e (match dir (rot (a1 mod 16) e) with Some d => d + a2 mod 16 | None => 0 end))
          (fst (rot_pt ((a1 + a2) mod 16) (place e))) (snd (rot_pt ((a1 + a2) mod 16) (place e)))).
      { rewrite <- (rot_pt_add a1 a2) by assumption. rewrite <- P.
        remember (rot (a1 mod 16) e) as E eqn:HE. unfold rot at 1.
        generalize (match dir E with Some d => d + a2 mod 16 | None => 0 end) as dd.
        generalize (fst (rot_pt (a2 mod 16) (place E))) (snd (rot_pt (a2 mod 16) (place E))).
        intros u v dd. rewrite HE. unfold rot. apply faced_twice. }
      rewrite X, Dd. unfold rot, faced. destruct (kd e) eqn:K; try reflexivity.
      + destruct (D e He (or_introl K)) as [d [Ed [Q _]]]. rewrite Ed, Q. rewrite Z.add_assoc. reflexivity.
      + destruct (D e He (or_intror K)) as [d [Ed [Q _]]]. rewrite Ed, Q. rewrite Z.add_assoc. reflexivity.
    - intros t Ht. destruct (rot_tile_image (a1 mod 16) t O1 (H2 t Ht) (W t Ht)) as [[_ [_ C]] _].
      unfold rot_tile at 2. rewrite C. fold (rot_pt (a1 mod 16) (centre H t)).
      rewrite rot_pt_add by assumption. reflexivity.
  Qed.
End T.
