From Coq Require Import ZArith List Bool Lia Permutation.
From Verif Require Import Common Spatial_Model Spatial_Spec Spatial_Proofs Position_Model Position_Spec
  Position_Proofs Transform_Model Transform_Spec Transform_Proofs Transform_More_Proofs Transform_Final_Proofs.
Import ListNotations.
Local Open Scope Z_scope.

Section T.
  Variable H : Z.
  Hypothesis HH : 0 < H.
  Variable cs eps : Z.
  Variable box : ent -> option nat -> option zbox.
  Variable eeq : ent * option nat -> ent * option nat -> bool.
  Variable tbox : ttile -> option nat -> option zbox.
  Variable teq : ttile * option nat -> ttile * option nat -> bool.
  Notation flip' := (flip H cs eps box eeq tbox teq).
  Notation rotate' := (rotate H cs eps box eeq tbox teq).
  Notation translate' := (translate H cs eps box eeq tbox teq).
  Notation place_ent := (place_ent H).

  Definition turn_by (hor : bool) (d : Z) : Z :=
    if hor then ((-2 * (d - 8)) mod 16) mod 16 else (((-2 * d) mod 16) - 8) mod 16.

  Lemma sixteen : forall d, 0 <= d < 16 ->
    d = 0 \/ d = 1 \/ d = 2 \/ d = 3 \/ d = 4 \/ d = 5 \/ d = 6 \/ d = 7 \/ d = 8 \/ d = 9 \/ d = 10 \/
    d = 11 \/ d = 12 \/ d = 13 \/ d = 14 \/ d = 15.
  Proof. lia. Qed.

  Definition flip_range (hor : bool) (d : Z) : Prop :=
    if hor then 0 <= d <= 8 else 0 <= d <= 4 \/ 9 <= d <= 12.
  Lemma turn_by_spec : forall hor d, 0 <= d < 16 ->
    (0 <= d + turn_by hor d < 16 <-> flip_range hor d) /\
    (flip_range hor d -> d + turn_by hor d = mirrored_dir hor d).
  Proof.
    intros hor d B. apply sixteen in B. unfold flip_range, turn_by, mirrored_dir.
    destruct hor; repeat (destruct B as [->|B]; [vm_compute; intuition discriminate|]); subst; vm_compute; intuition discriminate.
  Qed.
  Lemma turn_by_twice : forall hor d, 0 <= d < 16 -> flip_range hor d ->
    (flip_range hor (mirrored_dir hor d) <-> if hor then d = 0 \/ d = 8 else d = 4 \/ d = 12) /\
    0 <= mirrored_dir hor d < 16 /\ mirrored_dir hor (mirrored_dir hor d) = d.
  Proof.
    intros hor d B. apply sixteen in B. unfold flip_range, mirrored_dir.
    destruct hor; repeat (destruct B as [->|B]; [vm_compute; intuition (discriminate || auto)|]); subst;
      vm_compute; intuition (discriminate || auto).
  Qed.
  Lemma turn_by_4 : forall hor d, d mod 4 = 0 -> (d + turn_by hor d) mod 4 = 0.
  Proof.
    intros hor d E. unfold turn_by. pose proof (Z.div_mod d 4 ltac:(lia)) as Q. rewrite E in Q.
    destruct hor.
    - pose proof (Z.div_mod (-2 * (d - 8)) 16 ltac:(lia)). pose proof (Z.div_mod ((-2 * (d - 8)) mod 16) 16 ltac:(lia)).
      apply Z.mod_divide; [lia|].
      exists (d / 4 + (((-2 * (d - 8)) mod 16) mod 16) / 4).
      pose proof (Z.mod_mod (-2 * (d - 8)) 16 ltac:(lia)) as MM. rewrite MM.
      assert (((-2 * (d - 8)) mod 16) mod 4 = 0).
      { rewrite mod_mod_4. replace (-2 * (d - 8)) with ((-2 * (d / 4) + 4) * 4) by lia. apply Z_mod_mult. }
      pose proof (Z.div_mod ((-2 * (d - 8)) mod 16) 4 ltac:(lia)). lia.
    - apply Z.mod_divide; [lia|].
      assert (M : ((((-2 * d) mod 16) - 8) mod 16) mod 4 = 0).
      { rewrite mod_mod_4. rewrite Zminus_mod, mod_mod_4.
        replace (-2 * d) with ((-2 * (d / 4)) * 4) by lia. rewrite Z_mod_mult. reflexivity. }
      pose proof (Z.div_mod ((((-2 * d) mod 16) - 8) mod 16) 4 ltac:(lia)) as D. rewrite M in D.
      exists (d / 4 + ((((-2 * d) mod 16) - 8) mod 16) / 4). lia.
  Qed.

  Definition mir (hor : bool) (e : ent) : ent :=
    place_ent (faced e (match dir e with Some d => d + turn_by hor d | None => 0 end))
      (fst (mirrored hor (place e))) (snd (mirrored hor (place e))).
  Definition mir_tile (hor : bool) (t : ttile) : ttile :=
    let p := mirrored hor (centre H t) in
    mkTT (tt_name t) (trunc H (fst p - H)) (trunc H (snd p - H)) true.

  Lemma flip_ent_act : forall hor e,
    finish with_held (flip_ent H hor) e =
    finish with_held (act H (turn_by hor) (fst (mirrored hor (place e))) (snd (mirrored hor (place e)))) e.
  Proof.
    intros hor e. unfold finish, flip_ent, act, mirrored, place, turn_by. cbn [fst snd].
    destruct hor; (destruct (add_direction H _ _) as [e1|]; cbn [bind]; [|reflexivity]); cbn [px py with_held fst snd];
      rewrite Z.mul_1_r, Z.mul_comm, <- Z.opp_eq_mul_m1 || idtac.
    - replace (px e * -1) with (- px e) by lia. rewrite Z.mul_1_r. reflexivity.
    - replace (py e * -1) with (- py e) by lia. rewrite Z.mul_1_r. reflexivity.
  Qed.
  Lemma flip_tile_closed : forall hor t, finish tt_set_held (flip_tile H hor) t = Ok (mir_tile hor t).
  Proof.
    intros hor t. unfold finish, flip_tile, mir_tile, set_tile_pos, mirrored, centre.
    cbn [tt_set_held tt_x tt_y tt_name tt_held fst snd].
    destruct hor; cbn [arg_int bind fst snd].
    - replace ((tt_x t + H) * -1 - H) with (- (tt_x t + H) - H) by lia.
      replace ((tt_y t + H) * 1 - H) with (tt_y t + H - H) by lia. reflexivity.
    - replace ((tt_y t + H) * -1 - H) with (- (tt_y t + H) - H) by lia.
      replace ((tt_x t + H) * 1 - H) with (tt_x t + H - H) by lia. reflexivity.
  Qed.

  Lemma all_flippable_spec : forall l,
    all_flippable l = Ok true <-> Forall (fun e => flips e = Some true) l.
  Proof.
    induction l as [|e l IH]; simpl; [split; [constructor|reflexivity]|].
    destruct (flips e) as [[|]|] eqn:F.
    - rewrite IH. split; intros X; [constructor; assumption|inversion X; assumption].
    - split; [discriminate|]. intros X. inversion X. congruence.
    - split; [discriminate|]. intros X. inversion X. congruence.
  Qed.

  Lemma flip_unfold : forall b hor, Forall (fun e => flips e = Some true) (b_ents b) ->
    flip' b (axis_of hor) = both cs eps box eeq tbox teq (flip_ent H hor) (flip_tile H hor) b.
  Proof.
    intros b hor F. apply all_flippable_spec in F. unfold flip. rewrite F. destruct hor; reflexivity.
  Qed.
  Lemma flip_reject : forall b a, ~ Forall (fun e => flips e = Some true) (b_ents b) \/ a = OtherAxis ->
    exists x, flip' b a = (b, Some x) /\ (x = FlippingError \/ x = KeyError \/ x = ValueError).
  Proof.
    intros b a D. unfold flip. pose proof (all_flippable_spec (b_ents b)) as S.
    destruct (all_flippable (b_ents b)) as [[|]|x] eqn:E.
    - destruct D as [D|D]; [exfalso; tauto|]. subst. eauto.
    - eauto.
    - exists x. split; [reflexivity|]. assert (x = KeyError); [|auto].
      clear -E. induction (b_ents b) as [|e l IH]; simpl in E; [discriminate|].
      destruct (flips e) as [[|]|]; [auto|discriminate|congruence].
  Qed.

  Lemma flip_tiles_ok : forall hor b t, In t (b_tiles b) -> is_ok (finish tt_set_held (flip_tile H hor) t) = true.
  Proof. intros. rewrite flip_tile_closed. reflexivity. Qed.


  (** Without assuming anything about the directions. *)
  Lemma flip_criterion_raw : forall b hor, flippable_all b ->
    (snd (flip' b (axis_of hor)) = None <->
     Forall (fun e => match kd e with
                      | Fixed => True
                      | Grp => False
                      | _ => exists d, dir e = Some d /\ (vm e = VNone \/ 0 <= d + turn_by hor d < 16)
                      end) (b_ents b)).
  Proof.
    intros b hor F. rewrite flip_unfold by assumption.
    rewrite (both_ok_iff cs eps box eeq tbox teq) by apply flip_tiles_ok. rewrite Forall_forall.
    split; intros O e He; specialize (O e He).
    - rewrite flip_ent_act in O. apply act_ok in O. exact O.
    - rewrite flip_ent_act. apply act_ok. exact O.
  Qed.

  Lemma flip_criterion : forall b hor, flippable_all b -> Forall well_faced (b_ents b) ->
    (snd (flip' b (axis_of hor)) = None <-> Forall (can_flip hor) (b_ents b)).
  Proof.
    intros b hor F W. rewrite flip_criterion_raw by assumption. rewrite !Forall_forall.
    rewrite Forall_forall in W.
    split; intros O e He; specialize (O e He); specialize (W e He); unfold can_flip, well_faced, directional in *;
      destruct (kd e) eqn:K; try exact O; destruct O as [d [E O]].
    - destruct (W (or_introl eq_refl)) as [d' [E' [B [_ [M _]]]]]. assert (d' = d) by congruence. subst d'.
      exists d. split; [assumption|]. destruct O as [O|O]; [contradiction|].
      apply (turn_by_spec hor d B). exact O.
    - destruct (W (or_intror eq_refl)) as [d' [E' [B [_ [M _]]]]]. assert (d' = d) by congruence. subst d'.
      exists d. split; [assumption|]. destruct O as [O|O]; [contradiction|].
      apply (turn_by_spec hor d B). exact O.
    - destruct (W (or_introl eq_refl)) as [d' [E' [B [_ [M _]]]]]. assert (d' = d) by congruence. subst d'.
      exists d. split; [assumption|]. right. apply (turn_by_spec hor d B). exact O.
    - destruct (W (or_intror eq_refl)) as [d' [E' [B [_ [M _]]]]]. assert (d' = d) by congruence. subst d'.
      exists d. split; [assumption|]. right. apply (turn_by_spec hor d B). exact O.
  Qed.

  Lemma flip_map : forall b hor, flippable_all b -> Forall well_faced (b_ents b) ->
    snd (flip' b (axis_of hor)) = None ->
    b_ents (fst (flip' b (axis_of hor))) = map (mir hor) (b_ents b) /\
    b_tiles (fst (flip' b (axis_of hor))) = map (mir_tile hor) (b_tiles b) /\
    forall e, In e (b_ents b) -> directional e -> exists d, dir e = Some d /\ 0 <= d < 16 /\
      flip_range hor d /\ d + turn_by hor d = mirrored_dir hor d.
  Proof.
    intros b hor FA F O. assert (O' := O). apply flip_criterion_raw in O'; [|assumption].
    rewrite flip_unfold in * by assumption. rewrite Forall_forall in *.
    assert (V : forall e, In e (b_ents b) ->
      finish with_held (flip_ent H hor) e = Ok (mir hor e) /\
      (directional e -> exists d, dir e = Some d /\ 0 <= d + turn_by hor d < 16)).
    { intros e He. rewrite flip_ent_act. apply act_val; [auto|apply turn_by_4|]. apply act_ok. exact (O' e He). }
    destruct (both_map cs eps box eeq tbox teq (flip_ent H hor) (flip_tile H hor) (mir hor) (mir_tile hor) b) as [_ [E1 E2]].
    - intros e He. apply V. assumption.
    - intros t _. apply flip_tile_closed.
    - split; [assumption|]. split; [assumption|]. intros e He De.
      destruct (proj2 (V e He) De) as [d [Ed Bd]]. exists d. split; [assumption|].
      destruct (F e He De) as [d' [Ed' [Bd' _]]]. assert (d' = d) by congruence. subst d'.
      split; [assumption|]. destruct (turn_by_spec hor d Bd') as [T1 T2]. apply T1 in Bd. auto.
  Qed.

  Lemma mir_tile_image : forall hor t, tt_held t = true -> whole_tile H t ->
    tile_image H (mirrored hor) t (mir_tile hor t) /\ whole_tile H (mir_tile hor t).
  Proof.
    intros hor t E [[i Wx] [j Wy]].
    assert (W : whole H (fst (mirrored hor (centre H t)) - H) /\ whole H (snd (mirrored hor (centre H t)) - H)).
    { unfold mirrored, centre, whole. destruct hor; cbn [fst snd]; rewrite Wx, Wy; split;
        first [exists i; ring | exists j; ring | exists (- i - 1); ring | exists (- j - 1); ring]. }
    destruct W as [W1 W2]. split.
    - split; [reflexivity|]. split; [cbn; congruence|].
      unfold mir_tile, centre at 1. cbn [tt_x tt_y]. rewrite !(trunc_id H HH) by assumption.
      destruct (mirrored hor (centre H t)); cbn [fst snd]. f_equal; lia.
    - split; cbn; apply trunc_whole.
  Qed.

  Lemma mir_image : forall hor e, held e = true -> well_faced e ->
    (directional e -> exists d, dir e = Some d /\ 0 <= d < 16 /\ flip_range hor d /\ d + turn_by hor d = mirrored_dir hor d) ->
    image H (mirrored hor) (dir_mirrored hor e) e (mir hor e) /\ well_faced (mir hor e).
  Proof.
    intros hor e He F B. unfold mir.
    set (d := match dir e with Some d => d + turn_by hor d | None => 0 end).
    destruct (faced_props H HH e d (fst (mirrored hor (place e))) (snd (mirrored hor (place e))) He) as [S [P [G [D _]]]].
    split.
    - split; [exact S|]. split; [rewrite P; destruct (mirrored _ _); reflexivity|]. split; [|exact G]. rewrite D.
      unfold dir_mirrored, d. destruct (kd e) eqn:K; try reflexivity.
      + destruct (B (or_introl K)) as [d0 [E0 [_ [_ Q]]]]. rewrite E0. cbn. rewrite Q. reflexivity.
      + destruct (B (or_intror K)) as [d0 [E0 [_ [_ Q]]]]. rewrite E0. cbn. rewrite Q. reflexivity.
    - apply (faced_well H HH); [auto|auto|]. intros De. destruct (B De) as [d0 [E0 [B0 [R Q]]]].
      destruct (F De) as [d1 [F1 [_ [_ [_ F5]]]]]. assert (d1 = d0) by congruence. subst d1.
      unfold d. rewrite E0. split; [rewrite Q; apply (turn_by_twice hor d0 B0 R)|]. intros K. apply turn_by_4. auto.
  Qed.

  Lemma flip_image : forall b hor b', all_held b -> flippable_all b -> Forall well_faced (b_ents b) ->
    Forall (whole_tile H) (b_tiles b) -> flip' b (axis_of hor) = (b', None) ->
    Forall2 (fun e e' => image H (mirrored hor) (dir_mirrored hor e) e e' /\ well_faced e') (b_ents b) (b_ents b') /\
    Forall2 (fun t t' => tile_image H (mirrored hor) t t' /\ whole_tile H t') (b_tiles b) (b_tiles b').
  Proof.
    intros b hor b' [A1 A2] FA F W E.
    destruct (flip_map b hor FA F) as [E1 [E2 B]]; [rewrite E; reflexivity|].
    rewrite E in E1, E2. cbn [fst] in E1, E2. rewrite E1, E2. rewrite Forall_forall in *.
    split; apply forall2_map.
    - intros e He. apply mir_image; auto.
    - intros t Ht. apply mir_tile_image; auto.
  Qed.

  (** Flipping twice. *)
  Lemma flip_twice : forall b hor, all_held b -> flippable_all b -> Forall well_faced (b_ents b) ->
    let b1 := fst (flip' b (axis_of hor)) in
    (snd (flip' b (axis_of hor)) = None /\ snd (flip' b1 (axis_of hor)) = None) <->
    Forall (can_flip_twice hor) (b_ents b).
  Proof.
    intros b hor A FA F b1.
    assert (Imp : Forall (can_flip_twice hor) (b_ents b) -> Forall (can_flip hor) (b_ents b)).
    { apply Forall_impl. intros e. unfold can_flip, can_flip_twice. destruct (kd e); auto; intros [d [E D]]; exists d; (split; [assumption|]); destruct hor; lia. }
    assert (Key : snd (flip' b (axis_of hor)) = None ->
      (snd (flip' b1 (axis_of hor)) = None <-> Forall (can_flip_twice hor) (b_ents b))).
    { intros O. destruct (flip_map b hor FA F O) as [E1 [_ B]].
      destruct A as [A1 _].
      assert (M : forall e, In e (b_ents b) -> image H (mirrored hor) (dir_mirrored hor e) e (mir hor e) /\ well_faced (mir hor e)).
      { intros e He. rewrite Forall_forall in *. apply mir_image; auto. }
      assert (FA1 : flippable_all b1).
      { unfold flippable_all, b1. rewrite E1. apply Forall_forall. intros e' I. apply in_map_iff in I.
        destruct I as [e [<- He]]. destruct (M e He) as [[S _] _]. destruct S as [_ [_ [S _]]]. rewrite S.
        unfold flippable_all in FA. rewrite Forall_forall in FA. auto. }
      assert (F1 : Forall well_faced (b_ents b1)).
      { unfold b1. rewrite E1. apply Forall_forall. intros e' I. apply in_map_iff in I.
        destruct I as [e [<- He]]. apply M. assumption. }
      rewrite flip_criterion by assumption. unfold b1. rewrite E1. rewrite Forall_map. rewrite !Forall_forall.
      split; intros C e He; specialize (C e He); destruct (M e He) as [[S [_ [D _]]] _];
        destruct S as [Sk _]; unfold can_flip, can_flip_twice in *; rewrite ?Sk in *; rewrite ?D in *;
        unfold dir_mirrored in *; destruct (kd e) eqn:K; try exact C.
      - destruct (B e He (or_introl K)) as [d [Ed [Bd [R _]]]]. rewrite Ed in *. cbn in C. destruct C as [d' [Ed' C]].
        inversion Ed'; subst d'. exists d. split; [reflexivity|]. apply (turn_by_twice hor d Bd R). exact C.
      - destruct (B e He (or_intror K)) as [d [Ed [Bd [R _]]]]. rewrite Ed in *. cbn in C. destruct C as [d' [Ed' C]].
        inversion Ed'; subst d'. exists d. split; [reflexivity|]. apply (turn_by_twice hor d Bd R). exact C.
      - destruct (B e He (or_introl K)) as [d [Ed [Bd [R _]]]]. rewrite Ed in *. destruct C as [d' [Ed' C]].
        inversion Ed'; subst d'. exists (mirrored_dir hor d). split; [reflexivity|]. apply (turn_by_twice hor d Bd R). exact C.
      - destruct (B e He (or_intror K)) as [d [Ed [Bd [R _]]]]. rewrite Ed in *. destruct C as [d' [Ed' C]].
        inversion Ed'; subst d'. exists (mirrored_dir hor d). split; [reflexivity|]. apply (turn_by_twice hor d Bd R). exact C. }
    split.
    - intros [O1 O2]. apply Key; assumption.
    - intros C. assert (O1 : snd (flip' b (axis_of hor)) = None) by (apply flip_criterion; auto).
      split; [assumption|]. apply Key; assumption.
  Qed.

  Lemma flip_restores : forall b hor b1 b2, all_held b -> flippable_all b -> Forall well_faced (b_ents b) ->
    Forall (fun e => kd e <> Grp -> agree H e) (b_ents b) -> Forall (whole_tile H) (b_tiles b) ->
    flip' b (axis_of hor) = (b1, None) -> flip' b1 (axis_of hor) = (b2, None) ->
    b_ents b2 = b_ents b /\ b_tiles b2 = b_tiles b.
  Proof.
    intros b hor b1 b2 A FA F G W R1 R2.
    destruct (flip_map b hor FA F ltac:(rewrite R1; reflexivity)) as [E1 [E2 B]]. rewrite R1 in E1, E2. cbn [fst] in E1, E2.
    destruct (flip_image b hor b1 A FA F W R1) as [I1 I2].
    assert (F1 : Forall well_faced (b_ents b1)). { clear -I1. induction I1; constructor; [tauto|assumption]. }
    assert (FA1 : flippable_all b1).
    { unfold flippable_all in *. clear -I1 FA. induction I1; constructor; inversion FA; subst; auto.
      destruct H0 as [[S _] _]. destruct S as [_ [_ [S _]]]. congruence. }
    destruct (flip_map b1 hor FA1 F1 ltac:(rewrite R2; reflexivity)) as [E3 [E4 B1]]. rewrite R2 in E3, E4. cbn [fst] in E3, E4.
    destruct A as [A1 A2]. rewrite Forall_forall in *. rewrite E3, E4, E1, E2, !map_map. split.
    - rewrite <- (map_id (b_ents b)) at 2. apply map_ext_in. intros e He.
      assert (Mi : image H (mirrored hor) (dir_mirrored hor e) e (mir hor e) /\ well_faced (mir hor e)) by (apply mir_image; auto).
      destruct Mi as [[S [P [D _]]] _].
      assert (X : mir hor (mir hor e) =
        place_ent (faced e (match dir_mirrored hor e with Some d => d + turn_by hor d | None => 0 end)) (px e) (py e)).
      { rewrite <- D. remember (mir hor e) as E eqn:HE. unfold mir at 1. rewrite P.
        assert (PP : mirrored hor (mirrored hor (place e)) = place e).
        { unfold mirrored, place. destruct hor; cbn; f_equal; lia. }
        rewrite PP. generalize (match dir E with Some d => d + turn_by hor d | None => 0 end) as dd.
        intros dd. rewrite HE. unfold mir. apply faced_twice. }
      rewrite X. apply (faced_back H HH); auto. intros De.
      destruct (B e He De) as [d [Ed [Bd [R Q]]]]. unfold dir_mirrored. rewrite Ed. cbn [option_map].
      assert (I : In (mir hor e) (b_ents b1)) by (rewrite E1; apply in_map; assumption).
      destruct (B1 _ I) as [d1 [Ed1 [_ [_ Q1]]]].
      { unfold directional in *. destruct S as [-> _]. assumption. }
      rewrite D in Ed1. unfold dir_mirrored in Ed1. rewrite Ed in Ed1. cbn in Ed1.
      destruct (turn_by_twice hor d Bd R) as [_ [_ T]].
      destruct De as [K|K]; rewrite K in *; inversion Ed1; subst d1; rewrite Q1, T; reflexivity.
    - rewrite <- (map_id (b_tiles b)) at 2. apply map_ext_in. intros t Ht.
      destruct (mir_tile_image hor t (A2 t Ht) (W t Ht)) as [[_ [_ C]] _].
      unfold mir_tile at 1. rewrite C.
      assert (PP : mirrored hor (mirrored hor (centre H t)) = centre H t).
      { unfold mirrored, centre. destruct hor; cbn; f_equal; lia. }
      rewrite PP. unfold centre. cbn [fst snd].
      destruct (W t Ht) as [W1 W2].
      replace (tt_x t + H - H) with (tt_x t) by lia. replace (tt_y t + H - H) with (tt_y t) by lia.
      rewrite !(trunc_id H HH) by assumption. specialize (A2 t Ht). destruct t; cbn in *. subst. reflexivity.
  Qed.

  (** *** failures *)
  Lemma rotate_failure : forall b a b' x, rotate' b a = (b', Some x) ->
    (a mod 4 <> 0 /\ x = RotationError /\ b' = b) \/
    (a mod 4 = 0 /\ broken (rotate_ent H (a mod 16)) b b' x).
  Proof.
    intros b a b' x E. destruct (Z.eq_dec (a mod 4) 0) as [A|A].
    - right. split; [assumption|]. apply mod_ok in A. rewrite rotate_unfold in E by assumption.
      pose proof (both_err cs eps box eeq tbox teq (rotate_ent H (a mod 16)) (rotate_tile H (a mod 16)) b x) as B.
      rewrite E in B. apply B; [apply rotate_tiles_ok; assumption|reflexivity].
    - left. rewrite rotate_reject in E by assumption. inversion E; subst. auto.
  Qed.
  Lemma flip_failure : forall b ax b' x, flip' b ax = (b', Some x) ->
    ((~ flippable_all b \/ ax = OtherAxis) /\ b' = b /\ (x = FlippingError \/ x = KeyError \/ x = ValueError)) \/
    (exists hor, ax = axis_of hor /\ flippable_all b /\ broken (flip_ent H hor) b b' x).
  Proof.
    intros b ax b' x E.
    assert (D : flippable_all b \/ ~ flippable_all b).
    { unfold flippable_all. destruct (all_flippable (b_ents b)) as [[|]|y] eqn:F.
      - left. apply all_flippable_spec. assumption.
      - right. intros X. apply all_flippable_spec in X. congruence.
      - right. intros X. apply all_flippable_spec in X. congruence. }
    destruct D as [D|D].
    - destruct ax.
      + right. exists true. split; [reflexivity|]. split; [assumption|]. change Horizontal with (axis_of true) in E.
        rewrite flip_unfold in E by assumption.
        pose proof (both_err cs eps box eeq tbox teq (flip_ent H true) (flip_tile H true) b x) as B.
        rewrite E in B. apply B; [apply flip_tiles_ok|reflexivity].
      + right. exists false. split; [reflexivity|]. split; [assumption|]. change Vertical with (axis_of false) in E.
        rewrite flip_unfold in E by assumption.
        pose proof (both_err cs eps box eeq tbox teq (flip_ent H false) (flip_tile H false) b x) as B.
        rewrite E in B. apply B; [apply flip_tiles_ok|reflexivity].
      + left. destruct (flip_reject b OtherAxis (or_intror eq_refl)) as [y [E' Y]]. rewrite E' in E. inversion E; subst. auto.
    - left. destruct (flip_reject b ax (or_introl D)) as [y [E' Y]]. rewrite E' in E. inversion E; subst. auto.
  Qed.

  (** *** index *)
  Notation readyb := (ready cs eps box eeq tbox teq).
  Notation exactb := (index_exact cs eps box tbox).
  Lemma index_kept : forall b, readyb b ->
    (forall x y, exactb (fst (translate' b x y))) /\
    (forall a, a mod 4 = 0 -> snd (rotate' b a) = None -> exactb (fst (rotate' b a))) /\
    (forall hor, flippable_all b -> snd (flip' b (axis_of hor)) = None -> exactb (fst (flip' b (axis_of hor)))).
  Proof.
    intros b [Hcs [Q1 [Q2 [S1 S2]]]]. split; [|split].
    - intros x y. apply both_index; auto. apply translate_map.
    - intros a A E. apply mod_ok in A. rewrite rotate_unfold in * by assumption. apply both_index; auto.
    - intros hor F E. rewrite flip_unfold in * by assumption. apply both_index; auto.
  Qed.
  Lemma exact_ready : forall b, 0 < cs -> equality box eeq -> equality tbox teq -> exactb b -> readyb b.
  Proof. intros b Hcs Q1 Q2 [E1 E2]. repeat split; try assumption; try apply Q1; try apply Q2; apply holds_synced; assumption. Qed.

  Lemma failure_index : forall b, readyb b ->
    (forall a b' x, a mod 4 = 0 -> rotate' b a = (b', Some x) -> lost_one cs eps box (rotate_ent H (a mod 16)) b b' x) /\
    (forall hor b' x, flippable_all b -> flip' b (axis_of hor) = (b', Some x) -> lost_one cs eps box (flip_ent H hor) b b' x).
  Proof.
    intros b [Hcs [Q1 [Q2 [S1 S2]]]]. split.
    - intros a b' x A E. apply mod_ok in A. rewrite rotate_unfold in E by assumption.
      pose proof (both_err_index cs eps box eeq tbox teq (rotate_ent H (a mod 16)) (rotate_tile H (a mod 16)) b x Hcs Q1 S1) as B.
      rewrite E in B. apply B; [apply rotate_tiles_ok; assumption|reflexivity].
    - intros hor b' x F E. rewrite flip_unfold in E by assumption.
      pose proof (both_err_index cs eps box eeq tbox teq (flip_ent H hor) (flip_tile H hor) b x Hcs Q1 S1) as B.
      rewrite E in B. apply B; [apply flip_tiles_ok|reflexivity].
  Qed.
End T.
