(** Where finding trains goes wrong: witnesses. *)
From Coq Require Import ZArith List Bool Lia Reals Lra Relations.
From Verif Require Import Common Dict Compass_Model Compass_Spec Schedule_Model Schedule_Spec Train_Model Train_Spec
  Rake_Model Rake_Spec Rake_Proofs Rake_Order_Proofs Rake_Place_Proofs.
Import ListNotations.
Local Open Scope Z_scope.

Lemma far_square : forall p q z, (0 <= z -> (fst p - fst q) ^ 2 + (snd p - snd q) ^ 2 = z * z -> far p q = z)%R.
Proof. intros p q z P E. unfold far. rewrite E. apply sqrt_square. exact P. Qed.
Lemma far_below : forall p q z, (0 <= z -> (fst p - fst q) ^ 2 + (snd p - snd q) ^ 2 <= z * z -> far p q <= z)%R.
Proof. intros p q z P E. unfold far. rewrite <- (sqrt_square z P). apply sqrt_le_1_alt. exact E. Qed.
Lemma far_above : forall p q z, (0 <= z -> z * z < (fst p - fst q) ^ 2 + (snd p - snd q) ^ 2 -> z < far p q)%R.
Proof. intros p q z P E. unfold far. rewrite <- (sqrt_square z P) at 1. apply sqrt_lt_1_alt. split; [nra|exact E]. Qed.
Lemma far_less : forall p q r s, ((fst p - fst q) ^ 2 + (snd p - snd q) ^ 2 < (fst r - fst s) ^ 2 + (snd r - snd s) ^ 2 -> far p q < far r s)%R.
Proof. intros p q r s E. unfold far. apply sqrt_lt_1_alt. split; [|exact E].
  pose proof (pow2_ge_0 (fst p - fst q)). pose proof (pow2_ge_0 (snd p - snd q)). lra. Qed.

(** ** a car beside the track, listed twice *)
Definition beside (i : nat) : entity := mkEntity (mkCar 0 false (mkO 0)) (if Nat.eqb i 0 then (0, 0) else (9 / 4, 2))%R.
Definition both (_ : nat) : list nat := [0; 1]%nat.
Lemma north : forall i b, bogie 1 beside i b = (fst (place beside i), snd (place beside i) + (if b then -2 else 2))%R.
Proof.
  intros i b. unfold bogie, heading. change (angle 1 beside i) with 0.
  replace (2 * PI * (0 / IZR (16 * 1)))%R with 0%R by (field; apply not_0_IZR; lia). rewrite sin_0, cos_0. cbn [fst snd].
  destruct b; f_equal; ring.
Qed.
Lemma beside_touch : forall mine, touches 1 beside 0 mine 1.
Proof.
  intros mine. exists true. unfold nearer_bogie. rewrite !north. unfold place, beside. cbn [Nat.eqb e_pos fst snd]. split.
  - apply far_less. cbn [fst snd]. lra.
  - split; [apply far_above|apply far_below]; cbn [fst snd]; destruct mine; lra.
Qed.
Lemma twice : exists K at_ near w n t, 0 < K /\
  (forall a b, In a [w; n] -> (In b (near a) <-> In b [w; n] /\ far (place at_ a) (place at_ b) <= 15 / 2)%R) /\
  find_train_from_wagon K at_ near 3 w = Ok t /\ count_occ Nat.eq_dec t n = 2%nat.
Proof.
  exists 1, beside, both, 0%nat, 1%nat, [1; 0; 1]%nat. split; [lia|]. split; [|split; [|reflexivity]].
  - intros a b A. unfold both. split; [|tauto]. intros B. split; [exact B|].
    destruct A as [<-|[<-|[]]], B as [<-|[<-|[]]]; apply far_below; cbn; lra.
  - assert (F : in_front 1 beside 0 false 1 = true) by (apply front_iff; [lia|apply beside_touch]).
    assert (B : in_back 1 beside 0 false 1 = true) by (apply back_iff; [lia|apply beside_touch]).
    unfold find_train_from_wagon. cbn [traverse both visit mem existsb Nat.eqb used orb].
    change (loco beside 0) with false. cbn [andb]. change (facing_ok 1 beside 0 1) with true. cbv zeta. rewrite F, B.
    set (bk := is_backwards 1 beside 0 false 1). cbn [traverse]. change (loco beside 1) with false. cbn [andb used].
    cbn [both visit mem existsb Nat.eqb used orb bind]. reflexivity.
Qed.

(** ** orientations on both sides of north *)
Section Wrap.
  Let a := (PI / 16)%R.
  Let ca := cos a. Let sa := sin a.
  Lemma small : (0 < ca)%R.
  Proof. unfold ca, a. apply cos_gt_0; pose proof PI_RGT_0; lra. Qed.
  Lemma ca_le : (ca <= 1)%R. Proof. apply COS_bound. Qed.
  Lemma ring_a : (ca * ca + sa * sa = 1)%R.
  Proof. pose proof (sin2_cos2 a) as H. unfold Rsqr in H. unfold ca, sa. lra. Qed.
  Lemma h1 : heading 2 1 = (sa, - ca)%R.
  Proof. unfold heading. replace (2 * PI * (1 / IZR (16 * 2)))%R with a; [reflexivity|]. unfold a. replace (16 * 2) with 32 by reflexivity. field. Qed.
  Lemma h15 : heading 2 15 = (sa, ca)%R.
  Proof.
    unfold heading. replace (2 * PI * (15 / IZR (16 * 2)))%R with (- a + PI)%R; [|unfold a; replace (16 * 2) with 32 by reflexivity; field].
    rewrite neg_sin, neg_cos, sin_neg, cos_neg. unfold sa, ca. f_equal; ring.
  Qed.
  Lemma h31 : heading 2 31 = (- sa, - ca)%R.
  Proof.
    change 31 with ((15 + 8 * 2) mod (16 * 2)). rewrite heading_half by lia. rewrite h15. reflexivity.
  Qed.
  (** Two cars at these places, turned by the given amounts. *)
  Definition two (m n : Z) (i : nat) : entity :=
    if Nat.eqb i 0 then mkEntity (mkCar 0 false (mkO m)) (0, 0)%R
    else mkEntity (mkCar 0 false (mkO n)) (0, -3 - 4 * cos (PI / 16))%R.
  Lemma two_near : forall m n x y, In x [0; 1]%nat -> In y [0; 1]%nat -> (far (place (two m n) x) (place (two m n) y) <= 15 / 2)%R.
  Proof.
    intros m n x y X Y. pose proof small as S. pose proof ca_le as L. unfold ca, a in S, L.
    destruct X as [<-|[<-|[]]], Y as [<-|[<-|[]]]; apply far_below; cbn [place two Nat.eqb e_pos fst snd]; nra.
  Qed.
  Lemma wrap_touch : touches 2 (two 31 1) 0 true 1.
  Proof.
    pose proof small as S. pose proof ring_a as R. exists false. unfold nearer_bogie, bogie.
    change (angle 2 (two 31 1) 0) with 31. change (angle 2 (two 31 1) 1) with 1. rewrite h1, h31.
    cbn [place two Nat.eqb e_pos fst snd]. fold a ca. split.
    - apply Rlt_le. apply far_less. cbn [fst snd]. nra.
    - assert (E : far (0 + 2 * - sa, 0 + 2 * - ca)%R (0 - 2 * sa, -3 - 4 * ca - 2 * - ca)%R = 3%R).
      { apply far_square; [lra|]. cbn [fst snd]. ring. }
      rewrite E. lra.
  Qed.
  Lemma one_way_touch : touches 2 (two 1 15) 0 true 1.
  Proof.
    pose proof small as S. pose proof ring_a as R. exists true. unfold nearer_bogie, bogie.
    change (angle 2 (two 1 15) 0) with 1. change (angle 2 (two 1 15) 1) with 15. rewrite h1, h15.
    cbn [place two Nat.eqb e_pos fst snd]. fold a ca. split.
    - apply far_less. cbn [fst snd]. nra.
    - assert (E : far (0 + 2 * sa, 0 + 2 * - ca)%R (0 + 2 * sa, -3 - 4 * ca + 2 * ca)%R = 3%R).
      { apply far_square; [lra|]. cbn [fst snd]. ring. }
      rewrite E. lra.
  Qed.
End Wrap.
Lemma wrap : exists K at_ near w n, 0 < K /\
  (forall a b, In a [w; n] -> (In b (near a) <-> In b [w; n] /\ far (place at_ a) (place at_ b) <= 15 / 2)%R) /\
  touches K at_ w true n /\ (exists z, Z.abs z < 2 * K /\ angle K at_ n = (angle K at_ w + z) mod (16 * K)) /\
  find_train_from_wagon K at_ near 3 w = Ok [w] /\ find_train_from_wagon K at_ near 3 n = Ok [n].
Proof.
  exists 2, (two 31 1), both, 0%nat, 1%nat. split; [lia|]. split; [|split; [apply wrap_touch|split]].
  - intros a b A. unfold both. split; [|tauto]. intros B. split; [exact B|]. apply two_near; assumption.
  - exists 2. split; [reflexivity|]. reflexivity.
  - split; reflexivity.
Qed.
Lemma one_way : exists K at_ near w n t, 0 < K /\
  (forall a b, In a [w; n] -> (In b (near a) <-> In b [w; n] /\ far (place at_ a) (place at_ b) <= 15 / 2)%R) /\
  find_train_from_wagon K at_ near 3 w = Ok t /\ In n t /\ find_train_from_wagon K at_ near 3 n = Ok [n].
Proof.
  assert (CL : forall w, In w [0; 1]%nat -> incl (both w) [0; 1]%nat) by (intros w _; apply incl_refl).
  destruct (deep_enough 2 ltac:(lia) (two 1 15) both [0; 1]%nat 3 0 CL) as [t T]; [left; reflexivity|cbn; lia|].
  exists 2, (two 1 15), both, 0%nat, 1%nat, t. split; [lia|]. split; [|split; [exact T|split; [|reflexivity]]].
  - intros a b A. unfold both. split; [|tauto]. intros B. split; [exact B|]. apply two_near; assumption.
  - apply (members 2 ltac:(lia) (two 1 15) both 3 0 t T). apply rt_step. split; [right; left; reflexivity|]. split.
    + right. unfold close_to. cbn. lia.
    + left. apply one_way_touch.
Qed.

(** ** two wagons without a locomotive *)
Definition wagon := mkCar 0 false (mkO 0).
Lemma unpowered : exists K c' at_ near, 0 < K /\
  add_train_at_position K (mkColl [] 0 []) [wagon; wagon] (0, 0)%R 0 None = (c', None) /\
  surroundings K at_ near c' [0; 1]%nat /\ Forall (straight K) [wagon; wagon] /\
  find_train_from_wagon K at_ near 2 0 = Ok [1; 0]%nat /\ find_train_from_wagon K at_ near 2 1 = Ok [1; 0]%nat.
Proof.
  assert (E : exists c', add_train_at_position 1 (mkColl [] 0 []) [wagon; wagon] (0, 0)%R 0 None = (c', None)) by (eexists; reflexivity).
  destruct E as [c' E].
  exists 1, c', (fun i => match nth_error (ents c') i with Some (_, e) => e | None => mkEntity wagon (0, 0)%R end), both.
  assert (SU : surroundings 1 (fun i => match nth_error (ents c') i with Some (_, e) => e | None => mkEntity wagon (0, 0)%R end) both c' [0; 1]%nat).
  { split; [|split].
    - cbn in E. injection E as <-. cbn [ents]. intros i e [I|[I|[]]]; injection I as <- <-; reflexivity.
    - intros a b _ B _. exact B.
    - intros a n _ N [I _]. apply N. exact I. }
  assert (ST : Forall (straight 1) [wagon; wagon]) by (repeat constructor; left; reflexivity).
  split; [lia|]. split; [exact E|]. split; [exact SU|]. split; [exact ST|].
  assert (D : compass_point 0) by (split; [unfold is_direction; lia|exists 0; reflexivity]).
  assert (S0 : sound (mkColl [] 0 [])) by constructor.
  pose proof (fun k x => found_at_position 1 (mkColl [] 0 []) [wagon; wagon] (0, 0)%R 0 None c' _ both 2 k x ltac:(lia) D S0 ltac:(discriminate) ST E SU ltac:(cbn; lia)) as F.
  cbn [fresh Nat.add] in F.
  split; [rewrite (F 0%nat wagon eq_refl)|rewrite (F 1%nat wagon eq_refl)]; reflexivity.
Qed.

(** A locomotive, a wagon and a locomotive facing backwards, heading east. *)
Definition engine := mkCar 1 true (mkO 0).
Definition rear_engine := mkCar 1 true (mkO 8).
Lemma shuttle : exists c' at_ near,
  add_train_at_position 1 (mkColl [] 0 []) [engine; wagon; rear_engine] (5, 0)%R 4 None = (c', None) /\
  surroundings 1 at_ near c' [0; 1; 2]%nat /\ Forall (straight 1) [engine; wagon; rear_engine] /\
  find_train_from_wagon 1 at_ near 3 0 = Ok [0; 1; 2]%nat /\ find_train_from_wagon 1 at_ near 3 1 = Ok [0; 1; 2]%nat /\
  find_train_from_wagon 1 at_ near 3 2 = Ok [2; 1; 0]%nat.
Proof.
  assert (E : exists c', add_train_at_position 1 (mkColl [] 0 []) [engine; wagon; rear_engine] (5, 0)%R 4 None = (c', None)) by (eexists; reflexivity).
  destruct E as [c' E]. set (at_ := fun i => match nth_error (ents c') i with Some (_, e) => e | None => mkEntity wagon (0, 0)%R end).
  exists c', at_, (fun _ => [0; 1; 2]%nat).
  assert (SU : surroundings 1 at_ (fun _ => [0; 1; 2]%nat) c' [0; 1; 2]%nat).
  { split; [|split].
    - unfold at_. cbn in E. injection E as <-. cbn [ents]. intros i e [I|[I|[I|[]]]]; injection I as <- <-; reflexivity.
    - intros a b _ B _. exact B.
    - intros a n _ N [I _]. apply N. exact I. }
  assert (ST : Forall (straight 1) [engine; wagon; rear_engine]) by (repeat constructor; (left; reflexivity) || (right; reflexivity)).
  split; [exact E|]. split; [exact SU|]. split; [exact ST|].
  assert (D : compass_point 4) by (split; [unfold is_direction; lia|exists 2; reflexivity]).
  assert (S0 : sound (mkColl [] 0 [])) by constructor.
  pose proof (fun k x => found_at_position 1 (mkColl [] 0 []) [engine; wagon; rear_engine] (5, 0)%R 4 None c' at_ (fun _ => [0; 1; 2]%nat) 3 k x ltac:(lia) D S0 ltac:(discriminate) ST E SU ltac:(cbn; lia)) as F.
  cbn [fresh Nat.add] in F.
  split; [rewrite (F 0%nat engine eq_refl); reflexivity|]. split; [rewrite (F 1%nat wagon eq_refl); reflexivity|rewrite (F 2%nat rear_engine eq_refl); reflexivity].
Qed.
