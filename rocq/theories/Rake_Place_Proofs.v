(** Proofs about finding trains: trains that were placed. *)
From Coq Require Import ZArith List Bool Lia Reals Lra Relations Rgeom.
From Verif Require Import Common Dict Compass_Model Compass_Spec Compass_Proofs Schedule_Model Schedule_Spec Train_Model Train_Spec Train_Place_Proofs
  Rake_Model Rake_Spec Rake_Proofs Rake_Order_Proofs.
Import ListNotations.
Local Open Scope Z_scope.

Lemma far_line : forall p v a b, length_is v 1 ->
  far (fst p + a * fst v, snd p + a * snd v)%R (fst p + b * fst v, snd p + b * snd v)%R = Rabs (a - b).
Proof.
  intros p v a b L. unfold length_is in L. unfold far. cbn [fst snd].
  replace ((fst p + a * fst v - (fst p + b * fst v)) ^ 2 + (snd p + a * snd v - (snd p + b * snd v)) ^ 2)%R
    with ((a - b) * (a - b) * (fst v * fst v + snd v * snd v))%R by ring.
  rewrite L. replace ((a - b) * (a - b) * (1 * 1))%R with (Rsqr (a - b)) by (unfold Rsqr; ring). apply sqrt_Rsqr_abs.
Qed.
Lemma far_triangle : forall p q r, (far p r <= far p q + far q r)%R.
Proof.
  assert (E : forall p q, far p q = dist_euc (fst p) (snd p) (fst q) (snd q)).
  { intros p q. unfold far, dist_euc, Rsqr. f_equal. ring. }
  intros p q r. rewrite !E. apply triangle.
Qed.
Lemma far_sym : forall p q, far p q = far q p.
Proof. intros p q. unfold far. f_equal. ring. Qed.

Section Rake.
  Variable K : Z.
  Hypothesis HK : 0 < K.

  Lemma compass_heading : forall d v, compass_point d -> unit_vector d = Ok v -> heading K (d * K) = v.
  Proof.
    assert (LOW : forall d v, (d = 0 \/ d = 2 \/ d = 4 \/ d = 6) -> unit_vector d = Ok v -> heading K (d * K) = v).
    { intros d v D V. unfold heading.
      assert (E : (2 * PI * (IZR (d * K) / IZR (16 * K)))%R = (IZR d * PI / 8)%R).
      { rewrite !mult_IZR. field. apply not_0_IZR. lia. }
      rewrite E. clear E. destruct D as [->|[->|[->| ->]]]; cbn in V; injection V as <-.
      - replace (0 * PI / 8)%R with 0%R by field. rewrite sin_0, cos_0. reflexivity.
      - replace (2 * PI / 8)%R with (PI / 4)%R by field. rewrite sin_PI4, cos_PI4. unfold srt2. f_equal; field; apply sqrt2_neq_0.
      - replace (4 * PI / 8)%R with (PI / 2)%R by field. rewrite sin_PI2, cos_PI2. f_equal; ring.
      - replace (6 * PI / 8)%R with (3 * (PI / 4))%R by field. rewrite sin_3PI4, cos_3PI4. unfold srt2. f_equal; field; apply sqrt2_neq_0. }
    intros d v [D E] V. unfold is_direction in D. destruct E as [k ->].
    assert (C : k = 0 \/ k = 1 \/ k = 2 \/ k = 3 \/ k = 4 \/ k = 5 \/ k = 6 \/ k = 7) by lia.
    destruct C as [->|[->|[->|[->|C]]]]; [apply LOW; auto..|].
    assert (H : exists u, unit_vector (2 * (k - 4)) = Ok u /\ v = (- fst u, - snd u)%R).
    { destruct C as [->|[->|[->| ->]]]; cbn in V; injection V as <-; cbn [unit_vector Z.mul Z.sub Z.add Z.opp Z.pos_sub Pos.mul];
        (eexists; split; [reflexivity|]); cbn [fst snd]; f_equal; ring. }
    destruct H as [u [U ->]]. assert (HU : heading K (2 * (k - 4) * K) = u) by (apply LOW; [lia|exact U]).
    rewrite <- HU, <- (heading_half K HK) by nia. f_equal. rewrite Z.mod_small by nia. ring.
  Qed.

  Variable at_ : nat -> entity.
  Variable near : nat -> list nat.
  Notation coupled := (coupled K at_ near). Notation touches := (touches K at_).

  (** Rolling stock that is far away is not coupled. *)
  Lemma bogie_far : forall w b, (far (place at_ w) (bogie K at_ w b) = 2)%R.
  Proof.
    intros w b. unfold far, bogie. set (h := heading K (angle K at_ w)).
    assert (U : (fst h * fst h + snd h * snd h = 1)%R).
    { unfold h, heading. cbn [fst snd]. pose proof (sin2_cos2 (2 * PI * (IZR (angle K at_ w) / IZR (16 * K)))) as S. unfold Rsqr in S. lra. }
    assert (E : forall z, (z = 4 * (fst h * fst h + snd h * snd h) -> sqrt z = 2)%R).
    { intros z ->. rewrite U. replace (4 * 1)%R with (2 * 2)%R by ring. apply sqrt_square. lra. }
    destruct b; cbn [fst snd]; apply E; ring.
  Qed.
  Lemma far_apart : forall w n, (71 / 10 < far (place at_ w) (place at_ n))%R -> ~ coupled w n.
  Proof.
    intros w n F [_ [_ T]].
    assert (G : forall mine, touches w mine n -> False); [|destruct T as [T|T]; apply G in T; exact T].
    intros mine [his [_ [_ B]]].
    pose proof (far_triangle (place at_ w) (bogie K at_ w mine) (place at_ n)) as T1.
    pose proof (far_triangle (bogie K at_ w mine) (bogie K at_ n his) (place at_ n)) as T2.
    rewrite (bogie_far w) in T1. rewrite (far_sym (bogie K at_ n his) (place at_ n)), (bogie_far n) in T2. lra.
  Qed.

  (** ** cars on a line *)
  Section Line.
    Variables (reduce : bool) (d : Z) (v start : R * R) (fwd : nat -> bool) (cs : list nat).
    Hypothesis D : compass_point d.
    Hypothesis V : unit_vector d = Ok v.
    Hypothesis ND : NoDup cs.
    Hypothesis POS : forall i c, nth_error cs i = Some c -> e_pos (at_ c) = behind start v i.
    Hypothesis TURN : forall c, In c cs -> angle K at_ c = (if fwd c then d * K else (d * K + 8 * K) mod (16 * K)) /\
      number at_ c = (if reduce then angle K at_ c else if fwd c then d * K else d * K + 8 * K).
    Hypothesis NEAR : forall a b, In a cs -> In b cs -> (far (place at_ a) (place at_ b) <= 15 / 2)%R -> In b (near a).
    Hypothesis APART : forall a n, In a cs -> ~ In n cs -> ~ coupled a n.

    Definition sg (b : bool) : R := if b then 1%R else (-1)%R.
    Lemma unit_v : length_is v 1.
    Proof. destruct (compass_values K d D) as [_ [u [U L]]]. rewrite V in U. injection U as <-. exact L. Qed.
    Lemma d_range : 0 <= d * K < 16 * K.
    Proof. destruct D as [R _]. unfold is_direction in R. nia. Qed.
    Lemma heading_car : forall c, In c cs -> heading K (angle K at_ c) = (sg (fwd c) * fst v, sg (fwd c) * snd v)%R.
    Proof.
      intros c C. destruct (TURN c C) as [-> _]. pose proof (compass_heading d v D V) as H. destruct (fwd c); cbn [sg].
      - rewrite H. destruct v. cbn [fst snd]. f_equal; ring.
      - rewrite heading_half by (exact HK || apply d_range). rewrite H. f_equal; ring.
    Qed.
    (** Everything as a distance along the line. *)
    Definition on_line (t : R) : R * R := (fst start + t * fst v, snd start + t * snd v)%R.
    Lemma far_on_line : forall a b, far (on_line a) (on_line b) = Rabs (a - b).
    Proof. intros a b. apply far_line. apply unit_v. Qed.
    Lemma place_line : forall i c, nth_error cs i = Some c -> place at_ c = on_line (- (7 * INR i)).
    Proof. intros i c N. unfold place, on_line. rewrite (POS i c N). unfold behind. f_equal; ring. Qed.
    Lemma bogie_line : forall i c b, nth_error cs i = Some c -> bogie K at_ c b = on_line (- (7 * INR i) + 2 * sg b * sg (fwd c)).
    Proof.
      intros i c b N. unfold bogie. rewrite (place_line i c N), (heading_car c) by (eapply nth_error_In; exact N). unfold on_line.
      destruct b; cbn [sg fst snd]; f_equal; ring.
    Qed.
    Lemma sg_cases : forall b, sg b = 1%R \/ sg b = (-1)%R.
    Proof. intros [|]; auto. Qed.
    (** Which bogies touch: those of neighbouring cars, on the proper side. *)
    Lemma touch_ahead : forall i j a b mine, nth_error cs i = Some a -> nth_error cs j = Some b -> (j < i)%nat ->
      (touches a mine b <-> i = S j /\ mine = fwd a).
    Proof.
      intros i j a b mine A B L.
      assert (T : exists t, INR i = (INR j + t)%R /\ (1 <= t)%R /\ ((t = 1)%R <-> i = S j) /\ (i <> S j -> (2 <= t)%R)).
      { exists (INR (i - j)). rewrite minus_INR by lia. split; [ring|]. rewrite <- minus_INR by lia. split; [|split].
        - change 1%R with (INR 1). apply le_INR. lia.
        - split; [intros E; apply (INR_eq (i - j) 1) in E; lia|intros ->; replace (S j - j)%nat with 1%nat by lia; reflexivity].
        - intros N. change 2%R with (INR 2). apply le_INR. lia. }
      destruct T as [t [E [T1 [T2 T3]]]].
      assert (NB : nearer_bogie K at_ a b (negb (fwd b))).
      { unfold nearer_bogie. rewrite (place_line i a A), !(bogie_line j b _ B), !far_on_line, E.
        destruct (fwd b); cbn [negb sg]; unfold Rabs; repeat destruct (Rcase_abs _); lra. }
      assert (H : forall his, sg his = (- sg (fwd b))%R -> far (bogie K at_ a mine) (bogie K at_ b his) = (7 * t - 2 - 2 * sg mine * sg (fwd a))%R).
      { intros his HS. rewrite (bogie_line i a _ A), (bogie_line j b _ B), far_on_line, E, HS.
        destruct (sg_cases mine) as [-> | ->], (sg_cases (fwd a)) as [-> | ->], (sg_cases (fwd b)) as [-> | ->];
          unfold Rabs; destruct (Rcase_abs _); lra. }
      assert (SN : sg (negb (fwd b)) = (- sg (fwd b))%R) by (destruct (fwd b); cbn [negb sg]; lra).
      unfold Rake_Spec.touches. split.
      - intros [his [N' [G1 G2]]]. rewrite (nearer_unique K at_ a b his _ N' NB), (H _ SN) in G1, G2.
        destruct (Nat.eq_dec i (S j)) as [Q|Q].
        + split; [exact Q|]. apply T2 in Q. subst t. destruct mine, (fwd a); cbn [sg] in *; try reflexivity; exfalso; lra.
        + apply T3 in Q. exfalso. destruct (sg_cases mine) as [M|M], (sg_cases (fwd a)) as [N|N]; rewrite M, N in *; lra.
      - intros [Q ->]. apply T2 in Q. exists (negb (fwd b)). split; [exact NB|]. rewrite (H _ SN). rewrite Q. destruct (sg_cases (fwd a)) as [N|N]; rewrite N; lra.
    Qed.
    Lemma touch_behind : forall i j a b mine, nth_error cs i = Some a -> nth_error cs j = Some b -> (i < j)%nat ->
      (touches a mine b <-> j = S i /\ mine = negb (fwd a)).
    Proof.
      intros i j a b mine A B L.
      assert (T : exists t, INR j = (INR i + t)%R /\ (1 <= t)%R /\ ((t = 1)%R <-> j = S i) /\ (j <> S i -> (2 <= t)%R)).
      { exists (INR (j - i)). rewrite minus_INR by lia. split; [ring|]. rewrite <- minus_INR by lia. split; [|split].
        - change 1%R with (INR 1). apply le_INR. lia.
        - split; [intros E; apply (INR_eq (j - i) 1) in E; lia|intros ->; replace (S i - i)%nat with 1%nat by lia; reflexivity].
        - intros N. change 2%R with (INR 2). apply le_INR. lia. }
      destruct T as [t [E [T1 [T2 T3]]]].
      assert (NB : nearer_bogie K at_ a b (fwd b)).
      { unfold nearer_bogie. rewrite (place_line i a A), !(bogie_line j b _ B), !far_on_line, E.
        destruct (fwd b); cbn [sg]; unfold Rabs; repeat destruct (Rcase_abs _); lra. }
      assert (H : far (bogie K at_ a mine) (bogie K at_ b (fwd b)) = (7 * t - 2 + 2 * sg mine * sg (fwd a))%R).
      { rewrite (bogie_line i a _ A), (bogie_line j b _ B), far_on_line, E.
        destruct (sg_cases mine) as [-> | ->], (sg_cases (fwd a)) as [-> | ->], (sg_cases (fwd b)) as [-> | ->];
          unfold Rabs; destruct (Rcase_abs _); lra. }
      unfold Rake_Spec.touches. split.
      - intros [his [N' [G1 G2]]]. rewrite (nearer_unique K at_ a b his _ N' NB), H in G1, G2.
        destruct (Nat.eq_dec j (S i)) as [Q|Q].
        + split; [exact Q|]. apply T2 in Q. subst t. destruct mine, (fwd a); cbn [sg negb] in *; try reflexivity; exfalso; lra.
        + apply T3 in Q. exfalso. destruct (sg_cases mine) as [M|M], (sg_cases (fwd a)) as [N|N]; rewrite M, N in *; lra.
      - intros [Q ->]. apply T2 in Q. exists (fwd b). split; [exact NB|]. rewrite H, Q. destruct (fwd a); cbn [sg negb]; lra.
    Qed.
    Lemma all_aligned : forall a b, In a cs -> In b cs -> aligned K at_ a b.
    Proof.
      intros a b A B. destruct (TURN a A) as [A1 A2]. destruct (TURN b B) as [B1 B2]. pose proof d_range as R.
      assert (M : 0 <= (d * K + 8 * K) mod (16 * K) < 16 * K /\
                  ((d * K + 8 * K) mod (16 * K) = d * K + 8 * K \/ (d * K + 8 * K) mod (16 * K) = d * K - 8 * K)).
      { split; [apply Z.mod_pos_bound; lia|]. destruct (Z_lt_ge_dec (d * K) (8 * K)).
        - left. apply Z.mod_small. lia.
        - right. symmetry. apply (Z.mod_unique_pos _ _ 1); lia. }
      assert (OPP : ((d * K + 8 * K) mod (16 * K) + 8 * K) mod (16 * K) = d * K).
      { destruct M as [_ [-> | ->]]; [symmetry; apply (Z.mod_unique_pos _ _ 1); lia|rewrite Z.mod_small; lia]. }
      unfold aligned, close_to. rewrite A1, B1. rewrite A2, B2, A1, B1. clear A1 A2 B1 B2.
      destruct (fwd a) eqn:FA, (fwd b) eqn:FB; rewrite ?OPP; set (m := (d * K + 8 * K) mod (16 * K)) in *; clearbody m;
        set (x := d * K) in *; clearbody x; destruct reduce; lia.
    Qed.
    Lemma next_index : forall (l : list nat) a b, next_to l a b <-> exists i, nth_error l i = Some a /\ nth_error l (S i) = Some b.
    Proof.
      intros l a b. split.
      - intros [p [q ->]]. exists (length p). split.
        + rewrite nth_error_app2 by lia. rewrite Nat.sub_diag. reflexivity.
        + rewrite nth_error_app2 by lia. replace (S (length p) - length p)%nat with 1%nat by lia. reflexivity.
      - intros [i [A B]]. destruct (nth_error_split l i A) as [p [q [-> L]]]. rewrite nth_error_app2 in B by lia.
        replace (S i - length p)%nat with 1%nat in B by lia. destruct q as [|y q]; [discriminate|]. cbn in B. injection B as ->. exists p, q. reflexivity.
    Qed.
    Theorem placed_lined_up : lined_up K at_ near fwd cs.
    Proof.
      split; [exact ND|]. split.
      - intros a b H. apply next_index in H. destruct H as [i [A B]].
        assert (IA := nth_error_In _ _ A). assert (IB := nth_error_In _ _ B).
        assert (F : (far (place at_ a) (place at_ b) <= 15 / 2)%R).
        { rewrite (place_line i a A), (place_line (S i) b B), far_on_line, S_INR. unfold Rabs. destruct (Rcase_abs _); lra. }
        pose proof (touch_behind i (S i) a b) as TB. pose proof (touch_ahead (S i) i b a) as TA.
        assert (T1 : touches a (negb (fwd a)) b) by (apply TB; auto).
        assert (T2 : touches b (fwd b) a) by (apply TA; auto).
        split; [|split; [|split; [exact T1|split; [|split; [exact T2|split]]]]].
        + split; [apply NEAR; assumption|]. split; [apply all_aligned; assumption|]. destruct (negb (fwd a)); auto.
        + split; [apply NEAR; [assumption..|]; rewrite far_sym; exact F|]. split; [apply all_aligned; assumption|]. destruct (fwd b); auto.
        + intros C. apply TB in C; [|assumption|assumption|lia]. destruct C as [_ C]. destruct (fwd a); discriminate.
        + intros C. apply TA in C; [|assumption|assumption|lia]. destruct C as [_ C]. destruct (fwd b); discriminate.
        + unfold agreement. rewrite (heading_car a IA), (heading_car b IB). cbn [fst snd].
          assert (E : (sg (fwd a) * fst v * (sg (fwd b) * fst v) + sg (fwd a) * snd v * (sg (fwd b) * snd v) = sg (fwd a) * sg (fwd b))%R).
          { transitivity (sg (fwd a) * sg (fwd b) * (fst v * fst v + snd v * snd v))%R; [ring|]. rewrite unit_v. ring. }
          rewrite E. destruct (fwd a), (fwd b); cbn [Bool.eqb sg]; lra.
      - intros a n A Q. destruct (in_dec Nat.eq_dec n cs) as [N|N]; [|exfalso; apply (APART a n A N Q)].
        destruct (In_nth_error _ _ A) as [i I]. destruct (In_nth_error _ _ N) as [j J].
        destruct Q as [_ [_ T]].
        destruct (Nat.lt_trichotomy i j) as [L|[->|L]].
        + right. left. apply next_index. exists i. split; [exact I|].
          assert (E : j = S i) by (destruct T as [T|T]; apply (touch_behind i j a n) in T; auto; apply T). rewrite <- E. exact J.
        + left. congruence.
        + right. right. apply next_index. exists j. split; [exact J|].
          assert (E : i = S j) by (destruct T as [T|T]; apply (touch_ahead i j a n) in T; auto; apply T). rewrite <- E. exact I.
    Qed.
  End Line.
End Rake.

Section Again.
  Variable K : Z.
  Hypothesis HK : 0 < K.
  Variable at_ : nat -> entity.
  Variable near : nat -> list nat.
  Variables (reduce : bool) (fits : schedule -> Prop) (c : coll) (cars : list car) (start : R * R) (d : Z) (v : R * R)
    (s : option schedule) (c' : coll) (es : list (nat * entity)).
  Hypothesis D : compass_point d.
  Hypothesis V : unit_vector d = Ok v.
  Hypothesis PL : placement K reduce fits c cars start d v s c' es.
  Hypothesis ST : Forall (straight K) cars.
  Notation ids := (seq (fresh c) (length cars)).
  Hypothesis SU : surroundings K at_ near c' ids.

  Definition fwd_of (i : nat) : bool :=
    match nth_error cars (i - fresh c) with Some x => faces K x | None => false end.
  Lemma id_of : forall n i, nth_error ids n = Some i <-> (n < length cars)%nat /\ i = (fresh c + n)%nat.
  Proof.
    intros n i. destruct (Nat.lt_ge_cases n (length cars)) as [L|L].
    - rewrite (nth_error_nth' _ 0%nat) by (rewrite seq_length; exact L). rewrite seq_nth by exact L. split; [intros E; injection E as <-; auto|intros [_ ->]; reflexivity].
    - rewrite (proj2 (nth_error_None _ _)) by (rewrite seq_length; exact L). split; [discriminate|]. intros [C _]. lia.
  Qed.
  Lemma car_at : forall n x, nth_error cars n = Some x -> placed_as K reduce d v start n x (at_ (fresh c + n)).
  Proof.
    intros n x X. destruct PL as [E [F [_ [N _]]]]. destruct (N n x X) as [i [e [Q P]]].
    assert (I : i = (fresh c + n)%nat).
    { assert (M : nth_error (map fst es) n = Some i) by (rewrite nth_error_map, Q; reflexivity). rewrite F in M. apply id_of in M. apply M. }
    subst i. destruct SU as [S1 _]. rewrite (S1 (fresh c + n)%nat e); [exact P|]. rewrite E. apply in_or_app. right. eapply nth_error_In. exact Q.
  Qed.
  Lemma fwd_at : forall n x, nth_error cars n = Some x -> fwd_of (fresh c + n) = faces K x.
  Proof. intros n x X. unfold fwd_of. replace (fresh c + n - fresh c)%nat with n by lia. rewrite X. reflexivity. Qed.
  Lemma again_line : lined_up K at_ near fwd_of ids.
  Proof.
    apply (placed_lined_up K HK at_ near reduce d v start fwd_of ids D V).
    - apply seq_NoDup.
    - intros i a N. apply id_of in N. destruct N as [L ->]. destruct (nth_error cars i) as [x|] eqn:X; [|apply nth_error_None in X; lia].
      apply (car_at i x X).
    - intros a A. destruct (In_nth_error _ _ A) as [n N]. apply id_of in N. destruct N as [L ->].
      destruct (nth_error cars n) as [x|] eqn:X; [|apply nth_error_None in X; lia].
      destruct (car_at n x X) as [_ [_ [_ R]]]. rewrite (fwd_at n x X).
      assert (SX : straight K x) by (rewrite Forall_forall in ST; apply ST; eapply nth_error_In; exact X).
      assert (DK : 0 <= d * K < 16 * K) by (destruct D as [RD _]; unfold is_direction in RD; nia).
      assert (VD : value K (mkO (d * K)) = d * K) by (unfold value, turn; cbn [raw]; apply Z.mod_small; lia).
      unfold angle, number. cbv zeta in R. rewrite R, VD. unfold faces, turn. clear R.
      destruct SX as [SX|SX]; rewrite !SX.
      + cbn [Z.eqb]. rewrite Z.add_0_r. rewrite (Z.mod_small (d * K)) by lia. destruct reduce; rewrite (Z.mod_small (d * K)) by lia; auto.
      + destruct (Z.eqb_spec (8 * K) 0); [lia|]. destruct reduce; [rewrite Z.mod_mod by lia|]; auto.
    - intros a b A B F. apply SU; assumption.
    - intros a n A N. apply SU; assumption.
  Qed.
  Lemma locos_again : forall f k, existsb (fun i => car_loco (e_car (at_ i)) && Bool.eqb (fwd_of i) f) (seq (fresh c + k) (length cars - k)) =
    existsb (fun y => car_loco y && Bool.eqb (faces K y) f) (skipn k cars).
  Proof.
    intros f k. remember (length cars - k)%nat as m eqn:M. revert k M. induction m as [|m IH]; intros k M.
    - rewrite skipn_all2 by lia. reflexivity.
    - destruct (nth_error cars k) as [x|] eqn:X; [|apply nth_error_None in X; lia].
      assert (SK : skipn k cars = x :: skipn (S k) cars).
      { clear -X. revert k X. induction cars as [|y l IH]; intros [|k] X; cbn in X; try discriminate; [injection X as ->; reflexivity|]. cbn [skipn]. apply IH. exact X. }
      rewrite SK. cbn [seq existsb]. destruct (car_at k x X) as [_ [_ [LC _]]]. rewrite LC, (fwd_at k x X).
      replace (S (fresh c + k)) with (fresh c + S k)%nat by lia. rewrite IH by lia. reflexivity.
  Qed.
  Theorem again : forall limit k x, (length cars <= limit)%nat -> nth_error cars k = Some x ->
    find_train_from_wagon K at_ near limit (fresh c + k) =
      Ok (if Bool.eqb (faces K x) (existsb (fun y => car_loco y && Bool.eqb (faces K y) (faces K x)) cars) then ids else rev ids).
  Proof.
    intros limit k x L X.
    assert (KL : (k < length cars)%nat) by (apply nth_error_Some; congruence).
    rewrite (in_order K HK at_ near fwd_of ids (fresh c + k) limit again_line).
    - rewrite (fwd_at k x X). pose proof (locos_again (faces K x) 0) as E. rewrite Nat.add_0_r, Nat.sub_0_r in E. cbn [skipn] in E. rewrite E. reflexivity.
    - apply in_seq. lia.
    - rewrite seq_length. exact L.
  Qed.
End Again.

Theorem found_at_position : forall K c cars pos d s c' at_ near limit k x, 0 < K -> compass_point d -> sound c ->
  (forall s', s = Some s' -> forall i, In i (targets (s_locos s')) -> (i < fresh c)%nat) ->
  Forall (straight K) cars -> add_train_at_position K c cars pos d s = (c', None) ->
  let ids := seq (fresh c) (length cars) in
  surroundings K at_ near c' ids -> (length cars <= limit)%nat -> nth_error cars k = Some x ->
  find_train_from_wagon K at_ near limit (fresh c + k) =
    Ok (if Bool.eqb (faces K x) (existsb (fun y => car_loco y && Bool.eqb (faces K y) (faces K x)) cars) then ids else rev ids).
Proof.
  intros K c cars pos d s c' at_ near limit k x HK D S SC ST A ids SU L X.
  destruct (at_position_spec K c cars pos d s D S SC) as [v [c2 [es [V [_ [A2 P]]]]]]. rewrite A in A2. injection A2 as <-.
  eapply again; eassumption.
Qed.
Theorem found_at_station : forall K c cars spos d s c' at_ near limit k x, 0 < K -> compass_point d -> sound c ->
  (forall s', s = Some s' -> forall i, In i (targets (s_locos s')) -> (i < fresh c)%nat) ->
  Forall (straight K) cars -> add_train_at_station K c cars true spos d s = (c', None) ->
  let ids := seq (fresh c) (length cars) in
  surroundings K at_ near c' ids -> (length cars <= limit)%nat -> nth_error cars k = Some x ->
  find_train_from_wagon K at_ near limit (fresh c + k) =
    Ok (if Bool.eqb (faces K x) (existsb (fun y => car_loco y && Bool.eqb (faces K y) (faces K x)) cars) then ids else rev ids).
Proof.
  intros K c cars spos d s c' at_ near limit k x HK D S SC ST A ids SU L X.
  destruct (at_station_spec K c cars spos d s D S SC) as [v [u [p [c2 [es [V [_ [_ [_ [A2 P]]]]]]]]]]. rewrite A in A2. injection A2 as <-.
  eapply again; eassumption.
Qed.
