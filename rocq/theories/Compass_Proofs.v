(** Proofs about directions and orientations. *)
From Coq Require Import ZArith List Bool Lia Reals Lra.
From Verif Require Import Common Compass_Model Compass_Spec.
Import ListNotations.
Local Open Scope Z_scope.

Lemma direction_ok : forall z d, direction z = Ok d <-> d = z /\ is_direction z.
Proof.
  intros z d. unfold direction, is_direction. destruct ((0 <=? z) && (z <? 16)) eqn:E.
  - apply andb_true_iff in E. destruct E as [A B]. apply Z.leb_le in A. apply Z.ltb_lt in B.
    split; [intros X; inversion X; lia|intros [-> _]; reflexivity].
  - split; [discriminate|]. intros [_ [A B]]. apply Z.leb_le in A. apply Z.ltb_lt in B. rewrite A, B in E. discriminate.
Qed.
Lemma direction_mod : forall z, direction (z mod 16) = Ok (z mod 16).
Proof. intros z. apply direction_ok. split; [reflexivity|]. apply Z.mod_pos_bound. lia. Qed.

Lemma opposite_spec : forall d, is_direction d -> exists d', opposite d = Ok d' /\ is_direction d' /\
  d' <> d /\ congruent 16 d' (d + 8) /\ opposite d' = Ok d.
Proof.
  intros d D. unfold opposite. rewrite direction_mod. eexists. split; [reflexivity|].
  split; [apply Z.mod_pos_bound; lia|]. unfold is_direction in D.
  pose proof (Z.div_mod (d + 8) 16 ltac:(lia)) as E. pose proof (Z.mod_pos_bound (d + 8) 16 ltac:(lia)) as B.
  split; [lia|]. split; [exists (- ((d + 8) / 16)); lia|]. rewrite direction_mod. f_equal.
  rewrite Zplus_mod_idemp_l. symmetry. apply Z.mod_unique_pos with (q := 1); lia.
Qed.
Lemma next_previous : forall four d, is_direction d -> exists n p,
  next four d = Ok n /\ previous four d = Ok p /\ is_direction n /\ is_direction p /\
  previous four n = Ok d /\ next four p = Ok d /\
  congruent 16 n (d + if four then 4 else 1) /\ congruent 16 p (d - if four then 4 else 1).
Proof.
  intros four d D. unfold next, previous. set (s := if four then 4 else 1).
  exists ((d + s) mod 16), ((d - s) mod 16). rewrite !direction_mod.
  assert (S : d mod 16 = d) by (apply Z.mod_small; exact D).
  repeat split; try apply Z.mod_pos_bound; try lia.
  - f_equal. rewrite Zminus_mod_idemp_l. replace (d + s - s) with d by lia. exact S.
  - f_equal. rewrite Zplus_mod_idemp_l. replace (d - s + s) with d by lia. exact S.
  - exists (- ((d + s) / 16)). pose proof (Z.div_mod (d + s) 16 ltac:(lia)). lia.
  - exists (- ((d - s) / 16)). pose proof (Z.div_mod (d - s) 16 ltac:(lia)). lia.
Qed.
Lemma steps_next : forall four n d, is_direction d ->
  steps (next four) n d = Ok ((d + Z.of_nat n * if four then 4 else 1) mod 16).
Proof.
  intros four n. induction n as [|n IH]; intros d D; cbn [steps].
  - f_equal. rewrite Z.mul_0_l, Z.add_0_r. symmetry. apply Z.mod_small. exact D.
  - unfold next at 1. rewrite direction_mod. cbn [bind]. rewrite IH by (apply Z.mod_pos_bound; lia).
    f_equal. rewrite Zplus_mod_idemp_l. f_equal. lia.
Qed.
Lemma steps_previous : forall four n d, is_direction d ->
  steps (previous four) n d = Ok ((d - Z.of_nat n * if four then 4 else 1) mod 16).
Proof.
  intros four n. induction n as [|n IH]; intros d D; cbn [steps].
  - f_equal. rewrite Z.mul_0_l, Z.sub_0_r. symmetry. apply Z.mod_small. exact D.
  - unfold previous at 1. rewrite direction_mod. cbn [bind]. rewrite IH by (apply Z.mod_pos_bound; lia).
    f_equal. rewrite Zminus_mod_idemp_l. f_equal. lia.
Qed.
Lemma steps_return : forall (four : bool) n d, is_direction d ->
  let p := if four then 4 else 16 in
  (steps (next four) n d = Ok d <-> congruent p (Z.of_nat n) 0) /\
  (steps (previous four) n d = Ok d <-> congruent p (Z.of_nat n) 0).
Proof.
  intros four n d D p. rewrite steps_next, steps_previous by exact D. unfold is_direction in D. split; split.
  - intros E. inversion E as [E']. pose proof (Z.div_mod (d + Z.of_nat n * (if four then 4 else 1)) 16 ltac:(lia)) as X.
    rewrite E' in X. exists ((d + Z.of_nat n * (if four then 4 else 1)) / 16). subst p. destruct four; lia.
  - intros [k E]. f_equal. symmetry. apply Z.mod_unique_pos with (q := k); [exact D|]. subst p. destruct four; lia.
  - intros E. inversion E as [E']. pose proof (Z.div_mod (d - Z.of_nat n * (if four then 4 else 1)) 16 ltac:(lia)) as X.
    rewrite E' in X. exists (- ((d - Z.of_nat n * (if four then 4 else 1)) / 16)). subst p. destruct four; lia.
  - intros [k E]. f_equal. symmetry. apply Z.mod_unique_pos with (q := - k); [exact D|]. subst p. destruct four; lia.
Qed.

Lemma directions : forall P : Z -> Prop, P 0 -> P 1 -> P 2 -> P 3 -> P 4 -> P 5 -> P 6 -> P 7 -> P 8 -> P 9 ->
  P 10 -> P 11 -> P 12 -> P 13 -> P 14 -> P 15 -> forall d, is_direction d -> P d.
Proof.
  intros P; intros. unfold is_direction in *.
  assert (C : d = 0 \/ d = 1 \/ d = 2 \/ d = 3 \/ d = 4 \/ d = 5 \/ d = 6 \/ d = 7 \/ d = 8 \/ d = 9 \/
    d = 10 \/ d = 11 \/ d = 12 \/ d = 13 \/ d = 14 \/ d = 15) by lia.
  repeat (destruct C as [->|C]; [assumption|]). subst. assumption.
Qed.

Lemma srt2_sq : (srt2 * srt2 = / 2)%R.
Proof.
  unfold srt2. rewrite <- Rinv_mult. rewrite sqrt_sqrt by lra. reflexivity.
Qed.
Lemma vector_opposite : forall d m, is_direction d -> exists d' v w,
  opposite d = Ok d' /\ to_vector m d = Ok v /\ to_vector m d' = Ok w /\ negated v w.
Proof.
  intros d m D. revert d D. apply directions; do 3 eexists; (split; [reflexivity|]); (split; [reflexivity|]); (split; [reflexivity|]);
    split; cbn [fst snd bind]; lra.
Qed.
Lemma vector_length : forall d m, is_direction d -> exists v, to_vector m d = Ok v /\
  (Z.Even d -> length_is v m) /\ (~ Z.Even d -> v = (0, 0)%R).
Proof.
  intros d m D. revert d D. pose proof srt2_sq as S.
  assert (NE : forall k, ~ Z.Even (2 * k + 1)) by (intros k [j E]; lia).
  assert (S1 : (srt2 * m * (srt2 * m) + srt2 * m * (srt2 * m) = m * m)%R).
  { replace (srt2 * m * (srt2 * m) + srt2 * m * (srt2 * m))%R with (srt2 * srt2 * (m * m) * 2)%R by ring. rewrite S. field. }
  apply directions; eexists; (split; [reflexivity|]); unfold length_is; cbn [fst snd bind]; split; intros H;
    try (exfalso; apply H; first [exists 0; reflexivity|exists 1; reflexivity|exists 2; reflexivity|exists 3; reflexivity
      |exists 4; reflexivity|exists 5; reflexivity|exists 6; reflexivity|exists 7; reflexivity]);
    try (exfalso; revert H; first [apply (NE 0)|apply (NE 1)|apply (NE 2)|apply (NE 3)|apply (NE 4)|apply (NE 5)|apply (NE 6)|apply (NE 7)]);
    try (f_equal; ring); try ring; rewrite <- S1; ring.
Qed.

(** ** Orientations *)
Lemma round_nearest : forall a b, 0 < b -> nearest a b (round_div a b).
Proof.
  intros a b B. unfold nearest, round_div. pose proof (Z.div_mod a b ltac:(lia)) as E. pose proof (Z.mod_pos_bound a b B) as M.
  destruct (2 * (a mod b) <? b) eqn:L; [apply Z.ltb_lt in L; left; lia|].
  apply Z.ltb_ge in L. destruct (b <? 2 * (a mod b)) eqn:G; [apply Z.ltb_lt in G; left; lia|].
  apply Z.ltb_ge in G. destruct (Z.even (a / b)) eqn:V.
  - right. split; [lia|]. apply Z.even_spec. exact V.
  - right. split; [lia|]. apply Z.even_spec. rewrite Z.even_add, V. reflexivity.
Qed.
Lemma nearest_unique : forall a b q q', 0 < b -> nearest a b q -> nearest a b q' -> q = q'.
Proof.
  intros a b q q' B N N'. unfold nearest in *.
  assert (D : Z.abs (q - q') * b <= Z.abs (a - q * b) + Z.abs (a - q' * b)).
  { rewrite <- (Z.abs_eq b) at 1 by lia. rewrite <- Z.abs_mul. replace ((q - q') * b) with ((a - q' * b) - (a - q * b)) by ring.
    lia. }
  destruct (Z.eq_dec q q') as [E|E]; [exact E|]. exfalso.
  assert (O : Z.abs (q - q') = 1) by nia. rewrite O in D.
  destruct N as [N|[N [j J]]]; destruct N' as [N'|[N' [j' J']]]; lia.
Qed.

Section O.
  Variable K : Z.
  Hypothesis Kpos : 0 < K.

  Lemma turn_pos : 0 < turn K.
  Proof. unfold turn. lia. Qed.
  Lemma value_range : forall o, 0 <= value K o < turn K.
  Proof. intros o. apply Z.mod_pos_bound. apply turn_pos. Qed.
  Lemma value_congruent : forall o, congruent (turn K) (value K o) (raw o).
  Proof.
    intros o. exists (- (raw o / turn K)). unfold value.
    pose proof (Z.div_mod (raw o) (turn K)) as E. pose proof turn_pos. lia.
  Qed.
  Lemma value_mod : forall z, value K (mkO (z mod turn K)) = value K (mkO z).
  Proof. intros z. unfold value. cbn [raw]. apply Zmod_mod. Qed.
  Lemma value_mkO : forall z, value K (mkO z) = z mod turn K.
  Proof. reflexivity. Qed.
  Lemma mod_congruent : forall a b, congruent (turn K) a b <-> a mod turn K = b mod turn K.
  Proof.
    intros a b. pose proof turn_pos. split.
    - intros [k ->]. replace (b + turn K * k) with (b + k * turn K) by lia. apply Z_mod_plus_full.
    - intros E. exists (a / turn K - b / turn K). pose proof (Z.div_mod a (turn K)) as A. pose proof (Z.div_mod b (turn K)) as B. lia.
  Qed.

  Lemma add_value : forall o b r, o_add K o b = Ok r ->
    exists x, (b = Flo x \/ exists p, b = Ori p /\ x = value K p) /\ value K r = (value K o + x) mod turn K.
  Proof.
    intros o [p|x|] r E; inversion E; subst; clear E.
    - exists (value K p). split; [right; eauto|reflexivity].
    - exists x. split; [left; reflexivity|reflexivity].
  Qed.
  Lemma eq_value : forall o p, o_eq K o p = true <-> congruent (turn K) (raw o) (raw p).
  Proof. intros o p. unfold o_eq. rewrite Z.eqb_eq, mod_congruent. reflexivity. Qed.

  Lemma value_add : forall o p, value K (mkO (value K o + value K p)) = (raw o + raw p) mod turn K.
  Proof. intros. rewrite value_mkO. unfold value. rewrite <- Zplus_mod. reflexivity. Qed.
  Lemma value_sub : forall o p, value K (mkO (value K o - value K p)) = (raw o - raw p) mod turn K.
  Proof. intros. rewrite value_mkO. unfold value. rewrite <- Zminus_mod. reflexivity. Qed.

  Definition plus (o p : orientation) : orientation := mkO (value K o + value K p).
  Definition minus (o p : orientation) : orientation := mkO (value K o - value K p).
  Lemma plus_ok : forall o p, o_add K o (Ori p) = Ok (plus o p). Proof. reflexivity. Qed.
  Lemma minus_ok : forall o p, o_sub K o (Ori p) = Ok (minus o p). Proof. reflexivity. Qed.
  Lemma value_plus : forall o p, value K (plus o p) = (value K o + value K p) mod turn K. Proof. reflexivity. Qed.
  Lemma value_minus : forall o p, value K (minus o p) = (value K o - value K p) mod turn K. Proof. reflexivity. Qed.
  Lemma value_idem : forall o, value K o mod turn K = value K o.
  Proof. intros o. apply Z.mod_small. apply value_range. Qed.

  Theorem group_laws : forall o p q,
    (0 <= value K o < turn K) /\
    (exists a, o_add K o (Ori p) = Ok a /\ o_add K p (Ori o) = Ok a) /\
    (exists ab bc l r, o_add K o (Ori p) = Ok ab /\ o_add K p (Ori q) = Ok bc /\
       o_add K ab (Ori q) = Ok l /\ o_add K o (Ori bc) = Ok r /\ o_eq K l r = true) /\
    (exists z, o_add K o (Ori (mkO 0)) = Ok z /\ o_eq K z o = true) /\
    (exists a b, o_add K o (Ori p) = Ok a /\ o_sub K a (Ori p) = Ok b /\ o_eq K b o = true) /\
    (exists a b, o_sub K o (Ori p) = Ok a /\ o_add K a (Ori p) = Ok b /\ o_eq K b o = true) /\
    (exists z, o_sub K o (Ori o) = Ok z /\ o_eq K z (mkO 0) = true).
  Proof.
    intros o p q. pose proof turn_pos as T. split; [apply value_range|]. unfold o_eq. split; [|split; [|split; [|split; [|split]]]].
    - exists (plus o p). split; [reflexivity|]. cbn [o_add]. f_equal. unfold plus. f_equal. lia.
    - exists (plus o p), (plus p q), (plus (plus o p) q), (plus o (plus p q)). do 4 (split; [reflexivity|]).
      apply Z.eqb_eq. rewrite !value_plus. rewrite Zplus_mod_idemp_l, Zplus_mod_idemp_r. f_equal. lia.
    - exists (plus o (mkO 0)). split; [reflexivity|]. apply Z.eqb_eq. rewrite value_plus, value_mkO, Zmod_0_l, Z.add_0_r. apply value_idem.
    - exists (plus o p), (minus (plus o p) p). do 2 (split; [reflexivity|]). apply Z.eqb_eq.
      rewrite value_minus, value_plus, Zminus_mod_idemp_l. replace (value K o + value K p - value K p) with (value K o) by lia. apply value_idem.
    - exists (minus o p), (plus (minus o p) p). do 2 (split; [reflexivity|]). apply Z.eqb_eq.
      rewrite value_plus, value_minus, Zplus_mod_idemp_l. replace (value K o - value K p + value K p) with (value K o) by lia. apply value_idem.
    - exists (minus o o). split; [reflexivity|]. apply Z.eqb_eq. rewrite value_minus, Z.sub_diag. reflexivity.
  Qed.
  (** With a plain number the result is the same as with the orientation of that
      number. *)
  Theorem number_operand : forall o x,
    (exists a b, o_add K o (Flo x) = Ok a /\ o_add K o (Ori (mkO x)) = Ok b /\ o_eq K a b = true) /\
    (exists a b, o_sub K o (Flo x) = Ok a /\ o_sub K o (Ori (mkO x)) = Ok b /\ o_eq K a b = true) /\
    (exists b, o_add K (mkO x) (Ori o) = Ok b /\ o_eq K (o_radd K x o) b = true) /\
    (exists b, o_sub K (mkO x) (Ori o) = Ok b /\ o_eq K (o_rsub K x o) b = true).
  Proof.
    intros o x. unfold o_eq.
    repeat split.
    - do 2 eexists. do 2 (split; [reflexivity|]). apply Z.eqb_eq. rewrite !value_mkO, Zplus_mod_idemp_r. reflexivity.
    - do 2 eexists. do 2 (split; [reflexivity|]). apply Z.eqb_eq. rewrite !value_mkO, Zminus_mod_idemp_r. reflexivity.
    - eexists. split; [reflexivity|]. apply Z.eqb_eq. unfold o_radd. rewrite !value_mkO, Zplus_mod_idemp_l. reflexivity.
    - eexists. split; [reflexivity|]. apply Z.eqb_eq. unfold o_rsub. rewrite !value_mkO, Zminus_mod_idemp_l. reflexivity.
  Qed.

  Theorem opposite_laws : forall o, o_eq K (o_opposite K (o_opposite K o)) o = true /\ o_eq K (o_opposite K o) o = false /\
    exists h, to_orientation K 8 = Ok h /\ o_add K o (Ori h) = Ok (mkO (value K o + 8 * K)) /\
      o_eq K (mkO (value K o + 8 * K)) (o_opposite K o) = true.
  Proof.
    intros o. pose proof turn_pos as T. unfold o_eq, o_opposite. rewrite !value_mod, !value_mkO.
    pose proof (value_range o) as R. split; [|split].
    - apply Z.eqb_eq. rewrite Zplus_mod_idemp_l. symmetry. apply Z.mod_unique_pos with (q := 1); [exact R|]. unfold turn. lia.
    - apply Z.eqb_neq. intros E. pose proof (Z.div_mod (value K o + 8 * K) (turn K) ltac:(lia)) as D. rewrite E in D.
      assert (X : 8 * K = turn K * ((value K o + 8 * K) / turn K)) by lia. unfold turn in X. 
      assert (Y : 8 = 16 * ((value K o + 8 * K) / turn K)) by (unfold turn; nia). lia.
    - exists (mkO (8 * K)). split; [reflexivity|]. split; [cbn [o_add]; do 3 f_equal|apply Z.eqb_refl].
      rewrite value_mkO. apply Z.mod_small. unfold turn. lia.
  Qed.

  Theorem to_direction_spec : forall sixteen o d,
    to_direction K sixteen o = Ok d <->
    is_direction d /\ (if sixteen then nearest (value K o) K d else exists q, d = 4 * q /\ nearest (value K o) (4 * K) q).
  Proof.
    intros sixteen o d. unfold to_direction. destruct sixteen; rewrite direction_ok.
    - split.
      + intros [-> D]. split; [exact D|]. apply round_nearest. exact Kpos.
      + intros [D N]. assert (E : round_div (value K o) K = d) by (eapply nearest_unique; [exact Kpos|apply round_nearest; exact Kpos|exact N]).
        rewrite E. auto.
    - split.
      + intros [-> D]. split; [exact D|]. eexists. split; [|apply round_nearest; lia]. lia.
      + intros [D [q [-> N]]]. assert (E : round_div (value K o) (4 * K) = q) by (eapply nearest_unique; [|apply round_nearest; lia|exact N]; lia).
        rewrite E. split; [lia|]. rewrite (Z.mul_comm q 4). exact D.
  Qed.
  (** Too close to a full turn: the nearest direction would be number 16. *)
  Theorem to_direction_fails : forall (sixteen : bool) o,
    (to_direction K sixteen o = Err ValueError <-> (if sixteen then 31 * K <= 2 * value K o else 14 * (2 * K) <= 2 * value K o)) /\
    ((exists d, to_direction K sixteen o = Ok d) <-> ~ (if sixteen then 31 * K <= 2 * value K o else 14 * (2 * K) <= 2 * value K o)).
  Proof.
    intros sixteen o. pose proof (value_range o) as R. unfold turn in R.
    assert (H : forall z, direction z = Err ValueError <-> ~ is_direction z).
    { intros z. destruct (direction z) as [d|e] eqn:E.
      - split; [discriminate|]. intros N. apply direction_ok in E. tauto.
      - unfold direction in E. unfold is_direction. destruct ((0 <=? z) && (z <? 16)) eqn:F; [discriminate|]. inversion E.
        split; [|reflexivity]. intros _ [A B]. apply Z.leb_le in A. apply Z.ltb_lt in B. rewrite A, B in F. discriminate. }
    assert (G : forall z, (exists d, direction z = Ok d) <-> is_direction z).
    { intros z. split; [intros [d E]; apply direction_ok in E; tauto|]. intros D. exists z. apply direction_ok. auto. }
    unfold to_direction. destruct sixteen.
    - rewrite H, G. pose proof (round_nearest (value K o) K Kpos) as N. set (q := round_div (value K o) K) in *.
      unfold is_direction, nearest in *.
      assert (Q : q <= 15 \/ q = 16) by nia. assert (Q0 : 0 <= q) by nia.
      assert (Z : q = 16 <-> 31 * K <= 2 * value K o).
      { split; [intros Q1; rewrite Q1 in N; destruct N as [N|[N _]]; lia|]. intros L. destruct Q as [Q|Q]; [|exact Q]. exfalso.
        destruct N as [N|[N [j J]]]; [nia|]. assert (q <= 14) by lia. nia. }
      split; split; intros X; lia.
    - rewrite H, G. pose proof (round_nearest (value K o) (4 * K) ltac:(lia)) as N. set (q := round_div (value K o) (4 * K)) in *.
      unfold is_direction, nearest in *.
      assert (Q : q <= 3 \/ q = 4) by nia. assert (Q0 : 0 <= q) by nia.
      assert (Z : q = 4 <-> 14 * (2 * K) <= 2 * value K o).
      { split; [intros Q1; rewrite Q1 in N; destruct N as [N|[N _]]; lia|]. intros L. destruct Q as [Q|Q]; [|exact Q]. exfalso.
        destruct N as [N|[N [j J]]]; [nia|]. assert (q <= 2) by lia. nia. }
      split; split; intros X; lia.
  Qed.

  Lemma value_small : forall z, 0 <= z < turn K -> value K (mkO z) = z.
  Proof. intros z Z. rewrite value_mkO. apply Z.mod_small. exact Z. Qed.

  Theorem to_orientation_spec : forall d, is_direction d ->
    (forall o, to_orientation K d = Ok o <-> (Z.Even d /\ o = mkO (d * K))) /\
    (~ Z.Even d -> to_orientation K d = Err KeyError).
  Proof.
    assert (NE : forall k, ~ Z.Even (2 * k + 1)) by (intros k [j E]; lia).
    apply directions; (split; [intros o; split|]).
    all: try (intros E; inversion E; subst; split; [first [exists 0; reflexivity|exists 1; reflexivity|exists 2; reflexivity|exists 3; reflexivity
      |exists 4; reflexivity|exists 5; reflexivity|exists 6; reflexivity|exists 7; reflexivity]|reflexivity]).
    all: try (intros [E _]; exfalso; revert E; first [apply (NE 0)|apply (NE 1)|apply (NE 2)|apply (NE 3)|apply (NE 4)|apply (NE 5)|apply (NE 6)|apply (NE 7)]).
    all: try (intros [_ ->]; reflexivity).
    all: try (intros E; discriminate E).
    all: try (intros _; reflexivity).
    all: intros X; exfalso; apply X; first [exists 0; reflexivity|exists 1; reflexivity|exists 2; reflexivity|exists 3; reflexivity
      |exists 4; reflexivity|exists 5; reflexivity|exists 6; reflexivity|exists 7; reflexivity].
  Qed.
  Theorem direction_roundtrip : forall d, compass_point d -> exists o, to_orientation K d = Ok o /\
    value K o = d * K /\ to_direction K true o = Ok d /\
    ((exists q, d = 4 * q) -> to_direction K false o = Ok d) /\
    (forall p, to_orientation K d = Ok p -> p = o).
  Proof.
    intros d [D E]. exists (mkO (d * K)). unfold is_direction in D.
    assert (V : value K (mkO (d * K)) = d * K) by (apply value_small; unfold turn; nia).
    pose proof (proj1 (to_orientation_spec d D)) as S.
    split; [apply S; auto|]. split; [exact V|]. split; [|split].
    - apply to_direction_spec. split; [exact D|]. left. rewrite V, Z.sub_diag. change (Z.abs 0) with 0. lia.
    - intros [q Q]. apply to_direction_spec. split; [exact D|]. exists q. split; [exact Q|]. left. rewrite V.
      replace (d * K - q * (4 * K)) with 0 by (subst; ring). change (Z.abs 0) with 0. lia.
    - intros p P. apply S in P. apply P.
  Qed.
  (** Four-way conversion of a diagonal is a tie: it goes to the even multiple. *)
  Theorem diagonal_tie : forall q, 0 <= q < 4 -> exists o, to_orientation K (4 * q + 2) = Ok o /\
    to_direction K false o = (if q =? 3 then Err ValueError else Ok (if Z.even q then 4 * q else 4 * q + 4)).
  Proof.
    intros q Q. assert (C : q = 0 \/ q = 1 \/ q = 2 \/ q = 3) by lia.
    assert (X : forall r, 0 <= r < 4 -> to_direction K false (mkO ((4 * r + 2) * K)) = direction ((if Z.even r then r else r + 1) * 4)).
    { intros r R. unfold to_direction. f_equal. f_equal. rewrite value_small by (unfold turn; nia).
      apply (nearest_unique ((4 * r + 2) * K) (4 * K)); [lia|apply round_nearest; lia|]. right.
      destruct (Z.even r) eqn:V.
      - split; [rewrite Z.abs_eq by nia; nia|apply Z.even_spec; exact V].
      - split; [rewrite Z.abs_neq by nia; nia|apply Z.even_spec; rewrite Z.even_add, V; reflexivity]. }
    destruct C as [->|[->|[->| ->]]]; eexists; (split; [reflexivity|]).
    - exact (X 0 ltac:(lia)).
    - exact (X 1 ltac:(lia)).
    - exact (X 2 ltac:(lia)).
    - exact (X 3 ltac:(lia)).
  Qed.

  (** Comparisons agree when both numbers were given within one turn. *)
  Theorem comparisons : forall o p, 0 <= raw o < turn K -> 0 <= raw p < turn K ->
    o_le o p = (o_lt K o p || o_eq K o p) /\ o_ge o p = negb (o_lt K o p) /\ o_gt o p = o_lt K p o.
  Proof.
    intros [a] [b] A B. cbn [raw] in *. unfold o_le, o_ge, o_gt, o_lt, o_eq. rewrite !value_small by assumption. cbn [raw].
    repeat split.
    - apply eq_true_iff_eq. rewrite orb_true_iff, Z.leb_le, Z.ltb_lt, Z.eqb_eq. lia.
    - apply eq_true_iff_eq. rewrite negb_true_iff, Z.leb_le, Z.ltb_ge. lia.
  Qed.
End O.

(** ** LegacyDirection *)
Lemma legacy_eighths : forall eight d, is_eighth d -> exists o n p,
  legacy_opposite d = Ok o /\ legacy_next eight d = Ok n /\ legacy_previous eight d = Ok p /\
  is_eighth o /\ is_eighth n /\ is_eighth p /\
  legacy_opposite o = Ok d /\ legacy_previous eight n = Ok d /\ legacy_next eight p = Ok d /\
  congruent 8 o (d + 4) /\ congruent 8 n (d + if eight then 1 else 2) /\ congruent 8 p (d - if eight then 1 else 2).
Proof.
  intros eight d H. unfold is_eighth in *.
  assert (C : d = 0 \/ d = 1 \/ d = 2 \/ d = 3 \/ d = 4 \/ d = 5 \/ d = 6 \/ d = 7) by lia.
  assert (Q : forall a b k, a = b + 8 * k -> congruent 8 a b).
  { intros a b k ->. unfold congruent. try (exists k; lia); try (exists (- k); lia). }
  destruct C as [->|[->|[->|[->|[->|[->|[->| ->]]]]]]]; destruct eight;
    (do 3 eexists; split; [reflexivity|]; split; [reflexivity|]; split; [reflexivity|];
     do 3 (split; [vm_compute; split; [discriminate|reflexivity]|]); split; [reflexivity|]; split; [reflexivity|]; split; [reflexivity|];
     split; [|split]; first [apply (Q _ _ 0); reflexivity|apply (Q _ _ 1); reflexivity|apply (Q _ _ (-1)); reflexivity]).
Qed.
