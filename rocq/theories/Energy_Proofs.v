(** Proofs about [parse_energy]. *)
From Coq Require Import ZArith NArith QArith Qabs Lqa List Bool Lia.
From Verif Require Import Common Version_Model Version_Proofs Energy_Model Energy_Spec.
Import ListNotations.
Local Open Scope Z_scope.

Lemma nearest_even_err : forall n d, 0 < d -> Z.abs (2 * (d * nearest_even n d - n)) <= d.
Proof.
  intros n d D. unfold nearest_even. pose proof (Z.div_mod n d ltac:(lia)). pose proof (Z.mod_pos_bound n d D).
  destruct (Z.ltb_spec (2 * (n mod d)) d); [nia|]. destruct (Z.ltb_spec d (2 * (n mod d))); [nia|]. destruct (Z.even (n / d)); nia.
Qed.

(** The value of a dyadic number as a fraction. *)
Definition num (a : dyadic) : Z := if 0 <=? expo a then mant a * 2 ^ expo a else mant a.
Definition den (a : dyadic) : Z := if 0 <=? expo a then 1 else 2 ^ (- expo a).
Lemma den_pos : forall a, 0 < den a.
Proof. intros a. unfold den. destruct (Z.leb_spec 0 (expo a)); [lia|]. apply Z.pow_pos_nonneg; lia. Qed.

Lemma scale_bounds : forall n d, 0 < d -> n <> 0 ->
  let k := Z.log2 (Z.abs n) - Z.log2 d in
  let e := if (if 0 <=? k then d * 2 ^ k <=? Z.abs n else d <=? Z.abs n * 2 ^ (- k)) then k - 52 else k - 53 in
  if 0 <=? e then d * 2 ^ e * 2 ^ 52 <= Z.abs n else d * 2 ^ 52 <= Z.abs n * 2 ^ (- e).
Proof.
  intros n d D N k e.
  assert (LN : 2 ^ Z.log2 (Z.abs n) <= Z.abs n < 2 ^ Z.succ (Z.log2 (Z.abs n))) by (apply Z.log2_spec; lia).
  assert (LD : 2 ^ Z.log2 d <= d < 2 ^ Z.succ (Z.log2 d)) by (apply Z.log2_spec; lia).
  pose proof (Z.log2_nonneg (Z.abs n)). pose proof (Z.log2_nonneg d).
  set (a := Z.log2 (Z.abs n)) in *. set (b := Z.log2 d) in *. set (x := Z.abs n) in *.
  (* d * 2^(k-1) <= x in the form scaled by a power large enough *)
  assert (B : d * 2 ^ a <= 2 * (x * 2 ^ b)).
  { rewrite Z.pow_succ_r in LD by lia. assert (0 < 2 ^ b) by (apply Z.pow_pos_nonneg; lia). assert (0 < 2 ^ a) by (apply Z.pow_pos_nonneg; lia). nia. }
  (* whatever e is: d * 2^(e+52) <= x *)
  assert (G : if (if 0 <=? k then d * 2 ^ k <=? x else d <=? x * 2 ^ (- k)) then d * 2 ^ a <= x * 2 ^ b else True).
  { destruct (Z.leb_spec 0 k) as [K|K].
    - destruct (Z.leb_spec (d * 2 ^ k) x) as [L|L]; [|exact I]. replace a with (k + b) by lia. rewrite Z.pow_add_r by lia.
      assert (0 < 2 ^ b) by (apply Z.pow_pos_nonneg; lia). nia.
    - destruct (Z.leb_spec d (x * 2 ^ (- k))) as [L|L]; [|exact I]. replace b with (a + - k) by lia. rewrite Z.pow_add_r by lia.
      assert (0 < 2 ^ a) by (apply Z.pow_pos_nonneg; lia). nia. }
  assert (E : exists t, (t = 0 \/ t = 1) /\ e = k - 52 - t /\ d * 2 ^ a <= 2 ^ t * (x * 2 ^ b)).
  { unfold e. destruct (if 0 <=? k then _ else _).
    - exists 0. change (2 ^ 0) with 1. repeat split; [auto|lia|lia].
    - exists 1. change (2 ^ 1) with 2. repeat split; [auto|lia|lia]. }
  destruct E as (t & T & E & F). clearbody e. clear G B LN LD.
  (* 2^a * 2^? *)
  assert (E' : e + 52 + b + t = a) by lia.
  destruct (Z.leb_spec 0 e) as [Z0|Z0].
  - replace (d * 2 ^ e * 2 ^ 52) with (d * 2 ^ (e + 52)) by (rewrite Z.pow_add_r by lia; ring).
    assert (P : 2 ^ a = 2 ^ (e + 52) * 2 ^ b * 2 ^ t) by (rewrite <- !Z.pow_add_r by lia; f_equal; lia).
    rewrite P in F. assert (0 < 2 ^ b) by (apply Z.pow_pos_nonneg; lia). assert (0 < 2 ^ t) by (apply Z.pow_pos_nonneg; lia).
    assert (Q : (d * 2 ^ (e + 52)) * (2 ^ b * 2 ^ t) <= x * (2 ^ b * 2 ^ t)) by nia.
    apply Z.mul_le_mono_pos_r in Q; [exact Q|nia].
  - assert (P : 2 ^ a * 2 ^ (- e) = 2 ^ 52 * 2 ^ b * 2 ^ t) by (rewrite <- !Z.pow_add_r by lia; f_equal; lia).
    assert (0 < 2 ^ b) by (apply Z.pow_pos_nonneg; lia). assert (0 < 2 ^ t) by (apply Z.pow_pos_nonneg; lia).
    assert (0 < 2 ^ (- e)) by (apply Z.pow_pos_nonneg; lia).
    assert (Q : (d * 2 ^ 52) * (2 ^ b * 2 ^ t) <= (x * 2 ^ (- e)) * (2 ^ b * 2 ^ t)).
    { replace ((d * 2 ^ 52) * (2 ^ b * 2 ^ t)) with (d * (2 ^ a * 2 ^ (- e))) by (rewrite P; ring).
      replace (x * 2 ^ (- e) * (2 ^ b * 2 ^ t)) with ((2 ^ t * (x * 2 ^ b)) * 2 ^ (- e)) by ring.
      replace (d * (2 ^ a * 2 ^ (- e))) with ((d * 2 ^ a) * 2 ^ (- e)) by ring.
      apply Z.mul_le_mono_nonneg_r; [lia|exact F]. }
    apply Z.mul_le_mono_pos_r in Q; [exact Q|nia].
Qed.

Lemma fl_close : forall n d, 0 < d -> Z.abs (num (fl n d) * d - n * den (fl n d)) * 2 ^ 53 <= Z.abs n * den (fl n d).
Proof.
  intros n d D. unfold fl. destruct (Z.eqb_spec n 0) as [->|N]; [vm_compute; discriminate|].
  pose proof (scale_bounds n d D N) as S. cbv zeta in S. cbv zeta.
  match type of S with (if 0 <=? ?e0 then _ else _) => set (e := e0) in *; clearbody e end.
  unfold num, den. cbn [mant expo]. destruct (Z.leb_spec 0 e) as [L|L].
  - assert (P : 0 < 2 ^ e) by (apply Z.pow_pos_nonneg; lia).
    pose proof (nearest_even_err n (d * 2 ^ e) ltac:(nia)) as R. set (m := nearest_even n (d * 2 ^ e)) in *.
    replace (m * 2 ^ e * d - n * 1) with (d * 2 ^ e * m - n) by ring.
    change (2 ^ 53) with (2 * 2 ^ 52). rewrite Z.abs_mul in R. change (Z.abs 2) with 2 in R. nia.
  - pose proof (nearest_even_err (n * 2 ^ (- e)) d D) as R. set (m := nearest_even (n * 2 ^ (- e)) d) in *.
    replace (m * d - n * 2 ^ (- e)) with (d * m - n * 2 ^ (- e)) by ring.
    change (2 ^ 53) with (2 * 2 ^ 52). rewrite Z.abs_mul in R. change (Z.abs 2) with 2 in R. nia.
Qed.

(** Values and relative errors as rational numbers. *)
Local Open Scope Q_scope.
Definition frac (n d : Z) : Q := inject_Z n / inject_Z d.
Definition val (a : dyadic) : Q := frac (num a) (den a).
Definition u53 : Q := 1 # 9007199254740992.
Definition approx (v x k : Q) : Prop := exists r, - (k * u53) <= r <= k * u53 /\ v == x * (1 + r).

Lemma inj_pos : forall d, (0 < d)%Z -> 0 < inject_Z d.
Proof. intros d D. rewrite Zlt_Qlt in D. exact D. Qed.
Lemma frac_mul : forall n d m e, (0 < d)%Z -> (0 < e)%Z -> frac n d * frac m e == frac (n * m) (d * e).
Proof.
  intros n d m e D E. unfold frac. rewrite !inject_Z_mult. apply inj_pos in D, E. field. split; lra.
Qed.

Lemma fl_approx : forall n d, (0 < d)%Z -> approx (val (fl n d)) (frac n d) 1.
Proof.
  intros n d D. pose proof (fl_close n d D) as C. pose proof (den_pos (fl n d)) as B.
  unfold val. set (A := num (fl n d)) in *. set (b := den (fl n d)) in *. clearbody A b.
  destruct (Z.eq_dec n 0) as [->|N].
  - exists 0. split; [unfold u53; lra|]. assert (A = 0)%Z by nia. subst A. unfold frac. apply inj_pos in D, B. field. split; lra.
  - exists (frac (A * d - n * b) (n * b)). pose proof (inj_pos _ D) as D'. pose proof (inj_pos _ B) as B'.
    assert (N' : ~ inject_Z n == 0) by (intros H; apply N; rewrite <- (inject_Z_injective n 0); exact H).
    split.
    + assert (M : (Z.abs (A * d - n * b) * 2 ^ 53 <= Z.abs (n * b))%Z) by (rewrite (Z.abs_mul n b), (Z.abs_eq b) by lia; exact C).
      assert (NB : (n * b <> 0)%Z) by nia.
      assert (Qle (Qabs (frac (A * d - n * b) (n * b))) (1 * u53)) as H.
      { unfold frac, Qdiv. rewrite Qabs_Qmult, Qabs_Qinv.
        apply Qle_shift_div_r.
        - change (Qabs (inject_Z (n * b))) with (inject_Z (Z.abs (n * b))). apply inj_pos. lia.
        - change (Qabs (inject_Z (n * b))) with (inject_Z (Z.abs (n * b))). change (Qabs (inject_Z (A * d - n * b))) with (inject_Z (Z.abs (A * d - n * b))).
          rewrite Zle_Qle, inject_Z_mult in M. change (inject_Z (2 ^ 53)) with (9007199254740992 # 1) in M.
          unfold u53. lra. }
      apply Qabs_Qle_condition in H. lra.
    + unfold frac. unfold Z.sub. rewrite inject_Z_plus, inject_Z_opp, !inject_Z_mult. field. repeat split; try lra; assumption.
Qed.

Lemma approx_trans : forall v w x k j, 0 <= k <= 8 -> 0 <= j <= 8 -> approx v w k -> approx w x j -> approx v x (k + j + (1 # 8)).
Proof.
  intros v w x k j K J (r & R & E) (t & T & F). exists (r + t + r * t). split.
  - unfold u53 in *. assert (- (8 # 9007199254740992) <= r <= 8 # 9007199254740992) by lra. assert (- (8 # 9007199254740992) <= t <= 8 # 9007199254740992) by lra. nra.
  - rewrite E, F. ring.
Qed.
Lemma approx_mult : forall v w x y k j, 0 <= k <= 8 -> 0 <= j <= 8 -> approx v x k -> approx w y j -> approx (v * w) (x * y) (k + j + (1 # 8)).
Proof.
  intros v w x y k j K J (r & R & E) (t & T & F). exists (r + t + r * t). split.
  - unfold u53 in *. assert (- (8 # 9007199254740992) <= r <= 8 # 9007199254740992) by lra. assert (- (8 # 9007199254740992) <= t <= 8 # 9007199254740992) by lra. nra.
  - rewrite E, F. ring.
Qed.

Lemma fmul_approx : forall a b, approx (val (fmul a b)) (val a * val b) 1.
Proof.
  intros a b. unfold fmul. set (m := (mant a * mant b)%Z). set (e := (expo a + expo b)%Z).
  assert (V : val a * val b == if (0 <=? e)%Z then frac (m * 2 ^ e) 1 else frac m (2 ^ (- e))).
  { pose proof (den_pos a) as Da. pose proof (den_pos b) as Db. unfold val. rewrite frac_mul by assumption.
    apply inj_pos in Da, Db. unfold frac.
    assert (G : forall n d n' d', (0 < d -> 0 < d' -> n * d' = n' * d -> inject_Z n / inject_Z d == inject_Z n' / inject_Z d')%Z).
    { intros n d n' d' D D' H. apply inj_pos in D, D'. assert (H' : inject_Z n * inject_Z d' == inject_Z n' * inject_Z d) by (rewrite <- !inject_Z_mult, H; reflexivity).
      setoid_replace (inject_Z n) with (inject_Z n' * inject_Z d / inject_Z d'); [field; split; lra|]. rewrite <- H'. field. lra. }
    assert (0 < den a * den b)%Z by (pose proof (den_pos a); pose proof (den_pos b); nia).
    destruct (Z.leb_spec 0 e) as [L|L]; apply G; try assumption; try (apply Z.pow_pos_nonneg; lia); try lia;
    unfold num, den, m, e in *; destruct (Z.leb_spec 0 (expo a)) as [A|A]; destruct (Z.leb_spec 0 (expo b)) as [B|B]; try lia.
    - rewrite Z.pow_add_r by lia. ring.
    - replace (mant a * mant b * 2 ^ (expo a + expo b) * (1 * 2 ^ (- expo b)))%Z with (mant a * mant b * (2 ^ (expo a + expo b) * 2 ^ (- expo b)))%Z by ring.
      rewrite <- Z.pow_add_r by lia. replace (expo a + expo b + - expo b)%Z with (expo a) by lia. ring.
    - replace (mant a * mant b * 2 ^ (expo a + expo b) * (2 ^ (- expo a) * 1))%Z with (mant a * mant b * (2 ^ (expo a + expo b) * 2 ^ (- expo a)))%Z by ring.
      rewrite <- Z.pow_add_r by lia. replace (expo a + expo b + - expo a)%Z with (expo b) by lia. ring.
    - replace (2 ^ (- expo b))%Z with (2 ^ expo a * 2 ^ (- (expo a + expo b)))%Z by (rewrite <- Z.pow_add_r by lia; f_equal; lia). ring.
    - replace (2 ^ (- expo a))%Z with (2 ^ expo b * 2 ^ (- (expo a + expo b)))%Z by (rewrite <- Z.pow_add_r by lia; f_equal; lia). ring.
    - replace (2 ^ (- (expo a + expo b)))%Z with (2 ^ (- expo a) * 2 ^ (- expo b))%Z by (rewrite <- Z.pow_add_r by lia; f_equal; lia). ring. }
  destruct (Z.leb_spec 0 e) as [L|L].
  - destruct (fl_approx (m * 2 ^ e) 1 ltac:(lia)) as (r & R & E). exists r. split; [exact R|]. rewrite E, V. reflexivity.
  - destruct (fl_approx m (2 ^ (- e)) ltac:(apply Z.pow_pos_nonneg; lia)) as (r & R & E). exists r. split; [exact R|]. rewrite E, V. reflexivity.
Qed.

Lemma fround_close : forall a, Qabs (inject_Z (fround a) - val a) <= 1 # 2.
Proof.
  intros a. unfold fround, val, num, den, frac. destruct (Z.leb_spec 0 (expo a)) as [L|L].
  - setoid_replace (inject_Z (mant a * 2 ^ expo a) - inject_Z (mant a * 2 ^ expo a) / inject_Z 1) with 0 by (change (inject_Z 1) with 1; field).
    change (Qabs 0) with 0. lra.
  - assert (P : (0 < 2 ^ (- expo a))%Z) by (apply Z.pow_pos_nonneg; lia).
    pose proof (nearest_even_err (mant a) _ P) as R. set (d := (2 ^ (- expo a))%Z) in *. set (r := nearest_even (mant a) d) in *.
    clearbody d r. pose proof (inj_pos _ P) as P'.
    setoid_replace (inject_Z r - inject_Z (mant a) / inject_Z d) with (inject_Z (d * r - mant a) / inject_Z d)
      by (unfold Z.sub; rewrite inject_Z_plus, inject_Z_opp, inject_Z_mult; field; lra).
    unfold Qdiv. rewrite Qabs_Qmult, Qabs_Qinv. apply Qle_shift_div_r; rewrite (Qabs_pos (inject_Z d)) by lra; [assumption|].
    change (Qabs (inject_Z (d * r - mant a))) with (inject_Z (Z.abs (d * r - mant a))).
    rewrite Z.abs_mul in R. rewrite Zle_Qle, inject_Z_mult in R. change (inject_Z (Z.abs 2)) with 2 in R. lra.
Qed.

Lemma too_large_val : forall a, too_large a = false <-> Qabs (val a) < inject_Z (2 ^ 1024).
Proof.
  intros a. unfold too_large, val, num, den, frac. remember (2 ^ 1024)%Z as big. destruct (Z.leb_spec 0 (expo a)) as [L|L].
  - rewrite Z.leb_gt. setoid_replace (inject_Z (mant a * 2 ^ expo a) / inject_Z 1) with (inject_Z (mant a * 2 ^ expo a)) by (change (inject_Z 1) with 1; field).
    change (Qabs (inject_Z (mant a * 2 ^ expo a))) with (inject_Z (Z.abs (mant a * 2 ^ expo a))). rewrite <- Zlt_Qlt, Z.abs_mul.
    rewrite (Z.abs_eq (2 ^ expo a)) by (apply Z.pow_nonneg; lia). reflexivity.
  - rewrite Z.leb_gt. assert (P : (0 < 2 ^ (- expo a))%Z) by (apply Z.pow_pos_nonneg; lia). set (d := (2 ^ (- expo a))%Z) in *. clearbody d.
    pose proof (inj_pos _ P) as P'. unfold Qdiv. rewrite Qabs_Qmult, Qabs_Qinv, (Qabs_pos (inject_Z d)) by lra.
    change (Qabs (inject_Z (mant a))) with (inject_Z (Z.abs (mant a))).
    rewrite Zlt_Qlt, inject_Z_mult. split; intros H.
    + apply Qlt_shift_div_r; assumption.
    + apply (Qmult_lt_r _ _ (inject_Z d)) in H; [|assumption]. setoid_replace (inject_Z (Z.abs (mant a)) * / inject_Z d * inject_Z d) with (inject_Z (Z.abs (mant a))) in H by (field; lra). exact H.
Qed.

Definition power (k : option Z) : Z := match k with None => 1 | Some k => 10 ^ k end.

Lemma watts_approx : forall k n, (match k with Some k => 0 <= k | None => True end)%Z ->
  approx (val (fmul (fl n 1) (match k with None => fl 1 60 | Some k => fmul (fl 1 60) (fl (10 ^ k) 1) end)))
         (frac (n * power k) 60) 6.
Proof.
  intros k n K.
  assert (W : forall v x a b, approx v x a -> a <= b -> approx v x b).
  { intros v x a b (r & R & E) L. exists r. split; [|exact E]. unfold u53 in *. lra. }
  assert (M : approx (val (match k with None => fl 1 60 | Some k => fmul (fl 1 60) (fl (10 ^ k) 1) end)) (frac (power k) 60) (13 # 4)).
  { destruct k as [k|].
    - eapply W; [eapply approx_trans; [| |apply fmul_approx|]; [lra| |]; cycle 1|].
      + pose proof (approx_mult _ _ _ _ 1 1 ltac:(lra) ltac:(lra) (fl_approx 1 60 ltac:(lia)) (fl_approx (10 ^ k) 1 ltac:(lia))) as P.
        destruct P as (r & R & E). exists r. split; [exact R|]. rewrite E. rewrite frac_mul by lia. rewrite Z.mul_1_l, Z.mul_1_r. reflexivity.
      + lra.
      + lra.
    - eapply W; [apply fl_approx; lia|lra]. }
  set (mult := match k with None => fl 1 60 | Some k => fmul (fl 1 60) (fl (10 ^ k) 1) end) in *. clearbody mult.
  eapply W; [eapply approx_trans; [| |apply fmul_approx|]; [lra| |]; cycle 1|].
  - pose proof (approx_mult _ _ _ _ 1 (13 # 4) ltac:(lra) ltac:(lra) (fl_approx n 1 ltac:(lia)) M) as P.
    destruct P as (r & R & E). exists r. split; [exact R|]. rewrite E. rewrite frac_mul by lia. rewrite Z.mul_1_l. reflexivity.
  - lra.
  - lra.
Qed.

(** The result lies within half a unit and a relative error of 2^-50 of the exact
    value. *)
Lemma watts_close : forall k n r, (match k with Some k => 0 <= k | None => True end)%Z ->
  scaled true k n = Ok r -> (2 ^ 50 * (Z.abs (60 * r - n * power k) - 30) <= Z.abs (n * power k))%Z.
Proof.
  intros k n r K H. unfold scaled in H. destruct (too_large (fl n 1)); [discriminate|]. cbv zeta in H.
  destruct (watts_approx k n K) as (e & E & V).
  set (x := fmul (fl n 1) _) in *. destruct (too_large x); [discriminate|]. injection H as H.
  pose proof (fround_close x) as C. rewrite H in C. rewrite V in C.
  set (N := (n * power k)%Z) in *. clearbody N x. clear V H K k n.
  assert (D : inject_Z (Z.abs (60 * r - N)) <= 30 + inject_Z (Z.abs N) * (6 # 9007199254740992)).
  { change (inject_Z (Z.abs (60 * r - N))) with (Qabs (inject_Z (60 * r - N))).
    setoid_replace (inject_Z (60 * r - N)) with (60 * (inject_Z r - frac N 60 * (1 + e)) + inject_Z N * e)
      by (unfold frac, Z.sub; rewrite inject_Z_plus, inject_Z_opp, inject_Z_mult; change (inject_Z 60) with 60; field).
    eapply Qle_trans; [apply Qabs_triangle|]. rewrite !Qabs_Qmult. change (Qabs 60) with 60.
    change (Qabs (inject_Z N)) with (inject_Z (Z.abs N)).
    assert (B : Qabs e <= 6 # 9007199254740992) by (apply Qabs_Qle_condition; unfold u53 in E; lra).
    assert (0 <= inject_Z (Z.abs N)) by (apply (Qle_trans _ (Qabs (inject_Z N))); [apply Qabs_nonneg|apply Qle_refl]).
    assert (inject_Z (Z.abs N) * Qabs e <= inject_Z (Z.abs N) * (6 # 9007199254740992)).
    { rewrite !(Qmult_comm (inject_Z (Z.abs N))). apply Qmult_le_compat_r; assumption. }
    lra. }
  rewrite Zle_Qle, inject_Z_mult. unfold Z.sub at 1. rewrite inject_Z_plus. change (inject_Z (2 ^ 50)) with (1125899906842624 # 1). change (inject_Z (- (30))) with (- (30 # 1)).
  assert (0 <= inject_Z (Z.abs N)) by (apply (Qle_trans _ (Qabs (inject_Z N))); [apply Qabs_nonneg|apply Qle_refl]).
  lra.
Qed.

Lemma approx_bound : forall v x k b, 0 <= k <= 8 -> approx v x k -> Qabs x <= b -> Qabs v <= 2 * b.
Proof.
  intros v x k b K (r & R & E) B. rewrite E, Qabs_Qmult.
  assert (Qabs (1 + r) <= 2) by (apply Qabs_Qle_condition; unfold u53 in R; lra).
  pose proof (Qabs_nonneg x). pose proof (Qabs_nonneg (1 + r)). nra.
Qed.
Lemma watts_total : forall k n, (match k with Some k => 0 <= k <= 24 | None => True end)%Z -> (Z.abs n < 2 ^ 900)%Z ->
  exists r, scaled true k n = Ok r.
Proof.
  intros k n K N. unfold scaled. cbv zeta.
  assert (P : (0 < power k <= 10 ^ 24)%Z).
  { destruct k as [k|]; cbn [power]; [|split; [reflexivity|discriminate]]. split; [apply Z.pow_pos_nonneg; lia|]. apply Z.pow_le_mono_r; lia. }
  assert (T : forall a x j, 0 <= j <= 8 -> approx (val a) x j -> Qabs x <= inject_Z (2 ^ 1000) -> too_large a = false).
  { intros a x j J A B. apply too_large_val. eapply Qle_lt_trans; [eapply approx_bound; eassumption|].
    change 2 with (inject_Z 2). rewrite <- inject_Z_mult, <- Zlt_Qlt. reflexivity. }
  rewrite (T _ _ 1 ltac:(lra) (fl_approx n 1 ltac:(lia))).
  2:{ unfold frac. setoid_replace (inject_Z n / inject_Z 1) with (inject_Z n) by (change (inject_Z 1) with 1; field).
      change (Qabs (inject_Z n)) with (inject_Z (Z.abs n)). rewrite <- Zle_Qle. apply Z.lt_le_incl. eapply Z.lt_trans; [exact N|reflexivity]. }
  pose proof (watts_approx k n ltac:(destruct k; [lia|exact I])) as W.
  rewrite (T _ _ 6 ltac:(lra) W).
  2:{ unfold frac, Qdiv. rewrite Qabs_Qmult. change (Qabs (/ inject_Z 60)) with (1 # 60). change (Qabs (inject_Z (n * power k))) with (inject_Z (Z.abs (n * power k))).
      assert (B : (Z.abs (n * power k) <= 2 ^ 1000)%Z).
      { rewrite Z.abs_mul, (Z.abs_eq (power k)) by lia. change (2 ^ 1000)%Z with (2 ^ 900 * 2 ^ 100)%Z.
        assert (10 ^ 24 <= 2 ^ 100)%Z by (vm_compute; discriminate). generalize dependent (2 ^ 900)%Z. generalize dependent (2 ^ 100)%Z. generalize dependent (10 ^ 24)%Z. intros. nia. }
      assert (0 <= inject_Z (Z.abs (n * power k))) by (apply (Qle_trans _ (Qabs (inject_Z (n * power k)))); [apply Qabs_nonneg|apply Qle_refl]).
      rewrite Zle_Qle in B. generalize dependent (inject_Z (2 ^ 1000)). intros. lra. }
  eexists. reflexivity.
Qed.

Local Open Scope Z_scope.
Lemma lstrip_snoc : forall s c, is_space c = false -> exists s', lstrip (s ++ [c]) = s' ++ [c].
Proof.
  induction s as [|x s IH]; intros c H; cbn [lstrip app].
  - rewrite H. exists []. reflexivity.
  - destruct (is_space x); [apply IH; exact H|]. exists (x :: s). reflexivity.
Qed.
Lemma strip_snoc : forall s c, is_space c = false -> exists s', strip (s ++ [c]) = s' ++ [c].
Proof.
  intros s c H. unfold strip. destruct (lstrip_snoc s c H) as (s' & ->). rewrite rev_app_distr. cbn [rev app lstrip]. rewrite H.
  cbn [rev]. rewrite rev_involutive. exists s'. reflexivity.
Qed.
Lemma digits_val_snoc : forall s a acc c v, digits_val a acc (s ++ [c]) = Some v -> is_digit c = true.
Proof.
  induction s as [|x s IH]; intros a acc c v H; cbn [digits_val app] in H.
  - destruct (is_digit c); [reflexivity|]. destruct (N.eqb c 95 && a); discriminate.
  - destruct (is_digit x); [eapply IH; exact H|]. destruct (N.eqb x 95 && a); [eapply IH; exact H|discriminate].
Qed.
Lemma py_int_last : forall s c n, py_int (s ++ [c]) = Ok n -> is_digit c = true \/ is_space c = true.
Proof.
  intros s c n H. destruct (is_space c) eqn:S; [right; reflexivity|left]. destruct (strip_snoc s c S) as (s' & E).
  unfold py_int in H. rewrite E in H. destruct s' as [|x s']; cbn [app] in H.
  - destruct (N.eqb c 43); [discriminate|]. destruct (N.eqb c 45); [discriminate|].
    destruct (digits_val false 0 [c]) eqn:D; [|discriminate]. eapply (digits_val_snoc []). exact D.
  - destruct (N.eqb x 43).
    + destruct (digits_val false 0 (s' ++ [c])) eqn:D; [|discriminate]. eapply digits_val_snoc. exact D.
    + destruct (N.eqb x 45).
      * destruct (digits_val false 0 (s' ++ [c])) eqn:D; [|discriminate]. eapply digits_val_snoc. exact D.
      * destruct (digits_val false 0 (x :: s' ++ [c])) eqn:D; [|discriminate]. eapply (digits_val_snoc (x :: s')). exact D.
Qed.
Lemma not_alpha : forall other c, is_digit c = true \/ is_space c = true -> is_alpha other c = false.
Proof.
  intros other c H. unfold is_alpha, is_digit, is_space in *. rewrite !andb_true_iff, orb_true_iff, !andb_true_iff, !N.leb_le in H.
  replace (c <? 128)%N with true by (symmetry; apply N.ltb_lt; lia).
  apply orb_false_iff. rewrite !andb_false_iff, !N.leb_gt. lia.
Qed.
Lemma py_int_nil : py_int [] = Err ValueError.
Proof. reflexivity. Qed.
Lemma py_int_err : forall s, (exists n, py_int s = Ok n) \/ py_int s = Err ValueError.
Proof.
  intros s. unfold py_int. destruct (strip s) as [|c s']; [right; reflexivity|].
  destruct (if N.eqb c 43 then _ else _) as [z|]; [left; eexists; reflexivity|right; reflexivity].
Qed.
Lemma assoc_prefix : forall c k, assoc energy_chars c = Some k <-> prefix [c] k.
Proof.
  intros c k. split.
  - cbn [assoc energy_chars]. intros H.
    repeat match type of H with (if N.eqb ?x c then _ else _) = _ => destruct (N.eqb_spec x c) as [<-|?]; [injection H as <-; constructor|] end.
    discriminate.
  - intros H. inversion H; reflexivity.
Qed.
Lemma prefix_alpha : forall other c k, prefix [c] k -> is_alpha other c = true.
Proof. intros other c k H. inversion H; reflexivity. Qed.

Definition unit_char (w : bool) : N := if w then 87%N else 74%N.
(** The form of the string decides everything. *)
Lemma parse_text : forall other s n k w, energy_text s n k w ->
  exists o, parse_energy other s = scaled w o n /\ power o = 10 ^ k /\ match o with Some k' => 0 <= k' <= 24 | None => True end.
Proof.
  intros other s n k w (d & p & -> & P & D). unfold parse_energy. rewrite app_assoc, rev_app_distr. cbn [rev app].
  replace (negb _) with false by (destruct w; reflexivity). replace (N.eqb (if w then 87%N else 74%N) 87) with w by (destruct w; reflexivity).
  destruct p as [|c p].
  - exists None. rewrite app_nil_r. inversion P; subst k. split; [|split; [reflexivity|exact I]].
    destruct d as [|x d] using rev_ind; [discriminate D|]. clear IHd. rewrite rev_app_distr. cbn [rev app].
    rewrite (not_alpha other x (py_int_last d x n D)). rewrite rev_involutive, D. reflexivity.
  - assert (p = []) by (inversion P; reflexivity). subst p. exists (Some k). rewrite rev_app_distr. cbn [rev app].
    rewrite (prefix_alpha other c k P). rewrite (proj2 (assoc_prefix c k) P), rev_involutive, D. cbn [bind power].
    split; [reflexivity|]. split; [reflexivity|]. inversion P; lia.
Qed.
Lemma parse_other : forall other s, (forall n k w, ~ energy_text s n k w) ->
  parse_energy other s = Err (match s with [] => IndexError | _ => ValueError end).
Proof.
  intros other s H. destruct s as [|u s _] using rev_ind; [reflexivity|].
  replace (match s ++ [u] with [] => IndexError | _ => ValueError end) with ValueError by (destruct s; reflexivity).
  unfold parse_energy. rewrite rev_app_distr. cbn [rev app].
  destruct (N.eqb u 74 || N.eqb u 87) eqn:U; [|reflexivity]. cbn [negb].
  assert (E : exists w : bool, u = if w then 87%N else 74%N).
  { apply orb_true_iff in U. destruct U as [U|U]; apply N.eqb_eq in U; [exists false|exists true]; exact U. }
  destruct E as (w & ->).
  destruct (rev s) as [|c r] eqn:R; [reflexivity|].
  assert (S : s = rev r ++ [c]) by (rewrite <- (rev_involutive s), R; reflexivity). subst s.
  destruct (is_alpha other c).
  - destruct (assoc energy_chars c) as [k|] eqn:A; [|reflexivity].
    destruct (py_int_err (rev r)) as [(n & I)|I]; rewrite I; [|reflexivity].
    exfalso. apply (H n k w). exists (rev r), [c]. rewrite app_assoc. split; [reflexivity|]. split; [apply assoc_prefix; exact A|exact I].
  - destruct (py_int_err (rev (c :: r))) as [(n & I)|I]; rewrite I; [|reflexivity].
    exfalso. apply (H n 0 w). exists (rev r ++ [c]), []. split; [reflexivity|]. split; [constructor|exact I].
Qed.

Lemma joules : forall other s n k, energy_text s n k false -> parse_energy other s = Ok (n * 10 ^ k).
Proof.
  intros other s n k T. destruct (parse_text other s n k false T) as (o & -> & P & _). unfold scaled. rewrite <- P. reflexivity.
Qed.
Lemma watts : forall other s n k, energy_text s n k true -> Z.abs n < 2 ^ 900 ->
  exists r, parse_energy other s = Ok r /\ 2 ^ 50 * (Z.abs (60 * r - n * 10 ^ k) - 30) <= Z.abs (n * 10 ^ k).
Proof.
  intros other s n k T N. destruct (parse_text other s n k true T) as (o & -> & P & B).
  destruct (watts_total o n B N) as (r & E). exists r. split; [exact E|]. rewrite <- P.
  apply watts_close; [destruct o; [lia|exact I]|exact E].
Qed.
Lemma watts_nearest : forall other s n k, energy_text s n k true -> Z.abs (n * 10 ^ k) < 2 ^ 50 ->
  exists r, parse_energy other s = Ok r /\ Z.abs (60 * r - n * 10 ^ k) <= 30.
Proof.
  intros other s n k T N. destruct (watts other s n k T) as (r & E & B).
  - assert (0 < 10 ^ k). { destruct T as (d & p & _ & P & _). apply Z.pow_pos_nonneg; [lia|]. inversion P; lia. }
    rewrite Z.abs_mul in N. apply (Z.lt_trans _ (2 ^ 50)); [nia|reflexivity].
  - exists r. split; [exact E|]. change (2 ^ 50) with 1125899906842624 in *. lia.
Qed.
