(** Numbers, operators and ticks. *)
From Coq Require Import ZArith QArith Qround Qabs String List Bool Lia Lqa Setoid Qfield.
From Verif Require Import Common Dict Vector_Model Vector_Spec.
Import ListNotations.
Local Open Scope list_scope.
Local Open Scope Z_scope.

(** ** Numbers *)
Lemma is_zero_iff : forall n, is_zero n = true <-> zero n.
Proof.
  intros [z|q]; unfold zero; cbn.
  - rewrite Z.eqb_eq. unfold Qeq; cbn. lia.
  - apply Qeq_bool_iff.
Qed.
Lemma calc_makes : forall F o a b c, calc F o a b = Ok c -> makes F o a b c.
Proof.
  intros F o [x|x] [y|y] c H; destruct o; cbn [calc is_zero makes if_ints as_float exactly] in *;
    repeat match type of H with (if ?t then _ else _) = _ => destruct t eqn:?; [discriminate|] end;
    inversion H; subst; clear H; try reflexivity;
    try (split; [eexists; reflexivity|cbn; unfold Qeq; cbn; lia]).
  exists (x / y), (x mod y). split; [reflexivity|].
  assert (Hy : y <> 0) by (intros ->; discriminate).
  split; [apply Z.div_mod; exact Hy|].
  destruct (Z_lt_le_dec 0 y) as [G|G].
  - pose proof (Z.mod_pos_bound x y G). split; [lia|]. nia.
  - assert (G' : y < 0) by lia. pose proof (Z.mod_neg_bound x y G'). split; [lia|]. nia.
Qed.
Lemma calc_fails : forall F o a b e, calc F o a b = Err e <-> e = ZeroDivisionError /\ divides o /\ zero b.
Proof.
  intros F o a b e. rewrite <- is_zero_iff. unfold divides.
  destruct o; cbn [calc]; try (split; [discriminate|intros (_ & [H|H] & _); discriminate]);
    destruct (is_zero b); split; intro H; try discriminate;
    try (inversion H; repeat split; auto; fail); try (destruct H as (-> & _); reflexivity); destruct H as (_ & _ & H); discriminate.
Qed.

(** ** Operators *)
Lemma pair_first : forall x v, pair_of x = Some v -> (exists n, x = Num n /\ v = (n, n)) \/ (first x = Ok (fst v) /\ second x = Ok (snd v)).
Proof.
  intros [w|l|d|n|] v H; cbn in H.
  - inversion H; subst. right. split; reflexivity.
  - destruct l as [|a [|b l]]; inversion H; subst. right; split; reflexivity.
  - right. cbn. unfold key_of.
    destruct (dget key_eqb d (KInt 0)) as [a|]; [|discriminate].
    destruct (dget key_eqb d (KInt 1)) as [b|]; [|discriminate].
    inversion H; subst. split; reflexivity.
  - inversion H; subst. left. exists n. split; reflexivity.
  - discriminate.
Qed.
Lemma binary_pair : forall F o v x u, pair_of x = Some u ->
  binary F o v x = (let* a := calc F o (fst v) (fst u) in let* b := calc F o (snd v) (snd u) in Ok (a, b)).
Proof.
  intros F o v x u H. unfold binary, pairwise. destruct (pair_first x u H) as [(n & -> & ->)|(H1 & H2)].
  - reflexivity.
  - rewrite H1; cbn [bind].
    destruct (calc F o (fst v) (fst u)) as [a|e] eqn:Ea; cbn [bind].
    + rewrite H2; cbn [bind]. destruct (calc F o (snd v) (snd u)) as [b|e] eqn:Eb; cbn [bind]; [reflexivity|].
      apply calc_fails in Eb. destruct Eb as (-> & _). reflexivity.
    + apply calc_fails in Ea. destruct Ea as (-> & _). reflexivity.
Qed.
Lemma operator : forall F o v x u, pair_of x = Some u ->
  (forall w, binary F o v x = Ok w -> makes F o (fst v) (fst u) (fst w) /\ makes F o (snd v) (snd u) (snd w))
  /\ (forall e, binary F o v x = Err e <-> e = ZeroDivisionError /\ divides o /\ (zero (fst u) \/ zero (snd u))).
Proof.
  intros F o v x u H. rewrite (binary_pair F o v x u H).
  destruct (calc F o (fst v) (fst u)) as [a|e] eqn:Ea; cbn [bind].
  - destruct (calc F o (snd v) (snd u)) as [b|e] eqn:Eb; cbn [bind].
    + split.
      * intros w G; inversion G; subst. split; apply calc_makes; assumption.
      * intro e. split; [discriminate|]. intros (-> & D & [Z|Z]).
        -- assert (G : calc F o (fst v) (fst u) = Err ZeroDivisionError) by (apply calc_fails; auto). congruence.
        -- assert (G : calc F o (snd v) (snd u) = Err ZeroDivisionError) by (apply calc_fails; auto). congruence.
    + split; [discriminate|]. intro e'. apply calc_fails in Eb. destruct Eb as (-> & D & Z). split.
      * intro G; inversion G; auto.
      * intros (-> & _). reflexivity.
  - split; [discriminate|]. intro e'. apply calc_fails in Ea. destruct Ea as (-> & D & Z). split.
    + intro G; inversion G; auto.
    + intros (-> & _). reflexivity.
Qed.
Lemma misfit : forall F o v x, pair_of x = None ->
  exists e, binary F o v x = Err e
    /\ (e = complaint x \/ (e = ZeroDivisionError /\ divides o /\ exists n, first x = Ok n /\ zero n)).
Proof.
  intros F o v x H. unfold binary, pairwise.
  destruct x as [w|l|d|n|]; cbn [pair_of first second complaint] in *; try discriminate.
  - destruct l as [|a [|b l]]; [| |discriminate].
    + cbn. exists IndexError. auto.
    + cbn [nth_of nth_error bind].
      destruct (calc F o (fst v) a) as [c|e] eqn:Ea; cbn [bind].
      * exists IndexError. auto.
      * apply calc_fails in Ea. destruct Ea as (-> & D & Z). exists ZeroDivisionError. split; [reflexivity|].
        right. split; [reflexivity|]. split; [exact D|]. exists a. auto.
  - unfold key_of. destruct (dget key_eqb d (KInt 0)) as [a|]; cbn [bind].
    + destruct (dget key_eqb d (KInt 1)) as [b|] eqn:E; [discriminate|].
      destruct (calc F o (fst v) a) as [c|e] eqn:Ea; cbn [bind].
      * exists KeyError. auto.
      * apply calc_fails in Ea. destruct Ea as (-> & D & Z). exists ZeroDivisionError. split; [reflexivity|].
        right. split; [reflexivity|]. split; [exact D|]. exists a. auto.
    + exists KeyError. auto.
  - exists TypeError. auto.
Qed.

Lemma scalar : forall F o v n, binary F o v (Num n) = binary F o v (Vec (n, n)).
Proof. intros. rewrite (binary_pair F o v (Num n) (n, n)), (binary_pair F o v (Vec (n, n)) (n, n)); reflexivity. Qed.

(** Laws *)
Ltac ints := repeat match goal with H : integers ?v |- _ => destruct v as [? ?]; destruct H as ((? & ?) & (? & ?)); cbn in *; subst end.
Lemma int_laws : forall F u v w, integers u -> integers v -> integers w ->
  (let* s := binary F Add u (Vec v) in binary F Add s (Vec w)) = (let* s := binary F Add v (Vec w) in binary F Add u (Vec s))
  /\ binary F Add u (Vec v) = binary F Add v (Vec u)
  /\ (let* s := binary F Add u (Vec v) in binary F Sub s (Vec v)) = Ok u
  /\ (let* s := binary F Sub u (Vec v) in binary F Add s (Vec v)) = Ok u
  /\ (let* s := binary F Add v (Vec w) in binary F Mul u (Vec s))
     = (let* a := binary F Mul u (Vec v) in let* b := binary F Mul u (Vec w) in binary F Add a (Vec b))
  /\ (~ zero (fst v) -> ~ zero (snd v) -> (let* p := binary F Mul u (Vec v) in binary F FloorDiv p (Vec v)) = Ok u).
Proof.
  intros F u v w Hu Hv Hw. ints.
  split; [unfold binary, pairwise; cbn; f_equal; f_equal; f_equal; lia|].
  split; [unfold binary, pairwise; cbn; f_equal; f_equal; f_equal; lia|].
  split; [unfold binary, pairwise; cbn; f_equal; f_equal; f_equal; lia|].
  split; [unfold binary, pairwise; cbn; f_equal; f_equal; f_equal; lia|].
  split; [unfold binary, pairwise; cbn; f_equal; f_equal; f_equal; lia|].
  unfold binary, pairwise; cbn [first second bind calc fst snd is_zero]. unfold zero; cbn.
  intros H1 H2.
  match goal with |- context[?a =? 0] => destruct (a =? 0) eqn:E1 end;
    [exfalso; apply H1; apply Z.eqb_eq in E1; subst; reflexivity|].
  match goal with |- context[?a =? 0] => destruct (a =? 0) eqn:E2 end;
    [exfalso; apply H2; apply Z.eqb_eq in E2; subst; reflexivity|].
  apply Z.eqb_neq in E1, E2. cbn. rewrite !Z.div_mul by assumption. reflexivity.
Qed.
Lemma commutes : forall F o v w a b, proper F -> o = Add \/ o = Mul ->
  binary F o v (Vec w) = Ok a -> binary F o w (Vec v) = Ok b -> alike a b.
Proof.
  intros F o [v1 v2] [w1 w2] a b HF Ho Ha Hb.
  rewrite (binary_pair F o _ (Vec (w1, w2)) (w1, w2) eq_refl) in Ha.
  rewrite (binary_pair F o _ (Vec (v1, v2)) (v1, v2) eq_refl) in Hb.
  assert (one : forall x y p q, calc F o x y = Ok p -> calc F o y x = Ok q -> (exactly p == exactly q)%Q).
  { intros x y p q Hp Hq. destruct Ho as [-> | ->]; destruct x as [x|x], y as [y|y]; cbn in Hp, Hq; inversion Hp; inversion Hq; subst; cbn;
      try (apply HF; ring); unfold Qeq; cbn; lia. }
  cbn [fst snd] in *.
  destruct (calc F o v1 w1) eqn:E1; cbn [bind] in Ha; [|discriminate].
  destruct (calc F o v2 w2) eqn:E2; cbn [bind] in Ha; [|discriminate].
  destruct (calc F o w1 v1) eqn:E3; cbn [bind] in Hb; [|discriminate].
  destruct (calc F o w2 v2) eqn:E4; cbn [bind] in Hb; [|discriminate].
  inversion Ha; inversion Hb; subst. split; cbn; [exact (one v1 w1 _ _ E1 E3)|exact (one v2 w2 _ _ E2 E4)].
Qed.

Lemma equal_alike : forall v x, equal v x = true <-> exists w, x = Vec w /\ alike v w.
Proof.
  intros v x. destruct x as [w|l|d|n|]; cbn; try (split; [discriminate|intros (w & H & _); discriminate]).
  rewrite andb_true_iff. unfold num_eq. rewrite !Qeq_bool_iff. split.
  - intros H. exists w. auto.
  - intros (w' & H & G). inversion H; subst. exact G.
Qed.
Lemma alike_equivalence : (forall v, alike v v) /\ (forall v w, alike v w -> alike w v) /\ (forall u v w, alike u v -> alike v w -> alike u w).
Proof.
  unfold alike. split; [intros; split; reflexivity|]. split.
  - intros v w (A & B). split; symmetry; assumption.
  - intros u v w (A & B) (C & D). split; [rewrite A; exact C|rewrite B; exact D].
Qed.

(** ** Rounding *)
Lemma nearest_closest : forall q, closest q (nearest q).
Proof.
  intro q. unfold closest, nearest. set (f := Qfloor q).
  assert (L : (inject_Z f <= q)%Q) by apply Qfloor_le.
  assert (U : (q < inject_Z f + 1)%Q).
  { pose proof (Qlt_floor q) as G. fold f in G. rewrite inject_Z_plus in G. exact G. }
  assert (P : forall a : Q, (0 <= a -> Qabs a == a)%Q) by (intros; apply Qabs_pos; assumption).
  assert (N : forall a : Q, (a <= 0 -> Qabs a == - a)%Q) by (intros; apply Qabs_neg; assumption).
  assert (A : (Qabs (q - inject_Z f) == q - inject_Z f)%Q) by (apply P; lra).
  assert (B : (Qabs (q - inject_Z (f + 1)) == inject_Z f + 1 - q)%Q).
  { rewrite N; [rewrite inject_Z_plus; cbn; ring|rewrite inject_Z_plus; cbn; change (inject_Z 1) with 1%Q; lra]. }
  destruct (q - inject_Z f ?= 1 # 2)%Q eqn:E.
  - apply Qeq_alt in E. destruct (Z.even f) eqn:V.
    + rewrite A. split; [lra|]. intros _. apply Z.even_spec. exact V.
    + rewrite B. split; [lra|]. intros _. apply Z.even_spec. rewrite Z.even_add, V. reflexivity.
  - apply Qlt_alt in E. rewrite A. split; [lra|]. intro G. lra.
  - apply Qgt_alt in E. rewrite B. split; [lra|]. intro G. lra.
Qed.
Lemma abs_le : forall a b : Q, (Qabs a <= b -> - b <= a /\ a <= b)%Q.
Proof. intros a b H. apply Qabs_Qle_condition. exact H. Qed.
Lemma closest_unique : forall p q a b, (p == q)%Q -> closest p a -> closest q b -> a = b.
Proof.
  intros p q a b E (A & TA) (B & TB).
  pose proof (abs_le _ _ A) as (A1 & A2). pose proof (abs_le _ _ B) as (B1 & B2).
  assert (D : (inject_Z a - inject_Z b <= 1)%Q /\ (- 1 <= inject_Z a - inject_Z b)%Q) by (split; lra).
  assert (D' : -1 <= a - b <= 1).
  { destruct D as (D1 & D2). unfold Qle in D1, D2; cbn in D1, D2. lia. }
  assert (C : a = b \/ a = b + 1 \/ b = a + 1) by lia.
  destruct C as [C|[C|C]]; [exact C| |]; subst; exfalso; rewrite inject_Z_plus in *; change (inject_Z 1) with 1%Q in *.
  - assert (G : (Qabs (p - (inject_Z b + 1)) == 1 # 2)%Q) by (rewrite Qabs_neg by lra; lra).
    assert (G' : (Qabs (q - inject_Z b) == 1 # 2)%Q) by (rewrite Qabs_pos by lra; lra).
    destruct (TA G) as (k & K). destruct (TB G') as (m & M). lia.
  - assert (G : (Qabs (p - inject_Z a) == 1 # 2)%Q) by (rewrite Qabs_pos by lra; lra).
    assert (G' : (Qabs (q - (inject_Z a + 1)) == 1 # 2)%Q) by (rewrite Qabs_neg by lra; lra).
    destruct (TA G) as (k & K). destruct (TB G') as (m & M). lia.
Qed.
Lemma closest_mono : forall p q a b, (p <= q)%Q -> closest p a -> closest q b -> a <= b.
Proof.
  intros p q a b E HA HB. destruct (Z_le_gt_dec a b) as [G|G]; [exact G|]. exfalso.
  destruct HA as (A & TA), HB as (B & TB).
  pose proof (abs_le _ _ A) as (A1 & A2). pose proof (abs_le _ _ B) as (B1 & B2).
  assert (D : (inject_Z a - inject_Z b <= 1)%Q) by lra.
  assert (D' : a - b <= 1) by (unfold Qle in D; cbn in D; lia).
  assert (a = b + 1) by lia. subst a. rewrite inject_Z_plus in *; change (inject_Z 1) with 1%Q in *.
  assert (G1 : (Qabs (p - (inject_Z b + 1)) == 1 # 2)%Q) by (rewrite Qabs_neg by lra; lra).
  assert (G2 : (Qabs (q - inject_Z b) == 1 # 2)%Q) by (rewrite Qabs_pos by lra; lra).
  destruct (TA G1) as (k & K). destruct (TB G2) as (m & M). lia.
Qed.
Lemma closest_opp : forall q a, closest q a -> closest (- q) (- a).
Proof.
  intros q a (A & T). assert (E : (Qabs (- q - inject_Z (- a)) == Qabs (q - inject_Z a))%Q).
  { rewrite <- (Qabs_opp (q - inject_Z a)). apply Qabs_wd. rewrite inject_Z_opp. ring. }
  split; [rewrite E; exact A|]. intro G. rewrite E in G. destruct (T G) as (k & ->). exists (- k). lia.
Qed.
Lemma closest_shift : forall q a n, Z.Even n -> closest q a -> closest (q + inject_Z n) (a + n).
Proof.
  intros q a n (m & ->) (A & T).
  assert (E : (Qabs (q + inject_Z (2 * m) - inject_Z (a + 2 * m)) == Qabs (q - inject_Z a))%Q).
  { apply Qabs_wd. rewrite inject_Z_plus. ring. }
  split; [rewrite E; exact A|]. intro G. rewrite E in G. destruct (T G) as (k & ->). exists (k + m). lia.
Qed.
Lemma closest_proper : forall p q a, (p == q)%Q -> closest p a -> closest q a.
Proof. intros p q a E (A & T). unfold closest. rewrite <- E. split; assumption. Qed.

Lemma round_spec : forall F n p, rounds_to F n p (num_round F n p).
Proof.
  intros F [z|q] [p|]; cbn [num_round rounds_to].
  - destruct (0 <=? p) eqn:E.
    + left. apply Z.leb_le in E. auto.
    + right. apply Z.leb_gt in E. split; [exact E|]. eexists. split; [reflexivity|]. apply nearest_closest.
  - reflexivity.
  - split; intro H.
    + subst. cbn. eexists. split; [reflexivity|]. apply nearest_closest.
    + apply Z.eqb_neq in H. rewrite H. reflexivity.
  - eexists. split; [reflexivity|]. apply nearest_closest.
Qed.

Lemma abs_spec : forall n, (exactly (num_abs n) == Qabs (exactly n))%Q /\ (integer n <-> integer (num_abs n)).
Proof.
  intros [z|q]; cbn; split; try reflexivity.
  - split; intros _; eexists; reflexivity.
  - split; intros (z & H); discriminate.
Qed.

(** ** Conversions *)
Lemma as_int_spec : forall n, (Qabs (inject_Z (as_int n)) <= Qabs (exactly n) /\ Qabs (exactly n - inject_Z (as_int n)) < 1)%Q
  /\ (0 <= exactly n -> 0 <= inject_Z (as_int n))%Q /\ (exactly n <= 0 -> inject_Z (as_int n) <= 0)%Q.
Proof.
  intros [z|[a d]]; cbn [as_int exactly Qnum Qden].
  - split; [split; [lra|]|split; auto]. assert (E : (inject_Z z - inject_Z z == 0)%Q) by ring. rewrite E. reflexivity.
  - pose proof (Z.quot_rem' a (Z.pos d)) as E.
    assert (P : 0 < Z.pos d) by lia.
    set (k := Z.quot a (Z.pos d)) in *. set (r := Z.rem a (Z.pos d)) in *.
    assert (S : 0 <= a -> 0 <= r < Z.pos d) by (intro; subst r; apply Z.rem_bound_pos; lia).
    assert (S' : a <= 0 -> - Z.pos d < r <= 0) by (intro; subst r; apply Z.rem_bound_pos_neg; lia).
    assert (K : 0 <= a -> 0 <= k) by (intro; subst k; apply Z.quot_pos; lia).
    assert (K' : a <= 0 -> k <= 0).
    { intro. subst k. rewrite <- (Z.opp_involutive a), Z.quot_opp_l by lia.
      assert (0 <= Z.quot (- a) (Z.pos d)) by (apply Z.quot_pos; lia). lia. }
    split; [split|split].
    + unfold Qle, Qabs, inject_Z; cbn. destruct (Z_le_gt_dec 0 a); [specialize (S ltac:(lia)); specialize (K ltac:(lia))|specialize (S' ltac:(lia)); specialize (K' ltac:(lia))]; nia.
    + unfold Qlt, Qabs, Qminus, Qplus, Qopp, inject_Z; cbn. destruct (Z_le_gt_dec 0 a); [specialize (S ltac:(lia))|specialize (S' ltac:(lia))]; nia.
    + unfold Qle, inject_Z; cbn. intro. specialize (K ltac:(lia)). lia.
    + unfold Qle, inject_Z; cbn. intro. specialize (K' ltac:(lia)). lia.
Qed.
Lemma pystr_refl : forall s, pystr_eqb s s = true.
Proof. intro s. apply pystr_eqb_eq. reflexivity. Qed.
Lemma from_dict : forall F v c, convert F (A := vector) (Dict (to_dict v)) c = Ok (apply F c (fst v), apply F c (snd v)).
Proof. intros F [a b] c. reflexivity. Qed.
Lemma from_dict_ints : forall F v, integers v -> convert F (A := vector) (Dict (to_dict v)) CInt = Ok v.
Proof. intros F v H. rewrite from_dict. ints. reflexivity. Qed.
Lemma from_dict_floats : forall F v w, convert F (A := vector) (Dict (to_dict v)) CFloat = Ok w ->
  (alike v w <-> forall n z, (n = fst v \/ n = snd v) -> n = Int z -> (fl F (inject_Z z) == inject_Z z)%Q).
Proof.
  intros F [a b] w H. rewrite from_dict in H. inversion H; subst; clear H. unfold alike; cbn. split.
  - intros (A & B) n z [->| ->] ->; cbn in *; symmetry; assumption.
  - intro G. split.
    + destruct a as [z|q]; [cbn; symmetry; exact (G (Int z) z (or_introl eq_refl) eq_refl)|reflexivity].
    + destruct b as [z|q]; [cbn; symmetry; exact (G (Int z) z (or_intror eq_refl) eq_refl)|reflexivity].
Qed.

(** Indexing *)
Lemma items : forall v k n v', setitem v k n = Ok v' ->
  getitem v' k = Ok n /\ (forall k', place k' <> place k -> getitem v' k' = getitem v k').
Proof.
  intros v k n v' H. unfold setitem, getitem in *. destruct (place k) as [p|e] eqn:E; [|discriminate].
  cbn in H. inversion H; subst; clear H. split.
  - cbn. destruct p; reflexivity.
  - intros k' D. destruct (place k') as [p'|e]; [|reflexivity]. cbn. destruct p, p'; try reflexivity; exfalso; apply D; reflexivity.
Qed.
Lemma places : forall k,
  (place k = Ok false <-> k = KStr (str "x") \/ k = KInt 0 \/ k = KInt (-2))
  /\ (place k = Ok true <-> k = KStr (str "y") \/ k = KInt 1 \/ k = KInt (-1))
  /\ (forall e, place k = Err e -> match k with KInt _ => e = IndexError | KStr _ => e = TypeError end).
Proof.
  intros [i|s]; cbn [place].
  - destruct (Z.eqb_spec i 0); [subst; cbn; split; [split; auto|split; [split; [discriminate|intros [?|[?|?]]; discriminate]|discriminate]]|].
    destruct (Z.eqb_spec i (-2)); [subst; cbn; split; [split; auto|split; [split; [discriminate|intros [?|[?|?]]; discriminate]|discriminate]]|].
    destruct (Z.eqb_spec i 1); [subst; cbn; split; [split; [discriminate|intros [?|[?|?]]; discriminate]|split; [split; auto|discriminate]]|].
    destruct (Z.eqb_spec i (-1)); [subst; cbn; split; [split; [discriminate|intros [?|[?|?]]; discriminate]|split; [split; auto|discriminate]]|].
    cbn. split; [split; [discriminate|intros [G|[G|G]]; inversion G; congruence]|].
    split; [split; [discriminate|intros [G|[G|G]]; inversion G; congruence]|].
    intros e G; inversion G; reflexivity.
  - destruct (pystr_eqb s (str "x")) eqn:X.
    + apply pystr_eqb_eq in X. subst. split; [split; auto|].
      split; [split; [discriminate|intros [G|[G|G]]; discriminate]|discriminate].
    + destruct (pystr_eqb s (str "y")) eqn:Y.
      * apply pystr_eqb_eq in Y. subst. split; [split; [discriminate|intros [G|[G|G]]; discriminate]|]. split; [split; auto|discriminate].
      * split; [split; [discriminate|intros [G|[G|G]]; inversion G; subst; rewrite pystr_refl in X; discriminate]|].
        split; [split; [discriminate|intros [G|[G|G]]; inversion G; subst; rewrite pystr_refl in Y; discriminate]|].
        intros e G; inversion G; reflexivity.
Qed.

(** ** Ticks *)
Ltac qz := unfold Qdiv, Qminus in *; repeat change (/ inject_Z 1000000)%Q with (1 # 1000000)%Q;
  unfold Qeq, Qle, Qmult, Qplus, Qminus, Qopp, inject_Z in *; cbn [Qnum Qden] in *; lia.
(** Rounding to a float first does not change the nearest integer. *)
Lemma rounding_first : forall F u, proper F -> precise F -> halves F -> 0 <= u < 1000000 ->
  nearest (fl F (inject_Z (u * 60) / inject_Z 1000000)) = nearest ((6 * u) # 100000).
Proof.
  intros F u P C H U.
  assert (E : (inject_Z (u * 60) / inject_Z 1000000 == (6 * u) # 100000)%Q) by (qz).
  apply (closest_unique (fl F ((6 * u) # 100000)) (fl F ((6 * u) # 100000))); [reflexivity| |].
  { apply (closest_proper (fl F (inject_Z (u * 60) / inject_Z 1000000))); [apply P; exact E|apply nearest_closest]. }
  pose proof (nearest_closest ((6 * u) # 100000)) as (G & T).
  set (z := nearest ((6 * u) # 100000)) in *.
  pose proof (abs_le _ _ G) as (G1 & G2).
  set (q := ((6 * u) # 100000)%Q) in *.
  assert (Q0 : (0 <= q)%Q) by (subst q; qz).
  assert (Q1 : (q <= 60)%Q) by (subst q; qz).
  assert (D1 : -50000 <= 6 * u - 100000 * z) by (subst q; qz).
  assert (D2 : 6 * u - 100000 * z <= 50000) by (subst q; qz).
  assert (Tie : (6 * u - 100000 * z = 50000 \/ 6 * u - 100000 * z = -50000) \/ (-50000 < 6 * u - 100000 * z < 50000)) by lia.
  destruct Tie as [Tie|In].
  - assert (N : exists n, 0 <= n <= 120 /\ (q == n # 2)%Q).
    { destruct Tie as [Tie|Tie]; [exists (2 * z + 1)|exists (2 * z - 1)]; (split; [lia|]); subst q; qz. }
    destruct N as (n & Nn & Nq).
    apply (closest_proper q); [|split; assumption].
    apply Qeq_trans with (n # 2)%Q; [exact Nq|].
    apply Qeq_trans with (fl F (n # 2)%Q); [apply Qeq_sym; apply H; exact Nn|apply Qeq_sym; apply P; exact Nq].
  - pose proof (abs_le _ _ (C q (conj Q0 Q1))) as (F1 & F2).
    assert (I1 : (q - inject_Z z <= 49999 # 100000)%Q) by (subst q; qz).
    assert (I2 : (- (49999 # 100000) <= q - inject_Z z)%Q) by (subst q; qz).
    assert (K : (Qabs (fl F q - inject_Z z) < 1 # 2)%Q).
    { apply Qabs_Qlt_condition. split; lra. }
    split; [lra|]. intro X. rewrite X in K. exfalso. lra.
Qed.

Lemma ticks_closest : forall F t, proper F -> precise F -> halves F -> normal t ->
  closest (inject_Z (duration t * 60) / inject_Z 1000000) (from_timedelta F t).
Proof.
  intros F [d s u] P C H (S & U). cbn in S, U. unfold from_timedelta, duration. cbn [days seconds microseconds].
  rewrite (rounding_first F u P C H U).
  assert (V : Z.Even (d * DAY + s * SECOND)) by (exists (d * (12 * HOUR) + s * 30); unfold DAY, HOUR, MINUTE, SECOND; lia).
  rewrite (Z.add_comm (d * DAY + s * SECOND)).
  apply (closest_proper ((6 * u # 100000) + inject_Z (d * DAY + s * SECOND))).
  - unfold DAY, HOUR, MINUTE, SECOND. qz.
  - apply closest_shift; [exact V|apply nearest_closest].
Qed.
Lemma ticks_order : forall F t t', proper F -> precise F -> halves F -> normal t -> normal t' ->
  duration t <= duration t' -> from_timedelta F t <= from_timedelta F t'.
Proof.
  intros F t t' P C H N N' L.
  apply (closest_mono (inject_Z (duration t * 60) / inject_Z 1000000) (inject_Z (duration t' * 60) / inject_Z 1000000));
    [qz|apply ticks_closest; assumption|apply ticks_closest; assumption].
Qed.
Lemma ticks_opposite : forall F t t', proper F -> precise F -> halves F -> normal t -> normal t' ->
  duration t' = - duration t -> from_timedelta F t' = - from_timedelta F t.
Proof.
  intros F t t' P C H N N' L.
  apply (closest_unique (inject_Z (duration t' * 60) / inject_Z 1000000) (- (inject_Z (duration t * 60) / inject_Z 1000000))).
  - rewrite L. qz.
  - apply ticks_closest; assumption.
  - apply closest_opp, ticks_closest; assumption.
Qed.
Lemma ticks_whole : forall F t k, proper F -> precise F -> halves F -> normal t ->
  duration t = k * 1000000 -> from_timedelta F t = 60 * k.
Proof.
  intros F t k P C H N L.
  apply (closest_unique (inject_Z (duration t * 60) / inject_Z 1000000) (inject_Z (60 * k))).
  - rewrite L. qz.
  - apply ticks_closest; assumption.
  - assert (E : (inject_Z (60 * k) - inject_Z (60 * k) == 0)%Q) by ring. split.
    + rewrite E. cbn. qz.
    + rewrite E. intro X. discriminate X.
Qed.
Lemma ticks_shift : forall F t t' k, proper F -> precise F -> halves F -> normal t -> normal t' ->
  duration t' = duration t + k * 1000000 -> from_timedelta F t' = from_timedelta F t + 60 * k.
Proof.
  intros F t t' k P C H N N' L.
  apply (closest_unique (inject_Z (duration t' * 60) / inject_Z 1000000) (inject_Z (duration t * 60) / inject_Z 1000000 + inject_Z (60 * k))).
  - rewrite L. qz.
  - apply ticks_closest; assumption.
  - apply closest_shift; [exists (30 * k); lia|apply ticks_closest; assumption].
Qed.
Lemma rounds : forall F v p, rounds_to F (fst v) p (fst (rounded F v p)) /\ rounds_to F (snd v) p (snd (rounded F v p)).
Proof. intros F [a b] p. split; apply round_spec. Qed.
Lemma absolutes : forall v,
  (exactly (fst (absolute v)) == Qabs (exactly (fst v)) /\ exactly (snd (absolute v)) == Qabs (exactly (snd v)))%Q
  /\ (integers v <-> integers (absolute v)).
Proof.
  intros [a b]. cbn [absolute fst snd]. split; [split; apply abs_spec|].
  unfold integers; cbn [fst snd]. rewrite <- (proj2 (abs_spec a)), <- (proj2 (abs_spec b)). tauto.
Qed.
Lemma conversions : forall F x c,
  match x with
  | Seq (a :: b :: _) => convert F (A := vector) x c = Ok (apply F c a, apply F c b)
  | Seq _ => convert F x c = Err IndexError
  | Dict d => match dget key_eqb d (KStr (str "x")), dget key_eqb d (KStr (str "y")) with
              | Some a, Some b => convert F x c = Ok (apply F c a, apply F c b)
              | _, _ => convert F x c = Err KeyError
              end
  | _ => convert F x c = Err TypeError
  end.
Proof.
  intros F [v|l|d|n|] c; try reflexivity.
  - destruct l as [|a [|b l]]; reflexivity.
  - cbn [convert]. unfold key_of. destruct (dget key_eqb d (KStr (str "x"))); [|reflexivity].
    destruct (dget key_eqb d (KStr (str "y"))); reflexivity.
Qed.
