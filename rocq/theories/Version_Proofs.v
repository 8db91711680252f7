From Coq Require Import ZArith NArith List Bool Lia.
From Verif Require Import Common Version_Model Version_Spec.
Import ListNotations.
Local Open Scope Z_scope.

(** * Packed numbers *)

Lemma lor_shiftl_add : forall a b k, 0 <= k -> 0 <= b < 2 ^ k ->
  Z.lor (Z.shiftl a k) b = a * 2 ^ k + b.
Proof.
  intros a b k Hk Hb.
  assert (Hland : Z.land (Z.shiftl a k) b = 0).
  { apply Z.bits_inj'. intros n Hn. rewrite Z.land_spec, Z.bits_0.
    destruct (Z.lt_ge_cases n k) as [L|G].
    - rewrite Z.shiftl_spec_low by lia. reflexivity.
    - destruct (Z.eq_dec b 0) as [->|Hb0].
      + rewrite Z.bits_0. apply andb_false_r.
      + rewrite (Z.bits_above_log2 b n); [apply andb_false_r| lia|].
        apply Z.log2_lt_pow2; [lia|].
        apply Z.lt_le_trans with (2 ^ k); [lia|].
        apply Z.pow_le_mono_r; lia. }
  rewrite <- Z.lxor_lor by exact Hland.
  rewrite <- Z.add_nocarry_lxor by exact Hland.
  rewrite Z.shiftl_mul_pow2 by lia. reflexivity.
Qed.

Lemma encode_arith : forall a b c d, u16 b -> u16 c -> u16 d ->
  encode_version a b c d = a * 2^48 + b * 2^32 + c * 2^16 + d.
Proof.
  unfold u16, encode_version. intros a b c d Hb Hc Hd.
  rewrite (lor_shiftl_add a (Z.shiftl b 32) 48);
    [|lia|rewrite Z.shiftl_mul_pow2 by lia; lia].
  replace (a * 2 ^ 48 + Z.shiftl b 32) with (Z.shiftl (a * 2^16 + b) 32)
    by (rewrite !Z.shiftl_mul_pow2 by lia; lia).
  rewrite (lor_shiftl_add _ (Z.shiftl c 16) 32);
    [|lia|rewrite Z.shiftl_mul_pow2 by lia; lia].
  replace ((a * 2^16 + b) * 2 ^ 32 + Z.shiftl c 16)
    with (Z.shiftl ((a * 2^16 + b) * 2^16 + c) 16)
    by (rewrite !Z.shiftl_mul_pow2 by lia; lia).
  rewrite lor_shiftl_add by lia. lia.
Qed.

Lemma decode_arith : forall v,
  decode_version v =
  ((v / 2^48) mod 65536, (v / 2^32) mod 65536, (v / 2^16) mod 65536, v mod 65536).
Proof.
  intro v. unfold decode_version.
  change 65535 with (Z.ones 16).
  rewrite !Z.land_ones by lia. rewrite !Z.shiftr_div_pow2 by lia. reflexivity.
Qed.

Ltac zdm := Z.div_mod_to_equations.

Lemma decode_encode : forall a b c d, u16 a -> u16 b -> u16 c -> u16 d ->
  decode_version (encode_version a b c d) = (a, b, c, d).
Proof.
  intros a b c d Ha Hb Hc Hd.
  rewrite encode_arith, decode_arith by assumption. unfold u16 in *.
  assert (E1 : (a * 2 ^ 48 + b * 2 ^ 32 + c * 2 ^ 16 + d) / 2 ^ 48 = a)
    by (symmetry; apply Z.div_unique with (b * 2 ^ 32 + c * 2 ^ 16 + d); lia).
  assert (E2 : (a * 2 ^ 48 + b * 2 ^ 32 + c * 2 ^ 16 + d) / 2 ^ 32 = a * 65536 + b)
    by (symmetry; apply Z.div_unique with (c * 2 ^ 16 + d); lia).
  assert (E3 : (a * 2 ^ 48 + b * 2 ^ 32 + c * 2 ^ 16 + d) / 2 ^ 16
               = (a * 65536 + b) * 65536 + c)
    by (symmetry; apply Z.div_unique with d; lia).
  rewrite E1, E2, E3.
  f_equal; [f_equal; [f_equal|]|].
  - apply Z.mod_small; lia.
  - symmetry; apply Z.mod_unique with a; lia.
  - symmetry; apply Z.mod_unique with (a * 65536 + b); lia.
  - symmetry; apply Z.mod_unique with ((a * 65536 + b) * 65536 + c); lia.
Qed.

Lemma decode_range : forall v a b c d,
  decode_version v = (a, b, c, d) -> u16 a /\ u16 b /\ u16 c /\ u16 d.
Proof.
  intros v a b c d H. rewrite decode_arith in H.
  inversion H; subst; unfold u16.
  repeat split; apply Z.mod_pos_bound; lia.
Qed.

Lemma encode_decode : forall v a b c d, 0 <= v < 2^64 ->
  decode_version v = (a, b, c, d) -> encode_version a b c d = v.
Proof.
  intros v a b c d Hv H.
  destruct (decode_range _ _ _ _ _ H) as (Ha & Hb & Hc & Hd).
  rewrite encode_arith by assumption.
  rewrite decode_arith in H.
  assert (E1 : v / 2^16 = v / 65536) by reflexivity.
  assert (E2 : v / 2^32 = v / 65536 / 65536) by (rewrite Z.div_div by lia; reflexivity).
  assert (E3 : v / 2^48 = v / 65536 / 65536 / 65536)
    by (rewrite !Z.div_div by lia; reflexivity).
  rewrite E1, E2, E3 in H. clear E1 E2 E3.
  inversion H; subst; clear H.
  set (q1 := v / 65536). set (q2 := q1 / 65536). set (q3 := q2 / 65536).
  assert (v = 65536 * q1 + v mod 65536) by (apply Z.div_mod; lia).
  assert (q1 = 65536 * q2 + q1 mod 65536) by (apply Z.div_mod; lia).
  assert (q2 = 65536 * q3 + q2 mod 65536) by (apply Z.div_mod; lia).
  assert (q3 mod 65536 = q3).
  { apply Z.mod_small. unfold u16 in *. 
    pose proof (Z.mod_pos_bound q2 65536). pose proof (Z.mod_pos_bound q1 65536).
    pose proof (Z.mod_pos_bound v 65536). lia. }
  unfold u16 in *. lia.
Qed.

Lemma encode_range : forall a b c d, u16 a -> u16 b -> u16 c -> u16 d ->
  0 <= encode_version a b c d < 2^64.
Proof. intros. rewrite encode_arith by assumption. unfold u16 in *. lia. Qed.

Lemma encode_lt : forall a b c d a' b' c' d',
  u16 a -> u16 b -> u16 c -> u16 d -> u16 a' -> u16 b' -> u16 c' -> u16 d' ->
  (encode_version a b c d < encode_version a' b' c' d'
   <-> version_lt (a, b, c, d) (a', b', c', d')).
Proof.
  intros. rewrite !encode_arith by assumption. unfold u16, version_lt in *. lia.
Qed.

(** * Dotted strings *)

Lemma split_on_nonempty : forall sep s, split_on sep s <> [].
Proof.
  intros sep [|c s]; simpl; [discriminate|].
  destruct (split_on sep s); [discriminate|]. destruct (N.eqb c sep); discriminate.
Qed.

Lemma split_no_sep : forall s, ~ In 46%N s -> split_on DOT s = [s].
Proof.
  induction s as [|c s IH]; intro H; [reflexivity|].
  simpl. rewrite IH by (intro; apply H; right; assumption).
  destruct (N.eqb_spec c DOT) as [->|N]; [|reflexivity].
  exfalso. apply H. left. reflexivity.
Qed.

Lemma split_cons_dot : forall w s, ~ In 46%N w ->
  split_on DOT (w ++ 46%N :: s) = w :: split_on DOT s.
Proof.
  induction w as [|c w IH]; intros s H; simpl.
  - destruct (split_on DOT s) eqn:E; [|reflexivity].
    exfalso. exact (split_on_nonempty _ _ E).
  - rewrite IH by (intro; apply H; right; assumption).
    destruct (N.eqb_spec c DOT) as [->|N]; [|reflexivity].
    exfalso. apply H. left. reflexivity.
Qed.

Lemma split_dotted : forall s ws, dotted s ws -> split_on DOT s = ws.
Proof.
  induction 1 as [w Hw|w s ws Hw Hd IH].
  - apply split_no_sep, Hw.
  - rewrite split_cons_dot by exact Hw. rewrite IH. reflexivity.
Qed.

Lemma dotted_cons : forall c s w ws, c <> 46%N -> dotted s (w :: ws) ->
  dotted (c :: s) ((c :: w) :: ws).
Proof.
  intros c s w ws Hc H. inversion H; subst.
  - constructor. simpl. intuition congruence.
  - rewrite app_comm_cons. constructor; [simpl; intuition congruence|assumption].
Qed.

Lemma dotted_split : forall s, dotted s (split_on DOT s).
Proof.
  induction s as [|c s IH]; simpl.
  - constructor. intros [].
  - destruct (split_on DOT s) as [|w ws] eqn:E.
    + exfalso. exact (split_on_nonempty _ _ E).
    + destruct (N.eqb_spec c DOT) as [->|N].
      * apply (dotted_more []); [intros []|exact IH].
      * apply dotted_cons; [exact N|exact IH].
Qed.

(** Decimal digits. *)
Lemma digits_val_app_digits : forall ds b acc rest,
  Forall (fun c => is_digit c = true) ds -> (b = true \/ ds <> []) ->
  digits_val b acc (ds ++ rest)
  = digits_val true (fold_left (fun a c => 10 * a + digit_val c) ds acc) rest.
Proof.
  induction ds as [|c ds IH]; intros b acc rest Hd Hb; simpl.
  - destruct Hb as [->|Hb]; [reflexivity|contradiction].
  - inversion Hd; subst. rewrite H1. apply IH; [assumption|left; reflexivity].
Qed.

Lemma digit_char : forall d, (d < 10)%N ->
  is_digit (48 + d)%N = true /\ digit_val (48 + d)%N = Z.of_N d.
Proof.
  intros d Hd. unfold is_digit, digit_val. split.
  - apply andb_true_iff. split; apply N.leb_le; lia.
  - f_equal. lia.
Qed.

Lemma dec_digits_spec : forall fuel n acc, (n < 2 ^ N.of_nat fuel)%N ->
  (0 < fuel)%nat ->
  exists ds, dec_digits fuel n acc = ds ++ acc /\ ds <> [] /\
    Forall (fun c => is_digit c = true) ds /\
    fold_left (fun a c => 10 * a + digit_val c) ds 0 = Z.of_N n.
Proof.
  induction fuel as [|f IH]; intros n acc Hn Hf; [lia|].
  cbn [dec_digits].
  assert (Hm : (n mod 10 < 10)%N) by (apply N.mod_lt; lia).
  destruct (digit_char _ Hm) as [D1 D2].
  destruct (N.ltb_spec n 10) as [L|G].
  - exists [(48 + n mod 10)%N]. repeat split; try discriminate.
    + constructor; [exact D1|constructor].
    + cbn [fold_left]. rewrite D2. rewrite N.mod_small by lia. lia.
  - assert (Hq : (n / 10 < 2 ^ N.of_nat f)%N).
    { rewrite Nat2N.inj_succ, N.pow_succ_r' in Hn.
      apply N.div_lt_upper_bound; lia. }
    assert (Hf0 : (0 < f)%nat).
    { destruct f; [|lia]. simpl in Hn. lia. }
    destruct (IH (n / 10)%N ((48 + n mod 10)%N :: acc) Hq Hf0)
      as (ds & E & Hne & Hds & V).
    exists (ds ++ [(48 + n mod 10)%N]). repeat split.
    + rewrite E. rewrite <- app_assoc. reflexivity.
    + destruct ds; discriminate.
    + apply Forall_app. split; [exact Hds|]. constructor; [exact D1|constructor].
    + rewrite fold_left_app. rewrite V. cbn [fold_left]. rewrite D2.
      pose proof (N.div_mod n 10). lia.
Qed.

Lemma nat_str_spec : forall n, nat_str n <> [] /\
  Forall (fun c => is_digit c = true) (nat_str n) /\
  fold_left (fun a c => 10 * a + digit_val c) (nat_str n) 0 = Z.of_N n.
Proof.
  intro n. unfold nat_str.
  destruct (dec_digits_spec (S (N.to_nat (N.log2 n))) n [])
    as (ds & E & H1 & H2 & H3).
  - rewrite Nat2N.inj_succ, N2Nat.id.
    destruct (N.eq_dec n 0) as [->|Hn]; [simpl; lia|].
    apply N.log2_spec. lia.
  - lia.
  - rewrite E, app_nil_r. auto.
Qed.

Lemma digit_not_space : forall c, is_digit c = true -> is_space c = false.
Proof.
  intros c H. unfold is_digit, is_space in *.
  apply andb_true_iff in H. destruct H as [H1 H2].
  apply N.leb_le in H1. apply N.leb_le in H2.
  apply orb_false_iff. split; apply andb_false_iff; right; apply N.leb_gt; lia.
Qed.

Lemma lstrip_id : forall c s, is_space c = false -> lstrip (c :: s) = c :: s.
Proof. intros c s H. simpl. rewrite H. reflexivity. Qed.

Lemma strip_id : forall s, s <> [] ->
  is_space (hd 0%N s) = false -> is_space (last s 0%N) = false -> strip s = s.
Proof.
  intros s Hne Hh Hl. unfold strip.
  destruct s as [|c s]; [contradiction|]. simpl in Hh.
  rewrite lstrip_id by exact Hh.
  destruct (exists_last Hne) as (l & x & E). rewrite E in *.
  rewrite last_last in Hl. rewrite rev_app_distr. simpl rev at 2.
  cbn [app]. rewrite lstrip_id by exact Hl.
  simpl. rewrite rev_involutive. reflexivity.
Qed.

Lemma last_In : forall (s : pystr) d, s <> [] -> In (last s d) s.
Proof.
  intros s d H. destruct (exists_last H) as (l & x & ->).
  rewrite last_last. apply in_or_app. right. left. reflexivity.
Qed.

Lemma is_digit_range : forall c, is_digit c = true -> (48 <= c <= 57)%N.
Proof.
  intros c H. unfold is_digit in H. apply andb_true_iff in H.
  destruct H as [H1 H2]. apply N.leb_le in H1. apply N.leb_le in H2. lia.
Qed.

Lemma py_int_digits : forall ds, ds <> [] ->
  Forall (fun c => is_digit c = true) ds ->
  py_int ds = Ok (fold_left (fun a c => 10 * a + digit_val c) ds 0).
Proof.
  intros ds Hne Hd. unfold py_int.
  assert (Hin : forall c, In c ds -> is_digit c = true)
    by (apply Forall_forall; exact Hd).
  rewrite strip_id; [|exact Hne| |].
  - destruct ds as [|c ds]; [contradiction|].
    assert (Hc : (48 <= c <= 57)%N) by (apply is_digit_range, Hin; left; reflexivity).
    destruct (N.eqb_spec c 43) as [?|_]; [lia|].
    destruct (N.eqb_spec c 45) as [?|_]; [lia|].
    rewrite <- (app_nil_r (c :: ds)) at 1.
    rewrite digits_val_app_digits; [reflexivity|exact Hd|right; discriminate].
  - destruct ds; [contradiction|]. apply digit_not_space, Hin. left. reflexivity.
  - apply digit_not_space, Hin, last_In, Hne.
Qed.

Lemma py_int_neg_digits : forall ds, ds <> [] ->
  Forall (fun c => is_digit c = true) ds ->
  py_int (45%N :: ds) = Ok (- fold_left (fun a c => 10 * a + digit_val c) ds 0).
Proof.
  intros ds Hne Hd. unfold py_int.
  assert (Hin : forall c, In c ds -> is_digit c = true)
    by (apply Forall_forall; exact Hd).
  rewrite strip_id; [|discriminate|reflexivity|].
  - change (N.eqb 45 43) with false. change (N.eqb 45 45) with true. cbv iota.
    rewrite <- (app_nil_r ds) at 1.
    rewrite digits_val_app_digits; [reflexivity|exact Hd|right; exact Hne].
  - destruct ds as [|c ds]; [contradiction|].
    change (last (45%N :: c :: ds) 0%N) with (last (c :: ds) 0%N).
    apply digit_not_space, Hin, last_In, Hne.
Qed.

Lemma py_int_int_str : forall z, py_int (int_str z) = Ok z.
Proof.
  intro z. unfold int_str. destruct (Z.ltb_spec z 0) as [L|G].
  - destruct (nat_str_spec (Z.to_N (- z))) as (H1 & H2 & H3).
    rewrite py_int_neg_digits by assumption. rewrite H3. f_equal. lia.
  - destruct (nat_str_spec (Z.to_N z)) as (H1 & H2 & H3).
    rewrite py_int_digits by assumption. rewrite H3. f_equal. lia.
Qed.

Lemma int_str_no_dot : forall z, ~ In 46%N (int_str z).
Proof.
  intro z. unfold int_str.
  assert (H : forall n, ~ In 46%N (nat_str n)).
  { intros n Hin. destruct (nat_str_spec n) as (_ & H2 & _).
    rewrite Forall_forall in H2. apply H2 in Hin. discriminate. }
  destruct (z <? 0); [|apply H].
  intros [E|E]; [discriminate|]. exact (H _ E).
Qed.

Lemma join_dotted : forall t, t <> [] ->
  dotted (version_tuple_to_string t) (map int_str t).
Proof.
  unfold version_tuple_to_string.
  induction t as [|z t IH]; intro Hne; [contradiction|].
  destruct t as [|z' t].
  - cbn. constructor. apply int_str_no_dot.
  - change (map int_str (z :: z' :: t)) with (int_str z :: map int_str (z' :: t)).
    change (join_with [DOT] (int_str z :: map int_str (z' :: t)))
      with (int_str z ++ 46%N :: join_with [DOT] (map int_str (z' :: t))).
    constructor; [apply int_str_no_dot|]. apply IH. discriminate.
Qed.

Lemma map_result_map : forall {A B C} (f : B -> result C) (g : A -> B) (h : A -> C) l,
  (forall x, f (g x) = Ok (h x)) -> map_result f (map g l) = Ok (map h l).
Proof.
  intros A B C f g h l H. induction l as [|x l IH]; [reflexivity|].
  cbn [map map_result]. rewrite H. cbn [bind]. rewrite IH. reflexivity.
Qed.

Lemma string_tuple_roundtrip : forall t, t <> [] ->
  version_string_to_tuple (version_tuple_to_string t) = Ok t.
Proof.
  intros t Hne. unfold version_string_to_tuple.
  rewrite (split_dotted _ _ (join_dotted t Hne)).
  rewrite (map_result_map py_int int_str (fun z => z)) by apply py_int_int_str.
  rewrite map_id. reflexivity.
Qed.

Lemma map_result_ok_forall2 : forall {A B} (f : A -> result B) l ys,
  map_result f l = Ok ys <-> Forall2 (fun x y => f x = Ok y) l ys.
Proof.
  intros A B f. induction l as [|x l IH]; intros ys; split; intro H.
  - inversion H. constructor.
  - inversion H. reflexivity.
  - cbn [map_result] in H. destruct (f x) as [y|e] eqn:E; [|discriminate].
    cbn [bind] in H. destruct (map_result f l) as [zs|e] eqn:E2; [|discriminate].
    cbn [bind] in H. inversion H; subst. constructor; [exact E|]. apply IH. reflexivity.
  - inversion H; subst. cbn [map_result].
    match goal with Hx : f x = Ok _ |- _ => rewrite Hx end.
    cbn [bind].
    match goal with Hx : Forall2 _ l _ |- _ => apply IH in Hx; rewrite Hx end.
    reflexivity.
Qed.

Lemma string_to_tuple_spec : forall s t,
  version_string_to_tuple s = Ok t <->
  exists parts, dotted s parts /\ Forall2 (fun p z => py_int p = Ok z) parts t.
Proof.
  intros s t. unfold version_string_to_tuple. split.
  - intro H. exists (split_on DOT s). split; [apply dotted_split|].
    apply map_result_ok_forall2. exact H.
  - intros (parts & Hd & Hf). rewrite (split_dotted _ _ Hd).
    apply map_result_ok_forall2. exact Hf.
Qed.
