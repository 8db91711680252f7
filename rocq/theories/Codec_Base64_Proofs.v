(** Base 64: the decoder accepts exactly the payloads, and undoes the encoder. *)
From Coq Require Import ZArith NArith List Bool String Lia.
From Verif Require Import Common Dict Version_Model Codec_Model Codec_Spec.
Import ListNotations.
Local Open Scope list_scope.
Local Open Scope N_scope.

(** *** letters *)
Definition upto (n : nat) : list N := map N.of_nat (seq 0 n).
Lemma upto_in : forall n c, c < N.of_nat n -> In c (upto n).
Proof. intros n c H. apply in_map_iff. exists (N.to_nat c). split; [lia|]. apply in_seq. lia. Qed.

Definition eq_opt (a b : option N) : bool := match a, b with Some x, Some y => x =? y | None, None => true | _, _ => false end.
Lemma eq_opt_eq : forall a b, eq_opt a b = true -> a = b.
Proof. intros [x|] [y|]; cbn; try discriminate; auto. intros H. apply N.eqb_eq in H. congruence. Qed.

Lemma letter_digit : forall n, n < 64 -> digit64 (letter n) n /\ sextet (letter n) = Some n /\ letter n < 128 /\ letter n <> PAD.
Proof.
  intros n H.
  assert (A : forallb (fun n => eq_opt (nth_error alphabet (N.to_nat n)) (Some (letter n)) && eq_opt (sextet (letter n)) (Some n) && (letter n <? 128) && negb (letter n =? PAD)) (upto 64) = true) by (vm_compute; reflexivity).
  rewrite forallb_forall in A. specialize (A n (upto_in 64 n H)). rewrite !andb_true_iff in A. destruct A as (((A1 & A2) & A3) & A4).
  apply eq_opt_eq in A1, A2. apply N.ltb_lt in A3. apply negb_true_iff, N.eqb_neq in A4. auto.
Qed.
Lemma alphabet_length : List.length alphabet = 64%nat.
Proof. reflexivity. Qed.
Lemma digit64_letter : forall c n, digit64 c n -> c = letter n /\ n < 64.
Proof.
  intros c n H. assert (B : n < 64).
  { unfold digit64 in H. assert (N.to_nat n < List.length alphabet)%nat by (apply nth_error_Some; congruence). rewrite alphabet_length in H0. lia. }
  split; [|exact B]. destruct (letter_digit n B) as [E _]. unfold digit64 in *. congruence.
Qed.
Lemma sextet_lt : forall c n, sextet c = Some n -> c < 128.
Proof.
  intros c n. unfold sextet.
  repeat match goal with |- context[if ?b then _ else _] => destruct b eqn:? end; try discriminate; intros _;
  repeat match goal with
  | H : _ && _ = true |- _ => apply andb_true_iff in H; destruct H
  | H : (_ <=? _) = true |- _ => apply N.leb_le in H
  | H : (_ =? _) = true |- _ => apply N.eqb_eq in H end; lia.
Qed.
Lemma sextet_digit : forall c n, sextet c = Some n <-> digit64 c n.
Proof.
  intros c n. split.
  - intros H. pose proof (sextet_lt c n H) as B.
    assert (A : forallb (fun c => match sextet c with Some n => eq_opt (nth_error alphabet (N.to_nat n)) (Some c) | None => true end) (upto 128) = true) by (vm_compute; reflexivity).
    rewrite forallb_forall in A. specialize (A c (upto_in 128 c B)). rewrite H in A. apply eq_opt_eq in A. exact A.
  - intros H. destruct (digit64_letter c n H) as [-> B]. apply letter_digit. exact B.
Qed.
Lemma sextet_none : forall c, sextet c = None <-> ~ In c alphabet.
Proof.
  intros c. split.
  - intros H I. apply In_nth_error in I. destruct I as [n I]. assert (E : digit64 c (N.of_nat n)) by (unfold digit64; rewrite Nnat.Nat2N.id; exact I).
    apply sextet_digit in E. congruence.
  - intros H. destruct (sextet c) as [n|] eqn:E; [|reflexivity]. exfalso. apply H. apply sextet_digit in E. unfold digit64 in E. apply nth_error_In in E. exact E.
Qed.
Lemma pad_none : ~ In PAD alphabet.
Proof. apply sextet_none. reflexivity. Qed.
Lemma digit_in : forall c n, digit64 c n -> In c alphabet.
Proof. intros c n H. unfold digit64 in H. apply nth_error_In in H. exact H. Qed.

(** *** the decoder, state by state *)
Definition P3 (l : N) (s : pystr) (b : byte_list) : Prop :=
  exists j c s', s = j ++ c :: s' /\ junk j /\
    ((c = PAD /\ b = []) \/ exists t b', digit64 c t /\ b = l * 64 + t :: b' /\ payload s' b').
Definition P2 (l : N) (pad : bool) (s : pystr) (b : byte_list) : Prop :=
  (b = [] /\ if pad then exists j s', s = j ++ PAD :: s' /\ junk j
             else exists j1 j2 s', s = j1 ++ PAD :: j2 ++ PAD :: s' /\ junk j1 /\ junk j2) \/
  (exists j c r s' b', s = j ++ c :: s' /\ (if pad then junk j else slack1 j) /\ digit64 c r /\ b = l * 16 + r / 4 :: b' /\ P3 (r mod 4) s' b').
Definition P1 (l : N) (s : pystr) (b : byte_list) : Prop :=
  exists j c q s' b', s = j ++ c :: s' /\ slack j /\ digit64 c q /\ b = l * 4 + q / 16 :: b' /\ P2 (q mod 16) false s' b'.
Definition P0 (s : pystr) (b : byte_list) : Prop :=
  (slack s /\ b = []) \/ exists j c p s', s = j ++ c :: s' /\ slack j /\ digit64 c p /\ P1 p s' b.

Lemma digit64_lt : forall c n, digit64 c n -> n < 64.
Proof. intros c n H. apply digit64_letter in H. tauto. Qed.

(** The arithmetic of a group, with quotients and remainders as variables. *)
Lemma four_split : forall p q r t x y z, q < 64 -> r < 64 -> t < 64 -> p < 64 -> x < 256 -> y < 256 -> z < 256 ->
  x * 65536 + y * 256 + z = p * 262144 + q * 4096 + r * 64 + t ->
  x = p * 4 + q / 16 /\ y = q mod 16 * 16 + r / 4 /\ z = r mod 4 * 64 + t.
Proof.
  intros p q r t x y z Hq Hr Ht Hp Hx Hy Hz E.
  pose proof (N.div_mod q 16 ltac:(lia)) as D1. pose proof (N.mod_lt q 16 ltac:(lia)) as M1.
  pose proof (N.div_mod r 4 ltac:(lia)) as D2. pose proof (N.mod_lt r 4 ltac:(lia)) as M2.
  set (qh := q / 16) in *. set (ql := q mod 16) in *. set (rh := r / 4) in *. set (rl := r mod 4) in *. clearbody qh ql rh rl.
  subst q r. assert (rh < 16) by lia. assert (qh < 4) by lia. lia.
Qed.
Lemma four_join : forall p q r t, q < 64 -> r < 64 -> t < 64 -> p < 64 ->
  p * 4 + q / 16 < 256 /\ q mod 16 * 16 + r / 4 < 256 /\ r mod 4 * 64 + t < 256 /\
  (p * 4 + q / 16) * 65536 + (q mod 16 * 16 + r / 4) * 256 + (r mod 4 * 64 + t) = p * 262144 + q * 4096 + r * 64 + t.
Proof.
  intros p q r t Hq Hr Ht Hp.
  pose proof (N.div_mod q 16 ltac:(lia)) as D1. pose proof (N.mod_lt q 16 ltac:(lia)) as M1.
  pose proof (N.div_mod r 4 ltac:(lia)) as D2. pose proof (N.mod_lt r 4 ltac:(lia)) as M2.
  set (qh := q / 16) in *. set (ql := q mod 16) in *. set (rh := r / 4) in *. set (rl := r mod 4) in *. clearbody qh ql rh rl.
  subst q r. lia.
Qed.
Lemma two_value : forall p q, (p * 64 + q) / 16 = p * 4 + q / 16.
Proof. intros p q. replace (p * 64 + q) with (p * 4 * 16 + q) by lia. rewrite N.div_add_l by lia. reflexivity. Qed.
Lemma three_value : forall p q r x y, p < 64 -> q < 64 -> r < 64 -> y < 256 ->
  (x * 256 + y = (p * 4096 + q * 64 + r) / 4 <-> x = p * 4 + q / 16 /\ y = q mod 16 * 16 + r / 4).
Proof.
  intros p q r x y Hp Hq Hr Hy. replace (p * 4096 + q * 64 + r) with ((p * 1024 + q * 16) * 4 + r) by lia. rewrite N.div_add_l by lia.
  pose proof (N.div_mod q 16 ltac:(lia)) as D1. pose proof (N.mod_lt q 16 ltac:(lia)) as M1.
  pose proof (N.div_mod r 4 ltac:(lia)) as D2. pose proof (N.mod_lt r 4 ltac:(lia)) as M2.
  set (qh := q / 16) in *. set (ql := q mod 16) in *. set (rh := r / 4) in *. set (rl := r mod 4) in *. clearbody qh ql rh rl.
  subst q r. lia.
Qed.

Lemma payload_P0 : forall s b, payload s b <-> P0 s b.
Proof.
  intros s b. split.
  - intros H. inversion H; subst.
    + left. auto.
    + right. exists s1, c1, p, (s2 ++ c2 :: s3 ++ c3 :: s4 ++ c4 :: s0). split; [reflexivity|]. split; [assumption|]. split; [assumption|].
      destruct (four_split p q r t x y z) as (-> & -> & ->); eauto using digit64_lt.
      exists s2, c2, q, (s3 ++ c3 :: s4 ++ c4 :: s0), (q mod 16 * 16 + r / 4 :: r mod 4 * 64 + t :: b0). do 4 (split; [auto|]).
      right. exists s3, c3, r, (s4 ++ c4 :: s0), (r mod 4 * 64 + t :: b0). do 4 (split; [auto|]).
      exists s4, c4, s0. split; [reflexivity|]. split; [assumption|]. right. exists t, b0. auto.
    + right. exists s1, c1, p, (s2 ++ c2 :: s3 ++ PAD :: s4 ++ PAD :: s0). split; [reflexivity|]. split; [assumption|]. split; [assumption|].
      rewrite two_value. exists s2, c2, q, (s3 ++ PAD :: s4 ++ PAD :: s0), []. do 4 (split; [auto|]). left. split; [reflexivity|]. exists s3, s4, s0. auto.
    + right. exists s1, c1, p, (s2 ++ c2 :: s3 ++ c3 :: s4 ++ PAD :: s0). split; [reflexivity|]. split; [assumption|]. split; [assumption|].
      match goal with H : _ = (_ / _) |- _ => apply three_value in H; eauto using digit64_lt; destruct H as [-> ->] end.
      exists s2, c2, q, (s3 ++ c3 :: s4 ++ PAD :: s0), [q mod 16 * 16 + r / 4]. do 4 (split; [auto|]).
      right. exists s3, c3, r, (s4 ++ PAD :: s0), []. do 4 (split; [auto|]). exists s4, PAD, s0. auto.
  - intros [[H ->]|(s1 & c1 & p & s' & -> & S1 & D1 & s2 & c2 & q & s'' & b' & -> & S2 & D2 & -> & H)]; [constructor; assumption|].
    destruct H as [(-> & s3 & s4 & s0 & -> & J3 & J4)|(s3 & c3 & r & s''' & b'' & -> & J3 & D3 & -> & s4 & c4 & s0 & -> & J4 & H)].
    + apply (p_two s1 c1 p s2 c2 q s3 s4 s0); auto. rewrite two_value. reflexivity.
    + destruct H as [[-> ->]|(t & b0 & D4 & -> & H)].
      * apply (p_three s1 c1 p s2 c2 q s3 c3 r s4 s0); auto.
        -- destruct (four_join p q r 0) as (_ & B & _); eauto using digit64_lt. lia.
        -- apply three_value; eauto using digit64_lt. destruct (four_join p q r 0) as (_ & B & _); eauto using digit64_lt. lia.
      * destruct (four_join p q r t) as (B1 & B2 & B3 & E); eauto using digit64_lt.
        apply (p_four s1 c1 p s2 c2 q s3 c3 r s4 c4 t s0); auto.
Qed.

Definition P (q : quad) (s : pystr) (b : byte_list) : Prop :=
  match q with Q0 => payload s b | Q1 l => P1 l s b | Q2 l p => P2 l p s b | Q3 l => P3 l s b end.

(** Splitting a text at its first letter or sign. *)
Lemma cons_split : forall {A} (c : A) s j x s', c :: s = j ++ x :: s' -> (j = [] /\ c = x /\ s = s') \/ exists j', j = c :: j' /\ s = j' ++ x :: s'.
Proof. intros A c s [|y j] x s' H; cbn in H; injection H as -> ->; [left; auto|right; eauto]. Qed.
Lemma slack_junk : forall s, junk s -> slack s.
Proof. intros s H. eapply Forall_impl; [|exact H]. intros c [N _]. exact N. Qed.

Lemma P_nil : forall q b, P q [] b <-> q = Q0 /\ b = [].
Proof.
  assert (X : forall {A} (j : list A) c s, [] <> j ++ c :: s) by (intros A [|] c s; discriminate).
  intros [|l|l [|]|l] b; unfold P; split.
  - intros H. split; [reflexivity|]. inversion H; subst; try reflexivity; match goal with E : _ ++ _ :: _ = [] |- _ => symmetry in E; apply X in E; destruct E end.
  - intros [_ ->]. constructor. constructor.
  - intros (j & c & q & s' & b' & E & _). apply X in E. destruct E.
  - intros [E _]. discriminate.
  - intros [(_ & j & s' & E & _)|(j & c & r & s' & b' & E & _)]; apply X in E; destruct E.
  - intros [E _]. discriminate.
  - intros [(_ & j & j2 & s' & E & _)|(j & c & r & s' & b' & E & _)]; apply X in E; destruct E.
  - intros [E _]. discriminate.
  - intros (j & c & s' & E & _). apply X in E. destruct E.
  - intros [E _]. discriminate.
Qed.

Lemma P0_skip : forall c s b, ~ In c alphabet -> (payload (c :: s) b <-> payload s b).
Proof.
  intros c s b N. rewrite !payload_P0. split.
  - intros [[H ->]|(j & x & p & s' & E & S & D & H)].
    + left. split; [inversion H; assumption|reflexivity].
    + apply cons_split in E. destruct E as [(-> & -> & ->)|(j' & -> & ->)]; [destruct N; eapply digit_in; eauto|].
      right. exists j', x, p, s'. inversion S; subst. auto.
  - intros [[H ->]|(j & x & p & s' & -> & S & D & H)].
    + left. split; [constructor; assumption|reflexivity].
    + right. exists (c :: j), x, p, s'. split; [reflexivity|]. split; [constructor; assumption|]. auto.
Qed.
Lemma P1_skip : forall l c s b, ~ In c alphabet -> (P1 l (c :: s) b <-> P1 l s b).
Proof.
  intros l c s b N. split.
  - intros (j & x & p & s' & b' & E & S & D & H).
    apply cons_split in E. destruct E as [(-> & -> & ->)|(j' & -> & ->)]; [destruct N; eapply digit_in; eauto|].
    exists j', x, p, s', b'. inversion S; subst. auto.
  - intros (j & x & p & s' & b' & -> & S & D & H).
    exists (c :: j), x, p, s', b'. split; [reflexivity|]. split; [constructor; assumption|]. auto.
Qed.
Lemma slack1_cons : forall c s, ~ In c alphabet -> c <> PAD -> (slack1 (c :: s) <-> slack1 s).
Proof.
  intros c s N1 N2. unfold slack1. split.
  - intros [H|(a & b & E & Ha & Hb)]; [left; inversion H; assumption|]. apply cons_split in E. destruct E as [(-> & -> & ->)|(j' & -> & ->)]; [congruence|].
    right. exists j', b. inversion Ha; subst. auto.
  - intros [H|(a & b & -> & Ha & Hb)]; [left; constructor; auto|]. right. exists (c :: a), b. split; [reflexivity|]. split; [constructor; auto|]. exact Hb.
Qed.
Lemma P_junk : forall q c s b, ~ In c alphabet -> c <> PAD -> (P q (c :: s) b <-> P q s b).
Proof.
  intros [|l|l [|]|l] c s b N1 N2; unfold P; [apply P0_skip; auto|apply P1_skip; auto| | |].
  - split.
    + intros [(-> & j & s' & E & J)|(j & x & r & s' & b' & E & J & D & H)]; apply cons_split in E; destruct E as [(-> & -> & ->)|(j' & -> & ->)].
      * congruence.
      * left. split; [reflexivity|]. exists j', s'. inversion J; subst. auto.
      * destruct N1. eapply digit_in; eauto.
      * right. exists j', x, r, s', b'. inversion J; subst. auto.
    + intros [(-> & j & s' & -> & J)|(j & x & r & s' & b' & -> & J & D & H)].
      * left. split; [reflexivity|]. exists (c :: j), s'. split; [reflexivity|]. constructor; auto.
      * right. exists (c :: j), x, r, s', b'. split; [reflexivity|]. split; [constructor; auto|]. auto.
  - split.
    + intros [(-> & j & j2 & s' & E & J & J2)|(j & x & r & s' & b' & E & J & D & H)]; apply cons_split in E; destruct E as [(-> & -> & ->)|(j' & -> & ->)].
      * congruence.
      * left. split; [reflexivity|]. exists j', j2, s'. inversion J; subst. auto.
      * destruct N1. eapply digit_in; eauto.
      * right. exists j', x, r, s', b'. apply slack1_cons in J; auto.
    + intros [(-> & j & j2 & s' & -> & J & J2)|(j & x & r & s' & b' & -> & J & D & H)].
      * left. split; [reflexivity|]. exists (c :: j), j2, s'. split; [reflexivity|]. split; [constructor; auto|exact J2].
      * right. exists (c :: j), x, r, s', b'. split; [reflexivity|]. split; [apply slack1_cons; auto|]. auto.
  - split.
    + intros (j & x & s' & E & J & H). apply cons_split in E. destruct E as [(-> & -> & ->)|(j' & -> & ->)].
      * destruct H as [[-> _]|(t & b' & D & _)]; [congruence|]. destruct N1. eapply digit_in; eauto.
      * exists j', x, s'. inversion J; subst. auto.
    + intros (j & x & s' & -> & J & H). exists (c :: j), x, s'. split; [reflexivity|]. split; [constructor; auto|]. exact H.
Qed.
Lemma junk_pad : forall j, ~ junk (PAD :: j).
Proof. intros j H. inversion H as [|? ? [_ N] _]; subst. exact (N eq_refl). Qed.
Lemma slack1_pad : forall s, slack1 (PAD :: s) <-> junk s.
Proof.
  intros s. split.
  - intros [H|(a & b & E & Ha & Hb)]; [destruct (junk_pad _ H)|]. apply cons_split in E. destruct E as [(-> & _ & ->)|(j' & -> & _)]; [exact Hb|destruct (junk_pad _ Ha)].
  - intros H. right. exists [], s. split; [reflexivity|]. split; [constructor|exact H].
Qed.
Lemma P_pad : forall q s b, P q (PAD :: s) b <->
  match q with Q2 l false => P (Q2 l true) s b | Q2 _ true | Q3 _ => b = [] | Q0 | Q1 _ => P q s b end.
Proof.
  intros [|l|l [|]|l] s b; unfold P; [apply P0_skip, pad_none|apply P1_skip, pad_none| | |].
  - split.
    + intros [(-> & _)|(j & x & r & s' & b' & E & J & D & H)]; [reflexivity|]. apply cons_split in E. destruct E as [(-> & <- & ->)|(j' & -> & ->)].
      * destruct pad_none. eapply digit_in; eauto.
      * destruct (junk_pad _ J).
    + intros ->. left. split; [reflexivity|]. exists [], s. split; [reflexivity|constructor].
  - split.
    + intros [(-> & j & j2 & s' & E & J & J2)|(j & x & r & s' & b' & E & J & D & H)]; apply cons_split in E; destruct E as [(-> & E & ->)|(j' & -> & ->)].
      * left. split; [reflexivity|]. exists j2, s'. auto.
      * destruct (junk_pad _ J).
      * destruct pad_none. rewrite E. eapply digit_in; eauto.
      * right. exists j', x, r, s', b'. apply slack1_pad in J. auto.
    + intros [(-> & j & s' & -> & J)|(j & x & r & s' & b' & -> & J & D & H)].
      * left. split; [reflexivity|]. exists [], j, s'. split; [reflexivity|]. split; [constructor|exact J].
      * right. exists (PAD :: j), x, r, s', b'. split; [reflexivity|]. split; [apply slack1_pad; exact J|]. auto.
  - split.
    + intros (j & x & s' & E & J & H). apply cons_split in E. destruct E as [(-> & <- & ->)|(j' & -> & ->)]; [|destruct (junk_pad _ J)].
      destruct H as [[_ ->]|(t & b' & D & _)]; [reflexivity|]. destruct pad_none. eapply digit_in; eauto.
    + intros ->. exists [], PAD, s. split; [reflexivity|]. split; [constructor|]. left. auto.
Qed.
Lemma digit_det : forall c n m, digit64 c n -> digit64 c m -> n = m.
Proof. intros c n m H1 H2. apply sextet_digit in H1, H2. congruence. Qed.
Lemma junk_letter : forall c n j, digit64 c n -> ~ junk (c :: j).
Proof. intros c n j D H. inversion H as [|? ? [N _] _]; subst. exact (N (digit_in _ _ D)). Qed.
Lemma slack_letter : forall c n j, digit64 c n -> ~ slack (c :: j).
Proof. intros c n j D H. inversion H as [|? ? N _]; subst. exact (N (digit_in _ _ D)). Qed.
Lemma slack1_letter : forall c n j, digit64 c n -> ~ slack1 (c :: j).
Proof.
  intros c n j D [H|(a & b & E & Ha & Hb)]; [eapply junk_letter; eauto|]. apply cons_split in E. destruct E as [(-> & -> & ->)|(j' & -> & ->)].
  - apply pad_none. eapply digit_in; eauto.
  - eapply junk_letter; eauto.
Qed.
Lemma P_letter : forall q c n s b, digit64 c n -> (P q (c :: s) b <->
  match q with
  | Q0 => P (Q1 n) s b
  | Q1 l => exists b', b = l * 4 + n / 16 :: b' /\ P (Q2 (n mod 16) false) s b'
  | Q2 l _ => exists b', b = l * 16 + n / 4 :: b' /\ P (Q3 (n mod 4)) s b'
  | Q3 l => exists b', b = l * 64 + n :: b' /\ P Q0 s b'
  end).
Proof.
  intros [|l|l p|l] c n s b D; unfold P.
  - rewrite payload_P0. split.
    + intros [[H _]|(j & x & m & s' & E & S & D' & H)]; [destruct (slack_letter _ _ _ D H)|]. apply cons_split in E. destruct E as [(-> & <- & ->)|(j' & -> & ->)].
      * rewrite (digit_det _ _ _ D D'). exact H.
      * destruct (slack_letter _ _ _ D S).
    + intros H. right. exists [], c, n, s. split; [reflexivity|]. split; [constructor|]. auto.
  - split.
    + intros (j & x & m & s' & b' & E & S & D' & -> & H). apply cons_split in E. destruct E as [(-> & <- & ->)|(j' & -> & ->)].
      * rewrite (digit_det _ _ _ D D'). eauto.
      * destruct (slack_letter _ _ _ D S).
    + intros (b' & -> & H). exists [], c, n, s, b'. split; [reflexivity|]. split; [constructor|]. auto.
  - split.
    + intros [(-> & H)|(j & x & m & s' & b' & E & S & D' & -> & H)].
      * exfalso. destruct p; [destruct H as (j & s' & E & J)|destruct H as (j & j2 & s' & E & J & _)]; apply cons_split in E; destruct E as [(-> & -> & ->)|(j' & -> & ->)];
          (apply pad_none; eapply digit_in; eassumption) || (eapply junk_letter; eassumption).
      * apply cons_split in E. destruct E as [(-> & <- & ->)|(j' & -> & ->)].
        -- rewrite (digit_det _ _ _ D D'). eauto.
        -- exfalso. destruct p; [exact (junk_letter _ _ _ D S)|exact (slack1_letter _ _ _ D S)].
    + intros (b' & -> & H). right. exists [], c, n, s, b'. split; [reflexivity|]. split; [destruct p; [constructor|left; constructor]|]. auto.
  - split.
    + intros (j & x & s' & E & J & H). apply cons_split in E. destruct E as [(-> & <- & ->)|(j' & -> & ->)]; [|destruct (junk_letter _ _ _ D J)].
      destruct H as [[-> _]|(t & b' & D' & -> & H)]; [destruct pad_none; eapply digit_in; eauto|]. rewrite (digit_det _ _ _ D D'). eauto.
    + intros (b' & -> & H). exists [], c, s. split; [reflexivity|]. split; [constructor|]. right. exists n, b'. auto.
Qed.

Lemma map_cons_some : forall x (o : option byte_list) b, option_map (cons x) o = Some b <-> exists b', b = x :: b' /\ o = Some b'.
Proof. intros x [o|] b; cbn; split; intros H; [injection H as <-; eauto|destruct H as (b' & -> & H); congruence|discriminate|destruct H as (b' & _ & H); discriminate]. Qed.

Lemma a2b_P : forall s q b, a2b s q = Some b <-> P q s b.
Proof.
  induction s as [|c s IH]; intros q b.
  - rewrite P_nil. cbn [a2b]. destruct q; split; intros H; try discriminate; try (destruct H; discriminate); [injection H as <-; auto|destruct H as [_ ->]; reflexivity].
  - cbn [a2b]. destruct (N.eqb_spec c PAD) as [->|Np].
    + rewrite P_pad. destruct q as [|l|l [|]|l]; try apply IH; (split; intros X; [injection X as <-; reflexivity|rewrite X; reflexivity]).
    + destruct (sextet c) as [n|] eqn:E.
      * rewrite (P_letter q c n s b) by (apply sextet_digit; exact E). destruct q as [|l|l p|l]; [apply IH| | |];
          rewrite map_cons_some; split; intros (b' & -> & H); exists b'; split; auto; apply IH; exact H.
      * rewrite P_junk by (auto; apply sextet_none; exact E). apply IH.
Qed.

Lemma b64decode_iff : forall s b, b64decode s = Ok b <-> Forall (fun c => c < 128) s /\ payload s b.
Proof.
  intros s b. unfold b64decode. destruct (forallb (fun c => c <? 128) s) eqn:A.
  - assert (F : Forall (fun c => c < 128) s) by (apply Forall_forall; intros c I; rewrite forallb_forall in A; apply N.ltb_lt, A, I).
    pose proof (a2b_P s Q0 b) as H. unfold P in H. rewrite <- H. destruct (a2b s Q0) as [b'|]; split; try discriminate; intros E.
    + injection E as ->. auto.
    + destruct E as [_ E]. congruence.
    + destruct E as [_ E]. discriminate.
  - split; [discriminate|]. intros [F _]. rewrite Forall_forall in F. assert (forallb (fun c => c <? 128) s = true) by (apply forallb_forall; intros c I; apply N.ltb_lt, F, I). congruence.
Qed.

(** *** the encoder *)
Lemma byte_split : forall x, x < 256 -> x / 4 < 64 /\ x mod 4 < 4 /\ x / 16 < 16 /\ x mod 16 < 16 /\ x / 64 < 4 /\ x mod 64 < 64.
Proof.
  intros x H. repeat split; try (apply N.mod_lt; lia); apply N.div_lt_upper_bound; lia.
Qed.
Lemma list_ind3 : forall {A} (Q : list A -> Prop), Q [] -> (forall x, Q [x]) -> (forall x y, Q [x; y]) ->
  (forall x y z l, Q l -> Q (x :: y :: z :: l)) -> forall l, Q l.
Proof.
  intros A Q H0 H1 H2 H3. assert (G : forall l, Q l /\ (forall x, Q (x :: l)) /\ (forall x y, Q (x :: y :: l))).
  { induction l as [|a l (I1 & I2 & I3)]; [auto|]. split; [apply I2|]. split; [intros x; apply I3|]. intros x y. apply H3. exact I1. }
  intros l. apply G.
Qed.
Lemma encode_payload : forall b, Forall (fun x => x < 256) b -> payload (b64encode b) b /\ Forall (fun c => c < 128) (b64encode b) /\
  Forall (fun c => In c alphabet \/ c = PAD) (b64encode b).
Proof.
  apply (list_ind3 (fun b => Forall (fun x => x < 256) b -> payload (b64encode b) b /\ Forall (fun c => c < 128) (b64encode b) /\
    Forall (fun c => In c alphabet \/ c = PAD) (b64encode b))).
  - intros _. split; [constructor; constructor|]. split; constructor.
  - intros x H. inversion H as [|? ? Hx _]; subst. destruct (byte_split x Hx) as (A1 & A2 & _).
    assert (B : x mod 4 * 16 < 64) by lia. destruct (letter_digit _ A1) as (D1 & _ & L1 & N1), (letter_digit _ B) as (D2 & _ & L2 & N2). split; [|split].
    + apply (p_two [] _ (x / 4) [] _ (x mod 4 * 16) [] [] []); auto; try constructor.
      pose proof (N.div_mod x 4 ltac:(lia)) as E. set (h := x / 4) in *. set (l := x mod 4) in *. clearbody h l.
      rewrite two_value. rewrite N.div_mul by lia. lia.
    + cbn [b64encode]. repeat apply Forall_cons; try apply Forall_nil; assumption || reflexivity.
    + cbn [b64encode]. repeat apply Forall_cons; try apply Forall_nil; (left; eapply digit_in; eassumption) || (right; reflexivity).
  - intros x y H. inversion H as [|? ? Hx H']; subst. inversion H' as [|? ? Hy _]; subst.
    destruct (byte_split x Hx) as (A1 & A2 & _), (byte_split y Hy) as (_ & _ & A3 & A4 & _).
    assert (B1 : x mod 4 * 16 + y / 16 < 64) by lia. assert (B2 : y mod 16 * 4 < 64) by lia.
    destruct (letter_digit _ A1) as (D1 & _ & L1 & N1), (letter_digit _ B1) as (D2 & _ & L2 & N2), (letter_digit _ B2) as (D3 & _ & L3 & N3). split; [|split].
    + apply (p_three [] _ (x / 4) [] _ (x mod 4 * 16 + y / 16) [] _ (y mod 16 * 4) [] []); auto; try constructor; try constructor.
      pose proof (N.div_mod x 4 ltac:(lia)) as E1. pose proof (N.div_mod y 16 ltac:(lia)) as E2.
      set (h := x / 4) in *. set (l := x mod 4) in *. set (i := y / 16) in *. set (k := y mod 16) in *. clearbody h l i k.
      replace (h * 4096 + (l * 16 + i) * 64 + k * 4) with ((h * 1024 + (l * 16 + i) * 16 + k) * 4) by lia. rewrite N.div_mul by lia. lia.
    + cbn [b64encode]. repeat apply Forall_cons; try apply Forall_nil; assumption || reflexivity.
    + cbn [b64encode]. repeat apply Forall_cons; try apply Forall_nil; (left; eapply digit_in; eassumption) || (right; reflexivity).
  - intros x y z b IH H. inversion H as [|? ? Hx H']; subst. inversion H' as [|? ? Hy H'']; subst. inversion H'' as [|? ? Hz H3]; subst.
    destruct (IH H3) as (I1 & I2 & I3).
    destruct (byte_split x Hx) as (A1 & A2 & _), (byte_split y Hy) as (_ & _ & A3 & A4 & _), (byte_split z Hz) as (_ & _ & _ & _ & A5 & A6).
    assert (B1 : x mod 4 * 16 + y / 16 < 64) by lia. assert (B2 : y mod 16 * 4 + z / 64 < 64) by lia.
    destruct (letter_digit _ A1) as (D1 & _ & L1 & N1), (letter_digit _ B1) as (D2 & _ & L2 & N2), (letter_digit _ B2) as (D3 & _ & L3 & N3), (letter_digit _ A6) as (D4 & _ & L4 & N4). split; [|split].
    + cbn [b64encode]. apply (p_four [] _ (x / 4) [] _ (x mod 4 * 16 + y / 16) [] _ (y mod 16 * 4 + z / 64) [] _ (z mod 64)); auto; try constructor; try constructor.
      pose proof (N.div_mod x 4 ltac:(lia)) as E1. pose proof (N.div_mod y 16 ltac:(lia)) as E2. pose proof (N.div_mod z 64 ltac:(lia)) as E3.
      set (h := x / 4) in *. set (l := x mod 4) in *. set (i := y / 16) in *. set (k := y mod 16) in *. set (m := z / 64) in *. set (n := z mod 64) in *. clearbody h l i k m n. lia.
    + cbn [b64encode]. repeat apply Forall_cons; assumption.
    + cbn [b64encode]. repeat apply Forall_cons; try assumption; left; eapply digit_in; eassumption.
Qed.
Lemma decode_encode : forall b, Forall (fun x => x < 256) b -> b64decode (b64encode b) = Ok b.
Proof. intros b H. destruct (encode_payload b H) as (H1 & H2 & _). apply b64decode_iff. auto. Qed.
