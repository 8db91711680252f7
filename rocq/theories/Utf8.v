(** UTF-8 as [str.encode()] and [bytes.decode()] of Python (strict): bytes and
    characters are numbers. *)
From Coq Require Import ZArith NArith List Bool Lia.
From Verif Require Import Common.
Import ListNotations.
Local Open Scope N_scope.

(** Unicode scalar values. *)
Definition scalar (c : N) : bool := (c <? 55296) || ((57344 <=? c) && (c <? 1114112)).
Definition utf8_char (c : N) : list N :=
  if c <? 128 then [c]
  else if c <? 2048 then [192 + c / 64; 128 + c mod 64]
  else if c <? 65536 then [224 + c / 64 / 64; 128 + (c / 64) mod 64; 128 + c mod 64]
  else [240 + c / 64 / 64 / 64; 128 + (c / 64 / 64) mod 64; 128 + (c / 64) mod 64; 128 + c mod 64].
(** [s.encode()]; lone surrogates are an error. *)
Definition utf8_encode (s : pystr) : option (list N) :=
  if forallb scalar s then Some (flat_map utf8_char s) else None.

Definition cont (b : N) : bool := (128 <=? b) && (b <? 192).
Definition within (lo b hi : N) : bool := (lo <=? b) && (b <=? hi).
(** [b.decode()]. *)
Fixpoint utf8_decode (s : list N) : option pystr :=
  match s with
  | [] => Some []
  | b0 :: s1 =>
      if b0 <? 128 then option_map (cons b0) (utf8_decode s1)
      else
        match s1 with
        | [] => None
        | b1 :: s2 =>
            if within 194 b0 223 then
              if cont b1 then option_map (cons ((b0 - 192) * 64 + (b1 - 128))) (utf8_decode s2) else None
            else
              match s2 with
              | [] => None
              | b2 :: s3 =>
                  if within 224 b0 239 then
                    if cont b1 && cont b2 && (negb (b0 =? 224) || (160 <=? b1)) && (negb (b0 =? 237) || (b1 <? 160))
                    then option_map (cons ((b0 - 224) * 4096 + (b1 - 128) * 64 + (b2 - 128))) (utf8_decode s3) else None
                  else
                    match s3 with
                    | [] => None
                    | b3 :: s4 =>
                        if within 240 b0 244 && cont b1 && cont b2 && cont b3 && (negb (b0 =? 240) || (144 <=? b1)) && (negb (b0 =? 244) || (b1 <? 144))
                        then option_map (cons ((b0 - 240) * 262144 + (b1 - 128) * 4096 + (b2 - 128) * 64 + (b3 - 128))) (utf8_decode s4) else None
                    end
              end
        end
  end.

Ltac bools := repeat match goal with
  | |- context [N.ltb ?a ?b] => destruct (N.ltb_spec a b); try lia
  | |- context [N.leb ?a ?b] => destruct (N.leb_spec a b); try lia
  | |- context [N.eqb ?a ?b] => destruct (N.eqb_spec a b); try lia
  end.
Lemma split64 : forall c, exists q r, c / 64 = q /\ c mod 64 = r /\ c = q * 64 + r /\ r < 64.
Proof.
  intros c. exists (c / 64), (c mod 64). split; [reflexivity|]. split; [reflexivity|]. split.
  - rewrite N.mul_comm. apply N.div_mod. discriminate.
  - apply N.mod_lt. discriminate.
Qed.
Lemma join64 : forall q r, r < 64 -> (q * 64 + r) / 64 = q /\ (q * 64 + r) mod 64 = r.
Proof.
  intros q r H. rewrite (N.mul_comm q). split; [symmetry; apply (N.div_unique _ 64 q r)|symmetry; apply (N.mod_unique _ 64 q r)]; auto.
Qed.
Lemma cont_ok : forall r, r < 64 -> cont (128 + r) = true.
Proof. intros r H. unfold cont. apply andb_true_iff. rewrite N.leb_le, N.ltb_lt. lia. Qed.
Lemma cont_of : forall b, cont b = true -> exists r, b = 128 + r /\ r < 64.
Proof. intros b H. unfold cont in H. apply andb_true_iff in H. rewrite N.leb_le, N.ltb_lt in H. exists (b - 128). lia. Qed.
Lemma add_sub : forall a b, a + b - a = b.
Proof. intros; lia. Qed.
Lemma ltb_t : forall a b, a < b -> (a <? b) = true.
Proof. intros. apply N.ltb_lt. assumption. Qed.
Lemma ltb_f : forall a b, b <= a -> (a <? b) = false.
Proof. intros. apply N.ltb_ge. assumption. Qed.
Lemma within_t : forall a b c, a <= b -> b <= c -> within a b c = true.
Proof. intros. unfold within. apply andb_true_iff. rewrite !N.leb_le. auto. Qed.
Lemma within_f : forall a b c, c < b -> within a b c = false.
Proof. intros. unfold within. apply andb_false_iff. right. apply N.leb_gt. assumption. Qed.

Lemma utf8_decode_char : forall c r, scalar c = true -> utf8_decode (utf8_char c ++ r) = option_map (cons c) (utf8_decode r).
Proof.
  intros c r S. unfold scalar in S. rewrite orb_true_iff, andb_true_iff, N.ltb_lt, N.leb_le, N.ltb_lt in S. unfold utf8_char.
  destruct (N.ltb_spec c 128) as [H|H].
  { cbn [app utf8_decode]. rewrite ltb_t by exact H. reflexivity. }
  destruct (split64 c) as (q & r0 & -> & -> & E & R). destruct (split64 q) as (q1 & r1 & -> & -> & E1 & R1). destruct (split64 q1) as (q2 & r2 & -> & -> & E2 & R2).
  destruct (N.ltb_spec c 2048) as [H2|H2]; [|destruct (N.ltb_spec c 65536) as [H3|H3]]; cbn [app utf8_decode].
  - rewrite ltb_f, within_t, cont_ok, !add_sub, <- E by lia. reflexivity.
  - rewrite ltb_f, within_f, within_t, !cont_ok, !add_sub by lia.
    replace (q1 * 4096 + r1 * 64 + r0) with c by lia. cbn [andb].
    assert (A : (negb (224 + q1 =? 224) || (160 <=? 128 + r1))%bool = true) by (apply orb_true_iff; rewrite negb_true_iff, N.eqb_neq, N.leb_le; lia).
    assert (B : (negb (224 + q1 =? 237) || (128 + r1 <? 160))%bool = true) by (apply orb_true_iff; rewrite negb_true_iff, N.eqb_neq, N.ltb_lt; lia).
    rewrite A, B. reflexivity.
  - rewrite ltb_f, !within_f, within_t, !cont_ok, !add_sub by lia.
    replace (q2 * 262144 + r2 * 4096 + r1 * 64 + r0) with c by lia. cbn [andb].
    assert (A : (negb (240 + q2 =? 240) || (144 <=? 128 + r2))%bool = true) by (apply orb_true_iff; rewrite negb_true_iff, N.eqb_neq, N.leb_le; lia).
    assert (B : (negb (240 + q2 =? 244) || (128 + r2 <? 144))%bool = true) by (apply orb_true_iff; rewrite negb_true_iff, N.eqb_neq, N.ltb_lt; lia).
    rewrite A, B. reflexivity.
Qed.
Lemma utf8_decode_encode : forall s b, utf8_encode s = Some b -> utf8_decode b = Some s.
Proof.
  intros s b H. unfold utf8_encode in H. destruct (forallb scalar s) eqn:F; [|discriminate]. injection H as <-.
  induction s as [|c s IH]; [reflexivity|]. cbn [forallb] in F. apply andb_true_iff in F. destruct F as [C F]. cbn [flat_map].
  rewrite utf8_decode_char by exact C. rewrite (IH F). reflexivity.
Qed.
Lemma utf8_encode_cons : forall c s b, scalar c = true -> utf8_encode s = Some b -> utf8_encode (c :: s) = Some (utf8_char c ++ b).
Proof.
  intros c s b C H. unfold utf8_encode in *. cbn [forallb flat_map]. rewrite C. cbn [andb]. destruct (forallb scalar s); [|discriminate]. injection H as <-. reflexivity.
Qed.
Lemma char2 : forall q r0, 2 <= q -> q < 32 -> r0 < 64 -> utf8_char (q * 64 + r0) = [192 + q; 128 + r0] /\ scalar (q * 64 + r0) = true.
Proof.
  intros q r0 A B C. unfold utf8_char. destruct (join64 q r0 C) as [-> ->]. rewrite ltb_f, ltb_t by lia. split; [reflexivity|].
  unfold scalar. rewrite ltb_t by lia. reflexivity.
Qed.
Lemma char3 : forall q r1 r0, q < 16 -> r1 < 64 -> r0 < 64 -> (0 < q \/ 32 <= r1) -> (q <> 13 \/ r1 < 32) ->
  utf8_char (q * 4096 + r1 * 64 + r0) = [224 + q; 128 + r1; 128 + r0] /\ scalar (q * 4096 + r1 * 64 + r0) = true.
Proof.
  intros q r1 r0 A B C D E. replace (q * 4096 + r1 * 64 + r0) with ((q * 64 + r1) * 64 + r0) by lia. unfold utf8_char.
  destruct (join64 (q * 64 + r1) r0 C) as [-> ->]. destruct (join64 q r1 B) as [-> ->]. rewrite ltb_f, ltb_f, ltb_t by lia. split; [reflexivity|].
  unfold scalar. apply orb_true_iff. rewrite andb_true_iff, N.leb_le, !N.ltb_lt. lia.
Qed.
Lemma char4 : forall q r2 r1 r0, q < 5 -> r2 < 64 -> r1 < 64 -> r0 < 64 -> (0 < q \/ 16 <= r2) -> (q <> 4 \/ r2 < 16) ->
  utf8_char (q * 262144 + r2 * 4096 + r1 * 64 + r0) = [240 + q; 128 + r2; 128 + r1; 128 + r0] /\ scalar (q * 262144 + r2 * 4096 + r1 * 64 + r0) = true.
Proof.
  intros q r2 r1 r0 A B C D E F. replace (q * 262144 + r2 * 4096 + r1 * 64 + r0) with (((q * 64 + r2) * 64 + r1) * 64 + r0) by lia. unfold utf8_char.
  destruct (join64 ((q * 64 + r2) * 64 + r1) r0 D) as [-> ->]. destruct (join64 (q * 64 + r2) r1 C) as [-> ->]. destruct (join64 q r2 B) as [-> ->].
  rewrite !ltb_f by lia. split; [reflexivity|]. unfold scalar. apply orb_true_iff. rewrite andb_true_iff, N.leb_le, !N.ltb_lt. lia.
Qed.
Lemma within_of : forall a b c, within a b c = true -> exists q, b = a + q /\ q <= c - a.
Proof. intros a b c H. unfold within in H. apply andb_true_iff in H. rewrite !N.leb_le in H. exists (b - a). lia. Qed.
Lemma utf8_encode_decode : forall b s, utf8_decode b = Some s -> utf8_encode s = Some b.
Proof.
  assert (G : forall n b, (length b <= n)%nat -> forall s, utf8_decode b = Some s -> utf8_encode s = Some b).
  { induction n as [|n IH]; intros b L s H.
    - destruct b; [|cbn in L; lia]. injection H as <-. reflexivity.
    - destruct b as [|b0 s1]; [injection H as <-; reflexivity|]. cbn [utf8_decode] in H. cbn [length] in L.
      assert (K : forall c pre rest, option_map (cons c) (utf8_decode rest) = Some s -> (length rest <= n)%nat -> utf8_char c = pre /\ scalar c = true -> utf8_encode s = Some (pre ++ rest)).
      { intros c pre rest O Lr [E C]. destruct (utf8_decode rest) as [t|] eqn:D; [|discriminate]. injection O as <-. subst pre.
        apply utf8_encode_cons; [exact C|]. apply IH; assumption. }
      destruct (b0 <? 128) eqn:B0.
      + apply N.ltb_lt in B0. apply (K b0 [b0] s1 H); [lia|]. unfold scalar, utf8_char. rewrite !ltb_t by lia. split; reflexivity.
      + destruct s1 as [|b1 s2]; [discriminate|]. cbn [length] in L. destruct (within 194 b0 223) eqn:W2.
        * destruct (cont b1) eqn:C1; [|discriminate]. apply cont_of in C1. destruct C1 as (r0 & -> & R0). apply within_of in W2. destruct W2 as (q & -> & Q).
          replace (194 + q - 192) with (q + 2) in H by lia. rewrite add_sub in H.
          apply (K _ [194 + q; 128 + r0] s2 H); [lia|]. replace (194 + q) with (192 + (q + 2)) by lia. apply char2; lia.
        * destruct s2 as [|b2 s3]; [discriminate|]. cbn [length] in L. destruct (within 224 b0 239) eqn:W3.
          -- match type of H with (if ?c then _ else _) = _ => destruct c eqn:C; [|discriminate] end.
             apply within_of in W3. destruct W3 as (q & -> & Q). rewrite !andb_true_iff, !orb_true_iff, !negb_true_iff, !N.eqb_neq, N.leb_le, N.ltb_lt in C.
             destruct C as [[[C1 C2] C3] C4]. apply cont_of in C1, C2. destruct C1 as (r1 & -> & R1), C2 as (r0 & -> & R0). rewrite !add_sub in H.
             apply (K _ [224 + q; 128 + r1; 128 + r0] s3 H); [lia|]. apply char3; lia.
          -- destruct s3 as [|b3 s4]; [discriminate|]. cbn [length] in L.
             match type of H with (if ?c then _ else _) = _ => destruct c eqn:C; [|discriminate] end.
             rewrite !andb_true_iff, !orb_true_iff, !negb_true_iff, !N.eqb_neq, N.leb_le, N.ltb_lt in C.
             destruct C as [[[[[W C1] C2] C3] C4] C5]. apply within_of in W. destruct W as (q & -> & Q).
             apply cont_of in C1, C2, C3. destruct C1 as (r2 & -> & R2), C2 as (r1 & -> & R1), C3 as (r0 & -> & R0). rewrite !add_sub in H.
             apply (K _ [240 + q; 128 + r2; 128 + r1; 128 + r0] s4 H); [lia|]. apply char4; lia. }
  intros b s. exact (G (length b) b (le_n _) s).
Qed.
Lemma utf8_bytes : forall s b, utf8_encode s = Some b -> Forall (fun x => x < 256) b.
Proof.
  intros s b H. unfold utf8_encode in H. destruct (forallb scalar s) eqn:F; [|discriminate]. injection H as <-.
  rewrite Forall_forall. intros x I. apply in_flat_map in I. destruct I as (c & C & I). rewrite forallb_forall in F. specialize (F c C). unfold scalar in F.
  rewrite orb_true_iff, andb_true_iff, N.ltb_lt, N.leb_le, N.ltb_lt in F.
  unfold utf8_char in I. destruct (split64 c) as (q & r0 & E & E' & E0 & R). rewrite E, E' in I. destruct (split64 q) as (q1 & r1 & D & D' & E1 & R1). rewrite D, D' in I.
  destruct (split64 q1) as (q2 & r2 & B & B' & E2 & R2). rewrite B, B' in I.
  destruct (N.ltb_spec c 128); [|destruct (N.ltb_spec c 2048); [|destruct (N.ltb_spec c 65536)]]; cbn [In] in I; repeat (destruct I as [<-|I]; [lia|]); destruct I.
Qed.
