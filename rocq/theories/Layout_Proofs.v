From Coq Require Import ZArith NArith List Bool String Lia.
From Verif Require Import Common Dict Version_Model Version_Proofs Codec_Model Codec_Spec Codec_Json_Proofs Codec_Proofs
  Layout_Model Layout_Spec.
Import ListNotations.
Local Open Scope list_scope.
Local Open Scope N_scope.

(** ** The regular expression *)
Lemma blank_iff : forall c, is_space c = true <-> blank c.
Proof. intro c. unfold is_space, blank. rewrite orb_true_iff, !andb_true_iff, !N.leb_le. tauto. Qed.
Lemma opening_sound : forall s w r, opening s = Some (w, r) ->
  s = w ++ 123 :: r /\ Forall blank w /\ (r = [] \/ exists r', r = 10 :: r').
Proof.
  induction s as [|c s IH]; intros w r H; [discriminate|]. cbn [opening] in H. destruct (is_space c) eqn:B.
  - destruct (opening s) as [(w', r')|] eqn:O; [|discriminate]. injection H as <- <-.
    destruct (IH w' r' eq_refl) as (-> & W & R). split; [reflexivity|]. split; [constructor; [apply blank_iff; exact B|exact W]|exact R].
  - destruct (N.eqb_spec c 123) as [->|N]; [|discriminate]. destruct s as [|x s].
    + injection H as <- <-. split; [reflexivity|]. split; [constructor|left; reflexivity].
    + destruct (N.eqb_spec x 10) as [->|N]; [|discriminate]. injection H as <- <-. split; [reflexivity|].
      split; [constructor|right; eexists; reflexivity].
Qed.
Lemma opening_complete : forall w r, Forall blank w -> (r = [] \/ exists r', r = 10 :: r') -> opening (w ++ 123 :: r) = Some (w, r).
Proof.
  induction w as [|c w IH]; intros r W R; cbn [app opening].
  - change (is_space 123) with false. cbn [N.eqb]. change (123 =? 123) with true. cbv iota.
    destruct R as [->|(r' & ->)]; reflexivity.
  - inversion W as [|? ? B W']; subst. apply blank_iff in B. rewrite B, (IH r W' R). reflexivity.
Qed.
Lemma opening_none : forall s, opening s = None <-> ~ opens s.
Proof.
  intro s. split.
  - intros H (w & r & -> & W & R). rewrite (opening_complete w r W R) in H. discriminate.
  - intro H. destruct (opening s) as [(w, r)|] eqn:O; [|reflexivity]. exfalso. apply H. exists w, r. exact (opening_sound _ _ _ O).
Qed.
Lemma sub_fixed : forall n start s, (List.length s < n)%nat -> fixed start s (sub_from n start s).
Proof.
  induction n as [|n IH]; intros start s Ln; [lia|]. cbn [sub_from].
  destruct (if start then opening s else None) as [(w, r)|] eqn:O.
  - destruct start; [|discriminate]. destruct (opening_sound _ _ _ O) as (-> & W & R).
    apply fx_open; [exact W|exact R|]. apply IH. rewrite app_length in Ln. cbn in Ln. lia.
  - destruct s as [|c s]; [constructor|]. apply fx_copy.
    + intros ->. apply opening_none. exact O.
    + apply IH. cbn in Ln. lia.
Qed.
Theorem fix_fixed : forall s, fixed true s (fix_braces s).
Proof. intro s. apply sub_fixed. lia. Qed.

Lemma app_split : forall (a b c d : pystr) x, a ++ x :: b = c ++ d ->
  (exists m, c = a ++ x :: m /\ b = m ++ d) \/ (exists m, a = c ++ m /\ d = m ++ x :: b).
Proof.
  induction a as [|y a IH]; intros b c d x H; cbn [app] in H.
  - destruct c as [|z c]; cbn [app] in H.
    + right. exists []. split; [reflexivity|exact (eq_sym H)].
    + injection H as <- ->. left. exists c. split; reflexivity.
  - destruct c as [|z c]; cbn [app] in H.
    + right. exists (y :: a). split; [reflexivity|exact (eq_sym H)].
    + injection H as <- H. destruct (IH _ _ _ _ H) as [(m & -> & ->)|(m & -> & ->)]; [left|right]; exists m; split; reflexivity.
Qed.

(** Before a line that is only a brace there is a blank line. *)
Lemma fixed_spaces : forall k s r, fixed false s (repeat 32 k ++ 123 :: r) -> (r = [] \/ exists r', r = 10 :: r') ->
  exists r0, s = repeat 32 k ++ 123 :: r0 /\ (r0 = [] \/ exists q, r0 = 10 :: q).
Proof.
  induction k as [|k IH]; intros s r H R; cbn [repeat app] in *.
  - inversion H as [| |? ? s0 ? N K E1 E2 E3]; subst. exists s0. split; [reflexivity|]. change (123 =? 10) with false in K.
    destruct R as [->|(r' & ->)].
    + inversion K; subst. left. reflexivity.
    + inversion K; subst. right. eexists; reflexivity.
  - inversion H as [| |? ? s0 ? N K E1 E2 E3]; subst. change (32 =? 10) with false in K.
    destruct (IH _ _ K R) as (r0 & -> & R0). exists r0. split; [reflexivity|exact R0].
Qed.
Lemma not_open : forall s k r, fixed true s (repeat 32 k ++ 123 :: r) -> (r = [] \/ exists r', r = 10 :: r') -> False.
Proof.
  intros s k r H R.
  assert (B : Forall blank (repeat 32 k)).
  { apply Forall_forall. intros c I. apply repeat_spec in I. subst. unfold blank. lia. }
  destruct k as [|k]; cbn [repeat app] in *.
  - inversion H as [| |? ? s0 ? N K E1 E2 E3]; subst. apply (N eq_refl). change (123 =? 10) with false in K. exists [], s0.
    split; [reflexivity|]. split; [constructor|]. destruct R as [->|(r' & ->)]; inversion K; subst; [left|right; eexists]; reflexivity.
  - inversion H as [| |? ? s0 ? N K E1 E2 E3]; subst. apply (N eq_refl). change (32 =? 10) with false in K.
    destruct (fixed_spaces _ _ _ K R) as (r0 & -> & R0). exists (32 :: repeat 32 k), r0. split; [reflexivity|]. split; [exact B|exact R0].
Qed.
Lemma blank_line : forall b s t, fixed b s t -> forall a k r, t = a ++ 10 :: repeat 32 k ++ 123 :: r ->
  (r = [] \/ exists r', r = 10 :: r') ->
  exists a1 w1, a = a1 ++ w1 /\ Forall blank w1 /\ (ended a1 \/ (b = true /\ a1 = [])).
Proof.
  induction 1 as [b|w r0 r0' W R0 H IH|b c s s' N H IH]; intros a k r E R.
  - destruct a; discriminate.
  - destruct a as [|x a]; [exists [], []; split; [reflexivity|]; split; [constructor|right; split; reflexivity]|].
    cbn [app] in E. injection E as <- E. destruct (app_split _ _ _ _ _ E) as [(m & -> & E')|(m & -> & E')].
    + destruct (IH m k r E' R) as (a1 & w1 & -> & W1 & A1). destruct A1 as [(q & ->)|(K & _)]; [|discriminate].
      exists (10 :: w ++ 123 :: q ++ [10]), w1. split; [cbn [app]; rewrite <- !app_assoc; cbn [app]; rewrite <- !app_assoc; reflexivity|]. split; [exact W1|].
      left. exists (10 :: w ++ 123 :: q). cbn [app]. rewrite <- app_assoc. reflexivity.
    + exists [10], a. split; [reflexivity|]. split; [apply Forall_app in W; exact (proj1 W)|]. left. exists []. reflexivity.
  - destruct a as [|x a]; cbn [app] in E.
    + injection E as -> ->. exfalso. change (10 =? 10) with true in H. exact (not_open _ _ _ H R).
    + injection E as <- ->. destruct (IH a k r eq_refl R) as (a1 & w1 & -> & W1 & A1).
      exists (c :: a1), w1. split; [reflexivity|]. split; [exact W1|]. left. destruct A1 as [(q & ->)|(K & ->)].
      * exists (c :: q). reflexivity.
      * apply N.eqb_eq in K. subst c. exists []. reflexivity.
Qed.
Theorem braces_apart : forall s a k r, fix_braces s = a ++ 10 :: repeat 32 k ++ 123 :: r ->
  (r = [] \/ exists r', r = 10 :: r') ->
  exists a1 w1, a = a1 ++ w1 /\ Forall blank w1 /\ (ended a1 \/ a1 = []).
Proof.
  intros s a k r E R. destruct (blank_line _ _ _ (fix_fixed s) a k r E R) as (a1 & w1 & A & W & [D|(_ & D)]); exists a1, w1; auto.
Qed.
Theorem fixed_unique : forall b s t, fixed b s t -> forall u, fixed b s u -> t = u.
Proof.
  induction 1 as [b|w r r' W R H IH|b c s s' N H IH]; intros u K.
  - inversion K; subst; [reflexivity|]. destruct w; discriminate.
  - inversion K as [|w2 r2 r2' W2 R2 K2 E1 E2|? c2 s2 s2' N2 K2 E1 E2]; subst.
    + destruct w; discriminate.
    + pose proof (opening_complete w r W R) as O1. pose proof (opening_complete w2 r2 W2 R2) as O2.
      assert (E : Some (w, r) = Some (w2, r2)) by congruence. injection E as <- <-. rewrite (IH _ K2). reflexivity.
    + exfalso. apply (N2 eq_refl). rewrite E2. exists w, r. auto.
  - inversion K as [|w2 r2 r2' W2 R2 K2 E1 E2|? c2 s2 s2' N2 K2 E1 E2]; subst.
    + exfalso. apply (N eq_refl). exists w2, r2. auto.
    + rewrite (IH _ K2). reflexivity.
Qed.

(** ** What the text means *)
Inductive doubled : pystr -> pystr -> Prop :=
| db_nil : doubled [] []
| db_same : forall c s t, doubled s t -> doubled (c :: s) (c :: t)
| db_two : forall s t, doubled s t -> doubled (10 :: s) (10 :: 10 :: t).
Lemma doubled_refl : forall s, doubled s s.
Proof. induction s; constructor; assumption. Qed.
Lemma doubled_app : forall a b s t, doubled a s -> doubled b t -> doubled (a ++ b) (s ++ t).
Proof. intros a b s t H K. induction H; cbn [app]; [exact K| |]; constructor; assumption. Qed.
Lemma sub_doubled : forall n start s, exists t, doubled s t /\
  (sub_from n start s = t \/ (start = true /\ sub_from n start s = 10 :: t)).
Proof.
  induction n as [|n IH]; intros start s; cbn [sub_from].
  - exists s. split; [apply doubled_refl|left; reflexivity].
  - destruct (if start then opening s else None) as [(w, r)|] eqn:O.
    + destruct start; [|discriminate]. destruct (opening_sound _ _ _ O) as (-> & W & R).
      destruct (IH false r) as (t & D & [E|(K & _)]); [|discriminate]. rewrite E. exists (w ++ 123 :: t).
      split; [apply doubled_app; [apply doubled_refl|constructor; exact D]|]. right. split; reflexivity.
    + destruct s as [|c s]; [exists []; split; [constructor|left; reflexivity]|].
      destruct (IH (c =? 10) s) as (t & D & [E|(K & E)]); rewrite E.
      * exists (c :: t). split; [constructor; exact D|left; reflexivity].
      * apply N.eqb_eq in K. subst c. exists (10 :: 10 :: t). split; [constructor; exact D|left; reflexivity].
Qed.
Lemma doubled_inv_app : forall a b u, doubled (a ++ b) u -> exists s t, u = s ++ t /\ doubled a s /\ doubled b t.
Proof.
  induction a as [|c a IH]; intros b u H; cbn [app] in H.
  - exists [], u. split; [reflexivity|]. split; [constructor|exact H].
  - inversion H as [|? ? t K|? t K]; subst.
    + destruct (IH _ _ K) as (s1 & t1 & -> & A & B). exists (c :: s1), t1. split; [reflexivity|]. split; [constructor; exact A|exact B].
    + destruct (IH _ _ K) as (s1 & t1 & -> & A & B). exists (10 :: 10 :: s1), t1. split; [reflexivity|]. split; [constructor; exact A|exact B].
Qed.
Lemma doubled_same : forall s t, doubled s t -> ~ In 10 s -> t = s.
Proof.
  intros s t H. induction H as [|c s t H IH|s t H IH]; intro N; [reflexivity| |].
  - f_equal. apply IH. intro I. apply N. right. exact I.
  - exfalso. apply N. left. reflexivity.
Qed.
Lemma doubled_cons : forall c s t, c <> 10 -> doubled (c :: s) t -> exists t', t = c :: t' /\ doubled s t'.
Proof. intros c s t N H. inversion H as [|? ? t' K|? t' K]; subst; [exists t'; auto|congruence]. Qed.
Lemma doubled_white : forall w t, doubled w t -> white w -> white t.
Proof.
  intros w t H. induction H as [|c s t H IH|s t H IH]; intro W; [constructor| |]; inversion W; subst.
  - constructor; [assumption|apply IH; assumption].
  - do 2 (constructor; [cbn; tauto|]). apply IH. assumption.
Qed.
(** Texts of scalars have only printable characters. *)
Definition printable (s : pystr) : Prop := Forall (fun c => 32 <= c <= 126) s.
Lemma printable_no : forall s, printable s -> ~ In 10 s.
Proof. intros s P I. unfold printable in P. rewrite Forall_forall in P. specialize (P 10 I). lia. Qed.
Lemma printable_app : forall a b, printable a -> printable b -> printable (a ++ b).
Proof. intros a b A B. apply Forall_app. auto. Qed.
Ltac pr := repeat (apply Forall_cons; [split; discriminate|]); try apply Forall_nil.
Lemma digits_printable : forall s, Forall is_dec s -> printable s.
Proof. intros s H. eapply Forall_impl; [|exact H]. intros c B. unfold is_dec in B. lia. Qed.
Lemma whole_printable : forall s, whole s -> printable s.
Proof. intros s H. apply digits_printable, whole_digits, H. Qed.
Lemma int_printable : forall s z, int_text s z -> printable s.
Proof. intros s z [[W _]|(w & -> & W & _)]; [apply whole_printable; exact W|]. apply Forall_cons; [lia|apply whole_printable; exact W]. Qed.
Lemma float_printable : forall s, float_text s -> printable s.
Proof.
  intros s (sg & w & fr & ex & -> & Hsg & W & H).
  assert (Af : fraction fr -> printable fr) by (intros (ds & -> & _ & D); apply Forall_cons; [lia|apply digits_printable; exact D]).
  assert (Ae : exponent ex -> printable ex).
  { intros (e & sg' & ds & -> & He & Hs & _ & D). apply Forall_cons; [destruct He as [->| ->]; lia|]. apply printable_app; [|apply digits_printable; exact D].
    destruct Hs as [->|[->| ->]]; pr. }
  apply printable_app; [destruct Hsg as [->| ->]; pr|]. apply printable_app; [apply whole_printable; exact W|].
  destruct H as [[Hf [->|He]]|[-> He]]; apply printable_app; auto; constructor.
Qed.
Lemma hex_not : forall c n, hex c n -> c <> 10.
Proof.
  intros c n [H|H] ->; apply nth_error_In in H; cbn in H; repeat (destruct H as [H|H]; [discriminate|]); exact H.
Qed.
Lemma body_no : forall b l, body b l -> ~ In 10 b.
Proof.
  induction 1 as [|c s l C1 C2 C3 B IH|e c s l E B IH|a b c d na nb nc nd s l A1 A2 A3 A4 B IH]; intro I.
  - destruct I.
  - destruct I as [I|I]; [lia|exact (IH I)].
  - destruct I as [I|[I|I]]; [discriminate| |exact (IH I)]. subst e. cbn in E. repeat (destruct E as [E|E]; [discriminate|]). exact E.
  - destruct I as [I|[I|[I|[I|[I|[I|I]]]]]]; [discriminate|discriminate| | | | |exact (IH I)];
      [exact (hex_not _ _ A1 I)|exact (hex_not _ _ A2 I)|exact (hex_not _ _ A3 I)|exact (hex_not _ _ A4 I)].
Qed.
Lemma text_no : forall s t, string_text s t -> ~ In 10 s.
Proof.
  intros s t (b & l & -> & B & _) I. destruct I as [I|I]; [discriminate|]. apply in_app_or in I.
  destruct I as [I|[I|[]]]; [exact (body_no _ _ B I)|discriminate].
Qed.

Section Meaning.
  Variable L : lib.
  Ltac word := match goal with K : doubled _ ?u |- _ =>
    apply doubled_same in K; [rewrite K|apply printable_no; pr] end.
  (** Doubling line ends does not change what a text means. *)
  Lemma doubled_grammar :
    (forall d t v, means L d t v -> forall u, doubled t u -> means L d u v) /\
    (forall d t l, items L d t l -> forall u, doubled t u -> items L d u l) /\
    (forall d t m, pairs L d t m -> forall u, doubled t u -> pairs L d u m).
  Proof.
    apply grammar_ind.
    - intros d u K. word. constructor.
    - intros d u K. word. constructor.
    - intros d u K. word. constructor.
    - intros d u K. word. constructor.
    - intros d u K. word. constructor.
    - intros d u K. word. constructor.
    - intros d s z T u K. rewrite (doubled_same _ _ K (printable_no _ (int_printable _ _ T))). constructor. exact T.
    - intros d s T u K. rewrite (doubled_same _ _ K (printable_no _ (float_printable _ T))). constructor. exact T.
    - intros d s t T u K. rewrite (doubled_same _ _ K (text_no _ _ T)). constructor. exact T.
    - intros d w W u K. destruct (doubled_cons 91 _ _ ltac:(discriminate) K) as (u1 & -> & K1).
      destruct (doubled_inv_app _ _ _ K1) as (w' & e & -> & KW & KE). destruct (doubled_cons 93 _ _ ltac:(discriminate) KE) as (e' & -> & KN).
      inversion KN; subst. apply m_list_nil. exact (doubled_white _ _ KW W).
    - intros d w s l W _ IH u K. destruct (doubled_cons 91 _ _ ltac:(discriminate) K) as (u1 & -> & K1).
      destruct (doubled_inv_app _ _ _ K1) as (w' & e & -> & KW & KE). destruct (doubled_inv_app _ _ _ KE) as (s' & e1 & -> & KS & KE1).
      destruct (doubled_cons 93 _ _ ltac:(discriminate) KE1) as (e' & -> & KN).
      inversion KN; subst. apply m_list; [exact (doubled_white _ _ KW W)|exact (IH _ KS)].
    - intros d w W u K. destruct (doubled_cons 123 _ _ ltac:(discriminate) K) as (u1 & -> & K1).
      destruct (doubled_inv_app _ _ _ K1) as (w' & e & -> & KW & KE). destruct (doubled_cons 125 _ _ ltac:(discriminate) KE) as (e' & -> & KN).
      inversion KN; subst. apply m_obj_nil. exact (doubled_white _ _ KW W).
    - intros d w s m o W _ IH D u K. destruct (doubled_cons 123 _ _ ltac:(discriminate) K) as (u1 & -> & K1).
      destruct (doubled_inv_app _ _ _ K1) as (w' & e & -> & KW & KE). destruct (doubled_inv_app _ _ _ KE) as (s' & e1 & -> & KS & KE1).
      destruct (doubled_cons 125 _ _ ltac:(discriminate) KE1) as (e' & -> & KN).
      inversion KN; subst. eapply m_obj; [exact (doubled_white _ _ KW W)|exact (IH _ KS)|exact D].
    - intros d s v w _ IH W u K. destruct (doubled_inv_app _ _ _ K) as (s' & w' & -> & KS & KW).
      apply i_one; [exact (IH _ KS)|exact (doubled_white _ _ KW W)].
    - intros d s v w1 w2 s' l _ IH W1 W2 _ IHl u K.
      destruct (doubled_inv_app _ _ _ K) as (t & k1 & -> & KS & K1). destruct (doubled_inv_app _ _ _ K1) as (x1 & k2 & -> & KW1 & K2).
      destruct (doubled_cons 44 _ _ ltac:(discriminate) K2) as (k3 & -> & K3). destruct (doubled_inv_app _ _ _ K3) as (x2 & k4 & -> & KW2 & K4).
      apply i_more; [exact (IH _ KS)|exact (doubled_white _ _ KW1 W1)|exact (doubled_white _ _ KW2 W2)|exact (IHl _ K4)].
    - intros d k kt w1 w2 s v w3 T W1 W2 _ IH W3 u K.
      destruct (doubled_inv_app _ _ _ K) as (t & k1 & -> & KS & K1). rewrite (doubled_same _ _ KS (text_no _ _ T)).
      destruct (doubled_inv_app _ _ _ K1) as (x1 & k2 & -> & KW1 & K2). destruct (doubled_cons 58 _ _ ltac:(discriminate) K2) as (k3 & -> & K3).
      destruct (doubled_inv_app _ _ _ K3) as (x2 & k4 & -> & KW2 & K4). destruct (doubled_inv_app _ _ _ K4) as (x3 & k5 & -> & KV & K5).
      apply o_one; [exact T|exact (doubled_white _ _ KW1 W1)|exact (doubled_white _ _ KW2 W2)|exact (IH _ KV)|exact (doubled_white _ _ K5 W3)].
    - intros d k kt w1 w2 s v w3 w4 s' l T W1 W2 _ IH W3 W4 _ IHl u K.
      destruct (doubled_inv_app _ _ _ K) as (t & k1 & -> & KS & K1). rewrite (doubled_same _ _ KS (text_no _ _ T)).
      destruct (doubled_inv_app _ _ _ K1) as (x1 & k2 & -> & KW1 & K2). destruct (doubled_cons 58 _ _ ltac:(discriminate) K2) as (k3 & -> & K3).
      destruct (doubled_inv_app _ _ _ K3) as (x2 & k4 & -> & KW2 & K4). destruct (doubled_inv_app _ _ _ K4) as (x3 & k5 & -> & KV & K5).
      destruct (doubled_inv_app _ _ _ K5) as (x4 & k6 & -> & KW3 & K6). destruct (doubled_cons 44 _ _ ltac:(discriminate) K6) as (k7 & -> & K7).
      destruct (doubled_inv_app _ _ _ K7) as (x5 & k8 & -> & KW4 & K8).
      apply o_more; [exact T|exact (doubled_white _ _ KW1 W1)|exact (doubled_white _ _ KW2 W2)|exact (IH _ KV)|
        exact (doubled_white _ _ KW3 W3)|exact (doubled_white _ _ KW4 W4)|exact (IHl _ K8)].
  Qed.
  Lemma fix_document : forall d s v, document L d s v -> document L d (fix_braces s) v.
  Proof.
    intros d s v (w1 & t & w2 & -> & W1 & W2 & M). unfold fix_braces.
    destruct (sub_doubled (S (List.length (w1 ++ t ++ w2))) true (w1 ++ t ++ w2)) as (u & D & E).
    destruct (doubled_inv_app _ _ _ D) as (w1' & u1 & -> & D1 & D2). destruct (doubled_inv_app _ _ _ D2) as (t' & w2' & -> & D3 & D4).
    pose proof (doubled_white _ _ D1 W1) as V1. pose proof (doubled_white _ _ D4 W2) as V2.
    pose proof (proj1 doubled_grammar _ _ _ M _ D3) as M'.
    destruct E as [-> |(_ & ->)].
    - exists w1', t', w2'. auto.
    - exists (10 :: w1'), t', w2'. split; [reflexivity|]. split; [constructor; [cbn; tauto|exact V1]|auto].
  Qed.
  Theorem fix_reads : forall s v, decode_text L s = Ok v -> decode_text L (fix_braces s) = Ok v.
  Proof.
    intros s v H. apply (proj2 (decode_text_iff L _ _)). apply fix_document. exact (proj1 (decode_text_iff L _ _) H).
  Qed.
End Meaning.

(** ** The text that is written *)
Lemma readable_app : forall a b, readable a -> readable b -> readable (a ++ b).
Proof. intros a b A B. apply Forall_app. auto. Qed.
Lemma printable_readable : forall s, printable s -> readable s.
Proof. intros s H. eapply Forall_impl; [|exact H]. intros c B. right. exact B. Qed.
Lemma newline_readable : forall k, readable (newline k).
Proof.
  intro k. unfold newline. constructor; [left; reflexivity|]. apply Forall_forall. intros c I. apply repeat_spec in I. subst. right. lia.
Qed.
Lemma newline_white : forall k, white (newline k).
Proof.
  intro k. unfold newline. constructor; [cbn; tauto|]. apply Forall_forall. intros c I. apply repeat_spec in I. subst. cbn. tauto.
Qed.
Lemma hex_digit_printable : forall n, n < 16 -> 32 <= hex_digit n <= 126.
Proof. intros n H. unfold hex_digit. destruct (N.ltb_spec n 10); lia. Qed.
Lemma u_escape_printable : forall n, n < 65536 -> printable (u_escape n).
Proof.
  intros n H. destruct (hex_split n H) as (A1 & A2 & A3 & A4 & _). unfold u_escape, hex4. do 2 (apply Forall_cons; [split; discriminate|]).
  repeat (apply Forall_cons; [apply hex_digit_printable; assumption|]). apply Forall_nil.
Qed.
Lemma escape_printable : forall c, c < 1114112 -> printable (escape c).
Proof.
  intros c H. unfold escape.
  destruct (N.eqb_spec c 34); [pr|]. destruct (N.eqb_spec c 92); [pr|].
  destruct ((32 <=? c) && (c <=? 126)) eqn:R; [apply andb_true_iff in R; rewrite !N.leb_le in R; apply Forall_cons; [lia|apply Forall_nil]|].
  destruct (c =? 10); [pr|]. destruct (c =? 13); [pr|]. destruct (c =? 9); [pr|]. destruct (c =? 12); [pr|]. destruct (c =? 8); [pr|].
  destruct (N.ltb_spec c 65536) as [Ls|G]; [apply u_escape_printable; exact Ls|].
  destruct (pair_parts c (conj G H)) as (A1 & A2 & _). apply high_small in A1. apply low_small in A2. apply printable_app; apply u_escape_printable; assumption.
Qed.
Lemma quote_printable : forall s, Forall (fun c => c < 1114112) s -> printable (quote s).
Proof.
  intros s H. unfold quote. apply Forall_cons; [split; discriminate|]. apply printable_app; [|pr].
  induction H as [|c s Hc H IH]; [constructor|]. cbn [flat_map]. apply printable_app; [apply escape_printable; exact Hc|exact IH].
Qed.
Lemma join_readable : forall sep ts, readable sep -> Forall readable ts -> readable (join_with sep ts).
Proof.
  intros sep ts Sp. induction 1 as [|t ts H Hs IH]; [constructor|]. destruct ts as [|t' ts]; [exact H|]. cbn [join_with].
  apply readable_app; [exact H|]. apply readable_app; [exact Sp|exact IH].
Qed.

Section Pretty.
  Variable L : lib.
  Hypothesis Hlib : faithful L.

  Lemma items_apart : forall d w e l ts, white w -> white e -> Forall2 (fun v t => means L d t v) l ts -> l <> [] ->
    items L d (join_with (44 :: w) ts ++ e) l.
  Proof.
    intros d w e l ts W E H. induction H as [|v t l ts Hv Hs IH]; intros Ne; [congruence|]. destruct ts as [|t' ts].
    - inversion Hs; subst. cbn [join_with]. constructor; assumption.
    - destruct l as [|v' l]; [inversion Hs|]. specialize (IH ltac:(discriminate)).
      change (join_with (44 :: w) (t :: t' :: ts)) with (t ++ (44 :: w) ++ join_with (44 :: w) (t' :: ts)).
      rewrite <- !app_assoc. cbn [app].
      exact (i_more L d t v [] w _ _ Hv white_nil W IH).
  Qed.
  Lemma pairs_apart : forall d w e l ts, white w -> white e ->
    Forall2 (fun p t => exists k s, t = quote k ++ 58 :: 32 :: s /\ unicode k /\ fuse k (fst p) /\ means L d s (snd p)) l ts -> l <> [] ->
    pairs L d (join_with (44 :: w) ts ++ e) l.
  Proof.
    intros d w e l ts W E H. assert (B : white [32]) by (constructor; [cbn; tauto|constructor]).
    induction H as [|[kt v] t l ts Hv Hs IH]; intros Ne; [congruence|]. destruct Hv as (k & s & -> & Uk & Fk & Ms). cbn [fst snd] in *.
    pose proof (quote_text k kt Uk Fk) as Q. destruct ts as [|t' ts].
    - inversion Hs; subst. cbn [join_with]. pose proof (o_one L d (quote k) kt [] [32] s v e Q white_nil B Ms E) as R. cbn [app] in R.
      rewrite <- app_assoc. exact R.
    - destruct l as [|p l]; [inversion Hs|]. specialize (IH ltac:(discriminate)).
      pose proof (o_more L d (quote k) kt [] [32] s v [] w _ _ Q white_nil B Ms white_nil W IH) as R. cbn [app] in R.
      change (join_with (44 :: w) ((quote k ++ 58 :: 32 :: s) :: t' :: ts)) with ((quote k ++ 58 :: 32 :: s) ++ (44 :: w) ++ join_with (44 :: w) (t' :: ts)).
      rewrite <- !app_assoc. cbn [app]. exact R.
  Qed.
  Lemma pretty_list : forall d k l, pretty L (S d) k (JList l) =
    let* ts := map_result (pretty L d (S k)) l in
    match ts with
    | [] => Ok (str "[]")
    | _ => Ok (91 :: newline (S k) ++ join_with (44 :: newline (S k)) ts ++ newline k ++ [93])
    end.
  Proof. reflexivity. Qed.
  Lemma pretty_obj : forall d k l, pretty L (S d) k (JObj l) =
    let* ts := map_result (fun p : pystr * json (flt L) =>
      let* t := pretty L d (S k) (snd p) in Ok (quote (fst p) ++ 58 :: 32 :: t : pystr)) l in
    match ts with
    | [] => Ok (str "{}")
    | _ => Ok (123 :: newline (S k) ++ join_with (44 :: newline (S k)) ts ++ newline k ++ [125])
    end.
  Proof. reflexivity. Qed.

  Lemma pretty_good : forall v, valid v -> forall d k, (depth v <= d)%nat -> exists t v', pretty L d k v = Ok t /\ readable t /\ fused v v' /\
    forall d', (depth v <= d')%nat -> means L d' t v'.
  Proof.
    induction v using json_ind'; intros St d lv Hd.
    - destruct d; exists (str "null"), JNull; (split; [reflexivity|split; [apply printable_readable; pr|split; [constructor|intros; constructor]]]).
    - destruct b, d; eexists; eexists; (split; [reflexivity|split; [apply printable_readable; pr|split; [constructor|intros; constructor]]]).
    - exists (int_str z), (JInt z). split; [destruct d; reflexivity|]. split; [eapply printable_readable, int_printable, int_str_text|]. split; [constructor|]. intros d' _. constructor. apply int_str_text.
    - exists (float_repr L f), (JFloat f). split; [destruct d; reflexivity|]. split; [apply printable_readable, float_printable, (float_written L Hlib)|]. split; [constructor|]. intros d' _.
      pose proof (m_float L d' _ (float_written L Hlib f)) as R. rewrite (float_read L Hlib) in R. exact R.
    - destruct d; exists (str "NaN"), JNaN; (split; [reflexivity|split; [apply printable_readable; pr|split; [constructor|intros; constructor]]]).
    - destruct d; exists (str "Infinity"), JInf; (split; [reflexivity|split; [apply printable_readable; pr|split; [constructor|intros; constructor]]]).
    - destruct d; exists (str "-Infinity"), JNegInf; (split; [reflexivity|split; [apply printable_readable; pr|split; [constructor|intros; constructor]]]).
    - inversion St as [| | | | | | |? U| |]; subst. destruct (fuse_total _ s (le_n _)) as [t Ft]. exists (quote s), (JStr t). split; [destruct d; reflexivity|]. split; [apply printable_readable, quote_printable; exact U|].
      split; [constructor; exact Ft|]. intros d' _. constructor. apply quote_text; assumption.
    - inversion St as [| | | | | | | |? Sl|]; subst. destruct d as [|d]; [cbn in Hd; lia|]. rewrite depth_list in Hd.
      destruct (map_result_good (pretty L d (S lv)) (fun v t => readable t /\ exists v', fused v v' /\ forall d', (depth v <= d')%nat -> means L d' t v') l) as (ts & E & R).
      { intros v I. destruct (H v I (Sl v I) d (S lv) (Hd v I)) as (t & v' & T1 & T2 & T3 & T4). exists t. eauto 6. }
      assert (A : Forall readable ts) by (clear - R; induction R as [|v t l ts [A _] _ IH]; constructor; auto).
      assert (M : exists m, fused_list l m /\ (l = [] <-> m = []) /\ forall d', (forall v, In v l -> (depth v <= d')%nat) -> Forall2 (fun v t => means L d' t v) m ts).
      { clear - R. induction R as [|v t l ts (_ & v' & Fv & M) _ (m & F & _ & IH)]; [exists []; split; [constructor|split; [tauto|constructor]]|].
        exists (v' :: m). split; [constructor; assumption|]. split; [split; discriminate|]. intros d' Hd'. constructor; [apply M, Hd'; left; reflexivity|apply IH; intros x I; apply Hd'; right; exact I]. }
      destruct M as (m & Fm & Nm & M). rewrite pretty_list, E. cbn [bind].
      assert (Lm : (m = [] <-> ts = [])).
      { specialize (M (fold_right Nat.max 0%nat (map depth l))
          (fun v I => max_in (map depth l) (depth v) (in_map _ _ _ I))). inversion M; subst; split; intro Z; try reflexivity; discriminate. }
      destruct ts as [|t0 ts].
      + exists (str "[]"), (JList m). split; [reflexivity|]. split; [apply printable_readable; pr|]. split; [constructor; exact Fm|].
        rewrite (proj2 Lm eq_refl). intros [|d'] Hd'; [cbn in Hd'; lia|]. apply (m_list_nil L d' []). constructor.
      + eexists. exists (JList m). split; [reflexivity|]. split; [|split; [constructor; exact Fm|]].
        * apply Forall_cons; [right; lia|]. apply readable_app; [apply newline_readable|]. apply readable_app; [apply join_readable; [|exact A]|].
          -- apply Forall_cons; [right; lia|apply newline_readable].
          -- apply readable_app; [apply newline_readable|apply printable_readable; pr].
        * intros [|d'] Hd'; [cbn in Hd'; lia|]. rewrite depth_list in Hd'. specialize (M d' Hd').
          rewrite app_assoc with (m := newline lv). apply m_list; [apply newline_white|].
          apply items_apart; [apply newline_white|apply newline_white|exact M|]. intro Z. apply Lm in Z. discriminate.
    - inversion St as [| | | | | | | | |? Nd Sl]; subst. destruct d as [|d]; [cbn in Hd; lia|]. rewrite depth_obj in Hd.
      destruct (map_result_good (fun p : pystr * json (flt L) => let* t := pretty L d (S lv) (snd p) in Ok (quote (fst p) ++ 58 :: 32 :: t : pystr))
        (fun p t => exists s v', t = quote (fst p) ++ 58 :: 32 :: s /\ readable t /\ unicode (fst p) /\ fused (snd p) v' /\ forall d', (depth (snd p) <= d')%nat -> means L d' s v') l) as (ts & E & R).
      { intros [k v] I. destruct (Sl k v I) as [Ck Sv]. destruct (H k v I Sv d (S lv) (Hd k v I)) as (t & v' & T1 & T2 & T3 & T4). cbn [fst snd]. rewrite T1. cbn [bind].
        eexists. split; [reflexivity|]. exists t, v'. split; [reflexivity|]. split; [|auto]. apply readable_app; [apply printable_readable, quote_printable, Ck|].
        do 2 (apply Forall_cons; [right; lia|]). exact T2. }
      assert (A : Forall readable ts) by (clear - R; induction R as [|v t l ts (s & v' & _ & A & _) _ IH]; constructor; auto).
      assert (M : exists m, fused_pairs l m /\ forall d', (forall k v, In (k, v) l -> (depth v <= d')%nat) ->
        Forall2 (fun p t => exists k s, t = quote k ++ 58 :: 32 :: s /\ unicode k /\ fuse k (fst p) /\ means L d' s (snd p)) m ts).
      { clear - R. induction R as [|[k v] t l ts (s & v' & -> & _ & U & Fv & M) _ (m & F & IH)]; [exists []; split; [constructor|constructor]|].
        cbn [fst snd] in *. destruct (fuse_total _ k (le_n _)) as [kt Fk].
        exists ((kt, v') :: m). split; [constructor; assumption|]. intros d' Hd'. constructor; [|apply IH; intros k' x I; apply (Hd' k'); right; exact I].
        exists k, s. cbn [fst snd]. split; [reflexivity|]. split; [exact U|]. split; [exact Fk|]. apply M, (Hd' k). left. reflexivity. }
      destruct M as (m & Fm & M). rewrite pretty_obj, E. cbn [bind].
      assert (Lm : (m = [] <-> ts = [])).
      { specialize (M d Hd). inversion M; subst; split; intro Z; try reflexivity; discriminate. }
      destruct ts as [|t0 ts].
      + exists (str "{}"), (JObj (fold_left (put L) m [])). split; [reflexivity|]. split; [apply printable_readable; pr|].
        split; [eapply f_obj; [exact Fm|apply puts_dict]|].
        rewrite (proj2 Lm eq_refl). intros [|d'] Hd'; [cbn in Hd'; lia|]. apply (m_obj_nil L d' []). constructor.
      + eexists. exists (JObj (fold_left (put L) m [])). split; [reflexivity|]. split; [|split; [eapply f_obj; [exact Fm|apply puts_dict]|]].
        * apply Forall_cons; [right; lia|]. apply readable_app; [apply newline_readable|]. apply readable_app; [apply join_readable; [|exact A]|].
          -- apply Forall_cons; [right; lia|apply newline_readable].
          -- apply readable_app; [apply newline_readable|apply printable_readable; pr].
        * intros [|d'] Hd'; [cbn in Hd'; lia|]. rewrite depth_obj in Hd'. specialize (M d' Hd').
          rewrite app_assoc with (m := newline lv). eapply m_obj; [apply newline_white| |apply puts_dict].
          apply pairs_apart; [apply newline_white|apply newline_white|exact M|]. intro Z. apply Lm in Z. discriminate.
  Qed.
End Pretty.

(** ** Errors *)
Section Errors.
  Variable L : lib.
  Lemma pretty_total : forall v d k, (depth v <= d)%nat -> exists t, pretty L d k v = Ok t.
  Proof.
    induction v using json_ind'; intros d lv Hd; try (destruct d; eexists; reflexivity).
    - destruct b, d; eexists; reflexivity.
    - destruct d as [|d]; [cbn in Hd; lia|]. rewrite depth_list in Hd.
      destruct (map_result_good (pretty L d (S lv)) (fun _ _ => True) l) as (ts & E & _); [intros v I; destruct (H v I d (S lv) (Hd v I)) as [t T]; eauto|].
      rewrite pretty_list, E. cbn [bind]. destruct ts; eexists; reflexivity.
    - destruct d as [|d]; [cbn in Hd; lia|]. rewrite depth_obj in Hd. rewrite pretty_obj.
      match goal with |- context[map_result ?f l] => destruct (map_result_good f (fun _ _ => True) l) as (ts & E & _) end.
      { intros [k v] I. destruct (H k v I d (S lv) (Hd k v I)) as [t T]. cbn [snd]. rewrite T. eexists. split; [reflexivity|exact Logic.I]. }
      rewrite E. cbn [bind]. destruct ts; eexists; reflexivity.
  Qed.
  Lemma pretty_error : forall v d k e, pretty L d k v = Err e -> e = RecursionError /\ (d < depth v)%nat.
  Proof.
    intros v d k e H. split.
    2:{ destruct (Nat.le_gt_cases (depth v) d) as [X|X]; [|exact X]. destruct (pretty_total v d k X). congruence. }
    revert v k H. induction d as [|d IH]; intros v k H; destruct v as [|[|]| | | | | | |l|l]; try discriminate H; try (cbn in H; congruence).
    - rewrite pretty_list in H. destruct (map_result (pretty L d (S k)) l) as [ts|e'] eqn:E; cbn [bind] in H; [destruct ts; discriminate|].
      injection H as ->. apply map_result_first in E. destruct E as (x & _ & E). eauto.
    - rewrite pretty_obj in H. match type of H with context[map_result ?f l] => destruct (map_result f l) as [ts|e'] eqn:E end; cbn [bind] in H; [destruct ts; discriminate|].
      injection H as ->. apply map_result_first in E. destruct E as ([k' x] & _ & E). cbn [snd] in E.
      destruct (pretty L d (S k) x) as [t|e''] eqn:E'; cbn [bind] in E; [discriminate|]. injection E as ->. eauto.
  Qed.
  Lemma pretty_depth : forall d k v t, pretty L d k v = Ok t -> (depth v <= d)%nat.
  Proof.
    induction d as [|d IH]; intros k v t H; destruct v as [|[|]| | | | | | |l|l]; try (cbn; lia); try discriminate H.
    - rewrite pretty_list in H. apply depth_list. intros v I.
      destruct (map_result (pretty L d (S k)) l) as [ts|] eqn:E; [|discriminate].
      destruct (map_result_in _ _ _ v E I) as (t' & T). exact (IH _ _ _ T).
    - rewrite pretty_obj in H. apply depth_obj. intros k' v I.
      match type of H with context[map_result ?f l] => destruct (map_result f l) as [ts|] eqn:E end; [|discriminate].
      destruct (map_result_in _ _ _ (k', v) E I) as (t' & T). cbn [snd] in T.
      destruct (pretty L d (S k) v) as [t2|] eqn:E2; [|discriminate]. exact (IH _ _ _ E2).
  Qed.
End Errors.

(** ** Files *)
Lemma fixed_readable : forall b s t, fixed b s t -> readable s -> readable t.
Proof.
  induction 1 as [b|w r r' W R H IH|b c s s' N H IH]; intro Q.
  - constructor.
  - constructor; [left; reflexivity|]. apply Forall_app in Q. destruct Q as (Q1 & Q2). inversion Q2; subst.
    apply readable_app; [exact Q1|]. constructor; [assumption|]. apply IH. assumption.
  - inversion Q; subst. constructor; [assumption|]. apply IH. assumption.
Qed.
Lemma universal_written : forall linesep s, In linesep [[10]; [13; 10]] -> readable s -> universal (written linesep s) = s.
Proof.
  intros linesep s I R. induction R as [|c s C R IH]; [reflexivity|]. unfold written in *. cbn [flat_map].
  destruct (N.eqb_spec c 10) as [->|N].
  - destruct I as [<-|[<-|[]]]; cbn [app universal].
    + change (10 =? 13) with false. cbv iota. f_equal. exact IH.
    + change (13 =? 13) with true. change (10 =? 10) with true. cbv iota. f_equal. exact IH.
  - cbn [app universal]. destruct (N.eqb_spec c 13) as [->|]; [lia|]. f_equal. exact IH.
Qed.
Lemma read_readable : forall L s, readable s -> forall file, universal file = s -> read_mod_list L file = decode_text L s.
Proof.
  intros L s R file E. unfold read_mod_list. rewrite E. destruct s as [|c s]; [reflexivity|]. inversion R as [|? ? C _]; subst.
  assert (N : c <> 65279) by lia. destruct (N.eqb_spec c 65279) as [|_]; [congruence|].
  destruct c as [|p]; [reflexivity|]. do 16 (destruct p as [p|p|]; try reflexivity).
Qed.

Section Files.
  Variable L : lib.
  Hypothesis Hlib : faithful L.
  Theorem write_then_read : forall v limit linesep old, valid v -> all_clean v ->
    (depth v <= limit)%nat -> (depth v <= load_limit L)%nat -> In linesep [[10]; [13; 10]] ->
    exists file, write_mod_list L limit linesep old v = (file, None) /\ read_mod_list L file = Ok v.
  Proof.
    intros v limit linesep old V C D1 D2 Ls. destruct (pretty_good L Hlib v V limit 0%nat D1) as (t & v' & P & R & Fv & M).
    assert (E : v' = v) by (apply (fused_self L v v' V Fv); exact C). subst v'.
    unfold write_mod_list. rewrite P. eexists. split; [reflexivity|].
    pose proof (fixed_readable _ _ _ (fix_fixed t) R) as R'.
    rewrite (read_readable L _ R' _ (universal_written linesep _ Ls R')). apply fix_reads. apply (proj2 (decode_text_iff L _ _)).
    exists [], t, []. rewrite app_nil_r. split; [reflexivity|]. split; [constructor|]. split; [constructor|]. exact (M _ D2).
  Qed.
  Theorem write_gives : forall v limit linesep old file, valid v -> write_mod_list L limit linesep old v = (file, None) ->
    In linesep [[10]; [13; 10]] ->
    exists out s, pretty L limit 0 v = Ok out /\ fixed true out s /\ file = written linesep s /\ readable s /\ universal file = s.
  Proof.
    intros v limit linesep old file V W Ls. unfold write_mod_list in W. destruct (pretty L limit 0 v) as [out|e] eqn:P; [|discriminate].
    assert (E : file = written linesep (fix_braces out)) by congruence. exists out, (fix_braces out).
    split; [reflexivity|]. split; [apply fix_fixed|]. split; [exact E|].
    destruct (pretty_good L Hlib v V limit 0%nat (pretty_depth L _ _ _ _ P)) as (t & v' & P' & R & _).
    assert (T : t = out) by congruence. subst t. pose proof (fixed_readable _ _ _ (fix_fixed out) R) as R'. split; [exact R'|].
    rewrite E. exact (universal_written _ _ Ls R').
  Qed.
End Files.
Theorem write_fails : forall L limit linesep old v e,
  (exists file, write_mod_list L limit linesep old v = (file, Some e)) <->
  (e = RecursionError /\ (limit < depth v)%nat).
Proof.
  intros L limit linesep old v e. unfold write_mod_list. split.
  - intros (file & H). destruct (pretty L limit 0 v) as [t|e'] eqn:P; [discriminate|].
    assert (E : e' = e) by congruence. subst e'. exact (pretty_error L _ _ _ _ P).
  - intros (-> & D). destruct (pretty L limit 0 v) as [t|e'] eqn:P.
    + pose proof (pretty_depth L _ _ _ _ P). lia.
    + destruct (pretty_error L _ _ _ _ P) as (-> & _). eexists; reflexivity.
Qed.

(** ** The layout *)
Section Laid_out.
  Variable L : lib.
  Lemma elements_join : forall k l ts, Forall2 (fun v t => laid L k v t) l ts -> l <> [] ->
    elements L k l (newline k ++ join_with (44 :: newline k) ts).
  Proof.
    intros k l ts H. induction H as [|v t l ts Hv Hs IH]; intros Ne; [congruence|]. destruct ts as [|t' ts].
    - inversion Hs; subst. cbn [join_with]. apply el_last. exact Hv.
    - destruct l as [|v' l]; [inversion Hs|]. specialize (IH ltac:(discriminate)).
      change (join_with (44 :: newline k) (t :: t' :: ts)) with (t ++ (44 :: newline k) ++ join_with (44 :: newline k) (t' :: ts)).
      exact (el_more L k v t (v' :: l) _ Hv IH).
  Qed.
  Lemma members_join : forall k l ts, Forall2 (fun p t => exists s, t = quote (fst p) ++ 58 :: 32 :: s /\ laid L k (snd p) s) l ts -> l <> [] ->
    members L k l (newline k ++ join_with (44 :: newline k) ts).
  Proof.
    intros k l ts H. induction H as [|(n, v) t l ts (s & -> & Hv) Hs IH]; intros Ne; [congruence|]. cbn [fst snd] in *. destruct ts as [|t' ts].
    - inversion Hs; subst. cbn [join_with]. exact (me_last L k n v s Hv).
    - destruct l as [|v' l]; [inversion Hs|]. specialize (IH ltac:(discriminate)).
      change (join_with (44 :: newline k) ((quote n ++ 58 :: 32 :: s) :: t' :: ts))
        with ((quote n ++ 58 :: 32 :: s) ++ (44 :: newline k) ++ join_with (44 :: newline k) (t' :: ts)).
      rewrite <- app_assoc. exact (me_more L k n v s (v' :: l) _ Hv IH).
  Qed.
  Theorem pretty_laid : forall v d k t, pretty L d k v = Ok t -> laid L k v t.
  Proof.
    assert (OK : forall x y : pystr, Ok x = Ok y -> x = y) by (intros x y K; congruence).
    assert (MR : forall A (f : A -> result pystr) l ts, map_result f l = Ok ts -> Forall2 (fun x t => f x = Ok t) l ts).
    { intros A f. induction l as [|x l IH]; intros ts H; cbn [map_result] in H; [injection H as <-; constructor|].
      destruct (f x) as [t|] eqn:E; [|discriminate]. cbn [bind] in H. destruct (map_result f l) as [ts'|] eqn:E'; [|discriminate].
      cbn [bind] in H. injection H as <-. constructor; [exact E|exact (IH _ eq_refl)]. }
    induction v using json_ind'; intros d lv t T; try (apply la_scalar; destruct d; exact T).
    - destruct d as [|d]; [discriminate|]. rewrite pretty_list in T.
      destruct (map_result (pretty L d (S lv)) l) as [ts|] eqn:E; [|discriminate]. cbn [bind] in T. apply MR in E.
      destruct ts as [|t0 ts]; [injection T as <-; inversion E; subst; apply la_list_nil|].
      assert (R : t = 91 :: (newline (S lv) ++ join_with (44 :: newline (S lv)) (t0 :: ts)) ++ 10 :: repeat 32 (2 * lv) ++ [93]).
      { apply OK in T. rewrite <- T, <- app_assoc. reflexivity. }
      rewrite R. apply la_list. apply elements_join; [|destruct l; [inversion E|discriminate]].
      clear - E H. induction E as [|v t' l ts' V E IH]; constructor; [exact (H v (or_introl eq_refl) _ _ _ V)|].
      apply IH. intros x I. exact (H x (or_intror I)).
    - destruct d as [|d]; [discriminate|]. rewrite pretty_obj in T.
      match type of T with context[map_result ?f l] => destruct (map_result f l) as [ts|] eqn:E end; [|discriminate]. cbn [bind] in T. apply MR in E.
      destruct ts as [|t0 ts]; [injection T as <-; inversion E; subst; apply la_obj_nil|].
      assert (R : t = 123 :: (newline (S lv) ++ join_with (44 :: newline (S lv)) (t0 :: ts)) ++ 10 :: repeat 32 (2 * lv) ++ [125]).
      { apply OK in T. rewrite <- T, <- app_assoc. reflexivity. }
      rewrite R. apply la_obj. apply members_join; [|destruct l; [inversion E|discriminate]].
      clear - E H. induction E as [|(n, v) t' l ts' V E IH]; constructor.
      + cbn [fst snd] in *. destruct (pretty L d (S lv) v) as [s|] eqn:P; [|discriminate]. cbn [bind] in V. injection V as <-.
        exists s. split; [reflexivity|exact (H n v (or_introl eq_refl) _ _ _ P)].
      + apply IH. intros n' x I. exact (H n' x (or_intror I)).
  Qed.
End Laid_out.
