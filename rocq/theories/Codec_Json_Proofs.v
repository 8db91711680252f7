(** JSON: the scanner accepts exactly the documents of the grammar. *)
From Coq Require Import ZArith NArith List Bool String Lia.
From Verif Require Import Common Dict Version_Model Version_Proofs Codec_Model Codec_Spec Codec_Base64_Proofs.
Import ListNotations.
Local Open Scope string_scope.
Local Open Scope list_scope.
Local Open Scope N_scope.

(** *** hexadecimal digits *)
Definition low_hex := str "0123456789abcdef".
Definition high_hex := str "0123456789ABCDEF".
Lemma nth_error_lt : forall {A} (l : list A) n x, nth_error l (N.to_nat n) = Some x -> n < N.of_nat (List.length l).
Proof. intros A l n x H. assert (N.to_nat n < List.length l)%nat by (apply nth_error_Some; congruence). lia. Qed.
Lemma hex_lt : forall c n, hex c n -> n < 16.
Proof. intros c n [H|H]; apply nth_error_lt in H; exact H. Qed.
Lemma hex_val_iff : forall c n, hex_val c = Some n <-> hex c n.
Proof.
  intros c n. split.
  - intros H. assert (B : c < 128).
    { revert H. unfold hex_val. repeat match goal with |- context[if ?b then _ else _] => destruct b eqn:? end; try discriminate; intros _;
      repeat match goal with
      | H : _ && _ = true |- _ => apply andb_true_iff in H; destruct H
      | H : (_ <=? _) = true |- _ => apply N.leb_le in H end; lia. }
    assert (A : forallb (fun c => match hex_val c with Some n => eq_opt (nth_error low_hex (N.to_nat n)) (Some c) || eq_opt (nth_error high_hex (N.to_nat n)) (Some c) | None => true end) (upto 128) = true) by (vm_compute; reflexivity).
    rewrite forallb_forall in A. specialize (A c (upto_in 128 c B)). rewrite H in A. apply orb_true_iff in A. destruct A as [A|A]; apply eq_opt_eq in A; [left|right]; exact A.
  - intros H. pose proof (hex_lt _ _ H) as B.
    assert (A : forallb (fun n => match nth_error low_hex (N.to_nat n), nth_error high_hex (N.to_nat n) with Some a, Some b => eq_opt (hex_val a) (Some n) && eq_opt (hex_val b) (Some n) | _, _ => false end) (upto 16) = true) by (vm_compute; reflexivity).
    rewrite forallb_forall in A. specialize (A n (upto_in 16 n B)). unfold hex in H. fold low_hex high_hex in H.
    destruct (nth_error low_hex (N.to_nat n)) as [x|]; [|discriminate]. destruct (nth_error high_hex (N.to_nat n)) as [y|]; [|discriminate].
    apply andb_true_iff in A. destruct A as [A1 A2]. apply eq_opt_eq in A1, A2. destruct H as [H|H]; injection H as <-; assumption.
Qed.
Lemma hex4_val_iff : forall a b c d u, hex4_val a b c d = Some u <->
  exists na nb nc nd, hex a na /\ hex b nb /\ hex c nc /\ hex d nd /\ u = na * 4096 + nb * 256 + nc * 16 + nd.
Proof.
  intros a b c d u. unfold hex4_val. split.
  - destruct (hex_val a) as [na|] eqn:A; [|discriminate]. destruct (hex_val b) as [nb|] eqn:B; [|discriminate].
    destruct (hex_val c) as [nc|] eqn:C; [|discriminate]. destruct (hex_val d) as [nd|] eqn:D; [|discriminate]. cbn [obind].
    intros H. injection H as <-. exists na, nb, nc, nd. repeat split; apply hex_val_iff; assumption.
  - intros (na & nb & nc & nd & A & B & C & D & ->). apply hex_val_iff in A, B, C, D. rewrite A, B, C, D. reflexivity.
Qed.

Lemma is_high_iff : forall u, is_high u = true <-> high u.
Proof. intros u. unfold is_high, high. rewrite andb_true_iff, !N.leb_le. reflexivity. Qed.
Lemma is_low_iff : forall u, is_low u = true <-> low u.
Proof. intros u. unfold is_low, low. rewrite andb_true_iff, !N.leb_le. reflexivity. Qed.
Lemma simple_escape_iff : forall e c, simple_escape e = Some c <-> In (e, c) escapes.
Proof.
  intros e c. unfold simple_escape, escapes. split.
  - repeat match goal with |- context[if ?x =? ?y then _ else _] => destruct (N.eqb_spec x y); [subst; intros H; injection H as <-; cbn; tauto|] end. discriminate.
  - cbn [In]. intros H. repeat (destruct H as [H|H]; [injection H as <- <-; reflexivity|]). destruct H.
Qed.

(** *** strings *)
Inductive next := NoUnit | BadUnit | UnitAt (w : N) (s : pystr).
Definition next_unit (s : pystr) : next :=
  match s with
  | x :: y :: a :: b :: c :: d :: s4 =>
      if (x =? 92) && (y =? 117) then match hex4_val a b c d with None => BadUnit | Some w => UnitAt w s4 end else NoUnit
  | _ => NoUnit
  end.
Lemma scan_unit : forall a b c d s, scan (92 :: 117 :: a :: b :: c :: d :: s) =
  match hex4_val a b c d with
  | None => None
  | Some u => if is_high u then
      match next_unit s with
      | NoUnit => push u (scan s)
      | BadUnit => None
      | UnitAt w s4 => if is_low w then push (join_pair u w) (scan s4) else push u (scan s)
      end
      else push u (scan s)
  end.
Proof.
  intros a b c d s.
  cbn [scan]. change (92 =? 34) with false. change (92 =? 92) with true. change (117 =? 117) with true. cbv iota.
  destruct (hex4_val a b c d) as [u|]; [|reflexivity]. destruct (is_high u); [|reflexivity].
  unfold next_unit. do 6 (destruct s as [|? s]; [reflexivity|]). destruct ((n =? 92) && (n0 =? 117)); [|reflexivity].
  destruct (hex4_val n1 n2 n3 n4); reflexivity.
Qed.
Lemma scan_plain : forall c s, c <> 34 -> c <> 92 -> 32 <= c -> scan (c :: s) = push c (scan s).
Proof.
  intros c s H1 H2 H3. cbn [scan]. rewrite (proj2 (N.eqb_neq _ _) H1), (proj2 (N.eqb_neq _ _) H2).
  destruct (N.ltb_spec c 32); [lia|reflexivity].
Qed.
Lemma scan_escape : forall e c s, simple_escape e = Some c -> scan (92 :: e :: s) = push c (scan s).
Proof.
  intros e c s H. cbn [scan]. change (92 =? 34) with false. change (92 =? 92) with true. cbv iota.
  destruct (N.eqb_spec e 117) as [->|N]; [discriminate|]. rewrite H. reflexivity.
Qed.
Lemma push_some : forall c r p, push c r = Some p <-> exists t s, p = (c :: t, s) /\ r = Some (t, s).
Proof.
  intros c [[t s]|] p; cbn; split; intros H.
  - injection H as <-. eauto.
  - destruct H as (t' & s' & -> & H). injection H as <- <-. reflexivity.
  - discriminate.
  - destruct H as (t' & s' & _ & H). discriminate.
Qed.
Lemma next_unit_here : forall a b c d w s, hex4_val a b c d = Some w -> next_unit (92 :: 117 :: a :: b :: c :: d :: s) = UnitAt w s.
Proof. intros a b c d w s H. cbn [next_unit]. change (92 =? 92) with true. change (117 =? 117) with true. cbn [andb]. rewrite H. reflexivity. Qed.
Lemma next_unit_no : forall x y s, x <> 92 \/ y <> 117 -> next_unit (x :: y :: s) = NoUnit.
Proof.
  intros x y s H. unfold next_unit. do 4 (destruct s as [|? s]; [reflexivity|]).
  destruct (N.eqb_spec x 92), (N.eqb_spec y 117); try reflexivity. destruct H; contradiction.
Qed.

(** What follows a body and a closing quote is no further [\u], unless the body
    begins with one. *)
Lemma next_unit_body : forall s l r, body s l ->
  (next_unit (s ++ 34 :: r) = NoUnit) \/ (exists w l' s4, l = Unit w :: l' /\ next_unit (s ++ 34 :: r) = UnitAt w s4).
Proof.
  intros s l r H. inversion H; subst.
  - left. cbn [app]. destruct r as [|y r]; [reflexivity|]. apply next_unit_no. left. discriminate.
  - left. destruct s0 as [|y s0]; cbn [app]; apply next_unit_no; left; assumption.
  - left. cbn [app]. apply next_unit_no. right. intros ->. apply simple_escape_iff in H0. discriminate.
  - right. exists (na * 4096 + nb * 256 + nc * 16 + nd), l0, (s0 ++ 34 :: r). split; [reflexivity|]. cbn [app]. apply next_unit_here.
    apply hex4_val_iff. exists na, nb, nc, nd. auto.
Qed.
Lemma scan_complete : forall l t, spelled l t -> forall b r, body b l -> scan (b ++ 34 :: r) = Some (t, r).
Proof.
  induction 1 as [|c l t H IH|u w l t Hu Hw H IH|u l t Hn H IH]; intros b r B.
  - inversion B; subst. reflexivity.
  - inversion B; subst.
    + cbn [app]. rewrite scan_plain by assumption. rewrite (IH _ r) by assumption. reflexivity.
    + cbn [app]. rewrite (scan_escape e c) by (apply simple_escape_iff; assumption). rewrite (IH _ r) by assumption. reflexivity.
  - inversion B as [| | |a b0 c d na nb nc nd s l0 Ha Hb Hc Hd B1]; subst. inversion B1 as [| | |a' b0' c' d' na' nb' nc' nd' s' l0' Ha' Hb' Hc' Hd' B2]; subst.
    cbn [app]. rewrite scan_unit. rewrite (proj2 (hex4_val_iff a b0 c d _)) by (exists na, nb, nc, nd; auto).
    rewrite (proj2 (is_high_iff _) Hu). erewrite next_unit_here by (apply hex4_val_iff; exists na', nb', nc', nd'; auto).
    rewrite (proj2 (is_low_iff _) Hw). rewrite (IH _ r) by assumption. reflexivity.
  - inversion B as [| | |a b0 c d na nb nc nd s l0 Ha Hb Hc Hd B1]; subst.
    cbn [app]. rewrite scan_unit. rewrite (proj2 (hex4_val_iff a b0 c d _)) by (exists na, nb, nc, nd; auto).
    rewrite (IH _ r B1). destruct (is_high _) eqn:Hh; [|reflexivity].
    destruct (next_unit_body _ _ r B1) as [->|(w & l' & s4 & -> & ->)]; [reflexivity|].
    destruct (is_low w) eqn:Hl; [|reflexivity]. exfalso. apply (Hn w l'); [apply is_high_iff; exact Hh|reflexivity|apply is_low_iff; exact Hl].
Qed.
Lemma scan_sound : forall n s t r, (List.length s <= n)%nat -> scan s = Some (t, r) -> exists b l, s = b ++ 34 :: r /\ body b l /\ spelled l t.
Proof.
  induction n as [|n IH]; intros s t r Hn H.
  { destruct s; [discriminate|cbn in Hn; lia]. }
  destruct s as [|c s]; [discriminate|]. cbn [List.length] in Hn.
  destruct (N.eqb_spec c 34) as [->|N1].
  { cbn [scan] in H. change (34 =? 34) with true in H. injection H as <- <-. exists [], []. split; [reflexivity|]. split; constructor. }
  destruct (N.eqb_spec c 92) as [->|N2].
  2:{ destruct (N.ltb_spec c 32) as [L|G].
      { cbn [scan] in H. rewrite (proj2 (N.eqb_neq _ _) N1), (proj2 (N.eqb_neq _ _) N2), (proj2 (N.ltb_lt _ _) L) in H. discriminate. }
      rewrite scan_plain in H by assumption. apply push_some in H. destruct H as (t' & r' & E & H). injection E as -> <-.
      apply IH in H; [|lia]. destruct H as (b & l & -> & B & S). exists (c :: b), (Plain c :: l). split; [reflexivity|]. split; constructor; assumption. }
  destruct s as [|e s]; [discriminate|]. cbn [List.length] in Hn.
  destruct (N.eqb_spec e 117) as [->|N3].
  2:{ destruct (simple_escape e) as [c|] eqn:E.
      2:{ cbn [scan] in H. change (92 =? 34) with false in H. change (92 =? 92) with true in H. rewrite (proj2 (N.eqb_neq _ _) N3), E in H. discriminate. }
      rewrite (scan_escape e c) in H by assumption. apply push_some in H. destruct H as (t' & r' & Eq & H). injection Eq as -> <-.
      apply IH in H; [|lia]. destruct H as (b & l & -> & B & S). exists (92 :: e :: b), (Plain c :: l). split; [reflexivity|].
      split; [apply b_escape; [apply simple_escape_iff|]; assumption|constructor; assumption]. }
  destruct s as [|a s]; [discriminate|]. destruct s as [|b s]; [discriminate|]. destruct s as [|c s]; [discriminate|]. destruct s as [|d s]; [discriminate|].
  cbn [List.length] in Hn. rewrite scan_unit in H. destruct (hex4_val a b c d) as [u|] eqn:E; [|discriminate].
  apply hex4_val_iff in E. destruct E as (na & nb & nc & nd & Ha & Hb & Hc & Hd & ->). set (u := na * 4096 + nb * 256 + nc * 16 + nd) in *.
  assert (Single : push u (scan s) = Some (t, r) -> (forall w s4, high u -> next_unit s = UnitAt w s4 -> ~ low w) ->
    exists b0 l, 92 :: 117 :: a :: b :: c :: d :: s = b0 ++ 34 :: r /\ body b0 l /\ spelled l t).
  { intros X Y. apply push_some in X. destruct X as (t' & r' & Eq & X). injection Eq as -> <-. apply IH in X; [|lia]. destruct X as (b0 & l & -> & B & S).
    exists (92 :: 117 :: a :: b :: c :: d :: b0), (Unit u :: l). split; [reflexivity|]. split; [apply b_unit; assumption|]. apply s_unit; [|exact S].
    intros w l' Hh El. destruct (next_unit_body _ _ r B) as [Nn|(w' & l'' & s4 & El' & Nn)].
    - subst l. inversion B as [| | |a' b0' c' d' na' nb' nc' nd' s' l0' Ha' Hb' Hc' Hd' B2]; subst. cbn [app] in Nn. erewrite next_unit_here in Nn by (apply hex4_val_iff; exists na', nb', nc', nd'; auto). discriminate.
    - rewrite El in El'. injection El' as <- <-. exact (Y w s4 Hh Nn). }
  destruct (is_high u) eqn:Hh.
  2:{ apply Single; [exact H|]. intros w s4 Hu. apply is_high_iff in Hu. congruence. }
  destruct (next_unit s) as [| |w s4] eqn:Nn.
  - apply Single; [exact H|]. intros w s4 _ X. discriminate.
  - discriminate.
  - destruct (is_low w) eqn:Hl.
    2:{ apply Single; [exact H|]. intros w' s4' _ X. injection X as <- <-. rewrite <- is_low_iff. congruence. }
    unfold next_unit in Nn. destruct s as [|x s]; [discriminate|]. destruct s as [|y s]; [discriminate|]. destruct s as [|a' s]; [discriminate|]. destruct s as [|b' s]; [discriminate|]. destruct s as [|c' s]; [discriminate|]. destruct s as [|d' s]; [discriminate|].
    destruct (N.eqb_spec x 92) as [->|]; [|discriminate]. destruct (N.eqb_spec y 117) as [->|]; [|discriminate]. cbn [andb] in Nn.
    destruct (hex4_val a' b' c' d') as [w'|] eqn:E; [|discriminate]. injection Nn as <- <-. apply hex4_val_iff in E. destruct E as (na' & nb' & nc' & nd' & Ha' & Hb' & Hc' & Hd' & ->).
    apply push_some in H. destruct H as (t' & r' & Eq & H). injection Eq as -> <-. cbn [List.length] in Hn. apply IH in H; [|lia]. destruct H as (b0 & l & -> & B & S).
    eexists (92 :: 117 :: a :: b :: c :: d :: 92 :: 117 :: a' :: b' :: c' :: d' :: b0), (Unit u :: Unit _ :: l). split; [reflexivity|]. split.
    + apply b_unit; try assumption. apply b_unit; eassumption.
    + apply s_pair; [apply is_high_iff; exact Hh|apply is_low_iff; exact Hl|exact S].
Qed.
Lemma scan_iff : forall s t r, scan s = Some (t, r) <-> exists b, s = b ++ 34 :: r /\ string_text (34 :: b ++ [34]) t.
Proof.
  intros s t r. split.
  - intros H. apply (scan_sound (List.length s)) in H; [|lia]. destruct H as (b & l & -> & B & S). exists b. split; [reflexivity|]. exists b, l. auto.
  - intros (b & -> & b' & l & E & B & S). injection E as E. apply app_inv_tail in E. subst b'. eapply scan_complete; eassumption.
Qed.

(** *** numbers *)
Lemma is_digit_iff : forall c, is_digit c = true <-> is_dec c.
Proof. intros c. unfold is_digit, is_dec. rewrite andb_true_iff, !N.leb_le. reflexivity. Qed.
Definition no_digit (s : pystr) : Prop := match s with c :: _ => is_digit c = false | [] => True end.
Lemma digits_sound : forall s, s = fst (digits s) ++ snd (digits s) /\ Forall is_dec (fst (digits s)) /\ no_digit (snd (digits s)).
Proof.
  induction s as [|c s (E & D & N)]; [cbn; auto|]. cbn [digits]. destruct (is_digit c) eqn:X; cbn [fst snd app].
  - split; [f_equal; exact E|]. split; [constructor; [apply is_digit_iff; exact X|exact D]|exact N].
  - split; [reflexivity|]. split; [constructor|exact X].
Qed.
Lemma digits_complete : forall ds r, Forall is_dec ds -> no_digit r -> digits (ds ++ r) = (ds, r).
Proof.
  induction ds as [|c ds IH]; intros r D N.
  - cbn [app]. destruct r as [|c r]; [reflexivity|]. cbn in N |- *. rewrite N. reflexivity.
  - inversion D; subst. cbn [app digits]. rewrite (proj2 (is_digit_iff c)) by assumption. rewrite IH by assumption. reflexivity.
Qed.

(** What may follow a value. *)
Definition stops (r : pystr) : Prop := match r with c :: _ => In c [32; 9; 10; 13; 44; 93; 125] | [] => True end.
Lemma stops_facts : forall r, stops r -> no_digit r /\ frac_part r = ([], r) /\ exp_part r = ([], r).
Proof.
  intros [|c r] H; [cbn; auto|]. cbn [stops In] in H.
  repeat (destruct H as [H|H]; [subst c; cbn; auto|]). destruct H.
Qed.
Lemma whole_complete : forall w r, whole w -> no_digit r -> whole_part (w ++ r) = Some (w, r).
Proof.
  intros w r [->|(c & ds & -> & B & D)] N; [reflexivity|]. cbn [app whole_part].
  destruct (N.eqb_spec c 48); [lia|]. rewrite (proj2 (is_digit_iff c)) by (unfold is_dec; lia). rewrite digits_complete by assumption. reflexivity.
Qed.
Lemma whole_sound : forall s w r, whole_part s = Some (w, r) -> s = w ++ r /\ whole w.
Proof.
  intros [|c s] w r H; [discriminate|]. cbn [whole_part] in H. destruct (N.eqb_spec c 48) as [->|N].
  - injection H as <- <-. split; [reflexivity|left; reflexivity].
  - destruct (is_digit c) eqn:E; [|discriminate]. injection H as <- <-. destruct (digits_sound s) as (E1 & D & _). split; [cbn [app]; f_equal; exact E1|].
    right. exists c, (fst (digits s)). split; [reflexivity|]. apply is_digit_iff in E. unfold is_dec in E. split; [lia|exact D].
Qed.
Lemma whole_digits : forall w, whole w -> w <> [] /\ Forall is_dec w.
Proof.
  intros w [->|(c & ds & -> & B & D)]; (split; [discriminate|]); constructor; try assumption; unfold is_dec; try lia. constructor.
Qed.
Lemma dec_value_eq : forall w, dec_value w = fold_left (fun a c => 10 * a + digit_val c)%Z w 0%Z.
Proof. reflexivity. Qed.
Lemma digits_true : forall w, Forall is_dec w -> Forall (fun c => is_digit c = true) w.
Proof. intros w H. eapply Forall_impl; [|exact H]. intros c. apply is_digit_iff. Qed.
Lemma py_int_whole : forall w, whole w -> py_int w = Ok (dec_value w).
Proof. intros w H. destruct (whole_digits w H) as [H1 H2]. apply py_int_digits; [exact H1|apply digits_true; exact H2]. Qed.
Lemma py_int_minus : forall w, whole w -> py_int (45 :: w) = Ok (- dec_value w)%Z.
Proof. intros w H. destruct (whole_digits w H) as [H1 H2]. apply py_int_neg_digits; [exact H1|apply digits_true; exact H2]. Qed.

Lemma frac_complete : forall f r, fraction f -> no_digit r -> frac_part (f ++ r) = (f, r).
Proof.
  intros f r (ds & -> & Ne & D) N. cbn [app frac_part]. change (46 =? 46) with true. cbv iota. rewrite digits_complete by assumption. destruct ds; [congruence|reflexivity].
Qed.
Lemma frac_sound : forall s f r, frac_part s = (f, r) -> s = f ++ r /\ (f = [] \/ fraction f).
Proof.
  intros [|c s] f r H; cbn [frac_part] in H; [injection H as <- <-; auto|].
  destruct (N.eqb_spec c 46) as [->|]; [|injection H as <- <-; auto].
  destruct (digits_sound s) as (E & D & _). destruct (digits s) as [[|x ds] r']; [injection H as <- <-; auto|].
  injection H as <- <-. cbn [fst snd] in E, D. split; [cbn [app]; f_equal; exact E|]. right. exists (x :: ds). split; [reflexivity|]. split; [discriminate|exact D].
Qed.
Lemma exp_complete : forall x r, exponent x -> no_digit r -> exp_part (x ++ r) = (x, r).
Proof.
  intros x r (e & sg & ds & -> & He & Hsg & Ne & D) N. cbn [app exp_part].
  replace ((e =? 101) || (e =? 69)) with true by (destruct He as [->| ->]; reflexivity).
  destruct ds as [|c ds]; [congruence|]. destruct Hsg as [->|[->| ->]]; cbn [app].
  - inversion D as [|? ? Dc _]; subst. unfold is_dec in Dc. destruct (N.eqb_spec c 43); [lia|]. destruct (N.eqb_spec c 45); [lia|]. cbn [orb snd fst].
    change (c :: ds ++ r) with ((c :: ds) ++ r). rewrite digits_complete by assumption. reflexivity.
  - change (c :: ds ++ r) with ((c :: ds) ++ r). cbn [orb]. change (43 =? 43) with true. cbn [orb snd fst]. rewrite digits_complete by assumption. reflexivity.
  - change (c :: ds ++ r) with ((c :: ds) ++ r). change (45 =? 43) with false. change (45 =? 45) with true. cbn [orb snd fst]. rewrite digits_complete by assumption. reflexivity.
Qed.
Lemma exp_sound : forall s x r, exp_part s = (x, r) -> s = x ++ r /\ (x = [] \/ exponent x).
Proof.
  intros [|c s] x r H; cbn [exp_part] in H; [injection H as <- <-; auto|].
  destruct ((c =? 101) || (c =? 69)) eqn:Ec; [|injection H as <- <-; auto].
  apply orb_true_iff in Ec. rewrite !N.eqb_eq in Ec.
  set (sg := match s with x :: s2 => if (x =? 43) || (x =? 45) then ([x], s2) else ([], s) | [] => ([], s) end) in *.
  assert (G : s = fst sg ++ snd sg /\ (fst sg = [] \/ fst sg = [43] \/ fst sg = [45])).
  { subst sg. destruct s as [|y s]; [cbn; auto|]. destruct (N.eqb_spec y 43) as [->|]; [cbn; auto|]. destruct (N.eqb_spec y 45) as [->|]; cbn; auto. }
  destruct G as [G1 G2]. destruct (digits_sound (snd sg)) as (E & D & _). destruct (digits (snd sg)) as [[|y ds] r']; [injection H as <- <-; auto|].
  injection H as <- <-. cbn [fst snd] in E, D. split.
  - cbn [app]. f_equal. rewrite G1 at 1. rewrite E, <- app_assoc. reflexivity.
  - right. exists c, (fst sg), (y :: ds). split; [reflexivity|]. split; [exact Ec|]. split; [exact G2|]. split; [discriminate|exact D].
Qed.
Lemma frac_head : forall f, fraction f -> exists r, f = 46 :: r.
Proof. intros f (ds & -> & _). eauto. Qed.
Lemma exp_head : forall x, exponent x -> exists e r, x = e :: r /\ (e = 101 \/ e = 69).
Proof. intros x (e & sg & ds & -> & H & _). eauto. Qed.
Lemma exp_after : forall x r, exponent x -> no_digit (x ++ r) /\ frac_part (x ++ r) = ([], x ++ r).
Proof.
  intros x r H. destruct (exp_head x H) as (e & r' & -> & [->| ->]); cbn; auto.
Qed.

Section Values.
  Variable L : lib.

  Lemma sign_whole : forall w r, whole w -> sign_part (w ++ r) = ([], w ++ r).
  Proof.
    intros w r H. destruct (whole_digits w H) as [Ne D]. destruct w as [|c w]; [congruence|]. inversion D as [|? ? Dc _]; subst. unfold is_dec in Dc.
    cbn [app sign_part]. destruct (N.eqb_spec c 45); [lia|reflexivity].
  Qed.
  Lemma number_int : forall s z r, int_text s z -> stops r -> number L (s ++ r) = Ok (JInt z, r).
  Proof.
    intros s z r H St. destruct (stops_facts r St) as (N & F & X). destruct H as [[W ->]|(w & -> & W & ->)]; unfold number.
    - rewrite sign_whole by assumption. rewrite whole_complete by assumption. rewrite F, X. cbn [app]. rewrite py_int_whole by assumption. reflexivity.
    - cbn [app sign_part]. change (45 =? 45) with true. cbv iota. rewrite whole_complete by assumption. rewrite F, X. cbn [app]. rewrite py_int_minus by assumption. reflexivity.
  Qed.
  Lemma number_float : forall s r, float_text s -> stops r -> number L (s ++ r) = Ok (JFloat (float_of L s), r).
  Proof.
    intros s r (sg & w & fr & ex & -> & Hsg & W & H) St. destruct (stops_facts r St) as (N & F & X).
    assert (Sg : sign_part ((sg ++ w ++ fr ++ ex) ++ r) = (sg, w ++ fr ++ ex ++ r)).
    { rewrite <- !app_assoc. destruct Hsg as [->| ->]; [exact (sign_whole w _ W)|reflexivity]. }
    unfold number. rewrite Sg.
    destruct H as [[Hf [->|He]]|[-> He]].
    - cbn [app]. rewrite whole_complete by (auto; destruct (frac_head fr Hf) as [? ->]; reflexivity).
      rewrite frac_complete by assumption. rewrite X. rewrite app_nil_r. destruct (frac_head fr Hf) as [f' ->]. reflexivity.
    - rewrite whole_complete by (auto; destruct (frac_head fr Hf) as [? ->]; reflexivity).
      rewrite frac_complete by (auto; apply exp_after; exact He). rewrite exp_complete by assumption. destruct (frac_head fr Hf) as [f' ->]. reflexivity.
    - cbn [app]. destruct (exp_after ex r He) as [N' F']. rewrite whole_complete by assumption. rewrite F'. rewrite exp_complete by assumption.
      destruct (exp_head ex He) as (e & x' & -> & _). reflexivity.
  Qed.
  Lemma number_sound : forall s v r, number L s = Ok (v, r) ->
    exists t, s = t ++ r /\ ((exists z, v = JInt z /\ int_text t z) \/ (v = JFloat (float_of L t) /\ float_text t)).
  Proof.
    intros s v r H. unfold number in H.
    assert (Sg : s = fst (sign_part s) ++ snd (sign_part s) /\ (fst (sign_part s) = [] \/ fst (sign_part s) = [45])).
    { destruct s as [|c s]; [cbn; auto|]. cbn [sign_part]. destruct (N.eqb_spec c 45) as [->|]; cbn; auto. }
    destruct (sign_part s) as [sg s1]. cbn [fst snd] in Sg. destruct Sg as [-> Hsg].
    destruct (whole_part s1) as [[w s2]|] eqn:W; [|discriminate]. apply whole_sound in W. destruct W as [-> W].
    destruct (frac_part s2) as [fr s3] eqn:F. apply frac_sound in F. destruct F as [-> F].
    destruct (exp_part s3) as [ex s4] eqn:X. apply exp_sound in X. destruct X as [-> X].
    destruct (fr ++ ex) as [|y t] eqn:E.
    - apply app_eq_nil in E. destruct E as [-> ->]. exists (sg ++ w).
      assert (Z : exists z, py_int (sg ++ w) = Ok z /\ int_text (sg ++ w) z).
      { destruct Hsg as [->| ->]; cbn [app]; [exists (dec_value w)|exists (- dec_value w)%Z]; (split; [apply py_int_whole || apply py_int_minus; exact W|]); [left; auto|right; exists w; auto]. }
      destruct Z as (z & Z1 & Z2). rewrite Z1 in H. cbn [bind] in H. injection H as <- <-. split; [rewrite <- app_assoc; reflexivity|]. left. eauto.
    - injection H as <- <-. exists (sg ++ w ++ y :: t). split; [rewrite <- E, <- !app_assoc; reflexivity|]. right. split; [reflexivity|].
      rewrite <- E. exists sg, w, fr, ex. split; [reflexivity|]. split; [exact Hsg|]. split; [exact W|].
      destruct F as [->|F]; [|left; split; [exact F|exact X]]. right. split; [reflexivity|]. destruct X as [->|X]; [discriminate|exact X].
  Qed.

  (** *** words *)
  Lemma after_iff : forall w s r, after w s = Some r <-> s = w ++ r.
  Proof.
    induction w as [|c w IH]; intros s r; cbn [after app]; [split; [intros H; injection H as <-; reflexivity|intros ->; reflexivity]|].
    destruct s as [|x s]; [split; discriminate|]. destruct (N.eqb_spec c x) as [->|N].
    - rewrite IH. split; [intros ->; reflexivity|intros H; injection H as ->; reflexivity].
    - split; [discriminate|]. intros H. injection H as -> _. congruence.
  Qed.
  Lemma after_here : forall w r, after w (w ++ r) = Some r.
  Proof. intros w r. apply after_iff. reflexivity. Qed.

  Definition numeric (s : pystr) : Prop := match s with
    | c :: s' => is_dec c \/ (c = 45 /\ match s' with x :: _ => is_dec x | [] => False end)
    | [] => False end.
  Lemma numeric_scalar : forall s, numeric s -> scalar_or L s = number L s.
  Proof.
    intros [|c s] H; [destruct H|]. unfold scalar_or.
    assert (K : forall w k, (58 <= k)%N -> after (k :: w) (c :: s) = None).
    { intros w k Hk. cbn [after]. destruct (N.eqb_spec k c); [|reflexivity]. cbn [numeric] in H. unfold is_dec in H. lia. }
    change (str "null") with (110 :: str "ull"). change (str "true") with (116 :: str "rue"). change (str "false") with (102 :: str "alse").
    change (str "NaN") with (78 :: str "aN"). change (str "Infinity") with (73 :: str "nfinity"). rewrite !K by lia.
    assert (A : after (str "-Infinity") (c :: s) = None).
    { change (str "-Infinity") with (45 :: 73 :: str "nfinity"). cbn [after]. destruct (N.eqb_spec 45 c) as [<-|]; [|reflexivity].
      destruct s as [|x s]; [reflexivity|]. destruct (N.eqb_spec 73 x) as [<-|]; [|reflexivity]. cbn [numeric] in H. unfold is_dec in H. lia. }
    rewrite A. reflexivity.
  Qed.
  Lemma whole_numeric : forall w r, whole w -> numeric (w ++ r) /\ numeric (45 :: w ++ r).
  Proof.
    intros w r H. destruct (whole_digits w H) as [Ne D]. destruct w as [|c w]; [congruence|]. inversion D; subst. cbn. auto.
  Qed.
  Lemma int_numeric : forall s z r, int_text s z -> numeric (s ++ r).
  Proof. intros s z r [[W _]|(w & -> & W & _)]; apply whole_numeric; exact W. Qed.
  Lemma float_numeric : forall s r, float_text s -> numeric (s ++ r).
  Proof.
    intros s r (sg & w & fr & ex & -> & [->| ->] & W & _); rewrite <- !app_assoc; cbn [app]; apply whole_numeric; exact W.
  Qed.

  (** *** white space *)
  Lemma is_ws_iff : forall c, is_ws c = true <-> In c [32; 9; 10; 13].
  Proof.
    intros c. unfold is_ws. rewrite !orb_true_iff, !N.eqb_eq. cbn [In]. split; [intros [[[->| ->]| ->]| ->]; auto|intros [<-|[<-|[<-|[<-|[]]]]]; auto].
  Qed.
  Definition no_ws (s : pystr) : Prop := match s with c :: _ => is_ws c = false | [] => True end.
  Lemma skip_sound : forall s, exists w, s = w ++ skip s /\ white w /\ no_ws (skip s).
  Proof.
    induction s as [|c s (w & E & W & N)]; [exists []; cbn; split; [reflexivity|split; [constructor|exact Logic.I]]|].
    cbn [skip]. destruct (is_ws c) eqn:X.
    - exists (c :: w). split; [cbn [app]; f_equal; exact E|]. split; [constructor; [apply is_ws_iff; exact X|exact W]|exact N].
    - exists []. split; [reflexivity|]. split; [constructor|exact X].
  Qed.
  Lemma skip_complete : forall w s, white w -> no_ws s -> skip (w ++ s) = s.
  Proof.
    induction w as [|c w IH]; intros s W N; cbn [app].
    - destruct s as [|c s]; [reflexivity|]. cbn in N |- *. rewrite N. reflexivity.
    - inversion W; subst. cbn [skip]. rewrite (proj2 (is_ws_iff c)) by assumption. apply IH; assumption.
  Qed.
  Lemma skip_white : forall w, skip w = [] <-> white w.
  Proof.
    intros w. split; intros H.
    - destruct (skip_sound w) as (w' & E & W & _). rewrite H, app_nil_r in E. subst. exact W.
    - rewrite <- (app_nil_r w). apply skip_complete; [exact H|exact Logic.I].
  Qed.
  Lemma white_stops : forall w s, white w -> stops s -> stops (w ++ s).
  Proof. intros [|c w] s W H; [exact H|]. inversion W; subst. cbn [app stops]. cbn [In] in *. tauto. Qed.

  (** *** dictionaries *)
  Definition put (acc : list (pystr * json (flt L))) (p : pystr * json (flt L)) := dset pystr_eqb acc (fst p) (snd p).
  Lemma put_keys : forall (o : list (pystr * json (flt L))) k v,
    map fst (dset pystr_eqb o k v) = if in_dec pystr_eq_dec k (map fst o) then map fst o else map fst o ++ [k].
  Proof.
    induction o as [|[k' v'] o IH]; intros k v; [reflexivity|]. cbn [dset]. destruct (pystr_eqb k' k) eqn:E.
    - apply pystr_eqb_eq in E. subst. destruct (in_dec pystr_eq_dec k (map fst ((k, v') :: o))) as [I|N]; [reflexivity|]. destruct N. left. reflexivity.
    - apply pystr_eqb_neq in E. cbn [map fst]. rewrite IH. destruct (in_dec pystr_eq_dec k (map fst o)) as [I|N]; destruct (in_dec pystr_eq_dec k (k' :: map fst o)) as [I'|N']; try reflexivity.
      + destruct N'. right. exact I.
      + destruct I' as [I'|I']; congruence.
  Qed.
  Lemma first_seen_in : forall l k, In k (first_seen l) <-> In k l.
  Proof.
    induction l as [|a l IH]; intros k; [reflexivity|]. cbn [first_seen In]. rewrite filter_In, IH. destruct (pystr_eq_dec a k) as [->|N]; split; intros H; auto; tauto.
  Qed.
  Lemma filter_app_one : forall {A} (f : A -> bool) l x, filter f (l ++ [x]) = filter f l ++ (if f x then [x] else []).
  Proof. intros A f l x. induction l as [|a l IH]; [cbn; destruct (f x); reflexivity|]. cbn. rewrite IH. destruct (f a); reflexivity. Qed.
  Lemma first_seen_snoc : forall l k, first_seen (l ++ [k]) = if in_dec pystr_eq_dec k l then first_seen l else first_seen l ++ [k].
  Proof.
    induction l as [|a l IH]; intros k; [reflexivity|]. cbn [app first_seen]. rewrite IH.
    destruct (in_dec pystr_eq_dec k l) as [I|N]; destruct (in_dec pystr_eq_dec k (a :: l)) as [I'|N']; try reflexivity.
    - destruct N'. right. exact I.
    - destruct I' as [->|I']; [|contradiction]. rewrite filter_app_one. destruct (pystr_eq_dec k k) as [_|X]; [|congruence]. rewrite app_nil_r. reflexivity.
    - rewrite filter_app_one. destruct (pystr_eq_dec a k) as [->|_]; [destruct N'; left; reflexivity|]. reflexivity.
  Qed.
  Lemma first_seen_nodup : forall l, NoDup (first_seen l).
  Proof.
    induction l as [|a l IH]; [constructor|]. cbn [first_seen]. constructor.
    - rewrite filter_In. destruct (pystr_eq_dec a a); [intros [_ H]; discriminate|congruence].
    - apply NoDup_filter. exact IH.
  Qed.
  Lemma first_seen_id : forall l, NoDup l -> first_seen l = l.
  Proof.
    induction 1 as [|a l N H IH]; [reflexivity|]. cbn [first_seen]. rewrite IH. f_equal. clear IH H. induction l as [|b l IHl]; [reflexivity|].
    cbn [filter]. destruct (pystr_eq_dec a b) as [->|_]; [destruct N; left; reflexivity|]. f_equal. apply IHl. intros I. apply N. right. exact I.
  Qed.
  Lemma puts_dict : forall m, as_dict m (fold_left put m []).
  Proof.
    intros m. assert (K : map fst (fold_left put m []) = first_seen (map fst m)).
    { induction m as [|[k v] m IH] using rev_ind; [reflexivity|]. rewrite fold_left_app, map_app. cbn [fold_left map fst].
      unfold put at 1. cbn [fst snd]. rewrite put_keys, first_seen_snoc, IH.
      destruct (in_dec pystr_eq_dec k (first_seen (map fst m))) as [I|N]; destruct (in_dec pystr_eq_dec k (map fst m)) as [I'|N']; try reflexivity.
      - destruct N'. apply first_seen_in. exact I.
      - destruct N. apply first_seen_in. exact I'. }
    split; [exact K|]. intros k v.
    assert (W : dwf (fold_left put m [])) by (unfold dwf; rewrite K; apply first_seen_nodup).
    rewrite <- (dget_in pystr_eqb pystr_eqb_eq _ k v W). clear W K. revert k v.
    induction m as [|[k v] m IH] using rev_ind; intros k' v'.
    - cbn. split; [discriminate|]. intros ([|] & l2 & E & _); discriminate.
    - rewrite fold_left_app. cbn [fold_left]. unfold put at 1. cbn [fst snd]. rewrite (dget_dset pystr_eqb pystr_eqb_eq).
      destruct (pystr_eqb k k') eqn:E.
      + apply pystr_eqb_eq in E. subst k'. split.
        * intros H. injection H as <-. exists m, []. split; [reflexivity|]. intros [].
        * intros (l1 & l2 & E & N). destruct l2 as [|p l2 _] using rev_ind.
          -- apply app_inj_tail in E. destruct E as [_ E]. injection E as <-. reflexivity.
          -- rewrite app_comm_cons, app_assoc in E. apply app_inj_tail in E. destruct E as [_ <-]. destruct N. rewrite map_app, in_app_iff. right. left. reflexivity.
      + rewrite IH. apply pystr_eqb_neq in E. split.
        * intros (l1 & l2 & -> & N). exists l1, (l2 ++ [(k, v)]). split; [rewrite <- app_assoc; reflexivity|]. rewrite map_app, in_app_iff. intros [H|[H|[]]]; auto.
        * intros (l1 & l2 & Eq & N). destruct l2 as [|p l2 _] using rev_ind.
          -- apply app_inj_tail in Eq. destruct Eq as [_ Eq]. congruence.
          -- rewrite app_comm_cons, app_assoc in Eq. apply app_inj_tail in Eq. destruct Eq as [-> <-]. exists l1, l2. split; [reflexivity|]. intros H. apply N. rewrite map_app, in_app_iff. auto.
  Qed.
  Lemma same_keys_eq : forall (o o' : list (pystr * json (flt L))), map fst o = map fst o' -> NoDup (map fst o) -> incl o o' -> o = o'.
  Proof.
    induction o as [|[k v] o IH]; intros [|[k' v'] o'] E N S; try discriminate; [reflexivity|]. cbn [map fst] in E, N. injection E as <- E.
    inversion N as [|? ? Nk N']; subst.
    assert (v = v').
    { destruct (S (k, v) (or_introl eq_refl)) as [X|X]; [congruence|]. destruct Nk. rewrite E. apply (in_map fst) in X. exact X. }
    subst v'. f_equal. apply IH; auto. intros [k' v'] X. destruct (S (k', v') (or_intror X)) as [Y|Y]; [|exact Y]. injection Y as <- <-. destruct Nk. apply (in_map fst) in X. exact X.
  Qed.
  Lemma as_dict_unique : forall m (o o' : list (pystr * json (flt L))), as_dict m o -> as_dict m o' -> o = o'.
  Proof.
    intros m o o' [K H] [K' H']. apply same_keys_eq; [congruence|rewrite K; apply first_seen_nodup|]. intros [k v] X. apply H', H. exact X.
  Qed.
  Lemma as_dict_self : forall (o : list (pystr * json (flt L))), NoDup (map fst o) -> as_dict o o.
  Proof.
    intros o N. split; [symmetry; apply first_seen_id; exact N|]. intros k v. split.
    - intros H. apply in_split in H. destruct H as (l1 & l2 & ->). exists l1, l2. split; [reflexivity|]. rewrite map_app in N. cbn in N. apply NoDup_remove_2 in N. intros X. apply N. apply in_app_iff. auto.
    - intros (l1 & l2 & -> & _). apply in_app_iff. right. left. reflexivity.
  Qed.

  Lemma value_S : forall n d s, value L (S n) d s =
        match s with
        | [] => Err StopIteration
        | c :: s1 =>
            if c =? 34 then
              match scan s1 with Some (t, r) => Ok (JStr t, r) | None => Err ValueError end
            else if c =? 123 then
              match d with
              | O => Err RecursionError
              | S d' =>
                  match skip s1 with
                  | [] => Err ValueError
                  | c2 :: s2 => if c2 =? 125 then Ok (JObj [], s2) else members L n d' [] (c2 :: s2)
                  end
              end
            else if c =? 91 then
              match d with
              | O => Err RecursionError
              | S d' =>
                  match skip s1 with
                  | [] => Err StopIteration
                  | c2 :: s2 => if c2 =? 93 then Ok (JList [], s2) else elements L n d' [] (c2 :: s2)
                  end
              end
            else scalar_or L s
        end.
  Proof. reflexivity. Qed.
  Lemma elements_S : forall n d acc s, elements L (S n) d acc s =
        let* (v, s1) := value L n d s in
        match skip s1 with
        | [] => Err ValueError
        | c :: s2 =>
            if c =? 93 then Ok (JList (acc ++ [v]), s2)
            else if c =? 44 then elements L n d (acc ++ [v]) (skip s2)
            else Err ValueError
        end.
  Proof. reflexivity. Qed.
  Lemma members_S : forall n d acc s, members L (S n) d acc s =
        match s with
        | [] => Err ValueError
        | c :: s0 =>
            if c =? 34 then
              match scan s0 with
              | None => Err ValueError
              | Some (k, s1) =>
                  match skip s1 with
                  | [] => Err ValueError
                  | c1 :: s2 =>
                      if c1 =? 58 then
                        let* (v, s3) := value L n d (skip s2) in
                        match skip s3 with
                        | [] => Err ValueError
                        | c2 :: s4 =>
                            if c2 =? 125 then Ok (JObj (dset pystr_eqb acc k v), s4)
                            else if c2 =? 44 then members L n d (dset pystr_eqb acc k v) (skip s4)
                            else Err ValueError
                        end
                      else Err ValueError
                  end
              end
            else Err ValueError
        end.
  Proof. reflexivity. Qed.

  (** *** soundness *)
  Lemma value_sound : forall n,
    (forall d s v r, value L n d s = Ok (v, r) -> exists t, s = t ++ r /\ means L d t v) /\
    (forall d acc s v r, elements L n d acc s = Ok (v, r) -> exists t l, s = t ++ 93 :: r /\ items L d t l /\ v = JList (acc ++ l)) /\
    (forall d acc s v r, members L n d acc s = Ok (v, r) -> exists t m, s = t ++ 125 :: r /\ pairs L d t m /\ v = JObj (fold_left put m acc)).
  Proof.
    induction n as [|n (IV & IE & IM)]; [repeat split; intros; discriminate|]. split; [|split].
    - intros d s v r H. rewrite value_S in H. destruct s as [|c s1]; [discriminate|].
      destruct (N.eqb_spec c 34) as [->|N1].
      { destruct (scan s1) as [[t r']|] eqn:E; [|discriminate]. injection H as <- <-. apply scan_iff in E. destruct E as (b & -> & St).
        exists (34 :: b ++ [34]). split; [cbn [app]; rewrite <- app_assoc; reflexivity|]. constructor. exact St. }
      destruct (N.eqb_spec c 123) as [->|N2].
      { destruct d as [|d]; [discriminate|]. destruct (skip_sound s1) as (w & E & W & _). destruct (skip s1) as [|c2 s2]; [discriminate|].
        destruct (N.eqb_spec c2 125) as [->|N3].
        - injection H as <- <-. exists (123 :: w ++ [125]). split; [cbn [app]; rewrite E, <- app_assoc; reflexivity|]. constructor. exact W.
        - apply IM in H. destruct H as (t & m & Et & Pm & ->). rewrite Et in E. exists (123 :: w ++ t ++ [125]). split; [cbn [app]; rewrite E, <- !app_assoc; reflexivity|].
          apply (m_obj L d w t m); [exact W|exact Pm|apply puts_dict]. }
      destruct (N.eqb_spec c 91) as [->|N3].
      { destruct d as [|d]; [discriminate|]. destruct (skip_sound s1) as (w & E & W & _). destruct (skip s1) as [|c2 s2]; [discriminate|].
        destruct (N.eqb_spec c2 93) as [->|N4].
        - injection H as <- <-. exists (91 :: w ++ [93]). split; [cbn [app]; rewrite E, <- app_assoc; reflexivity|]. constructor. exact W.
        - apply IE in H. destruct H as (t & l & Et & Pm & ->). rewrite Et in E. exists (91 :: w ++ t ++ [93]). split; [cbn [app]; rewrite E, <- !app_assoc; reflexivity|].
          apply (m_list L d w t l); assumption. }
      unfold scalar_or in H.
      repeat match type of H with
      | match after ?w ?s with _ => _ end = _ => let E := fresh "E" in destruct (after w s) as [r'|] eqn:E; [apply after_iff in E; injection H as <- <-; eexists; split; [exact E|constructor]|clear E]
      end.
      apply number_sound in H. destruct H as (t & E & [(z & -> & T)|(-> & T)]); exists t; (split; [exact E|]); constructor; exact T.
    - intros d acc s v r H. rewrite elements_S in H. destruct (value L n d s) as [[v1 s1]|] eqn:V; [|discriminate]. cbn [bind] in H.
      apply IV in V. destruct V as (t & -> & Mt). destruct (skip_sound s1) as (w & E & W & _). destruct (skip s1) as [|c s2]; [discriminate|].
      destruct (N.eqb_spec c 93) as [->|N1].
      + injection H as <- <-. exists (t ++ w), [v1]. split; [rewrite E, <- !app_assoc; reflexivity|]. split; [constructor; assumption|reflexivity].
      + destruct (N.eqb_spec c 44) as [->|N2]; [|discriminate]. apply IE in H. destruct H as (t' & l & Et & It & ->).
        destruct (skip_sound s2) as (w2 & E2 & W2 & _). rewrite Et in E2. exists (t ++ w ++ 44 :: w2 ++ t'), (v1 :: l). split; [|split].
        * rewrite E, E2. rewrite <- !app_assoc. cbn [app]. rewrite <- !app_assoc. reflexivity.
        * constructor; assumption.
        * rewrite <- app_assoc. reflexivity.
    - intros d acc s v r H. rewrite members_S in H. destruct s as [|c s0]; [discriminate|]. destruct (N.eqb_spec c 34) as [->|N1]; [|discriminate].
      destruct (scan s0) as [[k s1]|] eqn:Sc; [|discriminate]. apply scan_iff in Sc. destruct Sc as (b & -> & Sk).
      destruct (skip_sound s1) as (w1 & E1 & W1 & _). destruct (skip s1) as [|c1 s2]; [discriminate|]. destruct (N.eqb_spec c1 58) as [->|]; [|discriminate].
      destruct (skip_sound s2) as (w2 & E2 & W2 & _). destruct (value L n d (skip s2)) as [[v1 s3]|] eqn:V; [|discriminate]. cbn [bind] in H.
      apply IV in V. destruct V as (t & Et & Mt). rewrite Et in E2. destruct (skip_sound s3) as (w3 & E3 & W3 & _). destruct (skip s3) as [|c2 s4]; [discriminate|].
      destruct (N.eqb_spec c2 125) as [->|N2].
      + injection H as <- <-. exists ((34 :: b ++ [34]) ++ w1 ++ 58 :: w2 ++ t ++ w3), [(k, v1)]. split; [|split].
        * rewrite E1, E2, E3. repeat (rewrite <- ?app_assoc; cbn [app]). reflexivity.
        * constructor; assumption.
        * reflexivity.
      + destruct (N.eqb_spec c2 44) as [->|]; [|discriminate]. apply IM in H. destruct H as (t' & m & Et' & Pm & ->).
        destruct (skip_sound s4) as (w4 & E4 & W4 & _). rewrite Et' in E4. exists ((34 :: b ++ [34]) ++ w1 ++ 58 :: w2 ++ t ++ w3 ++ 44 :: w4 ++ t'), ((k, v1) :: m). split; [|split].
        * rewrite E1, E2, E3, E4. repeat (rewrite <- ?app_assoc; cbn [app]). reflexivity.
        * constructor; assumption.
        * reflexivity.
  Qed.

  (** *** completeness *)
  Scheme means_min := Minimality for means Sort Prop
  with items_min := Minimality for items Sort Prop
  with pairs_min := Minimality for pairs Sort Prop.
  Combined Scheme grammar_ind from means_min, items_min, pairs_min.

  Definition fresh_head (t : pystr) : Prop := exists c t', t = c :: t' /\ is_ws c = false /\ c <> 93 /\ c <> 125.
  Lemma numeric_head : forall t, numeric t -> fresh_head t.
  Proof.
    intros [|c t] H; [destruct H|]. exists c, t. split; [reflexivity|]. cbn [numeric] in H. unfold is_dec in H.
    assert (B : 45 <= c <= 57) by lia. unfold is_ws. repeat split; try lia.
    destruct (N.eqb_spec c 32), (N.eqb_spec c 9), (N.eqb_spec c 10), (N.eqb_spec c 13); try lia; reflexivity.
  Qed.
  Lemma means_head : forall d t v, means L d t v -> fresh_head t.
  Proof.
    intros d t v H. inversion H; subst; try (eexists; eexists; split; [reflexivity|repeat split; try reflexivity; discriminate]).
    - apply numeric_head. rewrite <- (app_nil_r t). eapply int_numeric; eassumption.
    - apply numeric_head. rewrite <- (app_nil_r t). apply float_numeric; assumption.
    - destruct H0 as (b & l & -> & _). eexists; eexists; split; [reflexivity|repeat split; try reflexivity; discriminate].
  Qed.
  Lemma items_head : forall d t l, items L d t l -> fresh_head t.
  Proof.
    intros d t l H. inversion H; subst; match goal with M : means _ _ _ _ |- _ => destruct (means_head _ _ _ M) as (c & t' & -> & X) end; eexists; eexists; (split; [reflexivity|exact X]).
  Qed.
  Lemma pairs_head : forall d t m, pairs L d t m -> exists b r k, t = 34 :: b ++ 34 :: r /\ string_text (34 :: b ++ [34]) k.
  Proof.
    intros d t m H. inversion H; subst; match goal with X : string_text _ _ |- _ => destruct X as (b & lb & -> & B & Y) end;
      (exists b; eexists; exists kt; split; [cbn [app]; rewrite <- app_assoc; reflexivity|exists b, lb; auto]).
  Qed.
  Lemma scan_text : forall b k r, string_text (34 :: b ++ [34]) k -> scan (b ++ 34 :: r) = Some (k, r).
  Proof. intros b k r H. apply scan_iff. exists b. auto. Qed.
  Lemma head_no_ws : forall t r, fresh_head t -> no_ws (t ++ r).
  Proof. intros t r (c & t' & -> & H & _). exact H. Qed.

  Lemma scalar_complete : forall n d t v r, means L d t v -> stops r -> (1 <= n)%nat ->
    (forall c t', t = c :: t' -> c <> 34 /\ c <> 123 /\ c <> 91) -> scalar_or L (t ++ r) = Ok (v, r) -> value L n d (t ++ r) = Ok (v, r).
  Proof.
    intros n d t v r M St Hn Hc H. destruct n as [|n]; [lia|]. destruct (means_head _ _ _ M) as (c & t' & -> & _). destruct (Hc c t' eq_refl) as (N1 & N2 & N3).
    rewrite value_S. cbn [app]. rewrite (proj2 (N.eqb_neq _ _) N1), (proj2 (N.eqb_neq _ _) N2), (proj2 (N.eqb_neq _ _) N3). exact H.
  Qed.

  Ltac norm := repeat (progress (rewrite <- ?app_assoc; cbn [app])).
  Lemma complete : 
    (forall d t v, means L d t v -> forall n r, stops r -> (2 * List.length t <= n)%nat -> value L n d (t ++ r) = Ok (v, r)) /\
    (forall d t l, items L d t l -> forall n acc r, (2 * List.length t + 1 <= n)%nat -> elements L n d acc (t ++ 93 :: r) = Ok (JList (acc ++ l), r)) /\
    (forall d t m, pairs L d t m -> forall n acc r, (2 * List.length t + 1 <= n)%nat -> members L n d acc (t ++ 125 :: r) = Ok (JObj (fold_left put m acc), r)).
  Proof.
    apply grammar_ind.
    all: try (intros d n r St Hn; eapply scalar_complete; [constructor|exact St|cbn in Hn; lia|intros c t' E; injection E as <- <-; repeat split; discriminate|]; reflexivity).
    - intros d s z T n r St Hn. pose proof (int_numeric s z [] T) as Hd. rewrite app_nil_r in Hd. eapply scalar_complete; [constructor; exact T|exact St| | |].
      + destruct s; [destruct Hd|cbn in Hn; lia].
      + intros c t' ->. cbn [numeric] in Hd. unfold is_dec in Hd. lia.
      + rewrite numeric_scalar by (eapply int_numeric; exact T). apply number_int; assumption.
    - intros d s T n r St Hn. pose proof (float_numeric s [] T) as Hd. rewrite app_nil_r in Hd. eapply scalar_complete; [constructor; exact T|exact St| | |].
      + destruct s; [destruct Hd|cbn in Hn; lia].
      + intros c t' ->. cbn [numeric] in Hd. unfold is_dec in Hd. lia.
      + rewrite numeric_scalar by (eapply float_numeric; exact T). apply number_float; assumption.
    - intros d s t T n r St Hn. pose proof T as T'. destruct T' as (b & l & -> & _). destruct n as [|n]; [cbn in Hn; lia|]. rewrite value_S. cbn [app]. change (34 =? 34) with true. cbv iota.
      rewrite <- app_assoc. cbn [app]. rewrite (scan_text b t r T). reflexivity.
    - intros d w W n r St Hn. destruct n as [|n]; [cbn in Hn; lia|]. rewrite value_S. cbn [app]. change (91 =? 34) with false. change (91 =? 123) with false. change (91 =? 91) with true. cbv iota.
      rewrite <- app_assoc. cbn [app]. rewrite skip_complete by (auto; reflexivity). reflexivity.
    - intros d w s l W I IH n r St Hn. destruct n as [|n]; [cbn in Hn; lia|]. rewrite value_S. cbn [app]. change (91 =? 34) with false. change (91 =? 123) with false. change (91 =? 91) with true. cbv iota.
      rewrite <- !app_assoc. cbn [app]. rewrite skip_complete by (auto; apply head_no_ws; eapply items_head; exact I).
      destruct (items_head _ _ _ I) as (c & s' & -> & _ & N93 & _). cbn [app]. rewrite (proj2 (N.eqb_neq _ _) N93).
      change (c :: s' ++ 93 :: r) with ((c :: s') ++ 93 :: r). rewrite IH by (cbn [List.length] in *; rewrite !app_length in Hn; cbn [List.length] in Hn; lia). reflexivity.
    - intros d w W n r St Hn. destruct n as [|n]; [cbn in Hn; lia|]. rewrite value_S. cbn [app]. change (123 =? 34) with false. change (123 =? 123) with true. cbv iota.
      rewrite <- app_assoc. cbn [app]. rewrite skip_complete by (auto; reflexivity). reflexivity.
    - intros d w s m o W I IH D n r St Hn. destruct n as [|n]; [cbn in Hn; lia|]. rewrite value_S. cbn [app]. change (123 =? 34) with false. change (123 =? 123) with true. cbv iota.
      rewrite <- !app_assoc. cbn [app]. destruct (pairs_head _ _ _ I) as (b & s' & k & E & _).
      rewrite skip_complete by (auto; rewrite E; reflexivity). rewrite E at 1. cbn [app]. change (34 =? 125) with false. cbv iota.
      change (34 :: (b ++ 34 :: s') ++ 125 :: r) with ((34 :: b ++ 34 :: s') ++ 125 :: r). rewrite <- E.
      rewrite IH by (cbn [List.length] in Hn; rewrite !app_length in Hn; cbn [List.length] in Hn; lia).
      rewrite (as_dict_unique m o (fold_left put m []) D (puts_dict m)). reflexivity.
    - intros d s v w M IH W n acc r Hn. destruct n as [|n]; [lia|]. rewrite elements_S. rewrite <- app_assoc. rewrite app_length in Hn.
      rewrite IH; [|apply white_stops; [exact W|cbn; tauto]|lia]. cbn [bind]. rewrite skip_complete by (auto; reflexivity). reflexivity.
    - intros d s v w1 w2 s' l M IH W1 W2 I IHI n acc r Hn. destruct n as [|n]; [lia|]. rewrite elements_S. rewrite <- !app_assoc. cbn [app]. rewrite <- !app_assoc. rewrite !app_length in Hn. cbn [List.length] in Hn. rewrite app_length in Hn.
      rewrite IH; [|apply white_stops; [exact W1|cbn; tauto]|lia]. cbn [bind]. rewrite skip_complete by (auto; reflexivity). change (44 =? 93) with false. change (44 =? 44) with true. cbv iota.
      rewrite skip_complete by (auto; apply head_no_ws; eapply items_head; exact I). rewrite IHI by lia. rewrite <- app_assoc. reflexivity.
    - intros d k kt w1 w2 s v w3 Sk W1 W2 M IH W3 n acc r Hn. destruct n as [|n]; [lia|]. pose proof Sk as Sk'. destruct Sk' as (b & l & -> & _).
      rewrite members_S. norm. change (34 =? 34) with true. cbv iota. norm. rewrite (scan_text b kt _ Sk).
      norm. rewrite skip_complete by (auto; reflexivity). change (58 =? 58) with true. cbv iota. norm.
      rewrite skip_complete by (auto; apply head_no_ws; eapply means_head; exact M).
      cbn [app List.length] in Hn. rewrite !app_length in Hn. cbn [List.length] in Hn. rewrite !app_length in Hn.
      rewrite IH; [|apply white_stops; [exact W3|cbn; tauto]|lia]. cbn [bind]. rewrite skip_complete by (auto; reflexivity). reflexivity.
    - intros d k kt w1 w2 s v w3 w4 s' l Sk W1 W2 M IH W3 W4 Pp IHP n acc r Hn. destruct n as [|n]; [lia|]. pose proof Sk as Sk'. destruct Sk' as (b & lb & -> & _).
      rewrite members_S. norm. change (34 =? 34) with true. cbv iota. norm. rewrite (scan_text b kt _ Sk).
      norm. rewrite skip_complete by (auto; reflexivity). change (58 =? 58) with true. cbv iota. norm.
      rewrite skip_complete by (auto; apply head_no_ws; eapply means_head; exact M).
      cbn [app List.length] in Hn. rewrite !app_length in Hn. cbn [List.length] in Hn. rewrite !app_length in Hn. cbn [List.length] in Hn. rewrite !app_length in Hn.
      rewrite IH; [|apply white_stops; [exact W3|cbn; tauto]|lia]. cbn [bind]. rewrite skip_complete by (auto; reflexivity). change (44 =? 125) with false. change (44 =? 44) with true. cbv iota.
      rewrite skip_complete.
      2:exact W4. 2:{ destruct (pairs_head _ _ _ Pp) as (b' & r' & k' & -> & _). reflexivity. }
      rewrite IHP by lia. reflexivity.
  Qed.

  Lemma decode_text_iff : forall s v, decode_text L s = Ok v <-> document L (load_limit L) s v.
  Proof.
    intros s v. unfold decode_text. split.
    - destruct (value L _ (load_limit L) (skip s)) as [[v' r]|] eqn:E; [|discriminate]. cbn [bind]. intros H.
      destruct (skip r) eqn:R; [|discriminate]. injection H as ->. apply value_sound in E. destruct E as (t & E & M).
      destruct (skip_sound s) as (w & Es & W & _). rewrite E in Es. exists w, t, r. split; [exact Es|]. split; [exact W|]. split; [apply skip_white; exact R|exact M].
    - intros (w1 & t & w2 & -> & W1 & W2 & M). rewrite skip_complete by (auto; apply head_no_ws; eapply means_head; exact M).
      rewrite (proj1 complete _ _ _ M).
      + cbn [bind]. rewrite (proj2 (skip_white w2) W2). reflexivity.
      + rewrite <- (app_nil_r w2). apply white_stops; [exact W2|exact Logic.I].
      + rewrite !app_length. lia.
  Qed.
End Values.
