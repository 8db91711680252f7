(** Proofs about conditions. *)
From Coq Require Import ZArith NArith String List Bool Lia.
From Verif Require Import Common Dict Assign_Model Condition_Model Condition_Spec.
Import ListNotations.
Local Open Scope string_scope.
Local Open Scope list_scope.
Local Open Scope Z_scope.

Lemma mem_one x l : mem x (map str l) = true <-> is_one x l.
Proof.
  unfold mem, is_one. rewrite existsb_exists. split.
  - intros [y [I E]]. apply pystr_eqb_eq in E. subst y. apply in_map_iff in I as [n [N I]]. exists n. split; [exact I|symmetry; exact N].
  - intros [n [I ->]]. exists (str n). split; [apply in_map, I|apply pystr_eqb_eq; reflexivity].
Qed.
Lemma fit_iff g : fit g = true <-> sensible g.
Proof.
  unfold fit, sensible, types, qualities. rewrite andb_true_iff, mem_one. destruct (s_quality g) as [q|].
  - rewrite mem_one. split; intros [A B]; (split; [exact A|]).
    + right. exists q. split; [reflexivity|exact B].
    + destruct B as [B|[q' [E B]]]; [discriminate|]. injection E as ->. exact B.
  - split; intros [A _]; (split; [exact A|]); [left|]; reflexivity.
Qed.
Lemma as_signal_iff W x g : as_signal W x = Some g <-> signal_of W x g.
Proof.
  split.
  - destruct x; cbn; try discriminate.
    + destruct (resolve W s) eqn:R; [|discriminate]. destruct (fit s0) eqn:F; [|discriminate].
      apply fit_iff in F. injection 1 as <-. constructor; assumption.
    + destruct (fit s) eqn:F; [|discriminate]. apply fit_iff in F. injection 1 as <-. constructor; assumption.
  - intros H; destruct H; cbn.
    + apply fit_iff in H0. rewrite H, H0. reflexivity.
    + apply fit_iff in H. rewrite H. reflexivity.
Qed.
Lemma as_signal_none W x : as_signal W x = None <-> forall g, ~ signal_of W x g.
Proof.
  split.
  - intros H g G. apply as_signal_iff in G. congruence.
  - intros H. destruct (as_signal W x) eqn:E; [|reflexivity]. apply as_signal_iff in E. destruct (H _ E).
Qed.
Lemma int32_iff z y : int32 z = Some y <-> y = z /\ -2147483648 <= z < 2147483648.
Proof.
  unfold int32. destruct ((-2147483648 <=? z) && (z <? 2147483648)) eqn:A; rewrite ?andb_true_iff, ?andb_false_iff in A;
    (split; [intros H; try discriminate H | intros [-> H]]).
  - injection H as <-. split; [reflexivity|lia].
  - reflexivity.
  - lia.
Qed.
Lemma right_signal W b g : right_of W b = Some (Signal g) <-> signal_of W b g.
Proof.
  unfold right_of. destruct (as_signal W b) eqn:E.
  - rewrite <- as_signal_iff, E. split; intros H; injection H as ->; reflexivity.
  - destruct (as_int W b); cbn; split; intros H; try discriminate; apply as_signal_iff in H; congruence.
Qed.
Lemma right_constant W b z : right_of W b = Some (Constant z) <-> number_of W b z.
Proof.
  unfold right_of. split.
  - destruct (as_signal W b) eqn:E; [discriminate|].
    destruct b; cbn; try discriminate.
    + destruct (numeral W s) eqn:N; [|discriminate]. destruct (int32 z0) eqn:I; [|discriminate]. cbn.
      injection 1 as <-. apply int32_iff in I as [-> I]. apply no_text; try assumption. apply as_signal_none, E.
    + destruct (int32 z0) eqn:I; [|discriminate]. cbn. injection 1 as <-. apply int32_iff in I as [-> I]. constructor; assumption.
  - intros H; destruct H.
    + cbn. replace (int32 z) with (Some z); [reflexivity|]. symmetry. apply int32_iff. split; [reflexivity|assumption].
    + apply as_signal_none in H. rewrite H. cbn [as_int]. rewrite H0.
      replace (int32 z) with (Some z); [reflexivity|]. symmetry. apply int32_iff. split; [reflexivity|assumption].
Qed.
Lemma left_iff W a l : left_of W a = Some l <-> (a = ANone /\ l = None \/ exists g, signal_of W a g /\ l = Some g).
Proof.
  destruct a; cbn [left_of].
  - split; [injection 1 as <-; left; split; reflexivity|].
    intros [[_ ->]|[g [G _]]]; [reflexivity|inversion G].
  - destruct (as_signal W (AName s)) eqn:E; cbn [option_map].
    + apply as_signal_iff in E. split; [injection 1 as <-; right; eexists; split; [exact E|reflexivity]|].
      intros [[H _]|[g [G ->]]]; [discriminate|]. apply as_signal_iff in E, G. congruence.
    + split; [discriminate|]. intros [[H _]|[g [G ->]]]; [discriminate|]. apply as_signal_iff in G. congruence.
  - destruct (as_signal W (ASignal s)) eqn:E; cbn [option_map].
    + apply as_signal_iff in E. split; [injection 1 as <-; right; eexists; split; [exact E|reflexivity]|].
      intros [[H _]|[g [G ->]]]; [discriminate|]. apply as_signal_iff in E, G. congruence.
    + split; [discriminate|]. intros [[H _]|[g [G ->]]]; [discriminate|]. apply as_signal_iff in G. congruence.
  - cbn. split; [discriminate|]. intros [[H _]|[g [G _]]]; [discriminate|inversion G].
  - cbn. split; [discriminate|]. intros [[H _]|[g [G _]]]; [discriminate|inversion G].
Qed.

(** Comparators. *)
Lemma spelled_iff c : mem c comparators = true <-> spelled c.
Proof.
  unfold mem. rewrite existsb_exists. split.
  - intros [x [I E]]. apply pystr_eqb_eq in E. subst x.
    cbn [In comparators] in I.
    destruct I as [<-|[<-|[<-|[<-|[<-|[<-|[<-|[<-|[<-|[<-|[]]]]]]]]]]].
    + exists 1, 0. constructor; lia.
    + exists 0, 1. constructor; lia.
    + exists 0, 0. constructor.
    + exists 0, 0. constructor.
    + exists 1, 0. apply c_ge; lia.
    + exists 1, 0. constructor; lia.
    + exists 0, 1. apply c_le; lia.
    + exists 0, 1. constructor; lia.
    + exists 0, 1. apply c_ne; lia.
    + exists 0, 1. constructor; lia.
  - intros [x [y H]]. exists c. split; [|apply pystr_eqb_eq; reflexivity].
    destruct H; cbn [In comparators]; tauto.
Qed.
Ltac cinv H := let C := fresh in inversion H as [? ? ? C|? ? ? C|? C|? C|? ? ? C|? ? ? C|? ? ? C|? ? ? C|? ? ? C|? ? ? C]; subst; try discriminate C.
Lemma cmp_gt x y : compares (str ">") x y <-> y < x.
Proof. split; [intros H; inversion H; assumption|constructor; assumption]. Qed.
Lemma cmp_lt x y : compares (str "<") x y <-> x < y.
Proof. split; [intros H; inversion H; assumption|constructor; assumption]. Qed.
Lemma cmp_eq x y : compares (str "=") x y <-> x = y.
Proof. split; [intros H; inversion H; reflexivity|intros ->; constructor]. Qed.
Lemma cmp_eq2 x y : compares (str "==") x y <-> x = y.
Proof. split; [intros H; inversion H; reflexivity|intros ->; constructor]. Qed.
Lemma cmp_ge x y : compares GE x y <-> y <= x.
Proof. split; [intros H; inversion H; assumption|apply c_ge]. Qed.
Lemma cmp_ge2 x y : compares (str ">=") x y <-> y <= x.
Proof. split; [intros H; inversion H; assumption|constructor; assumption]. Qed.
Lemma cmp_le x y : compares LE x y <-> x <= y.
Proof. split; [intros H; inversion H; assumption|apply c_le]. Qed.
Lemma cmp_le2 x y : compares (str "<=") x y <-> x <= y.
Proof. split; [intros H; inversion H; assumption|constructor; assumption]. Qed.
Lemma cmp_ne x y : compares NE x y <-> x <> y.
Proof. split; [intros H; inversion H; assumption|apply c_ne]. Qed.
Lemma cmp_ne2 x y : compares (str "!=") x y <-> x <> y.
Proof. split; [intros H; inversion H; assumption|constructor; assumption]. Qed.
Lemma normalize_means c : spelled c ->
  List.length (normalize c) = 1%nat /\ forall x y, compares (normalize c) x y <-> compares c x y.
Proof.
  intros [a [b H]]. destruct H; (split; [reflexivity|]); intros u v; try reflexivity.
  - change (normalize (str "==")) with (str "="). rewrite cmp_eq, cmp_eq2. reflexivity.
  - change (normalize (str ">=")) with GE. rewrite cmp_ge, cmp_ge2. reflexivity.
  - change (normalize (str "<=")) with LE. rewrite cmp_le, cmp_le2. reflexivity.
  - change (normalize (str "!=")) with NE. rewrite cmp_ne, cmp_ne2. reflexivity.
Qed.
(** Six spellings of one character, told apart by three pairs of numbers. *)
Lemma one_character c : spelled c -> List.length c = 1%nat ->
  In c [str ">"; str "<"; str "="; GE; LE; NE].
Proof. intros [a [b H]]. destruct H; intros L; try discriminate L; cbn [In]; unfold GE, LE, NE; tauto. Qed.
Lemma spelling_unique c d : spelled c -> spelled d -> List.length c = 1%nat -> List.length d = 1%nat ->
  (forall x y, compares c x y <-> compares d x y) -> c = d.
Proof.
  intros C D LC LD E. apply one_character in C, D; try assumption.
  pose proof (E 0 1) as E1. pose proof (E 1 0) as E2. pose proof (E 0 0) as E3.
  cbn [In] in C, D.
  destruct C as [<-|[<-|[<-|[<-|[<-|[<-|[]]]]]]];
  destruct D as [<-|[<-|[<-|[<-|[<-|[<-|[]]]]]]]; try reflexivity;
  rewrite ?cmp_gt, ?cmp_lt, ?cmp_eq, ?cmp_ge, ?cmp_le, ?cmp_ne in E1, E2, E3; exfalso; lia.
Qed.
Lemma spelled_same c d : (forall x y, compares d x y <-> compares c x y) -> spelled c -> spelled d.
Proof. intros E [x [y H]]. exists x, y. apply E, H. Qed.

(** The condition asked for is one, and the one made. *)
Lemma make_for W a c b l r : left_of W a = Some l -> mem c comparators = true -> right_of W b = Some r ->
  condition_for W a c b (make l c r).
Proof.
  intros L C R. apply left_iff in L. apply spelled_iff in C. pose proof (normalize_means c C) as [N1 N2].
  unfold condition_for, make. cbn [first_signal comparator first_networks second_networks constant second_signal].
  split; [|split; [|split; [|split; [|split; [|split]]]]]; try assumption; try reflexivity.
  destruct r as [g|z].
  - right. exists g. split; [apply right_signal, R|split; reflexivity].
  - left. exists z. split; [apply right_constant, R|split; reflexivity].
Qed.
Lemma for_make W a c b n : condition_for W a c b n ->
  exists l r, left_of W a = Some l /\ mem c comparators = true /\ right_of W b = Some r /\ n = make l c r.
Proof.
  intros [A [C [L1 [M [N1 [N2 B]]]]]].
  destruct n as [f fn cm k s sn]. cbn [first_signal comparator first_networks second_networks constant second_signal] in *. subst fn sn.
  pose proof (normalize_means c C) as [P Q].
  assert (E : cm = normalize c).
  { apply spelling_unique; try assumption.
    - exact (spelled_same c cm M C).
    - exact (spelled_same c _ Q C).
    - intros x y. rewrite M, Q. reflexivity. }
  subst cm.
  assert (AL : left_of W a = Some f) by (apply left_iff; exact A).
  exists f. destruct B as [[z [Z1 [-> ->]]]|[g [G [-> ->]]]].
  - exists (Constant z). split; [exact AL|split; [apply spelled_iff, C|split; [apply right_constant, Z1|reflexivity]]].
  - exists (Signal g). split; [exact AL|split; [apply spelled_iff, C|split; [apply right_signal, G|reflexivity]]].
Qed.
Lemma condition_unique W a c b n n' : condition_for W a c b n -> condition_for W a c b n' -> n = n'.
Proof.
  intros H H'. apply for_make in H as [l [r [L [_ [R ->]]]]]. apply for_make in H' as [l' [r' [L' [_ [R' ->]]]]]. congruence.
Qed.
Lemma condition_exists W a c b : (exists n, condition_for W a c b n) <-> left_ok W a /\ spelled c /\ right_ok W b.
Proof.
  split.
  - intros [n [A [C [_ [_ [_ [_ B]]]]]]]. split; [|split; [exact C|]].
    + destruct A as [[A _]|[g [G _]]]; [left; exact A|right; exists g; exact G].
    + destruct B as [[z [Z1 _]]|[g [G _]]]; [right; exists z; exact Z1|left; exists g; exact G].
  - intros [A [C B]].
    assert (exists l, left_of W a = Some l) as [l L].
    { destruct A as [->|[g G]]; [exists None; reflexivity|exists (Some g); apply left_iff; right; exists g; split; [exact G|reflexivity]]. }
    assert (exists r, right_of W b = Some r) as [r R].
    { destruct B as [[g G]|[z Z1]]; [exists (Signal g); apply right_signal, G|exists (Constant z); apply right_constant, Z1]. }
    exists (make l c r). apply make_for; try assumption. apply spelled_iff, C.
Qed.

Lemma signal_unique W x g g' : signal_of W x g -> signal_of W x g' -> g = g'.
Proof. rewrite <- !as_signal_iff. congruence. Qed.
Lemma number_unique W x z z' : number_of W x z -> number_of W x z' -> z = z'.
Proof. rewrite <- !right_constant. congruence. Qed.
Lemma not_both W x g z : signal_of W x g -> number_of W x z -> False.
Proof. rewrite <- right_constant, <- right_signal. congruence. Qed.

Lemma means_constant W a c b n v g z : condition_for W a c b n -> signal_of W a g -> number_of W b z ->
  (met v n <-> compares c (v g) z).
Proof.
  intros [A [_ [_ [M [_ [_ B]]]]]] G Z1.
  destruct A as [[-> _]|[g' [G' F]]]; [inversion G|]. rewrite (signal_unique W a g' g G' G) in F.
  destruct B as [[z' [Z2 [K S]]]|[g2 [G2 _]]]; [|destruct (not_both _ _ _ _ G2 Z1)].
  rewrite (number_unique W b z' z Z2 Z1) in K. unfold met. split.
  - intros [h [H1 H2]]. rewrite S, K in H2. rewrite F in H1. injection H1 as <-. apply M, H2.
  - intros H. exists g. split; [exact F|]. rewrite S, K. apply M, H.
Qed.
Lemma means_signal W a c b n v g h : condition_for W a c b n -> signal_of W a g -> signal_of W b h ->
  (met v n <-> compares c (v g) (v h)).
Proof.
  intros [A [_ [_ [M [_ [_ B]]]]]] G Z1.
  destruct A as [[-> _]|[g' [G' F]]]; [inversion G|]. rewrite (signal_unique W a g' g G' G) in F.
  destruct B as [[z' [Z2 _]]|[g2 [G2 [K S]]]]; [destruct (not_both _ _ _ _ Z1 Z2)|].
  rewrite (signal_unique W b g2 h G2 Z1) in S. unfold met. split.
  - intros [u [H1 H2]]. rewrite S in H2. rewrite F in H1. injection H1 as <-. apply M, H2.
  - intros H. exists g. split; [exact F|]. rewrite S. apply M, H.
Qed.
Lemma means_nothing W c b n v : condition_for W ANone c b n -> ~ met v n.
Proof.
  intros [A _] [u [H _]]. destruct A as [[_ A]|[g [G _]]]; [congruence|inversion G].
Qed.

(** Slots. *)
Lemma slot_eqb_eq a b : slot_eqb a b = true <-> a = b.
Proof. destruct a, b; cbn; split; congruence. Qed.
Lemma has_iff c s : has c s = true <-> In s (slots_of c).
Proof.
  unfold has. rewrite existsb_exists. split.
  - intros [x [I E]]. apply slot_eqb_eq in E. subst. exact I.
  - intros I. exists s. split; [exact I|apply slot_eqb_eq; reflexivity].
Qed.
Lemma has_not c s : ~ In s (slots_of c) -> has c s = false.
Proof. intros H. destruct (has c s) eqn:E; [|reflexivity]. apply has_iff in E. contradiction. Qed.
Lemma put_same s v k : cond_at s (put s v k) = v.
Proof. destruct s; reflexivity. Qed.
Lemma put_but s v k : same_but s k (put s v k).
Proof. destruct s; (split; [reflexivity|split; [reflexivity|]]); intros t T; destruct t; try reflexivity; contradiction. Qed.

Lemma set_does W e s a c b k n : In s (slots_of (e_class e)) -> e_control e = Model k -> condition_for W a c b n ->
  exists e' k' w, set_condition W e s a c b = (e', (w, None)) /\ only_control e e' /\ e_control e' = Model k'
    /\ cond_at s k' = Some n /\ same_but s k k'.
Proof.
  intros I K H. apply for_make in H as [l [r [L [C [R ->]]]]].
  unfold set_condition. rewrite (proj2 (has_iff _ _) I), L, C, R, K.
  eexists _, _, _. split; [reflexivity|]. split; [repeat split|]. split; [reflexivity|]. split; [apply put_same|apply put_but].
Qed.
Lemma set_made W e s a c b k e' w : e_control e = Model k -> set_condition W e s a c b = (e', (w, None)) ->
  exists n, condition_for W a c b n /\ In s (slots_of (e_class e)) /\ w = warnings W e k n.
Proof.
  intros K. unfold set_condition. rewrite K. destruct (has (e_class e) s) eqn:H; [|discriminate].
  destruct (left_of W a) as [l|] eqn:L; [|discriminate]. destruct (mem c comparators) eqn:C; [|discriminate].
  destruct (right_of W b) as [r|] eqn:R; [|discriminate]. cbv zeta. intros E.
  exists (make l c r). split; [apply make_for; assumption|]. split; [apply has_iff, H|]. congruence.
Qed.
Lemma set_fails W e s a c b e' w x : set_condition W e s a c b = (e', (w, Some x)) -> e' = e /\ w = [].
Proof.
  unfold set_condition. destruct (has (e_class e) s); [|intros H; inversion H; split; reflexivity].
  destruct (left_of W a); [|intros H; inversion H; split; reflexivity].
  destruct (mem c comparators); [|intros H; inversion H; split; reflexivity].
  destruct (right_of W b); [|intros H; inversion H; split; reflexivity].
  destruct (e_control e); intros H; inversion H; split; reflexivity.
Qed.
Lemma set_raises_value W e s a c b : snd (snd (set_condition W e s a c b)) = Some ValueError
  <-> In s (slots_of (e_class e)) /\ ~ (left_ok W a /\ spelled c /\ right_ok W b).
Proof.
  rewrite <- condition_exists, <- has_iff. unfold set_condition. destruct (has (e_class e) s).
  2:{ cbn. split; [discriminate|intros [H _]; discriminate]. }
  destruct (left_of W a) as [l|] eqn:L.
  2:{ cbn. split; [intros _|reflexivity]. split; [reflexivity|].
      intros [n N]. apply for_make in N as [l [r [N _]]]. congruence. }
  destruct (mem c comparators) eqn:C.
  2:{ cbn. split; [intros _|reflexivity]. split; [reflexivity|].
      intros [n N]. apply for_make in N as [l' [r [_ [N _]]]]. congruence. }
  destruct (right_of W b) as [r|] eqn:R.
  2:{ cbn. split; [intros _|reflexivity]. split; [reflexivity|].
      intros [n N]. apply for_make in N as [l' [r [_ [_ [N _]]]]]. congruence. }
  split; [destruct (e_control e); cbn; discriminate|].
  intros [_ H]. destruct H. exists (make l c r). apply make_for; assumption.
Qed.
Lemma set_raises_attribute W e s a c b : snd (snd (set_condition W e s a c b)) = Some AttributeError
  <-> ~ In s (slots_of (e_class e)) \/ (exists z, e_control e = Plain z) /\ left_ok W a /\ spelled c /\ right_ok W b.
Proof.
  rewrite <- condition_exists. unfold set_condition. destruct (has (e_class e) s) eqn:H.
  2:{ cbn. split; [intros _; left; intros I; apply has_iff in I; congruence|reflexivity]. }
  apply has_iff in H.
  destruct (left_of W a) as [l|] eqn:L.
  2:{ cbn. split; [discriminate|]. intros [X|[_ [n N]]]; [contradiction|]. apply for_make in N as [l [r [N _]]]. congruence. }
  destruct (mem c comparators) eqn:C.
  2:{ cbn. split; [discriminate|]. intros [X|[_ [n N]]]; [contradiction|]. apply for_make in N as [l' [r [_ [N _]]]]. congruence. }
  destruct (right_of W b) as [r|] eqn:R.
  2:{ cbn. split; [discriminate|]. intros [X|[_ [n N]]]; [contradiction|]. apply for_make in N as [l' [r [_ [_ [N _]]]]]. congruence. }
  destruct (e_control e) as [k|z].
  - cbn. split; [discriminate|]. intros [X|[[z Z1] _]]; [contradiction|discriminate].
  - cbn. split; [intros _|reflexivity]. right. split; [exists z; reflexivity|]. exists (make l c r). apply make_for; assumption.
Qed.
Lemma set_raises_other W e s a c b x : snd (snd (set_condition W e s a c b)) = Some x -> x = ValueError \/ x = AttributeError.
Proof.
  unfold set_condition. destruct (has (e_class e) s); [|cbn; injection 1 as <-; auto].
  destruct (left_of W a); [|cbn; injection 1 as <-; auto].
  destruct (mem c comparators); [|cbn; injection 1 as <-; auto].
  destruct (right_of W b); [|cbn; injection 1 as <-; auto].
  destruct (e_control e); cbn; [discriminate|injection 1 as <-; auto].
Qed.

Lemma says_warned W s : warned W s (says W s).
Proof.
  destruct s as [g|]; [|constructor]. cbn. destruct (s_name g) as [n|] eqn:N; [|constructor; exact N].
  destruct (known W n) eqn:K; [eapply w_known; eassumption|apply w_unknown; assumption].
Qed.
Lemma set_warns W e s a c b k n e' w :
  e_control e = Model k -> condition_for W a c b n -> set_condition W e s a c b = (e', (w, None)) ->
  if mode_le (e_mode e) MMinimum then w = []
  else exists w1 w2 w3, w = w1 ++ w2 ++ w3 /\ warned W (first_signal n) w1 /\ warned W (second_signal n) w2
       /\ if e_known e then warned_keys (extras k) w3 else w3 = [].
Proof.
  intros K N S. destruct (set_made _ _ _ _ _ _ _ _ _ K S) as [n' [N' [_ ->]]].
  rewrite (condition_unique _ _ _ _ _ _ N' N). unfold warnings, strict.
  destruct (mode_le (e_mode e) MMinimum); cbn [negb]; [reflexivity|].
  eexists _, _, _. split; [reflexivity|]. split; [apply says_warned|]. split; [apply says_warned|].
  destruct (e_known e); [|reflexivity]. destruct (extras k); constructor.
Qed.

Lemma remove_does e s k : In s (slots_of (e_class e)) -> e_control e = Model k ->
  exists e' k', remove_condition e s = (e', None) /\ only_control e e' /\ e_control e' = Model k'
    /\ cond_at s k' = None /\ same_but s k k'.
Proof.
  intros I K. unfold remove_condition. rewrite (proj2 (has_iff _ _) I), K.
  eexists _, _. split; [reflexivity|]. split; [repeat split|]. split; [reflexivity|]. split; [apply put_same|apply put_but].
Qed.
Lemma remove_fails e s : (~ In s (slots_of (e_class e)) \/ exists z, e_control e = Plain z) ->
  remove_condition e s = (e, Some AttributeError).
Proof.
  unfold remove_condition. intros [H|[z Z1]].
  - rewrite (has_not _ _ H). reflexivity.
  - rewrite Z1. destruct (has (e_class e) s); reflexivity.
Qed.

(** Histories. *)
Lemma exec_only W e o : only_control e (fst (exec W e o)).
Proof.
  destruct o; cbn [exec].
  - unfold set_condition. destruct (has (e_class e) s); [|repeat split].
    destruct (left_of W a); [|repeat split]. destruct (mem c comparators); [|repeat split].
    destruct (right_of W b); [|repeat split]. destruct (e_control e); repeat split.
  - unfold remove_condition. destruct (has (e_class e) s); [|repeat split]. destruct (e_control e); repeat split.
  - repeat split.
Qed.
Lemma run_only W os e : only_control e (run W os e).
Proof.
  revert e. induction os as [|o os IH]; intros e; [repeat split|].
  destruct (exec_only W e o) as [A [B C]]. destruct (IH (fst (exec W e o))) as [A' [B' C']].
  change (run W (o :: os) e) with (run W os (fst (exec W e o))). repeat split; congruence.
Qed.
Lemma run_last W os o e : run W (os ++ [o]) e = fst (exec W (run W os e) o).
Proof. unfold run. rewrite fold_left_app. reflexivity. Qed.
Lemma gives_unique W cls s o v v' : gives W cls s o v -> gives W cls s o v' -> v = v'.
Proof.
  intros H H'. destruct H; inversion H'; subst; [|reflexivity].
  f_equal. eapply condition_unique; eassumption.
Qed.
Lemma exec_gives W e s o v k : e_control e = Model k -> gives W (e_class e) s o v -> field s (fst (exec W e o)) = Some v.
Proof.
  intros K G. destruct G as [a c b n I N|I]; cbn [exec].
  - destruct (set_does W e s a c b k n I K N) as [e' [k' [w [E [_ [K' [V _]]]]]]]. rewrite E. cbn [fst].
    unfold field. rewrite K', V. reflexivity.
  - destruct (remove_does e s k I K) as [e' [k' [E [_ [K' [V _]]]]]]. rewrite E. cbn [fst].
    unfold field. rewrite K', V. reflexivity.
Qed.
Lemma exec_keeps W e s o k : e_control e = Model k -> (forall u, ~ gives W (e_class e) s o u) -> o <> Clear ->
  field s (fst (exec W e o)) = field s e.
Proof.
  intros K G NC. destruct o as [t a c b|t|]; [| |congruence]; cbn [exec].
  - destruct (set_condition W e t a c b) as [e' [w [x|]]] eqn:E.
    + apply set_fails in E as [-> _]. reflexivity.
    + destruct (set_made _ _ _ _ _ _ _ _ _ K E) as [n [N [I _]]].
      destruct (set_does W e t a c b k n I K N) as [e2 [k2 [w2 [E2 [_ [K2 [_ [_ [_ S]]]]]]]]].
      rewrite E in E2. injection E2 as <- <-. cbn [fst]. unfold field. rewrite K, K2. f_equal. symmetry. apply S.
      intros ->. apply (G (Some n)). constructor; assumption.
  - destruct (has (e_class e) t) eqn:H.
    + apply has_iff in H. destruct (remove_does e t k H K) as [e2 [k2 [E2 [_ [K2 [_ [_ [_ S]]]]]]]].
      rewrite E2. cbn [fst]. unfold field. rewrite K, K2. f_equal. symmetry. apply S.
      intros ->. apply (G None). constructor; assumption.
    + unfold remove_condition. rewrite H. reflexivity.
Qed.
Lemma field_model s e v : field s e = Some v -> exists k, e_control e = Model k.
Proof. unfold field. destruct (e_control e); [eexists; reflexivity|discriminate]. Qed.
Lemma history W e s k os v : e_control e = Model k -> shows W (e_class e) s (cond_at s k) os v ->
  field s (run W os e) = Some v.
Proof.
  intros K H. induction H as [|os o v u H IH G|os o v H IH G NC].
  - unfold run, field. cbn. rewrite K. reflexivity.
  - rewrite run_last. destruct (field_model _ _ _ IH) as [k' K']. eapply exec_gives; [exact K'|].
    rewrite <- (proj1 (run_only W os e)). exact G.
  - rewrite run_last. destruct (field_model _ _ _ IH) as [k' K']. rewrite <- IH. eapply exec_keeps; [exact K'| |exact NC].
    rewrite <- (proj1 (run_only W os e)). exact G.
Qed.
Lemma gives_decides W cls s o : (exists v, gives W cls s o v) \/ (forall v, ~ gives W cls s o v).
Proof.
  destruct o as [t a c b|t|].
  - destruct (slot_eqb t s) eqn:T.
    2:{ right. intros v G. inversion G; subst. match type of T with slot_eqb ?x _ = _ => destruct x; discriminate T end. }
    apply slot_eqb_eq in T. subst t. destruct (has cls s) eqn:H.
    2:{ right. intros v G. inversion G; subst. match goal with X : In _ (slots_of _) |- _ => apply has_iff in X end. congruence. }
    apply has_iff in H.
    destruct (left_of W a) as [l|] eqn:L; [destruct (mem c comparators) eqn:C; [destruct (right_of W b) as [r|] eqn:R|]|].
    + left. exists (Some (make l c r)). constructor; [exact H|apply make_for; assumption].
    + right. intros v G. inversion G as [a' c' b' n I N|]; subst. apply for_make in N as [l' [r [_ [_ [N _]]]]]. congruence.
    + right. intros v G. inversion G as [a' c' b' n I N|]; subst. apply for_make in N as [l' [r [_ [N _]]]]. congruence.
    + right. intros v G. inversion G as [a' c' b' n I N|]; subst. apply for_make in N as [l' [r [N _]]]. congruence.
  - destruct (slot_eqb t s) eqn:T.
    2:{ right. intros v G. inversion G; subst. match type of T with slot_eqb ?x _ = _ => destruct x; discriminate T end. }
    apply slot_eqb_eq in T. subst t. destruct (has cls s) eqn:H.
    + left. exists None. constructor. apply has_iff, H.
    + right. intros v G. inversion G; subst. match goal with X : In _ (slots_of _) |- _ => apply has_iff in X end. congruence.
  - right. intros v G. inversion G.
Qed.
Lemma history_total W cls s v0 os : ~ In Clear os -> exists v, shows W cls s v0 os v.
Proof.
  induction os as [|o os IH] using rev_ind; intros H; [exists v0; constructor|].
  destruct IH as [u U]; [intros I; apply H, in_app_iff; left; exact I|].
  destruct (gives_decides W cls s o) as [[v G]|G].
  - exists v. eapply s_given; eassumption.
  - exists u. apply s_kept; try assumption. intros ->. apply H, in_app_iff. right. left. reflexivity.
Qed.
Lemma plain_stays W e z o : e_control e = Plain z -> exists z', e_control (fst (exec W e o)) = Plain z'.
Proof.
  intros P. destruct o as [t a c b|t|]; cbn [exec].
  - destruct (set_condition W e t a c b) as [e' [w x]] eqn:E. cbn [fst]. revert E. unfold set_condition. rewrite P.
    destruct (has (e_class e) t); [|injection 1 as <- _ _; exists z; exact P].
    destruct (left_of W a); [|injection 1 as <- _ _; exists z; exact P].
    destruct (mem c comparators); [|injection 1 as <- _ _; exists z; exact P].
    destruct (right_of W b); injection 1 as <- _ _; exists z; exact P.
  - unfold remove_condition. rewrite P. destruct (has (e_class e) t); exists z; exact P.
  - exists 0. reflexivity.
Qed.
Lemma cleared W e os : In Clear os -> exists z, e_control (run W os e) = Plain z.
Proof.
  induction os as [|o os IH] using rev_ind; intros H; [destruct H|].
  rewrite run_last. apply in_app_iff in H as [H|[->|[]]].
  - destruct (IH H) as [z P]. eapply plain_stays; exact P.
  - exists 0. reflexivity.
Qed.
Lemma history_rest W e k os k' : e_control e = Model k -> e_control (run W os e) = Model k' ->
  extras k' = extras k /\ rest k' = rest k.
Proof.
  intros K. revert k'. induction os as [|o os IH] using rev_ind; intros k' K'.
  - cbn in K'. rewrite K in K'. injection K' as <-. split; reflexivity.
  - rewrite run_last in K'. destruct (e_control (run W os e)) as [k1|z] eqn:R.
    2:{ destruct (plain_stays W _ _ o R) as [z' P]. congruence. }
    destruct (IH _ eq_refl) as [X Y]. destruct o as [t a c b|t|]; [| |discriminate]; cbn [exec] in K'.
    + destruct (set_condition W (run W os e) t a c b) as [e' [w [x|]]] eqn:E.
      * apply set_fails in E as [-> _]. cbn in K'. rewrite R in K'. injection K' as <-. split; assumption.
      * destruct (set_made _ _ _ _ _ _ _ _ _ R E) as [n [N [I _]]].
        destruct (set_does W _ t a c b k1 n I R N) as [e2 [k2 [w2 [E2 [_ [K2 [_ [S1 [S2 _]]]]]]]]].
        rewrite E in E2. injection E2 as <- <-. cbn [fst] in K'. rewrite K2 in K'. injection K' as <-. split; congruence.
    + destruct (has (e_class (run W os e)) t) eqn:H.
      * apply has_iff in H. destruct (remove_does _ t k1 H R) as [e2 [k2 [E2 [_ [K2 [_ [S1 [S2 _]]]]]]]].
        rewrite E2 in K'. cbn [fst] in K'. rewrite K2 in K'. injection K' as <-. split; congruence.
      * unfold remove_condition in K'. rewrite H in K'. cbn in K'. rewrite R in K'. injection K' as <-. split; assumption.
Qed.

(** Classes. *)
Lemma lookup (l : list (pystr * list slot)) c s :
  In s (match dget pystr_eqb l c with Some v => v | None => [] end) -> exists v, In (c, v) l /\ In s v.
Proof.
  induction l as [|[k v] l IH]; cbn; [intros []|]. destruct (pystr_eqb k c) eqn:E.
  - intros H. apply pystr_eqb_eq in E. subst. exists v. split; [left; reflexivity|exact H].
  - intros H. destruct (IH H) as [v' [A B]]. exists v'. split; [right; exact A|exact B].
Qed.
Definition listed (s : slot) (l : list string) : bool :=
  forallb (fun p => implb (existsb (slot_eqb s) (snd p)) (mem (fst p) (map str l))) table
  && forallb (fun n => has (str n) s) l.
Lemma listed_iff s l cls : listed s l = true -> (In s (slots_of cls) <-> is_one cls l).
Proof.
  unfold listed. rewrite andb_true_iff, !forallb_forall. intros [A B]. split.
  - intros H. apply lookup in H as [v [V S]]. specialize (A _ V). cbn [fst snd] in A.
    assert (X : existsb (slot_eqb s) v = true) by (apply existsb_exists; exists s; split; [exact S|apply slot_eqb_eq; reflexivity]).
    rewrite X in A. apply mem_one. exact A.
  - intros [n [N ->]]. apply has_iff, B, N.
Qed.
Lemma circuit_classes cls : In Circuit (slots_of cls) <-> is_one cls (circuit_only ++ circuit_logistic ++ turrets).
Proof. apply listed_iff. vm_compute. reflexivity. Qed.
Lemma logistic_classes cls : In Logistic (slots_of cls) <-> is_one cls (circuit_logistic ++ turrets).
Proof. apply listed_iff. vm_compute. reflexivity. Qed.
Lemma ignore_classes cls : In Ignore (slots_of cls) <-> is_one cls turrets.
Proof. apply listed_iff. vm_compute. reflexivity. Qed.
