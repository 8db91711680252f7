(** Proofs about finding trains: the order of the cars. *)
From Coq Require Import ZArith List Bool Lia Reals Lra Relations.
From Verif Require Import Common Compass_Model Schedule_Model Train_Model Rake_Model Rake_Spec Rake_Proofs.
Import ListNotations.
Local Open Scope Z_scope.

Lemma next_rev : forall cs a b, next_to (rev cs) a b <-> next_to cs b a.
Proof.
  assert (G : forall cs a b, next_to cs b a -> next_to (rev cs) a b).
  { intros cs a b [pre [post ->]]. exists (rev post), (rev pre).
    change (pre ++ b :: a :: post) with (pre ++ [b; a] ++ post). rewrite !rev_app_distr. cbn [rev app]. rewrite <- !app_assoc. reflexivity. }
  intros cs a b. split; [|apply G]. intros H. apply G in H. rewrite rev_involutive in H. exact H.
Qed.
Lemma next_in : forall cs a b, next_to cs a b -> In a cs /\ In b cs.
Proof. intros cs a b [pre [post ->]]. rewrite !in_app_iff. cbn [In]. auto. Qed.
Lemma app_mid : forall (A : Type) (p q : list A) x r s, NoDup (p ++ x :: r) -> p ++ x :: r = q ++ x :: s -> p = q /\ r = s.
Proof.
  induction p as [|u p IH]; intros [|v q] x r s N E; cbn [app] in *.
  - inversion E; auto.
  - inversion E; subst. exfalso. inversion N; subst. apply H1. apply in_or_app. right. left. reflexivity.
  - inversion E; subst. exfalso. inversion N; subst. apply H1. apply in_or_app. right. left. reflexivity.
  - inversion E; subst. inversion N; subst. destruct (IH q x r s H3 H1) as [-> ->]. auto.
Qed.
Lemma next_fun : forall cs a b c, NoDup cs -> next_to cs a b -> next_to cs a c -> b = c.
Proof.
  intros cs a b c N [p [q E]] [p' [q' E']]. rewrite E in N, E'. destruct (app_mid _ p p' a _ _ N E') as [_ F]. congruence.
Qed.
Lemma next_inj : forall cs a b c, NoDup cs -> next_to cs b a -> next_to cs c a -> b = c.
Proof.
  intros cs a b c N H H'. apply (next_fun (rev cs) a); [apply NoDup_rev; exact N|apply next_rev; exact H|apply next_rev; exact H'].
Qed.

Section Rake.
  Variable K : Z.
  Hypothesis HK : 0 < K.
  Variable at_ : nat -> entity.
  Variable near : nat -> list nat.

  Notation traverse := (traverse K at_ near). Notation visit := (visit K at_).
  Notation facing_ok := (facing_ok K at_). Notation in_front := (in_front K at_). Notation in_back := (in_back K at_).
  Notation coupled := (coupled K at_ near). Notation touches := (touches K at_).

  Lemma visit_app : forall tr w bw a b s, visit tr w bw (a ++ b) s = bind (visit tr w bw a s) (visit tr w bw b).
  Proof.
    intros tr w bw. induction a as [|n a IH]; intros b s; cbn [Rake_Model.visit app]; [reflexivity|].
    destruct (mem n (used s)); [apply IH|]. destruct (facing_ok w n); [|apply IH]. cbv zeta.
    destruct (if in_front w bw n then _ else _) as [s1|]; cbn [bind]; [|reflexivity].
    destruct (if in_back w bw n then _ else _) as [s2|]; cbn [bind]; [|reflexivity]. apply IH.
  Qed.
  (** Neighbours that are left alone. *)
  Definition dull (w : nat) (bw : bool) (s : walk) (n : nat) : Prop :=
    In n (used s) \/ facing_ok w n = false \/ (in_front w bw n = false /\ in_back w bw n = false).
  Lemma visit_none : forall tr w bw ns s, (forall n, In n ns -> dull w bw s n) -> visit tr w bw ns s = Ok s.
  Proof.
    intros tr w bw. induction ns as [|n ns IH]; intros s D; cbn [Rake_Model.visit]; [reflexivity|].
    assert (IH' : visit tr w bw ns s = Ok s) by (apply IH; intros m M; apply D; right; exact M).
    destruct (D n (or_introl eq_refl)) as [U|[F|[F B]]].
    - apply mem_iff in U. rewrite U. exact IH'.
    - rewrite F. destruct (mem n (used s)); exact IH'.
    - rewrite F, B. cbn [bind]. destruct (mem n (used s)); [exact IH'|]. destruct (facing_ok w n); exact IH'.
  Qed.
  Definition put (side : bool) (x : nat) (l : list nat) : list nat := if side then x :: l else l ++ [x].
  Lemma visit_one : forall tr w bw ns s side x s1,
    ~ In x (used s) -> In x ns -> facing_ok w x = true -> in_front w bw x = side -> in_back w bw x = negb side ->
    (forall n, In n ns -> n <> x -> dull w bw s n) ->
    tr x (is_backwards K at_ w bw x) (mkWalk (x :: used s) (put side x (train s)) (all_back s)) = Ok s1 ->
    incl (x :: used s) (used s1) -> visit tr w bw ns s = Ok s1.
  Proof.
    intros tr w bw ns s side x s1 N I F A B D R U.
    assert (SP : exists n1 n2, ns = n1 ++ x :: n2 /\ ~ In x n1).
    { clear -I. induction ns as [|n ns IH]; [contradiction|]. destruct (Nat.eq_dec n x) as [->|NE].
      - exists [], ns. auto.
      - destruct I as [->|I]; [contradiction|]. destruct (IH I) as [n1 [n2 [-> H]]]. exists (n :: n1), n2. split; [reflexivity|]. intros [E|J]; auto. }
    destruct SP as [n1 [n2 [-> N1]]]. rewrite visit_app, visit_none.
    2: { intros n J. apply D; [apply in_or_app; auto|]. intros ->. contradiction. }
    cbn [bind Rake_Model.visit]. assert (M : mem x (used s) = false) by (apply mem_false; exact N). rewrite M, F. cbv zeta.
    assert (REST : visit tr w bw n2 s1 = Ok s1).
    { apply visit_none. intros n J. destruct (Nat.eq_dec n x) as [->|NE]; [left; apply U; left; reflexivity|].
      destruct (D n) as [Q|Q]; [apply in_or_app; right; right; exact J|exact NE|left; apply U; right; exact Q|right; exact Q]. }
    rewrite A, B. destruct side; cbn [negb put bind] in *.
    - rewrite R. cbn [bind]. exact REST.
    - rewrite R. cbn [bind]. exact REST.
  Qed.

  (** ** cars in line *)
  Section Line.
    Variable fwd : nat -> bool.
    Variable cs : list nat.
    Hypothesis LINE : lined_up K at_ near fwd cs.

    Definition marks (c : nat) : bool := loco at_ c && fwd c.
    (** [x] is the next car on the given side of [c]. *)
    Definition beyond (side : bool) (c x : nat) : Prop := if side then next_to cs x c else next_to cs c x.
    Lemma forward_dot : forall w bw n, is_backwards K at_ w bw n = true <->
      ((if bw then - agreement K at_ w n else agreement K at_ w n) < 0)%R.
    Proof.
      intros w bw n. unfold is_backwards. rewrite rlt_iff, !vector_heading. unfold forward, agreement. destruct bw.
      - rewrite opposite_value by exact HK. rewrite (value_angle K at_ w), (value_angle K at_ n), heading_half by (exact HK || apply angle_bounds; exact HK).
        cbn [fst snd]. split; intros; lra.
      - rewrite (value_angle K at_ w), (value_angle K at_ n). cbn [fst snd]. split; intros; lra.
    Qed.
    Lemma flags : forall side c x, beyond side c x ->
      is_backwards K at_ c (negb (fwd c)) x = negb (fwd x) /\ facing_ok c x = true /\
      in_front c (negb (fwd c)) x = side /\ in_back c (negb (fwd c)) x = negb side /\ In x (near c).
    Proof.
      intros side c x B. destruct LINE as [_ [L _]].
      assert (FB : forall y, is_backwards K at_ c (negb (fwd c)) y = negb (fwd y) ->
        (touches c (fwd c) y <-> side = true) -> (touches c (negb (fwd c)) y <-> side = false) -> coupled c y ->
        is_backwards K at_ c (negb (fwd c)) y = negb (fwd y) /\ facing_ok c y = true /\
        in_front c (negb (fwd c)) y = side /\ in_back c (negb (fwd c)) y = negb side /\ In y (near c)).
      { intros y E T1 T2 Q. split; [exact E|]. destruct Q as [N [A _]]. split; [apply facing_iff; assumption|].
        pose proof (front_iff K HK at_ c (negb (fwd c)) y) as G1. pose proof (back_iff K HK at_ c (negb (fwd c)) y) as G2.
        rewrite negb_involutive in G1.
        split; [|split; [|exact N]].
        - destruct (in_front c (negb (fwd c)) y); destruct side; try reflexivity; exfalso.
          + assert (false = true) by (apply T1, G1; reflexivity). discriminate.
          + assert (false = true) by (apply G1, T1; reflexivity). discriminate.
        - destruct (in_back c (negb (fwd c)) y); destruct side; try reflexivity; exfalso.
          + assert (true = false) by (apply T2, G2; reflexivity). discriminate.
          + assert (false = true) by (apply G2, T2; reflexivity). discriminate. }
      assert (SG : (if Bool.eqb (fwd c) (fwd x) then 0 < agreement K at_ c x else agreement K at_ c x < 0)%R ->
        is_backwards K at_ c (negb (fwd c)) x = negb (fwd x)).
      { intros H. pose proof (forward_dot c (negb (fwd c)) x) as D.
        destruct (fwd c), (fwd x), (is_backwards K at_ c _ x); cbn [negb Bool.eqb] in *; try reflexivity; exfalso;
          (assert (Z1 := proj1 D eq_refl); lra) || (assert (Z1 : false = true) by (apply D; lra); discriminate). }
      unfold beyond in B. destruct side.
      - destruct (L x c B) as [C1 [C2 [T1 [T2 [T3 [T4 AG]]]]]]. apply FB; [|split; auto|split; [contradiction|discriminate]|exact C2].
        apply SG. assert (SY : agreement K at_ c x = agreement K at_ x c) by (unfold agreement; ring). rewrite SY.
        destruct (fwd x), (fwd c); exact AG.
      - destruct (L c x B) as [C1 [C2 [T1 [T2 [T3 [T4 AG]]]]]]. apply FB; [apply SG; exact AG|split; [contradiction|discriminate]|split; auto|exact C1].
    Qed.
    Lemma others_dull : forall c s n, In c cs -> In c (used s) -> In n (near c) ->
      (next_to cs c n -> In n (used s)) -> (next_to cs n c -> In n (used s)) -> dull c (negb (fwd c)) s n.
    Proof.
      intros c s n C U N A B. unfold dull. destruct LINE as [_ [_ O]].
      destruct (facing_ok c n) eqn:F; [|auto].
      destruct (in_front c (negb (fwd c)) n) eqn:FR; destruct (in_back c (negb (fwd c)) n) eqn:BK; auto; left;
        (assert (Q : coupled c n) by (apply (coupled_iff K HK at_ near c (negb (fwd c)) n); auto));
        destruct (O c n C Q) as [->|[X|X]]; auto.
    Qed.
    (** The cars on one side, nearest first. *)
    Fixpoint file (side : bool) (c : nat) (rest : list nat) : Prop :=
      match rest with
      | [] => forall x, ~ beyond side c x
      | x :: rest' => beyond side c x /\ file side x rest'
      end.
    Definition joined (side : bool) (rest l : list nat) : list nat := if side then rev rest ++ l else l ++ rest.
    Lemma beyond_flip : forall side c x, beyond side c x -> beyond (negb side) x c.
    Proof. intros [|] c x B; exact B. Qed.
    Lemma beyond_fun : forall side c x y, beyond side c x -> beyond side c y -> x = y.
    Proof. intros [|] c x y A B; unfold beyond in *; [eapply next_inj|eapply next_fun]; try eassumption; apply LINE. Qed.
    Lemma side_walk : forall side rest c s limit, file side c rest -> In c cs -> In c (used s) ->
      (forall p, beyond (negb side) c p -> In p (used s)) -> (forall r, In r rest -> ~ In r (used s)) -> NoDup rest ->
      (length rest < limit)%nat ->
      exists s', traverse limit c (negb (fwd c)) s = Ok s' /\ train s' = joined side rest (train s) /\
        all_back s' = all_back s && forallb (fun x => negb (marks x)) (c :: rest) /\
        (forall y, In y (used s') <-> In y rest \/ In y (used s)).
    Proof.
      intros side. induction rest as [|x rest IH]; intros c s limit F C U P N ND L; (destruct limit as [|limit]; [cbn [length] in L; lia|]); cbn [Rake_Model.traverse];
        set (s0 := if loco at_ c && negb (negb (fwd c)) then mkWalk (used s) (train s) false else s);
        (assert (S0 : used s0 = used s /\ train s0 = train s /\ all_back s0 = all_back s && negb (marks c));
         [unfold s0, marks; rewrite negb_involutive; destruct (loco at_ c && fwd c); cbn [used train all_back negb]; rewrite ?andb_false_r, ?andb_true_r; auto|]);
        destruct S0 as [S1 [S2 S3]].
      - cbn [file] in F. exists s0. split; [|split; [|split]].
        + apply visit_none. intros n NN. apply others_dull; [exact C|rewrite S1; exact U|exact NN| |]; rewrite S1; intros X.
          * destruct side; [apply P; exact X|exfalso; apply (F n); exact X].
          * destruct side; [exfalso; apply (F n); exact X|apply P; exact X].
        + rewrite S2. unfold joined. destruct side; cbn [rev app]; rewrite ?app_nil_r; reflexivity.
        + cbn [forallb]. rewrite S3, andb_true_r. reflexivity.
        + intros y. rewrite S1. cbn [In]. tauto.
      - cbn [file] in F. destruct F as [B F]. destruct (flags side c x B) as [E1 [E2 [E3 [E4 E5]]]].
        assert (XC : In x cs) by (unfold beyond in B; destruct side; apply next_in in B; apply B).
        apply NoDup_cons_iff in ND. destruct ND as [ND1 ND2].
        destruct (IH x (mkWalk (x :: used s0) (put side x (train s0)) (all_back s0)) limit F XC (or_introl eq_refl)) as [s' [R [T [AB US]]]].
        + intros p PP. right. assert (p = c) by (apply (beyond_fun (negb side) x); [exact PP|apply beyond_flip; exact B]). subst p. rewrite S1. exact U.
        + cbn [used]. intros r RR [<-|Q]; [contradiction|]. rewrite S1 in Q. apply (N r); [right; exact RR|exact Q].
        + exact ND2.
        + cbn [length] in L. lia.
        + cbn [used train all_back] in *. exists s'. split; [|split; [|split]].
          * apply (visit_one (traverse limit) c (negb (fwd c)) (near c) s0 side x s').
            -- rewrite S1. apply N. left. reflexivity.
            -- exact E5.
            -- exact E2.
            -- exact E3.
            -- exact E4.
            -- intros n NN NE. apply others_dull; [exact C|rewrite S1; exact U|exact NN| |]; rewrite S1; intros X.
               ++ destruct side; [apply P; exact X|exfalso; apply NE; apply (beyond_fun false c); assumption].
               ++ destruct side; [exfalso; apply NE; apply (beyond_fun true c); assumption|apply P; exact X].
            -- rewrite E1. exact R.
            -- intros y Y. apply US. right. exact Y.
          * rewrite T, S2. unfold joined, put. destruct side; cbn [rev]; rewrite <- app_assoc; reflexivity.
          * rewrite AB, S3. cbn [forallb]. rewrite <- !andb_assoc. reflexivity.
          * intros y. rewrite US, S1. cbn [In]. tauto.
    Qed.
    Lemma file_front : forall pre w post, cs = rev pre ++ w :: post -> file true w pre.
    Proof.
      induction pre as [|x pre IH]; intros w post E; cbn [file].
      - intros x [p [q E']]. cbn [rev app] in E. pose proof (proj1 LINE) as ND. rewrite E' in E, ND.
        change (p ++ x :: w :: q) with (p ++ [x] ++ w :: q) in E, ND. rewrite app_assoc in E, ND.
        destruct (app_mid nat (p ++ [x]) [] w q post ND E) as [C _]. destruct p; discriminate.
      - cbn [rev] in E. rewrite <- app_assoc in E. cbn [app] in E. split; [exists (rev pre), post; exact E|]. apply (IH x (w :: post)). exact E.
    Qed.
    Lemma file_rear : forall post w pre, cs = pre ++ w :: post -> file false w post.
    Proof.
      induction post as [|x post IH]; intros w pre E; cbn [file].
      - intros x [p [q E']]. pose proof (proj1 LINE) as ND. rewrite E' in E, ND.
        destruct (app_mid nat p pre w (x :: q) [] ND E) as [_ C]. discriminate.
      - split; [exists pre, post; exact E|]. apply (IH x (pre ++ [w])). rewrite <- app_assoc. exact E.
    Qed.
    Lemma split_two : forall (ns : list nat) f b, In f ns -> In b ns -> f <> b ->
      exists n1 n2, ns = n1 ++ n2 /\ ((In f n1 /\ ~ In b n1 /\ In b n2) \/ (In b n1 /\ ~ In f n1 /\ In f n2)).
    Proof.
      induction ns as [|n ns IH]; intros f b F B NE; [contradiction|]. destruct (Nat.eq_dec n f) as [->|N1].
      - exists [f], ns. split; [reflexivity|]. left. split; [left; reflexivity|]. split; [intros [E|[]]; contradiction|]. destruct B; [contradiction|assumption].
      - destruct (Nat.eq_dec n b) as [->|N2].
        + exists [b], ns. split; [reflexivity|]. right. split; [left; reflexivity|]. split; [intros [E|[]]; congruence|]. destruct F; [contradiction|assumption].
        + destruct F as [F|F]; [contradiction|]. destruct B as [B|B]; [contradiction|].
          destruct (IH f b F B NE) as [n1 [n2 [-> C]]]. exists (n :: n1), n2. split; [reflexivity|]. cbn [In]. intuition congruence.
    Qed.
    Lemma forallb_rev : forall (f : nat -> bool) l, forallb f (rev l) = forallb f l.
    Proof.
      intros f. induction l as [|x l IH]; [reflexivity|]. cbn [rev]. rewrite forallb_app, IH. cbn [forallb]. rewrite andb_true_r. apply andb_comm.
    Qed.

    (** One side of the starting car. *)
    Lemma one_side : forall side rest w ns s limit, file side w rest -> In w cs -> fwd w = true -> incl ns (near w) -> In w (used s) ->
      (forall r, In r rest -> ~ In r (used s)) -> NoDup rest -> ~ In w rest -> (length rest <= limit)%nat ->
      (forall n, In n ns -> beyond (negb side) w n -> In n (used s)) ->
      (forall x, beyond side w x -> In x ns) ->
      exists s', visit (traverse limit) w false ns s = Ok s' /\ train s' = joined side rest (train s) /\
        all_back s' = all_back s && forallb (fun x => negb (marks x)) rest /\
        (forall y, In y (used s') <-> In y rest \/ In y (used s)).
    Proof.
      intros side rest w ns s limit F C FW INC U N ND NW L O X. destruct rest as [|x rest].
      - cbn [file] in F. exists s. split; [|split; [|split]].
        + apply visit_none. intros n NN. change false with (negb true). rewrite <- FW. apply others_dull; [exact C|exact U|apply INC; exact NN| |]; intros Y.
          * destruct side; [apply O; [exact NN|exact Y]|exfalso; apply (F n); exact Y].
          * destruct side; [exfalso; apply (F n); exact Y|apply O; [exact NN|exact Y]].
        + unfold joined. destruct side; cbn [rev app]; rewrite ?app_nil_r; reflexivity.
        + cbn [forallb]. rewrite andb_true_r. reflexivity.
        + intros y. cbn [In]. tauto.
      - cbn [file] in F. destruct F as [B F]. destruct (flags side w x B) as [E1 [E2 [E3 [E4 E5]]]]. rewrite FW in E1, E3, E4. cbn [negb] in E1, E3, E4.
        assert (XC : In x cs) by (unfold beyond in B; destruct side; apply next_in in B; apply B).
        apply NoDup_cons_iff in ND. destruct ND as [ND1 ND2].
        destruct (side_walk side rest x (mkWalk (x :: used s) (put side x (train s)) (all_back s)) limit F XC (or_introl eq_refl)) as [s' [R [T [AB US]]]].
        + intros p PP. right. assert (p = w) by (apply (beyond_fun (negb side) x); [exact PP|apply beyond_flip; exact B]). subst p. exact U.
        + cbn [used]. intros r RR [<-|Q]; [contradiction|]. apply (N r); [right; exact RR|exact Q].
        + exact ND2.
        + cbn [length] in L. lia.
        + cbn [used train all_back] in *. exists s'. split; [|split; [|split]].
          * apply (visit_one (traverse limit) w false ns s side x s').
            -- apply N. left. reflexivity.
            -- apply X. exact B.
            -- exact E2.
            -- exact E3.
            -- exact E4.
            -- intros n NN NE. change false with (negb true). rewrite <- FW. apply others_dull; [exact C|exact U|apply INC; exact NN| |]; intros Y.
               ++ destruct side; [apply O; [exact NN|exact Y]|exfalso; apply NE; apply (beyond_fun false w); assumption].
               ++ destruct side; [exfalso; apply NE; apply (beyond_fun true w); assumption|apply O; [exact NN|exact Y]].
            -- rewrite E1. exact R.
            -- intros y Y. apply US. right. exact Y.
          * rewrite T. unfold joined, put. destruct side; cbn [rev]; rewrite <- app_assoc; reflexivity.
          * rewrite AB. reflexivity.
          * intros y. rewrite US. cbn [In]. tauto.
    Qed.

    Lemma visit_parts : forall tr w bw a b s s1 s2, visit tr w bw a s = Ok s1 -> visit tr w bw b s1 = Ok s2 -> visit tr w bw (a ++ b) s = Ok s2.
    Proof. intros tr w bw a b s s1 s2 A B. rewrite visit_app, A. exact B. Qed.
    Lemma forward_start : forall w limit, In w cs -> fwd w = true -> (length cs <= limit)%nat ->
      exists s, traverse limit w false (mkWalk [w] [w] true) = Ok s /\ train s = cs /\
        all_back s = forallb (fun x => negb (marks x)) cs.
    Proof.
      intros w limit W FW L. destruct (in_split w cs W) as [p [B E]].
      assert (EF : cs = rev (rev p) ++ w :: B) by (rewrite rev_involutive; exact E).
      set (F := rev p) in *. pose proof (file_front F w B EF) as FF. pose proof (file_rear B w p E) as FB.
      pose proof (proj1 LINE) as ND. assert (NDE := ND). rewrite E in NDE.
      assert (LL : (length F + S (length B) <= limit)%nat) by (unfold F; rewrite rev_length; rewrite E, app_length in L; cbn [length] in L; lia).
      assert (NF : NoDup F /\ ~ In w F /\ NoDup B /\ ~ In w B /\ forall y, In y F -> ~ In y B).
      { assert (NP : NoDup p /\ NoDup B /\ ~ In w p /\ ~ In w B /\ forall y, In y p -> ~ In y B).
        { clear -NDE. induction p as [|x p IH]; cbn [app] in NDE; apply NoDup_cons_iff in NDE; destruct NDE as [N1 N2].
          - split; [constructor|]. split; [exact N2|]. split; [intros []|]. split; [exact N1|]. intros y [].
          - destruct (IH N2) as [A1 [A2 [A3 [A4 A5]]]]. rewrite in_app_iff in N1. cbn [In] in N1.
            split; [constructor; tauto|]. split; [exact A2|]. split; [intros [->|Q]; tauto|]. split; [exact A4|].
            intros y [<-|Q]; [tauto|apply A5; exact Q]. }
        destruct NP as [A1 [A2 [A3 [A4 A5]]]]. unfold F. split; [apply NoDup_rev; exact A1|]. split; [rewrite <- in_rev; exact A3|].
        split; [exact A2|]. split; [exact A4|]. intros y Y. apply A5. apply in_rev. exact Y. }
      destruct NF as [NF1 [NF2 [NB1 [NB2 NFB]]]].
      destruct limit as [|limit]; [lia|]. cbn [Rake_Model.traverse].
      set (s0 := if loco at_ w && negb false then _ else _).
      assert (S0 : used s0 = [w] /\ train s0 = [w] /\ all_back s0 = negb (marks w)).
      { unfold s0, marks. rewrite FW. cbn [negb]. destruct (loco at_ w); cbn [andb negb]; auto. }
      destruct S0 as [S1 [S2 S3]]. clearbody s0.
      assert (INX : forall side x, beyond side w x -> In x (near w)) by (intros side x BX; apply (flags side w x BX)).
      assert (MEM : forall side rest x, file side w rest -> beyond side w x -> exists r, rest = x :: r).
      { intros side [|r rest] x FL BX; cbn [file] in FL; [exfalso; apply (FL x BX)|].
        assert (r = x) by (apply (beyond_fun side w); [apply FL|exact BX]). subst r. eauto. }
      (* the two sides, one after the other *)
      assert (TWO : forall side Fs Bs n1 n2, near w = n1 ++ n2 ->
                file side w Fs -> file (negb side) w Bs -> NoDup Fs -> ~ In w Fs -> NoDup Bs -> ~ In w Bs ->
                (forall y, In y Fs -> ~ In y Bs) -> (length Fs <= limit)%nat -> (length Bs <= limit)%nat ->
                (forall n, In n n1 -> ~ beyond (negb side) w n) -> (forall x, beyond side w x -> In x n1) ->
                exists s, visit (traverse limit) w false (near w) s0 = Ok s /\
                  train s = joined (negb side) Bs (joined side Fs [w]) /\
                  all_back s = negb (marks w) && forallb (fun x => negb (marks x)) Fs && forallb (fun x => negb (marks x)) Bs).
      { intros side Fs Bs n1 n2 NEAR F1 F2 D1 W1 D2 W2 DJ L1 L2 NO YES.
        destruct (one_side side Fs w n1 s0 limit F1 W FW) as [s1 [V1 [T1 [A1 U1]]]]; try assumption.
        - rewrite NEAR. intros y Y. apply in_or_app. auto.
        - rewrite S1. left. reflexivity.
        - rewrite S1. intros r R [<-|[]]. contradiction.
        - intros n NN BX. exfalso. apply (NO n NN BX).
        - destruct (one_side (negb side) Bs w n2 s1 limit F2 W FW) as [s2 [V2 [T2 [A2 U2]]]]; try assumption.
          + rewrite NEAR. intros y Y. apply in_or_app. auto.
          + apply U1. right. rewrite S1. left. reflexivity.
          + intros r R. rewrite U1, S1. intros [Q|[<-|[]]]; [apply (DJ r Q R)|contradiction].
          + rewrite negb_involutive. intros n _ BX. destruct (MEM side Fs n F1 BX) as [r ->]. apply U1. left. left. reflexivity.
          + intros x BX. assert (I : In x (near w)) by (apply (INX (negb side)); exact BX). rewrite NEAR in I. apply in_app_or in I.
            destruct I as [I|I]; [exfalso; apply (NO x I BX)|exact I].
          + exists s2. split; [rewrite NEAR; eapply visit_parts; eassumption|]. split; [rewrite T2, T1, S2; reflexivity|].
            rewrite A2, A1, S3. reflexivity. }
      assert (AB : forallb (fun x => negb (marks x)) cs =
                   negb (marks w) && forallb (fun x => negb (marks x)) F && forallb (fun x => negb (marks x)) B).
      { rewrite EF, forallb_app, forallb_rev. cbn [forallb]. destruct (negb (marks w)), (forallb _ F), (forallb _ B); reflexivity. }
      assert (FIRST : forall n1 n2, near w = n1 ++ n2 -> (forall n, In n n1 -> ~ beyond false w n) -> (forall x, beyond true w x -> In x n1) ->
                exists s, visit (traverse limit) w false (near w) s0 = Ok s /\ train s = cs /\ all_back s = forallb (fun x => negb (marks x)) cs).
      { intros n1 n2 NEAR A1 A2. destruct (TWO true F B n1 n2) as [s [V [T A]]]; try assumption; try lia.
        exists s. split; [exact V|]. split; [|rewrite AB; exact A].
        rewrite T, EF. unfold joined. cbn [negb]. rewrite <- app_assoc. reflexivity. }
      assert (SECOND : forall n1 n2, near w = n1 ++ n2 -> (forall n, In n n1 -> ~ beyond true w n) -> (forall x, beyond false w x -> In x n1) ->
                exists s, visit (traverse limit) w false (near w) s0 = Ok s /\ train s = cs /\ all_back s = forallb (fun x => negb (marks x)) cs).
      { intros n1 n2 NEAR A1 A2. destruct (TWO false B F n1 n2) as [s [V [T A]]]; try assumption; try lia.
        - intros y Y Y'. apply (NFB y Y' Y).
        - exists s. split; [exact V|]. split.
          + rewrite T, EF. unfold joined. cbn [negb]. reflexivity.
          + rewrite AB, A, <- !andb_assoc. f_equal. apply andb_comm. }
      destruct F as [|f F'].
      - apply (SECOND (near w) []); [symmetry; apply app_nil_r|intros n _; apply FF|intros x BX; apply (INX false); exact BX].
      - destruct B as [|b B'].
        + apply (FIRST (near w) []); [symmetry; apply app_nil_r|intros n _; apply FB|intros x BX; apply (INX true); exact BX].
        + cbn [file] in FF, FB. destruct FF as [FF _]. destruct FB as [FB _].
          destruct (split_two (near w) f b (INX true f FF) (INX false b FB)) as [n1 [n2 [NEAR C]]].
          { intros ->. apply (NFB b); left; reflexivity. }
          destruct C as [[C1 [C2 C3]]|[C1 [C2 C3]]].
          * apply (FIRST n1 n2 NEAR).
            -- intros n NN BX. assert (n = b) by (apply (beyond_fun false w); assumption). subst n. contradiction.
            -- intros x BX. assert (x = f) by (apply (beyond_fun true w); assumption). subst x. exact C1.
          * apply (SECOND n1 n2 NEAR).
            -- intros n NN BX. assert (n = f) by (apply (beyond_fun true w); assumption). subst n. contradiction.
            -- intros x BX. assert (x = b) by (apply (beyond_fun false w); assumption). subst x. exact C1.
    Qed.
  End Line.

  Lemma lined_up_rev : forall fwd cs, lined_up K at_ near fwd cs -> lined_up K at_ near (fun x => negb (fwd x)) (rev cs).
  Proof.
    intros fwd cs [N [A B]]. split; [apply NoDup_rev; exact N|]. split.
    - intros a b H. apply (proj1 (next_rev cs a b)) in H. destruct (A b a H) as [C1 [C2 [T1 [T2 [T3 [T4 AG]]]]]].
      rewrite !negb_involutive. split; [exact C2|]. split; [exact C1|]. split; [exact T3|]. split; [exact T4|]. split; [exact T1|]. split; [exact T2|].
      assert (SY : agreement K at_ a b = agreement K at_ b a) by (unfold agreement; ring). rewrite SY.
      destruct (fwd a), (fwd b); exact AG.
    - intros a n I C. apply (proj2 (in_rev cs a)) in I. destruct (B a n I C) as [->|[H|H]]; [auto|right; right|right; left]; apply next_rev; exact H.
  Qed.
  Lemma none_marked : forall (f : nat -> bool) l, forallb (fun x => negb (f x)) l = negb (existsb f l).
  Proof. intros f. induction l as [|x l IH]; [reflexivity|]. cbn [forallb existsb]. rewrite IH. destruct (f x); reflexivity. Qed.
  Lemma existsb_rev' : forall (f : nat -> bool) l, existsb f (rev l) = existsb f l.
  Proof.
    intros f. induction l as [|x l IH]; [reflexivity|]. cbn [rev]. rewrite existsb_app, IH. cbn [existsb]. rewrite orb_false_r. apply orb_comm.
  Qed.
  Lemma existsb_same : forall (f g : nat -> bool) l, (forall x, f x = g x) -> existsb f l = existsb g l.
  Proof. intros f g l H. induction l as [|x l IH]; [reflexivity|]. cbn [existsb]. rewrite H, IH. reflexivity. Qed.

  (** The cars in order, seen the way the starting car points, turned over if no
      locomotive points that way. *)
  Theorem in_order : forall fwd cs w limit, lined_up K at_ near fwd cs -> In w cs -> (length cs <= limit)%nat ->
    find_train_from_wagon K at_ near limit w =
      Ok (if Bool.eqb (fwd w) (existsb (fun c => car_loco (e_car (at_ c)) && Bool.eqb (fwd c) (fwd w)) cs) then cs else rev cs).
  Proof.
    intros fwd cs w limit L W LIM. unfold find_train_from_wagon. destruct (fwd w) eqn:FW.
    - destruct (forward_start fwd cs L w limit W FW LIM) as [s [-> [T A]]]. cbn [bind]. rewrite A, T, none_marked.
      assert (X : existsb (fun c => car_loco (e_car (at_ c)) && Bool.eqb (fwd c) true) cs = existsb (marks fwd) cs) by (apply existsb_same; intros x; unfold marks, loco; destruct (fwd x); reflexivity).
      rewrite X.
      destruct (existsb (marks fwd) cs); reflexivity.
    - assert (FW' : negb (fwd w) = true) by (rewrite FW; reflexivity).
      destruct (forward_start (fun x => negb (fwd x)) (rev cs) (lined_up_rev fwd cs L) w limit) as [s [-> [T A]]]; [apply in_rev in W; exact W|exact FW'|rewrite rev_length; exact LIM|].
      cbn [bind]. rewrite A, T, none_marked, existsb_rev', rev_involutive.
      assert (X : existsb (fun c => car_loco (e_car (at_ c)) && Bool.eqb (fwd c) false) cs = existsb (marks (fun x => negb (fwd x))) cs) by (apply existsb_same; intros x; unfold marks, loco; destruct (fwd x); reflexivity).
      rewrite X.
      destruct (existsb (marks (fun x => negb (fwd x))) cs); reflexivity.
  Qed.
End Rake.
