(** Proofs about wires: undoing, removing all, generating. *)
From Coq Require Import ZArith List Bool String Lia Permutation Sorted.
From Verif Require Import Common Dict Wires_Model Wires_Spec Wires_Proofs.
Import ListNotations.
Local Open Scope Z_scope.
Local Open Scope list_scope.

Lemma NoDup_app_intro : forall {A} (l l' : list A), NoDup l -> NoDup l' -> (forall x, In x l -> ~ In x l') -> NoDup (l ++ l').
Proof.
  intros A l l' N. induction N as [|x l I N IH]; intros N' D; simpl; [exact N'|].
  constructor.
  - intros C. apply in_app_iff in C. destruct C as [C|C]; [contradiction|]. apply (D x); [left; reflexivity|exact C].
  - apply IH; [exact N'|]. intros y J. apply D. right. exact J.
Qed.

(** ** Undoing *)
Lemma both_removed_first : forall a b ws, exists mid,
  without_first a ws mid /\ without_first b mid (both_removed a b ws).
Proof. intros. exists (list_remove a ws). split; apply list_remove_first. Qed.
Lemma both_removed_unique : forall a b ws mid ws',
  without_first a ws mid -> without_first b mid ws' -> ws' = both_removed a b ws.
Proof.
  intros a b ws mid ws' A B. assert (mid = list_remove a ws) by (eapply without_first_unique; [exact A|apply list_remove_first]).
  subst. eapply without_first_unique; [exact B|apply list_remove_first].
Qed.
Lemma both_removed_count : forall a b v ws, copies v (both_removed a b ws) =
  (copies v ws - (if wire_dec v a then 1 else 0) - (if wire_dec v b then 1 else 0))%nat.
Proof. intros. unfold both_removed. rewrite !list_remove_count. reflexivity. Qed.
Lemma both_removed_absent : forall a b ws, ~ In a ws -> ~ In b ws -> both_removed a b ws = ws.
Proof. intros a b ws A B. unfold both_removed. rewrite (list_remove_absent a), (list_remove_absent b); auto. Qed.
Lemma both_removed_undo : forall a b ws, ~ In a ws -> ~ In b ws -> both_removed a b (ws ++ [a]) = ws.
Proof. intros a b ws A B. unfold both_removed. rewrite list_remove_last, list_remove_absent; auto. Qed.
Lemma both_removed_undo_iff : forall a b ws, Permutation (both_removed a b (ws ++ [a])) ws <-> ~ In b ws.
Proof.
  intros a b ws. rewrite (Permutation_count_occ wire_dec). split.
  - intros P I. specialize (P b). change (count_occ wire_dec) with (fun l x => copies x l) in P. cbn beta in P.
    rewrite both_removed_count in P. unfold copies in P. rewrite count_occ_app in P. cbn [count_occ] in P.
    apply (count_occ_In wire_dec) in I.
    destruct (wire_dec b a) as [E|E]; destruct (wire_dec a b) as [F|F]; destruct (wire_dec b b); try congruence; lia.
  - intros N v. change (copies v (both_removed a b (ws ++ [a])) = copies v ws).
    rewrite both_removed_count. unfold copies. rewrite count_occ_app. cbn [count_occ].
    pose proof (proj1 (count_occ_not_In wire_dec ws b) N) as Z.
    destruct (wire_dec v a) as [E|E]; destruct (wire_dec a v) as [F|F]; destruct (wire_dec v b) as [G|G]; try congruence; subst; lia.
Qed.

(** ** Removing all *)
Lemma strip_at : forall bad t path,
  wires_at path (strip bad t) = option_map (filter (fun w : wire => negb (existsb (Z.eqb (snd (fst (fst w)))) bad))) (wires_at path t).
Proof.
  intros bad t. induction t as [i|i ws kids ids HF] using tree_ind'; intros path; [destruct path; reflexivity|].
  destruct path as [|n p]; [reflexivity|]. cbn [strip wires_at].
  rewrite nth_error_map. destruct (nth_error kids n) as [k|] eqn:E; [|reflexivity].
  cbn [option_map]. rewrite Forall_forall in HF. apply HF. eapply nth_error_In; eauto.
Qed.
Lemma strip_shape : forall bad t, shape (strip bad t) = shape t.
Proof.
  intros bad t. induction t as [i|i ws kids ids HF] using tree_ind'; [reflexivity|].
  cbn [strip shape]. f_equal. rewrite map_map. induction HF; [reflexivity|]. cbn [map]. f_equal; assumption.
Qed.
Lemma root_strip : forall bad c, root (strip_all bad c) = strip bad (root c).
Proof. reflexivity. Qed.
Lemma filter_option : forall (f g : wire -> bool) o, (forall w, f w = g w) -> option_map (filter f) o = option_map (filter g) o.
Proof. intros f g [l|] E; [|reflexivity]. cbn. f_equal. apply filter_ext. exact E. Qed.
Lemma bad_power : forall w : wire, negb (existsb (Z.eqb (snd (fst (fst w)))) [5; 6]) = negb (from_connector 5 6 w).
Proof.
  intros w. unfold from_connector. generalize (snd (fst (fst w))) as t. intros t. f_equal.
  apply eq_true_iff_eq. cbn. rewrite !orb_true_iff, !Z.eqb_eq, andb_true_iff, !Z.leb_le. intuition lia.
Qed.
Lemma bad_circuit : forall w : wire, negb (existsb (Z.eqb (snd (fst (fst w)))) [1; 2; 3; 4]) = negb (from_connector 1 4 w).
Proof.
  intros w. unfold from_connector. generalize (snd (fst (fst w))) as t. intros t. f_equal.
  apply eq_true_iff_eq. cbn. rewrite !orb_true_iff, !Z.eqb_eq, andb_true_iff, !Z.leb_le. intuition lia.
Qed.
Lemma remove_powers_spec : forall c path,
  wires_at path (root (remove_powers c)) = option_map (filter (fun w => negb (from_connector 5 6 w))) (wires_at path (root c)) /\
  shape (root (remove_powers c)) = shape (root c).
Proof.
  intros c path. unfold remove_powers. rewrite root_strip, strip_shape, strip_at. split; [|reflexivity].
  apply filter_option. apply bad_power.
Qed.
Lemma remove_circuits_spec : forall c path,
  wires_at path (root (remove_circuits c)) = option_map (filter (fun w => negb (from_connector 1 4 w))) (wires_at path (root c)) /\
  shape (root (remove_circuits c)) = shape (root c).
Proof.
  intros c path. unfold remove_circuits. rewrite root_strip, strip_shape, strip_at. split; [|reflexivity].
  apply filter_option. apply bad_circuit.
Qed.

(** ** Sorting *)
Section Sorting.
  Context {A : Type}.
  Lemma insert_perm : forall (lt : A -> A -> bool) x l, Permutation (insert_sorted lt x l) (x :: l).
  Proof.
    intros lt x l. induction l as [|y l IH]; simpl; [reflexivity|].
    destruct (lt y x); [|reflexivity]. rewrite IH. apply perm_swap.
  Qed.
  Lemma sort_perm : forall (lt : A -> A -> bool) l, Permutation (py_sort lt l) l.
  Proof. intros lt l. induction l; simpl; [reflexivity|]. rewrite insert_perm. constructor. exact IHl. Qed.
  Lemma insert_ext : forall (f g : A -> A -> bool) x l, (forall a b, f a b = g a b) -> insert_sorted f x l = insert_sorted g x l.
  Proof. intros f g x l E. induction l; simpl; [reflexivity|]. rewrite E. destruct (g a x); [f_equal; exact IHl|reflexivity]. Qed.
  Lemma sort_ext : forall (f g : A -> A -> bool) l, (forall a b, f a b = g a b) -> py_sort f l = py_sort g l.
  Proof. intros f g l E. induction l; simpl; [reflexivity|]. rewrite IHl. apply insert_ext. exact E. Qed.

  Variable k : A -> Z.
  Variable R : A -> A -> Prop.
  Definition lex (a b : A) : Prop := k a < k b \/ (k a = k b /\ R a b).
  Lemma insert_lex : forall x l, StronglySorted lex l -> Forall (R x) l ->
    StronglySorted lex (insert_sorted (fun a b => k a <? k b) x l).
  Proof.
    intros x l S. induction S as [|y l S IH F]; intros FR; simpl; [repeat constructor|].
    inversion FR as [|? ? Ry Rl]; subst. destruct (k y <? k x) eqn:E.
    - apply Z.ltb_lt in E. constructor; [apply IH; exact Rl|].
      apply Forall_forall. intros z I. apply (Permutation_in _ (insert_perm _ x l)) in I.
      destruct I as [<-|I]; [left; exact E|]. rewrite Forall_forall in F. apply F, I.
    - apply Z.ltb_ge in E. constructor; [constructor; assumption|].
      rewrite Forall_forall in *. intros z I. 
      assert (L : k x <= k z /\ R x z).
      { destruct I as [<-|I]; [auto|]. split; [|apply Rl, I]. destruct (F z I) as [L|[L _]]; lia. }
      unfold lex. destruct (Z.eq_dec (k x) (k z)); [right|left]; [tauto|lia].
  Qed.
  Lemma sort_lex : forall l, StronglySorted R l -> StronglySorted lex (py_sort (fun a b => k a <? k b) l).
  Proof.
    intros l S. induction S as [|x l S IH F]; simpl; [constructor|]. apply insert_lex; [exact IH|].
    rewrite Forall_forall in *. intros z I. apply F. eapply Permutation_in; [apply sort_perm|exact I].
  Qed.
End Sorting.

Lemma sorted_weaken : forall {A} (R S : A -> A -> Prop) l, (forall a b, R a b -> S a b) -> StronglySorted R l -> StronglySorted S l.
Proof. intros A R S l W H. induction H; constructor; [assumption|]. eapply Forall_impl; [|eassumption]. auto. Qed.
Lemma sorted_true : forall {A} (l : list A), StronglySorted (fun _ _ => True) l.
Proof. intros A l. induction l; constructor; [assumption|]. apply Forall_forall. auto. Qed.
Lemma sorted_rev : forall {A} (R : A -> A -> Prop) l, StronglySorted R l -> StronglySorted (fun a b => R b a) (rev l).
Proof.
  intros A R l S. induction S as [|x l S IH F]; simpl; [constructor|].
  assert (G : forall m, StronglySorted (fun a b => R b a) m -> Forall (fun a => R x a) m -> StronglySorted (fun a b => R b a) (m ++ [x])).
  { intros m Sm. induction Sm as [|y m Sm IHm Fm]; intros Fx; simpl; [repeat constructor|].
    inversion Fx; subst. constructor; [apply IHm; assumption|]. apply Forall_app. split; [exact Fm|]. constructor; [assumption|constructor]. }
  apply G; [exact IH|]. rewrite Forall_forall in *. intros z I. apply F. apply in_rev. exact I.
Qed.

(** ** Flattening *)
Lemma flat_app : forall l l' o o', flat l o -> flat l' o' -> flat (l ++ l') (o ++ o').
Proof.
  intros l l' o o' F G. induction F; simpl; [exact G|constructor; exact IHF|].
  rewrite <- app_assoc. constructor; assumption.
Qed.
Lemma flat_flatten : forall l, flat l (flatten l).
Proof.
  assert (T : forall t, flat [t] (leaves t)).
  { induction t as [i|i ws kids ids HF] using tree_ind'; [repeat constructor|].
    cbn [leaves]. rewrite <- (app_nil_r (flat_map leaves kids)). constructor; [|constructor].
    induction HF; simpl; [constructor|]. change (x :: l) with ([x] ++ l). apply flat_app; assumption. }
  induction l; simpl; [constructor|]. change (a :: l) with ([a] ++ l). apply flat_app; [apply T|exact IHl].
Qed.
Lemma flat_unique : forall l o, flat l o -> o = flatten l.
Proof.
  intros l o F. induction F; simpl; [reflexivity| |]; subst; reflexivity.
Qed.
Lemma flatw_app : forall l l' o o', flat_wires l o -> flat_wires l' o' -> flat_wires (l ++ l') (o ++ o').
Proof.
  intros l l' o o' F G. induction F; simpl; [exact G|constructor; exact IHF|].
  rewrite <- !app_assoc. constructor; assumption.
Qed.
Lemma flatw_inner : forall l, flat_wires l (flat_map inner_wires l).
Proof.
  assert (T : forall t, flat_wires [t] (inner_wires t)).
  { induction t as [i|i ws kids ids HF] using tree_ind'; [repeat constructor|].
    cbn [inner_wires]. rewrite <- (app_nil_r (flat_map inner_wires kids)). constructor; [|constructor].
    induction HF; simpl; [constructor|]. change (x :: l) with ([x] ++ l). apply flatw_app; assumption. }
  induction l; simpl; [constructor|]. change (a :: l) with ([a] ++ l). apply flatw_app; [apply T|exact IHl].
Qed.
Lemma flatw_unique : forall l o, flat_wires l o -> o = flat_map inner_wires l.
Proof.
  intros l o F. induction F; simpl; [reflexivity|assumption|]. rewrite <- app_assoc. subst. reflexivity.
Qed.
Lemma flat_below : forall l i, In i (flatten l) <-> below (Leaf i) l.
Proof.
  intros l i. split.
  - pose proof (flat_flatten l) as F. generalize dependent (flatten l). intros o F. induction F.
    + intros [].
    + intros [<-|I]; [apply below_here; left; reflexivity|]. specialize (IHF I).
      inversion IHF; subst; [apply below_here; right; assumption|eapply below_deep; [right; eassumption|assumption]].
    + intros I. apply in_app_iff in I. destruct I as [I|I].
      * eapply below_deep; [left; reflexivity|]. apply IHF1. exact I.
      * specialize (IHF2 I). inversion IHF2; subst; [apply below_here; right; assumption|eapply below_deep; [right; eassumption|assumption]].
  - intros B. remember (Leaf i) as t. revert Heqt. induction B; intros ->.
    + unfold flatten. apply in_flat_map. exists (Leaf i). split; [assumption|left; reflexivity].
    + unfold flatten. apply in_flat_map. exists (Node i0 ws kids ids). split; [assumption|]. cbn [leaves]. apply IHB. reflexivity.
Qed.

(** ** Generating *)
Section Generate.
  Variable attr : nat -> obj.
  Variable veq : nat -> nat -> bool.
  Notation wire5 a b := (link a 5 b 5).

  Lemma on_axis_iff : forall a b, on_axis attr a b = true <-> in_line attr a b.
  Proof. intros. unfold on_axis, in_line. rewrite orb_true_iff, !Z.eqb_eq. reflexivity. Qed.
  Lemma on_axis_sym : forall a b, on_axis attr a b = on_axis attr b a.
  Proof. intros. unfold on_axis. f_equal; apply Z.eqb_sym. Qed.

  Definition nearby (only : bool) (a b : nat) : Prop :=
    b <> a /\ (only = true -> in_line attr a b) /\ reachable attr a b.
  Lemma candidate_iff : forall only a b r, candidate attr only a b = Ok r ->
    (r = true <-> nearby only a b).
  Proof.
    intros only a b r. unfold candidate, nearby. destruct (Nat.eqb b a) eqn:E.
    - apply Nat.eqb_eq in E. intros F. inversion F. split; [discriminate|]. intros [C _]. contradiction.
    - apply Nat.eqb_neq in E. destruct (negb (on_axis attr a b) && only) eqn:X.
      + intros F. inversion F. split; [discriminate|]. intros [_ [C _]]. apply andb_true_iff in X. destruct X as [X ->].
        rewrite (proj2 (on_axis_iff a b) (C eq_refl)) in X. discriminate.
      + intros F. apply bind_ok in F. destruct F as [m [M F]]. inversion F; subst.
        apply min_reach_iff in M. destruct M as [p [q [P [Q ->]]]]. rewrite reach_min. split.
        * intros [U V]. split; [exact E|]. split; [|exists p, q; auto]. intros ->.
          apply on_axis_iff. destruct (on_axis attr a b); [reflexivity|discriminate].
        * intros [_ [_ [p' [q' [P' [Q' UV]]]]]]. rewrite P in P'. rewrite Q in Q'. inversion P'; inversion Q'; subst. exact UV.
  Qed.
  Lemma candidate_ok : forall only a b, is_ok (candidate attr only a b) = true <-> known attr only a b.
  Proof.
    intros only a b. unfold candidate, known. destruct (Nat.eqb b a) eqn:E.
    - apply Nat.eqb_eq in E. split; [intros _ C; contradiction|reflexivity].
    - apply Nat.eqb_neq in E. destruct (negb (on_axis attr a b) && only) eqn:X.
      + apply andb_true_iff in X. destruct X as [X ->]. split; [|reflexivity]. intros _ _ C.
        rewrite (proj2 (on_axis_iff a b) (C eq_refl)) in X. discriminate.
      + assert (Y : only = true -> in_line attr a b).
        { intros ->. apply on_axis_iff. destruct (on_axis attr a b); [reflexivity|discriminate]. }
        unfold min_reach. destruct (o_pmax (attr a)), (o_pmax (attr b)); simpl; split; intros H; try discriminate; try reflexivity.
        * intros _ _. split; discriminate.
        * destruct (H E Y) as [_ C]. contradiction.
        * destruct (H E Y) as [C _]. contradiction.
        * destruct (H E Y) as [C _]. contradiction.
  Qed.
  Lemma candidates_ok : forall only a l,
    (forall r, candidates attr only a l = Ok r -> (forall b, In b r <-> In b l /\ nearby only a b) /\ (NoDup l -> NoDup r)) /\
    (is_ok (candidates attr only a l) = true <-> Forall (known attr only a) l).
  Proof.
    intros only a l. induction l as [|o l [IH1 IH2]]; simpl.
    - split; [|split; [constructor|reflexivity]]. intros r E. inversion E. split; [simpl; tauto|constructor].
    - pose proof (candidate_ok only a o) as CO. pose proof (candidate_iff only a o) as CI.
      destruct (candidate attr only a o) as [b|e]; simpl.
      + destruct (candidates attr only a l) as [r|e]; simpl.
        * split.
          -- intros r' E. inversion E; subst. destruct (IH1 r eq_refl) as [J N]. specialize (CI b eq_refl). split.
             ++ intros x. destruct b; simpl; rewrite J; split; intros H.
                ** destruct H as [<-|[H K]]; [split; [left; reflexivity|apply CI; reflexivity]|auto].
                ** destruct H as [[<-|H] K]; auto.
                ** tauto.
                ** destruct H as [[<-|H] K]; [apply CI in K; discriminate|auto].
             ++ intros ND. inversion ND; subst. destruct b; [constructor; [|auto]|auto]. intros C. apply J in C. tauto.
          -- split; [intros _; constructor; [apply CO|apply IH2]; reflexivity|reflexivity].
        * split; [discriminate|]. split; [discriminate|]. intros F. inversion F; subst. apply IH2 in H2. discriminate.
      + split; [discriminate|]. split; [discriminate|]. intros F. inversion F; subst. apply CO in H1. discriminate.
  Qed.

  Definition ordered (prefer : bool) (a : nat) (l : list nat) : list nat :=
    let s := by_distance attr a l in if prefer then by_axis attr a s else s.
  Lemma ordered_perm : forall prefer a l, Permutation (ordered prefer a l) l.
  Proof.
    intros prefer a l. unfold ordered, by_axis, by_distance. destruct prefer; rewrite ?sort_perm; reflexivity.
  Qed.
  Lemma ordered_sorted : forall prefer a l, StronglySorted (farther attr prefer a) (rev (ordered prefer a l)).
  Proof.
    intros prefer a l. unfold ordered.
    assert (D : StronglySorted (fun x y => sq attr x a <= sq attr y a) (by_distance attr a l)).
    { unfold by_distance. erewrite sort_ext; [|intros; rewrite !sqdist_pow; reflexivity].
      eapply sorted_weaken; [|apply (sort_lex (fun x => sq attr x a) (fun _ _ => True)); apply sorted_true].
      intros x y [L|[L _]]; unfold sq in *; lia. }
    destruct prefer; apply sorted_rev with (R := fun x y => farther attr _ a y x); simpl; [|exact D].
    unfold by_axis. set (k := fun x => if on_axis attr x a then 0 else 1).
    erewrite (sort_ext _ (fun x y => k x <? k y)).
    2:{ intros x y. unfold k. destruct (on_axis attr x a), (on_axis attr y a); reflexivity. }
    eapply sorted_weaken; [|apply sort_lex; exact D].
    intros x y L. unfold lex, k in L. pose proof (on_axis_iff x a) as X. pose proof (on_axis_iff y a) as Y.
    destruct (on_axis attr x a), (on_axis attr y a).
    - right. split; [tauto|]. destruct L as [L|[_ L]]; [lia|exact L].
    - left. split; [intros C; apply Y in C; discriminate|tauto].
    - destruct L as [L|[L _]]; lia.
    - right. split; [split; intros C; [apply Y in C|apply X in C]; discriminate|]. destruct L as [L|[_ L]]; [lia|exact L].
  Qed.

  Lemma leaf_inside : forall c a, below (Leaf a) (c_ents c) -> inside veq c a.
  Proof. intros c a B. exists (Leaf a). auto. Qed.

  (** The state only grows wires. *)
  Definition grown (c c' : coll) (new : list wire) : Prop := rewired c c' (c_wires c ++ new).
  Lemma grown_nil : forall c, grown c c [].
  Proof. intros c. unfold grown, rewired. rewrite app_nil_r. auto. Qed.
  Lemma grown_app : forall c c1 c2 a b, grown c c1 a -> grown c1 c2 b -> grown c c2 (a ++ b).
  Proof.
    intros c c1 c2 a b [A [B C]] [D [E F]]. unfold grown, rewired. rewrite D, E, F, C, A, B, app_assoc. auto.
  Qed.

  Lemma connect_all_spec : forall l c a, below (Leaf a) (c_ents c) ->
    (forall b, In b l -> below (Leaf b) (c_ents c) /\ reachable attr a b) ->
    exists l1 l2 c' e, connect_all attr veq c a l = (c', e) /\ l = l1 ++ l2 /\ grown c c' (map (fun z => wire5 a z) l1) /\
      (e = None <-> l2 = []) /\
      (e = None <-> forall b, In b l -> o_power (attr a) = true /\ o_power (attr b) = true).
  Proof.
    induction l as [|n l IH]; intros c a Ba Hl.
    - exists [], [], c, None. repeat split; try reflexivity; try (apply grown_nil); simpl in *; tauto.
    - destruct (Hl n (or_introl eq_refl)) as [Bn [p [q [P [Q _]]]]]. cbn [connect_all].
      destruct (add_power attr veq c (RObj a) (RObj n) (str "input") (str "input")) as [[c1 ws]|e] eqn:E.
      + apply add_power_iff in E. destruct E as [a' [b' [t1 [t2 [ra [rb [-> [-> [_ [_ [T1 [T2 [Pa [Pb [_ [_ [W _]]]]]]]]]]]]]]]]].
        assert (t1 = 5) by (destruct T1 as [[_ ->]|[C _]]; [reflexivity|discriminate]).
        assert (t2 = 5) by (destruct T2 as [[_ ->]|[C _]]; [reflexivity|discriminate]). subst t1 t2.
        pose proof W as [WE _].
        destruct (IH c1 a) as [l1 [l2 [c' [e [EC [-> [G [N1 N2]]]]]]]].
        * rewrite WE. exact Ba.
        * intros b I. rewrite WE. apply Hl. right. exact I.
        * exists (n :: l1), l2, c', e. split; [exact EC|]. split; [reflexivity|]. split.
          -- change (map (fun z => wire5 a z) (n :: l1)) with ([wire5 a n] ++ map (fun z => wire5 a z) l1). eapply grown_app; [exact W|exact G].
          -- split; [exact N1|]. rewrite N2. split; intros H b; [intros [<-|I]; auto|intros I; apply H; right; exact I].
      + exists [], (n :: l), c, (Some e). split; [reflexivity|]. split; [reflexivity|]. split; [apply grown_nil|].
        split; [split; discriminate|]. split; [discriminate|]. intros H. exfalso.
        destruct (H n (or_introl eq_refl)) as [Pa Pb].
        set (ws := if within_reach attr a n (Z.min p q) then [] else [DistanceWarning]).
        assert (X : add_power attr veq c (RObj a) (RObj n) (str "input") (str "input") =
          Ok (with_wires c (c_wires c ++ [link a 5 n 5]), ws)); [|congruence].
        apply add_power_iff. exists a, n, 5, 5, p, q. simpl.
        repeat (split; [first [reflexivity|assumption|apply leaf_inside; assumption|left; auto]|]).
        split; [apply rewired_iff; reflexivity|]. apply distance_warned_iff. reflexivity.
  Qed.

  Definition good_pair (only : bool) (a b : nat) : Prop :=
    known attr only a b /\ (nearby only a b -> o_power (attr a) = true /\ o_power (attr b) = true).

  Definition near_list (prefer only : bool) (poles : list nat) (a : nat) : list nat :=
    match candidates attr only a poles with Ok l => rev (ordered prefer a l) | Err _ => [] end.
  Lemma near_list_spec : forall prefer only poles a, is_ok (candidates attr only a poles) = true ->
    (forall b, In b (near_list prefer only poles a) <-> In b poles /\ nearby only a b) /\
    StronglySorted (farther attr prefer a) (near_list prefer only poles a) /\
    (NoDup poles -> NoDup (near_list prefer only poles a)).
  Proof.
    intros prefer only poles a E. unfold near_list. destruct (candidates_ok only a poles) as [C1 _].
    destruct (candidates attr only a poles) as [l|e]; [|discriminate]. destruct (C1 l eq_refl) as [J N].
    split; [|split; [apply ordered_sorted|]].
    - intros b. rewrite <- in_rev, <- J. split; apply Permutation_in; [|symmetry]; apply ordered_perm.
    - intros ND. apply NoDup_rev. eapply Permutation_NoDup; [symmetry; apply ordered_perm|apply N, ND].
  Qed.

  Lemma generate_loop_spec : forall prefer only poles todo c,
    (forall a, In a poles -> below (Leaf a) (c_ents c)) -> incl todo poles ->
    exists new c' e, generate_loop attr veq prefer only poles todo c = (c', e) /\ grown c c' new /\
      Forall (fun w => exists a b, w = wire5 a b /\ In a todo /\ In b poles /\ nearby only a b) new /\
      (e = None -> new = flat_map (fun a => map (fun z => wire5 a z) (near_list prefer only poles a)) todo) /\
      (e = None <-> forall a b, In a todo -> In b poles -> good_pair only a b).
  Proof.
    intros prefer only poles todo. induction todo as [|a todo IH]; intros c Hb Hi.
    - exists [], c, None. split; [reflexivity|]. split; [apply grown_nil|]. split; [constructor|].
      split; [reflexivity|simpl; tauto].
    - cbn [generate_loop]. destruct (candidates_ok only a poles) as [_ C2].
      pose proof (near_list_spec prefer only poles a) as NL.
      assert (Ba : below (Leaf a) (c_ents c)) by (apply Hb, Hi; left; reflexivity).
      assert (NE : near_list prefer only poles a = match candidates attr only a poles with Ok l => rev (ordered prefer a l) | Err _ => [] end) by reflexivity.
      destruct (candidates attr only a poles) as [near|e] eqn:EC.
      + destruct (NL eq_refl) as [Jo _]. cbn zeta. change (if prefer then by_axis attr a (by_distance attr a near) else by_distance attr a near)
          with (ordered prefer a near). rewrite <- NE.
        destruct (connect_all_spec (near_list prefer only poles a) c a Ba) as [l1 [l2 [c1 [e [E1 [EL [G [N1 N2]]]]]]]].
        { intros b I. apply Jo in I. destruct I as [I [_ [_ R]]]. split; [apply Hb; exact I|exact R]. }
        assert (Kn : forall b, In b poles -> known attr only a b) by (apply Forall_forall, C2; reflexivity).
        assert (F1 : Forall (fun w => exists a0 b, w = wire5 a0 b /\ In a0 (a :: todo) /\ In b poles /\ nearby only a0 b) (map (fun z => wire5 a z) l1)).
        { apply Forall_forall. intros w I. apply in_map_iff in I. destruct I as [b [<- I]]. exists a, b.
          split; [reflexivity|]. split; [left; reflexivity|]. apply Jo. rewrite EL. apply in_app_iff. auto. }
        rewrite E1. destruct e as [e|].
        * exists (map (fun z => wire5 a z) l1), c1, (Some e). split; [reflexivity|]. split; [exact G|]. split; [exact F1|].
          split; [discriminate|]. split; [discriminate|]. intros H. apply N2. intros b I. apply Jo in I. destruct I as [I K].
          apply (H a b); [left; reflexivity|exact I|exact K].
        * assert (l2 = []) by (apply N1; reflexivity). subst l2. rewrite app_nil_r in EL.
          destruct G as [G1 G2]. destruct (IH c1) as [new [c' [e [E2 [G' [F2 [S2 K2]]]]]]].
          { intros x I. rewrite G1. apply Hb, I. }
          { intros x I. apply Hi. right. exact I. }
          exists (map (fun z => wire5 a z) l1 ++ new), c', e. split; [exact E2|]. split; [eapply grown_app; [split; [exact G1|exact G2]|exact G']|].
          split.
          { apply Forall_app. split; [exact F1|]. eapply Forall_impl; [|exact F2].
            intros w [x [y [-> [I HH]]]]. exists x, y. split; [reflexivity|]. split; [right; exact I|exact HH]. }
          split.
          -- intros E. cbn [flat_map]. rewrite (S2 E), EL. reflexivity.
          -- rewrite K2. split.
             ++ intros H x y [<-|I] IY; [|apply H; assumption]. split; [apply Kn; exact IY|].
                intros K. apply (proj1 N2 eq_refl). apply Jo. auto.
             ++ intros H x y I IY. apply H; [right; exact I|exact IY].
      + exists [], c, (Some e). split; [reflexivity|]. split; [apply grown_nil|]. split; [constructor|].
        split; [discriminate|]. split; [discriminate|]. intros H.
        assert (X : Forall (known attr only a) poles) by (apply Forall_forall; intros b I; apply (H a b); [left; reflexivity|exact I]).
        apply C2 in X. discriminate.
  Qed.

  Lemma nearby_wanted : forall only c a b, pole attr c a -> pole attr c b ->
    (nearby only a b <-> wanted attr only c a b).
  Proof. intros only c a b A B. unfold nearby, wanted. intuition congruence. Qed.

  Definition poles_of (c : coll) : list nat :=
    filter (fun i => pystr_eqb (o_type (attr i)) (str "electric-pole")) (flatten (c_ents c)).
  Lemma poles_of_iff : forall c i, In i (poles_of c) <-> pole attr c i.
  Proof.
    intros c i. unfold poles_of, pole. rewrite filter_In, flat_below, pystr_eqb_eq. reflexivity.
  Qed.

  Lemma blocks_in : forall (f : nat -> list nat) l w,
    In w (flat_map (fun a => map (fun z => wire5 a z) (f a)) l) <-> exists a b, w = wire5 a b /\ In a l /\ In b (f a).
  Proof.
    intros f l w. rewrite in_flat_map. split.
    - intros [a [I J]]. apply in_map_iff in J. destruct J as [b [<- J]]. eauto.
    - intros [a [b [-> [I J]]]]. exists a. split; [exact I|]. apply (in_map (fun z => link a 5 z 5)). exact J.
  Qed.
  Lemma wire5_inj : forall a b a' b', wire5 a b = wire5 a' b' -> a = a' /\ b = b'.
  Proof. intros a b a' b' E. inversion E. auto. Qed.
  Lemma blocks_nodup : forall (f : nat -> list nat) l, NoDup l -> (forall a, In a l -> NoDup (f a)) ->
    NoDup (flat_map (fun a => map (fun z => wire5 a z) (f a)) l).
  Proof.
    intros f l ND. induction ND as [|a l N ND IH]; intros H; simpl; [constructor|].
    apply NoDup_app_intro.
    - apply FinFun.Injective_map_NoDup; [|apply H; left; reflexivity]. intros x y E. apply wire5_inj in E. tauto.
    - apply IH. intros x I. apply H. right. exact I.
    - intros w I J. apply in_map_iff in I. destruct I as [b [<- I]]. apply blocks_in in J.
      destruct J as [a' [b' [E [J _]]]]. apply wire5_inj in E. destruct E as [-> _]. contradiction.
  Qed.
  Lemma app_cons_split : forall {A} (l1 l2 pre post : list A) x, l1 ++ l2 = pre ++ x :: post ->
    (exists q, l1 = pre ++ x :: q /\ post = q ++ l2) \/ (exists p, pre = l1 ++ p /\ l2 = p ++ x :: post).
  Proof.
    intros A l1. induction l1 as [|a l1 IH]; intros l2 pre post x E.
    - right. exists pre. auto.
    - destruct pre as [|b pre]; simpl in E; inversion E; subst.
      + left. exists l1. auto.
      + apply IH in H1. destruct H1 as [[q [-> ->]]|[p [-> ->]]]; [left; exists q|right; exists p]; auto.
  Qed.
  Lemma sorted_split : forall {A} (R : A -> A -> Prop) l pre x mid y post, StronglySorted R l ->
    l = pre ++ x :: mid ++ y :: post -> R x y.
  Proof.
    intros A R l pre x mid y post S. revert pre. induction S as [|z l S IH F]; intros pre E; [destruct pre; discriminate|].
    destruct pre as [|p pre]; simpl in E; inversion E; subst; [|eapply IH; reflexivity].
    rewrite Forall_forall in F. apply F. apply in_elt.
  Qed.
  Lemma map_split : forall {A B} (f : A -> B) l pre x post, map f l = pre ++ x :: post ->
    exists p y q, l = p ++ y :: q /\ map f p = pre /\ f y = x /\ map f q = post.
  Proof.
    intros A B f l. induction l as [|a l IH]; intros pre x post E; [destruct pre; discriminate|].
    destruct pre as [|b pre]; simpl in E; inversion E; subst.
    - exists [], a, l. auto.
    - destruct (IH _ _ _ H1) as [p [y [q [-> [<- [<- <-]]]]]]. exists (a :: p), y, q. auto.
  Qed.
  Lemma blocks_sorted : forall (R : nat -> nat -> nat -> Prop) (f : nat -> list nat) l, NoDup l ->
    (forall a, In a l -> StronglySorted (R a) (f a)) ->
    forall a pre x mid y post, flat_map (fun a => map (fun z => wire5 a z) (f a)) l = pre ++ wire5 a x :: mid ++ wire5 a y :: post -> R a x y.
  Proof.
    intros R f l ND. induction ND as [|b l N ND IH]; intros H a pre x mid y post E; [destruct pre; discriminate|].
    cbn [flat_map] in E. apply app_cons_split in E. destruct E as [[q [E1 E2]]|[p [-> E2]]].
    - symmetry in E2. apply app_cons_split in E2. destruct E2 as [[q' [-> E3]]|[p [-> E3]]].
      + apply map_split in E1. destruct E1 as [u [x' [v [EF [<- [Ex Ev]]]]]].
        apply map_split in Ev. destruct Ev as [u' [y' [v' [-> [<- [Ey _]]]]]].
        apply wire5_inj in Ex. apply wire5_inj in Ey. destruct Ex as [-> ->]. destruct Ey as [_ ->].
        eapply sorted_split; [apply H; left; reflexivity|exact EF].
      + exfalso. apply N. assert (I : In (wire5 a x) (map (fun z => wire5 b z) (f b))) by (rewrite E1; apply in_elt).
        apply in_map_iff in I. destruct I as [z [Ez _]]. apply wire5_inj in Ez. destruct Ez as [-> _].
        assert (J : In (wire5 a y) (flat_map (fun a => map (fun z => wire5 a z) (f a)) l)) by (rewrite E3; apply in_elt).
        apply blocks_in in J. destruct J as [a' [b' [Ea [J _]]]]. apply wire5_inj in Ea. destruct Ea as [-> _]. exact J.
    - eapply IH; [|exact E2]. intros z I. apply H. right. exact I.
  Qed.

  Theorem generate_spec : forall prefer only c c' e, generate_power attr veq prefer only c = (c', e) ->
    exists new, rewired c c' (c_wires c ++ new) /\
      (forall w, In w new -> exists a b, w = link a 5 b 5 /\ wanted attr only c a b) /\
      (e = None ->
        (forall a b, wanted attr only c a b -> In (link a 5 b 5) new) /\
        (NoDup (flatten (c_ents c)) -> NoDup new /\
           forall a pre x mid y post, new = pre ++ link a 5 x 5 :: mid ++ link a 5 y 5 :: post -> farther attr prefer a x y)).
  Proof.
    intros prefer only c c' e E. unfold generate_power in E. fold (poles_of c) in E.
    destruct (generate_loop_spec prefer only (poles_of c) (poles_of c) c) as [new [c2 [e2 [E2 [G [F [S K]]]]]]].
    { intros a I. apply poles_of_iff in I. apply I. }
    { apply incl_refl. }
    rewrite E in E2. inversion E2; subst c2 e2. exists new. split; [exact G|]. rewrite Forall_forall in F. split.
    - intros w I. destruct (F w I) as [a [b [-> [A [B N]]]]]. exists a, b. split; [reflexivity|].
      apply nearby_wanted; [apply poles_of_iff; exact A|apply poles_of_iff; exact B|exact N].
    - intros EN. rewrite (S EN). pose proof (proj1 K EN) as GP.
      assert (NL : forall a, In a (poles_of c) -> (forall b, In b (near_list prefer only (poles_of c) a) <-> In b (poles_of c) /\ nearby only a b) /\
         StronglySorted (farther attr prefer a) (near_list prefer only (poles_of c) a) /\
         (NoDup (poles_of c) -> NoDup (near_list prefer only (poles_of c) a))).
      { intros a A. apply near_list_spec. apply candidates_ok. apply Forall_forall. intros b B. apply GP; assumption. }
      split.
      + intros a b W. apply blocks_in. exists a, b. split; [reflexivity|].
        assert (PA : pole attr c a) by apply W. assert (PB : pole attr c b) by apply W.
        split; [apply poles_of_iff; exact PA|]. apply NL; [apply poles_of_iff; exact PA|].
        split; [apply poles_of_iff; exact PB|]. eapply nearby_wanted; eassumption.
      + intros ND. assert (NP : NoDup (poles_of c)) by (apply NoDup_filter; exact ND). split.
        * apply blocks_nodup; [exact NP|]. intros a A. apply NL; assumption.
        * apply (blocks_sorted (farther attr prefer)); [exact NP|]. intros a A. apply NL. exact A.
  Qed.

  Theorem generate_criterion : forall prefer only c,
    snd (generate_power attr veq prefer only c) = None <->
    forall a b, pole attr c a -> pole attr c b ->
      known attr only a b /\ (wanted attr only c a b -> o_power (attr a) = true /\ o_power (attr b) = true).
  Proof.
    intros prefer only c. unfold generate_power. fold (poles_of c).
    destruct (generate_loop_spec prefer only (poles_of c) (poles_of c) c) as [new [c2 [e2 [E2 [G [F [S K]]]]]]].
    { intros a I. apply poles_of_iff in I. apply I. }
    { apply incl_refl. }
    rewrite E2. cbn [snd]. rewrite K. split.
    - intros H a b A B. apply poles_of_iff in A as A'. apply poles_of_iff in B as B'. destruct (H a b A' B') as [X Y].
      split; [exact X|]. intros W. apply Y. eapply nearby_wanted; eassumption.
    - intros H a b A B. apply poles_of_iff in A. apply poles_of_iff in B. destruct (H a b A B) as [X Y].
      split; [exact X|]. intros W. apply Y. apply nearby_wanted; assumption.
  Qed.
End Generate.
