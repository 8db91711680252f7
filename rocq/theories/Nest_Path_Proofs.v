(** Proofs about lists in lists: searching, paths, removal. *)
From Coq Require Import ZArith List Bool Lia Permutation.
From Verif Require Import Common Dict Spatial_Model Nest_Model Nest_Spec Nest_Proofs.
From Verif Require Spatial_Spec Spatial_Proofs.
Import ListNotations.
Local Open Scope Z_scope.

Lemma equals_iff off q n : equals off q n = true <-> is_it off q n.
Proof.
  destruct n as [o k p b|o p ms ix]; cbn [equals is_it]; [|apply Nat.eqb_eq].
  rewrite orb_true_iff, Nat.eqb_eq. destruct (i_look q) as [[k' g]|].
  - rewrite andb_true_iff, Z.eqb_eq, pt_eqb_eq. unfold plus. split.
    + intros [->|[-> <-]]; [left|right]; reflexivity.
    + intros [->|H]; [left; reflexivity|right]. injection H as -> ->. split; reflexivity.
  - split; [intros [->|H]; [left; reflexivity|discriminate]|intros [->|H]; [left; reflexivity|discriminate]].
Qed.
Lemma equals_false off q n : equals off q n = false <-> ~ is_it off q n.
Proof. rewrite <- equals_iff. destruct (equals off q n); split; congruence. Qed.

(** [in]. *)
Lemma holds_iff q n : forall off, holds off q n = true <-> exists g p ms ix off' m, n = Group g p ms ix /\ deep (plus off p) ms off' m /\ is_it off' q m.
Proof.
  induction n as [o k p b|o p ms ix IH] using node_ind'; intros off; cbn [holds].
  - split; [discriminate|]. intros [g [p' [ms [ix [off' [m [E _]]]]]]]. discriminate E.
  - rewrite orb_true_iff, !existsb_exists. split.
    + intros [[m [I E]]|[m [I E]]].
      * exists o, p, ms, ix, (plus off p), m. split; [reflexivity|]. split; [constructor; exact I|apply equals_iff, E].
      * rewrite Forall_forall in IH. apply (IH m I) in E as [g [p' [ms' [ix' [off' [m' [-> [D X]]]]]]]].
        exists o, p, ms, ix, off', m'. split; [reflexivity|]. split; [|exact X]. eapply deep_below; [exact I|exact D].
    + intros [g [p' [ms' [ix' [off' [m [E [D X]]]]]]]]. injection E as <- <- <- <-. inversion D as [a l n' J|a l g' p' l' ix' off'' n' J D']; subst.
      * left. exists m. split; [exact J|apply equals_iff, X].
      * right. eexists. split; [exact J|]. rewrite Forall_forall in IH. apply (IH _ J).
        exists g', p', l', ix', off', m. split; [reflexivity|]. split; [exact D'|exact X].
Qed.
Lemma contains_iff off s q : contains off s q = true <-> exists off' n, deep off (fst s) off' n /\ is_it off' q n.
Proof.
  unfold contains. rewrite orb_true_iff, !existsb_exists. split.
  - intros [[n [I E]]|[n [I E]]].
    + exists off, n. split; [constructor; exact I|apply equals_iff, E].
    + apply holds_iff in E as [g [p [ms [ix [off' [m [-> [D X]]]]]]]]. exists off', m. split; [|exact X]. eapply deep_below; [exact I|exact D].
  - intros [off' [n [D X]]]. inversion D as [a l n' J|a l g' p' l' ix' off'' n' J D']; subst.
    + left. exists n. split; [exact J|apply equals_iff, X].
    + right. eexists. split; [exact J|]. apply holds_iff. exists g', p', l', ix', off', n. split; [reflexivity|]. split; [exact D'|exact X].
Qed.

(** Removal. *)
Lemma find_pos_some {A} (f : A -> bool) l i : find_pos f l = Some i -> exists a x b, l = a ++ x :: b /\ length a = i /\ f x = true /\ Forall (fun y => f y = false) a.
Proof.
  revert i. induction l as [|y l IH]; intros i H; [discriminate|]. cbn in H. destruct (f y) eqn:E.
  - injection H as <-. exists [], y, l. repeat split; [exact E|constructor].
  - destruct (find_pos f l) as [j|]; [|discriminate]. injection H as <-. destruct (IH j eq_refl) as [a [x [b [-> [<- [X F]]]]]].
    exists (y :: a), x, b. repeat split; [exact X|constructor; assumption].
Qed.
Lemma find_pos_none {A} (f : A -> bool) l : find_pos f l = None -> Forall (fun y => f y = false) l.
Proof.
  induction l as [|y l IH]; intros H; [constructor|]. cbn in H. destruct (f y) eqn:E; [discriminate|].
  destruct (find_pos f l); [discriminate|]. constructor; auto.
Qed.
Section S.
  Variables cs eps : Z.
  Lemma delete_mid off a n b ix : exists ix', delete cs eps off (a ++ n :: b, ix) (Z.of_nat (length a)) = ((a ++ b, ix'), None).
  Proof.
    unfold delete. cbn [fst snd]. destruct (a ++ n :: b) as [|m ms] eqn:E; [destruct a; discriminate|]. rewrite <- E.
    rewrite Z.mod_small by (rewrite app_length; cbn [length]; lia). rewrite Nat2Z.id.
    assert (N : nth_error (a ++ n :: b) (length a) = Some n) by (rewrite nth_error_app2, Nat.sub_diag by lia; reflexivity).
    rewrite N. destruct (remove_mid _ _ _ N) as [a' [b' [L [A [B _]]]]]. rewrite B.
    assert (X : a' ++ b' = a ++ b).
    { clear B N E. revert a' L A. induction a as [|x a IH]; intros [|x' a'] L A; try discriminate L.
      - cbn in A. congruence.
      - injection A as -> A. injection L as L. cbn. f_equal. apply IH; assumption. }
    rewrite X. eexists. reflexivity.
  Qed.
  Lemma remove_cases off s q :
    (exists a n b ix', fst s = a ++ n :: b /\ is_it off q n /\ Forall (fun m => ~ is_it off q m) a
       /\ delete cs eps off s (Z.of_nat (length a)) = ((a ++ b, ix'), None) /\ remove cs eps off s q = ((a ++ b, ix'), None))
    \/ (Forall (fun m => ~ is_it off q m) (fst s) /\ remove cs eps off s q = (s, Some ValueError)).
  Proof.
    unfold remove. destruct (find_pos (equals off q) (fst s)) as [i|] eqn:F.
    - left. apply find_pos_some in F as [a [n [b [E [L [X Y]]]]]]. destruct s as [ms ix]. cbn [fst] in E. subst ms i.
      destruct (delete_mid off a n b ix) as [ix' D]. exists a, n, b, ix'. repeat split; try assumption.
      + apply equals_iff, X.
      + eapply Forall_impl; [|exact Y]. intros m. apply equals_false.
    - right. apply find_pos_none in F. split; [|reflexivity]. eapply Forall_impl; [|exact F]. intros m. apply equals_false.
  Qed.
  Definition none_in (off : zpt) (q : item) (m : node) : Prop :=
    match m with Group _ p' l' _ => Forall (fun x => ~ is_it (fst off + fst p', snd off + snd p') q x) l' | _ => True end.
  Lemma below_cases off q ms :
    (exists a g p l ix b l1 n l2 ix', ms = a ++ Group g p l ix :: b /\ Forall (none_in off q) a /\ l = l1 ++ n :: l2
       /\ is_it (plus off p) q n /\ Forall (fun x => ~ is_it (plus off p) q x) l1
       /\ delete cs eps (plus off p) (l, ix) (Z.of_nat (length l1)) = ((l1 ++ l2, ix'), None)
       /\ remove_below cs eps off q ms = Some (a ++ Group g p (l1 ++ l2) ix' :: b))
    \/ (Forall (none_in off q) ms /\ remove_below cs eps off q ms = None).
  Proof.
    induction ms as [|m ms IH]; [right; split; [constructor|reflexivity]|].
    assert (K : forall m, none_in off q m -> (remove_below cs eps off q (m :: ms) = option_map (cons m) (remove_below cs eps off q ms)) ->
      (exists a g p l ix b l1 n l2 ix', m :: ms = a ++ Group g p l ix :: b /\ Forall (none_in off q) a /\ l = l1 ++ n :: l2
       /\ is_it (plus off p) q n /\ Forall (fun x => ~ is_it (plus off p) q x) l1
       /\ delete cs eps (plus off p) (l, ix) (Z.of_nat (length l1)) = ((l1 ++ l2, ix'), None)
       /\ remove_below cs eps off q (m :: ms) = Some (a ++ Group g p (l1 ++ l2) ix' :: b))
      \/ (Forall (none_in off q) (m :: ms) /\ remove_below cs eps off q (m :: ms) = None)).
    { intros m' N E. rewrite E. destruct IH as [[a [g [p [l [ix [b [l1 [n [l2 [ix' [A [B [C [D [F [G H]]]]]]]]]]]]]]]]|[A B]].
      - left. exists (m' :: a), g, p, l, ix, b, l1, n, l2, ix'. rewrite A at 1. rewrite H. repeat split; try assumption.
        constructor; assumption.
      - right. rewrite B. split; [constructor; assumption|reflexivity]. }
    destruct m as [o k p b|g p l ix].
    - apply K; [exact Logic.I|reflexivity].
    - destruct (remove_cases (plus off p) (l, ix) q) as [[a [n [b [ix' [A [B [C [D E]]]]]]]]|[A B]].
      + left. cbn [fst] in A. exists [], g, p, l, ix, ms, a, n, b, ix'. cbn [remove_below app]. rewrite E. repeat split; try assumption. constructor.
      + apply K; [exact A|]. cbn [remove_below]. rewrite B. reflexivity.
  Qed.
  Lemma recursive_remove_does off s q : removal cs eps off q s (recursive_remove cs eps off s q).
  Proof.
    unfold recursive_remove. destruct (remove_cases off s q) as [[a [n [b [ix' [A [B [C [D E]]]]]]]]|[A B]].
    - rewrite E. eapply r_here; eassumption.
    - rewrite B. destruct (below_cases off q (fst s)) as [[a [g [p [l [ix [b [l1 [n [l2 [ix' [E [F [G [H [I [J K]]]]]]]]]]]]]]]]|[C D]].
      + rewrite K. eapply r_below; eassumption.
      + rewrite D. apply r_none; assumption.
  Qed.

  (** Paths. *)
  Lemma nth_replace {A} (l : list A) i x y : nth_error l i = Some y -> nth_error (replace_nth l i x) i = Some x.
  Proof. revert i. induction l as [|z l IH]; intros [|i] H; cbn in *; try discriminate; [reflexivity|apply IH, H]. Qed.
  Lemma nth_replace_other {A} (l : list A) i j x : i <> j -> nth_error (replace_nth l i x) j = nth_error l j.
  Proof. revert i j. induction l as [|z l IH]; intros [|i] [|j] H; cbn; try reflexivity; [congruence|apply IH; congruence]. Qed.
  Lemma step_at_here path : forall off s o off' s', list_at path off s off' s' ->
    list_at path off (fst (step_at cs eps path off s o)) off' (fst (step cs eps off' s' o))
    /\ snd (step_at cs eps path off s o) = snd (step cs eps off' s' o).
  Proof.
    induction path as [|i path IH]; intros off s o off' s' L; inversion L as [|j path' off0 s0 g p ms ix off1 s1 N L']; subst.
    - cbn [step_at]. split; [constructor|reflexivity].
    - cbn [step_at]. rewrite N. change (fst off + fst p, snd off + snd p) with (plus off p) in L'.
      destruct (IH _ _ o _ _ L') as [A B]. destruct (step_at cs eps path (plus off p) (ms, ix) o) as [[ms' ix'] e]. cbn [fst snd] in *.
      split; [|exact B]. eapply at_below; [cbn [fst]; eapply nth_replace; exact N|exact A].
  Qed.
  Lemma step_at_index path o : forall off s ρ off' s', ~ prefix path ρ -> list_at ρ off s off' s' ->
    exists ms, list_at ρ off (fst (step_at cs eps path off s o)) off' (ms, snd s') /\ (~ prefix ρ path -> ms = fst s').
  Proof.
    induction path as [|i path IH]; intros off s ρ off' s' P L; [destruct P; exists ρ; reflexivity|].
    cbn [step_at]. destruct (nth_error (fst s) i) as [[o' k p b|g p ms ix]|] eqn:N;
      [exists (fst s'); rewrite <- surjective_pairing; split; [exact L|reflexivity]| |exists (fst s'); rewrite <- surjective_pairing; split; [exact L|reflexivity]].
    destruct (step_at cs eps path (plus off p) (ms, ix) o) as [[ms' ix'] e] eqn:E. cbn [fst].
    inversion L as [|j ρ' off0 s0 g' p' ms1 ix1 off1 s1 N' L']; subst.
    - eexists. split; [constructor|]. intros Q. destruct Q. exists (i :: path). reflexivity.
    - destruct (Nat.eq_dec i j) as [<-|D].
      + rewrite N in N'. injection N' as <- <- <- <-. change (fst off + fst p, snd off + snd p) with (plus off p) in L'.
        destruct (IH (plus off p) (ms, ix) ρ' off' s') as [ms2 [A B]]; [intros [r ->]; apply P; exists r; reflexivity|exact L'|].
        rewrite E in A. cbn [fst] in A. exists ms2. split; [eapply at_below; [cbn [fst]; eapply nth_replace; exact N|exact A]|].
        intros Q. apply B. intros [r ->]. apply Q. exists r. reflexivity.
      + exists (fst s'). rewrite <- surjective_pairing. split; [|reflexivity].
        eapply at_below; [cbn [fst]; rewrite nth_replace_other by exact D; exact N'|exact L'].
  Qed.
  Lemma step_at_nowhere path o : forall off s, (forall off' s', ~ list_at path off s off' s') ->
    fst (step_at cs eps path off s o) = s /\ exists e, snd (step_at cs eps path off s o) = Some e.
  Proof.
    induction path as [|i path IH]; intros off s H; [destruct (H off s); constructor|]. cbn [step_at].
    destruct (nth_error (fst s) i) as [[o' k p b|g p ms ix]|] eqn:N; [split; [reflexivity|eexists; reflexivity]| |split; [reflexivity|eexists; reflexivity]].
    destruct (IH (plus off p) (ms, ix)) as [A [e B]].
    { intros off' s' L. apply (H off' s'). eapply at_below; [exact N|exact L]. }
    destruct (step_at cs eps path (plus off p) (ms, ix) o) as [[ms' ix'] e']. cbn [fst snd] in *. injection A as -> ->. subst e'.
    split; [|eexists; reflexivity]. destruct s as [l jx]. cbn [fst snd] in *. f_equal.
    destruct (remove_mid _ _ _ N) as [a [b [_ [E [_ R]]]]]. rewrite R. symmetry. exact E.
  Qed.
  Lemma step_at_root path o off s : path <> [] -> snd (fst (step_at cs eps path off s o)) = snd s.
  Proof.
    intros P. destruct path as [|i path]; [congruence|]. cbn [step_at]. destruct (nth_error (fst s) i) as [[|g p ms ix]|]; try reflexivity.
    destruct (step_at cs eps path (plus off p) (ms, ix) o) as [[ms' ix'] e]. reflexivity.
  Qed.
  Lemma blind path o off s s' : path <> [] -> faithful cs eps off (fst s) (snd s) -> s' = fst (step_at cs eps path off s o) ->
    (faithful cs eps off (fst s') (snd s') <->
     forall x c, tally (fun t => same x t && touches cs eps off c t) (all_standing (fst s))
                 = tally (fun t => same x t && touches cs eps off c t) (all_standing (fst s'))).
  Proof.
    intros P F ->. unfold faithful in *. rewrite (step_at_root path o off s P).
    split; intros H x c; [rewrite <- H, <- F; reflexivity|rewrite F; apply H].
  Qed.
  (** What is brought into a group is below every list above it. *)
  Lemma standing_into i r : forall ms m, nth_error ms i = Some m -> forall m' k, Permutation (standing r m') (standing r m ++ k) ->
    Permutation (flat_map (standing r) (replace_nth ms i m')) (flat_map (standing r) ms ++ k).
  Proof.
    intros ms m N m' k P. destruct (remove_mid _ _ _ N) as [a [b [_ [E [_ R]]]]]. rewrite R, E, !flat_map_app. cbn [flat_map].
    rewrite <- !app_assoc. apply Permutation_app_head.
    eapply Permutation_trans; [apply Permutation_app_tail, P|]. rewrite <- !app_assoc. apply Permutation_app_head, Permutation_app_comm.
  Qed.
  Lemma insert_standing path idx d n : forall off s off' s' r, list_at path off s off' s' ->
    exists r', Permutation (flat_map (standing r) (fst (fst (step_at cs eps path off s (Insert idx d n)))))
                           (flat_map (standing r) (fst s) ++ standing r' n).
  Proof.
    induction path as [|i path IH]; intros off s off' s' r L; inversion L as [|j path' off0 s0 g p ms ix off1 s1 N L']; subst.
    - exists r. cbn [step_at step insert fst]. destruct (insert_mid (fst s') idx n) as [a [b [E ->]]]. rewrite E, !flat_map_app. cbn [flat_map].
      rewrite <- app_assoc. apply Permutation_app_head, Permutation_app_comm.
    - cbn [step_at]. rewrite N. change (fst off + fst p, snd off + snd p) with (plus off p) in L'.
      destruct (IH (plus off p) (ms, ix) off' s' (plus r p) L') as [r' P]. exists r'.
      destruct (step_at cs eps path (plus off p) (ms, ix) (Insert idx d n)) as [[ms' ix'] e]. cbn [fst snd] in *.
      eapply standing_into; [exact N|]. exact P.
  Qed.
  Hypothesis Hcs : 0 < cs.
  Lemma solid_touches d t : solid eps t -> exists c, touches cs eps d c t = true.
  Proof.
    intros [b [B [W H]]]. set (x := fst d + fst (t_place t)). set (y := snd d + snd (t_place t)).
    exists ((bl b + x) / cs, (bt b + y) / cs). unfold touches. rewrite B. fold x y. cbn [fst snd].
    pose proof (Z.mul_div_le (bl b + x) cs Hcs). pose proof (Z.mul_succ_div_gt (bl b + x) cs Hcs).
    pose proof (Z.mul_div_le (bt b + y) cs Hcs). pose proof (Z.mul_succ_div_gt (bt b + y) cs Hcs).
    rewrite !andb_true_iff, !Z.ltb_lt, !Z.leb_le. repeat split; nia.
  Qed.
  Lemma standing_solid n : forall r r', Exists (solid eps) (standing r n) -> Exists (solid eps) (standing r' n).
  Proof.
    induction n as [o k p b|o p ms ix IH] using node_ind'; intros r r' H; cbn [standing] in *.
    - inversion H as [x l S|x l S]; subst; [|inversion S]. constructor. exact S.
    - apply Exists_exists in H as [t [I S]]. apply in_flat_map in I as [m [M I]]. rewrite Forall_forall in IH.
      assert (E : Exists (solid eps) (standing (fst r' + fst p, snd r' + snd p) m)).
      { eapply IH; [exact M|]. apply Exists_exists. exists t. split; [exact I|exact S]. }
      apply Exists_exists in E as [t' [I' S']]. apply Exists_exists. exists t'. split; [apply in_flat_map; exists m; split; assumption|exact S'].
  Qed.
  Lemma more_standing off a b k ix : Permutation b (a ++ k) -> Exists (solid eps) k ->
    ~ ((forall x c, tally (same x) (in_cell ix c) = tally (fun t => same x t && touches cs eps off c t) a)
       /\ (forall x c, tally (same x) (in_cell ix c) = tally (fun t => same x t && touches cs eps off c t) b)).
  Proof.
    intros P E [F G]. apply Exists_exists in E as [t [I S]]. destruct (solid_touches off t S) as [c C].
    pose proof (F t c) as Ft. pose proof (G t c) as Gt. rewrite (tally_perm _ _ _ P), tally_app in Gt.
    assert (tally (fun u => same t u && touches cs eps off c u) k <> 0%nat); [|lia].
    apply in_split in I as [k1 [k2 ->]]. rewrite tally_app, tally_cons, same_refl, C. cbn. lia.
  Qed.
  Lemma blind_insert path idx d n off s off' s' : path <> [] -> list_at path off s off' s' -> Exists (solid eps) (standing (0, 0) n) ->
    faithful cs eps off (fst s) (snd s) ->
    ~ faithful cs eps off (fst (fst (step_at cs eps path off s (Insert idx d n)))) (snd (fst (step_at cs eps path off s (Insert idx d n)))).
  Proof.
    intros P L E F G. destruct (insert_standing path idx d n off s off' s' (0, 0) L) as [r' Q].
    unfold faithful in G. rewrite (step_at_root path (Insert idx d n) off s P) in G.
    eapply more_standing; [exact Q|eapply standing_solid; exact E|]. split; [exact F|exact G].
  Qed.
  Lemma blind_remove off s q s' : Forall (fun m => ~ is_it off q m) (fst s) -> recursive_remove cs eps off s q = (s', None) ->
    faithful cs eps off (fst s) (snd s) ->
    (forall off' n, deep off (fst s) off' n -> is_it off' q n -> Exists (solid eps) (standing (0, 0) n)) ->
    ~ faithful cs eps off (fst s') (snd s').
  Proof.
    intros N R F H G. pose proof (recursive_remove_does off s q) as X. rewrite R in X.
    inversion X as [a n b ix' A B C D|a g p l ix b l1 n l2 ix' A B C D I J K|A B]; subst; try discriminate.
    - rewrite Forall_forall in N. apply (N n); [rewrite A; apply in_elt|exact B].
    - cbn [fst snd] in G.
      assert (S : Exists (solid eps) (standing p n)).
      { apply (standing_solid n (0, 0)). eapply H; [|exact I]. eapply deep_below; [rewrite A; apply in_elt|]. constructor. apply in_elt. }
      eapply more_standing with (a := all_standing (a ++ Group g p (l1 ++ l2) ix' :: b)) (b := all_standing (fst s)) (k := standing p n); [|exact S|split; [exact G|exact F]].
      rewrite A. unfold all_standing. rewrite !flat_map_app. cbn [flat_map standing fst snd]. rewrite !Z.add_0_l.
      rewrite <- !app_assoc. apply Permutation_app_head.
      assert (Y : (fst p, snd p) = p) by (destruct p; reflexivity). rewrite Y, !flat_map_app. cbn [flat_map]. rewrite <- !app_assoc.
      apply Permutation_app_head. eapply Permutation_trans; [apply Permutation_app_comm|]. rewrite <- app_assoc. apply Permutation_refl.
  Qed.

  (** Searching. *)
  Lemma placed_world off t b : placed off t = Some b <-> world off t b.
  Proof.
    unfold placed, world. destruct (t_box t) as [l|]; cbn [option_map]; split.
    - intros H. injection H as <-. exists l. split; reflexivity.
    - intros [l' [E ->]]. injection E as <-. reflexivity.
    - discriminate.
    - intros [l' [E _]]. discriminate.
  Qed.
  Lemma found_sound off ms ix q t : exact cs eps off ms ix -> In t (found cs eps off (ms, ix) q) ->
    In t (all_standing ms) /\ exists b, world off t b /\ meet b q.
  Proof.
    intros X I. unfold found, get_in_aabb in I. rewrite Spatial_Proofs.collect_spec in I. cbn [Spatial_Spec.limited] in I.
    apply Spatial_Proofs.fresh_in in I. apply in_flat_map in I as [c [_ I]]. apply filter_In in I as [I T]. split.
    - pose proof (Permutation_in _ (X c) I) as J. apply filter_In in J. exact (proj1 J).
    - apply Spatial_Proofs.overlaps_item_spec in T as [b [B M]]. exists b. split; [apply placed_world, B|].
      unfold Spatial_Spec.boxes_meet, shift_box in M. cbn in M. unfold meet. lia.
  Qed.
  Lemma found_complete off ms ix q t b : 0 < eps -> exact cs eps off ms ix -> In t (all_standing ms) -> world off t b -> overlap eps b q ->
    exists t', In t' (found cs eps off (ms, ix) q) /\ same t' t = true.
  Proof.
    intros Heps X I W [H1 [H2 [H3 [H4 [H5 [H6 [H7 H8]]]]]]]. unfold found, get_in_aabb. rewrite Spatial_Proofs.collect_spec. cbn [Spatial_Spec.limited].
    apply placed_world in W.
    destruct (Spatial_Proofs.shared_cell cs eps Hcs b q) as [c [C1 C2]]; try assumption.
    destruct (Spatial_Proofs.fresh_complete same same_refl (flat_map (fun c => filter (overlaps_item (placed off) (shift_box q (0, 0)))
       (Spatial_Proofs.content ix c)) (cells_of_box cs eps (Some q))) [] t) as [y [Y1 Y2]].
    - apply in_flat_map. exists c. split; [apply (Spatial_Proofs.cells_spec cs eps Hcs); exact C1|]. apply filter_In. split.
      + eapply Permutation_in; [apply Permutation_sym, (X c)|]. apply filter_In. split; [exact I|].
        apply (cells_touch cs eps Hcs). rewrite W. apply (Spatial_Proofs.cells_spec cs eps Hcs). exact C2.
      + apply Spatial_Proofs.overlaps_item_spec. exists b. split; [exact W|]. unfold Spatial_Spec.boxes_meet, shift_box. cbn. lia.
    - exists y. split; [exact Y1|exact Y2].
  Qed.
End S.
