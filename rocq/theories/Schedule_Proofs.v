(** Proofs about combining wait conditions. *)
From Coq Require Import ZArith List Bool Lia.
From Verif Require Import Common Dict Schedule_Model Schedule_Spec.
Import ListNotations.

(** ** Clauses *)
Fixpoint split (l : list wc) : list (list wc) :=
  match l with
  | [] => []
  | w :: l' =>
      match split l' with
      | [] => [[w]]
      | c :: cs => if (match l' with v :: _ => wc_and v | [] => false end) then (w :: c) :: cs else [w] :: c :: cs
      end
  end.
Lemma split_nil : forall l, split l = [] <-> l = [].
Proof.
  intros [|w l]; [tauto|]. split; [|discriminate]. cbn [split].
  destruct l as [|v l]; [discriminate|]. destruct (split (v :: l)); [discriminate|]. destruct (wc_and v); discriminate.
Qed.
Lemma split_cons : forall w v l c cs, split (v :: l) = c :: cs ->
  split (w :: v :: l) = if wc_and v then (w :: c) :: cs else [w] :: c :: cs.
Proof. intros w v l c cs E. change (split (w :: v :: l)) with (match split (v :: l) with [] => [[w]] | c :: cs => if wc_and v then (w :: c) :: cs else [w] :: c :: cs end). rewrite E. reflexivity. Qed.
Lemma split_some : forall v l, exists c cs, split (v :: l) = c :: cs /\ exists r, c = v :: r.
Proof.
  intros v l. revert v. induction l as [|u l IH]; intros v; [exists [v], []; split; [reflexivity|eauto]|].
  destruct (IH u) as [c [cs [E [r ->]]]]. rewrite (split_cons v u l _ _ E). destruct (wc_and u); do 2 eexists; eauto.
Qed.
Lemma split_clauses : forall l, clauses l (split l).
Proof.
  intros l. induction l as [|w l IH]; [repeat constructor|]. destruct l as [|v l].
  - repeat split; repeat constructor. exists w, []. auto.
  - destruct (split_some v l) as [c [cs [E [r ->]]]]. rewrite (split_cons w v l _ _ E). rewrite E in IH.
    destruct IH as [C [F O]]. cbn [tl concat] in *. destruct (wc_and v) eqn:V.
    + split; [cbn [concat app]; f_equal; exact C|]. inversion F as [|? ? F1 F2]; subst. split; [|exact O].
      constructor; [|exact F2]. exists w, (v :: r). split; [reflexivity|]. constructor; [exact V|].
      destruct F1 as [w' [r' [X Y]]]. inversion X; subst. exact Y.
    + split; [cbn [concat app]; f_equal; exact C|]. split.
      * constructor; [exists w, []; auto|exact F].
      * cbn [tl]. constructor; [exists v, r; auto|exact O].
Qed.
Lemma clauses_unique : forall l cs, clauses l cs -> cs = split l.
Proof.
  induction l as [|w l IH]; intros cs [C [F O]].
  - destruct cs as [|c cs]; [reflexivity|]. inversion F as [|? ? [w [r [-> _]]] F2]; subst. discriminate.
  - destruct cs as [|c cs]; [discriminate|]. inversion F as [|? ? [w' [r [-> R]]] F2]; subst. cbn [concat app tl] in *.
    injection C as <- C. destruct r as [|v r].
    + assert (K : clauses l cs). { split; [exact C|]. split; [exact F2|]. destruct cs; [constructor|]. inversion O; assumption. }
      apply IH in K. destruct cs as [|c cs].
      * simpl in C. subst. reflexivity.
      * destruct l as [|u l]; [discriminate|]. rewrite (split_cons w' u l c cs (eq_sym K)).
        inversion O as [|? ? [x [y [-> X]]] _]; subst. cbn [concat app] in C. injection C as -> _. rewrite X. reflexivity.
    + pose proof (Forall_inv R) as V. pose proof (Forall_inv_tail R) as R'. cbn beta in V. cbn [app] in C. destruct l as [|u l]; [discriminate|].
      injection C as <- C. assert (K : clauses (v :: l) ((v :: r) :: cs)).
      { split; [cbn [concat app]; f_equal; exact C|]. split; [|exact O]. constructor; [|exact F2]. exists v, r. auto. }
      apply IH in K. rewrite (split_cons w' v l _ _ (eq_sym K)), V. reflexivity.
Qed.
Lemma split_or : forall la v lb, la <> [] -> wc_and v = false -> split (la ++ v :: lb) = split la ++ split (v :: lb).
Proof.
  induction la as [|w la IH]; intros v lb N V; [contradiction|]. destruct la as [|u la].
  - cbn [app]. destruct (split_some v lb) as [c [cs [E _]]]. rewrite (split_cons w v lb c cs E), V, E. reflexivity.
  - specialize (IH v lb ltac:(discriminate) V). destruct (split_some u la) as [c [cs [E _]]]. rewrite E in IH.
    change ((w :: u :: la) ++ v :: lb) with (w :: u :: (la ++ v :: lb)).
    change ((u :: la) ++ v :: lb) with (u :: (la ++ v :: lb)) in IH. cbn [app] in IH.
    rewrite (split_cons w u _ _ _ IH), (split_cons w u la c cs E). destruct (wc_and u); reflexivity.
Qed.
Lemma split_and : forall la v lb cs1 c1 c2 cs2, wc_and v = true -> split la = cs1 ++ [c1] -> split (v :: lb) = c2 :: cs2 ->
  split (la ++ v :: lb) = cs1 ++ (c1 ++ c2) :: cs2.
Proof.
  induction la as [|w la IH]; intros v lb cs1 c1 c2 cs2 V A B; [destruct cs1; discriminate|]. destruct la as [|u la].
  - cbn [app]. rewrite (split_cons w v lb c2 cs2 B), V. simpl in A. destruct cs1 as [|x cs1]; [inversion A; reflexivity|].
    destruct cs1; discriminate.
  - destruct (split_some u la) as [c [cs [E _]]]. rewrite (split_cons w u la c cs E) in A.
    change ((w :: u :: la) ++ v :: lb) with (w :: u :: (la ++ v :: lb)). destruct (wc_and u) eqn:U.
    + destruct cs1 as [|x cs1].
      * cbn [app] in A. injection A as <- ->. specialize (IH v lb [] c c2 cs2 V E B). cbn [app] in IH.
        rewrite (split_cons w u _ _ _ IH), U. reflexivity.
      * cbn [app] in A. injection A as <- ->. specialize (IH v lb (c :: cs1) c1 c2 cs2 V E B). cbn [app] in IH.
        rewrite (split_cons w u _ _ _ IH), U. reflexivity.
    + destruct cs1 as [|x cs1]; cbn [app] in A; [discriminate|]. injection A as <- A. rewrite A in E.
      specialize (IH v lb cs1 c1 c2 cs2 V E B).
      change ((u :: la) ++ v :: lb) with (u :: (la ++ v :: lb)) in IH.
      destruct (split_some u (la ++ v :: lb)) as [d [ds [D _]]]. rewrite (split_cons w u _ _ _ D), U. rewrite <- D, IH. reflexivity.
Qed.
Lemma split_with_first : forall b w l c cs, split (w :: l) = c :: cs -> split (set_and b w :: l) = with_first b c :: cs.
Proof.
  intros b w l c cs E. destruct l as [|v l].
  - simpl in E. inversion E; subst. reflexivity.
  - destruct (split_some v l) as [d [ds [D _]]]. rewrite (split_cons w v l d ds D) in E. rewrite (split_cons _ v l d ds D).
    destruct (wc_and v); inversion E; subst; reflexivity.
Qed.

Section Meaning.
  Variable fulfilled : pystr -> option Z -> nat -> Prop.
  Notation sat := (sat fulfilled).
  Notation holds := (holds fulfilled).
  Lemma holds_split : forall l, l <> [] -> (holds l <-> Exists (Forall sat) (split l)).
  Proof.
    intros l N. unfold Schedule_Spec.holds. rewrite Exists_exists. split.
    - intros [E|[cs [c [C [I S]]]]]; [contradiction|]. apply clauses_unique in C. subst. eauto.
    - intros [c [I S]]. right. exists (split l), c. split; [apply split_clauses|auto].
  Qed.
  Lemma sat_set : forall b w, sat (set_and b w) <-> sat w.
  Proof. reflexivity. Qed.
  Lemma sat_with_first : forall b c, Forall sat (with_first b c) <-> Forall sat c.
  Proof. intros b [|w c]; [reflexivity|]. simpl. split; intros F; inversion F; subst; constructor; auto. Qed.
  Lemma with_first_nil : forall b l, with_first b l = [] <-> l = [].
  Proof. intros b [|w l]; simpl; split; congruence. Qed.

  Theorem or_meaning : forall la lb, la <> [] -> lb <> [] -> (holds (la ++ with_first false lb) <-> holds la \/ holds lb).
  Proof.
    intros la lb A B. destruct lb as [|w lb]; [contradiction|]. cbn [with_first].
    rewrite !holds_split by (try assumption; destruct la; discriminate). rewrite split_or by auto.
    rewrite Exists_app. destruct (split_some w lb) as [c [cs [E _]]]. rewrite E, (split_with_first false w lb c cs E).
    rewrite !Exists_cons, sat_with_first. reflexivity.
  Qed.
  Theorem and_meaning : forall la lb cs1 c1 c2 cs2, clauses la (cs1 ++ [c1]) -> clauses lb (c2 :: cs2) ->
    (holds (la ++ with_first true lb) <->
      (exists c, In c (cs1 ++ cs2) /\ Forall sat c) \/ (Forall sat c1 /\ Forall sat c2)).
  Proof.
    intros la lb cs1 c1 c2 cs2 A B. apply clauses_unique in A. apply clauses_unique in B.
    destruct lb as [|w lb]; [discriminate|]. cbn [with_first].
    rewrite holds_split by (destruct la; discriminate).
    symmetry in A, B. pose proof (split_with_first true w lb c2 cs2 B) as B'.
    assert (V : wc_and (set_and true w) = true) by reflexivity.
    rewrite (split_and la _ lb cs1 c1 _ cs2 V A B'), Exists_app, Exists_cons, Forall_app, sat_with_first.
    rewrite !Exists_exists. split.
    - intros [[c [I S]]|[S|[c [I S]]]]; [left; exists c; rewrite in_app_iff; auto|right; exact S|left; exists c; rewrite in_app_iff; auto].
    - intros [[c [I S]]|S]; [|right; left; exact S]. apply in_app_iff in I. destruct I; [left|right; right]; eauto.
  Qed.
  Theorem and_pure : forall la lb, clause la -> clause lb ->
    (holds (la ++ with_first true lb) <-> holds la /\ holds lb) /\ clause (la ++ with_first true lb).
  Proof.
    intros la lb A B.
    assert (S : forall l, clause l -> clauses l [l]).
    { intros l C. split; [cbn; apply app_nil_r|]. split; [constructor; [exact C|constructor]|constructor]. }
    assert (H : forall l, clause l -> (holds l <-> Forall sat l)).
    { intros l C. rewrite holds_split by (destruct C as [w [r [-> _]]]; discriminate). rewrite <- (clauses_unique l [l] (S l C)).
      rewrite Exists_cons. split; [intros [X|X]; [exact X|inversion X]|auto]. }
    split.
    - rewrite (and_meaning la lb [] la lb [] (S la A) (S lb B)). rewrite !H by assumption. split; [intros [[c [[] _]]|X]; exact X|auto].
    - destruct A as [w [r [-> R]]]. destruct B as [v [s [-> T]]]. exists w, (r ++ set_and true v :: s). split; [reflexivity|].
      apply Forall_app. split; [exact R|]. constructor; [reflexivity|exact T].
  Qed.
  Lemma holds_one : forall w, holds [w] <-> sat w.
  Proof.
    intros w. rewrite holds_split by discriminate. simpl. rewrite Exists_cons. split.
    - intros [X|X]; [inversion X; assumption|inversion X].
    - intros X. left. constructor; [exact X|constructor].
  Qed.
End Meaning.

(** ** The heap *)
Lemma update_nth : forall h i f j, nth_error (update h i f) j = if Nat.eqb j i then option_map f (nth_error h j) else nth_error h j.
Proof.
  induction h as [|w h IH]; intros [|i] f [|j]; cbn [update nth_error option_map Nat.eqb]; try reflexivity; [|apply IH].
  destruct (Nat.eqb j i); reflexivity.
Qed.
Lemma update_length : forall h i f, length (update h i f) = length h.
Proof. induction h as [|w h IH]; intros [|i] f; cbn [update length]; auto. Qed.
Lemma app_untouched : forall (h e : heap), untouched h (h ++ e).
Proof. intros h e i w E. rewrite nth_error_app1; [exact E|]. apply nth_error_Some. congruence. Qed.
Lemma update_untouched : forall h h' i f, untouched h h' -> length h <= i -> untouched h (update h' i f).
Proof.
  intros h h' i f U L j w E. rewrite update_nth. destruct (Nat.eqb j i) eqn:X; [|apply U; exact E].
  apply Nat.eqb_eq in X. subst. assert (i < length h) by (apply nth_error_Some; congruence). lia.
Qed.
Lemma untouched_trans : forall a b c, untouched a b -> untouched b c -> untouched a c.
Proof. intros a b c A B i w E. apply B, A, E. Qed.
Lemma untouched_length : forall a b, untouched a b -> length a <= length b.
Proof.
  intros a b U. destruct a as [|x a]; [simpl; lia|]. assert (L : length a < length (x :: a)) by (simpl; lia).
  apply nth_error_Some in L. destruct (nth_error (x :: a) (length a)) as [w|] eqn:E; [|contradiction].
  apply U in E. assert (X : length a < length b) by (apply nth_error_Some; congruence). simpl. lia.
Qed.
Lemma copy_one_ok : forall h i, i < length h -> exists w, nth_error h i = Some w /\ copy_one h i = (h ++ [w], length h).
Proof.
  intros h i L. unfold copy_one. destruct (nth_error h i) as [w|] eqn:E; [eauto|]. apply nth_error_None in E. lia.
Qed.

Lemma dget_add : forall (m : list (nat * nat)) i j k, dget Nat.eqb ((i, j) :: m) k = if Nat.eqb k i then Some j else dget Nat.eqb m k.
Proof. intros m i j k. cbn [dget]. rewrite Nat.eqb_sym. reflexivity. Qed.

Lemma copy_list_spec : forall n l h memo h' r, copy_list h memo l = (h', r) -> n <= length h ->
  (forall k v, dget Nat.eqb memo k = Some v -> n <= v < length h /\ nth_error h v = nth_error h k) ->
  (forall k k' v, dget Nat.eqb memo k = Some v -> dget Nat.eqb memo k' = Some v -> k = k') ->
  Forall (fun i => i < n) l ->
  (exists e, h' = h ++ e) /\ exists f, r = map f l /\
    (forall i, In i l -> n <= f i < length h' /\ nth_error h' (f i) = nth_error h i /\
       (forall v, dget Nat.eqb memo i = Some v -> f i = v) /\ (dget Nat.eqb memo i = None -> length h <= f i)) /\
    (forall i j, In i l -> In j l -> f i = f j -> i = j).
Proof.
  intros n l. induction l as [|i l IH]; intros h memo h' r E N M J F; cbn [copy_list] in E.
  - inversion E; subst. split; [exists []; rewrite app_nil_r; reflexivity|]. exists (fun i => i). repeat split; intros; contradiction.
  - inversion F as [|? ? Fi Fl]; subst. destruct (dget Nat.eqb memo i) as [v|] eqn:D.
    + destruct (copy_list h memo l) as [h1 r1] eqn:C. inversion E; subst; clear E.
      destruct (IH _ _ _ _ C N M J Fl) as [[e He] [f [-> [P Q]]]]. split; [eauto|].
      exists (fun k => if Nat.eqb k i then v else f k).
      assert (FI : In i l -> f i = v). { intros I. apply (P i I). exact D. }
      assert (EX : forall k, In k l -> (if Nat.eqb k i then v else f k) = f k).
      { intros k I. destruct (Nat.eqb k i) eqn:X; [|reflexivity]. apply Nat.eqb_eq in X. subst. symmetry. auto. }
      destruct (M i v D) as [MV ME].
      split; [|split].
      * cbn [map]. rewrite Nat.eqb_refl. f_equal. apply map_ext_in. intros k I. symmetry. apply EX. exact I.
      * intros k [<-|I].
        -- rewrite Nat.eqb_refl. split; [rewrite He, app_length; lia|]. split.
           ++ rewrite He, nth_error_app1 by lia. exact ME.
           ++ split; [intros v' V; congruence|intros V; congruence].
        -- rewrite EX by exact I. apply P. exact I.
      * assert (NI : forall k, In k l -> f k = v -> k = i).
        { intros k I X. destruct (dget Nat.eqb memo k) as [u|] eqn:DK.
          - destruct (P k I) as [_ [_ [P1 _]]]. rewrite (P1 u DK) in X. subst u. exact (J _ _ _ DK D).
          - destruct (P k I) as [_ [_ [_ P2]]]. specialize (P2 DK). lia. }
        intros a b [<-|A] [<-|B] X; [reflexivity| | |].
        -- rewrite Nat.eqb_refl, EX in X by exact B. symmetry. apply NI; auto.
        -- rewrite Nat.eqb_refl, EX in X by exact A. apply NI; auto.
        -- rewrite !EX in X by assumption. apply Q; assumption.
    + assert (Li : i < length h) by lia. destruct (copy_one_ok h i Li) as [w [W CO]]. rewrite CO in E.
      destruct (copy_list (h ++ [w]) ((i, length h) :: memo) l) as [h1 r1] eqn:C. inversion E; subst; clear E.
      assert (L1 : length (h ++ [w]) = S (length h)) by (rewrite app_length; simpl; lia).
      destruct (IH _ _ _ _ C) as [[e He] [f [-> [P Q]]]]; [lia| | |exact Fl|].
      { intros k v. rewrite dget_add. destruct (Nat.eqb k i) eqn:X.
        - apply Nat.eqb_eq in X. subst. intros V. inversion V; subst. split; [lia|].
          rewrite nth_error_app2, Nat.sub_diag by lia. rewrite nth_error_app1 by lia. cbn [nth_error]. congruence.
        - intros V. destruct (M k v V) as [A B]. split; [lia|]. rewrite nth_error_app1 by lia. rewrite B.
          destruct (Nat.lt_ge_cases k (length h)) as [G|G]; [rewrite nth_error_app1 by lia; reflexivity|].
          assert (X1 : nth_error h k = None) by (apply nth_error_None; lia). rewrite X1 in B. apply nth_error_None in B. lia. }
      { intros k k' v. rewrite !dget_add. destruct (Nat.eqb k i) eqn:X; destruct (Nat.eqb k' i) eqn:Y; intros V V'.
        - apply Nat.eqb_eq in X. apply Nat.eqb_eq in Y. congruence.
        - inversion V; subst. apply M in V'. lia.
        - inversion V'; subst. apply M in V. lia.
        - exact (J _ _ _ V V'). }
      split; [exists ([w] ++ e); rewrite He, <- app_assoc; reflexivity|].
      exists (fun k => if Nat.eqb k i then length h else f k).
      assert (DI : dget Nat.eqb ((i, length h) :: memo) i = Some (length h)) by (rewrite dget_add, Nat.eqb_refl; reflexivity).
      assert (EX : forall k, In k l -> (if Nat.eqb k i then length h else f k) = f k).
      { intros k I. destruct (Nat.eqb k i) eqn:X; [|reflexivity]. apply Nat.eqb_eq in X. subst. symmetry. apply (P i I). exact DI. }
      split; [|split].
      * cbn [map]. rewrite Nat.eqb_refl. f_equal. apply map_ext_in. intros k I. symmetry. apply EX. exact I.
      * intros k [<-|I].
        -- rewrite Nat.eqb_refl. split; [rewrite He, app_length; lia|]. split.
           ++ rewrite He. rewrite nth_error_app1 by lia. rewrite nth_error_app2, Nat.sub_diag by lia. cbn [nth_error]. congruence.
           ++ split; [intros v' V; congruence|intros V; lia].
        -- rewrite EX by exact I. destruct (P k I) as [P1 [P2 [P3 P4]]]. split; [exact P1|]. split.
           ++ rewrite P2. rewrite nth_error_app1; [reflexivity|]. rewrite Forall_forall in Fl. specialize (Fl k I). lia.
           ++ destruct (Nat.eqb k i) eqn:X.
              ** apply Nat.eqb_eq in X. subst. split; [intros v V; congruence|]. intros _. rewrite (P3 _ DI). lia.
              ** rewrite dget_add, X in P3, P4. split; [exact P3|]. intros V. specialize (P4 V). lia.
      * assert (NI : forall k, In k l -> f k = length h -> k = i).
        { intros k I X. destruct (Nat.eqb k i) eqn:Y; [apply Nat.eqb_eq; exact Y|]. destruct (P k I) as [_ [_ [P3 P4]]].
          rewrite dget_add, Y in P3, P4. destruct (dget Nat.eqb memo k) as [u|] eqn:DK.
          - specialize (P3 u eq_refl). apply M in DK. lia.
          - specialize (P4 eq_refl). lia. }
        intros a b [<-|A] [<-|B] X; [reflexivity| | |].
        -- rewrite Nat.eqb_refl, EX in X by exact B. symmetry. apply NI; auto.
        -- rewrite Nat.eqb_refl, EX in X by exact A. apply NI; auto.
        -- rewrite !EX in X by assumption. apply Q; assumption.
Qed.

Lemma forall2_map_left : forall {A B C} (P : B -> C -> Prop) (f : A -> B) l r, Forall2 P (map f l) r <-> Forall2 (fun a c => P (f a) c) l r.
Proof.
  intros A B C P f l. induction l as [|a l IH]; intros r; simpl.
  - split; intros F; inversion F; constructor.
  - split; intros F; inversion F; subst; constructor; try assumption; apply IH; assumption.
Qed.
Lemma forall2_impl_in : forall {A B} (P Q : A -> B -> Prop) l r, (forall a b, In a l -> P a b -> Q a b) -> Forall2 P l r -> Forall2 Q l r.
Proof.
  intros A B P Q l r H F. induction F; constructor; [apply H; [left; reflexivity|assumption]|].
  apply IHF. intros a b I. apply H. right. exact I.
Qed.
Lemma nodup_map_in : forall {A B} (f : A -> B) l, NoDup l -> (forall x y, In x l -> In y l -> f x = f y -> x = y) -> NoDup (map f l).
Proof.
  intros A B f l N. induction N as [|x l NI N IH]; intros J; simpl; [constructor|]. constructor.
  - intros C. apply in_map_iff in C. destruct C as [y [E I]]. apply NI. rewrite <- (J y x); [exact I|right; exact I|left; reflexivity|exact E].
  - apply IH. intros a b A1 B1. apply J; right; assumption.
Qed.
Lemma contents_real : forall h o l, contents h o l -> real h o.
Proof.
  intros h o l C. unfold contents, real in *. induction C as [|i w m l E C IH]; constructor; [apply nth_error_Some; congruence|exact IH].
Qed.

Lemma recompared_map : forall conj (h : heap) i0 l lb, Forall2 (fun i w => nth_error h i = Some w) l lb ->
  Forall2 (fun i w => (if Nat.eqb i i0 then option_map (set_and conj) (nth_error h i) else nth_error h i) = Some w) l
    (map (fun p => if Nat.eqb (fst p) i0 then set_and conj (snd p) else snd p) (combine l lb)).
Proof.
  intros conj h i0 l lb F. induction F as [|i w l lb E F IH]; simpl; constructor; [|exact IH].
  simpl. destruct (Nat.eqb i i0); rewrite E; reflexivity.
Qed.
Lemma recompared_nodup : forall conj l lb, NoDup l -> length l = length lb -> recompared conj l lb (with_first conj lb).
Proof.
  intros conj [|i0 l] [|w lb] N L; try discriminate; [reflexivity|]. cbn [recompared with_first combine map fst snd].
  rewrite Nat.eqb_refl. f_equal. inversion N as [|? ? NI _]; subst. clear N. inversion L as [L']. clear L.
  revert lb L'. induction l as [|j l IH]; intros [|v lb] L'; try discriminate; [reflexivity|].
  cbn [combine map fst snd]. destruct (Nat.eqb j i0) eqn:X.
  - apply Nat.eqb_eq in X. subst. exfalso. apply NI. left. reflexivity.
  - f_equal. apply IH; [|simpl in *; lia]. intros C. apply NI. right. exact C.
Qed.

Theorem py_op_spec : forall conj h a b la lb lb', contents h a la -> contents h b lb ->
  a <> Foreign -> b <> Foreign -> (exists i, a = One i \/ b = One i) -> lb <> [] -> recompared conj (members b) lb lb' ->
  exists h' r, py_op conj h a b = Ok (h', Many r) /\ untouched h h' /\ contents h' (Many r) (la ++ lb') /\
    Forall (fun i => length h <= i < length h') r /\
    (NoDup (members a) -> NoDup (members b) -> NoDup r).
Proof.
  intros conj h a b la lb lb' CA CB FA FB K NB RC.
  assert (MEMO0 : forall (h0 : heap) (n : nat) k v, dget Nat.eqb (@nil (nat * nat)) k = Some v -> n <= v < length h0 /\ nth_error h0 v = nth_error h0 k) by (intros; discriminate).
  destruct a as [i|l|]; [|destruct b as [i|l'|]|contradiction].
  - (* forward *)
    unfold contents in CA. cbn [members] in CA. inversion CA as [|? w ? ? Ei CA']; subst. inversion CA'; subst. clear CA CA'.
    assert (Li : i < length h) by (apply nth_error_Some; congruence).
    destruct (copy_one_ok h i Li) as [w' [W CO]]. rewrite Ei in W. inversion W; subst w'. clear W.
    cbn [py_op]. unfold op_forward. rewrite CO.
    assert (L1 : length (h ++ [w]) = S (length h)) by (rewrite app_length; simpl; lia).
    destruct b as [j|l|]; [| |contradiction].
    + unfold contents in CB. cbn [members] in CB, RC. inversion CB as [|? v ? ? Ej CB']; subst. inversion CB'; subst. clear CB CB'.
      assert (Lj : j < length h) by (apply nth_error_Some; congruence).
      destruct (copy_one_ok (h ++ [w]) j ltac:(lia)) as [v' [V CO2]].
      rewrite nth_error_app1 in V by lia. rewrite Ej in V. inversion V; subst v'. clear V. rewrite CO2.
      cbn [recompared combine map fst snd] in RC. rewrite Nat.eqb_refl in RC. subst lb'.
      do 2 eexists. split; [reflexivity|]. split; [|split; [|split]].
      * apply update_untouched; [|lia]. eapply untouched_trans; apply app_untouched.
      * unfold contents. cbn [members app]. constructor; [|constructor; [|constructor]].
        -- rewrite update_nth. replace (Nat.eqb (length h) (length (h ++ [w]))) with false by (symmetry; apply Nat.eqb_neq; lia).
           rewrite nth_error_app1 by lia. rewrite nth_error_app2, Nat.sub_diag by lia. reflexivity.
        -- rewrite update_nth, Nat.eqb_refl. rewrite (nth_error_app2 (h ++ [w])), Nat.sub_diag by lia. reflexivity.
      * rewrite update_length, !app_length. simpl. repeat constructor; lia.
      * intros _ _. repeat constructor; [intros [C|[]]; lia|intros []].
    + cbn [members] in *. destruct (copy_list (h ++ [w]) [] l) as [h2 r] eqn:C.
      pose proof (contents_real _ _ _ CB) as RB. unfold real in RB. cbn [members] in RB.
      destruct (copy_list_spec (length h) l (h ++ [w]) [] h2 r C) as [[e He] [f [-> [P Q]]]];
        [lia|intros; discriminate|intros; discriminate|exact RB|].
      unfold contents in CB. cbn [members] in CB.
      destruct l as [|i0 l]; [inversion CB; subst; contradiction|]. cbn [map].
      assert (P0 : forall k, In k (i0 :: l) -> S (length h) <= f k < length h2).
      { intros k I. destruct (P k I) as [P1 [_ [_ P4]]]. specialize (P4 eq_refl). lia. }
      do 2 eexists. split; [reflexivity|]. split; [|split; [|split]].
      * apply update_untouched; [|specialize (P0 i0 (or_introl eq_refl)); lia]. rewrite He. eapply untouched_trans; apply app_untouched.
      * unfold contents. cbn [members app]. constructor.
        -- rewrite update_nth. pose proof (P0 i0 (or_introl eq_refl)).
           replace (Nat.eqb (length h) (f i0)) with false by (symmetry; apply Nat.eqb_neq; lia).
           rewrite He, nth_error_app1 by lia. rewrite nth_error_app2, Nat.sub_diag by lia. reflexivity.
        -- cbn [recompared] in RC. subst lb'. change (f i0 :: map f l) with (map f (i0 :: l)). apply forall2_map_left.
           pose proof (recompared_map conj h i0 _ _ CB) as RM. revert RM. apply forall2_impl_in. intros k v I X.
           rewrite update_nth. destruct (P k I) as [_ [P2 _]]. rewrite nth_error_app1 in P2 by (rewrite Forall_forall in RB; apply RB; exact I).
           rewrite P2. destruct (Nat.eqb k i0) eqn:Y.
           ++ apply Nat.eqb_eq in Y. subst. rewrite Nat.eqb_refl. exact X.
           ++ replace (Nat.eqb (f k) (f i0)) with false; [exact X|]. symmetry. apply Nat.eqb_neq. intros Z. apply Q in Z; [|exact I|left; reflexivity].
              apply Nat.eqb_neq in Y. contradiction.
      * rewrite update_length. constructor; [rewrite He, app_length; lia|]. change (f i0 :: map f l) with (map f (i0 :: l)).
        apply Forall_forall. intros x X. apply in_map_iff in X. destruct X as [k [<- I]]. specialize (P0 k I). lia.
      * intros _ NDB. change (f i0 :: map f l) with (map f (i0 :: l)). constructor; [|apply nodup_map_in; assumption].
        intros X. apply in_map_iff in X. destruct X as [k [X I]]. specialize (P0 k I). lia.
  - (* reflected *)
    unfold contents in CB. cbn [members] in CB, RC. inversion CB as [|? w ? ? Ei CB']; subst. inversion CB'; subst. clear CB CB'.
    cbn [recompared combine map fst snd] in RC. rewrite Nat.eqb_refl in RC. subst lb'.
    assert (Li : i < length h) by (apply nth_error_Some; congruence).
    destruct (copy_one_ok h i Li) as [w' [W CO]]. rewrite Ei in W. inversion W; subst w'. clear W.
    cbn [py_op]. unfold op_reflected. rewrite CO.
    assert (L1 : length (h ++ [w]) = S (length h)) by (rewrite app_length; simpl; lia).
    pose proof (contents_real _ _ _ CA) as RA. unfold real in RA. cbn [members] in RA.
    destruct (copy_list (h ++ [w]) [] l) as [h2 r] eqn:C.
    destruct (copy_list_spec (length h) l (h ++ [w]) [] h2 r C) as [[e He] [f [-> [P Q]]]];
      [lia|intros; discriminate|intros; discriminate|exact RA|].
    assert (P0 : forall k, In k l -> S (length h) <= f k < length h2).
    { intros k I. destruct (P k I) as [P1 [_ [_ P4]]]. specialize (P4 eq_refl). lia. }
    do 2 eexists. split; [reflexivity|]. split; [|split; [|split]].
    + apply update_untouched; [|lia]. rewrite He. eapply untouched_trans; apply app_untouched.
    + unfold contents in *. cbn [members] in *. apply Forall2_app.
      * apply forall2_map_left. revert CA. apply forall2_impl_in. intros k v I X. rewrite update_nth.
        pose proof (P0 k I). replace (Nat.eqb (f k) (length h)) with false by (symmetry; apply Nat.eqb_neq; lia).
        destruct (P k I) as [_ [P2 _]]. rewrite P2, nth_error_app1 by (rewrite Forall_forall in RA; apply RA; exact I). exact X.
      * constructor; [|constructor]. rewrite update_nth, Nat.eqb_refl. rewrite He, nth_error_app1 by lia.
        rewrite nth_error_app2, Nat.sub_diag by lia. reflexivity.
    + rewrite update_length. apply Forall_app. split.
      * apply Forall_forall. intros x X. apply in_map_iff in X. destruct X as [k [<- I]]. specialize (P0 k I). lia.
      * constructor; [rewrite He, app_length; lia|constructor].
    + cbn [members]. intros NA _. assert (ND : NoDup (map f l)) by (apply nodup_map_in; assumption).
      assert (NI : ~ In (length h) (map f l)). { intros X. apply in_map_iff in X. destruct X as [k [X I]]. specialize (P0 k I). lia. }
      clear - ND NI. induction (map f l) as [|x m IH]; simpl; [constructor; [intros []|constructor]|].
      inversion ND; subst. constructor; [|apply IH; [assumption|intros C; apply NI; right; exact C]].
      intros C. apply in_app_iff in C. destruct C as [C|[<-|[]]]; [contradiction|]. apply NI. left. reflexivity.
  - exfalso. destruct K as [i [K|K]]; discriminate.
  - contradiction.
Qed.

(** ** Expressions *)
Lemma forall2_length' : forall {A B} (P : A -> B -> Prop) l r, Forall2 P l r -> length l = length r.
Proof. intros A B P l r F. induction F; simpl; congruence. Qed.
Lemma means_untouched : forall fulfilled e h h', untouched h h' -> Forall (fun i => i < length h) (atoms e) ->
  (means fulfilled h' e <-> means fulfilled h e).
Proof.
  intros fulfilled e h h' U. induction e as [i|[|] a IHa b IHb]; intros F; cbn [atoms means] in *.
  - inversion F as [|? ? L _]; subst. destruct (nth_error h i) as [w|] eqn:E; [|apply nth_error_None in E; lia].
    rewrite (U i w E). split; auto.
  - apply Forall_app in F. destruct F as [Fa Fb]. rewrite IHa, IHb by assumption. reflexivity.
  - apply Forall_app in F. destruct F as [Fa Fb]. rewrite IHa, IHb by assumption. reflexivity.
Qed.
Lemma contents_untouched : forall h h' o l, untouched h h' -> contents h o l -> contents h' o l.
Proof. intros h h' o l U C. unfold contents in *. revert C. apply forall2_impl_in. intros i w _. apply U. Qed.

Theorem run_ok : forall e h, Forall (fun i => i < length h) (atoms e) -> evaluable e ->
  exists h' o l, run h e = Ok (h', o) /\ untouched h h' /\ contents h' o l /\ l <> [] /\ NoDup (members o) /\
    (atomic e -> exists i, o = One i) /\ (~ atomic e -> exists r, o = Many r) /\
    (conjunctive e -> clause l /\ forall fulfilled, holds fulfilled l <-> means fulfilled h e) /\
    (paren_free e -> forall fulfilled, holds fulfilled l <-> means fulfilled h e).
Proof.
  intros e. induction e as [i|conj a IHa b IHb]; intros h F V; cbn [atoms] in F.
  - inversion F as [|? ? L _]; subst. destruct (nth_error h i) as [w|] eqn:E; [|apply nth_error_None in E; lia].
    assert (H : forall fulfilled, holds fulfilled [w] <-> means fulfilled h (Atom i)).
    { intros fulfilled. rewrite holds_one. cbn [means]. rewrite E. split; [eauto|]. intros [w' [X S]]. inversion X; subst. exact S. }
    exists h, (One i), [w]. split; [reflexivity|]. split; [intros j v X; exact X|].
    split; [constructor; [exact E|constructor]|]. split; [discriminate|]. split; [repeat constructor; intros []|].
    split; [eauto|]. split; [intros C; exfalso; apply C; exact I|]. split; [|auto].
    intros _. split; [exists w, []; auto|exact H].
  - apply Forall_app in F. destruct F as [Fa Fb]. destruct V as [Va [Vb At]].
    destruct (IHa h Fa Va) as [h1 [oa [la [Ra [Ua [Ca [Na [Da [Aa [Ma [Ka Pa]]]]]]]]]]].
    assert (Fb1 : Forall (fun i => i < length h1) (atoms b)).
    { revert Fb. apply Forall_impl. intros i L. pose proof (untouched_length _ _ Ua). lia. }
    destruct (IHb h1 Fb1 Vb) as [h2 [ob [lb [Rb [Ub [Cb [Nb [Db [Ab [Mb [Kb Pb]]]]]]]]]]].
    assert (FOa : oa <> Foreign). { destruct a as [i0|? ? ?]; [destruct (Aa I) as [i ->]|destruct (Ma (fun x => x)) as [r ->]]; discriminate. }
    assert (FOb : ob <> Foreign). { destruct b as [i0|? ? ?]; [destruct (Ab I) as [i ->]|destruct (Mb (fun x => x)) as [r ->]]; discriminate. }
    destruct (py_op_spec conj h2 oa ob la lb (with_first conj lb)) as [h3 [r [R3 [U3 [C3 [_ D3]]]]]];
      [eapply contents_untouched; eassumption|exact Cb|exact FOa|exact FOb| |exact Nb| |].
    { destruct At as [At|At]; [destruct (Aa At) as [i ->]|destruct (Ab At) as [i ->]]; eauto. }
    { apply recompared_nodup; [exact Db|]. eapply forall2_length'. exact Cb. }
    exists h3, (Many r), (la ++ with_first conj lb).
    assert (MB : forall fulfilled, means fulfilled h1 b <-> means fulfilled h b) by (intros; apply means_untouched; assumption).
    split; [cbn [run]; rewrite Ra; cbn [bind]; rewrite Rb; cbn [bind]; exact R3|].
    split; [eapply untouched_trans; [exact Ua|]; eapply untouched_trans; eassumption|].
    split; [exact C3|]. split; [destruct la; [contradiction|discriminate]|]. split; [apply D3; assumption|].
    split; [intros []|]. split; [eauto|]. destruct conj; cbn [conjunctive paren_free means].
    + assert (X : conjunctive a /\ conjunctive b -> clause (la ++ with_first true lb) /\
        forall fulfilled, holds fulfilled (la ++ with_first true lb) <-> means fulfilled h a /\ means fulfilled h b).
      { intros [Ga Gb]. destruct (Ka Ga) as [CLa Ha]. destruct (Kb Gb) as [CLb Hb]. split; [apply (and_pure (fun _ _ _ => True) la lb CLa CLb)|].
        intros fulfilled. rewrite (proj1 (and_pure fulfilled la lb CLa CLb)), Ha, Hb, MB. reflexivity. }
      split; [exact X|]. intros G. apply X. exact G.
    + split; [intros []|]. intros [Ga Gb] fulfilled. rewrite or_meaning by assumption. rewrite Pa, Pb, MB by assumption. reflexivity.
Qed.
Lemma evaluable_dec : forall e, evaluable e \/ ~ evaluable e.
Proof.
  induction e as [i|c a IHa b IHb]; [left; exact I|]. cbn [evaluable].
  assert (D : forall x, atomic x \/ ~ atomic x) by (intros [?|? ? ?]; simpl; tauto).
  destruct (D a); destruct (D b); tauto.
Qed.
Theorem run_error : forall e h, Forall (fun i => i < length h) (atoms e) -> ~ evaluable e -> run h e = Err TypeError.
Proof.
  induction e as [i|conj a IHa b IHb]; intros h F V; [exfalso; apply V; exact I|].
  cbn [atoms run] in *. apply Forall_app in F. destruct F as [Fa Fb].
  destruct (evaluable_dec a) as [Va|Va]; [|rewrite IHa by assumption; reflexivity].
  destruct (run_ok a h Fa Va) as [h1 [oa [la [Ra [Ua [Ca [Na [Da [Aa [Ma [Ka Pa]]]]]]]]]]]. rewrite Ra. cbn [bind].
  assert (Fb1 : Forall (fun i => i < length h1) (atoms b)).
  { revert Fb. apply Forall_impl. intros i L. pose proof (untouched_length _ _ Ua). lia. }
  destruct (evaluable_dec b) as [Vb|Vb]; [|rewrite IHb by assumption; reflexivity].
  destruct (run_ok b h1 Fb1 Vb) as [h2 [ob [lb [Rb [Ub [Cb [Nb [Db [Ab [Mb [Kb Pb]]]]]]]]]]]. rewrite Rb. cbn [bind].
  assert (N1 : ~ atomic a) by (cbn [evaluable] in V; tauto). assert (N2 : ~ atomic b) by (cbn [evaluable] in V; tauto).
  destruct (Ma N1) as [r1 ->]. destruct (Mb N2) as [r2 ->]. reflexivity.
Qed.
