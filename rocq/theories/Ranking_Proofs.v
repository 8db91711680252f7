(** Proofs about the order of prototypes. *)
From Coq Require Import ZArith NArith List Bool String Lia Permutation Sorting.Sorted.
From Verif Require Import Common Dict Order Ranking_Model Ranking_Spec.
Import ListNotations.
Local Open Scope string_scope.
Local Open Scope list_scope.

(** ** Texts *)
Lemma text_lt_cmp : forall a b, text_lt a b <-> str_cmp a b = Lt.
Proof.
  unfold str_cmp. induction a as [|x a IH]; intros [|y b]; simpl.
  - split; [|discriminate]. intros [[c [r E]]|[p [x [y [r [s [E _]]]]]]]; [discriminate|]. destruct p; discriminate.
  - split; [reflexivity|]. intros _. left. exists y, b. reflexivity.
  - split; [|discriminate]. intros [[c [r E]]|[p [x' [y [r [s [_ [E _]]]]]]]]; [discriminate|]. destruct p; discriminate.
  - destruct (N.compare_spec x y) as [->|L|L].
    + rewrite <- IH. split.
      * intros [[c [r E]]|[p [x' [y' [r [s [E [F G]]]]]]]].
        -- inversion E; subst. left. eauto.
        -- destruct p as [|q p]; cbn in E, F; inversion E; inversion F; subst; [lia|]. right. exists p, x', y', r, s. auto.
      * intros [[c [r E]]|[p [x' [y' [r [s [E [F G]]]]]]]]; subst.
        -- left. exists c, r. reflexivity.
        -- right. exists (y :: p), x', y', r, s. auto.
    + split; [reflexivity|]. intros _. right. exists [], x, y, a, b. auto.
    + split; [|discriminate]. intros [[c [r E]]|[p [x' [y' [r [s [E [F G]]]]]]]].
      * inversion E; subst. lia.
      * destruct p as [|q p]; cbn in E, F; inversion E; inversion F; subst; lia.
Qed.
Lemma ltb_text : forall a b, str_ltb a b = true <-> text_lt a b.
Proof. intros a b. rewrite text_lt_cmp. unfold str_ltb. destruct (str_cmp a b); split; congruence. Qed.
Lemma text_irrefl : forall a, ~ text_lt a a.
Proof. intros a. rewrite text_lt_cmp, (cmp_refl _ str_ordered). discriminate. Qed.
Lemma text_trans : forall a b c, text_lt a b -> text_lt b c -> text_lt a c.
Proof. intros a b c. rewrite !text_lt_cmp. apply (cmp_trans _ str_ordered). Qed.
Lemma text_total : forall a b, text_lt a b \/ a = b \/ text_lt b a.
Proof.
  intros a b. rewrite !text_lt_cmp, (cmp_sym _ str_ordered a b), <- (cmp_eq _ str_ordered). destruct (str_cmp a b); simpl; auto.
Qed.
(** ** Strict total orders, combined *)
Lemma text_strict : strict text_lt.
Proof. split; [exact text_irrefl|exact text_trans|exact text_total]. Qed.
Lemma lex_strict : forall {A B} (R : A -> A -> Prop) (S : B -> B -> Prop), strict R -> strict S ->
  strict (fun p q : A * B => R (fst p) (fst q) \/ fst p = fst q /\ S (snd p) (snd q)).
Proof.
  intros A B R S [R1 R2 R3] [S1 S2 S3]. split.
  - intros [a b]; simpl. intros [H|[_ H]]; [exact (R1 _ H)|exact (S1 _ H)].
  - intros [a b] [c d] [e f]; simpl. intros [H|[-> H]] [K|[<- K]]; eauto.
  - intros [a b] [c d]; simpl. destruct (R3 a c) as [H|[->|H]]; auto. destruct (S3 b d) as [H|[->|H]]; auto.
Qed.
Lemma order_strict : strict order_lt.
Proof.
  split.
  - intros [a|]; simpl; [apply text_irrefl|tauto].
  - intros [a|] [b|] [c|]; simpl; try tauto. apply text_trans.
  - intros [a|] [b|]; simpl; auto. destruct (text_total a b) as [H|[->|H]]; auto.
Qed.
Lemma named_strict : strict named_lt.
Proof. exact (lex_strict text_lt text_lt text_strict text_strict). Qed.
Lemma earlier_strict : strict earlier.
Proof.
  pose proof (lex_strict _ _ named_strict (lex_strict _ _ named_strict (lex_strict _ _ order_strict (lex_strict _ _ text_strict text_strict)))) as [I T C].
  set (f := fun r => (r_group r, (r_subgroup r, (r_order r, (r_sort r, r_name r))))). split.
  - intros a. exact (I (f a)).
  - intros a b c. exact (T (f a) (f b) (f c)).
  - intros a b. destruct (C (f a) (f b)) as [H|[H|H]]; [left; exact H| |right; right; exact H]. right. left.
    destruct a, b. unfold f in H. cbn in H. congruence.
Qed.

(** ** Comparing keys *)
Definition rank_of (k : key) : rank := mkR (k_group k) (k_subgroup k) (k_order k) (k_sort k) (k_name k).
Definition proper (k : key) : Prop := k_missing k = match k_order k with None => true | Some _ => false end.
Lemma pair_eqb_eq : forall a b, pair_eqb a b = true <-> a = b.
Proof.
  intros [a b] [c d]. unfold pair_eqb. simpl. rewrite andb_true_iff, !pystr_eqb_eq. split; [intros [-> ->]; reflexivity|intros E; inversion E; auto].
Qed.
Lemma pystr_neq : forall a b, pystr_eqb a b = false -> a <> b.
Proof. intros a b E ->. rewrite pystr_eqb_refl in E. discriminate. Qed.
Lemma pair_ltb_named : forall a b, pair_ltb a b = true <-> named_lt a b.
Proof.
  intros [a b] [c d]. unfold pair_ltb, named_lt. simpl. destruct (pystr_eqb a c) eqn:E; rewrite ltb_text.
  - apply pystr_eqb_eq in E. subst. split; [auto|]. intros [H|[_ H]]; [destruct (text_irrefl _ H)|exact H].
  - split; [auto|]. intros [H|[-> H]]; [exact H|]. rewrite pystr_eqb_refl in E. discriminate.
Qed.
Theorem key_lt_spec : forall a b, proper a -> proper b -> exists r, key_lt a b = Ok r /\ (r = true <-> earlier (rank_of a) (rank_of b)).
Proof.
  intros [ga sa ma oa na xa] [gb sb mb ob nb xb] Pa Pb. unfold proper, key_lt, earlier, rank_of in *. cbn [k_group k_subgroup k_missing k_order k_sort k_name r_group r_subgroup r_order r_sort r_name] in *.
  pose proof (s_irrefl _ named_strict) as NI. pose proof text_irrefl as TI. pose proof (s_irrefl _ order_strict) as OI.
  destruct (pair_eqb ga gb) eqn:E1; cbn [negb].
  2:{ eexists. split; [reflexivity|]. rewrite pair_ltb_named. split; [auto|]. intros [H|[H _]]; [exact H|]. apply pair_eqb_eq in H. congruence. }
  apply pair_eqb_eq in E1. subst gb. destruct (pair_eqb sa sb) eqn:E2; cbn [negb].
  2:{ eexists. split; [reflexivity|]. rewrite pair_ltb_named. split; [auto|]. intros [H|[_ [H|[H _]]]]; [destruct (NI _ H)|exact H|]. apply pair_eqb_eq in H. congruence. }
  apply pair_eqb_eq in E2. subst sb.
  assert (R : forall P : Prop, (named_lt ga ga \/ ga = ga /\ (named_lt sa sa \/ sa = sa /\ P)) <-> P).
  { intros P. split; [|tauto]. intros [H|[_ [H|[_ H]]]]; [destruct (NI _ H)|destruct (NI _ H)|exact H]. }
  destruct oa as [x|], ob as [y|]; subst ma mb; cbn [Bool.eqb negb andb opt_eqb opt_lt order_lt].
  - destruct (pystr_eqb x y) eqn:E3; cbn [negb].
    2:{ eexists. split; [reflexivity|]. rewrite R, ltb_text. split; [auto|]. intros [H|[H _]]; [exact H|]. inversion H; subst. rewrite pystr_eqb_refl in E3. discriminate. }
    apply pystr_eqb_eq in E3. subst y. destruct (pystr_eqb na nb) eqn:E4; cbn [negb].
    + apply pystr_eqb_eq in E4. subst nb. eexists. split; [reflexivity|]. rewrite R, ltb_text. split; [auto|].
      intros [H|[_ [H|[_ H]]]]; [destruct (TI _ H)|destruct (TI _ H)|exact H].
    + eexists. split; [reflexivity|]. rewrite R, ltb_text. split; [auto|].
      intros [H|[_ [H|[H _]]]]; [destruct (TI _ H)|exact H|]. subst. rewrite pystr_eqb_refl in E4. discriminate.
  - eexists. split; [reflexivity|]. rewrite R. tauto.
  - eexists. split; [reflexivity|]. rewrite R. split; [discriminate|]. intros [[]|[H _]]. discriminate.
  - destruct (pystr_eqb na nb) eqn:E4; cbn [negb].
    + apply pystr_eqb_eq in E4. subst nb. eexists. split; [reflexivity|]. rewrite R, ltb_text. split; [auto|].
      intros [[]|[_ [H|[_ H]]]]; [destruct (TI _ H)|exact H].
    + eexists. split; [reflexivity|]. rewrite R, ltb_text. split; [auto|].
      intros [[]|[_ [H|[H _]]]]; [exact H|]. subst. rewrite pystr_eqb_refl in E4. discriminate.
Qed.

(** ** Sorting *)
Definition not_after (a b : rank) : Prop := ~ earlier b a.
Lemma insert_ok : forall x l, proper x -> Forall proper l -> StronglySorted not_after (map rank_of l) ->
  exists l', insert x l = Ok l' /\ Permutation (x :: l) l' /\ StronglySorted not_after (map rank_of l').
Proof.
  intros x. induction l as [|y l IH]; intros Px Pl S; cbn [insert].
  - exists [x]. repeat split; auto. repeat constructor.
  - pose proof (Forall_inv Pl) as Py. pose proof (Forall_inv_tail Pl) as Pl2. cbn [map] in S. inversion S as [|? ? S1 S2]; subst.
    destruct (key_lt_spec y x Py Px) as [b [E B]]. rewrite E. cbn [bind]. destruct b.
    + destruct (IH Px Pl2 S1) as [l' [E' [P' S']]]. rewrite E'. cbn [bind]. exists (y :: l'). split; [reflexivity|]. split.
      * rewrite perm_swap. constructor. exact P'.
      * cbn [map]. constructor; [exact S'|]. rewrite Forall_forall. intros r I. apply in_map_iff in I. destruct I as [z [<- I]].
        apply (Permutation_in _ (Permutation_sym P')) in I. destruct I as [<-|I].
        -- intros H. apply (s_irrefl _ earlier_strict (rank_of y)). eapply (s_trans _ earlier_strict); [apply B; reflexivity|exact H].
        -- rewrite Forall_forall in S2. apply S2. apply in_map. exact I.
    + exists (x :: y :: l). split; [reflexivity|]. split; [reflexivity|]. cbn [map]. constructor; [exact S|].
      assert (N : not_after (rank_of x) (rank_of y)) by (intros H; apply B in H; discriminate).
      constructor; [exact N|]. rewrite Forall_forall in *. intros r I H. specialize (S2 r I).
      destruct (s_total _ earlier_strict (rank_of y) r) as [K|[<-|K]]; [|contradiction|contradiction].
      apply N. eapply (s_trans _ earlier_strict); eauto.
Qed.
Lemma sort_ok : forall l, Forall proper l -> exists l', sort l = Ok l' /\ Permutation l l' /\ StronglySorted not_after (map rank_of l').
Proof.
  induction l as [|x l IH]; intros F; cbn [sort]; [exists []; repeat split; constructor|].
  destruct (IH (Forall_inv_tail F)) as [l' [E [P S]]]. rewrite E. cbn [bind].
  assert (F' : Forall proper l'). { rewrite Forall_forall in *. intros k I. apply F. right. apply (Permutation_in _ (Permutation_sym P)). exact I. }
  destruct (insert_ok x l' (Forall_inv F) F' S) as [l2 [E2 [P2 S2]]]. exists l2. split; [exact E2|]. split; [|exact S2].
  rewrite P. exact P2.
Qed.
(** A sorted arrangement is unique. *)
Lemma sorted_unique : forall a b, Permutation a b -> StronglySorted not_after a -> StronglySorted not_after b -> a = b.
Proof.
  induction a as [|x a IH]; intros b P A B.
  - apply Permutation_nil in P. congruence.
  - destruct b as [|y b]; [apply Permutation_sym, Permutation_nil in P; discriminate|].
    inversion A as [|? ? A1 A2]; inversion B as [|? ? B1 B2]; subst. rewrite Forall_forall in A2, B2.
    assert (E : x = y).
    { assert (I1 : In y (x :: a)) by (apply (Permutation_in _ (Permutation_sym P)); left; reflexivity).
      assert (I2 : In x (y :: b)) by (apply (Permutation_in _ P); left; reflexivity).
      destruct I1 as [I1|I1]; [exact I1|]. destruct I2 as [I2|I2]; [auto|]. specialize (A2 y I1). specialize (B2 x I2).
      destruct (s_total _ earlier_strict x y) as [K|[K|K]]; [contradiction|exact K|contradiction]. }
    subst y. f_equal. apply IH; auto. exact (Permutation_cons_inv P).
Qed.

(** ** Keys *)
Section Tables.
  Variable items : table proto.
  Variable subgroups : table subgroup.
  Variable groups : table group.
  Notation key_of := (key_of items subgroups groups).
  Notation ranked := (ranked items subgroups groups).
  Lemma need_ok : forall {A} (o : option A) v, need o = Ok v <-> o = Some v.
  Proof. intros A [a|] v; simpl; split; congruence. Qed.
  Lemma need_err : forall {A} (o : option A) e, need o = Err e -> e = KeyError.
  Proof. intros A [a|] e; simpl; congruence. Qed.
  Lemma associated_ok : forall o a, associated items o = Ok a <-> stands_for items o a.
  Proof.
    intros o a. unfold associated. destruct (p_mined o) as [r|] eqn:M.
    - destruct r as [|c r].
      + split; [intros E; inversion E; subst; apply sf_mined_nothing; exact M|]. intros S. inversion S; subst; congruence.
      + split; [intros E; inversion E; subst; apply sf_mined; [exact M|discriminate]|]. intros S. inversion S; subst; congruence.
    - destruct (p_name o) as [n|] eqn:N; cbn [need bind].
      + destruct (find items n) as [it|] eqn:F.
        * destruct n as [|c n].
          -- split; [intros E; inversion E; subst; eapply sf_nameless; eauto|]. intros S. inversion S; subst; congruence.
          -- split; [intros E; inversion E; subst; eapply sf_item; eauto; discriminate|]. intros S. inversion S; subst; congruence.
        * split; [intros E; inversion E; subst; eapply sf_none; eauto|]. intros S. inversion S; subst; congruence.
      + split; [discriminate|]. intros S. inversion S; subst; congruence.
  Qed.
  Ltac step H := match type of H with
    | context [match need ?o with _ => _ end] => let E := fresh "E" in destruct (need o) eqn:E; [apply need_ok in E|discriminate H]; cbn [bind] in H
    end.
  Lemma bind_need : forall {A B} (o : option A) (f : A -> result B) v, bind (need o) f = Ok v <-> exists x, o = Some x /\ f x = Ok v.
  Proof.
    intros A B [x|] f v; simpl; split.
    - intros E. eauto.
    - intros [y [E F]]. inversion E; subst. exact F.
    - discriminate.
    - intros [y [E _]]. discriminate.
  Qed.
  Lemma bind_ok' : forall {A B} (r : result A) (f : A -> result B) v, bind r f = Ok v <-> exists x, r = Ok x /\ f x = Ok v.
  Proof.
    intros A B [x|e] f v; simpl; split.
    - intros E. eauto.
    - intros [y [E F]]. inversion E; subst. exact F.
    - discriminate.
    - intros [y [E _]]. discriminate.
  Qed.
  Definition tail (o : proto) (n : pystr) (order : option pystr) (sg : subgroup) : result key :=
    let* gn := need (s_group sg) in
    let* g := need (find groups gn) in
    let* name := need (p_name o) in
    let* so := need (s_order sg) in
    let* sn := need (s_name sg) in
    let* go := need (g_order g) in
    let* gname := need (g_name g) in
    Ok (mkK (go, gname) (so, sn) (match order with None => true | Some _ => false end) order n name).
  Lemma tail_ok : forall o n order sg k, tail o n order sg = Ok k <->
    (proper k /\ k_sort k = n /\ k_order k = order /\ p_name o = Some (k_name k) /\
     s_order sg = Some (fst (k_subgroup k)) /\ s_name sg = Some (snd (k_subgroup k)) /\
     exists gn g, s_group sg = Some gn /\ find groups gn = Some g /\ g_order g = Some (fst (k_group k)) /\ g_name g = Some (snd (k_group k))).
  Proof.
    intros o n order sg k. unfold tail. split.
    - intros H. apply bind_need in H. destruct H as [gn [E1 H]]. apply bind_need in H. destruct H as [g [E2 H]]. apply bind_need in H. destruct H as [nm [E3 H]].
      apply bind_need in H. destruct H as [so [E4 H]]. apply bind_need in H. destruct H as [sn [E5 H]]. apply bind_need in H. destruct H as [go [E6 H]].
      apply bind_need in H. destruct H as [gname [E7 H]]. inversion H; subst k. unfold proper. cbn. repeat (split; [assumption || reflexivity|]). exists gn, g. auto.
    - intros [P [<- [<- [E3 [E4 [E5 [gn [g [E1 [E2 [E6 E7]]]]]]]]]]]. rewrite E1. cbn [need bind]. rewrite E2. cbn [need bind]. rewrite E3, E4, E5, E6, E7.
      cbn [need bind]. f_equal. destruct k as [[a b] [c d] m od sn nm]. unfold proper in P. cbn in *. congruence.
  Qed.
  Lemma key_of_eq : forall o, key_of o = bind (associated items o) (fun a => match a with
    | Some i => bind (need (find items i)) (fun it => bind (need (p_name it)) (fun n => bind (item_subgroup subgroups it)
        (fun s => tail o n (first_of (p_order it) (p_order o)) s)))
    | None => bind (need (p_name o)) (fun n => bind (own_subgroup subgroups o) (fun s => tail o n (p_order o) s))
    end).
  Proof.
    intros o. unfold Ranking_Model.key_of, tail. destruct (associated items o) as [[i|]|]; cbn [bind]; [| |reflexivity].
    - destruct (find items i) as [it|]; cbn [need bind]; [|reflexivity]. destruct (p_name it); cbn [need bind]; [|reflexivity].
      destruct (item_subgroup subgroups it); cbn [bind]; [|reflexivity]. unfold first_of. destruct (p_order it); reflexivity.
    - destruct (p_name o); cbn [need bind]; [|reflexivity]. destruct (own_subgroup subgroups o); reflexivity.
  Qed.
  Lemma item_sub : forall it s, item_subgroup subgroups it = Ok s <-> find subgroups (match p_subgroup it with Some s => s | None => str "other" end) = Some s.
  Proof. intros it s. unfold item_subgroup. destruct (p_subgroup it); apply need_ok. Qed.
  Theorem key_of_ranked : forall o k, key_of o = Ok k <-> proper k /\ ranked o (rank_of k).
  Proof.
    intros o k. rewrite key_of_eq. unfold Ranking_Spec.ranked, rank_of. cbn [r_group r_subgroup r_order r_sort r_name]. split.
    - intros H. apply bind_ok' in H. destruct H as [a [A H]]. apply associated_ok in A. destruct a as [i|].
      + apply bind_need in H. destruct H as [it [E1 H]]. apply bind_need in H. destruct H as [n [E2 H]]. apply bind_ok' in H. destruct H as [s [E3 H]].
        apply item_sub in E3. apply tail_ok in H. destruct H as [P [<- [Eo [N [Q1 [Q2 [gn [g Q3]]]]]]]]. split; [exact P|]. split; [exact N|].
        do 4 eexists. split; [rewrite Eo; eapply sa_item; eauto|]. split; [exact E3|]. split; [exact Q1|]. split; [exact Q2|]. exact Q3.
      + apply bind_need in H. destruct H as [n [E2 H]]. apply bind_ok' in H. destruct H as [s [E3 H]].
        apply tail_ok in H. destruct H as [P [<- [Eo [N [Q1 [Q2 [gn [g Q3]]]]]]]]. split; [exact P|]. split; [exact N|].
        unfold own_subgroup in E3. destruct (p_subgroup o) as [sg|] eqn:SG.
        * apply need_ok in E3. do 4 eexists. split; [rewrite Eo; eapply sa_own; eauto|]. split; [exact E3|]. split; [exact Q1|]. split; [exact Q2|]. exact Q3.
        * apply bind_need in E3. destruct E3 as [t [T E3]]. exists (if pystr_eqb t (str "fluid") then str "fluid" else str "other"), s, gn, g.
          split; [rewrite Eo; eapply sa_plain; eauto|]. split; [destruct (pystr_eqb t (str "fluid")); apply need_ok in E3; exact E3|]. split; [exact Q1|]. split; [exact Q2|]. exact Q3.
    - intros [P [N [sub [s [gn [g [SA [FS [Q1 [Q2 Q3]]]]]]]]]]. apply bind_ok'.
      inversion SA as [i it n S F Nn E1 E2 E3|n sg S Nn SG E1 E2 E3|n t S Nn SG T E1 E2 E3].
      + exists (Some i). split; [apply associated_ok; exact S|]. apply bind_need. exists it. split; [exact F|]. apply bind_need. exists n. split; [congruence|].
        apply bind_ok'. exists s. split; [apply item_sub; first [rewrite E3|rewrite <- E3]; exact FS|]. apply tail_ok. repeat (split; [first [assumption|congruence]|]). exists gn, g. exact Q3.
      + exists None. split; [apply associated_ok; exact S|]. apply bind_need. exists n. split; [congruence|]. apply bind_ok'. exists s. split.
        * unfold own_subgroup. rewrite SG. apply need_ok. congruence.
        * apply tail_ok. repeat (split; [first [assumption|congruence]|]). exists gn, g. exact Q3.
      + exists None. split; [apply associated_ok; exact S|]. apply bind_need. exists n. split; [congruence|]. apply bind_ok'. exists s. split.
        * unfold own_subgroup. rewrite SG, T. cbn [need bind]. destruct (pystr_eqb t (str "fluid")); apply need_ok; congruence.
        * apply tail_ok. repeat (split; [first [assumption|congruence]|]). exists gn, g. exact Q3.
  Qed.
  Lemma bind_err_need : forall {A B} (o : option A) (f : A -> result B) e, bind (need o) f = Err e -> (forall x e, f x = Err e -> e = KeyError) -> e = KeyError.
  Proof. intros A B [x|] f e H F; cbn [need bind] in H; [exact (F x e H)|inversion H; reflexivity]. Qed.
  Lemma key_of_err : forall o e, key_of o = Err e -> e = KeyError.
  Proof.
    intros o e H. rewrite key_of_eq in H.
    assert (TE : forall n od s e, tail o n od s = Err e -> e = KeyError).
    { intros n od s e'. unfold tail. intros K. repeat (apply bind_err_need in K; [exact K|clear K; intros ? ? K]). discriminate. }
    destruct (associated items o) as [a|x] eqn:A; cbn [bind] in H.
    - destruct a as [i|].
      + apply bind_err_need in H; [exact H|]. intros it e1 H1. apply bind_err_need in H1; [exact H1|]. intros n e2 H2.
        destruct (item_subgroup subgroups it) eqn:IS; cbn [bind] in H2; [exact (TE _ _ _ _ H2)|]. inversion H2; subst.
        unfold item_subgroup in IS. destruct (p_subgroup it); exact (need_err _ _ IS).
      + apply bind_err_need in H; [exact H|]. intros n e2 H2.
        destruct (own_subgroup subgroups o) eqn:IS; cbn [bind] in H2; [exact (TE _ _ _ _ H2)|]. inversion H2; subst.
        unfold own_subgroup in IS. destruct (p_subgroup o); [exact (need_err _ _ IS)|]. apply bind_err_need in IS; [exact IS|].
        intros t e3 H3. destruct (pystr_eqb t (str "fluid")); exact (need_err _ _ H3).
    - inversion H; subst. unfold associated in A. destruct (p_mined o); [discriminate|]. apply bind_err_need in A; [exact A|].
      intros n e1 H1. destruct (find items n); discriminate.
  Qed.
  Lemma ranked_proper : forall r, exists k, rank_of k = r /\ proper k.
  Proof.
    intros [g s o n x]. exists (mkK g s (match o with None => true | Some _ => false end) o n x). split; reflexivity.
  Qed.
  Lemma ranked_fun : forall o r r', ranked o r -> ranked o r' -> r = r'.
  Proof.
    intros o r r' A B. destruct (ranked_proper r) as [k [<- P]]. destruct (ranked_proper r') as [k' [<- P']].
    assert (E : key_of o = Ok k) by (apply key_of_ranked; auto). assert (E' : key_of o = Ok k') by (apply key_of_ranked; auto). congruence.
  Qed.
  Lemma keys_ok : forall l ks, keys_of items subgroups groups l = Ok ks -> Forall proper ks /\ Forall2 ranked l (map rank_of ks).
  Proof.
    induction l as [|o l IH]; intros ks E; cbn [keys_of] in E; [inversion E; split; constructor|].
    destruct (key_of o) as [k|] eqn:K; [|discriminate]. cbn [bind] in E. destruct (keys_of items subgroups groups l) as [r|]; [|discriminate].
    cbn [bind] in E. inversion E; subst. destruct (IH r eq_refl) as [A B]. apply key_of_ranked in K. split; constructor; tauto.
  Qed.
  Lemma keys_total : forall l rs, Forall2 ranked l rs -> exists ks, keys_of items subgroups groups l = Ok ks /\ map rank_of ks = rs.
  Proof.
    intros l rs F. induction F as [|o r l rs A F [ks [E M]]]; [exists []; auto|]. destruct (ranked_proper r) as [k [R P]].
    exists (k :: ks). cbn [keys_of]. assert (K : key_of o = Ok k) by (apply key_of_ranked; rewrite R; auto). rewrite K, E. cbn [bind]. split; [reflexivity|]. cbn [map]. congruence.
  Qed.
  Lemma keys_err : forall l e, keys_of items subgroups groups l = Err e -> e = KeyError /\ exists o, In o l /\ forall r, ~ ranked o r.
  Proof.
    induction l as [|o l IH]; intros e E; cbn [keys_of] in E; [discriminate|]. destruct (key_of o) as [k|x] eqn:K; cbn [bind] in E.
    - destruct (keys_of items subgroups groups l) as [r|y]; [discriminate|]. cbn [bind] in E. inversion E; subst. destruct (IH e eq_refl) as [A [o' [I N]]].
      split; [exact A|]. exists o'. simpl. auto.
    - inversion E; subst. split; [exact (key_of_err o e K)|]. exists o. split; [left; reflexivity|]. intros r R.
      destruct (ranked_proper r) as [k [<- P]]. assert (K' : key_of o = Ok k) by (apply key_of_ranked; auto). congruence.
  Qed.
End Tables.

Theorem order_sorted : forall l items subgroups groups out, get_order l items subgroups groups = Ok out ->
  exists rs s, Forall2 (ranked items subgroups groups) l rs /\ Permutation rs s /\ StronglySorted (fun a b => ~ earlier b a) s /\ out = map r_name s.
Proof.
  intros l items subgroups groups out E. unfold get_order in E. destruct (keys_of items subgroups groups l) as [ks|] eqn:K; [|discriminate]. cbn [bind] in E.
  destruct (keys_ok items subgroups groups l ks K) as [P F]. destruct (sort_ok ks P) as [s [Es [Ps S]]]. rewrite Es in E. cbn [bind] in E. inversion E; subst.
  exists (map rank_of ks), (map rank_of s). split; [exact F|]. split; [apply Permutation_map; exact Ps|]. split; [exact S|]. rewrite map_map. reflexivity.
Qed.
Theorem order_complete : forall l items subgroups groups rs s, Forall2 (ranked items subgroups groups) l rs -> Permutation rs s ->
  StronglySorted (fun a b => ~ earlier b a) s -> get_order l items subgroups groups = Ok (map r_name s).
Proof.
  intros l items subgroups groups rs s F P S. destruct (keys_total items subgroups groups l rs F) as [ks [K M]].
  unfold get_order. rewrite K. cbn [bind]. destruct (keys_ok items subgroups groups l ks K) as [Pr _]. destruct (sort_ok ks Pr) as [t [Et [Pt St]]].
  rewrite Et. cbn [bind]. f_equal. assert (E : map rank_of t = s).
  { apply sorted_unique; [|exact St|exact S]. rewrite <- (Permutation_map rank_of Pt), M. exact P. }
  rewrite <- E, map_map. reflexivity.
Qed.
Theorem order_names : forall l items subgroups groups out, get_order l items subgroups groups = Ok out ->
  Permutation (map p_name l) (map Some out).
Proof.
  intros l items subgroups groups out E. apply order_sorted in E. destruct E as [rs [s [F [P [_ ->]]]]].
  assert (X : map p_name l = map Some (map r_name rs)). { clear - F. induction F as [|o r l rs [N _] F IH]; [reflexivity|]. cbn [map]. rewrite N, IH. reflexivity. }
  rewrite X. apply Permutation_map, Permutation_map. exact P.
Qed.
Theorem order_iff : forall l items subgroups groups,
  ((exists out, get_order l items subgroups groups = Ok out) <-> (forall o, In o l -> exists r, ranked items subgroups groups o r)) /\
  (forall e, get_order l items subgroups groups = Err e -> e = KeyError).
Proof.
  intros l items subgroups groups. split; [split|].
  - intros [out E] o I. apply order_sorted in E. destruct E as [rs [_ [F _]]]. clear - F I. induction F as [|o' r l rs A F IH]; [destruct I|].
    destruct I as [<-|I]; eauto.
  - intros H. assert (X : exists rs, Forall2 (ranked items subgroups groups) l rs).
    { clear - H. induction l as [|o l IH]; [exists []; constructor|]. destruct (H o (or_introl eq_refl)) as [r R].
      destruct IH as [rs F]; [intros x I; apply H; right; exact I|]. exists (r :: rs). constructor; assumption. }
    destruct X as [rs F]. destruct (keys_total items subgroups groups l rs F) as [ks [K _]]. unfold get_order. rewrite K. cbn [bind].
    destruct (keys_ok items subgroups groups l ks K) as [Pr _]. destruct (sort_ok ks Pr) as [t [Et _]]. rewrite Et. cbn [bind]. eauto.
  - intros e E. unfold get_order in E. destruct (keys_of items subgroups groups l) as [ks|x] eqn:K; cbn [bind] in E.
    + destruct (keys_ok items subgroups groups l ks K) as [Pr _]. destruct (sort_ok ks Pr) as [t [Et _]]. rewrite Et in E. discriminate.
    + inversion E; subst. exact (proj1 (keys_err items subgroups groups l e K)).
Qed.
Theorem missing_last : forall s1 a s2 b s3, StronglySorted (fun x y => ~ earlier y x) (s1 ++ a :: s2 ++ b :: s3) ->
  r_group a = r_group b -> r_subgroup a = r_subgroup b -> r_order a = None -> r_order b = None.
Proof.
  intros s1 a s2 b s3 S G U O. induction s1 as [|x s1 IH]; cbn [app] in S; inversion S as [|? ? S1 S2]; subst; [|auto].
  rewrite Forall_forall in S2. assert (I : In b (s2 ++ b :: s3)) by (apply in_app_iff; right; left; reflexivity). specialize (S2 b I).
  destruct (r_order b) as [t|] eqn:B; [|reflexivity]. exfalso. apply S2. unfold earlier. rewrite G, U, O, B. right. split; [reflexivity|].
  right. split; [reflexivity|]. left. exact Logic.I.
Qed.
Theorem key_never_fails : forall items subgroups groups o1 o2 k1 k2,
  key_of items subgroups groups o1 = Ok k1 -> key_of items subgroups groups o2 = Ok k2 -> exists r, key_lt k1 k2 = Ok r.
Proof.
  intros items subgroups groups o1 o2 k1 k2 A B. apply key_of_ranked in A, B. destruct (key_lt_spec k1 k2) as [r [E _]]; [tauto|tauto|]. eauto.
Qed.
