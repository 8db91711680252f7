(** Python's [sorted] with a key: the stable sort, and the orders of strings and
    tuples used as keys. *)
From Coq Require Import ZArith NArith List Bool Lia Permutation Sorting.Sorted.
From Verif Require Import Common.
Import ListNotations.

(** Three-way comparison of lists as Python compares lists, tuples and strings:
    lexicographic, a proper prefix being smaller. *)
Fixpoint list_cmp {A} (cmp : A -> A -> comparison) (a b : list A) : comparison :=
  match a, b with
  | [], [] => Eq
  | [], _ :: _ => Lt
  | _ :: _, [] => Gt
  | x :: a', y :: b' => match cmp x y with Eq => list_cmp cmp a' b' | c => c end
  end.
Definition str_cmp : pystr -> pystr -> comparison := list_cmp N.compare.
Definition tuple_cmp : list Z -> list Z -> comparison := list_cmp Z.compare.
Definition pair_cmp {A B} (f : A -> A -> comparison) (g : B -> B -> comparison) (p q : A * B) : comparison :=
  match f (fst p) (fst q) with Eq => g (snd p) (snd q) | c => c end.
(** [False < True]. *)
Definition bool_cmp (a b : bool) : comparison :=
  match a, b with false, true => Lt | true, false => Gt | _, _ => Eq end.

(** A comparison is a total order. *)
Record ordered {A} (cmp : A -> A -> comparison) : Prop := {
  cmp_eq : forall a b, cmp a b = Eq <-> a = b;
  cmp_sym : forall a b, cmp b a = CompOpp (cmp a b);
  cmp_trans : forall a b c, cmp a b = Lt -> cmp b c = Lt -> cmp a c = Lt }.

Section Ordered.
  Lemma N_ordered : ordered N.compare.
  Proof. split; [exact N.compare_eq_iff|intros; apply N.compare_antisym|]. intros a b c. rewrite !N.compare_lt_iff. lia. Qed.
  Lemma Z_ordered : ordered Z.compare.
  Proof. split; [exact Z.compare_eq_iff|intros; apply Z.compare_antisym|]. intros a b c. rewrite !Z.compare_lt_iff. lia. Qed.
  Lemma bool_ordered : ordered bool_cmp.
  Proof. split; intros [] []; try intros []; simpl; intuition congruence. Qed.
  Lemma cmp_refl : forall {A} (cmp : A -> A -> comparison), ordered cmp -> forall a, cmp a a = Eq.
  Proof. intros A cmp O a. apply (cmp_eq _ O). reflexivity. Qed.
  Lemma list_ordered : forall {A} (cmp : A -> A -> comparison), ordered cmp -> ordered (list_cmp cmp).
  Proof.
    intros A cmp O. split.
    - induction a as [|x a IH]; intros [|y b]; simpl; try (split; congruence).
      destruct (cmp x y) eqn:E.
      + apply (cmp_eq _ O) in E. rewrite IH. split; congruence.
      + split; [discriminate|]. intros H. injection H as -> _. rewrite (cmp_refl cmp O) in E. discriminate.
      + split; [discriminate|]. intros H. injection H as -> _. rewrite (cmp_refl cmp O) in E. discriminate.
    - induction a as [|x a IH]; intros [|y b]; simpl; try reflexivity. rewrite (cmp_sym _ O x y). destruct (cmp x y); simpl; [apply IH|reflexivity|reflexivity].
    - induction a as [|x a IH]; intros [|y b] [|z c]; simpl; try congruence.
      destruct (cmp x y) eqn:E; try discriminate; destruct (cmp y z) eqn:F; try discriminate.
      + apply (cmp_eq _ O) in E, F. subst. rewrite (cmp_refl cmp O). apply IH.
      + apply (cmp_eq _ O) in E. subst. rewrite F. reflexivity.
      + apply (cmp_eq _ O) in F. subst. rewrite E. reflexivity.
      + rewrite (cmp_trans _ O _ _ _ E F). reflexivity.
  Qed.
  Lemma pair_ordered : forall {A B} (f : A -> A -> comparison) (g : B -> B -> comparison), ordered f -> ordered g -> ordered (pair_cmp f g).
  Proof.
    intros A B f g F G. unfold pair_cmp. split.
    - intros [a b] [c d]; simpl. destruct (f a c) eqn:E.
      + apply (cmp_eq _ F) in E. rewrite (cmp_eq _ G). split; congruence.
      + split; [discriminate|]. intros H. injection H as -> _. rewrite (cmp_refl f F) in E. discriminate.
      + split; [discriminate|]. intros H. injection H as -> _. rewrite (cmp_refl f F) in E. discriminate.
    - intros [a b] [c d]; simpl. rewrite (cmp_sym _ F a c). destruct (f a c); simpl; [apply (cmp_sym _ G)|reflexivity|reflexivity].
    - intros [a b] [c d] [e h]; simpl. destruct (f a c) eqn:E; try discriminate; destruct (f c e) eqn:K; try discriminate.
      + apply (cmp_eq _ F) in E, K. subst. rewrite (cmp_refl f F). apply (cmp_trans _ G).
      + apply (cmp_eq _ F) in E. subst. rewrite K. reflexivity.
      + apply (cmp_eq _ F) in K. subst. rewrite E. reflexivity.
      + rewrite (cmp_trans _ F _ _ _ E K). reflexivity.
  Qed.
  Lemma str_ordered : ordered str_cmp.
  Proof. apply list_ordered, N_ordered. Qed.
  Lemma tuple_ordered : ordered tuple_cmp.
  Proof. apply list_ordered, Z_ordered. Qed.
  Lemma cmp_ge : forall {A} (cmp : A -> A -> comparison), ordered cmp -> forall a b, cmp a b <> Lt <-> cmp b a = Lt \/ a = b.
  Proof.
    intros A cmp O a b. rewrite (cmp_sym _ O a b), <- (cmp_eq _ O). destruct (cmp a b); simpl; intuition congruence.
  Qed.
  (** Not greater. *)
  Lemma cmp_le_trans : forall {A} (cmp : A -> A -> comparison), ordered cmp -> forall a b c, cmp a b <> Gt -> cmp b c <> Gt -> cmp a c <> Gt.
  Proof.
    intros A cmp O a b c H1 H2. destruct (cmp a b) eqn:E; [|destruct (cmp b c) eqn:F|]; try congruence.
    - apply (cmp_eq _ O) in E. subst. exact H2.
    - apply (cmp_eq _ O) in F. subst. congruence.
    - rewrite (cmp_trans _ O _ _ _ E F). discriminate.
  Qed.
End Ordered.

Section Sort.
  Context {A K : Type}.
  Variable key : A -> K.
  Variable cmp : K -> K -> comparison.
  (** Python [sorted(l, key=key)]; [x] goes before the first element that is not
      smaller. *)
  Fixpoint insert_stable (x : A) (l : list A) : list A :=
    match l with
    | [] => [x]
    | y :: l' => match cmp (key y) (key x) with Lt => y :: insert_stable x l' | _ => x :: l end
    end.
  Fixpoint stable_sort (l : list A) : list A :=
    match l with [] => [] | x :: l' => insert_stable x (stable_sort l') end.

  Lemma insert_stable_perm : forall x l, Permutation (insert_stable x l) (x :: l).
  Proof.
    intros x l. induction l as [|y l IH]; simpl; [reflexivity|]. destruct (cmp (key y) (key x)); try reflexivity.
    rewrite IH. apply perm_swap.
  Qed.
  Lemma stable_sort_perm : forall l, Permutation (stable_sort l) l.
  Proof. induction l as [|x l IH]; simpl; [reflexivity|]. rewrite insert_stable_perm, IH. reflexivity. Qed.

  Hypothesis O : ordered cmp.
  Definition le_key (a b : A) : Prop := cmp (key a) (key b) <> Gt.
  Lemma insert_stable_sorted : forall x l, StronglySorted le_key l -> StronglySorted le_key (insert_stable x l).
  Proof.
    intros x l S. induction S as [|y l S IH F]; simpl; [repeat constructor|].
    destruct (cmp (key y) (key x)) eqn:E.
    - constructor; [constructor; assumption|]. apply (cmp_eq _ O) in E. constructor; unfold le_key; rewrite <- E; [rewrite (cmp_refl cmp O); discriminate|].
      rewrite Forall_forall in *. intros z Z. exact (F z Z).
    - constructor; [exact IH|]. rewrite Forall_forall in *. intros z Z. apply (Permutation_in _ (insert_stable_perm x l)) in Z.
      destruct Z as [<-|Z]; [unfold le_key; congruence|exact (F z Z)].
    - assert (L : le_key x y) by (unfold le_key; rewrite (cmp_sym _ O (key y)), E; discriminate).
      constructor; [constructor; assumption|]. constructor; [exact L|].
      rewrite Forall_forall in *. intros z Z. specialize (F z Z). exact (cmp_le_trans cmp O _ _ _ L F).
  Qed.
  Lemma stable_sort_sorted : forall l, StronglySorted le_key (stable_sort l).
  Proof. induction l as [|x l IH]; simpl; [constructor|]. apply insert_stable_sorted. exact IH. Qed.

  (** Stability: elements with one key keep their order. *)
  Definition same_key (k : K) (a : A) : bool := match cmp (key a) k with Eq => true | _ => false end.
  Lemma insert_stable_same : forall k x l, filter (same_key k) (insert_stable x l) = filter (same_key k) (x :: l).
  Proof.
    intros k x l. induction l as [|y l IH]; [reflexivity|]. cbn [insert_stable].
    destruct (cmp (key y) (key x)) eqn:E; try reflexivity.
    cbn [filter]. rewrite IH. cbn [filter]. destruct (same_key k x) eqn:X; [|reflexivity].
    unfold same_key in *. destruct (cmp (key x) k) eqn:X'; try discriminate. apply (cmp_eq _ O) in X'. subst k. rewrite E. reflexivity.
  Qed.
  Lemma stable_sort_stable : forall k l, filter (same_key k) (stable_sort l) = filter (same_key k) l.
  Proof.
    intros k l. induction l as [|x l IH]; [reflexivity|]. cbn [stable_sort]. rewrite insert_stable_same. cbn [filter]. rewrite IH. reflexivity.
  Qed.
End Sort.
(** [reverse=True]: descending, still stable. *)
Definition rev_cmp {K} (cmp : K -> K -> comparison) (a b : K) : comparison := cmp b a.
Lemma rev_ordered : forall {K} (cmp : K -> K -> comparison), ordered cmp -> ordered (rev_cmp cmp).
Proof.
  intros K cmp O. unfold rev_cmp. split.
  - intros a b. rewrite (cmp_eq _ O). split; congruence.
  - intros a b. apply (cmp_sym _ O).
  - intros a b c H1 H2. exact (cmp_trans _ O _ _ _ H2 H1).
Qed.
