(** Dictionaries as operands. *)
From Coq Require Import ZArith List Bool Lia.
From Verif Require Import Common Dict Vector_Model.
Import ListNotations.

Lemma key_eqb_eq : forall a b, key_eqb a b = true <-> a = b.
Proof.
  intros [x|x] [y|y]; cbn; split; intro H; try discriminate.
  - apply Z.eqb_eq in H. congruence.
  - injection H as ->. apply Z.eqb_refl.
  - apply pystr_eqb_eq in H. congruence.
  - injection H as ->. apply pystr_eqb_refl.
Qed.
Lemma key_found : forall k d n, key_of d k = Ok n <-> exists l1 l2, d = l1 ++ (k, n) :: l2 /\ ~ In k (map fst l1).
Proof.
  intros k d n. unfold key_of. induction d as [|[a m] d IH]; cbn [dget].
  - split; [discriminate|]. intros ([|] & l2 & E & _); discriminate.
  - destruct (key_eqb a k) eqn:Q.
    + apply key_eqb_eq in Q. subst a. split.
      * intro H. injection H as ->. exists [], d. split; [reflexivity|intros []].
      * intros ([|p l1] & l2 & E & NI); [injection E as -> ->; reflexivity|]. injection E as <- _. destruct NI. left. reflexivity.
    + rewrite IH. split.
      * intros (l1 & l2 & -> & NI). exists ((a, m) :: l1), l2. split; [reflexivity|]. intros [E|I]; [|exact (NI I)]. cbn in E. subst a.
        rewrite (proj2 (key_eqb_eq k k) eq_refl) in Q. discriminate.
      * intros ([|p l1] & l2 & E & NI).
        -- injection E as -> _ _. rewrite (proj2 (key_eqb_eq k k) eq_refl) in Q. discriminate.
        -- injection E as _ E. exists l1, l2. split; [exact E|]. intro I. apply NI. right. exact I.
Qed.
Lemma keys_found : forall d n,
  (first (Dict d) = Ok n <-> exists l1 l2, d = l1 ++ (KInt 0, n) :: l2 /\ ~ In (KInt 0) (map fst l1)) /\
  (second (Dict d) = Ok n <-> exists l1 l2, d = l1 ++ (KInt 1, n) :: l2 /\ ~ In (KInt 1) (map fst l1)).
Proof. intros d n. split; apply key_found. Qed.
