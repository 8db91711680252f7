(** Rounding, the arguments of a request, and modules in a dictionary of counts. *)
From Coq Require Import ZArith String List Bool Lia.
From Verif Require Import Common Dict Request_Model Capacity_Model Capacity_Spec.
Import ListNotations.
Local Open Scope Z_scope.

Lemma nearest : forall m k, 0 < k -> 2 * Z.abs (shift_even m k * 2 ^ k - m) <= 2 ^ k /\
  (2 * Z.abs (shift_even m k * 2 ^ k - m) = 2 ^ k -> Z.Even (shift_even m k)).
Proof.
  intros m k H. unfold shift_even. cbv zeta.
  assert (D : 0 < 2 ^ k) by (apply Z.pow_pos_nonneg; lia).
  pose proof (Z.div_mod m (2 ^ k)). pose proof (Z.mod_pos_bound m (2 ^ k) D).
  set (d := 2 ^ k) in *. set (q := m / d) in *. set (r := m mod d) in *.
  destruct (2 * r <? d) eqn:A; [apply Z.ltb_lt in A; split; nia|apply Z.ltb_ge in A].
  destruct (d <? 2 * r) eqn:B; [apply Z.ltb_lt in B; split; nia|apply Z.ltb_ge in B].
  destruct (Z.even q) eqn:C.
  - split; [nia|]. intros _. apply Z.even_spec. exact C.
  - split; [nia|]. intros _. apply Z.even_spec. rewrite Z.even_add, C. reflexivity.
Qed.
Lemma arguments : forall strict st i c q v s c' q' v' s',
  given_or c None c' -> given_or q (str "normal") q' -> given_or v 0 v' -> given_or s None s' ->
  plain_request strict st (mkArgs i c q v s) = set_item_request strict st i c' q' v' s'.
Proof.
  intros strict st i c q v s c' q' v' s' [->|(-> & ->)] [->|(-> & ->)] [->|(-> & ->)] [->|(-> & ->)]; reflexivity.
Qed.
Lemma module_counts : forall is_module d,
  ((exists k n, In (k, n) d /\ List.length k <> 2%nat) -> module_slots_occupied is_module (Counts d) = Err ValueError) /\
  ((forall k n, In (k, n) d -> List.length k = 2%nat) ->
     ((exists x y n, In ([x; y], n) d /\ is_module [x] = true) -> module_slots_occupied is_module (Counts d) = Err TypeError) /\
     ((forall x y n, In ([x; y], n) d -> is_module [x] = false) -> module_slots_occupied is_module (Counts d) = Ok 0)) /\
  module_items is_module (Counts d) = Ok (filter (fun kv => is_module (fst kv)) d).
Proof.
  intros is_module d. cbn [module_slots_occupied module_items]. split; [|split; [|reflexivity]].
  - intros (k & n & I & L). destruct (forallb _ d) eqn:F; [|reflexivity].
    rewrite forallb_forall in F. specialize (F _ I). cbn [fst] in F. apply Nat.eqb_eq in F. contradiction.
  - intros H. match goal with |- context [forallb ?f d] => assert (F : forallb f d = true) end.
    { apply forallb_forall. intros [k n] I. apply Nat.eqb_eq. exact (H k n I). }
    rewrite F. split.
    + intros (x & y & n & I & M). match goal with |- context [existsb ?f d] => assert (X : existsb f d = true) end.
      { apply existsb_exists. exists ([x; y], n). auto. }
      rewrite X. reflexivity.
    + intros M. destruct (existsb _ d) eqn:X; [|reflexivity].
      apply existsb_exists in X. destruct X as ([k n] & I & X). cbn [fst] in X.
      pose proof (H k n I) as L. destruct k as [|x [|y [|z k]]]; try discriminate L. cbn [firstn] in X.
      rewrite (M x y n I) in X. discriminate.
Qed.
