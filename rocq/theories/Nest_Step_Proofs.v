(** What one operation does to a list and its map. *)
From Coq Require Import ZArith List Bool Permutation Lia.
From Verif Require Import Common Dict Spatial_Model Nest_Model Nest_Spec Nest_Proofs.
From Verif Require Spatial_Spec Spatial_Proofs.
Import ListNotations.
Local Open Scope Z_scope.

Section S.
  Variables cs eps : Z.
  Hypothesis Hcs : 0 < cs.
  Lemma well_ok ix : well ix <-> ok ix.
  Proof.
    unfold well, ok. split; intros [N E]; (split; [exact N|]).
    - intros c l H ->. exact (E c H).
    - intros c H. exact (E c [] H eq_refl).
  Qed.
  Lemma remove_all d l : forall ix, ok ix -> ok (fold_left (sm_remove cs eps (placed d) same) l ix)
    /\ forall c, in_cell (fold_left (sm_remove cs eps (placed d) same) l ix) c = left_over cs eps d c (in_cell ix c) l.
  Proof.
    induction l as [|t l IH]; intros ix O; cbn [fold_left left_over]; [split; [exact O|reflexivity]|].
    destruct (remove_one cs eps Hcs d ix t O) as [O' C]. destruct (IH _ O') as [O'' C']. split; [exact O''|].
    intros c. rewrite C', C. reflexivity.
  Qed.
  Lemma insert_does s idx d n : well (snd s) -> exists a b ix', fst s = a ++ b
    /\ Z.of_nat (length a) = (let len := Z.of_nat (length (fst s)) in if idx <? 0 then Z.max 0 (idx + len) else Z.min idx len)
    /\ insert cs eps s idx d n = ((a ++ n :: b, ix'), None) /\ well ix'
    /\ forall c, in_cell ix' c = in_cell (snd s) c ++ filter (touches cs eps d c) (standing (0, 0) n).
  Proof.
    intros W. apply well_ok in W. unfold insert, py_insert. set (i := if idx <? 0 then _ else _).
    exists (firstn (Z.to_nat i) (fst s)), (skipn (Z.to_nat i) (fst s)), (add_node cs eps d (0, 0) (snd s) n).
    split; [symmetry; apply firstn_skipn|]. split; [|split; [reflexivity|]].
    - rewrite firstn_length. unfold i. cbv zeta. destruct (Z.ltb_spec idx 0); lia.
    - rewrite add_flat. destruct (add_all cs eps Hcs d (standing (0, 0) n) (snd s) W) as [O C]. split; [apply well_ok, O|exact C].
  Qed.
  Lemma delete_empty off s idx : fst s = [] -> delete cs eps off s idx = (s, Some ZeroDivisionError).
  Proof. intros E. unfold delete. rewrite E. reflexivity. Qed.
  Lemma delete_does off s idx : well (snd s) -> fst s <> [] -> exists a n b ix', fst s = a ++ n :: b
    /\ Z.of_nat (length a) = idx mod Z.of_nat (length (fst s))
    /\ delete cs eps off s idx = ((a ++ b, ix'), None) /\ well ix'
    /\ forall c, in_cell ix' c = left_over cs eps off c (in_cell (snd s) c) (standing (0, 0) n).
  Proof.
    intros W N. apply well_ok in W. unfold delete. destruct (fst s) as [|m ms] eqn:E; [congruence|]. rewrite <- E. clear N.
    assert (B : 0 <= idx mod Z.of_nat (length (fst s)) < Z.of_nat (length (fst s))) by (apply Z.mod_pos_bound; rewrite E; cbn; lia).
    set (i := Z.to_nat _). destruct (nth_error (fst s) i) as [n|] eqn:X.
    2:{ apply nth_error_None in X. unfold i in X. lia. }
    destruct (remove_mid _ _ _ X) as [a [b [L [A [R _]]]]]. exists a, n, b. eexists. split; [exact A|]. split; [unfold i in L; lia|].
    cbv zeta. rewrite R. split; [reflexivity|]. rewrite remove_flat.
    destruct (remove_all off (standing (0, 0) n) (snd s) W) as [O C]. split; [apply well_ok, O|exact C].
  Qed.
  Lemma replace_outside off s idx d n : let len := Z.of_nat (length (fst s)) in idx < - len \/ len <= idx ->
    replace cs eps off s idx d n = (s, Some IndexError).
  Proof.
    intros len H. unfold replace, py_pos. fold len. destruct (Z.ltb_spec idx 0); cbv zeta;
      match goal with |- context [if ?c then _ else _] => destruct c eqn:E end; try reflexivity;
      apply andb_true_iff in E; rewrite Z.leb_le, Z.ltb_lt in E; unfold len in *; lia.
  Qed.
  Lemma replace_does off s idx d n : let len := Z.of_nat (length (fst s)) in well (snd s) -> - len <= idx < len ->
    exists a m b ix', fst s = a ++ m :: b /\ Z.of_nat (length a) = (if idx <? 0 then idx + len else idx)
    /\ replace cs eps off s idx d n = ((a ++ n :: b, ix'), None) /\ well ix'
    /\ forall c, in_cell ix' c = left_over cs eps off c (in_cell (snd s) c) (standing (0, 0) m) ++ filter (touches cs eps d c) (standing (0, 0) n).
  Proof.
    intros len W H. apply well_ok in W. unfold replace, py_pos. fold len. set (j := if idx <? 0 then _ else _).
    assert (J : 0 <= j < len) by (unfold j; destruct (Z.ltb_spec idx 0); lia).
    cbv zeta. replace ((0 <=? j) && (j <? len)) with true by (symmetry; apply andb_true_iff; rewrite Z.leb_le, Z.ltb_lt; exact J).
    destruct (nth_error (fst s) (Z.to_nat j)) as [m|] eqn:X.
    2:{ apply nth_error_None in X. unfold len in *. lia. }
    destruct (remove_mid _ _ _ X) as [a [b [L [A [_ R]]]]]. exists a, m, b. eexists. split; [exact A|]. split; [lia|].
    rewrite (R n). split; [reflexivity|]. rewrite add_flat, remove_flat.
    destruct (remove_all off (standing (0, 0) m) (snd s) W) as [O C].
    destruct (add_all cs eps Hcs d (standing (0, 0) n) _ O) as [O' C']. split; [apply well_ok, O'|].
    intros c. rewrite C', C. reflexivity.
  Qed.
End S.
