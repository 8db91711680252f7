(** Programs on vectors and families of names. *)
From Coq Require Import ZArith QArith String List Bool Lia.
From Verif Require Import Common Dict Vector_Model Vector_Spec.
Import ListNotations.
Local Open Scope list_scope.
Local Open Scope nat_scope.

Definition inv (st : state) (w : world) : Prop :=
  agree st w /\ (forall i c, nth_error w i = Some c -> family c < List.length w).

Lemma nth_replace : forall A (l : list A) k v j, nth_error (replace_nth l k v) j =
  if Nat.eqb j k then (if Nat.ltb k (List.length l) then Some v else None) else nth_error l j.
Proof.
  induction l as [|x l IH]; intros k v j.
  - cbn. destruct j, k; cbn; try reflexivity. destruct (Nat.eqb j k); reflexivity.
  - destruct k as [|k], j as [|j]; cbn; try reflexivity. rewrite IH. reflexivity.
Qed.
Lemma bound : forall st w i v, inv st w -> read w i = Some v -> exists r c,
  object st i = Some r /\ nth_error (objects st) r = Some v /\ nth_error w i = Some c /\ shows c = v.
Proof.
  intros st w i v ((L & V & _) & _) H. specialize (V i). rewrite H in V. unfold value in V.
  destruct (object st i) as [r|]; [|discriminate]. unfold read in H.
  destruct (nth_error w i) as [c|] eqn:E; [|discriminate]. injection H as H. exists r, c.
  split; [reflexivity|]. split; [exact V|]. split; [reflexivity|exact H].
Qed.
Lemma nth_last : forall A (l : list A) x i, nth_error (l ++ [x]) i =
  if Nat.ltb i (List.length l) then nth_error l i else if Nat.eqb i (List.length l) then Some x else None.
Proof.
  intros A l x i. destruct (Nat.ltb_spec i (List.length l)) as [H|H].
  - apply nth_error_app1. exact H.
  - rewrite nth_error_app2 by exact H. destruct (Nat.eqb_spec i (List.length l)) as [E|E].
    + subst. rewrite Nat.sub_diag. reflexivity.
    + apply nth_error_None. cbn. lia.
Qed.
Lemma lt_some : forall A (l : list A) i x, nth_error l i = Some x -> i < List.length l.
Proof. intros A l i x H. apply nth_error_Some. congruence. Qed.
Lemma valid : forall st w i r, inv st w -> object st i = Some r -> r < List.length (objects st).
Proof.
  intros st w i r ((L & V & _) & _) H. specialize (V i). unfold value in V. rewrite H in V.
  assert (G : i < List.length w) by (rewrite <- L; exact (lt_some _ _ _ _ H)).
  unfold read in V. destruct (nth_error w i) as [c|] eqn:E; [|apply nth_error_None in E; lia].
  exact (lt_some _ _ _ _ V).
Qed.

Lemma fresh_inv : forall st w v, inv st w -> inv (fresh st v) (born w v).
Proof.
  intros st w v I. pose proof I as ((L & V & S) & B). unfold fresh, born. split; [split; [|split]|].
  - cbn. rewrite !app_length. cbn. lia.
  - intro i. specialize (V i). unfold value, object, read in *. cbn. rewrite !nth_last, L.
    destruct (Nat.ltb_spec i (List.length w)) as [G|G].
    + destruct (nth_error (names st) i) as [r|] eqn:E; [|exact V].
      rewrite nth_last. assert (R : r < List.length (objects st)) by (exact (valid st w i r I E)).
      apply Nat.ltb_lt in R. rewrite R. exact V.
    + destruct (Nat.eqb i (List.length w)); [|reflexivity].
      rewrite nth_last, Nat.ltb_irrefl, Nat.eqb_refl. reflexivity.
  - intros i j r s c d Hr Hs Hc Hd. unfold object in *. cbn in Hr, Hs. rewrite nth_last, L in Hr, Hs. rewrite nth_last in Hc, Hd.
    destruct (Nat.ltb_spec i (List.length w)) as [G|G]; destruct (Nat.ltb_spec j (List.length w)) as [G'|G'].
    + exact (S i j r s c d Hr Hs Hc Hd).
    + destruct (Nat.eqb j (List.length w)); [|discriminate]. inversion Hs; inversion Hd; subst. cbn.
      pose proof (valid st w i r I Hr). pose proof (B i c Hc). lia.
    + destruct (Nat.eqb i (List.length w)); [|discriminate]. inversion Hr; inversion Hc; subst. cbn.
      pose proof (valid st w j s I Hs). pose proof (B j d Hd). lia.
    + destruct (Nat.eqb i (List.length w)); [|discriminate]. destruct (Nat.eqb j (List.length w)); [|discriminate].
      inversion Hr; inversion Hc; inversion Hs; inversion Hd; subst. cbn. tauto.
  - intros i c H. rewrite nth_last in H. rewrite app_length; cbn. destruct (Nat.ltb_spec i (List.length w)) as [G|G].
    + specialize (B i c H). lia.
    + destruct (Nat.eqb i (List.length w)); [|discriminate]. inversion H; subst. cbn. lia.
Qed.
Lemma share_inv : forall st w i r d, inv st w -> object st i = Some r -> nth_error w i = Some d ->
  inv (mkState (objects st) (names st ++ [r])) (w ++ [d]).
Proof.
  intros st w i r d I Ho Hd. pose proof I as ((L & V & S) & B). split; [split; [|split]|].
  - cbn. rewrite !app_length. cbn. lia.
  - intro k. pose proof (V k) as Vk. pose proof (V i) as Vi. unfold value, object, read in *. cbn. rewrite !nth_last, L.
    destruct (Nat.ltb k (List.length w)); [exact Vk|]. destruct (Nat.eqb k (List.length w)); [|reflexivity].
    rewrite Ho, Hd in Vi. exact Vi.
  - intros a b x y c c' Hx Hy Hc Hc'. unfold object in *. cbn in Hx, Hy. rewrite nth_last, L in Hx, Hy. rewrite nth_last in Hc, Hc'.
    destruct (Nat.ltb_spec a (List.length w)) as [G|G]; destruct (Nat.ltb_spec b (List.length w)) as [G'|G'].
    + exact (S a b x y c c' Hx Hy Hc Hc').
    + destruct (Nat.eqb b (List.length w)); [|discriminate]. inversion Hy; inversion Hc'; subst.
      exact (S a i x y c c' Hx Ho Hc Hd).
    + destruct (Nat.eqb a (List.length w)); [|discriminate]. inversion Hx; inversion Hc; subst.
      exact (S i b x y c c' Ho Hy Hd Hc').
    + destruct (Nat.eqb a (List.length w)); [|discriminate]. destruct (Nat.eqb b (List.length w)); [|discriminate].
      inversion Hx; inversion Hc; inversion Hy; inversion Hc'; subst. tauto.
  - intros k c H. rewrite nth_last in H. rewrite app_length; cbn. destruct (Nat.ltb_spec k (List.length w)) as [G|G].
    + specialize (B k c H). lia.
    + destruct (Nat.eqb k (List.length w)); [|discriminate]. inversion H; subst. specialize (B i c Hd). lia.
Qed.
Lemma store_inv : forall st w i v u, inv st w -> read w i = Some u -> inv (store st i v) (written w i v).
Proof.
  intros st w i v u I H. destruct (bound st w i u I H) as (r & c & Ho & Hu & Hc & _).
  pose proof I as ((L & V & S) & B). unfold store, written. rewrite Ho, Hc.
  assert (N : forall k, nth_error (map (fun d => if family d =? family c then mkCell (family d) v else d) w) k
                        = option_map (fun d => if family d =? family c then mkCell (family d) v else d) (nth_error w k))
    by (intro; apply nth_error_map).
  split; [split; [|split]|].
  - cbn. rewrite map_length. exact L.
  - intro k. specialize (V k). unfold value, object, read in *. cbn. rewrite N.
    destruct (nth_error (names st) k) as [s|] eqn:Es.
    + assert (K : k < List.length w) by (rewrite <- L; exact (lt_some _ _ _ _ Es)).
      destruct (nth_error w k) as [d|] eqn:Ed; [|apply nth_error_None in Ed; lia].
      pose proof (S k i s r d c Es Ho Ed Hc) as F. rewrite nth_replace. cbn [option_map] in V |- *.
      assert (R : (r <? List.length (objects st)) = true) by (apply Nat.ltb_lt; exact (valid st w i r I Ho)).
      rewrite R.
      destruct (Nat.eqb_spec s r) as [E|E].
      * rewrite (proj2 (Nat.eqb_eq _ _) (proj1 F E)). reflexivity.
      * destruct (Nat.eqb_spec (family d) (family c)) as [E'|E']; [exfalso; apply E; apply F; exact E'|]. exact V.
    + destruct (nth_error w k) as [d|] eqn:Ed; [discriminate|reflexivity].
  - intros a b x y d d' Hx Hy Hd Hd'. unfold object in *; cbn in Hx, Hy. rewrite N in Hd, Hd'.
    destruct (nth_error w a) as [e|] eqn:Ea; [|discriminate]. destruct (nth_error w b) as [e'|] eqn:Eb; [|discriminate].
    cbn in Hd, Hd'. rewrite (S a b x y e e' Hx Hy Ea Eb).
    assert (family d = family e) by (inversion Hd; destruct (family e =? family c); reflexivity).
    assert (family d' = family e') by (inversion Hd'; destruct (family e' =? family c); reflexivity).
    rewrite H0, H1. reflexivity.
  - intros k d Hd. rewrite map_length. rewrite N in Hd. destruct (nth_error w k) as [e|] eqn:Ee; [|discriminate].
    cbn in Hd. specialize (B k e Ee). inversion Hd. destruct (family e =? family c); exact B.
Qed.

Lemma value_read : forall st w i, inv st w -> value st i = read w i.
Proof. intros st w i ((_ & V & _) & _). apply V. Qed.
Lemma operand_read : forall st w x, inv st w -> operand_value st x = operand_of w x.
Proof. intros st w x I. destruct x; cbn; try reflexivity. rewrite (value_read st w a I). reflexivity. Qed.

Lemma step : forall F st w c, inv st w -> exists w', does F w c w' (snd (exec F st c)) /\ inv (fst (exec F st c)) w'.
Proof.
  intros F st w c I.
  assert (VR : forall i, value st i = read w i) by (intro; apply value_read; exact I).
  assert (OR : forall x, operand_value st x = operand_of w x) by (intro; apply operand_read; exact I).
  destruct c as [x y|x c|i n|i n|i k n|i x y|i x c|o i x|i|i p]; cbn [exec].
  - exists (born w (x, y)). split; [constructor|apply fresh_inv; exact I].
  - destruct x as [i|l|d|n|].
    + destruct (object st i) as [r|] eqn:E.
      * specialize (VR i). unfold value in VR. rewrite E in VR.
        pose proof (valid st w i r I E) as R. apply nth_error_Some in R. unfold read in VR.
        destruct (nth_error w i) as [d|] eqn:Ed; [|cbn in VR; congruence].
        exists (w ++ [d]). split; [constructor; exact Ed|exact (share_inv st w i r d I E Ed)].
      * exists w. split; [|exact I]. apply does_unbound. constructor. rewrite <- VR. unfold value. rewrite E. reflexivity.
    + destruct (convert F (Seq l) c) as [v|e] eqn:E; cbn [creates fst snd].
      * exists (born w v). split; [apply does_from; [congruence|exact E]|apply fresh_inv; exact I].
      * exists w. split; [apply does_from_not; [congruence|exact E]|exact I].
    + destruct (convert F (Dict d) c) as [v|e] eqn:E; cbn [creates fst snd].
      * exists (born w v). split; [apply does_from; [congruence|exact E]|apply fresh_inv; exact I].
      * exists w. split; [apply does_from_not; [congruence|exact E]|exact I].
    + exists w. split; [apply does_from_not; [congruence|reflexivity]|exact I].
    + exists w. split; [apply does_from_not; [congruence|reflexivity]|exact I].
  - rewrite VR. destruct (read w i) as [v|] eqn:E.
    + eexists. split; [apply does_x; exact E|exact (store_inv st w i _ v I E)].
    + exists w. split; [apply does_unbound; constructor; exact E|exact I].
  - rewrite VR. destruct (read w i) as [v|] eqn:E.
    + eexists. split; [apply does_y; exact E|exact (store_inv st w i _ v I E)].
    + exists w. split; [apply does_unbound; constructor; exact E|exact I].
  - rewrite VR. destruct (read w i) as [v|] eqn:E.
    + destruct (setitem v k n) as [v'|e] eqn:G; cbn [writes fst snd].
      * eexists. split; [exact (does_item F w i k n v v' E G)|exact (store_inv st w i _ v I E)].
      * exists w. split; [exact (does_item_not F w i k n v e E G)|exact I].
    + exists w. split; [apply does_unbound; constructor; exact E|exact I].
  - rewrite VR. destruct (read w i) as [v|] eqn:E.
    + eexists. split; [exact (does_update F w i x y v E)|exact (store_inv st w i _ v I E)].
    + exists w. split; [apply does_unbound; constructor; exact E|exact I].
  - rewrite VR. destruct (read w i) as [v|] eqn:E; [|exists w; split; [apply does_unbound; constructor; exact E|exact I]].
    rewrite OR. destruct x as [j|l|d|n|]; cbn [operand_of].
    + destruct (read w j) as [u|] eqn:G; cbn [option_map].
      * eexists. split; [exact (does_update_vec F w i j c v u E G)|exact (store_inv st w i _ v I E)].
      * exists w. split; [apply does_unbound; apply m_update_vec; exact G|exact I].
    + assert (G : convert F (A := vector) (Seq l) c = convert F (A := nat) (Seq l) c) by reflexivity. rewrite G; clear G.
      destruct (convert F (Seq l) c) as [u|e] eqn:G; cbn [writes fst snd].
      * eexists. split; [apply (does_update_from F w i (Seq l) c v u); [congruence|exact E|exact G]|exact (store_inv st w i _ v I E)].
      * exists w. split; [apply (does_update_not F w i (Seq l) c v e); [congruence|exact E|exact G]|exact I].
    + assert (G : convert F (A := vector) (Dict d) c = convert F (A := nat) (Dict d) c) by reflexivity. rewrite G; clear G.
      destruct (convert F (Dict d) c) as [u|e] eqn:G; cbn [writes fst snd].
      * eexists. split; [apply (does_update_from F w i (Dict d) c v u); [congruence|exact E|exact G]|exact (store_inv st w i _ v I E)].
      * exists w. split; [apply (does_update_not F w i (Dict d) c v e); [congruence|exact E|exact G]|exact I].
    + exists w. split; [apply (does_update_not F w i (Num n) c v TypeError); [congruence|exact E|reflexivity]|exact I].
    + exists w. split; [apply (does_update_not F w i Other c v TypeError); [congruence|exact E|reflexivity]|exact I].
  - rewrite VR. destruct (read w i) as [v|] eqn:E; [|exists w; split; [apply does_unbound; constructor; exact E|exact I]].
    rewrite OR. destruct (operand_of w x) as [y|] eqn:G.
    + destruct (binary F o v y) as [u|e] eqn:K; cbn [creates fst snd].
      * exists (born w u). split; [exact (does_op F w o i x v y u E G K)|apply fresh_inv; exact I].
      * exists w. split; [exact (does_op_not F w o i x v y e E G K)|exact I].
    + exists w. split; [|exact I]. apply does_unbound. destruct x as [j|l|d|n|]; cbn in G; try discriminate.
      apply m_op_vec. destruct (read w j); [discriminate|reflexivity].
  - rewrite VR. destruct (read w i) as [v|] eqn:E.
    + eexists. split; [exact (does_abs F w i v E)|apply fresh_inv; exact I].
    + exists w. split; [apply does_unbound; constructor; exact E|exact I].
  - rewrite VR. destruct (read w i) as [v|] eqn:E.
    + eexists. split; [exact (does_round F w i p v E)|apply fresh_inv; exact I].
    + exists w. split; [apply does_unbound; constructor; exact E|exact I].
Qed.

Lemma start : inv nowhere [].
Proof.
  split; [split; [|split]|].
  - reflexivity.
  - intro i. unfold value, object, read; cbn. destruct i; reflexivity.
  - intros i j r s c d H. destruct i; discriminate.
  - intros i c H. destruct i; discriminate.
Qed.
Lemma programs_inv : forall F cs, exists w, does_all F cs w /\ inv (run F cs nowhere) w.
Proof.
  intros F cs. induction cs as [|c cs IH] using rev_ind.
  - exists []. split; [constructor|exact start].
  - destruct IH as (w & D & I). destruct (step F (run F cs nowhere) w c I) as (w' & D' & I').
    exists w'. split; [econstructor; [exact D|exact D']|]. unfold run in *. rewrite fold_left_app. exact I'.
Qed.
Lemma programs : forall F cs c, exists w w',
  does_all F cs w /\ agree (run F cs nowhere) w
  /\ does F w c w' (snd (exec F (run F cs nowhere) c)) /\ agree (fst (exec F (run F cs nowhere) c)) w'.
Proof.
  intros F cs c. destruct (programs_inv F cs) as (w & D & I).
  destruct (step F (run F cs nowhere) w c I) as (w' & D' & (A & _)).
  exists w, w'. split; [exact D|]. split; [exact (proj1 I)|]. split; [exact D'|exact A].
Qed.

(** A call that fails changes nothing. *)
Lemma failing : forall F st c e, snd (exec F st c) = Some e -> fst (exec F st c) = st.
Proof.
  intros F st c e.
  destruct c as [x y|x c|i n|i n|i k n|i x y|i x c|o i x|i|i p]; cbn [exec];
    try (destruct (value st i) as [v|]); try discriminate; try reflexivity.
  - destruct x as [i|l|d|n|].
    + destruct (object st i); [discriminate|reflexivity].
    + destruct (convert F (Seq l) c); [discriminate|reflexivity].
    + destruct (convert F (Dict d) c); [discriminate|reflexivity].
    + reflexivity.
    + reflexivity.
  - destruct (setitem v k n); [discriminate|reflexivity].
  - destruct (operand_value st x) as [y|]; [|reflexivity]. destruct y as [u|l|d|n|].
    + discriminate.
    + destruct (convert F (Seq l) c); [discriminate|reflexivity].
    + destruct (convert F (Dict d) c); [discriminate|reflexivity].
    + reflexivity.
    + reflexivity.
  - destruct (operand_value st x) as [y|]; [|reflexivity]. destruct (binary F o v y); [discriminate|reflexivity].
Qed.
