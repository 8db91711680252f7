(** Lemmas about item requests. *)
From Coq Require Import ZArith List Bool Lia.
From Verif Require Import Common Dict Planner_Model Planner_Proofs Slots_Model Slots_Spec Slots_Proofs Request_Model Request_Spec.
Import ListNotations.
Local Open Scope Z_scope.

Lemma sum_app : forall a b, sum (a ++ b) = sum a + sum b.
Proof. induction a as [|x a IH]; intros b; cbn [app sum fold_right]; [reflexivity|]. fold (sum (a ++ b)) (sum a). rewrite IH. lia. Qed.
Lemma sum_cons : forall x a, sum (x :: a) = x + sum a.
Proof. reflexivity. Qed.
Lemma requested_mid : forall a r b n q i s, requested (a ++ r :: b) n q i s = requested (a ++ b) n q i s + in_req n q i s r.
Proof. intros. unfold requested. rewrite !map_app, !sum_app. cbn [map]. rewrite sum_cons. lia. Qed.
Lemma requested_end : forall a r n q i s, requested (a ++ [r]) n q i s = requested a n q i s + in_req n q i s r.
Proof. intros. unfold requested. rewrite map_app, sum_app. cbn [map]. rewrite sum_cons. cbn. lia. Qed.

Lemma same_name_iff : forall r n, same_name r n = true <-> r_name r = Some n.
Proof. intros r n. unfold same_name. destruct (r_name r) as [a|]; [|split; discriminate]. rewrite pystr_eqb_eq. split; congruence. Qed.
Lemma same_quality_iff : forall r n, same_quality r n = true <-> r_quality r = Some n.
Proof. intros r n. unfold same_quality. destruct (r_quality r) as [a|]; [|split; discriminate]. rewrite pystr_eqb_eq. split; congruence. Qed.
Lemma id_iff : forall r n q, same_name r n && same_quality r q = true <-> r_name r = Some n /\ r_quality r = Some q.
Proof. intros. rewrite andb_true_iff, same_name_iff, same_quality_iff. tauto. Qed.
Lemma in_req_other : forall n q i s r, ~ (r_name r = Some n /\ r_quality r = Some q) -> in_req n q i s r = 0.
Proof.
  intros n q i s r N. unfold in_req. destruct (r_name r) as [a|], (r_quality r) as [b|]; try reflexivity.
  destruct (pystr_eqb a n && pystr_eqb b q) eqn:E; [|reflexivity]. exfalso. apply N.
  apply andb_true_iff in E. destruct E as [E1 E2]. apply pystr_eqb_eq in E1, E2. subst. auto.
Qed.
Lemma in_req_this : forall n q i s r l, r_name r = Some n -> r_quality r = Some q -> r_locs r = Some l ->
  in_req n q i s r = sum (map (at_place i s) l).
Proof.
  intros n q i s r l A B C. unfold in_req. rewrite A, B, C.
  rewrite (proj2 (pystr_eqb_eq n n) eq_refl), (proj2 (pystr_eqb_eq q q) eq_refl). reflexivity.
Qed.

(** ** The cases of a call *)
Lemma failure_no_effect : forall strict st item count q inv slot e,
  snd (set_item_request strict st item count q inv slot) = Err e -> fst (set_item_request strict st item count q inv slot) = st.
Proof.
  intros strict st item count q inv slot e. unfold set_item_request.
  match goal with |- context [match ?c with Ok _ => _ | Err _ => _ end] => destruct c as [l|e'] end; [|reflexivity].
  destruct (strict && negb (forallb req_valid l)); [reflexivity|discriminate].
Qed.

Definition finish (strict : bool) (st l : list req) : list req * result unit :=
  if strict && negb (forallb req_valid l) then (st, Err DataFormatError) else (l, Ok tt).
Lemma finish_valid : forall strict st l, all_valid l -> finish strict st l = (l, Ok tt).
Proof.
  intros strict st l V. unfold finish. replace (forallb req_valid l) with true; [now rewrite andb_false_r|].
  symmetry. apply forallb_forall. unfold all_valid in V. rewrite Forall_forall in V. exact V.
Qed.

Lemma call_zero : forall strict st item count q inv slot, count = None \/ count = Some 0 ->
  set_item_request strict st item count q inv slot = finish strict st (other_items item st).
Proof. intros strict st item count q inv slot [-> | ->]; reflexivity. Qed.
Lemma call_first : forall strict st item c q inv slot, c <> 0 -> ~ mentions_quality st item q ->
  set_item_request strict st item (Some c) q inv slot =
  finish strict st (st ++ [mkReq (Some item) (Some q)
    (Some [mkLoc (inv + 1) (Some (match slot with Some s => s | None => Z.of_nat (length st) end)) (Some c)]) (Some 0)]).
Proof.
  intros strict st item c q inv slot C N. unfold set_item_request. rewrite (proj2 (Z.eqb_neq c 0) C).
  destruct (first_index _ st) as [k|] eqn:F; [|reflexivity]. exfalso. apply first_index_split in F.
  destruct F as [a [x [b [E [L [P _]]]]]]. apply id_iff in P. apply N. exists x. split; [subst; apply in_elt|exact P].
Qed.
Lemma call_again : forall strict st item c q inv slot, c <> 0 -> mentions_quality st item q ->
  exists a r b, st = a ++ r :: b /\ r_name r = Some item /\ r_quality r = Some q /\
    (forall r', In r' a -> ~ (r_name r' = Some item /\ r_quality r' = Some q)) /\
    (r_locs r = None -> set_item_request strict st item (Some c) q inv slot = (st, Err TypeError)) /\
    (forall l, r_locs r = Some l ->
      (exists l1 x l2, l = l1 ++ x :: l2 /\ l_inventory x = inv /\ l_stack x = slot /\
         (forall y, In y l1 -> ~ (l_inventory y = inv /\ l_stack y = slot)) /\
         set_item_request strict st item (Some c) q inv slot =
         finish strict st (a ++ mkReq (r_name r) (r_quality r) (Some (l1 ++ mkLoc inv slot (Some c) :: l2)) (r_grid r) :: b)) \/
      ((forall x, In x l -> ~ (l_inventory x = inv /\ l_stack x = slot)) /\
         set_item_request strict st item (Some c) q inv slot =
         finish strict st (a ++ mkReq (r_name r) (r_quality r) (Some (l ++ [mkLoc (inv + 1) slot (Some c)])) (r_grid r) :: b))).
Proof.
  intros strict st item c q inv slot C [r0 [I0 J0]].
  destruct (first_index (fun r => same_name r item && same_quality r q) st) as [k|] eqn:F.
  2:{ apply first_index_none in F. rewrite Forall_forall in F. specialize (F r0 I0). apply id_iff in J0. cbv beta in F. congruence. }
  pose proof F as F0. apply first_index_split in F. destruct F as [a [r [b [E [L [P Y]]]]]]. apply id_iff in P. destruct P as [P1 P2].
  exists a, r, b. split; [exact E|]. split; [exact P1|]. split; [exact P2|]. split.
  { rewrite Forall_forall in Y. intros r' I' J'. apply id_iff in J'. specialize (Y r' I'). cbv beta in Y. congruence. }
  assert (N : nth_error st k = Some r) by (subst; apply nth_error_mid).
  assert (ST : forall x, stack_is x slot = true <-> l_stack x = slot).
  { intros x. unfold stack_is. destruct (l_stack x), slot; try (split; congruence). rewrite Z.eqb_eq. split; congruence. }
  unfold set_item_request. rewrite (proj2 (Z.eqb_neq c 0) C), F0, N. split.
  - intros ->. reflexivity.
  - intros l RL. rewrite RL.
    destruct (first_index (fun x => (l_inventory x =? inv) && stack_is x slot) l) as [j|] eqn:G.
    + left. apply first_index_split in G. destruct G as [l1 [x [l2 [E2 [L2 [P Y2]]]]]].
      apply andb_true_iff in P. destruct P as [P3 P4]. apply Z.eqb_eq in P3. apply ST in P4.
      exists l1, x, l2. split; [exact E2|]. split; [exact P3|]. split; [exact P4|]. split.
      { rewrite Forall_forall in Y2. intros y I [A B]. specialize (Y2 y I). cbv beta in Y2. apply ST in B. apply Z.eqb_eq in A.
        rewrite A, B in Y2. discriminate. }
      assert (N2 : nth_error l j = Some x) by (subst; apply nth_error_mid). rewrite N2.
      assert (R2 : replace_nth l j (mkLoc (l_inventory x) (l_stack x) (Some c)) = l1 ++ mkLoc inv slot (Some c) :: l2).
      { rewrite P3, P4. subst l j. apply replace_nth_mid. }
      rewrite R2. subst st k. rewrite replace_nth_mid. reflexivity.
    + right. split.
      { apply first_index_none in G. rewrite Forall_forall in G. intros x I [A B]. specialize (G x I). cbv beta in G.
        apply ST in B. apply Z.eqb_eq in A. rewrite A, B in G. discriminate. }
      subst st k. rewrite replace_nth_mid. reflexivity.
Qed.

Lemma mentions_dec : forall st n q, mentions_quality st n q \/ ~ mentions_quality st n q.
Proof.
  intros st n q. destruct (existsb (fun r => same_name r n && same_quality r q) st) eqn:E.
  - left. apply existsb_exists in E. destruct E as [r [I J]]. apply id_iff in J. exists r. tauto.
  - right. intros [r [I J]]. rewrite <- not_true_iff_false in E. apply E. apply existsb_exists. exists r.
    split; [exact I|]. now apply id_iff.
Qed.
Lemma finish_cases : forall strict st l, fst (finish strict st l) = st \/ fst (finish strict st l) = l.
Proof. intros. unfold finish. destruct (_ && _); auto. Qed.

(** ** Other requests are untouched *)
Lemma others_requests : forall strict st item c q inv slot, c <> 0 ->
  other_requests item q (fst (set_item_request strict st item (Some c) q inv slot)) = other_requests item q st.
Proof.
  intros strict st item c q inv slot C. destruct (mentions_dec st item q) as [M|M].
  - destruct (call_again strict st item c q inv slot C M) as [a [r [b [E [R1 [R2 [_ [Z0 Z1]]]]]]]].
    assert (T : same_name r item && same_quality r q = true) by (apply id_iff; auto).
    assert (K : forall l, other_requests item q (fst (finish strict st (a ++ mkReq (r_name r) (r_quality r) (Some l) (r_grid r) :: b))) = other_requests item q st).
    { intros l. destruct (finish_cases strict st (a ++ mkReq (r_name r) (r_quality r) (Some l) (r_grid r) :: b)) as [-> | ->]; [reflexivity|].
      subst st. unfold other_requests. rewrite !filter_app. cbn [filter].
      replace (same_name (mkReq (r_name r) (r_quality r) (Some l) (r_grid r)) item && same_quality (mkReq (r_name r) (r_quality r) (Some l) (r_grid r)) q) with true
        by (symmetry; exact T).
      rewrite T. reflexivity. }
    destruct (r_locs r) as [l|] eqn:RL.
    + destruct (Z1 l eq_refl) as [[l1 [x [l2 [_ [_ [_ [_ ->]]]]]]]|[_ ->]]; apply K.
    + rewrite Z0 by reflexivity. reflexivity.
  - rewrite call_first by auto.
    match goal with |- context [finish _ _ ?l] => destruct (finish_cases strict st l) as [-> | ->] end; [reflexivity|].
    unfold other_requests. rewrite filter_app. cbn [filter same_name same_quality r_name r_quality].
    rewrite (proj2 (pystr_eqb_eq item item) eq_refl), (proj2 (pystr_eqb_eq q q) eq_refl). cbn [andb negb]. apply app_nil_r.
Qed.
Lemma filter_sub : forall A (p q : A -> bool) l, (forall x, p x = true -> q x = true) -> filter p (filter q l) = filter p l.
Proof.
  intros A p q l H. induction l as [|x l IH]; cbn [filter]; [reflexivity|].
  destruct (q x) eqn:Q; cbn [filter].
  - now rewrite IH.
  - destruct (p x) eqn:P; [apply H in P; congruence|exact IH].
Qed.
Lemma others_items : forall strict st item count q inv slot,
  other_items item (fst (set_item_request strict st item count q inv slot)) = other_items item st.
Proof.
  intros strict st item count q inv slot.
  assert (Z0 : count = None \/ count = Some 0 -> other_items item (fst (set_item_request strict st item count q inv slot)) = other_items item st).
  { intros H. rewrite call_zero by exact H. destruct (finish_cases strict st (other_items item st)) as [-> | ->]; [reflexivity|].
    unfold other_items. apply filter_sub. auto. }
  destruct count as [c|]; [|auto]. destruct (Z.eq_dec c 0) as [->|C]; [auto|].
  pose proof (others_requests strict st item c q inv slot C) as O.
  assert (S : forall l, other_items item (other_requests item q l) = other_items item l).
  { intros l. apply filter_sub. intros x P. destruct (same_name x item); [discriminate|reflexivity]. }
  rewrite <- S, O, S. reflexivity.
Qed.

(** ** Amounts *)
Lemma requested_filter : forall p st n q i s, (forall r, r_name r = Some n /\ r_quality r = Some q -> p r = true) ->
  requested (filter p st) n q i s = requested st n q i s.
Proof.
  intros p st n q i s H. unfold requested. induction st as [|r st IH]; cbn [filter map]; [reflexivity|].
  destruct (p r) eqn:P; cbn [map]; rewrite !sum_cons; rewrite IH; [reflexivity|].
  rewrite in_req_other; [lia|]. intros K. apply H in K. congruence.
Qed.
Lemma requested_none : forall st n q i s, ~ mentions_quality st n q -> requested st n q i s = 0.
Proof.
  intros st n q i s. unfold requested. induction st as [|r st IH]; intros N; cbn [map]; [reflexivity|].
  rewrite sum_cons, IH.
  - rewrite in_req_other; [reflexivity|]. intros K. apply N. exists r. split; [now left|tauto].
  - intros [r' [I J]]. apply N. exists r'. split; [now right|exact J].
Qed.
Lemma requested_other_id : forall strict st item c q inv slot n q' i s, c <> 0 -> (n, q') <> (item, q) ->
  requested (fst (set_item_request strict st item (Some c) q inv slot)) n q' i s = requested st n q' i s.
Proof.
  intros strict st item c q inv slot n q' i s C N.
  pose proof (others_requests strict st item c q inv slot C) as O.
  assert (K : forall l, requested (other_requests item q l) n q' i s = requested l n q' i s).
  { intros l. apply requested_filter. intros r [A B]. destruct (same_name r item && same_quality r q) eqn:E; [|reflexivity].
    apply id_iff in E. destruct E. exfalso. apply N. congruence. }
  rewrite <- K, O, K. reflexivity.
Qed.
Lemma requested_other_item : forall strict st item count q inv slot n q' i s, n <> item ->
  requested (fst (set_item_request strict st item count q inv slot)) n q' i s = requested st n q' i s.
Proof.
  intros strict st item count q inv slot n q' i s N.
  pose proof (others_items strict st item count q inv slot) as O.
  assert (K : forall l, requested (other_items item l) n q' i s = requested l n q' i s).
  { intros l. apply requested_filter. intros r [A B]. destruct (same_name r item) eqn:E; [|reflexivity].
    apply same_name_iff in E. exfalso. apply N. congruence. }
  rewrite <- K, O, K. reflexivity.
Qed.

(** Asking for zero. *)
Lemma other_items_none : forall st n, ~ mentions (other_items n st) n.
Proof.
  intros st n [r [I J]]. unfold other_items in I. apply filter_In in I. destruct I as [_ I].
  apply same_name_iff in J. rewrite J in I. discriminate.
Qed.
Lemma zero_spec : forall strict st item count q inv slot, count = None \/ count = Some 0 -> all_valid st ->
  set_item_request strict st item count q inv slot = (other_items item st, Ok tt) /\ ~ mentions (other_items item st) item.
Proof.
  intros strict st item count q inv slot C V. split; [|apply other_items_none]. rewrite call_zero by exact C. apply finish_valid.
  unfold all_valid, other_items in *. rewrite Forall_forall in *. intros r I. apply V. apply filter_In in I. tauto.
Qed.
(** Asking for the first time. *)
Definition place_is (i s inv slot : Z) : bool := (i =? inv) && (s =? slot).
Lemma at_place_new : forall i s inv slot c, at_place i s (mkLoc (inv + 1) (Some slot) (Some c)) = if place_is i s inv slot then c else 0.
Proof.
  intros. unfold at_place, place_is. cbn [l_inventory l_stack amount_of l_count].
  replace (inv + 1 =? i + 1) with (i =? inv). 2:{ destruct (i =? inv) eqn:E; symmetry; [apply Z.eqb_eq in E; apply Z.eqb_eq; lia|apply Z.eqb_neq in E; apply Z.eqb_neq; lia]. }
  rewrite (Z.eqb_sym slot s). reflexivity.
Qed.
Definition new_valid (c : Z) (q : pystr) (inv slot : Z) : Prop :=
  0 <= c < 2 ^ 32 /\ In q qualities /\ 0 <= inv + 1 < 2 ^ 32 /\ 0 <= slot < 2 ^ 32.
Lemma loc_valid_new : forall c q inv slot, new_valid c q inv slot -> loc_valid (mkLoc (inv + 1) (Some slot) (Some c)) = true.
Proof.
  intros c q inv slot [A [_ [B D]]]. unfold loc_valid. cbn [l_inventory l_stack l_count opt_ok].
  rewrite !andb_true_iff, !uint32_iff. unfold between. auto.
Qed.
Lemma first_spec : forall strict st item c q inv slot, c <> 0 -> ~ mentions_quality st item q -> all_valid st ->
  let s0 := match slot with Some s => s | None => Z.of_nat (length st) end in
  new_valid c q inv s0 ->
  exists st', set_item_request strict st item (Some c) q inv slot = (st', Ok tt) /\ all_valid st' /\
    (forall i s, requested st' item q i s = if place_is i s inv s0 then c else 0).
Proof.
  intros strict st item c q inv slot C N V s0 W. rewrite call_first by auto. fold s0. eexists. split; [apply finish_valid|].
  - apply Forall_app. split; [exact V|]. constructor; [|constructor]. unfold req_valid. cbn [r_quality r_locs r_grid opt_ok forallb].
    rewrite (loc_valid_new c q inv s0 W). rewrite (proj2 (one_of_iff qualities q)) by apply W. reflexivity.
  - split.
    + apply Forall_app. split; [exact V|]. constructor; [|constructor]. unfold req_valid. cbn [r_quality r_locs r_grid opt_ok forallb].
      rewrite (loc_valid_new c q inv s0 W). rewrite (proj2 (one_of_iff qualities q)) by apply W. reflexivity.
    + intros i s. rewrite requested_end, requested_none by exact N. rewrite (in_req_this item q i s _ [mkLoc (inv + 1) (Some s0) (Some c)]) by reflexivity.
      cbn [map]. rewrite sum_cons. cbn [sum fold_right]. rewrite at_place_new. lia.
Qed.
(** Asking again. *)
Definition stored_at (st : list req) (n q : pystr) (inv slot : Z) : Prop :=
  exists r l x, In r st /\ r_name r = Some n /\ r_quality r = Some q /\ r_locs r = Some l /\ In x l /\ l_inventory x = inv /\ l_stack x = Some slot.
Lemma again_spec : forall strict st item c q inv slot, c <> 0 -> mentions_quality st item q -> all_valid st -> has_slots st ->
  ~ stored_at st item q inv slot -> new_valid c q inv slot ->
  exists st', set_item_request strict st item (Some c) q inv (Some slot) = (st', Ok tt) /\ all_valid st' /\ has_slots st' /\
    (forall i s, requested st' item q i s = requested st item q i s + if place_is i s inv slot then c else 0).
Proof.
  intros strict st item c q inv slot C M V H N W.
  destruct (call_again strict st item c q inv (Some slot) C M) as [a [r [b [E [R1 [R2 [_ [_ Z1]]]]]]]].
  assert (RL : exists l, r_locs r = Some l).
  { unfold has_slots in H. rewrite Forall_forall in H. specialize (H r). destruct (r_locs r) as [l|]; [eauto|].
    exfalso. apply H; [subst; apply in_elt|reflexivity]. }
  destruct RL as [l RL]. destruct (Z1 l RL) as [[l1 [x [l2 [L [X1 [X2 _]]]]]]|[_ Q]].
  - exfalso. apply N. exists r, l, x. repeat split; auto; subst; apply in_elt.
  - rewrite Q. subst st. apply forall_mid in V. destruct V as [V1 [V2 V3]].
    assert (V' : all_valid (a ++ mkReq (r_name r) (r_quality r) (Some (l ++ [mkLoc (inv + 1) (Some slot) (Some c)])) (r_grid r) :: b)).
    { apply forall_mid_intro; auto. unfold req_valid in *. rewrite !andb_true_iff in *. cbn [r_quality r_locs r_grid opt_ok].
      rewrite RL in V2. cbn [opt_ok] in V2. destruct V2 as [[A B] D]. repeat split; auto. rewrite forallb_app, B. cbn [forallb andb].
      rewrite (loc_valid_new c q inv slot W). reflexivity. }
    eexists. split; [now apply finish_valid|]. split; [exact V'|]. split.
    + apply forall_mid in H. destruct H as [H1 [H2 H3]]. apply forall_mid_intro; auto. discriminate.
    + intros i s. rewrite !requested_mid.
      rewrite (in_req_this item q i s r l R1 R2 RL).
      rewrite (in_req_this item q i s _ (l ++ [mkLoc (inv + 1) (Some slot) (Some c)])) by auto.
      rewrite map_app, sum_app. cbn [map]. rewrite sum_cons. cbn [sum fold_right]. rewrite at_place_new. lia.
Qed.

(** ** Histories of the first inventory *)
Lemma from_one_slots : forall st, from_one st -> has_slots st.
Proof.
  intros st H. unfold from_one, has_slots in *. rewrite Forall_forall in *. intros r I. specialize (H r I).
  destruct (r_locs r); [discriminate|destruct H].
Qed.
Lemma from_one_not_stored : forall st n q slot, from_one st -> ~ stored_at st n q 0 slot.
Proof.
  intros st n q slot H [r [l [x [I [_ [_ [L [X [Y _]]]]]]]]]. unfold from_one in H. rewrite Forall_forall in H. specialize (H r I).
  rewrite L, Forall_forall in H. now apply (H x X).
Qed.
Lemma requested_not_mentioned : forall st n q i s, ~ mentions st n -> requested st n q i s = 0.
Proof. intros st n q i s N. apply requested_none. intros [r [I [J _]]]. apply N. exists r. auto. Qed.

Lemma call_from_one : forall strict st c, from_one st -> from_one (fst (do_call strict st c)).
Proof.
  intros strict st c H. unfold do_call. destruct (Z.eq_dec (c_count c) 0) as [Z0|C].
  - rewrite Z0, call_zero by auto. destruct (finish_cases strict st (other_items (c_item c) st)) as [-> | ->]; [exact H|].
    unfold from_one, other_items in *. rewrite Forall_forall in *. intros r I. apply H. apply filter_In in I. tauto.
  - destruct (mentions_dec st (c_item c) (c_quality c)) as [M|M].
    + destruct (call_again strict st (c_item c) (c_count c) (c_quality c) 0 (Some (c_slot c)) C M) as [a [r [b [E [R1 [R2 [_ [Z0 Z1]]]]]]]].
      destruct (r_locs r) as [l|] eqn:RL; [|now rewrite Z0].
      assert (HR : Forall (fun x => l_inventory x <> 0) l).
      { unfold from_one in H. rewrite Forall_forall in H. specialize (H r). rewrite RL in H. apply H. subst. apply in_elt. }
      destruct (Z1 l eq_refl) as [[l1 [x [l2 [L [X1 _]]]]]|[_ ->]].
      * exfalso. rewrite Forall_forall in HR. apply (HR x); [subst; apply in_elt|exact X1].
      * match goal with |- context [finish _ _ ?l] => destruct (finish_cases strict st l) as [-> | ->] end; [exact H|].
        subst st. apply forall_mid in H. destruct H as [H1 [_ H3]]. apply forall_mid_intro; auto. cbn [r_locs].
        apply Forall_app. split; [exact HR|]. constructor; [cbn [l_inventory]; lia|constructor].
    + rewrite call_first by auto.
      match goal with |- context [finish _ _ ?l] => destruct (finish_cases strict st l) as [-> | ->] end; [exact H|].
      apply Forall_app. split; [exact H|]. constructor; [|constructor]. cbn [r_locs]. constructor; [cbn [l_inventory]; lia|constructor].
Qed.

Lemma call_history : forall strict st c, from_one st -> all_valid st -> proper c ->
  snd (do_call strict st c) = Ok tt /\ from_one (fst (do_call strict st c)) /\ all_valid (fst (do_call strict st c)) /\
  forall n q s, requested (fst (do_call strict st c)) n q 0 s = accumulated n q s (requested st n q 0 s) c.
Proof.
  intros strict st c F V [P1 [P2 P3]]. split; [|split; [apply call_from_one; exact F|]].
  - unfold do_call. destruct (Z.eq_dec (c_count c) 0) as [Z0|C].
    + rewrite Z0. rewrite (proj1 (zero_spec strict st (c_item c) (Some 0) (c_quality c) 0 (Some (c_slot c)) (or_intror eq_refl) V)). reflexivity.
    + assert (W : new_valid (c_count c) (c_quality c) 0 (c_slot c)) by (unfold new_valid; repeat split; auto; lia).
      destruct (mentions_dec st (c_item c) (c_quality c)) as [M|M].
      * destruct (again_spec strict st (c_item c) (c_count c) (c_quality c) 0 (c_slot c) C M V (from_one_slots _ F) (from_one_not_stored _ _ _ _ F) W) as [st' [-> _]]. reflexivity.
      * destruct (first_spec strict st (c_item c) (c_count c) (c_quality c) 0 (Some (c_slot c)) C M V W) as [st' [-> _]]. reflexivity.
  - unfold do_call, accumulated. destruct (Z.eq_dec (c_count c) 0) as [Z0|C].
    + rewrite Z0. destruct (zero_spec strict st (c_item c) (Some 0) (c_quality c) 0 (Some (c_slot c)) (or_intror eq_refl) V) as [Q N]. split.
      * rewrite Q. cbn [fst]. unfold all_valid, other_items in *. rewrite Forall_forall in *. intros r I. apply V. apply filter_In in I. tauto.
      * intros n q s. destruct (pystr_eqb (c_item c) n) eqn:E; cbn [negb].
        -- apply pystr_eqb_eq in E. subst n. rewrite Q. cbn [fst Z.eqb]. now apply requested_not_mentioned.
        -- apply requested_other_item. intros X. subst n. rewrite (proj2 (pystr_eqb_eq _ _) eq_refl) in E. discriminate.
    + rewrite (proj2 (Z.eqb_neq _ _) C).
      assert (W : new_valid (c_count c) (c_quality c) 0 (c_slot c)) by (unfold new_valid; repeat split; auto; lia).
      assert (K : exists st', set_item_request strict st (c_item c) (Some (c_count c)) (c_quality c) 0 (Some (c_slot c)) = (st', Ok tt) /\ all_valid st' /\
        (forall i s, requested st' (c_item c) (c_quality c) i s = requested st (c_item c) (c_quality c) i s + if place_is i s 0 (c_slot c) then c_count c else 0)).
      { destruct (mentions_dec st (c_item c) (c_quality c)) as [M|M].
        - destruct (again_spec strict st (c_item c) (c_count c) (c_quality c) 0 (c_slot c) C M V (from_one_slots _ F) (from_one_not_stored _ _ _ _ F) W) as [st' [A [B [_ D]]]]. eauto.
        - destruct (first_spec strict st (c_item c) (c_count c) (c_quality c) 0 (Some (c_slot c)) C M V W) as [st' [A [B D]]]. exists st'.
          split; [exact A|]. split; [exact B|]. intros i s. rewrite D, requested_none by exact M. reflexivity. }
      destruct K as [st' [A [B D]]]. split; [now rewrite A|]. intros n q s.
      destruct (pystr_eqb (c_item c) n) eqn:E; cbn [negb].
      * apply pystr_eqb_eq in E. subst n. destruct (pystr_eqb (c_quality c) q) eqn:E2.
        -- apply pystr_eqb_eq in E2. subst q. rewrite A. cbn [fst andb]. rewrite D. unfold place_is. cbn [Z.eqb andb].
           rewrite (Z.eqb_sym s). destruct (c_slot c =? s); lia.
        -- cbn [andb]. apply requested_other_id; [exact C|]. intros X. inversion X; subst q. rewrite (proj2 (pystr_eqb_eq _ _) eq_refl) in E2. discriminate.
      * apply requested_other_item. intros X. subst n. rewrite (proj2 (pystr_eqb_eq _ _) eq_refl) in E. discriminate.
Qed.
Lemma history : forall strict cs st, from_one st -> all_valid st -> Forall proper cs ->
  Forall (fun r => r = Ok tt) (snd (run_all (do_call strict) st cs)) /\
  from_one (fst (run_all (do_call strict) st cs)) /\ all_valid (fst (run_all (do_call strict) st cs)) /\
  forall n q s, requested (fst (run_all (do_call strict) st cs)) n q 0 s = fold_left (accumulated n q s) cs (requested st n q 0 s).
Proof.
  intros strict. induction cs as [|c cs IH]; intros st F V P; cbn [run_all fold_left].
  - split; [constructor|]. auto.
  - destruct (call_history strict st c F V (Forall_inv P)) as [O [F1 [V1 R]]].
    destruct (do_call strict st c) as [st1 r]. cbn [fst snd] in *.
    destruct (IH st1 F1 V1 (Forall_inv_tail P)) as [O2 [F2 [V2 R2]]]. destruct (run_all (do_call strict) st1 cs) as [st2 rs]. cbn [fst snd] in *.
    split; [constructor; auto|]. split; [exact F2|]. split; [exact V2|]. intros n q s. rewrite R2, R. reflexivity.
Qed.
