(** Proofs about reading, refusing and exporting the tune of a speaker. *)
From Coq Require Import ZArith NArith List Bool String Lia.
From Verif Require Import Common Dict Assign_Model Tune_Model Tune_Spec Tune_Proofs Speaker_Model Speaker_Spec Speaker_Proofs.
Import ListNotations.
Local Open Scope string_scope.
Local Open Scope list_scope.
Local Open Scope Z_scope.

Lemma instrument_reads E s : coherent E -> reads_instrument E s (instrument_name E s).
Proof.
  intros C. unfold instrument_name. destruct (iid s) as [|k|x|x|x] eqn:I; cbn [find_id bind option_map as_val].
  1,3,4: apply ri_not; intros; congruence.
  2:{ eapply ri_list. exact I. }
  destruct (tables_of E s) as [t|] eqn:T.
  - destruct (tables_plays _ _ _ C T) as [l [S [_ [_ [-> P]]]]].
    destruct (dget Z.eqb (t_names (extract l)) k) as [[n ns]|] eqn:D; cbn [bind option_map as_val fst].
    + apply names_get in D; [|exact S]. eapply ri_at; eassumption.
    + apply ri_not; [intros; congruence|]. intros l' k' i P' K' A. rewrite (plays_fun _ _ _ _ P' P) in A.
      rewrite I in K'. injection K' as <-. apply names_get in A; [|exact S]. congruence.
  - cbn. apply ri_not; [intros; congruence|]. intros l k' i P. destruct (silent _ _ _ T P).
Qed.
Lemma note_reads E s : coherent E -> reads_note E s (note_name E s).
Proof.
  intros C. unfold note_name.
  assert (Q : forall e, (forall z, iid s <> VList z) ->
    (forall l k i ns, plays E s l -> iid s = VInt k -> at_place l k (i, ns) -> e = Some (i, ns)) ->
    (forall i ns, e = Some (i, ns) -> exists l k, plays E s l /\ iid s = VInt k /\ at_place l k (i, ns)) ->
    reads_note E s (let* n := find_note e (nid s) in Ok (as_val n))).
  { intros e NL U V. destruct (nid s) as [|j|x|x|x] eqn:N; cbn [find_note bind as_val].
    - apply rn_not; [exact NL|intros; congruence|]. intros l k i ns P K A. rewrite N. split; intros; congruence.
    - destruct e as [[i ns]|].
      + destruct (V _ _ eq_refl) as [l [k [P [K A]]]]. cbn [snd]. destruct (note_at ns j) as [[n H]|H].
        * pose proof (proj2 (find_note_at i ns j n) H) as F. cbn in F. injection F as F. rewrite F. eapply rn_at; eassumption.
        * destruct (if j <? 0 then None else nth_error ns (Z.to_nat j)) as [n|] eqn:F.
          { exfalso. apply (H n). apply (find_note_at i ns j n). cbn. rewrite F. reflexivity. }
          apply rn_not; [exact NL|intros; congruence|]. intros l' k' i' ns' P' K' A'. pose proof (U _ _ _ _ P' K' A') as X.
          injection X as <- <-. rewrite N. split; [congruence|]. intros j' n J. injection J as <-. apply H.
      + apply rn_not; [exact NL|intros; congruence|]. intros l' k' i' ns' P' K' A'. pose proof (U _ _ _ _ P' K' A'). discriminate.
    - destruct e as [[i ns]|].
      + destruct (V _ _ eq_refl) as [l [k [P [K A]]]]. cbn [fst]. destruct (pystr_eqb x (str "self")) eqn:X.
        * apply pystr_eqb_eq in X. subst x. eapply rn_self; eassumption.
        * apply rn_not; [exact NL|intros; congruence|]. intros l' k' i' ns' P' K' A'. rewrite N. split; [|intros; congruence].
          intros H. injection H as H. apply pystr_eqb_eq in H. congruence.
      + apply rn_not; [exact NL|intros; congruence|]. intros l' k' i' ns' P' K' A'. pose proof (U _ _ _ _ P' K' A'). discriminate.
    - apply rn_not; [exact NL|intros; congruence|]. intros l k i ns P K A. rewrite N. split; intros; congruence.
    - eapply rn_list. right. exact N. }
  destruct (iid s) as [|k|x|x|x] eqn:I; cbn [find_id bind].
  1,3,4: apply Q; [intros; congruence|intros; congruence|discriminate].
  2:{ eapply rn_list. left. exact I. }
  apply Q; [intros; congruence| |].
  - intros l k' i ns P K A. injection K as <-. change (tables_of E s) with (dget pystr_eqb (reg E) (sp s)). unfold plays in P.
    rewrite P. apply names_get; [exact (proj1 (plays_sound _ _ _ C P))|exact A].
  - intros i ns. destruct (tables_of E s) as [t|] eqn:T; [|discriminate]. destruct (tables_plays _ _ _ C T) as [l [S [_ [_ [-> P]]]]].
    intros D. apply names_get in D; [|exact S]. exists l, k. repeat split; try assumption; exact (proj1 D) || exact (proj2 D).
Qed.

(** What cannot be looked up. *)
Lemma list_raises E m s z v w l : m = MStrict \/ m = MPedantic -> plays E s l -> iid s = VList z -> 
  (accepts E NoteId v w -> assign E NoteId m s v = (s, ([], Some TypeError)))
  /\ (accepts E NoteName v w -> assign E NoteName m s v = (s, ([], Some TypeError))).
Proof.
  intros M P I. pose proof (proj2 (strict_iff m) M) as MM. assert (N : m <> MNone) by (destruct M as [->| ->]; discriminate).
  change (dget pystr_eqb (reg E) (sp s)) with (tables_of E s) in P. unfold plays in P.
  change (dget pystr_eqb (reg E) (sp s)) with (tables_of E s) in P.
  split; intros A; rewrite (assign_attempt _ _ _ _ _ N), (proj2 (coerce_iff E _ v w) A); cbn [attempt check].
  - unfold check_nid. rewrite MM, P, I. reflexivity.
  - unfold check_nname, instrument_name. rewrite MM, P, I. reflexivity.
Qed.
Lemma list_minimum E s z v w : iid s = VList z -> accepts E NoteName v w -> w <> VNone ->
  assign E NoteName MMinimum s v = (mkParams (sp s) (iid s) (iname s) (nid s) w, ([], Some TypeError)).
Proof.
  intros I A W. rewrite assign_attempt by discriminate. rewrite (proj2 (coerce_iff E _ v w) A). cbn [attempt check].
  unfold check_nname. cbn [strict mode_le negb]. change (strict MMinimum) with false. cbn iota. unfold store_nname.
  destruct w as [|x|x|x|x]; cbn [is_none]; [congruence|..]; unfold look_note, instrument_name;
    change (iid (with_nname s _)) with (iid s); rewrite I; unfold with_nname; rewrite ?I; reflexivity.
Qed.

(** Validation of any state. *)
Lemma field_ok w check acc r : field w check acc = Ok r -> fst r = fst acc && match w with Some _ => true | None => false end.
Proof.
  destruct w as [w|]; cbn; [|intros H; injection H as <-; cbn; rewrite andb_false_r; reflexivity].
  destruct (check w) as [ws|]; [|discriminate]. cbn. intros H. injection H as <-. cbn. rewrite andb_true_r. reflexivity.
Qed.
Definition okb {A} (o : option A) : bool := match o with Some _ => true | None => false end.
Lemma unlisted E m s : (forall z, iid s <> VList z) -> forall x v w, accepts E x v w -> exists ws, check E x m s w = Ok ws.
Proof.
  intros L x v w A. assert (NL : forall z, w <> VList z) by (intros z ->; inversion A).
  assert (F : forall t, exists e, find_id t (iid s) = Ok e) by (intros t; destruct (iid s) eqn:I; cbn; eauto; destruct (L _ eq_refl)).
  assert (G : forall t, exists e, find_id t w = Ok e) by (intros t; destruct w; cbn; eauto; destruct (NL _ eq_refl)).
  assert (H : forall t, exists e, find_name t w = Ok e) by (intros t; destruct w; cbn; eauto; destruct (NL _ eq_refl)).
  destruct x; cbn [check]; unfold check_iid, check_iname, check_nid, check_nname; destruct (strict m); eauto;
    destruct (tables_of E s) as [t|] eqn:T; eauto.
  - destruct (is_none w); [eauto|]. destruct (G (Some t)) as [e ->]. cbn. eauto.
  - destruct (is_none w); [eauto|]. destruct (H (Some t)) as [e ->]. cbn. eauto.
  - destruct (F (Some t)) as [e ->]. cbn [bind]. destruct e as [e|]; [|eauto]. destruct (is_none w); [eauto|].
    assert (K : exists n, find_note (Some e) w = Ok n) by (destruct w; cbn; eauto; destruct (NL _ eq_refl)). destruct K as [n ->]. cbn. eauto.
  - unfold instrument_name. rewrite T. destruct (F (Some t)) as [e ->]. cbn [bind].
    assert (K : exists d, find_name (Some t) (as_val (option_map fst e)) = Ok d) by (destruct e; cbn; eauto). destruct K as [d ->]. cbn [bind].
    destruct d as [d|]; [|eauto]. destruct (is_none w); [eauto|].
    assert (K : exists b, in_entry d w = Ok b) by (destruct w; cbn; eauto; destruct (NL _ eq_refl)). destruct K as [b ->]. cbn. eauto.
Qed.
Lemma field_goes E m s x v acc : (forall z, iid s <> VList z) -> exists r, field (coerce E x v) (check E x m s) acc = Ok r.
Proof.
  intros L. destruct (coerce E x v) as [w|] eqn:K; cbn [field]; [|eauto].
  apply coerce_iff in K. destruct (unlisted E m s L x v w K) as [ws ->]. cbn. eauto.
Qed.
Lemma validate_any E m force others s : (forall z, iid s <> VList z) -> mode_eq m MNone && negb force = false ->
  exists ws, validate E m force others s
    = (if others && okb (coerce E InstrumentId (iid s)) && okb (coerce E InstrumentName (iname s))
         && okb (coerce E NoteId (nid s)) && okb (coerce E NoteName (nname s))
       then (mkParams (sp s) (or_old (as_id E (iid s)) (iid s)) (or_old (as_name (iname s)) (iname s))
                (or_old (as_id E (nid s)) (nid s)) (or_old (as_name (nname s)) (nname s)), (0%nat, ws, None))
       else (s, (1%nat, ws, None))).
Proof.
  intros L M. unfold validate. rewrite M.
  destruct (field_goes E m s InstrumentId (iid s) (others, []) L) as [a A]. pose proof (field_ok _ _ _ _ A) as A'. cbn [coerce] in A. change (check E InstrumentId m s) with (check_iid E m s) in A. rewrite A. cbn [bind].
  destruct (field_goes E m s InstrumentName (iname s) a L) as [b B]. pose proof (field_ok _ _ _ _ B) as B'. cbn [coerce] in B. change (check E InstrumentName m s) with (check_iname E m s) in B. rewrite B. cbn [bind].
  destruct (field_goes E m s NoteId (nid s) b L) as [c C]. pose proof (field_ok _ _ _ _ C) as C'. cbn [coerce] in C. change (check E NoteId m s) with (check_nid E m s) in C. rewrite C. cbn [bind].
  destruct (field_goes E m s NoteName (nname s) c L) as [d D]. pose proof (field_ok _ _ _ _ D) as D'. cbn [coerce] in D. change (check E NoteName m s) with (check_nname E m s) in D. rewrite D. cbn [bind].
  destruct d as [d ws]. cbn [fst] in D'. exists ws. cbn [fst] in A'. unfold okb. rewrite <- A', <- B', <- C', <- D'. destruct d; reflexivity.
Qed.
Lemma okb_iff E x v : okb (coerce E x v) = true <-> exists w, accepts E x v w.
Proof.
  destruct (coerce E x v) as [w|] eqn:K; cbn; split; intros H; try reflexivity; try discriminate.
  - exists w. apply coerce_iff, K.
  - destruct H as [w H]. apply coerce_iff in H. congruence.
Qed.
Lemma validate_refused E m force others s x : (forall z, iid s <> VList z) -> m <> MNone \/ force = true ->
  (forall w, ~ accepts E x (kept_for s x) w) ->
  exists ws, validate E m force others s = (s, (1%nat, ws, None)).
Proof.
  intros L M A.
  assert (MM : mode_eq m MNone && negb force = false).
  { destruct M as [M| ->]; [destruct m; try reflexivity; congruence|destruct (mode_eq m MNone); reflexivity]. }
  destruct (validate_any E m force others s L MM) as [ws H]. exists ws. rewrite H.
  assert (K : okb (coerce E x (kept_for s x)) = false).
  { destruct (okb (coerce E x (kept_for s x))) eqn:K; [|reflexivity]. apply okb_iff in K as [w K]. destruct (A _ K). }
  destruct x; cbn [kept_for] in K; rewrite K, ?andb_false_r; cbn [andb]; rewrite ?andb_false_r; reflexivity.
Qed.
Lemma validate_coerces E m force s w1 w2 w3 w4 : (forall z, iid s <> VList z) -> m <> MNone \/ force = true ->
  accepts E InstrumentId (iid s) w1 -> accepts E InstrumentName (iname s) w2 -> accepts E NoteId (nid s) w3 -> accepts E NoteName (nname s) w4 ->
  exists ws, validate E m force true s = (mkParams (sp s) w1 w2 w3 w4, (0%nat, ws, None)).
Proof.
  intros L M A1 A2 A3 A4.
  assert (MM : mode_eq m MNone && negb force = false).
  { destruct M as [M| ->]; [destruct m; try reflexivity; congruence|destruct (mode_eq m MNone); reflexivity]. }
  destruct (validate_any E m force true s L MM) as [ws H]. exists ws. rewrite H.
  apply coerce_iff in A1, A2, A3, A4. rewrite A1, A2, A3, A4. cbn [coerce] in A1, A2, A3, A4. rewrite A1, A2, A3, A4. reflexivity.
Qed.
(** Export. *)
Lemma export_in s k v : In (k, v) (export s) <->
  (k = str "instrument_id" /\ v = iid s \/ k = str "note_id" /\ v = nid s) /\ v <> VNone /\ v <> VInt 0.
Proof.
  assert (Q : forall q x, In (k, v) (shown q x) <-> k = str q /\ v = x /\ v <> VNone /\ v <> VInt 0).
  { intros q x. unfold shown. destruct x as [|[|p|p]|y|y|y]; cbn [In]; split; intros H;
      try (destruct H as [H|[]]; injection H as <- <-; repeat split; congruence);
      try (destruct H as [-> [-> [H1 H2]]]; congruence); try (destruct H as [-> [-> [H1 H2]]]; left; reflexivity); destruct H. }
  unfold export. rewrite in_app_iff, !Q. tauto.
Qed.
Lemma export_keys s : map fst (export s) = [] \/ map fst (export s) = [str "instrument_id"] \/ map fst (export s) = [str "note_id"]
  \/ map fst (export s) = [str "instrument_id"; str "note_id"].
Proof. unfold export, shown. destruct (iid s) as [|[|p|p]|y|y|y], (nid s) as [|[|q|q]|z|z|z]; cbn; tauto. Qed.
