(** Proofs about the tune of a speaker. *)
From Coq Require Import ZArith NArith List Bool String Lia.
From Verif Require Import Common Dict Assign_Model Tune_Model Tune_Spec Tune_Proofs Speaker_Model Speaker_Spec.
Import ListNotations.
Local Open Scope string_scope.
Local Open Scope list_scope.
Local Open Scope Z_scope.

(** The tables. *)
Lemma names_get l k x : sound_instruments l -> (dget Z.eqb (t_names (extract l)) k = Some x <-> at_place l k x).
Proof. intros S. apply extract_iff in S as [A _]. rewrite (A k x), extract_raw. reflexivity. Qed.
Lemma index_keys l n : dget pystr_eqb (t_index (extract l)) n <> None <-> In n (map fst l).
Proof.
  induction l as [|[a ns] l IH] using rev_ind; [cbn; split; [congruence|intros []]|].
  destruct (extract_snoc l a ns) as [d [_ ->]]. unfold appended. cbn [t_index]. rewrite sget', map_app, in_app_iff, <- IH. cbn.
  destruct (pystr_eqb a n) eqn:E.
  - apply pystr_eqb_eq in E. split; [intros _; right; left; exact E|discriminate].
  - split; [intros H; left; exact H|intros [H|[H|[]]]; [exact H|]]. apply pystr_eqb_eq in H. congruence.
Qed.
Lemma index_none l n : dget pystr_eqb (t_index (extract l)) n = None <-> ~ In n (map fst l).
Proof.
  rewrite <- index_keys. destruct (dget pystr_eqb (t_index (extract l)) n); split; intros H; try congruence.
  destruct H; discriminate.
Qed.
Lemma index_some l n d : sound_instruments l -> dget pystr_eqb (t_index (extract l)) n = Some d ->
  exists k ns, at_place l k (n, ns) /\ says d k ns.
Proof.
  intros S D. assert (I : In n (map fst l)) by (apply index_keys; rewrite D; discriminate).
  apply in_map_iff in I as [[n' ns] [E I]]. cbn in E. subst n'. destruct (in_at _ _ I) as [k K].
  pose proof S as A. apply extract_iff in A as [_ A]. rewrite extract_raw in A.
  destruct (proj1 (A n ns k) K) as [d' [D' X]]. rewrite D in D'. injection D' as <-. exists k, ns. split; assumption.
Qed.
Lemma index_at l n k ns : sound_instruments l -> at_place l k (n, ns) ->
  exists d, dget pystr_eqb (t_index (extract l)) n = Some d /\ says d k ns.
Proof. intros S K. apply extract_iff in S as [_ A]. rewrite extract_raw in A. exact (proj1 (A n ns k) K). Qed.
Lemma tables_plays E s t : coherent E -> tables_of E s = Some t -> exists l, sound_instruments l /\ countable l /\
  Forall (fun x => countable (snd x)) l /\ t = extract l /\ plays E s l.
Proof.
  intros C T. destruct (C _ _ T) as [l [S [K [F ->]]]]. exists l. repeat split; try assumption; try exact (proj1 S); try exact (proj2 S).
Qed.
Lemma extract_inj l l' : extract l = extract l' -> l = l'.
Proof. intros H. rewrite <- (extract_raw l), <- (extract_raw l'), H. reflexivity. Qed.
Lemma plays_fun E s l l' : plays E s l -> plays E s l' -> l = l'.
Proof. unfold plays. intros H H'. apply extract_inj. congruence. Qed.
Lemma plays_sound E s l : coherent E -> plays E s l -> sound_instruments l /\ countable l /\ Forall (fun x => countable (snd x)) l.
Proof.
  intros C H. destruct (C _ _ H) as [l' [S [K [F E']]]]. apply extract_inj in E'. subst l'. repeat split; try assumption; [exact (proj1 S)|exact (proj2 S)].
Qed.
Lemma silent E s l : tables_of E s = None -> ~ plays E s l.
Proof. unfold tables_of, plays. congruence. Qed.

(** Which values are accepted. *)
Lemma uint32_iff z : uint32 z = true <-> 0 <= z < 4294967296.
Proof. unfold uint32. rewrite andb_true_iff. lia. Qed.
Definition coerce (E : env) (x : what) (v : val) : option val :=
  match x with InstrumentId | NoteId => as_id E v | InstrumentName | NoteName => as_name v end.
Lemma as_id_iff E x v w : x = InstrumentId \/ x = NoteId -> (as_id E v = Some w <-> accepts E x v w).
Proof.
  intros X. split.
  - destruct v; cbn; try discriminate.
    + injection 1 as <-. constructor.
    + destruct (uint32 z) eqn:U; [|discriminate]. apply uint32_iff in U. injection 1 as <-. constructor; assumption.
    + destruct (numeral E s) eqn:N; [|discriminate]. destruct (uint32 z) eqn:U; [|discriminate]. apply uint32_iff in U.
      injection 1 as <-. eapply a_text; eassumption.
  - intros H. destruct H as [x|x z _ U|x s z _ N U|x s Y]; cbn.
    + reflexivity.
    + apply uint32_iff in U. rewrite U. reflexivity.
    + apply uint32_iff in U. rewrite N, U. reflexivity.
    + destruct X, Y; congruence.
Qed.
Lemma as_name_iff E x v w : x = InstrumentName \/ x = NoteName -> (as_name v = Some w <-> accepts E x v w).
Proof.
  intros X. split.
  - destruct v; cbn; try discriminate; injection 1 as <-; constructor; assumption.
  - intros H. destruct H as [x|x z Y _|x s z Y _ _|x s _]; cbn; try reflexivity; destruct X, Y; congruence.
Qed.
Lemma coerce_iff E x v w : coerce E x v = Some w <-> accepts E x v w.
Proof. destruct x; cbn [coerce]; [apply as_id_iff|apply as_name_iff|apply as_id_iff|apply as_name_iff]; auto. Qed.
Lemma accepts_fun E x v w w' : accepts E x v w -> accepts E x v w' -> w = w'.
Proof. rewrite <- !coerce_iff. congruence. Qed.
Lemma accepts_id E x v w : accepts E x v w -> x = InstrumentId \/ x = NoteId -> is_id w.
Proof.
  intros H X. destruct H as [x|x z _ U|x s z _ _ U|x s Y]; [left; reflexivity|right; eexists; split; [reflexivity|exact U]..|].
  destruct X, Y; congruence.
Qed.
Lemma accepts_name E x v w : accepts E x v w -> x = InstrumentName \/ x = NoteName -> is_name w /\ w = v.
Proof.
  intros H X. destruct H as [x|x z Y U|x s z Y _ U|x s Y]; try (destruct X, Y; congruence).
  - split; [left|]; reflexivity.
  - split; [right; eexists|]; reflexivity.
Qed.
Lemma id_accepts E x v : x = InstrumentId \/ x = NoteId -> is_id v -> accepts E x v v.
Proof. intros X [->|[z [-> U]]]; constructor; assumption. Qed.
Lemma name_accepts E x v : x = InstrumentName \/ x = NoteName -> is_name v -> accepts E x v v.
Proof. intros X [->|[z ->]]; constructor; assumption. Qed.

(** What is warned of. *)
Definition check (E : env) (x : what) (m : mode) (s : params) (v : val) : result (list warning) :=
  match x with
  | InstrumentId => check_iid E m s v
  | InstrumentName => check_iname E m s v
  | NoteId => check_nid E m s v
  | NoteName => check_nname E m s v
  end.
Lemma strict_iff m : strict m = true <-> m = MStrict \/ m = MPedantic.
Proof. destruct m; cbn; split; intros H; try discriminate; try reflexivity; try tauto; destruct H; discriminate. Qed.
Lemma unwarned E m s x v : ~ ((m = MStrict \/ m = MPedantic) /\ unknown E s x v) -> warned E m s x v [].
Proof. intros H. right. split; [exact H|reflexivity]. Qed.
Lemma says_self d k ns : says d k ns -> dget pystr_eqb d (str "self") = Some k.
Proof. intros [_ A]. apply A. left. split; reflexivity. Qed.
Lemma says_none d k ns n : says d k ns -> (dget pystr_eqb d n = None <-> ~ In n ns /\ n <> str "self").
Proof.
  intros [S A]. split.
  - intros N. split.
    + intros I. apply in_at in I as [j J]. assert (dget pystr_eqb d n = Some j) by (apply A; right; exact J). congruence.
    + intros ->. assert (dget pystr_eqb d (str "self") = Some k) by (apply A; left; split; reflexivity). congruence.
  - intros [I N]. destruct (dget pystr_eqb d n) as [j|] eqn:D; [|reflexivity]. apply A in D as [[X _]|X]; [contradiction|].
    apply at_in in X. contradiction.
Qed.
Lemma note_at (ns : list pystr) j : (exists n, at_place ns j n) \/ (forall n, ~ at_place ns j n).
Proof.
  unfold at_place. destruct (Z_lt_le_dec j 0); [right; intros n [H _]; lia|].
  destruct (nth_error ns (Z.to_nat j)) eqn:N; [left; eexists; split; [assumption|reflexivity]|right; intros n [_ H]; congruence].
Qed.
Lemma find_note_at i ns j n : find_note (Some (i, ns)) (VInt j) = Ok (Some n) <-> at_place ns j n.
Proof.
  cbn. unfold at_place. destruct (j <? 0) eqn:J; split; intros H; try discriminate; try lia.
  - split; [lia|congruence].
  - f_equal. apply H.
Qed.
Lemma check_warned E x m s v w : coherent E -> proper s -> accepts E x v w ->
  exists ws, check E x m s w = Ok ws /\ warned E m s x w ws.
Proof.
  intros C [PI [PN [QI QN]]] A.
  destruct (strict m) eqn:M.
  2:{ exists []. split; [destruct x; cbn [check]; unfold check_iid, check_iname, check_nid, check_nname; rewrite M; reflexivity|].
      apply unwarned. intros [H _]. apply strict_iff in H. congruence. }
  pose proof (proj1 (strict_iff m) M) as MM.
  destruct (tables_of E s) as [t|] eqn:T.
  2:{ exists []. split; [destruct x; cbn [check]; unfold check_iid, check_iname, check_nid, check_nname; rewrite M, T; reflexivity|].
      apply unwarned. intros [_ H]. destruct H; eapply silent; eassumption. }
  destruct (tables_plays _ _ _ C T) as [l [S [_ [_ [-> P]]]]].
  destruct x; cbn [check].
  - unfold check_iid. rewrite M, T. destruct (accepts_id _ _ _ _ A (or_introl eq_refl)) as [->|[z [-> U]]].
    + exists []. split; [reflexivity|]. apply unwarned. intros [_ H]. inversion H.
    + cbn [is_none find_id bind]. destruct (dget Z.eqb (t_names (extract l)) z) as [e|] eqn:D.
      * exists []. split; [reflexivity|]. apply unwarned. intros [_ H]. inversion H as [l' k P' N| | |]; subst.
        rewrite (plays_fun _ _ _ _ P' P) in N. apply names_get in D; [|exact S]. exact (N _ D).
      * eexists. split; [reflexivity|]. left. split; [exact MM|split; [|reflexivity]]. eapply u_iid; [exact P|].
        intros i I. apply names_get in I; [|exact S]. congruence.
  - unfold check_iname. rewrite M, T. destruct (accepts_name _ _ _ _ A (or_introl eq_refl)) as [[->|[n ->]] _].
    + exists []. split; [reflexivity|]. apply unwarned. intros [_ H]. inversion H.
    + cbn [is_none find_name bind]. destruct (dget pystr_eqb (t_index (extract l)) n) as [e|] eqn:D.
      * exists []. split; [reflexivity|]. apply unwarned. intros [_ H]. inversion H as [|l' k P' N| |]; subst.
        rewrite (plays_fun _ _ _ _ P' P) in N. apply N, index_keys. congruence.
      * eexists. split; [reflexivity|]. left. split; [exact MM|split; [|reflexivity]]. eapply u_iname; [exact P|].
        apply index_none. exact D.
  - unfold check_nid. rewrite M, T.
    assert (U0 : forall z, iid s = VInt z -> dget Z.eqb (t_names (extract l)) z = None -> ~ unknown E s NoteId w).
    { intros z Z1 D H. inversion H as [| |l' k i ns j P' K I N|]; subst. rewrite (plays_fun _ _ _ _ P' P) in I.
      rewrite Z1 in K. injection K as <-. apply names_get in I; [|exact S]. congruence. }
    destruct PI as [PI|[z [PI _]]]; rewrite PI; cbn [find_id bind].
    { exists []. split; [reflexivity|]. apply unwarned. intros [_ H]. inversion H; congruence. }
    destruct (dget Z.eqb (t_names (extract l)) z) as [[i ns]|] eqn:D.
    2:{ exists []. split; [reflexivity|]. apply unwarned. intros [_ H]. exact (U0 z PI D H). }
    apply names_get in D; [|exact S].
    destruct (accepts_id _ _ _ _ A (or_intror eq_refl)) as [->|[j [-> _]]].
    { exists []. split; [reflexivity|]. apply unwarned. intros [_ H]. inversion H. }
    cbn [is_none]. destruct (note_at ns j) as [[n N]|N].
    + exists []. rewrite (proj2 (find_note_at i ns j n) N). split; [reflexivity|]. apply unwarned.
      intros [_ H]. inversion H as [| |l' k i' ns' j' P' K I N'|]; subst. rewrite (plays_fun _ _ _ _ P' P) in I.
      rewrite PI in K. injection K as <-. pose proof (at_fun _ _ _ _ I D) as X. injection X as -> ->. exact (N' _ N).
    + assert (F : find_note (Some (i, ns)) (VInt j) = Ok None).
      { destruct (find_note (Some (i, ns)) (VInt j)) as [[n|]|] eqn:F; [apply find_note_at in F; destruct (N _ F)|reflexivity|discriminate]. }
      rewrite F. eexists. split; [reflexivity|]. left. split; [exact MM|split; [|reflexivity]]. eapply u_nid; eassumption.
  - unfold check_nname, instrument_name. rewrite M, T.
    destruct PI as [PI|[z [PI _]]]; rewrite PI; cbn [find_id bind].
    { exists []. split; [reflexivity|]. apply unwarned. intros [_ H]. inversion H; congruence. }
    destruct (dget Z.eqb (t_names (extract l)) z) as [[i ns]|] eqn:D; cbn [option_map as_val find_name bind].
    2:{ exists []. split; [reflexivity|]. apply unwarned. intros [_ H]. inversion H as [| | |l' k i' ns' n P' K I N X]; subst.
        rewrite (plays_fun _ _ _ _ P' P) in I. rewrite PI in K. injection K as <-. apply names_get in I; [|exact S]. congruence. }
    apply names_get in D; [|exact S]. destruct (index_at l i z ns S D) as [d [X Y]]. cbn [fst]. rewrite X.
    destruct (accepts_name _ _ _ _ A (or_intror eq_refl)) as [[->|[n ->]] _].
    { exists []. split; [reflexivity|]. apply unwarned. intros [_ H]. inversion H. }
    cbn [is_none in_entry bind]. destruct (dget pystr_eqb d n) as [j|] eqn:N.
    + exists []. split; [reflexivity|]. apply unwarned. intros [_ H]. inversion H as [| | |l' k i' ns' n' P' K I N' W]; subst.
      rewrite (plays_fun _ _ _ _ P' P) in I. rewrite PI in K. injection K as <-. pose proof (at_fun _ _ _ _ I D) as V. injection V as -> ->.
      pose proof (proj2 (says_none d z ns n Y) (Logic.conj N' W)). congruence.
    + eexists. split; [reflexivity|]. left. split; [exact MM|split; [|reflexivity]].
      apply (says_none d z ns n Y) in N as [N1 N2]. eapply u_nname; eassumption.
Qed.

(** What is done. *)
Ltac flat := unfold with_iid, with_iname, with_nid, with_nname; cbn [sp iid iname nid nname].
Lemma store_iname_does E s ws v : coherent E -> is_name v ->
  exists s', store_iname E (with_iname s v) ws v = (s', (ws, None)) /\ does E s InstrumentName v s'.
Proof.
  intros C [->|[n ->]]; unfold store_iname; cbn [is_none].
  - eexists. split; [reflexivity|]. flat; apply d_iname_none.
  - cbn [find_name]. change (tables_of E (with_iname s (VStr n))) with (tables_of E s).
    destruct (tables_of E s) as [t|] eqn:T.
    + destruct (tables_plays _ _ _ C T) as [l [S [_ [_ [-> P]]]]].
      destruct (dget pystr_eqb (t_index (extract l)) n) as [d|] eqn:D; cbn [obind].
      * destruct (index_some l n d S D) as [k [ns [K Y]]]. rewrite (says_self _ _ _ Y). eexists. split; [reflexivity|].
        flat; apply d_iname. eapply n_at; eassumption.
      * eexists. split; [reflexivity|]. flat; apply d_iname. apply n_not. intros l' P'. rewrite (plays_fun _ _ _ _ P' P). apply index_none, D.
    + eexists. split; [reflexivity|]. flat; apply d_iname. apply n_not. intros l P. destruct (silent _ _ _ T P).
Qed.
Lemma store_nname_does E s ws v : coherent E -> is_id (iid s) -> is_name v ->
  exists s', store_nname E (with_nname s v) ws v = (s', (ws, None)) /\ does E s NoteName v s'.
Proof.
  intros C PI [->|[n ->]]; unfold store_nname; cbn [is_none].
  - eexists. split; [reflexivity|]. flat; apply d_nname_none.
  - unfold look_note, instrument_name. change (tables_of E (with_nname s (VStr n))) with (tables_of E s).
    change (iid (with_nname s (VStr n))) with (iid s).
    destruct PI as [PI|[z [PI _]]]; rewrite PI; cbn [find_id bind option_map as_val find_name obind].
    { eexists. split; [reflexivity|]. flat; apply d_nname, o_silent. intros. congruence. }
    destruct (tables_of E s) as [t|] eqn:T; cbn [option_map as_val find_name bind obind].
    2:{ eexists. split; [reflexivity|]. flat; apply d_nname, o_silent. intros l k i P. destruct (silent _ _ _ T P). }
    destruct (tables_plays _ _ _ C T) as [l [S [_ [_ [-> P]]]]].
    destruct (dget Z.eqb (t_names (extract l)) z) as [[i ns]|] eqn:D; cbn [option_map as_val find_name bind obind fst].
    2:{ eexists. split; [reflexivity|]. flat; apply d_nname, o_silent. intros l' k i P' K I. rewrite (plays_fun _ _ _ _ P' P) in I.
        rewrite PI in K. injection K as <-. apply names_get in I; [|exact S]. congruence. }
    apply names_get in D; [|exact S]. destruct (index_at l i z ns S D) as [d [X Y]]. rewrite X. cbn [obind].
    destruct (dget pystr_eqb d n) as [j|] eqn:N.
    + eexists. split; [reflexivity|]. flat; apply d_nname. apply (proj2 Y) in N as [[-> ->]|N].
      * eapply o_self; eassumption.
      * eapply o_at; eassumption.
    + apply (says_none d z ns n Y) in N as [N1 N2]. eexists. split; [reflexivity|]. flat; apply d_nname. eapply o_not; eassumption.
Qed.
Lemma assign_attempt E x m s v : m <> MNone ->
  assign E x m s v = attempt s (coerce E x v) (check E x m s)
    (match x with
     | InstrumentId => fun w ws => (with_iid s w, (ws, None))
     | InstrumentName => fun w ws => store_iname E (with_iname s w) ws w
     | NoteId => fun w ws => (with_nid s w, (ws, None))
     | NoteName => fun w ws => store_nname E (with_nname s w) ws w
     end).
Proof. intros M. destruct x, m; try congruence; reflexivity. Qed.
Lemma assign_does E x m s v w : coherent E -> proper s -> m <> MNone -> accepts E x v w ->
  exists s' ws, assign E x m s v = (s', (ws, None)) /\ does E s x w s' /\ warned E m s x w ws.
Proof.
  intros C P M A. rewrite (assign_attempt E x m s v M). pose proof (proj2 (coerce_iff E x v w) A) as K. rewrite K. cbn [attempt].
  destruct (check_warned E x m s v w C P A) as [ws [W1 W2]]. rewrite W1.
  destruct x.
  - eexists _, _. split; [reflexivity|]. split; [constructor|exact W2].
  - destruct (store_iname_does E s ws w C (proj1 (accepts_name _ _ _ _ A (or_introl eq_refl)))) as [s' [H1 H2]].
    exists s', ws. split; [exact H1|split; assumption].
  - eexists _, _. split; [reflexivity|]. split; [constructor|exact W2].
  - destruct (store_nname_does E s ws w C (proj1 P) (proj1 (accepts_name _ _ _ _ A (or_intror eq_refl)))) as [s' [H1 H2]].
    exists s', ws. split; [exact H1|split; assumption].
Qed.
Lemma assign_refuses E x m s v : m <> MNone -> (forall w, ~ accepts E x v w) ->
  assign E x m s v = (s, ([], Some DataFormatError)).
Proof.
  intros M A. rewrite (assign_attempt E x m s v M). destruct (coerce E x v) as [w|] eqn:K; [|reflexivity].
  apply coerce_iff in K. destruct (A _ K).
Qed.
Lemma accepts_dec E x v : (exists w, accepts E x v w) \/ (forall w, ~ accepts E x v w).
Proof.
  destruct (coerce E x v) as [w|] eqn:K; [left; exists w; apply coerce_iff, K|right].
  intros w A. apply coerce_iff in A. congruence.
Qed.
Lemma note_fun E s n k k' : coherent E -> note_of E s n k -> note_of E s n k' -> k = k'.
Proof.
  intros C H H'.
  assert (G : forall l k i ns l' k' i' ns', plays E s l -> iid s = VInt k -> at_place l k (i, ns) -> plays E s l' -> iid s = VInt k' ->
              at_place l' k' (i', ns') -> k = k' /\ i = i' /\ ns = ns' /\ sound_notes ns).
  { intros l q i ns l' q' i' ns' P K I P' K' I'. pose proof (plays_fun _ _ _ _ P P') as <-. rewrite K in K'. injection K' as <-.
    pose proof (at_fun _ _ _ _ I I') as X. injection X as <- <-. repeat split.
    - destruct (plays_sound _ _ _ C P) as [[_ F] _]. rewrite Forall_forall in F. exact (proj1 (F _ (at_in _ _ _ I))).
    - destruct (plays_sound _ _ _ C P) as [[_ F] _]. rewrite Forall_forall in F. exact (proj2 (F _ (at_in _ _ _ I))). }
  destruct H as [l q i ns n j P K I J|l q i ns P K I|l q i ns n P K I N X|n N];
    inversion H' as [l' q' i' ns' n' j' P' K' I' J'|l' q' i' ns' P' K' I'|l' q' i' ns' n' P' K' I' N' X'|n' N']; subst;
    try (destruct (G _ _ _ _ _ _ _ _ P K I P' K' I') as [<- [<- [<- [D O]]]]); try reflexivity.
  - f_equal. exact (proj1 (NoDup_at ns) D _ _ _ J J').
  - destruct (O (at_in _ _ _ J)).
  - destruct (N' (at_in _ _ _ J)).
  - exfalso. eapply N'; eassumption.
  - destruct (O (at_in _ _ _ J')).
  - congruence.
  - exfalso. eapply N'; eassumption.
  - destruct (N (at_in _ _ _ J')).
  - congruence.
  - exfalso. eapply N; eassumption.
  - exfalso. eapply N; eassumption.
Qed.
Lemma number_fun E s n k k' : coherent E -> number_of E s n k -> number_of E s n k' -> k = k'.
Proof.
  intros C H H'. destruct H as [l q n ns P I|n N]; inversion H' as [l' q' n' ns' P' I'|n' N']; subst; try reflexivity.
  - pose proof (plays_fun _ _ _ _ P P') as <-. f_equal. destruct (plays_sound _ _ _ C P) as [[D _] _].
    apply (proj1 (NoDup_at (map fst l)) D q q' n).
    + destruct I as [B I]. split; [exact B|]. rewrite nth_error_map, I. reflexivity.
    + destruct I' as [B I']. split; [exact B|]. rewrite nth_error_map, I'. reflexivity.
  - exfalso. apply (N' l P). apply at_in in I. apply (in_map fst) in I. exact I.
  - exfalso. apply (N _ P'). apply at_in in I'. apply (in_map fst) in I'. exact I'.
Qed.

(** Only proper states are reached. *)
Lemma at_id {A} (l : list A) k x : countable l -> at_place l k x -> is_id (VInt k).
Proof. intros C H. apply at_bound in H. unfold countable in C. right. exists k. split; [reflexivity|lia]. Qed.
Lemma does_proper E s x v w s' : coherent E -> proper s -> accepts E x v w -> does E s x w s' -> proper s'.
Proof.
  intros C [PI [PN [QI QN]]] A D.
  destruct D as [w| |n k K|w| |n k K]; unfold proper; cbn [iid iname nid nname].
  - split; [exact (accepts_id _ _ _ _ A (or_introl eq_refl))|]. repeat split; assumption.
  - split; [left; reflexivity|]. split; [left; reflexivity|]. split; assumption.
  - split; [|split; [right; exists n; reflexivity|split; assumption]]. destruct K as [l k n ns P I|n N]; [|left; reflexivity].
    destruct (plays_sound _ _ _ C P) as [_ [K _]]. exact (at_id _ _ _ K I).
  - split; [assumption|split; [assumption|split; [|assumption]]]. exact (accepts_id _ _ _ _ A (or_intror eq_refl)).
  - split; [assumption|split; [assumption|split; left; reflexivity]].
  - split; [assumption|split; [assumption|split; [|right; exists n; reflexivity]]].
    destruct K as [l k i ns n j P K I J|l k i ns P K I|l k i ns n P K I N X|n N]; try (left; reflexivity).
    + destruct (plays_sound _ _ _ C P) as [_ [_ F]]. rewrite Forall_forall in F. exact (at_id _ _ _ (F _ (at_in _ _ _ I)) J).
    + rewrite <- K. exact PI.
Qed.
Lemma as_id_self E v : is_id v -> as_id E v = Some v.
Proof. intros H. apply (as_id_iff E InstrumentId v v (or_introl eq_refl)). apply id_accepts; [left; reflexivity|exact H]. Qed.
Lemma as_name_self v : is_name v -> as_name v = Some v.
Proof. intros [->|[n ->]]; reflexivity. Qed.
Lemma validate_does E m force others s : coherent E -> proper s ->
  if mode_eq m MNone && negb force then validate E m force others s = (s, (0%nat, [], None))
  else exists w1 w2 w3 w4,
    validate E m force others s = (s, ((if others then 0 else 1)%nat, w1 ++ w2 ++ w3 ++ w4, None))
    /\ warned E m s InstrumentId (iid s) w1 /\ warned E m s InstrumentName (iname s) w2
    /\ warned E m s NoteId (nid s) w3 /\ warned E m s NoteName (nname s) w4.
Proof.
  intros C P. unfold validate. destruct (mode_eq m MNone && negb force); [reflexivity|].
  pose proof P as [PI [PN [QI QN]]].
  destruct (check_warned E InstrumentId m s _ _ C P (id_accepts E _ _ (or_introl eq_refl) PI)) as [w1 [A1 B1]].
  destruct (check_warned E InstrumentName m s _ _ C P (name_accepts E _ _ (or_introl eq_refl) PN)) as [w2 [A2 B2]].
  destruct (check_warned E NoteId m s _ _ C P (id_accepts E _ _ (or_intror eq_refl) QI)) as [w3 [A3 B3]].
  destruct (check_warned E NoteName m s _ _ C P (name_accepts E _ _ (or_intror eq_refl) QN)) as [w4 [A4 B4]].
  cbn [check] in A1, A2, A3, A4.
  exists w1, w2, w3, w4. split; [|repeat split; assumption].
  rewrite (as_id_self E _ PI), (as_id_self E _ QI), (as_name_self _ PN), (as_name_self _ QN).
  unfold field. rewrite A1. cbn [bind fst snd app]. rewrite A2. cbn [bind fst snd]. rewrite A3. cbn [bind fst snd]. rewrite A4. cbn [bind fst snd or_old].
  rewrite <- !app_assoc. destruct others; [|reflexivity]. destruct s; reflexivity.
Qed.
Lemma validate_keeps E m force others s : coherent E -> proper s -> fst (validate E m force others s) = s.
Proof.
  intros C P. pose proof (validate_does E m force others s C P) as H.
  destruct (mode_eq m MNone && negb force); [rewrite H; reflexivity|].
  destruct H as [w1 [w2 [w3 [w4 [H _]]]]]. rewrite H. reflexivity.
Qed.
Lemma exec_proper E s c : coherent E -> proper s -> validating c -> proper (exec E s c).
Proof.
  intros C P V. destruct c as [x m v|m f o]; cbn [exec validating] in *.
  - destruct (accepts_dec E x v) as [[w A]|A].
    + destruct (assign_does E x m s v w C P V A) as [s' [ws [H [D _]]]]. rewrite H. cbn. eapply does_proper; eassumption.
    + rewrite (assign_refuses E x m s v V A). exact P.
  - rewrite (validate_keeps E m f o s C P). exact P.
Qed.
Lemma run_proper E cs s : coherent E -> proper s -> Forall validating cs -> proper (run E cs s).
Proof.
  intros C. revert s. induction cs as [|c cs IH]; intros s P F; [exact P|]. inversion F; subst.
  change (run E (c :: cs) s) with (run E cs (exec E s c)). apply IH; [apply exec_proper; assumption|assumption].
Qed.
Lemma fresh_proper n : proper (fresh n).
Proof. repeat split; try (left; reflexivity); right; exists 0; (split; [reflexivity|lia]). Qed.
Lemma run_last E cs c s : run E (cs ++ [c]) s = exec E (run E cs s) c.
Proof. unfold run. rewrite fold_left_app. reflexivity. Qed.

(** What the names are that are kept. *)
Definition kept (x : what) (s : params) : val := match x with InstrumentId | InstrumentName => iname s | NoteId | NoteName => nname s end.
Lemma does_kept E s x w s' y : does E s x w s' -> y = InstrumentName \/ y = NoteName ->
  kept y s' = if match x, y with InstrumentName, InstrumentName | NoteName, NoteName => true | _, _ => false end then w else kept y s.
Proof. intros D [->| ->]; destruct D; reflexivity. Qed.
Lemma exec_kept E s c y : coherent E -> proper s -> validating c -> y = InstrumentName \/ y = NoteName ->
  (exists m v, c = Assign y m v /\ is_name v /\ kept y (exec E s c) = v)
  \/ ((forall m v, c = Assign y m v -> m = MNone \/ ~ is_name v) /\ kept y (exec E s c) = kept y s).
Proof.
  intros C P V Y. destruct c as [x m v|m f o].
  - cbn [exec validating] in *. destruct (accepts_dec E x v) as [[w A]|A].
    + destruct (assign_does E x m s v w C P V A) as [s' [ws [H [D _]]]]. rewrite H. cbn [fst].
      pose proof (does_kept E s x w s' y D Y) as K.
      destruct Y as [-> | ->]; destruct x;
        try (right; split; [intros m' v' X; discriminate X|exact K]).
      * left. destruct (accepts_name _ _ _ _ A (or_introl eq_refl)) as [N ->]. exists m, v. split; [reflexivity|split; [exact N|exact K]].
      * left. destruct (accepts_name _ _ _ _ A (or_intror eq_refl)) as [N ->]. exists m, v. split; [reflexivity|split; [exact N|exact K]].
    + rewrite (assign_refuses E x m s v V A). cbn [fst]. right. split; [|reflexivity].
      intros m' v' X. injection X as -> -> ->. right. intros N. apply (A v'). apply name_accepts; assumption.
  - right. split; [intros m' v' X; discriminate X|]. cbn [exec]. rewrite (validate_keeps E m f o s C P). reflexivity.
Qed.
Lemma run_kept E cs s y v : coherent E -> proper s -> Forall validating cs -> y = InstrumentName \/ y = NoteName ->
  (last_name y (kept y s) cs v <-> v = kept y (run E cs s)).
Proof.
  intros C P F Y. revert v. induction cs as [|c cs IH] using rev_ind; intros v.
  - split; [intros H; inversion H; [reflexivity|destruct cs; discriminate|destruct cs; discriminate]|intros ->; constructor].
  - apply Forall_app in F as [F Fc]. inversion Fc as [|c' cs' Vc _]; subst.
    specialize (IH F). pose proof (run_proper E cs s C P F) as P'. rewrite run_last.
    destruct (exec_kept E (run E cs s) c y C P' Vc Y) as [[m [u [-> [N K]]]]|[N K]]; rewrite K.
    + cbn [validating] in Vc. split.
      * intros H. inversion H as [X|cs' m' v' u' L M N' X|cs' c' v' L Q X].
        -- destruct cs; discriminate X.
        -- apply app_inj_tail in X as [_ X]. congruence.
        -- apply app_inj_tail in X as [_ ->]. destruct (Q m u eq_refl); [congruence|contradiction].
      * intros ->. eapply l_given; [apply IH; reflexivity|exact Vc|exact N].
    + split.
      * intros H. inversion H as [X|cs' m' v' u' L M N' X|cs' c' v' L Q X].
        -- destruct cs; discriminate X.
        -- apply app_inj_tail in X as [_ X]. subst v'. destruct (N m' v (eq_sym X)); [congruence|contradiction].
        -- apply app_inj_tail in X as [X _]. subst cs'. apply IH. exact L.
      * intros ->. apply l_kept; [apply IH; reflexivity|exact N].
Qed.

(** Equality. *)
Lemma val_eqb_eq a b : val_eqb a b = true <-> a = b.
Proof.
  destruct a, b; cbn; try (split; intros H; discriminate H); try (rewrite Z.eqb_eq; split; congruence); try (split; reflexivity).
  rewrite pystr_eqb_eq. split; congruence.
Qed.
Lemma equal_iff a b : equal a b = true <-> a = b.
Proof.
  unfold equal. rewrite !andb_true_iff, pystr_eqb_eq, !val_eqb_eq. destruct a, b; cbn. split.
  - intros [[[[-> ->] ->] ->] ->]. reflexivity.
  - intros H. injection H as -> -> -> -> ->. repeat split.
Qed.
Lemma equal_by_numbers E n cs cs' : coherent E -> Forall validating cs -> Forall validating cs' ->
  (forall c, In c (cs ++ cs') -> ~ names_something c) ->
  (equal (run E cs (fresh n)) (run E cs' (fresh n)) = true
   <-> iid (run E cs (fresh n)) = iid (run E cs' (fresh n)) /\ nid (run E cs (fresh n)) = nid (run E cs' (fresh n))).
Proof.
  intros C V V' N.
  assert (G : forall ds, Forall validating ds -> (forall c, In c ds -> ~ names_something c) ->
     sp (run E ds (fresh n)) = n /\ iname (run E ds (fresh n)) = VNone /\ nname (run E ds (fresh n)) = VNone).
  { induction ds as [|c ds IH] using rev_ind; intros W M; [repeat split|].
    apply Forall_app in W as [W Wc]. inversion Wc as [|c' cs0 Vc _]; subst.
    destruct IH as [I1 [I2 I3]]; [exact W|intros c0 I; apply M, in_app_iff; left; exact I|].
    pose proof (run_proper E ds (fresh n) C (fresh_proper n) W) as P. rewrite run_last.
    assert (Mc : ~ names_something c) by (apply M, in_app_iff; right; left; reflexivity).
    split; [|split].
    - destruct c as [x m v|m f o]; cbn [exec validating] in *.
      + destruct (accepts_dec E x v) as [[w A]|A].
        * destruct (assign_does E x m _ v w C P Vc A) as [s' [ws [H [D _]]]]. rewrite H. cbn. rewrite <- I1. destruct D; reflexivity.
        * rewrite (assign_refuses E x m _ v Vc A). exact I1.
      + rewrite (validate_keeps E m f o _ C P). exact I1.
    - destruct (exec_kept E _ c InstrumentName C P Vc (or_introl eq_refl)) as [[m [v [-> [K _]]]]|[_ K]].
      + destruct Mc. exists InstrumentName, m, v. split; [reflexivity|]. split; [left; reflexivity|]. split; assumption.
      + cbn [kept] in K. rewrite K. exact I2.
    - destruct (exec_kept E _ c NoteName C P Vc (or_intror eq_refl)) as [[m [v [-> [K _]]]]|[_ K]].
      + destruct Mc. exists NoteName, m, v. split; [reflexivity|]. split; [right; reflexivity|]. split; assumption.
      + cbn [kept] in K. rewrite K. exact I3. }
  destruct (G cs V) as [A1 [A2 A3]]; [intros c I; apply N, in_app_iff; left; exact I|].
  destruct (G cs' V') as [B1 [B2 B3]]; [intros c I; apply N, in_app_iff; right; exact I|].
  rewrite equal_iff. destruct (run E cs (fresh n)), (run E cs' (fresh n)). cbn in *. subst. split.
  - intros H. injection H as -> ->. split; reflexivity.
  - intros [-> ->]. reflexivity.
Qed.

(** Export. *)
Definition none_is_zero (v : val) : val := match v with VNone => VInt 0 | _ => v end.
Lemma import_export s : import (sp s) (export s) = mkParams (sp s) (none_is_zero (iid s)) VNone (none_is_zero (nid s)) VNone.
Proof.
  unfold import, export, shown.
  assert (D : forall (a b : string) v, pystr_eqb (str a) (str b) = false -> dget pystr_eqb [(str a, v)] (str b) = @None val)
    by (intros a b v H; cbn; rewrite H; reflexivity).
  f_equal.
  - destruct (iid s) as [|[| |]| | |]; destruct (nid s) as [|[| |]| | |]; reflexivity.
  - destruct (iid s) as [|[| |]| | |]; destruct (nid s) as [|[| |]| | |]; reflexivity.
Qed.
(** In the mode NONE a name is looked up and not kept. *)
Lemma none_iname E s v : coherent E -> is_name v ->
  exists s', assign E InstrumentName MNone s v = (s', ([], None)) /\ sp s' = sp s /\ iname s' = iname s /\ nid s' = nid s /\ nname s' = nname s
    /\ match v with VStr n => number_of E s n (iid s') | _ => iid s' = VNone end.
Proof.
  intros C N. cbn [assign]. unfold set_iname. cbn [mode_bool].
  destruct (store_iname_does E s [] v C N) as [s' [H D]].
  destruct N as [->|[n ->]].
  - eexists. split; [reflexivity|]. repeat split.
  - unfold store_iname in *. cbn [is_none find_name] in *.
    change (tables_of E (with_iname s (VStr n))) with (tables_of E s) in H. injection H as H. subst s'.
    eexists. split; [reflexivity|]. split; [reflexivity|]. split; [reflexivity|]. split; [reflexivity|]. split; [reflexivity|].
    cbn [with_iid iid]. inversion D; subst. assumption.
Qed.
Lemma none_nname E s v : coherent E -> proper s -> is_name v ->
  exists s', assign E NoteName MNone s v = (s', ([], None)) /\ sp s' = sp s /\ iid s' = iid s /\ iname s' = iname s /\ nname s' = nname s
    /\ match v with VStr n => note_of E s n (nid s') | _ => nid s' = VNone end.
Proof.
  intros C P N. cbn [assign]. unfold set_nname. cbn [mode_bool].
  destruct (store_nname_does E s [] v C (proj1 P) N) as [s' [H D]].
  destruct N as [->|[n ->]].
  - eexists. split; [reflexivity|]. repeat split.
  - unfold store_nname in *. cbn [is_none] in *.
    change (look_note E (with_nname s (VStr n)) (VStr n)) with (look_note E s (VStr n)) in H.
    destruct (look_note E s (VStr n)) as [k|]; [|discriminate]. injection H as H. subst s'.
    eexists. split; [reflexivity|]. split; [reflexivity|]. split; [reflexivity|]. split; [reflexivity|]. split; [reflexivity|].
    cbn [with_nid nid]. inversion D; subst. assumption.
Qed.
Lemma import_same s : iid s <> VNone -> nid s <> VNone -> iname s = VNone -> nname s = VNone -> import (sp s) (export s) = s.
Proof. intros A B P Q. rewrite import_export. destruct s as [n i a j b]. cbn in *. subst. destruct i, j; first [reflexivity|congruence]. Qed.

(** Witnesses. *)
Definition instruments : list (pystr * list pystr) :=
  [(str "alarms", [str "siren"; str "buzzer"]); (str "drum-kit", [str "kick"; str "snare"; str "hat"])].
Definition game : env := mkEnv [(str "programmable-speaker", extract instruments)] (fun s => if pystr_eqb s (str "1") then Some 1 else None).
Definition speaker : params := fresh (str "programmable-speaker").
Lemma distinct (l : list pystr) : (fix f l := match l with [] => true | x :: l => negb (existsb (pystr_eqb x) l) && f l end) l = true -> NoDup l.
Proof.
  induction l as [|x l IH]; [constructor|]. rewrite andb_true_iff, negb_true_iff. intros [H K]. constructor; [|exact (IH K)].
  intros I. assert (existsb (pystr_eqb x) l = true) by (apply existsb_exists; exists x; split; [exact I|apply pystr_eqb_eq; reflexivity]).
  congruence.
Qed.
Lemma no_self (ns : list pystr) : existsb (pystr_eqb (str "self")) ns = false -> ~ In (str "self") ns.
Proof.
  intros H I. assert (existsb (pystr_eqb (str "self")) ns = true) by
    (apply existsb_exists; eexists; split; [exact I|apply pystr_eqb_eq; reflexivity]). congruence.
Qed.
Lemma game_coherent : coherent game.
Proof.
  intros n t H. cbn [game reg dget] in H. destruct (pystr_eqb (str "programmable-speaker") n); [|discriminate].
  injection H as <-. exists instruments. split; [split|split; [|split; [|reflexivity]]].
  - apply distinct. reflexivity.
  - repeat (constructor; [split; [apply distinct; reflexivity|apply no_self; reflexivity]|]). constructor.
  - unfold countable. cbn. lia.
  - repeat (constructor; [unfold countable; cbn; lia|]). constructor.
Qed.
Lemma game_plays : plays game speaker instruments.
Proof. reflexivity. Qed.
