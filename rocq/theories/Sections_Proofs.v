(** Proofs about sections. *)
From Coq Require Import ZArith NArith String List Bool Lia.
From Verif Require Import Common Dict Assign_Model Slots_Model Sections_Model Sections_Spec.
Import ListNotations.
Local Open Scope list_scope.
Local Open Scope Z_scope.

(** ** Small facts *)
Lemma uint32_iff : forall z, is_uint32 z = true <-> uint32_range z.
Proof. intros. unfold is_uint32, uint32_range. rewrite andb_true_iff, Z.leb_le, Z.ltb_lt. tauto. Qed.
Lemma strict_iff : forall m, strict m = true <-> careful m.
Proof. intros []; unfold careful; cbn; split; intros H; try discriminate; try (destruct H; discriminate); auto. Qed.
Lemma mode_bool_iff : forall m, mode_bool m = true <-> m <> MNone.
Proof. intros []; cbn; split; intros; try discriminate; try reflexivity. congruence. Qed.
Lemma mode_none_iff : forall m, mode_eq m MNone = true <-> m = MNone.
Proof. intros []; cbn; split; intros; try discriminate; try reflexivity. Qed.
Lemma one_of_iff : forall l s, one_of l s = true <-> In s l.
Proof.
  intros. unfold one_of. rewrite existsb_exists. split.
  - intros (x & I & E). apply pystr_eqb_eq in E. subst. exact I.
  - intros I. exists s. split; [exact I|]. apply pystr_eqb_eq. reflexivity.
Qed.
Lemma entries_lists : forall s f, In f (entries s) <-> lists s f.
Proof.
  intros. unfold entries, lists. destruct (filters s) as [l|]; split.
  - intros I. exists l. split; [reflexivity|exact I].
  - intros (l' & E & I). injection E as <-. exact I.
  - intros [].
  - intros (l' & E & _). discriminate.
Qed.
Lemma asks_iff : forall s, asks_name s = true <-> virtual s.
Proof.
  intros. unfold asks_name, virtual. rewrite existsb_exists. split.
  - intros (f & I & O). exists f. split; [apply entries_lists; exact I|].
    apply one_of_iff in O. unfold pure_virtual in O. cbn [In] in O. destruct O as [O|[O|[O|[]]]]; auto.
  - intros (f & L & O). exists f. split; [apply entries_lists; exact L|]. apply one_of_iff. unfold pure_virtual. cbn [In].
    destruct O as [O|[O|O]]; auto.
Qed.
Lemma valid_iff : forall s, valid s = true <-> wellformed s.
Proof.
  intros. unfold valid, wellformed. rewrite andb_true_iff, uint32_iff, forallb_forall. split; intros [A B]; (split; [exact A|]).
  - intros f L. apply B, entries_lists, L.
  - intros f L. apply B, entries_lists, L.
Qed.
Lemma check_cases : forall m known l,
  match check m known l with
  | Raised e => e = AttributeError /\ careful m /\ exists s, In s l /\ virtual s
  | Refused w => w = flat_map (says m known) l /\ (careful m -> forall s, In s l -> ~ virtual s) /\ exists s, In s l /\ ~ wellformed s
  | Accepted w l' => w = flat_map (says m known) l /\ l' = l /\ acceptable m l
  end.
Proof.
  intros. unfold check. destruct (strict m && existsb asks_name l) eqn:A.
  - apply andb_true_iff in A as [A B]. apply existsb_exists in B as (s & I & V).
    split; [reflexivity|]. split; [apply strict_iff, A|]. exists s. split; [exact I|apply asks_iff, V].
  - assert (N : careful m -> forall s, In s l -> ~ virtual s).
    { intros C s I V. apply strict_iff in C. rewrite C in A. cbn [andb] in A.
      assert (existsb asks_name l = true) by (apply existsb_exists; exists s; split; [exact I|apply asks_iff, V]). congruence. }
    destruct (forallb valid l) eqn:F.
    + split; [reflexivity|]. split; [reflexivity|]. split; [exact N|]. rewrite forallb_forall in F.
      intros s I. apply valid_iff, F, I.
    + split; [reflexivity|]. split; [exact N|]. clear A N.
      induction l as [|s l IH]; [discriminate|]. cbn [forallb] in F. destruct (valid s) eqn:V.
      * destruct (IH F) as (s' & I & W). exists s'. split; [right; exact I|exact W].
      * exists s. split; [left; reflexivity|]. intros W. apply valid_iff in W. congruence.
Qed.
Lemma check_accepts : forall m known l, acceptable m l <-> exists w, check m known l = Accepted w l.
Proof.
  intros. pose proof (check_cases m known l) as C. destruct (check m known l) as [e|w|w l']; split.
  - intros [A _]. destruct C as (_ & C & s & I & V). exfalso. exact (A C s I V).
  - intros [w D]. discriminate.
  - intros [_ A]. destruct C as (_ & _ & s & I & V). exfalso. exact (V (A s I)).
  - intros [w' D]. discriminate.
  - intros _. destruct C as (_ & -> & _). exists w. reflexivity.
  - intros _. apply C.
Qed.
Lemma contents_reads : forall st l cs, contents st l = Some cs <-> Forall2 (reads st) l cs.
Proof.
  intros st. induction l as [|x l IH]; intros cs; cbn [contents].
  - split; intros H; [injection H as <-; constructor|inversion H; reflexivity].
  - split; intros H.
    + destruct (content st x) as [a|] eqn:A; [|discriminate]. destruct (contents st l) as [b|] eqn:B; [|discriminate].
      injection H as <-. constructor; [|apply IH; reflexivity].
      destruct x; cbn in A |- *; [exact A|injection A as ->; reflexivity].
    + inversion H as [|? ? ? cs' R F]; subst. rewrite (proj2 (IH cs') F).
      destruct x; cbn in R |- *; [rewrite R|rewrite R]; reflexivity.
Qed.
Lemma Forall2_len : forall A B (R : A -> B -> Prop) l l', Forall2 R l l' -> length l = length l'.
Proof. induction 1; cbn; congruence. Qed.
Lemma update_length : forall A (l : list A) n a, length (update l n a) = length l.
Proof. induction l; intros [|n] b; cbn; auto. Qed.
Lemma update_same : forall A (l : list A) n a, (n < length l)%nat -> nth_error (update l n a) n = Some a.
Proof. induction l; intros [|n] b L; cbn in *; try lia; auto. apply IHl. lia. Qed.
Lemma update_other : forall A (l : list A) n m a, m <> n -> nth_error (update l n a) m = nth_error l m.
Proof. induction l; intros [|n] [|m] b L; cbn; auto; try congruence. Qed.

(** ** The invariant *)
Definition inv (st : state) (refs : list nat) (v : shown) (live : list (option nat)) : Prop :=
  looks st v /\ Forall2 (known_place st) refs live /\ forall r, In r refs -> (r < length (objects st))%nat.

Lemma reads_grow : forall st h s x a, reads st x a -> reads (mkState (objects st ++ s) h) x a.
Proof.
  intros st h s [r|d] a R; cbn in *; [|exact R]. rewrite nth_error_app1; [exact R|]. apply nth_error_Some. congruence.
Qed.
Lemma Forall2_imp : forall A B (R Q : A -> B -> Prop) l l', (forall a b, R a b -> Q a b) -> Forall2 R l l' -> Forall2 Q l l'.
Proof. intros A B R Q l l' H F. induction F; constructor; auto. Qed.
Lemma looks_range : forall st l v r, looks st v -> held st = Held (Some l) -> In (Obj r) l -> (r < length (objects st))%nat.
Proof.
  intros st l v r L H I. unfold looks in L. rewrite H in L. destruct v as [| |[cs|]]; try contradiction.
  clear H. induction L as [|x c l cs R F IH]; [contradiction|]. destruct I as [->|I]; [|exact (IH I)].
  cbn in R. apply nth_error_Some. congruence.
Qed.

Lemma sections_held : forall st, sections st = match held st with Held l => Ok l | _ => Err AttributeError end.
Proof. reflexivity. Qed.

(** [add_section], completely. *)
Lemma add_exact : forall st l g idx a, held st = Held (Some l) ->
  let i := match idx with Some i => i + 1 | None => Z.of_nat (length l) + 1 end in
  (uint32_range i -> add_section st g idx a =
     (mkState (objects st ++ [mkSection i (Some []) g (Some a)]) (Held (Some (l ++ [Obj (length (objects st))]))), Ok (length (objects st)))) /\
  (~ uint32_range i -> add_section st g idx a = (st, Err ValueError)).
Proof.
  intros st l g idx a H i. unfold add_section. rewrite !sections_held, H.
  assert (E : (let* i0 := match idx with Some i0 => Ok (i0 + 1) | None => let* l0 := Ok (Some l) in match l0 with Some l1 => Ok (Z.of_nat (length l1) + 1) | None => Err TypeError end end in new_section i0 g a) = new_section i g a).
  { subst i. destruct idx; reflexivity. }
  cbv zeta. rewrite E. unfold new_section. split; intros R.
  - apply uint32_iff in R. rewrite R. reflexivity.
  - destruct (is_uint32 i) eqn:U; [apply uint32_iff in U; contradiction|]. reflexivity.
Qed.
Lemma add_fails : forall st g idx a, (forall l, held st <> Held (Some l)) ->
  exists e, add_section st g idx a = (st, Err e).
Proof.
  intros st g idx a H. unfold add_section. rewrite !sections_held.
  destruct (held st) as [| |[l|]]; try (destruct idx as [i|]; cbn; unfold new_section; [destruct (is_uint32 (i + 1))|]; eexists; reflexivity).
  exfalso. apply (H l). reflexivity.
Qed.

(** ** Refinement *)
Lemma stands_grow : forall st x r p os, stands st r p -> x <> Obj r ->
  forall l, held st = Held (Some l) -> stands (mkState os (Held (Some (l ++ [x])))) r p.
Proof.
  intros st x r p os (l' & H & N & U) D l H'. rewrite H in H'. injection H' as ->. exists (l ++ [x]). split; [reflexivity|].
  assert (P : (p < length l)%nat) by (apply nth_error_Some; congruence). split.
  - rewrite nth_error_app1 by exact P. exact N.
  - intros q Q. destruct (Nat.lt_ge_cases q (length l)) as [L|L].
    + rewrite nth_error_app1 in Q by exact L. apply U, Q.
    + rewrite nth_error_app2 in Q by exact L. destruct (q - length l)%nat as [|n]; cbn in Q; [congruence|]. destruct n; discriminate.
Qed.
Lemma step_add : forall c st refs v live g idx a, inv st refs v live ->
  exists v' live', step c (v, live) (Add g idx a) (v', live') /\
  let (s, r) := exec c (st, refs) (Add g idx a) in inv s r v' live'.
Proof.
  intros c st refs v live g idx a (L & K & R). cbn [exec].
  destruct (held st) as [| |[l|]] eqn:H.
  1,2,4: destruct (add_fails st g idx a) as (e & ->); [intros l' E; congruence|];
    exists v, live; (split; [|split; [exact L|split; [exact K|exact R]]]);
    constructor; intros l' ->; unfold looks in L; rewrite H in L; contradiction.
  destruct v as [| |[cs|]]; try (unfold looks in L; rewrite H in L; contradiction).
  pose proof (add_exact st l g idx a H) as [A B]. cbv zeta in A, B.
  assert (F : Forall2 (reads st) l cs) by (unfold looks in L; rewrite H in L; exact L).
  assert (E : match idx with Some i => i + 1 | None => Z.of_nat (length l) + 1 end = number cs idx).
  { unfold number. destruct idx; [reflexivity|]. rewrite (Forall2_len _ _ _ _ _ F). reflexivity. }
  rewrite E in A, B.
  assert (D : uint32_range (number cs idx) \/ ~ uint32_range (number cs idx)) by (unfold uint32_range; lia).
  destruct D as [D|D].
  - rewrite (A D). exists (Shown (Some (cs ++ [fresh cs g idx a]))), (live ++ [Some (length cs)]). split; [constructor; exact D|].
    split; [|split].
    + unfold looks. cbn [held]. apply Forall2_app.
      * eapply Forall2_imp; [|exact F]. intros x b. apply (reads_grow st).
      * constructor; [|constructor]. cbn. rewrite nth_error_app2 by lia. rewrite Nat.sub_diag. reflexivity.
    + apply Forall2_app.
      * assert (G : forall r p, In r refs -> known_place st r p -> known_place (mkState (objects st ++ [mkSection (number cs idx) (Some []) g (Some a)]) (Held (Some (l ++ [Obj (length (objects st))])))) r p).
        { intros r p I P. assert (Hr := R r I). destruct p as [p|]; cbn [known_place] in *.
          - eapply stands_grow; [exact P| |exact H]. intros X. injection X as X. lia.
          - intros l' E' I'. cbn in E'. injection E' as <-. apply in_app_iff in I' as [I'|[I'|[]]].
            + exact (P l H I').
            + injection I' as X. lia. }
        clear - K G. induction K as [|r p refs live P K IH]; constructor.
        -- apply G; [left; reflexivity|exact P].
        -- apply IH. intros r' p' I. apply G. right. exact I.
      * constructor; [|constructor]. cbn [known_place]. exists (l ++ [Obj (length (objects st))]).
        rewrite <- (Forall2_len _ _ _ _ _ F). split; [reflexivity|]. split.
        -- rewrite nth_error_app2 by lia. rewrite Nat.sub_diag. reflexivity.
        -- intros q Q. destruct (Nat.lt_ge_cases q (length l)) as [X|X].
           ++ rewrite nth_error_app1 in Q by exact X. apply nth_error_In in Q.
              pose proof (looks_range st l _ _ L H Q). lia.
           ++ assert (q < length (l ++ [Obj (length (objects st))]))%nat by (apply nth_error_Some; congruence).
              rewrite app_length in H0. cbn in H0. lia.
    + intros r I. cbn [objects]. rewrite app_length. cbn. apply in_app_iff in I as [I|[<-|[]]]; [pose proof (R r I)|]; lia.
  - rewrite (B D). exists (Shown (Some cs)), live. split; [|split; [exact L|split; [exact K|exact R]]].
    constructor. intros l' E'. injection E' as <-. exact D.
Qed.

Lemma Forall2_nth : forall A B (P : A -> B -> Prop) l l' n a, Forall2 P l l' -> nth_error l n = Some a -> exists b, nth_error l' n = Some b /\ P a b.
Proof.
  intros A B P l l' n a F. revert n. induction F as [|x y l l' X F IH]; intros [|n] N; try discriminate; cbn in *.
  - injection N as <-. eauto.
  - apply IH, N.
Qed.
Lemma Forall2_nth_none : forall A B (P : A -> B -> Prop) l l' n, Forall2 P l l' -> nth_error l n = None -> nth_error l' n = None.
Proof. intros A B P l l' n F N. apply nth_error_None. apply nth_error_None in N. rewrite <- (Forall2_len _ _ _ _ _ F). exact N. Qed.
Lemma Forall2_from_nth : forall A B (P : A -> B -> Prop) l l', length l = length l' ->
  (forall n a b, nth_error l n = Some a -> nth_error l' n = Some b -> P a b) -> Forall2 P l l'.
Proof.
  induction l as [|x l IH]; intros [|y l'] E H; try discriminate; constructor.
  - apply (H O); reflexivity.
  - apply IH; [injection E; auto|]. intros n a b. apply (H (S n)).
Qed.

Lemma step_write : forall c st refs v live k i name count q t, inv st refs v live ->
  exists v' live', step c (v, live) (Write k i name count q t) (v', live') /\
  let (s, r) := exec c (st, refs) (Write k i name count q t) in inv s r v' live'.
Proof.
  intros c st refs v live k i name count q t (L & K & R). cbn [exec].
  destruct (nth_error refs k) as [r|] eqn:N.
  2:{ exists v, live. split; [constructor; right; exact (Forall2_nth_none _ _ _ _ _ _ K N)|]. split; [exact L|split; [exact K|exact R]]. }
  destruct (Forall2_nth _ _ _ _ _ _ _ K N) as (p & P & KP).
  pose proof (R r (nth_error_In _ _ N)) as Hr.
  unfold write. destruct (nth_error (objects st) r) as [s|] eqn:S; [|apply nth_error_None in S; lia].
  destruct (set_signal (filters s) i name count q t) as [f res] eqn:SS. cbn [fst].
  set (st' := mkState (update (objects st) r (with_filters s f)) (held st)).
  assert (KK : forall r p, known_place st r p -> known_place st' r p).
  { intros r' [p'|] H'; cbn [known_place] in *; [exact H'|exact H']. }
  assert (K' : Forall2 (known_place st') refs live) by (eapply Forall2_imp; [|exact K]; apply KK).
  assert (R' : forall r', In r' refs -> (r' < length (objects st'))%nat).
  { intros r' I. cbn. rewrite update_length. apply R, I. }
  destruct p as [p|]; cbn [known_place] in KP.
  - destruct KP as (l & H & NP & U). destruct v as [| |[cs|]]; try (unfold looks in L; rewrite H in L; contradiction).
    assert (F : Forall2 (reads st) l cs) by (unfold looks in L; rewrite H in L; exact L).
    destruct (Forall2_nth _ _ _ _ _ _ _ F NP) as (s' & NS & RS). cbn in RS. rewrite S in RS. injection RS as <-.
    assert (PL : (p < length cs)%nat) by (apply nth_error_Some; congruence).
    exists (Shown (Some (update cs p (with_filters s f)))), live. split.
    + apply SWrite with (p := p) (s := s); [exact P|exact NS|]. rewrite SS. cbn [fst]. split; [apply update_length|]. split.
      * apply update_same, PL.
      * intros x X. apply update_other, X.
    + split; [|split; [exact K'|exact R']]. unfold looks. unfold st'. cbn [held]. rewrite H.
      apply Forall2_from_nth; [rewrite update_length; apply (Forall2_len _ _ _ _ _ F)|].
      intros n x b NX NB. destruct (Nat.eq_dec n p) as [->|D].
      * rewrite NP in NX. injection NX as <-. rewrite update_same in NB by exact PL. injection NB as <-. cbn. apply update_same, Hr.
      * rewrite update_other in NB by exact D. destruct (Forall2_nth _ _ _ _ _ _ _ F NX) as (b' & NB' & RB). rewrite NB in NB'. injection NB' as <-.
        destruct x as [r'|d]; cbn in *; [|exact RB]. rewrite update_other; [exact RB|]. intros ->. apply D, U, NX.
  - exists v, live. split; [constructor; left; exact P|]. split; [|split; [exact K'|exact R']].
    unfold looks in *. cbn [held st'] in *. unfold st'. cbn [held].
    destruct (held st) as [| |[l|]] eqn:H; try exact L. destruct v as [| |[cs|]]; try contradiction.
    apply Forall2_from_nth; [exact (Forall2_len _ _ _ _ _ L)|]. intros n x b NX NB.
    destruct (Forall2_nth _ _ _ _ _ _ _ L NX) as (b' & NB' & RB). rewrite NB in NB'. injection NB' as <-.
    destruct x as [r'|d]; cbn in *; [|exact RB]. rewrite update_other; [exact RB|]. intros ->. apply (KP l H), (nth_error_In _ _ NX).
Qed.

Lemma copied_looks : forall st l, looks (copied st l) (Shown (Some l)).
Proof.
  intros. unfold looks, copied. cbn [held]. apply Forall2_from_nth; [rewrite map_length, seq_length; reflexivity|].
  intros n x b NX NB. rewrite nth_error_map in NX. assert (L : (n < length l)%nat) by (apply nth_error_Some; congruence).
  assert (E : nth_error (seq (length (objects st)) (length l)) n = Some (length (objects st) + n)%nat).
  { rewrite (nth_error_nth' _ 0%nat) by (rewrite seq_length; exact L). rewrite seq_nth by exact L. reflexivity. }
  rewrite E in NX. injection NX as <-. cbn. rewrite nth_error_app2 by lia.
  replace (length (objects st) + n - length (objects st))%nat with n by lia. exact NB.
Qed.
Lemma copied_gone : forall st l r, (r < length (objects st))%nat -> gone (copied st l) r.
Proof.
  intros st l r H l' E I. unfold copied in E. cbn in E. injection E as <-. apply in_map_iff in I as (x & X & I). injection X as ->.
  apply in_seq in I. lia.
Qed.
Lemma all_gone : forall st st' refs live, Forall2 (known_place st) refs live -> (forall r, In r refs -> gone st' r) ->
  Forall2 (known_place st') refs (map (fun _ => None) live).
Proof.
  intros st st' refs live K G. induction K as [|r p refs live P K IH]; cbn [map]; constructor.
  - apply G. left. reflexivity.
  - apply IH. intros r' I. apply G. right. exact I.
Qed.
Lemma copied_inv : forall st refs v live l, inv st refs v live -> inv (copied st l) refs (Shown (Some l)) (map (fun _ => None) live).
Proof.
  intros st refs v live l (L & K & R). split; [apply copied_looks|]. split.
  - apply (all_gone st); [exact K|]. intros r I. apply copied_gone, R, I.
  - intros r I. cbn. rewrite app_length. pose proof (R r I). lia.
Qed.

Lemma step_validate : forall c st refs v live m force known others, inv st refs v live ->
  exists v' live', step c (v, live) (Validate m force known others) (v', live') /\
  let (s, r) := exec c (st, refs) (Validate m force known others) in inv s r v' live'.
Proof.
  intros c st refs v live m force known others I. pose proof I as (L & K & R). cbn [exec]. unfold validate.
  destruct (mode_eq m MNone && negb force) eqn:Q.
  { exists v, live. split; [|exact I]. constructor. left. apply andb_true_iff in Q as [Q1 Q2].
    split; [apply mode_none_iff, Q1|]. destruct force; [discriminate|reflexivity]. }
  assert (Q' : m <> MNone \/ force = true).
  { destruct force; [right; reflexivity|]. left. intros ->. discriminate. }
  destruct (held st) as [| |[l|]] eqn:H.
  1,2,4: exists v, live; (split; [|exact I]); constructor; right; right; intros l' ->; unfold looks in L; rewrite H in L; contradiction.
  destruct v as [| |[cs|]]; try (unfold looks in L; rewrite H in L; contradiction).
  assert (F : Forall2 (reads st) l cs) by (unfold looks in L; rewrite H in L; exact L).
  rewrite (proj2 (contents_reads st l cs) F).
  pose proof (check_cases m known cs) as C. pose proof (check_accepts m known cs) as A.
  destruct (check m known cs) as [e|w|w l'].
  - exists (Shown (Some cs)), live. split; [|exact I]. constructor. right. right. intros l' E. injection E as <-.
    intros X. apply A in X as [w X]. discriminate.
  - exists (Shown (Some cs)), live. split; [|exact I]. constructor. right. right. intros l' E. injection E as <-.
    intros X. apply A in X as [w' X]. discriminate.
  - destruct C as (_ & -> & C). destruct others.
    + exists (Shown (Some cs)), (map (fun _ => None) live). split; [constructor; assumption|]. apply (copied_inv st refs (Shown (Some cs))), I.
    + exists (Shown (Some cs)), live. split; [|exact I]. constructor. right. left. reflexivity.
Qed.

Lemma raw_contents : forall st l, contents st (map Raw l) = Some l.
Proof. intros st l. induction l as [|s l IH]; cbn; [reflexivity|]. rewrite IH. reflexivity. Qed.
Lemma raw_inv : forall st refs v live w, inv st refs v live ->
  inv (mkState (objects st) (Held (option_map (map Raw) w))) refs (Shown w) (map (fun _ => None) live).
Proof.
  intros st refs v live w (L & K & R). split; [|split].
  - unfold looks. cbn. destruct w as [l|]; cbn; [|exact I]. clear. induction l; cbn; constructor; [reflexivity|assumption].
  - apply (all_gone st); [exact K|]. intros r _ l E X. cbn in E. destruct w as [w|]; cbn in E; [|discriminate]. injection E as <-.
    apply in_map_iff in X as (s & D & _). discriminate.
  - exact R.
Qed.
Lemma step_assign : forall c st refs v live m known w, inv st refs v live ->
  exists v' live', step c (v, live) (Assign m known w) (v', live') /\
  let (s, r) := exec c (st, refs) (Assign m known w) in inv s r v' live'.
Proof.
  intros c st refs v live m known w I. pose proof I as (L & K & R). cbn [exec]. unfold assign.
  assert (HH : (forall o, v <> Shown o) /\ (forall l, held st <> Held l) \/ exists o l, v = Shown o /\ held st = Held l).
  { unfold looks in L. destruct (held st) as [| |[l|]], v as [| |[cs|]]; try contradiction;
      try (left; split; intros; discriminate); right; eauto. }
  destruct HH as [[HV HN]|(o & l & -> & H)].
  { exists v, live. split; [constructor; left; exact HV|].
    destruct (held st) as [| |x] eqn:E; [| |exfalso; apply (HN x); reflexivity]; destruct (mode_bool m); try exact I; destruct c; exact I. }
  rewrite H. destruct (mode_bool m) eqn:MB.
  - apply mode_bool_iff in MB. destruct c; [exists (Shown o), live; split; [constructor; right; split; [exact MB|left; reflexivity]|exact I]|..].
    all: destruct w as [cs|]; cbn [option_map];
      [|exists (Shown None), (map (fun _ => None) live); split;
        [constructor; intros _; split; [discriminate|intros l0 E; discriminate]|apply (raw_inv st refs (Shown o) live None), I]].
    all: rewrite raw_contents; pose proof (check_cases m known cs) as C; pose proof (check_accepts m known cs) as A;
      destruct (check m known cs) as [e|wn|wn l'].
    all: try (exists (Shown o), live; split; [constructor; right; split; [exact MB|right; exists cs; split; [reflexivity|];
      intros X; apply A in X as [w' X]; discriminate]|exact I]).
    all: destruct C as (_ & -> & C); exists (Shown (Some cs)), (map (fun _ => None) live); split;
      [constructor; intros _; split; [discriminate|intros l0 E; injection E as <-; exact C]|apply (copied_inv st refs (Shown o)), I].
  - exists (Shown w), (map (fun _ => None) live). split; [|apply (raw_inv st refs (Shown o)), I].
    constructor. intros X. apply mode_bool_iff in X. congruence.
Qed.

Lemma refines : forall c os st refs v live, inv st refs v live ->
  exists v' live', steps c (v, live) os (v', live') /\
  inv (fst (execs c os (st, refs))) (snd (execs c os (st, refs))) v' live'.
Proof.
  intros c. induction os as [|o os IH]; intros st refs v live I.
  - exists v, live. split; [constructor|exact I].
  - assert (S : exists v' live', step c (v, live) o (v', live') /\ let (s, r) := exec c (st, refs) o in inv s r v' live').
    { destruct o; [apply step_add|apply step_write|apply step_validate|apply step_assign]; exact I. }
    destruct S as (v' & live' & S & J). unfold execs. cbn [fold_left]. destruct (exec c (st, refs) o) as [s r].
    destruct (IH s r v' live' J) as (v'' & live'' & T & X). exists v'', live''. split; [econstructor; eassumption|exact X].
Qed.
Lemma start_inv : forall c, inv (mkState [] (start c)) [] (first_shown c) [].
Proof. intros c. split; [destruct c; cbn; constructor|]. split; [constructor|intros r []]. Qed.

Theorem history : forall c os, exists v live, steps c (first_shown c, []) os (v, live) /\
  looks (fst (execs c os (mkState [] (start c), []))) v /\
  Forall2 (known_place (fst (execs c os (mkState [] (start c), [])))) (snd (execs c os (mkState [] (start c), []))) live.
Proof.
  intros c os. destruct (refines c os _ _ _ _ (start_inv c)) as (v & live & S & L & K & _). exists v, live. auto.
Qed.

(** ** Looking into lists that hold dictionaries, and where there is no list *)
Lemma stops_at_raw : forall st its1 l1 d its2 g, held st = Held (Some (its1 ++ Raw d :: its2)) ->
  (forall s, ~ In (Raw s) its1) -> Forall2 (reads st) its1 l1 ->
  (forall s, In s l1 -> group s <> Some g) -> getitem st (Name g) = Err AttributeError.
Proof.
  intros st its1 l1 d its2 g H N F. unfold getitem, sections. rewrite H. simpl. clear H.
  induction F as [|x s its l R F IH]; simpl; intros G; [reflexivity|].
  destruct x as [r|q]; [|destruct (N q (or_introl eq_refl))]. simpl in R. rewrite R.
  destruct (named g (group s)) eqn:E; [|apply IH; [intros q Q; exact (N q (or_intror Q))|auto]].
  exfalso. apply (G s (or_introl eq_refl)). unfold named in E. destruct (group s) as [h|]; [|discriminate].
  apply pystr_eqb_eq in E. congruence.
Qed.
Lemma no_list : forall st k, held st = Held None -> getitem st k = Err TypeError.
Proof. intros st k H. unfold getitem, sections. rewrite H. reflexivity. Qed.
