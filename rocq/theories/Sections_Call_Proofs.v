(** Proofs about single calls on sections. *)
From Coq Require Import ZArith NArith String List Bool Lia.
From Verif Require Import Common Dict Assign_Model Slots_Model Sections_Model Sections_Spec Sections_Proofs.
Import ListNotations.
Local Open Scope list_scope.
Local Open Scope Z_scope.

(** ** Adding *)
Lemma added : forall st l g idx a st' r, looks st (Shown (Some l)) -> add_section st g idx a = (st', Ok r) ->
  uint32_range (number l idx) /\ looks st' (Shown (Some (l ++ [fresh l g idx a]))) /\ stands st' r (length l) /\
  ~ (r < length (objects st))%nat /\
  (forall q p, (q < length (objects st))%nat -> known_place st q p -> known_place st' q p) /\
  (forall q s, nth_error (objects st) q = Some s -> nth_error (objects st') q = Some s).
Proof.
  intros st l g idx a st' r L E. destruct (held st) as [| |[its|]] eqn:H; try (unfold looks in L; rewrite H in L; contradiction).
  assert (F : Forall2 (reads st) its l) by (unfold looks in L; rewrite H in L; exact L).
  pose proof (add_exact st its g idx a H) as [A B]. cbv zeta in A, B.
  assert (N : match idx with Some i => i + 1 | None => Z.of_nat (length its) + 1 end = number l idx).
  { unfold number. destruct idx; [reflexivity|]. rewrite (Forall2_len _ _ _ _ _ F). reflexivity. }
  rewrite N in A, B.
  assert (D : uint32_range (number l idx) \/ ~ uint32_range (number l idx)) by (unfold uint32_range; lia).
  destruct D as [D|D]; [|rewrite (B D) in E; discriminate]. rewrite (A D) in E. injection E as <- <-.
  split; [exact D|]. split; [|split; [|split; [|split]]].
  - unfold looks. cbn [held]. apply Forall2_app.
    + eapply Forall2_imp; [|exact F]. intros x b. apply (reads_grow st).
    + constructor; [|constructor]. cbn. rewrite nth_error_app2 by lia. rewrite Nat.sub_diag. reflexivity.
  - exists (its ++ [Obj (length (objects st))]). rewrite <- (Forall2_len _ _ _ _ _ F). split; [reflexivity|]. split.
    + rewrite nth_error_app2 by lia. rewrite Nat.sub_diag. reflexivity.
    + intros q Q. destruct (Nat.lt_ge_cases q (length its)) as [X|X].
      * rewrite nth_error_app1 in Q by exact X. apply nth_error_In in Q. pose proof (looks_range st its _ _ L H Q). lia.
      * assert (q < length (its ++ [Obj (length (objects st))]))%nat by (apply nth_error_Some; congruence).
        rewrite app_length in H0. cbn in H0. lia.
  - lia.
  - intros q [p|] Hq P; cbn [known_place] in *.
    + eapply stands_grow; [exact P| |exact H]. intros X. injection X as X. lia.
    + intros l' E' I'. cbn in E'. injection E' as <-. apply in_app_iff in I' as [I'|[I'|[]]]; [exact (P its H I')|injection I' as X; lia].
  - intros q s Q. cbn [objects]. rewrite nth_error_app1; [exact Q|]. apply nth_error_Some. congruence.
Qed.
(** When it works, and what is raised otherwise. *)
Lemma add_result : forall st v g idx a, looks st v ->
  match v with
  | Shown (Some l) => (uint32_range (number l idx) /\ snd (add_section st g idx a) = Ok (length (objects st))) \/
                      (~ uint32_range (number l idx) /\ add_section st g idx a = (st, Err ValueError))
  | Shown None => add_section st g idx a =
      (st, Err match idx with None => TypeError | Some i => if is_uint32 (i + 1) then AttributeError else ValueError end)
  | _ => add_section st g idx a =
      (st, Err match idx with None => AttributeError | Some i => if is_uint32 (i + 1) then AttributeError else ValueError end)
  end.
Proof.
  intros st v g idx a L. destruct v as [| |[l|]].
  1,2,4: unfold looks in L; unfold add_section; rewrite !sections_held;
    destruct (held st) as [| |[its|]]; try contradiction;
    destruct idx as [i|]; cbn; try reflexivity; unfold new_section; destruct (is_uint32 (i + 1)); reflexivity.
  destruct (held st) as [| |[its|]] eqn:H; try (unfold looks in L; rewrite H in L; contradiction).
  assert (F : Forall2 (reads st) its l) by (unfold looks in L; rewrite H in L; exact L).
  pose proof (add_exact st its g idx a H) as [A B]. cbv zeta in A, B.
  assert (N : match idx with Some i => i + 1 | None => Z.of_nat (length its) + 1 end = number l idx).
  { unfold number. destruct idx; [reflexivity|]. rewrite (Forall2_len _ _ _ _ _ F). reflexivity. }
  rewrite N in A, B.
  assert (D : uint32_range (number l idx) \/ ~ uint32_range (number l idx)) by (unfold uint32_range; lia).
  destruct D as [D|D]; [left; rewrite (A D)|right; rewrite (B D)]; split; auto.
Qed.

(** ** Writing *)
Lemma written : forall st l r p i name count q t, looks st (Shown (Some l)) -> stands st r p ->
  exists s l', nth_error l p = Some s /\ looks (fst (write st r i name count q t)) (Shown (Some l')) /\
  changed_at l p (mkSection (index s) (fst (set_signal (filters s) i name count q t)) (group s) (active s)) l' /\
  snd (write st r i name count q t) = snd (set_signal (filters s) i name count q t) /\
  held (fst (write st r i name count q t)) = held st.
Proof.
  intros st l r p i name count q t L S. pose proof S as (its & H & NP & U).
  assert (F : Forall2 (reads st) its l) by (unfold looks in L; rewrite H in L; exact L).
  destruct (Forall2_nth _ _ _ _ _ _ _ F NP) as (s & NS & RS). cbn in RS.
  assert (Hr : (r < length (objects st))%nat) by (apply nth_error_Some; congruence).
  assert (PL : (p < length l)%nat) by (apply nth_error_Some; congruence).
  exists s, (update l p (with_filters s (fst (set_signal (filters s) i name count q t)))). split; [exact NS|].
  unfold write. rewrite RS. destruct (set_signal (filters s) i name count q t) as [f res]. cbn [fst snd].
  split; [|split; [|split; reflexivity]].
  - unfold looks. cbn [held]. rewrite H. apply Forall2_from_nth; [rewrite update_length; apply (Forall2_len _ _ _ _ _ F)|].
    intros n x b NX NB. destruct (Nat.eq_dec n p) as [->|D].
    + rewrite NP in NX. injection NX as <-. rewrite update_same in NB by exact PL. injection NB as <-. cbn. apply update_same, Hr.
    + rewrite update_other in NB by exact D. destruct (Forall2_nth _ _ _ _ _ _ _ F NX) as (b' & NB' & RB). rewrite NB in NB'. injection NB' as <-.
      destruct x as [r'|d]; cbn in *; [|exact RB]. rewrite update_other; [exact RB|]. intros ->. apply D, U, NX.
  - split; [apply update_length|]. split; [apply update_same, PL|]. intros x X. apply update_other, X.
Qed.
Lemma unseen : forall st v r i name count q t, looks st v -> gone st r -> looks (fst (write st r i name count q t)) v.
Proof.
  intros st v r i name count q t L G. unfold write. destruct (nth_error (objects st) r) as [s|] eqn:S; [|exact L].
  destruct (set_signal (filters s) i name count q t) as [f res]. cbn [fst]. unfold looks in *. cbn [held].
  destruct (held st) as [| |[l|]] eqn:H; try exact L. destruct v as [| |[cs|]]; try contradiction.
  apply Forall2_from_nth; [exact (Forall2_len _ _ _ _ _ L)|]. intros n x b NX NB.
  destruct (Forall2_nth _ _ _ _ _ _ _ L NX) as (b' & NB' & RB). rewrite NB in NB'. injection NB' as <-.
  destruct x as [r'|d]; cbn in *; [|exact RB]. rewrite update_other; [exact RB|]. intros ->. apply (G l H), (nth_error_In _ _ NX).
Qed.

(** ** Validating *)
Lemma says_spec : forall m s known, says m known s = match active s with
  | Some _ => if strict m && known && valid s then [Unused s] else []
  | None => [] end.
Proof. intros. unfold says. destruct (strict m && known && valid s), (active s); reflexivity. Qed.
Lemma said_in : forall m known l w, In w (flat_map (says m known) l) <->
  careful m /\ known = true /\ exists s, w = Unused s /\ In s l /\ wellformed s /\ active s <> None.
Proof.
  intros m known l w. rewrite in_flat_map. split.
  - intros (s & I & W). rewrite says_spec in W. destruct (active s) eqn:A; [|destruct W].
    destruct (strict m && known && valid s) eqn:Q; [|destruct W]. apply andb_true_iff in Q as [Q V]. apply andb_true_iff in Q as [Q K].
    destruct W as [<-|[]]. split; [apply strict_iff, Q|]. split; [exact K|]. exists s. split; [reflexivity|]. split; [exact I|].
    split; [apply valid_iff, V|congruence].
  - intros (C & -> & s & -> & I & W & A). exists s. split; [exact I|]. rewrite says_spec. destruct (active s); [|congruence].
    apply strict_iff in C. apply valid_iff in W. rewrite C, W. left. reflexivity.
Qed.
Lemma validated : forall st l m force known others, looks st (Shown (Some l)) -> m <> MNone \/ force = true ->
  exists st' n w e, validate st m force known others = (st', (n, w, e)) /\ looks st' (Shown (Some l)) /\
  (e <> None <-> careful m /\ exists s, In s l /\ virtual s) /\ (e <> None -> e = Some AttributeError /\ n = 0%nat /\ w = []) /\
  (e = None -> (n = 0%nat <-> acceptable m l /\ others = true) /\ (n = 0%nat \/ n = 1%nat) /\
    forall x, In x w <-> careful m /\ known = true /\ exists s, x = Unused s /\ In s l /\ wellformed s /\ active s <> None) /\
  (st' <> st -> e = None /\ n = 0%nat) /\
  (e = None -> n = 0%nat -> forall r, (r < length (objects st))%nat -> gone st' r).
Proof.
  intros st l m force known others L Q. unfold validate.
  assert (Q' : mode_eq m MNone && negb force = false).
  { destruct (mode_eq m MNone) eqn:E; [|reflexivity]. apply mode_none_iff in E. destruct Q as [Q|Q]; [congruence|]. rewrite Q. reflexivity. }
  rewrite Q'. destruct (held st) as [| |[its|]] eqn:H; try (unfold looks in L; rewrite H in L; contradiction).
  assert (F : Forall2 (reads st) its l) by (unfold looks in L; rewrite H in L; exact L).
  rewrite (proj2 (contents_reads st its l) F). pose proof (check_cases m known l) as C.
  destruct (check m known l) as [e|w|w l'].
  - destruct C as (-> & CM & V). do 4 eexists. split; [reflexivity|]. split; [exact L|].
    split; [split; [intros _; split; [exact CM|exact V]|discriminate]|]. split; [intros _; auto|]. split; [discriminate|]. split; [congruence|discriminate].
  - destruct C as (-> & NV & s & I & W). do 4 eexists. split; [reflexivity|]. split; [exact L|].
    split; [split; [congruence|intros (CM & s' & I' & V); exfalso; exact (NV CM s' I' V)]|]. split; [congruence|].
    split; [intros _; split; [split; [discriminate|intros ([_ A] & _); exfalso; exact (W (A s I))]|split; [right; reflexivity|apply said_in]]|].
    split; [congruence|discriminate].
  - destruct C as (-> & -> & A). destruct others.
    + do 4 eexists. split; [reflexivity|]. split; [apply copied_looks|].
      split; [split; [congruence|intros (CM & s' & I' & V); exfalso; exact (proj1 A CM s' I' V)]|]. split; [congruence|].
      split; [intros _; split; [split; auto|split; [left; reflexivity|apply said_in]]|].
      split; [auto|]. intros _ _ r Hr. apply copied_gone, Hr.
    + do 4 eexists. split; [reflexivity|]. split; [exact L|].
      split; [split; [congruence|intros (CM & s' & I' & V); exfalso; exact (proj1 A CM s' I' V)]|]. split; [congruence|].
      split; [intros _; split; [split; [discriminate|intros (_ & D); discriminate]|split; [right; reflexivity|apply said_in]]|].
      split; [congruence|discriminate].
Qed.
Lemma not_validated : forall st known others, validate st MNone false known others = (st, (0%nat, [], None)).
Proof. reflexivity. Qed.

(** A section the library made is reported by it. *)
Lemma own_reported : forall st l g idx a st' r m force, looks st (Shown (Some l)) -> add_section st g idx a = (st', Ok r) ->
  careful m -> (forall s, In s l -> ~ virtual s) ->
  In (Unused (fresh l g idx a)) (snd (fst (snd (validate st' m force true true)))).
Proof.
  intros st l g idx a st' r m force L A C NV. destruct (added _ _ _ _ _ _ _ L A) as (U & L' & _).
  assert (Q : m <> MNone \/ force = true) by (left; intros ->; destruct C; discriminate).
  destruct (validated st' _ m force true true L' Q) as (st'' & n & w & e & E & _ & E1 & _ & E2 & _).
  rewrite E. cbn [fst snd]. destruct e as [e|].
  - exfalso. destruct E1 as [E1 _]. destruct E1 as (_ & s & I & V); [discriminate|].
    apply in_app_iff in I as [I|[<-|[]]]; [exact (NV s I V)|]. destruct V as (f & (fs & FS & IF) & _). cbn in FS. injection FS as <-. destruct IF.
  - destruct (E2 eq_refl) as (_ & _ & W). apply W. split; [exact C|]. split; [reflexivity|]. eexists. split; [reflexivity|].
    split; [apply in_app_iff; right; left; reflexivity|]. split; [|discriminate]. split; [exact U|].
    intros f (fs & FS & IF). cbn in FS. injection FS as <-. destruct IF.
Qed.

(** ** Assigning *)
Lemma constant_setter : forall st m known v, m <> MNone -> assign ConstantCombinator st m known v = (st, ([], Some AttributeError)).
Proof. intros st m known v H. unfold assign. apply mode_bool_iff in H. rewrite H. reflexivity. Qed.
Lemma assigned_copies : forall c st m known its l o w st', held st = Held o -> Forall2 (reads st) its l -> m <> MNone ->
  assign c st m known (Some its) = (st', (w, None)) ->
  looks st' (Shown (Some l)) /\ acceptable m l /\ (forall r, (r < length (objects st))%nat -> gone st' r) /\
  forall x, In x w <-> careful m /\ known = true /\ exists s, x = Unused s /\ In s l /\ wellformed s /\ active s <> None.
Proof.
  intros c st m known its l o w st' H F M E. unfold assign in E. apply mode_bool_iff in M. rewrite M, H in E.
  rewrite (proj2 (contents_reads st its l) F) in E. pose proof (check_cases m known l) as C.
  assert (E' : match check m known l with Accepted w' cs' => (copied st cs', (w', @None exn)) = (st', (w, None)) | _ => False end).
  { destruct c; [discriminate|..]; destruct (check m known l); try discriminate; exact E. }
  destruct (check m known l) as [e|w'|w' l']; try contradiction. destruct C as (-> & -> & A). injection E' as <- <-.
  split; [apply copied_looks|]. split; [exact A|]. split; [intros r Hr; apply copied_gone, Hr|apply said_in].
Qed.
Lemma assigned_same : forall c st known its o, held st = Held o ->
  assign c st MNone known (Some its) = (mkState (objects st) (Held (Some its)), ([], None)).
Proof. intros c st known its o H. unfold assign. rewrite H. reflexivity. Qed.

(** ** Looking up *)
Lemma find_exact : forall st g its l, Forall2 (reads st) its l -> (forall s, ~ In (Raw s) its) ->
  (exists p, first_of g l p /\ exists r, nth_error its p = Some (Obj r) /\ find_group st g its = Ok (Obj r)) \/
  ((forall s, In s l -> group s <> Some g) /\ find_group st g its = Err StopIteration).
Proof.
  intros st g its l F. induction F as [|x s its l R F IH]; intros NR.
  - right. split; [intros s []|reflexivity].
  - destruct x as [r|d]; [|exfalso; apply (NR d); left; reflexivity]. cbn in R. cbn [find_group]. rewrite R.
    destruct (named g (group s)) eqn:N.
    + left. exists 0%nat. split.
      * split; [exists s; split; [reflexivity|]|intros q s' Q; lia].
        unfold named in N. destruct (group s); [|discriminate]. apply pystr_eqb_eq in N. congruence.
      * exists r. auto.
    + assert (NG : group s <> Some g).
      { intros E. rewrite E in N. cbn in N. rewrite (proj2 (pystr_eqb_eq g g) eq_refl) in N. discriminate. }
      destruct IH as [(p & (P1 & P2) & r' & Nr & Fr)|(A & B)]; [intros s' I; apply (NR s'); right; exact I|left|right].
      * exists (S p). split; [|exists r'; auto]. split; [exact P1|]. intros [|q] s' Q NQ; cbn in NQ; [congruence|].
        apply (P2 q); [lia|exact NQ].
      * split; [|exact B]. intros s' [<-|I]; [exact NG|apply A, I].
Qed.
Lemma by_name : forall st l its g, looks st (Shown (Some l)) -> held st = Held (Some its) -> (forall s, ~ In (Raw s) its) ->
  (exists p, first_of g l p /\ exists r, nth_error its p = Some (Obj r) /\ getitem st (Name g) = Ok (Obj r)) \/
  ((forall s, In s l -> group s <> Some g) /\ getitem st (Name g) = Err StopIteration).
Proof.
  intros st l its g L H NR. unfold getitem. rewrite sections_held, H. cbn [bind]. apply find_exact; [|exact NR].
  unfold looks in L. rewrite H in L. exact L.
Qed.
Lemma by_place : forall st its i, held st = Held (Some its) ->
  let n := Z.of_nat (length its) in
  (0 <= i < n -> exists x, nth_error its (Z.to_nat i) = Some x /\ getitem st (Place i) = Ok x) /\
  (- n <= i < 0 -> exists x, nth_error its (Z.to_nat (n + i)) = Some x /\ getitem st (Place i) = Ok x) /\
  (i < - n \/ n <= i -> getitem st (Place i) = Err IndexError).
Proof.
  intros st its i H n. unfold getitem. rewrite sections_held, H. cbn [bind]. unfold list_item. fold n. split; [|split].
  - intros B. destruct (Z.ltb_spec i 0); [lia|]. destruct (Z.ltb_spec i 0); [lia|].
    destruct (nth_error its (Z.to_nat i)) as [x|] eqn:N; [exists x; auto|]. apply nth_error_None in N. lia.
  - intros B. destruct (Z.ltb_spec i 0); [|lia]. destruct (Z.ltb_spec (i + n) 0); [lia|].
    replace (n + i) with (i + n) by lia.
    destruct (nth_error its (Z.to_nat (i + n))) as [x|] eqn:N; [exists x; auto|]. apply nth_error_None in N. lia.
  - intros B. destruct (Z.ltb_spec i 0).
    + destruct (Z.ltb_spec (i + n) 0); [reflexivity|lia].
    + destruct (Z.ltb_spec i 0); [lia|]. destruct (nth_error its (Z.to_nat i)) as [x|] eqn:N; [|reflexivity].
      assert (Z.to_nat i < length its)%nat by (apply nth_error_Some; congruence). lia.
Qed.
(** A section just added is found by its name unless an earlier one has it. *)
Lemma added_found : forall st l its g idx a st' r, looks st (Shown (Some l)) -> held st = Held (Some its) -> (forall s, ~ In (Raw s) its) ->
  add_section st (Some g) idx a = (st', Ok r) ->
  getitem st' (Name g) = (if existsb (fun s => named g (group s)) l then getitem st (Name g) else Ok (Obj r)).
Proof.
  intros st l its g idx a st' r L H NR A. pose proof (add_exact st its (Some g) idx a H) as [X Y]. cbv zeta in X, Y.
  set (i := match idx with Some i => i + 1 | None => Z.of_nat (length its) + 1 end) in *.
  assert (D : uint32_range i \/ ~ uint32_range i) by (unfold uint32_range; lia).
  destruct D as [D|D]; [|rewrite (Y D) in A; discriminate]. rewrite (X D) in A. injection A as <- <-.
  unfold getitem. rewrite !sections_held, H. cbn [bind held].
  assert (F : Forall2 (reads st) its l) by (unfold looks in L; rewrite H in L; exact L).
  set (st' := mkState _ _). assert (O : forall q s, nth_error (objects st) q = Some s -> nth_error (objects st') q = Some s).
  { intros q s Q. cbn. rewrite nth_error_app1; [exact Q|]. apply nth_error_Some. congruence. }
  assert (O' : nth_error (objects st') (length (objects st)) = Some (mkSection i (Some []) (Some g) (Some a))).
  { cbn. rewrite nth_error_app2 by lia. rewrite Nat.sub_diag. reflexivity. }
  clearbody st'. clear L H X Y D. clearbody i. induction F as [|x s its l R F IH]; cbn [app find_group existsb].
  - rewrite O'. cbn [named group]. rewrite (proj2 (pystr_eqb_eq g g) eq_refl). reflexivity.
  - destruct x as [q|d]; [|exfalso; apply (NR d); left; reflexivity]. cbn in R. rewrite R, (O _ _ R).
    destruct (named g (group s)); cbn [orb]; [reflexivity|]. apply IH. intros s' I. apply (NR s'). right. exact I.
Qed.

(** ** Numbers *)
Definition in_order (o : call) : Prop :=
  match o with Add _ idx _ => idx = None | Write _ _ _ _ _ _ | Validate _ _ _ _ => True | Assign _ _ _ => False end.
Lemma numbered_app : forall l g a, numbered l -> numbered (l ++ [fresh l g None a]).
Proof.
  intros l g a N. unfold numbered in *. rewrite app_length, map_app, N. cbn [length Nat.add]. rewrite Nat.add_1_r, seq_S, map_app. reflexivity.
Qed.
Lemma map_from_nth : forall A B (f : A -> B) l l', length l = length l' ->
  (forall n a b, nth_error l n = Some a -> nth_error l' n = Some b -> f a = f b) -> map f l = map f l'.
Proof.
  induction l as [|x l IH]; intros [|y l'] E H; try discriminate; [reflexivity|]. cbn. f_equal.
  - apply (H O); reflexivity.
  - apply IH; [injection E; auto|]. intros n a b. apply (H (S n)).
Qed.
Lemma order_step : forall c v live o v' live' l, step c (v, live) o (v', live') -> in_order o -> v = Shown (Some l) -> numbered l ->
  exists l', v' = Shown (Some l') /\ numbered l' /\ (length l <= length l')%nat.
Proof.
  intros c v live o v' live' l S O -> N. inversion S; subst; cbn in O; try contradiction.
  - subst idx. eexists. split; [reflexivity|]. split; [apply numbered_app, N|]. rewrite app_length. lia.
  - exists l. auto.
  - match goal with C : changed_at _ _ _ _ |- _ => destruct C as (C1 & C2 & C3) end.
    eexists. split; [reflexivity|]. split; [|lia]. unfold numbered in *. rewrite C1, <- N. apply map_from_nth; [exact C1|].
    intros n a b NA NB. destruct (Nat.eq_dec n p) as [->|D]; [|rewrite C3 in NA by exact D; congruence].
    rewrite C2 in NA. injection NA as <-. cbn. congruence.
  - exists l. auto.
  - exists l. auto.
  - exists l. auto.
Qed.
Lemma order_steps : forall c os v live v' live' l, steps c (v, live) os (v', live') -> Forall in_order os -> v = Shown (Some l) -> numbered l ->
  exists l', v' = Shown (Some l') /\ numbered l' /\ (length l <= length l')%nat.
Proof.
  intros c os. induction os as [|o os IH]; intros v live v' live' l S O E N; inversion S; subst.
  - exists l. auto.
  - inversion O; subst. destruct v'0 as [v1 live1]. destruct (order_step _ _ _ _ _ _ l H2 H1 eq_refl N) as (l1 & -> & N1 & L1).
    destruct (IH _ _ _ _ l1 H4 H3 eq_refl N1) as (l2 & -> & N2 & L2). exists l2. split; [reflexivity|]. split; [exact N2|lia].
Qed.
Lemma in_order_numbers : forall c os, start c = Held (Some []) -> Forall in_order os ->
  exists l, looks (fst (execs c os (mkState [] (start c), []))) (Shown (Some l)) /\ numbered l.
Proof.
  intros c os H O. destruct (history c os) as (v & live & S & L & _).
  assert (E : first_shown c = Shown (Some [])) by (destruct c; try discriminate; reflexivity).
  destruct (order_steps c os _ _ _ _ [] S O E eq_refl) as (l & -> & N & _). exists l. auto.
Qed.

(** ** Entities that never have sections *)
Lemma never : forall c os, start c <> Held (Some []) -> execs c os (mkState [] (start c), []) = (mkState [] (start c), []).
Proof.
  intros c os H. assert (HH : start c = Missing \/ start c = Junk) by (destruct c; cbn in *; auto; congruence).
  induction os as [|o os IH]; [reflexivity|]. unfold execs in *. cbn [fold_left].
  replace (exec c (mkState [] (start c), []) o) with (mkState [] (start c), @nil nat); [exact IH|].
  destruct o as [g idx a|k i name count q t|m force known others|m known v]; cbn [exec].
  - destruct (add_fails (mkState [] (start c)) g idx a) as (e & ->); [|reflexivity]. cbn. intros l E. destruct HH; congruence.
  - destruct k; reflexivity.
  - unfold validate. destruct (mode_eq m MNone && negb force); [reflexivity|]. cbn [held]. destruct HH as [E|E]; rewrite E; reflexivity.
  - unfold assign. cbn [held]. destruct HH as [E|E]; rewrite E; destruct (mode_bool m), c; reflexivity.
Qed.
Lemma storage_invalid : forall m force known others, m <> MNone \/ force = true ->
  validate (mkState [] (start LogisticStorageContainer)) m force known others = (mkState [] (start LogisticStorageContainer), (1%nat, [], None)).
Proof.
  intros m force known others H. unfold validate.
  assert (Q' : mode_eq m MNone && negb force = false).
  { destruct (mode_eq m MNone) eqn:E; [|reflexivity]. apply mode_none_iff in E. destruct H as [Q|Q]; [congruence|]. rewrite Q. reflexivity. }
  rewrite Q'. reflexivity.
Qed.
Lemma constant_never_assigned : forall st m known v, m <> MNone -> fst (assign ConstantCombinator st m known v) = st.
Proof. intros. rewrite constant_setter by assumption. reflexivity. Qed.

(** ** References and validation *)
Lemma lost : forall st l m force known others st' w, looks st (Shown (Some l)) -> m <> MNone \/ force = true ->
  validate st m force known others = (st', (0%nat, w, None)) ->
  forall r i name count q t, (r < length (objects st))%nat -> looks (fst (write st' r i name count q t)) (Shown (Some l)).
Proof.
  intros st l m force known others st' w L Q E r i name count q t Hr.
  destruct (validated st l m force known others L Q) as (st1 & n & w1 & e & E1 & L1 & _ & _ & _ & _ & G). rewrite E in E1. injection E1 as <- <- <- <-.
  apply unseen; [exact L1|]. apply G; auto.
Qed.
Lemma virtual_raises : forall st l m force known others s, looks st (Shown (Some l)) -> careful m -> In s l -> virtual s ->
  validate st m force known others = (st, (0%nat, [], Some AttributeError)).
Proof.
  intros st l m force known others s L C I V. assert (Q : m <> MNone \/ force = true) by (left; intros ->; destruct C; discriminate).
  destruct (validated st l m force known others L Q) as (st1 & n & w1 & e & E1 & _ & X & Y & _ & Z1 & _).
  assert (E : e <> None) by (apply X; split; [exact C|exists s; auto]). destruct (Y E) as (-> & -> & ->). rewrite E1.
  assert (D : validate st m force known others = (st, snd (validate st m force known others))).
  { unfold validate. destruct (mode_eq m MNone && negb force); [reflexivity|]. destruct (held st) as [| |[its|]] eqn:H; try reflexivity.
    assert (F : Forall2 (reads st) its l) by (unfold looks in L; rewrite H in L; exact L).
    rewrite (proj2 (contents_reads st its l) F). pose proof (check_cases m known l) as CC. destruct (check m known l); try reflexivity.
    exfalso. destruct CC as (_ & _ & A & _). exact (A C s I V). }
  rewrite E1 in D. cbn in D. exact D.
Qed.
Definition twice : list call := [Add None None true; Add None (Some 0) true].
Lemma twice_shown : looks (fst (execs ConstantCombinator twice (mkState [] (start ConstantCombinator), [])))
  (Shown (Some [mkSection 1 (Some []) None (Some true); mkSection 1 (Some []) None (Some true)])).
Proof. vm_compute. repeat constructor. Qed.
Lemma field_lookup : forall st l its, looks st (Shown (Some l)) -> held st = Held (Some its) -> (forall s, ~ In (Raw s) its) ->
  (forall s, In s l -> group s <> Some (str "sections")) -> getitem st (Name (str "sections")) = Err StopIteration.
Proof.
  intros st l its L H NR N. destruct (by_name st l its (str "sections") L H NR) as [(p & ((s & NS & G) & _) & _)|(_ & E)]; [|exact E].
  exfalso. exact (N s (nth_error_In _ _ NS) G).
Qed.
