(** Proofs about validation reports. *)
From Coq Require Import ZArith QArith List Bool Lia.
From Verif Require Import Common Assign_Model Report_Model Report_Spec.
Import ListNotations.

(** ** Induction over trees *)
Lemma part_tree : forall {B T} (P : part B T -> Prop),
  (forall id r, P (Ent id r)) -> (forall id xs ts, Forall P xs -> P (Grp id xs ts)) -> forall p, P p.
Proof.
  intros B T P HE HG. fix IH 1. intros [id r|id xs ts]; [apply HE|apply HG].
  induction xs as [|x xs IHx]; constructor; [apply IH|exact IHx].
Qed.
Lemma sheet_tree : forall {B T O} (P : sheet B T O -> Prop),
  (forall o xs ts, P (Blueprint o xs ts)) -> (forall o, P (Planner o)) ->
  (forall o bs, Forall P bs -> P (Book o bs)) -> forall s, P s.
Proof.
  intros B T O P H1 H2 H3. fix IH 1. intros [o xs ts|o|o bs]; [apply H1|apply H2|apply H3].
  induction bs as [|x xs IHx]; constructor; [apply IH|exact IHx].
Qed.

(** ** Reports *)
Lemma add_empty_l : forall {E W} (a : report E W), add_report empty_report a = a.
Proof. intros E W [es ws]. reflexivity. Qed.
Lemma add_empty_r : forall {E W} (a : report E W), add_report a empty_report = a.
Proof. intros E W [es ws]. unfold add_report. cbn. rewrite !app_nil_r. reflexivity. Qed.
Lemma add_assoc : forall {E W} (a b c : report E W), add_report (add_report a b) c = add_report a (add_report b c).
Proof. intros. unfold add_report. cbn. rewrite !app_assoc. reflexivity. Qed.

(** ** Ids *)
Lemma id_in_spec : forall i l, id_in i l = true <-> In i l.
Proof.
  intros i l. unfold id_in. rewrite existsb_exists. split.
  - intros [j [Hj E]]. apply pystr_eqb_eq in E. subst. exact Hj.
  - intro H. exists i. split; [exact H|apply pystr_eqb_refl].
Qed.
Lemma duplicate_ids_known : forall ids known,
  duplicate_ids known ids = false <-> NoDup (given ids) /\ forall i, In i (given ids) -> ~ In i known.
Proof.
  induction ids as [|[i|] ids IH]; intro known; cbn.
  - split; [|reflexivity]. intros _. split; [constructor|intros i []].
  - destruct (id_in i known) eqn:K.
    + apply id_in_spec in K. split; [discriminate|]. intros [_ H]. exfalso. exact (H i (or_introl eq_refl) K).
    + assert (NK : ~ In i known) by (rewrite <- id_in_spec, K; discriminate).
      change (given (Some i :: ids)) with (i :: given ids). rewrite IH. split.
      * intros [N H]. split.
        -- constructor; [|exact N]. intro F. exact (H i F (or_introl eq_refl)).
        -- intros j [<-|Hj]; [exact NK|]. intro F. exact (H j Hj (or_intror F)).
      * intros [N H]. inversion N; subst. split; [assumption|].
        intros j Hj [<-|F]; [contradiction|]. exact (H j (or_intror Hj) F).
  - exact (IH known).
Qed.
Lemma duplicate_ids_spec : forall ids, duplicate_ids [] ids = false <-> NoDup (given ids).
Proof.
  intro ids. rewrite duplicate_ids_known. split; [intros [H _]; exact H|].
  intro H. split; [exact H|]. intros i _ [].
Qed.

Section Proofs.
Context {B T O E W : Type} (C : checker B T O E W) (m : mode).
Local Notation look := (look B T O).
Local Notation told := (@told B T O E W C m).
Local Notation broken := (@broken B T O E W C m).

(** ** Courses *)
Lemma told_app : forall l1 l2 a b, told l1 a -> told l2 b -> told (l1 ++ l2) (add_report a b).
Proof.
  intros l1 l2 a b [vs [F1 [A1 A2]]] [ws [F2 [B1 B2]]]. exists (vs ++ ws). split; [apply Forall2_app; assumption|].
  cbn. rewrite A1, A2, B1, B2, !flat_map_app. split; reflexivity.
Qed.
Lemma told_nil : told [] empty_report.
Proof. exists []. split; [constructor|split; reflexivity]. Qed.
Lemma told_one : forall l es ws, says C m l (es, ws) -> told [l] (Build_report es ws).
Proof. intros l es ws H. exists [(es, ws)]. cbn. rewrite !app_nil_r. split; [repeat constructor; exact H|split; reflexivity]. Qed.
Lemma told_spoken : forall ls a, told ls a -> Forall (fun l => exists v, says C m l v) ls.
Proof. intros ls a [vs [F _]]. clear a. induction F; constructor; [eexists; eassumption|assumption]. Qed.
Lemma broken_left : forall l1 l2 x, broken l1 x -> broken (l1 ++ l2) x.
Proof.
  intros l1 l2 x (p & l & q & -> & Hb & Hp). exists p, l, (q ++ l2). rewrite <- app_assoc. split; [reflexivity|split; assumption].
Qed.
Lemma broken_right : forall l1 l2 a x, told l1 a -> broken l2 x -> broken (l1 ++ l2) x.
Proof.
  intros l1 l2 a x Ht (p & l & q & -> & Hb & Hp). exists (l1 ++ p), l, q. rewrite <- app_assoc.
  split; [reflexivity|split; [exact Hb|]]. apply Forall_app. split; [exact (told_spoken _ _ Ht)|exact Hp].
Qed.
Lemma broken_one : forall l x, bursts C m l x -> broken [l] x.
Proof. intros l x H. exists [], l, []. split; [reflexivity|split; [exact H|constructor]]. Qed.

Lemma spoken_det : forall {R} (o : outcome R E W) es ws es' ws', spoken o es ws -> spoken o es' ws' -> es = es' /\ ws = ws'.
Proof. intros R o es ws es' ws' H1 H2. inversion H1; subst; inversion H2; subst; split; reflexivity. Qed.
Lemma says_det : forall l v w, says C m l v -> says C m l w -> v = w.
Proof.
  intros l v w H1 H2. inversion H1; subst; inversion H2; subst; try contradiction; try reflexivity;
    match goal with A : spoken _ _ _, A' : spoken _ _ _ |- _ => destruct (spoken_det _ _ _ _ _ A A') as [-> ->]; reflexivity end.
Qed.
Lemma says_bursts : forall l v x, says C m l v -> bursts C m l x -> False.
Proof.
  intros l v x H1 H2. inversion H2; subst; inversion H1; subst;
    match goal with A : spoken ?o _ _, A' : ?o = _ |- _ => rewrite A' in A; inversion A end.
Qed.
Lemma bursts_det : forall l x y, bursts C m l x -> bursts C m l y -> x = y.
Proof. intros l x y H1 H2. inversion H1; subst; inversion H2; subst; congruence. Qed.

Lemma told_det : forall ls a b, told ls a -> told ls b -> a = b.
Proof.
  intros ls [ea wa] [eb wb] [vs [F1 [A1 A2]]] [ws [F2 [B1 B2]]]. cbn in *.
  assert (E0 : vs = ws).
  { clear A1 A2 B1 B2. revert ws F2. induction F1 as [|l v ls vs H F IH]; intros ws F2; inversion F2; subst; [reflexivity|].
    f_equal; [eapply says_det; eassumption|apply IH; assumption]. }
  subst. reflexivity.
Qed.
Lemma told_broken : forall ls a x, told ls a -> broken ls x -> False.
Proof.
  intros ls a x Ht (p & l & q & -> & Hb & _). apply told_spoken in Ht. apply Forall_app in Ht. destruct Ht as [_ Ht].
  inversion Ht as [|? ? [v Hv] _]; subst. exact (says_bursts _ _ _ Hv Hb).
Qed.
Lemma broken_det : forall ls x y, broken ls x -> broken ls y -> x = y.
Proof.
  intros ls x y (p & l & q & -> & Hb & Hp) (p' & l' & q' & E1 & Hb' & Hp').
  revert p' E1 Hp'. induction p as [|h p IH]; intros [|h' p'] E1 Hp'; cbn in E1; injection E1 as E1 E2; subst.
  - eapply bursts_det; eassumption.
  - inversion Hp' as [|? ? [v Hv] _]; subst. exfalso. exact (says_bursts _ _ _ Hv Hb).
  - inversion Hp as [|? ? [v Hv] _]; subst. exfalso. exact (says_bursts _ _ _ Hv Hb').
  - inversion Hp; subst. inversion Hp'; subst. eapply IH; eassumption.
Qed.

(** ** What a function says *)
(** [f] says about [x] what the course [L x] says. *)
Definition faithful {X} (f : X -> X * result (report E W)) (L : X -> list look) (x : X) : Prop :=
  (exists a, snd (f x) = Ok a /\ told (L x) a) \/ (exists e, snd (f x) = Err e /\ broken (L x) e).

Lemma settle_faithful : forall {R S} (kept : S) (keep : R -> S) (o : outcome R E W) l,
  (forall es ws, spoken o es ws -> says C m l (es, ws)) -> (forall x, o = Raised x -> bursts C m l x) ->
  (exists a, snd (settle kept keep o) = Ok a /\ told [l] a) \/ (exists e, snd (settle kept keep o) = Err e /\ broken [l] e).
Proof.
  intros R S kept keep o l Hs Hb. destruct o as [r ws|e ws|x]; cbn.
  - left. eexists. split; [reflexivity|]. apply told_one, Hs. constructor.
  - left. eexists. split; [reflexivity|]. apply told_one, Hs. constructor.
  - right. eexists. split; [reflexivity|]. apply broken_one, Hb. reflexivity.
Qed.

Lemma each_faithful : forall {X} (f : X -> X * result (report E W)) L xs out, Forall (faithful f L) xs ->
  (exists a, snd (each f xs out) = Ok (add_report out a) /\ told (flat_map L xs) a) \/
  (exists e, snd (each f xs out) = Err e /\ broken (flat_map L xs) e).
Proof.
  intros X f L xs out H. revert out. induction H as [|x xs Hx _ IH]; intro out; cbn.
  - left. exists empty_report. rewrite add_empty_r. split; [reflexivity|exact told_nil].
  - unfold faithful in Hx. destruct (f x) as [x' r]. cbn in Hx.
    destruct Hx as [(a & -> & Ha)|(e & -> & He)].
    + specialize (IH (add_report out a)). destruct (each f xs (add_report out a)) as [xs' r'].
      cbn in *. destruct IH as [(b & -> & Hb)|(e & -> & He)].
      * left. exists (add_report a b). rewrite add_assoc. split; [reflexivity|]. apply told_app; assumption.
      * right. exists e. split; [reflexivity|]. eapply broken_right; eassumption.
    + right. exists e. cbn. split; [reflexivity|]. apply broken_left. exact He.
Qed.

Section Switched.
Context (force : bool) (On : skipped m force = false).

Lemma entity_faithful : forall id r, faithful (fun p : part B T => validate_part C m force p) tour (Ent id r).
Proof.
  intros id r. unfold faithful. cbn. unfold validate_entity. rewrite On.
  destruct (settle_faithful r (restore r) (ck_entity C m r) (LEntity r)) as [H|H].
  - intros. constructor. assumption.
  - intros. constructor. assumption.
  - destruct (settle _ _ _) as [r' o]. cbn in *. left. exact H.
  - destruct (settle _ _ _) as [r' o]. cbn in *. right. exact H.
Qed.

Lemma ids_told : forall (xs : list (part B T)), told [LIds (map ident xs)] (list_report C xs).
Proof.
  intro xs. unfold list_report. destruct (duplicate_ids [] (map ident xs)) eqn:D.
  - apply told_one, says_same. rewrite <- duplicate_ids_spec, D. discriminate.
  - apply told_one, says_unique. apply duplicate_ids_spec, D.
Qed.

Lemma list_faithful : forall (xs : list (part B T)), Forall (faithful (validate_part C m force) tour) xs ->
  (exists a, snd (validate_list C m force (validate_part C m force) xs) = Ok a /\ told (LIds (map ident xs) :: flat_map tour xs) a) \/
  (exists e, snd (validate_list C m force (validate_part C m force) xs) = Err e /\ broken (LIds (map ident xs) :: flat_map tour xs) e).
Proof.
  intros xs H. unfold validate_list. rewrite On.
  destruct (each_faithful _ _ _ (list_report C xs) H) as [(a & Ea & Ha)|(e & Ee & He)].
  - left. eexists. split; [exact Ea|]. change (LIds (map ident xs) :: flat_map tour xs) with ([LIds (map ident xs)] ++ flat_map (@tour B T O) xs).
    apply told_app; [apply ids_told|exact Ha].
  - right. exists e. split; [exact Ee|]. change (LIds (map ident xs) :: flat_map tour xs) with ([LIds (map ident xs)] ++ flat_map (@tour B T O) xs).
    eapply broken_right; [apply ids_told|exact He].
Qed.

Lemma part_faithful : forall p : part B T, faithful (validate_part C m force) tour p.
Proof.
  apply part_tree; [exact entity_faithful|]. intros id xs ts H. unfold faithful. cbn.
  destruct (list_faithful _ H) as [(a & Ea & Ha)|(e & Ee & He)];
    destruct (validate_list C m force (validate_part C m force) xs) as [xs' o]; cbn in *; subst o; cbn.
  - left. exists a. rewrite add_empty_l. split; [reflexivity|exact Ha].
  - right. exists e. split; [reflexivity|exact He].
Qed.

Lemma tile_faithful : forall t, faithful (validate_tile C m force) (fun t => [LTile t]) t.
Proof.
  intro t. unfold faithful, validate_tile. rewrite On. apply settle_faithful; intros; constructor; assumption.
Qed.
Lemma own_faithful : forall o, faithful (validate_own C m force) (fun o => [LOwn o]) o.
Proof.
  intro o. unfold faithful, validate_own. rewrite On. apply settle_faithful; intros; constructor; assumption.
Qed.
Lemma flat_map_one : forall {X Y} (f : X -> Y) xs, flat_map (fun x => [f x]) xs = map f xs.
Proof. intros X Y f xs. induction xs as [|x xs IH]; [reflexivity|]. cbn. rewrite IH. reflexivity. Qed.
Lemma tiles_faithful : forall ts,
  (exists a, snd (validate_tiles C m force ts) = Ok a /\ told (map LTile ts) a) \/
  (exists e, snd (validate_tiles C m force ts) = Err e /\ broken (map LTile ts) e).
Proof.
  intro ts. unfold validate_tiles. rewrite On.
  destruct (each_faithful (validate_tile C m force) (fun t => [LTile t]) ts empty_report) as [(a & Ea & Ha)|(e & Ee & He)].
  - apply Forall_forall. intros t _. apply tile_faithful.
  - left. rewrite flat_map_one in Ha. rewrite add_empty_l in Ea. exists a. split; assumption.
  - right. rewrite flat_map_one in He. exists e. split; assumption.
Qed.

Lemma sheet_faithful : forall s : sheet B T O, faithful (validate C m force) course s.
Proof.
  apply sheet_tree.
  - intros o xs ts. unfold faithful. cbn.
    change (LOwn o :: LIds (map ident xs) :: flat_map tour xs ++ map LTile ts)
      with ([LOwn o] ++ (LIds (map ident xs) :: flat_map tour xs) ++ map LTile ts).
    pose proof (own_faithful o) as Ho. unfold faithful in Ho. destruct (validate_own C m force o) as [o' ro]. cbn in Ho.
    destruct Ho as [(a & -> & Ha)|(e & -> & He)].
    2: { right. exists e. split; [reflexivity|]. apply broken_left. exact He. }
    assert (Hxs : Forall (faithful (validate_part C m force) tour) xs) by (apply Forall_forall; intros; apply part_faithful).
    pose proof (list_faithful xs Hxs) as Hl. destruct (validate_list C m force (validate_part C m force) xs) as [xs' rx]. cbn in Hl.
    destruct Hl as [(b & -> & Hb)|(e & -> & He)].
    2: { right. exists e. split; [reflexivity|]. eapply broken_right; [exact Ha|]. apply broken_left. exact He. }
    pose proof (tiles_faithful ts) as Ht. destruct (validate_tiles C m force ts) as [ts' rt]. cbn in Ht.
    destruct Ht as [(c & -> & Hc)|(e & -> & He)]; cbn [bind snd].
    + left. eexists. split; [reflexivity|]. rewrite add_assoc. apply told_app; [exact Ha|]. apply told_app; assumption.
    + right. exists e. split; [reflexivity|]. eapply broken_right; [exact Ha|]. eapply broken_right; [exact Hb|exact He].
  - intro o. unfold faithful. cbn. pose proof (own_faithful o) as Ho. unfold faithful in Ho.
    destruct (validate_own C m force o) as [o' ro]. exact Ho.
  - intros o bs Hbs. unfold faithful. cbn. rewrite On.
    change (LBook o :: flat_map course bs) with ([LBook o] ++ flat_map (@course B T O) bs).
    destruct (settle_faithful o (fun o' => o') (ck_book C m o) (LBook o)) as [(a & Ea & Ha)|(e & Ee & He)];
      try (intros; constructor; assumption);
      destruct (settle o (fun o' => o') (ck_book C m o)) as [o' ro]; cbn [snd] in *; subst ro.
    + destruct (each_faithful (validate C m force) course bs a Hbs) as [(b & Eb & Hb)|(e & Ee & He)];
        destruct (each (validate C m force) bs a) as [bs' rb]; cbn [snd] in *; subst rb.
      * left. eexists. split; [reflexivity|]. apply told_app; assumption.
      * right. exists e. split; [reflexivity|]. eapply broken_right; eassumption.
    + right. exists e. split; [reflexivity|]. apply broken_left. exact He.
Qed.

(** The theorems as equivalences. *)
Lemma faithful_ok : forall {X} f (L : X -> list look) x a, faithful f L x -> (snd (f x) = Ok a <-> told (L x) a).
Proof.
  intros X f L x a [(b & Eb & Hb)|(e & Ee & He)].
  - rewrite Eb. split; [intro H; injection H as <-; exact Hb|]. intro Ha. f_equal. eapply told_det; eassumption.
  - rewrite Ee. split; [discriminate|]. intro Ha. exfalso. eapply told_broken; eassumption.
Qed.
Lemma faithful_err : forall {X} f (L : X -> list look) x e, faithful f L x -> (snd (f x) = Err e <-> broken (L x) e).
Proof.
  intros X f L x e [(b & Eb & Hb)|(e' & Ee & He)].
  - rewrite Eb. split; [discriminate|]. intro Ha. exfalso. eapply told_broken; eassumption.
  - rewrite Ee. split; [intro H; injection H as <-; exact He|]. intro Ha. f_equal. eapply broken_det; eassumption.
Qed.

(** ** What becomes of the object *)
Lemma restore_place : forall r r' : root B, same_place r (restore r r').
Proof.
  intros r r'. unfold same_place, restore. cbn. repeat split.
  - destruct (direction r); [reflexivity|congruence].
  - destruct (orientation r); [reflexivity|congruence].
Qed.
Lemma same_place_refl : forall r : root B, same_place r r.
Proof. intro r. repeat split. Qed.

Lemma settle_entity : forall r r' o, settle r (restore r) (ck_entity C m r) = (r', o) ->
  same_place r r' /\ (forall a, o = Ok a -> became C m r r').
Proof.
  intros r r' o H. destruct (ck_entity C m r) as [q ws|e ws|x] eqn:K; cbn in H; injection H as <- <-.
  - split; [apply restore_place|]. intros a _. eapply became_new; [exact K|reflexivity|apply restore_place| |];
      intro N; unfold restore; cbn; rewrite N; reflexivity.
  - split; [apply same_place_refl|]. intros a _. eapply became_old. exact K.
  - split; [apply same_place_refl|]. intros a H. discriminate.
Qed.

Lemma each_state : forall {X} (f : X -> X * result (report E W)) (P Q : X -> X -> Prop) xs,
  (forall x, P x x) ->
  Forall (fun x => P x (fst (f x)) /\ forall a, snd (f x) = Ok a -> Q x (fst (f x))) xs ->
  forall out, Forall2 P xs (fst (each f xs out)) /\ forall a, snd (each f xs out) = Ok a -> Forall2 Q xs (fst (each f xs out)).
Proof.
  intros X f P Q xs Rf H. induction H as [|x xs [Hp Hq] _ IH]; intro out; cbn.
  - split; [constructor|]. intros. constructor.
  - destruct (f x) as [x' r] eqn:Fx. cbn in Hp, Hq. destruct r as [a|e].
    + specialize (IH (add_report out a)). destruct (each f xs (add_report out a)) as [xs' r']. cbn in *.
      destruct IH as [I1 I2]. split; [constructor; assumption|]. intros b Hb.
      constructor; [exact (Hq a eq_refl)|exact (I2 b Hb)].
    + cbn. split; [|discriminate]. constructor; [exact Hp|]. clear -Rf. induction xs; constructor; auto.
Qed.

Lemma akin_refl : forall (R : root B -> root B -> Prop), (forall r, R r r) -> forall p : part B T, akin R p p.
Proof.
  intros R H. apply part_tree; [intros; constructor; apply H|]. intros id xs ts F. constructor.
  induction F; constructor; assumption.
Qed.
Lemma alike_refl : forall (R : root B -> root B -> Prop) (S : O -> O -> Prop), (forall r, R r r) -> (forall o, S o o) -> forall s : sheet B T O, alike R S s s.
Proof.
  intros R S HR HS. apply sheet_tree; [intros o xs ts|intro o|intros o bs F]; constructor; try apply HS.
  - induction xs; constructor; [apply akin_refl; exact HR|assumption].
  - induction F; constructor; assumption.
Qed.

Lemma part_state : forall p : part B T,
  akin same_place p (fst (validate_part C m force p)) /\
  forall a, snd (validate_part C m force p) = Ok a -> akin (became C m) p (fst (validate_part C m force p)).
Proof.
  apply part_tree.
  - intros id r. cbn. unfold validate_entity. rewrite On.
    destruct (settle r (restore r) (ck_entity C m r)) as [r' o] eqn:K. cbn.
    destruct (settle_entity _ _ _ K) as [H1 H2]. split; [constructor; exact H1|].
    intros a Ha. constructor. exact (H2 a Ha).
  - intros id xs ts F. cbn. unfold validate_list. rewrite On.
    destruct (each_state (validate_part C m force) (akin same_place) (akin (became C m)) xs
                (akin_refl _ same_place_refl) F (list_report C xs)) as [H1 H2].
    destruct (each (validate_part C m force) xs (list_report C xs)) as [xs' o]. cbn in *.
    split; [constructor; exact H1|]. intros a Ha. destruct o as [b|e]; cbn in Ha; [|discriminate].
    constructor. exact (H2 b eq_refl).
Qed.

Lemma tiles_state : forall ts, fst (validate_tiles C m force ts) = ts.
Proof.
  intro ts. unfold validate_tiles. destruct (skipped m force) eqn:K; [reflexivity|].
  generalize (@empty_report E W). induction ts as [|t ts IH]; intro out; [reflexivity|]. cbn.
  assert (S1 : fst (validate_tile C m force t) = t).
  { unfold validate_tile. rewrite K. destruct (ck_tile C m t); reflexivity. }
  destruct (validate_tile C m force t) as [t' r]. cbn in S1. subst t'. destruct r as [a|e]; [|reflexivity].
  specialize (IH (add_report out a)). destruct (each (validate_tile C m force) ts (add_report out a)) as [ts' r']. cbn in *.
  rewrite IH. reflexivity.
Qed.
Lemma own_state : forall o, fst (validate_own C m force o) = o.
Proof. intro o. unfold validate_own. rewrite On. destruct (ck_own C m o); reflexivity. Qed.

Lemma sheet_state : forall s : sheet B T O,
  alike same_place (fun _ _ => True) s (fst (validate C m force s)) /\
  forall a, snd (validate C m force s) = Ok a -> alike (became C m) (rebound C m) s (fst (validate C m force s)).
Proof.
  apply sheet_tree.
  - intros o xs ts. cbn. pose proof (own_state o) as So. destruct (validate_own C m force o) as [o' ro]. cbn in So. subst o'.
    destruct ro as [a|e].
    2: { cbn. split; [|discriminate]. constructor. induction xs; constructor; [apply akin_refl, same_place_refl|assumption]. }
    unfold validate_list. rewrite On.
    assert (F : Forall (fun p : part B T => akin same_place p (fst (validate_part C m force p)) /\
              forall a, snd (validate_part C m force p) = Ok a -> akin (became C m) p (fst (validate_part C m force p))) xs)
      by (apply Forall_forall; intros; apply part_state).
    destruct (each_state (validate_part C m force) (akin same_place) (akin (became C m)) xs
                (akin_refl _ same_place_refl) F (list_report C xs)) as [H1 H2].
    destruct (each (validate_part C m force) xs (list_report C xs)) as [xs' rx]. cbn in H1, H2. destruct rx as [b|e].
    2: { cbn. split; [constructor; exact H1|discriminate]. }
    pose proof (tiles_state ts) as St. destruct (validate_tiles C m force ts) as [ts' rt]. cbn in St. subst ts'. cbn.
    split; [constructor; exact H1|]. intros c _. constructor. exact (H2 b eq_refl).
  - intro o. cbn. pose proof (own_state o) as So. destruct (validate_own C m force o) as [o' ro]. cbn in *. subst o'.
    split; [constructor|intros; constructor].
  - intros o bs F. cbn. rewrite On.
    assert (Rf : forall s : sheet B T O, alike same_place (fun _ _ => True) s s)
      by (apply alike_refl; [exact same_place_refl|intros; exact I]).
    destruct (settle o (fun o' => o') (ck_book C m o)) as [o' ro] eqn:K.
    assert (Hr : forall a, ro = Ok a -> rebound C m o o').
    { intros a Ha. destruct (ck_book C m o) as [q ws|e ws|x] eqn:Kb; cbn in K; injection K as <- <-;
        [eapply rebound_new; exact Kb|eapply rebound_old; exact Kb|discriminate]. }
    destruct ro as [a|e]; cbn.
    2: { split; [|discriminate]. constructor; [exact I|]. clear -Rf. induction bs; constructor; auto. }
    destruct (each_state (validate C m force) (alike same_place (fun _ _ => True)) (alike (became C m) (rebound C m)) bs Rf F a) as [H1 H2].
    destruct (each (validate C m force) bs a) as [bs' rb]. cbn in *.
    split; [constructor; [exact I|exact H1]|]. intros b Hb. constructor; [exact (Hr a eq_refl)|exact (H2 b Hb)].
Qed.

End Switched.

(** ** Switched off *)
Lemma part_off : forall p : part B T, validate_part C MNone false p = (p, Ok empty_report).
Proof. intros [id r|id xs ts]; reflexivity. Qed.
Lemma sheet_off : forall s : sheet B T O, validate C MNone false s = (s, Ok empty_report).
Proof. intros [o xs ts|o|o bs]; reflexivity. Qed.

(** ** Twice *)
Lemma became_again : settled C m -> forall r r', became C m r r' ->
  (forall v, says C m (LEntity r) v -> says C m (LEntity r') v) /\ (forall r'', became C m r' r'' -> r'' = r').
Proof.
  intros [St _] r r' H. inversion H as [q q' q'' ws K Hb Hp Hd Ho|q e ws K]; subst.
  - destruct (St _ _ _ _ K Hb Hp Hd Ho) as (s & Ks & Bs & Ds & Os). split.
    + intros v Hv. inversion Hv as [? es ws' Sp| | | | |]; subst. rewrite K in Sp. inversion Sp; subst.
      constructor. rewrite Ks. constructor.
    + intros t Ht. inversion Ht as [u u' u'' ws' K' Hb' Hp' Hd' Ho'|u e ws' K']; subst; [|reflexivity].
      rewrite Ks in K'. injection K' as <- <-. destruct Hp' as (P1 & P2 & P3 & P4).
      assert (D : direction t = direction r').
      { destruct (direction r') as [d|] eqn:N; [rewrite P3; congruence|].
        rewrite Hd' by reflexivity. apply Ds. reflexivity. }
      assert (Or : orientation t = orientation r').
      { destruct (orientation r') as [d|] eqn:N; [rewrite P4; congruence|].
        rewrite Ho' by reflexivity. apply Os. reflexivity. }
      destruct t, r'; cbn in *; congruence.
  - split; [auto|]. intros t Ht. inversion Ht as [u u' u'' ws' K' Hb' Hp' Hd' Ho'|u e' ws' K']; subst; [congruence|reflexivity].
Qed.

Definition echoes (l l' : look) : Prop := forall v, says C m l v -> says C m l' v.
Lemma echo_told : forall ls ls' a, Forall2 echoes ls ls' -> told ls a -> told ls' a.
Proof.
  intros ls ls' a F [vs [Fv [A1 A2]]]. exists vs. split; [|split; assumption].
  clear A1 A2. revert vs Fv. induction F as [|l l' ls ls' H F IH]; intros vs Fv; inversion Fv; subst; constructor.
  - apply H. assumption.
  - apply IH. assumption.
Qed.
Lemma akin_ident : forall (R : root B -> root B -> Prop) (p q : part B T), akin R p q -> ident p = ident q.
Proof. intros R p q H. inversion H; reflexivity. Qed.
Lemma akin_idents : forall (R : root B -> root B -> Prop) (ps qs : list (part B T)), Forall2 (akin R) ps qs -> map ident ps = map ident qs.
Proof. intros R ps qs F. induction F; [reflexivity|]. cbn. f_equal; [eapply akin_ident; eassumption|assumption]. Qed.

Lemma flat_echo : forall {X Y} (P : X -> Y -> Prop) (L : X -> list look) (L' : Y -> list look) xs ys, Forall2 P xs ys ->
  (forall x y, In x xs -> P x y -> Forall2 echoes (L x) (L' y)) -> Forall2 echoes (flat_map L xs) (flat_map L' ys).
Proof.
  intros X Y P L L' xs ys F H. induction F as [|x y xs ys Hxy F IH]; [constructor|]. cbn. apply Forall2_app.
  - apply H; [left; reflexivity|exact Hxy].
  - apply IH. intros u v Hu. apply H. right. exact Hu.
Qed.
Lemma part_echo : settled C m -> forall p q : part B T, akin (became C m) p q -> Forall2 echoes (tour p) (tour q).
Proof.
  intros St p. apply (part_tree (fun p => forall q, akin (became C m) p q -> Forall2 echoes (tour p) (tour q))); clear p.
  - intros id r q H. inversion H; subst. constructor; [|constructor]. intros v. apply (became_again St). assumption.
  - intros id xs ts F q H. inversion H as [|? ? xs' ? Fx]; subst. cbn. constructor.
    + intros v. rewrite (akin_idents _ _ _ Fx). auto.
    + apply (flat_echo _ _ _ _ _ Fx). intros x y Hx Hxy. rewrite Forall_forall in F. apply F; assumption.
Qed.
Lemma map_echo : forall (ts : list T), Forall2 echoes (map LTile ts) (map LTile ts).
Proof. induction ts; constructor; [intros v H; exact H|assumption]. Qed.
Lemma rebound_echo : settled C m -> forall o o', rebound C m o o' -> echoes (LBook o) (LBook o').
Proof.
  intros [_ St] o o' H v Hv. inversion H as [q q' ws K|q e ws K]; subst; [|exact Hv].
  inversion Hv as [| | | | |q es ws' Sp]; subst. rewrite K in Sp. inversion Sp; subst. constructor. rewrite (St _ _ _ K). constructor.
Qed.
Lemma sheet_echo : settled C m -> forall s s' : sheet B T O, alike (became C m) (rebound C m) s s' -> Forall2 echoes (course s) (course s').
Proof.
  intros St s. apply (sheet_tree (fun s => forall s', alike (became C m) (rebound C m) s s' -> Forall2 echoes (course s) (course s'))); clear s.
  - intros o xs ts s' H. inversion H as [|? ? xs' ? Fx|]; subst. cbn. constructor; [intros v Hv; exact Hv|].
    constructor; [intros v; rewrite (akin_idents _ _ _ Fx); auto|]. apply Forall2_app; [|apply map_echo].
    apply (flat_echo _ _ _ _ _ Fx). intros x y _. apply part_echo. exact St.
  - intros o s' H. inversion H; subst. constructor; [intros v Hv; exact Hv|constructor].
  - intros o bs F s' H. inversion H as [| |? o' ? bs' Ho Fb]; subst. cbn. constructor; [apply rebound_echo; assumption|].
    apply (flat_echo _ _ _ _ _ Fb). intros x y Hx Hxy. rewrite Forall_forall in F. apply F; assumption.
Qed.

Lemma became_trans_fix : settled C m -> forall p q : part B T, akin (became C m) p q ->
  forall q', akin (became C m) q q' -> q' = q.
Proof.
  intros St p. apply (part_tree (fun p => forall q, akin (became C m) p q -> forall q', akin (became C m) q q' -> q' = q)); clear p.
  - intros id r q H q' H'. inversion H; subst. inversion H'; subst. f_equal.
    match goal with K : became C m r ?r1, K' : became C m ?r1 ?r2 |- _ => exact (proj2 (became_again St _ _ K) _ K') end.
  - intros id xs ts F q H q' H'. inversion H as [|? ? ys ? Fx]; subst. inversion H' as [|? ? zs ? Fy]; subst. f_equal.
    clear H H'. revert zs Fy. induction Fx as [|x y xs ys Hxy Fx IH]; intros zs Fy; inversion Fy; subst; [reflexivity|].
    inversion F; subst. f_equal; [eauto|apply IH; assumption].
Qed.
Lemma rebound_fix : settled C m -> forall o o' o'', rebound C m o o' -> rebound C m o' o'' -> o'' = o'.
Proof.
  intros [_ St] o o' o'' H H'. inversion H as [q q' ws K|q e ws K]; subst.
  - apply St in K. inversion H'; subst; congruence.
  - inversion H'; subst; congruence.
Qed.
Lemma sheet_fix : settled C m -> forall s s' : sheet B T O, alike (became C m) (rebound C m) s s' ->
  forall s'', alike (became C m) (rebound C m) s' s'' -> s'' = s'.
Proof.
  intros St s. apply (sheet_tree (fun s => forall s', alike (became C m) (rebound C m) s s' ->
    forall s'', alike (became C m) (rebound C m) s' s'' -> s'' = s')); clear s.
  - intros o xs ts s' H s'' H'. inversion H as [|? ? ys ? Fx|]; subst. inversion H' as [|? ? zs ? Fy|]; subst. f_equal.
    clear H H'. revert zs Fy. induction Fx as [|x y xs ys Hxy Fx IH]; intros zs Fy; inversion Fy; subst; [reflexivity|].
    f_equal; [eapply became_trans_fix; eassumption|apply IH; assumption].
  - intros o s' H s'' H'. inversion H; subst. inversion H'; subst. reflexivity.
  - intros o bs F s' H s'' H'. inversion H as [| |? o' ? ys Ho Fx]; subst. inversion H' as [| |? o'' ? zs Ho' Fy]; subst.
    f_equal; [eapply rebound_fix; eassumption|]. clear H H' Ho Ho'.
    revert zs Fy. induction Fx as [|x y xs ys Hxy Fx IH]; intros zs Fy; inversion Fy; subst; [reflexivity|].
    inversion F; subst. f_equal; [eauto|apply IH; assumption].
Qed.

Lemma validate_twice : forall force s s' a, settled C m -> validate C m force s = (s', Ok a) -> validate C m force s' = (s', Ok a).
Proof.
  intros force s s' a St H. destruct (skipped m force) eqn:On.
  - unfold skipped in On. apply andb_true_iff in On. destruct On as [On1 On2]. destruct force; [discriminate|].
    destruct m; try discriminate. rewrite sheet_off in *. congruence.
  - destruct (sheet_state force On s) as [_ Q]. rewrite H in Q. cbn in Q. specialize (Q a eq_refl).
    assert (T1 : told (course s) a) by (apply (faithful_ok _ _ _ _ (sheet_faithful force On s)); rewrite H; reflexivity).
    pose proof (echo_told _ _ _ (sheet_echo St _ _ Q) T1) as T2.
    apply (faithful_ok _ _ _ _ (sheet_faithful force On s')) in T2.
    destruct (sheet_state force On s') as [_ Q']. specialize (Q' a T2).
    pose proof (sheet_fix St _ _ Q _ Q') as F. destruct (validate C m force s') as [s'' r]. cbn in *. subst. reflexivity.
Qed.

(** ** Tiles of groups *)
Lemma bare_ident : forall p : part B T, ident (bare p) = ident p.
Proof. intros [id r|id xs ts]; reflexivity. Qed.
Lemma bare_tour : forall p : part B T, tour (bare p) = (tour p : list look).
Proof.
  apply part_tree; [reflexivity|]. intros id xs ts F. cbn. f_equal.
  - rewrite map_map. f_equal. apply map_ext. exact bare_ident.
  - induction F as [|x xs Hx F IH]; [reflexivity|]. cbn. rewrite Hx, IH. reflexivity.
Qed.
Lemma bare_report : forall force p, snd (validate_part C m force (bare p)) = snd (validate_part C m force p).
Proof.
  intros force p. destruct (skipped m force) eqn:On.
  - unfold skipped in On. apply andb_true_iff in On. destruct On as [On1 On2]. destruct force; [discriminate|].
    destruct m; try discriminate. rewrite !part_off. reflexivity.
  - pose proof (part_faithful force On p) as Fp. destruct (snd (validate_part C m force p)) as [a|e] eqn:K.
    + apply (faithful_ok _ _ _ _ (part_faithful force On (bare p))). rewrite bare_tour.
      apply (faithful_ok _ _ _ _ Fp). exact K.
    + apply (faithful_err _ _ _ _ (part_faithful force On (bare p))). rewrite bare_tour.
      apply (faithful_err _ _ _ _ Fp). exact K.
Qed.

(** ** Clean reports *)
Local Notation clean := (@passes B T O E W C m).
Lemma told_clean : forall ls a, told ls a -> (errors a = [] <-> Forall clean ls).
Proof.
  intros ls a [vs [F [-> _]]]. induction F as [|l [es ws] ls vs H F IH]; cbn.
  - split; [constructor|reflexivity].
  - split.
    + intro E0. apply app_eq_nil in E0. destruct E0 as [-> E1]. constructor; [exists ws; exact H|apply IH; exact E1].
    + intro K. inversion K as [|? ? [ws' Hc] Kc]; subst. pose proof (says_det _ _ _ H Hc) as D. injection D as -> ->.
      cbn. apply IH. exact Kc.
Qed.
Lemma told_first : forall ls a e es, told ls a -> errors a = e :: es ->
  exists before l after ws, ls = before ++ l :: after /\ Forall clean before /\ says C m l ([e], ws).
Proof.
  intros ls a e es [vs [F [E1 _]]] E0. rewrite E1 in E0. clear E1 a. induction F as [|l [xs ws] ls vs H F IH]; cbn in E0; [discriminate|].
  destruct xs as [|x xs].
  - destruct (IH E0) as (p & l' & q & ws' & -> & Hp & Hl). exists (l :: p), l', q, ws'. split; [reflexivity|].
    split; [constructor; [exists ws; exact H|exact Hp]|exact Hl].
  - injection E0 as -> E0. exists [], l, ls, ws. split; [reflexivity|]. split; [constructor|].
    assert (xs = []) as ->; [|exact H]. inversion H as [? ? ? Sp|? ?|? ?|? ? ? Sp|? ? ? Sp|? ? ? Sp]; subst; try inversion Sp; reflexivity.
Qed.
End Proofs.

(** ** Equality of reports *)
Section Equality.
Context {M A : Type} (te : M -> M -> bool) (ae : A -> A -> bool)
  (te_spec : forall x y, te x y = true <-> x = y) (ae_spec : forall x y, ae x y = true <-> x = y).
Lemma same_messages_spec : forall a b, length a = length b -> (same_messages te ae a b = true <-> a = b).
Proof.
  induction a as [|[x p] a IH]; intros [|[y q] b] L; cbn in L; try discriminate; [split; reflexivity|].
  injection L as L. cbn. destruct (te x y) eqn:Ht; cbn.
  - destruct (ae p q) eqn:Ha; cbn.
    + apply te_spec in Ht. apply ae_spec in Ha. subst. rewrite (IH b L). split; [intros ->; reflexivity|intro H; injection H; auto].
    + split; [discriminate|]. intro H. injection H as -> -> ->. rewrite (proj2 (ae_spec q q) eq_refl) in Ha. discriminate.
  - split; [discriminate|]. intro H. injection H as -> -> ->. rewrite (proj2 (te_spec y y) eq_refl) in Ht. discriminate.
Qed.
Lemma eq_report_spec : forall a b, eq_report te ae a b = true <-> a = b.
Proof.
  intros [ea wa] [eb wb]. unfold eq_report, length_differs. cbn.
  destruct (Nat.eqb (length ea) (length eb)) eqn:L1; cbn.
  2: { split; [discriminate|]. intro H. injection H as -> ->. rewrite Nat.eqb_refl in L1. discriminate. }
  destruct (Nat.eqb (length wa) (length wb)) eqn:L2; cbn.
  2: { split; [discriminate|]. intro H. injection H as -> ->. rewrite Nat.eqb_refl in L2. discriminate. }
  apply Nat.eqb_eq in L1, L2. pose proof (same_messages_spec _ _ L1) as S1. pose proof (same_messages_spec _ _ L2) as S2.
  destruct (same_messages te ae ea eb); cbn.
  - rewrite S2. destruct S1 as [S1 _]. rewrite (S1 eq_refl). split; [intros ->; reflexivity|intro H; injection H; auto].
  - split; [discriminate|]. intro H. injection H as -> ->. destruct S1 as [_ S1]. specialize (S1 eq_refl). discriminate.
Qed.
End Equality.
