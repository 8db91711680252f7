(** Proofs about fuel. *)
From Coq Require Import ZArith String List Bool Lia.
From Verif Require Import Common Dict Assign_Model Burner_Model Burner_Spec.
Import ListNotations.

Lemma mem_in : forall x l, mem x l = true <-> In x l.
Proof.
  intros x l. unfold mem. rewrite existsb_exists. split.
  - intros [y [I H]]. apply pystr_eqb_eq in H. subst. exact I.
  - intros I. exists x. split; [exact I|apply pystr_eqb_refl].
Qed.
Lemma mem_not : forall x l, mem x l = false <-> ~ In x l.
Proof. intros x l. rewrite <- mem_in. destruct (mem x l); split; congruence. Qed.
Lemma in_add : forall i x l, In i (add x l) <-> i = x \/ In i l.
Proof.
  intros. unfold add. destruct (mem x l) eqn:E.
  - apply mem_in in E. split; [auto|]. intros [->|H]; auto.
  - rewrite in_app_iff. simpl. intuition.
Qed.
Lemma in_adds : forall l acc i, In i (fold_left (fun a x => add x a) l acc) <-> In i l \/ In i acc.
Proof.
  induction l as [|x l IH]; simpl; intros; [intuition|].
  rewrite IH, in_add. intuition; subst; auto.
Qed.

(** ** Categories *)
Lemma dget_dset' : forall {A} (f : list (pystr * A)) k v c,
  dget pystr_eqb (dset pystr_eqb f k v) c = if pystr_eqb k c then Some v else dget pystr_eqb f c.
Proof.
  intros. rewrite (dget_dset pystr_eqb pystr_eqb_eq).
  destruct (pystr_eqb c k) eqn:F; destruct (pystr_eqb k c) eqn:G; try reflexivity; exfalso;
    try (apply pystr_eqb_eq in F; subst; rewrite pystr_eqb_refl in G; discriminate);
    apply pystr_eqb_eq in G; subst; rewrite pystr_eqb_refl in F; discriminate.
Qed.
Lemma declared_from : forall cs (f : fuels) c,
  dget pystr_eqb (fold_left (fun (f : fuels) c => dset pystr_eqb f c []) cs f) c =
  if mem c cs then Some [] else dget pystr_eqb f c.
Proof.
  induction cs as [|x cs IH]; simpl; intros f c; [reflexivity|].
  rewrite IH. destruct (mem c cs) eqn:E.
  - rewrite orb_true_r. reflexivity.
  - rewrite orb_false_r, dget_dset'.
    destruct (pystr_eqb c x) eqn:F; destruct (pystr_eqb x c) eqn:G; try reflexivity;
      exfalso;
      try (apply pystr_eqb_eq in F; subst; rewrite pystr_eqb_refl in G; discriminate);
      apply pystr_eqb_eq in G; subst; rewrite pystr_eqb_refl in F; discriminate.
Qed.
Lemma sort_ok : forall its f g, sort_items f its = Ok g ->
  (forall c, dget pystr_eqb g c <> None <-> dget pystr_eqb f c <> None) /\
  (forall c l i, dget pystr_eqb g c = Some l ->
     (In i l <-> In (i, Some c) its \/ exists l0, dget pystr_eqb f c = Some l0 /\ In i l0)).
Proof.
  induction its as [|[x [d|]] its IH]; simpl; intros f g H.
  - injection H as <-. split; [reflexivity|]. intros c l i G. split.
    + intros I. right. eauto.
    + intros [[]|[l0 [E I]]]. congruence.
  - destruct (dget pystr_eqb f d) as [l1|] eqn:D; [|discriminate].
    destruct (IH _ _ H) as [K C]. split.
    + intros c. rewrite K, dget_dset'. destruct (pystr_eqb d c) eqn:F; [|reflexivity].
      apply pystr_eqb_eq in F. subst. rewrite D. split; intros; discriminate.
    + intros c l i G. rewrite (C c l i G). rewrite dget_dset'.
      destruct (pystr_eqb d c) eqn:F.
      * apply pystr_eqb_eq in F. subst c. split.
        -- intros [I|[l0 [E I]]]; [auto|]. injection E as <-. apply in_add in I.
           destruct I as [->|I]; [auto|right; eauto].
        -- intros [[E|I]|[l0 [E I]]]; [injection E as <-| auto|].
           ++ right. eexists. split; [reflexivity|]. apply in_add. auto.
           ++ right. eexists. split; [reflexivity|]. apply in_add. right. congruence.
      * apply pystr_eqb_neq in F. split.
        -- intros [I|I]; auto.
        -- intros [[E|I]|I]; auto. injection E as _ E. congruence.
  - destruct (IH _ _ H) as [K C]. split; [exact K|].
    intros c l i G. rewrite (C c l i G). split; intros [I|I]; auto. destruct I as [E|I]; [discriminate|auto].
Qed.
Lemma fuels_exact : forall cats its f, extract_fuels cats its = Ok f ->
  (forall c, dget pystr_eqb f c <> None <-> In c cats) /\
  (forall c i, fuel_of f c i <-> In c cats /\ In (i, Some c) its).
Proof.
  intros cats its f H. destruct (sort_ok _ _ _ H) as [K C].
  assert (D : forall c, dget pystr_eqb (declared cats) c = if mem c cats then Some [] else None).
  { intros c. unfold declared. rewrite declared_from. destruct (mem c cats); reflexivity. }
  assert (K' : forall c, dget pystr_eqb f c <> None <-> In c cats).
  { intros c. rewrite K, D. destruct (mem c cats) eqn:E.
    - apply mem_in in E. split; [auto|discriminate].
    - apply mem_not in E. split; [congruence|contradiction]. }
  split; [exact K'|]. intros c i. split.
  - intros [l [G I]]. split; [apply K'; congruence|].
    apply (C c l i G) in I. destruct I as [I|[l0 [E I]]]; [exact I|].
    rewrite D in E. destruct (mem c cats); [injection E as <-; destruct I|discriminate].
  - intros [M I]. destruct (dget pystr_eqb f c) as [l|] eqn:G.
    + exists l. split; [exact G|]. apply (C c l i G). auto.
    + apply K' in M. congruence.
Qed.
Lemma sort_fails : forall its f e, sort_items f its = Err e ->
  e = KeyError /\ exists i c, In (i, Some c) its /\ dget pystr_eqb f c = None.
Proof.
  induction its as [|[x [d|]] its IH]; simpl; intros f e H; [discriminate| |].
  - destruct (dget pystr_eqb f d) as [l|] eqn:D.
    + destruct (IH _ _ H) as [E [i [c [I G]]]]. split; [exact E|]. exists i, c. split; [auto|].
      rewrite dget_dset' in G. destruct (pystr_eqb d c) eqn:F; [discriminate|exact G].
    + injection H as <-. split; [reflexivity|]. exists x, d. auto.
  - destruct (IH _ _ H) as [E [i [c [I G]]]]. split; [exact E|]. exists i, c. auto.
Qed.
Lemma fuels_fail : forall cats its,
  (forall i c, In (i, Some c) its -> In c cats) <-> exists f, extract_fuels cats its = Ok f.
Proof.
  intros cats its. unfold extract_fuels. split.
  - intros H. destruct (sort_items (declared cats) its) as [f|e] eqn:E; [eauto|].
    exfalso. destruct (sort_fails _ _ _ E) as [_ [i [c [I G]]]].
    unfold declared in G. rewrite declared_from in G.
    specialize (H i c I). apply mem_in in H. rewrite H in G. discriminate.
  - intros [f E] i c I.
    revert I. generalize dependent f.
    assert (G : forall its g f, sort_items g its = Ok f -> forall i c, In (i, Some c) its -> dget pystr_eqb g c <> None).
    { clear. induction its as [|[x [d|]] its IH]; simpl; intros g f H i c I; [contradiction| |].
      - destruct (dget pystr_eqb g d) as [l|] eqn:D; [|discriminate].
        destruct I as [I|I]; [injection I as <- <-; congruence|].
        specialize (IH _ _ H i c I). rewrite dget_dset' in IH.
        destruct (pystr_eqb d c) eqn:F; [apply pystr_eqb_eq in F; congruence|exact IH].
      - destruct I as [I|I]; [discriminate|]. eauto. }
    intros f E I. specialize (G _ _ _ E i c I). unfold declared in G. rewrite declared_from in G.
    destruct (mem c cats) eqn:M; [apply mem_in; exact M|]. simpl in G. congruence.
Qed.

(** ** The cache *)
Lemma takes_categories : forall s c, In c (categories s) <-> takes s c.
Proof.
  intros s c. unfold categories, takes. destruct (s_categories s) as [cs|].
  - split.
    + intros I. left. eauto.
    + intros [[x [E I]]|[[E _]|[E _]]]; congruence.
  - destruct (s_category s) as [d|]; simpl; split.
    + intros [->|[]]. auto.
    + intros [[x [E _]]|[[_ E]|[_ [E _]]]]; [discriminate|left; congruence|discriminate].
    + intros [<-|[]]. auto.
    + intros [[x [E _]]|[[_ E]|[_ [_ E]]]]; [discriminate|discriminate|auto].
Qed.
Lemma gather_all : forall f cs acc, (forall c, In c cs -> exists l, dget pystr_eqb f c = Some l) ->
  snd (gather f cs acc) = None /\
  forall i, In i (fst (gather f cs acc)) <-> In i acc \/ exists c, In c cs /\ fuel_of f c i.
Proof.
  intros f. induction cs as [|c cs IH]; simpl; intros acc H.
  - split; [reflexivity|]. intros i. split; [auto|]. intros [I|[c [[] _]]]. exact I.
  - destruct (H c (or_introl eq_refl)) as [l E]. rewrite E.
    destruct (IH (fold_left (fun a x => add x a) l acc)) as [A B]; [intros; apply H; auto|].
    split; [exact A|]. intros i. rewrite B, in_adds. split.
    + intros [[I|I]|[d [M F]]].
      * right. exists c. split; [auto|]. exists l. auto.
      * auto.
      * right. exists d. auto.
    + intros [I|[d [[->|M] F]]].
      * auto.
      * destruct F as [l' [E' I]]. left. left. congruence.
      * right. eauto.
Qed.
Lemma source_read : forall W k n p s, dget pystr_eqb (w_entities W) n = Some p ->
  (input_energy_source k p = Ok (Some s) <-> source_of W k n s).
Proof.
  intros W k n p s G. unfold source_of, input_energy_source. split.
  - intros H. exists p. split; [exact G|].
    destruct k;
      try (destruct (p_energy p) as [t|]; [|discriminate]; destruct (s_type t) as [y|] eqn:T; [|discriminate];
           destruct (pystr_eqb y (str "burner")) eqn:B; [|discriminate]; apply pystr_eqb_eq in B;
           injection H as <-; split; congruence).
    destruct (p_burner p); congruence.
  - intros [q [G' H]]. assert (q = p) by congruence. subst q.
    destruct k; try (destruct H as [-> ->]; rewrite pystr_eqb_refl; reflexivity).
    rewrite H. reflexivity.
Qed.
Lemma construct_exact : forall W k n c, dget pystr_eqb c n = None -> complete W k n ->
  snd (construct W k n c) = None /\
  exists l, allowed_fuel_items (fst (construct W k n c)) n = Some l /\ forall i, In i l <-> burns W k n i.
Proof.
  intros W k n c C [p [G [S A]]]. unfold construct. rewrite C, G.
  destruct (input_energy_source k p) as [[s|]|e] eqn:E.
  - assert (SO : source_of W k n s) by (apply (source_read W k n p s G); exact E).
    destruct (gather_all (w_fuels W) (categories s) []) as [X Y].
    { intros d I. apply takes_categories in I. eauto. }
    destruct (gather (w_fuels W) (categories s) []) as [l e]. simpl in *. split; [exact X|].
    exists l. unfold allowed_fuel_items. rewrite dget_dset', pystr_eqb_refl. split; [reflexivity|].
    intros i. rewrite Y. split.
    + intros [[]|[d [I F]]]. exists s, d. apply takes_categories in I. auto.
    + intros [s' [d [SO' [T F]]]]. right. exists d. split; [|exact F]. apply takes_categories.
      assert (s' = s); [|congruence].
      apply (source_read W k n p s' G) in SO'. congruence.
  - simpl. split; [reflexivity|]. exists []. unfold allowed_fuel_items. rewrite dget_dset', pystr_eqb_refl.
    split; [reflexivity|]. intros i. split; [intros []|].
    intros [s [d [SO _]]]. apply (source_read W k n p s G) in SO. congruence.
  - exfalso. unfold input_energy_source in E.
    destruct k; try (destruct S as [s [S1 S2]]; rewrite S1 in E; destruct (s_type s) as [t|]; [|congruence];
                     destruct (pystr_eqb t (str "burner")); discriminate).
    destruct (p_burner p); congruence.
Qed.
Lemma construct_unknown : forall W k n c, dget pystr_eqb c n = None -> dget pystr_eqb (w_entities W) n = None ->
  snd (construct W k n c) = None /\ allowed_fuel_items (fst (construct W k n c)) n = None.
Proof.
  intros W k n c C G. unfold construct. rewrite C, G. simpl. split; [reflexivity|].
  unfold allowed_fuel_items. rewrite dget_dset', pystr_eqb_refl. reflexivity.
Qed.
Lemma construct_other : forall W k n c m, m <> n ->
  dget pystr_eqb (fst (construct W k n c)) m = dget pystr_eqb c m.
Proof.
  intros W k n c m N. unfold construct.
  destruct (dget pystr_eqb c n); [reflexivity|].
  assert (F : pystr_eqb n m = false) by (apply pystr_eqb_neq; congruence).
  destruct (dget pystr_eqb (w_entities W) n) as [p|].
  - destruct (input_energy_source k p) as [[s|]|e]; simpl; [| |reflexivity].
    + destruct (gather (w_fuels W) (categories s) []). simpl. rewrite dget_dset', F. reflexivity.
    + rewrite dget_dset', F. reflexivity.
  - simpl. rewrite dget_dset', F. reflexivity.
Qed.
Lemma construct_kept : forall W k n c m x, dget pystr_eqb c m = Some x ->
  dget pystr_eqb (fst (construct W k n c)) m = Some x.
Proof.
  intros W k n c m x H. destruct (pystr_eqb m n) eqn:E.
  - apply pystr_eqb_eq in E. subst. unfold construct. rewrite H. exact H.
  - apply pystr_eqb_neq in E. rewrite construct_other by exact E. exact H.
Qed.
Lemma constructs_kept : forall l c m x, dget pystr_eqb c m = Some x -> dget pystr_eqb (constructs c l) m = Some x.
Proof.
  induction l as [|[[W k] n] l IH]; intros c m x H; [exact H|].
  unfold constructs in *. simpl. apply IH. apply construct_kept. exact H.
Qed.
Lemma constructs_absent : forall l c m, dget pystr_eqb c m = None -> (forall x, In x l -> snd x <> m) ->
  dget pystr_eqb (constructs c l) m = None.
Proof.
  induction l as [|[[W k] n] l IH]; intros c m H N; [exact H|].
  unfold constructs in *. simpl. apply IH.
  - rewrite construct_other; [exact H|]. intros E. apply (N (W, k, n)); [left; reflexivity|exact (eq_sym E)].
  - intros x I. apply N. right. exact I.
Qed.
(** Whatever is constructed before under other names and after under any name. *)
Lemma first_counts : forall before after W k n c, dget pystr_eqb c n = None -> complete W k n ->
  (forall x, In x before -> snd x <> n) ->
  exists l, allowed_fuel_items (constructs c (before ++ (W, k, n) :: after)) n = Some l /\
  forall i, In i l <-> burns W k n i.
Proof.
  intros before after W k n c H C N.
  assert (A : dget pystr_eqb (constructs c before) n = None) by (apply constructs_absent; assumption).
  destruct (construct_exact W k n (constructs c before) A C) as [_ [l [L B]]].
  exists l. split; [|exact B].
  unfold constructs in *. rewrite fold_left_app. simpl.
  unfold allowed_fuel_items in *.
  destruct (dget pystr_eqb (fst (construct W k n (fold_left (fun c x => fst (construct (fst (fst x)) (snd (fst x)) (snd x) c)) before c))) n)
    as [x|] eqn:D; [|discriminate].
  pose proof (constructs_kept after _ n x D) as K. unfold constructs in K. rewrite K. exact L.
Qed.

(** ** Assignment *)
Lemma strict_bool : forall m, strict m -> mode_bool m = true /\ mode_le m MMinimum = false.
Proof. intros m [->| ->]; split; reflexivity. Qed.
Lemma wants_name : forall e n, wants e n -> name_of e = Ok n.
Proof. intros e n []; reflexivity. Qed.
Lemma fuel_names : forall E es ns, Forall2 wants es ns ->
  fuel_items E es = Ok (flat_map (fun n => match n with Some x => if mem x (all_fuel E) then [x] else [] | None => [] end) ns).
Proof.
  intros E es ns H. induction H as [|e n es ns W H IH]; [reflexivity|].
  simpl. rewrite (wants_name _ _ W). simpl. rewrite IH. simpl.
  destruct n as [x|]; [|reflexivity]. destruct (mem x (all_fuel E)); reflexivity.
Qed.
Lemma said_exact : forall all l ns ws, said all l ns ws <->
  ws = flat_map (fun n => if mem n l then [] else [FuelLimitation n l])
         (flat_map (fun n => match n with Some x => if mem x all then [x] else [] | None => [] end) ns).
Proof.
  intros all l. induction ns as [|[x|] ns IH]; simpl; intros ws.
  - split; [intros H; inversion H; reflexivity|intros ->; constructor].
  - destruct (mem x all) eqn:A; simpl.
    + destruct (mem x l) eqn:L; simpl.
      * split.
        -- intros H. inversion H; subst.
           ++ apply mem_in in L. contradiction.
           ++ apply IH. assumption.
           ++ apply mem_in in A. contradiction.
        -- intros ->. apply said_right; [apply mem_in; exact L|apply IH; reflexivity].
      * split.
        -- intros H. inversion H; subst.
           ++ f_equal. apply IH. assumption.
           ++ apply mem_not in L. contradiction.
           ++ apply mem_in in A. contradiction.
        -- intros ->. apply said_wrong; [apply mem_in; exact A|apply mem_not; exact L|apply IH; reflexivity].
    + split.
      * intros H. inversion H; subst.
        -- apply mem_not in A. contradiction.
        -- apply IH. assumption.
        -- apply IH. assumption.
      * intros ->. apply said_other; [apply mem_not; exact A|apply IH; reflexivity].
  - split; [intros H; inversion H; subst; apply IH; assumption|intros ->; constructor; apply IH; reflexivity].
Qed.
Lemma warns : forall E k m old es ns ws rs l, k = Drill \/ k = Reactor -> strict m -> allowed E = Some l ->
  convert E m (VList es) = (ws, Some (Some rs)) -> Forall2 wants es ns ->
  exists ws', assign E k m old (VList es) = (VList (map Model rs), ws ++ ws', None) /\ said (all_fuel E) l ns ws'.
Proof.
  intros E k m old es ns ws rs l K M A C F. destruct (strict_bool _ M) as [B L].
  eexists. split.
  - unfold assign. rewrite B, C, L.
    assert (R : run_all (validators k) E (VList es) =
      Ok (flat_map (fun n => if mem n l then [] else [FuelLimitation n l])
         (flat_map (fun n => match n with Some x => if mem x (all_fuel E) then [x] else [] | None => [] end) ns) ++ [])).
    { destruct K as [->| ->]; simpl; unfold check_fuel; rewrite A; simpl; rewrite (fuel_names E es ns F); reflexivity. }
    rewrite R. reflexivity.
  - rewrite app_nil_r. apply said_exact. reflexivity.
Qed.
Lemma said_names : forall all l ns ws i, said all l ns ws ->
  (In (FuelLimitation i l) ws <-> In (Some i) ns /\ In i all /\ ~ In i l).
Proof.
  intros all l ns ws i H. induction H; simpl.
  - intuition.
  - rewrite IHsaid. split.
    + intros [E|H2]; [injection E as ->|]; intuition.
    + intros [[E|I] [A N]]; [injection E as ->; auto|]. right. auto.
  - rewrite IHsaid. split; [intuition|]. intros [[E|I] [A N]]; [injection E as ->; contradiction|auto].
  - rewrite IHsaid. split; [intuition|]. intros [[E|I] [A N]]; [injection E as ->; contradiction|auto].
  - rewrite IHsaid. split; [intuition|]. intros [[E|I] [A N]]; [discriminate|auto].
Qed.
Lemma only_these : forall all l ns ws w, said all l ns ws -> In w ws -> exists i, w = FuelLimitation i l.
Proof. intros all l ns ws w H. induction H; simpl; intros I; try contradiction; auto. destruct I as [<-|I]; eauto. Qed.

Lemma stored : forall E k m old es ns ws rs l, k = Drill \/ k = Reactor -> strict m -> allowed E = Some l -> faithful E ->
  convert E m (VList es) = (ws, Some (Some rs)) -> Forall2 wants es ns ->
  exists ws', assign E k m old (VList es) = (VList (map Model rs), ws ++ ws', None) /\
  forall w, In w ws' <-> exists i, w = FuelLimitation i l /\ In (Some i) (map r_name rs) /\ In i (all_fuel E) /\ ~ In i l.
Proof.
  intros E k m old es ns ws rs l K M A FA C F.
  destruct (warns E k m old es ns ws rs l K M A C F) as [ws' [R S]].
  exists ws'. split; [exact R|]. rewrite (FA _ _ _ _ _ C F). intros w. split.
  - intros I. destruct (only_these _ _ _ _ _ S I) as [i ->]. exists i. split; [reflexivity|].
    apply (said_names _ _ _ _ i S). exact I.
  - intros [i [-> H]]. apply (said_names _ _ _ _ i S). exact H.
Qed.
Lemma mode_none : forall E k old v, assign E k MNone old v = (nothing v, [], None).
Proof. reflexivity. Qed.
Lemma mode_minimum : forall E k old v ws r, convert E MMinimum v = (ws, Some r) ->
  assign E k MMinimum old v = (match r with None => VList [] | Some rs => VList (map Model rs) end, ws, None).
Proof. intros E k old v ws r C. unfold assign. simpl. rewrite C. destruct r; rewrite app_nil_r; reflexivity. Qed.
Lemma refused : forall E k m old v ws, m <> MNone -> convert E m v = (ws, None) ->
  assign E k m old v = (old, [], Some DataFormatError).
Proof. intros E k m old v ws N C. unfold assign. destruct m; try congruence; simpl; rewrite C; reflexivity. Qed.
Lemma empty : forall E k m old ws, strict m -> convert E m (VList []) = (ws, Some (Some [])) ->
  assign E k m old (VList []) = (VList [], ws, None).
Proof.
  intros E k m old ws M C. destruct (strict_bool _ M) as [B L]. unfold assign. rewrite B, C, L.
  assert (R : run_all (validators k) E (VList []) = Ok []).
  { destruct k; simpl; unfold check_fuel, check_smelts, check_only_fuel; simpl; destruct (allowed E); reflexivity. }
  rewrite R, app_nil_r. reflexivity.
Qed.
Lemma cleared : forall E k m old ws, strict m -> convert E m VNone = (ws, Some None) ->
  assign E k m old VNone = (VList [], ws, None).
Proof.
  intros E k m old ws M C. destruct (strict_bool _ M) as [B L]. unfold assign. rewrite B, C, app_nil_r. reflexivity.
Qed.
Lemma unknown : forall E k m old es ws rs, k <> Furnace -> strict m -> allowed E = None ->
  convert E m (VList es) = (ws, Some (Some rs)) -> assign E k m old (VList es) = (VList (map Model rs), ws, None).
Proof.
  intros E k m old es ws rs K M A C. destruct (strict_bool _ M) as [B L]. unfold assign. rewrite B, C, L.
  assert (R : run_all (validators k) E (VList es) = Ok []).
  { destruct k; try congruence; simpl; unfold check_fuel, check_only_fuel; rewrite A; reflexivity. }
  rewrite R, app_nil_r. reflexivity.
Qed.
(** Furnaces and burner generators look requests up as if they were names. *)
Lemma wants_among : forall e n known, wants e n -> among known e = Err TypeError.
Proof. intros e n known []; reflexivity. Qed.
Lemma crash : forall E k m old es ns ws rs, strict m -> k = Furnace \/ (k = BurnerGenerator /\ allowed E <> None) ->
  convert E m (VList es) = (ws, Some (Some rs)) -> Forall2 wants es ns -> es <> [] ->
  assign E k m old (VList es) = (VList es, [], Some TypeError).
Proof.
  intros E k m old es ns ws rs M K C F N. destruct (strict_bool _ M) as [B L]. unfold assign. rewrite B, C, L.
  assert (R : run_all (validators k) E (VList es) = Err TypeError).
  { destruct K as [->|[-> A]]; simpl.
    - unfold check_fuel. destruct (allowed E) as [l|]; simpl; [rewrite (fuel_names E es ns F); simpl|];
        unfold check_smelts; simpl; destruct F as [|e n es ns W F]; try congruence;
        simpl; rewrite (wants_among _ _ _ W); reflexivity.
    - unfold check_fuel, check_only_fuel. destruct (allowed E) as [l|]; [|congruence]. simpl.
      rewrite (fuel_names E es ns F). simpl.
      destruct F as [|e n es ns W F]; [congruence|]. simpl. rewrite (wants_among _ _ _ W). reflexivity. }
  rewrite R. reflexivity.
Qed.
Lemma short : forall E k m old es1 es2 ns s z ws rs l, strict m -> allowed E = Some l ->
  convert E m (VList (es1 ++ Plain (Some (Short s)) z :: es2)) = (ws, Some (Some rs)) -> Forall2 wants es1 ns ->
  assign E k m old (VList (es1 ++ Plain (Some (Short s)) z :: es2)) =
  (VList (es1 ++ Plain (Some (Short s)) z :: es2), [], Some TypeError).
Proof.
  intros E k m old es1 es2 ns s z ws rs l M A C F. destruct (strict_bool _ M) as [B L]. unfold assign. rewrite B, C, L.
  assert (R : check_fuel E (VList (es1 ++ Plain (Some (Short s)) z :: es2)) = Err TypeError).
  { unfold check_fuel. rewrite A. simpl. clear C.
    assert (X : fuel_items E (es1 ++ Plain (Some (Short s)) z :: es2) = Err TypeError).
    { induction F as [|e n es ns W F IH]; [reflexivity|]. simpl. rewrite (wants_name _ _ W). simpl. rewrite IH. reflexivity. }
    rewrite X. reflexivity. }
  destruct k; simpl; rewrite R; reflexivity.
Qed.
Lemma iterator : forall E k m old es ws rs, strict m -> convert E m (VIterator es) = (ws, Some (Some rs)) ->
  assign E k m old (VIterator es) = (VList (map Model rs), ws, None).
Proof.
  intros E k m old es ws rs M C. destruct (strict_bool _ M) as [B L]. unfold assign. rewrite B, C, L.
  assert (R : run_all (validators k) E (VIterator es) = Ok []).
  { destruct k; simpl; unfold check_fuel, check_smelts, check_only_fuel; simpl; destruct (allowed E); reflexivity. }
  rewrite R, app_nil_r. reflexivity.
Qed.
(** Whatever happens, the items are the old ones, those given, or those given converted. *)
Lemma outcomes : forall E k m old v items ws e, assign E k m old v = (items, ws, e) ->
  match e with
  | Some DataFormatError => m <> MNone /\ items = old /\ ws = []
  | Some _ => strict m /\ items = v /\ ws = []
  | None => (m = MNone /\ items = nothing v /\ ws = []) \/
            (m <> MNone /\ exists ws0 r, convert E m v = (ws0, Some r) /\
             items = match r with None => VList [] | Some rs => VList (map Model rs) end /\ exists ws1, ws = ws0 ++ ws1)
  end.
Proof.
  assert (D : forall k E v e, run_all (validators k) E v = Err e -> e <> DataFormatError).
  { assert (CO : forall v e, contents v = Err e -> e <> DataFormatError) by (intros [] e H; simpl in H; congruence).
    assert (NA : forall x e, name_of x = Err e -> e <> DataFormatError)
      by (intros [[[|[|]]|]| | |] e H; simpl in H; congruence).
    assert (FU : forall E es e, fuel_items E es = Err e -> e <> DataFormatError).
    { intros E es. induction es as [|x es IH]; simpl; intros e H; [discriminate|].
      destruct (name_of x) as [n|y] eqn:N; simpl in H; [|injection H as <-; eauto].
      destruct (fuel_items E es); simpl in H; [discriminate|injection H as <-; eauto]. }
    assert (CF : forall E v e, check_fuel E v = Err e -> e <> DataFormatError).
    { intros E v e H. unfold check_fuel in H. destruct (allowed E); [|discriminate].
      destruct (contents v) eqn:C; simpl in H; [|injection H as <-; eauto].
      destruct (fuel_items E a) eqn:F; simpl in H; [discriminate|injection H as <-; eauto]. }
    assert (AM : forall kn x e, among kn x = Err e -> e <> DataFormatError) by (intros kn [] e H; simpl in H; congruence).
    assert (ON : forall E es e, only_fuel E es = Err e -> e <> DataFormatError).
    { intros E es. induction es as [|x es IH]; simpl; intros e H; [discriminate|].
      destruct (among (item_known E) x) eqn:N; simpl in H; [|injection H as <-; eauto].
      destruct (only_fuel E es); simpl in H; [discriminate|injection H as <-; eauto]. }
    assert (CN : forall E v e, check_only_fuel E v = Err e -> e <> DataFormatError).
    { intros E v e H. unfold check_only_fuel in H. destruct (allowed E); [|discriminate].
      destruct (contents v) eqn:C; simpl in H; [eauto|injection H as <-; eauto]. }
    assert (SM : forall E es e, smelts E es = Err e -> e <> DataFormatError).
    { intros E es. induction es as [|x es IH]; simpl; intros e H; [discriminate|].
      destruct (among (module_known E) x) as [b|] eqn:N; simpl in H; [|injection H as <-; eauto].
      destruct (if b then Ok [] else match ingredients E, x with
                | Some l, Text s => Ok (if mem s l then [] else [ItemLimitation s]) | _, _ => Err TypeError end) as [w|y] eqn:W;
        simpl in H.
      - destruct (smelts E es); simpl in H; [discriminate|injection H as <-; eauto].
      - injection H as <-. destruct b; [discriminate|]. destruct (ingredients E); destruct x; congruence. }
    assert (CS : forall E v e, check_smelts E v = Err e -> e <> DataFormatError).
    { intros E v e H. unfold check_smelts in H. destruct (contents v) eqn:C; simpl in H; [eauto|injection H as <-; eauto]. }
    intros k E v e H. destruct k; simpl in H;
      (destruct (check_fuel E v) eqn:X; simpl in H; [|injection H as <-; eauto]).
    - discriminate.
    - discriminate.
    - destruct (check_smelts E v) eqn:Y; simpl in H; [discriminate|injection H as <-; eauto].
    - destruct (check_only_fuel E v) eqn:Y; simpl in H; [discriminate|injection H as <-; eauto]. }
  intros E k m old v items ws e H. unfold assign in H.
  destruct (mode_bool m) eqn:B.
  - assert (N : m <> MNone) by (intros ->; discriminate).
    destruct (convert E m v) as [ws0 [r|]] eqn:C.
    + destruct r as [rs|].
      * destruct (mode_le m MMinimum) eqn:L.
        -- injection H as <- <- <-. right. split; [exact N|]. exists ws0, (Some rs). eauto.
        -- assert (S : strict m) by (destruct m; try discriminate; unfold strict; auto).
           destruct (run_all (validators k) E v) as [w|x] eqn:R.
           ++ injection H as <- <- <-. right. split; [exact N|]. exists ws0, (Some rs). eauto.
           ++ injection H as <- <- <-. specialize (D _ _ _ _ R). destruct x; try congruence; auto.
      * injection H as <- <- <-. right. split; [exact N|]. exists ws0, None. eauto.
    + injection H as <- <- <-. auto.
  - injection H as <- <- <-. left. destruct m; try discriminate. auto.
Qed.

(** ** Witnesses *)
Definition bad : world := mkWorld
  [(str "boiler", mkProto (Some (mkSource (Some (str "burner")) (Some [str "chemical"; str "lava"]) None)) None)]
  [(str "chemical", [str "coal"])].
Lemma partial_witness : exists W k n,
  snd (construct W k n []) = Some KeyError /\ snd (construct W k n (fst (construct W k n []))) = None.
Proof. exists bad, Reactor, (str "boiler"). split; vm_compute; reflexivity. Qed.
Definition later : world := mkWorld
  [(str "oven", mkProto (Some (mkSource (Some (str "burner")) None None)) None)] [(str "chemical", [str "coal"])].
Lemma stale_witness : exists W W' k n i,
  complete W' k n /\ burns W' k n i /\ snd (construct W k n []) = None /\
  snd (construct W' k n (fst (construct W k n []))) = None /\
  allowed_fuel_items (fst (construct W' k n (fst (construct W k n [])))) n = None.
Proof.
  exists (mkWorld [] []), later, Reactor, (str "oven"), (str "coal").
  assert (S : forall s, source_of later Reactor (str "oven") s -> s = mkSource (Some (str "burner")) None None).
  { intros s [p [G [P _]]]. vm_compute in G. injection G as <-. injection P as <-. reflexivity. }
  split; [|split; [|repeat split; vm_compute; reflexivity]].
  - eexists. split; [vm_compute; reflexivity|]. split.
    + eexists. split; [reflexivity|discriminate].
    + intros s c H T. rewrite (S _ H) in T. apply takes_categories in T. destruct T as [<-|[]].
      eexists. vm_compute. reflexivity.
  - exists (mkSource (Some (str "burner")) None None), (str "chemical"). split; [|split].
    + eexists. split; [vm_compute; reflexivity|]. split; reflexivity.
    + right. right. auto.
    + eexists. split; [vm_compute; reflexivity|left; reflexivity].
Qed.

(** ** All fuels *)
Lemma declared_wf : forall cs (f : fuels), dwf f -> dwf (fold_left (fun f c => dset pystr_eqb f c []) cs f).
Proof. induction cs as [|c cs IH]; simpl; intros f H; [exact H|]. apply IH. apply (dset_wf _ pystr_eqb_eq). exact H. Qed.
Lemma sort_wf : forall its f g, dwf f -> sort_items f its = Ok g -> dwf g.
Proof.
  induction its as [|[i [c|]] its IH]; simpl; intros f g H E.
  - injection E as <-. exact H.
  - destruct (dget pystr_eqb f c) as [l|]; [|discriminate]. eapply IH; [|exact E]. apply (dset_wf _ pystr_eqb_eq). exact H.
  - eapply IH; eassumption.
Qed.
Lemma all_fuels : forall cats its f, extract_fuels cats its = Ok f ->
  forall i, In i (all_fuel_items f) <-> exists c, In (i, Some c) its.
Proof.
  intros cats its f E i. destruct (fuels_exact _ _ _ E) as [K F].
  assert (WF : dwf f).
  { unfold extract_fuels, declared in E. eapply sort_wf; [|exact E]. apply declared_wf. constructor. }
  unfold all_fuel_items. rewrite in_flat_map. split.
  - intros ([c l] & I & J). exists c. apply F. exists l. split; [|exact J].
    apply (dget_in _ pystr_eqb_eq); assumption.
  - intros (c & I).
    assert (D : In c cats) by (apply (proj2 (fuels_fail cats its) (ex_intro _ f E) i c I)).
    destruct (proj2 (F c i) (conj D I)) as (l & G & J). exists (c, l). split; [|exact J].
    apply (dget_some_in _ pystr_eqb_eq). exact G.
Qed.

(** ** Data that are not complete *)
Lemma construct_sourceless : forall W k n c, dget pystr_eqb c n = None -> sourceless W k n ->
  construct W k n c = (c, Some KeyError).
Proof.
  intros W k n c N (p & P & S). unfold construct. rewrite N, P.
  assert (R : input_energy_source k p = Err KeyError).
  { destruct k; cbn in *; try (rewrite S; reflexivity);
      (destruct S as [->|(s & -> & T)]; [reflexivity|rewrite T; reflexivity]). }
  rewrite R. reflexivity.
Qed.
Lemma gather_stops : forall f cs1 c cs2 acc, (forall d, In d cs1 -> exists l, dget pystr_eqb f d = Some l) ->
  dget pystr_eqb f c = None ->
  exists l, gather f (cs1 ++ c :: cs2) acc = (l, Some KeyError) /\
    forall i, In i l <-> In i acc \/ exists d, In d cs1 /\ fuel_of f d i.
Proof.
  intros f cs1 c cs2. induction cs1 as [|d cs1 IH]; simpl; intros acc K N.
  - rewrite N. exists acc. split; [reflexivity|]. intros i. split; [auto|]. intros [H|(d & [] & _)]. exact H.
  - destruct (K d (or_introl eq_refl)) as (l & L). rewrite L.
    destruct (IH (fold_left (fun a i => add i a) l acc) (fun e H => K e (or_intror H)) N) as (l' & G & I).
    exists l'. split; [exact G|]. intros i. rewrite I, in_adds. split.
    + intros [[H|H]|(e & E & F)]; [right; exists d; split; [auto|exists l; auto]|auto|right; exists e; auto].
    + intros [H|(e & [<-|E] & F)]; [auto| |right; exists e; auto].
      left. left. destruct F as (l2 & L2 & F). congruence.
Qed.
Lemma construct_stops : forall W k n c s cs1 x cs2, dget pystr_eqb c n = None -> source_of W k n s ->
  s_categories s = Some (cs1 ++ x :: cs2) -> (forall d, In d cs1 -> exists l, dget pystr_eqb (w_fuels W) d = Some l) ->
  dget pystr_eqb (w_fuels W) x = None ->
  snd (construct W k n c) = Some KeyError /\
  exists l, allowed_fuel_items (fst (construct W k n c)) n = Some l /\
    forall i, In i l <-> exists d, In d cs1 /\ fuel_of (w_fuels W) d i.
Proof.
  intros W k n c s cs1 x cs2 N S C K X. unfold construct. rewrite N. destruct S as (p & P & S). rewrite P.
  assert (R : input_energy_source k p = Ok (Some s)).
  { destruct k; cbn in *; try (destruct S as [-> ->]; rewrite pystr_eqb_refl; reflexivity). rewrite S. reflexivity. }
  rewrite R. unfold categories. rewrite C.
  destruct (gather_stops (w_fuels W) cs1 x cs2 [] K X) as (l & -> & I). cbn [fst snd].
  split; [reflexivity|]. exists l. split.
  - unfold allowed_fuel_items. rewrite (dget_dset _ pystr_eqb_eq), pystr_eqb_refl. reflexivity.
  - intros i. rewrite I. split; [intros [[]|H]; exact H|auto].
Qed.

(** ** Entries and values that cannot be read *)
Lemma nameless_raises : forall e x, nameless e x -> name_of e = Err x.
Proof. intros e x H. destruct H; reflexivity. Qed.
Lemma entry_raises : forall E k m old es1 es2 ns e x ws rs l, strict m -> allowed E = Some l ->
  convert E m (VList (es1 ++ e :: es2)) = (ws, Some (Some rs)) -> Forall2 wants es1 ns -> nameless e x ->
  assign E k m old (VList (es1 ++ e :: es2)) = (VList (es1 ++ e :: es2), [], Some x).
Proof.
  intros E k m old es1 es2 ns e x ws rs l M A C F N. destruct (strict_bool _ M) as [B L]. unfold assign. rewrite B, C, L.
  assert (R : check_fuel E (VList (es1 ++ e :: es2)) = Err x).
  { unfold check_fuel. rewrite A. simpl. clear C.
    assert (X : fuel_items E (es1 ++ e :: es2) = Err x).
    { induction F as [|e' n es ns W F IH]; simpl; [rewrite (nameless_raises _ _ N); reflexivity|].
      rewrite (wants_name _ _ W). simpl. rewrite IH. reflexivity. }
    rewrite X. reflexivity. }
  destruct k; simpl; rewrite R; reflexivity.
Qed.
Lemma value_raises : forall E k m old v ws rs l, strict m -> allowed E = Some l ->
  (exists a ks, v = VKeys (a :: ks)) \/ (exists z, v = VOther z) -> convert E m v = (ws, Some (Some rs)) ->
  assign E k m old v = (v, [], Some TypeError).
Proof.
  intros E k m old v ws rs l M A V C. destruct (strict_bool _ M) as [B L]. unfold assign. rewrite B, C, L.
  assert (R : check_fuel E v = Err TypeError).
  { unfold check_fuel. rewrite A. destruct V as [(a & ks & ->)|(z & ->)]; reflexivity. }
  destruct k; simpl; rewrite R; reflexivity.
Qed.

(** ** The other two validators, on a dictionary *)
Lemma only_fuel_warned : forall E ks l, allowed E = Some l ->
  exists ws, check_only_fuel E (VKeys ks) = Ok ws /\
    warned (fun x => item_known E x = true /\ ~ In x (all_fuel E)) ks ws.
Proof.
  intros E ks l A. unfold check_only_fuel. rewrite A. simpl.
  induction ks as [|x ks (ws & R & W)]; simpl; [exists []; split; [reflexivity|constructor]|].
  rewrite R. simpl. eexists. split; [reflexivity|].
  destruct (item_known E x) eqn:K; simpl.
  - destruct (mem x (all_fuel E)) eqn:I; simpl.
    + apply warned_good; [|exact W]. intros [_ H]. apply H. apply mem_in. exact I.
    + apply warned_bad; [|exact W]. split; [exact K|]. apply mem_not. exact I.
  - apply warned_good; [|exact W]. intros [H _]. congruence.
Qed.
Lemma smelts_warned : forall E ks l, ingredients E = Some l ->
  exists ws, check_smelts E (VKeys ks) = Ok ws /\
    warned (fun x => module_known E x = false /\ ~ In x l) ks ws.
Proof.
  intros E ks l A. unfold check_smelts. simpl.
  induction ks as [|x ks (ws & R & W)]; simpl; [exists []; split; [reflexivity|constructor]|].
  destruct (module_known E x) eqn:K; simpl; [|rewrite A; simpl]; rewrite R; simpl; eexists; (split; [reflexivity|]).
  - apply warned_good; [|exact W]. intros [H _]. congruence.
  - destruct (mem x l) eqn:I; simpl.
    + apply warned_good; [|exact W]. intros [_ H]. apply H. apply mem_in. exact I.
    + apply warned_bad; [|exact W]. split; [exact K|]. apply mem_not. exact I.
Qed.
Lemma mode_none_stores : forall E k old v,
  assign E k MNone old VNone = (VList [], [], None) /\
  (v <> VNone -> assign E k MNone old v = (v, [], None)).
Proof. intros E k old v. split; [reflexivity|]. intros N. destruct v; [destruct (N eq_refl)|..]; reflexivity. Qed.
