(** Proofs about [Upgrade_Model]. *)
From Coq Require Import ZArith String List Bool Lia Sorted.
From Verif Require Import Common Dict Version_Model Assign_Model Upgrade_Model Upgrade_Spec.
Import ListNotations.

Lemma mem_in : forall x l, mem x l = true <-> In x l.
Proof.
  intros x l. unfold mem. rewrite existsb_exists. split.
  - intros (y & H & E). apply pystr_eqb_eq in E. subst. exact H.
  - intros H. exists x. split; [exact H|apply pystr_eqb_eq; reflexivity].
Qed.
Lemma mem_not : forall x l, mem x l = false <-> ~ In x l.
Proof. intros. rewrite <- mem_in. destruct (mem x l); split; congruence. Qed.
Lemma tok_eq : forall a b, tok_eqb a b = true <-> a = b.
Proof.
  intros [a|] [b|]; cbn; split; intro H; try discriminate H; try reflexivity.
  - apply Z.eqb_eq in H. subst. reflexivity.
  - injection H as ->. apply Z.eqb_refl.
Qed.
Lemma tok_neq : forall a b, tok_eqb a b = false <-> a <> b.
Proof. intros. rewrite <- tok_eq. destruct (tok_eqb a b); split; congruence. Qed.
Lemma kind_eq : forall a b, kind_eqb a b = true <-> a = b.
Proof. intros [] []; cbn; split; congruence. Qed.
Lemma mid_eq : forall a b, mid_eqb a b = true <-> a = b.
Proof.
  intros [n k x] [m l y]. unfold mid_eqb. cbn. rewrite !andb_true_iff, pystr_eqb_eq, kind_eq, Z.eqb_eq. split.
  - intros [[-> ->] ->]. reflexivity.
  - intros H. injection H as -> -> ->. auto.
Qed.
Lemma mid_neq : forall a b, mid_eqb a b = false <-> a <> b.
Proof. intros. rewrite <- mid_eq. destruct (mid_eqb a b); split; congruence. Qed.

Section World.
Variable W : world.

Lemma unrecognised_known : forall m, known W (m_name m) -> unrecognised W (Some m) = [].
Proof.
  intros m [[e H]|[i H]]; unfold unrecognised; unfold entity_of, item_of in H; rewrite H; [reflexivity|].
  destruct (dget pystr_eqb (entities W) (m_name m)); reflexivity.
Qed.
Lemma unrecognised_unknown : forall m, ~ known W (m_name m) -> unrecognised W (Some m) = [UnknownElement (m_name m)].
Proof.
  intros m H. unfold unrecognised. destruct (dget pystr_eqb (entities W) (m_name m)) eqn:E.
  - exfalso. apply H. left. eauto.
  - destruct (dget pystr_eqb (items W) (m_name m)) eqn:F; [|reflexivity]. exfalso. apply H. right. eauto.
Qed.
Lemma known_dec : forall n, known W n \/ ~ known W n.
Proof.
  intros n. unfold known, entity_of, item_of.
  destruct (dget pystr_eqb (entities W) n) eqn:E; [left; left; eauto|].
  destruct (dget pystr_eqb (items W) n) eqn:F; [left; right; eauto|].
  right. intros [[e H]|[i H]]; discriminate H.
Qed.
Lemma strange_unrecognised : forall l ns, strange W l ns -> flat_map (unrecognised W) l = map UnknownElement ns.
Proof.
  intros l ns H. induction H; cbn [flat_map map].
  - reflexivity.
  - exact IHstrange.
  - rewrite unrecognised_known by assumption. exact IHstrange.
  - rewrite unrecognised_unknown by assumption. cbn. rewrite IHstrange. reflexivity.
Qed.
Lemma strange_exists : forall l, exists ns, strange W l ns.
Proof.
  induction l as [|[m|] l [ns IH]].
  - exists []. constructor.
  - destruct (known_dec (m_name m)); eexists; [eapply strange_known|eapply strange_unknown]; eauto.
  - exists ns. constructor. exact IH.
Qed.
Lemma strange_two : forall f t ns, strange W [f; t] ns -> unrecognised W f ++ unrecognised W t = map UnknownElement ns.
Proof. intros f t ns H. apply strange_unrecognised in H. cbn [flat_map] in H. rewrite app_nil_r in H. exact H. Qed.
Lemma strange_none : forall a b, strange W [Some a; Some b] [] -> known W (m_name a) /\ known W (m_name b).
Proof.
  intros a b H. inversion H; subst. split; [assumption|].
  match goal with S : strange W [Some b] [] |- _ => inversion S; subst end. assumption.
Qed.
Lemma known_strange : forall a b, known W (m_name a) -> known W (m_name b) -> strange W [Some a; Some b] [].
Proof. intros. apply strange_known; [assumption|]. apply strange_known; [assumption|constructor]. Qed.

Lemma check_unknown : forall f t ns, strange W [f; t] ns -> ns <> [] -> check_pair W f t = Ok (Some (map UnknownElement ns)).
Proof.
  intros f t ns H N. unfold check_pair. rewrite (strange_two _ _ _ H). destruct ns; [contradiction|reflexivity].
Qed.
Lemma check_blank : forall f t, strange W [f; t] [] -> f = None \/ t = None -> check_pair W f t = Ok None.
Proof.
  intros f t H N. unfold check_pair. rewrite (strange_two _ _ _ H). cbn. destruct f, t; try reflexivity.
  destruct N as [N|N]; discriminate N.
Qed.
Lemma check_itself : forall a, known W (m_name a) -> check_pair W (Some a) (Some a) = Ok (Some [NoEffect (m_name a)]).
Proof.
  intros a H. unfold check_pair. rewrite unrecognised_known by exact H. cbn.
  destruct (mid_eqb a a) eqn:E; [reflexivity|]. apply mid_neq in E. contradiction.
Qed.
Lemma check_types : forall a b, known W (m_name a) -> known W (m_name b) -> m_type a <> m_type b ->
  check_pair W (Some a) (Some b) = Ok (Some [Prohibited (TypesDiffer (m_name a) (m_type a) (m_name b) (m_type b))]).
Proof.
  intros a b H K N. unfold check_pair. rewrite !unrecognised_known by assumption. cbn.
  destruct (mid_eqb a b) eqn:E; [apply mid_eq in E; subst; contradiction|].
  destruct (kind_eqb (m_type a) (m_type b)) eqn:F; [apply kind_eq in F; contradiction|reflexivity].
Qed.
Lemma check_items : forall a b, known W (m_name a) -> known W (m_name b) -> a <> b -> m_type a = Item -> m_type b = Item ->
  check_pair W (Some a) (Some b) = Ok None.
Proof.
  intros a b H K N A B. unfold check_pair. rewrite !unrecognised_known by assumption. cbn.
  destruct (mid_eqb a b) eqn:E; [apply mid_eq in E; subst; contradiction|]. rewrite A, B. reflexivity.
Qed.
Lemma check_same_kind : forall a b, known W (m_name a) -> known W (m_name b) -> a <> b -> m_type a = Entity -> m_type b = Entity ->
  check_pair W (Some a) (Some b) =
  match dget pystr_eqb (entities W) (m_name a), dget pystr_eqb (entities W) (m_name b) with
  | Some x, Some y => check_entities W (m_name a) (m_name b) x y
  | _, _ => Err KeyError
  end.
Proof.
  intros a b H K N A B. unfold check_pair. rewrite !unrecognised_known by assumption. cbn.
  destruct (mid_eqb a b) eqn:E; [apply mid_eq in E; subst; contradiction|]. rewrite A, B. reflexivity.
Qed.

(** ** Products *)
Lemma names_map : forall ns, names (map Some ns) = Ok ns.
Proof. induction ns as [|n ns IH]; [reflexivity|]. cbn. rewrite IH. reflexivity. Qed.
Lemma names_inv : forall rs ns, names rs = Ok ns -> rs = map Some ns.
Proof.
  induction rs as [|[n|] rs IH]; cbn; intros ns H.
  - injection H as <-. reflexivity.
  - destruct (names rs) as [l|]; [|discriminate H]. cbn in H. injection H as <-. cbn. rewrite (IH l eq_refl). reflexivity.
  - discriminate H.
Qed.
Lemma names_err : forall rs e, names rs = Err e -> e = KeyError /\ forall ns, rs <> map Some ns.
Proof.
  intros rs e H. split.
  - revert e H. induction rs as [|[n|] rs IH]; cbn; intros e H; [discriminate H| |injection H as <-; reflexivity].
    destruct (names rs); cbn in H; [discriminate H|]. injection H as <-. apply (IH _ eq_refl).
  - intros ns ->. rewrite names_map in H. discriminate H.
Qed.
Lemma products_mined : forall a ns, products a ns -> exists rs r, e_minable a = Mined rs r /\ mined rs r = Ok ns.
Proof.
  intros a ns H. destruct H as [ns r H|n H]; rewrite H.
  - eexists _, _. split; [reflexivity|]. cbn. apply names_map.
  - eexists _, _. split; reflexivity.
Qed.
Lemma mined_products : forall a rs r ns, e_minable a = Mined rs r -> mined rs r = Ok ns -> products a ns.
Proof.
  intros a [rs|] [r|] ns H M; cbn in M.
  - apply names_inv in M. subst. eapply several, H.
  - apply names_inv in M. subst. eapply several, H.
  - injection M as <-. apply single, H.
  - discriminate M.
Qed.
Lemma products_unique : forall a ns ms, products a ns -> products a ms -> ns = ms.
Proof.
  intros a ns ms H K. apply products_mined in H. apply products_mined in K.
  destruct H as (rs & r & H & M), K as (rs' & r' & K & M'). rewrite H in K. injection K as <- <-. congruence.
Qed.
Lemma mined_err : forall rs r e, mined rs r = Err e -> e = KeyError.
Proof.
  intros [rs|] [r|] e H; cbn in H; try discriminate H; try (apply names_err in H; tauto). injection H as <-. reflexivity.
Qed.

Lemma hidden_ok : forall ns x, hidden W ns = Ok x ->
  match x with None => Forall (shown W) ns | Some n => exists l r, ns = l ++ n :: r /\ Forall (shown W) l /\ concealed W n end.
Proof.
  induction ns as [|n ns IH]; cbn [hidden]; intros x H.
  - injection H as <-. constructor.
  - destruct (dget pystr_eqb (items W) n) as [i|] eqn:E; [|discriminate H].
    destruct (mem (str "hidden") (i_flags i)) eqn:F.
    + injection H as <-. exists [], ns. split; [reflexivity|]. split; [constructor|]. exists i. split; [exact E|]. apply mem_in, F.
    + specialize (IH x H). assert (S : shown W n) by (exists i; split; [exact E|apply mem_not, F]).
      destruct x as [m|].
      * destruct IH as (l & r & -> & A & B). exists (n :: l), r. repeat split; auto.
      * constructor; assumption.
Qed.
Lemma hidden_shown : forall ns, Forall (shown W) ns -> hidden W ns = Ok None.
Proof.
  induction 1 as [|n ns (i & E & N) _ IH]; [reflexivity|]. cbn [hidden]. unfold item_of in E. rewrite E. apply mem_not in N. rewrite N. exact IH.
Qed.
Lemma hidden_concealed : forall l n r, Forall (shown W) l -> concealed W n -> hidden W (l ++ n :: r) = Ok (Some n).
Proof.
  intros l n r H (i & E & N). induction H as [|m l (j & F & M) _ IH]; cbn [app hidden]; unfold item_of in *.
  - rewrite E. apply mem_in in N. rewrite N. reflexivity.
  - rewrite F. apply mem_not in M. rewrite M. exact IH.
Qed.
Lemma hidden_err : forall ns e, hidden W ns = Err e -> e = KeyError /\ ~ Forall (shown W) ns /\ forall l n r, ns = l ++ n :: r -> Forall (shown W) l -> ~ concealed W n.
Proof.
  intros ns e H. split; [|split].
  - revert H. induction ns as [|n ns IH]; cbn [hidden]; intro H; [discriminate H|].
    destruct (dget pystr_eqb (items W) n); [|injection H as <-; reflexivity].
    destruct (mem _ _); [discriminate H|apply IH, H].
  - intro F. rewrite (hidden_shown _ F) in H. discriminate H.
  - intros l n r -> F C. rewrite (hidden_concealed _ _ _ F C) in H. discriminate H.
Qed.

(** ** Prototypes *)
(** All that [check_entities] can give. *)
Lemma check_entities_ok : forall f t a b x, check_entities W f t a b = Ok x ->
  readable W a /\
  match x with
  | None => forall r, ~ forbidden W a f b t r
  | Some ws => exists r, ws = [Prohibited r] /\ forbidden W a f b t r /\ forall r', forbidden W a f b t r' -> rank r <= rank r'
  end.
Proof.
  intros f t a b x H. unfold check_entities in H.
  assert (one : forall r, forbidden W a f b t r -> 1 <= rank r) by (intros r []; cbn; lia).
  destruct (mem (str "not-upgradable") (e_flags a)) eqn:E1.
  { injection H as <-. apply mem_in in E1. split; [apply by_flag, E1|]. eexists. split; [reflexivity|]. split; [constructor; exact E1|].
    exact one. }
  apply mem_not in E1.
  destruct (e_minable a) as [|rs res] eqn:E2.
  { injection H as <-. split; [apply by_unminable, E2|]. eexists. split; [reflexivity|]. split; [constructor; exact E2|].
    intros r' F. destruct F; cbn; try lia. contradiction. }
  destruct (mined rs res) as [ns|] eqn:E3; [|discriminate H]. cbn [bind negb] in H.
  assert (P := mined_products a rs res ns E2 E3).
  destruct (hidden W ns) as [h|] eqn:E4; [|discriminate H]. cbn [bind negb] in H. apply hidden_ok in E4.
  destruct h as [i|].
  { injection H as <-. destruct E4 as (l & r & -> & A & B). split; [eapply by_concealed; eauto|].
    eexists. split; [reflexivity|]. destruct B as (j & B1 & B2). split; [eapply hidden_result; eauto; apply in_elt|].
    intros r' F. destruct F; cbn; try lia; [contradiction|congruence]. }
  assert (noh : forall n i, In n ns -> item_of W n i -> In (str "hidden") (i_flags i) -> False).
  { intros n i I J K. rewrite Forall_forall in E4. destruct (E4 n I) as (j & J' & N). unfold item_of in *. rewrite J in J'. injection J' as <-. contradiction. }
  assert (low : forall r, forbidden W a f b t r -> 4 <= rank r).
  { intros r' F. destruct F as [F|F|ms n i F1 F2 F3 F4|k F1 F2|F|F|F]; cbn; try lia; [contradiction|congruence|].
    exfalso. rewrite <- (products_unique _ _ _ P F1) in F2. eapply noh; eassumption. }
  split; [eapply by_shown; eassumption|].
  destruct (is_stock (e_type a)) eqn:E5.
  { injection H as <-. destruct (e_type a) as [k|] eqn:K; [|discriminate E5]. apply mem_in in E5.
    eexists. split; [reflexivity|]. split; [eapply rolling_stock; eassumption|exact low]. }
  assert (nos : forall k, e_type a = Some k -> ~ In k stock).
  { intros k K. rewrite K in E5. apply mem_not, E5. }
  destruct (tok_eqb (e_box a) (e_box b)) eqn:E6; cbn [bind negb] in H.
  2:{ injection H as <-. apply tok_neq in E6. eexists. split; [reflexivity|]. split; [constructor; exact E6|].
      intros r' F. pose proof (low _ F). destruct F; cbn in *; try lia. exfalso. eapply nos; eassumption. }
  apply tok_eq in E6.
  destruct (tok_eqb (e_mask a) (e_mask b)) eqn:E7; cbn [bind negb] in H.
  2:{ injection H as <-. apply tok_neq in E7. eexists. split; [reflexivity|]. split; [constructor; exact E7|].
      intros r' F. pose proof (low _ F). destruct F; cbn in *; try lia; [|contradiction]. exfalso. eapply nos; eassumption. }
  apply tok_eq in E7.
  destruct (tok_eqb (e_group a) (e_group b)) eqn:E8; cbn [bind negb] in H.
  2:{ injection H as <-. apply tok_neq in E8. eexists. split; [reflexivity|]. split; [constructor; exact E8|].
      intros r' F. pose proof (low _ F). destruct F; cbn in *; try lia; try contradiction. exfalso. eapply nos; eassumption. }
  apply tok_eq in E8. injection H as <-. intros r F. pose proof (low _ F). destruct F; cbn in *; try lia; try contradiction. eapply nos; eassumption.
Qed.
Lemma check_entities_err : forall f t a b e, check_entities W f t a b = Err e -> e = KeyError /\ ~ readable W a.
Proof.
  intros f t a b e H. unfold check_entities in H.
  destruct (mem (str "not-upgradable") (e_flags a)) eqn:E1; [discriminate H|]. apply mem_not in E1.
  destruct (e_minable a) as [|rs res] eqn:E2; [discriminate H|].
  destruct (mined rs res) as [ns|x] eqn:E3.
  - cbn [bind negb] in H. assert (P := mined_products a rs res ns E2 E3). destruct (hidden W ns) as [h|x] eqn:E4.
    + exfalso. cbn [bind negb] in H. destruct h; [discriminate H|]. destruct (is_stock _), (tok_eqb (e_box a) (e_box b)), (tok_eqb (e_mask a) (e_mask b)), (tok_eqb (e_group a) (e_group b)); discriminate H.
    + cbn [bind negb] in H. injection H as <-. apply hidden_err in E4. destruct E4 as (-> & A & B). split; [reflexivity|].
      intros [R|R|ms R S|ms n r R S C].
      * contradiction.
      * congruence.
      * rewrite (products_unique _ _ _ R P) in S. contradiction.
      * eapply B; [apply (products_unique _ _ _ P R)|exact S|exact C].
  - cbn [bind negb] in H. injection H as <-. split; [eapply mined_err; eassumption|].
    intros [R|R|ms R S|ms n r R S C]; [contradiction|congruence| |];
      apply products_mined in R; destruct R as (? & ? & R & M); rewrite E2 in R; injection R as <- <-; congruence.
Qed.
Lemma readable_ok : forall f t a b, readable W a -> exists x, check_entities W f t a b = Ok x.
Proof.
  intros f t a b R. destruct (check_entities W f t a b) as [x|e] eqn:E; [eauto|]. apply check_entities_err in E. tauto.
Qed.

Lemma known_entity : forall n e, entity_of W n e -> known W n.
Proof. intros n e H. left. eauto. Qed.
Lemma check_readable : forall a b x y, a <> b -> m_type a = Entity -> m_type b = Entity ->
  entity_of W (m_name a) x -> entity_of W (m_name b) y -> readable W x ->
  (check_pair W (Some a) (Some b) = Ok None /\ forall r, ~ forbidden W x (m_name a) y (m_name b) r) \/
  (exists r, check_pair W (Some a) (Some b) = Ok (Some [Prohibited r]) /\ forbidden W x (m_name a) y (m_name b) r /\
             forall r', forbidden W x (m_name a) y (m_name b) r' -> rank r <= rank r').
Proof.
  intros a b x y N A B X Y R. rewrite check_same_kind by eauto using known_entity.
  unfold entity_of in X, Y. rewrite X, Y. destruct (readable_ok (m_name a) (m_name b) x y R) as [z E]. rewrite E.
  apply check_entities_ok in E. destruct E as [_ E]. destruct z as [ws|]; [right|left; auto].
  destruct E as (r & -> & F & M). exists r. auto.
Qed.

(** What can happen, at all. *)
Lemma check_cases : forall f t (P : result (option (list warning)) -> Prop),
  (forall ns, strange W [f; t] ns -> ns <> [] -> P (Ok (Some (map UnknownElement ns)))) ->
  (strange W [f; t] [] -> f = None \/ t = None -> P (Ok None)) ->
  (forall a b, f = Some a -> t = Some b -> known W (m_name a) -> known W (m_name b) ->
     (a = b -> P (Ok (Some [NoEffect (m_name a)]))) /\
     (m_type a <> m_type b -> P (Ok (Some [Prohibited (TypesDiffer (m_name a) (m_type a) (m_name b) (m_type b))]))) /\
     (a <> b -> m_type a = Item -> m_type b = Item -> P (Ok None)) /\
     (a <> b -> m_type a = Entity -> m_type b = Entity ->
        P (match dget pystr_eqb (entities W) (m_name a), dget pystr_eqb (entities W) (m_name b) with
           | Some x, Some y => check_entities W (m_name a) (m_name b) x y | _, _ => Err KeyError end))) ->
  P (check_pair W f t).
Proof.
  intros f t P H1 H2 H3. destruct (strange_exists [f; t]) as [ns S]. destruct ns as [|n ns].
  2:{ rewrite (check_unknown _ _ _ S) by discriminate. apply H1; [exact S|discriminate]. }
  destruct f as [a|].
  2:{ rewrite check_blank by auto. apply H2; auto. }
  destruct t as [b|].
  2:{ rewrite check_blank by auto. apply H2; auto. }
  destruct (strange_none _ _ S) as [A B]. destruct (H3 a b eq_refl eq_refl A B) as (G1 & G2 & G3 & G4).
  destruct (mid_eqb a b) eqn:E.
  - apply mid_eq in E. subst b. rewrite check_itself by exact A. auto.
  - apply mid_neq in E. destruct (m_type a) eqn:TA, (m_type b) eqn:TB.
    + rewrite check_same_kind by assumption. auto.
    + rewrite check_types by (try assumption; congruence). rewrite TA, TB. apply G2. discriminate.
    + rewrite check_types by (try assumption; congruence). rewrite TA, TB. apply G2. discriminate.
    + rewrite check_items by assumption. auto.
Qed.
Lemma check_fine : forall f t, check_pair W f t = Ok None <-> fine W f t.
Proof.
  intros f t. split.
  - apply check_cases.
    + intros ns S N H. destruct ns; [contradiction|discriminate H].
    + intros S N _. apply fine_blank; assumption.
    + intros a b -> -> A B. split; [|split; [|split]].
      * intros _ H. discriminate H.
      * intros _ H. discriminate H.
      * intros N TA TB _. apply fine_items; assumption.
      * intros N TA TB. destruct (dget pystr_eqb (entities W) (m_name a)) as [x|] eqn:X; [|intro H; discriminate H].
        destruct (dget pystr_eqb (entities W) (m_name b)) as [y|] eqn:Y; [|intro H; discriminate H].
        intro H. apply check_entities_ok in H. destruct H as [R H]. eapply fine_entities; eassumption.
  - intros [f' t' N S|a b N A B TA TB|a b x y N TA TB X Y R F].
    + apply check_blank; assumption.
    + apply check_items; assumption.
    + destruct (check_readable a b x y N TA TB X Y R) as [[H _]|(r & _ & H & _)]; [exact H|]. exfalso. eapply F, H.
Qed.
Lemma check_raises : forall f t e, check_pair W f t = Err e <-> e = KeyError /\ stumbles W f t.
Proof.
  intros f t e. split.
  - apply check_cases.
    + intros ns S N H. discriminate H.
    + intros S N H. discriminate H.
    + intros a b -> -> A B. split; [|split; [|split]].
      * intros _ H. discriminate H.
      * intros _ H. discriminate H.
      * intros _ _ _ H. discriminate H.
      * intros N TA TB. destruct (dget pystr_eqb (entities W) (m_name a)) as [x|] eqn:X.
        2:{ intro H. injection H as <-. split; [reflexivity|]. apply no_entity; try assumption. left. intros z Z. unfold entity_of in Z. congruence. }
        destruct (dget pystr_eqb (entities W) (m_name b)) as [y|] eqn:Y.
        2:{ intro H. injection H as <-. split; [reflexivity|]. apply no_entity; try assumption. right. intros z Z. unfold entity_of in Z. congruence. }
        intro H. apply check_entities_err in H. destruct H as [-> R]. split; [reflexivity|]. eapply unreadable; eassumption.
  - intros [-> S]. destruct S as [a b N TA TB A B E|a b x N TA TB X B R].
    + rewrite check_same_kind by assumption. destruct E as [E|E].
      * destruct (dget pystr_eqb (entities W) (m_name a)) as [x|] eqn:X; [exfalso; eapply E, X|reflexivity].
      * destruct (dget pystr_eqb (entities W) (m_name a)); [|reflexivity].
        destruct (dget pystr_eqb (entities W) (m_name b)) as [y|] eqn:Y; [exfalso; eapply E, Y|reflexivity].
    + rewrite check_same_kind by eauto using known_entity. unfold entity_of in X. rewrite X.
      destruct (dget pystr_eqb (entities W) (m_name b)) as [y|]; [|reflexivity].
      destruct (check_entities W (m_name a) (m_name b) x y) as [z|e] eqn:E.
      * apply check_entities_ok in E. tauto.
      * apply check_entities_err in E. destruct E as [-> _]. reflexivity.
Qed.
(** Nothing is said without a reason. *)
Lemma check_sound : forall f t ws r, check_pair W f t = Ok (Some ws) -> In (Prohibited r) ws ->
  exists a b, f = Some a /\ t = Some b /\ ws = [Prohibited r] /\
    ((r = TypesDiffer (m_name a) (m_type a) (m_name b) (m_type b) /\ m_type a <> m_type b) \/
     (m_type a = Entity /\ m_type b = Entity /\ exists x y, entity_of W (m_name a) x /\ entity_of W (m_name b) y /\
      forbidden W x (m_name a) y (m_name b) r)).
Proof.
  intros f t ws r. apply check_cases.
  - intros ns S N H I. injection H as <-. apply in_map_iff in I. destruct I as (n & I & _). discriminate I.
  - intros _ _ H. discriminate H.
  - intros a b -> -> A B. split; [|split; [|split]].
    + intros _ H I. injection H as <-. destruct I as [I|[]]. discriminate I.
    + intros T H I. injection H as <-. destruct I as [I|[]]. injection I as <-. exists a, b. auto 10.
    + intros _ _ _ H. discriminate H.
    + intros N TA TB. destruct (dget pystr_eqb (entities W) (m_name a)) as [x|] eqn:X; [|intro H; discriminate H].
      destruct (dget pystr_eqb (entities W) (m_name b)) as [y|] eqn:Y; [|intro H; discriminate H].
      intros H I. apply check_entities_ok in H. destruct H as [_ (r' & -> & F & _)]. destruct I as [I|[]]. injection I as ->.
      exists a, b. split; [reflexivity|]. split; [reflexivity|]. split; [reflexivity|]. right. split; [exact TA|]. split; [exact TB|]. exists x, y. auto.
Qed.
(** Upgrades can be chained. *)
Lemma check_chain : forall a b c, a <> c -> m_type a = Entity ->
  check_pair W (Some a) (Some b) = Ok None -> check_pair W (Some b) (Some c) = Ok None -> check_pair W (Some a) (Some c) = Ok None.
Proof.
  intros a b c N T H K. apply check_fine in H. apply check_fine in K. apply check_fine.
  inversion H as [f t E|a' b' _ _ _ E|a' b' x y _ TA TB X Y R F]; subst.
  - destruct E as [E|E]; discriminate E.
  - congruence.
  - inversion K as [f t E|a' b' _ _ _ E|a' b' y' z _ TB' TC Y' Zc R' F']; subst.
    + destruct E as [E|E]; discriminate E.
    + congruence.
    + unfold entity_of in *. rewrite Y in Y'. injection Y' as <-. eapply fine_entities; eauto.
      intros r G.
      assert (same : forall P Q : option Z, (P <> Q -> False) -> P = Q).
      { intros P Q J. destruct (tok_eqb P Q) eqn:E; [apply tok_eq, E|apply tok_neq in E; contradiction]. }
      assert (xb : e_box x = e_box y) by (apply same; intro J; eapply F, boxes, J).
      assert (xm : e_mask x = e_mask y) by (apply same; intro J; eapply F, masks, J).
      assert (xg : e_group x = e_group y) by (apply same; intro J; eapply F, groups, J).
      assert (yb : e_box y = e_box z) by (apply same; intro J; eapply F', boxes, J).
      assert (ym : e_mask y = e_mask z) by (apply same; intro J; eapply F', masks, J).
      assert (yg : e_group y = e_group z) by (apply same; intro J; eapply F', groups, J).
      destruct G as [G|G|ns n i G1 G2 G3 G4|k G1 G2|G|G|G]; try congruence.
      * eapply F, not_upgradable, G.
      * eapply F, not_minable, G.
      * eapply F, hidden_result; eassumption.
      * eapply F, rolling_stock; eassumption.
Qed.

(** ** Mappers *)
Definition after (ms : list mapper) : occupied := fold_left occupy ms [].
Lemma each_spec : forall ms ws o, each W ms ws o =
  match map_result (fun m => check_pair W (from m) (to m)) ms with
  | Ok xs => Ok (ws ++ flat_map (fun x => match x with Some y => y | None => [] end) xs, fold_left occupy ms o)
  | Err e => Err e
  end.
Proof.
  induction ms as [|m ms IH]; intros ws o; cbn.
  - rewrite app_nil_r. reflexivity.
  - destruct (check_pair W (from m) (to m)) as [x|e]; cbn; [|reflexivity]. rewrite IH.
    destruct (map_result (fun m => check_pair W (from m) (to m)) ms) as [xs|e]; cbn; [|reflexivity].
    destruct x as [y|]; cbn; [rewrite app_assoc|]; reflexivity.
Qed.
Lemma ensure_spec : forall md ms, md = MStrict \/ md = MPedantic -> ensure_mappers W md (Some ms) =
  match map_result (fun m => check_pair W (from m) (to m)) ms with
  | Ok xs => Ok (flat_map (fun x => match x with Some y => y | None => [] end) xs ++ overwritten (after ms))
  | Err e => Err e
  end.
Proof.
  intros md ms [-> | ->]; cbn; rewrite each_spec; destruct (map_result _ ms); reflexivity.
Qed.
End World.

(** Indices. *)
Lemma dset_fst : forall (o : occupied) k v, map fst (dset Z.eqb o k v) = if existsb (Z.eqb k) (map fst o) then map fst o else map fst o ++ [k].
Proof.
  induction o as [|[k' v'] o IH]; intros k v; cbn; [reflexivity|].
  rewrite (Z.eqb_sym k k'). destruct (Z.eqb k' k) eqn:E; cbn.
  - reflexivity.
  - rewrite IH. destruct (existsb (Z.eqb k) (map fst o)); reflexivity.
Qed.
Lemma at_index_app : forall a b i, at_index (a ++ b) i = at_index a i ++ at_index b i.
Proof. intros. apply filter_app. Qed.
Definition keeps (ms : list mapper) (o : occupied) : Prop :=
  forall i, match dget Z.eqb o i with
            | Some (c, m) => exists l, at_index ms i = l ++ [m] /\ c = Z.of_nat (length l)
            | None => at_index ms i = []
            end.
Lemma zeqb_eq : forall a b, Z.eqb a b = true <-> a = b. Proof. apply Z.eqb_eq. Qed.
Lemma keeps_occupy : forall ms o m, keeps ms o -> keeps (ms ++ [m]) (occupy o m).
Proof.
  intros ms o m H i. specialize (H i) as Hi. pose proof (H (index m)) as Hm. rewrite at_index_app. cbn [at_index filter].
  unfold occupy. destruct (dget Z.eqb o (index m)) as [[c m']|] eqn:E; rewrite (dget_dset Z.eqb zeqb_eq).
  - destruct (Z.eqb (index m) i) eqn:F.
    + apply Z.eqb_eq in F. subst i. destruct Hm as (l & A & C). exists (at_index ms (index m)). split; [reflexivity|].
      rewrite A, app_length. cbn. lia.
    + destruct (dget Z.eqb o i) as [[d n]|]; rewrite ?app_nil_r; exact Hi.
  - destruct (Z.eqb (index m) i) eqn:F.
    + apply Z.eqb_eq in F. subst i. exists []. rewrite Hm. auto.
    + destruct (dget Z.eqb o i) as [[d n]|]; rewrite ?app_nil_r; exact Hi.
Qed.
Lemma before_app : forall ms m i j, before ms i j -> before (ms ++ [m]) i j.
Proof.
  intros ms m i j (l & x & r & -> & E & F). exists l, x, (r ++ [m]). split; [rewrite <- app_assoc; reflexivity|]. auto.
Qed.
Lemma at_index_split : forall ms i, at_index ms i <> [] -> exists l m r, ms = l ++ m :: r /\ index m = i.
Proof.
  intros ms i H. destruct (at_index ms i) as [|m t] eqn:E; [contradiction|].
  assert (I : In m (at_index ms i)) by (rewrite E; left; reflexivity). apply filter_In in I. destruct I as [I J]. apply Z.eqb_eq in J.
  apply in_split in I. destruct I as (l & r & ->). eauto.
Qed.
Lemma at_index_none : forall ms j, at_index ms j = [] -> Forall (fun x => index x <> j) ms.
Proof.
  intros ms j H. apply Forall_forall. intros x I E. assert (J : In x (at_index ms j)) by (apply filter_In; split; [exact I|apply Z.eqb_eq, E]).
  rewrite H in J. destruct J.
Qed.
Lemma sorted_snoc : forall (R : Z -> Z -> Prop) l x, StronglySorted R l -> Forall (fun y => R y x) l -> StronglySorted R (l ++ [x]).
Proof.
  induction l as [|y l IH]; intros x S F; cbn.
  - repeat constructor.
  - inversion S; subst. inversion F; subst. constructor; [auto|]. apply Forall_app. split; [assumption|]. repeat constructor. assumption.
Qed.
Lemma sorted_weaken : forall (R Q : Z -> Z -> Prop) l, (forall i j, R i j -> Q i j) -> StronglySorted R l -> StronglySorted Q l.
Proof.
  intros R Q l H S. induction S; constructor; [assumption|]. eapply Forall_impl; [|eassumption]. intros; apply H; assumption.
Qed.
Lemma occupy_sorted : forall ms o m, keeps ms o -> StronglySorted (before ms) (map fst o) ->
  StronglySorted (before (ms ++ [m])) (map fst (occupy o m)).
Proof.
  intros ms o m K S. assert (S' : StronglySorted (before (ms ++ [m])) (map fst o)).
  { eapply sorted_weaken; [|exact S]. intros. apply before_app. assumption. }
  assert (G : forall v, StronglySorted (before (ms ++ [m])) (map fst (dset Z.eqb o (index m) v))).
  { intros v. rewrite dset_fst. destruct (existsb (Z.eqb (index m)) (map fst o)) eqn:E; [exact S'|].
    apply sorted_snoc; [exact S'|]. apply Forall_forall. intros i I.
    assert (N : dget Z.eqb o (index m) = None).
    { apply (dget_none Z.eqb zeqb_eq). intro J. assert (X : existsb (Z.eqb (index m)) (map fst o) = true).
      { apply existsb_exists. exists (index m). split; [exact J|apply Z.eqb_refl]. } congruence. }
    pose proof (K (index m)) as Km. rewrite N in Km.
    pose proof (K i) as Ki. destruct (dget Z.eqb o i) as [[c x]|] eqn:D.
    - destruct Ki as (l & A & _). destruct (at_index_split ms i) as (p & y & r & -> & Y).
      + rewrite A. destruct l; discriminate.
      + exists p, y, (r ++ [m]). split; [rewrite <- app_assoc; reflexivity|]. split; [exact Y|].
        apply at_index_none in Km. change (y :: r) with ([y] ++ r) in Km. rewrite app_assoc in Km. apply Forall_app in Km. apply Km.
    - apply (dget_none Z.eqb zeqb_eq) in D. contradiction. }
  unfold occupy. destruct (dget Z.eqb o (index m)) as [[c x]|]; apply G.
Qed.
Lemma after_snoc : forall ms m, after (ms ++ [m]) = occupy (after ms) m.
Proof. intros. unfold after. rewrite fold_left_app. reflexivity. Qed.
Lemma after_keeps : forall ms, keeps ms (after ms) /\ StronglySorted (before ms) (map fst (after ms)).
Proof.
  intros ms. induction ms as [|m ms IH] using rev_ind.
  - split; [intro i; reflexivity|constructor].
  - rewrite after_snoc. destruct IH as [A B]. split; [apply keeps_occupy, A|apply occupy_sorted; assumption].
Qed.
Lemma before_irrefl : forall ms i, ~ before ms i i.
Proof.
  intros ms i (l & m & r & _ & E & F). apply Forall_app in F. destruct F as [_ F]. inversion F; subst. contradiction.
Qed.
Lemma sorted_nodup : forall ms l, StronglySorted (before ms) l -> NoDup l.
Proof.
  intros ms l S. induction S as [|i l S IH F]; constructor; [|exact IH]. intro I. rewrite Forall_forall in F. apply F in I. eapply before_irrefl, I.
Qed.
Lemma after_in : forall ms i c m, In (i, (c, m)) (after ms) <-> exists l, at_index ms i = l ++ [m] /\ c = Z.of_nat (length l).
Proof.
  intros ms i c m. destruct (after_keeps ms) as [K S]. apply sorted_nodup in S.
  rewrite <- (dget_in Z.eqb zeqb_eq) by exact S. specialize (K i).
  destruct (dget Z.eqb (after ms) i) as [[d n]|] eqn:E.
  - destruct K as (l & A & ->). split.
    + intros H. injection H as <- <-. eauto.
    + intros (k & B & ->). rewrite A in B. apply app_inj_tail in B. destruct B as [-> ->]. reflexivity.
  - split; [intro H; discriminate H|]. intros (l & B & _). rewrite K in B. destruct l; discriminate B.
Qed.
Lemma overwritten_in : forall ms w, In w (overwritten (after ms)) <-> clash ms w.
Proof.
  intros ms w. unfold overwritten. rewrite in_flat_map. split.
  - intros ([i [c m]] & I & J). cbn in J. destruct (Z.ltb 0 c) eqn:E; [|destruct J]. destruct J as [<-|[]].
    apply after_in in I. destruct I as (l & A & ->). apply Z.ltb_lt in E. econstructor; [exact A| | |].
    + intros ->. cbn in E. lia.
    + unfold side_name. destruct (from m); reflexivity.
    + unfold side_name. destruct (to m); reflexivity.
  - intros [i l m f t A N F T]. exists (i, (Z.of_nat (length l), m)). split; [apply after_in; eauto|]. cbn.
    assert (E : Z.ltb 0 (Z.of_nat (length l)) = true) by (apply Z.ltb_lt; destruct l; [contradiction|cbn; lia]).
    rewrite E. left. f_equal.
    + unfold side_name in F. destruct (from m); subst; reflexivity.
    + unfold side_name in T. destruct (to m); subst; reflexivity.
Qed.
Lemma overwritten_sorted : forall ms, exists is, map warned_index (overwritten (after ms)) = map Some is /\ StronglySorted (before ms) is.
Proof.
  intros ms. destruct (after_keeps ms) as [_ S]. revert S. generalize (after ms). intros o S.
  exists (flat_map (fun e => if Z.ltb 0 (fst (snd e)) then [fst e] else []) o). split.
  - induction o as [|[i [c m]] o IH]; [reflexivity|]. inversion S; subst. unfold overwritten in *. cbn [flat_map fst snd]. rewrite !map_app, IH by assumption.
    destruct (Z.ltb 0 c); reflexivity.
  - induction o as [|[i [c m]] o IH]; [constructor|]. cbn in S. inversion S as [|? ? S' F]; subst. cbn.
    destruct (Z.ltb 0 c); cbn; [|auto]. constructor; [auto|]. apply Forall_forall. intros j J. rewrite Forall_forall in F.
    apply F. apply in_flat_map in J. destruct J as ([k [d x]] & I & J). cbn in J. destruct (Z.ltb 0 d); [|destruct J]. destruct J as [<-|[]].
    apply in_map_iff. exists (k, (d, x)). auto.
Qed.
Lemma at_index_cons : forall m ms i, at_index (m :: ms) i = if Z.eqb (index m) i then m :: at_index ms i else at_index ms i.
Proof. reflexivity. Qed.
Lemma nothing_overwritten : forall ms, overwritten (after ms) = [] <-> NoDup (map index ms).
Proof.
  intros ms. split.
  - intros H. assert (U : forall i, length (at_index ms i) <= 1).
    { intros i. destruct (at_index ms i) as [|a [|b t]] eqn:E; cbn; try lia. exfalso.
      destruct (@exists_last _ (a :: b :: t) ltac:(discriminate)) as (l & m & L). rewrite L in E.
      assert (C : clash ms (Overwritten i (Z.of_nat (length l)) (option_map m_name (from m)) (option_map m_name (to m)))).
      { econstructor; [exact E| | |]; [intros ->; discriminate L| |]; unfold side_name; [destruct (from m)|destruct (to m)]; reflexivity. }
      apply overwritten_in in C. rewrite H in C. destruct C. }
    induction ms as [|m ms IH]; cbn; constructor.
    + intro I. apply in_map_iff in I. destruct I as (x & E & I). specialize (U (index m)). rewrite at_index_cons, Z.eqb_refl in U. cbn in U.
      assert (J : In x (at_index ms (index m))) by (apply filter_In; split; [exact I|apply Z.eqb_eq, E]).
      destruct (at_index ms (index m)); [destruct J|cbn in U; lia].
    + assert (V : forall i, length (at_index ms i) <= 1).
      { intros i. specialize (U i). rewrite at_index_cons in U. destruct (Z.eqb (index m) i); cbn [length] in U; lia. }
      apply IH; [|exact V]. destruct (overwritten (after ms)) as [|w ws] eqn:E; [reflexivity|]. exfalso.
      assert (C : clash ms w) by (apply overwritten_in; rewrite E; left; reflexivity).
      destruct C as [i l x f t A N _ _]. specialize (V i). rewrite A, app_length in V. cbn in V. destruct l; [contradiction|cbn in V; lia].
  - intros N. destruct (overwritten (after ms)) as [|w ws] eqn:E; [reflexivity|]. exfalso.
    assert (C : clash ms w) by (apply overwritten_in; rewrite E; left; reflexivity).
    destruct C as [i l x f t A L _ _]. clear E. assert (Q : length (at_index ms i) >= 2) by (rewrite A, app_length; destruct l; [contradiction|cbn; lia]).
    clear A L. induction ms as [|m ms IH]; [cbn in Q; lia|]. inversion N as [|? ? N1 N2]; subst. rewrite at_index_cons in Q. destruct (Z.eqb (index m) i) eqn:F.
    + cbn in Q. apply Z.eqb_eq in F. destruct (at_index ms i) as [|y t'] eqn:G; [cbn in Q; lia|].
      assert (J : In y (at_index ms i)) by (rewrite G; left; reflexivity). apply filter_In in J. destruct J as [J1 J2]. apply Z.eqb_eq in J2.
      apply N1. apply in_map_iff. exists y. split; [congruence|exact J1].
    + apply IH; assumption.
Qed.
Lemma map_result_ok : forall {A B} (g : A -> result B) l xs, map_result g l = Ok xs <-> Forall2 (fun a x => g a = Ok x) l xs.
Proof.
  intros A B g. induction l as [|a l IH]; intros xs; cbn.
  - split; intro H; [injection H as <-; constructor|inversion H; reflexivity].
  - split.
    + destruct (g a) as [x|] eqn:E; [|discriminate]. cbn. destruct (map_result g l) as [ys|] eqn:F; [|discriminate]. cbn. intro H. injection H as <-.
      constructor; [exact E|apply IH, eq_refl].
    + intro H. inversion H as [|? x ? ys E F]; subst. rewrite E. cbn. apply IH in F. rewrite F. reflexivity.
Qed.
Lemma map_result_err : forall {A B} (g : A -> result B) l e, map_result g l = Err e -> exists a, In a l /\ g a = Err e.
Proof.
  intros A B g. induction l as [|a l IH]; intros e; cbn; [discriminate|].
  destruct (g a) as [x|] eqn:E; cbn.
  - destruct (map_result g l) as [ys|] eqn:F; cbn; [discriminate|]. intro H. injection H as <-. destruct (IH _ eq_refl) as (b & I & J). eauto.
  - intro H. injection H as <-. eauto.
Qed.

Lemma ensure_ok : forall W md ms ws, md = MStrict \/ md = MPedantic -> ensure_mappers W md (Some ms) = Ok ws ->
  exists xs os is, ws = List.concat (map (fun x => match x with Some y => y | None => [] end) xs) ++ os /\
    Forall2 (fun m x => check_pair W (from m) (to m) = Ok x) ms xs /\
    (forall w, In w os <-> clash ms w) /\ map warned_index os = map Some is /\ StronglySorted (before ms) is.
Proof.
  intros W md ms ws M H. rewrite ensure_spec in H by exact M.
  destruct (map_result _ ms) as [xs|] eqn:E; [|discriminate H]. injection H as <-. apply map_result_ok in E.
  destruct (overwritten_sorted ms) as (is & A & B). exists xs, (overwritten (after ms)), is.
  rewrite <- flat_map_concat_map. split; [reflexivity|]. split; [exact E|]. split; [apply overwritten_in|]. auto.
Qed.
Lemma ensure_raises : forall W md ms e, md = MStrict \/ md = MPedantic ->
  (ensure_mappers W md (Some ms) = Err e <-> e = KeyError /\ Exists (fun m => stumbles W (from m) (to m)) ms).
Proof.
  intros W md ms e M. rewrite ensure_spec by exact M. split.
  - destruct (map_result _ ms) as [xs|x] eqn:E; [discriminate|]. intro H. injection H as <-. apply map_result_err in E.
    destruct E as (m & I & E). apply check_raises in E. destruct E as [-> E]. split; [reflexivity|]. apply Exists_exists. eauto.
  - intros [-> X]. destruct (map_result _ ms) as [xs|x] eqn:E.
    + exfalso. apply map_result_ok in E. induction E as [|m x ms xs E F IH]; inversion X; subst.
      * assert (C : check_pair W (from m) (to m) = Err KeyError) by (apply check_raises; auto). congruence.
      * auto.
    + f_equal. apply map_result_err in E. destruct E as (m & I & E). apply check_raises in E. apply E.
Qed.
Lemma ensure_silent : forall W md ms, md = MStrict \/ md = MPedantic ->
  (ensure_mappers W md (Some ms) = Ok [] <-> NoDup (map index ms) /\ Forall (fun m => fine W (from m) (to m)) ms).
Proof.
  intros W md ms M. rewrite ensure_spec by exact M. split.
  - destruct (map_result _ ms) as [xs|] eqn:E; [|discriminate]. intro H. injection H as H. apply app_eq_nil in H. destruct H as [H K].
    split; [apply nothing_overwritten, K|]. clear K. apply map_result_ok in E. induction E as [|m x ms xs E F IH]; [constructor|].
    cbn in H. apply app_eq_nil in H. destruct H as [H K]. constructor; [|auto]. apply check_fine. destruct x as [y|]; [|exact E].
    subst y. exfalso. revert E. apply check_cases.
    + intros ns _ N E. destruct ns; [contradiction|discriminate E].
    + intros _ _ E. discriminate E.
    + intros a b _ _ _ _. split; [intros _ E; discriminate E|]. split; [intros _ E; discriminate E|]. split; [intros _ _ _ E; discriminate E|].
      intros _ _ _. destruct (dget _ _ (m_name a)); [|intro E; discriminate E]. destruct (dget _ _ (m_name b)); [|intro E; discriminate E].
      intro E. apply check_entities_ok in E. destruct E as [_ (r & E & _)]. discriminate E.
  - intros [N F]. apply nothing_overwritten in N. rewrite N.
    assert (E : map_result (fun m => check_pair W (from m) (to m)) ms = Ok (map (fun _ => None) ms)).
    { apply map_result_ok. clear N. induction F as [|m ms E F IH]; cbn; constructor; [apply check_fine, E|exact IH]. }
    rewrite E. assert (Z : flat_map (fun x : option (list warning) => match x with Some y => y | None => [] end) (map (fun _ : mapper => None) ms) = []).
    { clear. induction ms; [reflexivity|exact IHms]. }
    rewrite Z. reflexivity.
Qed.
