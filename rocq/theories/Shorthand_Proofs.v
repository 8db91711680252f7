(** Proofs about short forms. *)
From Coq Require Import ZArith NArith String List Bool Lia.
From Verif Require Version_Model Version_Proofs.
From Verif Require Import Common Assign_Model Shorthand_Model Shorthand_Spec.
Import ListNotations.
Local Open Scope string_scope.
Local Open Scope list_scope.
Local Open Scope Z_scope.

(** ** Numbering *)
Lemma entrywise_cons : forall (R : nat -> py -> py -> Prop) x y a b,
  R 0%nat x y -> entrywise (fun i => R (S i)) a b -> entrywise R (x :: a) (y :: b).
Proof.
  intros R x y a b H [L F]. split; [cbn; lia|]. intros [|i] z E; cbn in E |- *.
  - injection E as <-. eauto.
  - apply F; exact E.
Qed.
Lemma entrywise_nil : forall R, entrywise R [] [].
Proof. intros R. split; [reflexivity|]. intros [|i] x E; discriminate. Qed.
Lemma entrywise_impl : forall (R Q : nat -> py -> py -> Prop) a b,
  (forall i x y, R i x y -> Q i x y) -> entrywise R a b -> entrywise Q a b.
Proof. intros R Q a b H [L F]. split; [exact L|]. intros i x E. destruct (F i x E) as (y & Y & Z). eauto. Qed.
Lemma numbered_at : forall entry (R : nat -> py -> py -> Prop),
  (forall i s, R i (PStr s) (entry (Z.of_nat i + 1) s)) ->
  (forall i e, (forall s, e <> PStr s) -> R i e e) ->
  forall l k, entrywise (fun i => R (k + i)%nat) l (numbered entry (Z.of_nat k) l).
Proof.
  intros entry R A B l; induction l as [|e l IH]; intros k; [apply entrywise_nil|].
  assert (T : entrywise (fun i => R (k + S i)%nat) l (numbered entry (Z.of_nat k + 1) l)).
  { specialize (IH (S k)). replace (Z.of_nat (S k)) with (Z.of_nat k + 1) in IH by lia.
    eapply entrywise_impl; [|exact IH]. cbn. intros i x y H. replace (k + S i)%nat with (S (k + i)) by lia. exact H. }
  destruct e; cbn [numbered]; apply entrywise_cons; try exact T; rewrite Nat.add_0_r; try apply A; apply B; discriminate.
Qed.
Theorem filters_at : forall v l, v = PList l \/ v = PTuple l ->
  exists l', normalize_filters v = PList l' /\ entrywise named_at l l'.
Proof.
  intros v l [-> | ->]; (exists (numbered name_entry 0 l); split; [reflexivity|]);
    apply (numbered_at name_entry named_at) with (k := 0%nat); intros; constructor; assumption.
Qed.
Theorem filters_other : forall v, (forall l, v <> PList l) -> (forall l, v <> PTuple l) -> normalize_filters v = v.
Proof. intros [] A B; try reflexivity; [exfalso; eapply A; reflexivity|exfalso; eapply B; reflexivity]. Qed.
Theorem blueprint_icons_at : forall v l, v = PList l \/ v = PTuple l ->
  exists l', normalize_blueprint_icons v = PList l' /\ entrywise icon_at l l'.
Proof.
  intros v l [-> | ->]; (exists (numbered icon_entry 0 l); split; [reflexivity|]);
    apply (numbered_at icon_entry icon_at) with (k := 0%nat); intros; constructor; assumption.
Qed.
Theorem blueprint_icons_other : forall v, (forall l, v <> PList l) -> (forall l, v <> PTuple l) -> normalize_blueprint_icons v = v.
Proof. intros [] A B; try reflexivity; [exfalso; eapply A; reflexivity|exfalso; eapply B; reflexivity]. Qed.
(** The priorities agree with the filters but for strings and dicts. *)
Theorem priorities_filters : forall v, normalize_priorities v = normalize_filters v <->
  (forall s, v <> PStr s) /\ (forall d, v <> PDict d).
Proof.
  intros v; split.
  - intros H; split; intros x ->; cbn in H; discriminate.
  - intros [A B]. destruct v; try reflexivity; [exfalso; eapply A; reflexivity|exfalso; eapply B; reflexivity].
Qed.
Theorem priorities_text_refuted : forall s,
  exists l', normalize_priorities (PStr s) = PList l' /\ List.length l' = List.length s /\
  forall i c, nth_error s i = Some c ->
    nth_error l' i = Some (PDict [(str "index", PInt (Z.of_nat i + 1)); (str "name", PStr [c])]).
Proof.
  intros s. exists (numbered name_entry 0 (chars s)). split; [reflexivity|].
  destruct (numbered_at name_entry named_at ltac:(intros; constructor) ltac:(intros; constructor; assumption) (chars s) 0) as [L F].
  change (Z.of_nat 0) with 0 in L, F. split; [rewrite <- L; unfold chars; rewrite map_length; reflexivity|].
  intros i c E. destruct (F i (PStr [c])) as (y & Y & H).
  - unfold chars. apply map_nth_error with (f := fun c => PStr [c]) in E. exact E.
  - rewrite Y. cbn [Nat.add] in H. inversion H; subst; [reflexivity|]. exfalso; eapply H0; reflexivity.
Qed.

(** ** Once is enough *)
Lemma numbered_idem : forall entry, (forall i s t, entry i s <> PStr t) ->
  forall l i j, numbered entry j (numbered entry i l) = numbered entry i l.
Proof.
  intros entry N l; induction l as [|e l IH]; intros i j; [reflexivity|].
  destruct e; cbn [numbered]; try (rewrite IH; reflexivity).
  destruct (entry (i + 1) s) eqn:E; try (rewrite IH; reflexivity). exfalso; eapply N; exact E.
Qed.
Theorem filters_idem : forall v, normalize_filters (normalize_filters v) = normalize_filters v.
Proof.
  intros []; try reflexivity; unfold normalize_filters; cbn [list_or_tuple];
    rewrite numbered_idem; try reflexivity; discriminate.
Qed.
Theorem priorities_idem : forall v, normalize_priorities (normalize_priorities v) = normalize_priorities v.
Proof.
  intros []; try reflexivity; unfold normalize_priorities; cbn [iterate];
    rewrite numbered_idem; try reflexivity; discriminate.
Qed.
Theorem blueprint_icons_idem : forall v, normalize_blueprint_icons (normalize_blueprint_icons v) = normalize_blueprint_icons v.
Proof.
  intros []; try reflexivity; unfold normalize_blueprint_icons; cbn [list_or_tuple];
    rewrite numbered_idem; try reflexivity; discriminate.
Qed.

(** ** Icons of planners *)
Lemma has_key_in : forall k d, has_key k d = true <-> exists v, In (k, v) d.
Proof.
  intros k d. unfold has_key. rewrite existsb_exists. split.
  - intros ([k' v] & I & E). apply pystr_eqb_eq in E. cbn in E. subst k'. eauto.
  - intros [v I]. exists (k, v). split; [exact I|apply pystr_eqb_refl].
Qed.
Lemma typed_key : forall d, typed (PDict d) <-> has_key (str "type") d = true.
Proof.
  intros d. rewrite has_key_in. split; [intros (d' & v & E & I); injection E as <-; eauto|intros [v I]; exists d, v; auto].
Qed.
Lemma planner_entry : forall sd e i,
  (exists y, (match e with
      | PStr s => match sd s with Some d => Ok (PDict [(str "index", PInt (Z.of_nat i + 1)); (str "signal", d)]) | None => Err DraftsmanError end
      | PDict d => Ok (if has_key (str "type") d then PDict [(str "index", PInt (Z.of_nat i + 1)); (str "signal", e)] else e)
      | _ => Ok e end) = Ok y /\ planner_icon_at sd i e y)
  \/ (match e with
      | PStr s => match sd s with Some d => Ok (PDict [(str "index", PInt (Z.of_nat i + 1)); (str "signal", d)]) | None => Err DraftsmanError end
      | PDict d => Ok (if has_key (str "type") d then PDict [(str "index", PInt (Z.of_nat i + 1)); (str "signal", e)] else e)
      | _ => Ok e end) = Err DraftsmanError /\ exists s, e = PStr s /\ sd s = None.
Proof.
  intros sd e i.
  assert (O : forall e, (forall s, e <> PStr s) -> (forall d, e <> PDict d) -> planner_icon_at sd i e e).
  { intros x A B. apply pia_other; [exact A|]. intros (d & v & -> & _). eapply B; reflexivity. }
  destruct e; try (left; eexists; split; [reflexivity|apply O; discriminate]).
  - destruct (sd s) as [d|] eqn:E.
    + left. eexists. split; [reflexivity|constructor; exact E].
    + right. split; [reflexivity|eauto].
  - left. destruct (has_key (str "type") d) eqn:K.
    + eexists. split; [reflexivity|]. apply pia_typed. apply typed_key; exact K.
    + eexists. split; [reflexivity|]. apply pia_other; [discriminate|]. rewrite typed_key, K. discriminate.
Qed.
Lemma planner_icons_at : forall sd l k,
  match planner_icons sd (Z.of_nat k) l with
  | Ok l' => entrywise (fun i => planner_icon_at sd (k + i)) l l'
  | Err x => x = DraftsmanError /\ exists s, In (PStr s) l /\ sd s = None
  end.
Proof.
  intros sd l; induction l as [|e l IH]; intros k; [apply entrywise_nil|].
  cbn [planner_icons]. specialize (IH (S k)). replace (Z.of_nat (S k)) with (Z.of_nat k + 1) in IH by lia.
  destruct (planner_entry sd e k) as [(y & -> & H)|(-> & s & -> & N)].
  - cbn [bind]. destruct (planner_icons sd (Z.of_nat k + 1) l) as [r|x]; cbn [bind].
    + apply entrywise_cons; [rewrite Nat.add_0_r; exact H|].
      eapply entrywise_impl; [|exact IH]. intros i a b G. replace (k + S i)%nat with (S k + i)%nat by lia. exact G.
    + destruct IH as [-> (s & I & N)]. split; [reflexivity|]. exists s. split; [right; exact I|exact N].
  - cbn. split; [reflexivity|]. exists s. split; [left; reflexivity|exact N].
Qed.
Theorem planner_icons_spec : forall sd v l, v = PList l \/ v = PTuple l ->
  match normalize_planner_icons sd v with
  | Ok w => exists l', w = PList l' /\ entrywise (planner_icon_at sd) l l'
  | Err x => x = DraftsmanError /\ exists s, In (PStr s) l /\ sd s = None
  end.
Proof.
  intros sd v l H. assert (E : normalize_planner_icons sd v = (let* r := planner_icons sd 0 l in Ok (PList r))) by (destruct H as [-> | ->]; reflexivity).
  rewrite E. pose proof (planner_icons_at sd l 0) as P. change (Z.of_nat 0) with 0 in P.
  destruct (planner_icons sd 0 l) as [l'|x]; cbn [bind]; [|exact P]. exists l'. split; [reflexivity|exact P].
Qed.
Theorem planner_icons_other : forall sd v, (forall l, v <> PList l) -> (forall l, v <> PTuple l) -> normalize_planner_icons sd v = Ok v.
Proof. intros sd [] A B; try reflexivity; [exfalso; eapply A; reflexivity|exfalso; eapply B; reflexivity]. Qed.
Lemma entrywise_nth : forall R a b i, entrywise R a b -> nth_error a i = None -> nth_error b i = None.
Proof. intros R a b i [L _] H. apply nth_error_None in H. apply nth_error_None. lia. Qed.
Lemma planner_no_strings : forall sd i x y, planner_icon_at sd i x y -> (forall s, y <> PStr s) /\ ~ typed y.
Proof.
  intros sd i x y H. inversion H; subst.
  - split; [discriminate|]. rewrite typed_key. cbn. discriminate.
  - split; [discriminate|]. rewrite typed_key. cbn. discriminate.
  - auto.
Qed.
Lemma planner_fixed : forall sd l k, (forall e, In e l -> (forall s, e <> PStr s) /\ ~ typed e) -> planner_icons sd k l = Ok l.
Proof.
  intros sd l; induction l as [|e l IH]; intros k H; [reflexivity|]. cbn [planner_icons].
  rewrite IH by (intros x I; apply H; right; exact I).
  destruct (H e (or_introl eq_refl)) as [A B].
  destruct e; try reflexivity; [exfalso; eapply A; reflexivity|].
  destruct (has_key (str "type") d) eqn:K; [exfalso; apply B; apply typed_key; exact K|reflexivity].
Qed.
Theorem planner_icons_idem : forall sd v w, normalize_planner_icons sd v = Ok w -> normalize_planner_icons sd w = Ok w.
Proof.
  intros sd v w H.
  assert (C : (exists l, v = PList l \/ v = PTuple l) \/ ((forall l, v <> PList l) /\ (forall l, v <> PTuple l))).
  { destruct v; try (right; split; discriminate); left; eauto. }
  destruct C as [[l L]|[A B]].
  - pose proof (planner_icons_spec sd v l L) as P. rewrite H in P. destruct P as (l' & -> & E).
    cbn [normalize_planner_icons sequence]. rewrite planner_fixed; [reflexivity|].
    intros e I. apply In_nth_error in I as [i I]. destruct E as [Len F].
    destruct (nth_error l i) as [x|] eqn:X.
    + destruct (F i x X) as (y & Y & R). rewrite Y in I. injection I as ->. eapply planner_no_strings; exact R.
    + apply nth_error_None in X. assert (nth_error l' i <> None) by (rewrite I; discriminate).
      apply nth_error_Some in H0. lia.
  - rewrite planner_icons_other in H by assumption. injection H as <-. apply planner_icons_other; assumption.
Qed.

(** The icons of blueprints and planners are the same once finished, for names. *)
Lemma finish_named : forall sd i n, finish_icon sd (icon_entry i n) =
  match sd n with Some d => Ok (PDict [(str "signal", d); (str "index", PInt i)]) | None => Err DataFormatError end.
Proof. intros sd i n. cbn. destruct (sd n); reflexivity. Qed.
Lemma finish_planner : forall sd i d, (forall s, d <> PStr s) ->
  finish_icon sd (PDict [(str "index", PInt i); (str "signal", d)]) = Ok (PDict [(str "index", PInt i); (str "signal", d)]).
Proof. intros sd i d H. destruct d; try reflexivity. exfalso; eapply H; reflexivity. Qed.
Lemma icons_agree_from : forall sd names, (forall n d, sd n = Some d -> forall s, d <> PStr s) ->
  forall k, match planner_icons sd k (map PStr names) with
  | Ok a => exists a' b', finish_icons sd a = Ok a' /\ finish_icons sd (numbered icon_entry k (map PStr names)) = Ok b' /\ Forall2 same_fields a' b'
  | Err x => x = DraftsmanError /\ finish_icons sd (numbered icon_entry k (map PStr names)) = Err DataFormatError
  end.
Proof.
  intros sd names D. induction names as [|n names IH]; intros k.
  - cbn. exists [], []. split; [reflexivity|]. split; [reflexivity|constructor].
  - cbn [map planner_icons numbered finish_icons]. specialize (IH (k + 1)). rewrite finish_named.
    destruct (sd n) as [d|] eqn:N; cbn [bind]; [|split; reflexivity].
    destruct (planner_icons sd (k + 1) (map PStr names)) as [a|x]; cbn [bind].
    + destruct IH as (a' & b' & A & B & F). cbn [finish_icons].
      rewrite finish_planner by (eapply D; exact N). cbn [bind]. rewrite A, B. cbn [bind].
      eexists _, _. split; [reflexivity|]. split; [reflexivity|]. constructor; [|exact F]. cbn. tauto.
    + destruct IH as [-> E]. rewrite E. split; reflexivity.
Qed.
Theorem icons_agree : forall sd names,
  (forall n d, sd n = Some d -> forall s, d <> PStr s) ->
  match normalize_planner_icons sd (PList (map PStr names)), normalize_blueprint_icons (PList (map PStr names)) with
  | Ok (PList a), PList b =>
      exists a' b', finish_icons sd a = Ok a' /\ finish_icons sd b = Ok b' /\ Forall2 same_fields a' b'
  | Err x, PList b => x = DraftsmanError /\ finish_icons sd b = Err DataFormatError
  | _, _ => False
  end.
Proof.
  intros sd names D. pose proof (icons_agree_from sd names D 0) as H.
  cbn [normalize_planner_icons sequence]. unfold normalize_blueprint_icons; cbn [list_or_tuple].
  destruct (planner_icons sd 0 (map PStr names)); cbn [bind]; exact H.
Qed.
(** A signal as a dict is an icon for planners, and for blueprints it is not. *)
Theorem icons_dict_refuted : forall sd n t,
  let e := PDict [(str "name", n); (str "type", t)] in
  normalize_planner_icons sd (PList [e]) = Ok (PList [PDict [(str "index", PInt 1); (str "signal", e)]]) /\
  normalize_blueprint_icons (PList [e]) = PList [e].
Proof. intros; split; reflexivity. Qed.

(** ** Mappers *)
Lemma truthy_falsy : forall v, truthy v = false <-> falsy v.
Proof.
  intros v; split.
  - destruct v as [|[]|z|[]|[]|[]|[]|]; cbn; intros H; try discriminate; try constructor.
    apply negb_false_iff, Z.eqb_eq in H. subst. constructor.
  - intros []; reflexivity.
Qed.
Lemma side_spec : forall k v, side_is k v (side k v).
Proof.
  intros k v. unfold side. destruct (truthy v) eqn:T; constructor.
  - intros F. apply truthy_falsy in F. congruence.
  - apply truthy_falsy; exact T.
Qed.
Lemma sequence_elements : forall v, match sequence v with Some l => elements v l | None => forall l, ~ elements v l end.
Proof. intros []; cbn; try constructor; intros l H; inversion H. Qed.
Lemma elements_fun : forall v a b, elements v a -> elements v b -> a = b.
Proof. intros v a b H G. inversion H; subst; inversion G; subst; reflexivity. Qed.
Lemma mappers_at : forall l k,
  match mappers (Z.of_nat k) l with
  | Some l' => entrywise (fun i => mapper_at (k + i)) l l' /\ Forall (fun m => ~ short m) l
  | None => Exists short l
  end.
Proof.
  intros l; induction l as [|m l IH]; intros k; [split; [apply entrywise_nil|constructor]|].
  cbn [mappers]. specialize (IH (S k)). replace (Z.of_nat (S k)) with (Z.of_nat k + 1) in IH by lia.
  pose proof (sequence_elements m) as Q.
  assert (T : forall e r, mapper_at k m e -> ~ short m ->
      entrywise (fun i => mapper_at (S k + i)) l r /\ Forall (fun m => ~ short m) l ->
      entrywise (fun i => mapper_at (k + i)) (m :: l) (e :: r) /\ Forall (fun m => ~ short m) (m :: l)).
  { intros e r M NS [E F]. split; [|constructor; assumption].
    apply entrywise_cons; [rewrite Nat.add_0_r; exact M|]. eapply entrywise_impl; [|exact E].
    intros i x y H. replace (k + S i)%nat with (S k + i)%nat by lia. exact H. }
  destruct (sequence m) as [[|a [|b rest]]|].
  - apply Exists_cons_hd. exists []. split; [exact Q|cbn; lia].
  - apply Exists_cons_hd. exists [a]. split; [exact Q|cbn; lia].
  - destruct (mappers (Z.of_nat k + 1) l) as [r|]; [|apply Exists_cons_tl; exact IH].
    apply T; [|intros (l0 & E & L); rewrite (elements_fun _ _ _ E Q) in L; cbn in L; lia|exact IH].
    eapply ma_pair; [exact Q|apply side_spec|apply side_spec].
  - destruct (mappers (Z.of_nat k + 1) l) as [r|]; [|apply Exists_cons_tl; exact IH].
    apply T; [|intros (l0 & E & _); exact (Q l0 E)|exact IH]. apply ma_other; exact Q.
Qed.
Theorem mappers_spec : forall v l, v = PList l \/ v = PTuple l ->
  (Forall (fun m => ~ short m) l /\ exists l', normalize_mappers v = PList l' /\ entrywise mapper_at l l') \/
  (Exists short l /\ normalize_mappers v = v).
Proof.
  intros v l H. pose proof (mappers_at l 0) as P. change (Z.of_nat 0) with 0 in P.
  assert (E : normalize_mappers v = match mappers 0 l with Some r => PList r | None => v end) by (destruct H as [-> | ->]; reflexivity).
  rewrite E. destruct (mappers 0 l) as [l'|].
  - left. destruct P as [P F]. split; [exact F|]. exists l'. split; [reflexivity|exact P].
  - right. split; [exact P|reflexivity].
Qed.
(** Two letters are a pair. *)
Theorem mappers_text_refuted : forall a b s,
  normalize_mappers (PList [PStr (a :: b :: s)]) =
    PList [PDict [(str "index", PInt 0); (str "from", PStr [a]); (str "to", PStr [b])]].
Proof. reflexivity. Qed.
Lemma mappers_fixed : forall l k, (forall m, In m l -> forall q, ~ elements m q) -> mappers k l = Some l.
Proof.
  intros l; induction l as [|m l IH]; intros k H; [reflexivity|]. cbn [mappers].
  rewrite IH by (intros x I; apply H; right; exact I). pose proof (sequence_elements m) as Q.
  destruct (sequence m) as [q|]; [exfalso; exact (H m (or_introl eq_refl) q Q)|reflexivity].
Qed.
Lemma mapper_at_done : forall i x y, mapper_at i x y -> forall q, ~ elements y q.
Proof. intros i x y H q E. inversion H; subst; [inversion E|exact (H0 q E)]. Qed.
Theorem mappers_idem : forall v, normalize_mappers (normalize_mappers v) = normalize_mappers v.
Proof.
  assert (G : forall l k l', mappers (Z.of_nat k) l = Some l' -> forall j, mappers j l' = Some l').
  { intros l k l' E j. apply mappers_fixed. intros m I q. pose proof (mappers_at l k) as P. rewrite E in P. destruct P as [[L F] _].
    apply In_nth_error in I as [i I]. destruct (nth_error l i) as [x|] eqn:X.
    - destruct (F i x X) as (y & Y & M). rewrite Y in I. injection I as ->. eapply mapper_at_done; exact M.
    - apply nth_error_None in X. assert (N : nth_error l' i <> None) by (rewrite I; discriminate). apply nth_error_Some in N. lia. }
  intros v. unfold normalize_mappers at 2 3. destruct (iterate v) as [l|] eqn:I.
  - destruct (mappers 0 l) as [l'|] eqn:M.
    + unfold normalize_mappers; cbn [iterate]. rewrite (G l 0%nat l' M). reflexivity.
    + unfold normalize_mappers. rewrite I, M. reflexivity.
  - unfold normalize_mappers. rewrite I. reflexivity.
Qed.

(** ** Colours and conditions *)
Theorem color_spec : forall v,
  match normalize_color v with
  | Ok w => ((forall l, v <> PList l) /\ (forall l, v <> PTuple l) /\ w = v) \/
            exists l r g b rest, (v = PList l \/ v = PTuple l) /\ l = r :: g :: b :: rest /\
              exists d, w = PDict d /\
                forall k x, In (k, x) d <-> (k = str "r" /\ x = r) \/ (k = str "g" /\ x = g) \/ (k = str "b" /\ x = b) \/
                                         (k = str "a" /\ nth_error l 3 = Some x)
  | Err x => x = IndexError /\ exists l, (v = PList l \/ v = PTuple l) /\ (List.length l < 3)%nat
  end.
Proof.
  assert (O : forall l, match normalize_color (PList l) with
    | Ok w => exists r g b rest, l = r :: g :: b :: rest /\ exists d, w = PDict d /\
                forall k x, In (k, x) d <-> (k = str "r" /\ x = r) \/ (k = str "g" /\ x = g) \/ (k = str "b" /\ x = b) \/
                                         (k = str "a" /\ nth_error l 3 = Some x)
    | Err x => x = IndexError /\ (List.length l < 3)%nat end).
  { intros [|r [|g [|b rest]]]; unfold normalize_color; cbn [list_or_tuple]; try (split; [reflexivity|cbn; lia]).
    exists r, g, b, rest. split; [reflexivity|]. eexists. split; [reflexivity|]. intros k x.
    destruct rest as [|a rest]; cbn [app In nth_error].
    - split.
      + intros [E|[E|[E|[]]]]; injection E as <- <-; tauto.
      + intros [[-> ->]|[[-> ->]|[[-> ->]|[_ E]]]]; [tauto|tauto|tauto|discriminate].
    - split.
      + intros [E|[E|[E|[E|[]]]]]; injection E as <- <-; tauto.
      + intros [[-> ->]|[[-> ->]|[[-> ->]|[-> E]]]]; [tauto|tauto|tauto|injection E as ->; tauto]. }
  intros v. destruct v; try (left; split; [discriminate|split; [discriminate|reflexivity]]).
  - specialize (O l). destruct (normalize_color (PList l)) as [w|x].
    + right. destruct O as (r & g & b & rest & E & D). exists l, r, g, b, rest. split; [left; reflexivity|]. split; assumption.
    + destruct O as [-> L]. split; [reflexivity|]. exists l. split; [left; reflexivity|exact L].
  - specialize (O l). change (normalize_color (PTuple l)) with (normalize_color (PList l)). destruct (normalize_color (PList l)) as [w|x].
    + right. destruct O as (r & g & b & rest & E & D). exists l, r, g, b, rest. split; [right; reflexivity|]. split; assumption.
    + destruct O as [-> L]. split; [reflexivity|]. exists l. split; [right; reflexivity|exact L].
Qed.
Theorem color_idem : forall v w, normalize_color v = Ok w -> normalize_color w = Ok w.
Proof.
  intros v w H. destruct v; try (injection H as <-; reflexivity);
    destruct l as [|r [|g [|b rest]]]; try discriminate; injection H as <-; reflexivity.
Qed.
Lemma as_int_number : forall v, match as_int v with Some _ => number v | None => ~ number v end.
Proof.
  intros []; cbn; unfold number; try (intros [[? ?]|[? ?]]; discriminate); [right|left]; eauto.
Qed.
Theorem condition_spec : forall v,
  match normalize_condition v with
  | Ok w => ((forall l, ~ elements v l) /\ w = v) \/
            exists a c b rest k, elements v (a :: c :: b :: rest) /\
              w = PDict [(str "first_signal", a); (str "comparator", c); (k, b)] /\
              ((number b /\ k = str "constant") \/ (~ number b /\ k = str "second_signal"))
  | Err x => x = IndexError /\ exists l, elements v l /\ (List.length l < 3)%nat
  end.
Proof.
  intros v. unfold normalize_condition. pose proof (sequence_elements v) as Q.
  destruct (sequence v) as [[|a [|c [|b rest]]]|];
    try (split; [reflexivity|]; eexists; split; [exact Q|cbn; lia]).
  - right. pose proof (as_int_number b) as N. eexists a, c, b, rest, _. split; [exact Q|]. split; [reflexivity|].
    destruct (as_int b); [left|right]; split; auto.
  - left. split; [exact Q|reflexivity].
Qed.
Theorem condition_idem : forall v w, normalize_condition v = Ok w -> normalize_condition w = Ok w.
Proof.
  intros v w H. unfold normalize_condition in H. destruct (sequence v) as [[|a [|c [|b rest]]]|] eqn:E; try discriminate; injection H as <-.
  - reflexivity.
  - unfold normalize_condition. rewrite E. reflexivity.
Qed.
(** A string is a condition of its first letters. *)
Theorem condition_text_refuted : forall a b c s,
  normalize_condition (PStr (a :: b :: c :: s)) =
    Ok (PDict [(str "first_signal", PStr [a]); (str "comparator", PStr [b]); (str "second_signal", PStr [c])]).
Proof. reflexivity. Qed.

(** ** Versions *)
(** The three readings agree, except that one lets what it cannot read through. *)
Theorem versions_agree : forall l,
  version_deconstruction (PList l) = version_upgrade (PList l) /\
  version_deconstruction (PTuple l) = version_upgrade (PTuple l) /\
  (forall w, version_upgrade (PList l) = Ok w -> normalize_version (PList l) = w) /\
  (forall x, version_upgrade (PList l) = Err x -> x = TypeError /\ normalize_version (PList l) = PList l).
Proof.
  intros l. split; [reflexivity|]. split; [reflexivity|].
  unfold version_upgrade, normalize_version; cbn [sequence iterate].
  assert (T : forall x, encode_version l = Err x -> x = TypeError).
  { intros x. unfold encode_version. destruct (map as_int l) as [|[?|] [|[?|] [|[?|] [|[?|] [|]]]]]; congruence. }
  destruct (encode_version l) as [z|x]; cbn [bind].
  - split; [intros w E; injection E as <-; reflexivity|discriminate].
  - split; [discriminate|]. intros y E. injection E as <-. split; [apply T; reflexivity|reflexivity].
Qed.
Theorem version_parts : forall v l a b c d,
  v = PList l \/ v = PTuple l ->
  l = [PInt a; PInt b; PInt c; PInt d] \/ (l = [PInt a; PInt b; PInt c] /\ d = 0) \/ (l = [PInt a; PInt b] /\ c = 0 /\ d = 0) ->
  0 <= b < 65536 -> 0 <= c < 65536 -> 0 <= d < 65536 ->
  version_upgrade v = Ok (PInt (a * 2 ^ 48 + b * 2 ^ 32 + c * 2 ^ 16 + d)).
Proof.
  intros v l a b c d V L B C D. rewrite <- (Version_Proofs.encode_arith a b c d) by assumption.
  assert (E : version_upgrade v = (let* z := encode_version l in Ok (PInt z))) by (destruct V as [-> | ->]; reflexivity).
  rewrite E. unfold Version_Model.encode_version.
  destruct L as [->|[[-> ->]|[-> [-> ->]]]]; unfold encode_version; cbn [map as_int bind]; [reflexivity| |].
  - rewrite Z.lor_0_r. reflexivity.
  - rewrite Z.shiftl_0_l, !Z.lor_0_r. reflexivity.
Qed.
(** A string is taken apart by one of the three and then refused, and the others keep it. *)
Theorem version_text_refuted : forall s,
  version_upgrade (PStr s) = Err TypeError /\
  version_deconstruction (PStr s) = Ok (PStr s) /\
  normalize_version (PStr s) = PStr s.
Proof.
  assert (E : forall s, encode_version (chars s) = Err TypeError) by (intros [|a [|b [|c [|d [|]]]]]; reflexivity).
  intros s. unfold version_upgrade, version_deconstruction, normalize_version; cbn [sequence iterate list_or_tuple].
  rewrite E. split; [reflexivity|]. split; reflexivity.
Qed.
Theorem version_idem : forall v w, version_upgrade v = Ok w -> version_upgrade w = Ok w.
Proof.
  intros v w H. unfold version_upgrade in H. destruct (sequence v) as [l|] eqn:E.
  - destruct (encode_version l); [|discriminate]. injection H as <-. reflexivity.
  - injection H as <-. unfold version_upgrade. rewrite E. reflexivity.
Qed.

(** ** Filters of sections *)
Lemma unhashable_spec : forall v, hashable v = false <-> unhashable v.
Proof.
  fix IH 1. intros v. destruct v; cbn [hashable]; try (split; [discriminate|intros H; inversion H]).
  - split; [constructor|reflexivity].
  - split.
    + intros H. constructor. induction l as [|e l IL]; cbn [forallb] in H; [discriminate|].
      apply andb_false_iff in H as [H|H]; [apply Exists_cons_hd; apply IH; exact H|apply Exists_cons_tl; apply IL; exact H].
    + intros H. assert (X : Exists unhashable l) by (inversion H; assumption). clear H.
      induction l as [|e l IL]; [inversion X|]. cbn [forallb]. apply andb_false_iff.
      inversion X; subst; [left; apply IH; assumption|right; apply IL; assumption].
  - split; [constructor|reflexivity].
Qed.
Lemma filter_of_spec : forall to i t,
  match filter_of to (Z.of_nat i + 1) t with
  | Ok e => section_at to i (PTuple t) e
  | Err x => bad_filter to t x
  end.
Proof.
  intros to i [|n rest]; [constructor|]. unfold filter_of, get_signal_types.
  destruct (hashable n) eqn:H; [|cbn [bind]; apply bf_list; apply unhashable_spec; exact H].
  assert (H' : ~ unhashable n) by (intros U; apply unhashable_spec in U; congruence).
  destruct n; try (cbn [bind]; apply bf_other; [exact H'|discriminate]).
  destruct (to s) as [ts|] eqn:T; cbn [bind]; [|apply bf_unknown; exact T].
  destruct (existsb (pystr_eqb (str "item")) ts) eqn:E.
  - assert (N : ts <> []) by (intros ->; discriminate). cbn [bind].
    destruct rest as [|c rest]; [eapply bf_short; [exact T|exact N]|].
    eapply sa_tuple; [exact T|rewrite E; reflexivity|exact N].
  - destruct ts as [|t ts]; cbn [bind]; [apply bf_untyped; exact T|].
    destruct rest as [|c rest]; [eapply bf_short; [exact T|discriminate]|].
    eapply sa_tuple; [exact T|rewrite E; reflexivity|discriminate].
Qed.
Lemma section_filters_at : forall to l k, let (l', x) := section_filters to (Z.of_nat k) l in
  exists n, entrywise (fun i => section_at to (k + i)) (firstn n l) (firstn n l') /\ skipn n l' = skipn n l /\
    match x with
    | None => n = List.length l
    | Some e => exists t, nth_error l n = Some (PTuple t) /\ bad_filter to t e
    end.
Proof.
  intros to l; induction l as [|e l IH]; intros k.
  - cbn. exists 0%nat. split; [apply entrywise_nil|]. split; reflexivity.
  - assert (C : forall e', section_at to k e e' ->
       let (l', x) := (let (r, x) := section_filters to (Z.of_nat k + 1) l in (e' :: r, x)) in
       exists n, entrywise (fun i => section_at to (k + i)) (firstn n (e :: l)) (firstn n l') /\ skipn n l' = skipn n (e :: l) /\
         match x with None => n = List.length (e :: l) | Some y => exists t, nth_error (e :: l) n = Some (PTuple t) /\ bad_filter to t y end).
    { intros e' H. specialize (IH (S k)). replace (Z.of_nat (S k)) with (Z.of_nat k + 1) in IH by lia.
      destruct (section_filters to (Z.of_nat k + 1) l) as [r x]. destruct IH as (n & A & B & D). exists (S n).
      cbn [firstn skipn nth_error List.length]. split; [|split; [exact B|destruct x; [exact D|congruence]]].
      apply entrywise_cons; [rewrite Nat.add_0_r; exact H|]. eapply entrywise_impl; [|exact A].
      intros i a b G. replace (k + S i)%nat with (S k + i)%nat by lia. exact G. }
    destruct e; cbn [section_filters]; try (apply C; apply sa_other; discriminate).
    pose proof (filter_of_spec to k l0) as F. destruct (filter_of to (Z.of_nat k + 1) l0) as [e'|x].
    + apply C; exact F.
    + exists 0%nat. split; [apply entrywise_nil|]. split; [reflexivity|]. exists l0. split; [reflexivity|exact F].
Qed.
Theorem section_filters_spec : forall to l, let (l', x) := section_filters to 0 l in
  exists n, entrywise (section_at to) (firstn n l) (firstn n l') /\ skipn n l' = skipn n l /\
    match x with
    | None => n = List.length l
    | Some e => exists t, nth_error l n = Some (PTuple t) /\ bad_filter to t e
    end.
Proof. intros to l. exact (section_filters_at to l 0). Qed.
Theorem section_filters_idem : forall to l i l', section_filters to i l = (l', None) ->
  forall j, section_filters to j l' = (l', None).
Proof.
  intros to l; induction l as [|e l IH]; intros i l' H j.
  - cbn in H. injection H as <-. reflexivity.
  - assert (C : forall e', (forall t, e' <> PTuple t) ->
        (let (r, x) := section_filters to (i + 1) l in (e' :: r, x)) = (l', None) -> section_filters to j l' = (l', None)).
    { intros e' N G. destruct (section_filters to (i + 1) l) as [r x] eqn:E. injection G as <- ->.
      specialize (IH _ _ E (j + 1)). destruct e'; cbn [section_filters]; try (rewrite IH; reflexivity).
      exfalso; eapply N; reflexivity. }
    destruct e; cbn [section_filters] in H; try (eapply C; [|exact H]; discriminate).
    destruct (filter_of to (i + 1) l0) as [e'|x] eqn:F; [|discriminate]. eapply C; [|exact H].
    intros t ->. unfold filter_of in F. destruct l0 as [|n rest]; [discriminate|].
    destruct (get_signal_types to n) as [ts|]; [|discriminate]. cbn [bind] in F.
    destruct (existsb (pystr_eqb (str "item")) ts); [cbn [bind] in F|destruct ts; cbn [bind] in F; [discriminate|]]; destruct rest; discriminate.
Qed.
(** The list given is changed: without its first entry it keeps the old numbers. *)
Theorem section_reused_refuted : forall to a b ca cb ta tb,
  to a = Some [ta] -> to b = Some [tb] ->
  let given := [PTuple [PStr a; ca]; PTuple [PStr b; cb]] in
  exists e1 e2,
    fst (section_filters to 0 (tl given)) = [e1] /\
    fst (section_filters to 0 (tl (fst (section_filters to 0 given)))) = [e2] /\
    section_at to 0 (PTuple [PStr b; cb]) e1 /\ section_at to 1 (PTuple [PStr b; cb]) e2 /\ e1 <> e2.
Proof.
  intros to a b ca cb ta tb A B given.
  pose proof (filter_of_spec to 0 [PStr a; ca]) as F1. pose proof (filter_of_spec to 0 [PStr b; cb]) as F2. pose proof (filter_of_spec to 1 [PStr b; cb]) as F3.
  change (Z.of_nat 0 + 1) with 1 in *. change (Z.of_nat 1 + 1) with 2 in *.
  assert (K : forall i s c t, to s = Some [t] -> filter_of to i [PStr s; c] =
     Ok (PDict [(str "index", PInt i); (str "name", PStr s); (str "type", PStr t); (str "comparator", PStr (str "=")); (str "count", c)])).
  { intros i s c t T. unfold filter_of, get_signal_types. cbn [hashable]. rewrite T. cbn [bind existsb].
    destruct (pystr_eqb (str "item") t) eqn:E; cbn [orb bind]; [|reflexivity]. apply pystr_eqb_eq in E. subst t. reflexivity. }
  rewrite (K 1 a ca ta A) in F1. rewrite (K 1 b cb tb B) in F2. rewrite (K 2 b cb tb B) in F3.
  unfold given. cbn [section_filters tl fst]. change (0 + 1) with 1. change (1 + 1) with 2.
  rewrite (K 1 a ca ta A), (K 1 b cb tb B), (K 2 b cb tb B). cbn [fst tl section_filters].
  eexists _, _. split; [reflexivity|]. split; [reflexivity|]. split; [exact F2|]. split; [exact F3|]. discriminate.
Qed.

(** ** Links *)
Lemma bit_testbit : forall z i, 0 <= i -> bit z i = Z.testbit z i.
Proof. intros z i I. unfold bit. rewrite Z.testbit_odd, Z.shiftr_div_pow2 by exact I. reflexivity. Qed.
Lemma lowest_mod : forall z, lowest_bits z = z mod 2 ^ 32.
Proof. intros z. unfold lowest_bits. apply Z.land_ones. lia. Qed.
Lemma lowest_bit : forall z i, 0 <= i < 32 -> Z.testbit (lowest_bits z) i = Z.testbit z i.
Proof. intros z i I. rewrite lowest_mod. apply Z.mod_pow2_bits_low. lia. Qed.
Lemma set_id_bit : forall s v i, 0 <= i < 32 ->
  Z.testbit (l_id (set_id s v)) i = match v with None => false | Some z => Z.testbit z i end.
Proof.
  intros s [z|] i I; cbn [set_id l_id]; [|apply Z.bits_0]. destruct (mode_bool (l_mode s)); [apply lowest_bit; exact I|reflexivity].
Qed.
Lemma shift_bit : forall n i, 0 <= n -> 0 <= i -> Z.testbit (Z.shiftl 1 n) i = (n =? i).
Proof.
  intros n i N I. rewrite Z.shiftl_1_l. destruct (n =? i) eqn:E.
  - apply Z.eqb_eq in E. subst. apply Z.pow2_bits_true. exact I.
  - apply Z.eqb_neq in E. apply Z.pow2_bits_false. congruence.
Qed.
Theorem links_last : forall p s i, 0 <= i < 32 -> bit (l_id (link_run s p)) i = link_on (bit (l_id s) i) p i.
Proof.
  intros p; induction p as [|t p IH]; intros s i R; [reflexivity|]. cbn [link_run]. rewrite IH by exact R.
  rewrite (bit_testbit (l_id s)), (bit_testbit (l_id (fst (link_exec s t)))) by lia.
  destruct t as [[z|]|n b|m]; cbn [link_exec link_on fst].
  - rewrite set_id_bit by exact R. rewrite bit_testbit by lia. reflexivity.
  - rewrite set_id_bit by exact R. reflexivity.
  - destruct ((0 <=? n) && (n <? 32)) eqn:V; cbn [negb fst].
    + apply andb_true_iff in V as [V1 V2]. apply Z.leb_le in V1. apply Z.ltb_lt in V2.
      rewrite set_id_bit by exact R. f_equal. destruct b.
      * rewrite Z.lor_spec, shift_bit by lia. destruct (n =? i); [apply orb_true_r|apply orb_false_r].
      * rewrite Z.land_spec, Z.lnot_spec, shift_bit by lia. destruct (n =? i); [apply andb_false_r|apply andb_true_r].
    + destruct (n =? i) eqn:E; [|reflexivity]. exfalso. apply Z.eqb_eq in E. subst n.
      apply andb_false_iff in V as [V|V]; [apply Z.leb_gt in V|apply Z.ltb_ge in V]; lia.
  - reflexivity.
Qed.
Theorem links_range : forall p s, l_mode s <> MNone -> 0 <= l_id s < 2 ^ 32 -> Forall checked p ->
  0 <= l_id (link_run s p) < 2 ^ 32.
Proof.
  intros p; induction p as [|t p IH]; intros s M R C; [exact R|]. cbn [link_run]. inversion C; subst.
  assert (B : mode_bool (l_mode s) = true) by (destruct (l_mode s); [congruence|reflexivity|reflexivity|reflexivity]).
  assert (Q : forall v, 0 <= l_id (set_id s v) < 2 ^ 32).
  { intros [z|]; cbn [set_id l_id]; [|lia]. rewrite B, lowest_mod. apply Z.mod_pos_bound. lia. }
  apply IH; [| |assumption]; destruct t as [v|n b|m]; cbn [link_exec].
  - exact M.
  - destruct (negb _); exact M.
  - cbn. intros ->. apply H1. reflexivity.
  - apply Q.
  - destruct (negb _); [exact R|apply Q].
  - exact R.
Qed.
Theorem links_refused : forall s n b,
  (0 <= n < 32 -> snd (link_exec s (SetLink n b)) = None) /\
  (~ 0 <= n < 32 -> link_exec s (SetLink n b) = (s, Some ValueError)).
Proof.
  intros s n b. cbn [link_exec]. destruct ((0 <=? n) && (n <? 32)) eqn:V; cbn [negb].
  - apply andb_true_iff in V as [V1 V2]. apply Z.leb_le in V1. apply Z.ltb_lt in V2. split; [reflexivity|lia].
  - split; [|reflexivity]. intros H. apply andb_false_iff in V as [V|V]; [apply Z.leb_gt in V|apply Z.ltb_ge in V]; lia.
Qed.
Theorem links_wide_refuted : forall z, link_run (mkLink MNone 0) [SetId (Some z)] = mkLink MNone z.
Proof. reflexivity. Qed.
