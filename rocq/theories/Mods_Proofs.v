(** Proofs about the choice and the order of mods. *)
From Coq Require Import ZArith NArith List Bool Lia Permutation Sorting.Sorted.
From Verif Require Import Common Dict Order Version_Model Version_Proofs Wires_Proofs Mods_Model Mods_Spec.
Import ListNotations.
Local Open Scope Z_scope.

(** *** versions *)
Lemma older_cmp : forall a b, tuple_cmp a b = Lt <-> older a b.
Proof.
  unfold tuple_cmp. induction a as [|x a IH]; intros [|y b]; cbn [list_cmp].
  - split; [discriminate|intros H; inversion H].
  - split; [intros _; constructor|reflexivity].
  - split; [discriminate|intros H; inversion H].
  - destruct (Z.compare_spec x y) as [E|E|E].
    + subst. rewrite IH. split; [apply older_later|]. intros H. inversion H; [lia|assumption].
    + split; [intros _; apply older_here; exact E|reflexivity].
    + split; [discriminate|]. intros H. inversion H; lia.
Qed.
Lemma alphabetical_cmp : forall a b, str_cmp a b = Lt <-> alphabetical a b.
Proof.
  unfold str_cmp. induction a as [|x a IH]; intros [|y b]; cbn [list_cmp].
  - split; [discriminate|intros H; inversion H].
  - split; [intros _; constructor|reflexivity].
  - split; [discriminate|intros H; inversion H].
  - destruct (N.compare_spec x y) as [E|E|E].
    + subst. rewrite IH. split; [apply alpha_later|]. intros H. inversion H; [lia|assumption].
    + split; [intros _; apply alpha_here; exact E|reflexivity].
    + split; [discriminate|]. intros H. inversion H; lia.
Qed.
Lemma holds_spec : forall op a b, holds op a b = true <-> satisfies op a b.
Proof.
  intros op a b. unfold holds, satisfies.
  pose proof (older_cmp a b) as L. pose proof (older_cmp b a) as G. pose proof (cmp_eq _ tuple_ordered a b) as E.
  pose proof (cmp_sym _ tuple_ordered a b) as S. rewrite S in G.
  destruct (tuple_cmp a b); cbn [CompOpp] in G; destruct op; rewrite <- ?L, <- ?G, <- ?E; intuition congruence.
Qed.

(** *** dictionaries *)
Lemma named_in : forall (ms : list (pystr * amod)) n m, NoDup (map fst ms) -> (named ms n = Some m <-> In (n, m) ms).
Proof. intros. apply dget_in; [exact pystr_eqb_eq|assumption]. Qed.
Lemma named_none : forall ms n, named ms n = None <-> ~ present ms n.
Proof. intros. apply dget_none. exact pystr_eqb_eq. Qed.
Lemma in_present : forall ms n m, In (n, m) ms -> present ms n.
Proof. intros ms n m H. apply (in_map fst) in H. exact H. Qed.
Lemma same_mod : forall (ms : list (pystr * amod)) n m m', NoDup (map fst ms) -> In (n, m) ms -> In (n, m') ms -> m = m'.
Proof. intros ms n m m' N A B. apply (named_in ms n m N) in A. apply (named_in ms n m' N) in B. congruence. Qed.

(** *** one dependency *)
Lemma check_version_ok : forall t op v, check_version t op v = Ok tt <-> fits t op v.
Proof.
  intros t op v. unfold check_version, fits. destruct v as [s|]; [|tauto]. destruct op as [o|].
  - assert (G : (let* a := version_string_to_tuple (mversion t) in let* b := version_string_to_tuple s in if holds o a b then Ok tt else Err IncorrectModVersionError) = Ok tt
      <-> exists a b, version_string_to_tuple (mversion t) = Ok a /\ version_string_to_tuple s = Ok b /\ satisfies o a b).
    { destruct (version_string_to_tuple (mversion t)) as [a|]; cbn [bind]; [|split; [discriminate|intros (a & b & E & _); discriminate]].
      destruct (version_string_to_tuple s) as [b|]; cbn [bind]; [|split; [discriminate|intros (a' & b & _ & E & _); discriminate]].
      pose proof (holds_spec o a b) as H. destruct (holds o a b).
      - split; [intros _; exists a, b; repeat split; apply H; reflexivity|reflexivity].
      - split; [discriminate|]. intros (a' & b' & E1 & E2 & S). injection E1 as <-. injection E2 as <-. apply H in S. discriminate. }
    destruct (match o with OEq1 => true | _ => false end) eqn:Q.
    + destruct o; try discriminate. split; [discriminate|]. intros [E|(o & s' & a & b & E & N & _)]; [discriminate|congruence].
    + transitivity (exists a b, version_string_to_tuple (mversion t) = Ok a /\ version_string_to_tuple s = Ok b /\ satisfies o a b).
      * destruct o; try discriminate; exact G.
      * split.
        -- intros (a & b & E). right. exists o, s, a, b. split; [reflexivity|]. split; [intros ->; discriminate|]. tauto.
        -- intros [E|(o' & s' & a & b & E1 & _ & E2 & E3)]; [discriminate|]. injection E1 as <-. injection E2 as <-. exists a, b. exact E3.
  - split; [discriminate|]. intros [E|(o & s' & a & b & E & _)]; discriminate.
Qed.
Lemma check_version_cases : forall t op v, (exists e, check_version t op v = Err e) \/ check_version t op v = Ok tt.
Proof. intros. destruct (check_version t op v) as [[]|e]; eauto. Qed.

Section Deps.
  Variable ms : list (pystr * amod).
  Hypothesis ND : NoDup (map fst ms).

  Lemma resolve_usable : forall d, usable ms d -> resolve_dep ms d = Ok (Loaded (dep_name d)).
  Proof.
    intros d (f & n & op & v & t & -> & F & I & V). cbn [resolve_dep dep_name]. apply (named_in ms n t ND) in I. rewrite I.
    apply check_version_ok in V. rewrite V. cbn [bind]. destruct F as [->|[->| ->]]; reflexivity.
  Qed.
  Lemma resolve_ok : forall d d', resolve_dep ms d = Ok d' ->
    passable ms d /\ (d' = Loaded (dep_name d) /\ usable ms d \/ d' = d /\ exists f n op v, d = Named f n op v).
  Proof.
    intros d d' H. destruct d as [f n op v|n]; [|discriminate]. cbn [resolve_dep dep_name] in *.
    destruct (named ms n) as [t|] eqn:E.
    - pose proof (proj1 (named_in ms n t ND) E) as I.
      assert (V : f <> Some Bang -> fits t op v).
      { intros B. apply check_version_ok. destruct (check_version_cases t op v) as [[e C]|C]; [|exact C].
        rewrite C in H. destruct f as [[]|]; cbn [bind] in H; congruence. }
      destruct f as [[]|]; try discriminate;
      (assert (V' : fits t op v) by (apply V; discriminate); pose proof (proj2 (check_version_ok t op v) V') as C; rewrite C in H; cbn [bind] in H; injection H as <-;
       split; [eexists _, n, op, v; split; [reflexivity|]; right; split; [discriminate|exists t; tauto]|]).
      + left. split; [reflexivity|]. eexists _, n, op, v, t. split; [reflexivity|]. tauto.
      + left. split; [reflexivity|]. eexists _, n, op, v, t. split; [reflexivity|]. tauto.
      + right. split; [reflexivity|]. eexists _, n, op, v. reflexivity.
      + left. split; [reflexivity|]. eexists _, n, op, v, t. split; [reflexivity|]. tauto.
    - pose proof (proj1 (named_none ms n) E) as A.
      destruct f as [[]|]; try discriminate; injection H as <-;
      (split; [eexists _, n, op, v; split; [reflexivity|]; left; tauto|right; split; [reflexivity|eexists _, n, op, v; reflexivity]]).
  Qed.
  Lemma resolve_passable : forall d, passable ms d -> exists d', resolve_dep ms d = Ok d'.
  Proof.
    intros d (f & n & op & v & -> & H). cbn [resolve_dep]. destruct H as [[F A]|(F & t & I & V)].
    - apply named_none in A. rewrite A. destruct F as [->|[->| ->]]; eexists; reflexivity.
    - apply (named_in ms n t ND) in I. rewrite I. apply check_version_ok in V. rewrite V. cbn [bind].
      destruct f as [[]|]; first [congruence | eexists; reflexivity].
  Qed.
  Lemma resolve_fault : forall d e, fault ms d e -> resolve_dep ms d = Err e.
  Proof.
    intros d e H. inversion H as [n op v P|f n op v F A|f n o s t a b F I O A B S]; subst; cbn [resolve_dep].
    - destruct (named ms n) as [t|] eqn:E; [reflexivity|]. apply named_none in E. contradiction.
    - apply named_none in A. rewrite A. destruct F as [->| ->]; reflexivity.
    - apply (named_in ms n t ND) in I. rewrite I.
      assert (C : check_version t (Some o) (Some s) = Err IncorrectModVersionError).
      { unfold check_version. destruct o; try congruence; rewrite A; cbn [bind]; rewrite B; cbn [bind];
        match goal with |- (if ?h then _ else _) = _ => destruct h eqn:HH end; try reflexivity; apply holds_spec in HH; contradiction. }
      rewrite C. destruct f as [[]|]; first [reflexivity | congruence].
  Qed.
  Lemma usable_passable : forall d, usable ms d -> passable ms d.
  Proof.
    intros d (f & n & op & v & t & -> & F & I & V). exists f, n, op, v. split; [reflexivity|]. right.
    split; [destruct F as [->|[->| ->]]; discriminate|]. exists t. tauto.
  Qed.
End Deps.

(** *** depth *)
Lemma fold_err : forall {A B} (f : result A -> B -> result A) e l, (forall b, f (Err e) b = Err e) -> fold_left f l (Err e) = Err e.
Proof. intros A B f e l H. induction l as [|b l IH]; simpl; [reflexivity|]. rewrite H. exact IH. Qed.
Definition step (f : nat) (rs : list (pystr * list dep)) (acc : result Z) (d : dep) : result Z :=
  let* a := acc in match d with
                   | Named _ _ _ _ => Err AttributeError
                   | Loaded n' => let* k := depth f rs n' in Ok (Z.max a (a + k))
                   end.
Lemma depth_eq : forall f rs n, depth (S f) rs n = match dget pystr_eqb rs n with None => Err KeyError | Some ds => fold_left (step f rs) ds (Ok 1) end.
Proof. reflexivity. Qed.
Definition sum (l : list Z) : Z := fold_right Z.add 0 l.
Lemma step_fold_pos : forall f rs ds a r, fold_left (step f rs) ds (Ok a) = Ok r -> a <= r.
Proof.
  intros f rs. induction ds as [|d ds IH]; intros a r H; cbn [fold_left] in H; [injection H as <-; lia|].
  cbn [step bind] in H. destruct d; [rewrite fold_err in H; [discriminate|reflexivity]|].
  destruct (depth f rs name) as [k|e]; cbn [bind] in H; [|rewrite fold_err in H; [discriminate|reflexivity]].
  apply IH in H. lia.
Qed.
Lemma depth_pos : forall f rs n k, depth f rs n = Ok k -> 1 <= k.
Proof.
  intros [|f] rs n k H; [discriminate|]. rewrite depth_eq in H. destruct (dget pystr_eqb rs n); [|discriminate].
  apply step_fold_pos in H. exact H.
Qed.
Lemma step_fold : forall f rs ds a r, fold_left (step f rs) ds (Ok a) = Ok r <->
  exists ks, Forall2 (fun d k => exists n, d = Loaded n /\ depth f rs n = Ok k) ds ks /\ r = a + sum ks.
Proof.
  intros f rs. induction ds as [|d ds IH]; intros a r; cbn [fold_left].
  - split.
    + intros H. injection H as <-. exists []. split; [constructor|]. cbn. lia.
    + intros (ks & F & ->). inversion F; subst. cbn. f_equal. lia.
  - cbn [step bind]. destruct d as [fl n op v|n].
    + rewrite fold_err by reflexivity. split; [discriminate|]. intros (ks & F & _). inversion F; subst. destruct H1 as (n' & E & _). discriminate.
    + destruct (depth f rs n) as [k|e] eqn:D; cbn [bind].
      * pose proof (depth_pos _ _ _ _ D) as P. replace (Z.max a (a + k)) with (a + k) by lia. rewrite IH. split.
        -- intros (ks & F & ->). exists (k :: ks). split; [constructor; [exists n; auto|exact F]|]. cbn. fold (sum ks). lia.
        -- intros (ks & F & ->). inversion F as [|? k' ? ks' (n' & E & D') F']; subst. injection E as <-. rewrite D in D'. injection D' as <-.
           exists ks'. split; [exact F'|]. cbn. fold (sum ks'). lia.
      * rewrite fold_err by reflexivity. split; [discriminate|]. intros (ks & F & _). inversion F as [|? k' ? ks' (n' & E & D') F']; subst.
        injection E as <-. congruence.
Qed.
Lemma forall2_mono : forall {A B} (P Q : A -> B -> Prop) l r, (forall a b, P a b -> Q a b) -> Forall2 P l r -> Forall2 Q l r.
Proof. intros A B P Q l r H F. induction F; constructor; auto. Qed.
Lemma depth_mono : forall f f' rs n k, (f <= f')%nat -> depth f rs n = Ok k -> depth f' rs n = Ok k.
Proof.
  induction f as [|f IH]; intros f' rs n k L H; [discriminate|]. destruct f' as [|f']; [lia|].
  rewrite depth_eq in *. destruct (dget pystr_eqb rs n) as [ds|]; [|discriminate].
  apply step_fold in H. apply step_fold. destruct H as (ks & F & ->). exists ks. split; [|reflexivity].
  eapply forall2_mono; [|exact F]. intros d k (n' & E & D). exists n'. split; [exact E|]. apply IH; [lia|exact D].
Qed.

Lemma forall2_in_l : forall {A B} (P : A -> B -> Prop) l r a, Forall2 P l r -> In a l -> exists b, In b r /\ P a b.
Proof.
  intros A B P l r a F. induction F as [|x y l r H F IH]; intros I; [destruct I|]. destruct I as [<-|I]; [exists y; split; [left; reflexivity|exact H]|].
  destruct (IH I) as (b & J & Q). exists b. split; [right; exact J|exact Q].
Qed.
Lemma forall2_in_r : forall {A B} (P : A -> B -> Prop) l r b, Forall2 P l r -> In b r -> exists a, In a l /\ P a b.
Proof.
  intros A B P l r b F. induction F as [|x y l r H F IH]; intros I; [destruct I|]. destruct I as [<-|I]; [exists x; split; [left; reflexivity|exact H]|].
  destruct (IH I) as (a & J & Q). exists a. split; [right; exact J|exact Q].
Qed.

Section Order.
  Variable ms : list (pystr * amod).
  Hypothesis ND : NoDup (map fst ms).

  Lemma resolve_mod_ok : forall n m n' ds, resolve_mod ms (n, m) = Ok (n', ds) <->
    n' = n /\ if pystr_eqb n CORE then ds = deps m else Forall2 (fun d d' => resolve_dep ms d = Ok d') (entries n m) ds.
  Proof using.
    intros n m n' ds. unfold resolve_mod, entries. destruct (pystr_eqb n CORE).
    - split; [intros H; injection H as <- <-; auto|intros [-> ->]; reflexivity].
    - rewrite <- map_result_ok_forall2. destruct (map_result (resolve_dep ms) _) as [ds'|e]; cbn [bind].
      + split; [intros H; injection H as <- <-; auto|]. intros [-> H]. injection H as ->. reflexivity.
      + split; [discriminate|]. intros [_ H]. discriminate.
  Qed.

  Variable rs : list (pystr * list dep).
  Hypothesis RS : map_result (resolve_mod ms) ms = Ok rs.

  Lemma rs_forall2 : Forall2 (fun e r => resolve_mod ms e = Ok r) ms rs.
  Proof using RS. apply map_result_ok_forall2. exact RS. Qed.
  Lemma rs_keys : map fst rs = map fst ms.
  Proof using RS.
    pose proof rs_forall2 as F. clear RS. induction F as [|[n m] [n' ds] l r H F IH]; [reflexivity|]. cbn [map fst].
    apply resolve_mod_ok in H. destruct H as [-> _]. f_equal. exact IH.
  Qed.
  Lemma rs_get : forall n m, In (n, m) ms -> exists ds, dget pystr_eqb rs n = Some ds /\
    if pystr_eqb n CORE then ds = deps m else Forall2 (fun d d' => resolve_dep ms d = Ok d') (entries n m) ds.
  Proof using ND RS.
    intros n m I. destruct (forall2_in_l _ _ _ _ rs_forall2 I) as ([n' ds] & J & R). apply resolve_mod_ok in R. destruct R as [-> R].
    exists ds. split; [|exact R]. apply dget_in; [exact pystr_eqb_eq| |exact J]. unfold dwf. rewrite rs_keys. exact ND.
  Qed.

  (** A depth is a sum over the dependencies. *)
  Lemma depth_sum : unresolved ms -> forall f n m k, In (n, m) ms -> depth (S f) rs n = Ok k ->
    (n = CORE -> deps m = []) /\ exists ks, Forall2 (fun d k => usable ms d /\ depth f rs (dep_name d) = Ok k) (entries n m) ks /\ k = 1 + sum ks.
  Proof using ND RS.
    intros U f n m k I H. destruct (rs_get n m I) as (ds & G & R). rewrite depth_eq, G in H. apply step_fold in H. destruct H as (ks & F & ->).
    destruct (pystr_eqb n CORE) eqn:C.
    - assert (D : deps m = []).
      { subst ds. destruct (deps m) as [|d l] eqn:D; [reflexivity|]. inversion F as [|? ? ? ? (b & E & _) _]; subst.
        destruct (U n m (Loaded b) I) as (f' & b' & op & v & E); [rewrite D; left; reflexivity|]. discriminate. }
      split; [intros _; exact D|]. exists []. unfold entries. rewrite C. split; [constructor|]. subst ds. rewrite D in F. inversion F; subst. reflexivity.
    - split; [intros ->; rewrite pystr_eqb_refl in C; discriminate|]. exists ks. split; [|reflexivity].
      clear G I C. revert ks F. induction R as [|d d' l l' H R IH]; intros ks F; inversion F as [|? k ? ks' (b & E & D) F']; subst; constructor; [|apply IH; exact F'].
      destruct (resolve_ok ms ND _ _ H) as [_ [[E U']|[E (f' & n' & op & v & E')]]].
      + injection E as ->. auto.
      + subst d. discriminate.
  Qed.

  (** Depth exists along any ranking. *)
  Lemma depth_total : acceptable ms -> forall rank : pystr -> nat, (forall a b, requires ms a b -> (rank b < rank a)%nat) ->
    forall f n, present ms n -> (rank n < f)%nat -> exists k, depth f rs n = Ok k.
  Proof using ND RS.
    intros A rank R. induction f as [|f IH]; intros n P L; [lia|].
    apply in_map_iff in P. destruct P as ([n' m] & E & I). cbn in E. subst n'. destruct (rs_get n m I) as (ds & G & F).
    rewrite depth_eq, G. destruct (A n m I) as [A1 A2].
    assert (K : exists ks, Forall2 (fun d k => exists n, d = Loaded n /\ depth f rs n = Ok k) ds ks).
    { destruct (pystr_eqb n CORE) eqn:C.
      - apply pystr_eqb_eq in C. exists []. subst ds. rewrite (A1 C). constructor.
      - assert (Q : forall d, In d (entries n m) -> usable ms d /\ exists k, depth f rs (dep_name d) = Ok k).
        { intros d D. split; [exact (A2 d D)|]. apply IH.
          - destruct (A2 d D) as (fl & b & op & v & t & -> & _ & J & _). exact (in_present ms b t J).
          - assert (rank (dep_name d) < rank n)%nat; [|lia]. apply R. exists m. split; [exact I|]. apply in_map. exact D. }
        clear - F Q ND. induction F as [|d d' l l' H F IH]; [exists []; constructor|].
        destruct (Q d (or_introl eq_refl)) as (U & k & D). rewrite (resolve_usable ms ND d U) in H. injection H as <-.
        destruct IH as (ks & KS); [intros; apply Q; right; assumption|]. exists (k :: ks). constructor; [exists (dep_name d); auto|exact KS]. }
    destruct K as (ks & K). exists (1 + sum ks). apply step_fold. exists ks. auto.
  Qed.
End Order.

Lemma resolves : forall ms, NoDup (map fst ms) -> acceptable ms -> exists rs, map_result (resolve_mod ms) ms = Ok rs.
Proof.
  intros ms ND A.
  assert (G : forall l, (forall e, In e l -> In e ms) -> exists rs, map_result (resolve_mod ms) l = Ok rs).
  { induction l as [|[n m] l IH]; intros S; [exists []; reflexivity|]. destruct IH as (rs & E); [intros; apply S; right; assumption|].
    assert (H : exists r, resolve_mod ms (n, m) = Ok r).
    { destruct (A n m (S _ (or_introl eq_refl))) as [_ A2]. unfold resolve_mod, entries in *.
      destruct (pystr_eqb n CORE); [eexists; reflexivity|].
      assert (M : forall ds, (forall d, In d ds -> usable ms d) -> exists ds', map_result (resolve_dep ms) ds = Ok ds').
      { induction ds as [|d ds IHd]; intros U; [exists []; reflexivity|]. destruct IHd as (ds' & E'); [intros; apply U; right; assumption|].
        cbn [map_result]. rewrite (resolve_usable ms ND d (U d (or_introl eq_refl))). cbn [bind]. rewrite E'. eexists. reflexivity. }
      destruct (M _ A2) as (ds' & ->). eexists. reflexivity. }
    destruct H as (r & H). cbn [map_result]. rewrite H. cbn [bind]. rewrite E. eexists. reflexivity. }
  apply G. auto.
Qed.

Lemma map_result_fun : forall {A B} (f : A -> result B) l, (forall a, In a l -> exists b, f a = Ok b) -> exists r, map_result f l = Ok r.
Proof.
  intros A B f l. induction l as [|a l IH]; intros H; [exists []; reflexivity|]. destruct (H a (or_introl eq_refl)) as (b & E).
  destruct IH as (r & R); [intros; apply H; right; assumption|]. cbn [map_result]. rewrite E. cbn [bind]. rewrite R. eexists. reflexivity.
Qed.

(** What a successful run says. *)
Lemma load_order_ok : forall fuel ms o, NoDup (map fst ms) -> unresolved ms -> load_order fuel ms = Ok o ->
  acceptable ms /\ Permutation o (map fst ms) /\
  exists w, (forall n, present ms n -> 1 <= w n) /\ weighs ms w /\ StronglySorted (sooner w) o.
Proof.
  intros fuel ms o ND U H. unfold load_order in H. apply bind_ok in H. destruct H as (rs & RS & H).
  apply bind_ok in H. destruct H as (ks & KS & H). injection H as <-.
  apply map_result_ok_forall2 in KS.
  set (w := fun n => match depth fuel rs n with Ok k => k | Err _ => 0 end).
  assert (K0 : forall l r, Forall2 (fun (x : pystr * list dep) (y : Z * pystr) => (let* k := depth fuel rs (fst x) in Ok (k, fst x)) = Ok y) l r ->
    r = map (fun n => (w n, n)) (map fst l) /\ forall n, In n (map fst l) -> exists k, depth fuel rs n = Ok k).
  { intros l r F. induction F as [|[n ds] p l r E F [IH1 IH2]]; [split; [reflexivity|intros n []]|].
    cbn [fst] in E. apply bind_ok in E. destruct E as (k & D & E). injection E as <-. cbn [map fst]. split.
    - rewrite IH1. f_equal. unfold w. rewrite D. reflexivity.
    - intros n' [<-|I]; [exists k; exact D|apply IH2; exact I]. }
  pose proof (K0 _ _ KS) as K. rewrite (rs_keys ms rs RS) in K.
  destruct K as [K D].
  assert (S : forall n m, In (n, m) ms -> (n = CORE -> deps m = []) /\ (forall d, In d (entries n m) -> usable ms d) /\
    w n = 1 + fold_right Z.add 0 (map (fun d => w (dep_name d)) (entries n m))).
  { intros n m I. destruct (D n (in_present ms n m I)) as (k & E). destruct fuel as [|f]; [discriminate|].
    destruct (depth_sum ms ND rs RS U f n m k I E) as (C & js & F & ->). split; [exact C|]. split.
    - intros d J. destruct (forall2_in_l _ _ _ _ F J) as (j & _ & [Us _]). exact Us.
    - unfold w at 1. rewrite E. f_equal. clear - F. induction F as [|d j l r [_ Dj] F IH]; [reflexivity|].
      cbn [map fold_right sum]. fold (sum r). rewrite IH. f_equal. unfold w. rewrite (depth_mono f (S f) rs _ j ltac:(lia) Dj). reflexivity. }
  split; [intros n m I; destruct (S n m I) as (A & B & _); auto|]. split.
  - rewrite stable_sort_perm, K, map_map. cbn [snd]. rewrite map_id. reflexivity.
  - exists w. split; [intros n P; destruct (D n P) as (k & E); unfold w; rewrite E; exact (depth_pos _ _ _ _ E)|].
    split; [intros n m I; destruct (S n m I) as (_ & _ & W); exact W|].
    assert (O : ordered order_key_cmp) by (apply pair_ordered; [apply Z_ordered|apply str_ordered]).
    pose proof (stable_sort_sorted (fun p : Z * pystr => p) order_key_cmp O ks) as SS.
    pose proof (stable_sort_perm (fun p : Z * pystr => p) order_key_cmp ks) as SP.
    assert (NK : NoDup (stable_sort (fun p : Z * pystr => p) order_key_cmp ks)).
    { eapply Permutation_NoDup; [symmetry; exact SP|]. rewrite K. apply (NoDup_map_inv snd). rewrite map_map. cbn [snd]. rewrite map_id. exact ND. }
    assert (IK : forall p, In p (stable_sort (fun p : Z * pystr => p) order_key_cmp ks) -> fst p = w (snd p)).
    { intros p I. apply (Permutation_in _ SP) in I. rewrite K in I. apply in_map_iff in I. destruct I as (n & <- & _). reflexivity. }
    clear - SS NK IK O. induction SS as [|p l SS IH F]; [constructor|]. cbn [map].
    apply NoDup_cons_iff in NK. destruct NK as [NI NK]. constructor; [apply IH; [exact NK|intros; apply IK; right; assumption]|].
    rewrite Forall_forall in *. intros n I. apply in_map_iff in I. destruct I as (q & <- & I). specialize (F q I). unfold le_key in F.
    pose proof (IK p (or_introl eq_refl)) as Ep. pose proof (IK q (or_intror I)) as Eq'. unfold sooner. rewrite <- Ep, <- Eq'.
    assert (NE : p <> q) by (intros ->; contradiction).
    assert (L : order_key_cmp p q = Lt).
    { destruct (order_key_cmp p q) eqn:E; [|reflexivity|congruence]. apply (cmp_eq _ O) in E. contradiction. }
    unfold order_key_cmp, pair_cmp in L. destruct (Z.compare_spec (fst p) (fst q)) as [E|E|E]; [|left; exact E|discriminate].
    right. split; [exact E|]. apply alphabetical_cmp. exact L.
Qed.

(** *** consequences *)
Lemma usable_present : forall ms d, usable ms d -> present ms (dep_name d).
Proof. intros ms d (f & n & op & v & t & -> & _ & I & _). exact (in_present ms n t I). Qed.
Lemma requires_present : forall ms a b, acceptable ms -> requires ms a b -> present ms a /\ present ms b.
Proof.
  intros ms a b A (m & I & J). split; [exact (in_present ms a m I)|]. apply in_map_iff in J. destruct J as (d & <- & J).
  apply usable_present. exact (proj2 (A a m I) d J).
Qed.
Lemma sum_ge : forall (l : list dep) (w : dep -> Z) d, (forall x, In x l -> 0 <= w x) -> In d l -> w d <= fold_right Z.add 0 (map w l).
Proof.
  intros l w d. induction l as [|x l IH]; intros P I; [destruct I|]. cbn [map fold_right].
  assert (G : 0 <= fold_right Z.add 0 (map w l)).
  { clear - P. induction l as [|y l IH]; cbn [map fold_right]; [lia|]. assert (0 <= w y) by (apply P; right; left; reflexivity).
    assert (0 <= fold_right Z.add 0 (map w l)); [|lia]. apply IH. intros z [->|Z]; apply P; [left; reflexivity|right; right; exact Z]. }
  destruct I as [->|I]; [lia|]. assert (w d <= fold_right Z.add 0 (map w l)) by (apply IH; [intros; apply P; right; assumption|exact I]).
  assert (0 <= w x) by (apply P; left; reflexivity). lia.
Qed.
Lemma weight_drops : forall ms w, acceptable ms -> weighs ms w -> (forall n, present ms n -> 1 <= w n) -> forall a b, requires ms a b -> w b < w a.
Proof.
  intros ms w A W P a b R. destruct R as (m & I & J). apply in_map_iff in J. destruct J as (d & <- & J). rewrite (W a m I).
  assert (w (dep_name d) <= fold_right Z.add 0 (map (fun d => w (dep_name d)) (entries a m))); [|lia].
  apply (sum_ge (entries a m) (fun d => w (dep_name d)) d); [|exact J]. intros x X. assert (1 <= w (dep_name x)); [|lia]. apply P, usable_present.
  exact (proj2 (A a m I) x X).
Qed.
(** Weights are determined. *)
Lemma weights_unique : forall ms w w', NoDup (map fst ms) -> acceptable ms -> weighs ms w -> (forall n, present ms n -> 1 <= w n) -> weighs ms w' ->
  forall n, present ms n -> w' n = w n.
Proof.
  intros ms w w' ND A W P W'.
  assert (G : forall k n, present ms n -> (Z.to_nat (w n) < k)%nat -> w' n = w n).
  { induction k as [|k IH]; intros n PN L; [lia|]. pose proof PN as PN'. apply in_map_iff in PN'. destruct PN' as ([n' m] & E & I). cbn in E. subst n'.
    rewrite (W n m I), (W' n m I). f_equal. f_equal. apply map_ext_in. intros d D.
    pose proof (usable_present ms d (proj2 (A n m I) d D)) as Pd. apply IH; [exact Pd|].
    assert (w (dep_name d) < w n); [|pose proof (P _ Pd); lia]. apply (weight_drops ms w A W P). exists m. split; [exact I|apply in_map; exact D]. }
  intros n PN. apply (G (S (Z.to_nat (w n))) n PN). lia.
Qed.
Lemma order_sorted : forall fuel ms o w, NoDup (map fst ms) -> unresolved ms -> load_order fuel ms = Ok o -> weighs ms w -> StronglySorted (sooner w) o.
Proof.
  intros fuel ms o w ND U H W. destruct (load_order_ok fuel ms o ND U H) as (A & PM & w0 & P & W0 & S).
  assert (E : forall n, In n o -> w n = w0 n) by (intros n I; apply (weights_unique ms w0 w ND A W0 P W); exact (Permutation_in _ PM I)).
  clear - S E. induction S as [|a l S IH F]; constructor; [apply IH; intros; apply E; right; assumption|].
  rewrite Forall_forall in *. intros b I. specialize (F b I). unfold sooner in *. rewrite (E a (or_introl eq_refl)), (E b (or_intror I)). exact F.
Qed.
Lemma order_weights : forall fuel ms o, NoDup (map fst ms) -> unresolved ms -> load_order fuel ms = Ok o -> exists w, weighs ms w.
Proof. intros fuel ms o ND U H. destruct (load_order_ok fuel ms o ND U H) as (_ & _ & w & _ & W & _). exists w. exact W. Qed.
Lemma order_perm : forall fuel ms o, NoDup (map fst ms) -> unresolved ms -> load_order fuel ms = Ok o -> NoDup o /\ forall n, In n o <-> present ms n.
Proof.
  intros fuel ms o ND U H. destruct (load_order_ok fuel ms o ND U H) as (_ & PM & _). split.
  - eapply Permutation_NoDup; [symmetry; exact PM|exact ND].
  - intros n. split; intros I; [exact (Permutation_in _ PM I)|exact (Permutation_in _ (Permutation_sym PM) I)].
Qed.
Lemma sorted_mid : forall {A} (R : A -> A -> Prop) l1 a l2 b, StronglySorted R (l1 ++ a :: l2) -> In b l2 -> R a b.
Proof.
  intros A R l1 a l2 b. induction l1 as [|x l1 IH]; intros S I; inversion S as [|? ? S' F]; subst.
  - rewrite Forall_forall in F. exact (F b I).
  - exact (IH S' I).
Qed.
Lemma order_depends : forall fuel ms o, NoDup (map fst ms) -> unresolved ms -> load_order fuel ms = Ok o ->
  forall a b, requires ms a b -> before b a o.
Proof.
  intros fuel ms o ND U H a b R. destruct (load_order_ok fuel ms o ND U H) as (A & PM & w & P & W & S).
  destruct (requires_present ms a b A R) as [Pa Pb]. pose proof (weight_drops ms w A W P a b R) as D.
  pose proof (Permutation_in _ (Permutation_sym PM) Pb) as Ib. pose proof (Permutation_in _ (Permutation_sym PM) Pa) as Ia.
  destruct (in_split _ _ Ib) as (l1 & l2 & E). subst o.
  assert (J : In a l2).
  { apply in_app_iff in Ia. destruct Ia as [I|[->|I]]; [|lia|exact I]. exfalso. apply in_split in I. destruct I as (k1 & k2 & ->).
    rewrite <- app_assoc in S. cbn [app] in S. pose proof (sorted_mid _ k1 a (k2 ++ b :: l2) b S) as Q.
    destruct Q as [Q|[Q _]]; [apply in_app_iff; right; left; reflexivity| |]; lia. }
  apply in_split in J. destruct J as (k1 & k2 & ->). exists l1, k1, k2. reflexivity.
Qed.
Lemma order_acyclic : forall fuel ms o, NoDup (map fst ms) -> unresolved ms -> load_order fuel ms = Ok o -> acceptable ms /\ exists bound, acyclic ms bound.
Proof.
  intros fuel ms o ND U H. destruct (load_order_ok fuel ms o ND U H) as (A & PM & w & P & W & S). split; [exact A|].
  assert (B : forall l : list pystr, exists b, forall n, In n l -> (Z.to_nat (w n) < b)%nat).
  { induction l as [|x l (b & IH)]; [exists O; intros n []|]. exists (1 + Z.to_nat (w x) + b)%nat. intros n [->|I]; [lia|]. specialize (IH n I). lia. }
  destruct (B (map fst ms)) as (b & Bb). exists b, (fun n => Z.to_nat (w n)). split; [exact Bb|].
  intros a c R. pose proof (weight_drops ms w A W P a c R). pose proof (P c (proj2 (requires_present ms a c A R))). lia.
Qed.
Lemma order_exists : forall fuel ms, NoDup (map fst ms) -> acceptable ms -> acyclic ms fuel -> exists o, load_order fuel ms = Ok o.
Proof.
  intros fuel ms ND A (rank & B & R). destruct (resolves ms ND A) as (rs & RS). unfold load_order. rewrite RS. cbn [bind].
  destruct (map_result_fun (fun e : pystr * list dep => let* k := depth fuel rs (fst e) in Ok (k, fst e)) rs) as (ks & ->); [|eexists; reflexivity].
  intros [n ds] I. cbn [fst]. assert (PN : present ms n). { unfold present. rewrite <- (rs_keys ms rs RS). apply (in_map fst) in I. exact I. }
  destruct (depth_total ms ND rs RS A rank R fuel n PN (B n PN)) as (k & ->). eexists. reflexivity.
Qed.
Lemma order_iff : forall ms, NoDup (map fst ms) -> unresolved ms ->
  ((exists fuel o, load_order fuel ms = Ok o) <-> acceptable ms /\ exists bound, acyclic ms bound).
Proof.
  intros ms ND U. split.
  - intros (fuel & o & H). exact (order_acyclic fuel ms o ND U H).
  - intros (A & b & C). exists b. exact (order_exists b ms ND A C).
Qed.
Lemma map_result_err : forall {A B} (f : A -> result B) l1 a l2 e, (forall x, In x l1 -> exists y, f x = Ok y) -> f a = Err e -> map_result f (l1 ++ a :: l2) = Err e.
Proof.
  intros A B f l1 a l2 e. induction l1 as [|x l1 IH]; intros P E; cbn [app map_result]; [rewrite E; reflexivity|].
  destruct (P x (or_introl eq_refl)) as (y & ->). cbn [bind]. rewrite IH; [reflexivity|intros; apply P; right; assumption|exact E].
Qed.
Lemma first_fault : forall fuel ms ms1 n m ms2 d1 d d2 e, NoDup (map fst ms) -> ms = ms1 ++ (n, m) :: ms2 -> entries n m = d1 ++ d :: d2 ->
  (forall n' m' d', In (n', m') ms1 -> In d' (entries n' m') -> passable ms d') -> (forall d', In d' d1 -> passable ms d') ->
  fault ms d e -> load_order fuel ms = Err e.
Proof.
  intros fuel ms ms1 n m ms2 d1 d d2 e ND E En P1 P2 F. unfold load_order.
  assert (Q : map_result (resolve_mod ms) ms = Err e); [|rewrite Q; reflexivity].
  rewrite E at 2. apply map_result_err.
  - intros [n' m'] I. unfold resolve_mod. specialize (P1 n' m'). unfold entries in P1. destruct (pystr_eqb n' CORE); [eexists; reflexivity|].
    destruct (map_result_fun (resolve_dep ms) (if pystr_eqb n' BASE then [Named None CORE None None] else deps m')) as (ds & ->); [|eexists; reflexivity].
    intros d' J. exact (resolve_passable ms ND d' (P1 d' I J)).
  - unfold resolve_mod. unfold entries in En. destruct (pystr_eqb n CORE); [destruct d1; discriminate|]. rewrite En.
    rewrite (map_result_err (resolve_dep ms) d1 d d2 e); [reflexivity| |exact (resolve_fault ms ND d e F)].
    intros d' J. exact (resolve_passable ms ND d' (P2 d' J)).
Qed.

(** *** discovery *)
Lemma filter_snoc : forall {A} (p : A -> bool) l x, filter p (l ++ [x]) = filter p l ++ (if p x then [x] else []).
Proof. intros A p l x. rewrite filter_app. cbn [filter]. destruct (p x); reflexivity. Qed.
Lemma group_spec : forall found, dwf (group found) /\ forall n,
  dget pystr_eqb (group found) n = match filter (called n) found with [] => None | l => Some l end.
Proof.
  intros found. unfold group. induction found as [|m found [W G]] using rev_ind; [split; [constructor|reflexivity]|].
  rewrite fold_left_app. cbn [fold_left]. set (d := fold_left group_one found []) in *. unfold group_one. split.
  - destruct (dget pystr_eqb d (mname m)); apply dset_wf; try exact W; exact pystr_eqb_eq.
  - intros n. rewrite filter_snoc. pose proof (G (mname m)) as Gm. unfold called at 2.
    destruct (pystr_eqb (mname m) n) eqn:E.
    + apply pystr_eqb_eq in E. subst n. destruct (filter (called (mname m)) found) as [|x l] eqn:F; rewrite Gm.
      * rewrite (dget_dset pystr_eqb pystr_eqb_eq), pystr_eqb_refl. reflexivity.
      * rewrite (dget_dset pystr_eqb pystr_eqb_eq), pystr_eqb_refl. reflexivity.
    + rewrite app_nil_r, <- G. destruct (dget pystr_eqb d (mname m)); rewrite (dget_dset pystr_eqb pystr_eqb_eq), E; reflexivity.
Qed.

Definition vkey (m : amod) : result (list Z * bool) := let* v := version_string_to_tuple (mversion m) in Ok (v, negb (archive m)).
Lemma version_ordered : ordered version_key_cmp.
Proof. apply pair_ordered; [apply tuple_ordered|apply bool_ordered]. Qed.
Lemma better_key : forall a b j k, vkey a = Ok j -> vkey b = Ok k -> (better a b <-> version_key_cmp k j = Lt).
Proof.
  intros a b j k A B. unfold vkey in *. apply bind_ok in A. destruct A as (u & U & A). injection A as <-. apply bind_ok in B. destruct B as (v & V & B). injection B as <-.
  unfold version_key_cmp, pair_cmp. cbn [fst snd]. split.
  - intros (u' & v' & U' & V' & H). assert (u' = u) by congruence. assert (v' = v) by congruence. subst u' v'. destruct H as [H|(-> & X & Y)].
    + apply older_cmp in H. rewrite H. reflexivity.
    + rewrite (cmp_refl _ tuple_ordered), X, Y. reflexivity.
  - intros H. exists u, v. split; [exact U|]. split; [exact V|]. destruct (tuple_cmp v u) eqn:E; [|left; apply older_cmp; exact E|discriminate].
    apply (cmp_eq _ tuple_ordered) in E. right. split; [congruence|]. destruct (archive a), (archive b); try discriminate H. auto.
Qed.
Lemma even_key : forall a b j, vkey a = Ok j -> (even a b <-> vkey b = Ok j).
Proof.
  intros a b j A. unfold vkey in *. apply bind_ok in A. destruct A as (u & U & A). injection A as <-. split.
  - intros (u' & U' & V & E). assert (u' = u) by congruence. subst u'. rewrite V. cbn [bind]. rewrite E. reflexivity.
  - intros B. apply bind_ok in B. destruct B as (v & V & B). injection B as -> E. exists u. split; [exact U|]. split; [exact V|].
    destruct (archive a), (archive b); first [reflexivity | discriminate].
Qed.
Lemma before_filter : forall {A} (p : A -> bool) a b l, p a = true -> p b = true -> (before a b l <-> before a b (filter p l)).
Proof.
  intros A p a b l Pa Pb. split.
  - intros (l1 & l2 & l3 & ->). exists (filter p l1), (filter p l2), (filter p l3).
    rewrite filter_app. cbn [filter]. rewrite Pa, filter_app. cbn [filter]. rewrite Pb. reflexivity.
  - induction l as [|x l IH]; intros (l1 & l2 & l3 & E); [destruct l1; discriminate|].
    cbn [filter] in E. destruct (p x) eqn:X.
    + destruct l1 as [|y l1]; cbn [app] in E; injection E as -> E.
      * assert (J : In b (filter p l)) by (rewrite E; apply in_app_iff; right; left; reflexivity).
        apply filter_In in J. destruct J as [J _]. apply in_split in J. destruct J as (k1 & k2 & ->). exists [], k1, k2. reflexivity.
      * destruct IH as (k1 & k2 & k3 & ->); [exists l1, l2, l3; exact E|]. exists (y :: k1), k2, k3. reflexivity.
    + destruct IH as (k1 & k2 & k3 & ->); [exists l1, l2, l3; exact E|]. exists (x :: k1), k2, k3. reflexivity.
Qed.
Lemma filter_map_comm : forall {A B} (f : A -> B) (p : B -> bool) l, filter p (map f l) = map f (filter (fun a => p (f a)) l).
Proof. intros A B f p l. induction l as [|x l IH]; [reflexivity|]. cbn [map filter]. destruct (p (f x)); cbn [map]; rewrite IH; reflexivity. Qed.

Lemma sort_versions_spec : forall l r, sort_versions l = Ok r ->
  Permutation r l /\ StronglySorted (fun a b => ~ better b a) r /\ forall a b, even a b -> (before a b r <-> before a b l).
Proof.
  intros l r H. unfold sort_versions in H. apply bind_ok in H. destruct H as (kl & K & H). injection H as <-.
  apply map_result_ok_forall2 in K.
  assert (L : l = map snd kl /\ forall k m, In (k, m) kl -> vkey m = Ok k).
  { clear - K. induction K as [|m [k m'] l kl H K [IH1 IH2]]; [split; [reflexivity|intros k m []]|].
    unfold keyed in H. apply bind_ok in H. destruct H as (v & V & H). injection H as <- <-. split; [cbn [map snd]; congruence|].
    intros k m' [E|I]; [|exact (IH2 k m' I)]. injection E as <- <-. unfold vkey. rewrite V. reflexivity. }
  destruct L as [L V]. set (s := stable_sort fst (rev_cmp version_key_cmp) kl).
  assert (PS : Permutation s kl) by apply stable_sort_perm.
  assert (Vs : forall k m, In (k, m) s -> vkey m = Ok k) by (intros k m I; apply V; exact (Permutation_in _ PS I)).
  split; [rewrite L; apply Permutation_map; exact PS|]. split.
  - pose proof (stable_sort_sorted fst (rev_cmp version_key_cmp) (rev_ordered _ version_ordered) kl) as S. fold s in S.
    clear - S Vs. induction S as [|[k m] s S IH F]; [constructor|]. cbn [map snd]. constructor; [apply IH; intros; apply Vs; right; assumption|].
    rewrite Forall_forall in *. intros b I. apply in_map_iff in I. destruct I as ([k' m'] & <- & I). cbn [snd]. specialize (F _ I). unfold le_key, rev_cmp in F. cbn [fst] in F.
    rewrite (better_key m' m k' k); [|apply Vs; right; exact I|apply Vs; left; reflexivity].
    intros Q. rewrite (cmp_sym _ version_ordered), Q in F. apply F. reflexivity.
  - intros a b E. assert (E' := E). destruct E' as (u & U & W & X). set (k := (u, negb (archive a))).
    assert (Ka : vkey a = Ok k) by (unfold vkey; rewrite U; reflexivity).
    assert (Kb : vkey b = Ok k) by (apply (even_key a b k Ka); exact E).
    set (p := fun m => match vkey m with Ok j => match version_key_cmp j k with Eq => true | _ => false end | Err _ => false end).
    assert (Pa : p a = true) by (unfold p; rewrite Ka, (cmp_refl _ version_ordered); reflexivity).
    assert (Pb : p b = true) by (unfold p; rewrite Kb, (cmp_refl _ version_ordered); reflexivity).
    rewrite (before_filter p a b (map snd s) Pa Pb), (before_filter p a b l Pa Pb).
    assert (Q : filter p (map snd s) = filter p l); [|rewrite Q; reflexivity].
    rewrite L, !filter_map_comm. f_equal.
    assert (G : forall t, (forall k m, In (k, m) t -> vkey m = Ok k) ->
      filter (fun a0 : list Z * bool * amod => p (snd a0)) t = filter (same_key fst (rev_cmp version_key_cmp) k) t).
    { intros t T. apply filter_ext_in. intros [j m] I. cbn [snd]. unfold p, same_key, rev_cmp. rewrite (T j m I). cbn [fst].
      rewrite (cmp_sym _ version_ordered). destruct (version_key_cmp k j); reflexivity. }
    rewrite (G s Vs), (G kl V). apply (stable_sort_stable fst (rev_cmp version_key_cmp) (rev_ordered _ version_ordered)).
Qed.

Lemma map_result_fst : forall {A B C} (f : A * B -> result (A * C)) l r, (forall x y, f x = Ok y -> fst y = fst x) -> map_result f l = Ok r -> map fst r = map fst l.
Proof.
  intros A B C f l r F H. apply map_result_ok_forall2 in H. induction H as [|x y l r E H IH]; [reflexivity|]. cbn [map]. rewrite (F x y E), IH. reflexivity.
Qed.
Lemma sort_entry_fst : forall x y, sort_entry x = Ok y -> fst y = fst x.
Proof.
  intros x y H. unfold sort_entry in H. destruct (pystr_eqb (fst x) CORE); [injection H as <-; reflexivity|].
  apply bind_ok in H. destruct H as (l & _ & H). injection H as <-. reflexivity.
Qed.
Lemma group_in : forall found n l, In (n, l) (group found) <-> l <> [] /\ l = filter (called n) found.
Proof.
  intros found n l. destruct (group_spec found) as [W G]. rewrite <- (dget_in pystr_eqb pystr_eqb_eq _ _ _ W), G.
  destruct (filter (called n) found) as [|x r]; split.
  - discriminate.
  - intros [N ->]. contradiction.
  - intros H. injection H as <-. split; [discriminate|reflexivity].
  - intros [_ ->]. reflexivity.
Qed.
Lemma called_in : forall found n m, In m (filter (called n) found) <-> In m found /\ mname m = n.
Proof. intros found n m. rewrite filter_In. unfold called. rewrite pystr_eqb_eq. reflexivity. Qed.

Lemma discover_keys : forall found d, discover found = Ok d -> NoDup (map fst d) /\ forall n, In n (map fst d) <-> exists m, In m found /\ mname m = n.
Proof.
  intros found d H. unfold discover in H. rewrite (map_result_fst sort_entry _ _ sort_entry_fst H). split; [exact (proj1 (group_spec found))|].
  intros n. split.
  - intros I. apply in_map_iff in I. destruct I as ([n' l] & E & I). cbn in E. subst n'. apply group_in in I. destruct I as [N ->].
    destruct (filter (called n) found) as [|m r] eqn:F; [contradiction|]. exists m. apply called_in. rewrite F. left. reflexivity.
  - intros (m & I). apply called_in in I. apply (in_map fst) with (x := (n, filter (called n) found)). apply group_in. split; [|reflexivity].
    intros E. rewrite E in I. destruct I.
Qed.
Lemma discover_entry : forall found d n l, discover found = Ok d -> In (n, l) d -> n <> CORE ->
  Permutation l (filter (called n) found) /\ StronglySorted (fun a b => ~ better b a) l /\
  forall a b, mname a = n -> even a b -> mname b = n -> (before a b l <-> before a b found).
Proof.
  intros found d n l H I NC. unfold discover in H. apply map_result_ok_forall2 in H. destruct (forall2_in_r _ _ _ _ H I) as ([n' l'] & J & E).
  pose proof (sort_entry_fst _ _ E) as F. cbn in F. subst n'. unfold sort_entry in E. cbn [fst snd] in E.
  destruct (pystr_eqb n CORE) eqn:C; [apply pystr_eqb_eq in C; contradiction|]. apply bind_ok in E. destruct E as (r & S & E). injection E as <-.
  apply group_in in J. destruct J as [_ ->]. destruct (sort_versions_spec _ _ S) as (P & SS & ST). split; [exact P|]. split; [exact SS|].
  intros a b Na E Nb. rewrite (ST a b E). symmetry. apply before_filter; unfold called; apply pystr_eqb_eq; assumption.
Qed.
Lemma discover_core : forall found d l, discover found = Ok d -> In (CORE, l) d -> l = filter (called CORE) found.
Proof.
  intros found d l H I. unfold discover in H. apply map_result_ok_forall2 in H. destruct (forall2_in_r _ _ _ _ H I) as ([n' l'] & J & E).
  pose proof (sort_entry_fst _ _ E) as F. cbn [fst] in F. subst n'. unfold sort_entry in E. cbn [fst] in E. rewrite pystr_eqb_refl in E. injection E as ->.
  apply group_in in J. exact (proj2 J).
Qed.
Lemma discover_nonempty : forall found d n, discover found = Ok d -> ~ In (n, []) d.
Proof.
  intros found d n H I. destruct (pystr_eq_dec n CORE) as [->|NC].
  - unfold discover in H. apply map_result_ok_forall2 in H. destruct (forall2_in_r _ _ _ _ H I) as ([n' l'] & J & E).
    pose proof (sort_entry_fst _ _ E) as F. cbn [fst] in F. subst n'. unfold sort_entry in E. cbn [fst] in E. rewrite pystr_eqb_refl in E. injection E as ->.
    apply group_in in J. destruct J as [N _]. contradiction.
  - destruct (discover_entry found d n [] H I NC) as (P & _). apply Permutation_nil in P.
    assert (K : In n (map fst d)) by (apply (in_map fst) in I; exact I). apply (discover_keys found d H) in K. destruct K as (m & K). apply called_in in K. rewrite P in K. destruct K.
Qed.
Lemma select_in : forall d n m, In (n, m) (select d) <-> enabled m = true /\ exists l, In (n, m :: l) d.
Proof.
  intros d n m. unfold select. rewrite in_flat_map. split.
  - intros ([n' l] & I & J). cbn [fst snd] in J. destruct l as [|x l]; [destruct J|]. destruct (enabled x) eqn:E; [|destruct J].
    destruct J as [J|[]]. injection J as -> ->. split; [exact E|]. exists l. exact I.
  - intros (E & l & I). exists (n, m :: l). split; [exact I|]. cbn [fst snd]. rewrite E. left. reflexivity.
Qed.
Lemma select_keys : forall d, NoDup (map fst d) -> NoDup (map fst (select d)).
Proof.
  intros d. induction d as [|[n l] d IH]; intros ND; [constructor|]. cbn [map fst] in ND. apply NoDup_cons_iff in ND. destruct ND as [NI ND].
  change (select ((n, l) :: d)) with ((match l with m :: _ => if enabled m then [(n, m)] else [] | [] => [] end) ++ select d).
  destruct l as [|m l]; [exact (IH ND)|]. destruct (enabled m); [|exact (IH ND)]. cbn [app map fst]. constructor; [|exact (IH ND)].
  intros I. apply NI. apply in_map_iff in I. destruct I as ([n' m'] & E & I). cbn [fst] in E. subst n'. apply select_in in I. destruct I as (_ & k & I).
  apply (in_map fst) in I. exact I.
Qed.
Lemma select_nodup : forall found d, discover found = Ok d -> NoDup (map fst (select d)).
Proof. intros found d H. apply select_keys. exact (proj1 (discover_keys found d H)). Qed.

Lemma chosen : forall found d n m, discover found = Ok d -> In (n, m) (select d) ->
  In m found /\ mname m = n /\ enabled m = true /\
  (n <> CORE -> (forall m', In m' found -> mname m' = n -> ~ better m' m) /\
                forall m', In m' found -> mname m' = n -> even m' m -> m' = m \/ before m m' found).
Proof.
  intros found d n m H I. apply select_in in I. destruct I as (E & l & I).
  destruct (pystr_eq_dec n CORE) as [->|NC].
  - pose proof (discover_core found d _ H I) as L. assert (J : In m (filter (called CORE) found)) by (rewrite <- L; left; reflexivity).
    apply called_in in J. destruct J as [J1 J2]. split; [exact J1|]. split; [exact J2|]. split; [exact E|]. intros C. contradiction.
  - destruct (discover_entry found d n _ H I NC) as (P & S & ST).
    assert (J : In m found /\ mname m = n) by (apply called_in; eapply Permutation_in; [exact P|left; reflexivity]).
    destruct J as [J1 J2]. split; [exact J1|]. split; [exact J2|]. split; [exact E|]. intros _.
    assert (Q : forall m', In m' found -> mname m' = n -> m' = m \/ In m' l).
    { intros m' K1 K2. assert (K : In m' (m :: l)) by (eapply Permutation_in; [symmetry; exact P|]; apply called_in; auto). destruct K as [<-|K]; auto. }
    inversion S as [|? ? S' F]; subst. rewrite Forall_forall in F. split.
    + intros m' K1 K2. destruct (Q m' K1 K2) as [->|K]; [|exact (F m' K)].
      intros (u & v & U & V & B). assert (u = v) by congruence. subst v. destruct B as [B|(_ & B1 & B2)]; [|congruence].
      apply older_cmp in B. rewrite (cmp_refl _ tuple_ordered) in B. discriminate.
    + intros m' K1 K2 Ev. destruct (Q m' K1 K2) as [->|K]; [left; reflexivity|right].
      destruct Ev as (u & U & V & X). apply (ST m m' eq_refl); [exists u; auto|exact K2|]. apply in_split in K. destruct K as (k1 & k2 & ->). exists [], k1, k2. reflexivity.
Qed.
Lemma chosen_all : forall found d n, discover found = Ok d -> (exists m, In m found /\ mname m = n) ->
  exists m l, In (n, m :: l) d /\ (enabled m = true <-> exists m', In (n, m') (select d)).
Proof.
  intros found d n H X. apply (discover_keys found d H) in X. apply in_map_iff in X. destruct X as ([n' l] & E & I). cbn [fst] in E. subst n'.
  destruct l as [|m l]; [destruct (discover_nonempty found d n H I)|]. exists m, l. split; [exact I|]. split.
  - intros E. exists m. apply select_in. split; [exact E|]. exists l. exact I.
  - intros (m' & J). apply select_in in J. destruct J as (E & l' & J).
    assert (K : dget pystr_eqb d n = Some (m :: l)) by (apply dget_in; [exact pystr_eqb_eq|exact (proj1 (discover_keys found d H))|exact I]).
    apply (dget_in pystr_eqb pystr_eqb_eq _ _ _ (proj1 (discover_keys found d H))) in J. congruence.
Qed.

Lemma map_result_fails : forall {A B} (f : A -> result B) l e, map_result f l = Err e -> exists a, In a l /\ f a = Err e.
Proof.
  intros A B f l e. induction l as [|x l IH]; intros H; [discriminate|]. cbn [map_result] in H. destruct (f x) as [y|e'] eqn:E.
  - cbn [bind] in H. destruct (map_result f l) as [ys|e']; [discriminate|]. cbn [bind] in H. injection H as ->.
    destruct (IH eq_refl) as (a & I & F). exists a. split; [right; exact I|exact F].
  - cbn [bind] in H. injection H as ->. exists x. split; [left; reflexivity|exact E].
Qed.
Lemma version_fails : forall s e, version_string_to_tuple s = Err e -> e = ValueError.
Proof.
  intros s e H. apply map_result_fails in H. destruct H as (p & _ & H). unfold py_int in H. destruct (strip p) as [|c r]; [congruence|].
  match type of H with match ?o with _ => _ end = _ => destruct o end; congruence.
Qed.
Lemma discover_iff : forall found,
  (exists d, discover found = Ok d) <-> forall m, In m found -> mname m <> CORE -> exists v, version_string_to_tuple (mversion m) = Ok v.
Proof.
  intros found. split.
  - intros (d & H) m I NC. unfold discover in H. apply map_result_ok_forall2 in H.
    assert (G : In (mname m, filter (called (mname m)) found) (group found)).
    { apply group_in. split; [|reflexivity]. intros E. assert (J : In m (filter (called (mname m)) found)) by (apply called_in; auto). rewrite E in J. destruct J. }
    destruct (forall2_in_l _ _ _ _ H G) as (y & _ & S). unfold sort_entry in S. cbn [fst snd] in S.
    destruct (pystr_eqb (mname m) CORE) eqn:C; [apply pystr_eqb_eq in C; contradiction|].
    apply bind_ok in S. destruct S as (r & S & _). unfold sort_versions in S. apply bind_ok in S. destruct S as (kl & K & _).
    apply map_result_ok_forall2 in K. assert (J : In m (filter (called (mname m)) found)) by (apply called_in; auto).
    destruct (forall2_in_l _ _ _ _ K J) as (k & _ & Q). unfold keyed in Q. apply bind_ok in Q. destruct Q as (v & V & _). exists v. exact V.
  - intros P. apply map_result_fun. intros [n l] I. apply group_in in I. destruct I as [_ ->]. unfold sort_entry. cbn [fst snd].
    destruct (pystr_eqb n CORE) eqn:C; [eexists; reflexivity|]. unfold sort_versions.
    destruct (map_result_fun keyed (filter (called n) found)) as (kl & ->); [|eexists; reflexivity].
    intros m J. apply called_in in J. destruct J as [J <-]. destruct (P m J) as (v & V).
    + intros E. rewrite E, pystr_eqb_refl in C. discriminate.
    + unfold keyed. rewrite V. eexists. reflexivity.
Qed.
Lemma discover_error : forall found e, discover found = Err e -> e = ValueError.
Proof.
  intros found e H. apply map_result_fails in H. destruct H as ([n l] & _ & H). unfold sort_entry in H. cbn [fst snd] in H.
  destruct (pystr_eqb n CORE); [discriminate|]. unfold sort_versions in H. destruct (map_result keyed l) as [kl|e'] eqn:K; [discriminate|].
  cbn [bind] in H. injection H as ->. apply map_result_fails in K. destruct K as (m & _ & K). unfold keyed in K.
  destruct (version_string_to_tuple (mversion m)) as [v|e'] eqn:V; [discriminate|]. cbn [bind] in K. injection K as ->. exact (version_fails _ _ V).
Qed.

(** Nothing but usable dependencies lets the mods load. *)
Lemma order_blocked : forall fuel ms n m d, NoDup (map fst ms) -> unresolved ms -> In (n, m) ms -> In d (entries n m) -> ~ usable ms d ->
  forall o, load_order fuel ms <> Ok o.
Proof.
  intros fuel ms n m d ND U I D N o H. apply N. exact (proj2 (proj1 (order_acyclic fuel ms o ND U H) n m I) d D).
Qed.
Lemma order_cyclic : forall fuel ms o, NoDup (map fst ms) -> unresolved ms -> load_order fuel ms = Ok o ->
  forall a l, ~ (exists b, hd_error l = Some b /\ requires ms a b /\ (forall i x y, nth_error l i = Some x -> nth_error l (S i) = Some y -> requires ms x y) /\ nth_error l (List.length l - 1) = Some a).
Proof.
  intros fuel ms o ND U H a l (b & Hb & R & C & L). destruct (order_acyclic fuel ms o ND U H) as (_ & bound & rank & _ & D).
  assert (G : forall i x, nth_error l i = Some x -> (rank x <= rank b)%nat).
  { induction i as [|i IH]; intros x E.
    - destruct l as [|y l]; [discriminate|]. cbn in E, Hb. assert (x = b) by congruence. subst x. lia.
    - destruct (nth_error l i) as [y|] eqn:Y.
      + pose proof (D _ _ (C i y x Y E)). specialize (IH y eq_refl). lia.
      + apply nth_error_None in Y. assert (nth_error l (S i) <> None) by congruence. apply nth_error_Some in H0. lia. }
  specialize (G _ _ L). pose proof (D _ _ R). lia.
Qed.
