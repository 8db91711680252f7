(** Proofs about the register of entities. *)
From Coq Require Import ZArith NArith List Bool String Lia Permutation.
From Verif Require Import Common Dict Order Ranking_Model Ranking_Spec Ranking_Proofs Registry_Model Registry_Spec.
Import ListNotations.
Local Open Scope string_scope.
Local Open Scope list_scope.

Lemma sget {V} d k (v : V) k' : dget pystr_eqb (dset pystr_eqb d k v) k' = if pystr_eqb k k' then Some v else dget pystr_eqb d k'.
Proof. apply dget_dset. exact pystr_eqb_eq. Qed.
Lemma sget_same {V} d k (v : V) : dget pystr_eqb (dset pystr_eqb d k v) k = Some v.
Proof. rewrite sget, pystr_eqb_refl. reflexivity. Qed.
Lemma sget_other {V} d k (v : V) k' : k <> k' -> dget pystr_eqb (dset pystr_eqb d k v) k' = dget pystr_eqb d k'.
Proof. intros N. rewrite sget. destruct (pystr_eqb k k') eqn:E; [apply pystr_eqb_eq in E; contradiction|reflexivity]. Qed.
Lemma mem_in x l : mem x l = true <-> In x l.
Proof.
  unfold mem. split.
  - intros E. apply existsb_exists in E as (y & I & E). apply pystr_eqb_eq in E. congruence.
  - intros I. apply existsb_exists. exists x. split; [exact I|apply pystr_eqb_refl].
Qed.
Lemma mem_out x l : mem x l = false <-> ~ In x l.
Proof. rewrite <- mem_in. destruct (mem x l); split; congruence. Qed.
Lemma dset_fresh {V} (d : sdict V) k v : ~ In k (map fst d) -> dset pystr_eqb d k v = d ++ [(k, v)].
Proof.
  induction d as [|[k' w] d IH]; cbn; intros N; [reflexivity|]. destruct (pystr_eqb k' k) eqn:E.
  - apply pystr_eqb_eq in E. exfalso. apply N. left. exact E.
  - rewrite IH; [reflexivity|]. intros I. apply N. right. exact I.
Qed.
Lemma filter_nodup {V} (f : pystr * V -> bool) (l : list (pystr * V)) c : forall a, NoDup (a ++ map fst l ++ c) -> NoDup (a ++ map fst (filter f l) ++ c).
Proof.
  induction l as [|[k v] l IH]; intros a D; [exact D|]. cbn [filter map fst app] in *. destruct (f (k, v)); cbn [map fst app].
  - change (a ++ k :: map fst (filter f l) ++ c) with (a ++ [k] ++ map fst (filter f l) ++ c). rewrite app_assoc. apply IH. rewrite <- app_assoc. exact D.
  - apply IH. exact (NoDup_remove_1 _ _ _ D).
Qed.

(** ** One table. *)
Definition box_of (s : source) : box := match s_box s with Some b => b | None => (0, 0, 0, 0)%Z end.
Definition settled (p : pystr) (s : source) : source :=
  mkSrc (s_name s) (s_type s) (s_box s) (Some (match s_mask s with Some (a :: l) => a :: l | _ => default_mask p end))
    (s_hidden s) (s_flags s) (s_order s) (s_subgroup s) (s_mined s) (s_mode s).
Definition final (p : pystr) (ks : pystr * source) : pystr * entry := (fst ks, made (fst ks) p (box_of (snd ks)) (settled p (snd ks))).
Definition flip_of (p k : pystr) : bool :=
  negb (mem k [str "pumpjack"; str "chemical-plant"; str "oil-refinery"]) && negb (mem p [str "rail-signal"; str "rail-chain-signal"; str "train-stop"]).
Definition flip (p : pystr) (ks : pystr * source) : pystr * bool := (fst ks, flip_of p (fst ks)).
Definition us (l : list (pystr * source)) : list (pystr * source) := filter (fun ks => usable (snd ks)) l.
Definition named_in (p : pystr) (l : list (pystr * source)) : Prop := forall k s, In (k, s) l -> s_name s = Some k /\ s_type s = Some p.
Definition boxed (l : list (pystr * source)) : Prop := forall k s, In (k, s) (us l) -> s_box s <> None.
Definition grown (types : sdict (list pystr)) (p : pystr) (ns : list pystr) (t : pystr) : option (list pystr) :=
  match ns with
  | [] => dget pystr_eqb types t
  | _ => if pystr_eqb p t then Some (match dget pystr_eqb types p with Some l => l | None => [] end ++ ns) else dget pystr_eqb types t
  end.

Lemma usable_eq s : mem (str "not-blueprintable") (match s_flags s with Some f => f | None => [] end) = negb (usable s).
Proof.
  unfold usable. destruct (s_flags s) as [f|]; [|reflexivity]. destruct (in_dec pystr_eq_dec (str "not-blueprintable") f) as [I|N].
  - apply mem_in. exact I.
  - apply mem_out. exact N.
Qed.
Lemma categorize_eq p k s fl : s_name s = Some k -> s_type s = Some p ->
  categorize k s fl = Ok (if usable s then Some (settled p s, dset pystr_eqb fl k (flip_of p k)) else None).
Proof.
  intros N T. unfold categorize. rewrite usable_eq. destruct (usable s); cbn [negb]; [|reflexivity].
  assert (F : flippable_of s = Ok (flip_of p k)).
  { unfold flippable_of, flip_of. rewrite N, T. cbn [need bind]. destruct (mem k _); reflexivity. }
  rewrite F. unfold settled. rewrite T. destruct (s_mask s) as [[|a m]|]; reflexivity.
Qed.
Lemma add_source_eq p k s x : s_name s = Some k -> s_type s = Some p ->
  add_source k s x = if usable s then
    match s_box s with
    | Some b => Ok (Some (mkX (dset pystr_eqb (x_raw x) k (made k p b (settled p s))) (enlist (x_types x) p k) (dset pystr_eqb (x_flip x) k (flip_of p k))))
    | None => Err TypeError
    end else Ok None.
Proof.
  intros N T. unfold add_source. rewrite (categorize_eq p k s _ N T). cbn [bind]. destruct (usable s); [|reflexivity].
  unfold register. cbn [settled s_name s_type s_box x_raw x_types x_flip]. rewrite N, T. destruct (s_box s); reflexivity.
Qed.
Lemma grown_cons types p k ns t : grown types p (k :: ns) t = grown (enlist types p k) p ns t.
Proof.
  unfold grown, enlist. destruct ns as [|a ns].
  - rewrite sget. destruct (pystr_eqb p t) eqn:E; [|reflexivity]. destruct (dget pystr_eqb types p); reflexivity.
  - rewrite sget, pystr_eqb_refl, sget. destruct (pystr_eqb p t); [|reflexivity]. destruct (dget pystr_eqb types p) as [l|]; [rewrite <- app_assoc|]; reflexivity.
Qed.
Lemma sources_ok p l : forall x, named_in p l -> boxed l -> map fst (x_flip x) = map fst (x_raw x) -> NoDup (map fst (x_raw x) ++ map fst l) ->
  exists x', add_sources l x = Ok x' /\ x_raw x' = x_raw x ++ map (final p) (us l) /\ x_flip x' = x_flip x ++ map (flip p) (us l) /\
    forall t, dget pystr_eqb (x_types x') t = grown (x_types x) p (map fst (us l)) t.
Proof.
  induction l as [|[k s] l IH]; intros x NA BO FR ND.
  - exists x. cbn. rewrite !app_nil_r. auto.
  - cbn [add_sources]. destruct (NA k s (or_introl eq_refl)) as [N T]. rewrite (add_source_eq p k s x N T). pose proof (NoDup_remove_2 _ _ _ ND) as NI.
    assert (NA' : named_in p l) by (intros k' s' I; apply NA; right; exact I).
    unfold us in *. cbn [filter snd] in *. destruct (usable s) eqn:U; cbn [bind].
    + destruct (s_box s) as [b|] eqn:B.
      2:{ exfalso. apply (BO k s); [cbn [us filter]; unfold us; cbn [filter snd]; rewrite U; left; reflexivity|exact B]. }
      cbn [bind]. rewrite !dset_fresh; [|rewrite FR|]; [|intros I; apply NI, in_or_app; left; exact I|intros I; apply NI, in_or_app; left; exact I].
      match goal with |- context [add_sources l ?y] => destruct (IH y) as (x' & E & R & F & G) end.
      * exact NA'.
      * intros k' s' I. apply (BO k' s'). unfold us. cbn [filter snd]. rewrite U. right. exact I.
      * cbn [x_flip x_raw]. rewrite !map_app, FR. reflexivity.
      * cbn [x_raw]. rewrite map_app. cbn. rewrite <- app_assoc. exact ND.
      * exists x'. split; [exact E|]. cbn [x_raw x_types x_flip] in R, F, G. split; [rewrite R, <- app_assoc; unfold final at 2, box_of; cbn; rewrite B; reflexivity|].
        split; [rewrite F, <- app_assoc; reflexivity|]. intros t. rewrite G. cbn [map fst]. symmetry. apply grown_cons.
    + apply IH; [exact NA'| |exact FR|exact (NoDup_remove_1 _ _ _ ND)]. intros k' s' I. apply (BO k' s'). unfold us. cbn [filter snd]. rewrite U. exact I.
Qed.
Lemma sources_err p l : forall x, named_in p l -> ~ boxed l -> exists e, add_sources l x = Err e.
Proof.
  induction l as [|[k s] l IH]; intros x NA NB.
  - exfalso. apply NB. intros k s [].
  - cbn [add_sources]. destruct (NA k s (or_introl eq_refl)) as [N T]. rewrite (add_source_eq p k s x N T).
    assert (NA' : named_in p l) by (intros k' s' I; apply NA; right; exact I).
    destruct (usable s) eqn:U.
    + destruct (s_box s) as [b|] eqn:B; [|eexists; reflexivity]. cbn [bind]. apply IH; [exact NA'|]. intros BO. apply NB. intros k' s' I. unfold us in I. cbn [filter snd] in I. rewrite U in I.
      destruct I as [I|I]; [inversion I; subst; congruence|]. exact (BO k' s' I).
    + cbn [bind]. apply IH; [exact NA'|]. intros BO. apply NB. intros k' s' I. unfold us in I. cbn [filter snd] in I. rewrite U in I. exact (BO k' s' I).
Qed.

(** ** Many tables. *)
Definition table_ok (data : sdict (list (pystr * source))) (p : pystr) : Prop :=
  forall l, dget pystr_eqb data p = Some l -> us l <> [] /\ boxed l.
Lemma box_dec l : boxed l \/ ~ boxed l.
Proof.
  unfold boxed. induction (us l) as [|[k s] u IH]; [left; intros k s []|]. destruct IH as [H|H].
  - destruct (s_box s) as [b|] eqn:B.
    + left. intros k' s' [I|I]; [inversion I; subst; congruence|eauto].
    + right. intros C. exact (C k s (or_introl eq_refl) B).
  - right. intros C. apply H. intros k' s' I. apply (C k' s'). right. exact I.
Qed.
Lemma table_step data p x : named_in p (table_of data p) -> dget pystr_eqb (x_types x) p = None -> map fst (x_flip x) = map fst (x_raw x) ->
  NoDup (map fst (x_raw x) ++ map fst (table_of data p)) -> table_ok data p ->
  exists x', add_table data p x = Ok x' /\ x_raw x' = x_raw x ++ map (final p) (us (table_of data p)) /\ x_flip x' = x_flip x ++ map (flip p) (us (table_of data p)) /\
    forall t, dget pystr_eqb (x_types x') t = if pystr_eqb p t then Some (map fst (us (table_of data p))) else dget pystr_eqb (x_types x) t.
Proof.
  intros NA NT FR ND OK. unfold add_table, table_of, table_ok in *. destruct (dget pystr_eqb data p) as [l|] eqn:D.
  - destruct (OK l eq_refl) as [U B]. destruct (sources_ok p l x NA B FR ND) as (x' & E & R & F & G).
    destruct l as [|ks l]; [destruct (U eq_refl)|]. rewrite E. cbn [bind].
    assert (T : dget pystr_eqb (x_types x') p = Some (map fst (us (ks :: l)))).
    { rewrite G. unfold grown. rewrite pystr_eqb_refl, NT. destruct (us (ks :: l)); [destruct (U eq_refl)|reflexivity]. }
    rewrite T. cbn [need bind]. exists x'. split; [reflexivity|]. split; [exact R|]. split; [exact F|]. intros t. rewrite G. unfold grown. rewrite NT.
    destruct (us (ks :: l)); [destruct (U eq_refl)|]. reflexivity.
  - exists (mkX (x_raw x) (dset pystr_eqb (x_types x) p []) (x_flip x)). cbn. rewrite !app_nil_r. repeat split. intros t. apply sget.
Qed.
Lemma table_fail data p x : named_in p (table_of data p) -> dget pystr_eqb (x_types x) p = None -> map fst (x_flip x) = map fst (x_raw x) ->
  NoDup (map fst (x_raw x) ++ map fst (table_of data p)) -> (exists x', add_table data p x = Ok x') -> table_ok data p.
Proof.
  intros NA NT FR ND [x' E] l D. unfold add_table, table_of in *. rewrite D in *. destruct l as [|ks l]; [discriminate|].
  destruct (box_dec (ks :: l)) as [B|B].
  - split; [|exact B]. intros U. destruct (sources_ok p _ x NA B FR ND) as (y & E' & _ & _ & G). rewrite E' in E. cbn [bind] in E. rewrite G, U in E. cbn in E. rewrite NT in E. discriminate.
  - exfalso. destruct (sources_err p _ x NA B) as [e E']. rewrite E' in E. discriminate.
Qed.
Definition entries (data : sdict (list (pystr * source))) (ps : list pystr) : sdict entry := flat_map (fun p => map (final p) (us (table_of data p))) ps.
Definition flip_all (data : sdict (list (pystr * source))) (ps : list pystr) : sdict bool := flat_map (fun p => map (flip p) (us (table_of data p))) ps.
Lemma final_keys p l : map fst (map (final p) l) = map fst l.
Proof. rewrite map_map. apply map_ext. reflexivity. Qed.
Lemma flip_keys p l : map fst (map (flip p) l) = map fst l.
Proof. rewrite map_map. apply map_ext. reflexivity. Qed.
Lemma tables_step data : forall ps x rest, (forall p, In p ps -> named_in p (table_of data p)) -> NoDup ps -> (forall p, In p ps -> dget pystr_eqb (x_types x) p = None) ->
  map fst (x_flip x) = map fst (x_raw x) -> NoDup (map fst (x_raw x) ++ flat_map (fun p => map fst (table_of data p)) ps ++ rest) ->
  ((exists x', add_tables data ps x = Ok x') <-> forall p, In p ps -> table_ok data p) /\
  forall x', add_tables data ps x = Ok x' -> x_raw x' = x_raw x ++ entries data ps /\ x_flip x' = x_flip x ++ flip_all data ps /\
    (forall t, dget pystr_eqb (x_types x') t = if mem t ps then Some (map fst (us (table_of data t))) else dget pystr_eqb (x_types x) t) /\
    NoDup (map fst (x_raw x') ++ rest) /\ map fst (x_flip x') = map fst (x_raw x').
Proof.
  induction ps as [|p ps IH]; intros x rest NA NP NT FR ND.
  - cbn. split; [split; [intros _ p []|eauto]|]. intros x' E. inversion E; subst. rewrite !app_nil_r. auto.
  - cbn [add_tables]. apply NoDup_cons_iff in NP as [NI NP].
    assert (NDp : NoDup (map fst (x_raw x) ++ map fst (table_of data p))).
    { cbn [flat_map] in ND. rewrite <- app_assoc in ND. rewrite app_assoc in ND. revert ND.
      generalize (map fst (x_raw x) ++ map fst (table_of data p)). intros a. generalize (flat_map (fun p => map fst (table_of data p)) ps ++ rest). intros b H.
      clear - H. induction a as [|y a IH]; [constructor|]. cbn in H. apply NoDup_cons_iff in H as [A B]. constructor; [|auto]. intros C. apply A, in_or_app. left. exact C. }
    pose proof (table_step data p x (NA p (or_introl eq_refl)) (NT p (or_introl eq_refl)) FR NDp) as ST.
    pose proof (table_fail data p x (NA p (or_introl eq_refl)) (NT p (or_introl eq_refl)) FR NDp) as SF.
    destruct (add_table data p x) as [y|e] eqn:E; cbn [bind].
    + pose proof (SF (ex_intro _ y eq_refl)) as OK. destruct (ST OK) as (y' & Y & R & F & G). inversion Y; subst y'; clear Y.
      destruct (IH y rest) as [A B].
      * intros q I. apply NA. right. exact I.
      * exact NP.
      * intros q I. rewrite G. destruct (pystr_eqb p q) eqn:X; [apply pystr_eqb_eq in X; subst; contradiction|]. apply NT. right. exact I.
      * rewrite R, F, !map_app, final_keys, flip_keys, FR. reflexivity.
      * rewrite R, map_app, final_keys. unfold us. rewrite <- app_assoc. apply filter_nodup. cbn [flat_map] in ND. rewrite <- app_assoc in ND. exact ND.
      * split.
        -- rewrite A. split; [intros H q [<-|I]; auto|intros H q I; apply H; right; exact I].
        -- intros x' E'. destruct (B x' E') as (R' & F' & G' & N' & FR'). cbn [entries flip_all flat_map]. fold (entries data ps) (flip_all data ps).
           split; [rewrite R', R, app_assoc; reflexivity|]. split; [rewrite F', F, app_assoc; reflexivity|]. split; [|split; [exact N'|exact FR']].
           intros t. rewrite G', G. cbn [mem existsb]. fold (mem t ps). destruct (pystr_eqb p t) eqn:X.
           ++ apply pystr_eqb_eq in X. subst t. rewrite pystr_eqb_refl. cbn [orb]. destruct (mem p ps); reflexivity.
           ++ assert (X' : pystr_eqb t p = false). { destruct (pystr_eqb t p) eqn:Z; [apply pystr_eqb_eq in Z; subst; rewrite pystr_eqb_refl in X; discriminate|reflexivity]. }
              rewrite X'. reflexivity.
    + split; [|discriminate]. split; [intros [z Z]; discriminate|]. intros H. destruct (ST (H p (or_introl eq_refl))) as (z & Z & _). discriminate.
Qed.

(** ** Logistic containers. *)
Definition lc : pystr := str "logistic-container".
Definition to_list (t : pystr) (s : source) : bool :=
  match s_mode s with Some m => match dget pystr_eqb modes m with Some t' => pystr_eqb t' t | None => false end | None => false end.
Definition sel (t : pystr) (l : list (pystr * source)) : list pystr := map fst (filter (fun ks => to_list t (snd ks)) (us l)).
Definition moded (l : list (pystr * source)) : Prop := forall k s, In (k, s) (us l) -> s_mode s <> None.
Lemma mode_not_lc m t : dget pystr_eqb modes m = Some t -> t <> lc.
Proof.
  intros E. apply (dget_some_in pystr_eqb pystr_eqb_eq) in E. unfold modes in E. cbn [In] in E.
  repeat (destruct E as [E|E]; [injection E as <- <-; discriminate|]). destruct E.
Qed.
Lemma us_cons k s l : us ((k, s) :: l) = if usable s then (k, s) :: us l else us l.
Proof. reflexivity. Qed.
Lemma logi_ok l : forall x, named_in lc l -> boxed l -> moded l -> map fst (x_flip x) = map fst (x_raw x) -> NoDup (map fst (x_raw x) ++ map fst l) ->
  (forall m t, dget pystr_eqb modes m = Some t -> dget pystr_eqb (x_types x) t <> None) ->
  exists x', add_logistic l x = Ok x' /\ x_raw x' = x_raw x ++ map (final lc) (us l) /\ x_flip x' = x_flip x ++ map (flip lc) (us l) /\
    (forall t, t <> lc -> dget pystr_eqb (x_types x') t = match dget pystr_eqb (x_types x) t with Some o => Some (o ++ sel t l) | None => None end) /\
    dget pystr_eqb (x_types x') lc = grown (x_types x) lc (map fst (us l)) lc.
Proof.
  induction l as [|[k s] l IH]; intros x NA BO MO FR ND TY.
  - exists x. cbn. rewrite !app_nil_r. repeat split. intros t _. destruct (dget pystr_eqb (x_types x) t); [rewrite app_nil_r|]; reflexivity.
  - cbn [add_logistic]. destruct (NA k s (or_introl eq_refl)) as [N T]. rewrite (add_source_eq lc k s x N T). pose proof (NoDup_remove_2 _ _ _ ND) as NI.
    assert (NA' : named_in lc l) by (intros k' s' I; apply NA; right; exact I).
    unfold sel. rewrite us_cons. destruct (usable s) eqn:U; cbn [bind].
    + assert (IK : In (k, s) (us ((k, s) :: l))) by (rewrite us_cons, U; left; reflexivity).
      assert (BO' : boxed l). { intros k' s' I. apply (BO k' s'). rewrite us_cons, U. right. exact I. }
      assert (MO' : moded l). { intros k' s' I. apply (MO k' s'). rewrite us_cons, U. right. exact I. }
      destruct (s_box s) as [b|] eqn:B; [|destruct (BO k s IK B)].
      destruct (s_mode s) as [m|] eqn:M; [|destruct (MO k s IK M)].
      cbn [bind need]. rewrite !dset_fresh; [|rewrite FR|]; [|intros I; apply NI, in_or_app; left; exact I|intros I; apply NI, in_or_app; left; exact I].
      assert (FK : (k, made k lc b (settled lc s)) = final lc (k, s)) by (unfold final, box_of; cbn [fst snd]; rewrite B; reflexivity).
      cbn [x_raw x_types x_flip]. destruct (dget pystr_eqb modes m) as [t0|] eqn:DM.
      * assert (N0 : t0 <> lc) by exact (mode_not_lc m t0 DM).
        destruct (dget pystr_eqb (x_types x) t0) as [o0|] eqn:D0; [|destruct (TY m t0 DM D0)].
        assert (DE : dget pystr_eqb (enlist (x_types x) lc k) t0 = Some o0). { unfold enlist. rewrite sget_other by (intros Z; apply N0; symmetry; exact Z). exact D0. }
        rewrite DE. cbn [need bind].
        match goal with |- context [add_logistic l ?y] => destruct (IH y) as (x' & E & R & F & G & H) end.
        -- exact NA'.
        -- exact BO'.
        -- exact MO'.
        -- cbn [x_flip x_raw]. rewrite !map_app, FR. reflexivity.
        -- cbn [x_raw]. rewrite map_app. cbn. rewrite <- app_assoc. exact ND.
        -- intros m' t' DM'. cbn [x_types]. rewrite sget. destruct (pystr_eqb t0 t'); [discriminate|]. unfold enlist.
           rewrite sget_other by (intros Z; exact (mode_not_lc _ _ DM' (eq_sym Z))). exact (TY m' t' DM').
        -- exists x'. split; [exact E|]. cbn [x_raw x_types x_flip] in R, F, G, H. split; [rewrite R, <- app_assoc, FK; reflexivity|].
           split; [rewrite F, <- app_assoc; reflexivity|]. split.
           ++ intros t NE. rewrite (G t NE), sget. cbn [filter snd]. assert (TL : to_list t s = pystr_eqb t0 t) by (unfold to_list; rewrite M, DM; reflexivity). rewrite TL. destruct (pystr_eqb t0 t) eqn:X.
              ** apply pystr_eqb_eq in X. subst t. rewrite D0. cbn [map fst]. rewrite <- app_assoc. reflexivity.
              ** unfold enlist. rewrite sget_other by (intros Z; apply NE; symmetry; exact Z). reflexivity.
           ++ rewrite H. cbn [map fst]. rewrite grown_cons. unfold grown. rewrite !(sget_other _ t0 _ lc N0). reflexivity.
      * match goal with |- context [add_logistic l ?y] => destruct (IH y) as (x' & E & R & F & G & H) end.
        -- exact NA'.
        -- exact BO'.
        -- exact MO'.
        -- cbn [x_flip x_raw]. rewrite !map_app, FR. reflexivity.
        -- cbn [x_raw]. rewrite map_app. cbn. rewrite <- app_assoc. exact ND.
        -- intros m' t' DM'. cbn [x_types]. unfold enlist. rewrite sget_other by (intros Z; exact (mode_not_lc _ _ DM' (eq_sym Z))). exact (TY m' t' DM').
        -- exists x'. split; [exact E|]. cbn [x_raw x_types x_flip] in R, F, G, H. split; [rewrite R, <- app_assoc, FK; reflexivity|].
           split; [rewrite F, <- app_assoc; reflexivity|]. split.
           ++ intros t NE. rewrite (G t NE). cbn [filter snd]. assert (TL : to_list t s = false) by (unfold to_list; rewrite M, DM; reflexivity). rewrite TL. unfold enlist.
              rewrite sget_other by (intros Z; apply NE; symmetry; exact Z). reflexivity.
           ++ rewrite H. cbn [map fst]. rewrite grown_cons. reflexivity.
    + apply IH; [exact NA'| | |exact FR|exact (NoDup_remove_1 _ _ _ ND)|exact TY].
      * intros k' s' I. apply (BO k' s'). rewrite us_cons, U. exact I.
      * intros k' s' I. apply (MO k' s'). rewrite us_cons, U. exact I.
Qed.
Lemma logi_fail l : forall x, named_in lc l -> (exists x', add_logistic l x = Ok x') -> boxed l /\ moded l.
Proof.
  induction l as [|[k s] l IH]; intros x NA [x' E]; [split; intros k s []|].
  cbn [add_logistic] in E. destruct (NA k s (or_introl eq_refl)) as [N T]. rewrite (add_source_eq lc k s x N T) in E.
  assert (NA' : named_in lc l) by (intros k' s' I; apply NA; right; exact I).
  unfold boxed, moded. rewrite us_cons. destruct (usable s); cbn [bind] in E.
  - destruct (s_box s) as [b|] eqn:B; [|discriminate]. cbn [bind] in E. destruct (s_mode s) as [m|] eqn:M; [|discriminate]. cbn [need bind] in E.
    assert (X : boxed l /\ moded l).
    { destruct (dget pystr_eqb modes m) as [t|].
      - destruct (need _) as [ns|]; [|discriminate]. cbn [bind] in E. exact (IH _ NA' (ex_intro _ x' E)).
      - exact (IH _ NA' (ex_intro _ x' E)). }
    destruct X as [X Y]. split; intros k' s' [I|I]; [inversion I; subst; congruence|eauto|inversion I; subst; congruence|eauto].
  - exact (IH _ NA' (ex_intro _ x' E)).
Qed.
Lemma start_modes : forall ms (types : sdict (list pystr)) t, dget pystr_eqb (fold_left (fun d t => dset pystr_eqb d t []) ms types) t = if mem t ms then Some [] else dget pystr_eqb types t.
Proof.
  induction ms as [|m ms IH]; intros types t; [reflexivity|]. cbn [fold_left]. refine (eq_trans (IH _ t) _). rewrite (sget types m (@nil pystr) t). cbn [mem existsb]. fold (mem t ms).
  destruct (mem t ms); [rewrite orb_true_r; reflexivity|]. rewrite orb_false_r. destruct (pystr_eqb m t) eqn:X.
  - apply pystr_eqb_eq in X. subst. rewrite pystr_eqb_refl. reflexivity.
  - destruct (pystr_eqb t m) eqn:Z; [apply pystr_eqb_eq in Z; subst; rewrite pystr_eqb_refl in X; discriminate|reflexivity].
Qed.

(** ** The lists of tables. *)
Fixpoint nodupb (l : list pystr) : bool := match l with [] => true | x :: r => negb (mem x r) && nodupb r end.
Lemma nodupb_ok l : nodupb l = true -> NoDup l.
Proof.
  induction l as [|x l IH]; [constructor|]. cbn [nodupb]. intros H. apply andb_true_iff in H as [A B]. constructor; [|auto].
  apply mem_out. apply negb_true_iff. exact A.
Qed.
Definition apart (l l' : list pystr) : bool := forallb (fun x => negb (mem x l')) l.
Lemma apart_ok l l' x : apart l l' = true -> In x l -> ~ In x l'.
Proof. unfold apart. rewrite forallb_forall. intros H I. apply mem_out, negb_true_iff, H. exact I. Qed.
Lemma before_nodup : NoDup tables_before. Proof. apply nodupb_ok. vm_compute. reflexivity. Qed.
Lemma after_nodup : NoDup tables_after. Proof. apply nodupb_ok. vm_compute. reflexivity. Qed.
Lemma before_after x : In x tables_before -> ~ In x tables_after. Proof. apply apart_ok. vm_compute. reflexivity. Qed.
Lemma before_modes x : In x (map snd modes) -> ~ In x tables_before. Proof. apply apart_ok. vm_compute. reflexivity. Qed.
Lemma after_modes x : In x (map snd modes) -> ~ In x tables_after. Proof. apply apart_ok. vm_compute. reflexivity. Qed.
Lemma lc_before : ~ In lc tables_before. Proof. apply mem_out. vm_compute. reflexivity. Qed.
Lemma lc_after : ~ In lc tables_after. Proof. apply mem_out. vm_compute. reflexivity. Qed.
Lemma lc_modes : ~ In lc (map snd modes). Proof. apply mem_out. vm_compute. reflexivity. Qed.
Lemma mode_in m t : dget pystr_eqb modes m = Some t -> In t (map snd modes).
Proof. intros E. apply (dget_some_in pystr_eqb pystr_eqb_eq) in E. apply in_map_iff. exists (m, t). auto. Qed.
Lemma modes_list m t : dget pystr_eqb modes m = Some t <-> logistic_list m t.
Proof.
  split.
  - intros E. apply (dget_some_in pystr_eqb pystr_eqb_eq) in E. unfold modes in E. cbn [In] in E.
    repeat (destruct E as [E|E]; [injection E as <- <-; constructor|]). destruct E.
  - intros H. inversion H; vm_compute; reflexivity.
Qed.

Lemma sel_nil p l : ~ In p (map snd modes) -> sel p l = [].
Proof.
  intros N. unfold sel. assert (H : forall u : list (pystr * source), filter (fun ks => to_list p (snd ks)) u = []).
  { induction u as [|[k s] u IH]; [reflexivity|]. cbn [filter snd]. assert (Z : to_list p s = false).
    { unfold to_list. destruct (s_mode s) as [m|]; [|reflexivity]. destruct (dget pystr_eqb modes m) as [t|] eqn:D; [|reflexivity].
      destruct (pystr_eqb t p) eqn:X; [|reflexivity]. apply pystr_eqb_eq in X. subst. destruct (N (mode_in m p D)). }
    rewrite Z. exact IH. }
  rewrite H. reflexivity.
Qed.

(** ** Everything together. *)
Definition logi_ready (data : sdict (list (pystr * source))) : Prop :=
  exists l, dget pystr_eqb data lc = Some l /\ l <> [] /\ boxed l /\ moded l.
Definition collected (all : list pystr) (data : sdict (list (pystr * source))) (x : ext) : Prop :=
  x_raw x = entries data all /\ x_flip x = flip_all data all /\ NoDup (map fst (x_raw x)) /\
  (forall p, In p all -> p <> lc -> dget pystr_eqb (x_types x) p = Some (map fst (us (table_of data p)))) /\
  dget pystr_eqb (x_types x) lc = match map fst (us (table_of data lc)) with [] => None | l => Some l end /\
  (forall t, In t (map snd modes) -> dget pystr_eqb (x_types x) t = Some (sel t (table_of data lc))) /\
  (forall t, ~ In t all -> ~ In t (map snd modes) -> dget pystr_eqb (x_types x) t = None).
Section Tables.
  Variables tb ta : list pystr.
  Hypothesis before_nodup : NoDup tb.
  Hypothesis after_nodup : NoDup ta.
  Hypothesis before_after : forall x, In x tb -> ~ In x ta.
  Hypothesis before_modes : forall x, In x (map snd modes) -> ~ In x tb.
  Hypothesis after_modes : forall x, In x (map snd modes) -> ~ In x ta.
  Hypothesis lc_before : ~ In lc tb.
  Hypothesis lc_after : ~ In lc ta.
  Let all := tb ++ [lc] ++ ta.
  Lemma in_tables p : In p all <-> In p tb \/ p = lc \/ In p ta.
  Proof. unfold all. rewrite !in_app_iff. cbn [In]. intuition congruence. Qed.
Definition collect (data : sdict (list (pystr * source))) : result ext :=
  let* x := add_tables data tb (mkX [] [] []) in let* x := logistic data x in add_tables data ta x.
Lemma flat_map_app {A B} (f : A -> list B) l l' : flat_map f (l ++ l') = flat_map f l ++ flat_map f l'.
Proof. induction l as [|a l IH]; [reflexivity|]. cbn. rewrite IH, app_assoc. reflexivity. Qed.
Lemma collect_gen data : (forall p k s, In p all -> In (k, s) (table_of data p) -> s_name s = Some k /\ s_type s = Some p) ->
  NoDup (flat_map (fun p => map fst (table_of data p)) all) ->
  ((exists x, collect data = Ok x) <-> (forall p, In p all -> p <> lc -> table_ok data p) /\ logi_ready data) /\
  forall x, collect data = Ok x -> collected all data x.
Proof.
  intros NA ND. unfold collect.
  assert (NAt : forall p, In p all -> named_in p (table_of data p)) by (intros p I k s J; exact (NA p k s I J)).
  unfold all in ND. rewrite !flat_map_app in ND. cbn [flat_map] in ND. rewrite app_nil_r in ND.
  destruct (tables_step data tb (mkX [] [] []) (map fst (table_of data lc) ++ flat_map (fun p => map fst (table_of data p)) ta)) as [A1 B1].
  { intros p I. apply NAt, in_tables. left. exact I. }
  { exact before_nodup. }
  { reflexivity. }
  { reflexivity. }
  { exact ND. }
  destruct (add_tables data tb _) as [x1|e1] eqn:E1; cbn [bind].
  2:{ split; [|discriminate]. split; [intros [x X]; discriminate|]. intros [H _]. destruct (proj2 A1) as [x X]; [|discriminate].
      intros p I. apply H; [apply in_tables; left; exact I|]. intros ->. exact (lc_before I). }
  pose proof (proj1 A1 (ex_intro _ x1 eq_refl)) as T1. destruct (B1 x1 eq_refl) as (R1 & F1 & G1 & N1 & FR1). cbn [x_raw x_flip x_types app] in R1, F1, G1. clear A1 B1.
  unfold logistic. fold lc.
  set (types2 := fold_left (fun d t => dset pystr_eqb d t []) (map snd modes) (x_types x1)).
  assert (Ty2 : forall t, dget pystr_eqb types2 t = if mem t (map snd modes) then Some [] else dget pystr_eqb (x_types x1) t) by (intros t; apply start_modes).
  clearbody types2.
  assert (NDl : NoDup (map fst (x_raw x1) ++ map fst (table_of data lc))).
  { clear - N1. rewrite app_assoc in N1. revert N1. generalize (map fst (x_raw x1) ++ map fst (table_of data lc)). intros a. generalize (flat_map (fun p => map fst (table_of data p)) ta). intros b H.
    induction a as [|y a IH]; [constructor|]. cbn in H. apply NoDup_cons_iff in H as [A B]. constructor; [|auto]. intros C. apply A, in_or_app. left. exact C. }
  destruct (dget pystr_eqb data lc) as [l|] eqn:D.
  2:{ cbn [bind]. split; [|discriminate]. split; [intros [x X]; discriminate|]. intros [_ (l & X & _)]. congruence. }
  assert (TL : table_of data lc = l) by (unfold table_of; rewrite D; reflexivity).
  assert (NAl : named_in lc l) by (rewrite <- TL; apply NAt, in_tables; right; left; reflexivity).
  destruct l as [|ks l].
  { cbn [bind]. split; [|discriminate]. split; [intros [x X]; discriminate|]. intros [_ (l & X & Y & _)]. rewrite D in X. inversion X; subst. destruct (Y eq_refl). }
  set (full := ks :: l) in *. assert (FN : full <> []) by discriminate. clearbody full.
  pose proof (logi_ok full (mkX (x_raw x1) types2 (x_flip x1)) NAl) as LO. pose proof (logi_fail full (mkX (x_raw x1) types2 (x_flip x1)) NAl) as LF.
  cbn [x_raw x_flip x_types] in LO. rewrite TL in *.
  destruct (add_logistic full _) as [x2|e2] eqn:E2; cbn [bind].
  2:{ split; [|discriminate]. split; [intros [x X]; discriminate|]. intros [_ (l' & X & _ & Y & Z)]. rewrite D in X. inversion X; subst l'.
      destruct LO as (x' & W & _); try assumption; [|discriminate]. intros m t DM. rewrite Ty2, (proj2 (mem_in t _) (mode_in m t DM)). discriminate. }
  destruct (LF (ex_intro _ x2 eq_refl)) as [BO MO]. destruct LO as (x2' & W & R2 & F2 & G2 & H2); try assumption.
  { intros m t DM. rewrite Ty2, (proj2 (mem_in t _) (mode_in m t DM)). discriminate. }
  inversion W; subst x2'; clear W LF.
  assert (N2 : NoDup (map fst (x_raw x2) ++ flat_map (fun p => map fst (table_of data p)) ta)).
  { rewrite R2, map_app, final_keys. unfold us. rewrite <- app_assoc. apply filter_nodup. exact N1. }
  assert (FR2 : map fst (x_flip x2) = map fst (x_raw x2)). { rewrite R2, F2, !map_app, final_keys, flip_keys, FR1. reflexivity. }
  assert (Ty3 : forall p, p <> lc -> ~ In p (map snd modes) -> dget pystr_eqb (x_types x2) p = if mem p tb then Some (map fst (us (table_of data p))) else None).
  { intros p NL NM. rewrite (G2 p NL), Ty2, (proj2 (mem_out p _) NM), G1. cbn [dget]. destruct (mem p tb) eqn:M; [|reflexivity].
    rewrite (sel_nil p full NM), app_nil_r. reflexivity. }
  assert (LcT : dget pystr_eqb (x_types x1) lc = None) by (rewrite G1, (proj2 (mem_out lc _) lc_before); reflexivity).
  assert (Tl : dget pystr_eqb (x_types x2) lc = match map fst (us full) with [] => None | l => Some l end).
  { rewrite H2. unfold grown. rewrite pystr_eqb_refl, Ty2, (proj2 (mem_out lc _) lc_modes), LcT. destruct (map fst (us full)); reflexivity. }
  assert (Tm : forall t, In t (map snd modes) -> dget pystr_eqb (x_types x2) t = Some (sel t full)).
  { intros t I. rewrite G2 by (intros ->; exact (lc_modes I)). rewrite Ty2, (proj2 (mem_in t _) I). reflexivity. }
  destruct (tables_step data ta x2 []) as [A3 B3].
  { intros p I. apply NAt, in_tables. right. right. exact I. }
  { exact after_nodup. }
  { intros p I. rewrite Ty3; [|intros ->; exact (lc_after I)|intros J; exact (after_modes p J I)].
    rewrite (proj2 (mem_out p _)); [reflexivity|]. intros J. exact (before_after p J I). }
  { exact FR2. }
  { rewrite app_nil_r. exact N2. }
  split.
  - rewrite A3. split.
    + intros H. split; [|exists full; auto]. intros p I NL. apply in_tables in I as [I|[I|I]]; [auto|contradiction|auto].
    + intros [H _] p I. apply H; [apply in_tables; right; right; exact I|]. intros ->. exact (lc_after I).
  - intros x E. destruct (B3 x E) as (R3 & F3 & G3 & N3 & FR3). rewrite app_nil_r in N3. unfold collected.
    split; [|split; [|split; [exact N3|split; [|split; [|split]]]]].
    + rewrite R3, R2, R1. unfold all, entries. rewrite !flat_map_app. cbn [flat_map]. rewrite TL, app_nil_r, app_assoc. reflexivity.
    + rewrite F3, F2, F1. unfold all, flip_all. rewrite !flat_map_app. cbn [flat_map]. rewrite TL, app_nil_r, app_assoc. reflexivity.
    + intros p I NL. rewrite G3. destruct (mem p ta) eqn:M; [reflexivity|]. apply in_tables in I as [I|[I|I]]; [|contradiction|apply mem_out in M; contradiction].
      rewrite Ty3; [|exact NL|intros J; exact (before_modes p J I)]. rewrite (proj2 (mem_in p _) I). reflexivity.
    + rewrite G3, (proj2 (mem_out lc _) lc_after), TL. exact Tl.
    + intros t I. rewrite G3, (proj2 (mem_out t _) (after_modes t I)), TL. exact (Tm t I).
    + intros t NI NM. rewrite G3. rewrite (proj2 (mem_out t _)) by (intros J; apply NI, in_tables; right; right; exact J).
      rewrite Ty3; [|intros ->; apply NI, in_tables; right; left; reflexivity|exact NM].
      rewrite (proj2 (mem_out t _)) by (intros J; apply NI, in_tables; left; exact J). reflexivity.
Qed.
End Tables.
Lemma tables_all : all_tables = tables_before ++ [lc] ++ tables_after.
Proof. unfold all_tables, lc. reflexivity. Qed.
Lemma collect_ok data : tidy data ->
  ((exists x, collect tables_before tables_after data = Ok x) <-> (forall p, In p all_tables -> p <> lc -> table_ok data p) /\ logi_ready data) /\
  forall x, collect tables_before tables_after data = Ok x -> collected all_tables data x.
Proof.
  unfold tidy. rewrite tables_all. intros [A B].
  exact (collect_gen _ _ before_nodup after_nodup before_after before_modes after_modes lc_before lc_after data A B).
Qed.

(** ** Putting it in order. *)
Lemma some_perm (a b : list pystr) : Permutation (map Some a) (map Some b) -> Permutation a b.
Proof.
  intros P. apply (Permutation_map (fun o => match o with Some x => x | None => [] end)) in P. rewrite !map_map, !map_id in P. exact P.
Qed.
Lemma dget_here {V} (d : sdict V) k v : NoDup (map fst d) -> In (k, v) d -> dget pystr_eqb d k = Some v.
Proof. intros N I. exact (proj2 (dget_in pystr_eqb pystr_eqb_eq d k v N) I). Qed.
Lemma pick_ok (u : sdict entry) : forall names acc, NoDup (map fst acc ++ names) -> (forall n, In n names -> In n (map fst u)) ->
  exists r, pick u names acc = Ok (acc ++ r) /\ map fst r = names /\ forall n e, In (n, e) r -> dget pystr_eqb u n = Some e.
Proof.
  induction names as [|n names IH]; intros acc ND SUB.
  - exists []. cbn. rewrite app_nil_r. repeat split. intros n e [].
  - cbn [pick]. destruct (dget pystr_eqb u n) as [e|] eqn:D.
    2:{ exfalso. apply (dget_none pystr_eqb pystr_eqb_eq) in D. apply D. apply SUB. left. reflexivity. }
    cbn [need bind]. rewrite dset_fresh by (intros I; apply (NoDup_remove_2 _ _ _ ND), in_or_app; left; exact I).
    destruct (IH (acc ++ [(n, e)])) as (r & E & M & H).
    + rewrite map_app. cbn. rewrite <- app_assoc. exact ND.
    + intros m I. apply SUB. right. exact I.
    + exists ((n, e) :: r). rewrite E, <- app_assoc. split; [reflexivity|]. split; [cbn; rewrite M; reflexivity|]. intros m e' [I|I]; [inversion I; subst; exact D|eauto].
Qed.
Lemma sets_ok (r : sdict entry) : forall names d, (forall n, In n names -> In n (map fst r)) ->
  exists cs, fold_left (fun d n => let* d := d in let* e := need (dget pystr_eqb r n) in Ok (dset pystr_eqb d n [e_box e])) names (Ok d) = Ok cs /\
    forall n, dget pystr_eqb cs n = if mem n names then match dget pystr_eqb r n with Some e => Some [e_box e] | None => None end else dget pystr_eqb d n.
Proof.
  induction names as [|n names IH]; intros d SUB; [exists d; split; reflexivity|]. cbn [fold_left bind].
  destruct (dget pystr_eqb r n) as [e|] eqn:D.
  2:{ exfalso. apply (dget_none pystr_eqb pystr_eqb_eq) in D. apply D. apply SUB. left. reflexivity. }
  cbn [need bind]. destruct (IH (dset pystr_eqb d n [e_box e])) as (cs & E & G).
  { intros m I. apply SUB. right. exact I. }
  exists cs. split; [exact E|]. intros m. rewrite G, sget. cbn [mem existsb]. fold (mem m names). destruct (pystr_eqb n m) eqn:X.
  - apply pystr_eqb_eq in X. subst m. rewrite pystr_eqb_refl, D. cbn [orb]. destruct (mem n names); reflexivity.
  - destruct (pystr_eqb m n) eqn:Z; [apply pystr_eqb_eq in Z; subst; rewrite pystr_eqb_refl in X; discriminate|]. reflexivity.
Qed.
Lemma entries_in data k e : In (k, e) (entries data all_tables) <-> exists p s, In p all_tables /\ In (k, s) (chosen data p) /\ (k, e) = final p (k, s).
Proof.
  unfold entries. rewrite in_flat_map. split.
  - intros (p & I & J). apply in_map_iff in J as ([k' s] & E & J). exists p, s. split; [exact I|]. unfold final in E at 1. cbn [fst] in E. injection E as <- <-. split; [exact J|reflexivity].
  - intros (p & s & I & J & E). exists p. split; [exact I|]. rewrite E. apply in_map. exact J.
Qed.
Lemma registers_final data p k s e : tidy data -> In p all_tables -> In (k, s) (chosen data p) -> s_box s <> None -> (registers p k s e <-> (k, e) = final p (k, s)).
Proof.
  intros [NA _] I J B. unfold final, made, settled, box_of. cbn [fst snd s_mask s_flags s_hidden s_order s_subgroup s_mined s_mode].
  destruct (s_box s) as [b|] eqn:SB; [|congruence]. split.
  - intros [H1 H2 H3 H4 H5 H6 H7 H8 H9]. destruct e as [en et eb em ef eo es emi emo]. cbn [e_name e_type e_box e_mask e_flags e_order e_subgroup e_mined e_mode] in *.
    rewrite SB in H3. injection H3 as <-. subst. reflexivity.
  - intros E. injection E as ->. split; cbn; auto.
Qed.
Lemma chosen_boxed data p k s x : tidy data -> collect tables_before tables_after data = Ok x -> In p all_tables -> In (k, s) (chosen data p) -> s_box s <> None.
Proof.
  intros T E I J. destruct (collect_ok data T) as [A _]. destruct (proj1 A (ex_intro _ x E)) as [H (l & D & _ & B & _)].
  unfold chosen in J. destruct (pystr_eq_dec p lc) as [->|N].
  - unfold table_of in J. rewrite D in J. exact (B k s J).
  - specialize (H p I N). unfold table_of in J. unfold table_ok in H. destruct (dget pystr_eqb data p) as [l'|]; [|destruct J]. exact (proj2 (H l' eq_refl) k s J).
Qed.
Lemma map_fst_flat {A B} (f : A -> list (pystr * B)) l : map fst (flat_map f l) = flat_map (fun a => map fst (f a)) l.
Proof. induction l as [|a l IH]; [reflexivity|]. cbn. rewrite map_app, IH. reflexivity. Qed.
Lemma flips_of p k : flip_of p k = true <-> flips p k.
Proof. unfold flip_of, flips. rewrite andb_true_iff, !negb_true_iff, !mem_out. reflexivity. Qed.
Section Ordered.
  Variable items : table proto.
  Variable subgroups : table subgroup.
  Variable groups : table group.
  Notation extract := (extract_entities items subgroups groups).
  Lemma extract_collect data : extract data = let* x := collect tables_before tables_after data in
    let* names := get_order (map (fun p => proto_of (snd p)) (x_raw x)) items subgroups groups in
    let* r := pick (x_raw x) names [] in let* cs := sets_of r names in Ok (mkReg r (x_types x) (x_flip x) cs).
  Proof.
    unfold extract_entities, collect. generalize tables_before, tables_after. intros tb ta. destruct (add_tables data tb _) as [x|e]; [|reflexivity].
    cbn [bind]. destruct (logistic data x) as [x'|e]; [|reflexivity]. cbn [bind]. reflexivity.
  Qed.
  Lemma named_entries data x : tidy data -> collect tables_before tables_after data = Ok x -> map p_name (map (fun p => proto_of (snd p)) (x_raw x)) = map Some (map fst (x_raw x)).
  Proof.
    intros T E. rewrite !map_map. apply map_ext_in. intros [k e] I. destruct (collect_ok data T) as [_ C]. rewrite (proj1 (C x E)) in I.
    apply entries_in in I as (p & s & _ & _ & X). injection X as ->. reflexivity.
  Qed.
  Definition names_of (data : sdict (list (pystr * source))) : list (pystr * entry) := entries data all_tables.
  Lemma extract_full data : tidy data ->
    ((exists r, extract data = Ok r) <->
       ((forall p, In p all_tables -> p <> lc -> table_ok data p) /\ logi_ready data /\
        forall k e, In (k, e) (names_of data) -> exists rk, ranked items subgroups groups (proto_of e) rk)) /\
    forall r, extract data = Ok r -> exists x, collect tables_before tables_after data = Ok x /\ Permutation (x_raw x) (raw r) /\
      get_order (map (fun p => proto_of (snd p)) (x_raw x)) items subgroups groups = Ok (map fst (raw r)) /\
      of_type r = x_types x /\ flippable r = x_flip x /\
      (forall n, dget pystr_eqb (sets r) n = match dget pystr_eqb (raw r) n with Some e => Some [e_box e] | None => None end).
  Proof.
    intros T. rewrite extract_collect. pose proof (collect_ok data T) as [A C]. destruct (collect tables_before tables_after data) as [x|e] eqn:E; cbn [bind].
    2:{ split; [|discriminate]. split; [intros [r R]; discriminate|]. intros (H & L & _). destruct (proj2 A (Logic.conj H L)) as [x X]. discriminate. }
    pose proof (proj1 A (ex_intro _ x eq_refl)) as [H L]. destruct (C x eq_refl) as (R & F & N & _). pose proof (named_entries data x T E) as NE.
    destruct (order_iff (map (fun p => proto_of (snd p)) (x_raw x)) items subgroups groups) as [OI _].
    destruct (get_order (map (fun p => proto_of (snd p)) (x_raw x)) items subgroups groups) as [names|e] eqn:O; cbn [bind].
    2:{ split; [|discriminate]. split; [intros [r Z]; discriminate|]. intros (_ & _ & K). destruct (proj2 OI) as [out Z]; [|discriminate].
        intros o I. apply in_map_iff in I as ([k e'] & <- & I). apply (K k e'). unfold names_of. rewrite <- R. exact I. }
    pose proof (order_names _ _ _ _ _ O) as P. rewrite NE in P. apply some_perm in P.
    destruct (pick_ok (x_raw x) names []) as (r & PE & MK & PG).
    { cbn. exact (Permutation_NoDup P N). }
    { intros n I. apply (Permutation_in _ (Permutation_sym P)). exact I. }
    cbn [app] in PE. rewrite PE. cbn [bind]. destruct (sets_ok r names []) as (cs & CE & CG).
    { intros n I. rewrite MK. exact I. }
    assert (SE : sets_of r names = Ok cs) by exact CE. rewrite SE. cbn [bind]. split.
    - split; [intros _|intros _; eexists; reflexivity]. split; [exact H|]. split; [exact L|]. intros k e I. unfold names_of in I. rewrite <- R in I.
      apply (proj1 OI); [eexists; reflexivity|]. apply in_map_iff. exists (k, e). auto.
    - intros r' RE. inversion RE; subst r'; clear RE. exists x. cbn [raw of_type flippable sets]. split; [reflexivity|]. split; [|split; [rewrite MK; exact O|split; [reflexivity|split; [reflexivity|]]]].
      + apply NoDup_Permutation.
        * clear - N. induction (x_raw x) as [|[k e] l IH]; [constructor|]. cbn in N. apply NoDup_cons_iff in N as [X Y]. constructor; [|auto]. intros Z. apply X. apply in_map_iff. exists (k, e). auto.
        * assert (NR : NoDup (map fst r)) by (rewrite MK; exact (Permutation_NoDup P N)). clear - NR. induction r as [|[k e] l IH]; [constructor|]. cbn in NR. apply NoDup_cons_iff in NR as [X Y]. constructor; [|auto]. intros Z. apply X. apply in_map_iff. exists (k, e). auto.
        * intros [k e]. split.
          -- intros I. assert (K : In k (map fst r)). { rewrite MK. apply (Permutation_in _ P). apply in_map_iff. exists (k, e). auto. }
             apply in_map_iff in K as ([k' e'] & Y & K). cbn in Y. subst k'. pose proof (PG k e' K) as Z. rewrite (dget_here _ k e N I) in Z. inversion Z; subst. exact K.
          -- intros I. apply (dget_some_in pystr_eqb pystr_eqb_eq). exact (PG k e I).
      + intros n. rewrite CG. destruct (mem n names) eqn:M; [reflexivity|]. cbn [dget]. destruct (dget pystr_eqb r n) as [e|] eqn:D; [|reflexivity].
        apply (dget_some_in pystr_eqb pystr_eqb_eq) in D. apply mem_out in M. exfalso. apply M. rewrite <- MK. apply in_map_iff. exists (n, e). auto.
  Qed.
  Theorem extract_iff data : tidy data ->
    ((exists r, extract data = Ok r) <->
      (forall p l, In p all_tables -> p <> str "logistic-container" -> dget pystr_eqb data p = Some l -> chosen data p <> []) /\
      (exists l, dget pystr_eqb data (str "logistic-container") = Some l /\ l <> []) /\
      (forall p k s, In p all_tables -> In (k, s) (chosen data p) -> s_box s <> None) /\
      (forall k s, In (k, s) (chosen data (str "logistic-container")) -> s_mode s <> None) /\
      (forall p k s e, In p all_tables -> In (k, s) (chosen data p) -> registers p k s e -> exists rk, ranked items subgroups groups (proto_of e) rk)).
  Proof.
    intros T. destruct (extract_full data T) as [A _]. fold lc. rewrite A. clear A.
    assert (CH : forall p l, dget pystr_eqb data p = Some l -> chosen data p = us l) by (intros p l D; unfold chosen, table_of; rewrite D; reflexivity).
    assert (CN : forall p, dget pystr_eqb data p = None -> chosen data p = []) by (intros p D; unfold chosen, table_of; rewrite D; reflexivity).
    split.
    - intros (H & (l & D & NE & B & M) & K).
      assert (BX : forall p k s, In p all_tables -> In (k, s) (chosen data p) -> s_box s <> None).
      { intros p k s I J. destruct (pystr_eq_dec p lc) as [->|N]; [rewrite (CH lc l D) in J; exact (B k s J)|].
        specialize (H p I N). unfold table_ok in H. destruct (dget pystr_eqb data p) as [l'|] eqn:D'; [|rewrite (CN p D') in J; destruct J].
        rewrite (CH p l' D') in J. exact (proj2 (H l' eq_refl) k s J). }
      split; [|split; [|split; [exact BX|split]]].
      + intros p l' I N D'. rewrite (CH p l' D'). exact (proj1 (H p I N l' D')).
      + exists l. auto.
      + intros k s J. rewrite (CH lc l D) in J. exact (M k s J).
      + intros p k s e I J RG. apply (K k e). apply entries_in. exists p, s. split; [exact I|]. split; [exact J|].
        apply (registers_final data p k s e T I J (BX p k s I J)). exact RG.
    - intros (H & (l & D & NE) & BX & M & K). split; [|split].
      + intros p I N l' D'. split; [rewrite <- (CH p l' D'); exact (H p l' I N D')|]. intros k s J. apply (BX p k s I). rewrite (CH p l' D'). exact J.
      + assert (IL : In lc all_tables) by (rewrite tables_all; apply in_or_app; right; left; reflexivity).
        exists l. split; [exact D|]. split; [exact NE|]. split; intros k s J; [apply (BX lc k s IL)|apply (M k s)]; rewrite (CH lc l D); exact J.
      + intros k e I. apply entries_in in I as (p & s & I & J & E). apply (K p k s e I J). apply (registers_final data p k s e T I J (BX p k s I J)). exact E.
  Qed.
  Theorem extract_register data r : tidy data -> extract data = Ok r ->
    NoDup (map fst (raw r)) /\
    (forall k e, In (k, e) (raw r) <-> exists p s, In p all_tables /\ In (k, s) (chosen data p) /\ registers p k s e) /\
    (exists es, Permutation es (raw r) /\ get_order (map (fun p => proto_of (snd p)) es) items subgroups groups = Ok (map fst (raw r))) /\
    (forall n, dget pystr_eqb (sets r) n = match dget pystr_eqb (raw r) n with Some e => Some [e_box e] | None => None end).
  Proof.
    intros T E. destruct (extract_full data T) as [_ A]. destruct (A r E) as (x & C & P & O & _ & _ & S). clear A.
    destruct (collect_ok data T) as [_ CO]. destruct (CO x C) as (R & _ & N & _).
    split; [exact (Permutation_NoDup (Permutation_map fst P) N)|]. split; [|split; [exists (x_raw x); auto|exact S]].
    intros k e. split.
    - intros I. apply (Permutation_in _ (Permutation_sym P)) in I. rewrite R in I. apply entries_in in I as (p & s & I & J & X). exists p, s.
      split; [exact I|]. split; [exact J|]. apply (registers_final data p k s e T I J (chosen_boxed data p k s x T C I J)). exact X.
    - intros (p & s & I & J & X). apply (Permutation_in _ P). rewrite R. apply entries_in. exists p, s. split; [exact I|]. split; [exact J|].
      apply (registers_final data p k s e T I J (chosen_boxed data p k s x T C I J)). exact X.
  Qed.
  Lemma mode_sel m t l : logistic_list m t -> sel t l =
    map fst (filter (fun ks => match s_mode (snd ks) with Some m' => if pystr_eq_dec m' m then true else false | None => false end) (us l)).
  Proof.
    intros L. unfold sel. f_equal. apply filter_ext. intros [k s]. unfold to_list. cbn [snd]. destruct (s_mode s) as [m'|]; [|reflexivity].
    destruct (dget pystr_eqb modes m') as [t'|] eqn:D.
    - apply modes_list in D. destruct (pystr_eq_dec m' m) as [->|N].
      + inversion L; subst; inversion D; subst; try discriminate; apply pystr_eqb_refl.
      + destruct (pystr_eqb t' t) eqn:X; [|reflexivity]. apply pystr_eqb_eq in X. subst t'. exfalso. apply N. inversion L; subst; inversion D; subst; try discriminate; reflexivity.
    - destruct (pystr_eq_dec m' m) as [->|N]; [|reflexivity]. apply modes_list in L. congruence.
  Qed.
  Theorem extract_types data r : tidy data -> extract data = Ok r ->
    (forall p, In p all_tables -> p <> str "logistic-container" -> dget pystr_eqb (of_type r) p = Some (map fst (chosen data p))) /\
    (dget pystr_eqb (of_type r) (str "logistic-container") = match map fst (chosen data (str "logistic-container")) with [] => None | l => Some l end) /\
    (forall m t, logistic_list m t -> dget pystr_eqb (of_type r) t = Some (of_mode data m)) /\
    (forall t, ~ In t all_tables -> (forall m, ~ logistic_list m t) -> dget pystr_eqb (of_type r) t = None).
  Proof.
    intros T E. fold lc. destruct (extract_full data T) as [_ A]. destruct (A r E) as (x & C & _ & _ & O & _ & _). rewrite O. clear A.
    destruct (collect_ok data T) as [_ CO]. destruct (CO x C) as (_ & _ & _ & H1 & H2 & H3 & H4).
    split; [exact H1|]. split; [exact H2|]. split.
    - intros m t L. rewrite (H3 t (mode_in m t (proj2 (modes_list m t) L))). rewrite (mode_sel m t _ L). reflexivity.
    - intros t NI NM. apply H4; [exact NI|]. intros I. apply in_map_iff in I as ([m t'] & X & I). cbn in X. subst t'.
      apply (NM m). apply modes_list. apply dget_here; [|exact I]. apply nodupb_ok. vm_compute. reflexivity.
  Qed.
  Theorem extract_flips data r : tidy data -> extract data = Ok r ->
    (forall p k s, In p all_tables -> In (k, s) (chosen data p) -> exists b, is_flippable r k = Ok b /\ (b = true <-> flips p k)) /\
    (forall k, ~ In k (map fst (raw r)) -> is_flippable r k = Err KeyError).
  Proof.
    intros T E. destruct (extract_full data T) as [_ A]. destruct (A r E) as (x & C & P & _ & _ & O & _). unfold is_flippable. rewrite O. clear A.
    destruct (collect_ok data T) as [_ CO]. destruct (CO x C) as (R & F & N & _).
    assert (KE : map fst (x_flip x) = map fst (x_raw x)).
    { rewrite R, F. unfold entries, flip_all. rewrite !map_fst_flat. apply flat_map_ext. intros p. rewrite final_keys, flip_keys. reflexivity. }
    split.
    - intros p k s I J. exists (flip_of p k). split; [|apply flips_of]. rewrite (dget_here (x_flip x) k (flip_of p k)); [reflexivity|rewrite KE; exact N|].
      rewrite F. unfold flip_all. apply in_flat_map. exists p. split; [exact I|]. apply in_map_iff. exists (k, s). split; [reflexivity|exact J].
    - intros k NI. rewrite (proj2 (dget_none pystr_eqb pystr_eqb_eq _ k)); [reflexivity|]. rewrite KE. intros I. apply NI. exact (Permutation_in _ (Permutation_map fst P) I).
  Qed.
End Ordered.

(** ** Classes *)
Lemma class_found types name c : forall l, (forall t c', In (t, c') l -> dget pystr_eqb types t <> None) ->
  (forall t c' ns, In (t, c') l -> dget pystr_eqb types t = Some ns -> In name ns -> c' = c) ->
  (exists t c' ns, In (t, c') l /\ dget pystr_eqb types t = Some ns /\ In name ns) -> class_in l types name = Ok (Some c).
Proof.
  induction l as [|[t c'] l IH]; intros TO UN (t0 & c0 & ns0 & I & D & J); [destruct I|]. cbn [class_in].
  destruct (dget pystr_eqb types t) as [ns|] eqn:DT; [|destruct (TO t c' (or_introl eq_refl) DT)]. cbn [need bind].
  destruct (mem name ns) eqn:M.
  - apply mem_in in M. rewrite (UN t c' ns (or_introl eq_refl) DT M). reflexivity.
  - apply IH.
    + intros t1 c1 I1. apply (TO t1 c1). right. exact I1.
    + intros t1 c1 ns1 I1. apply (UN t1 c1 ns1). right. exact I1.
    + exists t0, c0, ns0. split; [|auto]. destruct I as [I|I]; [|exact I]. inversion I; subst. rewrite DT in D. inversion D; subst. apply mem_out in M. contradiction.
Qed.
Lemma class_absent types name : forall l, (forall t c', In (t, c') l -> dget pystr_eqb types t <> None) ->
  (forall t c' ns, In (t, c') l -> dget pystr_eqb types t = Some ns -> ~ In name ns) -> class_in l types name = Ok None.
Proof.
  induction l as [|[t c'] l IH]; intros TO UN; [reflexivity|]. cbn [class_in].
  destruct (dget pystr_eqb types t) as [ns|] eqn:DT; [|destruct (TO t c' (or_introl eq_refl) DT)]. cbn [need bind].
  rewrite (proj2 (mem_out name ns) (UN t c' ns (or_introl eq_refl) DT)). apply IH.
  - intros t1 c1 I1. apply (TO t1 c1). right. exact I1.
  - intros t1 c1 ns1 I1. apply (UN t1 c1 ns1). right. exact I1.
Qed.
Lemma factory_pairs : forallb (fun tc => pystr_eqb (snd tc) (class_name (fst tc)) &&
  ((mem (fst tc) all_tables && negb (mem (fst tc) classless)) || mem (fst tc) (map snd modes))) factory = true.
Proof. vm_compute. reflexivity. Qed.
Lemma factory_all : forallb (fun t => mem t classless || mem t (map fst factory)) all_tables && forallb (fun t => mem t (map fst factory)) (map snd modes) = true.
Proof. vm_compute. reflexivity. Qed.
Lemma modes_apart t : In t (map snd modes) -> ~ In t classless /\ ~ In t all_tables.
Proof. intros I. split; revert I; apply apart_ok; vm_compute; reflexivity. Qed.
Lemma modes_some t : In t (map snd modes) <-> exists m, logistic_list m t.
Proof.
  split.
  - intros I. apply in_map_iff in I as ([m t'] & X & I). cbn in X. subst t'. exists m. apply modes_list. apply dget_here; [|exact I]. apply nodupb_ok. vm_compute. reflexivity.
  - intros [m L]. apply (mode_in m), modes_list. exact L.
Qed.
Theorem factory_exact t c : In (t, c) factory <-> typed t /\ c = class_name t.
Proof.
  pose proof factory_pairs as FP. pose proof factory_all as FA. rewrite forallb_forall in FP. apply andb_true_iff in FA as [FA FM]. rewrite forallb_forall in FA, FM. unfold typed. split.
  - intros I. specialize (FP (t, c) I). cbn [fst snd] in FP. apply andb_true_iff in FP as [X Y]. apply pystr_eqb_eq in X. split; [|exact X].
    apply orb_true_iff in Y as [Y|Y].
    + apply andb_true_iff in Y as [Y Z]. left. split; [apply mem_in; exact Y|apply mem_out, negb_true_iff; exact Z].
    + right. apply modes_some, mem_in. exact Y.
  - intros [H ->]. assert (I : In t (map fst factory)).
    { destruct H as [[A B]|M].
      - specialize (FA t A). apply orb_true_iff in FA as [FA|FA]; [apply mem_in in FA; contradiction|apply mem_in; exact FA].
      - apply mem_in, FM, modes_some. exact M. }
    apply in_map_iff in I as ([t' c'] & X & I). cbn in X. subst t'. specialize (FP (t, c') I). cbn [fst snd] in FP. apply andb_true_iff in FP as [X _]. apply pystr_eqb_eq in X. subst c'. exact I.
Qed.
Theorem factory_nodup : NoDup (map fst factory) /\ NoDup (map snd factory).
Proof. split; apply nodupb_ok; vm_compute; reflexivity. Qed.
Lemma flat_unique {A B} (f : A -> list B) l : NoDup (flat_map f l) -> forall a b x, In a l -> In b l -> In x (f a) -> In x (f b) -> a = b.
Proof.
  induction l as [|y l IH]; intros N a b x IA IB XA XB; [destruct IA|]. cbn in N.
  assert (D : forall z, In z (f y) -> ~ In z (flat_map f l)).
  { clear - N. induction (f y) as [|w u IH']; [intros z []|]. cbn in N. apply NoDup_cons_iff in N as [P Q]. intros z [<-|I]; [intros J; apply P, in_or_app; right; exact J|exact (IH' Q z I)]. }
  assert (N' : NoDup (flat_map f l)). { clear - N. induction (f y) as [|w u IH']; [exact N|]. cbn in N. apply NoDup_cons_iff in N as [_ Q]. exact (IH' Q). }
  destruct IA as [<-|IA], IB as [<-|IB]; [reflexivity| | |].
  - exfalso. apply (D x XA). apply in_flat_map. exists b. auto.
  - exfalso. apply (D x XB). apply in_flat_map. exists a. auto.
  - exact (IH N' a b x IA IB XA XB).
Qed.
Lemma key_unique {V} (l : list (pystr * V)) k v v' : NoDup (map fst l) -> In (k, v) l -> In (k, v') l -> v = v'.
Proof. intros N I J. apply (dget_here l k v N) in I. apply (dget_here l k v' N) in J. congruence. Qed.
Lemma flat_part {A B} (f : A -> list B) l a : NoDup (flat_map f l) -> In a l -> NoDup (f a).
Proof.
  induction l as [|y l IH]; intros N I; [destruct I|]. cbn in N. destruct I as [<-|I].
  - clear - N. induction (f y) as [|w u IH']; [constructor|]. cbn in N. apply NoDup_cons_iff in N as [P Q]. constructor; [|exact (IH' Q)]. intros J. apply P, in_or_app. left. exact J.
  - apply IH; [|exact I]. clear - N. induction (f y) as [|w u IH']; [exact N|]. cbn in N. apply NoDup_cons_iff in N as [_ Q]. exact (IH' Q).
Qed.
Section Classes.
  Variable items : table proto.
  Variable subgroups : table subgroup.
  Variable groups : table group.
  Notation extract := (extract_entities items subgroups groups).
  Lemma chosen_key data p k s : In (k, s) (chosen data p) -> In k (map fst (table_of data p)).
  Proof. intros I. apply filter_In in I as [I _]. apply in_map_iff. exists (k, s). auto. Qed.
  Lemma extract_complete data r : tidy data -> extract data = Ok r -> complete r.
  Proof.
    intros T E t [[A B]|[m L]].
    - destruct (extract_types _ _ _ data r T E) as (H & _). rewrite (H t A); [discriminate|]. intros ->. apply B. right. right. right. right. left. reflexivity.
    - destruct (extract_types _ _ _ data r T E) as (_ & _ & H & _). rewrite (H m t L). discriminate.
  Qed.
  Lemma mode_member data m k : In k (of_mode data m) <-> exists s, In (k, s) (chosen data lc) /\ s_mode s = Some m.
  Proof.
    unfold of_mode. fold lc. rewrite in_map_iff. split.
    - intros ([k' s] & X & I). cbn in X. subst k'. apply filter_In in I as [I M]. cbn [snd] in M. destruct (s_mode s) as [m'|] eqn:Z; [|discriminate].
      destruct (pystr_eq_dec m' m) as [->|]; [|discriminate]. exists s. auto.
    - intros (s & I & M). exists (k, s). split; [reflexivity|]. apply filter_In. split; [exact I|]. cbn [snd]. rewrite M. destruct (pystr_eq_dec m m); [reflexivity|contradiction].
  Qed.
  (** The lists a name is on. *)
  Lemma on_list data r p k s t ns : tidy data -> extract data = Ok r -> In p all_tables -> In (k, s) (chosen data p) -> typed t -> dget pystr_eqb (of_type r) t = Some ns ->
    (In k ns <-> (p = t /\ ~ In t classless) \/ (p = lc /\ exists m, s_mode s = Some m /\ logistic_list m t)).
  Proof.
    intros T E IP J TY D. destruct (extract_types _ _ _ data r T E) as (H1 & _ & H3 & _). pose proof (proj2 T) as ND.
    assert (LC : In lc all_tables) by (rewrite tables_all; apply in_or_app; right; left; reflexivity).
    destruct TY as [[A B]|[m L]].
    - assert (NL : t <> lc). { intros ->. apply B. right. right. right. right. left. reflexivity. }
      rewrite (H1 t A NL) in D. inversion D; subst ns. split.
      + intros I. apply in_map_iff in I as ([k' s'] & X & I). cbn in X. subst k'. left. split; [|exact B].
        exact (flat_unique _ _ ND p t k IP A (chosen_key data p k s J) (chosen_key data t k s' I)).
      + intros [[-> _]|[-> (m & M & L)]]; [apply in_map_iff; exists (k, s); auto|].
        destruct (modes_apart t (proj2 (modes_some t) (ex_intro _ m L))). contradiction.
    - rewrite (H3 m t L) in D. inversion D; subst ns. rewrite mode_member. split.
      + intros (s' & I & M). assert (X : p = lc) by exact (flat_unique _ _ ND p lc k IP LC (chosen_key data p k s J) (chosen_key data lc k s' I)). subst p.
        assert (X : s = s'). { apply filter_In in J as [J _]. apply filter_In in I as [I _]. exact (key_unique _ k s s' (flat_part _ _ lc ND LC) J I). }
        subst s'. right. split; [reflexivity|]. exists m. auto.
      + intros [[X _]|[-> (m' & M & L')]].
        * subst p. destruct (modes_apart t (proj2 (modes_some t) (ex_intro _ m L))). contradiction.
        * exists s. split; [exact J|]. rewrite M. f_equal. inversion L; subst; inversion L'; subst; try discriminate; reflexivity.
  Qed.
  Theorem extract_class data r : tidy data -> extract data = Ok r ->
    (forall p k s, In p all_tables -> In (k, s) (chosen data p) -> exists c, classed p s c /\ new_entity r k = Ok c) /\
    (forall k, ~ In k (map fst (raw r)) -> new_entity r k = Ok None).
  Proof.
    intros T E. pose proof (extract_complete data r T E) as CP.
    assert (TO : forall t c, In (t, c) factory -> dget pystr_eqb (of_type r) t <> None) by (intros t c I; apply CP; exact (proj1 (proj1 (factory_exact t c) I))).
    split.
    - intros p k s IP J. unfold new_entity. destruct (in_dec pystr_eq_dec p classless) as [C|C].
      + destruct (pystr_eq_dec p lc) as [->|N].
        * assert (DEC : (exists m t, s_mode s = Some m /\ logistic_list m t) \/ forall m t, s_mode s = Some m -> ~ logistic_list m t).
          { destruct (s_mode s) as [m|]; [|right; intros m t X; discriminate]. destruct (dget pystr_eqb modes m) as [t|] eqn:D.
            - left. exists m, t. split; [reflexivity|]. apply modes_list. exact D.
            - right. intros m' t X L. inversion X; subst m'. apply modes_list in L. congruence. }
          destruct DEC as [(m & t & M & L)|NO].
          -- exists (Some (class_name t)). split; [exact (cl_logistic lc s m t eq_refl M L)|]. apply class_found; [exact TO| |].
             ++ intros t' c' ns I D K. apply factory_exact in I as [TY ->]. apply (on_list data r lc k s t' ns T E IP J TY D) in K as [[<- X]|[_ (m' & M' & L')]]; [contradiction|].
                rewrite M in M'. inversion M'; subst m'. apply modes_list in L, L'. congruence.
             ++ destruct (dget pystr_eqb (of_type r) t) as [ns|] eqn:D; [|destruct (CP t (or_intror (ex_intro _ m L)) D)]. exists t, (class_name t), ns.
                split; [apply factory_exact; split; [right; exists m; exact L|reflexivity]|]. split; [exact D|].
                apply (on_list data r lc k s t ns T E IP J (or_intror (ex_intro _ m L)) D). right. split; [reflexivity|]. exists m. auto.
          -- exists None. split; [exact (cl_other lc s eq_refl NO)|]. apply class_absent; [exact TO|]. intros t' c' ns I D K. apply factory_exact in I as [TY ->].
             apply (on_list data r lc k s t' ns T E IP J TY D) in K as [[<- X]|[_ (m' & M' & L')]]; [contradiction|exact (NO m' t' M' L')].
        * exists None. split; [exact (cl_none p s C N)|]. apply class_absent; [exact TO|]. intros t' c' ns I D K. apply factory_exact in I as [TY ->].
          apply (on_list data r p k s t' ns T E IP J TY D) in K as [[<- X]|[X _]]; contradiction.
      + assert (TY0 : typed p) by (left; auto). exists (Some (class_name p)). split; [exact (cl_own p s C)|]. apply class_found; [exact TO| |].
        * intros t' c' ns I D K. apply factory_exact in I as [TY ->]. apply (on_list data r p k s t' ns T E IP J TY D) in K as [[<- X]|[-> _]]; [reflexivity|].
          exfalso. apply C. right. right. right. right. left. reflexivity.
        * destruct (dget pystr_eqb (of_type r) p) as [ns|] eqn:D; [|destruct (CP p TY0 D)]. exists p, (class_name p), ns.
          split; [apply factory_exact; auto|]. split; [exact D|]. apply (on_list data r p k s p ns T E IP J TY0 D). left. auto.
    - intros k NI. unfold new_entity. apply class_absent; [exact TO|]. intros t c ns I D K. apply NI.
      destruct (extract_register _ _ _ data r T E) as (_ & RG & _). destruct (extract_types _ _ _ data r T E) as (H1 & _ & H3 & _).
      assert (X : exists p s, In p all_tables /\ In (k, s) (chosen data p)).
      { apply factory_exact in I as [[[A B]|[m L]] _].
        - rewrite (H1 t A) in D by (intros ->; apply B; right; right; right; right; left; reflexivity). inversion D; subst ns.
          apply in_map_iff in K as ([k' s] & Y & K). cbn in Y. subst k'. exists t, s. auto.
        - rewrite (H3 m t L) in D. inversion D; subst ns. apply mode_member in K as (s & K & _). exists lc, s. split; [|exact K]. rewrite tables_all. apply in_or_app. right. left. reflexivity. }
      destruct X as (p & s & IP & J). destruct (proj1 (extract_iff _ _ _ data T) (ex_intro _ r E)) as (_ & _ & BX & _).
      apply in_map_iff. exists (final p (k, s)). split; [reflexivity|]. change (final p (k, s)) with (k, snd (final p (k, s))). apply RG. exists p, s. split; [exact IP|]. split; [exact J|].
      apply (registers_final data p k s _ T IP J (BX p k s IP J)). reflexivity.
  Qed.
End Classes.

(** ** Additions *)
Lemma perform_types r a t : dget pystr_eqb (of_type (perform r a)) t =
  if pystr_eqb (a_type a) t then Some (match dget pystr_eqb (of_type r) (a_type a) with Some l => l | None => [] end ++ [a_name a]) else dget pystr_eqb (of_type r) t.
Proof.
  unfold perform, add_entity, enlist. cbn [of_type]. rewrite sget. destruct (pystr_eqb (a_type a) t); [|reflexivity].
  destruct (dget pystr_eqb (of_type r) (a_type a)); reflexivity.
Qed.
Lemma perform_complete r a : complete r -> complete (perform r a).
Proof. intros C t TY. rewrite perform_types. destruct (pystr_eqb (a_type a) t); [discriminate|exact (C t TY)]. Qed.
Lemma class_same types types' name : forall l, (forall t c, In (t, c) l -> match dget pystr_eqb types t, dget pystr_eqb types' t with
    | Some ns, Some ns' => In name ns <-> In name ns' | None, None => True | _, _ => False end) -> class_in l types name = class_in l types' name.
Proof.
  induction l as [|[t c] l IH]; intros H; [reflexivity|]. cbn [class_in]. pose proof (H t c (or_introl eq_refl)) as X.
  destruct (dget pystr_eqb types t) as [ns|], (dget pystr_eqb types' t) as [ns'|]; try contradiction; [|reflexivity]. cbn [need bind].
  assert (M : mem name ns = mem name ns'). { destruct (mem name ns') eqn:Z; [apply mem_in, X, mem_in; exact Z|]. apply mem_out. intros I. apply mem_out in Z. apply Z, X. exact I. }
  rewrite M. destruct (mem name ns'); [reflexivity|]. apply IH. intros t' c' I. apply (H t' c'). right. exact I.
Qed.
Lemma perform_other r a n : n <> a_name a -> complete r -> new_entity (perform r a) n = new_entity r n.
Proof.
  intros N C. unfold new_entity. apply class_same. intros t c I. rewrite perform_types. apply factory_exact in I as [TY _]. pose proof (C t TY) as X.
  destruct (pystr_eqb (a_type a) t) eqn:E.
  - apply pystr_eqb_eq in E. rewrite E. destruct (dget pystr_eqb (of_type r) t) as [l|]; [|destruct (X eq_refl)]. rewrite in_app_iff. split; [intros [I|[I|[]]]; [exact I|subst; contradiction]|auto].
  - destruct (dget pystr_eqb (of_type r) t); [reflexivity|exact Logic.I].
Qed.
Lemma typed_dec t : typed t \/ ~ typed t.
Proof.
  destruct (in_dec pystr_eq_dec t (map fst factory)) as [I|N].
  - left. apply in_map_iff in I as ([t' c] & X & I). cbn in X. subst t'. exact (proj1 (proj1 (factory_exact t c) I)).
  - right. intros TY. apply N. apply in_map_iff. exists (t, class_name t). split; [reflexivity|]. apply factory_exact. auto.
Qed.
Lemma perform_new r a : complete r -> ~ listed r (a_name a) ->
  (typed (a_type a) -> new_entity (perform r a) (a_name a) = Ok (Some (class_name (a_type a)))) /\
  (~ typed (a_type a) -> new_entity (perform r a) (a_name a) = Ok None).
Proof.
  intros C NL. pose proof (perform_complete r a C) as C'.
  assert (TO : forall t c, In (t, c) factory -> dget pystr_eqb (of_type (perform r a)) t <> None) by (intros t c I; apply C'; exact (proj1 (proj1 (factory_exact t c) I))).
  assert (ON : forall t ns, dget pystr_eqb (of_type (perform r a)) t = Some ns -> In (a_name a) ns -> t = a_type a).
  { intros t ns D I. rewrite perform_types in D. destruct (pystr_eqb (a_type a) t) eqn:E; [apply pystr_eqb_eq in E; auto|]. exfalso. apply NL. exists t, ns. auto. }
  unfold new_entity. split.
  - intros TY. apply class_found; [exact TO| |].
    + intros t c ns I D J. apply (ON t ns D) in J. subst t. exact (proj2 (proj1 (factory_exact _ c) I)).
    + eexists (a_type a), (class_name (a_type a)), _. split; [apply factory_exact; auto|]. split; [rewrite perform_types, pystr_eqb_refl; reflexivity|]. apply in_or_app. right. left. reflexivity.
  - intros NT. apply class_absent; [exact TO|]. intros t c ns I D J. apply (ON t ns D) in J. subst t. exact (NT (proj1 (proj1 (factory_exact _ c) I))).
Qed.
Lemma perform_fresh r a l : fresh r (a :: l) -> fresh (perform r a) l.
Proof.
  intros [ND F]. cbn in ND. apply NoDup_cons_iff in ND as [NI ND]. split; [exact ND|]. intros b I. destruct (F b (or_intror I)) as (A & B & C).
  assert (NE : a_name b <> a_name a). { intros E. apply NI. rewrite <- E. apply in_map. exact I. }
  split; [|split; [|exact C]].
  - intros (t & ns & D & J). apply A. rewrite perform_types in D. destruct (pystr_eqb (a_type a) t) eqn:E; [|exists t, ns; auto].
    inversion D; subst ns; clear D. apply in_app_or in J as [J|[J|[]]]; [|congruence].
    destruct (dget pystr_eqb (of_type r) (a_type a)) as [ns|] eqn:D; [|destruct J]. exists (a_type a), ns. auto.
  - intros J. unfold perform, add_entity in J. cbn [raw] in J. rewrite dset_fresh in J by exact (proj1 (proj2 (F a (or_introl eq_refl)))). rewrite map_app in J. apply in_app_or in J as [J|[J|[]]]; [contradiction|cbn in J; congruence].
Qed.
Lemma perform_raw r a n : dget pystr_eqb (raw (perform r a)) n = if pystr_eqb (a_name a) n then Some (made (a_name a) (a_type a) (a_box a) (a_rest a)) else dget pystr_eqb (raw r) n.
Proof. unfold perform, add_entity. cbn [raw]. apply sget. Qed.
Lemma perform_sets r a n : dget pystr_eqb (sets (perform r a)) n = if pystr_eqb (a_name a) n then Some [a_box a] else dget pystr_eqb (sets r) n.
Proof. unfold perform, add_entity. cbn [sets]. apply sget. Qed.
Theorem additions : forall l r, complete r -> fresh r l ->
  complete (perform_all l r) /\
  (forall n, ~ In n (map a_name l) -> new_entity (perform_all l r) n = new_entity r n /\ dget pystr_eqb (raw (perform_all l r)) n = dget pystr_eqb (raw r) n /\
     dget pystr_eqb (sets (perform_all l r)) n = dget pystr_eqb (sets r) n) /\
  (forall a, In a l ->
     (typed (a_type a) -> new_entity (perform_all l r) (a_name a) = Ok (Some (class_name (a_type a)))) /\
     (~ typed (a_type a) -> new_entity (perform_all l r) (a_name a) = Ok None) /\
     dget pystr_eqb (raw (perform_all l r)) (a_name a) = Some (made (a_name a) (a_type a) (a_box a) (a_rest a)) /\
     dget pystr_eqb (sets (perform_all l r)) (a_name a) = Some [a_box a] /\ is_flippable (perform_all l r) (a_name a) = Err KeyError) /\
  (forall n, is_flippable (perform_all l r) n = is_flippable r n) /\
  (forall t, match dget pystr_eqb (of_type (perform_all l r)) t with Some ns => ns | None => [] end =
     match dget pystr_eqb (of_type r) t with Some ns => ns | None => [] end ++ map a_name (filter (fun a => pystr_eqb (a_type a) t) l)).
Proof.
  induction l as [|a l IH]; intros r C F.
  - cbn. split; [exact C|]. split; [auto|]. split; [intros a []|]. split; [reflexivity|]. intros t. rewrite app_nil_r. reflexivity.
  - cbn [perform_all fold_left]. fold (perform_all l (perform r a)). pose proof (perform_complete r a C) as C'. pose proof (perform_fresh r a l F) as F'.
    destruct (IH (perform r a) C' F') as (H1 & H2 & H3 & H4 & H5). destruct F as [ND F]. cbn in ND. apply NoDup_cons_iff in ND as [NI ND].
    split; [exact H1|]. split; [|split; [|split]].
    + intros n N. cbn in N. assert (NE : a_name a <> n) by tauto. assert (X : ~ In n (map a_name l)) by tauto. destruct (H2 n X) as (P & Q & S).
      assert (Z : pystr_eqb (a_name a) n = false). { destruct (pystr_eqb (a_name a) n) eqn:Y; [apply pystr_eqb_eq in Y; contradiction|reflexivity]. }
      rewrite P, Q, S. rewrite (perform_other r a n (fun E => NE (eq_sym E)) C), perform_raw, perform_sets, Z. auto.
    + intros b [<-|I]; [|exact (H3 b I)]. destruct (H2 (a_name a) NI) as (P & Q & S). rewrite P, Q, S. destruct (F a (or_introl eq_refl)) as (A & B & D).
      destruct (perform_new r a C A) as [X Y]. split; [exact X|]. split; [exact Y|]. rewrite perform_raw, perform_sets, pystr_eqb_refl. split; [reflexivity|]. split; [reflexivity|].
      rewrite H4. unfold is_flippable. cbn [flippable perform add_entity]. rewrite (proj2 (dget_none pystr_eqb pystr_eqb_eq _ _) D). reflexivity.
    + exact H4.
    + intros t. rewrite H5, perform_types. cbn [filter]. destruct (pystr_eqb (a_type a) t) eqn:E; [|reflexivity]. apply pystr_eqb_eq in E. rewrite <- E. cbn [map]. rewrite <- app_assoc. reflexivity.
Qed.

(** ** Layers *)
Definition special : list pystr :=
  [str "gate"; str "heat-pipe"; str "land-mine"; str "linked-belt"; str "loader"; str "straight-rail"; str "curved-rail"; str "rail-signal"; str "rail-chain-signal";
   str "locomotive"; str "cargo-wagon"; str "fluid-wagon"; str "artillery-wagon"; str "splitter"; str "transport-belt"; str "underground-belt"].
Lemma mask_plain t : ~ In t special -> default_mask t = [str "item-layer"; str "object-layer"; str "player-layer"; str "water-tile"].
Proof.
  intros N. assert (H : forall x, In x special -> pystr_eqb t x = false).
  { intros x I. destruct (pystr_eqb t x) eqn:E; [apply pystr_eqb_eq in E; subst; contradiction|reflexivity]. }
  unfold default_mask. rewrite !H by (unfold special; cbn [In]; tauto). reflexivity.
Qed.
Lemma special_all (f : pystr -> bool) : forallb f special = true -> forall t, In t special -> f t = true.
Proof. rewrite forallb_forall. auto. Qed.
Theorem object_layer t : In (str "object-layer") (default_mask t) <->
  ~ In t [str "rail-signal"; str "rail-chain-signal"; str "locomotive"; str "cargo-wagon"; str "fluid-wagon"; str "artillery-wagon"].
Proof.
  set (low := [str "rail-signal"; str "rail-chain-signal"; str "locomotive"; str "cargo-wagon"; str "fluid-wagon"; str "artillery-wagon"]).
  destruct (in_dec pystr_eq_dec t special) as [I|N].
  - pose proof (special_all (fun t => Bool.eqb (mem (str "object-layer") (default_mask t)) (negb (mem t low)))) as H. cbn beta in H. specialize (H eq_refl t I). apply eqb_prop in H.
    rewrite <- mem_in, H, negb_true_iff, mem_out. reflexivity.
  - rewrite (mask_plain t N). split; [|intros _; right; left; reflexivity]. intros _ J. apply N. unfold low in J. unfold special. cbn [In] in *. tauto.
Qed.
Lemma layer_only k low : forallb (fun t => Bool.eqb (mem k (default_mask t)) (mem t low)) special = true -> (forall t, In t low -> In t special) ->
  mem k [str "item-layer"; str "object-layer"; str "player-layer"; str "water-tile"] = false -> forall t, In k (default_mask t) <-> In t low.
Proof.
  intros H S P t. destruct (in_dec pystr_eq_dec t special) as [I|N].
  - pose proof (special_all _ H t I) as E. cbn beta in E. apply eqb_prop in E. rewrite <- !mem_in, E. reflexivity.
  - rewrite (mask_plain t N). rewrite <- mem_in, P. split; [discriminate|]. intros J. destruct (N (S t J)).
Qed.
Lemma layer_but k low : forallb (fun t => Bool.eqb (mem k (default_mask t)) (negb (mem t low))) special = true -> (forall t, In t low -> In t special) ->
  mem k [str "item-layer"; str "object-layer"; str "player-layer"; str "water-tile"] = true -> forall t, In k (default_mask t) <-> ~ In t low.
Proof.
  intros H S P t. destruct (in_dec pystr_eq_dec t special) as [I|N].
  - pose proof (special_all _ H t I) as E. cbn beta in E. apply eqb_prop in E. rewrite <- mem_in, E, negb_true_iff, mem_out. reflexivity.
  - rewrite (mask_plain t N). rewrite <- mem_in, P. split; [|reflexivity]. intros _ J. exact (N (S t J)).
Qed.
Theorem other_layers t :
  (In (str "train-layer") (default_mask t) <-> In t [str "gate"; str "locomotive"; str "cargo-wagon"; str "fluid-wagon"; str "artillery-wagon"]) /\
  (In (str "transport-belt-layer") (default_mask t) <-> In t [str "linked-belt"; str "loader"; str "splitter"; str "transport-belt"; str "underground-belt"]) /\
  (In (str "rail-layer") (default_mask t) <-> In t [str "straight-rail"; str "curved-rail"; str "rail-signal"; str "rail-chain-signal"]) /\
  (In (str "floor-layer") (default_mask t) <-> In t [str "heat-pipe"; str "straight-rail"; str "curved-rail"; str "rail-signal"; str "rail-chain-signal"; str "transport-belt"]) /\
  (In (str "item-layer") (default_mask t) <-> ~ In t [str "heat-pipe"; str "land-mine"; str "transport-belt"; str "locomotive"; str "cargo-wagon"; str "fluid-wagon"; str "artillery-wagon"]) /\
  (In (str "water-tile") (default_mask t) <-> ~ In t [str "rail-signal"; str "rail-chain-signal"; str "locomotive"; str "cargo-wagon"; str "fluid-wagon"; str "artillery-wagon"]) /\
  (In (str "player-layer") (default_mask t) <-> ~ In t [str "heat-pipe"; str "land-mine"; str "linked-belt"; str "loader"; str "straight-rail"; str "curved-rail"; str "rail-signal"; str "rail-chain-signal"; str "locomotive"; str "cargo-wagon"; str "fluid-wagon"; str "artillery-wagon"; str "splitter"; str "transport-belt"; str "underground-belt"]).
Proof.
  repeat match goal with |- _ /\ _ => split end; first [apply layer_only|apply layer_but]; try (vm_compute; reflexivity); intros x J; unfold special; cbn [In] in *; tauto.
Qed.
(** No default has the name that a mask given as a table has. *)
Theorem layers_apart t : ~ In (str "layers") (default_mask t).
Proof.
  destruct (in_dec pystr_eq_dec t special) as [I|N].
  - apply mem_out. apply negb_true_iff. exact (special_all (fun t => negb (mem (str "layers") (default_mask t))) eq_refl t I).
  - rewrite (mask_plain t N). apply mem_out. vm_compute. reflexivity.
Qed.

(** ** What does not hold *)
Definition blank : reg := mkReg [] (map (fun tc => (fst tc, [])) factory) [] [].
Lemma blank_complete : complete blank.
Proof.
  intros t TY. intros D. apply (dget_none pystr_eqb pystr_eqb_eq) in D. apply D. unfold blank. cbn [of_type]. rewrite map_map. cbn [fst].
  apply in_map_iff. exists (t, class_name t). split; [reflexivity|]. apply factory_exact. auto.
Qed.
Definition plain : source := mkSrc None None None None false None None None None None.
Definition ex_box : box := (0, 0, 1, 1)%Z.
Lemma readded : exists r a e, complete r /\ typed (a_type a) /\ dget pystr_eqb (raw (perform r a)) (a_name a) = Some e /\ e_type e = a_type a /\
  new_entity (perform r a) (a_name a) = Ok (Some (str "Container")) /\ class_name (a_type a) = str "Wall" /\
  dget pystr_eqb (of_type (perform (perform r a) a)) (a_type a) = Some [a_name a; a_name a].
Proof.
  exists (perform blank (mkAdd (str "box") (str "container") ex_box plain)), (mkAdd (str "box") (str "wall") ex_box plain). eexists.
  split; [apply perform_complete, blank_complete|]. split; [left; split; [apply mem_in|apply mem_out]; vm_compute; reflexivity|].
  split; [vm_compute; reflexivity|]. repeat split; vm_compute; reflexivity.
Qed.
Lemma hidden_lost : exists r a e, complete r /\ fresh r [a] /\ s_hidden (a_rest a) = true /\ s_flags (a_rest a) = Some [str "placeable-neutral"] /\
  dget pystr_eqb (raw (perform r a)) (a_name a) = Some e /\ ~ In (str "hidden") (e_flags e).
Proof.
  exists blank, (mkAdd (str "box") (str "container") ex_box (mkSrc None None None None true (Some [str "placeable-neutral"]) None None None None)). eexists.
  split; [exact blank_complete|]. split.
  { split; [repeat constructor; intros []|]. intros a [<-|[]]. split; [|split; intros []]. intros (t & ns & D & I).
    apply (dget_some_in pystr_eqb pystr_eqb_eq) in D. unfold blank in D. cbn [of_type] in D. apply in_map_iff in D as ([t' c] & E & _). inversion E; subst. destruct I. }
  split; [reflexivity|]. split; [reflexivity|]. split; [vm_compute; reflexivity|]. apply mem_out. vm_compute. reflexivity.
Qed.
Theorem given_layers r a b e e' : a_name a <> a_name b -> s_mask (a_rest a) = Some [str "layers"] -> s_mask (a_rest b) = None ->
  dget pystr_eqb (raw (perform (perform r a) b)) (a_name a) = Some e -> dget pystr_eqb (raw (perform (perform r a) b)) (a_name b) = Some e' ->
  forall layer, In layer (e_mask e) -> ~ In layer (e_mask e').
Proof.
  intros N A B D D' layer I J. rewrite perform_raw in D, D'. rewrite pystr_eqb_refl in D'. inversion D'; subst e'; clear D'.
  destruct (pystr_eqb (a_name b) (a_name a)) eqn:E; [apply pystr_eqb_eq in E; congruence|]. rewrite perform_raw, pystr_eqb_refl in D. inversion D; subst e; clear D.
  unfold made in I, J. cbn [e_mask] in I, J. rewrite A in I. rewrite B in J. destruct I as [<-|[]]. exact (layers_apart _ J).
Qed.

(** ** An example *)
Definition rg_groups : table group := [(str "g", mkG (Some (str "g")) (Some (str "a")))].
Definition rg_subgroups : table subgroup := [(str "other", mkS (Some (str "other")) (Some (str "z")) (Some (str "g"))); (str "storage", mkS (Some (str "storage")) (Some (str "a")) (Some (str "g")))].
Definition src (n t : string) (f : option (list pystr)) (m : option pystr) : pystr * source :=
  (str n, mkSrc (Some (str n)) (Some (str t)) (Some ex_box) None false f (Some (str "a")) (if pystr_eqb (str t) (str "wall") then None else Some (str "storage")) None m).
Definition rg_data : sdict (list (pystr * source)) :=
  [(str "wall", [src "stone-wall" "wall" None None; src "ghost" "wall" (Some [str "not-blueprintable"]) None]);
   (str "logistic-container", [src "buffer-chest" "logistic-container" None (Some (str "buffer")); src "odd-chest" "logistic-container" None (Some (str "odd"))]);
   (str "asteroid-collector", [src "asteroid-collector" "asteroid-collector" None None]);
   (str "train-stop", [src "train-stop" "train-stop" None None])].
Lemma rg_tidy : tidy rg_data.
Proof.
  split.
  - intros p k s I J. unfold table_of in J. destruct (dget pystr_eqb rg_data p) as [l|] eqn:D; [|destruct J]. apply (dget_some_in pystr_eqb pystr_eqb_eq) in D.
    unfold rg_data in D. cbn [In] in D. repeat (destruct D as [D|D]; [injection D as <- <-; cbn [In src] in J; repeat (destruct J as [J|J]; [injection J as <- <-; split; reflexivity|]); destruct J|]). destruct D.
  - apply nodupb_ok. vm_compute. reflexivity.
Qed.
