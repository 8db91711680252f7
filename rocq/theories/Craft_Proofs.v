(** Proofs about recipes, modules and machines. *)
From Coq Require Import ZArith QArith List Bool String Lia Permutation.
From Verif Require Import Common Dict Order Ranking_Model Ranking_Spec Ranking_Proofs Craft_Model Craft_Spec.
Import ListNotations.
Local Open Scope string_scope.
Local Open Scope list_scope.

Lemma sget {V} d k (v : V) k' : dget pystr_eqb (dset pystr_eqb d k v) k' = if pystr_eqb k k' then Some v else dget pystr_eqb d k'.
Proof. apply dget_dset. exact pystr_eqb_eq. Qed.
Lemma mem_in x l : mem x l = true <-> In x l.
Proof.
  unfold mem. split.
  - intros E. apply existsb_exists in E as (y & I & E). apply pystr_eqb_eq in E. congruence.
  - intros I. apply existsb_exists. exists x. split; [exact I|apply pystr_eqb_refl].
Qed.
Lemma mem_out x l : mem x l = false <-> ~ In x l.
Proof. rewrite <- mem_in. destruct (mem x l); split; congruence. Qed.

(** ** Ingredients. *)
Lemma ing_name_iff i n : ing_name i = Ok n <-> named i n.
Proof.
  unfold named. destruct i as [[m|]|[m|]]; cbn; (split; [intros E; inversion E; subst; auto|intros [E|E]; congruence]).
Qed.
Lemma ing_names_iff l : forall s, ing_names l = Ok s <-> Forall2 named l s.
Proof.
  induction l as [|i l IH]; intros s; cbn.
  - split; [intros E; inversion E; constructor|intros F; inversion F; reflexivity].
  - split.
    + intros E. destruct (ing_name i) as [n|] eqn:N; [|discriminate]. cbn in E. destruct (ing_names l) as [ns|] eqn:L; [|discriminate].
      inversion E; subst. constructor; [apply ing_name_iff; exact N|apply IH; reflexivity].
    + intros F. inversion F as [|? n ? ns N F']; subst. apply ing_name_iff in N. apply IH in F'. rewrite N. cbn. rewrite F'. reflexivity.
Qed.
Lemma ing_names_total l : (forall i, In i l -> exists n, named i n) -> exists s, ing_names l = Ok s.
Proof.
  induction l as [|i l IH]; cbn; intros H; [eauto|]. destruct (H i (or_introl eq_refl)) as [n N]. apply ing_name_iff in N. rewrite N. cbn.
  destruct IH as [s E]; [auto|]. rewrite E. cbn. eauto.
Qed.
Lemma ing_names_err l e : ing_names l = Err e -> (e = IndexError /\ In (IList None) l) \/ (e = KeyError /\ In (IDict None) l).
Proof.
  induction l as [|i l IH]; cbn; [discriminate|]. destruct i as [[m|]|[m|]]; cbn; intros E.
  - destruct (ing_names l); [discriminate|]. destruct (IH E) as [[A B]|[A B]]; auto.
  - inversion E. left. auto.
  - destruct (ing_names l); [discriminate|]. destruct (IH E) as [[A B]|[A B]]; auto.
  - inversion E. right. auto.
Qed.
Lemma ingredients_eq raw n e : get_recipe_ingredients raw (Some n) e =
  match dget pystr_eqb raw n with
  | None => Ok None
  | Some r => match cost r e with Some l => let* s := ing_names l in Ok (Some s) | None => Err KeyError end
  end.
Proof.
  unfold get_recipe_ingredients, cost. destruct (dget pystr_eqb raw n) as [r|]; [|reflexivity]. destruct (rc_ingredients r); reflexivity.
Qed.
Theorem ingredients_ok : forall raw n e,
  (forall s, get_recipe_ingredients raw (Some n) e = Ok (Some s) <->
     exists r l, dget pystr_eqb raw n = Some r /\ cost r e = Some l /\ Forall2 named l s) /\
  (get_recipe_ingredients raw (Some n) e = Ok None <-> dget pystr_eqb raw n = None) /\
  (forall x, get_recipe_ingredients raw (Some n) e = Err x ->
     (x = KeyError /\ exists r, dget pystr_eqb raw n = Some r /\
        (cost r e = None \/ exists l, cost r e = Some l /\ In (IDict None) l)) \/
     (x = IndexError /\ exists r l, dget pystr_eqb raw n = Some r /\ cost r e = Some l /\ In (IList None) l)).
Proof.
  intros raw n e. rewrite ingredients_eq. destruct (dget pystr_eqb raw n) as [r|].
  2:{ repeat split; try discriminate. intros (r & l & E & _). discriminate. }
  destruct (cost r e) as [l|] eqn:C.
  - destruct (ing_names l) as [s0|x0] eqn:L; cbn [bind].
    + split; [|split].
      * intros s. split.
        -- intros E. inversion E; subst. exists r, l. split; [reflexivity|]. split; [exact C|]. apply ing_names_iff. exact L.
        -- intros (r' & l' & E & C' & F). inversion E; subst r'. rewrite C in C'. inversion C'; subst l'. apply ing_names_iff in F. congruence.
      * split; discriminate.
      * discriminate.
    + split; [|split].
      * intros s. split; [discriminate|]. intros (r' & l' & E & C' & F). inversion E; subst r'. rewrite C in C'. inversion C'; subst l'. apply ing_names_iff in F. congruence.
      * split; discriminate.
      * intros x E. inversion E; subst x. destruct (ing_names_err l x0 L) as [[A B]|[A B]].
        -- right. split; [exact A|]. exists r, l. auto.
        -- left. split; [exact A|]. exists r. split; [reflexivity|]. right. exists l. auto.
  - split; [|split].
    + intros s. split; [discriminate|]. intros (r' & l' & E & C' & F). inversion E; subst r'. congruence.
    + split; discriminate.
    + intros x E. inversion E. left. split; [reflexivity|]. exists r. auto.
Qed.

(** ** Modules that fit. *)
Lemma barred_iff m recipe : barred m recipe = false <-> permits m recipe.
Proof.
  unfold barred, permits. destruct recipe as [r|]; [|split; [discriminate|reflexivity]].
  split.
  - intros B r' E. inversion E; subst r'. destruct (mo_limit m) as [l|].
    + destruct (mem r l) eqn:M; cbn in B; [|discriminate]. apply mem_in in M. split; [intros l' X; inversion X; subst; exact M|].
      intros b X. rewrite X in B. apply mem_out. exact B.
    + split; [discriminate|]. intros b X. rewrite X in B. apply mem_out. exact B.
  - intros H. destruct (H r eq_refl) as [A B]. destruct (mo_limit m) as [l|].
    + rewrite (proj2 (mem_in r l) (A l eq_refl)). cbn. destruct (mo_black m) as [b|]; [|reflexivity]. apply mem_out, B. reflexivity.
    + destruct (mo_black m) as [b|]; [|reflexivity]. apply mem_out, B. reflexivity.
Qed.
Lemma positive_in x e : In x (positive e) <-> exists v, In (x, v) e /\ (0 < v)%Q.
Proof.
  unfold positive. rewrite in_map_iff. split.
  - intros ([y v] & E & I). cbn in E. subst y. apply filter_In in I as [I P]. cbn in P. exists v. split; [exact I|].
    apply negb_true_iff in P. destruct (Qlt_le_dec 0 v) as [L|L]; [exact L|]. apply Qle_bool_iff in L. congruence.
  - intros (v & I & P). exists (x, v). split; [reflexivity|]. apply filter_In. split; [exact I|]. cbn. apply negb_true_iff.
    destruct (Qle_bool v 0) eqn:E; [|reflexivity]. apply Qle_bool_iff in E. exfalso. exact (Qlt_not_le _ _ P E).
Qed.
Lemma allowed_iff e a : forallb (fun x => mem x a) (positive e) = true <-> forall x v, In (x, v) e -> (0 < v)%Q -> In x a.
Proof.
  rewrite forallb_forall. split.
  - intros H x v I P. apply mem_in, H, positive_in. exists v. auto.
  - intros H x I. apply positive_in in I as (v & I & P). apply mem_in, (H x v I P).
Qed.
Lemma modules_in raw a recipe : forall out, modules_for raw a recipe = Ok out ->
  forall n, In n out <-> exists m, In (n, m) raw /\ fits m a recipe.
Proof.
  induction raw as [|[k m] raw IH]; cbn; intros out E n.
  - inversion E. split; [intros []|intros (m & [] & _)].
  - destruct (barred m recipe) eqn:B.
    + rewrite (IH out E n). split; [intros (m' & I & F); exists m'; auto|]. intros (m' & [X|I] & F); [|exists m'; auto].
      inversion X; subst. destruct F as [P _]. apply barred_iff in P. congruence.
    + destruct (mo_effect m) as [e|] eqn:M; [|discriminate]. destruct (modules_for raw a recipe) as [r|] eqn:R; [|discriminate]. cbn in E. inversion E; subst out.
      pose proof (IH r eq_refl n) as J. assert (F : fits m a recipe <-> forallb (fun x => mem x a) (positive e) = true).
      { unfold fits. rewrite allowed_iff. split.
        - intros (_ & e' & X & Y). rewrite M in X. inversion X; subst. exact Y.
        - intros Y. split; [apply barred_iff; exact B|]. exists e. auto. }
      destruct (forallb (fun x => mem x a) (positive e)).
      * cbn. rewrite J. split; [intros [<-|(m' & I & G)]; [exists m; split; [auto|apply F; reflexivity]|exists m'; auto]|].
        intros (m' & [X|I] & G); [left; congruence|right; exists m'; auto].
      * rewrite J. split; [intros (m' & I & G); exists m'; auto|]. intros (m' & [X|I] & G); [|exists m'; auto]. inversion X; subst. apply F in G. discriminate.
Qed.
Lemma modules_iff raw a recipe : (exists out, modules_for raw a recipe = Ok out) <->
  (forall n m, In (n, m) raw -> permits m recipe -> mo_effect m <> None).
Proof.
  induction raw as [|[k m] raw IH]; cbn; [split; [intros _ n m []|eauto]|].
  destruct (barred m recipe) eqn:B.
  - rewrite IH. split; [|eauto]. intros H n m' [X|I] P; [|eauto]. inversion X; subst. apply barred_iff in P. congruence.
  - apply barred_iff in B. destruct (mo_effect m) as [e|] eqn:M.
    + split.
      * intros [out E]. destruct (modules_for raw a recipe) as [r|] eqn:R; [|discriminate]. intros n m' [X|I] P; [inversion X; subst; congruence|].
        exact (proj1 IH (ex_intro _ r eq_refl) n m' I P).
      * intros H. destruct (proj2 IH) as [r R]; [intros n m' I P; eauto|]. rewrite R. cbn. eauto.
    + split; [intros [out E]; discriminate|]. intros H. destruct (H k m (or_introl eq_refl) B M).
Qed.
Lemma modules_err raw a recipe e : modules_for raw a recipe = Err e -> e = KeyError.
Proof.
  induction raw as [|[k m] raw IH]; cbn; [discriminate|]. destruct (barred m recipe); [exact IH|]. destruct (mo_effect m); [|congruence].
  destruct (modules_for raw a recipe); cbn; [discriminate|]. intros E. apply IH. congruence.
Qed.
Theorem modules_ok_thm : forall raw a recipe,
  (forall out, get_modules_from_effects raw (Some a) recipe = Ok (Some out) ->
     forall n, In n out <-> exists m, In (n, m) raw /\ fits m a recipe) /\
  ((exists out, get_modules_from_effects raw (Some a) recipe = Ok (Some out)) <->
     (forall n m, In (n, m) raw -> permits m recipe -> mo_effect m <> None)) /\
  (forall e, get_modules_from_effects raw (Some a) recipe = Err e -> e = KeyError).
Proof.
  intros raw a recipe. unfold get_modules_from_effects. split; [|split].
  - intros out E. destruct (modules_for raw a recipe) as [r|] eqn:R; [|discriminate]. cbn in E. inversion E; subst r. exact (modules_in raw a recipe out R).
  - rewrite <- (modules_iff raw a recipe). destruct (modules_for raw a recipe) as [r|]; cbn; split; intros [o E]; try discriminate; eauto.
  - intros e. destruct (modules_for raw a recipe) as [r|x] eqn:R; cbn; [discriminate|]. intros E. inversion E; subst. exact (modules_err _ _ _ _ R).
Qed.
Theorem modules_mono : forall raw a b recipe out out', incl a b ->
  get_modules_from_effects raw (Some a) recipe = Ok (Some out) ->
  get_modules_from_effects raw (Some b) None = Ok (Some out') -> incl out out'.
Proof.
  intros raw a b recipe out out' AB E E' n I. apply (proj1 (modules_ok_thm raw a recipe) out E) in I as (m & I & _ & e & M & P).
  apply (proj1 (modules_ok_thm raw b None) out' E'). exists m. split; [exact I|]. split; [intros r X; discriminate|]. exists e. split; [exact M|].
  intros x v J L. apply AB. exact (P x v J L).
Qed.

(** ** Adding modules. *)
Theorem add_module_ok : forall t name c effect tier limit black,
  ((exists t', add_module t name c effect tier limit black = Ok t') <-> dget pystr_eqb (mt_categories t) c <> None) /\
  (forall e, add_module t name c effect tier limit black = Err e -> e = TypeError) /\
  (forall t', add_module t name c effect tier limit black = Ok t' ->
     (exists m, dget pystr_eqb (mt_raw t') name = Some m /\ p_name (mo_proto m) = Some name /\ mo_category m = Some c /\
        let old := dget pystr_eqb (mt_raw t) name in
        ((exists o e, old = Some o /\ mo_effect o = Some e /\ mo_effect m = Some e) \/
         ((forall o, old = Some o -> mo_effect o = None) /\
          (effect <> None /\ mo_effect m = effect \/ effect = None /\ mo_effect m = Some []))) /\
        ((exists o e, old = Some o /\ mo_tier o = Some e /\ mo_tier m = Some e) \/
         ((forall o, old = Some o -> mo_tier o = None) /\
          (tier <> None /\ mo_tier m = tier \/ tier = None /\ mo_tier m = Some 0%Z))) /\
        (limit <> None -> mo_limit m = limit) /\ (black <> None -> mo_black m = black) /\
        (limit = None -> mo_limit m = match old with Some o => mo_limit o | None => None end) /\
        (black = None -> mo_black m = match old with Some o => mo_black o | None => None end)) /\
     (forall n', n' <> name -> dget pystr_eqb (mt_raw t') n' = dget pystr_eqb (mt_raw t) n') /\
     (forall c', c' <> c -> dget pystr_eqb (mt_categories t') c' = dget pystr_eqb (mt_categories t) c') /\
     (exists l, dget pystr_eqb (mt_categories t) c = Some l /\ dget pystr_eqb (mt_categories t') c = Some (l ++ [name]))).
Proof.
  intros t name c effect tier limit black. unfold add_module. destruct (dget pystr_eqb (mt_categories t) c) as [l|] eqn:C.
  2:{ split; [split; [intros [x E]; discriminate|congruence]|]. split; [intros e E; congruence|discriminate]. }
  split; [split; [discriminate|eauto]|]. split; [discriminate|]. intros t' E. inversion E; subst t'; clear E. cbn [mt_raw mt_categories].
  split; [|split; [|split]].
  - rewrite sget, pystr_eqb_refl. eexists. split; [reflexivity|]. cbn [mo_proto p_name mo_category mo_effect mo_tier mo_limit mo_black].
    split; [reflexivity|]. split; [reflexivity|]. cbn zeta. destruct (dget pystr_eqb (mt_raw t) name) as [o|].
    + split; [|split; [|split; [|split; [|split]]]].
      * destruct (mo_effect o) as [e|] eqn:O; [left; eauto|]. right. split; [congruence|]. destruct effect; [left|right]; (split; [congruence|reflexivity]).
      * destruct (mo_tier o) as [e|] eqn:O; [left; eauto|]. right. split; [congruence|]. destruct tier; [left|right]; (split; [congruence|reflexivity]).
      * destruct limit; congruence.
      * destruct black; congruence.
      * destruct limit; congruence.
      * destruct black; congruence.
    + split; [|split; [|split; [|split; [|split]]]].
      * right. split; [discriminate|]. destruct effect; [left|right]; (split; [congruence|reflexivity]).
      * right. split; [discriminate|]. destruct tier; [left|right]; (split; [congruence|reflexivity]).
      * destruct limit; congruence.
      * destruct black; congruence.
      * destruct limit; congruence.
      * destruct black; congruence.
  - intros n' N. rewrite sget. destruct (pystr_eqb name n') eqn:X; [apply pystr_eqb_eq in X; congruence|reflexivity].
  - intros c' N. rewrite sget. destruct (pystr_eqb c c') eqn:X; [apply pystr_eqb_eq in X; congruence|reflexivity].
  - exists l. split; [reflexivity|]. rewrite sget, pystr_eqb_refl. reflexivity.
Qed.
Lemma add_listed t n c e k l b t' : listed t -> add_module t n c e k l b = Ok t' -> listed t'.
Proof.
  intros L E. destruct (proj2 (proj2 (add_module_ok t n c e k l b)) t' E) as ((m & R & _ & MC & _) & RO & CO & (lc & C & C')).
  intros n' m' c' R' M'. destruct (pystr_eq_dec n' n) as [->|N].
  - rewrite R in R'. inversion R'; subst m'. rewrite MC in M'. inversion M'; subst c'. exists (lc ++ [n]). split; [exact C'|]. apply in_or_app. right. left. reflexivity.
  - rewrite RO in R' by exact N. destruct (L n' m' c' R' M') as (l' & D & I). destruct (pystr_eq_dec c' c) as [->|X].
    + exists (lc ++ [n]). split; [exact C'|]. rewrite C in D. inversion D; subst. apply in_or_app. left. exact I.
    + exists l'. split; [rewrite CO by exact X; exact D|exact I].
Qed.
Lemma add_cats t n c e k l b t' known : (forall x, dget pystr_eqb (mt_categories t) x <> None -> In x known) ->
  add_module t n c e k l b = Ok t' -> forall x, dget pystr_eqb (mt_categories t') x <> None -> In x known.
Proof.
  intros K E x D. destruct (proj2 (proj2 (add_module_ok t n c e k l b)) t' E) as (_ & _ & CO & (lc & C & _)).
  destruct (pystr_eq_dec x c) as [->|X]; [apply K; congruence|]. apply K. rewrite <- CO by exact X. exact D.
Qed.
Theorem history_listed : forall l t known, (forall c, dget pystr_eqb (mt_categories t) c <> None -> In c known) ->
  fresh_categories known l -> listed t -> listed (perform_all l t).
Proof.
  unfold perform_all. induction l as [|a l IH]; intros t known K F L; [exact L|]. cbn [fold_left]. destruct a as [n|n c e k li b]; cbn [perform fresh_categories] in *.
  - destruct F as [N F]. apply (IH _ (n :: known)); [|exact F|].
    + intros c D. cbn in D. rewrite sget in D. destruct (pystr_eqb n c) eqn:X; [left; apply pystr_eqb_eq; exact X|right; apply K; exact D].
    + intros n' m c R M. cbn in R. destruct (L n' m c R M) as (l' & D & I). exists l'. split; [|exact I]. cbn. rewrite sget.
      destruct (pystr_eqb n c) eqn:X; [|exact D]. apply pystr_eqb_eq in X. subst c. exfalso. apply N, K. congruence.
  - destruct (add_module t n c e k li b) as [t'|x] eqn:E.
    + apply (IH _ known); [|exact F|exact (add_listed _ _ _ _ _ _ _ _ L E)]. exact (add_cats _ _ _ _ _ _ _ _ known K E).
    + exact (IH t known K F L).
Qed.

(** ** Extraction. *)
Lemma dset_fresh {V} (d : sdict V) k v : ~ In k (map fst d) -> dset pystr_eqb d k v = d ++ [(k, v)].
Proof.
  induction d as [|[k' w] d IH]; cbn; intros N; [reflexivity|]. destruct (pystr_eqb k' k) eqn:E.
  - apply pystr_eqb_eq in E. exfalso. apply N. left. exact E.
  - rewrite IH; [reflexivity|]. intros I. apply N. right. exact I.
Qed.
Lemma fold_start cats : forall d c, dget pystr_eqb (fold_left (fun d kv => dset pystr_eqb d (fst kv) (snd kv)) (map (fun c => (c, @nil pystr)) cats) d) c =
  if mem c cats then Some [] else dget pystr_eqb d c.
Proof.
  induction cats as [|x cats IH]; intros d c; cbn [map fold_left fst snd]; [reflexivity|]. rewrite IH, sget. cbn [mem existsb]. fold (mem c cats).
  destruct (mem c cats); [rewrite orb_true_r; reflexivity|]. rewrite orb_false_r. destruct (pystr_eqb x c) eqn:E.
  - apply pystr_eqb_eq in E. subst. rewrite pystr_eqb_refl. reflexivity.
  - destruct (pystr_eqb c x) eqn:E'; [|reflexivity]. apply pystr_eqb_eq in E'. subst. rewrite pystr_eqb_refl in E. discriminate.
Qed.
Lemma start cats c : dget pystr_eqb (dict_of pystr_eqb (map (fun c => (c, @nil pystr)) cats)) c = if mem c cats then Some [] else None.
Proof. exact (fold_start cats [] c). Qed.

Definition under (c : pystr) (recipes : sdict recipe) : list pystr := map fst (filter (fun p => pystr_eqb (category_of (snd p)) c) recipes).
Lemma sort_in_ok recipes : (forall n r, In (n, r) recipes -> p_name (rc_proto r) = Some n) -> forall out res, sort_in recipes out = Ok res ->
  forall c, dget pystr_eqb res c = match dget pystr_eqb out c with Some l => Some (l ++ under c recipes) | None => None end.
Proof.
  induction recipes as [|[k r] recipes IH]; intros N out res E c.
  - cbn in E. inversion E; subst. destruct (dget pystr_eqb res c); [cbn; rewrite app_nil_r|]; reflexivity.
  - cbn [sort_in] in E. fold (category_of r) in E. destruct (dget pystr_eqb out (category_of r)) as [l|] eqn:D; [|discriminate]. cbn [need bind] in E.
    rewrite (N k r (or_introl eq_refl)) in E. cbn [need bind] in E. rewrite (IH (fun n r I => N n r (or_intror I)) _ _ E c), sget.
    unfold under. cbn [filter snd]. destruct (pystr_eqb (category_of r) c) eqn:X.
    + apply pystr_eqb_eq in X. subst c. rewrite D. cbn [map fst]. rewrite <- app_assoc. reflexivity.
    + reflexivity.
Qed.
Lemma sort_in_iff recipes : (forall n r, In (n, r) recipes -> p_name (rc_proto r) = Some n) -> forall out,
  (exists res, sort_in recipes out = Ok res) <-> (forall n r, In (n, r) recipes -> dget pystr_eqb out (category_of r) <> None).
Proof.
  induction recipes as [|[k r] recipes IH]; intros N out; [cbn; split; [intros _ n r []|eauto]|].
  cbn [sort_in]. fold (category_of r). rewrite (N k r (or_introl eq_refl)). destruct (dget pystr_eqb out (category_of r)) as [l|] eqn:D; cbn [need bind].
  - rewrite IH by (intros n r' I; apply N; right; exact I). split.
    + intros H n r' [X|I]; [inversion X; subst; congruence|]. specialize (H n r' I). rewrite sget in H.
      destruct (pystr_eqb (category_of r) (category_of r')) eqn:Y; [apply pystr_eqb_eq in Y; congruence|exact H].
    + intros H n r' I. rewrite sget. destruct (pystr_eqb (category_of r) (category_of r')); [discriminate|]. apply (H n r'). right. exact I.
  - split; [intros [x E]; discriminate|]. intros H. destruct (H k r (or_introl eq_refl) D).
Qed.
Lemma need_err {A} (o : option A) e : need o = Err e -> e = KeyError.
Proof. destruct o; cbn; congruence. Qed.
Lemma sort_in_err recipes : forall out e, sort_in recipes out = Err e -> e = KeyError.
Proof.
  induction recipes as [|[k r] recipes IH]; intros out e E; [discriminate|]. cbn [sort_in] in E. destruct (need (dget _ _ _)) as [l|x] eqn:A; cbn [bind] in E; [|inversion E; subst; exact (need_err _ _ A)].
  destruct (need (p_name _)) as [n|x] eqn:B; cbn [bind] in E; [exact (IH _ _ E)|inversion E; subst; exact (need_err _ _ B)].
Qed.
Lemma gather_in out cs : forall l, gather out cs = Ok l -> forall x, In x l <-> exists c lc, In c cs /\ dget pystr_eqb out c = Some lc /\ In x lc.
Proof.
  induction cs as [|c cs IH]; cbn; intros l E x; [inversion E; split; [intros []|intros (c & lc & [] & _)]|].
  destruct (dget pystr_eqb out c) as [lc|] eqn:D; [|discriminate]. cbn in E. destruct (gather out cs) as [r|]; [|discriminate]. cbn in E. inversion E; subst l.
  rewrite in_app_iff, (IH r eq_refl x). split.
  - intros [I|(c' & lc' & I & D' & J)]; [exists c, lc; auto|exists c', lc'; auto].
  - intros (c' & lc' & [<-|I] & D' & J); [left; congruence|right; exists c', lc'; auto].
Qed.
Lemma gather_iff out cs : (exists l, gather out cs = Ok l) <-> forall c, In c cs -> dget pystr_eqb out c <> None.
Proof.
  induction cs as [|c cs IH]; cbn; [split; [intros _ c []|eauto]|]. destruct (dget pystr_eqb out c) as [lc|] eqn:D; cbn.
  - split.
    + intros [l E]. destruct (gather out cs) as [r|]; [|discriminate]. intros c' [<-|I]; [congruence|]. exact (proj1 IH (ex_intro _ r eq_refl) c' I).
    + intros H. destruct (proj2 IH) as [r R]; [auto|]. rewrite R. cbn. eauto.
  - split; [intros [x E]; discriminate|]. intros H. destruct (H c (or_introl eq_refl) D).
Qed.
Lemma gather_err out cs e : gather out cs = Err e -> e = KeyError.
Proof.
  induction cs as [|c cs IH]; cbn; [discriminate|]. destruct (dget pystr_eqb out c); cbn; [|congruence]. destruct (gather out cs); cbn; [discriminate|].
  intros E. apply IH. congruence.
Qed.
Lemma machines_get out ms : forall acc res, NoDup (map fst ms) -> machines_of out ms acc = Ok res -> forall m,
  (forall cs, In (m, Some cs) ms -> exists l, gather out cs = Ok l /\ dget pystr_eqb res m = Some l) /\
  (~ In m (map fst ms) -> dget pystr_eqb res m = dget pystr_eqb acc m).
Proof.
  induction ms as [|[k cs] ms IH]; intros acc res ND E m.
  - cbn in E. inversion E; subst. split; [intros cs []|reflexivity].
  - cbn [machines_of] in E. cbn in ND. apply NoDup_cons_iff in ND as [NI ND]. destruct cs as [cs|]; [|discriminate]. cbn [need bind] in E.
    destruct (gather out cs) as [l|] eqn:G; [|discriminate]. cbn [bind] in E. destruct (IH _ _ ND E m) as [A B]. split.
    + intros cs' [X|I]; [|exact (A cs' I)]. inversion X; subst. exists l. split; [exact G|]. rewrite B by exact NI. rewrite sget, pystr_eqb_refl. reflexivity.
    + intros N. rewrite B by (intros I; apply N; right; exact I). rewrite sget. destruct (pystr_eqb k m) eqn:X; [|reflexivity].
      apply pystr_eqb_eq in X. exfalso. apply N. left. exact X.
Qed.
Lemma machines_iff out ms : forall acc, (exists res, machines_of out ms acc = Ok res) <->
  (forall m cs, In (m, cs) ms -> exists l, cs = Some l /\ forall c, In c l -> dget pystr_eqb out c <> None).
Proof.
  induction ms as [|[k cs] ms IH]; intros acc; cbn [machines_of].
  - split; [intros _ m cs []|eauto].
  - destruct cs as [cs|]; cbn [need bind].
    + pose proof (gather_iff out cs) as G. destruct (gather out cs) as [l|] eqn:E; cbn [bind].
      * rewrite IH. split.
        -- intros H m cs' [X|I]; [|exact (H m cs' I)]. inversion X; subst. exists cs. split; [reflexivity|]. apply G. eauto.
        -- intros H m cs' I. apply (H m). right. exact I.
      * split; [intros [x X]; discriminate|]. intros H. destruct (H k (Some cs) (or_introl eq_refl)) as (l & X & Y). inversion X; subst. apply G in Y as [z Z]. discriminate.
    + split; [intros [x X]; discriminate|]. intros H. destruct (H k None (or_introl eq_refl)) as (l & X & Y). discriminate.
Qed.
Lemma machines_err out ms : forall acc e, machines_of out ms acc = Err e -> e = KeyError.
Proof.
  induction ms as [|[k cs] ms IH]; intros acc e; cbn [machines_of]; [discriminate|]. destruct cs as [cs|]; cbn [need bind]; [|congruence].
  destruct (gather out cs) as [l|x] eqn:G; cbn [bind]; [apply IH|]. intros E. inversion E; subst. exact (gather_err _ _ _ G).
Qed.
Lemma pick_ok (unsorted : sdict recipe) : NoDup (map fst unsorted) -> forall names acc, NoDup (map fst acc ++ names) -> incl names (map fst unsorted) ->
  exists l, pick unsorted names acc = Ok (acc ++ l) /\ map fst l = names /\ incl l unsorted.
Proof.
  intros W. induction names as [|n names IH]; intros acc ND I.
  - exists []. cbn. rewrite app_nil_r. split; [reflexivity|]. split; [reflexivity|intros x []].
  - pose proof (NoDup_remove_2 _ _ _ ND) as N. cbn [pick]. assert (J := I n (or_introl eq_refl)). apply in_map_iff in J as ([n' r] & X & J). cbn in X. subst n'.
    assert (D : dget pystr_eqb unsorted n = Some r) by (apply (dget_in pystr_eqb pystr_eqb_eq); assumption). rewrite D. cbn [need bind].
    rewrite dset_fresh by (intros K; apply N, in_or_app; left; exact K).
    destruct (IH (acc ++ [(n, r)])) as (l & E & F & G).
    + rewrite map_app. cbn. rewrite <- app_assoc. exact ND.
    + intros x K. apply I. right. exact K.
    + exists ((n, r) :: l). split; [rewrite E, <- app_assoc; reflexivity|]. split; [cbn; rewrite F; reflexivity|].
      intros x [<-|K]; [exact J|exact (G x K)].
Qed.
Lemma some_perm (l l' : list pystr) : Permutation (map Some l) (map Some l') -> Permutation l l'.
Proof.
  intros P. destruct (Permutation_map_inv _ _ P) as (k & E & Q).
  assert (X : forall a b : list pystr, map Some a = map Some b -> a = b).
  { induction a as [|x a IH]; intros [|y b] F; cbn in F; try discriminate; [reflexivity|]. inversion F. f_equal. auto. }
  apply X in E. subst. symmetry. exact Q.
Qed.
Lemma incl_perm {V} (l l' : sdict V) : NoDup (map fst l') -> incl l l' -> Permutation (map fst l) (map fst l') -> Permutation l l'.
Proof.
  intros W I P. apply NoDup_Permutation_bis.
  - apply (NoDup_map_inv fst). apply (Permutation_NoDup (Permutation_sym P)). exact W.
  - apply Permutation_length in P. rewrite !map_length in P. lia.
  - exact I.
Qed.

Section Extract_thms.
  Variable items : table proto.
  Variable subgroups : table subgroup.
  Variable groups : table group.

  Lemma order_keys {V} (f : V -> proto) (d : sdict V) out : (forall n r, In (n, r) d -> p_name (f r) = Some n) ->
    get_order (map (fun p => f (snd p)) d) items subgroups groups = Ok out -> Permutation (map fst d) out.
  Proof.
    intros N E. apply order_names in E. apply some_perm. rewrite <- E, !map_map. apply Permutation_refl'. apply map_ext_in. intros [n r] I. cbn. symmetry. exact (N n r I).
  Qed.
  Theorem extract_recipes_ok : forall categories recipes machines t, recipes_ok recipes -> NoDup (map fst machines) ->
    extract_recipes items subgroups groups categories recipes machines = Ok t ->
    Permutation recipes (rt_raw t) /\
    get_order (map (fun p => rc_proto (snd p)) recipes) items subgroups groups = Ok (map fst (rt_raw t)) /\
    (forall c, dget pystr_eqb (rt_categories t) c = if in_dec pystr_eq_dec c categories
       then Some (map fst (filter (fun p => pystr_eqb (category_of (snd p)) c) recipes)) else None) /\
    (forall m cs, In (m, Some cs) machines -> exists l, dget pystr_eqb (rt_machine t) m = Some l /\
       forall n, In n l <-> exists r, In (n, r) recipes /\ In (category_of r) cs) /\
    (forall m, ~ In m (map fst machines) -> dget pystr_eqb (rt_machine t) m = None).
  Proof.
    intros categories recipes machines t [W N] WM E. unfold extract_recipes in E.
    destruct (sort_in recipes _) as [out|] eqn:S1; [|discriminate]. cbn [bind] in E.
    destruct (machines_of out machines []) as [fm|] eqn:S2; [|discriminate]. cbn [bind] in E.
    destruct (get_order _ items subgroups groups) as [names|] eqn:S3; [|discriminate]. cbn [bind] in E.
    destruct (pick recipes names []) as [raw|] eqn:S4; [|discriminate]. cbn [bind] in E. inversion E; subst t; clear E. cbn [rt_raw rt_categories rt_machine].
    pose proof (order_keys rc_proto recipes names N S3) as P.
    destruct (pick_ok recipes W names []) as (l & E & F & G).
    { cbn. exact (Permutation_NoDup P W). }
    { intros x I. exact (Permutation_in x (Permutation_sym P) I). }
    rewrite S4 in E. inversion E; subst raw; clear E. cbn [app].
    assert (C : forall c, dget pystr_eqb out c = if in_dec pystr_eq_dec c categories then Some (under c recipes) else None).
    { intros c. rewrite (sort_in_ok recipes N _ out S1 c), start. destruct (in_dec pystr_eq_dec c categories) as [I|I].
      - apply mem_in in I. rewrite I. reflexivity.
      - apply mem_out in I. rewrite I. reflexivity. }
    split; [|split; [rewrite F; reflexivity|split; [exact C|split]]].
    - symmetry. apply incl_perm; [exact W|exact G|]. rewrite F. symmetry. exact P.
    - intros m cs I. destruct (proj1 (machines_get out machines [] fm WM S2 m) cs I) as (lm & GA & D). exists lm. split; [exact D|].
      intros n. rewrite (gather_in out cs lm GA n). split.
      + intros (c & lc & Ic & D' & J). rewrite C in D'. destruct (in_dec pystr_eq_dec c categories); [|discriminate]. inversion D'; subst lc.
        unfold under in J. apply in_map_iff in J as ([n' r] & X & J). cbn in X. subst n'. apply filter_In in J as [J Y]. cbn in Y. apply pystr_eqb_eq in Y.
        exists r. split; [exact J|]. rewrite Y. exact Ic.
      + intros (r & J & Ic). exists (category_of r), (under (category_of r) recipes). split; [exact Ic|]. split.
        * rewrite C. destruct (in_dec pystr_eq_dec (category_of r) categories) as [K|K]; [reflexivity|].
          destruct (proj1 (sort_in_iff recipes N _) (ex_intro _ out S1) n r J). rewrite start. apply mem_out in K. rewrite K. reflexivity.
        * unfold under. apply in_map_iff. exists (n, r). split; [reflexivity|]. apply filter_In. split; [exact J|]. cbn. apply pystr_eqb_refl.
    - intros m I. exact (proj2 (machines_get out machines [] fm WM S2 m) I).
  Qed.
  Theorem extract_recipes_iff : forall categories recipes machines, recipes_ok recipes ->
    ((exists t, extract_recipes items subgroups groups categories recipes machines = Ok t) <->
      ((forall n r, In (n, r) recipes -> In (category_of r) categories /\ exists k, ranked items subgroups groups (rc_proto r) k) /\
       (forall m cs, In (m, cs) machines -> exists l, cs = Some l /\ incl l categories))) /\
    (forall e, extract_recipes items subgroups groups categories recipes machines = Err e -> e = KeyError).
  Proof.
    intros categories recipes machines [W N]. unfold extract_recipes.
    pose proof (sort_in_iff recipes N (dict_of pystr_eqb (map (fun c => (c, [])) categories))) as H1.
    pose proof (sort_in_ok recipes N (dict_of pystr_eqb (map (fun c => (c, [])) categories))) as H1'.
    pose proof (sort_in_err recipes (dict_of pystr_eqb (map (fun c => (c, [])) categories))) as H1e.
    destruct (order_iff (map (fun p => rc_proto (snd p)) recipes) items subgroups groups) as [H3 H3e].
    pose proof (order_keys rc_proto recipes) as OK.
    assert (H4 : forall names, get_order (map (fun p => rc_proto (snd p)) recipes) items subgroups groups = Ok names -> exists raw, pick recipes names [] = Ok raw).
    { intros names E. pose proof (OK names N E) as P. destruct (pick_ok recipes W names []) as (l & X & _).
      - exact (Permutation_NoDup P W).
      - intros x I. exact (Permutation_in x (Permutation_sym P) I).
      - eauto. }
    assert (CS : forall c, dget pystr_eqb (dict_of pystr_eqb (map (fun c => (c, @nil pystr)) categories)) c <> None <-> In c categories).
    { intros c. rewrite start, <- mem_in. destruct (mem c categories); split; congruence. }
    destruct (sort_in recipes _) as [out|e1]; cbn [bind].
    2:{ split; [|intros e E; apply H1e; congruence]. split; [intros [t E]; discriminate|]. intros [H _].
        destruct (proj2 H1) as [res R]; [|discriminate]. intros n r I. apply CS. exact (proj1 (H n r I)). }
    assert (A1 : forall n r, In (n, r) recipes -> In (category_of r) categories). { intros n r I. apply CS. exact (proj1 H1 (ex_intro _ out eq_refl) n r I). }
    assert (OC : forall c, dget pystr_eqb out c <> None <-> In c categories).
    { intros c. rewrite (H1' out eq_refl c), <- CS. destruct (dget pystr_eqb (dict_of _ _) c); split; congruence. }
    pose proof (machines_iff out machines []) as H2. pose proof (machines_err out machines []) as H2e.
    destruct (machines_of out machines []) as [fm|e2]; cbn [bind].
    2:{ split; [|intros e E; apply H2e; congruence]. split; [intros [t E]; discriminate|]. intros [_ H]. destruct (proj2 H2) as [res R]; [|discriminate].
        intros m cs I. destruct (H m cs I) as (l & -> & J). exists l. split; [reflexivity|]. intros c K. apply OC, J, K. }
    assert (A2 : forall m cs, In (m, cs) machines -> exists l, cs = Some l /\ incl l categories).
    { intros m cs I. destruct (proj1 H2 (ex_intro _ fm eq_refl) m cs I) as (l & -> & J). exists l. split; [reflexivity|]. intros c K. apply OC, J, K. }
    destruct (get_order _ items subgroups groups) as [names|e3]; cbn [bind].
    2:{ split; [|intros e E; apply H3e; congruence]. split; [intros [t E]; discriminate|]. intros [H _]. destruct (proj2 H3) as [res R]; [|discriminate].
        intros o I. apply in_map_iff in I as ([n r] & <- & I). exact (proj2 (H n r I)). }
    destruct (H4 names eq_refl) as [raw R]. rewrite R. cbn [bind]. split; [|discriminate]. split; [|eauto]. intros _. split; [|exact A2].
    intros n r I. split; [exact (A1 n r I)|]. apply (proj1 H3 (ex_intro _ names eq_refl)). apply in_map_iff. exists (n, r). auto.
  Qed.

  Definition in_cat (c : pystr) (m : modul) : bool := match mo_category m with Some c' => pystr_eqb c' c | None => false end.
  Lemma sort_modules_ok (unsorted : sdict modul) : NoDup (map fst unsorted) -> forall names t t', NoDup (map fst (mt_raw t) ++ names) ->
    sort_modules unsorted names t = Ok t' ->
    exists l, mt_raw t' = mt_raw t ++ l /\ map fst l = names /\ incl l unsorted /\
      (forall c, dget pystr_eqb (mt_categories t') c = match dget pystr_eqb (mt_categories t) c with
         | Some lc => Some (lc ++ map fst (filter (fun p => in_cat c (snd p)) l)) | None => None end).
  Proof.
    intros W. induction names as [|n names IH]; intros t t' ND E.
    - cbn in E. inversion E; subst. exists []. rewrite app_nil_r. split; [reflexivity|]. split; [reflexivity|]. split; [intros x []|].
      intros c. destruct (dget pystr_eqb (mt_categories t') c); [cbn; rewrite app_nil_r|]; reflexivity.
    - pose proof (NoDup_remove_2 _ _ _ ND) as N. cbn [sort_modules] in E. destruct (dget pystr_eqb unsorted n) as [m|] eqn:D; [|discriminate]. cbn [need bind] in E.
      destruct (mo_category m) as [c0|] eqn:C; [|discriminate]. cbn [need bind] in E.
      destruct (dget pystr_eqb (mt_categories t) c0) as [l0|] eqn:D0; [|discriminate]. cbn [need bind] in E.
      rewrite dset_fresh in E by (intros K; apply N, in_or_app; left; exact K).
      apply IH in E; [|cbn [mt_raw]; rewrite map_app; cbn; rewrite <- app_assoc; exact ND]. destruct E as (l & R & F & G & H). cbn [mt_raw mt_categories] in R, H.
      exists ((n, m) :: l). split; [rewrite R, <- app_assoc; reflexivity|]. split; [cbn; rewrite F; reflexivity|]. split.
      { intros x [<-|K]; [|exact (G x K)]. exact (dget_some_in pystr_eqb pystr_eqb_eq _ _ _ D). }
      intros c. rewrite H, sget. cbn [filter snd]. unfold in_cat at 2. rewrite C. destruct (pystr_eqb c0 c) eqn:X.
      + apply pystr_eqb_eq in X. subst c. rewrite D0. cbn [map fst]. rewrite <- app_assoc. reflexivity.
      + reflexivity.
  Qed.
  Lemma sort_modules_iff (unsorted : sdict modul) : NoDup (map fst unsorted) -> forall names t, incl names (map fst unsorted) ->
    (exists t', sort_modules unsorted names t = Ok t') <->
    (forall n m, In n names -> In (n, m) unsorted -> exists c, mo_category m = Some c /\ dget pystr_eqb (mt_categories t) c <> None).
  Proof.
    intros W. induction names as [|n names IH]; intros t I; [cbn; split; [intros _ n m []|eauto]|].
    assert (J := I n (or_introl eq_refl)). apply in_map_iff in J as ([n' m] & X & J). cbn in X. subst n'.
    assert (D : dget pystr_eqb unsorted n = Some m) by (apply (dget_in pystr_eqb pystr_eqb_eq); assumption).
    cbn [sort_modules]. rewrite D. cbn [need bind].
    assert (U : forall m', In (n, m') unsorted -> m' = m). { intros m' K. apply (dget_in pystr_eqb pystr_eqb_eq) in K; [congruence|exact W]. }
    destruct (mo_category m) as [c0|] eqn:C; cbn [need bind].
    2:{ split; [intros [x E]; discriminate|]. intros H. destruct (H n m (or_introl eq_refl) J) as (c & E & _). congruence. }
    destruct (dget pystr_eqb (mt_categories t) c0) as [l0|] eqn:D0; cbn [need bind].
    2:{ split; [intros [x E]; discriminate|]. intros H. destruct (H n m (or_introl eq_refl) J) as (c & E & K). congruence. }
    rewrite IH by (intros x K; apply I; right; exact K). cbn [mt_categories]. split.
    - intros H n' m' [<-|K] L; [rewrite (U m' L); exists c0; split; [exact C|congruence]|].
      destruct (H n' m' K L) as (c & E & M). exists c. split; [exact E|]. rewrite sget in M. destruct (pystr_eqb c0 c) eqn:Y; [apply pystr_eqb_eq in Y; congruence|exact M].
    - intros H n' m' K L. destruct (H n' m' (or_intror K) L) as (c & E & M). exists c. split; [exact E|]. rewrite sget. destruct (pystr_eqb c0 c); [discriminate|exact M].
  Qed.
  Lemma sort_modules_err (unsorted : sdict modul) : forall names t e, sort_modules unsorted names t = Err e -> e = KeyError.
  Proof.
    induction names as [|n names IH]; intros t e E; [discriminate|]. cbn [sort_modules] in E.
    destruct (dget pystr_eqb unsorted n) as [m|]; cbn [need bind] in E; [|congruence]. destruct (mo_category m) as [c|]; cbn [need bind] in E; [|congruence].
    destruct (dget pystr_eqb (mt_categories t) c); cbn [need bind] in E; [exact (IH _ _ E)|congruence].
  Qed.
  Theorem extract_modules_ok : forall categories modules t, modules_ok modules ->
    extract_modules items subgroups groups categories modules = Ok t ->
    Permutation modules (mt_raw t) /\
    get_order (map (fun p => mo_proto (snd p)) modules) items subgroups groups = Ok (map fst (mt_raw t)) /\
    (forall c, dget pystr_eqb (mt_categories t) c = if in_dec pystr_eq_dec c categories
       then Some (map fst (filter (fun p => match mo_category (snd p) with Some c' => pystr_eqb c' c | None => false end) (mt_raw t))) else None) /\
    listed t.
  Proof.
    intros categories modules t [W N] E. unfold extract_modules in E. destruct (get_order _ items subgroups groups) as [names|] eqn:S3; [|discriminate]. cbn [bind] in E.
    pose proof (order_keys mo_proto modules names N S3) as P.
    pose proof (proj1 (sort_modules_iff modules W names _ (fun x I => Permutation_in x (Permutation_sym P) I)) (ex_intro _ t E)) as Q.
    destruct (fun X => sort_modules_ok modules W names _ t X E) as (l & R & F & G & H).
    { cbn. exact (Permutation_NoDup P W). }
    cbn [mt_raw mt_categories app] in R, H, Q.
    assert (PL : Permutation modules (mt_raw t)). { rewrite R. symmetry. apply incl_perm; [exact W|exact G|]. rewrite F. symmetry. exact P. }
    assert (C : forall c, dget pystr_eqb (mt_categories t) c = if in_dec pystr_eq_dec c categories
       then Some (map fst (filter (fun p => in_cat c (snd p)) (mt_raw t))) else None).
    { intros c. rewrite H, start, R. destruct (in_dec pystr_eq_dec c categories) as [I|I].
      - apply mem_in in I. rewrite I. reflexivity.
      - apply mem_out in I. rewrite I. reflexivity. }
    split; [exact PL|]. split; [rewrite R, F; reflexivity|]. split; [exact C|].
    intros n m c D M. apply (dget_some_in pystr_eqb pystr_eqb_eq) in D. pose proof (Permutation_in _ (Permutation_sym PL) D) as J.
    assert (K : In n names). { apply (Permutation_in n P). apply in_map_iff. exists (n, m). auto. }
    destruct (Q n m K J) as (c' & M' & X). rewrite M in M'. inversion M'; subst c'. rewrite start in X. destruct (mem c categories) eqn:Y; [|congruence]. apply mem_in in Y.
    rewrite C. destruct (in_dec pystr_eq_dec c categories); [|contradiction]. eexists. split; [reflexivity|]. apply in_map_iff. exists (n, m). split; [reflexivity|].
    apply filter_In. split; [exact D|]. cbn. unfold in_cat. rewrite M. apply pystr_eqb_refl.
  Qed.
  Theorem extract_modules_iff : forall categories modules, modules_ok modules ->
    ((exists t, extract_modules items subgroups groups categories modules = Ok t) <->
      (forall n m, In (n, m) modules -> (exists c, mo_category m = Some c /\ In c categories) /\ exists k, ranked items subgroups groups (mo_proto m) k)) /\
    (forall e, extract_modules items subgroups groups categories modules = Err e -> e = KeyError).
  Proof.
    intros categories modules [W N]. unfold extract_modules.
    destruct (order_iff (map (fun p => mo_proto (snd p)) modules) items subgroups groups) as [H3 H3e].
    pose proof (order_keys mo_proto modules) as OK.
    destruct (get_order _ items subgroups groups) as [names|e3]; cbn [bind].
    - pose proof (OK names N eq_refl) as P. split; [|intros e; apply sort_modules_err].
      rewrite (sort_modules_iff modules W names _ (fun x I => Permutation_in x (Permutation_sym P) I)). cbn [mt_categories]. split.
      + intros H n m I. split.
        * destruct (H n m) as (c & M & D); [apply (Permutation_in n P), in_map_iff; exists (n, m); auto|exact I|]. exists c. split; [exact M|].
          rewrite start in D. apply mem_in. destruct (mem c categories); congruence.
        * apply (proj1 H3 (ex_intro _ names eq_refl)). apply in_map_iff. exists (n, m). auto.
      + intros H n m _ I. destruct (H n m I) as [(c & M & J) _]. exists c. split; [exact M|]. rewrite start. apply mem_in in J. rewrite J. discriminate.
    - split; [|intros e E; apply H3e; congruence]. split; [intros [t E]; discriminate|]. intros H. destruct (proj2 H3) as [res R]; [|discriminate].
      intros o I. apply in_map_iff in I as ([n m] & <- & I). exact (proj2 (H n m I)).
  Qed.
End Extract_thms.

(** ** Machines. *)
Lemma all_in raw names : forall out, all_ingredients raw names = Ok out ->
  (forall x, In x out <-> exists n r, In n names /\ dget pystr_eqb raw n = Some r /\ takes r x).
Proof.
  induction names as [|n names IH]; cbn [all_ingredients]; intros out E x.
  - inversion E. split; [intros []|intros (n & r & [] & _)].
  - destruct (get_recipe_ingredients raw (Some n) false) as [[i|]|] eqn:G; cbn [bind] in E; try discriminate.
    destruct (all_ingredients raw names) as [r0|]; [|discriminate]. cbn [bind] in E. inversion E; subst out.
    apply (proj1 (ingredients_ok raw n false)) in G as (r & l & D & C & F). rewrite in_app_iff, (IH r0 eq_refl x).
    assert (T : In x i <-> takes r x).
    { unfold takes. split.
      - intros I. exists l. assert (Q : exists y, In y l /\ named y x). { clear - F I. induction F as [|y z l i A F IH]; [destruct I|]. destruct I as [<-|I]; [exists y; cbn; auto|]. destruct (IH I) as (w & J & K). exists w; cbn; auto. }
        destruct Q as (y & J & K). exists y. auto.
      - intros (l' & y & C' & J & K). rewrite C in C'. inversion C'; subst l'. clear - F J K. induction F as [|z w l i A F IH]; [destruct J|]. destruct J as [<-|J]; [|right; auto].
        left. apply ing_name_iff in A, K. congruence. }
    rewrite T. split.
    + intros [I|(n' & r' & I & D' & K)]; [exists n, r; cbn; auto|exists n', r'; cbn; auto].
    + intros (n' & r' & [<-|I] & D' & K); [left; congruence|right; exists n', r'; auto].
Qed.
Lemma all_iff raw names : (exists out, all_ingredients raw names = Ok out) <-> (forall n, In n names -> exists r, dget pystr_eqb raw n = Some r /\ complete r).
Proof.
  induction names as [|n names IH]; cbn [all_ingredients]; [split; [intros _ n []|eauto]|].
  pose proof (ingredients_ok raw n false) as (A & B & C). destruct (get_recipe_ingredients raw (Some n) false) as [[i|]|x] eqn:G; cbn [bind].
  - destruct (proj1 (A i) eq_refl) as (r & l & D & K & F).
    assert (Cm : complete r). { exists l. split; [exact K|]. clear - F. induction F as [|y z l i A F IH]; intros q I; [destruct I|]. destruct I as [<-|I]; eauto. }
    split.
    + intros [out E]. destruct (all_ingredients raw names) as [r0|]; [|discriminate]. intros n' [<-|I]; [eauto|]. exact (proj1 IH (ex_intro _ r0 eq_refl) n' I).
    + intros H. destruct (proj2 IH) as [r0 R]; [intros n' I; apply H; right; exact I|]. rewrite R. cbn. eauto.
  - split; [intros [out E]; discriminate|]. intros H. destruct (H n (or_introl eq_refl)) as (r & D & _). rewrite (proj1 B eq_refl) in D. discriminate.
  - split; [intros [out E]; discriminate|]. intros H. destruct (H n (or_introl eq_refl)) as (r & D & l & K & L). destruct (ing_names_total l L) as [s S].
    apply ing_names_iff in S. assert (X : Err x = Ok (Some s)) by (apply A; exists r, l; auto). discriminate.
Qed.
Theorem furnace_ok : forall entities t name m, dget pystr_eqb entities name = Some m ->
  (forall out, furnace_ingredients entities t name = Ok (Some out) ->
     forall x, In x out <-> exists cs c l n r, ma_crafting m = Some cs /\ In c cs /\ dget pystr_eqb (rt_categories t) c = Some l /\ In n l /\
       dget pystr_eqb (rt_raw t) n = Some r /\ takes r x) /\
  ((exists out, furnace_ingredients entities t name = Ok (Some out)) <->
     exists cs, ma_crafting m = Some cs /\ forall c, In c cs -> exists l, dget pystr_eqb (rt_categories t) c = Some l /\
       forall n, In n l -> exists r, dget pystr_eqb (rt_raw t) n = Some r /\ complete r).
Proof.
  intros entities t name m M. unfold furnace_ingredients. rewrite M. destruct (ma_crafting m) as [cs|]; cbn [need bind].
  2:{ split; [discriminate|]. split; [intros [o E]; discriminate|]. intros (cs & E & _). discriminate. }
  pose proof (gather_iff (rt_categories t) cs) as GI. destruct (gather (rt_categories t) cs) as [l|] eqn:G; cbn [bind].
  - pose proof (all_iff (rt_raw t) l) as AI. pose proof (all_in (rt_raw t) l) as AN. destruct (all_ingredients (rt_raw t) l) as [o|]; cbn [bind].
    + split.
      * intros out E. inversion E; subst o. intros x. rewrite (AN out eq_refl x). split.
        -- intros (n & r & I & D & T). apply (gather_in _ _ _ G) in I as (c & lc & I & D' & J). exists cs, c, lc, n, r. auto 10.
        -- intros (cs' & c & lc & n & r & E' & I & D & J & D' & T). inversion E'; subst cs'. exists n, r. split; [|auto]. apply (gather_in _ _ _ G). exists c, lc. auto.
      * split; [|eauto]. intros _. exists cs. split; [reflexivity|]. intros c I. destruct (dget pystr_eqb (rt_categories t) c) as [lc|] eqn:D.
        -- exists lc. split; [reflexivity|]. intros n J. apply (proj1 AI (ex_intro _ o eq_refl)). apply (gather_in _ _ _ G). exists c, lc. auto.
        -- destruct (proj1 GI (ex_intro _ l eq_refl) c I D).
    + split; [discriminate|]. split; [intros [o E]; discriminate|]. intros (cs' & E' & H). inversion E'; subst cs'. destruct (proj2 AI) as [o O]; [|discriminate].
      intros n I. apply (gather_in _ _ _ G) in I as (c & lc & I & D & J). destruct (H c I) as (l' & D' & K). rewrite D in D'. inversion D'; subst l'. exact (K n J).
  - split; [discriminate|]. split; [intros [o E]; discriminate|]. intros (cs' & E' & H). inversion E'; subst cs'. destruct (proj2 GI) as [o O]; [|discriminate].
    intros c I. destruct (H c I) as (l' & D' & _). congruence.
Qed.

Lemma check_ok l requested : check_items (Ok (Some l)) requested = Ok (if forallb (fun i => mem i l) requested then [] else [ItemLimitation]).
Proof. induction requested as [|i r IH]; cbn; [reflexivity|]. destruct (mem i l); cbn; [exact IH|reflexivity]. Qed.
(** What an assembling machine says of a new recipe that is known. *)
Theorem set_recipe_ok : forall entities modules t name requested r mrec m, dget pystr_eqb (rt_raw t) r = Some mrec -> complete mrec ->
  dget pystr_eqb entities name = Some m -> (forall n mo, In (n, mo) modules -> mo_effect mo <> None) ->
  exists ws, set_recipe Assembler entities modules t name requested (Some r) = Ok ws /\
    (~ In UnknownRecipe ws) /\
    (In RecipeLimitation ws <-> exists l, dget pystr_eqb (rt_machine t) name = Some l /\ ~ In r l) /\
    (In ItemLimitation ws <-> exists i, In i requested /\ ~ takes mrec i /\
       ~ exists mo, In (i, mo) modules /\ fits mo (match ma_effects m with Some l => l | None => [] end) (Some r)).
Proof.
  intros entities modules t name requested r mrec m R CO E EF. unfold set_recipe. rewrite R. unfold allowed_items, allowed_modules, allowed_effects. rewrite E.
  destruct CO as (l & C & T). destruct (ing_names_total l T) as [s S]. rewrite ingredients_eq, R, C, S. cbn [bind].
  set (a := match ma_effects m with Some l => l | None => [] end).
  destruct (proj2 (proj1 (proj2 (modules_ok_thm modules a (Some r))))) as [mo MO]; [intros n x I _; exact (EF n x I)|].
  pose proof (proj1 (modules_ok_thm modules a (Some r)) mo MO) as MI. rewrite MO. cbn [bind]. rewrite check_ok. cbn [bind app].
  apply ing_names_iff in S.
  assert (TI : forall x, In x s <-> takes mrec x).
  { intros x. unfold takes. split.
    - intros I. exists l. assert (Q : exists y, In y l /\ named y x). { clear - S I. induction S as [|y z l i A F IH]; [destruct I|]. destruct I as [<-|I]; [exists y; cbn; auto|]. destruct (IH I) as (w & J & K). exists w; cbn; auto. }
      destruct Q as (y & J & K). exists y. auto.
    - intros (l' & y & C' & J & K). rewrite C in C'. inversion C'; subst l'. clear - S J K. induction S as [|z w l i A F IH]; [destruct J|]. destruct J as [<-|J]; [|right; auto].
      left. apply ing_name_iff in A, K. congruence. }
  assert (FI : forallb (fun i => mem i (mo ++ s)) requested = false <-> exists i, In i requested /\ ~ takes mrec i /\ ~ exists x, In (i, x) modules /\ fits x a (Some r)).
  { split.
    - intros F. assert (Q : exists i, In i requested /\ ~ In i (mo ++ s)).
      { clear - F. induction requested as [|i q IH]; [discriminate|]. cbn in F. destruct (mem i (mo ++ s)) eqn:M; [destruct (IH F) as (j & J & K); exists j; cbn; auto|]. exists i. split; [left; reflexivity|apply mem_out; exact M]. }
      destruct Q as (i & I & N). exists i. split; [exact I|]. split; [intros X; apply N, in_or_app; right; apply TI; exact X|]. intros X. apply N, in_or_app. left. apply MI. exact X.
    - intros (i & I & N1 & N2). destruct (forallb _ _) eqn:F; [|reflexivity]. rewrite forallb_forall in F. specialize (F i I). apply mem_in, in_app_iff in F as [X|X]; exfalso.
      + apply N2, MI. exact X.
      + apply N1, TI. exact X. }
  eexists. split; [reflexivity|]. unfold allowed_recipes. split; [|split].
  - destruct (dget pystr_eqb (rt_machine t) name) as [lm|]; [destruct (mem r lm)|]; destruct (forallb _ _); cbn; intros X; repeat (destruct X as [X|X]; try discriminate); exact X.
  - split.
    + destruct (dget pystr_eqb (rt_machine t) name) as [lm|].
      * destruct (mem r lm) eqn:M; cbn [andb negb app]; [destruct (forallb _ _); cbn; intros X; repeat (destruct X as [X|X]; try discriminate); destruct X|].
        intros _. exists lm. split; [reflexivity|apply mem_out; exact M].
      * destruct (forallb _ _); cbn; intros X; repeat (destruct X as [X|X]; try discriminate); destruct X.
    + intros (lm & D & N). rewrite D. apply mem_out in N. rewrite N. cbn. left. reflexivity.
  - rewrite <- FI. rewrite in_app_iff. destruct (forallb _ _).
    + split; [|discriminate]. intros [X|[]]. destruct (dget pystr_eqb (rt_machine t) name) as [lm|]; [|destruct X]. destruct (mem r lm); cbn in X; [destruct X|]. destruct X as [X|[]]. discriminate.
    + split; [reflexivity|]. intros _. right. left. reflexivity.
Qed.
(** ... and of one that is not. *)
Theorem set_recipe_unknown : forall entities modules t name r k, dget pystr_eqb (rt_raw t) r = None ->
  set_recipe k entities modules t name [] (Some r) = Ok [UnknownRecipe] /\
  forall i requested, set_recipe k entities modules t name (i :: requested) (Some r) = Err TypeError.
Proof.
  intros entities modules t name r k R. unfold set_recipe. rewrite R. cbn [andb]. split.
  - cbn. destruct (allowed_recipes t name); reflexivity.
  - intros i requested. cbn [check_items]. destruct k; [|reflexivity]. unfold allowed_items. rewrite ingredients_eq, R. reflexivity.
Qed.
Theorem set_recipe_silo : forall entities modules t name r i requested,
  set_recipe Silo entities modules t name (i :: requested) (Some r) = Err TypeError.
Proof. intros. reflexivity. Qed.
Theorem set_recipe_machine : forall entities modules t name r mrec i requested, dget pystr_eqb (rt_raw t) r = Some mrec -> complete mrec ->
  dget pystr_eqb entities name = None -> set_recipe Assembler entities modules t name (i :: requested) (Some r) = Err AttributeError.
Proof.
  intros entities modules t name r mrec i requested R (l & C & T) E. unfold set_recipe. rewrite R. cbn [check_items]. unfold allowed_items, allowed_modules, allowed_effects.
  rewrite E. destruct (ing_names_total l T) as [s S]. rewrite ingredients_eq, R, C, S. reflexivity.
Qed.

(** ** Reading and writing. *)
Theorem fields_ok : forall k entities modules t name requested validate c v,
  let (c', r) := assign_recipe k entities modules t name requested validate v c in
  let (c'', q) := assign_quality validate v c in
  get_recipe c' = v /\ cr_quality c' = cr_quality c /\ (validate = false -> r = Ok []) /\
  cr_quality c'' = v /\ get_recipe c'' = get_recipe c /\
  ((exists e, q = Err e) <-> validate = true /\ exists x, v = Some x /\ ~ In x qualities).
Proof.
  intros k entities modules t name requested validate c v. unfold assign_recipe, assign_quality, get_recipe. cbn [cr_recipe cr_quality].
  split; [reflexivity|]. split; [reflexivity|]. split; [intros ->; reflexivity|]. split; [reflexivity|]. split; [reflexivity|]. split.
  - intros [e E]. destruct v as [q|]; [|discriminate E]. destruct validate; [|discriminate E]. split; [reflexivity|]. exists q. split; [reflexivity|]. cbn [andb] in E.
    destruct (mem q qualities) eqn:M; [discriminate|]. apply mem_out. exact M.
  - intros (-> & x & -> & N). apply mem_out in N. rewrite N. cbn. eauto.
Qed.
Theorem quality_read : forall validate v c, get_recipe_quality (fst (assign_quality validate v c)) = v <-> get_recipe c = v.
Proof. intros. reflexivity. Qed.
