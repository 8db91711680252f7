(** Proofs about trimmed exports of entities (C48). *)
From Coq Require Import ZArith QArith String List Bool Lia.
From Verif Require Import Common Dict Trim_Model Trim_Spec Trim_Proofs Trim_Classes Trim_Check.
Import ListNotations.
Local Open Scope string_scope.
Local Open Scope list_scope.

(** ** Deciding [fits] and [sane] *)
Fixpoint rowsb (fs : list (field * typ)) (r : list (pystr * val)) : bool :=
  match fs, r with
  | [], [] => true
  | (f, t) :: fs', (k, x) :: r' => pystr_eqb k (attr f) && fitsb t x && rowsb fs' r'
  | _, _ => false
  end.
Lemma fitsb_model c fs c' r ex : fitsb (Model c fs) (VRec c' r ex) =
  pystr_eqb c c' && rowsb fs r && distinct (map fst ex) &&
  forallb (fun kv => negb (mem (fst kv) (all_names fs)) && plain (snd kv)) ex.
Proof.
  reflexivity.
Qed.

Lemma fitsb_fits t v : fitsb t v = true -> fits t v.
Proof.
  revert v. induction t as [k|t IH|t IH|c fs IH] using typ_ind'; intros v H.
  - now constructor.
  - cbn in H. apply orb_true_iff in H as [H|H]; [destruct v; try discriminate; constructor|now constructor; apply IH].
  - destruct v; try discriminate. constructor. cbn in H. rewrite forallb_forall in H. rewrite Forall_forall. auto.
  - destruct v as [| | | | | | |c' r ex]; try discriminate. rewrite fitsb_model in H. rewrite !andb_true_iff in H.
    destruct H as [[[H1 H2] H3] H4]. apply pystr_eqb_eq in H1. subst c'. rewrite forallb_forall in H4. constructor.
    + clear - IH H2. revert r H2. induction fs as [|[f t] fs IHf]; intros [|[k x] r] H; try discriminate; [constructor|].
      cbn in H. rewrite !andb_true_iff in H. destruct H as [[A B] C]. apply pystr_eqb_eq in A. inversion IH; subst. constructor.
      * split; [reflexivity|]. cbn in *. auto.
      * now apply IHf.
    + now apply distinct_iff.
    + intros k I. apply in_map_iff in I as (kv & <- & I). specialize (H4 _ I). apply andb_true_iff in H4 as [H4 _].
      apply negb_true_iff in H4. now apply mem_out.
    + apply Forall_forall. intros kv I. specialize (H4 _ I). now apply andb_true_iff in H4 as [_ H4].
Qed.

Fixpoint srows (fs : list (field * typ)) : bool :=
  match fs with
  | [] => true
  | (f, t) :: fs' => saneb t && match default f with Some d => fitsb t d | None => true end && srows fs'
  end.
Lemma saneb_model c fs : saneb (Model c fs) = distinct (all_names fs) && srows fs.
Proof. reflexivity. Qed.

Lemma saneb_sane t : saneb t = true -> sane t.
Proof.
  induction t as [k|t IH|t IH|c fs IH] using typ_ind'; intro H; try (constructor; auto; fail).
  rewrite saneb_model in H. apply andb_true_iff in H as [H1 H2]. constructor.
  - now apply distinct_iff.
  - clear H1. induction fs as [|[f t] fs IHf]; [constructor|]. cbn in H2. rewrite !andb_true_iff in H2.
    destruct H2 as [[A B] C]. inversion IH; subst. constructor; auto.
  - clear H1 IH. induction fs as [|[f t] fs IHf]; [intros ? ? ? []|]. cbn in H2. rewrite !andb_true_iff in H2.
    destruct H2 as [[A B] C]. intros g u d [E|I] D.
    + injection E as -> ->. rewrite D in B. now apply fitsb_fits.
    + eapply IHf; eassumption.
Qed.

(** ** Validation that never consults the oracle *)
Lemma all_some_ext {A B C} (f : A -> option B) (g : A -> option B) (k : list B -> C) l m :
  (forall x y, In x l -> f x = Some y -> g x = Some y) -> all_some (map f l) = Some m -> all_some (map g l) = Some m.
Proof.
  revert m. induction l as [|a l IH]; intros m H E; [exact E|]. cbn in *.
  destruct (f a) as [b|] eqn:Ea; [|discriminate]. rewrite (H a b (or_introl eq_refl) Ea).
  destruct (all_some (map f l)) as [m'|] eqn:El; [|discriminate]. rewrite (IH m'); [exact E| |reflexivity]. intros. apply H; [now right|assumption].
Qed.

Lemma load_strict lax con t v y : load nolax false t v = Some y -> load lax con t v = Some y.
Proof.
  revert v y. induction t as [k|t IH|t IH|c fs IH] using typ_ind'; intros v y H.
  - cbn in *. unfold convert in *. destruct (typed k v); [exact H|discriminate].
  - cbn [load] in *. destruct (is_none v); [exact H|now apply IH].
  - cbn [load] in *. destruct v; try discriminate. destruct (all_some (map (load nolax false t) l)) as [m|] eqn:E; [|discriminate].
    rewrite (all_some_ext (load nolax false t) (load lax con t) (fun x => x) l m); [exact H| |exact E]. intros. now apply IH.
  - rewrite load_model in *.
    assert (X : forall d, from_dict nolax false c fs d = Some y -> from_dict lax con c fs d = Some y).
    { intros d Hd. unfold from_dict in *. destruct (all_some (map (filled nolax false d) fs)) as [m|] eqn:E; [|discriminate].
      rewrite (all_some_ext (filled nolax false d) (filled lax con d) (fun x => x) fs m); [exact Hd| |exact E].
      intros ft kv I F. rewrite Forall_forall in IH. unfold filled, pick in *. destruct (lookup (fst ft) d) as [[k x]|]; [|exact F].
      destruct (load nolax false (snd ft) x) as [w|] eqn:L; [|discriminate]. rewrite (IH ft I x w L). exact F. }
    destruct v; try discriminate; [now apply X|]. destruct (pystr_eqb c c0); [now apply X|discriminate].
Qed.

(** ** Dictionaries *)
Lemma pystr_neq (a b : pystr) : pystr_eqb a b = false -> a <> b.
Proof. intros E ->. rewrite pystr_eqb_refl in E. discriminate. Qed.
Lemma pystr_neqb (a b : pystr) : a <> b -> pystr_eqb a b = false.
Proof. intro H. destruct (pystr_eqb a b) eqn:E; [|reflexivity]. apply pystr_eqb_eq in E. tauto. Qed.

Lemma get_set {A} (d : list (pystr * A)) k v k' : get (set d k v) k' = if pystr_eqb k k' then Some v else get d k'.
Proof. unfold get, set. apply dget_dset. apply pystr_eqb_eq. Qed.

Lemma get_update {A} (e d : list (pystr * A)) k : NoDup (map fst e) ->
  get (update d e) k = match get e k with Some v => Some v | None => get d k end.
Proof.
  unfold update. revert d. induction e as [|[k' v] e IH]; intros d N; [reflexivity|].
  cbn [fold_left fst snd]. inversion N as [|? ? Z1 Z2]; subst. rewrite IH by assumption.
  unfold get at 3. cbn [dget]. fold (@get A). destruct (pystr_eqb k' k) eqn:E.
  - apply pystr_eqb_eq in E. subst k'. rewrite (proj2 (get_none e k)) by exact Z1. rewrite get_set, pystr_eqb_refl. reflexivity.
  - change (dget pystr_eqb e k) with (get e k). destruct (get e k); [reflexivity|]. now rewrite get_set, E.
Qed.

Lemma get_filter_key {A} (p : pystr -> bool) (d : list (pystr * A)) k :
  get (filter (fun kv => p (fst kv)) d) k = if p k then get d k else None.
Proof.
  unfold get. induction d as [|[k' v] d IH]; [now destruct (p k)|]. cbn [filter fst].
  destruct (p k') eqn:P; cbn [dget]; destruct (pystr_eqb k' k) eqn:E.
  - apply pystr_eqb_eq in E. subst. now rewrite P.
  - exact IH.
  - apply pystr_eqb_eq in E. subst. rewrite IH, P. reflexivity.
  - exact IH.
Qed.

Lemma get_filter {A} (p : pystr * A -> bool) (d : list (pystr * A)) k : NoDup (map fst d) ->
  get (filter p d) k = match get d k with Some v => if p (k, v) then Some v else None | None => None end.
Proof.
  unfold get. induction d as [|[k' v] d IH]; intro N; [reflexivity|]. inversion N as [|? ? Z1 Z2]; subst. specialize (IH Z2).
  cbn [filter]. destruct (p (k', v)) eqn:P; cbn [dget]; destruct (pystr_eqb k' k) eqn:E.
  - apply pystr_eqb_eq in E. subst. now rewrite P.
  - exact IH.
  - apply pystr_eqb_eq in E. subst. rewrite IH. pose proof (proj2 (get_none d k) Z1) as G. unfold get in G. now rewrite G, P.
  - exact IH.
Qed.

Lemma filter_nodup {A} (p : pystr * A -> bool) d : NoDup (map fst d) -> NoDup (map fst (filter p d)).
Proof.
  induction d as [|[k v] d IH]; [trivial|]. cbn. intro N. inversion N as [|? ? Z1 Z2]; subst.
  destruct (p (k, v)); [|now apply IH]. cbn. constructor; [|now apply IH].
  intro I. apply Z1. apply in_map_iff in I as (kv & E & I). apply filter_In in I as [I _]. apply in_map_iff. now exists kv.
Qed.

Lemma set_keys_in {A} (d : list (pystr * A)) k v : In k (map fst d) -> map fst (set d k v) = map fst d.
Proof.
  unfold set. induction d as [|[k' w] d IH]; [intros []|]. cbn. intro H. destruct (pystr_eqb k' k) eqn:E; [reflexivity|].
  cbn. f_equal. apply IH. destruct H as [->|H]; [rewrite pystr_eqb_refl in E; discriminate|exact H].
Qed.

Lemma del_get {A} (d : list (pystr * A)) k k' : NoDup (map fst d) -> get (del d k) k' = if pystr_eqb k k' then None else get d k'.
Proof. intro N. unfold get, del. apply dget_ddel; [apply pystr_eqb_eq|exact N]. Qed.
Lemma del_nodup {A} (d : list (pystr * A)) k : NoDup (map fst d) -> NoDup (map fst (del d k)).
Proof. intro N. apply (ddel_wf pystr_eqb). exact N. Qed.

(** ** Handing on *)
Section Handed.
  Variable c : class_.
  Hypothesis D1 : distinct (map arg_name (c_passed c)) = true.
  Hypothesis D2 : forallb (fun a => has (c_params c) (arg_name a)) (c_passed c) = true.
  Variable kw : list (pystr * val).
  Hypothesis N : NoDup (map fst kw).

  Let pre := map (fun a => (arg_name a, argument c kw a)) (c_passed c) ++ rest c kw.

  Lemma rest_param k : In k (map fst (rest c kw)) -> has (c_params c) k = false.
  Proof using Type.
    intro I. apply in_map_iff in I as (kv & <- & I). unfold rest in I. apply filter_In in I as [_ I]. now apply negb_true_iff in I.
  Qed.
  Lemma args_param k : In k (map arg_name (c_passed c)) -> has (c_params c) k = true.
  Proof using D2.
    intro I. apply in_map_iff in I as (a & <- & I). rewrite forallb_forall in D2. now apply D2.
  Qed.
  Lemma nodup_app {A} (l m : list A) : NoDup l -> NoDup m -> (forall x, In x l -> ~ In x m) -> NoDup (l ++ m).
  Proof using Type.
    induction 1 as [|x l H _ IH]; intros M D; [exact M|]. cbn. constructor.
    - rewrite in_app_iff. intros [I|I]; [tauto|exact (D x (or_introl eq_refl) I)].
    - apply IH; [exact M|]. intros y I. apply D. now right.
  Qed.
  Lemma pre_nodup : NoDup (map fst pre).
  Proof using D1 D2 N.
    unfold pre. rewrite map_app, map_map. cbn [fst]. apply nodup_app.
    - now apply distinct_iff.
    - apply filter_nodup. exact N.
    - intros k I J. apply args_param in I. apply rest_param in J. congruence.
  Qed.
  Lemma handed_nodup : NoDup (map fst (handed c kw)).
  Proof using D1 D2 N. apply filter_nodup. exact pre_nodup. Qed.

  Lemma find_arg_get k : get (map (fun a => (arg_name a, argument c kw a)) (c_passed c)) k =
    match find_arg c k with Some a => Some (argument c kw a) | None => None end.
  Proof using Type.
    unfold find_arg, get. clear pre D1 D2 N. induction (c_passed c) as [|a l IH]; [reflexivity|]. cbn.
    destruct (pystr_eqb (arg_name a) k); [reflexivity|exact IH].
  Qed.

  Lemma handed_get k : get (handed c kw) k = hand c kw k.
  Proof using D1 D2 N.
    unfold handed. rewrite get_filter by exact pre_nodup. rewrite get_app, find_arg_get. unfold hand. cbn [fst snd].
    destruct (find_arg c k) as [a|].
    - destruct (_ && _); reflexivity.
    - unfold rest. rewrite (get_filter_key (fun k => negb (has (c_params c) k))).
      destruct (has (c_params c) k); cbn [negb]; [reflexivity|]. destruct (get kw k) as [v|]; [|reflexivity].
      destruct (_ && _); reflexivity.
  Qed.

  Lemma handed_first keys dflt : first_of keys (handed c kw) dflt = hand_first c kw keys dflt.
  Proof using D1 D2 N. induction keys as [|k keys IH]; [reflexivity|]. cbn. rewrite handed_get. now destruct (hand c kw k). Qed.
End Handed.

Lemma find_arg_name c k a : find_arg c k = Some a -> arg_name a = k.
Proof. unfold find_arg. intro H. apply find_some in H as [_ H]. now apply pystr_eqb_eq. Qed.

Lemma param_given c kw k v : get kw k = Some v -> param c kw k = v.
Proof. unfold param. now intros ->. Qed.
Lemma param_absent c kw k : get kw k = None -> param c kw k = param c [] k.
Proof. unfold param. now intros ->. Qed.

Lemma none_to_some n v : is_none v = false -> none_to n v = v.
Proof. destruct n, v; try reflexivity. discriminate. Qed.

Lemma hand_reaches c kw k v : reaches c k = true -> get kw k = Some v -> is_none v = false -> hand c kw k = Some v.
Proof.
  unfold reaches, hand. intros R G V. destruct (find_arg c k) as [[p n|p o u]|] eqn:F.
  - apply pystr_eqb_eq in R. subst p. cbn [argument]. rewrite (param_given _ _ _ _ G), (none_to_some _ _ V), V, andb_false_r. reflexivity.
  - discriminate.
  - apply negb_true_iff in R. now rewrite R, G, V, andb_false_r.
Qed.

Lemma hand_absent c kw ns k : hand_fixed c ns k = true -> (forall x, In x ns -> get kw x = None) -> hand c kw k = hand c [] k.
Proof.
  unfold hand_fixed, hand. intros R G. destruct (find_arg c k) as [a|].
  - assert (E : argument c kw a = argument c [] a); [|now rewrite E].
    rewrite forallb_forall in R. destruct a as [p n|p o u]; cbn [argument arg_keys] in *.
    + rewrite param_absent; [reflexivity|]. apply G, mem_iff, R. now left.
    + rewrite (G o) by (apply mem_iff, R; right; now left). rewrite (param_absent c kw p) by (apply G, mem_iff, R; now left). reflexivity.
  - apply orb_true_iff in R as [R|R]; [now rewrite R|]. rewrite (G k) by now apply mem_iff. reflexivity.
Qed.

Lemma hand_first_absent c kw ns keys dflt : forallb (hand_fixed c ns) keys = true -> (forall x, In x ns -> get kw x = None) ->
  hand_first c kw keys dflt = hand_first c [] keys dflt.
Proof.
  intros R G. induction keys as [|k keys IH]; [reflexivity|]. cbn in *. apply andb_true_iff in R as [R1 R2].
  rewrite (hand_absent c kw ns k R1 G). destruct (hand c [] k); [reflexivity|now apply IH].
Qed.

(** ** The assignments *)
Lemma steps_get c kw ss r a :
  get (fold_left (perform c kw) ss r) a =
  match last_store a ss with Some (s, n) => Some (none_to n (from c kw s)) | None => get r a end.
Proof.
  revert r. induction ss as [|[b s n] ss IH]; intro r; [reflexivity|]. cbn [fold_left last_store]. rewrite IH.
  destruct (last_store a ss) as [[s' n']|]; [reflexivity|]. cbn [perform]. rewrite get_set.
  destruct (pystr_eqb b a) eqn:E.
  - apply pystr_eqb_eq in E. subst. now rewrite pystr_eqb_refl.
  - rewrite pystr_neqb; [reflexivity|]. intros ->. rewrite pystr_eqb_refl in E. discriminate.
Qed.

Lemma steps_keys c kw ss r :
  (forall a s n, In (Store a s n) ss -> In a (map fst r)) -> map fst (fold_left (perform c kw) ss r) = map fst r.
Proof.
  revert r. induction ss as [|[b s n] ss IH]; intros r H; [reflexivity|]. cbn [fold_left].
  assert (E : map fst (perform c kw r (Store b s n)) = map fst r) by (apply set_keys_in; eapply H; now left).
  rewrite IH; [exact E|]. intros a s' n' I. rewrite E. eapply H. right. exact I.
Qed.

(** ** Coming back *)
Section Class.
  Variables (lax : oracle) (c : class_) (xd : bool) (r ex : list (pystr * val)).
  Hypothesis R : class_ready c = true.
  Hypothesis U : uncleared c r ex.

  Let fs := c_fields c.
  Let kw := to_dict true xd c (VRec (c_name c) r ex).
  Let base := update base_dict (handed c kw).

  Lemma ready_all :
    sane (format c) /\ distinct (map arg_name (c_passed c)) = true /\
    forallb (fun a => has (c_params c) (arg_name a)) (c_passed c) = true /\
    (forall a s n, In (Store a s n) (c_steps c) -> exists ft, In ft fs /\ attr (fst ft) = a) /\
    (forall k, In k (map fst base_dict) -> In k (all_names fs)) /\
    control_ok c = true /\
    (forall f t, In (f, t) fs -> field_ready c f t = true).
  Proof.
    unfold class_ready in R. rewrite !andb_true_iff in R. destruct R as [[[[[[A B] C] D] E] F] G].
    split; [now apply saneb_sane|]. split; [exact B|]. split; [exact C|]. split; [|split; [|split; [exact F|]]].
    - intros a s n I. rewrite forallb_forall in D. specialize (D _ I). cbn in D. apply existsb_exists in D as (ft & J & K).
      exists ft. split; [exact J|now apply pystr_eqb_eq].
    - intros k I. rewrite forallb_forall in E. apply mem_iff. now apply E.
    - intros f t I. rewrite forallb_forall in G. exact (G (f, t) I).
  Qed.

  Lemma sane_c : sane (format c). Proof. apply ready_all. Qed.
  Lemma names_nodup : NoDup (all_names fs).
  Proof. pose proof sane_c as W. now inversion W. Qed.
  Lemma sane_field f t : In (f, t) fs -> sane t.
  Proof. intro I. pose proof sane_c as W. inversion W as [| | |? ? _ W1 _]; subst. rewrite Forall_forall in W1. exact (W1 (f, t) I). Qed.
  Lemma sane_default f t d : In (f, t) fs -> default f = Some d -> fits t d.
  Proof. intro I. pose proof sane_c as W. inversion W as [| | |? ? _ _ W1]; subst. now apply W1. Qed.

  Lemma fits_c : fits (format c) (VRec (c_name c) r ex). Proof. apply U. Qed.
  Lemma rows_keys : map fst r = map (fun ft => attr (fst ft)) fs.
  Proof. pose proof fits_c as F. inversion F as [| | | |? ? ? ? F1 _ _ _]; subst. exact (keys_of_rows F1). Qed.
  Lemma fits_field f t v : In (f, t) fs -> get r (attr f) = Some v -> fits t v.
  Proof.
    intros I G. pose proof fits_c as F. inversion F as [| | | |? ? ? ? F1 _ _ _]; subst.
    destruct (forall2_in_left _ _ _ F1 (f, t) I) as ([k v'] & J & E & Fv). cbn in E, Fv. subst k.
    assert (N : NoDup (map fst r)) by (rewrite rows_keys; apply attrs_nodup, names_nodup).
    rewrite (in_get r _ _ N J) in G. injection G as <-. exact Fv.
  Qed.
  Lemma ex_names k : In k (map fst ex) -> ~ In k (all_names fs).
  Proof. pose proof fits_c as F. inversion F as [| | | |? ? ? ? _ _ D _]; subst. apply D. Qed.
  Lemma ex_nodup : NoDup (map fst ex).
  Proof. pose proof fits_c as F. now inversion F. Qed.
  Lemma ex_name_none f t k : In (f, t) fs -> In k (names f) -> get ex k = None.
  Proof. intros I J. apply get_none. intro K. apply (ex_names k K). exact (names_all fs (f, t) k I J). Qed.
  Lemma extras_id : extras true ex = ex.
  Proof.
    apply extras_all. intros _. destruct U as (_ & _ & X). apply Forall_forall. intros [k v] I.
    cbn. apply (X k v). apply in_get; [exact ex_nodup|exact I].
  Qed.

  Let d0 := flat_map (part true xd r) fs ++ ex.
  Lemma d0_nodup : NoDup (map fst d0).
  Proof.
    unfold d0. rewrite map_app. apply nodup_app.
    - apply parts_nodup. exact names_nodup.
    - exact ex_nodup.
    - intros k I J. apply (ex_names k J). eapply parts_names; exact I.
  Qed.
  Lemma dumped : dump true xd (format c) (VRec (c_name c) r ex) = VMap d0.
  Proof. unfold format. rewrite dump_flat; [|exact sane_c|exact fits_c]. now rewrite extras_id. Qed.

  Let cb := str "control_behavior".
  Lemma kw_cases : kw = d0 \/ (c_control c = true /\ get d0 cb = Some (VMap []) /\ kw = del d0 cb).
  Proof.
    unfold kw, to_dict. rewrite dumped. destruct (c_control c); [|now left]. fold cb.
    destruct (get d0 cb) as [[| | | | | |[|]|]|] eqn:G; try (now left). now right.
  Qed.
  Lemma kw_nodup : NoDup (map fst kw).
  Proof. destruct kw_cases as [Ek|(_ & _ & Ek)]; rewrite Ek; [exact d0_nodup|apply del_nodup, d0_nodup]. Qed.

  Lemma d0_key f t v : In (f, t) fs -> get r (attr f) = Some v ->
    get d0 (key f) = if trimmed true xd f v then None else Some (dump true xd t v).
  Proof.
    intros I G. unfold d0. rewrite get_app. pose proof (parts_get fs r names_nodup true xd (f, t) I) as X. cbn [fst snd] in X. rewrite X, G.
    destruct (trimmed true xd f v); [|reflexivity]. apply (ex_name_none f t _ I), key_in.
  Qed.
  Lemma d0_attr f t : In (f, t) fs -> attr f <> key f -> get d0 (attr f) = None.
  Proof.
    intros I D. unfold d0. rewrite get_app. pose proof (parts_attr fs r names_nodup true xd (f, t) I D) as X. cbn [fst] in X. rewrite X.
    apply (ex_name_none f t _ I), attr_in.
  Qed.
  Lemma kw_attr f t : In (f, t) fs -> attr f <> key f -> get kw (attr f) = None.
  Proof.
    intros I D. destruct kw_cases as [Ek|(_ & _ & Ek)]; rewrite Ek; [now apply (d0_attr f t)|].
    rewrite del_get by exact d0_nodup. destruct (pystr_eqb cb (attr f)); [reflexivity|now apply (d0_attr f t)].
  Qed.

  Lemma kw_field f t v : In (f, t) fs -> get r (attr f) = Some v ->
    (get kw (key f) = Some (dump true xd t v) /\ is_none (dump true xd t v) = false /\ hidden f = false) \/
    (get kw (key f) = None /\ (hidden f = true \/ exists d, default f = Some d /\ py_eq v d = true)).
  Proof.
    intros I G. pose proof (d0_key f t v I G) as E.
    assert (V : trimmed true xd f v = false -> is_none (dump true xd t v) = false /\ hidden f = false).
    { unfold trimmed. cbn. intro T. apply orb_false_iff in T as [T _]. apply orb_false_iff in T as [T1 T2].
      split; [now apply dump_not_none|exact T1]. }
    assert (A : trimmed true xd f v = true -> hidden f = true \/ exists d, default f = Some d /\ py_eq v d = true).
    { unfold trimmed. intro T. destruct (hidden f) eqn:H; [now left|right]. destruct U as (_ & U2 & _).
      destruct (U2 f t v I H G) as [U3 _]. cbn in T. apply orb_true_iff in T as [T|T].
      - destruct v; try discriminate. exists VNone. split; [now apply U3|reflexivity].
      - apply andb_true_iff in T as [_ T]. unfold is_default in T. destruct (default f) as [d|]; [|discriminate]. now exists d. }
    destruct kw_cases as [Ek|(CC & G0 & Ek)]; rewrite Ek.
    - rewrite E. destruct (trimmed true xd f v); [right; split; [reflexivity|now apply A]|left; split; [reflexivity|now apply V]].
    - rewrite del_get by exact d0_nodup. destruct (pystr_eqb cb (key f)) eqn:K.
      + right. split; [reflexivity|]. apply pystr_eqb_eq in K. destruct (trimmed true xd f v) eqn:T; [now apply A|].
        rewrite K, E in G0. injection G0 as G0. specialize (V eq_refl) as [_ H]. right.
        destruct ready_all as (_ & _ & _ & _ & _ & C & _). unfold control_ok in C. rewrite CC in C. cbn [negb orb] in C.
        apply andb_true_iff in C as [_ C]. rewrite forallb_forall in C. specialize (C (f, t) I). cbn [fst snd] in C.
        assert (K' : pystr_eqb (key f) (str "control_behavior") = true) by (apply pystr_eqb_eq; now symmetry).
        rewrite K' in C. cbn [negb orb] in C. destruct (default f) as [d|]; [|discriminate]. exists d. split; [reflexivity|].
        destruct U as (_ & U2 & _). destruct (U2 f t v I H G) as [_ U3].
        destruct (roundtrip nolax false true xd t v (sane_field f t I) (fits_field f t v I G) U3) as (y & L & _ & Q).
        rewrite G0 in L. rewrite L in C. exact (py_eq_trans _ _ _ Q C).
      + rewrite E. destruct (trimmed true xd f v); [right; split; [reflexivity|now apply A]|left; split; [reflexivity|now apply V]].
  Qed.

  Lemma kw_extra k v : get ex k = Some v -> get kw k = Some v.
  Proof.
    intro G. assert (J : ~ In k (all_names fs)) by (apply ex_names; apply in_map_iff; exists (k, v); split; [reflexivity|now apply get_in]).
    assert (E : get d0 k = Some v).
    { unfold d0. rewrite get_app. assert (X : get (flat_map (part true xd r) fs) k = None); [|now rewrite X].
      apply get_none. intro K. apply J. exact (parts_names fs r true xd k K). }
    destruct kw_cases as [Ek|(CC & G0 & Ek)]; rewrite Ek; [exact E|]. rewrite del_get by exact d0_nodup.
    destruct (pystr_eqb cb k) eqn:K; [|exact E]. apply pystr_eqb_eq in K. exfalso. apply J. rewrite <- K.
    destruct ready_all as (_ & _ & _ & _ & _ & C & _). unfold control_ok in C. rewrite CC in C. cbn [negb orb] in C.
    apply andb_true_iff in C as [C _]. now apply mem_iff.
  Qed.

  (** What the constructor starts from. *)
  Lemma base_get k : get base k = match hand c kw k with Some v => Some v | None => get base_dict k end.
  Proof.
    destruct ready_all as (_ & D1 & D2 & _). unfold base. rewrite get_update by (apply handed_nodup; [exact D1|exact D2|exact kw_nodup]).
    now rewrite handed_get by (exact D1 || exact D2 || exact kw_nodup).
  Qed.
  Lemma from_kw s : from c kw s = match s with Kwarg keys dflt => hand_first c kw keys dflt | Param p => param c kw p end.
  Proof.
    destruct ready_all as (_ & D1 & D2 & _). destruct s; cbn [from]; [|reflexivity].
    apply handed_first; [exact D1|exact D2|exact kw_nodup].
  Qed.

  Lemma filled_ok f t v : In (f, t) fs -> get r (attr f) = Some v -> exists u, filled lax true base (f, t) = Some (attr f, u).
  Proof.
    intros I G. unfold filled, pick. cbn [fst snd].
    destruct (lookup f base) as [[k x]|] eqn:L.
    - destruct (load lax true t x); cbn; eexists; reflexivity.
    - destruct (default f) as [d|] eqn:D; [now exists d|]. exfalso.
      destruct ready_all as (_ & _ & _ & _ & _ & _ & F). specialize (F f t I). unfold field_ready in F. rewrite D in F.
      rewrite !andb_true_iff in F. destruct F as [[_ F] _].
      assert (X : get base (key f) = None) by (unfold lookup in L; destruct (get base (key f)); [discriminate|reflexivity]).
      rewrite base_get in X. destruct (hidden f) eqn:H.
      + destruct (hand c kw (key f)); [discriminate|]. unfold has in F. rewrite X in F. discriminate.
      + destruct (kw_field f t v I G) as [(K & N & _)|(_ & [K|(d & K & _)])]; [|congruence|congruence].
        rewrite (hand_reaches c kw (key f) _ F K N) in X. discriminate.
  Qed.

  (** The value of an attribute in the constructed entity. *)
  Definition built (f : field) (t : typ) (w : val) : Prop :=
    match last_store (attr f) (c_steps c) with
    | Some (s, n) => none_to n (from c kw s) = w
    | None => filled lax true base (f, t) = Some (attr f, w)
    end.

  Lemma again_spec f t w fin : again f t w = Some fin ->
    exists y, load lax false t w = Some y /\ fin = if raw_kept f then w else y.
  Proof.
    unfold again. destruct (load nolax false t w) as [y|] eqn:L; [|discriminate]. destruct (fitsb t y); [|discriminate].
    intros [= <-]. exists y. split; [now apply load_strict|reflexivity].
  Qed.

  Lemma kw_names f t k : In (f, t) fs -> get kw (key f) = None -> In k (names f) -> get kw k = None.
  Proof.
    intros I G J. apply names_iff in J as [->| ->]; [exact G|].
    destruct (pystr_eq_dec (attr f) (key f)) as [E|E]; [now rewrite E|now apply (kw_attr f t)].
  Qed.

  Lemma absent_field f t : In (f, t) fs -> get kw (key f) = None -> fixed c f = true ->
    forall fin, settled c f t = Some fin -> exists w y, built f t w /\ load lax false t w = Some y /\ fin = if raw_kept f then w else y.
  Proof.
    intros I G F fin S. pose proof (fun k => kw_names f t k I G) as A.
    unfold fixed in F. unfold settled, fresh, stored in S. unfold built.
    destruct (last_store (attr f) (c_steps c)) as [[[keys dflt|p] n]|].
    - rewrite from_kw, (hand_first_absent c kw (names f) keys dflt F A). destruct (again_spec _ _ _ _ S) as (y & L & E).
      exists (none_to n (hand_first c [] keys dflt)), y. now split.
    - rewrite from_kw, (param_absent c kw p) by (apply A; now apply mem_iff). destruct (again_spec _ _ _ _ S) as (y & L & E).
      exists (none_to n (param c [] p)), y. now split.
    - apply andb_true_iff in F as [F1 F2].
      assert (X : match lookup f base with Some (_, x) => Some x | None => None end =
                  match hand c [] (key f) with
                  | Some v => Some v
                  | None => match get base_dict (key f) with
                            | Some v => Some v
                            | None => match hand c [] (attr f) with
                                      | Some v => Some v
                                      | None => match get base_dict (attr f) with Some v => Some v | None => None end
                                      end
                            end
                  end).
      { unfold lookup. rewrite !base_get, (hand_absent c kw (names f) (key f) F1 A), (hand_absent c kw (names f) (attr f) F2 A).
        destruct (hand c [] (key f)); [reflexivity|]. destruct (get base_dict (key f)); [reflexivity|].
        destruct (hand c [] (attr f)); [reflexivity|]. now destruct (get base_dict (attr f)). }
      rewrite <- X in S. clear X. unfold filled, pick. cbn [fst snd]. destruct (lookup f base) as [[k x]|].
      + destruct (load nolax false t x) as [w|] eqn:L; [|discriminate]. rewrite (load_strict lax true t x w L). cbn [fallback].
        destruct (again_spec _ _ _ _ S) as (y & L' & E). now exists w, y.
      + destruct (default f) as [d|]; [|discriminate]. destruct (again_spec _ _ _ _ S) as (y & L' & E). now exists d, y.
  Qed.

  Lemma simple_dump t v : simple t = true -> dump true xd t v = v.
  Proof. destruct t as [| [] | |]; cbn; try discriminate; reflexivity. Qed.

  Lemma raw_field f t v : In (f, t) fs -> get r (attr f) = Some v ->
    exists w y, built f t w /\ load lax false t w = Some y /\
      (field_good c f t = true -> py_eq v (if raw_kept f then w else y) = true).
  Proof.
    intros I G. destruct ready_all as (_ & _ & _ & _ & _ & _ & F). specialize (F f t I). pose proof F as F0.
    unfold field_ready in F. rewrite !andb_true_iff in F. destruct F as [[_ _] F].
    destruct (kw_field f t v I G) as [(K & NN & H)|(K & A)].
    - rewrite H in F. rewrite !andb_true_iff in F. destruct F as [[F1 F2] _].
      destruct U as (_ & U2 & _). destruct (U2 f t v I H G) as [_ U3].
      pose proof (sane_field f t I) as W. pose proof (fits_field f t v I G) as Fv.
      assert (V0 : wf v) by (eapply fits_wf; eassumption).
      destruct (roundtrip lax false true xd t v W Fv U3) as (y & L & Fy & Q).
      apply orb_true_iff in F1 as [F1|F1].
      + assert (ST : none_to None (dump true xd t v) = dump true xd t v) by reflexivity.
        assert (X : built f t (dump true xd t v) -> exists w y, built f t w /\ load lax false t w = Some y /\
             (field_good c f t = true -> py_eq v (if raw_kept f then w else y) = true)).
        { intro B. exists (dump true xd t v), y. split; [exact B|]. split; [exact L|]. intros _. destruct (raw_kept f) eqn:RK; [|exact Q].
          cbn [negb orb] in F2. apply andb_true_iff in F2 as [_ F2]. rewrite simple_dump by exact F2. now apply py_eq_refl. }
        unfold feeds in F1. unfold stored in F2. unfold built in X at 1. unfold built at 1.
        destruct (last_store (attr f) (c_steps c)) as [[[[|k keys] dflt|p] n]|] eqn:LS.
        * discriminate.
        * apply andb_true_iff in F1 as [F1 F3]. apply pystr_eqb_eq in F1. subst k. unfold built in X. rewrite LS in X. apply X. rewrite from_kw. cbn [hand_first].
          rewrite (hand_reaches c kw (key f) _ F3 K NN). now apply none_to_some.
        * apply pystr_eqb_eq in F1. subst p. unfold built in X. rewrite LS in X. apply X. rewrite from_kw. rewrite (param_given _ _ _ _ K). now apply none_to_some.
        * destruct (roundtrip lax true true xd t v W Fv U3) as (y' & L' & Fy' & Q').
          exists y', y'. split; [|split; [now apply load_same|]].
          -- unfold filled, pick, lookup. cbn [fst snd]. rewrite base_get, (hand_reaches c kw (key f) _ F1 K NN), L'. reflexivity.
          -- intros _. now destruct (raw_kept f).
      + apply andb_true_iff in F1 as [F1 F3]. unfold deaf in F1. destruct (settled c f t) as [fin|] eqn:S; [|discriminate].
        unfold settled, fresh, stored in S. unfold field_good, deaf, built. rewrite F0, H.
        destruct (last_store (attr f) (c_steps c)) as [[[keys dflt|p] n]|]; try discriminate.
        rewrite F1. cbn [negb andb]. rewrite from_kw. apply andb_true_iff in F1 as [F1 F4]. apply pystr_eqb_eq in F4. subst p. apply negb_true_iff in F1.
        rewrite (param_absent c kw (attr f)) by (apply (kw_attr f t I); now apply pystr_neq).
        destruct (again_spec _ _ _ _ S) as (y' & L' & _). exists (none_to n (param c [] (attr f))), y'. now split.
    - assert (Y : fixed c f = true /\ exists fin, settled c f t = Some fin).
      { destruct (hidden f) eqn:H.
        - apply andb_true_iff in F as [F1 F2]. split; [exact F1|]. destruct (settled c f t); [eauto|discriminate].
        - destruct A as [A|(d & A & _)]; [discriminate|]. rewrite A in F. rewrite !andb_true_iff in F. destruct F as [_ [F1 F2]].
          split; [exact F1|]. destruct (settled c f t); [eauto|discriminate]. }
      destruct Y as [Y1 (fin & Y2)]. destruct (absent_field f t I K Y1 fin Y2) as (w & y & B & L & E). exists w, y.
      split; [exact B|]. split; [exact L|]. intro FG. rewrite <- E. unfold field_good in FG. rewrite !andb_true_iff in FG.
      destruct FG as [[[_ FG1] _] FG2]. apply negb_true_iff in FG1. destruct A as [A|(d & A & Q)]; [congruence|].
      rewrite A in FG2. unfold field_back in FG2. rewrite A, Y2 in FG2. exact (py_eq_trans _ _ _ Q FG2).
  Qed.

  Lemma constructed : exists rc exc, construct lax c kw = Some (VRec (c_name c) rc exc) /\
    map fst rc = map (fun ft => attr (fst ft)) fs /\
    (forall f t v, In (f, t) fs -> get r (attr f) = Some v -> forall w, built f t w -> get rc (attr f) = Some w) /\
    exc = filter (fun kv => negb (mem (fst kv) (used fs base))) base.
  Proof.
    unfold construct, format. fold base. rewrite load_model. unfold from_dict. fold fs.
    destruct (all_some_map (filled lax true base) (fun ft kv => filled lax true base ft = Some kv) fs) as (m & E & F2).
    { intros [f t] I. destruct (row fs r rows_keys (f, t) I) as (v & G). destruct (filled_ok f t v I G) as (u & H).
      exists (attr f, u). now split. }
    rewrite E. pose proof (filled_keys lax true base fs m E) as KM.
    eexists _, _. split; [reflexivity|].
    assert (KS : forall a s n, In (Store a s n) (c_steps c) -> In a (map fst m)).
    { intros a s n I. destruct ready_all as (_ & _ & _ & S & _). destruct (S a s n I) as (ft & J & <-).
      rewrite KM. apply in_map_iff. now exists ft. }
    split; [rewrite steps_keys by exact KS; exact KM|]. split; [|reflexivity].
    intros f t v I G w B. rewrite steps_get. unfold built in B. destruct (last_store (attr f) (c_steps c)) as [[s n]|].
    - now rewrite B.
    - destruct (all_some_in _ _ _ E (f, t) I) as (kv & F & J). rewrite B in F. injection F as <-.
      apply in_get; [|exact J]. rewrite KM. apply attrs_nodup, names_nodup.
  Qed.

  (** What validation starts from. *)
  Lemma base_nodup : NoDup (map fst base).
  Proof.
    unfold base, update. assert (B : NoDup (map fst base_dict)) by (apply distinct_iff; reflexivity).
    revert B. generalize base_dict. induction (handed c kw) as [|[k v] l IH]; intros d B; [exact B|]. cbn [fold_left fst snd]. apply IH.
    unfold set. apply (dset_wf pystr_eqb pystr_eqb_eq). exact B.
  Qed.
  Lemma used_iff f t k x : In (f, t) fs -> lookup f base = Some (k, x) -> mem k (used fs base) = true.
  Proof.
    intros I L. apply mem_iff. unfold used. apply in_flat_map. exists (f, t). split; [exact I|]. cbn [fst]. rewrite L. now left.
  Qed.

  Let exc := filter (fun kv => negb (mem (fst kv) (used fs base))) base.
  Lemma exc_get k : get exc k = if negb (mem k (used fs base)) then get base k else None.
  Proof. unfold exc. exact (get_filter_key (fun k => negb (mem k (used fs base))) base k). Qed.
  Lemma exc_key f t : In (f, t) fs -> get exc (key f) = None.
  Proof.
    intro I. rewrite exc_get. destruct (get base (key f)) as [x|] eqn:G; [|now destruct (mem (key f) (used fs base))].
    rewrite (used_iff f t (key f) x I); [reflexivity|]. unfold lookup. now rewrite G.
  Qed.

  Lemma exc_attr f t v w : In (f, t) fs -> get r (attr f) = Some v -> built f t w ->
    get exc (attr f) = None \/ get exc (attr f) = Some w.
  Proof.
    intros I G B. destruct (pystr_eq_dec (attr f) (key f)) as [E|E]; [left; rewrite E; now apply (exc_key f t)|].
    destruct ready_all as (_ & _ & _ & _ & _ & _ & F). specialize (F f t I). unfold field_ready in F. rewrite !andb_true_iff in F.
    destruct F as [[F _] _]. unfold alias_free in F. rewrite (pystr_neqb _ _ E) in F. cbn [orb] in F. rewrite !andb_true_iff in F.
    destruct F as [[F1 F2] F3]. apply negb_true_iff in F1, F2.
    assert (B1 : get base_dict (attr f) = None) by (unfold has in F1; destruct (get base_dict (attr f)); [discriminate|reflexivity]).
    assert (B2 : get base_dict (key f) = None) by (unfold has in F2; destruct (get base_dict (key f)); [discriminate|reflexivity]).
    pose proof (kw_attr f t I E) as KA.
    destruct (find_arg c (attr f)) as [[p n|p o u]|] eqn:FA.
    - discriminate.
    - rewrite !andb_true_iff in F3. destruct F3 as [[[[[F3 F4] F5] F6] F7] F8].
      apply pystr_eqb_eq in F3, F5. subst o p.
      assert (HK : hand c kw (key f) = match get kw (key f) with
                     | Some v => if pystr_eqb (key f) (str "position") && is_none v then None else Some v | None => None end).
      { unfold hand. destruct (find_arg c (key f)); [discriminate|]. apply negb_true_iff in F8. now rewrite F8. }
      destruct (kw_field f t v I G) as [(K & NN & _)|(K & _)].
      + rewrite exc_get. destruct (mem (attr f) (used fs base)); cbn [negb]; [now left|right]. rewrite base_get.
        assert (HA : hand c kw (attr f) = Some (dump true xd t v)).
        { unfold hand. rewrite FA. cbn [argument]. rewrite K, (param_absent _ _ _ KA), F4, NN, andb_false_r. reflexivity. }
        rewrite K, NN, andb_false_r in HK. rewrite HA. unfold built in B.
        destruct (last_store (attr f) (c_steps c)) as [[[[|k keys] dflt|p] [n|]]|]; try discriminate.
        apply pystr_eqb_eq in F7. subst k. rewrite from_kw in B. cbn [hand_first none_to] in B. rewrite HK in B. now rewrite B.
      + left. rewrite exc_get. rewrite K in HK. destruct (get base (attr f)) as [x|] eqn:GA; [|now destruct (mem (attr f) (used fs base))].
        rewrite (used_iff f t (attr f) x I); [reflexivity|]. unfold lookup. rewrite base_get, HK, B2, GA. reflexivity.
    - left. rewrite exc_get, base_get. unfold hand. rewrite FA, KA, B1. destruct (has (c_params c) (attr f)), (mem (attr f) (used fs base)); reflexivity.
  Qed.

  Lemma validated : exists r' ex', reimport lax c kw = Some (VRec (c_name c) r' ex') /\
    (forall f t v, In (f, t) fs -> field_good c f t = true -> get r (attr f) = Some v ->
       exists v', get r' (attr f) = Some v' /\ py_eq v v' = true) /\
    (forall k v, get ex k = Some v -> get ex' k = Some v) /\
    (forall k v, get ex' k = Some v -> In k (map arg_name (c_passed c)) /\ ~ In k (all_names fs) \/ get ex k = Some v).
  Proof.
    destruct constructed as (rc & exc' & C & KR & BR & ->). fold exc in C. unfold reimport. rewrite C. unfold validate, format.
    rewrite load_model, pystr_eqb_refl. unfold from_dict. fold fs. set (d2 := update rc exc).
    assert (EN : NoDup (map fst exc)) by (apply filter_nodup, base_nodup).
    assert (GD : forall k, get d2 k = match get exc k with Some v => Some v | None => get rc k end) by (intro k; now apply get_update).
    assert (LK : forall f t v w, In (f, t) fs -> get r (attr f) = Some v -> built f t w -> exists k, lookup f d2 = Some (k, w)).
    { intros f t v w I G B. pose proof (BR f t v I G w B) as RC. unfold lookup. rewrite !GD, (exc_key f t I).
      destruct (pystr_eq_dec (attr f) (key f)) as [E|E].
      - rewrite <- E, RC. now exists (attr f).
      - assert (X : get rc (key f) = None).
        { apply get_none. rewrite KR. intro J. apply in_map_iff in J as (gt & E2 & J).
          assert (gt = (f, t)) by (apply (names_unique fs names_nodup gt (f, t) (key f) J I); [rewrite <- E2; apply attr_in|apply key_in]).
          subst gt. cbn in E2. congruence. }
        rewrite X. destruct (exc_attr f t v w I G B) as [Y|Y]; rewrite Y; [rewrite RC|]; now exists (attr f). }
    destruct (all_some_map (filled lax false d2) (fun ft kv => filled lax false d2 ft = Some kv) fs) as (m & E & F2).
    { intros [f t] I. destruct (row fs r rows_keys (f, t) I) as (v & G). destruct (raw_field f t v I G) as (w & y & B & L & _).
      destruct (LK f t v w I G B) as (k & K). exists (attr f, y). unfold filled, pick. cbn [fst snd]. rewrite K, L. now split. }
    rewrite E. pose proof (filled_keys lax false d2 fs m E) as KM.
    eexists _, _. split; [reflexivity|]. split; [|split].
    - intros f t v I FG G. destruct (raw_field f t v I G) as (w & y & B & L & Q). specialize (Q FG).
      destruct (LK f t v w I G B) as (k & K).
      assert (GM : get m (attr f) = Some y).
      { destruct (all_some_in _ _ _ E (f, t) I) as (kv & F & J). unfold filled, pick in F. cbn [fst snd] in F. rewrite K, L in F.
        injection F as <-. apply in_get; [|exact J]. rewrite KM. apply attrs_nodup, names_nodup. }
      pose proof (BR f t v I G w B) as RC.
      assert (KP : forall a n, get (keep_raw a rc n) (attr f) = if pystr_eqb a (attr f) then Some w else get n (attr f)).
      { intros a n. unfold keep_raw. destruct (pystr_eqb a (attr f)) eqn:Ea.
        - apply pystr_eqb_eq in Ea. subst a. rewrite RC, get_set, pystr_eqb_refl. reflexivity.
        - destruct (get rc a); [|reflexivity]. now rewrite get_set, Ea. }
      rewrite !KP, GM. unfold raw_kept in Q.
      assert (SY : forall a b, pystr_eqb a b = pystr_eqb b a).
      { intros a b. destruct (pystr_eqb b a) eqn:Eb; [apply pystr_eqb_eq in Eb; subst; apply pystr_eqb_refl|].
        apply pystr_neqb. apply pystr_neq in Eb. congruence. }
      rewrite (SY (attr f) (str "direction")), (SY (attr f) (str "orientation")) in Q.
      destruct (pystr_eqb (str "orientation") (attr f)); [rewrite orb_true_r in Q; now exists w|]. rewrite orb_false_r in Q.
      destruct (pystr_eqb (str "direction") (attr f)); [now exists w|now exists y].
    - intros k v G.
      assert (J : ~ In k (all_names fs)) by (apply ex_names; apply in_map_iff; exists (k, v); split; [reflexivity|now apply get_in]).
      destruct U as (_ & _ & X). destruct (X k v G) as [X1 X2].
      assert (HP : has (c_params c) k = false) by (unfold has; now rewrite (proj2 (get_none _ _) X2)).
      assert (NU : forall d, negb (mem k (used fs d)) = true).
      { intro d. apply negb_true_iff, mem_out. intro Z. apply J. exact (used_names fs d k Z). }
      assert (HB : get base k = Some v).
      { rewrite base_get. unfold hand. destruct (find_arg c k) as [a|] eqn:FA.
        - exfalso. destruct ready_all as (_ & _ & D2 & _). rewrite forallb_forall in D2.
          pose proof (find_arg_name _ _ _ FA) as NA. unfold find_arg in FA. apply find_some in FA as [FA _]. specialize (D2 _ FA).
          rewrite NA in D2. congruence.
        - rewrite HP, (kw_extra k v G). assert (NV : is_none v = false) by (destruct v; [tauto|reflexivity..]).
          now rewrite NV, andb_false_r. }
      rewrite (get_filter_key (fun k => negb (mem k (used fs d2)))), NU, GD, exc_get, NU, HB. reflexivity.
    - intros k v G. rewrite (get_filter_key (fun k => negb (mem k (used fs d2)))) in G.
      destruct (mem k (used fs d2)) eqn:M; [discriminate|]. cbn [negb] in G. apply mem_out in M.
      assert (J : ~ In k (all_names fs)).
      { intro J. apply in_flat_map in J as ([f t] & I & J). cbn [fst] in J. apply M. unfold used. apply in_flat_map. exists (f, t).
        split; [exact I|]. cbn [fst]. unfold lookup. apply names_iff in J as [->| ->]; [rewrite G; now left|].
        destruct (get d2 (key f)) as [u|] eqn:G2; [|rewrite G; now left]. left.
        destruct (pystr_eq_dec (attr f) (key f)) as [E2|E2]; [now symmetry|]. exfalso.
        rewrite GD, (exc_key f t I) in G2. assert (X : In (key f) (map fst rc)) by (apply in_map_iff; exists (key f, u); split; [reflexivity|now apply get_in]).
        rewrite KR in X. apply in_map_iff in X as (gt & E3 & X).
        assert (gt = (f, t)) by (apply (names_unique fs names_nodup gt (f, t) (key f) X I); [rewrite <- E3; apply attr_in|apply key_in]).
        subst gt. cbn in E3. congruence. }
      assert (RC : get rc k = None).
      { apply get_none. rewrite KR. intro X. apply in_map_iff in X as (gt & E3 & X). apply J. rewrite <- E3. apply (names_all fs gt); [exact X|apply attr_in]. }
      rewrite GD, RC, exc_get in G. destruct (mem k (used fs base)); [discriminate|]. cbn [negb] in G. rewrite base_get in G.
      assert (BD : get base_dict k = None).
      { apply get_none. intro X. apply J. destruct ready_all as (_ & _ & _ & _ & Y & _). now apply Y. }
      rewrite BD in G. unfold hand in G. destruct (find_arg c k) as [a|] eqn:FA.
      + left. split; [|exact J]. rewrite <- (find_arg_name _ _ _ FA). unfold find_arg in FA. apply find_some in FA as [FA _]. now apply in_map.
      + right. destruct (has (c_params c) k); [discriminate|]. destruct (get kw k) as [u|] eqn:GK; [|discriminate].
        assert (E0 : get d0 k = Some u).
        { destruct kw_cases as [Ek|(_ & _ & Ek)]; rewrite Ek in GK; [exact GK|]. rewrite del_get in GK by exact d0_nodup.
          destruct (pystr_eqb cb k); [discriminate|exact GK]. }
        unfold d0 in E0. rewrite get_app in E0.
        assert (X : get (flat_map (part true xd r) fs) k = None) by (apply get_none; intro K; apply J; exact (parts_names fs r true xd k K)).
        rewrite X in E0. destruct (pystr_eqb k (str "position") && is_none u); [discriminate|]. injection G as <-.
        destruct (get ex k); [exact E0|discriminate].
  Qed.
End Class.

(** ** The table of classes *)
Definition good_class (c : class_) : bool :=
  mem (c_name c) (str "Loader" :: invalid_by_default) ||
  class_ready c &&
  forallb (fun ft => hidden (fst ft) || mem (attr (fst ft)) (lost_fields (c_name c)) || field_good c (fst ft) (snd ft)) (c_fields c) &&
  forallb (fun a => mem (arg_name a) (all_names (c_fields c)) || mem (arg_name a) (leaked_arguments (c_name c))) (c_passed c).
Lemma table : forallb good_class entity_classes = true.
Proof. vm_compute. reflexivity. Qed.

Lemma entities_back lax xd c r ex :
  In c entity_classes -> c_name c <> str "Loader" -> ~ In (c_name c) invalid_by_default -> uncleared c r ex ->
  exists r' ex', reimport lax c (to_dict true xd c (VRec (c_name c) r ex)) = Some (VRec (c_name c) r' ex') /\
    comes_back c (lost_fields (c_name c)) (leaked_arguments (c_name c)) r ex r' ex'.
Proof.
  intros I L V U. pose proof table as T. rewrite forallb_forall in T. specialize (T c I). unfold good_class in T.
  apply orb_true_iff in T as [T|T]; [apply mem_iff in T as [T|T]; [congruence|contradiction]|].
  rewrite !andb_true_iff in T. destruct T as [[R F] A]. rewrite forallb_forall in F, A.
  destruct (validated lax c xd r ex R U) as (r' & ex' & E & B1 & B2 & B3). exists r', ex'. split; [exact E|]. split; [|split].
  - intros f t v J H NL G. apply (B1 f t v J); [|exact G]. specialize (F (f, t) J). cbn [fst snd] in F. rewrite H in F.
    apply orb_true_iff in F as [F|F]; [|exact F]. cbn [orb] in F. apply mem_iff in F. contradiction.
  - exact B2.
  - intros k v G NL. destruct (B3 k v G) as [[X Y]|X]; [|exact X]. exfalso. apply in_map_iff in X as (a & <- & X).
    specialize (A a X). apply orb_true_iff in A as [A|A]; apply mem_iff in A; contradiction.
Qed.

