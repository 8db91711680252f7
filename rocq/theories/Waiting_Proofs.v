(** Proofs about wait conditions. *)
From Coq Require Import ZArith NArith List Bool String Lia.
From Verif Require Import Common Dict Assign_Model Waiting_Model Waiting_Spec.
Import ListNotations.
Local Open Scope string_scope.
Local Open Scope list_scope.
Local Open Scope Z_scope.

Lemma is_str_iff : forall s v, is_str s v = true <-> v = VStr (str s).
Proof.
  intros s v. destruct v; cbn [is_str]; try (split; discriminate).
  rewrite pystr_eqb_eq. split; congruence.
Qed.
Lemma is_str_false : forall s v, is_str s v = false <-> v <> VStr (str s).
Proof. intros s v. rewrite <- is_str_iff. destruct (is_str s v); split; congruence. Qed.
Lemma is_none_iff : forall v, is_none v = true <-> v = VNone.
Proof. destruct v; cbn; split; congruence. Qed.
Lemma is_none_false : forall v, is_none v = false <-> v <> VNone.
Proof. destruct v; cbn; split; congruence. Qed.
Lemma member_iff : forall l v, member l v = true <-> exists s, In s l /\ v = VStr (str s).
Proof.
  intros l v. unfold member. rewrite existsb_exists. split; intros (s & H1 & H2); exists s; split; auto; apply is_str_iff; auto.
Qed.
Lemma member_types : forall v, member types v = true <-> a_wait_type v.
Proof.
  intro v. rewrite member_iff. unfold types, a_wait_type. cbn [In]. split.
  - intros (s & H & ->). repeat (destruct H as [<-|H]; [tauto|]). contradiction.
  - intros H. repeat (destruct H as [->|H]; [eexists; split; [|reflexivity]; tauto|]).
    subst. eexists; split; [|reflexivity]; tauto.
Qed.
Lemma member_compares : forall v, member compares v = true <-> a_compare_type v.
Proof.
  intro v. rewrite member_iff. unfold compares, a_compare_type. cbn [In]. split.
  - intros (s & H & ->). repeat (destruct H as [<-|H]; [tauto|]). contradiction.
  - intros [-> | ->]; eexists; (split; [|reflexivity]); tauto.
Qed.
Lemma member_counted : forall v, member counted v = true <-> uses_condition v.
Proof.
  intro v. rewrite member_iff. unfold counted, uses_condition. cbn [In]. split.
  - intros (s & H & ->). repeat (destruct H as [<-|H]; [tauto|]). contradiction.
  - intros [-> | [-> | ->]]; eexists; (split; [|reflexivity]); tauto.
Qed.
Lemma uint32_iff : forall z, uint32 z = true <-> 0 <= z < 2 ^ 32.
Proof. intro z. unfold uint32. rewrite andb_true_iff, Z.leb_le, Z.ltb_lt. lia. Qed.

(** ** Reading one field *)
Lemma read_means : forall E m f v x ws, read_field E false m f v = Read x ws <-> means E m f v x ws.
Proof.
  intros E m f v x ws. destruct f; cbn [read_field means].
  - destruct (member types v) eqn:H.
    + apply member_types in H. split; [intro K; inversion K; subst; auto|]. intros (_ & -> & ->). reflexivity.
    + split; [discriminate|]. intros (K & _). apply member_types in K. congruence.
  - destruct (member compares v) eqn:H.
    + apply member_compares in H. split; [intro K; inversion K; subst; auto|]. intros (_ & -> & ->). reflexivity.
    + split; [discriminate|]. intros (K & _). apply member_compares in K. congruence.
  - unfold says_ticks. split.
    + destruct v as [|z|s|c|n|n]; try discriminate.
      * intro K; inversion K; subst. auto.
      * destruct (uint32 z) eqn:H; [|discriminate]. apply uint32_iff in H. intro K; inversion K; subst.
        split; [|reflexivity]. right. eauto.
      * destruct (numeral E s) as [z|] eqn:N; [|discriminate].
        destruct (uint32 z) eqn:H; [|discriminate]. apply uint32_iff in H. intro K; inversion K; subst.
        split; [|reflexivity]. right. exists z. split; [reflexivity|]. split; [exact H|]. right. eauto.
    + intros [[(-> & ->)|(z & -> & B & [->|(s & -> & N)])] ->]; [reflexivity| |].
      * apply uint32_iff in B. rewrite B. reflexivity.
      * apply uint32_iff in B. rewrite N, B. reflexivity.
  - unfold says_condition. destruct v; try (split; [intro K; right; split; [discriminate|exact K]|];
      intros [(K & _)|(_ & K)]; [discriminate|exact K]).
    split; [intro K; inversion K; subst; left; auto|].
    intros [(_ & -> & ->)|(K & _)]; [reflexivity|contradiction].
Qed.
Lemma read_raises : forall E con m f v e, read_field E con m f v = Raises e <->
  f = FCond /\ v <> VNone /\ cond E con m v = Raises e.
Proof.
  intros E con m f v e. destruct f; cbn [read_field].
  - destruct (member types v); split; try discriminate; intros (K & _); discriminate.
  - destruct (member compares v); split; try discriminate; intros (K & _); discriminate.
  - split; [|intros (K & _); discriminate].
    destruct v as [|z|s|c|n|n]; try discriminate.
    + destruct (uint32 z); discriminate.
    + destruct (numeral E s) as [z|]; [|discriminate]. destruct (uint32 z); discriminate.
  - destruct v; try (split; [intro K; repeat split; auto; discriminate|intros (_ & _ & K); exact K]).
    split; [discriminate|]. intros (_ & K & _). contradiction.
Qed.
Lemma read_cases : forall E m f v,
  (exists x ws, means E m f v x ws) \/ (exists ws, read_field E false m f v = Refused ws)
  \/ (exists e, f = FCond /\ v <> VNone /\ cond E false m v = Raises e).
Proof.
  intros E m f v. destruct (read_field E false m f v) as [x ws|ws|e] eqn:R.
  - left. exists x, ws. apply read_means. exact R.
  - right; left. eauto.
  - right; right. exists e. apply (proj1 (read_raises _ _ _ _ _ _) R).
Qed.
Lemma fits_means : forall E m f v, fits E m f v -> exists x ws, means E m f v x ws.
Proof.
  intros E m f v. destruct f; cbn [fits means].
  - intro H. exists v, []. auto.
  - intro H. exists v, []. auto.
  - intros [->|(z & -> & B)].
    + exists VNone, []. split; [left|]; auto.
    + exists (VInt z), []. split; [right; eauto|reflexivity].
  - intros (c & ws & H). eauto.
Qed.
Lemma says_fits : forall E v t, says_ticks E v t -> a_tick_count t.
Proof. intros E v t [(_ & ->)|(z & -> & B & _)]; [left; reflexivity|right; eauto]. Qed.
Lemma says_self : forall E t, a_tick_count t -> says_ticks E t t.
Proof. intros E t [->|(z & -> & B)]; [left; auto|right; eauto 6]. Qed.
Lemma says_fun : forall E v t u, says_ticks E v t -> says_ticks E v u -> t = u.
Proof.
  intros E v t u [(-> & ->)|(z & -> & B & [->|(s & -> & N)])] [(K & ->)|(y & -> & C & [K|(r & K & M)])]; try discriminate; try reflexivity.
  - inversion K; reflexivity.
  - inversion K; subst. rewrite N in M. inversion M. reflexivity.
Qed.
Lemma means_fits : forall E m f v x ws, stable E -> means E m f v x ws -> forall m', fits E m' f x.
Proof.
  intros E m f v x ws S. destruct f; cbn [fits means].
  - intros (H & -> & _) m'. exact H.
  - intros (H & -> & _) m'. exact H.
  - intros (H & _) m'. exact (says_fits _ _ _ H).
  - intros [(-> & -> & ->)|(N & R)] m'.
    + exists VNone, []. left. auto.
    + destruct (S m v x ws R) as (NN & A). destruct (proj1 (A m')) as (c' & ws' & R').
      exists c', ws'. right. auto.
Qed.

(** ** Validation *)
Lemma check_all : forall E m w,
  check_fields E m w all_fields =
  match read_field E false m FCond (w_cond w) with
  | Raises e => Err e
  | Read _ ws => Ok (member types (w_type w) && (member compares (w_compare w)
                     && match read_field E false m FTicks (w_ticks w) with Read _ _ => true | _ => false end), ws)
  | Refused ws => Ok (false, ws)
  end.
Proof.
  intros E m w. unfold all_fields. cbn [check_fields get].
  assert (T : forall v, exists r, read_field E false m FTicks v = r /\ (exists x, r = Read x [] \/ r = Refused [])).
  { intro v. cbn [read_field]. eexists; split; [reflexivity|].
    destruct v as [|z|s|c|n|n]; try (exists VNone; right; reflexivity).
    - exists VNone; left; reflexivity.
    - destruct (uint32 z); [exists (VInt z); left|exists VNone; right]; reflexivity.
    - destruct (numeral E s) as [z|]; [|exists VNone; right; reflexivity].
      destruct (uint32 z); [exists (VInt z); left|exists VNone; right]; reflexivity. }
  destruct (T (w_ticks w)) as (r & R & x & HR). rewrite R.
  change (read_field E false m FType (w_type w)) with (if member types (w_type w) then Read (w_type w) [] else Refused []).
  change (read_field E false m FCompare (w_compare w)) with (if member compares (w_compare w) then Read (w_compare w) [] else Refused []).
  destruct (member types (w_type w)), (member compares (w_compare w)); destruct HR as [->| ->];
    destruct (read_field E false m FCond (w_cond w)); cbn [bind fst snd app]; rewrite ?app_nil_r; reflexivity.
Qed.
Lemma validate_ok : forall E m force w ws,
  validate E m force w = Ok (true, ws) <->
  (m = MNone /\ force = false /\ ws = [])
  \/ ((m <> MNone \/ force = true) /\ a_wait_type (w_type w) /\ a_compare_type (w_compare w)
      /\ (exists t, says_ticks E (w_ticks w) t) /\ exists c, says_condition E m (w_cond w) c ws).
Proof.
  intros E m force w ws. unfold validate.
  assert (C : check_fields E m w all_fields = Ok (true, ws) <->
     (a_wait_type (w_type w) /\ a_compare_type (w_compare w)
      /\ (exists t, says_ticks E (w_ticks w) t) /\ exists c, says_condition E m (w_cond w) c ws)).
  { rewrite check_all, <- member_types, <- member_compares. split.
    - destruct (read_field E false m FCond (w_cond w)) as [c ws'|ws'|e] eqn:R; try discriminate.
      destruct (read_field E false m FTicks (w_ticks w)) as [t tw| |] eqn:T;
        destruct (member types (w_type w)), (member compares (w_compare w)); cbn [andb]; intro K; try discriminate K.
      inversion K; subst. split; [reflexivity|]. split; [reflexivity|]. split.
      + apply read_means in T. exists t. apply T.
      + exists c. apply (proj1 (read_means E m FCond _ _ _) R).
    - intros (-> & -> & (t & T) & c & K).
      rewrite (proj2 (read_means E m FCond (w_cond w) c ws) K).
      rewrite (proj2 (read_means E m FTicks (w_ticks w) t []) (Logic.conj T eq_refl)). reflexivity. }
  assert (D : mode_eq m MNone = true <-> m = MNone) by (destruct m; cbn; split; congruence).
  destruct (mode_eq m MNone) eqn:M; destruct force; cbn [andb negb].
  - rewrite C. split; [intro K; right; split; [right; reflexivity|exact K]|].
    intros [(_ & K & _)|(_ & K)]; [discriminate|exact K].
  - split.
    + intro K; inversion K; subst. left. split; [apply D; reflexivity|]. auto.
    + intros [(_ & _ & ->)|([K|K] & _)]; [reflexivity| |discriminate]. exfalso. apply K, D. reflexivity.
  - rewrite C. split; [intro K; right; split; [right; reflexivity|exact K]|].
    intros [(_ & K & _)|(_ & K)]; [discriminate|exact K].
  - rewrite C. assert (N : m <> MNone) by (intro K; apply D in K; congruence).
    split; [intro K; right; split; [left; exact N|exact K]|].
    intros [(K & _)|(_ & K)]; [contradiction|exact K].
Qed.
Lemma validate_errs : forall E m force w,
  (exists r, validate E m force w = Ok r)
  \/ (exists e, w_cond w <> VNone /\ cond E false m (w_cond w) = Raises e /\ validate E m force w = Err e).
Proof.
  intros E m force w. unfold validate. destruct (mode_eq m MNone && negb force); [left; eauto|].
  rewrite check_all. destruct (read_field E false m FCond (w_cond w)) as [c ws|ws|e] eqn:R; [left; eauto|left; eauto|].
  right. exists e. apply read_raises in R. destruct R as (_ & N & R). auto.
Qed.

(** ** Construction *)
Lemma as_mode_named : forall v m, as_mode v = Ok m <-> mode_named v m.
Proof.
  intros v m. unfold as_mode, mode_named.
  destruct (is_str "none" v) eqn:A; [apply is_str_iff in A; subst|].
  { split; [intro K; inversion K; auto|]. intros [(_ & ->)|[(K & _)|[(K & _)|(K & _)]]]; [reflexivity|..]; discriminate K. }
  destruct (is_str "minimum" v) eqn:B; [apply is_str_iff in B; subst|].
  { split; [intro K; inversion K; auto|]. intros [(K & _)|[(_ & ->)|[(K & _)|(K & _)]]]; [|reflexivity|..]; discriminate K. }
  destruct (is_str "strict" v) eqn:C; [apply is_str_iff in C; subst|].
  { split; [intro K; inversion K; auto|]. intros [(K & _)|[(K & _)|[(_ & ->)|(K & _)]]]; [| |reflexivity|]; discriminate K. }
  destruct (is_str "pedantic" v) eqn:D; [apply is_str_iff in D; subst|].
  { split; [intro K; inversion K; auto 6|]. intros [(K & _)|[(K & _)|[(K & _)|(_ & ->)]]]; [| | |reflexivity]; discriminate K. }
  apply is_str_false in A, B, C, D. split; [discriminate|].
  intros [(K & _)|[(K & _)|[(K & _)|(K & _)]]]; contradiction.
Qed.
Lemma as_mode_err : forall v e, as_mode v = Err e <-> e = ValueError /\ forall m, ~ mode_named v m.
Proof.
  intros v e. destruct (as_mode v) as [m|x] eqn:A.
  - apply as_mode_named in A. split; [discriminate|]. intros (_ & K). elim (K m A).
  - split.
    + intro K. inversion K; subst. split.
      * unfold as_mode in A. destruct (is_str "none" v), (is_str "minimum" v), (is_str "strict" v), (is_str "pedantic" v); congruence.
      * intros m N. apply as_mode_named in N. congruence.
    + intros (-> & _). unfold as_mode in A. destruct (is_str "none" v), (is_str "minimum" v), (is_str "strict" v), (is_str "pedantic" v); congruence.
Qed.
Lemma fill_ticks_meant : forall ty v, meant_ticks ty v (fill_ticks ty v).
Proof.
  intros ty v. unfold meant_ticks, fill_ticks. destruct (is_none v) eqn:N.
  - apply is_none_iff in N. subst. left. split; [reflexivity|]. rewrite !andb_true_r.
    destruct ty; cbn [is_str default_ticks]; try reflexivity.
  - apply is_none_false in N. right. split; [exact N|]. rewrite !andb_false_r. reflexivity.
Qed.
Lemma meant_ticks_fun : forall ty v x, meant_ticks ty v x -> x = fill_ticks ty v.
Proof.
  intros ty v x H. destruct (fill_ticks_meant ty v) as [(A & B)|(A & B)], H as [(C & D)|(C & D)]; congruence.
Qed.
Lemma fill_cond_ok : forall ty v x, fill_cond ty v = Ok x <-> hashable ty /\ meant_cond ty v x.
Proof.
  intros ty v x. unfold meant_cond.
  assert (B : hashable ty -> (fill_cond ty v = Ok (if member counted ty then if is_none v then VCond 0 else v else v))).
  { intros (H1 & H2). unfold fill_cond. destruct ty; try reflexivity; [elim (H2 c)|elim (H1 n)]; reflexivity. }
  assert (H : fill_cond ty v = Ok x -> hashable ty).
  { unfold fill_cond, hashable. destruct ty; intro K; split; congruence. }
  split.
  - intro K. specialize (H K). split; [exact H|]. rewrite (B H) in K.
    assert (X : x = if member counted ty then if is_none v then VCond 0 else v else v) by congruence. subst x. clear K B.
    destruct (member counted ty) eqn:M.
    + apply member_counted in M. destruct (is_none v) eqn:N; [apply is_none_iff in N|apply is_none_false in N]; tauto.
    + assert (~ uses_condition ty) by (intro K; apply member_counted in K; congruence).
      destruct (is_none v) eqn:N; [apply is_none_iff in N; subst v|apply is_none_false in N]; tauto.
  - intros (K & M). rewrite (B K). f_equal. destruct M as [(-> & U & ->)|[(-> & U & ->)|(N & ->)]].
    + apply member_counted in U. rewrite U. reflexivity.
    + destruct (member counted ty) eqn:M; [apply member_counted in M; contradiction|reflexivity].
    + apply is_none_false in N. rewrite N. destruct (member counted ty); reflexivity.
Qed.
Lemma fill_cond_err : forall ty v, ~ hashable ty -> fill_cond ty v = Err TypeError.
Proof.
  intros ty v H. unfold fill_cond, hashable in *. destruct ty; try reflexivity; elim H; split; discriminate.
Qed.
Lemma meant_cond_total : forall ty v, exists x, meant_cond ty v x.
Proof.
  intros ty v. destruct (is_none v) eqn:N; [apply is_none_iff in N|apply is_none_false in N].
  - destruct (member counted ty) eqn:M.
    + apply member_counted in M. exists (VCond 0). left. auto.
    + exists VNone. right; left. split; [exact N|]. split; [|reflexivity]. intro K. apply member_counted in K. congruence.
  - exists v. right; right. auto.
Qed.
Lemma build_type : forall E v, build_field E FType v = Ok v.
Proof. intros E v. unfold build_field. cbn [read_field]. destruct (member types v); reflexivity. Qed.
Lemma build_compare : forall E v, build_field E FCompare v = Ok v.
Proof. intros E v. unfold build_field. cbn [read_field]. destruct (member compares v); reflexivity. Qed.
Lemma build_ticks : forall E v, exists x, build_field E FTicks v = Ok x
  /\ (says_ticks E v x \/ ((forall t, ~ says_ticks E v t) /\ x = v)).
Proof.
  intros E v. unfold build_field. change (read_field E true MNone FTicks v) with (read_field E false MNone FTicks v).
  destruct (read_field E false MNone FTicks v) as [x ws|ws|e] eqn:R.
  - exists x. split; [reflexivity|]. left. apply (proj1 (read_means E MNone FTicks v x ws) R).
  - exists v. split; [reflexivity|]. right. split; [|reflexivity]. intros t T.
    pose proof (proj2 (read_means E MNone FTicks v t []) (Logic.conj T eq_refl)). congruence.
  - apply read_raises in R. destruct R as (K & _). discriminate.
Qed.
Lemma build_cond : forall E v c, build_field E FCond v = Ok c <-> taken E v c.
Proof.
  intros E v c. unfold build_field, taken. cbn [read_field].
  destruct v; try (destruct (cond E true MNone _) as [x ws|ws|e] eqn:R;
    [split; [intro K; inversion K; subst; right; split; [discriminate|left; eauto]|
             intros [(K & _)|(_ & [(ws' & K)|((ws' & K) & _)])]; congruence]
    |split; [intro K; inversion K; subst; right; split; [discriminate|right; eauto]|
             intros [(K & _)|(_ & [(ws' & K)|((ws' & K) & ->)])]; congruence]
    |split; [discriminate|intros [(K & _)|(_ & [(ws' & K)|((ws' & K) & _)])]; congruence]]).
  split; [intro K; inversion K; auto|]. intros [(_ & ->)|(K & _)]; [reflexivity|contradiction].
Qed.
Lemma build_cond_err : forall E v e, build_field E FCond v = Err e <-> v <> VNone /\ cond E true MNone v = Raises e.
Proof.
  intros E v e. unfold build_field. destruct (read_field E true MNone FCond v) as [x ws|ws|y] eqn:R.
  - split; [discriminate|]. intros K. pose proof (proj2 (read_raises E true MNone FCond v e) (Logic.conj eq_refl K)). congruence.
  - split; [discriminate|]. intros K. pose proof (proj2 (read_raises E true MNone FCond v e) (Logic.conj eq_refl K)). congruence.
  - apply read_raises in R. destruct R as (_ & N & R). split; [intro K; inversion K; subst; auto|]. intros (_ & K). congruence.
Qed.

(** The constructor up to validation. *)
Lemma construct_upto : forall E a c c1, hashable (a_type a) -> meant_cond (a_type a) (a_cond a) c -> taken E c c1 ->
  exists t, (says_ticks E (fill_ticks (a_type a) (a_ticks a)) t
             \/ ((forall t', ~ says_ticks E (fill_ticks (a_type a) (a_ticks a)) t') /\ t = fill_ticks (a_type a) (a_ticks a)))
  /\ construct E a = (let* vm := as_mode (a_assign a) in
                      let w := mkWait (a_type a) (a_compare a) t c1 vm in
                      let* m := as_mode (a_validate a) in
                      let* r := validate E m false w in let* ws := reissue r in Ok (w, ws)).
Proof.
  intros E a c c1 H M T. destruct (build_ticks E (fill_ticks (a_type a) (a_ticks a))) as (t & B & S).
  exists t. split; [exact S|]. unfold construct.
  rewrite (proj2 (fill_cond_ok _ _ _) (Logic.conj H M)). cbn [bind].
  rewrite build_type. cbn [bind]. rewrite build_compare. cbn [bind]. rewrite B. cbn [bind].
  rewrite (proj2 (build_cond E c c1) T). reflexivity.
Qed.
Lemma wait_type_hashable : forall v, a_wait_type v -> hashable v.
Proof.
  unfold a_wait_type, hashable. intros v H. repeat (destruct H as [->|H]; [split; discriminate|]). subst. split; discriminate.
Qed.
Lemma construct_cases : forall E a,
  (~ hashable (a_type a) /\ construct E a = Err TypeError)
  \/ (hashable (a_type a) /\ exists c, meant_cond (a_type a) (a_cond a) c /\
      ((exists e, c <> VNone /\ cond E true MNone c = Raises e /\ construct E a = Err e) \/ exists c1, taken E c c1)).
Proof.
  intros E a. assert (D : hashable (a_type a) \/ ~ hashable (a_type a)).
  { unfold hashable. destruct (a_type a); try (left; split; discriminate); right; intros (K1 & K2);
      [eapply K2; reflexivity|eapply K1; reflexivity]. }
  destruct D as [D|D].
  - right. split; [exact D|]. destruct (meant_cond_total (a_type a) (a_cond a)) as (c & M). exists c. split; [exact M|].
    destruct (build_field E FCond c) as [c1|e] eqn:B.
    + right. exists c1. apply build_cond. exact B.
    + left. exists e. destruct (proj1 (build_cond_err _ _ _) B) as (N & R). split; [exact N|]. split; [exact R|].
      unfold construct. rewrite (proj2 (fill_cond_ok _ _ _) (Logic.conj D M)). cbn [bind].
      rewrite build_type. cbn [bind]. rewrite build_compare. cbn [bind].
      destruct (build_ticks E (fill_ticks (a_type a) (a_ticks a))) as (t & -> & _). cbn [bind]. rewrite B. reflexivity.
  - left. split; [exact D|]. unfold construct. rewrite fill_cond_err by exact D. reflexivity.
Qed.

Theorem construct_iff : forall E a m vm w ws, mode_named (a_validate a) m -> m <> MNone -> mode_named (a_assign a) vm ->
  construct E a = Ok (w, ws) <->
  a_wait_type (a_type a) /\ w_type w = a_type a
  /\ a_compare_type (a_compare a) /\ w_compare w = a_compare a
  /\ (exists t, meant_ticks (a_type a) (a_ticks a) t /\ says_ticks E t (w_ticks w))
  /\ (exists c c', meant_cond (a_type a) (a_cond a) c /\ taken E c (w_cond w) /\ says_condition E m (w_cond w) c' ws)
  /\ w_assign w = vm.
Proof.
  intros E a m vm w ws V NN A.
  apply as_mode_named in V. apply as_mode_named in A.
  assert (F : forall c c1, hashable (a_type a) -> meant_cond (a_type a) (a_cond a) c -> taken E c c1 ->
     construct E a = Ok (w, ws) <->
     a_wait_type (a_type a) /\ w_type w = a_type a
     /\ a_compare_type (a_compare a) /\ w_compare w = a_compare a
     /\ says_ticks E (fill_ticks (a_type a) (a_ticks a)) (w_ticks w)
     /\ w_cond w = c1 /\ (exists c', says_condition E m c1 c' ws)
     /\ w_assign w = vm).
  { intros c c1 H M T. destruct (construct_upto E a c c1 H M T) as (t & S & ->). rewrite A. cbn [bind]. cbv zeta. rewrite V. cbn [bind].
    set (w0 := mkWait (a_type a) (a_compare a) t c1 vm). split.
    - destruct (validate E m false w0) as [[b ws0]|e] eqn:VV; [|discriminate]. cbn [bind].
      unfold reissue. cbn [fst snd]. destruct b; [|discriminate]. cbn [bind]. intro K. inversion K; subst w ws. clear K.
      apply validate_ok in VV. destruct VV as [(K & _)|(_ & T1 & T2 & (t2 & T3) & T4)]; [contradiction|].
      unfold w0 in *. cbn [w_type w_compare w_ticks w_cond w_assign] in *.
      split; [exact T1|]. split; [reflexivity|]. split; [exact T2|]. split; [reflexivity|].
      split; [|split; [reflexivity|split; [exact T4|reflexivity]]].
      destruct S as [S|(S & ->)]; [exact S|]. elim (S _ T3).
    - intros (T1 & E1 & T2 & E2 & T3 & E3 & T4 & E4).
      assert (t = w_ticks w) by (destruct S as [S|(S & _)]; [exact (says_fun _ _ _ _ S T3)|elim (S _ T3)]).
      assert (W : w0 = w) by (destruct w; unfold w0; cbn in *; congruence). rewrite W.
      rewrite (proj2 (validate_ok E m false w ws)).
      + reflexivity.
      + right. split; [left; exact NN|]. rewrite E1, E2, E3. split; [exact T1|]. split; [exact T2|]. split; [|exact T4].
        exists (w_ticks w). apply says_self. exact (says_fits _ _ _ T3). }
  split.
  - intro K. destruct (construct_cases E a) as [(_ & K2)|(H & c & M & [(e & _ & _ & K2)|(c1 & T)])]; [congruence|congruence|].
    destruct (proj1 (F c c1 H M T) K) as (T1 & E1 & T2 & E2 & T3 & E3 & (c' & T4) & E4).
    split; [exact T1|]. split; [exact E1|]. split; [exact T2|]. split; [exact E2|].
    split; [exists (fill_ticks (a_type a) (a_ticks a)); split; [apply fill_ticks_meant|exact T3]|].
    split; [|exact E4]. exists c, c'. subst c1. auto.
  - intros (T1 & E1 & T2 & E2 & (t & T3 & T3') & (c & c' & M & T & T4) & E4).
    apply (F c (w_cond w) (wait_type_hashable _ T1) M T).
    apply meant_ticks_fun in T3. subst t.
    split; [exact T1|]. split; [exact E1|]. split; [exact T2|]. split; [exact E2|]. split; [exact T3'|].
    split; [reflexivity|]. split; [eauto|exact E4].
Qed.
Theorem construct_fails : forall E a m vm c c1, mode_named (a_validate a) m -> mode_named (a_assign a) vm ->
  hashable (a_type a) -> meant_cond (a_type a) (a_cond a) c -> taken E c c1 ->
  (c1 = VNone \/ forall e, cond E false m c1 <> Raises e) ->
  (exists w ws, construct E a = Ok (w, ws)) \/ construct E a = Err DataFormatError.
Proof.
  intros E a m vm c c1 V A H M T NR. apply as_mode_named in V. apply as_mode_named in A.
  destruct (construct_upto E a c c1 H M T) as (t & S & ->). rewrite A. cbn [bind]. cbv zeta. rewrite V. cbn [bind].
  destruct (validate_errs E m false (mkWait (a_type a) (a_compare a) t c1 vm)) as [([b ws] & ->)|(e & N & R & _)].
  - cbn [bind]. unfold reissue. cbn [fst snd]. destruct b; cbn [bind]; eauto.
  - cbn [w_cond] in *. destruct NR as [K|K]; [contradiction|elim (K e R)].
Qed.
Theorem construct_none : forall E a vm c c1, mode_named (a_validate a) MNone -> mode_named (a_assign a) vm ->
  hashable (a_type a) -> meant_cond (a_type a) (a_cond a) c -> taken E c c1 ->
  exists w t, construct E a = Ok (w, []) /\ w_type w = a_type a /\ w_compare w = a_compare a /\ w_cond w = c1
    /\ w_assign w = vm /\ meant_ticks (a_type a) (a_ticks a) t
    /\ (says_ticks E t (w_ticks w) \/ ((forall x, ~ says_ticks E t x) /\ w_ticks w = t)).
Proof.
  intros E a vm c c1 V A H M T. apply as_mode_named in V. apply as_mode_named in A.
  destruct (construct_upto E a c c1 H M T) as (t & S & ->). rewrite A. cbn [bind]. cbv zeta. rewrite V. cbn [bind].
  exists (mkWait (a_type a) (a_compare a) t c1 vm), (fill_ticks (a_type a) (a_ticks a)).
  split; [reflexivity|]. cbn [w_type w_compare w_ticks w_cond w_assign].
  repeat (split; [reflexivity|]). split; [apply fill_ticks_meant|exact S].
Qed.
Theorem construct_unhashable : forall E a, ~ hashable (a_type a) -> construct E a = Err TypeError.
Proof.
  intros E a H. destruct (construct_cases E a) as [(_ & K)|(K & _)]; [exact K|contradiction].
Qed.
Theorem construct_raises : forall E a c e, hashable (a_type a) -> meant_cond (a_type a) (a_cond a) c ->
  c <> VNone -> cond E true MNone c = Raises e -> construct E a = Err e.
Proof.
  intros E a c e H M N R. unfold construct. rewrite (proj2 (fill_cond_ok _ _ _) (Logic.conj H M)). cbn [bind].
  rewrite build_type. cbn [bind]. rewrite build_compare. cbn [bind].
  destruct (build_ticks E (fill_ticks (a_type a) (a_ticks a))) as (t & -> & _). cbn [bind].
  rewrite (proj2 (build_cond_err E c e) (Logic.conj N R)). reflexivity.
Qed.
Theorem construct_modes : forall E a c c1, hashable (a_type a) -> meant_cond (a_type a) (a_cond a) c -> taken E c c1 ->
  (forall m, ~ mode_named (a_assign a) m) \/ (forall m, ~ mode_named (a_validate a) m) -> construct E a = Err ValueError.
Proof.
  intros E a c c1 H M T K. destruct (construct_upto E a c c1 H M T) as (t & S & ->).
  destruct (as_mode (a_assign a)) as [vm|e] eqn:A.
  - cbn [bind]. cbv zeta. destruct K as [K|K]; [apply as_mode_named in A; elim (K vm A)|].
    rewrite (proj2 (as_mode_err (a_validate a) ValueError) (Logic.conj eq_refl K)). reflexivity.
  - apply as_mode_err in A. destruct A as (-> & _). reflexivity.
Qed.

(** ** Steps *)
Lemma get_put : forall f v w, get f (put f v w) = v.
Proof. destruct f; reflexivity. Qed.
Lemma get_put_other : forall f g v w, g <> f -> get g (put f v w) = get g w.
Proof. destruct f, g; intros v w H; try reflexivity; contradiction. Qed.
Lemma put_assign : forall f v w, w_assign (put f v w) = w_assign w.
Proof. destruct f; reflexivity. Qed.
Lemma mode_bool_iff : forall m, mode_bool m = true <-> m <> MNone.
Proof. destruct m; cbn; split; congruence. Qed.

Theorem set_ok : forall E w f v x ws, w_assign w <> MNone -> means E (w_assign w) f v x ws ->
  snd (step E w (OSet f v)) = Ok ws /\ get f (fst (step E w (OSet f v))) = x
  /\ (forall g, g <> f -> get g (fst (step E w (OSet f v))) = get g w)
  /\ w_assign (fst (step E w (OSet f v))) = w_assign w.
Proof.
  intros E w f v x ws N M. cbn [step]. rewrite (proj2 (mode_bool_iff _) N), (proj2 (read_means _ _ _ _ _ _) M).
  cbn [fst snd]. split; [reflexivity|]. split; [apply get_put|]. split; [intros; apply get_put_other; assumption|apply put_assign].
Qed.
Theorem set_refused : forall E w f v, w_assign w <> MNone -> (forall x ws, ~ means E (w_assign w) f v x ws) ->
  fst (step E w (OSet f v)) = w /\
  (snd (step E w (OSet f v)) = Err DataFormatError
   \/ exists e, f = FCond /\ cond E false (w_assign w) v = Raises e /\ snd (step E w (OSet f v)) = Err e).
Proof.
  intros E w f v N M. cbn [step]. rewrite (proj2 (mode_bool_iff _) N).
  destruct (read_field E false (w_assign w) f v) as [x ws|ws|e] eqn:R.
  - apply read_means in R. elim (M _ _ R).
  - cbn [fst snd]. auto.
  - cbn [fst snd]. apply read_raises in R. destruct R as (K & _ & R). split; [reflexivity|right; eauto].
Qed.
Theorem set_raw : forall E w f v, w_assign w = MNone ->
  snd (step E w (OSet f v)) = Ok [] /\ get f (fst (step E w (OSet f v))) = v
  /\ (forall g, g <> f -> get g (fst (step E w (OSet f v))) = get g w)
  /\ w_assign (fst (step E w (OSet f v))) = MNone.
Proof.
  intros E w f v N. cbn [step]. rewrite N. cbn [mode_bool mode_eq fst snd].
  split; [reflexivity|]. split; [apply get_put|]. split; [intros; apply get_put_other; assumption|]. cbn. rewrite put_assign. exact N.
Qed.
Theorem mode_step : forall E w v,
  (forall f, get f (fst (step E w (OMode v))) = get f w) /\
  ((exists m, mode_named v m /\ snd (step E w (OMode v)) = Ok [] /\ w_assign (fst (step E w (OMode v))) = m)
   \/ ((forall m, ~ mode_named v m) /\ step E w (OMode v) = (w, Err ValueError))).
Proof.
  intros E w v. cbn [step]. destruct (as_mode v) as [m|e] eqn:A.
  - split; [destruct f; reflexivity|]. left. exists m. apply as_mode_named in A. auto.
  - split; [reflexivity|]. right. apply as_mode_err in A. destruct A as (-> & A). auto.
Qed.
Lemma step_fits : forall E w o, stable E -> all_fit E w -> w_assign w <> MNone -> careful o ->
  all_fit E (fst (step E w o)) /\ w_assign (fst (step E w o)) <> MNone.
Proof.
  intros E w o S F N C. destruct o as [f v|v|m force].
  - cbn [step]. rewrite (proj2 (mode_bool_iff _) N).
    destruct (read_field E false (w_assign w) f v) as [x ws|ws|e] eqn:R; cbn [fst]; auto.
    rewrite put_assign. split; [|exact N]. intros m g. apply read_means in R.
    assert (D : g = f \/ g <> f) by (destruct f, g; (left; reflexivity) || (right; discriminate)).
    destruct D as [->|D]; [rewrite get_put; exact (means_fits _ _ _ _ _ _ S R m)|]. rewrite get_put_other by exact D. apply F.
  - destruct (mode_step E w v) as (G & [(m & M & _ & A)|(_ & K)]).
    + split; [intros m' f; rewrite G; apply F|]. rewrite A. intros ->. cbn [careful] in C.
      destruct M as [(M & _)|[(_ & M)|[(_ & M)|(_ & M)]]]; [contradiction|discriminate..].
    + rewrite K. auto.
  - cbn [step fst]. auto.
Qed.
Theorem run_fits : forall E os w, stable E -> all_fit E w -> w_assign w <> MNone -> Forall careful os ->
  all_fit E (run E w os) /\ w_assign (run E w os) <> MNone.
Proof.
  intros E os. induction os as [|o os IH]; intros w S F N C; cbn [run]; [auto|].
  inversion C; subst. destruct (step_fits E w o S F N H1) as (F' & N'). apply IH; auto.
Qed.
Theorem construct_fits : forall E a m vm w ws, stable E -> mode_named (a_validate a) m -> m <> MNone ->
  mode_named (a_assign a) vm -> construct E a = Ok (w, ws) -> all_fit E w.
Proof.
  intros E a m vm w ws S V N A K.
  destruct (proj1 (construct_iff E a m vm w ws V N A) K) as (T1 & E1 & T2 & E2 & (t & _ & T3) & (c & c' & _ & _ & T4) & _).
  intros m' f. destruct f; cbn [fits get].
  - rewrite E1. exact T1.
  - rewrite E2. exact T2.
  - exact (says_fits _ _ _ T3).
  - destruct T4 as [(-> & -> & _)|(NN & R)]; [exists VNone, []; left; auto|].
    destruct (S m (w_cond w) c' ws R) as (_ & B). destruct (proj2 (B m')) as (x & y & R'). exists x, y. right. auto.
Qed.
Theorem life : forall E a m vm w ws os, stable E -> mode_named (a_validate a) m -> m <> MNone ->
  mode_named (a_assign a) vm -> vm <> MNone -> construct E a = Ok (w, ws) -> Forall careful os ->
  all_fit E (run E w os).
Proof.
  intros E a m vm w ws os S V N A NV K C.
  apply run_fits; auto; [exact (construct_fits E a m vm w ws S V N A K)|].
  destruct (proj1 (construct_iff E a m vm w ws V N A) K) as (_ & _ & _ & _ & _ & _ & ->). exact NV.
Qed.
Theorem untouched : forall E os w f, (forall o, In o os -> ~ sets f o) -> get f (run E w os) = get f w.
Proof.
  intros E os. induction os as [|o os IH]; intros w f H; cbn [run]; [reflexivity|].
  rewrite IH by (intros; apply H; right; assumption).
  assert (K : ~ sets f o) by (apply H; left; reflexivity).
  destruct o as [g v|v|m force].
  - cbn [sets] in K. cbn [step]. destruct (mode_bool (w_assign w)).
    + destruct (read_field E false (w_assign w) g v); cbn [fst]; try reflexivity. apply get_put_other. congruence.
    + cbn [fst]. apply get_put_other. congruence.
  - apply (proj1 (mode_step E w v)).
  - reflexivity.
Qed.
Theorem validate_step : forall E w m force,
  fst (step E w (OValidate m force)) = w /\
  (forall ws, snd (step E w (OValidate m force)) = Ok ws <->
     (m = MNone /\ force = false /\ ws = [])
     \/ ((m <> MNone \/ force = true) /\ a_wait_type (w_type w) /\ a_compare_type (w_compare w)
         /\ (exists t, says_ticks E (w_ticks w) t) /\ exists c, says_condition E m (w_cond w) c ws))
  /\ (forall e, snd (step E w (OValidate m force)) = Err e -> e = DataFormatError
        \/ (w_cond w <> VNone /\ cond E false m (w_cond w) = Raises e)).
Proof.
  intros E w m force. cbn [step fst snd]. split; [reflexivity|]. split.
  - intro ws. rewrite <- validate_ok. destruct (validate E m force w) as [[[] ws']|e]; cbn [bind reissue fst snd]; unfold reissue; cbn [fst snd];
      split; intro K; inversion K; subst; reflexivity.
  - intros e K. destruct (validate_errs E m force w) as [([b ws] & R)|(e' & N & R & V)].
    + rewrite R in K. cbn [bind] in K. unfold reissue in K. cbn [fst snd] in K. destruct b; [discriminate|]. left. congruence.
    + rewrite V in K. cbn [bind] in K. inversion K; subst. auto.
Qed.

(** ** Lists *)
Lemma is_param_iff : forall k, is_param k = true <->
  k = str "type" \/ k = str "compare_type" \/ k = str "ticks" \/ k = str "condition"
  \/ k = str "validate" \/ k = str "validate_assignment".
Proof.
  intro k. unfold is_param. rewrite existsb_exists. unfold params. cbn [In]. split.
  - intros (s & H & K). apply pystr_eqb_eq in K. subst k.
    repeat (destruct H as [<-|H]; [tauto|]). contradiction.
  - intros H. repeat (destruct H as [->|H]; [eexists; split; [|apply pystr_eqb_eq; reflexivity]; tauto|]).
    subst. eexists; split; [|apply pystr_eqb_eq; reflexivity]; tauto.
Qed.
Lemma keys_iff : forall d, forallb (fun kv => is_param (fst kv)) d = true <-> known_keys d.
Proof.
  intro d. rewrite forallb_forall. unfold known_keys. split.
  - intros H k v I. apply is_param_iff. exact (H (k, v) I).
  - intros H [k v] I. apply is_param_iff. exact (H k v I).
Qed.
Lemma arg_or : forall d k v x, entry_or d k v x <-> x = arg d k v.
Proof.
  intros d k v x. unfold entry_or, entry, arg. destruct (dget pystr_eqb d (str k)) as [y|].
  - split; [intros [K|(K & _)]; congruence|]. intros ->. left. reflexivity.
  - split; [intros [K|(_ & ->)]; [discriminate|reflexivity]|]. intros ->. right. auto.
Qed.
Theorem call_args : forall E d a, known_keys d -> entry d "type" = Some (a_type a) ->
  entry_or d "compare_type" (VStr (str "or")) (a_compare a) -> entry_or d "ticks" VNone (a_ticks a) ->
  entry_or d "condition" VNone (a_cond a) -> entry_or d "validate" (VStr (str "strict")) (a_validate a) ->
  entry_or d "validate_assignment" (VStr (str "strict")) (a_assign a) ->
  call E d = construct E a.
Proof.
  intros E d a K T A1 A2 A3 A4 A5. apply arg_or in A1, A2, A3, A4, A5.
  unfold call. rewrite (proj2 (keys_iff d) K). unfold entry in T. rewrite T, <- A1, <- A2, <- A3, <- A4, <- A5.
  destruct a; reflexivity.
Qed.
Theorem call_fails : forall E d, (~ known_keys d \/ entry d "type" = None) -> call E d = Err TypeError.
Proof.
  intros E d H. unfold call. destruct (forallb _ d) eqn:K; [|reflexivity]. apply keys_iff in K.
  destruct H as [H|H]; [contradiction|]. unfold entry in H. rewrite H. reflexivity.
Qed.
Theorem make_cases : forall E l,
  (exists lw ws, make E l = (map IWait lw, ws, None) /\ stand_for E l lw ws)
  \/ (exists pre lw ws x post e, l = pre ++ x :: post /\ make E l = (map IWait lw ++ x :: post, ws, Some e)
        /\ stand_for E pre lw ws /\ stands_for_none E x e).
Proof.
  intros E l. induction l as [|i l IH].
  - left. exists [], []. split; [reflexivity|constructor].
  - assert (G : forall w ws0, stands_for E i w ws0 ->
       make E (i :: l) = (let '(l2, ws2, e) := make E l in (IWait w :: l2, ws0 ++ ws2, e)) ->
       (exists lw ws, make E (i :: l) = (map IWait lw, ws, None) /\ stand_for E (i :: l) lw ws)
       \/ (exists pre lw ws x post e, i :: l = pre ++ x :: post /\ make E (i :: l) = (map IWait lw ++ x :: post, ws, Some e)
          /\ stand_for E pre lw ws /\ stands_for_none E x e)).
    { intros w ws0 S K. destruct IH as [(lw & ws & M & SS)|(pre & lw & ws & x & post & e & L & M & SS & F)].
      - left. exists (w :: lw), (ws0 ++ ws). split; [rewrite K, M; reflexivity|constructor; assumption].
      - right. exists (i :: pre), (w :: lw), (ws0 ++ ws), x, post, e. split; [rewrite L; reflexivity|].
        split; [rewrite K, M; reflexivity|]. split; [constructor; assumption|exact F]. }
    destruct i as [w|d|n].
    + apply (G w []); [left; auto|]. cbn [make]. destruct (make E l) as [[l2 ws2] e]. reflexivity.
    + destruct (call E d) as [[w ws0]|x] eqn:C.
      * apply (G w ws0); [right; eauto|]. cbn [make]. rewrite C. reflexivity.
      * right. exists [], [], [], (IDict d), l, x. split; [reflexivity|]. cbn [make map app]. rewrite C.
        split; [reflexivity|]. split; [constructor|right; eauto].
    + right. exists [], [], [], (IOther n), l, TypeError. split; [reflexivity|]. split; [reflexivity|]. split; [constructor|left; eauto].
Qed.

(** ** Export *)
Theorem export_keys : forall E w k v, In (k, v) (export E w) ->
  k = str "type" \/ k = str "compare_type" \/ k = str "ticks" \/ k = str "condition".
Proof.
  intros E w k v H. unfold export in H. repeat rewrite in_app_iff in H. unfold shown in H.
  destruct H as [H|[H|[H|H]]].
  - destruct (is_none (w_type w)); [contradiction|]. destruct H as [H|[]]. inversion H. auto.
  - destruct (_ || _); [contradiction|]. destruct H as [H|[]]. inversion H. auto.
  - destruct (is_none (w_ticks w)); [contradiction|]. destruct H as [H|[]]. inversion H. auto.
  - destruct (w_cond w) as [|z|s|c|n|n]; try contradiction; try (destruct H as [H|[]]; inversion H; auto).
    destruct (c =? 0); [contradiction|]. destruct H as [H|[]]. inversion H; auto.
Qed.
Definition cond_part (E : env) (w : wait) : sdict val :=
  match w_cond w with
  | VNone => []
  | VCond c => if c =? 0 then [] else [(str "condition", dump E c)]
  | v => [(str "condition", v)]
  end.
Lemma dget_shown : forall k k' b v l, dget pystr_eqb (shown k b v ++ l) (str k') =
  if negb b && pystr_eqb (str k) (str k') then Some v else dget pystr_eqb l (str k').
Proof.
  intros k k' b v l. unfold shown. destruct b; cbn [negb andb app]; [reflexivity|].
  cbn [dget]. destruct (pystr_eqb (str k) (str k')) eqn:A; reflexivity.
Qed.
Lemma cond_part_shown : forall E w k, exists b v, cond_part E w = shown "condition" b v /\
  (k <> "condition" -> dget pystr_eqb (cond_part E w) (str k) = dget pystr_eqb (shown "condition" b v) (str k)).
Proof.
  intros E w k. unfold cond_part. destruct (w_cond w) as [|z|s|c|n|n].
  - exists true, VNone. auto.
  - exists false, (VInt z). auto.
  - exists false, (VStr s). auto.
  - destruct (c =? 0); [exists true, VNone; auto|exists false, (dump E c); auto].
  - exists false, (VOther n). auto.
  - exists false, (VList n). auto.
Qed.
Lemma export_parts : forall E w, export E w =
  shown "type" (is_none (w_type w)) (w_type w)
  ++ shown "compare_type" (is_none (w_compare w) || is_str "or" (w_compare w)) (w_compare w)
  ++ shown "ticks" (is_none (w_ticks w)) (w_ticks w) ++ cond_part E w.
Proof. reflexivity. Qed.
Theorem export_entries : forall E w,
  entry (export E w) "type" = (match w_type w with VNone => None | v => Some v end)
  /\ (entry (export E w) "compare_type" = None <-> w_compare w = VNone \/ w_compare w = VStr (str "or"))
  /\ (forall v, entry (export E w) "compare_type" = Some v -> v = w_compare w)
  /\ entry (export E w) "ticks" = (match w_ticks w with VNone => None | v => Some v end)
  /\ (entry (export E w) "condition" = None <-> w_cond w = VNone \/ w_cond w = VCond 0)
  /\ (forall c, w_cond w = VCond c -> c <> 0 -> entry (export E w) "condition" = Some (dump E c))
  /\ (forall v, w_cond w = v -> v <> VNone -> (forall c, v <> VCond c) -> entry (export E w) "condition" = Some v).
Proof.
  intros E w. unfold entry. rewrite export_parts.
  destruct (cond_part_shown E w "x") as (b & v & C & _).
  split; [|split; [|split; [|split; [|]]]].
  - rewrite dget_shown. change (pystr_eqb (str "type") (str "type")) with true. rewrite andb_true_r.
    destruct (w_type w); cbn [is_none negb]; try reflexivity.
    rewrite !dget_shown. rewrite C, <- (app_nil_r (shown "condition" b v)), dget_shown.
    change (pystr_eqb (str "compare_type") (str "type")) with false. change (pystr_eqb (str "ticks") (str "type")) with false.
    change (pystr_eqb (str "condition") (str "type")) with false. rewrite !andb_false_r. reflexivity.
  - rewrite !dget_shown. rewrite C, <- (app_nil_r (shown "condition" b v)), dget_shown.
    change (pystr_eqb (str "compare_type") (str "compare_type")) with true.
    change (pystr_eqb (str "type") (str "compare_type")) with false. change (pystr_eqb (str "ticks") (str "compare_type")) with false.
    change (pystr_eqb (str "condition") (str "compare_type")) with false. rewrite !andb_false_r, andb_true_r.
    rewrite <- is_none_iff, <- is_str_iff. destruct (is_none (w_compare w)), (is_str "or" (w_compare w)); cbn [orb negb dget];
      split; intro K; try discriminate; auto; destruct K; discriminate.
  - intros x. rewrite !dget_shown. rewrite C, <- (app_nil_r (shown "condition" b v)), dget_shown.
    change (pystr_eqb (str "compare_type") (str "compare_type")) with true.
    change (pystr_eqb (str "type") (str "compare_type")) with false. change (pystr_eqb (str "ticks") (str "compare_type")) with false.
    change (pystr_eqb (str "condition") (str "compare_type")) with false. rewrite !andb_false_r, andb_true_r.
    destruct (negb _); cbn [dget]; intro K; inversion K; reflexivity.
  - rewrite !dget_shown. rewrite C, <- (app_nil_r (shown "condition" b v)), dget_shown.
    change (pystr_eqb (str "ticks") (str "ticks")) with true.
    change (pystr_eqb (str "type") (str "ticks")) with false. change (pystr_eqb (str "compare_type") (str "ticks")) with false.
    change (pystr_eqb (str "condition") (str "ticks")) with false. rewrite !andb_false_r, andb_true_r.
    destruct (w_ticks w); reflexivity.
  - rewrite !dget_shown.
    change (pystr_eqb (str "ticks") (str "condition")) with false.
    change (pystr_eqb (str "type") (str "condition")) with false. change (pystr_eqb (str "compare_type") (str "condition")) with false.
    rewrite !andb_false_r. unfold cond_part. clear C.
    split; [|split].
    + destruct (w_cond w) as [|z|s|c|n|n]; cbn; try (split; [discriminate|intros [K|K]; discriminate]).
      * split; auto.
      * destruct (c =? 0) eqn:Q; [apply Z.eqb_eq in Q; subst; split; auto|].
        apply Z.eqb_neq in Q. cbn. split; [discriminate|]. intros [K|K]; [discriminate|congruence].
    + intros c -> N. apply Z.eqb_neq in N. rewrite N. reflexivity.
    + intros x X N1 N2. rewrite X. destruct x; try reflexivity; [contradiction|elim (N2 c); reflexivity].
Qed.

Lemma default_fill : forall ty, fill_ticks ty VNone = default_ticks ty.
Proof. intro ty. destruct (fill_ticks_meant ty VNone) as [(_ & K)|(K & _)]; [exact K|contradiction]. Qed.
Lemma default_ticks_count : forall ty, a_tick_count (default_ticks ty).
Proof.
  intro ty. unfold a_tick_count, default_ticks. destruct ty; try (left; reflexivity).
  destruct (pystr_eqb s (str "time")); [right; eexists; split; [reflexivity|lia]|].
  destruct (pystr_eqb s (str "inactivity")); [right; eexists; split; [reflexivity|lia]|left; reflexivity].
Qed.
Lemma default_cond_total : forall ty, exists x, default_cond ty x.
Proof.
  intro ty. destruct (member counted ty) eqn:M.
  - apply member_counted in M. exists (VCond 0). left. auto.
  - exists VNone. right. split; [|reflexivity]. intro K. apply member_counted in K. congruence.
Qed.
Theorem round_trip : forall E w, plain_default E -> a_wait_type (w_type w) -> a_compare_type (w_compare w) ->
  a_tick_count (w_ticks w) -> (w_cond w = VNone \/ exists c, w_cond w = VCond c /\ (c <> 0 -> faithful E c)) ->
  exists w' ws, call E (export E w) = Ok (w', ws)
    /\ w_type w' = w_type w /\ w_compare w' = w_compare w /\ w_assign w' = MStrict
    /\ (w_ticks w <> VNone -> w_ticks w' = w_ticks w) /\ (w_ticks w = VNone -> w_ticks w' = default_ticks (w_type w))
    /\ (w_cond w <> VNone -> w_cond w <> VCond 0 -> w_cond w' = w_cond w)
    /\ (w_cond w = VNone \/ w_cond w = VCond 0 -> default_cond (w_type w) (w_cond w')).
Proof.
  intros E w P T C K X.
  destruct (export_entries E w) as (ET & EC1 & EC2 & EK & EN & ED & _).
  pose (v := match entry (export E w) "condition" with Some x => x | None => VNone end).
  pose (a := mkArgs (w_type w) (w_compare w) (w_ticks w) v (VStr (str "strict")) (VStr (str "strict"))).
  assert (CA : call E (export E w) = construct E a).
  { apply call_args.
    - intros k x I. apply export_keys in I. tauto.
    - rewrite ET. cbn. destruct (w_type w) eqn:Q; try reflexivity. apply wait_type_hashable in T as T'.
      unfold a_wait_type in T. repeat (destruct T as [T|T]; [discriminate T|]). discriminate T.
    - cbn [a_compare a]. unfold entry_or. destruct (entry (export E w) "compare_type") as [x|] eqn:Q.
      + left. rewrite (EC2 x eq_refl). reflexivity.
      + right. split; [reflexivity|]. destruct (proj1 EC1 eq_refl) as [R|R]; [|exact R].
        rewrite R in C. destruct C as [C|C]; discriminate C.
    - cbn [a_ticks a]. unfold entry_or. rewrite EK. destruct (w_ticks w); auto.
    - cbn [a_cond a]. unfold entry_or, v. destruct (entry (export E w) "condition"); auto.
    - right. split; [|reflexivity]. destruct (entry (export E w) "validate") as [x|] eqn:Q; [|reflexivity].
      apply dget_some_in in Q; [|exact pystr_eqb_eq]. apply export_keys in Q. destruct Q as [Q|[Q|[Q|Q]]]; discriminate Q.
    - right. split; [|reflexivity]. destruct (entry (export E w) "validate_assignment") as [x|] eqn:Q; [|reflexivity].
      apply dget_some_in in Q; [|exact pystr_eqb_eq]. apply export_keys in Q. destruct Q as [Q|[Q|[Q|Q]]]; discriminate Q. }
  rewrite CA.
  assert (M1 : mode_named (a_validate a) MStrict) by (right; right; left; auto).
  assert (M2 : mode_named (a_assign a) MStrict) by (right; right; left; auto).
  assert (KT : exists t, meant_ticks (w_type w) (w_ticks w) t /\ says_ticks E t t
     /\ (w_ticks w <> VNone -> t = w_ticks w) /\ (w_ticks w = VNone -> t = default_ticks (w_type w))).
  { destruct (is_none (w_ticks w)) eqn:N.
    - apply is_none_iff in N. exists (default_ticks (w_type w)). split; [left; auto|].
      split; [apply says_self, default_ticks_count|]. split; [contradiction|auto].
    - apply is_none_false in N. exists (w_ticks w). split; [right; auto|]. split; [apply says_self, K|]. split; [auto|contradiction]. }
  destruct KT as (t & KT1 & KT2 & KT3 & KT4).
  assert (KC : exists c c1 c' ws, meant_cond (w_type w) v c /\ taken E c c1 /\ says_condition E MStrict c1 c' ws
     /\ (w_cond w <> VNone -> w_cond w <> VCond 0 -> c1 = w_cond w)
     /\ (w_cond w = VNone \/ w_cond w = VCond 0 -> default_cond (w_type w) c1)).
  { assert (D : w_cond w = VNone \/ w_cond w = VCond 0 -> v = VNone).
    { intro D. unfold v. rewrite (proj2 EN D). reflexivity. }
    assert (D2 : w_cond w = VNone \/ w_cond w = VCond 0 -> exists c c1 c' ws, meant_cond (w_type w) v c /\ taken E c c1 /\ says_condition E MStrict c1 c' ws
     /\ (w_cond w <> VNone -> w_cond w <> VCond 0 -> c1 = w_cond w)
     /\ (w_cond w = VNone \/ w_cond w = VCond 0 -> default_cond (w_type w) c1)).
    { intro Q. rewrite (D Q). destruct (default_cond_total (w_type w)) as (x & [(U & ->)|(U & ->)]).
      - exists (VCond 0), (VCond 0), (VCond 0), []. split; [left; auto|].
        split; [right; split; [discriminate|left; exists []; apply P]|].
        split; [right; split; [discriminate|apply P]|]. split; [destruct Q; contradiction|]. left. auto.
      - exists VNone, VNone, VNone, []. split; [right; left; auto|].
        split; [left; auto|]. split; [left; auto|]. split; [destruct Q; contradiction|]. right. auto. }
    destruct X as [X|(c & X & F)]; [apply D2; left; exact X|].
    destruct (Z.eq_dec c 0) as [->|N]; [apply D2; right; exact X|].
    destruct (F N) as (F1 & (ws1 & F2) & (x & ws & F3)).
    assert (V : v = dump E c) by (unfold v; rewrite (ED c X N); reflexivity).
    exists (dump E c), (VCond c), x, ws. rewrite V. split; [right; right; auto|].
    split; [right; split; [exact F1|left; eauto]|]. split; [right; split; [discriminate|exact F3]|].
    split; [auto|]. rewrite X. intros [Q|Q]; [discriminate|]. inversion Q. contradiction. }
  destruct KC as (c & c1 & c' & ws & KC1 & KC2 & KC3 & KC4 & KC5).
  exists (mkWait (w_type w) (w_compare w) t c1 MStrict), ws.
  split.
  - apply (construct_iff E a MStrict MStrict _ _ M1); [discriminate|exact M2|].
    cbn [w_type w_compare w_ticks w_cond w_assign a_type a_compare a_ticks a_cond a].
    split; [exact T|]. split; [reflexivity|]. split; [exact C|]. split; [reflexivity|].
    split; [exists t; auto|]. split; [exists c, c'; auto|reflexivity].
  - cbn [w_type w_compare w_ticks w_cond w_assign]. auto 8.
Qed.

(** ** Witnesses *)
(** Sequence 1 is too short, sequence 2 is condition 7 with something to warn of. *)
Definition E0 : env := mkEnv (fun s => if pystr_eqb s (str "5") then Some 5 else None)
  (fun b m v => match v with
                | VCond c => Read (VCond c) []
                | VList 1 => Raises IndexError
                | VList 2 => Read (VCond 7) (if b then [] else [1])
                | VList 7 => Read (VCond 7) []
                | _ => Refused [] end)
  (fun c => VList c).
Definition plain (ty : string) (m : string) : args :=
  mkArgs (VStr (str ty)) (VStr (str "or")) VNone VNone (VStr (str m)) (VStr (str m)).
Lemma E0_stable : stable E0.
Proof.
  intros m v c ws H. unfold E0 in *. cbn [cond] in *. destruct v as [|z|s|c0|n|n]; try discriminate.
  - inversion H; subst. split; [discriminate|]. intros m'. split; eauto.
  - destruct n as [|p|p]; try discriminate.
    repeat (destruct p as [p|p|]; try discriminate); inversion H; subst; (split; [discriminate|]); intros m'; split; eauto.
Qed.
Lemma E0_default : plain_default E0.
Proof. intros b m. reflexivity. Qed.
Lemma none_fails : exists E a b, a_validate a = VStr (str "none") /\ construct E a = Err IndexError
  /\ a_validate b = VStr (str "none") /\ construct E b = Err TypeError.
Proof.
  exists E0, (mkArgs (VStr (str "circuit")) (VStr (str "or")) VNone (VList 1) (VStr (str "none")) (VStr (str "none"))),
    (mkArgs (VList 0) (VStr (str "or")) VNone VNone (VStr (str "none")) (VStr (str "none"))).
  repeat split; reflexivity.
Qed.
Lemma retyped : exists E w ws, construct E (plain "full" "strict") = Ok (w, ws) /\ exists w',
  step E w (OSet FType (VStr (str "time"))) = (w', Ok []) /\ w_ticks w' = VNone
  /\ exists w2 ws2, construct E (plain "time" "strict") = Ok (w2, ws2) /\ w_ticks w2 = VInt 1800.
Proof.
  exists E0. do 2 eexists. split; [reflexivity|]. eexists. split; [reflexivity|]. split; [reflexivity|].
  do 2 eexists. split; reflexivity.
Qed.
Lemma not_converted : exists E w os m, run E w os = w /\ snd (step E w (OValidate m false)) = Ok [] /\ m <> MNone
  /\ In (OValidate m false) os /\ ~ a_tick_count (w_ticks w).
Proof.
  exists E0, (mkWait (VStr (str "time")) (VStr (str "or")) (VStr (str "5")) VNone MNone), [OValidate MStrict false], MStrict.
  split; [reflexivity|]. split; [reflexivity|]. split; [discriminate|]. split; [left; reflexivity|].
  intros [K|(z & K & _)]; discriminate K.
Qed.
Lemma switched_off : exists E d w ws, known_keys d /\ entry d "type" = Some (VStr (str "never")) /\
  call E d = Ok (w, ws) /\ ~ a_wait_type (w_type w).
Proof.
  exists E0, [(str "type", VStr (str "never")); (str "validate", VStr (str "none"))]. do 2 eexists.
  split; [intros k v [H|[H|[]]]; inversion H; auto 6|]. split; [reflexivity|]. split; [reflexivity|].
  cbn [w_type]. intro H. unfold a_wait_type in H. repeat (destruct H as [H|H]; [discriminate H|]). discriminate H.
Qed.
Lemma partly_made : exists E d1 d2 w, make E [IDict d1; IDict d2] = ([IWait w; IDict d2], [], Some DataFormatError).
Proof.
  exists E0, [(str "type", VStr (str "full"))], [(str "type", VStr (str "never"))]. eexists. reflexivity.
Qed.
Lemma lost : exists E a w ws w' ws', stable E /\ plain_default E /\ a_validate a = VStr (str "strict") /\ construct E a = Ok (w, ws) /\
  call E (export E w) = Ok (w', ws') /\ w_cond w = VCond 0 /\ w_cond w' = VNone.
Proof.
  exists E0, (mkArgs (VStr (str "full")) (VStr (str "or")) VNone (VCond 0) (VStr (str "strict")) (VStr (str "strict"))).
  do 4 eexists. split; [exact E0_stable|]. split; [exact E0_default|]. split; [reflexivity|]. split; [reflexivity|].
  split; [reflexivity|]. split; reflexivity.
Qed.
Lemma wrong_mode : exists E w v, step E w (OMode v) = (w, Err ValueError).
Proof. exists E0, (mkWait VNone VNone VNone VNone MStrict), (VStr (str "loose")). reflexivity. Qed.
