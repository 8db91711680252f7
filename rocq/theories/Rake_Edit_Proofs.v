(** Proofs about giving trains a schedule and removing them. *)
From Coq Require Import String ZArith List Bool Lia Reals Relations Permutation.
From Verif Require Import Common Dict Schedule_Model Schedule_Spec Schedule_More_Proofs Train_Model Train_Spec Train_Place_Proofs
  Rake_Model Rake_Spec Rake_Proofs Rake_Filter_Spec Rake_Filter_Proofs Rake_Edit_Spec.
Import ListNotations.
Local Open Scope string_scope.
Local Open Scope list_scope.

(** ** associations *)
Lemma selects_in : forall A (P : A -> Prop) l l', selects P l l' -> forall x, In x l' <-> In x l /\ P x.
Proof.
  intros A P l l' S. induction S as [|y l l' Y S IH|y l l' Y S IH]; intros x; cbn [In].
  - tauto.
  - rewrite IH. split; [intros [->|H]; tauto|intros [[->|H] X]; tauto].
  - rewrite IH. split; [tauto|]. intros [[->|H] X]; tauto.
Qed.
Lemma selects_all : forall A (P : A -> Prop) l, (forall x, In x l -> P x) -> selects P l l.
Proof. intros A P. induction l as [|x l IH]; intros H; constructor; [apply H; left; reflexivity|apply IH; intros y Y; apply H; right; exact Y]. Qed.
Lemma selects_trans : forall A (P Q R : A -> Prop) l m n, (forall x, R x <-> P x /\ Q x) -> selects P l m -> selects Q m n -> selects R l n.
Proof.
  intros A P Q R l m n E S. revert n. induction S as [|x l m X S IH|x l m X S IH]; intros n T.
  - inversion T. constructor.
  - inversion T as [|? ? ? Y T'|? ? ? Y T']; subst; [apply sel_keep|apply sel_drop]; try apply E; auto. intros C. apply E in C. tauto.
  - apply sel_drop; [intros C; apply E in C; tauto|]. apply IH. exact T.
Qed.
Lemma selects_ext : forall A (P Q : A -> Prop) l m, (forall x, In x l -> (P x <-> Q x)) -> selects P l m -> selects Q l m.
Proof.
  intros A P Q l m E S. induction S as [|x l m X S IH|x l m X S IH]; [constructor|apply sel_keep|apply sel_drop].
  1,3: first [apply E; [left; reflexivity|exact X]|intros C; apply X; apply E; [left; reflexivity|exact C]].
  all: apply IH; intros y Y; apply E; right; exact Y.
Qed.
Lemma selects_fun : forall A (P : A -> Prop) l m n, selects P l m -> selects P l n -> m = n.
Proof.
  intros A P l m n S. revert n. induction S as [|x l m X S IH|x l m X S IH]; intros n T; inversion T; subst; try contradiction; [reflexivity|f_equal|]; apply IH; assumption.
Qed.
Lemma targets_selects : forall P l l', selects P l l' -> NoDup (targets l) -> NoDup (targets l').
Proof.
  intros P l l' S. induction S as [|x l l' X S IH|x l l' X S IH]; intros N; [exact N| |].
  - destruct x as [[i|]|z]; cbn [targets flat_map app] in *; fold (targets l) (targets l') in *; [|apply IH; exact N..].
    apply NoDup_cons_iff in N. destruct N as [N1 N2]. constructor; [|apply IH; exact N2].
    intros C. apply N1. apply in_targets. apply in_targets in C. apply (selects_in _ _ _ _ S). exact C.
  - apply IH. destruct x as [[i|]|z]; cbn [targets flat_map app] in *; fold (targets l) in *; [|exact N..]. apply NoDup_cons_iff in N. tauto.
Qed.
Lemma wipe_one : forall ls i, NoDup (targets ls) -> selects (fun l => l <> LRef (Some i)) ls (wipe ls i).
Proof.
  intros ls i. unfold wipe, remove_locomotive. induction ls as [|x ls IH]; intros N; cbn [remove_first]; [constructor|].
  destruct (is_loco i x) eqn:E.
  - apply is_loco_eq in E. subst x. apply sel_drop; [tauto|]. apply selects_all. intros y Y ->.
    cbn [targets flat_map app] in N. fold (targets ls) in N. apply NoDup_cons_iff in N. destruct N as [N _]. apply N. apply in_targets. exact Y.
  - assert (NE : x <> LRef (Some i)) by (intros C; apply is_loco_eq in C; congruence).
    assert (N' : NoDup (targets ls)).
    { destruct x as [[j|]|z]; cbn [targets flat_map app] in N; fold (targets ls) in N; [apply NoDup_cons_iff in N; tauto|exact N..]. }
    specialize (IH N'). destruct (remove_first (is_loco i) ls) as [r|]; cbn [option_map]; apply sel_keep; assumption.
Qed.
Lemma wipe_all : forall is ls, NoDup (targets ls) -> selects (fun l => forall i, l = LRef (Some i) -> ~ In i is) ls (fold_left wipe is ls).
Proof.
  induction is as [|i is IH]; intros ls N; cbn [fold_left].
  - apply selects_all. intros x _ i _ [].
  - pose proof (wipe_one ls i N) as W. pose proof (targets_selects _ _ _ W N) as N'. eapply selects_trans; [|exact W|apply IH; exact N'].
    intros x. cbv beta. split.
    + intros H. split; [intros ->; apply (H i eq_refl); left; reflexivity|]. intros j E C. apply (H j E). right. exact C.
    + intros [H1 H2] j E [<-|C]; [contradiction|]. apply (H2 j E C).
Qed.
Lemma enlist_all : forall is ls, NoDup is -> fold_left enlist is ls = ls ++ map (fun i => LRef (Some i)) (filter (fun i => negb (existsb (is_loco i) ls)) is).
Proof.
  induction is as [|i is IH]; intros ls N; cbn [fold_left filter map]; [rewrite app_nil_r; reflexivity|].
  apply NoDup_cons_iff in N. destruct N as [N1 N2]. rewrite (IH _ N2). unfold enlist. destruct (existsb (is_loco i) ls) eqn:E; cbn [negb]; [reflexivity|].
  cbn [map]. rewrite <- app_assoc. cbn [app]. do 2 f_equal. f_equal. apply filter_ext_in. intros j J. f_equal. rewrite existsb_app. cbn [existsb is_loco].
  destruct (Nat.eqb_spec j i) as [->|_]; [contradiction|]. rewrite !orb_false_r. reflexivity.
Qed.
Lemma last_same_spec : forall ss l, match last_same ss l with
  | Some k => exists pre x post, l = pre ++ x :: post /\ k = List.length pre /\ s_stops x = ss /\ forall y, In y post -> s_stops y <> ss
  | None => forall y, In y l -> s_stops y <> ss end.
Proof.
  intros ss l. unfold last_same. induction l as [|x l IH] using rev_ind; [intros y []|].
  rewrite app_length, seq_app, fold_left_app. cbn [List.length seq fold_left Nat.add].
  rewrite nth_error_app2, Nat.sub_diag by lia. cbn [nth_error].
  assert (E : forall r0 ks, (forall k, In k ks -> (k < List.length l)%nat) ->
     fold_left (fun r k => match nth_error (l ++ [x]) k with Some s => if stops_eqb ss (s_stops s) then Some k else r | None => r end) ks r0 =
     fold_left (fun r k => match nth_error l k with Some s => if stops_eqb ss (s_stops s) then Some k else r | None => r end) ks r0).
  { intros r0 ks. revert r0. induction ks as [|k ks IHk]; intros r0 H; cbn [fold_left]; [reflexivity|].
    rewrite nth_error_app1 by (apply H; left; reflexivity). apply IHk. intros j J. apply H. right. exact J. }
  rewrite E by (intros k I; apply in_seq in I; lia).
  destruct (stops_eqb ss (s_stops x)) eqn:S.
  - apply stops_eqb_eq in S. exists l, x, []. split; [reflexivity|]. split; [reflexivity|]. split; [symmetry; exact S|intros y []].
  - assert (NE : s_stops x <> ss) by (intros C; symmetry in C; apply stops_eqb_eq in C; congruence).
    destruct (fold_left _ (seq 0 (List.length l)) None) as [k|].
    + destruct IH as [pre [z [post [-> [-> [Z N]]]]]]. exists pre, z, (post ++ [x]). split; [rewrite <- app_assoc; reflexivity|]. split; [reflexivity|]. split; [exact Z|].
      intros y Y. apply in_app_or in Y. destruct Y as [Y|[<-|[]]]; [apply N; exact Y|exact NE].
    + intros y Y. apply in_app_or in Y. destruct Y as [Y|[<-|[]]]; [apply IH; exact Y|exact NE].
Qed.
Lemma replace_at : forall A (pre : list A) x post y, replace_nth (pre ++ x :: post) (List.length pre) y = pre ++ y :: post.
Proof. intros A pre x post y. induction pre as [|a pre IH]; cbn; [reflexivity|]. f_equal. exact IH. Qed.

Section Edit.
  Variable K : Z.
  Hypothesis HK : (0 < K)%Z.
  Variable at_ : nat -> entity.
  Variable near : nat -> list nat.
  Variable kind : nat -> pystr.
  Variable schedules : list schedule.
  Variable order : list nat -> list nat.
  Hypothesis any_order : forall l, Permutation (order l) l.
  Notation find := (find_train_from_wagon K at_ near).
  Notation engine cars := (touched_engine K at_ near kind cars).

  Lemma touched_spec : forall limit cars all r, touched K at_ near limit cars all = Ok r ->
    (forall a b, In a all -> connected K at_ near a b -> In b all) ->
    forall x, In x r <-> In x all \/ exists c, In c cars /\ connected K at_ near c x.
  Proof.
    intros limit. induction cars as [|c cars IH]; intros all r E CL x; cbn [touched] in E.
    - injection E as <-. split; [auto|]. intros [H|[c [[] _]]]. exact H.
    - destruct (mem c all) eqn:M.
      + apply mem_iff in M. rewrite (IH all r E CL x). split.
        * intros [H|[d [D C]]]; [auto|]. right. exists d. split; [right; exact D|exact C].
        * intros [H|[d [[<-|D] C]]]; [auto| |right; exists d; auto]. left. apply (CL c x M C).
      + apply mem_false in M. destruct (find limit c) as [t|] eqn:F; cbn [bind] in E; [|discriminate].
        pose proof (members K HK at_ near limit c t F) as T.
        assert (AL : forall y, In y (all ++ filter (fun x0 => negb (mem x0 all)) t) <-> In y all \/ In y t).
        { intros y. rewrite in_app_iff, filter_In. split; [tauto|]. intros [H|H]; [auto|]. destruct (mem y all) eqn:Y; [apply mem_iff in Y; auto|right; auto]. }
        rewrite (IH _ r E).
        * rewrite AL. split.
          -- intros [[H|H]|[d [D C]]]; [auto| |]; right; [exists c|exists d]; (split; [cbn; auto|]); [apply T; exact H|exact C].
          -- intros [H|[d [[<-|D] C]]]; [auto|left; right; apply T; exact C|right; exists d; auto].
        * intros a b A C. apply AL. apply AL in A. destruct A as [A|A]; [left; apply (CL a b A C)|]. right. apply T. eapply rt_trans; [apply T; exact A|exact C].
  Qed.
  Definition engines (all : list nat) : list nat := filter (fun c => pystr_eqb (kind c) (str "locomotive")) (order (nodup Nat.eq_dec all)).
  Lemma engines_spec : forall limit cars all, touched K at_ near limit cars [] = Ok all -> listing (engine cars) (engines all).
  Proof.
    intros limit cars all E. unfold engines. split.
    - apply NoDup_filter. eapply Permutation_NoDup; [apply Permutation_sym, any_order|]. apply NoDup_nodup.
    - intros i. rewrite filter_In, pystr_eqb_eq. unfold touched_engine.
      assert (X : In i (order (nodup Nat.eq_dec all)) <-> In i all).
      { rewrite <- (nodup_In Nat.eq_dec all i). split; apply Permutation_in; [apply any_order|apply Permutation_sym, any_order]. }
      rewrite X, (touched_spec limit cars [] all E) by (intros a b []). cbn [In]. split; [intros [[[]|H] Q]; auto|intros [Q H]; auto].
  Qed.
  Lemma strip_all : forall P l, listing P l -> Forall (fun s => NoDup (targets (s_locos s))) schedules ->
    Forall2 (stripped P) schedules (map (fun x => mkSchedule (s_stops x) (fold_left wipe l (s_locos x))) schedules).
  Proof.
    intros P l [_ L] N. induction N as [|s ss S N IH]; cbn [map]; constructor; [|exact IH].
    split; [reflexivity|]. cbn [s_locos]. eapply selects_ext; [|apply wipe_all; exact S].
    intros x _. cbv beta. split; intros H i E C; apply (H i E); apply L; exact C.
  Qed.

  Theorem set_spec : forall limit cars s ss', set_train_schedule K at_ near kind schedules order limit cars s = Ok ss' ->
    Forall (fun x => NoDup (targets (s_locos x))) schedules ->
    exists ws, Forall2 (stripped (engine cars)) schedules ws /\
      match s with None => ss' = ws | Some s => given (engine cars) s ws ss' end.
  Proof.
    intros limit cars s ss' E N. unfold set_train_schedule in E.
    destruct (touched K at_ near limit cars []) as [all|] eqn:T; cbn [bind] in E; [|discriminate].
    pose proof (engines_spec limit cars all T) as L. fold (engines all) in E. set (l := engines all) in *. clearbody l. injection E as E.
    pose proof (strip_all _ _ L N) as W. set (ws := map _ schedules) in *. exists ws. split; [exact W|].
    destruct s as [s|]; [|symmetry; exact E].
    pose proof (last_same_spec (s_stops s) ws) as LS. destruct (last_same (s_stops s) ws) as [k|].
    - destruct LS as [pre [x [post [Q [-> [X P]]]]]]. left.
      assert (G : forall i, In i l -> existsb (is_loco i) (s_locos x) = false).
      { intros i I. destruct (existsb (is_loco i) (s_locos x)) eqn:C; [|reflexivity]. exfalso. apply existsb_loco, in_targets in C.
        rewrite Q in W. apply Forall2_app_inv_r in W. destruct W as [a [b [_ [W2 _]]]]. inversion W2 as [|y ? ? ? [_ S] ]; subst.
        apply (selects_in _ _ _ _ S) in C. destruct C as [_ C]. apply (C i eq_refl). apply L. exact I. }
      exists pre, x, post, l. split; [exact Q|]. split; [exact X|]. split; [exact P|]. split; [exact L|].
      rewrite Q in E. rewrite nth_error_app2, Nat.sub_diag in E by lia. cbn [nth_error] in E. rewrite replace_at in E. rewrite <- E.
      rewrite enlist_all by apply L. unfold joined.
      assert (FI : filter (fun i => negb (existsb (is_loco i) (s_locos x))) l = l).
      { clear - G. induction l as [|i l IH]; cbn [filter]; [reflexivity|]. rewrite (G i) by (left; reflexivity). cbn [negb]. f_equal. apply IH. intros j J. apply G. right. exact J. }
      rewrite FI. reflexivity.
    - right. split; [exact LS|]. exists (filter (fun i => negb (existsb (is_loco i) (s_locos s))) l). split.
      + split; [apply NoDup_filter, L|]. intros i. rewrite filter_In. destruct L as [_ L]. rewrite L.
        destruct (existsb (is_loco i) (s_locos s)) eqn:C; cbn [negb].
        * apply existsb_loco in C. split; [intros [_ F]; discriminate|tauto].
        * split; [intros [A _]; split; [exact A|]; intros F; apply existsb_loco in F; congruence|tauto].
      + rewrite nth_error_app2, Nat.sub_diag in E by lia. cbn [nth_error] in E. rewrite replace_at in E. rewrite <- E. unfold joined. rewrite enlist_all by apply L. reflexivity.
  Qed.

  Lemma stripped_in : forall P ss ws, Forall2 (stripped P) ss ws -> forall j y, nth_error ws j = Some y ->
    exists x, nth_error ss j = Some x /\ s_stops y = s_stops x /\ forall i, In i (targets (s_locos y)) <-> In i (targets (s_locos x)) /\ ~ P i.
  Proof.
    intros P ss ws F. induction F as [|x z ss ws [E S] F IH]; intros [|j] y Y; cbn [nth_error] in *; try discriminate.
    - injection Y as <-. exists x. split; [reflexivity|]. split; [exact E|]. intros i. rewrite !in_targets, (selects_in _ _ _ _ S).
      split; [intros [A B]; split; [exact A|apply B; reflexivity]|]. intros [A B]. split; [exact A|]. intros k Q. injection Q as <-. exact B.
    - apply IH. exact Y.
  Qed.
  Lemma joined_in : forall x l i, In i (targets (s_locos (joined x l))) <-> In i (targets (s_locos x)) \/ In i l.
  Proof.
    intros x l i. unfold joined. cbn [s_locos]. rewrite targets_app, in_app_iff.
    assert (T : targets (map (fun j => LRef (Some j)) l) = l) by (clear; induction l as [|j l IH]; cbn; [reflexivity|f_equal; exact IH]). rewrite T. reflexivity.
  Qed.
  Theorem set_members : forall limit cars s ss', set_train_schedule K at_ near kind schedules order limit cars (Some s) = Ok ss' ->
    Forall (fun x => NoDup (targets (s_locos x))) schedules ->
    exists k z, nth_error ss' k = Some z /\ s_stops z = s_stops s /\
      (List.length schedules <= List.length ss')%nat /\
      (forall j y, (j < List.length schedules)%nat -> nth_error ss' j = Some y -> exists x, nth_error schedules j = Some x /\ s_stops y = s_stops x) /\
      forall j y i, nth_error ss' j = Some y ->
        (In i (targets (s_locos y)) <-> (engine cars i /\ j = k) \/
           (~ engine cars i /\ exists x, nth_error schedules j = Some x /\ In i (targets (s_locos x))) \/
           (j = List.length schedules /\ In i (targets (s_locos s)))).
  Proof.
    intros limit cars s ss' E N. destruct (set_spec limit cars (Some s) ss' E N) as [ws [W G]].
    pose proof (stripped_in _ _ _ W) as SI. assert (LEN : List.length schedules = List.length ws) by (clear - W; induction W; cbn; congruence).
    assert (OLD : forall j y, nth_error ws j = Some y -> (j < List.length schedules)%nat) by (intros j y Y; rewrite LEN; apply nth_error_Some; congruence).
    assert (PL : forall j y i, nth_error ws j = Some y -> (In i (targets (s_locos y)) <->
           (~ engine cars i /\ exists x, nth_error schedules j = Some x /\ In i (targets (s_locos x))))).
    { intros j y i Y. destruct (SI j y Y) as [x [X [_ T]]]. rewrite T. split; [intros [A B]; eauto|]. intros [A [x' [X' B]]]. split; congruence. }
    destruct G as [[pre [x [post [l [Q [X [P [[L1 L2] S]]]]]]]]|[NO [l [[L1 L2] S]]]].
    - exists (List.length pre), (joined x l). rewrite S. split; [rewrite nth_error_app2, Nat.sub_diag by lia; reflexivity|]. split; [exact X|].
      split; [rewrite LEN, Q, !app_length; cbn [List.length]; lia|].
      assert (NTH : forall j y, nth_error (pre ++ joined x l :: post) j = Some y -> (j = List.length pre /\ y = joined x l) \/ (j <> List.length pre /\ nth_error ws j = Some y)).
      { intros j y Y. rewrite Q. destruct (Nat.lt_trichotomy j (List.length pre)) as [C|[C|C]].
        - right. split; [lia|]. rewrite nth_error_app1 in * by lia. exact Y.
        - left. split; [exact C|]. rewrite nth_error_app2 in Y by lia. subst j. rewrite Nat.sub_diag in Y. cbn in Y. congruence.
        - right. split; [lia|]. rewrite nth_error_app2 in * by lia. destruct (j - List.length pre)%nat eqn:D; [lia|]. exact Y. }
      assert (AT : nth_error ws (List.length pre) = Some x) by (rewrite Q, nth_error_app2, Nat.sub_diag by lia; reflexivity).
      split.
      + intros j y J Y. destruct (NTH j y Y) as [[-> ->]|[_ Y']].
        * destruct (SI _ _ AT) as [x' [A [B _]]]. exists x'. split; [exact A|exact B].
        * destruct (SI _ _ Y') as [x' [A [B _]]]. eauto.
      + intros j y i Y. destruct (NTH j y Y) as [[-> ->]|[NE Y']].
        * rewrite joined_in, L2, (PL _ _ i AT). pose proof (OLD _ _ AT). split; [tauto|]. intros [H0|[H0|[H0 _]]]; [tauto|tauto|lia].
        * rewrite (PL _ _ i Y'). pose proof (OLD _ _ Y'). split; [tauto|]. intros [[_ H0]|[H0|[H0 _]]]; [contradiction|exact H0|lia].
    - exists (List.length ws), (joined s l). rewrite S. split; [rewrite nth_error_app2, Nat.sub_diag by lia; reflexivity|]. split; [reflexivity|].
      split; [rewrite app_length; lia|].
      split.
      + intros j y J Y. rewrite nth_error_app1 in Y by lia. destruct (SI _ _ Y) as [x' [A [B _]]]. eauto.
      + intros j y i Y. destruct (Nat.lt_trichotomy j (List.length ws)) as [C|[C|C]].
        * rewrite nth_error_app1 in Y by lia. rewrite (PL _ _ i Y). pose proof (OLD _ _ Y). split; [tauto|]. intros [[_ H0]|[H0|[H0 _]]]; [lia|exact H0|lia].
        * subst j. rewrite nth_error_app2, Nat.sub_diag in Y by lia. cbn in Y. injection Y as <-. rewrite joined_in, L2.
          assert (D : In i (targets (s_locos s)) \/ ~ In i (targets (s_locos s))) by (destruct (in_dec Nat.eq_dec i (targets (s_locos s))); auto).
          split; [intros [H0|[H0 _]]; [right; right; auto|left; auto]|]. intros [[H0 _]|[[_ [x [H0 _]]]|[_ H0]]]; [tauto| |auto].
          assert (H1 : (List.length ws < List.length schedules)%nat) by (apply nth_error_Some; congruence). lia.
        * assert (H1 : (j < List.length (ws ++ [joined s l]))%nat) by (apply nth_error_Some; congruence). rewrite app_length in H1. cbn [List.length] in H1. lia.
  Qed.
  Theorem set_found : forall limit cars s ss' c t l q, set_train_schedule K at_ near kind schedules order limit cars (Some s) = Ok ss' ->
    Forall (fun x => NoDup (targets (s_locos x))) schedules ->
    In c cars -> find limit c = Ok t -> In l t -> kind l = str "locomotive" -> q_schedule q = Some (s_stops s) ->
    scheduled kind ss' q t.
  Proof.
    intros limit cars s ss' c t l q E N C F L KL Q ss SS. rewrite Q in SS. injection SS as <-.
    destruct (set_members limit cars s ss' E N) as [k [z [Z [ZS [_ [_ M]]]]]].
    pose proof (last_loco_spec kind t) as LL. destruct (last_loco kind t) as [i|]; [|exfalso; apply (LL l L KL)].
    exists i, z. split; [exact LL|]. split; [eapply nth_error_In; exact Z|]. split; [|exact ZS].
    apply (M k z i Z). left. split; [|reflexivity]. destruct LL as [pre [post [T [KI _]]]]. split; [exact KI|]. exists c. split; [exact C|].
    apply (members K HK at_ near limit c t F). rewrite T. apply in_or_app. right. left. reflexivity.
  Qed.
  Theorem set_total : forall limit cars s, (forall c, In c cars -> exists t, find limit c = Ok t) ->
    exists ss', set_train_schedule K at_ near kind schedules order limit cars s = Ok ss'.
  Proof.
    intros limit cars s H. unfold set_train_schedule. assert (T : forall all, exists r, touched K at_ near limit cars all = Ok r).
    { induction cars as [|c cars IH]; intros all; cbn [touched]; [eauto|].
      assert (H' : forall c, In c cars -> exists t, find limit c = Ok t) by (intros x X; apply H; right; exact X).
      destruct (mem c all); [apply IH; exact H'|]. destruct (H c) as [t ->]; [left; reflexivity|]. cbn [bind]. apply IH. exact H'. }
    destruct (T []) as [r ->]. cbn [bind]. eauto.
  Qed.
End Edit.

(** ** removing *)
Section Remove.
  Variable kind : nat -> pystr.
  Variable veq : nat -> nat -> bool.
  Lemma remove_equal_spec : forall ents c, NoDup ents -> (forall x, In x ents -> veq x c = true -> x = c) ->
    match remove_equal veq ents c with
    | Some e => In c ents /\ selects (fun x => x <> c) ents e
    | None => ~ In c ents
    end.
  Proof.
    intros ents c. induction ents as [|x ents IH]; intros N V; cbn [remove_equal]; [intros []|].
    apply NoDup_cons_iff in N. destruct N as [N1 N2].
    destruct (Nat.eqb x c || veq x c) eqn:E.
    - assert (x = c). { apply orb_true_iff in E. destruct E as [E|E]; [apply Nat.eqb_eq; exact E|apply V; [left; reflexivity|exact E]]. }
      subst x. split; [left; reflexivity|]. apply sel_drop; [tauto|]. apply selects_all. intros y Y ->. contradiction.
    - apply orb_false_iff in E. destruct E as [E _]. apply Nat.eqb_neq in E.
      assert (V' : forall y, In y ents -> veq y c = true -> y = c) by (intros y Y; apply V; right; exact Y).
      specialize (IH N2 V'). destruct (remove_equal veq ents c) as [e|]; cbn [option_map].
      + destruct IH as [A B]. split; [right; exact A|]. apply sel_keep; assumption.
      + intros [C|C]; [contradiction|apply IH; exact C].
  Qed.
  Lemma selects_nodup : forall (P : nat -> Prop) l l', selects P l l' -> NoDup l -> NoDup l'.
  Proof.
    intros P l l' S. induction S as [|x l l' X S IH|x l l' X S IH]; intros N; [exact N| |]; apply NoDup_cons_iff in N; destruct N as [N1 N2].
    - constructor; [|apply IH; exact N2]. intros C. apply N1. apply (selects_in _ _ _ _ S) in C. tauto.
    - apply IH. exact N2.
  Qed.
  Lemma remove_cars_spec : forall cars ents gone, NoDup ents -> (forall x c, In x ents -> In c cars -> veq x c = true -> x = c) ->
    match remove_cars kind veq ents cars gone with
    | (e, g, None) => NoDup cars /\ incl cars ents /\ selects (fun x => ~ In x cars) ents e /\
                      g = gone ++ filter (fun c => pystr_eqb (kind c) (str "locomotive")) cars
    | (e, g, Some x) => x = ValueError /\ exists pre c post, cars = pre ++ c :: post /\ NoDup pre /\ incl pre ents /\ (In c pre \/ ~ In c ents) /\
                      selects (fun x => ~ In x pre) ents e
    end.
  Proof.
    induction cars as [|c cars IH]; intros ents gone N V; cbn [remove_cars].
    - split; [constructor|]. split; [intros x []|]. split; [apply selects_all; intros x _ []|]. cbn [filter]. rewrite app_nil_r. reflexivity.
    - pose proof (remove_equal_spec ents c N (fun x X => V x c X (or_introl eq_refl))) as R.
      destruct (remove_equal veq ents c) as [e|].
      + destruct R as [I S]. pose proof (selects_nodup _ _ _ S N) as N'.
        assert (V' : forall x d, In x e -> In d cars -> veq x d = true -> x = d).
        { intros x d X D. apply V; [apply (selects_in _ _ _ _ S) in X; tauto|right; exact D]. }
        specialize (IH e (if pystr_eqb (kind c) (str "locomotive") then gone ++ [c] else gone) N' V').
        destruct (remove_cars kind veq e cars _) as [[e' g] [x|]].
        * destruct IH as [-> [pre [d [post [-> [NP [IP [B S']]]]]]]]. split; [reflexivity|]. exists (c :: pre), d, post. split; [reflexivity|].
          split; [constructor; [|exact NP]; intros C; apply IP in C; apply (selects_in _ _ _ _ S) in C; tauto|].
          split; [intros y [<-|Y]; [exact I|apply IP in Y; apply (selects_in _ _ _ _ S) in Y; tauto]|].
          split.
          -- destruct B as [B|B]; [left; right; exact B|]. destruct (Nat.eq_dec c d) as [->|NE]; [left; left; reflexivity|].
             right. intros C. apply B. apply (selects_in _ _ _ _ S). split; [exact C|]. congruence.
          -- eapply selects_trans; [|exact S|exact S']. intros y. cbn [In]. split; [intros H; split; [intros ->; tauto|tauto]|intros [A B'] [C|C]; [congruence|tauto]].
        * destruct IH as [NC [IC [S' ->]]]. split; [constructor; [|exact NC]; intros C; apply IC in C; apply (selects_in _ _ _ _ S) in C; tauto|].
          split; [intros y [<-|Y]; [exact I|apply IC in Y; apply (selects_in _ _ _ _ S) in Y; tauto]|].
          split; [|cbn [filter]; destruct (pystr_eqb (kind c) (str "locomotive")); [rewrite <- app_assoc|]; reflexivity].
          eapply selects_trans; [|exact S|exact S']. intros y. cbn [In]. split; [intros H; split; [intros ->; tauto|tauto]|intros [A B'] [C|C]; [congruence|tauto]].
      + split; [reflexivity|]. exists [], c, cars. split; [reflexivity|]. split; [constructor|]. split; [intros x []|]. split; [auto|]. apply selects_all. intros x _ [].
  Qed.
  Theorem remove_spec : forall ents schedules cars, NoDup ents -> (forall x c, In x ents -> In c cars -> veq x c = true -> x = c) ->
    Forall (fun x => NoDup (targets (s_locos x))) schedules ->
    match remove_train kind veq ents schedules cars with
    | (e, ss, None) => NoDup cars /\ incl cars ents /\ selects (fun x => ~ In x cars) ents e /\
                       Forall2 (stripped (fun i => In i cars /\ kind i = str "locomotive")) schedules ss
    | (e, ss, Some x) => x = ValueError /\ ss = schedules /\ exists pre c post, cars = pre ++ c :: post /\ NoDup pre /\ incl pre ents /\
                       (In c pre \/ ~ In c ents) /\ selects (fun x => ~ In x pre) ents e
    end.
  Proof.
    intros ents schedules cars N V ND. unfold remove_train. pose proof (remove_cars_spec cars ents [] N V) as R.
    destruct (remove_cars kind veq ents cars []) as [[e g] [x|]].
    - destruct R as [-> R]. split; [reflexivity|]. split; [reflexivity|exact R].
    - destruct R as [NC [IC [S ->]]]. split; [exact NC|]. split; [exact IC|]. split; [exact S|]. cbn [app]. apply strip_all; [|exact ND].
      split; [apply NoDup_nodup|]. intros i. rewrite nodup_In, filter_In, pystr_eqb_eq. reflexivity.
  Qed.
End Remove.
