(** Proofs about choosing the version of the data. *)
From Coq Require Import ZArith NArith String List Bool Lia.
From Verif Require Import Common Version_Model Version_Spec Version_Proofs
  Release_Model Release_Spec.
Import ListNotations.
Local Open Scope Z_scope.

(** * Reading versions *)

Lemma read_as_model : forall s t, version_string_to_tuple s = Ok t <-> read_as s t.
Proof. exact string_to_tuple_spec. Qed.

Lemma py_int_err : forall s e, py_int s = Err e -> e = ValueError.
Proof.
  intros s e. unfold py_int. destruct (strip s) as [|c s']; [congruence|].
  match goal with |- context [match ?x with Some _ => _ | None => _ end] =>
    destruct x; congruence end.
Qed.

Lemma map_result_err : forall l e, map_result py_int l = Err e -> e = ValueError.
Proof.
  induction l as [|x l IH]; simpl; intros e H; [discriminate|].
  destruct (py_int x) as [z|e'] eqn:E; simpl in H.
  - destruct (map_result py_int l) as [zs|e'] eqn:E2; simpl in H; [discriminate|].
    injection H as <-. apply IH. reflexivity.
  - injection H as <-. eapply py_int_err; eassumption.
Qed.

Lemma tuple_err : forall s e, version_string_to_tuple s = Err e -> e = ValueError.
Proof. intros s e. apply map_result_err. Qed.

Lemma read_as_fun : forall s t t', read_as s t -> read_as s t' -> t = t'.
Proof.
  intros s t t' H1 H2. apply read_as_model in H1. apply read_as_model in H2. congruence.
Qed.

Lemma asks_fun : forall s a b c a' b' c', asks s a b c -> asks s a' b' c' ->
  a = a' /\ b = b' /\ c = c'.
Proof.
  intros s a b c a' b' c' (t & R & <- & <- & <-) (t' & R' & <- & <- & <-).
  rewrite (read_as_fun _ _ _ R R'). auto.
Qed.

Lemma text3_pad : forall t,
  version_tuple_to_string (firstn 3 t ++ repeat 0 (3 - List.length (firstn 3 t)))
  = text3 (nth 0 t 0) (nth 1 t 0) (nth 2 t 0).
Proof.
  intros [|a [|b [|c t]]]; unfold version_tuple_to_string, text3; reflexivity.
Qed.

Lemma normalize_asks : forall s a b c, asks s a b c -> normalize s = Ok (text3 a b c).
Proof.
  intros s a b c (t & R & <- & <- & <-). apply read_as_model in R.
  unfold normalize. rewrite R. cbv beta iota zeta delta [bind]. rewrite text3_pad. reflexivity.
Qed.

Lemma normalize_cases : forall s,
  (exists a b c, asks s a b c /\ normalize s = Ok (text3 a b c)) \/
  ((forall a b c, ~ asks s a b c) /\ normalize s = Err ValueError).
Proof.
  intro s. destruct (version_string_to_tuple s) as [t|e] eqn:E.
  - left. exists (nth 0 t 0), (nth 1 t 0), (nth 2 t 0).
    assert (A : asks s (nth 0 t 0) (nth 1 t 0) (nth 2 t 0))
      by (exists t; split; [apply read_as_model; exact E|auto]).
    split; [exact A|apply normalize_asks; exact A].
  - right. split.
    + intros a b c (t & R & _). apply read_as_model in R. congruence.
    + unfold normalize. rewrite E. cbn [bind]. rewrite (tuple_err _ _ E). reflexivity.
Qed.

Lemma asks_not_latest : forall s a b c, asks s a b c -> s <> str "latest".
Proof.
  intros s a b c (t & R & _) ->. apply read_as_model in R. vm_compute in R. discriminate.
Qed.

Lemma unlatest : forall s, s <> str "latest" -> pystr_eqb s (str "latest") = false.
Proof. intros s H. apply pystr_eqb_neq. exact H. Qed.

Lemma text3_inj : forall a b c a' b' c', text3 a b c = text3 a' b' c' ->
  a = a' /\ b = b' /\ c = c'.
Proof.
  intros a b c a' b' c' H.
  change (version_tuple_to_string [a; b; c] = version_tuple_to_string [a'; b'; c']) in H.
  pose proof (string_tuple_roundtrip [a; b; c] ltac:(discriminate)) as E1.
  pose proof (string_tuple_roundtrip [a'; b'; c'] ltac:(discriminate)) as E2.
  rewrite H in E1. rewrite E1 in E2. injection E2. auto.
Qed.

Lemma asks_text3 : forall a b c, asks (text3 a b c) a b c.
Proof.
  intros a b c. exists [a; b; c]. split; [|auto]. apply read_as_model.
  exact (string_tuple_roundtrip [a; b; c] ltac:(discriminate)).
Qed.

(** * The latest tag *)

Lemma put_last : forall t acc, (forall u, In u acc -> t_time u <= t_time t) ->
  put_by_time t acc = acc ++ [t].
Proof.
  intros t. induction acc as [|u acc IH]; simpl; intro H; [reflexivity|].
  destruct (Z.ltb_spec (t_time t) (t_time u)).
  - specialize (H u (or_introl eq_refl)). lia.
  - rewrite IH; [reflexivity|]. intros; apply H; auto.
Qed.

Lemma put_keep : forall t acc x, t_time t < t_time x ->
  exists acc', put_by_time t (acc ++ [x]) = acc' ++ [x] /\
    forall u, In u acc' <-> u = t \/ In u acc.
Proof.
  intros t. induction acc as [|u acc IH]; simpl; intros x H.
  - destruct (Z.ltb_spec (t_time t) (t_time x)); [|lia].
    exists [t]. split; [reflexivity|]. simpl. intuition congruence.
  - destruct (Z.ltb_spec (t_time t) (t_time u)).
    + exists (t :: u :: acc). split; [reflexivity|]. simpl. intuition congruence.
    + destruct (IH x H) as (acc' & E & M). exists (u :: acc'). rewrite E.
      split; [reflexivity|]. intro v. simpl. rewrite M. intuition congruence.
Qed.

Lemma sorted_last : forall l, l <> [] ->
  exists acc t, sorted_by_time l = acc ++ [t] /\ most_recent l t /\
    (forall u, In u acc -> t_time u <= t_time t) /\
    (forall u, In u l <-> u = t \/ In u acc).
Proof.
  induction l as [|x l IH] using rev_ind; intro H; [contradiction|].
  unfold sorted_by_time in *. rewrite fold_left_app. cbn [fold_left].
  destruct l as [|y l'].
  - exists [], x. split; [reflexivity|]. split; [|split].
    + exists [], []. split; [reflexivity|]. split; intros u [].
    + intros u [].
    + intro u. simpl. intuition congruence.
  - destruct (IH ltac:(discriminate)) as (acc & t & E & (l1 & l2 & E2 & M1 & M2) & A & I).
    rewrite E. destruct (Z.ltb_spec (t_time x) (t_time t)) as [L|L].
    + destruct (put_keep x acc t L) as (acc' & P & Q). exists acc', t.
      rewrite P. split; [reflexivity|]. split; [|split].
      * exists l1, (l2 ++ [x]). rewrite E2, <- app_assoc. split; [reflexivity|].
        split; [exact M1|]. intros u U. apply in_app_or in U.
        destruct U as [U|[->|[]]]; [apply M2; exact U|exact L].
      * intros u U. apply Q in U. destruct U as [->|U]; [lia|apply A; exact U].
      * intro u. rewrite in_app_iff, I, Q. simpl. intuition congruence.
    + exists (acc ++ [t]), x.
      assert (B : forall u, In u (acc ++ [t]) -> t_time u <= t_time x).
      { intros u U. apply in_app_or in U. destruct U as [U|[<-|[]]]; [|lia].
        specialize (A u U). lia. }
      rewrite put_last by exact B. split; [reflexivity|]. split; [|split].
      * exists (y :: l'), []. split; [reflexivity|]. split; [|intros u []].
        intros u U. apply I in U. apply B. apply in_or_app.
        destruct U as [->|U]; [right; left; reflexivity|left; exact U].
      * exact B.
      * intro u. rewrite !in_app_iff, I. simpl. intuition congruence.
Qed.

Lemma most_recent_le : forall l t u, most_recent l t -> In u l -> t_time u <= t_time t.
Proof.
  intros l t u (l1 & l2 & -> & A & B) U. apply in_app_or in U.
  destruct U as [U|[->|U]]; [apply A; exact U|lia|specialize (B u U); lia].
Qed.

Lemma most_recent_unique : forall l t u, most_recent l t -> most_recent l u -> t = u.
Proof.
  intros l t u (l1 & l2 & E & A & B) (k1 & k2 & F & C & D). subst l.
  revert k1 F A C. induction l1 as [|x l1 IH]; intros [|y k1] F A C; simpl in F.
  - congruence.
  - injection F as -> F. exfalso.
    assert (t_time u < t_time y) by (apply B; rewrite F; apply in_or_app; right; left; reflexivity).
    specialize (C y (or_introl eq_refl)). lia.
  - injection F as -> F. exfalso.
    assert (t_time t < t_time u) by (apply D; rewrite <- F; apply in_or_app; right; left; reflexivity).
    specialize (A u (or_introl eq_refl)). lia.
  - injection F as -> F. eapply IH; [exact F| |].
    + intros; apply A; right; assumption.
    + intros; apply C; right; assumption.
Qed.

Lemma most_recent_exists : forall l, l <> [] -> exists t, most_recent l t.
Proof.
  intros l H. destruct (sorted_last l H) as (_ & t & _ & M & _). exists t. exact M.
Qed.

Lemma resolve_latest : forall l m, most_recent l m -> resolve l (str "latest") = Ok (t_name m).
Proof.
  intros l m M.
  assert (N : l <> []) by (destruct M as (l1 & l2 & -> & _); destruct l1; discriminate).
  destruct (sorted_last l N) as (acc & t & E & M' & _).
  rewrite (most_recent_unique _ _ _ M M'). unfold resolve.
  rewrite pystr_eqb_refl, E, rev_app_distr. reflexivity.
Qed.

Lemma resolve_other : forall l s, s <> str "latest" -> resolve l s = Ok s.
Proof. intros l s H. unfold resolve. rewrite unlatest by exact H. reflexivity. Qed.

(** * Tags *)

Lemma current_tag_some : forall r, at_tag r ->
  exists c, current_tag r = Some c /\ In c (r_tags r) /\ t_commit c = r_head r.
Proof.
  intros r (t & I & E). unfold current_tag.
  destruct (find (fun t => N.eqb (t_commit t) (r_head r)) (r_tags r)) as [c|] eqn:F.
  - exists c. apply find_some in F. destruct F as [F1 F2].
    apply N.eqb_eq in F2. auto.
  - pose proof (find_none _ _ F t I) as G. cbv beta in G. rewrite E, N.eqb_refl in G. discriminate.
Qed.

Lemma current_tag_none : forall r, ~ at_tag r -> current_tag r = None.
Proof.
  intros r H. unfold current_tag.
  destruct (find _ (r_tags r)) as [c|] eqn:F; [|reflexivity].
  apply find_some in F. destruct F as [F1 F2]. apply N.eqb_eq in F2.
  exfalso. apply H. exists c. auto.
Qed.

Lemma current_tag_in : forall r c, current_tag r = Some c ->
  In c (r_tags r) /\ t_commit c = r_head r.
Proof.
  intros r c F. apply find_some in F. destruct F as [F1 F2]. apply N.eqb_eq in F2. auto.
Qed.

Lemma find_first : forall {A} (p : A -> bool) l x, find p l = Some x ->
  exists l1 l2, l = l1 ++ x :: l2 /\ p x = true /\ forall u, In u l1 -> p u = false.
Proof.
  intros A p. induction l as [|y l IH]; simpl; intros x H; [discriminate|].
  destruct (p y) eqn:E.
  - injection H as <-. exists [], l. repeat split; auto. intros u [].
  - destruct (IH x H) as (l1 & l2 & -> & X & Y). exists (y :: l1), l2.
    repeat split; auto. intros u [<-|I]; auto.
Qed.

Lemma same_name : forall l t u, NoDup (map t_name l) -> In t l -> In u l ->
  t_name t = t_name u -> t = u.
Proof.
  induction l as [|x l IH]; simpl; intros t u N I J E; [contradiction|].
  inversion N as [|? ? N1 N2]; subst.
  destruct I as [->|I], J as [->|J]; auto.
  - exfalso. apply N1. rewrite E. apply in_map. exact J.
  - exfalso. apply N1. rewrite <- E. apply in_map. exact I.
Qed.

Lemma same_commit : forall l t u, NoDup (map t_commit l) -> In t l -> In u l ->
  t_commit t = t_commit u -> t = u.
Proof.
  induction l as [|x l IH]; simpl; intros t u N I J E; [contradiction|].
  inversion N as [|? ? N1 N2]; subst.
  destruct I as [->|I], J as [->|J]; auto.
  - exfalso. apply N1. rewrite E. apply in_map. exact J.
  - exfalso. apply N1. rewrite <- E. apply in_map. exact I.
Qed.

Lemma existsb_name : forall l v,
  existsb (fun t => pystr_eqb v (t_name t)) l = true <-> exists k, In k l /\ t_name k = v.
Proof.
  intros l v. rewrite existsb_exists. split; intros (k & I & E); exists k; split; auto.
  - apply pystr_eqb_eq in E. congruence.
  - rewrite E. apply pystr_eqb_refl.
Qed.

Lemma find_name : forall l k, NoDup (map t_name l) -> In k l ->
  find (fun t => pystr_eqb (t_name t) (t_name k)) l = Some k.
Proof.
  intros l k N I. destruct (find _ l) as [c|] eqn:F.
  - apply find_some in F. destruct F as [F1 F2]. apply pystr_eqb_eq in F2.
    f_equal. eapply same_name; eassumption.
  - pose proof (find_none _ _ F k I) as G. cbv beta in G. rewrite pystr_eqb_refl in G. discriminate.
Qed.

(** * One change *)

Section Git.
Variable fetched : repo -> exn + list tag.
Variable refuses : repo -> pystr -> option exn.

Lemma change_done : forall r k vb, names_differ r -> at_tag r -> In k (r_tags r) ->
  refuses r (t_name k) = None ->
  exists ev, change refuses r (t_name k) vb
             = (ev, Repo (r_url r) (r_tags r) (t_commit k), Done).
Proof.
  intros r k vb N A I R. unfold change.
  replace (existsb _ (r_tags r)) with true
    by (symmetry; apply existsb_name; exists k; auto).
  destruct (current_tag_some r A) as (c & -> & C1 & C2).
  destruct (pystr_eqb (t_name k) (t_name c)) eqn:E.
  - apply pystr_eqb_eq in E. pose proof (same_name _ _ _ N I C1 E) as ->.
    eexists. rewrite C2. destruct r; reflexivity.
  - unfold checkout. rewrite R, (find_name _ _ N I). eexists. reflexivity.
Qed.

Lemma change_safe : forall r v vb ev r' o, change refuses r v vb = (ev, r', o) ->
  same_but_head r r' /\
  ((r' = r) \/ (o = Done /\ exists k, In k (r_tags r) /\ t_name k = v /\ r_head r' = t_commit k)).
Proof.
  intros r v vb ev r' o. unfold change, same_but_head.
  destruct (existsb _ _) eqn:X.
  - destruct (current_tag r) as [c|] eqn:C.
    + destruct (pystr_eqb v (t_name c)) eqn:E.
      * intro H. injection H as <- <- <-. auto.
      * unfold checkout. destruct (refuses r v) as [e|].
        -- intro H. injection H as <- <- <-. auto.
        -- destruct (find _ (r_tags r)) as [t|] eqn:F; intro H; injection H as <- <- <-; auto.
           simpl. split; [auto|]. right. split; [reflexivity|]. exists t.
           apply find_some in F. destruct F as [F1 F2]. apply pystr_eqb_eq in F2. auto.
    + intro H. injection H as <- <- <-. auto.
  - intro H. injection H as <- <- <-. auto.
Qed.

Lemma change_done_name : forall r v vb ev r', change refuses r v vb = (ev, r', Done) ->
  exists k, In k (r_tags r) /\ t_name k = v /\ r_head r' = t_commit k.
Proof.
  intros r v vb ev r' H. pose proof (change_safe _ _ _ _ _ _ H) as S. unfold change in H.
  destruct (existsb _ _) eqn:X; [|discriminate].
  destruct (current_tag r) as [c|] eqn:C; [|discriminate].
  destruct (pystr_eqb v (t_name c)) eqn:E.
  - injection H as <- <-. apply pystr_eqb_eq in E. apply current_tag_in in C. exists c.
    intuition congruence.
  - destruct (checkout refuses r v) as [r2|e] eqn:K; [|discriminate]. injection H as <- <-.
    unfold checkout in K. destruct (refuses r v); [discriminate|].
    destruct (find _ (r_tags r)) as [t|] eqn:F; [|discriminate]. injection K as <-.
    apply find_some in F. destruct F as [F1 F2]. apply pystr_eqb_eq in F2. exists t. auto.
Qed.

Lemma change_quiet : forall r v vb,
  snd (fst (change refuses r v vb)) = snd (fst (change refuses r v false)) /\
  snd (change refuses r v vb) = snd (change refuses r v false) /\
  (forall e, In e (fst (fst (change refuses r v false))) -> ~ is_print e) /\
  (forall x, In (CheckedOut x) (fst (fst (change refuses r v vb))) <->
             In (CheckedOut x) (fst (fst (change refuses r v false)))).
Proof.
  intros r v vb. unfold change.
  destruct (existsb _ _); [|simpl; intuition].
  destruct (current_tag r) as [c|]; [|simpl; intuition].
  destruct (pystr_eqb v (t_name c)).
  - destruct vb; simpl; intuition; discriminate.
  - destruct (checkout refuses r v) as [r2|e].
    + destruct vb; cbn [when app fst snd]; (split; [reflexivity|]); (split; [reflexivity|]);
        (split; [intros e' [<-|[]] (s & S); discriminate|]); intro x; simpl;
        intuition (try discriminate).
    + destruct vb; simpl; intuition; discriminate.
Qed.

(** The same change again, with nothing new. *)
Lemma change_again : forall r v vb ev r', change refuses r v vb = (ev, r', Done) ->
  NoDup (map t_commit (r_tags r)) ->
  change refuses r' v vb = (when vb (say_same v), r', Done).
Proof.
  intros r v vb ev r' H N. destruct (change_done_name _ _ _ _ _ H) as (k & I & E & F).
  destruct (change_safe _ _ _ _ _ _ H) as [[U T] _]. unfold change.
  rewrite T.
  replace (existsb _ (r_tags r)) with true
    by (symmetry; apply existsb_name; exists k; auto).
  assert (A : at_tag r') by (exists k; rewrite T; auto).
  destruct (current_tag_some r' A) as (c & -> & C1 & C2). rewrite T in C1.
  assert (c = k) by (eapply same_commit; [exact N| | |]; congruence). subst c.
  rewrite E, pystr_eqb_refl. reflexivity.
Qed.

(** * The whole function *)

(** Events before the choice. *)
Lemma specify_choose : forall r tags want vb, fetched r = inr tags ->
  r_url r = FACTORIO_DATA -> (vb = true -> at_tag (with_tags r tags)) ->
  exists pre, specify fetched refuses r want vb
    = (pre ++ fst (fst (choose refuses (with_tags r tags) want vb)),
       snd (fst (choose refuses (with_tags r tags) want vb)),
       snd (choose refuses (with_tags r tags) want vb)) /\
    (forall e, In e pre -> e = Fetched \/ (vb = true /\ is_print e)).
Proof.
  intros r tags want vb F U A. unfold specify. rewrite F, U, pystr_eqb_refl.
  cbv zeta. rewrite <- U. fold (with_tags r tags).
  destruct (choose refuses (with_tags r tags) want vb) as [[ev r2] o] eqn:C.
  destruct vb.
  - destruct (current_tag_some _ (A eq_refl)) as (c & -> & _).
    exists [Fetched; say_current (t_name c)]. split; [reflexivity|].
    intros e [<-|[<-|[]]]; [auto|]. right. split; [reflexivity|]. eexists; reflexivity.
  - exists [Fetched]. split; [reflexivity|]. intros e [<-|[]]; auto.
Qed.

Lemma choose_asks : forall r want vb a b c, asks want a b c ->
  choose refuses r want vb = change refuses r (text3 a b c) vb.
Proof.
  intros r want vb a b c A. unfold choose.
  rewrite resolve_other by (eapply asks_not_latest; exact A).
  rewrite (normalize_asks _ _ _ _ A). reflexivity.
Qed.

Lemma choose_latest : forall r m vb, most_recent (r_tags r) m ->
  t_name m <> str "latest" ->
  choose refuses r (str "latest") vb = choose refuses r (t_name m) vb.
Proof.
  intros r m vb M N. unfold choose.
  rewrite (resolve_latest _ _ M), resolve_other by exact N. reflexivity.
Qed.

Lemma choose_safe : forall r want vb ev r' o, choose refuses r want vb = (ev, r', o) ->
  same_but_head r r' /\
  (r' = r \/ (o = Done /\ exists k, In k (r_tags r) /\ r_head r' = t_commit k /\
     exists s a b c, (want <> str "latest" /\ s = want \/
                      want = str "latest" /\ exists m, most_recent (r_tags r) m /\ s = t_name m) /\
       asks s a b c /\ t_name k = text3 a b c)).
Proof.
  intros r want vb ev r' o H. unfold choose in H.
  destruct (resolve (r_tags r) want) as [s|e] eqn:R.
  - destruct (normalize_cases s) as [(a & b & c & A & E)|[A E]]; rewrite E in H.
    + destruct (change_safe _ _ _ _ _ _ H) as [S [D|(D & k & I & N & C)]].
      * split; [exact S|left; exact D].
      * split; [exact S|]. right. split; [exact D|]. exists k. repeat split; auto.
        exists s, a, b, c. repeat split; auto.
        unfold resolve in R. destruct (pystr_eqb want (str "latest")) eqn:L.
        -- apply pystr_eqb_eq in L. right. split; [exact L|].
           destruct (most_recent_exists (r_tags r)) as (m & M).
           { destruct (r_tags r); [discriminate|discriminate]. }
           pose proof (resolve_latest _ _ M) as R'. unfold resolve in R'.
           rewrite pystr_eqb_refl in R'. exists m. split; [exact M|congruence].
        -- apply pystr_eqb_neq in L. left. split; [exact L|congruence].
    + injection H as <- <- <-. unfold same_but_head. auto.
  - injection H as <- <- <-. unfold same_but_head. auto.
Qed.

Lemma specify_safe : forall r want vb ev r' o, specify fetched refuses r want vb = (ev, r', o) ->
  (r' = r /\ exists e, fetched r = inl e /\ o = Raised e /\ ev = []) \/
  exists tags, fetched r = inr tags /\ r_url r' = r_url r /\ r_tags r' = tags /\
    (r_head r' = r_head r \/
     (o = Done /\ exists k, In k tags /\ r_head r' = t_commit k /\
       exists s a b c, (want <> str "latest" /\ s = want \/
                        want = str "latest" /\ exists m, most_recent tags m /\ s = t_name m) /\
         asks s a b c /\ t_name k = text3 a b c)).
Proof.
  intros r want vb ev r' o H. unfold specify in H.
  destruct (fetched r) as [e|tags] eqn:F.
  - injection H as <- <- <-. left. split; [reflexivity|]. exists e. auto.
  - right. exists tags. split; [reflexivity|]. cbv zeta in H.
    destruct (choose refuses (Repo (r_url r) tags (r_head r)) want vb) as [[ev2 r2] o2] eqn:C.
    assert (G : (r' = Repo (r_url r) tags (r_head r)) \/ (r' = r2 /\ o = o2)).
    { destruct (pystr_eqb (r_url r) FACTORIO_DATA); [|left; congruence].
      destruct vb; [destruct (current_tag _)|]; try rewrite C in H; try (left; congruence);
        right; split; congruence. }
    destruct G as [->|[-> ->]]; [simpl; auto|].
    destruct (choose_safe _ _ _ _ _ _ C) as [[S1 S2] [->|D]]; simpl in *; [auto|].
    split; [exact S1|]. split; [exact S2|]. right. exact D.
Qed.

Lemma specify_selects : forall r tags want vb a b c k, fetched r = inr tags ->
  r_url r = FACTORIO_DATA -> names_differ (with_tags r tags) -> at_tag (with_tags r tags) ->
  asks want a b c -> In k tags -> t_name k = text3 a b c ->
  refuses (with_tags r tags) (text3 a b c) = None ->
  exists ev, specify fetched refuses r want vb
             = (ev, Repo (r_url r) tags (t_commit k), Done).
Proof.
  intros r tags want vb a b c k F U N A K I E R.
  destruct (specify_choose r tags want vb F U (fun _ => A)) as (pre & -> & _).
  rewrite (choose_asks _ _ _ _ _ _ K). rewrite <- E in *.
  destruct (change_done (with_tags r tags) k vb N A I R) as (ev & ->).
  eexists. reflexivity.
Qed.

Lemma current_tag_first : forall r before c after, r_tags r = before ++ c :: after -> t_commit c = r_head r ->
  (forall u, In u before -> t_commit u <> r_head r) -> current_tag r = Some c.
Proof.
  intros r before c after E C N. unfold current_tag. rewrite E. clear E.
  induction before as [|u l IH]; cbn [app find].
  - rewrite C, N.eqb_refl. reflexivity.
  - destruct (N.eqb_spec (t_commit u) (r_head r)) as [Q|Q]; [destruct (N u (or_introl eq_refl) Q)|].
    apply IH. intros x I. exact (N x (or_intror I)).
Qed.
Lemma specify_lines : forall r tags want a b d k before c after, fetched r = inr tags ->
  r_url r = FACTORIO_DATA -> names_differ (with_tags r tags) ->
  tags = before ++ c :: after -> t_commit c = r_head r -> (forall u, In u before -> t_commit u <> r_head r) ->
  asks want a b d -> In k tags -> t_name k = text3 a b d -> refuses (with_tags r tags) (text3 a b d) = None ->
  (t_name c = text3 a b d ->
   specify fetched refuses r want true =
     ([Fetched; Printed (str "Current Factorio version: " ++ t_name c);
       Printed (str "Desired Factorio version (" ++ text3 a b d ++ str ") already matches current.")],
      with_tags r tags, Done)) /\
  (t_name c <> text3 a b d ->
   specify fetched refuses r want true =
     ([Fetched; Printed (str "Current Factorio version: " ++ t_name c);
       Printed (str "Different Factorio version requested:" ++ [10%N; 9%N] ++ str "(" ++ t_name c ++ str ") -> ("
                ++ text3 a b d ++ str ")");
       CheckedOut (text3 a b d); Printed (str "Changed to Factorio version " ++ text3 a b d ++ [10%N])],
      Repo (r_url r) tags (t_commit k), Done)).
Proof.
  intros r tags want a b d k before c after F U D E C B A I N R.
  assert (CT : current_tag (with_tags r tags) = Some c) by (exact (current_tag_first (with_tags r tags) before c after E C B)).
  assert (S : specify fetched refuses r want true =
    (Fetched :: say_current (t_name c) :: fst (fst (change refuses (with_tags r tags) (text3 a b d) true)),
     snd (fst (change refuses (with_tags r tags) (text3 a b d) true)), snd (change refuses (with_tags r tags) (text3 a b d) true))).
  { unfold specify. rewrite F, U, pystr_eqb_refl. cbv zeta. rewrite <- U. fold (with_tags r tags).
    rewrite CT, (choose_asks _ _ _ _ _ _ A). destruct (change refuses (with_tags r tags) (text3 a b d) true) as [[ev r2] o]. reflexivity. }
  rewrite S. clear S. unfold change. replace (existsb _ (r_tags (with_tags r tags))) with true
    by (symmetry; apply existsb_name; exists k; auto). rewrite CT. split; intro Q.
  - rewrite <- Q, pystr_eqb_refl. reflexivity.
  - destruct (pystr_eqb (text3 a b d) (t_name c)) eqn:P; [apply pystr_eqb_eq in P; congruence|].
    unfold checkout. rewrite R. pose proof (find_name (r_tags (with_tags r tags)) k D I) as FN. rewrite N in FN. rewrite FN. reflexivity.
Qed.

Lemma specify_unknown : forall r tags want vb a b c, fetched r = inr tags ->
  r_url r = FACTORIO_DATA -> (vb = true -> at_tag (with_tags r tags)) ->
  asks want a b c -> (forall k, In k tags -> t_name k <> text3 a b c) ->
  exists ev, specify fetched refuses r want vb
             = (ev, with_tags r tags, Unknown (text3 a b c)).
Proof.
  intros r tags want vb a b c F U A K N.
  destruct (specify_choose r tags want vb F U A) as (pre & -> & _).
  rewrite (choose_asks _ _ _ _ _ _ K). unfold change.
  destruct (existsb _ _) eqn:X.
  - apply existsb_name in X. destruct X as (k & I & E). destruct (N k I E).
  - eexists. reflexivity.
Qed.

Lemma specify_invalid : forall r tags want vb, fetched r = inr tags ->
  r_url r = FACTORIO_DATA -> (vb = true -> at_tag (with_tags r tags)) ->
  want <> str "latest" -> (forall t, ~ read_as want t) ->
  exists ev, specify fetched refuses r want vb = (ev, with_tags r tags, Invalid want).
Proof.
  intros r tags want vb F U A L N.
  destruct (specify_choose r tags want vb F U A) as (pre & -> & _).
  unfold choose. rewrite resolve_other by exact L.
  destruct (normalize_cases want) as [(a & b & c & (t & R & _) & _)|[_ ->]].
  - destruct (N t R).
  - eexists. reflexivity.
Qed.

Lemma specify_foreign : forall r tags want vb, fetched r = inr tags ->
  r_url r <> FACTORIO_DATA ->
  specify fetched refuses r want vb = ([Fetched], with_tags r tags, Raised AssertionError).
Proof.
  intros r tags want vb F U. unfold specify. rewrite F.
  apply pystr_eqb_neq in U. rewrite U. reflexivity.
Qed.

Lemma specify_detached : forall r tags want vb a b c k, fetched r = inr tags ->
  r_url r = FACTORIO_DATA -> ~ at_tag (with_tags r tags) ->
  asks want a b c -> In k tags -> t_name k = text3 a b c ->
  specify fetched refuses r want vb = ([Fetched], with_tags r tags, Raised AttributeError).
Proof.
  intros r tags want vb a b c k F U A K I E. unfold specify. rewrite F, U, pystr_eqb_refl.
  cbv zeta. rewrite <- U. fold (with_tags r tags). rewrite (current_tag_none _ A).
  destruct vb; [reflexivity|]. rewrite (choose_asks _ _ _ _ _ _ K). unfold change.
  replace (existsb _ _) with true by (symmetry; apply existsb_name; exists k; auto).
  rewrite (current_tag_none _ A). reflexivity.
Qed.

Lemma specify_alike : forall r want want' vb a b c, asks want a b c -> asks want' a b c ->
  specify fetched refuses r want vb = specify fetched refuses r want' vb.
Proof.
  intros r want want' vb a b c A A'. unfold specify.
  destruct (fetched r) as [e|tags]; [reflexivity|]. cbv zeta.
  rewrite !(choose_asks _ _ _ _ _ _ A), !(choose_asks _ _ _ _ _ _ A'). reflexivity.
Qed.

Lemma specify_latest : forall r tags m vb, fetched r = inr tags -> most_recent tags m ->
  t_name m <> str "latest" ->
  specify fetched refuses r (str "latest") vb = specify fetched refuses r (t_name m) vb.
Proof.
  intros r tags m vb F M N. unfold specify. rewrite F. cbv zeta.
  rewrite (choose_latest (Repo (r_url r) tags (r_head r)) m vb M N). reflexivity.
Qed.

Lemma choose_quiet : forall r want vb,
  snd (fst (choose refuses r want vb)) = snd (fst (choose refuses r want false)) /\
  snd (choose refuses r want vb) = snd (choose refuses r want false) /\
  (forall e, In e (fst (fst (choose refuses r want false))) -> ~ is_print e) /\
  (forall x, In (CheckedOut x) (fst (fst (choose refuses r want vb))) <->
             In (CheckedOut x) (fst (fst (choose refuses r want false)))).
Proof.
  intros r want vb. unfold choose.
  destruct (resolve (r_tags r) want) as [s|e]; [|simpl; intuition].
  destruct (normalize_cases s) as [(a & b & c & _ & ->)|[_ ->]]; [|simpl; intuition].
  apply change_quiet.
Qed.

Lemma specify_quiet : forall r want ev r' o, specify fetched refuses r want false = (ev, r', o) ->
  forall e, In e ev -> ~ is_print e.
Proof.
  intros r want ev r' o H e I. unfold specify in H.
  destruct (fetched r) as [x|tags]; [injection H as <- <- <-; contradiction|]. cbv zeta in H.
  assert (P : ~ is_print Fetched) by (intros (s & S); discriminate).
  destruct (pystr_eqb (r_url r) FACTORIO_DATA).
  - destruct (choose refuses _ want false) as [[ev2 r2] o2] eqn:C. injection H as <- <- <-.
    destruct I as [<-|I]; [exact P|].
    destruct (choose_quiet (Repo (r_url r) tags (r_head r)) want false) as (_ & _ & Q & _).
    rewrite C in Q. exact (Q e I).
  - injection H as <- <- <-. destruct I as [<-|[]]. exact P.
Qed.

Lemma specify_verbose : forall r tags want ev r' o ev2 r2 o2,
  fetched r = inr tags -> at_tag (with_tags r tags) ->
  specify fetched refuses r want false = (ev, r', o) ->
  specify fetched refuses r want true = (ev2, r2, o2) ->
  r2 = r' /\ o2 = o /\ forall v, In (CheckedOut v) ev2 <-> In (CheckedOut v) ev.
Proof.
  intros r tags want ev r' o ev2 r2 o2 F A H1 H2.
  destruct (pystr_eqb (r_url r) FACTORIO_DATA) eqn:U.
  - apply pystr_eqb_eq in U.
    destruct (specify_choose r tags want false F U (fun _ => A)) as (p1 & E1 & P1).
    destruct (specify_choose r tags want true F U (fun _ => A)) as (p2 & E2 & P2).
    rewrite E1 in H1. rewrite E2 in H2. injection H1 as <- <- <-. injection H2 as <- <- <-.
    destruct (choose_quiet (with_tags r tags) want true) as (Q1 & Q2 & _ & Q4).
    split; [exact Q1|]. split; [exact Q2|]. intro v. rewrite !in_app_iff, Q4.
    assert (X1 : ~ In (CheckedOut v) p1).
    { intro I. destruct (P1 _ I) as [D|[_ (s & D)]]; discriminate. }
    assert (X2 : ~ In (CheckedOut v) p2).
    { intro I. destruct (P2 _ I) as [D|[_ (s & D)]]; discriminate. }
    tauto.
  - apply pystr_eqb_neq in U. rewrite (specify_foreign _ _ _ false F U) in H1. rewrite (specify_foreign _ _ _ true F U) in H2.
    injection H1 as <- <- <-. injection H2 as <- <- <-. intuition.
Qed.

Lemma specify_checkout : forall r want vb ev r' o v,
  specify fetched refuses r want vb = (ev, r', o) -> In (CheckedOut v) ev ->
  o = Done /\ exists k, In k (r_tags r') /\ t_name k = v /\ r_head r' = t_commit k.
Proof.
  intros r want vb ev r' o v H I. unfold specify in H.
  destruct (fetched r) as [x|tags]; [injection H as <- <- <-; contradiction|]. cbv zeta in H.
  destruct (choose refuses (Repo (r_url r) tags (r_head r)) want vb) as [[ev2 r2] o2] eqn:C.
  assert (G : r' = r2 /\ o = o2 /\ In (CheckedOut v) ev2).
  { destruct (pystr_eqb (r_url r) FACTORIO_DATA).
    - destruct vb; [destruct (current_tag _) as [c|]|]; try rewrite C in H; injection H as <- <- <-;
        simpl in I; intuition discriminate.
    - injection H as <- <- <-. simpl in I. intuition discriminate. }
  destruct G as (-> & -> & J). unfold choose in C.
  destruct (resolve _ want) as [s|e]; [|injection C as <- <- <-; contradiction].
  destruct (normalize_cases s) as [(a & b & c & _ & E)|[_ E]]; rewrite E in C;
    [|injection C as <- <- <-; contradiction].
  unfold change in C. simpl r_tags in C.
  destruct (existsb _ _); [|injection C as <- <- <-; contradiction].
  destruct (current_tag _) as [t|]; [|injection C as <- <- <-; contradiction].
  destruct (pystr_eqb (text3 a b c) (t_name t)).
  - injection C as <- <- <-. destruct vb; simpl in J; intuition discriminate.
  - destruct (checkout refuses _ (text3 a b c)) as [r3|e] eqn:K.
    + injection C as <- <- <-. split; [reflexivity|].
      assert (v = text3 a b c) as ->.
      { destruct vb; simpl in J; unfold say_change, say_changed in J;
          intuition (try discriminate); congruence. }
      unfold checkout in K. destruct (refuses _ _); [discriminate|].
      destruct (find _ _) as [t'|] eqn:Y; [|discriminate]. injection K as <-.
      apply find_some in Y. destruct Y as [Y1 Y2]. apply pystr_eqb_eq in Y2. exists t'. auto.
    + injection C as <- <- <-. destruct vb; simpl in J; intuition discriminate.
Qed.

Lemma specify_again : forall r want vb ev r', specify fetched refuses r want vb = (ev, r', Done) ->
  fetched r' = inr (r_tags r') -> NoDup (map t_commit (r_tags r')) ->
  exists ev', specify fetched refuses r' want vb = (ev', r', Done) /\
    forall v, ~ In (CheckedOut v) ev'.
Proof.
  intros r want vb ev r' H F' N. unfold specify in H.
  destruct (fetched r) as [x|tags] eqn:F; [discriminate|]. cbv zeta in H.
  destruct (pystr_eqb (r_url r) FACTORIO_DATA) eqn:U; [|discriminate].
  set (r1 := Repo (r_url r) tags (r_head r)) in *.
  assert (G : exists ev2, choose refuses r1 want vb = (ev2, r', Done)).
  { destruct (choose refuses r1 want vb) as [[ev2 r2] o2] eqn:C.
    destruct vb; [destruct (current_tag r1); [|discriminate]|];
      try rewrite C in H; injection H as <- <- <-; eexists; reflexivity. }
  destruct G as (ev2 & C). pose proof (choose_safe _ _ _ _ _ _ C) as [[S1 S2] _].
  unfold choose in C. destruct (resolve (r_tags r1) want) as [s|e] eqn:R; [|discriminate].
  destruct (normalize_cases s) as [(a & b & c & _ & E)|[_ E]]; rewrite E in C; [|discriminate].
  assert (N1 : NoDup (map t_commit (r_tags r1))) by (rewrite <- S2; exact N).
  pose proof (change_again _ _ _ _ _ C N1) as C'.
  assert (D : choose refuses r' want vb = (when vb (say_same (text3 a b c)), r', Done)).
  { unfold choose. rewrite S2, R, E. exact C'. }
  destruct (change_done_name _ _ _ _ _ C) as (k & K1 & K2 & K3).
  assert (A : at_tag r') by (exists k; rewrite S2; auto).
  assert (W : with_tags r' (r_tags r') = r') by (destruct r'; reflexivity).
  destruct (specify_choose r' (r_tags r') want vb F') as (pre & -> & P).
  - rewrite S1. apply pystr_eqb_eq. exact U.
  - intros _. rewrite W. exact A.
  - rewrite W, D. cbn [fst snd]. eexists. split; [reflexivity|].
    intros v I. apply in_app_or in I. destruct I as [I|I].
    + destruct (P _ I) as [X|[_ (s' & X)]]; discriminate.
    + destruct vb; simpl in I; intuition discriminate.
Qed.

Lemma report_says : forall r tags, fetched r = inr tags -> r_url r = FACTORIO_DATA ->
  exists line, report fetched r = ([Fetched; Printed (str "Factorio " ++ line)], with_tags r tags, Done) /\
    (at_tag (with_tags r tags) ->
       exists l1 t l2, tags = l1 ++ t :: l2 /\ t_commit t = r_head r /\ line = t_name t /\
         forall u, In u l1 -> t_commit u <> r_head r) /\
    (~ at_tag (with_tags r tags) -> line = str "None").
Proof.
  intros r tags F U. unfold report. rewrite F, U, pystr_eqb_refl. cbv zeta. rewrite <- U.
  fold (with_tags r tags). eexists. split; [reflexivity|]. split.
  - intro A. destruct (current_tag_some _ A) as (c & E & _ & C). rewrite E.
    destruct (find_first _ _ _ E) as (l1 & l2 & T & X & Y). simpl in T, X, Y.
    exists l1, c, l2. repeat split; auto.
    intros u I. specialize (Y u I). apply N.eqb_neq. exact Y.
  - intro A. rewrite (current_tag_none _ A). reflexivity.
Qed.

Lemma report_after : forall r want vb ev r' a b c,
  specify fetched refuses r want vb = (ev, r', Done) -> asks want a b c ->
  fetched r' = inr (r_tags r') -> NoDup (map t_commit (r_tags r')) ->
  report fetched r' = ([Fetched; Printed (str "Factorio " ++ text3 a b c)], r', Done).
Proof.
  intros r want vb ev r' a b c H K F' N. unfold specify in H.
  destruct (fetched r) as [x|tags] eqn:F; [discriminate|]. cbv zeta in H.
  destruct (pystr_eqb (r_url r) FACTORIO_DATA) eqn:U; [|discriminate].
  set (r1 := Repo (r_url r) tags (r_head r)) in *.
  assert (G : exists ev2, choose refuses r1 want vb = (ev2, r', Done)).
  { destruct (choose refuses r1 want vb) as [[ev2 r2] o2] eqn:C.
    destruct vb; [destruct (current_tag r1); [|discriminate]|];
      try rewrite C in H; injection H as <- <- <-; eexists; reflexivity. }
  destruct G as (ev2 & C). rewrite (choose_asks _ _ _ _ _ _ K) in C.
  destruct (change_done_name _ _ _ _ _ C) as (k & K1 & K2 & K3).
  destruct (change_safe _ _ _ _ _ _ C) as [[S1 S2] _].
  assert (A : at_tag r') by (exists k; rewrite S2; auto).
  unfold report. rewrite F'. cbv zeta.
  assert (W : Repo (r_url r') (r_tags r') (r_head r') = r') by (destruct r'; reflexivity).
  rewrite W. rewrite S1. change (r_url r1) with (r_url r). rewrite U.
  destruct (current_tag_some _ A) as (t & -> & T1 & T2).
  assert (t = k) by (eapply same_commit; [exact N|exact T1|rewrite S2; exact K1|congruence]).
  subst t. rewrite K2. reflexivity.
Qed.

End Git.

(** * The version file *)

Lemma count_dots_app : forall a b, count_dots (a ++ b) = (count_dots a + count_dots b)%nat.
Proof. intros a b. unfold count_dots. rewrite filter_app, app_length. reflexivity. Qed.

Lemma count_no_dots : forall w, ~ In 46%N w -> count_dots w = O.
Proof.
  induction w as [|c w IH]; intro H; [reflexivity|].
  unfold count_dots in *. cbn [filter].
  destruct (N.eqb_spec DOT c) as [E|E].
  - exfalso. apply H. left. symmetry. exact E.
  - apply IH. intro I. apply H. right. exact I.
Qed.

Lemma count_dotted : forall s ws, dotted s ws -> S (count_dots s) = List.length ws.
Proof.
  intros s ws H. induction H as [w N|w s ws N H IH].
  - rewrite count_no_dots by exact N. reflexivity.
  - rewrite count_dots_app, count_no_dots by exact N. simpl. rewrite <- IH. reflexivity.
Qed.

Lemma dotted_app : forall s ws w, dotted s ws -> ~ In 46%N w -> dotted (s ++ 46%N :: w) (ws ++ [w]).
Proof.
  intros s ws w H. induction H as [v N|v s ws N H IH]; intro W.
  - apply dotted_more; [exact N|apply dotted_one; exact W].
  - rewrite <- app_assoc. simpl. apply dotted_more; [exact N|apply IH; exact W].
Qed.

Lemma read_as_zero : forall s t, read_as s t -> read_as (s ++ str ".0") (t ++ [0]).
Proof.
  intros s t (ws & D & F). exists (ws ++ [[48%N]]). split.
  - apply (dotted_app _ _ [48%N] D). simpl. intuition discriminate.
  - apply Forall2_app; [exact F|]. constructor; [reflexivity|constructor].
Qed.

Lemma read_as_length : forall s t, read_as s t -> List.length t = S (count_dots s).
Proof.
  intros s t (ws & D & F). rewrite (count_dotted _ _ D). clear D.
  induction F; simpl; congruence.
Qed.

Lemma data_version_spec : forall v t, read_as v t ->
  data_version v = Ok (if Nat.eqb (List.length t) 3 then (v ++ str ".0", t ++ [0]) else (v, t)).
Proof.
  intros v t R. unfold data_version. rewrite (read_as_length _ _ R). cbv zeta.
  cbn [Nat.eqb]. destruct (Nat.eqb (count_dots v) 2) eqn:E.
  - pose proof (proj2 (read_as_model _ _) (read_as_zero _ _ R)) as M. rewrite M.
    reflexivity.
  - pose proof (proj2 (read_as_model _ _) R) as M. rewrite M. reflexivity.
Qed.

Lemma dotted_app_inv : forall s ws, dotted s ws -> forall v, s = v ++ str ".0" ->
  exists us, ws = us ++ [[48%N]] /\ dotted v us.
Proof.
  intros s ws H. induction H as [w N|w s ws N H IH]; intros v E.
  - exfalso. apply N. rewrite E. apply in_or_app. right. left. reflexivity.
  - revert w N E. induction v as [|c v IHv]; intros w N E.
    + simpl in E. destruct w as [|x w].
      * injection E as ->. exists [[]].
        inversion H as [w' N' E1|w' s' ws' N' H' E1]; subst.
        -- split; [reflexivity|]. apply dotted_one. auto.
        -- exfalso. destruct w' as [|y w']; [discriminate|].
           injection E1 as -> E1. destruct w'; discriminate.
      * exfalso. injection E as -> _. apply N. left. reflexivity.
    + destruct w as [|x w].
      * simpl in E. injection E as <- E. destruct (IH v E) as (us & -> & D).
        exists ([] :: us). split; [reflexivity|]. exact (dotted_more [] v us (fun h => h) D).
      * simpl in E. injection E as -> E.
        destruct (IHv w) as (us & E2 & D).
        { intro I. apply N. right. exact I. } { exact E. }
        destruct us as [|u us]; [inversion D|]. injection E2 as <- ->.
        exists ((c :: w) :: us). split; [reflexivity|].
        apply dotted_cons; [|exact D]. intros ->. apply N. left. reflexivity.
Qed.

Lemma data_version_bad : forall v, (forall t, ~ read_as v t) -> data_version v = Err ValueError.
Proof.
  intros v N. unfold data_version. cbv zeta.
  set (v' := if Nat.eqb (count_dots v) 2 then v ++ str ".0" else v).
  destruct (version_string_to_tuple v') as [t|e] eqn:E.
  - exfalso. apply read_as_model in E. unfold v' in E.
    destruct (Nat.eqb (count_dots v) 2); [|exact (N t E)].
    destruct E as (ws & D & F). destruct (dotted_app_inv _ _ D v eq_refl) as (us & -> & D').
    apply Forall2_app_inv_l in F. destruct F as (t1 & t2 & F1 & _ & ->).
    apply (N t1). exists us. auto.
  - cbn [bind]. rewrite (tuple_err _ _ E). reflexivity.
Qed.

(** ** Characters of a version *)

Lemma lstrip_in : forall s c, In c s -> In c (lstrip s) \/ is_space c = true.
Proof.
  induction s as [|x s IH]; simpl; intros c I; [contradiction|].
  destruct (is_space x) eqn:E.
  - destruct I as [->|I]; [right; exact E|apply IH; exact I].
  - left. exact I.
Qed.

Lemma strip_in : forall s c, In c s -> In c (strip s) \/ is_space c = true.
Proof.
  intros s c I. unfold strip. destruct (lstrip_in _ _ I) as [J|J]; [|right; exact J].
  apply in_rev in J. destruct (lstrip_in _ _ J) as [K|K]; [|right; exact K].
  left. apply in_rev in K. exact K.
Qed.

Lemma digits_in : forall s b acc z c, digits_val b acc s = Some z -> In c s ->
  is_digit c = true \/ c = 95%N.
Proof.
  induction s as [|x s IH]; simpl; intros b acc z c H I; [contradiction|].
  destruct (is_digit x) eqn:E.
  - destruct I as [->|I]; [left; exact E|eapply IH; eassumption].
  - destruct (N.eqb x 95 && b) eqn:E2; [|discriminate].
    apply andb_true_iff in E2. destruct E2 as [E2 _]. apply N.eqb_eq in E2.
    destruct I as [->|I]; [right; exact E2|eapply IH; eassumption].
Qed.

Lemma py_int_chars : forall s z c, py_int s = Ok z -> In c s ->
  is_space c = true \/ is_digit c = true \/ c = 95%N \/ c = 43%N \/ c = 45%N.
Proof.
  intros s z c H I. destruct (strip_in _ _ I) as [J|J]; [|left; exact J]. right.
  unfold py_int in H. destruct (strip s) as [|x s']; [discriminate|]. cbv zeta in H.
  destruct (N.eqb_spec x 43) as [->|_].
  - destruct (digits_val false 0 s') as [y|] eqn:D; [|discriminate].
    destruct J as [<-|J]; [auto|]. destruct (digits_in _ _ _ _ _ D J); auto.
  - destruct (N.eqb_spec x 45) as [->|_].
    + destruct (digits_val false 0 s') as [y|] eqn:D; [|discriminate].
      destruct J as [<-|J]; [auto|]. destruct (digits_in _ _ _ _ _ D J); auto.
    + destruct (digits_val false 0 (x :: s')) as [y|] eqn:D; [|discriminate].
      destruct (digits_in _ _ _ _ _ D J); auto.
Qed.

Lemma dotted_chars : forall s ws c, dotted s ws -> In c s ->
  c = 46%N \/ exists w, In w ws /\ In c w.
Proof.
  intros s ws c H. induction H as [w N|w s ws N H IH]; intro I.
  - right. exists w. split; [left; reflexivity|exact I].
  - apply in_app_or in I. destruct I as [I|[<-|I]].
    + right. exists w. split; [left; reflexivity|exact I].
    + left. reflexivity.
    + destruct (IH I) as [->|(v & V & J)]; [left; reflexivity|].
      right. exists v. split; [right; exact V|exact J].
Qed.

Lemma Forall2_In_l : forall {A B} (P : A -> B -> Prop) l m x, Forall2 P l m -> In x l ->
  exists y, P x y.
Proof.
  intros A B P l m x F. induction F; intros []; [subst; eexists; eassumption|auto].
Qed.

Lemma version_chars : forall s t c, read_as s t -> In c s ->
  c <> 34%N /\ c <> 92%N /\ c <> 40%N.
Proof.
  intros s t c (ws & D & F) I.
  destruct (dotted_chars _ _ _ D I) as [->|(w & W & J)]; [repeat split; discriminate|].
  destruct (Forall2_In_l _ _ _ _ F W) as (z & Z').
  destruct (py_int_chars _ _ _ Z' J) as [K|[K|[->|[->| ->]]]];
    try (repeat split; discriminate);
    repeat split; intros ->; discriminate.
Qed.

(** ** The tuple *)

Lemma int_str_chars : forall z c, In c (int_str z) -> is_digit c = true \/ c = 45%N.
Proof.
  intros z c. unfold int_str.
  assert (A : forall n, In c (nat_str n) -> is_digit c = true).
  { intros n I. pose proof (nat_str_spec n) as N. destruct N as (_ & N).
    destruct N as (N & _). exact (proj1 (Forall_forall _ _) N c I). }
  destruct (z <? 0); [intros [<-|I]|intro I]; auto; left; eapply A; exact I.
Qed.

Lemma int_str_not : forall z c, is_digit c = false -> c <> 45%N -> ~ In c (int_str z).
Proof.
  intros z c D M I. destruct (int_str_chars _ _ I); congruence.
Qed.

Lemma py_int_space : forall s, py_int (32%N :: s) = py_int s.
Proof. reflexivity. Qed.

Lemma join_in : forall sep l c, In c (join_with sep l) -> In c sep \/ exists w, In w l /\ In c w.
Proof.
  intros sep. induction l as [|w l IH]; [intros c []|].
  intros c I. destruct l as [|v l].
  - right. exists w. split; [left; reflexivity|exact I].
  - change (In c (w ++ sep ++ join_with sep (v :: l))) in I.
    apply in_app_or in I. destruct I as [I|I].
    + right. exists w. split; [left; reflexivity|exact I].
    + apply in_app_or in I. destruct I as [I|I]; [left; exact I|].
      destruct (IH _ I) as [J|(u & U & J)]; [left; exact J|].
      right. exists u. split; [right; exact U|exact J].
Qed.

Definition spaced (l : list pystr) : list pystr :=
  match l with [] => [] | w :: l' => w :: map (cons 32%N) l' end.

Lemma join_spaced : forall l, join_with [44%N; 32%N] l = join_with [44%N] (spaced l).
Proof.
  intros [|w l]; [reflexivity|]. simpl spaced. revert w.
  induction l as [|v l IH]; intro w; [reflexivity|].
  change (w ++ [44%N; 32%N] ++ join_with [44%N; 32%N] (v :: l)
          = w ++ [44%N] ++ join_with [44%N] ((32%N :: v) :: map (cons 32%N) l)).
  rewrite IH. f_equal. destruct l as [|x l]; reflexivity.
Qed.

Lemma spaced_ints : forall t, Forall2 (fun w z => py_int w = Ok z) (spaced (map int_str t)) t.
Proof.
  intros [|x t]; simpl; constructor; [apply py_int_int_str|].
  induction t; simpl; constructor; [|assumption].
  rewrite py_int_space. apply py_int_int_str.
Qed.

Lemma spaced_commas : forall t, Forall (fun w => ~ In 44%N w) (spaced (map int_str t)).
Proof.
  assert (A : forall z, ~ In 44%N (int_str z)).
  { intro z. apply int_str_not; [reflexivity|discriminate]. }
  intros [|x t]; simpl; constructor; [apply A|].
  induction t; simpl; constructor; [|assumption].
  intros [E|I]; [discriminate|exact (A _ I)].
Qed.

Lemma tuple_str_shape : forall t, exists inner,
  tuple_str t = [40%N] ++ inner ++ [41%N] /\ ~ In 41%N inner /\
  exists ws, inner = join_with [44%N] ws /\ Forall (fun w => ~ In 44%N w) ws /\
    (Forall2 (fun w z => py_int w = Ok z) ws t \/
     exists x w, t = [x] /\ ws = [w; []] /\ py_int w = Ok x).
Proof.
  assert (A : forall z, ~ In 44%N (int_str z)).
  { intro z. apply int_str_not; [reflexivity|discriminate]. }
  assert (P : forall z, ~ In 41%N (int_str z)).
  { intro z. apply int_str_not; [reflexivity|discriminate]. }
  intro t.
  assert (G : exists inner,
    str "(" ++ join_with (str ", ") (map int_str t) ++ str ")" = [40%N] ++ inner ++ [41%N] /\
    ~ In 41%N inner /\
    exists ws, inner = join_with [44%N] ws /\ Forall (fun w => ~ In 44%N w) ws /\
    Forall2 (fun w z => py_int w = Ok z) ws t).
  { exists (join_with [44%N; 32%N] (map int_str t)). split; [reflexivity|]. split.
    - intro I. destruct (join_in _ _ _ I) as [[E|[E|[]]]|(w & W & J)]; try discriminate.
      apply in_map_iff in W. destruct W as (z & <- & _). exact (P z J).
    - exists (spaced (map int_str t)). split; [apply join_spaced|].
      split; [apply spaced_commas|apply spaced_ints]. }
  destruct t as [|x [|y t]].
  - destruct G as (i & G1 & G2 & ws & G3 & G4 & G5). exists i. split; [exact G1|].
    split; [exact G2|]. exists ws. auto.
  - exists (int_str x ++ [44%N]). split; [|split].
    + unfold tuple_str. rewrite <- !app_assoc. reflexivity.
    + intro I. apply in_app_or in I. destruct I as [I|[E|[]]]; [exact (P x I)|discriminate].
    + exists [int_str x; []]. split; [reflexivity|]. split.
      * constructor; [apply A|]. constructor; [intros []|constructor].
      * right. exists x, (int_str x). repeat split. apply py_int_int_str.
  - destruct G as (i & G1 & G2 & ws & G3 & G4 & G5). exists i. split; [exact G1|].
    split; [exact G2|]. exists ws. auto.
Qed.

Lemma version_text_holds : forall v t, read_as v t -> holds_version (version_text v t) v t.
Proof.
  intros v t R. destruct (tuple_str_shape t) as (inner & E & N & W).
  exists (str "# _factorio_version.py" ++ [10%N; 10%N] ++ str "__factorio_version__ = "),
    ([10%N] ++ str "__factorio_version_info__ = "), inner, [10%N].
  split.
  - unfold version_text. rewrite E, <- !app_assoc. reflexivity.
  - assert (V : forall c, In c v -> c <> 34%N /\ c <> 92%N /\ c <> 40%N)
      by (intros c; apply version_chars with (t := t); exact R).
    repeat split; try (intro I; destruct (V _ I) as (? & ? & ?); congruence);
      try exact N; try exact W;
      vm_compute; intuition discriminate.
Qed.

(** * Writing the files *)

Lemma write_same : forall f n c, write f n c n = Some c.
Proof. intros. unfold write. rewrite pystr_eqb_refl. reflexivity. Qed.

Lemma write_other : forall f n c m, m <> n -> write f n c m = f m.
Proof. intros f n c m H. unfold write. apply pystr_eqb_neq in H. rewrite H. reflexivity. Qed.

Section Update.
Variable lifecycle : result unit.
Variable extract : pystr -> result pystr.
Variable items : result unit.

Lemma write_all_spec : forall names f g res, NoDup names ->
  write_all extract f names = (g, res) ->
  exists done rest, names = done ++ rest /\
    (forall n, In n done -> exists c, extract n = Ok c /\ g n = Some c) /\
    (forall n, ~ In n done -> g n = f n) /\
    ((res = Ok tt /\ rest = []) \/
     exists n rest' e, rest = n :: rest' /\ extract n = Err e /\ res = Err e).
Proof.
  induction names as [|n names IH]; simpl; intros f g res N H.
  - injection H as <- <-. exists [], []. repeat split; auto. intros n [].
  - inversion N as [|? ? N1 N2]; subst. destruct (extract n) as [c|e] eqn:E.
    + destruct (IH _ _ _ N2 H) as (done & rest & -> & D & O & T).
      exists (n :: done), rest. split; [reflexivity|]. split; [|split; [|exact T]].
      * intros m [<-|I]; [|apply D; exact I]. exists c. split; [exact E|].
        rewrite O; [apply write_same|]. intro I. apply N1. apply in_or_app. auto.
      * intros m M. rewrite O by (intro I; apply M; right; exact I).
        apply write_other. intros ->. apply M. left. reflexivity.
    + injection H as <- <-. exists [], (n :: names). split; [reflexivity|].
      split; [intros m []|]. split; [auto|]. right. exists n, names, e. auto.
Qed.

Lemma data_files_nodup : NoDup DATA_FILES.
Proof.
  unfold DATA_FILES. simpl map.
  repeat (constructor; [simpl; intro H; repeat (destruct H as [H|H]; [discriminate|]); exact H|]).
  constructor.
Qed.

Lemma version_file_not_data : ~ In VERSION_FILE DATA_FILES.
Proof. simpl. intro H. repeat (destruct H as [H|H]; [discriminate|]). exact H. Qed.

Lemma nodup_parts : forall {A} n (l : list A), NoDup l -> NoDup (firstn n l) /\ NoDup (skipn n l).
Proof.
  intros A n l H. rewrite <- (firstn_skipn n l) in H. split.
  - revert H. generalize (firstn n l) (skipn n l). induction l0; intros k H; constructor;
      inversion H; subst; [intro I; apply H2; apply in_or_app; auto|eapply IHl0; eassumption].
  - revert H. generalize (firstn n l) (skipn n l). induction l0; intros k H; [exact H|].
    inversion H; subst. apply IHl0. assumption.
Qed.

Lemma extract_data_spec : forall f g res, extract_data extract items f = (g, res) ->
  exists done rest, DATA_FILES = done ++ rest /\
    (forall n, In n done -> exists c, extract n = Ok c /\ g n = Some c) /\
    (forall n, ~ In n done -> g n = f n) /\
    ((res = Ok tt /\ rest = []) \/ (exists e, res = Err e /\ rest <> [])).
Proof.
  intros f g res H. unfold extract_data in H.
  destruct (nodup_parts 1 _ data_files_nodup) as [N1 N2].
  destruct (write_all extract f (firstn 1 DATA_FILES)) as [f1 r1] eqn:W1.
  destruct (write_all_spec _ _ _ _ N1 W1) as (d1 & t1 & E1 & D1 & O1 & T1).
  destruct T1 as [[-> ->]|(n & rest' & e & -> & X & ->)].
  - rewrite app_nil_r in E1. destruct items as [[]|e].
    + destruct (write_all_spec _ _ _ _ N2 H) as (d2 & t2 & E2 & D2 & O2 & T2).
      exists (d1 ++ d2), t2. split; [|split; [|split]].
      * rewrite <- app_assoc, <- E2, <- E1. symmetry. apply firstn_skipn.
      * intros m I. destruct (in_dec (list_eq_dec N.eq_dec) m d2) as [J|J]; [apply D2; exact J|].
        apply in_app_or in I. destruct I as [I|I]; [|contradiction].
        destruct (D1 m I) as (c & C1 & C2). exists c. split; [exact C1|].
        rewrite O2 by exact J. exact C2.
      * intros m M. rewrite O2, O1; [reflexivity| |]; intro I; apply M; apply in_or_app; auto.
      * destruct T2 as [T2|(n & rest' & e & -> & _ & ->)]; [left; exact T2|].
        right. exists e. split; [reflexivity|discriminate].
    + injection H as <- <-. exists d1, (skipn 1 DATA_FILES). split; [|split; [|split]].
      * rewrite <- E1. symmetry. apply firstn_skipn.
      * exact D1.
      * exact O1.
      * right. exists e. split; [reflexivity|discriminate].
  - injection H as <- <-. exists d1, ((n :: rest') ++ skipn 1 DATA_FILES). split; [|split; [|split]].
    + rewrite app_assoc, <- E1. symmetry. apply firstn_skipn.
    + exact D1.
    + exact O1.
    + right. exists e. split; [reflexivity|discriminate].
Qed.

Lemma update_spec : forall f v t v' t' g res, lifecycle = Ok tt -> read_as v t ->
  data_version v = Ok (v', t') ->
  update lifecycle extract items f v = (g, res) ->
  g VERSION_FILE = Some (version_text v' t') /\
  exists done rest, DATA_FILES = done ++ rest /\
    (forall n, In n done -> exists c, extract n = Ok c /\ g n = Some c) /\
    (forall n, ~ In n done -> n <> VERSION_FILE -> g n = f n) /\
    ((res = Ok tt /\ rest = []) \/ (exists e, res = Err e /\ rest <> [])).
Proof.
  intros f v t v' t' g res L R V H. unfold update in H. rewrite L, V in H.
  destruct (extract_data_spec _ _ _ H) as (done & rest & E & D & O & T). split.
  - rewrite O; [apply write_same|]. intro I. apply version_file_not_data. rewrite E.
    apply in_or_app. auto.
  - exists done, rest. repeat split; auto. intros n N M. rewrite O by exact N.
    apply write_other. exact M.
Qed.

Lemma update_ok : forall f v t v' t', lifecycle = Ok tt -> items = Ok tt -> read_as v t ->
  data_version v = Ok (v', t') ->
  (forall n, In n DATA_FILES -> exists c, extract n = Ok c) ->
  snd (update lifecycle extract items f v) = Ok tt.
Proof.
  intros f v t v' t' L I R V H. unfold update. rewrite L, V. unfold extract_data.
  assert (A : forall names g, (forall n, In n names -> exists c, extract n = Ok c) ->
    exists g', write_all extract g names = (g', Ok tt)).
  { induction names as [|n names IH]; intros g G; simpl; [eexists; reflexivity|].
    destruct (G n (or_introl eq_refl)) as (c & ->). apply IH. intros; apply G; right; assumption. }
  rewrite <- (firstn_skipn 1 DATA_FILES) in H.
  destruct (A (firstn 1 DATA_FILES) (write f VERSION_FILE (version_text v' t'))) as (f1 & ->).
  { intros n J. apply H. apply in_or_app. auto. }
  rewrite I. destruct (A (skipn 1 DATA_FILES) f1) as (f2 & ->).
  { intros n J. apply H. apply in_or_app. auto. }
  reflexivity.
Qed.

Lemma update_early : forall f v, (exists e, lifecycle = Err e) \/ (forall t, ~ read_as v t) ->
  exists e, update lifecycle extract items f v = (f, Err e).
Proof.
  intros f v H. unfold update. destruct lifecycle as [[]|e]; [|eexists; reflexivity].
  destruct H as [(e & E)|H]; [discriminate|]. rewrite (data_version_bad _ H).
  eexists. reflexivity.
Qed.
End Update.

(** * Settings *)

Lemma show_types_spec : forall d types blocks,
  Forall2 (fun kh l => lookup d (fst kh) = Some l) types blocks ->
  show_types d types = (concat (map (fun x => block (snd (fst x)) (snd x)) (combine types blocks)), Ok tt).
Proof.
  intros d types blocks H. induction H as [|[k h] l types blocks E H IH]; [reflexivity|].
  simpl in *. rewrite E. destruct l as [|x l]; [exact IH|]. rewrite IH. reflexivity.
Qed.

Lemma show_settings_spec : forall d a b c,
  lookup d (str "startup") = Some a -> lookup d (str "runtime-global") = Some b ->
  lookup d (str "runtime-per-user") = Some c ->
  show_settings d = (block (str "STARTUP:") a ++ block (str "RUNTIME-GLOBAL:") b
                     ++ block (str "RUNTIME-PER-USER:") c, Ok tt).
Proof.
  intros d a b c A B C. unfold show_settings.
  rewrite (show_types_spec d SETTING_TYPES [a; b; c]).
  - simpl. rewrite app_nil_r. reflexivity.
  - repeat (constructor; [assumption|]). constructor.
Qed.

Lemma show_settings_missing : forall d,
  (lookup d (str "startup") = None -> show_settings d = ([], Err KeyError)) /\
  (forall a, lookup d (str "startup") = Some a -> lookup d (str "runtime-global") = None ->
     show_settings d = (block (str "STARTUP:") a, Err KeyError)) /\
  (forall a b, lookup d (str "startup") = Some a -> lookup d (str "runtime-global") = Some b ->
     lookup d (str "runtime-per-user") = None ->
     show_settings d = (block (str "STARTUP:") a ++ block (str "RUNTIME-GLOBAL:") b, Err KeyError)).
Proof.
  intros d. unfold show_settings, SETTING_TYPES. cbn [show_types].
  split; [|split].
  - intros ->. reflexivity.
  - intros a -> ->. destruct a; cbn; rewrite ?app_nil_r; reflexivity.
  - intros a b -> -> ->. destruct a, b; cbn; rewrite ?app_nil_r; reflexivity.
Qed.
