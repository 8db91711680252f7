(** Proofs about instruments. *)
From Coq Require Import ZArith List Bool String Lia.
From Verif Require Import Common Dict Tune_Model Tune_Spec.
Import ListNotations.
Local Open Scope string_scope.
Local Open Scope list_scope.
Local Open Scope Z_scope.

Lemma sget d k (v : Z) k' : dget pystr_eqb (dset pystr_eqb d k v) k' = if pystr_eqb k k' then Some v else dget pystr_eqb d k'.
Proof. apply dget_dset. exact pystr_eqb_eq. Qed.
Lemma sget' {V} d k (v : V) k' : dget pystr_eqb (dset pystr_eqb d k v) k' = if pystr_eqb k k' then Some v else dget pystr_eqb d k'.
Proof. apply dget_dset. exact pystr_eqb_eq. Qed.
Lemma zget {V} d k (v : V) k' : dget Z.eqb (dset Z.eqb d k v) k' = if k =? k' then Some v else dget Z.eqb d k'.
Proof. apply dget_dset. exact Z.eqb_eq. Qed.

Lemma at_cons {A} (x : A) l k y : at_place (x :: l) k y <-> (k = 0 /\ y = x) \/ (0 < k /\ at_place l (k - 1) y).
Proof.
  unfold at_place. destruct (Z.eq_dec k 0) as [->|N].
  - cbn. split; [intros [_ E]; left; split; congruence|intros [[_ ->]|[H _]]; [split; [lia|reflexivity]|lia]].
  - split.
    + intros [P E]. right. split; [lia|]. split; [lia|]. replace (Z.to_nat k) with (S (Z.to_nat (k - 1))) in E by lia. exact E.
    + intros [[H _]|(P & _ & E)]; [lia|]. split; [lia|]. replace (Z.to_nat k) with (S (Z.to_nat (k - 1))) by lia. exact E.
Qed.
Lemma at_nil {A} k (y : A) : ~ at_place [] k y.
Proof. intros [_ E]. destruct (Z.to_nat k); discriminate. Qed.
Lemma at_in {A} (l : list A) k x : at_place l k x -> In x l.
Proof. intros [_ E]. exact (nth_error_In _ _ E). Qed.
Lemma in_at {A} (l : list A) x : In x l -> exists k, at_place l k x.
Proof.
  intros I. apply In_nth_error in I as (n & E). exists (Z.of_nat n). split; [lia|]. rewrite Nat2Z.id. exact E.
Qed.
Lemma at_fun {A} (l : list A) k x y : at_place l k x -> at_place l k y -> x = y.
Proof. intros [_ E] [_ F]. congruence. Qed.
Lemma at_bound {A} (l : list A) k x : at_place l k x -> 0 <= k < Z.of_nat (List.length l).
Proof. intros [P E]. assert (Z.to_nat k < List.length l)%nat by (apply nth_error_Some; congruence). lia. Qed.
Lemma NoDup_at {A} (l : list A) : NoDup l <-> forall j k x, at_place l j x -> at_place l k x -> j = k.
Proof.
  split.
  - intros D j k x Hj Hk. pose proof (at_bound _ _ _ Hj) as B. destruct Hj as [P E], Hk as [Q F].
    assert (Z.to_nat j = Z.to_nat k); [|lia]. apply (proj1 (NoDup_nth_error l) D); [lia|congruence].
  - intros H. apply NoDup_nth_error. intros i j L E. destruct (nth_error l i) as [x|] eqn:X; [|apply nth_error_None in X; lia].
    assert (Z.of_nat i = Z.of_nat j); [|lia]. apply (H _ _ x); (split; [lia|]); rewrite Nat2Z.id; congruence.
Qed.
Lemma at_snoc {A} (l : list A) x k y : at_place (l ++ [x]) k y <-> at_place l k y \/ (k = Z.of_nat (List.length l) /\ y = x).
Proof.
  unfold at_place. destruct (Z_lt_le_dec k (Z.of_nat (List.length l))) as [L|L].
  - split.
    + intros [P E]. rewrite nth_error_app1 in E by lia. left. split; assumption.
    + intros [[P E]|[E _]]; [|lia]. split; [exact P|]. rewrite nth_error_app1 by lia. exact E.
  - split.
    + intros [P E]. rewrite nth_error_app2 in E by lia. right.
      destruct (Z.to_nat k - List.length l)%nat eqn:D; cbn in E; [|destruct n; discriminate]. split; [lia|congruence].
    + intros [[P E]|[-> ->]].
      * assert (Z.to_nat k < List.length l)%nat by (apply nth_error_Some; congruence). lia.
      * split; [lia|]. rewrite Nat2Z.id, nth_error_app2 by lia. rewrite Nat.sub_diag. reflexivity.
Qed.

(** ** The dictionary of one instrument. *)
(** Assigning the notes in order: the last occurrence counts. *)
Definition assign_notes (l : list (Z * pystr)) (d : sdict Z) : sdict Z :=
  fold_left (fun d q => dset pystr_eqb d (snd q) (fst q)) l d.
Fixpoint last_of (k : Z) (l : list pystr) (n : pystr) : option Z :=
  match l with
  | [] => None
  | x :: l' => match last_of (k + 1) l' n with Some j => Some j | None => if pystr_eqb x n then Some k else None end
  end.
Lemma assign_get l : forall k d n, dget pystr_eqb (assign_notes (enumerate k l) d) n =
  match last_of k l n with Some j => Some j | None => dget pystr_eqb d n end.
Proof.
  induction l as [|x l IH]; intros k d n; [reflexivity|]. unfold assign_notes. cbn [enumerate fold_left last_of fst snd].
  change (fold_left (fun d0 q => dset pystr_eqb d0 (snd q) (fst q)) (enumerate (k + 1) l) (dset pystr_eqb d x k))
    with (assign_notes (enumerate (k + 1) l) (dset pystr_eqb d x k)).
  rewrite IH. destruct (last_of (k + 1) l n); [reflexivity|]. rewrite sget. destruct (pystr_eqb x n); reflexivity.
Qed.
Lemma last_of_in l : forall k n, last_of k l n <> None <-> In n l.
Proof.
  induction l as [|x l IH]; intros k n; cbn; [split; [congruence|intros []]|].
  specialize (IH (k + 1) n). destruct (last_of (k + 1) l n).
  - split; [intros _; right; apply IH; discriminate|discriminate].
  - destruct (pystr_eqb x n) eqn:E.
    + apply pystr_eqb_eq in E. split; [intros _; left; exact E|discriminate].
    + split; [congruence|]. intros [->|I]; [rewrite pystr_eqb_refl in E; discriminate|]. apply IH in I. congruence.
Qed.
Lemma last_of_at l : forall k n j, last_of k l n = Some j -> at_place l (j - k) n.
Proof.
  induction l as [|x l IH]; intros k n j; cbn; [discriminate|]. specialize (IH (k + 1) n).
  destruct (last_of (k + 1) l n) as [j'|].
  - intros E. injection E as ->. apply at_cons. right. specialize (IH j eq_refl). pose proof (at_bound _ _ _ IH).
    split; [lia|]. replace (j - k - 1) with (j - (k + 1)) by lia. exact IH.
  - destruct (pystr_eqb x n) eqn:E; [|discriminate]. apply pystr_eqb_eq in E. intros F. injection F as <-.
    apply at_cons. left. split; [lia|congruence].
Qed.
Lemma last_of_nodup l n j : NoDup l -> at_place l j n -> last_of 0 l n = Some j.
Proof.
  intros D H. destruct (last_of 0 l n) as [j'|] eqn:E.
  - apply last_of_at in E. rewrite Z.sub_0_r in E. f_equal. exact (proj1 (NoDup_at l) D _ _ _ E H).
  - exfalso. apply (last_of_in l 0 n); [eapply at_in; eassumption|exact E].
Qed.
(** The dictionary built either way. *)
Definition lookup_notes (k : Z) (l : list pystr) (n : pystr) : option Z :=
  match last_of 0 l n with Some j => Some j | None => if pystr_eqb (str "self") n then Some k else None end.
Lemma extract_entry k l n :
  dget pystr_eqb (fold_left (fun d q => dset pystr_eqb d (snd q) (fst q)) (enumerate 0 l) [(str "self", k)]) n = lookup_notes k l n.
Proof. exact (assign_get l 0 [(str "self", k)] n). Qed.
Lemma fold_dset_get {V} (l : list (pystr * V)) : NoDup (map fst l) -> forall d n,
  dget pystr_eqb (fold_left (fun d p => dset pystr_eqb d (fst p) (snd p)) l d) n =
  match dget pystr_eqb l n with Some v => Some v | None => dget pystr_eqb d n end.
Proof.
  induction l as [|[a v] l IH]; intros D d n; [reflexivity|]. cbn in D. apply NoDup_cons_iff in D as [N D].
  cbn [fold_left fst snd dget]. rewrite (IH D). destruct (pystr_eqb a n) eqn:E.
  - apply pystr_eqb_eq in E. rewrite E in *. rewrite (proj2 (dget_none pystr_eqb pystr_eqb_eq l n) N).
    rewrite sget', pystr_eqb_refl. reflexivity.
  - destruct (dget pystr_eqb l n); [reflexivity|]. rewrite sget', E. reflexivity.
Qed.
Lemma dict_of_wf {V} (l : list (pystr * V)) : NoDup (map fst (dict_of pystr_eqb l)).
Proof.
  unfold dict_of. assert (H : dwf (@nil (pystr * V))) by constructor. revert H. generalize (@nil (pystr * V)) as d.
  induction l as [|[a v] l IH]; intros d H; [exact H|]. cbn. apply IH. apply dset_wf; [exact pystr_eqb_eq|exact H].
Qed.
Lemma swap_fold l (d : sdict Z) :
  fold_left (fun d p => dset pystr_eqb d (fst p) (snd p)) (map (fun p : Z * pystr => (snd p, fst p)) l) d = assign_notes l d.
Proof. unfold assign_notes. revert d. induction l as [|[k x] l IH]; intros d; [reflexivity|]. cbn. apply IH. Qed.
Lemma index_entry_get k l n : dget pystr_eqb (index_entry k l) n = lookup_notes k l n.
Proof.
  unfold index_entry. rewrite (fold_dset_get _ (dict_of_wf _)). unfold dict_of. rewrite swap_fold, assign_get.
  unfold lookup_notes. destruct (last_of 0 l n); reflexivity.
Qed.

Lemma says_ext d d' k ns : (forall n, dget pystr_eqb d n = dget pystr_eqb d' n) -> (says d k ns <-> says d' k ns).
Proof.
  intros H. unfold says. split; intros [A B]; (split; [exact A|]); intros n j; [rewrite <- H|rewrite H]; apply B.
Qed.
Lemma says_iff d k ns : (forall n, dget pystr_eqb d n = lookup_notes k ns n) -> (says d k ns <-> sound_notes ns).
Proof.
  intros H. unfold says, sound_notes. split.
  - intros [S A]. split; [|exact S]. apply NoDup_at. intros i j x Hi Hj.
    assert (X : dget pystr_eqb d x = Some i) by (apply A; right; exact Hi).
    assert (Y : dget pystr_eqb d x = Some j) by (apply A; right; exact Hj). congruence.
  - intros [D S]. split; [exact S|]. intros n j. rewrite H. unfold lookup_notes. destruct (last_of 0 ns n) as [i|] eqn:E.
    + assert (P : at_place ns i n) by (apply last_of_at in E; rewrite Z.sub_0_r in E; exact E). split.
      * intros F. injection F as <-. right. exact P.
      * intros [[-> ->]|Q]; [exfalso; apply S; eapply at_in; exact P|]. f_equal. exact (proj1 (NoDup_at ns) D _ _ _ P Q).
    + destruct (pystr_eqb (str "self") n) eqn:F.
      * apply pystr_eqb_eq in F. split; [intros X; injection X as <-; left; split; [symmetry; exact F|reflexivity]|].
        intros [[_ ->]|Q]; [reflexivity|]. exfalso. apply (last_of_in ns 0 n); [eapply at_in; exact Q|exact E].
      * split; [discriminate|]. intros [[-> _]|Q]; [rewrite pystr_eqb_refl in F; discriminate|].
        exfalso. apply (last_of_in ns 0 n); [eapply at_in; exact Q|exact E].
Qed.
Lemma list_at_eq {A} (l l' : list A) : (forall k x, at_place l k x <-> at_place l' k x) -> l = l'.
Proof.
  revert l'. induction l as [|x l IH]; intros [|y l'] H.
  - reflexivity.
  - exfalso. apply (at_nil 0 y). apply H. apply at_cons. left. split; reflexivity.
  - exfalso. apply (at_nil 0 x). apply H. apply at_cons. left. split; reflexivity.
  - assert (x = y) as ->.
    { assert (at_place (y :: l') 0 x) as P by (apply H, at_cons; left; split; reflexivity). apply at_cons in P as [[_ E]|[E _]]; [exact E|lia]. }
    f_equal. apply IH. intros k z. split; intros P.
    + assert (Q : at_place (y :: l) (k + 1) z) by (apply at_cons; right; pose proof (at_bound _ _ _ P); split; [lia|replace (k + 1 - 1) with k by lia; exact P]).
      apply H, at_cons in Q as [[E _]|[_ Q]]; [pose proof (at_bound _ _ _ P); lia|]. replace (k + 1 - 1) with k in Q by lia. exact Q.
    + assert (Q : at_place (y :: l') (k + 1) z) by (apply at_cons; right; pose proof (at_bound _ _ _ P); split; [lia|replace (k + 1 - 1) with k by lia; exact P]).
      apply H, at_cons in Q as [[E _]|[_ Q]]; [pose proof (at_bound _ _ _ P); lia|]. replace (k + 1 - 1) with k in Q by lia. exact Q.
Qed.
Lemma says_fun d k ns k' ns' : says d k ns -> says d k' ns' -> k = k' /\ ns = ns'.
Proof.
  intros [S A] [S' A'].
  assert (k = k') as ->.
  { assert (X : dget pystr_eqb d (str "self") = Some k) by (apply A; left; split; reflexivity).
    assert (Y : dget pystr_eqb d (str "self") = Some k') by (apply A'; left; split; reflexivity). congruence. }
  split; [reflexivity|]. apply list_at_eq. intros j n. split; intros P.
  - assert (X : dget pystr_eqb d n = Some j) by (apply A; right; exact P). apply A' in X as [[-> _]|X]; [|exact X].
    exfalso. apply S. eapply at_in; exact P.
  - assert (X : dget pystr_eqb d n = Some j) by (apply A'; right; exact P). apply A in X as [[-> _]|X]; [|exact X].
    exfalso. apply S'. eapply at_in; exact P.
Qed.

(** ** Appending one instrument. *)
Lemma agree_names t : agree t -> NoDup (map fst (t_raw t)) /\ Forall (fun x => sound_notes (snd x)) (t_raw t).
Proof.
  intros [_ A]. split.
  - apply NoDup_at. intros j k n Hj Hk.
    assert (X : forall i, at_place (map fst (t_raw t)) i n -> exists ns, at_place (t_raw t) i (n, ns)).
    { intros i [P E]. rewrite nth_error_map in E. destruct (nth_error (t_raw t) (Z.to_nat i)) as [[m ns]|] eqn:F; cbn in E; [|discriminate].
      injection E as ->. exists ns. split; assumption. }
    destruct (X j Hj) as (ns & Pj), (X k Hk) as (ns' & Pk).
    apply A in Pj as (d & E & Sj). apply A in Pk as (d' & E' & Sk). rewrite E in E'. injection E' as <-.
    exact (proj1 (says_fun _ _ _ _ _ Sj Sk)).
  - apply Forall_forall. intros [n ns] I. destruct (in_at _ _ I) as (k & P). pose proof (proj1 (A n ns k) P) as (d & _ & S). cbn.
    split; [|exact (proj1 S)]. apply NoDup_at. intros i j x Hi Hj. destruct S as [_ S].
    assert (X : dget pystr_eqb d x = Some i) by (apply S; right; exact Hi).
    assert (Y : dget pystr_eqb d x = Some j) by (apply S; right; exact Hj). congruence.
Qed.
Definition appended (t : tables) (n : pystr) (ns : list pystr) (d : sdict Z) : tables :=
  mkT (t_raw t ++ [(n, ns)]) (dset pystr_eqb (t_index t) n d)
    (dset Z.eqb (t_names t) (Z.of_nat (List.length (t_raw t))) (n, ns)).
Lemma append_iff t n ns d : agree t -> (forall x, dget pystr_eqb d x = lookup_notes (Z.of_nat (List.length (t_raw t))) ns x) ->
  (agree (appended t n ns d) <-> ~ In n (map fst (t_raw t)) /\ sound_notes ns).
Proof.
  intros A H. set (len := Z.of_nat (List.length (t_raw t))). split.
  - intros A'. destruct (agree_names _ A') as [D F]. unfold appended in D, F. cbn [t_raw] in D, F.
    rewrite map_app in D. apply Forall_app in F as [_ F]. split; [|inversion F; assumption].
    cbn [map] in D. apply NoDup_remove in D as [_ D]. rewrite app_nil_r in D. exact D.
  - intros [N S]. destruct A as [A1 A2]. split; unfold appended; cbn [t_raw t_index t_names].
    + intros k x. rewrite zget, at_snoc. fold len. destruct (Z.eqb_spec len k) as [E|E].
      * split; [intros X; injection X as <-; right; split; [symmetry; exact E|reflexivity]|].
        intros [P|[_ ->]]; [apply at_bound in P; lia|reflexivity].
      * rewrite A1. split; [intros P; left; exact P|]. intros [P|[-> _]]; [exact P|congruence].
    + intros m ms k. rewrite at_snoc. fold len. rewrite sget'. destruct (pystr_eqb n m) eqn:E.
      * apply pystr_eqb_eq in E. rewrite <- E in *. split.
        -- intros [P|[-> X]]; [exfalso; apply N; apply at_in in P; apply (in_map fst) in P; exact P|]. injection X as ->.
           exists d. split; [reflexivity|]. apply (says_iff d len ns H). exact S.
        -- intros (d' & X & Sd). injection X as <-. right.
           destruct (says_fun _ _ _ _ _ Sd (proj2 (says_iff d len ns H) S)) as [-> ->]. split; reflexivity.
      * rewrite A2. split; [intros [P|[_ X]]; [exact P|]|intros P; left; exact P].
        injection X as -> _. rewrite pystr_eqb_refl in E. discriminate.
Qed.

(** ** Extraction. *)
Lemma enumerate_snoc {A} (l : list A) x : forall k, enumerate k (l ++ [x]) = enumerate k l ++ [(k + Z.of_nat (List.length l), x)].
Proof.
  induction l as [|y l IH]; intros k; cbn [enumerate app List.length]; [rewrite Z.add_0_r; reflexivity|].
  rewrite IH. replace (k + 1 + Z.of_nat (List.length l)) with (k + Z.of_nat (S (List.length l))) by lia. reflexivity.
Qed.
Lemma extract_raw_irr l t raw' : t_index (fold_left extract_one l (mkT raw' (t_index t) (t_names t))) = t_index (fold_left extract_one l t) /\
  t_names (fold_left extract_one l (mkT raw' (t_index t) (t_names t))) = t_names (fold_left extract_one l t) /\
  t_raw (fold_left extract_one l t) = t_raw t.
Proof.
  revert t. induction l as [|[i [n ns]] l IH]; intros t; [repeat split|]. cbn [fold_left extract_one].
  specialize (IH (extract_one t (i, (n, ns)))). exact IH.
Qed.
Lemma extract_raw l : t_raw (extract l) = l.
Proof. exact (proj2 (proj2 (extract_raw_irr (enumerate 0 l) (mkT l [] []) l))). Qed.
Lemma tables_eta t : t = mkT (t_raw t) (t_index t) (t_names t).
Proof. destruct t; reflexivity. Qed.
Lemma extract_snoc l n ns : exists d, (forall x, dget pystr_eqb d x = lookup_notes (Z.of_nat (List.length l)) ns x) /\
  extract (l ++ [(n, ns)]) = appended (extract l) n ns d.
Proof.
  eexists. split; [apply extract_entry|]. rewrite (tables_eta (extract (l ++ [(n, ns)]))). unfold appended.
  rewrite !extract_raw. unfold extract at 1 2. rewrite enumerate_snoc, fold_left_app. cbn [fold_left extract_one].
  destruct (extract_raw_irr (enumerate 0 l) (mkT l [] []) (l ++ [(n, ns)])) as (E1 & E2 & _). cbn [t_index t_names] in E1, E2.
  cbn [t_index t_names t_raw]. rewrite E1, E2. fold (extract l). rewrite Z.add_0_l. reflexivity.
Qed.
Lemma agree_empty : agree (extract []).
Proof.
  split; cbn.
  - intros k x. split; [discriminate|intros P; exfalso; exact (at_nil _ _ P)].
  - intros n ns k. split; [intros P; exfalso; exact (at_nil _ _ P)|intros (d & E & _); discriminate].
Qed.
Lemma extract_iff l : agree (extract l) <-> sound_instruments l.
Proof.
  split.
  - intros A. pose proof (agree_names _ A) as H. rewrite extract_raw in H. exact H.
  - induction l as [|[n ns] l IH] using rev_ind; [intros _; exact agree_empty|]. intros [D F].
    destruct (extract_snoc l n ns) as (d & H & ->). rewrite map_app in D. apply Forall_app in F as [F1 F2].
    cbn [map] in D. apply NoDup_remove in D as [D N]. rewrite app_nil_r in D, N.
    apply append_iff.
    + apply IH. split; assumption.
    + rewrite extract_raw. exact H.
    + rewrite extract_raw. split; [exact N|inversion F2; assumption].
Qed.

(** ** Adding. *)
Lemma insert_end {A} (l : list A) x : list_insert l (Z.of_nat (List.length l)) x = l ++ [x].
Proof.
  unfold list_insert, place_of. destruct (Z.ltb_spec (Z.of_nat (List.length l)) 0); [lia|].
  rewrite Nat2Z.id, Nat.min_id, firstn_all, skipn_all. reflexivity.
Qed.
Lemma insert_length {A} (l : list A) i x : List.length (list_insert l i x) = S (List.length l).
Proof.
  unfold list_insert. rewrite app_length. cbn. pose proof (firstn_skipn (place_of (List.length l) i) l) as E.
  apply (f_equal (@List.length A)) in E. rewrite app_length in E. lia.
Qed.
Definition inserted (t : tables) (n : pystr) (ns : list pystr) (i : Z) : tables :=
  mkT (list_insert (t_raw t) i (n, ns)) (dset pystr_eqb (t_index t) n (index_entry i ns)) (dset Z.eqb (t_names t) i (n, ns)).
Lemma inserted_iff t n ns i : agree t ->
  (agree (inserted t n ns i) <-> i = Z.of_nat (List.length (t_raw t)) /\ ~ In n (map fst (t_raw t)) /\ sound_notes ns).
Proof.
  intros A. set (len := Z.of_nat (List.length (t_raw t))). assert (E : i = len \/ i <> len) by lia. destruct E as [->|E].
  - pose proof (append_iff t n ns (index_entry len ns) A (fun x => index_entry_get len ns x)) as X. unfold appended in X. fold len in X.
    unfold inserted. replace (list_insert (t_raw t) len (n, ns)) with (t_raw t ++ [(n, ns)]) by (symmetry; apply insert_end). tauto.
  - split; [|intros [X _]; contradiction]. intros A'. exfalso. destruct A as [A _], A' as [A' _].
    unfold inserted in A'. cbn [t_raw t_names] in A'.
    assert (L : at_place (list_insert (t_raw t) i (n, ns)) i (n, ns)).
    { apply A'. rewrite zget, Z.eqb_refl. reflexivity. }
    pose proof (at_bound _ _ _ L) as B. rewrite insert_length in B.
    assert (exists x, at_place (list_insert (t_raw t) i (n, ns)) len x) as (x & X).
    { destruct (nth_error (list_insert (t_raw t) i (n, ns)) (List.length (t_raw t))) as [x|] eqn:Y.
      - exists x. split; [lia|]. unfold len. rewrite Nat2Z.id. exact Y.
      - apply nth_error_None in Y. rewrite insert_length in Y. lia. }
    apply A' in X. rewrite zget in X. destruct (Z.eqb_spec i len) as [|_]; [contradiction|].
    apply A in X. apply at_bound in X. lia.
Qed.
Lemma put_in_spec t index x a d n :
  put_in t index x (mkT (list_insert (t_raw t) (match index with Some i => i | None => Z.of_nat (List.length (t_raw t)) end) x) a (dset Z.eqb d n x)).
Proof.
  unfold put_in. cbn [t_raw]. unfold list_insert. set (p := place_of _ _).
  exists (firstn p (t_raw t)), (skipn p (t_raw t)). split; [symmetry; apply firstn_skipn|]. split; [reflexivity|].
  assert (L : (p <= List.length (t_raw t))%nat).
  { unfold p, place_of. destruct (Z.ltb_spec (match index with Some i => i | None => Z.of_nat (List.length (t_raw t)) end) 0); lia. }
  rewrite firstn_length_le by exact L. unfold p, place_of. destruct index as [i|].
  - destruct (Z.ltb_spec i 0); lia.
  - destruct (Z.ltb_spec (Z.of_nat (List.length (t_raw t))) 0); lia.
Qed.
Lemma add_spec speakers r n ns index e :
  match add_instrument speakers r n ns index e with
  | Ok r' => In e speakers /\ (forall e', e' <> e -> dget pystr_eqb r' e' = dget pystr_eqb r e') /\
      exists t t', dget pystr_eqb r e = Some t /\ dget pystr_eqb r' e = Some t' /\ put_in t index (n, ns) t' /\
        (agree t -> (agree t' <-> the_end t index /\ ~ In n (map fst (t_raw t)) /\ sound_notes ns))
  | Err x => (x = TypeError /\ ~ In e speakers) \/ (x = KeyError /\ In e speakers /\ dget pystr_eqb r e = None)
  end.
Proof.
  unfold add_instrument. destruct (existsb (pystr_eqb e) speakers) eqn:E; cbn [negb].
  - assert (I : In e speakers).
    { apply existsb_exists in E as (x & I & X). apply pystr_eqb_eq in X. congruence. }
    destruct (dget pystr_eqb r e) as [t|] eqn:G; [|right; repeat split; assumption].
    split; [exact I|]. split.
    + intros e' N. rewrite sget'. destruct (pystr_eqb e e') eqn:X; [|reflexivity]. apply pystr_eqb_eq in X. congruence.
    + set (i := match index with Some i => i | None => Z.of_nat (List.length (t_raw t)) end).
      exists t, (inserted t n ns i). split; [reflexivity|]. split; [rewrite sget', pystr_eqb_refl; reflexivity|].
      split; [apply put_in_spec|]. intros A. rewrite (inserted_iff t n ns i A). unfold the_end, i. destruct index as [z|].
      * split; [intros (-> & H); split; [right; reflexivity|exact H]|].
        intros ([X|X] & H); [discriminate|]. injection X as ->. split; [reflexivity|exact H].
      * split; [intros (_ & H); split; [left; reflexivity|exact H]|intros (_ & H); split; [reflexivity|exact H]].
  - left. split; [reflexivity|]. intros I. apply not_true_iff_false in E. apply E. apply existsb_exists. exists e.
    split; [exact I|apply pystr_eqb_refl].
Qed.
Lemma add_all_spec speakers e l : forall r t, In e speakers -> dget pystr_eqb r e = Some t -> agree t ->
  sound_instruments (t_raw t ++ l) ->
  exists r' t', add_all speakers r e l = Ok r' /\ dget pystr_eqb r' e = Some t' /\ agree t' /\ t_raw t' = t_raw t ++ l.
Proof.
  induction l as [|[n ns] l IH]; intros r t I G A [D F].
  - exists r, t. rewrite app_nil_r. split; [reflexivity|]. split; [exact G|]. split; [exact A|reflexivity].
  - cbn [add_all]. unfold add_instrument.
    assert (X : existsb (pystr_eqb e) speakers = true) by (apply existsb_exists; exists e; split; [exact I|apply pystr_eqb_refl]).
    rewrite X, G. cbn [negb bind]. rewrite insert_end.
    set (t1 := mkT (t_raw t ++ [(n, ns)]) _ _).
    assert (A1 : agree t1).
    { apply (append_iff t n ns (index_entry (Z.of_nat (List.length (t_raw t))) ns) A); [intros x; apply index_entry_get|].
      rewrite map_app in D. cbn [map fst] in D. apply NoDup_remove in D as [_ N]. apply Forall_app in F as [_ F]. inversion F; subst.
      split; [intros Y; apply N, in_or_app; left; exact Y|assumption]. }
    destruct (IH (dset pystr_eqb r e t1) t1 I) as (r' & t' & E & G' & A' & R).
    + rewrite sget', pystr_eqb_refl. reflexivity.
    + exact A1.
    + cbn [t1 t_raw]. rewrite <- app_assoc. split; assumption.
    + exists r', t'. split; [exact E|]. split; [exact G'|]. split; [exact A'|]. rewrite R. cbn [t1 t_raw]. rewrite <- app_assoc. reflexivity.
Qed.

(** ** The speaker. *)
Lemma instrument_spec r s t n : dget pystr_eqb r (sp_name s) = Some t -> agree t ->
  let s' := set_instrument_name r s (Some n) in
  sp_note s' = sp_note s /\ sp_name s' = sp_name s /\
  (forall k ns, at_place (t_raw t) k (n, ns) -> sp_instrument s' = Some k /\ get_instrument_name r s' = Some n).
Proof.
  intros G [A1 A2]. cbn zeta. split; [reflexivity|]. split; [reflexivity|]. intros k ns P.
  pose proof (proj1 (A2 n ns k) P) as (d & E & S).
  assert (X : sp_instrument (set_instrument_name r s (Some n)) = Some k).
  { cbn. rewrite G. cbn. rewrite E. cbn. apply S. left. split; reflexivity. }
  split; [exact X|]. unfold get_instrument_name, names_entry. rewrite X. cbn [set_instrument_name sp_name]. rewrite G. cbn.
  rewrite (proj2 (A1 k (n, ns)) P). reflexivity.
Qed.
Lemma instrument_read r s t n : dget pystr_eqb r (sp_name s) = Some t -> agree t ->
  (get_instrument_name r s = Some n <-> exists k ns, sp_instrument s = Some k /\ at_place (t_raw t) k (n, ns)).
Proof.
  intros G [A1 _]. unfold get_instrument_name, names_entry. rewrite G. cbn. destruct (sp_instrument s) as [k|]; cbn.
  - split.
    + destruct (dget Z.eqb (t_names t) k) as [[m ns]|] eqn:E; cbn; [|discriminate]. intros X. injection X as ->.
      exists k, ns. split; [reflexivity|]. apply A1, E.
    + intros (k' & ns & X & P). injection X as <-. rewrite (proj2 (A1 k (n, ns)) P). reflexivity.
  - split; [discriminate|intros (k & ns & X & _); discriminate].
Qed.
Lemma note_read r s t m : dget pystr_eqb r (sp_name s) = Some t -> agree t ->
  (get_note_name r s = Some m <-> exists k n ns j, sp_instrument s = Some k /\ sp_note s = Some j /\ at_place (t_raw t) k (n, ns) /\ at_place ns j m).
Proof.
  intros G [A1 _]. unfold get_note_name, names_entry. rewrite G. cbn. destruct (sp_instrument s) as [k|]; cbn.
  2:{ split; [discriminate|intros (k & n & ns & j & X & _); discriminate]. }
  destruct (sp_note s) as [j|].
  2:{ split; [destruct (dget Z.eqb (t_names t) k); discriminate|intros (k' & n & ns & j & _ & X & _); discriminate]. }
  split.
  - destruct (dget Z.eqb (t_names t) k) as [[n ns]|] eqn:E; cbn; [|discriminate]. destruct (Z.ltb_spec j 0) as [L|L]; [discriminate|]. intros X.
    exists k, n, ns, j. split; [reflexivity|]. split; [reflexivity|]. split; [apply A1, E|]. split; [exact L|exact X].
  - intros (k' & n & ns & j' & X & Y & P & Q). injection X as <-. injection Y as <-. rewrite (proj2 (A1 k (n, ns)) P). cbn. destruct Q as [L Q].
    destruct (Z.ltb_spec j 0) as [L'|_]; [exfalso; apply (Z.lt_irrefl 0); eapply Z.le_lt_trans; eassumption|]. exact Q.
Qed.
Lemma note_spec r s t k n ns m : dget pystr_eqb r (sp_name s) = Some t -> agree t ->
  sp_instrument s = Some k -> at_place (t_raw t) k (n, ns) -> m <> str "self" ->
  let s' := set_note_name r s (Some m) in
  sp_instrument s' = sp_instrument s /\
  (forall j, at_place ns j m -> sp_note s' = Some j /\ get_note_name r s' = Some m) /\
  (~ In m ns -> sp_note s' = None /\ get_note_name r s' = None).
Proof.
  intros G A K P M. destruct A as [A1 A2]. cbn zeta. split; [reflexivity|].
  assert (GI : get_instrument_name r s = Some n).
  { apply (instrument_read r s t n G (conj A1 A2)). exists k, ns. split; assumption. }
  pose proof (proj1 (A2 n ns k) P) as (d & E & S).
  assert (X : sp_note (set_note_name r s (Some m)) = dget pystr_eqb d m).
  { cbn. rewrite G. cbn. rewrite GI. cbn. rewrite E. reflexivity. }
  assert (NE : names_entry r (set_note_name r s (Some m)) = Some (n, ns)).
  { unfold names_entry. cbn [set_note_name sp_name sp_instrument]. rewrite G. cbn. rewrite K. cbn. apply A1, P. }
  destruct S as [_ S]. split.
  - intros j Pj. assert (Y : dget pystr_eqb d m = Some j) by (apply S; right; exact Pj). rewrite X, Y. split; [reflexivity|].
    unfold get_note_name. rewrite NE. cbn [obind]. rewrite X, Y. cbn [obind snd]. destruct Pj as [B Pj].
    destruct (Z.ltb_spec j 0); [lia|exact Pj].
  - intros N. assert (Y : dget pystr_eqb d m = None).
    { destruct (dget pystr_eqb d m) as [j|] eqn:Y; [|reflexivity]. exfalso. apply S in Y as [[Y _]|Y]; [contradiction|].
      apply N. eapply at_in; exact Y. }
    rewrite X, Y. split; [reflexivity|]. unfold get_note_name. rewrite NE. cbn [obind]. rewrite X, Y. reflexivity.
Qed.
Lemma note_self r s t k n ns : dget pystr_eqb r (sp_name s) = Some t -> agree t ->
  sp_instrument s = Some k -> at_place (t_raw t) k (n, ns) ->
  sp_note (set_note_name r s (Some (str "self"))) = Some k.
Proof.
  intros G A K P. assert (GI : get_instrument_name r s = Some n).
  { apply (instrument_read r s t n G A). exists k, ns. split; assumption. }
  destruct A as [A1 A2]. pose proof (proj1 (A2 n ns k) P) as (d & E & S).
  cbn. rewrite G. cbn. rewrite GI. cbn. rewrite E. cbn. apply S. left. split; reflexivity.
Qed.
Lemma unknown_instrument r s t n : dget pystr_eqb r (sp_name s) = Some t -> agree t ->
  dget pystr_eqb (t_index t) n = None ->
  sp_instrument (set_instrument_name r s (Some n)) = None /\ get_instrument_name r (set_instrument_name r s (Some n)) = None.
Proof.
  intros G A N. assert (X : sp_instrument (set_instrument_name r s (Some n)) = None) by (cbn; rewrite G; cbn; rewrite N; reflexivity).
  split; [exact X|]. unfold get_instrument_name, names_entry. rewrite X. cbn. rewrite G. reflexivity.
Qed.

Lemma unheard r s v : get_instrument_name r s = None -> sp_note (set_note_name r s v) = None.
Proof. intros N. destruct v; cbn; [|reflexivity]. destruct (dget pystr_eqb r (sp_name s)); cbn; [|reflexivity]. rewrite N. reflexivity. Qed.
(** An instrument put before another one takes its number. *)
Lemma displaced speakers r r' t n ns i s m ms : add_instrument speakers r n ns (Some i) (sp_name s) = Ok r' ->
  dget pystr_eqb r (sp_name s) = Some t -> agree t -> at_place (t_raw t) i (m, ms) -> m <> n ->
  get_instrument_name r' (set_instrument_name r' s (Some m)) = Some n.
Proof.
  unfold add_instrument. destruct (existsb (pystr_eqb (sp_name s)) speakers); cbn [negb]; [|discriminate].
  intros E G A P N. rewrite G in E. injection E as <-. destruct A as [_ A]. apply A in P as (d & D & S & S').
  assert (X : dget pystr_eqb d (str "self") = Some i) by (apply S'; left; split; reflexivity).
  unfold get_instrument_name, names_entry. cbn [set_instrument_name sp_name sp_instrument]. rewrite sget', pystr_eqb_refl. cbn [obind t_index t_names].
  rewrite sget'. destruct (pystr_eqb n m) eqn:Y; [apply pystr_eqb_eq in Y; congruence|]. rewrite D. cbn [obind]. rewrite X. cbn [obind].
  rewrite zget, Z.eqb_refl. reflexivity.
Qed.
