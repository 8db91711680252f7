(** Proofs about the order of classes. *)
From Coq Require Import ZArith String List Bool Lia.
From Verif Require Import Common Dict Version_Model Assign_Model Attr_Model Attr_Table Attr_Spec.
Import ListNotations.
Local Open Scope string_scope.
Local Open Scope list_scope.

Lemma eqs_eq a b : eqs a b = true <-> a = b.
Proof. apply String.eqb_eq. Qed.
Lemma eqs_refl a : eqs a a = true.
Proof. apply eqs_eq. reflexivity. Qed.
Lemma mem_in c l : mem c l = true <-> In c l.
Proof.
  unfold mem. rewrite existsb_exists. split.
  - intros (x & A & B). apply eqs_eq in B. subst. exact A.
  - intros A. exists c. split; [exact A|apply eqs_refl].
Qed.

(** ** [within] *)
Lemma within_nil_l {A} (m : list A) : within [] m.
Proof. induction m; [constructor|constructor 2; assumption]. Qed.
Lemma within_refl {A} (l : list A) : within l l.
Proof. induction l; [constructor 1|constructor 3; assumption]. Qed.
Lemma within_in {A} (l m : list A) x : within l m -> In x l -> In x m.
Proof. induction 1; intros K; [exact K|right; auto|destruct K as [->|K]; [left; reflexivity|right; auto]]. Qed.
Lemma within_trans {A} (l m n : list A) : within l m -> within m n -> within l n.
Proof.
  intros H K. revert l H. induction K as [|x m n K IH|x m n K IH]; intros l H.
  - exact H.
  - apply within_skip. apply IH. exact H.
  - inversion H; subst; [apply within_skip; apply IH; assumption|apply within_keep; apply IH; assumption].
Qed.
Lemma within_cons_inv {A} (x : A) l m : within (x :: l) m -> exists m1 m2, m = m1 ++ x :: m2 /\ within l m2.
Proof.
  intros H. remember (x :: l) as l' eqn:E. revert x l E. induction H as [|y l' m H IH|y l' m H IH]; intros x l E.
  - discriminate.
  - subst l'. destruct (IH x l eq_refl) as (m1 & m2 & -> & W). exists (y :: m1), m2. split; [reflexivity|exact W].
  - injection E as -> ->. exists [], m. split; [reflexivity|exact H].
Qed.

(** ** [merge] *)
Lemma pick_some all seqs c : pick all seqs = Some c ->
  (exists s, In (c :: s) seqs) /\ forall s, In s all -> ~ In c (tl s).
Proof.
  induction seqs as [|[|x s] r IH]; cbn [pick]; intros H; [discriminate| |].
  - destruct (IH H) as ((s & A) & B). split; [exists s; right; exact A|exact B].
  - destruct (existsb (mem x) (tails all)) eqn:E.
    + destruct (IH H) as ((s' & A) & B). split; [exists s'; right; exact A|exact B].
    + injection H as ->. split; [exists s; left; reflexivity|]. intros s' S' I'.
      assert (K : existsb (mem c) (tails all) = true).
      { apply existsb_exists. exists (tl s'). split; [apply in_map; exact S'|apply mem_in; exact I']. }
      congruence.
Qed.
Lemma drop_cases c s : (exists r, s = c :: r /\ drop c s = r) \/ ((forall r, s <> c :: r) /\ drop c s = s).
Proof.
  destruct s as [|x r]; cbn [drop]; [right; split; [discriminate|reflexivity]|].
  destruct (eqs x c) eqn:E.
  - apply eqs_eq in E. subst. left. exists r. split; reflexivity.
  - right. split; [|reflexivity]. intros r' K. injection K as -> _. rewrite eqs_refl in E. discriminate.
Qed.
Lemma merge_sound n : forall seqs r, merge n seqs = Ok r ->
  NoDup r /\ (forall s, In s seqs -> within s r) /\ (forall x, In x r -> exists s, In s seqs /\ In x s).
Proof.
  induction n as [|n IH]; intros seqs r; [discriminate|]. cbn [merge].
  destruct (filter nonempty seqs) as [|s0 sr] eqn:F.
  - intros H. injection H as <-. split; [constructor|]. split; [|intros x []].
    intros s K. destruct s as [|x s]; [constructor|].
    assert (G : In (x :: s) (filter nonempty seqs)) by (apply filter_In; split; [exact K|reflexivity]).
    rewrite F in G. destruct G.
  - set (ss := s0 :: sr) in *. destruct (pick ss ss) as [c|] eqn:P; [|discriminate].
    destruct (merge n (map (drop c) ss)) as [r'|] eqn:M; cbn [bind]; [|discriminate].
    intros H. injection H as <-. destruct (IH _ _ M) as (D & W & C). destruct (pick_some _ _ _ P) as ((s1 & P1) & P2).
    assert (SUB : forall s, In s ss -> In s seqs) by (intros s K; rewrite <- F in K; apply filter_In in K; tauto).
    split; [|split].
    + constructor; [|exact D]. intros K. destruct (C _ K) as (s' & A & B). apply in_map_iff in A. destruct A as (s & <- & A).
      destruct (drop_cases c s) as [(q & -> & E)|(N & E)]; rewrite E in B.
      * apply (P2 _ A). exact B.
      * destruct s as [|y s]; [destruct B|]. destruct B as [->|B]; [apply (N s); reflexivity|apply (P2 _ A); exact B].
    + intros s K. destruct (nonempty s) eqn:NE; [|destruct s; [apply within_nil_l|discriminate]].
      assert (G : In s ss) by (rewrite <- F; apply filter_In; split; assumption).
      pose proof (W _ (in_map (drop c) _ _ G)) as K'.
      destruct (drop_cases c s) as [(q & -> & E)|(N & E)]; rewrite E in K'; [apply within_keep|apply within_skip]; exact K'.
    + intros x [<-|K]; [exists (c :: s1); split; [apply SUB; exact P1|left; reflexivity]|].
      destruct (C _ K) as (s' & A & B). apply in_map_iff in A. destruct A as (s & <- & A). exists s. split; [apply SUB; exact A|].
      destruct (drop_cases c s) as [(q & -> & E)|(N & E)]; rewrite E in B; [right|]; exact B.
Qed.

(** ** [mro] *)
Lemma map_result_ok {A B} (f : A -> result B) l r : map_result f l = Ok r -> Forall2 (fun x y => f x = Ok y) l r.
Proof.
  revert r. induction l as [|x l IH]; cbn [map_result]; intros r H; [injection H as <-; constructor|].
  destruct (f x) as [y|] eqn:E; cbn [bind] in H; [|discriminate].
  destruct (map_result f l) as [ys|] eqn:F; cbn [bind] in H; [|discriminate]. injection H as <-. constructor; auto.
Qed.
Lemma map_result_of {A B} (f : A -> result B) l r : Forall2 (fun x y => f x = Ok y) l r -> map_result f l = Ok r.
Proof. induction 1 as [|x y l r H K IH]; cbn [map_result]; [reflexivity|]. rewrite H. cbn [bind]. rewrite IH. reflexivity. Qed.
Lemma Forall2_in_r {A B} (P : A -> B -> Prop) l r y : Forall2 P l r -> In y r -> exists x, In x l /\ P x y.
Proof. induction 1 as [|a b l r H K IH]; intros [].
  - subst. exists a. split; [left; reflexivity|exact H].
  - destruct IH as (x & X1 & X2); [assumption|]. exists x. split; [right; exact X1|exact X2].
Qed.
Lemma Forall2_in_l {A B} (P : A -> B -> Prop) l r x : Forall2 P l r -> In x l -> exists y, In y r /\ P x y.
Proof. induction 1 as [|a b l r H K IH]; intros [].
  - subst. exists b. split; [left; reflexivity|exact H].
  - destruct IH as (y & X1 & X2); [assumption|]. exists y. split; [right; exact X1|exact X2].
Qed.

Lemma mro_inv n L c m : mro n L c = Ok m -> exists k bs ls r, n = S k /\ dget eqs (l_bases L) c = Some bs /\
  Forall2 (fun b l => mro k L b = Ok l) bs ls /\ merge (S (List.length (List.concat ls) + List.length bs)) (ls ++ [bs]) = Ok r /\ m = c :: r.
Proof.
  destruct n as [|k]; cbn [mro]; [discriminate|]. destruct (dget eqs (l_bases L) c) as [bs|]; [|discriminate].
  destruct (map_result (mro k L) bs) as [ls|] eqn:E; cbn [bind]; [|discriminate].
  destruct (merge _ (ls ++ [bs])) as [r|] eqn:F; cbn [bind]; [|discriminate].
  intros H. injection H as <-. exists k, bs, ls, r. repeat (split; [auto using map_result_ok|]). reflexivity.
Qed.
Lemma mro_mono n : forall L c m k, mro n L c = Ok m -> n <= k -> mro k L c = Ok m.
Proof.
  induction n as [|n IH]; intros L c m k H K; [discriminate|]. destruct k as [|k]; [lia|].
  destruct (mro_inv _ _ _ _ H) as (k' & bs & ls & r & E & B & F & M & ->). injection E as <-.
  cbn [mro]. rewrite B. rewrite (map_result_of _ _ ls).
  - cbn [bind]. rewrite M. reflexivity.
  - clear - F IH K. induction F as [|b l bs ls H F IF]; constructor; [apply (IH _ _ _ k H); lia|exact IF].
Qed.
Lemma mro_head n L c m : mro n L c = Ok m -> exists r, m = c :: r.
Proof. intros H. destruct (mro_inv _ _ _ _ H) as (k & bs & ls & r & _ & _ & _ & _ & ->). exists r. reflexivity. Qed.
(** Every class in the order has an order of its own, within the order. *)
Lemma mro_member n : forall L c m x, mro n L c = Ok m -> In x (tl m) ->
  exists k mx, k < n /\ mro k L x = Ok mx /\ within mx (tl m).
Proof.
  induction n as [|n IH]; intros L c m x H K; [discriminate|].
  destruct (mro_inv _ _ _ _ H) as (k & bs & ls & r & E & B & F & M & ->). injection E as <-. cbn [tl] in K |- *.
  destruct (merge_sound _ _ _ M) as (_ & W & C). destruct (C _ K) as (s & S1 & S2).
  assert (BASE : exists b l, In b bs /\ In l ls /\ mro n L b = Ok l /\ In x l).
  { apply in_app_iff in S1. destruct S1 as [S1|[<-|[]]].
    - destruct (Forall2_in_r _ _ _ _ F S1) as (b & B1 & B2). exists b, s. repeat (split; [assumption|]). exact S2.
    - destruct (Forall2_in_l _ _ _ _ F S2) as (l & B1 & B2). exists x, l. repeat (split; [assumption|]).
      destruct (mro_head _ _ _ _ B2) as (q & ->). left. reflexivity. }
  destruct BASE as (b & l & B1 & B2 & B3 & B4).
  assert (WL : within l r) by (apply W; apply in_app_iff; left; exact B2).
  destruct (mro_head _ _ _ _ B3) as (q & ->). destruct B4 as [->|B4].
  - exists n, (x :: q). split; [lia|]. split; assumption.
  - destruct (IH _ _ _ x B3 B4) as (k & mx & K1 & K2 & K3). exists k, mx. split; [lia|]. split; [exact K2|].
    cbn [tl] in K3. apply (within_trans _ (b :: q)); [apply within_skip; exact K3|exact WL].
Qed.
Lemma mro_fresh n : forall L c m, mro n L c = Ok m -> ~ In c (tl m).
Proof.
  induction n as [n IH] using lt_wf_ind. intros L c m H K.
  destruct (mro_member _ _ _ _ _ H K) as (k & mx & K1 & K2 & K3).
  pose proof (mro_mono _ _ _ _ n K2 (Nat.lt_le_incl _ _ K1)) as E. rewrite H in E. injection E as <-.
  exact (IH k K1 L c m K2 K).
Qed.
Lemma mro_nodup n L c m : mro n L c = Ok m -> NoDup m.
Proof.
  intros H. pose proof (mro_fresh _ _ _ _ H) as N. destruct (mro_inv _ _ _ _ H) as (k & bs & ls & r & _ & _ & _ & M & ->).
  constructor; [exact N|]. apply (merge_sound _ _ _ M).
Qed.
Lemma mro_bases n L c m bs : mro n L c = Ok m -> dget eqs (l_bases L) c = Some bs -> within (c :: bs) m.
Proof.
  intros H D. destruct (mro_inv _ _ _ _ H) as (k & bs' & ls & r & _ & B & _ & M & ->). rewrite D in B. injection B as <-.
  apply within_keep. apply (merge_sound _ _ _ M). apply in_app_iff. right. left. reflexivity.
Qed.
Lemma mro_descends n : forall L c m x, mro n L c = Ok m -> In x m -> descends L c x.
Proof.
  induction n as [|n IH]; intros L c m x H K; [discriminate|].
  destruct (mro_inv _ _ _ _ H) as (k & bs & ls & r & E & B & F & M & ->). injection E as <-.
  destruct K as [<-|K]; [constructor|]. destruct (merge_sound _ _ _ M) as (_ & W & C). destruct (C _ K) as (s & S1 & S2).
  assert (TR : forall b x, In b bs -> descends L b x -> descends L c x).
  { intros b y Hb Hd. induction Hd as [|d es e Hd IHd E1 E2]; [econstructor 2; [constructor|exact B|exact Hb]|].
    econstructor 2; [exact IHd|exact E1|exact E2]. }
  apply in_app_iff in S1. destruct S1 as [S1|[<-|[]]].
  - destruct (Forall2_in_r _ _ _ _ F S1) as (b & B1 & B2). apply (TR b); [exact B1|]. exact (IH _ _ _ _ B2 S2).
  - apply (TR x); [exact S2|constructor].
Qed.

(** ** [order] *)
Lemma order_sub L c m d : order L c = Ok m -> In d m -> exists md, order L d = Ok md /\ within md m.
Proof.
  unfold order. intros H K. destruct (mro_head _ _ _ _ H) as (r & ->). destruct K as [<-|K].
  - exists (c :: r). split; [exact H|apply within_refl].
  - destruct (mro_member _ _ _ _ _ H K) as (k & mx & K1 & K2 & K3). exists mx.
    split; [apply (mro_mono _ _ _ _ depth K2); lia|apply within_skip; exact K3].
Qed.
Theorem order_facts L c m : order L c = Ok m ->
  (exists r, m = c :: r) /\ NoDup m /\ (forall d, In d m <-> descends L c d) /\
  (forall d bs, In d m -> dget eqs (l_bases L) d = Some bs -> within (d :: bs) m) /\
  (forall d, In d m -> exists md, order L d = Ok md /\ within md m).
Proof.
  intros H. split; [exact (mro_head _ _ _ _ H)|]. split; [exact (mro_nodup _ _ _ _ H)|].
  assert (B : forall d bs, In d m -> dget eqs (l_bases L) d = Some bs -> within (d :: bs) m).
  { intros d bs K D. destruct (order_sub _ _ _ _ H K) as (md & E & W). apply (within_trans _ md); [|exact W].
    exact (mro_bases _ _ _ _ _ E D). }
  split; [|split; [exact B|intros d K; exact (order_sub _ _ _ _ H K)]].
  intros d. split; [exact (mro_descends _ _ _ _ _ H)|].
  induction 1 as [|d bs e Hd IH E1 E2]; [destruct (mro_head _ _ _ _ H) as (r & ->); left; reflexivity|].
  apply (within_in _ _ e (B d bs IH E1)). right. exact E2.
Qed.

Lemma first_some_split {A B} (f : A -> option B) l y : first_some f l = Some y <->
  exists l1 x l2, l = l1 ++ x :: l2 /\ f x = Some y /\ forall z, In z l1 -> f z = None.
Proof.
  induction l as [|x l IH]; cbn [first_some].
  - split; [discriminate|]. intros ([|z l1] & x & l2 & E & _); discriminate.
  - destruct (f x) as [z|] eqn:E.
    + split.
      * intros H. injection H as ->. exists [], x, l. split; [reflexivity|]. split; [exact E|intros z []].
      * intros ([|w l1] & x' & l2 & E1 & E2 & E3).
        -- injection E1 as <- _. congruence.
        -- injection E1 as <- _. rewrite (E3 x) in E; [discriminate|left; reflexivity].
    + rewrite IH. split.
      * intros (l1 & x' & l2 & -> & E2 & E3). exists (x :: l1), x', l2. split; [reflexivity|]. split; [exact E2|].
        intros z [<-|K]; [exact E|exact (E3 z K)].
      * intros ([|w l1] & x' & l2 & E1 & E2 & E3).
        -- injection E1 as <- _. congruence.
        -- injection E1 as <- ->. exists l1, x', l2. split; [reflexivity|]. split; [exact E2|]. intros z K. apply E3. right. exact K.
Qed.
(** Two members of a list without repetitions come in one order only. *)
Lemma split_before {A} (l1 l2 : list A) (e d : A) r : NoDup (l1 ++ d :: l2) -> e <> d ->
  within (e :: r) (l1 ++ d :: l2) -> In d r -> In e l1.
Proof.
  intros N E W R. destruct (within_cons_inv _ _ _ W) as (m1 & m2 & Q & W').
  pose proof (within_in _ _ _ W' R) as I2. clear W W' R r. revert l1 N Q. induction m1 as [|x m1 IH]; intros l1 N Q.
  - destruct l1 as [|y l1]; cbn in Q.
    + injection Q as E1 E2. exfalso. apply E. symmetry. exact E1.
    + injection Q as E1 E2. left. exact E1.
  - destruct l1 as [|y l1]; cbn in Q.
    + injection Q as E1 E2. cbn in N. inversion N as [|? ? N1 N2]. exfalso. apply N1. rewrite E2. apply in_app_iff. right. right. exact I2.
    + injection Q as E1 E2. cbn in N. inversion N; subst. right. apply IH; assumption.
Qed.
Theorem lookup_most_derived {B} (f : cls -> option B) L c m y : order L c = Ok m ->
  (first_some f m = Some y -> exists d, descends L c d /\ f d = Some y /\
     forall e, descends L c e -> descends L e d -> f e <> None -> e = d).
Proof.
  intros H K. destruct (order_facts _ _ _ H) as (_ & ND & D & _ & SUB).
  apply first_some_split in K. destruct K as (l1 & d & l2 & -> & E1 & E2).
  exists d. split; [apply D; apply in_elt|]. split; [exact E1|]. intros e De Ded Ne.
  destruct (string_dec e d) as [->|Q]; [reflexivity|]. exfalso. apply Ne. apply E2.
  apply D in De. destruct (SUB _ De) as (me & M1 & M2). destruct (order_facts _ _ _ M1) as ((r & ->) & _ & D' & _).
  apply D' in Ded. destruct Ded as [->|Ded]; [congruence|]. exact (split_before _ _ _ _ _ ND Q M2 Ded).
Qed.
Theorem lookup_none {B} (f : cls -> option B) L c m : order L c = Ok m ->
  (first_some f m = None <-> forall d, descends L c d -> f d = None).
Proof.
  intros H. destruct (order_facts _ _ _ H) as (_ & _ & D & _).
  assert (Q : first_some f m = None <-> forall d, In d m -> f d = None).
  { clear. induction m as [|x m IH]; cbn [first_some]; [split; [intros _ d []|reflexivity]|]. destruct (f x) eqn:E.
    - split; [discriminate|]. intros K. rewrite (K x) in E; [discriminate|left; reflexivity].
    - rewrite IH. split; [intros K d [<-|Hd]; [exact E|auto]|intros K d Hd; apply K; right; exact Hd]. }
  rewrite Q. split; intros K d Hd; apply K; apply D; exact Hd.
Qed.
Theorem find_prop_facts L c a m : order L c = Ok m ->
  (forall q, find_prop L c a = Some q -> exists d, descends L c d /\ own_prop L a d = Some q /\
     forall e, descends L c e -> descends L e d -> own_prop L a e <> None -> e = d) /\
  (find_prop L c a = None <-> forall d, descends L c d -> own_prop L a d = None).
Proof.
  intros H. unfold find_prop. rewrite H. split; [intros q; exact (lookup_most_derived _ _ _ _ _ H)|exact (lookup_none _ _ _ _ H)].
Qed.
