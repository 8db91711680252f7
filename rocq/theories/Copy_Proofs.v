(** Proofs about copying. *)
From Coq Require Import ZArith List Bool Lia PeanoNat.
From Verif Require Import Common Dict Wires_Model Copy_Model Copy_Spec.
Import ListNotations.

(** ** Induction over trees. *)
Lemma node_ind' (P : node -> Prop) :
  (forall i v, P (Ent i v)) ->
  (forall i v kids ss ws, Forall P kids -> P (Grp i v kids ss ws)) -> forall n, P n.
Proof.
  intros HE HG. fix IH 1. intros [i v|i v kids ss ws]; [apply HE|apply HG].
  induction kids as [|k l IHl]; constructor; [apply IH|exact IHl].
Qed.

Lemma ids_ident n : In (ident n) (ids n).
Proof. destruct n; left; reflexivity. Qed.

(** ** What is known, abstractly. *)
Definition env := nat -> option nat.
Definition lk (s : state) : env := fun i => option_map ident (dget Nat.eqb (memo s) i).
Fixpoint upd (e : env) (k : nat) (l : list nat) : env :=
  match l with
  | [] => e
  | x :: l' => upd (fun i => if Nat.eqb i x then Some k else e i) (S k) l'
  end.
Lemma upd_ext l : forall e e' k, (forall i, e i = e' i) -> forall i, upd e k l i = upd e' k l i.
Proof.
  induction l as [|x l IH]; intros e e' k H i; [apply H|]. cbn. apply IH. intros y. rewrite H. reflexivity.
Qed.
Lemma upd_app l1 : forall l2 e k i, upd e k (l1 ++ l2) i = upd (upd e k l1) (k + List.length l1) l2 i.
Proof.
  induction l1 as [|x l1 IH]; intros l2 e k i; cbn [app upd List.length].
  - rewrite Nat.add_0_r. reflexivity.
  - rewrite IH, Nat.add_succ_r. reflexivity.
Qed.
Lemma upd_old l : forall e k i, ~ In i l -> upd e k l i = e i.
Proof.
  induction l as [|x l IH]; intros e k i N; [reflexivity|]. cbn. rewrite IH by (intros H; apply N; right; exact H).
  destruct (Nat.eqb_spec i x) as [->|]; [exfalso; apply N; left; reflexivity|reflexivity].
Qed.
Lemma upd_new l : NoDup l -> forall e k i, In i l -> exists d, nth_error l d = Some i /\ upd e k l i = Some (k + d).
Proof.
  induction 1 as [|x l N D IH]; intros e k i H; [destruct H|]. destruct H as [->|H].
  - exists 0. split; [reflexivity|]. cbn. rewrite upd_old by exact N. rewrite Nat.eqb_refl, Nat.add_0_r. reflexivity.
  - destruct (IH (fun j => if Nat.eqb j x then Some k else e j) (S k) i H) as (d & A & B).
    exists (S d). split; [exact A|]. cbn [upd]. rewrite B. f_equal. lia.
Qed.
Lemma upd_def l e k i : NoDup l -> (upd e k l i <> None <-> e i <> None \/ In i l).
Proof.
  intros D. destruct (in_dec Nat.eq_dec i l) as [H|H].
  - destruct (upd_new l D e k i H) as (d & _ & B). rewrite B. split; [right; exact H|intros _; discriminate].
  - rewrite upd_old by exact H. tauto.
Qed.

Lemma lk_remember i n s j : lk (remember i n s) j = if Nat.eqb j i then Some (ident n) else lk s j.
Proof. unfold lk, remember. cbn. rewrite Nat.eqb_sym. destruct (Nat.eqb j i); reflexivity. Qed.
Lemma lk_none s i : lk s i = None -> dget Nat.eqb (memo s) i = None.
Proof. unfold lk. destruct (dget Nat.eqb (memo s) i); [discriminate|reflexivity]. Qed.

(** ** Rewiring. *)
Definition fn (e : env) (i : nat) : nat := match e i with Some j => j | None => 0 end.
Definition bad_end (e : wend) : Prop := exists z, e = WInt z.
Lemma rewire_spec s w :
  match rewire s w with
  | Ok w' => sound_end (fun i => lk s i <> None) w /\ w' = move_end (fn (lk s)) w
  | Err x => ~ sound_end (fun i => lk s i <> None) w /\ (x = KeyError \/ bad_end w)
  end.
Proof.
  destruct w as [z|[i|]]; cbn.
  - split; [intros (i & E & _); discriminate|right; exists z; reflexivity].
  - unfold fn, lk, sound_end. destruct (dget Nat.eqb (memo s) i) as [n|] eqn:E; cbn.
    + split; [exists i; rewrite E; split; [reflexivity|discriminate]|reflexivity].
    + split; [|left; reflexivity]. intros (j & X & Y). injection X as <-. rewrite E in Y. apply Y. reflexivity.
  - split; [intros (i & E & _); discriminate|left; reflexivity].
Qed.
Lemma mapR_spec {A B} (f : A -> result B) (good : A -> Prop) (out : A -> B) (blame : exn -> A -> Prop)
  (H : forall a, match f a with Ok b => good a /\ b = out a | Err x => ~ good a /\ blame x a end) l :
  match mapR f l with
  | Ok r => Forall good l /\ r = map out l
  | Err x => ~ Forall good l /\ exists a, In a l /\ blame x a
  end.
Proof.
  induction l as [|a l IH]; cbn; [split; [constructor|reflexivity]|].
  specialize (H a). destruct (f a) as [b|x]; cbn.
  - destruct H as [G ->]. destruct (mapR f l) as [r|x]; cbn.
    + destruct IH as [F ->]. split; [constructor; assumption|reflexivity].
    + destruct IH as [F (a' & I & Bl)]. split; [intros X; apply F; inversion X; assumption|].
      exists a'. split; [right; exact I|exact Bl].
  - destruct H as [G Bl]. split; [intros X; apply G; inversion X; assumption|]. exists a. split; [left; reflexivity|exact Bl].
Qed.
Definition blame (x : exn) (l : list wend) : Prop := x = KeyError \/ exists e, In e l /\ bad_end e.
Lemma rewire_wire_spec s w :
  match rewire_wire s w with
  | Ok w' => Forall (sound_end (fun i => lk s i <> None)) (wire_ends w) /\ w' = move_wire (fn (lk s)) w
  | Err x => ~ Forall (sound_end (fun i => lk s i <> None)) (wire_ends w) /\ blame x (wire_ends w)
  end.
Proof.
  destruct w as [[[a p] b] q]. unfold rewire_wire, wire_ends, move_wire.
  pose proof (rewire_spec s a) as Ha. pose proof (rewire_spec s b) as Hb.
  destruct (rewire s a) as [a'|x]; cbn.
  - destruct Ha as [Ga ->]. destruct (rewire s b) as [b'|x]; cbn.
    + destruct Hb as [Gb ->]. split; [repeat constructor; assumption|reflexivity].
    + destruct Hb as [Gb Bl]. split; [intros X; apply Gb; inversion X as [|? ? _ Y]; inversion Y; assumption|].
      destruct Bl as [Bl|Bl]; [left; exact Bl|right; exists b; split; [right; left; reflexivity|exact Bl]].
  - destruct Ha as [Ga Bl]. split; [intros X; apply Ga; inversion X; assumption|].
    destruct Bl as [Bl|Bl]; [left; exact Bl|right; exists a; split; [left; reflexivity|exact Bl]].
Qed.
Lemma rewire_sched_spec s l :
  match mapR (rewire s) l with
  | Ok l' => Forall (sound_end (fun i => lk s i <> None)) l /\ l' = map (move_end (fn (lk s))) l
  | Err x => ~ Forall (sound_end (fun i => lk s i <> None)) l /\ blame x l
  end.
Proof.
  pose proof (mapR_spec _ _ _ _ (rewire_spec s) l) as H. destruct (mapR (rewire s) l); [exact H|].
  destruct H as [A (a & I & [B|B])]; (split; [exact A|]); [left; exact B|right; exists a; split; assumption].
Qed.
Lemma Forall_flat {A B} (P : B -> Prop) (g : A -> list B) l : Forall (fun a => Forall P (g a)) l <-> Forall P (flat_map g l).
Proof.
  induction l as [|a l IH]; cbn; [split; constructor|]. rewrite Forall_app, <- IH. split; [inversion 1; split; assumption|].
  intros [H K]; constructor; assumption.
Qed.
Lemma Forall_cat {B} (P : B -> Prop) l : Forall (Forall P) l <-> Forall P (concat l).
Proof.
  induction l as [|a l IH]; cbn; [split; constructor|]. rewrite Forall_app, <- IH. split; [inversion 1; split; assumption|].
  intros [H K]; constructor; assumption.
Qed.

(** ** The condition, along the way of the code. *)
Fixpoint okc (B : nat -> Prop) (n : node) : Prop :=
  match n with
  | Ent _ _ => True
  | Grp i v kids ss ws =>
      (fix okl (C : nat -> Prop) (l : list node) : Prop :=
         match l with [] => True | k :: l' => okc C k /\ okl (fun j => C j \/ In j (ids k)) l' end)
        (fun j => B j \/ j = i) kids /\
      Forall (sound_end (fun j => B j \/ In j (ids n))) (own_ends n)
  end.
Fixpoint okl (C : nat -> Prop) (l : list node) : Prop :=
  match l with [] => True | k :: l' => okc C k /\ okl (fun j => C j \/ In j (ids k)) l' end.
Lemma okc_grp B i v kids ss ws : okc B (Grp i v kids ss ws) <->
  okl (fun j => B j \/ j = i) kids /\ Forall (sound_end (fun j => B j \/ In j (ids (Grp i v kids ss ws)))) (own_ends (Grp i v kids ss ws)).
Proof. reflexivity. Qed.
Lemma sound_ext P Q e : (forall i, P i <-> Q i) -> (sound_end P e <-> sound_end Q e).
Proof. intros H. split; intros (i & E & X); exists i; (split; [exact E|apply H; exact X]). Qed.
Lemma Forall_sound_ext P Q l : (forall i, P i <-> Q i) -> (Forall (sound_end P) l <-> Forall (sound_end Q) l).
Proof. intros H. split; apply Forall_impl; intros e X; apply (sound_ext P Q e H); exact X. Qed.
Lemma okc_ext n : forall B B', (forall i, B i <-> B' i) -> (okc B n <-> okc B' n).
Proof.
  induction n as [i v|i v kids ss ws IH] using node_ind'; intros B B' H; [reflexivity|].
  rewrite !okc_grp.
  assert (L : forall C C', (forall j, C j <-> C' j) -> (okl C kids <-> okl C' kids)).
  { clear H. induction IH as [|k l Hk _ IHl]; intros C C' H; [reflexivity|]. cbn [okl].
    rewrite (Hk C C' H). rewrite (IHl (fun j => C j \/ In j (ids k)) (fun j => C' j \/ In j (ids k))); [reflexivity|].
    intros j. rewrite H. reflexivity. }
  rewrite (L (fun j => B j \/ j = i) (fun j => B' j \/ j = i)) by (intros j; rewrite H; reflexivity).
  rewrite (Forall_sound_ext (fun j => B j \/ In j (ids (Grp i v kids ss ws))) (fun j => B' j \/ In j (ids (Grp i v kids ss ws)))); [reflexivity|].
  intros j. rewrite H. reflexivity.
Qed.
Lemma okl_ext l : forall B B', (forall i, B i <-> B' i) -> (okl B l <-> okl B' l).
Proof.
  induction l as [|k l IHl]; intros C C' H; [reflexivity|]. cbn [okl].
  rewrite (okc_ext k C C' H). rewrite (IHl (fun j => C j \/ In j (ids k)) (fun j => C' j \/ In j (ids k))); [reflexivity|].
  intros j. rewrite H. reflexivity.
Qed.

(** ** Moving depends on what is met only. *)
Definition meets (n : node) (i : nat) : Prop := In i (ids n) \/ leads_to n (WRef (Some i)).
Lemma move_end_ext f g e : (forall i, e = WRef (Some i) -> f i = g i) -> move_end f e = move_end g e.
Proof. destruct e as [z|[i|]]; cbn; intros H; try reflexivity. rewrite H; reflexivity. Qed.
Lemma move_ends_ext f g l : (forall i, In (WRef (Some i)) l -> f i = g i) -> map (move_end f) l = map (move_end g) l.
Proof. intros H. apply map_ext_in. intros e I. apply move_end_ext. intros i ->. apply H, I. Qed.
Lemma move_wire_ext f g w : (forall i, In (WRef (Some i)) (wire_ends w) -> f i = g i) -> move_wire f w = move_wire g w.
Proof.
  destruct w as [[[a p] b] q]. cbn. intros H.
  rewrite (move_end_ext f g a), (move_end_ext f g b); [reflexivity| |]; intros i E; apply H; subst; auto.
Qed.
Lemma move_ext n : forall f g, (forall i, meets n i -> f i = g i) -> move f n = move g n.
Proof.
  induction n as [i v|i v kids ss ws IH] using node_ind'; intros f g H; cbn [move].
  - rewrite H; [reflexivity|]. left; left; reflexivity.
  - rewrite H by (left; left; reflexivity). f_equal.
    + rewrite Forall_forall in IH. apply map_ext_in. intros k Ik. apply IH; [exact Ik|]. intros j [M|M].
      * apply H. left. right. apply in_flat_map. exists k. split; assumption.
      * apply H. right. destruct M as (h & Ih & E). exists h. split; [|exact E]. eapply inside_kid; eassumption.
    + apply map_ext_in. intros l Il. apply move_ends_ext. intros j Ij. apply H. right. exists (Grp i v kids ss ws).
      split; [constructor|]. cbn. apply in_or_app. left. apply in_concat. exists l. split; assumption.
    + apply map_ext_in. intros w Iw. apply move_wire_ext. intros j Ij. apply H. right. exists (Grp i v kids ss ws).
      split; [constructor|]. cbn. apply in_or_app. right. apply in_flat_map. exists w. split; assumption.
Qed.

(** ** The code follows the condition. *)
Definition blames (x : exn) (n : node) : Prop := x = KeyError \/ exists e, leads_to n e /\ bad_end e.
Definition spec_of (n : node) (s : state) : Prop :=
  match copy_node n s with
  | Ok (n', s') => okc (fun i => lk s i <> None) n /\ next s' = next s + List.length (ids n) /\
      (forall i, lk s' i = upd (lk s) (next s) (ids n) i) /\ n' = move (fn (lk s')) n /\
      (forall i, meets n i -> lk s' i <> None)
  | Err x => ~ okc (fun i => lk s i <> None) n /\ blames x n
  end.
Definition kids_spec (l : list node) (s : state) : Prop :=
  match copy_kids copy_node l s with
  | Ok (l', s') => okl (fun i => lk s i <> None) l /\ next s' = next s + List.length (flat_map ids l) /\
      (forall i, lk s' i = upd (lk s) (next s) (flat_map ids l) i) /\ l' = map (move (fn (lk s'))) l /\
      (forall n i, In n l -> meets n i -> lk s' i <> None)
  | Err x => ~ okl (fun i => lk s i <> None) l /\ exists n, In n l /\ blames x n
  end.
Definition unknown (l : list nat) (s : state) : Prop := NoDup l /\ forall i, In i l -> lk s i = None.
Lemma NoDup_split {A} (a b : list A) : NoDup (a ++ b) -> NoDup a /\ NoDup b /\ forall x, In x a -> ~ In x b.
Proof.
  induction a as [|x a IH]; cbn; intros D; [repeat split; [constructor|exact D|intros x []]|].
  apply NoDup_cons_iff in D as [N D]. destruct (IH D) as (A1 & B1 & C1). split.
  - constructor; [intros H; apply N, in_or_app; left; exact H|exact A1].
  - split; [exact B1|]. intros y [->|H]; [intros K; apply N, in_or_app; right; exact K|apply C1, H].
Qed.
Lemma fn_eq e i : forall e', e' i = e i -> fn e' i = fn e i.
Proof. unfold fn. intros e' ->. reflexivity. Qed.

Lemma move_ident f n : ident (move f n) = f (ident n).
Proof. destruct n; reflexivity. Qed.

Lemma copy_kids_spec l : Forall (fun n => forall s, unknown (ids n) s -> spec_of n s) l ->
  forall s, unknown (flat_map ids l) s -> kids_spec l s.
Proof.
  induction 1 as [|n l Hn _ IH]; intros s [D U].
  - unfold kids_spec. cbn. repeat split; [lia|intros n i []].
  - cbn [flat_map] in D, U. destruct (NoDup_split _ _ D) as (D1 & D2 & DX).
    specialize (Hn s). assert (Un : unknown (ids n) s) by (split; [exact D1|intros i I; apply U, in_or_app; left; exact I]).
    specialize (Hn Un). unfold spec_of in Hn. unfold kids_spec. cbn [copy_kids].
    destruct (copy_node n s) as [[n' s1]|x]; cbn [bind].
    2:{ destruct Hn as [N Bl]. split; [intros [X _]; apply N, X|]. exists n. split; [left; reflexivity|exact Bl]. }
    destruct Hn as (O & NX & LK & MV & ME).
    set (s1' := remember (ident n) n' s1).
    assert (L1 : forall i, lk s1' i = upd (lk s) (next s) (ids n) i).
    { intros i. unfold s1'. rewrite lk_remember. destruct (Nat.eqb_spec i (ident n)) as [->|]; [|apply LK].
      rewrite MV, move_ident. unfold fn. rewrite LK.
      destruct (upd_new (ids n) D1 (lk s) (next s) _ (ids_ident n)) as (d & _ & E). rewrite E. reflexivity. }
    assert (NX1 : next s1' = next s + List.length (ids n)) by exact NX. clearbody s1'.
    assert (Un1 : unknown (flat_map ids l) s1').
    { split; [exact D2|]. intros i I. rewrite L1, upd_old by (intros K; apply (DX i K I)). apply U, in_or_app. right. exact I. }
    specialize (IH s1' Un1). unfold kids_spec in IH.
    assert (EQ : forall i, (lk s1' i <> None) <-> (lk s i <> None \/ In i (ids n))).
    { intros i. rewrite L1. apply upd_def, D1. }
    change ((fix go (l0 : list node) (s0 : state) {struct l0} : result (list node * state) := _) l s1') with (copy_kids copy_node l s1').
    destruct (copy_kids copy_node l s1') as [[r s2]|x]; cbn [bind].
    + destruct IH as (O2 & NX2 & LK2 & MV2 & ME2).
      assert (L2 : forall i, lk s2 i = upd (lk s) (next s) (ids n ++ flat_map ids l) i).
      { intros i. rewrite LK2, upd_app, NX1. apply upd_ext. exact L1. }
      split; [|split; [|split; [|split]]].
      * cbn [okl]. split; [exact O|]. apply (okl_ext l _ _ EQ). exact O2.
      * rewrite NX2, NX1. cbn [flat_map]. rewrite app_length. lia.
      * exact L2.
      * cbn [map]. f_equal; [|exact MV2]. rewrite MV. apply move_ext. intros i M.
        apply fn_eq. specialize (ME i M). rewrite LK in ME |- *. rewrite LK2.
        destruct (in_dec Nat.eq_dec i (flat_map ids l)) as [I|I].
        -- exfalso. apply upd_def in ME; [|exact D1]. destruct ME as [ME|ME]; [|exact (DX i ME I)].
           apply ME, U, in_or_app. right. exact I.
        -- rewrite (upd_old (flat_map ids l)) by exact I. symmetry. apply L1.
      * intros m i [<-|I] M.
        -- rewrite L2, upd_app. specialize (ME i M). rewrite LK in ME. apply upd_def; [exact D2|]. left. exact ME.
        -- exact (ME2 m i I M).
    + destruct IH as [N (m & Im & Bl)]. split.
      * intros [_ X]. apply N. apply (okl_ext l _ _ EQ). exact X.
      * exists m. split; [right; exact Im|exact Bl].
Qed.

Lemma copy_spec n : forall s, unknown (ids n) s -> spec_of n s.
Proof.
  induction n as [i v|i v kids ss ws IH] using node_ind'; intros s [D U]; unfold spec_of.
  - cbn [copy_node ident]. rewrite (lk_none s i) by (apply U; left; reflexivity). cbn [fresh].
    assert (L : forall j, lk (remember i (Ent (next s) v) (mkS (memo s) (S (next s)))) j = upd (lk s) (next s) [i] j).
    { intros j. rewrite lk_remember. cbn. reflexivity. }
    split; [exact Logic.I|]. split; [cbn; lia|]. split; [exact L|]. split.
    + cbn [move]. unfold fn. rewrite L. cbn. rewrite Nat.eqb_refl. reflexivity.
    + intros j [M|M].
      * destruct M as [<-|[]]. rewrite L. cbn. rewrite Nat.eqb_refl. discriminate.
      * destruct M as (h & Ih & E). inversion Ih; subst. destruct E.
  - cbn [copy_node]. change (ident (Grp i v kids ss ws)) with i.
    rewrite (lk_none s i) by (apply U; left; reflexivity). cbn [fresh].
    set (s0 := remember i (Grp (next s) v [] [] []) (mkS (memo s) (S (next s)))).
    assert (L0 : forall j, lk s0 j = upd (lk s) (next s) [i] j).
    { intros j. unfold s0. rewrite lk_remember. cbn. reflexivity. }
    assert (N0 : next s0 = S (next s)) by reflexivity. clearbody s0.
    cbn [ids] in D, U. assert (D' := D). apply NoDup_cons_iff in D' as [NI D2].
    assert (E0 : forall j, (lk s0 j <> None) <-> (lk s j <> None \/ j = i)).
    { intros j. rewrite L0. rewrite upd_def by (repeat constructor; intros []). cbn. intuition congruence. }
    assert (U0 : unknown (flat_map ids kids) s0).
    { split; [exact D2|]. intros j I. rewrite L0, upd_old by (intros [X|[]]; apply NI; rewrite X; exact I). apply U. right. exact I. }
    pose proof (copy_kids_spec kids IH s0 U0) as K. unfold kids_spec in K.
    destruct (copy_kids copy_node kids s0) as [[kids' s2]|x]; cbn [bind].
    2:{ destruct K as [N (m & Im & Bl)]. split.
        - rewrite okc_grp. intros [X _]. apply N. apply (okl_ext kids _ _ E0). exact X.
        - destruct Bl as [Bl|(e & (h & Ih & Ie) & Be)]; [left; exact Bl|]. right. exists e. split; [|exact Be].
          exists h. split; [eapply inside_kid; eassumption|exact Ie]. }
    destruct K as (O & NX & LK & MV & ME).
    assert (L2 : forall j, lk s2 j = upd (lk s) (next s) (i :: flat_map ids kids) j).
    { intros j. rewrite LK, N0. change (i :: flat_map ids kids) with ([i] ++ flat_map ids kids). rewrite upd_app.
      replace (next s + List.length [i]) with (S (next s)) by (cbn; lia). apply upd_ext. exact L0. }
    assert (E2 : forall j, (lk s2 j <> None) <-> (lk s j <> None \/ In j (ids (Grp i v kids ss ws)))).
    { intros j. rewrite L2. apply upd_def. exact D. }
    assert (Hss : match mapR (mapR (rewire s2)) ss with
      | Ok r => Forall (Forall (sound_end (fun j => lk s2 j <> None))) ss /\ r = map (map (move_end (fn (lk s2)))) ss
      | Err x => ~ Forall (Forall (sound_end (fun j => lk s2 j <> None))) ss /\ exists a, In a ss /\ blame x a end).
    { apply (mapR_spec _ _ _ blame). exact (rewire_sched_spec s2). }
    destruct (mapR (mapR (rewire s2)) ss) as [ss'|x]; cbn [bind].
    2:{ destruct Hss as [N (a & Ia & Bl)]. split.
        - rewrite okc_grp. intros [_ X]. cbn [own_ends] in X. apply Forall_app in X as [X _]. apply N, Forall_cat.
          revert X. apply Forall_sound_ext. exact E2.
        - destruct Bl as [Bl|(e & Ie & Be)]; [left; exact Bl|]. right. exists e. split; [|exact Be].
          exists (Grp i v kids ss ws). split; [constructor|]. cbn. apply in_or_app. left. apply in_concat. exists a. split; assumption. }
    destruct Hss as [Gss ->].
    assert (Hws := mapR_spec (rewire_wire s2) _ _ (fun x w => blame x (wire_ends w)) (rewire_wire_spec s2) ws).
    destruct (mapR (rewire_wire s2) ws) as [ws'|x]; cbn [bind].
    2:{ destruct Hws as [N (a & Ia & Bl)]. split.
        - rewrite okc_grp. intros [_ X]. cbn [own_ends] in X. apply Forall_app in X as [_ X]. apply N, Forall_flat.
          revert X. apply Forall_sound_ext. exact E2.
        - destruct Bl as [Bl|(e & Ie & Be)]; [left; exact Bl|]. right. exists e. split; [|exact Be].
          exists (Grp i v kids ss ws). split; [constructor|]. cbn. apply in_or_app. right. apply in_flat_map. exists a. split; assumption. }
    destruct Hws as [Gws ->].
    assert (Ni : fn (lk s2) i = next s).
    { unfold fn. rewrite L2. cbn [upd]. rewrite upd_old by exact NI. rewrite Nat.eqb_refl. reflexivity. }
    set (g := Grp (next s) v kids' (map (map (move_end (fn (lk s2)))) ss) (map (move_wire (fn (lk s2))) ws)).
    assert (L3 : forall j, lk (remember i g s2) j = lk s2 j).
    { intros j. rewrite lk_remember. destruct (Nat.eqb_spec j i) as [->|]; [|reflexivity].
      change (ident g) with (next s). rewrite <- Ni. unfold fn. destruct (lk s2 i) eqn:X; [reflexivity|].
      exfalso. apply (proj2 (E2 i)); [right; left; reflexivity|exact X]. }
    assert (ME' : forall j, meets (Grp i v kids ss ws) j -> lk s2 j <> None).
    { intros j [M|(h & Ih & Ie)].
      - apply E2. right. exact M.
      - inversion Ih; subst.
        + apply E2. assert (F : Forall (sound_end (fun j => lk s2 j <> None)) (own_ends (Grp i v kids ss ws))).
          { cbn [own_ends]. apply Forall_app. split; [apply Forall_cat; exact Gss|apply Forall_flat; exact Gws]. }
          rewrite Forall_forall in F. destruct (F _ Ie) as (j' & X & Y). injection X as <-. apply E2. exact Y.
        + eapply ME; [eassumption|]. right. exists h. split; assumption. }
    split; [|split; [|split; [|split]]].
    + rewrite okc_grp. split; [apply (okl_ext kids _ _ E0); exact O|].
      cbn [own_ends]. apply (Forall_sound_ext _ _ _ E2). apply Forall_app. split; [apply Forall_cat; exact Gss|apply Forall_flat; exact Gws].
    + change (next (remember i g s2)) with (next s2). rewrite NX, N0. cbn [ids List.length]. lia.
    + intros j. rewrite L3. apply L2.
    + rewrite (move_ext (Grp i v kids ss ws) (fn (lk (remember i g s2))) (fn (lk s2))) by (intros j _; apply fn_eq, L3).
      cbn [move]. rewrite Ni. unfold g. rewrite MV. reflexivity.
    + intros j M. rewrite L3. apply ME', M.
Qed.

(** ** The condition, said from outside. *)
Lemma NoDup_place {A} (x : A) : forall pre pre' post post', NoDup (pre ++ x :: post) -> pre ++ x :: post = pre' ++ x :: post' -> pre = pre'.
Proof.
  induction pre as [|a pre IH]; intros [|b pre'] post post' D E; cbn in *.
  - reflexivity.
  - injection E as -> ->. apply NoDup_cons_iff in D as [N _]. exfalso. apply N, in_or_app. right. left. reflexivity.
  - injection E as -> E. apply NoDup_cons_iff in D as [N _]. exfalso. apply N, in_or_app. right. left. reflexivity.
  - injection E as -> E. f_equal. apply NoDup_cons_iff in D as [_ D]. exact (IH pre' post post' D E).
Qed.
Lemma inside_ids h n : inside h n -> forall i, In i (ids h) -> In i (ids n).
Proof.
  induction 1; intros j I; [exact I|]. right. apply in_flat_map. exists k. split; [assumption|]. apply IHinside, I.
Qed.
Lemma known_wider (all : list nat) a k c h : all = a ++ ids k ++ c -> NoDup all -> inside h k ->
  forall i, known all h i <-> In i a \/ known (ids k) h i.
Proof.
  intros E D Ih i. unfold known.
  destruct (in_split (ident h) (ids k) (inside_ids h k Ih _ (ids_ident h))) as (pre & post & Ek).
  assert (Ea : all = (a ++ pre) ++ ident h :: (post ++ c)) by (rewrite E, Ek, <- !app_assoc; reflexivity).
  split.
  - intros [I|(p & q & X & I)]; [right; left; exact I|].
    assert (p = a ++ pre) as ->.
    { symmetry. rewrite Ea in D, X. exact (NoDup_place _ _ _ _ _ D X). }
    apply in_app_or in I as [I|I]; [left; exact I|]. right. right. exists pre, post. split; assumption.
  - intros [I|[I|(p & q & X & I)]].
    + right. exists (a ++ pre), (post ++ c). split; [exact Ea|]. apply in_or_app. left. exact I.
    + left. exact I.
    + right. exists (a ++ p), (q ++ c). split; [rewrite E, X, <- !app_assoc; reflexivity|]. apply in_or_app. right. exact I.
Qed.
Definition cond (B : nat -> Prop) (n : node) : Prop :=
  forall h, inside h n -> Forall (sound_end (fun i => B i \/ known (ids n) h i)) (own_ends h).
Lemma okc_iff n : NoDup (ids n) -> forall B, okc B n <-> cond B n.
Proof.
  induction n as [i v|i v kids ss ws IH] using node_ind'; intros D B.
  - split; [|intros _; exact Logic.I]. intros _ h Ih. inversion Ih; subst. constructor.
  - rewrite okc_grp. set (g := Grp i v kids ss ws) in *.
    assert (L : forall post pre C, kids = pre ++ post -> (forall j, C j <-> B j \/ j = i \/ In j (flat_map ids pre)) ->
      (okl C post <-> forall k, In k post -> forall h, inside h k -> Forall (sound_end (fun j => B j \/ known (ids g) h j)) (own_ends h))).
    { induction post as [|k post IHp]; intros pre C E HC; [split; [intros _ k []|intros _; exact Logic.I]|].
      cbn [okl].
      assert (Dk : ids g = (i :: flat_map ids pre) ++ ids k ++ flat_map ids post).
      { unfold g. cbn [ids]. rewrite E, flat_map_app. reflexivity. }
      assert (NDk : NoDup (ids k)).
      { rewrite Dk in D. apply NoDup_split in D as (_ & D & _). apply NoDup_split in D as (D & _ & _). exact D. }
      rewrite Forall_forall in IH. rewrite (IH k) by (try exact NDk; rewrite E; apply in_or_app; right; left; reflexivity).
      rewrite (IHp (pre ++ [k]) (fun j => C j \/ In j (ids k))).
      2:{ rewrite <- app_assoc. exact E. }
      2:{ intros j. rewrite HC, flat_map_app, in_app_iff. cbn. rewrite app_nil_r. tauto. }
      assert (X : cond C k <-> forall h, inside h k -> Forall (sound_end (fun j => B j \/ known (ids g) h j)) (own_ends h)).
      { unfold cond. assert (Y : forall h, inside h k -> forall j, (C j \/ known (ids k) h j) <-> (B j \/ known (ids g) h j)).
        { intros h Ih j. rewrite (known_wider (ids g) _ k _ h Dk D Ih j), HC. cbn [In]. intuition congruence. }
        split; intros H h Ih; specialize (H h Ih); [exact (proj1 (Forall_sound_ext _ _ _ (Y h Ih)) H)|exact (proj2 (Forall_sound_ext _ _ _ (Y h Ih)) H)]. }
      rewrite X. split.
      - intros [P Q] k' [<-|I]; [exact P|apply Q, I].
      - intros H. split; [apply H; left; reflexivity|intros k' I; apply H; right; exact I]. }
    rewrite (L kids [] (fun j => B j \/ j = i)) by (try reflexivity; intros j; cbn; tauto).
    assert (G : forall j, known (ids g) g j <-> In j (ids g)).
    { intros j. split; [|intros I; left; exact I]. intros [I|(p & q & X & I)]; [exact I|]. rewrite X. apply in_or_app. left. exact I. }
    split.
    + intros [P Q] h Ih. inversion Ih; subst.
      * revert Q. apply Forall_sound_ext. intros j. rewrite G. reflexivity.
      * eapply P; eassumption.
    + intros H. split.
      * intros k Ik h Ih. apply H. eapply inside_kid; eassumption.
      * specialize (H g (inside_here g)). revert H. apply Forall_sound_ext. intros j. rewrite G. reflexivity.
Qed.

(** ** Copying a tree. *)
Definition start (k : nat) : state := mkS [] k.
Lemma start_unknown k l : NoDup l -> unknown l (start k).
Proof. intros D. split; [exact D|reflexivity]. Qed.
Lemma okc_start k n : NoDup (ids n) -> (okc (fun i => lk (start k) i <> None) n <-> copyable n).
Proof.
  intros D. rewrite (okc_iff n D). unfold cond, copyable.
  split; intros H h Ih; specialize (H h Ih); revert H; apply Forall_sound_ext; intros j; unfold start, lk; cbn; intuition congruence.
Qed.
Lemma NoDup_nth (l : list nat) i j d : nth_error l d = Some i -> nth_error l d = Some j -> i = j.
Proof. congruence. Qed.
Lemma renews_upd k l : NoDup l -> renews (fn (upd (lk (start k)) k l)) k l.
Proof.
  intros D. split.
  - intros i j Ii Ij. unfold fn. destruct (upd_new l D (lk (start k)) k i Ii) as (d & A & ->).
    destruct (upd_new l D (lk (start k)) k j Ij) as (d' & A' & ->). intros E.
    assert (d = d') as -> by lia. congruence.
  - intros i Ii. unfold fn. destruct (upd_new l D (lk (start k)) k i Ii) as (d & A & ->). lia.
Qed.
Lemma deepcopy_ok k n m : NoDup (ids n) -> deepcopy k n = Ok m ->
  exists f, renews f k (ids n) /\ (forall i, In i (ids n) -> f i < k + List.length (ids n)) /\ m = move f n.
Proof.
  intros D H. unfold deepcopy in H. pose proof (copy_spec n (start k) (start_unknown k _ D)) as S. unfold spec_of, start in S.
  destruct (copy_node n (mkS [] k)) as [[n' s']|x]; cbn in H; [|discriminate]. injection H as <-.
  destruct S as (_ & _ & LK & MV & _). exists (fn (upd (lk (start k)) k (ids n))). split; [apply renews_upd, D|]. split.
  - intros i I. unfold fn. destruct (upd_new (ids n) D (lk (start k)) k i I) as (d & A & ->).
    assert (d < List.length (ids n)) by (apply nth_error_Some; congruence). lia.
  - rewrite MV. apply move_ext. intros i _. apply fn_eq, LK.
Qed.
Lemma deepcopy_iff k n : NoDup (ids n) -> ((exists m, deepcopy k n = Ok m) <-> copyable n).
Proof.
  intros D. rewrite <- (okc_start k n D). unfold deepcopy.
  pose proof (copy_spec n (start k) (start_unknown k _ D)) as S. unfold spec_of in S. fold (start k).
  destruct (copy_node n (start k)) as [[n' s']|x]; cbn.
  - split; [intros _; apply S|intros _; eexists; reflexivity].
  - split; [intros (m & E); discriminate|intros X; destruct S as [S _]; contradiction].
Qed.
Lemma deepcopy_error k n x : NoDup (ids n) -> associated n -> deepcopy k n = Err x -> x = KeyError.
Proof.
  intros D As H. unfold deepcopy in H. pose proof (copy_spec n (start k) (start_unknown k _ D)) as S. unfold spec_of, start in S.
  destruct (copy_node n (mkS [] k)) as [[n' s']|y]; cbn in H; [discriminate|]. injection H as <-.
  destruct S as [_ [E|(e & Le & (z & Be))]]; [exact E|]. destruct (As e Le) as [o X]. congruence.
Qed.
Lemma copy_iff_error k n : NoDup (ids n) -> associated n -> (deepcopy k n = Err KeyError <-> ~ copyable n).
Proof.
  intros D As. rewrite <- (deepcopy_iff k n D). destruct (deepcopy k n) as [m|x] eqn:E.
  - split; [discriminate|intros H; exfalso; apply H; exists m; reflexivity].
  - rewrite (deepcopy_error k n x D As E). split; [intros _ [m X]; discriminate|reflexivity].
Qed.
Lemma self_contained_copyable n : self_contained n -> copyable n.
Proof.
  intros H h Ih. eapply Forall_impl; [|exact (H h Ih)]. intros e (i & E & I). exists i. split; [exact E|]. left. exact I.
Qed.

(** ** Nothing of the copy is of the original. *)
Lemma ids_move f n : ids (move f n) = map f (ids n).
Proof.
  induction n as [i v|i v kids ss ws IH] using node_ind'; [reflexivity|]. cbn [move ids map]. f_equal.
  induction IH as [|k l Hk _ IHl]; [reflexivity|]. cbn. rewrite Hk, map_app, IHl. reflexivity.
Qed.
Lemma inside_move f n h : inside h (move f n) -> exists h0, inside h0 n /\ h = move f h0.
Proof.
  induction n as [i v|i v kids ss ws IH] using node_ind'; intros H.
  - inversion H; subst. exists (Ent i v). split; [constructor|reflexivity].
  - inversion H; subst; [exists (Grp i v kids ss ws); split; [constructor|reflexivity]|].
    match goal with X : In _ (map _ _) |- _ => apply in_map_iff in X as (k0 & <- & I0) end.
    rewrite Forall_forall in IH. match goal with X : inside h (move f k0) |- _ => destruct (IH k0 I0 X) as (h0 & A & B) end.
    exists h0. split; [eapply inside_kid; eassumption|exact B].
Qed.
Lemma own_ends_move f n : own_ends (move f n) = map (move_end f) (own_ends n).
Proof.
  destruct n as [i v|i v kids ss ws]; [reflexivity|]. cbn. rewrite map_app, concat_map. f_equal.
  induction ws as [|[[[a p] b] q] ws IH]; [reflexivity|]. cbn. rewrite IH. reflexivity.
Qed.
Lemma move_leads f n e : leads_to (move f n) e -> exists e0, leads_to n e0 /\ e = move_end f e0.
Proof.
  intros (h & Ih & Ie). destruct (inside_move f n h Ih) as (h0 & A & ->). rewrite own_ends_move in Ie.
  apply in_map_iff in Ie as (e0 & <- & I0). exists e0. split; [|reflexivity]. exists h0. split; assumption.
Qed.
Lemma copyable_leads n e : copyable n -> leads_to n e -> exists i, e = WRef (Some i) /\ In i (ids n).
Proof.
  intros C (h & Ih & Ie). specialize (C h Ih). rewrite Forall_forall in C. destruct (C e Ie) as (i & -> & K).
  exists i. split; [reflexivity|]. destruct K as [K|(p & q & X & I)]; [eapply inside_ids; eassumption|].
  rewrite X. apply in_or_app. left. exact I.
Qed.
Lemma deepcopy_apart k n m : NoDup (ids n) -> Forall (fun i => i < k) (ids n) -> deepcopy k n = Ok m ->
  NoDup (ids m) /\ (forall i, In i (ids m) -> ~ In i (ids n)) /\
  (forall e, leads_to m e -> exists i, e = WRef (Some i) /\ In i (ids m)).
Proof.
  intros D L H. destruct (deepcopy_ok k n m D H) as (f & [R1 R2] & _ & ->). rewrite ids_move. repeat split.
  - clear H L. induction (ids n) as [|x l IH]; [constructor|]. apply NoDup_cons_iff in D as [N D]. cbn. constructor.
    + intros I. apply in_map_iff in I as (y & E & Iy). apply N. rewrite <- (R1 y x); [exact Iy|right; exact Iy|left; reflexivity|exact E].
    + apply IH; [exact D|intros i j Ii Ij; apply R1; right; assumption|intros i Ii; apply R2; right; exact Ii].
  - intros i I J. apply in_map_iff in I as (y & <- & Iy). rewrite Forall_forall in L. specialize (L _ J). specialize (R2 _ Iy). lia.
  - intros e Le. assert (C : copyable n) by (apply (deepcopy_iff k n D); eexists; exact H).
    destruct (move_leads f n e Le) as (e0 & L0 & ->). destruct (copyable_leads n e0 C L0) as (i & -> & I).
    exists (f i). split; [reflexivity|]. apply in_map, I.
Qed.
(** A further copy succeeds where the first did. *)

(** ** Copying a blueprint. *)
Lemma copy_blueprint_body k b : copy_blueprint k b =
  match deepcopy k (body b) with
  | Ok (Grp j _ kids _ _) => Ok (mkB j kids (b_ss b) (b_ws b))
  | Ok (Ent j _) => Err KeyError
  | Err x => Err x
  end.
Proof.
  unfold copy_blueprint, deepcopy, body. cbn [copy_node]. cbn [memo dget fresh next].
  destruct (copy_kids copy_node (b_ents b) _) as [[kids s]|x]; reflexivity.
Qed.
Lemma blueprint_ok k b b' : NoDup (ids (body b)) -> copy_blueprint k b = Ok b' ->
  exists f, renews f k (ids (body b)) /\
    b' = mkB (f (b_id b)) (map (move f) (b_ents b)) (b_ss b) (b_ws b).
Proof.
  intros D H. rewrite copy_blueprint_body in H. destruct (deepcopy k (body b)) as [m|x] eqn:E; [|discriminate].
  destruct (deepcopy_ok k _ m D E) as (f & R & _ & ->). cbn [body move] in H. injection H as <-. exists f. split; [exact R|reflexivity].
Qed.
Lemma blueprint_iff k b : NoDup (ids (body b)) -> ((exists b', copy_blueprint k b = Ok b') <-> copyable (body b)).
Proof.
  intros D. rewrite <- (deepcopy_iff k _ D), copy_blueprint_body. destruct (deepcopy k (body b)) as [m|x] eqn:E.
  - destruct (deepcopy_ok k _ m D E) as (f & _ & _ & ->). cbn. split; intros _; eexists; reflexivity.
  - split; intros (? & X); discriminate.
Qed.
