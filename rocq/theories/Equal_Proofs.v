(** Proofs about comparing. *)
From Coq Require Import ZArith NArith QArith String List Bool Lia.
From Verif Require Import Common Dict Trim_Model Trim_Proofs Merge_Classes Merge_Model Merge_Spec Merge_Proofs
  TileList_Model Equal_Model Equal_Spec.
Import ListNotations.
Local Open Scope string_scope.
Local Open Scope list_scope.

Lemma list_eq_spec : forall {A} (eqb : A -> A -> bool) (R : A -> A -> Prop),
  (forall x y, eqb x y = true <-> R x y) -> forall a b, list_eq eqb a b = true <-> Forall2 R a b.
Proof.
  intros A eqb R H. induction a as [|x a IH]; intros [|y b]; cbn.
  - split; [constructor|reflexivity].
  - split; [discriminate|]. intro K. inversion K.
  - split; [discriminate|]. intro K. inversion K.
  - rewrite andb_true_iff, H, IH. split; [intros [? ?]; constructor; assumption|]. intro K. inversion K; subst. auto.
Qed.

Lemma association_spec : forall alive a b, association_eq alive a b = true <-> loco_same alive a b.
Proof.
  intros alive a b. unfold association_eq, deref, loco_same. destruct (alive a) eqn:Ea, (alive b) eqn:Eb; cbn.
  - rewrite Nat.eqb_eq. split; [auto|]. intros [H|[H _]]; [exact H|discriminate].
  - split; [discriminate|]. intros [->|[H _]]; [congruence|discriminate].
  - split; [discriminate|]. intros [->|[_ H]]; [congruence|discriminate].
  - split; auto.
Qed.
Lemma wait_spec : forall a b, wait_eq a b = true <-> wait_same a b.
Proof. intros a b. unfold wait_eq, wait_same, eqv. rewrite !andb_true_iff. tauto. Qed.
Lemma stop_spec : forall a b, stop_eq a b = true <-> stop_same a b.
Proof. intros a b. unfold stop_eq, stop_same. rewrite andb_true_iff, (list_eq_spec _ _ wait_spec). reflexivity. Qed.
Lemma schedule_spec : forall alive a b, schedule_eq alive a b = true <-> schedule_same alive a b.
Proof.
  intros alive a b. unfold schedule_eq, schedule_same.
  rewrite andb_true_iff, (list_eq_spec _ _ (association_spec alive)), (list_eq_spec _ _ stop_spec). reflexivity.
Qed.
Lemma tile_spec : forall a b, tile_eqb a b = true <-> a = b.
Proof.
  intros [n x y] [n' x' y']. unfold tile_eqb. cbn. rewrite !andb_true_iff, pystr_eqb_eq, !Z.eqb_eq.
  split; [intros (-> & -> & ->); reflexivity|]. intro H. injection H as -> -> ->. auto.
Qed.
Lemma Forall2_eq : forall {A} (a b : list A), Forall2 eq a b <-> a = b.
Proof.
  intros A a b. split; [intro H; induction H; congruence|]. intros <-. induction a; constructor; auto.
Qed.
Lemma tiles_spec : forall a b, tile_list_eq a b = true <-> a = b.
Proof. intros a b. unfold tile_list_eq. rewrite (list_eq_spec _ _ tile_spec). apply Forall2_eq. Qed.
Lemma schedules_spec : forall alive a b, schedule_list_eq alive a b = true <-> Forall2 (schedule_same alive) a b.
Proof. intros alive a b. apply list_eq_spec, schedule_spec. Qed.

Lemma member_spec : forall a b, member_good a -> member_good b ->
  exists r, member_ne a b = Ok r /\ (r = false <-> member_same a b).
Proof.
  intros [i e|i] [j f|j] Ga Gb; cbn [member_ne member_good] in *.
  - destruct Ga as [S1 C1], Gb as [S2 C2]. destruct (equal_spec e f S1 S2 C1 C2) as (b & E & F).
    rewrite E. cbn [bind]. exists (negb b). split; [reflexivity|]. split.
    + intro H. constructor. apply F. destruct b; [reflexivity|discriminate].
    + intro H. inversion H as [? ? ? ? K|]; subst. apply F in K. subst. reflexivity.
  - exists true. split; [reflexivity|]. split; [discriminate|]. intro H. inversion H.
  - exists true. split; [reflexivity|]. split; [discriminate|]. intro H. inversion H.
  - exists (negb (Nat.eqb i j)). split; [reflexivity|]. destruct (Nat.eqb i j) eqn:K; cbn.
    + apply Nat.eqb_eq in K. subst. split; [constructor|reflexivity].
    + split; [discriminate|]. intro H. inversion H; subst. rewrite Nat.eqb_refl in K. discriminate.
Qed.
Lemma members_spec : forall a b, List.length a = List.length b -> Forall member_good a -> Forall member_good b ->
  exists r, members_eq a b = Ok r /\ (r = true <-> Forall2 member_same a b).
Proof.
  induction a as [|x a IH]; intros [|y b] L Ga Gb; cbn in L; try discriminate.
  - exists true. split; [reflexivity|]. split; [constructor|reflexivity].
  - injection L as L. inversion Ga as [|? ? Gx Ga']; subst. inversion Gb as [|? ? Gy Gb']; subst.
    destruct (member_spec x y Gx Gy) as (r & E & F). cbn [members_eq]. rewrite E. cbn [bind]. destruct r.
    + exists false. split; [reflexivity|]. split; [discriminate|]. intro H. inversion H as [|? ? ? ? K]; subst.
      apply F in K. discriminate.
    + destruct (IH b L Ga' Gb') as (r & E' & F'). exists r. split; [exact E'|]. rewrite F'. split.
      * intro K. constructor; [apply F; reflexivity|exact K].
      * intro K. inversion K; assumption.
Qed.
Lemma Forall2_len : forall {A} (R : A -> A -> Prop) a b, Forall2 R a b -> List.length a = List.length b.
Proof. intros A R a b H. induction H; cbn; congruence. Qed.
Lemma entity_list_spec : forall a b, Forall member_good a -> Forall member_good b ->
  exists r, entity_list_eq a b = Ok r /\ (r = true <-> Forall2 member_same a b).
Proof.
  intros a b Ga Gb. unfold entity_list_eq. destruct (Nat.eqb (List.length a) (List.length b)) eqn:L; cbn [negb].
  - apply Nat.eqb_eq in L. apply members_spec; assumption.
  - exists false. split; [reflexivity|]. split; [discriminate|]. intro H. apply Forall2_len in H. rewrite H, Nat.eqb_refl in L. discriminate.
Qed.

Lemma blueprint_spec : forall alive a b, good a -> good b ->
  exists r, blueprint_eq alive a b = Ok r /\ (r = true <-> blueprint_same alive a b).
Proof.
  intros alive a b (_ & Ea & _) (_ & Eb & _). unfold blueprint_eq.
  Local Ltac no := exists false; split; [reflexivity|]; split; [discriminate|]; intros (H & _); unfold eqv in H; congruence.
  destruct (py_eq (b_attr a Label) (b_attr b Label)) eqn:A1; cbn [negb]; [|no].
  destruct (py_eq (b_attr a LabelColor) (b_attr b LabelColor)) eqn:A2; cbn [negb]; [|no].
  destruct (py_eq (b_attr a Description) (b_attr b Description)) eqn:A3; cbn [negb]; [|no].
  destruct (py_eq (b_attr a Icons) (b_attr b Icons)) eqn:A4; cbn [negb]; [|no].
  destruct (py_eq (b_attr a Version) (b_attr b Version)) eqn:A5; cbn [negb]; [|no].
  destruct (py_eq (b_attr a SnappingGridSize) (b_attr b SnappingGridSize)) eqn:A6; cbn [negb]; [|no].
  destruct (py_eq (b_attr a SnappingGridPosition) (b_attr b SnappingGridPosition)) eqn:A7; cbn [negb]; [|no].
  destruct (py_eq (b_attr a AbsoluteSnapping) (b_attr b AbsoluteSnapping)) eqn:A8; cbn [negb]; [|no].
  destruct (py_eq (b_attr a PositionRelativeToGrid) (b_attr b PositionRelativeToGrid)) eqn:A9; cbn [negb]; [|no].
  destruct (entity_list_spec _ _ Ea Eb) as (r & Er & Fr). rewrite Er. cbn [bind]. destruct r; cbn [negb].
  2: { exists false. split; [reflexivity|]. split; [discriminate|]. intros (_ & K & _). apply Fr in K. discriminate. }
  destruct (tile_list_eq (b_tiles a) (b_tiles b)) eqn:T; cbn [negb].
  2: { exists false. split; [reflexivity|]. split; [discriminate|]. intros (_ & _ & K & _). apply tiles_spec in K. congruence. }
  exists (schedule_list_eq alive (b_schedules a) (b_schedules b)). split; [reflexivity|].
  rewrite schedules_spec. split.
  - intro K. split; [intros []; assumption|]. split; [apply Fr; reflexivity|]. split; [apply tiles_spec; exact T|exact K].
  - intros (_ & _ & _ & K). exact K.
Qed.

(** ** An equivalence *)
Lemma Forall2_refl_on : forall {A} (P : A -> Prop) (R : A -> A -> Prop), (forall x, P x -> R x x) -> forall l, Forall P l -> Forall2 R l l.
Proof. intros A P R H l F. induction F; constructor; auto. Qed.
Lemma Forall2_sym_on : forall {A} (P : A -> Prop) (R : A -> A -> Prop), (forall x y, P x -> P y -> R x y -> R y x) ->
  forall l k, Forall P l -> Forall P k -> Forall2 R l k -> Forall2 R k l.
Proof.
  intros A P R H l k Fl Fk F. induction F; constructor; inversion Fl; inversion Fk; subst; auto.
Qed.
Lemma Forall2_trans_on : forall {A} (P : A -> Prop) (R : A -> A -> Prop), (forall x y z, P x -> P y -> P z -> R x y -> R y z -> R x z) ->
  forall l k j, Forall P l -> Forall P k -> Forall P j -> Forall2 R l k -> Forall2 R k j -> Forall2 R l j.
Proof.
  intros A P R H l k j Fl Fk Fj F. revert j Fj. induction F as [|x y l k Hxy F IH]; intros j Fj G; inversion G; subst; constructor;
    inversion Fl; inversion Fk; inversion Fj; subst; eauto.
Qed.

Lemma same_equal : forall e f, sound e -> sound f -> controlled e -> controlled f ->
  (ent_same e f <-> meq e f = Ok true).
Proof. intros e f A B C D. unfold ent_same. symmetry. exact (equal_iff e f A B C D). Qed.
Lemma member_refl : forall x, member_good x -> member_same x x.
Proof. intros [i e|i] G; constructor. destruct G as [S C]. apply same_equal; auto. apply equal_refl; assumption. Qed.
Lemma member_sym : forall x y, member_good x -> member_good y -> member_same x y -> member_same y x.
Proof.
  intros x y Gx Gy H. inversion H as [i j e f K|i]; subst; constructor. destruct Gx as [S C], Gy as [S' C'].
  apply same_equal; auto. rewrite (equal_sym f e); auto. apply same_equal; auto.
Qed.
Lemma member_trans : forall x y z, member_good x -> member_good y -> member_good z ->
  member_same x y -> member_same y z -> member_same x z.
Proof.
  intros x y z Gx Gy Gz H1 H2. inversion H1 as [i j e f K|i]; subst; inversion H2 as [i' j' e' f' K'|i']; subst; constructor.
  destruct Gx as [S C], Gy as [S' C'], Gz as [S'' C'']. apply same_equal; auto.
  apply (equal_trans e f f'); auto; apply same_equal; auto.
Qed.
Lemma eqv_sym : forall a b, wf a -> wf b -> eqv a b -> eqv b a.
Proof. exact py_eq_sym. Qed.
Lemma wait_refl : forall w, wait_good w -> wait_same w w.
Proof. intros w (A & B & C & D). repeat split; apply py_eq_refl; assumption. Qed.
Lemma wait_sym : forall w v, wait_good w -> wait_good v -> wait_same w v -> wait_same v w.
Proof. intros w v (A & B & C & D) (A' & B' & C' & D') (P & Q & R & S). repeat split; apply eqv_sym; assumption. Qed.
Lemma wait_trans : forall u v w, wait_good u -> wait_good v -> wait_good w -> wait_same u v -> wait_same v w -> wait_same u w.
Proof.
  intros u v w _ _ _ (P & Q & R & S) (P' & Q' & R' & S'). repeat split; eapply py_eq_trans; eassumption.
Qed.
Lemma stop_refl : forall s, stop_good s -> stop_same s s.
Proof. intros s (A & B). split; [apply py_eq_refl; exact A|]. exact (Forall2_refl_on _ _ wait_refl _ B). Qed.
Lemma stop_sym : forall s t, stop_good s -> stop_good t -> stop_same s t -> stop_same t s.
Proof. intros s t (A & B) (A' & B') (P & Q). split; [apply eqv_sym; assumption|]. exact (Forall2_sym_on _ _ wait_sym _ _ B B' Q). Qed.
Lemma stop_trans : forall s t u, stop_good s -> stop_good t -> stop_good u -> stop_same s t -> stop_same t u -> stop_same s u.
Proof.
  intros s t u (A & B) (A' & B') (A'' & B'') (P & Q) (P' & Q'). split; [eapply py_eq_trans; eassumption|].
  exact (Forall2_trans_on _ _ wait_trans _ _ _ B B' B'' Q Q').
Qed.
Lemma loco_refl : forall alive o, loco_same alive o o.
Proof. intros alive o. left. reflexivity. Qed.
Lemma loco_sym : forall alive o p, loco_same alive o p -> loco_same alive p o.
Proof. intros alive o p [->|[A B]]; [left; reflexivity|right; auto]. Qed.
Lemma loco_trans : forall alive o p q, loco_same alive o p -> loco_same alive p q -> loco_same alive o q.
Proof. intros alive o p q [->|[A B]] [->|[C D]]; unfold loco_same; auto. Qed.
Lemma Forall_True : forall {A} (l : list A), Forall (fun _ => True) l.
Proof. intros A l. induction l; constructor; auto. Qed.
Lemma schedule_refl : forall alive s, schedule_good s -> schedule_same alive s s.
Proof.
  intros alive s G. split; [|exact (Forall2_refl_on _ _ stop_refl _ G)].
  apply (Forall2_refl_on (fun _ => True)); [intros; apply loco_refl|apply Forall_True].
Qed.
Lemma schedule_sym : forall alive s t, schedule_good s -> schedule_good t -> schedule_same alive s t -> schedule_same alive t s.
Proof.
  intros alive s t G H (P & Q). split; [|exact (Forall2_sym_on _ _ stop_sym _ _ G H Q)].
  apply (Forall2_sym_on (fun _ => True) (loco_same alive)); [intros; apply loco_sym; assumption|apply Forall_True|apply Forall_True|exact P].
Qed.
Lemma schedule_trans : forall alive s t u, schedule_good s -> schedule_good t -> schedule_good u ->
  schedule_same alive s t -> schedule_same alive t u -> schedule_same alive s u.
Proof.
  intros alive s t u G H I (P & Q) (P' & Q'). split; [|exact (Forall2_trans_on _ _ stop_trans _ _ _ G H I Q Q')].
  eapply (Forall2_trans_on (fun _ => True) (loco_same alive));
    [intros; eapply loco_trans; eassumption|apply Forall_True|apply Forall_True|apply Forall_True|exact P|exact P'].
Qed.

Lemma same_refl : forall alive a, good a -> blueprint_same alive a a.
Proof.
  intros alive a (A & B & C). split; [intro k; apply py_eq_refl, A|].
  split; [exact (Forall2_refl_on _ _ member_refl _ B)|]. split; [reflexivity|exact (Forall2_refl_on _ _ (schedule_refl alive) _ C)].
Qed.
Lemma same_sym : forall alive a b, good a -> good b -> blueprint_same alive a b -> blueprint_same alive b a.
Proof.
  intros alive a b (A & B & C) (A' & B' & C') (P & Q & R & S). split; [intro k; apply eqv_sym; auto|].
  split; [exact (Forall2_sym_on _ _ member_sym _ _ B B' Q)|]. split; [auto|exact (Forall2_sym_on _ _ (schedule_sym alive) _ _ C C' S)].
Qed.
Lemma same_trans : forall alive a b c, good a -> good b -> good c -> blueprint_same alive a b -> blueprint_same alive b c -> blueprint_same alive a c.
Proof.
  intros alive a b c (A & B & C) (A' & B' & C') (A'' & B'' & C'') (P & Q & R & S) (P' & Q' & R' & S').
  split; [intro k; eapply py_eq_trans; [apply P|apply P']|].
  split; [exact (Forall2_trans_on _ _ member_trans _ _ _ B B' B'' Q Q')|].
  split; [congruence|exact (Forall2_trans_on _ _ (schedule_trans alive) _ _ _ C C' C'' S S')].
Qed.

Lemma eq_true : forall alive a b, good a -> good b -> (blueprint_eq alive a b = Ok true <-> blueprint_same alive a b).
Proof.
  intros alive a b Ga Gb. destruct (blueprint_spec alive a b Ga Gb) as (r & E & F). rewrite E, <- F.
  split; [intro H; injection H; auto|intros ->; reflexivity].
Qed.
Lemma eq_refl_bp : forall alive a, good a -> blueprint_eq alive a a = Ok true.
Proof. intros alive a G. apply eq_true; auto. apply same_refl. exact G. Qed.
Lemma eq_sym_bp : forall alive a b, good a -> good b -> blueprint_eq alive a b = blueprint_eq alive b a.
Proof.
  intros alive a b Ga Gb. destruct (blueprint_spec alive a b Ga Gb) as (r & E & F).
  destruct (blueprint_spec alive b a Gb Ga) as (q & E' & F'). rewrite E, E'. f_equal.
  destruct r, q; try reflexivity.
  - symmetry. apply F'. apply same_sym; auto. apply F. reflexivity.
  - apply F. apply same_sym; auto. apply F'. reflexivity.
Qed.
Lemma eq_trans_bp : forall alive a b c, good a -> good b -> good c ->
  blueprint_eq alive a b = Ok true -> blueprint_eq alive b c = Ok true -> blueprint_eq alive a c = Ok true.
Proof.
  intros alive a b c Ga Gb Gc H K. apply eq_true in H; auto. apply eq_true in K; auto. apply eq_true; auto.
  eapply same_trans; [exact Ga|exact Gb|exact Gc|exact H|exact K].
Qed.

(** ** What is overlooked *)
Lemma eq_relinked : forall alive a b c, relinked a b -> blueprint_eq alive c b = blueprint_eq alive c a.
Proof. intros alive a b c (A & B & C & D). unfold blueprint_eq. rewrite A, B, C, D. reflexivity. Qed.
Lemma relinked_equal : forall alive a b, good a -> relinked a b -> blueprint_eq alive a b = Ok true.
Proof. intros alive a b G R. rewrite (eq_relinked alive a b a R). apply eq_refl_bp. exact G. Qed.

(** Locomotives are compared as objects. *)
Lemma manned_locomotives : forall alive a b, good a -> good b -> manned alive a -> manned alive b ->
  blueprint_eq alive a b = Ok true -> map s_locomotives (b_schedules a) = map s_locomotives (b_schedules b).
Proof.
  intros alive a b Ga Gb Ma Mb H. apply eq_true in H; auto. destruct H as (_ & _ & _ & F).
  unfold manned in Ma, Mb. revert Ma Mb. induction F as [|s t ss ts [Hl _] F IH]; intros Ma Mb; [reflexivity|]. cbn. f_equal.
  - assert (A : forall o, In o (s_locomotives s) -> alive o = true) by (intros o Ho; exact (Ma s o (or_introl eq_refl) Ho)).
    clear -Hl A. induction Hl as [|o p l k Hop Hl IH]; [reflexivity|]. f_equal.
    + destruct Hop as [->|[N _]]; [reflexivity|]. rewrite (A o (or_introl eq_refl)) in N. discriminate.
    + apply IH. intros q Hq. apply A. right. exact Hq.
  - apply IH; intros u o Hu; [apply (Ma u o (or_intror Hu))|apply (Mb u o (or_intror Hu))].
Qed.
Lemma groups_identical : forall alive a b i o x, good a -> good b -> blueprint_eq alive a b = Ok true ->
  nth_error (b_entities a) i = Some (MGrp o) -> nth_error (b_entities b) i = Some x -> x = MGrp o.
Proof.
  intros alive a b i o x Ga Gb H. apply eq_true in H; auto. destruct H as (_ & F & _). revert i.
  induction F as [|y z ys zs Hyz F IH]; intros [|i] Hy Hz; cbn in *; try discriminate.
  - injection Hy as ->. injection Hz as ->. inversion Hyz; reflexivity.
  - exact (IH i Hy Hz).
Qed.

(** ** Other kinds *)
Lemma others : forall alive a o, (sheet_eq alive a (SOther o) = Ok true <-> object_of a = o) /\
  sheet_eq alive a (SOther o) = sheet_eq alive (SOther o) a.
Proof.
  intros alive a o. split.
  - destruct a as [i b|i]; cbn; (split; [intro H; injection H as H; apply Nat.eqb_eq; exact H|intros <-; rewrite Nat.eqb_refl; reflexivity]).
  - destruct a as [i b|i]; cbn; rewrite Nat.eqb_sym; reflexivity.
Qed.

(** ** Hashing *)
Definition hash_is (k : pystr) : result bool :=
  match hash_along 16 (mro bases_table k) with Ok _ => Ok true | Err e => Err e end.
Lemma hash_along_shift : forall o p l,
  hash_along o l = match hash_along p l with Ok _ => Ok (Z.shiftr o 4) | Err e => Err e end.
Proof.
  intros o p. induction l as [|k l IH]; [reflexivity|]. cbn [hash_along]. destruct (mem k hash_classes); [reflexivity|].
  destruct (get methods_table k) as [r|]; [|exact IH]. destruct (m_eq r); [reflexivity|exact IH].
Qed.
Definition unhashable : list pystr := [str "SimpleEntityWithForce"; str "SimpleEntityWithOwner"].
Lemma hash_table : forallb (fun k => match hash_along 0 (mro bases_table k) with
  | Ok _ => negb (mem k unhashable) | Err TypeError => mem k unhashable | Err _ => false end) classes = true.
Proof. vm_compute. reflexivity. Qed.
Lemma mem_In : forall k l, mem k l = true <-> In k l.
Proof.
  intros k l. unfold mem. rewrite existsb_exists. split.
  - intros [x [H E]]. apply pystr_eqb_eq in E. subst. exact H.
  - intro H. exists k. split; [exact H|apply pystr_eqb_refl].
Qed.
Lemma hash_spec : forall o e, In (e_class e) classes ->
  hash o e = if mem (e_class e) unhashable then Err TypeError else Ok (Z.shiftr o 4).
Proof.
  intros o e H. unfold hash. rewrite (hash_along_shift o 0). pose proof hash_table as T. rewrite forallb_forall in T.
  specialize (T _ H). destruct (hash_along 0 (mro bases_table (e_class e))) as [z|x].
  - destruct (mem (e_class e) unhashable); [discriminate|reflexivity].
  - destruct x; try discriminate. rewrite T. reflexivity.
Qed.
Lemma hash_listed : forall o e, In (e_class e) classes ->
  (hash o e = Err TypeError /\ (e_class e = str "SimpleEntityWithForce" \/ e_class e = str "SimpleEntityWithOwner")) \/
  (hash o e = Ok (Z.shiftr o 4) /\ e_class e <> str "SimpleEntityWithForce" /\ e_class e <> str "SimpleEntityWithOwner").
Proof.
  intros o e H. rewrite (hash_spec o e H). destruct (mem (e_class e) unhashable) eqn:M.
  - left. split; [reflexivity|]. apply mem_In in M. destruct M as [M|[M|[]]]; auto.
  - right. split; [reflexivity|]. assert (N : ~ In (e_class e) unhashable) by (rewrite <- mem_In, M; discriminate).
    split; intro K; apply N; rewrite K; cbn; auto.
Qed.

(** ** The list of schedules *)
Lemma store_plain : forall l i s, only_schedules l -> only_schedules (fst (store_at l i (One s))).
Proof.
  intros l i s H. unfold store_at. destruct (py_pos (Z.of_nat (List.length l)) i) as [p|]; [|exact H]. cbn. revert p. induction H as [|x l Hx H IH]; intros [|p]; cbn;
    constructor; auto; try (eexists; reflexivity). apply IH.
Qed.
Lemma Forall_firstn : forall {A} (P : A -> Prop) n l, Forall P l -> Forall P (firstn n l).
Proof. intros A P n l H. revert n. induction H; intros [|n]; cbn; constructor; auto. Qed.
Lemma Forall_skipn : forall {A} (P : A -> Prop) n l, Forall P l -> Forall P (skipn n l).
Proof. intros A P n l H. revert n. induction H; intros [|n]; cbn; try constructor; auto. Qed.
Lemma step_plain : forall l o, plain o -> only_schedules l -> only_schedules (fst (sl_step l o)).
Proof.
  intros l o P H. unfold only_schedules in *. destruct o as [i x|x|i x|a b x|i|]; cbn.
  - destruct x; cbn; try exact H. unfold py_insert. apply Forall_app. split; [apply Forall_firstn|constructor; [eexists; reflexivity|apply Forall_skipn]]; exact H.
  - destruct x; cbn; try exact H. unfold py_insert. apply Forall_app. split; [apply Forall_firstn|constructor; [eexists; reflexivity|apply Forall_skipn]]; exact H.
  - destruct x; cbn in *; try exact H; [apply store_plain; exact H|destruct P].
  - destruct x; cbn; try exact H. destruct (all_schedules l0) as [ss|]; [|exact H].
    destruct (slice_indices a b None (Z.of_nat (List.length l))) as [[start stop'] step]. cbn. apply Forall_app. split; [apply Forall_firstn; exact H|].
    apply Forall_app. split; [|apply Forall_skipn; exact H]. apply Forall_forall. intros y Hy. apply in_map_iff in Hy.
    destruct Hy as [s [<- _]]. exists s. reflexivity.
  - unfold sl_del. destruct (py_pos (Z.of_nat (List.length l)) i) as [p|]; [|exact H]. cbn. revert p. induction H as [|x l Hx H IH]; intros [|p]; cbn; try constructor; auto.
  - constructor.
Qed.
Lemma run_plain : forall ops l, Forall plain ops -> only_schedules l -> only_schedules (sl_run l ops).
Proof.
  induction ops as [|o ops IH]; intros l P H; [exact H|]. inversion P; subst. cbn. apply IH; [assumption|]. apply step_plain; assumption.
Qed.
Lemma step_failed : forall l o e, snd (sl_step l o) = Some e -> fst (sl_step l o) = l.
Proof.
  intros l o e H. destruct o as [i x|x|i x|a b x|i|]; cbn in *; try discriminate.
  - destruct x; cbn in *; [discriminate|reflexivity|reflexivity].
  - destruct x; cbn in *; [discriminate|reflexivity|reflexivity].
  - unfold sl_set, store_at in *. destruct x; [|destruct (all_schedules l0)|]; try destruct (py_pos (Z.of_nat (List.length l)) i); cbn in *; try discriminate; reflexivity.
  - unfold sl_set_slice in *. destruct x; [reflexivity| |reflexivity]. destruct (all_schedules l0); [|reflexivity].
    destruct (slice_indices a b None (Z.of_nat (List.length l))) as [[? ?] ?]. discriminate.
  - unfold sl_del in *. destruct (py_pos (Z.of_nat (List.length l)) i); [discriminate|reflexivity].
Qed.

Lemma append_last : forall l s, sl_step l (SAppend (GOne s)) = (l ++ [One s], None).
Proof.
  intros l s. cbn. unfold sl_insert, py_insert. f_equal. rewrite Z.min_id.
  destruct (Z.of_nat (List.length l) <? 0)%Z eqn:N; [apply Z.ltb_lt in N; lia|].
  rewrite ?Nat2Z.id. rewrite firstn_all, skipn_all. reflexivity.
Qed.

(** ** Witnesses *)
Definition blank : blueprint := mkBlueprint (fun _ => VNone) [] [] [] [] [] None.
Definition with_members (ms : list member) : blueprint := mkBlueprint (fun _ => VNone) ms [] [] [] [] None.
Definition with_schedules (ss : list schedule) : blueprint := mkBlueprint (fun _ => VNone) [] [] ss [] [] None.
Definition battery : ent := accumulator (str "normal") charge [].
Lemma battery_good : forall i, member_good (MEnt i battery).
Proof. intro i. split; [exact (accumulator_sound _ _ _ charge_wf empty_wf)|apply accumulator_controlled]. Qed.
Lemma with_members_good : forall ms, Forall member_good ms -> good (with_members ms).
Proof. intros ms H. split; [intro k; exact Logic.I|]. split; [exact H|constructor]. Qed.
Lemma with_schedules_good : forall ss, Forall schedule_good ss -> good (with_schedules ss).
Proof. intros ss H. split; [intro k; exact Logic.I|]. split; [constructor|exact H]. Qed.

Lemma wires_ignored : forall alive, exists a b, good a /\ good b /\ b_wires a <> b_wires b /\ b_stock a <> b_stock b /\
  blueprint_eq alive a b = Ok true.
Proof.
  intro alive.
  exists (with_members [MEnt 0 battery; MEnt 1 battery]),
    (mkBlueprint (fun _ => VNone) [MEnt 0 battery; MEnt 1 battery] [] [] [(0, 1%Z, 1, 1%Z)]%nat [(0, Some 1, None)]%nat (Some 3%Z)).
  assert (G : Forall member_good [MEnt 0 battery; MEnt 1 battery])
    by (constructor; [apply battery_good|]; constructor; [apply battery_good|constructor]).
  split; [apply with_members_good; exact G|]. split; [split; [intro k; exact Logic.I|]; split; [exact G|constructor]|].
  split; [discriminate|]. split; [discriminate|]. vm_compute. reflexivity.
Qed.
Lemma groups_differ : forall alive, blueprint_eq alive (with_members [MGrp 0]) (with_members [MGrp 1]) = Ok false /\
  good (with_members [MGrp 0]) /\ good (with_members [MGrp 1]).
Proof.
  intro alive. split; [reflexivity|]. split; apply with_members_good; repeat constructor.
Qed.
Definition line (o : nat) : schedule := mkSchedule [o] [mkStop (VStr (str "A")) []].
Lemma line_good : forall o, schedule_good (line o).
Proof. intro o. repeat constructor. Qed.
Lemma trains_differ : forall alive o p, alive o = true -> o <> p ->
  good (with_schedules [line o]) /\ good (with_schedules [line p]) /\
  s_stops (line o) = s_stops (line p) /\
  blueprint_eq alive (with_schedules [line o]) (with_schedules [line p]) = Ok false.
Proof.
  intros alive o p H N. assert (Go : good (with_schedules [line o])) by (apply with_schedules_good; repeat constructor).
  assert (Gp : good (with_schedules [line p])) by (apply with_schedules_good; repeat constructor).
  split; [exact Go|]. split; [exact Gp|]. split; [reflexivity|].
  destruct (blueprint_spec alive _ _ Go Gp) as (r & E & F). rewrite E. destruct r; [|reflexivity]. exfalso.
  destruct (proj1 F eq_refl) as (_ & _ & _ & K). cbn in K. inversion K as [|? ? ? ? [L _]]; subst. cbn in L.
  inversion L as [|? ? ? ? [M|[M _]]]; subst; congruence.
Qed.
Lemma death_equates : exists alive later a b, good a /\ good b /\ (forall o, later o = true -> alive o = true) /\
  blueprint_eq alive a b = Ok false /\ blueprint_eq later a b = Ok true.
Proof.
  exists (fun _ => true), (fun _ => false), (with_schedules [line 0]), (with_schedules [line 1]).
  split; [apply with_schedules_good; repeat constructor|]. split; [apply with_schedules_good; repeat constructor|].
  split; [reflexivity|]. split; reflexivity.
Qed.
Lemma bp_raises : exists a, (forall k, wf (b_attr a k)) /\
  (forall x, In x (b_entities a) -> exists i e, x = MEnt i e /\ sound e) /\
  forall alive, blueprint_eq alive a a = Err AttributeError.
Proof.
  exists (with_members [MEnt 0 (accumulator (str "normal") VNone [])]). split; [intro k; exact Logic.I|].
  split; [intros x [<-|[]]; do 2 eexists; split; [reflexivity|]; exact (accumulator_sound _ VNone _ Logic.I empty_wf)|].
  intro alive. vm_compute. reflexivity.
Qed.
Lemma hash_disagrees : exists e o p, sound e /\ controlled e /\ meq e e = Ok true /\ hash o e <> hash p e.
Proof.
  exists battery, 0%Z, 16%Z. split; [exact (accumulator_sound _ _ _ charge_wf empty_wf)|]. split; [apply accumulator_controlled|].
  split; [vm_compute; reflexivity|]. vm_compute. discriminate.
Qed.
Lemma list_broken : exists ops, only_schedules [] /\ ~ only_schedules (sl_run [] ops) /\
  exists i s, ops = [SAppend (GOne s); SSet i (GSeq [Some s])].
Proof.
  exists [SAppend (GOne (line 0)); SSet 0 (GSeq [Some (line 0)])]. split; [constructor|]. split.
  - vm_compute. intro H. inversion H as [|x l [s E]]. discriminate.
  - do 2 eexists. reflexivity.
Qed.
