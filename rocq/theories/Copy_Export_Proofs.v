(** Proofs about exporting copies. *)
From Coq Require Import ZArith List Bool Lia PeanoNat.
From Verif Require Import Common Dict Wires_Model Copy_Model Copy_Spec Copy_Proofs.
Import ListNotations.

Lemma leaves_seen f n : leaves (seen (move f n)) = map f (leaves (seen n)).
Proof.
  induction n as [i v|i v kids ss ws IH] using node_ind'; [reflexivity|]. cbn.
  induction IH as [|k l Hk _ IHl]; [reflexivity|]. cbn. rewrite Hk, map_app, IHl. reflexivity.
Qed.
Lemma flatten_seen f l : flatten (map seen (map (move f) l)) = map f (flatten (map seen l)).
Proof.
  unfold flatten. induction l as [|n l IH]; [reflexivity|]. cbn. rewrite leaves_seen, map_app, IH. reflexivity.
Qed.
Lemma inner_seen f n : inner_wires (seen (move f n)) = map (move_wire f) (inner_wires (seen n)).
Proof.
  induction n as [i v|i v kids ss ws IH] using node_ind'; [reflexivity|]. cbn. rewrite map_app. f_equal.
  induction IH as [|k l Hk _ IHl]; [reflexivity|]. cbn. rewrite Hk, map_app, IHl. reflexivity.
Qed.
Lemma inners_seen f l : flat_map inner_wires (map seen (map (move f) l)) = map (move_wire f) (flat_map inner_wires (map seen l)).
Proof.
  induction l as [|n l IH]; [reflexivity|]. cbn. rewrite inner_seen, map_app, IH. reflexivity.
Qed.
Lemma leaves_ids n i : In i (leaves (seen n)) -> In i (ids n).
Proof.
  induction n as [j v|j v kids ss ws IH] using node_ind'; [intros H; exact H|]. cbn. intros H. right.
  apply in_flat_map in H as (t & It & H). apply in_map_iff in It as (k & <- & Ik). apply in_flat_map. exists k.
  split; [exact Ik|]. rewrite Forall_forall in IH. apply IH; assumption.
Qed.
Lemma flatten_ids l i : In i (flatten (map seen l)) -> In i (flat_map ids l).
Proof.
  unfold flatten. intros H. apply in_flat_map in H as (t & It & H). apply in_map_iff in It as (k & <- & Ik).
  apply in_flat_map. exists k. split; [exact Ik|apply leaves_ids, H].
Qed.
Lemma inner_leads n w e : In w (inner_wires (seen n)) -> In e (wire_ends w) -> leads_to n e.
Proof.
  induction n as [j v|j v kids ss ws IH] using node_ind'; cbn [seen inner_wires]; [intros []|]. intros H E.
  apply in_app_or in H as [H|H].
  - exists (Grp j v kids ss ws). split; [constructor|]. cbn. apply in_or_app. right. apply in_flat_map. exists w. split; assumption.
  - apply in_flat_map in H as (t & It & H). apply in_map_iff in It as (k & <- & Ik). rewrite Forall_forall in IH.
    destruct (IH k Ik H E) as (h & Ih & Ie). exists h. split; [eapply inside_kid; eassumption|exact Ie].
Qed.

Section Export.
  Variables (veq : nat -> nat -> bool) (f : nat -> nat) (known : list nat) (A : alike veq f known).
  Lemma same_veq a b : same veq a b = veq a b.
  Proof. unfold same. destruct (Nat.eqb_spec a b) as [->|]; [symmetry; apply A|reflexivity]. Qed.
  (** [g] is the target as it is, or its copy. *)
  Definition target (x y : nat) : Prop := y = x \/ In x known /\ y = f x.
  Lemma same_copy i x y : In i known -> target x y -> same veq (f i) y = same veq i x.
  Proof.
    intros I T. rewrite !same_veq. destruct A as [_ A']. rewrite (proj1 (A' i y I)).
    destruct T as [->|[Ix ->]]; [reflexivity|]. apply A'. exact Ix.
  Qed.
  Lemma index_copy fl x y : (forall i, In i fl -> In i known) -> target x y ->
    index_of (same veq) (map f fl) y = index_of (same veq) fl x /\
    existsb (fun z => same veq z y) (map f fl) = existsb (fun z => same veq z x) fl.
  Proof.
    intros L T. induction fl as [|i fl IH]; [split; reflexivity|]. cbn.
    destruct IH as [P Q]; [intros j J; apply L; right; exact J|].
    rewrite (same_copy i x y) by (try exact T; apply L; left; reflexivity). rewrite P, Q. split; reflexivity.
  Qed.
  Definition end_target (e e' : wend) : Prop :=
    match e, e' with
    | WRef (Some x), WRef (Some y) => target x y
    | _, _ => e' = e
    end.
  Variable fl : list nat.
  Hypothesis L : forall i, In i fl -> In i known.
  Lemma number_copy x y : target x y -> number veq (map f fl) y = number veq fl x.
  Proof. intros T. unfold number. rewrite (proj1 (index_copy fl x y L T)). reflexivity. Qed.
  Lemma export_end_copy e e' : end_target e e' -> export_end veq (map f fl) e' = export_end veq fl e.
  Proof.
    destruct e as [z|[x|]]; cbn.
    - intros ->. reflexivity.
    - destruct e' as [z|[y|]]; try discriminate. intros T. cbn. rewrite (proj2 (index_copy fl x y L T)), (number_copy x y T). reflexivity.
    - intros ->. reflexivity.
  Qed.
  Lemma export_loco_copy e : export_loco veq (map f fl) e = export_loco veq fl e.
  Proof. destruct e as [z|[x|]]; cbn; try reflexivity. apply number_copy. left. reflexivity. Qed.
  Definition wire_target (w w' : wire) : Prop :=
    let '(a, p, b, q) := w in let '(a', p', b', q') := w' in end_target a a' /\ p' = p /\ end_target b b' /\ q' = q.
  Lemma export_wires_copy ws ws' : Forall2 wire_target ws ws' -> forall out,
    export_wires veq (map f fl) ws' out = export_wires veq fl ws out.
  Proof.
    induction 1 as [|[[[a p] b] q] [[[a' p'] b'] q'] ws ws' (Ta & -> & Tb & ->) _ IH]; intros out; [reflexivity|].
    cbn [export_wires export_wire]. rewrite (export_end_copy a a' Ta), (export_end_copy b b' Tb).
    destruct (export_end veq fl a) as [x|e]; cbn; [|reflexivity]. destruct (export_end veq fl b) as [y|e]; cbn; [|reflexivity]. apply IH.
  Qed.
  Lemma mapM_ext {B C} (g h : B -> result C) l : (forall x, g x = h x) -> mapM g l = mapM h l.
  Proof. intros E. induction l as [|x l IH]; [reflexivity|]. cbn. rewrite E, IH. reflexivity. Qed.
  Lemma export_schedule_copy l : export_schedule veq (map f fl) l = export_schedule veq fl l.
  Proof. destruct l as [|e l]; [reflexivity|]. unfold export_schedule. apply mapM_ext, export_loco_copy. Qed.
  Lemma numbered_copy l : forall i, numbered i (map f l) = map (fun p => (f (fst p), snd p)) (numbered i l).
  Proof. induction l as [|x l IH]; intros i; [reflexivity|]. cbn. rewrite IH. reflexivity. Qed.
End Export.

Lemma export_copy k b b' : NoDup (ids (body b)) -> copy_blueprint k b = Ok b' ->
  exists f, renews f k (ids (body b)) /\
    b' = mkB (f (b_id b)) (map (move f) (b_ents b)) (b_ss b) (b_ws b) /\
    forall veq, alike veq f (ids (body b)) ->
      export veq (seen_blueprint b') (b_ss b') =
      match export veq (seen_blueprint b) (b_ss b) with
      | Ok x => Ok (mkX (map (fun p => (f (fst p), snd p)) (x_ents x)) (x_scheds x) (x_wires x))
      | Err e => Err e
      end.
Proof.
  intros D H. destruct (blueprint_ok k b b' D H) as (f & R & E). exists f. split; [exact R|]. split; [exact E|].
  intros veq A. assert (C : copyable (body b)) by (apply (blueprint_iff k b D); exists b'; exact H).
  rewrite E. clear E H R. unfold seen_blueprint, export. cbn [b_ents b_ss b_ws c_ents c_wires].
  rewrite flatten_seen, inners_seen.
  assert (L : forall i, In i (flatten (map seen (b_ents b))) -> In i (ids (body b))).
  { intros i I. right. apply flatten_ids, I. }
  rewrite (mapM_ext _ (export_schedule veq (flatten (map seen (b_ents b))))) by (intros l; exact (export_schedule_copy veq f _ A _ L l)).
  destruct (mapM (export_schedule veq (flatten (map seen (b_ents b)))) (b_ss b)) as [ss|e]; cbn [bind]; [|reflexivity].
  rewrite (export_wires_copy veq f (ids (body b)) A _ L (b_ws b ++ flat_map inner_wires (map seen (b_ents b)))).
  - destruct (export_wires veq _ _ []) as [ws|e]; cbn [bind]; [|reflexivity]. cbn. rewrite numbered_copy. reflexivity.
  - apply Forall2_app.
    + induction (b_ws b) as [|[[[a p] c] q] ws IH]; constructor; [|exact IH]. cbn.
      repeat split; [destruct a as [z|[x|]]|destruct c as [z|[x|]]]; cbn; try reflexivity; left; reflexivity.
    + assert (T : forall w, In w (flat_map inner_wires (map seen (b_ents b))) -> wire_target f (ids (body b)) w (move_wire f w)).
      { intros w Iw. assert (T : forall e, In e (wire_ends w) -> end_target f (ids (body b)) e (move_end f e)).
        { intros e Ie. destruct (copyable_leads (body b) e C) as (i & -> & I).
          - apply (inner_leads (body b) w e); [|exact Ie]. exact Iw.
          - cbn. right. split; [exact I|reflexivity]. }
        destruct w as [[[a p] c] q]. cbn. repeat split; apply T; cbn; auto. }
      induction (flat_map inner_wires (map seen (b_ents b))) as [|w l IH]; constructor; [apply T; left; reflexivity|].
      apply IH. intros w' I. apply T. right. exact I.
Qed.

(** ** Without the original. *)
Lemma weaken_dead alive i : ~ In i alive -> weaken alive (WRef (Some i)) = WRef None.
Proof.
  intros N. cbn. replace (existsb (Nat.eqb i) alive) with false; [reflexivity|]. symmetry. apply not_true_is_false.
  intros E. apply existsb_exists in E as (j & I & X). apply Nat.eqb_eq in X. subst. contradiction.
Qed.
Lemma weaken_alive alive i : In i alive -> weaken alive (WRef (Some i)) = WRef (Some i).
Proof.
  intros N. cbn. replace (existsb (Nat.eqb i) alive) with true; [reflexivity|]. symmetry.
  apply existsb_exists. exists i. split; [exact N|apply Nat.eqb_refl].
Qed.
Lemma weaken_old k alive e : old_end k e -> (forall i, In i alive -> k <= i) -> weaken alive e = WRef None.
Proof.
  intros (o & -> & O) H. destruct o as [i|]; [|reflexivity]. apply weaken_dead. intros I. specialize (O i eq_refl). specialize (H i I). lia.
Qed.
Lemma orphan veq k b b' : NoDup (ids (body b)) -> copy_blueprint k b = Ok b' ->
  Forall (old_end k) (concat (b_ss b) ++ flat_map wire_ends (b_ws b)) ->
  Forall (fun e => e = WRef None) (concat (b_ss (weaken_blueprint (ids (body b')) b')) ++ flat_map wire_ends (b_ws (weaken_blueprint (ids (body b')) b'))) /\
  (b_ss b = [] -> b_ws b <> [] -> export veq (seen_blueprint (weaken_blueprint (ids (body b')) b')) [] = Err InvalidAssociationError).
Proof.
  intros D H O. destruct (blueprint_ok k b b' D H) as (f & [_ R] & E).
  assert (N : forall i, In i (ids (body b')) -> k <= i).
  { intros i I. assert (X : ids (body b') = map f (ids (body b))).
    { rewrite E. unfold body. cbn [b_id b_ents ids map]. f_equal. clear. induction (b_ents b) as [|n l IH]; [reflexivity|].
      cbn. rewrite ids_move, map_app, IH. reflexivity. }
    rewrite X in I. apply in_map_iff in I as (j & <- & J). apply R, J. }
  revert N. generalize (ids (body b')) as alive. intros alive N. rewrite E. cbn [weaken_blueprint b_ss b_ws].
  assert (W : Forall (fun e => e = WRef None) (map (weaken alive) (concat (b_ss b) ++ flat_map wire_ends (b_ws b)))).
  { apply Forall_forall. intros e I. apply in_map_iff in I as (e0 & <- & I). rewrite Forall_forall in O. exact (weaken_old k alive e0 (O e0 I) N). }
  split.
  - rewrite map_app, concat_map in W. replace (flat_map wire_ends (map (weaken_wire alive) (b_ws b))) with (map (weaken alive) (flat_map wire_ends (b_ws b))); [exact W|].
    clear. induction (b_ws b) as [|[[[a p] c] q] l IH]; [reflexivity|]. cbn. rewrite IH. reflexivity.
  - intros _ Wn. destruct (b_ws b) as [|[[[a p] c] q] ws] eqn:Ew; [congruence|].
    unfold export, seen_blueprint. cbn [mapM bind weaken_blueprint b_ents b_ws c_ents c_wires map app export_wires export_wire weaken_wire].
    assert (Ea : weaken alive a = WRef None).
    { rewrite Forall_forall in W. apply W. apply in_map, in_or_app. right. left. reflexivity. }
    rewrite Ea. reflexivity.
Qed.
Lemma weaken_same alive n : (forall e, leads_to n e -> exists i, e = WRef (Some i) /\ In i alive) -> weaken_node alive n = n.
Proof.
  induction n as [i v|i v kids ss ws IH] using node_ind'; intros H; [reflexivity|]. cbn [weaken_node].
  assert (O : forall e, In e (own_ends (Grp i v kids ss ws)) -> weaken alive e = e).
  { intros e I. destruct (H e) as (j & -> & J); [exists (Grp i v kids ss ws); split; [constructor|exact I]|]. apply weaken_alive, J. }
  f_equal.
  - rewrite <- (map_id kids) at 2. apply map_ext_in. intros k Ik. rewrite Forall_forall in IH. apply IH; [exact Ik|].
    intros e (h & Ih & Ie). apply H. exists h. split; [eapply inside_kid; eassumption|exact Ie].
  - rewrite <- (map_id ss) at 2. apply map_ext_in. intros l Il. rewrite <- (map_id l) at 2. apply map_ext_in. intros e Ie.
    apply O. cbn. apply in_or_app. left. apply in_concat. exists l. split; assumption.
  - rewrite <- (map_id ws) at 2. apply map_ext_in. intros [[[a p] c] q] Iw. cbn.
    rewrite (O a), (O c); [reflexivity| |]; cbn; apply in_or_app; right; apply in_flat_map; eexists; (split; [exact Iw|cbn; auto]).
Qed.
Lemma survives k n m : NoDup (ids n) -> Forall (fun i => i < k) (ids n) -> deepcopy k n = Ok m -> weaken_node (ids m) m = m.
Proof. intros D L H. apply weaken_same. apply (deepcopy_apart k n m D L H). Qed.
