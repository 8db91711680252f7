(** Python dictionaries as association lists in insertion order, and Python
    list/range indexing, shared by several models. *)
From Coq Require Import ZArith List Bool Lia.
Import ListNotations.

Section Dict.
  Context {K V : Type}.
  Variable keqb : K -> K -> bool.
  Definition dict := list (K * V).

  (** [d.get(k)] *)
  Fixpoint dget (d : dict) (k : K) : option V :=
    match d with
    | [] => None
    | (k', v) :: d' => if keqb k' k then Some v else dget d' k
    end.
  (** [d[k] = v] *)
  Fixpoint dset (d : dict) (k : K) (v : V) : dict :=
    match d with
    | [] => [(k, v)]
    | (k', w) :: d' => if keqb k' k then (k', v) :: d' else (k', w) :: dset d' k v
    end.
  (** [del d[k]] of a present key *)
  Fixpoint ddel (d : dict) (k : K) : dict :=
    match d with
    | [] => []
    | (k', w) :: d' => if keqb k' k then d' else (k', w) :: ddel d' k
    end.

  Definition dwf (d : dict) : Prop := NoDup (map fst d).

  Hypothesis keqb_eq : forall a b, keqb a b = true <-> a = b.

  Lemma keqb_refl : forall a, keqb a a = true.
  Proof. intros. apply keqb_eq. reflexivity. Qed.
  Lemma keqb_neq : forall a b, keqb a b = false <-> a <> b.
  Proof.
    intros a b. destruct (keqb a b) eqn:E.
    - apply keqb_eq in E. split; congruence.
    - split; [|reflexivity]. intros _ H. apply keqb_eq in H. congruence.
  Qed.

  Lemma dget_in : forall d k v, dwf d -> (dget d k = Some v <-> In (k, v) d).
  Proof.
    unfold dwf. induction d as [|[k' w] d IH]; intros k v H; simpl.
    - split; [discriminate|contradiction].
    - inversion H; subst. destruct (keqb k' k) eqn:E.
      + apply keqb_eq in E. subst. split.
        * intros F. inversion F. left. reflexivity.
        * intros [F|F]; [congruence|]. exfalso. apply H2. apply (in_map fst) in F. assumption.
      + rewrite IH by assumption. apply keqb_neq in E. split; [auto|].
        intros [F|F]; [congruence|assumption].
  Qed.
  Lemma dget_some_in : forall d k v, dget d k = Some v -> In (k, v) d.
  Proof.
    induction d as [|[k' w] d IH]; intros k v; simpl; [discriminate|].
    destruct (keqb k' k) eqn:E.
    - apply keqb_eq in E. subst. intros F. inversion F. left. reflexivity.
    - intros F. right. apply IH. assumption.
  Qed.
  Lemma dget_none : forall d k, dget d k = None <-> ~ In k (map fst d).
  Proof.
    induction d as [|[k' w] d IH]; intros k; simpl; [tauto|].
    destruct (keqb k' k) eqn:E.
    - apply keqb_eq in E. split; [discriminate|]. intros H. exfalso. apply H. left. assumption.
    - rewrite IH. apply keqb_neq in E. tauto.
  Qed.
  Lemma dget_dset : forall d k v k', dget (dset d k v) k' = if keqb k k' then Some v else dget d k'.
  Proof.
    induction d as [|[k0 w] d IH]; intros k v k'; simpl; [reflexivity|].
    destruct (keqb k0 k) eqn:E; simpl.
    - apply keqb_eq in E. subst. destruct (keqb k k'); reflexivity.
    - destruct (keqb k0 k') eqn:F; [|apply IH].
      apply keqb_eq in F. subst. apply keqb_neq in E.
      destruct (keqb k k') eqn:G; [|reflexivity]. apply keqb_eq in G. congruence.
  Qed.
  Lemma dset_keys : forall d k v x, In x (map fst (dset d k v)) <-> x = k \/ In x (map fst d).
  Proof.
    induction d as [|[k0 w] d IH]; intros k v x; simpl; [intuition|].
    destruct (keqb k0 k) eqn:E; simpl.
    - apply keqb_eq in E. subst. intuition.
    - rewrite IH. intuition.
  Qed.
  Lemma dset_wf : forall d k v, dwf d -> dwf (dset d k v).
  Proof.
    unfold dwf. induction d as [|[k0 w] d IH]; intros k v H; simpl.
    - constructor; [intros []|constructor].
    - inversion H; subst. destruct (keqb k0 k) eqn:E; simpl; constructor; auto.
      rewrite dset_keys. apply keqb_neq in E. intuition.
  Qed.
  Lemma ddel_in_keys : forall d k x, In x (map fst (ddel d k)) -> In x (map fst d).
  Proof.
    induction d as [|[k0 w] d IH]; intros k x; simpl; [auto|].
    destruct (keqb k0 k); simpl; [auto|]. intros [H|H]; [auto|]. right. eapply IH. eassumption.
  Qed.
  Lemma ddel_wf : forall d k, dwf d -> dwf (ddel d k).
  Proof.
    unfold dwf. induction d as [|[k0 w] d IH]; intros k H; simpl; [constructor|].
    inversion H; subst. destruct (keqb k0 k); simpl; [assumption|].
    constructor; [|auto]. intros I. apply H2. eapply ddel_in_keys. eassumption.
  Qed.
  Lemma dget_ddel : forall d k k', dwf d -> dget (ddel d k) k' = if keqb k k' then None else dget d k'.
  Proof.
    unfold dwf. induction d as [|[k0 w] d IH]; intros k k' H; simpl.
    - destruct (keqb k k'); reflexivity.
    - inversion H; subst. destruct (keqb k0 k) eqn:E; simpl.
      + apply keqb_eq in E. subst. destruct (keqb k k') eqn:F; [|reflexivity].
        apply keqb_eq in F. subst. apply dget_none. assumption.
      + destruct (keqb k0 k') eqn:F; [|apply IH; assumption].
        apply keqb_eq in F. subst. destruct (keqb k k') eqn:G; [|reflexivity].
        apply keqb_eq in G. subst. rewrite keqb_refl in E. discriminate.
  Qed.
End Dict.
Arguments dict : clear implicits.

(** A comprehension [{f(k): g(v) for k, v in items}]: repeated assignment. *)
Definition dict_of {K V} (keqb : K -> K -> bool) (items : list (K * V)) : dict K V :=
  fold_left (fun d kv => dset keqb d (fst kv) (snd kv)) items [].

(** Python [range(start, stop, step)] for [step <> 0]. *)
Definition py_range_len (start stop step : Z) : Z :=
  (if (0 <? step)%Z then
     if (start <? stop)%Z then (stop - start - 1) / step + 1 else 0
   else
     if (stop <? start)%Z then (start - stop - 1) / (- step) + 1 else 0)%Z.
Definition py_range (start stop step : Z) : list Z :=
  map (fun k => (start + Z.of_nat k * step)%Z) (seq 0 (Z.to_nat (py_range_len start stop step))).

(** [slice.indices(len)] (CPython PySlice_AdjustIndices); [step <> 0]. *)
Definition slice_indices (start stop step : option Z) (len : Z) : Z * Z * Z :=
  (let step := match step with None => 1 | Some s => s end in
  let lower := if step <? 0 then -1 else 0 in
  let upper := if step <? 0 then len - 1 else len in
  let clamp v := if v <? 0 then Z.max (v + len) lower else Z.min v upper in
  let start := match start with None => if step <? 0 then upper else lower | Some v => clamp v end in
  let stop := match stop with None => if step <? 0 then lower else upper | Some v => clamp v end in
  (start, stop, step))%Z.

(** [l.insert(idx, x)] *)
Definition py_insert {A} (l : list A) (idx : Z) (x : A) : list A :=
  (let n := Z.of_nat (length l) in
   let i := if idx <? 0 then Z.max 0 (idx + n) else Z.min idx n in
   firstn (Z.to_nat i) l ++ x :: skipn (Z.to_nat i) l)%Z.

(** [l[idx]]: the element, [None] for [IndexError]. *)
Definition py_pos (n idx : Z) : option nat :=
  (let i := if idx <? 0 then idx + n else idx in
   if (0 <=? i) && (i <? n) then Some (Z.to_nat i) else None)%Z.
Definition py_nth {A} (l : list A) (idx : Z) : option A :=
  match py_pos (Z.of_nat (length l)) idx with
  | Some i => nth_error l i
  | None => None
  end.
Fixpoint remove_nth {A} (l : list A) (i : nat) : list A :=
  match l, i with
  | [], _ => []
  | _ :: l', O => l'
  | x :: l', S i' => x :: remove_nth l' i'
  end.
Fixpoint replace_nth {A} (l : list A) (i : nat) (v : A) : list A :=
  match l, i with
  | [], _ => []
  | _ :: l', O => v :: l'
  | x :: l', S i' => x :: replace_nth l' i' v
  end.
(** Keep the elements whose position satisfies [f] (positions from [n]). *)
Fixpoint keep_pos {A} (f : Z -> bool) (n : Z) (l : list A) : list A :=
  match l with
  | [] => []
  | x :: l' => if f n then x :: keep_pos f (n + 1) l' else keep_pos f (n + 1) l'
  end.
(** [l.index(x)] with equality [eqb]: first position, [None] for
    [ValueError]. *)
Fixpoint index_of {A} (eqb : A -> A -> bool) (l : list A) (x : A) : option nat :=
  match l with
  | [] => None
  | y :: l' => if eqb y x then Some O else option_map S (index_of eqb l' x)
  end.
