(** Proofs about decider conditions. *)
From Coq Require Import ZArith NArith List Bool String Lia.
From Verif Require Import Common Decider_Model Decider_Spec.
Import ListNotations.
Local Open Scope string_scope.
Local Open Scope list_scope.
Local Open Scope Z_scope.

(** ** Comparisons *)
Lemma existsb_in : forall s (l : list pystr), existsb (pystr_eqb s) l = if in_dec pystr_eq_dec s l then true else false.
Proof.
  intros s l. destruct (in_dec pystr_eq_dec s l) as [I|I].
  - apply existsb_exists. exists s. split; [exact I|]. apply pystr_eqb_refl.
  - destruct (existsb (pystr_eqb s) l) eqn:E; [|reflexivity]. apply existsb_exists in E. destruct E as [x [X Y]].
    apply pystr_eqb_eq in Y. subst. contradiction.
Qed.
(** The comparison a built condition makes. *)
Definition built (o : pyop) : pyop := match o with PGe => PLe | PLe => PGe | _ => o end.
Definition made (o : pyop) (a b : term) : option cond :=
  match a, b with
  | Input s n, _ => output_condition s n (method_text o) b
  | _, Input s n => output_condition s n (method_text (mirrored o)) a
  | _, _ => None
  end.
Lemma made_sensible : forall o a b, sensible a b -> exists c, made o a b = Some c /\ c_and c = false.
Proof. intros o [s n|z|] [s' n'|z'|] F; try contradiction; eexists; split; reflexivity. Qed.
Lemma made_insensible : forall o a b, ~ sensible a b -> made o a b = None.
Proof. intros o [s n|z|] [s' n'|z'|] F; try reflexivity; exfalso; apply F; exact I. Qed.
Lemma compare_made : forall h o a b, py_compare h o a b =
  match made o a b with
  | Some c => Ok (h ++ [c], One (List.length h))
  | None => match o with PEq | PNe => Ok (h, Foreign) | _ => Err TypeError end
  end.
Proof. reflexivity. Qed.

Section Meaning.
  Variable val : pystr -> bool -> bool -> Z.
  Notation true_cond := (true_cond val).
  Notation holds := (holds val).
  Notation holds_from := (holds_from val).
  Notation term_value := (term_value val).
  Notation means := (means val).

  Ltac solve_compare := match goal with
    | |- compares ?c _ => first [exact c_gt|exact c_lt|exact c_eq|exact c_ge|exact c_le|exact c_ne] end.
  Lemma compares_fun : forall s P Q, compares s P -> compares s Q -> forall x y, P x y <-> Q x y.
  Proof. intros s P Q A B. destruct A; inversion B; subst; intros; reflexivity. Qed.
  Lemma text_compares : forall o, compares (normalize_comparator (method_text o)) (python (built o)).
  Proof. intros []; [apply c_eq|apply c_ne|apply c_gt|apply c_lt|apply c_le|apply c_ge]. Qed.
  Lemma nets_value : forall s n, val s (red (nets_of n)) (green (nets_of n)) = term_value (Input s n).
  Proof. intros s n. unfold nets_of, Decider_Spec.term_value. cbn [red green]. rewrite !existsb_in. reflexivity. Qed.
  Lemma output_true : forall s n o t c, output_condition s n (method_text o) t = Some c ->
    (true_cond c <-> python (built o) (term_value (Input s n)) (term_value t)).
  Proof.
    intros s n o t c E. unfold Decider_Spec.true_cond.
    assert (V : val (c_first c) (red (c_nets c)) (green (c_nets c)) = term_value (Input s n)).
    { destruct t; inversion E; subst; cbn [c_first c_nets]; apply nets_value. }
    assert (W : right_value val (c_rhs c) = term_value t).
    { destruct t; inversion E; subst; cbn [c_rhs right_value]; [apply nets_value|reflexivity]. }
    assert (C : c_cmp c = normalize_comparator (method_text o)) by (destruct t; inversion E; reflexivity).
    rewrite V, W, C. split.
    - intros [P [A B]]. apply (compares_fun _ _ _ (text_compares o) A). exact B.
    - intros A. exists (python (built o)). split; [apply text_compares|exact A].
  Qed.
  Lemma mirrored_built : forall o x y, python (built (mirrored o)) x y <-> python (built o) y x.
  Proof. intros [] x y; simpl; lia. Qed.
  Lemma made_true : forall o a b c, made o a b = Some c ->
    (true_cond c <-> python (built o) (term_value a) (term_value b)).
  Proof.
    intros o a b c E. destruct a as [s n|z|].
    - exact (output_true s n o b c E).
    - destruct b as [s n|z'|]; [|discriminate|discriminate]. simpl in E.
      rewrite <- mirrored_built. exact (output_true s n (mirrored o) (Int z) c E).
    - destruct b as [s n|z'|]; discriminate.
  Qed.

  (** ** Lists *)
  Lemma from_iff : forall l P Q, (P <-> Q) -> (holds_from P l <-> holds_from Q l).
  Proof.
    induction l as [|c l IH]; intros P Q E; [exact E|]. cbn [Decider_Spec.holds_from]. destruct (c_and c).
    - apply IH. tauto.
    - rewrite E. reflexivity.
  Qed.
  (** Only the truth of a condition and its compare type matter, and the compare
      type of the first not at all. *)
  Definition alike (c d : cond) : Prop := c_and c = c_and d /\ (true_cond c <-> true_cond d).
  Lemma from_alike : forall l l' P, Forall2 alike l l' -> (holds_from P l <-> holds_from P l').
  Proof.
    induction l as [|c l IH]; intros l' P F; inversion F as [|? d ? l2 [A B] F2]; subst; [reflexivity|].
    cbn [Decider_Spec.holds_from]. rewrite A. destruct (c_and d).
    - rewrite (IH _ _ F2). apply from_iff. rewrite B. reflexivity.
    - rewrite (IH _ _ F2). rewrite (from_iff l2 _ _ B). reflexivity.
  Qed.
  Lemma from_or : forall la P c lb, c_and c = false -> (holds_from P (la ++ c :: lb) <-> holds_from P la \/ holds (c :: lb)).
  Proof.
    induction la as [|d la IH]; intros P c lb A; cbn [app Decider_Spec.holds_from].
    - rewrite A. reflexivity.
    - destruct (c_and d); rewrite IH by exact A; tauto.
  Qed.
  Lemma from_and : forall la P Q, Forall (fun c => c_and c = true) la -> (holds_from (P /\ Q) la <-> P /\ holds_from Q la).
  Proof.
    induction la as [|d la IH]; intros P Q F; [reflexivity|]. cbn [Decider_Spec.holds_from]. rewrite (Forall_inv F).
    rewrite (from_iff la ((P /\ Q) /\ true_cond d) (P /\ (Q /\ true_cond d))) by tauto. rewrite IH by exact (Forall_inv_tail F). reflexivity.
  Qed.
  Lemma from_app : forall la P lb, Forall (fun c => c_and c = true) la -> (holds_from P (la ++ lb) <-> holds_from (holds_from P la) lb).
  Proof.
    induction la as [|d la IH]; intros P lb F; [reflexivity|]. cbn [app Decider_Spec.holds_from]. rewrite (Forall_inv F).
    apply IH. exact (Forall_inv_tail F).
  Qed.
  Lemma true_set : forall b c, true_cond (set_and b c) <-> true_cond c.
  Proof. reflexivity. Qed.
  Lemma holds_first : forall b c l, holds (set_and b c :: l) <-> holds (c :: l).
  Proof. reflexivity. Qed.
  Definition front (b : bool) (l : list cond) : list cond := match l with [] => [] | c :: r => set_and b c :: r end.
  Theorem or_lists : forall la lb, la <> [] -> lb <> [] -> (holds (la ++ front false lb) <-> holds la \/ holds lb).
  Proof.
    intros [|c la] [|d lb] A B; try contradiction. cbn [app front Decider_Spec.holds]. rewrite from_or by reflexivity. reflexivity.
  Qed.
  Theorem and_lists : forall la lb, la <> [] -> lb <> [] ->
    Forall (fun c => c_and c = true) (tl la) -> Forall (fun c => c_and c = true) (tl lb) ->
    (holds (la ++ front true lb) <-> holds la /\ holds lb).
  Proof.
    intros [|c la] [|d lb] A B F G; try contradiction. cbn [app front Decider_Spec.holds tl] in *.
    rewrite from_app by exact F. cbn [Decider_Spec.holds_from set_and c_and]. rewrite from_and by exact G. reflexivity.
  Qed.

End Meaning.

(** ** Heaps *)
Lemma update_length : forall h i f, List.length (update h i f) = List.length h.
Proof. induction h as [|w h IH]; intros [|i] f; simpl; auto. Qed.
Lemma update_same : forall h i f, nth_error (update h i f) i = option_map f (nth_error h i).
Proof. induction h as [|w h IH]; intros [|i] f; simpl; auto. Qed.
Lemma update_other : forall h i j f, i <> j -> nth_error (update h i f) j = nth_error h j.
Proof.
  induction h as [|w h IH]; intros [|i] [|j] f N; simpl; try reflexivity; [contradiction|]. apply IH. lia.
Qed.
Lemma objects_nth_iff : forall h l cs, objects h l cs -> forall i, In i l -> exists c, In c cs /\ nth_error h i = Some c.
Proof.
  intros h l cs F. induction F as [|i c l cs A F IH]; intros j I; [destruct I|]. destruct I as [->|I]; [exists c; simpl; auto|].
  destruct (IH j I) as [d [D E]]. exists d. simpl. auto.
Qed.
Lemma objects_update : forall h l cs i f, objects h l cs -> ~ In i l -> objects (update h i f) l cs.
Proof.
  intros h l cs i f F. induction F as [|j c l cs A F IH]; intros N; constructor.
  - rewrite update_other; [exact A|]. intros ->. apply N. left. reflexivity.
  - apply IH. intros I. apply N. right. exact I.
Qed.
Lemma objects_fun : forall h l cs cs', objects h l cs -> objects h l cs' -> cs = cs'.
Proof.
  intros h l cs cs' F. revert cs'. induction F as [|j c l cs A F IH]; intros cs' G; inversion G; subst; [reflexivity|].
  f_equal; [congruence|apply IH; assumption].
Qed.
Lemma objects_app : forall h l l' cs cs', objects h l cs -> objects h l' cs' -> objects h (l ++ l') (cs ++ cs').
Proof. intros h l l' cs cs' A B. apply Forall2_app; assumption. Qed.
Lemma untouched_objects : forall h h' l cs, untouched h h' -> objects h l cs -> objects h' l cs.
Proof. intros h h' l cs U F. induction F; constructor; auto. Qed.
Lemma untouched_trans : forall h1 h2 h3, untouched h1 h2 -> untouched h2 h3 -> untouched h1 h3.
Proof. intros h1 h2 h3 A B i c E. auto. Qed.
Lemma untouched_app : forall h c, untouched h (h ++ c).
Proof. intros h c i d E. rewrite nth_error_app1; [exact E|]. apply nth_error_Some. congruence. Qed.

(** ** One operator *)
Lemma op_ok : forall k h a b h' r, py_op k h a b = Ok (h', r) ->
  exists i t, members b = i :: t /\ h' = update h i (set_and k) /\ r = Many (members a ++ i :: t) /\ members a <> [] \/
              a = Many [] /\ members b = i :: t /\ t = [] /\ h' = update h i (set_and k) /\ r = Many [i].
Proof.
  intros k h a b h' r E. destruct a as [i|l|]; cbn [py_op] in E.
  - destruct b as [j|[|j m]|]; cbn [op_forward] in E; try discriminate; inversion E; subst.
    + exists j, []. left. repeat split. discriminate.
    + exists j, m. left. repeat split. discriminate.
  - destruct b as [j|m|]; cbn [op_reflected] in E; try discriminate. inversion E; subst. exists j, []. destruct l as [|x l].
    + right. auto.
    + left. repeat split. discriminate.
  - destruct b as [j|m|]; discriminate.
Qed.
Lemma op_result : forall k h a b h' r, py_op k h a b = Ok (h', r) ->
  exists i t, members b = i :: t /\ h' = update h i (set_and k) /\ r = Many (members a ++ members b).
Proof.
  intros k h a b h' r E. apply op_ok in E. destruct E as [i [t [[A [B [C _]]]|[-> [A [-> [B C]]]]]]].
  - exists i, t. rewrite A. auto.
  - exists i, []. rewrite A. auto.
Qed.
Theorem op_iff : forall k h a b,
  (exists h' r, py_op k h a b = Ok (h', r)) <->
  (exists i, a = One i /\ members b <> []) \/ (exists l i, a = Many l /\ b = One i).
Proof.
  intros k h a b. split.
  - intros [h' [r E]]. destruct a as [i|l|].
    + left. exists i. split; [reflexivity|]. apply op_result in E. destruct E as [j [t [E _]]]. rewrite E. discriminate.
    + right. destruct b as [j|m|]; try discriminate. eauto.
    + destruct b; discriminate.
  - intros [[i [-> B]]|[l [i [-> ->]]]].
    + destruct b as [j|[|j m]|]; try contradiction; simpl; eauto.
    + simpl. eauto.
Qed.
Theorem op_errors : forall k h a b e, py_op k h a b = Err e ->
  e = IndexError /\ (exists i, a = One i) /\ b = Many [] \/
  e = TypeError /\ (a = Foreign \/ b = Foreign \/ exists l m, a = Many l /\ b = Many m).
Proof.
  intros k h a b e E. destruct a as [i|l|], b as [j|m|]; cbn in E; try destruct m as [|j m]; cbn in E; inversion E; subst; eauto 10.
Qed.
(** What an operator leaves alone. *)
Theorem op_keeps : forall k h a b h' r i t, py_op k h a b = Ok (h', r) -> members b = i :: t ->
  List.length h' = List.length h /\ (forall j, j <> i -> nth_error h' j = nth_error h j) /\
  nth_error h' i = option_map (set_and k) (nth_error h i).
Proof.
  intros k h a b h' r i t E B. apply op_result in E. destruct E as [i' [t' [B' [-> _]]]]. rewrite B in B'. inversion B'; subst i' t'.
  split; [apply update_length|]. split; [intros j N; apply update_other; auto|apply update_same].
Qed.
Theorem built_kept : forall val k h a b h' r i t l cs, py_op k h a b = Ok (h', r) -> members b = i :: t -> ~ In i (tl l) ->
  objects h l cs -> exists cs', objects h' l cs' /\ (holds val cs' <-> holds val cs).
Proof.
  intros val k h a b h' r i t l cs E B N O. apply op_result in E. destruct E as [i' [t' [B' [-> _]]]]. rewrite B in B'.
  inversion B'; subst i' t'. destruct l as [|j l].
  - inversion O; subst. exists []. split; [constructor|reflexivity].
  - inversion O as [|? c ? cs2 A O2]; subst. pose proof (objects_update h l cs2 i (set_and k) O2 N) as O3.
    destruct (Nat.eq_dec i j) as [<-|D].
    + exists (set_and k c :: cs2). split; [constructor; [rewrite update_same, A; reflexivity|exact O3]|reflexivity].
    + exists (c :: cs2). split; [constructor; [rewrite update_other by exact D; exact A|exact O3]|reflexivity].
Qed.
(** The meaning of the result, in terms of the operands' meanings. *)
Lemma op_objects : forall k h a b h' r ca cb, py_op k h a b = Ok (h', r) -> NoDup (members a ++ members b) ->
  objects h (members a) ca -> objects h (members b) cb -> objects h' (members r) (ca ++ front k cb).
Proof.
  intros k h a b h' r ca cb E N A B. apply op_result in E. destruct E as [i [t [M [-> ->]]]]. rewrite M in *. cbn [members].
  inversion B as [|? c ? cs C B2]; subst. cbn [front]. apply objects_app.
  - apply objects_update; [exact A|]. intros I. apply NoDup_remove_2 in N. apply N. apply in_app_iff. left. exact I.
  - constructor; [rewrite update_same, C; reflexivity|]. apply objects_update; [exact B2|].
    intros I. apply NoDup_remove_2 in N. apply N. apply in_app_iff. right. exact I.
Qed.
Lemma objects_nil : forall h l cs, objects h l cs -> (l = [] <-> cs = []).
Proof. intros h l cs O. inversion O; split; congruence. Qed.
Theorem or_result : forall val h a b h' r ca cb, py_op false h a b = Ok (h', r) -> members a <> [] -> NoDup (members a ++ members b) ->
  objects h (members a) ca -> objects h (members b) cb ->
  exists cr, objects h' (members r) cr /\ (holds val cr <-> holds val ca \/ holds val cb).
Proof.
  intros val h a b h' r ca cb E M N A B. exists (ca ++ front false cb). split; [exact (op_objects _ _ _ _ _ _ _ _ E N A B)|].
  apply or_lists; [rewrite <- (objects_nil _ _ _ A); exact M|]. rewrite <- (objects_nil _ _ _ B).
  apply op_result in E. destruct E as [i [t [-> _]]]. discriminate.
Qed.
Theorem and_result : forall val h a b h' r ca cb, py_op true h a b = Ok (h', r) -> members a <> [] -> NoDup (members a ++ members b) ->
  objects h (members a) ca -> objects h (members b) cb ->
  Forall (fun c => c_and c = true) (tl ca) -> Forall (fun c => c_and c = true) (tl cb) ->
  exists cr, objects h' (members r) cr /\ (holds val cr <-> holds val ca /\ holds val cb).
Proof.
  intros val h a b h' r ca cb E M N A B F G. exists (ca ++ front true cb). split; [exact (op_objects _ _ _ _ _ _ _ _ E N A B)|].
  apply and_lists; auto; [rewrite <- (objects_nil _ _ _ A); exact M|]. rewrite <- (objects_nil _ _ _ B).
  apply op_result in E. destruct E as [i [t [-> _]]]. discriminate.
Qed.

(** ** Whole expressions *)
Definition read (p : bool * (pyop * term * term)) (c : cond) : Prop :=
  exists d, made (fst (fst (snd p))) (snd (fst (snd p))) (snd (snd p)) = Some d /\ c = set_and (fst p) d.
Lemma flat_front : forall k e, evaluable e -> exists p r, flat false e = (false, p) :: r /\ flat k e = (k, p) :: r.
Proof.
  intros k. induction e as [o a b|o|c a IHa b IHb]; intros V; [simpl; eauto|contradiction|].
  destruct V as [A [B _]]. destruct (IHa A) as [p [r [E F]]]. cbn [flat]. rewrite E, F. simpl. eauto.
Qed.
Lemma range_app : forall a b n, List.seq a b ++ List.seq (a + b) n = List.seq a (b + n).
Proof. intros. symmetry. apply seq_app. Qed.
Lemma run_shape : forall e h, evaluable e -> exists h' r, run h e = Ok (h', r) /\ untouched h h' /\
  List.length h' = (List.length h + List.length (comparisons e))%nat /\
  members r = List.seq (List.length h) (List.length (comparisons e)) /\
  (match e with Op _ _ _ => exists l, r = Many l | _ => exists i, r = One i end) /\
  exists cs, objects h' (members r) cs /\ Forall2 read (flat false e) cs.
Proof.
  induction e as [o a b|o|k a IHa b IHb]; intros h V; [|contradiction|].
  - destruct (made_sensible o a b V) as [c [M T]]. exists (h ++ [c]), (One (List.length h)). cbn [run]. rewrite compare_made, M.
    split; [reflexivity|]. split; [apply untouched_app|]. cbn [comparisons List.length members List.seq flat].
    split; [rewrite app_length; reflexivity|]. split; [reflexivity|]. split; [eauto|]. exists [c]. split.
    + constructor; [|constructor]. rewrite nth_error_app2, Nat.sub_diag by lia. reflexivity.
    + constructor; [|constructor]. exists c. split; [exact M|]. destruct c; simpl in *. subst. reflexivity.
  - destruct V as [VA [VB VC]]. destruct (IHa h VA) as [h1 [x [R1 [U1 [L1 [M1 [S1 [ca [O1 F1]]]]]]]]].
    destruct (IHb h1 VB) as [h2 [y [R2 [U2 [L2 [M2 [S2 [cb [O2 F2]]]]]]]]].
    assert (NE : forall e, evaluable e -> exists n, List.length (comparisons e) = S n).
    { clear. induction e as [o a b|o|c a IHa b IHb]; intros V; [simpl; eauto|contradiction|]. cbn [comparisons].
      rewrite app_length. destruct (IHa (proj1 V)) as [n ->]. simpl. eauto. }
    destruct (NE a VA) as [na Na]. destruct (NE b VB) as [nb Nb].
    assert (OK : exists h' r, py_op k h2 x y = Ok (h', r)).
    { apply op_iff. destruct VC as [At|At].
      - left. destruct a; try contradiction; destruct S1 as [i ->]; exists i; (split; [reflexivity|]); rewrite M2, Nb; discriminate.
      - destruct b; try contradiction; destruct S2 as [j ->]; destruct a; destruct S1 as [i ->];
          first [left; eexists; split; [reflexivity|discriminate]|right; eauto]. }
    destruct OK as [h' [r E]]. exists h', r. cbn [run]. rewrite R1. cbn [bind]. rewrite R2. cbn [bind]. split; [exact E|].
    pose proof (op_result _ _ _ _ _ _ E) as [i [t [Mi [Eh Er]]]].
    assert (Hi : i = List.length h1). { rewrite M2, Nb in Mi. simpl in Mi. congruence. }
    cbn [comparisons]. rewrite app_length. split; [|split; [|split; [|split; [eauto|]]]].
    + intros j c J. rewrite Eh, update_other; [apply U2, U1, J|]. rewrite Hi, L1.
      assert (j < List.length h)%nat by (apply nth_error_Some; congruence). lia.
    + rewrite Eh, update_length, L2, L1. lia.
    + rewrite Er. cbn [members]. rewrite M1, M2, L1. apply range_app.
    + exists (ca ++ front k cb). split.
      * apply (op_objects _ _ _ _ _ _ _ _ E); [|exact (untouched_objects _ _ _ _ U2 O1)|exact O2].
        rewrite M1, M2, L1, range_app. apply seq_NoDup.
      * cbn [flat]. apply Forall2_app; [exact F1|]. destruct (flat_front k b VB) as [p [q [Ef Eg]]]. rewrite Ef in F2.
        inversion F2 as [|? c ? cs [d [D ->]] F3]; subst. rewrite Eg. cbn [front]. constructor; [|exact F3].
        exists d. split; [exact D|]. destruct d; reflexivity.
Qed.

Section Meaning2.
  Variable val : pystr -> bool -> bool -> Z.
  Notation true_cond := (true_cond val).
  Notation holds := (holds val).
  Notation holds_from := (holds_from val).
  Notation term_value := (term_value val).
  Notation means := (means val).
  Definition truth (p : bool * (pyop * term * term)) : Prop :=
    python (fst (fst (snd p))) (term_value (snd (fst (snd p)))) (term_value (snd (snd p))).
  Lemma read_truth : forall p c, read p c -> fst (fst (snd p)) <> PGe -> fst (fst (snd p)) <> PLe ->
    c_and c = fst p /\ (true_cond c <-> truth p).
  Proof.
    intros [k [[o a] b]] c [d [D ->]] G L. cbn [fst snd] in *. split; [reflexivity|]. unfold truth. cbn [fst snd].
    change (true_cond d <-> python o (term_value a) (term_value b)). rewrite (made_true val o a b d D). destruct o; try reflexivity; contradiction.
  Qed.
  (** The flat reading, clause by clause. *)
  Fixpoint flat_from (clause : Prop) (l : list (bool * (pyop * term * term))) : Prop :=
    match l with
    | [] => clause
    | p :: r => if fst p then flat_from (clause /\ truth p) r else clause \/ flat_from (truth p) r
    end.
  Definition flat_holds (l : list (bool * (pyop * term * term))) : Prop := match l with [] => False | p :: r => flat_from (truth p) r end.
  Lemma flat_from_iff : forall l P Q, (P <-> Q) -> (flat_from P l <-> flat_from Q l).
  Proof.
    induction l as [|c l IH]; intros P Q E; [exact E|]. cbn [flat_from]. destruct (fst c); [apply IH; tauto|]. rewrite E. reflexivity.
  Qed.
  Definition plain (l : list (bool * (pyop * term * term))) : Prop := Forall (fun p => strict_or_equal (fst (fst (snd p)))) l.
  Lemma from_flat : forall l cs P, Forall2 read l cs -> plain l -> (holds_from P cs <-> flat_from P l).
  Proof.
    induction l as [|p l IH]; intros cs P F S; inversion F as [|? c ? cs2 R F2]; subst; [reflexivity|].
    pose proof (Forall_inv S) as [G L]. destruct (read_truth p c R G L) as [A B]. cbn [Decider_Spec.holds_from flat_from]. rewrite A.
    pose proof (Forall_inv_tail S) as S2. destruct (fst p).
    - rewrite (IH _ _ F2 S2). apply flat_from_iff. rewrite B. reflexivity.
    - rewrite (IH _ _ F2 S2). rewrite (flat_from_iff l _ _ B). reflexivity.
  Qed.
  Lemma holds_flat : forall l cs, Forall2 read l cs -> plain l -> (holds cs <-> flat_holds l).
  Proof.
    intros l cs F S. inversion F as [|p c l2 cs2 R F2]; subst; [reflexivity|]. cbn [Decider_Spec.holds flat_holds].
    pose proof (Forall_inv S) as [G L]. destruct (read_truth p c R G L) as [A B]. pose proof (Forall_inv_tail S) as S2.
    rewrite (from_flat l2 cs2 _ F2 S2). apply flat_from_iff. exact B.
  Qed.
  Lemma flat_or : forall la P p lb, fst p = false -> (flat_from P (la ++ p :: lb) <-> flat_from P la \/ flat_holds (p :: lb)).
  Proof.
    induction la as [|d la IH]; intros P p lb A; cbn [app flat_from].
    - rewrite A. reflexivity.
    - destruct (fst d); rewrite IH by exact A; tauto.
  Qed.
  Lemma flat_and : forall la P Q, Forall (fun c => fst c = true) la -> (flat_from (P /\ Q) la <-> P /\ flat_from Q la).
  Proof.
    induction la as [|d la IH]; intros P Q F; [reflexivity|]. cbn [flat_from]. rewrite (Forall_inv F).
    rewrite (flat_from_iff la ((P /\ Q) /\ truth d) (P /\ (Q /\ truth d))) by tauto. rewrite IH by exact (Forall_inv_tail F). reflexivity.
  Qed.
  Lemma flat_app : forall la P lb, Forall (fun c => fst c = true) la -> (flat_from P (la ++ lb) <-> flat_from (flat_from P la) lb).
  Proof.
    induction la as [|d la IH]; intros P lb F; [reflexivity|]. cbn [app flat_from]. rewrite (Forall_inv F).
    apply IH. exact (Forall_inv_tail F).
  Qed.
  Lemma conj_flat : forall e k, evaluable e -> conjunctive e -> exists p r, flat k e = (k, p) :: r /\ Forall (fun c => fst c = true) r.
  Proof.
    induction e as [o a b|o|c a IHa b IHb]; intros k V C; [simpl; eauto|contradiction|]. destruct c; [|contradiction].
    destruct V as [A [B _]]. destruct C as [CA CB]. cbn [flat]. destruct (IHa k A CA) as [p [r [-> F]]]. destruct (IHb true B CB) as [q [s [-> G]]].
    exists p, (r ++ (true, q) :: s). split; [reflexivity|]. apply Forall_app. split; [exact F|]. constructor; [reflexivity|exact G].
  Qed.
  Lemma flat_means_conj : forall e k, evaluable e -> conjunctive e -> (flat_holds (flat k e) <-> means e).
  Proof.
    induction e as [o a b|o|c a IHa b IHb]; intros k V C; [reflexivity|contradiction|]. destruct c; [|contradiction].
    destruct V as [A [B _]]. destruct C as [CA CB]. cbn [flat Decider_Spec.means]. rewrite <- (IHa k A CA), <- (IHb true B CB).
    destruct (conj_flat a k A CA) as [p [r [-> F]]]. destruct (conj_flat b true B CB) as [q [s [-> G]]]. cbn [app flat_holds].
    rewrite flat_app by exact F. cbn [flat_from fst]. rewrite flat_and by exact G. reflexivity.
  Qed.
  Lemma conj_paren : forall e, conjunctive e -> paren_free e.
  Proof. intros [o a b|o|[] a b] C; [exact I|exact I|exact C|contradiction]. Qed.
  Lemma flat_means : forall e k, evaluable e -> paren_free e -> (flat_holds (flat k e) <-> means e).
  Proof.
    induction e as [o a b|o|c a IHa b IHb]; intros k V P; [reflexivity|contradiction|]. destruct c.
    - apply flat_means_conj; [exact V|]. exact P.
    - destruct V as [A [B _]]. destruct P as [PA PB]. cbn [flat Decider_Spec.means]. rewrite <- (IHa k A PA), <- (IHb false B PB).
      destruct (flat_front k a A) as [p [r [_ ->]]]. destruct (flat_front false b B) as [q [s [_ ->]]]. cbn [app flat_holds].
      rewrite flat_or by reflexivity. reflexivity.
  Qed.
  Lemma plain_flat : forall e k, Forall (fun c => strict_or_equal (fst (fst c))) (comparisons e) -> plain (flat k e).
  Proof.
    induction e as [o a b|o|c a IHa b IHb]; intros k F; cbn [comparisons flat] in *.
    - constructor; [exact (Forall_inv F)|constructor].
    - constructor.
    - apply Forall_app in F. apply Forall_app. split; [apply IHa|apply IHb]; tauto.
  Qed.

  Theorem expression_meaning : forall h e, evaluable e -> paren_free e ->
    Forall (fun c => strict_or_equal (fst (fst c))) (comparisons e) ->
    exists h' r cs, run h e = Ok (h', r) /\ untouched h h' /\ objects h' (members r) cs /\ (holds cs <-> means e).
  Proof.
    intros h e V P F. destruct (run_shape e h V) as [h' [r [R [U [_ [_ [_ [cs [O G]]]]]]]]]. exists h', r, cs.
    repeat (split; [assumption|]). rewrite (holds_flat _ _ G (plain_flat e false F)). apply flat_means; assumption.
  Qed.
End Meaning2.

Theorem comparison_meaning : forall val h o a b, sensible a b -> strict_or_equal o -> exists c,
  py_compare h o a b = Ok (h ++ [c], One (List.length h)) /\ c_and c = false /\
  (true_cond val c <-> python o (term_value val a) (term_value val b)).
Proof.
  intros val h o a b S [G L]. destruct (made_sensible o a b S) as [c [M T]]. exists c. rewrite compare_made, M.
  split; [reflexivity|]. split; [exact T|]. rewrite (made_true val o a b c M). destruct o; try reflexivity; contradiction.
Qed.
Theorem loose_meaning : forall val h o a b, sensible a b -> o = PGe \/ o = PLe -> exists c,
  py_compare h o a b = Ok (h ++ [c], One (List.length h)) /\ c_and c = false /\
  (true_cond val c <-> python (mirrored o) (term_value val a) (term_value val b)).
Proof.
  intros val h o a b S D. destruct (made_sensible o a b S) as [c [M T]]. exists c. rewrite compare_made, M.
  split; [reflexivity|]. split; [exact T|]. rewrite (made_true val o a b c M). destruct D; subst; reflexivity.
Qed.
Theorem compare_insensible : forall h o a b, ~ sensible a b ->
  py_compare h o a b = match o with PEq | PNe => Ok (h, Foreign) | _ => Err TypeError end.
Proof. intros h o a b N. rewrite compare_made, made_insensible by exact N. reflexivity. Qed.
Theorem expression_order : forall h e, evaluable e -> exists h' r cs, run h e = Ok (h', r) /\ untouched h h' /\
  members r = List.seq (List.length h) (List.length (comparisons e)) /\ objects h' (members r) cs /\
  Forall2 (fun p c => c_and c = fst p /\
    forall h1, py_compare h1 (fst (fst (snd p))) (snd (fst (snd p))) (snd (snd p)) = Ok (h1 ++ [set_and false c], One (List.length h1)))
    (flat false e) cs.
Proof.
  intros h e V. destruct (run_shape e h V) as [h' [r [R [U [_ [M [_ [cs [O F]]]]]]]]]. exists h', r, cs.
  repeat (split; [assumption|]). clear - F. induction F as [|[k [[o a] b]] c l cs [d [D ->]] F IH]; constructor; [|exact IH]. cbn [fst snd] in *. split; [reflexivity|].
  intros h1. rewrite compare_made, D. destruct a as [s n|z|]; destruct b as [s' n'|z'|]; inversion D; subst; reflexivity.
Qed.

(** ** Witnesses *)
Definition sA := Input (str "signal-A") [str "red"; str "green"].
Definition v5 : pystr -> bool -> bool -> Z := fun _ _ _ => 5.
Theorem greater_equal_refuted : exists val a b h c, py_compare [] PGe a b = Ok ([c], One h) /\ ~ true_cond val c /\ python PGe (term_value val a) (term_value val b).
Proof.
  destruct (loose_meaning v5 [] PGe sA (Int 3) I (or_introl eq_refl)) as [c [E [_ T]]].
  exists v5, sA, (Int 3), 0%nat, c. split; [exact E|]. rewrite T. simpl. unfold v5. lia.
Qed.
Theorem less_equal_refuted : exists val a b h c, py_compare [] PLe a b = Ok ([c], One h) /\ ~ true_cond val c /\ python PLe (term_value val a) (term_value val b).
Proof.
  destruct (loose_meaning v5 [] PLe sA (Int 7) I (or_intror eq_refl)) as [c [E [_ T]]].
  exists v5, sA, (Int 7), 0%nat, c. split; [exact E|]. rewrite T. simpl. unfold v5. lia.
Qed.
(** Two expressions sharing a condition: [x = a | b] and then [y = c & b]. *)
Theorem shared_refuted : exists val h h1 h2 x y c1 c2,
  run h (Op false (Var (One 0)) (Var (One 1))) = Ok (h1, x) /\
  run h1 (Op true (Var (One 2)) (Var (One 1))) = Ok (h2, y) /\
  objects h1 (members x) c1 /\ objects h2 (members x) c2 /\ holds val c1 /\ ~ holds val c2.
Proof.
  set (c := fun s (z : Z) => mkCond s (mkNets true true) (str ">") (RConst z) false).
  exists (fun _ _ _ => 5), [c (str "A") 9; c (str "B") 0; c (str "C") 0]. do 2 eexists.
  exists (Many [0; 1]%nat), (Many [2; 1]%nat). do 2 eexists.
  split; [reflexivity|]. split; [reflexivity|]. split; [repeat constructor|]. split; [repeat constructor|].
  cbn [holds holds_from c set_and c_and c_first c_nets c_cmp c_rhs]. split.
  - right. exists (fun x y => x > y). split; [constructor|]. simpl. lia.
  - intros [[P [A B]] _]. inversion A; subst. simpl in B. lia.
Qed.
(** Parentheses do not survive. *)
Theorem parentheses_refuted : exists val e h r cs, evaluable e /\ run [] e = Ok (h, r) /\ objects h (members r) cs /\
  Forall (fun c => strict_or_equal (fst (fst c))) (comparisons e) /\ holds val cs /\ ~ means val e.
Proof.
  set (e := Op true (Op false (Cmp PGt sA (Int 0)) (Cmp PGt sA (Int 9))) (Cmp PGt sA (Int 9))).
  assert (V : evaluable e) by (simpl; tauto). destruct (run_shape e [] V) as [h [r [R [_ [_ [_ [_ [cs [O F]]]]]]]]].
  assert (P : Forall (fun c => strict_or_equal (fst (fst c))) (comparisons e)).
  { repeat constructor; discriminate. }
  exists v5, e, h, r, cs. repeat (split; [assumption|]). split.
  - rewrite (holds_flat v5 _ _ F (plain_flat e false P)). left. unfold truth. simpl. unfold v5. lia.
  - simpl. unfold v5. lia.
Qed.
