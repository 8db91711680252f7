(** Proofs about wires: naming, adding, removing. *)
From Coq Require Import ZArith List Bool String Lia Permutation.
From Verif Require Import Common Dict Wires_Model Wires_Spec.
Import ListNotations.
Local Open Scope Z_scope.
Local Open Scope list_scope.

Lemma key_ind' : forall P : key -> Prop,
  (forall z, P (KInt z)) -> (forall s, P (KStr s)) -> (forall l, Forall P l -> P (KTup l)) -> forall k, P k.
Proof.
  intros P HI HS HT. fix rec 1. intros [z|s|l]; [apply HI|apply HS|].
  apply HT. induction l as [|k l IH]; constructor; [apply rec|exact IH].
Qed.
Lemma tree_ind' : forall P : tree -> Prop,
  (forall i, P (Leaf i)) -> (forall i ws kids ids, Forall P kids -> P (Node i ws kids ids)) -> forall t, P t.
Proof.
  intros P HL HN. fix rec 1. intros [i|i ws kids ids]; [apply HL|].
  apply HN. induction kids as [|k l IH]; constructor; [apply rec|exact IH].
Qed.

Lemma wend_eqb_eq : forall a b, wend_eqb a b = true <-> a = b.
Proof.
  intros [x|[x|]] [y|[y|]]; simpl; split; intros E; try discriminate; try reflexivity.
  - apply Z.eqb_eq in E. subst. reflexivity.
  - inversion E. apply Z.eqb_refl.
  - apply Nat.eqb_eq in E. subst. reflexivity.
  - inversion E. apply Nat.eqb_refl.
Qed.
Lemma wire_eqb_eq : forall a b, wire_eqb a b = true <-> a = b.
Proof.
  intros [[[a1 s1] a2] s2] [[[b1 t1] b2] t2]. unfold wire_eqb.
  rewrite !andb_true_iff, !wend_eqb_eq, !Z.eqb_eq. split.
  - intros [[[-> ->] ->] ->]. reflexivity.
  - intros E. inversion E. auto.
Qed.

Lemma list_remove_first : forall w ws, without_first w ws (list_remove w ws).
Proof.
  intros w ws. induction ws as [|v ws IH]; simpl; [left; split; [intros []|reflexivity]|].
  destruct (wire_eqb v w) eqn:E.
  - apply wire_eqb_eq in E. subst v. right. exists [], ws. repeat split. intros [].
  - assert (N : v <> w) by (intros C; apply wire_eqb_eq in C; congruence).
    destruct IH as [[I ->]|[pre [post [-> [I ->]]]]].
    + left. split; [|reflexivity]. intros [F|F]; [apply N; exact F|apply I; exact F].
    + right. exists (v :: pre), post. repeat split. intros [F|F]; [apply N; exact F|apply I; exact F].
Qed.
Lemma without_first_unique : forall w ws a b, without_first w ws a -> without_first w ws b -> a = b.
Proof.
  intros w ws a b [[I ->]|[p [q [-> [I ->]]]]] [[J ->]|[p' [q' [E [J ->]]]]].
  - reflexivity.
  - exfalso. apply I. rewrite E. apply in_elt.
  - exfalso. apply J. apply in_elt.
  - revert p' E J. induction p as [|x p IH]; intros [|x' p'] E J; simpl in *; inversion E; subst.
    + reflexivity.
    + exfalso. apply J. left. reflexivity.
    + exfalso. apply I. left. reflexivity.
    + f_equal. apply IH; auto.
Qed.
Lemma list_remove_count : forall w v ws,
  copies v (list_remove w ws) = (copies v ws - (if wire_dec v w then 1 else 0))%nat.
Proof.
  intros w v ws. unfold copies. induction ws as [|x ws IH]; simpl; [destruct (wire_dec v w); reflexivity|].
  destruct (wire_eqb x w) eqn:E.
  - apply wire_eqb_eq in E. subst x. destruct (wire_dec w v), (wire_dec v w); subst; try congruence; lia.
  - assert (N : x <> w) by (intros C; apply wire_eqb_eq in C; congruence).
    simpl. destruct (wire_dec x v) as [->|M].
    + rewrite IH. destruct (wire_dec v w); [contradiction|]. lia.
    + exact IH.
Qed.
Lemma list_remove_absent : forall w ws, ~ In w ws -> list_remove w ws = ws.
Proof.
  intros w ws N. destruct (list_remove_first w ws) as [[_ E]|[p [q [E _]]]]; [exact E|].
  exfalso. apply N. rewrite E. apply in_elt.
Qed.
Lemma list_remove_last : forall w ws, ~ In w ws -> list_remove w (ws ++ [w]) = ws.
Proof.
  intros w ws N. destruct (list_remove_first w (ws ++ [w])) as [[I _]|[p [q [E [I ->]]]]].
  - exfalso. apply I. apply in_elt.
  - revert p I E. induction ws as [|x ws IH]; intros [|y p] I E; simpl in *; inversion E; subst.
    + reflexivity.
    + destruct p; discriminate.
    + exfalso. apply N. left. reflexivity.
    + f_equal. apply IH; auto.
Qed.
Lemma list_remove_comm : forall a b ws, list_remove a (list_remove b ws) = list_remove b (list_remove a ws).
Proof.
  intros a b ws. destruct (wire_dec a b) as [->|N]; [reflexivity|].
  induction ws as [|x ws IH]; simpl; [reflexivity|].
  destruct (wire_eqb x b) eqn:B, (wire_eqb x a) eqn:A.
  - apply wire_eqb_eq in A, B. congruence.
  - simpl. rewrite B. reflexivity.
  - simpl. rewrite A. reflexivity.
  - simpl. rewrite A, B. f_equal. exact IH.
Qed.

Lemma py_nth_iff : forall {A} (l : list A) z t, py_nth l z = Some t <->
  exists n, (0 <= z /\ z = Z.of_nat n \/ z < 0 /\ z + Z.of_nat (List.length l) = Z.of_nat n) /\ nth_error l n = Some t.
Proof.
  intros A l z t. unfold py_nth, py_pos. destruct (z <? 0) eqn:N.
  - apply Z.ltb_lt in N. destruct ((0 <=? z + Z.of_nat (List.length l)) && (z + Z.of_nat (List.length l) <? Z.of_nat (List.length l))) eqn:B.
    + apply andb_true_iff in B. destruct B as [B1 B2]. apply Z.leb_le in B1. split.
      * intros E. exists (Z.to_nat (z + Z.of_nat (List.length l))). split; [right; lia|exact E].
      * intros [n [[[C _]|[_ C]] E]]; [lia|]. rewrite C, Nat2Z.id. exact E.
    + split; [discriminate|]. intros [n [[[C _]|[_ C]] E]]; [lia|].
      apply andb_false_iff in B. destruct B as [B|B]; [apply Z.leb_gt in B|apply Z.ltb_ge in B]; lia.
  - apply Z.ltb_ge in N. destruct ((0 <=? z) && (z <? Z.of_nat (List.length l))) eqn:B.
    + split.
      * intros E. exists (Z.to_nat z). split; [left; lia|exact E].
      * intros [n [[[_ C]|[C _]] E]]; [|lia]. subst z. rewrite Nat2Z.id. exact E.
    + split; [discriminate|]. intros [n [[[_ C]|[C _]] E]]; [|lia]. subst z.
      assert (n < List.length l)%nat by (apply nth_error_Some; congruence).
      apply andb_false_iff in B. destruct B as [B|B]; [apply Z.leb_gt in B|apply Z.ltb_ge in B]; lia.
Qed.

Lemma bind_ok : forall {A B} (r : result A) (f : A -> result B) y,
  bind r f = Ok y <-> exists x, r = Ok x /\ f x = Ok y.
Proof.
  intros A B [x|e] f y; simpl; split.
  - intros E. exists x. auto.
  - intros [x' [E F]]. inversion E. subst. exact F.
  - discriminate.
  - intros [x' [E _]]. discriminate.
Qed.

(** The part of [getitem] that follows the rest of a tuple. *)
Fixpoint follow (rest : list key) (base : tree) {struct rest} : result tree :=
  match base with
  | Leaf _ => Err AttributeError
  | Node _ _ kids kids_ids =>
      match rest with
      | [] => Err IndexError
      | k1 :: [] => getitem k1 kids kids_ids
      | k1 :: rest' => let* b := getitem k1 kids kids_ids in follow rest' b
      end
  end.
Lemma getitem_tup : forall k rest ents ids,
  getitem (KTup (k :: rest)) ents ids = let* b := getitem k ents ids in follow rest b.
Proof.
  intros k rest ents ids. change (getitem (KTup (k :: rest)) ents ids) with
    (let* base := getitem k ents ids in
      (fix walk (rest : list key) (base : tree) {struct rest} : result tree :=
         match base with
         | Leaf _ => Err AttributeError
         | Node _ _ kids kids_ids =>
             match rest with
             | [] => Err IndexError
             | k1 :: [] => getitem k1 kids kids_ids
             | k1 :: rest' => let* b := getitem k1 kids kids_ids in walk rest' b
             end
         end) rest base).
  destruct (getitem k ents ids) as [b|e]; [|reflexivity]. cbn [bind].
  revert b. induction rest as [|k1 rest IH]; intros [i|i ws kids kids_ids]; try reflexivity.
Qed.
Lemma follow_more : forall k1 k2 rest i ws kids ids,
  follow (k1 :: k2 :: rest) (Node i ws kids ids) = getitem (KTup (k1 :: k2 :: rest)) kids ids.
Proof. intros. rewrite getitem_tup. reflexivity. Qed.

Lemma getitem_names : forall k ents ids t, getitem k ents ids = Ok t <-> names ents ids k t.
Proof.
  induction k as [z|s|l HF] using key_ind'; intros ents ids t.
  - simpl. destruct (py_nth ents z) as [t'|] eqn:E.
    + split.
      * intros F. inversion F; subst. apply py_nth_iff in E. destruct E as [n [C E]]. econstructor; eassumption.
      * intros N. inversion N; subst. assert (X : py_nth ents z = Some t) by (apply py_nth_iff; exists n; auto). congruence.
    + split; [discriminate|]. intros N. inversion N; subst.
      assert (X : py_nth ents z = Some t) by (apply py_nth_iff; exists n; auto). congruence.
  - simpl. split.
    + destruct (dget pystr_eqb ids s) as [n|] eqn:D; [|discriminate].
      destruct (nth_error ents n) as [t'|] eqn:E; [|discriminate]. intros F. inversion F; subst.
      econstructor; eassumption.
    + intros N. inversion N as [|? ? ? n ? D E| |]; subst. rewrite D, E. reflexivity.
  - revert ents ids t. induction HF as [|k rest HK HR IH]; intros ents ids t.
    + simpl. split; [discriminate|]. intros N. inversion N.
    + rewrite getitem_tup, bind_ok. split.
      * intros [b [E F]]. apply HK in E. destruct b as [i|i ws kids kids_ids]; [destruct rest; discriminate|].
        destruct rest as [|k1 [|k2 rest]].
        -- discriminate.
        -- cbn in F. inversion HR; subst. apply H1 in F. econstructor; eassumption.
        -- rewrite follow_more in F. apply IH in F. econstructor; eassumption.
      * intros N. inversion N; subst.
        -- exists (Node i ws kids kids_ids). split; [apply HK; assumption|]. cbn.
           inversion HR; subst. apply H1. assumption.
        -- exists (Node i ws kids kids_ids). split; [apply HK; assumption|].
           rewrite follow_more. apply IH. assumption.
Qed.

Lemma resolve_refers : forall c r a, resolve c r = Ok a <-> refers c r a.
Proof.
  intros c [i|k] a; simpl.
  - split; [intros E; inversion E; reflexivity|intros ->; reflexivity].
  - rewrite bind_ok. split.
    + intros [t [E F]]. apply getitem_names in E. inversion F. eauto.
    + intros [t [E ->]]. apply getitem_names in E. eauto.
Qed.

Lemma nth_error_below : forall (l : list tree) n t, nth_error l n = Some t -> below t l.
Proof. intros. apply below_here. eapply nth_error_In; eauto. Qed.
Lemma below_trans : forall i ws kids ids l t, below (Node i ws kids ids) l -> below t kids -> below t l.
Proof.
  intros i ws kids ids l t B. remember (Node i ws kids ids) as x. induction B; subst; intros C.
  - eapply below_deep; eassumption.
  - eapply below_deep; [eassumption|]. apply IHB; auto.
Qed.
Lemma names_below : forall ents ids k t, names ents ids k t -> below t ents.
Proof.
  intros ents ids k t N. induction N; eauto using nth_error_below, below_trans.
Qed.

Lemma power_value_side : forall s t, power_value s = Ok t <-> power_side s t.
Proof.
  intros s t. unfold power_value, power_side.
  destruct (pystr_eqb s (str "input")) eqn:I.
  - apply pystr_eqb_eq in I. subst. split; [intros E; inversion E; auto|].
    intros [[_ ->]|[C _]]; [reflexivity|discriminate].
  - apply pystr_eqb_neq in I. destruct (pystr_eqb s (str "output")) eqn:O.
    + apply pystr_eqb_eq in O. subst. split; [intros E; inversion E; auto|].
      intros [[C _]|[_ ->]]; [discriminate|reflexivity].
    + apply pystr_eqb_neq in O. split; [discriminate|]. intros [[C _]|[C _]]; contradiction.
Qed.
Lemma circuit_value_side : forall col s t, circuit_value col s = Ok t <-> circuit_side col s t.
Proof.
  intros col s t. unfold circuit_value, circuit_side.
  destruct (pystr_eqb col (str "red")) eqn:R; [|destruct (pystr_eqb col (str "green")) eqn:G];
  (destruct (pystr_eqb s (str "input")) eqn:I; [|destruct (pystr_eqb s (str "output")) eqn:O]);
  repeat match goal with
  | H : pystr_eqb _ _ = true |- _ => apply pystr_eqb_eq in H
  | H : pystr_eqb _ _ = false |- _ => apply pystr_eqb_neq in H
  end; subst; simpl; (split; [intros E; inversion E; subst; auto 6|intros C;
    repeat match goal with H : _ \/ _ |- _ => destruct H | H : _ /\ _ |- _ => destruct H end;
    subst; try reflexivity; try discriminate; try contradiction]).
Qed.
Lemma side_ok_power : forall s, side_ok s = true <-> exists t, power_side s t.
Proof.
  intros s. unfold side_ok, power_side. rewrite orb_true_iff, !pystr_eqb_eq. split.
  - intros [->| ->]; eauto.
  - intros [t [[-> _]|[-> _]]]; auto.
Qed.
Lemma checks_circuit : forall col s, color_ok col = true /\ side_ok s = true <-> exists t, circuit_side col s t.
Proof.
  intros col s. unfold side_ok, color_ok, circuit_side. rewrite !orb_true_iff, !pystr_eqb_eq. split.
  - intros [[->| ->] [->| ->]]; eauto 8.
  - intros [t C]. repeat match goal with H : _ \/ _ |- _ => destruct H | H : _ /\ _ |- _ => destruct H end; subst; auto.
Qed.

Section Reach.
  Variable attr : nat -> obj.
  Lemma sqdist_pow : forall a b, sqdist attr a b = (o_x (attr a) - o_x (attr b)) ^ 2 + (o_y (attr a) - o_y (attr b)) ^ 2.
  Proof. intros. unfold sqdist. ring. Qed.
  Lemma reach_far : forall a b m, within_reach attr a b m = true <-> ~ far attr m a b.
  Proof.
    intros a b m. unfold within_reach, far. rewrite andb_true_iff, Z.leb_le, Z.leb_le, sqdist_pow.
    split; [intros [A B] [C|C]; lia|]. intros N.
    split; [destruct (Z_lt_le_dec m 0); [exfalso; apply N; left|]; lia|].
    destruct (Z_lt_le_dec (m * m) ((o_x (attr a) - o_x (attr b)) ^ 2 + (o_y (attr a) - o_y (attr b)) ^ 2));
      [exfalso; apply N; right|]; assumption.
  Qed.
  Lemma far_mono : forall a b m m', m <= m' -> far attr m' a b -> far attr m a b.
  Proof.
    intros a b m m' L F. unfold far in *. destruct (Z_lt_le_dec m 0) as [|N]; [left; assumption|right].
    destruct F as [F|F]; [lia|]. nia.
  Qed.
  Lemma far_min : forall a b p q, far attr (Z.min p q) a b <-> far attr p a b \/ far attr q a b.
  Proof.
    intros a b p q. destruct (Z.min_spec p q) as [[L ->]|[L ->]]; split; auto.
    - intros [F|F]; [exact F|]. eapply far_mono; [|exact F]. lia.
    - intros [F|F]; [|exact F]. eapply far_mono; [|exact F]. lia.
  Qed.
  Lemma reach_min : forall a b p q, within_reach attr a b (Z.min p q) = true <-> ~ far attr p a b /\ ~ far attr q a b.
  Proof. intros. rewrite reach_far, far_min. tauto. Qed.
  Lemma distance_warned_iff : forall a b p q ws,
    (if within_reach attr a b (Z.min p q) then [] else [DistanceWarning]) = ws <-> distance_warned attr p q a b ws.
  Proof.
    intros a b p q ws. unfold distance_warned. pose proof (reach_min a b p q) as R.
    pose proof (far_min a b p q) as M. pose proof (reach_far a b (Z.min p q)) as RF.
    destruct (within_reach attr a b (Z.min p q)).
    - destruct (proj1 R eq_refl) as [A B]. split; [intros <-; right; auto|]. intros [[_ [C|C]]|[-> _]]; [contradiction|contradiction|reflexivity].
    - assert (F : far attr p a b \/ far attr q a b).
      { apply M. unfold far in *. destruct (Z_lt_le_dec (Z.min p q) 0) as [L|L]; [left; exact L|right].
        match goal with |- ?u < ?v => destruct (Z_lt_le_dec u v) as [|G]; [assumption|] end.
        exfalso. assert (X : false = true); [|discriminate]. apply RF. intros [C|C]; lia. }
      split; [intros <-; left; auto|]. intros [[-> _]|[_ [A B]]]; [reflexivity|]. tauto.
  Qed.
  Lemma side_warned_iff : forall s a ws,
    (if pystr_eqb s (str "output") && negb (o_dual (attr a)) then [SideWarning] else []) = ws <-> side_warned attr s a ws.
  Proof.
    intros s a ws. unfold side_warned. destruct (pystr_eqb s (str "output")) eqn:E.
    - apply pystr_eqb_eq in E. subst. destruct (o_dual (attr a)); simpl.
      + split; [intros <-; right; split; [reflexivity|intros [_ C]; discriminate]|].
        intros [[_ [_ C]]|[-> _]]; [discriminate|reflexivity].
      + split; [intros <-; left; auto|]. intros [[-> _]|[_ C]]; [reflexivity|]. exfalso. apply C. auto.
    - apply pystr_eqb_neq in E. simpl. split; [intros <-; right; split; [reflexivity|intros [C _]; contradiction]|].
      intros [[_ [C _]]|[-> _]]; [contradiction|reflexivity].
  Qed.
  Lemma require_iff : forall b e, require b e = Ok tt <-> b = true.
  Proof. intros [] e; simpl; split; congruence. Qed.
  Lemma min_reach_iff : forall p q m, min_reach p q = Ok m <-> exists a b, p = Some a /\ q = Some b /\ m = Z.min a b.
  Proof.
    intros [a|] [b|] m; simpl; split; try discriminate.
    - intros E. inversion E. eauto.
    - intros [x [y [E [F ->]]]]. inversion E; inversion F. reflexivity.
    - intros [x [y [E [F _]]]]. discriminate.
    - intros [x [y [E [F _]]]]. discriminate.
    - intros [x [y [E [F _]]]]. discriminate.
  Qed.

  Lemma unit_ok : forall {B} (r : result unit) (f : unit -> result B) y,
    bind r f = Ok y <-> r = Ok tt /\ f tt = Ok y.
  Proof.
    intros B r f y. rewrite bind_ok. split; [intros [[] H]; exact H|intros H; exists tt; exact H].
  Qed.

  Lemma rewired_iff : forall c c' ws, with_wires c ws = c' <-> rewired c c' ws.
  Proof.
    intros [e i w] [e' i' w'] ws. unfold with_wires, rewired; simpl. split.
    - intros E. inversion E. auto.
    - intros [-> [-> ->]]. reflexivity.
  Qed.

End Reach.

Section Wires.
  Variable attr : nat -> obj.
  Variable veq : nat -> nat -> bool.

  Lemma same_iff : forall a b, same veq a b = true <-> a = b \/ veq a b = true.
  Proof. intros. unfold same. rewrite orb_true_iff, Nat.eqb_eq. reflexivity. Qed.

  Lemma in_group_iff : forall x t, in_group veq x t = true <->
    match t with Leaf _ => False | Node _ _ kids _ => exists k, below k kids /\ (tid k = x \/ veq (tid k) x = true) end.
  Proof.
    intros x t. induction t as [i|i ws kids ids HF] using tree_ind'; simpl; [split; [discriminate|intros []]|].
    rewrite orb_true_iff, !existsb_exists. rewrite Forall_forall in HF. split.
    - intros [[k [I S]]|[k [I S]]].
      + exists k. split; [apply below_here; exact I|apply same_iff; exact S].
      + apply HF in S; [|exact I]. destruct k as [j|j wj kj ij]; [destruct S|].
        destruct S as [k' [B S]]. exists k'. split; [eapply below_deep; eassumption|exact S].
    - intros [k [B S]]. inversion B; subst.
      + left. exists k. split; [assumption|apply same_iff; exact S].
      + right. exists (Node i0 ws0 kids0 ids0). split; [assumption|].
        apply HF; [assumption|]. eauto.
  Qed.
  Lemma contains_iff : forall c a, contains veq a (c_ents c) = true <-> inside veq c a.
  Proof.
    intros c a. change (contains veq a (c_ents c)) with (in_group veq a (Node 0 [] (c_ents c) [])).
    rewrite in_group_iff. reflexivity.
  Qed.
  Lemma check_inside_iff : forall c a, check_inside veq c a = Ok tt <-> inside veq c a.
  Proof.
    intros c a. unfold check_inside. rewrite <- contains_iff. destruct (contains veq a (c_ents c)); split; congruence.
  Qed.
  Lemma key_inside : forall c k a, refers c (RKey k) a -> inside veq c a.
  Proof.
    intros c k a [t [N ->]]. exists t. split; [eapply names_below; eassumption|auto].
  Qed.

  Theorem add_power_iff : forall c r1 r2 s1 s2 c' ws,
    add_power attr veq c r1 r2 s1 s2 = Ok (c', ws) <->
    exists a b t1 t2 ra rb, refers c r1 a /\ refers c r2 b /\ inside veq c a /\ inside veq c b /\
      power_side s1 t1 /\ power_side s2 t2 /\ o_power (attr a) = true /\ o_power (attr b) = true /\
      o_pmax (attr a) = Some ra /\ o_pmax (attr b) = Some rb /\
      rewired c c' (c_wires c ++ [link a t1 b t2]) /\ distance_warned attr ra rb a b ws.
  Proof.
    intros. unfold add_power. split.
    - intros E. apply bind_ok in E. destruct E as [a [Ra E]]. apply bind_ok in E. destruct E as [b [Rb E]].
      apply unit_ok in E. destruct E as [Ia E]. apply unit_ok in E. destruct E as [Ib E].
      apply unit_ok in E. destruct E as [S1 E]. apply unit_ok in E. destruct E as [S2 E].
      apply unit_ok in E. destruct E as [Pa E]. apply unit_ok in E. destruct E as [Pb E].
      apply bind_ok in E. destruct E as [m [M E]]. apply bind_ok in E. destruct E as [t1 [T1 E]].
      apply bind_ok in E. destruct E as [t2 [T2 E]]. inversion E.
      apply min_reach_iff in M. destruct M as [ra [rb [Ma [Mb ->]]]].
      exists a, b, t1, t2, ra, rb. rewrite require_iff in *.
      repeat split; auto; try (apply resolve_refers; assumption); try (apply check_inside_iff; assumption);
        try (apply power_value_side; assumption). apply distance_warned_iff. reflexivity.
    - intros [a [b [t1 [t2 [ra [rb [Ra [Rb [Ia [Ib [T1 [T2 [Pa [Pb [Ma [Mb [W D]]]]]]]]]]]]]]]]].
      apply bind_ok. exists a. split; [apply resolve_refers; exact Ra|].
      apply bind_ok. exists b. split; [apply resolve_refers; exact Rb|].
      apply unit_ok. split; [apply check_inside_iff; exact Ia|].
      apply unit_ok. split; [apply check_inside_iff; exact Ib|].
      apply unit_ok. split; [apply require_iff, side_ok_power; eauto|].
      apply unit_ok. split; [apply require_iff, side_ok_power; eauto|].
      apply unit_ok. split; [apply require_iff; exact Pa|].
      apply unit_ok. split; [apply require_iff; exact Pb|].
      apply bind_ok. exists (Z.min ra rb). split; [apply min_reach_iff; eauto|].
      apply bind_ok. exists t1. split; [apply power_value_side; exact T1|].
      apply bind_ok. exists t2. split; [apply power_value_side; exact T2|].
      apply distance_warned_iff in D. rewrite D. do 2 f_equal. apply rewired_iff. exact W.
  Qed.

  Definition both_removed (a b : wire) (ws : list wire) : list wire := list_remove b (list_remove a ws).

  Theorem remove_power_iff : forall c r1 r2 s1 s2 c',
    remove_power veq c r1 r2 s1 s2 = Ok c' <->
    exists a b t1 t2, refers c r1 a /\ refers c r2 b /\ inside veq c a /\ inside veq c b /\
      power_side s1 t1 /\ power_side s2 t2 /\
      rewired c c' (both_removed (link a t1 b t2) (link b t2 a t1) (c_wires c)).
  Proof.
    intros. unfold remove_power. split.
    - intros E. apply bind_ok in E. destruct E as [a [Ra E]]. apply bind_ok in E. destruct E as [b [Rb E]].
      apply unit_ok in E. destruct E as [Ia E]. apply unit_ok in E. destruct E as [Ib E].
      apply bind_ok in E. destruct E as [t1 [T1 E]]. apply bind_ok in E. destruct E as [t2 [T2 E]].
      exists a, b, t1, t2. split; [apply resolve_refers; exact Ra|]. split; [apply resolve_refers; exact Rb|].
      split; [apply check_inside_iff; exact Ia|]. split; [apply check_inside_iff; exact Ib|].
      split; [apply power_value_side; exact T1|]. split; [apply power_value_side; exact T2|].
      apply rewired_iff. inversion E. reflexivity.
    - intros [a [b [t1 [t2 [Ra [Rb [Ia [Ib [T1 [T2 W]]]]]]]]]].
      apply bind_ok. exists a. split; [apply resolve_refers; exact Ra|].
      apply bind_ok. exists b. split; [apply resolve_refers; exact Rb|].
      apply unit_ok. split; [apply check_inside_iff; exact Ia|].
      apply unit_ok. split; [apply check_inside_iff; exact Ib|].
      apply bind_ok. exists t1. split; [apply power_value_side; exact T1|].
      apply bind_ok. exists t2. split; [apply power_value_side; exact T2|].
      f_equal. apply rewired_iff in W. exact W.
  Qed.

  Lemma resolve_checked_iff : forall c r a,
    resolve_checked veq c r = Ok a <-> refers c r a /\ inside veq c a.
  Proof.
    intros c [i|k] a.
    - cbn [resolve_checked]. rewrite unit_ok, check_inside_iff. simpl. split.
      + intros [I E]. inversion E; subst. auto.
      + intros [-> I]. auto.
    - cbn [resolve_checked]. rewrite resolve_refers. split; [|tauto].
      intros R. split; [exact R|eapply key_inside; exact R].
  Qed.

  Theorem add_circuit_iff : forall c col r1 r2 s1 s2 c' ws,
    add_circuit attr veq c col r1 r2 s1 s2 = Ok (c', ws) <->
    exists a b t1 t2 ra rb w1 w2 w3, refers c r1 a /\ refers c r2 b /\ inside veq c a /\ inside veq c b /\
      circuit_side col s1 t1 /\ circuit_side col s2 t2 /\ o_circuit (attr a) = true /\ o_circuit (attr b) = true /\
      o_cmax (attr a) = Some ra /\ o_cmax (attr b) = Some rb /\
      rewired c c' (c_wires c ++ [link a t1 b t2]) /\
      ws = w1 ++ w2 ++ w3 /\ side_warned attr s1 a w1 /\ side_warned attr s2 b w2 /\ distance_warned attr ra rb a b w3.
  Proof.
    intros. unfold add_circuit. split.
    - intros E. apply bind_ok in E. destruct E as [a [Ra E]]. apply bind_ok in E. destruct E as [b [Rb E]].
      apply unit_ok in E. destruct E as [C E].
      apply unit_ok in E. destruct E as [S1 E]. apply unit_ok in E. destruct E as [S2 E].
      apply unit_ok in E. destruct E as [Pa E]. apply unit_ok in E. destruct E as [Pb E].
      apply bind_ok in E. destruct E as [m [M E]]. apply bind_ok in E. destruct E as [t1 [T1 E]].
      apply bind_ok in E. destruct E as [t2 [T2 E]]. inversion E.
      apply min_reach_iff in M. destruct M as [ra [rb [Ma [Mb ->]]]].
      apply resolve_checked_iff in Ra. apply resolve_checked_iff in Rb. rewrite require_iff in *.
      exists a, b, t1, t2, ra, rb. do 3 eexists. 
      repeat (split; [first [apply Ra|apply Rb|apply circuit_value_side; assumption|assumption|reflexivity|(split; [|split]; reflexivity)]|]).
      split; [apply side_warned_iff; reflexivity|]. split; [apply side_warned_iff; reflexivity|].
      apply distance_warned_iff. reflexivity.
    - intros [a [b [t1 [t2 [ra [rb [w1 [w2 [w3 [Ra [Rb [Ia [Ib [T1 [T2 [Pa [Pb [Ma [Mb [W [-> [D1 [D2 D]]]]]]]]]]]]]]]]]]]]]]].
      apply bind_ok. exists a. split; [apply resolve_checked_iff; auto|].
      apply bind_ok. exists b. split; [apply resolve_checked_iff; auto|].
      destruct (proj2 (checks_circuit col s1) (ex_intro _ _ T1)) as [C S1].
      destruct (proj2 (checks_circuit col s2) (ex_intro _ _ T2)) as [_ S2].
      apply unit_ok. split; [apply require_iff; exact C|].
      apply unit_ok. split; [apply require_iff; exact S1|].
      apply unit_ok. split; [apply require_iff; exact S2|].
      apply unit_ok. split; [apply require_iff; exact Pa|].
      apply unit_ok. split; [apply require_iff; exact Pb|].
      apply bind_ok. exists (Z.min ra rb). split; [apply min_reach_iff; eauto|].
      apply bind_ok. exists t1. split; [apply circuit_value_side; exact T1|].
      apply bind_ok. exists t2. split; [apply circuit_value_side; exact T2|].
      apply distance_warned_iff in D. apply side_warned_iff in D1. apply side_warned_iff in D2.
      rewrite D, D1, D2. do 2 f_equal. apply rewired_iff. exact W.
  Qed.

  Theorem remove_circuit_iff : forall c col r1 r2 s1 s2 c',
    remove_circuit veq c col r1 r2 s1 s2 = Ok c' <->
    exists a b t1 t2, refers c r1 a /\ refers c r2 b /\ inside veq c a /\ inside veq c b /\
      circuit_side col s1 t1 /\ circuit_side col s2 t2 /\
      rewired c c' (both_removed (link a t1 b t2) (link b t2 a t1) (c_wires c)).
  Proof.
    intros. unfold remove_circuit. split.
    - intros E. apply bind_ok in E. destruct E as [a [Ra E]]. apply bind_ok in E. destruct E as [b [Rb E]].
      apply unit_ok in E. destruct E as [Ia E]. apply unit_ok in E. destruct E as [Ib E].
      apply unit_ok in E. destruct E as [_ E]. apply unit_ok in E. destruct E as [_ E]. apply unit_ok in E. destruct E as [_ E].
      apply bind_ok in E. destruct E as [t1 [T1 E]]. apply bind_ok in E. destruct E as [t2 [T2 E]].
      exists a, b, t1, t2. split; [apply resolve_refers; exact Ra|]. split; [apply resolve_refers; exact Rb|].
      split; [apply check_inside_iff; exact Ia|]. split; [apply check_inside_iff; exact Ib|].
      split; [apply circuit_value_side; exact T1|]. split; [apply circuit_value_side; exact T2|].
      apply rewired_iff. inversion E. reflexivity.
    - intros [a [b [t1 [t2 [Ra [Rb [Ia [Ib [T1 [T2 W]]]]]]]]]].
      destruct (proj2 (checks_circuit col s1) (ex_intro _ _ T1)) as [C S1].
      destruct (proj2 (checks_circuit col s2) (ex_intro _ _ T2)) as [_ S2].
      apply bind_ok. exists a. split; [apply resolve_refers; exact Ra|].
      apply bind_ok. exists b. split; [apply resolve_refers; exact Rb|].
      apply unit_ok. split; [apply check_inside_iff; exact Ia|].
      apply unit_ok. split; [apply check_inside_iff; exact Ib|].
      apply unit_ok. split; [apply require_iff; exact C|].
      apply unit_ok. split; [apply require_iff; exact S1|].
      apply unit_ok. split; [apply require_iff; exact S2|].
      apply bind_ok. exists t1. split; [apply circuit_value_side; exact T1|].
      apply bind_ok. exists t2. split; [apply circuit_value_side; exact T2|].
      f_equal. apply rewired_iff in W. exact W.
  Qed.
End Wires.
