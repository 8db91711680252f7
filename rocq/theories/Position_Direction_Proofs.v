(** Proofs about assigning directions (C54). *)
From Coq Require Import ZArith List Bool Lia.
From Verif Require Import Common Position_Model Position_Spec.
Import ListNotations.
Local Open Scope Z_scope.

Lemma checked_spec : forall e v d, checked_direction e v = Ok d <->
  (vm e = VNone \/ 0 <= v < 16) /\
  (if match kd e, vm e with Dir4, VStrict => true | _, _ => false end then quarter_before v d else d = v).
Proof.
  intros e v d. unfold checked_direction, quarter_before.
  assert (R : (0 <=? v) && (v <? 16) = true <-> 0 <= v < 16) by (rewrite andb_true_iff, Z.leb_le, Z.ltb_lt; tauto).
  assert (Q : forall v, 0 <= v < 16 -> (if (v =? 0) || (v =? 4) || (v =? 8) || (v =? 12) then @Ok Z v else Ok (v / 4 * 4)) = Ok (v / 4 * 4)).
  { clear. intros v _. destruct ((v =? 0) || (v =? 4) || (v =? 8) || (v =? 12)) eqn:E; [|reflexivity].
    rewrite !orb_true_iff, !Z.eqb_eq in E. destruct E as [[[-> | ->] | ->] | ->]; reflexivity. }
  assert (U : forall q, (exists k, q = 4 * k) /\ q <= v < q + 4 <-> q = v / 4 * 4).
  { intros q. pose proof (Z.div_mod v 4 ltac:(lia)). pose proof (Z.mod_pos_bound v 4 ltac:(lia)). split.
    - intros [[k ->] B]. lia.
    - intros ->. split; [exists (v / 4); lia|lia]. }
  destruct (vm e) eqn:M.
  - destruct (kd e); (split; [intros E; injection E as <-; auto|intros [_ ->]; reflexivity]).
  - destruct ((0 <=? v) && (v <? 16)).
    + destruct (kd e); (split; [intros E; injection E as <-; split; [right; apply R; reflexivity|reflexivity]|intros [_ ->]; reflexivity]).
    + split; [discriminate|]. intros [[B|B] _]; [discriminate|apply R in B; discriminate].
  - destruct ((0 <=? v) && (v <? 16)).
    + assert (B : 0 <= v < 16) by (apply R; reflexivity). destruct (kd e).
      2: { rewrite (Q v B), U. split; [intros E; injection E as <-; auto|intros [_ ->]; reflexivity]. }
      all: (split; [intros E; injection E as <-; auto|intros [_ ->]; reflexivity]).
    + split; [destruct (kd e); discriminate|]. intros [[B|B] _]; [discriminate|apply R in B; discriminate].
Qed.
Lemma checked_err : forall e v x, checked_direction e v = Err x <-> x = DataFormatError /\ vm e <> VNone /\ ~ 0 <= v < 16.
Proof.
  intros e v x. unfold checked_direction.
  assert (R : (0 <=? v) && (v <? 16) = true <-> 0 <= v < 16) by (rewrite andb_true_iff, Z.leb_le, Z.ltb_lt; tauto).
  destruct (vm e); destruct ((0 <=? v) && (v <? 16)); destruct (kd e);
    try (destruct ((v =? 0) || (v =? 4) || (v =? 8) || (v =? 12)));
    (split; [intros E; try discriminate E; injection E as <-; (split; [reflexivity|]); (split; [discriminate|]); intros B; apply R in B; discriminate
            |intros [-> [B C]]; first [reflexivity|exfalso; solve [apply B; reflexivity|apply C, R; reflexivity]]]).
Qed.

Section Directions.
  Variable H : Z.

  (** What the two setters do, in one form. *)
  Definition turned (e : ent) (v d : Z) : bool :=
    match kd e with
    | Dir4 => (v =? 4) || (v =? 12)
    | _ => (d =? 2) || (d =? 3) || (d =? 6) || (d =? 7)
    end.

  Lemma set_shape : forall e v e', directional e -> set_direction H e v = Ok e' ->
    exists d, checked_direction e v = Ok d /\
      kd e' = kd e /\ vm e' = vm e /\ flips e' = flips e /\ sw e' = sw e /\ sh e' = sh e /\
      tx e' = tx e /\ ty e' = ty e /\ held e' = held e /\ other e' = other e /\
      dir e' = Some d /\ w e' = (if turned e v d then sh e else sw e) /\ h e' = (if turned e v d then sw e else sh e) /\
      (seated H e' \/ (kd e = Dir4 /\ px e' = px e /\ py e' = py e /\ (w e' = h e' \/ w e' = w e \/ h e' = h e))).
  Proof.
    intros e v e' [K|K]; unfold set_direction, turned; rewrite K; cbv beta zeta.
    - destruct (checked_direction e v) as [d|x]; cbn [bind]; [|discriminate]. intros E. exists d. split; [reflexivity|].
      destruct ((v =? 4) || (v =? 12)).
      + destruct (negb (sh e =? sw e) && (negb (w e =? sh e) && negb (h e =? sw e))) eqn:B; injection E as <-;
          cbn; (repeat split; try reflexivity; try assumption).
        * left. split; reflexivity.
        * right. rewrite !andb_false_iff, !negb_false_iff, !Z.eqb_eq in B. repeat split; auto; intuition.
      + destruct (negb (sw e =? sh e) && (negb (w e =? sw e) && negb (h e =? sh e))) eqn:B; injection E as <-;
          cbn; (repeat split; try reflexivity; try assumption).
        * left. split; reflexivity.
        * right. rewrite !andb_false_iff, !negb_false_iff, !Z.eqb_eq in B. repeat split; auto; intuition.
    - destruct (checked_direction e v) as [d|x]; cbn [bind]; [|discriminate]. intros E. exists d. split; [reflexivity|].
      destruct ((d =? 2) || (d =? 3) || (d =? 6) || (d =? 7)); injection E as <-; cbn;
        (repeat split; try reflexivity; try assumption); left; split; reflexivity.
  Qed.

  Lemma set_total : forall e v, directional e ->
    (forall x, set_direction H e v = Err x <-> checked_direction e v = Err x) .
  Proof.
    intros e v [K|K] x; unfold set_direction; rewrite K; cbv beta zeta;
      (destruct (checked_direction e v) as [d|y]; cbn [bind]; [|split; intros E; injection E as ->; reflexivity]).
    - destruct ((v =? 4) || (v =? 12)); split; discriminate.
    - destruct ((d =? 2) || (d =? 3) || (d =? 6) || (d =? 7)); split; discriminate.
  Qed.

  Lemma accepts : forall e v, directional e ->
    ((exists e', set_direction H e v = Ok e') <-> vm e = VNone \/ 0 <= v < 16) /\
    (forall x, set_direction H e v = Err x -> x = DataFormatError).
  Proof.
    intros e v D. pose proof (set_total e v D) as T. split.
    - destruct (set_direction H e v) as [e'|x] eqn:E.
      + split; [|eauto]. intros _. destruct (set_shape e v e' D E) as [d [C _]]. apply checked_spec in C. apply C.
      + split; [intros [e' F]; discriminate|]. destruct (proj1 (checked_err e v x) (proj1 (T x) eq_refl)) as [_ [A B]].
        intros [G|G]; contradiction.
    - intros x E. apply T, checked_err in E. apply E.
  Qed.

  Lemma stored : forall e v e', directional e -> set_direction H e v = Ok e' ->
    exists d, dir e' = Some d /\
      (kd e = Dir4 /\ vm e = VStrict -> quarter_before v d) /\ (~ (kd e = Dir4 /\ vm e = VStrict) -> d = v) /\
      kd e' = kd e /\ vm e' = vm e /\ flips e' = flips e /\ sw e' = sw e /\ sh e' = sh e /\
      tx e' = tx e /\ ty e' = ty e /\ held e' = held e /\ other e' = other e.
  Proof.
    intros e v e' D E. destruct (set_shape e v e' D E) as [d [C [A1 [A2 [A3 [A4 [A5 [A6 [A7 [A8 [A9 [A10 _]]]]]]]]]]]].
    exists d. split; [assumption|]. apply checked_spec in C. destruct C as [_ C].
    split; [intros [K M]; rewrite K, M in C; exact C|]. split.
    - intros N. destruct (kd e); try exact C. destruct (vm e); try exact C. exfalso. apply N. auto.
    - repeat split; assumption.
  Qed.

  Lemma four_way_size : forall e v e' d, kd e = Dir4 -> set_direction H e v = Ok e' -> dir e' = Some d ->
    (faces e' d <-> sw e = sh e \/ ~ (vm e = VStrict /\ (4 < v < 8 \/ 12 < v < 16))).
  Proof.
    intros e v e' d K E D. destruct (set_shape e v e' (or_introl K) E) as
      [d' [C [A1 [A2 [A3 [A4 [A5 [A6 [A7 [A8 [A9 [A10 [A11 [A12 _]]]]]]]]]]]]]].
    assert (d' = d) by congruence. subst d'. apply checked_spec in C. rewrite K in C. destruct C as [R C].
    unfold turned in *. rewrite K in *. unfold faces, sideways. rewrite A4, A5, A11, A12.
    assert (T : (v =? 4) || (v =? 12) = true <-> v = 4 \/ v = 12) by (rewrite orb_true_iff, !Z.eqb_eq; tauto).
    destruct (vm e) eqn:M.
    - subst d. destruct ((v =? 4) || (v =? 12)).
      + assert (v = 4 \/ v = 12) by (apply T; reflexivity). split; [intros _; right; intros [X _]; discriminate|].
        intros _. split; intros; [auto|exfalso; auto].
      + assert (~ (v = 4 \/ v = 12)) by (intros X; apply T in X; discriminate).
        split; [intros _; right; intros [X _]; discriminate|]. intros _. split; intros; [contradiction|auto].
    - subst d. destruct ((v =? 4) || (v =? 12)).
      + assert (v = 4 \/ v = 12) by (apply T; reflexivity). split; [intros _; right; intros [X _]; discriminate|].
        intros _. split; intros; [auto|exfalso; auto].
      + assert (~ (v = 4 \/ v = 12)) by (intros X; apply T in X; discriminate).
        split; [intros _; right; intros [X _]; discriminate|]. intros _. split; intros; [contradiction|auto].
    - destruct C as [[k ->] B]. destruct R as [R|R]; [discriminate|].
      destruct ((v =? 4) || (v =? 12)).
      + assert (v = 4 \/ v = 12) by (apply T; reflexivity). split; [intros _; right; intros [_ X]; lia|].
        intros _. split; intros; [auto|lia].
      + assert (~ (v = 4 \/ v = 12)) by (intros X; apply T in X; discriminate). split.
        * intros [F _]. destruct (Z.eq_dec (sw e) (sh e)) as [Q|Q]; [left; exact Q|]. right. intros [_ X].
          destruct F as [F _]; [lia|]. contradiction.
        * intros [Q|Q]; split; intros X; try (rewrite ?Q; auto); exfalso; apply Q; (split; [reflexivity|lia]).
  Qed.

  Lemma eight_way_size : forall e v e', kd e = Dir8 -> set_direction H e v = Ok e' -> (exists k, v = 4 * k) ->
    (faces e' v <-> sw e = sh e \/ ~ sideways v).
  Proof.
    intros e v e' K E [k ->]. destruct (set_shape e (4 * k) e' (or_intror K) E) as
      [d' [C [A1 [A2 [A3 [A4 [A5 [A6 [A7 [A8 [A9 [A10 [A11 [A12 _]]]]]]]]]]]]]].
    apply checked_spec in C. rewrite K in C. destruct C as [R ->].
    unfold turned in *. rewrite K in *. unfold faces, sideways in *. rewrite A4, A5, A11, A12.
    destruct ((4 * k =? 2) || (4 * k =? 3) || (4 * k =? 6) || (4 * k =? 7)) eqn:T.
    - rewrite !orb_true_iff, !Z.eqb_eq in T. lia.
    - split.
      + intros [F _]. destruct (Z.eq_dec (sw e) (sh e)) as [Q|Q]; [left; exact Q|]. right. intros X. destruct F; auto.
      + intros [Q|Q]; split; intros X; try (rewrite ?Q; auto); contradiction.
  Qed.

  (** *** sequences of assignments *)
  Lemma set_seated : forall e v e', directional e -> sized e -> seated H e -> set_direction H e v = Ok e' -> seated H e' /\ sized e'.
  Proof.
    intros e v e' D Z [S1 S2] E. destruct (set_shape e v e' D E) as
      [d' [C [A1 [A2 [A3 [A4 [A5 [A6 [A7 [A8 [A9 [A10 [A11 [A12 A13]]]]]]]]]]]]]].
    assert (Z' : sized e') by (unfold sized; rewrite A4, A5, A11, A12; destruct (turned e v d'); auto).
    split; [|assumption]. destruct A13 as [S|[K [P1 [P2 W]]]]; [assumption|].
    unfold seated. rewrite P1, P2, A6, A7, S1, S2. unfold sized in Z. rewrite A11, A12 in *.
    destruct (turned e v d'); nia || (destruct Z as [[Z1 Z2]|[Z1 Z2]]; destruct W as [W|[W|W]]; split; f_equal; nia).
  Qed.

  Lemma ent_ext : forall a b, kd a = kd b -> vm a = vm b -> dir a = dir b -> flips a = flips b -> sw a = sw b -> sh a = sh b ->
    w a = w b -> h a = h b -> px a = px b -> py a = py b -> tx a = tx b -> ty a = ty b -> held a = held b -> other a = other b -> a = b.
  Proof. intros [] []; cbn; intros; subst; reflexivity. Qed.

  Lemma checked_same : forall a b v, kd a = kd b -> vm a = vm b -> checked_direction a v = checked_direction b v.
  Proof. intros a b v K M. unfold checked_direction. rewrite K, M. reflexivity. Qed.

  Lemma overwritten : forall e v v' e1, directional e -> sized e -> seated H e -> set_direction H e v = Ok e1 ->
    set_direction H e1 v' = set_direction H e v'.
  Proof.
    intros e v v' e1 D Z S E. pose proof (set_seated e v e1 D Z S E) as [S1 Z1].
    destruct (set_shape e v e1 D E) as [d [_ [A1 [A2 [A3 [A4 [A5 [A6 [A7 [A8 [A9 _]]]]]]]]]]].
    assert (D1 : directional e1) by (unfold directional; rewrite A1; exact D).
    destruct (set_direction H e1 v') as [a|x] eqn:EA.
    - destruct (set_direction H e v') as [b|x] eqn:EB.
      + f_equal. pose proof (set_seated e1 v' a D1 Z1 S1 EA) as [[SA1 SA2] _]. pose proof (set_seated e v' b D Z S EB) as [[SB1 SB2] _].
        destruct (set_shape e1 v' a D1 EA) as [da [CA [B1 [B2 [B3 [B4 [B5 [B6 [B7 [B8 [B9 [B10 [B11 [B12 _]]]]]]]]]]]]]].
        destruct (set_shape e v' b D EB) as [db [CB [C1 [C2 [C3 [C4 [C5 [C6 [C7 [C8 [C9 [C10 [C11 [C12 _]]]]]]]]]]]]]].
        rewrite (checked_same e1 e v' A1 A2) in CA. assert (da = db) by congruence. subst db.
        assert (T : turned e1 v' da = turned e v' da) by (unfold turned; rewrite A1; reflexivity).
        assert (W : w a = w b) by (rewrite B11, C11, T, A4, A5; reflexivity).
        assert (HH : h a = h b) by (rewrite B12, C12, T, A4, A5; reflexivity).
        apply ent_ext; congruence.
      + exfalso. apply (set_total e v' D x) in EB. rewrite <- (checked_same e1 e v' A1 A2) in EB.
        apply (set_total e1 v' D1 x) in EB. congruence.
    - symmetry. apply (set_total e v' D x). rewrite <- (checked_same e1 e v' A1 A2). apply (set_total e1 v' D1 x). assumption.
  Qed.

  Lemma last_counts : forall vs e, directional e -> sized e -> seated H e ->
    run_pops H e (map PDir vs) = e /\ Forall (fun v => exists x, set_direction H e v = Err x) vs \/
    exists before v after e', vs = before ++ v :: after /\ Forall (fun v => exists x, set_direction H e v = Err x) after /\
      set_direction H e v = Ok e' /\ run_pops H e (map PDir vs) = e'.
  Proof.
    intros vs e D Z S. induction vs as [|v vs IH] using rev_ind; [left; split; [reflexivity|constructor]|].
    unfold run_pops in *. rewrite map_app, fold_left_app. cbn [map fold_left pstep].
    destruct IH as [[IH F]|[b [u [a [e' [E [F [G IH]]]]]]]].
    - rewrite IH. destruct (set_direction H e v) as [e'|x] eqn:X; cbn [keep fst].
      + right. exists vs, v, [], e'. repeat split; [constructor|assumption].
      + left. split; [reflexivity|]. apply Forall_app. split; [assumption|]. constructor; [eauto|constructor].
    - rewrite IH. rewrite (overwritten e u v e' D Z S G). destruct (set_direction H e v) as [e2|x] eqn:X; cbn [keep fst].
      + right. exists vs, v, [], e2. repeat split; [constructor|assumption].
      + right. exists b, u, (a ++ [v]), e'. split; [rewrite E, <- app_assoc; reflexivity|]. split.
        * apply Forall_app. split; [assumption|]. constructor; [eauto|constructor].
        * split; [assumption|reflexivity].
  Qed.
End Directions.
