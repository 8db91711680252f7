(** Proofs about placing trains. *)
From Coq Require Import ZArith NArith List Bool Lia Reals Lra.
From Verif Require Import Common Dict Compass_Model Compass_Spec Compass_Proofs Schedule_Model Schedule_Spec Schedule_More_Proofs Train_Model Train_Spec.
Import ListNotations.
Local Open Scope Z_scope.

Lemma replace_nth_split : forall A (l : list A) k x y, nth_error l k = Some x ->
  exists pre post, l = pre ++ x :: post /\ length pre = k /\ replace_nth l k y = pre ++ y :: post.
Proof.
  induction l as [|a l IH]; intros [|k] x y E; cbn in E; try discriminate.
  - inversion E; subst. exists [], l. auto.
  - destruct (IH k x y E) as [pre [post [-> [L R]]]]. exists (a :: pre), post. cbn. rewrite R, L. auto.
Qed.
Lemma attach_fresh : forall ss k i, (k < length ss)%nat -> Forall (fun s => forall j, In j (targets (s_locos s)) -> (j < i)%nat) ss ->
  extended ss k [i] (attach ss k i).
Proof.
  intros ss k i L F. unfold attach. destruct (nth_error ss k) as [s|] eqn:E; [|apply nth_error_None in E; lia].
  assert (NI : ~ In i (targets (s_locos s))).
  { intros C. rewrite Forall_forall in F. apply (F s) in C; [lia|]. eapply nth_error_In. exact E. }
  rewrite (proj2 (add_spec (fun _ => true) (s_locos s) i (Ok (s_locos s ++ [LRef (Some i)])))) by (right; right; auto).
  destruct (replace_nth_split _ ss k s (mkSchedule (s_stops s) (s_locos s ++ [LRef (Some i)])) E) as [pre [post [-> [LP R]]]].
  exists pre, s, post. rewrite R. auto.
Qed.
Lemma extended_nil : forall ss k, (k < length ss)%nat -> extended ss k [] ss.
Proof.
  intros ss k L. destruct (nth_error ss k) as [s|] eqn:E; [|apply nth_error_None in E; lia].
  destruct (replace_nth_split _ ss k s s E) as [pre [post [-> [LP R]]]]. exists pre, s, post. split; [reflexivity|]. split; [exact LP|].
  simpl. rewrite app_nil_r. destruct s; reflexivity.
Qed.
Lemma app_len_inj : forall A (a b x y : list A), length a = length b -> a ++ x = b ++ y -> a = b /\ x = y.
Proof.
  induction a as [|u a IH]; intros [|w b] x y L E; cbn in *; try discriminate; [auto|]. inversion E; subst.
  destruct (IH b x y) as [-> ->]; [lia|assumption|auto].
Qed.
Lemma extended_trans : forall a k x b y c, extended a k x b -> extended b k y c -> extended a k (x ++ y) c.
Proof.
  intros a k x b y c [pre [s [post [-> [L ->]]]]] [pre' [s' [post' [E [L' ->]]]]].
  assert (pre' = pre /\ s' = mkSchedule (s_stops s) (s_locos s ++ map (fun i => LRef (Some i)) x) /\ post' = post) as [-> [-> ->]].
  { apply app_len_inj in E; [|congruence]. destruct E as [-> E]. inversion E. auto. }
  exists pre, s, post. split; [reflexivity|]. split; [exact L|]. cbn [s_stops s_locos]. rewrite map_app, app_assoc. reflexivity.
Qed.
Lemma extended_length : forall a k x b, extended a k x b -> length b = length a.
Proof. intros a k x b [pre [s [post [-> [_ ->]]]]]. rewrite !app_length. reflexivity. Qed.
Lemma extended_sound : forall a k i b n, extended a k [i] b -> (i < n)%nat ->
  Forall (fun s => forall j, In j (targets (s_locos s)) -> (j < n)%nat) a -> Forall (fun s => forall j, In j (targets (s_locos s)) -> (j < n)%nat) b.
Proof.
  intros a k i b n [pre [s [post [-> [_ ->]]]]] L F. rewrite !Forall_app in *. destruct F as [F1 F2]. inversion F2 as [|? ? F3 F4]; subst.
  split; [exact F1|]. constructor; [|exact F4]. cbn [s_locos map]. intros j J. rewrite targets_app, in_app_iff in J. cbn in J.
  destruct J as [J|[<-|[]]]; [apply F3; exact J|exact L].
Qed.

Section Place.
  Variable K : Z.
  Lemma compass_values : forall d, compass_point d -> to_orientation K d = Ok (mkO (d * K)) /\
    exists v, unit_vector d = Ok v /\ length_is v 1.
  Proof.
    intros d [D E]. assert (U : exists v, to_vector 1 d = Ok v /\ length_is v 1).
    { destruct (vector_length d 1 D) as [v [A [B _]]]. exists v. auto. }
    split.
    - destruct E as [k ->]. unfold is_direction in D.
      assert (C : k = 0 \/ k = 1 \/ k = 2 \/ k = 3 \/ k = 4 \/ k = 5 \/ k = 6 \/ k = 7) by lia.
      repeat (destruct C as [->|C]; [reflexivity|]). subst k. reflexivity.
    - destruct U as [v [A B]]. unfold to_vector in A. destruct (unit_vector d) as [u|]; cbn [bind] in A; [|discriminate].
      exists u. split; [reflexivity|]. inversion A; subst. unfold length_is in *. cbn [fst snd] in B. rewrite <- B. ring.
  Qed.

  Lemma behind_0 : forall p v, behind p v 0 = p.
  Proof. intros [x y] v. unfold behind. cbn [fst snd INR]. f_equal; ring. Qed.
  Lemma behind_S : forall p v n, behind (shift p (fst v * -7, snd v * -7)%R) v n = behind p v (S n).
  Proof. intros p v n. unfold behind, shift. cbn [fst snd]. rewrite S_INR. f_equal; ring. Qed.

  Theorem place_cars_spec : forall reduce d v cars pos k c, compass_point d -> unit_vector d = Ok v ->
    sound c -> (match k with Some k => (k < length (scheds c))%nat | None => True end) ->
    exists c' es, place_cars K reduce d pos k cars c = (c', None) /\ ents c' = ents c ++ es /\
      map fst es = seq (fresh c) (length cars) /\ fresh c' = (fresh c + length cars)%nat /\
      (forall n x, nth_error cars n = Some x -> exists i e, nth_error es n = Some (i, e) /\ placed_as K reduce d v pos n x e) /\
      match k with Some k => extended (scheds c) k (new_locos es) (scheds c') | None => scheds c' = scheds c end.
  Proof.
    intros reduce d v cars. induction cars as [|x cars IH]; intros pos k c D V S Kk.
    - exists c, []. cbn [place_cars]. split; [reflexivity|]. split; [rewrite app_nil_r; reflexivity|]. split; [reflexivity|]. split; [cbn [length]; lia|].
      split; [intros [|n] y E; discriminate|]. destruct k; [apply extended_nil; exact Kk|reflexivity].
    - cbn [place_cars]. destruct (compass_values d D) as [-> _]. cbn zeta.
      unfold to_vector at 1. rewrite V. cbn [bind].
      set (i := fresh c).
      set (ss := match k with Some k => if car_loco x then attach (scheds c) k i else scheds c | None => scheds c end).
      set (e := mkEntity (mkCar (car_what x) (car_loco x) (mkO (if reduce then (value K (mkO (d * K)) + value K (car_orient x)) mod turn K else value K (mkO (d * K)) + value K (car_orient x)))) pos).
      assert (SS : match k with Some k => extended (scheds c) k (if car_loco x then [i] else []) ss | None => ss = scheds c end).
      { unfold ss. destruct k as [k|]; [|reflexivity]. destruct (car_loco x); [apply attach_fresh; assumption|apply extended_nil; exact Kk]. }
      assert (S1 : sound (mkColl (ents c ++ [(i, e)]) (Datatypes.S i) ss)).
      { unfold sound in *. cbn [scheds fresh].
        assert (S0 : Forall (fun s => forall j, In j (targets (s_locos s)) -> (j < Datatypes.S i)%nat) (scheds c)).
        { revert S. apply Forall_impl. intros s P j J. apply P in J. unfold i. lia. }
        unfold ss. destruct k as [k|]; [|exact S0]. destruct (car_loco x) eqn:L; [|exact S0].
        apply (extended_sound (scheds c) k i); [apply attach_fresh; assumption|lia|exact S0]. }
      destruct (IH (shift pos (fst v * -7, snd v * -7)%R) k (mkColl (ents c ++ [(i, e)]) (Datatypes.S i) ss) D V S1) as [c' [es [P [E [F [FR [N X]]]]]]].
      { destruct k as [k|]; [|exact I]. cbn [scheds]. rewrite (extended_length _ _ _ _ SS). exact Kk. }
      exists c', ((i, e) :: es). split; [exact P|]. cbn [ents fresh scheds] in *. split; [rewrite E, <- app_assoc; reflexivity|].
      split; [cbn [map fst length seq]; rewrite F; reflexivity|]. split; [rewrite FR; unfold i; cbn [length]; lia|]. split.
      + intros [|n] y Y; cbn [nth_error] in *.
        * inversion Y; subst y. exists i, e. split; [reflexivity|]. unfold placed_as, e. cbn [e_pos e_car car_what car_loco car_orient raw]. rewrite behind_0. auto.
        * destruct (N n y Y) as [j [f [Q [Q1 Q2]]]]. exists j, f. split; [exact Q|]. split; [rewrite Q1; apply behind_S|exact Q2].
      + destruct k as [k|]; [|congruence].
        assert (NL : new_locos ((i, e) :: es) = (if car_loco x then [i] else []) ++ new_locos es).
        { unfold new_locos. cbn [filter snd]. unfold e at 1. cbn [e_car car_loco]. destruct (car_loco x); reflexivity. }
        rewrite NL. eapply extended_trans; eassumption.
  Qed.
  Lemma place_cars_odd : forall reduce d cars pos k c, is_direction d -> ~ Z.Even d -> cars <> [] ->
    place_cars K reduce d pos k cars c = (c, Some KeyError).
  Proof.
    intros reduce d [|x cars] pos k c D E N; [contradiction|]. cbn [place_cars].
    assert (O : to_orientation K d = Err KeyError).
    { destruct (Z.Even_or_Odd d) as [H|[m ->]]; [contradiction|]. unfold is_direction in D.
      assert (C : m = 0 \/ m = 1 \/ m = 2 \/ m = 3 \/ m = 4 \/ m = 5 \/ m = 6 \/ m = 7) by lia.
      repeat (destruct C as [->|C]; [reflexivity|]). subst m. reflexivity. }
    rewrite O. reflexivity.
  Qed.
End Place.

(** Choosing the schedule *)
Lemma find_pos_some : forall A (p : A -> bool) l k, find_pos p l = Some k <-> first_pos (fun x => p x = true) l k.
Proof.
  intros A p. induction l as [|x l IH]; intros k; cbn [find_pos].
  - split; [discriminate|]. intros [[|a pre] [y [post [E _]]]]; discriminate.
  - destruct (p x) eqn:P.
    + split.
      * intros E. inversion E; subst. exists [], x, l. repeat split; auto.
      * intros [[|a pre] [y [post [E [L [Y N]]]]]]; inversion E; subst; [reflexivity|]. exfalso. apply (N a); [left; reflexivity|exact P].
    + split.
      * destruct (find_pos p l) as [j|] eqn:F; [|discriminate]. intros E. inversion E; subst.
        destruct (proj1 (IH j) eq_refl) as [pre [y [post [-> [L [Y N]]]]]]. exists (x :: pre), y, post. cbn. rewrite L. repeat split; auto.
        intros z [<-|I]; [congruence|apply N; exact I].
      * intros [[|a pre] [y [post [E [L [Y N]]]]]]; inversion E; subst; [congruence|].
        rewrite (proj2 (IH (length pre))); [reflexivity|]. exists pre, y, post. repeat split; auto. intros z I. apply N. right. exact I.
Qed.
Lemma find_pos_none : forall A (p : A -> bool) l, find_pos p l = None <-> (forall x, In x l -> p x = false).
Proof.
  intros A p. induction l as [|x l IH]; cbn [find_pos].
  - split; [intros _ x []|reflexivity].
  - destruct (p x) eqn:P.
    + split; [discriminate|]. intros H. rewrite (H x (or_introl eq_refl)) in P. discriminate.
    + split.
      * destruct (find_pos p l); [discriminate|]. intros _ y [<-|I]; [exact P|]. apply IH; auto.
      * intros H. rewrite (proj2 IH); [reflexivity|]. intros y I. apply H. right. exact I.
Qed.
Lemma list_eqb_eq : forall A (eqb : A -> A -> bool), (forall x y, eqb x y = true <-> x = y) -> forall a b, list_eqb eqb a b = true <-> a = b.
Proof.
  intros A eqb H. induction a as [|x a IH]; intros [|y b]; cbn; split; try discriminate; try reflexivity.
  - intros E. apply andb_true_iff in E. destruct E as [X Y]. apply H in X. apply IH in Y. congruence.
  - intros E. inversion E; subst. apply andb_true_iff. split; [apply H; reflexivity|apply IH; reflexivity].
Qed.
Lemma stops_eqb_eq : forall a b, stops_eqb a b = true <-> a = b.
Proof.
  apply list_eqb_eq. intros [n1 c1] [n2 c2]. unfold stop_eqb. cbn [station conds]. rewrite andb_true_iff, pystr_eqb_eq, wcs_eqb_eq.
  split; [intros [-> ->]; reflexivity|intros E; inversion E; auto].
Qed.
Lemma loco_eqb_eq : forall a b, loco_eqb a b = true <-> a = b.
Proof.
  intros [[i|]|n] [[j|]|m]; cbn; split; try discriminate; try reflexivity.
  - intros E. apply Nat.eqb_eq in E. congruence.
  - intros E. inversion E. apply Nat.eqb_refl.
  - intros E. apply Z.eqb_eq in E. congruence.
  - intros E. inversion E. apply Z.eqb_refl.
Qed.
Lemma schedule_eqb_eq : forall a b, schedule_eqb a b = true <-> a = b.
Proof.
  intros [s1 l1] [s2 l2]. unfold schedule_eqb. cbn [s_stops s_locos]. rewrite andb_true_iff, stops_eqb_eq, (list_eqb_eq _ _ loco_eqb_eq).
  split; [intros [-> ->]; reflexivity|intros E; inversion E; auto].
Qed.
Lemma first_pos_ext : forall A (P Q : A -> Prop) l k, (forall x, P x <-> Q x) -> first_pos P l k -> first_pos Q l k.
Proof.
  intros A P Q l k H [pre [x [post [E [L [X N]]]]]]. exists pre, x, post. split; [exact E|]. split; [exact L|]. split; [apply H; exact X|].
  intros y I C. apply (N y I). apply H. exact C.
Qed.
Lemma choose_spec : forall same (fits : schedule -> Prop) c s c' k, (forall x, same s x = true <-> fits x) -> choose same c s = (c', k) ->
  ents c' = ents c /\ fresh c' = fresh c /\ chosen fits s (scheds c) (scheds c') k /\ (k < length (scheds c'))%nat.
Proof.
  intros same fits c s c' k H E. unfold choose in E. destruct (find_pos (same s) (scheds c)) as [j|] eqn:F; inversion E; subst; cbn.
  - apply find_pos_some in F. split; [reflexivity|]. split; [reflexivity|]. split.
    + left. split; [|reflexivity]. revert F. apply first_pos_ext. exact H.
    + destruct F as [pre [x [post [-> [<- _]]]]]. rewrite app_length. cbn. lia.
  - rewrite find_pos_none in F. split; [reflexivity|]. split; [reflexivity|]. split; [|rewrite app_length; cbn; lia].
    right. split; [|auto]. intros x I C. apply H in C. rewrite F in C by exact I. discriminate.
Qed.
Lemma chosen_sound : forall fits s c c' k, sound c -> fresh c' = fresh c -> (forall i, In i (targets (s_locos s)) -> (i < fresh c)%nat) ->
  chosen fits s (scheds c) (scheds c') k -> sound c'.
Proof.
  intros fits s c c' k S F T [[_ E]|[_ [E _]]]; unfold sound in *; rewrite E, F; [exact S|]. apply Forall_app. split; [exact S|]. constructor; [exact T|constructor].
Qed.

Theorem at_position_spec : forall K c cars pos d s, compass_point d -> sound c ->
  (forall s', s = Some s' -> forall i, In i (targets (s_locos s')) -> (i < fresh c)%nat) ->
  exists v c' es, unit_vector d = Ok v /\ length_is v 1 /\ add_train_at_position K c cars pos d s = (c', None) /\
    placement K true (fun x => forall s', s = Some s' -> s_stops x = s_stops s') c cars pos d v s c' es.
Proof.
  intros K c cars pos d s D S T. destruct (compass_values K d D) as [_ [v [V LV]]]. exists v. unfold add_train_at_position, placement.
  destruct s as [s|].
  - destruct (choose (fun a b => stops_eqb (s_stops a) (s_stops b)) c s) as [c1 k] eqn:CH.
    apply choose_spec with (fits := fun x => forall s', Some s = Some s' -> s_stops x = s_stops s') in CH.
    2:{ intros x. rewrite stops_eqb_eq. split; [intros E s' Q; inversion Q; subst; auto|intros H; symmetry; apply H; reflexivity]. }
    destruct CH as [EN [FR [CO KL]]].
    destruct (place_cars_spec K true d v cars pos (Some k) c1 D V) as [c' [es [P [E [F [G [N X]]]]]]]; [|exact KL|].
    { eapply chosen_sound; [exact S|exact FR| |exact CO]. apply T. reflexivity. }
    exists c', es. rewrite EN, FR in *. repeat split; auto. exists (scheds c1), k. auto.
  - destruct (place_cars_spec K true d v cars pos None c D V S I) as [c' [es [P [E [F [G [N X]]]]]]]. exists c', es. repeat split; auto.
Qed.
Theorem at_station_spec : forall K c cars spos d s, compass_point d -> sound c ->
  (forall s', s = Some s' -> forall i, In i (targets (s_locos s')) -> (i < fresh c)%nat) ->
  exists v u p c' es, unit_vector d = Ok v /\ length_is v 1 /\ previous true d = Ok p /\ unit_vector p = Ok u /\
    add_train_at_station K c cars true spos d s = (c', None) /\
    placement K false (fun x => Some x = s) c cars
      (fst spos - 4 * fst v + 2 * fst u, snd spos - 4 * snd v + 2 * snd u)%R d v s c' es.
Proof.
  intros K c cars spos d s D S T. destruct (compass_values K d D) as [_ [v [V LV]]].
  destruct (next_previous true d (proj1 D)) as [_ [p [_ [PR [_ [DP [_ [_ [_ CP]]]]]]]]].
  assert (CPT : compass_point p).
  { split; [exact DP|]. destruct D as [_ [m ->]]. destruct CP as [k ->]. exists (m - 2 + 8 * k). lia. }
  destruct (compass_values K p CPT) as [_ [u [U _]]]. exists v, u, p. unfold add_train_at_station, placement. cbn [negb].
  rewrite PR. cbn [bind]. unfold to_vector at 1 2. rewrite U, V. cbn [bind fst snd].
  assert (ST : shift (fst spos - fst v * 4, snd spos - snd v * 4)%R (fst u * 2, snd u * 2)%R = (fst spos - 4 * fst v + 2 * fst u, snd spos - 4 * snd v + 2 * snd u)%R).
  { unfold shift. cbn [fst snd]. f_equal; ring. }
  destruct s as [s|].
  - destruct (choose schedule_eqb c s) as [c1 k] eqn:CH.
    apply choose_spec with (fits := fun x => Some x = Some s) in CH.
    2:{ intros x. rewrite schedule_eqb_eq. split; [intros ->; reflexivity|intros H; inversion H; reflexivity]. }
    destruct CH as [EN [FR [CO KL]]]. rewrite ST.
    destruct (place_cars_spec K false d v cars (fst spos - 4 * fst v + 2 * fst u, snd spos - 4 * snd v + 2 * snd u)%R (Some k) c1 D V) as [c' [es [P [E [F [G [N X]]]]]]]; [|exact KL|].
    { eapply chosen_sound; [exact S|exact FR| |exact CO]. apply T. reflexivity. }
    exists c', es. rewrite EN, FR in *. repeat split; auto. exists (scheds c1), k. auto.
  - rewrite ST.
    destruct (place_cars_spec K false d v cars (fst spos - 4 * fst v + 2 * fst u, snd spos - 4 * snd v + 2 * snd u)%R None c D V S I) as [c' [es [P [E [F [G [N X]]]]]]]. exists c', es. repeat split; auto.
Qed.
(** Distances *)
Theorem spacing : forall p v n, length_is v 1 -> length_is (difference (behind p v n) (behind p v (S n))) 7 /\
  difference (behind p v n) (behind p v (S n)) = (7 * fst v, 7 * snd v)%R.
Proof.
  intros p v n L. assert (E : difference (behind p v n) (behind p v (S n)) = (7 * fst v, 7 * snd v)%R).
  { unfold difference, behind. cbn [fst snd]. rewrite S_INR. f_equal; ring. }
  split; [|exact E]. rewrite E. unfold length_is in *. cbn [fst snd].
  replace (7 * fst v * (7 * fst v) + 7 * snd v * (7 * snd v))%R with (49 * (fst v * fst v + snd v * snd v))%R by ring. rewrite L. ring.
Qed.
(** Orientation of cars facing north or south in the configuration. *)
Theorem facing : forall K d x, 0 < K -> compass_point d -> (value K (car_orient x) = 0 -> (value K (mkO (d * K)) + value K (car_orient x)) mod turn K = d * K) /\
  (value K (car_orient x) = 8 * K -> forall p, opposite d = Ok p -> (value K (mkO (d * K)) + value K (car_orient x)) mod turn K = p * K).
Proof.
  intros K d x HK [D E]. unfold is_direction in D. assert (V : value K (mkO (d * K)) = d * K) by (unfold value, turn; cbn [raw]; apply Z.mod_small; nia).
  rewrite V. split.
  - intros ->. rewrite Z.add_0_r. apply Z.mod_small. unfold turn. nia.
  - intros -> p P. unfold opposite in P. pose proof (Z.mod_pos_bound (d + 8) 16 ltac:(lia)) as B. unfold direction in P.
    destruct ((0 <=? (d + 8) mod 16) && ((d + 8) mod 16 <? 16)); inversion P; subst. unfold turn.
    replace (d * K + 8 * K) with ((d + 8) * K) by ring. rewrite <- Zmult_mod_distr_r. reflexivity.
Qed.

(** Where a stop is looked for. *)
Theorem looks_for : forall K c cars spos d s x rest, 0 < K -> (d = 0 \/ d = 4 \/ d = 8 \/ d = 12) -> sound c ->
  (forall s', s = Some s' -> forall i, In i (targets (s_locos s')) -> (i < fresh c)%nat) ->
  cars = x :: rest -> value K (car_orient x) = 0 ->
  exists v c' i head, unit_vector d = Ok v /\ add_train_at_station K c cars true spos d s = (c', None) /\
    nth_error (ents c') (length (ents c)) = Some (i, head) /\
    looks_for_stop K head = Ok ((fst spos - fst v, snd spos - snd v)%R, d).
Proof.
  intros K c cars spos d s x rest HK DD S T -> V0.
  assert (D : compass_point d).
  { split; [unfold is_direction; lia|]. destruct DD as [->|[->|[->| ->]]]; [exists 0|exists 2|exists 4|exists 6]; reflexivity. }
  destruct (at_station_spec K c (x :: rest) spos d s D S T) as [v [u [p [c' [es [V [_ [P [U [E [EN [_ [_ [N _]]]]]]]]]]]]]].
  destruct (N O x eq_refl) as [i [e [NE [PO [_ [_ RA]]]]]]. exists v, c', i, e. split; [exact V|]. split; [exact E|].
  split; [rewrite EN, nth_error_app2, Nat.sub_diag by lia; exact NE|].
  rewrite behind_0 in PO. cbn zeta in RA. rewrite V0, Z.add_0_r in RA.
  unfold is_direction, compass_point in D. assert (VD : value K (mkO (d * K)) = d * K) by (unfold value, turn; cbn [raw]; apply Z.mod_small; unfold is_direction in D; nia).
  rewrite VD in RA. unfold looks_for_stop.
  assert (TD : to_direction K false (car_orient (e_car e)) = Ok d).
  { unfold to_direction. assert (VV : value K (car_orient (e_car e)) = d * K) by (unfold value; rewrite RA; apply Z.mod_small; unfold turn, is_direction in *; nia).
    rewrite VV. unfold round_div.
    assert (Q : exists q, d = 4 * q /\ 0 <= q < 4) by (destruct DD as [->|[->|[->| ->]]]; [exists 0|exists 1|exists 2|exists 3]; lia).
    destruct Q as [q [-> Q]]. replace (4 * q * K) with (q * (4 * K)) by ring. rewrite Z.mod_mul, Z.div_mul by lia.
    destruct (Z.ltb_spec (2 * 0) (4 * K)); [|lia]. unfold direction. replace (q * 4) with (4 * q) by ring.
    destruct (Z.leb_spec 0 (4 * q)); [|lia]. destruct (Z.ltb_spec (4 * q) 16); [reflexivity|lia]. }
  rewrite TD. cbn [bind]. rewrite PO.
  destruct DD as [->|[->|[->| ->]]]; vm_compute in P; inversion P; subst p; cbn in V, U; inversion V; inversion U; subst v u;
    match goal with |- context [next true ?z] => let r := eval vm_compute in (next true z) in change (next true z) with r end; cbn [bind];
    unfold to_vector; cbn [unit_vector bind fst snd]; unfold shift; cbn [fst snd];
    match goal with |- Ok ((?a, ?b), _) = Ok ((?a', ?b'), _) => replace a with a' by ring; replace b with b' by ring; reflexivity end.
Qed.
