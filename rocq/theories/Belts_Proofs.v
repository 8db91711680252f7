(** Proofs about reversing belts. *)
From Coq Require Import ZArith List Bool Lia.
From Verif Require Import Common Dict Belts_Model Belts_Spec.
Import ListNotations.

Lemma opposite_twice : forall d, opposite (opposite d) = d.
Proof. intros []; reflexivity. Qed.
Lemma ahead_back : forall d p, ahead (opposite d) (ahead d p) = p.
Proof. intros [] [x y]; unfold ahead; simpl; f_equal; lia. Qed.
Lemma ahead_inj : forall d p q, ahead d p = ahead d q -> p = q.
Proof. intros d p q E. rewrite <- (ahead_back d p), E. apply ahead_back. Qed.
Lemma ahead_neq : forall d p, ahead d p <> p.
Proof. intros [] [x y] E; unfold ahead in E; simpl in E; inversion E; lia. Qed.
Lemma tile_eqb_eq : forall a b, tile_eqb a b = true <-> a = b.
Proof.
  intros [a b] [c d]. unfold tile_eqb. simpl. rewrite andb_true_iff, !Z.eqb_eq. split; [intros [-> ->]; reflexivity|intros E; inversion E; auto].
Qed.
Lemma covers_in : forall e p, covers e p = true <-> In p (e_tiles e).
Proof.
  intros e p. unfold covers. rewrite existsb_exists. split.
  - intros [x [I E]]. apply tile_eqb_eq in E. subst. exact I.
  - intros I. exists p. split; [exact I|]. apply tile_eqb_eq. reflexivity.
Qed.
Lemma dir_eqb_eq : forall a b, dir_eqb a b = true <-> a = b.
Proof. intros [] []; simpl; split; congruence. Qed.

Lemma indices_in : forall p l n k, In k (indices p l n) <-> exists i e, k = n + i /\ nth_error l i = Some e /\ p e = true.
Proof.
  intros p. induction l as [|a l IH]; intros n k; cbn [indices].
  - split; [intros []|]. intros [[|i] [e [_ [E _]]]]; discriminate.
  - assert (R : In k (indices p l (S n)) <-> exists i e, k = n + S i /\ nth_error (a :: l) (S i) = Some e /\ p e = true).
    { rewrite IH. split; intros [i [e [K E]]]; exists i, e; (split; [lia|exact E]). }
    destruct (p a) eqn:Pa; cbn [In]; rewrite R; split.
    + intros [<-|[i [e E]]]; [exists 0, a; split; [lia|]; auto|exists (S i), e; exact E].
    + intros [[|i] [e [K E]]]; [left; lia|right; exists i, e; auto].
    + intros [i [e E]]. exists (S i), e. exact E.
    + intros [[|i] [e [K [E X]]]]; [simpl in E; congruence|exists i, e; auto].
Qed.
Lemma indices_nodup : forall p l n, NoDup (indices p l n).
Proof.
  intros p. induction l as [|a l IH]; intros n; cbn [indices]; [constructor|]. destruct (p a); [|apply IH].
  constructor; [|apply IH]. rewrite indices_in. intros [i [e [E _]]]. lia.
Qed.

Section Layout.
  Variable l : list entity.
  Hypothesis Sol : solid l.
  Lemma find_at_iff : forall p j, find_at l p = Some j <-> exists e, nth_error l j = Some e /\ In p (e_tiles e).
  Proof using Sol.
    intros p j. unfold find_at. pose proof (indices_in (fun e => covers e p) l 0) as H.
    destruct (indices (fun e => covers e p) l 0) as [|k r]; cbn [hd_error].
    - split; [discriminate|]. intros [e [E I]]. destruct (proj2 (H j)). exists j, e. rewrite covers_in. auto.
    - destruct (proj1 (H k) (or_introl eq_refl)) as [i [e [-> [E I]]]]. cbn [plus] in *. apply covers_in in I. split.
      + intros X. inversion X; subst. eauto.
      + intros [e' [E' I']]. f_equal. exact (proj1 Sol _ _ _ _ _ E E' I I').
  Qed.
  Lemma find_at_none : forall p, find_at l p = None <-> forall j e, nth_error l j = Some e -> ~ In p (e_tiles e).
  Proof using Sol.
    intros p. split.
    - intros N j e E I. assert (X : find_at l p = Some j) by (apply find_at_iff; eauto). congruence.
    - intros N. destruct (find_at l p) as [j|] eqn:E; [|reflexivity]. apply find_at_iff in E. destruct E as [e [E I]].
      destruct (N j e E I).
  Qed.
  Lemma pointed_valid : forall a j, In j (pointed l a) -> exists b, nth_error l j = Some b.
  Proof using Sol.
    intros a j I. unfold pointed in I. destruct (e_kind a) as [|[]| |].
    - destruct (find_at l (ahead (e_dir a) (e_pos a))) as [k|] eqn:E; [|destruct I]. destruct (type_at l k); [|destruct I].
      destruct I as [<-|[]]. apply find_at_iff in E. destruct E as [e [E _]]. eauto.
    - destruct (find_at l (ahead (e_dir a) (e_pos a))) as [k|] eqn:E; [|destruct I].
      destruct I as [<-|[]]. apply find_at_iff in E. destruct E as [e [E _]]. eauto.
    - destruct I.
    - apply indices_in in I. destruct I as [i [e [-> [E _]]]]. eauto.
    - destruct I.
  Qed.
  Lemma pointed_nodup : forall a, NoDup (pointed l a).
  Proof using.
    intros a. unfold pointed. destruct (e_kind a) as [|[]| |]; try constructor.
    - destruct (find_at l (ahead (e_dir a) (e_pos a))) as [k|]; [|constructor]. destruct (type_at l k); repeat constructor; intros [].
    - destruct (find_at l (ahead (e_dir a) (e_pos a))) as [k|]; repeat constructor. intros [].
    - apply indices_nodup.
  Qed.
  Lemma pointed_feeds : forall i j a b, nth_error l i = Some a -> nth_error l j = Some b ->
    (In j (pointed l a) <-> feeds l i j /\ (is_belt b = true \/ e_kind a = Under true)).
  Proof using Sol.
    intros i j a b A B. pose proof (proj2 Sol a (nth_error_In _ _ A)) as W.
    assert (FE : feeds l i j <-> sends a /\ exists t, In t (e_tiles a) /\ In (ahead (e_dir a) t) (e_tiles b)).
    { split.
      - intros [a' [b' [t [A' [B' [S' [I J]]]]]]]. rewrite A in A'. rewrite B in B'. inversion A'; inversion B'; subst. eauto.
      - intros [S' [t [I J]]]. exists a, b, t. auto. }
    rewrite FE. clear FE. unfold pointed, sends. destruct (e_kind a) as [|[]| |dd] eqn:K.
    - rewrite W. assert (X : (exists t, In t [e_pos a] /\ In (ahead (e_dir a) t) (e_tiles b)) <-> find_at l (ahead (e_dir a) (e_pos a)) = Some j).
      { rewrite find_at_iff. split.
        - intros [t [[<-|[]] I]]. eauto.
        - intros [e [E I]]. rewrite B in E. inversion E; subst. exists (e_pos a). simpl. auto. }
      rewrite X. destruct (find_at l (ahead (e_dir a) (e_pos a))) as [k|]; [|split; [intros []|intros [[_ C] _]; discriminate]].
      split.
      + intros I. unfold type_at in I. destruct (nth_error l k) as [e|] eqn:E; [|destruct I]. destruct (is_belt e) eqn:T; [|destruct I].
        destruct I as [->|[]]. rewrite B in E. inversion E; subst. auto.
      + intros [[_ C] D]. inversion C; subst k. unfold type_at. rewrite B. destruct D as [->|D]; [left; reflexivity|discriminate].
    - rewrite W. assert (X : (exists t, In t [e_pos a] /\ In (ahead (e_dir a) t) (e_tiles b)) <-> find_at l (ahead (e_dir a) (e_pos a)) = Some j).
      { rewrite find_at_iff. split.
        - intros [t [[<-|[]] I]]. eauto.
        - intros [e [E I]]. rewrite B in E. inversion E; subst. exists (e_pos a). simpl. auto. }
      rewrite X. destruct (find_at l (ahead (e_dir a) (e_pos a))) as [k|]; [|split; [intros []|intros [[_ C] _]; discriminate]].
      split; [intros [->|[]]; auto|]. intros [[_ C] _]. inversion C. left. reflexivity.
    - split; [intros []|intros [[[] _] _]].
    - rewrite indices_in. split.
      + intros [k [e [-> [E X]]]]. cbn [plus] in *. rewrite B in E. inversion E; subst. apply andb_true_iff in X. destruct X as [X Y].
        apply existsb_exists in Y. destruct Y as [t [I J]]. apply covers_in in J. eauto 10.
      + intros [[_ [t [I J]]] D]. exists j, b. split; [reflexivity|]. split; [exact B|]. apply andb_true_iff. split.
        * destruct D as [D|D]; [exact D|discriminate].
        * apply existsb_exists. exists t. split; [exact I|]. apply covers_in. exact J.
    - split; [intros []|intros [[[] _] _]].
  Qed.

  (** ** The survey *)
  Definition agrees (m : dmap) (f : nat -> list nat) : Prop := forall j,
    match dm_get m j with
    | Some (d, ps) => (exists e, nth_error l j = Some e /\ direction_of e = Ok d) /\ ps = f j
    | None => f j = []
    end.
  Lemma get_set : forall (m : dmap) j v k, dm_get (dset Nat.eqb m j v) k = if Nat.eqb j k then Some v else dm_get m k.
  Proof using. intros. apply (dget_dset Nat.eqb Nat.eqb_eq). Qed.
  Lemma direction_ok : forall e d, direction_of e = Ok d <-> d = e_dir e /\ e_kind e <> Thing false.
  Proof using.
    intros e d. unfold direction_of. destruct (e_kind e) as [|o| |[]]; split; try (intros E; inversion E; subst; split; [reflexivity|discriminate]);
      try (intros [-> _]; reflexivity); try discriminate. intros [_ N]. contradiction.
  Qed.
  Lemma direction_err : forall e x, direction_of e = Err x <-> x = AttributeError /\ e_kind e = Thing false.
  Proof using.
    intros e x. unfold direction_of. destruct (e_kind e) as [|o| |[]]; split; try discriminate; try (intros [_ E]; discriminate).
    - intros E. inversion E. auto.
    - intros [-> _]. reflexivity.
  Qed.
  Lemma enter_ok : forall m f j m', agrees m f -> enter l m j = Ok m' ->
    agrees m' f /\ dm_get m' j <> None /\ (forall k, dm_get m k <> None -> dm_get m' k <> None).
  Proof using.
    intros m f j m' A E. unfold enter in E. destruct (dm_get m j) as [v|] eqn:G.
    - inversion E; subst. rewrite G. split; [exact A|]. split; [discriminate|auto].
    - destruct (nth_error l j) as [e|] eqn:N; [|discriminate]. destruct (direction_of e) as [d|] eqn:D; [|discriminate].
      cbn [bind] in E. inversion E; subst. split; [|split].
      + intros k. rewrite get_set. destruct (Nat.eqb_spec j k) as [<-|NE]; [|apply A].
        specialize (A j). rewrite G in A. rewrite A. eauto.
      + rewrite get_set, Nat.eqb_refl. discriminate.
      + intros k K. rewrite get_set. destruct (Nat.eqb j k); [discriminate|exact K].
  Qed.
  Lemma enter_total : forall m f j e, agrees m f -> nth_error l j = Some e ->
    (e_kind e <> Thing false -> exists m', enter l m j = Ok m') /\ (e_kind e = Thing false -> enter l m j = Err AttributeError).
  Proof using.
    intros m f j e A N. unfold enter. specialize (A j). destruct (dm_get m j) as [[d ps]|]; rewrite ?N.
    - split; [eauto|]. intros K. destruct A as [[e' [N' D]] _]. rewrite N in N'. inversion N'; subst. apply direction_ok in D. tauto.
    - split; intros K.
      + assert (D : direction_of e = Ok (e_dir e)) by (apply direction_ok; auto). rewrite D. simpl. eauto.
      + assert (D : direction_of e = Err AttributeError) by (apply direction_err; auto). rewrite D. reflexivity.
  Qed.
  Lemma note_ok : forall i m f j m', agrees m f -> note l i m j = Ok m' ->
    agrees m' (fun k => if Nat.eqb j k then f k ++ [i] else f k) /\ (forall k, dm_get m k <> None -> dm_get m' k <> None).
  Proof using.
    intros i m f j m' A E. unfold note in E. destruct (enter l m j) as [m1|] eqn:E1; [|discriminate]. cbn [bind] in E.
    destruct (enter_ok m f j m1 A E1) as [A1 [_ K1]]. destruct (dm_get m1 j) as [[d ps]|] eqn:G; [|discriminate]. inversion E; subst. split.
    - intros k. rewrite get_set. destruct (Nat.eqb_spec j k) as [<-|NE]; [|apply A1]. specialize (A1 j). rewrite G in A1.
      destruct A1 as [X ->]. auto.
    - intros k K. rewrite get_set. destruct (Nat.eqb j k); [discriminate|auto].
  Qed.
  Lemma note_total : forall i m f j e, agrees m f -> nth_error l j = Some e ->
    (e_kind e <> Thing false -> exists m', note l i m j = Ok m') /\ (e_kind e = Thing false -> note l i m j = Err AttributeError).
  Proof using.
    intros i m f j e A N. destruct (enter_total m f j e A N) as [T1 T2]. unfold note. split; intros K.
    - destruct (T1 K) as [m1 E]. rewrite E. cbn [bind]. destruct (enter_ok m f j m1 A E) as [_ [G _]].
      destruct (dm_get m1 j) as [[d ps]|]; [eauto|contradiction].
    - rewrite (T2 K). reflexivity.
  Qed.
  Definition add_all (i : nat) (f : nat -> list nat) (js : list nat) : nat -> list nat :=
    fun k => if existsb (Nat.eqb k) js then f k ++ [i] else f k.
  Lemma existsb_nat : forall k js, existsb (Nat.eqb k) js = true <-> In k js.
  Proof using.
    intros k js. rewrite existsb_exists. split; [intros [x [I E]]; apply Nat.eqb_eq in E; subst; exact I|].
    intros I. exists k. split; [exact I|apply Nat.eqb_refl].
  Qed.
  Lemma agrees_ext : forall m f g, (forall k, f k = g k) -> agrees m f -> agrees m g.
  Proof using. intros m f g E A j. specialize (A j). destruct (dm_get m j) as [[d ps]|]; rewrite <- E; exact A. Qed.
  Lemma note_all_ok : forall i js m f m', NoDup js -> agrees m f -> note_all l i m js = Ok m' ->
    agrees m' (add_all i f js) /\ (forall k, dm_get m k <> None -> dm_get m' k <> None).
  Proof using.
    intros i. induction js as [|j js IH]; intros m f m' N A E; cbn [note_all] in E.
    - inversion E; subst. split; [|auto]. exact A.
    - destruct (note l i m j) as [m1|] eqn:E1; [|discriminate]. cbn [bind] in E. destruct (note_ok i m f j m1 A E1) as [A1 K1].
      inversion N as [|? ? N1 N2]; subst. destruct (IH m1 _ m' N2 A1 E) as [A2 K2]. split; [|auto].
      revert A2. apply agrees_ext. intros k. unfold add_all. cbn [existsb]. rewrite (Nat.eqb_sym k j). destruct (Nat.eqb_spec j k) as [<-|NE]; [|reflexivity].
      cbn [orb]. destruct (existsb (Nat.eqb j) js) eqn:X; [|reflexivity]. apply existsb_nat in X. contradiction.
  Qed.
  Lemma note_all_total : forall i js m f, NoDup js -> agrees m f -> (forall j, In j js -> exists e, nth_error l j = Some e) ->
    ((forall j e, In j js -> nth_error l j = Some e -> e_kind e <> Thing false) -> exists m', note_all l i m js = Ok m') /\
    (forall x, note_all l i m js = Err x -> x = AttributeError /\ exists j e, In j js /\ nth_error l j = Some e /\ e_kind e = Thing false).
  Proof using.
    intros i. induction js as [|j js IH]; intros m f N A V; cbn [note_all].
    - split; [eauto|discriminate].
    - destruct (V j (or_introl eq_refl)) as [e Ne]. destruct (note_total i m f j e A Ne) as [T1 T2]. inversion N as [|? ? N1 N2]; subst.
      assert (VV : forall k, In k js -> exists e, nth_error l k = Some e) by (intros k I; apply V; right; exact I).
      split.
      + intros D. destruct (T1 (D j e (or_introl eq_refl) Ne)) as [m1 E1]. rewrite E1. cbn [bind].
        destruct (note_ok i m f j m1 A E1) as [A1 _]. apply (IH m1 _ N2 A1 VV). intros k e' I. apply D. right. exact I.
      + intros x X. destruct (note l i m j) as [m1|y] eqn:E1; cbn [bind] in X.
        * destruct (note_ok i m f j m1 A E1) as [A1 _]. destruct (proj2 (IH m1 _ N2 A1 VV) x X) as [Y [k [e' [I Z]]]].
          split; [exact Y|]. exists k, e'. simpl. auto.
        * inversion X; subst.
          assert (D : e_kind e = Thing false \/ e_kind e <> Thing false) by (destruct (e_kind e) as [|o| |[]]; try (right; discriminate); left; reflexivity).
          destruct D as [D|D]; [|destruct (T1 D); congruence]. specialize (T2 D). inversion T2; subst. split; [reflexivity|].
          exists j, e. simpl. auto.
  Qed.

  (** Who points at [j] among the first [n]. *)
  Definition points_at (j i : nat) : bool := match nth_error l i with Some a => existsb (Nat.eqb j) (pointed l a) | None => false end.
  Definition pointers (n j : nat) : list nat := filter (points_at j) (seq 0 n).
  Lemma pointers_succ : forall n j, pointers (S n) j = pointers n j ++ (if points_at j n then [n] else []).
  Proof using. intros n j. unfold pointers. rewrite seq_S, filter_app. reflexivity. Qed.
  Lemma pointed_nothing : forall a, is_belt a = false -> pointed l a = [].
  Proof using. intros a E. unfold is_belt in E. unfold pointed. destruct (e_kind a); try discriminate. reflexivity. Qed.

  Definition present (m : dmap) (n : nat) : Prop := forall i e, i < n -> nth_error l i = Some e -> is_belt e = true -> dm_get m i <> None.
  Lemma survey_ok : forall rest i m m', l = firstn i l ++ rest -> i + length rest = length l -> agrees m (pointers i) -> present m i ->
    survey l rest i m = Ok m' -> agrees m' (pointers (length l)) /\ present m' (length l).
  Proof using.
    induction rest as [|a rest IH]; intros i m m' L Len A P E; cbn [survey] in E.
    - inversion E; subst. simpl in Len. replace (length l) with i by lia. auto.
    - assert (N : nth_error l i = Some a).
      { rewrite L, nth_error_app2; rewrite firstn_length_le by (simpl in Len; lia); [rewrite Nat.sub_diag; reflexivity|lia]. }
      assert (L2 : l = firstn (S i) l ++ rest).
      { rewrite L at 1. clear - N. revert l N. induction i as [|i IHi]; intros [|x r] N; try discriminate; simpl in *; [inversion N; reflexivity|].
        f_equal. apply IHi. exact N. }
      assert (Len2 : S i + length rest = length l) by (simpl in Len; lia).
      destruct (is_belt a) eqn:B.
      + destruct (enter l m i) as [m1|] eqn:E1; [|discriminate]. cbn [bind] in E. destruct (enter_ok m _ i m1 A E1) as [A1 [G1 K1]].
        destruct (note_all l i m1 (pointed l a)) as [m2|] eqn:E2; [|discriminate]. cbn [bind] in E.
        destruct (note_all_ok i _ m1 _ m2 (pointed_nodup a) A1 E2) as [A2 K2]. apply (IH (S i) m2 m' L2 Len2); [| |exact E].
        * revert A2. apply agrees_ext. intros k. rewrite pointers_succ. unfold add_all, points_at. rewrite N.
          destruct (existsb (Nat.eqb k) (pointed l a)); [reflexivity|rewrite app_nil_r; reflexivity].
        * intros k e K Ne Be. apply K2. destruct (Nat.eq_dec k i) as [->|D]; [exact G1|]. apply K1. apply (P k e); [lia|exact Ne|exact Be].
      + apply (IH (S i) m m' L2 Len2); [| |exact E].
        * revert A. apply agrees_ext. intros k. rewrite pointers_succ. unfold points_at. rewrite N, (pointed_nothing a B). cbn. rewrite app_nil_r. reflexivity.
        * intros k e K Ne Be. destruct (Nat.eq_dec k i) as [->|D]; [congruence|]. apply (P k e); [lia|exact Ne|exact Be].
  Qed.
  Definition blocked : Prop := exists i j a b, nth_error l i = Some a /\ nth_error l j = Some b /\ In j (pointed l a) /\ e_kind b = Thing false.
  Lemma survey_total : forall rest i m, l = firstn i l ++ rest -> i + length rest = length l -> agrees m (pointers i) ->
    (~ blocked -> exists m', survey l rest i m = Ok m') /\ (forall x, survey l rest i m = Err x -> x = AttributeError /\ blocked).
  Proof using Sol.
    induction rest as [|a rest IH]; intros i m L Len A; cbn [survey].
    - split; [eauto|discriminate].
    - assert (N : nth_error l i = Some a).
      { rewrite L, nth_error_app2; rewrite firstn_length_le by (simpl in Len; lia); [rewrite Nat.sub_diag; reflexivity|lia]. }
      assert (L2 : l = firstn (S i) l ++ rest).
      { rewrite L at 1. clear - N. revert l N. induction i as [|i IHi]; intros [|x r] N; try discriminate; simpl in *; [inversion N; reflexivity|].
        f_equal. apply IHi. exact N. }
      assert (Len2 : S i + length rest = length l) by (simpl in Len; lia).
      destruct (is_belt a) eqn:B.
      + assert (KA : e_kind a <> Thing false) by (intros K; unfold is_belt in B; rewrite K in B; discriminate).
        destruct (proj1 (enter_total m _ i a A N) KA) as [m1 E1]. rewrite E1. cbn [bind]. destruct (enter_ok m _ i m1 A E1) as [A1 _].
        destruct (note_all_total i (pointed l a) m1 _ (pointed_nodup a) A1 (pointed_valid a)) as [T1 T2].
        destruct (note_all l i m1 (pointed l a)) as [m2|x] eqn:E2; cbn [bind].
        * destruct (note_all_ok i _ m1 _ m2 (pointed_nodup a) A1 E2) as [A2 _]. apply (IH (S i) m2 L2 Len2).
          revert A2. apply agrees_ext. intros k. rewrite pointers_succ. unfold add_all, points_at. rewrite N.
          destruct (existsb (Nat.eqb k) (pointed l a)); [reflexivity|rewrite app_nil_r; reflexivity].
        * destruct (T2 x eq_refl) as [-> [j [e [I [Ne K]]]]]. assert (Bl : blocked) by (exists i, j, a, e; auto). split.
          -- intros X. contradiction.
          -- intros y Y. inversion Y. auto.
      + apply (IH (S i) m L2 Len2). revert A. apply agrees_ext. intros k. rewrite pointers_succ. unfold points_at. rewrite N, (pointed_nothing a B). cbn. rewrite app_nil_r. reflexivity.
  Qed.

  Lemma pointers_feeds : forall i a, nth_error l i = Some a -> is_belt a = true -> forall k, In k (pointers (length l) i) <-> feeds l k i.
  Proof using Sol.
    intros i a N B k. unfold pointers. rewrite filter_In, in_seq. split.
    - intros [_ P]. unfold points_at in P. destruct (nth_error l k) as [b|] eqn:K; [|discriminate]. apply existsb_nat in P.
      apply (pointed_feeds k i b a K N) in P. tauto.
    - intros F. destruct F as [b [a' [t [K F]]]]. assert (k < length l) by (apply nth_error_Some; congruence). split; [lia|].
      unfold points_at. rewrite K. apply existsb_nat. apply (pointed_feeds k i b a K N). split; [exists b, a', t; tauto|auto].
  Qed.
  Lemma pointers_nodup : forall n j, NoDup (pointers n j).
  Proof using. intros. apply NoDup_filter, seq_NoDup. Qed.

  Lemma turn_ok : forall m i a, agrees m (pointers (length l)) -> present m (length l) -> nth_error l i = Some a ->
    exists b, turn m i a = Ok b /\ turned l i a b /\ kept a b.
  Proof using Sol.
    intros m i a A P N. unfold turn, turned, kept. destruct (e_kind a) as [|o| |dd] eqn:K;
      try (eexists; split; [reflexivity|]; split; [reflexivity|]; cbn; auto; fail).
    assert (B : is_belt a = true) by (unfold is_belt; rewrite K; reflexivity).
    assert (Li : i < length l) by (apply nth_error_Some; congruence).
    unfold turn_belt. pose proof (P i a Li N B) as G. pose proof (A i) as Ai. destruct (dm_get m i) as [[d ps]|]; [|contradiction].
    destruct Ai as [_ Eps]. pose proof (pointers_feeds i a N B) as F. rewrite <- Eps in F. pose proof (pointers_nodup (length l) i) as ND. rewrite <- Eps in ND. clear Eps.
    destruct ps as [|j [|k r]]; cbn [length Nat.eqb].
    - eexists. split; [reflexivity|]. split; [|cbn; auto]. split; [|auto]. intros j f [X _]. apply F in X. destruct X.
    - assert (Fj : feeds l j i) by (apply F; left; reflexivity). pose proof Fj as [f [a' [t [Nj [_ [S' _]]]]]].
      assert (Bj : is_belt f = true). { unfold is_belt. unfold sends in S'. destruct (e_kind f) as [|[]| |]; auto. }
      assert (Lj : j < length l) by (apply nth_error_Some; congruence). pose proof (P j f Lj Nj Bj) as Gj. pose proof (A j) as Aj.
      destruct (dm_get m j) as [[dj q]|]; [|contradiction]. destruct Aj as [[f' [Nf D]] _]. rewrite Nj in Nf. inversion Nf; subst f'.
      apply direction_ok in D. destruct D as [-> _]. exists (set_dir (opposite (e_dir f)) a). split.
      + destruct (dir_eqb (e_dir a) (e_dir f)) eqn:E; [|reflexivity]. apply dir_eqb_eq in E. rewrite E. reflexivity.
      + split; [|cbn; auto]. split.
        * intros j' f' [O _] Nf'. apply F in O. destruct O as [<-|[]]. rewrite Nj in Nf'. inversion Nf'. reflexivity.
        * intros X. exfalso. apply (X j). split; [exact Fj|]. intros k X'. apply F in X'. destruct X' as [<-|[]]. reflexivity.
    - eexists. split; [reflexivity|]. split; [|cbn; auto]. split; [|auto]. intros j' f [_ O] _. exfalso.
      assert (X1 : j = j') by (apply O, F; left; reflexivity). assert (X2 : k = j') by (apply O, F; right; left; reflexivity).
      inversion ND as [|? ? ND1 _]; subst. apply ND1. left. reflexivity.
  Qed.
  Lemma turn_all_ok : forall m rest i, agrees m (pointers (length l)) -> present m (length l) ->
    (forall k a, nth_error rest k = Some a -> nth_error l (i + k) = Some a) ->
    exists r', turn_all m i rest = Ok r' /\ length r' = length rest /\
      forall k a, nth_error rest k = Some a -> exists b, nth_error r' k = Some b /\ turned l (i + k) a b /\ kept a b.
  Proof using Sol.
    intros m rest i A P. revert i. induction rest as [|a rest IH]; intros i H; cbn [turn_all].
    - exists []. split; [reflexivity|]. split; [reflexivity|]. intros [|k] a E; discriminate.
    - destruct (turn_ok m i a A P) as [b [E [T KK]]]; [specialize (H 0 a eq_refl); rewrite Nat.add_0_r in H; exact H|].
      destruct (IH (S i)) as [r' [E2 [L2 T2]]]; [intros k c N; specialize (H (S k) c N); rewrite Nat.add_succ_r in H; exact H|].
      exists (b :: r'). rewrite E. cbn [bind]. rewrite E2. split; [reflexivity|]. split; [simpl; lia|].
      intros [|k] c N; cbn [nth_error] in *.
      + inversion N; subst. exists b. rewrite Nat.add_0_r. auto.
      + destruct (T2 k c N) as [b' X]. exists b'. rewrite Nat.add_succ_r. exact X.
  Qed.
  Lemma pointers_zero : forall j, pointers 0 j = [].
  Proof using. reflexivity. Qed.
  Lemma start_agrees : agrees [] (pointers 0).
  Proof using. intros j. reflexivity. Qed.
  Theorem reverse_ok : ~ blocked -> exists l', reverse_belts l = Ok l' /\ length l' = length l /\
    forall i a, nth_error l i = Some a -> exists b, nth_error l' i = Some b /\ turned l i a b /\ kept a b.
  Proof using Sol.
    intros NB. destruct (proj1 (survey_total l 0 [] eq_refl eq_refl start_agrees) NB) as [m E].
    destruct (survey_ok l 0 [] m eq_refl eq_refl start_agrees (fun i e H => ltac:(lia)) E) as [A P].
    unfold reverse_belts. rewrite E. cbn [bind]. exact (turn_all_ok m l 0 A P (fun k a H => H)).
  Qed.
  Theorem reverse_err : forall x, reverse_belts l = Err x -> x = AttributeError /\ blocked.
  Proof using Sol.
    intros x E. unfold reverse_belts in E. destruct (survey_total l 0 [] eq_refl eq_refl start_agrees) as [_ T].
    destruct (survey l l 0 []) as [m|y] eqn:S1; cbn [bind] in E; [|inversion E; subst; auto].
    destruct (survey_ok l 0 [] m eq_refl eq_refl start_agrees (fun i e H => ltac:(lia)) S1) as [A P].
    destruct (turn_all_ok m l 0 A P (fun k a H => H)) as [r [X _]]. congruence.
  Qed.
  Lemma blocked_err : blocked -> reverse_belts l = Err AttributeError.
  Proof using Sol.
    intros B. destruct (reverse_belts l) as [l'|x] eqn:E; [|destruct (reverse_err x E) as [-> _]; reflexivity].
    exfalso. unfold reverse_belts in E. destruct (survey l l 0 []) as [m|y] eqn:S1; [|discriminate].
    destruct (survey_ok l 0 [] m eq_refl eq_refl start_agrees (fun i e H => ltac:(lia)) S1) as [A _].
    destruct B as [i [j [a [b [Na [Nb [I K]]]]]]]. specialize (A j).
    assert (X : In i (pointers (length l) j)).
    { unfold pointers. apply filter_In. split; [apply in_seq; assert (i < length l) by (apply nth_error_Some; congruence); lia|].
      unfold points_at. rewrite Na. apply existsb_nat. exact I. }
    destruct (dm_get m j) as [[d ps]|].
    - destruct A as [[e [Ne D]] _]. rewrite Nb in Ne. inversion Ne; subst. apply direction_ok in D. tauto.
    - rewrite A in X. destruct X.
  Qed.
End Layout.

Lemma blocked_iff : forall l, solid l -> (blocked l <-> dead_exit l).
Proof.
  intros l S. split; intros [i [j [a [b [A [B X]]]]]].
  - destruct X as [I K]. apply (pointed_feeds l S i j a b A B) in I. destruct I as [F D]. exists i, j, a, b.
    repeat split; auto. destruct D as [D|D]; [|exact D]. unfold is_belt in D. rewrite K in D. discriminate.
  - destruct X as [F [K1 K2]]. exists i, j, a, b. repeat split; auto. apply (pointed_feeds l S i j a b A B). auto.
Qed.
Lemma dead_dec : forall l, solid l -> (exists l', reverse_belts l = Ok l') \/ dead_exit l.
Proof.
  intros l S. destruct (reverse_belts l) as [l'|x] eqn:E; [eauto|]. right. apply blocked_iff; [exact S|]. exact (proj2 (reverse_err l S x E)).
Qed.
Theorem reverse_iff : forall l, solid l ->
  ((exists l', reverse_belts l = Ok l') <-> ~ dead_exit l) /\ (dead_exit l -> reverse_belts l = Err AttributeError).
Proof.
  intros l S. split; [split|].
  - intros [l' E] D. apply (blocked_iff l S) in D. rewrite (blocked_err l S D) in E. discriminate.
  - intros D. destruct (dead_dec l S); [assumption|contradiction].
  - intros D. apply blocked_err; [exact S|]. apply blocked_iff; assumption.
Qed.
Theorem reverse_result : forall l l', solid l -> reverse_belts l = Ok l' -> length l' = length l /\
  forall i a, nth_error l i = Some a -> exists b, nth_error l' i = Some b /\ turned l i a b /\ kept a b.
Proof.
  intros l l' S E. destruct (reverse_ok l S) as [l2 [E2 R]].
  - intros B. rewrite (blocked_err l S B) in E. discriminate.
  - rewrite E in E2. inversion E2; subst. exact R.
Qed.

Lemma feeds_at : forall l i j a b, nth_error l i = Some a -> nth_error l j = Some b ->
  (feeds l i j <-> sends a /\ exists t, In t (e_tiles a) /\ In (ahead (e_dir a) t) (e_tiles b)).
Proof.
  intros l i j a b A B. split.
  - intros [a' [b' [t [A' [B' [S' [I J]]]]]]]. rewrite A in A'. rewrite B in B'. inversion A'; inversion B'; subst. eauto.
  - intros [S' [t [I J]]]. exists a, b, t. auto.
Qed.
Lemma belt_feeds : forall l i j a b, solid l -> nth_error l i = Some a -> nth_error l j = Some b -> e_kind a = Belt ->
  (feeds l i j <-> In (ahead (e_dir a) (e_pos a)) (e_tiles b)).
Proof.
  intros l i j a b S A B K. rewrite (feeds_at l i j a b A B). pose proof (proj2 S a (nth_error_In _ _ A)) as W. rewrite K in W.
  unfold sends. rewrite K, W. split.
  - intros [_ [t [[<-|[]] I]]]. exact I.
  - intros I. split; [exact Logic.I|]. exists (e_pos a). simpl. auto.
Qed.
Lemma belt_feeds_one : forall l i j k a, solid l -> nth_error l i = Some a -> e_kind a = Belt -> feeds l i j -> feeds l i k -> j = k.
Proof.
  intros l i j k a S A K F G. pose proof F as [_ [b [_ [_ [B _]]]]]. pose proof G as [_ [c [_ [_ [C _]]]]].
  apply (belt_feeds l i j a b S A B K) in F. apply (belt_feeds l i k a c S A C K) in G. exact (proj1 S _ _ _ _ _ B C F G).
Qed.
(** A belt with a single feeder then points at it. *)
Theorem points_back : forall l l' i j a, solid l -> reverse_belts l = Ok l' -> nth_error l i = Some a -> e_kind a = Belt ->
  only_feeder l j i -> feeds l' i j.
Proof.
  intros l l' i j a S E A K O. destruct (reverse_result l l' S E) as [_ R]. destruct (R i a A) as [a' [A' [T KA]]].
  unfold turned in T. rewrite K in T. destruct T as [T _]. pose proof O as [F _]. destruct F as [f [a2 [t [Nf [A2 [Sf [I J]]]]]]].
  rewrite A in A2. inversion A2; subst a2. specialize (T j f O Nf). destruct (R j f Nf) as [f' [Nf' [_ [_ [Tf _]]]]].
  rewrite (feeds_at l' i j a' f' A' Nf'). rewrite T. unfold sends. cbn [set_dir e_kind e_dir e_tiles]. rewrite K. split; [exact Logic.I|].
  exists (ahead (e_dir f) t). split; [exact J|]. rewrite ahead_back, Tf. exact I.
Qed.
Lemma solid_kept : forall l l', solid l -> length l' = length l ->
  (forall i a, nth_error l i = Some a -> exists b, nth_error l' i = Some b /\ kept a b) -> solid l'.
Proof.
  intros l l' [S1 S2] L R.
  assert (X : forall i b, nth_error l' i = Some b -> exists a, nth_error l i = Some a /\ kept a b).
  { intros i b B. destruct (nth_error l i) as [a|] eqn:A.
    - destruct (R i a A) as [b' [B' K]]. rewrite B in B'. inversion B'; subst. eauto.
    - apply nth_error_None in A. assert (i < length l') by (apply nth_error_Some; congruence). lia. }
  split.
  - intros i j a b t A B I J. destruct (X i a A) as [a0 [A0 [_ [Ta _]]]]. destruct (X j b B) as [b0 [B0 [_ [Tb _]]]].
    rewrite Ta in I. rewrite Tb in J. exact (S1 _ _ _ _ _ A0 B0 I J).
  - intros e I. apply In_nth_error in I. destruct I as [i B]. destruct (X i e B) as [a [A [P [T K]]]].
    specialize (S2 a (nth_error_In _ _ A)). rewrite K, T, P. destruct (e_kind a); auto.
Qed.
(** A belt whose feeders all run its way just turns round. *)
Theorem straight : forall l l' i a, solid l -> reverse_belts l = Ok l' -> nth_error l i = Some a -> e_kind a = Belt ->
  (forall j b, feeds l j i -> nth_error l j = Some b -> e_dir b = e_dir a) -> nth_error l' i = Some (set_dir (opposite (e_dir a)) a).
Proof.
  intros l l' i a S E A K F.
  assert (D : reverse_belts l = Ok l' -> nth_error l' i = Some (set_dir (opposite (e_dir a)) a)); [|auto].
  intros _. destruct (reverse_result l l' S E) as [_ R]. destruct (R i a A) as [b [B [T [P [Q KK]]]]]. rewrite B. f_equal.
  unfold turned in T. rewrite K in T. destruct T as [T1 T2].
  assert (Dec : (exists j, only_feeder l j i) \/ (forall j, ~ only_feeder l j i)).
  { assert (BA : is_belt a = true) by (unfold is_belt; rewrite K; reflexivity).
    pose proof (pointers_feeds l S i a A BA) as PF. pose proof (pointers_nodup l (length l) i) as ND.
    destruct (pointers l (length l) i) as [|j [|k r]].
    - right. intros j [X _]. apply PF in X. destruct X.
    - left. exists j. split; [apply PF; left; reflexivity|]. intros k X. apply PF in X. destruct X as [<-|[]]. reflexivity.
    - right. intros x [_ O]. assert (j = x) by (apply O, PF; left; reflexivity). assert (k = x) by (apply O, PF; right; left; reflexivity).
      inversion ND as [|? ? N1 _]; subst. apply N1. left. reflexivity. }
  destruct Dec as [[j O]|N]; [|auto]. pose proof O as [Fj _]. pose proof Fj as [f [_ [_ [Nf _]]]]. rewrite (T1 j f O Nf), (F j f Fj Nf). reflexivity.
Qed.
Lemma feeder_dec : forall l i a, solid l -> nth_error l i = Some a -> e_kind a = Belt -> (exists j, feeds l j i) \/ (forall j, ~ feeds l j i).
Proof.
  intros l i a S A K. assert (BA : is_belt a = true) by (unfold is_belt; rewrite K; reflexivity).
  pose proof (pointers_feeds l S i a A BA) as PF. destruct (pointers l (length l) i) as [|j r].
  - right. intros j X. apply PF in X. destruct X.
  - left. exists j. apply PF. left. reflexivity.
Qed.

(** ** Threads *)
Lemma thread_step : forall l, solid l -> (forall e, In e l -> is_belt e = true -> e_kind e = Belt) ->
  (forall i a j k, nth_error l i = Some a -> e_kind a = Belt -> feeds l j i -> feeds l k i -> j = k) ->
  exists l', reverse_belts l = Ok l' /\ length l' = length l /\ solid l' /\
    (forall e, In e l' -> is_belt e = true -> e_kind e = Belt) /\
    forall i a, nth_error l i = Some a -> exists b, nth_error l' i = Some b /\ kept a b /\
      (e_kind a <> Belt -> b = a) /\
      (e_kind a = Belt -> (forall j f, feeds l j i -> nth_error l j = Some f -> b = set_dir (opposite (e_dir f)) a) /\
         ((forall j, ~ feeds l j i) -> b = set_dir (opposite (e_dir a)) a)).
Proof.
  intros l S B U. assert (ND : ~ dead_exit l).
  { intros [i [j [a [b [A [_ [_ [K _]]]]]]]]. specialize (B a (nth_error_In _ _ A)). unfold is_belt in B. rewrite K in B. specialize (B eq_refl). discriminate. }
  destruct (proj2 (proj1 (reverse_iff l S)) ND) as [l' E]. exists l'. destruct (reverse_result l l' S E) as [L R].
  assert (SK : forall i a, nth_error l i = Some a -> exists b, nth_error l' i = Some b /\ kept a b).
  { intros i a A. destruct (R i a A) as [b [X [_ Y]]]. eauto. }
  split; [exact E|]. split; [exact L|]. split; [exact (solid_kept l l' S L SK)|]. split.
  - intros e I BE. apply In_nth_error in I. destruct I as [i N]. destruct (nth_error l i) as [a|] eqn:A.
    + destruct (SK i a A) as [b [N' [_ [_ K]]]]. rewrite N in N'. inversion N'; subst b. rewrite K.
      specialize (B a (nth_error_In _ _ A)). unfold is_belt in B, BE. rewrite K in BE.
      destruct (e_kind a); try reflexivity; first [discriminate BE | specialize (B eq_refl); discriminate].
    + apply nth_error_None in A. assert (i < length l') by (apply nth_error_Some; congruence). lia.
  - intros i a A. destruct (R i a A) as [b [N [T K]]]. exists b. split; [exact N|]. split; [exact K|]. split.
    + intros KA. unfold turned in T. specialize (B a (nth_error_In _ _ A)). unfold is_belt in B.
      destruct (e_kind a); try contradiction; try (specialize (B eq_refl); discriminate). exact T.
    + intros KA. unfold turned in T. rewrite KA in T. destruct T as [T1 T2]. split.
      * intros j f F Nf. apply (T1 j f); [|exact Nf]. split; [exact F|]. intros k G. exact (U i a k j A KA G F).
      * intros N0. apply T2. intros j [F _]. exact (N0 j F).
Qed.
Theorem threads_twice : forall l, solid l -> threads l -> exists l1 l2, reverse_belts l = Ok l1 /\ reverse_belts l1 = Ok l2 /\
  length l2 = length l /\ forall i a, nth_error l i = Some a ->
    (e_kind a <> Belt -> nth_error l2 i = Some a) /\
    (forall k, belt_at l k -> feeds l i k -> nth_error l2 i = Some a) /\
    (e_kind a = Belt -> (forall k, belt_at l k -> ~ feeds l i k) ->
       (forall j f, feeds l j i -> nth_error l j = Some f -> nth_error l2 i = Some (set_dir (e_dir f) a)) /\
       ((forall j, ~ feeds l j i) -> nth_error l2 i = Some a)).
Proof.
  intros l S [B [U Bh]]. destruct (thread_step l S B U) as [l1 [E1 [L1 [S1 [B1 R1]]]]].
  assert (back : forall i b, nth_error l1 i = Some b -> exists a, nth_error l i = Some a).
  { intros i b N. destruct (nth_error l i) as [a|] eqn:A; [eauto|]. apply nth_error_None in A. assert (i < length l1) by (apply nth_error_Some; congruence). lia. }
  assert (send_belt : forall l0 i j, (forall e, In e l0 -> is_belt e = true -> e_kind e = Belt) -> feeds l0 i j -> exists a, nth_error l0 i = Some a /\ e_kind a = Belt).
  { intros l0 i j B0 [a [_ [_ [A [_ [Sa _]]]]]]. exists a. split; [exact A|]. apply B0; [exact (nth_error_In _ _ A)|].
    unfold is_belt. unfold sends in Sa. destruct (e_kind a) as [|[]| |]; auto. }
  (* what feeds what afterwards, between belts *)
  assert (FW : forall i j, belt_at l i -> belt_at l j -> (feeds l1 i j <-> feeds l j i)).
  { intros i j [a [A KA]] [b [Bb KB]]. destruct (R1 i a A) as [a1 [A1 [[Pa [Ta Ka]] [_ Xa]]]]. destruct (R1 j b Bb) as [b1 [N1 [[Pb [Tb Kb]] _]]].
    rewrite KA in Ka. rewrite (belt_feeds l1 i j a1 b1 S1 A1 N1 Ka), Tb, Pa.
    pose proof (proj2 S a (nth_error_In _ _ A)) as Wa. rewrite KA in Wa. pose proof (proj2 S b (nth_error_In _ _ Bb)) as Wb. rewrite KB in Wb.
    destruct (Xa KA) as [X1 X2]. destruct (feeder_dec l i a S A KA) as [[k F]|NF].
    - destruct (send_belt l k i B F) as [f [Nf Kf]]. pose proof (X1 k f F Nf) as Da. rewrite Da. cbn [set_dir e_dir].
      pose proof (proj1 (belt_feeds l k i f a S Nf A Kf) F) as Q. rewrite Wa in Q. destruct Q as [Q|[]]. rewrite Q, ahead_back.
      pose proof (proj2 S f (nth_error_In _ _ Nf)) as Wf. rewrite Kf in Wf. split.
      + intros I. assert (k = j). { apply (proj1 S k j f b (e_pos f)); auto. rewrite Wf. left. reflexivity. } subst k. exact F.
      + intros F'. assert (k = j) by exact (U i a k j A KA F F'). subst k. rewrite Nf in Bb. inversion Bb; subst. rewrite Wf. left. reflexivity.
    - rewrite (X2 NF). cbn [set_dir e_dir]. split.
      + intros I. exfalso. exact (Bh i a j b A KA NF Bb KB I).
      + intros F. destruct (NF j F). }
  assert (U1 : forall i a j k, nth_error l1 i = Some a -> e_kind a = Belt -> feeds l1 j i -> feeds l1 k i -> j = k).
  { intros i a1 j k A1 KA F G. destruct (back i a1 A1) as [a A]. destruct (R1 i a A) as [a' [A1' [[_ [_ Ka]] _]]]. rewrite A1 in A1'. inversion A1'; subst a'.
    assert (BI : belt_at l i). { exists a. split; [exact A|]. rewrite KA in Ka. destruct (e_kind a); try discriminate; reflexivity. }
    assert (conv : forall x, feeds l1 x i -> belt_at l x /\ feeds l i x).
    { intros x FX. destruct (send_belt l1 x i B1 FX) as [x1 [X1 KX]]. destruct (back x x1 X1) as [x0 X0]. destruct (R1 x x0 X0) as [x1' [X1' [[_ [_ Kx]] _]]].
      rewrite X1 in X1'. inversion X1'; subst x1'. assert (BX : belt_at l x). { exists x0. split; [exact X0|]. rewrite KX in Kx. destruct (e_kind x0); try discriminate; reflexivity. }
      split; [exact BX|]. apply (FW x i BX BI). exact FX. }
    destruct (conv j F) as [_ F']. destruct (conv k G) as [_ G']. destruct BI as [a0 [A0 K0]]. exact (belt_feeds_one l i j k a0 S A0 K0 F' G'). }
  destruct (thread_step l1 S1 B1 U1) as [l2 [E2 [L2 [S2 [B2 R2]]]]]. exists l1, l2. split; [exact E1|]. split; [exact E2|]. split; [congruence|].
  intros i a A. destruct (R1 i a A) as [a1 [A1 [[P1 [T1 K1]] [Z1 X1]]]]. destruct (R2 i a1 A1) as [a2 [A2 [[P2 [T2 K2]] [Z2 X2]]]].
  assert (same : forall d, e_kind a = Belt -> e_dir a2 = d -> e_kind a2 = Belt -> a2 = set_dir d a).
  { intros d KA D K. destruct a2 as [k2 d2 p2 t2], a1 as [k1 d1 p1 t1], a as [k0 d0 p0 t0]. cbn in *. subst. reflexivity. }
  assert (own : set_dir (e_dir a) a = a) by (destruct a; reflexivity).
  split; [|split].
  - intros NK. specialize (Z1 NK). subst a1. specialize (Z2 NK). subst a2. exact A2.
  - intros k BK F. destruct (send_belt l i k B F) as [a0 [A0 KA]]. rewrite A in A0. inversion A0; subst a0.
    assert (K1' : e_kind a1 = Belt) by (rewrite K1, KA; reflexivity). assert (K2' : e_kind a2 = Belt) by (rewrite K2, K1'; reflexivity).
    assert (BI : belt_at l i) by (exists a; auto). assert (F1 : feeds l1 k i) by (apply FW; assumption).
    destruct BK as [b [Nb KB]]. destruct (R1 k b Nb) as [b1 [Nb1 [_ [_ Xb]]]]. destruct (Xb KB) as [Y _]. specialize (Y i a F A).
    destruct (X2 K1') as [W _]. specialize (W k b1 F1 Nb1). rewrite A2. f_equal. rewrite (same (e_dir a) KA); [exact own| |exact K2'].
    rewrite W, Y. cbn [set_dir e_dir]. apply opposite_twice.
  - intros KA NF. assert (K1' : e_kind a1 = Belt) by (rewrite K1, KA; reflexivity). assert (K2' : e_kind a2 = Belt) by (rewrite K2, K1'; reflexivity).
    assert (BI : belt_at l i) by (exists a; auto).
    assert (NF1 : forall j, ~ feeds l1 j i).
    { intros j F. destruct (send_belt l1 j i B1 F) as [x1 [Q1 KX]]. destruct (back j x1 Q1) as [x0 Q0]. destruct (R1 j x0 Q0) as [x1' [Q1' [[_ [_ Kx]] _]]].
      rewrite Q1 in Q1'. inversion Q1'; subst x1'. assert (BX : belt_at l j). { exists x0. split; [exact Q0|]. rewrite KX in Kx. destruct (e_kind x0); try discriminate; reflexivity. }
      apply (NF j BX). apply (FW j i BX BI). exact F. }
    destruct (X2 K1') as [_ W]. specialize (W NF1). destruct (X1 KA) as [Y1 Y2]. split.
    + intros j f F Nf. rewrite A2. f_equal. apply same; [exact KA| |exact K2']. rewrite W, (Y1 j f F Nf). cbn [set_dir e_dir]. apply opposite_twice.
    + intros N0. rewrite A2. f_equal. rewrite (same (e_dir a) KA); [exact own| |exact K2']. rewrite W, (Y2 N0). cbn [set_dir e_dir]. apply opposite_twice.
Qed.
Theorem loops_twice : forall l, solid l -> threads l -> (forall i, belt_at l i -> exists k, belt_at l k /\ feeds l i k) ->
  exists l1, reverse_belts l = Ok l1 /\ reverse_belts l1 = Ok l.
Proof.
  intros l S T Lo. destruct (threads_twice l S T) as [l1 [l2 [E1 [E2 [L R]]]]]. exists l1. split; [exact E1|]. rewrite E2. f_equal.
  assert (X : forall i, nth_error l2 i = nth_error l i).
  { intros i. destruct (nth_error l i) as [a|] eqn:A.
    - destruct (R i a A) as [R1 [R2 _]]. destruct (e_kind a) eqn:K; try (apply R1; discriminate).
      destruct (Lo i) as [k [BK F]]; [exists a; auto|]. exact (R2 k BK F).
    - apply nth_error_None. apply nth_error_None in A. lia. }
  clear - X L. revert l2 X L. induction l as [|a l IH]; intros [|b l2] X L; try discriminate; [reflexivity|].
  pose proof (X 0) as X0. simpl in X0. inversion X0. f_equal. apply IH; [|simpl in L; lia]. intros i. exact (X (S i)).
Qed.

(** ** Straight lines *)
Fixpoint far (d : dir) (n : nat) (p : tile) : tile := match n with O => p | S k => far d k (ahead d p) end.
Lemma far_value : forall d n p, far d n p =
  match d with
  | North => (fst p, snd p - Z.of_nat n) | East => (fst p + Z.of_nat n, snd p)
  | South => (fst p, snd p + Z.of_nat n) | West => (fst p - Z.of_nat n, snd p)
  end%Z.
Proof.
  intros d. induction n as [|n IH]; intros [x y].
  - destruct d; cbn; f_equal; lia.
  - cbn [far]. rewrite IH. destruct d; unfold ahead; cbn [fst snd]; f_equal; lia.
Qed.
Lemma far_inj : forall d n m p, far d n p = far d m p -> n = m.
Proof. intros d n m p E. rewrite !far_value in E. destruct d; inversion E; lia. Qed.
Lemma line_nth : forall d n p i, nth_error (line d p n) i = if i <? n then Some (mkE Belt d (far d i p) [far d i p]) else None.
Proof.
  intros d. induction n as [|n IH]; intros p [|i]; cbn [line nth_error far]; try reflexivity. rewrite IH.
  change (S i <? S n) with (i <? n). reflexivity.
Qed.
Lemma line_solid : forall d p n, solid (line d p n).
Proof.
  intros d p n. split.
  - intros i j a b t A B I J. rewrite line_nth in A, B. destruct (i <? n); [|discriminate]. destruct (j <? n); [|discriminate].
    inversion A; inversion B; subst. cbn in *. destruct I as [<-|[]]. destruct J as [J|[]]. symmetry. apply (far_inj d j i p J).
  - intros e I. apply In_nth_error in I. destruct I as [i E]. rewrite line_nth in E. destruct (i <? n); inversion E. reflexivity.
Qed.
Lemma line_belt : forall d p n i e, nth_error (line d p n) i = Some e -> e_kind e = Belt /\ e_dir e = d.
Proof. intros d p n i e E. rewrite line_nth in E. destruct (i <? n); inversion E. auto. Qed.
Theorem line_reversed : forall d p n, reverse_belts (line d p n) = Ok (map (fun e => set_dir (opposite d) e) (line d p n)).
Proof.
  intros d p n. pose proof (line_solid d p n) as S. set (l := line d p n) in *.
  destruct (proj2 (proj1 (reverse_iff l S))) as [l' E].
  { intros [i [j [a [b [A [_ [_ [K _]]]]]]]]. destruct (line_belt d p n i a A) as [K' _]. congruence. }
  rewrite E. f_equal. destruct (reverse_result l l' S E) as [L _].
  assert (X : forall i, nth_error l' i = nth_error (map (fun e => set_dir (opposite d) e) l) i).
  { intros i. rewrite nth_error_map. destruct (nth_error l i) as [a|] eqn:A; cbn [option_map].
    - destruct (line_belt d p n i a A) as [K D]. rewrite (straight l l' i a S E A K), D; [reflexivity|].
      intros j b _ Nb. destruct (line_belt d p n j b Nb) as [_ D']. congruence.
    - apply nth_error_None. apply nth_error_None in A. lia. }
  clear - X L. assert (L2 : length l' = length (map (fun e => set_dir (opposite d) e) l)) by (rewrite map_length; exact L). clear L.
  revert l' X L2. generalize (map (fun e => set_dir (opposite d) e) l) as r. induction r as [|a r IH]; intros [|b l2] X L; try discriminate; [reflexivity|].
  pose proof (X 0) as X0. simpl in X0. inversion X0. f_equal. apply IH; [|simpl in L; lia]. intros i. exact (X (1 + i)).
Qed.

(** ** Deciding the examples *)
Definition belt (d : dir) (x y : Z) : entity := mkE Belt d (x, y) [(x, y)].
Lemma belts_solid : forall l, Forall (fun e => e_kind e = Belt /\ e_tiles e = [e_pos e]) l -> NoDup (map e_pos l) -> solid l.
Proof.
  intros l F N. rewrite Forall_forall in F. split.
  - intros i j a b t A B I J. destruct (F a (nth_error_In _ _ A)) as [_ Ta]. destruct (F b (nth_error_In _ _ B)) as [_ Tb].
    rewrite Ta in I. rewrite Tb in J. destruct I as [<-|[]]. destruct J as [J|[]].
    apply (proj1 (NoDup_nth_error (map e_pos l)) N); [rewrite map_length; apply nth_error_Some; congruence|].
    rewrite !nth_error_map, A, B. simpl. congruence.
  - intros e I. destruct (F e I) as [K T]. rewrite K. exact T.
Qed.
Lemma belts_no_double : forall l, solid l -> Forall (fun e => e_kind e = Belt /\ e_tiles e = [e_pos e]) l ->
  NoDup (map (fun e => ahead (e_dir e) (e_pos e)) l) -> no_double l.
Proof.
  intros l S F N. rewrite Forall_forall in F. split.
  - intros e I _. exact (proj1 (F e I)).
  - intros i a j k A K X Y. pose proof X as [f [_ [_ [Nf _]]]]. pose proof Y as [g [_ [_ [Ng _]]]].
    apply (belt_feeds l j i f a S Nf A (proj1 (F f (nth_error_In _ _ Nf)))) in X.
    apply (belt_feeds l k i g a S Ng A (proj1 (F g (nth_error_In _ _ Ng)))) in Y.
    rewrite (proj2 (F a (nth_error_In _ _ A))) in X, Y. destruct X as [X|[]]. destruct Y as [Y|[]].
    apply (proj1 (NoDup_nth_error (map (fun e => ahead (e_dir e) (e_pos e)) l)) N); [rewrite map_length; apply nth_error_Some; congruence|].
    rewrite !nth_error_map, Nf, Ng. cbn [option_map]. congruence.
Qed.
Lemma belts_threads : forall l, no_double l -> (forall e, In e l -> e_tiles e = [e_pos e]) ->
  (forall e b, In e l -> In b l -> ahead (opposite (e_dir e)) (e_pos e) = e_pos b -> exists f, In f l /\ sends f /\ ahead (e_dir f) (e_pos f) = e_pos e) -> threads l.
Proof.
  intros l [D1 D2] T B. split; [exact D1|]. split; [exact D2|]. intros i a k b A KA N Nb KB I.
  rewrite (T b (nth_error_In _ _ Nb)) in I. destruct I as [I|[]].
  destruct (B a b (nth_error_In _ _ A) (nth_error_In _ _ Nb) (eq_sym I)) as [f [If [Sf E]]]. apply In_nth_error in If. destruct If as [j Nf].
  apply (N j). exists f, a, (e_pos f). rewrite (T f (nth_error_In _ _ Nf)), (T a (nth_error_In _ _ A)), E. simpl. auto 10.
Qed.
(** Turning back past its own start. *)
Definition hook : list entity :=
  [belt North 0 0; belt East 0 (-1); belt South 1 (-1); belt South 1 0; belt West 1 1; belt South 0 1; belt South 0 2].
Theorem hook_refuted : exists l l1 l2 a b, solid l /\ no_double l /\ reverse_belts l = Ok l1 /\ reverse_belts l1 = Ok l2 /\
  nth_error l 5 = Some a /\ nth_error l2 5 = Some b /\ feeds l 4 5 /\ feeds l 5 6 /\ e_dir a <> e_dir b.
Proof.
  assert (S : solid hook).
  { apply belts_solid; [repeat constructor|]. cbn. repeat constructor; cbn; intuition congruence. }
  exists hook. do 2 eexists. exists (belt South 0 1), (belt West 0 1). split; [exact S|]. split.
  { apply belts_no_double; [exact S|repeat constructor|]. cbn. repeat constructor; cbn; intuition congruence. }
  split; [reflexivity|]. split; [reflexivity|]. split; [reflexivity|]. split; [reflexivity|].
  split; [|split; [|discriminate]].
  - exists (belt West 1 1), (belt South 0 1), (1, 1)%Z. repeat split; cbn; auto.
  - exists (belt South 0 1), (belt South 0 2), (0, 1)%Z. repeat split; cbn; auto.
Qed.
