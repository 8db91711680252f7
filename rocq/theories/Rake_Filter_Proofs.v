(** Proofs about searching trains. *)
From Coq Require Import String ZArith List Bool Lia Reals Lra Relations.
From Verif Require Import Common Dict Compass_Model Compass_Spec Compass_Proofs Schedule_Model Schedule_Spec Schedule_More_Proofs
  Train_Model Train_Spec Train_Place_Proofs Rake_Model Rake_Spec Rake_Proofs Rake_Order_Proofs Rake_Place_Proofs Rake_Filter_Spec.
Import ListNotations.
Local Open Scope string_scope.
Local Open Scope list_scope.
Local Open Scope Z_scope.

Lemma times_unique : forall f x t n m, times_in f x t n -> times_in f x t m -> n = m.
Proof.
  intros f x. induction t as [|c t IH]; intros n m A B; cbn [times_in] in *; [lia|].
  destruct A as [[A1 A2]|[A1 A2]], B as [[B1 B2]|[B1 B2]]; try contradiction; specialize (IH _ _ A2 B2); lia.
Qed.
Lemma times_count : forall f x t, times_in f x t (count f t x).
Proof.
  intros f x. unfold count. induction t as [|c t IH]; cbn [times_in filter]; [reflexivity|].
  destruct (pystr_eqb (f c) x) eqn:E.
  - apply pystr_eqb_eq in E. left. split; [exact E|]. cbn [List.length]. replace (Z.of_nat (S (List.length (filter (fun c0 => pystr_eqb (f c0) x) t))) - 1) with (Z.of_nat (List.length (filter (fun c0 => pystr_eqb (f c0) x) t))) by lia. exact IH.
  - right. split; [|exact IH]. intros C. apply pystr_eqb_eq in C. congruence.
Qed.
Lemma times_nonneg : forall f x t, 0 <= count f t x.
Proof. intros. unfold count. lia. Qed.
Lemma in_range_iff : forall r n, 0 <= n -> (in_range r n = true <-> within r n).
Proof.
  intros r n P. unfold in_range, within. destruct r as [k|lo hi]; cbn [normalize_range].
  - rewrite andb_true_iff, !Z.leb_le. lia.
  - rewrite andb_true_iff, Z.leb_le. split.
    + intros [A B]. split.
      * intros l ->. exact A.
      * intros h ->. apply Z.leb_le. exact B.
    + intros [A B]. split.
      * destruct lo as [l|]; [apply A; reflexivity|lia].
      * destruct hi as [h|]; [apply Z.leb_le, B; reflexivity|reflexivity].
Qed.
Lemma counts_iff : forall f t qs, counts_ok f t qs = true <-> forall x r, In (x, r) qs -> exists n, times_in f x t n /\ within r n.
Proof.
  intros f t qs. unfold counts_ok. rewrite forallb_forall. split.
  - intros H x r I. exists (count f t x). split; [apply times_count|]. apply in_range_iff; [apply times_nonneg|]. apply (H (x, r) I).
  - intros H [x r] I. cbn [fst snd]. destruct (H x r I) as [n [T W]]. rewrite <- (times_unique _ _ _ _ _ T (times_count f x t)).
    apply in_range_iff; [|exact W]. rewrite (times_unique _ _ _ _ _ T (times_count f x t)). apply times_nonneg.
Qed.
Lemma selects_filter : forall A (P : A -> Prop) (f : A -> bool) l, (forall x, In x l -> (f x = true <-> P x)) -> selects P l (filter f l).
Proof.
  intros A P f. induction l as [|x l IH]; intros H; cbn [filter]; [constructor|].
  assert (IH' : selects P l (filter f l)) by (apply IH; intros y Y; apply H; right; exact Y).
  destruct (f x) eqn:E.
  - apply sel_keep; [apply H; [left; reflexivity|exact E]|exact IH'].
  - apply sel_drop; [|exact IH']. intros C. apply (H x (or_introl eq_refl)) in C. congruence.
Qed.
Lemma cut_spec : forall A (l : list A) m, truncated (Some m) l (cut l m).
Proof.
  intros A l m. unfold truncated, cut. set (k := Z.to_nat (if m <? 0 then Z.max 0 (Z.of_nat (List.length l) + m) else m)).
  exists (skipn k l). split; [symmetry; apply firstn_skipn|]. rewrite firstn_length, skipn_length. unfold k. split; intros C.
  - destruct (Z.ltb_spec m 0); lia.
  - destruct (Z.ltb_spec m 0); lia.
Qed.
Lemma cut_all : forall A (l : list A) n, (List.length l <= n)%nat -> cut l (Z.of_nat n) = l.
Proof. intros A l n L. unfold cut. destruct (Z.ltb_spec (Z.of_nat n) 0); [lia|]. rewrite Nat2Z.id. apply firstn_all2. exact L. Qed.

Section Filter.
  Variable K : Z.
  Hypothesis HK : 0 < K.
  Variable at_ : nat -> entity.
  Variables kind name : nat -> pystr.
  Variable stops : list stop_ent.
  Variable schedules : list schedule.

  (** ** at a station *)
  Lemma looks_spec : forall c, (14 * K <= angle K at_ c -> looks_for_stop K (at_ c) = Err ValueError) /\
    (~ 14 * K <= angle K at_ c -> exists d p, looks_for_stop K (at_ c) = Ok (p, d) /\ faces_side K at_ c d /\
       p = (fst (place at_ c) + 3 * fst (heading K (d * K)) + 2 * fst (heading K ((d + 4) * K)),
            snd (place at_ c) + 3 * snd (heading K (d * K)) + 2 * snd (heading K ((d + 4) * K)))%R).
  Proof.
    intros c. destruct (to_direction_fails K HK false (car_orient (e_car (at_ c)))) as [F G].
    change (value K (car_orient (e_car (at_ c)))) with (angle K at_ c) in F, G.
    unfold looks_for_stop. split.
    - intros H. rewrite (proj2 F) by lia. reflexivity.
    - intros H. destruct (proj2 G) as [d D]; [lia|]. rewrite D. cbn [bind].
      pose proof (proj1 (to_direction_spec K HK false (car_orient (e_car (at_ c))) d) D) as [DR [q [E N]]].
      assert (C : d = 0 \/ d = 4 \/ d = 8 \/ d = 12) by (unfold is_direction in DR; lia).
      assert (FS : faces_side K at_ c d) by (split; [exact DR|exists q; split; [exact E|exact N]]).
      assert (V : exists v u, next true d = Ok ((d + 4) mod 16) /\ unit_vector d = Ok v /\ unit_vector ((d + 4) mod 16) = Ok u /\
                  heading K (d * K) = v /\ heading K ((d + 4) * K) = u).
      { assert (CP : forall x, x = 0 \/ x = 4 \/ x = 8 \/ x = 12 -> compass_point x).
        { intros x X. split; [unfold is_direction; lia|]. destruct X as [->|[->|[->| ->]]]; [exists 0|exists 2|exists 4|exists 6]; reflexivity. }
        assert (M : (d + 4) mod 16 = 0 \/ (d + 4) mod 16 = 4 \/ (d + 4) mod 16 = 8 \/ (d + 4) mod 16 = 12) by (destruct C as [->|[->|[->| ->]]]; cbn; auto).
        destruct (compass_values K d (CP d C)) as [_ [v [V _]]]. destruct (compass_values K _ (CP _ M)) as [_ [u [U _]]].
        exists v, u. split; [destruct C as [->|[->|[->| ->]]]; reflexivity|]. split; [exact V|]. split; [exact U|].
        split; [apply (compass_heading K HK d v (CP d C) V)|]. rewrite <- (compass_heading K HK _ u (CP _ M) U).
        destruct C as [->|[->|[->| ->]]]; [reflexivity..|].
        change ((12 + 4) mod 16) with 0. unfold heading.
        replace (2 * PI * (IZR (0 * K) / IZR (16 * K)))%R with 0%R by (rewrite Z.mul_0_l; unfold Rdiv; ring).
        replace (2 * PI * (IZR ((12 + 4) * K) / IZR (16 * K)))%R with (2 * PI)%R.
        - rewrite sin_2PI, cos_2PI, sin_0, cos_0. reflexivity.
        - change ((12 + 4) * K) with (16 * K). field. apply not_0_IZR. lia. }
      destruct V as [v [u [NX [V [U [HV HU]]]]]]. rewrite NX. cbn [bind]. unfold to_vector. rewrite V, U. cbn [bind].
      exists d. eexists. split; [reflexivity|]. split; [exact FS|]. rewrite HV, HU. unfold shift, place. cbn [fst snd]. f_equal; ring.
  Qed.
  Lemma faces_unique : forall c d e, faces_side K at_ c d -> faces_side K at_ c e -> d = e.
  Proof.
    intros c d e D E. assert (A := proj2 (to_direction_spec K HK false (car_orient (e_car (at_ c))) d) D).
    assert (B := proj2 (to_direction_spec K HK false (car_orient (e_car (at_ c))) e) E). congruence.
  Qed.
  Lemma req_iff : forall a b, req a b = true <-> a = b.
  Proof. intros a b. unfold req. destruct (Req_EM_T a b); split; auto; discriminate || contradiction. Qed.
  Lemma find_stop_spec : forall ts p d,
    match find_stop ts p d with
    | Some x => exists k st, first_pos (fun s => t_pos s = p /\ t_dir s = d) ts k /\ nth_error ts k = Some st /\ t_station st = x
    | None => forall s, In s ts -> ~ (t_pos s = p /\ t_dir s = d)
    end.
  Proof.
    intros ts p d. induction ts as [|t ts IH]; cbn [find_stop]; [intros s []|].
    assert (E : req (fst (t_pos t)) (fst p) && req (snd (t_pos t)) (snd p) && (t_dir t =? d) = true <-> t_pos t = p /\ t_dir t = d).
    { rewrite !andb_true_iff, !req_iff, Z.eqb_eq. destruct (t_pos t), p. cbn [fst snd]. split; [intros [[-> ->] ->]; auto|intros [X ->]; injection X as -> ->; auto]. }
    destruct (req _ _ && req _ _ && _).
    - exists 0%nat, t. split; [exists [], t, ts; split; [reflexivity|]; split; [reflexivity|]; split; [apply E; reflexivity|intros y []]|]. auto.
    - assert (NE : ~ (t_pos t = p /\ t_dir t = d)) by (intros C; apply E in C; discriminate).
      destruct (find_stop ts p d).
      + destruct IH as [k [st [[pre [x [post [-> [L [P N]]]]]] [Q T]]]]. exists (S k), st. split; [|auto].
        exists (t :: pre), x, post. split; [reflexivity|]. split; [cbn; lia|]. split; [exact P|]. intros y [<-|Y]; [exact NE|apply N; exact Y].
      + intros s [<-|I]; [exact NE|apply IH; exact I].
  Qed.
  Lemma first_ext : forall A (P Q : A -> Prop) l k, (forall x, P x <-> Q x) -> first_pos P l k -> first_pos Q l k.
  Proof.
    intros A P Q l k E [pre [x [post [L [N [X Y]]]]]]. exists pre, x, post. split; [exact L|]. split; [exact N|]. split; [apply E; exact X|].
    intros y I C. apply (Y y I). apply E. exact C.
  Qed.
  Lemma first_fun : forall A (P : A -> Prop) l j k, first_pos P l j -> first_pos P l k -> j = k.
  Proof.
    intros A P l j k [p [x [q [E [L [X N]]]]]] [p' [x' [q' [E' [L' [X' N']]]]]]. subst l j k.
    revert p' E' N'. induction p as [|a p IH]; intros [|b p'] E' N'; cbn [app List.length] in *; try reflexivity.
    - injection E' as -> _. exfalso. apply (N' b); [left; reflexivity|exact X].
    - injection E' as -> _. exfalso. apply (N x'); [left; reflexivity|exact X'].
    - injection E' as -> E'. f_equal. apply IH; [intros y Y; apply N; right; exact Y|exact E'|intros y Y; apply N'; right; exact Y].
  Qed.
  Lemma stands_iff : forall c d p st, faces_side K at_ c d ->
    p = (fst (place at_ c) + 3 * fst (heading K (d * K)) + 2 * fst (heading K ((d + 4) * K)),
         snd (place at_ c) + 3 * snd (heading K (d * K)) + 2 * snd (heading K ((d + 4) * K)))%R ->
    (t_pos st = p /\ t_dir st = d <-> stands_at K at_ c st).
  Proof.
    intros c d p st F P. split.
    - intros [A B]. exists d. split; [exact F|]. split; [exact B|]. rewrite A. exact P.
    - intros [e [E [A B]]]. assert (H : e = d) by (eapply faces_unique; eassumption). rewrite H in *. split; [rewrite B; symmetry; exact P|exact A].
  Qed.
  Definition here (q : query) (t : list nat) : result bool :=
    match q_station q with
    | NoStation | Stations [] => Ok true
    | AnyStation => let* s := train_at_station K at_ stops t in Ok (match s with Some _ => true | None => false end)
    | Stations names =>
        let* s := train_at_station K at_ stops t in
        Ok (match s with Some (Some x) => existsb (pystr_eqb x) names | _ => false end)
    end.
  Lemma here_ok : forall q t, t <> [] ->
    match here q t with
    | Ok b => ~ (asks_station q /\ forall head rest, t = head :: rest -> 14 * K <= angle K at_ head) /\ (b = true <-> stationed K at_ stops q t)
    | Err e => e = ValueError /\ asks_station q /\ forall head rest, t = head :: rest -> 14 * K <= angle K at_ head
    end.
  Proof.
    intros q t NE. destruct t as [|head rest]; [contradiction|]. clear NE. unfold here.
    destruct (looks_spec head) as [LB LG].
    assert (AT : (14 * K <= angle K at_ head /\ train_at_station K at_ stops (head :: rest) = Err ValueError) \/
                 (~ 14 * K <= angle K at_ head /\ exists r, train_at_station K at_ stops (head :: rest) = Ok r /\
                    match r with
                    | Some x => exists k st, first_pos (stands_at K at_ head) stops k /\ nth_error stops k = Some st /\ t_station st = x
                    | None => forall s, In s stops -> ~ stands_at K at_ head s
                    end)).
    { unfold train_at_station. destruct (Z_le_dec (14 * K) (angle K at_ head)) as [L|L].
      - left. split; [exact L|]. rewrite (LB L). reflexivity.
      - right. split; [exact L|]. destruct (LG L) as [d [p [E [F P]]]]. rewrite E. cbn [bind fst snd]. eexists. split; [reflexivity|].
        pose proof (find_stop_spec stops p d) as FS. destruct (find_stop stops p d) as [x|].
        + destruct FS as [k [st [A [B C]]]]. exists k, st. split; [|auto]. revert A. apply first_ext. intros s. apply stands_iff; assumption.
        + intros s I C. apply (FS s I). apply (stands_iff head d p s F P). exact C. }
    clear LB LG.
    assert (NOBODY : (forall s, In s stops -> ~ stands_at K at_ head s) -> asks_station q -> ~ stationed K at_ stops q (head :: rest)).
    { intros H A S. destruct (S A) as [h [r [k [st [E [F [N _]]]]]]]. injection E as <- <-.
      destruct F as [pre [x [post [Q [_ [X _]]]]]]. apply (H x); [rewrite Q; apply in_or_app; right; left; reflexivity|exact X]. }
    destruct (q_station q) as [| |names] eqn:Q.
    - unfold asks_station, stationed. unfold asks_station. rewrite Q. split; [tauto|]. split; [intros _ []|reflexivity].
    - assert (AS : asks_station q) by (unfold asks_station; rewrite Q; exact Logic.I).
      destruct AT as [[L ->]|[L [r [-> R]]]]; cbn [bind].
      + split; [reflexivity|]. split; [exact AS|]. intros h r E. injection E as <- <-. exact L.
      + split; [intros [_ C]; apply L; apply (C head rest); reflexivity|]. destruct r as [x|].
        * split; [intros _ _|reflexivity]. destruct R as [k [st [A [B C]]]]. exists head, rest, k, st. split; [reflexivity|]. split; [exact A|]. split; [exact B|].
          intros names E. congruence.
        * split; [discriminate|]. intros S. exfalso. apply (NOBODY R AS S).
    - destruct names as [|n0 names].
      + unfold asks_station, stationed. unfold asks_station. rewrite Q. split; [tauto|]. split; [intros _ C; contradiction|reflexivity].
      + set (ns := n0 :: names) in *.
        assert (AS : asks_station q) by (unfold asks_station; rewrite Q; discriminate).
        destruct AT as [[L ->]|[L [r [-> R]]]]; cbn [bind].
        * split; [reflexivity|]. split; [exact AS|]. intros h r E. injection E as <- <-. exact L.
        * split; [intros [_ C]; apply L; apply (C head rest); reflexivity|]. destruct r as [x|].
          -- destruct R as [k [st [A [B C]]]]. split.
             ++ intros T _. exists head, rest, k, st. split; [reflexivity|]. split; [exact A|]. split; [exact B|].
                intros names' E. rewrite Q in E. injection E as <-. destruct x as [x|]; [|discriminate]. exists x. split; [exact C|].
                apply existsb_exists in T. destruct T as [y [I T]]. apply pystr_eqb_eq in T. subst y. exact I.
             ++ intros S. destruct (S AS) as [h [r [k' [st' [E [F [N M]]]]]]]. injection E as <- <-.
                assert (k' = k) by (eapply first_fun; eassumption). subst k'. assert (st' = st) by congruence. subst st'.
                destruct (M ns Q) as [y [Y I]]. assert (X : x = Some y) by congruence. rewrite X. apply existsb_exists. exists y. split; [exact I|]. apply pystr_eqb_refl.
          -- split; [discriminate|]. intros S. exfalso. apply (NOBODY R AS S).
  Qed.

  (** ** the other conditions *)
  Lemma names_iff : forall t cfg, names_match name t cfg = true <-> map name t = cfg.
  Proof.
    induction t as [|c t IH]; intros [|x cfg]; cbn [names_match map]; split; try discriminate; try reflexivity.
    - intros E. apply andb_true_iff in E. destruct E as [A B]. apply pystr_eqb_eq in A. apply IH in B. congruence.
    - intros E. injection E as -> <-. rewrite pystr_eqb_refl. apply IH. reflexivity.
  Qed.
  Lemma last_loco_spec : forall t, match last_loco kind t with
    | Some l => last_engine kind t l
    | None => forall c, In c t -> kind c <> str "locomotive" end.
  Proof.
    intros t.
    assert (G : forall r, match fold_right (fun c x => if pystr_eqb (kind c) (str "locomotive") then Some c else x) None r with
      | Some l => last_engine kind (rev r) l
      | None => forall c, In c (rev r) -> kind c <> str "locomotive" end).
    { induction r as [|c r IH]; cbn [fold_right rev]; [intros c []|].
      destruct (pystr_eqb (kind c) (str "locomotive")) eqn:E.
      - apply pystr_eqb_eq in E. exists (rev r), []. split; [reflexivity|]. split; [exact E|]. intros y [].
      - assert (NE : kind c <> str "locomotive") by (intros C; apply pystr_eqb_eq in C; congruence).
        destruct (fold_right _ None r) as [l|].
        + destruct IH as [pre [post [Q [KL N]]]]. exists pre, (post ++ [c]). split; [rewrite Q, <- app_assoc; reflexivity|]. split; [exact KL|].
          intros y Y. apply in_app_or in Y. destruct Y as [Y|[<-|[]]]; [apply N; exact Y|exact NE].
        + intros y Y. apply in_app_or in Y. destruct Y as [Y|[<-|[]]]; [apply IH; exact Y|exact NE]. }
    specialize (G (rev t)). rewrite rev_involutive in G. unfold last_loco. rewrite <- fold_left_rev_right. exact G.
  Qed.
  Lemma last_unique : forall t a b, last_engine kind t a -> last_engine kind t b -> a = b.
  Proof.
    intros t a b [p [q [E [KA NA]]]] [p' [q' [E' [KB NB]]]]. subst t.
    revert p' E'. induction p as [|x p IH]; intros [|y p'] E'; cbn [app] in E'.
    - injection E' as -> _. reflexivity.
    - injection E' as -> E'. exfalso. apply (NA b); [rewrite E'; apply in_or_app; right; left; reflexivity|exact KB].
    - injection E' as -> E'. exfalso. apply (NB a); [rewrite <- E'; apply in_or_app; right; left; reflexivity|exact KA].
    - injection E' as _ E'. apply (IH p' E').
  Qed.

  Theorem test_spec : forall q t, t <> [] ->
    match test K at_ kind name stops schedules q t with
    | Ok b => (b = true <-> matching K at_ kind name stops schedules q t) /\
              ~ faceless K at_ q t /\ ~ driverless K at_ kind name stops schedules q t
    | Err e => (e = ValueError /\ faceless K at_ q t) \/ (e = UnboundLocalError /\ driverless K at_ kind name stops schedules q t)
    end.
  Proof.
    intros q t NE. unfold test.
    assert (LE : match q_length q with Some r => in_range r (Z.of_nat (List.length t)) | None => true end = true <-> long_enough q t).
    { unfold long_enough. destruct (q_length q) as [r|].
      - rewrite in_range_iff by lia. split; [intros H r' E; injection E as <-; exact H|intros H; apply H; reflexivity].
      - split; [intros _ r E; discriminate|reflexivity]. }
    destruct (match q_length q with Some r => in_range r (Z.of_nat (List.length t)) | None => true end) eqn:E1; cbn [negb].
    2: { split; [split; [discriminate|]|split]; intros [C _]; apply LE in C; discriminate. }
    assert (L := proj1 LE eq_refl). clear LE.
    fold (here q t). pose proof (here_ok q t NE) as H. destruct (here q t) as [b|e]; cbn [bind].
    2: { left. destruct H as [-> [A B]]. split; [reflexivity|]. split; [exact L|]. auto. }
    destruct H as [NF S]. destruct b; cbn [negb].
    2: { split; [split; [discriminate|]|split]; [intros [_ [C _]]; apply S in C; discriminate|intros [_ C]; apply NF; exact C|intros [_ [C _]]; apply S in C; discriminate]. }
    assert (ST := proj1 S eq_refl). clear S.
    assert (NFL : ~ faceless K at_ q t) by (intros [_ C]; apply NF; exact C).
    destruct (counts_ok kind t (q_types q)) eqn:E2; cbn [negb].
    2: { assert (C0 : ~ composed kind name q t) by (intros [C _]; apply counts_iff in C; congruence).
         split; [split; [discriminate|]|split; [exact NFL|]]; [intros [_ [_ [C _]]]|intros [_ [_ [C _]]]]; contradiction. }
    destruct (counts_ok name t (q_names q)) eqn:E3; cbn [negb].
    2: { assert (C0 : ~ composed kind name q t) by (intros [_ C]; apply counts_iff in C; congruence).
         split; [split; [discriminate|]|split; [exact NFL|]]; [intros [_ [_ [C _]]]|intros [_ [_ [C _]]]]; contradiction. }
    assert (CO : composed kind name q t) by (split; apply counts_iff; assumption).
    assert (OE : match q_orientation q with Some o => forallb (fun c => raw (ori at_ c) =? raw o) t | None => true end = true <-> oriented at_ q t).
    { unfold oriented. destruct (q_orientation q) as [o|].
      - rewrite forallb_forall. split.
        + intros H o' c E I. injection E as <-. apply Z.eqb_eq. apply (H c I).
        + intros H c I. apply Z.eqb_eq. apply (H o c eq_refl I).
      - split; [intros _ o c E; discriminate|reflexivity]. }
    destruct (match q_orientation q with Some o => forallb (fun c => raw (ori at_ c) =? raw o) t | None => true end) eqn:E4; cbn [negb].
    2: { assert (C0 : ~ oriented at_ q t) by (intros C; apply OE in C; discriminate).
         split; [split; [discriminate|]|split; [exact NFL|]]; [intros [_ [_ [_ [C _]]]]|intros [_ [_ [_ [C _]]]]]; contradiction. }
    assert (OR := proj1 OE eq_refl). clear OE.
    assert (CE : match q_config q with Some cfg => names_match name t cfg | None => true end = true <-> configured name q t).
    { unfold configured. destruct (q_config q) as [cfg|].
      - rewrite names_iff. split; [intros H c E; injection E as <-; exact H|intros H; apply H; reflexivity].
      - split; [intros _ c E; discriminate|reflexivity]. }
    destruct (match q_config q with Some cfg => names_match name t cfg | None => true end) eqn:E5; cbn [negb].
    2: { assert (C0 : ~ configured name q t) by (intros C; apply CE in C; discriminate).
         split; [split; [discriminate|]|split; [exact NFL|]]; [intros [_ [_ [_ [_ [C _]]]]]|intros [_ [_ [_ [_ [C _]]]]]]; contradiction. }
    assert (CF := proj1 CE eq_refl). clear CE.
    destruct (q_schedule q) as [ss|] eqn:QS.
    2: { split; [split; [intros _|reflexivity]|split; [exact NFL|]].
         - unfold matching, scheduled. rewrite QS. repeat (split; [assumption|]). intros ss E. discriminate.
         - intros [_ [_ [_ [_ [_ [C _]]]]]]. congruence. }
    pose proof (last_loco_spec t) as LL. destruct schedules as [|s0 srest] eqn:SE.
    { split; [split; [discriminate|]|split; [exact NFL|]].
      - intros [_ [_ [_ [_ [_ C]]]]]. destruct (C ss QS) as [l [s [_ [[] _]]]].
      - intros [_ [_ [_ [_ [_ [_ [C _]]]]]]]. contradiction. }
    rewrite <- SE in *. destruct (last_loco kind t) as [l|].
    - split; [|split; [exact NFL|]].
      + rewrite existsb_exists. split.
        * intros [s [I E]]. apply andb_true_iff in E. destruct E as [A B]. apply existsb_loco in A. apply stops_eqb_eq in B.
          unfold matching. repeat (split; [assumption|]). intros ss' E. rewrite QS in E. injection E as <-. exists l, s. auto.
        * intros [_ [_ [_ [_ [_ C]]]]]. destruct (C ss QS) as [l' [s [LE [I [T E]]]]]. assert (l' = l) by (eapply last_unique; eassumption). subst l'.
          exists s. split; [exact I|]. apply andb_true_iff. split; [apply existsb_loco; exact T|apply stops_eqb_eq; exact E].
      + intros [_ [_ [_ [_ [_ [_ [_ C]]]]]]]. destruct LL as [pre [post [E [KL _]]]]. apply (C l); [rewrite E; apply in_or_app; right; left; reflexivity|exact KL].
    - right. split; [reflexivity|]. unfold driverless. repeat (split; [assumption|]). split; [congruence|]. split; [congruence|]. exact LL.
  Qed.

  (** ** all trains *)
  Variable near : nat -> list nat.
  Notation find := (find_train_from_wagon K at_ near).
  Lemma find_nonempty : forall limit w t, find limit w = Ok t -> In w t.
  Proof. intros limit w t E. apply (members K HK at_ near limit w t E). apply rt_refl. Qed.
  Lemma collect_spec : forall limit ws seen ts, collect K at_ near limit ws seen = Ok ts ->
    (forall w, In w ws -> In w seen \/ exists t, In t ts /\ In w t) /\
    (forall t, In t ts -> exists w, In w ws /\ ~ In w seen /\ find limit w = Ok t) /\
    (forall pre t mid u post, ts = pre ++ t :: mid ++ u :: post -> exists w, In w ws /\ ~ In w t /\ find limit w = Ok u).
  Proof.
    intros limit. induction ws as [|w ws IH]; intros seen ts E; cbn [collect] in E.
    - injection E as <-. split; [intros w []|]. split; [intros t []|]. intros [|a pre] t mid u post C; discriminate.
    - destruct (mem w seen) eqn:M.
      + apply mem_iff in M. destruct (IH seen ts E) as [A [B C]]. split; [|split].
        * intros x [<-|X]; [left; exact M|apply A; exact X].
        * intros t T. destruct (B t T) as [x [X Y]]. exists x. split; [right; exact X|exact Y].
        * intros pre t mid u post Q. destruct (C pre t mid u post Q) as [x [X Y]]. exists x. split; [right; exact X|exact Y].
      + apply mem_false in M. destruct (find limit w) as [t|] eqn:F; cbn [bind] in E; [|discriminate].
        destruct (collect K at_ near limit ws (seen ++ t)) as [r|] eqn:R; cbn [bind] in E; [|discriminate]. injection E as <-.
        destruct (IH _ _ R) as [A [B C]]. split; [|split].
        * intros x [<-|X].
          -- right. exists t. split; [left; reflexivity|apply (find_nonempty limit); exact F].
          -- destruct (A x X) as [Q|[u [U Y]]].
             ++ apply in_app_or in Q. destruct Q as [Q|Q]; [auto|right; exists t; split; [left; reflexivity|exact Q]].
             ++ right. exists u. split; [right; exact U|exact Y].
        * intros u [<-|U]; [exists w; split; [left; reflexivity|auto]|].
          destruct (B u U) as [x [X [Y Z]]]. exists x. split; [right; exact X|]. split; [|exact Z]. intros Q. apply Y. apply in_or_app. auto.
        * intros [|a pre] t' mid u post Q; cbn [app] in Q; injection Q as -> Q.
          -- destruct (B u) as [x [X [Y Z]]]; [rewrite Q; apply in_or_app; right; left; reflexivity|].
             exists x. split; [right; exact X|]. split; [|exact Z]. intros N. apply Y. apply in_or_app. auto.
          -- destruct (C pre t' mid u post Q) as [x [X Y]]. exists x. split; [right; exact X|exact Y].
  Qed.
  Theorem all_trains : forall limit ws ts, collect K at_ near limit ws [] = Ok ts ->
    (forall w, In w ws -> exists t, In t ts /\ In w t) /\
    (forall t, In t ts -> exists w, In w ws /\ In w t /\ find limit w = Ok t /\ forall n, In n t <-> connected K at_ near w n).
  Proof.
    intros limit ws ts E. destruct (collect_spec limit ws [] ts E) as [A [B _]]. split.
    - intros w W. destruct (A w W) as [[]|H]; exact H.
    - intros t T. destruct (B t T) as [w [W [_ F]]]. exists w. split; [exact W|]. split; [eapply find_nonempty; exact F|]. split; [exact F|].
      apply (members K HK at_ near limit w t F).
  Qed.
  Theorem partition : forall limit ws ts, collect K at_ near limit ws [] = Ok ts ->
    (forall a b, coupled K at_ near a b -> connected K at_ near b a) ->
    forall i j t u n, nth_error ts i = Some t -> nth_error ts j = Some u -> In n t -> In n u -> i = j.
  Proof.
    intros limit ws ts E SY.
    assert (SYM : forall a b, connected K at_ near a b -> connected K at_ near b a).
    { intros a b C. induction C as [a b C|a|a b c C1 IH1 C2 IH2]; [apply SY; exact C|apply rt_refl|eapply rt_trans; eassumption]. }
    destruct (collect_spec limit ws [] ts E) as [_ [B C]].
    assert (G : forall i j t u n, nth_error ts i = Some t -> nth_error ts j = Some u -> In n t -> In n u -> ~ (i < j)%nat).
    { intros i j t u n I J T U L. destruct (nth_error_split ts i I) as [pre [rest [Q LP]]].
      assert (J' : nth_error rest (j - S i) = Some u).
      { rewrite Q in J. rewrite nth_error_app2 in J by lia. rewrite LP in J. replace (j - i)%nat with (S (j - S i)) in J by lia. exact J. }
      destruct (nth_error_split rest _ J') as [mid [post [Q' _]]]. rewrite Q' in Q.
      destruct (C pre t mid u post Q) as [w [_ [NW F]]].
      destruct (B t) as [x [_ [_ FX]]]; [eapply nth_error_In; exact I|].
      apply NW. apply (members K HK at_ near limit x t FX).
      apply (members K HK at_ near limit x t FX) in T. apply (members K HK at_ near limit w u F) in U.
      eapply rt_trans; [exact T|]. apply SYM. exact U. }
    intros i j t u n I J T U. destruct (Nat.lt_trichotomy i j) as [L|[L|L]]; [|exact L|]; exfalso; [apply (G i j t u n)|apply (G j i u t n)]; assumption.
  Qed.

  (** ** the result *)
  Lemma filter_result_ok : forall (f : list nat -> result bool) ts r, filter_result f ts = Ok r ->
    exists g, (forall t, In t ts -> f t = Ok (g t)) /\ r = filter g ts.
  Proof.
    intros f ts r E. exists (fun t => match f t with Ok b => b | Err _ => false end). revert r E.
    induction ts as [|t ts IH]; intros r E; cbn [filter_result filter] in *.
    - injection E as <-. split; [intros t []|reflexivity].
    - destruct (f t) as [b|] eqn:F; cbn [bind] in E; [|discriminate].
      destruct (filter_result f ts) as [r'|] eqn:R; cbn [bind] in E; [|discriminate]. injection E as <-.
      destruct (IH r' eq_refl) as [A ->]. split; [|destruct b; reflexivity]. intros x [<-|X]; [rewrite F; reflexivity|apply A; exact X].
  Qed.
  Lemma filter_result_err : forall (f : list nat -> result bool) ts e, filter_result f ts = Err e ->
    exists pre t post, ts = pre ++ t :: post /\ f t = Err e /\ forall x, In x pre -> exists b, f x = Ok b.
  Proof.
    intros f. induction ts as [|t ts IH]; intros e E; cbn [filter_result] in E; [discriminate|].
    destruct (f t) as [b|x] eqn:F; cbn [bind] in E.
    - destruct (filter_result f ts) as [r|y] eqn:R; cbn [bind] in E; [discriminate|]. injection E as ->.
      destruct (IH e eq_refl) as [pre [u [post [-> [U P]]]]]. exists (t :: pre), u, post. split; [reflexivity|]. split; [exact U|].
      intros x [<-|X]; [eauto|apply P; exact X].
    - injection E as ->. exists [], t, ts. split; [reflexivity|]. split; [exact F|]. intros x [].
  Qed.
  Theorem search_spec : forall limit ws q (invert : bool) max ts, collect K at_ near limit ws [] = Ok ts ->
    match find_trains_filtered K at_ near kind name stops schedules limit ws q invert max with
    | Ok r => (forall t, In t ts -> ~ faceless K at_ q t /\ ~ driverless K at_ kind name stops schedules q t) /\
              exists kept, selects (fun t => if invert then ~ matching K at_ kind name stops schedules q t
                                             else matching K at_ kind name stops schedules q t) ts kept /\ truncated max kept r
    | Err e => exists pre t post, ts = pre ++ t :: post /\
        (forall x, In x pre -> ~ faceless K at_ q x /\ ~ driverless K at_ kind name stops schedules q x) /\
        ((e = ValueError /\ faceless K at_ q t) \/ (e = UnboundLocalError /\ driverless K at_ kind name stops schedules q t))
    end.
  Proof.
    intros limit ws q invert max ts E. unfold find_trains_filtered. rewrite E. cbn [bind].
    assert (NE : forall t, In t ts -> t <> []).
    { intros t T C. destruct (all_trains limit ws ts E) as [_ A]. destruct (A t T) as [w [_ [W _]]]. rewrite C in W. destruct W. }
    destruct (filter_result _ ts) as [r|e] eqn:F; cbn [bind].
    - destruct (filter_result_ok _ _ _ F) as [g [G ->]].
      assert (TS : forall t, In t ts -> (g t = true <-> if invert then ~ matching K at_ kind name stops schedules q t else matching K at_ kind name stops schedules q t) /\
                     ~ faceless K at_ q t /\ ~ driverless K at_ kind name stops schedules q t).
      { intros t T. specialize (G t T). pose proof (test_spec q t (NE t T)) as TS. destruct (test K at_ kind name stops schedules q t) as [b|]; cbn [bind] in G; [|discriminate].
        injection G as G. rewrite <- G. destruct TS as [A B]. split; [|exact B]. destruct invert, b; cbn [xorb]; rewrite <- A; split; congruence. }
      split; [intros t T; apply (TS t T)|]. exists (filter g ts). split; [apply selects_filter; intros t T; apply (TS t T)|].
      destruct max as [m|]; [apply cut_spec|]. cbn [truncated]. apply cut_all. clear. induction ts as [|t ts IH]; cbn [filter List.length]; [lia|]. destruct (g t); cbn [List.length]; lia.
    - destruct (filter_result_err _ _ _ F) as [pre [t [post [Q [T P]]]]].
      assert (I : In t ts) by (rewrite Q; apply in_or_app; right; left; reflexivity).
      exists pre, t, post. split; [exact Q|]. split.
      { intros x X. destruct (P x X) as [b B]. pose proof (test_spec q x (NE x ltac:(rewrite Q; apply in_or_app; left; exact X))) as TS.
        destruct (test K at_ kind name stops schedules q x) as [b'|]; cbn [bind] in B; [exact (proj2 TS)|discriminate]. } pose proof (test_spec q t (NE t I)) as TS. destruct (test K at_ kind name stops schedules q t) as [b|x]; cbn [bind] in T; [discriminate|].
      injection T as <-. exact TS.
  Qed.
  Theorem search_fails : forall limit ws q invert max,
    (forall ts, collect K at_ near limit ws [] <> Ok ts) ->
    find_trains_filtered K at_ near kind name stops schedules limit ws q invert max = Err RecursionError.
  Proof.
    intros limit ws q invert max N. unfold find_trains_filtered.
    assert (R : forall l w b s e, traverse K at_ near l w b s = Err e -> e = RecursionError).
    { induction l as [|l IH]; intros w b s e E; cbn [traverse] in E; [injection E as <-; reflexivity|].
      revert E. generalize (if loco at_ w && negb b then mkWalk (used s) (train s) false else s). generalize (near w).
      induction l0 as [|n ns IHn]; intros s0 E; cbn [visit] in E; [discriminate|].
      destruct (mem n (used s0)); [apply (IHn _ E)|]. destruct (facing_ok K at_ w n); [|apply (IHn _ E)]. cbv zeta in E.
      destruct (in_front K at_ w b n).
      - destruct (traverse K at_ near l n _ _) as [s1|] eqn:E1; cbn [bind] in E; [|injection E as ->; eapply IH; exact E1].
        destruct (in_back K at_ w b n); cbn [bind] in E; [|apply (IHn _ E)].
        destruct (traverse K at_ near l n _ (mkWalk (n :: used s1) _ _)) as [s2|] eqn:E2; cbn [bind] in E; [apply (IHn _ E)|injection E as ->; eapply IH; exact E2].
      - cbn [bind] in E. destruct (in_back K at_ w b n); cbn [bind] in E; [|apply (IHn _ E)].
        destruct (traverse K at_ near l n _ _) as [s2|] eqn:E2; cbn [bind] in E; [apply (IHn _ E)|injection E as ->; eapply IH; exact E2]. }
    assert (C : forall w seen e, collect K at_ near limit w seen = Err e -> e = RecursionError).
    { induction w as [|x w IH]; intros seen e E; cbn [collect] in E; [discriminate|]. destruct (mem x seen); [apply (IH _ _ E)|].
      unfold find_train_from_wagon in E. destruct (traverse K at_ near limit x false _) as [s|] eqn:T; cbn [bind] in E; [|injection E as ->; eapply R; exact T].
      destruct (collect K at_ near limit w _) as [r|] eqn:Q; cbn [bind] in E; [discriminate|]. injection E as ->. eapply IH. exact Q. }
    destruct (collect K at_ near limit ws []) as [ts|e] eqn:E; [exfalso; apply (N ts); reflexivity|]. cbn [bind]. rewrite (C _ _ _ E). reflexivity.
  Qed.
  Theorem search_deep : forall limit ws, (forall w, In w ws -> incl (near w) ws) -> (List.length ws <= limit)%nat ->
    exists ts, collect K at_ near limit ws [] = Ok ts.
  Proof.
    intros limit ws CL L. generalize (@nil nat) as seen. assert (H : incl ws ws) by apply incl_refl. revert H.
    assert (G : forall l seen, incl l ws -> exists ts, collect K at_ near limit l seen = Ok ts).
    { induction l as [|w l IH]; intros seen I; cbn [collect]; [eauto|].
      assert (I' : incl l ws) by (intros x X; apply I; right; exact X).
      destruct (mem w seen); [apply IH; exact I'|].
      destruct (deep_enough K HK at_ near ws limit w CL) as [t T]; [apply I; left; reflexivity|exact L|]. rewrite T. cbn [bind].
      destruct (IH (seen ++ t) I') as [ts ->]. cbn [bind]. eauto. }
    intros H seen. apply G. exact H.
  Qed.
End Filter.
