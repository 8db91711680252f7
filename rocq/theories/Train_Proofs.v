(** Proofs about configuration strings. *)
From Coq Require Import ZArith NArith List Bool Lia.
From Verif Require Import Common Dict Train_Model Train_Spec.
Import ListNotations.
Local Open Scope Z_scope.

Section Config.
  Variables upper lower : pystr -> pystr.
  Variable digit : N -> option Z.
  Variable kwargs : Type.
  Notation is_digit := (is_digit digit).
  Notation span_digits := (span_digits digit).
  Notation matches_of := (matches_of digit).
  Notation block_ok := (block_ok digit).
  Notation number_ok := (number_ok digit).

  Lemma is_digit_some : forall c, is_digit c = true <-> digit c <> None.
  Proof. intros c. unfold Train_Model.is_digit. destruct (digit c); split; congruence. Qed.
  Lemma is_digit_none : forall c, is_digit c = false <-> digit c = None.
  Proof. intros c. unfold Train_Model.is_digit. destruct (digit c); split; congruence. Qed.

  Lemma span_app : forall ds rest, number_ok ds -> (rest = [] \/ exists c r, rest = c :: r /\ digit c = None) ->
    span_digits (ds ++ rest) = (ds, rest).
  Proof.
    intros ds rest. induction ds as [|d ds IH]; intros F R.
    - cbn [app]. destruct R as [->|[c [r [-> D]]]]; [reflexivity|]. cbn [Train_Model.span_digits]. apply is_digit_none in D. rewrite D. reflexivity.
    - inversion F as [|? ? F1 F2]; subst. cbn [app Train_Model.span_digits]. apply is_digit_some in F1. rewrite F1, IH by assumption. reflexivity.
  Qed.
  Lemma span_spec : forall s a b, span_digits s = (a, b) -> s = a ++ b /\ number_ok a /\ (b = [] \/ exists c r, b = c :: r /\ digit c = None).
  Proof.
    induction s as [|c s IH]; intros a b E; cbn [Train_Model.span_digits] in E.
    - inversion E; subst. repeat split; auto. constructor.
    - destruct (is_digit c) eqn:D.
      + destruct (span_digits s) as [a' b'] eqn:S. inversion E; subst. destruct (IH _ _ eq_refl) as [-> [N R]].
        repeat split; auto. constructor; [apply is_digit_some; exact D|exact N].
      + inversion E; subst. apply is_digit_none in D. repeat split; [constructor|]. right. eauto.
  Qed.
  Lemma matches_text : forall b fuel, block_ok b -> (length (block_text b) < fuel)%nat -> matches_of fuel (block_text b) = b.
  Proof.
    induction b as [|[ds [c|]] b IH]; intros fuel O L.
    - destruct fuel; reflexivity.
    - destruct O as [N [C [H O]]]. destruct fuel as [|fuel]; [lia|]. change (block_text ((ds, Some c) :: b)) with ((ds ++ [c]) ++ block_text b) in *.
      rewrite <- app_assoc in *. cbn [app] in *.
      assert (E : match ds ++ c :: block_text b with [] => @nil item | _ :: _ =>
        let '(ds0, rest) := span_digits (ds ++ c :: block_text b) in
            match rest with
            | c :: rest' => (ds0, Some c) :: matches_of fuel rest'
            | [] => [(ds0, None)]
            end end = (ds, Some c) :: b).
      { rewrite span_app; [|exact N|right; eauto]. rewrite IH; [|exact O|].
        - destruct ds; reflexivity.
        - rewrite app_length in L. cbn [length] in L. lia. }
      exact E.
    - destruct O as [N [C ->]]. destruct fuel as [|fuel]; [lia|]. unfold block_text in *. cbn [map concat item_text fst snd] in *. rewrite !app_nil_r in *.
      pose proof (span_app ds [] N (or_introl eq_refl)) as S. rewrite app_nil_r in S.
      assert (E : match ds with [] => @nil item | _ :: _ =>
        let '(ds0, rest) := span_digits ds in
            match rest with
            | c :: rest' => (ds0, Some c) :: matches_of fuel rest'
            | [] => [(ds0, None)]
            end end = [(ds, None)]).
      { rewrite S. destruct ds; [contradiction|reflexivity]. }
      unfold item_text. cbn [fst snd]. rewrite app_nil_r. exact E.
  Qed.
  Lemma text_matches : forall fuel s, (length s < fuel)%nat -> ~ In 45%N s ->
    block_text (matches_of fuel s) = s /\ block_ok (matches_of fuel s).
  Proof.
    induction fuel as [|fuel IH]; intros s L H; [lia|]. cbn [Train_Model.matches_of]. destruct s as [|x s]; [repeat constructor|].
    destruct (span_digits (x :: s)) as [ds rest] eqn:S. apply span_spec in S. destruct S as [E [N R]].
    destruct R as [->|[c [r [-> D]]]].
    - rewrite app_nil_r in E. subst ds. split; [unfold block_text; cbn; rewrite !app_nil_r; reflexivity|].
      cbn [Train_Spec.block_ok]. repeat split; auto. discriminate.
    - destruct (IH r) as [T O].
      + assert (Q : length (x :: s) = length (ds ++ c :: r)) by (rewrite E; reflexivity). rewrite app_length in Q. cbn [length] in *. lia.
      + intros C. apply H. rewrite E. apply in_app_iff. right. right. exact C.
      + split.
        * rewrite E. change (block_text ((ds, Some c) :: matches_of fuel r)) with ((ds ++ [c]) ++ block_text (matches_of fuel r)). rewrite T, <- app_assoc. reflexivity.
        * cbn [Train_Spec.block_ok]. repeat split; auto. intros ->. apply H. rewrite E. apply in_app_iff. right. left. reflexivity.
  Qed.

  (** Splitting at hyphens *)
  Fixpoint join (bs : list pystr) : pystr := match bs with [] => [] | [b] => b | b :: bs' => b ++ 45%N :: join bs' end.
  Lemma join_cons : forall b bs, bs <> [] -> join (b :: bs) = b ++ 45%N :: join bs.
  Proof. intros b [|c bs] H; [contradiction|reflexivity]. Qed.
  Lemma split_nonempty : forall s, split_hyphen s <> [].
  Proof. intros [|c s]; cbn [split_hyphen]; [discriminate|]. destruct (split_hyphen s); [discriminate|]. destruct (N.eqb c hyphen); discriminate. Qed.
  Lemma split_join : forall s, join (split_hyphen s) = s /\ Forall (fun b => ~ In 45%N b) (split_hyphen s).
  Proof.
    induction s as [|c s [J F]]; cbn [split_hyphen]; [split; [reflexivity|repeat constructor; intros []]|].
    pose proof (split_nonempty s). destruct (split_hyphen s) as [|b bs]; [contradiction|]. destruct (N.eqb c hyphen) eqn:E.
    - apply N.eqb_eq in E. subst c. split; [rewrite join_cons by discriminate; rewrite J; reflexivity|]. constructor; [intros []|exact F].
    - apply N.eqb_neq in E. pose proof (Forall_inv F) as F1. pose proof (Forall_inv_tail F) as F2. cbn beta in F1. split.
      + rewrite <- J. destruct bs as [|b' bs]; reflexivity.
      + constructor; [|exact F2]. intros [C|C]; [apply E; exact C|contradiction].
  Qed.
  Lemma split_unique : forall bs s, bs <> [] -> Forall (fun b => ~ In 45%N b) bs -> join bs = s -> split_hyphen s = bs.
  Proof.
    intros bs. induction bs as [|b bs IH]; intros s N F J; [contradiction|]. inversion F as [|? ? Fb Fs]; subst.
    assert (S0 : forall x, ~ In 45%N x -> split_hyphen x = [x]).
    { intros x. induction x as [|c x IHx]; intros H; [reflexivity|]. cbn [split_hyphen]. rewrite IHx by (intros C; apply H; right; exact C).
      destruct (N.eqb c hyphen) eqn:E; [|reflexivity]. apply N.eqb_eq in E. exfalso. apply H. left. exact E. }
    destruct bs as [|b' bs]; [apply S0; exact Fb|]. rewrite join_cons by discriminate.
    specialize (IH _ ltac:(discriminate) Fs eq_refl). clear N F. induction b as [|c b IHb].
    - cbn [app split_hyphen]. rewrite IH. reflexivity.
    - cbn [app split_hyphen]. rewrite IHb by (intros C; apply Fb; right; exact C).
      destruct (N.eqb c hyphen) eqn:E; [|reflexivity]. apply N.eqb_eq in E. exfalso. apply Fb. left. exact E.
  Qed.
  Lemma text_join : forall bs, text bs = join (map block_text bs).
  Proof.
    induction bs as [|b bs IH]; [reflexivity|]. destruct bs as [|b' bs]; [reflexivity|].
    change (text (b :: b' :: bs)) with (block_text b ++ 45%N :: text (b' :: bs)). rewrite IH. reflexivity.
  Qed.
  Lemma block_no_hyphen : forall b, digit 45%N = None -> block_ok b -> ~ In 45%N (block_text b).
  Proof.
    intros b H. assert (NH : forall ds, number_ok ds -> ~ In 45%N ds).
    { intros ds N C. unfold Train_Spec.number_ok in N. rewrite Forall_forall in N. apply N in C. contradiction. }
    induction b as [|[ds [c|]] b IH]; intros O; [intros []| |].
    - destruct O as [N [D [C O]]]. change (block_text ((ds, Some c) :: b)) with ((ds ++ [c]) ++ block_text b).
      rewrite !in_app_iff. intros [[X|[X|[]]]|X]; [exact (NH _ N X)|congruence|exact (IH O X)].
    - destruct O as [N [C ->]]. unfold block_text. cbn. rewrite !app_nil_r. apply NH. exact N.
  Qed.
  Definition parse (s : pystr) : list (list item) := map (fun b => matches_of (S (length b)) b) (split_hyphen s).
  Theorem parse_ok : forall s, text (parse s) = s /\ parse s <> [] /\ Forall block_ok (parse s).
  Proof.
    intros s. destruct (split_join s) as [J F]. unfold parse. split; [|split].
    - rewrite text_join, map_map. rewrite <- J at 2. f_equal. rewrite <- (map_id (split_hyphen s)) at 2. apply map_ext_in.
      intros b I. rewrite Forall_forall in F. apply text_matches; [lia|apply F; exact I].
    - pose proof (split_nonempty s). destruct (split_hyphen s); [contradiction|discriminate].
    - apply Forall_forall. intros x X. apply in_map_iff in X. destruct X as [b [<- I]]. rewrite Forall_forall in F.
      apply text_matches; [lia|apply F; exact I].
  Qed.
  Theorem parse_unique : forall bs, digit 45%N = None -> bs <> [] -> Forall block_ok bs -> parse (text bs) = bs.
  Proof.
    intros bs H N F. unfold parse. rewrite text_join.
    rewrite (split_unique (map block_text bs)); [|destruct bs; [contradiction|discriminate]| |reflexivity].
    - rewrite map_map. rewrite <- (map_id bs) at 2. apply map_ext_in. intros b I. rewrite Forall_forall in F. apply matches_text; [apply F; exact I|lia].
    - apply Forall_forall. intros x X. apply in_map_iff in X. destruct X as [b [<- I]]. rewrite Forall_forall in F. apply block_no_hyphen; [exact H|apply F; exact I].
  Qed.

  (** Numbers *)
  Lemma int_of_decimal_acc : forall ds a,
    fold_left (fun a c => 10 * a + match digit c with Some v => v | None => 0 end) ds a = a * 10 ^ Z.of_nat (length ds) + decimal digit ds.
  Proof.
    induction ds as [|c ds IH]; intros a; cbn [fold_left decimal length].
    - change (10 ^ Z.of_nat 0) with 1. lia.
    - rewrite IH. rewrite Nat2Z.inj_succ, Z.pow_succ_r by lia. ring.
  Qed.
  Lemma int_of_decimal : forall ds, int_of digit ds = decimal digit ds.
  Proof. intros ds. unfold int_of. rewrite int_of_decimal_acc. ring. Qed.

  Variable mapping : N -> option kwargs.
  Notation block_cars := (block_cars digit kwargs mapping).
  Lemma block_cars_spec : forall default b,
    (Forall (fun it => mapping (letter default it) <> None) b /\ block_cars default b = Ok (spelled digit default b)) \/
    (~ Forall (fun it => mapping (letter default it) <> None) b /\ block_cars default b = Err ValueError).
  Proof.
    intros default. induction b as [|[ds c] b IH]; [left; split; [constructor|reflexivity]|].
    cbn [Train_Model.block_cars]. fold (letter default (ds, c)). 
    assert (LE : match c with Some x => x | None => default end = letter default (ds, c)) by (destruct c; reflexivity).
    rewrite LE. destruct (mapping (letter default (ds, c))) as [k|] eqn:M.
    - destruct IH as [[F E]|[F E]]; rewrite E; cbn [bind].
      + left. split; [constructor; [congruence|exact F]|]. f_equal. unfold spelled. cbn [map concat]. f_equal.
        unfold times, amount. cbn [fst]. destruct ds as [|d ds]; [reflexivity|]. rewrite int_of_decimal. reflexivity.
      + right. split; [|reflexivity]. intros C. inversion C; contradiction.
    - right. split; [|reflexivity]. intros C. inversion C; contradiction.
  Qed.
  Notation blocks_cars := (blocks_cars digit kwargs mapping).
  Lemma blocks_cars_spec : forall dh wagon bs i,
    let dbs := combine (map (fun i => if dh && Nat.eqb i 2 then 62%N else if Nat.even i then 60%N else wagon) (seq i (length bs)))
                       (map (fun b => matches_of (S (length b)) b) bs) in
    (all_known mapping dbs /\ blocks_cars dh wagon i bs = Ok (all_spelled digit dbs)) \/
    (~ all_known mapping dbs /\ blocks_cars dh wagon i bs = Err ValueError).
  Proof.
    intros dh wagon. induction bs as [|b bs IH]; intros i; [left; split; [constructor|reflexivity]|].
    cbn [length seq map combine Train_Model.blocks_cars].
    set (df := if dh && Nat.eqb i 2 then 62%N else if Nat.even i then 60%N else wagon).
    destruct (block_cars_spec df (matches_of (S (length b)) b)) as [[F E]|[F E]]; rewrite E; cbn [bind].
    - destruct (IH (S i)) as [[F' E']|[F' E']]; rewrite E'; cbn [bind].
      + left. split; [constructor; [exact F|exact F']|]. reflexivity.
      + right. split; [|reflexivity]. intros C. inversion C; contradiction.
    - right. split; [|reflexivity]. intros C. inversion C; contradiction.
  Qed.
  Lemma lookups_spec : forall s, Forall (fun c => mapping c <> None) s ->
    exists ks, lookups kwargs mapping s = Ok ks /\ Forall2 (fun c k => mapping c = Some k) s ks.
  Proof.
    induction s as [|c s IH]; intros F; [exists []; split; [reflexivity|constructor]|]. inversion F as [|? ? F1 F2]; subst.
    cbn [lookups]. destruct (mapping c) as [k|] eqn:M; [|contradiction]. destruct (IH F2) as [ks [E G]]. rewrite E. cbn [bind].
    exists (k :: ks). split; [reflexivity|]. constructor; assumption.
  Qed.
  Lemma spelled_known : forall dbs, all_known mapping dbs -> Forall (fun c => mapping c <> None) (all_spelled digit dbs).
  Proof.
    intros dbs K. apply Forall_forall. intros c I. unfold all_spelled in I. apply in_concat in I. destruct I as [x [X C]].
    apply in_map_iff in X. destruct X as [[d b] [<- P]]. unfold all_known in K. rewrite Forall_forall in K. specialize (K _ P). cbn [fst snd] in *.
    unfold spelled in C. apply in_concat in C. destruct C as [y [Y C]]. apply in_map_iff in Y. destruct Y as [it [<- J]].
    apply repeat_spec in C. subst c. rewrite Forall_forall in K. apply K. exact J.
  Qed.
  Notation from_string := (from_string upper lower digit kwargs).
  Lemma all_known_dec : forall dbs, all_known mapping dbs \/ ~ all_known mapping dbs.
  Proof.
    assert (G : forall A (P : A -> Prop), (forall a, P a \/ ~ P a) -> forall l, Forall P l \/ ~ Forall P l).
    { intros A P D l. induction l as [|a l IH]; [left; constructor|]. destruct (D a); destruct IH; [left; constructor; assumption| | |]; right; intros C; inversion C; contradiction. }
    intros dbs. apply G. intros [d b]. apply G. intros it. cbn [fst]. destruct (mapping (letter d it)); [left; discriminate|right; auto].
  Qed.
  Theorem from_string_spec : forall format direction wagons dual wagon bs,
    (lower direction = s_dual /\ dual = true) \/ (lower direction = s_forward /\ dual = false) ->
    wagon_letter (lower wagons) wagon -> digit 45%N = None ->
    bs <> [] -> Forall block_ok bs -> text bs = upper format ->
    let dbs := with_defaults dual wagon bs in
    (all_known mapping dbs -> exists cars, from_string format direction wagons mapping = Ok cars /\
       Forall2 (fun c k => mapping c = Some k) (all_spelled digit dbs) cars) /\
    (~ all_known mapping dbs -> from_string format direction wagons mapping = Err ValueError).
  Proof.
    intros format direction wagons dual wagon bs D W H N F T dbs.
    assert (PB : parse (upper format) = bs) by (rewrite <- T; apply parse_unique; assumption).
    unfold Train_Model.from_string.
    assert (DD : negb (pystr_eqb (lower direction) s_dual || pystr_eqb (lower direction) s_forward) = false /\ pystr_eqb (lower direction) s_dual = dual).
    { destruct D as [[-> ->]|[-> ->]]; split; reflexivity. }
    destruct DD as [-> D2]. rewrite D2.
    assert (WW : (if pystr_eqb (lower wagons) s_cargo then Ok 67%N
         else if pystr_eqb (lower wagons) s_fluid then Ok 70%N
         else if pystr_eqb (lower wagons) s_artillery then Ok 65%N
         else Err ValueError) = Ok wagon).
    { destruct W as [[-> ->]|[[-> ->]|[-> ->]]]; reflexivity. }
    rewrite WW. cbn [bind].
    pose proof (blocks_cars_spec (Nat.eqb (length (split_hyphen (upper format))) 3 && dual) wagon (split_hyphen (upper format)) 0) as S.
    cbn zeta in S. unfold parse in PB. rewrite PB in S.
    assert (LB : length (split_hyphen (upper format)) = length bs) by (rewrite <- PB, map_length; reflexivity).
    rewrite LB in *.
    assert (DB : combine (map (fun i : nat => if Nat.eqb (length bs) 3 && dual && Nat.eqb i 2 then 62%N else if Nat.even i then 60%N else wagon) (seq 0 (length bs))) bs = dbs).
    { unfold dbs, with_defaults. f_equal. apply map_ext. intros i. unfold block_default. rewrite (andb_comm (Nat.eqb (length bs) 3) dual). reflexivity. }
    change (@length (list BinNums.N)) with (@length pystr) in S. rewrite LB in S.
    assert (S' : (all_known mapping dbs /\ blocks_cars (Nat.eqb (length bs) 3 && dual) wagon 0 (split_hyphen (upper format)) = Ok (all_spelled digit dbs)) \/
      (~ all_known mapping dbs /\ blocks_cars (Nat.eqb (length bs) 3 && dual) wagon 0 (split_hyphen (upper format)) = Err ValueError)).
    { rewrite <- DB. exact S. }
    destruct S' as [[K E]|[K E]]; rewrite E; cbn [bind].
    - split; [|intros C; contradiction]. intros _. apply lookups_spec. apply spelled_known. exact K.
    - split; [intros C; contradiction|reflexivity].
  Qed.
  Theorem from_string_words : forall format direction wagons,
    (lower direction <> s_dual /\ lower direction <> s_forward) \/ (forall c, ~ wagon_letter (lower wagons) c) ->
    from_string format direction wagons mapping = Err ValueError.
  Proof.
    intros format direction wagons W. unfold Train_Model.from_string.
    destruct (negb (pystr_eqb (lower direction) s_dual || pystr_eqb (lower direction) s_forward)) eqn:D; [reflexivity|].
    apply negb_false_iff, orb_true_iff in D. rewrite !pystr_eqb_eq in D. destruct W as [[A B]|W]; [destruct D; contradiction|].
    destruct (pystr_eqb (lower wagons) s_cargo) eqn:E1; [apply pystr_eqb_eq in E1; exfalso; apply (W 67%N); left; auto|].
    destruct (pystr_eqb (lower wagons) s_fluid) eqn:E2; [apply pystr_eqb_eq in E2; exfalso; apply (W 70%N); right; left; auto|].
    destruct (pystr_eqb (lower wagons) s_artillery) eqn:E3; [apply pystr_eqb_eq in E3; exfalso; apply (W 65%N); right; right; auto|].
    reflexivity.
  Qed.
End Config.

Theorem rail_length_spec : forall n, 7 * Z.of_nat n <= 2 * rail_length n < 7 * Z.of_nat n + 2.
Proof.
  intros n. unfold rail_length. pose proof (Z.div_mod (- (Z.of_nat n * 7)) 2 ltac:(lia)). pose proof (Z.mod_pos_bound (- (Z.of_nat n * 7)) 2 ltac:(lia)). lia.
Qed.
