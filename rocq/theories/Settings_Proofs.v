(** Lemmas for the binary mod settings. *)
From Coq Require Import ZArith NArith List Bool Lia.
From Verif Require Import Common Dict Version_Model Version_Proofs Utf8 Settings_Model Settings_Spec Wires_Proofs.
Import ListNotations.
Local Open Scope N_scope.

(** *** reading numbers *)
Lemma read_app : forall b r, read (size b) (b ++ r) = (b, r).
Proof.
  intros b r. unfold read, size. rewrite app_length, Nat2N.id. destruct (N.leb_spec (N.of_nat (length b)) (N.of_nat (length b + length r))); [|lia].
  f_equal; [rewrite firstn_app, Nat.sub_diag, firstn_all; apply app_nil_r|rewrite skipn_app, skipn_all, Nat.sub_diag; reflexivity].
Qed.
Lemma little_length : forall n v b, little n v b -> length b = n.
Proof. intros n v b H. induction H; cbn; congruence. Qed.
Lemma little_le : forall n v b, little n v b -> le b = v.
Proof. intros n v b H. induction H; cbn [le]; congruence. Qed.
Lemma little_lt : forall n v b, little n v b -> v < 256 ^ N.of_nat n.
Proof.
  intros n v b H. induction H as [|n v b x X H IH]; [reflexivity|]. rewrite Nat2N.inj_succ, N.pow_succ_r'. lia.
Qed.
Lemma little_bytes : forall n v b, little n v b -> Forall (fun x => x < 256) b.
Proof. intros n v b H. induction H; constructor; assumption. Qed.
Lemma little_of : forall b, Forall (fun x => x < 256) b -> little (length b) (le b) b.
Proof. intros b H. induction H; cbn [le length]; constructor; assumption. Qed.
Lemma read_num_little : forall n v b r, little n v b -> read_num n (b ++ r) = Ok (v, r).
Proof.
  intros n v b r H. pose proof (little_length _ _ _ H) as L. unfold read_num. rewrite <- L at 1. fold (size b). rewrite read_app. unfold unpack.
  rewrite L, Nat.eqb_refl, (little_le _ _ _ H). reflexivity.
Qed.
Lemma read_num_one : forall x r, read_num 1 (x :: r) = Ok (x, r).
Proof.
  intros x r. unfold read_num. change (N.of_nat 1) with (size [x]). change (x :: r) with ([x] ++ r) at 1. rewrite read_app. cbn. rewrite N.add_0_r. reflexivity.
Qed.
Lemma read_one : forall x r, read 1 (x :: r) = ([x], r).
Proof. intros x r. change 1 with (size [x]). change (x :: r) with ([x] ++ r). apply read_app. Qed.
(** What reading a number says. *)
Lemma read_split : forall n s b r, read n s = (b, r) -> s = b ++ r /\ (size b = n \/ size b < n /\ r = []).
Proof.
  intros n s b r H. unfold read in H. destruct (N.leb_spec n (N.of_nat (length s))) as [L|L]; injection H as <- <-.
  - split; [symmetry; apply firstn_skipn|]. left. unfold size. rewrite firstn_length. lia.
  - split; [symmetry; apply app_nil_r|]. right. auto.
Qed.
Lemma read_num_ok : forall n s v r, read_num n s = Ok (v, r) -> exists b, s = b ++ r /\ length b = n /\ v = le b.
Proof.
  intros n s v r H. unfold read_num in H. destruct (read (N.of_nat n) s) as [b r'] eqn:R. apply read_split in R. destruct R as [-> _].
  unfold unpack in H. destruct (Nat.eqb_spec (length b) n) as [E|E]; [|discriminate]. injection H as <- <-. exists b. auto.
Qed.
Lemma signed_mod : forall z, (- 2 ^ 63 <= z < 2 ^ 63)%Z -> signed (Z.to_N (z mod 2 ^ 64)) = z.
Proof.
  intros z H. unfold signed. assert (P : (0 <= z mod 2 ^ 64 < 2 ^ 64)%Z) by (apply Z.mod_pos_bound; reflexivity).
  rewrite Z2N.id by lia. change (2 ^ 63) with 9223372036854775808. destruct (Z.leb_spec 0 z) as [Q|Q].
  - rewrite Z.mod_small in * by lia. destruct (N.ltb_spec (Z.to_N z) 9223372036854775808); lia.
  - assert (E : (z mod 2 ^ 64 = z + 2 ^ 64)%Z) by (symmetry; apply (Z.mod_unique_pos _ _ (-1)); lia). rewrite E in *.
    destruct (N.ltb_spec (Z.to_N (z + 2 ^ 64)) 9223372036854775808); lia.
Qed.
Lemma mod_signed : forall v, v < 2 ^ 64 -> (- 2 ^ 63 <= signed v < 2 ^ 63)%Z /\ Z.to_N (signed v mod 2 ^ 64) = v.
Proof.
  intros v H. unfold signed. change (2 ^ 63) with 9223372036854775808. change (2 ^ 64) with 18446744073709551616 in H.
  change (2 ^ 63)%Z with 9223372036854775808%Z. change (2 ^ 64)%Z with 18446744073709551616%Z.
  destruct (N.ltb_spec v 9223372036854775808) as [L|L].
  - split; [lia|]. rewrite Z.mod_small by lia. apply N2Z.id.
  - split; [lia|]. assert (E : ((Z.of_N v - 18446744073709551616) mod 18446744073709551616 = Z.of_N v)%Z) by (symmetry; apply (Z.mod_unique_pos _ _ (-1)); lia).
    rewrite E. apply N2Z.id.
Qed.

(** *** strings *)
Lemma read_string_stored : forall o b r, stored_string o b -> read_string (b ++ r) = Ok (o, r).
Proof.
  intros o b r H. unfold read_string. inversion H as [x X|s b' U S|s b' nb U L]; subst; cbn [app]; rewrite read_num_one; cbn [bind].
  - destruct (N.eqb_spec x 0); [lia|]. reflexivity.
  - rewrite N.eqb_refl. cbn [negb]. rewrite read_num_one. cbn [bind]. destruct (N.eqb_spec (size b') 255); [lia|]. cbn [bind]. rewrite read_app.
    rewrite (utf8_decode_encode _ _ U). reflexivity.
  - rewrite N.eqb_refl. cbn [negb]. rewrite read_num_one. cbn [bind]. rewrite N.eqb_refl, <- app_assoc, (read_num_little _ _ _ _ L). cbn [bind].
    rewrite read_app, (utf8_decode_encode _ _ U). reflexivity.
Qed.
Lemma stored_bytes : forall o b, stored_string o b -> b <> [].
Proof. intros o b H. inversion H; discriminate. Qed.

(** *** dictionaries *)
Lemma okey_eqb_eq : forall a b, okey_eqb a b = true <-> a = b.
Proof.
  intros [a|] [b|]; cbn; try (split; congruence). rewrite pystr_eqb_eq. split; congruence.
Qed.
Section Collapse.
  Context {V : Type}.
  Implicit Types l : list (option pystr * V).
  Let put l (p : option pystr * V) := dset okey_eqb l (fst p) (snd p).

  Lemma put_keys : forall (d : list (option pystr * V)) k v,
    map fst (dset okey_eqb d k v) = if in_dec key_dec k (map fst d) then map fst d else map fst d ++ [k].
  Proof.
    intros d k v. induction d as [|[k' v'] d IH]; [reflexivity|]. cbn [dset map fst]. destruct (okey_eqb k' k) eqn:E.
    - apply okey_eqb_eq in E. subst k'. cbn [map fst]. destruct (in_dec key_dec k (k :: map fst d)) as [I|N]; [reflexivity|]. destruct N. left. reflexivity.
    - cbn [map fst]. rewrite IH. assert (NE : k' <> k) by (intros ->; rewrite (proj2 (okey_eqb_eq k k) eq_refl) in E; discriminate).
      destruct (in_dec key_dec k (map fst d)) as [I|N]; destruct (in_dec key_dec k (k' :: map fst d)) as [I'|N']; try reflexivity.
      + destruct N'. right. exact I.
      + destruct I' as [->|I']; contradiction.
  Qed.
  Lemma first_seen_in : forall (l : list (option pystr)) k, In k (first_seen l) <-> In k l.
  Proof.
    induction l as [|x l IH]; intros k; cbn [first_seen In]; [reflexivity|]. rewrite filter_In, IH. destruct (key_dec x k) as [->|N]; split.
    - intros _. left. reflexivity.
    - intros _. left. reflexivity.
    - intros [H|[H _]]; [left; exact H|right; exact H].
    - intros [H|H]; [left; exact H|right; auto].
  Qed.
  Lemma first_seen_snoc : forall (l : list (option pystr)) k, first_seen (l ++ [k]) = if in_dec key_dec k l then first_seen l else first_seen l ++ [k].
  Proof.
    induction l as [|x l IH]; intros k; [reflexivity|]. cbn [app first_seen]. rewrite IH.
    destruct (in_dec key_dec k (x :: l)) as [I|N]; destruct (in_dec key_dec k l) as [I'|N']; try reflexivity.
    - destruct I as [->|I]; [|contradiction]. rewrite filter_app. cbn [filter]. destruct (key_dec k k); [|contradiction]. rewrite app_nil_r. reflexivity.
    - destruct N. right. exact I'.
    - rewrite filter_app. cbn [filter]. destruct (key_dec x k) as [->|NE]; [destruct N; left; reflexivity|]. reflexivity.
  Qed.
  Lemma first_seen_nodup : forall (l : list (option pystr)), NoDup (first_seen l).
  Proof.
    induction l as [|x l IH]; cbn [first_seen]; constructor.
    - rewrite filter_In. intros [_ H]. destruct (key_dec x x); [discriminate|contradiction].
    - apply NoDup_filter. exact IH.
  Qed.
  Lemma last_of_snoc : forall l k v k', last_of k' (l ++ [(k, v)]) = if key_dec k' k then Some v else last_of k' l.
  Proof. intros l k v k'. unfold last_of. rewrite rev_app_distr. cbn [rev app find fst]. destruct (key_dec k' k); reflexivity. Qed.
  Lemma last_of_some : forall l k, In k (map fst l) <-> last_of k l <> None.
  Proof.
    intros l k. induction l as [|[k' v'] l IH] using rev_ind; [split; [intros []|intros H; contradiction H; reflexivity]|].
    rewrite map_app, in_app_iff, last_of_snoc, IH. cbn [map fst In]. destruct (key_dec k k') as [->|N]; split.
    - discriminate.
    - intros _. right. left. reflexivity.
    - intros [H|[H|[]]]; [exact H|congruence].
    - intros H. left. exact H.
  Qed.
  Lemma puts_keys : forall l, map fst (fold_left put l []) = first_seen (map fst l).
  Proof.
    intros l. induction l as [|[k v] l IH] using rev_ind; [reflexivity|]. rewrite fold_left_app, map_app. cbn [fold_left map fst].
    unfold put at 1. cbn [fst snd]. rewrite put_keys, first_seen_snoc, IH.
    destruct (in_dec key_dec k (first_seen (map fst l))) as [I|N]; destruct (in_dec key_dec k (map fst l)) as [I'|N']; try reflexivity.
    - destruct N'. exact (proj1 (first_seen_in _ _) I).
    - destruct N. exact (proj2 (first_seen_in _ _) I').
  Qed.
  Lemma puts_get : forall l k, dget okey_eqb (fold_left put l []) k = last_of k l.
  Proof.
    intros l k. induction l as [|[k' v'] l IH] using rev_ind; [reflexivity|]. rewrite fold_left_app. cbn [fold_left].
    unfold put at 1. cbn [fst snd]. rewrite (dget_dset okey_eqb okey_eqb_eq), last_of_snoc, IH.
    destruct (key_dec k k') as [->|N]; [rewrite (proj2 (okey_eqb_eq k' k') eq_refl); reflexivity|].
    destruct (okey_eqb k' k) eqn:E; [apply okey_eqb_eq in E; congruence|reflexivity].
  Qed.
  Lemma list_of_gets : forall (d : list (option pystr * V)), NoDup (map fst d) ->
    d = flat_map (fun k => match dget okey_eqb d k with Some v => [(k, v)] | None => [] end) (map fst d).
  Proof.
    intros d. assert (G : forall d0 d : list (option pystr * V), NoDup (map fst d0) -> (forall p, In p d -> In p d0) ->
      d = flat_map (fun k => match dget okey_eqb d0 k with Some v => [(k, v)] | None => [] end) (map fst d)).
    { intros d0 d1 W. induction d1 as [|[k v] d1 IH]; intros S; [reflexivity|]. cbn [map fst flat_map].
      assert (K : dget okey_eqb d0 k = Some v) by (apply dget_in; [exact okey_eqb_eq|exact W|apply S; left; reflexivity]).
      rewrite K. cbn [app]. f_equal. apply IH. intros p I. apply S. right. exact I. }
    intros W. apply G; auto.
  Qed.
  Lemma collapse_puts : forall l, fold_left put l [] = collapse l.
  Proof.
    intros l. assert (W : NoDup (map fst (fold_left put l []))) by (rewrite puts_keys; apply first_seen_nodup).
    rewrite (list_of_gets _ W). unfold collapse. rewrite puts_keys. apply flat_map_ext. intros k. rewrite puts_get. reflexivity.
  Qed.
End Collapse.

(** *** trees *)
Scheme encodes_min := Minimality for encodes Sort Prop
  with encodes_all_min := Minimality for encodes_all Sort Prop.
Combined Scheme encodes_both from encodes_min, encodes_all_min.

Definition vals (l : list (option pystr * tree)) := map (fun p => (fst p, value_of (snd p))) l.
Definition put (d : list (option pystr * value)) (p : option pystr * value) := dset okey_eqb d (fst p) (snd p).
Lemma levels_in : forall l k t, In (k, t) l -> (levels t <= fold_right Nat.max 0%nat (map (fun p : option pystr * tree => levels (snd p)) l))%nat.
Proof. intros l k t. induction l as [|p l IH]; intros I; [destruct I|]. cbn [map fold_right]. destruct I as [->|I]; [cbn [snd]; lia|]. specialize (IH I). lia. Qed.
Lemma read_tree :
  (forall t b, encodes t b -> forall limit r, (levels t <= limit)%nat -> read_node limit (b ++ r) = Ok (value_of t, r)) /\
  (forall l b, encodes_all l b -> forall limit fuel r out n, (forall k t, In (k, t) l -> (levels t <= limit)%nat) -> (length b <= fuel)%nat ->
     read_entries (read_node limit) fuel (N.of_nat (length l) + n) (b ++ r) out =
     read_entries (read_node limit) (fuel - length l) n r (fold_left put (vals l) out)).
Proof.
  apply encodes_both.
  - intros f F limit r L. destruct limit as [|limit]; [cbn in L; lia|]. cbn [app read_node]. rewrite read_num_one. cbn [bind]. rewrite read_one. reflexivity.
  - intros f F limit r L. destruct limit as [|limit]; [cbn in L; lia|]. cbn [app read_node]. rewrite read_num_one. cbn [bind]. rewrite read_one.
    cbn [N.eqb Pos.eqb]. rewrite read_num_one. reflexivity.
  - intros f x F X limit r L. destruct limit as [|limit]; [cbn in L; lia|]. cbn [app read_node]. rewrite read_num_one. cbn [bind]. rewrite read_one.
    cbn [N.eqb Pos.eqb]. rewrite read_num_one. cbn [bind]. destruct (N.eqb_spec x 0); [lia|]. reflexivity.
  - intros f bits b F Lb limit r L. destruct limit as [|limit]; [cbn in L; lia|]. cbn [app read_node]. rewrite read_num_one. cbn [bind]. rewrite read_one.
    cbn [N.eqb Pos.eqb]. rewrite (read_num_little _ _ _ _ Lb). reflexivity.
  - intros f s b F Lb limit r L. destruct limit as [|limit]; [cbn in L; lia|]. cbn [app read_node]. rewrite read_num_one. cbn [bind]. rewrite read_one.
    cbn [N.eqb Pos.eqb]. rewrite (read_string_stored _ _ _ Lb). destruct s; reflexivity.
  - intros f z b F Z Lb limit r L. destruct limit as [|limit]; [cbn in L; lia|]. cbn [app read_node]. rewrite read_num_one. cbn [bind]. rewrite read_one.
    cbn [N.eqb Pos.eqb]. rewrite (read_num_little _ _ _ _ Lb). cbn [bind]. rewrite signed_mod by exact Z. reflexivity.
  - intros f l nb body F Ln E IH limit r L. destruct limit as [|limit]; [cbn in L; lia|]. cbn [app read_node]. rewrite read_num_one. cbn [bind]. rewrite read_one.
    cbn [N.eqb Pos.eqb]. rewrite <- app_assoc, (read_num_little _ _ _ _ Ln). cbn [bind].
    assert (Q : forall k t, In (k, t) l -> (levels t <= limit)%nat).
    { intros k t I. pose proof (levels_in l k t I). cbn [levels] in L. lia. }
    specialize (IH limit (length (body ++ r) + 1)%nat r [] 0 Q ltac:(rewrite app_length; lia)).
    rewrite N.add_0_r in IH. rewrite IH.
    assert (Z0 : forall fl s o, read_entries (read_node limit) fl 0 s o = Ok (o, s)) by (intros [|fl] s o; reflexivity).
    rewrite Z0. cbn [bind]. cbn [value_of]. fold (vals l). rewrite <- collapse_puts. reflexivity.
  - intros limit fuel r out n _ _. cbn [length app vals map fold_left]. rewrite Nat.sub_0_r, N.add_0_l. reflexivity.
  - intros k kb v vb l body S Ev IHv El IHl limit fuel r out n Q L. rewrite !app_length in L.
    pose proof (stored_bytes _ _ S) as NE. assert (0 < length kb)%nat by (destruct kb; [contradiction|cbn; lia]).
    destruct fuel as [|fuel]; [lia|]. cbn [read_entries length Nat.sub].
    destruct (N.eqb_spec (N.of_nat (Datatypes.S (length l)) + n) 0) as [E|_]; [lia|].
    rewrite <- !app_assoc, (read_string_stored _ _ _ S). cbn [bind]. rewrite (IHv limit _ (Q k v (or_introl eq_refl))). cbn [bind].
    replace (N.of_nat (Datatypes.S (length l)) + n - 1) with (N.of_nat (length l) + n) by lia.
    rewrite (IHl limit fuel r _ n); [|intros k' t I; apply (Q k' t); right; exact I|lia].
    cbn [vals map fold_left fst snd]. reflexivity.
Qed.
Lemma decode_tree : forall t b limit r, encodes t b -> (levels t <= limit)%nat -> read_node limit (b ++ r) = Ok (value_of t, r).
Proof. intros t b limit r H L. exact (proj1 read_tree t b H limit r L). Qed.
Lemma decode_file : forall t b limit r, file_of t b -> (levels t <= limit)%nat -> decode_mod_settings limit (b ++ r) = Ok (value_of t, r).
Proof.
  intros t b limit r (v & vb & nb & Lv & E & ->) L. unfold decode_mod_settings. rewrite <- app_assoc, (read_num_little _ _ _ _ Lv). cbn [bind app].
  rewrite read_num_one. cbn [bind N.eqb negb]. apply decode_tree; assumption.
Qed.

(** *** refused input *)
Lemma entries_length : forall l b, encodes_all l b -> (length l <= length b)%nat.
Proof.
  intros l b H. induction H as [|k kb v vb l body S Ev El IH]; [reflexivity|]. pose proof (stored_bytes _ _ S) as NE. rewrite !app_length.
  destruct kb; [contradiction|]. cbn [length]. lia.
Qed.
Lemma refuse : forall limit b e, refused limit b e -> forall r, read_node limit (b ++ r) = Err e.
Proof.
  intros limit b e H. induction H as [limit t f T|limit f b L|limit f|limit f n nb l body k kb b e Ln Lt E Lv S R IH]; intros r; cbn [app read_node]; rewrite read_num_one; cbn [bind]; rewrite read_one.
  - destruct (N.eqb_spec t 0); [lia|]. destruct (N.eqb_spec t 1); [lia|]. destruct (N.eqb_spec t 2); [lia|]. destruct (N.eqb_spec t 3); [lia|].
    destruct (N.eqb_spec t 4); [lia|]. destruct (N.eqb_spec t 5); [lia|]. destruct (N.eqb_spec t 6); [lia|]. destruct (N.eqb_spec t 7); [lia|]. reflexivity.
  - cbn [N.eqb Pos.eqb]. unfold read_num. change (N.of_nat 4) with (N.of_nat 4). rewrite <- L at 1. fold (size b). rewrite read_app. unfold unpack. rewrite L. reflexivity.
  - reflexivity.
  - cbn [N.eqb Pos.eqb]. rewrite <- !app_assoc, (read_num_little _ _ _ _ Ln). cbn [bind].
    replace n with (N.of_nat (length l) + (n - N.of_nat (length l))) by lia.
    rewrite (proj2 read_tree l body E limit _ _ _ _ Lv) by (rewrite !app_length; lia).
    match goal with |- context [read_entries _ ?f _ _ _] => destruct f as [|fuel] eqn:F end.
    { pose proof (entries_length l body E). rewrite !app_length in F. lia. }
    cbn [read_entries]. destruct (N.eqb_spec (n - N.of_nat (length l)) 0); [lia|]. rewrite (read_string_stored _ _ _ S). cbn [bind]. rewrite IH. reflexivity.
Qed.

(** *** what is accepted *)
Definition octets (s : bytes) : Prop := Forall (fun x => x < 256) s.
Lemma octets_app : forall a b, octets (a ++ b) <-> octets a /\ octets b.
Proof. intros a b. apply Forall_app. Qed.
Lemma read_num_sound : forall n s v r, octets s -> read_num n s = Ok (v, r) -> exists b, s = b ++ r /\ little n v b.
Proof.
  intros n s v r O H. apply read_num_ok in H. destruct H as (b & -> & L & ->). exists b. split; [reflexivity|]. apply octets_app in O. rewrite <- L. apply little_of. exact (proj1 O).
Qed.
Lemma read_num_1_sound : forall s v r, octets s -> read_num 1 s = Ok (v, r) -> s = v :: r /\ v < 256.
Proof.
  intros s v r O H. apply read_num_sound in H; [|exact O]. destruct H as (b & -> & L). inversion L as [|n v' b' x X L']; subst. inversion L'; subst.
  cbn [app]. replace (x + 256 * 0) with x by lia. auto.
Qed.
Lemma little_any : forall n v b, little n v b -> forall w b', little n w b' -> v = w -> b = b'.
Proof.
  intros n v b H. induction H as [|n v b x X H IH]; intros w b' H' E; inversion H' as [|n' v' b'' x' X' H'']; subst; [reflexivity|].
  assert (x = x' /\ v = v') by lia. destruct H0 as [-> ->]. f_equal. exact (IH _ _ H'' eq_refl).
Qed.
Lemma read_string_sound : forall s o r, octets s -> read_string s = Ok (o, r) -> r <> [] -> exists b, s = b ++ r /\ stored_string o b.
Proof.
  intros s o r O H NE. unfold read_string in H. apply bind_ok in H. destruct H as ([x s1] & R1 & H). apply read_num_1_sound in R1; [|exact O]. destruct R1 as [-> X].
  destruct (N.eqb_spec x 0) as [->|NZ]; cbn [negb] in H.
  - apply bind_ok in H. destruct H as ([n s2] & R2 & H). assert (O1 : octets s1) by (inversion O; assumption).
    apply read_num_1_sound in R2; [|exact O1]. destruct R2 as [-> X2]. apply bind_ok in H. destruct H as ([m s3] & R3 & H).
    destruct (read m s3) as [b r'] eqn:R4. apply read_split in R4. destruct R4 as [-> R4].
    destruct (utf8_decode b) as [t|] eqn:U; [|discriminate]. injection H as <- <-. apply utf8_encode_decode in U.
    assert (Sz : size b = m) by (destruct R4 as [R4|[_ R4]]; [exact R4|contradiction]).
    destruct (N.eqb_spec n 255) as [->|N5].
    + assert (O2 : octets s2) by (inversion O1; assumption). apply read_num_sound in R3; [|exact O2]. destruct R3 as (nb & -> & L). exists (0 :: 255 :: nb ++ b).
      split; [cbn [app]; rewrite <- app_assoc; reflexivity|]. apply ss_long; [exact U|]. rewrite Sz. exact L.
    + injection R3 as -> ->. exists (0 :: m :: b). split; [reflexivity|]. rewrite <- Sz. apply ss_short; [exact U|]. lia.
  - injection H as <- <-. exists [x]. split; [reflexivity|]. apply ss_absent. lia.
Qed.
Lemma read_string_nil : read_string [] = Err StructError.
Proof. reflexivity. Qed.
Lemma read_node_nil : forall limit v r, read_node limit [] <> Ok (v, r).
Proof. intros [|limit] v r; discriminate. Qed.

Lemma read_entries_sound : forall limit,
  (forall s v r, octets s -> read_node limit s = Ok (v, r) -> r <> [] -> exists t b, s = b ++ r /\ encodes t b /\ value_of t = v /\ (levels t <= limit)%nat) ->
  forall fuel n s out d r, octets s -> read_entries (read_node limit) fuel n s out = Ok (d, r) -> r <> [] ->
  exists l b, s = b ++ r /\ encodes_all l b /\ N.of_nat (length l) = n /\ d = fold_left put (vals l) out /\ forall k t, In (k, t) l -> (levels t <= limit)%nat.
Proof.
  intros limit IHn. induction fuel as [|fuel IH]; intros n s out d r O H NE; cbn [read_entries] in H; destruct (N.eqb_spec n 0) as [->|NZ].
  - injection H as <- <-. exists [], []. split; [reflexivity|]. split; [constructor|]. split; [reflexivity|]. split; [reflexivity|]. intros k t [].
  - discriminate.
  - injection H as <- <-. exists [], []. split; [reflexivity|]. split; [constructor|]. split; [reflexivity|]. split; [reflexivity|]. intros k t [].
  - apply bind_ok in H. destruct H as ([k s1] & R1 & H). apply bind_ok in H. destruct H as ([v s2] & R2 & H).
    assert (N1 : s1 <> []) by (intros ->; exact (read_node_nil _ _ _ R2)).
    apply read_string_sound in R1; [|exact O|exact N1]. destruct R1 as (kb & -> & S). apply octets_app in O. destruct O as [_ O].
    assert (N2 : s2 <> []).
    { intros ->. destruct fuel as [|fuel']; cbn [read_entries] in H; destruct (n - 1 =? 0); try discriminate; injection H as _ <-; contradiction. }
    destruct (IHn _ _ _ O R2 N2) as (t & vb & -> & E & <- & Lv). apply octets_app in O. destruct O as [_ O].
    destruct (IH _ _ _ _ _ O H NE) as (l & body & -> & El & Len & -> & Ll).
    exists ((k, t) :: l), (kb ++ vb ++ body). split; [rewrite <- !app_assoc; reflexivity|]. split; [constructor; assumption|]. split; [cbn [length]; lia|].
    split; [reflexivity|]. intros k' t' [I|I]; [injection I as <- <-; exact Lv|exact (Ll _ _ I)].
Qed.
Lemma fold_max : forall (l : list (option pystr * tree)) m, (forall k t, In (k, t) l -> (levels t <= m)%nat) -> (fold_right Nat.max 0%nat (map (fun p => levels (snd p)) l) <= m)%nat.
Proof.
  intros l m. induction l as [|[k t] l IH]; intros Q; cbn [map fold_right snd]; [lia|]. pose proof (Q k t (or_introl eq_refl)).
  assert (fold_right Nat.max 0%nat (map (fun p : option pystr * tree => levels (snd p)) l) <= m)%nat by (apply IH; intros k' t' I; apply (Q k' t'); right; exact I). lia.
Qed.
Lemma read_node_sound : forall limit s v r, octets s -> read_node limit s = Ok (v, r) -> r <> [] ->
  exists t b, s = b ++ r /\ encodes t b /\ value_of t = v /\ (levels t <= limit)%nat.
Proof.
  induction limit as [|limit IH]; intros s v r O H NE; [discriminate|]. cbn [read_node] in H.
  apply bind_ok in H. destruct H as ([k s0] & R0 & H). apply read_num_1_sound in R0; [|exact O]. destruct R0 as [-> K]. assert (O0 : octets s0) by (inversion O; assumption).
  destruct (read 1 s0) as [fb s1] eqn:RF. apply read_split in RF. destruct RF as [-> RF].
  assert (F : s1 = [] \/ exists f, fb = [f] /\ f < 256).
  { destruct RF as [RF|[_ RF]]; [right|left; exact RF]. destruct fb as [|f [|? ?]]; unfold size in RF; cbn [length] in RF; try lia. exists f. split; [reflexivity|]. inversion O0; assumption. }
  apply octets_app in O0. destruct O0 as [_ O1].
  assert (X : forall t c, s1 = c ++ r -> (forall f, f < 256 -> encodes t (k :: f :: c)) -> value_of t = v -> (levels t <= S limit)%nat ->
    exists t b, k :: fb ++ s1 = b ++ r /\ encodes t b /\ value_of t = v /\ (levels t <= S limit)%nat).
  { intros t c E En V L. destruct F as [->|(f & -> & Ff)]; [destruct c; [cbn in E; congruence|discriminate]|].
    exists t, (k :: f :: c). split; [cbn [app]; rewrite E; reflexivity|]. split; [exact (En f Ff)|]. split; assumption. }
  destruct (N.eqb_spec k 0) as [->|NE0]; [injection H as <- <-; apply (X TNone []); [reflexivity|intros; constructor; assumption|reflexivity|cbn; lia]|].
  destruct (N.eqb_spec k 1) as [->|NE1].
  { apply bind_ok in H. destruct H as ([x s2] & R & H). injection H as <- <-. apply read_num_1_sound in R; [|exact O1]. destruct R as [-> Xb].
    apply (X (TBool (negb (x =? 0))) [x]); [reflexivity| |reflexivity|cbn; lia]. intros f Ff. destruct (N.eqb_spec x 0) as [->|]; cbn [negb]; constructor; try assumption. lia. }
  destruct (N.eqb_spec k 2) as [->|NE2].
  { apply bind_ok in H. destruct H as ([x s2] & R & H). injection H as <- <-. apply read_num_sound in R; [|exact O1]. destruct R as (b & -> & L).
    apply (X (TFloat x) b); [reflexivity| |reflexivity|cbn; lia]. intros f Ff. constructor; assumption. }
  destruct (N.eqb_spec k 3) as [->|NE3].
  { apply bind_ok in H. destruct H as ([o s2] & R & H). injection H as <- <-. apply read_string_sound in R; [|exact O1|exact NE]. destruct R as (b & -> & S).
    apply (X (TStr o) b); [reflexivity| |destruct o; reflexivity|destruct o; cbn; lia]. intros f Ff. constructor; assumption. }
  destruct (N.eqb_spec k 4) as [->|NE4]; [apply bind_ok in H; destruct H as (? & _ & H); discriminate|].
  destruct (N.eqb_spec k 5) as [->|NE5].
  { apply bind_ok in H. destruct H as ([n s2] & R & H). apply read_num_sound in R; [|exact O1]. destruct R as (nb & -> & L). apply octets_app in O1. destruct O1 as [_ O2].
    apply bind_ok in H. destruct H as ([d s3] & R & H). injection H as <- <-.
    destruct (read_entries_sound limit IH _ _ _ _ _ _ O2 R NE) as (l & b & -> & E & <- & -> & Lv).
    apply (X (TDict l) (nb ++ b)); [rewrite <- app_assoc; reflexivity| | |].
    - intros f Ff. constructor; assumption.
    - cbn [value_of]. fold (vals l). rewrite <- collapse_puts. reflexivity.
    - cbn [levels]. apply le_n_S. apply fold_max. exact Lv. }
  destruct (N.eqb_spec k 6) as [->|NE6].
  { apply bind_ok in H. destruct H as ([x s2] & R & H). injection H as <- <-. apply read_num_sound in R; [|exact O1]. destruct R as (b & -> & L).
    pose proof (little_lt _ _ _ L) as B. change (256 ^ N.of_nat 8) with (2 ^ 64) in B. destruct (mod_signed x B) as [B1 B2].
    apply (X (TInt (signed x)) b); [reflexivity| |reflexivity|cbn; lia]. intros f Ff. constructor; [exact Ff|exact B1|rewrite B2; exact L]. }
  destruct (N.eqb_spec k 7); discriminate.
Qed.
Lemma decode_sound : forall limit s v r, octets s -> decode_mod_settings limit s = Ok (v, r) -> r <> [] ->
  exists t b, s = b ++ r /\ file_of t b /\ value_of t = v.
Proof.
  intros limit s v r O H NE. unfold decode_mod_settings in H. apply bind_ok in H. destruct H as ([x s1] & R & H). apply read_num_sound in R; [|exact O]. destruct R as (vb & -> & L).
  apply octets_app in O. destruct O as [_ O]. apply bind_ok in H. destruct H as ([f s2] & R & H). apply read_num_1_sound in R; [|exact O]. destruct R as [-> _].
  destruct (N.eqb_spec f 0) as [->|]; cbn [negb] in H; [|discriminate]. assert (O2 : octets s2) by (inversion O; assumption).
  destruct (read_node_sound limit s2 v r O2 H NE) as (t & b & -> & E & V & _). exists t, (vb ++ 0 :: b). split; [rewrite <- app_assoc; reflexivity|].
  split; [exists x, vb, b; auto|exact V].
Qed.

(** *** the internal fuel never runs out *)
Lemma read_num_short : forall n s v r, read_num n s = Ok (v, r) -> (length r + n = length s)%nat.
Proof. intros n s v r H. apply read_num_ok in H. destruct H as (b & -> & L & _). rewrite app_length. lia. Qed.
Lemma read_short : forall n s b r, read n s = (b, r) -> (length r <= length s)%nat.
Proof. intros n s b r H. apply read_split in H. destruct H as [-> _]. rewrite app_length. lia. Qed.
Lemma read_num_fuel : forall n s, read_num n s <> Err OutOfFuel.
Proof. intros n s. unfold read_num. destruct (read _ s). unfold unpack. destruct (Nat.eqb _ _); discriminate. Qed.
Lemma read_string_short : forall s o r, read_string s = Ok (o, r) -> (length r < length s)%nat.
Proof.
  intros s o r H. unfold read_string in H. apply bind_ok in H. destruct H as ([x s1] & R1 & H). apply read_num_short in R1. destruct (negb (x =? 0)); [injection H as _ <-; lia|].
  apply bind_ok in H. destruct H as ([n s2] & R2 & H). apply read_num_short in R2. apply bind_ok in H. destruct H as ([m s3] & R3 & H).
  assert (length s3 <= length s2)%nat by (destruct (n =? 255); [apply read_num_short in R3; lia|injection R3 as _ ->; lia]).
  destruct (read m s3) as [b r'] eqn:R4. apply read_short in R4. destruct (utf8_decode b); [|discriminate]. injection H as _ <-. lia.
Qed.
Lemma bind_err : forall {A B} (a : result A) (f : A -> result B) e, (let* x := a in f x) = Err e -> a = Err e \/ exists x, a = Ok x /\ f x = Err e.
Proof. intros A B [x|e'] f e H; cbn [bind] in H; [right; exists x; auto|left; congruence]. Qed.
Lemma read_string_fuel : forall s, read_string s <> Err OutOfFuel.
Proof.
  intros s H. unfold read_string in H. apply bind_err in H. destruct H as [H|([x s1] & _ & H)]; [exact (read_num_fuel _ _ H)|]. destruct (negb (x =? 0)); [discriminate|].
  apply bind_err in H. destruct H as [H|([n s2] & _ & H)]; [exact (read_num_fuel _ _ H)|]. apply bind_err in H. destruct H as [H|([m s3] & _ & H)].
  - destruct (n =? 255); [exact (read_num_fuel _ _ H)|discriminate].
  - destruct (read m s3). destruct (utf8_decode _); discriminate.
Qed.
Lemma read_entries_fuel : forall node, (forall s, node s <> Err OutOfFuel) -> (forall s v r, node s = Ok (v, r) -> (length r <= length s)%nat) ->
  forall fuel n s out, (length s < fuel)%nat -> read_entries node fuel n s out <> Err OutOfFuel.
Proof.
  intros node N1 N2. induction fuel as [|fuel IH]; intros n s out L H; [lia|]. cbn [read_entries] in H. destruct (n =? 0); [discriminate|].
  apply bind_err in H. destruct H as [H|([k s1] & R & H)]; [exact (read_string_fuel _ H)|]. apply read_string_short in R.
  apply bind_err in H. destruct H as [H|([v s2] & R2 & H)]; [exact (N1 _ H)|]. apply N2 in R2. refine (IH _ _ _ _ H). lia.
Qed.
Lemma read_entries_short : forall node, (forall s v r, node s = Ok (v, r) -> (length r <= length s)%nat) ->
  forall fuel n s out d r, read_entries node fuel n s out = Ok (d, r) -> (length r <= length s)%nat.
Proof.
  intros node N2. induction fuel as [|fuel IH]; intros n s out d r H; cbn [read_entries] in H; destruct (n =? 0); try discriminate; try (injection H as _ <-; lia).
  apply bind_ok in H. destruct H as ([k s1] & R & H). apply read_string_short in R. apply bind_ok in H. destruct H as ([v s2] & R2 & H). apply N2 in R2. apply IH in H. lia.
Qed.
Lemma read_node_short : forall limit s v r, read_node limit s = Ok (v, r) -> (length r <= length s)%nat.
Proof.
  induction limit as [|limit IH]; intros s v r H; [discriminate|]. cbn [read_node] in H. apply bind_ok in H. destruct H as ([k s0] & R0 & H). apply read_num_short in R0.
  destruct (read 1 s0) as [fb s1] eqn:RF. apply read_short in RF. repeat match type of H with (if ?b then _ else _) = _ => destruct b end; try discriminate;
  try (injection H as _ <-; lia); apply bind_ok in H; destruct H as ([x s2] & R & H); try discriminate;
  try (injection H as _ <-; first [apply read_num_short in R | apply read_string_short in R]; lia).
  apply bind_ok in H. destruct H as ([d s3] & R' & H). injection H as _ <-. apply read_num_short in R. apply (read_entries_short _ IH) in R'. lia.
Qed.
Lemma read_node_fuel : forall limit s, read_node limit s <> Err OutOfFuel.
Proof.
  induction limit as [|limit IH]; intros s H; [discriminate|]. cbn [read_node] in H. apply bind_err in H. destruct H as [H|([k s0] & R0 & H)]; [exact (read_num_fuel _ _ H)|].
  destruct (read 1 s0) as [fb s1]. repeat match type of H with (if ?b then _ else _) = _ => destruct b end; try discriminate;
  apply bind_err in H; destruct H as [H|([x s2] & R & H)]; try (exact (read_num_fuel _ _ H)); try (exact (read_string_fuel _ H)); try discriminate.
  apply bind_err in H. destruct H as [H|([d s3] & R' & H)]; [|discriminate]. refine (read_entries_fuel _ IH (read_node_short limit) _ _ _ _ _ H). lia.
Qed.

(** *** the writer *)
Lemma le_bytes_little : forall n v, v < 256 ^ N.of_nat n -> little n v (le_bytes n v).
Proof.
  induction n as [|n IH]; intros v H; cbn [le_bytes].
  - cbn in H. replace v with 0 by lia. constructor.
  - rewrite Nat2N.inj_succ, N.pow_succ_r' in H. pose proof (N.div_mod v 256 ltac:(discriminate)) as D. pose proof (N.mod_lt v 256 ltac:(discriminate)) as M.
    rewrite D at 1. rewrite N.add_comm. constructor; [exact M|]. apply IH. apply N.div_lt_upper_bound; [discriminate|exact H].
Qed.
Definition plain (v : value) : bool := match v with VNone | VBool _ | VInt _ => true | VFloat x => x <? 2 ^ 64 | _ => false end.
Lemma write_plain : forall limit v b r m, plain v = true -> write_node limit v = Ok b -> read_node (S m) (b ++ r) = Ok (v, r).
Proof.
  intros limit v b r m P H. destruct limit as [|limit]; [discriminate|].
  assert (G : exists t, encodes t b /\ levels t = 1%nat /\ value_of t = v).
  { destruct v as [|x|x|x|z|l|d]; try discriminate P; cbn [write_node] in H.
    - injection H as <-. exists TNone. split; [constructor; reflexivity|split; reflexivity].
    - injection H as <-. exists (TBool x). split; [destruct x; constructor; lia|split; reflexivity].
    - injection H as <-. cbn [plain] in P. apply N.ltb_lt in P. exists (TFloat x). split; [apply (e_float 0); [lia|apply (le_bytes_little 8); exact P]|split; reflexivity].
    - unfold pack_q in H. destruct ((- 2 ^ 63 <=? z) && (z <? 2 ^ 63))%Z%bool eqn:B; [|discriminate]. cbn [bind] in H. injection H as <-.
      apply andb_true_iff in B. rewrite Z.leb_le, Z.ltb_lt in B. exists (TInt z). split; [|split; reflexivity].
      apply (e_int 0); [lia|exact B|]. apply (le_bytes_little 8). change (256 ^ N.of_nat 8) with (Z.to_N (2 ^ 64)).
      pose proof (Z.mod_pos_bound z (2 ^ 64) ltac:(reflexivity)). lia. }
  destruct G as (t & E & L & <-). apply decode_tree; [exact E|lia].
Qed.
(** A string that is not empty comes back as nothing, and its text is left. *)
Lemma write_string_lost : forall limit s b r m, s <> [] -> write_node limit (VStr s) = Ok b ->
  exists u, utf8_encode s = Some u /\ read_node (S m) (b ++ r) = Ok (VNone, u ++ r).
Proof.
  intros limit s b r m NE H. destruct limit as [|limit]; [discriminate|]. cbn [write_node] in H. unfold write_string in H.
  destruct (255 <=? N.of_nat (length s)); [discriminate|]. destruct (utf8_encode s) as [u|] eqn:U; [|discriminate]. injection H as <-. exists u. split; [reflexivity|].
  cbn [app read_node]. rewrite read_num_one. cbn [bind]. rewrite read_one. cbn [N.eqb Pos.eqb]. unfold read_string. rewrite read_num_one. cbn [bind].
  destruct (N.eqb_spec (N.of_nat (length s)) 0) as [E|E]; [destruct s; [contradiction|cbn in E; lia]|]. reflexivity.
Qed.
Lemma write_dict_nothing : forall limit d b, write_node limit (VDict d) = Ok b -> b = [].
Proof. intros [|limit] d b H; [discriminate|]. injection H as <-. reflexivity. Qed.

Lemma last_of_spec : forall {V} (l : list (option pystr * V)) k v, last_of k l = Some v <-> exists l1 l2, l = l1 ++ (k, v) :: l2 /\ ~ In k (map fst l2).
Proof.
  intros V l k v. induction l as [|[k' v'] l IH] using rev_ind.
  - split; [discriminate|]. intros (l1 & l2 & E & _). destruct l1; discriminate.
  - rewrite last_of_snoc. destruct (key_dec k k') as [->|N]; split.
    + intros H. injection H as ->. exists l, []. split; [reflexivity|intros []].
    + intros (l1 & l2 & E & A). destruct l2 as [|p l2] using rev_ind.
      * apply app_inj_tail in E. destruct E as [_ E]. congruence.
      * exfalso. apply A. change ((k', v) :: l2 ++ [p]) with (((k', v) :: l2) ++ [p]) in E. rewrite app_assoc in E. apply app_inj_tail in E. destruct E as [_ <-].
        rewrite map_app. apply in_app_iff. right. left. reflexivity.
    + intros H. apply IH in H. destruct H as (l1 & l2 & -> & A). exists l1, (l2 ++ [(k', v')]). split; [rewrite <- app_assoc; reflexivity|].
      rewrite map_app, in_app_iff. cbn. intros [H|[H|[]]]; [exact (A H)|congruence].
    + intros (l1 & l2 & E & A). apply IH. destruct l2 as [|p l2] using rev_ind.
      * apply app_inj_tail in E. destruct E as [_ E]. congruence.
      * change ((k, v) :: l2 ++ [p]) with (((k, v) :: l2) ++ [p]) in E. rewrite app_assoc in E. apply app_inj_tail in E. destruct E as [-> _].
        exists l1, l2. split; [reflexivity|]. intros I. apply A. rewrite map_app. apply in_app_iff. left. exact I.
Qed.
Lemma collapse_spec : forall {V} (l : list (option pystr * V)),
  map fst (collapse l) = first_seen (map fst l) /\ NoDup (map fst (collapse l)) /\
  forall k v, In (k, v) (collapse l) <-> exists l1 l2, l = l1 ++ (k, v) :: l2 /\ ~ In k (map fst l2).
Proof.
  intros V l. pose proof (puts_keys l) as K. pose proof (collapse_puts l) as C. cbv zeta in K, C. rewrite C in K.
  split; [exact K|]. split; [rewrite K; apply first_seen_nodup|]. intros k v. rewrite <- last_of_spec. unfold collapse. rewrite in_flat_map. split.
  - intros (k' & _ & I). destruct (last_of k' l) as [w|] eqn:E; [|destruct I]. destruct I as [I|[]]. injection I as -> ->. exact E.
  - intros H. exists k. split; [apply first_seen_in; apply last_of_some; congruence|]. rewrite H. left. reflexivity.
Qed.
