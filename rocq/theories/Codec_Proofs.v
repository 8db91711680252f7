(** Blueprint strings: the text written denotes the value, and the two
    conversions put together. *)
From Coq Require Import ZArith NArith List Bool String Lia.
From Verif Require Import Common Dict Version_Model Version_Proofs Codec_Model Codec_Spec Codec_Base64_Proofs Codec_Json_Proofs.
Import ListNotations.
Local Open Scope string_scope.
Local Open Scope list_scope.
Local Open Scope N_scope.

(** *** strings *)
Lemma hex_digit_hex : forall n, n < 16 -> hex (hex_digit n) n /\ 0 < hex_digit n < 128.
Proof.
  intros n H. assert (A : forallb (fun n => eq_opt (nth_error low_hex (N.to_nat n)) (Some (hex_digit n)) && (0 <? hex_digit n) && (hex_digit n <? 128)) (upto 16) = true) by (vm_compute; reflexivity).
  rewrite forallb_forall in A. specialize (A n (upto_in 16 n H)). rewrite !andb_true_iff, !N.ltb_lt in A. destruct A as [[A1 A2] A3].
  apply eq_opt_eq in A1. split; [left; exact A1|auto].
Qed.
Definition units_of (c : N) : list item :=
  if c =? 34 then [Plain c]
  else if c =? 92 then [Plain c]
  else if (32 <=? c) && (c <=? 126) then [Plain c]
  else if c =? 10 then [Plain c] else if c =? 13 then [Plain c] else if c =? 9 then [Plain c] else if c =? 12 then [Plain c] else if c =? 8 then [Plain c]
  else if c <? 65536 then [Unit c]
  else [Unit (55296 + (c - 65536) / 1024); Unit (56320 + (c - 65536) mod 1024)].
Lemma hex_split : forall n, n < 65536 ->
  n / 4096 < 16 /\ n / 256 mod 16 < 16 /\ n / 16 mod 16 < 16 /\ n mod 16 < 16 /\
  n / 4096 * 4096 + n / 256 mod 16 * 256 + n / 16 mod 16 * 16 + n mod 16 = n.
Proof.
  intros n H. split; [apply N.div_lt_upper_bound; lia|]. do 3 (split; [apply N.mod_lt; lia|]).
  replace (n / 4096) with (n / 16 / 16 / 16) by (rewrite !N.div_div by lia; reflexivity).
  replace (n / 256) with (n / 16 / 16) by (rewrite N.div_div by lia; reflexivity).
  pose proof (N.div_mod n 16 ltac:(lia)). pose proof (N.div_mod (n / 16) 16 ltac:(lia)). pose proof (N.div_mod (n / 16 / 16) 16 ltac:(lia)).
  set (a := n / 16) in *. set (b := a / 16) in *. set (c := b / 16) in *. set (x := n mod 16) in *. set (y := a mod 16) in *. set (z := b mod 16) in *. clearbody a b c x y z. lia.
Qed.
Lemma unit_body : forall n s l, n < 65536 -> body s l -> body (u_escape n ++ s) (Unit n :: l).
Proof.
  intros n s l H B. destruct (hex_split n H) as (A1 & A2 & A3 & A4 & E). unfold u_escape, hex4. cbn [app]. rewrite <- E at 5.
  apply b_unit; try (apply hex_digit_hex; assumption). exact B.
Qed.
Lemma pair_parts : forall c, 65536 <= c < 1114112 -> high (55296 + (c - 65536) / 1024) /\ low (56320 + (c - 65536) mod 1024) /\
  65536 + (55296 + (c - 65536) / 1024 - 55296) * 1024 + (56320 + (c - 65536) mod 1024 - 56320) = c.
Proof.
  intros c H. assert (A : (c - 65536) / 1024 < 1024) by (apply N.div_lt_upper_bound; lia). pose proof (N.mod_lt (c - 65536) 1024 ltac:(lia)) as B.
  pose proof (N.div_mod (c - 65536) 1024 ltac:(lia)) as E. set (q := (c - 65536) / 1024) in *. set (r := (c - 65536) mod 1024) in *. clearbody q r.
  unfold high, low. lia.
Qed.
Lemma high_small : forall u, high u -> u < 65536.
Proof. unfold high. intros. lia. Qed.
Lemma low_small : forall u, low u -> u < 65536.
Proof. unfold low. intros. lia. Qed.
Lemma escape_body : forall c s l, c < 1114112 -> body s l -> body (escape c ++ s) (units_of c ++ l).
Proof.
  intros c s l H B. unfold escape, units_of.
  destruct (N.eqb_spec c 34) as [->|N1]; [apply b_escape; [cbn; auto|exact B]|].
  destruct (N.eqb_spec c 92) as [->|N2]; [apply b_escape; [cbn; auto|exact B]|].
  destruct ((32 <=? c) && (c <=? 126)) eqn:R; [apply andb_true_iff in R; destruct R as [R _]; apply N.leb_le in R; apply b_plain; assumption|].
  destruct (N.eqb_spec c 10) as [->|]; [apply b_escape; [cbn; auto 10|exact B]|].
  destruct (N.eqb_spec c 13) as [->|]; [apply b_escape; [cbn; auto 10|exact B]|].
  destruct (N.eqb_spec c 9) as [->|]; [apply b_escape; [cbn; auto 10|exact B]|].
  destruct (N.eqb_spec c 12) as [->|]; [apply b_escape; [cbn; auto 10|exact B]|].
  destruct (N.eqb_spec c 8) as [->|]; [apply b_escape; [cbn; auto 10|exact B]|].
  destruct (N.ltb_spec c 65536) as [L|G]; [apply unit_body; assumption|].
  destruct (pair_parts c (conj G H)) as (A1 & A2 & _). apply high_small in A1. apply low_small in A2. rewrite <- app_assoc. apply (unit_body _ _ (Unit _ :: l) A1). apply unit_body; assumption.
Qed.
(** The first unit written for a character is a low surrogate only for that
    character itself. *)
Lemma units_first : forall c w l l', c < 1114112 -> units_of c ++ l = Unit w :: l' -> low w -> w = c.
Proof.
  intros c w l l' H E Lw. unfold units_of in E.
  repeat match type of E with (if ?b then _ else _) ++ _ = _ => let B := fresh "B" in destruct b eqn:B; [try discriminate|] end.
  - cbn in E. injection E as <- _. reflexivity.
  - apply N.ltb_ge in B7. destruct (pair_parts c (conj B7 H)) as (A1 & _). revert A1 E. generalize (55296 + (c - 65536) / 1024) (56320 + (c - 65536) mod 1024). intros h k A1 E.
    cbn [app] in E. injection E as E _. subst h. unfold high, low in *. lia.
Qed.
Lemma spelled_units : forall s t, fuse s t -> unicode s -> spelled (flat_map units_of s) t.
Proof.
  induction 1 as [|u w s t Hu Hw H IH|c s t P H IH]; intros U; [constructor| |].
  - inversion U as [|? ? _ U']; subst. inversion U' as [|? ? _ U'']; subst. specialize (IH U''). cbn [flat_map].
    assert (E : forall x, high x \/ low x -> units_of x = [Unit x]).
    { intros x Hx. assert (B : 55296 <= x <= 57343) by (unfold high, low in Hx; lia). unfold units_of.
      repeat match goal with |- (if ?a =? ?b then _ else _) = _ => destruct (N.eqb_spec a b); [lia|] | |- (if ?b then _ else _) = _ => let X := fresh in destruct b eqn:X; [apply andb_true_iff in X; rewrite !N.leb_le in X; lia|] end.
      destruct (N.ltb_spec x 65536); [reflexivity|lia]. }
    rewrite (E u (or_introl Hu)), (E w (or_intror Hw)). cbn [app]. apply s_pair; assumption.
  - inversion U as [|? ? Hc U']; subst. specialize (IH U'). cbn [flat_map]. unfold units_of at 1.
    repeat match goal with |- spelled ((if ?b then _ else _) ++ _) _ => let B := fresh "B" in destruct b eqn:B; [try (apply s_plain; exact IH)|] end.
    + cbn [app]. apply s_unit; [|exact IH]. intros w l' Hh E Lw. destruct s as [|c' s]; [discriminate|]. cbn [flat_map] in E.
      inversion U'; subst. assert (Ew : w = c') by (eapply units_first; eassumption). subst w. exact (P c' s Hh eq_refl Lw).
    + apply N.ltb_ge in B7. destruct (pair_parts c (conj B7 Hc)) as (A1 & A2 & A3). cbn [app].
      pose proof (s_pair _ _ _ _ A1 A2 IH) as R. rewrite A3 in R. exact R.
Qed.
Definition high_dec (u : N) : {high u} + {~ high u}.
Proof. destruct (is_high u) eqn:E; [left; apply is_high_iff; exact E|right; rewrite <- is_high_iff; congruence]. Defined.
Definition low_dec (u : N) : {low u} + {~ low u}.
Proof. destruct (is_low u) eqn:E; [left; apply is_low_iff; exact E|right; rewrite <- is_low_iff; congruence]. Defined.
Lemma fuse_total : forall n s, (List.length s <= n)%nat -> exists t, fuse s t.
Proof.
  induction n as [|n IH]; intros s Hn; [destruct s; [exists []; constructor|cbn in Hn; lia]|].
  destruct s as [|u [|w s]]; [exists []; constructor|exists [u]; apply fu_one; [intros; discriminate|constructor]|]. cbn [List.length] in Hn.
  destruct (high_dec u) as [Hu|Hu]; [destruct (low_dec w) as [Hw|Hw]|].
  - destruct (IH s ltac:(lia)) as [t Ht]. eexists. apply fu_pair; eassumption.
  - destruct (IH (w :: s) ltac:(cbn; lia)) as [t Ht]. eexists. apply fu_one; [|exact Ht]. intros w' s' _ E. injection E as <- <-. exact Hw.
  - destruct (IH (w :: s) ltac:(cbn; lia)) as [t Ht]. eexists. apply fu_one; [|exact Ht]. intros w' s' H. contradiction.
Qed.
Lemma fuse_length : forall s t, fuse s t -> (List.length t <= List.length s)%nat.
Proof. induction 1; cbn; lia. Qed.
Lemma fuse_self : forall s t, fuse s t -> unicode s -> (t = s <-> clean s).
Proof.
  intros s t H. induction H as [|u w s t Hu Hw H IH|c s t P H IH]; intros U.
  - split; [intros _; split; [constructor|intros [|? [|]]; discriminate]|reflexivity].
  - split.
    + intros E. pose proof (fuse_length _ _ H) as Hl. apply (f_equal (@List.length N)) in E. cbn in E. lia.
    + intros [_ C]. destruct (C [] u w s eq_refl Hu Hw).
  - inversion U as [|? ? Hc U']; subst. specialize (IH U'). split.
    + intros E. injection E as E. apply IH in E. destruct E as [_ C]. split; [exact U|]. intros [|x s1] u w s2 Es Hu.
      * cbn in Es. injection Es as <- ->. exact (P w s2 Hu eq_refl).
      * cbn in Es. injection Es as <- ->. eapply C; [reflexivity|exact Hu].
    + intros [_ C]. f_equal. apply IH. split; [exact U'|]. intros s1 u w s2 -> Hu. apply (C (c :: s1) u w s2); [reflexivity|exact Hu].
Qed.
Lemma body_units : forall s, Forall (fun c => c < 1114112) s -> body (flat_map escape s) (flat_map units_of s).
Proof.
  induction 1 as [|c s Hc H IH]; [constructor|]. cbn [flat_map]. apply escape_body; assumption.
Qed.
Lemma quote_text : forall s t, unicode s -> fuse s t -> string_text (quote s) t.
Proof. intros s t U H. exists (flat_map escape s), (flat_map units_of s). split; [reflexivity|]. split; [apply body_units; exact U|apply spelled_units; assumption]. Qed.

(** *** ASCII *)
Definition ascii (s : pystr) : Prop := Forall (fun x => 0 < x < 128) s.
Lemma ascii_app : forall a b, ascii a -> ascii b -> ascii (a ++ b).
Proof. intros a b A B. apply Forall_app. auto. Qed.
Ltac asc := repeat (apply Forall_cons; [split; reflexivity|]); try apply Forall_nil.
Lemma u_escape_ascii : forall n, n < 65536 -> ascii (u_escape n).
Proof.
  intros n H. destruct (hex_split n H) as (A1 & A2 & A3 & A4 & _). unfold u_escape, hex4. do 2 (apply Forall_cons; [split; reflexivity|]).
  repeat (apply Forall_cons; [apply hex_digit_hex; assumption|]). apply Forall_nil.
Qed.
Lemma escape_ascii : forall c, c < 1114112 -> ascii (escape c).
Proof.
  intros c H. unfold escape.
  destruct (N.eqb_spec c 34); [asc|]. destruct (N.eqb_spec c 92); [asc|].
  destruct ((32 <=? c) && (c <=? 126)) eqn:R; [apply andb_true_iff in R; rewrite !N.leb_le in R; apply Forall_cons; [lia|apply Forall_nil]|].
  destruct (c =? 10); [asc|]. destruct (c =? 13); [asc|]. destruct (c =? 9); [asc|]. destruct (c =? 12); [asc|]. destruct (c =? 8); [asc|].
  destruct (N.ltb_spec c 65536) as [L|G]; [apply u_escape_ascii; exact L|].
  destruct (pair_parts c (conj G H)) as (A1 & A2 & _). apply high_small in A1. apply low_small in A2. apply ascii_app; apply u_escape_ascii; assumption.
Qed.
Lemma quote_ascii : forall s, Forall (fun c => c < 1114112) s -> ascii (quote s).
Proof.
  intros s H. unfold quote. apply Forall_cons; [split; reflexivity|]. apply ascii_app; [|asc].
  induction H as [|c s Hc H IH]; [constructor|]. cbn [flat_map]. apply ascii_app; [apply escape_ascii; exact Hc|exact IH].
Qed.
Lemma digits_ascii : forall s, Forall is_dec s -> ascii s.
Proof. intros s H. eapply Forall_impl; [|exact H]. intros c B. unfold is_dec in B. lia. Qed.
Lemma whole_ascii : forall s, whole s -> ascii s.
Proof. intros s H. apply digits_ascii, whole_digits, H. Qed.
Lemma float_ascii : forall s, float_text s -> ascii s.
Proof.
  intros s (sg & w & fr & ex & -> & Hsg & W & H).
  assert (Af : fraction fr -> ascii fr) by (intros (ds & -> & _ & D); apply Forall_cons; [split; reflexivity|apply digits_ascii; exact D]).
  assert (Ae : exponent ex -> ascii ex).
  { intros (e & sg' & ds & -> & He & Hs & _ & D). apply Forall_cons; [destruct He as [->| ->]; split; reflexivity|]. apply ascii_app; [|apply digits_ascii; exact D].
    destruct Hs as [->|[->| ->]]; asc. }
  apply ascii_app; [destruct Hsg as [->| ->]; asc|]. apply ascii_app; [apply whole_ascii; exact W|].
  destruct H as [[Hf [->|He]]|[-> He]]; apply ascii_app; auto; constructor.
Qed.
Lemma nat_str_whole : forall n, whole (nat_str n).
Proof.
  assert (G : forall f n acc, (N.to_nat (N.log2 n) < f)%nat -> n <> 0 -> exists c r, dec_digits f n acc = c :: r ++ acc /\ 49 <= c <= 57 /\ Forall is_dec r).
  { induction f as [|f IH]; intros n acc Hf Hn; [lia|]. cbn [dec_digits]. destruct (N.ltb_spec n 10) as [Ln|Gn].
    - exists (48 + n mod 10), []. split; [reflexivity|]. rewrite N.mod_small by lia. split; [lia|constructor].
    - assert (Q : n / 10 <> 0) by (intros X; apply N.div_small_iff in X; lia).
      destruct (IH (n / 10) (48 + n mod 10 :: acc)) as (c & r & E & B & D); [|exact Q|].
      + assert (N.log2 (n / 10) < N.log2 n); [|lia].
        assert (M : n / 10 <= N.shiftr n 1) by (rewrite N.shiftr_div_pow2; apply N.div_le_compat_l; split; [reflexivity|discriminate]). clear Q.
        apply N.log2_le_mono in M. rewrite N.log2_shiftr in M. assert (3 <= N.log2 n) by (apply (N.log2_le_mono 8 n); lia). lia.
      + exists c, (r ++ [48 + n mod 10]). split; [rewrite E; cbn [app]; rewrite <- app_assoc; reflexivity|]. split; [exact B|]. apply Forall_app. split; [exact D|].
        apply Forall_cons; [|apply Forall_nil]. clear - n. pose proof (N.mod_lt n 10 ltac:(discriminate)) as X. revert X. generalize (n mod 10). unfold is_dec. intros. lia. }
  intros n. destruct (N.eq_dec n 0) as [->|Hn]; [left; reflexivity|]. right. unfold nat_str.
  destruct (G (S (N.to_nat (N.log2 n))) n [] ltac:(lia) Hn) as (c & r & E & B & D). exists c, r. rewrite E, app_nil_r. auto.
Qed.
Lemma int_str_text : forall z, int_text (int_str z) z.
Proof.
  intros z. unfold int_str. destruct (Z.ltb_spec z 0) as [Ln|Gn].
  - right. exists (nat_str (Z.to_N (- z))). split; [reflexivity|]. split; [apply nat_str_whole|]. destruct (nat_str_spec (Z.to_N (- z))) as (_ & _ & E).
    unfold dec_value. unfold digit_val in E. rewrite E. lia.
  - left. split; [apply nat_str_whole|]. destruct (nat_str_spec (Z.to_N z)) as (_ & _ & E). unfold dec_value. unfold digit_val in E. rewrite E. lia.
Qed.
Lemma int_ascii : forall s z, int_text s z -> ascii s.
Proof. intros s z [[W _]|(w & -> & W & _)]; [apply whole_ascii; exact W|]. apply Forall_cons; [split; reflexivity|apply whole_ascii; exact W]. Qed.

(** *** values *)
Section Json_ind.
  Variable F : Type.
  Variable Q : json F -> Prop.
  Hypothesis Hnull : Q JNull.
  Hypothesis Hbool : forall b, Q (JBool b).
  Hypothesis Hint : forall z, Q (JInt z).
  Hypothesis Hfloat : forall f, Q (JFloat f).
  Hypothesis Hnan : Q JNaN.
  Hypothesis Hinf : Q JInf.
  Hypothesis Hneginf : Q JNegInf.
  Hypothesis Hstr : forall s, Q (JStr s).
  Hypothesis Hlist : forall l, (forall v, In v l -> Q v) -> Q (JList l).
  Hypothesis Hobj : forall l, (forall k v, In (k, v) l -> Q v) -> Q (JObj l).
  Fixpoint json_ind' (v : json F) : Q v :=
    match v with
    | JNull => Hnull | JBool b => Hbool b | JInt z => Hint z | JFloat f => Hfloat f | JNaN => Hnan | JInf => Hinf | JNegInf => Hneginf | JStr s => Hstr s
    | JList l => Hlist l ((fix go (l : list (json F)) : forall v, In v l -> Q v :=
        match l with [] => fun v (H : In v []) => match H with end
        | a :: l' => fun v H => match H with or_introl E => eq_ind a Q (json_ind' a) v E | or_intror H' => go l' v H' end end) l)
    | JObj l => Hobj l ((fix go (l : list (pystr * json F)) : forall k v, In (k, v) l -> Q v :=
        match l with [] => fun k v (H : In (k, v) []) => match H with end
        | (k0, a) :: l' => fun k v H => match H with
            | or_introl E => eq_ind a Q (json_ind' a) v (f_equal snd E) | or_intror H' => go l' k v H' end end) l)
    end.
End Json_ind.

Section Dump.
  Variable L : lib.
  Hypothesis Hlib : faithful L.

  Lemma max_in : forall l n, In n l -> (n <= fold_right Nat.max 0 l)%nat.
  Proof. induction l as [|a l IH]; intros n H; [destruct H|]. cbn. destruct H as [->|H]; [lia|]. specialize (IH n H). lia. Qed.
  Lemma max_le : forall l m, (forall n, In n l -> (n <= m)%nat) -> (fold_right Nat.max 0 l <= m)%nat.
  Proof. induction l as [|a l IH]; intros m H; cbn; [lia|]. pose proof (H a (or_introl eq_refl)). specialize (IH m (fun n I => H n (or_intror I))). lia. Qed.
  Lemma depth_list : forall (l : list (json (flt L))) d, (depth (JList l) <= S d)%nat <-> forall v, In v l -> (depth v <= d)%nat.
  Proof.
    intros l d. cbn [depth]. split.
    - intros H v I. pose proof (max_in (map depth l) (depth v) (in_map _ _ _ I)). lia.
    - intros H. assert (fold_right Nat.max 0 (map depth l) <= d)%nat; [|lia]. apply max_le. intros n I. apply in_map_iff in I. destruct I as (v & <- & I). auto.
  Qed.
  Lemma depth_obj : forall (l : list (pystr * json (flt L))) d, (depth (JObj l) <= S d)%nat <-> forall k v, In (k, v) l -> (depth v <= d)%nat.
  Proof.
    intros l d. cbn [depth]. split.
    - intros H k v I. pose proof (max_in (map (fun p => depth (snd p)) l) (depth v) (in_map (fun p => depth (snd p)) _ _ I)). lia.
    - intros H. assert (fold_right Nat.max 0 (map (fun p => depth (snd p)) l) <= d)%nat; [|lia]. apply max_le. intros n I. apply in_map_iff in I. destruct I as ([k v] & <- & I). eauto.
  Qed.
  Lemma map_result_good : forall {A} (f : A -> result pystr) (R : A -> pystr -> Prop) l,
    (forall x, In x l -> exists t, f x = Ok t /\ R x t) -> exists ts, map_result f l = Ok ts /\ Forall2 R l ts.
  Proof.
    intros A f R. induction l as [|x l IH]; intros H; [exists []; split; [reflexivity|constructor]|].
    destruct (H x (or_introl eq_refl)) as (t & E & Rt). destruct (IH (fun y I => H y (or_intror I))) as (ts & Es & Rs).
    exists (t :: ts). cbn [map_result]. rewrite E. cbn [bind]. rewrite Es. split; [reflexivity|constructor; assumption].
  Qed.
  Lemma map_result_first : forall {A} (f : A -> result pystr) l e, map_result f l = Err e -> exists x, In x l /\ f x = Err e.
  Proof.
    intros A f. induction l as [|x l IH]; intros e H; [discriminate|]. cbn [map_result] in H. destruct (f x) as [t|e'] eqn:E; cbn [bind] in H.
    - destruct (map_result f l) as [ts|e'] eqn:E'; cbn [bind] in H; [discriminate|]. injection H as ->. destruct (IH e eq_refl) as (y & I & Y). exists y. split; [right; exact I|exact Y].
    - injection H as ->. exists x. split; [left; reflexivity|exact E].
  Qed.
  Lemma join_ascii : forall ts, Forall ascii ts -> ascii (join_with [44] ts).
  Proof.
    induction 1 as [|t ts H Hs IH]; [constructor|]. destruct ts as [|t' ts]; [exact H|]. cbn [join_with]. apply ascii_app; [exact H|]. apply ascii_app; [asc|exact IH].
  Qed.
  Lemma white_nil : white [].
  Proof. constructor. Qed.
  Lemma items_join : forall d l ts, Forall2 (fun v t => means L d t v) l ts -> l <> [] -> items L d (join_with [44] ts) l.
  Proof.
    intros d l ts H. induction H as [|v t l ts Hv Hs IH]; intros Ne; [congruence|]. destruct ts as [|t' ts].
    - inversion Hs; subst. cbn [join_with]. rewrite <- (app_nil_r t). constructor; [exact Hv|constructor].
    - cbn [join_with]. destruct l as [|v' l]; [inversion Hs|]. specialize (IH ltac:(discriminate)).
      exact (i_more L d t v [] [] _ _ Hv white_nil white_nil IH).
  Qed.
  Lemma pairs_join : forall d l ts, Forall2 (fun p t => exists k s, t = quote k ++ 58 :: s /\ unicode k /\ fuse k (fst p) /\ means L d s (snd p)) l ts -> l <> [] ->
    pairs L d (join_with [44] ts) l.
  Proof.
    intros d l ts H. induction H as [|[kt v] t l ts Hv Hs IH]; intros Ne; [congruence|]. destruct Hv as (k & s & -> & Uk & Fk & Ms). cbn [fst snd] in *.
    pose proof (quote_text k kt Uk Fk) as Q. destruct ts as [|t' ts].
    - inversion Hs; subst. cbn [join_with]. pose proof (o_one L d (quote k) kt [] [] s v [] Q white_nil white_nil Ms white_nil) as R. cbn [app] in R. rewrite app_nil_r in R. exact R.
    - destruct l as [|p l]; [inversion Hs|]. specialize (IH ltac:(discriminate)).
      pose proof (o_more L d (quote k) kt [] [] s v [] [] _ _ Q white_nil white_nil Ms white_nil white_nil IH) as R. cbn [app] in R.
      change (join_with [44] ((quote k ++ 58 :: s) :: t' :: ts)) with ((quote k ++ 58 :: s) ++ [44] ++ join_with [44] (t' :: ts)). rewrite <- app_assoc. exact R.
  Qed.

  Lemma dumps_obj : forall d l, dumps L (S d) (JObj l) =
    let* ts := map_result (fun p : pystr * json (flt L) => let* t := dumps L d (snd p) in Ok (quote (fst p) ++ 58 :: t : pystr)) l in
    Ok (123 :: join_with [44] ts ++ [125]).
  Proof. reflexivity. Qed.
  Lemma dumps_good : forall v, valid v -> forall d, (depth v <= d)%nat -> exists t v', dumps L d v = Ok t /\ ascii t /\ fused v v' /\
    forall d', (depth v <= d')%nat -> means L d' t v'.
  Proof.
    induction v using json_ind'; intros St d Hd.
    - destruct d; exists (str "null"), JNull; (split; [reflexivity|split; [asc|split; [constructor|intros; constructor]]]).
    - destruct b, d; eexists; eexists; (split; [reflexivity|split; [asc|split; [constructor|intros; constructor]]]).
    - exists (int_str z), (JInt z). split; [destruct d; reflexivity|]. split; [eapply int_ascii, int_str_text|]. split; [constructor|]. intros d' _. constructor. apply int_str_text.
    - exists (float_repr L f), (JFloat f). split; [destruct d; reflexivity|]. split; [apply float_ascii, (float_written L Hlib)|]. split; [constructor|]. intros d' _.
      pose proof (m_float L d' _ (float_written L Hlib f)) as R. rewrite (float_read L Hlib) in R. exact R.
    - destruct d; exists (str "NaN"), JNaN; (split; [reflexivity|split; [asc|split; [constructor|intros; constructor]]]).
    - destruct d; exists (str "Infinity"), JInf; (split; [reflexivity|split; [asc|split; [constructor|intros; constructor]]]).
    - destruct d; exists (str "-Infinity"), JNegInf; (split; [reflexivity|split; [asc|split; [constructor|intros; constructor]]]).
    - inversion St as [| | | | | | |? U| |]; subst. destruct (fuse_total _ s (le_n _)) as [t Ft]. exists (quote s), (JStr t). split; [destruct d; reflexivity|]. split; [apply quote_ascii; exact U|].
      split; [constructor; exact Ft|]. intros d' _. constructor. apply quote_text; assumption.
    - inversion St as [| | | | | | | |? Sl|]; subst. destruct d as [|d]; [cbn in Hd; lia|]. rewrite depth_list in Hd.
      destruct (map_result_good (dumps L d) (fun v t => ascii t /\ exists v', fused v v' /\ forall d', (depth v <= d')%nat -> means L d' t v') l) as (ts & E & R).
      { intros v I. destruct (H v I (Sl v I) d (Hd v I)) as (t & v' & T1 & T2 & T3 & T4). exists t. eauto 6. }
      assert (A : Forall ascii ts) by (clear - R; induction R as [|v t l ts [A _] _ IH]; constructor; auto).
      assert (M : exists m, fused_list l m /\ (l = [] <-> m = []) /\ forall d', (forall v, In v l -> (depth v <= d')%nat) -> Forall2 (fun v t => means L d' t v) m ts).
      { clear - R. induction R as [|v t l ts (_ & v' & Fv & M) _ (m & F & _ & IH)]; [exists []; split; [constructor|split; [tauto|constructor]]|].
        exists (v' :: m). split; [constructor; assumption|]. split; [split; discriminate|]. intros d' Hd'. constructor; [apply M, Hd'; left; reflexivity|apply IH; intros x I; apply Hd'; right; exact I]. }
      destruct M as (m & Fm & Nm & M). exists (91 :: join_with [44] ts ++ [93]), (JList m). split; [cbn [dumps]; rewrite E; reflexivity|]. split; [|split; [constructor; exact Fm|]].
      + apply Forall_cons; [split; reflexivity|]. apply ascii_app; [apply join_ascii; exact A|asc].
      + intros [|d'] Hd'; [cbn in Hd'; lia|]. rewrite depth_list in Hd'. specialize (M d' Hd'). destruct m as [|v0 m].
        * inversion M; subst. apply (m_list_nil L d' []). constructor.
        * apply (m_list L d' []); [constructor|]. apply items_join; [exact M|discriminate].
    - inversion St as [| | | | | | | | |? Nd Sl]; subst. destruct d as [|d]; [cbn in Hd; lia|]. rewrite depth_obj in Hd.
      destruct (map_result_good (fun p : pystr * json (flt L) => let* t := dumps L d (snd p) in Ok (quote (fst p) ++ 58 :: t : pystr))
        (fun p t => exists s v', t = quote (fst p) ++ 58 :: s /\ ascii t /\ unicode (fst p) /\ fused (snd p) v' /\ forall d', (depth (snd p) <= d')%nat -> means L d' s v') l) as (ts & E & R).
      { intros [k v] I. destruct (Sl k v I) as [Ck Sv]. destruct (H k v I Sv d (Hd k v I)) as (t & v' & T1 & T2 & T3 & T4). cbn [fst snd]. rewrite T1. cbn [bind].
        eexists. split; [reflexivity|]. exists t, v'. split; [reflexivity|]. split; [|auto]. apply ascii_app; [apply quote_ascii, Ck|]. apply Forall_cons; [split; reflexivity|exact T2]. }
      assert (A : Forall ascii ts) by (clear - R; induction R as [|v t l ts (s & v' & _ & A & _) _ IH]; constructor; auto).
      assert (M : exists m, fused_pairs l m /\ forall d', (forall k v, In (k, v) l -> (depth v <= d')%nat) ->
        Forall2 (fun p t => exists k s, t = quote k ++ 58 :: s /\ unicode k /\ fuse k (fst p) /\ means L d' s (snd p)) m ts).
      { clear - R. induction R as [|[k v] t l ts (s & v' & -> & _ & U & Fv & M) _ (m & F & IH)]; [exists []; split; [constructor|constructor]|].
        cbn [fst snd] in *. destruct (fuse_total _ k (le_n _)) as [kt Fk].
        exists ((kt, v') :: m). split; [constructor; assumption|]. intros d' Hd'. constructor; [|apply IH; intros k' x I; apply (Hd' k'); right; exact I].
        exists k, s. cbn [fst snd]. split; [reflexivity|]. split; [exact U|]. split; [exact Fk|]. apply M, (Hd' k). left. reflexivity. }
      destruct M as (m & Fm & M). exists (123 :: join_with [44] ts ++ [125]), (JObj (fold_left (put L) m [])).
      split; [rewrite dumps_obj, E; reflexivity|]. split; [|split; [eapply f_obj; [exact Fm|apply puts_dict]|]].
      + apply Forall_cons; [split; reflexivity|]. apply ascii_app; [apply join_ascii; exact A|asc].
      + intros [|d'] Hd'; [cbn in Hd'; lia|]. rewrite depth_obj in Hd'. specialize (M d' Hd'). destruct m as [|v0 m].
        * inversion M; subst. apply (m_obj_nil L d' []). constructor.
        * apply (m_obj L d' [] _ (v0 :: m)); [constructor| |apply puts_dict]. apply pairs_join; [exact M|discriminate].
  Qed.
  Lemma dumps_total : forall v d, (depth v <= d)%nat -> exists t, dumps L d v = Ok t.
  Proof.
    induction v using json_ind'; intros d Hd; try (destruct d; eexists; reflexivity).
    - destruct b, d; eexists; reflexivity.
    - destruct d as [|d]; [cbn in Hd; lia|]. rewrite depth_list in Hd.
      destruct (map_result_good (dumps L d) (fun _ _ => True) l) as (ts & E & _); [intros v I; destruct (H v I d (Hd v I)) as [t T]; eauto|].
      cbn [dumps]. rewrite E. eexists. reflexivity.
    - destruct d as [|d]; [cbn in Hd; lia|]. rewrite depth_obj in Hd. rewrite dumps_obj.
      match goal with |- context[map_result ?f l] => destruct (map_result_good f (fun _ _ => True) l) as (ts & E & _) end.
      { intros [k v] I. destruct (H k v I d (Hd k v I)) as [t T]. cbn [snd]. rewrite T. eexists. split; [reflexivity|exact Logic.I]. }
      rewrite E. eexists. reflexivity.
  Qed.
  Lemma dumps_error : forall v d e, dumps L d v = Err e -> e = RecursionError /\ (d < depth v)%nat.
  Proof.
    intros v d e H. split.
    2:{ destruct (Nat.le_gt_cases (depth v) d) as [X|X]; [|exact X]. destruct (dumps_total v d X). congruence. }
    revert v H. induction d as [|d IH]; intros v H; destruct v as [|[|]| | | | | | |l|l]; cbn [dumps] in H; try discriminate; try congruence.
    - destruct (map_result (dumps L d) l) as [ts|e'] eqn:E; cbn [bind] in H; [discriminate|]. injection H as ->. apply map_result_first in E. destruct E as (x & _ & E). eauto.
    - match type of H with context[map_result ?f l] => destruct (map_result f l) as [ts|e'] eqn:E end; cbn [bind] in H; [discriminate|]. injection H as ->.
      apply map_result_first in E. destruct E as ([k x] & _ & E). cbn [snd] in E. destruct (dumps L d x) as [t|e''] eqn:E'; cbn [bind] in E; [discriminate|]. injection E as ->. eauto.
  Qed.
  Lemma map_result_in : forall {A} (f : A -> result pystr) l ts x, map_result f l = Ok ts -> In x l -> exists t, f x = Ok t.
  Proof.
    intros A f. induction l as [|y l IH]; intros ts x H I; [destruct I|]. cbn [map_result] in H. destruct (f y) as [t|] eqn:E; [|discriminate]. cbn [bind] in H.
    destruct (map_result f l) as [ts'|]; [|discriminate]. destruct I as [->|I]; eauto.
  Qed.
  Lemma dumps_depth : forall d v t, dumps L d v = Ok t -> (depth v <= d)%nat.
  Proof.
    induction d as [|d IH]; intros v t H; destruct v as [| | | | | | | |l|l]; try (cbn; lia); try discriminate.
    - apply depth_list. intros v I. cbn [dumps] in H. destruct (map_result (dumps L d) l) as [ts|] eqn:E; [|discriminate]. destruct (map_result_in _ _ _ v E I). eauto.
    - apply depth_obj. intros k v I. rewrite dumps_obj in H. match type of H with context[map_result ?f l] => destruct (map_result f l) as [ts|] eqn:E end; [|discriminate].
      destruct (map_result_in _ _ _ (k, v) E I) as [t' X]. cbn [snd] in X. destruct (dumps L d v) eqn:Y; [|discriminate]. eauto.
  Qed.
End Dump.

(** *** the encoding of the bytes *)
Lemma starts_iff : forall w b, starts w b = true <-> begins w b.
Proof.
  intros w b. unfold starts, begins. destruct (after w b) as [r|] eqn:E.
  - apply after_iff in E. split; eauto.
  - split; [discriminate|]. intros [r Hr]. apply after_iff in Hr. congruence.
Qed.
Lemma starts_false : forall w b, starts w b = false <-> ~ begins w b.
Proof. intros w b. rewrite <- starts_iff. destruct (starts w b); split; congruence. Qed.
Lemma mark_det : forall e e' b, marked e b -> marked e' b -> e = e'.
Proof.
  assert (X : forall c d a a' b, begins (c :: a) b -> begins (d :: a') b -> c = d) by (intros c d a a' b [r ->] [r' E]; cbn in E; congruence).
  intros e e' b H H'. destruct e, e'; cbn [marked] in *; try reflexivity; try contradiction; exfalso;
    repeat match goal with H : _ /\ _ |- _ => destruct H | H : _ \/ _ |- _ => destruct H end;
    try contradiction;
    try (match goal with H : begins (?c :: _) ?b, H' : begins (?d :: _) ?b |- _ => pose proof (X _ _ _ _ _ H H'); discriminate end).
Qed.
Ltac kill := match goal with H : _ = _ :> list N |- _ => try discriminate H; injection H as; subst end.
Lemma unmark_det : forall e e' b, unmarked e b -> unmarked e' b -> e = e'.
Proof.
  intros e e' b H H'. destruct e, e'; cbn [unmarked] in *; try reflexivity; try contradiction; exfalso;
    repeat match goal with H : exists _, _ |- _ => destruct H | H : _ \/ _ |- _ => destruct H | H : _ /\ _ |- _ => destruct H end;
    subst; try congruence;
    try (match goal with H : forall x y z t r, _ = _ -> _ /\ _ |- _ => specialize (H _ _ _ _ _ eq_refl) end; destruct H; congruence);
    try (match goal with H : forall x y, _ = _ -> _ /\ _ |- _ => specialize (H _ _ eq_refl) end; match goal with H : _ /\ _ |- _ => destruct H end; congruence).
  all: try (match goal with H : forall x y z t r, _ = _ -> _ /\ _ |- _ => specialize (H _ _ _ _ _ eq_refl); destruct H; congruence end).
Qed.
Lemma detect_spelled : forall b, spelled_in (detect_encoding b) b.
Proof.
  intros b. unfold detect_encoding.
  destruct (starts [0; 0; 254; 255] b) eqn:A1; [left; left; apply starts_iff; exact A1|].
  destruct (starts [255; 254; 0; 0] b) eqn:A2; [left; right; apply starts_iff; exact A2|]. cbn [orb].
  destruct (starts [254; 255] b) eqn:A3; [left; split; [left; apply starts_iff; exact A3|apply starts_false; exact A2]|].
  destruct (starts [255; 254] b) eqn:A4; [left; split; [right; apply starts_iff; exact A4|apply starts_false; exact A2]|]. cbn [orb].
  destruct (starts [239; 187; 191] b) eqn:A5; [left; apply starts_iff; exact A5|].
  right. split.
  - apply starts_false in A1, A2, A3, A4, A5. intros [| | | | | | |] M; cbn [marked] in M; tauto.
  - clear. destruct b as [|x [|y [|z [|t r]]]].
    + split; intros; discriminate.
    + split; intros; discriminate.
    + destruct (N.eqb_spec x 0) as [->|Nx]; [right; eauto|]. destruct (N.eqb_spec y 0) as [->|Ny]; [right; eauto|]. split; [intros; discriminate|]. intros x' y' E. injection E as <- <-. auto.
    + split; intros; discriminate.
    + destruct (N.eqb_spec x 0) as [->|Nx].
      * destruct (N.eqb_spec y 0) as [->|Ny]; [cbn; eauto|]. left. exists y, z, t, r. auto.
      * destruct (N.eqb_spec y 0) as [->|Ny].
        -- destruct (N.eqb_spec z 0) as [->|Nz]; [destruct (N.eqb_spec t 0) as [->|Nt]|]; cbn [andb].
           ++ exists x, r. auto.
           ++ left. exists x, 0, t, r. auto.
           ++ left. exists x, z, t, r. auto.
        -- split; [intros x' y' z' t' r' E; injection E as <- <- _ _ _; auto|intros; discriminate].
Qed.
Lemma detect_iff : forall b e, spelled_in e b <-> detect_encoding b = e.
Proof.
  intros b e. split; [|intros <-; apply detect_spelled]. intros H. destruct (detect_spelled b) as [M|[N U]], H as [M'|[N' U']].
  - eapply mark_det; eassumption.
  - destruct (N' _ M).
  - destruct (N _ M').
  - eapply unmark_det; eassumption.
Qed.
Lemma ascii_utf8 : forall b, ascii b -> detect_encoding b = Utf8.
Proof.
  intros b H. apply detect_iff. right. split.
  - assert (X : forall c w, 128 <= c -> ~ begins (c :: w) b) by (intros c w Hc [r ->]; inversion H; lia).
    assert (Y : forall w, ~ begins (0 :: w) b) by (intros w [r ->]; inversion H; lia).
    intros [| | | | | | |] M; cbn [marked] in M; auto.
    + (eapply X; [|exact M]; lia).
    + destruct M as [[M|M] _]; (eapply X; [|exact M]; lia).
    + destruct M as [M|M]; [exact (Y _ M)|(eapply X; [|exact M]; lia)].
  - split; [intros x y z t r ->|intros x y ->]; inversion H as [|? ? A B]; subst; inversion B; subst; lia.
Qed.

(** *** the two conversions *)
Section Whole.
  Variable L : lib.
  Lemma string_to_JSON_iff : forall s v, string_to_JSON L s = Ok v <-> encodes L s v.
  Proof.
    intros s v. unfold string_to_JSON, encodes.
    assert (T : forall p, (s = [] /\ p = [] \/ exists c, s = c :: p) <-> p = tl s).
    { intros p. destruct s as [|c s]; cbn [tl]; split.
      - intros [[_ ->]|[c E]]; [reflexivity|discriminate].
      - intros ->. auto.
      - intros [[E _]|[c' E]]; [discriminate|injection E as _ ->; reflexivity].
      - intros ->. right. eauto. }
    split.
    - destruct (b64decode (tl s)) as [b|] eqn:B; cbn [bind]; [|discriminate]. destruct (decompress L b) as [t|] eqn:D; [|discriminate].
      unfold loads. destruct (decode L (detect_encoding t) t) as [text|] eqn:C; [|discriminate]. destruct (decode_text L text) as [v'|] eqn:V; [|discriminate].
      intros H. injection H as ->. apply b64decode_iff in B. destruct B as [B1 B2]. exists (tl s), b, t, (detect_encoding t), text. split; [apply T; reflexivity|]. do 3 (split; [assumption|]).
      split; [apply detect_spelled|]. split; [exact C|]. apply decode_text_iff. exact V.
    - intros (p & b & t & e & text & Hp & A & P & D & E & C & V). apply T in Hp. subst p. rewrite (proj2 (b64decode_iff (tl s) b) (conj A P)). cbn [bind]. rewrite D.
      unfold loads. apply detect_iff in E. rewrite E, C. rewrite (proj2 (decode_text_iff L text v) V). reflexivity.
  Qed.
  Lemma string_to_JSON_error : forall s, (exists v, string_to_JSON L s = Ok v) \/ string_to_JSON L s = Err MalformedBlueprintStringError.
  Proof. intros s. unfold string_to_JSON. destruct (bind _ _); eauto. Qed.
  Lemma malformed_iff : forall s, string_to_JSON L s = Err MalformedBlueprintStringError <-> ~ exists v, encodes L s v.
  Proof.
    intros s. split.
    - intros H [v E]. apply string_to_JSON_iff in E. congruence.
    - intros H. destruct (string_to_JSON_error s) as [[v E]|E]; [|exact E]. destruct H. exists v. apply string_to_JSON_iff. exact E.
  Qed.
  Lemma only_malformed : forall s e, string_to_JSON L s = Err e -> e = MalformedBlueprintStringError.
  Proof. intros s e H. destruct (string_to_JSON_error s) as [[v E]|E]; congruence. Qed.

  Lemma ascii_bytes : forall t, ascii t -> Forall (fun x => x < 256) t.
  Proof. intros t H. eapply Forall_impl; [|exact H]. intros x B. cbn in B. lia. Qed.
  Lemma text_roundtrip : faithful L -> forall t v, ascii t -> means L (load_limit L) t v ->
    forall c, string_to_JSON L (c :: b64encode (compress L t)) = Ok v.
  Proof.
    intros H t v A M c. apply string_to_JSON_iff. pose proof (ascii_bytes t A) as B. pose proof (zlib_bytes L H t B) as Cb.
    destruct (encode_payload _ Cb) as (P & A' & _). exists (b64encode (compress L t)), (compress L t), t, Utf8, t.
    split; [right; eauto|]. do 2 (split; [assumption|]). split; [apply (zlib_lossless L H); exact B|]. split; [apply detect_iff, ascii_utf8, A|].
    split; [apply (ascii_text L H), A|]. exists [], t, []. rewrite app_nil_r. split; [reflexivity|]. split; [constructor|]. split; [constructor|exact M].
  Qed.
  Lemma result_fused : faithful L -> forall v, valid v -> (depth v <= dump_limit L)%nat -> (depth v <= load_limit L)%nat ->
    exists s v', JSON_to_string L v = Ok (48 :: s) /\ fused v v' /\ forall c, string_to_JSON L (c :: s) = Ok v'.
  Proof.
    intros H v St D1 D2. destruct (dumps_good L H v St _ D1) as (t & v' & E & A & Fv & M). exists (b64encode (compress L t)), v'. unfold JSON_to_string. rewrite E. cbn [bind].
    split; [reflexivity|]. split; [exact Fv|]. intros c. apply text_roundtrip; auto.
  Qed.
  Lemma encode_error : forall v e, JSON_to_string L v = Err e <-> e = RecursionError /\ (dump_limit L < depth v)%nat.
  Proof.
    intros v e. unfold JSON_to_string. destruct (dumps L (dump_limit L) v) as [t|e'] eqn:E; cbn [bind]; split.
    - discriminate.
    - intros [_ Hd]. apply dumps_depth in E. lia.
    - intros X. injection X as <-. eapply dumps_error. exact E.
    - intros [-> _]. f_equal. apply (dumps_error L _ _ _ E).
  Qed.
  Lemma alphabet_only : faithful L -> forall v s, valid v -> JSON_to_string L v = Ok s -> exists r, s = 48 :: r /\ Forall (fun c => In c alphabet \/ c = PAD) r.
  Proof.
    intros H v s St E. unfold JSON_to_string in E. destruct (dumps L (dump_limit L) v) as [t|] eqn:D; [|discriminate]. cbn [bind] in E. injection E as <-.
    eexists. split; [reflexivity|].
    pose proof (dumps_depth L _ _ _ D) as Hd.
    destruct (dumps_good L H v St _ Hd) as (t' & v' & E' & A & _). rewrite D in E'. injection E' as <-.
    apply encode_payload. apply (zlib_bytes L H). apply ascii_bytes. exact A.
  Qed.

  (** *** fused values *)
  Lemma fused_list_self : forall (l m : list (json (flt L))), fused_list l m -> (forall v w, In v l -> fused v w -> (w = v <-> all_clean v)) ->
    (m = l <-> forall v, In v l -> all_clean v).
  Proof.
    intros l m X. induction X as [|v w l m Fv Fl IH]; intros H; [split; [intros _ v []|reflexivity]|].
    pose proof (H v w (or_introl eq_refl) Fv) as A. pose proof (IH (fun x y I => H x y (or_intror I))) as B. split.
    - intros E. injection E as E1 E2. intros x [<-|I]; [apply A; exact E1|apply B; assumption].
    - intros C. f_equal; [apply A, C; left; reflexivity|apply B; intros x I; apply C; right; exact I].
  Qed.
  Lemma fused_pairs_self : forall (l m : list (pystr * json (flt L))), fused_pairs l m ->
    (forall k v w, In (k, v) l -> unicode k /\ (fused v w -> (w = v <-> all_clean v))) ->
    List.length m = List.length l /\ (m = l <-> forall k v, In (k, v) l -> clean k /\ all_clean v).
  Proof.
    intros l m X. induction X as [|k k' v w l m Fk Fv Fl IH]; intros H; [split; [reflexivity|split; [intros _ k v []|reflexivity]]|].
    destruct (H k v w (or_introl eq_refl)) as [Uk A]. specialize (A Fv). pose proof (fuse_self k k' Fk Uk) as A'.
    destruct (IH (fun k x y I => H k x y (or_intror I))) as [Hl B]. split; [cbn; congruence|]. split.
    - intros E. injection E as E1 E2 E3. intros k0 x [I|I]; [injection I as <- <-; split; [apply A'; exact E1|apply A; exact E2]|apply B; assumption].
    - intros C. destruct (C k v (or_introl eq_refl)) as [C1 C2]. f_equal; [f_equal; [apply A'; exact C1|apply A; exact C2]|apply B; intros k0 x I; apply C; right; exact I].
  Qed.
  Lemma fused_self : forall v v' : json (flt L), valid v -> fused v v' -> (v' = v <-> all_clean v).
  Proof.
    induction v using json_ind'; intros v' V Fv; inversion Fv; subst; try (split; [constructor|reflexivity]).
    - inversion V; subst. pose proof (fuse_self s t ltac:(assumption) ltac:(assumption)) as X. split.
      + intros E. injection E as E. constructor. apply X. exact E.
      + intros C. inversion C; subst. f_equal. apply X. assumption.
    - inversion V as [| | | | | | | |? Vl|]; subst.
      assert (X : m = l <-> forall v, In v l -> all_clean v) by (apply fused_list_self; auto).
      split; [intros E; injection E as E; constructor; apply X; exact E|intros C; inversion C; subst; f_equal; apply X; assumption].
    - inversion V as [| | | | | | | | |? Nd Vl]; subst.
      destruct (fused_pairs_self l m) as [Hl X]; [assumption|intros k v w I; destruct (Vl k v I) as [U Vv]; split; [exact U|intros Fw; eapply H; eauto]|].
      assert (D : as_dict m o) by assumption. split.
      + intros E. injection E as ->. constructor. apply X. destruct D as [K Hm].
        assert (Nm : NoDup (map fst m)).
        { apply (NoDup_incl_NoDup (l := first_seen (map fst m))); [apply first_seen_nodup| |intros k I; apply first_seen_in; exact I]. rewrite <- K, !map_length, Hl. apply le_n. }
        apply (as_dict_unique L m); [apply as_dict_self; exact Nm|split; [exact K|exact Hm]].
      + intros C. inversion C; subst. f_equal. assert (E : m = l) by (apply X; assumption). subst m. apply (as_dict_unique L l); [exact D|apply as_dict_self; exact Nd].
  Qed.
  Lemma roundtrip_iff : faithful L -> forall v, valid v -> (depth v <= dump_limit L)%nat -> (depth v <= load_limit L)%nat ->
    exists s, JSON_to_string L v = Ok (48 :: s) /\ forall c, (string_to_JSON L (c :: s) = Ok v <-> all_clean v).
  Proof.
    intros H v V D1 D2. destruct (result_fused H v V D1 D2) as (s & v' & E & Fv & R). exists s. split; [exact E|]. intros c. rewrite R.
    rewrite <- (fused_self v v' V Fv). split; congruence.
  Qed.
  Lemma roundtrip : faithful L -> forall v, valid v -> all_clean v -> (depth v <= dump_limit L)%nat -> (depth v <= load_limit L)%nat ->
    exists s, JSON_to_string L v = Ok (48 :: s) /\ forall c, string_to_JSON L (c :: s) = Ok v.
  Proof.
    intros H v V C D1 D2. destruct (roundtrip_iff H v V D1 D2) as (s & E & R). exists s. split; [exact E|]. intros c. apply R. exact C.
  Qed.

  (** *** too deep to be read *)
  Lemma grammar_depth :
    (forall d t v, means L d t v -> (depth v <= d)%nat) /\
    (forall d t l, items L d t l -> forall v, In v l -> (depth v <= d)%nat) /\
    (forall d t m, pairs L d t m -> forall k v, In (k, v) m -> (depth v <= d)%nat).
  Proof.
    apply grammar_ind; try (intros; cbn; lia).
    - intros d w s l _ _ IH. apply depth_list. exact IH.
    - intros d w s m o _ _ IH [_ D]. apply depth_obj. intros k v I. apply D in I. destruct I as (l1 & l2 & -> & _). apply (IH k v). apply in_app_iff. right. left. reflexivity.
    - intros d s v w _ IH _ x [<-|[]]. exact IH.
    - intros d s v w1 w2 s' l _ IH _ _ _ IHl x [<-|I]; [exact IH|apply IHl; exact I].
    - intros d k kt w1 w2 s v w3 _ _ _ _ IH _ k' x [I|[]]. injection I as _ <-. exact IH.
    - intros d k kt w1 w2 s v w3 w4 s' l _ _ _ _ IH _ _ _ IHl k' x [I|I]; [injection I as _ <-; exact IH|eapply IHl; exact I].
  Qed.
  Lemma grammar_mono :
    (forall d t v, means L d t v -> forall d', (d <= d')%nat -> means L d' t v) /\
    (forall d t l, items L d t l -> forall d', (d <= d')%nat -> items L d' t l) /\
    (forall d t m, pairs L d t m -> forall d', (d <= d')%nat -> pairs L d' t m).
  Proof.
    apply grammar_ind; intros; try (constructor; auto; fail); try (destruct d' as [|d']; [lia|]); try (constructor; auto; fail).
    - constructor; [assumption|]. match goal with X : forall d', _ -> items _ _ _ _ |- _ => apply X; lia end.
    - eapply m_obj; [assumption| |eassumption]. match goal with X : forall d', _ -> pairs _ _ _ _ |- _ => apply X; lia end.
  Qed.
  Lemma document_det : forall d d' t v v', means L d t v -> document L d' t v' -> v = v'.
  Proof.
    intros d d' t v v' M (w1 & t1 & w2 & E & W1 & W2 & M'). apply (proj1 grammar_mono) with (d' := Nat.max d d') in M; [|lia]. apply (proj1 grammar_mono) with (d' := Nat.max d d') in M'; [|lia].
    assert (E1 : skip t = t).
    { rewrite <- (app_nil_r t). apply (skip_complete [] (t ++ [])); [constructor|]. apply head_no_ws. eapply means_head. exact M. }
    assert (E2 : skip t = t1 ++ w2) by (rewrite E; apply skip_complete; [exact W1|]; apply head_no_ws; eapply means_head; exact M').
    pose proof (proj1 (complete L) _ _ _ M (2 * List.length t + 2 * List.length t1)%nat [] Logic.I ltac:(lia)) as A.
    assert (S : stops w2) by (rewrite <- (app_nil_r w2); apply white_stops; [exact W2|exact Logic.I]).
    pose proof (proj1 (complete L) _ _ _ M' (2 * List.length t + 2 * List.length t1)%nat w2 S ltac:(lia)) as B.
    rewrite app_nil_r in A. rewrite <- E2, E1, A in B. congruence.
  Qed.
  Lemma too_deep : faithful L -> forall v, valid v -> all_clean v -> (load_limit L < depth v <= dump_limit L)%nat ->
    exists s, JSON_to_string L v = Ok (48 :: s) /\ forall c, string_to_JSON L (c :: s) = Err MalformedBlueprintStringError.
  Proof.
    intros H v V C [D1 D2]. destruct (dumps_good L H v V _ D2) as (t & v' & E & A & Fv & M). exists (b64encode (compress L t)). unfold JSON_to_string. rewrite E. cbn [bind].
    split; [reflexivity|]. intros c. apply malformed_iff. intros (v2 & p & b & t' & e & text & Hp & _ & P & Dc & Sp & De & Doc).
    destruct Hp as [[X _]|[c' X]]; [discriminate|]. injection X as _ <-. pose proof (ascii_bytes t A) as Bt. pose proof (zlib_bytes L H t Bt) as Cb.
    assert (b = compress L t).
    { destruct (encode_payload _ Cb) as (P' & _). pose proof (proj2 (a2b_P _ Q0 _) P) as X1. pose proof (proj2 (a2b_P _ Q0 _) P') as X2. congruence. }
    subst b. rewrite (zlib_lossless L H t Bt) in Dc. injection Dc as <-. apply detect_iff in Sp. rewrite (ascii_utf8 t A) in Sp. subst e. rewrite (ascii_text L H t A) in De. injection De as <-.
    pose proof (document_det _ _ _ _ _ (M (depth v) (le_n _)) Doc) as X. subst v2. apply (fused_self v v' V) in Fv. apply Fv in C. subst v'.
    destruct Doc as (w1 & t1 & w2 & _ & _ & _ & M1). apply (proj1 grammar_depth) in M1. lia.
  Qed.
End Whole.

(** *** a library to try things with *)
Definition toy : lib := {|
  flt := Z;
  float_repr := fun z => int_str z ++ str ".5";
  float_of := fun s => match py_int (firstn (List.length s - 2) s) with Ok z => z | Err _ => 0%Z end;
  compress := fun b => 120 :: b;
  decompress := fun b => match b with 120 :: r => Some r | _ => None end;
  decode := fun e b => match e with Utf8 => Some b | _ => None end;
  dump_limit := 900;
  load_limit := 900
|}.
Lemma toy_faithful : faithful toy.
Proof.
  split.
  - reflexivity.
  - intros b H. apply Forall_cons; [reflexivity|exact H].
  - reflexivity.
  - intros z. cbn [toy float_repr]. assert (Fr : fraction (str ".5")).
    { exists [53]. split; [reflexivity|]. split; [discriminate|]. apply Forall_cons; [|apply Forall_nil]. unfold is_dec. lia. }
    destruct (int_str_text z) as [[W _]|(w & E & W & _)].
    + exists [], (int_str z), (str ".5"), []. rewrite app_nil_r. split; [reflexivity|]. split; [auto|]. split; [exact W|]. left. auto.
    + rewrite E. exists [45], w, (str ".5"), []. rewrite app_nil_r. split; [reflexivity|]. split; [auto|]. split; [exact W|]. left. auto.
  - intros z. cbn [toy float_repr float_of]. rewrite app_length. change (List.length (str ".5")) with 2%nat. replace (List.length (int_str z) + 2 - 2)%nat with (List.length (int_str z)) by lia.
    rewrite firstn_app, Nat.sub_diag, firstn_all. cbn [firstn]. rewrite app_nil_r, py_int_int_str. reflexivity.
Qed.

Lemma surrogates : forall L, faithful L -> exists v s, valid v /\ JSON_to_string L v = Ok s /\ string_to_JSON L s <> Ok v.
Proof.
  intros L H. set (v := JStr [55357; 56832] : json (flt L)). assert (V : valid v) by (constructor; repeat apply Forall_cons; try apply Forall_nil; lia).
  destruct (roundtrip_iff L H v V) as (s & E & R); [cbn; lia|cbn; lia|]. exists v, (48 :: s). split; [exact V|]. split; [exact E|]. intros X. apply R in X. inversion X as [| | | | | | |? C| |]; subst.
  destruct C as [_ C]. apply (C [] 55357 56832 []); [reflexivity| |]; unfold high, low; lia.
Qed.
