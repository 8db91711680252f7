From Coq Require Import Arith NArith List Bool String Lia.
From Verif Require Import Common Listing_Model Listing_Spec.
Import ListNotations.
Local Open Scope list_scope.

Lemma clamp_within : forall lo n hi, lo <= hi -> within lo n hi (clamp lo n hi).
Proof. intros lo n hi H. unfold within, clamp. lia. Qed.
Lemma fold_max : forall l a, let r := fold_left Nat.max l a in (r = a \/ In r l) /\ a <= r /\ forall k, In k l -> k <= r.
Proof.
  induction l as [|x l IH]; intro a; cbn [fold_left]; cbv zeta.
  - split; [left; reflexivity|]. split; [lia|]. intros k [].
  - destruct (IH (Nat.max a x)) as (A & B & C). cbv zeta in *. split; [|split].
    + destruct A as [A|A]; [|right; right; exact A].
      destruct (Nat.max_spec a x) as [(_ & M)|(_ & M)]; rewrite M in A at 2; [right; left; congruence|left; exact A].
    + lia.
    + intros k [->|K]; [lia|exact (C k K)].
Qed.
Lemma max_of_largest : forall l n, max_of l = Ok n -> largest l n.
Proof.
  intros l n K. destruct l as [|x l]; [discriminate|]. cbn in K.
  destruct (fold_max l x) as (A & B & C). cbv zeta in *. assert (E : n = fold_left Nat.max l x) by congruence. rewrite <- E in *.
  split.
  - destruct A as [A|A]; [left; congruence|right; exact A].
  - intros k [<-|K2]; [exact B|exact (C k K2)].
Qed.
Lemma max_of_total : forall l, l <> [] -> exists n, max_of l = Ok n.
Proof. intros [|x l] H; [congruence|]. eexists; reflexivity. Qed.

(** ** The widths *)
Theorem measure_is : forall ms w, measure ms = Ok w ->
  exists n v l, largest (map (fun kv => List.length (fst kv)) ms) n /\
    largest (map (fun m => List.length (l_version m)) (submods ms)) v /\
    largest (map (fun m => List.length (l_location m)) (submods ms)) l /\
    within 4 n 50 (w_name w) /\ within 7 v 30 (w_version w) /\ within 8 l 100 (w_location w).
Proof.
  intros ms w K. unfold measure, bind in K.
  destruct (max_of (map (fun kv => List.length (fst kv)) ms)) as [n|] eqn:N; [|discriminate].
  destruct (max_of (map (fun m => List.length (l_version m)) (submods ms))) as [v|] eqn:V; [|discriminate].
  destruct (max_of (map (fun m => List.length (l_location m)) (submods ms))) as [l|] eqn:L; [|discriminate].
  exists n, v, l. split; [exact (max_of_largest _ _ N)|]. split; [exact (max_of_largest _ _ V)|].
  split; [exact (max_of_largest _ _ L)|].
  assert (E : w = mkW (clamp 4 n 50) (clamp 7 v 30) (clamp 8 l 100)) by congruence. rewrite E. cbn [w_name w_version w_location].
  split; [|split]; apply clamp_within; lia.
Qed.
Theorem measure_fails : forall ms verbose,
  (submods ms <> [] -> exists lines, display_mods ms verbose = Ok lines) /\
  (submods ms = [] -> display_mods ms verbose = Err ValueError).
Proof.
  intros ms verbose. unfold display_mods, measure, bind. split; intro S.
  - assert (M : ms <> []) by (intro Z; subst; apply S; reflexivity).
    assert (NM : forall (A B : Type) (f : A -> B) l, l <> [] -> map f l <> []) by (intros A B f [|x l] H; [congruence|discriminate]).
    destruct (max_of_total (map (fun kv => List.length (fst kv)) ms)) as (n & ->); [apply NM; exact M|].
    destruct (max_of_total (map (fun m => List.length (l_version m)) (submods ms))) as (v & ->); [apply NM; exact S|].
    destruct (max_of_total (map (fun m => List.length (l_location m)) (submods ms))) as (l & ->); [apply NM; exact S|].
    eexists; reflexivity.
  - rewrite S. destruct (max_of (map (fun kv => List.length (fst kv)) ms)) as [n|x] eqn:N; [reflexivity|].
    destruct ms as [|kv ms]; [cbn in N; congruence|discriminate].
Qed.

(** ** Cells *)
Lemma truncate_cut : forall s w, 3 <= w -> cut_to w s (truncate_str s w).
Proof.
  intros s w W. unfold cut_to, truncate_str. destruct (Nat.ltb w (List.length s)) eqn:B.
  - apply Nat.ltb_lt in B. right. split; [exact B|]. split.
    + rewrite app_length, firstn_length. cbn [List.length str]. cbn. lia.
    + exists (firstn (w - 3) s), (skipn (w - 3) s). split; [symmetry; apply firstn_skipn|reflexivity].
  - apply Nat.ltb_ge in B. left. split; [exact B|reflexivity].
Qed.
Lemma cut_length : forall w s t, cut_to w s t -> List.length t <= w.
Proof. intros w s t [(A & ->)|(_ & A & _)]; lia. Qed.
Lemma left_length : forall f s w, List.length s <= w -> List.length (left_aligned f s w) = w.
Proof. intros f s w H. unfold left_aligned. rewrite app_length, repeat_length. lia. Qed.
Lemma right_length : forall s w, List.length s <= w -> List.length (right_aligned s w) = w.
Proof. intros s w H. unfold right_aligned. rewrite app_length, repeat_length. lia. Qed.

Section Fit.
  Variable ms : mods.
  Variable w : widths.
  Hypothesis M : measure ms = Ok w.
  Lemma widths_low : 4 <= w_name w /\ 7 <= w_version w /\ 8 <= w_location w.
  Proof. destruct (measure_is ms w M) as (n & v & l & _ & _ & _ & (A & _) & (B & _) & (C & _)). lia. Qed.
  Lemma name_key : forall key l, In (key, l) ms -> List.length key <= 50 -> List.length key <= w_name w.
  Proof.
    intros key l I H. destruct (measure_is ms w M) as (n & v & l0 & (_ & N) & _ & _ & (A & B & C & D) & _).
    assert (List.length key <= n) by (apply N, (in_map (fun kv => List.length (fst kv)) ms (key, l) I)).
    destruct (Nat.le_gt_cases n 50) as [G|G].
    - destruct (Nat.le_gt_cases 4 n) as [G2|G2]; [rewrite (B (conj G2 G)); lia|lia].
    - rewrite (D G). exact H.
  Qed.
  Lemma printed_name_fits : forall key l i m, In (key, l) ms -> (2 <= List.length l -> List.length key <= 50) ->
    nth_error l i = Some m -> List.length (printed_name w key (List.length l) i m) <= w_name w.
  Proof.
    intros key l i m I F N. destruct widths_low as (L1 & _ & _). unfold printed_name.
    destruct (Nat.eqb i 0) eqn:Z.
    - exact (cut_length _ _ _ (truncate_cut (l_name m) (w_name w) ltac:(lia))).
    - apply Nat.eqb_neq in Z. assert (i < List.length l) by (apply nth_error_Some; congruence).
      pose proof (name_key key l I (F ltac:(lia))) as K.
      destruct (Nat.eqb i (List.length l - 1)); cbn [List.length]; rewrite app_length, repeat_length; cbn; lia.
  Qed.
  Lemma printed_version_fits : forall m, List.length (printed_version w m) <= w_version w.
  Proof.
    intro m. destruct widths_low as (_ & L1 & _). unfold printed_version. destruct (pystr_eqb (l_version m) []).
    - cbn. lia.
    - exact (cut_length _ _ _ (truncate_cut (l_version m) (w_version w) ltac:(lia))).
  Qed.
End Fit.

Lemma long_row_columns : forall ms w key l i m, measure ms = Ok w -> In (key, l) ms ->
  (2 <= List.length l -> List.length key <= 50) -> nth_error l i = Some m ->
  columns long_seps [3; 5; w_name w; w_version w] (long_row w key (List.length l) i m).
Proof.
  intros ms w key l i m M I F N. unfold long_row, long_seps. cbn [columns].
  exists (if ticked m i then [SPACE; TICK; SPACE] else str "   "). eexists. split; [reflexivity|].
  split; [destruct (ticked m i); reflexivity|].
  exists (kind m). eexists. split; [reflexivity|]. split; [unfold kind; destruct (l_archive m); reflexivity|].
  eexists. eexists. split; [reflexivity|].
  split; [apply left_length; exact (printed_name_fits ms w M key l i m I F N)|].
  eexists. eexists. split; [reflexivity|].
  split; [apply right_length; exact (printed_version_fits ms w M m)|exact Logic.I].
Qed.
Lemma short_row_columns : forall ms w key l i m, measure ms = Ok w -> In (key, l) ms ->
  (2 <= List.length l -> List.length key <= 50) -> nth_error l i = Some m ->
  columns short_seps [1; 5; w_name w] (short_row w key (List.length l) i m) /\
  List.length (short_row w key (List.length l) i m) = 12 + w_name w + w_version w.
Proof.
  intros ms w key l i m M I F N.
  pose proof (left_length SPACE _ _ (printed_name_fits ms w M key l i m I F N)) as LN.
  pose proof (right_length _ _ (printed_version_fits ms w M m)) as LV.
  assert (LK : List.length (kind m) = 5) by (unfold kind; destruct (l_archive m); reflexivity).
  assert (LT : List.length (if ticked m i then [TICK] else str " ") = 1) by (destruct (ticked m i); reflexivity).
  unfold short_row, short_seps. split.
  - cbn [columns].
    eexists. eexists. split; [reflexivity|]. split; [exact LT|].
    eexists. eexists. split; [reflexivity|]. split; [exact LK|].
    eexists. eexists. split; [reflexivity|]. split; [exact LN|exact Logic.I].
  - rewrite !app_length, LT, LK, LN, LV. change (List.length (str " ")) with 1. change (List.length (str "    ")) with 4. lia.
Qed.
Lemma in_versions : forall row l i line, In line (versions_from row i l) ->
  exists k m, nth_error l k = Some m /\ line = row (i + k) m.
Proof.
  induction l as [|m l IH]; intros i line K; [contradiction|]. destruct K as [<-|K].
  - exists 0, m. split; [reflexivity|]. f_equal. lia.
  - destruct (IH (S i) line K) as (k & m' & A & ->). exists (S k), m'. split; [exact A|]. f_equal. lia.
Qed.
Lemma in_rows : forall row ms line, In line (rows row ms) ->
  exists key l k m, In (key, l) ms /\ nth_error l k = Some m /\ line = row key (List.length l) k m.
Proof.
  intros row ms line K. unfold rows in K. apply in_flat_map in K. destruct K as ((key, l) & I & K). cbn [fst snd] in K.
  destruct (in_versions _ _ _ _ K) as (k & m & A & B). exists key, l, k, m.
  split; [exact I|]. split; [exact A|exact B].
Qed.
Theorem long_columns : forall ms lines w, names_fit ms -> measure ms = Ok w -> display_mods ms true = Ok lines ->
  exists top rule body, lines = top :: rule :: body /\
    columns long_seps [3; 5; w_name w; w_version w] top /\ columns cross_seps [3; 5; w_name w; w_version w] rule /\
    forall line, In line body -> columns long_seps [3; 5; w_name w; w_version w] line.
Proof.
  intros ms lines w F M D. unfold display_mods, bind in D. rewrite M in D.
  assert (E : lines = header w ++ rows (long_row w) ms) by congruence.
  unfold header in E. cbn [app] in E.
  eexists. eexists. eexists. split; [exact E|]. destruct (widths_low ms w M) as (L1 & L2 & L3). split; [|split].
  - unfold long_seps. cbn [columns].
    eexists. eexists. split; [reflexivity|]. split; [reflexivity|].
    eexists. eexists. split; [reflexivity|]. split; [reflexivity|].
    eexists. eexists. split; [reflexivity|]. split; [apply left_length; cbn; lia|].
    eexists. eexists. split; [reflexivity|]. split; [apply left_length; cbn; lia|exact Logic.I].
  - unfold cross_seps. cbn [columns].
    eexists. eexists. split; [reflexivity|]. split; [reflexivity|].
    eexists. eexists. split; [reflexivity|]. split; [reflexivity|].
    eexists. eexists. split; [reflexivity|]. split; [apply left_length; cbn; lia|].
    eexists. eexists. split; [reflexivity|]. split; [apply left_length; cbn; lia|exact Logic.I].
  - intros line K. destruct (in_rows _ _ _ K) as (key & l & k & m & I & N & ->).
    exact (long_row_columns ms w key l k m M I (F key l I) N).
Qed.
Theorem long_head : forall ms lines w, measure ms = Ok w -> display_mods ms true = Ok lines ->
  exists name version rule body,
    lines = (str "on?" ++ bar ++ str "type " ++ bar ++ name ++ bar ++ version ++ bar ++ str "location") :: rule :: body /\
    flush_left (str "name") name /\ flush_left (str "version") version /\
    List.length rule = 20 + w_name w + w_version w + w_location w /\
    Forall (fun c => c = 9473%N \/ c = 9547%N) rule.
Proof.
  intros ms lines w M D. unfold display_mods, bind in D. rewrite M in D.
  assert (E : lines = header w ++ rows (long_row w) ms) by congruence. unfold header in E. cbn [app] in E.
  destruct (widths_low ms w M) as (L1 & L2 & L3).
  exists (left_aligned SPACE (str "name") (w_name w)), (left_aligned SPACE (str "version") (w_version w)).
  eexists. eexists. split; [exact E|].
  split; [eexists; reflexivity|]. split; [eexists; reflexivity|]. split.
  - rewrite !app_length, !left_length by (cbn; lia). cbn [List.length cross]. lia.
  - assert (T : forall n, Forall (fun c => c = 9473%N \/ c = 9547%N) (left_aligned THICK [THICK] n)).
    { intro n. unfold left_aligned. constructor; [left; reflexivity|]. apply Forall_forall. intros c I.
      apply repeat_spec in I. left. exact I. }
    assert (X : Forall (fun c => c = 9473%N \/ c = 9547%N) cross) by (repeat constructor; auto).
    repeat (first [exact X | apply T | apply Forall_app; split]).
Qed.
Theorem short_columns : forall ms lines w, names_fit ms -> measure ms = Ok w -> display_mods ms false = Ok lines ->
  forall line, In line lines ->
    columns short_seps [1; 5; w_name w] line /\ List.length line = 12 + w_name w + w_version w.
Proof.
  intros ms lines w F M D line K. unfold display_mods, bind in D. rewrite M in D.
  assert (E : lines = rows (short_row w) ms) by congruence. rewrite E in K.
  destruct (in_rows _ _ _ K) as (key & l & k & m & I & N & ->).
  exact (short_row_columns ms w key l k m M I (F key l I) N).
Qed.

(** ** One row for each version, in order *)
Theorem row_count : forall row ms, List.length (rows row ms) = List.length (submods ms).
Proof.
  intros row ms. unfold rows, submods. induction ms as [|kv ms IH]; [reflexivity|]. cbn [flat_map].
  rewrite !app_length, IH. f_equal. generalize 0 as i. generalize (row (fst kv) (List.length (snd kv))) as r. clear.
  induction (snd kv) as [|m l IH]; intros r i; [reflexivity|]. cbn. rewrite IH. reflexivity.
Qed.
Theorem nth_row : forall row before key l after k m, nth_error l k = Some m ->
  nth_error (rows row (before ++ (key, l) :: after)) (List.length (submods before) + k) = Some (row key (List.length l) k m).
Proof.
  intros row before key l after k m N.
  assert (E : rows row (before ++ (key, l) :: after)
    = rows row before ++ versions_from (row key (List.length l)) 0 l ++ rows row after).
  { unfold rows. rewrite flat_map_app. reflexivity. }
  rewrite E, nth_error_app2; rewrite row_count; [|lia].
  assert (S : List.length (submods before) + k - List.length (submods before) = k) by lia. rewrite S.
  assert (V : forall r l i k m, nth_error l k = Some m -> nth_error (versions_from r i l) k = Some (r (i + k) m)).
  { clear. induction l as [|x l IH]; intros i k m N; destruct k as [|k]; cbn in N; try discriminate.
    - cbn. assert (x = m) by congruence. subst. rewrite Nat.add_0_r. reflexivity.
    - cbn [versions_from nth_error]. rewrite (IH (S i) k m N). do 2 f_equal. lia. }
  rewrite nth_error_app1; [exact (V _ l 0 k m N)|].
  apply nth_error_Some. rewrite (V _ l 0 k m N). discriminate.
Qed.

(** ** What a row says *)
Lemma truncate_within : forall s lo n hi w, 3 <= lo -> within lo n hi w -> List.length s <= n -> cut_to hi s (truncate_str s w).
Proof.
  intros s lo n hi w L (A & B & C & D) N. destruct (Nat.le_gt_cases n hi) as [G|G].
  - left. split; [lia|]. unfold truncate_str. rewrite (proj2 (Nat.ltb_ge w (List.length s))); [reflexivity|].
    destruct (Nat.le_gt_cases lo n) as [G2|G2]; [rewrite (B (conj G2 G)); exact N|lia].
  - rewrite (D G). apply truncate_cut. lia.
Qed.
Theorem row_says : forall ms w key l k m, measure ms = Ok w -> In (key, l) ms -> nth_error l k = Some m ->
  exists on knd nam ver name_cell ver_cell loc,
    long_row w key (List.length l) k m = str " " ++ on ++ str " " ++ bar ++ knd ++ bar ++ name_cell ++ bar ++ ver_cell ++ bar ++ loc /\
    short_row w key (List.length l) k m = on ++ str " " ++ knd ++ str " " ++ name_cell ++ str "    " ++ ver_cell /\
    (l_enabled m = true /\ k = 0 -> on = [10003%N]) /\ (l_enabled m = false \/ 0 < k -> on = str " ") /\
    knd = (if l_archive m then str "(zip)" else str "(dir)") /\
    flush_left nam name_cell /\ flush_right ver ver_cell /\
    (k = 0 -> cut_to (w_name w) (l_name m) nam) /\
    (k = 0 -> l_name m = key -> cut_to 50 key nam) /\
    (0 < k -> S k < List.length l -> line_of 9500 key nam) /\
    (0 < k -> S k = List.length l -> line_of 9492 key nam) /\
    (l_version m = [] -> ver = str "-") /\
    (l_version m <> [] -> cut_to 30 (l_version m) ver) /\
    cut_to 100 (l_location m) loc.
Proof.
  intros ms w key l k m M I N. destruct (widths_low ms w M) as (L1 & L2 & L3).
  destruct (measure_is ms w M) as (n & v & l0 & (_ & XN) & (_ & XV) & (_ & XL) & WN & WV & WL).
  assert (IS : In m (submods ms)).
  { unfold submods. apply in_flat_map. exists (key, l). split; [exact I|exact (nth_error_In _ _ N)]. }
  exists (if ticked m k then [TICK] else str " "), (kind m),
    (printed_name w key (List.length l) k m), (printed_version w m). do 3 eexists.
  split; [unfold long_row; destruct (ticked m k); reflexivity|].
  split; [unfold short_row; reflexivity|].
  split; [intros (A & ->); unfold ticked; rewrite A; reflexivity|].
  split. { intro H. assert (T : ticked m k = false); [|rewrite T; reflexivity]. unfold ticked.
    destruct H as [->|H]; [reflexivity|]. rewrite (proj2 (Nat.eqb_neq k 0)) by lia. apply andb_false_r. }
  split; [reflexivity|]. split; [eexists; reflexivity|]. split; [eexists; reflexivity|].
  split. { intros ->. unfold printed_name. cbn [Nat.eqb]. apply truncate_cut. lia. }
  split. { intros -> E. unfold printed_name. cbn [Nat.eqb]. rewrite E.
    apply (truncate_within key 4 n 50); [lia|exact WN|exact (XN _ (in_map (fun kv => List.length (fst kv)) ms (key, l) I))]. }
  assert (LO : forall c, line_of c key (c :: repeat THIN (List.length key - 2) ++ str ">")).
  { intro c. exists (List.length key - 2). split; [reflexivity|]. intro H. cbn [List.length].
    rewrite app_length, repeat_length. cbn. lia. }
  split. { intros K0 K1. unfold printed_name.
    rewrite (proj2 (Nat.eqb_neq k 0)) by lia. rewrite (proj2 (Nat.eqb_neq k (List.length l - 1))) by lia. apply LO. }
  split. { intros K0 K1. unfold printed_name.
    rewrite (proj2 (Nat.eqb_neq k 0)) by lia. rewrite (proj2 (Nat.eqb_eq k (List.length l - 1))) by lia. apply LO. }
  split. { intro E. unfold printed_version. rewrite E. reflexivity. }
  split.
  { intro E. unfold printed_version. destruct (pystr_eqb (l_version m) []) eqn:Q; [apply pystr_eqb_eq in Q; contradiction|].
    apply (truncate_within (l_version m) 7 v 30); [lia|exact WV|].
    exact (XV _ (in_map (fun m => List.length (l_version m)) (submods ms) m IS)). }
  apply (truncate_within (l_location m) 8 l0 100); [lia|exact WL|].
  exact (XL _ (in_map (fun m => List.length (l_location m)) (submods ms) m IS)).
Qed.
