(** Proofs about arithmetic combinators. *)
From Coq Require Import ZArith NArith String List Bool Lia.
From Verif Require Import Common Assign_Model Decider_Model Arith_Model Arith_Spec.
Import ListNotations.
Local Open Scope string_scope.
Local Open Scope list_scope.
Local Open Scope Z_scope.

(** ** Conversions *)
Lemma conv_signal_iff : forall known v w, conv_signal known v = Some w <-> signal_meant known v w.
Proof.
  intros known v w; split.
  - destruct v; cbn; intros H; try discriminate.
    + injection H as <-; constructor.
    + destruct (known s) eqn:K; [|discriminate]. injection H as <-. constructor; exact K.
    + injection H as <-; constructor.
    + injection H as <-; constructor.
  - intros H; destruct H; cbn; try reflexivity. rewrite H; reflexivity.
Qed.
Lemma conv_int_iff : forall v w, conv_int v = Some w <->
  (v = ANone /\ w = ANone) \/ (v = ABool true /\ w = AInt 1) \/ (v = ABool false /\ w = AInt 0)
  \/ exists z, v = AInt z /\ w = AInt z /\ -2147483648 <= z <= 2147483647.
Proof.
  intros v w; split.
  - destruct v; cbn [conv_int]; intros H; try discriminate.
    + injection H as <-; auto.
    + destruct b; injection H as <-; auto.
    + destruct ((- 2 ^ 31 <=? z) && (z <? 2 ^ 31)) eqn:E; [|discriminate]. injection H as <-.
      apply andb_prop in E as [A B]. apply Z.leb_le in A. apply Z.ltb_lt in B.
      right; right; right. exists z. repeat split; lia.
  - intros [[-> ->]|[[-> ->]|[[-> ->]|(z & -> & -> & H)]]]; try reflexivity.
    cbn [conv_int]. replace (- 2 ^ 31 <=? z) with true by (symmetry; apply Z.leb_le; lia).
    replace (z <? 2 ^ 31) with true by (symmetry; apply Z.ltb_lt; lia). reflexivity.
Qed.
Lemma no_signal : forall known v, conv_signal known v = None -> no_meaning (signal_meant known) v.
Proof. intros known v H w M. apply conv_signal_iff in M. rewrite M in H; discriminate. Qed.

Lemma upper_char_same : forall c, same_letter c (upper_char c).
Proof.
  intros c; unfold same_letter, upper_char.
  destruct ((97 <=? c) && (c <=? 122))%N eqn:E.
  - apply andb_prop in E as [A B]. apply N.leb_le in A. apply N.leb_le in B. right; lia.
  - left; reflexivity.
Qed.
Lemma same_upper : forall a b, same_letter a b -> (97 <=? b)%N && (b <=? 122)%N = false -> upper_char a = b.
Proof.
  intros a b [->|[R ->]] H; unfold upper_char.
  - rewrite H; reflexivity.
  - replace (97 <=? b + 32)%N with true by (symmetry; apply N.leb_le; lia).
    replace (b + 32 <=? 122)%N with true by (symmetry; apply N.leb_le; lia). cbn. lia.
Qed.
Lemma same_upper_all : forall s o, Forall2 same_letter s o ->
  forallb (fun b => negb ((97 <=? b)%N && (b <=? 122)%N)) o = true -> upper s = o.
Proof.
  induction 1; cbn; intros E; [reflexivity|]. apply andb_prop in E as [A B].
  f_equal; [apply same_upper; [assumption|apply negb_true_iff; exact A]|apply IHForall2; exact B].
Qed.
Lemma upper_same : forall s, Forall2 same_letter s (upper s).
Proof. induction s; cbn; constructor; auto using upper_char_same. Qed.
Lemma operations_upper : forall o, In o operations ->
  forallb (fun b => negb ((97 <=? b)%N && (b <=? 122)%N)) o = true.
Proof. intros o H. cbn in H. repeat (destruct H as [<-|H]; [reflexivity|]). destruct H. Qed.
Lemma conv_operation_iff : forall v w, conv_operation v = Some w <-> operation_meant v w.
Proof.
  intros v w; split.
  - destruct v; cbn [conv_operation]; intros H; try discriminate.
    + injection H as <-; constructor.
    + destruct (existsb (pystr_eqb (upper s)) operations) eqn:E; [|discriminate]. injection H as <-.
      apply existsb_exists in E as (o & O & E). apply pystr_eqb_eq in E. subst o.
      constructor; [exact O|apply upper_same].
  - intros H; destruct H as [|s o O F]; [reflexivity|]. cbn [conv_operation].
    rewrite (same_upper_all _ _ F (operations_upper o O)).
    replace (existsb (pystr_eqb o) operations) with true; [reflexivity|].
    symmetry; apply existsb_exists. exists o. split; [exact O|apply pystr_eqb_refl].
Qed.
Lemma no_operation : forall v, conv_operation v = None -> no_meaning operation_meant v.
Proof. intros v H w M. apply conv_operation_iff in M. rewrite M in H; discriminate. Qed.

(** ** Validated states *)
Definition sig_like (v : val) : Prop := match v with ANone | ASig _ => True | _ => False end.
Definition int_like (v : val) : Prop := match v with ANone | AInt _ => True | _ => False end.
Definition sound (c : conds) : Prop :=
  int_like (first_constant c) /\ sig_like (first_signal c) /\
  int_like (second_constant c) /\ sig_like (second_signal c) /\ sig_like (output_signal c).
Definition inv (s : state) : Prop :=
  st_mode s <> MNone /\
  match st_cb s with CDict _ => False | CModel (Some c) => sound c | _ => True end.
Definition view_of (c : conds) : view :=
  mkView (pick (first_signal c) (first_constant c)) (operation c)
         (pick (second_signal c) (second_constant c)) (output_signal c) (first_nets c) (second_nets c).
Definition shown_of (s : state) : shown :=
  match st_cb s with
  | CModel (Some c) => Parts (view_of c)
  | CModel None => Nothing
  | _ => Broken
  end.
Lemma shows_of : forall s, inv s -> shows s (shown_of s).
Proof.
  intros [m cb] [M H]; unfold shown_of, shows, get_first, get_second, get_operation, get_output, get, networks; cbn in *.
  destruct cb as [|b|[c|]]; cbn; try contradiction; repeat split; reflexivity.
Qed.
Lemma shows_fun : forall s a b, shows s a -> shows s b -> a = b.
Proof.
  intros s a b; unfold shows.
  destruct a as [| |[a1 a2 a3 a4 a5 a6]], b as [| |[b1 b2 b3 b4 b5 b6]]; cbn;
    intros (A & B & C & D & E) (A' & B' & C' & D' & E'); try reflexivity; try congruence.
Qed.

Lemma conv_sig_like : forall known v w, conv_signal known v = Some w -> sig_like w.
Proof. intros known v w H. apply conv_signal_iff in H. destruct H; exact Logic.I. Qed.
Lemma conv_int_like : forall v w, conv_int v = Some w -> int_like w.
Proof. intros v w H. apply conv_int_iff in H as [[_ ->]|[[_ ->]|[[_ ->]|(z & _ & -> & _)]]]; exact Logic.I. Qed.

(** ** The validators *)
Definition loud (m : mode) : Prop := m = MStrict \/ m = MPedantic.
Lemma mode_cases : forall m, m <> MNone -> m = MMinimum \/ loud m.
Proof. unfold loud; destruct m; auto; intros H; contradiction H; reflexivity. Qed.
Lemma forbidden_pure : forall s, forbidden (Some s) = pure_virtual s.
Proof. reflexivity. Qed.
Lemma find_forbidden_sound : forall l, Forall sig_like l -> Forall (fun v => is_none v = false) l ->
  find_forbidden l = Ok (map WForbidden (firstn 1 (filter pure_virtual (flat_map signal_name l)))).
Proof.
  induction l as [|v l IH]; intros F G; [reflexivity|].
  inversion F as [|? ? F1 F2]; inversion G as [|? ? G1 G2]; subst.
  destruct v as [| | | |[s|]| |]; cbn in F1, G1; try contradiction; try discriminate.
  - cbn [find_forbidden name_of bind]. rewrite forbidden_pure.
    cbn [flat_map signal_name app filter]. destruct (pure_virtual s); [reflexivity|].
    apply IH; assumption.
  - cbn. apply IH; assumption.
Qed.
Lemma is_named_sound : forall v, sig_like v -> is_named each v = Ok (is_each v).
Proof.
  intros [| | | |[s|]| |] H; cbn in H; try contradiction; try reflexivity.
  unfold is_each, signal_name, is_named, name_of, named; cbn [existsb bind].
  rewrite orb_false_r. f_equal. unfold each. destruct (pystr_eqb s _) eqn:E.
  - apply pystr_eqb_eq in E. subst s. symmetry; apply pystr_eqb_refl.
  - symmetry. apply not_true_is_false. intros X. apply pystr_eqb_eq in X. subst s. rewrite pystr_eqb_refl in E; discriminate.
Qed.
Lemma names_filter : forall l, flat_map signal_name (filter (fun v => negb (is_none v)) l) = flat_map signal_name l.
Proof. induction l as [|v l IH]; [reflexivity|]. cbn. destruct v; cbn; rewrite IH; reflexivity. Qed.
Lemma pick_names : forall a b, int_like b -> sig_like a -> signal_name (pick a b) = signal_name a.
Proof. intros [] []; cbn; intros; try contradiction; reflexivity. Qed.
Lemma pick_each : forall a b, int_like b -> sig_like a -> is_each (pick a b) = is_each a.
Proof. intros. unfold is_each. rewrite pick_names; auto. Qed.
Lemma after_sound : forall m c, m <> MNone -> sound c ->
  after_validators m c = Ok (said m (complaints (view_of c))).
Proof.
  intros m c M (A & B & C & D & E). unfold after_validators, ensure_no_forbidden_signals, ensure_proper_each_configuration.
  destruct (mode_cases m M) as [-> | L]; [reflexivity|].
  replace (mode_le m MMinimum) with false by (destruct L as [-> | ->]; reflexivity).
  rewrite find_forbidden_sound.
  - rewrite names_filter. rewrite !is_named_sound by assumption. cbn [bind].
    assert (S : forall ws, said m ws = ws) by (destruct L as [-> | ->]; reflexivity).
    rewrite S. unfold complaints, view_of; cbn [v_first v_second v_out].
    rewrite !pick_names, !pick_each by assumption. cbn [flat_map]. rewrite app_nil_r.
    destruct (is_each (first_signal c)), (is_each (second_signal c)), (is_each (output_signal c)); reflexivity.
  - apply Forall_forall. intros v I. apply filter_In in I as [I _]. cbn in I.
    destruct I as [<-|[<-|[<-|[]]]]; assumption.
  - apply Forall_forall. intros v I. apply filter_In in I as [_ I]. apply negb_true_iff in I. exact I.
Qed.
Lemma name_warnings_said : forall known m v, m <> MNone -> name_warnings known m v = said m (unknown known v).
Proof.
  intros known m v M. unfold name_warnings, unknown.
  destruct (mode_cases m M) as [-> | L]; [reflexivity|].
  replace (mode_le m MMinimum) with false by (destruct L as [-> | ->]; reflexivity).
  assert (S : forall ws, said m ws = ws) by (destruct L as [-> | ->]; reflexivity). rewrite S.
  destruct v as [| | | |[s|]| |]; try reflexivity. cbn. destruct (known s); reflexivity.
Qed.
Lemma said_app : forall m a b, said m a ++ said m b = said m (a ++ b).
Proof. destruct m; reflexivity. Qed.
Lemma mode_bool_on : forall m, m <> MNone -> mode_bool m = true.
Proof. destruct m; intros H; try reflexivity; contradiction H; reflexivity. Qed.

(** ** Setters *)
Lemma set_first_conds : forall known m c x, m <> MNone -> sound c ->
  exists c' r, set_operand known m c FFirstConstant FFirstSignal x = (c', r) /\ sound c' /\
  ((exists w, operand_meant known x w /\ view_of c' = with_first w (view_of c) /\
      r = Ok (said m (operand_warnings known (view_of c) (with_first w (view_of c)) w)))
   \/ (no_meaning (operand_meant known) x /\ c' = c /\ r = Err DataFormatError)).
Proof.
  intros known m c x M S. pose proof S as (A & B & C & D & E).
  assert (NS : sig_like ANone) by exact Logic.I. assert (NI : int_like ANone) by exact Logic.I.
  assert (IntCase : is_int x = true -> exists c' r, put_field known m c FFirstConstant (Some FFirstSignal) x = (c', r) /\ sound c' /\
    ((exists w, operand_meant known x w /\ view_of c' = with_first w (view_of c) /\
      r = Ok (said m (operand_warnings known (view_of c) (with_first w (view_of c)) w)))
   \/ (no_meaning (operand_meant known) x /\ c' = c /\ r = Err DataFormatError))).
  { intros X. unfold put_field, attempt. rewrite mode_bool_on by exact M. cbn [conv].
    destruct (conv_int x) as [w|] eqn:W.
    - assert (S' : sound (store FFirstConstant w c)).
      { destruct c; cbn in *. repeat split; cbn; try assumption. exact (conv_int_like _ _ W). }
      rewrite (after_sound _ _ M S'). cbn [bind].
      exists (store FFirstSignal ANone (store FFirstConstant w c)). eexists. split; [reflexivity|]. split.
      { destruct c; cbn in *. repeat split; cbn; try assumption. exact (conv_int_like _ _ W). }
      left. exists w.
      pose proof (conv_int_like _ _ W) as IL.
      assert (OM : operand_meant known x w /\ exists z, w = AInt z).
      { apply conv_int_iff in W as [[-> _]|[[-> ->]|[[-> ->]|(z & -> & -> & R)]]]; try discriminate X; split; eauto; constructor; lia. }
      destruct OM as [OM [z ->]]. split; [exact OM|]. split; [destruct c; reflexivity|].
      f_equal. rewrite name_warnings_said by exact M. cbn [unknown signal_name filter map].
      rewrite said_app. cbn [app operand_warnings]. f_equal.
      destruct c as [c1 c2 c3 c4 c5 c6 c7 c8]; cbn in *. unfold complaints, view_of; cbn [v_first v_second v_out first_signal first_constant second_signal second_constant output_signal].
      rewrite !pick_names, !pick_each by (assumption || exact Logic.I). reflexivity.
    - exists c; eexists. split; [reflexivity|]. split; [exact S|]. right. split; [|auto].
      intros w OM. destruct OM as [v w OM|z R| |]; try discriminate.
      + destruct OM; discriminate.
      + assert (X' : conv_int (AInt z) = Some (AInt z)) by (apply conv_int_iff; right; right; right; eauto).
        rewrite X' in W; discriminate. }
  assert (SigCase : is_int x = false -> x <> ANone -> exists c' r, put_field known m c FFirstSignal (Some FFirstConstant) x = (c', r) /\ sound c' /\
    ((exists w, operand_meant known x w /\ view_of c' = with_first w (view_of c) /\
      r = Ok (said m (operand_warnings known (view_of c) (with_first w (view_of c)) w)))
   \/ (no_meaning (operand_meant known) x /\ c' = c /\ r = Err DataFormatError))).
  { intros X XN. unfold put_field, attempt. rewrite mode_bool_on by exact M. cbn [conv].
    destruct (conv_signal known x) as [w|] eqn:W.
    - pose proof (conv_sig_like _ _ _ W) as SL.
      assert (S' : sound (store FFirstSignal w c)).
      { destruct c; cbn in *. repeat split; cbn; assumption. }
      rewrite (after_sound _ _ M S'). cbn [bind].
      exists (store FFirstConstant ANone (store FFirstSignal w c)). eexists. split; [reflexivity|]. split.
      { destruct c; cbn in *. repeat split; cbn; assumption. }
      left. exists w. apply conv_signal_iff in W.
      assert (WS : exists n, w = ASig n) by (destruct W; eauto; contradiction XN; reflexivity).
      destruct WS as [n ->]. split; [constructor; exact W|]. split; [destruct c; reflexivity|].
      rewrite name_warnings_said, said_app by exact M. cbn [operand_warnings]. do 3 f_equal.
      destruct c; reflexivity.
    - exists c; eexists. split; [reflexivity|]. split; [exact S|]. right. split; [|auto].
      intros w OM. destruct OM as [v w OM|z R| |]; try discriminate. exact (no_signal _ _ W w OM). }
  destruct x; try (apply IntCase; reflexivity); try (apply SigCase; [reflexivity|discriminate]).
  exists (store FFirstConstant ANone (store FFirstSignal ANone c)), (Ok []). split; [reflexivity|]. split.
  { destruct c; cbn in *. repeat split; cbn; assumption. }
  left. exists ANone. split; [repeat constructor|]. split; [destruct c; reflexivity|]. destruct m; reflexivity.
Qed.
Lemma set_second_conds : forall known m c x, m <> MNone -> sound c ->
  exists c' r, set_operand known m c FSecondConstant FSecondSignal x = (c', r) /\ sound c' /\
  ((exists w, operand_meant known x w /\ view_of c' = with_second w (view_of c) /\
      r = Ok (said m (operand_warnings known (view_of c) (with_second w (view_of c)) w)))
   \/ (no_meaning (operand_meant known) x /\ c' = c /\ r = Err DataFormatError)).
Proof.
  intros known m c x M S. pose proof S as (A & B & C & D & E).
  assert (NS : sig_like ANone) by exact Logic.I. assert (NI : int_like ANone) by exact Logic.I.
  assert (IntCase : is_int x = true -> exists c' r, put_field known m c FSecondConstant (Some FSecondSignal) x = (c', r) /\ sound c' /\
    ((exists w, operand_meant known x w /\ view_of c' = with_second w (view_of c) /\
      r = Ok (said m (operand_warnings known (view_of c) (with_second w (view_of c)) w)))
   \/ (no_meaning (operand_meant known) x /\ c' = c /\ r = Err DataFormatError))).
  { intros X. unfold put_field, attempt. rewrite mode_bool_on by exact M. cbn [conv].
    destruct (conv_int x) as [w|] eqn:W.
    - assert (S' : sound (store FSecondConstant w c)).
      { destruct c; cbn in *. repeat split; cbn; try assumption. exact (conv_int_like _ _ W). }
      rewrite (after_sound _ _ M S'). cbn [bind].
      exists (store FSecondSignal ANone (store FSecondConstant w c)). eexists. split; [reflexivity|]. split.
      { destruct c; cbn in *. repeat split; cbn; try assumption. exact (conv_int_like _ _ W). }
      left. exists w.
      pose proof (conv_int_like _ _ W) as IL.
      assert (OM : operand_meant known x w /\ exists z, w = AInt z).
      { apply conv_int_iff in W as [[-> _]|[[-> ->]|[[-> ->]|(z & -> & -> & R)]]]; try discriminate X; split; eauto; constructor; lia. }
      destruct OM as [OM [z ->]]. split; [exact OM|]. split; [destruct c; reflexivity|].
      f_equal. rewrite name_warnings_said by exact M. cbn [unknown signal_name filter map].
      rewrite said_app. cbn [app operand_warnings]. f_equal.
      destruct c as [c1 c2 c3 c4 c5 c6 c7 c8]; cbn in *. unfold complaints, view_of; cbn [v_first v_second v_out first_signal first_constant second_signal second_constant output_signal].
      rewrite !pick_names, !pick_each by (assumption || exact Logic.I). reflexivity.
    - exists c; eexists. split; [reflexivity|]. split; [exact S|]. right. split; [|auto].
      intros w OM. destruct OM as [v w OM|z R| |]; try discriminate.
      + destruct OM; discriminate.
      + assert (X' : conv_int (AInt z) = Some (AInt z)) by (apply conv_int_iff; right; right; right; eauto).
        rewrite X' in W; discriminate. }
  assert (SigCase : is_int x = false -> x <> ANone -> exists c' r, put_field known m c FSecondSignal (Some FSecondConstant) x = (c', r) /\ sound c' /\
    ((exists w, operand_meant known x w /\ view_of c' = with_second w (view_of c) /\
      r = Ok (said m (operand_warnings known (view_of c) (with_second w (view_of c)) w)))
   \/ (no_meaning (operand_meant known) x /\ c' = c /\ r = Err DataFormatError))).
  { intros X XN. unfold put_field, attempt. rewrite mode_bool_on by exact M. cbn [conv].
    destruct (conv_signal known x) as [w|] eqn:W.
    - pose proof (conv_sig_like _ _ _ W) as SL.
      assert (S' : sound (store FSecondSignal w c)).
      { destruct c; cbn in *. repeat split; cbn; assumption. }
      rewrite (after_sound _ _ M S'). cbn [bind].
      exists (store FSecondConstant ANone (store FSecondSignal w c)). eexists. split; [reflexivity|]. split.
      { destruct c; cbn in *. repeat split; cbn; assumption. }
      left. exists w. apply conv_signal_iff in W.
      assert (WS : exists n, w = ASig n) by (destruct W; eauto; contradiction XN; reflexivity).
      destruct WS as [n ->]. split; [constructor; exact W|]. split; [destruct c; reflexivity|].
      rewrite name_warnings_said, said_app by exact M. cbn [operand_warnings]. do 3 f_equal.
      destruct c; reflexivity.
    - exists c; eexists. split; [reflexivity|]. split; [exact S|]. right. split; [|auto].
      intros w OM. destruct OM as [v w OM|z R| |]; try discriminate. exact (no_signal _ _ W w OM). }
  destruct x; try (apply IntCase; reflexivity); try (apply SigCase; [reflexivity|discriminate]).
  exists (store FSecondConstant ANone (store FSecondSignal ANone c)), (Ok []). split; [reflexivity|]. split.
  { destruct c; cbn in *. repeat split; cbn; assumption. }
  left. exists ANone. split; [repeat constructor|]. split; [destruct c; reflexivity|]. destruct m; reflexivity.
Qed.

Lemma set_op_conds : forall known m c x, m <> MNone -> sound c ->
  exists c' r, put_field known m c FOperation None x = (c', r) /\ sound c' /\
  ((exists w, operation_meant x w /\ view_of c' = with_op w (view_of c) /\ r = Ok (said m (complaints (view_of c))))
   \/ (no_meaning operation_meant x /\ c' = c /\ r = Err DataFormatError)).
Proof.
  intros known m c x M S. unfold put_field, attempt. rewrite mode_bool_on by exact M. cbn [conv].
  destruct (conv_operation x) as [w|] eqn:W.
  - assert (S' : sound (store FOperation w c)) by (destruct c; exact S).
    rewrite (after_sound _ _ M S'). cbn [bind]. exists (store FOperation w c). eexists. split; [reflexivity|].
    split; [exact S'|]. left. exists w. apply conv_operation_iff in W. split; [exact W|]. split; [destruct c; reflexivity|].
    f_equal. rewrite name_warnings_said, said_app by exact M. f_equal.
    destruct W as [|s o _ _]; destruct c; reflexivity.
  - exists c; eexists. split; [reflexivity|]. split; [exact S|]. right. split; [exact (no_operation _ W)|auto].
Qed.
Lemma set_out_conds : forall known m c x, m <> MNone -> sound c ->
  exists c' r, put_field known m c FOutput None x = (c', r) /\ sound c' /\
  ((exists w, signal_meant known x w /\ view_of c' = with_out w (view_of c) /\
      r = Ok (said m (unknown known w ++ complaints (with_out w (view_of c)))))
   \/ (no_meaning (signal_meant known) x /\ c' = c /\ r = Err DataFormatError)).
Proof.
  intros known m c x M S. unfold put_field, attempt. rewrite mode_bool_on by exact M. cbn [conv].
  destruct (conv_signal known x) as [w|] eqn:W.
  - assert (S' : sound (store FOutput w c)).
    { pose proof (conv_sig_like _ _ _ W). destruct S as (A & B & C & D & E). destruct c; repeat split; assumption. }
    rewrite (after_sound _ _ M S'). cbn [bind]. exists (store FOutput w c). eexists. split; [reflexivity|].
    split; [exact S'|]. left. exists w. apply conv_signal_iff in W. split; [exact W|]. split; [destruct c; reflexivity|].
    f_equal. rewrite name_warnings_said, said_app by exact M. destruct c; reflexivity.
  - exists c; eexists. split; [reflexivity|]. split; [exact S|]. right. split; [exact (no_signal _ _ W)|auto].
Qed.

(** ** All at once *)
Lemma first_pair : forall known x,
  (exists a b w, conv_int (if is_int x then x else ANone) = Some a /\ conv_signal known (if is_int x then ANone else x) = Some b /\
     operand_meant known x w /\ pick b a = w /\ unknown known b = unknown known w)
  \/ ((conv_int (if is_int x then x else ANone) = None \/ conv_signal known (if is_int x then ANone else x) = None)
      /\ no_meaning (operand_meant known) x).
Proof.
  intros known x. destruct (is_int x) eqn:X.
  - destruct (conv_int x) as [a|] eqn:W.
    + left. exists a, ANone, a. split; [reflexivity|]. split; [reflexivity|].
      apply conv_int_iff in W as [[-> _]|[[-> ->]|[[-> ->]|(z & -> & -> & R)]]]; try discriminate X;
        (split; [constructor; lia|split; reflexivity]) || (split; [constructor|split; reflexivity]).
    + right. split; [auto|]. intros w OM. destruct OM as [v w OM|z R| |]; try discriminate.
      * destruct OM; discriminate.
      * assert (X' : conv_int (AInt z) = Some (AInt z)) by (apply conv_int_iff; right; right; right; eauto).
        rewrite X' in W; discriminate.
  - destruct (conv_signal known x) as [b|] eqn:W.
    + left. exists ANone, b, b. split; [reflexivity|]. split; [reflexivity|]. split; [constructor; apply conv_signal_iff; exact W|].
      split; [destruct b; reflexivity|reflexivity].
    + right. split; [auto|]. intros w OM. destruct OM as [v w OM|z R| |]; try discriminate. exact (no_signal _ _ W w OM).
Qed.
Lemma second_pair : forall known x,
  (exists a b w, conv_int (if is_int x then x else AInt 0) = Some a /\ conv_signal known (if is_int x then ANone else x) = Some b /\
     operand_meant known (not_none x) w /\ pick b a = w /\ unknown known b = unknown known w)
  \/ ((conv_int (if is_int x then x else AInt 0) = None \/ conv_signal known (if is_int x then ANone else x) = None)
      /\ no_meaning (operand_meant known) (not_none x)).
Proof.
  intros known x.
  assert (Z0 : conv_int (AInt 0) = Some (AInt 0)) by reflexivity.
  destruct x; try (exact (first_pair known (ABool b))); try (exact (first_pair known (AInt z)));
    cbn [is_int not_none]; rewrite Z0.
  - left. exists (AInt 0), ANone, (AInt 0). repeat split; try reflexivity. constructor; lia.
  - destruct (conv_signal known (AName s)) as [b|] eqn:W.
    + left. exists (AInt 0), b, b. split; [reflexivity|]. split; [reflexivity|]. apply conv_signal_iff in W.
      split; [constructor; exact W|]. inversion W; split; reflexivity.
    + right. split; [auto|]. intros w OM. inversion OM; subst. exact (no_signal _ _ W w H).
  - left. exists (AInt 0), (ASig name), (ASig name). repeat split; try reflexivity. repeat constructor.
  - left. exists (AInt 0), (ASig name), (ASig name). repeat split; try reflexivity. repeat constructor.
  - right. split; [auto|]. intros w OM. inversion OM; subst. inversion H.
Qed.
Lemma opt_bind_none : forall A B (k : A -> option B) o, o = None -> opt_bind o k = None.
Proof. intros; subst; reflexivity. Qed.
Lemma validate_given : forall known fo fw op so sw out,
  (exists c a o b u, validate_conds known (given fo fw op so sw out) = Some c /\ sound c /\
     operand_meant known fo a /\ operation_meant (or_times op) o /\ operand_meant known (not_none so) b /\ signal_meant known out u /\
     view_of c = mkView a o b u (nets_of fw) (nets_of sw) /\
     unknown known (first_signal c) = unknown known a /\ unknown known (second_signal c) = unknown known b /\
     output_signal c = u)
  \/ (validate_conds known (given fo fw op so sw out) = None /\
      (no_meaning (operand_meant known) fo \/ no_meaning operation_meant (or_times op) \/
       no_meaning (operand_meant known) (not_none so) \/ no_meaning (signal_meant known) out)).
Proof.
  intros known fo fw op so sw out. unfold validate_conds, given.
  cbn [conv first_constant first_signal operation second_constant second_signal output_signal first_nets second_nets].
  change (match op with ANone => AName (str "*") | _ => op end) with (or_times op).
  destruct (first_pair known fo) as [(a1 & b1 & w1 & E1 & E2 & M1 & P1 & U1)|[E M1]].
  2:{ right. split; [|auto]. destruct E as [E|E]; rewrite E; [reflexivity|]. destruct (conv_int _); reflexivity. }
  rewrite E1, E2. cbn [opt_bind].
  destruct (conv_operation (or_times op)) as [o|] eqn:O.
  2:{ right. split; [reflexivity|]. right; left. exact (no_operation _ O). }
  cbn [opt_bind].
  destruct (second_pair known so) as [(a2 & b2 & w2 & E3 & E4 & M2 & P2 & U2)|[E M2]].
  2:{ right. split; [|auto]. destruct E as [E|E]; rewrite E; [reflexivity|]. destruct (conv_int (if is_int so then so else AInt 0)); reflexivity. }
  rewrite E3, E4. cbn [opt_bind].
  destruct (conv_signal known out) as [u|] eqn:U.
  2:{ right. split; [reflexivity|]. right; right; right. exact (no_signal _ _ U). }
  left. cbn [opt_bind]. eexists _, w1, o, w2, u. split; [reflexivity|].
  split; [exact (Logic.conj (conv_int_like _ _ E1) (Logic.conj (conv_sig_like _ _ _ E2) (Logic.conj (conv_int_like _ _ E3)
            (Logic.conj (conv_sig_like _ _ _ E4) (conv_sig_like _ _ _ U)))))|].
  split; [exact M1|]. split; [apply conv_operation_iff; exact O|]. split; [exact M2|]. split; [apply conv_signal_iff; exact U|].
  unfold view_of; cbn. rewrite P1, P2. auto.
Qed.

(** ** Histories *)
Lemma view_fresh : view_of new_conds = fresh.
Proof. reflexivity. Qed.
Lemma sound_new : sound new_conds.
Proof. repeat split. Qed.
Lemma exec_does : forall known s t, inv s -> validating t ->
  does known (st_mode s) (shown_of s) t (shown_of (fst (exec known s t))) (snd (exec known s t))
  /\ inv (fst (exec known s t)) /\
  st_mode (fst (exec known s t)) = match t with SetMode m' => m' | _ => st_mode s end.
Proof.
  intros known [m cb] t [M H] V; cbn [st_mode st_cb] in *.
  assert (Setter : forall (k : conds -> outcome) (Q : view -> view -> result (list awarn) -> Prop),
    (forall c, sound c -> exists c' r, k c = (c', r) /\ sound c' /\ Q (view_of c) (view_of c') r) ->
    (forall sh v v' r, base sh = Some v -> Q v v' r -> does known m sh t (Parts v') r) ->
    does known m Broken t Broken (Err AttributeError) ->
    exec known (mkState m cb) t = on_conds (mkState m cb) k ->
    does known m (shown_of (mkState m cb)) t (shown_of (fst (exec known (mkState m cb) t))) (snd (exec known (mkState m cb) t))
    /\ inv (fst (exec known (mkState m cb) t)) /\ st_mode (fst (exec known (mkState m cb) t)) = m).
  { intros k Q K D B E. rewrite E. unfold on_conds; cbn [st_cb st_mode].
    destruct cb as [|b|o]; [|contradiction|].
    - cbn. split; [exact B|]. split; [split; [exact M|exact Logic.I]|reflexivity].
    - assert (S : sound (match o with Some c => c | None => new_conds end)) by (destruct o; [exact H|exact sound_new]).
      destruct (K _ S) as (c' & r & -> & S' & G). cbn [fst snd]. split; [|split; [split; [exact M|exact S']|reflexivity]].
      unfold shown_of at 2; cbn [st_cb]. refine (D _ _ _ _ _ G). destruct o; reflexivity. }
  destruct t as [x|x|x|x|fo fw op so sw out| | | |m'].
  - apply (Setter (fun c => set_operand known m c FFirstConstant FFirstSignal x)
      (fun v v' r => (exists w, operand_meant known x w /\ v' = with_first w v /\
                       r = Ok (said m (operand_warnings known v (with_first w v) w)))
                     \/ (no_meaning (operand_meant known) x /\ v' = v /\ r = Err DataFormatError))).
    + intros c S. destruct (set_first_conds known m c x M S) as (c' & r & E & S' & [(w & A & B & C)|(A & B & C)]);
        exists c', r; split; [exact E| |exact E|]; split; [exact S'| |exact S'|]; [left; eauto|right; subst; auto].
    + intros sh v v' r B [(w & A & -> & ->)|(A & -> & ->)]; constructor; assumption.
    + constructor; exact Logic.I.
    + reflexivity.
  - apply (Setter (fun c => put_field known m c FOperation None x)
      (fun v v' r => (exists w, operation_meant x w /\ v' = with_op w v /\ r = Ok (said m (complaints v)))
                     \/ (no_meaning operation_meant x /\ v' = v /\ r = Err DataFormatError))).
    + intros c S. destruct (set_op_conds known m c x M S) as (c' & r & E & S' & [(w & A & B & C)|(A & B & C)]);
        exists c', r; split; [exact E| |exact E|]; split; [exact S'| |exact S'|]; [left; eauto|right; subst; auto].
    + intros sh v v' r B [(w & A & -> & ->)|(A & -> & ->)]; constructor; assumption.
    + constructor; exact Logic.I.
    + reflexivity.
  - apply (Setter (fun c => set_operand known m c FSecondConstant FSecondSignal x)
      (fun v v' r => (exists w, operand_meant known x w /\ v' = with_second w v /\
                       r = Ok (said m (operand_warnings known v (with_second w v) w)))
                     \/ (no_meaning (operand_meant known) x /\ v' = v /\ r = Err DataFormatError))).
    + intros c S. destruct (set_second_conds known m c x M S) as (c' & r & E & S' & [(w & A & B & C)|(A & B & C)]);
        exists c', r; split; [exact E| |exact E|]; split; [exact S'| |exact S'|]; [left; eauto|right; subst; auto].
    + intros sh v v' r B [(w & A & -> & ->)|(A & -> & ->)]; constructor; assumption.
    + constructor; exact Logic.I.
    + reflexivity.
  - apply (Setter (fun c => put_field known m c FOutput None x)
      (fun v v' r => (exists w, signal_meant known x w /\ v' = with_out w v /\
                       r = Ok (said m (unknown known w ++ complaints (with_out w v))))
                     \/ (no_meaning (signal_meant known) x /\ v' = v /\ r = Err DataFormatError))).
    + intros c S. destruct (set_out_conds known m c x M S) as (c' & r & E & S' & [(w & A & B & C)|(A & B & C)]);
        exists c', r; split; [exact E| |exact E|]; split; [exact S'| |exact S'|]; [left; eauto|right; subst; auto].
    + intros sh v v' r B [(w & A & -> & ->)|(A & -> & ->)]; constructor; assumption.
    + constructor; exact Logic.I.
    + reflexivity.
  - clear Setter. cbn [exec st_mode]. rewrite mode_bool_on by exact M.
    destruct (validate_given known fo fw op so sw out) as [(c & a & o & b & u & -> & S & A & O & B & U & E & U1 & U2 & U3)|[-> N]].
    + rewrite (after_sound _ _ M S). cbn [fst snd]. split; [|split; [split; [exact M|exact S]|reflexivity]].
      rewrite !name_warnings_said by exact M. rewrite !said_app, U1, U2, U3, E.
      unfold shown_of at 2; cbn [st_cb]. rewrite E. exact (does_all known m _ fo fw op so sw out a o b u A O B U).
    + cbn [fst snd]. split; [apply does_no_all; exact N|]. split; [split; [exact M|exact H]|reflexivity].
  - clear Setter. cbn [exec st_cb]. destruct cb as [|b|o]; [|contradiction|]; cbn [fst snd].
    + split; [apply does_broken; exact Logic.I|]. split; [split; [exact M|exact Logic.I]|reflexivity].
    + split; [|split; [split; [exact M|exact sound_new]|reflexivity]].
      unfold shown_of at 2; cbn [st_cb]. rewrite view_fresh.
      destruct o as [c|]; eapply does_remove; reflexivity.
  - clear Setter. cbn [exec st_mode]. rewrite mode_bool_on by exact M. cbn [fst snd].
    split; [apply does_no_conditions|]. split; [split; [exact M|exact Logic.I]|reflexivity].
  - clear Setter. cbn [exec fst snd]. split; [apply does_no_behavior|]. split; [split; [exact M|exact Logic.I]|reflexivity].
  - clear Setter. cbn [exec fst snd]. split; [unfold shown_of; cbn; apply does_mode|]. split; [|reflexivity].
    split; [|exact H]. cbn. intros ->. apply V; reflexivity.
Qed.
Lemma history : forall known p s, inv s -> Forall validating p ->
  goes known (st_mode s) (shown_of s) p (shown_of (exec_all known s p)) (outcomes known s p)
  /\ inv (exec_all known s p).
Proof.
  intros known p; induction p as [|t p IH]; intros s H F.
  - cbn. split; [constructor|exact H].
  - inversion F as [|? ? F1 F2]; subst. destruct (exec_does known s t H F1) as (D & H' & E).
    cbn [exec_all outcomes]. destruct (IH _ H' F2) as [G H'']. split; [|exact H''].
    econstructor; [exact D|]. rewrite <- E. exact G.
Qed.
Lemma inv_new : forall m, m <> MNone -> inv (new_state m).
Proof. intros m M. split; [exact M|exact sound_new]. Qed.
Theorem history_new : forall known m p, m <> MNone -> Forall validating p ->
  exists sh, goes known m (Parts fresh) p sh (outcomes known (new_state m) p) /\ shows (exec_all known (new_state m) p) sh.
Proof.
  intros known m p M F. destruct (history known p (new_state m) (inv_new m M) F) as [G H].
  exists (shown_of (exec_all known (new_state m) p)). split; [exact G|apply shows_of; exact H].
Qed.

(** The specification leaves nothing open. *)
Lemma signal_meant_fun : forall known v a b, signal_meant known v a -> signal_meant known v b -> a = b.
Proof. intros known v a b A B. apply conv_signal_iff in A. apply conv_signal_iff in B. congruence. Qed.
Lemma operand_meant_fun : forall known v a b, operand_meant known v a -> operand_meant known v b -> a = b.
Proof.
  intros known v a b A B. inversion A; subst; inversion B; subst; try reflexivity;
    try (eapply signal_meant_fun; eassumption);
    match goal with H : signal_meant _ _ _ |- _ => inversion H end.
Qed.
Lemma operation_meant_fun : forall v a b, operation_meant v a -> operation_meant v b -> a = b.
Proof. intros v a b A B. apply conv_operation_iff in A. apply conv_operation_iff in B. congruence. Qed.
Ltac settle :=
  repeat match goal with
  | A : base ?s = Some ?a, B : base ?s = Some ?b |- _ => assert (a = b) by congruence; subst b; clear B
  | A : signal_meant ?k ?v ?a, B : signal_meant ?k ?v ?b |- _ => pose proof (signal_meant_fun _ _ _ _ A B); subst b; clear B
  | A : operand_meant ?k ?v ?a, B : operand_meant ?k ?v ?b |- _ => pose proof (operand_meant_fun _ _ _ _ A B); subst b; clear B
  | A : operation_meant ?v ?a, B : operation_meant ?v ?b |- _ => pose proof (operation_meant_fun _ _ _ A B); subst b; clear B
  | A : no_meaning ?R ?v, B : ?R ?v ?w |- _ => exfalso; exact (A w B)
  | H : _ \/ _ |- _ => destruct H
  end.
Theorem does_deterministic : forall known m sh t a b r q,
  does known m sh t a r -> does known m sh t b q -> a = b /\ r = q.
Proof.
  intros known m sh t a b r q A B.
  destruct A; inversion B; subst; settle; try (split; reflexivity); try discriminate; try contradiction;
    try (cbn in *; congruence).
Qed.

(** ** Modes *)
Lemma put_field_mode : forall known m c f g v, m <> MNone -> sound c ->
  fst (put_field known m c f g v) = fst (put_field known MMinimum c f g v).
Proof.
  intros known m c f g v M S. unfold put_field, attempt. rewrite mode_bool_on by exact M. cbn [mode_bool mode_eq mode_index Z.eqb negb].
  change (mode_bool MMinimum) with true. cbn iota.
  destruct (conv known f v) as [w|] eqn:W; [|reflexivity].
  assert (S' : sound (store f w c)).
  { destruct S as (A & B & C & D & E). destruct c; destruct f; cbn [conv] in W; repeat split; cbn in *; try assumption;
      solve [exact (conv_int_like _ _ W)|exact (conv_sig_like _ _ _ W)]. }
  rewrite (after_sound _ _ M S'). rewrite (after_sound MMinimum _ ltac:(discriminate) S'). reflexivity.
Qed.
Lemma set_operand_mode : forall known m c f g v, m <> MNone -> sound c ->
  fst (set_operand known m c f g v) = fst (set_operand known MMinimum c f g v).
Proof. intros known m c f g v M S. destruct v; cbn [set_operand]; try reflexivity; apply put_field_mode; assumption. Qed.
Lemma exec_mode : forall known m cb t, inv (mkState m cb) -> validating t ->
  st_cb (fst (exec known (mkState m cb) t)) = st_cb (fst (exec known (mkState MMinimum cb) t)).
Proof.
  intros known m cb t [M H] V; cbn [st_mode st_cb] in *.
  assert (On : forall k1 k2 : conds -> outcome, (forall c, sound c -> fst (k1 c) = fst (k2 c)) ->
    st_cb (fst (on_conds (mkState m cb) k1)) = st_cb (fst (on_conds (mkState MMinimum cb) k2))).
  { intros k1 k2 K. unfold on_conds; cbn [st_cb]. destruct cb as [|b|o]; try reflexivity.
    assert (S : sound (match o with Some c => c | None => new_conds end)) by (destruct o; [exact H|exact sound_new]).
    specialize (K _ S). destruct (k1 _), (k2 _). cbn in K |- *. rewrite K; reflexivity. }
  destruct t; cbn [exec st_mode]; try (apply On; intros; try apply set_operand_mode; try apply put_field_mode; assumption);
    try reflexivity.
  - rewrite mode_bool_on by exact M. change (mode_bool MMinimum) with true. cbn iota.
    destruct (validate_given known fo fw op so sw out) as [(c & a & o & b & u & -> & S & _)|[-> _]]; [|reflexivity].
    rewrite (after_sound _ _ M S). rewrite (after_sound MMinimum _ ltac:(discriminate) S). reflexivity.
  - cbn [st_cb]. destruct cb; reflexivity.
  - rewrite mode_bool_on by exact M. reflexivity.
Qed.
(** What is stored does not depend on how strict the validation is. *)
Definition mode_free (t : stmt) : Prop := forall m, t <> SetMode m.
Theorem modes_agree : forall known p m1 m2 cb, inv (mkState m1 cb) -> m2 <> MNone -> Forall mode_free p ->
  st_cb (exec_all known (mkState m1 cb) p) = st_cb (exec_all known (mkState m2 cb) p).
Proof.
  intros known p; induction p as [|t p IH]; intros m1 m2 cb H M F; [reflexivity|].
  inversion F as [|? ? F1 F2]; subst. cbn [exec_all].
  assert (V : validating t) by exact (F1 MNone).
  assert (H2 : inv (mkState m2 cb)) by (split; [exact M|exact (proj2 H)]).
  destruct (exec_does known _ t H V) as (_ & I1 & E1). destruct (exec_does known _ t H2 V) as (_ & I2 & E2).
  pose proof (exec_mode known m1 cb t H V) as C1. pose proof (exec_mode known m2 cb t H2 V) as C2.
  destruct (fst (exec known (mkState m1 cb) t)) as [n1 b1]. destruct (fst (exec known (mkState m2 cb) t)) as [n2 b2].
  cbn [st_cb st_mode] in *. assert (BB : b1 = b2) by congruence. clear C1 C2. subst b2. apply IH; [exact I1|exact (proj1 I2)|exact F2].
Qed.
Theorem minimum_silent : forall known sh t sh' r, does known MMinimum sh t sh' r -> r = Ok [] \/ exists e, r = Err e.
Proof. intros known sh t sh' r D; destruct D; eauto. Qed.

(** ** Without validation *)
Theorem unvalidated : forall known c t, 
  let s := mkState MNone (CModel (Some c)) in
  match t with
  | SetFirst v => get_first (fst (exec known s t)) = Ok v /\ get_second (fst (exec known s t)) = get_second s /\
      get_operation (fst (exec known s t)) = get_operation s /\ get_output (fst (exec known s t)) = get_output s
  | SetSecond v => get_second (fst (exec known s t)) = Ok v /\ get_first (fst (exec known s t)) = get_first s /\
      get_operation (fst (exec known s t)) = get_operation s /\ get_output (fst (exec known s t)) = get_output s
  | SetOperation v => get_operation (fst (exec known s t)) = Ok v /\ get_first (fst (exec known s t)) = get_first s /\
      get_second (fst (exec known s t)) = get_second s /\ get_output (fst (exec known s t)) = get_output s
  | SetOutput v => get_output (fst (exec known s t)) = Ok v /\ get_first (fst (exec known s t)) = get_first s /\
      get_second (fst (exec known s t)) = get_second s /\ get_operation (fst (exec known s t)) = get_operation s
  | _ => True
  end /\ snd (exec known s t) = Ok [] /\ networks (fst (exec known s t)) = match t with
      | SetAll _ _ _ _ _ _ | NoConditions | NoBehavior => None
      | Remove => Some (both, both)
      | _ => networks s end.
Proof.
  intros known c t s; subst s. destruct c; destruct t; try destruct v; repeat split; reflexivity.
Qed.

(** ** Readings that come back *)
(** Setting all at once: what is read back. *)
Theorem all_read : forall known m cb fo fw op so sw out ws,
  m <> MNone -> snd (exec known (mkState m cb) (SetAll fo fw op so sw out)) = Ok ws ->
  let s := fst (exec known (mkState m cb) (SetAll fo fw op so sw out)) in
  (exists a, operand_meant known fo a /\ get_first s = Ok a) /\
  (exists o, operation_meant (or_times op) o /\ get_operation s = Ok o) /\
  (exists b, operand_meant known (not_none so) b /\ get_second s = Ok b) /\
  (exists u, signal_meant known out u /\ get_output s = Ok u).
Proof.
  intros known m cb fo fw op so sw out ws M. cbn [exec st_mode]. rewrite mode_bool_on by exact M.
  destruct (validate_given known fo fw op so sw out) as [(c & a & o & b & u & -> & S & A & O & B & U & E & _)|[-> _]]; [|discriminate].
  rewrite (after_sound _ _ M S). cbn [fst snd]. intros _.
  unfold get_first, get_second, get_operation, get_output, get; cbn [st_cb].
  injection E as E1 E2 E3 E4 E5 E6. repeat split; eexists; (split; [eassumption|]); f_equal; assumption.
Qed.
(** Refusals change nothing as long as there are conditions. *)
Theorem refused_same : forall known s t e, inv s -> validating t -> snd (exec known s t) = Err e ->
  (st_cb s <> CModel None -> shown_of (fst (exec known s t)) = shown_of s) /\
  e = match st_cb s with
      | CModel _ => DataFormatError
      | _ => match t with SetAll _ _ _ _ _ _ => DataFormatError | _ => AttributeError end
      end.
Proof.
  intros known s t e H V E. destruct (exec_does known s t H V) as (D & _ & _). rewrite E in D. destruct H as [_ H].
  assert (B : base (shown_of s) <> None -> exists o, st_cb s = CModel o).
  { unfold shown_of. destruct (st_cb s) as [|b|o]; cbn; intros X; try (contradiction X; reflexivity). eauto. }
  assert (P : forall v, base (shown_of s) = Some v -> st_cb s <> CModel None -> shown_of s = Parts v).
  { unfold shown_of. intros v. destruct (st_cb s) as [|b|[c|]]; cbn; intros X N; try discriminate; try (contradiction N; reflexivity).
    congruence. }
  assert (F : forall v, base (shown_of s) = Some v -> DataFormatError = match st_cb s with
      | CModel _ => DataFormatError
      | _ => match t with SetAll _ _ _ _ _ _ => DataFormatError | _ => AttributeError end end).
  { intros v X. destruct B as [o ->]; [rewrite X; discriminate|reflexivity]. }
  remember (shown_of s) as sh eqn:SH. remember (shown_of (fst (exec known s t))) as sh' eqn:SH'.
  inversion D; subst t e; (split; [intros N; try reflexivity; symmetry; apply P; assumption|]); try (eapply F; eassumption).
  - unfold shown_of in SH. rewrite <- H1 in SH. destruct (st_cb s) as [|b|[c|]]; try discriminate; try contradiction; destruct t0; try contradiction; reflexivity.
  - destruct (st_cb s); reflexivity.
Qed.

(** ** What the documentation says and the code does not do *)
Definition all_known : pystr -> bool := fun _ => true.
Definition sg (s : string) : val := ASig (Some (str s)).
(** A constant replaces a forbidden signal, and the signal is complained about;
    a constant replaces the only input of each, and there is no complaint. *)
Theorem constant_warnings_refuted :
  (exists p z ws, snd (exec all_known (exec_all all_known (new_state MStrict) p) (SetFirst (AInt z))) = Ok ws /\
     ws = [WForbidden (str "signal-anything")] /\
     shown_of (fst (exec all_known (exec_all all_known (new_state MStrict) p) (SetFirst (AInt z)))) = Parts (with_first (AInt z) fresh))
  /\ (exists p z, snd (exec all_known (exec_all all_known (new_state MStrict) p) (SetFirst (AInt z))) = Ok [] /\
     exists v, shown_of (fst (exec all_known (exec_all all_known (new_state MStrict) p) (SetFirst (AInt z)))) = Parts v /\
       complaints v = [WEach]).
Proof.
  split.
  - exists [SetFirst (AName (str "signal-anything"))], 5, [WForbidden (str "signal-anything")]. repeat split.
  - exists [SetFirst (AName each); SetOutput (AName each)], 5. split; [reflexivity|]. eexists. split; reflexivity.
Qed.
Theorem unset_warnings_refuted : exists p,
  snd (exec all_known (exec_all all_known (new_state MStrict) p) (SetFirst ANone)) = Ok [] /\
  get_output (fst (exec all_known (exec_all all_known (new_state MStrict) p) (SetFirst ANone))) = Ok (ASig (Some each)) /\
  get_first (fst (exec all_known (exec_all all_known (new_state MStrict) p) (SetFirst ANone))) = Ok ANone /\
  get_second (fst (exec all_known (exec_all all_known (new_state MStrict) p) (SetFirst ANone))) = Ok (AInt 0).
Proof. exists [SetFirst (AName each); SetOutput (AName each)]. repeat split. Qed.
Theorem two_each_refuted : forall m, m <> MNone -> exists p, Forall2 (fun (_ : stmt) r => r = Ok []) p (outcomes all_known (new_state m) p) /\
  get_first (exec_all all_known (new_state m) p) = Ok (ASig (Some each)) /\
  get_second (exec_all all_known (new_state m) p) = Ok (ASig (Some each)).
Proof.
  intros m M. exists [SetFirst (AName each); SetSecond (AName each)].
  destruct m; [contradiction M; reflexivity| | |]; (split; [repeat constructor|split; reflexivity]).
Qed.
(** Everything that is done by [set_arithmetic_conditions] without validation
    leaves a dictionary that no attribute can read or set. *)
Theorem unvalidated_all_refuted : forall known cb fo fw op so sw out,
  let s := fst (exec known (mkState MNone cb) (SetAll fo fw op so sw out)) in
  snd (exec known (mkState MNone cb) (SetAll fo fw op so sw out)) = Ok [] /\
  get_first s = Err AttributeError /\ get_second s = Err AttributeError /\
  get_operation s = Err AttributeError /\ get_output s = Err AttributeError /\
  forall t, match t with SetFirst _ | SetSecond _ | SetOperation _ | SetOutput _ | Remove => True | _ => False end ->
    exec known s t = (s, Err AttributeError).
Proof. intros. repeat split. intros []; intros X; try contradiction; reflexivity. Qed.
(** A string stored without validation stops a later assignment to another slot
    after the value has been stored. *)
Theorem raw_name_refuted : exists p,
  let s := exec_all all_known (new_state MNone) p in
  snd (exec all_known s (SetOutput (AName (str "signal-A")))) = Err AttributeError /\
  get_output s = Ok ANone /\
  get_output (fst (exec all_known s (SetOutput (AName (str "signal-A"))))) = Ok (sg "signal-A").
Proof. exists [SetFirst (AName (str "signal-B")); SetMode MStrict]. repeat split. Qed.
Theorem refused_creates_refuted : exists p,
  let s := exec_all all_known (new_state MStrict) p in
  snd (exec all_known s (SetOutput (ABad 0))) = Err DataFormatError /\
  get_second s = Ok ANone /\ get_second (fst (exec all_known s (SetOutput (ABad 0)))) = Ok (AInt 0).
Proof. exists [NoConditions]. repeat split. Qed.
Theorem second_none_refuted : forall m, m <> MNone ->
  get_second (fst (exec all_known (new_state m) (SetAll ANone [] ANone ANone [] ANone))) = Ok (AInt 0).
Proof. destruct m; intros M; try reflexivity; contradiction M; reflexivity. Qed.
Theorem removed_refuted : forall known m o,
  let s := fst (exec known (mkState m (CModel o)) Remove) in
  get_second s = Ok (AInt 0) /\ get_operation s = Ok (AName (str "*")) /\ networks s <> None.
Proof. intros; repeat split; discriminate. Qed.
