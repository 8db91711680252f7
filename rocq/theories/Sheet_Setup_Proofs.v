(** Proofs about [setup] of blueprints, planners and books. *)
From Coq Require Import ZArith String List Bool Lia.
From Verif Require Import Common Dict Version_Model Assign_Model Attr_Model Attr_Table Attr_Spec Attr_Order_Proofs Attr_Proofs.
From Verif Require Import Sheet_Model Sheet_Spec Sheet_Proofs.
Import ListNotations.
Local Open Scope string_scope.
Local Open Scope list_scope.

(** ** Keywords *)
Lemma given_chosen kw keys d v : given kw keys d = v <-> chosen kw d keys v.
Proof.
  split.
  - intros <-. induction keys as [|n r IH]; cbn [given]; [constructor|]. destruct (dget eqs kw n) as [u|] eqn:E; [apply chosen_here; exact E|apply chosen_later; assumption].
  - induction 1 as [|n r u E|n r u E C IH]; cbn [given]; [reflexivity|rewrite E; reflexivity|rewrite E; exact IH].
Qed.
Lemma chosen_unique kw d keys v v' : chosen kw d keys v -> chosen kw d keys v' -> v = v'.
Proof. intros A B. apply given_chosen in A. apply given_chosen in B. congruence. Qed.

(** ** One line *)
Definition target (l : line) : string := match l with Take a _ _ | Build a _ | From a _ => a | Whole => "settings" end.
Lemma targets W k : map target (lines W k) = sequence k.
Proof. destruct k; reflexivity. Qed.
Lemma sequence_nodup k : NoDup (sequence k).
Proof. assert (T : nodup string_dec (sequence k) = sequence k) by (destruct k; reflexivity). rewrite <- T. apply NoDup_nodup. Qed.
Definition row (k : sheet) (a : string) (p : attr) : Prop := In (a, p) (rows k) /\ In a (sequence k).
Lemma row_ex k a : In a (sequence k) -> exists p, In (a, p) (rows k).
Proof.
  intros H. destruct (string_dec a "settings") as [->|N].
  - destruct k; cbn in H; try (intuition discriminate). exists settings_attr. apply in_or_app. right. left. reflexivity.
  - assert (J : In a (attributes k)). { destruct k; try exact H. cbn in H. cbn. intuition congruence. }
    apply attributes_iff in J. destruct J as (p & J). exists p. apply rows_attrs. exact J.
Qed.
Lemma row_attr k a p : In (a, p) (rows k) -> a <> "settings" -> In (a, p) (attrs k).
Proof. intros H N. apply in_app_or in H. destruct H as [H|H]; [exact H|]. destruct k; cbn in H; try contradiction. destruct H as [H|[]]. congruence. Qed.
Lemma row_settings k p : In ("settings", p) (rows k) -> k = Upgrade /\ p = settings_attr.
Proof.
  intros H. apply in_app_or in H. destruct H as [H|H]; [exfalso; exact (attr_not_settings _ _ _ H eq_refl)|].
  destruct k; cbn in H; try contradiction. destruct H as [H|[]]. injection H as <-. auto.
Qed.
(** Holders of what [setup] assigns are not replaced. *)
Definition later_ok : bool := forallb (fun k => forallb (fun r => forallb (fun r' =>
  negb (mem (fst r) (sequence k)) || negb (mem (fst r') (sequence k)) || negb (starts (cell_of (snd r)) (spot (snd r')))) (rows k)) (rows k)) [Blueprint; Deconstruction; Upgrade; Book].
Lemma later_ok_true : later_ok = true.
Proof. vm_compute. reflexivity. Qed.
Lemma mem_true a l : In a l -> mem a l = true.
Proof. intros H. unfold mem. apply existsb_exists. exists a. split; [exact H|apply eqs_refl]. Qed.
Lemma mem_false a l : ~ In a l -> mem a l = false.
Proof. intros H. destruct (mem a l) eqn:E; [|reflexivity]. exfalso. apply H. unfold mem in E. apply existsb_exists in E. destruct E as (x & X & E). apply eqs_eq in E. congruence. Qed.
Lemma mem_inv a l : mem a l = true -> In a l.
Proof. intros E. unfold mem in E. apply existsb_exists in E. destruct E as (x & X & E). apply eqs_eq in E. congruence. Qed.
Lemma put_here k a p b q w t t' : row k a p -> row k b q -> here p t -> here q t -> put p w t = Ok t' -> here q t'.
Proof.
  intros (H & HI) (J & JI) P (fs & Q) U. rewrite (put_write _ _ _ _ _ P H) in U.
  pose proof later_ok_true as T. unfold later_ok in T. rewrite forallb_forall in T. specialize (T _ (all_sheets k)).
  rewrite forallb_forall in T. specialize (T _ H). rewrite forallb_forall in T. specialize (T _ J). cbn [fst snd] in T.
  rewrite (mem_true _ _ HI), (mem_true _ _ JI) in T. cbn [negb orb] in T. rewrite negb_true_iff in T.
  exact (write_keeps_model _ _ _ _ _ _ _ U Q T).
Qed.

(** What a line stores. *)
Lemma play_refused W k md kw l t t' e : play W k md kw l t = (t', Some e) -> t' = t.
Proof.
  destruct l as [a keys d|a d|a d|]; cbn [play].
  - apply assign_refused.
  - destruct (dget eqs (attrs k) a) as [p|]; [|intros E; injection E; auto]. unfold done.
    match goal with |- context[match ?r with Ok _ => _ | Err _ => _ end = _] => destruct r end; intros E; [discriminate E|injection E; auto].
  - destruct (given kw ["settings"] (TDict [])) as [|z|fs|fs]; [discriminate|intros E; injection E; auto| |];
      (destruct (get_default _ a d); [apply assign_refused|intros E; injection E; auto]).
  - apply set_attr_err.
Qed.
(** A line either leaves everything, because it is spared, or stores what is wanted. *)
Definition puts (W : world) (k : sheet) (md : mode) (kw : keywords) (l : line) (t t' : tree) : Prop :=
  exists p w, row k (target l) p /\ here p t /\ put p w t = Ok t' /\
    ((target l = "settings" /\ exists v o, chosen kw (TDict []) ["settings"] v /\ check W md true (body_format Upgrade) "settings" o v = Ok w) \/
     (target l <> "settings" /\ exists v, wants W k kw (target l) v /\ gives W k md (target l) v w)).
Lemma set_row W k md a p v t t' : In (a, p) (attrs k) -> here p t -> set_attr W md p v t = (t', None) ->
  exists w, takes W k md a v w /\ put p w t = Ok t'.
Proof.
  intros H S E. destruct (set_attr_inv _ _ _ _ _ _ E) as (x & w & P & K & U). exists w. split; [|exact U]. exists x.
  split; [exact (proj1 (prepared_becomes _ _ _ _ _ _ H) P)|exact (kept_accepts _ _ _ _ _ _ _ _ S H K)].
Qed.
Lemma take_line W k a keys d : In (Take a keys d) (lines W k) -> In (a, (keys, d)) (parameters W k) /\ mem a containers = false.
Proof.
  intros H; destruct k; cbn [lines In] in H; repeat match type of H with _ \/ _ => destruct H as [H|H] end; try contradiction; try discriminate H;
    injection H as <- <- <-; (split; [cbn [parameters In]; tauto|reflexivity]).
Qed.
Lemma build_line W k a d : In (Build a d) (lines W k) -> In (a, ([a], d)) (parameters W k) /\ mem a containers = true /\
  exists p, dget eqs (attrs k) a = Some p /\ name p = ("_" ++ a)%string.
Proof.
  intros H; destruct k; cbn [lines In] in H; repeat match type of H with _ \/ _ => destruct H as [H|H] end; try contradiction; try discriminate H;
    injection H as <- <-; (split; [cbn [parameters In]; tauto|split; [reflexivity|eexists; split; reflexivity]]).
Qed.
Lemma from_line W k a d : In (From a d) (lines W k) -> k = Deconstruction /\ In (a, d) (filters W) /\ mem a containers = false.
Proof.
  intros H; destruct k; cbn [lines In] in H; repeat match type of H with _ \/ _ => destruct H as [H|H] end; try contradiction; try discriminate H;
    injection H as <- <-; (split; [reflexivity|split; [cbn [filters In]; tauto|reflexivity]]).
Qed.
Lemma whole_line W k : In Whole (lines W k) -> k = Upgrade.
Proof. intros H; destruct k; cbn [lines In] in H; repeat match type of H with _ \/ _ => destruct H as [H|H] end; try contradiction; try discriminate H; reflexivity. Qed.
Lemma line_in W k l : In l (lines W k) -> In (target l) (sequence k).
Proof. intros H. rewrite <- (targets W k). apply in_map. exact H. Qed.
Lemma line_attr W k l a p : In l (lines W k) -> In (a, p) (attrs k) -> target l = a -> row k (target l) p.
Proof. intros H J <-. split; [apply rows_attrs; exact J|exact (line_in _ _ _ H)]. Qed.
Lemma play_puts W k md kw l t t' : In l (lines W k) -> (forall p, row k (target l) p -> here p t) -> play W k md kw l t = (t', None) ->
  puts W k md kw l t t' \/ (t' = t /\ spared W k kw (target l) /\ target l <> "settings").
Proof.
  intros H S E. destruct l as [a keys d|a d|a d|]; cbn [play] in E.
  - left. destruct (assign_row _ _ _ _ _ _ _ E) as (p & J & X). pose proof (line_attr _ _ _ _ _ H J eq_refl) as R.
    destruct (set_row _ _ _ _ _ _ _ _ J (S _ R) X) as (w & T & U). exists p, w. split; [exact R|]. split; [exact (S _ R)|]. split; [exact U|].
    right. cbn [target]. split; [exact (attr_not_settings _ _ _ J)|]. destruct (take_line _ _ _ _ _ H) as [I C].
    exists (given kw keys d). split; [apply (wants_keyword _ _ _ _ keys d); [exact I|apply given_chosen; reflexivity]|]. unfold gives. rewrite C. exact T.
  - left. destruct (build_line _ _ _ _ H) as (I & C & p & D & N). rewrite D in E. unfold done in E.
    destruct (to_list W (name p) (given kw [a] d)) as [w|] eqn:L; cbn [bind] in E; [|discriminate].
    destruct (put p w t) as [u|] eqn:U; [|discriminate]. injection E as <-.
    apply dget_attrs in D. pose proof (line_attr _ _ _ _ _ H D eq_refl) as R. exists p, w. split; [exact R|]. split; [exact (S _ R)|]. split; [exact U|].
    right. cbn [target]. split; [exact (attr_not_settings _ _ _ D)|]. exists (given kw [a] d).
    split; [apply (wants_keyword _ _ _ _ [a] d); [exact I|apply given_chosen; reflexivity]|]. unfold gives. rewrite C, <- N. exact L.
  - destruct (from_line _ _ _ _ H) as (-> & I & C).
    destruct (given kw ["settings"] (TDict [])) as [|z|fs|fs] eqn:G.
    + right. injection E as <-. split; [reflexivity|]. split; [|cbn [target]; intros ->; cbn in I; intuition discriminate].
      split; [reflexivity|]. split; [apply (in_map fst _ _ I)|apply given_chosen; exact G].
    + discriminate.
    + left. cbn [get_default] in E. assert (V : exists v, chosen fs d [a] v /\ assign W Deconstruction md t a v = (t', None)).
      { destruct (dget eqs fs a) as [v|] eqn:V; [exists v; split; [apply chosen_here; exact V|exact E]|exists d; split; [apply chosen_later; [exact V|constructor]|exact E]]. }
      destruct V as (v & V & A). destruct (assign_row _ _ _ _ _ _ _ A) as (p & J & X). pose proof (line_attr _ _ _ _ _ H J eq_refl) as R.
      destruct (set_row _ _ _ _ _ _ _ _ J (S _ R) X) as (w & T & U). exists p, w. split; [exact R|]. split; [exact (S _ R)|]. split; [exact U|].
      right. cbn [target]. split; [exact (attr_not_settings _ _ _ J)|]. exists v.
      split; [apply (wants_setting _ _ _ _ d (TModel fs) fs); [reflexivity|exact I|apply given_chosen; exact G|left; reflexivity|exact V]|]. unfold gives. rewrite C. exact T.
    + left. cbn [get_default] in E. assert (V : exists v, chosen fs d [a] v /\ assign W Deconstruction md t a v = (t', None)).
      { destruct (dget eqs fs a) as [v|] eqn:V; [exists v; split; [apply chosen_here; exact V|exact E]|exists d; split; [apply chosen_later; [exact V|constructor]|exact E]]. }
      destruct V as (v & V & A). destruct (assign_row _ _ _ _ _ _ _ A) as (p & J & X). pose proof (line_attr _ _ _ _ _ H J eq_refl) as R.
      destruct (set_row _ _ _ _ _ _ _ _ J (S _ R) X) as (w & T & U). exists p, w. split; [exact R|]. split; [exact (S _ R)|]. split; [exact U|].
      right. cbn [target]. split; [exact (attr_not_settings _ _ _ J)|]. exists v.
      split; [apply (wants_setting _ _ _ _ d (TDict fs) fs); [reflexivity|exact I|apply given_chosen; exact G|right; reflexivity|exact V]|]. unfold gives. rewrite C. exact T.
  - left. pose proof (whole_line _ _ H) as ->. assert (R : row Upgrade "settings" settings_attr).
    { split; [apply in_or_app; right; left; reflexivity|exact (line_in _ _ _ H)]. }
    destruct (set_attr_inv _ _ _ _ _ _ E) as (x & w & P & K & U). exists settings_attr, w. split; [exact R|]. split; [exact (S _ R)|]. split; [exact U|].
    left. split; [reflexivity|]. exists (given kw ["settings"] (TDict [])), t. split; [apply given_chosen; reflexivity|].
    injection P as <-. unfold kept, settings_attr, how in K. rewrite (examined_row _ _ _ _ _ _ _ _ _ (S _ R) (proj1 R)) in K. exact K.
Qed.

(** ** All lines *)
(** What can be seen of an entry of the sequence. *)
Definition same (k : sheet) (a : string) (t t' : tree) : Prop :=
  if eqs a "settings" then read_attr settings_attr t' = read_attr settings_attr t /\ forall b, In b ["description"; "icons"; "mappers"] -> get k b t' = get k b t
  else get k a t' = get k a t.
Lemma same_refl k a t : same k a t t.
Proof. unfold same. destruct (eqs a "settings"); auto. Qed.
Lemma same_trans k a t t' t'' : same k a t t' -> same k a t' t'' -> same k a t t''.
Proof.
  unfold same. destruct (eqs a "settings"); [|congruence]. intros (A & B) (C & D). split; [congruence|]. intros b I. rewrite (D _ I). exact (B _ I).
Qed.
Lemma same_untouched k a t t' : same k a t t' -> untouched k t t' a.
Proof. unfold same, untouched. destruct (eqs a "settings"); [intros (_ & H)|]; auto. Qed.
Lemma within_not_sequence k a : In a (sequence k) -> In "settings" (sequence k) -> within_settings a = false.
Proof. intros H J. destruct k; cbn in J; try (intuition discriminate). cbn in H. intuition (subst; reflexivity). Qed.
Lemma put_same k a p w t t' b : row k a p -> here p t -> put p w t = Ok t' -> In b (sequence k) -> b <> a -> same k b t t'.
Proof.
  intros (H & HI) S U J N. unfold same. destruct (eqs b "settings") eqn:B.
  - apply eqs_eq in B. subst b. destruct (row_ex _ _ J) as (q & Q). destruct (row_settings _ _ Q) as (-> & ->). split.
    + apply (get_put _ _ _ _ _ _ _ _ S H Q U); [congruence| |]; intros [X Y]; [congruence|].
      rewrite (within_not_sequence _ _ HI J) in Y. discriminate Y.
    + intros c C. assert (M : exists r, In (c, r) (attrs Upgrade)). { apply attributes_iff. cbn in C. cbn. tauto. }
      destruct M as (r & M). rewrite !(get_row _ _ _ _ M).
      assert (W : within_settings c = true) by (apply mem_true; exact C).
      apply (get_put _ _ _ _ _ _ _ _ S H (rows_attrs _ _ _ M) U).
      * intros ->. rewrite (within_not_sequence _ _ HI J) in W. discriminate W.
      * intros [X _]. congruence.
      * intros [X _]. exact (attr_not_settings _ _ _ M X).
  - destruct (row_ex _ _ J) as (q & Q). assert (N' : b <> "settings") by (intros ->; rewrite eqs_refl in B; discriminate B).
    pose proof (row_attr _ _ _ Q N') as Q'. rewrite !(get_row _ _ _ _ Q').
    apply (get_put _ _ _ _ _ _ _ _ S H Q U); [congruence| |]; intros [X Y]; [|congruence].
    subst a. rewrite (within_not_sequence _ _ J HI) in Y. discriminate Y.
Qed.
Lemma finished_same W k md kw t0 t t' a : finished W k md kw t0 t a -> same k a t t' -> finished W k md kw t0 t' a.
Proof.
  unfold finished, same. destruct (eqs a "settings") eqn:A.
  - intros (v & w & o & C & K & R) (E & _). exists v, w, o. split; [exact C|]. split; [exact K|]. unfold read_attr in E.
    change (getter settings_attr) with [SItem "upgrade_planner"; SItem "settings"] in E. rewrite E. exact R.
  - intros [(v & w & C & G & R)|(C & R)] E; [left; exists v, w; rewrite E; auto|right; split; [exact C|congruence]].
Qed.
Lemma puts_finished W k md kw l t t' t0 : puts W k md kw l t t' -> finished W k md kw t0 t' (target l).
Proof.
  intros (p & w & (H & HI) & S & U & C). unfold finished. pose proof (read_put _ _ _ _ _ _ S H U) as R. destruct C as [(T & v & o & C & K)|(T & v & V & G)].
  - rewrite T, eqs_refl. rewrite T in H. destruct (row_settings _ _ H) as (_ & ->). exists v, w, o. auto.
  - destruct (eqs (target l) "settings") eqn:E; [apply eqs_eq in E; congruence|]. left. exists v, w. split; [exact V|]. split; [exact G|].
    rewrite (get_row _ _ _ _ (row_attr _ _ _ H T)). exact R.
Qed.
Definition fits (k : sheet) (t : tree) : Prop := forall a p, row k a p -> here p t.
Lemma shape_fits k t : shape k t -> fits k t.
Proof. intros S a p (H & _). exact (shape_here _ _ _ _ S H). Qed.
Lemma play_step W k md kw l t t' : In l (lines W k) -> fits k t -> play W k md kw l t = (t', None) ->
  fits k t' /\ (forall t0, same k (target l) t0 t -> finished W k md kw t0 t' (target l)) /\ forall b, In b (sequence k) -> b <> target l -> same k b t t'.
Proof.
  intros H S E. destruct (play_puts _ _ _ _ _ _ _ H (S _) E) as [P|(-> & P & N)].
  - split; [|split].
    + intros b q Q. destruct P as (p & w & R & F & U & _). exact (put_here _ _ _ _ _ _ _ _ R Q F (S _ _ Q) U).
    + intros t0 _. exact (puts_finished _ _ _ _ _ _ _ t0 P).
    + intros b B N. destruct P as (p & w & R & F & U & _). exact (put_same _ _ _ _ _ _ _ R F U B N).
  - split; [exact S|]. split; [|intros; apply same_refl]. intros t0 M. unfold finished, same in *. destruct (eqs (target l) "settings") eqn:Q; [apply eqs_eq in Q; congruence|].
    right. split; [exact P|exact M].
Qed.
Lemma play_all_app W k md kw ls : forall pre t0 t t' e, lines W k = pre ++ ls -> fits k t ->
  (forall a, In a (map target pre) -> finished W k md kw t0 t a) -> (forall a, In a (map target ls) -> same k a t0 t) ->
  play_all W k md kw ls t = (t', e) ->
  fits k t' /\ exists l1 l2, sequence k = l1 ++ l2 /\ (forall a, In a l1 -> finished W k md kw t0 t' a) /\ (forall a, In a l2 -> same k a t0 t') /\
    (e = None <-> l2 = []).
Proof.
  induction ls as [|l ls IH]; intros pre t0 t t' e L F A B E.
  - cbn [play_all] in E. injection E as <- <-. split; [exact F|]. exists (map target pre), []. rewrite app_nil_r. rewrite <- (targets W k), L, app_nil_r.
    split; [reflexivity|]. split; [exact A|]. split; [intros a []|]. tauto.
  - cbn [play_all] in E. destruct (play W k md kw l t) as [u [x|]] eqn:P; cbn [then_] in E.
    + injection E as <- <-. rewrite (play_refused _ _ _ _ _ _ _ _ P). split; [exact F|]. exists (map target pre), (map target (l :: ls)).
      rewrite <- map_app, <- L, (targets W k). split; [reflexivity|]. split; [exact A|]. split; [exact B|]. split; [discriminate|discriminate].
    + assert (I : In l (lines W k)) by (rewrite L; apply in_or_app; right; left; reflexivity).
      destruct (play_step _ _ _ _ _ _ _ I F P) as (F' & D & O). pose proof (sequence_nodup k) as ND. rewrite <- (targets W k), L, map_app in ND. cbn [map] in ND.
      assert (SQ : forall a, In a (map target pre) \/ In a (map target ls) -> In a (sequence k)).
      { intros a Q. rewrite <- (targets W k), L, map_app. cbn [map]. apply in_or_app. destruct Q; [left|right; right]; assumption. }
      pose proof (NoDup_remove_2 _ _ _ ND) as NI.
      apply (IH (pre ++ [l]) t0 u t' e); [rewrite <- app_assoc; exact L|exact F'| | |exact E].
      * intros a Q. rewrite map_app in Q. apply in_app_or in Q. destruct Q as [Q|[<-|[]]].
        -- apply (finished_same _ _ _ _ _ t u _ (A _ Q)). apply O; [apply SQ; left; exact Q|]. intros ->. apply NI. apply in_or_app. left. exact Q.
        -- apply D. apply B. left. reflexivity.
      * intros a Q. apply (same_trans _ _ _ t u); [apply B; right; exact Q|]. apply O; [apply SQ; right; exact Q|]. intros ->. apply NI. apply in_or_app. right. exact Q.
Qed.
Lemma play_lines W k md kw t t' e : fits k t -> play_all W k md kw (lines W k) t = (t', e) ->
  fits k t' /\ exists l1 l2, sequence k = l1 ++ l2 /\ (forall a, In a l1 -> finished W k md kw t t' a) /\ (forall a, In a l2 -> same k a t t') /\
    (e = None <-> l2 = []).
Proof. intros F E. apply (play_all_app W k md kw (lines W k) [] t t t' e eq_refl F); [intros a []|intros; apply same_refl|exact E]. Qed.

(** ** Unknown keywords *)
Lemma leave_model es : forall fs, exists fs', leave es (TModel fs) = (TModel fs', None) /\
  (forall n, ~ In n (map fst es) -> dget eqs fs' n = dget eqs fs n) /\
  (forall n v, NoDup (map fst es) -> In (n, v) es -> dget eqs fs' n = Some v).
Proof.
  unfold leave. induction es as [|[n v] es IH]; intros fs.
  - exists fs. split; [reflexivity|]. split; [reflexivity|]. intros n v _ [].
  - cbn [fold_left then_ fst snd store replace done]. destruct (IH (dset eqs fs n v)) as (fs' & E & A & B). exists fs'. split; [exact E|]. split.
    + intros m M. rewrite A by (intros Q; apply M; right; exact Q). rewrite dget_dset'. destruct (eqs n m) eqn:X; [|reflexivity].
      exfalso. apply M. left. apply eqs_eq. exact X.
    + intros m u ND [Q|Q]; inversion ND as [|? ? N1 N2]; subst.
      * injection Q as -> ->. rewrite A by exact N1. rewrite dget_dset', eqs_refl. reflexivity.
      * exact (B _ _ N2 Q).
Qed.
Lemma extras_unknown k kw n : In n (map fst (extras k kw)) <-> unknown k kw n.
Proof.
  unfold extras, unknown. rewrite !in_map_iff. split.
  - intros ((m & v) & <- & H). apply filter_In in H. destruct H as [H K]. split; [exists (m, v); auto|]. cbn [fst] in *. intros Q. rewrite (mem_true _ _ Q) in K. discriminate K.
  - intros (((m & v) & <- & H) & K). exists (m, v). split; [reflexivity|]. apply filter_In. split; [exact H|]. cbn [fst] in *. rewrite (mem_false _ _ K). reflexivity.
Qed.
Lemma index_known k : In "index" (known k).
Proof. destruct k; cbn; tauto. Qed.
(** What the getters begin with. *)
Definition begins_ok : bool := forallb (fun k => forallb (fun r => match getter (snd r) with s :: _ => mem (skey s) ("index" :: root k :: hidden k) | [] => false end) (rows k))
  [Blueprint; Deconstruction; Upgrade; Book].
Lemma begins_ok_true : begins_ok = true.
Proof. vm_compute. reflexivity. Qed.
Lemma leave_read k kw a p fs fs' : harmless k kw -> In (a, p) (rows k) -> (forall n, ~ In n (map fst (extras k kw)) -> dget eqs fs' n = dget eqs fs n) ->
  read_attr p (TModel fs') = read_attr p (TModel fs).
Proof.
  intros HA H D. pose proof begins_ok_true as T. unfold begins_ok in T. rewrite forallb_forall in T. specialize (T _ (all_sheets k)).
  rewrite forallb_forall in T. specialize (T _ H). cbn [snd] in T. unfold read_attr. destruct (getter p) as [|s r]; [discriminate T|].
  apply mem_inv in T. cbn [read]. assert (E : dget eqs fs' (skey s) = dget eqs fs (skey s)).
  { apply D. intros Q. apply extras_unknown in Q. destruct (HA _ Q) as [N1 N2]. destruct T as [T|[T|T]]; [|congruence|contradiction].
    rewrite <- T in Q. destruct Q as [_ Q]. exact (Q (index_known k)). }
  assert (C : child (TModel fs') s = child (TModel fs) s) by (destruct s; cbn [child skey] in *; rewrite E; reflexivity). rewrite C. reflexivity.
Qed.
Lemma rows_same k t t' : (forall a p, In (a, p) (rows k) -> read_attr p t' = read_attr p t) -> forall a, In a (sequence k) -> same k a t t'.
Proof.
  intros H a A. unfold same. destruct (eqs a "settings") eqn:B.
  - apply eqs_eq in B. subst a. destruct (row_ex _ _ A) as (q & Q). destruct (row_settings _ _ Q) as (-> & ->). split; [exact (H _ _ Q)|].
    intros b I. assert (M : exists r, In (b, r) (attrs Upgrade)) by (apply attributes_iff; cbn in I; cbn; tauto). destruct M as (r & M).
    rewrite !(get_row _ _ _ _ M). exact (H _ _ (rows_attrs _ _ _ M)).
  - destruct (row_ex _ _ A) as (q & Q). assert (N : a <> "settings") by (intros ->; rewrite eqs_refl in B; discriminate B).
    rewrite !(get_row _ _ _ _ (row_attr _ _ _ Q N)). exact (H _ _ Q).
Qed.
Lemma fits_model k t : fits k t -> exists fs bs, t = TModel fs /\ dget eqs fs (root k) = Some (TModel bs).
Proof.
  intros F. assert (R : row k "label" (label_attr k)) by (split; destruct k; cbn; auto). destruct (F _ _ R) as (bs & E). unfold spot in E.
  cbn [label_attr holder body map skey read] in E. destruct (child t (SAttr (root k))) as [b|] eqn:C; cbn [bind] in E; [|discriminate E]. injection E as ->.
  destruct (child_attr _ _ _ C) as (fs & -> & D). exists fs, bs. auto.
Qed.
Lemma spot_begins k a p : In (a, p) (rows k) -> spot p = [] \/ exists r, spot p = root k :: r.
Proof.
  intros H. destruct (holder_ok _ _ _ H) as [_ I]. destruct k; cbn [spots In] in I; intuition (try (right; eexists; symmetry; eassumption); try (left; symmetry; assumption)).
Qed.
Lemma leave_fits k kw fs fs' : harmless k kw -> (forall n, ~ In n (map fst (extras k kw)) -> dget eqs fs' n = dget eqs fs n) -> fits k (TModel fs) -> fits k (TModel fs').
Proof.
  intros HA D F a p R. destruct (F _ _ R) as (ms & E). destruct (spot_begins _ _ _ (proj1 R)) as [X|(r & X)]; unfold here; rewrite X in E |- *.
  - exists fs'. reflexivity.
  - exists ms. cbn [map read child] in *. rewrite D; [exact E|]. intros Q. apply extras_unknown in Q. destruct (HA _ Q) as [N _]. congruence.
Qed.
Lemma left_over k kw t : harmless k kw -> fits k t -> exists t', leave (extras k kw) t = (t', None) /\ fits k t' /\
  (forall a p, In (a, p) (rows k) -> read_attr p t' = read_attr p t) /\
  (forall n, ~ unknown k kw n -> child t' (SItem n) = child t (SItem n)) /\
  (forall n v, NoDup (map fst kw) -> In (n, v) kw -> ~ In n (known k) -> child t' (SItem n) = Ok v).
Proof.
  intros HA F. destruct (fits_model _ _ F) as (fs & bs & -> & _). destruct (leave_model (extras k kw) fs) as (fs' & E & D & V). exists (TModel fs').
  split; [exact E|]. split; [exact (leave_fits _ _ _ _ HA D F)|]. split; [intros a p H; exact (leave_read _ _ _ _ _ _ HA H D)|]. split.
  - intros n N. cbn [child]. rewrite D; [reflexivity|]. rewrite extras_unknown. exact N.
  - intros n v ND I K. cbn [child]. rewrite (V n v); [reflexivity| |].
    + clear - ND. unfold extras. induction kw as [|[m u] kw IH]; [constructor|]. cbn [map fst] in ND. inversion ND as [|? ? N1 N2]; subst. cbn [filter].
      destruct (negb (mem (fst (m, u)) (known k))); [|exact (IH N2)]. cbn [map fst]. constructor; [|exact (IH N2)].
      intros Q. apply N1. apply in_map_iff in Q. destruct Q as (x & <- & Q). apply filter_In in Q. apply in_map. exact (proj1 Q).
    + apply filter_In. split; [exact I|]. cbn [fst]. rewrite (mem_false _ _ K). reflexivity.
Qed.

(** ** Associations *)
Lemma joined_other W k t : k <> Blueprint -> joined W k t = (t, None).
Proof. destruct k; intros N; [congruence|reflexivity|reflexivity|reflexivity]. Qed.
Lemma wires_put w t : put (list_attr "_wires") w t = put {| holder := []; name := "_wires"; getter := [SAttr "_wires"]; first := Orempty; how := Direct |} w t.
Proof. reflexivity. Qed.
Definition wires_attr := {| holder := []; name := "_wires"; getter := [SAttr "_wires"]; first := Orempty; how := Direct |}.
Lemma wires_row : In ("wires", wires_attr) (attrs Blueprint).
Proof. cbn. unfold wires_attr. tauto. Qed.
Lemma schedules_row : In ("schedules", list_attr "_schedules") (attrs Blueprint).
Proof. cbn. tauto. Qed.
Lemma attr_row k a p : In (a, p) (attrs k) -> In a (sequence k) -> row k a p.
Proof. intros H I. split; [apply rows_attrs; exact H|exact I]. Qed.
Lemma joined_step W k t t' e : fits k t -> joined W k t = (t', e) -> fits k t' /\
  (forall a p, In (a, p) (attrs k) -> ~ In a (linked k) -> get k a t' = get k a t) /\
  (forall a p, In (a, p) (rows k) -> ~ In a (linked k) -> read_attr p t' = read_attr p t) /\
  (forall n, ~ In n (hidden k) -> child t' (SItem n) = child t (SItem n)) /\
  (k = Blueprint -> e = None -> exists es ss ws ss' ws', get k "entities" t = Ok es /\ get k "schedules" t = Ok ss /\ get k "wires" t = Ok ws /\
     link W es ss ws = ((ss', ws'), None) /\ get k "schedules" t' = Ok ss' /\ get k "wires" t' = Ok ws').
Proof.
  intros F E. destruct k; try (rewrite joined_other in E by discriminate; injection E as <- <-; split; [exact F|]; split; [reflexivity|]; split; [reflexivity|]; split; [reflexivity|intros Q; discriminate Q]).
  unfold joined in E.
  destruct (get Blueprint "entities" t) as [es|x] eqn:G1; cbn [bind] in E.
  2:{ injection E as <- <-. split; [exact F|]. split; [reflexivity|]. split; [reflexivity|]. split; [reflexivity|intros _ Q; discriminate Q]. }
  destruct (get Blueprint "schedules" t) as [ss|x] eqn:G2; cbn [bind] in E.
  2:{ injection E as <- <-. split; [exact F|]. split; [reflexivity|]. split; [reflexivity|]. split; [reflexivity|intros _ Q; discriminate Q]. }
  destruct (get Blueprint "wires" t) as [ws|x] eqn:G3; cbn [bind] in E.
  2:{ injection E as <- <-. split; [exact F|]. split; [reflexivity|]. split; [reflexivity|]. split; [reflexivity|intros _ Q; discriminate Q]. }
  destruct (link W es ss ws) as [[ss' ws'] y] eqn:L.
  assert (R1 : row Blueprint "schedules" (list_attr "_schedules")) by (apply attr_row; [exact schedules_row|cbn; tauto]).
  assert (R2 : row Blueprint "wires" wires_attr) by (apply attr_row; [exact wires_row|cbn; tauto]).
  destruct (put_ok _ _ _ _ ss' (F _ _ R1) (proj1 R1)) as (t1 & U1). rewrite U1 in E. cbn [bind] in E.
  assert (F1 : fits Blueprint t1) by (intros b q Q; exact (put_here _ _ _ _ _ _ _ _ R1 Q (F _ _ R1) (F _ _ Q) U1)).
  destruct (put_ok _ _ _ _ ws' (F1 _ _ R2) (proj1 R2)) as (t2 & U2). change (put (list_attr "_wires") ws' t1) with (put wires_attr ws' t1) in E. rewrite U2 in E. cbn [done then_] in E.
  injection E as <- <-.
  assert (F2 : fits Blueprint t2) by (intros b q Q; exact (put_here _ _ _ _ _ _ _ _ R2 Q (F1 _ _ R2) (F1 _ _ Q) U2)).
  assert (O : forall a p, In (a, p) (rows Blueprint) -> ~ In a ["schedules"; "wires"] -> read_attr p t2 = read_attr p t).
  { intros a p H N. rewrite (get_put _ _ _ _ _ _ _ _ (F1 _ _ R2) (proj1 R2) H U2).
    - apply (get_put _ _ _ _ _ _ _ _ (F _ _ R1) (proj1 R1) H U1); [intros <-; apply N; cbn; tauto|intros [Q _]; discriminate Q|intros [Q _]; subst a; cbn in H; intuition discriminate].
    - intros <-. apply N. cbn. tauto.
    - intros [Q _]. discriminate Q.
    - intros [Q _]. subst a. cbn in H. intuition discriminate. }
  split; [exact F2|]. split; [intros a p H N; rewrite !(get_row _ _ _ _ H); exact (O _ _ (rows_attrs _ _ _ H) N)|]. split; [exact O|]. split.
  - intros n N. rewrite (put_write _ _ _ _ _ (F _ _ R1) (proj1 R1)) in U1. rewrite (put_write _ _ _ _ _ (F1 _ _ R2) (proj1 R2)) in U2.
    pose proof (read_other _ _ _ _ _ [SItem n] U1) as Q1. pose proof (read_other _ _ _ _ _ [SItem n] U2) as Q2. unfold spot, wires_attr, list_attr in Q1, Q2.
    cbn [holder name map app starts skey] in Q1, Q2.
    assert (X : eqs "_schedules" n = false) by (destruct (eqs "_schedules" n) eqn:X; [|reflexivity]; apply eqs_eq in X; subst n; exfalso; apply N; cbn; tauto).
    assert (X' : eqs n "_schedules" = false) by (destruct (eqs n "_schedules") eqn:X'; [|reflexivity]; apply eqs_eq in X'; subst n; exfalso; apply N; cbn; tauto).
    assert (Y : eqs "_wires" n = false) by (destruct (eqs "_wires" n) eqn:Y; [|reflexivity]; apply eqs_eq in Y; subst n; exfalso; apply N; cbn; tauto).
    assert (Y' : eqs n "_wires" = false) by (destruct (eqs n "_wires") eqn:Y'; [|reflexivity]; apply eqs_eq in Y'; subst n; exfalso; apply N; cbn; tauto).
    rewrite X, X' in Q1. rewrite Y, Y' in Q2. specialize (Q1 eq_refl eq_refl). specialize (Q2 eq_refl eq_refl).
    cbn [read] in Q1, Q2. destruct (child t2 (SItem n)), (child t1 (SItem n)), (child t (SItem n)); cbn [bind] in *; congruence.
  - intros _ ->. exists es, ss, ws, ss', ws'. repeat (split; [first [reflexivity|assumption]|]). split.
    + rewrite (get_row _ _ _ _ schedules_row). rewrite (get_put _ _ _ _ _ _ _ _ (F1 _ _ R2) (proj1 R2) (proj1 R1) U2); [|discriminate|intros [Q _]; discriminate Q|intros [Q _]; discriminate Q].
      exact (read_put _ _ _ _ _ _ (F _ _ R1) (proj1 R1) U1).
    + rewrite (get_row _ _ _ _ wires_row). exact (read_put _ _ _ _ _ _ (F1 _ _ R2) (proj1 R2) U2).
Qed.
Lemma reviewed_same W k vm t t' e : reviewed W k vm t = (t', e) -> (k = Book -> vm = MNone) -> t' = t.
Proof.
  unfold reviewed. intros E N. destruct (mode_bool vm) eqn:M; [|injection E; auto].
  destruct k; try (injection E; auto; fail). rewrite (N eq_refl) in M. discriminate M.
Qed.

(** ** The whole *)
Theorem setup_all W k md kw vm t t' e : shape k t -> harmless k kw -> (k = Book -> vm = MNone) -> setup W k md kw vm t = (t', e) ->
  exists l1 l2, sequence k = l1 ++ l2 /\
    (forall a, In a l1 -> (In a (linked k) -> l2 <> []) -> finished W k md kw t t' a) /\
    (forall a, In a l2 -> untouched k t t' a) /\ (e = None -> l2 = []).
Proof.
  intros S HA B E. unfold setup in E. destruct (play_all W k md kw (lines W k) t) as [t1 e1] eqn:P.
  destruct (play_lines _ _ _ _ _ _ _ (shape_fits _ _ S) P) as (F1 & l1 & l2 & Q & FI & SA & NO). destruct e1 as [x|]; cbn [then_] in E.
  - injection E as <- <-. exists l1, l2. split; [exact Q|]. split; [intros a I _; exact (FI _ I)|]. split; [intros a I; apply same_untouched; exact (SA _ I)|discriminate].
  - destruct (left_over _ _ _ HA F1) as (t2 & L & F2 & R2 & _). rewrite L in E. cbn [then_] in E. pose proof (proj1 NO eq_refl) as ->. rewrite app_nil_r in Q.
    destruct (joined W k t2) as [t3 e3] eqn:J. destruct (joined_step _ _ _ _ _ F2 J) as (F3 & _ & R3 & _).
    assert (T : t' = t3). { destruct e3 as [x|]; cbn [then_] in E; [injection E; auto|exact (reviewed_same _ _ _ _ _ _ E B)]. }
    subst t'. exists l1, []. split; [rewrite app_nil_r; exact Q|]. split; [|split; [intros a []|reflexivity]].
    intros a I N. assert (NL : ~ In a (linked k)) by (intros X; exact (N X eq_refl)). assert (SQ : In a (sequence k)) by (rewrite Q; exact I).
    apply (finished_same _ _ _ _ _ t2 t3).
    + apply (finished_same _ _ _ _ _ t1 t2 _ (FI _ I)). apply rows_same; [exact R2|exact SQ].
    + destruct k; try solve [apply rows_same; [intros b p H; apply (R3 b p H); intros []|exact SQ]].
      unfold same. destruct (eqs a "settings") eqn:X; [apply eqs_eq in X; subst a; exfalso; cbn in SQ; intuition discriminate|].
      destruct (row_ex _ _ SQ) as (q & HQ). assert (N' : a <> "settings") by (intros ->; rewrite eqs_refl in X; discriminate X).
      rewrite !(get_row _ _ _ _ (row_attr _ _ _ HQ N')). exact (R3 _ _ HQ NL).
Qed.
