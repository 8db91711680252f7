(** Proofs about [setup] as a whole and about constructors of blueprints, planners and books. *)
From Coq Require Import ZArith String List Bool Lia.
From Verif Require Import Common Dict Version_Model Assign_Model Attr_Model Attr_Table Attr_Spec Attr_Order_Proofs Attr_Proofs.
From Verif Require Import Sheet_Model Sheet_Spec Sheet_Proofs Sheet_Setup_Proofs.
Import ListNotations.
Local Open Scope string_scope.
Local Open Scope list_scope.

(** ** What is wanted is one value *)
Lemma In_fst_unique {A} (l : list (string * A)) a x y : NoDup (map fst l) -> In (a, x) l -> In (a, y) l -> x = y.
Proof.
  induction l as [|[b z] l IH]; [intros _ []|]. cbn [map fst]. intros N. inversion N as [|? ? N1 N2]; subst. intros [P|P] [Q|Q]; [congruence| | |exact (IH N2 P Q)].
  - injection P as -> ->. exfalso. apply N1. apply (in_map fst _ _ Q).
  - injection Q as -> ->. exfalso. apply N1. apply (in_map fst _ _ P).
Qed.
Lemma nodup_by {A} (dec : forall x y : A, {x = y} + {x <> y}) l : nodup dec l = l -> NoDup l.
Proof. intros <-. apply NoDup_nodup. Qed.
Lemma parameters_nodup W k : NoDup (map fst (parameters W k)).
Proof. apply (nodup_by string_dec). destruct k; reflexivity. Qed.
Lemma filters_nodup W : NoDup (map fst (filters W)).
Proof. apply (nodup_by string_dec). reflexivity. Qed.
Lemma filters_apart W a x y : In (a, x) (parameters W Deconstruction) -> In (a, y) (filters W) -> False.
Proof. cbn. intuition congruence. Qed.
Theorem wants_unique W k kw a v v' : wants W k kw a v -> wants W k kw a v' -> v = v'.
Proof.
  intros A B. destruct A as [keys d v I C|d s fs v -> I C M D]; destruct B as [keys' d' v' I' C'|d' s' fs' v' K' I' C' M' D'].
  - pose proof (In_fst_unique _ _ _ _ (parameters_nodup W k) I I') as E. injection E as -> ->. exact (chosen_unique _ _ _ _ _ C C').
  - subst k. exfalso. exact (filters_apart _ _ _ _ I I').
  - exfalso. exact (filters_apart _ _ _ _ I' I).
  - pose proof (In_fst_unique _ _ _ _ (filters_nodup W) I I') as ->. pose proof (chosen_unique _ _ _ _ _ C C') as ->.
    assert (fs' = fs) as -> by (destruct M as [->| ->], M' as [E|E]; congruence). exact (chosen_unique _ _ _ _ _ D D').
Qed.
Theorem gives_unique W k md a v w w' : blind W -> gives W k md a v w -> gives W k md a v w' -> w = w'.
Proof. intros B. unfold gives. destruct (mem a containers); [congruence|]. apply takes_unique. exact B. Qed.
Lemma finished_unique W k md kw t1 t1' t2 t2' a : blind W -> a <> "settings" -> ~ spared W k kw a ->
  finished W k md kw t1 t1' a -> finished W k md kw t2 t2' a -> get k a t1' = get k a t2'.
Proof.
  intros B N S. unfold finished. destruct (eqs a "settings") eqn:E; [apply eqs_eq in E; congruence|].
  intros [(v & w & V & G & R)|[X _]]; [|contradiction]. intros [(v' & w' & V' & G' & R')|[X _]]; [|contradiction].
  rewrite (wants_unique _ _ _ _ _ _ V V') in G. rewrite R, R', (gives_unique _ _ _ _ _ _ _ B G G'). reflexivity.
Qed.
Lemma settings_unique W md kw t1 t1' t2 t2' b : blind W -> In b ["description"; "icons"; "mappers"] ->
  finished W Upgrade md kw t1 t1' "settings" -> finished W Upgrade md kw t2 t2' "settings" -> get Upgrade b t1' = get Upgrade b t2'.
Proof.
  intros B I (v & w & o & C & K & R) (v' & w' & o' & C' & K' & R'). pose proof (chosen_unique _ _ _ _ _ C C') as ->.
  rewrite (B _ _ _ _ o o') in K. assert (w' = w) as -> by congruence.
  assert (X : forall t, get Upgrade b t = bind (read t [SItem "upgrade_planner"; SItem "settings"]) (fun s => read s [SGet b])).
  { intros t. rewrite <- read_app. destruct I as [<-|[<-|[<-|[]]]]; reflexivity. }
  rewrite !X, R, R'. reflexivity.
Qed.

(** ** Success *)
Theorem setup_done W k md kw vm t t' : shape k t -> harmless k kw -> (k = Book -> vm = MNone) -> setup W k md kw vm t = (t', None) ->
  forall a, In a (sequence k) -> ~ In a (linked k) -> finished W k md kw t t' a.
Proof.
  intros S HA B E a I N. destruct (setup_all _ _ _ _ _ _ _ _ S HA B E) as (l1 & l2 & Q & F & _ & L). rewrite (L eq_refl), app_nil_r in Q.
  apply F; [rewrite <- Q; exact I|]. intros X. contradiction.
Qed.
Lemma setup_inv W k md kw vm t t' : setup W k md kw vm t = (t', None) -> exists t1 t2, play_all W k md kw (lines W k) t = (t1, None) /\
  leave (extras k kw) t1 = (t2, None) /\ exists t3, joined W k t2 = (t3, None) /\ reviewed W k vm t3 = (t', None).
Proof.
  unfold setup. destruct (play_all W k md kw (lines W k) t) as [t1 [e|]]; cbn [then_]; [discriminate|].
  destruct (leave (extras k kw) t1) as [t2 [e|]] eqn:L; cbn [then_]; [discriminate|].
  destruct (joined W k t2) as [t3 [e|]] eqn:J; cbn [then_]; [discriminate|]. intros R. exists t1, t2. split; [reflexivity|]. split; [exact L|]. exists t3. auto.
Qed.
(** Schedules and wires of a blueprint. *)
Theorem setup_linked W md kw vm t t' : shape Blueprint t -> harmless Blueprint kw -> setup W Blueprint md kw vm t = (t', None) ->
  exists es s ss w ws ss' ws', get Blueprint "entities" t' = Ok es /\
    wants W Blueprint kw "schedules" s /\ gives W Blueprint md "schedules" s ss /\
    wants W Blueprint kw "wires" w /\ gives W Blueprint md "wires" w ws /\
    link W es ss ws = ((ss', ws'), None) /\ get Blueprint "schedules" t' = Ok ss' /\ get Blueprint "wires" t' = Ok ws'.
Proof.
  intros S HA E. destruct (setup_inv _ _ _ _ _ _ _ E) as (t1 & t2 & P & L & t3 & J & R).
  pose proof (reviewed_same _ _ _ _ _ _ R ltac:(discriminate)) as ->. destruct (play_lines _ _ _ _ _ _ _ (shape_fits _ _ S) P) as (F1 & l1 & l2 & Q & FI & _ & NO).
  rewrite (proj1 NO eq_refl), app_nil_r in Q. destruct (left_over _ _ _ HA F1) as (t2' & L' & F2 & R2 & _). assert (t2' = t2) by congruence. subst t2'.
  destruct (joined_step _ _ _ _ _ F2 J) as (_ & O & _ & _ & K). destruct (K eq_refl eq_refl) as (es & ss & ws & ss' & ws' & G1 & G2 & G3 & LK & H2 & H3).
  assert (FL : forall a, In a ["schedules"; "wires"] -> filled W Blueprint md kw a t2).
  { intros a I. assert (SQ : In a (sequence Blueprint)) by (cbn in I; cbn; tauto).
    assert (F : finished W Blueprint md kw t t2 a). { apply (finished_same _ _ _ _ _ t1 t2); [apply FI; rewrite <- Q; exact SQ|apply rows_same; [exact R2|exact SQ]]. }
    unfold finished in F. destruct (eqs a "settings") eqn:X; [apply eqs_eq in X; subst a; cbn in I; intuition discriminate|].
    destruct F as [F|[[F _] _]]; [exact F|discriminate F]. }
  destruct (FL "schedules") as (s & ss0 & V1 & GV1 & E1); [cbn; tauto|]. destruct (FL "wires") as (w & ws0 & V2 & GV2 & E2); [cbn; tauto|].
  assert (ss0 = ss) as -> by congruence. assert (ws0 = ws) as -> by congruence.
  exists es, s, ss, w, ws, ss', ws'. split; [|repeat (split; [assumption|]); assumption].
  rewrite <- G1. apply (O "entities" (list_attr "_entities")); [cbn; tauto|cbn; intuition discriminate].
Qed.

(** [setup] does not depend on what was there. *)
Theorem setup_fresh W k md kw vm t1 t1' t2 t2' a : blind W -> shape k t1 -> shape k t2 -> harmless k kw -> (k = Book -> vm = MNone) ->
  setup W k md kw vm t1 = (t1', None) -> setup W k md kw vm t2 = (t2', None) -> In a (attributes k) -> ~ spared W k kw a -> get k a t1' = get k a t2'.
Proof.
  intros B S1 S2 HA V E1 E2 I N. destruct (in_dec string_dec a (linked k)) as [LK|LK].
  - assert (k = Blueprint) as -> by (destruct k; [reflexivity|destruct LK|destruct LK|destruct LK]).
    destruct (setup_linked _ _ _ _ _ _ S1 HA E1) as (es & s & ss & w & ws & ss' & ws' & G1 & V1 & X1 & V2 & X2 & L & G2 & G3).
    destruct (setup_linked _ _ _ _ _ _ S2 HA E2) as (es0 & s0 & ss0 & w0 & ws0 & ss0' & ws0' & G1' & V1' & X1' & V2' & X2' & L' & G2' & G3').
    pose proof (wants_unique _ _ _ _ _ _ V1 V1') as <-. pose proof (wants_unique _ _ _ _ _ _ V2 V2') as <-.
    pose proof (gives_unique _ _ _ _ _ _ _ B X1 X1') as <-. pose proof (gives_unique _ _ _ _ _ _ _ B X2 X2') as <-.
    assert (EE : get Blueprint "entities" t1' = get Blueprint "entities" t2').
    { apply (finished_unique W Blueprint md kw t1 t1' t2 t2' "entities" B); [discriminate|intros [Q _]; discriminate Q| |].
      - apply (setup_done _ _ _ _ _ _ _ S1 HA V E1); [cbn; tauto|cbn; intuition discriminate].
      - apply (setup_done _ _ _ _ _ _ _ S2 HA V E2); [cbn; tauto|cbn; intuition discriminate]. }
    assert (es0 = es) as -> by congruence. rewrite L in L'. injection L' as <- <-.
    destruct LK as [<-|[<-|[]]]; congruence.
  - destruct (in_dec string_dec a (sequence k)) as [SQ|SQ].
    + assert (NS : a <> "settings") by (intros ->; exact (no_settings k I)).
      apply (finished_unique W k md kw t1 t1' t2 t2' a B NS N); [exact (setup_done _ _ _ _ _ _ _ S1 HA V E1 a SQ LK)|exact (setup_done _ _ _ _ _ _ _ S2 HA V E2 a SQ LK)].
    + destruct k; try (exfalso; apply SQ; exact I).
      assert (J : In a ["description"; "icons"; "mappers"]) by (cbn in I, SQ; cbn; tauto).
      apply (settings_unique W md kw t1 t1' t2 t2' a B J); [apply (setup_done _ _ _ _ _ _ _ S1 HA V E1)|apply (setup_done _ _ _ _ _ _ _ S2 HA V E2)]; cbn; tauto.
Qed.

(** ** What succeeds *)
Lemma set_row_ok W k md a p v w t : blind W -> In (a, p) (attrs k) -> here p t -> takes W k md a v w -> exists t', set_attr W md p v t = (t', None).
Proof.
  intros B H S (x & X & A). unfold set_attr. rewrite (proj2 (prepared_becomes _ _ _ _ _ _ H) X). cbn [bind]. fold (kept W md p x t).
  rewrite (accepts_kept _ _ _ _ _ _ _ _ B S H A). cbn [bind]. destruct (put_ok _ _ _ _ w S (rows_attrs _ _ _ H)) as (t' & U). rewrite U. exists t'. reflexivity.
Qed.
Lemma line_row W k l : In l (lines W k) -> target l <> "settings" -> exists p, In (target l, p) (attrs k) /\ row k (target l) p.
Proof.
  intros H N. destruct (row_ex k (target l) (line_in _ _ _ H)) as (p & P). exists p. pose proof (row_attr _ _ _ P N) as Q. split; [exact Q|].
  split; [exact P|exact (line_in _ _ _ H)].
Qed.
Lemma take_not_spared W k a keys d kw : In (Take a keys d) (lines W k) -> ~ spared W k kw a.
Proof. intros H (-> & I & _). destruct (take_line _ _ _ _ _ H) as [J _]. apply in_map_iff in I. destruct I as ((b & y) & <- & I). exact (filters_apart _ _ _ _ J I). Qed.
Lemma play_possible W k md kw l t : blind W -> In l (lines W k) -> fits k t -> possible W k md kw (target l) -> exists t', play W k md kw l t = (t', None).
Proof.
  intros B H F P. unfold possible in P. destruct l as [a keys d|a d|a d|]; cbn [target play] in *.
  - assert (N : a <> "settings"). { intros ->. destruct (take_line _ _ _ _ _ H) as [J _]. destruct k; cbn in J; intuition discriminate. }
    destruct (eqs a "settings") eqn:E; [apply eqs_eq in E; contradiction|]. destruct P as [P|(v & w & V & G)]; [exfalso; exact (take_not_spared _ _ _ _ _ _ H P)|].
    destruct (take_line _ _ _ _ _ H) as [J C]. unfold gives in G. rewrite C in G.
    assert (Q : wants W k kw a (given kw keys d)) by (apply (wants_keyword _ _ _ _ keys d); [exact J|apply given_chosen; reflexivity]).
    rewrite (wants_unique _ _ _ _ _ _ V Q) in G. destruct (line_row _ _ _ H N) as (p & R1 & R2). unfold assign. cbn [target] in R1, R2. rewrite (proj2 (dget_attrs _ _ _) R1).
    exact (set_row_ok _ _ _ _ _ _ _ _ B R1 (F _ _ R2) G).
  - destruct (build_line _ _ _ _ H) as (J & C & p & D & NM). rewrite D. pose proof (proj1 (dget_attrs _ _ _) D) as D'. pose proof (attr_not_settings _ _ _ D') as N.
    destruct (eqs a "settings") eqn:E; [apply eqs_eq in E; contradiction|].
    destruct P as [(-> & I & _)|(v & w & V & G)]; [exfalso; apply in_map_iff in I; destruct I as ((b & y) & <- & I); exact (filters_apart _ _ _ _ J I)|].
    unfold gives in G. rewrite C in G.
    assert (Q : wants W k kw a (given kw [a] d)) by (apply (wants_keyword _ _ _ _ [a] d); [exact J|apply given_chosen; reflexivity]).
    rewrite (wants_unique _ _ _ _ _ _ V Q), <- NM in G. rewrite G. cbn [bind]. destruct (line_row _ _ _ H N) as (p' & R1 & R2). cbn [target] in R1, R2.
    assert (p' = p) as -> by (apply dget_attrs in R1; congruence). destruct (put_ok _ _ _ _ w (F _ _ R2) (proj1 R2)) as (t' & U). rewrite U. exists t'. reflexivity.
  - destruct (from_line _ _ _ _ H) as (-> & I & C). assert (N : a <> "settings") by (intros ->; cbn in I; intuition discriminate).
    destruct (eqs a "settings") eqn:E; [apply eqs_eq in E; contradiction|]. destruct P as [(_ & _ & P)|(v & w & V & G)].
    + apply given_chosen in P. rewrite P. exists t. reflexivity.
    + unfold gives in G. rewrite C in G. assert (Q : exists s fs, given kw ["settings"] (TDict []) = s /\ members s fs /\ chosen fs d [a] v).
      { destruct V as [keys d' v J X|d' s fs v _ J X M Y]; [exfalso; exact (filters_apart _ _ _ _ J I)|]. pose proof (In_fst_unique _ _ _ _ (filters_nodup W) I J) as <-.
        exists s, fs. split; [apply given_chosen; exact X|]. split; [exact M|exact Y]. }
      destruct Q as (s & fs & -> & M & Y). apply given_chosen in Y. cbn [given] in Y.
      destruct (line_row _ _ _ H N) as (p & R1 & R2). cbn [target] in R1, R2. destruct (set_row_ok _ _ _ _ _ _ _ t B R1 (F _ _ R2) G) as (t' & U). exists t'.
      destruct M as [->| ->]; cbn [get_default]; destruct (dget eqs fs a); subst; unfold assign; rewrite (proj2 (dget_attrs _ _ _) R1); exact U.
  - change (eqs "settings" "settings") with true in P. cbv iota in P. destruct P as (v & w & o & C & K). apply given_chosen in C. rewrite C.
    pose proof (whole_line _ _ H) as ->. assert (R : row Upgrade "settings" settings_attr) by (split; [apply in_or_app; right; left; reflexivity|exact (line_in _ _ _ H)]).
    unfold set_attr. change (prepared W settings_attr v) with (@Ok tree v). cbn [bind]. change (how settings_attr) with (Tested (body_format Upgrade)). cbv iota.
    rewrite (examined_row _ _ _ _ _ _ _ _ _ (F _ _ R) (proj1 R)). change (name settings_attr) with "settings". rewrite (B _ _ _ _ t o), K. cbn [bind].
    destruct (put_ok _ _ _ _ w (F _ _ R) (proj1 R)) as (t' & U). rewrite U. exists t'. reflexivity.
Qed.
Lemma play_all_possible W k md kw ls : blind W -> (forall l, In l ls -> In l (lines W k) /\ possible W k md kw (target l)) ->
  forall t, fits k t -> exists t', play_all W k md kw ls t = (t', None) /\ fits k t'.
Proof.
  intros B. induction ls as [|l ls IH]; intros H t F; [exists t; split; [reflexivity|exact F]|]. destruct (H l (or_introl eq_refl)) as [I P].
  destruct (play_possible _ _ _ _ _ t B I F P) as (u & E). destruct (play_step _ _ _ _ _ _ _ I F E) as (F' & _). cbn [play_all]. rewrite E. cbn [then_].
  exact (IH (fun x X => H x (or_intror X)) u F').
Qed.
(** [setup] refuses nothing that could be set. *)
Theorem setup_possible W k md kw vm t : blind W -> content W k vm -> shape k t -> harmless k kw -> (forall a, In a (sequence k) -> possible W k md kw a) ->
  exists t', setup W k md kw vm t = (t', None).
Proof.
  intros B (C1 & C2) S HA P. destruct (play_all_possible W k md kw (lines W k) B (fun l I => Logic.conj I (P _ (line_in _ _ _ I))) t (shape_fits _ _ S)) as (t1 & E1 & F1).
  destruct (left_over _ _ _ HA F1) as (t2 & E2 & F2 & RD & _). unfold setup. rewrite E1. cbn [then_]. rewrite E2. cbn [then_].
  assert (J : exists t3, joined W k t2 = (t3, None)).
  { destruct k; try (rewrite joined_other by discriminate; exists t2; reflexivity).
    destruct (play_lines _ _ _ _ _ _ _ (shape_fits _ _ S) E1) as (_ & l1 & l2 & Q & FI & _ & NO). rewrite (proj1 NO eq_refl), app_nil_r in Q.
    assert (G : forall a, In a ["entities"; "schedules"; "wires"] -> exists w, get Blueprint a t2 = Ok w).
    { intros a I. assert (SQ : In a (sequence Blueprint)) by (cbn in I; cbn; tauto).
      assert (X : finished W Blueprint md kw t t2 a). { apply (finished_same _ _ _ _ _ t1 t2); [apply FI; rewrite <- Q; exact SQ|apply rows_same; [exact RD|exact SQ]]. }
      unfold finished in X. destruct (eqs a "settings") eqn:Y; [apply eqs_eq in Y; subst a; cbn in I; intuition discriminate|].
      destruct X as [(v & w & _ & _ & X)|[[X _] _]]; [exists w; exact X|discriminate X]. }
    destruct (G "entities") as (es & G1); [cbn; tauto|]. destruct (G "schedules") as (ss & G2); [cbn; tauto|]. destruct (G "wires") as (ws & G3); [cbn; tauto|].
    unfold joined. rewrite G1, G2, G3. cbn [bind]. pose proof (C1 es ss ws) as L. destruct (link W es ss ws) as [[ss' ws'] e]. cbn [snd] in L. subst e.
    assert (R1 : row Blueprint "schedules" (list_attr "_schedules")) by (apply attr_row; [exact schedules_row|cbn; tauto]).
    assert (R2 : row Blueprint "wires" wires_attr) by (apply attr_row; [exact wires_row|cbn; tauto]).
    destruct (put_ok _ _ _ _ ss' (F2 _ _ R1) (proj1 R1)) as (u1 & U1). rewrite U1. cbn [bind].
    assert (F3 : here wires_attr u1) by (exact (put_here _ _ _ _ _ _ _ _ R1 R2 (F2 _ _ R1) (F2 _ _ R2) U1)).
    destruct (put_ok _ _ _ _ ws' F3 (proj1 R2)) as (u2 & U2). change (put (list_attr "_wires") ws' u1) with (put wires_attr ws' u1). rewrite U2. exists u2. reflexivity. }
  destruct J as (t3 & ->). cbn [then_]. unfold reviewed. destruct (mode_bool vm); [|exists t3; reflexivity]. pose proof (C2 t3) as V.
  destruct k; try (rewrite V; exists t3; reflexivity). destruct (review W Book vm t3) as [u e]. cbn [snd] in V. subst e. exists u. reflexivity.
Qed.

(** ** What is not an attribute *)
Lemma frame_line W k md kw l t t' ss : In l (lines W k) -> fits k t -> play W k md kw l t = (t', None) ->
  (forall a p, In (a, p) (rows k) -> starts (cell_of p) (map skey ss) = false /\ starts (map skey ss) (cell_of p) = false) -> read t' ss = read t ss.
Proof.
  intros H F E A. destruct (play_puts _ _ _ _ _ _ _ H (F _) E) as [P|(-> & _)]; [|reflexivity]. destruct P as (p & w & R & S & U & _).
  rewrite (put_write _ _ _ _ _ S (proj1 R)) in U. destruct (A _ _ (proj1 R)) as [A1 A2]. exact (read_other _ _ _ _ _ _ U A1 A2).
Qed.
Lemma frame_lines W k md kw ls ss : (forall a p, In (a, p) (rows k) -> starts (cell_of p) (map skey ss) = false /\ starts (map skey ss) (cell_of p) = false) ->
  forall t t', (forall l, In l ls -> In l (lines W k)) -> fits k t -> play_all W k md kw ls t = (t', None) -> read t' ss = read t ss.
Proof.
  intros A. induction ls as [|l ls IH]; intros t t' I F E; cbn [play_all] in E; [injection E as <-; reflexivity|].
  destruct (play W k md kw l t) as [u [x|]] eqn:P; cbn [then_] in E; [discriminate E|].
  rewrite (IH u t' (fun x X => I x (or_intror X)) (proj1 (play_step _ _ _ _ _ _ _ (I l (or_introl eq_refl)) F P)) E).
  exact (frame_line _ _ _ _ _ _ _ _ (I l (or_introl eq_refl)) F P A).
Qed.
(** Names of members of [_root] that are no attributes. *)
Definition tops_ok : bool := forallb (fun k => forallb (fun r => match cell_of (snd r) with x :: _ => mem x ("index" :: root k :: hidden k) | [] => false end) (rows k)) [Blueprint; Deconstruction; Upgrade; Book].
Lemma tops_ok_true : tops_ok = true.
Proof. vm_compute. reflexivity. Qed.
Lemma outside k n : n <> "index" -> n <> root k -> ~ In n (hidden k) -> forall a p, In (a, p) (rows k) -> starts (cell_of p) [n] = false /\ starts [n] (cell_of p) = false.
Proof.
  intros N1 N2 N3 a p H. pose proof tops_ok_true as T. unfold tops_ok in T. rewrite forallb_forall in T. specialize (T _ (all_sheets k)). rewrite forallb_forall in T. specialize (T _ H).
  cbn [snd] in T. destruct (cell_of p) as [|x r]; [discriminate T|]. apply mem_inv in T. cbn [starts].
  assert (X : eqs x n = false). { destruct (eqs x n) eqn:X; [|reflexivity]. apply eqs_eq in X. subst x. destruct T as [T|[T|T]]; congruence || contradiction. }
  assert (Y : eqs n x = false). { destruct (eqs n x) eqn:Y; [|reflexivity]. apply eqs_eq in Y. subst x. destruct T as [T|[T|T]]; congruence || contradiction. }
  rewrite X, Y. auto.
Qed.
Lemma read_one t s : read t [s] = child t s.
Proof. cbn [read]. destruct (child t s); reflexivity. Qed.
(** Unknown keywords are put beside the body, and stay there. *)
Theorem unknown_kept W k md kw vm t t' n v : shape k t -> harmless k kw -> (k = Book -> vm = MNone) -> setup W k md kw vm t = (t', None) ->
  NoDup (map fst kw) -> In (n, v) kw -> ~ In n (known k) -> child t' (SItem n) = Ok v.
Proof.
  intros S HA B E ND I K. destruct (setup_inv _ _ _ _ _ _ _ E) as (t1 & t2 & P & L & t3 & J & R).
  pose proof (reviewed_same _ _ _ _ _ _ R B) as ->. destruct (play_lines _ _ _ _ _ _ _ (shape_fits _ _ S) P) as (F1 & _).
  destruct (left_over _ _ _ HA F1) as (t2' & L' & F2 & _ & _ & V). assert (t2' = t2) by congruence. subst t2'.
  destruct (joined_step _ _ _ _ _ F2 J) as (_ & _ & _ & O & _). rewrite O; [exact (V _ _ ND I K)|].
  apply (HA n). split; [apply (in_map fst _ _ I)|exact K].
Qed.
Theorem unknown_stays W k md kw vm t t' n : shape k t -> harmless k kw -> (k = Book -> vm = MNone) -> setup W k md kw vm t = (t', None) ->
  ~ In n (map fst kw) -> n <> "index" -> n <> root k -> ~ In n (hidden k) -> child t' (SItem n) = child t (SItem n).
Proof.
  intros S HA B E NI N1 N2 N3. destruct (setup_inv _ _ _ _ _ _ _ E) as (t1 & t2 & P & L & t3 & J & R).
  pose proof (reviewed_same _ _ _ _ _ _ R B) as ->. destruct (play_lines _ _ _ _ _ _ _ (shape_fits _ _ S) P) as (F1 & _).
  destruct (left_over _ _ _ HA F1) as (t2' & L' & F2 & _ & V & _). assert (t2' = t2) by congruence. subst t2'.
  destruct (joined_step _ _ _ _ _ F2 J) as (_ & _ & _ & O & _). rewrite (O _ N3). rewrite V by (intros [X _]; contradiction).
  rewrite <- !read_one. apply (frame_lines W k md kw (lines W k) [SItem n] (outside k n N1 N2 N3) t t1 (fun _ X => X) (shape_fits _ _ S) P).
Qed.
Theorem known_stays W k md kw vm t t' n : shape k t -> harmless k kw -> (k = Book -> vm = MNone) -> setup W k md kw vm t = (t', None) ->
  In n (known k) -> n <> "index" -> n <> root k -> ~ In n (hidden k) -> child t' (SItem n) = child t (SItem n).
Proof.
  intros S HA B E NI N1 N2 N3. destruct (setup_inv _ _ _ _ _ _ _ E) as (t1 & t2 & P & L & t3 & J & R).
  pose proof (reviewed_same _ _ _ _ _ _ R B) as ->. destruct (play_lines _ _ _ _ _ _ _ (shape_fits _ _ S) P) as (F1 & _).
  destruct (left_over _ _ _ HA F1) as (t2' & L' & F2 & _ & V & _). assert (t2' = t2) by congruence. subst t2'.
  destruct (joined_step _ _ _ _ _ F2 J) as (_ & _ & _ & O & _). rewrite (O _ N3). rewrite V by (intros [_ X]; contradiction).
  rewrite <- !read_one. apply (frame_lines W k md kw (lines W k) [SItem n] (outside k n N1 N2 N3) t t1 (fun _ X => X) (shape_fits _ _ S) P).
Qed.
Lemma named_row W k n : existsb (fun r => mem n (fst (snd r))) (parameters W k) = true -> exists a keys d, In (a, (keys, d)) (parameters W k) /\ In n keys.
Proof. intros H. apply existsb_exists in H. destruct H as ((a & keys & d) & I & M). exists a, keys, d. split; [exact I|]. apply mem_inv. exact M. Qed.
Lemma known_meant W k n : In n (known k) <-> meant W k n.
Proof.
  unfold meant. split.
  - intros H. destruct H as [<-|H]; [left; reflexivity|]. right.
    destruct k; cbn [In] in H; repeat match type of H with _ \/ _ => destruct H as [<-|H] | False => destruct H end;
    first [ right; split; [reflexivity|cbn; tauto] | left; apply named_row; vm_compute; reflexivity ].
  - intros [->|[(a & keys & d & H & I)|[-> K]]].
    + left; reflexivity.
    + right. destruct k; cbn [parameters In] in H; repeat match type of H with _ \/ _ => destruct H as [H|H] | False => destruct H end;
      injection H as <- <- <-; cbn in I; cbn; intuition auto.
    + right. destruct k; cbn in K; cbn; intuition discriminate.
Qed.
Theorem meant_stays W k md kw vm t t' n : shape k t -> harmless k kw -> (k = Book -> vm = MNone) -> setup W k md kw vm t = (t', None) ->
  meant W k n -> n <> "index" -> n <> root k -> ~ In n (hidden k) -> child t' (SItem n) = child t (SItem n).
Proof. intros S HA B E M. apply known_meant in M. revert M. exact (known_stays W k md kw vm t t' n S HA B E). Qed.
Theorem unknown_meant W k md kw vm t t' n v : shape k t -> harmless k kw -> (k = Book -> vm = MNone) -> setup W k md kw vm t = (t', None) ->
  NoDup (map fst kw) -> In (n, v) kw -> ~ meant W k n -> child t' (SItem n) = Ok v.
Proof. intros S HA B E ND I M. apply (unknown_kept W k md kw vm t t' n v S HA B E ND I). intro X. apply M. apply known_meant. exact X. Qed.
(** Attributes are kept in their places. *)
Definition places_ok : bool := forallb (fun k => forallb (fun r => strs_eqb (cell_of (snd r)) (place k (fst r))) (attrs k)) [Blueprint; Deconstruction; Upgrade; Book].
Lemma places_ok_true : places_ok = true.
Proof. vm_compute. reflexivity. Qed.
Lemma cell_place k a p : In (a, p) (attrs k) -> cell_of p = place k a.
Proof.
  intros H. pose proof places_ok_true as T. unfold places_ok in T. rewrite forallb_forall in T. specialize (T _ (all_sheets k)).
  rewrite forallb_forall in T. specialize (T _ H). apply strs_eqb_eq. exact T.
Qed.
Lemma starts_ex a : forall b, starts a b = true -> exists r, b = a ++ r.
Proof.
  induction a as [|x a IH]; intros b H; [exists b; reflexivity|]. destruct b as [|y b]; [discriminate|]. cbn [starts] in H.
  apply andb_true_iff in H. destruct H as [X H]. apply eqs_eq in X. subst y. destruct (IH _ H) as (r & ->). exists r. reflexivity.
Qed.
Lemma keys_items l : map skey (map SItem l) = l.
Proof. rewrite map_map. cbn [skey]. apply map_id. Qed.
Theorem assigned_place W k md t a v t' : shape k t -> assign W k md t a v = (t', None) ->
  (exists w, takes W k md a v w /\ read t' (map SItem (place k a)) = Ok w) /\
  forall path, (forall r, path ++ r <> place k a) -> (forall r, path <> place k a ++ r) -> read t' (map SItem path) = read t (map SItem path).
Proof.
  intros S E. destruct (assign_row _ _ _ _ _ _ _ E) as (p & I & A). destruct (set_attr_inv _ _ _ _ _ _ A) as (x & w & P & K & U).
  pose proof (rows_attrs _ _ _ I) as IR. pose proof (shape_here _ _ _ _ S IR) as HE. pose proof U as U0.
  rewrite (put_write _ _ _ _ _ HE IR) in U. rewrite <- (cell_place _ _ _ I). split.
  - exists w. split. { exists x. split; [apply (prepared_becomes _ _ _ _ _ _ I); exact P|exact (kept_accepts _ _ _ _ _ _ _ _ HE I K)]. }
    destruct (row_holder _ _ _ _ HE IR) as (fs & R & _).
    rewrite (write_same _ _ _ (SAttr (name p)) _ (name p) fs (item_kind _) (or_introl eq_refl) R) in U.
    unfold cell_of. rewrite map_app. cbn [map].
    exact (read_written _ _ _ _ _ _ (map SItem (spot p)) (SItem (name p)) [] (or_introl eq_refl) U (keys_items _) eq_refl (fun B => ltac:(discriminate B))).
  - intros path N1 N2. apply (read_other _ _ _ _ _ _ U); rewrite keys_items; fold (cell_of p).
    + destruct (starts (cell_of p) path) eqn:X; [|reflexivity]. apply starts_ex in X. destruct X as (r & X). destruct (N2 r X).
    + destruct (starts path (cell_of p)) eqn:X; [|reflexivity]. apply starts_ex in X. destruct X as (r & X). destruct (N1 r). symmetry. exact X.
Qed.
(** The body has them not. *)
Definition inner_ok : bool := forallb (fun k => forallb (fun r => match cell_of (snd r) with
    | [x] => negb (eqs x (root k)) | x :: y :: z => eqs x (root k) && (mem y (known k) || mem y ["_snap_to_grid"; "_snapping_grid_position"; "_position_relative_to_grid"; "settings"]) | [] => false end) (rows k)) [Blueprint; Deconstruction; Upgrade; Book].
Lemma inner_ok_true : inner_ok = true.
Proof. vm_compute. reflexivity. Qed.
Theorem unknown_not_inside W k md kw vm t t' n : shape k t -> harmless k kw -> (k = Book -> vm = MNone) -> setup W k md kw vm t = (t', None) ->
  ~ In n (known k) -> n <> "settings" -> ~ In n ["_snap_to_grid"; "_snapping_grid_position"; "_position_relative_to_grid"] ->
  read t' [SItem (root k); SItem n] = read t [SItem (root k); SItem n].
Proof.
  intros S HA B E K N1 N2. destruct (setup_inv _ _ _ _ _ _ _ E) as (t1 & t2 & P & L & t3 & J & R).
  pose proof (reviewed_same _ _ _ _ _ _ R B) as ->. destruct (play_lines _ _ _ _ _ _ _ (shape_fits _ _ S) P) as (F1 & _).
  destruct (left_over _ _ _ HA F1) as (t2' & L' & F2 & _ & V & _). assert (t2' = t2) by congruence. subst t2'.
  destruct (joined_step _ _ _ _ _ F2 J) as (_ & _ & _ & O & _). cbn [read].
  assert (RH : ~ In (root k) (hidden k)) by (destruct k; cbn; intuition discriminate).
  rewrite (O _ RH). rewrite V by (intros X; exact (proj1 (HA _ X) eq_refl)).
  change (read t1 [SItem (root k); SItem n] = read t [SItem (root k); SItem n]).
  apply (frame_lines W k md kw (lines W k) [SItem (root k); SItem n]); [|exact (fun _ X => X)|exact (shape_fits _ _ S)|exact P].
  intros a p H. pose proof inner_ok_true as T. unfold inner_ok in T. rewrite forallb_forall in T. specialize (T _ (all_sheets k)). rewrite forallb_forall in T. specialize (T _ H). cbn [snd map skey] in *.
  destruct (cell_of p) as [|x [|y z]]; [discriminate T| |]; cbn [starts].
  - rewrite negb_true_iff in T. assert (T' : eqs (root k) x = false) by (unfold eqs in *; rewrite String.eqb_sym; exact T). rewrite T, T'. auto.
  - apply andb_true_iff in T. destruct T as [T1 T2]. assert (NY : y <> n).
    { intros ->. apply orb_true_iff in T2. destruct T2 as [T2|T2]; apply mem_inv in T2; [contradiction|]. cbn in T2. cbn in N2. intuition congruence. }
    assert (X : eqs y n = false) by (destruct (eqs y n) eqn:X; [apply eqs_eq in X; congruence|reflexivity]).
    assert (Y : eqs n y = false) by (destruct (eqs n y) eqn:Y; [apply eqs_eq in Y; congruence|reflexivity]).
    rewrite X, Y. rewrite !andb_false_r. auto.
Qed.

(** ** Constructors *)
Lemma setup_from_inv W k d x vm t t' : setup_from W k d x vm t = (t', None) -> exists fs, dget eqs d (root k) = Some (TDict fs) /\ twice fs = false /\
  setup W k MNone (fs ++ [("index", given d ["index"] TNone)]) vm t = (t', None).
Proof.
  unfold setup_from. destruct (dget eqs d (root k)) as [[|z|fs|fs]|]; try discriminate. destruct (twice fs) eqn:T; [discriminate|]. intros E. exists fs. auto.
Qed.
Lemma make_inv W k blank src i vm am m t : make W k blank src i vm am = Ok (m, t) -> m = am /\ exists kw vm', passes k src kw /\ setup W k MNone kw vm' (blank i) = (t, None) /\
  vm' = (match src with Nothing => MStrict | _ => vm end) /\ ~ In "index" (removelast (map fst kw)).
Proof.
  unfold make. destruct src as [|[d|e]|d|].
  - destruct (setup W k MNone [] MStrict (blank i)) as [u [x|]] eqn:E; [discriminate|]. intros Q. injection Q as <- <-. split; [reflexivity|]. exists [], MStrict.
    split; [constructor|]. split; [exact E|]. split; [reflexivity|intros []].
  - destruct (setup_from W k d IncorrectBlueprintTypeError vm (blank i)) as [u [x|]] eqn:E; [discriminate|]. intros Q. injection Q as <- <-. split; [reflexivity|].
    destruct (setup_from_inv _ _ _ _ _ _ _ E) as (fs & D & T & X). exists (fs ++ [("index", given d ["index"] TNone)]), vm.
    split; [apply passes_text; [exact D|apply given_chosen; reflexivity]|]. split; [exact X|]. split; [reflexivity|].
    rewrite map_app. cbn [map fst]. rewrite removelast_last. intros Q. unfold twice in T. rewrite (mem_true _ _ Q) in T. discriminate T.
  - discriminate.
  - destruct (setup_from W k d KeyError vm (blank i)) as [u [x|]] eqn:E; [discriminate|]. intros Q. injection Q as <- <-. split; [reflexivity|].
    destruct (setup_from_inv _ _ _ _ _ _ _ E) as (fs & D & T & X). exists (fs ++ [("index", given d ["index"] TNone)]), vm.
    split; [apply passes_data; [exact D|apply given_chosen; reflexivity]|]. split; [exact X|]. split; [reflexivity|].
    rewrite map_app. cbn [map fst]. rewrite removelast_last. intros Q. unfold twice in T. rewrite (mem_true _ _ Q) in T. discriminate T.
  - discriminate.
Qed.
(** A constructed object is what [setup] makes of the data, without checks; the mode is the one that was asked for. *)
Theorem make_filled W k blank src i vm am m t : make W k blank src i vm am = Ok (m, t) -> shape k (blank i) ->
  (k = Book -> src <> Nothing /\ vm = MNone) -> (forall kw, passes k src kw -> harmless k kw) ->
  m = am /\ exists kw, passes k src kw /\ forall a, In a (sequence k) -> ~ In a (linked k) -> finished W k MNone kw (blank i) t a.
Proof.
  intros E S B HA. destruct (make_inv _ _ _ _ _ _ _ _ _ E) as (M & kw & vm' & P & X & V & _). split; [exact M|]. exists kw. split; [exact P|].
  apply (setup_done W k MNone kw vm' (blank i) t S (HA _ P)); [|exact X]. intros K. destruct (B K) as [N ->]. rewrite V. destruct src; [congruence|reflexivity|reflexivity|reflexivity].
Qed.
Lemma wants_index W k kw v : wants W k kw "index" v <-> chosen kw TNone ["index"] v.
Proof.
  split.
  - intros [keys d u I C|d s fs u -> I C M D].
    + assert (J : In ("index", (["index"], TNone)) (parameters W k)) by (destruct k; cbn; tauto).
      pose proof (In_fst_unique _ _ _ _ (parameters_nodup W k) I J) as Q. injection Q as -> ->. exact C.
    + cbn in I. intuition discriminate.
  - intros C. apply (wants_keyword _ _ _ _ ["index"] TNone); [destruct k; cbn; tauto|exact C].
Qed.
(** The index of the call is lost. *)
Theorem make_index W k blank src i vm am m t : make W k blank src i vm am = Ok (m, t) -> shape k (blank i) ->
  (k = Book -> src <> Nothing /\ vm = MNone) -> (forall kw, passes k src kw -> harmless k kw) ->
  exists w, get k "index" t = Ok w /\
    match src with Data d | Text (Ok d) => chosen d TNone ["index"] w | _ => w = TNone end.
Proof.
  intros E S B HA. destruct (make_inv _ _ _ _ _ _ _ _ _ E) as (_ & kw & vm' & P & X & V & NI).
  assert (F : finished W k MNone kw (blank i) t "index").
  { apply (setup_done W k MNone kw vm' (blank i) t S (HA _ P)); [|exact X|destruct k; cbn; tauto|destruct k; cbn; intuition discriminate].
    intros K. destruct (B K) as [N ->]. rewrite V. destruct src; [congruence|reflexivity|reflexivity|reflexivity]. }
  unfold finished in F. change (eqs "index" "settings") with false in F. cbv iota in F. destruct F as [(v & w & C & G & R)|[(-> & I & _) _]]; [|cbn in I; intuition discriminate].
  exists w. split; [exact R|]. apply wants_index in C.
  assert (w = v) as ->.
  { unfold gives in G. change (mem "index" containers) with false in G. cbv iota in G. destruct G as (x & G1 & G2). cbv [becomes] in G1.
    change (mem "index" vectors) with false in G1. change (mem "index" containers) with false in G1. change (mem "index" plain_lists) with false in G1. change (eqs "index" "version") with false in G1. cbv iota in G1. subst x.
    unfold accepts in G2. change (mem "index" never_checked) with false in G2. assert (A : mem "index" (always_checked k) = false) by (destruct k; reflexivity). rewrite A in G2. exact G2. }
  destruct P as [|d fs j D J|d fs j D J].
  - inversion C as [|? ? ? Q|? ? ? Q C']; subst; [discriminate Q|]. inversion C'; subst. reflexivity.
  - assert (Y : dget eqs (fs ++ [("index", j)]) "index" = Some j).
    { rewrite map_app in NI. cbn [map fst] in NI. rewrite removelast_last in NI. clear - NI. induction fs as [|[n u] fs IH]; [reflexivity|]. cbn [app dget].
      destruct (eqs n "index") eqn:Q; [apply eqs_eq in Q; exfalso; apply NI; left; exact Q|]. apply IH. intros I. apply NI. right. exact I. }
    inversion C as [|? ? ? Q|? ? ? Q C']; subst; [|congruence]. rewrite Y in Q. injection Q as ->. exact J.
  - assert (Y : dget eqs (fs ++ [("index", j)]) "index" = Some j).
    { rewrite map_app in NI. cbn [map fst] in NI. rewrite removelast_last in NI. clear - NI. induction fs as [|[n u] fs IH]; [reflexivity|]. cbn [app dget].
      destruct (eqs n "index") eqn:Q; [apply eqs_eq in Q; exfalso; apply NI; left; exact Q|]. apply IH. intros I. apply NI. right. exact I. }
    inversion C as [|? ? ? Q|? ? ? Q C']; subst; [|congruence]. rewrite Y in Q. injection Q as ->. exact J.
Qed.
(** What constructors refuse. *)
Theorem make_refuses W k blank i vm am :
  make W k blank Other i vm am = Err DataFormatError /\
  (forall e, make W k blank (Text (Err e)) i vm am = Err e) /\
  (forall d, dget eqs d (root k) = None -> make W k blank (Data d) i vm am = Err KeyError /\ make W k blank (Text (Ok d)) i vm am = Err IncorrectBlueprintTypeError) /\
  (forall d b, dget eqs d (root k) = Some b -> (forall fs, b <> TDict fs) -> make W k blank (Data d) i vm am = Err TypeError /\ make W k blank (Text (Ok d)) i vm am = Err TypeError) /\
  (forall d fs n, dget eqs d (root k) = Some (TDict fs) -> In n ["index"; "validate"; "self"] -> In n (map fst fs) ->
     make W k blank (Data d) i vm am = Err TypeError /\ make W k blank (Text (Ok d)) i vm am = Err TypeError).
Proof.
  split; [reflexivity|]. split; [reflexivity|]. split; [|split].
  - intros d D. unfold make, setup_from. rewrite D. auto.
  - intros d b D N. unfold make, setup_from. rewrite D. destruct b; try (exfalso; exact (N _ eq_refl)); auto.
  - intros d fs n D N I. assert (T : twice fs = true).
    { unfold twice. destruct N as [<-|[<-|[<-|[]]]]; rewrite (mem_true _ _ I); rewrite ?orb_true_r; reflexivity. }
    unfold make, setup_from. rewrite D, T. auto.
Qed.
(** Without data, the strict validation cannot be turned off. *)
Theorem make_strict W k blank i vm am t e : setup W k MNone [] MStrict (blank i) = (t, Some e) -> make W k blank Nothing i vm am = Err e.
Proof. unfold make. intros ->. reflexivity. Qed.

(** ** [None] *)
Theorem none_vector W k md t a : shape k t -> In a (attributes k) -> In a vectors -> exists t', assign W k md t a TNone = (t', None) /\ get k a t' = Ok (origin W).
Proof.
  intros S I V. apply attributes_iff in I. destruct I as (p & H). unfold assign. rewrite (proj2 (dget_attrs _ _ _) H).
  assert (Q : prepared W p TNone = Ok (origin W)). { apply (prepared_becomes W k a p); [exact H|]. unfold becomes. rewrite (mem_true _ _ V). left. auto. }
  assert (D : how p = Direct). { pose proof (way_ok _ _ _ H) as T. unfold wayb in T. assert (NC : mem a never_checked = true) by (apply mem_true; apply in_or_app; left; exact V). rewrite NC in T. destruct (how p); [discriminate T|discriminate T|reflexivity]. }
  unfold set_attr. rewrite Q, D. cbn [bind]. pose proof (shape_here _ _ _ _ S (rows_attrs _ _ _ H)) as F. destruct (put_ok _ _ _ _ (origin W) F (rows_attrs _ _ _ H)) as (t' & U). rewrite U.
  exists t'. split; [reflexivity|]. rewrite (get_row _ _ _ _ H). exact (read_put _ _ _ _ _ _ F (rows_attrs _ _ _ H) U).
Qed.
Theorem none_list W k md t a : shape k t -> In a (attributes k) -> In a (containers ++ plain_lists) -> exists t', assign W k md t a TNone = (t', None) /\ get k a t' = Ok (empty W).
Proof.
  intros S I V. apply attributes_iff in I. destruct I as (p & H). unfold assign. rewrite (proj2 (dget_attrs _ _ _) H).
  assert (Q : prepared W p TNone = Ok (empty W)).
  { apply (prepared_becomes W k a p); [exact H|]. unfold becomes. assert (X : mem a vectors = false) by (cbn in V; intuition (subst; reflexivity)). rewrite X.
    apply in_app_or in V. destruct V as [V|V]; [rewrite (mem_true _ _ V); left; auto|]. destruct (mem a containers); [left; auto|]. rewrite (mem_true _ _ V). left. auto. }
  assert (D : how p = Direct). { pose proof (way_ok _ _ _ H) as T. unfold wayb in T. assert (NC : mem a never_checked = true) by (apply mem_true; apply in_or_app; right; exact V). rewrite NC in T. destruct (how p); [discriminate T|discriminate T|reflexivity]. }
  unfold set_attr. rewrite Q, D. cbn [bind]. pose proof (shape_here _ _ _ _ S (rows_attrs _ _ _ H)) as F. destruct (put_ok _ _ _ _ (empty W) F (rows_attrs _ _ _ H)) as (t' & U). rewrite U.
  exists t'. split; [reflexivity|]. rewrite (get_row _ _ _ _ H). exact (read_put _ _ _ _ _ _ F (rows_attrs _ _ _ H) U).
Qed.

(** ** Witnesses *)
(** Checks and conversions that accept everything. *)
Definition easy : world := {|
  check := fun _ _ _ _ _ v => Ok (match v with TDict fs => TModel fs | _ => v end); normalize := fun v => v; to_vector := fun v => Ok v; to_list := fun _ v => Ok v;
  link := fun _ ss ws => ((ss, ws), None); review := fun _ _ t => (t, None);
  origin := TVal 0; empty := TVal 1; game := TVal 2; whitelist := TVal 3; never := TVal 4; yes := TVal 5; no := TVal 6; zero := TVal 7 |}.
Definition bare (k : sheet) (i : tree) : tree := TModel [(root k, TModel [("label", TNone); ("settings", TModel [])]); ("index", i)].
Lemma easy_blind : blind easy.
Proof. intros md s M n o o' v. reflexivity. Qed.
Lemma bare_shape k i : shape k (bare k i).
Proof.
  exists [(root k, TModel [("label", TNone); ("settings", TModel [])]); ("index", i)], (TModel [("label", TNone); ("settings", TModel [])]), [("label", TNone); ("settings", TModel [])].
  split; [reflexivity|]. split; [destruct k; reflexivity|]. split; [reflexivity|]. intros _. exists (TModel []). split; [reflexivity|exists []; reflexivity].
Qed.
(** Filters of an earlier call stay if [settings] is [None]. *)
Theorem spared_stay : exists kw t t', shape Deconstruction t /\ harmless Deconstruction kw /\
  setup easy Deconstruction MStrict kw MStrict t = (t', None) /\ get Deconstruction "description" t' = Ok (TVal 9).
Proof.
  exists [("settings", TNone)], (TModel [("deconstruction_planner", TModel [("settings", TModel [("description", TVal 9)])])]). eexists.
  split; [|split; [|split]].
  - eexists _, _, _. split; [reflexivity|]. split; [reflexivity|]. split; [reflexivity|]. intros _. eexists. split; [reflexivity|eexists; reflexivity].
  - intros n [I K]. exfalso. apply K. cbn in I. destruct I as [<-|[]]. cbn. tauto.
  - vm_compute. reflexivity.
  - reflexivity.
Qed.
(** [active_index = None] is not [0]. *)
Theorem active_index_none : zero easy <> TNone /\ forall md i, get Book "active_index" (fst (assign easy Book md (bare Book i) "active_index" TNone)) = Ok TNone.
Proof. split; [discriminate|]. intros [] i; reflexivity. Qed.
(** An unknown keyword with a bad name replaces other things. *)
Theorem harmful : exists kw t', shape Blueprint (bare Blueprint TNone) /\ setup easy Blueprint MStrict kw MStrict (bare Blueprint TNone) = (t', None) /\
  dget eqs kw "label" = Some (TVal 8) /\ get Blueprint "label" t' <> Ok (TVal 8).
Proof.
  exists [("label", TVal 8); ("blueprint", TNone)]. eexists. split; [apply bare_shape|]. split; [vm_compute; reflexivity|]. split; [reflexivity|]. vm_compute. discriminate.
Qed.
