(** Proofs about the attributes of draftsman's classes of entities. *)
From Coq Require Import ZArith String List Bool Lia.
From Verif Require Import Common Dict Version_Model Assign_Model Attr_Model Attr_Table Attr_Spec Attr_Order_Proofs Attr_Proofs.
Import ListNotations.
Local Open Scope string_scope.
Local Open Scope list_scope.

(** ** All rows *)
Definition attrs (L : lib) (c : cls) : list string :=
  match order L c with
  | Ok m => nodup string_dec (flat_map (fun d => match dget eqs (l_props L) d with Some ps => map fst ps | None => [] end) m)
  | Err _ => []
  end.
Lemma attrs_in L c a q : find_prop L c a = Some q -> In a (attrs L c).
Proof.
  unfold find_prop, attrs. destruct (order L c) as [m|]; [|discriminate]. intros H. apply first_some_split in H.
  destruct H as (l1 & d & l2 & -> & H & _). apply nodup_In. apply in_flat_map. exists d. split; [apply in_elt|].
  unfold own_prop in H. destruct (dget eqs (l_props L) d) as [ps|]; [|discriminate].
  apply (dget_some_in _ eqs_eq) in H. apply (in_map fst) in H. exact H.
Qed.
Definition rows (L : lib) (c : cls) : list (string * property) :=
  flat_map (fun a => match find_prop L c a with Some q => [(a, q)] | None => [] end) (attrs L c).
Lemma rows_in L c a q : In (a, q) (rows L c) <-> find_prop L c a = Some q.
Proof.
  unfold rows. rewrite in_flat_map. split.
  - intros (x & X1 & X2). destruct (find_prop L c x) eqn:E; [|destruct X2]. destruct X2 as [X2|[]]. injection X2 as -> ->. exact E.
  - intros H. exists a. split; [exact (attrs_in _ _ _ _ H)|]. rewrite H. left. reflexivity.
Qed.
Definition all_rows (P : cls -> list (string * property) -> string -> property -> bool) : bool :=
  forallb (fun c => let rs := rows draftsman c in forallb (fun r => P c rs (fst r) (snd r)) rs) entity_classes.
Lemma all_rows_in P c a q : all_rows P = true -> In c entity_classes -> find_prop draftsman c a = Some q -> P c (rows draftsman c) a q = true.
Proof.
  unfold all_rows. intros H C F. rewrite forallb_forall in H. specialize (H c C). cbv zeta in H. rewrite forallb_forall in H.
  exact (H (a, q) (proj2 (rows_in _ _ _ _) F)).
Qed.

(** ** Cells, computed *)
Definition is_attr (s : step) : bool := match s with SAttr _ => true | _ => false end.
Lemma attrs_only ss : forallb is_attr ss = true -> ss = map SAttr (map skey ss).
Proof. induction ss as [|[k|k|k] ss IH]; cbn [forallb is_attr map skey]; intros H; try discriminate; [reflexivity|]. cbn in H. rewrite <- IH by exact H. reflexivity. Qed.
Definition cell_place (L : lib) (c : cls) (p : place) : option cell :=
  match where_ L c p with
  | Ok ss => match rev ss with
             | (SAttr n | SItem n) :: r => if forallb is_attr (rev r) then Some (map skey (rev r), n) else None
             | _ => None
             end
  | Err _ => None
  end.
Lemma cell_place_names L c p k : cell_place L c p = Some k -> names_cell L c p k.
Proof.
  unfold cell_place, names_cell. destruct (where_ L c p) as [ss|] eqn:W; [|discriminate]. destruct (rev ss) as [|s r] eqn:R; [discriminate|].
  assert (E : ss = rev r ++ [s]) by (rewrite <- (rev_involutive ss), R; reflexivity).
  destruct s as [n|n|n]; [| |discriminate]; (destruct (forallb is_attr (rev r)) eqn:F; [|discriminate]); intros H; injection H as <-; cbn [fst snd];
    [left|right]; rewrite E, <- (attrs_only _ F); reflexivity.
Qed.
Definition cell_target (L : lib) (c : cls) (t : place) (n : string) : option cell :=
  match where_ L c t with Ok ss => if forallb is_attr ss then Some (map skey ss, n) else None | Err _ => None end.
Lemma cell_target_checks L c t n k : cell_target L c t n = Some k -> checks_cell L c t n k.
Proof.
  unfold cell_target, checks_cell. destruct (where_ L c t) as [ss|]; [|discriminate]. destruct (forallb is_attr ss) eqn:F; [|discriminate].
  intros H. injection H as <-. cbn [fst snd]. rewrite <- (attrs_only _ F). auto.
Qed.
Definition cell_dec (k k' : cell) : {k = k'} + {k <> k'}.
Proof. decide equality; [apply string_dec|apply (list_eq_dec string_dec)]. Defined.
Definition same_cell (o : option cell) (k : cell) : bool := match o with Some k' => if cell_dec k' k then true else false | None => false end.
Lemma same_cell_eq o k : same_cell o k = true -> o = Some k.
Proof. destruct o as [k'|]; cbn; [|discriminate]. destruct (cell_dec k' k); [congruence|discriminate]. Qed.
Definition setter_cell (L : lib) (c : cls) (s : setter) : option cell :=
  match s with
  | Plain e _ t n p1 p2 =>
    match cell_target L c t n with
    | Some k => if same_cell (cell_place L c p1) k && same_cell (cell_place L c p2) k &&
                   match e with Late => true | EarlyAlways p | EarlyChecked p => same_cell (cell_place L c p) k end
                then Some k else None
    | None => None
    end
  | Test _ t n => cell_target L c t n
  | Raw p => cell_place L c p
  | Always _ t n p => match cell_target L c t n with Some k => if same_cell (cell_place L c p) k then Some k else None | None => None end
  | ReadOnly => None
  end.
Lemma setter_cell_keeps L c s k : setter_cell L c s = Some k -> keeps L c s k.
Proof.
  destruct s as [e m t n p1 p2|m t n|p|m t n p|]; cbn [setter_cell keeps].
  - destruct (cell_target L c t n) as [k'|] eqn:T; [|discriminate].
    destruct (same_cell (cell_place L c p1) k' && same_cell (cell_place L c p2) k' && _) eqn:E; [|discriminate]. intros H. injection H as ->.
    apply andb_prop in E. destruct E as (E & E3). apply andb_prop in E. destruct E as (E1 & E2).
    split; [exact (cell_target_checks _ _ _ _ _ T)|]. split; [exact (cell_place_names _ _ _ _ (same_cell_eq _ _ E1))|].
    split; [exact (cell_place_names _ _ _ _ (same_cell_eq _ _ E2))|].
    destruct e; [exact Logic.I| |]; exact (cell_place_names _ _ _ _ (same_cell_eq _ _ E3)).
  - exact (cell_target_checks _ _ _ _ _).
  - exact (cell_place_names _ _ _ _).
  - destruct (cell_target L c t n) as [k'|] eqn:T; [|discriminate]. destruct (same_cell (cell_place L c p) k') eqn:E; [|discriminate].
    intros H. injection H as ->. split; [exact (cell_target_checks _ _ _ _ _ T)|exact (cell_place_names _ _ _ _ (same_cell_eq _ _ E))].
  - discriminate.
Qed.
Lemma map_sattr_inj l l' : map SAttr l = map SAttr l' -> l = l'.
Proof. intros H. apply (f_equal (map skey)) in H. rewrite !map_map in H. cbn [skey] in H. rewrite !map_id in H. exact H. Qed.
Lemma names_unique L c p k k' : names_cell L c p k -> names_cell L c p k' -> k = k'.
Proof.
  destruct k as [ks n], k' as [ks' n']. unfold names_cell. cbn [fst snd].
  intros [A|A] [B|B]; rewrite A in B; injection B as B; apply app_inj_tail in B; destruct B as (B1 & B2); try discriminate;
    apply map_sattr_inj in B1; congruence.
Qed.
Lemma checks_unique L c t n k k' : checks_cell L c t n k -> checks_cell L c t n k' -> k = k'.
Proof.
  destruct k as [ks n1], k' as [ks' n']. unfold checks_cell. cbn [fst snd]. intros (A & ->) (B & ->). rewrite A in B. injection B as B.
  apply map_sattr_inj in B. congruence.
Qed.
Lemma keeps_unique L c s k k' : keeps L c s k -> keeps L c s k' -> k = k'.
Proof.
  destruct s; cbn [keeps].
  - intros (A & _) (B & _). exact (checks_unique _ _ _ _ _ _ A B).
  - exact (checks_unique _ _ _ _ _ _).
  - exact (names_unique _ _ _ _ _).
  - intros (A & _) (B & _). exact (checks_unique _ _ _ _ _ _ A B).
  - intros [].
Qed.
Definition getter (L : lib) (c : cls) (q : property) : list step := match where_ L c (p_get q) with Ok ss => ss | Err _ => [] end.

(** ** The checks *)
Definition inb (c : cls) (a : string) (l : list (cls * string)) : bool := existsb (fun r => eqs c (fst r) && eqs a (snd r)) l.
Lemma inb_in c a l : inb c a l = true <-> In (c, a) l.
Proof.
  unfold inb. rewrite existsb_exists. split.
  - intros ((x & y) & A & B). cbn [fst snd] in B. apply andb_prop in B. destruct B as (B1 & B2). apply eqs_eq in B1, B2. subst. exact A.
  - intros A. exists (c, a). cbn [fst snd]. rewrite !eqs_refl. auto.
Qed.
Definition read_only (q : property) : bool := match p_set q with ReadOnly => true | _ => false end.
Definition hastyb (s : setter) : bool := match s with Plain (EarlyAlways _) _ _ _ _ _ | Plain (EarlyChecked _) _ _ _ _ _ => true | _ => false end.
Lemma hastyb_iff s : hastyb s = true <-> hasty s.
Proof. destruct s as [[| |]| | | |]; cbn; intuition discriminate. Qed.

(** Every getter has a place, every setter keeps one cell. *)
Lemma rows_keep : all_rows (fun c _ _ q =>
  (read_only q || match setter_cell draftsman c (p_set q) with Some _ => true | None => false end) &&
  match where_ draftsman c (p_get q) with Ok _ => true | Err _ => false end) = true.
Proof. vm_cast_no_check (eq_refl true). Qed.
Theorem each_keeps c a : In c entity_classes -> settable draftsman c a -> exists k, writes draftsman c a k.
Proof.
  intros C (q & F & N). pose proof (all_rows_in _ _ _ _ rows_keep C F) as H. cbv beta in H. apply andb_prop in H. destruct H as (H & _).
  apply orb_prop in H. destruct H as [H|H]; [unfold read_only in H; destruct (p_set q); try discriminate; congruence|].
  destruct (setter_cell draftsman c (p_set q)) as [k|] eqn:E; [|discriminate]. exists k, q. split; [exact F|exact (setter_cell_keeps _ _ _ _ E)].
Qed.
Theorem each_reads c a : In c entity_classes -> attribute draftsman c a -> exists ss, reads draftsman c a ss.
Proof.
  intros C (q & F). pose proof (all_rows_in _ _ _ _ rows_keep C F) as H. cbv beta in H. apply andb_prop in H. destruct H as (_ & H).
  destruct (where_ draftsman c (p_get q)) as [ss|] eqn:E; [|discriminate]. exists ss, q. auto.
Qed.
(** The order of every class exists. *)
Lemma orders_ok : forallb (fun c => match order draftsman c with Ok _ => true | Err _ => false end) (map fst bases) = true.
Proof. vm_cast_no_check (eq_refl true). Qed.
Theorem each_order c : In c (map fst bases) -> exists m, order draftsman c = Ok m.
Proof.
  intros C. pose proof orders_ok as H. rewrite forallb_forall in H. specialize (H c C). destruct (order draftsman c) as [m|]; [exists m; reflexivity|discriminate].
Qed.
Lemma classes_in : forallb (fun c => mem c (map fst bases)) entity_classes = true.
Proof. vm_cast_no_check (eq_refl true). Qed.
Lemma class_in c : In c entity_classes -> In c (map fst bases).
Proof. intros C. pose proof classes_in as H. rewrite forallb_forall in H. apply mem_in. exact (H c C). Qed.

(** Which setters store first, which do not check, which check nothing. *)
Lemma rows_hasty : all_rows (fun c _ a q => Bool.eqb (hastyb (p_set q)) (inb c a stored_first)) = true.
Proof. vm_cast_no_check (eq_refl true). Qed.
Theorem hasty_iff c a q : In c entity_classes -> find_prop draftsman c a = Some q -> (hasty (p_set q) <-> In (c, a) stored_first).
Proof. intros C F. pose proof (all_rows_in _ _ _ _ rows_hasty C F) as H. apply eqb_prop in H. rewrite <- hastyb_iff, H. apply inb_in. Qed.
Definition rawb (s : setter) : bool := match s with Raw _ => true | _ => false end.
Lemma rows_raw : all_rows (fun c _ a q => Bool.eqb (rawb (p_set q)) (inb c a unguarded)) = true.
Proof. vm_cast_no_check (eq_refl true). Qed.
Theorem raw_iff c a q : In c entity_classes -> find_prop draftsman c a = Some q -> ((exists p, p_set q = Raw p) <-> In (c, a) unguarded).
Proof.
  intros C F. pose proof (all_rows_in _ _ _ _ rows_raw C F) as H. apply eqb_prop in H. rewrite <- inb_in, <- H. unfold rawb.
  destruct (p_set q); split; try discriminate; try (intros (p' & P); discriminate); [reflexivity|eexists; reflexivity].
Qed.
Definition declares (c : cls) (s : setter) : option bool :=
  match guard s with
  | Some (m, n) => match model_of draftsman c m with Ok M => Some (declared draftsman M n) | Err _ => None end
  | None => Some true
  end.
Lemma rows_declared : all_rows (fun c _ a q =>
  match declares c (p_set q) with
  | Some d => Bool.eqb (negb d) (inb c a undeclared) && negb (inb c a [("ConstantCombinator", "sections")])
  | None => inb c a [("ConstantCombinator", "sections")]
  end) = true.
Proof. vm_cast_no_check (eq_refl true). Qed.
Theorem declared_iff c a q m n : In c entity_classes -> find_prop draftsman c a = Some q -> guard (p_set q) = Some (m, n) ->
  (c, a) <> ("ConstantCombinator", "sections") ->
  exists M, model_of draftsman c m = Ok M /\ (declared draftsman M n = false <-> In (c, a) undeclared).
Proof.
  intros C F G N. pose proof (all_rows_in _ _ _ _ rows_declared C F) as H. cbv beta in H. unfold declares in H. rewrite G in H.
  destruct (model_of draftsman c m) as [M|].
  - exists M. split; [reflexivity|]. apply andb_prop in H. destruct H as (H & _). apply eqb_prop in H. rewrite <- inb_in, <- H.
    destruct (declared draftsman M n); cbn; split; congruence.
  - exfalso. apply inb_in in H. destruct H as [H|[]]. congruence.
Qed.
Theorem no_model q : find_prop draftsman "ConstantCombinator" "sections" = Some q ->
  exists m t n p1 p2, p_set q = Plain Late m t n p1 p2 /\ model_of draftsman "ConstantCombinator" m = Err AttributeError.
Proof.
  intros F. assert (E : find_prop draftsman "ConstantCombinator" "sections" =
    Some {| p_get := self "control_behavior" [SAttr "sections"; SAttr "sections"];
            p_set := Plain Late ["ControlBehavior"; "Sections"] (self "control_behavior" [SAttr "sections"]) "sections"
              (self "control_behavior" [SAttr "sections"; SAttr "sections"]) (self "control_behavior" [SAttr "sections"; SAttr "sections"]) |})
    by (vm_compute; reflexivity).
  rewrite E in F. injection F as <-. exists ["ControlBehavior"; "Sections"]. do 4 eexists. split; [reflexivity|]. vm_compute. reflexivity.
Qed.

(** ** Pairs of attributes *)
Fixpoint hits (ks : list string) (n : string) (ss : list step) : bool :=
  match ks, ss with
  | [], SAttr k :: _ => eqs k n
  | k :: ks', s :: ss' => eqs (skey s) k && hits ks' n ss'
  | _, _ => false
  end.
Lemma hits_way way n rest : hits (map skey way) n (way ++ SAttr n :: rest) = true.
Proof. induction way as [|s way IH]; cbn [map app hits]; [apply eqs_refl|]. rewrite eqs_refl. exact IH. Qed.
Lemma rows_agree : all_rows (fun c rs _ q => forallb (fun p =>
  match where_ draftsman c p with
  | Ok ss => match rev ss with
             | SItem n :: r => forallb (fun r' => negb (hits (map skey (rev r)) n (getter draftsman c (snd r')))) rs
             | _ => true
             end
  | Err _ => true
  end) (blind (p_set q))) = true.
Proof. vm_cast_no_check (eq_refl true). Qed.
Theorem each_agrees c a b : In c entity_classes -> agrees draftsman c a b.
Proof.
  intros C q p ks n way k rest F P W (qb & Fb & Wb) E ->. pose proof (all_rows_in _ _ _ _ rows_agree C F) as H. cbv beta in H.
  rewrite forallb_forall in H. specialize (H p P). rewrite W in H. rewrite rev_app_distr in H. cbn [rev app] in H.
  rewrite rev_involutive in H. rewrite forallb_forall in H. specialize (H (b, qb) (proj2 (rows_in _ _ _ _) Fb)). cbn [snd] in H.
  unfold getter in H. rewrite Wb in H. rewrite map_map in H. cbn [skey] in H. rewrite map_id, <- E, hits_way in H. discriminate.
Qed.
Lemma writes_cell c a q k : find_prop draftsman c a = Some q -> writes draftsman c a k -> In c entity_classes -> setter_cell draftsman c (p_set q) = Some k.
Proof.
  intros F W C. pose proof (writes_keeps _ _ _ _ _ F W) as K. pose proof (all_rows_in _ _ _ _ rows_keep C F) as H. cbv beta in H.
  apply andb_prop in H. destruct H as (H & _). apply orb_prop in H. destruct H as [H|H].
  - unfold read_only in H. destruct (p_set q); try discriminate. destruct K.
  - destruct (setter_cell draftsman c (p_set q)) as [k'|] eqn:E; [|discriminate]. f_equal.
    exact (keeps_unique _ _ _ _ _ (setter_cell_keeps _ _ _ _ E) K).
Qed.
Definition strings_eqb (a b : list string) : bool := if list_eq_dec string_dec a b then true else false.
Lemma strings_eqb_eq a b : strings_eqb a b = true <-> a = b.
Proof. unfold strings_eqb. destruct (list_eq_dec string_dec a b); split; congruence. Qed.
Lemma touches_path c a b qa qb k ss : In c entity_classes -> find_prop draftsman c a = Some qa -> find_prop draftsman c b = Some qb ->
  setter_cell draftsman c (p_set qa) = Some k -> where_ draftsman c (p_get qb) = Ok ss ->
  (touches draftsman c a b [] <-> path k = map skey ss).
Proof.
  intros C Fa Fb K W. split.
  - intros (k' & way & s & Wr & (q' & F' & W') & E1 & E2). pose proof (writes_cell _ _ _ _ Fa Wr C) as E. rewrite K in E. injection E as <-.
    rewrite Fb in F'. injection F' as <-. rewrite W in W'. injection W' as ->. rewrite map_app. cbn [map]. unfold path. rewrite <- E1, <- E2. reflexivity.
  - intros E. destruct (rev ss) as [|s r] eqn:R.
    + apply (f_equal (@rev step)) in R. rewrite rev_involutive in R. subst ss. unfold path in E. destruct (fst k); discriminate.
    + assert (S : ss = rev r ++ [s]) by (rewrite <- (rev_involutive ss), R; reflexivity).
      rewrite S, map_app in E. cbn [map] in E. unfold path in E. apply app_inj_tail in E. destruct E as (E1 & E2).
      exists k, (rev r), s. split; [exists qa; split; [exact Fa|exact (setter_cell_keeps _ _ _ _ K)]|].
      split; [exists qb; rewrite <- S; auto|]. auto.
Qed.
Definition crossb (c : cls) (a b : string) : bool := existsb (fun r => eqs c (fst r) && (eqs a (fst (snd r)) && eqs b (snd (snd r)))) crossed.
Lemma crossb_in c a b : crossb c a b = true <-> In (c, (a, b)) crossed.
Proof.
  unfold crossb. rewrite existsb_exists. split.
  - intros ((x & y & z) & A & B). cbn [fst snd] in B. apply andb_prop in B. destruct B as (B1 & B). apply andb_prop in B. destruct B as (B2 & B3).
    apply eqs_eq in B1, B2, B3. subst. exact A.
  - intros A. exists (c, (a, b)). cbn [fst snd]. rewrite !eqs_refl. auto.
Qed.
Lemma rows_paths : all_rows (fun c rs a q =>
  match setter_cell draftsman c (p_set q) with
  | Some k => forallb (fun r => Bool.eqb (strings_eqb (path k) (map skey (getter draftsman c (snd r))))
                        ((eqs a (fst r) && negb (inb c a misread)) || crossb c a (fst r))) rs
  | None => true
  end) = true.
Proof. vm_cast_no_check (eq_refl true). Qed.
Theorem shares_iff c a b : In c entity_classes -> settable draftsman c a -> attribute draftsman c b ->
  (touches draftsman c a b [] <-> (a = b /\ ~ In (c, a) misread) \/ In (c, (a, b)) crossed).
Proof.
  intros C Sa (qb & Fb). destruct (each_keeps c a C Sa) as (k & Wr). destruct Sa as (qa & Fa & _).
  pose proof (writes_cell _ _ _ _ Fa Wr C) as K. destruct (each_reads c b C (ex_intro _ qb Fb)) as (ss & q' & F' & W).
  rewrite Fb in F'. injection F' as <-. rewrite (touches_path c a b qa qb k ss C Fa Fb K W).
  pose proof (all_rows_in _ _ _ _ rows_paths C Fa) as H. cbv beta in H. rewrite K in H. rewrite forallb_forall in H.
  specialize (H (b, qb) (proj2 (rows_in _ _ _ _) Fb)). cbn [fst snd] in H. unfold getter in H. rewrite W in H. apply eqb_prop in H.
  rewrite <- strings_eqb_eq, H, orb_true_iff, andb_true_iff, negb_true_iff, eqs_eq, crossb_in.
  rewrite <- (not_true_iff_false (inb c a misread)), inb_in. tauto.
Qed.
Fixpoint prefixb (a b : list string) : bool :=
  match a, b with [], _ => true | x :: a', y :: b' => eqs x y && prefixb a' b' | _ :: _, [] => false end.
Lemma prefixb_app a r : prefixb a (a ++ r) = true.
Proof. induction a as [|x a IH]; cbn [prefixb app]; [reflexivity|]. rewrite eqs_refl. exact IH. Qed.
Lemma rows_holders : all_rows (fun c rs a q =>
  match setter_cell draftsman c (p_set q) with
  | Some k => forallb (fun r => negb (prefixb (map skey (getter draftsman c (snd r))) (fst k)) || mem (fst r) holders) rs
  | None => true
  end) = true.
Proof. vm_cast_no_check (eq_refl true). Qed.
Theorem inside_holders c a b : In c entity_classes -> inside draftsman c a b -> In b holders.
Proof.
  intros C (k & ss & rest & Wr & (qb & Fb & W) & E). pose proof Wr as (qa & Fa & _). pose proof (writes_cell _ _ _ _ Fa Wr C) as K.
  pose proof (all_rows_in _ _ _ _ rows_holders C Fa) as H. cbv beta in H. rewrite K in H. rewrite forallb_forall in H.
  specialize (H (b, qb) (proj2 (rows_in _ _ _ _) Fb)). cbn [fst snd] in H. unfold getter in H. rewrite W, E, prefixb_app in H.
  cbn [negb orb] in H. apply mem_in. exact H.
Qed.

(** ** Histories *)
Lemma proper_fine c b p : In c entity_classes -> proper c b p -> fine draftsman c b p.
Proof.
  intros C P a A. destruct (P a A) as (At & NI & H). split; [|split; [exact NI|]].
  - intros q F. destruct (p_set q) eqn:S; [right|right|right|right|left; reflexivity];
      (destruct (each_keeps c a C) as (k & Wr); [exists q; rewrite S; split; [exact F|discriminate]|];
       exists k; rewrite <- S; exact (writes_keeps _ _ _ _ _ F Wr)).
  - intros T. split; [apply each_agrees; exact C|]. intros q F Hs. apply (H T). apply (hasty_iff c a q C F). exact Hs.
Qed.
Theorem history_last check c a b v p s rest : In c entity_classes -> proper c b (Assign a v :: p) -> touches draftsman c a b rest ->
  snd (assign draftsman check c (fst s) (snd s) a v) = None -> quiet draftsman check c b (exec draftsman check c s (Assign a v)) p ->
  exists w, takes draftsman check c (fst s) a v w /\ get draftsman c b (snd (run draftsman check c s (Assign a v :: p))) = read w rest.
Proof. intros C P. apply last_reads. exact (proper_fine _ _ _ C P). Qed.
Theorem history_quiet check c b p s : In c entity_classes -> attribute draftsman c b -> proper c b p -> quiet draftsman check c b s p ->
  get draftsman c b (snd (run draftsman check c s p)) = get draftsman c b (snd s).
Proof. intros C A P. apply quiet_reads; [exact (proper_fine _ _ _ C P)|exact (each_reads _ _ C A)]. Qed.

(** ** Single assignments *)
Section Single.
  Variables (check : oracle) (c : cls).
  Hypothesis C : In c entity_classes.
  Theorem refused md t a v e t' : attribute draftsman c a -> ~ In (c, a) stored_first ->
    assign draftsman check c md t a v = (t', Some e) -> t' = t.
  Proof.
    intros (q & F) N E. destruct (p_set q) eqn:S; [| | | |unfold assign in E; rewrite F, S in E; congruence];
      (destruct (each_keeps c a C) as (k & Wr); [exists q; rewrite S; split; [exact F|discriminate]|];
       pose proof (assign_cell draftsman check c md t a v q k F (writes_keeps _ _ _ _ _ F Wr)) as H; rewrite E in H;
       destruct H as [H|(Hs & _)]; [exact H|]; exfalso; apply N; apply (hasty_iff c a q C F); exact Hs).
  Qed.
  Lemma own_touches a : settable draftsman c a -> ~ In (c, a) misread -> touches draftsman c a a [].
  Proof. intros S N. apply shares_iff; [exact C|exact S|destruct S as (q & F & _); exists q; exact F|left; auto]. Qed.
  Theorem accepted md t a v t' : settable draftsman c a -> ~ In (c, a) misread ->
    assign draftsman check c md t a v = (t', None) -> exists w, takes draftsman check c md a v w /\ get draftsman c a t' = Ok w.
  Proof.
    intros S N E. destruct (own_touches a S N) as (k & way & s & Wr & R & E1 & E2). pose proof Wr as (q & F & K).
    pose proof (assign_cell draftsman check c md t a v q k F K) as H. rewrite E in H. destruct H as (w & T & St). exists w. split; [exact T|].
    exact (stored_touches _ _ _ _ _ _ _ _ _ _ _ St (each_agrees c a a C) R E1 E2).
  Qed.
  Theorem accepted_checked md a v w : settable draftsman c a -> md <> MNone -> ~ In (c, a) (undeclared ++ unguarded) ->
    (c, a) <> ("ConstantCombinator", "sections") ->
    takes draftsman check c md a v w -> exists M n strict t, declared draftsman M n = true /\ check md strict M n t v = Ok w.
  Proof.
    intros (q & F & NR) NM NU NS (q' & F' & T). rewrite F in F'. injection F' as <-.
    destruct (guard (p_set q)) as [[m n]|] eqn:G.
    - destruct T as [(E & _)|(M & M1 & M2)]; [congruence|]. destruct (declared_iff c a q m n C F G NS) as (M' & M3 & M4).
      rewrite M1 in M3. injection M3 as <-. destruct (declared draftsman M n) eqn:D.
      + destruct M2 as (st & t & M2). exists M, n, st, t. auto.
      + exfalso. apply NU. apply in_app_iff. left. apply M4. reflexivity.
    - exfalso. destruct (p_set q) eqn:S; try discriminate; [|congruence]. apply NU. apply in_app_iff. right. apply (raw_iff c a q C F). exists p. exact S.
  Qed.
End Single.

(** ** What goes wrong *)
Lemma checked_undeclared check c md strict m M target n p v t k fs : checks_cell draftsman c target n k -> names_cell draftsman c p k ->
  model_of draftsman c m = Ok M -> declared draftsman M n = false -> read t (map SAttr (fst k)) = Ok (TModel fs) ->
  exists t', checked draftsman check md strict c m target n p v t = (t', None).
Proof.
  intros (E & ->) P MM D R. unfold checked, attempt. rewrite MM, E. cbn [bind]. rewrite R. cbn [bind]. rewrite D. cbn [bind].
  destruct (write_ok t (fst k) (SAttr (snd k)) v (snd k) fs (or_introl eq_refl) R) as (t1 & W). unfold write in W. rewrite W. cbn [bind].
  destruct (write_holder t (fst k) (SAttr (snd k)) v t1 (snd k) (or_introl eq_refl) W) as (u & R1 & _ & R2). rewrite R in R1. injection R1 as <-.
  destruct (put_cell draftsman c p k v t1 P) as (s & S1 & _ & S3). rewrite S3.
  destruct (write_ok t1 (fst k) s v (snd k) (dset eqs fs (snd k) v) S1 R2) as (t2 & W2). rewrite W2. exists t2. reflexivity.
Qed.
Definition plain_late (s : setter) : bool := match s with Plain Late _ _ _ _ _ => true | _ => false end.
Definition last_attr (ss : list step) : bool := match rev ss with SAttr _ :: _ => true | _ => false end.
Lemma rows_undeclared : all_rows (fun c _ a q => negb (inb c a undeclared) || (plain_late (p_set q) && last_attr (getter draftsman c q) && negb (inb c a misread))) = true.
Proof. vm_cast_no_check (eq_refl true). Qed.
Lemma rows_unguarded : all_rows (fun c _ a q => negb (inb c a unguarded) || negb (inb c a misread)) = true.
Proof. vm_cast_no_check (eq_refl true). Qed.
Lemma list_rows : forallb (fun r => mem (fst r) entity_classes && mem (snd r) (attrs draftsman (fst r))) (undeclared ++ unguarded ++ stored_first ++ misread) = true.
Proof. vm_cast_no_check (eq_refl true). Qed.
Theorem exceptions_exist c a : In (c, a) (undeclared ++ unguarded ++ stored_first ++ misread) -> In c entity_classes /\ settable draftsman c a.
Proof.
  intros H. pose proof list_rows as R. rewrite forallb_forall in R. specialize (R _ H). cbn [fst snd] in R. apply andb_prop in R. destruct R as (R1 & R2).
  apply mem_in in R1. split; [exact R1|].
  assert (Q : forallb (fun r => match find_prop draftsman (fst r) (snd r) with Some q => negb (read_only q) | None => false end)
    (undeclared ++ unguarded ++ stored_first ++ misread) = true) by (vm_cast_no_check (eq_refl true)).
  rewrite forallb_forall in Q. specialize (Q _ H). cbn [fst snd] in Q. destruct (find_prop draftsman c a) as [q|] eqn:F; [|discriminate].
  exists q. split; [exact F|]. intros E. unfold read_only in Q. rewrite E in Q. discriminate.
Qed.
Lemma not_sections : forallb (fun r => negb (eqs (fst r) "ConstantCombinator" && eqs (snd r) "sections")) undeclared = true.
Proof. vm_cast_no_check (eq_refl true). Qed.
Lemma rows_misread : all_rows (fun c _ a q => negb (inb c a misread) ||
  (same_cell (setter_cell draftsman c (p_set q)) ([], "recipe_quality") && strings_eqb (map skey (getter draftsman c q)) ["recipe"])) = true.
Proof. vm_cast_no_check (eq_refl true). Qed.
Section Wrong.
  Variables (check : oracle) (c : cls) (a : string).
  Hypothesis C : In c entity_classes.
  Lemma undeclared_row q : find_prop draftsman c a = Some q -> In (c, a) undeclared ->
    exists m t n p1 p2 M, p_set q = Plain Late m t n p1 p2 /\ model_of draftsman c m = Ok M /\ declared draftsman M n = false /\
      last_attr (getter draftsman c q) = true /\ ~ In (c, a) misread.
  Proof.
    intros F U. pose proof (all_rows_in _ _ _ _ rows_undeclared C F) as H. cbv beta in H.
    rewrite (proj2 (inb_in c a undeclared) U) in H. cbn [negb orb] in H. apply andb_prop in H. destruct H as (H & H3).
    apply andb_prop in H. destruct H as (H1 & H2). unfold plain_late in H1. destruct (p_set q) as [e m t n p1 p2| | | |] eqn:S; try discriminate.
    destruct e; try discriminate. destruct (declared_iff c a q m n C F) as (M & M1 & M2); [rewrite S; reflexivity| |].
    - pose proof not_sections as NS. rewrite forallb_forall in NS. specialize (NS _ U). intros E. injection E as -> ->. discriminate.
    - exists m, t, n, p1, p2, M. split; [reflexivity|]. split; [exact M1|]. split; [apply M2; exact U|]. split; [exact H2|].
      intros K. apply (inb_in c a) in K. rewrite K in H3. discriminate.
  Qed.
  (** Any value at all is taken. *)
  Theorem unchecked_taken md t v k fs : In (c, a) (undeclared ++ unguarded) -> writes draftsman c a k -> read t (map SAttr (fst k)) = Ok (TModel fs) ->
    exists t', assign draftsman check c md t a v = (t', None) /\ get draftsman c a t' = Ok v.
  Proof.
    intros U Wr R. pose proof Wr as (q & F & K). apply in_app_iff in U. destruct U as [U|U].
    - destruct (undeclared_row q F U) as (m & tg & n & p1 & p2 & M & S & M1 & M2 & _ & NM). rewrite S in K. cbn [keeps] in K.
      destruct K as (K1 & K2 & K3 & _).
      assert (A : exists t', assign draftsman check c md t a v = (t', None)).
      { unfold assign. rewrite F, S. cbn [then_]. destruct (mode_bool md).
        - exact (checked_undeclared check c md false m M tg n p1 v t k fs K1 K2 M1 M2 R).
        - destruct (put_cell draftsman c p2 k v t K3) as (s & S1 & _ & S3). rewrite S3.
          destruct (write_ok t (fst k) s v (snd k) fs S1 R) as (t2 & W2). rewrite W2. exists t2. reflexivity. }
      destruct A as (t' & A). exists t'. split; [exact A|].
      destruct (accepted check c C md t a v t') as (w & T & G); [exists q; split; [exact F|rewrite S; discriminate]|exact NM|exact A|].
      assert (w = v); [|subst; exact G]. destruct T as (q' & F' & T). rewrite F in F'. injection F' as <-. rewrite S in T. cbn [guard] in T.
      destruct T as [(_ & _ & T)|(M' & T1 & T2)]; [exact T|]. rewrite M1 in T1. injection T1 as <-. rewrite M2 in T2. exact T2.
    - pose proof (proj2 (raw_iff c a q C F) U) as (p & S). rewrite S in K. cbn [keeps] in K.
      assert (A : exists t', assign draftsman check c md t a v = (t', None)).
      { unfold assign. rewrite F, S. destruct (put_cell draftsman c p k v t K) as (s & S1 & _ & S3). rewrite S3.
        destruct (write_ok t (fst k) s v (snd k) fs S1 R) as (t2 & W2). rewrite W2. exists t2. reflexivity. }
      destruct A as (t' & A). exists t'. split; [exact A|].
      destruct (accepted check c C md t a v t') as (w & T & G).
      + exists q. split; [exact F|rewrite S; discriminate].
      + pose proof (all_rows_in _ _ _ _ rows_unguarded C F) as H. cbv beta in H. rewrite (proj2 (inb_in c a unguarded) U) in H. cbn [negb orb] in H.
        intros X. apply (inb_in c a) in X. rewrite X in H. discriminate.
      + exact A.
      + destruct T as (q' & F' & T). rewrite F in F'. injection F' as <-. rewrite S in T. cbn [guard] in T. subst w. exact G.
  Qed.
  (** Reading an object that has just its declared fields. *)
  Lemma read_models way : forall t u, read t (map SAttr (map skey way)) = Ok u -> read t way = Ok u.
  Proof.
    induction way as [|s way IH]; intros t u; [exact (fun H => H)|]. cbn [map read]. destruct (child t (SAttr (skey s))) as [x|] eqn:E; cbn [bind]; [|discriminate].
    destruct (child_attr _ _ _ E) as (fs & -> & D). rewrite (child_model fs s x D). cbn [bind]. apply IH.
  Qed.
  Theorem new_read t : ~ In (c, a) misread -> new_at draftsman c a t ->
    (In (c, a) undeclared -> get draftsman c a t = Err AttributeError) /\
    (~ In (c, a) undeclared -> exists w, get draftsman c a t = Ok w).
  Proof.
    intros NM (q & m & n & M & ks & fs & F & G & MM & Wr & R & D).
    assert (S : settable draftsman c a) by (exists q; split; [exact F|intros E; rewrite E in G; discriminate]).
    destruct (own_touches c C a S NM) as (k & way & s & Wr' & Rd & E1 & E2).
    assert (k = (ks, n)). { destruct Wr as (q1 & F1 & K1), Wr' as (q2 & F2 & K2). rewrite F1 in F2. injection F2 as <-. exact (keeps_unique _ _ _ _ _ K2 K1). }
    subst k. cbn [fst snd] in *. rewrite (get_reads _ _ _ _ _ Rd). rewrite read_app. rewrite <- E1 in R. rewrite (read_models way _ _ R). cbn [bind read].
    split; intros U.
    - destruct (undeclared_row q F U) as (m' & t' & n' & p1 & p2 & M' & S1 & S2 & S3 & S4 & _). rewrite S1 in G. cbn [guard] in G. injection G as -> ->.
      rewrite MM in S2. injection S2 as <-. assert (X : dget eqs fs n = None).
      { apply (dget_none _ eqs_eq). intros X. apply D in X. congruence. }
      destruct Rd as (q' & F' & W'). rewrite F in F'. injection F' as <-. unfold getter in S4. rewrite W' in S4. unfold last_attr in S4.
      rewrite rev_app_distr in S4. cbn [rev app] in S4. destruct s as [x|x|x]; try discriminate. cbn [skey] in E2. subst x. cbn [child]. rewrite X. reflexivity.
    - assert (X : exists w, dget eqs fs (skey s) = Some w).
      { destruct (dget eqs fs (skey s)) as [w|] eqn:X; [exists w; reflexivity|]. exfalso. apply (dget_none _ eqs_eq) in X. apply X. rewrite E2. apply D.
        destruct (string_dec c "ConstantCombinator") as [Q1|Q1], (string_dec a "sections") as [Q2|Q2].
        2-4: destruct (declared_iff c a q m n C F G) as (M' & M1 & M2); [congruence|]; rewrite MM in M1; injection M1 as <-;
             destruct (declared draftsman M n); [reflexivity|exfalso; apply U; apply M2; reflexivity].
        pose proof F as F0. rewrite Q1, Q2 in F0. destruct (no_model q F0) as (m' & t' & n' & p1 & p2 & S1 & S2). rewrite S1 in G. cbn [guard] in G. injection G as -> ->.
        rewrite Q1, S2 in MM. discriminate. }
      destruct X as (w & X). exists w. rewrite (child_model fs s w X). reflexivity.
  Qed.
  (** A value that is refused, stored all the same. *)
  Theorem refused_stored md t v k fs e t' : In (c, a) stored_first -> ~ In (c, a) misread -> md <> MNone -> writes draftsman c a k ->
    read t (map SAttr (fst k)) = Ok (TModel fs) -> assign draftsman check c md t a v = (t', Some e) -> get draftsman c a t' = Ok v.
  Proof.
    intros Sf NM MD Wr R A. pose proof Wr as (q & F & K). pose proof (proj2 (hasty_iff c a q C F) Sf) as Hs.
    assert (S : settable draftsman c a) by (exists q; split; [exact F|intros E; rewrite E in Hs; exact Hs]).
    destruct (own_touches c C a S NM) as (k' & way & s & Wr' & Rd & E1 & E2).
    assert (k' = k). { destruct Wr' as (q2 & F2 & K2). rewrite F in F2. injection F2 as <-. exact (keeps_unique _ _ _ _ _ K2 K). }
    subst k'. pose proof (assign_cell draftsman check c md t a v q k F K) as H. rewrite A in H.
    assert (MB : mode_bool md = true) by (destruct md; try reflexivity; congruence).
    assert (St : stored draftsman c t a k v t').
    { unfold assign in A. rewrite F in A. destruct (p_set q) as [ey m tg n p1 p2| | | |] eqn:Sq; try (destruct Hs).
      assert (E : exists p, (ey = EarlyAlways p \/ ey = EarlyChecked p) /\ names_cell draftsman c p k).
      { cbn [keeps] in K. destruct K as (_ & _ & _ & K). destruct ey as [|p|p]; [destruct Hs| |]; exists p; auto. }
      destruct E as (p & Ep & N). destruct (put_cell draftsman c p k v t N) as (s0 & S1 & S2 & S3).
      destruct (write_ok t (fst k) s0 v (snd k) fs S1 R) as (t1 & W).
      match type of A with then_ ?x _ = _ => assert (EO : x = (t1, None)) end.
      { destruct Ep as [->| ->]; rewrite ?MB, S3, W; reflexivity. }
      rewrite EO in A. cbn [then_] in A. rewrite MB in A. cbn [keeps] in K. destruct K as (K1 & K2 & _).
      pose proof (checked_cell draftsman check c md false m tg n p1 v t1 k K1 K2) as CC. rewrite A in CC. subst t'.
      exists s0. split; [exact S1|]. split; [exact W|]. intros ->. exists q, p. split; [exact F|]. rewrite Sq.
      split; [right; destruct Ep as [->| ->]; left; reflexivity|exact S2]. }
    exact (stored_touches _ _ _ _ _ _ _ _ _ _ _ St (each_agrees c a a C) Rd E1 E2).
  Qed.
  (** A value that is accepted, but not read. *)
  Theorem misread_kept md t v : In (c, a) misread -> get draftsman c a (fst (assign draftsman check c md t a v)) = get draftsman c a t.
  Proof.
    intros Mi. destruct (find_prop draftsman c a) as [q|] eqn:F; [|unfold assign; rewrite F; reflexivity].
    pose proof (all_rows_in _ _ _ _ rows_misread C F) as H. cbv beta in H. rewrite (proj2 (inb_in c a misread) Mi) in H. cbn [negb orb] in H.
    apply andb_prop in H. destruct H as (H1 & H2). apply same_cell_eq in H1. apply strings_eqb_eq in H2.
    pose proof (setter_cell_keeps _ _ _ _ H1) as K. destruct (each_reads c a C (ex_intro _ q F)) as (ss & Rd).
    assert (SS : map skey ss = ["recipe"]). { destruct Rd as (q' & F' & W). rewrite F in F'. injection F' as <-. unfold getter in H2. rewrite W in H2. exact H2. }
    assert (X : forall w t', stored draftsman c t a ([], "recipe_quality") w t' -> get draftsman c a t' = get draftsman c a t).
    { intros w t' (s & B & W & _). rewrite !(get_reads _ _ _ _ _ Rd). apply (read_apart t [] s w t' "recipe_quality" ss B W).
      - intros way x rest -> E1 E2. apply map_eq_nil in E1. subst way. cbn [app map] in SS. rewrite E2 in SS. discriminate.
      - intros rest. rewrite SS. discriminate. }
    pose proof (assign_cell draftsman check c md t a v q _ F K) as H.
    destruct (assign draftsman check c md t a v) as [t' [e|]]; cbn [fst].
    - destruct H as [->|(_ & St)]; [reflexivity|exact (X _ _ St)].
    - destruct H as (w & _ & St). exact (X _ _ St).
  Qed.
End Wrong.
(** What cannot be set, and modes. *)
Theorem not_settable L check c md t a v : ~ settable L c a -> assign L check c md t a v = (t, Some AttributeError).
Proof.
  intros N. unfold assign. destruct (find_prop L c a) as [q|] eqn:F; [|reflexivity].
  destruct (p_set q) eqn:S; try reflexivity; exfalso; apply N; exists q; (split; [exact F|rewrite S; discriminate]).
Qed.
Theorem mode_kept L check c p s : (forall m, ~ In (SetMode m) p) -> fst (run L check c s p) = fst s.
Proof.
  unfold run. revert s. induction p as [|o p IH]; intros s N; [reflexivity|]. cbn [fold_left]. rewrite IH.
  - destruct o as [a v|m]; [reflexivity|]. destruct (N m). left. reflexivity.
  - intros m I. apply (N m). right. exact I.
Qed.
Theorem mode_last L check c p q m s : (forall n, ~ In (SetMode n) q) -> fst (run L check c s (p ++ SetMode m :: q)) = m.
Proof.
  intros N. assert (E : run L check c s (p ++ SetMode m :: q) = run L check c (m, snd (run L check c s p)) q).
  { unfold run. rewrite fold_left_app. reflexivity. }
  rewrite E, (mode_kept L check c q _ N). reflexivity.
Qed.
(** Where nothing can be checked. *)
Theorem sections_refused check md t v : md <> MNone ->
  assign draftsman check "ConstantCombinator" md t "sections" v = (t, Some AttributeError).
Proof.
  intros MD. destruct (find_prop draftsman "ConstantCombinator" "sections") as [q|] eqn:F; [|unfold assign; rewrite F; reflexivity].
  destruct (no_model q F) as (m & tg & n & p1 & p2 & S & M). unfold assign. rewrite F, S. cbn [then_].
  replace (mode_bool md) with true by (destruct md; try reflexivity; congruence). unfold checked, attempt. rewrite M. reflexivity.
Qed.
Theorem ammo_is_trunk c t : In c ["Car"; "SpiderVehicle"] -> get draftsman c "ammo_inventory" t = get draftsman c "trunk_inventory" t.
Proof.
  intros H. unfold get.
  assert (E : forallb (fun c => match find_prop draftsman c "ammo_inventory", find_prop draftsman c "trunk_inventory" with
    | Some q, Some q' => match where_ draftsman c (p_get q), where_ draftsman c (p_get q') with
                         | Ok [SAttr a], Ok [SAttr b] => eqs a b | _, _ => false end
    | _, _ => false end) ["Car"; "SpiderVehicle"] = true) by (vm_cast_no_check (eq_refl true)).
  rewrite forallb_forall in E. specialize (E c H). destruct (find_prop draftsman c "ammo_inventory") as [q|]; [|discriminate].
  destruct (find_prop draftsman c "trunk_inventory") as [q'|]; [|discriminate].
  destruct (where_ draftsman c (p_get q)) as [[|[x|x|x] [|]]|]; try discriminate.
  destruct (where_ draftsman c (p_get q')) as [[|[y|y|y] [|]]|]; try discriminate. apply eqs_eq in E. subst. reflexivity.
Qed.
