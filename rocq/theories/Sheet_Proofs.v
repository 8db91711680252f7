(** Proofs about attributes of blueprints, planners and books: single assignments. *)
From Coq Require Import ZArith String List Bool Lia.
From Verif Require Import Common Dict Version_Model Assign_Model Attr_Model Attr_Table Attr_Spec Attr_Order_Proofs Attr_Proofs.
From Verif Require Import Sheet_Model Sheet_Spec.
Import ListNotations.
Local Open Scope string_scope.
Local Open Scope list_scope.

(** ** Cells *)
Definition hard (s : step) : Prop := match s with SGet _ => False | _ => True end.
Definition spot (p : attr) : list string := map skey (holder p).
Lemma child_hard fs s : hard s -> child (TModel fs) s = child (TModel fs) (SAttr (skey s)).
Proof. destruct s; intros []; reflexivity. Qed.
Lemma update_steps ss : Forall hard ss -> forall t f u, read t (map SAttr (map skey ss)) = Ok u ->
  update t ss f = update t (map SAttr (map skey ss)) f.
Proof.
  induction 1 as [|s ss S _ IH]; intros t f u R; [reflexivity|]. cbn [map read update] in *.
  destruct (child t (SAttr (skey s))) as [x|] eqn:C; cbn [bind] in R; [|discriminate].
  destruct (child_attr _ _ _ C) as (fs & -> & D). rewrite (child_hard _ _ S), C. cbn [bind skey]. rewrite (IH _ _ _ R). reflexivity.
Qed.
Lemma read_steps ss : Forall hard ss -> forall t u, read t (map SAttr (map skey ss)) = Ok u -> read t ss = Ok u.
Proof.
  induction 1 as [|s ss S _ IH]; intros t u R; [exact R|]. cbn [map read] in *.
  destruct (child t (SAttr (skey s))) as [x|] eqn:C; cbn [bind] in R; [|discriminate].
  destruct (child_attr _ _ _ C) as (fs & -> & D). rewrite (child_hard _ _ S), C. exact (IH _ _ R).
Qed.

(** Rows of the table, with the settings of an upgrade planner. *)
Definition rows (k : sheet) : list (string * attr) :=
  attrs k ++ match k with Upgrade => [("settings", settings_attr)] | _ => [] end.
Definition spots (k : sheet) : list (list string) :=
  match k with
  | Blueprint | Book => [[]; [root k]]
  | Deconstruction | Upgrade => [[]; [root k]; [root k; "settings"]]
  end.
Definition holders_ok : bool := forallb (fun k => forallb (fun r =>
  forallb (fun s => match s with SGet _ => false | _ => true end) (holder (snd r)) &&
  existsb (fun x => if list_eq_dec string_dec x (spot (snd r)) then true else false) (spots k)) (rows k)) [Blueprint; Deconstruction; Upgrade; Book].
Lemma holders_ok_true : holders_ok = true.
Proof. vm_compute. reflexivity. Qed.
Lemma all_sheets k : In k [Blueprint; Deconstruction; Upgrade; Book].
Proof. destruct k; cbn; auto. Qed.
Lemma holder_ok k a p : In (a, p) (rows k) -> Forall hard (holder p) /\ In (spot p) (spots k).
Proof.
  intros H. pose proof holders_ok_true as T. unfold holders_ok in T. rewrite forallb_forall in T. specialize (T _ (all_sheets k)).
  rewrite forallb_forall in T. specialize (T _ H). apply andb_true_iff in T. destruct T as [T1 T2]. cbn [snd] in *. split.
  - apply Forall_forall. intros s S. rewrite forallb_forall in T1. specialize (T1 _ S). destruct s; [exact Logic.I|exact Logic.I|discriminate].
  - apply existsb_exists in T2. destruct T2 as (x & X & E). destruct (list_eq_dec string_dec x (spot p)) as [<-|]; [exact X|discriminate].
Qed.
Lemma shape_spot k t h : shape k t -> In h (spots k) -> exists fs, read t (map SAttr h) = Ok (TModel fs).
Proof.
  intros (fs & b & bs & -> & D & -> & S) H.
  assert (B : read (TModel fs) (map SAttr [root k]) = Ok (TModel bs)). { cbn [map read child]. rewrite D. reflexivity. }
  assert (C : In h [[]; [root k]] \/ (In k [Deconstruction; Upgrade] /\ h = [root k; "settings"])).
  { destruct k; cbn [spots] in H; try (left; exact H); (destruct H as [H|[H|[H|[]]]]; [left; left; exact H|left; right; left; exact H|right; split; [cbn; auto|symmetry; exact H]]). }
  destruct C as [[<-|[<-|[]]]|[K ->]]; [exists fs; reflexivity|exists bs; exact B|].
  destruct (S K) as (s & E & ss & ->). exists ss. cbn [map read child]. rewrite D. cbn [bind child]. rewrite E. reflexivity.
Qed.
(** The object that holds an attribute is a model. *)
Definition here (p : attr) (t : tree) : Prop := exists fs, read t (map SAttr (spot p)) = Ok (TModel fs).
Lemma shape_here k t a p : shape k t -> In (a, p) (rows k) -> here p t.
Proof. intros S H. destruct (holder_ok _ _ _ H) as [_ I]. exact (shape_spot _ _ _ S I). Qed.
Lemma row_holder k t a p : here p t -> In (a, p) (rows k) -> exists fs, read t (map SAttr (spot p)) = Ok (TModel fs) /\ read t (holder p) = Ok (TModel fs).
Proof.
  intros (fs & R) H. destruct (holder_ok _ _ _ H) as [F _]. exists fs. split; [exact R|exact (read_steps _ F _ _ R)].
Qed.
Lemma put_write k t a p w : here p t -> In (a, p) (rows k) -> put p w t = write t (spot p) (SItem (name p)) w.
Proof.
  intros S H. destruct (row_holder _ _ _ _ S H) as (fs & R & _). destruct (holder_ok _ _ _ H) as [F _]. exact (update_steps _ F _ _ _ R).
Qed.
Lemma item_kind n : kind n (SItem n).
Proof. right; reflexivity. Qed.
Lemma put_ok k t a p w : here p t -> In (a, p) (rows k) -> exists t', put p w t = Ok t'.
Proof.
  intros S H. rewrite (put_write _ _ _ _ _ S H). destruct (row_holder _ _ _ _ S H) as (fs & R & _). exact (write_ok _ _ _ _ _ _ (item_kind _) R).
Qed.

(** ** What is read afterwards *)
Definition strs_eqb (a b : list string) : bool := if list_eq_dec string_dec a b then true else false.
Lemma strs_eqb_eq a b : strs_eqb a b = true <-> a = b.
Proof. unfold strs_eqb. destruct (list_eq_dec string_dec a b); split; congruence. Qed.
Fixpoint starts (a b : list string) : bool :=
  match a, b with [], _ => true | x :: a', y :: b' => eqs x y && starts a' b' | _, _ => false end.
Lemma starts_app a b : starts a (a ++ b) = true.
Proof. induction a as [|x a IH]; [reflexivity|]. cbn [starts app]. rewrite eqs_refl. exact IH. Qed.
Definition cell_of (p : attr) : list string := spot p ++ [name p].
(** Getters end in the cell of the attribute, and no cell is a prefix of another. *)
Definition getters_ok : bool := forallb (fun k => forallb (fun r =>
  strs_eqb (map skey (getter (snd r))) (cell_of (snd r)) && (Nat.leb 1 (List.length (getter (snd r)))) &&
  forallb (fun r' => eqs (fst r) (fst r') || (eqs (fst r) "settings" && mem (fst r') ["description"; "icons"; "mappers"]) ||
     (eqs (fst r') "settings" && mem (fst r) ["description"; "icons"; "mappers"]) ||
     (negb (starts (cell_of (snd r)) (cell_of (snd r'))) && negb (starts (cell_of (snd r')) (cell_of (snd r))))) (rows k)) (rows k))
  [Blueprint; Deconstruction; Upgrade; Book].
Lemma getters_ok_true : getters_ok = true.
Proof. vm_compute. reflexivity. Qed.
Lemma getter_cell k a p : In (a, p) (rows k) -> map skey (getter p) = cell_of p.
Proof.
  intros H. pose proof getters_ok_true as T. unfold getters_ok in T. rewrite forallb_forall in T. specialize (T _ (all_sheets k)).
  rewrite forallb_forall in T. specialize (T _ H). apply andb_true_iff in T. destruct T as [T _]. apply andb_true_iff in T. destruct T as [T _].
  apply strs_eqb_eq. exact T.
Qed.
Definition within_settings (b : string) : bool := mem b ["description"; "icons"; "mappers"].
Lemma cells_apart k a p b q : In (a, p) (rows k) -> In (b, q) (rows k) -> a <> b ->
  ~ (a = "settings" /\ within_settings b = true) -> ~ (b = "settings" /\ within_settings a = true) ->
  starts (cell_of p) (cell_of q) = false /\ starts (cell_of q) (cell_of p) = false.
Proof.
  intros H J N N1 N2. pose proof getters_ok_true as T. unfold getters_ok in T. rewrite forallb_forall in T. specialize (T _ (all_sheets k)).
  rewrite forallb_forall in T. specialize (T _ H). apply andb_true_iff in T. destruct T as [_ T]. rewrite forallb_forall in T. specialize (T _ J).
  cbn [fst snd] in T. apply orb_true_iff in T. destruct T as [T|T].
  - exfalso. apply orb_true_iff in T. destruct T as [T|T]; [apply orb_true_iff in T; destruct T as [T|T]|].
    + apply N. apply eqs_eq. exact T.
    + apply andb_true_iff in T. destruct T as [T1 T2]. apply N1. split; [apply eqs_eq; exact T1|exact T2].
    + apply andb_true_iff in T. destruct T as [T1 T2]. apply N2. split; [apply eqs_eq; exact T1|exact T2].
  - apply andb_true_iff in T. destruct T as [T1 T2]. rewrite negb_true_iff in T1, T2. auto.
Qed.
Lemma last_split {A} (l : list A) : l = [] \/ exists i x, l = i ++ [x].
Proof. destruct l as [|y l]; [left; reflexivity|right]. exists (removelast (y :: l)), (last (y :: l) y). apply app_removelast_last. discriminate. Qed.
Lemma read_put k t a p w t' : here p t -> In (a, p) (rows k) -> put p w t = Ok t' -> read_attr p t' = Ok w.
Proof.
  intros S H P. rewrite (put_write _ _ _ _ _ S H) in P. unfold read_attr. pose proof (getter_cell _ _ _ H) as G.
  destruct (row_holder _ _ _ _ S H) as (fs & R & _).
  rewrite (write_same _ _ _ (SAttr (name p)) _ (name p) fs (item_kind _) (or_introl eq_refl) R) in P.
  destruct (last_split (getter p)) as [E|(i & x & E)]; rewrite E in G |- *.
  - unfold cell_of in G. destruct (spot p); discriminate.
  - rewrite map_app in G. cbn [map] in G. unfold cell_of in G. apply app_inj_tail in G. destruct G as [G1 G2].
    exact (read_written _ _ _ _ _ _ i x [] (or_introl eq_refl) P G1 G2 (fun B => ltac:(discriminate B))).
Qed.
Lemma read_other t h n w t' ss : write t h (SItem n) w = Ok t' ->
  starts (h ++ [n]) (map skey ss) = false -> starts (map skey ss) (h ++ [n]) = false -> read t' ss = read t ss.
Proof.
  intros P A B. apply (read_apart _ _ _ _ _ _ _ (item_kind n) P).
  - intros way x rest -> W X. rewrite map_app in A. cbn [map] in A. rewrite W, X in A. change (n :: map skey rest) with ([n] ++ map skey rest) in A.
    rewrite app_assoc, starts_app in A. discriminate A.
  - intros rest W. rewrite W, <- app_assoc, starts_app in B. discriminate B.
Qed.
Lemma get_put k t a p w t' b q : here p t -> In (a, p) (rows k) -> In (b, q) (rows k) -> put p w t = Ok t' -> a <> b ->
  ~ (a = "settings" /\ within_settings b = true) -> ~ (b = "settings" /\ within_settings a = true) ->
  read_attr q t' = read_attr q t.
Proof.
  intros S H J P N N1 N2. rewrite (put_write _ _ _ _ _ S H) in P. destruct (cells_apart _ _ _ _ _ H J N N1 N2) as [A B].
  unfold read_attr. apply (read_other _ _ _ _ _ _ P); rewrite (getter_cell _ _ _ J); assumption.
Qed.

(** ** Shapes stay *)
Lemma shape_iff k t : shape k t <-> forall h, In h (spots k) -> exists fs, read t (map SAttr h) = Ok (TModel fs).
Proof.
  split; [intros S h H; exact (shape_spot _ _ _ S H)|].
  intros H. assert (R : exists fs, t = TModel fs).
  { destruct (H []) as (fs & E); [destruct k; cbn; auto|]. exists fs. injection E as ->. reflexivity. }
  destruct R as (fs & ->).
  assert (B : exists bs, dget eqs fs (root k) = Some (TModel bs)).
  { destruct (H [root k]) as (bs & E); [destruct k; cbn; auto|]. cbn [map read child] in E. destruct (dget eqs fs (root k)) as [b|]; [|discriminate E].
    cbn [bind] in E. injection E as ->. exists bs. reflexivity. }
  destruct B as (bs & B). exists fs, (TModel bs), bs. repeat (split; [assumption || reflexivity|]).
  intros K. destruct (H [root k; "settings"]) as (ss & E); [destruct K as [<-|[<-|[]]]; cbn; auto|].
  cbn [map read child] in E. rewrite B in E. cbn [bind child] in E. destruct (dget eqs bs "settings") as [s|]; [|discriminate E].
  cbn [bind] in E. injection E as ->. exists (TModel ss). split; [reflexivity|exists ss; reflexivity].
Qed.
Lemma write_keeps_model t h n w t' h' fs : write t h (SItem n) w = Ok t' -> read t (map SAttr h') = Ok (TModel fs) ->
  starts (h ++ [n]) h' = false -> exists fs', read t' (map SAttr h') = Ok (TModel fs').
Proof.
  intros P. unfold write in P. revert t t' h' P. induction h as [|k h IH]; intros t t' h' P R A.
  - cbn [map update] in P. destruct t as [| |ts|ts]; cbn [store] in P; try discriminate P; injection P as <-.
    + destruct h' as [|x h']; [eexists; reflexivity|]. cbn [app starts] in A. rewrite andb_true_r in A.
      cbn [map read replace] in *. change (TModel (dset eqs ts n w)) with (replace (TModel ts) n w). rewrite child_other.
      * exists fs. exact R.
      * cbn [skey]. intros ->. rewrite eqs_refl in A. discriminate.
    + destruct h' as [|x h']; [discriminate R|]. discriminate R.
  - cbn [map] in P. apply update_inv in P. destruct P as (ts & u & u' & -> & D & U & ->).
    destruct h' as [|x h']; [eexists; reflexivity|]. cbn [map read app starts] in *.
    destruct (eqs k x) eqn:E.
    + apply eqs_eq in E. subst x. cbn [andb] in A. cbn [child] in *. rewrite D in R. rewrite dget_dset', eqs_refl. cbn [bind] in *.
      exact (IH _ _ _ U R A).
    + exists fs. change (TModel (dset eqs ts k u')) with (replace (TModel ts) k u'). rewrite child_other; [exact R|].
      cbn [skey]. intros ->. rewrite eqs_refl in E. discriminate.
Qed.
Definition spots_ok : bool := forallb (fun k => forallb (fun r => forallb (fun h => negb (starts (cell_of (snd r)) h)) (spots k)) (attrs k))
  [Blueprint; Deconstruction; Upgrade; Book].
Lemma spots_ok_true : spots_ok = true.
Proof. vm_compute. reflexivity. Qed.
Lemma spot_apart k a p h : In (a, p) (attrs k) -> In h (spots k) -> starts (cell_of p) h = false.
Proof.
  intros H I. pose proof spots_ok_true as T. unfold spots_ok in T. rewrite forallb_forall in T. specialize (T _ (all_sheets k)).
  rewrite forallb_forall in T. specialize (T _ H). rewrite forallb_forall in T. specialize (T _ I). rewrite negb_true_iff in T. exact T.
Qed.
Lemma rows_attrs k a p : In (a, p) (attrs k) -> In (a, p) (rows k).
Proof. intros H. apply in_or_app. left. exact H. Qed.
Lemma put_shape k t a p w t' : shape k t -> In (a, p) (attrs k) -> put p w t = Ok t' -> shape k t'.
Proof.
  intros S H P. rewrite (put_write _ _ _ _ _ (shape_here _ _ _ _ S (rows_attrs _ _ _ H)) (rows_attrs _ _ _ H)) in P. apply shape_iff. intros h I.
  destruct (shape_spot _ _ _ S I) as (fs & R). exact (write_keeps_model _ _ _ _ _ _ _ P R (spot_apart _ _ _ _ H I)).
Qed.

(** ** The table and the specification *)
Lemma dget_attrs k a p : dget eqs (attrs k) a = Some p <-> In (a, p) (attrs k).
Proof.
  split; [apply (dget_some_in _ eqs_eq)|]. intros H. destruct k; cbn [attrs] in H; cbn [In] in H;
    repeat match type of H with _ \/ _ => destruct H as [H|H] end; try contradiction; injection H as <- <-; reflexivity.
Qed.
Lemma attributes_iff k a : In a (attributes k) <-> exists p, In (a, p) (attrs k).
Proof.
  assert (E : attributes k = map fst (attrs k)) by (destruct k; reflexivity). rewrite E, in_map_iff. split.
  - intros ((b & p) & <- & H). exists p. exact H.
  - intros (p & H). exists (a, p). auto.
Qed.
Definition wayb (k : sheet) (a : string) (p : attr) : bool :=
  match how p with
  | Direct => mem a never_checked
  | Tested M => negb (mem a never_checked) && mem a (always_checked k) && eqs M (declares k a) && eqs (name p) a
  | Checked M => negb (mem a never_checked) && negb (mem a (always_checked k)) && eqs M (declares k a) && eqs (name p) a
  end &&
  match first p with
  | Vectored => mem a vectors
  | Listed => negb (mem a vectors) && mem a containers && eqs (name p) ("_" ++ a)%string
  | Orempty => negb (mem a vectors) && negb (mem a containers) && mem a plain_lists
  | Versioned => negb (mem a never_checked) && eqs a "version"
  | AsIs => negb (mem a never_checked) && negb (eqs a "version")
  end.
Lemma ways_ok : forallb (fun k => forallb (fun r => wayb k (fst r) (snd r)) (attrs k)) [Blueprint; Deconstruction; Upgrade; Book] = true.
Proof. vm_compute. reflexivity. Qed.
Lemma way_ok k a p : In (a, p) (attrs k) -> wayb k a p = true.
Proof.
  intros H. pose proof ways_ok as T. rewrite forallb_forall in T. specialize (T _ (all_sheets k)).
  rewrite forallb_forall in T. exact (T _ H).
Qed.
Lemma not_never a : mem a never_checked = false -> mem a vectors = false /\ mem a containers = false /\ mem a plain_lists = false.
Proof. unfold never_checked, mem. rewrite !existsb_app, !orb_false_iff. tauto. Qed.
Lemma prepared_becomes W k a p v x : In (a, p) (attrs k) -> (prepared W p v = Ok x <-> becomes W a v x).
Proof.
  intros H. pose proof (way_ok _ _ _ H) as T. unfold wayb in T. apply andb_true_iff in T. destruct T as [_ T].
  unfold prepared, becomes. destruct (first p).
  - apply andb_true_iff in T. destruct T as [T1 T2]. rewrite negb_true_iff in T1, T2. destruct (not_never _ T1) as (-> & -> & ->). rewrite T2.
    split; [intros E; injection E; auto|intros ->; reflexivity].
  - apply andb_true_iff in T. destruct T as [T1 T2]. rewrite negb_true_iff in T1. destruct (not_never _ T1) as (-> & -> & ->). rewrite T2.
    split; [intros E; injection E; auto|intros ->; reflexivity].
  - rewrite T. destruct v; split; try (intros E; injection E as <-; left; auto; fail); try (intros [[E ->]|[E1 E2]]; congruence); try (intros E; right; split; [discriminate|exact E]).
  - apply andb_true_iff in T. destruct T as [T T3]. apply andb_true_iff in T. destruct T as [T1 T2]. rewrite negb_true_iff in T1. rewrite T1, T2.
    apply eqs_eq in T3. rewrite T3.
    destruct v; split; try (intros E; injection E as <-; left; auto; fail); try (intros [[E ->]|[E1 E2]]; congruence); try (intros E; right; split; [discriminate|exact E]).
  - apply andb_true_iff in T. destruct T as [T T3]. apply andb_true_iff in T. destruct T as [T1 T2]. rewrite negb_true_iff in T1, T2. rewrite T1, T2, T3.
    destruct v; split; try (intros E; injection E as <-; left; auto; fail); try (intros [[E ->]|[E1 E2]]; congruence);
      try (intros E; injection E as <-; right; split; [discriminate|reflexivity]).
Qed.
(** What a setter stores. *)
Definition kept (W : world) (md : mode) (p : attr) (x t : tree) : result tree :=
  match how p with
  | Checked M => if mode_bool md then examined W md false M p x t else Ok x
  | Tested M => examined W md true M p x t
  | Direct => Ok x
  end.
Lemma examined_row W md s M k t a p x : here p t -> In (a, p) (rows k) -> examined W md s M p x t = check W md s M (name p) t x.
Proof. intros S H. destruct (row_holder _ _ _ _ S H) as (fs & _ & R). unfold examined. rewrite R. reflexivity. Qed.
Lemma kept_accepts W md k a p x t w : here p t -> In (a, p) (attrs k) -> kept W md p x t = Ok w -> accepts W k md a x w.
Proof.
  intros S H E. pose proof (way_ok _ _ _ H) as T. unfold wayb in T. apply andb_true_iff in T. destruct T as [T _].
  unfold kept in E. unfold accepts. destruct (how p) as [M|M|].
  - apply andb_true_iff in T. destruct T as [T T4]. apply andb_true_iff in T. destruct T as [T T3]. apply andb_true_iff in T. destruct T as [T1 T2].
    rewrite negb_true_iff in T1, T2. apply eqs_eq in T3. apply eqs_eq in T4. rewrite T1, T2.
    destruct md; cbn [mode_bool] in E; try (rewrite (examined_row _ _ _ _ _ _ _ _ _ S (rows_attrs _ _ _ H)) in E; rewrite T3, T4 in E; exists t; exact E).
    injection E as <-. reflexivity.
  - apply andb_true_iff in T. destruct T as [T T4]. apply andb_true_iff in T. destruct T as [T T3]. apply andb_true_iff in T. destruct T as [T1 T2].
    rewrite negb_true_iff in T1. apply eqs_eq in T3. apply eqs_eq in T4. rewrite T1, T2.
    rewrite (examined_row _ _ _ _ _ _ _ _ _ S (rows_attrs _ _ _ H)) in E. rewrite T3, T4 in E. exists t. exact E.
  - rewrite T. injection E as <-. reflexivity.
Qed.
Lemma accepts_kept W md k a p x t w : blind W -> here p t -> In (a, p) (attrs k) -> accepts W k md a x w -> kept W md p x t = Ok w.
Proof.
  intros B S H E. pose proof (way_ok _ _ _ H) as T. unfold wayb in T. apply andb_true_iff in T. destruct T as [T _].
  unfold kept. unfold accepts in E. destruct (how p) as [M|M|].
  - apply andb_true_iff in T. destruct T as [T T4]. apply andb_true_iff in T. destruct T as [T T3]. apply andb_true_iff in T. destruct T as [T1 T2].
    rewrite negb_true_iff in T1, T2. apply eqs_eq in T3. apply eqs_eq in T4. rewrite T1, T2 in E.
    destruct md; cbn [mode_bool]; try (destruct E as (o & E); rewrite (examined_row _ _ _ _ _ _ _ _ _ S (rows_attrs _ _ _ H)), T3, T4, (B _ _ _ _ t o); exact E).
    rewrite E. reflexivity.
  - apply andb_true_iff in T. destruct T as [T T4]. apply andb_true_iff in T. destruct T as [T T3]. apply andb_true_iff in T. destruct T as [T1 T2].
    rewrite negb_true_iff in T1. apply eqs_eq in T3. apply eqs_eq in T4. rewrite T1, T2 in E. destruct E as (o & E).
    rewrite (examined_row _ _ _ _ _ _ _ _ _ S (rows_attrs _ _ _ H)), T3, T4, (B _ _ _ _ t o). exact E.
  - rewrite T in E. rewrite E. reflexivity.
Qed.
Lemma set_attr_inv W md p v t t' : set_attr W md p v t = (t', None) -> exists x w, prepared W p v = Ok x /\ kept W md p x t = Ok w /\ put p w t = Ok t'.
Proof.
  unfold set_attr. destruct (prepared W p v) as [x|] eqn:X; cbn [bind done]; [|discriminate]. fold (kept W md p x t).
  destruct (kept W md p x t) as [w|] eqn:K; cbn [bind done]; [|discriminate]. destruct (put p w t) as [u|] eqn:P; cbn [done]; [|discriminate].
  intros E. injection E as <-. exists x, w. auto.
Qed.
Lemma set_attr_err W md p v t t' e : set_attr W md p v t = (t', Some e) -> t' = t.
Proof. unfold set_attr, done. match goal with |- context[match ?r with Ok _ => _ | Err _ => _ end] => destruct r end; intros E; [discriminate E|injection E; auto]. Qed.

(** ** Assignments *)
Theorem assign_refused W k md t a v t' e : assign W k md t a v = (t', Some e) -> t' = t.
Proof. unfold assign. destruct (dget eqs (attrs k) a); [apply set_attr_err|]. intros E. injection E; auto. Qed.
Theorem assign_foreign W k md t a v : ~ In a (attributes k) -> assign W k md t a v = (t, Some AttributeError) /\ get k a t = Err AttributeError.
Proof.
  intros N. unfold assign, get. destruct (dget eqs (attrs k) a) as [p|] eqn:E; [|auto]. exfalso. apply N. apply attributes_iff. exists p. apply dget_attrs. exact E.
Qed.
Lemma assign_row W k md t a v t' : assign W k md t a v = (t', None) -> exists p, In (a, p) (attrs k) /\ set_attr W md p v t = (t', None).
Proof. unfold assign. destruct (dget eqs (attrs k) a) as [p|] eqn:E; [|discriminate]. intros H. exists p. split; [apply dget_attrs; exact E|exact H]. Qed.
Lemma get_row k a p t : In (a, p) (attrs k) -> get k a t = read_attr p t.
Proof. intros H. unfold get. apply dget_attrs in H. rewrite H. reflexivity. Qed.
Lemma no_settings k : ~ In "settings" (attributes k).
Proof. destruct k; cbn; intuition discriminate. Qed.
Lemma attr_not_settings k a p : In (a, p) (attrs k) -> a <> "settings".
Proof. intros H ->. apply (no_settings k). apply attributes_iff. exists p. exact H. Qed.
Theorem assign_accepted W k md t a v t' : shape k t -> assign W k md t a v = (t', None) ->
  shape k t' /\ (exists w, takes W k md a v w /\ get k a t' = Ok w) /\ forall b, b <> a -> get k b t' = get k b t.
Proof.
  intros S E. destruct (assign_row _ _ _ _ _ _ _ E) as (p & H & X). destruct (set_attr_inv _ _ _ _ _ _ X) as (x & w & P & K & U).
  split; [exact (put_shape _ _ _ _ _ _ S H U)|]. pose proof (shape_here _ _ _ _ S (rows_attrs _ _ _ H)) as S0. clear S. rename S0 into S. split.
  - exists w. split; [exists x; split; [exact (proj1 (prepared_becomes _ _ _ _ _ _ H) P)|exact (kept_accepts _ _ _ _ _ _ _ _ S H K)]|].
    rewrite (get_row _ _ _ _ H). exact (read_put _ _ _ _ _ _ S (rows_attrs _ _ _ H) U).
  - intros b N. destruct (in_dec string_dec b (attributes k)) as [J|J].
    + apply attributes_iff in J. destruct J as (q & J). rewrite !(get_row _ _ _ _ J).
      apply (get_put _ _ _ _ _ _ _ _ S (rows_attrs _ _ _ H) (rows_attrs _ _ _ J) U); [congruence| |]; intros [Q _].
      * exact (attr_not_settings _ _ _ H Q).
      * exact (attr_not_settings _ _ _ J Q).
    + rewrite (proj2 (assign_foreign W k md t' b v J)), (proj2 (assign_foreign W k md t b v J)). reflexivity.
Qed.
Theorem assign_succeeds W k md t a v w : blind W -> shape k t -> In a (attributes k) -> takes W k md a v w ->
  exists t', assign W k md t a v = (t', None) /\ get k a t' = Ok w.
Proof.
  intros B S J (x & X & A). apply attributes_iff in J. destruct J as (p & H). unfold assign. rewrite (proj2 (dget_attrs _ _ _) H).
  unfold set_attr. rewrite (proj2 (prepared_becomes _ _ _ _ _ _ H) X). cbn [bind]. fold (kept W md p x t).
  pose proof (shape_here _ _ _ _ S (rows_attrs _ _ _ H)) as S0. clear S. rename S0 into S.
  rewrite (accepts_kept _ _ _ _ _ _ _ _ B S H A). cbn [bind]. destruct (put_ok _ _ _ _ w S (rows_attrs _ _ _ H)) as (t' & U). rewrite U.
  exists t'. split; [reflexivity|]. rewrite (get_row _ _ _ _ H). exact (read_put _ _ _ _ _ _ S (rows_attrs _ _ _ H) U).
Qed.
(** With checks that do not look at the object, an attribute takes at most one value. *)
Theorem takes_unique W k md a v w w' : blind W -> takes W k md a v w -> takes W k md a v w' -> w = w'.
Proof.
  intros B (x & X & A) (x' & X' & A').
  assert (x' = x) as ->.
  { unfold becomes in *. destruct (mem a vectors); [|destruct (mem a containers); [|destruct (mem a plain_lists); [|destruct (eqs a "version")]]];
      try (destruct X as [[? ?]|[? ?]], X' as [[? ?]|[? ?]]; congruence); congruence. }
  unfold accepts in *. destruct (mem a never_checked); [congruence|]. destruct (mem a (always_checked k)).
  - destruct A as (o & A), A' as (o' & A'). rewrite (B _ _ _ _ o o') in A. congruence.
  - destruct md; try congruence; destruct A as (o & A), A' as (o' & A'); rewrite (B _ _ _ _ o o') in A; congruence.
Qed.

(** ** Programs *)
Theorem run_shape W k p s : shape k (snd s) -> shape k (snd (run W k s p)).
Proof.
  unfold run. revert s. induction p as [|o p IH]; intros s S; [exact S|]. cbn [fold_left]. apply IH. destruct o as [a v|m]; cbn [exec snd]; [|exact S].
  destruct (assign W k (fst s) (snd s) a v) as [t' [e|]] eqn:E; cbn [fst].
  - rewrite (assign_refused _ _ _ _ _ _ _ _ E). exact S.
  - exact (proj1 (assign_accepted _ _ _ _ _ _ _ S E)).
Qed.
Theorem run_other W k p s b : shape k (snd s) -> (forall v, ~ In (Assign b v) p) -> get k b (snd (run W k s p)) = get k b (snd s).
Proof.
  unfold run. revert s. induction p as [|o p IH]; intros s S N; [reflexivity|]. cbn [fold_left].
  assert (N' : forall v, ~ In (Assign b v) p) by (intros v I; apply (N v); right; exact I).
  destruct o as [a v|m]; cbn [exec]; [|exact (IH (m, snd s) S N')].
  destruct (assign W k (fst s) (snd s) a v) as [t' [e|]] eqn:E; cbn [fst].
  - rewrite (assign_refused _ _ _ _ _ _ _ _ E). exact (IH (fst s, snd s) S N').
  - destruct (assign_accepted _ _ _ _ _ _ _ S E) as (S' & _ & O). rewrite (IH (fst s, t') S' N'). cbn [snd]. apply O. intros ->. apply (N v). left. reflexivity.
Qed.
(** The last assignment that was accepted decides. *)
Theorem run_last W k s p a v q : shape k (snd s) -> (forall u, ~ In (Assign a u) q) ->
  snd (assign W k (fst (run W k s p)) (snd (run W k s p)) a v) = None ->
  exists w, takes W k (fst (run W k s p)) a v w /\ get k a (snd (run W k s (p ++ Assign a v :: q))) = Ok w.
Proof.
  intros S N E.
  assert (R : run W k s (p ++ Assign a v :: q) = run W k (exec W k (run W k s p) (Assign a v)) q) by (unfold run; rewrite fold_left_app; reflexivity).
  rewrite R. clear R. set (s1 := run W k s p) in *.
  assert (S1 : shape k (snd s1)) by (exact (run_shape _ _ _ _ S)). cbn [exec].
  destruct (assign W k (fst s1) (snd s1) a v) as [t' e] eqn:A. cbn [snd] in E. subst e.
  destruct (assign_accepted _ _ _ _ _ _ _ S1 A) as (S2 & (w & T & G) & _). exists w. split; [exact T|].
  cbn [fst]. rewrite run_other; [exact G|exact S2|exact N].
Qed.
