(** Proofs about adding groups, subgroups and items. *)
From Coq Require Import ZArith List Bool String Lia.
From Verif Require Import Common Dict Shelf_Model Stock_Model Stock_Spec.
Import ListNotations.
Local Open Scope string_scope.
Local Open Scope list_scope.

Lemma sget {V} d k (v : V) k' : dget pystr_eqb (dset pystr_eqb d k v) k' = if pystr_eqb k k' then Some v else dget pystr_eqb d k'.
Proof. apply dget_dset. exact pystr_eqb_eq. Qed.
Lemma nth_replace {A} (l : list A) : forall k v j, nth_error (replace_nth l k v) j =
  if Nat.eqb j k then (if Nat.ltb k (List.length l) then Some v else None) else nth_error l j.
Proof.
  induction l as [|x l IH]; intros [|k] v [|j]; cbn; try reflexivity.
  - destruct (Nat.eqb j k); reflexivity.
  - rewrite IH. reflexivity.
Qed.
Lemma length_replace {A} (l : list A) : forall k v, List.length (replace_nth l k v) = List.length l.
Proof. induction l as [|x l IH]; intros [|k] v; cbn; auto. Qed.
Lemma append_spec {A} (boxes : list (box A)) k v :
  match append boxes k v with
  | Some b => List.length b = List.length boxes /\
      (exists l, nth_error boxes k = Some (BList l) /\ nth_error b k = Some (BList (l ++ [v]))) /\
      (forall j, j <> k -> nth_error b j = nth_error boxes j)
  | None => nth_error boxes k = None \/ exists d, nth_error boxes k = Some (BDict d)
  end.
Proof.
  unfold append. destruct (nth_error boxes k) as [[l|d]|] eqn:E.
  - split; [apply length_replace|]. split.
    + exists l. split; [reflexivity|]. rewrite nth_replace, Nat.eqb_refl.
      assert (k < List.length boxes) by (apply nth_error_Some; congruence). destruct (Nat.ltb_spec k (List.length boxes)); [reflexivity|lia].
    + intros j N. rewrite nth_replace. destruct (Nat.eqb_spec j k); [contradiction|reflexivity].
  - right. exists d. reflexivity.
  - left. reflexivity.
Qed.
Lemma str_neq a b : pystr_eqb a b = false -> a <> b.
Proof. intros E F. subst. rewrite pystr_eqb_refl in E. discriminate. Qed.
Lemma neq_str a b : a <> b -> pystr_eqb a b = false.
Proof. intros N. destruct (pystr_eqb a b) eqn:E; [|reflexivity]. apply pystr_eqb_eq in E. contradiction. Qed.

(** ** Items. *)
Lemma made_eq s name stack order subgroup :
  mkTh name (Some stack) (Some (order_for s name order))
    (Some match dget pystr_eqb (raw s) name with Some t => match th_sub t with Some x => x | None => subgroup end | None => subgroup end) =
  made s name stack order subgroup.
Proof. unfold made, order_for. destruct (dget pystr_eqb (raw s) name) as [[n k [o|] [b|]]|]; reflexivity. Qed.
Lemma add_item_spec s name stack order subgroup : sound s ->
  let (s', e) := add_item s name stack order subgroup in
  let new := made s name stack order subgroup in
  let sub := kept_or (th_sub new) [] in
  match e with
  | None => items_of s sub <> None /\ ~ closed_sub s sub /\
      (forall n, dget pystr_eqb (raw s') n = if pystr_eqb name n then Some new else dget pystr_eqb (raw s) n) /\
      (forall b, b = sub \/ default_sub s b /\ default_sub s sub -> items_of s' b = option_map (fun l => l ++ [new]) (items_of s b)) /\
      (forall b, b <> sub -> ~ (default_sub s b /\ default_sub s sub) -> items_of s' b = items_of s b) /\
      same_subs s s'
  | Some TypeError => dget pystr_eqb (subgroups s) sub = None /\ s' = s
  | Some AttributeError => closed_sub s sub /\
      (forall n, dget pystr_eqb (raw s') n = if pystr_eqb name n then Some new else dget pystr_eqb (raw s) n) /\
      item_boxes s' = item_boxes s /\ same_subs s s'
  | Some _ => False
  end.
Proof.
  intros (_ & _ & R & Q & _). unfold add_item. rewrite made_eq. set (new := made s name stack order subgroup).
  replace (match dget pystr_eqb (raw s) name with Some t => match th_sub t with Some x => x | None => subgroup end | None => subgroup end)
    with (kept_or (th_sub new) []) by (unfold new; rewrite <- made_eq; reflexivity).
  cbn zeta. set (sub := kept_or (th_sub new) []). clearbody sub new.
  destruct (dget pystr_eqb (subgroups s) sub) as [r|] eqn:E; [|split; reflexivity].
  pose proof (append_spec (item_boxes s) (sr_box r) new) as A. destruct (append (item_boxes s) (sr_box r) new) as [b|].
  - destruct A as (L & (l & N & N') & O).
    split; [unfold items_of; rewrite E; cbn; rewrite N; discriminate|].
    split; [intros (r' & d & F & G); rewrite E in F; injection F as <-; congruence|].
    split; [intros n; apply sget|]. split; [|split; [|repeat split]].
    + intros b' H. unfold items_of. cbn [subgroups item_boxes]. destruct (dget pystr_eqb (subgroups s) b') as [r'|] eqn:F; [|reflexivity]. cbn.
      assert (sr_box r' = sr_box r) as ->.
      { destruct H as [->|[(r1 & H1 & Z1) (r2 & H2 & Z2)]]; congruence. }
      rewrite N, N'. reflexivity.
    + intros b' D1 D2. unfold items_of. cbn [subgroups item_boxes]. destruct (dget pystr_eqb (subgroups s) b') as [r'|] eqn:F; [|reflexivity]. cbn.
      rewrite O; [reflexivity|]. intros X. destruct (Q _ _ _ _ F E X) as [->|Z]; [contradiction|].
      apply D2. split; [exists r'; split; assumption|exists r; split; [exact E|congruence]].
  - split; [|split; [intros n; apply sget|repeat split]].
    destruct A as [A|(d & A)]; [|exists r, d; split; assumption]. apply nth_error_None in A. specialize (R _ _ E). lia.
Qed.
Lemma stack_known s name :
  (forall k, get_stack_size s name = Ok (Some k) <-> exists t, dget pystr_eqb (raw s) name = Some t /\ th_stack t = Some k) /\
  (get_stack_size s name = Ok None <-> dget pystr_eqb (raw s) name = None) /\
  (forall e, get_stack_size s name = Err e -> e = KeyError /\ exists t, dget pystr_eqb (raw s) name = Some t /\ th_stack t = None).
Proof.
  unfold get_stack_size. destruct (dget pystr_eqb (raw s) name) as [t|] eqn:D.
  - destruct (th_stack t) as [n|] eqn:T.
    + split; [|split; [split; discriminate|discriminate]]. intros k. split; [intros X; injection X as <-; eauto|intros (t' & X & Y); congruence].
    + split; [|split; [split; discriminate|]]. { intros k. split; [discriminate|intros (t' & X & Y); congruence]. }
      intros e X. injection X as <-. eauto.
  - split; [|split; [split; reflexivity|discriminate]]. intros k. split; [discriminate|intros (t & X & _); discriminate].
Qed.
Lemma stack_spec s name stack order subgroup : sound s ->
  let (s', e) := add_item s name stack order subgroup in
  e <> Some TypeError -> get_stack_size s' name = Ok (Some stack) /\ forall n, n <> name -> get_stack_size s' n = get_stack_size s n.
Proof.
  intros S. pose proof (add_item_spec s name stack order subgroup S) as H. destruct (add_item s name stack order subgroup) as [s' e].
  cbn zeta in H. intros N.
  assert (R : forall n, dget pystr_eqb (raw s') n = if pystr_eqb name n then Some (made s name stack order subgroup) else dget pystr_eqb (raw s) n).
  { destruct e as [[]|]; try (exfalso; exact H); [exfalso; apply N; reflexivity|apply H|apply H]. }
  unfold get_stack_size. rewrite (R name), pystr_eqb_refl. split; [reflexivity|]. intros n D. rewrite (R n), neq_str by congruence. reflexivity.
Qed.

(** ** Subgroups. *)
Lemma order_for_eq s name order : order_for s name order = kept_or (obind (dget pystr_eqb (raw s) name) th_order) order.
Proof. unfold order_for. destruct (dget pystr_eqb (raw s) name) as [[n k [o|] b]|]; reflexivity. Qed.
Lemma box_app {A} (l : list (box A)) x k : k < List.length l -> nth_error (l ++ [x]) k = nth_error l k.
Proof. intros H. apply nth_error_app1. exact H. Qed.
Lemma box_new {A} (l : list (box A)) x : nth_error (l ++ [x]) (List.length l) = Some x.
Proof. rewrite nth_error_app2 by lia. rewrite Nat.sub_diag. reflexivity. Qed.
Lemma add_subgroup_spec s name group items order : sound s ->
  let (s', e) := add_subgroup s name group items order in
  match e with
  | Some TypeError => dget pystr_eqb (groups s) group = None /\ s' = s
  | Some AttributeError => closed_group s group /\ sub_boxes s' = sub_boxes s
  | Some _ => False
  | None => ~ closed_group s group /\ exists r, dget pystr_eqb (subgroups s') name = Some r /\
      (forall g, g = group \/ default_group s g /\ default_group s group -> subs_of s' g = option_map (fun l => l ++ [r]) (subs_of s g)) /\
      (forall g, g <> group -> ~ (default_group s g /\ default_group s group) -> subs_of s' g = subs_of s g)
  end /\
  (e <> Some TypeError -> raw s' = raw s /\ groups s' = groups s /\
     (exists r, dget pystr_eqb (subgroups s') name = Some r /\ sr_name r = name /\ sr_order r = Some (kept_or (obind (dget pystr_eqb (raw s) name) th_order) order)) /\
     items_of s' name = holds s items /\ (default_sub s' name <-> items = None) /\
     (forall n, n <> name -> items_of s' n = items_of s n /\ dget pystr_eqb (subgroups s') n = dget pystr_eqb (subgroups s) n)).
Proof.
  intros (Rg & Qg & R & Q & (l0 & Z) & _). unfold add_subgroup. destruct (dget pystr_eqb (groups s) group) as [g|] eqn:G.
  2: { split; [split; reflexivity|]. intros N. congruence. }
  set (k := match items with None => 0 | Some _ => List.length (item_boxes s) end).
  set (boxes := match items with None => item_boxes s | Some l => item_boxes s ++ [BList l] end).
  set (new := mkSr name _ k).
  assert (Common : forall b, let s' := mkShop (raw s) (dset pystr_eqb (subgroups s) name new) (groups s) boxes b in
    raw s' = raw s /\ groups s' = groups s /\
     (exists r, dget pystr_eqb (subgroups s') name = Some r /\ sr_name r = name /\ sr_order r = Some (kept_or (obind (dget pystr_eqb (raw s) name) th_order) order)) /\
     items_of s' name = holds s items /\ (default_sub s' name <-> items = None) /\
     (forall n, n <> name -> items_of s' n = items_of s n /\ dget pystr_eqb (subgroups s') n = dget pystr_eqb (subgroups s) n)).
  { intros b. cbn zeta. split; [reflexivity|]. split; [reflexivity|]. split; [|split; [|split]].
    - exists new. cbn [subgroups]. rewrite sget, pystr_eqb_refl. split; [reflexivity|]. split; [reflexivity|]. unfold new. cbn [sr_order]. rewrite order_for_eq. reflexivity.
    - unfold items_of. cbn [subgroups item_boxes]. rewrite sget, pystr_eqb_refl. cbn [obind new sr_box]. unfold k, boxes, holds. destruct items as [l|].
      + rewrite box_new. reflexivity.
      + reflexivity.
    - unfold default_sub. cbn [subgroups]. rewrite sget, pystr_eqb_refl. unfold new, k. split.
      + intros (r & F & B). injection F as <-. cbn in B. destruct items; [|reflexivity].
        assert (0 < List.length (item_boxes s)) by (apply nth_error_Some; congruence). lia.
      + intros ->. eexists. split; reflexivity.
    - intros n N. unfold items_of. cbn [subgroups item_boxes]. rewrite sget, (neq_str name n) by congruence. split; [|reflexivity].
      destruct (dget pystr_eqb (subgroups s) n) as [r|] eqn:E; [|reflexivity]. cbn. unfold boxes. destruct items; [|reflexivity].
      rewrite box_app; [reflexivity|]. exact (R _ _ E). }
  pose proof (append_spec (sub_boxes s) (gr_box g) new) as A. destruct (append (sub_boxes s) (gr_box g) new) as [b|].
  - destruct A as (L & (l & N & N') & O). split; [|intros _; apply Common].
    split; [intros (g' & d & F & X); congruence|]. exists new. split; [cbn [subgroups]; rewrite sget, pystr_eqb_refl; reflexivity|]. split.
    + intros g' H. unfold subs_of. cbn [groups sub_boxes]. destruct (dget pystr_eqb (groups s) g') as [r'|] eqn:F; [|reflexivity]. cbn.
      assert (gr_box r' = gr_box g) as ->.
      { destruct H as [->|[(r1 & H1 & Z1) (r2 & H2 & Z2)]]; congruence. }
      rewrite N, N'. reflexivity.
    + intros g' D1 D2. unfold subs_of. cbn [groups sub_boxes]. destruct (dget pystr_eqb (groups s) g') as [r'|] eqn:F; [|reflexivity]. cbn.
      rewrite O; [reflexivity|]. intros X. destruct (Qg _ _ _ _ F G X) as [->|Z']; [contradiction|].
      apply D2. split; [exists r'; split; assumption|exists g; split; [exact G|congruence]].
  - split; [|intros _; apply Common]. split; [|reflexivity].
    destruct A as [A|(d & A)]; [|exists g, d; split; assumption]. apply nth_error_None in A. specialize (Rg _ _ G). lia.
Qed.

(** ** Groups. *)
Lemma add_group_spec s name order subs : sound s ->
  let s' := add_group s name order subs in
  raw s' = raw s /\ subgroups s' = subgroups s /\ item_boxes s' = item_boxes s /\
  subs_of s' name = (match subs with Some l => Some l | None => option_map values (nth_error (sub_boxes s) 0) end) /\
  (exists r, dget pystr_eqb (groups s') name = Some r /\ gr_name r = name /\ gr_order r = Some (kept_or (obind (dget pystr_eqb (raw s) name) th_order) order)) /\
  (default_group s' name <-> subs = None) /\ ~ closed_group s' name /\
  (forall g, g <> name -> subs_of s' g = subs_of s g /\ dget pystr_eqb (groups s') g = dget pystr_eqb (groups s) g).
Proof.
  intros (Rg & Qg & R & Q & _ & (l0 & Z)). cbn zeta. unfold add_group. set (k := match subs with None => 0 | Some _ => List.length (sub_boxes s) end).
  repeat (split; [reflexivity|]). assert (P : 0 < List.length (sub_boxes s)) by (apply nth_error_Some; congruence). split; [|split; [|split; [|split]]].
  - unfold subs_of. cbn [groups sub_boxes]. rewrite sget, pystr_eqb_refl. cbn [obind gr_box]. unfold k. destruct subs as [l|]; [rewrite box_new|]; reflexivity.
  - eexists. cbn [groups]. rewrite sget, pystr_eqb_refl. split; [reflexivity|]. split; [reflexivity|]. cbn [gr_order]. rewrite order_for_eq. reflexivity.
  - unfold default_group. cbn [groups]. rewrite sget, pystr_eqb_refl. unfold k. split.
    + intros (r & F & B). injection F as <-. cbn in B. destruct subs; [lia|reflexivity].
    + intros ->. eexists. split; reflexivity.
  - intros (r & d & F & N). cbn [groups sub_boxes] in F, N. rewrite sget, pystr_eqb_refl in F. injection F as <-. cbn [gr_box] in N. unfold k in N.
    destruct subs as [l|]; [rewrite box_new in N; discriminate|congruence].
  - intros g N. unfold subs_of. cbn [groups sub_boxes]. rewrite sget, (neq_str name g) by congruence. split; [|reflexivity].
    destruct (dget pystr_eqb (groups s) g) as [r|] eqn:E; [|reflexivity]. cbn. destruct subs; [|reflexivity].
    rewrite box_app; [reflexivity|]. exact (Rg _ _ E).
Qed.

(** ** Soundness is kept by every operation. *)
Lemma sound_group s name order subs : sound s -> sound (add_group s name order subs).
Proof.
  intros (Rg & Qg & R & Q & Zi & Zs). unfold add_group. set (k := match subs with None => 0 | Some _ => List.length (sub_boxes s) end).
  assert (P : 0 < List.length (sub_boxes s)) by (destruct Zs as (l & Z); apply nth_error_Some; congruence).
  assert (L : forall x, x < List.length (sub_boxes s) -> x < List.length (match subs with None => sub_boxes s | Some l => sub_boxes s ++ [BList l] end)).
  { intros x H. destruct subs; [rewrite app_length; cbn; lia|exact H]. }
  repeat split; cbn [raw subgroups groups item_boxes sub_boxes]; try assumption.
  - intros g r. rewrite sget. destruct (pystr_eqb name g).
    + intros F. injection F as <-. cbn. unfold k. destruct subs; [rewrite app_length; cbn; lia|exact P].
    + intros F. apply L. exact (Rg _ _ F).
  - intros g h r q. rewrite !sget. destruct (pystr_eqb name g) eqn:X, (pystr_eqb name h) eqn:Y.
    + apply pystr_eqb_eq in X, Y. intros _ _ _. left. congruence.
    + intros F G E. injection F as <-. cbn in *. specialize (Rg _ _ G). unfold k in *. destruct subs; [lia|right; reflexivity].
    + intros F G E. injection G as <-. cbn in *. specialize (Rg _ _ F). unfold k in *. destruct subs; [lia|right; exact E].
    + apply Qg.
  - destruct Zs as (l & Z). exists l. destruct subs; [rewrite box_app by exact P|]; exact Z.
Qed.
Lemma sound_sub s name group items order : sound s -> sound (fst (add_subgroup s name group items order)).
Proof.
  intros S. pose proof S as (Rg & Qg & R & Q & Zi & Zs). unfold add_subgroup. destruct (dget pystr_eqb (groups s) group) as [g|] eqn:G; [|exact S].
  set (k := match items with None => 0 | Some _ => List.length (item_boxes s) end).
  set (boxes := match items with None => item_boxes s | Some l => item_boxes s ++ [BList l] end).
  set (new := mkSr name _ k).
  assert (P : 0 < List.length (item_boxes s)) by (destruct Zi as (l & Z); apply nth_error_Some; congruence).
  assert (L : forall x, x < List.length (item_boxes s) -> x < List.length boxes).
  { intros x H. unfold boxes. destruct items; [rewrite app_length; cbn; lia|exact H]. }
  assert (X : forall b, List.length b = List.length (sub_boxes s) -> (exists l, nth_error b 0 = Some (BList l)) ->
    sound (mkShop (raw s) (dset pystr_eqb (subgroups s) name new) (groups s) boxes b)).
  { intros b LB ZB. repeat split; cbn [raw subgroups groups item_boxes sub_boxes]; try assumption.
    - intros g' r F. rewrite LB. exact (Rg _ _ F).
    - intros n r. rewrite sget. destruct (pystr_eqb name n).
      + intros F. injection F as <-. cbn. unfold k, boxes. destruct items; [rewrite app_length; cbn; lia|exact P].
      + intros F. apply L. exact (R _ _ F).
    - intros n m r q. rewrite !sget. destruct (pystr_eqb name n) eqn:X, (pystr_eqb name m) eqn:Y.
      + apply pystr_eqb_eq in X, Y. intros _ _ _. left. congruence.
      + intros F H E. injection F as <-. cbn in *. specialize (R _ _ H). unfold k in *. destruct items; [lia|right; reflexivity].
      + intros F H E. injection H as <-. cbn in *. specialize (R _ _ F). unfold k in *. destruct items; [lia|right; exact E].
      + apply Q.
    - destruct Zi as (l & Z). exists l. unfold boxes. destruct items; [rewrite box_app by exact P|]; exact Z. }
  pose proof (append_spec (sub_boxes s) (gr_box g) new) as A. destruct (append (sub_boxes s) (gr_box g) new) as [b|]; cbn [fst].
  - destruct A as (LB & (l & N & N') & O). apply X; [exact LB|]. destruct (Nat.eq_dec 0 (gr_box g)) as [E|E].
    + rewrite E. exists (l ++ [new]). exact N'.
    + rewrite (O 0 E). exact Zs.
  - apply X; [reflexivity|exact Zs].
Qed.
Lemma sound_item s name stack order subgroup : sound s -> sound (fst (add_item s name stack order subgroup)).
Proof.
  intros S. pose proof S as (Rg & Qg & R & Q & Zi & Zs). unfold add_item. set (new := mkTh _ _ _ _). clearbody new.
  destruct (dget pystr_eqb (subgroups s) _) as [r|]; [|exact S].
  pose proof (append_spec (item_boxes s) (sr_box r) new) as A. destruct (append (item_boxes s) (sr_box r) new) as [b|]; cbn [fst].
  - destruct A as (LB & (l & N & N') & O). repeat split; cbn [raw subgroups groups item_boxes sub_boxes]; try assumption.
    + intros n r' F. rewrite LB. exact (R _ _ F).
    + destruct (Nat.eq_dec 0 (sr_box r)) as [E|E].
      * rewrite E. exists (l ++ [new]). exact N'.
      * rewrite (O 0 E). exact Zi.
  - repeat split; assumption.
Qed.
Lemma sound_step s o : sound s -> sound (fst (step s o)).
Proof. destruct o; cbn [step fst]; [apply sound_group|apply sound_sub|apply sound_item]. Qed.
Lemma sound_run l : forall s, sound s -> sound (run l s).
Proof. induction l as [|o l IH]; intros s S; [exact S|]. cbn. apply IH. apply sound_step. exact S. Qed.

(** ** Closed things stay closed. *)
Lemma closed_sub_step s o n : sound s -> closed_sub s n -> ~ renames_sub n o -> closed_sub (fst (step s o)) n.
Proof.
  intros (_ & _ & R & _) (r & d & E & B) H. destruct o as [m o l|m g l o|m k o b]; cbn [step fst].
  - exists r, d. split; assumption.
  - cbn in H. unfold add_subgroup. destruct (dget pystr_eqb (groups s) g) as [q|]; [|exists r, d; split; assumption].
    set (new := mkSr _ _ _). assert (X : dget pystr_eqb (dset pystr_eqb (subgroups s) m new) n = Some r) by (rewrite sget, neq_str by exact H; exact E).
    assert (Y : nth_error (match l with None => item_boxes s | Some x => item_boxes s ++ [BList x] end) (sr_box r) = Some (BDict d)).
    { destruct l; [rewrite box_app by exact (R _ _ E)|]; exact B. }
    destruct (append (sub_boxes s) (gr_box q) new); cbn [fst]; exists r, d; split; assumption.
  - unfold add_item. set (new := mkTh _ _ _ _). clearbody new. set (key := match dget pystr_eqb (raw s) m with Some _ => _ | None => _ end). destruct (dget pystr_eqb (subgroups s) key) as [q|]; [|exists r, d; split; assumption].
    pose proof (append_spec (item_boxes s) (sr_box q) new) as A. destruct (append (item_boxes s) (sr_box q) new); cbn [fst]; [|exists r, d; split; assumption].
    exists r, d. split; [exact E|]. cbn [item_boxes]. destruct A as (_ & (l1 & N & _) & O). rewrite O; [exact B|]. intros F. rewrite F in B. congruence.
Qed.
Lemma closed_group_step s o n : sound s -> closed_group s n -> ~ renames_group n o -> closed_group (fst (step s o)) n.
Proof.
  intros (R & _) (r & d & E & B) H. destruct o as [m o l|m g l o|m k o b]; cbn [step fst].
  - cbn in H. exists r, d. unfold add_group. cbn [groups sub_boxes]. split; [rewrite sget, neq_str by exact H; exact E|].
    destruct l; [rewrite box_app by exact (R _ _ E)|]; exact B.
  - unfold add_subgroup. destruct (dget pystr_eqb (groups s) g) as [q|]; [|exists r, d; split; assumption]. set (new := mkSr _ _ _). clearbody new.
    pose proof (append_spec (sub_boxes s) (gr_box q) new) as A. destruct (append (sub_boxes s) (gr_box q) new); cbn [fst]; [|exists r, d; split; assumption].
    exists r, d. split; [exact E|]. cbn [sub_boxes]. destruct A as (_ & (l1 & N & _) & O). rewrite O; [exact B|]. intros F. rewrite F in B. congruence.
  - unfold add_item. set (key := match dget pystr_eqb (raw s) m with Some _ => match th_sub _ with Some _ => _ | None => _ end | None => b end). destruct (dget pystr_eqb (subgroups s) key) as [q|]; [|exists r, d; split; assumption].
    destruct (append (item_boxes s) (sr_box q) _); exists r, d; split; assumption.
Qed.
Lemma closed_sub_run l n : forall s, sound s -> closed_sub s n -> Forall (fun o => ~ renames_sub n o) l -> closed_sub (run l s) n.
Proof.
  induction l as [|o l IH]; intros s S C F; [exact C|]. inversion F; subst. cbn.
  apply IH; [apply sound_step; exact S| |assumption]. apply closed_sub_step; assumption.
Qed.
Lemma closed_group_run l n : forall s, sound s -> closed_group s n -> Forall (fun o => ~ renames_group n o) l -> closed_group (run l s) n.
Proof.
  induction l as [|o l IH]; intros s S C F; [exact C|]. inversion F; subst. cbn.
  apply IH; [apply sound_step; exact S| |assumption]. apply closed_group_step; assumption.
Qed.

(** ** The game's data. *)
Lemma number_nth {A} (l : list A) : forall k j x, In (j, x) (number k l) -> k <= j /\ nth_error l (j - k) = Some x.
Proof.
  induction l as [|y l IH]; intros k j x I; [destruct I|]. cbn in I. destruct I as [E|I].
  - injection E as <- <-. split; [lia|]. rewrite Nat.sub_diag. reflexivity.
  - apply IH in I as [L N]. split; [lia|]. replace (j - k) with (S (j - S k)) by lia. exact N.
Qed.
Lemma number_fst {A} (l : list A) : forall k, map snd (number k l) = l.
Proof. induction l as [|y l IH]; intros k; cbn; [reflexivity|]. rewrite IH. reflexivity. Qed.
Lemma map_nth {A B} (f : A -> B) l j x : nth_error l j = Some x -> nth_error (map f l) j = Some (f x).
Proof. intros E. rewrite nth_error_map, E. reflexivity. Qed.
Lemma stocked_sub stack sh n r : dget pystr_eqb (subgroups (stocked stack sh)) n = Some r ->
  exists j p, sr_box r = S j /\ nth_error (o_subs sh) j = Some (n, p).
Proof.
  intros E. apply (dget_some_in pystr_eqb pystr_eqb_eq) in E. unfold stocked in E. cbn [subgroups] in E.
  apply in_map_iff in E as ([k [m [s d]]] & F & I). injection F as <- <-. apply number_nth in I as [L N].
  exists (k - 1), (s, d). split; [cbn; lia|exact N].
Qed.
Lemma stocked_group stack sh n r : dget pystr_eqb (groups (stocked stack sh)) n = Some r ->
  exists j p, gr_box r = S j /\ nth_error (o_groups sh) j = Some (n, p).
Proof.
  intros E. apply (dget_some_in pystr_eqb pystr_eqb_eq) in E. unfold stocked in E. cbn [groups] in E.
  apply in_map_iff in E as ([k [m [s d]]] & F & I). injection F as <- <-. apply number_nth in I as [L N].
  exists (k - 1), (s, d). split; [cbn; lia|exact N].
Qed.
Lemma stocked_closed_sub stack sh n : dget pystr_eqb (subgroups (stocked stack sh)) n <> None -> closed_sub (stocked stack sh) n.
Proof.
  intros N. destruct (dget pystr_eqb (subgroups (stocked stack sh)) n) as [r|] eqn:E; [|congruence].
  destruct (stocked_sub _ _ _ _ E) as (j & p & B & X). eexists r, _. split; [exact E|]. rewrite B. unfold stocked. cbn [item_boxes nth_error].
  eapply eq_trans; [exact (map_nth _ _ _ _ X)|reflexivity].
Qed.
Lemma stocked_closed_group stack sh n : dget pystr_eqb (groups (stocked stack sh)) n <> None -> closed_group (stocked stack sh) n.
Proof.
  intros N. destruct (dget pystr_eqb (groups (stocked stack sh)) n) as [r|] eqn:E; [|congruence].
  destruct (stocked_group _ _ _ _ E) as (j & p & B & X). eexists r, _. split; [exact E|]. rewrite B. unfold stocked. cbn [sub_boxes nth_error].
  eapply eq_trans; [exact (map_nth _ _ _ _ X)|reflexivity].
Qed.
Lemma stocked_sound stack sh : sound (stocked stack sh).
Proof.
  repeat split.
  - intros g r E. destruct (stocked_group _ _ _ _ E) as (j & p & B & X). rewrite B. unfold stocked. cbn [sub_boxes List.length]. rewrite map_length.
    assert (L : j < List.length (o_groups sh)) by (apply nth_error_Some; congruence). exact (proj1 (Nat.succ_lt_mono _ _) L).
  - intros g h r q E F B. left. destruct (stocked_group _ _ _ _ E) as (j & p & B1 & X1). destruct (stocked_group _ _ _ _ F) as (j' & p' & B2 & X2).
    assert (j = j') as <- by lia. congruence.
  - intros g r E. destruct (stocked_sub _ _ _ _ E) as (j & p & B & X). rewrite B. unfold stocked. cbn [item_boxes List.length]. rewrite map_length.
    assert (L : j < List.length (o_subs sh)) by (apply nth_error_Some; congruence). exact (proj1 (Nat.succ_lt_mono _ _) L).
  - intros g h r q E F B. left. destruct (stocked_sub _ _ _ _ E) as (j & p & B1 & X1). destruct (stocked_sub _ _ _ _ F) as (j' & p' & B2 & X2).
    assert (j = j') as <- by lia. congruence.
  - exists []. reflexivity.
  - exists []. reflexivity.
Qed.
(** A subgroup of the data takes no item, a group no subgroup, whatever is done
    before (except making it anew). *)
Lemma data_sub_refuses stack sh l b name k order : dget pystr_eqb (subgroups (stocked stack sh)) b <> None ->
  Forall (fun o => ~ renames_sub b o) l ->
  let s := run l (stocked stack sh) in dget pystr_eqb (raw s) name = None ->
  let (s', e) := add_item s name k order b in
  e = Some AttributeError /\ get_stack_size s' name = Ok (Some k) /\ forall b', items_of s' b' = items_of s b'.
Proof.
  intros K F. cbn zeta. set (s := run l (stocked stack sh)). intros N.
  assert (S : sound s) by (apply sound_run, stocked_sound).
  assert (C : closed_sub s b) by (apply closed_sub_run; [apply stocked_sound|apply stocked_closed_sub; exact K|exact F]).
  pose proof (add_item_spec s name k order b S) as H. pose proof (stack_spec s name k order b S) as Z.
  assert (M : made s name k order b = mkTh name (Some k) (Some order) (Some b)) by (unfold made; rewrite N; reflexivity).
  destruct (add_item s name k order b) as [s' e]. cbn zeta in H. rewrite M in H. cbn [th_sub kept_or] in H.
  destruct e as [[]|]; try (exfalso; exact H).
  - destruct H as [H _]. destruct C as (r & d & E & _). congruence.
  - split; [reflexivity|]. split; [apply Z; discriminate|]. destruct H as (_ & R & B & (G1 & _)).
    intros b'. unfold items_of. rewrite G1, B. reflexivity.
  - destruct H as (_ & H & _). contradiction.
Qed.
Lemma data_group_refuses stack sh l g name items order : dget pystr_eqb (groups (stocked stack sh)) g <> None ->
  Forall (fun o => ~ renames_group g o) l ->
  let s := run l (stocked stack sh) in
  let (s', e) := add_subgroup s name g items order in
  e = Some AttributeError /\ items_of s' name = holds s items /\ forall g', subs_of s' g' = subs_of s g'.
Proof.
  intros K F. cbn zeta. set (s := run l (stocked stack sh)).
  assert (S : sound s) by (apply sound_run, stocked_sound).
  assert (C : closed_group s g) by (apply closed_group_run; [apply stocked_sound|apply stocked_closed_group; exact K|exact F]).
  pose proof (add_subgroup_spec s name g items order S) as H. destruct (add_subgroup s name g items order) as [s' e]. destruct H as [H1 H2].
  destruct e as [[]|]; try (exfalso; exact H1).
  - destruct H1 as [H1 _]. destruct C as (r & d & E & _). congruence.
  - split; [reflexivity|]. destruct (H2 ltac:(discriminate)) as (_ & G & _ & I & _). split; [exact I|]. intros g'. unfold subs_of. rewrite G, (proj2 H1). reflexivity.
  - destruct H1 as [H1 _]. contradiction.
Qed.

(** ** Whatever is made with the default list shows the same contents. *)
Lemma shared_subs s n m : default_sub s n -> default_sub s m -> items_of s n = items_of s m.
Proof. intros (r & E & B) (q & F & C). unfold items_of. rewrite E, F. cbn. rewrite B, C. reflexivity. Qed.
Lemma shared_groups s n m : default_group s n -> default_group s m -> subs_of s n = subs_of s m.
Proof. intros (r & E & B) (q & F & C). unfold subs_of. rewrite E, F. cbn. rewrite B, C. reflexivity. Qed.

(** ** Every item is found on its shelf. *)
Lemma shelved_step s o : sound s -> shelved s -> snd (step s o) = None -> ~ remakes_sub o s -> shelved (fst (step s o)).
Proof.
  intros S H N R. destruct o as [m o l|m g l o|m k o b].
  - cbn [step fst]. destruct (add_group_spec s m o l S) as (R1 & R2 & R3 & _). intros n t E. rewrite R1 in E.
    destruct (H _ _ E) as (b & x & A & B & C). exists b, x. split; [exact A|]. split; [|exact C]. unfold items_of. rewrite R2, R3. exact B.
  - cbn [step] in *. pose proof (add_subgroup_spec s m g l o S) as X. destruct (add_subgroup s m g l o) as [s' e]. cbn [fst snd] in *. subst e.
    destruct X as [_ X]. destruct (X ltac:(discriminate)) as (R1 & _ & _ & _ & _ & R2). intros n t E. rewrite R1 in E.
    destruct (H _ _ E) as (b & x & A & B & C). exists b, x. split; [exact A|]. split; [|exact C]. rewrite (proj1 (R2 b ltac:(intros ->; apply R; unfold items_of in B; cbn; destruct (dget pystr_eqb (subgroups s) m); discriminate))). exact B.
  - cbn [step] in *. pose proof (add_item_spec s m k o b S) as X. destruct (add_item s m k o b) as [s' e]. cbn [fst snd] in *. subst e. cbn zeta in X.
    set (new := made s m k o b) in *. assert (T : th_sub new = Some (kept_or (th_sub new) [])) by reflexivity. set (sub := kept_or (th_sub new) []) in *. clearbody new sub.
    destruct X as (X1 & _ & X2 & X3 & X4 & _).
    assert (M : forall b' x t, items_of s b' = Some x -> In t x -> exists x', items_of s' b' = Some x' /\ In t x').
    { intros b' x t B C. destruct (pystr_eq_dec b' sub) as [E|E].
      - rewrite (X3 b' (or_introl E)), B. eexists. split; [reflexivity|]. apply in_or_app. left. exact C.
      - assert (D : forall z, {default_sub s z} + {~ default_sub s z}).
        { intros z. unfold default_sub. destruct (dget pystr_eqb (subgroups s) z) as [r|].
          - destruct (Nat.eq_dec (sr_box r) 0) as [Y|Y]; [left; exists r; split; [reflexivity|exact Y]|right; intros (q & F & G); injection F as <-; contradiction].
          - right. intros (q & F & G). discriminate. }
        destruct (D b') as [D1|D1], (D sub) as [D2|D2]; try (exists x; rewrite X4; [split; assumption|exact E|tauto]).
        rewrite (X3 b' (or_intror (conj D1 D2))), B. eexists. split; [reflexivity|]. apply in_or_app. left. exact C. }
    intros n t E. rewrite X2 in E. destruct (pystr_eqb m n).
    + injection E as <-. exists sub. rewrite (X3 sub (or_introl eq_refl)). destruct (items_of s sub) as [x|]; [|congruence].
      eexists. split; [exact T|]. split; [reflexivity|]. apply in_or_app. right. left. reflexivity.
    + destruct (H _ _ E) as (b' & x & A & B & C). destruct (M _ _ _ B C) as (x' & B' & C'). exists b', x'. repeat split; assumption.
Qed.

(** ** What goes wrong. *)
Lemma empty_sound : sound empty.
Proof. repeat split; try (intros; discriminate); exists []; reflexivity. Qed.
Lemma empty_shelved : shelved empty.
Proof. intros n t E. discriminate. Qed.
(** An item added twice keeps its first record on the shelf. *)
Lemma stale : exists l t t', items_of (run twice empty) (str "s") = Some l /\ In t l /\ In t' l /\ th_name t = th_name t' /\ t <> t' /\
  dget pystr_eqb (raw (run twice empty)) (th_name t) = Some t'.
Proof.
  exists [mkTh (str "x") (Some 50%Z) (Some []) (Some (str "s")); mkTh (str "x") (Some 100%Z) (Some []) (Some (str "s"))], (mkTh (str "x") (Some 50%Z) (Some []) (Some (str "s"))), (mkTh (str "x") (Some 100%Z) (Some []) (Some (str "s"))).
  split; [vm_compute; reflexivity|]. split; [left; reflexivity|]. split; [right; left; reflexivity|]. split; [reflexivity|]. split; [discriminate|vm_compute; reflexivity].
Qed.
(** Asking for another subgroup moves nothing: an item stays in the subgroup it had. *)
Lemma stays s name k order b t b0 : sound s -> dget pystr_eqb (raw s) name = Some t -> th_sub t = Some b0 ->
  forall t', dget pystr_eqb (raw (fst (add_item s name k order b))) name = Some t' -> th_sub t' = Some b0.
Proof.
  intros S E T t' F. pose proof (add_item_spec s name k order b S) as H. destruct (add_item s name k order b) as [s' e]. cbn [fst] in F. cbn zeta in H.
  assert (M : th_sub (made s name k order b) = Some b0) by (unfold made; rewrite E; cbn; rewrite T; reflexivity).
  destruct e as [[]|]; try (exfalso; exact H).
  - destruct H as [_ ->]. congruence.
  - destruct H as (_ & H & _). rewrite H, pystr_eqb_refl in F. injection F as <-. exact M.
  - destruct H as (_ & _ & H & _). rewrite H, pystr_eqb_refl in F. injection F as <-. exact M.
Qed.
(** Two subgroups made without a list of items. *)
Lemma mixed_up : exists l t, items_of (run mixed empty) (str "b") = Some l /\ In t l /\ th_sub t = Some (str "a") /\ str "a" <> str "b".
Proof.
  exists [mkTh (str "x") (Some 50%Z) (Some []) (Some (str "a"))], (mkTh (str "x") (Some 50%Z) (Some []) (Some (str "a"))).
  split; [vm_compute; reflexivity|]. split; [left; reflexivity|]. split; [reflexivity|discriminate].
Qed.
(** Making a subgroup anew loses its items. *)
Lemma lost_item : shelved (run (removelast lost) empty) /\ ~ shelved (run lost empty).
Proof.
  split.
  - intros n t E. exists (str "s"), [mkTh (str "x") (Some 50%Z) (Some []) (Some (str "s"))].
    assert (F : raw (run (removelast lost) empty) = [(str "x", mkTh (str "x") (Some 50%Z) (Some []) (Some (str "s")))]) by reflexivity.
    rewrite F in E. unfold dget in E. destruct (pystr_eqb (str "x") n); [|discriminate].
    injection E as <-. split; [reflexivity|]. split; [reflexivity|]. left. reflexivity.
  - intros H. destruct (H (str "x") (mkTh (str "x") (Some 50%Z) (Some []) (Some (str "s"))) eq_refl) as (b & l & E & I & J).
    injection E as <-. assert (K : items_of (run lost empty) (str "s") = Some []) by reflexivity. rewrite K in I. injection I as <-. destruct J.
Qed.
