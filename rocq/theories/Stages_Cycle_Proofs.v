(** The whole load process, and what the phases leave behind. *)
From Coq Require Import ZArith NArith String List Bool Lia.
From Verif Require Import Common Dict Stages_Model Stages_Spec Stages_Proofs Stages_Phase_Proofs.
Import ListNotations.
Local Open Scope string_scope.
Local Open Scope list_scope.

Lemma named_plan_app : forall a b order, named_plan (a ++ b) order = named_plan a order ++ named_plan b order.
Proof. intros. unfold named_plan, plan. rewrite flat_map_app, map_app. reflexivity. Qed.

Lemma began_app : forall a b, began (a ++ b) = began a ++ began b.
Proof. intros. unfold began. apply flat_map_app. Qed.

Section Cycle.
  Variables (mods : list (pystr * amod)) (files : pystr -> option chunk) (same : amod -> amod -> bool).

  Theorem lifecycle_order : rooted mods -> forall fuel base order s s' r,
    lifecycle mods files same fuel base order s = (s', r) ->
    exists evs, out s' = out s ++ evs /\ (exists k, began evs = firstn k (named_plan six order)) /\
      (r = None -> began evs = named_plan six order).
  Proof.
    intros R fuel base order s s' r. unfold lifecycle.
    change six with (SETTINGS ++ DATA). rewrite named_plan_app.
    destruct (run_stages mods files same fuel base false SETTINGS order s) as [u x] eqn:E1.
    destruct (stages_order _ _ _ R _ _ _ _ _ _ _ _ E1) as (e1 & O1 & (k1 & K1) & N1 & _).
    fold (named_plan SETTINGS order) in K1, N1.
    destruct x as [e|].
    { intros E. injection E as <- <-. exists e1. split; [exact O1|]. split; [|discriminate].
      exists (Nat.min k1 (List.length (named_plan SETTINGS order))). rewrite firstn_app, K1.
      replace (Nat.min k1 (List.length (named_plan SETTINGS order)) - List.length (named_plan SETTINGS order))%nat with O by lia.
      rewrite firstn_O, app_nil_r. apply Nat.min_case_strong; intros L; [reflexivity|].
      rewrite firstn_all. apply firstn_all2. exact L. }
    specialize (N1 eq_refl).
    destruct (require mods files same fuel (str "compatibility.serpent") u) as [v y] eqn:E2.
    destruct (require_grows _ _ _ _ _ _ _ _ E2) as (e2 & O2 & F2 & _).
    destruct (inner_began _ F2) as (B2 & _).
    destruct y as [w|e].
    2: { intros E. injection E as <- <-. exists (e1 ++ e2). split; [rewrite O2, O1, app_assoc; reflexivity|]. split; [|discriminate].
      exists (List.length (named_plan SETTINGS order)). rewrite began_app, N1, B2, app_nil_r, firstn_app, firstn_all, Nat.sub_diag, firstn_O, app_nil_r. reflexivity. }
    intros E3. destruct (stages_order _ _ _ R _ _ _ _ _ _ _ _ E3) as (e3 & O3 & (k3 & K3) & N3 & _).
    fold (named_plan DATA order) in K3, N3.
    exists (e1 ++ e2 ++ e3). split; [rewrite O3, O2, O1, !app_assoc; reflexivity|]. rewrite !began_app, N1, B2. split.
    - exists (List.length (named_plan SETTINGS order) + k3)%nat. rewrite firstn_app_2, K3. reflexivity.
    - intros X. rewrite (N3 X). reflexivity.
  Qed.

  (** Data phases by themselves: what is loaded in between only reaches the first. *)
  Theorem lifecycle_alone : rooted mods -> forall fuel base order s s',
    lifecycle mods files same fuel base order s = (s', None) ->
    exists e1 u v e2 e3,
      require mods files same fuel (str "compatibility.serpent") u = (v, Ok e2) /\
      one_by_one (run_mod_phase mods files same fuel) base (loaded s) (plan (firstn 3 six) order) e1 None /\
      out u = out s ++ e1 /\
      one_by_one (run_mod_phase mods files same fuel) base (loaded v) (plan (skipn 3 six) order) e3 None /\
      out s' = out v ++ e3.
  Proof.
    intros R fuel base order s s'. unfold lifecycle.
    destruct (run_stages mods files same fuel base false SETTINGS order s) as [u [e|]] eqn:E1; [discriminate|].
    destruct (require mods files same fuel (str "compatibility.serpent") u) as [v [w|e]] eqn:E2; [|discriminate].
    intros E3. destruct (stages_ones _ _ _ R _ _ _ _ _ _ _ _ E1) as (e1 & O1 & H1).
    destruct (stages_ones _ _ _ R _ _ _ _ _ _ _ _ E3) as (e3 & O3 & H3).
    exists e1, u, v, w, e3. auto.
  Qed.

  (** ** What is left *)
  Lemma mods_left : forall fuel base stage order s s',
    run_mods mods files same fuel base true stage order s = (s', None) ->
    (filter (fun m => existsb (pystr_eqb stage) (m_stages m)) order = [] /\ tree s' = tree s /\ dir s' = dir s /\ loaded s' = loaded s) \/ wiped s'.
  Proof.
    intros fuel base stage. induction order as [|m order IH]; intros s s'; cbn [run_mods filter].
    { intros E. injection E as <-. left. auto. }
    unfold mem. destruct (existsb (pystr_eqb stage) (m_stages m)).
    - destruct (run_mod_phase mods files same fuel m stage (set_path base s)) as [u [e|]]; [discriminate|].
      cbv zeta iota. intros E. right. destruct (IH _ _ E) as [(_ & T & D & L)|W]; [|exact W].
      unfold wiped. rewrite T, D, L. repeat split.
    - intros E. destruct (IH _ _ E) as [(F & T & D & L)|W]; [left; auto|right; exact W].
  Qed.

  Theorem data_left : forall fuel base stages order s s',
    run_stages mods files same fuel base true stages order s = (s', None) -> plan stages order <> [] -> wiped s'.
  Proof.
    intros fuel base stages order s s' E N.
    assert (G : (plan stages order = [] /\ tree s' = tree s /\ dir s' = dir s /\ loaded s' = loaded s) \/ wiped s').
    { clear N. revert s s' E. induction stages as [|stage stages IH]; intros s s'; cbn [run_stages plan flat_map].
      - intros E. injection E as <-. left. auto.
      - destruct (run_mods mods files same fuel base true stage order s) as [u [e|]] eqn:M; [discriminate|].
        intros E. destruct (mods_left _ _ _ _ _ _ M) as [(F & T & D & L)|(T & D & L)];
          destruct (IH _ _ E) as [(P & T' & D' & L')|W]; try (right; exact W).
        + left. rewrite F. cbn [map app]. split; [exact P|]. split; [congruence|]. split; congruence.
        + right. unfold wiped. rewrite T', D', L'. auto. }
    destruct G as [(P & _)|W]; [destruct (N P)|exact W].
  Qed.

  Theorem lifecycle_left : forall fuel base order s s',
    lifecycle mods files same fuel base order s = (s', None) -> plan (skipn 3 six) order <> [] -> wiped s'.
  Proof.
    intros fuel base order s s'. unfold lifecycle.
    destruct (run_stages mods files same fuel base false SETTINGS order s) as [u [e|]]; [discriminate|].
    destruct (require mods files same fuel (str "compatibility.serpent") u) as [v [w|e]]; [|discriminate].
    intros E N. eapply data_left; [exact E|exact N].
  Qed.

  (** The settings phases leave their mods in the tree. *)
  Lemma phase_tree : rooted mods -> forall fuel m stage s s', run_mod_phase mods files same fuel m stage s = (s', None) ->
    exists more, tree s' = more ++ m :: tree s.
  Proof.
    intros R fuel m stage s s' E.
    unfold run_mod_phase in E. destruct (m_archive m); [discriminate|].
    destruct (files (in_dir (m_location m) stage)) as [c|]; [|discriminate].
    assert (H : alike (begun m stage s) (begun m stage s)).
    { unfold alike. repeat (split; [reflexivity|]). exists m, (tree s), (tree s). auto. }
    destruct (run_steady _ (require_steady mods files same R fuel) c _ _ _ _ _ _ H E E) as [_ (_ & _ & _ & _ & _ & ext & _ & _ & T & _)].
    exists ext. exact T.
  Qed.

  Lemma piled_app : forall l1 l2 b t u, piled l1 b t -> piled l2 t u -> piled (l1 ++ l2) b u.
  Proof.
    induction l1 as [|m l1 IH]; cbn [piled app]; intros l2 b t u H1 H2; [subst; exact H2|].
    destruct H1 as (more & H1). exists more. eapply IH; eassumption.
  Qed.
  Lemma mods_piled : rooted mods -> forall fuel base stage order s s',
    run_mods mods files same fuel base false stage order s = (s', None) ->
    piled (map fst (part stage order)) (tree s) (tree s').
  Proof.
    intros R fuel base stage. induction order as [|m order IH]; intros s s'; cbn [run_mods].
    { intros E. injection E as <-. reflexivity. }
    unfold mem, part. cbn [filter]. destruct (existsb (pystr_eqb stage) (m_stages m)); [|intros E; exact (IH (set_path base s) _ E)].
    destruct (run_mod_phase mods files same fuel m stage (set_path base s)) as [u [e|]] eqn:P; [discriminate|].
    cbv zeta. intros E. destruct (phase_tree R _ _ _ _ _ P) as (more & T). cbn [map piled fst].
    exists more. specialize (IH _ _ E). cbn [unload_cache set_loaded tree] in IH. rewrite T in IH. exact IH.
  Qed.
  Theorem settings_piled : rooted mods -> forall fuel base stages order s s',
    run_stages mods files same fuel base false stages order s = (s', None) ->
    piled (map fst (plan stages order)) (tree s) (tree s').
  Proof.
    intros R fuel base stages order. induction stages as [|stage stages IH]; intros s s'; cbn [run_stages plan flat_map].
    { intros E. injection E as <-. reflexivity. }
    destruct (run_mods mods files same fuel base false stage order s) as [u [e|]] eqn:M; [discriminate|].
    intros E. rewrite map_app. eapply piled_app; [exact (mods_piled R _ _ _ _ _ _ M)|exact (IH _ _ E)].
  Qed.
End Cycle.
