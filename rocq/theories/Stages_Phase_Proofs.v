(** Phases: each by itself, in order. *)
From Coq Require Import ZArith NArith String List Bool Lia.
From Verif Require Import Common Dict Stages_Model Stages_Spec Stages_Proofs.
Import ListNotations.
Local Open Scope string_scope.
Local Open Scope list_scope.

Section Phase.
  Variables (mods : list (pystr * amod)) (files : pystr -> option chunk) (same : amod -> amod -> bool).
  Hypothesis rooted_w : rooted mods.

  (** ** Two states alike but for what is below the tree *)
  Definition alike (s1 s2 : st) : Prop :=
    path s1 = path s2 /\ dir s1 = dir s2 /\ cur s1 = cur s2 /\ loaded s1 = loaded s2 /\
    exists m r1 r2, tree s1 = m :: r1 /\ tree s2 = m :: r2.
  Definition moved (s1 s2 s1' s2' : st) : Prop :=
    path s1' = path s2' /\ dir s1' = dir s2' /\ cur s1' = cur s2' /\ loaded s1' = loaded s2' /\
    exists evs ext, out s1' = out s1 ++ evs /\ out s2' = out s2 ++ evs /\ tree s1' = ext ++ tree s1 /\ tree s2' = ext ++ tree s2.
  Lemma moved_alike : forall s1 s2 s1' s2', alike s1 s2 -> moved s1 s2 s1' s2' -> alike s1' s2'.
  Proof.
    intros s1 s2 s1' s2' (_ & _ & _ & _ & m & r1 & r2 & T1 & T2) (P & D & C & L & evs & ext & _ & _ & E1 & E2).
    repeat (split; [assumption|]). destruct ext as [|x ext].
    - exists m, r1, r2. rewrite E1, E2. auto.
    - exists x, (ext ++ tree s1), (ext ++ tree s2). auto.
  Qed.
  Lemma moved_trans : forall s1 s2 t1 t2 u1 u2, moved s1 s2 t1 t2 -> moved t1 t2 u1 u2 -> moved s1 s2 u1 u2.
  Proof.
    intros s1 s2 t1 t2 u1 u2 (_ & _ & _ & _ & ev & ex & O1 & O2 & E1 & E2) (P & D & C & L & ev' & ex' & O1' & O2' & E1' & E2').
    repeat (split; [assumption|]). exists (ev ++ ev'), (ex' ++ ex). rewrite O1', O2', E1', E2', O1, O2, E1, E2, !app_assoc. auto.
  Qed.
  Lemma moved_same : forall s1 s2 s1' s2' evs, path s1' = path s2' -> dir s1' = dir s2' -> cur s1' = cur s2' -> loaded s1' = loaded s2' ->
    out s1' = out s1 ++ evs -> out s2' = out s2 ++ evs -> tree s1' = tree s1 -> tree s2' = tree s2 -> moved s1 s2 s1' s2'.
  Proof. intros. repeat (split; [assumption|]). exists evs, []. auto. Qed.
  Lemma say_moved : forall e s1 s2, alike s1 s2 -> moved s1 s2 (say e s1) (say e s2).
  Proof. intros e s1 s2 (P & D & C & L & _). apply moved_same with (evs := [e]); auto. Qed.

  Definition steady {R} (f : st -> st * R) : Prop :=
    forall s1 s2 s1' s2' r1 r2, alike s1 s2 -> f s1 = (s1', r1) -> f s2 = (s2', r2) -> r1 = r2 /\ moved s1 s2 s1' s2'.
  Lemma run_steady : forall req, (forall n, steady (req n)) -> forall c, steady (run req c).
  Proof.
    intros req H. induction c as [|x c IH]; intros s1 s2 s1' s2' r1 r2 A; cbn [run].
    { intros E1 E2. injection E1 as <- <-. injection E2 as <- <-. split; [reflexivity|]. pose proof A as (P & D & C & L & _).
      apply moved_same with (evs := []); auto; rewrite app_nil_r; reflexivity. }
    assert (G : forall e u1 u2 q1 q2 x1 x2, alike u1 u2 -> run req c (say e u1) = (q1, x1) -> run req c (say e u2) = (q2, x2) -> x1 = x2 /\ moved u1 u2 q1 q2).
    { intros e u1 u2 q1 q2 x1 x2 B E1 E2. pose proof (say_moved e u1 u2 B) as M.
      destruct (IH _ _ _ _ _ _ (moved_alike _ _ _ _ B M) E1 E2) as [-> M']. split; [reflexivity|]. eapply moved_trans; eassumption. }
    destruct x as [k|n|n]; [apply G; exact A| |];
      destruct (req n s1) as [u1 [v1|e1]] eqn:Q1; destruct (req n s2) as [u2 [v2|e2]] eqn:Q2;
      destruct (H n _ _ _ _ _ _ A Q1 Q2) as [X M]; try discriminate X; injection X as ->; intros E1 E2.
    - destruct (G _ _ _ _ _ _ _ (moved_alike _ _ _ _ A M) E1 E2) as [-> M']. split; [reflexivity|]. eapply moved_trans; eassumption.
    - injection E1 as <- <-. injection E2 as <- <-. auto.
    - destruct (G _ _ _ _ _ _ _ (moved_alike _ _ _ _ A M) E1 E2) as [-> M']. split; [reflexivity|]. eapply moved_trans; eassumption.
    - destruct (G _ _ _ _ _ _ _ (moved_alike _ _ _ _ A M) E1 E2) as [-> M']. split; [reflexivity|]. eapply moved_trans; eassumption.
  Qed.
  Lemma search_alike : forall name s1 s2, alike s1 s2 -> search mods files name s1 = search mods files name s2.
  Proof. intros name s1 s2 (P & _ & _ & _ & m & r1 & r2 & T1 & T2). unfold search. rewrite T1, T2, P. reflexivity. Qed.
  Lemma old_steady : forall req, (forall n, steady (req n)) -> forall name, steady (old_require mods files req name).
  Proof.
    intros req H name s1 s2 s1' s2' r1 r2 A. unfold old_require. pose proof A as (P & D & C & L & _). rewrite (search_alike name _ _ A), L.
    destruct (dget pystr_eqb (loaded s2) name) as [v|].
    { intros E1 E2. injection E1 as <- <-. injection E2 as <- <-. split; [reflexivity|]. apply moved_same with (evs := []); auto; rewrite app_nil_r; reflexivity. }
    destruct (search mods files name s2) as [[v|f c]|e].
    - intros E1 E2. injection E1 as <- <-. injection E2 as <- <-. split; [reflexivity|].
      apply moved_same with (evs := []); auto; try (cbn; rewrite app_nil_r; reflexivity). cbn. rewrite L. reflexivity.
    - pose proof (say_moved (Loads name f) s1 s2 A) as M.
      destruct (run req c (say (Loads name f) s1)) as [u1 x1] eqn:E1. destruct (run req c (say (Loads name f) s2)) as [u2 x2] eqn:E2.
      destruct (run_steady req H c _ _ _ _ _ _ (moved_alike _ _ _ _ A M) E1 E2) as [-> M'].
      pose proof (moved_trans _ _ _ _ _ _ M M') as MM. pose proof MM as (P' & D' & C' & L' & _).
      destruct x2 as [e|]; intros F1 F2; injection F1 as <- <-; injection F2 as <- <-; split; try reflexivity; [exact MM|].
      eapply moved_trans; [exact MM|]. apply moved_same with (evs := []); auto; try (cbn; rewrite app_nil_r; reflexivity). cbn. rewrite L'. reflexivity.
    - intros E1 E2. injection E1 as <- <-. injection E2 as <- <-. split; [reflexivity|]. apply moved_same with (evs := []); auto; rewrite app_nil_r; reflexivity.
  Qed.
  Lemma enter_alike : forall norm b s1 s2 s1' s2' r1 r2, (b = true -> exists p, get_parent norm = Some p) -> alike s1 s2 ->
    enter norm b s1 = (s1', r1) -> enter norm b s2 = (s2', r2) ->
    r1 = r2 /\ path s1' = path s2' /\ dir s1' = dir s2' /\ cur s1' = cur s2' /\ loaded s1' = loaded s2' /\
    out s1' = out s1 /\ out s2' = out s2 /\ tree s1' = tree s1 /\ tree s2' = tree s2.
  Proof.
    intros norm b s1 s2 s1' s2' r1 r2 B (P & D & C & L & _). unfold enter. rewrite D, C. destruct (get_parent norm) as [p|].
    - destruct b; [|destruct (dir s2) eqn:DD]; intros E1 E2; injection E1 as <- <-; injection E2 as <- <-; cbn; rewrite ?P, ?D, ?C, ?L; repeat split; congruence.
    - destruct b; [destruct (B eq_refl) as (p & X); discriminate X|]. cbn [set_with with_path]. intros E1 E2; injection E1 as <- <-; injection E2 as <- <-; cbn; rewrite ?P, ?D, ?C, ?L; repeat split; congruence.
  Qed.
  Lemma require_steady : forall fuel name, steady (require mods files same fuel name).
  Proof.
    induction fuel as [|fuel IH]; intros name s1 s2 s1' s2' r1 r2 A; cbn [require].
    { intros E1 E2. injection E1 as <- <-. injection E2 as <- <-. split; [reflexivity|]. pose proof A as (P & D & C & L & _).
      apply moved_same with (evs := []); auto; rewrite app_nil_r; reflexivity. }
    assert (TP : to_push mods same name s1 = to_push mods same name s2).
    { destruct A as (_ & _ & _ & _ & m & q1 & q2 & T1 & T2). unfold to_push. rewrite T1, T2. reflexivity. }
    rewrite TP. set (pushed := to_push mods same name s2).
    set (t1 := match pushed with Some m => push_mod m s1 | None => s1 end).
    set (t2 := match pushed with Some m => push_mod m s2 | None => s2 end).
    set (pre := match pushed with Some m => [m] | None => [] end).
    assert (MP : moved s1 s2 t1 t2).
    { pose proof A as (P & D & C & L & _). repeat split; try (unfold t1, t2; destruct pushed; cbn; auto; fail).
      exists [], pre. unfold t1, t2, pre. destruct pushed; cbn; rewrite ?app_nil_r; auto. }
    assert (T1 : tree t1 = pre ++ tree s1) by (unfold t1, pre; destruct pushed; reflexivity).
    assert (T2 : tree t2 = pre ++ tree s2) by (unfold t2, pre; destruct pushed; reflexivity).
    pose proof (moved_alike _ _ _ _ A MP) as AP. clearbody t1 t2.
    destruct (normalize mods name) as [[norm b]|e] eqn:Nz.
    2: { intros E1 E2. injection E1 as <- <-. injection E2 as <- <-. auto. }
    assert (B : b = true -> exists p, get_parent norm = Some p) by (intros ->; exact (absolute_parent mods rooted_w _ _ Nz)).
    destruct (enter norm b t1) as [u1 x1] eqn:N1. destruct (enter norm b t2) as [u2 x2] eqn:N2.
    destruct (enter_alike _ _ _ _ _ _ _ _ B AP N1 N2) as (-> & P & D & C & L & O1 & O2 & V1 & V2).
    assert (ME : moved t1 t2 u1 u2) by (apply moved_same with (evs := []); auto; rewrite app_nil_r; assumption).
    pose proof (moved_trans _ _ _ _ _ _ MP ME) as M.
    destruct x2 as [e|].
    { intros E1 E2. injection E1 as <- <-. injection E2 as <- <-. auto. }
    destruct (old_require mods files (require mods files same fuel) name u1) as [w1 y1] eqn:Q1.
    destruct (old_require mods files (require mods files same fuel) name u2) as [w2 y2] eqn:Q2.
    destruct (old_steady _ IH name _ _ _ _ _ _ (moved_alike _ _ _ _ A M) Q1 Q2) as [-> MO].
    pose proof (moved_trans _ _ _ _ _ _ M MO) as M3.
    destruct y2 as [v|e]; [|intros E1 E2; injection E1 as <- <-; injection E2 as <- <-; auto].
    unfold remove_path. pose proof M3 as (P3 & D3 & C3 & L3 & evs & ext & X1 & X2 & _ & _). rewrite P3.
    destruct (after_semi (path w2)) as [p|].
    2: { intros E1 E2. injection E1 as <- <-. injection E2 as <- <-. auto. }
    destruct pushed as [m|].
    2: { intros E1 E2. injection E1 as <- <-. injection E2 as <- <-. split; [reflexivity|]. eapply moved_trans; [exact M3|].
         apply moved_same with (evs := []); auto; cbn; rewrite app_nil_r; reflexivity. }
    destruct MO as (_ & _ & _ & _ & ev' & ext' & _ & _ & Z1 & Z2). rewrite V1, T1 in Z1. rewrite V2, T2 in Z2. cbn [app pre] in Z1, Z2.
    assert (Y : exists m' r1' r2' e', tl (tree w1) = m' :: r1' /\ tl (tree w2) = m' :: r2' /\ tl (tree w1) = e' ++ tree s1 /\ tl (tree w2) = e' ++ tree s2).
    { rewrite Z1, Z2. destruct A as (_ & _ & _ & _ & m0 & q1 & q2 & A1 & A2). destruct ext' as [|x ext'].
      - cbn. rewrite A1, A2. exists m0, q1, q2, []. auto.
      - cbn. destruct ext' as [|x' ext']; cbn.
        + exists m, (tree s1), (tree s2), [m]. auto.
        + exists x', (ext' ++ m :: tree s1), (ext' ++ m :: tree s2), (x' :: ext' ++ [m]). cbn. rewrite <- !app_assoc. auto. }
    destruct Y as (m' & r1' & r2' & e' & Y1 & Y2 & Y3 & Y4).
    unfold pop_mod. cbn [tree set_path]. rewrite Y1, Y2. intros E1 E2. injection E1 as <- <-. injection E2 as <- <-. split; [reflexivity|].
    repeat (split; [cbn; auto; fail|]). exists evs, e'. cbn. rewrite <- Y1, <- Y2. auto.
  Qed.
  Lemma phase_alone : forall fuel m stage base s s' r, path s = base -> run_mod_phase mods files same fuel m stage s = (s', r) ->
    exists evs t, out s' = out s ++ evs /\ run_mod_phase mods files same fuel m stage (fresh base (loaded s)) = (t, r) /\ out t = evs.
  Proof.
    intros fuel m stage base s s' r PB. unfold run_mod_phase.
    assert (A : alike (begun m stage s) (begun m stage (fresh base (loaded s)))).
    { unfold begun, fresh, push_mod, set_cur, add_path, set_dir, set_tree, set_path, say; cbn. rewrite PB. repeat (split; [reflexivity|]). exists m, (tree s), []. auto. }
    assert (E : exists e, out (begun m stage s) = out s ++ [e] /\ out (begun m stage (fresh base (loaded s))) = [e]).
    { unfold begun, fresh, push_mod, set_cur, add_path, set_dir, set_tree, set_path, say; cbn. rewrite PB. eexists. split; reflexivity. }
    destruct E as (e & O1 & O2).
    destruct (m_archive m). { intros X. injection X as <- <-. exists [e], (begun m stage (fresh base (loaded s))). auto. }
    destruct (files (in_dir (m_location m) stage)) as [c|].
    2: { intros X. injection X as <- <-. exists [e], (begun m stage (fresh base (loaded s))). auto. }
    intros X. destruct (run (require mods files same fuel) c (begun m stage (fresh base (loaded s)))) as [t x] eqn:Y.
    destruct (run_steady _ (require_steady fuel) c _ _ _ _ _ _ A X Y) as [-> (_ & _ & _ & _ & evs & ext & W1 & W2 & _)].
    exists (e :: evs), t. rewrite W1, O1, W2, O2, <- app_assoc. auto.
  Qed.

  (** ** One by one *)
  Definition part (stage : pystr) (order : list amod) : list (amod * pystr) :=
    map (fun m => (m, stage)) (filter (fun m => existsb (pystr_eqb stage) (m_stages m)) order).
  Lemma mods_ones : forall fuel base wipe stage order s s' r, run_mods mods files same fuel base wipe stage order s = (s', r) ->
    exists evs, out s' = out s ++ evs /\
      match r with
      | None => forall rest evs' e, one_by_one (run_mod_phase mods files same fuel) base (loaded s') rest evs' e ->
                  one_by_one (run_mod_phase mods files same fuel) base (loaded s) (part stage order ++ rest) (evs ++ evs') e
      | Some e => forall rest, one_by_one (run_mod_phase mods files same fuel) base (loaded s) (part stage order ++ rest) evs (Some e)
      end.
  Proof.
    intros fuel base wipe stage. induction order as [|m order IH]; intros s s' r; cbn [run_mods].
    { intros E. injection E as <- <-. exists []. rewrite app_nil_r. split; [reflexivity|]. intros rest evs' e H. exact H. }
    unfold mem. unfold part. cbn [filter]. destruct (existsb (pystr_eqb stage) (m_stages m)); [|intros E; exact (IH _ _ _ E)].
    cbn [map]. destruct (run_mod_phase mods files same fuel m stage (set_path base s)) as [u [e|]] eqn:P.
    - intros E. injection E as <- <-. destruct (phase_alone _ _ _ base (set_path base s) _ _ eq_refl P) as (evs & t & O & Q & W). exists evs. split; [exact O|].
      intros rest. rewrite <- W. apply ones_stop. exact Q.
    - intros E. destruct (phase_alone _ _ _ base (set_path base s) _ _ eq_refl P) as (evs & t & O & Q & W).
      destruct (IH _ _ _ E) as (evs2 & O2 & H).
      assert (OL : out (if wipe then wipe_mods (unload_cache u) else unload_cache u) = out u) by (destruct wipe; reflexivity).
      assert (LL : loaded (if wipe then wipe_mods (unload_cache u) else unload_cache u) = []) by (destruct wipe; reflexivity).
      cbv zeta in O2, H. rewrite OL in O2. rewrite LL in H. exists (evs ++ evs2). split; [rewrite O2, O, app_assoc; reflexivity|].
      change (loaded (set_path base s)) with (loaded s) in Q. destruct r as [e|].
      + intros rest. rewrite <- W. eapply ones_next; [exact Q|]. apply H.
      + intros rest evs' e K. rewrite <- app_assoc, <- W. eapply ones_next; [exact Q|]. apply H. exact K.
  Qed.
  Theorem stages_ones : forall fuel base wipe stages order s s' r, run_stages mods files same fuel base wipe stages order s = (s', r) ->
    exists evs, out s' = out s ++ evs /\ one_by_one (run_mod_phase mods files same fuel) base (loaded s) (plan stages order) evs r.
  Proof.
    intros fuel base wipe stages order. induction stages as [|stage stages IH]; intros s s' r; cbn [run_stages plan flat_map].
    { intros E. injection E as <- <-. exists []. rewrite app_nil_r. split; [reflexivity|apply ones_end]. }
    destruct (run_mods mods files same fuel base wipe stage order s) as [u [e|]] eqn:M; destruct (mods_ones _ _ _ _ _ _ _ _ M) as (evs & O & H).
    - intros E. injection E as <- <-. exists evs. split; [exact O|]. apply H.
    - intros E. destruct (IH _ _ _ E) as (evs2 & O2 & K). exists (evs ++ evs2). split; [rewrite O2, O, app_assoc; reflexivity|]. apply H. exact K.
  Qed.
End Phase.

(** ** What is said inside phases *)
Section Said.
  Variables (mods : list (pystr * amod)) (files : pystr -> option chunk) (same : amod -> amod -> bool).
  Definition inner (e : event) : Prop := match e with Began _ _ _ _ _ _ => False | _ => True end.
  Definition cached (n : pystr) (v : value) (s : st) : Prop := dget pystr_eqb (loaded s) n = Some v.
  Definition grows (s s' : st) : Prop := exists evs, out s' = out s ++ evs /\ Forall inner evs /\
    (forall n v, cached n v s -> cached n v s' /\ ~ loads evs n).
  Lemma grows_refl : forall s s', out s' = out s -> loaded s' = loaded s -> grows s s'.
  Proof.
    intros s s' O L. exists []. rewrite app_nil_r. split; [exact O|]. split; [constructor|]. intros n v C. split; [unfold cached in *; rewrite L; exact C|intros (p & [])].
  Qed.
  Lemma grows_trans : forall s t u, grows s t -> grows t u -> grows s u.
  Proof.
    intros s t u (e1 & O1 & F1 & C1) (e2 & O2 & F2 & C2). exists (e1 ++ e2). split; [rewrite O2, O1, app_assoc; reflexivity|]. split; [apply Forall_app; auto|].
    intros n v C. destruct (C1 _ _ C) as [C' N1]. destruct (C2 _ _ C') as [C'' N2]. split; [exact C''|]. intros (p & I). apply in_app_or in I. destruct I as [I|I]; [apply N1|apply N2]; exists p; exact I.
  Qed.
  Lemma grows_say : forall e s, inner e -> (forall n p, e <> Loads n p) -> grows s (say e s).
  Proof.
    intros e s I N. exists [e]. split; [reflexivity|]. split; [constructor; [exact I|constructor]|]. intros n v C. split; [exact C|]. intros (p & [E|[]]). exact (N _ _ E).
  Qed.
  Lemma run_grows : forall req, (forall n s s' r, req n s = (s', r) -> grows s s') -> forall c s s' r, run req c s = (s', r) -> grows s s'.
  Proof.
    intros req H. induction c as [|x c IH]; intros s s' r; cbn [run].
    { intros E. injection E as <- <-. apply grows_refl; reflexivity. }
    destruct x as [k|n|n].
    - intros E. eapply grows_trans; [apply (grows_say (Point k)); [exact Logic.I|discriminate]|exact (IH _ _ _ E)].
    - destruct (req n s) as [u [v|e]] eqn:Q; pose proof (H _ _ _ _ Q) as G.
      + intros E. eapply grows_trans; [exact G|]. eapply grows_trans; [apply (grows_say (Got n v)); [exact Logic.I|discriminate]|exact (IH _ _ _ E)].
      + intros E. injection E as <- <-. exact G.
    - destruct (req n s) as [u [v|e]] eqn:Q; pose proof (H _ _ _ _ Q) as G; intros E; (eapply grows_trans; [exact G|]).
      + eapply grows_trans; [apply (grows_say (Got n v)); [exact Logic.I|discriminate]|exact (IH _ _ _ E)].
      + eapply grows_trans; [apply (grows_say (Missed n e)); [exact Logic.I|discriminate]|exact (IH _ _ _ E)].
  Qed.
  Lemma dget_dset_eq : forall (d : list (pystr * value)) n v, dget pystr_eqb (dset pystr_eqb d n v) n = Some v.
  Proof. intros. rewrite (dget_dset _ pystr_eqb_eq). rewrite pystr_eqb_refl. reflexivity. Qed.
  Lemma dget_dset_ne : forall (d : list (pystr * value)) n m v, n <> m -> dget pystr_eqb (dset pystr_eqb d n v) m = dget pystr_eqb d m.
  Proof.
    intros d n m v N. rewrite (dget_dset _ pystr_eqb_eq). destruct (pystr_eqb n m) eqn:E; [|reflexivity]. apply pystr_eqb_eq in E. congruence.
  Qed.
  Lemma old_grows : forall req, (forall n s s' r, req n s = (s', r) -> grows s s') -> forall name s s' r, old_require mods files req name s = (s', r) ->
    grows s s' /\ forall v, r = Ok v -> cached name v s' /\ (forall w, cached name w s -> v = w).
  Proof.
    intros req H name s s' r. unfold old_require. destruct (dget pystr_eqb (loaded s) name) as [v|] eqn:D.
    { intros E. injection E as <- <-. split; [apply grows_refl; reflexivity|]. intros w X. injection X as <-. split; [exact D|]. unfold cached. congruence. }
    assert (RM : forall v u, (forall n w, cached n w s -> cached n w u) -> forall n w, cached n w s -> cached n w (remember name v u)).
    { intros v u K n w C. unfold cached, remember. cbn. rewrite dget_dset_ne; [exact (K _ _ C)|]. intros ->. unfold cached in C. congruence. }
    assert (RL : forall v u, cached name v (remember name v u)) by (intros v u; unfold cached, remember; cbn; apply dget_dset_eq).
    destruct (search mods files name s) as [[v|f c]|e].
    - intros E. injection E as <- <-. split.
      + exists []. rewrite app_nil_r. split; [reflexivity|]. split; [constructor|]. intros n w C. split; [exact (RM v s (fun _ _ X => X) _ _ C)|intros (p & [])].
      + intros w X. injection X as <-. split; [apply RL|]. intros w C. unfold cached in C. congruence.
    - destruct (run req c (say (Loads name f) s)) as [u x] eqn:Q.
      assert (G : grows s u).
      { eapply grows_trans; [|exact (run_grows req H c _ _ _ Q)]. exists [Loads name f]. split; [reflexivity|]. split; [constructor; [exact Logic.I|constructor]|].
        intros n w C. split; [exact C|]. intros (p & [E|[]]). injection E as -> _. unfold cached in C. congruence. }
      destruct x as [e|]; intros E; injection E as <- <-.
      + split; [exact G|]. discriminate.
      + split.
        * destruct G as (evs & O & F & K). exists evs. split; [exact O|]. split; [exact F|]. intros n w C. destruct (K _ _ C) as [C' N]. split; [|exact N].
          apply (RM (File f) u); [|exact C]. intros n0 w0 C0. exact (proj1 (K _ _ C0)).
        * intros w X. injection X as <-. split; [apply RL|]. intros w C. unfold cached in C. congruence.
    - intros E. injection E as <- <-. split; [apply grows_refl; reflexivity|]. discriminate.
  Qed.
  Lemma require_grows' : forall fuel name s s' r, require mods files same fuel name s = (s', r) ->
    grows s s' /\ forall v, r = Ok v -> cached name v s' /\ (forall w, cached name w s -> v = w).
  Proof.
    induction fuel as [|fuel IH]; intros name s s' r; cbn [require].
    { intros E. injection E as <- <-. split; [apply grows_refl; reflexivity|discriminate]. }
    set (pushed := to_push mods same name s). set (s1 := match pushed with Some m => push_mod m s | None => s end).
    assert (S1 : out s1 = out s /\ loaded s1 = loaded s) by (unfold s1; destruct pushed; auto). clearbody s1. destruct S1 as (O1 & L1).
    destruct (normalize mods name) as [[norm b]|e].
    2: { intros E. injection E as <- <-. split; [apply grows_refl; auto|discriminate]. }
    destruct (enter norm b s1) as [s2 x] eqn:N.
    assert (S2 : out s2 = out s /\ loaded s2 = loaded s).
    { unfold enter in N. destruct (get_parent norm) as [p|].
      - destruct b; [|destruct (dir s1)]; injection N as <- <-; cbn; auto.
      - destruct b; cbn [set_with with_path] in N; [destruct (with_path s1)|]; injection N as <- <-; cbn; auto. }
    destruct S2 as (O2 & L2).
    destruct x as [e|]. { intros E. injection E as <- <-. split; [apply grows_refl; auto|discriminate]. }
    assert (G2 : grows s s2) by (apply grows_refl; auto).
    destruct (old_require mods files (require mods files same fuel) name s2) as [s3 y] eqn:Q.
    destruct (old_grows _ (fun n s s' r E => proj1 (IH n s s' r E)) _ _ _ _ Q) as [G K].
    pose proof (grows_trans _ _ _ G2 G) as G3.
    assert (K' : forall v, y = Ok v -> cached name v s3 /\ (forall w, cached name w s -> v = w)).
    { intros v E. destruct (K v E) as [C U]. split; [exact C|]. intros w Cw. apply U. unfold cached in *. rewrite L2. exact Cw. }
    clear K. destruct y as [v|e]; [|intros E; injection E as <- <-; split; [exact G3|discriminate]].
    assert (FIN : forall u, out u = out s3 -> loaded u = loaded s3 -> grows s u /\ forall v', Ok v = Ok v' -> cached name v' u /\ (forall w, cached name w s -> v' = w)).
    { intros u Ou Lu. split; [eapply grows_trans; [exact G3|apply grows_refl; assumption]|]. intros v' E. destruct (K' _ E) as [C U]. split; [unfold cached in *; rewrite Lu; exact C|exact U]. }
    assert (BAD : forall u (e : exn), out u = out s3 -> loaded u = loaded s3 -> grows s u /\ forall v', @Err value e = Ok v' -> cached name v' u /\ (forall w, cached name w s -> v' = w)).
    { intros u e Ou Lu. split; [eapply grows_trans; [exact G3|apply grows_refl; assumption]|discriminate]. }
    unfold remove_path. destruct (after_semi (path s3)) as [p|].
    2: { intros E. injection E as <- <-. apply BAD; reflexivity. }
    destruct pushed as [m|].
    - unfold pop_mod. cbn [tree set_path]. destruct (tl (tree s3)) as [|m1 r1]; intros E; injection E as <- <-; [apply BAD; reflexivity|apply FIN; reflexivity].
    - intros E. injection E as <- <-. apply FIN; reflexivity.
  Qed.
  Theorem require_grows : forall fuel name s s' r, require mods files same fuel name s = (s', r) -> grows s s'.
  Proof. intros. eapply require_grows'. eassumption. Qed.
  Theorem require_once : forall fuel name s s' r, require mods files same fuel name s = (s', r) ->
    exists evs, out s' = out s ++ evs /\
      (forall n v, dget pystr_eqb (loaded s) n = Some v -> dget pystr_eqb (loaded s') n = Some v /\ ~ loads evs n) /\
      (forall v, r = Ok v -> dget pystr_eqb (loaded s') name = Some v) /\
      (forall v w, r = Ok v -> dget pystr_eqb (loaded s) name = Some w -> v = w).
  Proof.
    intros fuel name s s' r E. destruct (require_grows' _ _ _ _ _ E) as [(evs & O & _ & C) K]. exists evs. split; [exact O|]. split; [exact C|].
    split; [intros v X; exact (proj1 (K v X))|intros v w X; exact (proj2 (K v X) w)].
  Qed.

  (** ** How phases begin *)
  Lemma phase_events : forall fuel m stage base cch s r, run_mod_phase mods files same fuel m stage (fresh base cch) = (s, r) ->
    exists evs, out s = Began (m_name m) stage (m_location m ++ str "/?.lua;" ++ base) (m_location m ++ str "/" ++ stage) (Some (m_location m)) (map fst cch) :: evs /\ Forall inner evs.
  Proof.
    intros fuel m stage base cch s r. unfold run_mod_phase.
    assert (B : out (begun m stage (fresh base cch)) =
      [Began (m_name m) stage (m_location m ++ str "/?.lua;" ++ base) (m_location m ++ str "/" ++ stage) (Some (m_location m)) (map fst cch)]).
    { unfold begun, fresh, push_mod, set_cur, add_path, set_dir, set_tree, set_path, say, in_dir; cbn. rewrite <- !app_assoc. reflexivity. }
    destruct (m_archive m). { intros E. injection E as <- <-. exists []. auto. }
    destruct (files (in_dir (m_location m) stage)) as [c|]; [|intros E; injection E as <- <-; exists []; auto].
    intros E. destruct (run_grows _ (require_grows fuel) c _ _ _ E) as (evs & O & F & _). exists evs. rewrite O, B. auto.
  Qed.
  Lemma inner_began : forall evs, Forall inner evs -> began evs = [] /\ caches evs = [].
  Proof.
    induction 1 as [|e evs I F (B & C)]; [split; reflexivity|]. unfold began, caches in *. cbn [flat_map]. rewrite B, C. destruct e; [destruct I|..]; split; reflexivity.
  Qed.
  Lemma ones_facts : forall fuel base cch pl evs r, one_by_one (run_mod_phase mods files same fuel) base cch pl evs r ->
    (exists k, began evs = firstn k (map (fun p => (m_name (fst p), snd p)) pl)) /\ (r = None -> began evs = map (fun p => (m_name (fst p), snd p)) pl) /\
    (forall order, Forall (fun p => In (fst p) order /\ In (snd p) (m_stages (fst p))) pl -> Forall (begins_well base order) evs) /\
    (caches evs = [] \/ exists r, caches evs = map fst cch :: r /\ Forall (eq []) r).
  Proof.
    intros fuel base cch pl evs r H.
    assert (W : forall order m stage p c, In m order -> In stage (m_stages m) -> p = m_location m ++ str "/?.lua;" ++ base -> forall c', c' = m_location m ++ str "/" ++ stage ->
      begins_well base order (Began (m_name m) stage p c' (Some (m_location m)) c)).
    { intros order m stage p c I S P c' C. exists m. auto 10. }
    assert (IW : forall order evs, Forall inner evs -> Forall (begins_well base order) evs).
    { intros order l F. eapply Forall_impl; [|exact F]. intros e I. destruct e; [destruct I|..]; exact Logic.I. }
    induction H as [cch|cch m stage rest s e P|cch m stage rest s evs e P H (IK & IB & IF & IC)].
    - split; [exists 0%nat; reflexivity|]. split; [reflexivity|]. split; [constructor|left; reflexivity].
    - destruct (phase_events _ _ _ _ _ _ _ P) as (l & -> & F). destruct (inner_began _ F) as (B & C).
      assert (EB : began (Began (m_name m) stage (m_location m ++ str "/?.lua;" ++ base) (m_location m ++ str "/" ++ stage) (Some (m_location m)) (map fst cch) :: l) = [(m_name m, stage)])
        by (unfold began in *; cbn [flat_map]; rewrite B; reflexivity).
      rewrite EB. split; [exists 1%nat; reflexivity|]. split; [discriminate|]. split.
      + intros order A. inversion A as [|? ? (I1 & I2) _]; subst. constructor; [|auto]. apply (W order m stage); auto.
      + right. exists []. unfold caches in *. cbn [flat_map]. rewrite C. auto.
    - destruct (phase_events _ _ _ _ _ _ _ P) as (l & -> & F). destruct (inner_began _ F) as (B & C).
      match goal with |- context [?x :: l] => set (b := x) end.
      assert (EB : began ((b :: l) ++ evs) = (m_name m, stage) :: began evs).
      { unfold began in *. rewrite flat_map_app. cbn [flat_map]. rewrite B. reflexivity. }
      assert (EC : caches ((b :: l) ++ evs) = map fst cch :: caches evs).
      { unfold caches in *. rewrite flat_map_app. cbn [flat_map]. rewrite C. reflexivity. }
      rewrite EB, EC. split; [destruct IK as (k & ->); exists (S k); reflexivity|]. split; [intros ->; cbn; rewrite (IB eq_refl); reflexivity|]. split.
      + intros order A. inversion A as [|? ? (I1 & I2) A']; subst. apply Forall_app. split; [|exact (IF order A')]. constructor; [|auto]. apply (W order m stage); auto.
      + right. exists (caches evs). split; [reflexivity|]. destruct IC as [->|(q & -> & FQ)]; [constructor|]. constructor; [reflexivity|exact FQ].
  Qed.
  Lemma plan_in : forall stages order, Forall (fun p => In (fst p) order /\ In (snd p) (m_stages (fst p))) (plan stages order).
  Proof.
    intros stages order. apply Forall_forall. intros (m & stage) I. unfold plan in I. apply in_flat_map in I. destruct I as (s & _ & I).
    apply in_map_iff in I. destruct I as (m' & E & I). injection E as -> ->. apply filter_In in I. destruct I as (I & X). split; [exact I|].
    apply existsb_exists in X. destruct X as (x & J & Y). apply pystr_eqb_eq in Y. subst x. exact J.
  Qed.
End Said.

Theorem stages_order : forall mods files same, rooted mods -> forall fuel base wipe stages order s s' r,
  run_stages mods files same fuel base wipe stages order s = (s', r) ->
  exists evs, out s' = out s ++ evs /\ (exists k, began evs = firstn k (map (fun p => (m_name (fst p), snd p)) (plan stages order))) /\
    (r = None -> began evs = map (fun p => (m_name (fst p), snd p)) (plan stages order)) /\
    Forall (begins_well base order) evs /\
    (caches evs = [] \/ exists l, caches evs = map fst (loaded s) :: l /\ Forall (eq []) l).
Proof.
  intros mods files same R fuel base wipe stages order s s' r E. destruct (stages_ones mods files same R _ _ _ _ _ _ _ _ E) as (evs & O & H).
  exists evs. split; [exact O|]. destruct (ones_facts mods files same _ _ _ _ _ _ H) as (K & B & F & C).
  split; [exact K|]. split; [exact B|]. split; [exact (F order (plan_in _ _))|exact C].
Qed.
