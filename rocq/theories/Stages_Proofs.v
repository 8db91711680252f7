(** Strings, and what [require] leaves as it was. *)
From Coq Require Import ZArith NArith String List Bool Lia.
From Verif Require Import Common Dict Stages_Model Stages_Spec.
Import ListNotations.
Local Open Scope string_scope.
Local Open Scope list_scope.

(** ** Strings *)
Lemma clean_app : forall a b, clean (a ++ b) <-> clean a /\ clean b.
Proof. intros a b. unfold clean. rewrite in_app_iff. tauto. Qed.
Lemma clean_cons : forall x a, clean (x :: a) <-> x <> SEMI /\ clean a.
Proof. intros x a. unfold clean. cbn. split; intuition. Qed.
Lemma clean_in : forall a b, (forall x, In x a -> In x b) -> clean b -> clean a.
Proof. intros a b H C I. apply C, H, I. Qed.
Lemma strip_in : forall s x, In x (strip_lua s) -> In x s.
Proof.
  intros s x. unfold strip_lua. destruct (rev s) as [|a [|u [|l [|d r]]]] eqn:E; auto.
  destruct (N.eqb a 97 && N.eqb u 117 && N.eqb l 108); auto. intros H. apply in_rev in H. apply in_rev. rewrite E. cbn. auto.
Qed.
Lemma dots_in : forall s x, In x (dots s) -> In x s \/ x = SLASH.
Proof.
  intros s x. unfold dots. destruct (has SLASH s || has BACKSLASH s); auto. intros H. apply in_map_iff in H. destruct H as (c & <- & I).
  destruct (N.eqb c DOT); auto.
Qed.
Lemma lead_in : forall s x, In x (lead s) -> In x s.
Proof. intros [|c r] x; [auto|]. cbn [lead]. destruct (N.eqb c SLASH); cbn; auto. Qed.
Lemma replace_in : forall p r s k x, In x (replace_from k p r s) -> In x r \/ In x s.
Proof.
  intros p r s. induction s as [|c s IH]; intros k x; [cbn; auto|]. cbn [replace_from]. destruct k as [|k].
  - destruct (prefix p (c :: s)).
    + rewrite in_app_iff. intros [H|H]; [auto|]. apply IH in H. cbn. tauto.
    + intros [<-|H]; [cbn; auto|]. apply IH in H. cbn. tauto.
  - intros H. apply IH in H. cbn. tauto.
Qed.
Lemma prefix_app : forall p s, prefix p s = true <-> exists r, s = p ++ r.
Proof.
  induction p as [|a p IH]; intros s; cbn [prefix]; [split; [intros _; exists s; reflexivity|reflexivity]|].
  destruct s as [|b s]; [split; [discriminate|intros (r & H); discriminate]|]. rewrite andb_true_iff, IH, N.eqb_eq. split.
  - intros [-> (r & ->)]. exists r. reflexivity.
  - intros (r & H). injection H as -> ->. split; [reflexivity|]. exists r. reflexivity.
Qed.
Lemma replace_once : forall p r a b, p <> [] -> exists x y, replace p r (a ++ p ++ b) = x ++ r ++ y.
Proof.
  intros p r a b N. unfold replace. induction a as [|c a IH].
  - cbn [app]. destruct p as [|c p]; [contradiction|]. cbn [app replace_from].
    assert (T : prefix (c :: p) (c :: p ++ b) = true) by (apply prefix_app; exists b; reflexivity). rewrite T.
    exists [], (replace_from (List.length (c :: p) - 1) (c :: p) r (p ++ b)). reflexivity.
  - cbn [app replace_from]. destruct (prefix p (c :: a ++ p ++ b)).
    + exists [], (replace_from (List.length p - 1) p r (a ++ p ++ b)). reflexivity.
    + destruct IH as (x & y & ->). exists (c :: x), y. reflexivity.
Qed.
Lemma under2_ex : forall s, under2 s = true -> exists r, s = str "__" ++ r.
Proof.
  intros [|a [|b r]]; cbn; try discriminate. rewrite andb_true_iff, !N.eqb_eq. intros [-> ->]. exists r. reflexivity.
Qed.
Lemma longest_ex : forall r acc n, longest acc r = Some n -> exists n' b, n = acc ++ n' /\ r = n' ++ str "__" ++ b.
Proof.
  induction r as [|c r IH]; intros acc n; [discriminate|]. cbn [longest]. destruct (longest (acc ++ [c]) r) as [m|] eqn:E.
  - intros H. injection H as <-. destruct (IH _ _ E) as (n' & b & -> & ->). exists (c :: n'), b. rewrite <- app_assoc. auto.
  - destruct acc as [|x acc]; [discriminate|]. destruct (under2 (c :: r)) eqn:U; [|discriminate]. intros H. injection H as <-.
    destruct (under2_ex _ U) as (b & ->). exists [], b. rewrite app_nil_r. auto.
Qed.
Lemma take_cls_ex : forall s, exists b, s = take_cls s ++ b.
Proof.
  induction s as [|c s IH]; [exists []; reflexivity|]. cbn [take_cls]. destruct (cls c); [|exists (c :: s); reflexivity].
  destruct IH as (b & E). exists b. cbn. rewrite <- E. reflexivity.
Qed.
Lemma find_tag_ex : forall s t, find_tag s = Some t -> exists a b, s = a ++ tag t ++ b.
Proof.
  induction s as [|c s IH]; intros t; [discriminate|]. cbn [find_tag].
  assert (L : find_tag s = Some t -> exists a b, c :: s = a ++ tag t ++ b).
  { intros H. destruct (IH _ H) as (a & b & ->). exists (c :: a), b. reflexivity. }
  destruct (under2 (c :: s)) eqn:U; [|exact L]. destruct (longest [] (take_cls (tl s))) as [n|] eqn:E; [|exact L].
  intros H. injection H as <-. destruct (under2_ex _ U) as (r & R). cbn [str list_ascii_of_string map app] in R. injection R as -> ->.
  cbn [tl] in E. destruct (longest_ex _ _ _ E) as (n' & b & -> & T). destruct (take_cls_ex r) as (b' & R). rewrite T in R.
  exists [], (b ++ b'). unfold tag. cbn [app] in *. rewrite R. cbn. rewrite <- !app_assoc. reflexivity.
Qed.
Lemma upto_last_ex : forall c s p, upto_last c s = Some p -> exists v, s = p ++ c :: v.
Proof.
  intros c. induction s as [|x s IH]; intros p; [discriminate|]. cbn [upto_last]. destruct (upto_last c s) as [q|].
  - intros H. injection H as <-. destruct (IH q eq_refl) as (v & ->). exists v. reflexivity.
  - destruct (N.eqb x c) eqn:E; [|discriminate]. intros H. injection H as <-. apply N.eqb_eq in E. subst x. exists s. reflexivity.
Qed.
Lemma upto_last_some : forall c u v, exists p, upto_last c (u ++ c :: v) = Some p /\ (List.length u <= List.length p)%nat.
Proof.
  intros c u v. induction u as [|x u IH]; cbn [app upto_last].
  - rewrite N.eqb_refl. destruct (upto_last c v) as [p|]; eexists; split; try reflexivity; cbn; lia.
  - destruct IH as (p & -> & L). exists (x :: p). split; [reflexivity|]. cbn. lia.
Qed.
Lemma before_ex : forall c s p, before c s = Some p -> exists v, s = p ++ c :: v.
Proof. intros c s p. unfold before. destruct (upto_last c s) as [[|x q]|] eqn:E; try discriminate. intros H. injection H as <-. exact (upto_last_ex _ _ _ E). Qed.
Lemma get_parent_in : forall s p, get_parent s = Some p -> forall x, In x p -> In x s.
Proof.
  intros s p. unfold get_parent. destruct (before SLASH s) as [q|] eqn:E.
  - intros H x I. injection H as ->. destruct (before_ex _ _ _ E) as (v & ->). apply in_or_app. auto.
  - intros H x I. destruct (before_ex _ _ _ H) as (v & ->). apply in_or_app. auto.
Qed.
Lemma get_parent_some : forall u v, u <> [] -> exists p, get_parent (u ++ SLASH :: v) = Some p.
Proof.
  intros u v N. unfold get_parent, before. destruct (upto_last_some SLASH u v) as (p & -> & L).
  destruct p as [|x p]; [destruct u; [contradiction|cbn in L; lia]|]. eexists; reflexivity.
Qed.
Lemma after_semi_app : forall x y, clean x -> after_semi (x ++ SEMI :: y) = Some y.
Proof.
  induction x as [|c x IH]; intros y C; [reflexivity|]. apply clean_cons in C. destruct C as [N C]. cbn [app after_semi].
  apply N.eqb_neq in N. rewrite N. exact (IH _ C).
Qed.
Lemma in_front_app : forall a b p, in_front (a ++ b) p = in_front a (in_front b p).
Proof. induction a as [|x a IH]; intros b p; [reflexivity|]. cbn. rewrite IH. reflexivity. Qed.

Section Frame.
  Variables (mods : list (pystr * amod)) (files : pystr -> option chunk) (same : amod -> amod -> bool).

  Lemma modn_in : forall t m, modn mods t = Some m -> exists k, In (k, m) mods.
  Proof.
    intros t m. unfold modn. induction mods as [|[k v] l IH]; [discriminate|]. cbn. destruct (pystr_eqb k t).
    - intros H. injection H as ->. exists k. left; reflexivity.
    - intros H. destruct (IH H) as (k' & I). exists k'. right; exact I.
  Qed.
  (** A name that names a mod is inside some folder. *)
  Lemma absolute_parent : rooted mods -> forall name n, normalize mods name = Ok (n, true) -> exists p, get_parent n = Some p.
  Proof.
    intros R name n. unfold normalize. set (s := lead (dots (strip_lua name))).
    destruct (find_tag s) as [t|] eqn:F; [|discriminate]. destruct (find_tag_ex _ _ F) as (a & b & E).
    assert (G : forall l, inside l -> exists p, get_parent (replace (tag t) l s) = Some p).
    { intros l (u & v & N & ->). rewrite E. destruct (replace_once (tag t) (u ++ SLASH :: v) a b) as (x & y & ->); [discriminate|].
      replace (x ++ (u ++ SLASH :: v) ++ y) with ((x ++ u) ++ SLASH :: (v ++ y)) by (rewrite <- !app_assoc; reflexivity).
      apply get_parent_some. destruct x; [exact N|discriminate]. }
    destruct (pystr_eqb t (str "core") || pystr_eqb t (str "base")).
    - intros H. injection H as <-. apply G. exists (str "."), (str "factorio-data/" ++ t). split; [discriminate|reflexivity].
    - destruct (modn mods t) as [m|] eqn:M; [|discriminate]. intros H. injection H as <-. apply G.
      destruct (modn_in _ _ M) as (k & I). unfold rooted in R. rewrite Forall_forall in R. exact (R _ I).
  Qed.
  Lemma normalize_clean : clean_world mods files -> forall name n b, clean name -> normalize mods name = Ok (n, b) -> clean n.
  Proof.
    intros [CM _] name n b C. unfold normalize. set (s := lead (dots (strip_lua name))).
    assert (CS : clean s).
    { intros I. apply lead_in in I. apply dots_in in I. destruct I as [I|I]; [|discriminate]. apply strip_in in I. exact (C I). }
    destruct (find_tag s) as [t|] eqn:F; [|intros H; injection H as <- <-; exact CS].
    destruct (find_tag_ex _ _ F) as (u & v & E).
    assert (G : forall l, clean l -> clean (replace (tag t) l s)) by (intros l L I; apply replace_in in I; destruct I; auto).
    assert (CT : clean t). { rewrite E in CS. apply clean_app in CS. destruct CS as [_ CS]. unfold tag in CS. rewrite !clean_app in CS. tauto. }
    destruct (pystr_eqb t (str "core") || pystr_eqb t (str "base")).
    - intros H. injection H as <- <-. apply G. intros I. cbn in I. repeat (destruct I as [I|I]; [discriminate|]). exact (CT I).
    - destruct (modn mods t) as [m|] eqn:M; [|discriminate]. intros H. injection H as <- <-. apply G.
      destruct (modn_in _ _ M) as (k & I). rewrite Forall_forall in CM. exact (CM _ I).
  Qed.

  (** ** Path and tree *)
  Definition framed (ok : Prop) (s s' : st) : Prop :=
    ready s' /\ exists extra more, Forall clean extra /\ path s' = in_front extra (path s) /\ tree s' = more ++ tree s /\
      (ok -> extra = [] /\ more = []).
  Lemma framed_refl : forall ok s, ready s -> framed ok s s.
  Proof. intros ok s R. split; [exact R|]. exists [], []. repeat split; auto. Qed.
  Lemma framed_trans : forall (o1 o2 o3 : Prop) s s' s'', framed o1 s s' -> framed o2 s' s'' -> (o3 -> o1 /\ o2) -> framed o3 s s''.
  Proof.
    intros o1 o2 o3 s s' s'' [_ (e1 & m1 & C1 & P1 & T1 & O1)] [R2 (e2 & m2 & C2 & P2 & T2 & O2)] O. split; [exact R2|].
    exists (e2 ++ e1), (m2 ++ m1). split; [apply Forall_app; auto|]. split; [rewrite P2, P1, in_front_app; reflexivity|].
    split; [rewrite T2, T1, app_assoc; reflexivity|]. intros H. destruct (O H) as [A B]. destruct (O1 A) as [-> ->]. destruct (O2 B) as [-> ->]. auto.
  Qed.
  Lemma framed_same : forall ok s s', path s' = path s -> tree s' = tree s -> dir s' = dir s -> cur s' = cur s -> ready s -> framed ok s s'.
  Proof.
    intros ok s s' P T D C R. split; [|exists [], []; rewrite P, T; repeat split; auto].
    unfold ready in *. rewrite T, D, C. exact R.
  Qed.
  Lemma framed_weak : forall (o o' : Prop) s s', (o' -> o) -> framed o s s' -> framed o' s s'.
  Proof. intros o o' s s' H [R (e & m & C & P & T & O)]. split; [exact R|]. exists e, m. repeat split; auto; apply O, H; assumption. Qed.
  Hypothesis clean_w : clean_world mods files.

  Lemma run_frame : forall req, (forall n s s' r, clean n -> ready s -> req n s = (s', r) -> framed (plain_world files /\ is_ok r = true) s s') ->
    forall c s s' r, Forall clean (names c) -> ready s -> run req c s = (s', r) -> framed (plain_world files /\ plain_chunk c /\ r = None) s s'.
  Proof.
    intros req H. induction c as [|x c IH]; intros s s' r C R; cbn [run].
    - intros E. injection E as <- <-. apply framed_refl. exact R.
    - assert (PC : plain_chunk (x :: c) -> plain_chunk c) by (intros P n I; exact (P n (or_intror I))).
      assert (SY : forall e u, ready u -> framed True u (say e u)) by (intros e u Ru; apply framed_same; auto).
      destruct x as [k|n|n]; cbn [names flat_map app] in C.
      + intros E. pose proof (SY (Point k) s R) as F. eapply framed_trans; [exact F|exact (IH _ _ _ C (proj1 F) E)|]. intuition.
      + inversion C as [|? ? Cn Cc]; subst. destruct (req n s) as [u [v|e]] eqn:Q; pose proof (H _ _ _ _ Cn R Q) as F.
        * intros E. pose proof (SY (Got n v) u (proj1 F)) as G. eapply framed_trans; [exact F|eapply framed_trans; [exact G|exact (IH _ _ _ Cc (proj1 G) E)|]|].
          { intros X. exact (Logic.conj I X). } { cbn. intuition. }
        * intros E. injection E as <- <-. eapply framed_weak; [|exact F]. intros (_ & _ & X). discriminate X.
      + inversion C as [|? ? Cn Cc]; subst. destruct (req n s) as [u [v|e]] eqn:Q; pose proof (H _ _ _ _ Cn R Q) as F.
        * intros E. pose proof (SY (Got n v) u (proj1 F)) as G. eapply framed_trans; [exact F|eapply framed_trans; [exact G|exact (IH _ _ _ Cc (proj1 G) E)|]|].
          { intros X. exact (Logic.conj I X). } { cbn. intuition. }
        * intros E. pose proof (SY (Missed n e) u (proj1 F)) as G.
          assert (FF : framed False s u) by (eapply framed_weak; [|exact F]; intros []).
          eapply framed_trans; [exact FF|eapply framed_trans; [exact G|exact (IH _ _ _ Cc (proj1 G) E)|]|].
          { intros X. exact (Logic.conj I X). } { intros (_ & P & _). destruct (P n (or_introl eq_refl)). }
  Qed.

  Lemma old_frame : forall req, (forall n s s' r, clean n -> ready s -> req n s = (s', r) -> framed (plain_world files /\ is_ok r = true) s s') ->
    forall name s s' r, ready s -> old_require mods files req name s = (s', r) -> framed (plain_world files /\ is_ok r = true) s s'.
  Proof.
    intros req H name s s' r R. unfold old_require. destruct (dget pystr_eqb (loaded s) name) as [v|].
    { intros E. injection E as <- <-. apply framed_refl. exact R. }
    destruct (search mods files name s) as [[v|f c]|e] eqn:S.
    - intros E. injection E as <- <-. apply framed_same; auto.
    - assert (FC : files f = Some c).
      { unfold search in S. destruct (normalize mods name) as [[n b]|]; [|discriminate]. cbn [bind fst] in S. destruct (substitute name n); [discriminate|].
        assert (G : forall ts g d, find_file files ts n = Some (g, d) -> files g = Some d).
        { induction ts as [|t ts IH]; intros g d; [discriminate|]. cbn [find_file]. destruct (files (fill t n)) eqn:Q; [|apply IH]. intros E. injection E as <- <-. exact Q. }
        destruct (tree s) as [|m t]; [|destruct (m_archive m); [discriminate|]]; (destruct (find_file files _ n) as [[g d]|] eqn:Q; [|discriminate]); injection S as <- <-; exact (G _ _ _ Q). }
      destruct (run req c (say (Loads name f) s)) as [u [e|]] eqn:Q; intros E; injection E as <- <-.
      + assert (F : framed True s (say (Loads name f) s)) by (apply framed_same; auto).
        pose proof (run_frame req H c _ _ _ (proj2 clean_w _ _ FC) (proj1 F) Q) as G.
        eapply framed_weak; [|eapply framed_trans; [exact F|exact G|]]. 2: { intros X. exact (Logic.conj I X). } intros [_ X]. discriminate X.
      + assert (F : framed True s (say (Loads name f) s)) by (apply framed_same; auto).
        pose proof (run_frame req H c _ _ _ (proj2 clean_w _ _ FC) (proj1 F) Q) as G.
        assert (K : framed True u (remember name (File f) u)) by (apply framed_same; auto; exact (proj1 G)).
        eapply framed_trans; [exact F|eapply framed_trans; [exact G|exact K|]|].
        { intros X. exact (Logic.conj X I). } { intros [P _]. split; [exact I|]. split; [exact P|]. split; [exact (P _ _ FC)|reflexivity]. }
    - intros E. injection E as <- <-. apply framed_refl. exact R.
  Qed.

  Lemma in_dir_clean : forall d f, clean d -> clean f -> clean (in_dir d f).
  Proof. intros d f A B. unfold in_dir. rewrite !clean_app. repeat split; auto. intros [X|[]]. discriminate X. Qed.
  Lemma mark_clean : clean (str "?.lua").
  Proof. intros I. cbn in I. repeat (destruct I as [I|I]; [discriminate|]). exact I. Qed.
  Lemma enter_frame : forall norm b s s' r, clean norm -> (b = true -> exists p, get_parent norm = Some p) -> ready s -> enter norm b s = (s', r) ->
    ready s' /\ tree s' = tree s /\ match r with Some _ => path s' = path s | None => exists w, clean w /\ path s' = w ++ SEMI :: path s end.
  Proof.
    intros norm b s s' r C B R. unfold enter. destruct R as ((m & t & T & D) & L & U).
    destruct (get_parent norm) as [p|] eqn:G.
    - assert (CP : clean p) by (eapply clean_in; [exact (get_parent_in _ _ G)|exact C]).
      destruct b.
      + intros E. injection E as <- <-. split; [split; [exists m, t; auto|auto]|]. split; [reflexivity|].
        exists (in_dir p (str "?.lua")). split; [apply in_dir_clean; [exact CP|apply mark_clean]|reflexivity].
      + rewrite D. intros E. injection E as <- <-. split; [split; [exists m, t; auto|auto]|]. split; [reflexivity|].
        eexists. split; [|reflexivity]. apply in_dir_clean; [|apply in_dir_clean; [exact CP|apply mark_clean]].
        rewrite T in L. inversion L. assumption.
    - destruct b; [destruct (B eq_refl) as (p & X); discriminate X|].
      intros E. cbn [set_with with_path] in E. injection E as <- <-.
      assert (CR : clean match get_parent (cur s) with Some p => p | None => [] end).
      { destruct (get_parent (cur s)) as [p|] eqn:Q; [|intros []]. eapply clean_in; [exact (get_parent_in _ _ Q)|exact U]. }
      split; [split; [exists m, t; auto|split; [exact L|apply in_dir_clean; assumption]]|]. split; [reflexivity|].
      eexists. split; [|reflexivity]. apply in_dir_clean; [exact CR|apply mark_clean].
  Qed.
  Hypothesis rooted_w : rooted mods.

  Lemma require_frame : forall fuel name s s' r, clean name -> ready s -> require mods files same fuel name s = (s', r) ->
    framed (plain_world files /\ is_ok r = true) s s'.
  Proof.
    induction fuel as [|fuel IH]; intros name s s' r C R; cbn [require].
    { intros E. injection E as <- <-. apply framed_refl. exact R. }
    set (pushed := to_push mods same name s).
    set (s1 := match pushed with Some m => push_mod m s | None => s end).
    assert (R1 : ready s1 /\ path s1 = path s /\ tree s1 = match pushed with Some m => m :: tree s | None => tree s end).
    { unfold s1. destruct pushed as [m|] eqn:P; [|auto]. split; [|auto]. destruct R as (_ & L & U). split; [|split].
      - exists m, (tree s). auto.
      - cbn. constructor; [|exact L]. unfold pushed, to_push in P. destruct (find_tag name) as [t|]; [|discriminate].
        destruct (modn mods t) as [m'|] eqn:M; [|discriminate]. assert (m' = m). { destruct (tree s) as [|top q]; [congruence|]. destruct (same top m'); congruence. }
        subst m'. destruct (modn_in _ _ M) as (k & I). destruct clean_w as [CM _]. rewrite Forall_forall in CM. exact (CM _ I).
      - exact U. }
    destruct R1 as (R1 & P1 & T1).
    assert (more1 : exists more, tree s1 = more ++ tree s /\ more = match pushed with Some m => [m] | None => [] end).
    { exists (match pushed with Some m => [m] | None => [] end). rewrite T1. destruct pushed; split; reflexivity. }
    destruct more1 as (more1 & T1' & M1).
    assert (BAD : forall u (e : exn), ready u -> path u = path s1 -> tree u = tree s1 -> framed (plain_world files /\ is_ok (@Err value e) = true) s u).
    { intros u e Ru Pu Tu. split; [exact Ru|]. exists [], more1. split; [constructor|]. split; [rewrite Pu, P1; reflexivity|]. split; [congruence|]. intros [_ X]. discriminate X. }
    destruct (normalize mods name) as [[norm b]|e] eqn:Nz.
    2: { intros E. injection E as <- <-. apply BAD; auto. }
    destruct (enter norm b s1) as [s2 [e|]] eqn:En.
    { destruct (enter_frame norm b s1 s2 (Some e) (normalize_clean clean_w _ _ _ C Nz) ltac:(intros ->; exact (absolute_parent rooted_w _ _ Nz)) R1 En) as (R2 & T2 & P2).
      intros E. injection E as <- <-. apply BAD; auto. }
    destruct (enter_frame norm b s1 s2 None (normalize_clean clean_w _ _ _ C Nz) ltac:(intros ->; exact (absolute_parent rooted_w _ _ Nz)) R1 En) as (R2 & T2 & w & CW & P2).
    destruct (old_require mods files (require mods files same fuel) name s2) as [s3 [v|e]] eqn:Od;
      pose proof (old_frame _ IH _ _ _ _ R2 Od) as (R3 & ex & mo & CE & P3 & T3 & OK).
    2: { intros E. injection E as <- <-. split; [exact R3|]. exists (ex ++ [w]), (mo ++ more1).
         split; [apply Forall_app; auto|]. split; [rewrite P3, P2, P1, in_front_app; reflexivity|]. split; [rewrite T3, T2, T1', app_assoc; reflexivity|]. intros [_ X]. discriminate X. }
    (** The first entry of the path is removed. *)
    assert (RM : exists ex', Forall clean ex' /\ after_semi (path s3) = Some (in_front ex' (path s)) /\ (ex = [] -> ex' = [])).
    { rewrite P3, P2, P1. destruct ex as [|x ex].
      - exists []. split; [constructor|]. split; [apply after_semi_app; exact CW|reflexivity].
      - inversion CE as [|? ? Cx Cex]; subst. exists (ex ++ [w]). split; [apply Forall_app; auto|]. split; [|discriminate].
        cbn [in_front]. rewrite after_semi_app by exact Cx. rewrite in_front_app. reflexivity. }
    destruct RM as (ex' & CE' & A & EX). unfold remove_path. rewrite A.
    destruct pushed as [m|] eqn:Pu.
    - (** and the mod. *)
      assert (MO : exists mo', tl (tree s3) = mo' ++ tree s /\ (mo = [] -> mo' = []) /\ tl (tree s3) <> []).
      { rewrite T3, T2, T1. destruct R as ((m0 & t0 & T0 & _) & _ & _). destruct mo as [|x mo].
        - exists []. cbn. rewrite T0. repeat split; auto. discriminate.
        - exists (mo ++ [m]). cbn. rewrite <- app_assoc. cbn. repeat split; [discriminate|]. destruct mo; discriminate. }
      destruct MO as (mo' & TL & MO & NE).
      unfold pop_mod. cbn [tree set_path]. destruct (tl (tree s3)) as [|m1 r1] eqn:TT; [contradiction|].
      intros E. injection E as <- <-. destruct R3 as (_ & L3 & U3). split; [split; [exists m1, r1; auto|split; [|exact U3]]|].
      + cbn [tree set_dir set_tree]. rewrite <- TT. destruct (tree s3) as [|m3 r3]; [constructor|]. inversion L3. assumption.
      + exists ex', mo'. cbn [path tree set_dir set_tree set_path]. repeat split; auto; try (apply EX, OK; assumption); try (apply MO, OK; assumption).
    - intros E. injection E as <- <-. destruct R3 as (D3 & L3 & U3). split; [split; [exact D3|split; [exact L3|exact U3]]|].
      exists ex', mo. cbn [path tree set_path]. split; [exact CE'|]. split; [reflexivity|]. split; [rewrite T3, T2, T1; reflexivity|].
      intros X. destruct (OK X) as [O1 O2]. split; [apply EX; exact O1|exact O2].
  Qed.

  Lemma require_restores : plain_world files -> forall fuel name s s' v, clean name -> ready s ->
    require mods files same fuel name s = (s', Ok v) -> path s' = path s /\ tree s' = tree s /\ dir s' = dir s.
  Proof.
    intros PW fuel name s s' v C R E. destruct (require_frame _ _ _ _ _ C R E) as (R' & ex & mo & _ & P & T & O).
    destruct (O (Logic.conj PW eq_refl)) as [-> ->]. split; [exact P|]. split; [exact T|].
    destruct R as ((m & r & T0 & D) & _). destruct R' as ((m' & r' & T0' & D') & _). cbn in T. rewrite T0' in T. rewrite T0 in T. injection T as -> ->. congruence.
  Qed.
  Lemma require_keeps : forall fuel name s s' r, clean name -> ready s -> require mods files same fuel name s = (s', r) ->
    ready s' /\ (exists extra, path s' = in_front extra (path s)) /\ exists more, tree s' = more ++ tree s.
  Proof.
    intros fuel name s s' r C R E. destruct (require_frame _ _ _ _ _ C R E) as (R' & ex & mo & _ & P & T & _). eauto.
  Qed.
End Frame.
