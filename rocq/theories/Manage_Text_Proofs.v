(** Proofs about the text of a dependency. *)
From Coq Require Import ZArith NArith List Bool String Lia.
From Verif Require Import Common Version_Model Manage_Model Manage_Spec Manage_Proofs Manage_Text_Model.
Import ListNotations.
Local Open Scope string_scope.
Local Open Scope list_scope.

Section Text.
  Variables uw ud : N -> bool.
  Lemma take_all p (s : pystr) : Forall (fun c => p c = true) (take_while p s).
  Proof. induction s as [|c s IH]; cbn [take_while]; [constructor|]. destruct (p c) eqn:E; constructor; auto. Qed.
  Lemma drop_head p (s : pystr) : match drop_while p s with c :: _ => p c = false | [] => True end.
  Proof. induction s as [|c s IH]; cbn [drop_while]; [exact I|]. destruct (p c) eqn:E; [exact IH|exact E]. Qed.
  Lemma take_idem p (s : pystr) : Forall (fun c => p c = true) s -> take_while p s = s /\ drop_while p s = [].
  Proof. intros F. destruct (take_stop p s [] F I) as [A B]. rewrite app_nil_r in A, B. auto. Qed.
  Lemma split_op_ok t o u : split_op t = (o, u) -> t = shown o ++ u /\ good_op o.
  Proof.
    unfold split_op. destruct (find _ _) as [g|] eqn:E; intros X; injection X as <- <-; [|split; [reflexivity|exact I]].
    apply find_some in E. destruct E as [J S]. unfold starts in S. apply pystr_eqb_eq in S. split; [|exact J].
    cbn [shown]. rewrite <- S at 1. symmetry. apply firstn_skipn.
  Qed.
  (** No sign starts with a number. *)
  Lemma split_op_number v : Forall (fun c => number_char ud c = true) v -> split_op v = (None, v).
  Proof.
    intros F. destruct F as [|c v E F]; [reflexivity|].
    assert (c <> 60 /\ c <> 61 /\ c <> 62)%N as [A [B C]] by (repeat split; intros ->; discriminate).
    unfold split_op, starts. change (str ">=") with [62; 61]%N. change (str "<=") with [60; 61]%N. change (str "==") with [61; 61]%N.
    change (str ">") with [62]%N. change (str "<") with [60]%N. change (str "=") with [61]%N.
    cbn [find List.length firstn pystr_eqb]. rewrite (proj2 (N.eqb_neq _ _) A), (proj2 (N.eqb_neq _ _) B), (proj2 (N.eqb_neq _ _) C). reflexivity.
  Qed.
  Lemma some_shown s : shown (some_text s) = s.
  Proof. destruct s; reflexivity. Qed.
  (** Reading what is left of a dependency, and reading only what counts. *)
  Lemma rest_again f n t d : scan_rest ud f n t = d -> scan_rest ud f n (shown (d_operation d) ++ shown (d_version d)) = d /\
    d_flag d = f /\ d_name d = Some n /\ good_op (d_operation d) /\ Forall (fun c => number_char ud c = true) (shown (d_version d)) /\
    exists r, t = shown (d_operation d) ++ shown (d_version d) ++ r.
  Proof.
    unfold scan_rest. destruct (split_op t) as [o u] eqn:S. intros <-. cbn [d_operation d_version d_flag d_name]. rewrite some_shown.
    destruct (split_op_ok t o u S) as [-> G]. pose proof (take_all (number_char ud) u) as F.
    assert (X : split_op (shown o ++ take_while (number_char ud) u) = (o, take_while (number_char ud) u)).
    { destruct o as [o|]; [|exact (split_op_number _ F)].
      assert (V : good_version ud (Some o) (some_text (take_while (number_char ud) u))).
      { destruct (take_while (number_char ud) u); [exact I|]. repeat split; try discriminate. exact F. }
      pose proof (op_split ud (Some o) _ G V) as Y. rewrite some_shown in Y. exact Y. }
    rewrite X. rewrite (proj1 (take_idem _ _ F)). repeat split; try assumption. exists (drop_while (number_char ud) u). rewrite take_drop. reflexivity.
  Qed.
  Lemma op_fillers o : good_op o -> Forall (fun c => filler uw c = true /\ c <> DASH /\ c <> SPACE /\ name_char uw c = false) (shown o).
  Proof.
    destruct o as [o|]; [|constructor]. cbn [good_op In shown].
    intros [<-|[<-|[<-|[<-|[<-|[<-|[]]]]]]]; repeat constructor; discriminate.
  Qed.
  Lemma after_dash_none s : after_dash s = None -> ~ In DASH s.
  Proof.
    induction s as [|c s IH]; cbn [after_dash]; [intros _ []|]. destruct (after_dash s); [discriminate|].
    destruct (N.eqb_spec c DASH) as [->|N]; [discriminate|]. intros _ [->|J]; [congruence|exact (IH eq_refl J)].
  Qed.
  Lemma no_after_dash s : ~ In DASH s -> after_dash s = None.
  Proof.
    induction s as [|c s IH]; cbn [after_dash]; [reflexivity|]. intros N. rewrite IH by (intros J; apply N; right; exact J).
    destruct (N.eqb_spec c DASH) as [->|]; [exfalso; apply N; left; reflexivity|reflexivity].
  Qed.
  Lemma after_dash_some s u : after_dash s = Some u -> ~ In DASH u /\ exists a, s = a ++ DASH :: u.
  Proof.
    revert u. induction s as [|c s IH]; cbn [after_dash]; [discriminate|]. intros u. destruct (after_dash s) as [w|] eqn:A.
    - intros X; injection X as ->. destruct (IH u eq_refl) as [N [a ->]]. split; [exact N|]. exists (c :: a). reflexivity.
    - destruct (N.eqb_spec c DASH) as [->|]; [|discriminate]. intros X; injection X as ->. split; [exact (after_dash_none u A)|]. exists []. reflexivity.
  Qed.
  Local Notation place_of := (place_of uw).
  (** The name and what follows stay in place when all before is left out. *)
  Lemma place_again r n t f : place_of r = Some (n, t) ->
    let d := scan_rest ud f n t in
    place_of (n ++ shown (d_operation d) ++ shown (d_version d)) = Some (n, shown (d_operation d) ++ shown (d_version d)) /\
    Forall (fun c => name_char uw c = true) n /\ match n with c :: _ => wordc uw c = true \/ c = DASH | [] => False end.
  Proof.
    intros P d. destruct (rest_again f n t d eq_refl) as [_ [_ [_ [G [V [z Z]]]]]].
    set (o := d_operation d) in *. set (v := d_version d) in *. clearbody o v.
    unfold Manage_Proofs.place_of in P. destruct (drop_while (filler uw) r) as [|c r'] eqn:D.
    - destruct (after_dash (take_while (filler uw) r)) as [u|] eqn:A; [|discriminate]. cbn [option_map] in P. injection P as <- <-.
      destruct (after_dash_some _ _ A) as [ND [a T]]. pose proof (take_all (filler uw) r) as F. rewrite T in F. rewrite Z in F, ND.
      rewrite app_assoc in F, ND.
      apply Forall_app in F. destruct F as [_ F]. inversion F as [|? ? _ F2]; subst. apply Forall_app in F2. destruct F2 as [F2 _].
      set (w := shown o ++ shown v) in *. unfold Manage_Proofs.place_of. cbn [app].
      assert (FF : Forall (fun c => filler uw c = true) (DASH :: w)) by (constructor; [reflexivity|exact F2]).
      destruct (take_idem _ _ FF) as [-> ->]. cbn [after_dash]. rewrite no_after_dash by (intros J; apply ND; apply in_or_app; left; exact J).
      rewrite N.eqb_refl. cbn [option_map]. repeat split; auto.
    - destruct (wordc uw c) eqn:W.
      + injection P as <- <-. pose proof (take_all (name_char uw) (c :: r')) as FN. pose proof (drop_head (name_char uw) (c :: r')) as HN.
        assert (NC : name_char uw c = true) by (unfold name_char; rewrite W; reflexivity).
        cbn [take_while drop_while] in *. rewrite NC in *. set (n := take_while (name_char uw) r') in *. rewrite Z in HN.
        repeat split; [|exact FN|left; exact W].
        unfold Manage_Proofs.place_of. cbn [app drop_while]. assert (FC : filler uw c = false) by (unfold filler; rewrite W; reflexivity).
        rewrite FC, W.
        destruct (take_stop (name_char uw) (c :: n) (shown o ++ shown v) FN) as [T Dr]; [|cbn [app] in T, Dr; rewrite T, Dr; reflexivity].
        destruct (shown o ++ shown v) as [|x w] eqn:E; [exact I|]. rewrite app_assoc, E in HN. exact HN.
      + destruct (after_dash (take_while (filler uw) r)) as [u|] eqn:A; [|discriminate]. cbn [option_map] in P. injection P as <- <-.
        destruct (after_dash_some _ _ A) as [ND [a T]]. pose proof (take_all (filler uw) r) as F. rewrite T in F.
        apply Forall_app in F. destruct F as [_ F]. inversion F as [|? ? _ F2]; subst.
        assert (FC : filler uw c = false). { pose proof (drop_head (filler uw) r) as H. rewrite D in H. exact H. }
        (* the version stops before the sign that is no filler *)
        assert (Fw : Forall (fun c => filler uw c = true) (shown o ++ shown v) /\ ~ In DASH (shown o ++ shown v)).
        { assert (NF : number_char ud c = false /\ ~ In c (shown o)).
          { unfold filler in FC. rewrite W in FC. apply negb_false_iff in FC. cbn [orb] in FC. apply orb_true_iff in FC. split.
            - destruct FC as [FC|FC]; apply N.eqb_eq in FC; subst c; reflexivity.
            - intros J. pose proof (op_fillers o G) as FO. rewrite Forall_forall in FO. destruct (FO c J) as [X _].
              unfold filler in X. rewrite W in X. destruct FC as [FC|FC]; rewrite FC in X; [|rewrite orb_true_r in X]; discriminate. }
          assert (NC : ~ In c (shown o ++ shown v)).
          { intros J. apply in_app_or in J. destruct J as [J|J]; [exact (proj2 NF J)|]. rewrite Forall_forall in V. rewrite (V c J) in NF. destruct NF. discriminate. }
          rewrite app_assoc in Z. revert Z NC. generalize (shown o ++ shown v) as w. clear - F2 ND. revert F2 ND.
          induction u as [|x u IH]; intros F2 ND w Z NC.
          - destruct w as [|y w]; [split; [constructor|intros []]|]. cbn [app] in Z. injection Z as -> _. exfalso. apply NC. left. reflexivity.
          - destruct w as [|y w]; [split; [constructor|intros []]|]. cbn [app] in Z. injection Z as <- Z. inversion F2; subst.
            destruct (IH ltac:(assumption) (fun J => ND (or_intror J)) w Z (fun J => NC (or_intror J))) as [A B]. split; [constructor; assumption|].
            intros [->|J]; [apply ND; left; reflexivity|exact (B J)]. }
        destruct Fw as [Fw Nw]. set (w := shown o ++ shown v) in *. unfold Manage_Proofs.place_of. cbn [app].
        assert (FF : Forall (fun c => filler uw c = true) (DASH :: w)) by (constructor; [reflexivity|exact Fw]).
        destruct (take_idem _ _ FF) as [-> ->]. cbn [after_dash]. rewrite (no_after_dash w Nw).
        rewrite N.eqb_refl. cbn [option_map]. repeat split; auto.
  Qed.
  Lemma split_flag_ok t f r : split_flag t = (f, r) -> good_flag f.
  Proof.
    unfold split_flag. destruct (find _ _) as [g|] eqn:E; intros X; injection X as <- <-; [|exact I].
    apply find_some in E. destruct E as [J _]. exact J.
  Qed.
  Lemma flag_again f n : good_flag f -> match n with c :: _ => wordc uw c = true \/ c = DASH | [] => False end -> split_flag (shown f ++ n) = (f, n).
  Proof.
    intros G H. destruct n as [|c n]; [destruct H|]. destruct H as [W| ->]; [apply (flag_split uw); assumption|].
    destruct f as [f|]; [|reflexivity]. cbn [good_flag In] in G. destruct G as [<-|[<-|[<-|[<-|[]]]]]; reflexivity.
  Qed.
  Lemma spaceless s : ~ In SPACE s -> no_spaces s = s.
  Proof.
    induction s as [|c s IH]; [reflexivity|]. intros X. unfold no_spaces. cbn [filter].
    destruct (N.eqb_spec c SPACE) as [->|]; [exfalso; apply X; left; reflexivity|]. cbn [negb]. f_equal. apply IH. intros J. apply X. right. exact J.
  Qed.
  Lemma no_spaces_app a b : no_spaces (a ++ b) = no_spaces a ++ no_spaces b.
  Proof. unfold no_spaces. apply filter_app. Qed.
  (** What was read, printed, is read again. *)
  Theorem str_again s d : read_dependency uw ud s = Ok d -> read_dependency uw ud (dependency_str d) = Ok d.
  Proof.
    rewrite !read_scan. destruct (scan uw ud (no_spaces s)) as [d'|] eqn:S; [|discriminate]. intros X; injection X as ->.
    rewrite scan_place in S. destruct (split_flag (no_spaces s)) as [f r] eqn:SF. destruct (place_of r) as [[n t]|] eqn:P; [|discriminate].
    cbn [option_map fst snd] in S. injection S as S.
    destruct (place_again r n t f P) as [PA [NC N1]]. rewrite S in PA.
    destruct (rest_again f n t d S) as [RA [DF [DN [GO [V _]]]]]. pose proof (split_flag_ok _ _ _ SF) as GF.
    assert (T : no_spaces (dependency_str d) = shown f ++ n ++ shown (d_operation d) ++ shown (d_version d)).
    { unfold dependency_str. rewrite DF, DN. repeat rewrite no_spaces_app. change (no_spaces [SPACE]) with (@nil N). cbn [app].
      assert (Q : forall o, or_empty o = shown o) by reflexivity. rewrite !Q.
      f_equal; [apply spaceless; destruct f as [f|]; [|intros []]; cbn [good_flag In] in GF; destruct GF as [<-|[<-|[<-|[<-|[]]]]]; cbn [shown]; intros J; cbn in J; intuition discriminate|].
      f_equal; [apply spaceless; intros J; rewrite Forall_forall in NC; specialize (NC _ J); discriminate|].
      f_equal; [apply spaceless; intros J; pose proof (op_fillers _ GO) as FO; rewrite Forall_forall in FO; destruct (FO _ J) as [_ [_ [K _]]]; congruence|].
      apply spaceless. intros J. rewrite Forall_forall in V. specialize (V _ J). discriminate. }
    rewrite T, scan_place. rewrite (flag_again f (n ++ _)); [|exact GF|destruct n; [destruct N1|exact N1]].
    rewrite PA. cbn [option_map fst snd]. rewrite RA. reflexivity.
  Qed.
  Theorem str_inj s s' d d' : read_dependency uw ud s = Ok d -> read_dependency uw ud s' = Ok d' -> dependency_str d = dependency_str d' -> d = d'.
  Proof. intros A B E. apply str_again in A, B. rewrite E in A. rewrite A in B. injection B. auto. Qed.
End Text.
Theorem depends_spec deps n : depends_on deps n = true <-> exists d, In d deps /\ d_name d = Some n.
Proof.
  unfold depends_on. rewrite existsb_exists. split; intros [d [J H]]; exists d; (split; [exact J|]).
  - destruct (d_name d) as [m|]; [|discriminate]. apply pystr_eqb_eq in H. subst. reflexivity.
  - rewrite H. apply pystr_eqb_refl.
Qed.
