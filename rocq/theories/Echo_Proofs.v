From Coq Require Import ZArith List Bool String Lia.
From Verif Require Import Common Echo_Model Echo_Spec.
Import ListNotations.
Local Open Scope list_scope.
Local Open Scope Z_scope.

Section Induction.
  Variable P : stmt -> Prop.
  Hypothesis HW : forall w, P (SWarn w).
  Hypothesis HE : forall n, P (SEffect n).
  Hypothesis HR : forall v, P (SReturn v).
  Hypothesis HX : forall x, P (SRaise x).
  Hypothesis HC : forall d body, Forall P body -> P (SCall d body).
  Hypothesis HT : forall body, Forall P body -> P (STry body).
  Fixpoint stmt_induct (s : stmt) : P s :=
    let all := fix all (l : list stmt) : Forall P l :=
      match l with [] => Forall_nil P | s' :: l' => Forall_cons s' (stmt_induct s') (all l') end in
    match s with
    | SWarn w => HW w
    | SEffect n => HE n
    | SReturn v => HR v
    | SRaise x => HX x
    | SCall d body => HC d body (all body)
    | STry body => HT body (all body)
    end.
End Induction.

Lemma recorded_app : forall a b, recorded (a ++ b) = recorded a ++ recorded b.
Proof. intros. unfold recorded. apply flat_map_app. Qed.
Lemma others_app : forall a b, others (a ++ b) = others a ++ others b.
Proof. intros. unfold others. apply filter_app. Qed.
Lemma recorded_others : forall l, recorded (others l) = [].
Proof. induction l as [|e l IH]; [reflexivity|]. destruct e; cbn; exact IH. Qed.
Lemma others_others : forall l, others (others l) = others l.
Proof. induction l as [|e l IH]; [reflexivity|]. destruct e; cbn; [exact IH| | | ]; f_equal; exact IH. Qed.
Lemma recorded_shown : forall ws, recorded (map Shown ws) = ws.
Proof. induction ws as [|w ws IH]; [reflexivity|]. cbn. f_equal. exact IH. Qed.
Lemma others_shown : forall ws, others (map Shown ws) = [].
Proof. induction ws as [|w ws IH]; [reflexivity|]. exact IH. Qed.

Lemma sub_refl : forall A (l : list A), sub l l.
Proof. induction l; constructor; assumption. Qed.
Lemma sub_empty : forall A (l : list A), sub [] l.
Proof. induction l; constructor; assumption. Qed.
Lemma sub_app : forall A (a b c d : list A), sub a b -> sub c d -> sub (a ++ c) (b ++ d).
Proof. intros A a b c d H K. induction H; cbn; [exact K| |]; constructor; assumption. Qed.

Section Run.
  Variable act : Z -> action.
  Notation run1 := (run1 act).
  Notation run := (run act).

  Lemma run1_call : forall d body, run1 (SCall d body) = result_of (if d then inner act (run body) else run body).
  Proof. intros. reflexivity. Qed.
  Lemma run1_try : forall body, run1 (STry body) = caught (run body).
  Proof. intros. reflexivity. Qed.
  Lemma run_cons : forall s l, run (s :: l) = after (run1 s) (run l).
  Proof. reflexivity. Qed.

  (** Only warnings that are always shown are recorded. *)
  Definition all_always (r : list event * outcome) : Prop := forall w, In w (recorded (fst r)) -> act w = Always.
  Lemma emit_always : forall w, all_always (emit act w).
  Proof. intros w v I. unfold emit in I. destruct (act w) eqn:A; cbn in I; try contradiction. destruct I as [<-|[]]. exact A. Qed.
  Lemma after_always : forall r k, all_always r -> all_always k -> all_always (after r k).
  Proof.
    intros r k R K w I. unfold after in I. destruct (snd r); try exact (R w I). cbn in I.
    rewrite recorded_app in I. apply in_app_or in I. destruct I as [I|I]; [exact (R w I)|exact (K w I)].
  Qed.
  Lemma reissue_always : forall ws, (forall w, In w ws -> act w = Always) -> reissue act ws = (map Shown ws, Next).
  Proof.
    induction ws as [|w ws IH]; intro H; [reflexivity|]. cbn [reissue map]. unfold emit.
    rewrite (H w (or_introl eq_refl)), IH by (intros v I; apply H; right; exact I). reflexivity.
  Qed.
  (** The decorator, said directly. *)
  Lemma inner_is : forall r, all_always r ->
    inner act r = match snd r with
                  | Raised x => (others (fst r), Raised x)
                  | o => (others (fst r) ++ map Shown (recorded (fst r)), o)
                  end.
  Proof.
    intros r A. unfold inner. destruct (snd r) eqn:O; cbv zeta; try reflexivity;
      rewrite (reissue_always _ A); reflexivity.
  Qed.
  Lemma inner_always : forall r, all_always r -> all_always (inner act r).
  Proof.
    intros r A w I. rewrite (inner_is r A) in I. destruct (snd r); cbn in I;
      rewrite ?recorded_app, ?recorded_others, ?recorded_shown in I; cbn in I; try contradiction; exact (A w I).
  Qed.
  Lemma result_always : forall r, all_always r -> all_always (result_of r).
  Proof.
    intros r A w I. unfold result_of in I. destruct (snd r); cbn in I; rewrite ?recorded_app in I; cbn in I;
      rewrite ?app_nil_r in I; exact (A w I).
  Qed.
  Lemma caught_always : forall r, all_always r -> all_always (caught r).
  Proof.
    intros r A w I. unfold caught in I. destruct (snd r); cbn in I; rewrite ?recorded_app in I; cbn in I;
      rewrite ?app_nil_r in I; exact (A w I).
  Qed.
  Lemma run_always_of : forall l, Forall (fun s => all_always (run1 s)) l -> all_always (run l).
  Proof.
    intros l F. induction F as [|s l S F IH]; [intros w []|]. rewrite run_cons. exact (after_always _ _ S IH).
  Qed.
  Lemma run1_always : forall s, all_always (run1 s).
  Proof.
    induction s as [w|n|v|x|d body F|body F] using stmt_induct.
    - exact (emit_always w).
    - intros w I. destruct I.
    - intros w I. destruct I.
    - intros w I. destruct I.
    - rewrite run1_call. apply result_always. pose proof (run_always_of body F) as A.
      destruct d; [exact (inner_always _ A)|exact A].
    - rewrite run1_try. exact (caught_always _ (run_always_of body F)).
  Qed.
  Lemma run_always : forall l, all_always (run l).
  Proof. intro l. apply run_always_of. induction l; constructor; [apply run1_always|assumption]. Qed.

  (** ** One decorated call *)
  Theorem decorated_call : forall body,
    run [SCall true body] =
      match ends act body with
      | Raised x => (seen act body, Raised x)
      | Returned v => (seen act body ++ map Shown (shown act body) ++ [Gave (Some v)], Next)
      | Next => (seen act body ++ map Shown (shown act body) ++ [Gave None], Next)
      end.
  Proof.
    intro body. rewrite run_cons, run1_call. rewrite (inner_is _ (run_always body)).
    unfold ends, seen, shown. destruct (snd (run body)); unfold result_of, after; cbn [fst snd Echo_Model.run];
      rewrite ?app_nil_r, <- ?app_assoc; reflexivity.
  Qed.

  (** ** Programs with and without decorators *)
  Definition alike (r k : list event * outcome) : Prop :=
    snd r = snd k /\ others (fst r) = others (fst k) /\ sub (recorded (fst r)) (recorded (fst k)).
  Lemma after_alike : forall r k r' k', alike r r' -> alike k k' -> alike (after r k) (after r' k').
  Proof.
    intros r k r' k' (A & B & C) (A' & B' & C'). unfold after. rewrite <- A. destruct (snd r) eqn:O.
    - split; [exact A'|]. cbn [fst]. rewrite !others_app, !recorded_app, B, B'. split; [reflexivity|exact (sub_app _ _ _ _ _ C C')].
    - split; [congruence|]. split; [exact B|exact C].
    - split; [congruence|]. split; [exact B|exact C].
  Qed.
  Lemma inner_alike : forall r k, all_always r -> alike r k -> alike (inner act r) k.
  Proof.
    intros r k A (B & C & D). rewrite (inner_is r A). destruct (snd r) eqn:O; unfold alike; cbn [fst snd];
      rewrite ?others_app, ?recorded_app, ?others_others, ?recorded_others, ?others_shown, ?recorded_shown, ?app_nil_r;
      (split; [exact B|split; [exact C|]]); try exact D. apply sub_empty.
  Qed.
  Lemma result_alike : forall r k, alike r k -> alike (result_of r) (result_of k).
  Proof.
    intros r k (A & B & C). unfold result_of. rewrite <- A. destruct (snd r); unfold alike; cbn [fst snd];
      rewrite ?others_app, ?recorded_app, ?B; (split; [reflexivity|split; [reflexivity|]]);
      try exact C; apply sub_app; (exact C || apply sub_refl).
  Qed.
  Lemma caught_alike : forall r k, alike r k -> alike (caught r) (caught k).
  Proof.
    intros r k (A & B & C). unfold caught. rewrite <- A. destruct (snd r); unfold alike; cbn [fst snd];
      rewrite ?others_app, ?recorded_app, ?B; (split; [reflexivity|split; [reflexivity|]]);
      try exact C; apply sub_app; (exact C || apply sub_refl).
  Qed.
  Lemma run_alike_of : forall l, Forall (fun s => alike (run1 s) (run1 (plain1 s))) l -> alike (run l) (run (map plain1 l)).
  Proof.
    intros l F. induction F as [|s l S F IH].
    - split; [reflexivity|]. split; [reflexivity|]. apply sub_refl.
    - cbn [map]. rewrite !run_cons. exact (after_alike _ _ _ _ S IH).
  Qed.
  Lemma same_alike : forall r, alike r r.
  Proof. intro r. split; [reflexivity|]. split; [reflexivity|apply sub_refl]. Qed.
  Lemma run1_alike : forall s, alike (run1 s) (run1 (plain1 s)).
  Proof.
    induction s as [w|n|v|x|d body F|body F] using stmt_induct; try apply same_alike; cbn [plain1].
    - rewrite !run1_call. apply result_alike. pose proof (run_alike_of body F) as A.
      destruct d; [exact (inner_alike _ _ (run_always body) A)|exact A].
    - rewrite !run1_try. exact (caught_alike _ _ (run_alike_of body F)).
  Qed.
  Theorem same_program : forall l, ends act l = ends act (plain l) /\ seen act l = seen act (plain l) /\
    sub (shown act l) (shown act (plain l)).
  Proof.
    intro l. apply run_alike_of. induction l; constructor; [apply run1_alike|assumption].
  Qed.

  (** Without exceptions no warning is lost. *)
  Definition twin (r k : list event * outcome) : Prop :=
    (forall x, snd r <> Raised x) /\ snd r = snd k /\ recorded (fst r) = recorded (fst k).
  Lemma after_twin : forall r k r' k', twin r r' -> twin k k' -> twin (after r k) (after r' k').
  Proof.
    intros r k r' k' (N & A & B) (N' & A' & B'). unfold after. rewrite <- A. destruct (snd r) eqn:O.
    - split; [exact N'|]. split; [exact A'|]. cbn [fst]. rewrite !recorded_app, B, B'. reflexivity.
    - split; [rewrite O; exact N|]. split; [congruence|exact B].
    - exfalso. exact (N x eq_refl).
  Qed.
  Lemma inner_twin : forall r k, all_always r -> twin r k -> twin (inner act r) k.
  Proof.
    intros r k A (N & B & C). rewrite (inner_is r A). destruct (snd r) eqn:O.
    - split; [intros x; discriminate|]. split; [exact B|]. cbn [fst]. rewrite recorded_app, recorded_others, recorded_shown. exact C.
    - split; [intros x; discriminate|]. split; [exact B|]. cbn [fst]. rewrite recorded_app, recorded_others, recorded_shown. exact C.
    - exfalso. exact (N x eq_refl).
  Qed.
  Lemma result_twin : forall r k, twin r k -> twin (result_of r) (result_of k).
  Proof.
    intros r k (N & A & B). unfold result_of. rewrite <- A. destruct (snd r) eqn:O; unfold twin; cbn [fst snd];
      rewrite ?recorded_app, ?B; (split; [intros y; first [discriminate|exact (fun _ => N y eq_refl)|apply N]|split; reflexivity]).
  Qed.
  Lemma caught_twin : forall r k, twin r k -> twin (caught r) (caught k).
  Proof.
    intros r k (N & A & B). unfold caught. rewrite <- A. destruct (snd r) eqn:O; unfold twin; cbn [fst snd];
      rewrite ?recorded_app, ?B; (split; [intros y; discriminate|split; reflexivity]).
  Qed.
  Lemma run_twin_of : forall l, Forall (fun s => quiet1 act s -> twin (run1 s) (run1 (plain1 s))) l ->
    quiet act l -> twin (run l) (run (map plain1 l)).
  Proof.
    intros l F. induction F as [|s l S F IH]; intro Q.
    - split; [intros x; discriminate|]. split; reflexivity.
    - destruct Q as (Q1 & Q2). cbn [map]. rewrite !run_cons. exact (after_twin _ _ _ _ (S Q1) (IH Q2)).
  Qed.
  Lemma quiet_call : forall d body, quiet1 act (SCall d body) = quiet act body.
  Proof. reflexivity. Qed.
  Lemma quiet_try : forall body, quiet1 act (STry body) = quiet act body.
  Proof. reflexivity. Qed.
  Lemma run1_twin : forall s, quiet1 act s -> twin (run1 s) (run1 (plain1 s)).
  Proof.
    induction s as [w|n|v|x|d body F|body F] using stmt_induct; intro Q; cbn [plain1].
    - cbn in Q. unfold Echo_Model.run1, emit. split; [|split; reflexivity]. intro x. destruct (act w); try discriminate. congruence.
    - split; [intros x; discriminate|split; reflexivity].
    - split; [intros x; discriminate|split; reflexivity].
    - destruct Q.
    - rewrite quiet_call in Q. rewrite !run1_call. apply result_twin. pose proof (run_twin_of body F Q) as A.
      destruct d; [exact (inner_twin _ _ (run_always body) A)|exact A].
    - rewrite quiet_try in Q. rewrite !run1_try. exact (caught_twin _ _ (run_twin_of body F Q)).
  Qed.
  Theorem nothing_lost : forall l, quiet act l ->
    shown act l = shown act (plain l) /\ ~ raises (ends act l).
  Proof.
    intros l Q.
    assert (T : twin (run l) (run (plain l))).
    { apply run_twin_of; [|exact Q]. clear Q. induction l; constructor; [apply run1_twin|assumption]. }
    destruct T as (N & _ & B). split; [exact B|]. intros (x & K). exact (N x K).
  Qed.
  (** If every warning is turned into an exception, none is shown, so none is lost. *)
  Theorem all_fail : forall l, (forall w, act w <> Always) -> shown act l = [].
  Proof.
    intros l N. unfold shown. destruct (recorded (fst (run l))) as [|w ws] eqn:R; [reflexivity|].
    exfalso. apply (N w). apply (run_always l w). rewrite R. left. reflexivity.
  Qed.
End Run.

(** ** Suggestions *)
Theorem suggests : forall several ex cutoff,
  exists names, reaching cutoff ex names /\
    get_suggestion several ex cutoff =
      match names with
      | [] => []
      | [s] => str "; did you mean '" ++ s ++ str "'?"
      | _ => str "; did you mean one of " ++ several names ++ str "?"
      end.
Proof.
  intros several ex cutoff. exists (map fst (filter (fun s => cutoff <=? snd s) ex)). split; [|reflexivity].
  induction ex as [|(s, n) ex IH]; [constructor|]. cbn [filter snd]. destruct (cutoff <=? n) eqn:L; cbn [map fst].
  - apply reach_in; [apply Z.leb_le; exact L|exact IH].
  - apply reach_out; [apply Z.leb_gt; exact L|exact IH].
Qed.
Theorem no_suggestion : forall several ex cutoff,
  get_suggestion several ex cutoff = [] <-> forall s n, In (s, n) ex -> n < cutoff.
Proof.
  intros several ex cutoff. destruct (suggests several ex cutoff) as (names & R & ->). split.
  - intro E. assert (N : names = []) by (destruct names as [|a [|b c]]; [reflexivity|discriminate|discriminate]).
    clear E. subst names. remember (@nil pystr) as e eqn:Z0. intros s n I. induction R as [|t k ex names L R IH|t k ex names L R IH].
    + destruct I.
    + discriminate.
    + destruct I as [I|I]; [injection I as -> ->; exact L|exact (IH Z0 I)].
  - intro H. destruct R as [|t k ex names L R|t k ex names L R].
    + reflexivity.
    + specialize (H t k (or_introl eq_refl)). lia.
    + assert (N : names = []); [|rewrite N; reflexivity].
      clear L. assert (H' : forall s n, In (s, n) ex -> n < cutoff) by (intros s n I; exact (H s n (or_intror I))).
      clear H. induction R as [|u j ex names L R IH|u j ex names L R IH]; [reflexivity| |].
      * specialize (H' u j (or_introl eq_refl)). lia.
      * apply IH. intros s n I. exact (H' s n (or_intror I)).
Qed.
