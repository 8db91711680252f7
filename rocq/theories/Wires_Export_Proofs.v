(** Proofs about exporting and importing wires. *)
From Coq Require Import ZArith List Bool String Lia.
From Verif Require Import Common Dict Wires_Model Wires_Spec Wires_Proofs Wires_More_Proofs.
Import ListNotations.
Local Open Scope Z_scope.
Local Open Scope list_scope.

Lemma mapM_ok : forall {A B} (f : A -> result B) l r, mapM f l = Ok r <-> Forall2 (fun a b => f a = Ok b) l r.
Proof.
  intros A B f l. induction l as [|a l IH]; intros r; simpl.
  - split; [intros E; inversion E; constructor|intros F; inversion F; reflexivity].
  - rewrite bind_ok. split.
    + intros [b [Eb E]]. apply bind_ok in E. destruct E as [r' [Er E]]. inversion E; subst.
      constructor; [exact Eb|]. apply IH. exact Er.
    + intros F. inversion F as [|? b ? r' Eb Er]; subst. exists b. split; [exact Eb|].
      apply bind_ok. exists r'. split; [apply IH; exact Er|reflexivity].
Qed.
Lemma forall2_iff : forall {A B} (P Q : A -> B -> Prop) l r, (forall a b, P a b <-> Q a b) -> (Forall2 P l r <-> Forall2 Q l r).
Proof.
  intros A B P Q l r H. split; intros F; induction F; constructor; try assumption; apply H; assumption.
Qed.
Lemma index_of_iff : forall {A} (eqb : A -> A -> bool) l x n, index_of eqb l x = Some n <->
  exists pre y post, l = pre ++ y :: post /\ List.length pre = n /\ eqb y x = true /\ forall z, In z pre -> eqb z x = false.
Proof.
  intros A eqb l x. induction l as [|a l IH]; intros n; simpl.
  - split; [discriminate|]. intros [pre [y [post [E _]]]]. destruct pre; discriminate.
  - destruct (eqb a x) eqn:E.
    + split.
      * intros F. inversion F. exists [], a, l. repeat split; [exact E|]. intros z [].
      * intros [[|b pre] [y [post [F [L [Y N]]]]]]; [simpl in L; subst; reflexivity|].
        simpl in F. inversion F; subst. rewrite (N b (or_introl eq_refl)) in E. discriminate.
    + split.
      * destruct (index_of eqb l x) as [m|] eqn:I; [|discriminate]. intros F. inversion F; subst.
        destruct (proj1 (IH m) eq_refl) as [pre [y [post [-> [L [Y N]]]]]]. exists (a :: pre), y, post.
        simpl. repeat split; [f_equal; exact L|exact Y|]. intros z [<-|J]; auto.
      * intros [[|b pre] [y [post [F [L [Y N]]]]]]; simpl in F; inversion F; subst; [congruence|].
        rewrite (proj2 (IH (List.length pre))); [reflexivity|]. exists pre, y, post. repeat split; [exact Y|].
        intros z J. apply N. right. exact J.
Qed.
Lemma index_of_none : forall {A} (eqb : A -> A -> bool) l x, index_of eqb l x = None <-> existsb (fun y => eqb y x) l = false.
Proof.
  intros A eqb l x. induction l as [|a l IH]; simpl; [split; reflexivity|].
  destruct (eqb a x); simpl; [split; discriminate|]. rewrite <- IH. destruct (index_of eqb l x); simpl; split; congruence.
Qed.

(** ** Removing duplicates *)
Section Dedup.
  Context {A : Type} (eqb : A -> A -> bool) (eqb_eq : forall a b, eqb a b = true <-> a = b).
  Definition step (out : list A) (n : A) : list A := if existsb (eqb n) out then out else out ++ [n].
  Lemma existsb_in : forall n out, existsb (eqb n) out = true <-> In n out.
  Proof.
    intros n out. rewrite existsb_exists. split.
    - intros [x [I E]]. apply eqb_eq in E. subst. exact I.
    - intros I. exists n. split; [exact I|apply eqb_eq; reflexivity].
  Qed.
  Lemma deduped_in : forall l d, deduped l d -> forall x : A, In x l <-> In x d.
  Proof.
    intros l d D. induction D as [|l d x D IH N|l d x D IH I]; intros y; [reflexivity| |].
    - rewrite !in_app_iff, IH. reflexivity.
    - rewrite in_app_iff, IH. split; [intros [H|[<-|[]]]; [exact H|apply IH; exact I]|auto].
  Qed.
  Lemma step_dedup : forall all l d, deduped l d -> deduped (l ++ all) (fold_left step all d).
  Proof.
    induction all as [|n all IH]; intros l d D; simpl; [rewrite app_nil_r; exact D|].
    change (n :: all) with ([n] ++ all). rewrite app_assoc. apply IH. unfold step.
    destruct (existsb (eqb n) d) eqn:E.
    - apply existsb_in in E. apply dd_old; [exact D|]. apply (deduped_in _ _ D). exact E.
    - apply dd_new; [exact D|]. intros C. apply (deduped_in _ _ D) in C. apply existsb_in in C. congruence.
  Qed.
  Lemma deduped_step : forall l d, deduped l d <-> d = fold_left step l [].
  Proof.
    intros l d. split.
    - intros D. induction D as [|l d x D IH N|l d x D IH I]; [reflexivity| |]; rewrite fold_left_app; cbn [fold_left];
        rewrite <- IH; unfold step.
      + assert (X : existsb (eqb x) d = false); [|rewrite X; reflexivity].
        destruct (existsb (eqb x) d) eqn:E; [|reflexivity]. apply existsb_in in E. apply (deduped_in _ _ D) in E. contradiction.
      + assert (X : existsb (eqb x) d = true); [|rewrite X; reflexivity].
        apply existsb_in. apply (deduped_in _ _ D). exact I.
    - intros ->. apply (step_dedup l [] []). constructor.
  Qed.
End Dedup.
Lemma deduped_map : forall {A B} (g : A -> B) l d, deduped l d ->
  (forall x y, In x l -> In y l -> g x = g y -> x = y) -> deduped (map g l) (map g d).
Proof.
  intros A B g l d D. induction D as [|l d x D IH N|l d x D IH I]; intros J; [constructor| |].
  - rewrite !map_app. cbn [map]. apply dd_new.
    + apply IH. intros u v U V. apply J; apply in_app_iff; auto.
    + intros C. apply in_map_iff in C. destruct C as [u [E U]].
      apply J in E; [subst; contradiction|apply in_app_iff; auto|apply in_app_iff; right; left; reflexivity].
  - rewrite map_app. cbn [map]. apply dd_old.
    + apply IH. intros u v U V. apply J; apply in_app_iff; auto.
    + apply in_map. exact I.
Qed.
Lemma deduped_nodup : forall {A} (l d : list A), deduped l d -> NoDup d.
Proof.
  intros A l d D. induction D as [|l d x D IH N|l d x D IH I]; [constructor| |exact IH].
  apply NoDup_app_intro; [exact IH|repeat constructor; intros []|].
  intros y Y [<-|[]]. apply N. apply (deduped_in l d D). exact Y.
Qed.
Lemma nodup_deduped : forall {A} (l : list A), NoDup l -> deduped l l.
Proof.
  intros A l. induction l as [|x l IH] using rev_ind; intros N; [constructor|].
  apply NoDup_remove in N. rewrite app_nil_r in N. destruct N as [N I]. apply dd_new; [apply IH; exact N|exact I].
Qed.

Lemma xwire_eqb_eq : forall a b, xwire_eqb a b = true <-> a = b.
Proof.
  intros [[[a1 s1] a2] s2] [[[b1 t1] b2] t2]. unfold xwire_eqb. rewrite !andb_true_iff, !Z.eqb_eq. split.
  - intros [[[-> ->] ->] ->]. reflexivity.
  - intros E. inversion E. auto.
Qed.

Section Export.
  Variable veq : nat -> nat -> bool.

  Lemma same_false : forall a b, same veq a b = false <-> a <> b /\ veq a b = false.
  Proof. intros. unfold same. rewrite orb_false_iff, Nat.eqb_neq. reflexivity. Qed.

  Lemma number_iff : forall fl x n, number veq fl x = Ok n <-> number_is veq fl x n.
  Proof.
    intros fl x n. unfold number, number_is. destruct (index_of (same veq) fl x) as [m|] eqn:I.
    - split.
      + intros E. inversion E; subst. apply index_of_iff in I. destruct I as [pre [y [post [-> [<- [Y N]]]]]].
        exists pre, y, post. repeat split; [apply same_iff; exact Y|..]; intros; apply same_false, N; assumption.
      + intros [pre [y [post [-> [-> [Y N]]]]]].
        assert (X : index_of (same veq) (pre ++ y :: post) x = Some (List.length pre)).
        { apply index_of_iff. exists pre, y, post. repeat split; [apply same_iff; exact Y|]. intros z Z. apply same_false, N, Z. }
        rewrite X in I. inversion I. reflexivity.
    - split; [discriminate|]. intros [pre [y [post [-> [-> [Y N]]]]]].
      assert (X : index_of (same veq) (pre ++ y :: post) x = Some (List.length pre)).
      { apply index_of_iff. exists pre, y, post. repeat split; [apply same_iff; exact Y|]. intros z Z. apply same_false, N, Z. }
      congruence.
  Qed.
  Lemma number_exists : forall fl x, existsb (fun y => same veq y x) fl = true <-> exists n, number veq fl x = Ok n.
  Proof.
    intros fl x. unfold number. pose proof (index_of_none (same veq) fl x) as I.
    destruct (existsb (fun y => same veq y x) fl) eqn:E.
    - split; [|reflexivity]. intros _. destruct (index_of (same veq) fl x); [eauto|]. discriminate (proj1 I eq_refl).
    - rewrite (proj2 I eq_refl). split; [discriminate|intros [n C]; discriminate].
  Qed.
  Lemma export_end_iff : forall fl w n, export_end veq fl w = Ok n <-> end_is veq fl w n.
  Proof.
    intros fl w n. unfold end_is. split.
    - destruct w as [z|[x|]]; try discriminate. simpl. destruct (existsb (fun y => same veq y x) fl); [|discriminate].
      intros E. exists x. split; [reflexivity|]. apply number_iff. exact E.
    - intros [x [-> N]]. simpl. apply number_iff in N. rewrite (proj2 (number_exists fl x)); [exact N|eauto].
  Qed.
  Lemma export_loco_iff : forall fl w n, export_loco veq fl w = Ok n <-> end_is veq fl w n.
  Proof.
    intros fl w n. unfold end_is. split.
    - destruct w as [z|[x|]]; try discriminate. simpl. intros E. exists x. split; [reflexivity|]. apply number_iff. exact E.
    - intros [x [-> N]]. simpl. apply number_iff. exact N.
  Qed.
  Lemma export_wire_iff : forall fl w x, export_wire veq fl w = Ok x <-> wire_is veq fl w x.
  Proof.
    intros fl [[[e1 t1] e2] t2] [[[n1 u1] n2] u2]. unfold export_wire, wire_is. cbn [fst snd].
    rewrite bind_ok. split.
    - intros [a [A E]]. apply bind_ok in E. destruct E as [b [B E]]. inversion E; subst.
      repeat split; apply export_end_iff; assumption.
    - intros [A [-> [B ->]]]. exists n1. split; [apply export_end_iff; exact A|]. apply bind_ok.
      exists n2. split; [apply export_end_iff; exact B|reflexivity].
  Qed.
  Lemma export_wires_iff : forall fl ws out r, export_wires veq fl ws out = Ok r <->
    exists all, Forall2 (wire_is veq fl) ws all /\ r = fold_left (step xwire_eqb) all out.
  Proof.
    intros fl ws. induction ws as [|w ws IH]; intros out r; simpl.
    - split.
      + intros E. inversion E. exists []. split; [constructor|reflexivity].
      + intros [all [F ->]]. inversion F. reflexivity.
    - rewrite bind_ok. split.
      + intros [n [N E]]. apply IH in E. destruct E as [all [F ->]]. exists (n :: all). split; [|reflexivity].
        constructor; [apply export_wire_iff; exact N|exact F].
      + intros [all [F ->]]. inversion F as [|? n ? all' Fn Fr]; subst. exists n. split; [apply export_wire_iff; exact Fn|].
        apply IH. exists all'. split; [exact Fr|reflexivity].
  Qed.
  Lemma schedule_iff : forall fl locos out, export_schedule veq fl locos = Ok out <->
    locos <> [] /\ Forall2 (end_is veq fl) locos out.
  Proof.
    intros fl locos out. unfold export_schedule. destruct locos as [|l locos]; [split; [discriminate|intros [C _]; contradiction]|].
    rewrite mapM_ok. erewrite forall2_iff by (intros; apply export_loco_iff). split; [intros F; split; [discriminate|exact F]|tauto].
  Qed.
  Lemma numbered_nth : forall fl i k p, nth_error (numbered i fl) k = Some p <->
    nth_error fl k = Some (fst p) /\ snd p = i + Z.of_nat k + 1.
  Proof.
    induction fl as [|x fl IH]; intros i k [a n]; cbn [numbered].
    - destruct k; simpl; split; intuition discriminate.
    - destruct k as [|k]; cbn [nth_error].
      + cbn [fst snd]. split; [intros E; inversion E; split; [reflexivity|lia]|]. intros [E ->]. inversion E. do 2 f_equal. lia.
      + rewrite IH. cbn [fst snd]. split; intros [A B]; (split; [exact A|lia]).
  Qed.
  Lemma nth_ext_error : forall {A} (l l' : list A), (forall k p, nth_error l k = Some p <-> nth_error l' k = Some p) -> l = l'.
  Proof.
    intros A l. induction l as [|a l IH]; intros [|b l'] H; [reflexivity| | |].
    - discriminate (proj2 (H O b) eq_refl).
    - discriminate (proj1 (H O a) eq_refl).
    - pose proof (proj1 (H O a) eq_refl) as E. inversion E; subst. f_equal. apply IH. intros k p. apply (H (S k) p).
  Qed.

  Theorem export_iff : forall c ss x, export veq c ss = Ok x <->
    exists fl inner all, flat (c_ents c) fl /\ flat_wires (c_ents c) inner /\
      (forall k p, nth_error (x_ents x) k = Some p <-> nth_error fl k = Some (fst p) /\ snd p = Z.of_nat k + 1) /\
      Forall2 (fun locos out => locos <> [] /\ Forall2 (end_is veq fl) locos out) ss (x_scheds x) /\
      Forall2 (wire_is veq fl) (c_wires c ++ inner) all /\ deduped all (x_wires x).
  Proof.
    intros c ss x. unfold export. rewrite bind_ok. split.
    - intros [so [S E]]. apply bind_ok in E. destruct E as [ws [W E]]. inversion E; subst.
      apply export_wires_iff in W. destruct W as [all [F ->]].
      exists (flatten (c_ents c)), (flat_map inner_wires (c_ents c)), all. cbn [x_ents x_scheds x_wires].
      split; [apply flat_flatten|]. split; [apply flatw_inner|]. split; [intros k p; apply (numbered_nth (flatten (c_ents c)) 0)|].
      split; [|split; [exact F|apply (deduped_step xwire_eqb xwire_eqb_eq); reflexivity]].
      apply mapM_ok in S. revert S. apply forall2_iff. intros; first [apply schedule_iff|symmetry; apply schedule_iff].
    - intros [fl [inner [all [F [FW [X [S [W D]]]]]]]]. apply flat_unique in F. apply flatw_unique in FW. subst.
      exists (x_scheds x). split; [apply mapM_ok; revert S; apply forall2_iff; intros; first [apply schedule_iff|symmetry; apply schedule_iff]|].
      apply bind_ok. exists (x_wires x). split.
      + apply export_wires_iff. exists all. split; [exact W|]. apply (deduped_step xwire_eqb xwire_eqb_eq). exact D.
      + f_equal. destruct x as [xe xs xw]. cbn [x_ents x_scheds x_wires] in *. f_equal.
        apply nth_ext_error. intros k p. rewrite X, numbered_nth. reflexivity.
  Qed.

  (** With distinct entities the number is the place. *)
  Lemma number_place : forall fl x n, distinct veq fl -> In x fl ->
    (number_is veq fl x n <-> exists k, nth_error fl k = Some x /\ n = Z.of_nat k + 1).
  Proof.
    intros fl x n [ND V] I. unfold number_is. split.
    - intros [pre [y [post [-> [-> [Y N]]]]]]. exists (List.length pre). split; [|reflexivity].
      rewrite nth_error_app2, Nat.sub_diag by lia. simpl. f_equal.
      destruct Y as [Y|Y]; [exact Y|]. apply V; [apply in_elt|exact I|exact Y].
    - intros [k [E ->]]. apply nth_error_split in E. destruct E as [pre [post [-> L]]]. exists pre, x, post.
      split; [reflexivity|]. split; [lia|]. split; [left; reflexivity|]. intros z Z.
      assert (NZ : z <> x). { intros ->. apply NoDup_remove_2 in ND. apply ND. apply in_app_iff. auto. }
      split; [exact NZ|]. destruct (veq z x) eqn:E; [|reflexivity]. exfalso. apply NZ. apply V; [apply in_app_iff; auto|exact I|exact E].
  Qed.

  (** ** Failing *)
  Lemma export_end_err : forall fl e, (exists o, e = WRef o) ->
    (lost veq fl e /\ export_end veq fl e = Err InvalidAssociationError) \/ (~ lost veq fl e /\ exists n, export_end veq fl e = Ok n).
  Proof.
    intros fl e [[x|] ->]; simpl.
    - destruct (existsb (fun y => same veq y x) fl) eqn:E.
      + right. split; [|apply number_exists; exact E]. intros [C|[x' [C N]]]; [discriminate|]. inversion C; subst x'.
        apply existsb_exists in E. destruct E as [y [I S]]. apply same_iff in S. destruct (N y I) as [A B]. destruct S; congruence.
      + left. split; [|reflexivity]. right. exists x. split; [reflexivity|]. intros y I. apply same_false.
        destruct (same veq y x) eqn:S; [|reflexivity]. rewrite <- E. symmetry. apply existsb_exists. exists y. auto.
    - left. split; [left; reflexivity|reflexivity].
  Qed.
  Lemma export_wires_err : forall fl ws out,
    (forall w, In w ws -> (exists o, fst (fst (fst w)) = WRef o) /\ exists o, snd (fst w) = WRef o) ->
    ((exists w, In w ws /\ (lost veq fl (fst (fst (fst w))) \/ lost veq fl (snd (fst w)))) /\ export_wires veq fl ws out = Err InvalidAssociationError) \/
    (~ (exists w, In w ws /\ (lost veq fl (fst (fst (fst w))) \/ lost veq fl (snd (fst w)))) /\ exists r, export_wires veq fl ws out = Ok r).
  Proof.
    intros fl ws. induction ws as [|[[[e1 t1] e2] t2] ws IH]; intros out H.
    - right. split; [intros [w [[] _]]|simpl; eauto].
    - destruct (H _ (or_introl eq_refl)) as [H1 H2]. cbn [fst snd] in H1, H2. cbn [export_wires export_wire].
      destruct (export_end_err fl e1 H1) as [[L1 E1]|[N1 [a E1]]]; rewrite E1; cbn [bind].
      { left. split; [|reflexivity]. eexists. split; [left; reflexivity|]. left. exact L1. }
      destruct (export_end_err fl e2 H2) as [[L2 E2]|[N2 [b E2]]]; rewrite E2; cbn [bind].
      { left. split; [|reflexivity]. eexists. split; [left; reflexivity|]. right. exact L2. }
      destruct (IH (if existsb (xwire_eqb (a, t1, b, t2)) out then out else out ++ [(a, t1, b, t2)])) as [[[w [I L]] E]|[N E]].
      { intros w I. apply H. right. exact I. }
      + left. split; [|exact E]. exists w. split; [right; exact I|exact L].
      + right. split; [|exact E]. intros [w [[<-|I] L]]; [cbn [fst snd] in L; tauto|]. apply N. eauto.
  Qed.
  Theorem export_lost : forall c ss fl inner, flat (c_ents c) fl -> flat_wires (c_ents c) inner ->
    associations (c_wires c ++ inner) ->
    Forall (fun locos => locos <> [] /\ Forall (fun e => exists x y, e = WRef (Some x) /\ In y fl /\ (y = x \/ veq y x = true)) locos) ss ->
    (has_lost veq fl (c_wires c ++ inner) <->
      export veq c ss = Err InvalidAssociationError) /\
    (~ has_lost veq fl (c_wires c ++ inner) <->
      exists x, export veq c ss = Ok x).
  Proof.
    intros c ss fl inner F FW H S. apply flat_unique in F. apply flatw_unique in FW. subst. unfold export.
    assert (X : exists so, mapM (export_schedule veq (flatten (c_ents c))) ss = Ok so).
    { clear H. induction S as [|locos ss [NE L] S [so IH]]; [exists []; reflexivity|].
      assert (Y : exists out, export_schedule veq (flatten (c_ents c)) locos = Ok out).
      { assert (Z : exists out, Forall2 (end_is veq (flatten (c_ents c))) locos out).
        { clear NE. induction L as [|e locos [x [y [-> [I E]]]] L [out Z]]; [exists []; constructor|].
          assert (Q : exists n, number veq (flatten (c_ents c)) x = Ok n).
          { apply number_exists, existsb_exists. exists y. split; [exact I|apply same_iff; exact E]. }
          destruct Q as [n Q]. exists (n :: out). constructor; [|exact Z]. exists x. split; [reflexivity|apply number_iff; exact Q]. }
        destruct Z as [out Z]. exists out. apply schedule_iff. auto. }
      destruct Y as [out Y]. exists (out :: so). cbn [mapM]. rewrite Y. cbn [bind]. rewrite IH. reflexivity. }
    destruct X as [so X]. rewrite X. cbn [bind].
    destruct (export_wires_err (flatten (c_ents c)) (c_wires c ++ flat_map inner_wires (c_ents c)) [] H) as [[L E]|[N [r E]]];
      rewrite E; cbn [bind].
    - split; split; auto; try discriminate.
      + intros C. contradiction.
      + intros [x C]. discriminate.
    - split; split; auto; try discriminate.
      + intros C. contradiction.
      + eauto.
  Qed.

  (** ** Importing *)
  Lemma attach_iff : forall ents z w, attach ents (WInt z) = Ok w <-> imported ents z w.
  Proof.
    intros ents z w. unfold attach, imported. destruct (py_nth ents (z - 1)) as [t|] eqn:E.
    - apply py_nth_iff in E. destruct E as [n [C E]]. split.
      + intros X. inversion X. exists t. split; [reflexivity|].
        destruct C as [[C1 C2]|[C1 C2]]; [left|right].
        * split; [lia|]. rewrite C2, Nat2Z.id. exact E.
        * split; [lia|]. rewrite C2, Nat2Z.id. split; [exact E|lia].
      + intros [t' [-> D]]. do 3 f_equal. destruct C as [[C1 C2]|[C1 C2]].
        * destruct D as [[_ D]|[D _]]; [|lia]. rewrite C2, Nat2Z.id in D. congruence.
        * destruct D as [[D _]|[_ [D _]]]; [lia|]. rewrite C2, Nat2Z.id in D. congruence.
    - split; [discriminate|]. intros [t [-> D]]. exfalso.
      assert (X : py_nth ents (z - 1) = Some t); [|congruence]. apply py_nth_iff.
      destruct D as [[D1 D2]|[D1 [D2 D3]]]; eexists; (split; [|exact D2]); [left|right]; rewrite Z2Nat.id; lia.
  Qed.
  Definition attached (ents : list tree) (e e' : wend) : Prop :=
    match e with WInt z => imported ents z e' | WRef _ => e' = e end.
  Lemma attach_attached : forall ents e e', attach ents e = Ok e' <-> attached ents e e'.
  Proof.
    intros ents [z|o] e'; [apply attach_iff|]. simpl. split; [intros E; inversion E; reflexivity|intros ->; reflexivity].
  Qed.
  Definition attached_wire (ents : list tree) (w w' : wire) : Prop :=
    attached ents (fst (fst (fst w))) (fst (fst (fst w'))) /\ snd (fst (fst w')) = snd (fst (fst w)) /\
    attached ents (snd (fst w)) (snd (fst w')) /\ snd w' = snd w.
  Lemma attach_wire_iff : forall ents w w', attach_wire ents w = Ok w' <-> attached_wire ents w w'.
  Proof.
    intros ents [[[e1 t1] e2] t2] [[[n1 u1] n2] u2]. unfold attach_wire, attached_wire. cbn [fst snd].
    rewrite bind_ok. split.
    - intros [a [A E]]. apply bind_ok in E. destruct E as [b [B E]]. inversion E; subst.
      repeat split; apply attach_attached; assumption.
    - intros [A [-> [B ->]]]. exists n1. split; [apply attach_attached; exact A|]. apply bind_ok.
      exists n2. split; [apply attach_attached; exact B|reflexivity].
  Qed.
  Theorem import_iff : forall ents ids ss ws c ss', import ents ids ss ws = Ok (c, ss') <->
    c_ents c = ents /\ c_ids c = ids /\ Forall2 (attached_wire ents) ws (c_wires c) /\
    Forall2 (Forall2 (attached ents)) ss ss'.
  Proof.
    intros ents ids ss ws c ss'. unfold import. rewrite bind_ok. split.
    - intros [so [S E]]. apply bind_ok in E. destruct E as [wo [W E]]. inversion E; subst. cbn [c_ents c_ids c_wires].
      repeat split.
      + apply mapM_ok in W. revert W. apply forall2_iff. intros; first [apply attach_wire_iff|symmetry; apply attach_wire_iff].
      + apply mapM_ok in S. revert S. apply forall2_iff. intros a b; rewrite mapM_ok. apply forall2_iff. intros; first [apply attach_attached|symmetry; apply attach_attached].
    - intros [<- [<- [W S]]]. exists ss'. split.
      + apply mapM_ok. revert S. apply forall2_iff. intros a b; rewrite mapM_ok. apply forall2_iff. intros; first [apply attach_attached|symmetry; apply attach_attached].
      + apply bind_ok. exists (c_wires c). split; [|destruct c; reflexivity].
        apply mapM_ok. revert W. apply forall2_iff. intros; first [apply attach_wire_iff|symmetry; apply attach_wire_iff].
  Qed.

  Definition target (ents : list tree) (n : Z) : wend :=
    match nth_error ents (Z.to_nat (n - 1)) with Some t => WRef (Some (tid t)) | None => WRef None end.
  Definition target_wire (ents : list tree) (x : xwire) : wire :=
    let '(a, t1, b, t2) := x in (target ents a, t1, target ents b, t2).
  Definition valid (ents : list tree) (n : Z) : Prop := 1 <= n <= Z.of_nat (List.length ents).
  Lemma target_attach : forall ents n, valid ents n -> attach ents (WInt n) = Ok (target ents n).
  Proof.
    intros ents n V. apply attach_iff. unfold target, imported.
    destruct (nth_error ents (Z.to_nat (n - 1))) as [t|] eqn:E.
    - exists t. split; [reflexivity|]. left. split; [apply V|reflexivity].
    - apply nth_error_None in E. unfold valid in V. lia.
  Qed.
  Lemma target_inj : forall ents a b, NoDup (map tid ents) -> valid ents a -> valid ents b -> target ents a = target ents b -> a = b.
  Proof.
    intros ents a b ND A B E. unfold target, valid in *.
    destruct (nth_error ents (Z.to_nat (a - 1))) as [t|] eqn:EA; [|apply nth_error_None in EA; lia].
    destruct (nth_error ents (Z.to_nat (b - 1))) as [u|] eqn:EB; [|apply nth_error_None in EB; lia].
    inversion E. assert (X : Z.to_nat (a - 1) = Z.to_nat (b - 1)); [|lia].
    apply (proj1 (NoDup_nth_error (map tid ents)) ND); [rewrite map_length; lia|].
    rewrite !nth_error_map, EA, EB. simpl. congruence.
  Qed.
  Lemma forall2_map_l : forall {A B C} (P : B -> C -> Prop) (g : A -> B) l r, Forall2 (fun a c => P (g a) c) l r -> Forall2 P (map g l) r.
  Proof. intros A B C P g l r F. induction F; constructor; assumption. Qed.
  Lemma forall2_self : forall {A B} (P : A -> B -> Prop) (g : A -> B) l, (forall a, In a l -> P a (g a)) -> Forall2 P l (map g l).
  Proof.
    intros A B P g l. induction l as [|a l IH]; intros H; constructor; [apply H; left; reflexivity|].
    apply IH. intros b I. apply H. right. exact I.
  Qed.

  Lemma place_end : forall fl ents e n, distinct veq fl -> List.length ents = List.length fl ->
    (forall x, e = WRef (Some x) -> In x fl) -> end_is veq fl e n -> valid ents n /\ moved_end fl ents e (target ents n).
  Proof.
    intros fl ents e n D L M [x [-> N]]. apply number_place in N; [|exact D|apply M; reflexivity].
    destruct N as [k [E ->]]. assert (K : (k < List.length fl)%nat) by (apply nth_error_Some; congruence).
    split; [unfold valid; lia|]. unfold target. replace (Z.to_nat (Z.of_nat k + 1 - 1)) with k by lia.
    destruct (nth_error ents k) as [t|] eqn:T; [|apply nth_error_None in T; lia].
    exists k, x, t. auto.
  Qed.

  Theorem roundtrip : forall c ss x fl inner ents ids,
    flat (c_ents c) fl -> flat_wires (c_ents c) inner -> distinct veq fl ->
    attached_to fl (c_wires c ++ inner) ->
    (forall locos y, In locos ss -> In (WRef (Some y)) locos -> In y fl) ->
    export veq c ss = Ok x ->
    List.length ents = List.length fl -> NoDup (map tid ents) ->
    exists c' ss', import ents ids (map (map WInt) (x_scheds x)) (map read_wire (x_wires x)) = Ok (c', ss') /\
      c_ents c' = ents /\
      (exists all', Forall2 (moved fl ents) (c_wires c ++ inner) all' /\ deduped all' (c_wires c')) /\
      Forall2 (Forall2 (moved_end fl ents)) ss ss'.
  Proof.
    intros c ss x fl inner ents ids F FW D MW ML E L ND.
    apply export_iff in E. destruct E as [fl' [inner' [all [F' [FW' [_ [S [W DD]]]]]]]].
    apply flat_unique in F. apply flat_unique in F'. apply flatw_unique in FW. apply flatw_unique in FW'.
    assert (EF : fl' = fl) by congruence. assert (EI : inner' = inner) by congruence. rewrite EF in S, W. rewrite EI in W. clear F' FW' EF EI fl' inner'.
    assert (V : Forall2 (fun w xw => wire_is veq fl w xw /\ (valid ents (fst (fst (fst xw))) /\ valid ents (snd (fst xw))) /\ moved fl ents w (target_wire ents xw))
       (c_wires c ++ inner) all).
    { generalize dependent all. generalize dependent (c_wires c ++ inner). intros ws MW all W _.
      induction W as [|w xw ws all Ww W IH]; constructor.
      - split; [exact Ww|]. destruct w as [[[e1 t1] e2] t2]. destruct xw as [[[n1 u1] n2] u2].
        unfold wire_is in Ww. cbn [fst snd] in Ww. destruct Ww as [W1 [-> [W2 ->]]].
        destruct (place_end fl ents e1 n1 D L) as [V1 M1]; [|exact W1|].
        { intros y Y. apply (MW (e1, u1, e2, u2) y); [left; reflexivity|left; exact Y]. }
        destruct (place_end fl ents e2 n2 D L) as [V2 M2]; [|exact W2|].
        { intros y Y. apply (MW (e1, u1, e2, u2) y); [left; reflexivity|right; exact Y]. }
        cbn [fst snd]. split; [auto|]. unfold moved, target_wire. cbn [fst snd]. auto.
      - apply IH. intros w' y I. apply MW. right. exact I. }
    assert (VA : forall xw, In xw all -> valid ents (fst (fst (fst xw))) /\ valid ents (snd (fst xw))).
    { clear - V. induction V as [|w xw ws all [_ [H _]] V IH]; intros y; [intros []|]. intros [<-|I]; [exact H|apply IH; exact I]. }
    assert (VX : forall xw, In xw (x_wires x) -> valid ents (fst (fst (fst xw))) /\ valid ents (snd (fst xw))).
    { intros xw I. apply VA. apply (deduped_in _ _ DD). exact I. }
    exists (mkC ents ids (map (target_wire ents) (x_wires x))), (map (map (target ents)) (x_scheds x)).
    split; [|split; [reflexivity|split]].
    - apply import_iff. cbn [c_ents c_ids c_wires]. repeat split.
      + apply forall2_map_l. apply forall2_self. intros xw I. destruct (VX xw I) as [V1 V2].
        destruct xw as [[[n1 u1] n2] u2]. cbn [fst snd] in V1, V2. unfold attached_wire, read_wire, target_wire. cbn [fst snd attached].
        repeat split; apply attach_iff, target_attach; assumption.
      + apply forall2_map_l. apply forall2_self. intros outs I. apply forall2_map_l. apply forall2_self. intros n J.
        apply attach_iff, target_attach.
        clear - S I J D L ML. induction S as [|locos out ss so [_ H] S IH]; [destruct I|].
        destruct I as [<-|I]; [|apply IH; [|exact I]; intros lo y A; apply ML; right; exact A].
        specialize (ML locos). assert (ML' : forall y, In (WRef (Some y)) locos -> In y fl) by (intros y; apply ML; left; reflexivity).
        clear - H J D L ML'. induction H as [|e n' locos out En H IH]; [destruct J|]. destruct J as [<-|J].
        * eapply place_end; [exact D|exact L| |exact En]. intros y ->. apply ML'. left. reflexivity.
        * apply IH; [exact J|]. intros y A. apply ML'. right. exact A.
    - exists (map (target_wire ents) all). cbn [c_wires]. split.
      + clear - V. induction V as [|w xw ws all [_ [_ H]] V IH]; constructor; assumption.
      + apply deduped_map; [exact DD|]. intros a b A B EQ. destruct (VA a A) as [A1 A2]. destruct (VA b B) as [B1 B2].
        destruct a as [[[a1 s1] a2] s2]. destruct b as [[[b1 r1] b2] r2]. cbn [fst snd] in *. unfold target_wire in EQ.
        injection EQ as Q1 Q2 Q3 Q4. apply target_inj in Q1; try assumption. apply target_inj in Q3; try assumption. congruence.
    - clear - S D L ML. induction S as [|locos out ss so [_ H] S IH]; constructor.
      + assert (ML' : forall y, In (WRef (Some y)) locos -> In y fl) by (intros y; apply ML; left; reflexivity).
        clear - H D L ML'. induction H as [|e n' locos out En H IH]; constructor.
        * eapply place_end; [exact D|exact L| |exact En]. intros y ->. apply ML'. left. reflexivity.
        * apply IH. intros y A. apply ML'. right. exact A.
      + apply IH. intros lo y A. apply ML. right. exact A.
  Qed.

  Lemma flatten_leaves : forall l, flatten (map Leaf l) = l.
  Proof. induction l; simpl; [reflexivity|f_equal; exact IHl]. Qed.
  Lemma inner_leaves : forall l, flat_map inner_wires (map Leaf l) = [].
  Proof. induction l; simpl; [reflexivity|exact IHl]. Qed.

  Theorem reexport : forall new ids ss ws, distinct veq new ->
    (forall n, (exists outs, In outs ss /\ In n outs) \/ (exists x, In x ws /\ (n = fst (fst (fst x)) \/ n = snd (fst x))) ->
       1 <= n <= Z.of_nat (List.length new)) ->
    Forall (fun outs => outs <> []) ss -> NoDup ws ->
    exists c ss' ents, import (map Leaf new) ids (map (map WInt) ss) (map read_wire ws) = Ok (c, ss') /\
      export veq c ss' = Ok (mkX ents ss ws) /\
      forall k p, nth_error ents k = Some p <-> nth_error new k = Some (fst p) /\ snd p = Z.of_nat k + 1.
  Proof.
    intros new ids ss ws D V NE ND. set (ents := map Leaf new).
    assert (LE : List.length ents = List.length new) by apply map_length.
    assert (VW : forall xw, In xw ws -> valid ents (fst (fst (fst xw))) /\ valid ents (snd (fst xw))).
    { intros xw I. unfold valid. rewrite LE. split; apply V; right; exists xw; auto. }
    assert (VS : forall outs n, In outs ss -> In n outs -> valid ents n).
    { intros outs n I J. unfold valid. rewrite LE. apply V. left. eauto. }
    assert (TE : forall n, valid ents n -> end_is veq new (target ents n) n).
    { intros n VN. unfold target. destruct (nth_error ents (Z.to_nat (n - 1))) as [t|] eqn:T; [|apply nth_error_None in T; unfold valid in VN; lia].
      unfold ents in T. rewrite nth_error_map in T. destruct (nth_error new (Z.to_nat (n - 1))) as [y|] eqn:Y; [|discriminate].
      simpl in T. inversion T; subst t. exists y. split; [reflexivity|].
      apply number_place; [exact D|eapply nth_error_In; exact Y|]. exists (Z.to_nat (n - 1)). split; [exact Y|].
      unfold valid in VN. lia. }
    exists (mkC ents ids (map (target_wire ents) ws)), (map (map (target ents)) ss), (numbered 0 new).
    split; [|split].
    - apply import_iff. cbn [c_ents c_ids c_wires]. repeat split.
      + apply forall2_map_l. apply forall2_self. intros xw I. destruct (VW xw I) as [V1 V2].
        destruct xw as [[[n1 u1] n2] u2]. cbn [fst snd] in V1, V2. unfold attached_wire, read_wire, target_wire. cbn [fst snd attached].
        repeat split; apply attach_iff, target_attach; assumption.
      + apply forall2_map_l. apply forall2_self. intros outs I. apply forall2_map_l. apply forall2_self. intros n J.
        apply attach_iff, target_attach. eapply VS; eassumption.
    - apply export_iff. exists new, [], ws. cbn [c_ents c_wires x_ents x_scheds x_wires].
      split; [unfold ents; rewrite <- (flatten_leaves new) at 2; apply flat_flatten|].
      split; [unfold ents; rewrite <- (inner_leaves new); apply flatw_inner|].
      split; [intros k p; apply (numbered_nth new 0)|].
      split; [|split; [|apply nodup_deduped; exact ND]].
      + clear - VS NE TE. induction ss as [|outs ss IH]; constructor.
        * inversion NE; subst. split; [destruct outs; [contradiction|discriminate]|].
          assert (VO : forall n, In n outs -> valid ents n) by (intros n; apply VS; left; reflexivity).
          clear - VO TE. induction outs as [|n outs IH]; constructor; [apply TE, VO; left; reflexivity|].
          apply IH. intros m I. apply VO. right. exact I.
        * apply IH; [inversion NE; assumption|]. intros o n I. apply VS. right. exact I.
      + rewrite app_nil_r. clear - VW TE. induction ws as [|xw ws IH]; constructor.
        * destruct (VW xw (or_introl eq_refl)) as [V1 V2]. destruct xw as [[[n1 u1] n2] u2].
          unfold wire_is, target_wire. cbn [fst snd] in *. auto.
        * apply IH. intros y I. apply VW. right. exact I.
    - intros k p. apply (numbered_nth new 0).
  Qed.

  Theorem export_empty_schedule : forall c ss, In [] ss ->
    Forall (fun locos => Forall (fun e => exists x, e = WRef (Some x) /\ In x (flatten (c_ents c))) locos) ss ->
    export veq c ss = Err KeyError.
  Proof.
    intros c ss I F. unfold export.
    assert (X : mapM (export_schedule veq (flatten (c_ents c))) ss = Err KeyError); [|rewrite X; reflexivity].
    induction F as [|locos ss L F IH]; [destruct I|]. cbn [mapM].
    destruct locos as [|e locos]; [reflexivity|]. destruct I as [I|I]; [discriminate|]. rewrite (IH I).
    assert (Y : exists out, export_schedule veq (flatten (c_ents c)) (e :: locos) = Ok out).
    { assert (Z : forall locos', Forall (fun e => exists x, e = WRef (Some x) /\ In x (flatten (c_ents c))) locos' ->
        exists out, mapM (export_loco veq (flatten (c_ents c))) locos' = Ok out).
      { intros locos' L'. induction L' as [|e' l' [x [-> J]] L' [out Z]]; [exists []; reflexivity|].
        destruct (proj1 (number_exists (flatten (c_ents c)) x)) as [n N].
        { apply existsb_exists. exists x. split; [exact J|apply same_iff; left; reflexivity]. }
        exists (n :: out). cbn [mapM export_loco]. rewrite N. cbn [bind]. rewrite Z. reflexivity. }
      apply Z. exact L. }
    destruct Y as [out Y]. rewrite Y. reflexivity.
  Qed.
End Export.
