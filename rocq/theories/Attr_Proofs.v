(** Proofs about attributes: any library of classes. *)
From Coq Require Import ZArith String List Bool Lia.
From Verif Require Import Common Dict Version_Model Assign_Model Attr_Model Attr_Table Attr_Spec Attr_Order_Proofs.
Import ListNotations.
Local Open Scope string_scope.
Local Open Scope list_scope.

(** ** Dicts *)
Lemma dget_dset' (d : list (string * tree)) k v k' : dget eqs (dset eqs d k v) k' = if eqs k k' then Some v else dget eqs d k'.
Proof. apply dget_dset. exact eqs_eq. Qed.
Lemma dset_dset (d : list (string * tree)) k v w : dset eqs (dset eqs d k v) k w = dset eqs d k w.
Proof.
  induction d as [|[k' u] d IH]; cbn [dset]; [rewrite eqs_refl; reflexivity|].
  destruct (eqs k' k) eqn:E; cbn [dset]; rewrite E; [reflexivity|]. rewrite IH. reflexivity.
Qed.

(** ** Writing one cell *)
Definition kind (n : string) (s : step) : Prop := s = SAttr n \/ s = SItem n.
Definition write (t : tree) (ks : list string) (s : step) (w : tree) : result tree := update t (map SAttr ks) (store s w).

Lemma child_attr t k u : child t (SAttr k) = Ok u -> exists fs, t = TModel fs /\ dget eqs fs k = Some u.
Proof. destruct t as [| |fs|fs]; cbn [child]; try discriminate. destruct (dget eqs fs k) eqn:E; [|discriminate]. intros H. injection H as ->. exists fs. auto. Qed.
Lemma child_model fs s u : dget eqs fs (skey s) = Some u -> child (TModel fs) s = Ok u.
Proof. destruct s; cbn [child skey]; intros ->; reflexivity. Qed.
Lemma child_other t k u s : skey s <> k -> child (replace t k u) s = child t s.
Proof.
  intros H. assert (E : eqs k (skey s) = false).
  { destruct (eqs k (skey s)) eqn:E; [|reflexivity]. apply eqs_eq in E. congruence. }
  destruct t as [| |fs|fs]; cbn [replace]; try reflexivity; destruct s; cbn [child skey] in *; rewrite ?dget_dset', ?E; reflexivity.
Qed.
Lemma update_inv t k ss f t' : update t (SAttr k :: ss) f = Ok t' -> exists fs u u', t = TModel fs /\ dget eqs fs k = Some u /\
  update u ss f = Ok u' /\ t' = TModel (dset eqs fs k u').
Proof.
  cbn [update]. destruct (child t (SAttr k)) as [u|] eqn:C; cbn [bind]; [|discriminate].
  destruct (update u ss f) as [u'|] eqn:U; cbn [bind]; [|discriminate]. intros H. injection H as <-.
  destruct (child_attr _ _ _ C) as (fs & -> & D). exists fs, u, u'. repeat (split; [assumption || reflexivity|]). reflexivity.
Qed.
Lemma update_model fs k ss f u u' : dget eqs fs k = Some u -> update u ss f = Ok u' ->
  update (TModel fs) (SAttr k :: ss) f = Ok (TModel (dset eqs fs k u')).
Proof. intros D U. cbn [update child]. rewrite D. cbn [bind]. rewrite U. reflexivity. Qed.

Lemma read_app t a b : read t (a ++ b) = bind (read t a) (fun u => read u b).
Proof. revert t. induction a as [|s a IH]; intros t; [reflexivity|]. cbn [read app]. destruct (child t s); cbn [bind]; [apply IH|reflexivity]. Qed.

(** What a write makes of the object that holds the field. *)
Lemma write_holder t ks s w t' n : kind n s -> write t ks s w = Ok t' ->
  exists u, read t (map SAttr ks) = Ok u /\ (exists fs, u = TModel fs \/ (u = TDict fs /\ s = SItem n)) /\
            read t' (map SAttr ks) = Ok (replace u n w).
Proof.
  intros B. unfold write. revert t t'. induction ks as [|k ks IH]; intros t t' H; cbn [map] in *.
  - cbn [update] in H. exists t. split; [reflexivity|]. cbn [read].
    destruct t as [| |fs|fs]; cbn [store] in H; destruct B as [->| ->]; try discriminate; injection H as <-; split; try reflexivity; exists fs; auto.
  - apply update_inv in H. destruct H as (fs & u & u' & -> & D & U & ->). destruct (IH _ _ U) as (x & X1 & X2 & X3).
    exists x. cbn [read]. rewrite (child_model fs (SAttr k) u D). split; [exact X1|]. split; [exact X2|].
    rewrite (child_model _ (SAttr k) u'); [exact X3|]. cbn [skey]. rewrite dget_dset', eqs_refl. reflexivity.
Qed.
Lemma write_ok t ks s w n fs : kind n s -> read t (map SAttr ks) = Ok (TModel fs) -> exists t', write t ks s w = Ok t'.
Proof.
  intros B. unfold write. revert t. induction ks as [|k ks IH]; intros t H; cbn [map] in *.
  - cbn [read] in H. injection H as ->. cbn [update store]. destruct B as [->| ->]; eexists; reflexivity.
  - cbn [read] in H. destruct (child t (SAttr k)) as [u|] eqn:C; cbn [bind] in H; [|discriminate].
    destruct (IH _ H) as (u' & U). destruct (child_attr _ _ _ C) as (fs' & -> & D).
    exists (TModel (dset eqs fs' k u')). exact (update_model _ _ _ _ _ _ D U).
Qed.
Lemma write_err_any t ks s w w' n e : kind n s -> write t ks s w = Err e -> write t ks s w' = Err e.
Proof.
  intros B. unfold write. revert t. induction ks as [|k ks IH]; intros t H; cbn [map] in *.
  - cbn [update] in *. destruct t; cbn [store] in *; destruct B as [->| ->]; try discriminate; exact H.
  - cbn [update] in *. destruct (child t (SAttr k)) as [u|]; cbn [bind] in *; [|exact H].
    destruct (update u (map SAttr ks) (store s w)) as [u'|] eqn:U; cbn [bind] in *; [discriminate|]. injection H as ->.
    rewrite (IH _ U). reflexivity.
Qed.
(** On models it does not matter how the field is written. *)
Lemma write_same t ks s s' w n fs : kind n s -> kind n s' -> read t (map SAttr ks) = Ok (TModel fs) -> write t ks s w = write t ks s' w.
Proof.
  intros B B'. unfold write. revert t. induction ks as [|k ks IH]; intros t H; cbn [map] in *.
  - cbn [read] in H. injection H as ->. destruct B as [->| ->], B' as [->| ->]; reflexivity.
  - cbn [read] in H. destruct (child t (SAttr k)) as [u|] eqn:C; cbn [bind] in H; [|discriminate]. cbn [update]. rewrite C. cbn [bind].
    rewrite (IH _ H). reflexivity.
Qed.
Lemma write_twice t ks s v t1 s' w n : kind n s -> kind n s' -> write t ks s v = Ok t1 -> write t1 ks s' w = write t ks s' w.
Proof.
  intros B B'. unfold write. revert t t1. induction ks as [|k ks IH]; intros t t1 H; cbn [map] in *.
  - cbn [update] in *. destruct t as [| |fs|fs]; cbn [store] in H; destruct B as [->| ->]; try discriminate; injection H as <-;
      cbn [replace]; destruct B' as [->| ->]; cbn [store replace]; rewrite ?dset_dset; reflexivity.
  - apply update_inv in H. destruct H as (fs & u & u' & -> & D & U & ->). cbn [update child]. rewrite D, dget_dset', eqs_refl. cbn [bind].
    rewrite (IH _ _ U). destruct (update u (map SAttr ks) (store s' w)) as [x|]; cbn [bind]; [|reflexivity].
    cbn [replace skey]. rewrite dset_dset. reflexivity.
Qed.
(** The cell then holds the value ... *)
Lemma read_written t ks s w t' n way x rest : kind n s -> write t ks s w = Ok t' -> map skey way = ks -> skey x = n ->
  (s = SItem n -> x <> SAttr n) -> read t' (way ++ x :: rest) = read w rest.
Proof.
  intros B H W X. unfold write in H. revert t t' way W H. induction ks as [|k ks IH]; intros t t' way W H; intros A.
  - apply map_eq_nil in W. subst way. cbn [app read]. cbn [map update] in H.
    destruct t as [| |fs|fs]; cbn [store] in H; destruct B as [->| ->]; try discriminate; injection H as <-; cbn [replace].
    + rewrite (child_model _ x w); [reflexivity|]. rewrite X, dget_dset', eqs_refl. reflexivity.
    + rewrite (child_model _ x w); [reflexivity|]. rewrite X, dget_dset', eqs_refl. reflexivity.
    + specialize (A eq_refl). destruct x as [k|k|k]; cbn [skey] in X; subst k; cbn [child]; rewrite ?dget_dset', ?eqs_refl; [congruence|reflexivity|reflexivity].
  - destruct way as [|y way]; [discriminate|]. cbn [map] in W. injection W as Y W. cbn [map] in H.
    apply update_inv in H. destruct H as (fs & u & u' & -> & D & U & ->). cbn [app read].
    rewrite (child_model _ y u'); [cbn [bind]; exact (IH _ _ way W U A)|]. rewrite Y, dget_dset', eqs_refl. reflexivity.
Qed.
(** ... and everything apart from it is as before. *)
Lemma read_apart t ks s w t' n ss : kind n s -> write t ks s w = Ok t' ->
  (forall way x rest, ss = way ++ x :: rest -> map skey way = ks -> skey x <> n) ->
  (forall rest, ks <> map skey ss ++ rest) -> read t' ss = read t ss.
Proof.
  intros B H. unfold write in H. revert t t' ss H. induction ks as [|k ks IH]; intros t t' ss H A1 A2; (destruct ss as [|x ss]; [exfalso; apply (A2 _ eq_refl)|]).
  - cbn [map update] in H. pose proof (A1 [] x ss eq_refl eq_refl) as X.
    assert (E : t' = replace t n w).
    { destruct t as [| |fs|fs]; cbn [store] in H; destruct B as [->| ->]; try discriminate; injection H as <-; reflexivity. }
    subst t'. cbn [read]. rewrite child_other by exact X. reflexivity.
  - cbn [map] in H. apply update_inv in H. destruct H as (fs & u & u' & -> & D & U & ->). cbn [read].
    destruct (eqs (skey x) k) eqn:E.
    + apply eqs_eq in E. rewrite (child_model _ x u'); [|rewrite E, dget_dset', eqs_refl; reflexivity].
      rewrite (child_model fs x u); [|rewrite E; exact D]. cbn [bind]. apply IH; [exact U| |].
      * intros way y rest -> W. apply (A1 (x :: way) y rest eq_refl). cbn [map]. rewrite E, W. reflexivity.
      * intros rest W. apply (A2 rest). cbn [map app]. rewrite E, <- W. reflexivity.
    + change (TModel (dset eqs fs k u')) with (replace (TModel fs) k u'). rewrite child_other; [reflexivity|].
      intros K. rewrite K, eqs_refl in E. discriminate.
Qed.

(** ** Setters *)
Section Setters.
  Variables (L : lib) (check : oracle) (c : cls).

  Lemma put_cell p k w t : names_cell L c p k -> exists s, kind (snd k) s /\ where_ L c p = Ok (map SAttr (fst k) ++ [s]) /\
    put L c p w t = write t (fst k) s w.
  Proof.
    intros [E|E]; (eexists; split; [|split; [exact E|]]; [first [left; reflexivity|right; reflexivity]|]);
      unfold put; rewrite E; cbn [bind]; rewrite rev_app_distr; cbn [rev app]; rewrite rev_involutive; reflexivity.
  Qed.
  Lemma attempt_cell md strict m target n v t k : checks_cell L c target n k ->
    match attempt L check md strict c m target n v t with
    | Ok (t', w) => exists M, model_of L c m = Ok M /\ (if declared L M (snd k) then check md strict M (snd k) t v = Ok w else w = v) /\
        write t (fst k) (SAttr (snd k)) w = Ok t' /\ (exists fs, read t (map SAttr (fst k)) = Ok (TModel fs)) /\
        exists fs, read t' (map SAttr (fst k)) = Ok (TModel fs)
    | Err _ => True
    end.
  Proof.
    intros (E & ->). unfold attempt. destruct (model_of L c m) as [M|]; cbn [bind]; [|exact Logic.I]. rewrite E. cbn [bind].
    destruct (read t (map SAttr (fst k))) as [u|] eqn:R; cbn [bind]; [|exact Logic.I]. destruct u as [| |fs|fs]; try exact Logic.I.
    destruct (if declared L M (snd k) then check md strict M (snd k) t v else Ok v) as [w|] eqn:W; cbn [bind]; [|exact Logic.I].
    destruct (update t (map SAttr (fst k)) (store (SAttr (snd k)) w)) as [t'|] eqn:U; cbn [bind]; [|exact Logic.I].
    exists M. split; [reflexivity|]. split; [destruct (declared L M (snd k)); [exact W|injection W as <-; reflexivity]|].
    split; [exact U|]. split; [exists fs; reflexivity|].
    destruct (write_holder t (fst k) (SAttr (snd k)) w t' (snd k) (or_introl eq_refl) U) as (u & R1 & _ & R2).
    rewrite R in R1. injection R1 as <-. exists (dset eqs fs (snd k) w). exact R2.
  Qed.
  (** [checked]: either refused and nothing is changed, or the cell holds what the check returned. *)
  Lemma checked_cell md strict m target n p v t k : checks_cell L c target n k -> names_cell L c p k ->
    match checked L check md strict c m target n p v t with
    | (t', None) => exists M w, model_of L c m = Ok M /\ (if declared L M (snd k) then check md strict M (snd k) t v = Ok w else w = v) /\
        write t (fst k) (SAttr (snd k)) w = Ok t' /\ exists fs, read t (map SAttr (fst k)) = Ok (TModel fs)
    | (t', Some _) => t' = t
    end.
  Proof.
    intros A B. unfold checked. pose proof (attempt_cell md strict m target n v t k A) as H.
    destruct (attempt L check md strict c m target n v t) as [[t' w]|e]; [|reflexivity].
    destruct H as (M & M1 & M2 & M3 & M4 & fs & M5). destruct (put_cell p k w t' B) as (s & S1 & _ & S2). rewrite S2.
    rewrite (write_same t' (fst k) s (SAttr (snd k)) w (snd k) fs S1 (or_introl eq_refl) M5).
    rewrite (write_twice t (fst k) (SAttr (snd k)) w t' (SAttr (snd k)) w (snd k) (or_introl eq_refl) (or_introl eq_refl) M3).
    rewrite M3. cbn [done]. exists M, w. repeat (split; [assumption|]). exact M4.
  Qed.
  Lemma item_cell target n k : checks_cell L c target n k -> names_cell L c (item target n) k.
  Proof.
    intros (E & ->). right. unfold where_, item in *. destruct target as [b ss]. cbn [base steps] in *.
    unfold through in *. cbn [locate base steps] in *. destruct b as [a|]; [|injection E as ->; reflexivity].
    destruct (find_prop L c a) as [q|]; [|discriminate].
    match type of E with bind ?x _ = _ => destruct x as [l|] end; cbn [bind] in *; [|discriminate]. injection E as E.
    rewrite app_assoc, E. reflexivity.
  Qed.

  (** What an assignment does to the cell. *)
  Definition stored (t : tree) (a : string) (k : cell) (w t' : tree) : Prop :=
    exists s, kind (snd k) s /\ write t (fst k) s w = Ok t' /\
      (s = SItem (snd k) -> exists q p, find_prop L c a = Some q /\ In p (blind (p_set q)) /\
         where_ L c p = Ok (map SAttr (fst k) ++ [SItem (snd k)])).
  Theorem assign_cell md t a v q k : find_prop L c a = Some q -> keeps L c (p_set q) k ->
    match assign L check c md t a v with
    | (t', None) => exists w, takes L check c md a v w /\ stored t a k w t'
    | (t', Some _) => t' = t \/ hasty (p_set q) /\ stored t a k v t'
    end.
  Proof.
    intros F K. unfold assign. rewrite F. destruct (p_set q) as [e m target n p1 p2|m target n|p|m target n p|] eqn:S; cbn [keeps] in K.
    - destruct K as (K1 & K2 & K3 & K4).
      (* the store before the check *)
      assert (EARLY : forall o, o = (match e with
             | Late => (t, None)
             | EarlyAlways p => done t (put L c p v t)
             | EarlyChecked p => if mode_bool md then done t (put L c p v t) else (t, None)
             end) -> match o with
             | (t1, None) => t1 = t \/ hasty (Plain e m target n p1 p2) /\ stored t a k v t1
             | (t1, Some _) => t1 = t end).
      { intros o ->. assert (P : forall p, names_cell L c p k -> In p (blind (Plain e m target n p1 p2)) ->
          hasty (Plain e m target n p1 p2) -> match done t (put L c p v t) with
             | (t1, None) => t1 = t \/ hasty (Plain e m target n p1 p2) /\ stored t a k v t1
             | (t1, Some _) => t1 = t end).
        { intros p N B Hs. destruct (put_cell p k v t N) as (s & S1 & S2 & S3). rewrite S3.
          destruct (write t (fst k) s v) as [t1|] eqn:W; cbn [done]; [|reflexivity]. right. split; [exact Hs|].
          exists s. split; [exact S1|]. split; [exact W|]. intros ->. exists q, p. rewrite S. auto. }
        destruct e as [|p|p].
        - left. reflexivity.
        - apply P; [exact K4|right; left; reflexivity|exact Logic.I].
        - destruct (mode_bool md); [apply P; [exact K4|right; left; reflexivity|exact Logic.I]|left; reflexivity]. }
      match goal with |- context [then_ ?x _] => specialize (EARLY x eq_refl); destruct x as [t1 [e1|]] end; cbn [then_].
      + left. exact EARLY.
      + assert (TW : forall s w t', kind (snd k) s -> write t1 (fst k) s w = Ok t' -> write t (fst k) s w = Ok t').
        { intros s w t' Bs Hw. destruct EARLY as [->|(_ & s0 & B0 & W0 & _)]; [exact Hw|].
          rewrite <- (write_twice t (fst k) s0 v t1 s w (snd k) B0 Bs W0). exact Hw. }
        destruct (mode_bool md) eqn:MB.
        * pose proof (checked_cell md false m target n p1 v t1 k K1 K2) as H.
          destruct (checked L check md false c m target n p1 v t1) as [t' [e'|]].
          -- subst t'. destruct EARLY as [->|E]; [left; reflexivity|right; exact E].
          -- destruct H as (M & w & M1 & M2 & M3 & M4). exists w. split.
             ++ exists q. split; [exact F|]. rewrite S. cbn [guard]. right. exists M. split; [exact M1|].
                destruct K1 as (_ & ->). destruct (declared L M (snd k)); [exists false, t1; exact M2|exact M2].
             ++ exists (SAttr (snd k)). split; [left; reflexivity|]. split; [apply TW; [left; reflexivity|exact M3]|discriminate].
        * destruct (put_cell p2 k v t1 K3) as (s & S1 & S2 & S3). rewrite S3.
          destruct (write t1 (fst k) s v) as [t'|] eqn:W; cbn [done].
          -- exists v. split.
             ++ exists q. split; [exact F|]. rewrite S. cbn [guard]. left. split; [destruct md; try discriminate; reflexivity|].
                split; [repeat eexists|reflexivity].
             ++ exists s. split; [exact S1|]. split; [exact (TW _ _ _ S1 W)|]. intros ->. exists q, p2. rewrite S. split; [exact F|].
                split; [left; reflexivity|exact S2].
          -- destruct EARLY as [->|E]; [left; reflexivity|right; exact E].
    - pose proof (checked_cell md true m target n (item target n) v t k K (item_cell _ _ _ K)) as H.
      destruct (checked L check md true c m target n (item target n) v t) as [t' [e'|]]; [left; exact H|].
      destruct H as (M & w & M1 & M2 & M3 & M4). exists w. split.
      + exists q. split; [exact F|]. rewrite S. cbn [guard]. right. exists M. split; [exact M1|].
        destruct K as (_ & ->). destruct (declared L M (snd k)); [exists true, t; exact M2|exact M2].
      + exists (SAttr (snd k)). split; [left; reflexivity|]. split; [exact M3|discriminate].
    - destruct (put_cell p k v t K) as (s & S1 & S2 & S3). rewrite S3.
      destruct (write t (fst k) s v) as [t'|] eqn:W; cbn [done]; [|left; reflexivity]. exists v. split.
      + exists q. split; [exact F|]. rewrite S. reflexivity.
      + exists s. split; [exact S1|]. split; [exact W|]. intros ->. exists q, p. rewrite S. split; [exact F|].
        split; [left; reflexivity|exact S2].
    - destruct K as (K1 & K2). pose proof (checked_cell md false m target n p v t k K1 K2) as H.
      destruct (checked L check md false c m target n p v t) as [t' [e'|]]; [left; exact H|].
      destruct H as (M & w & M1 & M2 & M3 & M4). exists w. split.
      + exists q. split; [exact F|]. rewrite S. cbn [guard]. right. exists M. split; [exact M1|].
        destruct K1 as (_ & ->). destruct (declared L M (snd k)); [exists false, t; exact M2|exact M2].
      + exists (SAttr (snd k)). split; [left; reflexivity|]. split; [exact M3|discriminate].
    - destruct K.
  Qed.

  Lemma get_reads b t ss : reads L c b ss -> get L c b t = read t ss.
  Proof. intros (q & F & W). unfold get. rewrite F, W. reflexivity. Qed.
  Lemma reads_unique b s1 s2 : reads L c b s1 -> reads L c b s2 -> s1 = s2.
  Proof. intros (q & F & W) (q' & F' & W'). congruence. Qed.
  (** An assignment that touches [b] ... *)
  Lemma stored_touches t a k w t' b way x rest : stored t a k w t' -> agrees L c a b ->
    reads L c b (way ++ x :: rest) -> map skey way = fst k -> skey x = snd k -> get L c b t' = read w rest.
  Proof.
    intros (s & B & W & D) A R E1 E2. rewrite (get_reads _ _ _ R).
    apply (read_written t (fst k) s w t' (snd k)); try assumption. intros S X. destruct (D S) as (q & p & Q1 & Q2 & Q3).
    subst x. exact (A q p _ _ way (snd k) rest Q1 Q2 Q3 R E1 eq_refl).
  Qed.
  (** ... and one that does not. *)
  Lemma stored_apart t a k w t' b ss : stored t a k w t' -> reads L c b ss -> writes L c a k ->
    (forall rest, ~ touches L c a b rest) -> ~ inside L c a b -> get L c b t' = get L c b t.
  Proof.
    intros (s & B & W & D) R WR T NI. rewrite !(get_reads _ _ _ R).
    apply (read_apart t (fst k) s w t' (snd k)); try assumption.
    - intros way x rest -> E1 E2. apply (T rest). exists k, way, x. auto.
    - intros rest E. apply NI. exists k, ss, rest. auto.
  Qed.
  Lemma writes_keeps a k q : find_prop L c a = Some q -> writes L c a k -> keeps L c (p_set q) k.
  Proof. intros F (q' & F' & K). rewrite F in F'. injection F' as <-. exact K. Qed.

  (** A library where every setter that is used keeps one cell. *)
  Variable b : string.
  Definition fine (p : list op) : Prop := forall a, assigns a p ->
    (forall q, find_prop L c a = Some q -> p_set q = ReadOnly \/ exists k, keeps L c (p_set q) k) /\
    ~ inside L c a b /\ ((exists rest, touches L c a b rest) -> agrees L c a b /\ forall q, find_prop L c a = Some q -> ~ hasty (p_set q)).
  Lemma fine_tail o p : fine (o :: p) -> fine p.
  Proof. intros H a (v & V). apply H. exists v. right. exact V. Qed.

  Lemma assign_quiet md t a v p : fine (Assign a v :: p) -> (exists ss, reads L c b ss) ->
    ((exists rest, touches L c a b rest) -> exists e, snd (assign L check c md t a v) = Some e) ->
    get L c b (fst (assign L check c md t a v)) = get L c b t.
  Proof.
    intros Fn (ss & R) Q. destruct (Fn a) as (K & NI & TA); [exists v; left; reflexivity|].
    destruct (find_prop L c a) as [q|] eqn:F; [|unfold assign; rewrite F; reflexivity].
    destruct (K q eq_refl) as [RO|(k & KK)]; [unfold assign; rewrite F, RO; reflexivity|].
    pose proof (assign_cell md t a v q k F KK) as H. assert (WR : writes L c a k) by (exists q; auto).
    destruct (assign L check c md t a v) as [t' [e|]]; cbn [fst snd] in *.
    - destruct H as [->|(Hs & St)]; [reflexivity|]. apply (stored_apart t a k v t' b ss St R WR); [|exact NI].
      intros rest T. destruct (TA (ex_intro _ rest T)) as (_ & NH). exact (NH q eq_refl Hs).
    - destruct H as (w & _ & St). apply (stored_apart t a k w t' b ss St R WR); [|exact NI].
      intros rest T. destruct (Q (ex_intro _ rest T)) as (e & E). discriminate.
  Qed.
  Theorem quiet_reads p : forall s, fine p -> (exists ss, reads L c b ss) -> quiet L check c b s p ->
    get L c b (snd (run L check c s p)) = get L c b (snd s).
  Proof.
    induction p as [|o p IH]; intros s Fn R Q; [reflexivity|]. destruct Q as (Q1 & Q2).
    change (run L check c s (o :: p)) with (run L check c (exec L check c s o) p).
    rewrite IH by (try assumption; exact (fine_tail _ _ Fn)). destruct o as [a v|m]; [|reflexivity]. cbn [exec snd].
    exact (assign_quiet _ _ a v p Fn R Q1).
  Qed.
  Theorem last_reads a v p s rest : fine (Assign a v :: p) -> touches L c a b rest ->
    snd (assign L check c (fst s) (snd s) a v) = None -> quiet L check c b (exec L check c s (Assign a v)) p ->
    exists w, takes L check c (fst s) a v w /\ get L c b (snd (run L check c s (Assign a v :: p))) = read w rest.
  Proof.
    intros Fn T AC Q. pose proof T as (k & way & x & WR & R & E1 & E2).
    change (run L check c s (Assign a v :: p)) with (run L check c (exec L check c s (Assign a v)) p).
    rewrite quiet_reads; [|exact (fine_tail _ _ Fn)|exists (way ++ x :: rest); exact R|exact Q]. cbn [exec snd].
    destruct WR as (q & F & K). pose proof (assign_cell (fst s) (snd s) a v q k F K) as H.
    destruct (assign L check c (fst s) (snd s) a v) as [t' [e|]]; cbn [fst snd] in *; [discriminate|].
    destruct H as (w & Tk & St). exists w. split; [exact Tk|]. destruct (Fn a) as (_ & _ & TA); [exists v; left; reflexivity|].
    apply (stored_touches _ a k w t' b way x rest St); [apply TA; exists rest; exact T|exact R|exact E1|exact E2].
  Qed.
End Setters.
