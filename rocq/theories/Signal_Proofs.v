(** Proofs about signals. *)
From Coq Require Import ZArith List Bool String Lia Permutation.
From Verif Require Import Common Dict Order Ranking_Model Ranking_Spec Ranking_Proofs Signal_Model Signal_Spec.
Import ListNotations.
Local Open Scope string_scope.
Local Open Scope list_scope.

Lemma sget {V} d k (v : V) k' : dget pystr_eqb (dset pystr_eqb d k v) k' = if pystr_eqb k k' then Some v else dget pystr_eqb d k'.
Proof. apply dget_dset. exact pystr_eqb_eq. Qed.
Lemma member x l : existsb (pystr_eqb x) l = true <-> In x l.
Proof.
  split.
  - intros E. apply existsb_exists in E as (y & I & E). apply pystr_eqb_eq in E. congruence.
  - intros I. apply existsb_exists. exists x. split; [exact I|apply pystr_eqb_refl].
Qed.
Lemma not_member x l : existsb (pystr_eqb x) l = false <-> ~ In x l.
Proof. rewrite <- member. destruct (existsb (pystr_eqb x) l); split; congruence. Qed.
Lemma set_add_in x s y : In y (set_add x s) <-> y = x \/ In y s.
Proof.
  unfold set_add. destruct (existsb (pystr_eqb x) s) eqn:E.
  - apply member in E. split; [right; assumption|]. intros [->|I]; assumption.
  - rewrite in_app_iff. cbn. split; [intros [I|[<-|[]]]; auto|intros [->|I]; auto].
Qed.
Lemma set_add_nodup x s : NoDup s -> NoDup (set_add x s).
Proof.
  intros D. unfold set_add. destruct (existsb (pystr_eqb x) s) eqn:E; [exact D|]. apply not_member in E.
  apply (Permutation_NoDup (Permutation_cons_append s x)). constructor; assumption.
Qed.
Lemma set_add_nonempty x s : set_add x s <> [].
Proof. intros E. assert (I : In x (set_add x s)) by (apply set_add_in; left; reflexivity). rewrite E in I. exact I. Qed.

(** ** Adding a signal. *)
Lemma add_types s n t s' : add_signal s n t = Ok s' -> forall n' t', has_type s' n' t' <-> has_type s n' t' \/ (n' = n /\ t' = t).
Proof.
  unfold add_signal. destruct (existsb (pystr_eqb t) permitted); cbn [negb]; [|discriminate]. intros E. injection E as <-.
  intros n' t'. unfold has_type. cbn [sg_types]. rewrite sget. destruct (pystr_eqb n n') eqn:X.
  - apply pystr_eqb_eq in X. rewrite <- X. split.
    + intros (ts & E & I). injection E as <-. destruct (dget pystr_eqb (sg_types s) n) as [ts|] eqn:D.
      * apply set_add_in in I as [->|I]; [right; split; reflexivity|left; exists ts; split; [reflexivity|exact I]].
      * destruct I as [<-|[]]. right. split; reflexivity.
    + intros [(ts & D & I)|[_ ->]]; eexists; (split; [reflexivity|]).
      * rewrite D. apply set_add_in. right. exact I.
      * destruct (dget pystr_eqb (sg_types s) n); [apply set_add_in; left; reflexivity|left; reflexivity].
  - split; [intros H; left; exact H|]. intros [H|[-> _]]; [exact H|]. rewrite pystr_eqb_refl in X. discriminate.
Qed.
Lemma add_lists s n t s' : add_signal s n t = Ok s' -> forall n' t', in_list s' n' t' <-> in_list s n' t' \/ (n' = n /\ t' = t).
Proof.
  unfold add_signal. destruct (existsb (pystr_eqb t) permitted); cbn [negb]; [|discriminate]. intros E. injection E as <-.
  intros n' t'. unfold in_list. cbn [sg_lists]. rewrite sget. unfold list_of. destruct (pystr_eqb t t') eqn:X.
  - apply pystr_eqb_eq in X. rewrite <- X. split.
    + intros (l & E & I). injection E as <-. apply in_app_iff in I as [I|[<-|[]]]; [|right; split; reflexivity].
      destruct (dget pystr_eqb (sg_lists s) t) as [l|]; [|destruct I]. left. exists l. split; [reflexivity|exact I].
    + intros [(l & D & I)|[-> _]]; eexists; (split; [reflexivity|]); apply in_app_iff.
      * rewrite D. left. exact I.
      * right. left. reflexivity.
  - split; [intros H; left; exact H|]. intros [H|[_ ->]]; [exact H|]. rewrite pystr_eqb_refl in X. discriminate.
Qed.
Lemma add_known s n t s' : add_signal s n t = Ok s' -> forall n', known s' n' <-> known s n' \/ n' = n.
Proof.
  unfold add_signal. destruct (existsb (pystr_eqb t) permitted); cbn [negb]; [|discriminate]. intros E. injection E as <-.
  intros n'. unfold known. cbn [sg_raw]. rewrite sget. destruct (pystr_eqb n n') eqn:X.
  - apply pystr_eqb_eq in X. split; [intros _; right; congruence|intros _; eexists; reflexivity].
  - split; [intros H; left; exact H|]. intros [H| ->]; [exact H|]. rewrite pystr_eqb_refl in X. discriminate.
Qed.
Lemma add_raw s n t s' n' : add_signal s n t = Ok s' ->
  dget pystr_eqb (sg_raw s') n' = if pystr_eqb n n' then Some (Some n, Some t) else dget pystr_eqb (sg_raw s) n'.
Proof.
  unfold add_signal. destruct (existsb (pystr_eqb t) permitted); cbn [negb]; [|discriminate]. intros E. injection E as <-.
  apply sget.
Qed.
Lemma add_error s n t : (exists s', add_signal s n t = Ok s') \/ (add_signal s n t = Err ValueError).
Proof. unfold add_signal. destruct (existsb (pystr_eqb t) permitted); cbn [negb]; [left; eexists|right]; reflexivity. Qed.
Lemma add_ok s n t : (exists s', add_signal s n t = Ok s') <-> In t permitted.
Proof.
  rewrite <- member. unfold add_signal. destruct (existsb (pystr_eqb t) permitted); cbn [negb].
  - split; [reflexivity|]. intros _. eexists. reflexivity.
  - split; [intros (s' & E); discriminate|discriminate].
Qed.
Lemma add_story s n t s' : one_story s -> add_signal s n t = Ok s' -> one_story s'.
Proof.
  intros (A & B & C & D) E. pose proof (add_types _ _ _ _ E) as T. pose proof (add_lists _ _ _ _ E) as L.
  pose proof (add_known _ _ _ _ E) as K. assert (P : In t permitted) by (apply (add_ok s n t); exists s'; exact E).
  split; [|split; [|split]].
  - intros n' t'. rewrite T, L, A. reflexivity.
  - intros n'. rewrite K, B. split.
    + intros [(t' & H)| ->]; [exists t'; apply T; left; exact H|exists t; apply T; right; split; reflexivity].
    + intros (t' & H). apply T in H as [H|[-> _]]; [left; exists t'; exact H|right; reflexivity].
  - intros n' ts. unfold add_signal in E. destruct (existsb (pystr_eqb t) permitted); cbn [negb] in E; [|discriminate].
    injection E as <-. cbn [sg_types]. rewrite sget. destruct (pystr_eqb n n'); [|apply C].
    intros F. injection F as <-. destruct (dget pystr_eqb (sg_types s) n) as [ts|] eqn:G.
    + split; [apply set_add_nonempty|]. apply set_add_nodup. exact (proj2 (C _ _ G)).
    + split; [discriminate|]. repeat constructor. intros [].
  - intros n' t' H. apply T in H as [H|[_ ->]]; [exact (D _ _ H)|exact P].
Qed.
Lemma add_once s n t s' : one_story s -> listed_once s -> add_signal s n t = Ok s' -> (listed_once s' <-> ~ has_type s n t).
Proof.
  intros (A & _) O E. rewrite A. unfold add_signal in E. destruct (existsb (pystr_eqb t) permitted); cbn [negb] in E; [|discriminate].
  injection E as <-. unfold listed_once, in_list. cbn [sg_lists]. split.
  - intros H (l & G & I). specialize (H t). rewrite sget, pystr_eqb_refl in H. specialize (H _ eq_refl).
    unfold list_of in H. rewrite G in H. apply NoDup_remove_2 in H. rewrite app_nil_r in H. contradiction.
  - intros H t' l. rewrite sget. destruct (pystr_eqb t t') eqn:X; [|apply O]. intros F. injection F as <-.
    unfold list_of. destruct (dget pystr_eqb (sg_lists s) t) as [l|] eqn:G.
    + apply (Permutation_NoDup (Permutation_cons_append l n)). constructor; [|exact (O _ _ G)].
      intros I. apply H. exists l. split; [reflexivity|exact I].
    + cbn. repeat constructor. intros [].
Qed.
(** Whole sequences. *)
Lemma add_list_spec l : forall s, one_story s ->
  let (s', e) := add_signal_list s l in
  one_story s' /\
  (forall n t, has_type s' n t <-> has_type s n t \/
     exists l1 l2, l = l1 ++ (n, t) :: l2 /\ Forall (fun p => In (snd p) permitted) (l1 ++ [(n, t)])) /\
  ((e = None /\ Forall (fun p => In (snd p) permitted) l) \/
   (e = Some ValueError /\ ~ Forall (fun p => In (snd p) permitted) l)).
Proof.
  induction l as [|[n t] l IH]; intros s S; cbn [add_signal_list].
  - split; [exact S|]. split; [|left; split; [reflexivity|constructor]]. intros n t. split; [left; assumption|].
    intros [H|(l1 & l2 & E & _)]; [exact H|]. destruct l1; discriminate.
  - destruct (add_error s n t) as [(s1 & E)|E].
    + rewrite E. assert (P : In t permitted) by (apply (add_ok s n t); exists s1; exact E).
      specialize (IH s1 (add_story _ _ _ _ S E)). destruct (add_signal_list s1 l) as [s' e]. destruct IH as (S' & T & X).
      split; [exact S'|]. split.
      * intros n' t'. rewrite T, (add_types _ _ _ _ E). split.
        -- intros [[H|[-> ->]]|(l1 & l2 & -> & F)].
           ++ left. exact H.
           ++ right. exists [], l. split; [reflexivity|]. constructor; [exact P|constructor].
           ++ right. exists ((n, t) :: l1), l2. split; [reflexivity|]. constructor; [exact P|exact F].
        -- intros [H|([|q l1] & l2 & F & G)].
           ++ left. left. exact H.
           ++ injection F as -> -> _. left. right. split; reflexivity.
           ++ injection F as <- ->. right. exists l1, l2. split; [reflexivity|]. inversion G; assumption.
      * destruct X as [[-> F]|[-> F]]; [left|right]; (split; [reflexivity|]).
        -- constructor; [exact P|exact F].
        -- intros G. apply F. inversion G; assumption.
    + rewrite E. assert (P : ~ In t permitted) by (intros P; apply (add_ok s n t) in P as (s1 & F); congruence).
      split; [exact S|]. split.
      * intros n' t'. split; [left; assumption|]. intros [H|([|q l1] & l2 & F & G)]; [exact H| |].
        -- injection F as <- <- _. inversion G; contradiction.
        -- injection F as <- _. inversion G; contradiction.
      * right. split; [reflexivity|]. intros G. inversion G; contradiction.
Qed.

(** ** Looking up. *)
Section Pick.
  Variable pick : list pystr -> pystr.
  Hypothesis picks : forall l, l <> [] -> In (pick l) l.
  Lemma dict_spec s n : one_story s ->
    match signal_dict pick s n with
    | Ok (m, t) => m = n /\ has_type s n t /\ (has_type s n (str "item") -> t = str "item") /\ mismatch s (m, t) = false
    | Err e => e = DraftsmanError /\ ~ known s n
    end.
  Proof.
    intros (_ & B & C & _). unfold signal_dict, get_signal_types. destruct (dget pystr_eqb (sg_types s) n) as [ts|] eqn:E; cbn [bind].
    - split; [reflexivity|]. destruct (C _ _ E) as [N _]. destruct (existsb (pystr_eqb (str "item")) ts) eqn:I.
      + apply member in I. split; [exists ts; split; assumption|]. split; [reflexivity|].
        unfold mismatch, get_signal_types. cbn [fst snd]. rewrite E. destruct (dget pystr_eqb (sg_raw s) n); [|reflexivity].
        rewrite (proj2 (member _ _) I). reflexivity.
      + apply not_member in I. split; [exists ts; split; [exact E|apply picks, N]|]. split.
        * intros (ts' & F & J). rewrite E in F. injection F as <-. contradiction.
        * unfold mismatch, get_signal_types. cbn [fst snd]. rewrite E. destruct (dget pystr_eqb (sg_raw s) n); [|reflexivity].
          rewrite (proj2 (member _ _) (picks ts N)). reflexivity.
    - split; [reflexivity|]. intros K. apply B in K as (t & ts & F & _). congruence.
  Qed.
End Pick.
Lemma mismatch_spec s n t : one_story s -> (mismatch s (n, t) = true <-> known s n /\ ~ has_type s n t).
Proof.
  intros (_ & B & _). unfold mismatch, get_signal_types. cbn [fst snd]. destruct (dget pystr_eqb (sg_raw s) n) as [x|] eqn:R.
  - assert (K : known s n) by (exists x; exact R). destruct (proj1 (B n) K) as (t' & ts & E & _). rewrite E.
    rewrite negb_true_iff, not_member. split.
    + intros N. split; [exact K|]. intros (ts' & F & I). rewrite E in F. injection F as <-. contradiction.
    + intros [_ N] I. apply N. exists ts. split; assumption.
  - split; [discriminate|]. intros [(x & F) _]. congruence.
Qed.
Lemma mapper_spec modules entities n :
  match get_mapper_type modules entities n with
  | Ok t => (t = str "item" /\ In n modules) \/ (t = str "entity" /\ In n entities /\ ~ In n modules)
  | Err e => e = DraftsmanError /\ ~ In n modules /\ ~ In n entities
  end.
Proof.
  unfold get_mapper_type. destruct (existsb (pystr_eqb n) modules) eqn:M.
  - apply member in M. left. split; [reflexivity|exact M].
  - apply not_member in M. destruct (existsb (pystr_eqb n) entities) eqn:E.
    + apply member in E. right. repeat split; assumption.
    + apply not_member in E. repeat split; assumption.
Qed.

(** ** Extraction. *)
Definition gathers (cats : list (pystr * list (pystr * proto))) (g : gathered) : Prop :=
  (forall n t, (exists ts, dget pystr_eqb (ga_types g) n = Some ts /\ In t ts) <-> offered cats n t) /\
  (forall n ts, dget pystr_eqb (ga_types g) n = Some ts -> ts <> [] /\ NoDup ts) /\
  (forall n, (exists o, dget pystr_eqb (ga_raw g) n = Some o) <-> exists t, offered cats n t) /\
  (forall n o, dget pystr_eqb (ga_raw g) n = Some o -> p_name o = Some n) /\
  (forall t, map p_name (found_of g t) = map Some (offers cats t)).
Lemma offered_offers cats n t : offered cats n t <-> In n (offers cats t).
Proof.
  unfold offered, offers. rewrite in_flat_map. split.
  - intros (c & o & I & J). exists (t, c). split; [exact I|]. cbn. rewrite pystr_eqb_refl. apply (in_map fst) in J. exact J.
  - intros ([t' c] & I & J). cbn in J. destruct (pystr_eqb t' t) eqn:E; [|destruct J]. apply pystr_eqb_eq in E. rewrite E in *.
    apply in_map_iff in J as ([n' o] & <- & J). exists c, o. split; assumption.
Qed.
Lemma offers_snoc cats t' c t : offers (cats ++ [(t', c)]) t = offers cats t ++ (if pystr_eqb t' t then map fst c else []).
Proof. unfold offers. rewrite flat_map_app. cbn. rewrite app_nil_r. reflexivity. Qed.
Lemma gather_step cats type c n o g : p_name o = Some n ->
  gathers (cats ++ [(type, c)]) g -> gathers (cats ++ [(type, c ++ [(n, o)])]) (gather_one type g (n, o)).
Proof.
  intros N (A & B & C & D & E).
  assert (O : forall n' t', offered (cats ++ [(type, c ++ [(n, o)])]) n' t' <-> offered (cats ++ [(type, c)]) n' t' \/ (n' = n /\ t' = type)).
  { intros n' t'. rewrite !offered_offers, !offers_snoc, !in_app_iff. destruct (pystr_eqb type t') eqn:X.
    - apply pystr_eqb_eq in X. rewrite map_app, in_app_iff. cbn. split.
      + intros [I|[I|[<-|[]]]]; [left; left; exact I|left; right; exact I|right; split; congruence].
      + intros [[I|I]|[-> _]]; [left; exact I|right; left; exact I|right; right; left; reflexivity].
    - split; [intros H; left; exact H|]. intros [H|[_ ->]]; [exact H|]. rewrite pystr_eqb_refl in X. discriminate. }
  split; [|split; [|split; [|split]]]; unfold gather_one; cbn [ga_raw ga_types].
  - intros n' t'. rewrite O, <- A, sget. destruct (pystr_eqb n n') eqn:X.
    + apply pystr_eqb_eq in X. rewrite <- X. split.
      * intros (ts & F & I). injection F as <-. destruct (dget pystr_eqb (ga_types g) n) as [ts|] eqn:G.
        -- apply set_add_in in I as [->|I]; [right; split; reflexivity|left; exists ts; split; [reflexivity|exact I]].
        -- destruct I as [<-|[]]. right. split; reflexivity.
      * intros [(ts & G & I)|[_ ->]]; eexists; (split; [reflexivity|]).
        -- rewrite G. apply set_add_in. right. exact I.
        -- destruct (dget pystr_eqb (ga_types g) n); [apply set_add_in; left; reflexivity|left; reflexivity].
    + split; [intros H; left; exact H|]. intros [H|[-> _]]; [exact H|]. rewrite pystr_eqb_refl in X. discriminate.
  - intros n' ts. rewrite sget. destruct (pystr_eqb n n'); [|apply B]. intros F. injection F as <-.
    destruct (dget pystr_eqb (ga_types g) n) as [ts|] eqn:G.
    + split; [apply set_add_nonempty|]. apply set_add_nodup. exact (proj2 (B _ _ G)).
    + split; [discriminate|]. repeat constructor. intros [].
  - intros n'. rewrite sget. destruct (pystr_eqb n n') eqn:X.
    + apply pystr_eqb_eq in X. split; [|intros _; eexists; reflexivity]. intros _. exists type. apply O. right. split; congruence.
    + rewrite C. split; intros (t' & H).
      * exists t'. apply O. left. exact H.
      * apply O in H as [H|[-> _]]; [exists t'; exact H|]. rewrite pystr_eqb_refl in X. discriminate.
  - intros n' o'. rewrite sget. destruct (pystr_eqb n n') eqn:X; [|apply D]. apply pystr_eqb_eq in X. intros F. injection F as <-. congruence.
  - intros t'. unfold found_of at 1. cbn [ga_found]. rewrite sget. rewrite offers_snoc. destruct (pystr_eqb type t') eqn:X.
    + apply pystr_eqb_eq in X. rewrite <- X. rewrite map_app, E, offers_snoc, pystr_eqb_refl, !map_app. cbn. rewrite N, <- app_assoc. reflexivity.
    + change (map p_name (found_of g t') = map Some (offers cats t' ++ [])). rewrite E, offers_snoc, X. reflexivity.
Qed.
Lemma gathers_ext cats cats' g : (forall t, offers cats t = offers cats' t) -> gathers cats g -> gathers cats' g.
Proof.
  intros H (A & B & C & D & E).
  assert (O : forall n t, offered cats n t <-> offered cats' n t) by (intros n t; rewrite !offered_offers, H; reflexivity).
  split; [intros n t; rewrite A; apply O|]. split; [exact B|]. split.
  - intros n. rewrite C. split; intros (t & X); exists t; apply O, X.
  - split; [exact D|]. intros t. rewrite E, H. reflexivity.
Qed.
Lemma gather_category cats type l : forall c g, Forall (fun p : pystr * proto => p_name (snd p) = Some (fst p)) l ->
  gathers (cats ++ [(type, c)]) g -> gathers (cats ++ [(type, c ++ l)]) (fold_left (gather_one type) l g).
Proof.
  induction l as [|[n o] l IH]; intros c g F G; cbn [fold_left]; [rewrite app_nil_r; exact G|].
  inversion F; subst. replace (c ++ (n, o) :: l) with ((c ++ [(n, o)]) ++ l) by (rewrite <- app_assoc; reflexivity).
  apply IH; [assumption|]. apply gather_step; assumption.
Qed.
Lemma gather_all l : forall cats g, proper_data l -> gathers cats g -> gathers (cats ++ l) (fold_left add_signals l g).
Proof.
  induction l as [|[t c] l IH]; intros cats g P G; cbn [fold_left]; [rewrite app_nil_r; exact G|].
  inversion P as [|? ? [Q R] P']; subst. replace (cats ++ (t, c) :: l) with ((cats ++ [(t, c)]) ++ l) by (rewrite <- app_assoc; reflexivity).
  apply IH; [exact P'|]. unfold add_signals. cbn [fst snd].
  apply (gather_category cats t c [] g R). apply (gathers_ext cats); [|exact G].
  intros t'. rewrite offers_snoc. destruct (pystr_eqb t t'); rewrite app_nil_r; reflexivity.
Qed.
Lemma gather_spec cats : proper_data cats -> gathers cats (gather cats).
Proof.
  intros P. apply (gather_all cats [] _ P). split; [|split; [|split; [|split]]]; cbn.
  - intros n t. split; [intros (ts & E & _); discriminate|]. intros (c & o & [] & _).
  - discriminate.
  - intros n. split; [intros (o & E); discriminate|]. intros (t & c & o & [] & _).
  - discriminate.
  - reflexivity.
Qed.

Lemma map_Some_inj {A} (a b : list A) : Permutation (map Some a) (map Some b) -> Permutation a b.
Proof.
  intros H. apply (Permutation_map (fun o : option A => match o with Some x => [x] | None => [] end)) in H.
  rewrite !map_map in H. assert (E : forall l : list A, List.concat (map (fun x => [x]) l) = l) by (induction l; cbn; congruence).
  rewrite <- (E a), <- (E b). clear E. remember (map (fun x => [x]) a) as u. remember (map (fun x => [x]) b) as v. clear Hequ Heqv.
  induction H; cbn.
  - constructor.
  - apply Permutation_app_head. assumption.
  - rewrite !app_assoc. apply Permutation_app_tail. apply Permutation_app_comm.
  - etransitivity; eassumption.
Qed.
Section Extract.
  Variable items : table proto.
  Variable subgroups : table subgroup.
  Variable groups : table group.
  Lemma sort_lists_spec g ts : forall lists, sort_lists items subgroups groups g ts = Ok lists ->
    map fst lists = ts /\ Forall (fun p => Permutation (map p_name (found_of g (fst p))) (map Some (snd p))) lists.
  Proof.
    induction ts as [|t ts IH]; cbn [sort_lists]; intros lists E.
    - injection E as <-. split; [reflexivity|constructor].
    - destruct (get_order (found_of g t) items subgroups groups) as [l|] eqn:G; cbn [bind] in E; [|discriminate].
      destruct (sort_lists items subgroups groups g ts) as [r|]; cbn [bind] in E; [|discriminate]. injection E as <-.
      destruct (IH r eq_refl) as [M F]. split; [cbn; congruence|]. constructor; [|exact F]. cbn. exact (order_names _ _ _ _ _ G).
  Qed.
  Lemma raw_of_spec g names : forall acc r, raw_of g names acc = Ok r ->
    forall n, (exists x, dget pystr_eqb r n = Some x) <-> (exists x, dget pystr_eqb acc n = Some x) \/ In n names.
  Proof.
    induction names as [|m names IH]; cbn [raw_of]; intros acc r E n.
    - injection E as <-. cbn. tauto.
    - destruct (dget pystr_eqb (ga_raw g) m) as [o|]; [|discriminate]. rewrite (IH _ _ E n), sget. cbn.
      destruct (pystr_eqb m n) eqn:X.
      + apply pystr_eqb_eq in X. split; [intros _; right; left; exact X|]. intros _. left. eexists. reflexivity.
      + split; [tauto|]. intros [H|[->|H]]; [left; exact H| |right; exact H]. rewrite pystr_eqb_refl in X. discriminate.
  Qed.
  Lemma raw_of_total g names : forall acc, (forall n, In n names -> exists o, dget pystr_eqb (ga_raw g) n = Some o) ->
    exists r, raw_of g names acc = Ok r.
  Proof.
    induction names as [|m names IH]; cbn [raw_of]; intros acc H; [eexists; reflexivity|].
    destruct (H m (or_introl eq_refl)) as (o & E). rewrite E. apply IH. intros n I. apply H. right. exact I.
  Qed.
  Lemma permitted_listed t : In t permitted <-> In t listed.
  Proof. unfold permitted, listed. cbn. tauto. Qed.
  Lemma offered_listed cats n t : proper_data cats -> offered cats n t -> In t permitted.
  Proof.
    intros P (c & o & I & _). unfold proper_data in P. rewrite Forall_forall in P. exact (proj1 (P _ I)).
  Qed.
  Lemma extract_spec cats s : proper_data cats -> extract_signals items subgroups groups cats = Ok s ->
    one_story s /\ (forall n t, has_type s n t <-> offered cats n t) /\
    (forall t, In t permitted -> exists l, dget pystr_eqb (sg_lists s) t = Some l /\ Permutation l (offers cats t)).
  Proof.
    intros P E. unfold extract_signals in E. destruct (gather_spec cats P) as (A & B & C & D & F). set (g := gather cats) in *.
    destruct (get_order (flat_map (found_of g) listed) items subgroups groups) as [all|] eqn:G; cbn [bind] in E; [|discriminate].
    destruct (sort_lists items subgroups groups g listed) as [lists|] eqn:L; cbn [bind] in E; [|discriminate].
    destruct (raw_of g all []) as [raw|] eqn:R; cbn [bind] in E; [|discriminate]. injection E as <-.
    destruct (sort_lists_spec _ _ _ L) as [K Q].
    assert (PL : forall t l, dget pystr_eqb lists t = Some l -> Permutation l (offers cats t)).
    { intros t l I. apply (dget_some_in pystr_eqb pystr_eqb_eq) in I. rewrite Forall_forall in Q. specialize (Q _ I). cbn in Q.
      rewrite F in Q. symmetry. apply map_Some_inj. exact Q. }
    assert (T : forall n t, has_type (mkSig raw (ga_types g) lists) n t <-> offered cats n t) by (intros n t; apply A).
    assert (X : forall t, In t permitted -> exists l, dget pystr_eqb lists t = Some l).
    { intros t I. apply permitted_listed in I. rewrite <- K in I. destruct (dget pystr_eqb lists t) as [l|] eqn:Y; [exists l; reflexivity|].
      apply (dget_none pystr_eqb pystr_eqb_eq) in Y. contradiction. }
    split; [|split; [exact T|]].
    - split; [|split; [|split]].
      + intros n t. rewrite T. unfold in_list. cbn [sg_lists]. split.
        * intros O. destruct (X t (offered_listed _ _ _ P O)) as (l & I). exists l. split; [exact I|].
          apply offered_offers in O. apply (Permutation_in _ (Permutation_sym (PL _ _ I)) O).
        * intros (l & I & J). apply offered_offers. exact (Permutation_in _ (PL _ _ I) J).
      + intros n. transitivity (exists t, offered cats n t); [|split; intros (t & H); exists t; apply T, H].
        unfold known. cbn [sg_raw]. rewrite (raw_of_spec g all [] raw R n). pose proof (order_names _ _ _ _ _ G) as O.
        split.
        * intros [(x & Y)|I]; [discriminate|]. apply (in_map Some) in I. apply (Permutation_in _ (Permutation_sym O)) in I.
          apply in_map_iff in I as (o & N & I). apply in_flat_map in I as (t & _ & I).
          exists t. apply offered_offers. apply (in_map p_name) in I. rewrite F, N in I. apply in_map_iff in I as (m & M & I). congruence.
        * intros (t & H). right. pose proof (offered_listed _ _ _ P H) as I. apply offered_offers in H. apply (in_map Some) in H. rewrite <- F in H.
          apply in_map_iff in H as (o & N & J).
          assert (Y : In (Some n) (map Some all)).
          { apply (Permutation_in _ O). rewrite <- N. apply in_map. apply in_flat_map. exists t. split; [apply permitted_listed, I|exact J]. }
          apply in_map_iff in Y as (m & M & Y). congruence.
      + exact B.
      + intros n t H. apply T in H. exact (offered_listed _ _ _ P H).
    - intros t I. destruct (X t I) as (l & Y). exists l. split; [exact Y|exact (PL _ _ Y)].
  Qed.
  (** It fails only where sorting fails. *)
  Lemma sort_lists_total g ts : (forall t o, In t ts -> In o (found_of g t) -> exists r, ranked items subgroups groups o r) ->
    exists l, sort_lists items subgroups groups g ts = Ok l.
  Proof.
    induction ts as [|t ts IH]; intros H; cbn [sort_lists]; [eexists; reflexivity|].
    destruct (proj2 (proj1 (order_iff (found_of g t) items subgroups groups)) (fun o => H t o (or_introl eq_refl))) as (l & ->).
    destruct IH as (r & ->); [intros t' o I; apply H; right; exact I|]. eexists. reflexivity.
  Qed.
  Lemma found_category t t' o c : forall g0, In o (found_of (fold_left (gather_one t') c g0) t) <->
    In o (found_of g0 t) \/ (t' = t /\ exists n, In (n, o) c).
  Proof.
    induction c as [|[n o'] c IH]; intros g0; cbn [fold_left].
    - split; [left; assumption|]. intros [H|(_ & n & [])]; exact H.
    - rewrite IH. assert (X : In o (found_of (gather_one t' g0 (n, o')) t) <-> In o (found_of g0 t) \/ (t' = t /\ o = o')).
      { unfold gather_one. unfold found_of at 1. cbn [ga_found]. rewrite sget. destruct (pystr_eqb t' t) eqn:E.
        - apply pystr_eqb_eq in E. rewrite E, in_app_iff. cbn. split.
          + intros [H|[->|[]]]; [left; exact H|right; split; reflexivity].
          + intros [H|[_ ->]]; [left; exact H|right; left; reflexivity].
        - fold (found_of g0 t). split; [left; assumption|]. intros [H|[-> _]]; [exact H|]. rewrite pystr_eqb_refl in E. discriminate. }
      rewrite X. split.
      + intros [[H|(-> & ->)]|(-> & m & H)]; [left; exact H| |]; right; (split; [reflexivity|]); [exists n; left; reflexivity|exists m; right; exact H].
      + intros [H|(-> & m & [H|H])]; [left; left; exact H| |right; split; [reflexivity|exists m; exact H]].
        injection H as _ ->. left. right. split; reflexivity.
  Qed.
  Lemma found_all t o cats : forall g0, In o (found_of (fold_left add_signals cats g0) t) <->
    In o (found_of g0 t) \/ exists c n, In (t, c) cats /\ In (n, o) c.
  Proof.
    induction cats as [|[t' c] cats' IH]; intros g0; cbn [fold_left].
    - split; [left; assumption|]. intros [H|(c & n & [] & _)]; exact H.
    - rewrite IH. unfold add_signals. cbn [fst snd]. rewrite found_category. split.
      + intros [[H|(-> & n & H)]|(c' & n & I & H)]; [left; exact H| |].
        * right. exists c, n. split; [left; reflexivity|exact H].
        * right. exists c', n. split; [right; exact I|exact H].
      + intros [H|(c' & n & [I|I] & H)]; [left; left; exact H| |].
        * injection I as -> ->. left. right. split; [reflexivity|]. exists n. exact H.
        * right. exists c', n. split; assumption.
  Qed.
  Lemma found_in t o cats : In o (found_of (gather cats) t) <-> exists c n, In (t, c) cats /\ In (n, o) c.
  Proof. unfold gather. rewrite found_all. cbn. split; [intros [[]|H]; exact H|intros H; right; exact H]. Qed.
  Lemma sort_lists_err g ts e : sort_lists items subgroups groups g ts = Err e -> e = KeyError.
  Proof.
    induction ts as [|t ts IH]; cbn [sort_lists]; [discriminate|].
    destruct (get_order (found_of g t) items subgroups groups) as [l|e'] eqn:G; cbn [bind].
    - destruct (sort_lists items subgroups groups g ts); cbn [bind]; [discriminate|]. intros E. apply IH. exact E.
    - intros E. injection E as <-. exact (proj2 (order_iff _ _ _ _) _ G).
  Qed.
  Lemma raw_of_err g names e : forall acc, raw_of g names acc = Err e -> e = KeyError.
  Proof.
    induction names as [|m names IH]; cbn [raw_of]; intros acc; [discriminate|].
    destruct (dget pystr_eqb (ga_raw g) m); [apply IH|]. congruence.
  Qed.
  Lemma extract_iff cats : proper_data cats ->
    ((exists s, extract_signals items subgroups groups cats = Ok s) <->
     (forall t c n o, In (t, c) cats -> In (n, o) c -> exists r, ranked items subgroups groups o r)) /\
    (forall e, extract_signals items subgroups groups cats = Err e -> e = KeyError).
  Proof.
    intros P. pose proof (gather_spec cats P) as (A & B & C & D & F).
    pose proof (found_in) as FI. unfold extract_signals. set (g := gather cats) in *. split; [split|].
    - intros (s & E) t c n o I J.
      destruct (get_order (flat_map (found_of g) listed) items subgroups groups) as [all|] eqn:G; cbn [bind] in E; [|discriminate].
      apply (proj1 (proj1 (order_iff _ items subgroups groups)) (ex_intro _ all G)). apply in_flat_map. exists t. split.
      + apply permitted_listed. apply (offered_listed cats n t P). exists c, o. split; assumption.
      + apply FI. exists c, n. split; assumption.
    - intros H.
      assert (R : forall t o, In o (found_of g t) -> exists r, ranked items subgroups groups o r).
      { intros t o I. apply FI in I as (c & n & I & J). exact (H _ _ _ _ I J). }
      destruct (proj2 (proj1 (order_iff (flat_map (found_of g) listed) items subgroups groups))) as (all & G).
      { intros o I. apply in_flat_map in I as (t & _ & I). exact (R _ _ I). }
      rewrite G. cbn [bind]. destruct (sort_lists_total g listed (fun t o _ => R t o)) as (l & ->). cbn [bind].
      destruct (raw_of_total g all []) as (r & ->); [|cbn [bind]; eexists; reflexivity].
      intros n I. apply C. apply (in_map Some) in I. apply (Permutation_in _ (Permutation_sym (order_names _ _ _ _ _ G))) in I.
      apply in_map_iff in I as (o & N & I). apply in_flat_map in I as (t & _ & I). exists t. apply offered_offers.
      apply (in_map p_name) in I. rewrite F, N in I. apply in_map_iff in I as (m & M & I). congruence.
    - intros e E.
      destruct (get_order (flat_map (found_of g) listed) items subgroups groups) as [all|] eqn:G; cbn [bind] in E.
      + destruct (sort_lists items subgroups groups g listed) as [lists|] eqn:L; cbn [bind] in E.
        * destruct (raw_of g all []) as [raw|] eqn:R; cbn [bind] in E; [discriminate|]. injection E as <-. exact (raw_of_err _ _ _ _ R).
        * injection E as <-. exact (sort_lists_err _ _ _ L).
      + injection E as <-. exact (proj2 (order_iff _ _ _ _) _ G).
  Qed.
End Extract.
