(** Proofs about tables, fluids and tiles (C69). *)
From Coq Require Import ZArith QArith List Bool String Permutation Sorting.Sorted Lia.
From Verif Require Import Common Dict Order Ranking_Model Ranking_Spec Shelf_Model Shelf_Spec Shelf_Proofs Table_Model Table_Spec.
Import ListNotations.
Local Open Scope string_scope.
Local Open Scope list_scope.

(** ** Lua tables *)
Fixpoint lua_ind' (P : lua -> Prop) (HV : forall x, P (LVal x)) (HT : forall d, (forall k v, In (k, v) d -> P v) -> P (LTab d)) (t : lua) : P t.
Proof.
  destruct t as [x|d]; [apply HV|]. apply HT. induction d as [|[k v] d IH]; [intros ? ? []|].
  intros k' v' [E|I]; [injection E as _ <-; apply lua_ind'; assumption|exact (IH _ _ I)].
Defined.
Fixpoint pyv_ind' (P : pyv -> Prop) (HV : forall x, P (PVal x)) (HL : forall l, (forall v, In v l -> P v) -> P (PList l))
  (HD : forall d, (forall k v, In (k, v) d -> P v) -> P (PDict d)) (t : pyv) : P t.
Proof.
  destruct t as [x|l|d]; [apply HV| |].
  - apply HL. induction l as [|v l IH]; [intros ? []|]. intros v' [<-|I]; [apply pyv_ind'; assumption|exact (IH _ I)].
  - apply HD. induction d as [|[k v] d IH]; [intros ? ? []|].
    intros k' v' [E|I]; [injection E as _ <-; apply pyv_ind'; assumption|exact (IH _ _ I)].
Defined.

Lemma ints_false {A} (d : list (lkey * A)) : forallb (fun e => is_int (fst e)) d = false <-> exists s v, In (KStr s, v) d.
Proof.
  induction d as [|[[z|s] v] d IH]; cbn.
  - split; [discriminate|intros (? & ? & [])].
  - rewrite IH. split; intros (s & w & I); exists s, w; [right; exact I|]. destruct I as [I|I]; [discriminate|exact I].
  - split; [intros _; exists s, v; left; reflexivity|reflexivity].
Qed.
Lemma ints_true {A} (d : list (lkey * A)) : forallb (fun e => is_int (fst e)) d = true <-> forall s v, ~ In (KStr s, v) d.
Proof.
  pose proof (ints_false d) as F. destruct (forallb (fun e => is_int (fst e)) d).
  - split; [|reflexivity]. intros _ s v I. enough (true = false) by discriminate. apply F. eauto.
  - split; [discriminate|]. intros H. destruct (proj1 F eq_refl) as (s & v & I). destruct (H _ _ I).
Qed.
Lemma ints_map {A B} (f : A -> B) (d : list (lkey * A)) : forallb (fun e => is_int (fst e)) (map (fun e => (fst e, f (snd e))) d) = forallb (fun e => is_int (fst e)) d.
Proof. induction d as [|[k v] d IH]; [reflexivity|]. cbn. rewrite IH. reflexivity. Qed.
Lemma numbered_ints {A} (l : list A) : forall n, forallb (fun e => is_int (fst e)) (numbered n l) = true.
Proof. induction l; intros n; cbn; auto. Qed.
Lemma numbered_snd {A} (l : list A) : forall n, map snd (numbered n l) = l.
Proof. induction l as [|x l IH]; intros n; cbn; [reflexivity|]. rewrite IH. reflexivity. Qed.
Lemma numbered_map {A B} (f : A -> B) (l : list A) : forall n, numbered n (map f l) = map (fun e => (fst e, f (snd e))) (numbered n l).
Proof. induction l as [|x l IH]; intros n; cbn; [reflexivity|]. rewrite IH. reflexivity. Qed.

Lemma convert_table d :
  ((exists s v, In (KStr s, v) d) -> convert (LTab d) = PDict (combine (map fst d) (map convert (map snd d)))) /\
  ((forall s v, ~ In (KStr s, v) d) -> convert (LTab d) = PList (map convert (map snd d))).
Proof.
  cbn [convert]. rewrite ints_map. split; intros H.
  - apply ints_false in H. rewrite H. f_equal. clear H. induction d as [|[k v] d IH]; [reflexivity|]. cbn. f_equal. exact IH.
  - apply ints_true in H. rewrite H. f_equal. rewrite !map_map. reflexivity.
Qed.
Lemma convert_named t : named (convert t).
Proof.
  induction t as [x|d IH] using lua_ind'; [constructor|]. cbn [convert].
  destruct (forallb (fun e => is_int (fst e)) (map (fun e => (fst e, convert (snd e))) d)) eqn:E.
  - constructor. intros v I. rewrite map_map in I. apply in_map_iff in I as ([k w] & <- & I). exact (IH _ _ I).
  - constructor; [|apply ints_false; exact E]. intros k v I. apply in_map_iff in I as ([k' w] & X & I). injection X as _ <-. exact (IH _ _ I).
Qed.
Lemma convert_of v : named v -> convert (lua_of v) = v.
Proof.
  induction v as [x|l IH|d IH] using pyv_ind'; intros N; [reflexivity| |]; inversion N; subst; clear N; cbn [lua_of convert].
  - rewrite ints_map, numbered_ints. f_equal. rewrite map_map. cbn [snd]. rewrite <- (map_map snd convert), numbered_snd, map_map.
    rewrite <- (map_id l) at 2. apply map_ext_in. intros v I. apply IH; auto.
  - rewrite !ints_map. rewrite (proj2 (ints_false d)) by assumption. f_equal. rewrite map_map. cbn [fst snd].
    rewrite <- (map_id d) at 2. apply map_ext_in. intros [k v] I. cbn [fst snd]. f_equal. eapply IH; eauto.
Qed.
Lemma of_convert t : orderly t -> lua_of (convert t) = t.
Proof.
  induction t as [x|d IH] using lua_ind'; intros O; [reflexivity|]. inversion O as [|d' H X|l H]; subst; clear O.
  - rewrite (proj1 (convert_table d) X). cbn [lua_of]. f_equal. clear X. induction d as [|[k v] d IHd]; [reflexivity|]. cbn. f_equal.
    + f_equal. apply (IH k); [left; reflexivity|]. apply (H k). left. reflexivity.
    + apply IHd; intros; [eapply IH|eapply H]; try right; eauto.
  - cbn [convert]. rewrite ints_map, numbered_ints. rewrite map_map. cbn [snd]. rewrite <- (map_map snd convert), numbered_snd. cbn [lua_of]. f_equal.
    rewrite map_map. f_equal. rewrite <- (map_id l) at 2. apply map_ext_in. intros v I.
    enough (Y : exists k, In (k, v) (numbered 1 l)) by (destruct Y as [k Y]; exact (IH k v Y (H v I))).
    clear - I. revert I. generalize 1%Z. induction l as [|x l IH]; intros n I; [destruct I|]. destruct I as [->|I]; [eexists; left; reflexivity|].
    destruct (IH (n + 1)%Z I) as [k J]. exists k. right. exact J.
Qed.
Lemma of_orderly v : named v -> orderly (lua_of v).
Proof.
  induction v as [x|l IH|d IH] using pyv_ind'; intros N; inversion N; subst; clear N; cbn [lua_of].
  - constructor.
  - apply orderly_list. intros v I. apply in_map_iff in I as (w & <- & I). auto.
  - apply orderly_dict.
    + intros k v I. apply in_map_iff in I as ([k' w] & X & I). injection X as _ <-. cbn. eauto.
    + match goal with H : exists s v, In (KStr s, v) d |- _ => destruct H as (s & v & I) end. exists s, (lua_of v). apply (in_map (fun e => (fst e, lua_of (snd e)))) in I. exact I.
Qed.
Lemma inverse : (forall v, named v -> orderly (lua_of v) /\ convert (lua_of v) = v) /\ (forall t, named (convert t) /\ (orderly t <-> lua_of (convert t) = t)).
Proof.
  split; intros; split; auto using of_orderly, convert_of, convert_named. split; [apply of_convert|].
  intros E. rewrite <- E. apply of_orderly, convert_named.
Qed.
Lemma not_injective : exists t t', t <> t' /\ orderly t /\ convert t = convert t'.
Proof.
  exists (LTab [(KInt 1, LVal (SBool true)); (KInt 2, LVal (SBool false))]), (LTab [(KInt 5, LVal (SBool true)); (KInt 9, LVal (SBool false))]).
  split; [discriminate|]. split; [|reflexivity]. apply (orderly_list [LVal (SBool true); LVal (SBool false)]).
  intros v [<-|[<-|[]]]; constructor.
Qed.
Lemma empty_dict_list : exists v, convert (lua_of v) <> v /\ v = PDict [].
Proof. exists (PDict []). split; [discriminate|reflexivity]. Qed.

(** ** Tiles *)
Lemma key_reads_iff k x : key_reads k x <-> key_scalar k = x.
Proof. split; [intros []; reflexivity|]. destruct k; cbn; intros <-; constructor. Qed.
Lemma scalars_ok l : forall s, scalars l = Ok s -> l = map PVal s.
Proof.
  induction l as [|[x| |] l IH]; cbn; intros s E; try discriminate; [injection E as <-; reflexivity|].
  destruct (scalars l) as [r|] eqn:F; [|discriminate]. injection E as <-. cbn. rewrite (IH _ eq_refl). reflexivity.
Qed.
Lemma scalars_iff l : (exists s, scalars l = Ok s) <-> forall v, In v l -> exists x, v = PVal x.
Proof.
  split.
  - intros (s & E) v I. apply scalars_ok in E. subst l. apply in_map_iff in I as (x & <- & _). eauto.
  - induction l as [|v l IH]; intros H; [exists []; reflexivity|]. destruct (H v (or_introl eq_refl)) as (x & ->).
    destruct IH as (s & E); [intros w I; apply H; right; exact I|]. exists (x :: s). cbn. rewrite E. reflexivity.
Qed.
Lemma scalars_err l e : scalars l = Err e -> e = TypeError.
Proof. induction l as [|[x| |] l IH]; cbn; intros E; try congruence. destruct (scalars l); [discriminate|]. cbn in E. injection E as <-. auto. Qed.
Lemma convert_val v x : convert v = PVal x <-> v = LVal x.
Proof.
  destruct v as [y|d]; cbn; [split; congruence|]. split; [|discriminate].
  destruct (forallb _ _); discriminate.
Qed.
Lemma set_of_ok m s : set_of (convert m) = Ok s -> forall x, In x s <-> shows m x.
Proof.
  intros E x. destruct m as [v|d].
  - destruct v as [q|c|b]; cbn in E; try discriminate. injection E as <-. split.
    + intros I. apply in_map_iff in I as (c' & <- & I). constructor. exact I.
    + intros S. inversion S; subst. apply (in_map (fun c => SStr [c])). assumption.
  - destruct (forallb (fun e => is_int (fst e)) d) eqn:F.
    + pose proof (proj1 (ints_true d) F) as N. rewrite (proj2 (convert_table d) N) in E. cbn [set_of] in E. apply scalars_ok in E. split.
      * intros I. apply (in_map PVal) in I. rewrite <- E, map_map in I. apply in_map_iff in I as ([k v] & C & I). cbn in C. apply (proj1 (convert_val _ _)) in C. subst v.
        apply (shows_value d k x N I).
      * intros S. inversion S as [d' s' v k w x' I _ _|d' k x' _ I|]; subst; [destruct (N _ _ I)|].
        apply (in_map snd) in I. apply (in_map convert) in I. rewrite E in I. cbn in I. apply in_map_iff in I as (y & X & I). congruence.
    + pose proof (proj1 (ints_false d) F) as N. rewrite (proj1 (convert_table d) N) in E. cbn [set_of] in E. injection E as <-.
      replace (map (fun e => key_scalar (fst e)) (combine (map fst d) (map convert (map snd d)))) with (map (fun e => key_scalar (fst e)) d)
        by (clear; induction d as [|[k v] d IH]; [reflexivity|cbn; f_equal; exact IH]).
      split.
      * intros I. apply in_map_iff in I as ([k v] & X & I). cbn in X. destruct N as (s & w & J). apply (shows_key d s w k v); [exact J|exact I|apply key_reads_iff; exact X].
      * intros S. inversion S as [d' s' v k w x' _ I R|d' k x' M _|]; subst; [|destruct N as (s & v & J); destruct (M _ _ J)].
        apply key_reads_iff in R. subst x. apply (in_map (fun e => key_scalar (fst e))) in I. exact I.
Qed.
Lemma set_of_iff m : (exists s, set_of (convert m) = Ok s) <-> settable m.
Proof.
  destruct m as [[q|c|b]|d]; cbn [settable].
  - split; [intros (s & E); discriminate|intros []].
  - split; [auto|]. intros _. eexists. reflexivity.
  - split; [intros (s & E); discriminate|intros []].
  - destruct (forallb (fun e => is_int (fst e)) d) eqn:F.
    + pose proof (proj1 (ints_true d) F) as N. rewrite (proj2 (convert_table d) N). cbn [set_of]. rewrite scalars_iff. split.
      * intros H. right. intros k v I. destruct (H (convert v)) as (x & C); [apply in_map, (in_map snd _ _ I)|].
        apply (proj1 (convert_val _ _)) in C. eauto.
      * intros [(s & v & I)|H]; [destruct (N _ _ I)|]. intros v I. rewrite map_map in I. apply in_map_iff in I as ([k w] & <- & I).
        destruct (H _ _ I) as (x & ->). exists x. reflexivity.
    + pose proof (proj1 (ints_false d) F) as N. rewrite (proj1 (convert_table d) N). split; [intros _; left; exact N|]. intros _. eexists. reflexivity.
Qed.
Lemma set_of_err m e : set_of (convert m) = Err e -> e = TypeError.
Proof.
  destruct (convert m) as [[]| |]; cbn; try congruence. apply scalars_err.
Qed.
Lemma read_ok t t' : read_tile t = Ok t' -> kept t t'.
Proof.
  unfold read_tile, kept. destruct (rt_mask t) as [m|]; [|discriminate]. cbn [need bind]. destruct (set_of (convert m)) as [s|] eqn:E; [|discriminate].
  cbn [bind]. intros X. injection X as <-. cbn. split; [reflexivity|]. exists m. split; [reflexivity|]. apply set_of_ok. exact E.
Qed.
Lemma read_iff t : (exists t', read_tile t = Ok t') <-> good_tile t.
Proof.
  unfold read_tile, good_tile. destruct (rt_mask t) as [m|]; cbn [need bind].
  - split.
    + intros (t' & E). exists m. split; [reflexivity|]. apply set_of_iff. destruct (set_of (convert m)) as [s|]; [eauto|discriminate].
    + intros (m' & E & S). injection E as <-. apply set_of_iff in S as (s & E). rewrite E. eexists. reflexivity.
  - split; [intros (? & E); discriminate|intros (? & E & _); discriminate].
Qed.
Lemma read_err t e : read_tile t = Err e -> e = KeyError /\ rt_mask t = None \/ e = TypeError /\ rt_mask t <> None.
Proof.
  unfold read_tile. destruct (rt_mask t) as [m|]; cbn [need bind]; [|intros E; injection E as <-; left; auto].
  destruct (set_of (convert m)) eqn:E; [discriminate|]. cbn [bind]. intros X. injection X as <-. apply set_of_err in E. right. split; [exact E|discriminate].
Qed.
Lemma reads_ok l : forall l', read_tiles l = Ok l' -> Forall2 (fun p q => fst q = fst p /\ kept (snd p) (snd q)) l l'.
Proof.
  induction l as [|[n t] l IH]; cbn; intros l' E; [injection E as <-; constructor|].
  destruct (read_tile t) as [t'|] eqn:R; [|discriminate]. cbn [bind] in E. destruct (read_tiles l) as [r|]; [|discriminate]. injection E as <-.
  constructor; [cbn; split; [reflexivity|apply read_ok; exact R]|apply IH; reflexivity].
Qed.
Lemma reads_iff l : (exists l', read_tiles l = Ok l') <-> forall n t, In (n, t) l -> good_tile t.
Proof.
  induction l as [|[n t] l IH]; cbn.
  - split; [intros _ ? ? []|]. intros _. eexists. reflexivity.
  - split.
    + intros (l' & E). destruct (read_tile t) as [t'|] eqn:R; [|discriminate]. cbn [bind] in E. destruct (read_tiles l) as [r|]; [|discriminate].
      intros n' u [X|I]; [injection X as <- <-; apply read_iff; eauto|]. apply (proj1 IH (ex_intro _ r eq_refl) n' u I).
    + intros H. destruct (proj2 (read_iff t) (H n t (or_introl eq_refl))) as (t' & ->). cbn [bind].
      destruct (proj2 IH (fun n u I => H n u (or_intror I))) as (r & ->). eexists. reflexivity.
Qed.
Lemma reads_err l e : read_tiles l = Err e -> exists l1 n t l2, l = l1 ++ (n, t) :: l2 /\ (forall m u, In (m, u) l1 -> good_tile u) /\ read_tile t = Err e.
Proof.
  induction l as [|[n t] l IH]; cbn; intros E; [discriminate|]. destruct (read_tile t) as [t'|e'] eqn:R; cbn [bind] in E.
  - destruct (read_tiles l) as [r|]; [discriminate|]. cbn [bind] in E. injection E as ->. destruct (IH eq_refl) as (l1 & m & u & l2 & -> & H & F).
    exists ((n, t) :: l1), m, u, l2. split; [reflexivity|]. split; [|exact F]. intros m' u' [X|I]; [injection X as <- <-; apply read_iff; eauto|eauto].
  - injection E as <-. exists [], n, t, l. split; [reflexivity|]. split; [intros ? ? []|exact R].
Qed.

Lemma dict_of_id {A} (l : list (pystr * A)) : NoDup (map fst l) -> dict_of pystr_eqb l = l.
Proof. intros D. unfold dict_of. rewrite (dict_of_fresh l []) by exact D. reflexivity. Qed.

Lemma Forall2_fst {A B} (R : A -> B -> Prop) (l : list (pystr * A)) (l' : list (pystr * B)) :
  Forall2 (fun p q => fst q = fst p /\ R (snd p) (snd q)) l l' -> map fst l' = map fst l.
Proof. induction 1 as [|p q l l' [E _] F IH]; [reflexivity|]. cbn. f_equal; assumption. Qed.
Lemma extract_ok tiles out : NoDup (map fst tiles) -> extract_tiles tiles = Ok out ->
  Permutation (map fst out) (map fst tiles) /\ StronglySorted (fun p q => place_lt (tile_place p) (tile_place q)) out /\
  (forall n t, In (n, t) tiles -> exists t', dget pystr_eqb out n = Some t' /\ kept t t') /\
  (forall n t', dget pystr_eqb out n = Some t' -> exists t, In (n, t) tiles /\ kept t t').
Proof.
  intros D E. unfold extract_tiles in E. destruct (read_tiles tiles) as [l|] eqn:R; [|discriminate]. cbn [bind] in E. apply reads_ok in R.
  pose proof (Forall2_fst _ _ _ R) as N.
  assert (DL : NoDup (map fst l)) by (rewrite N; exact D).
  destruct (sort_strict tile_place l) as [P S].
  { apply (NoDup_of_map tile_place fst); [unfold tile_place; congruence|exact DL]. }
  change (stable_sort (fun x => Shelf_Model.key_of (fst (tile_place x)) (snd (tile_place x))) key_cmp l) with
    (stable_sort (fun p => Shelf_Model.key_of (t_order (snd p)) (fst p)) key_cmp l) in P, S.
  set (s := stable_sort (fun p => Shelf_Model.key_of (t_order (snd p)) (fst p)) key_cmp l) in *.
  assert (DS : NoDup (map fst s)) by (apply (Permutation_NoDup (l := map fst l)); [apply Permutation_map; symmetry; exact P|exact DL]).
  assert (X : s = out) by (transitivity (dict_of pystr_eqb s); [symmetry; apply dict_of_id; exact DS|congruence]). clearbody s. subst s. clear E.
  split; [rewrite <- N; apply Permutation_map; exact P|]. split; [exact S|]. split.
  - intros n t I.
    assert (J : exists t', In (n, t') l /\ kept t t').
    { clear - R I. induction R as [|p q l l' [F K] R IH]; [destruct I|]. destruct I as [->|I].
      - exists (snd q). split; [left; destruct q; cbn in *; congruence|exact K].
      - destruct (IH I) as (t' & J & K'). exists t'. split; [right; exact J|exact K']. }
    destruct J as (t' & J & K). exists t'. split; [|exact K]. apply (dget_in pystr_eqb pystr_eqb_eq out n t' DS).
    apply (Permutation_in (l := l)); [symmetry; exact P|exact J].
  - intros n t' G. apply (dget_in pystr_eqb pystr_eqb_eq out n t' DS) in G. apply (Permutation_in (l' := l)) in G; [|exact P].
    clear - R G. induction R as [|p q l l' [F K] R IH]; [destruct G|]. destruct G as [->|G].
    + exists (snd p). split; [left; destruct p; cbn in *; congruence|exact K].
    + destruct (IH G) as (t & J & K'). exists t. split; [right; exact J|exact K'].
Qed.
Lemma extract_iff tiles : (exists out, extract_tiles tiles = Ok out) <-> forall n t, In (n, t) tiles -> good_tile t.
Proof.
  rewrite <- reads_iff. unfold extract_tiles. destruct (read_tiles tiles) as [l|]; cbn [bind]; split; intros (x & E); try discriminate; eauto.
Qed.
Lemma extract_err tiles e : extract_tiles tiles = Err e ->
  exists l1 n t l2, tiles = l1 ++ (n, t) :: l2 /\ (forall m u, In (m, u) l1 -> good_tile u) /\ ~ good_tile t /\
    (e = KeyError /\ rt_mask t = None \/ e = TypeError /\ rt_mask t <> None).
Proof.
  unfold extract_tiles. destruct (read_tiles tiles) as [l|e'] eqn:R; [discriminate|]. cbn [bind]. intros E. injection E as ->.
  apply reads_err in R as (l1 & n & t & l2 & -> & H & R). exists l1, n, t, l2. split; [reflexivity|]. split; [exact H|]. split; [|apply read_err; exact R].
  intros G. apply read_iff in G as (t' & G). congruence.
Qed.
(** Masks with the same keys are the same. *)
Lemma mask_keys d d' : (exists s v, In (KStr s, v) d) -> map fst d = map fst d' -> set_of (convert (LTab d)) = set_of (convert (LTab d')).
Proof.
  intros X E. assert (X' : exists s v, In (KStr s, v) d').
  { destruct X as (s & v & I). apply (in_map fst) in I. rewrite E in I. apply in_map_iff in I as ([k w] & F & I). cbn in F. subst k. eauto. }
  rewrite (proj1 (convert_table d) X), (proj1 (convert_table d') X'). cbn [set_of]. f_equal. clear X X'.
  rewrite <- !(map_map fst key_scalar). f_equal. revert d' E. induction d as [|[k v] d IH]; intros [|[k' v'] d'] E; cbn in *; try discriminate; [reflexivity|].
  injection E as -> E. f_equal. apply IH. exact E.
Qed.
Definition land := LTab [(KStr (str "layers"), LTab [(KStr (str "ground_tile"), LVal (SBool true))])].
Definition sea := LTab [(KStr (str "layers"), LTab [(KStr (str "water_tile"), LVal (SBool true)); (KStr (str "item"), LVal (SBool true))])].
Lemma land_sea : exists out m, extract_tiles [(str "water", mkRT (Some (str "b")) (Some sea)); (str "grass", mkRT (Some (str "a")) (Some land))] = Ok out /\
  collision_mask out (str "water") = Some m /\ collision_mask out (str "grass") = Some m /\ ~ In (SStr (str "water_tile")) m.
Proof.
  eexists. exists [SStr (str "layers")]. split; [vm_compute; reflexivity|]. split; [vm_compute; reflexivity|]. split; [vm_compute; reflexivity|].
  intros [H|[]]. discriminate.
Qed.
Lemma added_mask ops : forall raw n, collision_mask (added raw ops) n = match last_of n ops with Some m => Some m | None => collision_mask raw n end.
Proof.
  induction ops as [|[m x] ops IH]; intros raw n; [reflexivity|]. cbn [added fold_left fst snd last_of]. fold (added (add_tile raw m x) ops). rewrite IH.
  destruct (last_of n ops); [reflexivity|]. unfold collision_mask, add_tile. rewrite sget. destruct (pystr_eqb m n); reflexivity.
Qed.
Lemma mask_known raw n : collision_mask raw n = None <-> ~ In n (map fst raw).
Proof. unfold collision_mask. rewrite <- (dget_none pystr_eqb pystr_eqb_eq). destruct (dget pystr_eqb raw n); split; intros H; congruence. Qed.

(** ** Fluids *)
Lemma range_spec raw n :
  (forall a b, get_temperature_range raw n = Ok (a, b) <-> exists f, dget pystr_eqb raw n = Some f /\ f_default f = Some a /\ (f_max f = Some b \/ f_max f = None /\ b = a)) /\
  (forall e, get_temperature_range raw n = Err e <->
     e = DraftsmanError /\ dget pystr_eqb raw n = None \/ e = KeyError /\ exists f, dget pystr_eqb raw n = Some f /\ f_default f = None).
Proof.
  unfold get_temperature_range. destruct (dget pystr_eqb raw n) as [[o d m]|]; cbn [f_default f_max].
  - destruct d as [d|]; cbn [need bind]; split.
    + intros a b. split.
      * intros E. injection E as <- <-. eexists. split; [reflexivity|]. cbn. split; [reflexivity|]. destruct m; auto.
      * intros (f & E & D & H). injection E as <-. cbn in *. injection D as <-. destruct H as [->|[-> ->]]; reflexivity.
    + intros e. split; [discriminate|]. intros [[_ E]|(_ & f & E & D)]; [discriminate|]. injection E as <-. discriminate.
    + intros a b. split; [discriminate|]. intros (f & E & D & _). injection E as <-. discriminate.
    + intros e. split; [intros E; injection E as <-; right; eauto|]. intros [[_ E]|(-> & _)]; [discriminate|reflexivity].
  - split.
    + intros a b. split; [discriminate|]. intros (f & E & _). discriminate.
    + intros e. split; [intros E; injection E as <-; left; auto|]. intros [[-> _]|(_ & f & E & _)]; [reflexivity|discriminate].
Qed.
Lemma supplied_get ops : forall raw n,
  (~ about n ops -> dget pystr_eqb (supplied raw ops) n = dget pystr_eqb raw n) /\
  (about n ops -> dget pystr_eqb (supplied raw ops) n = Some (mkFluid (order_told n ops)
     (Some match told k_default n ops with
      | Some a => a
      | None => match dget pystr_eqb raw n with Some (mkFluid _ (Some a) _) => a | _ => 25%Q end
      end)
     (match told k_max n ops with Some b => Some b | None => match dget pystr_eqb raw n with Some f => f_max f | None => None end end))).
Proof.
  induction ops as [|[[m o] kw] ops IH]; intros raw n.
  - split; [reflexivity|]. intros (? & ? & []).
  - cbn [supplied fold_left fst snd]. fold (supplied (add_fluid raw m o kw) ops). destruct (IH (add_fluid raw m o kw) n) as [H1 H2]. clear IH.
    assert (G : dget pystr_eqb (add_fluid raw m o kw) n = if pystr_eqb m n then Some (mkFluid (Some (match o with Some o => o | None => [] end))
        (Some match k_default kw with Some a => a | None => match dget pystr_eqb raw n with Some (mkFluid _ (Some a) _) => a | _ => 25%Q end end)
        (match k_max kw with Some b => Some b | None => match dget pystr_eqb raw n with Some f => f_max f | None => None end end))
      else dget pystr_eqb raw n).
    { unfold add_fluid. rewrite sget. destruct (pystr_eqb m n) eqn:Q; [|reflexivity]. apply pystr_eqb_eq in Q. subst m. f_equal.
      destruct kw as [[d|] [x|]], (dget pystr_eqb raw n) as [[? [?|] [?|]]|]; reflexivity. }
    split.
    + intros N. rewrite H1; [|intros (a & b & I); apply N; exists a, b; right; exact I]. rewrite G. destruct (pystr_eqb m n) eqn:Q; [|reflexivity].
      apply pystr_eqb_eq in Q. subst m. destruct N. exists o, kw. left. reflexivity.
    + intros A. assert (DA : about n ops \/ ~ about n ops).
      { clear. induction ops as [|[[m o] kw] ops [(a & b & I)|N]]; [right; intros (? & ? & [])|left; exists a, b; right; exact I|].
        destruct (pystr_eqb m n) eqn:Q; [apply pystr_eqb_eq in Q; subst; left; exists o, kw; left; reflexivity|].
        right. intros (a & b & [X|I]); [injection X as -> _ _; rewrite pystr_eqb_refl in Q; discriminate|apply N; exists a, b; exact I]. }
      cbn [told order_told]. destruct DA as [B|B].
      * rewrite (H2 B), G. clear H1 H2.
        assert (O : exists y, order_told n ops = Some y).
        { clear - B. destruct B as (a & b & I). induction ops as [|[[m o] kw] ops IH]; [destruct I|]. cbn. destruct I as [X|I].
          - injection X as -> -> ->. rewrite pystr_eqb_refl. destruct (order_told n ops); eauto.
          - destruct (IH I) as (y & ->). eauto. }
        destruct O as (y & ->). f_equal. f_equal.
        -- f_equal. destruct (told k_default n ops); [reflexivity|]. destruct (pystr_eqb m n); [|reflexivity]. reflexivity.
        -- destruct (told k_max n ops); [reflexivity|]. destruct (pystr_eqb m n); [|reflexivity]. reflexivity.
      * assert (M : m = n) by (destruct A as (a & b & [X|I]); [injection X as -> _ _; reflexivity|destruct B; exists a, b; exact I]). subst m.
        rewrite (H1 B), G, pystr_eqb_refl.
        assert (T : forall A (f : temps -> option A), told f n ops = None).
        { intros A' f. clear - B. induction ops as [|[[m' o'] kw'] ops IH]; [reflexivity|]. cbn.
          rewrite IH; [|intros (a & b & I); apply B; exists a, b; right; exact I]. destruct (pystr_eqb m' n) eqn:Q; [|reflexivity].
          apply pystr_eqb_eq in Q. subst. destruct B. exists o', kw'. left. reflexivity. }
        assert (O : order_told n ops = None).
        { clear - B. induction ops as [|[[m' o'] kw'] ops IH]; [reflexivity|]. cbn.
          rewrite IH; [|intros (a & b & I); apply B; exists a, b; right; exact I]. destruct (pystr_eqb m' n) eqn:Q; [|reflexivity].
          apply pystr_eqb_eq in Q. subst. destruct B. exists o', kw'. left. reflexivity. }
        rewrite !T, O. reflexivity.
Qed.
Lemma supplied_range raw ops n a b : about n ops ->
  (get_temperature_range (supplied raw ops) n = Ok (a, b) <->
   a = match told k_default n ops with
       | Some a => a
       | None => match dget pystr_eqb raw n with Some (mkFluid _ (Some a) _) => a | _ => 25%Q end
       end /\
   b = match told k_max n ops with
       | Some b => b
       | None => match dget pystr_eqb raw n with Some (mkFluid _ _ (Some b)) => b | _ => a end
       end).
Proof.
  intros A. unfold get_temperature_range. rewrite (proj2 (supplied_get ops raw n) A). cbn [f_default f_max need bind].
  set (x := match told k_default n ops with Some a => a | None => _ end).
  destruct (told k_max n ops) as [m|]; [|destruct (dget pystr_eqb raw n) as [[? ? [m|]]|]; cbn [f_max]]; split; try (intros E; injection E as <- <-; auto); intros [-> ->]; reflexivity.
Qed.
Lemma supplied_same raw ops n : ~ about n ops -> dget pystr_eqb (supplied raw ops) n = dget pystr_eqb raw n.
Proof. apply supplied_get. Qed.
Lemma order_lost : exists raw n f o kw, dget pystr_eqb raw n = Some f /\ f_order f = Some o /\
  match dget pystr_eqb (add_fluid raw n None kw) n with Some f' => f_order f' <> Some o | None => True end.
Proof.
  exists [(str "water", mkFluid (Some (str "a")) (Some 15%Q) (Some 100%Q))], (str "water"). eexists. exists (str "a"), (mkTemps None (Some 200%Q)).
  split; [reflexivity|]. split; [reflexivity|]. vm_compute. discriminate.
Qed.
Lemma range_empty : exists raw n kw a b a' b', get_temperature_range raw n = Ok (a, b) /\ (a <= b)%Q /\
  get_temperature_range (add_fluid raw n None kw) n = Ok (a', b') /\ forall t, ~ (a' <= t /\ t <= b')%Q.
Proof.
  exists [(str "water", mkFluid (Some (str "a")) (Some 15%Q) (Some 100%Q))], (str "water"), (mkTemps (Some 500%Q) None). do 4 eexists.
  split; [vm_compute; reflexivity|]. split; [discriminate|]. split; [vm_compute; reflexivity|]. intros t [H1 H2].
  assert (500 <= 100)%Q by (eapply Qle_trans; eassumption). apply H. reflexivity.
Qed.
