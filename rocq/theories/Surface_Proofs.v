(** Proofs about surfaces. *)
From Coq Require Import QArith List Bool String Permutation.
From Verif Require Import Common Dict Ranking_Model Surface_Model Surface_Spec.
Import ListNotations.
Local Open Scope string_scope.
Local Open Scope list_scope.

Lemma within_iff c v : above (c_min c) v && below (c_max c) v = true <-> within c v.
Proof.
  unfold above, below, within. rewrite andb_true_iff. split.
  - intros [A B]. split; intros m E; rewrite E in *; apply Qle_bool_iff; assumption.
  - intros [A B]. split; [destruct (c_min c)|destruct (c_max c)]; try reflexivity; apply Qle_bool_iff; auto.
Qed.
Lemma passes_true props : forall l, passes_all l props = Ok true <-> proper l /\ forall c, In c l -> meets props c.
Proof.
  induction l as [|c l IH]; cbn [passes_all].
  - split; [intros _; split; intros c []|reflexivity].
  - destruct (c_property c) as [p|] eqn:P; cbn [need bind].
    + destruct (dget pystr_eqb props p) as [v|] eqn:D.
      * destruct (above (c_min c) v && below (c_max c) v) eqn:W.
        -- rewrite IH. apply within_iff in W. split.
           ++ intros [A B]. split; [intros c' [<-|I]; [congruence|auto]|]. intros c' [<-|I]; [|auto]. intros p' v' P' D'. congruence.
           ++ intros [A B]. split; intros c' I; [apply A|apply B]; right; exact I.
        -- split; [discriminate|]. intros [_ B]. specialize (B c (or_introl eq_refl) p v P D). apply within_iff in B. congruence.
      * rewrite IH. split.
        -- intros [A B]. split; [intros c' [<-|I]; [congruence|auto]|]. intros c' [<-|I]; [|auto]. intros p' v' P' D'. congruence.
        -- intros [A B]. split; intros c' I; [apply A|apply B]; right; exact I.
    + split; [discriminate|]. intros [A _]. destruct (A c (or_introl eq_refl) P).
Qed.
Lemma passes_err props : forall l e, passes_all l props = Err e <->
  e = KeyError /\ exists l1 c l2, l = l1 ++ c :: l2 /\ c_property c = None /\ proper l1 /\ forall c', In c' l1 -> meets props c'.
Proof.
  induction l as [|c l IH]; intros e; cbn [passes_all].
  - split; [discriminate|]. intros (_ & l1 & c & l2 & E & _). destruct l1; discriminate.
  - destruct (c_property c) as [p|] eqn:P; cbn [need bind].
    + assert (ST : meets props c -> (passes_all l props = Err e <->
        e = KeyError /\ exists l1 c0 l2, c :: l = l1 ++ c0 :: l2 /\ c_property c0 = None /\ proper l1 /\ forall c', In c' l1 -> meets props c')).
      { intros M. rewrite IH. split.
        - intros (X & l1 & c0 & l2 & -> & N & A & B). split; [exact X|]. exists (c :: l1), c0, l2. split; [reflexivity|]. split; [exact N|].
          split; intros c' [<-|I]; [congruence|auto|auto|auto].
        - intros (X & l1 & c0 & l2 & E & N & A & B). split; [exact X|]. destruct l1 as [|c1 l1]; cbn in E; [injection E as <- _; congruence|].
          injection E as <- ->. exists l1, c0, l2. split; [reflexivity|]. split; [exact N|]. split; intros c' I; [apply A|apply B]; right; exact I. }
      destruct (dget pystr_eqb props p) as [v|] eqn:D.
      * destruct (above (c_min c) v && below (c_max c) v) eqn:W.
        -- apply ST. intros p' v' P' D'. apply within_iff in W. congruence.
        -- split; [discriminate|]. intros (X & l1 & c0 & l2 & E & N & A & B). destruct l1 as [|c1 l1]; cbn in E; [injection E as <- _; congruence|].
           injection E as <- ->. specialize (B c (or_introl eq_refl) p v P D). apply within_iff in B. congruence.
      * apply ST. intros p' v' P' D'. congruence.
    + split; [intros X; injection X as <-|intros [-> _]; reflexivity]. split; [reflexivity|]. exists [], c, l. split; [reflexivity|]. split; [exact P|]. split; intros c' [].
Qed.
Theorem passes_spec props l :
  (passes_surface_conditions None props = Ok true) /\
  (passes_surface_conditions (Some l) props = Ok true <-> proper l /\ forall c, In c l -> meets props c) /\
  (proper l -> passes_surface_conditions (Some l) props = Ok true \/ passes_surface_conditions (Some l) props = Ok false) /\
  (forall e, passes_surface_conditions (Some l) props = Err e <->
     e = KeyError /\ exists l1 c l2, l = l1 ++ c :: l2 /\ c_property c = None /\ proper l1 /\ forall c', In c' l1 -> meets props c').
Proof.
  cbn [passes_surface_conditions]. split; [reflexivity|]. split; [apply passes_true|]. split; [|apply passes_err].
  intros PR. destruct (passes_all l props) as [[]|e] eqn:E; auto. apply passes_err in E as (_ & l1 & c & l2 & -> & N & _). exfalso.
  apply (PR c); [apply in_or_app; right; left; reflexivity|exact N].
Qed.
Lemma passes_value l props props' : proper l -> ((forall c, In c l -> meets props c) <-> (forall c, In c l -> meets props' c)) -> passes_all l props = passes_all l props'.
Proof.
  intros PR H. destruct (passes_spec props l) as (_ & A & B & _). destruct (passes_spec props' l) as (_ & A' & B' & _). cbn [passes_surface_conditions] in *.
  destruct (B PR) as [E|E], (B' PR) as [E'|E']; rewrite E, E'; try reflexivity; exfalso.
  - apply A in E as [_ E]. assert (X : passes_all l props' = Ok true) by (apply A'; split; [exact PR|apply H; exact E]). congruence.
  - apply A' in E' as [_ E']. assert (X : passes_all l props = Ok true) by (apply A; split; [exact PR|apply H; exact E']). congruence.
Qed.
(** Neither order nor repetition of conditions matters. *)
Theorem passes_set props l l' : proper l -> (forall c, In c l <-> In c l') -> passes_surface_conditions (Some l) props = passes_surface_conditions (Some l') props.
Proof.
  intros PR S. assert (PR' : proper l') by (intros c I; apply PR, S; exact I). cbn [passes_surface_conditions].
  destruct (passes_spec props l) as (_ & A & B & _). destruct (passes_spec props l') as (_ & A' & B' & _). cbn [passes_surface_conditions] in *.
  destruct (B PR) as [E|E], (B' PR') as [E'|E']; rewrite E, E'; try reflexivity; exfalso.
  - apply A in E as [_ E]. assert (X : passes_all l' props = Ok true) by (apply A'; split; [exact PR'|intros c I; apply E, S; exact I]). congruence.
  - apply A' in E' as [_ E']. assert (X : passes_all l props = Ok true) by (apply A; split; [exact PR|intros c I; apply E', S; exact I]). congruence.
Qed.

(** ** Surfaces *)
Lemma properties_known raw n p k : dget pystr_eqb raw n = Some p ->
  forall v, dget pystr_eqb (get_surface_properties raw n) k = Some v <-> exists d, standard k d /\ v = match dget pystr_eqb (p_fields p) k with Some x => x | None => d end.
Proof.
  intros D v. unfold get_surface_properties. rewrite D. cbn [dget]. split.
  - repeat match goal with |- (if pystr_eqb (str ?x) k then _ else _) = _ -> _ => destruct (pystr_eqb (str x) k) eqn:?E;
      [apply pystr_eqb_eq in E; subst k; intros X; injection X as <-; eexists; split; [constructor|reflexivity]|clear E] end. discriminate.
  - intros (d & S & ->). inversion S; subst; reflexivity.
Qed.
Theorem properties_exact raw n :
  (forall p k, dget pystr_eqb raw n = Some p -> forall v, dget pystr_eqb (get_surface_properties raw n) k = Some v <->
     exists d, standard k d /\ v = match dget pystr_eqb (p_fields p) k with Some x => x | None => d end) /\
  (dget pystr_eqb raw n = None -> get_surface_properties raw n = []).
Proof. split; [intros p k; apply properties_known|]. intros D. unfold get_surface_properties. rewrite D. reflexivity. Qed.

Theorem placable raw entities e n : 
  (dget pystr_eqb entities e = None \/ dget pystr_eqb entities e = Some None -> is_placable_on raw entities e n = Ok true) /\
  (forall l, dget pystr_eqb entities e = Some (Some l) -> is_placable_on raw entities e n = passes_surface_conditions (Some l) (get_surface_properties raw n)) /\
  (forall l, dget pystr_eqb entities e = Some (Some l) -> proper l -> dget pystr_eqb raw n = None -> is_placable_on raw entities e n = Ok true).
Proof.
  unfold is_placable_on, surface_conditions. split; [intros [->| ->]; reflexivity|]. split; [intros l ->; reflexivity|].
  intros l -> PR D. unfold get_surface_properties. rewrite D. apply passes_true. split; [exact PR|]. intros c I p v _ X. discriminate.
Qed.
Theorem usable raw recipes r n :
  (dget pystr_eqb recipes r = None -> is_usable_on raw recipes r n = Err KeyError) /\
  (forall x, dget pystr_eqb recipes r = Some x -> is_usable_on raw recipes r n = is_placable_on raw recipes r n).
Proof.
  unfold is_usable_on, is_placable_on, surface_conditions. split; [intros ->; reflexivity|]. intros [l|] ->; reflexivity.
Qed.
(** Planets with all properties nested cannot be told apart. *)
Theorem all_alike raw entities e n n' : nested raw -> dget pystr_eqb raw n <> None -> dget pystr_eqb raw n' <> None ->
  is_placable_on raw entities e n = is_placable_on raw entities e n'.
Proof.
  intros N K K'. unfold is_placable_on. assert (X : get_surface_properties raw n = get_surface_properties raw n').
  { unfold get_surface_properties. destruct (dget pystr_eqb raw n) as [p|] eqn:D; [|congruence]. destruct (dget pystr_eqb raw n') as [p'|] eqn:D'; [|congruence].
    unfold get_or. rewrite (N n p _ _ D st_solar), (N n p _ _ D st_magnetic), (N n p _ _ D st_pressure), (N n p _ _ D st_gravity).
    rewrite (N n' p' _ _ D' st_solar), (N n' p' _ _ D' st_magnetic), (N n' p' _ _ D' st_pressure), (N n' p' _ _ D' st_gravity). reflexivity. }
  rewrite X. reflexivity.
Qed.
(** The answer is right where the game says nothing special of the planet and the
    conditions are about the four properties. *)
Theorem right_when raw entities e n p l : dget pystr_eqb raw n = Some p -> dget pystr_eqb entities e = Some (Some l) -> proper l ->
  (forall k d, standard k d -> dget pystr_eqb (p_surface p) k = dget pystr_eqb (p_fields p) k) ->
  (forall c k, In c l -> c_property c = Some k -> exists d, standard k d) ->
  (is_placable_on raw entities e n = Ok true <-> forall c k v, In c l -> c_property c = Some k -> really p k v -> within c v).
Proof.
  intros D E PR SAME FOUR. rewrite (proj1 (proj2 (placable raw entities e n)) l E). cbn [passes_surface_conditions]. rewrite passes_true.
  assert (X : forall k v, (exists d, standard k d) -> (dget pystr_eqb (get_surface_properties raw n) k = Some v <-> really p k v)).
  { intros k v [d S]. rewrite (properties_known raw n p k D). unfold really. rewrite (SAME k d S). split.
    - intros (d' & S' & ->). destruct (dget pystr_eqb (p_fields p) k) as [x|]; [left; reflexivity|right; auto].
    - intros [H|[H S']]; [exists d; rewrite H; auto|exists v; rewrite H; auto]. }
  split.
  - intros [_ M] c k v I P R. apply (M c I k v P). apply X; [exact (FOUR c k I P)|exact R].
  - intros H. split; [exact PR|]. intros c I k v P G. apply (H c k v I P). apply X; [exact (FOUR c k I P)|exact G].
Qed.

(** ** As in the game's data *)
Definition vulcanus : planet := mkPlanet [] [(str "solar-power", 400); (str "magnetic-field", 25); (str "gravity", 40); (str "pressure", 4000)].
Definition nauvis : planet := mkPlanet [] [].
Definition some_planets : sdict planet := [(str "nauvis", nauvis); (str "vulcanus", vulcanus)].
Definition biolab : list condition := [mkCond (Some (str "pressure")) (Some 1000) (Some 1000)].
Definition foundry : list condition := [mkCond (Some (str "pressure")) (Some 4000) (Some 4000)].
Lemma some_nested : nested some_planets.
Proof.
  intros n p k v D _. apply (dget_some_in pystr_eqb pystr_eqb_eq) in D. destruct D as [D|[D|[]]]; injection D as _ <-; reflexivity.
Qed.
Lemma wrong_place : exists raw entities e n p l, nested raw /\ dget pystr_eqb raw n = Some p /\ dget pystr_eqb entities e = Some (Some l) /\ proper l /\
  is_placable_on raw entities e n = Ok true /\ exists c k v, In c l /\ c_property c = Some k /\ really p k v /\ ~ within c v.
Proof.
  exists some_planets, [(str "biolab", Some biolab)], (str "biolab"), (str "vulcanus"), vulcanus, biolab. split; [exact some_nested|]. split; [reflexivity|]. split; [reflexivity|].
  split; [intros c [<-|[]]; discriminate|]. split; [vm_compute; reflexivity|]. eexists _, (str "pressure"), 4000. split; [left; reflexivity|]. split; [reflexivity|].
  split; [left; reflexivity|]. intros [_ B]. specialize (B _ eq_refl). apply Qle_bool_iff in B. vm_compute in B. discriminate.
Qed.
Lemma wrong_recipe : exists raw recipes r n p l, nested raw /\ dget pystr_eqb raw n = Some p /\ dget pystr_eqb recipes r = Some (Some l) /\ proper l /\
  is_usable_on raw recipes r n = Ok false /\ forall c k v, In c l -> c_property c = Some k -> really p k v -> within c v.
Proof.
  exists some_planets, [(str "foundry", Some foundry)], (str "foundry"), (str "vulcanus"), vulcanus, foundry. split; [exact some_nested|]. split; [reflexivity|]. split; [reflexivity|].
  split; [intros c [<-|[]]; discriminate|]. split; [vm_compute; reflexivity|]. intros c k v [<-|[]] P R. injection P as <-.
  destruct R as [R|[R _]]; [|discriminate]. injection R as <-. split; intros m M; injection M as <-; apply Qle_refl.
Qed.
Lemma ignored : exists raw entities e n p l, dget pystr_eqb raw n = Some p /\ dget pystr_eqb entities e = Some (Some l) /\ proper l /\
  is_placable_on raw entities e n = Ok true /\
  exists c k v, In c l /\ c_property c = Some k /\ dget pystr_eqb (p_fields p) k = Some v /\ dget pystr_eqb (p_surface p) k = Some v /\ ~ within c v.
Proof.
  exists [(str "x", mkPlanet [(str "day-night-cycle", 5)] [(str "day-night-cycle", 5)])], [(str "e", Some [mkCond (Some (str "day-night-cycle")) (Some 6) None])], (str "e"), (str "x").
  eexists _, _. split; [reflexivity|]. split; [reflexivity|]. split; [intros c [<-|[]]; discriminate|]. split; [vm_compute; reflexivity|].
  eexists _, (str "day-night-cycle"), 5. split; [left; reflexivity|]. split; [reflexivity|]. split; [reflexivity|]. split; [reflexivity|].
  intros [A _]. specialize (A _ eq_refl). apply Qle_bool_iff in A. vm_compute in A. discriminate.
Qed.
