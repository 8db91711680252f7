(** Property theorems C33: upgrade planner mappings. *)
From Coq Require Import ZArith String List Bool Sorted.
From Verif Require Import Common Dict Planner_Model Planner_Spec Planner_Proofs.
Import ListNotations.
Local Open Scope string_scope.
Local Open Scope list_scope.
Local Open Scope Z_scope.

(** Whatever sorted mappings the planner starts with, any sequence of setting
    and popping behaves like the indexed table. *)
Theorem C33_set_pop : forall os st m, shows st m -> Forall set_or_pop os ->
  exists m', steps m os (snd (run st os)) m' /\ shows (fst (run st os)) m'.
Proof. exact run_set_pop. Qed.
Print Assumptions C33_set_pop.
(** The same for all calls, removal included, on mappings set by [set_mapping];
    in particular for every history of a planner created without mappings. *)
Theorem C33_all_calls : forall os st m, shows st m -> all_set_here st ->
  exists m', steps m os (snd (run st os)) m' /\ shows (fst (run st os)) m' /\ all_set_here (fst (run st os)).
Proof. exact run_here. Qed.
Print Assumptions C33_all_calls.
Theorem C33_fresh : forall os,
  exists m', steps empty os (snd (run None os)) m' /\ shows (fst (run None os)) m' /\ all_set_here (fst (run None os)).
Proof.
  intros os. apply run_here; [|constructor]. split; [constructor|]. intros i f t. split; [discriminate|].
  intros [e [[] _]].
Qed.
Print Assumptions C33_fresh.
(** The table semantics determines the outcome and the resulting table. *)
Theorem C33_meaning_unambiguous : forall m o r r' m1 m2, step m o r m1 -> step m o r' m2 ->
  same_kind r r' /\ forall i, m1 i = m2 i.
Proof. exact step_deterministic. Qed.
Print Assumptions C33_meaning_unambiguous.
(** A call that raises leaves the mappings exactly as they were. *)
Theorem C33_failure_no_effect : forall st o e, snd (apply st o) = Raised e -> fst (apply st o) = st.
Proof. exact apply_raised. Qed.
Print Assumptions C33_failure_no_effect.
(** On any list, sorted or not, popping takes out the first mapping with that
    index or raises ValueError. *)
Theorem C33_pop_first : forall l i, snd (apply (Some l) (Pop i)) = Raised ValueError /\ (forall e, In e l -> m_index e <> i) \/
  exists a x b, l = a ++ x :: b /\ m_index x = i /\ (forall e, In e a -> m_index e <> i) /\
    apply (Some l) (Pop i) = (Some (a ++ b), Gave i (m_from x) (m_to x)).
Proof. exact pop_first. Qed.
Print Assumptions C33_pop_first.

Definition belt : mid := (str "transport-belt", str "entity").
Definition fast : mid := (str "fast-transport-belt", str "entity").
Definition express : mid := (str "express-transport-belt", str "entity").
(** Refuted: removing a mapping that is present by its sides and its index.  A
    mapping with a blank side, and any mapping of an imported planner, is
    reported missing. *)
Theorem C33_remove_present_blank_refuted : exists st f t i m, shows st m /\ all_set_here st /\ m i = Some (f, t) /\
  apply st (Remove f t (Some i)) = (st, Raised ValueError).
Proof.
  exists (set_mapping None (Some belt) None 4), (Some belt), None, 4, (updated empty 4 (Some (Some belt, None))).
  split.
  - apply shows_set. split; [constructor|]. intros i f t. split; [discriminate|]. intros [e [[] _]].
  - split; [repeat constructor|]. split; reflexivity.
Qed.
Print Assumptions C33_remove_present_blank_refuted.
Theorem C33_imported_never_removed : forall l f t index,
  Forall (fun e => m_dict e = false) l -> (f <> None \/ t <> None \/ index <> None) ->
  apply (Some l) (Remove f t index) = (Some l, Raised ValueError).
Proof. exact imported_not_found. Qed.
Print Assumptions C33_imported_never_removed.
Theorem C33_remove_imported_refuted : exists l f t i, In (mkMapping i f t false) l /\ StronglySorted Z.lt (map m_index l) /\
  (forall index, apply (Some l) (Remove f t index) = (Some l, Raised ValueError)).
Proof.
  exists [mkMapping 0 (Some belt) (Some fast) false], (Some belt), (Some fast), 0.
  split; [left; reflexivity|]. split; [repeat constructor|]. intros index. apply imported_not_found; [repeat constructor|].
  left. discriminate.
Qed.
Print Assumptions C33_remove_imported_refuted.
(** Removal and popping on a planner without a mapping list raise other errors. *)
Theorem C33_no_list : forall f t i, apply None (Pop i) = (None, Raised TypeError) /\
  apply None (Remove f t None) = (None, Raised TypeError) /\ apply None (Remove f t (Some i)) = (None, Raised AttributeError).
Proof. repeat split. Qed.
Print Assumptions C33_no_list.

Example planner_example :
  run None [Set_ (Some belt) (Some fast) 5; Set_ (Some fast) (Some express) 2; Set_ (Some belt) (Some express) 5;
            Pop 7; Set_ None (Some fast) 3; Remove (Some fast) (Some express) None; Pop 5]
  = (Some [mkMapping 3 None (Some fast) true],
     [Done; Done; Done; Raised ValueError; Done; Done; Gave 5 (Some belt) (Some express)]).
Proof. vm_compute. reflexivity. Qed.
