(** C86: lists of entities in groups in groups, and their spatial maps. *)
From Coq Require Import ZArith List Bool Permutation.
From Verif Require Import Common Dict Spatial_Model Nest_Model Nest_Spec Nest_Proofs Nest_Path_Proofs Nest_Step_Proofs.
Import ListNotations.
Local Open Scope Z_scope.

(** After any insertions, deletions and replacements on a list, where what comes in
    has a parent where the owner of the list is (a blueprint: no parent), the map holds
    what is in the list and in the groups below, each cell what touches it. *)
Theorem C86_map : forall cs eps, 0 < cs -> forall off ops s, Forall (plain off) ops -> s = run cs eps off (map (fun o => ([], o)) ops) ([], []) ->
  faithful cs eps off (fst s) (snd s) /\ forall c, cell_get (snd s) c <> Some [].
Proof. exact run_index. Qed.
Print Assumptions C86_map.
(** If no two of the entities are equal the map holds the very objects. *)
Theorem C86_objects : forall cs eps, 0 < cs -> forall off ops s, Forall (plain off) ops -> distinct (flat_map brought ops) ->
  s = run cs eps off (map (fun o => ([], o)) ops) ([], []) -> exact cs eps off (fst s) (snd s).
Proof. exact run_exact. Qed.
Print Assumptions C86_objects.
(** And then a search finds what is in the area, and nothing else. *)
Theorem C86_found : forall cs eps off ms ix q, 0 < cs -> 0 < eps -> exact cs eps off ms ix ->
  (forall t, In t (found cs eps off (ms, ix) q) -> In t (all_standing ms) /\ exists b, world off t b /\ meet b q)
  /\ (forall t b, In t (all_standing ms) -> world off t b -> overlap eps b q ->
      exists t', In t' (found cs eps off (ms, ix) q) /\ same t' t = true).
Proof.
  exact (fun cs eps off ms ix q C E X => Logic.conj (fun t => found_sound cs eps off ms ix q t X)
           (fun t b => found_complete cs eps C off ms ix q t b E X)).
Qed.
Print Assumptions C86_found.
(** Wherever a group is, entities without a parent are put into its map as if it were
    at the origin. *)
Theorem C86_brought : forall cs eps, 0 < cs -> forall off ops s, Forall brings ops -> s = run cs eps off (map (fun o => ([], o)) ops) ([], []) ->
  faithful cs eps (0, 0) (fst s) (snd s).
Proof. exact run_brought. Qed.
Print Assumptions C86_brought.

(** What one operation does: which members there are, which cell holds what, the
    things coming in being looked up where their old parent is. *)
Theorem C86_insert : forall cs eps, 0 < cs -> forall s idx d n, well (snd s) -> exists a b ix', fst s = a ++ b
  /\ Z.of_nat (length a) = (let len := Z.of_nat (length (fst s)) in if idx <? 0 then Z.max 0 (idx + len) else Z.min idx len)
  /\ insert cs eps s idx d n = ((a ++ n :: b, ix'), None) /\ well ix'
  /\ forall c, in_cell ix' c = in_cell (snd s) c ++ filter (touches cs eps d c) (standing (0, 0) n).
Proof. exact insert_does. Qed.
Print Assumptions C86_insert.
Theorem C86_delete : forall cs eps, 0 < cs -> forall off s idx, well (snd s) -> fst s <> [] -> exists a n b ix', fst s = a ++ n :: b
  /\ Z.of_nat (length a) = idx mod Z.of_nat (length (fst s))
  /\ delete cs eps off s idx = ((a ++ b, ix'), None) /\ well ix'
  /\ forall c, in_cell ix' c = left_over cs eps off c (in_cell (snd s) c) (standing (0, 0) n).
Proof. exact delete_does. Qed.
Print Assumptions C86_delete.
Theorem C86_delete_empty : forall cs eps off s idx, fst s = [] -> delete cs eps off s idx = (s, Some ZeroDivisionError).
Proof. exact delete_empty. Qed.
Print Assumptions C86_delete_empty.
Theorem C86_replace : forall cs eps, 0 < cs -> forall off s idx d n, let len := Z.of_nat (length (fst s)) in well (snd s) -> - len <= idx < len ->
  exists a m b ix', fst s = a ++ m :: b /\ Z.of_nat (length a) = (if idx <? 0 then idx + len else idx)
  /\ replace cs eps off s idx d n = ((a ++ n :: b, ix'), None) /\ well ix'
  /\ forall c, in_cell ix' c = left_over cs eps off c (in_cell (snd s) c) (standing (0, 0) m) ++ filter (touches cs eps d c) (standing (0, 0) n).
Proof. exact replace_does. Qed.
Print Assumptions C86_replace.
Theorem C86_replace_outside : forall cs eps off s idx d n, let len := Z.of_nat (length (fst s)) in idx < - len \/ len <= idx ->
  replace cs eps off s idx d n = (s, Some IndexError).
Proof. exact replace_outside. Qed.
Print Assumptions C86_replace_outside.

(** An operation on the list of a group changes that list as it would alone, and no
    map but its own. *)
Theorem C86_at : forall cs eps path off s o off' s', list_at path off s off' s' ->
  list_at path off (fst (step_at cs eps path off s o)) off' (fst (step cs eps off' s' o))
  /\ snd (step_at cs eps path off s o) = snd (step cs eps off' s' o).
Proof. exact step_at_here. Qed.
Print Assumptions C86_at.
Theorem C86_elsewhere : forall cs eps path o off s path' off' s', ~ prefix path path' -> list_at path' off s off' s' ->
  exists ms, list_at path' off (fst (step_at cs eps path off s o)) off' (ms, snd s') /\ (~ prefix path' path -> ms = fst s').
Proof. exact step_at_index. Qed.
Print Assumptions C86_elsewhere.
Theorem C86_nowhere : forall cs eps path o off s, (forall off' s', ~ list_at path off s off' s') ->
  fst (step_at cs eps path off s o) = s /\ exists e, snd (step_at cs eps path off s o) = Some e.
Proof. exact step_at_nowhere. Qed.
Print Assumptions C86_nowhere.
(** So the map of a list stays right if and only if nothing changed below it that it
    could hold; it is wrong as soon as an entity comes into a group below. *)
Theorem C86_blind : forall cs eps path o off s s', path <> [] -> faithful cs eps off (fst s) (snd s) -> s' = fst (step_at cs eps path off s o) ->
  (faithful cs eps off (fst s') (snd s') <->
   forall x c, tally (fun t => same x t && touches cs eps off c t) (all_standing (fst s))
               = tally (fun t => same x t && touches cs eps off c t) (all_standing (fst s'))).
Proof. exact blind. Qed.
Print Assumptions C86_blind.
Theorem C86_blind_insert : forall cs eps, 0 < cs -> forall path idx d n off s off' s', path <> [] -> list_at path off s off' s' ->
  Exists (solid eps) (standing (0, 0) n) -> faithful cs eps off (fst s) (snd s) ->
  ~ faithful cs eps off (fst (fst (step_at cs eps path off s (Insert idx d n)))) (snd (fst (step_at cs eps path off s (Insert idx d n)))).
Proof. exact blind_insert. Qed.
Print Assumptions C86_blind_insert.
Theorem C86_blind_remove : forall cs eps, 0 < cs -> forall off s q s', Forall (fun m => ~ is_it off q m) (fst s) ->
  recursive_remove cs eps off s q = (s', None) -> faithful cs eps off (fst s) (snd s) ->
  (forall off' n, deep off (fst s) off' n -> is_it off' q n -> Exists (solid eps) (standing (0, 0) n)) ->
  ~ faithful cs eps off (fst s') (snd s').
Proof. exact blind_remove. Qed.
Print Assumptions C86_blind_remove.

(** [recursive_remove] takes the first member that is it, or the first of the first
    group among the members that has one; otherwise it fails and changes nothing. *)
Theorem C86_remove : forall cs eps off s q, removal cs eps off q s (recursive_remove cs eps off s q).
Proof. exact recursive_remove_does. Qed.
Print Assumptions C86_remove.
(** [in] looks at all depths. *)
Theorem C86_contains : forall off s q, contains off s q = true <-> exists off' n, deep off (fst s) off' n /\ is_it off' q n.
Proof. exact contains_iff. Qed.
Print Assumptions C86_contains.

(** Thousandths of tiles; a chest and groups. *)
Definition chest (o : nat) (p : zpt) : node := Leaf o 1 p (Some (mkZ (-350) (-350) 350 350)).
Definition far : zpt := (100000, 100000).

(** A group that is not at the origin does not find its entities where they are,
    nor where they would be at the origin, and keeps them when they are deleted. *)
Theorem C86_group_refuted : exists off n s s' t b,
  s = run 8000 1 off [([], Insert 0 (0, 0) n)] ([], []) /\ all_standing (fst s) = [t] /\ world off t b
  /\ found 8000 1 off s b = [] /\ (forall b', world (0, 0) t b' -> found 8000 1 off s b' = [])
  /\ s' = fst (step 8000 1 off s (Delete 0)) /\ fst s' = [] /\ snd s' = [((0, 0), [t])].
Proof.
  exists far, (chest 1 (500, 500)). eexists _, _, _, _. split; [reflexivity|]. split; [reflexivity|].
  split; [eexists; split; reflexivity|]. split; [reflexivity|]. split; [|split; [reflexivity|split; reflexivity]].
  intros b' [l [E ->]]. injection E as <-. reflexivity.
Qed.
Print Assumptions C86_group_refuted.
(** An entity that was taken out of such a group and put into a blueprint is not
    found there. *)
Theorem C86_parent_refuted : exists d n s t b,
  s = run 8000 1 (0, 0) [([], Insert 0 d n)] ([], []) /\ all_standing (fst s) = [t] /\ world (0, 0) t b /\ found 8000 1 (0, 0) s b = [].
Proof.
  exists far, (chest 1 (500, 500)). eexists _, _, _. split; [reflexivity|]. split; [reflexivity|].
  split; [eexists; split; reflexivity|reflexivity].
Qed.
Print Assumptions C86_parent_refuted.
(** Of equal entities in the same place the wrong one may stay in the map. *)
Theorem C86_twins_refuted : exists ops s t q, Forall (plain (0, 0)) ops /\ s = run 8000 1 (0, 0) (map (fun o => ([], o)) ops) ([], [])
  /\ In t (found 8000 1 (0, 0) s q) /\ ~ In (t_object t) (map t_object (all_standing (fst s))).
Proof.
  exists [Insert 0 (0, 0) (chest 1 (500, 500)); Insert 1 (0, 0) (chest 2 (500, 500)); Delete 1]. eexists _, _, (mkZ 0 0 1000 1000).
  split; [repeat constructor|]. split; [reflexivity|]. split; [left; reflexivity|]. intros [H|[]]. discriminate H.
Qed.
Print Assumptions C86_twins_refuted.
(** [recursive_remove] does not look into groups of groups, where [in] does; and it
    does not look for the object it is given. *)
Theorem C86_depth_refuted : exists s q, contains (0, 0) s q = true /\ recursive_remove 8000 1 (0, 0) s q = (s, Some ValueError).
Proof.
  exists ([Group 1 (0, 0) [Group 2 (0, 0) [chest 3 (500, 500)] []] []], []), (mkItem 3 (Some (1, (500, 500)))).
  split; reflexivity.
Qed.
Print Assumptions C86_depth_refuted.
Theorem C86_other_refuted : exists s q n n' ix, fst s = [n; n'] /\ equals (0, 0) q n' = true
  /\ (match n' with Leaf o _ _ _ => o = i_object q | _ => False end) /\ recursive_remove 8000 1 (0, 0) s q = (([n'], ix), None).
Proof.
  exists ([chest 1 (500, 500); chest 2 (500, 500)], []), (mkItem 2 (Some (1, (500, 500)))), (chest 1 (500, 500)), (chest 2 (500, 500)).
  eexists. repeat split.
Qed.
Print Assumptions C86_other_refuted.

Example C86_map_example : exists s, s = run 8000 1 (0, 0)
    [([], Insert 0 (0, 0) (Group 9 (7000, 0) [chest 1 (500, 500); chest 2 (1000, 500)] [])); ([], Insert 0 (0, 0) (chest 3 (500, 500)))] ([], [])
  /\ in_cell (snd s) (0, 0) = [mkThing 1 1 (7500, 500) (Some (mkZ (-350) (-350) 350 350)); mkThing 2 1 (8000, 500) (Some (mkZ (-350) (-350) 350 350));
                               mkThing 3 1 (500, 500) (Some (mkZ (-350) (-350) 350 350))]
  /\ in_cell (snd s) (1, 0) = [mkThing 2 1 (8000, 500) (Some (mkZ (-350) (-350) 350 350))]
  /\ map t_object (found 8000 1 (0, 0) s (mkZ 7600 0 8000 8000)) = [1; 2]%nat
  /\ fst (fst (step 8000 1 (0, 0) s (Delete 1))) = [chest 3 (500, 500)]
  /\ snd (fst (step 8000 1 (0, 0) s (Delete 1))) = [((0, 0), [mkThing 3 1 (500, 500) (Some (mkZ (-350) (-350) 350 350))])]
  /\ in_cell (snd (fst (step_at 8000 1 [1%nat] (0, 0) s (Delete 0)))) (0, 0) = in_cell (snd s) (0, 0)
  /\ map t_object (all_standing (fst (fst (step_at 8000 1 [1%nat] (0, 0) s (Delete 0))))) = [3; 2]%nat.
Proof. eexists. split; [reflexivity|]. repeat split. Qed.
Example C86_remove_example : exists s, s = run 8000 1 (0, 0)
    [([], Insert 0 (0, 0) (Group 9 (7000, 0) [chest 1 (500, 500); chest 2 (1000, 500)] [])); ([], Insert 0 (0, 0) (chest 3 (500, 500)))] ([], [])
  /\ fst (fst (recursive_remove 8000 1 (0, 0) s (mkItem 7 (Some (1, (8000, 500)))))) = [chest 3 (500, 500); Group 9 (7000, 0) [chest 1 (500, 500)] []]
  /\ fst (fst (recursive_remove 8000 1 (0, 0) s (mkItem 9 None))) = [chest 3 (500, 500)]
  /\ recursive_remove 8000 1 (0, 0) s (mkItem 8 None) = (s, Some ValueError).
Proof. eexists. split; [reflexivity|]. repeat split. Qed.
