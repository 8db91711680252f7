(** Property theorems C40: nested groups. *)
From Coq Require Import ZArith List Bool Lia Sorting.Sorted.
From Verif Require Import Common Dict Spatial_Model Spatial_Spec Group_Model Group_Spec Group_Proofs Group_Index_Proofs.
Import ListNotations.
Local Open Scope Z_scope.

(** Flattening lists the entities of every address exactly once, in reading
    order … *)
Theorem C40_flatten_in_order : forall f h l es, flatten_entities f h l = Ok es -> lists h l es.
Proof. exact flatten_spec. Qed.
Print Assumptions C40_flatten_in_order.
(** … succeeds on every finite nesting … *)
Theorem C40_flatten_total : forall n h l, nested h n l -> forall f, (n < f)%nat -> exists es, flatten_entities f h l = Ok es.
Proof. exact flatten_total. Qed.
Print Assumptions C40_flatten_total.
(** … and lists no object twice. *)
Theorem C40_flatten_once : forall h c n es, consistent h -> distinct h -> nested h n (kids h c) -> lists h (kids h c) es -> NoDup es.
Proof. exact lists_nodup. Qed.
Print Assumptions C40_flatten_once.
(** The global position is one's own position plus those of all groups on the
    way from the blueprint (or from a group placed nowhere, which counts too). *)
Theorem C40_global_position : forall h c a gs x f, consistent h -> topmost h c -> reach h (kids h c) a gs x ->
  (List.length gs + 2 <= f)%nat ->
  global_position f h x = Ok (vadd (base h c) (vadd (total (map (position_of h) gs)) (position_of h x))).
Proof. exact global_spec. Qed.
Print Assumptions C40_global_position.
(** Moving a group moves everything below it by the same vector and nothing else. *)
Theorem C40_moving_a_group : forall h c n g v a gs x f p, consistent h -> topmost h c -> nested h n (kids h c) ->
  reach h (kids h c) a gs x -> (List.length gs + 2 <= f)%nat -> g <> c -> global_position f h x = Ok p ->
  (In g gs -> global_position f (update_position h g v) x = Ok (shift (position_of h g) v p)) /\
  (~ In g gs -> g <> x -> global_position f (update_position h g v) x = Ok p).
Proof. exact move_spec. Qed.
Print Assumptions C40_moving_a_group.
Theorem C40_moving_the_outermost_group : forall h c n v a gs x f p, consistent h -> topmost h c -> nested h n (kids h c) -> knd (objs h c) = Group ->
  reach h (kids h c) a gs x -> (List.length gs + 2 <= f)%nat -> global_position f h x = Ok p -> c <> x ->
  global_position f (update_position h c v) x = Ok (shift (position_of h c) v p).
Proof. exact move_root_spec. Qed.
Print Assumptions C40_moving_the_outermost_group.
(** All of the above applies to whatever is built by adding loose objects,
    deleting and moving. *)
Theorem C40_histories : forall fuel cs eps os h h', consistent h -> distinct h -> allowed_all fuel cs eps h os ->
  run fuel cs eps h os = Ok h' -> consistent h' /\ distinct h'.
Proof. exact history_ok. Qed.
Print Assumptions C40_histories.
(** Adding to a collection shifts everything added by the collection's own
    position; the search index has recorded the positions before the shift. *)
Theorem C40_add_shifts : forall fuel cs eps h c x h' y p, consistent h -> topmost h c -> loose h x -> parent (objs h x) = None -> c <> x ->
  knd (objs h x) <> Blueprint ->
  (y = x \/ knd (objs h x) = Group /\ exists a gs, reach h (kids h x) a gs y /\ ~ In c gs /\ (List.length gs + 3 <= fuel)%nat) ->
  (3 <= fuel)%nat ->
  add fuel cs eps h c x = Ok h' -> global_position fuel h y = Ok p ->
  global_position fuel h' y = Ok (vadd (base h c) p).
Proof. exact add_offset. Qed.
Print Assumptions C40_add_shifts.

(** A heap for the examples: blueprint 0, groups 1 and 2, entities 3, 4, 5; units
    of 1/1000 tile. *)
Definition tile : zbox := mkZ (-500) (-500) 500 500.
Definition empty_heap : heap := mkHeap
  (fun x => mkObj (if x =? 0 then Blueprint else if x <? 3 then Group else Entity)
                  (if x =? 1 then (100000, 0) else if x =? 2 then (0, 7000) else (x * 1000 + 500, 500)) (Some tile) None)
  (fun _ => []) (fun _ => []).
Definition built := run 20 8000 1 empty_heap [OAdd 2 3; OAdd 1 2; OAdd 1 4; OAdd 0 1; OAdd 0 5].
Example C40_ex : exists h, built = Ok h /\ flatten_entities 20 h (kids h 0) = Ok [3; 4; 5] /\
  global_position 20 h 3 = Ok (103500, 7500) /\ global_position 20 h 4 = Ok (104500, 500) /\
  global_position 20 (update_position h 1 (0, 0)) 3 = Ok (3500, 7500) /\
  global_position 20 (update_position h 1 (0, 0)) 5 = Ok (5500, 500) /\
  find_at 20 8000 h 0 (103500, 7500) = Some 3.
Proof. eexists. repeat split; vm_compute; reflexivity. Qed.

(** Refuted: a group finds its own entities by position.  Group 1 stands at
    (100, 0); its entity 4 is at (104.5, 0.5) and found at no position at all. *)
Theorem C40_group_search_refuted : exists h, run 20 8000 1 empty_heap [OAdd 1 4] = Ok h /\ In 4 (kids h 1) /\
  global_position 20 h 4 = Ok (104500, 500) /\ forall p, find_at 20 8000 h 1 p = None.
Proof.
  eexists. split; [vm_compute; reflexivity|]. split; [left; reflexivity|]. split; [vm_compute; reflexivity|].
  apply (lost_entry _ _ _ 4 (mkZ 104000 0 105000 1000)); [vm_compute; reflexivity|vm_compute; reflexivity|cbn; lia].
Qed.
Print Assumptions C40_group_search_refuted.
(** Refuted: a deleted entity is free again.  It keeps its parent: its position
    still includes the group's and cannot be set. *)
Theorem C40_deleted_is_free_refuted : exists h, run 20 8000 1 empty_heap [OAdd 1 4; ODelete 1 0] = Ok h /\ loose h 4 /\
  global_position 20 h 4 = Ok (104500, 500) /\ set_position h 4 (0, 0) = Err DraftsmanError.
Proof.
  eexists. split; [vm_compute; reflexivity|]. split; [|split; vm_compute; reflexivity].
  intros c I. cbv beta iota delta [kids] in I. match type of I with context [if ?b then _ else _] => destruct b end; exact I.
Qed.
Print Assumptions C40_deleted_is_free_refuted.
(** Refuted: an entity put into a group that is already in a blueprint is found
    by the blueprint. *)
Theorem C40_late_member_found_refuted : exists h, run 20 8000 1 empty_heap [OAdd 0 2; OAdd 2 3] = Ok h /\
  flatten_entities 20 h (kids h 0) = Ok [3] /\ global_position 20 h 3 = Ok (3500, 7500) /\
  find_at 20 8000 h 0 (3500, 7500) = None.
Proof. eexists. repeat split; vm_compute; reflexivity. Qed.
Print Assumptions C40_late_member_found_refuted.

(** The box an entity occupies in the world. *)
Theorem C40_world_box : forall f h c a gs x, consistent h -> topmost h c -> reach h (kids h c) a gs x ->
  (List.length gs + 2 <= f)%nat ->
  world_box f h x = match shape (objs h x) with
    | None => None
    | Some b => let p := vadd (base h c) (vadd (total (map (position_of h) gs)) (position_of h x)) in
                Some (shift_box b p)
    end.
Proof. exact world_box_at. Qed.
Print Assumptions C40_world_box.
(** A blueprint filled and emptied in any order with objects and trees of groups
    that are left alone while they are in it finds exactly its entities, in
    reading order, where they are (but for the seams of C09). *)
Theorem C40_blueprint_search : forall fuel cs eps, 0 < cs -> forall n b os h h' p, (n + 3 <= fuel)%nat ->
  consistent h -> distinct h -> knd (objs h b) = Blueprint -> kids h b = [] -> index h b = [] ->
  settled_all fuel cs eps n b h os -> run fuel cs eps h os = Ok h' ->
  exists leaves f, lists h' (kids h' b) leaves /\ NoDup leaves /\
    (forall y, f y = true <-> exists bx, world_box fuel h' y = Some bx /\ in_zbox p bx /\ ~ seam cs eps p bx) /\
    get_on_point cs (world_box fuel h') (index h' b) p None = filter f leaves /\
    find_at fuel cs h' b p = hd_error (filter f leaves).
Proof. exact blueprint_search. Qed.
Print Assumptions C40_blueprint_search.

(** The history of [built], with a deletion, satisfies the premises. *)
Example C40_ex_settled : settled_all 20 8000 1 3 0 empty_heap [OAdd 2 3; OAdd 1 2; OAdd 1 4; OAdd 0 1; OAdd 0 5; ODelete 0 0] /\
  exists h, run 20 8000 1 empty_heap [OAdd 2 3; OAdd 1 2; OAdd 1 4; OAdd 0 1; OAdd 0 5; ODelete 0 0] = Ok h /\
    kids h 0 = [5] /\ find_at 20 8000 h 0 (5500, 500) = Some 5 /\ find_at 20 8000 h 0 (104500, 500) = None.
Proof.
  split; [|eexists; repeat split; vm_compute; reflexivity].
  assert (NB : forall h, kids h 0 = [] -> forall y, ~ below h 0 y).
  { intros h E y [a [gs R]]. rewrite E in R. inversion R as [l i z N|l i g a0 gs0 z N]; destruct i; discriminate. }
  assert (LA : forall h c x h' y, add 20 8000 1 h c x = Ok h' -> loose h y -> y <> x -> loose h' y).
  { intros h c x h' y E L D d I. unfold add in E. apply Wires_Proofs.bind_ok in E. destruct E as [lv [_ E]].
    injection E as <-. cbn [kids] in I. unfold upd in I. destruct (d =? c); [|exact (L d I)].
    apply in_app_or in I. destruct I as [I|[I|[]]]; [exact (L c I)|congruence]. }
  assert (L0 : forall y, loose empty_heap y) by (intros y c []).
  split. { cbn [settled]. split; [apply L0|]. split; [reflexivity|]. split; [discriminate|]. split; [intros E; discriminate E|]. right. apply NB. reflexivity. }
  intros h1 E1. pose proof (fun y => LA _ _ _ _ y E1 (L0 y)) as L1. vm_compute in E1. injection E1 as <-.
  split. { cbn [settled]. split; [apply L1; discriminate|]. split; [reflexivity|]. split; [discriminate|]. split; [intros E; discriminate E|]. right. apply NB. reflexivity. }
  intros h2 E2. pose proof (fun y d => LA _ _ _ _ y E2 (L1 y d)) as L2. vm_compute in E2. injection E2 as <-.
  split. { cbn [settled]. split; [apply L2; discriminate|]. split; [reflexivity|]. split; [discriminate|]. split; [intros E; discriminate E|]. right. apply NB. reflexivity. }
  intros h3 E3. pose proof (fun y d d' => LA _ _ _ _ y E3 (L2 y d d')) as L3. vm_compute in E3. injection E3 as <-.
  split.
  { cbn [settled]. split; [apply L3; discriminate|]. split; [reflexivity|]. split; [discriminate|]. split; [|left; reflexivity].
    intros _ _. exists 2%nat. split; [lia|].
    constructor. intros g I K. simpl in I. destruct I as [<-|[<-|[]]]; [|discriminate K].
    exists 1%nat. split; [lia|]. constructor. intros g I K'. simpl in I. destruct I as [<-|[]]. discriminate K'. }
  intros h4 E4. pose proof (fun y d d' d2 => LA _ _ _ _ y E4 (L3 y d d' d2)) as L4. vm_compute in E4. injection E4 as <-.
  split. { cbn [settled]. split; [apply L4; discriminate|]. split; [reflexivity|]. split; [discriminate|]. split; [intros _ K; discriminate K|]. left. reflexivity. }
  intros h5 E5. split; [left; reflexivity|]. intros h6 E6. exact I.
Qed.
(** Refuted: an entity taken out of a group and put into the blueprint is found
    there: it still counts as a member of the group when it is indexed. *)
Theorem C40_moved_entity_found_refuted : exists h, run 20 8000 1 empty_heap [OAdd 1 4; ODelete 1 0; OAdd 0 4] = Ok h /\
  kids h 0 = [4] /\ global_position 20 h 4 = Ok (4500, 500) /\ find_at 20 8000 h 0 (4500, 500) = None.
Proof. eexists. repeat split; vm_compute; reflexivity. Qed.
Print Assumptions C40_moved_entity_found_refuted.
