(** Property theorems C39: filtered searches. *)
From Coq Require Import ZArith List Bool Permutation String.
From Verif Require Import Common Spatial_Model Spatial_Spec Search_Model Search_Spec Search_Proofs.
Import ListNotations.
Local Open Scope string_scope.
Local Open Scope list_scope.
Local Open Scope Z_scope.

Section Statements.
  Context {item : Type}.
  Variable cs eps : Z.
  Variable box : item -> option zbox.
  Variable pos : item -> zpt.
  Variable ieq : item -> item -> bool.
  Variable name : item -> pystr.
  Variable kind : item -> pystr.
  Variable direction : item -> option Z.
  Hypothesis Hcs : 0 < cs.
  Hypothesis Heps : 0 < eps.
  (** Equality of items is reflexive, and equal items agree in everything asked for. *)
  Hypothesis ieq_refl : forall a, ieq a a = true.
  Hypothesis ieq_box : forall a b, ieq a b = true -> box a = box b.
  Hypothesis ieq_name : forall a b, ieq a b = true -> name a = name b /\ kind a = kind b /\ direction a = direction b.
  Local Notation search := (find_entities_filtered cs eps box pos ieq name kind direction).
  Local Notation wants := (wants name kind direction).

  (** Without a region, the members meeting all criteria (or, inverted, failing
      one), in order, each as often as it is a member. *)
  Theorem C39_whole_collection : forall m flat radius c inv, selected (wants inv c) flat (search m flat None radius None c inv None).
  Proof using. exact (search_whole cs eps box pos ieq name kind direction). Qed.
  (** The limit takes a prefix. *)
  Theorem C39_limit : forall m flat position radius area c inv n, 0 <= n ->
    search m flat position radius area c inv (Some n) = firstn (Z.to_nat n) (search m flat position radius area c inv None).
  Proof using. exact (search_limit cs eps box pos ieq name kind direction). Qed.
  (** A limit below zero drops that many results from the end, as a Python slice
      does. *)
  Theorem C39_negative_limit : forall m flat position radius area c inv n, n < 0 ->
    let all := search m flat position radius area c inv None in
    search m flat position radius area c inv (Some n) = firstn (List.length all - Z.to_nat (- n)) all.
  Proof using. exact (search_negative cs eps box pos ieq name kind direction). Qed.
  (** [find_entities] is the filtered search without criteria. *)
  Theorem C39_find_entities : forall m members area,
    find_entities cs eps box ieq m members area =
    search m members None None area (mkCriteria Absent Absent Absent) false None.
  Proof using. exact (entities_all cs eps box pos ieq name kind direction). Qed.
  (** A search and its inversion share out the searched region. *)
  Theorem C39_invert : forall m flat position radius area c,
    Permutation (search m flat position radius area c false None ++ search m flat position radius area c true None)
                (entity_region cs eps box pos ieq m flat position radius area).
  Proof using. exact (search_invert cs eps box pos ieq name kind direction). Qed.
  (** At a point: exactly the members there (up to cell seams), in the order they
      were placed. *)
  Theorem C39_point : forall ops flat p area c inv,
    selected (fun it => found_at cs eps box p it /\ wants inv c it) (bag ieq ops)
      (search (run_map cs eps box ieq ops) flat (Some p) None area c inv None).
  Proof using Hcs Heps ieq_box. exact (search_point cs eps box pos ieq name kind direction Hcs Heps ieq_box). Qed.
  (** In an area: only members that overlap it and meet the criteria, no two of
      them equal … *)
  Theorem C39_area_sound : forall ops flat radius q off c inv lim,
    (forall it, In it (search (run_map cs eps box ieq ops) flat None radius (Some (q, off)) c inv lim) ->
       In it (bag ieq ops) /\ (exists b, box it = Some b /\ boxes_meet b (shift_box q off)) /\ wants inv c it) /\
    ForallOrdPairs (fun a b => ieq a b = false) (search (run_map cs eps box ieq ops) flat None radius (Some (q, off)) c inv lim).
  Proof using Hcs ieq_box. exact (search_area cs eps box pos ieq name kind direction Hcs ieq_box). Qed.
  (** … and all that overlap it by the margin or more, up to equality. *)
  Theorem C39_area_complete : forall ops flat radius q c inv it b,
    In it (bag ieq ops) -> box it = Some b ->
    bl b <= br b - eps -> bt b <= bb b - eps -> bl q <= br q - eps -> bt q <= bb q - eps ->
    bl b <= br q - eps -> bl q <= br b - eps -> bt b <= bb q - eps -> bt q <= bb b - eps ->
    wants inv c it ->
    exists it', In it' (search (run_map cs eps box ieq ops) flat None radius (Some (q, (0, 0))) c inv None) /\ ieq it' it = true.
  Proof using Hcs Heps ieq_refl ieq_box ieq_name. exact (search_area_complete cs eps box pos ieq name kind direction Hcs Heps ieq_refl ieq_box ieq_name). Qed.
  (** In a circle, likewise. *)
  Theorem C39_radius_sound : forall ops flat r p area c inv lim,
    (forall it, In it (search (run_map cs eps box ieq ops) flat (Some p) (Some r) area c inv lim) ->
       In it (bag ieq ops) /\ within (pos it) r p /\ wants inv c it) /\
    ForallOrdPairs (fun a b => ieq a b = false) (search (run_map cs eps box ieq ops) flat (Some p) (Some r) area c inv lim).
  Proof using Hcs ieq_box. exact (search_radius cs eps box pos ieq name kind direction Hcs ieq_box). Qed.
  Theorem C39_radius_complete : forall ops flat r p area c inv it b, 0 <= r ->
    In it (bag ieq ops) -> within (pos it) r p ->
    box it = Some b -> bl b <= fst (pos it) <= br b - eps -> bt b <= snd (pos it) <= bb b - eps ->
    wants inv c it ->
    exists it', In it' (search (run_map cs eps box ieq ops) flat (Some p) (Some r) area c inv None) /\ ieq it' it = true.
  Proof using Hcs Heps ieq_refl ieq_box ieq_name. exact (search_radius_complete cs eps box pos ieq name kind direction Hcs Heps ieq_refl ieq_box ieq_name). Qed.
  (** [find_entity] and [find_entity_at_position] return the one placed first. *)
  Theorem C39_find_entity : forall ops n p,
    match find_entity cs box name (run_map cs eps box ieq ops) n p with
    | Some it => exists l1 l2, bag ieq ops = l1 ++ it :: l2 /\ (found_at cs eps box p it /\ name it = n) /\
                               forall y, In y l1 -> ~ (found_at cs eps box p y /\ name y = n)
    | None => forall y, In y (bag ieq ops) -> ~ (found_at cs eps box p y /\ name y = n)
    end.
  Proof using Hcs Heps ieq_box. exact (entity_found cs eps box ieq name Hcs Heps ieq_box). Qed.
  Theorem C39_find_entity_at_position : forall ops p,
    match find_entity_at_position cs box (run_map cs eps box ieq ops) p with
    | Some it => exists l1 l2, bag ieq ops = l1 ++ it :: l2 /\ found_at cs eps box p it /\
                               forall y, In y l1 -> ~ found_at cs eps box p y
    | None => forall y, In y (bag ieq ops) -> ~ found_at cs eps box p y
    end.
  Proof using Hcs Heps ieq_box. exact (entity_found_at cs eps box ieq Hcs Heps ieq_box). Qed.
  (** [find_tile] returns exactly the tiles at the coordinate, in the order they
      were placed, seams or not. *)
  Theorem C39_find_tile : forall u (at_ : item -> zpt) ops p, 0 < u -> Z.even u = true -> 2 * eps < u ->
    (forall it, box it = Some (mkZ (u * fst (at_ it)) (u * snd (at_ it)) (u * (fst (at_ it) + 1)) (u * (snd (at_ it) + 1)))) ->
    selected (fun it => at_ it = p) (bag ieq ops) (find_tile cs box u (run_map cs eps box ieq ops) (u * fst p, u * snd p)).
  Proof using Hcs Heps ieq_box. exact (tiles_found cs eps box ieq Hcs Heps ieq_box). Qed.
  (** A tile search is the entity search by name of the same region, in which a
      position without a radius plays no part. *)
  Theorem C39_tiles : forall m tiles position radius area n inv lim,
    find_tiles_filtered cs eps box pos ieq name kind direction m tiles position radius area n inv lim =
    search m tiles (if match radius with None => true | Some _ => false end then None else position) radius area (mkCriteria n Absent Absent) inv lim.
  Proof using. exact (tiles_as_entities cs eps box pos ieq name kind direction). Qed.
End Statements.
Print Assumptions C39_whole_collection.
Print Assumptions C39_limit.
Print Assumptions C39_negative_limit.
Print Assumptions C39_find_entities.
Print Assumptions C39_invert.
Print Assumptions C39_point.
Print Assumptions C39_area_sound.
Print Assumptions C39_area_complete.
Print Assumptions C39_radius_sound.
Print Assumptions C39_radius_complete.
Print Assumptions C39_find_entity.
Print Assumptions C39_find_entity_at_position.
Print Assumptions C39_find_tile.
Print Assumptions C39_tiles.

(** [selected] determines the result and describes its members. *)
Theorem C39_selected_meaning : forall (A : Type) (P : A -> Prop) l r, selected P l r ->
  (forall x, In x r <-> In x l /\ P x) /\ (NoDup l -> NoDup r) /\ (forall s, selected P l s -> r = s).
Proof.
  intros A P l r S. split; [intros x; exact (selected_in P l r x S)|]. split; [exact (selected_nodup P l r S)|].
  intros s. exact (selected_fun P l r s S).
Qed.
Print Assumptions C39_selected_meaning.

(** Items for the examples: identity, name, direction, one-tile box. *)
Record thing := mkThing { id_ : Z; nm : pystr; dr : option Z; bx : zbox }.
Definition t_eq (a b : thing) : bool := pystr_eqb (nm a) (nm b) && (bl (bx a) =? bl (bx b)) && (bt (bx a) =? bt (bx b)).
Definition t_pos (a : thing) : zpt := (bl (bx a) + 500, bt (bx a) + 500).
Definition t_find m flat := find_entities_filtered 8000 1 (fun a => Some (bx a)) t_pos t_eq nm (fun _ => str "x") dr m flat.
Definition t_tiles m flat := find_tiles_filtered 8000 1 (fun a => Some (bx a)) t_pos t_eq nm (fun _ => str "x") dr m flat.
Definition t_run ops := run_map 8000 1 (fun a => Some (bx a)) t_eq (map MAdd ops).
Definition belt1 := mkThing 1 (str "belt") (Some 4) (mkZ 9000 0 10000 1000).
Definition belt2 := mkThing 2 (str "belt") (Some 0) (mkZ 1000 0 2000 1000).
Definition chest3 := mkThing 3 (str "chest") None (mkZ 2000 0 3000 1000).
Definition belt4 := mkThing 4 (str "belt") (Some 4) (mkZ 9000 0 10000 1000).
Definition all3 := [belt1; belt2; chest3].
Definition belts := mkCriteria (One (str "belt")) Absent Absent.

Example C39_ex :
  t_find (t_run all3) all3 None None None belts false None = [belt1; belt2] /\
  t_find (t_run all3) all3 None None None belts true None = [chest3] /\
  t_find (t_run all3) all3 None None None (mkCriteria Absent Absent (Several [4; 0])) false (Some 1) = [belt1] /\
  t_find (t_run all3) all3 (Some (1500, 500)) None None belts false None = [belt2] /\
  t_find (t_run all3) all3 (Some (2500, 500)) (Some 1000) None (mkCriteria Absent Absent Absent) false None = [belt2; chest3] /\
  t_find (t_run all3) all3 None None (Some (mkZ 2500 0 12000 1000, (0, 0))) belts true None = [chest3].
Proof. repeat split; reflexivity. Qed.

(** Refuted: a tile search at a position (without a radius) looks there only. *)
Theorem C39_tile_position_refuted : exists tiles p, Forall (fun t => ~ in_zbox p (bx t)) tiles /\
  t_tiles (t_run tiles) tiles (Some p) None None Absent false None = tiles /\ tiles <> [].
Proof.
  exists all3, (100000, 0). split; [|split; [reflexivity|discriminate]].
  repeat constructor; unfold in_zbox; cbn; intros [[_ H] _]; apply H; reflexivity.
Qed.
Print Assumptions C39_tile_position_refuted.
(** Refuted: an area search returns the members in their order. *)
Theorem C39_area_order_refuted : exists members q, NoDup (map id_ members) /\
  t_find (t_run members) members None None (Some (q, (0, 0))) belts false None = [belt2; belt1] /\
  t_find (t_run members) members None None None belts false None = [belt1; belt2].
Proof. exists all3, (mkZ 0 0 16000 8000). split; [repeat constructor; cbn; intuition discriminate|]. split; reflexivity. Qed.
Print Assumptions C39_area_order_refuted.
(** Refuted: an area search returns every member in the area; of equal ones only
    the first. *)
Theorem C39_area_equal_members_refuted : exists members q x, In x members /\ boxes_meet (bx x) q /\
  ~ In x (t_find (t_run members) members None None (Some (q, (0, 0))) belts false None).
Proof.
  exists [belt1; belt4], (mkZ 0 0 16000 8000), belt4. split; [right; left; reflexivity|]. split; [repeat split|].
  vm_compute. intros [H|[]]. discriminate H.
Qed.
Print Assumptions C39_area_equal_members_refuted.
(** Refuted: inverting returns all members not returned otherwise; members outside
    the region are in neither result. *)
Theorem C39_invert_everything_refuted : exists members q x, In x members /\
  ~ In x (t_find (t_run members) members None None (Some (q, (0, 0))) belts false None) /\
  ~ In x (t_find (t_run members) members None None (Some (q, (0, 0))) belts true None).
Proof.
  exists all3, (mkZ 0 0 8000 8000), belt1. split; [left; reflexivity|].
  vm_compute. split; intros [H|[]]; discriminate H.
Qed.
Print Assumptions C39_invert_everything_refuted.
(** Refuted: a limit below zero returns nothing; it drops that many from the end. *)
Theorem C39_negative_limit_refuted : exists members n, n < 0 /\ t_find (t_run members) members None None None belts false (Some n) = [belt1].
Proof. exists all3, (-1). split; reflexivity. Qed.
Print Assumptions C39_negative_limit_refuted.
