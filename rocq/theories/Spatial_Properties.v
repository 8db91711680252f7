(** Property theorems C09-C12: the spatial hash map. *)
From Coq Require Import ZArith List Bool.
From Verif Require Import Spatial_Model Spatial_Spec Spatial_Proofs.
Import ListNotations.
Local Open Scope Z_scope.

(** Items for the examples: a name and a box, in units of 1/1000 tile; the cell
    size is 8 tiles and the margin 0.001 tile, as in the code. *)
Definition demo_item := (Z * zbox)%type.
Definition demo_box (it : demo_item) : option zbox := Some (snd it).
Definition demo_pos (it : demo_item) : zpt := (bl (snd it), bt (snd it)).
Definition demo_eq (a b : demo_item) : bool := fst a =? fst b.
Definition demo_run := run_map 8000 1 demo_box demo_eq.
Definition tile_at (x y : Z) : zbox := mkZ (x * 1000) (y * 1000) ((x + 1) * 1000) ((y + 1) * 1000).
Definition t7 : demo_item := (7, tile_at 7 0).
Definition t9 : demo_item := (9, tile_at 9 0).

(** ** C09 *)

(** A point lookup finds exactly the stored items whose box contains the point,
    except where a cell seam separates the point from the box's last [eps]. *)
Theorem C09_point_lookup_exact :
  forall (item : Type) cs eps (box : item -> option zbox) ieq,
    0 < cs -> 0 < eps -> (forall a b, ieq a b = true -> box a = box b) ->
    forall ops p it,
      In it (get_on_point cs box (run_map cs eps box ieq ops) p None) <->
      In it (bag ieq ops) /\
      exists b, box it = Some b /\ in_zbox p b /\ ~ seam cs eps p b.
Proof. intros. apply get_on_point_exact; assumption. Qed.
Print Assumptions C09_point_lookup_exact.

(** With a limit, the first [limit] of those are returned. *)
Theorem C09_point_lookup_limit :
  forall (item : Type) cs eps (box : item -> option zbox) ieq,
    0 < cs -> 0 < eps -> (forall a b, ieq a b = true -> box a = box b) ->
    forall ops p limit,
      get_on_point cs box (run_map cs eps box ieq ops) p limit =
      limited limit (get_on_point cs box (run_map cs eps box ieq ops) p None).
Proof. intros. apply get_on_point_limit; assumption. Qed.
Print Assumptions C09_point_lookup_limit.

(** Without the seam condition the claim is false: the tile at (7,0) contains
    the point (8, 0.5) on its right edge, and is not found there. *)
Theorem C09_point_lookup_everywhere_refuted :
  exists ops p it, In it (bag demo_eq ops) /\ in_zbox p (snd it) /\
    ~ In it (get_on_point 8000 demo_box (demo_run ops) p None).
Proof.
  exists [MAdd t7], (8000, 500), t7. split; [vm_compute; auto|]. split; [vm_compute; intuition discriminate|].
  vm_compute. intros [].
Qed.
Print Assumptions C09_point_lookup_everywhere_refuted.

Example C09_ex : get_on_point 8000 demo_box (demo_run [MAdd t9; MAdd t7]) (7500, 500) None = [t7]
  /\ in_zbox (7500, 500) (snd t7) /\ ~ seam 8000 1 (7500, 500) (snd t7).
Proof.
  split; [reflexivity|]. split; [vm_compute; intuition discriminate|].
  intros [k H]. cbn in H. destruct H as [H|H];
  assert (0 < k < 1 \/ k <= 0 \/ 1 <= k) as K by (clear; destruct (Z_lt_le_dec 0 k); [right; right|right; left]; auto with zarith);
  Lia.lia.
Qed.

(** ** C10 *)

Theorem C10_area_lookup_sound :
  forall (item : Type) cs eps (box : item -> option zbox) ieq,
    0 < cs -> 0 < eps -> (forall a b, ieq a b = true -> box a = box b) ->
    forall ops q off limit it,
      In it (get_in_aabb cs eps box ieq (run_map cs eps box ieq ops) q off limit) ->
      In it (bag ieq ops) /\ exists b, box it = Some b /\ boxes_meet b (mkZ (bl q + fst off) (bt q + snd off) (br q + fst off) (bb q + snd off)).
Proof. intros item cs eps box ieq Hc _ Hb. exact (get_in_aabb_sound cs eps box ieq Hc Hb). Qed.
Print Assumptions C10_area_lookup_sound.

(** Nothing is returned twice (no two results are equal). *)
Theorem C10_area_lookup_distinct :
  forall (item : Type) cs eps (box : item -> option zbox) ieq,
    forall m q off limit,
      ForallOrdPairs (fun a b => ieq a b = false) (get_in_aabb cs eps box ieq m q off limit).
Proof. intros. apply collect_distinct. Qed.
Print Assumptions C10_area_lookup_distinct.

(** Everything that overlaps by at least the margin is found. *)
Theorem C10_area_lookup_complete :
  forall (item : Type) cs eps (box : item -> option zbox) ieq,
    0 < cs -> 0 < eps -> (forall a, ieq a a = true) ->
    (forall a b, ieq a b = true -> box a = box b) ->
    forall ops q it b,
      In it (bag ieq ops) -> box it = Some b ->
      bl b <= br b - eps -> bt b <= bb b - eps -> bl q <= br q - eps -> bt q <= bb q - eps ->
      bl b <= br q - eps -> bl q <= br b - eps -> bt b <= bb q - eps -> bt q <= bb b - eps ->
      exists it', In it' (get_in_aabb cs eps box ieq (run_map cs eps box ieq ops) q (0, 0) None)
                  /\ ieq it' it = true.
Proof. exact @get_in_aabb_complete. Qed.
Print Assumptions C10_area_lookup_complete.

(** The limit bounds the whole result: it is the prefix of the unlimited one. *)
Theorem C10_area_lookup_limit :
  forall (item : Type) cs eps (box : item -> option zbox) ieq,
    forall m q off limit,
      get_in_aabb cs eps box ieq m q off limit =
      limited limit (get_in_aabb cs eps box ieq m q off None).
Proof. intros. apply collect_limit. Qed.
Print Assumptions C10_area_lookup_limit.

(** Overlap smaller than the margin across a cell seam is missed: units are
    1/10000 tile, cells 8 tiles, margin 10 units. *)
Theorem C10_overlap_within_margin_refuted :
  exists (ops : list (map_op demo_item)) q it,
    In it (bag demo_eq ops) /\ boxes_meet (snd it) q /\
    get_in_aabb 80000 10 demo_box demo_eq (run_map 80000 10 demo_box demo_eq ops) q (0, 0) None = [].
Proof.
  exists [MAdd (1, mkZ 70005 0 80005 10000)], (mkZ 80000 0 90000 10000), (1, mkZ 70005 0 80005 10000).
  split; [left; reflexivity|]. split; [vm_compute; intuition|]. reflexivity.
Qed.
Print Assumptions C10_overlap_within_margin_refuted.

(** A query box that carries its own offset is looked up in the wrong cells. *)
Theorem C10_offset_query_refuted :
  exists ops q off it,
    In it (bag demo_eq ops) /\ boxes_meet (snd it) (mkZ (bl q + fst off) (bt q + snd off) (br q + fst off) (bb q + snd off)) /\
    get_in_aabb 8000 1 demo_box demo_eq (demo_run ops) q off None = [].
Proof.
  exists [MAdd t9], (mkZ 0 0 1000 1000), (9000, 0), t9.
  split; [left; reflexivity|]. split; [vm_compute; intuition|]. reflexivity.
Qed.
Print Assumptions C10_offset_query_refuted.

Example C10_ex :
  get_in_aabb 8000 1 demo_box demo_eq (demo_run [MAdd t9; MAdd t7]) (mkZ 7500 0 9500 500) (0, 0) None
    = [t7; t9]
  /\ get_in_aabb 8000 1 demo_box demo_eq (demo_run [MAdd t9; MAdd t7]) (mkZ 7500 0 9500 500) (0, 0) (Some 1)
    = [t7].
Proof. split; reflexivity. Qed.

(** ** C11 *)

Theorem C11_radius_lookup_sound :
  forall (item : Type) cs eps (box : item -> option zbox) pos ieq,
    0 < cs -> 0 < eps -> (forall a b, ieq a b = true -> box a = box b) ->
    forall ops r c limit it,
      In it (get_in_radius cs pos ieq (run_map cs eps box ieq ops) r c limit) ->
      In it (bag ieq ops) /\ within (pos it) r c.
Proof. intros item cs eps box pos ieq Hc _ Hb. exact (get_in_radius_sound cs eps box ieq Hc Hb pos). Qed.
Print Assumptions C11_radius_lookup_sound.

Theorem C11_radius_lookup_complete :
  forall (item : Type) cs eps (box : item -> option zbox) pos ieq,
    0 < cs -> 0 < eps -> (forall a, ieq a a = true) ->
    (forall a b, ieq a b = true -> box a = box b) ->
    forall ops r c it b, 0 <= r ->
      In it (bag ieq ops) -> within (pos it) r c ->
      box it = Some b -> bl b <= fst (pos it) <= br b - eps -> bt b <= snd (pos it) <= bb b - eps ->
      exists it', In it' (get_in_radius cs pos ieq (run_map cs eps box ieq ops) r c None)
                  /\ ieq it' it = true.
Proof.
  intros. eapply (get_in_radius_complete cs eps box ieq); try assumption.
  exists b. split; [assumption|]. apply touches_pos; tauto.
Qed.
Print Assumptions C11_radius_lookup_complete.

Theorem C11_radius_lookup_complete_by_cell :
  forall (item : Type) cs eps (box : item -> option zbox) pos ieq,
    0 < cs -> 0 < eps -> (forall a, ieq a a = true) ->
    (forall a b, ieq a b = true -> box a = box b) ->
    forall ops r c it, 0 <= r ->
      In it (bag ieq ops) -> within (pos it) r c ->
      item_touches cs eps box (fst (pos it) / cs, snd (pos it) / cs) it ->
      exists it', In it' (get_in_radius cs pos ieq (run_map cs eps box ieq ops) r c None)
                  /\ ieq it' it = true.
Proof. intros. apply (get_in_radius_complete cs eps box ieq); assumption. Qed.
Print Assumptions C11_radius_lookup_complete_by_cell.

Theorem C11_radius_lookup_distinct_and_limited :
  forall (item : Type) cs pos (ieq : item -> item -> bool) m r c limit,
    ForallOrdPairs (fun a b => ieq a b = false) (get_in_radius cs pos ieq m r c limit) /\
    get_in_radius cs pos ieq m r c limit = limited limit (get_in_radius cs pos ieq m r c None).
Proof. intros. split; [apply collect_distinct|apply collect_limit]. Qed.
Print Assumptions C11_radius_lookup_distinct_and_limited.

(** An item whose position lies outside the cells of its own box can be missed:
    here the position is one cell to the right of the box. *)
Theorem C11_position_outside_box_refuted :
  exists (ops : list (map_op demo_item)) (pos : demo_item -> zpt) it r c,
    In it (bag demo_eq ops) /\ 0 <= r /\ within (pos it) r c /\
    get_in_radius 8000 pos demo_eq (demo_run ops) r c None = [].
Proof.
  exists [MAdd t7], (fun it => (br (snd it) + 500, 500)), t7, 100, (8500, 500).
  split; [left; reflexivity|]. split; [discriminate|]. split; [discriminate|]. reflexivity.
Qed.
Print Assumptions C11_position_outside_box_refuted.

Example C11_ex :
  get_in_radius 8000 demo_pos demo_eq (demo_run [MAdd t9; MAdd t7]) 2100 (7000, 0) None = [t7; t9]
  /\ get_in_radius 8000 demo_pos demo_eq (demo_run [MAdd t9; MAdd t7]) 1900 (7000, 0) None = [t7].
Proof. split; reflexivity. Qed.

(** ** C12 *)

(** Each cell lists exactly the items inserted and not removed since whose box
    reaches it, in insertion order. *)
Theorem C12_cells_hold_the_live_items :
  forall (item : Type) cs eps (box : item -> option zbox) ieq,
    0 < cs -> 0 < eps -> (forall a b, ieq a b = true -> box a = box b) ->
    forall ops c, exists f,
      (forall it, f it = true <-> item_touches cs eps box c it) /\
      match cell_get (run_map cs eps box ieq ops) c with Some l => l | None => [] end
      = filter f (bag ieq ops).
Proof. intros. eapply map_contents_order; assumption. Qed.
Print Assumptions C12_cells_hold_the_live_items.

Theorem C12_no_empty_cells :
  forall (item : Type) cs eps (box : item -> option zbox) ieq,
    0 < cs -> 0 < eps -> (forall a b, ieq a b = true -> box a = box b) ->
    forall ops c l, cell_get (run_map cs eps box ieq ops) c = Some l -> l <> [].
Proof. intros item cs eps box ieq Hc _ Hb. exact (map_no_empty_cells cs eps box ieq Hc Hb). Qed.
Print Assumptions C12_no_empty_cells.

Theorem C12_removing_absent_changes_nothing :
  forall (item : Type) cs eps (box : item -> option zbox) ieq,
    0 < cs -> 0 < eps -> (forall a b, ieq a b = true -> box a = box b) ->
    forall ops it, (forall x, In x (bag ieq ops) -> ieq x it = false) ->
      forall c, cell_get (run_map cs eps box ieq (ops ++ [MRemove it])) c
                = cell_get (run_map cs eps box ieq ops) c.
Proof. intros. eapply remove_absent; assumption. Qed.
Print Assumptions C12_removing_absent_changes_nothing.

(** Removing an item keeps every item not equal to it. *)
Theorem C12_removal_keeps_unequal_items :
  forall (item : Type) cs eps (box : item -> option zbox) ieq,
    0 < cs -> 0 < eps -> (forall a b, ieq a b = true -> box a = box b) ->
    forall ops it x c, ieq x it = false ->
      (In x (match cell_get (run_map cs eps box ieq (ops ++ [MRemove it])) c with Some l => l | None => [] end) <->
       In x (match cell_get (run_map cs eps box ieq ops) c with Some l => l | None => [] end)).
Proof. intros. eapply remove_keeps; assumption. Qed.
Print Assumptions C12_removal_keeps_unequal_items.

Example C12_ex : demo_run [MAdd t7; MAdd t9; MRemove t7] = [((1, 0), [t9])]
  /\ demo_run [MAdd t7; MAdd (8, mkZ 7500 0 8500 1000); MRemove t9] =
     [((0, 0), [t7; (8, mkZ 7500 0 8500 1000)]); ((1, 0), [(8, mkZ 7500 0 8500 1000)])].
Proof. split; reflexivity. Qed.
