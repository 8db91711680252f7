(** Property theorems C18-C21: translating, rotating and flipping.  [H] units
    are half a tile; boxes and equality of entities are arbitrary. *)
From Coq Require Import ZArith List Bool Lia Permutation.
From Verif Require Import Common Spatial_Model Spatial_Spec Spatial_Proofs Position_Model Position_Spec
  Transform_Model Transform_Spec Transform_Proofs Transform_More_Proofs Transform_Final_Proofs Transform_Flip_Proofs.
Import ListNotations.
Local Open Scope Z_scope.

(** ** C18 *)
(** Translation never fails, moves every entity and tile by the vector, in
    order, changes nothing else, and puts the tile position next to the new
    position. *)
Theorem C18_rigid : forall H, 0 < H -> forall cs eps box eeq tbox teq b x y, all_held b ->
  exists b', translate H cs eps box eeq tbox teq b x y = (b', None) /\ all_held b' /\
    Forall2 (fun e e' => image H (shifted (x, y)) (dir e) e e' /\ w e' = w e /\ h e' = h e) (b_ents b) (b_ents b') /\
    Forall2 (fun t t' => tile_image H (shifted (x, y)) t t') (b_tiles b) (b_tiles b').
Proof. exact translate_rigid. Qed.
Print Assumptions C18_rigid.

(** By whole tiles, the tile position of an entity on the grid moves by the same
    vector. *)
Theorem C18_tile_positions : forall H, 0 < H -> forall e e' j k, kd e <> Grp -> agree H e ->
  image H (shifted (j * (2 * H), k * (2 * H))) (dir e) e e' -> w e' = w e -> h e' = h e ->
  (on_grid H (w e) (px e) -> tx e' = tx e + j * (2 * H)) /\
  (on_grid H (h e) (py e) -> ty e' = ty e + k * (2 * H)).
Proof. exact image_shift_tile. Qed.
Print Assumptions C18_tile_positions.

Theorem C18_composes : forall H cs eps box eeq tbox teq b x y x' y',
  let t b x y := fst (translate H cs eps box eeq tbox teq b x y) in
  b_ents (t (t b x y) x' y') = b_ents (t b (x + x') (y + y')) /\
  b_tiles (t (t b x y) x' y') = b_tiles (t b (x + x') (y + y')).
Proof. exact translate_compose. Qed.
Print Assumptions C18_composes.

Theorem C18_undone : forall H, 0 < H -> forall cs eps box eeq tbox teq b x y, all_held b ->
  Forall (fun e => kd e <> Grp -> agree H e) (b_ents b) ->
  let t b x y := fst (translate H cs eps box eeq tbox teq b x y) in
  b_ents (t (t b x y) (- x) (- y)) = b_ents b /\ b_tiles (t (t b x y) (- x) (- y)) = b_tiles b.
Proof. exact translate_undo. Qed.
Print Assumptions C18_undone.

(** Afterwards every member is in the index exactly where it now is (if it was
    before; the result is again [ready] by [C18_index_again]). *)
Theorem C18_index : forall H cs eps box eeq tbox teq b, ready cs eps box eeq tbox teq b ->
  forall x y, index_exact cs eps box tbox (fst (translate H cs eps box eeq tbox teq b x y)).
Proof. intros H cs eps box eeq tbox teq b R. apply (index_kept H cs eps box eeq tbox teq b R). Qed.
Print Assumptions C18_index.
Theorem C18_index_again : forall cs eps box eeq tbox teq b, 0 < cs -> equality box eeq -> equality tbox teq ->
  index_exact cs eps box tbox b -> ready cs eps box eeq tbox teq b.
Proof. exact exact_ready. Qed.
Print Assumptions C18_index_again.

(** Thousandths of a tile, cells of 8 tiles, boxes of one tile. *)
Definition tbx (e : ent) (o : option nat) : option zbox :=
  match kd e, o with
  | Grp, None => Some (mkZ (px e) (py e) (px e + 1000) (py e + 1000))
  | Grp, Some _ => Some (mkZ (px e) (py e) (px e + 1000) (py e + 1000))
  | _, _ => Some (mkZ (px e - 500) (py e - 500) (px e + 500) (py e + 500))
  end.
Definition teqb (a b : ent * option nat) : bool :=
  (other (fst a) =? other (fst b)) &&
  match kd (fst a), kd (fst b) with Grp, Grp => true | Grp, _ => false | _, Grp => false | _, _ => true end &&
  match snd a, snd b with None, None => true | Some i, Some j => Nat.eqb i j | _, _ => false end &&
  (px (fst a) =? px (fst b)) && (py (fst a) =? py (fst b)).
Definition ttbx (t : ttile) (o : option nat) : option zbox :=
  Some (mkZ (tt_x t) (tt_y t) (tt_x t + 1000) (tt_y t + 1000)).
Definition tteqb (a b : ttile * option nat) : bool :=
  pystr_eqb (tt_name (fst a)) (tt_name (fst b)) && (tt_x (fst a) =? tt_x (fst b)) && (tt_y (fst a) =? tt_y (fst b)).
Definition tr := translate 500 8000 1 tbx teqb ttbx tteqb.
Definition ro := rotate 500 8000 1 tbx teqb ttbx tteqb.
Definition fl := flip 500 8000 1 tbx teqb ttbx tteqb.
Definition thing (k : kind) (d : option Z) (x y n : Z) : ent :=
  mkEnt k VStrict d (Some true) 1 1 1 1 (x * 1000 + 500) (y * 1000 + 500) (x * 1000) (y * 1000) true n.
Definition demo : bp :=
  mkBP [thing Fixed None 0 0 1; thing Dir4 (Some 4) 9 2 2]
       [((0, 0), [(0%nat, None)]); ((1, 0), [(1%nat, None)])]
       [mkTT [] 3000 4000 true] [((0, 0), [(0%nat, None)])].
Example C18_ex : tr demo 8000 1000 =
  (mkBP [thing Fixed None 8 1 1; thing Dir4 (Some 4) 17 3 2]
        [((1, 0), [(0%nat, None)]); ((2, 0), [(1%nat, None)])]
        [mkTT [] 11000 5000 true] [((1, 0), [(0%nat, None)])], None).
Proof. reflexivity. Qed.

(** A half tile off the grid the tile position need not move along: ties round
    to even. *)
Theorem C18_tie_refuted : exists b b', tr b 1000 0 = (b', None) /\
  (exists e e', b_ents b = [e] /\ b_ents b' = [e'] /\ agree 500 e /\ px e' = px e + 1000 /\ tx e' = tx e + 2000).
Proof.
  exists (mkBP [mkEnt Fixed VStrict None (Some true) 1 1 1 1 1000 500 0 0 true 1] [((0, 0), [(0%nat, None)])] [] []).
  eexists. split; [reflexivity|]. eexists. eexists. split; [reflexivity|]. split; [reflexivity|].
  split; [split; exists 0; (split; [reflexivity|split; [cbn; lia|intros _; exists 0; reflexivity]])|].
  split; reflexivity.
Qed.
Print Assumptions C18_tie_refuted.

(** A group is not re-indexed with its content: after moving it by 16 tiles, its
    entity is still filed under the old cell and missing from the new one. *)
Theorem C18_group_index_refuted : exists b b',
  holds 8000 1 tbx (b_ents b) (b_emap b) [(0%nat, Some 0%nat)] /\
  tr b 16000 0 = (b', None) /\
  item_touches 8000 1 (ibox tbx (b_ents b')) (2, 0) (0%nat, Some 0%nat) /\
  cell_get (b_emap b') (2, 0) = Some [(0%nat, None)] /\
  cell_get (b_emap b') (0, 0) = Some [(0%nat, Some 0%nat)].
Proof.
  exists (mkBP [mkEnt Grp VStrict None (Some true) 0 0 0 0 0 0 0 0 true 1] [((0, 0), [(0%nat, Some 0%nat)])] [] []).
  eexists. split; [|split; [reflexivity|split; [|split; reflexivity]]].
  - split; [repeat constructor; intros []|]. intros c.
    exists (fun it => match it with (O, _) => cell_eqb (0, 0) c | _ => false end). split.
    + intros [[|i] o]; cbn [ibox].
      * unfold item_touches, ibox, touches. cbn. split.
        -- intros E. apply cell_eqb_eq in E. subst c.
           exists (mkZ 0 0 1000 1000). split; [destruct o; reflexivity|]. cbn. lia.
        -- intros [bx [E T]]. assert (B : bx = mkZ 0 0 1000 1000) by (destruct o; inversion E; reflexivity).
           subst bx. destruct c as [u v]. cbn [bl br bt bb fst snd] in T.
           apply cell_eqb_eq. f_equal; lia.
      * unfold item_touches, ibox. cbn. split; [discriminate|]. intros [bx [E _]]. destruct i; discriminate.
    + cbn. destruct (cell_eqb (0, 0) c); reflexivity.
  - eexists. split; [reflexivity|]. unfold touches. cbn. lia.
Qed.
Print Assumptions C18_group_index_refuted.

(** ** C19 *)
(** Positions turn about the origin, tiles about it by their centres, and the
    directions of directional entities advance by the angle. *)
Theorem C19_rotation : forall H, 0 < H -> forall cs eps box eeq tbox teq b a b',
  all_held b -> Forall well_faced (b_ents b) -> Forall (whole_tile H) (b_tiles b) ->
  rotate H cs eps box eeq tbox teq b a = (b', None) ->
  let k := Z.to_nat ((a mod 16) / 4) in
  Forall2 (fun e e' => image H (turned k) (dir_turned a e) e e' /\ well_faced e') (b_ents b) (b_ents b') /\
  Forall2 (fun t t' => tile_image H (turned k) t t' /\ whole_tile H t') (b_tiles b) (b_tiles b').
Proof. exact rotate_image. Qed.
Print Assumptions C19_rotation.

Theorem C19_succeeds_iff : forall H cs eps box eeq tbox teq b a,
  snd (rotate H cs eps box eeq tbox teq b a) = None <->
  a mod 4 = 0 /\ Forall (can_turn (a mod 16)) (b_ents b).
Proof. exact rotate_criterion. Qed.
Print Assumptions C19_succeeds_iff.

Theorem C19_bad_amount_rejected : forall H cs eps box eeq tbox teq b a, a mod 4 <> 0 ->
  rotate H cs eps box eeq tbox teq b a = (b, Some RotationError).
Proof. exact rotate_reject. Qed.
Print Assumptions C19_bad_amount_rejected.

Theorem C19_composes : forall H, 0 < H -> forall cs eps box eeq tbox teq b a1 a2 b1 b2,
  all_held b -> Forall well_faced (b_ents b) -> Forall (whole_tile H) (b_tiles b) ->
  rotate H cs eps box eeq tbox teq b a1 = (b1, None) -> rotate H cs eps box eeq tbox teq b1 a2 = (b2, None) ->
  exists b3, rotate H cs eps box eeq tbox teq b (a1 + a2) = (b3, None) /\
    b_ents b3 = b_ents b2 /\ b_tiles b3 = b_tiles b2.
Proof. exact rotate_compose. Qed.
Print Assumptions C19_composes.

Theorem C19_index : forall H cs eps box eeq tbox teq b a b', ready cs eps box eeq tbox teq b ->
  rotate H cs eps box eeq tbox teq b a = (b', None) -> index_exact cs eps box tbox b'.
Proof.
  intros H cs eps box eeq tbox teq b a b' R E.
  assert (C : snd (rotate H cs eps box eeq tbox teq b a) = None) by (rewrite E; reflexivity).
  pose proof (proj1 (proj2 (index_kept H cs eps box eeq tbox teq b R)) a
    (proj1 (proj1 (rotate_criterion H cs eps box eeq tbox teq b a) C)) C) as X.
  rewrite E in X. exact X.
Qed.
Print Assumptions C19_index.

Example C19_ex : ro demo 4 =
  (mkBP [thing Fixed None (-1) 0 1; thing Dir4 (Some 8) (-3) 9 2]
        [((-1, 0), [(0%nat, None)]); ((-1, 1), [(1%nat, None)])]
        [mkTT [] (-5000) 3000 true] [((-1, 0), [(0%nat, None)])], None).
Proof. reflexivity. Qed.
(** A belt facing west cannot be turned: the direction does not wrap. *)
Theorem C19_wrap_refuted : exists b, Forall well_faced (b_ents b) /\ all_held b /\
  snd (ro b 4) = Some DataFormatError /\ snd (ro b 12) = Some DataFormatError.
Proof.
  exists (mkBP [thing Dir4 (Some 12) 0 0 1] [((0, 0), [(0%nat, None)])] [] []).
  split; [|split; [|split; reflexivity]].
  - constructor; [|constructor]. intros _. exists 12. repeat split; try lia; discriminate.
  - split; repeat constructor.
Qed.
Print Assumptions C19_wrap_refuted.

(** ** C20 *)
Theorem C20_mirror : forall H, 0 < H -> forall cs eps box eeq tbox teq b hor b',
  all_held b -> flippable_all b -> Forall well_faced (b_ents b) -> Forall (whole_tile H) (b_tiles b) ->
  flip H cs eps box eeq tbox teq b (axis_of hor) = (b', None) ->
  Forall2 (fun e e' => image H (mirrored hor) (dir_mirrored hor e) e e' /\ well_faced e') (b_ents b) (b_ents b') /\
  Forall2 (fun t t' => tile_image H (mirrored hor) t t' /\ whole_tile H t') (b_tiles b) (b_tiles b').
Proof. exact flip_image. Qed.
Print Assumptions C20_mirror.

Theorem C20_succeeds_iff : forall H cs eps box eeq tbox teq b hor,
  flippable_all b -> Forall well_faced (b_ents b) ->
  (snd (flip H cs eps box eeq tbox teq b (axis_of hor)) = None <-> Forall (can_flip hor) (b_ents b)).
Proof. exact flip_criterion. Qed.
Print Assumptions C20_succeeds_iff.

Theorem C20_rejected_unchanged : forall H cs eps box eeq tbox teq b a,
  ~ flippable_all b \/ a = OtherAxis ->
  exists x, flip H cs eps box eeq tbox teq b a = (b, Some x) /\
    (x = FlippingError \/ x = KeyError \/ x = ValueError).
Proof. exact flip_reject. Qed.
Print Assumptions C20_rejected_unchanged.

(** Two flips that succeed restore the blueprint ... *)
Theorem C20_twice_restores : forall H, 0 < H -> forall cs eps box eeq tbox teq b hor b1 b2,
  all_held b -> flippable_all b -> Forall well_faced (b_ents b) ->
  Forall (fun e => kd e <> Grp -> agree H e) (b_ents b) -> Forall (whole_tile H) (b_tiles b) ->
  flip H cs eps box eeq tbox teq b (axis_of hor) = (b1, None) ->
  flip H cs eps box eeq tbox teq b1 (axis_of hor) = (b2, None) ->
  b_ents b2 = b_ents b /\ b_tiles b2 = b_tiles b.
Proof. exact flip_restores. Qed.
Print Assumptions C20_twice_restores.

(** ... but both succeed only when everything faces along the mirror axis. *)
Theorem C20_twice_succeeds_iff : forall H, 0 < H -> forall cs eps box eeq tbox teq b hor,
  all_held b -> flippable_all b -> Forall well_faced (b_ents b) ->
  let f b := flip H cs eps box eeq tbox teq b (axis_of hor) in
  (snd (f b) = None /\ snd (f (fst (f b))) = None) <-> Forall (can_flip_twice hor) (b_ents b).
Proof. exact flip_twice. Qed.
Print Assumptions C20_twice_succeeds_iff.

Theorem C20_index : forall H cs eps box eeq tbox teq b hor b', ready cs eps box eeq tbox teq b ->
  flippable_all b -> flip H cs eps box eeq tbox teq b (axis_of hor) = (b', None) ->
  index_exact cs eps box tbox b'.
Proof.
  intros H cs eps box eeq tbox teq b hor b' R F E.
  pose proof (proj2 (proj2 (index_kept H cs eps box eeq tbox teq b R)) hor F) as X.
  rewrite E in X. apply X. reflexivity.
Qed.
Print Assumptions C20_index.

Example C20_ex : fl demo Horizontal =
  (mkBP [thing Fixed None (-1) 0 1; thing Dir4 (Some 12) (-10) 2 2]
        [((-1, 0), [(0%nat, None)]); ((-2, 0), [(1%nat, None)])]
        [mkTT [] (-4000) 4000 true] [((-1, 0), [(0%nat, None)])], None).
Proof. reflexivity. Qed.
Theorem C20_twice_refuted : exists b b1, all_held b /\ flippable_all b /\ Forall well_faced (b_ents b) /\
  fl b Horizontal = (b1, None) /\ snd (fl b1 Horizontal) = Some DataFormatError.
Proof.
  exists demo. eexists. split; [split; repeat constructor|]. split; [repeat constructor|].
  split; [|split; reflexivity].
  constructor; [|constructor; [|constructor]].
  - intros [D|D]; discriminate.
  - intros _. exists 4. repeat split; try lia; discriminate.
Qed.
Print Assumptions C20_twice_refuted.

(** ** C21 *)
(** Translation does not fail at all ([C18_rigid]).  A rotation or flip fails
    either before touching anything, or at a member, and then exactly the
    members before it have been transformed and it is orphaned. *)
Theorem C21_rotate_failure : forall H cs eps box eeq tbox teq b a b' x,
  rotate H cs eps box eeq tbox teq b a = (b', Some x) ->
  (a mod 4 <> 0 /\ x = RotationError /\ b' = b) \/
  (a mod 4 = 0 /\ broken (rotate_ent H (a mod 16)) b b' x).
Proof. exact rotate_failure. Qed.
Print Assumptions C21_rotate_failure.

Theorem C21_flip_failure : forall H cs eps box eeq tbox teq b ax b' x,
  flip H cs eps box eeq tbox teq b ax = (b', Some x) ->
  ((~ flippable_all b \/ ax = OtherAxis) /\ b' = b /\ (x = FlippingError \/ x = KeyError \/ x = ValueError)) \/
  (exists hor, ax = axis_of hor /\ flippable_all b /\ broken (flip_ent H hor) b b' x).
Proof. exact flip_failure. Qed.
Print Assumptions C21_flip_failure.

(** The failing member is then missing from the index, and only it. *)
Theorem C21_failing_member_lost : forall H cs eps box eeq tbox teq b, ready cs eps box eeq tbox teq b ->
  (forall a b' x, a mod 4 = 0 -> rotate H cs eps box eeq tbox teq b a = (b', Some x) ->
     lost_one cs eps box (rotate_ent H (a mod 16)) b b' x) /\
  (forall hor b' x, flippable_all b -> flip H cs eps box eeq tbox teq b (axis_of hor) = (b', Some x) ->
     lost_one cs eps box (flip_ent H hor) b b' x).
Proof. exact failure_index. Qed.
Print Assumptions C21_failing_member_lost.

Theorem C21_unchanged_refuted : exists b b' e1 e2 e1',
  ro b 8 = (b', Some DataFormatError) /\ b_ents b = [e1; e2] /\
  b_ents b' = [e1'; with_held e2 false] /\ px e1' = - px e1 /\ px e1 <> 0 /\ held e2 = true /\
  (forall c l, cell_get (b_emap b') c = Some l -> ~ In (1%nat, None) l).
Proof.
  exists (mkBP [thing Fixed None 3 3 1; thing Dir4 (Some 8) 9 2 2]
       [((0, 0), [(0%nat, None)]); ((1, 0), [(1%nat, None)])] [] []).
  do 4 eexists. split; [reflexivity|]. split; [reflexivity|]. split; [reflexivity|].
  split; [reflexivity|]. split; [cbn; lia|]. split; [reflexivity|].
  intros c l G I. cbv in G. destruct c as [[|u|u] [|v|v]]; try discriminate; revert G.
  all: repeat match goal with |- context [match ?z with _ => _ end] => destruct z end; intros G; inversion G; subst; destruct I as [I|[]]; discriminate.
Qed.
Print Assumptions C21_unchanged_refuted.
