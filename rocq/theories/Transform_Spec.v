(** Translations, quarter turns and mirror images of the plane, and what they
    do to entities and tiles. *)
From Coq Require Import ZArith List Bool Permutation.
From Verif Require Import Common Spatial_Model Spatial_Spec Position_Model Position_Spec Transform_Model.
Import ListNotations.
Local Open Scope Z_scope.

Definition pt := (Z * Z)%type.
Definition shifted (v p : pt) : pt := (fst p + fst v, snd p + snd v).
(** A quarter turn clockwise (y points down). *)
Definition quarter (p : pt) : pt := (- snd p, fst p).
Definition turned (k : nat) (p : pt) : pt := Nat.iter k quarter p.
Definition mirrored (hor : bool) (p : pt) : pt := if hor then (- fst p, snd p) else (fst p, - snd p).

(** Everything about an entity except where it is and which way it faces. *)
Definition same_thing (e e' : ent) : Prop :=
  kd e' = kd e /\ vm e' = vm e /\ flips e' = flips e /\ sw e' = sw e /\ sh e' = sh e /\
  held e' = held e /\ other e' = other e.
Definition place (e : ent) : pt := (px e, py e).

(** The image of an entity under a map of the plane, facing [d'] afterwards. *)
Definition image (H : Z) (g : pt -> pt) (d' : option Z) (e e' : ent) : Prop :=
  same_thing e e' /\ place e' = g (place e) /\ dir e' = d' /\ (kd e <> Grp -> agree H e').

(** The image of a tile under a map of the plane applied to its centre. *)
Definition tile_place (t : ttile) : pt := (tt_x t, tt_y t).
Definition centre (H : Z) (t : ttile) : pt := (tt_x t + H, tt_y t + H).
Definition tile_image (H : Z) (g : pt -> pt) (t t' : ttile) : Prop :=
  tt_name t' = tt_name t /\ tt_held t' = tt_held t /\ centre H t' = g (centre H t).
Definition whole_tile (H : Z) (t : ttile) : Prop := whole H (tt_x t) /\ whole H (tt_y t).

(** Every member belongs to the blueprint. *)
Definition all_held (b : bp) : Prop :=
  Forall (fun e => held e = true) (b_ents b) /\ Forall (fun t => tt_held t = true) (b_tiles b).

(** Directions: the image of direction [d] (sixteenths of a turn, clockwise from
    north) under a turn by [a] sixteenths and under a mirror. *)
Definition turned_dir (a d : Z) : Z := (d + a) mod 16.
Definition mirrored_dir (hor : bool) (d : Z) : Z := if hor then (- d) mod 16 else (8 - d) mod 16.

(** The size of a directional entity when it faces [d]: turned sideways for
    east and west (4-way), for the directions 2, 3, 6, 7 (8-way). *)
Definition sideways (k : kind) (d : Z) : bool :=
  match k with
  | Dir4 => (d =? 4) || (d =? 12)
  | Dir8 => (d =? 2) || (d =? 3) || (d =? 6) || (d =? 7)
  | _ => false
  end.
Definition size_facing (e : ent) (d : Z) : Z * Z :=
  if sideways (kd e) d then (sh e, sw e) else (sw e, sh e).
(** A directional entity as the default validation produces it: one of the 16
    (or, 4-way, of the 4 cardinal) directions, and the size that goes with
    it. *)
Definition directional (e : ent) : Prop := kd e = Dir4 \/ kd e = Dir8.
Definition well_faced (e : ent) : Prop :=
  directional e -> exists d, dir e = Some d /\ 0 <= d < 16 /\ (w e, h e) = size_facing e d /\
    vm e <> VNone /\ (kd e = Dir4 -> d mod 4 = 0).
(** The direction after turning by [a] / mirroring; objects without direction
    keep what they have. *)
Definition dir_turned (a : Z) (e : ent) : option Z :=
  match kd e with Dir4 | Dir8 => option_map (turned_dir a) (dir e) | _ => dir e end.
Definition dir_mirrored (hor : bool) (e : ent) : option Z :=
  match kd e with Dir4 | Dir8 => option_map (mirrored_dir hor) (dir e) | _ => dir e end.

(** *** the index *)
(** Member items in list order. *)
Definition members {A} (l : list A) : list item := map (fun i => (i, None)) (seq 0 (length l)).
Definition holds {A} (cs eps : Z) (box : A -> option nat -> option zbox)
    (l : list A) (m : smap item) (s : list item) : Prop :=
  NoDup (map fst m) /\
  forall c, exists g, (forall it, g it = true <-> item_touches cs eps (ibox box l) c it) /\
    cell_get m c = match filter g s with [] => None | f => Some f end.
(** The index holds exactly the members, equal ones in list order. *)
Definition synced {A} (cs eps : Z) (box : A -> option nat -> option zbox) eeq
    (l : list A) (m : smap item) : Prop :=
  exists s, holds cs eps box l m s /\ Permutation s (members l) /\
    forall y, In y (members l) ->
      filter (fun x => ieqb eeq l x y) s = filter (fun x => ieqb eeq l x y) (members l).
Definition equality {A} (box : A -> option nat -> option zbox) (eeq : A * option nat -> A * option nat -> bool) : Prop :=
  (forall a, eeq a a = true) /\ (forall a b, eeq a b = true -> box (fst a) (snd a) = box (fst b) (snd b)).

(** Which entities can be turned by [r] sixteenths (0, 4, 8 or 12): the sum of
    direction and angle must stay below a full turn. *)
Definition can_turn (r : Z) (e : ent) : Prop :=
  match kd e with
  | Fixed => True
  | Grp => False
  | _ => exists d, dir e = Some d /\ (vm e = VNone \/ 0 <= d + r < 16)
  end.
(** Which entities can be flipped. *)
Definition can_flip (hor : bool) (e : ent) : Prop :=
  match kd e with
  | Fixed => True
  | Grp => False
  | _ => exists d, dir e = Some d /\
           (if hor then 0 <= d <= 8 else 0 <= d <= 4 \/ 9 <= d <= 12)
  end.
(** Which can be flipped twice. *)
Definition can_flip_twice (hor : bool) (e : ent) : Prop :=
  match kd e with
  | Fixed => True
  | Grp => False
  | _ => exists d, dir e = Some d /\ (if hor then d = 0 \/ d = 8 else d = 4 \/ d = 12)
  end.

Definition flippable_all (b : bp) : Prop := Forall (fun e => flips e = Some true) (b_ents b).
Definition axis_of (hor : bool) : axis := if hor then Horizontal else Vertical.

(** What one round of a loop does to a member: work with the parent cleared,
    then restore the parent. *)
Definition finish {A} (set_held : A -> bool -> A) (f : A -> result A) (a : A) : result A :=
  match f (set_held a false) with Ok a2 => Ok (set_held a2 true) | Err x => Err x end.
(** What is left when the work [fe] fails at some member: the members before it
    are transformed, it has lost its parent, the later ones and all tiles are
    as before. *)
Definition broken (fe : ent -> result ent) (b b' : bp) (x : exn) : Prop :=
  exists pre e post, b_ents b = pre ++ e :: post /\
    (exists pre', Forall2 (fun a a' => finish with_held fe a = Ok a') pre pre' /\
       b_ents b' = pre' ++ with_held e false :: post) /\
    finish with_held fe e = Err x /\
    b_tiles b' = b_tiles b /\ b_tmap b' = b_tmap b.
(** The index then holds every member but that one. *)
Definition lost_one (cs eps : Z) (box : ent -> option nat -> option zbox)
    (fe : ent -> result ent) (b b' : bp) (x : exn) : Prop :=
  exists j s, (j < length (b_ents b))%nat /\
    holds cs eps box (b_ents b') (b_emap b') s /\ Permutation ((j, None) :: s) (members (b_ents b)) /\
    exists e, nth_error (b_ents b) j = Some e /\ finish with_held fe e = Err x.

(** The indexes of a blueprint are in order / hold exactly its members. *)
Definition ready cs eps box eeq tbox teq (b : bp) : Prop :=
  0 < cs /\ equality box eeq /\ equality tbox teq /\
  synced cs eps box eeq (b_ents b) (b_emap b) /\ synced cs eps tbox teq (b_tiles b) (b_tmap b).
Definition index_exact cs eps box tbox (b : bp) : Prop :=
  holds cs eps box (b_ents b) (b_emap b) (members (b_ents b)) /\
  holds cs eps tbox (b_tiles b) (b_tmap b) (members (b_tiles b)).
