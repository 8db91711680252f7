(** Positions, tile positions and directions of entities:
    /repo/draftsman/classes/entity.py 42-83 and 451-532,
    /repo/draftsman/classes/mixins/directional.py 48-73 and 199-235,
    /repo/draftsman/classes/mixins/eight_way_directional.py 142-192,
    /repo/draftsman/classes/group.py 341-349,
    /repo/draftsman/classes/vector.py 93-110.

    Coordinates are exact integers; [H] units make half a tile, so a tile is
    [2*H] units and every rational layout is covered by some [H].  The sizes
    are in tiles. *)
From Coq Require Import ZArith List Bool.
From Verif Require Import Common.
Import ListNotations.
Local Open Scope Z_scope.

(** What the class of an object provides: no direction, [DirectionalMixin],
    [EightWayDirectionalMixin], or a [Group] (which says [rotatable] but has no
    [direction] and no tile position). *)
Inductive kind := Fixed | Dir4 | Dir8 | Grp.
(** [validate_assignment]; PEDANTIC acts as STRICT here. *)
Inductive vmode := VNone | VMinimum | VStrict.

Record ent := mkEnt {
  kd : kind;
  vm : vmode;
  dir : option Z;          (* _root.direction *)
  flips : option bool;     (* flippable; [None]: unknown name, KeyError *)
  sw : Z; sh : Z;          (* _static_tile_width, _static_tile_height *)
  w : Z; h : Z;            (* _tile_width, _tile_height *)
  px : Z; py : Z;          (* _position *)
  tx : Z; ty : Z;          (* _tile_position *)
  held : bool;             (* _parent is not None *)
  other : Z                (* everything else that identifies the entity *)
}.

Definition with_pos (e : ent) (x y a b : Z) : ent :=
  mkEnt (kd e) (vm e) (dir e) (flips e) (sw e) (sh e) (w e) (h e) x y a b (held e) (other e).
Definition with_dir (e : ent) (d : option Z) : ent :=
  mkEnt (kd e) (vm e) d (flips e) (sw e) (sh e) (w e) (h e) (px e) (py e) (tx e) (ty e) (held e) (other e).
Definition with_size (e : ent) (a b : Z) : ent :=
  mkEnt (kd e) (vm e) (dir e) (flips e) (sw e) (sh e) a b (px e) (py e) (tx e) (ty e) (held e) (other e).
Definition with_held (e : ent) (b : bool) : ent :=
  mkEnt (kd e) (vm e) (dir e) (flips e) (sw e) (sh e) (w e) (h e) (px e) (py e) (tx e) (ty e) b (other e).

(** A position argument: a [Vector] (stored as it is), a sequence or dict (cast
    component by component), or anything else. *)
Inductive parg := PVector (x y : Z) | PTuple (x y : Z) | PBad.

Section Position.
  Variable H : Z.

  (** Python [round] on [n / (2H)]: ties go to the even neighbour. *)
  Definition py_round (n : Z) : Z :=
    let q := n / (2 * H) in
    let r := n mod (2 * H) in
    if r <? H then q else if H <? r then q + 1
    else if Z.even q then q else q + 1.
  (** The same as a coordinate. *)
  Definition snap (n : Z) : Z := 2 * H * py_round n.
  (** Python [int] of a float, as a coordinate: truncation towards zero. *)
  Definition trunc (n : Z) : Z := 2 * H * Z.quot n (2 * H).

  (** vector.py 93-110 [update_from_other] with cast [float] / [int]. *)
  Definition arg_float (v : parg) : result (Z * Z) :=
    match v with PVector x y => Ok (x, y) | PTuple x y => Ok (x, y) | PBad => Err TypeError end.
  Definition arg_int (v : parg) : result (Z * Z) :=
    match v with PVector x y => Ok (x, y) | PTuple x y => Ok (trunc x, trunc y) | PBad => Err TypeError end.

  (** entity.py 477-490 [position.setter]; group.py 341-349 for groups. *)
  Definition set_position (e : ent) (v : parg) : result ent :=
    if held e then Err DraftsmanError
    else
      let* p := arg_float v in
      Ok (match kd e with
          | Grp => with_pos e (fst p) (snd p) (tx e) (ty e)
          | _ => with_pos e (fst p) (snd p) (snap (fst p - w e * H)) (snap (snd p - h e * H))
          end).

  (** entity.py 519-532 [tile_position.setter]; no check of the parent.  A
      group has no such attribute. *)
  Definition set_tile_position (e : ent) (v : parg) : result ent :=
    match kd e with
    | Grp => Err AttributeError
    | _ =>
        let* p := arg_int v in
        Ok (with_pos e (fst p + w e * H) (snd p + h e * H) (fst p) (snd p))
    end.

  (** entity.py 42-59 [_PosVector.x], [_PosVector.y]; a group's position is a
      plain [Vector]. *)
  Definition set_pos_x (e : ent) (v : Z) : ent :=
    match kd e with
    | Grp => with_pos e v (py e) (tx e) (ty e)
    | _ => with_pos e v (py e) (snap (v - w e * H)) (ty e)
    end.
  Definition set_pos_y (e : ent) (v : Z) : ent :=
    match kd e with
    | Grp => with_pos e (px e) v (tx e) (ty e)
    | _ => with_pos e (px e) v (tx e) (snap (v - h e * H))
    end.
  (** entity.py 70-83 [_TileVector.x], [_TileVector.y]: the tile position is
      truncated, the position is computed from the value before that. *)
  Definition set_tile_x (e : ent) (v : Z) : ent := with_pos e (v + w e * H) (py e) (trunc v) (ty e).
  Definition set_tile_y (e : ent) (v : Z) : ent := with_pos e (px e) (v + h e * H) (tx e) (trunc v).

  (** vector.py 130-136 [__setitem__] on [position] / [tile_position]: not
      overridden by the subclasses, so only that one number changes.  [i] is the
      index (0 or "x", 1 or "y"). *)
  Definition set_pos_item (e : ent) (i : bool) (v : Z) : ent :=
    if i then with_pos e (px e) v (tx e) (ty e) else with_pos e v (py e) (tx e) (ty e).
  Definition set_tile_item (e : ent) (i : bool) (v : Z) : ent :=
    if i then with_pos e (px e) (py e) (tx e) v else with_pos e (px e) (py e) v (ty e).

  (** [self.tile_position = self.tile_position] (a [Vector]). *)
  Definition reset_tile (e : ent) : ent := with_pos e (tx e + w e * H) (ty e + h e * H) (tx e) (ty e).

  (** The value that validation stores: pydantic's [Direction] enum (0..15), then
      directional.py 48-73 [ensure_4_way] above MINIMUM; exportable.py 14-44
      turns the failure into DataFormatError.  Mode NONE stores anything. *)
  Definition checked_direction (e : ent) (v : Z) : result Z :=
    match vm e with
    | VNone => Ok v
    | m =>
        if (0 <=? v) && (v <? 16) then
          match kd e, m with
          | Dir4, VStrict =>
              if (v =? 0) || (v =? 4) || (v =? 8) || (v =? 12) then Ok v
              else Ok (v / 4 * 4)
          | _, _ => Ok v
          end
        else Err DataFormatError
    end.

  (** directional.py 199-235 and eight_way_directional.py 142-192
      [direction.setter]. *)
  Definition set_direction (e : ent) (v : Z) : result ent :=
    match kd e with
    | Fixed | Grp => Err AttributeError
    | Dir4 =>
        let* d := checked_direction e v in
        let e1 := with_dir e (Some d) in
        (* compares [value], not the stored direction *)
        let '(nw, nh) := if (v =? 4) || (v =? 12) then (sh e, sw e) else (sw e, sh e) in
        let e2 := with_size e1 nw nh in
        Ok (if negb (nw =? nh) && (negb (w e =? nw) && negb (h e =? nh)) then reset_tile e2 else e2)
    | Dir8 =>
        let* d := checked_direction e v in
        let e1 := with_dir e (Some d) in
        let '(nw, nh) := if (d =? 2) || (d =? 3) || (d =? 6) || (d =? 7) then (sh e, sw e) else (sw e, sh e) in
        Ok (reset_tile (with_size e1 nw nh))
    end.

  Inductive pop :=
  | PSet (v : parg) | PTileSet (v : parg)
  | PX (v : Z) | PY (v : Z) | PTX (v : Z) | PTY (v : Z)
  | PItem (i : bool) (v : Z) | PTItem (i : bool) (v : Z)
  | PDir (v : Z).
  Definition keep (e : ent) (r : result ent) : ent * option exn :=
    match r with Ok e' => (e', None) | Err x => (e, Some x) end.
  Definition pstep (e : ent) (o : pop) : ent * option exn :=
    match o with
    | PSet v => keep e (set_position e v)
    | PTileSet v => keep e (set_tile_position e v)
    | PX v => (set_pos_x e v, None)
    | PY v => (set_pos_y e v, None)
    | PTX v => (set_tile_x e v, None)
    | PTY v => (set_tile_y e v, None)
    | PItem i v => (set_pos_item e i v, None)
    | PTItem i v => (set_tile_item e i v, None)
    | PDir v => keep e (set_direction e v)
    end.
  Definition run_pops (e : ent) (ops : list pop) : ent := fold_left (fun e o => fst (pstep e o)) ops e.
End Position.
