(** /repo/draftsman/classes/transformable.py [Transformable]: translate, rotate,
    flip of a blueprint (or group), with the spatial maps of its entity and tile
    lists.

    Identity of an object is its place in the list, which none of these
    operations changes.  The items in the entity map are [(i, None)] for member
    [i] itself and [(i, Some k)] for the [k]-th entity inside the group that is
    member [i].  The bounding box of an object is an arbitrary function [box] of
    it, Python equality an arbitrary [eeq].  Not modelled: the warning about
    double grid alignment (32-39).  Wires refer to objects and are not touched by
    any of these methods, so they do not appear. *)
From Coq Require Import ZArith List Bool.
From Verif Require Import Common Spatial_Model Position_Model.
Import ListNotations.
Local Open Scope Z_scope.

Definition item := (nat * option nat)%type.

Section Loop.
  Context {A : Type}.
  Variable cs eps : Z.
  Variable box : A -> option nat -> option zbox.
  Variable eeq : A * option nat -> A * option nat -> bool.
  Variable set_held : A -> bool -> A.
  (** The work on one member while its parent is [None]. *)
  Variable f : A -> result A.

  Definition ibox (l : list A) (it : item) : option zbox :=
    match nth_error l (fst it) with Some a => box a (snd it) | None => None end.
  Definition ieqb (l : list A) (x y : item) : bool :=
    match nth_error l (fst x), nth_error l (fst y) with
    | Some a, Some b => eeq (a, snd x) (b, snd y)
    | _, _ => false
    end.
  Definition put (l : list A) (i : nat) (a : A) : list A := firstn i l ++ a :: skipn (S i) l.

  (** One of the six loops: take the member out of the map, clear its parent,
      work on it, restore its parent, put it back.  An exception stops the loop
      there. *)
  Fixpoint walk (todo : list nat) (l : list A) (m : smap item) : list A * smap item * option exn :=
    match todo with
    | [] => (l, m, None)
    | i :: todo' =>
        match nth_error l i with
        | None => walk todo' l m
        | Some a =>
            let m1 := sm_remove cs eps (ibox l) (ieqb l) m (i, None) in
            let a1 := set_held a false in
            match f a1 with
            | Err x => (put l i a1, m1, Some x)
            | Ok a2 =>
                let l2 := put l i (set_held a2 true) in
                walk todo' l2 (sm_add cs eps (ibox l2) m1 (i, None))
            end
        end
    end.
  Definition walk_all (l : list A) (m : smap item) := walk (seq 0 (length l)) l m.
End Loop.

(** tile.py: name, position (units), parent. *)
Record ttile := mkTT { tt_name : pystr; tt_x : Z; tt_y : Z; tt_held : bool }.
Definition tt_set_held (t : ttile) (b : bool) : ttile := mkTT (tt_name t) (tt_x t) (tt_y t) b.

Record bp := mkBP {
  b_ents : list ent; b_emap : smap item;
  b_tiles : list ttile; b_tmap : smap item
}.

Section Transform.
  Variable H : Z.
  Variable cs eps : Z.
  Variable box : ent -> option nat -> option zbox.
  Variable eeq : ent * option nat -> ent * option nat -> bool.
  Variable tbox : ttile -> option nat -> option zbox.
  Variable teq : ttile * option nat -> ttile * option nat -> bool.

  (** tile.py 206-211 [position.setter]. *)
  Definition set_tile_pos (t : ttile) (v : parg) : result ttile :=
    if tt_held t then Err DraftsmanError
    else let* p := arg_int H v in Ok (mkTT (tt_name t) (fst p) (snd p) (tt_held t)).

  (** Entity loop, then tile loop. *)
  Definition both (fe : ent -> result ent) (ft : ttile -> result ttile) (b : bp) : bp * option exn :=
    let '(l, m, x) := walk_all cs eps box eeq with_held fe (b_ents b) (b_emap b) in
    match x with
    | Some _ => (mkBP l m (b_tiles b) (b_tmap b), x)
    | None =>
        let '(l', m', x') := walk_all cs eps tbox teq tt_set_held ft (b_tiles b) (b_tmap b) in
        (mkBP l m l' m', x')
    end.

  (** 19-71 [translate]. *)
  Definition move_ent (x y : Z) (e : ent) : result ent :=
    set_position H e (PVector (px e + x) (py e + y)).
  Definition move_tile (x y : Z) (t : ttile) : result ttile :=
    set_tile_pos t (PVector (tt_x t + x) (tt_y t + y)).
  Definition translate (b : bp) (x y : Z) : bp * option exn := both (move_ent x y) (move_tile x y) b.

  (** [entity.rotatable]: entity_like.py 105-114, directional.py 140-142,
      eight_way_directional.py 104-106, collection.py 80-87. *)
  Definition rotatable (e : ent) : bool := match kd e with Fixed => false | _ => true end.
  (** Reading [entity.direction]; a group has no such attribute. *)
  Definition get_direction (e : ent) : result (option Z) :=
    match kd e with Grp => Err AttributeError | _ => Ok (dir e) end.
  (** [entity.direction += g(entity.direction)]; arithmetic on [None] is a
      TypeError. *)
  Definition add_direction (g : Z -> Z) (e : ent) : result ent :=
    if rotatable e then
      let* o := get_direction e in
      match o with
      | None => Err TypeError
      | Some d => set_direction H e (d + g d)
      end
    else Ok e.

  (** 97-103: the matrices. *)
  Definition matrix (angle : Z) : Z * Z * Z * Z :=
    match angle with
    | 0 => (1, 0, 0, 1)
    | 4 => (0, 1, -1, 0)
    | 8 => (-1, 0, 0, -1)
    | _ => (0, -1, 1, 0)
    end.
  (** 106-127: one entity. *)
  Definition rotate_ent (angle : Z) (e : ent) : result ent :=
    let '(m0, m1, m2, m3) := matrix angle in
    let '(x, y) := (px e, py e) in
    let* e1 := add_direction (fun _ => angle) e in
    set_position H e1 (PTuple (x * m0 + y * m2) (x * m1 + y * m3)).
  (** 131-151: one tile, about its centre ([H] units are half a tile). *)
  Definition rotate_tile (angle : Z) (t : ttile) : result ttile :=
    let '(m0, m1, m2, m3) := matrix angle in
    let '(x, y) := (tt_x t + H, tt_y t + H) in
    set_tile_pos t (PTuple (x * m0 + y * m2 - H) (x * m1 + y * m3 - H)).
  (** 73-151 [rotate]. *)
  Definition rotate (b : bp) (angle : Z) : bp * option exn :=
    let angle := angle mod 16 in
    if negb (angle mod 4 =? 0) then (b, Some RotationError)
    else both (rotate_ent angle) (rotate_tile angle) b.

  (** 191-198: one entity; [hor] is [direction == "horizontal"]. *)
  Definition flip_ent (hor : bool) (e : ent) : result ent :=
    let '(x, y) := (px e, py e) in
    let* e1 := add_direction
                 (fun d => if hor then ((-2 * (d - 8)) mod 16) mod 16
                           else (((-2 * d) mod 16) - 8) mod 16) e in
    set_position H e1 (if hor then PTuple (x * -1) (y * 1) else PTuple (x * 1) (y * -1)).
  (** 205-224: one tile. *)
  Definition flip_tile (hor : bool) (t : ttile) : result ttile :=
    let '(x, y) := (tt_x t + H, tt_y t + H) in
    set_tile_pos t (if hor then PTuple (x * -1 - H) (y * 1 - H) else PTuple (x * 1 - H) (y * -1 - H)).
  (** collection.py 89-100 [flippable]. *)
  Fixpoint all_flippable (l : list ent) : result bool :=
    match l with
    | [] => Ok true
    | e :: l' =>
        match flips e with
        | None => Err KeyError
        | Some false => Ok false
        | Some true => all_flippable l'
        end
    end.
  (** The axis argument: ["horizontal"], ["vertical"] or another string. *)
  Inductive axis := Horizontal | Vertical | OtherAxis.
  (** 153-224 [flip]. *)
  Definition flip (b : bp) (a : axis) : bp * option exn :=
    match all_flippable (b_ents b) with
    | Err x => (b, Some x)
    | Ok false => (b, Some FlippingError)
    | Ok true =>
        match a with
        | OtherAxis => (b, Some ValueError)
        | _ => let hor := match a with Horizontal => true | _ => false end in
               both (flip_ent hor) (flip_tile hor) b
        end
    end.
End Transform.
