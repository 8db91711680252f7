(** [reverse_belts]: /repo/draftsman/extras.py 12-116.

    An entity is its kind, direction, position and the tiles it covers (all on
    the tile grid, four directions; [DirectionalMixin] allows no other for belts,
    /repo/draftsman/classes/mixins/directional.py).  [find_entity_at_position]
    (collection.py 163-179) on a tile's centre finds the first listed entity
    covering the tile; [find_entities_filtered] on a splitter's box moved one
    tile ahead finds the entities of the given types covering the tiles ahead
    (C08, C09 and C39 are about those searches).  Not modelled: groups, and
    validation of the directions assigned. *)
From Coq Require Import ZArith List Bool.
From Verif Require Import Common Dict.
Import ListNotations.

Inductive dir := North | East | South | West.
Definition dir_eqb (a b : dir) : bool :=
  match a, b with North, North | East, East | South, South | West, West => true | _, _ => false end.
(** constants.py 50-61. *)
Definition opposite (d : dir) : dir := match d with North => South | East => West | South => North | West => East end.
Definition tile := (Z * Z)%type.
Definition tile_eqb (a b : tile) : bool := ((fst a =? fst b) && (snd a =? snd b))%Z.
(** constants.py 149-170, added to a position. *)
Definition ahead (d : dir) (p : tile) : tile :=
  match d with
  | North => (fst p, snd p - 1)
  | East => (fst p + 1, snd p)
  | South => (fst p, snd p + 1)
  | West => (fst p - 1, snd p)
  end%Z.

(** [Thing true]: an entity with a direction that is no belt; [Thing false]: one
    without a direction. *)
Inductive kind := Belt | Under (output : bool) | Splitter | Thing (directed : bool).
Record entity := mkE { e_kind : kind; e_dir : dir; e_pos : tile; e_tiles : list tile }.
Definition set_dir (d : dir) (e : entity) : entity := mkE (e_kind e) d (e_pos e) (e_tiles e).
Definition set_kind (k : kind) (e : entity) : entity := mkE k (e_dir e) (e_pos e) (e_tiles e).
Definition is_belt (e : entity) : bool := match e_kind e with Thing _ => false | _ => true end.
Definition covers (e : entity) (p : tile) : bool := existsb (tile_eqb p) (e_tiles e).
Definition direction_of (e : entity) : result dir :=
  match e_kind e with Thing false => Err AttributeError | _ => Ok (e_dir e) end.

(** Indices of the entities satisfying [p]. *)
Fixpoint indices (p : entity -> bool) (l : list entity) (n : nat) : list nat :=
  match l with [] => [] | e :: r => if p e then n :: indices p r (S n) else indices p r (S n) end.
Definition find_at (l : list entity) (p : tile) : option nat := hd_error (indices (fun e => covers e p) l 0).
Definition type_at (l : list entity) (j : nat) : bool := match nth_error l j with Some e => is_belt e | None => false end.

(** 41-88: what the entity points at. *)
Definition pointed (l : list entity) (e : entity) : list nat :=
  match e_kind e with
  | Belt => match find_at l (ahead (e_dir e) (e_pos e)) with
            | Some j => if type_at l j then [j] else []
            | None => []
            end
  | Under true => match find_at l (ahead (e_dir e) (e_pos e)) with Some j => [j] | None => [] end
  | Under false => []
  | Splitter => indices (fun o => is_belt o && existsb (fun t => covers o (ahead (e_dir e) t)) (e_tiles e)) l 0
  | Thing _ => []
  end.

Definition dmap := list (nat * (dir * list nat)).
Definition dm_get (m : dmap) (i : nat) := dget Nat.eqb m i.
(** 36-38. *)
Definition enter (l : list entity) (m : dmap) (j : nat) : result dmap :=
  match dm_get m j with
  | Some _ => Ok m
  | None => match nth_error l j with
            | Some e => let* d := direction_of e in Ok (dset Nat.eqb m j (d, []))
            | None => Err IndexError
            end
  end.
(** 46-54, 62-70, 80-88. *)
Definition note (l : list entity) (i : nat) (m : dmap) (j : nat) : result dmap :=
  let* m1 := enter l m j in
  match dm_get m1 j with
  | Some (d, ps) => Ok (dset Nat.eqb m1 j (d, ps ++ [i]))
  | None => Err KeyError
  end.
Fixpoint note_all (l : list entity) (i : nat) (m : dmap) (js : list nat) : result dmap :=
  match js with [] => Ok m | j :: r => let* m1 := note l i m j in note_all l i m1 r end.
(** 28-88. *)
Fixpoint survey (l : list entity) (rest : list entity) (i : nat) (m : dmap) : result dmap :=
  match rest with
  | [] => Ok m
  | e :: r =>
      if is_belt e then
        let* m1 := enter l m i in
        let* m2 := note_all l i m1 (pointed l e) in
        survey l r (S i) m2
      else survey l r (S i) m
  end.
(** 92-109. *)
Definition turn_belt (m : dmap) (i : nat) (e : entity) : result entity :=
  match dm_get m i with
  | None => Err KeyError
  | Some (_, ps) =>
      let pointer := match ps with
                     | j :: _ => match dm_get m j with
                                 | Some (d, _) => if dir_eqb (e_dir e) d then None else Some d
                                 | None => None
                                 end
                     | [] => None
                     end in
      match (List.length ps =? 1)%nat, pointer with
      | true, Some d => Ok (set_dir (opposite d) e)
      | _, _ => Ok (set_dir (opposite (e_dir e)) e)
      end
  end.
(** 92-116. *)
Definition turn (m : dmap) (i : nat) (e : entity) : result entity :=
  match e_kind e with
  | Belt => turn_belt m i e
  | Under o => Ok (set_kind (Under (negb o)) (set_dir (opposite (e_dir e)) e))
  | Splitter => Ok (set_dir (opposite (e_dir e)) e)
  | Thing _ => Ok e
  end.
Fixpoint turn_all (m : dmap) (i : nat) (l : list entity) : result (list entity) :=
  match l with
  | [] => Ok []
  | e :: r => let* e1 := turn m i e in let* r1 := turn_all m (S i) r in Ok (e1 :: r1)
  end.
Definition reverse_belts (l : list entity) : result (list entity) :=
  let* m := survey l l 0 [] in turn_all m 0 l.
