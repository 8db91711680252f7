(** Specification of a tile list: a plain list of tiles. *)
From Coq Require Import ZArith NArith List Bool.
From Verif Require Import Common Dict Spatial_Model TileList_Model.
Import ListNotations.

Definition tile_in (l : list tile) (t : tile) : Prop := In t l.

Definition plain_insert (l : list tile) (idx : Z) (t : tile) (merge : bool) (r : list tile) : Prop :=
  (merge = true /\ In t l /\ r = l) \/ ((merge = false \/ ~ In t l) /\ r = py_insert l idx t).

(** [plain_step l o r x]: on the plain list [l], operation [o] gives [r] and
    raises [x]. *)
Definition plain_step (l : list tile) (o : top) (r : list tile) (x : option exn) : Prop :=
  match o with
  | TAppend t merge => plain_insert l (Z.of_nat (length l)) t merge r /\ x = None
  | TInsert idx t merge => plain_insert l idx t merge r /\ x = None
  | TDel idx =>
      match py_pos (Z.of_nat (length l)) idx with
      | None => r = l /\ x = Some IndexError
      | Some i => r = remove_nth l i /\ x = None
      end
  | TDelSlice a b c =>
      match c with
      | Some 0%Z => r = l /\ x = Some ValueError
      | _ => let '(start, stop, step) := slice_indices a b c (Z.of_nat (length l)) in
             r = keep_pos (fun p => negb (existsb (Z.eqb p) (py_range start stop step))) 0 l /\ x = None
      end
  | TSet idx t =>
      match py_pos (Z.of_nat (length l)) idx with
      | None => r = l /\ x = Some IndexError
      | Some i => r = replace_nth l i t /\ x = None
      end
  | TClear => r = [] /\ x = None
  | TRename p nm =>
      match nth_error l p with
      | None => r = l /\ x = Some IndexError
      | Some t => r = replace_nth l p (mkTile nm (t_x t) (t_y t)) /\ x = None
      end
  end.

Definition is_rename (o : top) : bool := match o with TRename _ _ => true | _ => false end.

(** The cell of the index a tile belongs to: 8 by 8 tiles. *)
Definition cell_of (t : tile) : zpt := (t_x t / 8, t_y t / 8)%Z.
