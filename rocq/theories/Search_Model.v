(** /repo/draftsman/classes/collection.py 142-343 and 1715-1823: searching
    entities and tiles.

    An item is anything with a world box, a global position, Python equality, a
    name, a type and possibly a direction ([getattr(x, "direction", None)]).
    The search uses the collection's spatial map [m] ([Spatial_Model]) or the
    flattened member list [flat]. *)
From Coq Require Import ZArith List Bool.
From Verif Require Import Common Spatial_Model.
Import ListNotations.
Local Open Scope Z_scope.

(** A criterion is absent, one value or a set of values. *)
Inductive wanted (A : Type) := Absent | One (a : A) | Several (l : list A).
Arguments Absent {A}. Arguments One {A}. Arguments Several {A}.

(** 310-322: one value becomes a singleton set. *)
Definition normalized {A} (w : wanted A) : option (list A) :=
  match w with Absent => None | One a => Some [a] | Several l => Some l end.

(** Python [l[:limit]]. *)
Definition slice_to {A} (l : list A) (limit : Z) : list A :=
  firstn (Z.to_nat (if limit <? 0 then Z.of_nat (length l) + limit else limit)) l.

Section Search.
  Context {item : Type}.
  Variable cs eps : Z.
  Variable box : item -> option zbox.
  Variable pos : item -> zpt.
  Variable ieq : item -> item -> bool.
  Variable name : item -> pystr.
  Variable kind : item -> pystr.
  Variable direction : item -> option Z.

  Record criteria := mkCriteria { names : wanted pystr; types : wanted pystr; directions : wanted Z }.

  (** 328-338 [test]. *)
  Definition test (c : criteria) (it : item) : bool :=
    if match normalized (names c) with None => false | Some l => negb (existsb (pystr_eqb (name it)) l) end then false
    else if match normalized (types c) with None => false | Some l => negb (existsb (pystr_eqb (kind it)) l) end then false
    else if match normalized (directions c) with
            | None => false
            | Some l => negb (match direction it with None => false | Some d => existsb (Z.eqb d) l end)
            end then false
    else true.

  (** 293-308. *)
  Definition entity_region (m : smap item) (flat : list item) (position : option zpt) (radius : option Z)
    (area : option (zbox * zpt)) : list item :=
    match position with
    | Some p => match radius with
                | Some r => get_in_radius cs pos ieq m r p None
                | None => get_on_point cs box m p None
                end
    | None => match area with
              | Some (q, off) => get_in_aabb cs eps box ieq m q off None
              | None => flat
              end
    end.
  (** 324-326, 340-343 and 1812-1823. *)
  Definition pick (invert : bool) (limit : option Z) (t : item -> bool) (region : list item) : list item :=
    let limit := match limit with None => Z.of_nat (length region) | Some n => n end in
    slice_to (filter (fun it => if invert then negb (t it) else t it) region) limit.
  (** 205-343 [find_entities_filtered]. *)
  Definition find_entities_filtered m flat position radius area c invert limit : list item :=
    pick invert limit (test c) (entity_region m flat position radius area).

  (** 142-161 [find_entity]. *)
  Definition find_entity (m : smap item) (n : pystr) (p : zpt) : option item :=
    hd_error (filter (fun it => pystr_eqb (name it) n) (get_on_point cs box m p None)).
  (** 163-179 [find_entity_at_position]. *)
  Definition find_entity_at_position (m : smap item) (p : zpt) : option item :=
    hd_error (get_on_point cs box m p None).
  (** 181-203 [find_entities]; [members] is the list [self.entities] itself. *)
  Definition find_entities (m : smap item) (members : list item) (area : option (zbox * zpt)) : list item :=
    match area with None => members | Some (q, off) => get_in_aabb cs eps box ieq m q off None end.

  (** 1797-1805. *)
  Definition tile_region (m : smap item) (tiles : list item) (position : option zpt) (radius : option Z)
    (area : option (zbox * zpt)) : list item :=
    match position, radius with
    | Some p, Some r => get_in_radius cs pos ieq m r p None
    | _, _ => match area with
              | Some (q, off) => get_in_aabb cs eps box ieq m q off None
              | None => tiles
              end
    end.
  (** 1728-1823 [find_tiles_filtered]; the test 1815-1818 looks at the name only. *)
  Definition find_tiles_filtered m tiles position radius area (n : wanted pystr) invert limit : list item :=
    pick invert limit (test (mkCriteria n Absent Absent)) (tile_region m tiles position radius area).
  (** 1715-1726 [find_tile]; [unit] is one tile, an even number of units. *)
  Definition find_tile (unit : Z) (m : smap item) (p : zpt) : list item :=
    get_on_point cs box m (unit / 2 + fst p, unit / 2 + snd p) None.
End Search.
