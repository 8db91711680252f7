(** Filters kept as lists of entries with a slot number.

    /repo/draftsman/classes/deconstruction_planner.py 562-675,
    classes/mixins/filters.py 116-164, classes/mixins/inventory_filter.py
    236-292, prototypes/infinity_container.py 176-226 and
    signatures.py 1177-1252 (Section).

    Slots and counts are integers, names any strings (an unknown name is only a
    warning).  [strict] is false when [validate_assignment] is NONE: then
    [attempt_and_reissue] (exportable.py 14-44) stores the list without
    checking it; constructing a single entry always checks it.  In-place changes
    of the stored list survive a later failure; a list made for a missing one
    does not.  Not modelled: non-integer slots, non-string names, warnings. *)
From Coq Require Import ZArith NArith String List Bool.
From Verif Require Import Common Dict Planner_Model.
Import ListNotations.
Local Open Scope string_scope.
Local Open Scope list_scope.
Local Open Scope Z_scope.

(** signatures.py 62-74. *)
Definition is_int32 (z : Z) : bool := (- 2 ^ 31 <=? z) && (z <? 2 ^ 31).
Definition is_int64 (z : Z) : bool := (- 2 ^ 63 <=? z) && (z <? 2 ^ 63).
Definition is_uint16 (z : Z) : bool := (0 <=? z) && (z <? 2 ^ 16).
Definition is_uint32 (z : Z) : bool := (0 <=? z) && (z <? 2 ^ 32).
Definition is_uint64 (z : Z) : bool := (0 <=? z) && (z <? 2 ^ 64).
(** [Optional[...]] and [Literal[...]] *)
Definition opt_ok {A} (p : A -> bool) (o : option A) : bool := match o with None => true | Some a => p a end.
Definition one_of (l : list pystr) (s : pystr) : bool := existsb (pystr_eqb s) l.

Definition zopt_eqb (a : option Z) (k : Z) : bool := match a with Some x => x =? k | None => false end.

(** ** Deconstruction planner *)
(** [EntityFilter] and [TileFilter], signatures.py 777-808. *)
Record nfilter := mkN { n_index : option Z; n_name : pystr }.
Definition n_valid (f : nfilter) : bool := opt_ok is_uint64 (n_index f).

(** Storing a changed list: on failure the stored list (if there was one) has
    already been changed. *)
Definition store {E} (strict : bool) (valid : E -> bool) (old : option (list E)) (changed : list E)
  : option (list E) * result unit :=
  if strict && negb (forallb valid changed)
  then (match old with Some _ => Some changed | None => None end, Err DataFormatError)
  else (Some changed, Ok tt).

(** [set_entity_filter] 562-604 and, with the same text, [set_tile_filter] 626-668. *)
Definition set_named_filter (strict : bool) (st : option (list nfilter)) (index : Z) (name : option pystr)
  : option (list nfilter) * result unit :=
  let new_filters := match st with Some l => l | None => [] end in
  let body (new_entry : option nfilter) :=
    match first_index (fun f => zopt_eqb (n_index f) (index + 1)) new_filters with
    | Some i =>
        match name with
        | None => store strict n_valid st (remove_nth new_filters i)
        | Some n =>
            match nth_error new_filters i with
            | Some f => store strict n_valid st (replace_nth new_filters i (mkN (n_index f) n))
            | None => (st, Err IndexError)
            end
        end
    | None =>
        match new_entry with
        | None => (st, Err UnboundLocalError)
        | Some e => store strict n_valid st (new_filters ++ [e])
        end
    end in
  match name with
  | None => body None
  | Some n => if is_uint64 index then body (Some (mkN (Some (index + 1)) n)) else (st, Err DataFormatError)
  end.

(** 202-211 and 216-225: strings of a list get their position plus one. *)
Fixpoint numbered (i : Z) (names : list pystr) : list nfilter :=
  match names with [] => [] | n :: ns => mkN (Some (i + 1)) n :: numbered (i + 1) ns end.
(** [set_entity_filters] 606-624: the list is replaced. *)
Definition set_entity_filters (strict : bool) (st : option (list nfilter)) (names : list pystr)
  : option (list nfilter) * result unit :=
  if strict && negb (forallb n_valid (numbered 0 names)) then (st, Err DataFormatError) else (Some (numbered 0 names), Ok tt).
(** [set_tile_filters] 670-675: one call of [set_tile_filter] per name. *)
Fixpoint set_tile_filters_from (strict : bool) (i : Z) (st : option (list nfilter)) (names : list (option pystr))
  : option (list nfilter) * result unit :=
  match names with
  | [] => (st, Ok tt)
  | n :: ns =>
      match set_named_filter strict st i n with
      | (st', Ok _) => set_tile_filters_from strict (i + 1) st' ns
      | (st', Err e) => (st', Err e)
      end
  end.
Definition set_tile_filters (strict : bool) := set_tile_filters_from strict 0.

(** The planner holds both lists. *)
Record dplanner := mkD { d_entities : option (list nfilter); d_tiles : option (list nfilter) }.
Inductive dop := SetEntity (i : Z) (n : option pystr) | SetTile (i : Z) (n : option pystr).
Definition d_apply (strict : bool) (p : dplanner) (o : dop) : dplanner * result unit :=
  match o with
  | SetEntity i n => let '(l, r) := set_named_filter strict (d_entities p) i n in (mkD l (d_tiles p), r)
  | SetTile i n => let '(l, r) := set_named_filter strict (d_tiles p) i n in (mkD (d_entities p) l, r)
  end.
(** Runs any calls, each to its outcome. *)
Fixpoint run_all {S O R} (f : S -> O -> S * R) (s : S) (os : list O) : S * list R :=
  match os with
  | [] => (s, [])
  | o :: os' => let '(s1, r) := f s o in let '(s2, rs) := run_all f s1 os' in (s2, r :: rs)
  end.

(** ** Item filters of inserters, loaders and cargo wagons *)
(** [ItemFilter], signatures.py 907-925. *)
Record ifilter := mkI { i_index : Z; i_name : pystr; i_quality : option pystr; i_comparator : option pystr }.
Definition qualities : list pystr :=
  [str "normal"; str "uncommon"; str "rare"; str "epic"; str "legendary"; str "quality-unknown"; str "any"].
Definition comparators : list pystr := [str ">"; str "<"; str "="; [8805%N]; [8804%N]; [8800%N]].
Definition i_valid (f : ifilter) : bool :=
  is_int64 (i_index f) && opt_ok (one_of qualities) (i_quality f) && opt_ok (one_of comparators) (i_comparator f).

(** [set_item_filter], filters.py 116-164: an occupied slot only gets its name
    replaced. *)
Definition set_item_filter (strict : bool) (st : option (list ifilter)) (index : Z) (item : option pystr)
  (quality comparator : option pystr) : option (list ifilter) * result unit :=
  let new_filters := match st with Some l => l | None => [] end in
  let body (new_entry : option ifilter) :=
    match first_index (fun f => i_index f =? index + 1) new_filters with
    | Some i =>
        match item with
        | None => store strict i_valid st (remove_nth new_filters i)
        | Some n =>
            match nth_error new_filters i with
            | Some f => store strict i_valid st (replace_nth new_filters i (mkI (i_index f) n (i_quality f) (i_comparator f)))
            | None => (st, Err IndexError)
            end
        end
    | None =>
        match new_entry with
        | None => (st, Err UnboundLocalError)
        | Some e => store strict i_valid st (new_filters ++ [e])
        end
    end in
  match item with
  | None => body None
  | Some n =>
      if i_valid (mkI index n quality comparator) then body (Some (mkI (index + 1) n quality comparator))
      else (st, Err DataFormatError)
  end.

(** [set_inventory_filter], inventory_filter.py 236-292: [quality] and
    [comparator] are accepted and ignored; the entry gets the defaults "any" and
    [None] of [ItemFilter]. *)
Definition set_inventory_filter (strict : bool) (st : option (list ifilter)) (index : Z) (item : option pystr)
  (quality comparator : option pystr) : option (list ifilter) * result unit :=
  let new_filters := match st with Some l => l | None => [] end in
  let body (new_entry : option ifilter) :=
    match first_index (fun f => i_index f =? index + 1) new_filters with
    | Some i =>
        match item with
        | None => store strict i_valid st (remove_nth new_filters i)
        | Some n =>
            match nth_error new_filters i with
            | Some f => store strict i_valid st (replace_nth new_filters i (mkI (i_index f) n (i_quality f) (i_comparator f)))
            | None => (st, Err IndexError)
            end
        end
    | None =>
        match new_entry with
        | None => (st, Err UnboundLocalError)
        | Some e => store strict i_valid st (new_filters ++ [e])
        end
    end in
  match item with
  | None => body None
  | Some n =>
      if i_valid (mkI index n (Some (str "any")) None) then body (Some (mkI (index + 1) n (Some (str "any")) None))
      else (st, Err DataFormatError)
  end.

(** ** Infinity containers *)
(** [InfinityFilter], infinity_container.py 27-53. *)
Record ffilter := mkF { f_index : Z; f_name : pystr; f_count : Z; f_mode : option pystr }.
Definition modes : list pystr := [str "at-least"; str "at-most"; str "exactly"].
Definition f_valid (f : ffilter) : bool :=
  is_uint16 (f_index f) && is_uint32 (f_count f) && opt_ok (one_of modes) (f_mode f).

Section Infinity.
  (** [items.raw.get(item, {}).get("stack_size", 0)]: the game data. *)
  Variable stack_size : pystr -> Z.
  (** [set_infinity_filter] 176-226.  A missing list cannot be iterated. *)
  Definition set_infinity_filter (st : option (list ffilter)) (index : Z) (item : option pystr)
    (mode : option pystr) (count : option Z) : option (list ffilter) * result unit :=
    let count := match count, item with
                 | Some c, _ => c
                 | None, None => 0
                 | None, Some n => stack_size n
                 end in
    match st with
    | None => (st, Err TypeError)
    | Some l =>
        let existing := first_index (fun f => index + 1 =? f_index f) l in
        match existing, item with
        | Some i, None => (Some (remove_nth l i), Ok tt)
        | None, None => (st, Err DataFormatError)
        | _, Some n =>
            let new := mkF (index + 1) n count mode in
            if f_valid new then
              match existing with
              | Some i => (Some (replace_nth l i new), Ok tt)
              | None => (Some (l ++ [new]), Ok tt)
              end
            else (st, Err DataFormatError)
        end
    end.
End Infinity.

(** ** Signal sections *)
(** [SignalFilter], signatures.py 1061-1119, without [max_count], which
    [set_signal] leaves unset; [comparator] is always "=" here. *)
Record sfilter := mkS { s_index : Z; s_name : pystr; s_count : Z; s_quality : option pystr; s_type : option pystr }.
Definition signal_types : list pystr :=
  [str "virtual"; str "item"; str "fluid"; str "recipe"; str "entity"; str "space-location"; str "asteroid-chunk"; str "quality"].
Definition s_valid (f : sfilter) : bool :=
  is_int64 (s_index f) && is_int32 (s_count f) && opt_ok (one_of qualities) (s_quality f) && opt_ok (one_of signal_types) (s_type f).

(** [set_signal] 1191-1234.  The entry is built first, so a missing name is
    rejected there; a list made for missing filters is not stored. *)
Definition set_signal (st : option (list sfilter)) (index : Z) (name : option pystr) (count : Z)
  (quality type : option pystr) : option (list sfilter) * result unit :=
  match name with
  | None => (st, Err DataFormatError)
  | Some n =>
      if s_valid (mkS index n count quality type) then
        let new_entry := mkS (index + 1) n count quality type in
        let new_filters := match st with Some l => l | None => [] end in
        let changed :=
          match first_index (fun f => index + 1 =? s_index f) new_filters with
          | Some i => replace_nth new_filters i new_entry
          | None => new_filters ++ [new_entry]
          end in
        (match st with Some _ => Some changed | None => None end, Ok tt)
      else (st, Err DataFormatError)
  end.
(** [get_signal] 1236-1252. *)
Definition get_signal (st : option (list sfilter)) (index : Z) : option sfilter :=
  match st with
  | None | Some [] => None
  | Some l => find (fun f => s_index f =? index + 1) l
  end.
