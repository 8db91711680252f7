(** Item requests: /repo/draftsman/classes/mixins/request_items.py 122-223.

    The state is the entity's [items]: a list of requests, each an item id with
    the inventory slots it should go to.  [strict] is false when
    [validate_assignment] is NONE (then nothing is checked).  Amounts, inventory
    and slot numbers are integers.  Not modelled: the signal type of the id
    (always "item" here), warnings, an [items] attribute that is no list. *)
From Coq Require Import ZArith String List Bool.
From Verif Require Import Common Dict Planner_Model Slots_Model.
Import ListNotations.
Local Open Scope Z_scope.

(** [InventoryLocation], signatures.py 1304-1316; a missing stack number only
    exists until it is validated. *)
Record loc := mkLoc { l_inventory : Z; l_stack : option Z; l_count : option Z }.
(** [ItemRequest] with its [SignalID] and [ItemSpecification], 349-376 and
    1303-1338. *)
Record req := mkReq { r_name : option pystr; r_quality : option pystr; r_locs : option (list loc); r_grid : option Z }.

Definition loc_valid (x : loc) : bool :=
  is_uint32 (l_inventory x) && match l_stack x with Some s => is_uint32 s | None => false end && opt_ok is_uint32 (l_count x).
Definition req_valid (r : req) : bool :=
  opt_ok (one_of qualities) (r_quality r) && opt_ok (forallb loc_valid) (r_locs r) && opt_ok is_uint32 (r_grid r).

Definition same_name (r : req) (item : pystr) : bool := match r_name r with Some n => pystr_eqb n item | None => false end.
Definition same_quality (r : req) (q : pystr) : bool := match r_quality r with Some n => pystr_eqb n q | None => false end.
Definition stack_is (x : loc) (slot : option Z) : bool :=
  match l_stack x, slot with Some a, Some b => a =? b | None, None => true | _, _ => false end.

(** [set_item_request] 122-223.  A stored inventory number is one more than the
    argument, but the search compares it with the argument itself. *)
Definition set_item_request (strict : bool) (st : list req) (item : pystr) (count : option Z) (quality : pystr)
  (inventory : Z) (slot : option Z) : list req * result unit :=
  let count := match count with Some c => c | None => 0 end in
  let changed :=
    if count =? 0 then Ok (filter (fun r => negb (same_name r item)) st)
    else
      match first_index (fun r => same_name r item && same_quality r quality) st with
      | None =>
          let slot := match slot with Some s => s | None => Z.of_nat (length st) end in
          Ok (st ++ [mkReq (Some item) (Some quality) (Some [mkLoc (inventory + 1) (Some slot) (Some count)]) (Some 0)])
      | Some k =>
          match nth_error st k with
          | None => Err IndexError
          | Some r =>
              match r_locs r with
              | None => Err TypeError
              | Some locs =>
                  let locs' :=
                    match first_index (fun x => (l_inventory x =? inventory) && stack_is x slot) locs with
                    | None => locs ++ [mkLoc (inventory + 1) slot (Some count)]
                    | Some j =>
                        match nth_error locs j with
                        | Some x => replace_nth locs j (mkLoc (l_inventory x) (l_stack x) (Some count))
                        | None => locs
                        end
                    end in
                  Ok (replace_nth st k (mkReq (r_name r) (r_quality r) (Some locs') (r_grid r)))
              end
          end
      end in
  match changed with
  | Err e => (st, Err e)
  | Ok l => if strict && negb (forallb req_valid l) then (st, Err DataFormatError) else (l, Ok tt)
  end.
