(** What an entity requests. *)
From Coq Require Import ZArith List Bool.
From Verif Require Import Common Slots_Model Request_Model.
Import ListNotations.
Local Open Scope Z_scope.

Definition sum (l : list Z) : Z := fold_right Z.add 0 l.
(** A missing amount means one. *)
Definition amount_of (x : loc) : Z := match l_count x with Some c => c | None => 1 end.
(** The amounts a request puts into a slot of an inventory counted from zero. *)
Definition at_place (i s : Z) (x : loc) : Z :=
  if (l_inventory x =? i + 1) && match l_stack x with Some t => t =? s | None => false end then amount_of x else 0.
Definition in_req (n q : pystr) (i s : Z) (r : req) : Z :=
  if match r_name r, r_quality r with Some a, Some b => pystr_eqb a n && pystr_eqb b q | _, _ => false end
  then sum (map (at_place i s) (match r_locs r with Some l => l | None => [] end))
  else 0.
(** The amount of item [n] of quality [q] requested into slot [s] of inventory [i]. *)
Definition requested (st : list req) (n q : pystr) (i s : Z) : Z := sum (map (in_req n q i s) st).

Definition mentions (st : list req) (n : pystr) : Prop := exists r, In r st /\ r_name r = Some n.
Definition mentions_quality (st : list req) (n q : pystr) : Prop := exists r, In r st /\ r_name r = Some n /\ r_quality r = Some q.
(** The requests of other items are the same, in the same order. *)
Definition other_items (n : pystr) (st : list req) : list req := filter (fun r => negb (same_name r n)) st.
Definition other_requests (n q : pystr) (st : list req) : list req :=
  filter (fun r => negb (same_name r n && same_quality r q)) st.
(** Every request has a list of slots. *)
Definition has_slots (st : list req) : Prop := Forall (fun r => r_locs r <> None) st.
Definition all_valid (st : list req) : Prop := Forall (fun r => req_valid r = true) st.

(** A call with an amount, an item, a quality and a slot of the first inventory. *)
Record call := mkCall { c_item : pystr; c_count : Z; c_quality : pystr; c_slot : Z }.
Definition do_call (strict : bool) (st : list req) (c : call) : list req * result unit :=
  set_item_request strict st (c_item c) (Some (c_count c)) (c_quality c) 0 (Some (c_slot c)).
(** Arguments that pass validation. *)
Definition proper (c : call) : Prop :=
  0 <= c_count c < 2 ^ 32 /\ 0 <= c_slot c < 2 ^ 32 /\ In (c_quality c) qualities.
(** What the calls add up to: requests accumulate until a call asks for zero of
    the item. *)
Definition accumulated (n q : pystr) (s : Z) (before : Z) (c : call) : Z :=
  if negb (pystr_eqb (c_item c) n) then before
  else if c_count c =? 0 then 0
  else if pystr_eqb (c_quality c) q && (c_slot c =? s) then before + c_count c
  else before.
(** Slots are numbered from inventory one on. *)
Definition from_one (st : list req) : Prop :=
  Forall (fun r => match r_locs r with Some l => Forall (fun x => l_inventory x <> 0) l | None => False end) st.
