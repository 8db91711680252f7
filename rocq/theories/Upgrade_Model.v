(** What upgrade planners say about their mappings.

    /repo/draftsman/classes/upgrade_planner.py 44-214 [check_valid_upgrade_pair],
    307-381 [ensure_mappers_valid].

    Simplifications: mappings are validated models (signatures.py 250-307), so that
    both sides are [None] or have a name and one of two types, and the index is there;
    of prototypes only what the function looks at is kept; values that are only
    compared (collision boxes, masks, groups, further keys of an id) are tokens;
    the texts of warnings are constructors with the values in them. *)
From Coq Require Import ZArith String List Bool.
From Verif Require Import Common Dict Assign_Model.
Import ListNotations.

(** [MapperID]: name, type, and whatever else was given. *)
Inductive kind := Entity | Item.
Definition kind_eqb (a b : kind) : bool := match a, b with Entity, Entity | Item, Item => true | _, _ => false end.
Record mid := { m_name : pystr; m_type : kind; m_extra : Z }.
(** [BaseModel.__eq__] *)
Definition mid_eqb (a b : mid) : bool :=
  pystr_eqb (m_name a) (m_name b) && kind_eqb (m_type a) (m_type b) && Z.eqb (m_extra a) (m_extra b).
Record mapper := { from : option mid; to : option mid; index : Z }.

(** [items.raw[name]]: the flags, and whether ["hidden"] is there and true. *)
Record item := { i_flags : list pystr; i_hidden : bool }.
(** [entity["minable"]]: missing or empty; else ["results"], a list of products with
    or without a ["name"], and ["result"]. *)
Inductive mining := Unminable | Mined (results : option (list (option pystr))) (result : option pystr).
Record entity := {
  e_flags : list pystr; e_minable : mining; e_type : option pystr;
  e_box : option Z; e_mask : option Z; e_group : option Z
}.
Record world := { entities : list (pystr * entity); items : list (pystr * item) }.

Inductive reason :=
| NotUpgradable (n : pystr) | NotMinable (n : pystr) | HiddenResult (i n : pystr) | RollingStock (n : pystr)
| BoxesDiffer (a b : pystr) | MasksDiffer (a b : pystr) | GroupsDiffer (a b : pystr)
| TypesDiffer (a : pystr) (k : kind) (b : pystr) (l : kind).
Inductive warning :=
| UnknownElement (n : pystr) | NoEffect (n : pystr) | Prohibited (r : reason)
| Overwritten (i : Z) (times : Z) (f t : option pystr).

Definition mem (x : pystr) (l : list pystr) : bool := existsb (pystr_eqb x) l.
Definition tok_eqb (a b : option Z) : bool := match a, b with None, None => true | Some x, Some y => Z.eqb x y | _, _ => false end.

Section World.
Variable W : world.
(** [name not in entities.raw and name not in items.raw] 63-84 *)
Definition unrecognised (m : option mid) : list warning :=
  match m with
  | None => []
  | Some i =>
    match dget pystr_eqb (entities W) (m_name i), dget pystr_eqb (items W) (m_name i) with
    | None, None => [UnknownElement (m_name i)]
    | _, _ => []
    end
  end.
(** [[r["name"] for r in results]] *)
Fixpoint names (rs : list (option pystr)) : result (list pystr) :=
  match rs with
  | [] => Ok []
  | None :: _ => Err KeyError
  | Some n :: r => let* ns := names r in Ok (n :: ns)
  end.
(** 151-154 *)
Definition mined (results : option (list (option pystr))) (res : option pystr) : result (list pystr) :=
  match results with
  | Some rs => names rs
  | None => match res with Some n => Ok [n] | None => Err KeyError end
  end.
(** 156-164: the first hidden item *)
Fixpoint hidden (ns : list pystr) : result (option pystr) :=
  match ns with
  | [] => Ok None
  | n :: r =>
    match dget pystr_eqb (items W) n with
    | None => Err KeyError
    | Some i => if mem (str "hidden") (i_flags i) then Ok (Some n) else hidden r
    end
  end.
Definition stock : list pystr := [str "locomotive"; str "cargo-wagon"; str "fluid-wagon"; str "artillery-wagon"].
Definition is_stock (t : option pystr) : bool := match t with Some x => mem x stock | None => false end.

(** 134-214, for two prototypes *)
Definition check_entities (f t : pystr) (a b : entity) : result (option (list warning)) :=
  if mem (str "not-upgradable") (e_flags a) then Ok (Some [Prohibited (NotUpgradable f)]) else
  match e_minable a with
  | Unminable => Ok (Some [Prohibited (NotMinable f)])
  | Mined results res =>
    let* ns := mined results res in
    let* h := hidden ns in
    match h with
    | Some i => Ok (Some [Prohibited (HiddenResult i f)])
    | None =>
      if is_stock (e_type a) then Ok (Some [Prohibited (RollingStock f)])
      else if negb (tok_eqb (e_box a) (e_box b)) then Ok (Some [Prohibited (BoxesDiffer f t)])
      else if negb (tok_eqb (e_mask a) (e_mask b)) then Ok (Some [Prohibited (MasksDiffer f t)])
      else if negb (tok_eqb (e_group a) (e_group b)) then Ok (Some [Prohibited (GroupsDiffer f t)])
      else Ok None
    end
  end.
Definition check_pair (f t : option mid) : result (option (list warning)) :=
  match unrecognised f ++ unrecognised t with
  | (_ :: _) as ws => Ok (Some ws)
  | [] =>
    match f, t with
    | Some a, Some b =>
      if mid_eqb a b then Ok (Some [NoEffect (m_name a)])
      else if negb (kind_eqb (m_type a) (m_type b)) then
        Ok (Some [Prohibited (TypesDiffer (m_name a) (m_type a) (m_name b) (m_type b))])
      else match m_type a with
           | Item => Ok None
           | Entity =>
             match dget pystr_eqb (entities W) (m_name a), dget pystr_eqb (entities W) (m_name b) with
             | Some x, Some y => check_entities (m_name a) (m_name b) x y
             | _, _ => Err KeyError
             end
           end
    | _, _ => Ok None
    end
  end.

(** [occupied_indices]: how often an index was overwritten, and the last mapper. *)
Definition occupied := list (Z * (Z * mapper)).
Definition occupy (o : occupied) (m : mapper) : occupied :=
  match dget Z.eqb o (index m) with
  | Some (c, _) => dset Z.eqb o (index m) ((c + 1)%Z, m)
  | None => dset Z.eqb o (index m) (0%Z, m)
  end.
(** 318-353 *)
Fixpoint each (ms : list mapper) (ws : list warning) (o : occupied) : result (list warning * occupied) :=
  match ms with
  | [] => Ok (ws, o)
  | m :: r =>
    let* x := check_pair (from m) (to m) in
    each r (match x with Some y => ws ++ y | None => ws end) (occupy o m)
  end.
(** 355-380 *)
Definition overwritten (o : occupied) : list warning :=
  flat_map (fun e => if Z.ltb 0 (fst (snd e))
                     then [Overwritten (fst e) (fst (snd e)) (option_map m_name (from (snd (snd e)))) (option_map m_name (to (snd (snd e))))]
                     else []) o.
(** [ensure_mappers_valid]: what is added to the list of warnings. [None]: no mappers. *)
Definition ensure_mappers (md : mode) (ms : option (list mapper)) : result (list warning) :=
  match ms with
  | None => Ok []
  | Some l =>
    match md with
    | MNone | MMinimum => Ok []
    | MStrict | MPedantic => let* r := each l [] [] in Ok (fst r ++ overwritten (snd r))
    end
  end.
End World.
