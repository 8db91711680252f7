(** Tables of the game's data, fluids and tiles (C69). *)
From Coq Require Import ZArith QArith List Bool String.
From Verif Require Import Common Dict Ranking_Spec Shelf_Model Shelf_Spec Table_Model.
Import ListNotations.
Local Open Scope string_scope.
Local Open Scope list_scope.

(** ** Lua tables *)
(** Lua numbers the elements of a list from one. *)
Fixpoint numbered {A} (n : Z) (l : list A) : list (lkey * A) :=
  match l with [] => [] | x :: r => (KInt n, x) :: numbered (n + 1) r end.
(** A Python value written in Lua. *)
Fixpoint lua_of (v : pyv) : lua :=
  match v with
  | PVal x => LVal x
  | PList l => LTab (numbered 1 (map lua_of l))
  | PDict d => LTab (map (fun e => (fst e, lua_of (snd e))) d)
  end.
(** Dictionaries have some key that is a string, at every depth. *)
Inductive named : pyv -> Prop :=
| named_val : forall x, named (PVal x)
| named_list : forall l, (forall v, In v l -> named v) -> named (PList l)
| named_dict : forall d, (forall k v, In (k, v) d -> named v) -> (exists s v, In (KStr s, v) d) -> named (PDict d).
(** Tables either have such a key or are numbered from one, at every depth. *)
Inductive orderly : lua -> Prop :=
| orderly_val : forall x, orderly (LVal x)
| orderly_dict : forall d, (forall k v, In (k, v) d -> orderly v) -> (exists s v, In (KStr s, v) d) -> orderly (LTab d)
| orderly_list : forall l, (forall v, In v l -> orderly v) -> orderly (LTab (numbered 1 l)).

(** ** Tiles *)
Inductive key_reads : lkey -> scalar -> Prop :=
| kr_int : forall z, key_reads (KInt z) (SNum (inject_Z z))
| kr_str : forall s, key_reads (KStr s) (SStr s).
(** What the mask of a tile shows: the keys of a table that has a string for a
    key, else its values; the characters of a string. *)
Inductive shows : lua -> scalar -> Prop :=
| shows_key : forall d s v k w x, In (KStr s, v) d -> In (k, w) d -> key_reads k x -> shows (LTab d) x
| shows_value : forall d k x, (forall s v, ~ In (KStr s, v) d) -> In (k, LVal x) d -> shows (LTab d) x
| shows_char : forall s c, In c s -> shows (LVal (SStr s)) (SStr [c]).
(** Masks that can be made sets: no numbers or truth values, and no lists of tables. *)
Definition settable (m : lua) : Prop :=
  match m with
  | LVal (SStr _) => True
  | LVal _ => False
  | LTab d => (exists s v, In (KStr s, v) d) \/ forall k v, In (k, v) d -> exists x, v = LVal x
  end.
Definition good_tile (t : raw_tile) : Prop := exists m, rt_mask t = Some m /\ settable m.
Definition kept (t : raw_tile) (t' : tile) : Prop :=
  t_order t' = rt_order t /\ exists m, rt_mask t = Some m /\ forall x, In x (t_mask t') <-> shows m x.
Definition tile_place (p : pystr * tile) : place := (t_order (snd p), fst p).
Definition added (raw : sdict tile) (ops : list (pystr * list scalar)) : sdict tile :=
  fold_left (fun r o => add_tile r (fst o) (snd o)) ops raw.
(** The last one of a name. *)
Fixpoint last_of {A} (n : pystr) (l : list (pystr * A)) : option A :=
  match l with
  | [] => None
  | (m, x) :: r => match last_of n r with Some y => Some y | None => if pystr_eqb m n then Some x else None end
  end.

(** ** Fluids *)
Definition addition := (pystr * option pystr * temps)%type.
Definition supplied (raw : sdict fluid) (ops : list addition) : sdict fluid :=
  fold_left (fun r o => add_fluid r (fst (fst o)) (snd (fst o)) (snd o)) ops raw.
(** What the additions of a fluid say last about something. *)
Fixpoint told {A} (f : temps -> option A) (n : pystr) (ops : list addition) : option A :=
  match ops with
  | [] => None
  | (m, _, kw) :: r => match told f n r with Some y => Some y | None => if pystr_eqb m n then f kw else None end
  end.
Fixpoint order_told (n : pystr) (ops : list addition) : option pystr :=
  match ops with
  | [] => None
  | (m, o, _) :: r =>
      match order_told n r with
      | Some y => Some y
      | None => if pystr_eqb m n then Some (match o with Some o => o | None => [] end) else None
      end
  end.
Definition about (n : pystr) (ops : list addition) : Prop := exists o kw, In (n, o, kw) ops.
