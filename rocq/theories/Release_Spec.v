(** Independent specification for choosing the version of the data. *)
From Coq Require Import ZArith NArith String List Bool.
From Verif Require Import Common Version_Model Version_Spec Release_Model.
Import ListNotations.
Local Open Scope Z_scope.

(** [s] is read as the numbers [t]: a number between each two dots. *)
Definition read_as (s : pystr) (t : list Z) : Prop :=
  exists ws, dotted s ws /\ Forall2 (fun w z => py_int w = Ok z) ws t.

(** The text of a version of three numbers. *)
Definition text3 (a b c : Z) : pystr :=
  int_str a ++ [46%N] ++ int_str b ++ [46%N] ++ int_str c.

(** [s] asks for the version a.b.c: the first three numbers, 0 where there is
    none. *)
Definition asks (s : pystr) (a b c : Z) : Prop :=
  exists t, read_as s t /\ nth 0 t 0 = a /\ nth 1 t 0 = b /\ nth 2 t 0 = c.

(** [t] is the most recent of [tags]: none is later, and none that comes after
    it in the list is as late. *)
Definition most_recent (tags : list tag) (t : tag) : Prop :=
  exists l1 l2, tags = l1 ++ t :: l2 /\
    (forall u, In u l1 -> t_time u <= t_time t) /\
    (forall u, In u l2 -> t_time u < t_time t).

(** No two tags have the same name. *)
Definition names_differ (r : repo) : Prop := NoDup (map t_name (r_tags r)).

(** HEAD is at a tag. *)
Definition at_tag (r : repo) : Prop := exists t, In t (r_tags r) /\ t_commit t = r_head r.

(** Only HEAD may differ. *)
Definition same_but_head (r r' : repo) : Prop := r_url r' = r_url r /\ r_tags r' = r_tags r.

(** A printed line, a change of HEAD. *)
Definition is_print (e : event) : Prop := exists s, e = Printed s.
Definition is_checkout (e : event) : Prop := exists v, e = CheckedOut v.

(** The version file is read back: what stands between the quotes and between
    the parentheses. *)
Definition holds_version (text v : pystr) (t : list Z) : Prop :=
  exists pre mid inner post,
    text = pre ++ [34%N] ++ v ++ [34%N] ++ mid ++ [40%N] ++ inner ++ [41%N] ++ post /\
    ~ In 34%N pre /\ ~ In 34%N v /\ ~ In 92%N v /\ ~ In 40%N pre /\ ~ In 40%N v /\ ~ In 40%N mid /\
    ~ In 41%N inner /\
    exists ws, inner = join_with [44%N] ws /\
      Forall (fun w => ~ In 44%N w) ws /\
      (Forall2 (fun w z => py_int w = Ok z) ws t \/
       exists x w, t = [x] /\ ws = [w; []] /\ py_int w = Ok x).

(** Nothing but these names differs between two installations. *)
Definition same_except (names : list pystr) (f g : files) : Prop :=
  forall n, ~ In n names -> g n = f n.

(** The repository as it is after fetching the tags [tags]. *)
Definition with_tags (r : repo) (tags : list tag) : repo := Repo (r_url r) tags (r_head r).

(** What is printed of one kind of settings: nothing if there are none. *)
Definition block (header : pystr) (l : list (pystr * setting)) : list pystr :=
  match l with
  | [] => []
  | _ => header :: map (fun kv : pystr * setting =>
           [9%N] ++ fst kv ++ str ": " ++
           match snd kv with SStr s => str "'" ++ s ++ str "'" | SOther s => s end) l
  end.

(** The files of the data in the order in which an update writes them. *)
Definition in_order : list pystr :=
  [str "mods.pkl"; str "entities.pkl"; str "fluids.pkl"; str "instruments.pkl"; str "items.pkl";
   str "modules.pkl"; str "planets.pkl"; str "recipes.pkl"; str "signals.pkl"; str "tiles.pkl"].
