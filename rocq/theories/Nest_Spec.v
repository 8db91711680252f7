(** What is said about lists in lists. *)
From Coq Require Import ZArith List Bool Permutation.
From Verif Require Import Common Dict Spatial_Model Nest_Model.
From Verif Require Spatial_Spec.
Import ListNotations.
Local Open Scope Z_scope.

(** The entities in a list and below, where they stand relative to its owner. *)
Fixpoint standing (r : zpt) (n : node) : list thing :=
  match n with
  | Leaf o k p b => [mkThing o k (fst r + fst p, snd r + snd p) b]
  | Group _ p ms _ => flat_map (standing (fst r + fst p, snd r + snd p)) ms
  end.
Definition all_standing (ms : list node) : list thing := flat_map (standing (0, 0)) ms.

(** The cell of the map an entity touches, its owner being at [d]. *)
Definition touches (cs eps : Z) (d c : zpt) (t : thing) : bool :=
  match t_box t with
  | None => false
  | Some b =>
      let x := fst d + fst (t_place t) in
      let y := snd d + snd (t_place t) in
      (bl b + x <? (fst c + 1) * cs) && (fst c * cs <=? br b + x - eps)
      && (bt b + y <? (snd c + 1) * cs) && (snd c * cs <=? bb b + y - eps)
  end.
Definition in_cell (ix : index) (c : zpt) : list thing := match cell_get ix c with Some l => l | None => [] end.
Definition tally (f : thing -> bool) (l : list thing) : nat := length (filter f l).

(** The map is that of the list with its owner at [d]: every cell has as many things
    equal to any [x] as there are in the list and below that touch it. *)
Definition faithful (cs eps : Z) (d : zpt) (ms : list node) (ix : index) : Prop :=
  forall x c, tally (same x) (in_cell ix c) = tally (fun t => same x t && touches cs eps d c t) (all_standing ms).
(** The same by objects. *)
Definition exact (cs eps : Z) (d : zpt) (ms : list node) (ix : index) : Prop :=
  forall c, Permutation (in_cell ix c) (filter (touches cs eps d c) (all_standing ms)).
(** No thing is there twice. *)
Definition distinct (l : list thing) : Prop := ForallOrdPairs (fun a b => same a b = false) l.

(** Operations on the list itself that know where the owner is. *)
Definition plain (off : zpt) (o : op) : Prop :=
  match o with
  | Insert _ d _ | Replace _ d _ => d = off
  | Delete _ | Clear => True
  | RecursiveRemove _ => False
  end.
Definition brought (o : op) : list thing :=
  match o with Insert _ _ n | Replace _ _ n => standing (0, 0) n | _ => [] end.
(** Operations that only bring things without a parent. *)
Definition brings (o : op) : Prop := match o with Insert _ d _ => d = (0, 0) | _ => False end.

(** The list of the group at a path: where it is, its members, its map. *)
Inductive list_at : list nat -> zpt -> state -> zpt -> state -> Prop :=
| at_here off s : list_at [] off s off s
| at_below i path off s g p ms ix off' s' : nth_error (fst s) i = Some (Group g p ms ix) ->
    list_at path (fst off + fst p, snd off + snd p) (ms, ix) off' s' -> list_at (i :: path) off s off' s'.
Definition prefix (a b : list nat) : Prop := exists r, b = a ++ r.

(** Members of a list, and of lists below. *)
Inductive deep : zpt -> list node -> zpt -> node -> Prop :=
| deep_here off ms n : In n ms -> deep off ms off n
| deep_below off ms g p l ix off' n : In (Group g p l ix) ms -> deep (fst off + fst p, snd off + snd p) l off' n -> deep off ms off' n.
(** The same object, or an entity of the same kind at the same global position. *)
Definition is_it (off : zpt) (q : item) (n : node) : Prop :=
  match n with
  | Leaf o k p _ => o = i_object q \/ i_look q = Some (k, (fst off + fst p, snd off + snd p))
  | Group o _ _ _ => o = i_object q
  end.
(** The first such member, or the first of the first group that has one. *)
Inductive removal (cs eps : Z) (off : zpt) (q : item) (s : state) : out -> Prop :=
| r_here a n b ix' : fst s = a ++ n :: b -> is_it off q n -> Forall (fun m => ~ is_it off q m) a ->
    delete cs eps off s (Z.of_nat (length a)) = ((a ++ b, ix'), None) ->
    removal cs eps off q s ((a ++ b, ix'), None)
| r_below a g p l ix b l1 n l2 ix' : fst s = a ++ Group g p l ix :: b ->
    Forall (fun m => ~ is_it off q m) (fst s) ->
    Forall (fun m => match m with Group _ p' l' _ => Forall (fun x => ~ is_it (fst off + fst p', snd off + snd p') q x) l' | _ => True end) a ->
    l = l1 ++ n :: l2 -> is_it (fst off + fst p, snd off + snd p) q n ->
    Forall (fun x => ~ is_it (fst off + fst p, snd off + snd p) q x) l1 ->
    delete cs eps (fst off + fst p, snd off + snd p) (l, ix) (Z.of_nat (length l1)) = ((l1 ++ l2, ix'), None) ->
    removal cs eps off q s ((a ++ Group g p (l1 ++ l2) ix' :: b, snd s), None)
| r_none : Forall (fun m => ~ is_it off q m) (fst s) ->
    Forall (fun m => match m with Group _ p' l' _ => Forall (fun x => ~ is_it (fst off + fst p', snd off + snd p') q x) l' | _ => True end) (fst s) ->
    removal cs eps off q s (s, Some ValueError).
(** World boxes, and boxes that share more than the margin. *)
Definition world (off : zpt) (t : thing) (b : zbox) : Prop :=
  exists l, t_box t = Some l /\
    b = mkZ (bl l + (fst off + fst (t_place t))) (bt l + (snd off + snd (t_place t))) (br l + (fst off + fst (t_place t))) (bb l + (snd off + snd (t_place t))).
Definition meet (a b : zbox) : Prop := bl a < br b /\ bl b < br a /\ bt a < bb b /\ bt b < bb a.
Definition overlap (eps : Z) (a b : zbox) : Prop :=
  bl a <= br a - eps /\ bt a <= bb a - eps /\ bl b <= br b - eps /\ bt b <= bb b - eps
  /\ bl a <= br b - eps /\ bl b <= br a - eps /\ bt a <= bb b - eps /\ bt b <= bb a - eps.
(** An entity that touches a cell wherever it is. *)
Definition solid (eps : Z) (t : thing) : Prop := exists b, t_box t = Some b /\ bl b + eps <= br b /\ bt b + eps <= bb b.

(** A map with one entry per cell, none of them empty. *)
Definition well (ix : index) : Prop := NoDup (map fst ix) /\ forall c, cell_get ix c <> Some [].
(** What is left of the things [l] in the cell [c] when [ts] are taken out by an owner
    at [d]: for each that touches the cell the first that is the same. *)
Fixpoint left_over (cs eps : Z) (d c : zpt) (l ts : list thing) : list thing :=
  match ts with
  | [] => l
  | t :: ts' => left_over cs eps d c (if touches cs eps d c t then Spatial_Spec.drop_first same l t else l) ts'
  end.
