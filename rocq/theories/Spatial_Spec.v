(** Specification of a spatial map: a bag of items in insertion order. *)
From Coq Require Import ZArith List Bool.
From Verif Require Import Spatial_Model.
Import ListNotations.
Local Open Scope Z_scope.

(** The items inserted and not removed since; removal takes the first equal
    item. *)
Fixpoint drop_first {item} (ieq : item -> item -> bool) (l : list item) (it : item) : list item :=
  match l with
  | [] => []
  | x :: l' => if ieq x it then l' else x :: drop_first ieq l' it
  end.
Definition bag_op {item} (ieq : item -> item -> bool) (s : list item) (o : map_op item) : list item :=
  match o with
  | MAdd it => s ++ [it]
  | MRemove it => drop_first ieq s it
  | MClear => []
  end.
Definition bag {item} (ieq : item -> item -> bool) (ops : list (map_op item)) : list item :=
  fold_left (bag_op ieq) ops [].

(** Cell [(i,j)], that is [[i*cs,(i+1)*cs) x [j*cs,(j+1)*cs)], is reached by the
    box once its right and bottom edges are pulled in by [eps]. *)
Definition touches (cs eps : Z) (b : zbox) (c : zpt) : Prop :=
  (bl b < (fst c + 1) * cs /\ fst c * cs <= br b - eps) /\
  (bt b < (snd c + 1) * cs /\ snd c * cs <= bb b - eps).
Definition item_touches {item} cs eps (box : item -> option zbox) (c : zpt) (it : item) : Prop :=
  exists b, box it = Some b /\ touches cs eps b c.

Definition in_zbox (p : zpt) (b : zbox) : Prop :=
  bl b <= fst p <= br b /\ bt b <= snd p <= bb b.
Definition boxes_meet (a b : zbox) : Prop :=
  bl a < br b /\ bl b < br a /\ bt a < bb b /\ bt b < bb a.
Definition within (p : zpt) (r : Z) (c : zpt) : Prop :=
  (fst p - fst c) ^ 2 + (snd p - snd c) ^ 2 <= r ^ 2.

(** A cell seam between the last [eps] of the box and the point. *)
Definition seam (cs eps : Z) (p : zpt) (b : zbox) : Prop :=
  exists k, br b - eps < k * cs <= fst p \/ bb b - eps < k * cs <= snd p.

Definition limited {A} (limit : option Z) (l : list A) : list A :=
  match limit with None => l | Some n => firstn (Z.to_nat n) l end.
