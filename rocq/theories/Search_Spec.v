(** Specification of filtered searches. *)
From Coq Require Import ZArith List Bool.
From Verif Require Import Common Spatial_Model Search_Model Spatial_Spec.
Import ListNotations.

(** [r] consists of the members of [l] with property [P], in their order. *)
Inductive selected {A} (P : A -> Prop) : list A -> list A -> Prop :=
| sel_none : selected P [] []
| sel_keep : forall x l r, P x -> selected P l r -> selected P (x :: l) (x :: r)
| sel_drop : forall x l r, ~ P x -> selected P l r -> selected P (x :: l) r.

Definition allows {A} (w : wanted A) (a : option A) : Prop :=
  match w with
  | Absent => True
  | One b => a = Some b
  | Several l => exists b, a = Some b /\ In b l
  end.
(** An item meets the criteria. *)
Definition meets {item} (name kind : item -> pystr) (direction : item -> option Z) (c : criteria) (it : item) : Prop :=
  allows (names c) (Some (name it)) /\ allows (types c) (Some (kind it)) /\ allows (directions c) (direction it).
(** … or, inverted, does not. *)
Definition wants {item} (name kind : item -> pystr) (direction : item -> option Z) (inv : bool) (c : criteria) (it : item) : Prop :=
  if inv then ~ meets name kind direction c it else meets name kind direction c it.

(** The item's box contains the point, and no cell seam lies between the point
    and the box's last [eps]. *)
Definition found_at {item} (cs eps : Z) (box : item -> option zbox) (p : zpt) (it : item) : Prop :=
  exists b, box it = Some b /\ in_zbox p b /\ ~ seam cs eps p b.
