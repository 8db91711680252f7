(** What may be placed or made on a surface (C68): /repo/draftsman/data/planets.py
    15-38, utils.py 882-902, data/recipes.py 75-84, classes/entity.py 647-658 and
    688-698.

    Numbers are rationals. Of a planet the numeric fields and the nested table
    [surface_properties] are kept; of entities and recipes their conditions. *)
From Coq Require Import QArith List Bool String.
From Verif Require Import Common Dict Ranking_Model.
Import ListNotations.
Local Open Scope string_scope.
Local Open Scope list_scope.

Definition sdict := dict pystr.
Record planet := mkPlanet { p_fields : sdict Q; p_surface : sdict Q }.
(** [surface.get(key, default)] *)
Definition get_or (d : sdict Q) (k : pystr) (x : Q) : Q := match dget pystr_eqb d k with Some v => v | None => x end.

(** planets.py 23-38. *)
Definition get_surface_properties (raw : sdict planet) (name : pystr) : sdict Q :=
  match dget pystr_eqb raw name with
  | None => []
  | Some p =>
      [(str "solar-power", get_or (p_fields p) (str "solar-power") 100);
       (str "magnetic-field", get_or (p_fields p) (str "magnetic-field") 90);
       (str "pressure", get_or (p_fields p) (str "pressure") 1000);
       (str "gravity", get_or (p_fields p) (str "gravity") 10)]
  end.

(** A missing bound is infinite. *)
Record condition := mkCond { c_property : option pystr; c_min : option Q; c_max : option Q }.
Definition above (m : option Q) (v : Q) : bool := match m with Some x => Qle_bool x v | None => true end.
Definition below (m : option Q) (v : Q) : bool := match m with Some x => Qle_bool v x | None => true end.
(** utils.py 891-902. *)
Fixpoint passes_all (l : list condition) (props : sdict Q) : result bool :=
  match l with
  | [] => Ok true
  | c :: l' =>
      let* p := need (c_property c) in
      match dget pystr_eqb props p with
      | Some v => if above (c_min c) v && below (c_max c) v then passes_all l' props else Ok false
      | None => passes_all l' props
      end
  end.
Definition passes_surface_conditions (l : option (list condition)) (props : sdict Q) : result bool :=
  match l with None => Ok true | Some l => passes_all l props end.

(** classes/entity.py 647-658: registered entities with their conditions, if any;
    [{}] is as good as an empty list. *)
Definition surface_conditions (entities : sdict (option (list condition))) (name : pystr) : option (list condition) :=
  match dget pystr_eqb entities name with
  | None => None
  | Some None => Some []
  | Some (Some l) => Some l
  end.
(** 688-698. *)
Definition is_placable_on (raw : sdict planet) (entities : sdict (option (list condition))) (name surface : pystr) : result bool :=
  passes_surface_conditions (surface_conditions entities name) (get_surface_properties raw surface).
(** recipes.py 75-84. *)
Definition is_usable_on (raw : sdict planet) (recipes : sdict (option (list condition))) (name surface : pystr) : result bool :=
  let* r := need (dget pystr_eqb recipes name) in
  match r with
  | None => Ok true
  | Some l => passes_surface_conditions (Some l) (get_surface_properties raw surface)
  end.
