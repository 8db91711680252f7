(** The text of a dependency and asking for one: /repo/draftsman/environment/mod_list.py
    22-28 [Dependency.__str__] and 136-140 [Mod.depends_on]. *)
From Coq Require Import ZArith NArith List Bool String.
From Verif Require Import Common Manage_Model.
Import ListNotations.
Local Open Scope string_scope.
Local Open Scope list_scope.

(** [x if x else ""] for a text or [None]. *)
Definition or_empty (x : option pystr) : pystr := match x with Some s => s | None => [] end.
(** 22-28.  A missing name would be printed as "None". *)
Definition dependency_str (d : dependency) : pystr :=
  or_empty (d_flag d) ++ [SPACE] ++ match d_name d with Some n => n | None => str "None" end ++ [SPACE] ++
  or_empty (d_operation d) ++ [SPACE] ++ or_empty (d_version d).
(** 136-140. *)
Definition depends_on (deps : list dependency) (mod_name : pystr) : bool :=
  existsb (fun d => match d_name d with Some n => pystr_eqb n mod_name | None => false end) deps.
