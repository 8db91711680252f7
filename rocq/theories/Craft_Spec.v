(** What machines should take (C66). *)
From Coq Require Import ZArith QArith List Bool String.
From Verif Require Import Common Dict Ranking_Model Craft_Model.
Import ListNotations.
Local Open Scope string_scope.
Local Open Scope list_scope.

(** The name an ingredient has. *)
Definition named (i : ing) (n : pystr) : Prop := i = IList (Some n) \/ i = IDict (Some n).
(** The ingredients of a recipe. *)
Definition cost (r : recipe) (expensive : bool) : option (list ing) :=
  match rc_ingredients r with
  | Some l => Some l
  | None => dget pystr_eqb (rc_costs r) (if expensive then str "expensive" else str "normal")
  end.
Definition takes (r : recipe) (x : pystr) : Prop := exists l i, cost r false = Some l /\ In i l /\ named i x.
(** All its ingredients are there and have names. *)
Definition complete (r : recipe) : Prop := exists l, cost r false = Some l /\ forall i, In i l -> exists n, named i n.

(** The recipe is one the module may be used with. *)
Definition permits (m : modul) (recipe : option pystr) : Prop :=
  forall r, recipe = Some r ->
    (forall l, mo_limit m = Some l -> In r l) /\ (forall b, mo_black m = Some b -> ~ In r b).
(** ... and every effect it raises is allowed. *)
Definition fits (m : modul) (allowed : list pystr) (recipe : option pystr) : Prop :=
  permits m recipe /\
  exists e, mo_effect m = Some e /\ forall x v, In (x, v) e -> (0 < v)%Q -> In x allowed.

Definition category_of (r : recipe) : pystr := match rc_category r with Some c => c | None => str "crafting" end.
(** Every key is the name of its prototype. *)
Definition recipes_ok (recipes : sdict recipe) : Prop :=
  NoDup (map fst recipes) /\ forall n r, In (n, r) recipes -> p_name (rc_proto r) = Some n.
Definition modules_ok (modules : sdict modul) : Prop :=
  NoDup (map fst modules) /\ forall n m, In (n, m) modules -> p_name (mo_proto m) = Some n.

(** Every module is listed under its category. *)
Definition listed (t : mtables) : Prop :=
  forall n m c, dget pystr_eqb (mt_raw t) n = Some m -> mo_category m = Some c ->
    exists l, dget pystr_eqb (mt_categories t) c = Some l /\ In n l.

(** Additions; a category that is there already is not added again. *)
Inductive addition :=
| ACategory (name : pystr)
| AModule (name category : pystr) (effect : option (sdict Q)) (tier : option Z) (limit black : option (list pystr)).
Definition perform (t : mtables) (a : addition) : result mtables :=
  match a with
  | ACategory n => Ok (add_module_category t n)
  | AModule n c e k l b => add_module t n c e k l b
  end.
(** An addition that fails changes nothing. *)
Definition perform_all (l : list addition) (t : mtables) : mtables :=
  fold_left (fun t a => match perform t a with Ok t' => t' | Err _ => t end) l t.
Fixpoint fresh_categories (known : list pystr) (l : list addition) : Prop :=
  match l with
  | [] => True
  | ACategory n :: r => ~ In n known /\ fresh_categories (n :: known) r
  | AModule _ _ _ _ _ _ :: r => fresh_categories known r
  end.
