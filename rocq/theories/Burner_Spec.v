(** What burns, and what is to be said about requests. *)
From Coq Require Import ZArith String List Bool.
From Verif Require Import Common Dict Assign_Model Burner_Model.
Import ListNotations.

(** Entity [n] takes its energy from [s]. *)
Definition source_of (W : world) (k : kind) (n : pystr) (s : source) : Prop :=
  exists p, dget pystr_eqb (w_entities W) n = Some p /\
  match k with
  | BurnerGenerator => p_burner p = Some s
  | _ => p_energy p = Some s /\ s_type s = Some (str "burner")
  end.
(** Fuel of category [c] goes into [s]. *)
Definition takes (s : source) (c : pystr) : Prop :=
  (exists cs, s_categories s = Some cs /\ In c cs) \/
  (s_categories s = None /\ s_category s = Some c) \/
  (s_categories s = None /\ s_category s = None /\ c = str "chemical").
Definition fuel_of (f : fuels) (c i : pystr) : Prop := exists l, dget pystr_eqb f c = Some l /\ In i l.
Definition burns (W : world) (k : kind) (n i : pystr) : Prop :=
  exists s c, source_of W k n s /\ takes s c /\ fuel_of (w_fuels W) c i.

(** The data of a known entity are complete. *)
Definition complete (W : world) (k : kind) (n : pystr) : Prop :=
  exists p, dget pystr_eqb (w_entities W) n = Some p /\
  match k with
  | BurnerGenerator => p_burner p <> None
  | _ => exists s, p_energy p = Some s /\ s_type s <> None
  end /\
  forall s c, source_of W k n s -> takes s c -> exists l, dget pystr_eqb (w_fuels W) c = Some l.

(** Above MINIMUM. *)
Definition strict (m : mode) : Prop := m = MStrict \/ m = MPedantic.

(** An entry that says which item it wants. *)
Inductive wants : entry -> option pystr -> Prop :=
| wants_long n z : wants (Plain (Some (Long (Some n))) z) n
| wants_model r : wants (Model r) (r_name r).

(** What is to be said about items in order: [all] is every fuel, [l] what the entity burns. *)
Inductive said (all l : list pystr) : list (option pystr) -> list warning -> Prop :=
| said_nil : said all l [] []
| said_wrong n r ws : In n all -> ~ In n l -> said all l r ws -> said all l (Some n :: r) (FuelLimitation n l :: ws)
| said_right n r ws : In n l -> said all l r ws -> said all l (Some n :: r) ws
| said_other n r ws : ~ In n all -> said all l r ws -> said all l (Some n :: r) ws
| said_nothing r ws : said all l r ws -> said all l (None :: r) ws.

(** The conversion keeps the names. *)
Definition faithful (E : env) : Prop :=
  forall m es ws rs ns, convert E m (VList es) = (ws, Some (Some rs)) -> Forall2 wants es ns -> map r_name rs = ns.

(** A known entity of which the source, or the kind of its source, is not given. *)
Definition sourceless (W : world) (k : kind) (n : pystr) : Prop :=
  exists p, dget pystr_eqb (w_entities W) n = Some p /\
  match k with
  | BurnerGenerator => p_burner p = None
  | _ => p_energy p = None \/ exists s, p_energy p = Some s /\ s_type s = None
  end.

(** An entry of which the item cannot be read, and what that raises. *)
Inductive nameless : entry -> exn -> Prop :=
| nameless_id z : nameless (Plain None z) KeyError
| nameless_name z : nameless (Plain (Some (Long None)) z) KeyError
| nameless_short s z : nameless (Plain (Some (Short s)) z) TypeError
| nameless_text s : nameless (Text s) TypeError
| nameless_thing z : nameless (Thing z) TypeError.

(** One warning for each that is to be warned of, in order. *)
Inductive warned (bad : pystr -> Prop) : list pystr -> list warning -> Prop :=
| warned_nil : warned bad [] []
| warned_bad x r ws : bad x -> warned bad r ws -> warned bad (x :: r) (ItemLimitation x :: ws)
| warned_good x r ws : ~ bad x -> warned bad r ws -> warned bad (x :: r) ws.
