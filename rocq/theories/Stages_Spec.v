(** What is expected of the load process. *)
From Coq Require Import ZArith NArith String List Bool.
From Verif Require Import Common Dict Stages_Model.
Import ListNotations.
Local Open Scope string_scope.
Local Open Scope list_scope.

(** ** Order *)
(** The phases in order: all mods for one stage before the next stage. *)
Definition plan (stages : list pystr) (order : list amod) : list (amod * pystr) :=
  flat_map (fun stage => map (fun m => (m, stage)) (filter (fun m => existsb (pystr_eqb stage) (m_stages m)) order)) stages.
(** A state in which nothing of an earlier phase is left. *)
Definition fresh (base : pystr) (cached : list (pystr * value)) : st := mkSt base [] None [] None cached [].
(** One phase after the other, each by itself: only the first one sees what was
    loaded before; the first failure ends it. *)
Inductive one_by_one (phase : amod -> pystr -> st -> st * option exn) (base : pystr) :
  list (pystr * value) -> list (amod * pystr) -> list event -> option exn -> Prop :=
| ones_end cached : one_by_one phase base cached [] [] None
| ones_stop cached m stage r s e : phase m stage (fresh base cached) = (s, Some e) ->
    one_by_one phase base cached ((m, stage) :: r) (out s) (Some e)
| ones_next cached m stage r s evs e : phase m stage (fresh base cached) = (s, None) ->
    one_by_one phase base [] r evs e -> one_by_one phase base cached ((m, stage) :: r) (out s ++ evs) e.
(** Phases that were begun, and how. *)
Definition began (evs : list event) : list (pystr * pystr) :=
  flat_map (fun e => match e with Began m stage _ _ _ _ => [(m, stage)] | _ => [] end) evs.
Definition begins_well (base : pystr) (order : list amod) (e : event) : Prop :=
  match e with
  | Began n stage p c d _ => exists m, In m order /\ m_name m = n /\ In stage (m_stages m) /\
      p = m_location m ++ str "/?.lua;" ++ base /\ c = m_location m ++ str "/" ++ stage /\ d = Some (m_location m)
  | _ => True
  end.
Definition caches (evs : list event) : list (list pystr) :=
  flat_map (fun e => match e with Began _ _ _ _ _ l => [l] | _ => [] end) evs.

(** ** Worlds *)
Definition clean (s : pystr) : Prop := ~ In SEMI s.
Definition names (c : chunk) : list pystr := flat_map (fun x => match x with Req n | Try n => [n] | Mark _ => [] end) c.
Definition clean_world (mods : list (pystr * amod)) (files : pystr -> option chunk) : Prop :=
  Forall (fun p => clean (m_location (snd p))) mods /\ forall f c, files f = Some c -> Forall clean (names c).
(** No [pcall]. *)
Definition plain_chunk (c : chunk) : Prop := forall n, ~ In (Try n) c.
Definition plain_world (files : pystr -> option chunk) : Prop := forall f c, files f = Some c -> plain_chunk c.
(** Every location is inside some folder. *)
Definition inside (l : pystr) : Prop := exists a b, a <> [] /\ l = a ++ SLASH :: b.
Definition rooted (mods : list (pystr * amod)) : Prop := Forall (fun p => inside (m_location (snd p))) mods.
(** A state inside a phase. *)
Definition ready (s : st) : Prop :=
  (exists m r, tree s = m :: r /\ dir s = Some (m_location m)) /\ Forall (fun m => clean (m_location m)) (tree s) /\ clean (cur s).
(** The search path with more in front. *)
Fixpoint in_front (extra : list pystr) (p : pystr) : pystr :=
  match extra with [] => p | x :: r => x ++ SEMI :: in_front r p end.

(** ** Finding files *)
(** The first of the templates that gives a file. *)
Inductive first_file (files : pystr -> option chunk) (norm : pystr) : list pystr -> pystr -> Prop :=
| first_here t r c : files (fill t norm) = Some c -> first_file files norm (t :: r) (fill t norm)
| first_later t r f : files (fill t norm) = None -> first_file files norm r f -> first_file files norm (t :: r) f.
(** Names that are always replaced by dummies. *)
Definition dummy_name (name norm : pystr) : Prop :=
  name = str "__base__/menu-simulations/menu-simulations" \/ (exists a b, norm = a ++ str "menu-simulations" ++ b) \/
  (exists a b, b <> [] /\ (norm = a ++ str "graphics/" ++ b \/ norm = a ++ str "sound/" ++ b)).
Definition loads (evs : list event) (name : pystr) : Prop := exists p, In (Loads name p) evs.

(** ** Settings *)
Definition at_ {V} (t : table (table V)) (ty n : pystr) : option V :=
  match dget pystr_eqb t ty with Some d => dget pystr_eqb d n | None => None end.

(** ** Names *)
Fixpoint join (c : N) (l : list pystr) : pystr := match l with [] => [] | [x] => x | x :: r => x ++ c :: join c r end.
(** Everything before the last slash. *)
Definition parent (s p : pystr) : Prop := p <> [] /\ exists q, s = p ++ SLASH :: q /\ ~ In SLASH q.
(** Letters, digits, dashes and underscores. *)
Definition name_char (c : N) : Prop :=
  (48 <= c /\ c <= 57 \/ 65 <= c /\ c <= 90 \/ 97 <= c /\ c <= 122 \/ c = 45 \/ c = 95)%N.
Definition contains (s p : pystr) : Prop := exists a b, s = a ++ p ++ b.
(** The folder that is searched before the others, for a name without a mod. *)
Inductive own_folder (m : amod) (current n : pystr) : pystr -> Prop :=
| own_inner p : parent n p -> own_folder m current n (m_location m ++ str "/" ++ p ++ str "/?.lua")
| own_beside p : ~ In SLASH n -> ~ In BACKSLASH n -> parent current p -> own_folder m current n (p ++ str "/?.lua").
(** What a [require] of a name that was not required before does first. *)
Definition finds (files : pystr -> option chunk) (name n : pystr) (templates : list pystr) (s s' : st) (r : result value) : Prop :=
  (exists f rest, first_file files n templates f /\ out s' = out s ++ Loads name f :: rest) \/
  (Forall (fun t => files (fill t n) = None) templates /\ out s' = out s /\ r = Err ValueError).

(** ** The whole process *)
(** The phases of the settings, then those of the data. *)
Definition six : list pystr :=
  map str ["settings.lua"; "settings-updates.lua"; "settings-final-fixes.lua";
           "data.lua"; "data-updates.lua"; "data-final-fixes.lua"].
Definition named_plan (stages : list pystr) (order : list amod) : list (pystr * pystr) :=
  map (fun p => (m_name (fst p), snd p)) (plan stages order).

(** Nothing of a phase is left. *)
Definition wiped (s : st) : Prop := tree s = [] /\ dir s = None /\ loaded s = [].
(** [l] is in [t] in reverse order, with others between and the rest below. *)
Fixpoint piled (l : list amod) (below t : list amod) : Prop :=
  match l with
  | [] => t = below
  | m :: r => exists more, piled r (more ++ m :: below) t
  end.
