(** Worlds in which files are not found as expected. *)
From Coq Require Import ZArith NArith String List Bool.
From Verif Require Import Common Dict Stages_Model Stages_Spec.
Import ListNotations.
Local Open Scope string_scope.
Local Open Scope list_scope.

Definition world_of (l : list (string * chunk)) (p : pystr) : option chunk := dget pystr_eqb (map (fun e => (str (fst e), snd e)) l) p.
Definition w_mod : amod := mkMod (str "m") (str "/mods/m") false [str "data.lua"].
Definition w_phase (l : list (string * chunk)) := run_mod_phase [(str "m", w_mod)] (world_of l) (fun _ _ => true) 5 w_mod (str "data.lua") (fresh (str "?.lua") []).

Definition w_sibling : list (string * chunk) :=
  [("/mods/m/data.lua", [Req (str "lib.a")]); ("/mods/m/lib/a.lua", [Req (str "b")]); ("/mods/m/lib/b.lua", []); ("/mods/m/b.lua", [])].
Definition w_doubled : list (string * chunk) :=
  [("/mods/m/data.lua", [Req (str "lib.a")]); ("/mods/m/lib/a.lua", []); ("/mods/m/lib/lib/a.lua", [])].
Definition w_cached : list (string * chunk) :=
  [("/mods/m/data.lua", [Req (str "one.go"); Req (str "two.go")]); ("/mods/m/one/go.lua", [Req (str "util")]); ("/mods/m/two/go.lua", [Req (str "util")]);
   ("/mods/m/one/util.lua", []); ("/mods/m/two/util.lua", [])].
Definition w_caught : list (string * chunk) := [("/mods/m/data.lua", [Try (str "no.such")])].

Lemma sibling : exists files s', run_mod_phase [(str "m", w_mod)] files (fun _ _ => true) 5 w_mod (str "data.lua") (fresh (str "?.lua") []) = (s', None) /\
  files (str "/mods/m/lib/a.lua") = Some [Req (str "b")] /\ files (str "/mods/m/lib/b.lua") = Some [] /\
  In (Loads (str "lib.a") (str "/mods/m/lib/a.lua")) (out s') /\ In (Got (str "b") (File (str "/mods/m/b.lua"))) (out s').
Proof.
  exists (world_of w_sibling), (fst (w_phase w_sibling)). split; [vm_compute; reflexivity|]. split; [vm_compute; reflexivity|]. split; [vm_compute; reflexivity|].
  split; vm_compute; auto 10.
Qed.
Lemma doubled : exists files s', run_mod_phase [(str "m", w_mod)] files (fun _ _ => true) 5 w_mod (str "data.lua") (fresh (str "?.lua") []) = (s', None) /\
  files (str "/mods/m/data.lua") = Some [Req (str "lib.a")] /\ files (str "/mods/m/lib/a.lua") = Some [] /\
  In (Got (str "lib.a") (File (str "/mods/m/lib/lib/a.lua"))) (out s').
Proof.
  exists (world_of w_doubled), (fst (w_phase w_doubled)). split; [vm_compute; reflexivity|]. split; [vm_compute; reflexivity|]. split; [vm_compute; reflexivity|].
  vm_compute; auto 10.
Qed.
Lemma cached_across : exists files s', run_mod_phase [(str "m", w_mod)] files (fun _ _ => true) 5 w_mod (str "data.lua") (fresh (str "?.lua") []) = (s', None) /\
  files (str "/mods/m/two/go.lua") = Some [Req (str "util")] /\ files (str "/mods/m/two/util.lua") = Some [] /\ files (str "/mods/m/util.lua") = None /\
  exists before after, out s' = before ++ [Loads (str "two.go") (str "/mods/m/two/go.lua"); Got (str "util") (File (str "/mods/m/one/util.lua"))] ++ after.
Proof.
  exists (world_of w_cached), (fst (w_phase w_cached)). split; [vm_compute; reflexivity|]. split; [vm_compute; reflexivity|]. split; [vm_compute; reflexivity|].
  split; [vm_compute; reflexivity|]. exists (firstn 5 (out (fst (w_phase w_cached)))), (skipn 7 (out (fst (w_phase w_cached)))). vm_compute. reflexivity.
Qed.
Lemma caught : exists files s', run_mod_phase [(str "m", w_mod)] files (fun _ _ => true) 5 w_mod (str "data.lua") (fresh (str "?.lua") []) = (s', None) /\
  path s' = in_front [str "/mods/m/no/?.lua"] (path (begun w_mod (str "data.lua") (fresh (str "?.lua") []))).
Proof.
  exists (world_of w_caught), (fst (w_phase w_caught)). split; vm_compute; reflexivity.
Qed.
Lemma suffix : forall mods, normalize mods (str "my-lua") = Ok (str "my", false).
Proof. intros mods. reflexivity. Qed.
