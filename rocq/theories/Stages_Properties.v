(** C80: the phases of the load process, and the files that are found. *)
From Coq Require Import ZArith NArith String List Bool.
From Verif Require Import Common Dict Stages_Model Stages_Spec Stages_Proofs Stages_Phase_Proofs Stages_Cycle_Proofs Stages_Find_Proofs Stages_Witness_Proofs.
Import ListNotations.
Local Open Scope string_scope.
Local Open Scope list_scope.

(** ** Phases *)
(** What happens in a phase is what happens when it is run by itself: nothing that
    earlier phases left in the search path, the tree or the cache is seen. *)
Theorem C80_isolated : forall mods files same, rooted mods -> forall fuel base wipe stages order s s' r,
  run_stages mods files same fuel base wipe stages order s = (s', r) ->
  exists evs, out s' = out s ++ evs /\ one_by_one (run_mod_phase mods files same fuel) base (loaded s) (plan stages order) evs r.
Proof. exact stages_ones. Qed.
Print Assumptions C80_isolated.
(** Phases begin in order, up to the first failure, each with its own folder first. *)
Theorem C80_order : forall mods files same, rooted mods -> forall fuel base wipe stages order s s' r,
  run_stages mods files same fuel base wipe stages order s = (s', r) ->
  exists evs, out s' = out s ++ evs /\ (exists k, began evs = firstn k (map (fun p => (m_name (fst p), snd p)) (plan stages order))) /\
    (r = None -> began evs = map (fun p => (m_name (fst p), snd p)) (plan stages order)) /\
    Forall (begins_well base order) evs /\
    (caches evs = [] \/ exists l, caches evs = map fst (loaded s) :: l /\ Forall (eq []) l).
Proof. exact stages_order. Qed.
Print Assumptions C80_order.
Theorem C80_archives : forall mods files same fuel m stage s, m_archive m = true ->
  exists s', run_mod_phase mods files same fuel m stage s = (s', Some AttributeError).
Proof. exact archives. Qed.
Print Assumptions C80_archives.

(** The whole process: the six stages in order, up to the first failure. *)
Theorem C80_lifecycle : forall mods files same, rooted mods -> forall fuel base order s s' r,
  lifecycle mods files same fuel base order s = (s', r) ->
  exists evs, out s' = out s ++ evs /\ (exists k, began evs = firstn k (named_plan six order)) /\
    (r = None -> began evs = named_plan six order).
Proof. exact lifecycle_order. Qed.
Print Assumptions C80_lifecycle.
(** Each phase by itself, except that the first data phase finds what was loaded
    between settings and data. *)
Theorem C80_lifecycle_isolated : forall mods files same, rooted mods -> forall fuel base order s s',
  lifecycle mods files same fuel base order s = (s', None) ->
  exists e1 u v e2 e3,
    require mods files same fuel (str "compatibility.serpent") u = (v, Ok e2) /\
    one_by_one (run_mod_phase mods files same fuel) base (loaded s) (plan (firstn 3 six) order) e1 None /\
    out u = out s ++ e1 /\
    one_by_one (run_mod_phase mods files same fuel) base (loaded v) (plan (skipn 3 six) order) e3 None /\
    out s' = out v ++ e3.
Proof. exact lifecycle_alone. Qed.
Print Assumptions C80_lifecycle_isolated.
(** Nothing is left of the mods after a data phase, nor of the process if there was one ... *)
Theorem C80_wiped : forall mods files same fuel base stages order s s',
  run_stages mods files same fuel base true stages order s = (s', None) -> plan stages order <> [] -> wiped s'.
Proof. exact data_left. Qed.
Print Assumptions C80_wiped.
Theorem C80_lifecycle_wiped : forall mods files same fuel base order s s',
  lifecycle mods files same fuel base order s = (s', None) -> plan (skipn 3 six) order <> [] -> wiped s'.
Proof. exact lifecycle_left. Qed.
Print Assumptions C80_lifecycle_wiped.
(** ... but settings phases pile their mods up. *)
Theorem C80_piled : forall mods files same, rooted mods -> forall fuel base stages order s s',
  run_stages mods files same fuel base false stages order s = (s', None) ->
  piled (map fst (plan stages order)) (tree s) (tree s').
Proof. exact settings_piled. Qed.
Print Assumptions C80_piled.

(** ** Requiring files *)
(** The search path and the tree of mods are only added to, ... *)
Theorem C80_keeps : forall mods files same, clean_world mods files -> rooted mods -> forall fuel name s s' r, clean name -> ready s ->
  require mods files same fuel name s = (s', r) ->
  ready s' /\ (exists extra, path s' = in_front extra (path s)) /\ exists more, tree s' = more ++ tree s.
Proof. exact require_keeps. Qed.
Print Assumptions C80_keeps.
(** ... and are as before after a success, if no failure was caught inside. *)
Theorem C80_restores : forall mods files same, clean_world mods files -> rooted mods -> plain_world files -> forall fuel name s s' v, clean name -> ready s ->
  require mods files same fuel name s = (s', Ok v) -> path s' = path s /\ tree s' = tree s /\ dir s' = dir s.
Proof. exact require_restores. Qed.
Print Assumptions C80_restores.
(** What was required once is not loaded again. *)
Theorem C80_once : forall mods files same fuel name s s' r, require mods files same fuel name s = (s', r) ->
  exists evs, out s' = out s ++ evs /\
    (forall n v, dget pystr_eqb (loaded s) n = Some v -> dget pystr_eqb (loaded s') n = Some v /\ ~ loads evs n) /\
    (forall v, r = Ok v -> dget pystr_eqb (loaded s') name = Some v) /\
    (forall v w, r = Ok v -> dget pystr_eqb (loaded s) name = Some w -> v = w).
Proof. exact require_once. Qed.
Print Assumptions C80_once.
(** The first file there is, in the folder the name says and then along the path. *)
Theorem C80_own_files : forall mods files same fuel name n s s' r m q w ts t, clean_world mods files -> clean name -> ready s ->
  find_tag name = None -> normalize mods name = Ok (n, false) -> tree s = m :: q -> m_archive m = false -> ~ dummy_name name n ->
  dget pystr_eqb (loaded s) name = None -> own_folder m (cur s) n w -> path s = in_front ts t -> Forall (fun x => clean x /\ x <> []) (ts ++ [t]) ->
  require mods files same (S fuel) name s = (s', r) -> finds files name n (w :: ts ++ [t]) s s' r.
Proof. exact own_files. Qed.
Print Assumptions C80_own_files.
Theorem C80_other_files : forall mods files same fuel name n g m p s s' r top q ts t, clean_world mods files -> clean name -> ready s ->
  find_tag name = Some g -> dget pystr_eqb mods g = Some m -> m_archive m = false -> tree s = top :: q -> m_archive top = false ->
  normalize mods name = Ok (n, true) -> parent n p -> ~ dummy_name name n ->
  dget pystr_eqb (loaded s) name = None -> path s = in_front ts t -> Forall (fun x => clean x /\ x <> []) (ts ++ [t]) ->
  require mods files same (S fuel) name s = (s', r) -> finds files name n ((p ++ str "/?.lua") :: ts ++ [t]) s s' r.
Proof. exact other_files. Qed.
Print Assumptions C80_other_files.
(** Names of graphics, sounds and menu simulations load nothing. *)
Theorem C80_dummies : forall mods files same fuel name n b s s' r, normalize mods name = Ok (n, b) -> dummy_name name n -> dget pystr_eqb (loaded s) name = None ->
  require mods files same fuel name s = (s', r) -> out s' = out s /\ forall v, r = Ok v -> exists k, v = Dummy k.
Proof. exact dummies. Qed.
Print Assumptions C80_dummies.

(** ** Names *)
Theorem C80_dotted : forall mods l, Forall (fun s => ~ In DOT s /\ ~ In SLASH s /\ ~ In BACKSLASH s) l ->
  (forall r c, join DOT l <> r ++ c :: str "lua") -> ~ contains (join SLASH l) (str "__") ->
  normalize mods (join DOT l) = Ok (join SLASH (match l with [] :: y :: r => y :: r | _ => l end), false).
Proof. exact dotted. Qed.
Print Assumptions C80_dotted.
Theorem C80_named : forall mods t m rest, t <> [] -> Forall name_char t -> t <> str "core" -> t <> str "base" -> dget pystr_eqb mods t = Some m ->
  ~ contains (SLASH :: rest) (tag t) -> (forall r c, tag t ++ SLASH :: rest <> r ++ c :: str "lua") ->
  normalize mods (tag t ++ SLASH :: rest) = Ok (m_location m ++ SLASH :: rest, true).
Proof. exact named. Qed.
Print Assumptions C80_named.
Theorem C80_suffix : forall mods r, (forall q d, r <> q ++ d :: str "lua") -> normalize mods (r ++ str ".lua") = normalize mods r.
Proof. exact suffixed. Qed.
Print Assumptions C80_suffix.

(** ** Settings *)
(** Values given replace those there are; nothing is added; a kind there is not fails
    if any value is given for it. *)
Theorem C80_settings : forall V (user settings : table (table V)), NoDup (map fst user) -> Forall (fun p => NoDup (map fst (snd p))) user ->
  (exists ty given, In (ty, given) user /\ given <> [] /\ dget pystr_eqb settings ty = None) /\ overwrite settings user = Err TypeError \/
  (forall ty given, In (ty, given) user -> given <> [] -> dget pystr_eqb settings ty <> None) /\
  exists t, overwrite settings user = Ok t /\ forall ty n, at_ t ty n =
    match at_ settings ty n with Some o => match at_ user ty n with Some v => Some v | None => Some o end | None => None end.
Proof. exact @overwritten. Qed.
Print Assumptions C80_settings.

(** ** What does not hold *)
(** A file of a folder does not get the file beside it. *)
Theorem C80_sibling_refuted : exists files s', run_mod_phase [(str "m", w_mod)] files (fun _ _ => true) 5 w_mod (str "data.lua") (fresh (str "?.lua") []) = (s', None) /\
  files (str "/mods/m/lib/a.lua") = Some [Req (str "b")] /\ files (str "/mods/m/lib/b.lua") = Some [] /\
  In (Loads (str "lib.a") (str "/mods/m/lib/a.lua")) (out s') /\ In (Got (str "b") (File (str "/mods/m/b.lua"))) (out s').
Proof. exact sibling. Qed.
Print Assumptions C80_sibling_refuted.
(** The folder of a name is looked for twice over first. *)
Theorem C80_doubled_refuted : exists files s', run_mod_phase [(str "m", w_mod)] files (fun _ _ => true) 5 w_mod (str "data.lua") (fresh (str "?.lua") []) = (s', None) /\
  files (str "/mods/m/data.lua") = Some [Req (str "lib.a")] /\ files (str "/mods/m/lib/a.lua") = Some [] /\
  In (Got (str "lib.a") (File (str "/mods/m/lib/lib/a.lua"))) (out s').
Proof. exact doubled. Qed.
Print Assumptions C80_doubled_refuted.
(** Two files of one name in one phase: the second is never loaded. *)
Theorem C80_folders_refuted : exists files s', run_mod_phase [(str "m", w_mod)] files (fun _ _ => true) 5 w_mod (str "data.lua") (fresh (str "?.lua") []) = (s', None) /\
  files (str "/mods/m/two/go.lua") = Some [Req (str "util")] /\ files (str "/mods/m/two/util.lua") = Some [] /\ files (str "/mods/m/util.lua") = None /\
  exists before after, out s' = before ++ [Loads (str "two.go") (str "/mods/m/two/go.lua"); Got (str "util") (File (str "/mods/m/one/util.lua"))] ++ after.
Proof. exact cached_across. Qed.
Print Assumptions C80_folders_refuted.
(** A failure that is caught leaves its folder in the search path. *)
Theorem C80_caught_refuted : exists files s', run_mod_phase [(str "m", w_mod)] files (fun _ _ => true) 5 w_mod (str "data.lua") (fresh (str "?.lua") []) = (s', None) /\
  path s' = in_front [str "/mods/m/no/?.lua"] (path (begun w_mod (str "data.lua") (fresh (str "?.lua") []))).
Proof. exact caught. Qed.
Print Assumptions C80_caught_refuted.
(** The suffix that is removed need not begin with a dot. *)
Theorem C80_suffix_refuted : forall mods, normalize mods (str "my-lua") = Ok (str "my", false).
Proof. exact suffix. Qed.
Print Assumptions C80_suffix_refuted.

(** ** Examples *)
(** Two mods, each with its own file "util". *)
Definition ex_a : amod := mkMod (str "a") (str "/mods/a") false [str "data.lua"; str "data-updates.lua"].
Definition ex_b : amod := mkMod (str "b") (str "/mods/b") false [str "data.lua"].
Definition ex_mods := [(str "a", ex_a); (str "b", ex_b)].
Definition ex_files := world_of
  [("/mods/a/data.lua", [Req (str "util"); Mark 1]); ("/mods/a/util.lua", []); ("/mods/a/data-updates.lua", [Mark 2]);
   ("/mods/b/data.lua", [Req (str "util"); Req (str "__a__/lib/x.lua"); Req (str "util"); Mark 3]); ("/mods/b/util.lua", []); ("/mods/a/lib/x.lua", [Mark 4])].
Definition ex_run := run_stages ex_mods ex_files (fun x y => pystr_eqb (m_name x) (m_name y)) 9 (str "?.lua") true DATA [ex_a; ex_b] (fresh (str "?.lua") []).
Example ex_order : snd ex_run = None /\ began (out (fst ex_run)) =
  [(str "a", str "data.lua"); (str "b", str "data.lua"); (str "a", str "data-updates.lua")].
Proof. split; vm_compute; reflexivity. Qed.
Example ex_loads : filter (fun e => match e with Loads _ _ => true | _ => false end) (out (fst ex_run)) =
  [Loads (str "util") (str "/mods/a/util.lua"); Loads (str "util") (str "/mods/b/util.lua"); Loads (str "__a__/lib/x.lua") (str "/mods/a/lib/x.lua")].
Proof. vm_compute. reflexivity. Qed.
Example ex_points : flat_map (fun e => match e with Point n => [n] | _ => [] end) (out (fst ex_run)) = [1; 4; 3; 2]%N.
Proof. vm_compute. reflexivity. Qed.
(** They are worlds as the theorems want them. *)
Example ex_world : rooted ex_mods /\ Forall (fun p => clean (m_location (snd p))) ex_mods.
Proof.
  split.
  - apply Forall_cons; [exists (str "/mods"), (str "a"); split; [discriminate|reflexivity]|].
    apply Forall_cons; [exists (str "/mods"), (str "b"); split; [discriminate|reflexivity]|]. apply Forall_nil.
  - repeat constructor; intros I; vm_compute in I; repeat (destruct I as [I|I]; [discriminate|]); exact I.
Qed.
Example ex_names : normalize ex_mods (str ".config.startup") = Ok (str "config/startup", false) /\
  normalize ex_mods (str "__a__/lib/x.lua") = Ok (str "/mods/a/lib/x", true) /\ normalize ex_mods (str "__c__/x") = Err AssertionError.
Proof. repeat split; reflexivity. Qed.
Example ex_settings : overwrite [(str "startup", [(str "x", 1%Z); (str "y", 2%Z)])] [(str "startup", [(str "y", 5%Z); (str "z", 6%Z)]); (str "other", [])] =
  Ok [(str "startup", [(str "x", 1%Z); (str "y", 5%Z)])].
Proof. reflexivity. Qed.
(** The whole process of one mod that has settings and data. *)
Definition ex_c : amod := mkMod (str "c") (str "/mods/c") false [str "data.lua"; str "settings.lua"].
Definition ex_c_files := world_of
  [("/mods/c/settings.lua", [Mark 1]); ("compatibility/serpent.lua", []); ("/mods/c/data.lua", [Mark 2])].
Definition ex_cycle := lifecycle [(str "c", ex_c)] ex_c_files (fun x y => pystr_eqb (m_name x) (m_name y)) 9 (str "?.lua") [ex_c] (fresh (str "?.lua") []).
Example ex_cycle_order : snd ex_cycle = None /\ began (out (fst ex_cycle)) = [(str "c", str "settings.lua"); (str "c", str "data.lua")] /\
  named_plan six [ex_c] = [(str "c", str "settings.lua"); (str "c", str "data.lua")] /\ plan (skipn 3 six) [ex_c] <> [] /\ wiped (fst ex_cycle).
Proof. vm_compute. repeat split; discriminate. Qed.
