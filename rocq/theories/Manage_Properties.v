(** C70: reading mods and enabling them (/repo/draftsman/environment/mod_list.py 16-42,
    44-95, 136-140, 214-420, 614-663). *)
From Coq Require Import ZArith NArith List Bool String Permutation.
From Verif Require Import Common Order Version_Model Manage_Model Manage_Spec Manage_Proofs Manage_Text_Model Manage_Text_Proofs.
Import ListNotations.
Local Open Scope string_scope.
Local Open Scope list_scope.

(** A dependency is read as the scanner reads it, whatever the text; there is no
    other failure than that it names nothing. *)
Theorem C70_dependency : forall uw ud s,
  read_dependency uw ud s = match scan uw ud (no_spaces s) with Some d => Ok d | None => Err TypeError end.
Proof. exact read_scan. Qed.
Print Assumptions C70_dependency.
(** One that is written as meant is read as meant, wherever there are spaces. *)
Theorem C70_dependency_round : forall uw ud s f n o v,
  good_flag f -> good_name uw n -> good_op o -> good_version ud o v ->
  no_spaces s = shown f ++ n ++ shown o ++ shown v -> read_dependency uw ud s = Ok (mkDep f (Some n) o v).
Proof. exact dependency_round. Qed.
Print Assumptions C70_dependency_round.
Example C70_dependency_example :
  read_dependency nothing nothing (str "(?) space-age >= 2.0.7") = Ok (mkDep (Some (str "(?)")) (Some (str "space-age")) (Some (str ">=")) (Some (str "2.0.7"))) /\
  read_dependency nothing nothing (str "!stone - walls") = Ok (mkDep (Some (str "!")) (Some (str "stone-walls")) None None) /\
  read_dependency nothing nothing (str "?") = Err TypeError /\
  read_dependency nothing nothing (str "base2 1.1") = Ok (mkDep None (Some (str "base21")) None (Some (str ".1"))).
Proof. vm_compute. repeat split. Qed.
(** Whatever was read, its printed text is read as the same dependency, so that no two
    are printed alike. *)
Theorem C70_text_again : forall uw ud s d, read_dependency uw ud s = Ok d -> read_dependency uw ud (dependency_str d) = Ok d.
Proof. exact str_again. Qed.
Print Assumptions C70_text_again.
Theorem C70_text_unique : forall uw ud s s' d d', read_dependency uw ud s = Ok d -> read_dependency uw ud s' = Ok d' ->
  dependency_str d = dependency_str d' -> d = d'.
Proof. exact str_inj. Qed.
Print Assumptions C70_text_unique.
Example C70_text_example :
  dependency_str (mkDep (Some (str "(?)")) (Some (str "space-age")) (Some (str ">=")) (Some (str "2.0.7"))) = str "(?) space-age >= 2.0.7" /\
  dependency_str (mkDep None (Some (str "base")) None None) = str " base  ".
Proof. vm_compute. repeat split. Qed.
(** A mod depends on what it names; that it is required does not follow: the mod may
    be one it does not work with. *)
Theorem C70_depends : forall deps n, depends_on deps n = true <-> exists d, In d deps /\ d_name d = Some n.
Proof. exact depends_spec. Qed.
Print Assumptions C70_depends.
Theorem C70_required_refuted : exists s d n, read_dependency nothing nothing s = Ok d /\ d_flag d = Some (str "!") /\ depends_on [d] n = true.
Proof. exists (str "! boblogistics"), (mkDep (Some (str "!")) (Some (str "boblogistics")) None None), (str "boblogistics"). vm_compute. repeat split. Qed.
Print Assumptions C70_required_refuted.
(** What stands before a name without being a flag is dropped, a dash of the name
    and an unknown flag alike: the mod becomes a required one of another name. *)
Theorem C70_prefix_refuted : forall uw ud j n, good_name uw n -> Forall (fun c => filler uw c = true) j ->
  ~ In TILDE j -> ~ In LPAR j -> ~ In SPACE n -> ~ In SPACE j ->
  read_dependency uw ud (j ++ n) = Ok (mkDep None (Some n) None None).
Proof. exact dash_dropped. Qed.
Print Assumptions C70_prefix_refuted.

(** The name of an archive: the longest name that leaves a version and ".zip"; no
    match only if there is no way to read it so. *)
Theorem C70_archive_name : forall uw ud, (forall c, ud c = true -> uw c = true) -> forall s,
  match re_match (archive_regex uw ud) s with
  | Some g => exists n v r, archive_form ud s n v r /\ group g 1 = Some (n ++ str "_" ++ v) /\ group g 2 = Some n /\ group g 3 = Some v /\
      forall n' v' r', archive_form ud s n' v' r' -> (List.length n' <= List.length n)%nat
  | None => forall n v r, ~ archive_form ud s n v r
  end.
Proof. exact archive_spec. Qed.
Print Assumptions C70_archive_name.
Theorem C70_archive_unique : forall ud s n v r n' v' r',
  archive_form ud s n v r -> archive_form ud s n' v' r' -> List.length n = List.length n' -> n = n' /\ v = v' /\ r = r'.
Proof. exact archive_unique. Qed.
Print Assumptions C70_archive_unique.
(** An archive in upper case is taken for one, and refused. *)
Theorem C70_upper_refuted : ends_zip (str "Drones_1.0.0.ZIP") = true /\
  forall fuel order dflt loc ml, register_mod nothing nothing nothing fuel order dflt (str "Drones_1.0.0.ZIP") loc (Archive (one_archive "Drones" "Drones_1.0.0")) ml = (dflt, Err DraftsmanError).
Proof. exact upper_refused. Qed.
Print Assumptions C70_upper_refuted.
(** The name of a folder: all of it, or what is before a version with a dot in it. *)
Theorem C70_folder_name : forall ud us, (forall c, ud c = true -> us c = false) -> forall s,
  match re_match (folder_regex ud us) s with
  | Some g => exists n, group g 1 = Some n /\ folder_form ud us s n (group g 2)
  | None => forall n v, ~ folder_form ud us s n v
  end.
Proof. exact folder_spec. Qed.
Print Assumptions C70_folder_name.
Theorem C70_folder_unique : forall ud us s n v n' v', folder_form ud us s n v -> folder_form ud us s n' v' -> n = n' /\ v = v'.
Proof. exact folder_unique. Qed.
Print Assumptions C70_folder_unique.
(** A version without a dot stays in the name. *)
Theorem C70_folder_version_refuted : exists g, re_match (folder_regex nothing nothing) (str "Drones_2") = Some g /\
  group g 1 = Some (str "Drones_2") /\ group g 2 = None.
Proof. exact number_in_name. Qed.
Print Assumptions C70_folder_version_refuted.
Example C70_name_example :
  option_map (fun g => (group g 1, group g 2)) (re_match (folder_regex nothing nothing) (str "even_distribution_1.0.10")) = Some (Some (str "even_distribution"), Some (str "1.0.10")) /\
  re_match (folder_regex nothing nothing) (str "Mining Drones") = None /\
  option_map (fun g => (group g 1, group g 2, group g 3)) (re_match (archive_regex nothing nothing) (str "even_distribution_1.0.10.zip")) =
    Some (Some (str "even_distribution_1.0.10"), Some (str "even_distribution"), Some (str "1.0.10")).
Proof. vm_compute. repeat split. Qed.

(** The loop over a name in an archive ends with its first part; for a name that
    begins with a slash it never ends. *)
Theorem C70_topdir : forall s, clean s -> forall fuel base, (List.length s <= fuel)%nat -> topdir fuel base s = Ok (Some (first_part s)).
Proof. exact topdir_spec. Qed.
Print Assumptions C70_topdir.
Theorem C70_topdirs : forall fuel files, Forall (fun f => clean f /\ (List.length f <= fuel)%nat) files ->
  exists dirs, topdirs fuel [] files = Ok (map Some dirs) /\ first_parts files dirs.
Proof. exact topdirs_spec. Qed.
Print Assumptions C70_topdirs.
Theorem C70_slash_refuted : forall fuel files, (exists f, In (SLASH :: f) files) -> forall acc, topdirs fuel acc files = Err OutOfFuel.
Proof. exact topdirs_slash. Qed.
Print Assumptions C70_slash_refuted.
(** The folder taken from an archive is the one that is meant; the order in which the
    set lists the folders makes no difference. *)
Theorem C70_meant : forall fn dirs, NoDup dirs ->
  (forall d, mod_folder fn (map Some dirs) = Ok d <-> meant fn dirs d) /\
  (forall e, mod_folder fn (map Some dirs) = Err e -> e = DraftsmanError) /\
  (forall dirs', Permutation dirs dirs' -> mod_folder fn (map Some dirs) = mod_folder fn (map Some dirs')).
Proof. exact (fun fn dirs N => Logic.conj (fun d => folder_meant fn dirs d N) (Logic.conj (folder_fails fn dirs) (fun dirs' => folder_order fn dirs dirs' N))). Qed.
Print Assumptions C70_meant.
Example C70_meant_example :
  mod_folder (str "Drones_1.0.0") [Some (str "__MACOSX"); Some (str "drones-1-0-0")] = Ok (str "drones-1-0-0") /\
  mod_folder (str "Drones_1.0.0") [Some (str "drones100"); Some (str "drones-1-0-0")] = Err DraftsmanError /\
  topdirs 100 [] [str "Drones_1.0.0/"; str "Drones_1.0.0/data.lua"; str "__MACOSX//x"] = Ok [Some (str "Drones_1.0.0"); Some (str "__MACOSX")].
Proof. vm_compute. repeat split. Qed.

(** Mods are made, with the dependencies they have, exactly if at most one of them
    leaves its dependencies out ... *)
Theorem C70_make_all : forall uw ud l ms,
  make_all uw ud first_default l = Ok ms <-> Forall2 (made_as uw ud) l ms /\ (lacking l <= 1)%nat.
Proof. exact make_all_spec. Qed.
Print Assumptions C70_make_all.
(** ... since the second finds the default list already rewritten by the first. *)
Theorem C70_default_refuted : forall uw ud loc st i b a loc' st' i' b' a', acceptable i -> acceptable i' -> i_deps i = None -> i_deps i' = None ->
  make_all uw ud first_default [(loc, st, i, b, a); (loc', st', i', b', a')] = Err AttributeError.
Proof. exact two_lacking. Qed.
Print Assumptions C70_default_refuted.
(** A mod that lists its dependencies is made whatever the default has become. *)
Theorem C70_make_given : forall uw ud dflt loc st i b a m d', lacks i = false ->
  (make_mod uw ud dflt loc st i b a = (d', Ok m) <-> d' = dflt /\ made_as uw ud (loc, st, i, b, a) m).
Proof. exact make_given. Qed.
Print Assumptions C70_make_given.

(** Names count as the same if they are but for case and all that is neither letter
    nor digit; a location has forward slashes; an archive ends in .zip in any case. *)
Theorem C70_alike : forall a b, simplified a = simplified b <-> alike a b.
Proof. exact simplified_alike. Qed.
Print Assumptions C70_alike.
Theorem C70_forward : forall s, List.length (forward s) = List.length s /\
  forall i c, nth_error s i = Some c -> (c = 92%N -> nth_error (forward s) i = Some 47%N) /\ (c <> 92%N -> nth_error (forward s) i = Some c).
Proof. exact forward_spec. Qed.
Print Assumptions C70_forward.
Theorem C70_ends_zip : forall s, ends_zip s = true <-> exists p z i q, s = p ++ [46%N; z; i; q] /\
  In z [122%N; 90%N] /\ In i [105%N; 73%N] /\ In q [112%N; 80%N].
Proof. exact ends_zip_spec. Qed.
Print Assumptions C70_ends_zip.
(** An archive is registered exactly if its name can be read, the folder meant has an
    info.json with a version, the mod is not for a later Factorio and the list says
    whether it is enabled; its stages are the files that are there. *)
Theorem C70_register_archive : forall uw ud us fuel order dflt name loc a ml d' m,
  (forall c, ud c = true -> uw c = true) -> (forall l, Permutation l (order l)) ->
  Forall (fun f => clean f /\ (List.length f <= fuel)%nat) (a_names a) ->
  (register_mod uw ud us fuel order dflt name loc (Archive a) ml = (d', Ok m) <->
   ends_zip name = true /\ exists n dir i b st, archive_mod ud a ml name n dir i b /\
     stages_are (fun s => In (dir ++ str "/" ++ s) (a_names a)) st /\ make_mod uw ud dflt (forward loc) st i b true = (d', Ok m)).
Proof. exact register_archive. Qed.
Print Assumptions C70_register_archive.
Theorem C70_register_folder : forall uw ud us fuel order dflt name loc f ml d' m,
  (forall c, ud c = true -> us c = false) ->
  (register_mod uw ud us fuel order dflt name loc (Folder f) ml = (d', Ok m) <->
   ends_zip name = false /\ exists n i b st, folder_mod ud us f ml name n i b /\
     stages_are (fun s => f_file f (loc ++ str "/" ++ s) = true) st /\ make_mod uw ud dflt (forward loc) st i b false = (d', Ok m)).
Proof. exact register_folder. Qed.
Print Assumptions C70_register_folder.
Theorem C70_refused : forall uw ud us fuel order dflt name loc here ml,
  (forall c, ud c = true -> uw c = true) -> (forall c, ud c = true -> us c = false) ->
  (ends_zip name = true /\ (forall n v r, ~ archive_form ud name n v r) \/
   ends_zip name = false /\ ((forall n v, ~ folder_form ud us name n v) \/ here = Plain)) ->
  register_mod uw ud us fuel order dflt name loc here ml = (dflt, Err DraftsmanError).
Proof. exact register_refused. Qed.
Print Assumptions C70_refused.
(** The list is asked for the name of the file without its spaces, not for the name of
    the mod: one that is disabled comes out enabled. *)
Theorem C70_disabled_refuted : exists d m,
  register_mod nothing nothing nothing 100 (fun l => l) first_default (str "Mining Drones_1.0.0.zip") (str "mods/Mining Drones_1.0.0.zip") (Archive (one_archive "Mining Drones" "Mining Drones_1.0.0")) [off "Mining Drones"] = (d, Ok m) /\
  m_name m = str "Mining Drones" /\ enabled_of [off "Mining Drones"] (m_name m) = Ok false /\ m_enabled m = true.
Proof. exact spaces_enabled. Qed.
Print Assumptions C70_disabled_refuted.
Example C70_register_example : exists m,
  register_mod nothing nothing nothing 100 (@rev _) first_default (str "Drones_1.0.0.zip") (str "mods\Drones_1.0.0.zip") (Archive (one_archive "Drones" "anything")) [off "core"; off "Drones"] = (first_default, Ok m) /\
  m_enabled m = false /\ m_stages m = [str "data.lua"] /\ m_location m = str "mods/Drones_1.0.0.zip" /\
  m_deps m = [mkDep None (Some (str "base")) (Some (str ">=")) (Some (str "2.0"))].
Proof. eexists. split; [vm_compute; reflexivity|]. vm_compute. repeat split. Qed.

(** Enabling or disabling mods changes the first entry of each of them and nothing
    else; it fails, and then writes nothing, only for mods not there or not listed. *)
Theorem C70_enable : forall mods file names b, names <> [str "all"] -> all_named (the_list mods file) ->
  ((exists l', set_mods_enabled mods file names b = Ok l') <-> forall n, In n names -> In n mods /\ exists i, first_named (the_list mods file) i n) /\
  (forall l', set_mods_enabled mods file names b = Ok l' -> changed (the_list mods file) l' names b) /\
  (forall e, set_mods_enabled mods file names b = Err e ->
     e = MissingModError /\ (exists n, In n names /\ ~ In n mods) \/
     e = StopIteration /\ (forall n, In n names -> In n mods) /\ exists n, In n names /\ ~ exists i, first_named (the_list mods file) i n).
Proof. exact enable_ok. Qed.
Print Assumptions C70_enable.
(** Which is what registering then reads. *)
Theorem C70_enable_read : forall mods file names b l', names <> [str "all"] -> all_named (the_list mods file) -> set_mods_enabled mods file names b = Ok l' ->
  forall n, enabled_of l' n = if existsb (pystr_eqb n) names then Ok b else enabled_of (the_list mods file) n.
Proof. exact enable_read. Qed.
Print Assumptions C70_enable_read.
(** Without a mod-list.json it works for all mods there are, the others staying enabled. *)
Theorem C70_enable_default : forall mods names b, names <> [str "all"] ->
  ((exists l', set_mods_enabled mods None names b = Ok l') <-> forall n, In n names -> In n mods) /\
  (forall l', set_mods_enabled mods None names b = Ok l' -> forall n, enabled_of l' n = Ok (if existsb (pystr_eqb n) names then b else true)).
Proof. exact enable_default. Qed.
Print Assumptions C70_enable_default.
(** "all" fails as soon as there is a mod. *)
Theorem C70_all_refuted : forall mods file b, mods <> [] -> set_mods_enabled mods file [str "all"] b = Err AttributeError.
Proof. exact enable_all. Qed.
Print Assumptions C70_all_refuted.
Example C70_enable_example :
  set_mods_enabled [str "core"; str "base"; str "Drones"] (Some [mkListed (Some (str "base")) (Some true) []; off "Drones"; off "Drones"]) [str "Drones"] true =
    Ok [mkListed (Some (str "base")) (Some true) []; mkListed (Some (str "Drones")) (Some true) []; off "Drones"] /\
  set_mods_enabled [str "core"; str "base"; str "Drones"] (Some [mkListed (Some (str "base")) (Some true) []]) [str "Drones"] false = Err StopIteration.
Proof. vm_compute. split; reflexivity. Qed.
