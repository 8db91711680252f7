(** Choosing the version of the game's data and writing the extracted data:
    /repo/draftsman/environment/update.py 235-307 [specify_factorio_version],
    1670-1701 [extract_data], 1704-1778 [update_draftsman_data], and
    /repo/draftsman/environment/script.py 183-258 (the commands that use
    them).

    Not modelled: paths, what git does besides tags and HEAD, argparse. *)
From Coq Require Import ZArith NArith String List Bool.
From Verif Require Import Common Version_Model.
Import ListNotations.
Local Open Scope Z_scope.

(** A tag of the repository: [tag.name], [tag.commit] and
    [tag.commit.committed_datetime] (as a number). *)
Record tag := Tag { t_name : pystr; t_commit : N; t_time : Z }.

(** [git.Repo]: [remotes.origin.url], [tags] (in the order in which they are
    listed) and [head.commit]. *)
Record repo := Repo { r_url : pystr; r_tags : list tag; r_head : N }.

(** What is done besides returning: the fetch, a line printed, a checkout. *)
Inductive event :=
| Fetched
| Printed (s : pystr)
| CheckedOut (v : pystr).

(** How the function ends; the two [ValueError]s are told apart by what their
    messages name (update.py 280, 284). *)
Inductive outcome :=
| Done
| Invalid (v : pystr)
| Unknown (v : pystr)
| Raised (e : exn).

(** update.py 258, script.py 193. *)
Definition FACTORIO_DATA : pystr := str "https://github.com/wube/factorio-data".

(** update.py 261-265, script.py 198-200: the first tag at HEAD. *)
Definition current_tag (r : repo) : option tag :=
  find (fun t => N.eqb (t_commit t) (r_head r)) (r_tags r).

(** [sorted(repo.tags, key=lambda t: t.commit.committed_datetime)]
    (update.py 272): Python's sort is stable. *)
Fixpoint put_by_time (t : tag) (l : list tag) : list tag :=
  match l with
  | [] => [t]
  | u :: l' => if t_time t <? t_time u then t :: l else u :: put_by_time t l'
  end.
Definition sorted_by_time (l : list tag) : list tag :=
  fold_left (fun acc t => put_by_time t acc) l [].

(** update.py 271-274: "latest" is replaced by a tag's name. *)
Definition resolve (tags : list tag) (want : pystr) : result pystr :=
  if pystr_eqb want (str "latest")
  then match rev (sorted_by_time tags) with
       | [] => Err IndexError
       | t :: _ => Ok (t_name t)
       end
  else Ok want.

(** update.py 280-282: three numbers, missing ones zero. *)
Definition normalize (s : pystr) : result pystr :=
  let* t := version_string_to_tuple s in
  let t3 := firstn 3 t in
  Ok (version_tuple_to_string (t3 ++ repeat 0 (3 - length t3))).

(** The printed lines (update.py 268, 291-295, 300, 304-307).  The old tag is
    printed with [str(current_tag)], its name. *)
Definition say_current (c : pystr) : event :=
  Printed (str "Current Factorio version: " ++ c).
Definition say_change (c v : pystr) : event :=
  Printed (str "Different Factorio version requested:" ++ [10%N; 9%N] ++ str "("
           ++ c ++ str ") -> (" ++ v ++ str ")").
Definition say_changed (v : pystr) : event :=
  Printed (str "Changed to Factorio version " ++ v ++ [10%N]).
Definition say_same (v : pystr) : event :=
  Printed (str "Desired Factorio version (" ++ v ++ str ") already matches current.").
Definition when (b : bool) (e : event) : list event := if b then [e] else [].

Section Git.
(** [repo.git.fetch()] (update.py 256): raises, or the tags there are then. *)
Variable fetched : repo -> exn + list tag.
(** [repo.git.checkout(v)] (update.py 297) may refuse, e.g. because of local
    changes. *)
Variable refuses : repo -> pystr -> option exn.

(** [repo.git.checkout(v)] of a tag: HEAD is its commit. *)
Definition checkout (r : repo) (v : pystr) : result repo :=
  match refuses r v with
  | Some e => Err e
  | None =>
      match find (fun t => pystr_eqb (t_name t) v) (r_tags r) with
      | Some t => Ok (Repo (r_url r) (r_tags r) (t_commit t))
      | None => Err ValueError (* git: unknown revision; never reached *)
      end
  end.

(** update.py 286-307: what is done once the version is normalized. *)
Definition change (r : repo) (v : pystr) (verbose : bool)
  : list event * repo * outcome :=
  if existsb (fun t => pystr_eqb v (t_name t)) (r_tags r)
  then match current_tag r with
       | None => ([], r, Raised AttributeError)
       | Some c =>
           if pystr_eqb v (t_name c) then (when verbose (say_same v), r, Done)
           else match checkout r v with
                | Err e => (when verbose (say_change (t_name c) v), r, Raised e)
                | Ok r' =>
                    (when verbose (say_change (t_name c) v) ++ [CheckedOut v]
                     ++ when verbose (say_changed v), r', Done)
                end
       end
  else ([], r, Unknown v).

(** update.py 270-307. *)
Definition choose (r : repo) (want : pystr) (verbose : bool)
  : list event * repo * outcome :=
  match resolve (r_tags r) want with
  | Err e => ([], r, Raised e)
  | Ok s =>
      match normalize s with
      | Err ValueError => ([], r, Invalid s)
      | Err e => ([], r, Raised e)
      | Ok v => change r v verbose
      end
  end.

(** update.py 254-307 [specify_factorio_version]. *)
Definition specify (r : repo) (want : pystr) (verbose : bool)
  : list event * repo * outcome :=
  match fetched r with
  | inl e => ([], r, Raised e)
  | inr tags =>
      let r1 := Repo (r_url r) tags (r_head r) in
      if pystr_eqb (r_url r) FACTORIO_DATA then
        match verbose, current_tag r1 with
        | true, None => ([Fetched], r1, Raised AttributeError)
        | true, Some c =>
            let '(ev, r2, o) := choose r1 want verbose in
            (Fetched :: say_current (t_name c) :: ev, r2, o)
        | false, _ =>
            let '(ev, r2, o) := choose r1 want verbose in (Fetched :: ev, r2, o)
        end
      else ([Fetched], r1, Raised AssertionError)
  end.

(** script.py 186-202: `draftsman factorio-version` without a version. *)
Definition report (r : repo) : list event * repo * outcome :=
  match fetched r with
  | inl e => ([], r, Raised e)
  | inr tags =>
      let r1 := Repo (r_url r) tags (r_head r) in
      if pystr_eqb (r_url r) FACTORIO_DATA then
        ([Fetched; Printed (str "Factorio "
            ++ match current_tag r1 with Some c => t_name c | None => str "None" end)],
         r1, Done)
      else ([Fetched], r1, Raised AssertionError)
  end.

End Git.

(** [s.count(".")] (update.py 1753). *)
Definition count_dots (s : pystr) : nat := List.length (filter (N.eqb DOT) s).

(** update.py 1751-1755: the version of the data as text and tuple. *)
Definition data_version (v : pystr) : result (pystr * list Z) :=
  let v' := if Nat.eqb (count_dots v) 2 then v ++ str ".0" else v in
  let* t := version_string_to_tuple v' in
  Ok (v', t).

(** [str(tuple)] of a tuple of integers. *)
Definition tuple_str (t : list Z) : pystr :=
  match t with
  | [x] => str "(" ++ int_str x ++ str ",)"
  | _ => str "(" ++ join_with (str ", ") (map int_str t) ++ str ")"
  end.

(** update.py 1757-1764: the text of [_factorio_version.py]. *)
Definition version_text (v : pystr) (t : list Z) : pystr :=
  str "# _factorio_version.py" ++ [10%N; 10%N]
  ++ str "__factorio_version__ = " ++ [34%N] ++ v ++ [34%N; 10%N]
  ++ str "__factorio_version_info__ = " ++ tuple_str t ++ [10%N].

(** The files of an installation by name (the version file and [data/*.pkl]). *)
Definition files := pystr -> option pystr.
Definition write (f : files) (name content : pystr) : files :=
  fun n => if pystr_eqb n name then Some content else f n.

(** update.py 1684-1701: the files that are written, in that order. *)
Definition DATA_FILES : list pystr :=
  map str ["mods.pkl"; "entities.pkl"; "fluids.pkl"; "instruments.pkl"; "items.pkl";
           "modules.pkl"; "planets.pkl"; "recipes.pkl"; "signals.pkl"; "tiles.pkl"]%string.
Definition VERSION_FILE : pystr := str "_factorio_version.py".

Section Update.
(** [run_data_lifecycle] (C42, C80): raises or not. *)
Variable lifecycle : result unit.
(** What each extraction (C60-C69) computes for its file, or raises. *)
Variable extract : pystr -> result pystr.
(** [get_items(lua)] (update.py 1689), between the mods and the rest. *)
Variable items : result unit.

(** One after the other, stopping at the first that raises. *)
Fixpoint write_all (f : files) (names : list pystr) : files * result unit :=
  match names with
  | [] => (f, Ok tt)
  | n :: ns =>
      match extract n with
      | Ok c => write_all (write f n c) ns
      | Err e => (f, Err e)
      end
  end.

(** update.py 1670-1701 [extract_data]. *)
Definition extract_data (f : files) : files * result unit :=
  match write_all f (firstn 1 DATA_FILES) with
  | (f1, Err e) => (f1, Err e)
  | (f1, Ok _) =>
      match items with
      | Err e => (f1, Err e)
      | Ok _ => write_all f1 (skipn 1 DATA_FILES)
      end
  end.

(** update.py 1704-1778 [update_draftsman_data]; [v] is the "version" of
    [base/info.json]. *)
Definition update (f : files) (v : pystr) : files * result unit :=
  match lifecycle with
  | Err e => (f, Err e)
  | Ok _ =>
      match data_version v with
      | Err e => (f, Err e)
      | Ok (v', t) => extract_data (write f VERSION_FILE (version_text v' t))
      end
  end.
End Update.

(** A setting's value as far as printing tells values apart: a string, or
    anything else by what [str] makes of it (script.py 219-222). *)
Inductive setting := SStr (s : pystr) | SOther (shown : pystr).
Definition show_setting (s : setting) : pystr :=
  match s with SStr s => [39%N] ++ s ++ [39%N] | SOther s => s end.

(** script.py 211, with the headers already in upper case (214). *)
Definition SETTING_TYPES : list (pystr * pystr) :=
  [(str "startup", str "STARTUP:"); (str "runtime-global", str "RUNTIME-GLOBAL:");
   (str "runtime-per-user", str "RUNTIME-PER-USER:")].

Definition setting_line (kv : pystr * setting) : pystr :=
  [9%N] ++ fst kv ++ str ": " ++ show_setting (snd kv).

Fixpoint lookup {A} (d : list (pystr * A)) (k : pystr) : option A :=
  match d with
  | [] => None
  | (k', a) :: d' => if pystr_eqb k k' then Some a else lookup d' k
  end.

(** script.py 208-224: the lines printed by `draftsman mod-settings`. *)
Fixpoint show_types (d : list (pystr * list (pystr * setting)))
         (types : list (pystr * pystr)) : list pystr * result unit :=
  match types with
  | [] => ([], Ok tt)
  | (k, header) :: types' =>
      match lookup d k with
      | None => ([], Err KeyError)
      | Some [] => show_types d types'
      | Some l =>
          let '(out, res) := show_types d types' in
          (header :: map setting_line l ++ out, res)
      end
  end.
Definition show_settings d := show_types d SETTING_TYPES.
