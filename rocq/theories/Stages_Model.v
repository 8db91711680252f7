(** The load process: which files of which mods are run, in which order, and which
    file a [require] finds.

    /repo/draftsman/environment/update.py 310-353 ([python_require]), 356-369
    ([run_mod_phase]), 372-417 ([run_settings_stage]), 420-449 ([run_data_stage]),
    697-710; environment/mod_list.py 124-134, 149-157 and 405-414;
    /repo/draftsman/compatibility/interface.lua 86-135 ([normalize_module_name]),
    142-212 ([require]), 223-247, 252-263, 269-295 (the searchers), 304-306, 313-358.
    Errors of Lua are [ValueError] and [TypeError].

    Strings are lists of bytes.  A file is a list of statements: it marks that it
    came to some point, requires a module, or does so inside [pcall].  What a file
    returns is told by its name.
    Simplifications: files do nothing else to the globals of the interface; they
    compile; ['%'] does not occur in names and locations (it is special in what Lua
    replaces by); the C searchers find nothing; what [settings.lua] does besides
    its [require] is left out, but for [overwrite]; running out of fuel stands for
    the stack overflow of Lua. *)
From Coq Require Import ZArith NArith String List Bool.
From Verif Require Import Common Dict.
Import ListNotations.
Local Open Scope string_scope.
Local Open Scope list_scope.

(** ** Strings *)
Definition SLASH : N := 47. Definition BACKSLASH : N := 92. Definition DOT : N := 46.
Definition SEMI : N := 59. Definition QUESTION : N := 63. Definition UNDER : N := 95. Definition DASH : N := 45.
Definition has (c : N) (s : pystr) : bool := existsb (N.eqb c) s.

(** [gsub(".lua$", "")]: the dot stands for any character. *)
Definition strip_lua (s : pystr) : pystr :=
  match rev s with
  | a :: u :: l :: _ :: r => if N.eqb a 97 && N.eqb u 117 && N.eqb l 108 then rev r else s
  | _ => s
  end.
(** [if find("[/\\]") == nil then gsub("%.", "/")] *)
Definition dots (s : pystr) : pystr :=
  if has SLASH s || has BACKSLASH s then s else map (fun c => if N.eqb c DOT then SLASH else c) s.
(** [gsub("^/", "")] *)
Definition lead (s : pystr) : pystr := match s with c :: r => if N.eqb c SLASH then r else s | [] => s end.
(** [[%w%-_]] *)
Definition cls (c : N) : bool :=
  (N.leb 48 c && N.leb c 57) || (N.leb 65 c && N.leb c 90) || (N.leb 97 c && N.leb c 122) || N.eqb c DASH || N.eqb c UNDER.
Fixpoint take_cls (s : pystr) : pystr := match s with c :: r => if cls c then c :: take_cls r else [] | [] => [] end.
Definition under2 (s : pystr) : bool := match s with a :: b :: _ => N.eqb a UNDER && N.eqb b UNDER | _ => false end.
(** [([%w%-_]+)__]: as long as possible, inside a run of such characters. *)
Fixpoint longest (acc r : pystr) : option pystr :=
  match r with
  | [] => None
  | c :: r' =>
    match longest (acc ++ [c]) r' with
    | Some n => Some n
    | None => match acc with [] => None | _ => if under2 r then Some acc else None end
    end
  end.
(** [match("(__([%w%-_]+)__)")]: the leftmost. *)
Fixpoint find_tag (s : pystr) : option pystr :=
  match s with
  | [] => None
  | _ :: r =>
    if under2 s then match longest [] (take_cls (tl r)) with Some n => Some n | None => find_tag r end
    else find_tag r
  end.
Definition tag (n : pystr) : pystr := str "__" ++ n ++ str "__".
Fixpoint prefix (p s : pystr) : bool :=
  match p, s with [], _ => true | a :: p', b :: s' => N.eqb a b && prefix p' s' | _, _ => false end.
(** [gsub(s, p, r)] of a literal. *)
Fixpoint replace_from (skip : nat) (p r s : pystr) : pystr :=
  match s with
  | [] => []
  | c :: s' =>
    match skip with
    | S k => replace_from k p r s'
    | O => if prefix p s then r ++ replace_from (List.length p - 1) p r s' else c :: replace_from 0 p r s'
    end
  end.
Definition replace (p r s : pystr) : pystr := replace_from 0 p r s.
(** [match("^(.+)c")] *)
Fixpoint upto_last (c : N) (s : pystr) : option pystr :=
  match s with
  | [] => None
  | x :: r => match upto_last c r with Some p => Some (x :: p) | None => if N.eqb x c then Some [] else None end
  end.
Definition before (c : N) (s : pystr) : option pystr :=
  match upto_last c s with Some (x :: p) => Some (x :: p) | _ => None end.
(** 161-170 *)
Definition get_parent (s : pystr) : option pystr :=
  match before SLASH s with Some p => Some p | None => before BACKSLASH s end.
(** [match(s, p .. ".+")] of a literal [p]: [p] occurs and is not at the end. *)
Fixpoint occurs_inside (p s : pystr) : bool :=
  match s with
  | [] => false
  | _ :: r => (prefix p s && Nat.ltb (List.length p) (List.length s)) || occurs_inside p r
  end.
Fixpoint occurs (p s : pystr) : bool := prefix p s || match s with [] => false | _ :: r => occurs p r end.
(** [gmatch("([^;]+)")] *)
Fixpoint pieces (cur s : pystr) : list pystr :=
  match s with
  | [] => match cur with [] => [] | _ => [cur] end
  | c :: r => if N.eqb c SEMI then match cur with [] => pieces [] r | _ => cur :: pieces [] r end else pieces (cur ++ [c]) r
  end.
(** [gsub(template, "%?", name)] *)
Definition fill (template name : pystr) : pystr := flat_map (fun c => if N.eqb c QUESTION then name else [c]) template.
Definition in_dir (d f : pystr) : pystr := d ++ str "/" ++ f.

(** ** Mods, files and state *)
Record amod := mkMod { m_name : pystr; m_location : pystr; m_archive : bool; m_stages : list pystr }.
Inductive stmt := Mark (n : N) | Req (name : pystr) | Try (name : pystr).
Definition chunk := list stmt.
Inductive value := Dummy (k : pystr) | File (path : pystr).
(** What is observed. *)
Inductive event :=
| Began (m stage path cur : pystr) (dir : option pystr) (cached : list pystr)
| Point (n : N)
| Loads (name path : pystr)
| Got (name : pystr) (v : value)
| Missed (name : pystr) (e : exn).
(** The globals of the interface; [tree] has its top first. *)
Record st := mkSt {
  path : pystr; tree : list amod; dir : option pystr; cur : pystr; with_path : option pystr;
  loaded : list (pystr * value); out : list event }.
Definition set_path p s := mkSt p (tree s) (dir s) (cur s) (with_path s) (loaded s) (out s).
Definition set_tree t s := mkSt (path s) t (dir s) (cur s) (with_path s) (loaded s) (out s).
Definition set_dir d s := mkSt (path s) (tree s) d (cur s) (with_path s) (loaded s) (out s).
Definition set_cur c s := mkSt (path s) (tree s) (dir s) c (with_path s) (loaded s) (out s).
Definition set_with w s := mkSt (path s) (tree s) (dir s) (cur s) w (loaded s) (out s).
Definition set_loaded l s := mkSt (path s) (tree s) (dir s) (cur s) (with_path s) l (out s).
Definition say e s := mkSt (path s) (tree s) (dir s) (cur s) (with_path s) (loaded s) (out s ++ [e]).

(** 313-315, 318-321 *)
Definition add_path (p : pystr) (s : st) : st := set_path (p ++ SEMI :: path s) s.
Fixpoint after_semi (s : pystr) : option pystr :=
  match s with [] => None | c :: r => if N.eqb c SEMI then Some r else after_semi r end.
Definition remove_path (s : st) : st * option exn :=
  match after_semi (path s) with Some p => (set_path p s, None) | None => (s, Some TypeError) end.
(** 342-358 *)
Definition push_mod (m : amod) (s : st) : st := set_dir (Some (m_location m)) (set_tree (m :: tree s) s).
Definition pop_mod (s : st) : st * option exn :=
  match tl (tree s) with
  | m :: r => (set_dir (Some (m_location m)) (set_tree (m :: r) s), None)
  | [] => (set_tree [] s, Some TypeError)
  end.
Definition wipe_mods (s : st) : st := set_dir None (set_tree [] s).
(** 335-339 *)
Definition unload_cache (s : st) : st := set_loaded [] s.

Section Load.
  (** The enabled mods by name ([mods], [MOD_LIST]), the files, and whether two
      references to mods in Lua are the same. *)
  Variable mods : list (pystr * amod).
  Variable files : pystr -> option chunk.
  Variable same : amod -> amod -> bool.
  Definition modn (n : pystr) : option amod := dget pystr_eqb mods n.

  (** [normalize_module_name], 86-135 *)
  Definition normalize (name : pystr) : result (pystr * bool) :=
    let n := lead (dots (strip_lua name)) in
    match find_tag n with
    | None => Ok (n, false)
    | Some t =>
      if pystr_eqb t (str "core") || pystr_eqb t (str "base") then Ok (replace (tag t) (str "./factorio-data/" ++ t) n, true)
      else match modn t with Some m => Ok (replace (tag t) (m_location m) n, true) | None => Err AssertionError end
    end.

  (** 146-154 *)
  Definition to_push (name : pystr) (s : st) : option amod :=
    match find_tag name with
    | None => None
    | Some t =>
      match modn t with
      | None => None
      | Some m => match tree s with top :: _ => if same top m then None else Some m | [] => Some m end
      end
    end.
  (** 172-194: the folder that is searched first. *)
  Definition enter (norm : pystr) (absolute : bool) (s : st) : st * option exn :=
    match get_parent norm with
    | Some p =>
      if absolute then (add_path (in_dir p (str "?.lua")) s, None)
      else match dir s with
           | Some d => (add_path (in_dir d (in_dir p (str "?.lua"))) s, None)
           | None => (s, Some TypeError)
           end
    | None =>
      let rel := match get_parent (cur s) with Some p => p | None => [] end in
      let s := if absolute then s else set_with (Some (in_dir rel (str "?.lua"))) s in
      match with_path s with
      | Some w => (set_cur (in_dir rel norm) (add_path w s), None)
      | None => (s, Some TypeError)
      end
    end.

  (** The searchers: 223-247, then 252-263 with update.py 310-353 (a mod has no
      [internal_folder]), then 269-295. *)
  Definition substitute (name norm : pystr) : option value :=
    if pystr_eqb name (str "__base__/menu-simulations/menu-simulations") then Some (Dummy (str "menu"))
    else if occurs (str "menu-simulations") norm then Some (Dummy (str "empty"))
    else if occurs_inside (str "graphics/") norm then Some (Dummy (str "graphics"))
    else if occurs_inside (str "sound/") norm then Some (Dummy (str "sound"))
    else None.
  Fixpoint find_file (templates : list pystr) (norm : pystr) : option (pystr * chunk) :=
    match templates with
    | [] => None
    | t :: r => match files (fill t norm) with Some c => Some (fill t norm, c) | None => find_file r norm end
    end.
  Inductive found := Ready (v : value) | Chunk (path : pystr) (c : chunk).
  Definition search (name : pystr) (s : st) : result found :=
    let* p := normalize name in
    match substitute name (fst p) with
    | Some v => Ok (Ready v)
    | None =>
      match tree s with
      | m :: _ => if m_archive m then Err AttributeError
                  else match find_file (pieces [] (path s)) (fst p) with Some (f, c) => Ok (Chunk f c) | None => Err ValueError end
      | [] => match find_file (pieces [] (path s)) (fst p) with Some (f, c) => Ok (Chunk f c) | None => Err ValueError end
      end
    end.
  Definition remember (name : pystr) (v : value) (s : st) : st := set_loaded (dset pystr_eqb (loaded s) name v) s.

  (** The statements of a file; [req] is [require]. *)
  Fixpoint run (req : pystr -> st -> st * result value) (c : chunk) (s : st) : st * option exn :=
    match c with
    | [] => (s, None)
    | Mark n :: r => run req r (say (Point n) s)
    | Req n :: r => match req n s with (s, Ok v) => run req r (say (Got n v) s) | (s, Err e) => (s, Some e) end
    | Try n :: r => match req n s with (s, Ok v) => run req r (say (Got n v) s) | (s, Err e) => run req r (say (Missed n e) s) end
    end.
  (** Lua's own [require]. *)
  Definition old_require (req : pystr -> st -> st * result value) (name : pystr) (s : st) : st * result value :=
    match dget pystr_eqb (loaded s) name with
    | Some v => (s, Ok v)
    | None =>
      match search name s with
      | Err e => (s, Err e)
      | Ok (Ready v) => (remember name v s, Ok v)
      | Ok (Chunk f c) =>
        match run req c (say (Loads name f) s) with
        | (s, None) => (remember name (File f) s, Ok (File f))
        | (s, Some e) => (s, Err e)
        end
      end
    end.
  (** 142-212 *)
  Fixpoint require (fuel : nat) (name : pystr) (s : st) : st * result value :=
    match fuel with
    | O => (s, Err RecursionError)
    | S fuel =>
      let pushed := to_push name s in
      let s := match pushed with Some m => push_mod m s | None => s end in
      match normalize name with
      | Err e => (s, Err e)
      | Ok (norm, absolute) =>
        match enter norm absolute s with
        | (s, Some e) => (s, Err e)
        | (s, None) =>
          match old_require (require fuel) name s with
          | (s, Err e) => (s, Err e)
          | (s, Ok v) =>
            match remove_path s with
            | (s, Some e) => (s, Err e)
            | (s, None) =>
              match pushed with
              | None => (s, Ok v)
              | Some _ => match pop_mod s with (s, Some e) => (s, Err e) | (s, None) => (s, Ok v) end
              end
            end
          end
        end
      end
    end.

  (** ** Phases *)
  (** update.py 356-369; mod_list.py 149-157 for archives ([self.data] is not there). *)
  Definition begun (m : amod) (stage : pystr) (s : st) : st :=
    let s := push_mod m s in
    let s := set_cur (in_dir (m_location m) stage) s in
    let s := add_path (in_dir (m_location m) (str "?.lua")) s in
    say (Began (m_name m) stage (path s) (cur s) (dir s) (map fst (loaded s))) s.
  Definition run_mod_phase (fuel : nat) (m : amod) (stage : pystr) (s : st) : st * option exn :=
    let s := begun m stage s in
    if m_archive m then (s, Some AttributeError)
    else match files (in_dir (m_location m) stage) with
         | Some c => run (require fuel) c s
         | None => (s, Some ValueError)
         end.
  Definition mem (x : pystr) (l : list pystr) : bool := existsb (pystr_eqb x) l.
  (** The loops 380-397 and 426-449; only the latter wipes the tree. *)
  Fixpoint run_mods (fuel : nat) (base : pystr) (wipe : bool) (stage : pystr) (order : list amod) (s : st) : st * option exn :=
    match order with
    | [] => (s, None)
    | m :: r =>
      let s := set_path base s in
      if mem stage (m_stages m) then
        match run_mod_phase fuel m stage s with
        | (s, Some e) => (s, Some e)
        | (s, None) => run_mods fuel base wipe stage r (let s := unload_cache s in if wipe then wipe_mods s else s)
        end
      else run_mods fuel base wipe stage r s
    end.
  Fixpoint run_stages (fuel : nat) (base : pystr) (wipe : bool) (stages : list pystr) (order : list amod) (s : st) : st * option exn :=
    match stages with
    | [] => (s, None)
    | stage :: r => match run_mods fuel base wipe stage order s with (s, None) => run_stages fuel base wipe r order s | x => x end
    end.
  Definition SETTINGS := [str "settings.lua"; str "settings-updates.lua"; str "settings-final-fixes.lua"].
  Definition DATA := [str "data.lua"; str "data-updates.lua"; str "data-final-fixes.lua"].
  (** 697-710, with the first line of [compatibility/settings.lua] in between. *)
  Definition lifecycle (fuel : nat) (base : pystr) (order : list amod) (s : st) : st * option exn :=
    match run_stages fuel base false SETTINGS order s with
    | (s, Some e) => (s, Some e)
    | (s, None) =>
      match require fuel (str "compatibility.serpent") s with
      | (s, Err e) => (s, Some e)
      | (s, Ok _) => run_stages fuel base true DATA order s
      end
    end.
End Load.

(** ** The values of settings, 407-417 *)
Definition table (A : Type) := list (pystr * A).
Fixpoint overwrite_names {V} (own : option (table V)) (given : table V) : result (option (table V)) :=
  match given with
  | [] => Ok own
  | (n, v) :: r =>
    match own with
    | None => Err TypeError
    | Some t => overwrite_names (Some (match dget pystr_eqb t n with Some _ => dset pystr_eqb t n v | None => t end)) r
    end
  end.
Fixpoint overwrite {V} (settings : table (table V)) (user : table (table V)) : result (table (table V)) :=
  match user with
  | [] => Ok settings
  | (ty, given) :: r =>
    let* own := overwrite_names (dget pystr_eqb settings ty) given in
    overwrite (match own with Some t => dset pystr_eqb settings ty t | None => settings end) r
  end.
