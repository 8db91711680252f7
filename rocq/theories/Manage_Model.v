(** Reading mods and enabling them:
    /repo/draftsman/environment/mod_list.py 16-20 [Dependency], 38-42 and 87-95
    (the patterns and the dependencies of [Mod]), 214-420 [register_mod], 614-663
    [set_mods_enabled].

    The three patterns are written as terms of a small language of regular
    expressions, run with the backtracking of Python's [re]: all ways to match, the
    preferred one first.  Which of the characters beyond ASCII are word characters,
    digits or space is left open.

    Simplifications: [os.path.split] is the one of POSIX.  A file whose name ends
    in ".zip" can be opened as an archive.  The values in info.json have the
    expected types: "name" and the two versions are strings, "dependencies" is a
    list of strings. *)
From Coq Require Import ZArith NArith List Bool String.
From Verif Require Import Common Order Version_Model.
Import ListNotations.
Local Open Scope string_scope.
Local Open Scope list_scope.

(** *** Regular expressions. *)
Inductive re :=
| Cls (p : N -> bool)          (* one character of a class *)
| Many (p : N -> bool)         (* [..]* *)
| Some1 (p : N -> bool)        (* [..]+ *)
| Seq (a b : re)
| Alt (a b : re)
| Opt (a : re)
| Group (n : nat) (a : re)
| End.                         (* $ *)
Definition groups := list (nat * pystr).

(** The splits of the text whose first part is in the class, longest first. *)
Fixpoint runs (p : N -> bool) (s : pystr) : list (pystr * pystr) :=
  match s with
  | [] => [([], [])]
  | c :: t => if p c then map (fun wt => (c :: fst wt, snd wt)) (runs p t) ++ [([], s)] else [([], s)]
  end.
Definition nonempty (s : pystr) : bool := match s with [] => false | _ => true end.
(** One way to match: what is taken, the groups, what is left. *)
Definition way := (pystr * groups * pystr)%type.
Definition after (f : pystr -> list way) (m : way) : list way :=
  let '(w, g, t) := m in map (fun m' : way => let '(w', g', t') := m' in (w ++ w', g ++ g', t')) (f t).
Fixpoint ways (r : re) (s : pystr) : list way :=
  match r with
  | Cls p => match s with c :: t => if p c then [([c], [], t)] else [] | [] => [] end
  | Many p => map (fun wt => (fst wt, [], snd wt)) (runs p s)
  | Some1 p => map (fun wt => (fst wt, [], snd wt)) (filter (fun wt => nonempty (fst wt)) (runs p s))
  | Seq a b => flat_map (after (ways b)) (ways a s)
  | Alt a b => ways a s ++ ways b s
  | Opt a => ways a s ++ [([], [], s)]
  | Group n a => map (fun m : way => let '(w, g, t) := m in (w, (n, w) :: g, t)) (ways a s)
  | End => match s with [] => [([], [], s)] | [c] => if N.eqb c 10 then [([], [], s)] else [] | _ => [] end
  end.
(** [re.match]: at the start of the text; it need not reach the end. *)
Definition re_match (r : re) (s : pystr) : option groups :=
  match ways r s with (_, g, _) :: _ => Some g | [] => None end.
Fixpoint group (g : groups) (n : nat) : option pystr :=
  match g with [] => None | (k, w) :: g' => if Nat.eqb k n then Some w else group g' n end.
Definition is (c : N) : re := Cls (fun x => N.eqb x c).

Definition BANG : N := 33. Definition QUEST : N := 63. Definition TILDE : N := 126.
Definition LPAR : N := 40. Definition RPAR : N := 41. Definition DASH : N := 45.
Definition UNDER : N := 95. Definition SLASH : N := 47. Definition SPACE : N := 32. Definition EQUALS : N := 61.
Definition among (l : list N) (c : N) : bool := existsb (N.eqb c) l.
Definition is_upper (c : N) : bool := ((65 <=? c) && (c <=? 90))%N.
Definition is_lower (c : N) : bool := ((97 <=? c) && (c <=? 122))%N.
Definition alnum (c : N) : bool := is_digit c || is_upper c || is_lower c.

Section Unicode.
Variables uni_word uni_digit uni_space : N -> bool.
Definition wordc (c : N) : bool := if (c <? 128)%N then alnum c || N.eqb c UNDER else uni_word c.  (* \w *)
Definition digitc (c : N) : bool := if (c <? 128)%N then is_digit c else uni_digit c.              (* \d *)
Definition spacec (c : N) : bool := if (c <? 128)%N then is_space c else uni_space c.              (* \s *)

(** 40-42: ^(\!|\?|\(\?\)|~)?[^\w\?\!]*([\w-]+)([><=]=?)?([\d\.]+)? *)
Definition dependency_regex : re :=
  Seq (Opt (Group 1 (Alt (is BANG) (Alt (is QUEST) (Alt (Seq (is LPAR) (Seq (is QUEST) (is RPAR))) (is TILDE))))))
  (Seq (Many (fun c => negb (wordc c || N.eqb c QUEST || N.eqb c BANG)))
  (Seq (Group 2 (Some1 (fun c => wordc c || N.eqb c DASH)))
  (Seq (Opt (Group 3 (Seq (Cls (among (str "><="))) (Opt (is EQUALS)))))
       (Opt (Group 4 (Some1 (fun c => digitc c || N.eqb c DOT))))))).
(** 38: (([\w\D]+)_([\d\.]+))\.zip *)
Definition archive_regex : re :=
  Seq (Group 1 (Seq (Group 2 (Some1 (fun c => wordc c || negb (digitc c))))
               (Seq (is UNDER) (Group 3 (Some1 (fun c => digitc c || N.eqb c DOT))))))
      (Seq (is DOT) (Seq (is 122) (Seq (is 105) (is 112)))).
(** 39: ([^\s.]+)(?:_([\d\.]+))?$ *)
Definition folder_regex : re :=
  Seq (Group 1 (Some1 (fun c => negb (spacec c || N.eqb c DOT))))
  (Seq (Opt (Seq (is UNDER) (Group 2 (Some1 (fun c => digitc c || N.eqb c DOT))))) End).

(** *** The dependencies of a mod. *)
(** 16-20 [Dependency]. *)
Record dependency := mkDep { d_flag : option pystr; d_name : option pystr; d_operation : option pystr; d_version : option pystr }.
(** [s.replace(" ", "")]. *)
Definition no_spaces (s : pystr) : pystr := filter (fun c => negb (N.eqb c SPACE)) s.
(** 88-93: one text; [m[1]] of no match is a TypeError. *)
Definition read_dependency (s : pystr) : result dependency :=
  match re_match dependency_regex (no_spaces s) with
  | Some g => Ok (mkDep (group g 1) (group g 2) (group g 3) (group g 4))
  | None => Err TypeError
  end.
(** An entry of a list of dependencies, before and after. *)
Inductive entry := Text (s : pystr) | Done (d : dependency).
(** 87-95: the list is rewritten in place, so what was done before a failure stays.
    [Dependency] has no method [replace]. *)
Fixpoint rewrite (l : list entry) : list entry * result (list dependency) :=
  match l with
  | [] => ([], Ok [])
  | Done d :: l' => (l, Err AttributeError)
  | Text s :: l' =>
      match read_dependency s with
      | Err e => (l, Err e)
      | Ok d =>
          let (done, r) := rewrite l' in
          (Done d :: done, match r with Ok ds => Ok (d :: ds) | Err e => Err e end)
      end
  end.
(** 57: the default list is one object, made once. *)
Definition first_default : list entry := [Text (str "base")].

(** *** info.json. *)
Record info := mkInfo { i_keys : list pystr;             (* all its keys *)
                        i_name : pystr; i_version : option pystr; i_factorio : option pystr;
                        i_deps : option (list pystr) }.
Definition has (i : info) (k : pystr) : bool := existsb (pystr_eqb k) (i_keys i).
Record mod_ := mkMod_ { m_location : pystr; m_stages : list pystr; m_name : pystr; m_version : pystr;
                        m_deps : list dependency; m_enabled : bool; m_archive : bool }.
(** The call [Mod(location=, stages=, **mod_info, enabled=)] (394-399 and 44-95): the
    arguments are bound first, then the dependencies are read.  [dflt] is the state
    of the default list. *)
Definition make_mod (dflt : list entry) (location : pystr) (stages : list pystr) (i : info) (enabled archive : bool)
    : list entry * result mod_ :=
  if existsb (has i) [str "location"; str "stages"; str "enabled"; str "self"] then (dflt, Err TypeError)
  else if negb (forallb (has i) [str "name"; str "title"; str "author"]) then (dflt, Err TypeError)
  else
    let made ds := mkMod_ location stages (i_name i) (match i_version i with Some v => v | None => [] end) ds enabled archive in
    match i_deps i with
    | Some l => (dflt, let* ds := snd (rewrite (map Text l)) in Ok (made ds))
    | None => let (dflt', r) := rewrite dflt in (dflt', let* ds := r in Ok (made ds))
    end.

(** *** The folder inside an archive. *)
(** [os.path.split] of POSIX: what follows the last slash, and what is before it
    without slashes at its end, unless it is nothing but slashes. *)
Fixpoint drop_while (p : N -> bool) (s : pystr) : pystr :=
  match s with [] => [] | c :: t => if p c then drop_while p t else s end.
Fixpoint take_while (p : N -> bool) (s : pystr) : pystr :=
  match s with [] => [] | c :: t => if p c then c :: take_while p t else [] end.
Definition path_split (s : pystr) : pystr * pystr :=
  let r := rev s in
  let tail := rev (take_while (fun c => negb (N.eqb c SLASH)) r) in
  let head := drop_while (fun c => negb (N.eqb c SLASH)) r in
  (rev (match drop_while (N.eqb SLASH) head with [] => head | h => h end), tail).
(** 243-247: one round of the loop over the names in the archive. *)
Fixpoint topdir (fuel : nat) (base : option pystr) (file : pystr) : result (option pystr) :=
  match file, fuel with
  | [], _ => Ok base
  | _, O => Err OutOfFuel
  | _, S f => let (h, b) := path_split file in topdir f (Some b) h
  end.
(** [set.add]. *)
Definition opt_eqb (a b : option pystr) : bool :=
  match a, b with Some x, Some y => pystr_eqb x y | None, None => true | _, _ => false end.
Definition set_add (l : list (option pystr)) (x : option pystr) : list (option pystr) :=
  if existsb (opt_eqb x) l then l else l ++ [x].
Fixpoint topdirs (fuel : nat) (acc : list (option pystr)) (files : list pystr) : result (list (option pystr)) :=
  match files with
  | [] => Ok acc
  | f :: fs => let* b := topdir fuel None f in topdirs fuel (set_add acc b) fs
  end.
(** 263: re.sub(r"[^a-zA-Z0-9]", "", s).lower() *)
Definition lower (c : N) : N := if is_upper c then (c + 32)%N else c.
Definition simplified (s : pystr) : pystr := map lower (filter alnum s).
(** 253-279.  [dirs] are the elements of the set in the order in which [list] gives
    them; on [None] the substitution is a TypeError, and so is [None + "/info.json"]. *)
Definition mod_folder (folder_name : pystr) (dirs : list (option pystr)) : result pystr :=
  match dirs with
  | [d] => match d with Some s => Ok s | None => Err TypeError end
  | _ =>
      if existsb (opt_eqb (Some folder_name)) dirs then Ok folder_name
      else
        let* names := map_result (fun d => match d with Some s => Ok s | None => Err TypeError end) dirs in
        match filter (fun s => pystr_eqb (simplified s) (simplified folder_name)) names with
        | [s] => Ok s
        | _ => Err DraftsmanError
        end
  end.

(** *** register_mod. *)
(** An entry of mod-list.json: its name, whether it is enabled, anything else. *)
Record listed := mkListed { l_name : option pystr; l_enabled : option bool; l_rest : list (pystr * pystr) }.
(** 385-392: the first entry of that name. *)
Fixpoint enabled_of (l : list listed) (name : pystr) : result bool :=
  match l with
  | [] => Ok true
  | e :: l' =>
      match l_name e with
      | None => Err KeyError
      | Some n =>
          if pystr_eqb n name then match l_enabled e with Some b => Ok b | None => Err KeyError end
          else enabled_of l' name
      end
  end.
(** What is found at the location: the names in the archive, the info.json at a path
    in the archive; or a folder with its info.json and its files. *)
Record archive := mkArchive { a_names : list pystr; a_info : pystr -> option info }.
Record folder := mkFolder { f_info : option info; f_file : pystr -> bool }.
Inductive place := Archive (a : archive) | Folder (f : folder) | Plain.
Definition all_stages : list pystr :=
  [str "settings.lua"; str "settings-updates.lua"; str "settings-final-fixes.lua";
   str "data.lua"; str "data-updates.lua"; str "data-final-fixes.lua"].
Definition path (dir file : pystr) : pystr := dir ++ SLASH :: file.
Definition version_info : list Z := [2; 0; 42; 0]%Z.
(** 322-325. *)
Definition check_factorio (mod_name : pystr) (i : info) : result unit :=
  if existsb (pystr_eqb mod_name) [str "base"; str "core"] then Ok tt
  else
    match i_factorio i with
    | None => Err KeyError
    | Some v =>
        let* t := version_string_to_tuple v in
        match tuple_cmp t version_info with Gt => Err AssertionError | _ => Ok tt end
    end.
(** [str.lower] is only asked whether the name ends in ".zip", in either case of
    ASCII; beyond ASCII no character has one of these four alone as its lower case. *)
Definition ends_zip (s : pystr) : bool :=
  match rev (map lower s) with 112 :: 105 :: 122 :: 46 :: _ => true | _ => false end%N.
(** [location.replace("\\", "/")]. *)
Definition forward (s : pystr) : pystr := map (fun c => if N.eqb c 92 then SLASH else c) s.

Definition register_mod (fuel : nat) (order : list (option pystr) -> list (option pystr)) (dflt : list entry)
    (mod_name location : pystr) (here : place) (ml : list listed) : list entry * result mod_ :=
  let found : result (pystr * info * (pystr -> bool) * bool) :=
    if ends_zip mod_name then
      match here with
      | Archive a =>
          match re_match archive_regex mod_name with
          | None => Err DraftsmanError
          | Some g =>
              match group g 1, group g 2 with
              | Some folder_name, Some n =>
                  let* dirs := topdirs fuel [] (a_names a) in
                  let* dir := mod_folder folder_name (order dirs) in
                  match a_info a (path dir (str "info.json")) with
                  | None => Err DraftsmanError
                  | Some i =>
                      match i_version i with
                      | None => Err KeyError
                      | Some _ => Ok (no_spaces n, i, (fun s => existsb (pystr_eqb (path dir s)) (a_names a)), true)
                      end
                  end
              | _, _ => Err AttributeError  (* unreachable: both groups are always set *)
              end
          end
      | _ => Err DraftsmanError             (* excluded by the simplification above *)
      end
    else
      match here with
      | Folder f =>
          match re_match folder_regex mod_name with
          | None => Err DraftsmanError
          | Some g =>
              match group g 1 with
              | Some n =>
                  match f_info f with
                  | None => Err DraftsmanError
                  | Some i => Ok (n, i, (fun s => f_file f (path location s)), false)
                  end
              | None => Err AttributeError  (* unreachable *)
              end
          end
      | _ => Err DraftsmanError
      end in
  match found with
  | Err e => (dflt, Err e)
  | Ok (n, i, present, arch) =>
      match check_factorio n i with
      | Err e => (dflt, Err e)
      | Ok _ =>
          match enabled_of ml n with
          | Err e => (dflt, Err e)
          | Ok b => make_mod dflt (forward location) (filter present all_stages) i b arch
          end
      end
  end.
(** Several mods one after the other, as [discover_mods] does. *)
Fixpoint make_all (dflt : list entry) (l : list (pystr * list pystr * info * bool * bool)) : result (list mod_) :=
  match l with
  | [] => Ok []
  | (loc, st, i, b, a) :: l' =>
      let (dflt', r) := make_mod dflt loc st i b a in
      let* m := r in
      let* ms := make_all dflt' l' in
      Ok (m :: ms)
  end.
End Unicode.

(** *** 614-663 [set_mods_enabled].  [file] is mod-list.json, if it is there; the
    answer is what is written at the end. *)
Definition default_list (mods : list pystr) : list listed := map (fun n => mkListed (Some n) (Some true) []) mods.
Fixpoint set_first (l : list listed) (name : pystr) (b : bool) : result (list listed) :=
  match l with
  | [] => Err StopIteration
  | e :: l' =>
      match l_name e with
      | None => Err KeyError
      | Some n =>
          if pystr_eqb n name then Ok (mkListed (l_name e) (Some b) (l_rest e) :: l')
          else let* r := set_first l' name b in Ok (e :: r)
      end
  end.
Fixpoint set_each (l : list listed) (names : list pystr) (b : bool) : result (list listed) :=
  match names with [] => Ok l | n :: ns => let* l' := set_first l n b in set_each l' ns b end.
Definition is_all (names : list pystr) : bool := match names with [n] => pystr_eqb n (str "all") | _ => false end.
Definition set_mods_enabled (mods : list pystr) (file : option (list listed)) (names : list pystr) (b : bool)
    : result (list listed) :=
  let l := match file with Some l => l | None => default_list mods end in
  if is_all names then
    (* 644: [mod.name] of a string *)
    match mods with [] => set_each l [] b | _ => Err AttributeError end
  else if forallb (fun n => existsb (pystr_eqb n) mods) names then set_each l names b
  else Err MissingModError.
