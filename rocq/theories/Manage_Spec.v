(** What reading and enabling mods should do, stated without the patterns. *)
From Coq Require Import ZArith NArith List Bool String Permutation.
From Verif Require Import Common Order Version_Model Manage_Model.
Import ListNotations.
Local Open Scope string_scope.
Local Open Scope list_scope.

Section Unicode.
Variables uni_word uni_digit uni_space : N -> bool.
Local Notation wordc := (wordc uni_word).
Local Notation digitc := (digitc uni_digit).
Local Notation spacec := (spacec uni_space).

(** *** A scanner for dependencies, from left to right. *)
Definition name_char (c : N) : bool := wordc c || N.eqb c DASH.
Definition filler (c : N) : bool := negb (wordc c || N.eqb c QUEST || N.eqb c BANG).
Definition number_char (c : N) : bool := digitc c || N.eqb c DOT.
Definition starts (s t : pystr) : bool := pystr_eqb (firstn (List.length s) t) s.
Definition split_flag (t : pystr) : option pystr * pystr :=
  match find (fun f => starts f t) [str "!"; str "?"; str "(?)"; str "~"] with
  | Some f => (Some f, skipn (List.length f) t)
  | None => (None, t)
  end.
Definition split_op (t : pystr) : option pystr * pystr :=
  match find (fun o => starts o t) [str ">="; str "<="; str "=="; str ">"; str "<"; str "="] with
  | Some o => (Some o, skipn (List.length o) t)
  | None => (None, t)
  end.
Definition some_text (s : pystr) : option pystr := match s with [] => None | _ => Some s end.
(** What follows the last dash. *)
Fixpoint after_dash (s : pystr) : option pystr :=
  match s with
  | [] => None
  | c :: t => match after_dash t with Some u => Some u | None => if N.eqb c DASH then Some t else None end
  end.
Definition scan_rest (flag : option pystr) (name t : pystr) : dependency :=
  let (op, u) := split_op t in mkDep flag (Some name) op (some_text (take_while number_char u)).
Definition scan (t : pystr) : option dependency :=
  let (flag, r) := split_flag t in
  let r' := drop_while filler r in
  let name := take_while name_char r' in
  match r' with
  | c :: _ =>
      if wordc c then Some (scan_rest flag name (drop_while name_char r'))
      else option_map (fun u => scan_rest flag [DASH] (u ++ r')) (after_dash (take_while filler r))
  | [] => option_map (fun u => scan_rest flag [DASH] u) (after_dash (take_while filler r))
  end.

(** A dependency as it is meant to be written. *)
Definition good_flag (f : option pystr) : Prop := match f with None => True | Some s => In s [str "!"; str "?"; str "(?)"; str "~"] end.
Definition good_name (n : pystr) : Prop := match n with c :: _ => wordc c = true | [] => False end /\ Forall (fun c => name_char c = true) n.
Definition good_op (o : option pystr) : Prop :=
  match o with None => True | Some s => In s [str ">="; str "<="; str "=="; str ">"; str "<"; str "="] end.
Definition good_version (o v : option pystr) : Prop :=
  match v with None => True | Some s => s <> [] /\ Forall (fun c => number_char c = true) s /\ o <> None end.
Definition shown (o : option pystr) : pystr := match o with Some s => s | None => [] end.

(** *** Names of archives and folders. *)
Definition archive_form (t name ver rest : pystr) : Prop :=
  t = name ++ str "_" ++ ver ++ str ".zip" ++ rest /\ name <> [] /\ ver <> [] /\ Forall (fun c => number_char c = true) ver.
Definition plain_char (c : N) : bool := negb (spacec c || N.eqb c DOT).
Definition folder_name (n : pystr) : Prop := n <> [] /\ Forall (fun c => plain_char c = true) n.
Definition folder_form (t name : pystr) (ver : option pystr) : Prop :=
  exists e, (e = [] \/ e = [10%N]) /\ folder_name name /\
  match ver with
  | None => t = name ++ e
  | Some v => t = name ++ str "_" ++ v ++ e /\ v <> [] /\ Forall (fun c => number_char c = true) v /\ In DOT v
  end.

(** *** Making mods. *)
Definition acceptable (i : info) : Prop :=
  (forall k, In k [str "location"; str "stages"; str "enabled"; str "self"] -> ~ In k (i_keys i)) /\
  (forall k, In k [str "name"; str "title"; str "author"] -> In k (i_keys i)).
Definition base_dep : dependency := mkDep None (Some (str "base")) None None.
Definition deps_are (i : info) (ds : list dependency) : Prop :=
  match i_deps i with
  | Some l => Forall2 (fun s d => scan (no_spaces s) = Some d) l ds
  | None => ds = [base_dep]
  end.
Definition lacks (i : info) : bool := match i_deps i with None => true | Some _ => false end.
End Unicode.

(** *** Paths. *)
Definition first_part (s : pystr) : pystr := take_while (fun c => negb (N.eqb c SLASH)) s.
(** The same letter in either case, or the same digit; the same but for all else. *)
Inductive same_letter : N -> N -> Prop :=
| sl_digit c : (48 <= c <= 57)%N -> same_letter c c
| sl_lower c : (97 <= c <= 122)%N -> same_letter c c
| sl_upper c : (65 <= c <= 90)%N -> same_letter c c
| sl_down c : (65 <= c <= 90)%N -> same_letter c (c + 32)
| sl_up c : (65 <= c <= 90)%N -> same_letter (c + 32) c.
Inductive alike : pystr -> pystr -> Prop :=
| alike_nil : alike [] []
| alike_left c a b : (forall d, ~ same_letter c d) -> alike a b -> alike (c :: a) b
| alike_right c a b : (forall d, ~ same_letter c d) -> alike a b -> alike a (c :: b)
| alike_both c d a b : same_letter c d -> alike a b -> alike (c :: a) (d :: b).
(** The folder meant by an archive. *)
Definition meant (folder_name : pystr) (dirs : list pystr) (d : pystr) : Prop :=
  dirs = [d] \/
  (List.length dirs <> 1 /\ In folder_name dirs /\ d = folder_name) \/
  (List.length dirs <> 1 /\ ~ In folder_name dirs /\ In d dirs /\ simplified d = simplified folder_name /\
   forall d', In d' dirs -> simplified d' = simplified folder_name -> d' = d).

(** *** mod-list.json. *)
Definition first_named (l : list listed) (i : nat) (n : pystr) : Prop :=
  (exists e, nth_error l i = Some e /\ l_name e = Some n) /\
  forall j e, (j < i)%nat -> nth_error l j = Some e -> l_name e <> Some n.
Definition all_named (l : list listed) : Prop := Forall (fun e => l_name e <> None) l.
(** Found in a mod: under the archive's own name, or in a folder. *)
Definition clean (f : pystr) : Prop := match f with [] => False | c :: _ => c <> SLASH end.
Definition made_as (uni_word uni_digit : N -> bool) (x : pystr * list pystr * info * bool * bool) (m : mod_) : Prop :=
  let '(loc, st, i, b, a) := x in
  acceptable i /\ exists ds, deps_are uni_word uni_digit i ds /\
  m = mkMod_ loc st (i_name i) (match i_version i with Some v => v | None => [] end) ds b a.
Definition version_fits (name : pystr) (i : info) : Prop :=
  In name [str "base"; str "core"] \/
  exists v t, i_factorio i = Some v /\ version_string_to_tuple v = Ok t /\ tuple_cmp t [2; 0; 42; 0]%Z <> Gt.
(** How many leave their dependencies out. *)
Definition lacking (l : list (pystr * list pystr * info * bool * bool)) : nat := List.length (filter (fun x => lacks (snd (fst (fst x)))) l).
(** The list after the change: which entries are touched. *)
Definition changed (l l' : list listed) (names : list pystr) (b : bool) : Prop :=
  List.length l' = List.length l /\
  forall i e, nth_error l i = Some e -> exists e', nth_error l' i = Some e' /\ l_name e' = l_name e /\ l_rest e' = l_rest e /\
    ((exists n, In n names /\ first_named l i n) -> l_enabled e' = Some b) /\ (~ (exists n, In n names /\ first_named l i n) -> e' = e).
Definition the_list (mods : list pystr) (file : option (list listed)) : list listed := match file with Some l => l | None => default_list mods end.

(** *** What is read from an archive and from a folder. *)
Definition longest_form (uni_digit : N -> bool) (s n v r : pystr) : Prop :=
  archive_form uni_digit s n v r /\ forall n' v' r', archive_form uni_digit s n' v' r' -> (List.length n' <= List.length n)%nat.
Definition first_parts (files dirs : list pystr) : Prop := NoDup dirs /\ forall d, In d dirs <-> exists f, In f files /\ first_part f = d.
Definition archive_mod (uni_digit : N -> bool) (a : archive) (ml : list listed) (name n dir : pystr) (i : info) (b : bool) : Prop :=
  (exists v r dirs, longest_form uni_digit name n v r /\ first_parts (a_names a) dirs /\ meant (n ++ str "_" ++ v) dirs dir) /\
  a_info a (dir ++ str "/info.json") = Some i /\ i_version i <> None /\ version_fits (no_spaces n) i /\ enabled_of ml (no_spaces n) = Ok b.
Definition folder_mod (uni_digit uni_space : N -> bool) (f : folder) (ml : list listed) (name n : pystr) (i : info) (b : bool) : Prop :=
  (exists v, folder_form uni_digit uni_space name n v) /\ f_info f = Some i /\ version_fits n i /\ enabled_of ml n = Ok b.
(** The stages of a mod: those of the six files that are there, in this order. *)
Definition stages_are (there : pystr -> Prop) (st : list pystr) : Prop :=
  exists present, (forall s, present s = true <-> there s) /\
  st = filter present [str "settings.lua"; str "settings-updates.lua"; str "settings-final-fixes.lua"; str "data.lua"; str "data-updates.lua"; str "data-final-fixes.lua"].
