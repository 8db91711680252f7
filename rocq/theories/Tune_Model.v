(** Instruments and notes of programmable speakers:
    /repo/draftsman/data/instruments.py, environment/update.py 1198-1228 and the
    names and numbers of prototypes/programmable_speaker.py 677-831.

    The three dictionaries [raw], [index_of] and [name_of] have the speakers as
    keys; here one dictionary gives all three tables of a speaker.  Only the names
    of instruments and notes are kept of [raw].  An entry of [name_of] maps 0, 1,
    ... to notes and is shown as the list of them, with ["self"] beside it.  The
    setters are those for values that pass validation. *)
From Coq Require Import ZArith List Bool String.
From Verif Require Import Common Dict.
Import ListNotations.
Local Open Scope string_scope.
Local Open Scope list_scope.
Local Open Scope Z_scope.

Definition sdict := dict pystr.
Record tables := mkT {
  t_raw : list (pystr * list pystr);
  t_index : sdict (sdict Z);
  t_names : dict Z (pystr * list pystr) }.
Definition registry := sdict tables.

Fixpoint enumerate {A} (k : Z) (l : list A) : list (Z * A) :=
  match l with [] => [] | x :: l' => (k, x) :: enumerate (k + 1) l' end.
(** [list.insert(i, x)]. *)
Definition place_of (n : nat) (i : Z) : nat :=
  if i <? 0 then Z.to_nat (Z.max 0 (i + Z.of_nat n)) else Nat.min (Z.to_nat i) n.
Definition list_insert {A} (l : list A) (i : Z) (x : A) : list A :=
  firstn (place_of (List.length l) i) l ++ x :: skipn (place_of (List.length l) i) l.

(** instruments.py 46-47: [{"self": k, **{notes[i]: i ...}}]. *)
Definition index_entry (k : Z) (notes : list pystr) : sdict Z :=
  fold_left (fun d p => dset pystr_eqb d (fst p) (snd p))
    (dict_of pystr_eqb (map (fun p => (snd p, fst p)) (enumerate 0 notes))) [(str "self", k)].

(** instruments.py 20-51. *)
Definition add_instrument (speakers : list pystr) (r : registry)
    (name : pystr) (notes : list pystr) (index : option Z) (entity : pystr) : result registry :=
  if negb (existsb (pystr_eqb entity) speakers) then Err TypeError
  else match dget pystr_eqb r entity with
       | None => Err KeyError
       | Some t =>
           let i := match index with Some i => i | None => Z.of_nat (List.length (t_raw t)) end in
           Ok (dset pystr_eqb r entity
                 (mkT (list_insert (t_raw t) i (name, notes))
                      (dset pystr_eqb (t_index t) name (index_entry i notes))
                      (dset Z.eqb (t_names t) i (name, notes))))
       end.

(** update.py 1210-1224, for one speaker. *)
Definition extract_one (t : tables) (p : Z * (pystr * list pystr)) : tables :=
  let '(i, (name, notes)) := p in
  let d := fold_left (fun d q => dset pystr_eqb d (snd q) (fst q)) (enumerate 0 notes) [(str "self", i)] in
  mkT (t_raw t) (dset pystr_eqb (t_index t) name d) (dset Z.eqb (t_names t) i (name, notes)).
Definition extract (l : list (pystr * list pystr)) : tables :=
  fold_left extract_one (enumerate 0 l) (mkT l [] []).

(** The speaker: its name, [instrument_id] and [note_id]. *)
Record speaker := mkSp { sp_name : pystr; sp_instrument : option Z; sp_note : option Z }.

(** 729-733. *)
Definition names_entry (r : registry) (s : speaker) : option (pystr * list pystr) :=
  obind (dget pystr_eqb r (sp_name s)) (fun t =>
  obind (sp_instrument s) (fun i => dget Z.eqb (t_names t) i)).
Definition get_instrument_name (r : registry) (s : speaker) : option pystr :=
  option_map fst (names_entry r s).
(** 746-754. *)
Definition set_instrument_name (r : registry) (s : speaker) (v : option pystr) : speaker :=
  mkSp (sp_name s)
    (obind v (fun n =>
     obind (dget pystr_eqb r (sp_name s)) (fun t =>
     obind (dget pystr_eqb (t_index t) n) (fun d => dget pystr_eqb d (str "self")))))
    (sp_note s).
Definition set_instrument_id (s : speaker) (v : option Z) : speaker := mkSp (sp_name s) v (sp_note s).
(** 802-806. *)
Definition get_note_name (r : registry) (s : speaker) : option pystr :=
  obind (names_entry r s) (fun e =>
  obind (sp_note s) (fun j => if j <? 0 then None else nth_error (snd e) (Z.to_nat j))).
(** 823-831; no instrument has the name [None]. *)
Definition set_note_name (r : registry) (s : speaker) (v : option pystr) : speaker :=
  mkSp (sp_name s) (sp_instrument s)
    (obind v (fun n =>
     obind (dget pystr_eqb r (sp_name s)) (fun t =>
     obind (get_instrument_name r s) (fun i =>
     obind (dget pystr_eqb (t_index t) i) (fun d => dget pystr_eqb d n))))).
