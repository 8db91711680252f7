(** The tune of a programmable speaker, with the names that are kept but not
    exported: /repo/draftsman/prototypes/programmable_speaker.py 55-242 (the format),
    676-831 (the setters) and 845-850; classes/exportable.py 14-46;
    classes/entity.py 700-740.  The tables of instruments are those of C60.

    An assignment through pydantic writes the field it is given (control_behavior
    is the same object afterwards), so [instrument_name] and [note_name] are written
    although the setters store the numbers only.  Left out: all other fields of the
    speaker, except that they are accepted or not by [validate]; bools and floats
    that pydantic reads as ints are ints here; other values are [VOther] if they can
    be looked up in a dictionary and [VList] if not.  No number but an int is a key. *)
From Coq Require Import ZArith NArith List Bool String.
From Verif Require Import Common Dict Assign_Model Tune_Model.
Import ListNotations.
Local Open Scope string_scope.
Local Open Scope list_scope.
Local Open Scope Z_scope.

Inductive val := VNone | VInt (z : Z) | VStr (s : pystr) | VOther (n : Z) | VList (n : Z).
Definition val_eqb (a b : val) : bool :=
  match a, b with
  | VNone, VNone => true
  | VInt x, VInt y => x =? y
  | VStr x, VStr y => pystr_eqb x y
  | VOther x, VOther y => x =? y
  | VList x, VList y => x =? y
  | _, _ => false
  end.
(** [circuit_parameters] and the name of the speaker. *)
Record params := mkParams { sp : pystr; iid : val; iname : val; nid : val; nname : val }.
Definition fresh (n : pystr) : params := mkParams n (VInt 0) VNone (VInt 0) VNone.
Definition with_iid (s : params) (v : val) : params := mkParams (sp s) v (iname s) (nid s) (nname s).
Definition with_iname (s : params) (v : val) : params := mkParams (sp s) (iid s) v (nid s) (nname s).
Definition with_nid (s : params) (v : val) : params := mkParams (sp s) (iid s) (iname s) v (nname s).
Definition with_nname (s : params) (v : val) : params := mkParams (sp s) (iid s) (iname s) (nid s) v.

(** [numeral]: the strings pydantic reads as ints. *)
Record env := mkEnv { reg : registry; numeral : pystr -> option Z }.
Definition tables_of (E : env) (s : params) : option tables := dget pystr_eqb (reg E) (sp s).

(** [d.get(key)] for [name_of[speaker]] and [index_of[speaker]], or [{}]. *)
Definition find_id (t : option tables) (v : val) : result (option (pystr * list pystr)) :=
  match v with
  | VList _ => Err TypeError
  | VInt z => Ok (match t with Some t => dget Z.eqb (t_names t) z | None => None end)
  | _ => Ok None
  end.
Definition find_name (t : option tables) (v : val) : result (option (sdict Z)) :=
  match v with
  | VList _ => Err TypeError
  | VStr n => Ok (match t with Some t => dget pystr_eqb (t_index t) n | None => None end)
  | _ => Ok None
  end.
(** [name_of[speaker][instrument].get(key)]. *)
Definition find_note (e : option (pystr * list pystr)) (v : val) : result (option pystr) :=
  match v with
  | VList _ => Err TypeError
  | VInt j => Ok (match e with Some e => if j <? 0 then None else nth_error (snd e) (Z.to_nat j) | None => None end)
  | VStr n => Ok (match e with Some e => if pystr_eqb n (str "self") then Some (fst e) else None | None => None end)
  | _ => Ok None
  end.
Definition as_val (o : option pystr) : val := match o with Some n => VStr n | None => VNone end.
(** 713-733 and 787-806: the getters. *)
Definition instrument_name (E : env) (s : params) : result val :=
  let* e := find_id (tables_of E s) (iid s) in Ok (as_val (option_map fst e)).
Definition note_name (E : env) (s : params) : result val :=
  let* e := find_id (tables_of E s) (iid s) in let* n := find_note e (nid s) in Ok (as_val n).

(** ** Validation of one field *)
Inductive warning := UnknownInstrument (v : val) | UnknownNote (v : val).
Definition strict (m : mode) : bool := negb (mode_le m MMinimum).
Definition is_none (v : val) : bool := match v with VNone => true | _ => false end.
(** 97-130 *)
Definition check_iid (E : env) (m : mode) (s : params) (v : val) : result (list warning) :=
  if strict m then
    match tables_of E s with
    | None => Ok []
    | Some t => if is_none v then Ok []
                else let* e := find_id (Some t) v in Ok (match e with Some _ => [] | None => [UnknownInstrument v] end)
    end
  else Ok [].
(** 132-160 *)
Definition check_iname (E : env) (m : mode) (s : params) (v : val) : result (list warning) :=
  if strict m then
    match tables_of E s with
    | None => Ok []
    | Some t => if is_none v then Ok []
                else let* d := find_name (Some t) v in Ok (match d with Some _ => [] | None => [UnknownInstrument v] end)
    end
  else Ok [].
(** 162-202 *)
Definition check_nid (E : env) (m : mode) (s : params) (v : val) : result (list warning) :=
  if strict m then
    match tables_of E s with
    | None => Ok []
    | Some t =>
        let* e := find_id (Some t) (iid s) in
        match e with
        | None => Ok []
        | Some e => if is_none v then Ok []
                    else let* n := find_note (Some e) v in Ok (match n with Some _ => [] | None => [UnknownNote v] end)
        end
    end
  else Ok [].
(** 204-240; [instrument_name] is the getter. *)
Definition in_entry (d : sdict Z) (v : val) : result bool :=
  match v with
  | VList _ => Err TypeError
  | VStr n => Ok (match dget pystr_eqb d n with Some _ => true | None => false end)
  | _ => Ok false
  end.
Definition check_nname (E : env) (m : mode) (s : params) (v : val) : result (list warning) :=
  if strict m then
    match tables_of E s with
    | None => Ok []
    | Some t =>
        let* i := instrument_name E s in
        let* d := find_name (Some t) i in
        match d with
        | None => Ok []
        | Some d => if is_none v then Ok []
                    else let* b := in_entry d v in Ok (if b : bool then [] else [UnknownNote v])
        end
    end
  else Ok [].

(** [Optional[uint32]] and [Optional[str]]. *)
Definition uint32 (z : Z) : bool := (0 <=? z) && (z <? 4294967296).
Definition as_id (E : env) (v : val) : option val :=
  match v with
  | VNone => Some VNone
  | VInt z => if uint32 z then Some (VInt z) else None
  | VStr s => match numeral E s with Some z => if uint32 z then Some (VInt z) else None | None => None end
  | _ => None
  end.
Definition as_name (v : val) : option val := match v with VNone | VStr _ => Some v | _ => None end.

(** ** The setters *)
Definition out := (params * (list warning * option exn))%type.
Definition raised (s : params) (x : exn) : out := (s, ([], Some x)).
(** [attempt_and_reissue], exportable.py 14-46, and what is done with the value. *)
Definition attempt (s : params) (w : option val) (check : val -> result (list warning)) (k : val -> list warning -> out) : out :=
  match w with
  | None => raised s DataFormatError
  | Some w => match check w with Ok ws => k w ws | Err x => raised s x end
  end.
(** 694-705 *)
Definition set_iid (E : env) (m : mode) (s : params) (v : val) : out :=
  if mode_bool m then attempt s (as_id E v) (check_iid E m s) (fun w ws => (with_iid s w, (ws, None)))
  else (with_iid s v, ([], None)).
(** 746-754 *)
Definition store_iname (E : env) (s : params) (ws : list warning) (v : val) : out :=
  if is_none v then (with_iid s VNone, (ws, None))
  else match find_name (tables_of E s) v with
       | Err x => (s, (ws, Some x))
       | Ok d => (with_iid s (match obind d (fun d => dget pystr_eqb d (str "self")) with Some k => VInt k | None => VNone end),
                  (ws, None))
       end.
(** 735-754 *)
Definition set_iname (E : env) (m : mode) (s : params) (v : val) : out :=
  if mode_bool m
  then attempt s (as_name v) (check_iname E m s) (fun w ws => store_iname E (with_iname s w) ws w)
  else store_iname E s [] v.
(** 772-783 *)
Definition set_nid (E : env) (m : mode) (s : params) (v : val) : out :=
  if mode_bool m then attempt s (as_id E v) (check_nid E m s) (fun w ws => (with_nid s w, (ws, None)))
  else (with_nid s v, ([], None)).
(** 823-831 *)
Definition look_note (E : env) (s : params) (v : val) : result val :=
  let* i := instrument_name E s in
  let* d := find_name (tables_of E s) i in
  match v with
  | VList _ => Err TypeError
  | VStr n => Ok (match obind d (fun d => dget pystr_eqb d n) with Some k => VInt k | None => VNone end)
  | _ => Ok VNone
  end.
Definition store_nname (E : env) (s : params) (ws : list warning) (v : val) : out :=
  if is_none v then (with_nid s VNone, (ws, None))
  else match look_note E s v with Err x => (s, (ws, Some x)) | Ok k => (with_nid s k, (ws, None)) end.
(** 808-831 *)
Definition set_nname (E : env) (m : mode) (s : params) (v : val) : out :=
  if mode_bool m
  then attempt s (as_name v) (check_nname E m s) (fun w ws => store_nname E (with_nname s w) ws w)
  else store_nname E s [] v.

(** ** Validation of the whole *)
(** The fields in their order: the values accepted, and the warnings. *)
Definition field (w : option val) (check : val -> result (list warning)) (acc : bool * list warning) : result (bool * list warning) :=
  match w with
  | None => Ok (false, snd acc)
  | Some w => let* ws := check w in Ok (fst acc, snd acc ++ ws)
  end.
Definition or_old (w : option val) (v : val) : val := match w with Some w => w | None => v end.
(** entity.py 700-740: the number of errors, the warnings and what is raised. *)
Definition validate (E : env) (m : mode) (force others : bool) (s : params) : params * (nat * list warning * option exn) :=
  if mode_eq m MNone && negb force then (s, (0%nat, [], None)) else
  let r :=
    let* a := field (as_id E (iid s)) (check_iid E m s) (others, []) in
    let* b := field (as_name (iname s)) (check_iname E m s) a in
    let* c := field (as_id E (nid s)) (check_nid E m s) b in
    field (as_name (nname s)) (check_nname E m s) c in
  match r with
  | Err x => (s, (0%nat, [], Some x))
  | Ok (true, ws) =>
      (mkParams (sp s) (or_old (as_id E (iid s)) (iid s)) (or_old (as_name (iname s)) (iname s))
                (or_old (as_id E (nid s)) (nid s)) (or_old (as_name (nname s)) (nname s)), (0%nat, ws, None))
  | Ok (false, ws) => (s, (1%nat, ws, None))
  end.

(** ** Equality and export *)
(** control_behavior.py 172-173: models are equal if all fields are; the rest of
    the speakers is the same. *)
Definition equal (a b : params) : bool :=
  pystr_eqb (sp a) (sp b) && val_eqb (iid a) (iid b) && val_eqb (iname a) (iname b)
  && val_eqb (nid a) (nid b) && val_eqb (nname a) (nname b).
(** exportable.py 319-334: without [None], without defaults, without excluded fields. *)
Definition shown (k : string) (v : val) : list (pystr * val) :=
  match v with VNone => [] | VInt 0 => [] | _ => [(str k, v)] end.
Definition export (s : params) : list (pystr * val) := shown "instrument_id" (iid s) ++ shown "note_id" (nid s).
Definition or_default (o : option val) : val := match o with Some v => v | None => VInt 0 end.
Definition import (n : pystr) (d : list (pystr * val)) : params :=
  mkParams n (or_default (dget pystr_eqb d (str "instrument_id"))) VNone (or_default (dget pystr_eqb d (str "note_id"))) VNone.

(** ** Histories *)
Inductive what := InstrumentId | InstrumentName | NoteId | NoteName.
Inductive call := Assign (x : what) (m : mode) (v : val) | Validate (m : mode) (force others : bool).
Definition assign (E : env) (x : what) (m : mode) (s : params) (v : val) : out :=
  match x with
  | InstrumentId => set_iid E m s v
  | InstrumentName => set_iname E m s v
  | NoteId => set_nid E m s v
  | NoteName => set_nname E m s v
  end.
Definition exec (E : env) (s : params) (c : call) : params :=
  match c with
  | Assign x m v => fst (assign E x m s v)
  | Validate m force others => fst (validate E m force others s)
  end.
Definition run (E : env) (cs : list call) (s : params) : params := fold_left (exec E) cs s.
