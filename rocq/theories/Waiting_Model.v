(** A wait condition from its arguments to its export:
    /repo/draftsman/classes/schedule.py 60-103 (the format), 105-171 (construction),
    187-256 (the setters), 260-289 ([validate]), 356-376 (a list of them);
    classes/exportable.py 14-46, 137-146, 226-260 and 319-334; signatures.py 141-161;
    constants.py 685-699, 729-783 and 802-835.

    Members of the enumerations are the strings they equal.  Bools and floats that
    pydantic reads as ints are ints here.  A [Condition] is a [VCond], [VCond 0] being
    [Condition()]; how a value is read as a condition, with or without "construction"
    in the context, is a parameter, as is the dictionary a condition is exported to.
    Lists and dictionaries are [VList], they and conditions cannot be hashed.
    [_root] has no extra keys, as the constructor gives it none. *)
From Coq Require Import ZArith NArith List Bool String.
From Verif Require Import Common Dict Assign_Model.
Import ListNotations.
Local Open Scope string_scope.
Local Open Scope list_scope.
Local Open Scope Z_scope.

Definition sdict := dict pystr.
Inductive val := VNone | VInt (z : Z) | VStr (s : pystr) | VCond (c : Z) | VOther (n : Z) | VList (n : Z).
Definition is_none (v : val) : bool := match v with VNone => true | _ => false end.
(** [v == "..."] *)
Definition is_str (s : string) (v : val) : bool :=
  match v with VStr x => pystr_eqb x (str s) | _ => false end.

(** What a validator does with a value: a new value, a ValidationError, or another
    exception; with the warnings it appended to the list. *)
Inductive reading := Read (v : val) (ws : list Z) | Refused (ws : list Z) | Raises (e : exn).
(** [numeral]: the strings pydantic reads as ints; [cond con m v]: validation of [v]
    as a [Condition] under construction or not, in mode [m]; [dump]: [model_dump]. *)
Record env := mkEnv {
  numeral : pystr -> option Z;
  cond : bool -> mode -> val -> reading;
  dump : Z -> val
}.

(** [_root] and [_validate_assignment]. *)
Record wait := mkWait { w_type : val; w_compare : val; w_ticks : val; w_cond : val; w_assign : mode }.
Inductive field := FType | FCompare | FTicks | FCond.
Definition get (f : field) (w : wait) : val :=
  match f with FType => w_type w | FCompare => w_compare w | FTicks => w_ticks w | FCond => w_cond w end.
Definition put (f : field) (v : val) (w : wait) : wait :=
  match f with
  | FType => mkWait v (w_compare w) (w_ticks w) (w_cond w) (w_assign w)
  | FCompare => mkWait (w_type w) v (w_ticks w) (w_cond w) (w_assign w)
  | FTicks => mkWait (w_type w) (w_compare w) v (w_cond w) (w_assign w)
  | FCond => mkWait (w_type w) (w_compare w) (w_ticks w) v (w_assign w)
  end.

(** constants.py 765-773 and 782-783 *)
Definition types : list string :=
  ["time"; "inactivity"; "full"; "empty"; "item_count"; "fluid_count"; "circuit"; "passenger_present";
   "passenger_not_present"].
Definition compares : list string := ["and"; "or"].
Definition member (l : list string) (v : val) : bool := existsb (fun s => is_str s v) l.
Definition uint32 (z : Z) : bool := (0 <=? z) && (z <? 4294967296).
(** 60-92: the fields of the format, [strict=False]. *)
Definition read_field (E : env) (con : bool) (m : mode) (f : field) (v : val) : reading :=
  match f with
  | FType => if member types v then Read v [] else Refused []
  | FCompare => if member compares v then Read v [] else Refused []
  | FTicks =>
      match v with
      | VNone => Read VNone []
      | VInt z => if uint32 z then Read (VInt z) [] else Refused []
      | VStr s => match numeral E s with
                  | Some z => if uint32 z then Read (VInt z) [] else Refused []
                  | None => Refused []
                  end
      | _ => Refused []
      end
  | FCond => match v with VNone => Read VNone [] | _ => cond E con m v end
  end.
(** signatures.py 141-161 under construction, with [mode] NONE (148-157). *)
Definition build_field (E : env) (f : field) (v : val) : result val :=
  match read_field E true MNone f v with
  | Read v' _ => Ok v'
  | Refused _ => Ok v
  | Raises e => Err e
  end.

(** 260-289.  The values read are thrown away; [false] is one DataFormatError. *)
Fixpoint check_fields (E : env) (m : mode) (w : wait) (fs : list field) : result (bool * list Z) :=
  match fs with
  | [] => Ok (true, [])
  | f :: fs' =>
      match read_field E false m f (get f w) with
      | Raises e => Err e
      | Read _ ws => let* r := check_fields E m w fs' in Ok (fst r, ws ++ snd r)
      | Refused ws => let* r := check_fields E m w fs' in Ok (false, ws ++ snd r)
      end
  end.
Definition all_fields : list field := [FType; FCompare; FTicks; FCond].
Definition validate (E : env) (m : mode) (force : bool) (w : wait) : result (bool * list Z) :=
  if mode_eq m MNone && negb force then Ok (true, []) else check_fields E m w all_fields.
(** exportable.py 142-146: [reissue_all]. *)
Definition reissue (r : bool * list Z) : result (list Z) :=
  if fst r then Ok (snd r) else Err DataFormatError.

(** [ValidationMode(value)] *)
Definition as_mode (v : val) : result mode :=
  if is_str "none" v then Ok MNone else if is_str "minimum" v then Ok MMinimum
  else if is_str "strict" v then Ok MStrict else if is_str "pedantic" v then Ok MPedantic
  else Err ValueError.

(** The arguments of [__init__], 105-126. *)
Record args := mkArgs { a_type : val; a_compare : val; a_ticks : val; a_cond : val; a_validate : val; a_assign : val }.
(** 145-148 *)
Definition fill_ticks (ty tk : val) : val :=
  if is_str "time" ty && is_none tk then VInt 1800
  else if is_str "inactivity" ty && is_none tk then VInt 300
  else tk.
(** 149-154; membership in a set hashes the type. *)
Definition counted : list string := ["item_count"; "fluid_count"; "circuit"].
Definition fill_cond (ty c : val) : result val :=
  match ty with
  | VList _ | VCond _ => Err TypeError
  | _ => Ok (if member counted ty then if is_none c then VCond 0 else c else c)
  end.
(** 140-171 *)
Definition construct (E : env) (a : args) : result (wait * list Z) :=
  let tk := fill_ticks (a_type a) (a_ticks a) in
  let* c := fill_cond (a_type a) (a_cond a) in
  let* ty := build_field E FType (a_type a) in
  let* cmp := build_field E FCompare (a_compare a) in
  let* tk := build_field E FTicks tk in
  let* c := build_field E FCond c in
  let* vm := as_mode (a_assign a) in
  let w := mkWait ty cmp tk c vm in
  let* m := as_mode (a_validate a) in
  let* r := validate E m false w in
  let* ws := reissue r in
  Ok (w, ws).

(** ** The life of a wait condition *)
Inductive op := OSet (f : field) (v : val) | OMode (v : val) | OValidate (m : mode) (force : bool).
(** The condition afterwards, and the warnings issued or the exception raised.
    192-199 and so on; exportable.py 14-46: with validation the value read is stored
    by pydantic, and once more by the setter. *)
Definition step (E : env) (w : wait) (o : op) : wait * result (list Z) :=
  match o with
  | OSet f v =>
      if mode_bool (w_assign w) then
        match read_field E false (w_assign w) f v with
        | Read v' ws => (put f v' w, Ok ws)
        | Refused _ => (w, Err DataFormatError)
        | Raises e => (w, Err e)
        end
      else (put f v w, Ok [])
  | OMode v =>
      match as_mode v with
      | Ok m => (mkWait (w_type w) (w_compare w) (w_ticks w) (w_cond w) m, Ok [])
      | Err e => (w, Err e)
      end
  | OValidate m force => (w, let* r := validate E m force w in reissue r)
  end.
Fixpoint run (E : env) (w : wait) (os : list op) : wait :=
  match os with [] => w | o :: os' => run E (fst (step E w o)) os' end.

(** ** Lists of wait conditions *)
Inductive item := IWait (w : wait) | IDict (d : sdict val) | IOther (n : Z).
Definition params : list string := ["type"; "compare_type"; "ticks"; "condition"; "validate"; "validate_assignment"].
Definition is_param (k : pystr) : bool := existsb (fun s => pystr_eqb k (str s)) params.
Definition arg (d : sdict val) (k : string) (v : val) : val :=
  match dget pystr_eqb d (str k) with Some x => x | None => v end.
(** [WaitCondition( **d )] *)
Definition call (E : env) (d : sdict val) : result (wait * list Z) :=
  if forallb (fun kv => is_param (fst kv)) d then
    match dget pystr_eqb d (str "type") with
    | None => Err TypeError
    | Some ty => construct E (mkArgs ty (arg d "compare_type" (VStr (str "or"))) (arg d "ticks" VNone)
                                (arg d "condition" VNone) (arg d "validate" (VStr (str "strict")))
                                (arg d "validate_assignment" (VStr (str "strict"))))
    end
  else Err TypeError.
(** 363-371: [WaitConditions(conditions)] works on the list it is given.  The list
    afterwards, the warnings issued, and the exception if there is one; without one
    the list is [_conditions]. *)
Fixpoint make (E : env) (l : list item) : list item * list Z * option exn :=
  match l with
  | [] => ([], [], None)
  | IWait w :: l' => let '(l2, ws, e) := make E l' in (IWait w :: l2, ws, e)
  | IDict d :: l' =>
      match call E d with
      | Ok (w, ws) => let '(l2, ws2, e) := make E l' in (IWait w :: l2, ws ++ ws2, e)
      | Err x => (l, [], Some x)
      end
  | IOther n :: l' => (l, [], Some TypeError)
  end.

(** ** Export: exportable.py 319-334 *)
Definition shown (k : string) (skip : bool) (v : val) : sdict val := if skip then [] else [(str k, v)].
Definition export (E : env) (w : wait) : sdict val :=
  shown "type" (is_none (w_type w)) (w_type w)
  ++ shown "compare_type" (is_none (w_compare w) || is_str "or" (w_compare w)) (w_compare w)
  ++ shown "ticks" (is_none (w_ticks w)) (w_ticks w)
  ++ match w_cond w with
     | VNone => []
     | VCond c => if c =? 0 then [] else [(str "condition", dump E c)]
     | v => [(str "condition", v)]
     end.
