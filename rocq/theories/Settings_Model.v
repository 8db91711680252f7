(** The binary mod settings: /repo/draftsman/environment/mod_settings.py
    29-99 [decode_mod_settings], 102-171 [encode_mod_settings].

    Bytes and characters are numbers.  A float is its 64-bit pattern.  The Python
    recursion limit is the parameter [limit]. *)
From Coq Require Import ZArith NArith List Bool.
From Verif Require Import Common Dict Version_Model Utf8.
Import ListNotations.
Local Open Scope N_scope.

Definition bytes := list N.
Inductive value :=
| VNone
| VBool (b : bool)
| VFloat (bits : N)
| VStr (s : pystr)
| VInt (z : Z)
| VList (l : list value)
| VDict (d : list (option pystr * value)).

(** [stream.read(n)]: as many bytes as there are, at most [n]. *)
Definition read (n : N) (s : bytes) : bytes * bytes :=
  if n <=? N.of_nat (List.length s) then (firstn (N.to_nat n) s, skipn (N.to_nat n) s) else (s, []).
(** [struct.unpack] of one little-endian number of [n] bytes. *)
Fixpoint le (b : bytes) : N := match b with [] => 0 | x :: b' => x + 256 * le b' end.
Definition unpack (n : nat) (b : bytes) : result N :=
  if Nat.eqb (List.length b) n then Ok (le b) else Err StructError.
Definition read_num (n : nat) (s : bytes) : result (N * bytes) :=
  let (b, r) := read (N.of_nat n) s in let* v := unpack n b in Ok (v, r).
(** ["<q"]. *)
Definition signed (v : N) : Z := if v <? 2 ^ 63 then Z.of_N v else Z.of_N v - 2 ^ 64.

(** 46-60. *)
Definition read_string (s : bytes) : result (option pystr * bytes) :=
  let* (absent, s) := read_num 1 s in
  if negb (absent =? 0) then Ok (None, s)
  else
    let* (n, s) := read_num 1 s in
    let* (n, s) := if n =? 255 then read_num 4 s else Ok (n, s) in
    let (b, s) := read n s in
    match utf8_decode b with Some t => Ok (Some t, s) | None => Err UnicodeError end.

(** 86-93: the dictionary loop.  Every round takes at least one byte; [fuel] is
    the number of bytes left and never runs out. *)
Definition okey_eqb (a b : option pystr) : bool :=
  match a, b with Some x, Some y => pystr_eqb x y | None, None => true | _, _ => false end.
Fixpoint read_entries (node : bytes -> result (value * bytes)) (fuel : nat) (n : N) (s : bytes) (out : list (option pystr * value))
  : result (list (option pystr * value) * bytes) :=
  if n =? 0 then Ok (out, s)
  else
    match fuel with
    | O => Err OutOfFuel
    | S f =>
        let* (k, s) := read_string s in
        let* (v, s) := node s in
        read_entries node f (n - 1) s (dset okey_eqb out k v)
    end.

(** 63-97. *)
Fixpoint read_node (limit : nat) (s : bytes) : result (value * bytes) :=
  match limit with
  | O => Err RecursionError
  | S limit =>
      let* (t, s) := read_num 1 s in
      let (_, s) := read 1 s in
      if t =? 0 then Ok (VNone, s)
      else if t =? 1 then let* (b, s) := read_num 1 s in Ok (VBool (negb (b =? 0)), s)
      else if t =? 2 then let* (v, s) := read_num 8 s in Ok (VFloat v, s)
      else if t =? 3 then
        let* (o, s) := read_string s in Ok (match o with Some t => VStr t | None => VNone end, s)
      else if t =? 4 then let* _ := read_num 4 s in Err TypeError (* range(tuple) *)
      else if t =? 5 then
        let* (n, s) := read_num 4 s in
        let* (d, s) := read_entries (read_node limit) (List.length s + 1) n s [] in Ok (VDict d, s)
      else if t =? 6 then let* (v, s) := read_num 8 s in Ok (VInt (signed v), s)
      else if t =? 7 then Err TypeError (* unpack of a stream *)
      else Err ValueError
  end.

(** 29-99; the version number is read and dropped. *)
Definition decode_mod_settings (limit : nat) (s : bytes) : result (value * bytes) :=
  let* (_, s) := read_num 8 s in
  let* (flag, s) := read_num 1 s in
  if negb (flag =? 0) then Err AssertionError else read_node limit s.

(** *** The writer. *)
Fixpoint le_bytes (n : nat) (v : N) : bytes := match n with O => [] | S k => v mod 256 :: le_bytes k (v / 256) end.
(** [struct.pack("<B", v)], [("<I", v)]. *)
Definition pack (n : nat) (v : N) : result bytes := if v <? 256 ^ N.of_nat n then Ok (le_bytes n v) else Err StructError.
(** [struct.pack("<q", v)]. *)
Definition pack_q (z : Z) : result bytes :=
  if ((- 2 ^ 63 <=? z) && (z <? 2 ^ 63))%Z%bool then Ok (le_bytes 8 (Z.to_N (z mod 2 ^ 64))) else Err StructError.
(** 122-134: no byte for "absent"; the length counts characters; [write(255)]
    is a [TypeError]. *)
Definition write_string (s : pystr) : result bytes :=
  if 255 <=? N.of_nat (List.length s) then Err TypeError
  else match utf8_encode s with
       | Some b => Ok ([3; 0; N.of_nat (List.length s)] ++ b)
       | None => Err UnicodeError
       end.
(** 136-164: [type(dict) is dict] is never true, so dictionaries write nothing. *)
Fixpoint write_node (limit : nat) (v : value) : result bytes :=
  match limit with
  | O => Err RecursionError
  | S limit =>
      match v with
      | VNone => Ok [0; 0]
      | VBool b => Ok [1; 0; if b then 1 else 0]
      | VFloat bits => Ok ([2; 0] ++ le_bytes 8 bits)
      | VStr s => write_string s
      | VList l =>
          let* n := pack 4 (N.of_nat (List.length l)) in
          let* bs := map_result (write_node limit) l in
          Ok ([4; 0] ++ n ++ concat bs)
      | VDict _ => Ok []
      | VInt z => let* b := pack_q z in Ok ([6; 0] ++ b)
      end
  end.
(** 102-171; [struct.pack("<Q")] without a number fails, so nothing else is
    reached. *)
Definition encode_mod_settings (version : result Z) (tree : value) : result bytes :=
  let* _ := version in Err StructError.
(** 195-212 [write_mod_settings]: the file is emptied before anything is
    written.  The result and the file's new content. *)
Definition write_mod_settings (version : result Z) (tree : value) (file : bytes) : result unit * bytes :=
  match encode_mod_settings version tree with
  | Ok b => (Ok tt, b)
  | Err e => (Err e, [])
  end.
