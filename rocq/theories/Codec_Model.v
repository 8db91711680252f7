(** Blueprint strings (utils.py 381-422): [string_to_JSON] and
    [JSON_to_string], with the standard-library parts they are made of.

    Modelled in full: [base64.b64encode]/[b64decode] (CPython's
    [binascii.b2a_base64], and [a2b_base64] in its default lenient mode),
    [json.dumps] with [separators=(",", ":")] (ASCII output), [json.loads] on
    [bytes] (encoding detection, the grammar, escapes and surrogate pairs,
    duplicate keys, the recursion limits).
    Taken as given functions ([lib]): [zlib], the text form of floating point
    numbers, and the codecs that turn bytes into text.
    Not modelled: dictionaries whose keys are not strings (which [json.dumps]
    rewrites), the limit on the number of digits of an integer, memory. *)
From Coq Require Import ZArith NArith List Bool String.
From Verif Require Import Common Dict Version_Model.
Import ListNotations.
Local Open Scope string_scope.
Local Open Scope list_scope.
Local Open Scope N_scope.

Definition byte_list := list N.

(** ** Base 64 *)

Definition PAD : N := 61.

(** The alphabet of [binascii]. *)
Definition letter (n : N) : N :=
  if n <? 26 then 65 + n
  else if n <? 52 then 71 + n
  else if n <? 62 then n - 4
  else if n =? 62 then 43 else 47.
Definition sextet (c : N) : option N :=
  if (65 <=? c) && (c <=? 90) then Some (c - 65)
  else if (97 <=? c) && (c <=? 122) then Some (c - 71)
  else if (48 <=? c) && (c <=? 57) then Some (c + 4)
  else if c =? 43 then Some 62
  else if c =? 47 then Some 63
  else None.

(** [base64.b64encode(b)] (utils.py 420). *)
Fixpoint b64encode (b : byte_list) : pystr :=
  match b with
  | [] => []
  | [x] => [letter (x / 4); letter (x mod 4 * 16); PAD; PAD]
  | [x; y] => [letter (x / 4); letter (x mod 4 * 16 + y / 16); letter (y mod 16 * 4); PAD]
  | x :: y :: z :: b' =>
      letter (x / 4) :: letter (x mod 4 * 16 + y / 16) :: letter (y mod 16 * 4 + z / 64) :: letter (z mod 64) :: b64encode b'
  end.

(** The state of [a2b_base64]: how many characters of the current group of
    four were read, the bits left over, and after two characters whether one
    padding sign was seen. *)
Inductive quad := Q0 | Q1 (left : N) | Q2 (left : N) (pad : bool) | Q3 (left : N).
Fixpoint a2b (s : pystr) (q : quad) : option byte_list :=
  match s with
  | [] => match q with Q0 => Some [] | _ => None end
  | c :: s' =>
      if c =? PAD then
        match q with
        | Q2 l false => a2b s' (Q2 l true)
        | Q2 _ true | Q3 _ => Some []
        | Q0 | Q1 _ => a2b s' q
        end
      else
        match sextet c with
        | None => a2b s' q
        | Some n =>
            match q with
            | Q0 => a2b s' (Q1 n)
            | Q1 l => option_map (cons (l * 4 + n / 16)) (a2b s' (Q2 (n mod 16) false))
            | Q2 l _ => option_map (cons (l * 16 + n / 4)) (a2b s' (Q3 (n mod 4)))
            | Q3 l => option_map (cons (l * 64 + n)) (a2b s' Q0)
            end
        end
  end.

(** [base64.b64decode(s)] (utils.py 396): text outside ASCII is refused. *)
Definition b64decode (s : pystr) : result byte_list :=
  if forallb (fun c => c <? 128) s then
    match a2b s Q0 with Some b => Ok b | None => Err ValueError end
  else Err ValueError.

(** ** JSON *)

(** What [json.loads] builds; [F] are the finite floating point numbers. *)
Inductive json (F : Type) :=
| JNull
| JBool (b : bool)
| JInt (z : Z)
| JFloat (f : F)
| JNaN
| JInf
| JNegInf
| JStr (s : pystr)
| JList (l : list (json F))
| JObj (l : list (pystr * json F)).
Arguments JNull {F}. Arguments JBool {F}. Arguments JInt {F}. Arguments JFloat {F}. Arguments JNaN {F}.
Arguments JInf {F}. Arguments JNegInf {F}. Arguments JStr {F}. Arguments JList {F}. Arguments JObj {F}.

(** The library functions that are not modelled. *)
Inductive encoding := Utf8 | Utf8Sig | Utf16 | Utf16Be | Utf16Le | Utf32 | Utf32Be | Utf32Le.
Record lib := {
  flt : Type;                                      (* finite floats *)
  float_repr : flt -> pystr;                       (* float.__repr__ *)
  float_of : pystr -> flt;                         (* float(text) *)
  compress : byte_list -> byte_list;               (* zlib.compress(_, 9) *)
  decompress : byte_list -> option byte_list;      (* zlib.decompress; None when it raises *)
  decode : encoding -> byte_list -> option pystr;  (* bytes.decode(_, 'surrogatepass'); None when it raises *)
  dump_limit : nat;                                (* nesting at which json.dumps raises RecursionError *)
  load_limit : nat                                 (* and json.loads *)
}.

(** *** [json.dumps] *)

Definition hex_digit (n : N) : N := if n <? 10 then 48 + n else 87 + n.
Definition hex4 (n : N) : pystr :=
  [hex_digit (n / 4096); hex_digit (n / 256 mod 16); hex_digit (n / 16 mod 16); hex_digit (n mod 16)].
Definition u_escape (n : N) : pystr := 92 :: 117 :: hex4 n.

(** One character of a string ([py_encode_basestring_ascii]). *)
Definition escape (c : N) : pystr :=
  if c =? 34 then [92; 34]
  else if c =? 92 then [92; 92]
  else if (32 <=? c) && (c <=? 126) then [c]
  else if c =? 10 then [92; 110]
  else if c =? 13 then [92; 114]
  else if c =? 9 then [92; 116]
  else if c =? 12 then [92; 102]
  else if c =? 8 then [92; 98]
  else if c <? 65536 then u_escape c
  else u_escape (55296 + (c - 65536) / 1024) ++ u_escape (56320 + (c - 65536) mod 1024).
Definition quote (s : pystr) : pystr := 34 :: flat_map escape s ++ [34].

Section Json.
  Variable L : lib.
  Let F := flt L.

  (** The encoder; [d] levels of nesting are left. *)
  Fixpoint dumps (d : nat) (v : json F) {struct d} : result pystr :=
    match v with
    | JNull => Ok (str "null")
    | JBool true => Ok (str "true")
    | JBool false => Ok (str "false")
    | JInt z => Ok (int_str z)
    | JFloat f => Ok (float_repr L f)
    | JNaN => Ok (str "NaN")
    | JInf => Ok (str "Infinity")
    | JNegInf => Ok (str "-Infinity")
    | JStr s => Ok (quote s)
    | JList l =>
        match d with
        | O => Err RecursionError
        | S d' =>
            let* ts := map_result (dumps d') l in
            Ok (91 :: join_with [44] ts ++ [93])
        end
    | JObj l =>
        match d with
        | O => Err RecursionError
        | S d' =>
            let* ts := map_result (fun p : pystr * json F => let* t := dumps d' (snd p) in Ok (quote (fst p) ++ 58 :: t : pystr)) l in
            Ok (123 :: join_with [44] ts ++ [125])
        end
    end.

  (** *** [json.loads] *)

  Definition is_ws (c : N) : bool := (c =? 32) || (c =? 9) || (c =? 10) || (c =? 13).
  Fixpoint skip (s : pystr) : pystr :=
    match s with [] => [] | c :: s' => if is_ws c then skip s' else s end.

  Definition hex_val (c : N) : option N :=
    if (48 <=? c) && (c <=? 57) then Some (c - 48)
    else if (97 <=? c) && (c <=? 102) then Some (c - 87)
    else if (65 <=? c) && (c <=? 70) then Some (c - 55)
    else None.
  Definition hex4_val (a b c d : N) : option N :=
    obind (hex_val a) (fun a => obind (hex_val b) (fun b => obind (hex_val c) (fun c => obind (hex_val d) (fun d =>
      Some (a * 4096 + b * 256 + c * 16 + d))))).
  Definition is_high (u : N) : bool := (55296 <=? u) && (u <=? 56319).
  Definition is_low (u : N) : bool := (56320 <=? u) && (u <=? 57343).
  Definition join_pair (u w : N) : N := 65536 + (u - 55296) * 1024 + (w - 56320).

  Definition simple_escape (c : N) : option N :=
    if c =? 34 then Some 34
    else if c =? 92 then Some 92
    else if c =? 47 then Some 47
    else if c =? 98 then Some 8
    else if c =? 102 then Some 12
    else if c =? 110 then Some 10
    else if c =? 114 then Some 13
    else if c =? 116 then Some 9
    else None.

  Definition push (c : N) (r : option (pystr * pystr)) : option (pystr * pystr) :=
    option_map (fun p => (c :: fst p, snd p)) r.

  (** [scanstring], strict, after the opening quote: the contents and what
      follows the closing quote. *)
  Fixpoint scan (s : pystr) : option (pystr * pystr) :=
    match s with
    | [] => None
    | c :: s1 =>
        if c =? 34 then Some ([], s1)
        else if c =? 92 then
          match s1 with
          | [] => None
          | e :: s2 =>
              if e =? 117 then
                match s2 with
                | a :: b :: c :: d :: s3 =>
                    match hex4_val a b c d with
                    | None => None
                    | Some u =>
                        if is_high u then
                          match s3 with
                          | x :: y :: a' :: b' :: c' :: d' :: s4 =>
                              if (x =? 92) && (y =? 117) then
                                match hex4_val a' b' c' d' with
                                | None => None
                                | Some w => if is_low w then push (join_pair u w) (scan s4) else push u (scan s3)
                                end
                              else push u (scan s3)
                          | _ => push u (scan s3)
                          end
                        else push u (scan s3)
                    end
                | _ => None
                end
              else match simple_escape e with Some x => push x (scan s2) | None => None end
          end
        else if c <? 32 then None
        else push c (scan s1)
    end.

  (** The longest run of digits. *)
  Fixpoint digits (s : pystr) : pystr * pystr :=
    match s with
    | c :: s' => if is_digit c then (c :: fst (digits s'), snd (digits s')) else ([], s)
    | [] => ([], [])
    end.

  Definition sign_part (s : pystr) : pystr * pystr :=
    match s with c :: s' => if c =? 45 then ([c], s') else ([], s) | [] => ([], s) end.
  Definition whole_part (s : pystr) : option (pystr * pystr) :=
    match s with
    | [] => None
    | c :: s' =>
        if c =? 48 then Some ([c], s')
        else if is_digit c then Some (c :: fst (digits s'), snd (digits s'))
        else None
    end.
  Definition frac_part (s : pystr) : pystr * pystr :=
    match s with
    | c :: s' =>
        if c =? 46 then
          match digits s' with ([], _) => ([], s) | (ds, r) => (c :: ds, r) end
        else ([], s)
    | [] => ([], s)
    end.
  Definition exp_part (s : pystr) : pystr * pystr :=
    match s with
    | c :: s' =>
        if (c =? 101) || (c =? 69) then
          let sg := match s' with x :: s2 => if (x =? 43) || (x =? 45) then ([x], s2) else ([], s') | [] => ([], s') end in
          match digits (snd sg) with ([], _) => ([], s) | (ds, r) => (c :: fst sg ++ ds, r) end
        else ([], s)
    | [] => ([], s)
    end.

  (** [_match_number_unicode]. *)
  Definition number (s : pystr) : result (json F * pystr) :=
    let (sg, s1) := sign_part s in
    match whole_part s1 with
    | None => Err ValueError
    | Some (w, s2) =>
        let (fr, s3) := frac_part s2 in
        let (ex, s4) := exp_part s3 in
        match fr ++ ex with
        | [] => let* z := py_int (sg ++ w) in Ok (JInt z, s4)
        | t => Ok (JFloat (float_of L (sg ++ w ++ t)), s4)
        end
    end.

  (** [w] at the start of [s]: what follows it. *)
  Fixpoint after (w s : pystr) : option pystr :=
    match w, s with
    | [], _ => Some s
    | c :: w', x :: s' => if c =? x then after w' s' else None
    | _ :: _, [] => None
    end.

  (** The words, then numbers ([scan_once_unicode]). *)
  Definition scalar_or (s : pystr) : result (json F * pystr) :=
    match after (str "null") s with Some r => Ok (JNull, r) | None =>
    match after (str "true") s with Some r => Ok (JBool true, r) | None =>
    match after (str "false") s with Some r => Ok (JBool false, r) | None =>
    match after (str "NaN") s with Some r => Ok (JNaN, r) | None =>
    match after (str "Infinity") s with Some r => Ok (JInf, r) | None =>
    match after (str "-Infinity") s with Some r => Ok (JNegInf, r) | None => number s
    end end end end end end.

  (** [scan_once_unicode], [_parse_array_unicode] and [_parse_object_unicode];
      [d] levels of nesting are left.  [elements] and [members] start at an
      element with what was read before it. *)
  Fixpoint value (fuel d : nat) (s : pystr) : result (json F * pystr) :=
    match fuel with
    | O => Err OutOfFuel
    | S n =>
        match s with
        | [] => Err StopIteration
        | c :: s1 =>
            if c =? 34 then
              match scan s1 with Some (t, r) => Ok (JStr t, r) | None => Err ValueError end
            else if c =? 123 then
              match d with
              | O => Err RecursionError
              | S d' =>
                  match skip s1 with
                  | [] => Err ValueError
                  | c2 :: s2 => if c2 =? 125 then Ok (JObj [], s2) else members n d' [] (c2 :: s2)
                  end
              end
            else if c =? 91 then
              match d with
              | O => Err RecursionError
              | S d' =>
                  match skip s1 with
                  | [] => Err StopIteration
                  | c2 :: s2 => if c2 =? 93 then Ok (JList [], s2) else elements n d' [] (c2 :: s2)
                  end
              end
            else scalar_or s
        end
    end
  with elements (fuel d : nat) (acc : list (json F)) (s : pystr) : result (json F * pystr) :=
    match fuel with
    | O => Err OutOfFuel
    | S n =>
        let* (v, s1) := value n d s in
        match skip s1 with
        | [] => Err ValueError
        | c :: s2 =>
            if c =? 93 then Ok (JList (acc ++ [v]), s2)
            else if c =? 44 then elements n d (acc ++ [v]) (skip s2)
            else Err ValueError
        end
    end
  with members (fuel d : nat) (acc : list (pystr * json F)) (s : pystr) : result (json F * pystr) :=
    match fuel with
    | O => Err OutOfFuel
    | S n =>
        match s with
        | [] => Err ValueError
        | c :: s0 =>
            if c =? 34 then
              match scan s0 with
              | None => Err ValueError
              | Some (k, s1) =>
                  match skip s1 with
                  | [] => Err ValueError
                  | c1 :: s2 =>
                      if c1 =? 58 then
                        let* (v, s3) := value n d (skip s2) in
                        match skip s3 with
                        | [] => Err ValueError
                        | c2 :: s4 =>
                            if c2 =? 125 then Ok (JObj (dset pystr_eqb acc k v), s4)
                            else if c2 =? 44 then members n d (dset pystr_eqb acc k v) (skip s4)
                            else Err ValueError
                        end
                      else Err ValueError
                  end
              end
            else Err ValueError
        end
    end.

  (** [JSONDecoder.decode]. *)
  Definition decode_text (s : pystr) : result (json F) :=
    let* (v, r) := value (2 * List.length s + 2) (load_limit L) (skip s) in
    match skip r with [] => Ok v | _ => Err ValueError end.

  (** [json.detect_encoding]. *)
  Definition starts (w b : byte_list) : bool := match after w b with Some _ => true | None => false end.
  Definition detect_encoding (b : byte_list) : encoding :=
    if starts [0; 0; 254; 255] b || starts [255; 254; 0; 0] b then Utf32
    else if starts [254; 255] b || starts [255; 254] b then Utf16
    else if starts [239; 187; 191] b then Utf8Sig
    else match b with
         | b0 :: b1 :: b2 :: b3 :: _ =>
             if b0 =? 0 then (if b1 =? 0 then Utf32Be else Utf16Be)
             else if b1 =? 0 then (if (b2 =? 0) && (b3 =? 0) then Utf32Le else Utf16Le)
             else Utf8
         | [b0; b1] => if b0 =? 0 then Utf16Be else if b1 =? 0 then Utf16Le else Utf8
         | _ => Utf8
         end.

  (** [json.loads(b)] on [bytes]. *)
  Definition loads (b : byte_list) : result (json F) :=
    match decode L (detect_encoding b) b with
    | None => Err UnicodeError
    | Some s => decode_text s
    end.

  (** utils.py 381-398 [string_to_JSON]: every exception becomes one. *)
  Definition string_to_JSON (s : pystr) : result (json F) :=
    match
      (let* b := b64decode (tl s) in
       match decompress L b with
       | None => Err ValueError
       | Some t => loads t
       end)
    with
    | Ok v => Ok v
    | Err _ => Err MalformedBlueprintStringError
    end.

  (** utils.py 401-422 [JSON_to_string].  The output of [json.dumps] is ASCII,
      so its UTF-8 bytes are its characters. *)
  Definition JSON_to_string (v : json F) : result pystr :=
    let* t := dumps (dump_limit L) v in
    Ok (48 :: b64encode (compress L t)).
End Json.
