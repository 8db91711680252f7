(** The file mod-list.json: /repo/draftsman/environment/mod_list.py 193-198
    [read_mod_list_json] and 201-211 [write_mod_list_json].

    [json.dumps(_, indent=2)] is modelled as the other [json.dumps] is (see Codec_Model);
    what is in a file is modelled as characters: they are ASCII, so that the encoding of
    the platform does not matter, but the ends of lines may ([linesep]). *)
From Coq Require Import ZArith NArith List Bool String.
From Verif Require Import Common Version_Model Codec_Model.
Import ListNotations.
Local Open Scope list_scope.
Local Open Scope N_scope.

(** The end of a line and the indentation of the next. *)
Definition newline (level : nat) : pystr := 10 :: repeat 32 (2 * level).

Section Layout.
  Variable L : lib.
  Let F := flt L.

  (** [json.dumps(v, indent=2)] from the given level; [d] levels of nesting are left. *)
  Fixpoint pretty (d level : nat) (v : json F) {struct d} : result pystr :=
    match v with
    | JNull => Ok (str "null")
    | JBool true => Ok (str "true")
    | JBool false => Ok (str "false")
    | JInt z => Ok (int_str z)
    | JFloat f => Ok (float_repr L f)
    | JNaN => Ok (str "NaN")
    | JInf => Ok (str "Infinity")
    | JNegInf => Ok (str "-Infinity")
    | JStr s => Ok (quote s)
    | JList l =>
        match d with
        | O => Err RecursionError
        | S d' =>
            let* ts := map_result (pretty d' (S level)) l in
            match ts with
            | [] => Ok (str "[]")
            | _ => Ok (91 :: newline (S level) ++ join_with (44 :: newline (S level)) ts ++ newline level ++ [93])
            end
        end
    | JObj l =>
        match d with
        | O => Err RecursionError
        | S d' =>
            let* ts := map_result (fun p : pystr * json F =>
              let* t := pretty d' (S level) (snd p) in Ok (quote (fst p) ++ 58 :: 32 :: t : pystr)) l in
            match ts with
            | [] => Ok (str "{}")
            | _ => Ok (123 :: newline (S level) ++ join_with (44 :: newline (S level)) ts ++ newline level ++ [125])
            end
        end
    end.

  (** What the regular expression of line 210 matches at the start of a line: white space
      (of any number of lines), a brace, and then the end of a line.  The white space and
      what follows the brace. *)
  Fixpoint opening (s : pystr) : option (pystr * pystr) :=
    match s with
    | [] => None
    | c :: s' =>
        if is_space c then match opening s' with Some (w, r) => Some (c :: w, r) | None => None end
        else if c =? 123 then
          match s' with
          | [] => Some ([], [])
          | x :: _ => if x =? 10 then Some ([], s') else None
          end
        else None
    end.
  (** [re.sub] 210; [start] at the start of a line.  [n] exceeds the length. *)
  Fixpoint sub_from (n : nat) (start : bool) (s : pystr) : pystr :=
    match n with
    | O => s
    | S n' =>
        match (if start then opening s else None) with
        | Some (w, r) => 10 :: w ++ 123 :: sub_from n' false r
        | None => match s with [] => [] | c :: s' => c :: sub_from n' (c =? 10) s' end
        end
    end.
  Definition fix_braces (s : pystr) : pystr := sub_from (S (List.length s)) true s.

  (** Text files: the ends of lines as they are written, and as they are read. *)
  Definition written (linesep s : pystr) : pystr := flat_map (fun c => if c =? 10 then linesep else [c]) s.
  Fixpoint universal (s : pystr) : pystr :=
    match s with
    | [] => []
    | c :: s' =>
        if c =? 13 then
          10 :: match s' with
                | x :: s'' => if x =? 10 then universal s'' else universal s'
                | [] => []
                end
        else c :: universal s'
    end.

  (** [write_mod_list_json]: the file afterwards and the exception raised.  The file is
      opened, and so emptied, before [json.dumps].  [limit] is the nesting at which
      that raises. *)
  Definition write_mod_list (limit : nat) (linesep : pystr) (old : pystr) (v : json F) : pystr * option exn :=
    match pretty limit 0 v with
    | Ok out => (written linesep (fix_braces out), None)
    | Err e => ([], Some e)
    end.
  (** [read_mod_list_json]; [json.loads] refuses text that starts with a byte order mark. *)
  Definition read_mod_list (file : pystr) : result (json F) :=
    match universal file with
    | 65279 :: _ => Err ValueError
    | s => decode_text L s
    end.
End Layout.
