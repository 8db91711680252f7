(** The table of mods that is printed:
    /repo/draftsman/environment/mod_list.py 518-609 [display_mods].

    A mod is what is read of it.  Lengths count code points, as [len] and [format] do.
    The dictionary is the list of its items. *)
From Coq Require Import NArith List Bool String.
From Verif Require Import Common.
Import ListNotations.
Local Open Scope string_scope.
Local Open Scope list_scope.

Record lmod := mkL { l_name : pystr; l_version : pystr; l_location : pystr; l_enabled : bool; l_archive : bool }.
Definition mods := list (pystr * list lmod).

(** Characters beyond ASCII: the tick, the bar, and the lines. *)
Definition TICK : N := 10003.
Definition BAR : N := 9475.
Definition THICK : N := 9473.
Definition CROSS : N := 9547.
Definition LAST : N := 9492.
Definition MORE : N := 9500.
Definition THIN : N := 9472.
Definition SPACE : N := 32.

(** 524-525 *)
Definition clamp (minimum value maximum : nat) : nat := Nat.max minimum (Nat.min value maximum).
(** [max] of a generator. *)
Definition max_of (l : list nat) : result nat :=
  match l with [] => Err ValueError | n :: l' => Ok (fold_left Nat.max l' n) end.
(** 527-534 *)
Record widths := mkW { w_name : nat; w_version : nat; w_location : nat }.
Definition submods (ms : mods) : list lmod := flat_map snd ms.
Definition measure (ms : mods) : result widths :=
  let* n := max_of (map (fun kv => List.length (fst kv)) ms) in
  let* v := max_of (map (fun m => List.length (l_version m)) (submods ms)) in
  let* l := max_of (map (fun m => List.length (l_location m)) (submods ms)) in
  Ok (mkW (clamp 4 n 50) (clamp 7 v 30) (clamp 8 l 100)).
(** 536-544; [max_length] is at least 4. *)
Definition truncate_str (s : pystr) (max_length : nat) : pystr :=
  if Nat.ltb max_length (List.length s) then firstn (max_length - 3) s ++ str "..." else s.
(** ["{:<w}"] and ["{:>w}"], with a character to fill. *)
Definition left_aligned (fill : N) (s : pystr) (w : nat) : pystr := s ++ repeat fill (w - List.length s).
Definition right_aligned (s : pystr) (w : nat) : pystr := repeat SPACE (w - List.length s) ++ s.
(** 568-573 and 592-597: [i] of [n] versions. *)
Definition printed_name (w : widths) (mod_name : pystr) (n i : nat) (m : lmod) : pystr :=
  if Nat.eqb i 0 then truncate_str (l_name m) (w_name w)
  else if Nat.eqb i (n - 1) then LAST :: repeat THIN (List.length mod_name - 2) ++ str ">"
  else MORE :: repeat THIN (List.length mod_name - 2) ++ str ">".
Definition printed_version (w : widths) (m : lmod) : pystr :=
  if pystr_eqb (l_version m) [] then str "-" else truncate_str (l_version m) (w_version w).
Definition kind (m : lmod) : pystr := if l_archive m then str "(zip)" else str "(dir)".
Definition bar : pystr := [SPACE; BAR; SPACE].
Definition cross : pystr := [THICK; CROSS; THICK].
Definition ticked (m : lmod) (i : nat) : bool := l_enabled m && Nat.eqb i 0.
(** 575-588 *)
Definition long_row (w : widths) (mod_name : pystr) (n i : nat) (m : lmod) : pystr :=
  (if ticked m i then [SPACE; TICK; SPACE] else str "   ") ++ bar ++ kind m ++ bar ++
  left_aligned SPACE (printed_name w mod_name n i m) (w_name w) ++ bar ++
  right_aligned (printed_version w m) (w_version w) ++ bar ++ truncate_str (l_location m) (w_location w).
(** 599-609 *)
Definition short_row (w : widths) (mod_name : pystr) (n i : nat) (m : lmod) : pystr :=
  (if ticked m i then [TICK] else str " ") ++ str " " ++ kind m ++ str " " ++
  left_aligned SPACE (printed_name w mod_name n i m) (w_name w) ++ str "    " ++
  right_aligned (printed_version w m) (w_version w).
(** 548-564 *)
Definition header (w : widths) : list pystr :=
  [str "on?" ++ bar ++ left_aligned SPACE (str "type") 5 ++ bar ++ left_aligned SPACE (str "name") (w_name w) ++ bar ++
   left_aligned SPACE (str "version") (w_version w) ++ bar ++ str "location";
   left_aligned THICK [THICK] 3 ++ cross ++ left_aligned THICK [THICK] 5 ++ cross ++
   left_aligned THICK [THICK] (w_name w) ++ cross ++ left_aligned THICK [THICK] (w_version w) ++ cross ++
   left_aligned THICK [THICK] (w_location w)].
(** The loops 566-588 and 590-609. *)
Fixpoint versions_from (row : nat -> lmod -> pystr) (i : nat) (l : list lmod) : list pystr :=
  match l with [] => [] | m :: l' => row i m :: versions_from row (S i) l' end.
Definition rows (row : pystr -> nat -> nat -> lmod -> pystr) (ms : mods) : list pystr :=
  flat_map (fun kv => versions_from (row (fst kv) (List.length (snd kv))) 0 (snd kv)) ms.
(** What is printed. *)
Definition display_mods (ms : mods) (verbose : bool) : result (list pystr) :=
  let* w := measure ms in
  Ok (if verbose then header w ++ rows (long_row w) ms else rows (short_row w) ms).
