(** Property theorems C91: the table of mods. *)
From Coq Require Import Arith NArith List Bool String Lia.
From Verif Require Import Common Listing_Model Listing_Spec Listing_Proofs.
Import ListNotations.
Local Open Scope list_scope.

(** The columns are as wide as the longest entry, within their limits. *)
Theorem C91_widths : forall ms w, measure ms = Ok w ->
  exists n v l, largest (map (fun kv => List.length (fst kv)) ms) n /\
    largest (map (fun m => List.length (l_version m)) (submods ms)) v /\
    largest (map (fun m => List.length (l_location m)) (submods ms)) l /\
    within 4 n 50 (w_name w) /\ within 7 v 30 (w_version w) /\ within 8 l 100 (w_location w).
Proof. exact measure_is. Qed.
Print Assumptions C91_widths.
(** A table is printed if there is any mod; otherwise [max] raises. *)
Theorem C91_printed : forall ms verbose,
  (submods ms <> [] -> exists lines, display_mods ms verbose = Ok lines) /\
  (submods ms = [] -> display_mods ms verbose = Err ValueError).
Proof. exact measure_fails. Qed.
Print Assumptions C91_printed.
(** If every name that has several versions has at most 50 characters, the columns of
    all lines are below each other: three separators after 3, 5 and as many characters
    as the columns for names and versions are wide. *)
Theorem C91_columns : forall ms lines w, names_fit ms -> measure ms = Ok w -> display_mods ms true = Ok lines ->
  exists top rule body, lines = top :: rule :: body /\
    columns long_seps [3; 5; w_name w; w_version w] top /\ columns cross_seps [3; 5; w_name w; w_version w] rule /\
    forall line, In line body -> columns long_seps [3; 5; w_name w; w_version w] line.
Proof. exact long_columns. Qed.
Print Assumptions C91_columns.
(** The head names the columns, and the rule below it is as long as the table. *)
Theorem C91_head : forall ms lines w, measure ms = Ok w -> display_mods ms true = Ok lines ->
  exists name version rule body,
    lines = (str "on?" ++ bar ++ str "type " ++ bar ++ name ++ bar ++ version ++ bar ++ str "location") :: rule :: body /\
    flush_left (str "name") name /\ flush_left (str "version") version /\
    List.length rule = 20 + w_name w + w_version w + w_location w /\
    Forall (fun c => c = 9473%N \/ c = 9547%N) rule.
Proof. exact long_head. Qed.
Print Assumptions C91_head.
Theorem C91_short_columns : forall ms lines w, names_fit ms -> measure ms = Ok w -> display_mods ms false = Ok lines ->
  forall line, In line lines ->
    columns short_seps [1; 5; w_name w] line /\ List.length line = 12 + w_name w + w_version w.
Proof. exact short_columns. Qed.
Print Assumptions C91_short_columns.
(** There is one row for each version of each mod, in order. *)
Theorem C91_rows : forall row before key l after k m, nth_error l k = Some m ->
  nth_error (rows row (before ++ (key, l) :: after)) (List.length (submods before) + k) = Some (row key (List.length l) k m).
Proof. exact nth_row. Qed.
Print Assumptions C91_rows.
Theorem C91_row_count : forall row ms, List.length (rows row ms) = List.length (submods ms).
Proof. exact row_count. Qed.
Print Assumptions C91_row_count.
Theorem C91_lines : forall ms w, measure ms = Ok w ->
  display_mods ms true = Ok (header w ++ rows (long_row w) ms) /\ display_mods ms false = Ok (rows (short_row w) ms).
Proof. intros ms w M. unfold display_mods, bind. rewrite M. split; reflexivity. Qed.
Print Assumptions C91_lines.
(** What the rows say of a mod: only the first version of an enabled mod is ticked, the
    name stands with the first version and lines lead to the others, and what is too
    long is cut to the limit and ends in dots. *)
Theorem C91_row_says : forall ms w key l k m, measure ms = Ok w -> In (key, l) ms -> nth_error l k = Some m ->
  exists on knd nam ver name_cell ver_cell loc,
    long_row w key (List.length l) k m = str " " ++ on ++ str " " ++ bar ++ knd ++ bar ++ name_cell ++ bar ++ ver_cell ++ bar ++ loc /\
    short_row w key (List.length l) k m = on ++ str " " ++ knd ++ str " " ++ name_cell ++ str "    " ++ ver_cell /\
    (l_enabled m = true /\ k = 0 -> on = [10003%N]) /\ (l_enabled m = false \/ 0 < k -> on = str " ") /\
    knd = (if l_archive m then str "(zip)" else str "(dir)") /\
    flush_left nam name_cell /\ flush_right ver ver_cell /\
    (k = 0 -> cut_to (w_name w) (l_name m) nam) /\
    (k = 0 -> l_name m = key -> cut_to 50 key nam) /\
    (0 < k -> S k < List.length l -> line_of 9500 key nam) /\
    (0 < k -> S k = List.length l -> line_of 9492 key nam) /\
    (l_version m = [] -> ver = str "-") /\
    (l_version m <> [] -> cut_to 30 (l_version m) ver) /\
    cut_to 100 (l_location m) loc.
Proof. exact row_says. Qed.
Print Assumptions C91_row_says.

(** Refuted: that the columns always line up.  The line to a further version is as long
    as the name, not as the name as it is printed. *)
Definition long_name : pystr := repeat 97%N 60.
Definition two_versions : mods :=
  [(long_name, [mkL long_name (str "2.0.0") (str "/mods") true false; mkL long_name (str "1.0.0") (str "/mods") true true])].
Theorem C91_columns_refuted : exists ms lines a b, display_mods ms false = Ok lines /\ lines = [a; b] /\
  List.length a <> List.length b.
Proof.
  exists two_versions. eexists. eexists. eexists. split; [vm_compute; reflexivity|]. split; [reflexivity|].
  vm_compute. discriminate.
Qed.
Print Assumptions C91_columns_refuted.
(** Refuted: that an empty list of mods is printed as an empty table. *)
Theorem C91_empty_refuted : display_mods [] false = Err ValueError /\ display_mods [] true = Err ValueError.
Proof. split; reflexivity. Qed.
Print Assumptions C91_empty_refuted.
(** Refuted: that two mods can be told apart. *)
Theorem C91_distinct_refuted : exists ms lines a, display_mods ms false = Ok lines /\ lines = [a; a] /\
  NoDup (map fst ms) /\ forall key l, In (key, l) ms -> Forall (fun m => l_name m = key) l.
Proof.
  exists [(long_name, [mkL long_name (str "1.0.0") (str "/x") true false]);
          (long_name ++ str "2", [mkL (long_name ++ str "2") (str "1.0.0") (str "/x") true false])].
  eexists. eexists. split; [vm_compute; reflexivity|]. split; [reflexivity|]. split.
  - repeat constructor; cbn; intuition discriminate.
  - intros key l [K|[K|[]]]; injection K as <- <-; repeat constructor.
Qed.
Print Assumptions C91_distinct_refuted.

(** ** Examples *)
Definition some_mods : mods :=
  [(str "base", [mkL (str "base") (str "2.0.7") (str "/game/data/base") true false]);
   (str "better-belts", [mkL (str "better-belts") (str "1.2.0") (str "/mods/better-belts") true false;
                         mkL (str "better-belts") (str "1.1.0") (str "/mods/better-belts_1.1.0.zip") true true;
                         mkL (str "better-belts") [] (str "/mods/better-belts_1.0.0.zip") false true])].
Example C91_example_fits : names_fit some_mods /\ measure some_mods = Ok (mkW 12 7 28).
Proof.
  split; [|reflexivity]. intros key l [K|[K|[]]]; injection K as <- <-; cbn; lia.
Qed.
Example C91_example_short : exists a b c d, display_mods some_mods false = Ok [a; b; c; d] /\
  a = TICK :: str " (dir) base              2.0.7" /\
  c = str "  (zip) " ++ MORE :: repeat THIN 10 ++ str ">      1.1.0" /\
  d = str "  (zip) " ++ LAST :: repeat THIN 10 ++ str ">          -".
Proof. do 4 eexists. split; [vm_compute; reflexivity|]. split; [reflexivity|]. split; reflexivity. Qed.
Example C91_example_cut : truncate_str (str "abcdefghij") 8 = str "abcde..." /\ cut_to 8 (str "abcdefghij") (str "abcde...").
Proof.
  split; [reflexivity|]. right. split; [cbn; lia|]. split; [reflexivity|].
  exists (str "abcde"), (str "fghij"). split; reflexivity.
Qed.
