(** C93 The file mod-list.json *)
From Coq Require Import ZArith NArith List Bool String.
From Verif Require Import Common Codec_Model Codec_Spec Codec_Proofs Layout_Model Layout_Spec Layout_Proofs.
Import ListNotations.
Local Open Scope list_scope.
Local Open Scope N_scope.

(** What was written is read back, with both kinds of line ends, whatever was there. *)
Theorem C93_roundtrip : forall L, faithful L -> forall v limit linesep old, valid v -> all_clean v ->
  (depth v <= limit)%nat -> (depth v <= load_limit L)%nat -> In linesep [[10]; [13; 10]] ->
  exists file, write_mod_list L limit linesep old v = (file, None) /\ read_mod_list L file = Ok v.
Proof. exact write_then_read. Qed.
Print Assumptions C93_roundtrip.

(** The file is the text of [json.dumps] with a line end added exactly at the start of
    those lines that are a brace; it is printable ASCII. *)
Theorem C93_written : forall L, faithful L -> forall v limit linesep old file, valid v ->
  write_mod_list L limit linesep old v = (file, None) -> In linesep [[10]; [13; 10]] ->
  exists out s, pretty L limit 0 v = Ok out /\ fixed true out s /\ file = written linesep s /\ readable s /\ universal file = s.
Proof. exact write_gives. Qed.
Print Assumptions C93_written.
Theorem C93_fixed_unique : forall b s t, fixed b s t -> forall u, fixed b s u -> t = u.
Proof. exact fixed_unique. Qed.
Print Assumptions C93_fixed_unique.

(** One element or member a line, indented by two spaces for each level. *)
Theorem C93_laid : forall L v limit level t, pretty L limit level v = Ok t -> laid L level v t.
Proof. exact pretty_laid. Qed.
Print Assumptions C93_laid.

(** The substitution does not change what any JSON text means. *)
Theorem C93_same_meaning : forall L s v, decode_text L s = Ok v -> decode_text L (fix_braces s) = Ok v.
Proof. exact fix_reads. Qed.
Print Assumptions C93_same_meaning.

(** Afterwards there is a blank line before every line that is only a brace. *)
Theorem C93_braces : forall s a k r, fix_braces s = a ++ 10 :: repeat 32 k ++ 123 :: r ->
  (r = [] \/ exists r', r = 10 :: r') ->
  exists a1 w1, a = a1 ++ w1 /\ Forall blank w1 /\ (ended a1 \/ a1 = []).
Proof. exact braces_apart. Qed.
Print Assumptions C93_braces.

(** Writing fails only for values nested too deep. *)
Theorem C93_fails : forall L limit linesep old v e,
  (exists file, write_mod_list L limit linesep old v = (file, Some e)) <->
  (e = RecursionError /\ (limit < depth v)%nat).
Proof. exact write_fails. Qed.
Print Assumptions C93_fails.

(** If writing fails, the old file is lost. *)
Theorem C93_kept_refuted : ~ (forall L limit linesep old v file e,
  write_mod_list L limit linesep old v = (file, Some e) -> file = old).
Proof. intro H. discriminate (H toy O [10] (str "{}") (JList []) [] RecursionError eq_refl). Qed.
Print Assumptions C93_kept_refuted.

(** A list of two mods. *)
Definition two_mods : json Z :=
  JObj [(str "mods", JList [JObj [(str "name", JStr (str "base")); (str "enabled", JBool true)];
                            JObj [(str "name", JStr (str "a{b")); (str "enabled", JBool false); (str "x", JObj [])]])].
Definition lines (l : list pystr) : pystr := flat_map (fun s => s ++ [10]) l.
Example C93_example_written :
  fst (write_mod_list toy 5 [10] [] two_mods) ++ [10] = lines
    [[]; str "{"; str "  ""mods"": ["; []; str "    {"; str "      ""name"": ""base"","; str "      ""enabled"": true"; str "    },"; [];
     str "    {"; str "      ""name"": ""a{b"","; str "      ""enabled"": false,"; str "      ""x"": {}"; str "    }"; str "  ]"; str "}"].
Proof. vm_compute. reflexivity. Qed.
Example C93_example_read : read_mod_list toy (fst (write_mod_list toy 5 [13; 10] [] two_mods)) = Ok two_mods.
Proof. vm_compute. reflexivity. Qed.
