(** C44: Mod settings decode to the tree stored in the file. *)
From Coq Require Import ZArith NArith List Bool String.
From Verif Require Import Common Utf8 Settings_Model Settings_Spec Settings_Proofs.
Import ListNotations.
Local Open Scope string_scope.
Local Open Scope list_scope.
Local Open Scope N_scope.

(** Any file of any tree decodes to the tree's value, and exactly the file's
    bytes are used. *)
Theorem C44_decode_file : forall t b limit r, file_of t b -> (levels t <= limit)%nat -> decode_mod_settings limit (b ++ r) = Ok (value_of t, r).
Proof. exact decode_file. Qed.
Print Assumptions C44_decode_file.
(** Dictionaries: keys in order of first occurrence, the last value wins. *)
Theorem C44_dictionary_meaning : forall {V} (l : list (option pystr * V)),
  map fst (collapse l) = first_seen (map fst l) /\ NoDup (map fst (collapse l)) /\
  forall k v, In (k, v) (collapse l) <-> exists l1 l2, l = l1 ++ (k, v) :: l2 /\ ~ In k (map fst l2).
Proof. exact @collapse_spec. Qed.
Print Assumptions C44_dictionary_meaning.
(** Whatever is accepted before the end of the input is a file of some tree. *)
Theorem C44_accepted_is_file : forall limit s v r, Forall (fun x => x < 256) s -> decode_mod_settings limit s = Ok (v, r) -> r <> [] ->
  exists t b, s = b ++ r /\ file_of t b /\ value_of t = v.
Proof. exact decode_sound. Qed.
Print Assumptions C44_accepted_is_file.
(** Unknown kinds, lists and unsigned numbers are refused wherever they occur. *)
Theorem C44_refused : forall limit b e, refused limit b e -> forall r, read_node limit (b ++ r) = Err e.
Proof. exact refuse. Qed.
Print Assumptions C44_refused.
(** The model's loop bound plays no part. *)
Theorem C44_no_hidden_limit : forall limit s, read_node limit s <> Err OutOfFuel.
Proof. exact read_node_fuel. Qed.
Print Assumptions C44_no_hidden_limit.

(** The writer: simple values are read back; a text is not, a dictionary is not
    written at all, and the whole writer fails after emptying the file. *)
Theorem C44_simple_values_written : forall limit v b r m, plain v = true -> write_node limit v = Ok b -> read_node (S m) (b ++ r) = Ok (v, r).
Proof. exact write_plain. Qed.
Print Assumptions C44_simple_values_written.
Theorem C44_written_text_lost : forall limit s b r m, s <> [] -> write_node limit (VStr s) = Ok b ->
  exists u, utf8_encode s = Some u /\ read_node (S m) (b ++ r) = Ok (VNone, u ++ r).
Proof. exact write_string_lost. Qed.
Print Assumptions C44_written_text_lost.
Theorem C44_dictionaries_not_written : forall limit d b, write_node limit (VDict d) = Ok b -> b = [].
Proof. exact write_dict_nothing. Qed.
Print Assumptions C44_dictionaries_not_written.
Theorem C44_writing_refuted : exists v tree file,
  write_mod_settings v tree file = (Err StructError, []) /\ file <> [] /\ decode_mod_settings 5 file = Ok (tree, []).
Proof.
  exists (Ok 0%Z), VNone, [0; 0; 0; 0; 0; 0; 0; 0; 0; 0; 0]. split; [reflexivity|]. split; [discriminate|]. vm_compute. reflexivity.
Qed.
Print Assumptions C44_writing_refuted.
(** A file cut off inside its last text is accepted. *)
Theorem C44_truncated_refuted : exists t b cut, file_of t (b ++ cut) /\ cut <> [] /\ exists v, decode_mod_settings 5 b = Ok (v, []) /\ v <> value_of t.
Proof.
  exists (TStr (Some (str "speed"))), [0; 0; 1; 0; 1; 0; 2; 0; 0; 3; 0; 0; 5; 115; 112], [101; 101; 100]. split; [|split; [discriminate|]].
  - exists (0 + 256 * (0 + 256 * (1 + 256 * (0 + 256 * (1 + 256 * (0 + 256 * (2 + 256 * (0 + 256 * 0)))))))), [0; 0; 1; 0; 1; 0; 2; 0], [3; 0; 0; 5; 115; 112; 101; 101; 100]. split; [|split; [|reflexivity]].
    + repeat (constructor; [reflexivity|]). constructor.
    + constructor; [reflexivity|]. change ([0; 5; 115; 112; 101; 101; 100]) with (0 :: size [115; 112; 101; 101; 100] :: [115; 112; 101; 101; 100]). constructor; reflexivity.
  - exists (VStr (str "sp")). split; [vm_compute; reflexivity|discriminate].
Qed.
Print Assumptions C44_truncated_refuted.

Definition dict_file : bytes :=
  [0; 0; 1; 0; 1; 0; 2; 0; 0] ++ [5; 0; 3; 0; 0; 0] ++
  [0; 1; 97] ++ [1; 0; 1] ++            (* a: true *)
  [0; 2; 195; 169] ++ [6; 0; 254; 255; 255; 255; 255; 255; 255; 255] ++ (* e with accent: -2 *)
  [0; 1; 97] ++ [5; 0; 1; 0; 0; 0; 1; 3; 0; 0; 255; 2; 0; 0; 0; 104; 105].  (* a: {None: "hi"} *)
Example C44_ex_decode : decode_mod_settings 5 (dict_file ++ [7]) =
  Ok (VDict [(Some (str "a"), VDict [(None, VStr (str "hi"))]); (Some [233], VInt (-2))], [7]).
Proof. vm_compute. reflexivity. Qed.
Example C44_ex_limit : decode_mod_settings 2 dict_file = Err RecursionError.
Proof. vm_compute. reflexivity. Qed.
Example C44_ex_unknown : decode_mod_settings 5 ([0; 0; 0; 0; 0; 0; 0; 0; 0] ++ [5; 0; 2; 0; 0; 0; 0; 1; 97; 0; 0; 0; 1; 98; 9; 0]) = Err ValueError.
Proof. vm_compute. reflexivity. Qed.
Example C44_ex_header : decode_mod_settings 5 [0; 0; 0; 0; 0; 0; 0; 0; 1; 0; 0] = Err AssertionError.
Proof. vm_compute. reflexivity. Qed.
