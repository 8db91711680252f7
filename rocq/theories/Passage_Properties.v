(** C94: a blueprint written as a string is read back from it. *)
From Coq Require Import ZArith NArith QArith String List Bool.
From Verif Require Import Common Dict Codec_Model Codec_Spec Codec_Proofs Trim_Model Wires_Model Wires_Spec Document_Model Document_Spec
  Document_Witness_Proofs Passage_Model Passage_Spec Passage_Claims_Proofs Passage_Witness_Proofs Passage_Texts_Proofs.
Import ListNotations.
Local Open Scope string_scope.
Local Open Scope list_scope.

(** Written and read: every blueprint that has a dictionary and can be sent has a
    string, whatever character comes first, from which both readers make the same
    blueprint as from the dictionary: the one that C79 describes. *)
Theorem C94_roundtrip : forall (L : lib) (N : numbers L) rebuild current base, faithful L -> exact_numbers N ->
  forall veq h b doc, readable rebuild b -> sendable_sheet N h b ->
  (h + 5 <= dump_limit L)%nat -> (h + 5 <= load_limit L)%nat -> to_dict veq true true b = Ok doc ->
  exists s b1 b', to_string L N veq b = Ok (48%N :: s) /\
    (forall c, load_from_string L N rebuild current base (c :: s) = Ok b' /\
       get_blueprintable_from_string L N rebuild current base (c :: s) = Ok (Opened b')) /\
    read_as true true current base b b' /\ from_dict rebuild current base doc = Ok b1 /\ same_sheet b1 b'.
Proof. exact @sent_back. Qed.
Print Assumptions C94_roundtrip.

(** What was read is written as the same string, if there is a version. *)
Theorem C94_again : forall (L : lib) (N : numbers L) rebuild current base, faithful L -> exact_numbers N ->
  forall veq veq' h b l, readable rebuild b -> sendable_sheet N h b ->
  (h + 5 <= dump_limit L)%nat -> (h + 5 <= load_limit L)%nat ->
  spread 0 0 (b_parts b) l -> distinct veq' (seq base (List.length l)) -> b_version b <> VNone ->
  forall s b', to_string L N veq b = Ok s -> load_from_string L N rebuild current base s = Ok b' -> to_string L N veq' b' = Ok s.
Proof. exact @sent_again. Qed.
Print Assumptions C94_again.

(** How fractions are written down does not show in the string. *)
Theorem C94_same : forall (L : lib) (N : numbers L), exact_numbers N -> forall veq b b', same_sheet b b' ->
  to_string L N veq b' = to_string L N veq b.
Proof. exact @same_text. Qed.
Print Assumptions C94_same.

(** What is no blueprint string is refused with the error for that. *)
Theorem C94_malformed : forall (L : lib) (N : numbers L) rebuild current base s, (forall j, ~ encodes L s j) ->
  load_from_string L N rebuild current base s = Err MalformedBlueprintStringError /\
  get_blueprintable_from_string L N rebuild current base s = Err MalformedBlueprintStringError.
Proof. exact @no_string. Qed.
Print Assumptions C94_malformed.

(** Both readers agree on objects that have a blueprint, *)
Theorem C94_agree : forall (L : lib) (N : numbers L) rebuild current base s d,
  parse L N s = Ok (VMap d) -> In (str "blueprint") (map fst d) ->
  get_blueprintable_from_string L N rebuild current base s =
  match load_from_string L N rebuild current base s with Ok b => Ok (Opened b) | Err e => Err e end.
Proof. exact @agree. Qed.
Print Assumptions C94_agree.
(** other objects are refused by a blueprint, *)
Theorem C94_wrong_kind : forall (L : lib) (N : numbers L) rebuild current base s d,
  parse L N s = Ok (VMap d) -> ~ In (str "blueprint") (map fst d) -> d <> [] ->
  load_from_string L N rebuild current base s = Err IncorrectBlueprintTypeError.
Proof. exact @wrong_kind. Qed.
Print Assumptions C94_wrong_kind.
(** and told apart by their keyword otherwise. *)
Theorem C94_kinds : forall (L : lib) (N : numbers L) rebuild current base s d,
  let kinds := map str ["blueprint"; "deconstruction_planner"; "upgrade_planner"; "blueprint_book"] in
  parse L N s = Ok (VMap d) -> ~ In (str "blueprint") (map fst d) -> d <> [] ->
  (forall k, In k (map fst d) -> In k kinds -> (forall k', In k' (map fst d) -> In k' kinds -> k' = k) ->
     get_blueprintable_from_string L N rebuild current base s = Ok (Planner k (VMap d))) /\
  ((forall k, In k (map fst d) -> ~ In k kinds) -> get_blueprintable_from_string L N rebuild current base s = Err IncorrectBlueprintTypeError).
Proof. exact @told_apart. Qed.
Print Assumptions C94_kinds.

(** The documentation names two errors for strings of other things.  An empty
    object, a number and a list raise others. *)
Theorem C94_errors_refuted : forall (L : lib) (N : numbers L) rebuild current base,
  faithful L -> (1 <= dump_limit L)%nat -> (1 <= load_limit L)%nat ->
  (exists s, JSON_to_string L (JObj []) = Ok s /\ encodes L s (JObj []) /\ load_from_string L N rebuild current base s = Err StopIteration /\
     get_blueprintable_from_string L N rebuild current base s = Err IndexError) /\
  (forall z, exists s, JSON_to_string L (JInt z) = Ok s /\ load_from_string L N rebuild current base s = Err TypeError /\
     get_blueprintable_from_string L N rebuild current base s = Err TypeError) /\
  (exists s, JSON_to_string L (JList [JStr (str "blueprint")]) = Ok s /\ load_from_string L N rebuild current base s = Err TypeError /\
     get_blueprintable_from_string L N rebuild current base s = Err DataFormatError).
Proof. exact @no_object. Qed.
Print Assumptions C94_errors_refuted.
(** A text with the word in it is taken for a string once more. *)
Theorem C94_twice : forall (L : lib) (N : numbers L) rebuild current base s t,
  parse L N s = Ok (VStr t) -> (exists a c, t = a ++ str "blueprint" ++ c) ->
  get_blueprintable_from_string L N rebuild current base s =
  match load_from_string L N rebuild current base t with Ok b => Ok (Opened b) | Err e => Err e end.
Proof. exact @twice. Qed.
Print Assumptions C94_twice.
(** Other texts are refused, each reader raising something else. *)
Theorem C94_texts : forall (L : lib) (N : numbers L) rebuild current base s t,
  parse L N s = Ok (VStr t) ->
  (forall k a c, In k (map str ["blueprint"; "deconstruction_planner"; "upgrade_planner"; "blueprint_book"]) -> t <> a ++ k ++ c) ->
  load_from_string L N rebuild current base s = Err (match t with [] => StopIteration | _ => IncorrectBlueprintTypeError end) /\
  get_blueprintable_from_string L N rebuild current base s = Err AttributeError.
Proof. exact texts. Qed.
Print Assumptions C94_texts.

(** What [Blueprint(init)] takes: nothing, which gives the blueprint of an empty
    dictionary, a string, which is loaded, or a dictionary. *)
Theorem C94_init : forall (L : lib) (N : numbers L) rebuild current base,
  blueprint_of L N rebuild current base VNone = from_dict rebuild current base [(str "blueprint", VMap [])] /\
  (forall s, blueprint_of L N rebuild current base (VStr s) = load_from_string L N rebuild current base s) /\
  (forall v, v <> VNone -> (forall s, v <> VStr s) -> (forall d, v <> VMap d) ->
     blueprint_of L N rebuild current base v = Err DataFormatError).
Proof. exact inits. Qed.
Print Assumptions C94_init.

(** The assumptions hold together, and two belts go through. *)
Example C94_assumptions : faithful toy /\ exact_numbers halves /\ readable keep belts /\ sendable_sheet halves 0 belts.
Proof. exact (Logic.conj toy_faithful (Logic.conj halves_exact (Logic.conj belts_readable belts_sent))). Qed.
Example C94_sent : exists s b', to_string toy halves Nat.eqb belts = Ok s /\ load_from_string toy halves keep two 10 s = Ok b' /\
  map (fun p => match p with Ent i x y _ => Some (i, x, y) | _ => None end) (b_parts b') = [Some (10%nat, -1 # 2, 1 # 2); Some (11%nat, 3 # 2, 3 # 2)]%Q /\
  b_wires b' = [(WRef (Some 10%nat), 1%Z, WRef (Some 11%nat), 2%Z)] /\ b_index b' = VInt 4 /\
  to_string toy halves Nat.eqb b' = Ok s.
Proof. do 2 eexists. split; [vm_compute; reflexivity|]. split; [vm_compute; reflexivity|]. repeat split; vm_compute; reflexivity. Qed.
Example C94_planner : get_blueprintable_from_string toy halves keep two 0 (str "0eHsidXBncmFkZV9wbGFubmVyIjp7fX0=") =
  Ok (Planner (str "upgrade_planner") (VMap [(str "upgrade_planner", VMap [])])) /\
  load_from_string toy halves keep two 0 (str "0eHsidXBncmFkZV9wbGFubmVyIjp7fX0=") = Err IncorrectBlueprintTypeError.
Proof. split; vm_compute; reflexivity. Qed.
