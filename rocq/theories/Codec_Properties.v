(** C03: blueprint strings decode to exactly what was encoded. *)
From Coq Require Import ZArith NArith List Bool String.
From Verif Require Import Common Codec_Model Codec_Spec Codec_Proofs.
Import ListNotations.
Local Open Scope string_scope.
Local Open Scope list_scope.

(** Every JSON value within the nesting limits, whatever stands in front of the
    encoded text. *)
Theorem C03_roundtrip : forall L, faithful L -> forall v, valid v -> all_clean v ->
  (depth v <= dump_limit L)%nat -> (depth v <= load_limit L)%nat ->
  exists s, JSON_to_string L v = Ok (48%N :: s) /\ forall c, string_to_JSON L (c :: s) = Ok v.
Proof. exact roundtrip. Qed.
Print Assumptions C03_roundtrip.

(** Without the condition on surrogates the result is the fused value, which is
    the value itself just when no string spells a surrogate pair as two
    characters. *)
Theorem C03_result : forall L, faithful L -> forall v, valid v ->
  (depth v <= dump_limit L)%nat -> (depth v <= load_limit L)%nat ->
  exists s v', JSON_to_string L v = Ok (48%N :: s) /\ fused v v' /\ forall c, string_to_JSON L (c :: s) = Ok v'.
Proof. exact result_fused. Qed.
Print Assumptions C03_result.

Theorem C03_exact : forall L, faithful L -> forall v, valid v ->
  (depth v <= dump_limit L)%nat -> (depth v <= load_limit L)%nat ->
  exists s, JSON_to_string L v = Ok (48%N :: s) /\ forall c, (string_to_JSON L (c :: s) = Ok v <-> all_clean v).
Proof. exact roundtrip_iff. Qed.
Print Assumptions C03_exact.

Theorem C03_surrogates_refuted : forall L, faithful L ->
  exists v s, valid v /\ JSON_to_string L v = Ok s /\ string_to_JSON L s <> Ok v.
Proof. exact surrogates. Qed.
Print Assumptions C03_surrogates_refuted.

(** Accepted are exactly the encodings of documents, whichever way they are
    spelled. *)
Theorem C03_accepts : forall L s v, string_to_JSON L s = Ok v <-> encodes L s v.
Proof. exact string_to_JSON_iff. Qed.
Print Assumptions C03_accepts.

(** Everything else is malformed, and there is no other exception. *)
Theorem C03_malformed : forall L s,
  string_to_JSON L s = Err MalformedBlueprintStringError <-> ~ exists v, encodes L s v.
Proof. exact malformed_iff. Qed.
Print Assumptions C03_malformed.

Theorem C03_only_malformed : forall L s e, string_to_JSON L s = Err e -> e = MalformedBlueprintStringError.
Proof. exact only_malformed. Qed.
Print Assumptions C03_only_malformed.

(** Encoding only ever fails on values nested too deep; a value may be too deep
    to be read back. *)
Theorem C03_encode_error : forall L v e,
  JSON_to_string L v = Err e <-> e = RecursionError /\ (dump_limit L < depth v)%nat.
Proof. exact encode_error. Qed.
Print Assumptions C03_encode_error.

Theorem C03_too_deep : forall L, faithful L -> forall v, valid v -> all_clean v ->
  (load_limit L < depth v <= dump_limit L)%nat ->
  exists s, JSON_to_string L v = Ok (48%N :: s) /\ forall c, string_to_JSON L (c :: s) = Err MalformedBlueprintStringError.
Proof. exact too_deep. Qed.
Print Assumptions C03_too_deep.

(** The string is the version character and base 64 text. *)
Theorem C03_alphabet : forall L, faithful L -> forall v s, valid v -> JSON_to_string L v = Ok s ->
  exists r, s = 48%N :: r /\ Forall (fun c => In c alphabet \/ c = PAD) r.
Proof. exact alphabet_only. Qed.
Print Assumptions C03_alphabet.

(** A library satisfying the assumptions, and strings in it. *)
Example C03_library : faithful toy.
Proof. exact toy_faithful. Qed.
Definition sample : json Z :=
  JObj [(str "a\b", JList [JInt (-12)%Z; JFloat 3%Z; JBool true; JNull; JNegInf]); ([128512; 10; 8364]%N, JObj [([], JStr (str "x/y"))])].
Example C03_written :
  JSON_to_string toy sample = Ok (str "0eHsiYVxcYiI6Wy0xMiwzLjUsdHJ1ZSxudWxsLC1JbmZpbml0eV0sIlx1ZDgzZFx1ZGUwMFxuXHUyMGFjIjp7IiI6IngveSJ9fQ==").
Proof. vm_compute. reflexivity. Qed.
Example C03_read_back :
  string_to_JSON toy (str "9eHsiYVxcYiI6Wy0xMiwzLjUsdHJ1ZSxudWxsLC1JbmZpbml0eV0sIlx1ZDgzZFx1ZGUwMFxuXHUyMGFjIjp7IiI6IngveSJ9fQ==") = Ok sample.
Proof. vm_compute. reflexivity. Qed.
(** Leniency of the decoder: line breaks, white space and repeated keys. *)
Example C03_lenient :
  string_to_JSON toy (48%N :: str "eFs" ++ [10%N] ++ str "gMSAse!yJrIjoxLCJrIjoyfSBd") = Ok (JList [JInt 1; JObj [(str "k", JInt 2)]]).
Proof. vm_compute. reflexivity. Qed.
Example C03_rejected : map (fun s => string_to_JSON toy (str s)) [""; "0"; "0AAA"; "0eHs="; "0eDAx"]
  = repeat (Err MalformedBlueprintStringError) 5.
Proof. vm_compute. reflexivity. Qed.
