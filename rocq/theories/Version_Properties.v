(** C01, C02: version numbers. *)
From Coq Require Import ZArith NArith List String.
From Verif Require Import Common Version_Model Version_Spec Version_Proofs.
Import ListNotations.
Local Open Scope Z_scope.

(** C01: decoding a packed version gives back the four parts. *)
Theorem C01_decode_encode : forall major minor patch dev,
  u16 major -> u16 minor -> u16 patch -> u16 dev ->
  decode_version (encode_version major minor patch dev) = (major, minor, patch, dev).
Proof. exact decode_encode. Qed.
Print Assumptions C01_decode_encode.

(** C01: packing the decoded parts of any 64-bit number gives it back, and the
    decoded parts are 16-bit numbers. *)
Theorem C01_encode_decode : forall v major minor patch dev, 0 <= v < 2^64 ->
  decode_version v = (major, minor, patch, dev) ->
  encode_version major minor patch dev = v.
Proof. exact encode_decode. Qed.
Print Assumptions C01_encode_decode.

Theorem C01_decode_range : forall v a b c d,
  decode_version v = (a, b, c, d) -> u16 a /\ u16 b /\ u16 c /\ u16 d.
Proof. exact decode_range. Qed.
Print Assumptions C01_decode_range.

(** C01: numeric order of packed versions is the lexicographic order. *)
Theorem C01_encode_order : forall a b c d a' b' c' d',
  u16 a -> u16 b -> u16 c -> u16 d -> u16 a' -> u16 b' -> u16 c' -> u16 d' ->
  (encode_version a b c d < encode_version a' b' c' d'
   <-> version_lt (a, b, c, d) (a', b', c', d')).
Proof. exact encode_lt. Qed.
Print Assumptions C01_encode_order.

Theorem C01_encode_range : forall a b c d, u16 a -> u16 b -> u16 c -> u16 d ->
  0 <= encode_version a b c d < 2^64.
Proof. exact encode_range. Qed.
Print Assumptions C01_encode_range.

(** Outside 16 bits the packing is not injective: the bound is needed. *)
Theorem C01_encode_unbounded_injective_refuted :
  exists a b c d a' b' c' d', (a, b, c, d) <> (a', b', c', d') /\
    0 <= a /\ 0 <= b /\ 0 <= c /\ 0 <= d /\ 0 <= a' /\ 0 <= b' /\ 0 <= c' /\ 0 <= d' /\
    encode_version a b c d = encode_version a' b' c' d'.
Proof.
  exists 0, 65536, 0, 0, 1, 0, 0, 0. repeat split; try discriminate.
Qed.
Print Assumptions C01_encode_unbounded_injective_refuted.

Example C01_ex : u16 2 /\ u16 0 /\ u16 28 /\ u16 1 /\
  encode_version 2 0 28 1 = 562949955256321 /\
  decode_version 562949955256321 = (2, 0, 28, 1) /\
  version_lt (1, 1, 110, 0) (2, 0, 28, 1).
Proof. unfold u16, version_lt. vm_compute. intuition congruence. Qed.

(** C02: tuple to string to tuple is the identity (also for negative parts). *)
Theorem C02_tuple_string_roundtrip : forall t, t <> [] ->
  version_string_to_tuple (version_tuple_to_string t) = Ok t.
Proof. exact string_tuple_roundtrip. Qed.
Print Assumptions C02_tuple_string_roundtrip.

(** C02: a parsed string is cut at its dots and only there. *)
Theorem C02_parse_spec : forall s t,
  version_string_to_tuple s = Ok t <->
  exists parts, dotted s parts /\ Forall2 (fun p z => py_int p = Ok z) parts t.
Proof. exact string_to_tuple_spec. Qed.
Print Assumptions C02_parse_spec.

Example C02_ex1 : version_tuple_to_string [2; 0; 28] = str "2.0.28" /\
  version_string_to_tuple (str "2.0.28") = Ok [2; 0; 28].
Proof. vm_compute. split; reflexivity. Qed.
Example C02_ex2 : version_string_to_tuple (str "1..2") = Err ValueError.
Proof. reflexivity. Qed.
