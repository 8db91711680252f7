(** Specification of blueprint strings: base 64 text, JSON documents, and what
    is asked of the library functions that are taken as given. *)
From Coq Require Import ZArith NArith List Bool String.
From Verif Require Import Common Codec_Model.
Import ListNotations.
Local Open Scope string_scope.
Local Open Scope list_scope.
Local Open Scope N_scope.

(** ** Base 64 *)
Definition alphabet : pystr := str "ABCDEFGHIJKLMNOPQRSTUVWXYZabcdefghijklmnopqrstuvwxyz0123456789+/".
Definition digit64 (c n : N) : Prop := nth_error alphabet (N.to_nat n) = Some c.

(** Characters that say nothing. *)
Definition junk (s : pystr) : Prop := Forall (fun c => ~ In c alphabet /\ c <> PAD) s.
(** Before the second letter of a group padding signs say nothing either;
    before the third, one of them. *)
Definition slack (s : pystr) : Prop := Forall (fun c => ~ In c alphabet) s.
Definition slack1 (s : pystr) : Prop := junk s \/ exists a b, s = a ++ PAD :: b /\ junk a /\ junk b.

(** Four letters are three bytes: the same 24-bit number in base 64 and in base
    256.  The last group may be two letters and two padding signs, or three
    and one, whose surplus bits are dropped. *)
Inductive payload : pystr -> byte_list -> Prop :=
| p_end : forall s, slack s -> payload s []
| p_four : forall s1 c1 p s2 c2 q s3 c3 r s4 c4 t s x y z b,
    slack s1 -> digit64 c1 p -> slack s2 -> digit64 c2 q -> slack1 s3 -> digit64 c3 r -> junk s4 -> digit64 c4 t ->
    x < 256 -> y < 256 -> z < 256 ->
    x * 65536 + y * 256 + z = p * 262144 + q * 4096 + r * 64 + t ->
    payload s b ->
    payload (s1 ++ c1 :: s2 ++ c2 :: s3 ++ c3 :: s4 ++ c4 :: s) (x :: y :: z :: b)
| p_two : forall s1 c1 p s2 c2 q s3 s4 s x,
    slack s1 -> digit64 c1 p -> slack s2 -> digit64 c2 q -> junk s3 -> junk s4 ->
    x = (p * 64 + q) / 16 ->
    payload (s1 ++ c1 :: s2 ++ c2 :: s3 ++ PAD :: s4 ++ PAD :: s) [x]
| p_three : forall s1 c1 p s2 c2 q s3 c3 r s4 s x y,
    slack s1 -> digit64 c1 p -> slack s2 -> digit64 c2 q -> slack1 s3 -> digit64 c3 r -> junk s4 ->
    y < 256 -> x * 256 + y = (p * 4096 + q * 64 + r) / 4 ->
    payload (s1 ++ c1 :: s2 ++ c2 :: s3 ++ c3 :: s4 ++ PAD :: s) [x; y].

(** ** JSON *)
Definition white (s : pystr) : Prop := Forall (fun c => In c [32; 9; 10; 13]) s.

(** *** strings *)
Definition hex (c n : N) : Prop :=
  nth_error (str "0123456789abcdef") (N.to_nat n) = Some c \/ nth_error (str "0123456789ABCDEF") (N.to_nat n) = Some c.
Definition escapes : list (N * N) := [(34, 34); (92, 92); (47, 47); (98, 8); (102, 12); (110, 10); (114, 13); (116, 9)].
Inductive item := Plain (c : N) | Unit (u : N).
Inductive body : pystr -> list item -> Prop :=
| b_nil : body [] []
| b_plain : forall c s l, 32 <= c -> c <> 34 -> c <> 92 -> body s l -> body (c :: s) (Plain c :: l)
| b_escape : forall e c s l, In (e, c) escapes -> body s l -> body (92 :: e :: s) (Plain c :: l)
| b_unit : forall a b c d na nb nc nd s l, hex a na -> hex b nb -> hex c nc -> hex d nd -> body s l ->
    body (92 :: 117 :: a :: b :: c :: d :: s) (Unit (na * 4096 + nb * 256 + nc * 16 + nd) :: l).

Definition high (u : N) : Prop := 55296 <= u <= 56319.
Definition low (u : N) : Prop := 56320 <= u <= 57343.
(** Consecutive [\u] escapes that are a surrogate pair are one character. *)
Inductive spelled : list item -> pystr -> Prop :=
| s_nil : spelled [] []
| s_plain : forall c l t, spelled l t -> spelled (Plain c :: l) (c :: t)
| s_pair : forall u w l t, high u -> low w -> spelled l t -> spelled (Unit u :: Unit w :: l) (65536 + (u - 55296) * 1024 + (w - 56320) :: t)
| s_unit : forall u l t, (forall w l', high u -> l = Unit w :: l' -> ~ low w) -> spelled l t -> spelled (Unit u :: l) (u :: t).
Definition string_text (s t : pystr) : Prop := exists b l, s = 34 :: b ++ [34] /\ body b l /\ spelled l t.

(** *** numbers *)
Definition is_dec (c : N) : Prop := 48 <= c <= 57.
Definition dec_value (s : pystr) : Z := fold_left (fun a c => 10 * a + Z.of_N (c - 48))%Z s 0%Z.
Definition whole (s : pystr) : Prop :=
  s = [48] \/ exists c r, s = c :: r /\ 49 <= c <= 57 /\ Forall is_dec r.
Definition int_text (s : pystr) (z : Z) : Prop :=
  (whole s /\ z = dec_value s) \/ exists w, s = 45 :: w /\ whole w /\ z = (- dec_value w)%Z.
Definition fraction (s : pystr) : Prop := exists ds, s = 46 :: ds /\ ds <> [] /\ Forall is_dec ds.
Definition exponent (s : pystr) : Prop :=
  exists e sg ds, s = e :: sg ++ ds /\ (e = 101 \/ e = 69) /\ (sg = [] \/ sg = [43] \/ sg = [45]) /\ ds <> [] /\ Forall is_dec ds.
Definition float_text (s : pystr) : Prop :=
  exists sg w fr ex, s = sg ++ w ++ fr ++ ex /\ (sg = [] \/ sg = [45]) /\ whole w /\
    ((fraction fr /\ (ex = [] \/ exponent ex)) \/ (fr = [] /\ exponent ex)).

(** *** objects: every key once, where it first occurred, with the value of its
    last occurrence *)
Fixpoint first_seen (l : list pystr) : list pystr :=
  match l with
  | [] => []
  | k :: l' => k :: filter (fun k' => if pystr_eq_dec k k' then false else true) (first_seen l')
  end.
Definition as_dict {V} (m o : list (pystr * V)) : Prop :=
  map fst o = first_seen (map fst m) /\
  forall k v, In (k, v) o <-> exists l1 l2, m = l1 ++ (k, v) :: l2 /\ ~ In k (map fst l2).

(** *** documents nested at most [d] deep *)
Section Grammar.
  Variable L : lib.
  Inductive means : nat -> pystr -> json (flt L) -> Prop :=
  | m_null : forall d, means d (str "null") JNull
  | m_true : forall d, means d (str "true") (JBool true)
  | m_false : forall d, means d (str "false") (JBool false)
  | m_nan : forall d, means d (str "NaN") JNaN
  | m_inf : forall d, means d (str "Infinity") JInf
  | m_neginf : forall d, means d (str "-Infinity") JNegInf
  | m_int : forall d s z, int_text s z -> means d s (JInt z)
  | m_float : forall d s, float_text s -> means d s (JFloat (float_of L s))
  | m_str : forall d s t, string_text s t -> means d s (JStr t)
  | m_list_nil : forall d w, white w -> means (S d) (91 :: w ++ [93]) (JList [])
  | m_list : forall d w s l, white w -> items d s l -> means (S d) (91 :: w ++ s ++ [93]) (JList l)
  | m_obj_nil : forall d w, white w -> means (S d) (123 :: w ++ [125]) (JObj [])
  | m_obj : forall d w s m o, white w -> pairs d s m -> as_dict m o -> means (S d) (123 :: w ++ s ++ [125]) (JObj o)
  with items : nat -> pystr -> list (json (flt L)) -> Prop :=
  | i_one : forall d s v w, means d s v -> white w -> items d (s ++ w) [v]
  | i_more : forall d s v w1 w2 s' l, means d s v -> white w1 -> white w2 -> items d s' l -> items d (s ++ w1 ++ 44 :: w2 ++ s') (v :: l)
  with pairs : nat -> pystr -> list (pystr * json (flt L)) -> Prop :=
  | o_one : forall d k kt w1 w2 s v w3, string_text k kt -> white w1 -> white w2 -> means d s v -> white w3 ->
      pairs d (k ++ w1 ++ 58 :: w2 ++ s ++ w3) [(kt, v)]
  | o_more : forall d k kt w1 w2 s v w3 w4 s' l, string_text k kt -> white w1 -> white w2 -> means d s v -> white w3 -> white w4 -> pairs d s' l ->
      pairs d (k ++ w1 ++ 58 :: w2 ++ s ++ w3 ++ 44 :: w4 ++ s') ((kt, v) :: l).
  Definition document (d : nat) (s : pystr) (v : json (flt L)) : Prop :=
    exists w1 t w2, s = w1 ++ t ++ w2 /\ white w1 /\ white w2 /\ means d t v.

  (** How the bytes of a document are spelled: a mark at the start, or else
      the pattern of zeros in the first four bytes, decides. *)
  Definition begins (w b : byte_list) : Prop := exists r, b = w ++ r.
  Definition marked (e : encoding) (b : byte_list) : Prop :=
    match e with
    | Utf32 => begins [0; 0; 254; 255] b \/ begins [255; 254; 0; 0] b
    | Utf16 => (begins [254; 255] b \/ begins [255; 254] b) /\ ~ begins [255; 254; 0; 0] b
    | Utf8Sig => begins [239; 187; 191] b
    | _ => False
    end.
  Definition unmarked (e : encoding) (b : byte_list) : Prop :=
    match e with
    | Utf32Be => exists y z r, b = 0 :: 0 :: y :: z :: r
    | Utf16Be => (exists x y z r, b = 0 :: x :: y :: z :: r /\ x <> 0) \/ (exists x, b = [0; x])
    | Utf32Le => exists x r, b = x :: 0 :: 0 :: 0 :: r /\ x <> 0
    | Utf16Le => (exists x y z r, b = x :: 0 :: y :: z :: r /\ x <> 0 /\ (y <> 0 \/ z <> 0)) \/ (exists x, b = [x; 0] /\ x <> 0)
    | Utf8 => (forall x y z t r, b = x :: y :: z :: t :: r -> x <> 0 /\ y <> 0) /\ (forall x y, b = [x; y] -> x <> 0 /\ y <> 0)
    | _ => False
    end.
  Definition spelled_in (e : encoding) (b : byte_list) : Prop :=
    marked e b \/ ((forall e', ~ marked e' b) /\ unmarked e b).

  (** A blueprint string: any one character, then base 64 text of compressed
      bytes of a document. *)
  Definition encodes (s : pystr) (v : json (flt L)) : Prop :=
    exists p b t e text, (s = [] /\ p = [] \/ exists c, s = c :: p) /\
      Forall (fun c => c < 128) p /\ payload p b /\ decompress L b = Some t /\
      spelled_in e t /\ decode L e t = Some text /\ document (load_limit L) text v.
End Grammar.

(** What is asked of the library: lossless compression of bytes to bytes, ASCII
    text that decodes to itself, and floats that are read back from what is
    written for them. *)
Record faithful (L : lib) : Prop := {
  zlib_lossless : forall b, Forall (fun x => x < 256) b -> decompress L (compress L b) = Some b;
  zlib_bytes : forall b, Forall (fun x => x < 256) b -> Forall (fun x => x < 256) (compress L b);
  ascii_text : forall b, Forall (fun x => 0 < x < 128) b -> decode L Utf8 b = Some b;
  float_written : forall f, float_text (float_repr L f);
  float_read : forall f, float_of L (float_repr L f) = f
}.

(** ** Values *)
(** Nesting of lists and dictionaries. *)
Fixpoint depth {F} (v : json F) : nat :=
  match v with
  | JList l => S (fold_right Nat.max 0%nat (map depth l))
  | JObj l => S (fold_right Nat.max 0%nat (map (fun p => depth (snd p)) l))
  | _ => 0%nat
  end.

(** Unicode text, which Python lets hold lone surrogates; [clean] text has no
    surrogate pair spelled as two characters, and [fuse] makes each such pair
    the one character it stands for. *)
Definition unicode (s : pystr) : Prop := Forall (fun c => c < 1114112) s.
Definition clean (s : pystr) : Prop :=
  unicode s /\ forall s1 u w s2, s = s1 ++ u :: w :: s2 -> high u -> ~ low w.
Inductive fuse : pystr -> pystr -> Prop :=
| fu_nil : fuse [] []
| fu_pair : forall u w s t, high u -> low w -> fuse s t -> fuse (u :: w :: s) (65536 + (u - 55296) * 1024 + (w - 56320) :: t)
| fu_one : forall c s t, (forall w s', high c -> s = w :: s' -> ~ low w) -> fuse s t -> fuse (c :: s) (c :: t).

(** Values: the strings are Unicode and the keys of a dictionary distinct. *)
Inductive valid {F} : json F -> Prop :=
| va_null : valid JNull
| va_bool : forall b, valid (JBool b)
| va_int : forall z, valid (JInt z)
| va_float : forall f, valid (JFloat f)
| va_nan : valid JNaN
| va_inf : valid JInf
| va_neginf : valid JNegInf
| va_str : forall s, unicode s -> valid (JStr s)
| va_list : forall l, (forall v, In v l -> valid v) -> valid (JList l)
| va_obj : forall l, NoDup (map fst l) -> (forall k v, In (k, v) l -> unicode k /\ valid v) -> valid (JObj l).
Inductive all_clean {F} : json F -> Prop :=
| ac_null : all_clean JNull
| ac_bool : forall b, all_clean (JBool b)
| ac_int : forall z, all_clean (JInt z)
| ac_float : forall f, all_clean (JFloat f)
| ac_nan : all_clean JNaN
| ac_inf : all_clean JInf
| ac_neginf : all_clean JNegInf
| ac_str : forall s, clean s -> all_clean (JStr s)
| ac_list : forall l, (forall v, In v l -> all_clean v) -> all_clean (JList l)
| ac_obj : forall l, (forall k v, In (k, v) l -> clean k /\ all_clean v) -> all_clean (JObj l).
(** The value with every string fused; keys that become equal are merged. *)
Inductive fused {F} : json F -> json F -> Prop :=
| f_null : fused JNull JNull
| f_bool : forall b, fused (JBool b) (JBool b)
| f_int : forall z, fused (JInt z) (JInt z)
| f_float : forall f, fused (JFloat f) (JFloat f)
| f_nan : fused JNaN JNaN
| f_inf : fused JInf JInf
| f_neginf : fused JNegInf JNegInf
| f_str : forall s t, fuse s t -> fused (JStr s) (JStr t)
| f_list : forall l m, fused_list l m -> fused (JList l) (JList m)
| f_obj : forall l m o, fused_pairs l m -> as_dict m o -> fused (JObj l) (JObj o)
with fused_list {F} : list (json F) -> list (json F) -> Prop :=
| fl_nil : fused_list [] []
| fl_cons : forall v w l m, fused v w -> fused_list l m -> fused_list (v :: l) (w :: m)
with fused_pairs {F} : list (pystr * json F) -> list (pystr * json F) -> Prop :=
| fp_nil : fused_pairs [] []
| fp_cons : forall k k' v w l m, fuse k k' -> fused v w -> fused_pairs l m -> fused_pairs ((k, v) :: l) ((k', w) :: m).
