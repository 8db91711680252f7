(** What the file looks like. *)
From Coq Require Import NArith List Bool String.
From Verif Require Import Common Codec_Model.
Import ListNotations.
Local Open Scope list_scope.
Local Open Scope N_scope.

Definition blank (c : N) : Prop := 9 <= c <= 13 \/ 28 <= c <= 32.
(** A text that starts with white space, one brace, and then the end of a line. *)
Definition opens (s : pystr) : Prop :=
  exists w r, s = w ++ 123 :: r /\ Forall blank w /\ (r = [] \/ exists r', r = 10 :: r').
(** The text with a line end added wherever such a text starts at the start of a line,
    and nothing else. *)
Inductive fixed : bool -> pystr -> pystr -> Prop :=
| fx_nil : forall b, fixed b [] []
| fx_open : forall w r r', Forall blank w -> (r = [] \/ exists q, r = 10 :: q) -> fixed false r r' ->
    fixed true (w ++ 123 :: r) (10 :: w ++ 123 :: r')
| fx_copy : forall b c s s', (b = true -> ~ opens (c :: s)) -> fixed (c =? 10) s s' -> fixed b (c :: s) (c :: s').
(** Ends with the end of a line. *)
Definition ended (s : pystr) : Prop := exists q, s = q ++ [10].
(** Printable ASCII and ends of lines. *)
Definition readable (s : pystr) : Prop := Forall (fun c => c = 10 \/ 32 <= c <= 126) s.
(** Text with every element and member on a line of its own, indented by two spaces for
    each level; anything else is written as in blueprint strings. *)
Section Laid.
  Variable L : lib.
  Inductive laid : nat -> json (flt L) -> pystr -> Prop :=
  | la_scalar : forall k v t, dumps L 0 v = Ok t -> laid k v t
  | la_list_nil : forall k, laid k (JList []) (str "[]")
  | la_obj_nil : forall k, laid k (JObj []) (str "{}")
  | la_list : forall k l t, elements (S k) l t -> laid k (JList l) (91 :: t ++ 10 :: repeat 32 (2 * k) ++ [93])
  | la_obj : forall k l t, members (S k) l t -> laid k (JObj l) (123 :: t ++ 10 :: repeat 32 (2 * k) ++ [125])
  with elements : nat -> list (json (flt L)) -> pystr -> Prop :=
  | el_last : forall k v t, laid k v t -> elements k [v] (10 :: repeat 32 (2 * k) ++ t)
  | el_more : forall k v t l u, laid k v t -> elements k l u -> elements k (v :: l) (10 :: repeat 32 (2 * k) ++ t ++ 44 :: u)
  with members : nat -> list (pystr * json (flt L)) -> pystr -> Prop :=
  | me_last : forall k n v t, laid k v t -> members k [(n, v)] (10 :: repeat 32 (2 * k) ++ quote n ++ str ": " ++ t)
  | me_more : forall k n v t l u, laid k v t -> members k l u ->
      members k ((n, v) :: l) (10 :: repeat 32 (2 * k) ++ quote n ++ str ": " ++ t ++ 44 :: u).
End Laid.
