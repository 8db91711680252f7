(** C45: decider conditions written with Python operators. *)
From Coq Require Import ZArith NArith List Bool String Lia.
From Verif Require Import Common Decider_Model Decider_Spec Decider_Proofs.
Import ListNotations.
Local Open Scope string_scope.
Local Open Scope list_scope.
Local Open Scope Z_scope.

(** ==, !=, < and > between inputs, or between an input and a number on either
    side, build a new condition that is true exactly when the comparison is. *)
Theorem C45_comparison : forall val h o a b, sensible a b -> strict_or_equal o -> exists c,
  py_compare h o a b = Ok (h ++ [c], One (List.length h)) /\ c_and c = false /\
  (true_cond val c <-> python o (term_value val a) (term_value val b)).
Proof. exact comparison_meaning. Qed.
Print Assumptions C45_comparison.
Example C45_comparison_ex : exists c, py_compare [] PLt (Int 5) (Input (str "signal-A") [str "red"]) = Ok ([c], One 0%nat)
  /\ c_cmp c = str ">" /\ c_nets c = mkNets true false /\ c_rhs c = RConst 5.
Proof. eexists. repeat split. Qed.

(** >= and <= do not: they build the opposite comparison. *)
Theorem C45_greater_equal_refuted : exists val a b i c, py_compare [] PGe a b = Ok ([c], One i) /\
  ~ true_cond val c /\ python PGe (term_value val a) (term_value val b).
Proof. exact greater_equal_refuted. Qed.
Print Assumptions C45_greater_equal_refuted.
Theorem C45_less_equal_refuted : exists val a b i c, py_compare [] PLe a b = Ok ([c], One i) /\
  ~ true_cond val c /\ python PLe (term_value val a) (term_value val b).
Proof. exact less_equal_refuted. Qed.
Print Assumptions C45_less_equal_refuted.
Theorem C45_loose_comparison : forall val h o a b, sensible a b -> o = PGe \/ o = PLe -> exists c,
  py_compare h o a b = Ok (h ++ [c], One (List.length h)) /\ c_and c = false /\
  (true_cond val c <-> python (mirrored o) (term_value val a) (term_value val b)).
Proof. exact loose_meaning. Qed.
Print Assumptions C45_loose_comparison.

(** Other comparisons build no condition: == and != answer a plain truth value,
    the others fail. *)
Theorem C45_other_comparison : forall h o a b, ~ sensible a b ->
  py_compare h o a b = match o with PEq | PNe => Ok (h, Foreign) | _ => Err TypeError end.
Proof. exact compare_insensible. Qed.
Print Assumptions C45_other_comparison.
Example C45_other_comparison_ex : py_compare [] PGt (Input (str "signal-A") []) Other = Err TypeError.
Proof. reflexivity. Qed.

(** & and | accept two conditions or a condition and a list with something in it
    (on the left even an empty one); the result lists the left operand's
    conditions, then the right one's. *)
Theorem C45_operator_accepts : forall k h a b,
  (exists h' r, py_op k h a b = Ok (h', r)) <->
  (exists i, a = One i /\ members b <> []) \/ (exists l i, a = Many l /\ b = One i).
Proof. exact op_iff. Qed.
Print Assumptions C45_operator_accepts.
Theorem C45_operator_errors : forall k h a b e, py_op k h a b = Err e ->
  e = IndexError /\ (exists i, a = One i) /\ b = Many [] \/
  e = TypeError /\ (a = Foreign \/ b = Foreign \/ exists l m, a = Many l /\ b = Many m).
Proof. exact op_errors. Qed.
Print Assumptions C45_operator_errors.
Theorem C45_operator_result : forall k h a b h' r, py_op k h a b = Ok (h', r) ->
  exists i t, members b = i :: t /\ h' = update h i (set_and k) /\ r = Many (members a ++ members b).
Proof. exact op_result. Qed.
Print Assumptions C45_operator_result.
(** Only the first condition of the right operand changes, and of it only the
    compare type. *)
Theorem C45_operator_keeps : forall k h a b h' r i t, py_op k h a b = Ok (h', r) -> members b = i :: t ->
  List.length h' = List.length h /\ (forall j, j <> i -> nth_error h' j = nth_error h j) /\
  nth_error h' i = option_map (set_and k) (nth_error h i).
Proof. exact op_keeps. Qed.
Print Assumptions C45_operator_keeps.

(** "|" of disjoint operands holds exactly when one of them does; "&" of
    operands joined by & alone exactly when both do. *)
Theorem C45_or : forall val h a b h' r ca cb, py_op false h a b = Ok (h', r) -> members a <> [] -> NoDup (members a ++ members b) ->
  objects h (members a) ca -> objects h (members b) cb ->
  exists cr, objects h' (members r) cr /\ (holds val cr <-> holds val ca \/ holds val cb).
Proof. exact or_result. Qed.
Print Assumptions C45_or.
Theorem C45_and : forall val h a b h' r ca cb, py_op true h a b = Ok (h', r) -> members a <> [] -> NoDup (members a ++ members b) ->
  objects h (members a) ca -> objects h (members b) cb ->
  Forall (fun c => c_and c = true) (tl ca) -> Forall (fun c => c_and c = true) (tl cb) ->
  exists cr, objects h' (members r) cr /\ (holds val cr <-> holds val ca /\ holds val cb).
Proof. exact and_result. Qed.
Print Assumptions C45_and.

(** A list built before keeps its meaning unless the right operand's first
    condition sits in it behind its first place; then it may change. *)
Theorem C45_built_kept : forall val k h a b h' r i t l cs, py_op k h a b = Ok (h', r) -> members b = i :: t -> ~ In i (tl l) ->
  objects h l cs -> exists cs', objects h' l cs' /\ (holds val cs' <-> holds val cs).
Proof. exact built_kept. Qed.
Print Assumptions C45_built_kept.
Theorem C45_shared_refuted : exists val h h1 h2 x y c1 c2,
  run h (Op false (Var (One 0)) (Var (One 1))) = Ok (h1, x) /\
  run h1 (Op true (Var (One 2)) (Var (One 1))) = Ok (h2, y) /\
  objects h1 (members x) c1 /\ objects h2 (members x) c2 /\ holds val c1 /\ ~ holds val c2.
Proof. exact shared_refuted. Qed.
Print Assumptions C45_shared_refuted.

(** Whole expressions over new comparisons without >= and <=: when Python can
    evaluate them and no parentheses are needed, the result means what is
    written, and every existing condition is left alone. *)
Theorem C45_expression : forall val h e, evaluable e -> paren_free e ->
  Forall (fun c => strict_or_equal (fst (fst c))) (comparisons e) ->
  exists h' r cs, run h e = Ok (h', r) /\ untouched h h' /\ objects h' (members r) cs /\ (holds val cs <-> means val e).
Proof. exact expression_meaning. Qed.
Print Assumptions C45_expression.
Example C45_expression_ex :
  let a := Input (str "signal-A") [str "red"] in
  let e := Op false (Op true (Cmp PGt a (Int 0)) (Cmp PNe a (Int 3))) (Cmp PEq (Int 7) a) in
  evaluable e /\ paren_free e /\ Forall (fun c => strict_or_equal (fst (fst c))) (comparisons e) /\
  exists h, run [] e = Ok (h, Many [0; 1; 2]%nat) /\ map c_and h = [false; true; false].
Proof. simpl. repeat split; try tauto; [repeat constructor; discriminate|]. eexists. split; reflexivity. Qed.
(** With or without parentheses, the result is the list of all comparisons in
    the order written, each joined by the operator standing in front of it. *)
Theorem C45_expression_order : forall h e, evaluable e -> exists h' r cs, run h e = Ok (h', r) /\ untouched h h' /\
  members r = List.seq (List.length h) (List.length (comparisons e)) /\ objects h' (members r) cs /\
  Forall2 (fun p c => c_and c = fst p /\
    forall h1, py_compare h1 (fst (fst (snd p))) (snd (fst (snd p))) (snd (snd p)) = Ok (h1 ++ [set_and false c], One (List.length h1)))
    (flat false e) cs.
Proof. exact expression_order. Qed.
Print Assumptions C45_expression_order.
Theorem C45_parentheses_refuted : exists val e h r cs, evaluable e /\ run [] e = Ok (h, r) /\ objects h (members r) cs /\
  Forall (fun c => strict_or_equal (fst (fst c))) (comparisons e) /\ holds val cs /\ ~ means val e.
Proof. exact parentheses_refuted. Qed.
Print Assumptions C45_parentheses_refuted.
