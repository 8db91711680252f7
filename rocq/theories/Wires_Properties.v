(** Property theorems C23-C27: wires.  [attr] and [veq] (what an object is and
    which objects compare equal) are arbitrary throughout. *)
From Coq Require Import ZArith List Bool String Lia Permutation.
From Verif Require Import Common Dict Wires_Model Wires_Spec Wires_Proofs Wires_More_Proofs Wires_Export_Proofs Wires_Undo_Proofs Wires_Dead_Proofs.
Import ListNotations.
Local Open Scope Z_scope.
Local Open Scope list_scope.

(** ** C23 *)
(** Exactly what is exported, and when: entities in order with numbers 1 to n
    (groups opened in place); each locomotive and wire end as the number of the
    first entity equal to its target; wires of the blueprint, then of its groups,
    each exported wire once. *)
Theorem C23_export : forall veq c ss x, export veq c ss = Ok x <->
  exists fl inner all, flat (c_ents c) fl /\ flat_wires (c_ents c) inner /\
    (forall k p, nth_error (x_ents x) k = Some p <-> nth_error fl k = Some (fst p) /\ snd p = Z.of_nat k + 1) /\
    Forall2 (fun locos out => locos <> [] /\ Forall2 (end_is veq fl) locos out) ss (x_scheds x) /\
    Forall2 (wire_is veq fl) (c_wires c ++ inner) all /\ deduped all (x_wires x).
Proof. exact export_iff. Qed.
Print Assumptions C23_export.

(** If no two entities compare equal, that number is the target's own. *)
Theorem C23_number : forall veq fl x n, distinct veq fl -> In x fl ->
  (number_is veq fl x n <-> exists k, nth_error fl k = Some x /\ n = Z.of_nat k + 1).
Proof. exact number_place. Qed.
Print Assumptions C23_number.

(** A wire to something outside is an error, and nothing else about wires is. *)
Theorem C23_outside : forall veq c ss fl inner, flat (c_ents c) fl -> flat_wires (c_ents c) inner ->
  associations (c_wires c ++ inner) ->
  Forall (fun locos => locos <> [] /\
    Forall (fun e => exists x y, e = WRef (Some x) /\ In y fl /\ (y = x \/ veq y x = true)) locos) ss ->
  (has_lost veq fl (c_wires c ++ inner) <-> export veq c ss = Err InvalidAssociationError) /\
  (~ has_lost veq fl (c_wires c ++ inner) <-> exists x, export veq c ss = Ok x).
Proof. exact export_lost. Qed.
Print Assumptions C23_outside.

(** Without the proviso: a wire attached to the second of two equal entities is
    exported as attached to the first. *)
Theorem C23_equal_refuted : exists veq c x, export veq c [] = Ok x /\
  c_ents c = [Leaf 0; Leaf 1; Leaf 2] /\ c_wires c = [link 1 1 2 1] /\ x_wires x = [(1, 1, 3, 1)].
Proof.
  exists (fun a b => Nat.leb a 1 && Nat.leb b 1),
    (mkC [Leaf 0; Leaf 1; Leaf 2] [] [link 1 1 2 1]).
  eexists. split; [vm_compute; reflexivity|]. repeat split.
Qed.
Print Assumptions C23_equal_refuted.

(** A schedule without locomotives cannot be exported at all. *)
Theorem C23_schedule_without_locomotives : forall veq c ss, In [] ss ->
  Forall (fun locos => Forall (fun e => exists x, e = WRef (Some x) /\ In x (flatten (c_ents c))) locos) ss ->
  export veq c ss = Err KeyError.
Proof. exact export_empty_schedule. Qed.
Print Assumptions C23_schedule_without_locomotives.

(** The first locomotive that is gone, or is only a number, is a TypeError. *)
Theorem C23_dead : forall veq c ss1 pre e post ss2,
  Forall (fun locos => locos <> [] /\ Forall (fun e => exists x, e = WRef (Some x) /\ In x (flatten (c_ents c))) locos) ss1 ->
  Forall (fun e => exists x, e = WRef (Some x) /\ In x (flatten (c_ents c))) pre -> (e = WRef None \/ exists z, e = WInt z) ->
  export veq c (ss1 ++ (pre ++ e :: post) :: ss2) = Err TypeError.
Proof. exact dead_locomotive. Qed.
Print Assumptions C23_dead.

(** Two entities around a group of two; a wire of the blueprint into the group,
    stored twice, and one inside the group. *)
Definition ex_c : coll :=
  mkC [Leaf 10; Node 11 [link 12 2 13 4] [Leaf 12; Leaf 13] [(str "in", 0%nat)]; Leaf 14]
    [(str "a", 0%nat); (str "g", 1%nat)] [link 14 5 12 5; link 14 5 12 5].
Example C23_example : export Nat.eqb ex_c [[WRef (Some 14%nat); WRef (Some 10%nat)]] =
  Ok (mkX [(10%nat, 1); (12%nat, 2); (13%nat, 3); (14%nat, 4)] [[4; 1]] [(4, 5, 2, 5); (2, 2, 3, 4)]).
Proof. reflexivity. Qed.
Example C23_example_distinct : distinct Nat.eqb (flatten (c_ents ex_c)).
Proof. split; [repeat (constructor; [cbn; intuition discriminate|]); constructor|]. intros x y _ _ E. apply Nat.eqb_eq. exact E. Qed.
Example C23_example_outside : export Nat.eqb (with_wires ex_c [link 10 5 99 5]) [] = Err InvalidAssociationError /\
  export Nat.eqb (with_wires ex_c [(WRef None, 5, WRef (Some 10%nat), 5)]) [] = Err InvalidAssociationError.
Proof. split; reflexivity. Qed.

(** ** C24 *)
(** Read back against a new list of entities (one for each exported entity), the
    wires and locomotives lead to the new objects at the same places, with the
    same connectors, in the same order, without repetitions. *)
Theorem C24_roundtrip : forall veq c ss x fl inner ents ids,
  flat (c_ents c) fl -> flat_wires (c_ents c) inner -> distinct veq fl ->
  attached_to fl (c_wires c ++ inner) ->
  (forall locos y, In locos ss -> In (WRef (Some y)) locos -> In y fl) ->
  export veq c ss = Ok x ->
  List.length ents = List.length fl -> NoDup (map tid ents) ->
  exists c' ss', import ents ids (map (map WInt) (x_scheds x)) (map read_wire (x_wires x)) = Ok (c', ss') /\
    c_ents c' = ents /\
    (exists all', Forall2 (moved fl ents) (c_wires c ++ inner) all' /\ deduped all' (c_wires c')) /\
    Forall2 (Forall2 (moved_end fl ents)) ss ss'.
Proof. exact roundtrip. Qed.
Print Assumptions C24_roundtrip.

(** Exporting again what was imported gives the same numbers, wires and
    locomotives. *)
Theorem C24_reexport : forall veq new ids ss ws, distinct veq new ->
  (forall n, (exists outs, In outs ss /\ In n outs) \/ (exists x, In x ws /\ (n = fst (fst (fst x)) \/ n = snd (fst x))) ->
     1 <= n <= Z.of_nat (List.length new)) ->
  Forall (fun outs => outs <> []) ss -> NoDup ws ->
  exists c ss' ents, import (map Leaf new) ids (map (map WInt) ss) (map read_wire ws) = Ok (c, ss') /\
    export veq c ss' = Ok (mkX ents ss ws) /\
    forall k p, nth_error ents k = Some p <-> nth_error new k = Some (fst p) /\ snd p = Z.of_nat k + 1.
Proof. exact reexport. Qed.
Print Assumptions C24_reexport.

(** What any imported number leads to: counted from the end below 1, an error
    outside the list. *)
Theorem C24_import : forall ents z w, attach ents (WInt z) = Ok w <-> imported ents z w.
Proof. exact attach_iff. Qed.
Print Assumptions C24_import.
(** So the invalid number 0 is silently read as the last entity. *)
Theorem C24_zero_refuted : exists ents c, import ents [] [] [read_wire (0, 5, 1, 5)] = Ok (c, []) /\
  ents = [Leaf 7; Leaf 8] /\ c_wires c = [link 8 5 7 5].
Proof. exists [Leaf 7; Leaf 8]. eexists. split; [reflexivity|]. split; reflexivity. Qed.
Print Assumptions C24_zero_refuted.

Example C24_example :
  import [Leaf 20; Leaf 21; Leaf 22; Leaf 23] [] [[WInt 4; WInt 1]] (map read_wire [(4, 5, 2, 5); (2, 2, 3, 4)]) =
  Ok (mkC [Leaf 20; Leaf 21; Leaf 22; Leaf 23] [] [link 23 5 21 5; link 21 2 22 4], [[WRef (Some 23%nat); WRef (Some 20%nat)]]).
Proof. reflexivity. Qed.

(** ** C25 *)
Theorem C25_add : forall attr veq c r1 r2 s1 s2 c' ws,
  add_power attr veq c r1 r2 s1 s2 = Ok (c', ws) <->
  exists a b t1 t2 ra rb, refers c r1 a /\ refers c r2 b /\ inside veq c a /\ inside veq c b /\
    power_side s1 t1 /\ power_side s2 t2 /\ o_power (attr a) = true /\ o_power (attr b) = true /\
    o_pmax (attr a) = Some ra /\ o_pmax (attr b) = Some rb /\
    rewired c c' (c_wires c ++ [link a t1 b t2]) /\ distance_warned attr ra rb a b ws.
Proof. exact add_power_iff. Qed.
Print Assumptions C25_add.

(** Removing takes away one wire in each orientation, and only that. *)
Theorem C25_remove : forall veq c r1 r2 s1 s2 c',
  remove_power veq c r1 r2 s1 s2 = Ok c' <->
  exists a b t1 t2, refers c r1 a /\ refers c r2 b /\ inside veq c a /\ inside veq c b /\
    power_side s1 t1 /\ power_side s2 t2 /\
    exists ws', unlinked a t1 b t2 (c_wires c) ws' /\ rewired c c' ws'.
Proof. exact remove_power_unlinked. Qed.
Print Assumptions C25_remove.
Theorem C25_remove_copies : forall a t1 b t2 ws ws', unlinked a t1 b t2 ws ws' -> forall v, copies v ws' =
  (copies v ws - (if wire_dec v (link a t1 b t2) then 1 else 0) - (if wire_dec v (link b t2 a t1) then 1 else 0))%nat.
Proof. exact unlinked_copies. Qed.
Print Assumptions C25_remove_copies.

(** Removing after adding: exactly the old collection if the two connectors were
    not joined; the old wires up to order exactly if the reverse wire was not
    there. *)
Theorem C25_undo : forall attr veq c r1 r2 s1 s2 c1 ws, add_power attr veq c r1 r2 s1 s2 = Ok (c1, ws) ->
  exists a b t1 t2 c2, refers c r1 a /\ refers c r2 b /\ power_side s1 t1 /\ power_side s2 t2 /\
    remove_power veq c1 r1 r2 s1 s2 = Ok c2 /\ c_ents c2 = c_ents c /\ c_ids c2 = c_ids c /\
    (~ joined (c_wires c) a t1 b t2 -> c2 = c) /\
    (Permutation (c_wires c2) (c_wires c) <-> ~ In (link b t2 a t1) (c_wires c)).
Proof. exact power_undo. Qed.
Print Assumptions C25_undo.

Theorem C25_absent : forall a t1 b t2 ws ws', unlinked a t1 b t2 ws ws' -> ~ joined ws a t1 b t2 -> ws' = ws.
Proof. exact unlinked_absent. Qed.
Print Assumptions C25_absent.
Theorem C25_order : forall veq c r1 r2 s1 s2 c',
  remove_power veq c r1 r2 s1 s2 = Ok c' <-> remove_power veq c r2 r1 s2 s1 = Ok c'.
Proof. exact remove_power_swap. Qed.
Print Assumptions C25_order.

(** Removing all copper wires, in every group at any depth; groups, entities and
    IDs stay. *)
Theorem C25_remove_all : forall c path,
  wires_at path (root (remove_powers c)) = option_map (filter (fun w => negb (from_connector 5 6 w))) (wires_at path (root c)) /\
  shape (root (remove_powers c)) = shape (root c).
Proof. exact remove_powers_spec. Qed.
Print Assumptions C25_remove_all.

Definition ex_pole (x y : Z) : obj := mkObj true true false (Some 9) (Some 9) x y (str "electric-pole").
Definition ex_attr (i : nat) : obj :=
  match i with
  | 10 => ex_pole 0 0 | 12 => ex_pole 3 4 | 13 => ex_pole 6 8 | 14 => ex_pole 0 9
  | _ => mkObj false false false None None 0 0 (str "group")
  end%nat.
(** The documentation says that adding does nothing if the connection already
    exists; in fact it is stored again, and one removal leaves the other. *)
Theorem C25_twice_refuted : exists attr c c1 c2 c3,
  add_power attr Nat.eqb c (RObj 10) (RObj 12) (str "input") (str "input") = Ok (c1, []) /\
  add_power attr Nat.eqb c1 (RObj 10) (RObj 12) (str "input") (str "input") = Ok (c2, []) /\
  copies (link 10 5 12 5) (c_wires c2) = 2%nat /\
  remove_power Nat.eqb c2 (RObj 10) (RObj 12) (str "input") (str "input") = Ok c3 /\
  copies (link 10 5 12 5) (c_wires c3) = 1%nat.
Proof.
  exists ex_attr, (with_wires ex_c []). do 3 eexists. split; [vm_compute; reflexivity|]. split; [vm_compute; reflexivity|].
  split; [vm_compute; reflexivity|]. split; vm_compute; reflexivity.
Qed.
Print Assumptions C25_twice_refuted.

Example C25_example_add :
  add_power ex_attr Nat.eqb ex_c (RKey (KStr (str "a"))) (RKey (KTup [KStr (str "g"); KInt (-1)])) (str "input") (str "output") =
  Ok (with_wires ex_c [link 14 5 12 5; link 14 5 12 5; link 10 5 13 6], [DistanceWarning]).
Proof. reflexivity. Qed.
Example C25_example_remove :
  remove_power Nat.eqb ex_c (RObj 12) (RObj 14) (str "input") (str "input") = Ok (with_wires ex_c [link 14 5 12 5]) /\
  remove_power Nat.eqb ex_c (RObj 12) (RObj 14) (str "left") (str "input") = Err KeyError.
Proof. split; reflexivity. Qed.
Example C25_example_remove_all : remove_powers ex_c = mkC (c_ents ex_c) (c_ids ex_c) [].
Proof. reflexivity. Qed.

(** ** C26 *)
Theorem C26_add : forall attr veq c col r1 r2 s1 s2 c' ws,
  add_circuit attr veq c col r1 r2 s1 s2 = Ok (c', ws) <->
  exists a b t1 t2 ra rb w1 w2 w3, refers c r1 a /\ refers c r2 b /\ inside veq c a /\ inside veq c b /\
    circuit_side col s1 t1 /\ circuit_side col s2 t2 /\ o_circuit (attr a) = true /\ o_circuit (attr b) = true /\
    o_cmax (attr a) = Some ra /\ o_cmax (attr b) = Some rb /\
    rewired c c' (c_wires c ++ [link a t1 b t2]) /\
    ws = w1 ++ w2 ++ w3 /\ side_warned attr s1 a w1 /\ side_warned attr s2 b w2 /\ distance_warned attr ra rb a b w3.
Proof. exact add_circuit_iff. Qed.
Print Assumptions C26_add.
(** Different colours and sides are different connectors. *)
Theorem C26_connectors : forall col s col' s' t, circuit_side col s t -> circuit_side col' s' t -> col = col' /\ s = s'.
Proof. exact circuit_side_inj. Qed.
Print Assumptions C26_connectors.
Theorem C26_remove : forall veq c col r1 r2 s1 s2 c',
  remove_circuit veq c col r1 r2 s1 s2 = Ok c' <->
  exists a b t1 t2, refers c r1 a /\ refers c r2 b /\ inside veq c a /\ inside veq c b /\
    circuit_side col s1 t1 /\ circuit_side col s2 t2 /\
    exists ws', unlinked a t1 b t2 (c_wires c) ws' /\ rewired c c' ws'.
Proof. exact remove_circuit_unlinked. Qed.
Print Assumptions C26_remove.
Theorem C26_order : forall veq c col r1 r2 s1 s2 c',
  remove_circuit veq c col r1 r2 s1 s2 = Ok c' <-> remove_circuit veq c col r2 r1 s2 s1 = Ok c'.
Proof. exact remove_circuit_swap. Qed.
Print Assumptions C26_order.
Theorem C26_undo : forall attr veq c col r1 r2 s1 s2 c1 ws, add_circuit attr veq c col r1 r2 s1 s2 = Ok (c1, ws) ->
  exists a b t1 t2 c2, refers c r1 a /\ refers c r2 b /\ circuit_side col s1 t1 /\ circuit_side col s2 t2 /\
    remove_circuit veq c1 col r1 r2 s1 s2 = Ok c2 /\ remove_circuit veq c1 col r2 r1 s2 s1 = Ok c2 /\
    c_ents c2 = c_ents c /\ c_ids c2 = c_ids c /\
    (~ joined (c_wires c) a t1 b t2 -> c2 = c) /\
    (Permutation (c_wires c2) (c_wires c) <-> ~ In (link b t2 a t1) (c_wires c)).
Proof. exact circuit_undo. Qed.
Print Assumptions C26_undo.
Theorem C26_remove_all : forall c path,
  wires_at path (root (remove_circuits c)) = option_map (filter (fun w => negb (from_connector 1 4 w))) (wires_at path (root c)) /\
  shape (root (remove_circuits c)) = shape (root c).
Proof. exact remove_circuits_spec. Qed.
Print Assumptions C26_remove_all.

Example C26_example_add :
  add_circuit ex_attr Nat.eqb ex_c (str "green") (RObj 10) (RKey (KTup [KInt 1; KStr (str "in")])) (str "input") (str "output") =
  Ok (with_wires ex_c [link 14 5 12 5; link 14 5 12 5; link 10 2 12 4], [SideWarning]).
Proof. reflexivity. Qed.
Example C26_example_remove :
  remove_circuit Nat.eqb (with_wires ex_c [link 10 1 12 1; link 10 2 12 4; link 12 4 10 2; link 12 2 10 4])
    (str "green") (RObj 12) (RObj 10) (str "output") (str "input") =
  Ok (with_wires ex_c [link 10 1 12 1; link 12 2 10 4]).
Proof. reflexivity. Qed.
Example C26_example_colour :
  add_circuit ex_attr Nat.eqb ex_c (str "blue") (RObj 10) (RObj 12) (str "input") (str "input") = Err InvalidWireTypeError.
Proof. reflexivity. Qed.
Example C26_example_remove_all : wires_at [1%nat] (root (remove_circuits ex_c)) = Some [] /\
  c_wires (remove_circuits ex_c) = c_wires ex_c.
Proof. split; reflexivity. Qed.

(** ** C27 *)
(** All old wires stay, in order; new ones join only poles that can reach each
    other (also if it fails half way); if it succeeds, every ordered pair of such
    poles is wired, each once, the farther neighbours of a pole first (with
    [prefer_axis], first those off its axes). *)
Theorem C27_generated : forall attr veq prefer only c c' e, generate_power attr veq prefer only c = (c', e) ->
  exists new, rewired c c' (c_wires c ++ new) /\
    (forall w, In w new -> exists a b, w = link a 5 b 5 /\ wanted attr only c a b) /\
    (e = None ->
      (forall a b, wanted attr only c a b -> In (link a 5 b 5) new) /\
      (NoDup (flatten (c_ents c)) -> NoDup new /\
         forall a pre x mid y post, new = pre ++ link a 5 x 5 :: mid ++ link a 5 y 5 :: post -> farther attr prefer a x y)).
Proof. exact generate_spec. Qed.
Print Assumptions C27_generated.
(** It succeeds exactly if the reaches it needs are known and the poles it wires
    take power wires. *)
Theorem C27_succeeds : forall attr veq prefer only c,
  snd (generate_power attr veq prefer only c) = None <->
  forall a b, pole attr c a -> pole attr c b ->
    known attr only a b /\ (wanted attr only c a b -> o_power (attr a) = true /\ o_power (attr b) = true).
Proof. exact generate_criterion. Qed.
Print Assumptions C27_succeeds.

(** The documentation promises wiring the closest first and no more than five
    connections of a pole, and a pair needs one wire; in fact a pole gets as many
    wires as it has neighbours, from both sides, farthest first. *)
Theorem C27_limit_refuted : exists attr c c', generate_power attr Nat.eqb true false c = (c', None) /\
  c_wires c = [] /\ copies (link 0 5 1 5) (c_wires c') = 1%nat /\ copies (link 1 5 0 5) (c_wires c') = 1%nat /\
  List.length (filter (fun w => wend_eqb (fst (fst (fst w))) (WRef (Some 0%nat))) (c_wires c')) = 6%nat /\
  nth_error (c_wires c') 0 = Some (link 0 5 6 5) /\ sq attr 0 1 < sq attr 0 6.
Proof.
  exists (fun i => ex_pole (Z.of_nat i) 0), (mkC (map Leaf (seq 0 7)) [] []).
  eexists. split; [vm_compute; reflexivity|]. repeat split; vm_compute; reflexivity.
Qed.
Print Assumptions C27_limit_refuted.

Example C27_example : generate_power ex_attr Nat.eqb true false (with_wires ex_c []) =
  (with_wires ex_c [link 10 5 12 5; link 10 5 14 5; link 12 5 14 5; link 12 5 13 5; link 12 5 10 5;
     link 13 5 14 5; link 13 5 12 5; link 14 5 13 5; link 14 5 12 5; link 14 5 10 5], None).
Proof. vm_compute. reflexivity. Qed.
Example C27_example_only_axis : c_wires (fst (generate_power ex_attr Nat.eqb true true (with_wires ex_c []))) =
  [link 10 5 14 5; link 14 5 10 5].
Proof. vm_compute. reflexivity. Qed.
