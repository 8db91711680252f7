(** What an arithmetic combinator shows, stated without its fields: every slot
    holds one thing. *)
From Coq Require Import ZArith NArith String List Bool.
From Verif Require Import Common Assign_Model Decider_Model Arith_Model.
Import ListNotations.
Local Open Scope string_scope.
Local Open Scope list_scope.
Local Open Scope Z_scope.

Record view := mkView { v_first : val; v_op : val; v_second : val; v_out : val; v_nets1 : nets; v_nets2 : nets }.
Inductive shown := Broken | Nothing | Parts (v : view).
Definition with_first (x : val) (v : view) := mkView x (v_op v) (v_second v) (v_out v) (v_nets1 v) (v_nets2 v).
Definition with_op (x : val) (v : view) := mkView (v_first v) x (v_second v) (v_out v) (v_nets1 v) (v_nets2 v).
Definition with_second (x : val) (v : view) := mkView (v_first v) (v_op v) x (v_out v) (v_nets1 v) (v_nets2 v).
Definition with_out (x : val) (v : view) := mkView (v_first v) (v_op v) (v_second v) x (v_nets1 v) (v_nets2 v).
Definition fresh : view := mkView ANone (AName (str "*")) (AInt 0) ANone (mkNets true true) (mkNets true true).

(** Programs that never switch the validation off. *)
Definition validating (t : stmt) : Prop := t <> SetMode MNone.
Definition quiet (m : mode) : Prop := m = MMinimum.

Section meaning.
Variable known : pystr -> bool.

Inductive signal_meant : val -> val -> Prop :=
| sm_none : signal_meant ANone ANone
| sm_name s : known s = true -> signal_meant (AName s) (ASig (Some s))
| sm_signal n : signal_meant (ASig n) (ASig n)
| sm_dict n : signal_meant (ADict n) (ASig n).
Inductive operand_meant : val -> val -> Prop :=
| om_signal v w : signal_meant v w -> operand_meant v w
| om_int z : -2147483648 <= z <= 2147483647 -> operand_meant (AInt z) (AInt z)
| om_true : operand_meant (ABool true) (AInt 1)
| om_false : operand_meant (ABool false) (AInt 0).
(** The same letter, or its lower case. *)
Definition same_letter (a b : N) : Prop := a = b \/ ((65 <= b <= 90)%N /\ a = (b + 32)%N).
Inductive operation_meant : val -> val -> Prop :=
| opm_none : operation_meant ANone ANone
| opm_text s o :
    In o [str "*"; str "/"; str "+"; str "-"; str "%"; str "^"; str "<<"; str ">>"; str "AND"; str "OR"; str "XOR"] ->
    Forall2 same_letter s o -> operation_meant (AName s) (AName o).
Definition no_meaning (R : val -> val -> Prop) (v : val) : Prop := forall w, ~ R v w.

(** What is wrong with a combinator: the first signal that may not be used, and
    an output of each without an input of each. *)
Definition signal_name (v : val) : list pystr := match v with ASig (Some s) => [s] | _ => [] end.
Definition pure_virtual (s : pystr) : bool := pystr_eqb s (str "signal-anything") || pystr_eqb s (str "signal-everything").
Definition is_each (v : val) : bool := existsb (pystr_eqb (str "signal-each")) (signal_name v).
Definition complaints (v : view) : list awarn :=
  map WForbidden (firstn 1 (filter pure_virtual (signal_name (v_first v) ++ signal_name (v_second v) ++ signal_name (v_out v))))
  ++ (if is_each (v_out v) && negb (is_each (v_first v)) && negb (is_each (v_second v)) then [WEach] else []).
Definition unknown (v : val) : list awarn :=
  map WUnknownSignal (filter (fun s => negb (known s)) (signal_name v)).
(** Warnings are only given above the minimum. *)
Definition said (m : mode) (ws : list awarn) : list awarn := match m with MNone | MMinimum => [] | _ => ws end.
(** A constant is checked against the combinator as it was before. *)
Definition operand_warnings (before after : view) (w : val) : list awarn :=
  match w with
  | ANone => []
  | AInt _ => complaints before
  | _ => unknown w ++ complaints after
  end.

(** Conditions that are not there are made on the first assignment. *)
Definition base (sh : shown) : option view :=
  match sh with Broken => None | Nothing => Some fresh | Parts v => Some v end.
(** The second operand of [set_arithmetic_conditions]: nothing becomes 0. *)
Definition not_none (v : val) : val := match v with ANone => AInt 0 | _ => v end.
Definition or_times (v : val) : val := match v with ANone => AName (str "*") | _ => v end.

Inductive does (m : mode) : shown -> stmt -> shown -> result (list awarn) -> Prop :=
| does_first sh v x w : base sh = Some v -> operand_meant x w ->
    does m sh (SetFirst x) (Parts (with_first w v)) (Ok (said m (operand_warnings v (with_first w v) w)))
| does_second sh v x w : base sh = Some v -> operand_meant x w ->
    does m sh (SetSecond x) (Parts (with_second w v)) (Ok (said m (operand_warnings v (with_second w v) w)))
| does_op sh v x w : base sh = Some v -> operation_meant x w ->
    does m sh (SetOperation x) (Parts (with_op w v)) (Ok (said m (complaints v)))
| does_out sh v x w : base sh = Some v -> signal_meant x w ->
    does m sh (SetOutput x) (Parts (with_out w v)) (Ok (said m (unknown w ++ complaints (with_out w v))))
| does_no_first sh v x : base sh = Some v -> no_meaning operand_meant x ->
    does m sh (SetFirst x) (Parts v) (Err DataFormatError)
| does_no_second sh v x : base sh = Some v -> no_meaning operand_meant x ->
    does m sh (SetSecond x) (Parts v) (Err DataFormatError)
| does_no_op sh v x : base sh = Some v -> no_meaning operation_meant x ->
    does m sh (SetOperation x) (Parts v) (Err DataFormatError)
| does_no_out sh v x : base sh = Some v -> no_meaning signal_meant x ->
    does m sh (SetOutput x) (Parts v) (Err DataFormatError)
| does_broken t : match t with SetFirst _ | SetSecond _ | SetOperation _ | SetOutput _ | Remove => True | _ => False end ->
    does m Broken t Broken (Err AttributeError)
| does_all sh fo fw op so sw out a o b u : 
    operand_meant fo a -> operation_meant (or_times op) o -> operand_meant (not_none so) b -> signal_meant out u ->
    let v := mkView a o b u (mkNets (existsb (pystr_eqb (str "red")) fw) (existsb (pystr_eqb (str "green")) fw))
                            (mkNets (existsb (pystr_eqb (str "red")) sw) (existsb (pystr_eqb (str "green")) sw)) in
    does m sh (SetAll fo fw op so sw out) (Parts v) (Ok (said m (unknown a ++ unknown b ++ unknown u ++ complaints v)))
| does_no_all sh fo fw op so sw out :
    no_meaning operand_meant fo \/ no_meaning operation_meant (or_times op) \/
    no_meaning operand_meant (not_none so) \/ no_meaning signal_meant out ->
    does m sh (SetAll fo fw op so sw out) sh (Err DataFormatError)
| does_remove sh v : base sh = Some v -> does m sh Remove (Parts fresh) (Ok [])
| does_no_conditions sh : does m sh NoConditions Nothing (Ok [])
| does_no_behavior sh : does m sh NoBehavior Broken (Ok [])
| does_mode sh m' : does m sh (SetMode m') sh (Ok []).

(** A run: the mode in force, what is shown, and the outcomes in order. *)
Inductive goes : mode -> shown -> list stmt -> shown -> list (result (list awarn)) -> Prop :=
| goes_end m sh : goes m sh [] sh []
| goes_step m sh t sh' r p sh'' rs :
    does m sh t sh' r -> goes (match t with SetMode m' => m' | _ => m end) sh' p sh'' rs ->
    goes m sh (t :: p) sh'' (r :: rs).
End meaning.

(** What the getters of a state give. *)
Definition networks (s : state) : option (nets * nets) :=
  match st_cb s with CModel (Some c) => Some (first_nets c, second_nets c) | _ => None end.
Definition shows (s : state) (sh : shown) : Prop :=
  match sh with
  | Broken => get_first s = Err AttributeError /\ get_operation s = Err AttributeError /\
              get_second s = Err AttributeError /\ get_output s = Err AttributeError /\ networks s = None
  | Nothing => get_first s = Ok ANone /\ get_operation s = Ok ANone /\
               get_second s = Ok ANone /\ get_output s = Ok ANone /\ networks s = None
  | Parts v => get_first s = Ok (v_first v) /\ get_operation s = Ok (v_op v) /\
               get_second s = Ok (v_second v) /\ get_output s = Ok (v_out v) /\
               networks s = Some (v_nets1 v, v_nets2 v)
  end.
(** The outcomes of a program of the model. *)
Fixpoint outcomes (known : pystr -> bool) (s : state) (p : list stmt) : list (result (list awarn)) :=
  match p with [] => [] | t :: p' => snd (exec known s t) :: outcomes known (fst (exec known s t)) p' end.
