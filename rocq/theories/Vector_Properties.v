(** C83: vectors and ticks. *)
From Coq Require Import ZArith QArith Qabs String List Bool Lia.
From Verif Require Import Common Dict Vector_Model Vector_Spec Vector_Proofs Vector_Names_Proofs Vector_Witness_Proofs Vector_Keys_Proofs.
Import ListNotations.
Local Open Scope string_scope.
Local Open Scope list_scope.
Local Open Scope Z_scope.

(** After any program every name shows what it was last given through any name of
    its family, names are one object iff they are of one family, and the next call
    does what is said and raises what is said. *)
Theorem C83_names : forall F cs c, exists w w',
  does_all F cs w /\ agree (run F cs nowhere) w
  /\ does F w c w' (snd (exec F (run F cs nowhere) c)) /\ agree (fst (exec F (run F cs nowhere) c)) w'.
Proof. exact programs. Qed.
Print Assumptions C83_names.
(** A call that fails changes nothing. *)
Theorem C83_failing : forall F st c e, snd (exec F st c) = Some e -> fst (exec F st c) = st.
Proof. exact failing. Qed.
Print Assumptions C83_failing.

(** Operators work number by number, on vectors, sequences and numbers alike; they
    fail iff they divide by zero. *)
Theorem C83_operators : forall F o v x u, pair_of x = Some u ->
  (forall w, binary F o v x = Ok w -> makes F o (fst v) (fst u) (fst w) /\ makes F o (snd v) (snd u) (snd w))
  /\ (forall e, binary F o v x = Err e <-> e = ZeroDivisionError /\ divides o /\ (zero (fst u) \/ zero (snd u))).
Proof. exact operator. Qed.
Print Assumptions C83_operators.
(** Operands that stand for no pair are refused. *)
Theorem C83_misfit : forall F o v x, pair_of x = None ->
  exists e, binary F o v x = Err e
    /\ (e = complaint x \/ (e = ZeroDivisionError /\ divides o /\ exists n, first x = Ok n /\ zero n)).
Proof. exact misfit. Qed.
Print Assumptions C83_misfit.
Theorem C83_scalar : forall F o v n, binary F o v (Num n) = binary F o v (Vec (n, n)).
Proof. exact scalar. Qed.
Print Assumptions C83_scalar.
Theorem C83_integers : forall F u v w, integers u -> integers v -> integers w ->
  (let* s := binary F Add u (Vec v) in binary F Add s (Vec w)) = (let* s := binary F Add v (Vec w) in binary F Add u (Vec s))
  /\ binary F Add u (Vec v) = binary F Add v (Vec u)
  /\ (let* s := binary F Add u (Vec v) in binary F Sub s (Vec v)) = Ok u
  /\ (let* s := binary F Sub u (Vec v) in binary F Add s (Vec v)) = Ok u
  /\ (let* s := binary F Add v (Vec w) in binary F Mul u (Vec s))
     = (let* a := binary F Mul u (Vec v) in let* b := binary F Mul u (Vec w) in binary F Add a (Vec b))
  /\ (~ zero (fst v) -> ~ zero (snd v) -> (let* p := binary F Mul u (Vec v) in binary F FloorDiv p (Vec v)) = Ok u).
Proof. exact int_laws. Qed.
Print Assumptions C83_integers.
Theorem C83_commutes : forall F o v w a b, proper F -> o = Add \/ o = Mul ->
  binary F o v (Vec w) = Ok a -> binary F o w (Vec v) = Ok b -> alike a b.
Proof. exact commutes. Qed.
Print Assumptions C83_commutes.

(** Equality compares vectors by their numbers, and is an equivalence. *)
Theorem C83_equal : forall v x, equal v x = true <-> exists w, x = Vec w /\ alike v w.
Proof. exact equal_alike. Qed.
Print Assumptions C83_equal.
Theorem C83_equivalence : (forall v, alike v v) /\ (forall v w, alike v w -> alike w v) /\ (forall u v w, alike u v -> alike v w -> alike u w).
Proof. exact alike_equivalence. Qed.
Print Assumptions C83_equivalence.

Theorem C83_absolute : forall v,
  (exactly (fst (absolute v)) == Qabs (exactly (fst v)) /\ exactly (snd (absolute v)) == Qabs (exactly (snd v)))%Q
  /\ (integers v <-> integers (absolute v)).
Proof. exact absolutes. Qed.
Print Assumptions C83_absolute.
Theorem C83_rounding : forall F v p, rounds_to F (fst v) p (fst (rounded F v p)) /\ rounds_to F (snd v) p (snd (rounded F v p)).
Proof. exact rounds. Qed.
Print Assumptions C83_rounding.

(** [int] goes towards zero by less than one. *)
Theorem C83_truncates : forall n, (Qabs (inject_Z (as_int n)) <= Qabs (exactly n) /\ Qabs (exactly n - inject_Z (as_int n)) < 1)%Q
  /\ (0 <= exactly n -> 0 <= inject_Z (as_int n))%Q /\ (exactly n <= 0 -> inject_Z (as_int n) <= 0)%Q.
Proof. exact as_int_spec. Qed.
Print Assumptions C83_truncates.
(** Through the dictionary and back: exact for ints read as ints, and for the rest
    iff its ints are floats. *)
Theorem C83_dictionary_ints : forall F v, integers v -> convert F (A := vector) (Dict (to_dict v)) CInt = Ok v.
Proof. exact from_dict_ints. Qed.
Print Assumptions C83_dictionary_ints.
Theorem C83_dictionary : forall F v w, convert F (A := vector) (Dict (to_dict v)) CFloat = Ok w ->
  (alike v w <-> forall n z, (n = fst v \/ n = snd v) -> n = Int z -> (fl F (inject_Z z) == inject_Z z)%Q).
Proof. exact from_dict_floats. Qed.
Print Assumptions C83_dictionary.
(** In a dictionary the first entry with the key counts, and keys are the same if
    they are the same number or the same text. *)
Theorem C83_keys : forall d n,
  (first (Dict d) = Ok n <-> exists l1 l2, d = l1 ++ (KInt 0, n) :: l2 /\ ~ In (KInt 0) (map fst l1)) /\
  (second (Dict d) = Ok n <-> exists l1 l2, d = l1 ++ (KInt 1, n) :: l2 /\ ~ In (KInt 1) (map fst l1)).
Proof. exact keys_found. Qed.
Print Assumptions C83_keys.
Theorem C83_conversion : forall F x c,
  match x with
  | Seq (a :: b :: _) => convert F (A := vector) x c = Ok (apply F c a, apply F c b)
  | Seq _ => convert F x c = Err IndexError
  | Dict d => match dget key_eqb d (KStr (str "x")), dget key_eqb d (KStr (str "y")) with
              | Some a, Some b => convert F x c = Ok (apply F c a, apply F c b)
              | _, _ => convert F x c = Err KeyError
              end
  | _ => convert F x c = Err TypeError
  end.
Proof. exact conversions. Qed.
Print Assumptions C83_conversion.

Theorem C83_items : forall v k n v', setitem v k n = Ok v' ->
  getitem v' k = Ok n /\ (forall k', place k' <> place k -> getitem v' k' = getitem v k').
Proof. exact items. Qed.
Print Assumptions C83_items.
Theorem C83_places : forall k,
  (place k = Ok false <-> k = KStr (str "x") \/ k = KInt 0 \/ k = KInt (-2))
  /\ (place k = Ok true <-> k = KStr (str "y") \/ k = KInt 1 \/ k = KInt (-1))
  /\ (forall e, place k = Err e -> match k with KInt _ => e = IndexError | KStr _ => e = TypeError end).
Proof. exact places. Qed.
Print Assumptions C83_places.

(** The number of ticks is the one closest to the duration, halves to even. *)
Theorem C83_ticks : forall F t, proper F -> precise F -> halves F -> normal t ->
  closest (inject_Z (duration t * 60) / inject_Z 1000000) (from_timedelta F t).
Proof. exact ticks_closest. Qed.
Print Assumptions C83_ticks.
Theorem C83_ticks_order : forall F t t', proper F -> precise F -> halves F -> normal t -> normal t' ->
  duration t <= duration t' -> from_timedelta F t <= from_timedelta F t'.
Proof. exact ticks_order. Qed.
Print Assumptions C83_ticks_order.
Theorem C83_ticks_opposite : forall F t t', proper F -> precise F -> halves F -> normal t -> normal t' ->
  duration t' = - duration t -> from_timedelta F t' = - from_timedelta F t.
Proof. exact ticks_opposite. Qed.
Print Assumptions C83_ticks_opposite.
Theorem C83_ticks_whole : forall F t k, proper F -> precise F -> halves F -> normal t ->
  duration t = k * 1000000 -> from_timedelta F t = 60 * k.
Proof. exact ticks_whole. Qed.
Print Assumptions C83_ticks_whole.
Theorem C83_ticks_shift : forall F t t' k, proper F -> precise F -> halves F -> normal t -> normal t' ->
  duration t' = duration t + k * 1000000 -> from_timedelta F t' = from_timedelta F t + 60 * k.
Proof. exact ticks_shift. Qed.
Print Assumptions C83_ticks_shift.

(** Refuted: that [from_other] gives a vector of its own (two groups given one
    position move together), that a cast is applied to vectors too, that
    operators take the dictionaries that [from_other] takes, that equal vectors
    have equal sums, that a vector survives its dictionary, that ticks add up. *)
Theorem C83_own_refuted : forall F, exists cs i j, i <> j
  /\ value (run F cs nowhere) j = Some (Int 0, Int 0)
  /\ value (run F (cs ++ [SetX i (Int 5)]) nowhere) j = Some (Int 5, Int 0).
Proof. exact sharing. Qed.
Print Assumptions C83_own_refuted.
Theorem C83_cast_refuted : forall F, exists u v w, alike u v
  /\ convert F (A := vector) (Seq [fst u; snd u]) CInt = Ok w
  /\ (forall cs, let st := run F (cs ++ [New (fst v) (snd v); From (Vec (List.length (names (run F cs nowhere)))) CInt]) nowhere in
       value st (S (List.length (names (run F cs nowhere)))) = Some v)
  /\ ~ alike v w.
Proof. exact casts. Qed.
Print Assumptions C83_cast_refuted.
Theorem C83_dictionary_operand_refuted : forall F o v, binary F o v (Dict (to_dict v)) = Err KeyError.
Proof. exact dictionaries. Qed.
Print Assumptions C83_dictionary_operand_refuted.
Theorem C83_congruent_refuted : forall F, (fl F (inject_Z (2 ^ 53) + fl F 1) == inject_Z (2 ^ 53))%Q ->
  exists u v w a b, alike u v /\ binary F Add u w = Ok a /\ binary F Add v w = Ok b /\ ~ alike a b.
Proof. exact congruent. Qed.
Print Assumptions C83_congruent_refuted.
Theorem C83_through_dict_refuted : forall F, (fl F (inject_Z (2 ^ 53 + 1)) == inject_Z (2 ^ 53))%Q ->
  exists v w, convert F (A := vector) (Dict (to_dict v)) CFloat = Ok w /\ ~ alike v w.
Proof. exact through_dict. Qed.
Print Assumptions C83_through_dict_refuted.
Theorem C83_additive_refuted : forall F, proper F -> precise F -> halves F -> exists s t u, normal s /\ normal t /\ normal u
  /\ duration u = duration s + duration t /\ from_timedelta F u <> from_timedelta F s + from_timedelta F t.
Proof. exact additive. Qed.
Print Assumptions C83_additive_refuted.

(** A vector, its alias, a sum and a floor; writing through the alias. *)
Definition exact_floats : floats := mkFloats (fun q => q) (fun a b => a) (fun q _ => q).
Example C83_example :
  let st := run exact_floats [New (Int 7) (Int (-7)); From (Vec 0%nat) CInt; Binary FloorDiv 0%nat (Num (Int 2)); SetItem 1%nat (KStr (str "y")) (Int 1);
                              Binary Add 0%nat (Dict []); Binary Add 0%nat (Seq [Int 1; Int 2])] nowhere in
  map (value st) [0; 1; 2; 3]%nat
  = [Some (Int 7, Int 1); Some (Int 7, Int 1); Some (Int 3, Int (-4)); Some (Int 8, Int 3)].
Proof. reflexivity. Qed.
(** The example of the documentation, and a duration of one and a half ticks. *)
Example C83_ticks_example :
  from_timedelta exact_floats (mkDelta 0 263 0) = 15780
  /\ from_timedelta exact_floats (mkDelta 0 0 25000) = 2 /\ from_timedelta exact_floats (mkDelta (-1) 86399 975000) = -2.
Proof. repeat split. Qed.
(** Something satisfies the assumptions. *)
Example C83_floats : proper exact_floats /\ precise exact_floats /\ halves exact_floats.
Proof.
  split; [intros p q H; exact H|]. split; [|intros n H; reflexivity].
  intros q H. assert (E : (fl exact_floats q - q == 0)%Q) by (cbn; ring). rewrite E. discriminate.
Qed.
