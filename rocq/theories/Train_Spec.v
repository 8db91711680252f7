(** What configuration strings and placed trains are supposed to be. *)
From Coq Require Import ZArith NArith List Bool Reals.
From Verif Require Import Common Compass_Model Compass_Spec Schedule_Model Schedule_Spec Train_Model.
Import ListNotations.
Local Open Scope Z_scope.

(** ** The configuration language: blocks joined by hyphens; a block is a
    sequence of items; an item is a number (possibly missing) and a letter
    (missing only at the end of a block, after a number). *)
Section Language.
  Variable digit : N -> option Z.
  Definition item : Type := pystr * option N.
  Definition item_text (it : item) : pystr := fst it ++ match snd it with Some c => [c] | None => [] end.
  Definition block_text (b : list item) : pystr := concat (map item_text b).
  Fixpoint text (bs : list (list item)) : pystr :=
    match bs with
    | [] => []
    | [b] => block_text b
    | b :: bs' => block_text b ++ 45%N :: text bs'
    end.
  Definition number_ok (ds : pystr) : Prop := Forall (fun c => digit c <> None) ds.
  Fixpoint block_ok (b : list item) : Prop :=
    match b with
    | [] => True
    | (ds, Some c) :: b' => number_ok ds /\ digit c = None /\ c <> 45%N /\ block_ok b'
    | (ds, None) :: b' => number_ok ds /\ ds <> [] /\ b' = []
    end.
  (** A written number. *)
  Fixpoint decimal (ds : pystr) : Z :=
    match ds with
    | [] => 0
    | c :: ds' => match digit c with Some v => v | None => 0 end * 10 ^ Z.of_nat (length ds') + decimal ds'
    end.
  Definition letter (default : N) (it : item) : N := match snd it with Some c => c | None => default end.
  Definition amount (it : item) : nat := match fst it with [] => 1%nat | ds => Z.to_nat (decimal ds) end.
  (** The cars spelled by an item or a block. *)
  Definition spelled (default : N) (b : list item) : pystr :=
    concat (map (fun it => repeat (letter default it) (amount it)) b).
  (** The car meant by a bare number: locomotives in blocks 0, 2, …, wagons in
      the others; the last block of three faces backwards if dual-headed. *)
  Definition block_default (dual : bool) (wagon : N) (n i : nat) : N :=
    if dual && Nat.eqb n 3 && Nat.eqb i 2 then 62%N else if Nat.even i then 60%N else wagon.
  (** Blocks with their defaults. *)
  Definition with_defaults (dual : bool) (wagon : N) (bs : list (list item)) : list (N * list item) :=
    combine (map (block_default dual wagon (length bs)) (seq 0 (length bs))) bs.
  Definition all_spelled (dbs : list (N * list item)) : pystr := concat (map (fun p => spelled (fst p) (snd p)) dbs).
  Definition all_known {V} (mapping : N -> option V) (dbs : list (N * list item)) : Prop :=
    Forall (fun p => Forall (fun it => mapping (letter (fst p) it) <> None) (snd p)) dbs.
End Language.

(** The three wagon words and their letters, the two direction words. *)
Definition wagon_letter (w : pystr) (c : N) : Prop :=
  (w = s_cargo /\ c = 67%N) \/ (w = s_fluid /\ c = 70%N) \/ (w = s_artillery /\ c = 65%N).

(** ** Placing *)
(** [n] steps of [7] against the heading. *)
Definition behind (start : R * R) (v : R * R) (n : nat) : R * R :=
  (fst start - 7 * INR n * fst v, snd start - 7 * INR n * snd v)%R.
Definition difference (p q : R * R) : R * R := (fst p - fst q, snd p - snd q)%R.
(** Identities of the locomotives among new entities. *)
Definition new_locos (es : list (nat * entity)) : list nat :=
  map fst (filter (fun p => car_loco (e_car (snd p))) es).
(** Schedule list with locomotives added to entry [k]. *)
Definition extended (ss : list schedule) (k : nat) (is : list nat) (ss' : list schedule) : Prop :=
  exists pre s post, ss = pre ++ s :: post /\ length pre = k /\
    ss' = pre ++ mkSchedule (s_stops s) (s_locos s ++ map (fun i => LRef (Some i)) is) :: post.
(** No schedule knows the unused identities. *)
Definition sound (c : coll) : Prop :=
  Forall (fun s => forall i, In i (targets (s_locos s)) -> (i < fresh c)%nat) (scheds c).
(** [e] is car [x] placed as the [n]th of a train heading [d] (unit vector [v])
  that starts at [pos]; the orientations add up, with [reduce] modulo a turn. *)
Definition placed_as (K : Z) (reduce : bool) (d : Z) (v : R * R) (pos : R * R) (n : nat) (x : car) (e : entity) : Prop :=
  e_pos e = behind pos v n /\ car_what (e_car e) = car_what x /\ car_loco (e_car e) = car_loco x /\
  raw (car_orient (e_car e)) =
    (let r := value K (mkO (d * K)) + value K (car_orient x) in if reduce then r mod turn K else r).
(** [k] is the position of the first element with [P]. *)
Definition first_pos {A} (P : A -> Prop) (l : list A) (k : nat) : Prop :=
  exists pre x post, l = pre ++ x :: post /\ length pre = k /\ P x /\ forall y, In y pre -> ~ P y.
(** The schedule used for [s]: the first fitting one, or [s] appended. *)
Definition chosen (fits : schedule -> Prop) (s : schedule) (ss ss' : list schedule) (k : nat) : Prop :=
  (first_pos fits ss k /\ ss' = ss) \/ ((forall x, In x ss -> ~ fits x) /\ ss' = ss ++ [s] /\ k = length ss).
(** What placing does. *)
Definition placement (K : Z) (reduce : bool) (fits : schedule -> Prop) (c : coll) (cars : list car) (start : R * R) (d : Z) (v : R * R)
    (s : option schedule) (c' : coll) (es : list (nat * entity)) : Prop :=
  ents c' = ents c ++ es /\ map fst es = seq (fresh c) (length cars) /\ fresh c' = (fresh c + length cars)%nat /\
  (forall n x, nth_error cars n = Some x -> exists i e, nth_error es n = Some (i, e) /\ placed_as K reduce d v start n x e) /\
  match s with
  | None => scheds c' = scheds c
  | Some s => exists ss k, chosen fits s (scheds c) ss k /\ extended ss k (new_locos es) (scheds c')
  end.
