(** Train configurations and placing trains:
    /repo/draftsman/classes/train_configuration.py and
    /repo/draftsman/classes/collection.py 1080-1217, 1278-1302, 1580-1605. *)
From Coq Require Import ZArith NArith List Bool Reals.
From Verif Require Import Common Dict Compass_Model Schedule_Model.
Import ListNotations.
Local Open Scope Z_scope.

(** ** Configuration strings *)
Section Config.
  (** [str.upper] and [str.lower], and the value of a decimal digit ([None]: not
      matched by [\d]) are left arbitrary. *)
  Variables upper lower : pystr -> pystr.
  Variable digit : N -> option Z.
  (** The keyword arguments of a car. *)
  Variable kwargs : Type.

  Definition hyphen : N := 45%N.
  (** [s.split("-")]. *)
  Fixpoint split_hyphen (s : pystr) : list pystr :=
    match s with
    | [] => [[]]
    | c :: s' =>
        match split_hyphen s' with
        | [] => [[]]
        | b :: bs => if N.eqb c hyphen then [] :: b :: bs else (c :: b) :: bs
        end
    end.

  Definition is_digit (c : N) : bool := match digit c with Some _ => true | None => false end.
  (** The longest run of digits at the front. *)
  Fixpoint span_digits (s : pystr) : pystr * pystr :=
    match s with
    | [] => ([], [])
    | c :: s' => if is_digit c then let '(a, b) := span_digits s' in (c :: a, b) else ([], s)
    end.
  (** [re.finditer] with [((\d+)([^\d]))|((\d+)())|(()([^\d]))] (train_configuration.py
      14, 118-128): pairs of the digits and the car, either possibly empty. *)
  Fixpoint matches_of (fuel : nat) (s : pystr) : list (pystr * option N) :=
    match fuel with
    | O => []
    | S f =>
        match s with
        | [] => []
        | _ =>
            let '(ds, rest) := span_digits s in
            match rest with
            | c :: rest' => (ds, Some c) :: matches_of f rest'
            | [] => [(ds, None)]
            end
        end
    end.
  (** [int(amt)]; more than 4300 digits are a [ValueError] in recent Pythons,
      not modelled. *)
  Definition int_of (ds : pystr) : Z :=
    fold_left (fun a c => 10 * a + match digit c with Some v => v | None => 0 end) ds 0.
  (** [car * int(amt)]. *)
  Definition times (n : Z) (c : N) : pystr := repeat c (Z.to_nat n).

  (** One block: 117-143. *)
  Fixpoint block_cars (mapping : N -> option kwargs) (default : N) (ms : list (pystr * option N)) : result pystr :=
    match ms with
    | [] => Ok []
    | (ds, c) :: ms' =>
        let amt := match ds with [] => 1 | _ => int_of ds end in
        let car := match c with Some x => x | None => default end in
        match mapping car with
        | None => Err ValueError
        | Some _ => let* r := block_cars mapping default ms' in Ok (times amt car ++ r)
        end
    end.
  (** 109-143. *)
  Fixpoint blocks_cars (mapping : N -> option kwargs) (dual_headed : bool) (wagon : N) (i : nat) (bs : list pystr) : result pystr :=
    match bs with
    | [] => Ok []
    | b :: bs' =>
        let default :=
          if dual_headed && Nat.eqb i 2 then 62%N      (* ">" *)
          else if Nat.even i then 60%N                 (* "<" *)
          else wagon in
        let* x := block_cars mapping default (matches_of (S (length b)) b) in
        let* r := blocks_cars mapping dual_headed wagon (S i) bs' in
        Ok (x ++ r)
    end.
  Fixpoint lookups (mapping : N -> option kwargs) (s : pystr) : result (list kwargs) :=
    match s with
    | [] => Ok []
    | c :: s' =>
        match mapping c with
        | None => Err KeyError
        | Some k => let* r := lookups mapping s' in Ok (k :: r)
        end
    end.
  Definition s_dual : pystr := [100; 117; 97; 108]%N.
  Definition s_forward : pystr := [102; 111; 114; 119; 97; 114; 100]%N.
  Definition s_cargo : pystr := [99; 97; 114; 103; 111]%N.
  Definition s_fluid : pystr := [102; 108; 117; 105; 100]%N.
  Definition s_artillery : pystr := [97; 114; 116; 105; 108; 108; 101; 114; 121]%N.
  (** 63-148 [from_string]. *)
  Definition from_string (format direction wagons : pystr) (mapping : N -> option kwargs) : result (list kwargs) :=
    let format := upper format in
    let direction := lower direction in
    let wagons := lower wagons in
    if negb (pystr_eqb direction s_dual || pystr_eqb direction s_forward) then Err ValueError
    else
      let* wagon :=
        (if pystr_eqb wagons s_cargo then Ok 67%N
         else if pystr_eqb wagons s_fluid then Ok 70%N
         else if pystr_eqb wagons s_artillery then Ok 65%N
         else Err ValueError) in
      let blocks := split_hyphen format in
      let dual_headed := Nat.eqb (length blocks) 3 && pystr_eqb direction s_dual in
      let* s := blocks_cars mapping dual_headed wagon 0 blocks in
      lookups mapping s.
End Config.

(** 53-59 [rail_length] with exact arithmetic: [ceil((n * 7) / 2)]. *)
Definition rail_length (n : nat) : Z := - ((- (Z.of_nat n * 7)) / 2).

(** ** Placing *)
(** A car of a configuration: whether it is a locomotive, its orientation, and
    what else it is.  An entity of the collection: also its position. *)
Record car := mkCar { car_what : nat; car_loco : bool; car_orient : orientation }.
Record entity := mkEntity { e_car : car; e_pos : R * R }.
Record schedule := mkSchedule { s_stops : list stop; s_locos : list loco }.
(** The collection: entities with their identities in order, the next unused
    identity, the schedules. *)
Record coll := mkColl { ents : list (nat * entity); fresh : nat; scheds : list schedule }.

Definition stop_eqb (a b : stop) : bool := pystr_eqb (station a) (station b) && wcs_eqb (conds a) (conds b).
Fixpoint list_eqb {A} (eqb : A -> A -> bool) (a b : list A) : bool :=
  match a, b with
  | [], [] => true
  | x :: a', y :: b' => eqb x y && list_eqb eqb a' b'
  | _, _ => false
  end.
Definition stops_eqb : list stop -> list stop -> bool := list_eqb stop_eqb.
(** association.py 34-57: same living target (two dead ones are equal). *)
Definition loco_eqb (a b : loco) : bool :=
  match a, b with
  | LRef (Some i), LRef (Some j) => Nat.eqb i j
  | LRef None, LRef None => true
  | LNum x, LNum y => Z.eqb x y
  | _, _ => false
  end.
(** schedule.py 709-714 [Schedule.__eq__]. *)
Definition schedule_eqb (a b : schedule) : bool :=
  list_eqb loco_eqb (s_locos a) (s_locos b) && stops_eqb (s_stops a) (s_stops b).

(** Position of the first schedule with [p]. *)
Fixpoint find_pos {A} (p : A -> bool) (l : list A) : option nat :=
  match l with [] => None | x :: l' => if p x then Some O else option_map S (find_pos p l') end.
(** 1117-1129, 1184-1196: the schedule to use, appended if none fits. *)
Definition choose (same : schedule -> schedule -> bool) (c : coll) (s : schedule) : coll * nat :=
  match find_pos (same s) (scheds c) with
  | Some k => (c, k)
  | None => (mkColl (ents c) (fresh c) (scheds c ++ [s]), length (scheds c))
  end.
(** [current_schedule.add_locomotive(self.entities[-1])] for a locomotive
    (schedule.py 542-558). *)
Definition attach (ss : list schedule) (k : nat) (i : nat) : list schedule :=
  match nth_error ss k with
  | None => ss
  | Some s =>
      match add_locomotive (fun _ => true) (s_locos s) i with
      | Ok ls => replace_nth ss k (mkSchedule (s_stops s) ls)
      | Err _ => ss
      end
  end.

Section Place.
  Variable K : Z.
  Definition shift (p v : R * R) : R * R := (fst p + fst v, snd p + snd v)%R.
  (** The loops 1131-1144 and 1198-1217.  [reduce]: with [% 1.0]. *)
  Fixpoint place_cars (reduce : bool) (d : Z) (pos : R * R) (k : option nat) (cars : list car) (c : coll) : coll * option exn :=
    match cars with
    | [] => (c, None)
    | x :: cars' =>
        match to_orientation K d with
        | Err e => (c, Some e)
        | Ok o =>
            let r := value K o + value K (car_orient x) in
            let e := mkEntity (mkCar (car_what x) (car_loco x) (mkO (if reduce then r mod turn K else r))) pos in
            let i := fresh c in
            let ss := match k with Some k => if car_loco x then attach (scheds c) k i else scheds c | None => scheds c end in
            let c' := mkColl (ents c ++ [(i, e)]) (S i) ss in
            match to_vector (-7) d with
            | Err e => (c', Some e)
            | Ok v => place_cars reduce d (shift pos v) k cars' c'
            end
        end
    end.
  (** 1080-1144; the result with the exception raised, if any. *)
  Definition add_train_at_position (c : coll) (cars : list car) (pos : R * R) (d : Z) (s : option schedule) : coll * option exn :=
    let '(c, k) :=
      match s with
      | None => (c, None)
      | Some s => let '(c', k) := choose (fun a b => stops_eqb (s_stops a) (s_stops b)) c s in (c', Some k)
      end in
    place_cars true d pos k cars c.

  (** 1146-1217.  The station: whether its type is "train-stop", its position
      and its direction. *)
  Definition add_train_at_station (c : coll) (cars : list car) (is_stop : bool) (spos : R * R) (d : Z) (s : option schedule) : coll * option exn :=
    if negb is_stop then (c, Some ValueError)
    else
      let '(c, k) :=
        match s with
        | None => (c, None)
        | Some s => let '(c', k) := choose schedule_eqb c s in (c', Some k)
        end in
      match (let* p := previous true d in let* over := to_vector 2 p in let* back := to_vector 4 d in Ok (over, back)) with
      | Err e => (c, Some e)
      | Ok (over, back) =>
          let start := shift (fst spos - fst back, snd spos - snd back)%R over in
          place_cars false d start k cars c
      end.

  (** 1580-1595 [train_at_station]: whether a stop at [spos] with direction [sd]
      is where the stop of a train headed by [head] is looked for. *)
  Definition looks_for_stop (head : entity) : result (R * R * Z) :=
    let* fwd := to_direction K false (car_orient (e_car head)) in
    let* rgt := next true fwd in
    let* a := to_vector 3 fwd in
    let* b := to_vector 2 rgt in
    Ok (shift (shift (e_pos head) a) b, fwd).
End Place.
