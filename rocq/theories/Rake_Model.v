(** Finding and changing trains: /repo/draftsman/classes/collection.py 1219-1313
    ([set_train_schedule], [remove_train]), 1315-1441 [find_train_from_wagon] and
    1443-1655 [find_trains_filtered].

    Rolling stock are identities; [at_] gives each its car and position as in
    Train_Model.  Positions are real numbers, orientations exact fractions of a
    turn of [16 * K] units.  The searches for rolling stock ([near], [wagons])
    and train stops ([stops]) are the subject of C39 and are parameters here.
    [limit] is the depth of recursion the interpreter allows. *)
From Coq Require Import String ZArith List Bool Reals.
From Verif Require Import Common Dict Compass_Model Schedule_Model Train_Model.
Import ListNotations.
Local Open Scope string_scope.
Local Open Scope list_scope.
Local Open Scope Z_scope.

(** utils.py 501-511 [distance]. *)
Definition distance (p q : R * R) : R := sqrt ((fst p - fst q) ^ 2 + (snd p - snd q) ^ 2)%R.
Definition rlt (a b : R) : bool := if Rlt_dec a b then true else false.
Definition rle (a b : R) : bool := if Rle_dec a b then true else false.
(** [2.9 < distance(p, q) <= 3.1]. *)
Definition gap (p q : R * R) : bool := rlt (29 / 10) (distance p q) && rle (distance p q) (31 / 10).

Definition mem (n : nat) (l : list nat) : bool := existsb (Nat.eqb n) l.

Section Rake.
  Variable K : Z.
  Variable at_ : nat -> entity.
  (** [self.find_entities_filtered(position=wagon.position, radius=7.5, type={…})]. *)
  Variable near : nat -> list nat.

  Definition ori (w : nat) : orientation := car_orient (e_car (at_ w)).
  Definition pos (w : nat) : R * R := e_pos (at_ w).
  Definition loco (w : nat) : bool := car_loco (e_car (at_ w)).

  (** constants.py 430-451 [Orientation.to_vector]. *)
  Definition o_vector (o : orientation) (m : R) : R * R :=
    let angle := (IZR (value K o) / IZR (turn K) * PI * 2)%R in
    (sin angle * m, - cos angle * m)%R.

  (** collection.py 1378-1389.  [float < Orientation] is answered by the
      inherited [float.__gt__] on the raw numbers, [Orientation < float] by
      [__lt__] on the reduced one. *)
  Definition in_window (a : Z) (o : orientation) : bool := (a - 2 * K <? raw o) && (value K o <? a + 2 * K).
  Definition facing_ok (w n : nat) : bool :=
    in_window (raw (ori w)) (ori n) || in_window (raw (o_opposite K (ori w))) (ori n).
  (** 1390-1396. *)
  Definition truck (w n : nat) : R * R :=
    let a := shift (pos n) (o_vector (ori n) 2) in
    let b := shift (pos n) (o_vector (ori n) (-2)) in
    if rlt (distance (pos w) a) (distance (pos w) b) then a else b.
  (** 1398-1401. *)
  Definition forward (w : nat) (backwards : bool) : orientation :=
    if backwards then o_opposite K (ori w) else ori w.
  (** 1403-1412. *)
  Definition is_backwards (w : nat) (backwards : bool) (n : nat) : bool :=
    let u := o_vector (ori n) 1 in
    let v := o_vector (forward w backwards) 1 in
    rlt (fst u * fst v + snd u * snd v) 0.
  (** 1414-1416 and 1424-1426. *)
  Definition in_front (w : nat) (backwards : bool) (n : nat) : bool :=
    gap (shift (pos w) (o_vector (forward w backwards) 2)) (truck w n).
  Definition in_back (w : nat) (backwards : bool) (n : nat) : bool :=
    gap (shift (pos w) (o_vector (forward w backwards) (-2))) (truck w n).

  (** [used_wagons], [current_train], [all_locos_backwards]. *)
  Record walk := mkWalk { used : list nat; train : list nat; all_back : bool }.

  (** 1349-1437 [traverse_neighbours]: the loop over the neighbours, [visit_one]
      being the recursive call, and the function. *)
  Fixpoint visit (visit_one : nat -> bool -> walk -> result walk) (w : nat) (backwards : bool) (ns : list nat) (s : walk) : result walk :=
    match ns with
    | [] => Ok s
    | n :: ns' =>
        if mem n (used s) then visit visit_one w backwards ns' s
        else if facing_ok w n then
          let back := is_backwards w backwards n in
          let* s1 :=
            (if in_front w backwards n
             then visit_one n back (mkWalk (n :: used s) (n :: train s) (all_back s)) else Ok s) in
          let* s2 :=
            (if in_back w backwards n
             then visit_one n back (mkWalk (n :: used s1) (train s1 ++ [n]) (all_back s1)) else Ok s1) in
          visit visit_one w backwards ns' s2
        else visit visit_one w backwards ns' s
    end.
  Fixpoint traverse (limit : nat) (w : nat) (backwards : bool) (s : walk) : result walk :=
    match limit with
    | O => Err RecursionError
    | S l =>
        visit (traverse l) w backwards (near w)
          (if loco w && negb backwards then mkWalk (used s) (train s) false else s)
    end.

  (** 1315-1441. *)
  Definition find_train_from_wagon (limit : nat) (w : nat) : result (list nat) :=
    let* s := traverse limit w false (mkWalk [w] [w] true) in
    Ok (if all_back s then rev (train s) else train s).

  (** ** [find_trains_filtered] *)
  (** 1513-1534: all trains. *)
  Fixpoint collect (limit : nat) (wagons : list nat) (seen : list nat) : result (list (list nat)) :=
    match wagons with
    | [] => Ok []
    | w :: ws =>
        if mem w seen then collect limit ws seen
        else
          let* t := find_train_from_wagon limit w in
          let* r := collect limit ws (seen ++ t) in
          Ok (t :: r)
    end.

  (** A number or a pair of optional bounds; 1539-1551 [normalize_range] ([None]
      above: infinity). *)
  Inductive range := Exactly (n : Z) | Between (lo hi : option Z).
  Definition normalize_range (r : range) : Z * option Z :=
    match r with
    | Exactly n => (n, Some n)
    | Between lo hi => (match lo with Some l => l | None => 0 end, hi)
    end.
  Definition in_range (r : range) (n : Z) : bool :=
    let '(lo, hi) := normalize_range r in (lo <=? n) && match hi with Some h => n <=? h | None => true end.

  Inductive at_arg := NoStation | AnyStation | Stations (names : list pystr).
  (** A train stop: its position, direction and station name, if any. *)
  Record stop_ent := mkStopEnt { t_pos : R * R; t_dir : Z; t_station : option pystr }.
  Record query := mkQuery {
    q_length : option range;
    q_orientation : option orientation;
    q_station : at_arg;
    q_types : list (pystr * range);
    q_names : list (pystr * range);
    q_config : option (list pystr);
    q_schedule : option (list stop)
  }.
  (** Type and name of the rolling stock. *)
  Variables kind name : nat -> pystr.
  Variable stops : list stop_ent.
  Variable schedules : list schedule.

  Definition req (a b : R) : bool := if Req_EM_T a b then true else false.
  Fixpoint find_stop (ts : list stop_ent) (p : R * R) (d : Z) : option (option pystr) :=
    match ts with
    | [] => None
    | t :: ts' => if req (fst (t_pos t)) (fst p) && req (snd (t_pos t)) (snd p) && (t_dir t =? d) then Some (t_station t) else find_stop ts' p d
    end.
  (** 1580-1601 [train_at_station]; [None] for [False]. *)
  Definition train_at_station (t : list nat) : result (option (option pystr)) :=
    match t with
    | [] => Err IndexError
    | head :: _ => let* p := looks_for_stop K (at_ head) in Ok (find_stop stops (fst p) (snd p))
    end.
  Definition count (f : nat -> pystr) (t : list nat) (x : pystr) : Z :=
    Z.of_nat (List.length (filter (fun c => pystr_eqb (f c) x) t)).
  Definition counts_ok (f : nat -> pystr) (t : list nat) (qs : list (pystr * range)) : bool :=
    forallb (fun q => in_range (snd q) (count f t (fst q))) qs.
  Fixpoint names_match (t : list nat) (cfg : list pystr) : bool :=
    match t, cfg with
    | [], [] => true
    | c :: t', x :: cfg' => pystr_eqb (name c) x && names_match t' cfg'
    | _, _ => false
    end.
  (** The loop 1640-1642 keeps the last locomotive. *)
  Definition last_loco (t : list nat) : option nat :=
    fold_left (fun r c => if pystr_eqb (kind c) (str "locomotive") then Some c else r) t None.

  (** 1606-1650 [test]. *)
  Definition test (q : query) (t : list nat) : result bool :=
    if negb (match q_length q with Some r => in_range r (Z.of_nat (List.length t)) | None => true end) then Ok false
    else
      let* here :=
        (match q_station q with
         | NoStation | Stations [] => Ok true
         | AnyStation => let* s := train_at_station t in Ok (match s with Some _ => true | None => false end)
         | Stations names =>
             let* s := train_at_station t in
             Ok (match s with Some (Some x) => existsb (pystr_eqb x) names | _ => false end)
         end) in
      if negb here then Ok false
      else if negb (counts_ok kind t (q_types q)) then Ok false
      else if negb (counts_ok name t (q_names q)) then Ok false
      else if negb (match q_orientation q with
                    | Some o => forallb (fun c => raw (ori c) =? raw o) t
                    | None => true
                    end) then Ok false
      else if negb (match q_config q with Some cfg => names_match t cfg | None => true end) then Ok false
      else
        match q_schedule q with
        | None => Ok true
        | Some ss =>
            match schedules, last_loco t with
            | [], _ => Ok false
            | _, None => Err UnboundLocalError
            | _, Some l =>
                Ok (existsb (fun s => existsb (is_loco l) (s_locos s) && stops_eqb (s_stops s) ss) schedules)
            end
        end.
  Fixpoint filter_result (f : list nat -> result bool) (ts : list (list nat)) : result (list (list nat)) :=
    match ts with
    | [] => Ok []
    | t :: ts' => let* b := f t in let* r := filter_result f ts' in Ok (if b then t :: r else r)
    end.
  (** [l[:limit]]. *)
  Definition cut {A} (l : list A) (n : Z) : list A :=
    let len := Z.of_nat (List.length l) in
    firstn (Z.to_nat (if n <? 0 then Z.max 0 (len + n) else n)) l.
  (** 1443-1655. *)
  Definition find_trains_filtered (limit : nat) (wagons : list nat) (q : query) (invert : bool) (max : option Z) : result (list (list nat)) :=
    let* ts := collect limit wagons [] in
    let* r := filter_result (fun t => let* b := test q t in Ok (xorb invert b)) ts in
    Ok (cut r (match max with Some m => m | None => Z.of_nat (List.length ts) end)).

  (** ** Changing trains *)
  (** 1241-1247: the cars of all touched trains. *)
  Fixpoint touched (limit : nat) (cars : list nat) (all : list nat) : result (list nat) :=
    match cars with
    | [] => Ok all
    | c :: cars' =>
        if mem c all then touched limit cars' all
        else let* t := find_train_from_wagon limit c in touched limit cars' (all ++ filter (fun x => negb (mem x all)) t)
    end.
  (** The set [all_cars] is visited in an order of the interpreter's choosing. *)
  Variable order : list nat -> list nat.
  Definition wipe (ls : list Schedule_Model.loco) (i : nat) : list Schedule_Model.loco :=
    match remove_locomotive ls i with Ok r => r | Err _ => ls end.
  Definition enlist (ls : list Schedule_Model.loco) (i : nat) : list Schedule_Model.loco :=
    if existsb (is_loco i) ls then ls else ls ++ [LRef (Some i)].
  (** 1262-1264: the position of the last schedule with the same stops. *)
  Definition last_same (ss : list stop) (l : list schedule) : option nat :=
    fold_left (fun r k => match nth_error l k with
                          | Some s => if stops_eqb ss (s_stops s) then Some k else r
                          | None => r end) (seq 0 (List.length l)) None.
  (** 1219-1275; [nodup] of a train is what the set keeps of it. *)
  Definition set_train_schedule (limit : nat) (cars : list nat) (s : option schedule) : result (list schedule) :=
    let* all := touched limit cars [] in
    let locos := filter (fun c => pystr_eqb (kind c) (str "locomotive")) (order (nodup Nat.eq_dec all)) in
    let wiped := map (fun x => mkSchedule (s_stops x) (fold_left wipe locos (s_locos x))) schedules in
    Ok (match s with
        | None => wiped
        | Some s =>
            let '(l, k) :=
              match last_same (s_stops s) wiped with
              | Some k => (wiped, k)
              | None => (wiped ++ [s], List.length wiped)
              end in
            match nth_error l k with
            | Some x => replace_nth l k (mkSchedule (s_stops x) (fold_left enlist locos (s_locos x)))
            | None => l
            end
        end).
End Rake.

(** 1277-1304 [remove_train] on the list of members, [veq] Python's [==] of
    entities.  The collection and the schedules as they are left, with the
    exception raised, if any. *)
Section Remove.
  Variable kind : nat -> pystr.
  Variable veq : nat -> nat -> bool.
  (** [entities.remove(car)]: the first equal member (MutableSequence.remove). *)
  Fixpoint remove_equal (l : list nat) (c : nat) : option (list nat) :=
    match l with
    | [] => None
    | x :: l' => if (Nat.eqb x c || veq x c) then Some l' else option_map (cons x) (remove_equal l' c)
    end.
  Fixpoint remove_cars (ents : list nat) (cars : list nat) (gone : list nat) : list nat * list nat * option exn :=
    match cars with
    | [] => (ents, gone, None)
    | c :: cars' =>
        let gone := if pystr_eqb (kind c) (str "locomotive") then gone ++ [c] else gone in
        match remove_equal ents c with
        | None => (ents, gone, Some ValueError)
        | Some e => remove_cars e cars' gone
        end
    end.
  Definition remove_train (ents : list nat) (schedules : list schedule) (cars : list nat) : list nat * list schedule * option exn :=
    match remove_cars ents cars [] with
    | (e, _, Some x) => (e, schedules, Some x)
    | (e, gone, None) =>
        (e, map (fun s => mkSchedule (s_stops s) (fold_left wipe (nodup Nat.eq_dec gone) (s_locos s))) schedules, None)
    end.
End Remove.
