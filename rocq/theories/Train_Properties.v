(** Property theorems C30, C50 and C51: trains. *)
From Coq Require Import ZArith NArith String List Bool Lia Reals Lra.
From Verif Require Import Common Dict Compass_Model Compass_Spec Schedule_Model Schedule_Spec Train_Model Train_Spec Train_Proofs Train_Place_Proofs.
Import ListNotations.
Local Open Scope Z_scope.

(** ** C30 *)
(** Every string is the text of exactly one sequence of blocks of items. *)
Theorem C30_language : forall digit s, digit 45%N = None ->
  exists bs, bs <> [] /\ Forall (block_ok digit) bs /\ text bs = s /\
    forall bs', bs' <> [] -> Forall (block_ok digit) bs' -> text bs' = s -> bs' = bs.
Proof.
  intros digit s H. destruct (parse_ok digit s) as [T [N F]]. exists (parse digit s). repeat split; auto.
  intros bs' N' F' T'. rewrite <- T'. symmetry. apply parse_unique; assumption.
Qed.
Print Assumptions C30_language.
(** The words for wagons. *)
Theorem C30_words : forall w c, wagon_letter w c <->
  (w = str "cargo"%string /\ c = 67%N) \/ (w = str "fluid"%string /\ c = 70%N) \/ (w = str "artillery"%string /\ c = 65%N).
Proof. intros w c. apply iff_refl. Qed.
Print Assumptions C30_words.
(** It parses to the cars spelled, or is rejected if a letter is unknown. *)
Theorem C30_cars : forall upper lower digit kwargs (mapping : N -> option kwargs) format direction wagons dual wagon bs,
  (lower direction = str "dual"%string /\ dual = true) \/ (lower direction = str "forward"%string /\ dual = false) ->
  wagon_letter (lower wagons) wagon -> digit 45%N = None ->
  bs <> [] -> Forall (block_ok digit) bs -> text bs = upper format ->
  let dbs := with_defaults dual wagon bs in
  (all_known mapping dbs -> exists cars, from_string upper lower digit kwargs format direction wagons mapping = Ok cars /\
     Forall2 (fun c k => mapping c = Some k) (all_spelled digit dbs) cars) /\
  (~ all_known mapping dbs -> from_string upper lower digit kwargs format direction wagons mapping = Err ValueError).
Proof. exact from_string_spec. Qed.
Print Assumptions C30_cars.
Theorem C30_bad_words : forall upper lower digit kwargs (mapping : N -> option kwargs) format direction wagons,
  (lower direction <> str "dual"%string /\ lower direction <> str "forward"%string) \/ (forall c, ~ wagon_letter (lower wagons) c) ->
  from_string upper lower digit kwargs format direction wagons mapping = Err ValueError.
Proof. exact from_string_words. Qed.
Print Assumptions C30_bad_words.
(** The least whole number of rails, two tiles each, for seven tiles per car. *)
Theorem C30_rail_length : forall n, 7 * Z.of_nat n <= 2 * rail_length n < 7 * Z.of_nat n + 2.
Proof. exact rail_length_spec. Qed.
Print Assumptions C30_rail_length.

Definition ascii_digit (c : N) : option Z := if (48 <=? c)%N && (c <=? 57)%N then Some (Z.of_N c - 48) else None.
Definition ascii_map (c : N) : option N :=
  if existsb (N.eqb c) [60; 62; 67; 70; 65]%N then Some c else None.
Notation from s d := (from_string (fun x => x) (fun x => x) ascii_digit N s d s_cargo ascii_map).
(** "2-1C2F-1" dual-headed and forward; "1-2X"; "11-0F" *)
Example C30_ex1 : from [50; 45; 49; 67; 50; 70; 45; 49]%N s_dual = Ok [60; 60; 67; 70; 70; 62]%N /\
  from [50; 45; 49; 67; 50; 70; 45; 49]%N s_forward = Ok [60; 60; 67; 70; 70; 60]%N /\
  from [49; 45; 50; 88]%N s_dual = Err ValueError /\
  from [49; 49; 45; 48; 70]%N s_dual = Ok (repeat 60%N 11) /\ rail_length 3 = 11.
Proof. repeat split; reflexivity. Qed.
Example C30_ex2 : text [[([50]%N, None)]; [([49]%N, Some 67%N); ([50]%N, Some 70%N)]; [([49]%N, None)]] = [50; 45; 49; 67; 50; 70; 45; 49]%N /\
  Forall (block_ok ascii_digit) [[([50]%N, None)]; [([49]%N, Some 67%N); ([50]%N, Some 70%N)]; [([49]%N, None)]].
Proof.
  split; [reflexivity|].
  repeat constructor; discriminate.
Qed.

(** ** C50.  A full turn is [16 * K] units. *)
(** The eight compass points: nothing is lost or changed, the cars follow in
    order with new identities, the schedule chosen (the first with the same
    stops, or the given one, appended) gets exactly the new locomotives. *)
Theorem C50_at_position : forall K c cars pos d s, compass_point d -> sound c ->
  (forall s', s = Some s' -> forall i, In i (targets (s_locos s')) -> (i < fresh c)%nat) ->
  exists v c' es, unit_vector d = Ok v /\ length_is v 1 /\ add_train_at_position K c cars pos d s = (c', None) /\
    placement K true (fun x => forall s', s = Some s' -> s_stops x = s_stops s') c cars pos d v s c' es.
Proof. exact at_position_spec. Qed.
Print Assumptions C50_at_position.
Theorem C50_spacing : forall p v n, length_is v 1 ->
  length_is (difference (behind p v n) (behind p v (S n))) 7 /\
  difference (behind p v n) (behind p v (S n)) = (7 * fst v, 7 * snd v)%R.
Proof. exact spacing. Qed.
Print Assumptions C50_spacing.
(** A car facing forwards in the configuration gets the heading, one facing
    backwards the opposite heading. *)
Theorem C50_facing : forall K d x, 0 < K -> compass_point d ->
  (value K (car_orient x) = 0 -> (value K (mkO (d * K)) + value K (car_orient x)) mod turn K = d * K) /\
  (value K (car_orient x) = 8 * K -> forall p, opposite d = Ok p ->
     (value K (mkO (d * K)) + value K (car_orient x)) mod turn K = p * K).
Proof. exact facing. Qed.
Print Assumptions C50_facing.
(** Behind a station: the same with another start, raw orientations not reduced,
    and only a completely equal schedule is reused. *)
Theorem C50_at_station : forall K c cars spos d s, compass_point d -> sound c ->
  (forall s', s = Some s' -> forall i, In i (targets (s_locos s')) -> (i < fresh c)%nat) ->
  exists v u p c' es, unit_vector d = Ok v /\ length_is v 1 /\ previous true d = Ok p /\ unit_vector p = Ok u /\
    add_train_at_station K c cars true spos d s = (c', None) /\
    placement K false (fun x => Some x = s) c cars
      (fst spos - 4 * fst v + 2 * fst u, snd spos - 4 * snd v + 2 * snd u)%R d v s c' es.
Proof. exact at_station_spec. Qed.
Print Assumptions C50_at_station.

(** Anything that is no train stop is refused, exactly, and before anything is
    changed. *)
Theorem C50_not_a_station : forall K c cars stop spos d s, compass_point d -> sound c ->
  (forall s', s = Some s' -> forall i, In i (targets (s_locos s')) -> (i < fresh c)%nat) ->
  (snd (add_train_at_station K c cars stop spos d s) <> None <-> stop = false) /\
  (stop = false -> add_train_at_station K c cars stop spos d s = (c, Some ValueError)).
Proof.
  intros K c cars stop spos d s D S L. destruct stop.
  - destruct (at_station_spec K c cars spos d s D S L) as [v [u [p [c' [es [_ [_ [_ [_ [A _]]]]]]]]]]. rewrite A. cbn [snd].
    split; [split; [intros H; contradiction H; reflexivity|discriminate]|discriminate].
  - split; [split; [reflexivity|discriminate]|reflexivity].
Qed.
Print Assumptions C50_not_a_station.

Definition cl := mkCar 0 true (mkO 0). Definition cb := mkCar 1 true (mkO 8). Definition cw := mkCar 2 false (mkO 0).
Definition st1 := mkSchedule [mkStop [65]%N []] [LRef (Some 0%nat)].
Definition c0 := mkColl [(0%nat, mkEntity cl (0, 0)%R)] 1 [st1].
Example C50_ex : exists c' e1 e2 e3, add_train_at_position 1 c0 [cl; cw; cb] (10, 0)%R 12 (Some (mkSchedule [mkStop [65]%N []] [])) = (c', None) /\
  ents c' = ents c0 ++ [(1%nat, e1); (2%nat, e2); (3%nat, e3)] /\ raw (car_orient (e_car e1)) = 12 /\ raw (car_orient (e_car e3)) = 4 /\
  e_pos e1 = (10, 0)%R /\ scheds c' = [mkSchedule [mkStop [65]%N []] [LRef (Some 0%nat); LRef (Some 1%nat); LRef (Some 3%nat)]] /\ sound c0.
Proof.
  do 4 eexists. split; [reflexivity|]. split; [reflexivity|]. repeat split; try reflexivity.
  constructor; [|constructor]. intros i [<-|[]]. cbn. lia.
Qed.
Theorem C50_in_between : forall K c cars pos d s, is_direction d -> ~ Z.Even d -> cars <> [] ->
  exists c', add_train_at_position K c cars pos d s = (c', Some KeyError) /\ ents c' = ents c /\ fresh c' = fresh c.
Proof.
  intros K c cars pos d s D E N. unfold add_train_at_position, choose. destruct s as [s|].
  - destruct (find_pos _ (scheds c)); rewrite place_cars_odd by assumption; eexists; (split; [reflexivity|]); split; reflexivity.
  - rewrite place_cars_odd by assumption. eexists. split; [reflexivity|]. split; reflexivity.
Qed.
Print Assumptions C50_in_between.
(** In between the compass points nothing is placed, but the schedule has been
    added already. *)
Theorem C50_odd_refuted : exists K c cars pos d s c', is_direction d /\
  add_train_at_position K c cars pos d (Some s) = (c', Some KeyError) /\ ents c' = ents c /\ scheds c' <> scheds c.
Proof.
  exists 1, (mkColl [] 0 []), [cl], (0, 0)%R, 1, st1. eexists. split; [unfold is_direction; lia|]. split; [reflexivity|]. split; [reflexivity|discriminate].
Qed.
Print Assumptions C50_odd_refuted.
(** Two trains with the same stops at a station give two schedules. *)
Theorem C50_reuse_refuted : exists K c cars spos d s c', add_train_at_station K c cars true spos d (Some s) = (c', None) /\
  (exists x, In x (scheds c) /\ s_stops x = s_stops s) /\ length (scheds c') <> length (scheds c).
Proof.
  exists 1, c0, [cl], (0, 0)%R, 0, (mkSchedule [mkStop [65]%N []] []). eexists. split; [reflexivity|]. split.
  - exists st1. split; [left; reflexivity|reflexivity].
  - cbn. lia.
Qed.
Print Assumptions C50_reuse_refuted.
(** The stored orientation may be a whole turn or more. *)
Theorem C50_range_refuted : exists K c cars spos d c' i e, 0 < K /\ add_train_at_station K c cars true spos d None = (c', None) /\
  In (i, e) (ents c') /\ turn K <= raw (car_orient (e_car e)).
Proof.
  exists 1, (mkColl [] 0 []), [cb], (0, 0)%R, 12. do 3 eexists. split; [lia|]. split; [reflexivity|]. split; [left; reflexivity|].
  cbn. unfold turn. lia.
Qed.
Print Assumptions C50_range_refuted.

(** ** C51 *)
(** The search for trains at a station looks for the stop one tile before the
    place [add_train_at_station] assumes, whatever the station, configuration
    and schedule. *)
Theorem C51_where : forall K c cars spos d s x rest, 0 < K -> (d = 0 \/ d = 4 \/ d = 8 \/ d = 12) -> sound c ->
  (forall s', s = Some s' -> forall i, In i (targets (s_locos s')) -> (i < fresh c)%nat) ->
  cars = x :: rest -> value K (car_orient x) = 0 ->
  exists v c' i head, unit_vector d = Ok v /\ add_train_at_station K c cars true spos d s = (c', None) /\
    nth_error (ents c') (length (ents c)) = Some (i, head) /\
    looks_for_stop K head = Ok ((fst spos - fst v, snd spos - snd v)%R, d).
Proof. exact looks_for. Qed.
Print Assumptions C51_where.
Theorem C51_found_refuted : exists K c cars spos d c' i head, 0 < K /\ add_train_at_station K c cars true spos d None = (c', None) /\
  nth_error (ents c') (length (ents c)) = Some (i, head) /\ looks_for_stop K head <> Ok (spos, d).
Proof.
  destruct (looks_for 1 (mkColl [] 0 []) [cl] (0, 0)%R 4 None cl []) as [v [c' [i [h [V [A [N L]]]]]]]; try reflexivity; [lia|constructor|discriminate|].
  exists 1, (mkColl [] 0 []), [cl], (0, 0)%R, 4, c', i, h. split; [lia|]. split; [exact A|]. split; [exact N|]. rewrite L.
  cbn in V. inversion V; subst v. cbn [fst snd]. intros C. injection C as C1 C2. lra.
Qed.
Print Assumptions C51_found_refuted.
