(** C46: reversing belts. *)
From Coq Require Import ZArith List Bool Lia.
From Verif Require Import Common Belts_Model Belts_Spec Belts_Proofs.
Import ListNotations.

(** On entities that do not overlap, reversing works unless an underground exit
    faces something without a direction; then it raises AttributeError. *)
Theorem C46_works : forall l, solid l ->
  ((exists l', reverse_belts l = Ok l') <-> ~ dead_exit l) /\ (dead_exit l -> reverse_belts l = Err AttributeError).
Proof. exact reverse_iff. Qed.
Print Assumptions C46_works.

(** What happens to each entity: a belt with exactly one feeder turns against
    that feeder's direction, every other belt turns round; undergrounds turn
    round and swap ends, splitters turn round; all else is untouched. *)
Theorem C46_result : forall l l', solid l -> reverse_belts l = Ok l' -> length l' = length l /\
  forall i a, nth_error l i = Some a -> exists b, nth_error l' i = Some b /\ turned l i a b /\ kept a b.
Proof. exact reverse_result. Qed.
Print Assumptions C46_result.
Example C46_result_ex :
  reverse_belts [belt East 0 0; belt South 1 0; mkE (Under false) South (1, 1)%Z [(1, 1)%Z]; mkE (Thing false) North (5, 5)%Z [(5, 5)%Z]] =
  Ok [belt West 0 0; belt West 1 0; mkE (Under true) North (1, 1)%Z [(1, 1)%Z]; mkE (Thing false) North (5, 5)%Z [(5, 5)%Z]].
Proof. reflexivity. Qed.

(** A belt fed by exactly one other belt, underground exit or splitter now feeds
    it. *)
Theorem C46_points_back : forall l l' i j a, solid l -> reverse_belts l = Ok l' -> nth_error l i = Some a -> e_kind a = Belt ->
  only_feeder l j i -> feeds l' i j.
Proof. exact points_back. Qed.
Print Assumptions C46_points_back.

(** Straight lines of any length run the other way. *)
Theorem C46_line : forall d p n, reverse_belts (line d p n) = Ok (map (fun e => set_dir (opposite d) e) (line d p n)).
Proof. exact line_reversed. Qed.
Print Assumptions C46_line.
(** So does every belt all of whose feeders run its way, whatever surrounds it. *)
Theorem C46_straight : forall l l' i a, solid l -> reverse_belts l = Ok l' -> nth_error l i = Some a -> e_kind a = Belt ->
  (forall j b, feeds l j i -> nth_error l j = Some b -> e_dir b = e_dir a) -> nth_error l' i = Some (set_dir (opposite (e_dir a)) a).
Proof. exact straight. Qed.
Print Assumptions C46_straight.

(** Twice: in layouts of belts in which no belt is fed twice and no belt lies
    behind the start of a chain, every belt that feeds a belt is restored; the
    last belt of a chain takes the direction of the one before it. *)
Theorem C46_twice : forall l, solid l -> threads l -> exists l1 l2, reverse_belts l = Ok l1 /\ reverse_belts l1 = Ok l2 /\
  length l2 = length l /\ forall i a, nth_error l i = Some a ->
    (e_kind a <> Belt -> nth_error l2 i = Some a) /\
    (forall k, belt_at l k -> feeds l i k -> nth_error l2 i = Some a) /\
    (e_kind a = Belt -> (forall k, belt_at l k -> ~ feeds l i k) ->
       (forall j f, feeds l j i -> nth_error l j = Some f -> nth_error l2 i = Some (set_dir (e_dir f) a)) /\
       ((forall j, ~ feeds l j i) -> nth_error l2 i = Some a)).
Proof. exact threads_twice. Qed.
Print Assumptions C46_twice.
(** Layouts of closed loops are restored completely. *)
Theorem C46_loops_twice : forall l, solid l -> threads l -> (forall i, belt_at l i -> exists k, belt_at l k /\ feeds l i k) ->
  exists l1, reverse_belts l = Ok l1 /\ reverse_belts l1 = Ok l.
Proof. exact loops_twice. Qed.
Print Assumptions C46_loops_twice.
Definition corner := [belt East 0 0; belt North 1 0; belt North 1 (-1); belt West 1 (-2)].
Example C46_twice_ex : solid corner /\ threads corner /\
  exists l1, reverse_belts corner = Ok l1 /\ reverse_belts l1 = Ok [belt East 0 0; belt North 1 0; belt North 1 (-1); belt North 1 (-2)].
Proof.
  assert (S : solid corner). { apply belts_solid; [repeat constructor|]. cbn. repeat constructor; cbn; intuition congruence. }
  split; [exact S|]. split; [|eexists; split; reflexivity]. apply belts_threads.
  - apply belts_no_double; [exact S|repeat constructor|]. cbn. repeat constructor; cbn; intuition congruence.
  - intros e I. repeat (destruct I as [<-|I]; [reflexivity|]). destruct I.
  - intros e b I J E. exists (if dir_eqb (e_dir e) West then belt North 1 (-1) else if tile_eqb (e_pos e) (1, 0)%Z then belt East 0 0 else belt North 1 0).
    repeat (destruct I as [<-|I]; [repeat (destruct J as [<-|J]; [cbn in E; first [discriminate E|cbn; auto 10]|]); destruct J|]). destruct I.
Qed.
(** The condition on the tile behind the start is needed: a chain that passes
    behind its own start is not restored in the middle. *)
Theorem C46_hook_refuted : exists l l1 l2 a b, solid l /\ no_double l /\ reverse_belts l = Ok l1 /\ reverse_belts l1 = Ok l2 /\
  nth_error l 5 = Some a /\ nth_error l2 5 = Some b /\ feeds l 4 5 /\ feeds l 5 6 /\ e_dir a <> e_dir b.
Proof. exact hook_refuted. Qed.
Print Assumptions C46_hook_refuted.
