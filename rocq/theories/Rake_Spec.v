(** What trains are supposed to be. *)
From Coq Require Import ZArith List Bool Reals Relations.
From Verif Require Import Common Compass_Model Schedule_Model Schedule_Spec Train_Model Train_Spec.
Import ListNotations.
Local Open Scope Z_scope.

Section Coupling.
  Variable K : Z.
  Variable at_ : nat -> entity.
  (** The rolling stock within reach of each piece. *)
  Variable near : nat -> list nat.

  (** The unit vector an angle of [z] sixteen-[K]ths of a turn points to,
      clockwise from north, y downwards. *)
  Definition heading (z : Z) : R * R :=
    let a := (2 * PI * (IZR z / IZR (16 * K)))%R in (sin a, - cos a)%R.
  Definition number (w : nat) : Z := raw (car_orient (e_car (at_ w))).
  Definition angle (w : nat) : Z := number w mod (16 * K).
  Definition place (w : nat) : R * R := e_pos (at_ w).
  (** The bogies of a piece of rolling stock: two tiles ahead ([true]) and two
      behind. *)
  Definition bogie (w : nat) (front : bool) : R * R :=
    let v := heading (angle w) in
    if front then (fst (place w) + 2 * fst v, snd (place w) + 2 * snd v)%R
    else (fst (place w) - 2 * fst v, snd (place w) - 2 * snd v)%R.
  Definition far (p q : R * R) : R := sqrt ((fst p - fst q) ^ 2 + (snd p - snd q) ^ 2)%R.

  (** Less than an eighth of a turn from the number [a], without wrapping
      around. *)
  Definition close_to (a : Z) (n : nat) : Prop := a - 2 * K < number n /\ angle n < a + 2 * K.
  Definition aligned (w n : nat) : Prop :=
    close_to (number w) n \/ close_to ((angle w + 8 * K) mod (16 * K)) n.
  (** The bogie of [n] nearer to the middle of [w]; of two equally near ones the
      rear one. *)
  Definition nearer_bogie (w n : nat) (side : bool) : Prop :=
    if side then (far (place w) (bogie n true) < far (place w) (bogie n false))%R
    else (far (place w) (bogie n false) <= far (place w) (bogie n true))%R.
  (** Bogie [mine] of [w] is three tiles from the nearer bogie of [n]. *)
  Definition touches (w : nat) (mine : bool) (n : nat) : Prop :=
    exists his, nearer_bogie w n his /\
      (29 / 10 < far (bogie w mine) (bogie n his) <= 31 / 10)%R.
  Definition coupled (w n : nat) : Prop :=
    In n (near w) /\ aligned w n /\ (touches w true n \/ touches w false n).
  Definition connected : nat -> nat -> Prop := clos_refl_trans nat coupled.
  (** Both bogies of [w] touch the same bogie of [n]. *)
  Definition straddles (w n : nat) : Prop := touches w true n /\ touches w false n.
  (** [a] immediately before [b]. *)
  Definition next_to (cs : list nat) (a b : nat) : Prop := exists pre post, cs = pre ++ a :: b :: post.
  (** How far two pieces point the same way: the cosine of the angle between them. *)
  Definition agreement (w n : nat) : R :=
    (fst (heading (angle w)) * fst (heading (angle n)) + snd (heading (angle w)) * snd (heading (angle n)))%R.
  (** [cs] is a train from head to tail, [fwd] tells which pieces point towards
      its head: each piece is coupled to the one before and the one behind it
      and to nothing else, with the bogie on the proper side. *)
  Definition lined_up (fwd : nat -> bool) (cs : list nat) : Prop :=
    NoDup cs /\
    (forall a b, next_to cs a b ->
       coupled a b /\ coupled b a /\
       touches a (negb (fwd a)) b /\ ~ touches a (fwd a) b /\
       touches b (fwd b) a /\ ~ touches b (negb (fwd b)) a /\
       (if Bool.eqb (fwd a) (fwd b) then 0 < agreement a b else agreement a b < 0)%R) /\
    (forall a n, In a cs -> coupled a n -> n = a \/ next_to cs a n \/ next_to cs n a).
End Coupling.

(** A car of a configuration faces forwards ([true]) or backwards. *)
Definition faces (K : Z) (x : car) : bool := value K (car_orient x) =? 0.
Definition straight (K : Z) (x : car) : Prop := value K (car_orient x) = 0 \/ value K (car_orient x) = 8 * K.
(** What is known about the collection a train was placed in: its entities are
    where they are; rolling stock of the new train [ids] within 7.5 tiles is
    found; nothing else is coupled to it. *)
Definition surroundings (K : Z) (at_ : nat -> entity) (near : nat -> list nat) (c : coll) (ids : list nat) : Prop :=
  (forall i e, In (i, e) (ents c) -> at_ i = e) /\
  (forall a b, In a ids -> In b ids -> (far (e_pos (at_ a)) (e_pos (at_ b)) <= 15 / 2)%R -> In b (near a)) /\
  (forall a n, In a ids -> ~ In n ids -> ~ coupled K at_ near a n).
