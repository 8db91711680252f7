(** What a search for trains is supposed to give. *)
From Coq Require Import String ZArith List Bool Reals.
From Verif Require Import Common Dict Compass_Model Compass_Spec Schedule_Model Schedule_Spec Train_Model Train_Spec Rake_Model Rake_Spec.
Import ListNotations.
Local Open Scope string_scope.
Local Open Scope list_scope.
Local Open Scope Z_scope.

(** [l'] consists of the elements of [l] with [P], in order. *)
Inductive selects {A} (P : A -> Prop) : list A -> list A -> Prop :=
| sel_nil : selects P [] []
| sel_keep x l l' : P x -> selects P l l' -> selects P (x :: l) (x :: l')
| sel_drop x l l' : ~ P x -> selects P l l' -> selects P (x :: l) l'.

(** The first [m] elements; for a negative [m] all but the last [- m]. *)
Definition truncated {A} (max : option Z) (l l' : list A) : Prop :=
  match max with
  | None => l' = l
  | Some m => exists rest, l = l' ++ rest /\
      (0 <= m -> Z.of_nat (List.length l') = Z.min m (Z.of_nat (List.length l))) /\
      (m < 0 -> Z.of_nat (List.length rest) = Z.min (- m) (Z.of_nat (List.length l)))
  end.

(** How often [x] is among the values of [f]. *)
Fixpoint times_in (f : nat -> pystr) (x : pystr) (t : list nat) (n : Z) : Prop :=
  match t with
  | [] => n = 0
  | c :: t' => (f c = x /\ times_in f x t' (n - 1)) \/ (f c <> x /\ times_in f x t' n)
  end.
Definition within (r : range) (n : Z) : Prop :=
  match r with
  | Exactly k => n = k
  | Between lo hi => (forall l, lo = Some l -> l <= n) /\ (forall h, hi = Some h -> n <= h)
  end.

Section Filter.
  Variable K : Z.
  Variable at_ : nat -> entity.
  Variables kind name : nat -> pystr.
  Variable stops : list stop_ent.
  Variable schedules : list schedule.

  (** The direction a car faces, of four; none in the last eighth of a turn. *)
  Definition faces_side (c : nat) (d : Z) : Prop :=
    is_direction d /\ exists q, d = 4 * q /\ nearest (angle K at_ c) (4 * K) q.
  (** [st] is where the stop of a train headed by [c] is: three tiles ahead of its
      middle and two to the right. *)
  Definition stands_at (c : nat) (st : stop_ent) : Prop :=
    exists d, faces_side c d /\ t_dir st = d /\
      t_pos st = (fst (place at_ c) + 3 * fst (heading K (d * K)) + 2 * fst (heading K ((d + 4) * K)),
                  snd (place at_ c) + 3 * snd (heading K (d * K)) + 2 * snd (heading K ((d + 4) * K)))%R.

  Definition long_enough (q : query) (t : list nat) : Prop :=
    forall r, q_length q = Some r -> within r (Z.of_nat (List.length t)).
  Definition asks_station (q : query) : Prop :=
    match q_station q with NoStation => False | AnyStation => True | Stations l => l <> [] end.
  Definition stationed (q : query) (t : list nat) : Prop :=
    asks_station q -> exists head rest k st, t = head :: rest /\
      first_pos (stands_at head) stops k /\ nth_error stops k = Some st /\
      forall names, q_station q = Stations names -> exists x, t_station st = Some x /\ In x names.
  Definition composed (q : query) (t : list nat) : Prop :=
    (forall x r, In (x, r) (q_types q) -> exists n, times_in kind x t n /\ within r n) /\
    (forall x r, In (x, r) (q_names q) -> exists n, times_in name x t n /\ within r n).
  Definition oriented (q : query) (t : list nat) : Prop :=
    forall o c, q_orientation q = Some o -> In c t -> number at_ c = raw o.
  Definition configured (q : query) (t : list nat) : Prop :=
    forall cfg, q_config q = Some cfg -> map name t = cfg.
  (** [l] is the last locomotive of the train. *)
  Definition last_engine (t : list nat) (l : nat) : Prop :=
    exists pre post, t = pre ++ l :: post /\ kind l = str "locomotive" /\ forall c, In c post -> kind c <> str "locomotive".
  Definition scheduled (q : query) (t : list nat) : Prop :=
    forall ss, q_schedule q = Some ss -> exists l s, last_engine t l /\
      In s schedules /\ In l (targets (s_locos s)) /\ s_stops s = ss.
  Definition matching (q : query) (t : list nat) : Prop :=
    long_enough q t /\ stationed q t /\ composed q t /\ oriented q t /\ configured q t /\ scheduled q t.
  (** When a train makes the search fail. *)
  Definition faceless (q : query) (t : list nat) : Prop :=
    long_enough q t /\ asks_station q /\ forall head rest, t = head :: rest -> 14 * K <= angle K at_ head.
  Definition driverless (q : query) (t : list nat) : Prop :=
    long_enough q t /\ stationed q t /\ composed q t /\ oriented q t /\ configured q t /\
    q_schedule q <> None /\ schedules <> [] /\ forall c, In c t -> kind c <> str "locomotive".
End Filter.
