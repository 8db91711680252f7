(** What the tables of instruments are supposed to say. *)
From Coq Require Import ZArith List Bool String.
From Verif Require Import Common Dict Tune_Model.
Import ListNotations.
Local Open Scope string_scope.
Local Open Scope list_scope.
Local Open Scope Z_scope.

(** [x] is at place [k] of [l]. *)
Definition at_place {A} (l : list A) (k : Z) (x : A) : Prop := 0 <= k /\ nth_error l (Z.to_nat k) = Some x.
(** The dictionary [d] says: instrument [k] with the notes [ns], each at its place. *)
Definition says (d : sdict Z) (k : Z) (ns : list pystr) : Prop :=
  ~ In (str "self") ns /\
  forall n j, dget pystr_eqb d n = Some j <-> (n = str "self" /\ j = k) \/ at_place ns j n.
(** The tables agree: both say what the list of instruments says. *)
Definition agree (t : tables) : Prop :=
  (forall k x, dget Z.eqb (t_names t) k = Some x <-> at_place (t_raw t) k x) /\
  (forall n ns k, at_place (t_raw t) k (n, ns) <-> exists d, dget pystr_eqb (t_index t) n = Some d /\ says d k ns).
Definition sound_notes (ns : list pystr) : Prop := NoDup ns /\ ~ In (str "self") ns.
Definition sound_instruments (l : list (pystr * list pystr)) : Prop :=
  NoDup (map fst l) /\ Forall (fun x => sound_notes (snd x)) l.

(** "At the end": no index, or the number of instruments. *)
Definition the_end (t : tables) (index : option Z) : Prop :=
  index = None \/ index = Some (Z.of_nat (List.length (t_raw t))).
(** The list of instruments of [t'] is that of [t] with [x] put at [index], counted from the end if negative. *)
Definition put_in (t : tables) (index : option Z) (x : pystr * list pystr) (t' : tables) : Prop :=
  exists a b, t_raw t = a ++ b /\ t_raw t' = a ++ x :: b /\
    match index with
    | None => List.length a = List.length (t_raw t)
    | Some i => Z.of_nat (List.length a) =
        (if i <? 0 then Z.max 0 (Z.of_nat (List.length (t_raw t)) + i) else Z.min i (Z.of_nat (List.length (t_raw t))))
    end.
(** A whole sequence. *)
Fixpoint add_all (speakers : list pystr) (r : registry) (e : pystr) (l : list (pystr * list pystr)) : result registry :=
  match l with
  | [] => Ok r
  | (n, ns) :: l' => let* r' := add_instrument speakers r n ns None e in add_all speakers r' e l'
  end.
