(** Programs without decorators, and what is said about them. *)
From Coq Require Import ZArith List Bool.
From Verif Require Import Echo_Model.
Import ListNotations.

(** The program without decorators. *)
Fixpoint plain1 (s : stmt) : stmt :=
  match s with
  | SCall _ body => SCall false (map plain1 body)
  | STry body => STry (map plain1 body)
  | _ => s
  end.
Definition plain (l : list stmt) : list stmt := map plain1 l.
(** The warnings shown and everything else, as a program is run. *)
Definition shown (act : Z -> action) (l : list stmt) : list Z := recorded (fst (run act l)).
Definition seen (act : Z -> action) (l : list stmt) : list event := others (fst (run act l)).
Definition ends (act : Z -> action) (l : list stmt) : outcome := snd (run act l).
(** [a] comes from [b] by leaving out some. *)
Inductive sub {A} : list A -> list A -> Prop :=
| sub_nil : sub [] []
| sub_keep : forall x a b, sub a b -> sub (x :: a) (x :: b)
| sub_drop : forall x a b, sub a b -> sub a (x :: b).
(** No statement of the program raises, and no warning is turned into an exception. *)
Section Quiet.
Variable act : Z -> action.
Fixpoint quiet1 (s : stmt) : Prop :=
  let all := fix all (l : list stmt) : Prop := match l with [] => True | s' :: l' => quiet1 s' /\ all l' end in
  match s with
  | SWarn w => act w <> Fail
  | SRaise _ => False
  | SCall _ body => all body
  | STry body => all body
  | _ => True
  end.
Fixpoint quiet (l : list stmt) : Prop :=
  match l with [] => True | s :: l' => quiet1 s /\ quiet l' end.
End Quiet.
(** The program ends with an exception. *)
Definition raises (o : outcome) : Prop := exists x, o = Raised x.
(** [names] are those of the choices that reach the cutoff, in order. *)
Inductive reaching {A} (cutoff : Z) : list (A * Z) -> list A -> Prop :=
| reach_nil : reaching cutoff [] []
| reach_in : forall s n ex names, (cutoff <= n)%Z -> reaching cutoff ex names -> reaching cutoff ((s, n) :: ex) (s :: names)
| reach_out : forall s n ex names, (n < cutoff)%Z -> reaching cutoff ex names -> reaching cutoff ((s, n) :: ex) names.
