(** C92 Warnings through decorated functions *)
From Coq Require Import ZArith List Bool String.
From Verif Require Import Common Echo_Model Echo_Spec Echo_Proofs.
Import ListNotations.
Local Open Scope list_scope.
Local Open Scope Z_scope.

(** A decorated call does everything the function does, shows its warnings afterwards,
    each once and in order, and gives its result; if the function raises, the exception
    goes through and no warning is shown. *)
Theorem C92_call : forall act body,
  run act [SCall true body] =
    match ends act body with
    | Raised x => (seen act body, Raised x)
    | Returned v => (seen act body ++ map Shown (shown act body) ++ [Gave (Some v)], Next)
    | Next => (seen act body ++ map Shown (shown act body) ++ [Gave None], Next)
    end.
Proof. exact decorated_call. Qed.
Print Assumptions C92_call.

(** Decorators, wherever they are, change neither how a program ends nor anything it does
    except for warnings, and of those they show some of the same ones, in the same order. *)
Theorem C92_program : forall act l,
  ends act l = ends act (plain l) /\ seen act l = seen act (plain l) /\
  sub (shown act l) (shown act (plain l)).
Proof. exact same_program. Qed.
Print Assumptions C92_program.

(** Without exceptions the warnings are the same. *)
Theorem C92_nothing_lost : forall act l, quiet act l ->
  shown act l = shown act (plain l) /\ ~ raises (ends act l).
Proof. exact nothing_lost. Qed.
Print Assumptions C92_nothing_lost.

(** A warning that is not shown by the filters is not shown by a decorator. *)
Theorem C92_none_shown : forall act l, (forall w, act w <> Always) -> shown act l = [].
Proof. exact all_fail. Qed.
Print Assumptions C92_none_shown.

(** Warnings issued before an exception are lost. *)
Theorem C92_lost_refuted : ~ (forall act l, shown act l = shown act (plain l)).
Proof. intro H. discriminate (H (fun _ => Always) [SCall true [SWarn 1; SRaise 2]]). Qed.
Print Assumptions C92_lost_refuted.

(** Warnings are not shown at the point where they are issued. *)
Theorem C92_order_refuted : ~ (forall act l, quiet act l -> fst (run act l) = fst (run act (plain l))).
Proof.
  intro H. specialize (H (fun _ => Always) [SCall true [SWarn 1; SEffect 2]]).
  assert (Q : quiet (fun _ => Always) [SCall true [SWarn 1; SEffect 2]]) by (cbn; repeat split; discriminate).
  discriminate (H Q).
Qed.
Print Assumptions C92_order_refuted.

(** Suggestions: there is a text exactly if a choice reaches the cutoff, and it names all
    those that do, in order. *)
Theorem C92_suggestion : forall several ex cutoff,
  exists names, reaching cutoff ex names /\
    get_suggestion several ex cutoff =
      match names with
      | [] => []
      | [s] => str "; did you mean '" ++ s ++ str "'?"
      | _ => str "; did you mean one of " ++ several names ++ str "?"
      end.
Proof. exact suggests. Qed.
Print Assumptions C92_suggestion.

Theorem C92_no_suggestion : forall several ex cutoff,
  get_suggestion several ex cutoff = [] <-> forall s n, In (s, n) ex -> n < cutoff.
Proof. exact no_suggestion. Qed.
Print Assumptions C92_no_suggestion.

(** Three decorated functions, the innermost raising what the middle one catches. *)
Definition odd_only (w : Z) : action := if Z.odd w then Always else Ignore.
Definition program : list stmt :=
  [SEffect 10;
   SCall true [SWarn 1; SCall true [SWarn 3; SWarn 4; SReturn 30]; SEffect 11;
               STry [SWarn 5; SCall true [SWarn 7; SEffect 12; SRaise 8]]; SWarn 9]].
Example C92_example :
  run odd_only program =
    ([Effect 10; Gave (Some 30); Effect 11; Effect 12; Caught (Own 8); Shown 1; Shown 3; Shown 5; Shown 9; Gave None], Next) /\
  shown odd_only (plain program) = [1; 3; 5; 7; 9].
Proof. split; reflexivity. Qed.
Example C92_example_fail :
  run (fun w => if w =? 4 then Fail else Always) program = ([Effect 10], Raised (Warning 4)).
Proof. reflexivity. Qed.
Example C92_example_suggestion :
  get_suggestion (fun _ => []) [(str "inserter", 90); (str "lab", 45)] 60 = str "; did you mean 'inserter'?".
Proof. reflexivity. Qed.
