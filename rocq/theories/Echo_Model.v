(** Warnings that pass through decorated functions:
    /repo/draftsman/utils.py 926-946 [reissue_warnings], 949-974 [get_suggestion].

    A function is the list of what it does: it warns, has an effect, returns, raises,
    calls another function, with or without the decorator, or tries something and catches
    what it raises.  [warnings.catch_warnings(record=True)] keeps the filters, so what
    the filters do with a warning is the same inside and outside.  The actions that
    depend on earlier warnings ("default", "module", "once") are left out: entering the
    context forgets what was shown.  The stack level of a warning, which a filter for a
    module would look at, is left out too. *)
From Coq Require Import ZArith NArith List Bool String.
From Verif Require Import Common.
Import ListNotations.
Local Open Scope list_scope.
Local Open Scope Z_scope.

Inductive action := Always | Ignore | Fail.
Inductive thrown := Own (x : Z) | Warning (w : Z).
Inductive stmt :=
| SWarn (w : Z)
| SEffect (n : Z)
| SReturn (v : Z)
| SRaise (x : Z)
| SCall (decorated : bool) (body : list stmt)
| STry (body : list stmt).
(** What can be seen from outside, in order: warnings shown, effects, the value a call
    gave ([None] without a return), exceptions caught. *)
Inductive event := Shown (w : Z) | Effect (n : Z) | Gave (v : option Z) | Caught (x : thrown).
Inductive outcome := Next | Returned (v : Z) | Raised (x : thrown).

(** What [warning_list] holds, and everything else. *)
Definition recorded (l : list event) : list Z :=
  flat_map (fun e => match e with Shown w => [w] | _ => [] end) l.
Definition others (l : list event) : list event :=
  filter (fun e => match e with Shown _ => false | _ => true end) l.

Section Filters.
  Variable act : Z -> action.
  (** [warnings.warn] *)
  Definition emit (w : Z) : list event * outcome :=
    match act w with
    | Always => ([Shown w], Next)
    | Ignore => ([], Next)
    | Fail => ([], Raised (Warning w))
    end.
  Definition after (r : list event * outcome) (k : list event * outcome) : list event * outcome :=
    match snd r with
    | Next => (fst r ++ fst k, snd k)
    | _ => r
    end.
  (** 941-942 *)
  Fixpoint reissue (ws : list Z) : list event * outcome :=
    match ws with [] => ([], Next) | w :: ws' => after (emit w) (reissue ws') end.
  (** 938-944, with what the function did: the warnings are shown only if it returns. *)
  Definition inner (r : list event * outcome) : list event * outcome :=
    match snd r with
    | Raised x => (others (fst r), Raised x)
    | o => let k := reissue (recorded (fst r)) in
           (others (fst r) ++ fst k, match snd k with Raised x => Raised x | _ => o end)
    end.
  (** The caller of a function. *)
  Definition result_of (r : list event * outcome) : list event * outcome :=
    match snd r with
    | Raised x => (fst r, Raised x)
    | Returned v => (fst r ++ [Gave (Some v)], Next)
    | Next => (fst r ++ [Gave None], Next)
    end.
  Definition caught (r : list event * outcome) : list event * outcome :=
    match snd r with
    | Raised x => (fst r ++ [Caught x], Next)
    | o => (fst r, o)
    end.
  Fixpoint run1 (s : stmt) : list event * outcome :=
    let run := fix run (l : list stmt) : list event * outcome :=
      match l with [] => ([], Next) | s' :: l' => after (run1 s') (run l') end in
    match s with
    | SWarn w => emit w
    | SEffect n => ([Effect n], Next)
    | SReturn v => ([], Returned v)
    | SRaise x => ([], Raised (Own x))
    | SCall decorated body => result_of (if decorated then inner (run body) else run body)
    | STry body => caught (run body)
    end.
  Fixpoint run (l : list stmt) : list event * outcome :=
    match l with [] => ([], Next) | s :: l' => after (run1 s) (run l') end.
End Filters.

(** [get_suggestion] 949-974: [process.extract] gave the choices with their scores; the
    texts for one suggestion and none, [several] being the text of a list. *)
Definition get_suggestion (several : list pystr -> pystr) (extracted : list (pystr * Z)) (cutoff : Z) : pystr :=
  let suggestions := map fst (filter (fun s => cutoff <=? snd s) extracted) in
  match suggestions with
  | [] => []
  | [s] => str "; did you mean '" ++ s ++ str "'?"
  | _ => str "; did you mean one of " ++ several suggestions ++ str "?"
  end.
