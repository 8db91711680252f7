(** C82: sections. *)
From Coq Require Import ZArith NArith String List Bool Lia.
From Verif Require Import Common Assign_Model Slots_Model Sections_Model Sections_Spec Sections_Proofs Sections_Call_Proofs.
Import ListNotations.
Local Open Scope Z_scope.

(** After any calls an entity shows what the list of contents says, and every
    section that was given has the place it is said to have. *)
Theorem C82_history : forall c os, exists v live, steps c (first_shown c, []) os (v, live) /\
  looks (fst (execs c os (mkState [] (start c), []))) v /\
  Forall2 (known_place (fst (execs c os (mkState [] (start c), [])))) (snd (execs c os (mkState [] (start c), []))) live.
Proof. exact history. Qed.
Print Assumptions C82_history.

(** An added section is the last one, with nothing in it; the others stay. *)
Theorem C82_added : forall st l g idx a st' r, looks st (Shown (Some l)) -> add_section st g idx a = (st', Ok r) ->
  uint32_range (number l idx) /\ looks st' (Shown (Some (l ++ [fresh l g idx a]))) /\ stands st' r (length l) /\
  ~ (r < length (objects st))%nat /\
  (forall q p, (q < length (objects st))%nat -> known_place st q p -> known_place st' q p) /\
  (forall q s, nth_error (objects st) q = Some s -> nth_error (objects st') q = Some s).
Proof. exact added. Qed.
Print Assumptions C82_added.

(** When it can be added, and what is raised otherwise, with no effect. *)
Theorem C82_add_result : forall st v g idx a, looks st v ->
  match v with
  | Shown (Some l) => (uint32_range (number l idx) /\ snd (add_section st g idx a) = Ok (length (objects st))) \/
                      (~ uint32_range (number l idx) /\ add_section st g idx a = (st, Err ValueError))
  | Shown None => add_section st g idx a =
      (st, Err match idx with None => TypeError | Some i => if is_uint32 (i + 1) then AttributeError else ValueError end)
  | _ => add_section st g idx a =
      (st, Err match idx with None => AttributeError | Some i => if is_uint32 (i + 1) then AttributeError else ValueError end)
  end.
Proof. exact add_result. Qed.
Print Assumptions C82_add_result.

(** Setting a signal of a section changes this section, and no other. *)
Theorem C82_written : forall st l r p i name count q t, looks st (Shown (Some l)) -> stands st r p ->
  exists s l', nth_error l p = Some s /\ looks (fst (write st r i name count q t)) (Shown (Some l')) /\
  changed_at l p (mkSection (index s) (fst (set_signal (filters s) i name count q t)) (group s) (active s)) l' /\
  snd (write st r i name count q t) = snd (set_signal (filters s) i name count q t) /\
  held (fst (write st r i name count q t)) = held st.
Proof. exact written. Qed.
Print Assumptions C82_written.

(** Validation never changes what is shown. *)
Theorem C82_validated : forall st l m force known others, looks st (Shown (Some l)) -> m <> MNone \/ force = true ->
  exists st' n w e, validate st m force known others = (st', (n, w, e)) /\ looks st' (Shown (Some l)) /\
  (e <> None <-> careful m /\ exists s, In s l /\ virtual s) /\ (e <> None -> e = Some AttributeError /\ n = 0%nat /\ w = []) /\
  (e = None -> (n = 0%nat <-> acceptable m l /\ others = true) /\ (n = 0%nat \/ n = 1%nat) /\
    forall x, In x w <-> careful m /\ known = true /\ exists s, x = Unused s /\ In s l /\ wellformed s /\ active s <> None) /\
  (st' <> st -> e = None /\ n = 0%nat) /\
  (e = None -> n = 0%nat -> forall r, (r < length (objects st))%nat -> gone st' r).
Proof. exact validated. Qed.
Print Assumptions C82_validated.

Theorem C82_not_validated : forall st known others, validate st MNone false known others = (st, (0%nat, [], None)).
Proof. exact not_validated. Qed.
Print Assumptions C82_not_validated.

(** "A section stays the section of its entity": not after a validation. *)
Theorem C82_live_refuted : forall st l m force known others st' w, looks st (Shown (Some l)) -> m <> MNone \/ force = true ->
  validate st m force known others = (st', (0%nat, w, None)) ->
  forall r i name count q t, (r < length (objects st))%nat -> looks (fst (write st' r i name count q t)) (Shown (Some l)).
Proof. exact lost. Qed.
Print Assumptions C82_live_refuted.

(** "The library does not complain about sections it made": it does about each. *)
Theorem C82_own_refuted : forall st l g idx a st' r m force, looks st (Shown (Some l)) -> add_section st g idx a = (st', Ok r) ->
  careful m -> (forall s, In s l -> ~ virtual s) ->
  In (Unused (fresh l g idx a)) (snd (fst (snd (validate st' m force true true)))).
Proof. exact own_reported. Qed.
Print Assumptions C82_own_refuted.

(** "Validation raises nothing": it does if there is a signal for others. *)
Theorem C82_virtual_refuted : forall st l m force known others s, looks st (Shown (Some l)) -> careful m -> In s l -> virtual s ->
  validate st m force known others = (st, (0%nat, [], Some AttributeError)).
Proof. exact virtual_raises. Qed.
Print Assumptions C82_virtual_refuted.

(** Assigned sections are copied, unless nothing is validated. *)
Theorem C82_assigned : forall c st m known its l o w st', held st = Held o -> Forall2 (reads st) its l -> m <> MNone ->
  assign c st m known (Some its) = (st', (w, None)) ->
  looks st' (Shown (Some l)) /\ acceptable m l /\ (forall r, (r < length (objects st))%nat -> gone st' r) /\
  forall x, In x w <-> careful m /\ known = true /\ exists s, x = Unused s /\ In s l /\ wellformed s /\ active s <> None.
Proof. exact assigned_copies. Qed.
Print Assumptions C82_assigned.

Theorem C82_assigned_same : forall c st known its o, held st = Held o ->
  assign c st MNone known (Some its) = (mkState (objects st) (Held (Some its)), ([], None)).
Proof. exact assigned_same. Qed.
Print Assumptions C82_assigned_same.

(** "Sections can be assigned": not those of a constant combinator. *)
Theorem C82_setter_refuted : forall st m known v, m <> MNone -> assign ConstantCombinator st m known v = (st, ([], Some AttributeError)).
Proof. exact constant_setter. Qed.
Print Assumptions C82_setter_refuted.

(** A name finds the first section of that group. *)
Theorem C82_by_name : forall st l its g, looks st (Shown (Some l)) -> held st = Held (Some its) -> (forall s, ~ In (Raw s) its) ->
  (exists p, first_of g l p /\ exists r, nth_error its p = Some (Obj r) /\ getitem st (Name g) = Ok (Obj r)) \/
  ((forall s, In s l -> group s <> Some g) /\ getitem st (Name g) = Err StopIteration).
Proof. exact by_name. Qed.
Print Assumptions C82_by_name.

(** ... as long as no dictionary stands before it, and there is a list at all. *)
Theorem C82_by_name_raw : forall st its1 l1 d its2 g, held st = Held (Some (its1 ++ Raw d :: its2)) ->
  (forall s, ~ In (Raw s) its1) -> Forall2 (reads st) its1 l1 ->
  (forall s, In s l1 -> group s <> Some g) -> getitem st (Name g) = Err AttributeError.
Proof. exact stops_at_raw. Qed.
Print Assumptions C82_by_name_raw.
Theorem C82_no_list : forall st k, held st = Held None -> getitem st k = Err TypeError.
Proof. exact no_list. Qed.
Print Assumptions C82_no_list.

Theorem C82_by_place : forall st its i, held st = Held (Some its) ->
  let n := Z.of_nat (length its) in
  (0 <= i < n -> exists x, nth_error its (Z.to_nat i) = Some x /\ getitem st (Place i) = Ok x) /\
  (- n <= i < 0 -> exists x, nth_error its (Z.to_nat (n + i)) = Some x /\ getitem st (Place i) = Ok x) /\
  (i < - n \/ n <= i -> getitem st (Place i) = Err IndexError).
Proof. exact by_place. Qed.
Print Assumptions C82_by_place.

(** The section just added is found by its name, unless an earlier one has it. *)
Theorem C82_found : forall st l its g idx a st' r, looks st (Shown (Some l)) -> held st = Held (Some its) -> (forall s, ~ In (Raw s) its) ->
  add_section st (Some g) idx a = (st', Ok r) ->
  getitem st' (Name g) = (if existsb (fun s => named g (group s)) l then getitem st (Name g) else Ok (Obj r)).
Proof. exact added_found. Qed.
Print Assumptions C82_found.

(** "Models are read like dictionaries": their field [sections] is not. *)
Theorem C82_field_refuted : forall st l its, looks st (Shown (Some l)) -> held st = Held (Some its) -> (forall s, ~ In (Raw s) its) ->
  (forall s, In s l -> group s <> Some (str "sections")) -> getitem st (Name (str "sections")) = Err StopIteration.
Proof. exact field_lookup. Qed.
Print Assumptions C82_field_refuted.

(** Sections added without an index are numbered from one. *)
Theorem C82_numbered : forall c os, start c = Held (Some []) -> Forall in_order os ->
  exists l, looks (fst (execs c os (mkState [] (start c), []))) (Shown (Some l)) /\ numbered l.
Proof. exact in_order_numbers. Qed.
Print Assumptions C82_numbered.

(** "A section is put where its index says, and no two say the same". *)
Theorem C82_distinct_refuted : exists os, looks (fst (execs ConstantCombinator os (mkState [] (start ConstantCombinator), [])))
  (Shown (Some [mkSection 1 (Some []) None (Some true); mkSection 1 (Some []) None (Some true)])).
Proof. exact (ex_intro _ twice twice_shown). Qed.
Print Assumptions C82_distinct_refuted.

(** "Entities that request items can be given sections": three kinds can not
    by any of these calls, if constructed without filters. *)
Theorem C82_never_refuted : forall c os, start c <> Held (Some []) ->
  execs c os (mkState [] (start c), []) = (mkState [] (start c), []).
Proof. exact never. Qed.
Print Assumptions C82_never_refuted.

(** "An entity constructed without arguments is valid": not a storage chest. *)
Theorem C82_storage_refuted : forall m force known others, m <> MNone \/ force = true ->
  validate (mkState [] (start LogisticStorageContainer)) m force known others =
  (mkState [] (start LogisticStorageContainer), (1%nat, [], None)).
Proof. exact storage_invalid. Qed.
Print Assumptions C82_storage_refuted.

(** ** Examples *)
Definition begin : state * list nat := (mkState [] (start ConstantCombinator), []).
Definition iron : call := Write 0 0 (Some (str "iron-ore")) 5 (Some (str "normal")) None.
Definition shows_of (st : state) : holder * list (option (list (Z * pystr * Z))) :=
  (held st, map (fun s => option_map (map (fun f => (s_index f, s_name f, s_count f))) (filters s)) (objects st)).
Example ex_written : shows_of (fst (execs ConstantCombinator [Add (Some (str "A")) None true; Add None (Some 6) false; iron] begin))
  = (Held (Some [Obj 0; Obj 1]), [Some [(1, str "iron-ore", 5)]; Some []]).
Proof. vm_compute. reflexivity. Qed.
(** The third object is the copy; the signal goes to the first. *)
Example ex_lost : shows_of (fst (execs ConstantCombinator [Add (Some (str "A")) None true; Validate MStrict false true true; iron] begin))
  = (Held (Some [Obj 1]), [Some [(1, str "iron-ore", 5)]; Some []]).
Proof. vm_compute. reflexivity. Qed.
Example ex_own : snd (validate (fst (execs ConstantCombinator [Add None None true; iron] begin)) MStrict false true true)
  = (0%nat, [Unused (mkSection 1 (Some [mkS 1 (str "iron-ore") 5 (Some (str "normal")) None]) None (Some true))], None).
Proof. vm_compute. reflexivity. Qed.
Example ex_virtual : snd (validate (fst (execs ConstantCombinator [Add None None true; Write 0 3 (Some (str "signal-each")) 1 None None] begin)) MStrict false true true)
  = (0%nat, [], Some AttributeError).
Proof. vm_compute. reflexivity. Qed.
Example ex_minimum : snd (validate (fst (execs ConstantCombinator [Add None None true; Write 0 3 (Some (str "signal-each")) 1 None None] begin)) MMinimum false true true)
  = (0%nat, [], None).
Proof. vm_compute. reflexivity. Qed.
Example ex_found : let st := fst (execs ConstantCombinator [Add (Some (str "A")) None true; Add (Some (str "B")) None true; Add (Some (str "A")) None true] begin) in
  map (getitem st) [Name (str "A"); Name (str "B"); Name (str "C"); Place (-1); Place 3] =
  [Ok (Obj 0); Ok (Obj 1); Err StopIteration; Ok (Obj 2); Err IndexError].
Proof. vm_compute. reflexivity. Qed.
Example ex_never : snd (add_section (mkState [] (start CargoLandingPad)) None None true) = Err AttributeError.
Proof. vm_compute. reflexivity. Qed.
Example ex_live : exists st l r m st' w, looks st (Shown (Some l)) /\ stands st r 0 /\ m <> MNone /\
  validate st m false true true = (st', (0%nat, w, None)) /\
  snd (write st' r 0 (Some (str "iron-ore")) 5 None None) = Ok tt /\
  looks (fst (write st' r 0 (Some (str "iron-ore")) 5 None None)) (Shown (Some l)) /\ Forall (fun s => filters s = Some []) l.
Proof.
  exists (fst (execs ConstantCombinator [Add None None true] begin)), [mkSection 1 (Some []) None (Some true)], 0%nat, MStrict.
  do 2 eexists. split; [vm_compute; repeat constructor|]. split.
  { exists [Obj 0]. split; [reflexivity|]. split; [reflexivity|]. intros [|[|q]] Q; [reflexivity|discriminate|discriminate]. }
  split; [discriminate|]. split; [vm_compute; reflexivity|]. split; [vm_compute; reflexivity|]. split; [vm_compute; repeat constructor|repeat constructor].
Qed.
Example ex_raw : let s := mkSection 1 (Some []) (Some (str "A")) (Some true) in
  let st := mkState [s] (Held (Some [Obj 0; Raw (mkSection 2 (Some []) (Some (str "B")) None)])) in
  getitem st (Name (str "A")) = Ok (Obj 0) /\ getitem st (Name (str "B")) = Err AttributeError /\
  getitem (mkState [s] (Held None)) (Place 0) = Err TypeError.
Proof. vm_compute. repeat split. Qed.
