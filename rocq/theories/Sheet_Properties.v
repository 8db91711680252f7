(** C75: blueprints, planners and books keep in each attribute what was last accepted;
    [setup] sets every attribute anew, one after the other. *)
From Coq Require Import ZArith String List Bool.
From Verif Require Import Common Dict Version_Model Assign_Model Attr_Model Sheet_Model Sheet_Spec Sheet_Proofs Sheet_Setup_Proofs Sheet_Claims_Proofs.
Import ListNotations.
Local Open Scope string_scope.
Local Open Scope list_scope.

(** An assignment is refused as a whole ... *)
Theorem C75_refused W k md t a v t' e : assign W k md t a v = (t', Some e) -> t' = t.
Proof. exact (assign_refused W k md t a v t' e). Qed.
Print Assumptions C75_refused.
(** ... or the attribute reads what the check made of the value, and the others read as before. *)
Theorem C75_accepted W k md t a v t' : shape k t -> assign W k md t a v = (t', None) ->
  shape k t' /\ (exists w, takes W k md a v w /\ get k a t' = Ok w) /\ forall b, b <> a -> get k b t' = get k b t.
Proof. exact (assign_accepted W k md t a v t'). Qed.
Print Assumptions C75_accepted.
(** It is kept in its place below [_root], and nothing elsewhere changes. *)
Theorem C75_place W k md t a v t' : shape k t -> assign W k md t a v = (t', None) ->
  (exists w, takes W k md a v w /\ read t' (map SItem (place k a)) = Ok w) /\
  forall path, (forall r, path ++ r <> place k a) -> (forall r, path <> place k a ++ r) -> read t' (map SItem path) = read t (map SItem path).
Proof. exact (assigned_place W k md t a v t'). Qed.
Print Assumptions C75_place.
(** What can be taken is accepted. *)
Theorem C75_succeeds W k md t a v w : blind W -> shape k t -> In a (attributes k) -> takes W k md a v w ->
  exists t', assign W k md t a v = (t', None) /\ get k a t' = Ok w.
Proof. exact (assign_succeeds W k md t a v w). Qed.
Print Assumptions C75_succeeds.
(** There are no other attributes to set. *)
Theorem C75_foreign W k md t a v : ~ In a (attributes k) -> assign W k md t a v = (t, Some AttributeError) /\ get k a t = Err AttributeError.
Proof. exact (assign_foreign W k md t a v). Qed.
Print Assumptions C75_foreign.
(** After any program, an attribute reads what the last accepted assignment gave it. *)
Theorem C75_last W k s p a v q : shape k (snd s) -> (forall u, ~ In (Assign a u) q) ->
  snd (assign W k (fst (run W k s p)) (snd (run W k s p)) a v) = None ->
  exists w, takes W k (fst (run W k s p)) a v w /\ get k a (snd (run W k s (p ++ Assign a v :: q))) = Ok w.
Proof. exact (run_last W k s p a v q). Qed.
Print Assumptions C75_last.
Theorem C75_others W k p s b : shape k (snd s) -> (forall v, ~ In (Assign b v) p) -> get k b (snd (run W k s p)) = get k b (snd s).
Proof. exact (run_other W k p s b). Qed.
Print Assumptions C75_others.
(** [None] stands for the origin and for the empty list. *)
Theorem C75_none_vector W k md t a : shape k t -> In a (attributes k) -> In a vectors ->
  exists t', assign W k md t a TNone = (t', None) /\ get k a t' = Ok (origin W).
Proof. exact (none_vector W k md t a). Qed.
Print Assumptions C75_none_vector.
Theorem C75_none_list W k md t a : shape k t -> In a (attributes k) -> In a (containers ++ plain_lists) ->
  exists t', assign W k md t a TNone = (t', None) /\ get k a t' = Ok (empty W).
Proof. exact (none_list W k md t a). Qed.
Print Assumptions C75_none_list.
(** But not for the first of the blueprints of a book, as documented. *)
Theorem C75_active_index_refuted : zero easy <> TNone /\
  forall md i, get Book "active_index" (fst (assign easy Book md (bare Book i) "active_index" TNone)) = Ok TNone.
Proof. exact active_index_none. Qed.
Print Assumptions C75_active_index_refuted.

(** After [setup], every attribute has the value that was given or its default. *)
Theorem C75_setup W k md kw vm t t' : shape k t -> harmless k kw -> (k = Book -> vm = MNone) -> setup W k md kw vm t = (t', None) ->
  forall a, In a (sequence k) -> ~ In a (linked k) -> finished W k md kw t t' a.
Proof. exact (setup_done W k md kw vm t t'). Qed.
Print Assumptions C75_setup.
(** Schedules and wires have associations in place of numbers. *)
Theorem C75_setup_linked W md kw vm t t' : shape Blueprint t -> harmless Blueprint kw -> setup W Blueprint md kw vm t = (t', None) ->
  exists es s ss w ws ss' ws', get Blueprint "entities" t' = Ok es /\
    wants W Blueprint kw "schedules" s /\ gives W Blueprint md "schedules" s ss /\
    wants W Blueprint kw "wires" w /\ gives W Blueprint md "wires" w ws /\
    link W es ss ws = ((ss', ws'), None) /\ get Blueprint "schedules" t' = Ok ss' /\ get Blueprint "wires" t' = Ok ws'.
Proof. exact (setup_linked W md kw vm t t'). Qed.
Print Assumptions C75_setup_linked.
(** It stops at the first value that is refused: those before are set, those after are not. *)
Theorem C75_setup_stops W k md kw vm t t' e : shape k t -> harmless k kw -> (k = Book -> vm = MNone) -> setup W k md kw vm t = (t', e) ->
  exists l1 l2, sequence k = l1 ++ l2 /\
    (forall a, In a l1 -> (In a (linked k) -> l2 <> []) -> finished W k md kw t t' a) /\
    (forall a, In a l2 -> untouched k t t' a) /\ (e = None -> l2 = []).
Proof. exact (setup_all W k md kw vm t t' e). Qed.
Print Assumptions C75_setup_stops.
(** And it stops at nothing else. *)
Theorem C75_setup_succeeds W k md kw vm t : blind W -> content W k vm -> shape k t -> harmless k kw -> (forall a, In a (sequence k) -> possible W k md kw a) ->
  exists t', setup W k md kw vm t = (t', None).
Proof. exact (setup_possible W k md kw vm t). Qed.
Print Assumptions C75_setup_succeeds.
(** Calls of [setup] are not cumulative ... *)
Theorem C75_not_cumulative W k md kw vm t1 t1' t2 t2' a : blind W -> shape k t1 -> shape k t2 -> harmless k kw -> (k = Book -> vm = MNone) ->
  setup W k md kw vm t1 = (t1', None) -> setup W k md kw vm t2 = (t2', None) -> In a (attributes k) -> ~ spared W k kw a -> get k a t1' = get k a t2'.
Proof. exact (setup_fresh W k md kw vm t1 t1' t2 t2' a). Qed.
Print Assumptions C75_not_cumulative.
(** ... but for the filters of a deconstruction planner, if the settings are [None], ... *)
Theorem C75_filters_refuted : exists kw t t', shape Deconstruction t /\ harmless Deconstruction kw /\
  setup easy Deconstruction MStrict kw MStrict t = (t', None) /\ get Deconstruction "description" t' = Ok (TVal 9).
Proof. exact spared_stay. Qed.
Print Assumptions C75_filters_refuted.
(** ... and for unknown keywords. They are put beside the body, not inside, ... *)
Theorem C75_unknown W k md kw vm t t' n v : shape k t -> harmless k kw -> (k = Book -> vm = MNone) -> setup W k md kw vm t = (t', None) ->
  NoDup (map fst kw) -> In (n, v) kw -> ~ meant W k n -> child t' (SItem n) = Ok v.
Proof. exact (unknown_meant W k md kw vm t t' n v). Qed.
Print Assumptions C75_unknown.
Theorem C75_unknown_not_inside W k md kw vm t t' n : shape k t -> harmless k kw -> (k = Book -> vm = MNone) -> setup W k md kw vm t = (t', None) ->
  ~ In n (known k) -> n <> "settings" -> ~ In n ["_snap_to_grid"; "_snapping_grid_position"; "_position_relative_to_grid"] ->
  read t' [SItem (root k); SItem n] = read t [SItem (root k); SItem n].
Proof. exact (unknown_not_inside W k md kw vm t t' n). Qed.
Print Assumptions C75_unknown_not_inside.
(** ... and stay there until another call names them. *)
Theorem C75_unknown_stays W k md kw vm t t' n : shape k t -> harmless k kw -> (k = Book -> vm = MNone) -> setup W k md kw vm t = (t', None) ->
  ~ In n (map fst kw) -> n <> "index" -> n <> root k -> ~ In n (hidden k) -> child t' (SItem n) = child t (SItem n).
Proof. exact (unknown_stays W k md kw vm t t' n). Qed.
Print Assumptions C75_unknown_stays.
(** Keywords that stand for something are not put there. *)
Theorem C75_meant W k md kw vm t t' n : shape k t -> harmless k kw -> (k = Book -> vm = MNone) -> setup W k md kw vm t = (t', None) ->
  meant W k n -> n <> "index" -> n <> root k -> ~ In n (hidden k) -> child t' (SItem n) = child t (SItem n).
Proof. exact (meant_stays W k md kw vm t t' n). Qed.
Print Assumptions C75_meant.
(** An unknown keyword can destroy the rest: nothing protects the body. *)
Theorem C75_harmful_refuted : exists kw t', shape Blueprint (bare Blueprint TNone) /\
  setup easy Blueprint MStrict kw MStrict (bare Blueprint TNone) = (t', None) /\
  dget eqs kw "label" = Some (TVal 8) /\ get Blueprint "label" t' <> Ok (TVal 8).
Proof. exact harmful. Qed.
Print Assumptions C75_harmful_refuted.

(** A constructor does what [setup] does with the data, without checking assignments,
    and then has the mode that was asked for. *)
Theorem C75_constructor W k blank src i vm am m t : make W k blank src i vm am = Ok (m, t) -> shape k (blank i) ->
  (k = Book -> src <> Nothing /\ vm = MNone) -> (forall kw, passes k src kw -> harmless k kw) ->
  m = am /\ exists kw, passes k src kw /\ forall a, In a (sequence k) -> ~ In a (linked k) -> finished W k MNone kw (blank i) t a.
Proof. exact (make_filled W k blank src i vm am m t). Qed.
Print Assumptions C75_constructor.
(** The index of the call is lost: it is the one of the data, or [None]. *)
Theorem C75_constructor_index W k blank src i vm am m t : make W k blank src i vm am = Ok (m, t) -> shape k (blank i) ->
  (k = Book -> src <> Nothing /\ vm = MNone) -> (forall kw, passes k src kw -> harmless k kw) ->
  exists w, get k "index" t = Ok w /\
    match src with Data d | Text (Ok d) => chosen d TNone ["index"] w | _ => w = TNone end.
Proof. exact (make_index W k blank src i vm am m t). Qed.
Print Assumptions C75_constructor_index.
Theorem C75_constructor_refuses W k blank i vm am :
  make W k blank Other i vm am = Err DataFormatError /\
  (forall e, make W k blank (Text (Err e)) i vm am = Err e) /\
  (forall d, dget eqs d (root k) = None -> make W k blank (Data d) i vm am = Err KeyError /\ make W k blank (Text (Ok d)) i vm am = Err IncorrectBlueprintTypeError) /\
  (forall d b, dget eqs d (root k) = Some b -> (forall fs, b <> TDict fs) -> make W k blank (Data d) i vm am = Err TypeError /\ make W k blank (Text (Ok d)) i vm am = Err TypeError) /\
  (forall d fs n, dget eqs d (root k) = Some (TDict fs) -> In n ["index"; "validate"; "self"] -> In n (map fst fs) ->
     make W k blank (Data d) i vm am = Err TypeError /\ make W k blank (Text (Ok d)) i vm am = Err TypeError).
Proof. exact (make_refuses W k blank i vm am). Qed.
Print Assumptions C75_constructor_refuses.
(** Without data, the strict validation cannot be turned off. *)
Theorem C75_constructor_strict W k blank i vm am t e : setup W k MNone [] MStrict (blank i) = (t, Some e) -> make W k blank Nothing i vm am = Err e.
Proof. exact (make_strict W k blank i vm am t e). Qed.
Print Assumptions C75_constructor_strict.

(** ** Examples *)
Example C75_example_setup : exists t', setup easy Blueprint MStrict [("label", TVal 20); ("snap-to-grid", TVal 21); ("snapping_grid_size", TVal 22); ("odd", TVal 23)] MStrict (bare Blueprint (TVal 3)) = (t', None) /\
  get Blueprint "label" t' = Ok (TVal 20) /\ get Blueprint "snapping_grid_size" t' = Ok (TVal 21) /\ get Blueprint "index" t' = Ok TNone /\
  get Blueprint "absolute_snapping" t' = Ok (TVal 5) /\ child t' (SItem "odd") = Ok (TVal 23).
Proof. eexists. split; [vm_compute; reflexivity|]. repeat split. Qed.
(** Two calls: the label of the first is gone, its unknown keyword is not. *)
Example C75_example_twice : exists t' t'', setup easy Blueprint MStrict [("label", TVal 20); ("odd", TVal 23)] MStrict (bare Blueprint TNone) = (t', None) /\
  setup easy Blueprint MStrict [("description", TVal 24)] MStrict t' = (t'', None) /\
  get Blueprint "label" t'' = Ok TNone /\ get Blueprint "description" t'' = Ok (TVal 24) /\ child t'' (SItem "odd") = Ok (TVal 23).
Proof. eexists _, _. split; [vm_compute; reflexivity|]. split; [vm_compute; reflexivity|]. repeat split. Qed.
(** A world that refuses icons: the label has changed, the icons and what follows have not. *)
Definition picky : world := {|
  check := fun md s M n o v => if eqs n "icons" then Err DataFormatError else check easy md s M n o v; normalize := normalize easy; to_vector := to_vector easy; to_list := to_list easy;
  link := link easy; review := review easy; origin := TVal 0; empty := TVal 1; game := TVal 2; whitelist := TVal 3; never := TVal 4; yes := TVal 5; no := TVal 6; zero := TVal 7 |}.
Example C75_example_stops : exists t', setup picky Book MStrict [("label", TVal 20); ("icons", TVal 21); ("index", TVal 22)] MNone (bare Book (TVal 3)) = (t', Some DataFormatError) /\
  get Book "label" t' = Ok (TVal 20) /\ get Book "index" t' = Ok (TVal 3).
Proof. eexists. split; [vm_compute; reflexivity|]. repeat split. Qed.
Example C75_example_upgrade : exists t', make easy Upgrade (bare Upgrade) (Data [("upgrade_planner", TDict [("label", TVal 20); ("settings", TDict [("mappers", TVal 21)])]); ("index", TVal 5)]) (TVal 9) MStrict MPedantic = Ok (MPedantic, t') /\
  get Upgrade "label" t' = Ok (TVal 20) /\ get Upgrade "mappers" t' = Ok (TVal 21) /\ get Upgrade "icons" t' = Ok TNone /\ get Upgrade "index" t' = Ok (TVal 5).
Proof. eexists. split; [vm_compute; reflexivity|]. repeat split. Qed.
Example C75_example_program :
  let s := run easy Deconstruction (MStrict, bare Deconstruction TNone) [Assign "icons" (TVal 20); Assign "odd" (TVal 21); SetMode MNone; Assign "label" (TVal 22); Assign "icons" (TVal 23)] in
  fst s = MNone /\ get Deconstruction "icons" (snd s) = Ok (TVal 23) /\ get Deconstruction "label" (snd s) = Ok (TVal 22).
Proof. vm_compute. repeat split. Qed.
