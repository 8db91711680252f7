(** C73: attributes of all classes of entities are read as they were last accepted. *)
From Coq Require Import ZArith String List Bool.
From Verif Require Import Common Dict Assign_Model Attr_Model Attr_Table Attr_Spec Attr_Order_Proofs Attr_Proofs Attr_Facts_Proofs.
Import ListNotations.
Local Open Scope string_scope.
Local Open Scope list_scope.

(** The order of a class, in any library: itself first, its ancestors once each, every
    class before its bases and its bases as they are listed, and the orders of its
    ancestors kept. *)
Theorem C73_order : forall L c m, order L c = Ok m ->
  (exists r, m = c :: r) /\ NoDup m /\ (forall d, In d m <-> descends L c d) /\
  (forall d bs, In d m -> dget eqs (l_bases L) d = Some bs -> within (d :: bs) m) /\
  (forall d, In d m -> exists md, order L d = Ok md /\ within md m).
Proof. exact order_facts. Qed.
Print Assumptions C73_order.
(** An attribute is the one of an ancestor that no class below it overrides. *)
Theorem C73_lookup : forall L c a m, order L c = Ok m ->
  (forall q, find_prop L c a = Some q -> exists d, descends L c d /\ own_prop L a d = Some q /\
     forall e, descends L c e -> descends L e d -> own_prop L a e <> None -> e = d) /\
  (find_prop L c a = None <-> forall d, descends L c d -> own_prop L a d = None).
Proof. exact find_prop_facts. Qed.
Print Assumptions C73_lookup.
(** Every class statement of draftsman has an order. *)
Theorem C73_orders : forall c, In c (map fst bases) -> exists m, order draftsman c = Ok m.
Proof. exact each_order. Qed.
Print Assumptions C73_orders.

(** Every setter checks and stores in one cell, and every getter reads one place. *)
Theorem C73_cells : forall c a, In c entity_classes -> settable draftsman c a -> exists k, writes draftsman c a k.
Proof. exact each_keeps. Qed.
Print Assumptions C73_cells.
Theorem C73_places : forall c a, In c entity_classes -> attribute draftsman c a -> exists ss, reads draftsman c a ss.
Proof. exact each_reads. Qed.
Print Assumptions C73_places.
(** No two attributes of a class share a cell, and each is read where it is stored, but
    for the listed ones. *)
Theorem C73_own_cell : forall c a b, In c entity_classes -> settable draftsman c a -> attribute draftsman c b ->
  (touches draftsman c a b [] <-> (a = b /\ ~ In (c, a) misread) \/ In (c, (a, b)) crossed).
Proof. exact shares_iff. Qed.
Print Assumptions C73_own_cell.
Theorem C73_holders : forall c a b, In c entity_classes -> inside draftsman c a b -> In b holders.
Proof. exact inside_holders. Qed.
Print Assumptions C73_holders.

(** After any program an attribute reads what the last accepted assignment to it, or to
    the object that holds it, made of its value ... *)
Theorem C73_history : forall check c a b v p s rest, In c entity_classes -> proper c b (Assign a v :: p) ->
  touches draftsman c a b rest ->
  snd (assign draftsman check c (fst s) (snd s) a v) = None ->
  quiet draftsman check c b (exec draftsman check c s (Assign a v)) p ->
  exists w, takes draftsman check c (fst s) a v w /\
            get draftsman c b (snd (run draftsman check c s (Assign a v :: p))) = read w rest.
Proof. exact history_last. Qed.
Print Assumptions C73_history.
(** ... and what it read before, if there was none. *)
Theorem C73_untouched : forall check c b p s, In c entity_classes -> attribute draftsman c b -> proper c b p ->
  quiet draftsman check c b s p ->
  get draftsman c b (snd (run draftsman check c s p)) = get draftsman c b (snd s).
Proof. exact history_quiet. Qed.
Print Assumptions C73_untouched.
(** A refused assignment changes nothing. *)
Theorem C73_refused : forall check c md t a v e t', In c entity_classes -> attribute draftsman c a -> ~ In (c, a) stored_first ->
  assign draftsman check c md t a v = (t', Some e) -> t' = t.
Proof. exact (fun check c md t a v e t' C => refused check c C md t a v e t'). Qed.
Print Assumptions C73_refused.
Theorem C73_accepted : forall check c md t a v t', In c entity_classes -> settable draftsman c a -> ~ In (c, a) misread ->
  assign draftsman check c md t a v = (t', None) ->
  exists w, takes draftsman check c md a v w /\ get draftsman c a t' = Ok w.
Proof. exact (fun check c md t a v t' C => accepted check c C md t a v t'). Qed.
Print Assumptions C73_accepted.
(** With validation on, what is taken is what the check of a declared field returned. *)
Theorem C73_checked : forall check c md a v w, In c entity_classes -> settable draftsman c a -> md <> MNone ->
  ~ In (c, a) (undeclared ++ unguarded) -> (c, a) <> ("ConstantCombinator", "sections") ->
  takes draftsman check c md a v w ->
  exists M n strict t, declared draftsman M n = true /\ check md strict M n t v = Ok w.
Proof. exact (fun check c md a v w C => accepted_checked check c C md a v w). Qed.
Print Assumptions C73_checked.
(** Attributes of an object that has its declared fields can be read. *)
Theorem C73_new : forall c a t, In c entity_classes -> ~ In (c, a) misread -> new_at draftsman c a t ->
  (In (c, a) undeclared -> get draftsman c a t = Err AttributeError) /\
  (~ In (c, a) undeclared -> exists w, get draftsman c a t = Ok w).
Proof. exact (fun c a t C => new_read c a C t). Qed.
Print Assumptions C73_new.

(** The exceptions are attributes that can be set. *)
Theorem C73_exceptions : forall c a, In (c, a) (undeclared ++ unguarded ++ stored_first ++ misread) ->
  In c entity_classes /\ settable draftsman c a.
Proof. exact exceptions_exist. Qed.
Print Assumptions C73_exceptions.
(** [circuit_enabled] of ten classes, [auto_launch], and three attributes of lamps take
    any value in any mode. *)
Theorem C73_checked_refuted : forall check c a md t v k fs, In c entity_classes -> In (c, a) (undeclared ++ unguarded) ->
  writes draftsman c a k -> read t (map SAttr (fst k)) = Ok (TModel fs) ->
  exists t', assign draftsman check c md t a v = (t', None) /\ get draftsman c a t' = Ok v.
Proof. exact (fun check c a md t v k fs C => unchecked_taken check c a C md t v k fs). Qed.
Print Assumptions C73_checked_refuted.
(** [player_description] and [recipe] keep a value that is refused. *)
Theorem C73_refused_refuted : forall check c a md t v k fs e t', In c entity_classes -> In (c, a) stored_first ->
  ~ In (c, a) misread -> md <> MNone -> writes draftsman c a k -> read t (map SAttr (fst k)) = Ok (TModel fs) ->
  assign draftsman check c md t a v = (t', Some e) -> get draftsman c a t' = Ok v.
Proof. exact (fun check c a md t v k fs e t' C => refused_stored check c a C md t v k fs e t'). Qed.
Print Assumptions C73_refused_refuted.
(** [recipe_quality] never reads what is assigned to it. *)
Theorem C73_own_refuted : forall check c a md t v, In c entity_classes -> In (c, a) misread ->
  get draftsman c a (fst (assign draftsman check c md t a v)) = get draftsman c a t.
Proof. exact (fun check c a md t v C => misread_kept check c a C md t v). Qed.
Print Assumptions C73_own_refuted.
(** [sections] of constant combinators cannot be set with validation on. *)
Theorem C73_sections_refuted : forall check md t v, md <> MNone ->
  assign draftsman check "ConstantCombinator" md t "sections" v = (t, Some AttributeError).
Proof. exact sections_refused. Qed.
Print Assumptions C73_sections_refuted.
(** The ammunition of a vehicle is read from its trunk. *)
Theorem C73_ammo_refuted : forall c t, In c ["Car"; "SpiderVehicle"] ->
  get draftsman c "ammo_inventory" t = get draftsman c "trunk_inventory" t.
Proof. exact ammo_is_trunk. Qed.
Print Assumptions C73_ammo_refuted.

(** Other attributes, and those without a setter, cannot be assigned. *)
Theorem C73_read_only : forall L check c md t a v, ~ settable L c a -> assign L check c md t a v = (t, Some AttributeError).
Proof. exact not_settable. Qed.
Print Assumptions C73_read_only.
(** The mode is the one that was set last, and assignments do not change it. *)
Theorem C73_mode : forall L check c p s,
  (forall q m, (forall n, ~ In (SetMode n) q) -> fst (run L check c s (p ++ SetMode m :: q)) = m) /\
  ((forall m, ~ In (SetMode m) p) -> fst (run L check c s p) = fst s).
Proof. exact (fun L check c p s => Logic.conj (fun q m => mode_last L check c p q m s) (mode_kept L check c p s)). Qed.
Print Assumptions C73_mode.

(** A wall: the oracle takes non-negative numbers and models. *)
Definition ex_check : oracle := fun md _ _ _ _ v =>
  match md, v with
  | MNone, _ => Ok v
  | _, TVal n => if (0 <=? n)%Z then Ok (TVal (n + 1)) else Err DataFormatError
  | _, TModel _ => Ok v
  | _, _ => Err DataFormatError
  end.
Definition ex_wall : tree := TModel [("name", TVal 0%Z); ("quality", TVal 7%Z); ("control_behavior", TModel [("circuit_open_gate", TVal 1%Z); ("circuit_enabled", TVal 0%Z)])].
Definition ex_after (p : list op) (a : string) : result tree := get draftsman "Wall" a (snd (run draftsman ex_check "Wall" (MStrict, ex_wall) p)).
Example C73_ex :
  let p := [Assign "enable_disable" (TVal 5); Assign "circuit_enabled" (TVal 3); Assign "enable_disable" (TVal (-5)); Assign "quality" (TVal (-1));
            SetMode MNone; Assign "circuit_enabled" (TVal (-3))]%Z in
  (ex_after p "enable_disable", ex_after p "circuit_enabled", ex_after p "quality", ex_after (p ++ [Assign "control_behavior" TNone]) "circuit_enabled") =
  (Ok (TVal 6), Ok (TVal (-3)), Ok (TVal 7), Err AttributeError)%Z.
Proof. vm_compute. reflexivity. Qed.
(** The orders of a lamp and of a model nested in a wall. *)
Example C73_ex_orders :
  order draftsman "Lamp" = Ok ["Lamp"; "CircuitConditionMixin"; "ControlBehaviorMixin"; "CircuitConnectableMixin"; "Entity"; "Exportable";
    "EntityLike"; "SpatialLike"; "object"] /\
  order draftsman "Wall.Format.ControlBehavior" = Ok ["Wall.Format.ControlBehavior"; "CircuitConditionMixin.ControlFormat";
    "CircuitEnableMixin.ControlFormat"; "DraftsmanBaseModel"; "BaseModel"; "object"].
Proof. vm_compute. split; reflexivity. Qed.
(** A library whose bases contradict each other has no order. *)
Example C73_ex_no_order :
  order {| l_bases := [("o", []); ("a", ["o"]); ("b", ["o"]); ("x", ["a"; "b"]); ("y", ["b"; "a"]); ("z", ["x"; "y"])]; l_fields := []; l_props := [] |} "z" = Err TypeError.
Proof. vm_compute. reflexivity. Qed.
