(** What is expected of class headers and attributes, apart from how they are computed. *)
From Coq Require Import ZArith String List Bool.
From Verif Require Import Common Dict Assign_Model Attr_Model Attr_Table.
Import ListNotations.
Local Open Scope string_scope.
Local Open Scope list_scope.

(** ** Order of classes *)
(** [l] is [m] with elements left out. *)
Inductive within {A} : list A -> list A -> Prop :=
| within_nil : within [] []
| within_skip x l m : within l m -> within l (x :: m)
| within_keep x l m : within l m -> within (x :: l) (x :: m).
(** [d] is [c] or one of its bases, or of their bases, and so on. *)
Inductive descends (L : lib) (c : cls) : cls -> Prop :=
| descends_self : descends L c c
| descends_base d bs e : descends L c d -> dget eqs (l_bases L) d = Some bs -> In e bs -> descends L c e.
(** [x] is before [y]. *)
Definition before {A} (x y : A) (l : list A) : Prop := exists l1 l2 l3, l = l1 ++ x :: l2 ++ y :: l3.

(** ** Where attributes are kept *)
(** The object that holds a field, by the names on the way, and the name of the field. *)
Definition cell := (list string * string)%type.
Definition path (k : cell) : list string := fst k ++ [snd k].
(** A place that names the cell: attributes on the way, the field by attribute or item. *)
Definition names_cell (L : lib) (c : cls) (p : place) (k : cell) : Prop :=
  where_ L c p = Ok (map SAttr (fst k) ++ [SAttr (snd k)]) \/ where_ L c p = Ok (map SAttr (fst k) ++ [SItem (snd k)]).
Definition checks_cell (L : lib) (c : cls) (target : place) (name : string) (k : cell) : Prop :=
  where_ L c target = Ok (map SAttr (fst k)) /\ name = snd k.
(** All that a setter does concerns one cell. *)
Definition keeps (L : lib) (c : cls) (s : setter) (k : cell) : Prop :=
  match s with
  | Plain e _ t n p1 p2 =>
    checks_cell L c t n k /\ names_cell L c p1 k /\ names_cell L c p2 k /\
    match e with Late => True | EarlyAlways p | EarlyChecked p => names_cell L c p k end
  | Test _ t n => checks_cell L c t n k
  | Raw p => names_cell L c p k
  | Always _ t n p => checks_cell L c t n k /\ names_cell L c p k
  | ReadOnly => False
  end.
Definition writes (L : lib) (c : cls) (a : string) (k : cell) : Prop :=
  exists q, find_prop L c a = Some q /\ keeps L c (p_set q) k.
Definition reads (L : lib) (c : cls) (a : string) (ss : list step) : Prop :=
  exists q, find_prop L c a = Some q /\ where_ L c (p_get q) = Ok ss.
(** The setter of [a] stores what the getter of [b] reads, or an object that holds it;
    [rest] is what remains to be read. *)
Definition touches (L : lib) (c : cls) (a b : string) (rest : list step) : Prop :=
  exists k way s, writes L c a k /\ reads L c b (way ++ s :: rest) /\
    map skey way = fst k /\ skey s = snd k.
(** The setter of [a] stores inside of what the getter of [b] reads. *)
Definition inside (L : lib) (c : cls) (a b : string) : Prop :=
  exists k ss rest, writes L c a k /\ reads L c b ss /\ fst k = map skey ss ++ rest.

(** ** Histories *)
(** From [s] on, every assignment that would change what [b] reads is refused. *)
Fixpoint quiet (L : lib) (check : oracle) (c : cls) (b : string) (s : mode * tree) (p : list op) : Prop :=
  match p with
  | [] => True
  | o :: p' =>
    match o with
    | Assign a v => (exists rest, touches L c a b rest) -> exists e, snd (assign L check c (fst s) (snd s) a v) = Some e
    | SetMode _ => True
    end /\ quiet L check c b (exec L check c s o) p'
  end.
(** The attributes a program assigns. *)
Definition assigns (a : string) (p : list op) : Prop := exists v, In (Assign a v) p.

(** The model and the field a setter checks values against. *)
Definition guard (s : setter) : option (list string * string) :=
  match s with
  | Plain _ m _ n _ _ | Test m _ n | Always m _ n _ => Some (m, n)
  | Raw _ | ReadOnly => None
  end.
(** What an attribute makes of an assigned value: the value itself if it is not
    checked, otherwise what the check of the declared field returns for it. *)
Definition takes (L : lib) (check : oracle) (c : cls) (md : mode) (a : string) (v w : tree) : Prop :=
  exists q, find_prop L c a = Some q /\
  match guard (p_set q) with
  | None => w = v
  | Some (m, n) =>
    (md = MNone /\ (exists e m' t n' p1 p2, p_set q = Plain e m' t n' p1 p2) /\ w = v) \/
    exists M, model_of L c m = Ok M /\
      if declared L M n then exists strict t, check md strict M n t v = Ok w else w = v
  end.
(** Setters that store before they check. *)
Definition hasty (s : setter) : Prop :=
  match s with Plain (EarlyAlways _) _ _ _ _ _ | Plain (EarlyChecked _) _ _ _ _ _ => True | _ => False end.

(** Around the cell of [a], the object has just the fields that are declared. *)
Definition new_at (L : lib) (c : cls) (a : string) (t : tree) : Prop :=
  exists q m n M ks fs, find_prop L c a = Some q /\ guard (p_set q) = Some (m, n) /\
    model_of L c m = Ok M /\ writes L c a (ks, n) /\
    read t (map SAttr ks) = Ok (TModel fs) /\ forall f, In f (map fst fs) <-> declared L M f = true.

(** All attributes of a class that the table knows. *)
Definition attribute (L : lib) (c : cls) (a : string) : Prop := exists q, find_prop L c a = Some q.
Definition settable (L : lib) (c : cls) (a : string) : Prop :=
  exists q, find_prop L c a = Some q /\ p_set q <> ReadOnly.

(** ** The exceptions in draftsman *)
(** Fields that no model declares. *)
Definition undeclared : list (cls * string) := [
  ("AgriculturalTower", "circuit_enabled"); ("Lamp", "circuit_enabled");
  ("LogisticActiveContainer", "circuit_enabled"); ("LogisticBufferContainer", "circuit_enabled");
  ("LogisticPassiveContainer", "circuit_enabled"); ("LogisticRequestContainer", "circuit_enabled");
  ("LogisticStorageContainer", "circuit_enabled"); ("OffshorePump", "circuit_enabled");
  ("PowerSwitch", "circuit_enabled"); ("Pump", "circuit_enabled"); ("RocketSilo", "auto_launch")].
(** Stored without any check. *)
Definition unguarded : list (cls * string) := [("Lamp", "color_mode"); ("Lamp", "always_on"); ("Lamp", "color")].
(** Stored before the check. *)
Definition stored_first : list (cls * string) := [
  ("ArithmeticCombinator", "player_description"); ("ConstantCombinator", "player_description");
  ("DeciderCombinator", "player_description"); ("SelectorCombinator", "player_description");
  ("AssemblingMachine", "recipe"); ("AssemblingMachine", "recipe_quality");
  ("RocketSilo", "recipe"); ("RocketSilo", "recipe_quality")].
(** Read from elsewhere. *)
Definition misread : list (cls * string) := [("AssemblingMachine", "recipe_quality"); ("RocketSilo", "recipe_quality")].
(** Places where a setter stores a value it has not checked. *)
Definition blind (s : setter) : list place :=
  match s with
  | Plain e _ _ _ _ p2 => p2 :: match e with Late => [] | EarlyAlways p | EarlyChecked p => [p] end
  | Raw p => [p]
  | Test _ _ _ | Always _ _ _ _ | ReadOnly => []
  end.
(** If [a] may be stored as an item, of a dict, then [b] is not read as an attribute. *)
Definition agrees (L : lib) (c : cls) (a b : string) : Prop :=
  forall q p ks n way k rest, find_prop L c a = Some q -> In p (blind (p_set q)) ->
    where_ L c p = Ok (map SAttr ks ++ [SItem n]) -> reads L c b (way ++ SAttr k :: rest) ->
    map skey way = ks -> k <> n.
(** Attributes that are read where another one is stored. *)
Definition crossed : list (cls * (string * string)) := [
  ("AssemblingMachine", ("recipe", "recipe_quality")); ("RocketSilo", ("recipe", "recipe_quality"))].
(** Attributes that hold others. *)
Definition holders : list string := ["control_behavior"; "request_filters"; "infinity_settings"; "inventory"; "parameters";
  "alert_parameters"; "automatic_targeting_parameters"].
(** Programs over the attributes of a class that store neither inside of [b] nor, where
    they touch it, before the check. *)
Definition proper (c : cls) (b : string) (p : list op) : Prop := forall a, assigns a p ->
  attribute draftsman c a /\ ~ inside draftsman c a b /\ ((exists rest, touches draftsman c a b rest) -> ~ In (c, a) stored_first).
