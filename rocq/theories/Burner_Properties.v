(** C81: fuel and the requests for it. *)
From Coq Require Import ZArith String List Bool.
From Verif Require Import Common Dict Assign_Model Burner_Model Burner_Spec Burner_Proofs.
Import ListNotations.

(** The fuels of a category are the items that name it; every category is a declared one. *)
Theorem C81_fuels : forall cats its f, extract_fuels cats its = Ok f ->
  (forall c, dget pystr_eqb f c <> None <-> In c cats) /\
  (forall c i, fuel_of f c i <-> In c cats /\ In (i, Some c) its).
Proof. exact fuels_exact. Qed.
Print Assumptions C81_fuels.

Theorem C81_declared : forall cats its,
  (forall i c, In (i, Some c) its -> In c cats) <-> exists f, extract_fuels cats its = Ok f.
Proof. exact fuels_fail. Qed.
Print Assumptions C81_declared.

(** All fuels together are the items that name a category. *)
Theorem C81_all_fuels : forall cats its f, extract_fuels cats its = Ok f ->
  forall i, In i (all_fuel_items f) <-> exists c, In (i, Some c) its.
Proof. exact all_fuels. Qed.
Print Assumptions C81_all_fuels.

(** The fuels allowed for an entity are those it burns, whatever was constructed
    before under other names and is constructed afterwards. *)
Theorem C81_allowed : forall before after W k n c, dget pystr_eqb c n = None -> complete W k n ->
  (forall x, In x before -> snd x <> n) ->
  exists l, allowed_fuel_items (constructs c (before ++ (W, k, n) :: after)) n = Some l /\
  forall i, In i l <-> burns W k n i.
Proof. exact first_counts. Qed.
Print Assumptions C81_allowed.

(** Constructing such an entity raises nothing. *)
Theorem C81_constructs : forall W k n c, dget pystr_eqb c n = None -> complete W k n ->
  snd (construct W k n c) = None /\
  exists l, allowed_fuel_items (fst (construct W k n c)) n = Some l /\ forall i, In i l <-> burns W k n i.
Proof. exact construct_exact. Qed.
Print Assumptions C81_constructs.

Theorem C81_unknown_name : forall W k n c, dget pystr_eqb c n = None -> dget pystr_eqb (w_entities W) n = None ->
  snd (construct W k n c) = None /\ allowed_fuel_items (fst (construct W k n c)) n = None.
Proof. exact construct_unknown. Qed.
Print Assumptions C81_unknown_name.

(** Nothing is said of other entities. *)
Theorem C81_others : forall W k n c m, m <> n ->
  dget pystr_eqb (fst (construct W k n c)) m = dget pystr_eqb c m.
Proof. exact construct_other. Qed.
Print Assumptions C81_others.

(** Data without a source, or without its kind, raise and leave nothing. *)
Theorem C81_sourceless : forall W k n c, dget pystr_eqb c n = None -> sourceless W k n ->
  construct W k n c = (c, Some KeyError).
Proof. exact construct_sourceless. Qed.
Print Assumptions C81_sourceless.

(** A category there is not raises, and leaves the fuels of those before it. *)
Theorem C81_stops : forall W k n c s cs1 x cs2, dget pystr_eqb c n = None -> source_of W k n s ->
  s_categories s = Some (cs1 ++ x :: cs2) -> (forall d, In d cs1 -> exists l, dget pystr_eqb (w_fuels W) d = Some l) ->
  dget pystr_eqb (w_fuels W) x = None ->
  snd (construct W k n c) = Some KeyError /\
  exists l, allowed_fuel_items (fst (construct W k n c)) n = Some l /\
    forall i, In i l <-> exists d, In d cs1 /\ fuel_of (w_fuels W) d i.
Proof. exact construct_stops. Qed.
Print Assumptions C81_stops.

(** "A construction that fails fails again": not if a category is missing. *)
Theorem C81_partial_refuted : exists W k n,
  snd (construct W k n []) = Some KeyError /\ snd (construct W k n (fst (construct W k n []))) = None.
Proof. exact partial_witness. Qed.
Print Assumptions C81_partial_refuted.

(** "The fuels of an entity are those of the data at hand": not if its name was
    used before the data had it. *)
Theorem C81_stale_refuted : exists W W' k n i,
  complete W' k n /\ burns W' k n i /\ snd (construct W k n []) = None /\
  snd (construct W' k n (fst (construct W k n []))) = None /\
  allowed_fuel_items (fst (construct W' k n (fst (construct W k n [])))) n = None.
Proof. exact stale_witness. Qed.
Print Assumptions C81_stale_refuted.

(** Without validation anything is stored and nothing is said. *)
Theorem C81_none : forall E k old v,
  assign E k MNone old VNone = (VList [], [], None) /\
  (v <> VNone -> assign E k MNone old v = (v, [], None)).
Proof. exact mode_none_stores. Qed.
Print Assumptions C81_none.

Theorem C81_minimum : forall E k old v ws r, convert E MMinimum v = (ws, Some r) ->
  assign E k MMinimum old v = (match r with None => VList [] | Some rs => VList (map Model rs) end, ws, None).
Proof. exact mode_minimum. Qed.
Print Assumptions C81_minimum.

(** Values of a wrong form change nothing. *)
Theorem C81_refused : forall E k m old v ws, m <> MNone -> convert E m v = (ws, None) ->
  assign E k m old v = (old, [], Some DataFormatError).
Proof. exact refused. Qed.
Print Assumptions C81_refused.

Theorem C81_empty : forall E k m old ws, strict m -> convert E m (VList []) = (ws, Some (Some [])) ->
  assign E k m old (VList []) = (VList [], ws, None).
Proof. exact empty. Qed.
Print Assumptions C81_empty.

Theorem C81_cleared : forall E k m old ws, strict m -> convert E m VNone = (ws, Some None) ->
  assign E k m old VNone = (VList [], ws, None).
Proof. exact cleared. Qed.
Print Assumptions C81_cleared.

(** Drills and reactors: one warning, in order, for every fuel requested that
    they do not burn, and the requests are stored. *)
Theorem C81_warns : forall E k m old es ns ws rs l, k = Drill \/ k = Reactor -> strict m -> allowed E = Some l ->
  convert E m (VList es) = (ws, Some (Some rs)) -> Forall2 wants es ns ->
  exists ws', assign E k m old (VList es) = (VList (map Model rs), ws ++ ws', None) /\ said (all_fuel E) l ns ws'.
Proof. exact warns. Qed.
Print Assumptions C81_warns.

(** They are about what is stored. *)
Theorem C81_stored : forall E k m old es ns ws rs l, k = Drill \/ k = Reactor -> strict m -> allowed E = Some l -> faithful E ->
  convert E m (VList es) = (ws, Some (Some rs)) -> Forall2 wants es ns ->
  exists ws', assign E k m old (VList es) = (VList (map Model rs), ws ++ ws', None) /\
  forall w, In w ws' <-> exists i, w = FuelLimitation i l /\ In (Some i) (map r_name rs) /\ In i (all_fuel E) /\ ~ In i l.
Proof. exact stored. Qed.
Print Assumptions C81_stored.

(** Nothing is said about fuel for entities that are not known. *)
Theorem C81_unknown : forall E k m old es ws rs, k <> Furnace -> strict m -> allowed E = None ->
  convert E m (VList es) = (ws, Some (Some rs)) -> assign E k m old (VList es) = (VList (map Model rs), ws, None).
Proof. exact unknown. Qed.
Print Assumptions C81_unknown.

(** "Furnaces and burner generators take requests": any request at all raises
    TypeError, and has been stored nevertheless, as it was given. *)
Theorem C81_furnace_refuted : forall E k m old es ns ws rs, strict m -> k = Furnace \/ (k = BurnerGenerator /\ allowed E <> None) ->
  convert E m (VList es) = (ws, Some (Some rs)) -> Forall2 wants es ns -> es <> [] ->
  assign E k m old (VList es) = (VList es, [], Some TypeError).
Proof. exact crash. Qed.
Print Assumptions C81_furnace_refuted.

(** "An item may be given by its name": the same if an entity is known. *)
Theorem C81_short_refuted : forall E k m old es1 es2 ns s z ws rs l, strict m -> allowed E = Some l ->
  convert E m (VList (es1 ++ Plain (Some (Short s)) z :: es2)) = (ws, Some (Some rs)) -> Forall2 wants es1 ns ->
  assign E k m old (VList (es1 ++ Plain (Some (Short s)) z :: es2)) =
  (VList (es1 ++ Plain (Some (Short s)) z :: es2), [], Some TypeError).
Proof. exact short. Qed.
Print Assumptions C81_short_refuted.

(** The same for every entry that does not say its item, the first of which
    decides what is raised, ... *)
Theorem C81_entries : forall E k m old es1 es2 ns e x ws rs l, strict m -> allowed E = Some l ->
  convert E m (VList (es1 ++ e :: es2)) = (ws, Some (Some rs)) -> Forall2 wants es1 ns -> nameless e x ->
  assign E k m old (VList (es1 ++ e :: es2)) = (VList (es1 ++ e :: es2), [], Some x).
Proof. exact entry_raises. Qed.
Print Assumptions C81_entries.
(** ... and for dictionaries and what cannot be gone through, should they be accepted. *)
Theorem C81_values : forall E k m old v ws rs l, strict m -> allowed E = Some l ->
  (exists a ks, v = VKeys (a :: ks)) \/ (exists z, v = VOther z) -> convert E m v = (ws, Some (Some rs)) ->
  assign E k m old v = (v, [], Some TypeError).
Proof. exact value_raises. Qed.
Print Assumptions C81_values.
(** The validators of burner generators and furnaces, written for dictionaries, by themselves. *)
Theorem C81_only_fuel : forall E ks l, allowed E = Some l ->
  exists ws, check_only_fuel E (VKeys ks) = Ok ws /\
    warned (fun x => item_known E x = true /\ ~ In x (all_fuel E)) ks ws.
Proof. exact only_fuel_warned. Qed.
Print Assumptions C81_only_fuel.
Theorem C81_smelts : forall E ks l, ingredients E = Some l ->
  exists ws, check_smelts E (VKeys ks) = Ok ws /\
    warned (fun x => module_known E x = false /\ ~ In x l) ks ws.
Proof. exact smelts_warned. Qed.
Print Assumptions C81_smelts.

(** "Every request is looked at": none of those an iterator yields. *)
Theorem C81_iterator_refuted : forall E k m old es ws rs, strict m -> convert E m (VIterator es) = (ws, Some (Some rs)) ->
  assign E k m old (VIterator es) = (VList (map Model rs), ws, None).
Proof. exact iterator. Qed.
Print Assumptions C81_iterator_refuted.

(** What may become of the items, the warnings and the exception. *)
Theorem C81_outcomes : forall E k m old v items ws e, assign E k m old v = (items, ws, e) ->
  match e with
  | Some DataFormatError => m <> MNone /\ items = old /\ ws = []
  | Some _ => strict m /\ items = v /\ ws = []
  | None => (m = MNone /\ items = (match v with VNone => VList [] | _ => v end) /\ ws = []) \/
            (m <> MNone /\ exists ws0 r, convert E m v = (ws0, Some r) /\
             items = match r with None => VList [] | Some rs => VList (map Model rs) end /\ exists ws1, ws = ws0 ++ ws1)
  end.
Proof. exact outcomes. Qed.
Print Assumptions C81_outcomes.

(** ** Examples *)
Definition game : world := mkWorld
  [(str "burner-mining-drill", mkProto (Some (mkSource (Some (str "burner")) (Some [str "chemical"]) None)) None);
   (str "electric-mining-drill", mkProto (Some (mkSource (Some (str "electric")) None None)) None);
   (str "nuclear-reactor", mkProto (Some (mkSource (Some (str "burner")) (Some [str "nuclear"]) None)) None);
   (str "burner-generator", mkProto (Some (mkSource (Some (str "electric")) None None))
                                    (Some (mkSource (Some (str "burner")) None None)))]
  [(str "chemical", [str "coal"; str "wood"]); (str "nuclear", [str "uranium-fuel-cell"])].
Example ex_fuels : extract_fuels [str "chemical"; str "nuclear"]
  [(str "coal", Some (str "chemical")); (str "iron-plate", None); (str "uranium-fuel-cell", Some (str "nuclear")); (str "wood", Some (str "chemical"))]
  = Ok (w_fuels game).
Proof. vm_compute. reflexivity. Qed.
Example ex_allowed : map (fun x => allowed_fuel_items (constructs [] [(game, fst x, snd x)]) (snd x))
  [(Drill, str "burner-mining-drill"); (Drill, str "electric-mining-drill"); (Reactor, str "nuclear-reactor");
   (BurnerGenerator, str "burner-generator"); (Furnace, str "oven")]
  = [Some [str "coal"; str "wood"]; Some []; Some [str "uranium-fuel-cell"]; Some [str "coal"; str "wood"]; None].
Proof. vm_compute. reflexivity. Qed.
Definition plain (s : string) : entry := Plain (Some (Long (Some (Some (str s))))) 0.
Definition as_request (e : entry) : option request :=
  match e with
  | Plain (Some (Short s)) z => Some (mkRequest (Some s) z)
  | Plain (Some (Long (Some n))) z => Some (mkRequest n z)
  | Model r => Some r
  | _ => None
  end.
Fixpoint requests (es : list entry) : option (list request) :=
  match es with
  | [] => Some []
  | e :: r => match as_request e, requests r with Some a, Some b => Some (a :: b) | _, _ => None end
  end.
Definition lax (m : mode) (v : value) : list warning * option (option (list request)) :=
  match v with
  | VNone => ([], Some None)
  | VList l | VIterator l => ([], match requests l with Some rs => Some (Some rs) | None => None end)
  | _ => ([], None)
  end.
Definition of (n : string) (k : kind) : env :=
  mkEnv lax (allowed_fuel_items (constructs [] [(game, k, str n)]) (str n)) (all_fuel_items (w_fuels game))
        (fun _ => true) (fun _ => false) (Some [str "iron-ore"]).
Example ex_faithful : faithful (of "burner-mining-drill" Drill).
Proof.
  intros m es ws rs ns C F. simpl in C. destruct (requests es) as [r|] eqn:R; [|discriminate].
  injection C as _ <-. revert r R. induction F as [|e n es ns W F IH]; simpl; intros r R.
  - injection R as <-. reflexivity.
  - destruct W; simpl in R; (destruct (requests es) as [q|]; [|discriminate]); injection R as <-; simpl; f_equal; apply IH; reflexivity.
Qed.
Example ex_drill : assign (of "burner-mining-drill" Drill) Drill MStrict (VList []) (VList [plain "coal"; plain "uranium-fuel-cell"; plain "iron-plate"])
  = (VList [Model (mkRequest (Some (str "coal")) 0); Model (mkRequest (Some (str "uranium-fuel-cell")) 0); Model (mkRequest (Some (str "iron-plate")) 0)],
     [FuelLimitation (str "uranium-fuel-cell") [str "coal"; str "wood"]], None).
Proof. vm_compute. reflexivity. Qed.
Example ex_furnace : assign (of "oven" Furnace) Furnace MStrict (VList []) (VList [plain "coal"]) = (VList [plain "coal"], [], Some TypeError).
Proof. vm_compute. reflexivity. Qed.
Example ex_short : assign (of "nuclear-reactor" Reactor) Reactor MPedantic (VList []) (VList [Plain (Some (Short (str "wood"))) 0])
  = (VList [Plain (Some (Short (str "wood"))) 0], [], Some TypeError).
Proof. vm_compute. reflexivity. Qed.
Example ex_minimum : assign (of "nuclear-reactor" Reactor) Reactor MMinimum (VList []) (VList [Plain (Some (Short (str "wood"))) 0])
  = (VList [Model (mkRequest (Some (str "wood")) 0)], [], None).
Proof. vm_compute. reflexivity. Qed.
Example ex_iterator : assign (of "nuclear-reactor" Reactor) Reactor MPedantic (VList []) (VIterator [plain "wood"])
  = (VList [Model (mkRequest (Some (str "wood")) 0)], [], None).
Proof. vm_compute. reflexivity. Qed.
Example ex_refused : assign (of "nuclear-reactor" Reactor) Reactor MStrict (VList [plain "wood"]) (VKeys [str "coal"])
  = (VList [plain "wood"], [], Some DataFormatError).
Proof. vm_compute. reflexivity. Qed.
Example ex_generator : check_only_fuel (of "burner-generator" BurnerGenerator) (VKeys [str "coal"; str "iron-plate"]) = Ok [ItemLimitation (str "iron-plate")] /\
  check_smelts (of "oven" Furnace) (VKeys [str "iron-ore"; str "coal"]) = Ok [ItemLimitation (str "coal")].
Proof. split; vm_compute; reflexivity. Qed.
Example ex_stops : construct (mkWorld [(str "d", mkProto (Some (mkSource (Some (str "burner")) (Some [str "nuclear"; str "x"; str "chemical"]) None)) None)] (w_fuels game))
  Drill (str "d") [] = ([(str "d", Some [str "uranium-fuel-cell"])], Some KeyError).
Proof. vm_compute. reflexivity. Qed.
