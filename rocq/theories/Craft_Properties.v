(** C66: recipes, modules and what machines take
    (/repo/draftsman/data/recipes.py, data/modules.py, environment/update.py
    1265-1358, classes/mixins/recipe.py, prototypes/furnace.py). *)
From Coq Require Import ZArith QArith List Bool String Permutation.
From Verif Require Import Common Dict Ranking_Model Ranking_Spec Craft_Model Craft_Spec Craft_Proofs.
Import ListNotations.
Local Open Scope string_scope.
Local Open Scope list_scope.

(** The ingredients of a recipe are the names in its list, of the cost asked for
    when it has two; [None] exactly for an unknown recipe. *)
Theorem C66_ingredients : forall raw n e,
  (forall s, get_recipe_ingredients raw (Some n) e = Ok (Some s) <->
     exists r l, dget pystr_eqb raw n = Some r /\ cost r e = Some l /\ Forall2 named l s) /\
  (get_recipe_ingredients raw (Some n) e = Ok None <-> dget pystr_eqb raw n = None) /\
  (forall x, get_recipe_ingredients raw (Some n) e = Err x ->
     (x = KeyError /\ exists r, dget pystr_eqb raw n = Some r /\
        (cost r e = None \/ exists l, cost r e = Some l /\ In (IDict None) l)) \/
     (x = IndexError /\ exists r l, dget pystr_eqb raw n = Some r /\ cost r e = Some l /\ In (IList None) l)).
Proof. exact ingredients_ok. Qed.
Print Assumptions C66_ingredients.

(** The modules offered are those whose raised effects are all allowed and whose
    limitations admit the recipe. *)
Theorem C66_modules : forall raw a recipe,
  (forall out, get_modules_from_effects raw (Some a) recipe = Ok (Some out) ->
     forall n, In n out <-> exists m, In (n, m) raw /\ fits m a recipe) /\
  ((exists out, get_modules_from_effects raw (Some a) recipe = Ok (Some out)) <->
     (forall n m, In (n, m) raw -> permits m recipe -> mo_effect m <> None)) /\
  (forall e, get_modules_from_effects raw (Some a) recipe = Err e -> e = KeyError).
Proof. exact modules_ok_thm. Qed.
Print Assumptions C66_modules.
(** More effects and no recipe never offer less. *)
Theorem C66_modules_mono : forall raw a b recipe out out', incl a b ->
  get_modules_from_effects raw (Some a) recipe = Ok (Some out) ->
  get_modules_from_effects raw (Some b) None = Ok (Some out') -> incl out out'.
Proof. exact modules_mono. Qed.
Print Assumptions C66_modules_mono.

(** Adding a module: what it already had of effect and tier wins over what is
    given, the limitations given win over those it had; it is appended to its
    category; nothing else changes. *)
Theorem C66_add_module : forall t name c effect tier limit black,
  ((exists t', add_module t name c effect tier limit black = Ok t') <-> dget pystr_eqb (mt_categories t) c <> None) /\
  (forall e, add_module t name c effect tier limit black = Err e -> e = TypeError) /\
  (forall t', add_module t name c effect tier limit black = Ok t' ->
     (exists m, dget pystr_eqb (mt_raw t') name = Some m /\ p_name (mo_proto m) = Some name /\ mo_category m = Some c /\
        let old := dget pystr_eqb (mt_raw t) name in
        ((exists o e, old = Some o /\ mo_effect o = Some e /\ mo_effect m = Some e) \/
         ((forall o, old = Some o -> mo_effect o = None) /\
          (effect <> None /\ mo_effect m = effect \/ effect = None /\ mo_effect m = Some []))) /\
        ((exists o e, old = Some o /\ mo_tier o = Some e /\ mo_tier m = Some e) \/
         ((forall o, old = Some o -> mo_tier o = None) /\
          (tier <> None /\ mo_tier m = tier \/ tier = None /\ mo_tier m = Some 0%Z))) /\
        (limit <> None -> mo_limit m = limit) /\ (black <> None -> mo_black m = black) /\
        (limit = None -> mo_limit m = match old with Some o => mo_limit o | None => None end) /\
        (black = None -> mo_black m = match old with Some o => mo_black o | None => None end)) /\
     (forall n', n' <> name -> dget pystr_eqb (mt_raw t') n' = dget pystr_eqb (mt_raw t) n') /\
     (forall c', c' <> c -> dget pystr_eqb (mt_categories t') c' = dget pystr_eqb (mt_categories t) c') /\
     (exists l, dget pystr_eqb (mt_categories t) c = Some l /\ dget pystr_eqb (mt_categories t') c = Some (l ++ [name]))).
Proof. exact add_module_ok. Qed.
Print Assumptions C66_add_module.

(** Whatever is added, every module is listed under its category, if no category
    is added twice. *)
Theorem C66_history : forall l t known, (forall c, dget pystr_eqb (mt_categories t) c <> None -> In c known) ->
  fresh_categories known l -> listed t -> listed (perform_all l t).
Proof. exact history_listed. Qed.
Print Assumptions C66_history.
(** Added again, a category loses its modules. *)
Theorem C66_history_refuted : exists l, ~ listed (perform_all l (mkMt [] [])).
Proof.
  exists [ACategory (str "speed"); AModule (str "m") (str "speed") None None None None; ACategory (str "speed")].
  intros L. destruct (L (str "m") _ (str "speed") eq_refl eq_refl) as (l & E & I). vm_compute in E. inversion E; subst. exact I.
Qed.
Print Assumptions C66_history_refuted.
(** A module that is moved stays listed in its old category too, and one added
    twice is listed twice. *)
Theorem C66_once_refuted : exists l n c, let t := perform_all l (mkMt [] []) in
  (exists m c', dget pystr_eqb (mt_raw t) n = Some m /\ mo_category m = Some c' /\ c' <> c) /\
  exists k, dget pystr_eqb (mt_categories t) c = Some k /\ In n k /\ ~ NoDup k.
Proof.
  exists [ACategory (str "a"); ACategory (str "b"); AModule (str "m") (str "a") None None None None;
          AModule (str "m") (str "a") None None None None; AModule (str "m") (str "b") None None None None], (str "m"), (str "a").
  cbn zeta. split.
  - eexists. exists (str "b"). split; [vm_compute; reflexivity|]. split; [reflexivity|discriminate].
  - exists [str "m"; str "m"]. split; [vm_compute; reflexivity|]. split; [left; reflexivity|]. intros D. inversion D as [|? ? N]. apply N. left. reflexivity.
Qed.
Print Assumptions C66_once_refuted.

(** The extracted recipes are those of the game in the order of [get_order]; a
    category holds the recipes of that category, a machine those of its
    categories. *)
Theorem C66_extract : forall items subgroups groups categories recipes machines t, recipes_ok recipes -> NoDup (map fst machines) ->
  extract_recipes items subgroups groups categories recipes machines = Ok t ->
  Permutation recipes (rt_raw t) /\
  get_order (map (fun p => rc_proto (snd p)) recipes) items subgroups groups = Ok (map fst (rt_raw t)) /\
  (forall c, dget pystr_eqb (rt_categories t) c = if in_dec pystr_eq_dec c categories
     then Some (map fst (filter (fun p => pystr_eqb (category_of (snd p)) c) recipes)) else None) /\
  (forall m cs, In (m, Some cs) machines -> exists l, dget pystr_eqb (rt_machine t) m = Some l /\
     forall n, In n l <-> exists r, In (n, r) recipes /\ In (category_of r) cs) /\
  (forall m, ~ In m (map fst machines) -> dget pystr_eqb (rt_machine t) m = None).
Proof. exact extract_recipes_ok. Qed.
Print Assumptions C66_extract.
(** It succeeds exactly when every category named is a category and every recipe
    has a place in the order. *)
Theorem C66_extract_iff : forall items subgroups groups categories recipes machines, recipes_ok recipes ->
  ((exists t, extract_recipes items subgroups groups categories recipes machines = Ok t) <->
    ((forall n r, In (n, r) recipes -> In (category_of r) categories /\ exists k, ranked items subgroups groups (rc_proto r) k) /\
     (forall m cs, In (m, cs) machines -> exists l, cs = Some l /\ incl l categories))) /\
  (forall e, extract_recipes items subgroups groups categories recipes machines = Err e -> e = KeyError).
Proof. exact extract_recipes_iff. Qed.
Print Assumptions C66_extract_iff.

(** The extracted modules are those of the game in the order of [get_order], and
    a category holds its modules in that order. *)
Theorem C66_extract_modules : forall items subgroups groups categories modules t, modules_ok modules ->
  extract_modules items subgroups groups categories modules = Ok t ->
  Permutation modules (mt_raw t) /\
  get_order (map (fun p => mo_proto (snd p)) modules) items subgroups groups = Ok (map fst (mt_raw t)) /\
  (forall c, dget pystr_eqb (mt_categories t) c = if in_dec pystr_eq_dec c categories
     then Some (map fst (filter (fun p => match mo_category (snd p) with Some c' => pystr_eqb c' c | None => false end) (mt_raw t))) else None) /\
  listed t.
Proof. exact extract_modules_ok. Qed.
Print Assumptions C66_extract_modules.
Theorem C66_extract_modules_iff : forall items subgroups groups categories modules, modules_ok modules ->
  ((exists t, extract_modules items subgroups groups categories modules = Ok t) <->
    (forall n m, In (n, m) modules -> (exists c, mo_category m = Some c /\ In c categories) /\ exists k, ranked items subgroups groups (mo_proto m) k)) /\
  (forall e, extract_modules items subgroups groups categories modules = Err e -> e = KeyError).
Proof. exact extract_modules_iff. Qed.
Print Assumptions C66_extract_modules_iff.

(** A furnace takes what some recipe of its categories takes. *)
Theorem C66_furnace : forall entities t name m, dget pystr_eqb entities name = Some m ->
  (forall out, furnace_ingredients entities t name = Ok (Some out) ->
     forall x, In x out <-> exists cs c l n r, ma_crafting m = Some cs /\ In c cs /\ dget pystr_eqb (rt_categories t) c = Some l /\ In n l /\
       dget pystr_eqb (rt_raw t) n = Some r /\ takes r x) /\
  ((exists out, furnace_ingredients entities t name = Ok (Some out)) <->
     exists cs, ma_crafting m = Some cs /\ forall c, In c cs -> exists l, dget pystr_eqb (rt_categories t) c = Some l /\
       forall n, In n l -> exists r, dget pystr_eqb (rt_raw t) n = Some r /\ complete r).
Proof. exact furnace_ok. Qed.
Print Assumptions C66_furnace.

(** An assembling machine set to a known recipe warns exactly of a recipe that is
    not one of the machine's and of a requested item that is neither an
    ingredient nor a module fitting the machine and the recipe. *)
Theorem C66_set_recipe : forall entities modules t name requested r mrec m, dget pystr_eqb (rt_raw t) r = Some mrec -> complete mrec ->
  dget pystr_eqb entities name = Some m -> (forall n mo, In (n, mo) modules -> mo_effect mo <> None) ->
  exists ws, set_recipe Assembler entities modules t name requested (Some r) = Ok ws /\
    (~ In UnknownRecipe ws) /\
    (In RecipeLimitation ws <-> exists l, dget pystr_eqb (rt_machine t) name = Some l /\ ~ In r l) /\
    (In ItemLimitation ws <-> exists i, In i requested /\ ~ takes mrec i /\
       ~ exists mo, In (i, mo) modules /\ fits mo (match ma_effects m with Some l => l | None => [] end) (Some r)).
Proof. exact set_recipe_ok. Qed.
Print Assumptions C66_set_recipe.
(** An unknown recipe is only warned of as long as nothing is requested; else the
    assignment fails. *)
Theorem C66_unknown_recipe : forall entities modules t name r k, dget pystr_eqb (rt_raw t) r = None ->
  set_recipe k entities modules t name [] (Some r) = Ok [UnknownRecipe] /\
  forall i requested, set_recipe k entities modules t name (i :: requested) (Some r) = Err TypeError.
Proof. exact set_recipe_unknown. Qed.
Print Assumptions C66_unknown_recipe.
(** So does any recipe for a silo with requests, and a known recipe for an unknown
    machine with requests. *)
Theorem C66_silo : forall entities modules t name r i requested,
  set_recipe Silo entities modules t name (i :: requested) (Some r) = Err TypeError.
Proof. exact set_recipe_silo. Qed.
Print Assumptions C66_silo.
Theorem C66_unknown_machine : forall entities modules t name r mrec i requested, dget pystr_eqb (rt_raw t) r = Some mrec -> complete mrec ->
  dget pystr_eqb entities name = None -> set_recipe Assembler entities modules t name (i :: requested) (Some r) = Err AttributeError.
Proof. exact set_recipe_machine. Qed.
Print Assumptions C66_unknown_machine.

(** Whatever comes of an assignment, the value is stored and the other field is
    kept. *)
Theorem C66_fields : forall k entities modules t name requested validate c v,
  let (c', r) := assign_recipe k entities modules t name requested validate v c in
  let (c'', q) := assign_quality validate v c in
  get_recipe c' = v /\ cr_quality c' = cr_quality c /\ (validate = false -> r = Ok []) /\
  cr_quality c'' = v /\ get_recipe c'' = get_recipe c /\
  ((exists e, q = Err e) <-> validate = true /\ exists x, v = Some x /\ ~ In x [str "normal"; str "uncommon"; str "rare"; str "epic"; str "legendary"]).
Proof. exact fields_ok. Qed.
Print Assumptions C66_fields.
(** The quality assigned is read back only when the recipe is the same: reading
    the quality gives the recipe. *)
Theorem C66_quality_refuted : exists v c, snd (assign_quality true v c) = Ok [] /\ get_recipe_quality (fst (assign_quality true v c)) <> v.
Proof. exists (Some (str "rare")), (mkCr (Some (str "gear")) None). split; [reflexivity|discriminate]. Qed.
Print Assumptions C66_quality_refuted.

(** Examples. *)
Definition ex_p n := mkP (Some n) (Some (str "recipe")) (Some (str "a")) (Some (str "s")) None.
Definition ex_recipes : sdict recipe :=
  [(str "gear", mkRc (ex_p (str "gear")) None (Some [IList (Some (str "iron"))]) []);
   (str "acid", mkRc (ex_p (str "acid")) (Some (str "chemistry")) None
      [(str "normal", [IDict (Some (str "water")); IDict (Some (str "sulfur"))]); (str "expensive", [IDict (Some (str "gold"))])])].
Definition ex_modules : sdict modul :=
  [(str "speed", mkMo (ex_p (str "speed")) (Some (str "m")) (Some [(str "speed", 1#5); (str "pollution", (-1)#5)]) None None None);
   (str "prod", mkMo (ex_p (str "prod")) (Some (str "m")) (Some [(str "productivity", 1#10)]) None (Some [str "gear"]) None)].
Definition ex_t : rtables := mkRt ex_recipes [(str "crafting", [str "gear"]); (str "chemistry", [str "acid"])] [(str "asm", [str "gear"])].
Definition ex_entities : sdict machine := [(str "asm", mkMa (Some [str "speed"; str "productivity"]) (Some [str "crafting"; str "chemistry"]))].
Example C66_ex_ingredients :
  get_recipe_ingredients ex_recipes (Some (str "acid")) false = Ok (Some [str "water"; str "sulfur"]) /\
  get_recipe_ingredients ex_recipes (Some (str "acid")) true = Ok (Some [str "gold"]) /\
  get_recipe_ingredients ex_recipes (Some (str "x")) true = Ok None.
Proof. vm_compute. auto. Qed.
Example C66_ex_modules :
  get_modules_from_effects ex_modules (Some [str "speed"; str "productivity"]) (Some (str "gear")) = Ok (Some [str "speed"; str "prod"]) /\
  get_modules_from_effects ex_modules (Some [str "speed"; str "productivity"]) (Some (str "acid")) = Ok (Some [str "speed"]) /\
  get_modules_from_effects ex_modules (Some [str "productivity"]) None = Ok (Some [str "prod"]).
Proof. vm_compute. auto. Qed.
Example C66_ex_extract : exists t,
  extract_recipes [] [(str "s", mkS (Some (str "s")) (Some (str "a")) (Some (str "g")))] [(str "g", mkG (Some (str "g")) (Some (str "a")))]
    [str "crafting"; str "chemistry"; str "rest"] ex_recipes
    [(str "asm", Some [str "crafting"]); (str "plant", Some [str "chemistry"; str "crafting"])] = Ok t /\
  map fst (rt_raw t) = [str "acid"; str "gear"] /\
  rt_categories t = [(str "crafting", [str "gear"]); (str "chemistry", [str "acid"]); (str "rest", [])] /\
  rt_machine t = [(str "asm", [str "gear"]); (str "plant", [str "acid"; str "gear"])].
Proof. eexists. split; [vm_compute; reflexivity|]. vm_compute. auto. Qed.
Example C66_ex_set :
  set_recipe Assembler ex_entities ex_modules ex_t (str "asm") [str "iron"; str "prod"] (Some (str "gear")) = Ok [] /\
  set_recipe Assembler ex_entities ex_modules ex_t (str "asm") [str "prod"] (Some (str "acid")) = Ok [RecipeLimitation; ItemLimitation].
Proof. vm_compute. auto. Qed.
Example C66_ex_furnace : furnace_ingredients ex_entities ex_t (str "asm") = Ok (Some [str "iron"; str "water"; str "sulfur"]).
Proof. vm_compute. reflexivity. Qed.
