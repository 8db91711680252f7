(** Recipes, modules and what machines take (C66):
    /repo/draftsman/data/recipes.py 30-72, data/modules.py,
    environment/update.py 1265-1366 (the same functions in env.py),
    classes/mixins/recipe.py 36-143, classes/mixins/modules.py 128-156,
    prototypes/assembling_machine.py 153-181, prototypes/furnace.py 160-204,
    classes/mixins/request_items.py 88-90.

    Of the prototypes the fields read here are kept; a missing one is [None].
    Sets are lists.  Numbers are rationals.  A single effect given as a string has
    been made a list already.  [json] tables become lists or dictionaries in the
    way convert_table_to_dict has it; here they are of the type expected. *)
From Coq Require Import ZArith QArith List Bool String.
From Verif Require Import Common Dict Ranking_Model.
Import ListNotations.
Local Open Scope string_scope.
Local Open Scope list_scope.

Definition sdict := dict pystr.
Definition mem (x : pystr) (l : list pystr) : bool := existsb (pystr_eqb x) l.

(** An ingredient: a list, of which the first element counts, or a dictionary. *)
Inductive ing := IList (first : option pystr) | IDict (name : option pystr).
(** [rc_costs]: the ingredients under "normal" and "expensive". *)
Record recipe := mkRc {
  rc_proto : proto; rc_category : option pystr; rc_ingredients : option (list ing); rc_costs : sdict (list ing) }.
Record modul := mkMo {
  mo_proto : proto; mo_category : option pystr; mo_effect : option (sdict Q); mo_tier : option Z;
  mo_limit : option (list pystr); mo_black : option (list pystr) }.

(** ** recipes.py *)
Definition ing_name (i : ing) : result pystr :=
  match i with
  | IList (Some n) | IDict (Some n) => Ok n
  | IList None => Err IndexError
  | IDict None => Err KeyError
  end.
Fixpoint ing_names (l : list ing) : result (list pystr) :=
  match l with
  | [] => Ok []
  | i :: r => let* n := ing_name i in let* ns := ing_names r in Ok (n :: ns)
  end.
(** 30-72. *)
Definition get_recipe_ingredients (raw : sdict recipe) (name : option pystr) (expensive : bool) : result (option (list pystr)) :=
  match name with
  | None => Ok None
  | Some n =>
      match dget pystr_eqb raw n with
      | None => Ok None
      | Some r =>
          match rc_ingredients r with
          | Some l => let* s := ing_names l in Ok (Some s)
          | None =>
              match dget pystr_eqb (rc_costs r) (if expensive then str "expensive" else str "normal") with
              | Some l => let* s := ing_names l in Ok (Some s)
              | None => Err KeyError
              end
          end
      end
  end.

(** ** modules.py *)
Definition positive (e : sdict Q) : list pystr := map fst (filter (fun p => negb (Qle_bool (snd p) 0)) e).
(** 57-78: whether a module is passed over because of the recipe, and whether it
    is among the output. *)
Definition barred (m : modul) (recipe : option pystr) : bool :=
  match recipe with
  | None => false
  | Some r =>
      match mo_limit m with
      | Some l => if negb (mem r l) then true
                  else match mo_black m with Some b => mem r b | None => false end
      | None => match mo_black m with Some b => mem r b | None => false end
      end
  end.
Fixpoint modules_for (raw : sdict modul) (allowed : list pystr) (recipe : option pystr) : result (list pystr) :=
  match raw with
  | [] => Ok []
  | (n, m) :: raw' =>
      if barred m recipe then modules_for raw' allowed recipe
      else match mo_effect m with
           | None => Err KeyError
           | Some e =>
               let* r := modules_for raw' allowed recipe in
               Ok (if forallb (fun x => mem x allowed) (positive e) then n :: r else r)
           end
  end.
(** 48-80. *)
Definition get_modules_from_effects (raw : sdict modul) (allowed : option (list pystr)) (recipe : option pystr) : result (option (list pystr)) :=
  match allowed with
  | None => Ok None
  | Some a => let* l := modules_for raw a recipe in Ok (Some l)
  end.

Record mtables := mkMt { mt_raw : sdict modul; mt_categories : sdict (list pystr) }.
(** 16-21. *)
Definition add_module_category (t : mtables) (name : pystr) : mtables :=
  mkMt (mt_raw t) (dset pystr_eqb (mt_categories t) name []).
(** 24-45; [effect], [tier], [limit] and [black] are keyword arguments. *)
Definition add_module (t : mtables) (name category : pystr) (effect : option (sdict Q)) (tier : option Z)
    (limit black : option (list pystr)) : result mtables :=
  match dget pystr_eqb (mt_categories t) category with
  | None => Err TypeError
  | Some l =>
      let old := dget pystr_eqb (mt_raw t) name in
      let keep {A} (f : modul -> option A) : option A := match old with Some m => f m | None => None end in
      let orelse {A} (a b : option A) : option A := match a with Some _ => a | None => b end in
      let p := match old with Some m => mo_proto m | None => mkP None None None None None end in
      let new := mkMo (mkP (Some name) (p_type p) (p_order p) (p_subgroup p) (p_mined p)) (Some category)
                   (orelse (keep mo_effect) (orelse effect (Some [])))
                   (orelse (keep mo_tier) (orelse tier (Some 0%Z)))
                   (orelse limit (keep mo_limit)) (orelse black (keep mo_black)) in
      Ok (mkMt (dset pystr_eqb (mt_raw t) name new) (dset pystr_eqb (mt_categories t) category (l ++ [name])))
  end.

(** ** Extraction *)
Section Extract.
  Variable items : table proto.
  Variable subgroups : table subgroup.
  Variable groups : table group.

  (** update.py 1284-1290. *)
  Fixpoint sort_modules (unsorted : sdict modul) (names : list pystr) (t : mtables) : result mtables :=
    match names with
    | [] => Ok t
    | n :: ns =>
        let* m := need (dget pystr_eqb unsorted n) in
        let* c := need (mo_category m) in
        let* l := need (dget pystr_eqb (mt_categories t) c) in
        sort_modules unsorted ns
          (mkMt (dset pystr_eqb (mt_raw t) n m) (dset pystr_eqb (mt_categories t) c (l ++ [n])))
    end.
  (** update.py 1265-1296. *)
  Definition extract_modules (categories : list pystr) (modules : sdict modul) : result mtables :=
    let* names := get_order (map (fun p => mo_proto (snd p)) modules) items subgroups groups in
    sort_modules modules names (mkMt [] (dict_of pystr_eqb (map (fun c => (c, [])) categories))).

  (** update.py 1335-1338. *)
  Fixpoint sort_in (recipes : list (pystr * recipe)) (out : sdict (list pystr)) : result (sdict (list pystr)) :=
    match recipes with
    | [] => Ok out
    | (_, r) :: rest =>
        let c := match rc_category r with Some c => c | None => str "crafting" end in
        let* l := need (dget pystr_eqb out c) in
        let* n := need (p_name (rc_proto r)) in
        sort_in rest (dset pystr_eqb out c (l ++ [n]))
    end.
  (** 1344-1347. *)
  Fixpoint gather (out : sdict (list pystr)) (cats : list pystr) : result (list pystr) :=
    match cats with
    | [] => Ok []
    | c :: cs => let* l := need (dget pystr_eqb out c) in let* r := gather out cs in Ok (l ++ r)
    end.
  (** 1340-1347; a machine is its crafting categories. *)
  Fixpoint machines_of (out : sdict (list pystr)) (machines : list (pystr * option (list pystr))) (acc : sdict (list pystr)) : result (sdict (list pystr)) :=
    match machines with
    | [] => Ok acc
    | (m, cats) :: rest =>
        let* cs := need cats in
        let* l := gather out cs in
        machines_of out rest (dset pystr_eqb acc m l)
    end.
  (** 1351-1354. *)
  Fixpoint pick (unsorted : sdict recipe) (names : list pystr) (acc : sdict recipe) : result (sdict recipe) :=
    match names with
    | [] => Ok acc
    | n :: ns => let* r := need (dget pystr_eqb unsorted n) in pick unsorted ns (dset pystr_eqb acc n r)
    end.
  Record rtables := mkRt { rt_raw : sdict recipe; rt_categories : sdict (list pystr); rt_machine : sdict (list pystr) }.
  (** 1320-1358. *)
  Definition extract_recipes (categories : list pystr) (recipes : sdict recipe) (machines : list (pystr * option (list pystr))) : result rtables :=
    let* out := sort_in recipes (dict_of pystr_eqb (map (fun c => (c, [])) categories)) in
    let* fm := machines_of out machines [] in
    let* names := get_order (map (fun p => rc_proto (snd p)) recipes) items subgroups groups in
    let* raw := pick recipes names [] in
    Ok (mkRt raw out fm).
End Extract.

(** ** Machines *)
(** The prototype of an entity: its effects and crafting categories. *)
Record machine := mkMa { ma_effects : option (list pystr); ma_crafting : option (list pystr) }.
(** assembling_machine.py 153-163 and furnace.py 160-169. *)
Definition allowed_effects (entities : sdict machine) (name : pystr) : option (list pystr) :=
  match dget pystr_eqb entities name with
  | None => None
  | Some m => Some (match ma_effects m with Some l => l | None => [] end)
  end.
(** recipe.py 126-132. *)
Definition allowed_recipes (t : rtables) (name : pystr) : option (list pystr) := dget pystr_eqb (rt_machine t) name.
(** assembling_machine.py 176-181. *)
Definition allowed_modules (entities : sdict machine) (modules : sdict modul) (name : pystr) (recipe : option pystr) : result (option (list pystr)) :=
  get_modules_from_effects modules (allowed_effects entities name) recipe.
(** assembling_machine.py 169-174 and recipe.py 137-143. *)
Definition allowed_items (entities : sdict machine) (modules : sdict modul) (t : rtables) (name : pystr) (recipe : option pystr) : result (option (list pystr)) :=
  let* i := get_recipe_ingredients (rt_raw t) recipe false in
  match i with
  | None => Ok None
  | Some i =>
      let* m := allowed_modules entities modules name recipe in
      match m with None => Err AttributeError | Some m => Ok (Some (m ++ i)) end
  end.
(** furnace.py 174-204. *)
Fixpoint all_ingredients (raw : sdict recipe) (names : list pystr) : result (list pystr) :=
  match names with
  | [] => Ok []
  | n :: ns =>
      let* i := get_recipe_ingredients raw (Some n) false in
      match i with
      | None => Err TypeError
      | Some i => let* r := all_ingredients raw ns in Ok (i ++ r)
      end
  end.
Definition furnace_ingredients (entities : sdict machine) (t : rtables) (name : pystr) : result (option (list pystr)) :=
  match dget pystr_eqb entities name with
  | None => Ok None
  | Some m =>
      let* cs := need (ma_crafting m) in
      let* l := gather (rt_categories t) cs in
      let* r := all_ingredients (rt_raw t) l in
      Ok (Some r)
  end.

(** The two classes with a recipe: an assembling machine and a rocket silo, which
    does not override [allowed_items] (request_items.py 88-90). *)
Inductive kind := Assembler | Silo.
Inductive warning := UnknownRecipe | RecipeLimitation | ItemLimitation.
(** recipe.py 100-113: the first requested item that does not fit. *)
Fixpoint check_items (allowed : result (option (list pystr))) (requested : list pystr) : result (list warning) :=
  match requested with
  | [] => Ok []
  | i :: r =>
      let* a := allowed in
      match a with
      | None => Err TypeError
      | Some l => if mem i l then check_items allowed r else Ok [ItemLimitation]
      end
  end.
(** Setting the recipe with validation beyond "minimum": recipe.py 36-115 and
    170-176.  The recipe has been stored before; what is returned are the
    warnings. *)
Definition set_recipe (k : kind) (entities : sdict machine) (modules : sdict modul) (t : rtables)
    (name : pystr) (requested : list pystr) (v : option pystr) : result (list warning) :=
  match v with
  | None => Ok []
  | Some r =>
      let known := match dget pystr_eqb (rt_raw t) r with Some _ => true | None => false end in
      let w1 := if known then [] else [UnknownRecipe] in
      let w2 := match allowed_recipes t name with
                | None => []
                | Some l => if known && negb (mem r l) then [RecipeLimitation] else []
                end in
      let* w3 := check_items (match k with Assembler => allowed_items entities modules t name (Some r) | Silo => Ok None end) requested in
      Ok (w1 ++ w2 ++ w3)
  end.

(** The two fields with their properties: recipe.py 148-204.  [set_recipe] gives
    the outcome of the validation; the field has been assigned before and is
    assigned again after.  A quality is one of five or [None]; anything else is
    an error of the format, after which the field keeps it too. *)
Record crafter := mkCr { cr_recipe : option pystr; cr_quality : option pystr }.
Definition get_recipe (c : crafter) : option pystr := cr_recipe c.
Definition get_recipe_quality (c : crafter) : option pystr := cr_recipe c.
Definition assign_recipe (k : kind) (entities : sdict machine) (modules : sdict modul) (t : rtables)
    (name : pystr) (requested : list pystr) (validate : bool) (v : option pystr) (c : crafter) : crafter * result (list warning) :=
  (mkCr v (cr_quality c), if validate then set_recipe k entities modules t name requested v else Ok []).
Definition qualities : list pystr := [str "normal"; str "uncommon"; str "rare"; str "epic"; str "legendary"].
Definition assign_quality (validate : bool) (v : option pystr) (c : crafter) : crafter * result (list warning) :=
  (mkCr (cr_recipe c) v,
   match v with
   | Some q => if validate && negb (mem q qualities) then Err DataFormatError else Ok []
   | None => Ok []
   end).
