(** C69: tables of the game's data, fluids and tiles
    (/repo/draftsman/environment/update.py 713-731, 1640-1668, data/fluids.py,
    data/tiles.py, classes/tile.py 230-232). *)
From Coq Require Import ZArith QArith List Bool String Permutation Sorting.Sorted.
From Verif Require Import Common Dict Ranking_Spec Shelf_Model Shelf_Spec Table_Model Table_Spec Table_Proofs.
Import ListNotations.
Local Open Scope string_scope.
Local Open Scope list_scope.

(** A table with a string among its keys becomes a dictionary with the same keys
    in the same order, any other the list of its values. *)
Theorem C69_table : forall d,
  ((exists s v, In (KStr s, v) d) -> convert (LTab d) = PDict (combine (map fst d) (map convert (map snd d)))) /\
  ((forall s v, ~ In (KStr s, v) d) -> convert (LTab d) = PList (map convert (map snd d))).
Proof. exact convert_table. Qed.
Print Assumptions C69_table.
(** Whatever is written in Lua is read back, and only numbering other than from
    one is lost. *)
Theorem C69_inverse : (forall v, named v -> orderly (lua_of v) /\ convert (lua_of v) = v) /\
  (forall t, named (convert t) /\ (orderly t <-> lua_of (convert t) = t)).
Proof. exact inverse. Qed.
Print Assumptions C69_inverse.
(** Lists with gaps are closed up ... *)
Theorem C69_gaps_refuted : exists t t', t <> t' /\ orderly t /\ convert t = convert t'.
Proof. exact not_injective. Qed.
Print Assumptions C69_gaps_refuted.
(** ... and an empty dictionary comes back as a list. *)
Theorem C69_empty_refuted : exists v, convert (lua_of v) <> v /\ v = PDict [].
Proof. exact empty_dict_list. Qed.
Print Assumptions C69_empty_refuted.

(** The tiles are extracted exactly if all have a mask that can be made a set; the
    first that has not decides the exception. *)
Theorem C69_tiles_iff : forall tiles,
  (exists out, extract_tiles tiles = Ok out) <-> forall n t, In (n, t) tiles -> good_tile t.
Proof. exact extract_iff. Qed.
Print Assumptions C69_tiles_iff.
Theorem C69_tiles_error : forall tiles e, extract_tiles tiles = Err e ->
  exists l1 n t l2, tiles = l1 ++ (n, t) :: l2 /\ (forall m u, In (m, u) l1 -> good_tile u) /\ ~ good_tile t /\
    (e = KeyError /\ rt_mask t = None \/ e = TypeError /\ rt_mask t <> None).
Proof. exact extract_err. Qed.
Print Assumptions C69_tiles_error.
(** Then all are there once, by order (missing ones last) and name, each with what
    its mask shows. *)
Theorem C69_tiles : forall tiles out, NoDup (map fst tiles) -> extract_tiles tiles = Ok out ->
  Permutation (map fst out) (map fst tiles) /\ StronglySorted (fun p q => place_lt (tile_place p) (tile_place q)) out /\
  (forall n t, In (n, t) tiles -> exists t', dget pystr_eqb out n = Some t' /\ kept t t') /\
  (forall n t', dget pystr_eqb out n = Some t' -> exists t, In (n, t) tiles /\ kept t t').
Proof. exact extract_ok. Qed.
Print Assumptions C69_tiles.
(** Which is only the keys: what a mask holds under them makes no difference ... *)
Theorem C69_mask : forall d d', (exists s v, In (KStr s, v) d) -> map fst d = map fst d' ->
  set_of (convert (LTab d)) = set_of (convert (LTab d')).
Proof. exact mask_keys. Qed.
Print Assumptions C69_mask.
(** ... so that masks do not list layers: land and sea collide with the same. *)
Theorem C69_mask_refuted : exists out m,
  extract_tiles [(str "water", mkRT (Some (str "b")) (Some sea)); (str "grass", mkRT (Some (str "a")) (Some land))] = Ok out /\
  collision_mask out (str "water") = Some m /\ collision_mask out (str "grass") = Some m /\ ~ In (SStr (str "water_tile")) m.
Proof. exact land_sea. Qed.
Print Assumptions C69_mask_refuted.
(** After any additions a tile has the mask added last, or the one it had. *)
Theorem C69_add_tile : forall ops raw n,
  collision_mask (added raw ops) n = match last_of n ops with Some m => Some m | None => collision_mask raw n end.
Proof. exact added_mask. Qed.
Print Assumptions C69_add_tile.

(** Only tiles that are known have one. *)
Theorem C69_known : forall raw n, collision_mask raw n = None <-> ~ In n (map fst raw).
Proof. exact mask_known. Qed.
Print Assumptions C69_known.

(** The range of a fluid runs from its default temperature to its highest, if it
    has one. *)
Theorem C69_range : forall raw n,
  (forall a b, get_temperature_range raw n = Ok (a, b) <-> exists f, dget pystr_eqb raw n = Some f /\ f_default f = Some a /\ (f_max f = Some b \/ f_max f = None /\ b = a)) /\
  (forall e, get_temperature_range raw n = Err e <->
     e = DraftsmanError /\ dget pystr_eqb raw n = None \/ e = KeyError /\ exists f, dget pystr_eqb raw n = Some f /\ f_default f = None).
Proof. exact range_spec. Qed.
Print Assumptions C69_range.
(** After any additions an added fluid has the temperatures given last, else those
    it had, else 25; the others are as they were. *)
Theorem C69_add_fluid : forall raw ops n a b, about n ops ->
  (get_temperature_range (supplied raw ops) n = Ok (a, b) <->
   a = match told k_default n ops with
       | Some a => a
       | None => match dget pystr_eqb raw n with Some (mkFluid _ (Some a) _) => a | _ => 25%Q end
       end /\
   b = match told k_max n ops with
       | Some b => b
       | None => match dget pystr_eqb raw n with Some (mkFluid _ _ (Some b)) => b | _ => a end
       end).
Proof. exact supplied_range. Qed.
Print Assumptions C69_add_fluid.
Theorem C69_other_fluids : forall raw ops n, ~ about n ops -> dget pystr_eqb (supplied raw ops) n = dget pystr_eqb raw n.
Proof. exact supplied_same. Qed.
Print Assumptions C69_other_fluids.
(** Modifying a fluid loses its order unless it is given again ... *)
Theorem C69_order_refuted : exists raw n f o kw, dget pystr_eqb raw n = Some f /\ f_order f = Some o /\
  match dget pystr_eqb (add_fluid raw n None kw) n with Some f' => f_order f' <> Some o | None => True end.
Proof. exact order_lost. Qed.
Print Assumptions C69_order_refuted.
(** ... and may leave a range no temperature is in. *)
Theorem C69_range_refuted : exists raw n kw a b a' b', get_temperature_range raw n = Ok (a, b) /\ (a <= b)%Q /\
  get_temperature_range (add_fluid raw n None kw) n = Ok (a', b') /\ forall t, ~ (a' <= t /\ t <= b')%Q.
Proof. exact range_empty. Qed.
Print Assumptions C69_range_refuted.

Example C69_tiles_example :
  extract_tiles [(str "b", mkRT None (Some land)); (str "a", mkRT None (Some (LTab [(KInt 1, LVal (SStr (str "ground-tile")))]))); (str "c", mkRT (Some (str "z")) (Some (LTab [])))] =
  Ok [(str "c", mkTile (Some (str "z")) []); (str "a", mkTile None [SStr (str "ground-tile")]); (str "b", mkTile None [SStr (str "layers")])].
Proof. vm_compute. reflexivity. Qed.
Example C69_fluid_example :
  let raw := supplied [(str "water", mkFluid (Some (str "a")) (Some 15%Q) (Some 100%Q))]
    [(str "mud", None, mkTemps None None); (str "water", None, mkTemps None (Some 90%Q)); (str "mud", Some (str "m"), mkTemps (Some 30%Q) None)] in
  get_temperature_range raw (str "water") = Ok (15, 90)%Q /\ get_temperature_range raw (str "mud") = Ok (30, 30)%Q /\
  get_temperature_range raw (str "oil") = Err DraftsmanError.
Proof. vm_compute. repeat split. Qed.
