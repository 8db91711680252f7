(** C72: short forms mean what the long forms say. *)
From Coq Require Import ZArith NArith String List Bool.
From Verif Require Import Common Assign_Model Shorthand_Model Shorthand_Spec Shorthand_Proofs.
Import ListNotations.
Local Open Scope string_scope.
Local Open Scope list_scope.
Local Open Scope Z_scope.

(** Lists and tuples of names become lists of dicts that carry the name and the
    place counted from 1; other entries stay, at their place. *)
Theorem C72_filters : forall v l, v = PList l \/ v = PTuple l ->
  exists l', normalize_filters v = PList l' /\ entrywise named_at l l'.
Proof. exact filters_at. Qed.
Print Assumptions C72_filters.
Theorem C72_filters_other : forall v, (forall l, v <> PList l) -> (forall l, v <> PTuple l) -> normalize_filters v = v.
Proof. exact filters_other. Qed.
Print Assumptions C72_filters_other.
Theorem C72_icons : forall v l, v = PList l \/ v = PTuple l ->
  exists l', normalize_blueprint_icons v = PList l' /\ entrywise icon_at l l'.
Proof. exact blueprint_icons_at. Qed.
Print Assumptions C72_icons.
Theorem C72_icons_other : forall v, (forall l, v <> PList l) -> (forall l, v <> PTuple l) -> normalize_blueprint_icons v = v.
Proof. exact blueprint_icons_other. Qed.
Print Assumptions C72_icons_other.
(** Priorities are read as filters are, but strings and dicts are taken apart. *)
Theorem C72_priorities : forall v, normalize_priorities v = normalize_filters v <->
  (forall s, v <> PStr s) /\ (forall d, v <> PDict d).
Proof. exact priorities_filters. Qed.
Print Assumptions C72_priorities.
Theorem C72_priorities_text_refuted : forall s,
  exists l', normalize_priorities (PStr s) = PList l' /\ List.length l' = List.length s /\
  forall i c, nth_error s i = Some c ->
    nth_error l' i = Some (PDict [(str "index", PInt (Z.of_nat i + 1)); (str "name", PStr [c])]).
Proof. exact priorities_text_refuted. Qed.
Print Assumptions C72_priorities_text_refuted.
(** Icons of planners: names must be known, dicts with a type are wrapped. *)
Theorem C72_planner_icons : forall sd v l, v = PList l \/ v = PTuple l ->
  match normalize_planner_icons sd v with
  | Ok w => exists l', w = PList l' /\ entrywise (planner_icon_at sd) l l'
  | Err x => x = DraftsmanError /\ exists s, In (PStr s) l /\ sd s = None
  end.
Proof. exact planner_icons_spec. Qed.
Print Assumptions C72_planner_icons.
Theorem C72_planner_icons_other : forall sd v, (forall l, v <> PList l) -> (forall l, v <> PTuple l) -> normalize_planner_icons sd v = Ok v.
Proof. exact planner_icons_other. Qed.
Print Assumptions C72_planner_icons_other.
(** Planners and blueprints come to the same icons; for unknown names the errors
    differ, and a signal as a dict is an icon for the one and not for the other. *)
Theorem C72_icons_agree : forall sd names,
  (forall n d, sd n = Some d -> forall s, d <> PStr s) ->
  match normalize_planner_icons sd (PList (map PStr names)), normalize_blueprint_icons (PList (map PStr names)) with
  | Ok (PList a), PList b =>
      exists a' b', finish_icons sd a = Ok a' /\ finish_icons sd b = Ok b' /\ Forall2 same_fields a' b'
  | Err x, PList b => x = DraftsmanError /\ finish_icons sd b = Err DataFormatError
  | _, _ => False
  end.
Proof. exact icons_agree. Qed.
Print Assumptions C72_icons_agree.
Theorem C72_icons_dict_refuted : forall sd n t,
  let e := PDict [(str "name", n); (str "type", t)] in
  normalize_planner_icons sd (PList [e]) = Ok (PList [PDict [(str "index", PInt 1); (str "signal", e)]]) /\
  normalize_blueprint_icons (PList [e]) = PList [e].
Proof. exact icons_dict_refuted. Qed.
Print Assumptions C72_icons_dict_refuted.
(** Pairs become dicts with their place counted from 0, without the sides that are
    empty; one pair that is too short leaves everything as it was. *)
Theorem C72_mappers : forall v l, v = PList l \/ v = PTuple l ->
  (Forall (fun m => ~ short m) l /\ exists l', normalize_mappers v = PList l' /\ entrywise mapper_at l l') \/
  (Exists short l /\ normalize_mappers v = v).
Proof. exact mappers_spec. Qed.
Print Assumptions C72_mappers.
Theorem C72_mappers_text_refuted : forall a b s,
  normalize_mappers (PList [PStr (a :: b :: s)]) =
    PList [PDict [(str "index", PInt 0); (str "from", PStr [a]); (str "to", PStr [b])]].
Proof. exact mappers_text_refuted. Qed.
Print Assumptions C72_mappers_text_refuted.
(** Colours and conditions, exactly; what is too short is an IndexError. *)
Theorem C72_color : forall v,
  match normalize_color v with
  | Ok w => ((forall l, v <> PList l) /\ (forall l, v <> PTuple l) /\ w = v) \/
            exists l r g b rest, (v = PList l \/ v = PTuple l) /\ l = r :: g :: b :: rest /\
              exists d, w = PDict d /\
                forall k x, In (k, x) d <-> (k = str "r" /\ x = r) \/ (k = str "g" /\ x = g) \/ (k = str "b" /\ x = b) \/
                                         (k = str "a" /\ nth_error l 3 = Some x)
  | Err x => x = IndexError /\ exists l, (v = PList l \/ v = PTuple l) /\ (List.length l < 3)%nat
  end.
Proof. exact color_spec. Qed.
Print Assumptions C72_color.
Theorem C72_condition : forall v,
  match normalize_condition v with
  | Ok w => ((forall l, ~ elements v l) /\ w = v) \/
            exists a c b rest k, elements v (a :: c :: b :: rest) /\
              w = PDict [(str "first_signal", a); (str "comparator", c); (k, b)] /\
              ((number b /\ k = str "constant") \/ (~ number b /\ k = str "second_signal"))
  | Err x => x = IndexError /\ exists l, elements v l /\ (List.length l < 3)%nat
  end.
Proof. exact condition_spec. Qed.
Print Assumptions C72_condition.
Theorem C72_condition_text_refuted : forall a b c s,
  normalize_condition (PStr (a :: b :: c :: s)) =
    Ok (PDict [(str "first_signal", PStr [a]); (str "comparator", PStr [b]); (str "second_signal", PStr [c])]).
Proof. exact condition_text_refuted. Qed.
Print Assumptions C72_condition_text_refuted.
(** Versions: the number, and that the three copies agree on lists. *)
Theorem C72_version : forall v l a b c d,
  v = PList l \/ v = PTuple l ->
  l = [PInt a; PInt b; PInt c; PInt d] \/ (l = [PInt a; PInt b; PInt c] /\ d = 0) \/ (l = [PInt a; PInt b] /\ c = 0 /\ d = 0) ->
  0 <= b < 65536 -> 0 <= c < 65536 -> 0 <= d < 65536 ->
  version_upgrade v = Ok (PInt (a * 2 ^ 48 + b * 2 ^ 32 + c * 2 ^ 16 + d)).
Proof. exact version_parts. Qed.
Print Assumptions C72_version.
Theorem C72_versions_agree : forall l,
  version_deconstruction (PList l) = version_upgrade (PList l) /\
  version_deconstruction (PTuple l) = version_upgrade (PTuple l) /\
  (forall w, version_upgrade (PList l) = Ok w -> normalize_version (PList l) = w) /\
  (forall x, version_upgrade (PList l) = Err x -> x = TypeError /\ normalize_version (PList l) = PList l).
Proof. exact versions_agree. Qed.
Print Assumptions C72_versions_agree.
Theorem C72_version_text_refuted : forall s,
  version_upgrade (PStr s) = Err TypeError /\
  version_deconstruction (PStr s) = Ok (PStr s) /\
  normalize_version (PStr s) = PStr s.
Proof. exact version_text_refuted. Qed.
Print Assumptions C72_version_text_refuted.
(** Flags in a version count as numbers. *)
Theorem C72_version_flags : forall l,
  version_upgrade (PList l) = version_upgrade (PList (map (fun v => match v with PBool true => PInt 1 | PBool false => PInt 0 | v => v end) l)).
Proof.
  intro l. set (g := fun v => match v with PBool true => PInt 1 | PBool false => PInt 0 | v => v end).
  assert (E : encode_version l = encode_version (map g l)); [|unfold version_upgrade; cbn [sequence]; rewrite E; reflexivity].
  unfold encode_version. rewrite map_map. replace (map (fun v => as_int (g v)) l) with (map as_int l); [reflexivity|].
  apply map_ext. intros []; try reflexivity. destruct b; reflexivity.
Qed.
Print Assumptions C72_version_flags.
(** Normalizing twice is normalizing once. *)
Theorem C72_filters_idem : forall v, normalize_filters (normalize_filters v) = normalize_filters v.
Proof. exact filters_idem. Qed.
Print Assumptions C72_filters_idem.
Theorem C72_priorities_idem : forall v, normalize_priorities (normalize_priorities v) = normalize_priorities v.
Proof. exact priorities_idem. Qed.
Print Assumptions C72_priorities_idem.
Theorem C72_icons_idem : forall v, normalize_blueprint_icons (normalize_blueprint_icons v) = normalize_blueprint_icons v.
Proof. exact blueprint_icons_idem. Qed.
Print Assumptions C72_icons_idem.
Theorem C72_planner_icons_idem : forall sd v w, normalize_planner_icons sd v = Ok w -> normalize_planner_icons sd w = Ok w.
Proof. exact planner_icons_idem. Qed.
Print Assumptions C72_planner_icons_idem.
Theorem C72_mappers_idem : forall v, normalize_mappers (normalize_mappers v) = normalize_mappers v.
Proof. exact mappers_idem. Qed.
Print Assumptions C72_mappers_idem.
Theorem C72_color_idem : forall v w, normalize_color v = Ok w -> normalize_color w = Ok w.
Proof. exact color_idem. Qed.
Print Assumptions C72_color_idem.
Theorem C72_condition_idem : forall v w, normalize_condition v = Ok w -> normalize_condition w = Ok w.
Proof. exact condition_idem. Qed.
Print Assumptions C72_condition_idem.
Theorem C72_version_idem : forall v w, version_upgrade v = Ok w -> version_upgrade w = Ok w.
Proof. exact version_idem. Qed.
Print Assumptions C72_version_idem.
(** Filters of sections: up to the first tuple that cannot be read all are
    converted, in the list of the caller; the rest is untouched. *)
Theorem C72_section : forall to l, let (l', x) := section_filters to 0 l in
  exists n, entrywise (section_at to) (firstn n l) (firstn n l') /\ skipn n l' = skipn n l /\
    match x with
    | None => n = List.length l
    | Some e => exists t, nth_error l n = Some (PTuple t) /\ bad_filter to t e
    end.
Proof. exact section_filters_spec. Qed.
Print Assumptions C72_section.
Theorem C72_section_idem : forall to l i l', section_filters to i l = (l', None) ->
  forall j, section_filters to j l' = (l', None).
Proof. exact section_filters_idem. Qed.
Print Assumptions C72_section_idem.
Theorem C72_section_reused_refuted : forall to a b ca cb ta tb,
  to a = Some [ta] -> to b = Some [tb] ->
  let given := [PTuple [PStr a; ca]; PTuple [PStr b; cb]] in
  exists e1 e2,
    fst (section_filters to 0 (tl given)) = [e1] /\
    fst (section_filters to 0 (tl (fst (section_filters to 0 given)))) = [e2] /\
    section_at to 0 (PTuple [PStr b; cb]) e1 /\ section_at to 1 (PTuple [PStr b; cb]) e2 /\ e1 <> e2.
Proof. exact section_reused_refuted. Qed.
Print Assumptions C72_section_reused_refuted.
(** Links: each bit is the last assigned, and with validation the number stays
    within 32 bits. *)
Theorem C72_links : forall p s i, 0 <= i < 32 -> bit (l_id (link_run s p)) i = link_on (bit (l_id s) i) p i.
Proof. exact links_last. Qed.
Print Assumptions C72_links.
Theorem C72_links_range : forall p s, l_mode s <> MNone -> 0 <= l_id s < 2 ^ 32 -> Forall checked p ->
  0 <= l_id (link_run s p) < 2 ^ 32.
Proof. exact links_range. Qed.
Print Assumptions C72_links_range.
Theorem C72_links_refused : forall s n b,
  (0 <= n < 32 -> snd (link_exec s (SetLink n b)) = None) /\
  (~ 0 <= n < 32 -> link_exec s (SetLink n b) = (s, Some ValueError)).
Proof. exact links_refused. Qed.
Print Assumptions C72_links_refused.
Theorem C72_links_wide_refuted : forall z, link_run (mkLink MNone 0) [SetId (Some z)] = mkLink MNone z.
Proof. exact links_wide_refuted. Qed.
Print Assumptions C72_links_wide_refuted.

Example C72_ex :
  normalize_filters (PTuple [PStr (str "a"); PInt 5; PStr (str "b")]) =
    PList [PDict [(str "index", PInt 1); (str "name", PStr (str "a"))]; PInt 5;
           PDict [(str "index", PInt 3); (str "name", PStr (str "b"))]] /\
  normalize_mappers (PList [PTuple [PStr (str "a"); PNone]; PNone; PTuple [PStr []; PStr (str "b")]]) =
    PList [PDict [(str "index", PInt 0); (str "from", PStr (str "a"))]; PNone;
           PDict [(str "index", PInt 2); (str "to", PStr (str "b"))]] /\
  normalize_mappers (PList [PTuple [PStr (str "a"); PNone]; PTuple [PStr (str "b")]]) =
    PList [PTuple [PStr (str "a"); PNone]; PTuple [PStr (str "b")]] /\
  l_id (link_run (mkLink MStrict 0) [SetLink 31 true; SetLink 32 true; SetLink 0 true; SetId (Some (-1)); SetLink 31 false]) = 2147483647.
Proof. vm_compute. repeat split. Qed.
