{
 "claims": [
  {
   "property": "C01",
   "status": "proved",
   "theorems": [
    "C01_decode_encode",
    "C01_encode_decode",
    "C01_decode_range",
    "C01_encode_order",
    "C01_encode_range",
    "C01_encode_unbounded_injective_refuted"
   ],
   "note": "Round trips, order preservation and range; the 16-bit bound is shown necessary by the refuted theorem."
  },
  {
   "property": "C02",
   "status": "proved",
   "theorems": [
    "C02_tuple_string_roundtrip",
    "C02_parse_spec"
   ],
   "note": "Round trip for every non-empty integer tuple; exact characterisation of accepted strings. int() covers ASCII digits with sign, surrounding whitespace and underscores; other Unicode digits are outside the model."
  },
  {
   "property": "C03",
   "status": "proved",
   "theorems": [
    "C03_roundtrip",
    "C03_result",
    "C03_exact",
    "C03_surrogates_refuted",
    "C03_accepts",
    "C03_malformed",
    "C03_only_malformed",
    "C03_encode_error",
    "C03_too_deep",
    "C03_alphabet"
   ],
   "note": "Round trip for every JSON value whose strings do not spell a surrogate pair as two characters and whose nesting is within the recursion limits, whatever the first character; C03_exact/C03_surrogates_refuted: exactly the other strings come back different. C03_accepts/C03_malformed: accepted are exactly the base 64 texts of compressed JSON documents, everything else is MalformedBlueprintStringError and nothing else. zlib, the text of floats and the byte codecs are given functions satisfying [faithful]."
  },
  {
   "property": "C04",
   "status": "proved",
   "theorems": [
    "C04_overlap_iff_common_interior_point",
    "C04_overlap_symmetric",
    "C04_overlap_translation",
    "C04_touching_is_not_overlap",
    "C04_point_in_box_iff",
    "C04_world_box_same_points"
   ],
   "note": "Exact for all boxes over the real numbers. Reals of the standard library: uses its three axioms (sig_forall_dec, sig_not_dec, functional_extensionality_dep)."
  },
  {
   "property": "C05",
   "status": "proved",
   "theorems": [
    "C05_bounding_box_least",
    "C05_no_box_iff_empty",
    "C05_dimensions"
   ],
   "note": "Least box over arbitrary member trees, dimensions and emptiness. Reals of the standard library: uses its three axioms (sig_forall_dec, sig_not_dec, functional_extensionality_dep)."
  },
  {
   "property": "C06",
   "status": "proved",
   "theorems": [
    "C06_rectangle_overlap_iff_common_interior_point",
    "C06_shape_overlap_iff",
    "C06_collision_set_overlap_iff"
   ],
   "note": "Full separating-axis theorem, both directions, for all rectangles and collision sets. Reals of the standard library: uses its three axioms (sig_forall_dec, sig_not_dec, functional_extensionality_dep)."
  },
  {
   "property": "C07",
   "status": "proved",
   "theorems": [
    "C07_rotated_box_encloses_refuted",
    "C07_rotated_box_encloses_iff"
   ],
   "note": "The English claim is false of the code: refuted at 135 degrees; the exact criterion (cos >= 0 or sin = 0) is proved as an iff. Reals of the standard library: uses its three axioms (sig_forall_dec, sig_not_dec, functional_extensionality_dep)."
  },
  {
   "property": "C08",
   "status": "proved",
   "theorems": [
    "C08_rotate_is_plane_rotation",
    "C08_rotate_composes",
    "C08_full_turn_identity",
    "C08_rejected_iff_not_quarter"
   ],
   "note": "Quarter turns as plane rotations, composition, identity and exact rejection. Reals of the standard library: uses its three axioms (sig_forall_dec, sig_not_dec, functional_extensionality_dep)."
  },
  {
   "property": "C09",
   "status": "proved",
   "theorems": [
    "C09_point_lookup_exact",
    "C09_point_lookup_limit",
    "C09_point_lookup_everywhere_refuted"
   ],
   "note": "Exact iff with the seam condition for every history; refuted without it."
  },
  {
   "property": "C10",
   "status": "proved",
   "theorems": [
    "C10_area_lookup_sound",
    "C10_area_lookup_distinct",
    "C10_area_lookup_complete",
    "C10_area_lookup_limit",
    "C10_overlap_within_margin_refuted",
    "C10_offset_query_refuted"
   ],
   "note": "Soundness, distinctness, completeness up to the margin, limits; refuted within the margin and for query boxes carrying their own offset."
  },
  {
   "property": "C11",
   "status": "proved",
   "theorems": [
    "C11_radius_lookup_sound",
    "C11_radius_lookup_complete",
    "C11_radius_lookup_complete_by_cell",
    "C11_radius_lookup_distinct_and_limited",
    "C11_position_outside_box_refuted"
   ],
   "note": "Soundness and completeness for items whose position lies in their own cells; refuted otherwise."
  },
  {
   "property": "C12",
   "status": "proved",
   "theorems": [
    "C12_cells_hold_the_live_items",
    "C12_no_empty_cells",
    "C12_removing_absent_changes_nothing",
    "C12_removal_keeps_unequal_items"
   ],
   "note": "Cell contents equal the live items in insertion order after any history. An item's box must not change while it is stored."
  },
  {
   "property": "C13",
   "status": "proved",
   "theorems": [
    "C13_ids_consistent",
    "C13_refines_plain_list",
    "C13_negative_insert_refuted",
    "C13_duplicate_id_assignment_refuted",
    "C13_negative_replace_refuted",
    "C13_empty_id_refuted",
    "C13_group_none_id_refuted",
    "C13_delete_out_of_range_wraps"
   ],
   "note": "Invariant plus refinement to a plain list for every history of covered operations; five refuted theorems show what happens outside them (negative insert/replace index, duplicate ID assignment, empty ID, clearing group IDs); out-of-range deletion wraps."
  },
  {
   "property": "C14",
   "status": "proved",
   "theorems": [
    "C14_duplicate_insert_rejected",
    "C14_failures_leave_list",
    "C14_duplicate_assignment"
   ],
   "note": "Exact iff for every position, with the state literally unchanged; other failing operations keep members and consistency."
  },
  {
   "property": "C15",
   "status": "proved",
   "theorems": [
    "C15_slice_deletion",
    "C15_zero_step_rejected",
    "C15_positions_criterion",
    "C15_positions_refuted",
    "C15_stepped_slice_refuted"
   ],
   "note": "Survivors and lookup by ID exact for every slice. The recorded positions go wrong: exact criterion for consecutive slices, refuted otherwise."
  },
  {
   "property": "C16",
   "status": "proved",
   "theorems": [
    "C16_intersection",
    "C16_difference",
    "C16_union",
    "C16_union_total_refuted"
   ],
   "note": "Exact results; union fails exactly on clashing IDs (refuted as a total operation)."
  },
  {
   "property": "C17",
   "status": "proved",
   "theorems": [
    "C17_acts_as_plain_list",
    "C17_index_in_step",
    "C17_merged_not_listed_twice",
    "C17_set_operations",
    "C17_rename",
    "C17_rename_indexed",
    "C17_rename_refuted"
   ],
   "note": "Refinement to a plain list and index agreement for every rename-free history, merging never lists a tile twice, exact set operations; renaming listed tiles is shown to break the agreement (refuted)."
  },
  {
   "property": "C18",
   "status": "proved",
   "theorems": [
    "C18_rigid",
    "C18_tile_positions",
    "C18_composes",
    "C18_undone",
    "C18_index",
    "C18_index_again",
    "C18_tie_refuted",
    "C18_group_index_refuted"
   ],
   "note": "Rigid motion, composition, undo and index exactness proved; two refuted corners: ties of off-grid positions can make the tile position jump by two, and the contents of a moved group keep their old cells in the index."
  },
  {
   "property": "C19",
   "status": "proved",
   "theorems": [
    "C19_rotation",
    "C19_succeeds_iff",
    "C19_bad_amount_rejected",
    "C19_composes",
    "C19_index",
    "C19_wrap_refuted"
   ],
   "note": "Image, composition, rejection and exact success criterion proved; C19_wrap_refuted records that directions do not wrap around."
  },
  {
   "property": "C20",
   "status": "proved",
   "theorems": [
    "C20_mirror",
    "C20_succeeds_iff",
    "C20_rejected_unchanged",
    "C20_twice_restores",
    "C20_twice_succeeds_iff",
    "C20_index",
    "C20_twice_refuted"
   ],
   "note": "Mirror image, exact success criterion, restoring when both flips succeed; C20_twice_refuted: a second flip usually raises."
  },
  {
   "property": "C21",
   "status": "proved",
   "theorems": [
    "C21_rotate_failure",
    "C21_flip_failure",
    "C21_failing_member_lost",
    "C21_unchanged_refuted"
   ],
   "note": "The property is false of the code: C21_unchanged_refuted; the exact shape of the state after a failure is proved (transformed prefix, one orphaned member, missing from the index)."
  },
  {
   "property": "C22",
   "status": "proved",
   "theorems": [
    "C22_in_step",
    "C22_set_position",
    "C22_set_tile_position",
    "C22_tile_determined",
    "C22_other_assignments_refuted"
   ],
   "note": "Invariant over all assignment sequences; C22_other_assignments_refuted records that indexing assignment and fractional component assignment break the agreement."
  },
  {
   "property": "C23",
   "status": "proved",
   "theorems": [
    "C23_export",
    "C23_number",
    "C23_outside",
    "C23_equal_refuted",
    "C23_schedule_without_locomotives",
    "C23_dead"
   ],
   "note": "Exact criterion and result of export for any nesting of groups; own number under the proviso that no two entities compare equal (C23_equal_refuted shows the proviso is needed); outside targets are an error. A schedule without locomotives makes export raise KeyError."
  },
  {
   "property": "C24",
   "status": "proved",
   "theorems": [
    "C24_roundtrip",
    "C24_reexport",
    "C24_import",
    "C24_zero_refuted"
   ],
   "note": "Round trip of wires and locomotives with order and deduplication, exact re-export; any number below 1 is read from the end of the list (C24_zero_refuted)."
  },
  {
   "property": "C25",
   "status": "proved",
   "theorems": [
    "C25_add",
    "C25_remove",
    "C25_remove_copies",
    "C25_undo",
    "C25_absent",
    "C25_order",
    "C25_remove_all",
    "C25_twice_refuted"
   ],
   "note": "Exact criterion, effect, removal and undo. The documented 'does nothing if the connection already exists' is refuted (C25_twice_refuted)."
  },
  {
   "property": "C26",
   "status": "proved",
   "theorems": [
    "C26_add",
    "C26_connectors",
    "C26_remove",
    "C26_order",
    "C26_undo",
    "C26_remove_all"
   ],
   "note": "Exact criterion, effect, connector numbering, removal in either order, undo, removal of all circuit wires at every depth."
  },
  {
   "property": "C27",
   "status": "proved",
   "theorems": [
    "C27_generated",
    "C27_succeeds",
    "C27_limit_refuted"
   ],
   "note": "All new wires join reachable distinct poles, old wires kept, every reachable pair wired; exact success criterion. The documented limit of five and closest-first order are refuted (C27_limit_refuted)."
  },
  {
   "property": "C28",
   "status": "proved",
   "theorems": [
    "C28_operator",
    "C28_operator_aliased",
    "C28_operator_errors",
    "C28_or",
    "C28_and",
    "C28_and_general",
    "C28_clauses",
    "C28_expression",
    "C28_expression_error",
    "C28_parentheses_refuted",
    "C28_two_lists_refuted",
    "C28_aliased_refuted"
   ],
   "note": "Operators proved exactly (contents, new objects, nothing old changed, errors), meaning of and/or for all lists and truth assignments, and whole expressions by induction: an evaluable expression without disjunction under a conjunction means what it spells. Refuted parts have witnesses: parentheses are lost, two compound operands raise TypeError, a list holding one object twice changes in two places."
  },
  {
   "property": "C29",
   "status": "proved",
   "theorems": [
    "C29_add",
    "C29_remove",
    "C29_history",
    "C29_new_schedule",
    "C29_insert",
    "C29_remove_stop",
    "C29_insert_remove",
    "C29_insert_remove_same",
    "C29_insert_remove_refuted"
   ],
   "note": "Locomotive histories of any length; stop insertion and removal exact. 'Insert then remove restores the list' holds exactly under the stated condition (iff); witnesses where the order changes or another stop is lost."
  },
  {
   "property": "C30",
   "status": "proved",
   "theorems": [
    "C30_language",
    "C30_words",
    "C30_cars",
    "C30_bad_words",
    "C30_rail_length"
   ],
   "note": "Every string is the text of exactly one block sequence and parses to exactly the cars spelled, or ValueError when a letter is unknown; str.upper/lower, digit values and the mapping are arbitrary parameters. Python's 4300-digit limit is not modelled."
  },
  {
   "property": "C31",
   "status": "proved",
   "theorems": [
    "C31_opposite",
    "C31_next_previous",
    "C31_cycle",
    "C31_vector_opposite",
    "C31_vector_length",
    "C31_unit_refuted",
    "C31_legacy",
    "C31_legacy_refuted"
   ],
   "note": "All 16 directions, any number of steps. Vectors are real numbers (Reals axioms). Findings: in-between directions have the zero vector (C31_unit_refuted), LegacyDirection is wrong (C31_legacy_refuted)."
  },
  {
   "property": "C32",
   "status": "proved",
   "theorems": [
    "C32_group",
    "C32_equality",
    "C32_number_operand",
    "C32_opposite",
    "C32_roundtrip",
    "C32_to_orientation",
    "C32_to_direction",
    "C32_to_direction_fails",
    "C32_diagonals",
    "C32_comparisons",
    "C32_order_refuted"
   ],
   "note": "Exact arithmetic over all rationals (turn = 16*K, any K). Findings: conversion fails near a full turn (exact criterion), >= <= > compare raw numbers and contradict < and == (C32_order_refuted)."
  },
  {
   "property": "C33",
   "status": "proved",
   "theorems": [
    "C33_set_pop",
    "C33_all_calls",
    "C33_fresh",
    "C33_meaning_unambiguous",
    "C33_failure_no_effect",
    "C33_pop_first",
    "C33_remove_present_blank_refuted",
    "C33_imported_never_removed",
    "C33_remove_imported_refuted",
    "C33_no_list"
   ],
   "note": "Refinement to an indexed table for all call sequences (set, pop, remove) on any sorted planner; removal by index of a mapping with a blank side and any removal in an imported planner are refuted (ValueError although present)."
  },
  {
   "property": "C34",
   "status": "proved",
   "theorems": [
    "C34_filters",
    "C34_one_call",
    "C34_independent",
    "C34_set_entity_filters",
    "C34_set_tile_filters",
    "C34_failure_no_effect_refuted"
   ],
   "note": "Refinement to an indexed table for all call sequences, both lists independent; clearing an empty slot raises UnboundLocalError. Slot 2^64-1 under validation is excluded and refuted: the call fails but stays in the list."
  },
  {
   "property": "C35",
   "status": "proved",
   "theorems": [
    "C35_item_filters",
    "C35_words",
    "C35_inventory_filters",
    "C35_one_call",
    "C35_both_calls",
    "C35_quality_refuted",
    "C35_failure_no_effect_refuted",
    "C35_python_comparators_rejected",
    "C35_infinity_filters",
    "C35_infinity_one_call"
   ],
   "note": "Refinement for item, inventory and infinity filters. Refuted: an occupied slot keeps its old quality and comparator, and a failing assignment to slot 2^63-1 stays in the list."
  },
  {
   "property": "C36",
   "status": "proved",
   "theorems": [
    "C36_types",
    "C36_signals",
    "C36_one_call",
    "C36_get_signal",
    "C36_get_signal_entry",
    "C36_clear_always_raises",
    "C36_clear_refuted",
    "C36_missing_filters_lost",
    "C36_read_back_refuted"
   ],
   "note": "Refinement for all signal assignments to a section with a filter list, and reading back. Refuted: clearing a slot always raises; with missing filters an accepted assignment is lost."
  },
  {
   "property": "C37",
   "status": "proved",
   "theorems": [
    "C37_first_request",
    "C37_later_request_adds",
    "C37_history",
    "C37_zero_removes",
    "C37_other_items",
    "C37_other_qualities",
    "C37_failure_no_effect",
    "C37_replaces_refuted",
    "C37_inventory_refuted",
    "C37_zero_only_there_refuted",
    "C37_next_open_slot_refuted"
   ],
   "note": "First request, accumulation law over all histories, zero removes the item, other items untouched, failures have no effect. Refuted: a repeated request adds instead of replacing, a request to the second inventory overwrites the first, zero removes all slots and qualities, an omitted slot may be occupied."
  },
  {
   "property": "C38",
   "status": "proved",
   "theorems": [
    "C38_export_in_order",
    "C38_export_empty",
    "C38_positions_distinct",
    "C38_reimport",
    "C38_reimport_fails",
    "C38_kind_recognised",
    "C38_insert",
    "C38_assign",
    "C38_delete",
    "C38_list_errors",
    "C38_load_errors",
    "C38_load_missing_key",
    "C38_unknown_dictionaries",
    "C38_indices_distinct_refuted",
    "C38_renumbered_after_import_refuted",
    "C38_kind_kept_refuted",
    "C38_index_always_present_refuted"
   ],
   "note": "Export order and indices, and the exact condition for re-import, for books of any depth. Refuted as first stated: custom indices may collide with positions, import pins indices, and an unknown key named like another root key changes the class on re-import; with both trimming options off indices are null."
  },
  {
   "property": "C39",
   "status": "proved",
   "theorems": [
    "C39_whole_collection",
    "C39_limit",
    "C39_negative_limit",
    "C39_find_entities",
    "C39_invert",
    "C39_point",
    "C39_area_sound",
    "C39_area_complete",
    "C39_radius_sound",
    "C39_radius_complete",
    "C39_find_entity",
    "C39_find_entity_at_position",
    "C39_find_tile",
    "C39_tiles",
    "C39_selected_meaning",
    "C39_tile_position_refuted",
    "C39_area_order_refuted",
    "C39_area_equal_members_refuted",
    "C39_invert_everything_refuted",
    "C39_negative_limit_refuted"
   ],
   "note": "Exact for whole-collection and point searches, sound and complete up to the margin and equality for areas and circles; limit, inversion, find_entity, find_tile. Refuted: tile position without radius, order and equal members of area searches, inversion beyond the region, negative limits."
  },
  {
   "property": "C40",
   "status": "proved",
   "theorems": [
    "C40_flatten_in_order",
    "C40_flatten_total",
    "C40_flatten_once",
    "C40_global_position",
    "C40_moving_a_group",
    "C40_moving_the_outermost_group",
    "C40_histories",
    "C40_add_shifts",
    "C40_group_search_refuted",
    "C40_deleted_is_free_refuted",
    "C40_late_member_found_refuted",
    "C40_world_box",
    "C40_blueprint_search",
    "C40_moved_entity_found_refuted"
   ],
   "note": "Flattening, global positions and moving groups are proved for all finite nestings. Refuted: a group finds its own members by position, a deleted entity is free again, an entity put into a group already in a blueprint is found by the blueprint."
  },
  {
   "property": "C41",
   "status": "proved",
   "theorems": [
    "C41_joules",
    "C41_watts",
    "C41_watts_nearest",
    "C41_rejected",
    "C41_numbers",
    "C41_watts_exact_refuted",
    "C41_empty_refuted",
    "C41_strict_format_refuted",
    "C41_huge_watts_refuted"
   ],
   "note": "Joules exact, watts within half a unit and 2^-50 of a sixtieth with a 53-bit float model, nearest integer below 2^50; exact classification of rejected strings. Refuted: exactness of huge watt values, ValueError for the empty string, the documented format only, totality for huge numbers."
  },
  {
   "property": "C42",
   "status": "proved",
   "theorems": [
    "C42_order_complete",
    "C42_dependencies_first",
    "C42_order_sorted",
    "C42_weights_exist",
    "C42_order_iff",
    "C42_order_exists",
    "C42_no_order_for_cycles",
    "C42_first_problem_reported",
    "C42_unusable_blocks",
    "C42_absent_optional_refuted",
    "C42_absent_incompatible_refuted",
    "C42_tilde_refuted",
    "C42_single_equals_refuted"
   ],
   "note": "Order is complete, dependency-respecting, sorted by (weight, name); exists iff entries usable and acyclic; the first problem is reported. Absent optional/incompatible and '~' dependencies crash (refuted)."
  },
  {
   "property": "C43",
   "status": "proved",
   "theorems": [
    "C43_names_kept",
    "C43_versions_sorted",
    "C43_core_unsorted",
    "C43_newest_chosen",
    "C43_enabled_chosen",
    "C43_one_per_name",
    "C43_discovery_iff",
    "C43_discovery_error"
   ],
   "note": "All versions kept, best first, stable; chosen one is best; core is not sorted; only ValueError."
  },
  {
   "property": "C44",
   "status": "proved",
   "theorems": [
    "C44_decode_file",
    "C44_dictionary_meaning",
    "C44_accepted_is_file",
    "C44_refused",
    "C44_no_hidden_limit",
    "C44_simple_values_written",
    "C44_written_text_lost",
    "C44_dictionaries_not_written",
    "C44_writing_refuted",
    "C44_truncated_refuted"
   ],
   "note": "Exact round trip against an independent format relation, both directions; refused kinds; writer failures and the accepted truncated file are refuted/characterised."
  },
  {
   "property": "C45",
   "status": "proved",
   "theorems": [
    "C45_comparison",
    "C45_greater_equal_refuted",
    "C45_less_equal_refuted",
    "C45_loose_comparison",
    "C45_other_comparison",
    "C45_operator_accepts",
    "C45_operator_errors",
    "C45_operator_result",
    "C45_operator_keeps",
    "C45_or",
    "C45_and",
    "C45_built_kept",
    "C45_shared_refuted",
    "C45_expression",
    "C45_expression_order",
    "C45_parentheses_refuted"
   ],
   "note": "==, !=, <, > mean the comparison written; >= and <= build the opposite one (refuted, with exact meaning). & and | proved exactly; meaning of earlier lists is kept unless a condition is shared behind the first place (refuted otherwise); parentheses are lost."
  },
  {
   "property": "C46",
   "status": "proved",
   "theorems": [
    "C46_works",
    "C46_result",
    "C46_points_back",
    "C46_line",
    "C46_straight",
    "C46_twice",
    "C46_loops_twice",
    "C46_hook_refuted"
   ],
   "note": "Exact result of reverse_belts for belts, undergrounds and splitters on non-overlapping layouts; twice-reversal proved for chains and loops when no belt lies behind the start of a chain (a hook-shaped chain is a refutation otherwise). Layouts on the tile grid; groups not modelled."
  },
  {
   "property": "C47",
   "status": "proved",
   "theorems": [
    "C47_accepts",
    "C47_success",
    "C47_typed",
    "C47_data_format",
    "C47_crash",
    "C47_escalated",
    "C47_errors_first",
    "C47_atomic",
    "C47_leaves",
    "C47_recipe_refuted",
    "C47_temperature_refuted",
    "C47_escalation_refuted",
    "C47_others",
    "C47_none",
    "C47_stricter",
    "C47_stricter_warnings",
    "C47_reissue_errors",
    "C47_reissue_warnings",
    "C47_combined_error",
    "C47_combined_warnings"
   ],
   "note": "Exact characterisation of acceptance, DataFormatError, crashes, escalated warnings and what is left behind, for every mode; validation-mode monotonicity. False parts stated as refuted witnesses: a rejected recipe or infinity-pipe temperature stays stored, a warning turned into an error leaves the value stored. pydantic conversions are an oracle constrained by well_behaved."
  },
  {
   "property": "C48",
   "status": "proved",
   "theorems": [
    "C48_trimmed_exports_restore",
    "C48_cleared_field_becomes_default",
    "C48_cleared_required_field_fails",
    "C48_cleared_extra_field_lost",
    "C48_entities_come_back",
    "C48_default_entities_refuted",
    "C48_lost_fields_refuted",
    "C48_chunk_filter_refuted",
    "C48_loader_type_refuted",
    "C48_energy_interface",
    "C48_energy_interface_refuted"
   ],
   "note": "Proved over every schema and nesting (pydantic semantics as stated in DESIGN.md; lax conversions are an oracle), with the exact losses for cleared fields; and for the 83 entity classes including their constructors and re-validation, outside explicitly listed classes and fields for which witnesses show the claim is false of the code."
  },
  {
   "property": "C49",
   "status": "proved",
   "theorems": [
    "C49_sorted",
    "C49_complete",
    "C49_once",
    "C49_total",
    "C49_missing_last",
    "C49_comparable",
    "C49_iff",
    "C49_never_fails_refuted"
   ],
   "note": "Exact result and exact success condition proved; 'never fails' itself is refuted: a dangling mined item, subgroup or group is a KeyError (the only possible exception)."
  },
  {
   "property": "C50",
   "status": "proved",
   "theorems": [
    "C50_at_position",
    "C50_spacing",
    "C50_facing",
    "C50_at_station",
    "C50_not_a_station",
    "C50_in_between",
    "C50_odd_refuted",
    "C50_reuse_refuted",
    "C50_range_refuted"
   ],
   "note": "Positions over the reals (Reals axioms). Exact placement for all compass points at a position and at a station; witnesses: odd directions raise after the schedule was added, stations never reuse a schedule with the same stops, stored orientation can exceed a turn."
  },
  {
   "property": "C51",
   "status": "proved",
   "theorems": [
    "C51_where",
    "C51_found_refuted"
   ],
   "note": "Refuted: the search always looks one tile short of the stop used for placing; C51_where proves the exact place for all stations, configurations and schedules."
  },
  {
   "property": "C52",
   "status": "proved",
   "theorems": [
    "C52_rotated_set_is_turned",
    "C52_rotation_fails_iff",
    "C52_rotations_compose",
    "C52_rotation_keeps_collisions",
    "C52_placed_set",
    "C52_placing_keeps_collisions",
    "C52_world_box",
    "C52_empty_set_has_no_box",
    "C52_straight_rail_table",
    "C52_diagonal",
    "C52_curved_rail_table",
    "C52_curved_rail_mirror",
    "C52_offset_refuted"
   ],
   "note": "Rotation, placement and bounding of collision sets and the rail tables; boxes with an offset are turned in place (C52_offset_refuted), the positive theorems assume boxes without one (as in all shipped data)."
  },
  {
   "property": "C53",
   "status": "proved",
   "theorems": [
    "C53_corners_follow_orientation",
    "C53_no_missed_collision_with_shape",
    "C53_no_missed_collision_between_stock",
    "C53_stock_collision_iff_extents_meet",
    "C53_box_collision_iff_extent_meets",
    "C53_exact_on_quarters",
    "C53_exactness_refuted",
    "C53_exact_with_shape",
    "C53_not_a_number",
    "C53_world_box"
   ],
   "note": "No missed collisions for every orientation history; exact characterisation by extents; exactness refuted on diagonals (stale normals) and proved on quarters; world box exact iff."
  },
  {
   "property": "C54",
   "status": "proved",
   "theorems": [
    "C54_accepted",
    "C54_stored_direction",
    "C54_four_way_size",
    "C54_eight_way_size",
    "C54_seated",
    "C54_last_counts",
    "C54_size_refuted"
   ],
   "note": "The size claim is false of the code in two cases; the exact condition under which it holds is proved and the failures are exhibited by C54_size_refuted."
  },
  {
   "property": "C55",
   "status": "proved",
   "theorems": [
    "C55_members",
    "C55_once",
    "C55_deep_enough",
    "C55_reach",
    "C55_in_order",
    "C55_twice_refuted",
    "C55_across_north_refuted",
    "C55_mutual_refuted"
   ],
   "note": "Membership, termination, reach and order proved in general; double listing, orientations across north and mutuality are false of the code and exhibited by the three _refuted theorems."
  },
  {
   "property": "C56",
   "status": "proved",
   "theorems": [
    "C56_at_position",
    "C56_at_station",
    "C56_first_car_refuted"
   ],
   "note": "Both ways of placing; the documented first entry is false for trains without locomotives (C56_first_car_refuted)."
  },
  {
   "property": "C57",
   "status": "proved",
   "theorems": [
    "C57_all_trains",
    "C57_partition",
    "C57_deep_enough",
    "C57_result",
    "C57_too_deep",
    "C57_driverless_refuted",
    "C57_faceless_refuted",
    "C57_orientation_refuted",
    "C57_no_names_refuted",
    "C57_overlap_refuted"
   ],
   "note": "Exact characterisation of the result and of both errors. Claims in the documentation that are false of the code are the _refuted theorems: searching by schedule fails when some train has no locomotive, searching by station fails for a head in the last eighth of a turn, equal orientations a full turn apart differ, an empty set of names does not filter, overlapping trains."
  },
  {
   "property": "C58",
   "status": "proved",
   "theorems": [
    "C58_set",
    "C58_members",
    "C58_found",
    "C58_set_total",
    "C58_cleared_refuted",
    "C58_remove",
    "C58_remove_equal_refuted",
    "C58_atomic_refuted"
   ],
   "note": "Under the condition that no schedule lists a locomotive twice (kept by the library's own operations, C29) and, for removal, that no member equals a car without being it; both conditions are needed (_refuted), and removal is not atomic."
  },
  {
   "property": "C59",
   "status": "proved",
   "theorems": [
    "C59_group",
    "C59_apart",
    "C59_succeeds",
    "C59_contained",
    "C59_error",
    "C59_outside_refuted",
    "C59_order_refuted",
    "C59_blueprint",
    "C59_blueprint_succeeds",
    "C59_group_survives",
    "C59_orphan",
    "C59_blueprint_refuted"
   ],
   "note": "Exact description of group copies, exact condition for success; false for associations leading outside, for the order of members and for blueprints' own wires (refuted with witnesses), with the strongest true statements for blueprints."
  },
  {
   "property": "C60",
   "status": "proved",
   "theorems": [
    "C60_extract",
    "C60_add",
    "C60_add_all",
    "C60_instrument",
    "C60_instrument_read",
    "C60_note_read",
    "C60_note",
    "C60_no_instrument",
    "C60_note_self",
    "C60_displaced",
    "C60_change_refuted",
    "C60_add_refuted"
   ],
   "note": "Exact conditions for agreement of the tables; inserting before the end, re-adding a name, a note called \"self\" and changing the instrument are shown to break the naive claims (C60_add_refuted, C60_displaced, C60_note_self, C60_change_refuted). Values passing validation only."
  },
  {
   "property": "C61",
   "status": "proved",
   "theorems": [
    "C61_extract",
    "C61_extract_iff",
    "C61_permitted",
    "C61_add_iff",
    "C61_add",
    "C61_add_once",
    "C61_add_list",
    "C61_by_name",
    "C61_mismatch",
    "C61_mapper",
    "C61_once_refuted"
   ],
   "note": "Exact conditions; adding a signal twice lists it twice and the type chosen for a name with several is not determined (C61_once_refuted). Only names and types of raw entries are kept."
  },
  {
   "property": "C62",
   "status": "proved",
   "theorems": [
    "C62_items",
    "C62_subgroups",
    "C62_groups",
    "C62_iff"
   ],
   "note": "The three tables are characterised exactly (contents, order, failure). Items' other fields are carried along unread."
  },
  {
   "property": "C63",
   "status": "proved",
   "theorems": [
    "C63_sound",
    "C63_add_item",
    "C63_stack_size",
    "C63_stack_known",
    "C63_add_subgroup",
    "C63_add_group",
    "C63_shelved",
    "C63_stays",
    "C63_data_subgroup",
    "C63_data_group",
    "C63_shared",
    "C63_shared_groups",
    "C63_own_items_refuted",
    "C63_modify_refuted",
    "C63_anew_refuted"
   ],
   "note": "Exact effect of each function and of its failures, invariants over all sequences; the expectations the code breaks are refuted with witnesses or, for the game's own groups and subgroups, proved to fail always. Further keyword arguments are left out."
  },
  {
   "property": "C64",
   "status": "proved",
   "theorems": [
    "C64_mergable",
    "C64_equal",
    "C64_equal_refl",
    "C64_equal_sym",
    "C64_equal_trans",
    "C64_equal_mergable",
    "C64_merge",
    "C64_merged_equal",
    "C64_merge_twice",
    "C64_no_wire_left",
    "C64_refused",
    "C64_always",
    "C64_overlooked",
    "C64_equal_same_refuted",
    "C64_precedence_refuted",
    "C64_comparable_refuted",
    "C64_accumulator",
    "C64_untouched_refuted"
   ],
   "note": "Exact for all constructible classes; the naive claims about precedence, comparability and atomicity are refuted with witnesses. Validation is an oracle."
  },
  {
   "property": "C65",
   "status": "proved",
   "theorems": [
    "C65_insert",
    "C65_again",
    "C65_history",
    "C65_wires",
    "C65_id",
    "C65_wires_refuted",
    "C65_overlap_refuted",
    "C65_no_copy"
   ],
   "note": "Exact effect of one insertion, idempotence, and histories by induction, for items without two entities in one place; refuted without that, and for wires of an outer group."
  },
  {
   "property": "C66",
   "status": "proved",
   "theorems": [
    "C66_ingredients",
    "C66_modules",
    "C66_modules_mono",
    "C66_add_module",
    "C66_history",
    "C66_history_refuted",
    "C66_once_refuted",
    "C66_extract",
    "C66_extract_iff",
    "C66_extract_modules",
    "C66_extract_modules_iff",
    "C66_furnace",
    "C66_set_recipe",
    "C66_unknown_recipe",
    "C66_silo",
    "C66_unknown_machine",
    "C66_fields",
    "C66_quality_refuted"
   ],
   "note": "Exact for extraction, ingredients, modules and warnings; the additions and the quality getter are refuted where the code deviates. Failures on machines with item requests are stated for all inputs."
  },
  {
   "property": "C67",
   "status": "proved",
   "theorems": [
    "C67_extract_iff",
    "C67_register",
    "C67_types",
    "C67_flips",
    "C67_factory",
    "C67_class",
    "C67_additions",
    "C67_complete",
    "C67_added_again_refuted",
    "C67_hidden_refuted",
    "C67_object_layer",
    "C67_other_layers",
    "C67_given_layers_refuted"
   ],
   "note": "Given tables whose prototypes have the names and types they are filed under. Refuted parts: entities added twice, the hidden flag, masks given as tables."
  },
  {
   "property": "C68",
   "status": "proved",
   "theorems": [
    "C68_passes",
    "C68_passes_set",
    "C68_properties",
    "C68_placable",
    "C68_usable",
    "C68_right",
    "C68_alike_refuted",
    "C68_placable_refuted",
    "C68_usable_refuted",
    "C68_other_property_refuted"
   ],
   "note": "Full for the modelled functions; where the answer differs from the game's is stated with witnesses (refuted theorems) and an exact guard (C68_right)."
  },
  {
   "property": "C69",
   "status": "proved",
   "theorems": [
    "C69_table",
    "C69_inverse",
    "C69_gaps_refuted",
    "C69_empty_refuted",
    "C69_tiles_iff",
    "C69_tiles_error",
    "C69_tiles",
    "C69_mask",
    "C69_mask_refuted",
    "C69_add_tile",
    "C69_known",
    "C69_range",
    "C69_add_fluid",
    "C69_other_fluids",
    "C69_order_refuted",
    "C69_range_refuted"
   ],
   "note": "Full for the modelled functions; information lost (gaps, empty tables, layers of masks, order of fluids) is stated by refuted theorems with witnesses."
  },
  {
   "property": "C70",
   "status": "proved",
   "theorems": [
    "C70_dependency",
    "C70_dependency_round",
    "C70_text_again",
    "C70_text_unique",
    "C70_depends",
    "C70_required_refuted",
    "C70_prefix_refuted",
    "C70_archive_name",
    "C70_archive_unique",
    "C70_upper_refuted",
    "C70_folder_name",
    "C70_folder_unique",
    "C70_folder_version_refuted",
    "C70_topdir",
    "C70_topdirs",
    "C70_slash_refuted",
    "C70_meant",
    "C70_make_all",
    "C70_default_refuted",
    "C70_make_given",
    "C70_alike",
    "C70_forward",
    "C70_ends_zip",
    "C70_register_archive",
    "C70_register_folder",
    "C70_refused",
    "C70_disabled_refuted",
    "C70_enable",
    "C70_enable_read",
    "C70_enable_default",
    "C70_all_refuted"
   ],
   "note": "Exact characterisations of the three patterns, of choosing the folder, of registering and of enabling; refuted where the code goes wrong: the shared default list of dependencies, prefixes that are no flags, upper case archives, spaces in names of disabled mods, versions without a dot, names beginning with a slash, and enabling all."
  },
  {
   "property": "C71",
   "status": "proved",
   "theorems": [
    "C71_history",
    "C71_deterministic",
    "C71_one_reading",
    "C71_modes_agree",
    "C71_minimum_silent",
    "C71_all_read",
    "C71_second_none_refuted",
    "C71_removed_refuted",
    "C71_refused",
    "C71_refused_creates_refuted",
    "C71_constant_warnings_refuted",
    "C71_unset_warnings_refuted",
    "C71_two_each_refuted",
    "C71_unvalidated",
    "C71_unvalidated_all_refuted",
    "C71_raw_name_refuted"
   ],
   "note": "Refinement to a one-slot-per-part specification for all programs with validation on, and behaviour without validation; documented behaviour that the code does not have is refuted. pydantic's validate_assignment as recorded in DESIGN.md."
  },
  {
   "property": "C72",
   "status": "proved",
   "theorems": [
    "C72_filters",
    "C72_filters_other",
    "C72_icons",
    "C72_icons_other",
    "C72_priorities",
    "C72_priorities_text_refuted",
    "C72_planner_icons",
    "C72_planner_icons_other",
    "C72_icons_agree",
    "C72_icons_dict_refuted",
    "C72_mappers",
    "C72_mappers_text_refuted",
    "C72_color",
    "C72_condition",
    "C72_condition_text_refuted",
    "C72_version",
    "C72_versions_agree",
    "C72_version_text_refuted",
    "C72_version_flags",
    "C72_filters_idem",
    "C72_priorities_idem",
    "C72_icons_idem",
    "C72_planner_icons_idem",
    "C72_mappers_idem",
    "C72_color_idem",
    "C72_condition_idem",
    "C72_version_idem",
    "C72_section",
    "C72_section_idem",
    "C72_section_reused_refuted",
    "C72_links",
    "C72_links_range",
    "C72_links_refused",
    "C72_links_wide_refuted"
   ],
   "note": "Exact for the modelled values; documented behaviour that does not hold is refuted"
  },
  {
   "property": "C73",
   "status": "proved",
   "theorems": [
    "C73_order",
    "C73_lookup",
    "C73_orders",
    "C73_cells",
    "C73_places",
    "C73_own_cell",
    "C73_holders",
    "C73_history",
    "C73_untouched",
    "C73_refused",
    "C73_accepted",
    "C73_checked",
    "C73_new",
    "C73_exceptions",
    "C73_checked_refuted",
    "C73_refused_refuted",
    "C73_own_refuted",
    "C73_sections_refuted",
    "C73_ammo_refuted",
    "C73_read_only",
    "C73_mode"
   ],
   "note": "The literal claim is false for the listed attributes of faithful code; the lists are exact and the failures are proved as _refuted theorems. Checking a value is an oracle; the table of classes, fields and properties is a transcription of the sources."
  },
  {
   "property": "C74",
   "status": "proved",
   "theorems": [
    "C74_given",
    "C74_validated",
    "C74_modelled",
    "C74_modelled_inside",
    "C74_handmade",
    "C74_io_type",
    "C74_interface",
    "C74_chunk_filter",
    "C74_passed",
    "C74_parameters",
    "C74_extra",
    "C74_around",
    "C74_afterwards",
    "C74_made",
    "C74_nameless",
    "C74_similar",
    "C74_inventory_refuted",
    "C74_baseless_refuted",
    "C74_launch_refuted",
    "C74_targets_refuted",
    "C74_quality_refuted",
    "C74_turret_refuted"
   ],
   "note": "What each attribute of each class reads after construction, for all keywords, with exact exceptions (the _refuted theorems); conversions and checks of values are oracles."
  },
  {
   "property": "C75",
   "status": "proved",
   "theorems": [
    "C75_refused",
    "C75_accepted",
    "C75_place",
    "C75_succeeds",
    "C75_foreign",
    "C75_last",
    "C75_others",
    "C75_none_vector",
    "C75_none_list",
    "C75_active_index_refuted",
    "C75_setup",
    "C75_setup_linked",
    "C75_setup_stops",
    "C75_setup_succeeds",
    "C75_not_cumulative",
    "C75_filters_refuted",
    "C75_unknown",
    "C75_unknown_not_inside",
    "C75_unknown_stays",
    "C75_meant",
    "C75_harmful_refuted",
    "C75_constructor",
    "C75_constructor_index",
    "C75_constructor_refuses",
    "C75_constructor_strict"
   ],
   "note": "full; the documented claims that setup is not cumulative for unknown keywords and filters, that active_index None means 0, are refuted by witnesses beside the exact guarded statements; books only without the final validation, which replaces the object"
  },
  {
   "property": "C76",
   "status": "proved",
   "theorems": [
    "C76_unknown",
    "C76_itself",
    "C76_types",
    "C76_entities",
    "C76_sound",
    "C76_fine",
    "C76_raises",
    "C76_chain",
    "C76_mappers",
    "C76_silent",
    "C76_mappers_raise",
    "C76_lenient",
    "C76_productless_refuted",
    "C76_fluid_refuted",
    "C76_item_refuted",
    "C76_hidden_ignored",
    "C76_hidden_refuted",
    "C76_target_refuted"
   ],
   "note": "Refuted as stated by the rules quoted in the sources: minable entities without item products raise KeyError, hidden items are never noticed in 2.0 data, and whether the target can be built is not looked at."
  },
  {
   "property": "C77",
   "status": "proved",
   "theorems": [
    "C77_off",
    "C77_report",
    "C77_raises",
    "C77_part",
    "C77_part_raises",
    "C77_every_entity",
    "C77_every_tile",
    "C77_stricter",
    "C77_clean",
    "C77_warned",
    "C77_first",
    "C77_combined",
    "C77_equal",
    "C77_places",
    "C77_fields",
    "C77_twice",
    "C77_group_tiles",
    "C77_group_tiles_refuted",
    "C77_unchanged_refuted",
    "C77_halfway_refuted"
   ],
   "note": "Refuted as stated: tiles of groups are never validated, and a blueprint that fails to validate may already have been changed."
  },
  {
   "property": "C78",
   "status": "proved",
   "theorems": [
    "C78_blueprints",
    "C78_reflexive",
    "C78_symmetric",
    "C78_transitive",
    "C78_entities",
    "C78_tiles",
    "C78_schedules",
    "C78_relinked",
    "C78_wires_refuted",
    "C78_groups",
    "C78_locomotives",
    "C78_copied_group_refuted",
    "C78_reimported_train_refuted",
    "C78_collected_refuted",
    "C78_raises_refuted",
    "C78_others",
    "C78_hash",
    "C78_hash_refuted",
    "C78_list",
    "C78_list_fails",
    "C78_list_append",
    "C78_list_does",
    "C78_list_refuted"
   ],
   "note": "Refuted as stated: equality ignores wires and stock connections, tells copied groups and reimported trains apart, changes when locomotives are collected, raises for an accumulator without control behavior; equal entities have different hashes; a schedule list may come to hold a list."
  },
  {
   "property": "C79",
   "status": "proved",
   "theorems": [
    "C79_shown",
    "C79_fails",
    "C79_flags",
    "C79_roundtrip",
    "C79_missing",
    "C79_links",
    "C79_again",
    "C79_version_refuted",
    "C79_absolute_refuted",
    "C79_origin_refuted",
    "C79_group_tiles",
    "C79_group_tiles_refuted"
   ],
   "note": "Refuted as a plain round trip: a version None becomes the current one, absolute_snapping None becomes True when only exclude_defaults is off, snapping_grid_position is baked into the positions, tiles of groups are dropped. The constructors of entities are an oracle assumed to keep what entities say (C48)."
  },
  {
   "property": "C80",
   "status": "proved",
   "theorems": [
    "C80_isolated",
    "C80_order",
    "C80_archives",
    "C80_lifecycle",
    "C80_lifecycle_isolated",
    "C80_wiped",
    "C80_lifecycle_wiped",
    "C80_piled",
    "C80_keeps",
    "C80_restores",
    "C80_once",
    "C80_own_files",
    "C80_other_files",
    "C80_dummies",
    "C80_dotted",
    "C80_named",
    "C80_suffix",
    "C80_settings",
    "C80_sibling_refuted",
    "C80_doubled_refuted",
    "C80_folders_refuted",
    "C80_caught_refuted",
    "C80_suffix_refuted"
   ],
   "note": "Proved with five refuted parts (siblings, doubled folders, equal names in one phase, caught failures, the pattern '.lua$'). Files are sequences of marks and requires; what they compute is not modelled."
  },
  {
   "property": "C81",
   "status": "proved",
   "theorems": [
    "C81_fuels",
    "C81_declared",
    "C81_all_fuels",
    "C81_allowed",
    "C81_constructs",
    "C81_unknown_name",
    "C81_others",
    "C81_sourceless",
    "C81_stops",
    "C81_partial_refuted",
    "C81_stale_refuted",
    "C81_none",
    "C81_minimum",
    "C81_refused",
    "C81_empty",
    "C81_cleared",
    "C81_warns",
    "C81_stored",
    "C81_unknown",
    "C81_furnace_refuted",
    "C81_short_refuted",
    "C81_entries",
    "C81_values",
    "C81_only_fuel",
    "C81_smelts",
    "C81_iterator_refuted",
    "C81_outcomes"
   ],
   "note": "Proved with five refuted parts (furnaces and burner generators, ids as names, iterators, failed constructions, data added later)."
  },
  {
   "property": "C82",
   "status": "proved",
   "theorems": [
    "C82_history",
    "C82_added",
    "C82_add_result",
    "C82_written",
    "C82_validated",
    "C82_not_validated",
    "C82_live_refuted",
    "C82_own_refuted",
    "C82_virtual_refuted",
    "C82_assigned",
    "C82_assigned_same",
    "C82_setter_refuted",
    "C82_by_name",
    "C82_by_name_raw",
    "C82_no_list",
    "C82_by_place",
    "C82_found",
    "C82_field_refuted",
    "C82_numbered",
    "C82_distinct_refuted",
    "C82_never_refuted",
    "C82_storage_refuted"
   ],
   "note": "Proved with nine refuted parts (live references, own sections warned about, virtual signals, index, setter of constant combinators, field by name, three classes without sections, storage chests). set_signal itself is C36."
  },
  {
   "property": "C83",
   "status": "proved",
   "theorems": [
    "C83_names",
    "C83_failing",
    "C83_operators",
    "C83_misfit",
    "C83_scalar",
    "C83_integers",
    "C83_commutes",
    "C83_equal",
    "C83_equivalence",
    "C83_absolute",
    "C83_rounding",
    "C83_truncates",
    "C83_dictionary_ints",
    "C83_dictionary",
    "C83_keys",
    "C83_conversion",
    "C83_items",
    "C83_places",
    "C83_ticks",
    "C83_ticks_order",
    "C83_ticks_opposite",
    "C83_ticks_whole",
    "C83_ticks_shift",
    "C83_own_refuted",
    "C83_cast_refuted",
    "C83_dictionary_operand_refuted",
    "C83_congruent_refuted",
    "C83_through_dict_refuted",
    "C83_additive_refuted"
   ],
   "note": "Proved with six refuted parts (own vectors, casts, dictionaries as operands, congruence, dictionaries of large ints, additivity). Floats are finite; binary64 enters as an oracle."
  },
  {
   "property": "C84",
   "status": "proved",
   "theorems": [
    "C84_classes",
    "C84_asks",
    "C84_unique",
    "C84_set",
    "C84_means_constant",
    "C84_means_signal",
    "C84_means_nothing",
    "C84_failure",
    "C84_value",
    "C84_attribute",
    "C84_nothing_else",
    "C84_warns",
    "C84_remove",
    "C84_remove_failure",
    "C84_history",
    "C84_history_total",
    "C84_history_rest",
    "C84_cleared",
    "C84_exception_refuted",
    "C84_none_refuted",
    "C84_spelling_refuted",
    "C84_text_refuted"
   ],
   "note": "Proved with four refuted parts (exception, None as control behaviour, spelling kept, strings read as numbers)."
  },
  {
   "property": "C85",
   "status": "proved",
   "theorems": [
    "C85_assign",
    "C85_refuses",
    "C85_meaning",
    "C85_proper",
    "C85_none_instrument",
    "C85_none_numbers",
    "C85_none_note",
    "C85_last_instrument",
    "C85_last_note",
    "C85_validate",
    "C85_validate_refused",
    "C85_validate_coerces",
    "C85_instrument_name",
    "C85_note_name",
    "C85_list",
    "C85_list_minimum",
    "C85_export",
    "C85_equal",
    "C85_equal_numbers",
    "C85_reimport",
    "C85_reimport_same",
    "C85_equal_refuted",
    "C85_reimport_refuted",
    "C85_mode_refuted",
    "C85_stale_refuted",
    "C85_partial_refuted"
   ],
   "note": "Proved with five refuted parts (equality, reimport, mode, stale warning, partial effect)."
  },
  {
   "property": "C86",
   "status": "proved",
   "theorems": [
    "C86_map",
    "C86_objects",
    "C86_found",
    "C86_brought",
    "C86_insert",
    "C86_delete",
    "C86_delete_empty",
    "C86_replace",
    "C86_replace_outside",
    "C86_at",
    "C86_elsewhere",
    "C86_nowhere",
    "C86_blind",
    "C86_blind_insert",
    "C86_blind_remove",
    "C86_remove",
    "C86_contains",
    "C86_group_refuted",
    "C86_parent_refuted",
    "C86_twins_refuted",
    "C86_depth_refuted",
    "C86_other_refuted"
   ],
   "note": "Proved with five refuted parts (group off the origin, stale parent, equal entities, depth, object)."
  },
  {
   "property": "C87",
   "status": "proved",
   "theorems": [
    "C87_selects",
    "C87_only",
    "C87_checkout",
    "C87_unknown",
    "C87_invalid",
    "C87_foreign",
    "C87_alike",
    "C87_asks",
    "C87_latest",
    "C87_recent",
    "C87_again",
    "C87_quiet",
    "C87_verbose",
    "C87_lines",
    "C87_detached",
    "C87_report",
    "C87_report_after",
    "C87_detached_refuted",
    "C87_verbose_refuted",
    "C87_latest_refuted",
    "C87_name_refuted",
    "C87_version",
    "C87_text",
    "C87_four_refuted",
    "C87_update",
    "C87_update_ok",
    "C87_update_early",
    "C87_update_refuted",
    "C87_settings",
    "C87_settings_missing"
   ],
   "note": "Proved with six refuted parts (detached HEAD, verbose, latest by date, tag names, four numbers, atomicity)."
  },
  {
   "property": "C88",
   "status": "proved",
   "theorems": [
    "C88_multipliers",
    "C88_rounding",
    "C88_size",
    "C88_size_fixed",
    "C88_size_none",
    "C88_size_grows",
    "C88_size_refuted",
    "C88_wagon",
    "C88_defaults",
    "C88_arguments",
    "C88_chest_refuted",
    "C88_chest",
    "C88_arguments_refuted",
    "C88_refused",
    "C88_infinity",
    "C88_lab",
    "C88_counted_refuted",
    "C88_module_counts",
    "C88_counted",
    "C88_unreasonable",
    "C88_index",
    "C88_index_refuted",
    "C88_grid",
    "C88_aligned",
    "C88_grid_whole",
    "C88_grid_refuted"
   ],
   "note": "Proved with six refuted parts (requests to containers, further arguments, counting modules, other qualities, index of a too large blueprint, positions between tiles)."
  },
  {
   "property": "C89",
   "status": "proved",
   "theorems": [
    "C89_construct",
    "C89_construct_refused",
    "C89_construct_none",
    "C89_construct_unhashable",
    "C89_construct_raises",
    "C89_construct_modes",
    "C89_construct_none_refuted",
    "C89_set",
    "C89_set_refused",
    "C89_set_raw",
    "C89_mode",
    "C89_mode_refuted",
    "C89_validate",
    "C89_validate_refuted",
    "C89_life",
    "C89_untouched",
    "C89_type_later_refuted",
    "C89_call",
    "C89_call_fails",
    "C89_make",
    "C89_make_refuted",
    "C89_call_refuted",
    "C89_export",
    "C89_export_keys",
    "C89_round_trip",
    "C89_round_trip_refuted"
   ],
   "note": "Proved with seven refuted parts (construction without validation, defaults after a change of type, coercion by validate, wrong modes, refused lists, data with a mode, default conditions of other types)."
  },
  {
   "property": "C90",
   "status": "proved",
   "theorems": [
    "C90_set",
    "C90_refused",
    "C90_refused_keeps",
    "C90_one_meaning",
    "C90_any_mode",
    "C90_names",
    "C90_slot",
    "C90_then_one",
    "C90_then_next",
    "C90_unvalidated",
    "C90_unvalidated_list",
    "C90_unvalidated_raw",
    "C90_run",
    "C90_again",
    "C90_arguments",
    "C90_clear",
    "C90_no_list",
    "C90_count_unknown",
    "C90_count",
    "C90_list_refuted",
    "C90_none_refuted",
    "C90_bounds_refuted",
    "C90_unknown_refuted",
    "C90_slots_refuted",
    "C90_signal_refuted"
   ],
   "note": "Proved with six refuted parts (documented list argument, None among others, bounds of the index, unknown items, one filter per slot, 'signal' entries)."
  },
  {
   "property": "C91",
   "status": "proved",
   "theorems": [
    "C91_widths",
    "C91_printed",
    "C91_columns",
    "C91_head",
    "C91_short_columns",
    "C91_rows",
    "C91_row_count",
    "C91_lines",
    "C91_row_says",
    "C91_columns_refuted",
    "C91_empty_refuted",
    "C91_distinct_refuted"
   ],
   "note": "Proved with three refuted parts (alignment for names longer than 50 characters with several versions, no mods, names cut alike)."
  },
  {
   "property": "C92",
   "status": "proved",
   "theorems": [
    "C92_call",
    "C92_program",
    "C92_nothing_lost",
    "C92_none_shown",
    "C92_lost_refuted",
    "C92_order_refuted",
    "C92_suggestion",
    "C92_no_suggestion"
   ],
   "note": "Proved with two refuted parts (warnings issued before an exception are lost; warnings are shown after later effects)."
  },
  {
   "property": "C93",
   "status": "proved",
   "theorems": [
    "C93_roundtrip",
    "C93_written",
    "C93_fixed_unique",
    "C93_laid",
    "C93_same_meaning",
    "C93_braces",
    "C93_fails",
    "C93_kept_refuted"
   ],
   "note": "Proved with one refuted part (the file is emptied before the text is made)."
  },
  {
   "property": "C94",
   "status": "proved",
   "theorems": [
    "C94_roundtrip",
    "C94_again",
    "C94_same",
    "C94_malformed",
    "C94_agree",
    "C94_wrong_kind",
    "C94_kinds",
    "C94_errors_refuted",
    "C94_twice",
    "C94_texts",
    "C94_init"
   ],
   "note": "Proved with one refuted part (errors for strings that hold something else than an object with a known keyword)."
  }
 ]
}