{"id": "C01", "title": "Packed version numbers are lossless and order preserving", "statement": "For every version (major, minor, patch, dev) whose four parts fit in 16 bits, decoding the packed 64-bit integer returns exactly the same four parts; packing the decoded parts of any 64-bit integer returns that integer; and comparing two packed integers gives the same answer as comparing the two version tuples lexicographically. Outside 16 bits the packing is not injective.", "quantifier": "all 4-tuples of naturals below 65536 and all integers in [0, 2^64)", "why_tests_cant": "The domain has 2^64 points; tests cover a handful of version numbers.", "anchors": ["draftsman/utils.py:encode_version", "draftsman/utils.py:decode_version"]}
{"id": "C02", "title": "Version tuples survive the trip through their dotted string form", "statement": "Converting any non-empty tuple of non-negative integers to a dotted version string and parsing it again returns the same tuple, and every string accepted by the parser is split at the dots and only at the dots.", "quantifier": "all non-empty tuples of non-negative integers, any length", "why_tests_cant": "Tuples and the digits of each part are unbounded.", "anchors": ["draftsman/utils.py:version_string_to_tuple", "draftsman/utils.py:version_tuple_to_string"]}
{"id": "C03", "title": "Blueprint strings decode to exactly what was encoded", "statement": "For every JSON-able value, decoding the blueprint string produced from it returns the same value, regardless of which leading version character the string carries; and any string that is not a valid encoding is reported as a malformed blueprint string and by no other exception.", "quantifier": "all JSON values, all byte strings and all input strings (the zlib compressor is an arbitrary lossless oracle)", "why_tests_cant": "Payloads are unbounded; malformed inputs form an infinite set.", "anchors": ["draftsman/utils.py:string_to_JSON", "draftsman/utils.py:JSON_to_string"]}
{"id": "C04", "title": "Axis-aligned overlap test is exact", "statement": "Two axis-aligned boxes of positive size are reported as overlapping if and only if some point lies strictly inside both; boxes that only share an edge or corner never overlap; the test is symmetric and unaffected by translating both boxes together.", "quantifier": "all pairs of boxes with any local corners and world offsets", "why_tests_cant": "Boundary configurations over a continuum of coordinates.", "anchors": ["draftsman/utils.py:aabb_overlaps_aabb", "draftsman/utils.py:AABB"]}
{"id": "C05", "title": "Bounding boxes are the least boxes containing every member", "statement": "The bounding box of a blueprint or group contains the bounding box of each of its entities and tiles, and is contained in every box that does; the reported dimensions are the rounded-up extents of that box; an empty collection has no box and dimensions (0, 0).", "quantifier": "all lists of entity and tile boxes, any length and order", "why_tests_cant": "Lists are unbounded and the order of extension matters to the code but must not matter to the result.", "anchors": ["draftsman/utils.py:extend_aabb", "draftsman/utils.py:aabb_to_dimensions", "draftsman/classes/blueprint.py:get_world_bounding_box", "draftsman/classes/group.py:get_world_bounding_box"]}
{"id": "C06", "title": "Separating-axis test never misses or invents a collision between rotated rectangles", "statement": "For rotated rectangles (and mixtures with axis-aligned boxes) of positive size, the overlap test answers yes exactly when some point lies strictly inside both, and two collision sets overlap exactly when some pair of their shapes does.", "quantifier": "all pairs of rectangles of any position, size and angle", "why_tests_cant": "A continuum of positions and angles.", "anchors": ["draftsman/utils.py:is_separating_axis", "draftsman/utils.py:rect_overlaps_rect", "draftsman/utils.py:flatten_points_on"]}
{"id": "C07", "title": "Bounding box of a rotated rectangle encloses the rectangle", "statement": "The axis-aligned bounding box computed for a rotated rectangle contains all four corners for every angle.", "quantifier": "all rectangles and angles", "why_tests_cant": "Fails only for particular corner orders (for instance 135 degrees), which sampled angles easily skip.", "anchors": ["draftsman/utils.py:Rectangle.get_bounding_box"]}
{"id": "C08", "title": "Quarter turns of an axis-aligned box behave like rotations of the plane", "statement": "Rotating a box by a quarter-turn amount gives exactly the image of the box under that rotation about the local origin; turns compose additively, four quarter turns are the identity, and any amount that is not a quarter turn is rejected leaving the box unchanged.", "quantifier": "all boxes and all integer amounts", "why_tests_cant": "Unbounded coordinates, all residues modulo 16.", "anchors": ["draftsman/utils.py:AABB.rotate", "draftsman/utils.py:rotate_point"]}
{"id": "C09", "title": "Point lookup in the spatial map is exact away from cell seams", "statement": "Looking up a point returns an item if and only if the point lies in that item's box (edges included), for every history of insertions, provided the point is not on the right/bottom edge of an item lying exactly on a cell boundary; on such a seam an item can be missed.", "quantifier": "all item sets, all points, all insertion histories", "why_tests_cant": "Needs every alignment between boxes and the 8-tile cells.", "anchors": ["draftsman/classes/spatial_hashmap.py:SpatialHashMap.get_on_point", "draftsman/classes/spatial_hashmap.py:SpatialHashMap._cell_coords_from_aabb"]}
{"id": "C10", "title": "Area lookup in the spatial map is sound and complete up to its margin", "statement": "Everything an area lookup returns overlaps the area, nothing is returned twice, a limit returns that many of the same results from the front, and every stored item that overlaps an area (given in world coordinates) by at least the 0.001-tile margin is returned.", "quantifier": "all item sets and query areas", "why_tests_cant": "Needs every alignment between boxes, query and cells.", "anchors": ["draftsman/classes/spatial_hashmap.py:SpatialHashMap.get_in_aabb"]}
{"id": "C11", "title": "Radius lookup in the spatial map is sound, and complete for items stored where their position is", "statement": "Every item returned by a radius lookup has its position within the radius, and every stored item whose position is within the radius is returned when its position lies in one of the cells its own box covers.", "quantifier": "all item sets, centres and radii", "why_tests_cant": "Needs every alignment between circle and cells.", "anchors": ["draftsman/classes/spatial_hashmap.py:SpatialHashMap.get_in_radius", "draftsman/classes/spatial_hashmap.py:SpatialHashMap._cell_coords_from_radius"]}
{"id": "C12", "title": "The spatial map holds exactly the items inserted and not removed", "statement": "After any sequence of insertions and removals an item is found in every cell its box covers exactly when it was inserted and not removed since; removing an item never disturbs other (unequal) items and removing an absent item changes nothing.", "quantifier": "all sequences of add and remove operations", "why_tests_cant": "Histories are unbounded.", "anchors": ["draftsman/classes/spatial_hashmap.py:SpatialHashMap.add", "draftsman/classes/spatial_hashmap.py:SpatialHashMap.remove"]}
{"id": "C13", "title": "Looking an entity up by ID always yields the entity carrying that ID", "statement": "After any sequence of appends, in-range inserts, single deletions, replacements and ID changes on an entity list, the string IDs in use and the entities at integer positions agree: list[id] is the member whose ID is id, every member with an ID is found under it, no two members share an ID, and no stale ID remains.", "quantifier": "all sequences of list operations, any length", "why_tests_cant": "The index maps are updated incrementally by shifting; only an invariant over all histories settles it.", "anchors": ["draftsman/classes/entity_list.py:EntityList.insert", "draftsman/classes/entity_list.py:EntityList.__delitem__", "draftsman/classes/entity_list.py:EntityList.__setitem__", "draftsman/classes/entity_list.py:EntityList._shift_key_indices", "draftsman/classes/entity_list.py:EntityList._set_key", "draftsman/classes/entity_list.py:EntityList._remove_key"]}
{"id": "C14", "title": "A rejected insertion leaves the entity list untouched", "statement": "Inserting an entity whose ID is already used raises the duplicate-ID error and leaves members, IDs and positions exactly as they were.", "quantifier": "all lists and all entities", "why_tests_cant": "Any history can precede the failing call.", "anchors": ["draftsman/classes/entity_list.py:EntityList.insert", "draftsman/classes/entity_list.py:EntityList.check_entitylike"]}
{"id": "C15", "title": "Deleting a slice of entities keeps IDs attached to the right entities", "statement": "After deleting any slice of an entity list, looking up any surviving ID yields the surviving entity with that ID.", "quantifier": "all lists and all slices", "why_tests_cant": "Every combination of slice bounds and ID placement.", "anchors": ["draftsman/classes/entity_list.py:EntityList.__delitem__"]}
{"id": "C16", "title": "Set operations on entity lists are the mathematical ones", "statement": "Intersection and difference of two entity lists keep exactly the members of the first that are (respectively are not) equal to some member of the second, in order; union keeps all of the first followed by the members of the second equal to none of the first.", "quantifier": "all pairs of lists", "why_tests_cant": "Unbounded lists and arbitrary equality patterns.", "anchors": ["draftsman/classes/entity_list.py:EntityList.union", "draftsman/classes/entity_list.py:EntityList.intersection", "draftsman/classes/entity_list.py:EntityList.difference"]}
{"id": "C17", "title": "Tile list contents and spatial index stay in step", "statement": "After any sequence of tile insertions, deletions and clears the tile list and its spatial index contain the same tiles, merged tiles are not listed twice, and union, intersection and difference are the mathematical ones.", "quantifier": "all sequences of tile list operations", "why_tests_cant": "Histories are unbounded.", "anchors": ["draftsman/classes/tile_list.py:TileList.insert", "draftsman/classes/tile_list.py:TileList.__delitem__", "draftsman/classes/tile_list.py:TileList.union"]}
{"id": "C18", "title": "Translating a blueprint moves everything rigidly", "statement": "Translation adds the same vector to the position of each top-level entity and each tile, keeps order, identities, directions and wires, composes additively, is undone by the opposite translation, and keeps each entity's tile position in step with its position.", "quantifier": "all blueprints and translation vectors", "why_tests_cant": "Unbounded collections and vectors.", "anchors": ["draftsman/classes/transformable.py:Transformable.translate"]}
{"id": "C19", "title": "Rotating a blueprint is the plane rotation it claims to be", "statement": "When rotation succeeds, each position is the image of the old one under the quarter-turn about the origin (tiles about their centres), directions of rotatable entities advance by the same angle, turns compose additively modulo a full turn; amounts that are not a multiple of 4 are rejected without any change. It succeeds exactly when no rotatable entity's direction plus the angle leaves the 16 directions.", "quantifier": "all blueprints and all integer angles", "why_tests_cant": "Unbounded collections, every direction/angle combination.", "anchors": ["draftsman/classes/transformable.py:Transformable.rotate"]}
{"id": "C20", "title": "Flipping a blueprint is a mirror image", "statement": "When flipping succeeds each position is mirrored in the chosen axis and each direction is the mirror image of the old one, so that flipping twice restores the blueprint; unflippable content or a bad axis name is rejected without any change.", "quantifier": "all blueprints and both axes", "why_tests_cant": "Unbounded collections, every direction.", "anchors": ["draftsman/classes/transformable.py:Transformable.flip", "draftsman/classes/collection.py:flippable"]}
{"id": "C21", "title": "A transformation that fails leaves the blueprint unchanged", "statement": "If translate, rotate or flip raises an error, no entity or tile has been moved and every member is still findable.", "quantifier": "all blueprints and arguments", "why_tests_cant": "Failure can strike at any member of an unbounded list.", "anchors": ["draftsman/classes/transformable.py:Transformable.rotate", "draftsman/classes/transformable.py:Transformable.flip"]}
{"id": "C22", "title": "Position and tile position always describe the same place", "statement": "After any sequence of position, tile position and component assignments, an entity's position equals its tile position plus half its size whenever the position was grid-placeable, setting the tile position is exact, and setting the position to a grid-placeable value is exact; round-half-even decides the tile of off-grid positions.", "quantifier": "all sizes and all sequences of assignments", "why_tests_cant": "Every combination of odd/even sizes and half-tile offsets.", "anchors": ["draftsman/classes/entity.py:Entity.position", "draftsman/classes/entity.py:Entity.tile_position", "draftsman/classes/entity.py:_PosVector", "draftsman/classes/entity.py:_TileVector"]}
{"id": "C23", "title": "Exported wires point at the entities they were attached to", "statement": "In an exported blueprint every entity has a distinct number from 1 to n in list order, and each wire end and schedule locomotive is exported as the number of the entity it was attached to, provided no two entities compare equal; a wire to an entity outside the blueprint is reported as an error.", "quantifier": "all blueprints with any nesting of groups and any wire list", "why_tests_cant": "Unbounded entity and wire lists.", "anchors": ["draftsman/classes/blueprint.py:_normalize_internal_structure"]}
{"id": "C24", "title": "Importing an exported blueprint restores the same wiring", "statement": "Reading back an exported wire list against the exported entity list attaches each wire to the entities at the same positions in the list with the same connector ids, keeping order and dropping only exact duplicates.", "quantifier": "all entity lists and wire lists", "why_tests_cant": "Unbounded lists.", "anchors": ["draftsman/classes/blueprint.py:_normalize_internal_structure", "draftsman/classes/blueprint.py:Blueprint.setup"]}
{"id": "C25", "title": "Power connections: adding then removing restores the wire list", "statement": "Adding a copper wire connects exactly the two requested entities and changes no other wire; removing it afterwards restores the previous wires; removing an absent wire changes nothing. Repeating an add stores a second copy of the wire.", "quantifier": "all wire lists and entity pairs", "why_tests_cant": "Unbounded wire lists and histories.", "anchors": ["draftsman/classes/collection.py:add_power_connection", "draftsman/classes/collection.py:remove_power_connection"]}
{"id": "C26", "title": "Circuit connections: adding then removing restores the wire list", "statement": "Adding a red/green wire connects exactly the requested sides of the two requested entities with the requested colour and changes no other wire; removing it removes that wire and nothing else, in whichever order the two ends are named.", "quantifier": "all wire lists, entity pairs, colours and sides", "why_tests_cant": "Unbounded wire lists and histories.", "anchors": ["draftsman/classes/collection.py:add_circuit_connection", "draftsman/classes/collection.py:remove_circuit_connection", "draftsman/classes/collection.py:remove_circuit_connections"]}
{"id": "C27", "title": "Generated power connections join only poles that can reach each other", "statement": "Automatic power wiring adds wires only between power-connectable entities within both wire reaches, never wires an entity to itself, and keeps all existing wires.", "quantifier": "all layouts of poles", "why_tests_cant": "Unbounded layouts.", "anchors": ["draftsman/classes/collection.py:generate_power_connections"]}
{"id": "C28", "title": "Combining wait conditions preserves their boolean meaning", "statement": "The list of conditions produced by combining wait conditions with & and | evaluates (left to right, 'and' binding tighter, as the game does) to the conjunction/disjunction of the operands whenever neither operand needs parentheses, and the operands themselves are never modified.", "quantifier": "all condition lists and all truth assignments", "why_tests_cant": "All expressions and assignments.", "anchors": ["draftsman/classes/schedule.py:WaitCondition.__and__", "draftsman/classes/schedule.py:WaitCondition.__or__", "draftsman/classes/schedule.py:WaitCondition.__rand__", "draftsman/classes/schedule.py:WaitCondition.__ror__"]}
{"id": "C29", "title": "Schedules keep each locomotive once and edit only the stop asked for", "statement": "After any sequence of locomotive additions and removals a locomotive is in the schedule at most once and exactly when added and not removed since; inserting a stop then removing it restores the stop list; removing a stop deletes the first match only or raises when there is none.", "quantifier": "all sequences of schedule operations", "why_tests_cant": "Histories are unbounded.", "anchors": ["draftsman/classes/schedule.py:Schedule.add_locomotive", "draftsman/classes/schedule.py:Schedule.remove_locomotive", "draftsman/classes/schedule.py:Schedule.insert_stop", "draftsman/classes/schedule.py:Schedule.remove_stop"]}
{"id": "C30", "title": "Train configuration strings mean what they spell", "statement": "A configuration string written as blocks of counted cars parses to exactly the cars spelled, block by block, in order, with locomotives facing the direction dictated by the block position; any unknown car letter is rejected; the rail length is the number of cars times 3.5 rounded up.", "quantifier": "all strings of the configuration language", "why_tests_cant": "The language is infinite.", "anchors": ["draftsman/classes/train_configuration.py:TrainConfiguration.from_string", "draftsman/classes/train_configuration.py:TrainConfiguration.rail_length"]}
{"id": "C31", "title": "Compass directions form a cyclic group", "statement": "Opposite is its own inverse and never fixes a direction, next and previous undo each other at both step sizes, sixteen (or four) steps return to the start, and the vector of the opposite of a cardinal direction is the negated vector.", "quantifier": "all 16 directions and any number of steps", "why_tests_cant": "Any number of steps.", "anchors": ["draftsman/constants.py:Direction"]}
{"id": "C32", "title": "Orientations live on the unit circle and agree with directions", "statement": "Adding and subtracting orientations always lands in [0,1) and obeys the group laws; opposite is its own inverse; converting one of the eight compass directions to an orientation and back returns it (sixteen way for all eight, four way for the four main ones); orientations too close to a full turn cannot be converted.", "quantifier": "all rational orientations", "why_tests_cant": "A continuum of values.", "anchors": ["draftsman/constants.py:Orientation", "draftsman/constants.py:Direction.to_orientation"]}
{"id": "C33", "title": "Upgrade planner mappings behave like an indexed table", "statement": "After any sequence of set and pop operations the mappings are sorted by index with no repeated index, looking up an index gives the last mapping set there and not popped since, and popping a missing index is an error without effect.", "quantifier": "all sequences of mapping operations", "why_tests_cant": "Histories are unbounded.", "anchors": ["draftsman/classes/upgrade_planner.py:UpgradePlanner.set_mapping", "draftsman/classes/upgrade_planner.py:UpgradePlanner.remove_mapping", "draftsman/classes/upgrade_planner.py:UpgradePlanner.pop_mapping"]}
{"id": "C34", "title": "Deconstruction planner filters behave like an indexed table", "statement": "After any sequence of filter assignments, looking up a slot gives the last name assigned there and not cleared since, and no slot is listed twice; clearing an empty slot raises instead of doing nothing.", "quantifier": "all sequences of filter assignments", "why_tests_cant": "Histories are unbounded.", "anchors": ["draftsman/classes/deconstruction_planner.py:DeconstructionPlanner.set_entity_filter", "draftsman/classes/deconstruction_planner.py:DeconstructionPlanner.set_tile_filter"]}
{"id": "C35", "title": "Item, inventory and infinity filters behave like an indexed table", "statement": "After any sequence of filter assignments on an entity, looking up a slot gives the last item assigned and not cleared since, no slot is listed twice and slots not mentioned are unaffected.", "quantifier": "all sequences of filter assignments", "why_tests_cant": "Histories are unbounded.", "anchors": ["draftsman/classes/mixins/filters.py:FiltersMixin.set_item_filter", "draftsman/classes/mixins/inventory_filter.py:InventoryFilterMixin.set_inventory_filter", "draftsman/prototypes/infinity_container.py:InfinityContainer.set_infinity_filter"]}
{"id": "C36", "title": "Signal sections behave like an indexed table", "statement": "After any sequence of signal assignments to a section, reading a slot gives the last signal assigned there, other slots are unaffected and no slot appears twice.", "quantifier": "all sequences of signal assignments", "why_tests_cant": "Histories are unbounded.", "anchors": ["draftsman/signatures.py:Section.set_signal", "draftsman/signatures.py:Section.get_signal"]}
{"id": "C37", "title": "Item requests record exactly the amount last requested per item, quality, inventory and slot", "statement": "After requesting an amount of an item into a slot, the entity requests exactly that amount there; requesting again replaces the amount, requesting zero removes the item, and other items are unaffected.", "quantifier": "all sequences of item requests", "why_tests_cant": "Histories are unbounded.", "anchors": ["draftsman/classes/mixins/request_items.py:RequestItemsMixin.set_item_request"]}
{"id": "C38", "title": "Blueprint books export each member once with a definite index", "statement": "Exporting a book emits members in order, each with its custom index if it has one and its list position otherwise; without custom indices all exported indices are distinct; members re-import in the same order with the same kind.", "quantifier": "all books, any nesting", "why_tests_cant": "Unbounded lists and nesting.", "anchors": ["draftsman/classes/blueprint_book.py:BlueprintBook.to_dict", "draftsman/classes/blueprint_book.py:BlueprintableList"]}
{"id": "C39", "title": "Filtered searches return exactly the matching members", "statement": "Searching entities (or tiles) by name, type, direction, area and limit returns exactly the members meeting all criteria, each once, in order, truncated at the limit; inverting returns exactly the complement.", "quantifier": "all collections and all criteria", "why_tests_cant": "All combinations of criteria on unbounded collections.", "anchors": ["draftsman/classes/collection.py:find_entities_filtered", "draftsman/classes/collection.py:find_tiles_filtered"]}
{"id": "C40", "title": "Nested groups are flattened in order and placed by the sum of their ancestors' positions", "statement": "Flattening lists every non-group entity of any nesting exactly once in depth-first order, and each entity's global position is its own position plus the positions of all groups containing it; moving a group moves every descendant by the same vector.", "quantifier": "all nestings of groups", "why_tests_cant": "Unbounded nesting.", "anchors": ["draftsman/utils.py:flatten_entities", "draftsman/classes/group.py:Group.global_position", "draftsman/classes/entity.py:Entity.global_position"]}
{"id": "C41", "title": "Energy strings parse to the stated number of joules per tick or joules", "statement": "An energy string consisting of a number and a unit parses to the number times the power of ten of its prefix, divided by 60 for watts, and any unknown unit is rejected.", "quantifier": "all numbers and all prefixes", "why_tests_cant": "Unbounded numbers.", "anchors": ["draftsman/utils.py:parse_energy"]}
{"id": "C42", "title": "Mods load after everything they depend on", "statement": "The computed load order contains every enabled mod exactly once, each after all mods it depends on, with ties broken by name, whenever every dependency entry is a required (or present optional) mod and dependencies are acyclic; an incompatible mod that is present and a missing required mod are reported.", "quantifier": "all acyclic dependency graphs", "why_tests_cant": "All graphs of any size.", "anchors": ["draftsman/environment/update.py:run_data_lifecycle", "draftsman/environment/mod_list.py:Mod.get_depth"]}
{"id": "C43", "title": "The newest version of a mod is the one used", "statement": "Among all discovered versions of a mod the first one kept is of the greatest version, and a folder is preferred to an archive of the same version; no version is lost.", "quantifier": "all sets of discovered versions", "why_tests_cant": "Unbounded lists.", "anchors": ["draftsman/environment/mod_list.py:discover_mods"]}
{"id": "C44", "title": "Mod settings decode to the tree stored in the file", "statement": "Decoding the binary form of any settings tree (no lists or unsigned integers) returns that tree and consumes exactly its bytes, with dictionaries in order and later duplicate keys winning; any unknown node type is an error. The writer cannot produce a file.", "quantifier": "all settings trees of any depth and string length below 2^32", "why_tests_cant": "Unbounded trees.", "anchors": ["draftsman/environment/mod_settings.py:decode_mod_settings", "draftsman/environment/mod_settings.py:encode_mod_settings"]}
{"id": "C45", "title": "Decider conditions written with Python comparison operators mean the same comparison", "statement": "Comparing two decider inputs with a Python operator builds a condition that is true exactly when the same comparison of the input values is, and combining conditions with & and | keeps the meaning of conditions already built.", "quantifier": "all operators and all values", "why_tests_cant": "All values and expressions.", "anchors": ["draftsman/prototypes/decider_combinator.py:DeciderInput", "draftsman/prototypes/decider_combinator.py:DeciderCondition"]}
{"id": "C46", "title": "Reversing belts makes every fed belt feed its former feeder", "statement": "After reversing the belts of a blueprint, each transport belt fed by exactly one other belt points at that belt; a straight line of belts becomes the same line running backwards, and reversing any simple chain of belts twice restores the directions of all but its ends.", "quantifier": "all layouts of transport belts at distinct positions", "why_tests_cant": "Unbounded layouts.", "anchors": ["draftsman/extras.py:reverse_belts"]}
{"id": "C47", "title": "A rejected assignment never changes the object", "statement": "A validated attribute assignment either stores the validated value or raises and leaves the attribute as it was; errors are raised before any warning is issued; stricter validation modes never lose an error reported by a laxer one.", "quantifier": "all values, modes and attributes", "why_tests_cant": "All values.", "anchors": ["draftsman/classes/exportable.py:attempt_and_reissue", "draftsman/classes/exportable.py:test_replace_me", "draftsman/classes/exportable.py:ValidationResult.reissue_all"]}
{"id": "C48", "title": "Trimmed exports re-import to the same object", "statement": "Exporting an object without its default and empty fields and importing it again restores every field, for every object in which no field with a non-empty default has been explicitly cleared.", "quantifier": "all records over any schema of fields and defaults, any nesting", "why_tests_cant": "All schemas and values.", "anchors": ["draftsman/classes/exportable.py:Exportable.to_dict"]}
{"id": "C49", "title": "Prototype ordering is total and never fails", "statement": "Sorting prototypes by group, subgroup, order string and name returns every prototype exactly once, in the documented lexicographic order, with objects lacking an order string after those having one in the same subgroup, and never compares a missing order with a present one.", "quantifier": "all prototype tables", "why_tests_cant": "Unbounded tables and all combinations of missing fields.", "anchors": ["draftsman/environment/update.py:get_order"]}
{"id": "C50", "title": "Placed trains are evenly spaced, ordered and oriented as configured", "statement": "Placing a train configuration at a position and heading adds its cars in order, consecutive cars exactly seven tiles apart along the heading, each with the orientation of the heading or its opposite as configured, and attaches the schedule to its locomotives only.", "quantifier": "all configurations, positions and headings", "why_tests_cant": "Configurations are unbounded.", "anchors": ["draftsman/classes/collection.py:add_train_at_position"]}
{"id": "C51", "title": "A train added at a station is found standing at that station", "statement": "After a train is added behind a train stop, the search for trains at stations looks for that train's stop at the position and direction of that very stop.", "quantifier": "all configurations headed by a forward car, all stations facing one of the four main directions", "why_tests_cant": "Unbounded configurations and positions.", "anchors": ["draftsman/classes/collection.py:add_train_at_station", "draftsman/classes/collection.py:find_trains_filtered"]}
{"id": "C52", "title": "Turned and placed collision sets are the turned and placed point sets", "statement": "Rotating a collision set whose boxes have no offset yields exactly the set's points turned clockwise about the origin by 22.5 degrees per step; it fails (ValueError) exactly when some shape is an axis-aligned box and the amount is not a multiple of four; successive rotations add up; rotating or placing two sets together changes no collision; the world bounding box is inside every box around all corners and contains them all for the angles at which the scan of C07 works; in the tables of straight and legacy curved rails four direction steps are a quarter turn. Boxes with an offset are turned in place, not about the set's origin (refuted).", "quantifier": "every list of shapes of positive size, every rotation amount, every world position, every tabulated rail direction", "why_tests_cant": "Tests look at a few rails; the claim ranges over all shapes, positions and amounts and compares infinite point sets.", "anchors": ["draftsman/classes/collision_set.py", "draftsman/utils.py", "draftsman/classes/spatial_like.py", "draftsman/prototypes/straight_rail.py", "draftsman/prototypes/legacy_curved_rail.py"]}
{"id": "C53", "title": "Rolling stock collisions are never missed, and are exact on the main directions", "statement": "After any sequence of assignments to the orientation of a piece of rolling stock, the corners of its collision rectangle in the world are those of the upright rectangle turned by the last orientation; whenever it shares an interior point with another shape or another piece of rolling stock the overlap test says so; the test actually decides whether the axis-parallel extents meet, which is exact when both face one of the four main directions and a false alarm for wagons on parallel diagonal tracks (refuted), because the stored normals are not updated with the angle; the world bounding box encloses the rectangle exactly when cos >= 0 or sin = 0.", "quantifier": "every history of orientation assignments, every prototype box of positive size, all positions, all shapes", "why_tests_cant": "The defect only shows for particular pairs of orientations and distances, and absence of missed collisions is a statement about all of them.", "anchors": ["draftsman/classes/mixins/orientation.py", "draftsman/utils.py", "draftsman/classes/spatial_like.py"]}
{"id": "C54", "title": "Assigning a direction", "statement": "Assigning a direction to a directional object succeeds exactly when validation is off or the value is one of the sixteen directions, and fails with DataFormatError otherwise, leaving the object unchanged; the stored direction is the value itself, rounded down to a quarter turn for four-way objects under strict validation; the tile position never changes; width and height are those of the stored direction except (refuted) after rounding a diagonal past east or west and for non-square eight-way objects facing east or west, for which the exact condition is given; an object on the grid stays on the grid; after any sequence of assignments the object is what the last accepted one alone would have made of it.", "quantifier": "every object, every value, every sequence of assignments", "why_tests_cant": "The size faults need a non-square entity together with particular values and modes, and independence of history is a statement about unbounded sequences.", "anchors": ["draftsman/classes/mixins/directional.py", "draftsman/classes/mixins/eight_way_directional.py"]}
{"id": "C55", "title": "The cars of a train are the ones connected to it, found in order", "statement": "find_train_from_wagon returns, for a given piece of rolling stock, exactly the pieces that can be reached from it over couplings: the nearer bogie of a neighbour within reach is between 2.9 and 3.1 tiles from one of the bogies of the piece (two tiles before and behind its middle), and their orientations are less than an eighth of a turn apart or from being opposite. Every piece is listed once unless both bogies of some piece touch the same neighbour, the recursion ends within as many levels as there is rolling stock, and pieces standing in line are listed from end to end, seen in the direction the starting piece points, turned over if no locomotive points that way. (The comparison of orientations does not wrap around at north and is not mutual, so some trains are found only in part, or differently from different cars.)", "quantifier": "all rolling stock at all real positions and orientations, all search results of the neighbour search, all starting pieces, trains of any length", "why_tests_cant": "Depth-first search over geometric conditions on real positions: a test lays out a few trains on straight track; membership and order for every layout and every order of the neighbour search, and the failures across north, need an induction over the walk.", "anchors": ["draftsman/classes/collection.py:1315-1441", "draftsman/utils.py:501-511", "draftsman/constants.py:390-451"]}
{"id": "C56", "title": "A placed train is found again", "statement": "After add_train_at_position or add_train_at_station has placed a train configuration on one of the eight compass directions, with every car facing forwards or backwards, find_train_from_wagon started from any of its cars returns all its cars and nothing else, in the order of the configuration or in the reverse order: in the order of the configuration if the starting car faces forwards and some locomotive does too, or if the starting car faces backwards and no locomotive does, and in the reverse order otherwise. (So for a train without locomotives the first entry is not the outermost car in the direction the starting car points, as documented.)", "quantifier": "all configurations of any length, all positions, the eight compass directions, all collections whose other rolling stock is not coupled to the new train, all starting cars", "why_tests_cant": "Combines the geometry of placement (seven tiles apart along eight directions, with irrational coordinates on the diagonals, orientations reduced or not) with the search; tests try one or two trains on one direction.", "anchors": ["draftsman/classes/collection.py:1080-1217", "draftsman/classes/collection.py:1315-1441"]}
{"id": "C57", "title": "Searching trains returns exactly the trains that meet every condition", "statement": "find_trains_filtered considers each train of the blueprint (every piece of rolling stock in one, each the whole train of one of them, no car in two when coupling is mutual) and returns, in order, exactly those that meet every condition given - length range, standing at a stop (of one of the names), counts by type and by name, orientation, configuration, schedule of its locomotive - or with invert those that do not, cut to the limit; it raises only for a train whose head has no four-way direction (station search) or that has no locomotive (schedule search).", "quantifier": "for all collections of rolling stock, stops and schedules, all queries, inversion and limits", "why_tests_cant": "Tests search one or two hand-built trains by one criterion at a time; interactions of criteria, the first-matching stop, trains without locomotives, orientations near a full turn, overlapping trains and negative limits are not sampled.", "anchors": ["draftsman/classes/collection.py:1443-1655"]}
{"id": "C58", "title": "Giving a train a schedule, or removing it, touches exactly its own associations", "statement": "set_train_schedule takes every locomotive of every train touched by the given cars out of the schedules it was in and, if a schedule is given, puts it once into the last schedule with the same stops (or appends the given one), leaving the stops, the other locomotives and their order as they were; the train is then found by that schedule. remove_train removes exactly the given members and the associations of the locomotives among them.", "quantifier": "for all collections, schedules, lists of cars and visiting orders of the set of cars", "why_tests_cant": "Tests set the schedule of one train and look at one schedule; several trains and schedules, repeated associations, equal entities, failures half way and the order of the others are not checked.", "anchors": ["draftsman/classes/collection.py:1219-1313", "draftsman/classes/schedule.py:542-571"]}
{"id": "C59", "title": "Deep copies of groups and blueprints lead to copies", "statement": "copy.deepcopy of a group yields the same nested structure over entirely new objects, one for each original, in which every wire end and every locomotive of every schedule, at every depth, leads to the copy of what it led to before; nothing in the copy leads out of it, so it survives the original. It succeeds exactly if every association of every nested group leads to a living object inside that group or before it in the order of members (a KeyError otherwise, contrary to the documentation, which promises that associations to the outside are left as they are). For blueprints only the entities are copied this way: their own wires and schedules keep leading to the original's entities (contrary to the claim); the copy still exports the same document as long as the originals live and compare equal, and cannot be exported once they are gone.", "quantifier": "for every tree of groups and entities of any depth without repeated objects, with any schedules and wires (ends living, dead or plain numbers), any choice of new objects, any notion of equality of entities", "why_tests_cant": "Tests copy a few small groups; the memo, the order in which members are copied and nested groups with associations across levels interact.", "anchors": ["draftsman/classes/group.py:582-633", "draftsman/classes/entity_list.py:662-690", "draftsman/classes/blueprint.py:1159-1206", "draftsman/classes/entity_like.py:201-227", "draftsman/classes/association.py:62-67"]}
{"id": "C60", "title": "Tables of instruments agree, and names of instruments and notes are read back", "statement": "A programmable speaker's instruments are kept three times: as a list, by name and by number. The tables made from the game's data say the same thing exactly when no instrument occurs twice, no note occurs twice in an instrument and no note is called \"self\". Adding an instrument puts it at the asked place of the list, changes no other speaker, and preserves the agreement exactly when it goes to the end, its name is new and its notes are distinct and not called \"self\"; it fails exactly for an unknown speaker. While the tables agree, an instrument or note set by name is read back under that name, a note the instrument has not got gives no note, and the name read belongs to the number the speaker holds. An instrument added before others takes the number of one of them, which then cannot be chosen by name any more.", "quantifier": "for all lists of instruments and notes, all registries of speakers, all indices (also negative ones), all sequences of additions and all speakers", "why_tests_cant": "Tests look at a few vanilla instruments; agreement after every possible insertion and the exact set of insertions that break it cannot be enumerated.", "anchors": ["draftsman/data/instruments.py:20-51", "draftsman/environment/update.py:1198-1228", "draftsman/prototypes/programmable_speaker.py:712-831"]}
{"id": "C61", "title": "Tables of signals tell one story and names resolve to fitting types", "statement": "The tables of signals made from the game's data agree: a name is in the list of a type exactly when the type is in its set of types, every known name has at least one type, and a name has exactly the types of the categories offering it, listed as often as it is offered; making the tables fails (KeyError) exactly when some prototype has no place in the sorting order. Adding a signal succeeds exactly for the eight permitted types (otherwise ValueError, nothing changed), gives this name this type besides its others, changes nothing else and keeps the tables in agreement, for every sequence of additions; the name stays listed once exactly if it did not have the type before. A signal given by its name alone gets one of its types, \"item\" whenever possible, and never draws the warning about a mismatching type; it fails exactly for unknown names. That warning is given exactly for known names with another type.", "quantifier": "for all game data with prototypes under their own names, all tables in agreement, all names and types, all sequences of additions and every iteration order of sets", "why_tests_cant": "Agreement of three tables after arbitrary additions, for arbitrary data and any set iteration order, is beyond the handful of names tests can try.", "anchors": ["draftsman/data/signals.py:33-159", "draftsman/environment/update.py:1367-1627", "draftsman/signatures.py:378-461"]}
{"id": "C62", "title": "Items are shelved in the game's order", "statement": "From the game's item groups, subgroups and items (unique names in each), the tables made contain every item, subgroup and group exactly once under its own name. Items are sorted by their group, within it by their subgroup and within it by themselves, each comparing first the order string (anything without one last) and then the name; a subgroup's own dictionary holds exactly the items naming it (\"other\" if they name none), a group's exactly its subgroups, each in that order. Items without an order get the empty one; nothing else about them changes. It fails (KeyError) exactly when some subgroup names an unknown group or some item an unknown subgroup.", "quantifier": "for all lists of groups, subgroups and items with unique names", "why_tests_cant": "Tests compare a few vanilla items; only a proof covers ties, missing orders, missing subgroups and arbitrary mods.", "anchors": ["draftsman/environment/update.py:734-856"]}
{"id": "C63", "title": "Adding groups, subgroups and items changes exactly what it names", "statement": "Adding an item registers it under its name with the given stack size and the order and subgroup it already had (else those given), appends this record to that subgroup and to no other list unless shared through the default argument, and keeps all other stack sizes, groups and subgroups. An unknown subgroup or group is refused (TypeError) with nothing changed. Every item is found in the subgroup it names, through any successful additions that make no subgroup anew. No two groups or subgroups share a list unless both were made without one. The code breaks the natural expectations as follows, each proved: a group or subgroup of the game's own data takes no addition at all (AttributeError, after the item or subgroup has been registered); subgroups made without a list of items always show the same items, so an item put into one shows up in the others; adding an item again keeps the outdated record in its subgroup and can not move it; making a subgroup anew loses its items.", "quantifier": "for all game data as extracted, all sequences of additions, all names, orders, stack sizes and lists", "why_tests_cant": "Tests add one group, one subgroup and one item of their own, so they never touch the game's own groups nor see two of them share a list.", "anchors": ["draftsman/data/items.py:22-135", "draftsman/environment/update.py:818-843"]}
{"id": "C64", "title": "Comparing and merging entities", "statement": "For every entity class: two entities can be merged exactly if they agree in class, name, global position, ID and direction; they are equal exactly if they also agree in every field outside a stated list of overlooked ones, and equality is an equivalence that implies mergability; merging takes over from the other entity every field outside a stated list, leaves all else unchanged, redirects every wire of the other entity to the first for each class wires can be attached to, makes the two equal and changes nothing when repeated; whatever validation answers, identity and the listed fields are never touched. That all attributes are compared or taken over, that comparing never raises and that a failed merge changes nothing are false, with witnesses.", "quantifier": "for all classes, entities, field values, wires and validation outcomes", "why_tests_cant": "there are 80 classes with chains of cooperating mixins; tests merge a handful of them with a handful of fields and cannot show which fields are lost", "anchors": ["draftsman/classes/entity.py:742-762", "draftsman/classes/mixins/circuit_connectable.py:94-195", "draftsman/classes/mixins/control_behavior.py:93-173", "draftsman/classes/mixins/recipe.py:208-216", "draftsman/prototypes/inserter.py:284-289"]}
{"id": "C65", "title": "Adding with merging keeps members and index in step and the last entity wins", "statement": "Adding an entity or a tree of groups with merge=True to a collection puts each new entity into the existing one of the same class, name, position, ID and direction, if there is one, and adds it otherwise: the existing entity takes over its fields, the added group lacks the merged members and its wires lead to where they went, and every other entity stays as it was. Members and spatial index hold the same entities afterwards, no two of which could be merged. Adding copies again changes nothing. After any number of additions every place is filled by the last entity brought there.", "quantifier": "all collections in step, all trees of groups of any depth without two entities in one place, all classes of entities, all sequences of additions, every index that reports what it holds", "why_tests_cant": "Tests add one or two entities; nesting, wires, and histories of additions are unbounded, and the interplay of equality, removal and redirection depends on all of them.", "anchors": ["draftsman/classes/entity_list.py:205-329", "draftsman/classes/spatial_hashmap.py:39-80"]}
{"id": "C66", "title": "Recipes and modules are sorted to the machines that take them", "statement": "Extraction keeps every recipe and module once in the game's order, lists it under exactly its own category and under exactly the machines of that category. The ingredients of a recipe are the names of its list, the modules offered are those whose raised effects are allowed and whose limitations admit the recipe, a furnace takes what some recipe of its categories takes. Adding modules keeps each listed under its category, and setting a known recipe warns exactly of a recipe the machine does not make and of requested items that neither the recipe nor the machine takes.", "quantifier": "all tables of recipes, modules, categories and machines, all effects and recipes, all sequences of additions, all requests", "why_tests_cant": "Tests read the one data set that ships with the library; mods make the tables arbitrary and additions make histories.", "anchors": ["draftsman/data/recipes.py:30-72", "draftsman/data/modules.py:16-80", "draftsman/environment/update.py:1265-1358", "draftsman/classes/mixins/recipe.py:36-204", "draftsman/prototypes/furnace.py:160-204"]}
{"id": "C67", "title": "The register of entities holds every usable prototype under its type, and names get the class of their type", "statement": "Extraction registers exactly the prototypes that are not marked as not blueprintable, each once and in the game's order, with their box, mask, flags and whether they can be flipped; each is listed under its type, logistic containers under their mode as well, and nothing else is listed. A new entity gets the class of the list its name is on and the generic class otherwise; additions of new names give each the class of its type and change nothing else.", "quantifier": "all tables of prototypes, all names, all sequences of additions", "why_tests_cant": "Tests use the one data set that ships with the library; which tables are missing, empty or passed over depends on mods, and the 85 branches of the factory are only tried for known names.", "anchors": ["draftsman/environment/update.py:38-120", "draftsman/environment/update.py:878-1170", "draftsman/data/entities.py:134-255", "draftsman/entity.py:106-322"]}
{"id": "C68", "title": "Surface conditions decide where entities go and recipes work", "statement": "A list of conditions passes exactly when every condition about a property the surface has is met, whatever the order; the properties of a known surface are its own or the standard ones, unknown surfaces have none. Entities and recipes without conditions are accepted everywhere, and the answer is the game's wherever the planet's own fields agree with its surface properties; for planets as they are extracted all answers are the same.", "quantifier": "all tables of planets, entities and recipes, all condition lists", "why_tests_cant": "The test suite tries a few entities on a few planets; which properties are looked at and where they are kept only shows when the answer is compared with the data for every condition.", "anchors": ["draftsman/data/planets.py:15-38", "draftsman/utils.py:882-902", "draftsman/data/recipes.py:75-84", "draftsman/classes/entity.py:647-698"]}
{"id": "C69", "title": "Game tables, tiles and fluids are read faithfully and kept consistent by additions", "statement": "Converting a Lua table gives a dictionary with the same keys exactly when a string is among them and otherwise the list of its values, inverse to writing the value in Lua except for numbering; tiles are extracted exactly if all masks can be made sets, each once and in order; after any additions a tile has the mask given last and a fluid the temperatures given last, else those it had, else 25, and nothing else changes.", "quantifier": "all nested tables, all tile tables, all sequences of additions", "why_tests_cant": "Nested tables of any shape come out of mods that the test suite never loads, and the effect of a later addition on an earlier one shows only in sequences.", "anchors": ["draftsman/environment/update.py:713-731", "draftsman/environment/update.py:1640-1668", "draftsman/data/fluids.py:19-67", "draftsman/data/tiles.py:15-23", "draftsman/classes/tile.py:230-232"]}
{"id": "C70", "title": "Reading mods and enabling them", "statement": "For every text, reading a dependency is a left-to-right scan of it without its spaces (optional flag, filler, name, operator, version), failing only if it names nothing; texts written as meant are read as meant. The name of an archive is the longest one that leaves a version and '.zip', the name of a folder all of it or what precedes a version with a dot, and there is no match only if there is no such reading. The folder used inside an archive is the single one, the one of the same name, or the only one equal up to case and punctuation, independently of set order. A sequence of mods is made with exactly the dependencies it lists if and only if at most one of them leaves them out. An archive or folder is registered exactly if name, info.json, Factorio version and mod list allow it, with the stages whose files are there. Enabling or disabling changes the first entry of each named mod and nothing else, and registering then reads just that.", "quantifier": "for all texts, names, classes of characters beyond ASCII, archives, folders, orders of listing, sequences of mods, mod lists and lists of names", "why_tests_cant": "Backtracking regular expressions over arbitrary texts, arbitrary sequences sharing a mutable default, and all orders of a set cannot be enumerated", "anchors": ["draftsman/environment/mod_list.py:Mod", "draftsman/environment/mod_list.py:register_mod", "draftsman/environment/mod_list.py:set_mods_enabled"]}
{"id": "C71", "title": "Arithmetic combinators show what was assigned last", "statement": "After any program of assignments to first_operand, operation, second_operand and output_signal, calls of set_arithmetic_conditions and remove_arithmetic_conditions, and assignments to control_behavior with validation on, each attribute reads back the last accepted value in its meant form (names of known signals as signals, booleans and 32-bit integers as constants, operations in upper case), the other parts and the wire networks are unchanged, a value without a meaning raises DataFormatError and changes nothing, and the warnings are exactly those stated; the mode changes only the warnings. Where the documentation promises more (errors for two signal-each, reset of the output, removal of the conditions, warnings that fit the new state) it is refuted.", "quantifier": "all sequences of statements, all values, all validation modes, all sets of known signals", "why_tests_cant": "Each part is kept in two fields with defaults and validated in the middle of the assignment, so the outcome depends on the whole history; tests set one or two attributes of a new combinator.", "anchors": ["draftsman/prototypes/arithmetic_combinator.py:46-218", "draftsman/prototypes/arithmetic_combinator.py:264-573", "draftsman/classes/exportable.py:14-44", "draftsman/classes/mixins/control_behavior.py:63-86"]}
{"id": "C72", "title": "Short forms of input mean what the long forms say", "statement": "Filters, icons, priorities, mappers, colours, conditions, versions and section filters given in short form become exactly the stated long form, entry by entry with the right index, entries already in long form and values of other kinds are unchanged, normalizing twice is normalizing once, the copies of these functions in different classes agree where stated, and what cannot be read raises the stated exception; section filters are converted in the caller's list up to the first that cannot be read. For linked containers every bit of link_id is the last value assigned to it over any history, within 32 bits under validation. Where strings are taken apart into letters or errors differ from the documented ones it is refuted.", "quantifier": "all values of the modelled kinds (lists of any length), all sets of known signals, all programs of link assignments", "why_tests_cant": "The same conversion is written out several times with different tests for what a sequence is; tests use one or two well-formed entries.", "anchors": ["draftsman/signatures.py:523-544", "draftsman/signatures.py:592-606", "draftsman/signatures.py:743-757", "draftsman/signatures.py:1254-1274", "draftsman/classes/blueprint.py:399-411", "draftsman/classes/deconstruction_planner.py:199-235", "draftsman/classes/upgrade_planner.py:289-304", "draftsman/classes/mixins/target_priorities.py:58-70", "draftsman/prototypes/linked_container.py:36-131"]}
{"id": "C73", "title": "Attributes of every class of entities are read as last accepted", "statement": "For every importable class of entities in prototypes/, every attribute written with one of the library's setter patterns is resolved along Python's method resolution order, checked and stored in one cell of its own, and read from that cell, except the listed ones. Over any program of assignments and changes of the validation mode an attribute reads what the last accepted assignment to it, or to the object holding it, made of its value, and otherwise what it read before; a refused assignment changes nothing; with validation on, the value taken is the one the check of a declared field returned; attributes of an object that has its declared fields can be read. The method resolution order lists every ancestor once, each class before its bases, in the order listed. The exceptions (circuit_enabled and auto_launch undeclared, three unchecked attributes of lamps, player_description and recipe stored before the check, recipe_quality read from recipe, sections of constant combinators, ammo_inventory) are exact lists and refuted by theorems.", "quantifier": "all class hierarchies for the order and the lookup; all 84 entity classes and all their tabulated attributes, all values, objects, checks and programs of assignments for the rest", "why_tests_cant": "An attribute is the product of multiple inheritance over some forty mixins, a nested Format class and strings naming fields; tests set a few attributes on a few classes and do not interleave them.", "anchors": ["draftsman/classes/exportable.py:14-44", "draftsman/classes/exportable.py:81-130", "draftsman/signatures.py:107-247", "draftsman/classes/mixins/circuit_condition.py", "draftsman/classes/mixins/circuit_enable.py", "draftsman/classes/mixins/recipe.py", "draftsman/classes/mixins/vehicle.py", "draftsman/prototypes/lamp.py", "draftsman/prototypes/constant_combinator.py", "draftsman/prototypes/rocket_silo.py"]}
{"id": "C74", "title": "Constructed entities have the attributes they were given", "statement": "For each of the 83 prototype classes and any keywords: if construction succeeds, every attribute that is a field of the entity reads the value given for its keyword, else the default its own class declares for it, however the initialisers of its bases hand the keywords on; attributes nested in such a field read inside of it; inventories, filters, parameters and colours read what validation made of it; control behaviours, grids and priorities what validating the whole model made; names, directions, orientations, requests and links likewise; the listed odd ones (io_type, chunk_filter, auto_launch, defaults of energy interfaces) read exactly what is stated. Keywords no initialiser, field or alias knows are kept unchanged and nothing else is added. The mode, the place (position before tile_position), the id and the similar entities are those given. Attributes keep reading it until an assignment touches them. A missing name is DataFormatError, similar_entities as a keyword TypeError, and with values that are accepted everywhere construction succeeds. The exceptions (result_inventory of asteroid collectors lost, four classes without a base never constructible, auto_launch, targets of spidertrons, recipe_quality, items of artillery turrets) are refuted by theorems.", "quantifier": "all 83 classes, all keyword arguments, all defaults, conversions and checks of values, all later programs of assignments", "why_tests_cant": "Each constructor is a chain of some ten cooperative initialisers in an order fixed by multiple inheritance, each removing, renaming or defaulting keywords and assigning afterwards; tests construct a class with a handful of keywords and miss those that are dropped, overwritten by a base later in the chain or validated in the wrong mode.", "anchors": ["draftsman/classes/entity.py:200-331", "draftsman/classes/exportable.py:201-212", "draftsman/classes/mixins/control_behavior.py", "draftsman/prototypes/asteroid_collector.py", "draftsman/prototypes/rocket_silo.py"]}
{"id": "C75", "title": "Blueprints, planners and books keep what they were last given", "statement": "For the four blueprintable classes: an assignment to an attribute is either refused with the object unchanged, or the attribute then reads what normalisation and checking made of the value (checked also in mode none for labels, icons and upgrade settings, never for vectors and lists) and every other attribute reads as before; over any program the last accepted assignment decides. setup gives every attribute the value of its first given keyword or its documented default, in a fixed order, stopping at the first refusal with exactly the earlier ones changed, independently of the earlier contents, except that unknown keywords are stored beside the body and survive later calls and that settings=None spares the filters of a deconstruction planner. Constructors do the same with the data without checks, refuse wrong roots and inputs with the stated errors, have the requested mode, and never keep their index argument.", "quantifier": "all four classes, all states of the right shape, all values, modes, keywords, programs of assignments and all behaviours of the field checks, converters and validation", "why_tests_cant": "Values, keyword sets, histories and failure points are unbounded; tests set one attribute at a time on fresh objects and never look at the others, at leftovers of earlier setup calls or at objects after a failed setup.", "anchors": ["draftsman/classes/blueprintable.py:47-145", "draftsman/classes/blueprintable.py:184-432", "draftsman/classes/blueprint.py:492-640", "draftsman/classes/blueprint.py:642-976", "draftsman/classes/blueprint_book.py:256-345", "draftsman/classes/deconstruction_planner.py:251-328", "draftsman/classes/upgrade_planner.py:406-486"]}
{"id": "C76", "title": "Upgrade planners name the first rule a mapping breaks, and nothing without a reason", "statement": "check_valid_upgrade_pair names exactly the given names that are neither entities nor items; else it says nothing about blank sides and pairs of different items, names mappings to themselves and between types, and for two entities says nothing exactly if no rule that is looked at is broken and else names the first broken rule only. Fine upgrades of entities can be chained. It raises KeyError exactly for names of items used as entities and for entities that leave nothing or no items when mined. Validating mappers gives, in modes strict and pedantic, what is said about the pairs in order, then one warning for each index used more than once, in the order of first use, with the number of overwrites and the last mapping; nothing is said exactly if all indices differ and all pairs are fine. That hidden results and targets nothing builds are prohibited does not hold.", "quantifier": "all tables of entities and items, all pairs of ids or blanks, all lists of mappers, all modes", "why_tests_cant": "Tables depend on the loaded mods and lists of mappers are unbounded; tests check a handful of pairs with one broken rule each, no pair that breaks two rules, and at most two mappers at one index.", "anchors": ["draftsman/classes/upgrade_planner.py:44-214", "draftsman/classes/upgrade_planner.py:307-381"]}
{"id": "C77", "title": "Validating a blueprint or book reports everything said about its parts, in order, and keeps its layout", "statement": "validate() of a blueprint, planner or book reports nothing and changes nothing if the mode is none and force is not given. Otherwise the report holds what is said about the sheet itself, about each entity list (two members with the same id), about every entity at any depth of groups and books, and about every tile of a blueprint, in depth first order, errors and warnings apart; an exception other than a failed validation comes out exactly if some part raises it before any other does. reissue_all() raises nothing exactly if every part passes and then issues all warnings in order, else it raises the error of the first failing part and issues no warning. Members, ids, tiles, positions, directions and orientations stay as they are whatever happens; the other fields of an entity are converted exactly if they were accepted. Validating twice gives the same report if conversion settles. That tiles of groups are reported, and that a failing blueprint is left unchanged, does not hold.", "quantifier": "all blueprints, planners and books with groups and books nested to any depth, all validators of single objects (also raising ones), all modes, forced or not", "why_tests_cant": "Nesting and numbers of members are unbounded and what validators say depends on data and modes; tests validate single entities or small flat blueprints.", "anchors": ["draftsman/classes/exportable.py:133-182", "draftsman/classes/entity.py:700-740", "draftsman/classes/tile.py:263-293", "draftsman/classes/entity_list.py:472-508", "draftsman/classes/tile_list.py:149-185", "draftsman/classes/group.py:557-573", "draftsman/classes/blueprintable.py:497-527", "draftsman/classes/blueprint.py:1028-1044", "draftsman/classes/blueprint_book.py:476-524"]}
{"id": "C78", "title": "Comparing blueprints is an equivalence that looks at attributes, entities, tiles and schedules, and at objects for groups and locomotives", "statement": "For blueprints with well formed content == never fails and is True exactly if label, label color, description, icons, version, the three snapping attributes and position relative to grid are equal, the members of the entity lists are pairwise the same in order (entities as in C64, groups only if they are one object), the tiles are pairwise equal in order and the schedules have pairwise the same locomotives (the same living object, or both collected) and the same stops with the same wait conditions. At any one time it is reflexive, symmetric and transitive. Wires, stock connections and the index do not count. Planners and books are equal to themselves only. Entities of all classes hash by address, but for two classes that cannot be hashed. The list of schedules holds only schedules whatever is done to it, unless a sequence is assigned to one place; what fails changes nothing. That equal blueprints have equal wires, that equal content makes blueprints equal, that the answer is stable, that comparing never fails and that equal entities have equal hashes does not hold.", "quantifier": "all pairs and triples of blueprints with any numbers of members, tiles, schedules, stops and conditions; all states of the collector; all operation sequences on schedule lists", "why_tests_cant": "Equivalence laws quantify over pairs and triples of unbounded structures, and the dependence on object identity and garbage collection does not show in single comparisons.", "anchors": ["draftsman/classes/blueprint.py:1140-1157", "draftsman/classes/entity_list.py:649-660", "draftsman/classes/tile_list.py:305-315", "draftsman/classes/tile.py:297-302", "draftsman/classes/schedule_list.py:16-80", "draftsman/classes/schedule.py:343-350", "draftsman/classes/schedule.py:714-719", "draftsman/classes/association.py:34-61", "draftsman/classes/entity.py:764-765"]}
{"id": "C79", "title": "The dictionary of a blueprint says everything once, and reading it gives the same blueprint with groups dissolved and the origin applied", "statement": "Whenever Blueprint.to_dict succeeds the dictionary holds exactly the attributes of the blueprint (left out when None or default as asked, grid sizes when zero), one entry per entity of the blueprint and its nested groups in order, numbered from 1, at its global position less snapping_grid_position and otherwise saying what the entity says, the tiles likewise moved, the schedules with the numbers of their locomotives, each wire once, and no other key; empty lists are left out. It fails exactly if the links cannot be numbered (C23), and the two flags do not touch entities, tiles, schedules and wires. If the entities' constructors keep what they are given, every dictionary written this way can be read, gives a blueprint with the same attributes, entities, tiles and schedules, whose wires and locomotives lead to the new entities at the same places, and writes the same dictionary again provided the version and absolute_snapping were set. Without these two provisos the second dictionary differs; snapping_grid_position is lost, and tiles of groups are not written at all.", "quantifier": "all blueprints with any numbers of entities, nested groups, tiles, schedules and wires; both flags; all rational positions and integer origins; all notions of entity equality that are distinct on the entities", "why_tests_cant": "The round trip ties numbering, flattening, offsets, omission rules and defaults of two long functions together for documents of any size; tests compare single literal dictionaries.", "anchors": ["draftsman/classes/blueprint.py:137-275", "draftsman/classes/blueprint.py:294-420", "draftsman/classes/blueprint.py:492-630", "draftsman/classes/blueprint.py:1046-1136", "draftsman/classes/exportable.py:319-334", "draftsman/classes/entity.py:192-194", "draftsman/classes/tile.py:95-98"]}
{"id": "C80", "title": "Mods are loaded stage by stage in order, each phase unaffected by the earlier ones, and require finds the first file there is, once", "statement": "Running stages over a load order runs, for each stage, the mods that have it, in that order, and stops at the first failure; what happens in each phase is exactly what happens when it is run by itself with the base search path, an empty tree of mods and an empty cache (the very first with the cache there was), and it begins with its own folder first in the search path. A require only adds to the search path and the tree, and if it succeeds and no failure was caught inside, both and the current folder are as before. A name that was required is never loaded again while cached and gives the same value, and after a success it is cached. A new name that is not one of the replaced ones loads the first existing file, in the folder its name says and then along the search path, or fails without loading anything; names of graphics, sounds and menu simulations load nothing. Dots in a name without slashes are slashes, a leading one is dropped, '.lua' is dropped, and __mod__/ is the location of that mod. Values of mod-settings replace exactly the settings that exist. Refuted: that a file gets the file beside it, that the folder named is looked in before that folder twice over, that files of one name in two folders are told apart, that caught failures leave no trace, that only '.lua' is dropped; archives always fail.", "quantifier": "all lists of mods, orders, stages, file systems, file contents (as sequences of marks, requires and caught requires, of any nesting depth), search paths and states; any equality of Lua references to mods", "why_tests_cant": "Isolation is a statement about all programs run before and after; nested requires push and pop global state to any depth, and the search order depends on all of it. Tests load the vanilla mods once.", "anchors": ["draftsman/environment/update.py:310-369", "draftsman/environment/update.py:372-449", "draftsman/environment/update.py:697-710", "draftsman/environment/mod_list.py:124-157", "draftsman/compatibility/interface.lua:86-212", "draftsman/compatibility/interface.lua:223-306", "draftsman/compatibility/interface.lua:313-358"]}
{"id": "C81", "title": "The fuels of an entity are the items of its fuel categories, and requests for other fuels are warned about and stored", "statement": "The table of fuels holds, for each declared category, exactly the items that name it, and can be built iff every item names a declared one. If the categories of an entity are declared, constructing it raises nothing and its allowed fuels are exactly the items of its categories ('chemical' unless said otherwise; none for sources that do not burn), whatever is constructed before under other names and anything afterwards; unknown names have none; other entities are not affected. Assigning item requests: without validation anything is stored; at minimum what was accepted is stored; refused values change nothing; for drills and reactors in strict modes the accepted requests are stored and exactly one warning is given, in order, for each requested fuel that the entity does not burn. Every outcome stores the old, the given or the accepted value as stated. Refuted: that furnaces and burner generators take requests (any raises TypeError and is stored raw), that an id may be a plain name, that iterators are checked, that a failed construction fails again, that fuels follow the data at hand.", "quantifier": "all tables of items, categories and entities, all histories of constructions, all kinds, modes, old values, requests and structurings of them", "why_tests_cant": "The set of fuels is cached per name over a whole process, so it depends on the history of constructions; tests use one data set and few requests.", "anchors": ["draftsman/prototypes/mixins/burner_energy_source.py:27-68", "draftsman/prototypes/mixins/burner_energy_source.py:102-129", "draftsman/prototypes/mixins/burner_energy_source.py:134-201", "draftsman/prototypes/burner_generator.py:35-63", "draftsman/prototypes/furnace.py:47-77", "draftsman/prototypes/mixins/request_items.py:90-118", "draftsman/environment/update.py:1244-1251"]}
{"id": "C82", "title": "Sections are a list of contents, and a section that was given is the section at its place until the list is validated or assigned", "statement": "For any sequence of adding sections, setting signals, validating and assigning, an entity shows what an abstract list of contents says, and every section handed out has the place the abstract machine gives it, or none. An added section is last, empty, numbered as asked or one more than the number of sections, and nothing else changes; it fails without effect in exactly the stated cases. Setting a signal changes exactly that section. Validation never changes what is shown, errs iff some section is malformed (or another field is), and in strict modes gives exactly one warning per well-formed section that has 'active'. Assigned sections are copied unless nothing is validated. A name finds the first section of that group, a number the section at that place counted as in Python. Sections added without an index are numbered from one. Refuted: that a handed out section stays the entity's after validate(), that sections made by add_section are not warned about, that validation raises nothing (signal-each and its like), that an index is a place and unique, that a constant combinator's sections can be assigned, that sections[\"sections\"] is the field, that landing pads, platform hubs and storage chests constructed without filters can be given sections, that a new storage chest is valid.", "quantifier": "all histories of calls of any length, all states, groups, indices, signals, modes and classes having sections", "why_tests_cant": "Whether a reference is still live depends on the whole history; tests add one section and set a signal at once, and those of the storage chest are commented out.", "anchors": ["draftsman/classes/mixins/request_filters.py:23-42", "draftsman/classes/mixins/request_filters.py:67-72", "draftsman/classes/mixins/request_filters.py:241-294", "draftsman/prototypes/constant_combinator.py:198-214", "draftsman/prototypes/constant_combinator.py:247-278", "draftsman/signatures.py:1156-1234", "draftsman/signatures.py:1433-1441", "draftsman/signatures.py:143-180", "draftsman/classes/entity.py:700-740"]}
{"id": "C83", "title": "Vectors are calculated with number by number, a name sees exactly the writes of its family, and a duration is the closest number of ticks", "statement": "After any program over vectors each name shows what was last written through any name got from the same vector by from_other, and nothing else; every operator gives a new vector and changes none; a call that fails changes nothing. An operator with a vector, a sequence of at least two numbers or a number works number by number: ints exactly (// rounding down), anything else as the nearest float of the exact result; it fails iff it divides by zero, and operands that are no pair are refused with the stated exception. Int vectors satisfy the ring laws and (u*v)//v = u; sums and products commute. Equality is an equivalence by value and only between vectors. abs and round do what they say, round to the closest with halves to even, int casts truncate. Ticks.from_timedelta is the integer closest to the duration in ticks, halves to even; it is monotone, odd, exact on whole seconds and shifts by 60 per second. Refuted: that from_other gives a vector of its own, that it casts vectors, that operators take dictionaries as from_other does, that equal vectors have equal sums, that ints beyond 2**53 survive to_dict and from_other, that ticks of durations add up.", "quantifier": "all programs of any length, all ints and finite floats, all operands, precisions and durations", "why_tests_cant": "Aliasing shows only after later writes through another name; tests use small numbers that floats hold exactly and one duration in whole seconds.", "anchors": ["draftsman/classes/vector.py:19-181", "draftsman/constants.py:680-726", "draftsman/classes/group.py:341-349"]}
{"id": "C84", "title": "Setting a condition stores exactly the comparison that was written, in its own place, and nothing else", "statement": "For every entity class with a circuit, logistic or ignore-unlisted-targets condition: set_*_condition(a, cmp, b) is accepted iff a is None or a signal, cmp is one of the ten spellings and b is a signal or a 32-bit integer; then exactly one condition is asked for, it stands in the named place, and for all values of signals it is met iff `a cmp b` in the spelling given; the other conditions, the rest of the control behaviour and the entity stay as they are. A call that fails changes nothing and warns of nothing. The warnings are those of unknown first and second signals, then unknown keys, and only above MINIMUM. remove_*_condition leaves no condition in its place and touches nothing else. After any calls a place shows what the last accepted call put there. Refuted: that bad arguments raise DataFormatError (it is pydantic's ValidationError), that None as control behaviour is turned into an empty dict and removing then does nothing, that two-character comparators stay as given until export, that strings which are no signals are refused.", "quantifier": "all entities, validation modes, arguments, values of signals and call histories of any length", "why_tests_cant": "Tests set one condition with one comparator and look at the dictionary; they do not evaluate it, and do not look at what else changed.", "anchors": ["draftsman/classes/mixins/control_behavior.py:66-168", "draftsman/classes/mixins/circuit_condition.py:71-106", "draftsman/classes/mixins/logistic_condition.py:69-105", "draftsman/classes/mixins/target_priorities.py:166-202", "draftsman/signatures.py:349-400", "draftsman/signatures.py:702-774"]}
{"id": "C85", "title": "A programmable speaker's instrument and note become what was given, unknown ones are warned of, and equality of speakers depends on the names kept beside the numbers", "statement": "For every speaker whose tables are made of instruments with distinct names and notes, and every validating mode: an accepted instrument id, instrument name, note id or note name changes exactly the fields said (a name gives its number in the list, no number if it is unknown; notes are looked up in the instrument the speaker has; the name itself is kept beside the number), with one warning iff the mode is above MINIMUM and the value is unknown; any other value raises DataFormatError, warns of nothing and changes nothing. In mode NONE names give the same numbers and are not kept. After any calls the names kept are those last given and accepted, whatever the numbers became. validate() changes nothing and warns of the four fields in order as if they were assigned again. Speakers are equal iff numbers and kept names are; histories without names: iff the numbers are. Export and import keep the numbers, make 0 of none, lose the names. Refuted: that speakers with the same tune and the same export are equal, that a speaker equals itself exported and imported, that the mode does not matter for equality, that validation warns only of what the speaker has, that an assignment that raises leaves the speaker unchanged.", "quantifier": "all registries, speakers, validation modes, values given and call histories of any length", "why_tests_cant": "Tests set one instrument and one note and look at the ids; the hidden names are never compared, and no test assigns a number after a name and validates.", "anchors": ["draftsman/prototypes/programmable_speaker.py:55-242", "draftsman/prototypes/programmable_speaker.py:676-831", "draftsman/classes/entity.py:700-740", "draftsman/classes/exportable.py:14-46"]}
{"id": "C86", "title": "A list's spatial map holds the entities in it and in the groups below only as long as nothing is changed through those groups, and recursive_remove is one level deep", "statement": "For every list of entities and groups (of any depth): after any insertions, deletions, replacements and clearing of that list, where what comes in has no parent and the owner is at the origin (or, more generally, the parent is where the owner is), every cell of the map has as many entities equal to any given one as the list and the groups below have that touch it, and no cell is empty; if no two entities are equal the map holds the very objects and find_entities finds exactly those in the area (up to the margin of C10). An operation through a group changes that group's list as it would alone, no other map, and no list that is not above it; so the map of a list above is right afterwards iff nothing it could hold changed, and is wrong as soon as an entity with an extent comes into a group below or is taken out by recursive_remove. recursive_remove takes the first equal member, else the first equal member of the first group among the members, else raises ValueError and changes nothing; `in` looks at all depths. Refuted: that a group that is not at the origin finds its entities (they are put into its map as if it were at the origin, and stay there when deleted), that an entity taken out of such a group is found in a blueprint it is put into, that of equal entities the one that is left is found, that recursive_remove recurses and removes the object it is given.", "quantifier": "all trees of groups, positions, boxes, cell sizes, margins and histories of operations of any length on lists at any depth", "why_tests_cant": "The tests put a group at the origin and one level deep, and look at the exported entities, not at what the map holds after a deletion.", "anchors": ["draftsman/classes/entity_list.py:205-358", "draftsman/classes/entity_list.py:529-629", "draftsman/classes/spatial_hashmap.py:61-99", "draftsman/classes/entity.py:537-555", "draftsman/classes/entity.py:755-762", "draftsman/classes/spatial_like.py:54-78"]}
{"id": "C87", "title": "Choosing a version of the game's data moves the repository to exactly that tag or not at all, and an update writes the version and then the files in order", "statement": "For every repository, set of tags, request and behaviour of git: if HEAD is at a tag, asking for a version (by any number of numbers; the first three count, missing ones are 0) for which there is a tag puts HEAD at that tag; HEAD changes in no other way, and in every other case it stays: no tag (the full version is named), no version (called invalid), another repository (refused after the fetch), a refusing checkout. Texts that ask for the same version do the same; doing it again checks nothing out; 'latest' is the tag of the latest commit, the last of several; nothing is printed unless asked, and printing changes nothing if HEAD is at a tag; the command without a version prints the first tag at HEAD. The version file holds the version of the data, with .0 if it has three numbers, as text and as the tuple read from it. An update writes that file and then the ten data files in order up to the first that fails, and nothing at all if the data cannot be loaded or the version cannot be read. Settings are listed by kind in order. Refuted: that a version there is can always be chosen (AttributeError if HEAD is at no tag), that verbose only prints, that latest is the highest version, that a tag can be asked for by its name, that the version always gets four numbers, that a failing update changes nothing.", "quantifier": "all repositories, tags, requests, version texts, outcomes of git and of each extraction", "why_tests_cant": "The function needs a git repository and a network; the tests do not call it, and no test makes an extraction fail.", "anchors": ["draftsman/environment/update.py:235-307", "draftsman/environment/update.py:1670-1778", "draftsman/environment/script.py:183-258"]}
{"id": "C88", "title": "Inventories grow with quality exactly as the tenths say, requests beyond a container's limits, blueprints that are too large and rails off their grid are told so, or the telling itself fails", "statement": "For every prototype table, size below 2^40 and quality: the inventory size computed in binary floating point is the exact floor of size times 1.0, 1.3, 1.6, 1.9 or 2.5; it is never smaller for a higher quality and larger if the size is at least four; a size quality does not change, and the size of a cargo wagon, is the one in the data; unknown names have none. A request to an infinity container or a lab is stored exactly as C37 says, a refused one changes nothing, and a lab warns exactly of items that are neither modules nor its inputs. A blueprint is refused in the careful modes exactly if two of its boxes, at any depth, reach across more than 10000 tiles. Setting its index stores the index or, if it is no uint16, keeps the old one. A double-grid entity at whole coordinates is warned of exactly if it will be moved, and the place named is on the grid, at most one tile away. Refuted: that requests to containers succeed (each raises AttributeError after it was stored, as the slots are counted with the methods of a dictionary), that they take quality, inventory and slot, that modules are counted, that sizes never raise (KeyError for other qualities), that a failing assignment of the index leaves it, and that entities between tiles are warned of.", "quantifier": "all tables of prototypes, sizes, qualities, requests, trees of boxes, positions and modes", "why_tests_cant": "The tests of set_item_request are commented out; sizes are tested for single values, and rounding of 1.3, 1.6 and 1.9 may go either way for others.", "anchors": ["draftsman/classes/mixins/inventory.py:76-205", "draftsman/classes/mixins/inventory_filter.py:92-100", "draftsman/classes/mixins/modules.py:98-172", "draftsman/prototypes/lab.py:64-97", "draftsman/classes/blueprint.py:430-448", "draftsman/classes/blueprintable.py:426-432", "draftsman/classes/mixins/double_grid_aligned.py:20-44"]}
{"id": "C89", "title": "Wait conditions accept exactly what fits, take the defaults of their type when they are made, stay well formed while validation is on, and survive export up to defaults", "statement": "For every way to read conditions, all arguments, modes and sequences of assignments, mode changes and validations: with validation a wait condition is made exactly if its type is one of the nine, its compare type 'and' or 'or', its ticks nothing or (a string of) a uint32 and its condition nothing or readable; it then has 1800 ticks (time) or 300 (inactivity) or Condition() (item count, fluid count, circuit) if none were given, and otherwise exactly what was given. Without validation everything is kept, read if possible. An assignment stores the value meant or, refused, changes nothing; other fields are never touched; validation reports exactly what does not fit and changes nothing; every field fits as long as validation is on. A list of dictionaries is replaced in place, in order, up to the first that stands for no condition. An export has exactly the entries that are not defaults, and reading it back gives the same condition with defaults of the type for what is missing. Refuted: that construction without validation never fails, that defaults follow a later type, that validation coerces, that a wrong mode is a DataFormatError, that a refused list is left alone, that the data cannot switch validation off, and that a condition built with validation is read back.", "quantifier": "all readings of conditions and numerals, arguments, modes, fields, sequences of operations and lists of items", "why_tests_cant": "Tests construct a handful of valid conditions and check one error each; no test assigns after construction, validates twice, or reads an exported condition back.", "anchors": ["draftsman/classes/schedule.py:60-103", "draftsman/classes/schedule.py:105-171", "draftsman/classes/schedule.py:187-289", "draftsman/classes/schedule.py:356-376", "draftsman/classes/exportable.py:14-46", "draftsman/constants.py:729-783"]}
{"id": "C90", "title": "Lists of item filters are accepted exactly if every entry stands for a filter, number names by position, and change nothing when refused", "statement": "For all numerals, known items, modes, lists and states: with validation, set_item_filters and set_inventory_filters accept a list exactly if each entry is a name or a dictionary with a (numeral of an) int64 index, a string name and fitting quality and comparator; they then hold exactly the filters meant, names numbered by position from 1 with quality 'any' and no comparator, and warn about exactly the unknown names in the two strict modes. Anything else is a DataFormatError and changes nothing. Without validation nothing fails: lists with an index and a name everywhere become filters field by field, others are kept with names numbered. After any sequence of calls with validation every filter held is well formed and can be given again. One slot set afterwards replaces exactly that name. None clears. Refuted: that set_item_filters takes a list as documented, that None clears among other arguments, that indices are bounded by the slots of the entity (IndexError), that unknown items are refused (InvalidItemError), that each slot is filled once, and that the documented 'signal' entries are accepted.", "quantifier": "all lists of entries, modes, sequences of calls, readings of numerals and sets of known items", "why_tests_cant": "The tests of set_item_filters are commented out; set_inventory_filters is called with two lists and None; no test mixes names and dictionaries, uses numerals, or sets an index out of range.", "anchors": ["draftsman/classes/mixins/filters.py:17-64", "draftsman/classes/mixins/filters.py:166-197", "draftsman/classes/mixins/inventory_filter.py:41-67", "draftsman/classes/mixins/inventory_filter.py:294-322", "draftsman/signatures.py:77-105", "draftsman/signatures.py:907-925", "draftsman/classes/exportable.py:14-46"]}
{"id": "C91", "title": "The printed table of mods has one row for each version, in order, says what holds of it, and its columns line up unless a name with several versions is longer than 50 characters", "statement": "For all dictionaries of mods: display_mods prints a table exactly if there is some mod (otherwise it raises ValueError). The columns are as wide as their longest entry, between 4 and 50, 7 and 30, 8 and 100 characters. There is one row for each version of each mod in the order of the dictionary, after two lines of head if verbose. A row is ticked exactly if it is the first version of a mod that is enabled, says whether the mod is an archive, shows the name with the first version and a line of the length of the name with the others (a corner for the last), the version flush right or '-', and the location; anything too long is cut to the limit with three dots. If every name with several versions has at most 50 characters, all separators are below each other. Refuted: alignment for longer names, an empty table for no mods, and that different mods have different rows.", "quantifier": "all dictionaries of mods, both kinds of tables", "why_tests_cant": "Tests print one small list of mods and look at nothing; no test has long names, several versions or no mods.", "anchors": ["draftsman/environment/mod_list.py:518-609"]}
{"id": "C92", "title": "The reissue_warnings decorator passes results, exceptions and warnings through, each warning once and in order, unless the function raises, when its warnings are lost", "statement": "For all programs made of warnings, effects, returns, exceptions, try blocks and calls of functions with and without the decorator, nested to any depth, and all filters that show, ignore or raise each warning: a decorated call does what the function does, then shows its warnings once each in order, then gives its result; if the function raises, the exception goes through and no warning is shown. Taking all decorators out of a program changes neither how it ends nor anything it does except warnings, and the warnings shown with decorators are a subsequence of those shown without; they are the same if nothing raises. A filter that does not show a warning is obeyed. get_suggestion gives a text exactly if a choice reaches the cutoff and names all those that do, in order. Refuted: that no warning is lost, and that warnings keep their place among the effects.", "quantifier": "all programs, all filters, all lists of choices", "why_tests_cant": "Tests look at one decorated function that warns once; no test nests decorated functions or raises after a warning.", "anchors": ["draftsman/utils.py:926-974"]}
{"id": "C93", "title": "What is written to mod-list.json is read back, laid out with a blank line before lone braces, but a failed write empties the file", "statement": "For all JSON values of numbers, texts, lists and objects that are not nested too deep, both kinds of line ends and all earlier contents: writing mod-list.json succeeds and reading it gives the value back. The file is printable ASCII, has one element or member a line, indented by two spaces a level, and has an empty line added exactly before those lines that are only an opening brace. The substitution that adds these lines changes the meaning of no JSON text at all. Writing fails exactly for values nested too deep, with RecursionError. Refuted: that the old file is kept when writing fails.", "quantifier": "all JSON values, all texts, both line ends, all recursion limits", "why_tests_cant": "No test writes a value with texts containing braces or line ends, or reads with other line ends; the regular expression is applied to the whole text including strings, and that it is harmless follows from how json escapes them.", "anchors": ["draftsman/environment/mod_list.py:193-211"]}
{"id": "C94", "title": "A blueprint written as a string is read back from it, by the class and by the function for any kind of string", "statement": "For all blueprints whose values can be written (texts without spelled-out surrogate pairs, distinct keys, places that are floating point numbers, bounded nesting): to_string gives a string of version 0, and from it, whatever its first character, both load_from_string and get_blueprintable_from_string make the same blueprint, namely the one made from the dictionary directly, which is the original with entities and tiles moved by the origin and groups dissolved. Written again it is the same string, if there is a version. What is no blueprint string is refused by both as malformed; an object without a blueprint is refused by the class as of the wrong type; other kinds are told apart by their keyword. Refuted: that only the two documented errors are raised for strings of something else (an empty object raises StopIteration or IndexError, a number TypeError, a list TypeError or DataFormatError).", "quantifier": "all blueprints (any entities, groups, tiles, wires, schedules, attributes), all first characters, all strings, all libraries that are faithful", "why_tests_cant": "The tests write and read a few fixed strings. That places survive the text form of floats, that no key of a written body collides with a keyword of setup, and that nothing but the documented changes happens on the way concerns every blueprint.", "anchors": ["draftsman/classes/blueprintable.py:85-145", "draftsman/classes/blueprintable.py:544-568", "draftsman/blueprintable.py:22-58"]}
