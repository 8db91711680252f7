# Design: a machine-checked model of factorio-draftsman

`/repo` is read as text only.  Everything here is Coq 8.16.1 over the standard
library.  The development lives in `rocq/theories`.

## Layout

For each area `X` there are up to four files:

* `X_Model.v` – executable Gallina functions that mirror the Python functions
  branch by branch.  Each definition cites file and lines in `/repo` and names
  every simplification.
* `X_Spec.v` – a small independent specification (sets, finite maps, lists,
  geometry in the plane) that does not use the model's helpers.
* `X_Proofs.v` – lemmas.
* `X_Properties.v` – only the property theorems, each closed by
  `exact some_lemma`, followed by `Print Assumptions` and concrete
  `Example`s that meet the hypotheses.

## Conventions

* Python exceptions are values of `result A := Ok A | Err exn`
  (`Common.v`).  Where an exception leaves a partially updated object behind,
  the model returns the state as well.
* Objects with identity are numbers (`oid`), attributes live in records or a
  heap; Python value equality (`__eq__`) is a separate boolean function, because
  several routines of the library use `list.index`, `list.remove` or `in` and
  therefore compare by value.
* Pure geometry (C04–C08) is over the real numbers of the standard library.
  Collections use exact integers in some fixed fraction of a tile, so all
  rational layouts are covered.  IEEE rounding is not modelled.
* Integers are unbounded `Z`; Python's `%` on a positive modulus is `Z.modulo`.
* A claim that the faithful model violates is stated as a `…_refuted` theorem
  with a concrete witness, next to the strongest guarded positive theorem.

## Plan per property (what is modelled, how it is proved)

| id | model | proof method |
|----|-------|--------------|
| C01 | `encode_version`/`decode_version` with shifts, or, masks on `Z` | bit lemmas; lexicographic order by case analysis |
| C02 | decimal printing/parsing and `split('.')` on character lists | induction on digits and on the tuple |
| C03 | concrete base64, JSON printer/parser; zlib is a Section oracle with a losslessness hypothesis; `try/except` as `result` | round-trip by induction; error branch by case analysis |
| C04, C05, C08 | AABB functions over the reals | linear arithmetic, induction on lists |
| C06, C07 | corner lists, projection and separating-axis loop over the reals | linear-arithmetic geometry; refutation witness for C07 |
| C09–C12 | hash map cell → list of items, cell ranges as in the code | floor arithmetic; invariant over operation lists |
| C13–C16 | `EntityList` with member list and the two key maps | invariant by induction over operation lists; witnesses for slice deletion / negative insert |
| C17 | `TileList` with its map | invariant by induction |
| C18–C21 | `Transformable` loops over entity/tile records | list induction, group laws; witnesses for failing rotations/flips |
| C22 | position/tile position setters incl. round-half-even | arithmetic + invariant over operation lists |
| C23, C24 | flattening, numbering, wire normalisation, `setup` | list induction, `index` lemmas; witness for equal entities |
| C25–C27 | wire list operations | list induction |
| C28 | wait-condition combinators on heap-free copies, game evaluation of condition lists as spec | induction on lists, all truth assignments |
| C29 | schedule operations | induction over operation lists |
| C30 | tokenizer regex as a function on character lists, block loop | induction over the grammar |
| C31, C32 | enumeration functions, orientation on scaled integers | finite sweep lifted by `forallb_forall`; modular arithmetic |
| C33–C37 | slot-list operations of each class | refinement to a finite map by induction over operation lists |
| C38 | book export | list induction |
| C39 | filtered search pipelines | list induction against `filter` |
| C40 | group trees | tree induction |
| C41 | `parse_energy` on character lists | case analysis + C02 digit lemmas |
| C42, C43 | dependency resolution, depth recursion with fuel, stable sort | well-founded induction on the graph; sortedness |
| C44 | byte-level decoder, independent reference encoder | mutual induction on trees |
| C45 | comparison operators table, heap of conditions for aliasing | case analysis; witnesses |
| C46 | `reverse_belts` on belt lists | list induction |
| C47 | assignment functions over an arbitrary validator | case analysis, all validators quantified |
| C48 | schema/record trees | induction on schema trees |
| C49 | key construction and sort | sortedness + permutation |
| C50 | car placement loop | list induction |
| C51 | stop lookup position of placed trains | case analysis over the four directions |
| C52, C53 | collision sets as shape lists, rail tables, rolling-stock rectangles over the reals | point-set images, separating axes |
| C54 | direction setters on top of the position model | case analysis, induction over assignment lists |
| C55, C56 | the walk along neighbouring cars with explicit recursion depth, over the reals | invariants of the walk (reachability, order), geometry of placed cars |
| C57 | all trains, the filters, cutting | invariants over the cars seen; exact criteria per filter |
| C58 | wiping and joining of associations, removal of members | list induction, selection relations |
| C59 | the memo of `deepcopy` over trees of groups, rewiring | induction over trees with the memo as a partial map |
| C60 | three tables of instruments as list and dictionaries, setters over them | agreement invariant, exact criterion for keeping it |
| C61 | gathering and sorting of signals (with the order of C49), additions | agreement invariant over categories and sequences |
| C62 | groups, subgroups and items sorted and nested | sortedness of the flattening against a lexicographic rank, exact failure |
| C63 | tables referring to shared lists or dictionaries, additions | aliasing invariant over sequences, exact effects, failures with partial effect |
| C64 | methods of each class as data, dispatched along the resolution order; fields as dictionaries | flattening lemma, table facts by computation, exact effects and equivalence for every class |
| C65 | trees of entities over a heap, index as the list of entities it holds | induction over the tree with a frame and target invariant, exact effect, induction over insertions |
| C66 | tables as insertion-ordered dictionaries, missing fields as options, rationals for effects | exact membership and success conditions, permutation to the order of C49, invariant over additions |
| C67 | prototypes as records of the fields used, tables as insertion-ordered dictionaries | exact contents of the register and of every list, exact success condition, the class of every name, induction over additions |
| C68 | conditions as records with optional fields, rationals for properties | exact condition for passing and for failing, independence of order, witnesses against the nested data |
| C69 | Lua tables as trees of entries, tiles and fluids as records with optional fields | two-sided inverse to writing in Lua, exact success condition, sortedness, induction over additions |
| C70 | regular expressions as terms, run with backtracking to the list of all matches in order of preference; a mod as what its place holds; the default list of dependencies as state | equivalence with a deterministic scanner, longest-match and uniqueness lemmas, well-founded recursion on path lengths, exact success condition over sequences of mods |
| C71 | the conditions as a record of fields, the statements of a program as data; the specification has one slot per part and is a transition relation with warnings and exceptions | refinement by induction over programs, determinism of the specification, independence of the mode |
| C72 | python values as a tree, each normalizing function branch by branch; the specification relates lists entry by entry with their place; links as bits of an integer | induction over the lists with the place generalised, fixed points for idempotence, bitwise induction over programs for links |
| C73 | class headers, declared fields and properties as data transcribed from the sources; method resolution order computed (C3); assignments interpret the setter patterns over a tree; a value check is an oracle | induction for the order and for programs; per-class facts about the finite table by computation, lifted to all values, objects, checks and programs |
| C74 | initialisers as data transcribed from the sources: parameters, the keywords of the call of the next initialiser, the statements after it; interpreted along the order of C73 | the chain of calls of every class is evaluated symbolically in the keywords, proved right once for all keywords by induction over the chain; per-class facts about the resulting finite plans by computation |
| C75 | the four blueprintables as trees below `_root`; attributes as table rows (holder, field, conversion, check); `setup` as a list of statements; constructor as a choice of keywords | cells of the table are pairwise apart (finite check), so each write has a frame; invariant over the prefix of statements of `setup`: those done have their value, those to come read as before; uniqueness of wanted values gives independence of history |
| C76 | tables of prototypes with what the function looks at; warnings as values; KeyError as a result | rules as an inductive relation with a rank; the function returns a minimal element or nothing; invariant of the table of occupied indices over the list of mappers (count, last mapper, order of first use) |
| C77 | trees of entities, groups, tiles and sheets; validators of single objects as an oracle; the object is returned also if something raises | course of a tree as a flat list of looks; induction over nested trees that each function says what its course says; determinism turns this into equivalences; relations between trees for the object afterwards |
| C78 | blueprints as records over the values of C60/C64, objects as numbers, a predicate for living objects | each comparing function equals a relation defined with Forall2; the relations are equivalences on well formed content; hash checked over the class table; invariant by induction over operations |
| C79 | blueprints as records over the values of C60 with trees of entities and groups; numbering as in C23 | each key of the dictionary characterised by lookups; entities by induction over the tree; reading by induction over lists, links by the round trip of C23 |
| C80 | the globals of interface.lua as a record, files as lists of marks and requires, require by fuel | frame lemma by induction on fuel and file; isolation by a simulation that ignores what is below the top of the tree; events appended |
| C81 | tables as dictionaries, the cache of fuels threaded through constructions, requests as given and as accepted | membership by induction over the tables; the first construction counts by induction over histories; warnings by induction over requests |
| C82 | sections as objects with references, the entity as a list of references or dictionaries | refinement to a list of contents with places by induction over histories; numbering as an invariant of the abstract machine |
| C83 | numbers as ints or rationals, vectors as objects with names | refinement to families of names by induction over programs; characterisation of the closest integer (unique, monotone, odd, shift by even numbers) |
| C84 | conditions as records in three places of a control behaviour | unique condition given by the meaning of comparisons; characterisation of acceptance, frame and warnings; induction over calls |
| C85 | numbers and kept names as a record, tables those of C60 | relational specification of lookups; check and store characterised per field; induction over calls for properness and for the names kept |
| C86 | trees of lists with their own maps, cells of C09-C12 | adding and removing flattened to things; tallies by equality class per cell as invariant; permutations for objects; induction over paths for the frame |
| C87 | repository as tags and HEAD, list of events, outcome; files as a map | case analysis, last element of a stable sort, induction over the files written, character classes of parsed numbers |
| C88 | binary64 rounding on integers, requests of C37, boxes of C05, rationals for positions | integer arithmetic on the rounding error, least elements of lists of boxes, case analysis |
| C89 | wait conditions as four values and a mode, readers of conditions as parameters | characterisation of construction by cases, invariant over sequences of operations, induction on lists, round trip |
| C90 | entries and fields as values, known items and numerals as parameters | two-way characterisation by a separate meaning relation, induction on lists, invariant over calls |
| C91 | lines as strings of code points | characterisation of cells and columns, induction on mods and versions |
| C92 | programs as trees of statements with a trace semantics | nested induction relating a program to the one without decorators |
| C93 | json.dumps with indentation, re.sub as a scan, text files with universal line ends | induction over the value for the layout, over the text for the substitution; a simulation of the decoder |
| C94 | Codec_Model and Document_Model joined by a translation of values | induction over values for the translation; a relation between dictionaries that differ in how fractions are written; the round trips of C03 and C79 |

## Trusted base

* The Coq 8.16.1 kernel (`coqchk` accepts the compiled library).
* That the models in `X_Model.v` say what the Python text says.  Nothing was
  run: the correspondence is by reading, definition by definition, with the line
  numbers in the comments.
* Python's own semantics as recorded in the models: unbounded integers, `//`
  and `%` rounding towards minus infinity, `round` to even, insertion-ordered
  dictionaries, `list.index`/`list.remove`/`in` comparing with `==`, stable
  `sorted`, negative indices and slices as in the language reference.
* pydantic's documented behaviour (C33, C35, C47, C48): order of validators,
  `validate_assignment` storing before "after" validators run, extras kept,
  aliases looked up before names, instances revalidated.
* IEEE rounding is outside the model except in C41 (`parse_energy`), where
  floats are dyadic numbers rounded to 53 bits.

### Oracles

Functions the code calls but the model does not define.  All are universally
quantified (parameters of sections, or fields of a record), so no axiom arises;
the theorems hold for every choice meeting the stated hypotheses.

| area | oracle | hypothesis |
|------|--------|------------|
| Codec (C03) | `lib`: zlib, float text, byte/text codecs | `faithful`: decompressing undoes compressing, float text reads back, ASCII decodes to itself |
| Decider (C45) | `val`: value of a signal on a network | none |
| Energy (C41) | `other`: `str.isalpha` outside ASCII | none |
| Search (C39), Spatial (C09–C12), Group (C40), Transform (C18–C21) | box, position, equality, name, kind, direction of an item | equality is reflexive where needed; each is stated in the theorem |
| Slots (C34–C36) | `stack_size` of an item | none |
| Signal (C61) | `pick`: the element a set shows first | it is an element |
| Wires (C23–C27), Copy (C59) | `attr`, `veq`: what an entity is, Python equality | as stated per theorem |
| Assign (C47) | `env`: game data, conversion of inputs to field types | `well_behaved` only where named |
| Merge (C64) | `check`: pydantic's validation of one assignment | `accepted`: values of the other entity pass unchanged (not for C64_refused) |
| Absorb (C65) | `check` as above; `near`: what the index reports for the box of an entity | `reports`: only entities it holds, and the one in the same place if there is one (for C65_id: none) |
| Rake (C55–C58) | `near`: the neighbours the spatial map reports; `order`: the order a set is visited in; `veq`: equality of entities | `surroundings` (C56); `order` permutes; as stated |
| Attr (C73) | `check`: what pydantic makes of a value for a declared field, given the mode and the object | none |
| Ctor (C74) | `world`: defaults of parameters, values written in the sources, `computed` (defaults of an interface, of its name), `is_input`, `orientation_of`, `to_mode`, `fresh`, `convert` and `verify` (pydantic, for a field of a model built and for one assigned) | none, but `lenient` for `C74_made`: all of them succeed |
| Sheet (C75) | `check`, `normalize`, `to_vector`, `to_list`, `link`, `review` | none for most claims; `blind` (checks do not look at the object) where independence or success is claimed; a failing check leaves the object unchanged |
| Report (C77) | `checker` (Report) | what pydantic and the validators say about one object, as a function of the mode and its fields; no assumption except where `settled` is named in a theorem |
| Document (C79) | `rebuild` (Document) | what a constructor makes of the dictionary of an entity; `readable` assumes that it keeps everything besides the position |
| Stages (C80) | `files`, `same` (Stages) | the file system, which does not change; whether two Lua references to mods are equal (the theorems hold for any) |
| Burner (C81) | `convert`, `item_known`, `module_known`, `ingredients`, `all_fuel`, `allowed` (Burner) | what structuring accepts and says; which items, modules and ingredients there are; `convert` keeps the names of requests where `faithful` is assumed |
| Sections (C82) | `known`, `others` (Sections) | arguments: whether the entity is known and whether all its other fields are accepted; `revalidate_instances="always"` makes pydantic build new objects |
| Vector (C83) | `fl`, `ffloordiv`, `fround` (Vector) | rounding to the nearest binary64, `//` of floats and `round(x, p)` of floats for p <> 0; where used: `fl` respects equality, errs by at most 1e-9 between 0 and 60 and is exact on halves there |
| Condition (C84) | `resolve`, `numeral`, `known` (Condition) | what a signal name stands for (C61), which strings pydantic reads as ints, the keys of `signals.raw`; none assumed; a string that is both is taken for a signal |
| Speaker (C85) | `numeral` (Speaker) | which strings pydantic reads as ints; none assumed |
| Release (C87) | `fetched`, `refuses` (git fetch and checkout), `lifecycle`, `items`, `extract` (C42, C60-C69, C80) | none; `git checkout` of a tag's name makes its commit HEAD |
| Capacity (C88) | `stacks`, `is_module` (tables of the data) | none; pydantic stores an assigned field before validators of the whole model run, and lets exceptions other than ValueError and AssertionError pass |
| Waiting (C89) | `numeral`, `cond`, `dump` (what pydantic reads and dumps) | `stable`, `plain_default` and `faithful` where the theorems say so; an assignment with an error changes nothing, validating an instance makes a new one |
| Filters (C90) | `numeral`, `known` (strings pydantic reads as ints, keys of `items.raw`) | none; an instance is validated again like the dictionary of its fields |
| Layout (C93) | `faithful L`, recursion limits | as for C01: the text of a float is read back; the depth at which json gives up is a parameter |
| Passage (C94) | `faithful L`, `exact_numbers N` | as for C03; the value of a float is a fraction in lowest terms, and equal values are one float |
| Trim (C48) | `lax`: pydantic's conversion of scalars | conversion leaves values of the right type alone |

### Axioms

`Print Assumptions` stands below every property theorem.  It answers "Closed
under the global context" for all of them except those about real numbers:

* `sig_forall_dec`, `functional_extensionality_dep` (both from the standard
  library's real numbers): all C04 and C05 theorems, C50_spacing,
  C88_unreasonable.
* these and `sig_not_dec`: all C06, C07, C08, C52 and C53 theorems;
  C31_vector_opposite, C31_vector_length, C31_unit_refuted; C50_at_position,
  C50_at_station, C50_not_a_station, C50_in_between, C50_odd_refuted,
  C50_reuse_refuted, C50_range_refuted; C51_where, C51_found_refuted; all C55,
  C56 and C57 theorems; C58_set, C58_members, C58_found, C58_set_total,
  C58_cleared_refuted.

No axiom of any other kind occurs.  There is no `Admitted`, no `Axiom`,
`Parameter`, or `Variable` outside a section, no functor or module type.

## What is modelled

Paths are relative to `/repo/draftsman`.  The exact lines stand at each
definition; the simplifications stand at the head of each model file.

| model | code |
|-------|------|
| Version | `utils.py` 425-493 |
| Geometry, Collide | `utils.py` 17-373, 514-785 (boxes, rectangles, overlap); `classes/collision_set.py`, `classes/spatial_like.py` 54-91, `classes/mixins/orientation.py` 34-99, `classes/group.py` 529-543, `classes/blueprint.py` 998-1026, `prototypes/straight_rail.py` 16-28, `prototypes/legacy_curved_rail.py` 18-32 |
| Spatial | `classes/spatial_hashmap.py`, `utils.py` 581-664 |
| EntityList | `classes/entity_list.py` (members and key maps), ID setters in `classes/entity.py` 407-426 and `classes/group.py` 305-316 |
| TileList | `classes/tile_list.py`, `classes/tile.py` 54-311 |
| Transform | `classes/transformable.py`, `classes/collection.py` 80-100 |
| Position | `classes/entity.py` 42-83, 451-532; `classes/mixins/directional.py` 48-73, 199-235; `classes/mixins/eight_way_directional.py` 142-192; `classes/vector.py` 93-136 |
| Wires | `classes/collection.py` 349-1074; `classes/blueprint.py` 137-275, 576, 612-630; `classes/association.py` 32-56 |
| Copy | `classes/group.py` 582-633, `classes/entity_list.py` 662-690, `classes/blueprint.py` 1159-1206, `classes/entity_like.py` 201-227, `classes/association.py` 62-67 |
| Group | `utils.py` 811-827; `classes/group.py` 305-372, 505-514; `classes/entity_list.py` 285-329, 577-613; `classes/spatial_hashmap.py` 61-99 |
| Search | `classes/collection.py` 142-343, 1715-1823 |
| Compass | `constants.py` 16-526 (directions and orientations) |
| Schedule, Train | `classes/schedule.py`, `classes/train_configuration.py`, `classes/collection.py` 1080-1217, 1278-1302, 1580-1605 |
| Rake | `classes/collection.py` 1219-1655 (finding, searching, scheduling and removing trains) |
| Planner | `classes/upgrade_planner.py` (mappings), `signatures.py` 248-306 |
| Slots | `classes/deconstruction_planner.py` 562-675, `classes/mixins/filters.py` 116-164, `classes/mixins/inventory_filter.py` 236-292, `prototypes/infinity_container.py` 176-226, `signatures.py` 1177-1252 |
| Request | `classes/mixins/request_items.py` 122-223 |
| Book | `classes/blueprint_book.py` 86-156, 294-346, 526-566; `classes/blueprintable.py` 47-104; `blueprintable.py` 61-92 |
| Codec | `utils.py` 381-422 with base64 and JSON in full |
| Energy | `utils.py` 830-879 |
| Mods, Ranking, Settings | `environment/mod_list.py` 16-20, 142-147, 423-515; `environment/update.py` 122-232, 490-568; `environment/mod_settings.py` |
| Decider | `prototypes/decider_combinator.py` 90-217, `signatures.py` 684-774 |
| Belts | `extras.py` 12-116 |
| Tune | `data/instruments.py`, `environment/update.py` 1198-1228, `prototypes/programmable_speaker.py` 712-831 |
| Signal | `data/signals.py`, `environment/update.py` 1367-1627, `signatures.py` 437-461 |
| Shelf | `environment/update.py` 734-856 |
| Stock | `data/items.py` 22-135 |
| Merge | `classes/entity.py` 742-762; `mergable_with`, `merge`, `__eq__` of every mixin and prototype as data |
| Absorb | `classes/entity_list.py` 285-329 with `merge=True`, `classes/spatial_hashmap.py` 39-80; overlap warnings, key maps and the indices of inserted groups left out |
| Craft | `data/recipes.py` 30-72, `data/modules.py`, `environment/update.py` 1265-1358 (`extract_modules`, `extract_recipes`), `classes/mixins/recipe.py` 36-204, `prototypes/assembling_machine.py` 153-181, `prototypes/furnace.py` 160-204; the pickle files themselves, texts of warnings and the modules' own validators left out |
| Registry | `environment/update.py` 38-120 and 878-1170 (`get_default_collision_mask`, `categorize_entity`, `is_entity_flippable`, `extract_entities`), `data/entities.py` 134-255 (`add_entity`), `entity.py` 106-322 (`new_entity`: which class), `classes/entity.py` 634-643 (`flippable`); what collision sets look like, energy sources and the pickle file left out |
| Surface | `data/planets.py` 15-38 (`get_surface_properties`), `utils.py` 882-902 (`passes_surface_conditions`), `data/recipes.py` 75-84 (`is_usable_on`), `classes/entity.py` 647-698 (`surface_conditions`, `is_placable_on`); a planet is its own numeric fields and the nested table of surface properties |
| Table | `environment/update.py` 713-731 (`convert_table_to_dict`) and 1640-1668 (`extract_tiles`), `data/fluids.py` 19-67, `data/tiles.py`, `classes/tile.py` 230-232; keys of Lua tables are integers and strings; further keywords of `add_fluid` left out |
| Manage | `environment/mod_list.py` 16-28, 38-95, 136-140 (patterns, dependencies and arguments of `Mod`), 214-420 (`register_mod`), 614-663 (`set_mods_enabled`); POSIX paths, info.json with values of the expected types; reading and writing the files themselves left out (for mod-list.json see Layout). Which characters beyond ASCII are words, digits and space is left open; two theorems assume that digits are words, or are not space |
| Arith | `prototypes/arithmetic_combinator.py` 46-218 and 264-573; `classes/mixins/control_behavior.py` 63-86; `exportable.py` 14-44 for these fields. Signals by name; the known signals are an oracle; dictionaries with other keys, non-integer numbers and the texts of warnings left out |
| Shorthand | `signatures.py` 378-397 for the signal of an icon, 523-544, 592-606, 743-757, 1254-1274; `blueprint.py` 399-411; `deconstruction_planner.py` 199-235; `upgrade_planner.py` 289-304, 385-390; `mixins/filters.py` 31-43; `mixins/inventory_filter.py` 55-67; `mixins/target_priorities.py` 58-70; `asteroid_collector.py` 77-91; `linked_container.py` 36-42, 96-131; `data/signals.py` 105-108. Known signals and their types are oracles; floats, bytes and sets, and what pydantic does with the long forms, left out |
| Attr | `exportable.py` 14-44, 81-130; the class headers, annotated fields and properties of `entity.py`, `entity_like.py`, `spatial_like.py`, `mixins/*.py`, `prototypes/*.py`; the nested `Format` classes; `signatures.py` 107-247 as far as `extra="allow"`. `Attr_Table.v` was generated by parsing the sources with `ast`, never running them. Left out: setters written by hand (arithmetic operands, direction, name, id, position, tile_position, validate_assignment, link_id, orientation, instrument_name, note_name, items; most are modelled elsewhere), `FilterInserter`, models shared by two entities |
| Ctor | `entity.py` 200-331; `exportable.py` 201-212; `entity_like.py` 37-40; every `__init__` of `mixins/*.py` and `prototypes/*.py`; aliases of declared fields and extra keys. `Ctor_Table.v` was generated by parsing the sources with `ast`, never running them. Left out: sizes, collision sets, sets of fuels and ingredients, notes, the computation of where the entity is placed (Position), arguments by position (they have the name of the parameter) |
| Sheet | `blueprintable.py` 47-145, 184-432, 497-528; `blueprint.py` 492-640, 642-976; `blueprint_book.py` 256-345, 347-470, 476-523; `deconstruction_planner.py` 251-328, 345-560; `upgrade_planner.py` 406-590. Left out: export (`to_dict`), identity of vectors and lists that are changed in place, changes `setup` makes to dicts and lists of the caller, warnings. |
| Upgrade | `upgrade_planner.py` 44-214, 307-381. Left out: texts of warnings, ids that are not validated, results that are no list. |
| Report | `exportable.py` 133-182, `entity.py` 700-740, `tile.py` 263-293, `entity_list.py` 47-62 and 472-508, `tile_list.py` 149-185, `group.py` 557-573, `blueprintable.py` 497-527, `blueprint.py` 1028-1044, `blueprint_book.py` 476-524. Left out: modes that are no member of ValidationMode, texts of messages, books that contain themselves. |
| Equal | `blueprint.py` 1140-1157, `entity_list.py` 649-660, `tile_list.py` 305-315, `tile.py` 297-302, `schedule_list.py` 16-80, `schedule.py` 343-350, 379-387 and 714-719, `association.py` 34-61, `entity.py` 764-765 and the 85 lines `__hash__ = Entity.__hash__`. Left out: extra fields of stops, slices with a step. |
| Document | `blueprint.py` 137-275, 294-420 (fields and serializers), 492-630 and 1046-1136; `exportable.py` 319-334; `entity.py` 192-194 and 551-555, `group.py` 368-372, `tile.py` 95-98. Left out: unknown keywords, validation, what single entities and schedules dump. |
| Stages | `update.py` 310-369, 372-449 (without `compatibility/settings.lua` but its `require`), 697-710; `mod_list.py` 124-134, 149-157, 405-414; `interface.lua` 86-135, 142-212, 223-247, 252-263, 269-295, 304-306, 313-358. Left out: what files do besides requiring, `data:extend`, `'%'` in names (special in replacements), C searchers. |
| Burner | `burner_energy_source.py` 27-68, 102-129, 134-201; `burner_generator.py` 35-63, 101-103; `furnace.py` 47-77; `request_items.py` 90-118; `update.py` 1244-1251; `data/items.py` 17-19. Left out: the order in a Python set, `heat_energy` and `lead_to`. |
| Sections | `request_filters.py` 23-42, 67-72, 145-165, 241-294; `constant_combinator.py` 81-96, 198-214, 247-278; `signatures.py` 143-180, 1156-1180, 1183-1234, 1433-1441; `entity.py` 700-740 for this field; default arguments of the seven classes. Left out: other warnings, shared lists, extra keys besides `active`. |
| Vector | `vector.py` 19-181; `constants.py` 680-726. Left out: infinities, NaN, overflow, vectors of anything but numbers, strings as operands, casts other than int and float, `__str__`, `__repr__`, the subclasses of entity.py (C22). |
| Condition | `control_behavior.py` 66-168; `circuit_condition.py` 71-106; `logistic_condition.py` 69-105; `target_priorities.py` 166-202; `signatures.py` 76-100, 349-400, 702-774 as far as one condition is concerned. Left out: extra keys of signals, control behaviours that are raw dictionaries beyond their refusing, `merge` (C64), export (C48, C70). |
| Speaker | `programmable_speaker.py` 55-242 (`CircuitParameters` and its validators), 676-831 (setters and getters of instrument and note), `entity.py` 700-740 (`validate`) as far as those fields are concerned. Left out: the other fields of speakers, which are only accepted or not; alert icons and messages (C47). |
| Nest | `entity_list.py` 115-358, 465-470, 529-629 as far as members and map are concerned; `spatial_hashmap.py` 61-99; `entity.py` 537-555, 755-762; `group.py` 360-372; `spatial_like.py` 54-78. Left out: merging (C65), ids (C13-C16), slices (C15), overlap warnings, the same object in two lists, changes of position while in a list. |
| Release | `update.py` 235-307, 1670-1778; `script.py` 183-258 as far as `factorio-version` and `mod-settings` are concerned. Left out: argparse, paths, branches, truncation of a file whose pickling fails. |
| Capacity | `inventory.py` 76-205, `inventory_filter.py` 92-100, `modules.py` 98-122 and 162-172, `lab.py` 64-97, `blueprint.py` 430-448, `blueprintable.py` 426-432, `double_grid_aligned.py` 20-44. Left out: overflow of floats, requests with extra keys; the quotient count / stack size is exact. |
| Waiting | `schedule.py` 60-171, 187-289 and 356-376, `exportable.py` 14-46, 142-146, 262-266 and 319-334, `signatures.py` 141-161. Left out: how a condition is read and exported (parameters; C72), equality (C78), the operators (C28). |
| Filters | `filters.py` 17-64 and 166-197, `inventory_filter.py` 41-67 and 294-322, `signatures.py` 77-105, 141-161 and 907-925, `exportable.py` 14-46. Left out: keys besides the four, the setter `filters =` (validated strictly), `use_filters`. |
| Listing | `mod_list.py` 518-609. What a terminal makes of the characters is left out. |
| Echo | `utils.py` 926-974. Filters that depend on earlier warnings (default, once, module), stack levels and the scoring of suggestions are left out. |
| Layout | `environment/mod_list.py` 193-211: `read_mod_list_json`, `write_mod_list_json`, the parts of `json.dumps(indent=2)` and `re.sub` they use. Values that json cannot write, and errors of the file system, are left out. |
| Passage | `classes/blueprintable.py` 85-105 (constructor), 107-145 (`load_from_string`), 544-568 (`to_string`), `blueprintable.py` 22-58 (`get_blueprintable_from_string`). The classes other than `Blueprint` are only chosen, not made; documents with NaN or infinities, and keywords of `setup` that no dictionary has, are left out. |
| Assign | `classes/exportable.py` 14-44, 81-176; `signatures.py` 76-205; the setters of recipe, bar, link id, direction, items, infinity pipe, heat interface and programmable speaker |
| Trim | `classes/exportable.py` 319-334, `signatures.py` 120-247, `classes/entity.py` 199-322, 700-740, every prototype constructor as data |

## What is not modelled

* Running Lua, opening folders, archives and files, and pickling
  (`environment/update.py` as far as the areas Mods, Manage, Stages, Registry, Table
  and Release do not name it), and the legacy copy `env.py`.
* The parsing of command line arguments.
* `classes/rail_planner.py` (it calls `Direction.next` with a keyword that does
  not exist and cannot run).
* The numerical content of the generated game data (`data/*.pkl`); it is a parameter
  wherever it is used.
* pydantic itself.  What it does with the fields of a model is modelled area by area
  and listed above with the assumptions.
* Warnings, except where a property says which are issued (C47, C81, C82, C84, C85,
  C88, C90 and others); the texts of warnings and errors are left out everywhere.
* Text formatting (`__repr__`, `__str__`), JSON schemas and documentation helpers.
* Concurrency, signals and running out of memory.

## Findings

Where the code does not do what its documentation says, the property is stated
as `…_refuted` with a witness and the strongest correct statement is proved
beside it.  Items marked † were found while modelling but lie outside the
proved statements.

* **C03** A surrogate pair spelt as two characters comes back as one, so keys
  may merge; values nested past the recursion limit raise on encoding and are
  "malformed" on decoding; the decoder ignores junk characters, stray padding
  and whatever follows the padding.
* **C07** The rotated bounding box is wrong at 135° and whenever cos < 0 and
  sin ≠ 0.
* **C09–C11** A box ending exactly at a cell seam, a query box with its own
  offset and objects within the 0.001 margin are missed or reported too much.
* **C13** Inserting or replacing at a negative index, assigning a duplicate ID,
  an empty ID and clearing a group's ID twice corrupt the key maps;
  out-of-range deletion wraps round.
* **C15** Deleting a slice records wrong positions.
* **C16** The union of two lists raises on clashing IDs.
* **C17** Renaming a listed tile after deleting an equal one leaves the index
  stale.
* **C18** Contents of a moved group keep their old cells; tile positions of
  off-grid ties may jump by two.
* **C19, C20** Directions do not wrap: rotation raises when direction plus angle
  reaches 16; a second flip usually raises; groups raise `AttributeError`.
* **C21** A failing rotation or flip leaves a half-transformed blueprint.
* **C22** `position[0] = v` and fractional tile positions leave position and
  tile position disagreeing.
* **C23** The wires of equal entities are exported to the first of them; a
  schedule without locomotives raises `KeyError`.
* **C24** Entity number 0 is read as the last entity.
* **C25** Adding a wire twice stores two copies.
* **C27** Generated power wires ignore the limit of five and the order by
  distance.
* **C28, C45** Parentheses are lost when conditions are combined, two compound
  operands raise `TypeError`, shared conditions change in both places; for
  decider conditions `>=` and `<=` are swapped and a chained comparison keeps
  only its second half.
* **C29** Insert-then-remove may reorder or lose another stop.
* **C31, C32** In-between directions have the zero vector; `LegacyDirection`
  computes in sixteenths; orientations near a full turn have no direction; `>=`,
  `<=`, `>` contradict `<` and `==`.
* **C33** Imported mappings and mappings with a blank side cannot be removed by
  index; `mappers=None` raises.
* **C34–C36** Clearing an empty slot raises `UnboundLocalError`, an occupied
  slot keeps its old quality and comparator, clearing a signal always raises.
* **C37** A second request for a slot adds a second entry; an omitted slot may
  collide.
* **C38** Custom or imported indices may collide; unknown keys may change the
  class on re-import; slice assignment always raises.
* **C39** A position without radius is ignored for tiles; equal members are
  returned once; a negative limit drops from the end.
* **C40** A group's own search index is useless once the group has moved;
  members added to a placed group are not found from the blueprint.
* **C41** Large wattages are inexact; the empty string raises `IndexError`.
* **C42, C43** Absent optional dependencies, `~` dependencies and `=`
  comparisons crash; the depth of a mod is one plus the sum, not the maximum.
* **C44** Lists and unsigned integers are unreadable; the writer always fails
  after emptying the file.
* **C46** Reversing belts twice does not restore hooked chains; an exit facing
  an undirected entity raises.
* **C47** A rejected recipe or infinity-pipe value stays stored; direction
  `None` raises a raw `TypeError`.
* **C48** Some attributes are lost or changed by trimming (recipe quality,
  chunk filter, loader type, cleared silo recipe, …).
* **C49** A dangling subgroup or group raises `KeyError`.
* **C50, C51** Odd directions raise after the schedule was appended; trains are
  placed four tiles behind the stop but searched for three tiles ahead.
* **C52, C53** Rotated boxes keep their offset unrotated; rolling stock on
  diagonals reports collisions that are none.
* **C54** Rounding a diagonal past east or west stores the turned direction with
  the unturned size; non-square eight-way objects facing east or west keep the
  size of north.
* **C55** Coupling is not mutual, a car beside the track is listed twice, cars on
  both sides of north are never coupled because the windows do not wrap.
* **C56** A train without a locomotive facing the way the first car points comes
  out reversed.
* **C57** Searching by schedule raises `UnboundLocalError` when some train has no
  locomotive; searching by station raises `ValueError` for heads in the last
  eighth of a turn; orientations are compared as raw numbers; an empty set of
  names filters nothing; overlapping trains; the "first" locomotive is the last.
* **C58** Only the first association of a locomotive is wiped; the last schedule
  with the same stops is taken; removal takes the first *equal* entity, raises
  `ValueError` (documented: `KeyError`) and is not atomic.
* **C59** Copying a group with a wire or locomotive outside fails (`KeyError`),
  also within a blueprint if the target comes after the group; the wires and
  schedules of a copied blueprint keep leading to the original.
* **C60** An instrument inserted before the end takes the number of another one
  (which can then not be chosen by name), a negative index is stored as such, an
  existing name keeps its old number; `note_name = "self"` sets the note to the
  number of the instrument; changing the instrument keeps the number of the note.
* **C61** A signal added twice is listed twice; a name with several types but not
  "item" gets whichever the set shows first.
* **C63** `add_item` into a subgroup of the game's own data and `add_subgroup`
  into a group of it always fail with AttributeError, for these are ordered
  dictionaries without `append`; the item or subgroup stays registered all the
  same.  Groups and subgroups made without a list share one, so that their
  contents mix.  An item added again keeps its outdated record in its subgroup.
  The documentation promises that an unknown subgroup is made, but it is refused.
* **C64** Merging forgets the quality of every entity and, class by class, player
  descriptions, target priorities, equipment grids, vehicle inventories, recipe
  quality, display panel texts, lamp colours, spoil priority, variations and more;
  `==` overlooks the same fields, and filter mode, pickup and drop position of
  inserters.  An accumulator whose control behavior is `None` cannot be compared
  with itself (`AttributeError`); merging such a rail signal stops half way.
* **C65** Only the wires of the group an entity is directly in are redirected when
  it is merged (`other.parent.wires`), so a wire of an outer group is left leading
  to the entity that is gone (C65_wires_refuted). Merged members are removed from
  their group by `==` after the merge; if two members of one group are in the same
  place, the one in the index is removed and the one that is not stays
  (C65_overlap_refuted). An entity with an ID cannot be merged into the member of
  that ID: adding it raises DuplicateIDError (C65_id).
* **C66** Adding a module category that exists empties it (C66_history_refuted); a
  module that is moved stays in its old category and one added twice is listed
  twice (C66_once_refuted). An effect or tier given for a known module is
  discarded in favour of the old one (C66_add_module). Setting an unknown recipe
  on a machine with item requests raises TypeError instead of warning
  (C66_unknown_recipe), as does any recipe on a rocket silo with requests
  (C66_silo); on an unknown machine it is AttributeError (C66_unknown_machine).
  The value is stored all the same (C66_fields). `recipe_quality` reads the recipe
  (C66_quality_refuted). Only assembling machines have a list of recipes, so a
  silo never warns of a recipe it cannot make.
* † A mask given as Factorio 2.0 gives it, `{layers = {...}}`, is registered as the
  set of its keys, {"layers"}, which no default mask shares
  (C67_given_layers_refuted): big electric poles, oil refineries, offshore pumps,
  agricultural towers, asteroid collectors, thrusters and tesla turrets are never
  seen to overlap any entity with a default mask (checked in entities.pkl).
* † `new_entity` has no branch for asteroid collectors, turrets, markets and 1x1
  loaders, although there are classes for the first two; they become generic
  entities (C67_factory, C67_class). Added logistic containers are generic too.
* † An empty table of prototypes stops the extraction with AttributeError, one
  whose entries are all passed over with KeyError (C67_extract_iff,
  C67_ex_stops); a prototype without a collision box with TypeError, although
  later code provides for that.
* † An entity added again under another type keeps the class of the old one and is
  listed under both; added again under the same it is listed twice
  (C67_added_again_refuted). The argument `hidden` is lost when flags are given
  (C67_hidden_refuted). `flippable` of an added entity raises KeyError
  (C67_additions).
* `get_surface_properties` looks for pressure, gravity and so on in the planet
  itself, although the extracted data keeps them one level down, under
  "surface_properties". So every known planet has the same standard values
  (C68_alike_refuted): a biolab counts as placable on Vulcanus
  (C68_placable_refuted) and the foundry's recipe as not usable there
  (C68_usable_refuted). Conditions on any other property are ignored
  (C68_other_property_refuted), and surfaces that are not planets accept
  everything. `is_usable_on` raises KeyError for unknown recipes, where
  `is_placable_on` says yes.
* `convert_table_to_dict` closes up lists with gaps and turns empty tables into
  lists (C69_gaps_refuted, C69_empty_refuted). `extract_tiles` makes a set of the
  collision mask's keys, which in the present format are "layers" and flags, so
  that every tile of the shipped data has the mask {"layers"}
  (C69_mask_refuted). `add_fluid`, said to modify existing fluids, resets the
  order (C69_order_refuted) and may leave an empty temperature range
  (C69_range_refuted).
* † `add_tile` shares one mutable default set among all tiles added without a
  mask.
* `Mod.__init__` rewrites its default list `["base"]` in place: the second mod
  without "dependencies" in its info.json fails with an AttributeError, also on a
  second discovery in the same process (C70_make_all, C70_default_refuted).
* The dependency pattern drops anything that is no word character before the
  name, so that an unknown flag makes a required dependency and a name with a
  dash in front loses it (C70_prefix_refuted); a text that names nothing is a
  TypeError (C70_dependency).
* Names of archives: ".ZIP" is recognised as an archive and then refused
  (C70_upper_refuted); the name looked up in mod-list.json is that of the file
  without its spaces, so a disabled mod comes out enabled
  (C70_disabled_refuted). A folder's version without a dot stays in its name
  (C70_folder_version_refuted), and names with a space are refused.
* An archive with a name that begins with a slash is read forever
  (C70_slash_refuted).
* `set_mods_enabled` with "all" fails as soon as there is a mod
  (C70_all_refuted), and with StopIteration for a mod that is there but not yet
  in mod-list.json (C70_enable).
* `Mod.depends_on` is true of mods marked as incompatible or optional, though it is
  documented to tell required dependencies (C70_required_refuted).
* Arithmetic combinators: a constant operand is validated while the signal it
  replaces is still stored, so a forbidden signal is complained about when it is
  removed, and the loss of the only input `signal-each` is not noticed
  (C71_constant_warnings_refuted); setting an operand to None checks nothing and
  does not reset the output, contrary to the documentation
  (C71_unset_warnings_refuted); two inputs `signal-each` are accepted
  (C71_two_each_refuted).
* `set_arithmetic_conditions(second_operand=None)` reads back 0
  (C71_second_none_refuted), and `remove_arithmetic_conditions` leaves the
  default conditions (C71_removed_refuted). A refused assignment creates missing
  conditions (C71_refused_creates_refuted).
* Without validation `set_arithmetic_conditions` leaves a dict that none of the
  attributes can read (C71_unvalidated_all_refuted), and a name stored as a
  string makes later validated assignments to other slots raise AttributeError
  after having stored their value (C71_raw_name_refuted).
* Short forms: priorities given as one string are taken apart into letters
  (C72_priorities_text_refuted), so are mappers and conditions
  (C72_mappers_text_refuted, C72_condition_text_refuted); a colour or condition
  that is too short is an IndexError instead of a DataFormatError (C72_color,
  C72_condition); a version as a string is a TypeError for upgrade planners only
  (C72_version_text_refuted); an unknown icon raises InvalidSignalError in
  planners and DataFormatError in blueprints (C72_icons_agree).
* The filters of a section are converted inside the list the caller passed, also
  when it fails half way, so that list cannot be edited and used again
  (C72_section, C72_section_reused_refuted).
* `set_link` documents an AssertionError and raises ValueError (C72_links_refused).
* C73: `circuit_enabled` is not a declared field of the control behavior of ten
  importable classes (and `auto_launch` of rocket silos): reading it from a new
  entity raises `AttributeError`, and any value is taken in any mode.
* C73: `Lamp.color_mode`, `always_on` and `color` are never checked.
* C73: `player_description` of the four combinators, `recipe` and
  `recipe_quality` are stored before they are checked, so a refused value stays.
* C73: the getter of `recipe_quality` returns the recipe.
* C73: `ConstantCombinator.sections` cannot be set with validation on: the setter
  names `Format.ControlBehavior.Sections`, which does not exist.
* C73: `VehicleMixin.ammo_inventory` returns the trunk.
* C73 (by reading): `request_filters` is checked in mode NONE too; the property of
  `CircuitEnableMixin` names an undeclared field and is hidden by the one of
  `CircuitConditionMixin` where both are inherited; the module of `FilterInserter`
  imports a mixin that does not exist.
* C74: the keyword `result_inventory` of `AsteroidCollector` is lost; an imported
  "chunk-filter" is overwritten by the default of the parameter, and `chunk_filter`
  is checked during construction, after the mode is set.
* C74: `CargoBay`, `FusionReactor`, `HalfDiagonalRail` and `RailSupport` have no
  base class and can never be constructed.
* C74: `RocketSilo.auto_launch` raises `AttributeError` unless it was given; the
  targets of a `SpiderVehicle` raise it unless a model was given, for the default
  is a dict that is stored as it is; `items` of an `ArtilleryTurret` is a dict
  where others have a list.
* C74 (by reading): the default `{}` of `tags` is one object shared by all entities
  of a class (but constant combinators and electric poles); keywords that a class
  does not forward to `Entity` (`filter_mode` of inserters) are stored as given and
  never converted; `request_filters` left out is `None` for landing pads and hubs;
  `direction`, `override_stack_size` and `items` of an `AgriculturalTower` become
  extra keys (`C74_passed`).
* † The `index` argument of `Blueprint`, `BlueprintBook`, `DeconstructionPlanner` and `UpgradePlanner` is always
  lost: `setup` sets the index again, to the one of the data or to `None` (`C75_constructor_index`).
* † `Blueprint(validate="none")` without data still validates strictly (`C75_constructor_strict`); a dict without
  the root key raises a bare `KeyError`, where a string raises `IncorrectBlueprintTypeError` (`C75_constructor_refuses`).
* † `setup` is documented as not cumulative. Unknown keywords of earlier calls stay, and are put beside the body
  instead of inside, so that they move on export (`C75_unknown`, `C75_unknown_stays`); the filters of a deconstruction
  planner stay when `settings` is `None` (`C75_filters_refuted`). An unknown keyword named like the root replaces the
  whole body (`C75_harmful_refuted`). A refused value leaves a half-changed object (`C75_setup_stops`).
* † `snapping_grid_size` and the like are never `None`, though documented so (`C75_none_vector`);
  `active_index = None` is documented to mean `0` and is kept as `None` (`C75_active_index_refuted`).
* `check_valid_upgrade_pair` raises KeyError instead of warning for minable entities
  without products (`crash-site-chest-1` and the three `factorio-logo` entities of the
  shipped data), for products that are no items, and for items whose type is given as
  "entity" (`C76_productless_refuted`, `C76_fluid_refuted`, `C76_item_refuted`);
  validating a planner then fails with KeyError (`C76_mappers_raise`).
* `check_valid_upgrade_pair` looks for hidden items among their flags, where 2.0 data
  never has it; the field `hidden` is not looked at, so that 13 entities of the
  shipped data that return hidden items go unnoticed (`C76_hidden_ignored`,
  `C76_hidden_refuted`). Whether anything builds the target is not checked though the
  quoted rule says so (`C76_target_refuted`).
* `Group.validate` does not look at the tiles of the group (the line is commented
  out), so that an unknown tile inside a group is never reported (`C77_group_tiles`,
  `C77_group_tiles_refuted`).
* `validate` converts the fields of entities one after the other: a blueprint whose
  validation reports errors, or raises in the middle, may already have been changed
  (`C77_unchanged_refuted`, `C77_halfway_refuted`).
* `Blueprint.__eq__` does not compare wires or stock connections (`C78_relinked`,
  `C78_wires_refuted`).
* `Group` has no `__eq__`, so a blueprint with a group is never equal to a copy of
  itself (`C78_copied_group_refuted`); schedules compare locomotives by identity, so
  that a blueprint with a manned schedule is never equal to what is imported from its
  string (`C78_reimported_train_refuted`), and becomes equal to others once the
  locomotives are collected (`C78_collected_refuted`).
* `SimpleEntityWithForce` and `SimpleEntityWithOwner` inherit
  `DirectionalMixin.__eq__` without a `__hash__` and cannot be hashed (`C78_hash`);
  for all other classes equal entities have different hashes (`C78_hash_refuted`).
* `ScheduleList.__setitem__` accepts a sequence for a single index and stores the
  sequence (`C78_list_refuted`).
* `Blueprint.to_dict` passes `exclude_none` and `exclude_defaults` on to the
  attributes only, not to entities, tiles and schedules (`C79_flags`).
* A blueprint whose version is `None` gets the current version when its dictionary is
  read (`C79_version_refuted`); `absolute_snapping = None` comes back as `True` with
  `exclude_defaults=False` (`C79_absolute_refuted`).
* `snapping_grid_position` is not in the dictionary but subtracted from all positions,
  so that it is lost on reading (`C79_origin_refuted`).
* Tiles of groups are not written by `Blueprint.to_dict` (`C79_group_tiles_refuted`).
* `normalize_module_name` removes `.lua$` as a pattern: any character followed by
  "lua" is dropped (`C80_suffix_refuted`).
* `require` of a name with a folder puts `<mod>/<folder>/?.lua` in front of the path
  and then fills in the whole name, so `<mod>/<folder>/<folder>/file.lua` comes first
  (`C80_doubled_refuted`); `CURRENT_FILE` is not set in this case, so a file of a
  folder gets the file of the same name of the mod's root before the one beside it
  (`C80_sibling_refuted`).
* `package.loaded` is keyed by the name as written: two files of one name in different
  folders of a mod are one (`C80_folders_refuted`).
* A `require` that fails inside `pcall` leaves its folder on `package.path` and its
  mod on `MOD_TREE` (`C80_caught_refuted`); later `require`s of the phase remove the
  wrong entry.
* Mods in archives can not be loaded: `Mod.get_file` and `python_require` use
  attributes that are never set (`C80_archives`).
* Files of any mod below a folder `graphics/` or `sound/` are never loaded, even if
  they exist (`C80_dummies`).
* The validators of `Furnace.items` and `BurnerGenerator.items` still use requests as
  dictionaries or strings: any request in strict or pedantic mode raises TypeError
  after having been stored unconverted (`C81_furnace_refuted`).
* A request whose `id` is a plain name is accepted by the converter but its fuel check
  raises TypeError and leaves it stored unconverted (`C81_short_refuted`).
* The fuel check consumes or misses what an iterator yields: no warning is given
  (`C81_iterator_refuted`).
* Fuels are cached by name before they are gathered: after a KeyError the next
  construction succeeds with a partial set (`C81_partial_refuted`), and a name used
  before the data knew it never gets its fuels (`C81_stale_refuted`).
* `Entity.validate` replaces `_root` by a revalidated copy: a section got from
  `add_section` before is no longer the entity's, and signals set on it are lost
  without notice (`C82_live_refuted`).
* `add_section` passes `active`, which is no field of `Section`: every section it
  makes gives an UnknownKeywordWarning when validated (`C82_own_refuted`).
* `ensure_not_pure_virtual` asks a string for `.name`: validating a section with
  signal-each, signal-anything or signal-everything raises AttributeError instead of
  warning (`C82_virtual_refuted`).
* `add_section(index=i)` does not insert at `i` but appends, and two sections may get
  one index (`C82_distinct_refuted`).
* `Sections.__getitem__` with a string looks for groups only, so `["sections"]` raises
  StopIteration (`C82_field_refuted`).
* `CargoLandingPad` and `SpacePlatformHub` start with `request_filters` None and
  `LogisticStorageContainer` with a list, so `add_section` raises AttributeError
  (`C82_never_refuted`), and a new storage chest does not pass its own validation
  (`C82_storage_refuted`).
* `Vector.from_other` returns a Vector it is given: `group2.position =
  group1.position` makes both groups share one object, so moving one through
  `position.x` moves the other (`C83_own_refuted`), and `type_cast` is not applied to
  it (`C83_cast_refuted`).
* Vector operators index their operand with 0 and 1, so a dictionary `{"x":…, "y":…}`
  raises KeyError although `from_other` accepts it (`C83_dictionary_operand_refuted`).
* `set_*_condition` with bad arguments raises pydantic's ValidationError, not the
  documented DataFormatError, since `@validate_call` refuses before
  `attempt_and_reissue` is reached (`C84_exception_refuted`).
* `control_behavior = None` keeps None, not an empty dict; then every
  `set_*_condition` and `remove_*_condition` raises AttributeError
  (`C84_none_refuted`).
* `set_circuit_condition(b="10")` is accepted and compares with the constant 10
  (`C84_text_refuted`); comparators are converted at once, not on export
  (`C84_spelling_refuted`).
* Two speakers with the same instrument and note are unequal if one was given a name
  and the other a number, since `instrument_name` and `note_name` are fields of the
  model that are not exported but are compared (`C85_equal_refuted`,
  `C85_reimport_refuted`, `C85_mode_refuted`).
* Changing `instrument_id` after setting `note_name` makes `validate()` warn of a note
  name the speaker does not have any more (`C85_stale_refuted`).
* A group that is not at (0, 0) puts its entities into its spatial map as if it were,
  because the parent is set after the insertion; `find_entities` on it misses them,
  and deleting one looks in the wrong cells, fails silently (bare `except: pass`) and
  leaves it in the map (`C86_group_refuted`, `C86_brought`).
* Changing the entities of a group inside a blueprint, or `recursive_remove` of such
  an entity, leaves the blueprint's spatial map as it was (`C86_blind_insert`,
  `C86_blind_remove`).
* `recursive_remove` looks only one level deep (`C86_depth_refuted`) and removes the
  first equal entity, not the one given (`C86_other_refuted`); removing one of two
  equal entities may leave the removed object in the map (`C86_twins_refuted`).
* An entity keeps its parent when it is deleted from a list; put elsewhere with
  `copy=False` it is mapped relative to the old parent (`C86_parent_refuted`).
* `specify_factorio_version` raises AttributeError for every valid version, and for
  `latest`, when HEAD is at no tag, e.g. right after cloning (`C87_detached_refuted`);
  with `verbose` even before the request is looked at (`C87_verbose_refuted`).
* `latest` is the tag with the latest commit date, which may be of an older line
  (`C87_latest_refuted`).
* `update_draftsman_data` writes the new version before extracting; if an extraction
  raises, the version and the first files are new and the rest old
  (`C87_update_refuted`).
* The version of the data is extended to four numbers only if it has three
  (`C87_four_refuted`).
* `set_item_request` of every container except infinity containers stores the request
  and then raises AttributeError, as `inventory_slots_occupied` calls `.items()` on a
  list (`C88_chest_refuted`); it takes no quality, inventory or slot
  (`C88_arguments_refuted`).
* `module_items` raises AttributeError always, `module_slots_occupied` TypeError as
  soon as there is a request (`C88_counted_refuted`).
* Requests to an unknown lab are stored and raise TypeError (`C88_lab`).
* Assigning `index` to a blueprint wider than 10000 tiles raises
  UnreasonablySizedBlueprintError, and the index is changed (`C88_index_refuted`).
* `WaitCondition(..., validate="none")` raises IndexError for a condition with fewer
  than three elements and TypeError for a type that cannot be hashed
  (`C89_construct_none_refuted`).
* Setting `type` to "time" later leaves `ticks` None, although the format documents 30
  seconds (`C89_type_later_refuted`).
* `WaitCondition.validate` throws away what it converted: ticks "5" pass validation
  and are exported as a string (`C89_validate_refuted`).
* `validate_assignment = "loose"` raises ValueError, not the documented
  DataFormatError (`C89_mode_refuted`).
* `WaitConditions(list)` replaces the dictionaries in the list of the caller, also if
  it raises half-way (`C89_make_refuted`).
* A key "validate": "none" in the data of a blueprint switches validation of that
  condition off, any unknown key is a TypeError in every mode (`C89_call_refuted`,
  `C89_call_fails`).
* `set_item_filters([...])` is refused, although the documentation shows a list: the
  entries must be separate arguments (`C90_list_refuted`).
* No index is checked against `filter_count` or `inventory_size`: zero, negative and
  huge indices are accepted silently, although IndexError is documented
  (`C90_bounds_refuted`); `ensure_within_filter_count` belongs to a class that is not
  used here.
* Unknown items are accepted, in minimum mode silently, although InvalidItemError is
  documented (`C90_unknown_refuted`).
* A name and a dictionary in one list can fill the same slot twice
  (`C90_slots_refuted`).
* The entries with "signal" documented for `set_inventory_filters` are refused
  (`C90_signal_refuted`).
* With several versions of a mod whose name is longer than 50 characters the columns
  of `display_mods` are shifted (`C91_columns_refuted`).
* `display_mods({})` raises ValueError (`C91_empty_refuted`).
* Warnings issued by a function decorated with `reissue_warnings` before it raises are
  never shown (`C92_lost_refuted`).
* `write_mod_list_json` opens mod-list.json for writing before it makes the text, so a
  failing `json.dumps` leaves an empty file (`C93_kept_refuted`).
* `load_from_string` names the first key of the document in its message, so the string
  of `{}` raises StopIteration instead of IncorrectBlueprintTypeError, and
  `get_blueprintable_from_string` raises IndexError; the string of a number raises
  TypeError (`C94_errors_refuted`).
* † `SimpleEntityWithForce` and `SimpleEntityWithOwner` define `==` but no hash;
  `filter_inserter.py` imports a mixin that does not exist.
* † The documentation lets `find_train_from_wagon` take an ID, which fails;
  `num_type` and `num_name` of the caller are changed in place.
* † A copied blueprint lacks `_root_format` and other attributes, so its setters
  raise `AttributeError`; `Blueprint.setup` changes the caller's wire list; `Blueprint.__eq__` ignores
  wires.
* † `CargoBay`, `FusionReactor`, `HalfDiagonalRail` and `RailSupport` cannot be
  constructed.
* † `VehicleMixin.ammo_inventory` returns the trunk; `recipe_quality` returns
  the recipe.

## Seeded faults

`seeded/LOG.jsonl` lists edits made to a scratch copy of the models, each a
realistic mistake, with the theorems that stopped proving.  Edits that no theorem
noticed led to the tightenings named in the last field.
