{
 "claims": [
  {
   "property": "C01",
   "status": "proved",
   "theorems": [
    "C01_to_meters_value",
    "C01_to_meters_value_no_flag",
    "C01_to_meters_none",
    "C01_table_accuracy"
   ],
   "note": "Exact rational arithmetic in place of binary floats; ASCII letter case."
  },
  {
   "property": "C02",
   "status": "proved",
   "theorems": [
    "C02_round_trip_close",
    "C02_round_trip_exact_iff"
   ],
   "note": "Error bound for every unit; exactness characterised (iff km, m, cm)."
  },
  {
   "property": "C03",
   "status": "proved",
   "theorems": [
    "C03_unit_conversion_value",
    "C03_unit_conversion_none",
    "C03_unit_conversion_linear",
    "C03_unit_conversion_back"
   ],
   "note": "Value, None cases, linearity and round-trip bound for all unit pairs."
  },
  {
   "property": "C04",
   "status": "proved",
   "theorems": [
    "C04_symmetrize_triangular",
    "C04_symmetrize_any_rows"
   ],
   "note": "Exact result of symmetrize for every list of rows; triangular inputs keep their entries and become symmetric. Ragged rows: see C04_symmetrize_any_rows."
  },
  {
   "property": "C05",
   "status": "partial",
   "theorems": [
    "C05_kron_grounded_partial",
    "C05_kron_raises_refuted",
    "C05_kron_default_refuted",
    "C05_kron_default_pair",
    "C05_kron_wrong_refuted"
   ],
   "note": "Correct only for as many neutrals as phases with symmetric cross block. Otherwise IndexError (C05_kron_raises_refuted, also for the default neutral with three or more conductors) or a wrong value (C05_kron_wrong_refuted)."
  },
  {
   "property": "C06",
   "status": "proved",
   "theorems": [
    "C06_compute_matrix",
    "C06_order_of_wires",
    "C06_compute_matrix_succeeds",
    "C06_repeated_phase_refuted"
   ],
   "note": "Wires with distinct phases. Negative gmr, which gives a math domain error, is a failure. With repeated phases the matrix depends on the order (C06_repeated_phase_refuted)."
  },
  {
   "property": "C07",
   "status": "proved",
   "theorems": [
    "C07_sequence_transform_three",
    "C07_sequence_transform_two",
    "C07_balanced_line",
    "C07_other_shapes",
    "C07_sequence_entries",
    "C07_balanced_entries",
    "C07_entries_absent"
   ],
   "note": "Complex numbers over the reals; floating-point rounding not modelled."
  },
  {
   "property": "C08",
   "status": "proved",
   "theorems": [
    "C08_lookup_is_last_registered",
    "C08_keyerror_iff_absent",
    "C08_models_unchanged"
   ],
   "note": "Names are arbitrary values or None."
  },
  {
   "property": "C09",
   "status": "proved",
   "theorems": [
    "C09_models_after_any_history",
    "C09_create_appends",
    "C09_remove_exactly_one",
    "C09_remove_unregistered_fails",
    "C09_other_operations_keep_models"
   ],
   "note": "Induction over arbitrary histories; models() is a value, hence a snapshot by construction of the model."
  },
  {
   "property": "C10",
   "status": "proved",
   "theorems": [
    "C10_delete_removes_exactly_the_parts",
    "C10_delete_succeeds_iff",
    "C10_delete_shared_or_unregistered_fails"
   ],
   "note": "Exact effect, exact success condition and the ValueError case; nesting depth unbounded (fuel existential)."
  },
  {
   "property": "C11",
   "status": "proved",
   "theorems": [
    "C11_copy_is_fresh_and_complete",
    "C11_copy_succeeds"
   ],
   "note": "Effect for every successful copy; success for every finite object tree."
  },
  {
   "property": "C12",
   "status": "partial",
   "theorems": [
    "C12_add_effect",
    "C12_add_succeeds",
    "C12_add_all_named_refuted"
   ],
   "note": "Proved with the meaning 'objects a name resolves to'; objects of m2 shadowed by a later object with the same name are not added (C12_add_all_named_refuted). Assumes sub-objects have no name trait."
  },
  {
   "property": "C13",
   "status": "partial",
   "theorems": [
    "C13_delete_effect",
    "C13_delete_names_gone",
    "C13_delete_succeeds",
    "C13_delete_all_bearers_refuted"
   ],
   "note": "Exact effect and success condition; 'every object with that name' holds for unique names in m1 and is refuted for duplicate names (C13_delete_all_bearers_refuted)."
  },
  {
   "property": "C14",
   "status": "partial",
   "theorems": [
    "C14_merge_effect",
    "C14_hypotheses_preserved",
    "C14_merge_twice_partial",
    "C14_merge_twice_refuted",
    "C14_plain_lists_break_merge"
   ],
   "note": "Scalar rule, frame and registration proved for every successful merge; idempotence proved for scalar attributes, refuted for the order of phase lists (C14_merge_twice_refuted). Finding: a common object of model 2 with a non-empty list of plain values makes merge raise (C14_plain_lists_break_merge)."
  },
  {
   "property": "C15",
   "status": "partial",
   "theorems": [
    "C15_phase_merge_partial",
    "C15_missing_phases_added_refuted"
   ],
   "note": "Exact effect proved for leaf sub-objects (no nested lists); the claim 'adds the phases m1 lacks' is false for phases after m1's last phase (C15_missing_phases_added_refuted)."
  },
  {
   "property": "C16",
   "status": "partial",
   "theorems": [
    "C16_graph_contents",
    "C16_unnamed_class_refuted"
   ],
   "note": "Edges, nodes and attributes for every model; the class on the edge is wrong for an object whose name is None (C16_unnamed_class_refuted)."
  },
  {
   "property": "C17",
   "status": "proved",
   "theorems": [
    "C17_shortest_path_tree",
    "C17_build_succeeds_iff"
   ],
   "note": "All models and sources; termination of BFS included; success iff something touches the source (objects on the network named)."
  },
  {
   "property": "C18",
   "status": "proved",
   "theorems": [
    "C18_nearest_upstream_transformer"
   ],
   "note": "Exact result for every node, including the KeyError when the path runs over a load edge (edges without equipment)."
  },
  {
   "property": "C19",
   "status": "proved",
   "theorems": [
    "C19_downstream_elements"
   ],
   "note": "Exact contents and exact ValueError condition; names resolve to their last bearer."
  },
  {
   "property": "C20",
   "status": "proved",
   "theorems": [
    "C20_direct_from_source"
   ],
   "note": "Effect, orientation, idempotence, links unchanged; success for every built network."
  },
  {
   "property": "C21",
   "status": "partial",
   "theorems": [
    "C21_removed_edges_partial",
    "C21_open_lines_are_removed",
    "C21_removal_succeeds",
    "C21_plain_line_removed_refuted",
    "C21_parallel_line_removed_refuted",
    "C21_removal_raises_refuted"
   ],
   "note": "Exact set of removed edges and success condition; 'no others' is false (plain lines with is_breaker=False and wires of unknown state; closed lines parallel to an open switch), and two open switches on one pair raise (refuted theorems)."
  },
  {
   "property": "C22",
   "status": "partial",
   "theorems": [
    "C22_internal_edges_partial",
    "C22_parallel_objects_missing_refuted"
   ],
   "note": "Exact contents; of parallel objects only the last is reported (C22_parallel_objects_missing_refuted)."
  },
  {
   "property": "C23",
   "status": "partial",
   "theorems": [
    "C23_no_cycle_is_found",
    "C23_delete_cycles_deletes_nothing",
    "C23_each_cycle_once",
    "C23_short_cycles_are_kept",
    "C23_long_cycles_are_cut",
    "C23_loops_are_not_broken_refuted"
   ],
   "note": "False of the code: find_cycles works on the directed tree and is always empty, so delete_cycles deletes nothing; proved for all models and refuted by a loop."
  },
  {
   "property": "C24",
   "status": "partial",
   "theorems": [
    "C24_delete_disconnected_partial",
    "C24_deletion_succeeds",
    "C24_unnamed_parts_stay_refuted"
   ],
   "note": "Exact effect and success; the parts of unnamed nodes stay registered, and the rebuild from 'sourcebus' raises on models without it (C24_unnamed_parts_stay_refuted)."
  },
  {
   "property": "C25",
   "status": "proved",
   "theorems": [
    "C25_loads_connected",
    "C25_no_source",
    "C25_several_sources",
    "C25_same_name_refuted"
   ],
   "note": "networkx shortest paths and build_network as modelled. Loads sharing a name are not told apart (C25_same_name_refuted); two sources feeding one load raise AttributeError (C25_several_sources)."
  },
  {
   "property": "C26",
   "status": "proved",
   "theorems": [
    "C26_unique_path",
    "C26_unconnected_refuted"
   ],
   "note": "An unconnected load is taken for a collection of one-letter nodes (C26_unconnected_refuted), hence the hypothesis that loads are connected."
  },
  {
   "property": "C27",
   "status": "proved",
   "theorems": [
    "C27_loops",
    "C27_contract_met",
    "C27_parallel_lines_refuted"
   ],
   "note": "nx.cycle_basis enters through its contract (empty exactly when there is no cycle), met by all_loops. No source: TypeError. Parallel lines are one edge (C27_parallel_lines_refuted)."
  },
  {
   "property": "C28",
   "status": "partial",
   "theorems": [
    "C28_matched_phases",
    "C28_contained_refuted"
   ],
   "note": "The containment part is false: a two-winding transformer is accepted only if both sides have the same set of phases (C28_contained_refuted); the theorem states exactly what is accepted."
  },
  {
   "property": "C29",
   "status": "partial",
   "theorems": [
    "C29_phase_path_partial",
    "C29_answers",
    "C29_two_transformers_refuted",
    "C29_load_at_transformer_refuted",
    "C29_open_tie_refuted"
   ],
   "note": "Claim false: two distribution transformers in series are accepted (C29_two_transformers_refuted). The theorem gives the exact acceptance condition for radial networks without parallel elements; networks with open ties are only covered by C29_open_tie_refuted."
  },
  {
   "property": "C30",
   "status": "partial",
   "theorems": [
    "C30_rated_for_load",
    "C30_effect",
    "C30_succeeds",
    "C30_never_decrease_refuted",
    "C30_two_in_series_refuted"
   ],
   "note": "Proved for radial models with one source, distinct names, for the first winding. Other windings may decrease (C30_never_decrease_refuted) and loads behind two transformers are not counted (C30_two_in_series_refuted)."
  },
  {
   "property": "C31",
   "status": "proved",
   "theorems": [
    "C31_round_trip",
    "C31_file",
    "C31_phase_storages_refuted",
    "C31_reactor_refuted",
    "C31_none_refuted",
    "C31_none_matrix_refuted"
   ],
   "note": "Proved for supported values (JsonSpec.object_ok): standard scalars, complex numbers, Unicode traits, positions, wires, phase capacitors, phase loads, windings with phase windings, matrices. None must be the default of the attribute. Refuted outside: phase storages are lost, reactors unreadable, None becomes the default, a None matrix is a TypeError."
  },
  {
   "property": "C32",
   "status": "proved",
   "theorems": [
    "C32_source",
    "C32_source_voltage"
   ],
   "note": "ValueError for none or several distinct names; if one of several source buses is named None numpy raises TypeError instead (stated). modifier_init covers lines 44-106."
  },
  {
   "property": "C33",
   "status": "partial",
   "theorems": [
    "C33_terminates",
    "C33_succeeds",
    "C33_inside_box",
    "C33_unchanged",
    "C33_located_partial",
    "C33_zero_average_refuted",
    "C33_duplicate_names_refuted"
   ],
   "note": "Termination, success, unchanged objects and the bounding box hold; every connected node is located if the known latitudes (and longitudes) are on one side of 0. Refuted otherwise (C33_zero_average_refuted: an average of exactly 0 counts as missing) and for duplicate names (C33_duplicate_names_refuted). Float rounding is not modelled."
  },
  {
   "property": "C34",
   "status": "proved",
   "theorems": [
    "C34_voltages",
    "C34_succeeds"
   ],
   "note": "The feeding transformer is unique and its smallest winding voltage is stored. Python's recursion limit is not modelled: the depth needed is bounded by the number of nodes (C34_succeeds)."
  },
  {
   "property": "C35",
   "status": "partial",
   "theorems": [
    "C35_loads",
    "C35_wires",
    "C35_one_transformer",
    "C35_conserves",
    "C35_succeeds",
    "C35_second_run_refuted"
   ],
   "note": "Proved for every network whose objects have distinct names: each load is matched with the first transformer above it, phase loads of other phases are dropped, missing ones added, and the active ones share the total power of all old ones evenly; the wires of exactly the lines in between are dropped and added accordingly. C35_conserves: if no phase load was dropped before, the active phases are those of the transformer and the active totals are unchanged. C35_second_run_refuted: the full statement fails when phase loads are dropped already (a second run): their power is counted again."
  },
  {
   "property": "C36",
   "status": "proved",
   "theorems": [
    "C36_assigns",
    "C36_never_overwrites",
    "C36_raises",
    "C36_succeeds"
   ],
   "note": "For every iteration order of the downstream set. proper: substation transformers have a non-empty name and an end that is a node whose downstream names are objects (otherwise get_all_elements_downstream raises ValueError). C36_never_overwrites also covers runs that raise."
  },
  {
   "property": "C37",
   "status": "partial",
   "theorems": [
    "C37_effect",
    "C37_bad_line",
    "C37_bad_token",
    "C37_stops",
    "C37_numeric_refuted"
   ],
   "note": "Proved for every file of well-formed lines with r1 compared as text. Refuted as a numeric comparison (C37_numeric_refuted: 1E11, 100000000000 and Switch=Y are not recognised); lines with a word that is not an assignment, e.g. a trailing blank, raise IndexError (C37_bad_line, C37_bad_token, C37_stops)."
  },
  {
   "property": "C38",
   "status": "proved",
   "theorems": [
    "C38_every_phase_set",
    "C38_codes_one_to_one",
    "C38_strings",
    "C38_phase_to_num"
   ],
   "note": "All integers and all strings; floats equal to a code behave like the code in the model."
  },
  {
   "property": "C39",
   "status": "partial",
   "theorems": [
    "C39_connection_round_trip",
    "C39_transformer_round_trip_partial",
    "C39_z_secondary_refuted"
   ],
   "note": "Proved for single connections and all pairs the writer can write in the transformer table; refuted for pairs with a Z secondary (KeyError)."
  },
  {
   "property": "C40",
   "status": "proved",
   "theorems": [
    "C40_kw_kvar",
    "C40_kva_pf",
    "C40_kw_pf",
    "C40_errors"
   ],
   "note": "Over the reals; float() is a parameter. Uses the axioms of the standard reals."
  },
  {
   "property": "C41",
   "status": "partial",
   "theorems": [
    "C41_section",
    "C41_default_layout",
    "C41_second_format",
    "C41_other_lines",
    "C41_file",
    "C41_equals_sign_refuted",
    "C41_no_blank_line_refuted",
    "C41_repeated_section_refuted"
   ],
   "note": "Proved for every file, header table, attribute list and format line: rows, keys, columns, remaining lines, second format lines and the loop over a file with one such section. Refuted: rows with an equals sign are dropped, a missing blank line swallows the next section, repeated sections overwrite records."
  },
  {
   "property": "C42",
   "status": "proved",
   "theorems": [
    "C42_merge_regulators",
    "C42_different_values_refuted",
    "C42_three_phase_refuted"
   ],
   "note": "Records of equal width. Refuted outside the statement: differing non-zero fields are blanked, ABC merged with another phase is blanked."
  },
  {
   "property": "C43",
   "status": "partial",
   "theorems": [
    "C43_series",
    "C43_separate_nodes",
    "C43_unknown_node",
    "C43_regulator_bank_refuted",
    "C43_same_from_node_refuted"
   ],
   "note": "Proved for all section tables with disjoint sections whose connectors share their ends: chains, new nodes, hung elements, frame; separate nodes with at most one regulator. Refuted: regulator banks become loops, sections leaving the same node share intermediate nodes."
  },
  {
   "property": "C44",
   "status": "partial",
   "theorems": [
    "C44_updated_recognised_partial",
    "C44_other_objects_refuted"
   ],
   "note": "The updated object is recognised; every other object breaks after any update (proved for all mappings), so the second half of the statement is refuted."
  },
  {
   "property": "C45",
   "status": "partial",
   "theorems": [
    "C45_safe",
    "C45_content",
    "C45_unchanged",
    "C45_idempotent",
    "C45_distinct_partial",
    "C45_distinct_refuted"
   ],
   "note": "Safety, content, idempotence and stability proved for all ASCII names; distinctness only for names of letters and digits, refuted in general (C45_distinct_refuted)."
  },
  {
   "property": "C46",
   "status": "partial",
   "theorems": [
    "C46_round_trip_partial",
    "C46_writer_injective",
    "C46_reader",
    "C46_neutral_refuted"
   ],
   "note": "Phases A, B, C proved; the neutral N is written as 0 and not read back (refuted)."
  },
  {
   "property": "C47",
   "status": "proved",
   "theorems": [
    "C47_computes",
    "C47_counts",
    "C47_more_counts",
    "C47_feeder",
    "C47_feeders_add_up",
    "C47_one_feeder",
    "C47_functions",
    "C47_functions_agree",
    "C47_functions_add_up",
    "C47_ratios",
    "C47_loads_by_phases"
   ],
   "note": "Counters of compute_all_metrics and of number_of_* against an independent count, additivity over models, and the per-feeder reports as the reports of the objects that belong to the feeder, adding up to the global report."
  },
  {
   "property": "C48",
   "status": "proved",
   "theorems": [
    "C48_lengths",
    "C48_partition",
    "C48_levels",
    "C48_functions",
    "C48_functions_partition",
    "C48_functions_succeed",
    "C48_voltage_base_refuted",
    "C48_four_wires_refuted"
   ],
   "note": "Lengths of compute_all_metrics and of the length functions against an independent sum; partition by number of phases, no line in both levels. Also recorded: the report compares voltage*sqrt(3) with the thresholds and the functions compare the voltage, so they class an 800 V line differently; a line with four A/B/C wires is in no phase class."
  },
  {
   "property": "C49",
   "status": "proved",
   "theorems": [
    "C49_demand",
    "C49_shares",
    "C49_imbalance",
    "C49_total",
    "C49_total_agrees",
    "C49_percentage",
    "C49_dropped_refuted"
   ],
   "note": "Demand sums, phase shares (between 0 and 100, adding up to 100), imbalance between 0 and 4/3, total_demand and percentage_load_LV_kW_phX. Also recorded: dropped phase loads count in total_demand but not in the report."
  },
  {
   "property": "C50",
   "status": "proved",
   "theorems": [
    "C50_mapping",
    "C50_one_transformer"
   ],
   "note": "For every built network whose elements and loads are named; the fuel of the upstream walk is shown to suffice above the number of nodes."
  },
  {
   "property": "C51",
   "status": "partial",
   "theorems": [
    "C51_effect",
    "C51_remove_succeeds",
    "C51_unmentioned_refuted",
    "C51_foreign_attributes_refuted"
   ],
   "note": "The effect on every attribute is proved, for every table and both flags, and removal is total. The claim that attributes the table does not mention stay unchanged is false of the code: they are overwritten with None (C51_unmentioned_refuted), and objects gain attributes of other classes (C51_foreign_attributes_refuted)."
  },
  {
   "property": "C52",
   "status": "proved",
   "theorems": [
    "C52_cells",
    "C52_succeeds",
    "C52_headers_distinct",
    "C52_odd_index_fails"
   ],
   "note": "From header text (split, strip, int, str modelled on strings) to the stored objects; class schema and trait validation are arbitrary. pd.read_csv is the input contract. C52_odd_index_fails: an index such as 00 is rejected."
  },
  {
   "property": "C53",
   "status": "partial",
   "theorems": [
    "C53_synergi_value",
    "C53_synergi_total",
    "C53_synergi_rejects",
    "C53_synergi_letter_case_refuted"
   ],
   "note": "Values, totality and rejection proved; the letter-case part of the property is false of the code (accepted spellings with capitals raise KeyError), proved in C53_synergi_letter_case_refuted."
  },
  {
   "property": "C54",
   "status": "proved",
   "theorems": [
    "C54_combine"
   ],
   "note": "Exact characterisation of every lookup in the result. The arguments are immutable values in the model; the code only reads them."
  },
  {
   "property": "C55",
   "status": "proved",
   "theorems": [
    "C55_order"
   ],
   "note": "For every behaviour of the nine parsers, including raising after partial changes."
  },
  {
   "property": "C56",
   "status": "proved",
   "theorems": [
    "C56_product",
    "C56_smallest_refuted"
   ],
   "note": "Exact arithmetic; the perimeter itself is not always minimal (C56_smallest_refuted)."
  },
  {
   "property": "C57",
   "status": "proved",
   "theorems": [
    "C57_primitive_matrix",
    "C57_primitive_matrix_outcome"
   ],
   "note": "Exact reals; np.log of a negative number (nan with a warning) is modelled as a failure, the outcome theorem assumes nonnegative data."
  },
  {
   "property": "C58",
   "status": "proved",
   "theorems": [
    "C58_update_dict",
    "C58_sharing_refuted"
   ],
   "note": "With explicit references to the inner dictionaries. C58_sharing_refuted records that the inner dictionaries are shared afterwards, so a further update of d1 changes d2."
  },
  {
   "property": "C59",
   "status": "proved",
   "theorems": [
    "C59_line_voltages"
   ],
   "note": "Includes the exact success condition."
  },
  {
   "property": "C60",
   "status": "partial",
   "theorems": [
    "C60_units",
    "C60_decides",
    "C60_three_part_version_refuted"
   ],
   "note": "Units proved for every file; version lines with more than one point raise NameError (refuted)."
  },
  {
   "property": "C61",
   "status": "proved",
   "theorems": [
    "C61_connection",
    "C61_transformer",
    "C61_bank",
    "C61_written",
    "C61_settings_code_refuted"
   ],
   "note": "All integers and strings. Also recorded: the settings code of D-D (2) means Y-D in the table of transformers (C61_settings_code_refuted); the reader does not read the settings code."
  },
  {
   "property": "C62",
   "status": "partial",
   "theorems": [
    "C62_windings",
    "C62_loads",
    "C62_agree",
    "C62_succeeds",
    "C62_again",
    "C62_every_load_refuted",
    "C62_second_run_refuted"
   ],
   "note": "Exact effect on every winding for any number of loads (C62_windings), agreement when the loads agree (C62_agree), success, second run. The literal statement is false: of several loads only the last one counts (C62_every_load_refuted), and a second run adds phase windings to transformers with three windings (C62_second_run_refuted)."
  },
  {
   "property": "C63",
   "status": "partial",
   "theorems": [
    "C63_connected",
    "C63_mapping",
    "C63_terminates",
    "C63_completed",
    "C63_information",
    "C63_listed_node_refuted",
    "C63_same_name_refuted"
   ],
   "note": "Connectedness, the exact completion by shortest paths, the mapping and termination are proved for all oracles that meet their contracts. That a node listed for one feeder stays with it is false (C63_listed_node_refuted), and two feeders of one name end in StopIteration (C63_same_name_refuted)."
  },
  {
   "property": "C64",
   "status": "partial",
   "theorems": [
    "C64_tags",
    "C64_series",
    "C64_succeeds",
    "C64_again",
    "C64_series_refuted",
    "C64_isolated_refuted"
   ],
   "note": "Feeders, substations, success and the second run are characterised exactly for all inputs. The time series of a device that inherits its feeder keep the tags the device had before (C64_series_refuted), and an isolated node raises NetworkXError (C64_isolated_refuted)."
  },
  {
   "property": "C65",
   "status": "partial",
   "theorems": [
    "C65_choice",
    "C65_geometries",
    "C65_succeeds",
    "C65_only",
    "C65_names",
    "C65_capture_refuted",
    "C65_cable_refuted"
   ],
   "note": "Proved when the names in the model do not look like the generated ones (X_1) and no cable shares the name of an overhead wire; C65_capture_refuted and C65_cable_refuted show what happens otherwise: a definition is overwritten, an underground line refers to a bare wire."
  },
  {
   "property": "C66",
   "status": "partial",
   "theorems": [
    "C66_single",
    "C66_files",
    "C66_third_refuted",
    "C66_other_feeder_refuted",
    "C66_two_definitions_refuted"
   ],
   "note": "Proved for one file with at most two variants of the data per class and number of phases (C66_single), and for any separation with consistent classes (C66_files). Otherwise refuted: the third variant gets the code of the second, a line without class refers to another feeder's file, and two files define one name differently."
  },
  {
   "property": "C67",
   "status": "partial",
   "theorems": [
    "C67_files",
    "C67_feeder_redirect",
    "C67_feeders_only_fails",
    "C67_capital_refuted",
    "C67_key_refuted",
    "C67_folder_refuted",
    "C67_unnamed_refuted",
    "C67_no_empty"
   ],
   "note": "Proved (C67_files, C67_feeder_redirect) when every group has an object to write, groups differ in 'substation_feeder' and in their folders, and substations with several feeders have names that are written as they are. Without these the statement is refuted: with separate_feeders only, every network with two feeders ends in a KeyError (C67_feeders_only_fails, for all such networks), as does a capital in the name of a substation with two feeders (C67_capital_refuted) and a feeder whose objects have no names (C67_unnamed_refuted); groups with the same key share their objects (C67_key_refuted); groups with the same folder lose them (C67_folder_refuted)."
  },
  {
   "property": "C68",
   "status": "partial",
   "theorems": [
    "C68_output",
    "C68_dependencies",
    "C68_buses",
    "C68_feeder",
    "C68_feeder_master_refuted",
    "C68_second_refuted"
   ],
   "note": "Proved for a new writer (C68_output, C68_dependencies, C68_buses); line codes precede lines of the same feeder, and all lines outside the base folder. C68_feeder states exactly what the master file of a feeder redirects to. Refuted: that file misses wire data and geometries (C68_feeder_master_refuted); a writer used twice redirects twice (C68_second_refuted). Not modelled: circuit, source and solve lines, the transformers that write_regulators appends to another file, bus coordinates per folder beyond being written."
  },
  {
   "property": "C69",
   "status": "partial",
   "theorems": [
    "C69_distances",
    "C69_heights",
    "C69_furthest",
    "C69_defaults",
    "C69_lone",
    "C69_four_heights_refuted",
    "C69_units_refuted"
   ],
   "note": "Proved: the distances in all cases of non-coinciding conductors (C69_distances), the heights for one to three conductors (C69_heights, C69_lone) and for the two furthest of four (C69_furthest). Refuted: with four conductors only one mirror image is tried and the heights of the others can be wrong (C69_four_heights_refuted); the default positions are in feet, not metres (C69_units_refuted). Numbers are reals: the equality test of heights (line 199) is exact in the model and unreliable in floating point."
  },
  {
   "property": "C70",
   "status": "partial",
   "theorems": [
    "C70_objects",
    "C70_unknown_property",
    "C70_unknown_class",
    "C70_unnamed",
    "C70_nested_refuted",
    "C70_one_line_refuted",
    "C70_second_reader_refuted",
    "C70_words_refuted",
    "C70_units_refuted"
   ],
   "note": "Proved for files with one block per object, one property per row and no nesting (C70_objects, C70_unknown_property, C70_unknown_class, C70_unnamed). Refuted: the properties of a nested object overwrite those of the object around it, and the nested object is lost (C70_nested_refuted, for all such files); an object on one line swallows the next (C70_one_line_refuted); a value of several words is cut (C70_words_refuted); a second reader of the program still has the objects of the first one's file, because the dictionary belongs to the class (C70_second_reader_refuted)."
  },
  {
   "property": "C71",
   "status": "partial",
   "theorems": [
    "C71_schedules",
    "C71_inner_block_refuted",
    "C71_brace_refuted"
   ],
   "note": "Proved for schedules without inner blocks whose brace is on the row of the name (C71_schedules). Refuted: an inner block ends the schedule (C71_inner_block_refuted); a brace on a row of its own is counted twice, so that the schedule never ends and the next one is lost (C71_brace_refuted)."
  },
  {
   "property": "C72",
   "status": "partial",
   "theorems": [
    "C72_node",
    "C72_triplex",
    "C72_no_neutral_refuted",
    "C72_quotes_refuted",
    "C72_triplex_refuted",
    "C72_from_file"
   ],
   "note": "Proved for texts of phases that end with one letter other than A, B, C (C72_node, and from the file in C72_from_file) and for triplex nodes with quotes (C72_triplex). Refuted for all others: without a neutral the last phase is lost (C72_no_neutral_refuted), quotes become a phase (C72_quotes_refuted), a triplex node without quotes has no phases (C72_triplex_refuted)."
  },
  {
   "property": "C73",
   "status": "partial",
   "theorems": [
    "C73_load",
    "C73_power",
    "C73_zip",
    "C73_unreadable",
    "C73_reactive_refuted",
    "C73_sum_refuted",
    "C73_no_voltage_refuted",
    "C73_zip_refuted"
   ],
   "note": "Proved: C73_load (all phases, names and connections), C73_power (the drawn power is the total when at most one part is used and has an active component), C73_zip. Refuted: a purely reactive power is lost (C73_reactive_refuted), of two parts only the first counts (C73_sum_refuted), a constant current without a voltage is lost (C73_no_voltage_refuted), the active portions of a ZIP load do not add to one (C73_zip_refuted). An unreadable number stops the whole conversion (C73_unreadable)."
  },
  {
   "property": "C74",
   "status": "partial",
   "theorems": [
    "C74_two_windings",
    "C74_center_tap",
    "C74_three_reactances",
    "C74_no_configuration",
    "C74_center_no_phases",
    "C74_phase_ratings_refuted",
    "C74_four_reactances_refuted"
   ],
   "note": "Proved: C74_two_windings, C74_center_tap, C74_no_configuration, C74_center_no_phases (IndexError). Refuted: with ratings per phase the rating is that of phase C alone (C74_phase_ratings_refuted); with impedance1 but not impedance2 there are four reactances (C74_four_reactances_refuted)."
  },
  {
   "property": "C75",
   "status": "partial",
   "theorems": [
    "C75_states",
    "C75_status",
    "C75_line",
    "C75_no_status_refuted",
    "C75_one_state_refuted"
   ],
   "note": "Proved: C75_states (every phase has a state), C75_status (only the status is given), C75_line. Refuted: without states and status only the first phase has a wire (C75_no_status_refuted); with the state of one phase only the others have none (C75_one_state_refuted)."
  },
  {
   "property": "C76",
   "status": "partial",
   "theorems": [
    "C76_capacitor",
    "C76_control",
    "C76_parent_refuted",
    "C76_mixed_limits_refuted"
   ],
   "note": "Proved: C76_capacitor, C76_control. Refuted: the parent is only kept in a local variable, so that no capacitor is ever connected (C76_parent_refuted); a voltage limit without its counterpart is combined with a limit of the reactive power (C76_mixed_limits_refuted)."
  },
  {
   "property": "C77",
   "status": "partial",
   "theorems": [
    "C77_regulator",
    "C77_own_voltage_refuted",
    "C77_missing_node",
    "C77_compensator_refuted"
   ],
   "note": "Proved: C77_regulator (the whole result), C77_missing_node (KeyError). Refuted: its own voltage is never used (C77_own_voltage_refuted); a compensator setting of a phase that is not listed raises a NameError (C77_compensator_refuted)."
  },
  {
   "property": "C78",
   "status": "partial",
   "theorems": [
    "C78_overhead",
    "C78_reads",
    "C78_file",
    "C78_file_reads",
    "C78_direct_matrix_refuted",
    "C78_stale_configuration_refuted",
    "C78_mixed_units_refuted"
   ],
   "note": "Proved: C78_overhead (result of every line with a configuration, in any state), C78_reads (lines with numbers, conductors and spacing in order are read), C78_file and C78_file_reads (all lines of a file in order, no shared wires). Refuted: a given impedance matrix cannot be read (C78_direct_matrix_refuted, universal); a line without configuration takes the wires of the line before and converts their units again (C78_stale_configuration_refuted); the distances are in metres but the radii in feet when the impedances are computed (C78_mixed_units_refuted)."
  },
  {
   "property": "C79",
   "status": "partial",
   "theorems": [
    "C79_underground",
    "C79_reads",
    "C79_one_point",
    "C79_positions_in_feet_refuted",
    "C79_three_with_neutral_refuted"
   ],
   "note": "Proved: C79_underground, C79_reads. The distances of the spacing are kept for two and four cables and for three without a neutral. Refuted: they are kept in feet (C79_positions_in_feet_refuted); three cables with a neutral are put at wrong distances (C79_three_with_neutral_refuted)."
  },
  {
   "property": "C80",
   "status": "partial",
   "theorems": [
    "C80_triplex",
    "C80_reads",
    "C80_direct_matrix_refuted",
    "C80_no_neutral_refuted",
    "C80_neutral_data_refuted",
    "C80_length_refuted"
   ],
   "note": "Proved: C80_triplex, C80_reads, with the data that the wires really get: the neutral those of the second conductor, only the last wire the diameter and insulation, and resistances of the whole line. Refuted: C80_neutral_data_refuted, C80_length_refuted (the impedance per metre depends on the length), C80_no_neutral_refuted (lines without neutral cannot be read) and C80_direct_matrix_refuted, the last two universal."
  },
  {
   "property": "C81",
   "status": "partial",
   "theorems": [
    "C81_loads",
    "C81_file",
    "C81_power",
    "C81_missing_shape_refuted",
    "C81_blank_name_refuted",
    "C81_low_voltage_refuted",
    "C81_unbalanced_refuted",
    "C81_secondary_phase_refuted",
    "C81_models_refuted"
   ],
   "note": "Proved: C81_loads (the text reads as the loads), C81_file (the same for every written file of the section, with C67), C81_power (a balanced wye load at 300 V or more keeps its power at each node). Refuted: names are not sanitized (C81_blank_name_refuted); a three phase load below 300 V becomes single phase (C81_low_voltage_refuted); unbalanced loads and the models of the other phases are lost (C81_unbalanced_refuted, C81_models_refuted); phases s1 and s2 are written as None (C81_secondary_phase_refuted); one load shape that was not written makes the section fail (C81_missing_shape_refuted, universal)."
  },
  {
   "property": "C82",
   "status": "partial",
   "theorems": [
    "C82_lines",
    "C82_file",
    "C82_points_refuted",
    "C82_open_phase_refuted",
    "C82_short_line_refuted",
    "C82_no_class_refuted"
   ],
   "note": "Proved: C82_lines, C82_file. Refuted: the file of intermediate points holds only those of the last line (C82_points_refuted, universal); a line open on one phase is written closed (C82_open_phase_refuted, universal); lines below one metre become one metre (C82_short_line_refuted, universal); a line without name class makes the section fail (C82_no_class_refuted, universal)."
  },
  {
   "property": "C83",
   "status": "partial",
   "theorems": [
    "C83_capacitors",
    "C83_file",
    "C83_two_phases_refuted",
    "C83_no_phases_refuted",
    "C83_admittance_refuted"
   ],
   "note": "Proved: C83_capacitors, C83_file. Refuted: a wye capacitor on two phases becomes one between the phases (C83_two_phases_refuted); a capacitor without phases becomes one of three phases and 0 kvar (C83_no_phases_refuted); a control by admittance has type None (C83_admittance_refuted)."
  },
  {
   "property": "C84",
   "status": "partial",
   "theorems": [
    "C84_transformers",
    "C84_file",
    "C84_grounded",
    "C84_three_phase_ground_refuted",
    "C84_three_windings_refuted",
    "C84_default_resistances_refuted",
    "C84_missing_end_refuted",
    "C84_nameless_refuted",
    "C84_delta_center_refuted",
    "C84_taps_refuted"
   ],
   "note": "Proved: C84_transformers, C84_file (every written file, with C67), C84_grounded (each phase at its node, the next conductor at ground). Refuted: a grounded three phase winding has its first phase at ground (C84_three_phase_ground_refuted, universal); three windings without center tap (C84_three_windings_refuted, universal); given resistances of a center tap are replaced by defaults (C84_default_resistances_refuted, universal); a transformer without an end makes the section fail (C84_missing_end_refuted, universal); without a name the script cannot be read (C84_nameless_refuted); delta primary of a center tap (C84_delta_center_refuted); writing taps fails without phase windings (C84_taps_refuted)."
  },
  {
   "property": "C85",
   "status": "partial",
   "theorems": [
    "C85_regulators",
    "C85_appended",
    "C85_file",
    "C85_noload_loss_refuted",
    "C85_windings_refuted",
    "C85_compensator_refuted",
    "C85_emergency_refuted",
    "C85_connections_refuted",
    "C85_kvas_refuted"
   ],
   "note": "Proved: C85_regulators, C85_appended (the created transformers are read after those of C84), C85_file. Refuted: one regulator with no-load losses makes the section fail (C85_noload_loss_refuted, universal), as does one to be created without windings or voltages (C85_windings_refuted, universal); settings of the connected transformer are looked up by the name of the regulator and lost (C85_compensator_refuted, universal); the emergency rating is a thousand times too large (C85_emergency_refuted, universal); a winding without a known connection gets that of the next (C85_connections_refuted, universal); without rated powers a stray value is written (C85_kvas_refuted)."
  },
  {
   "property": "C86",
   "status": "partial",
   "theorems": [
    "C86_storages",
    "C86_file",
    "C86_read_back",
    "C86_energy_refuted",
    "C86_name_refuted",
    "C86_power_refuted",
    "C86_reserve_refuted",
    "C86_no_voltage_refuted",
    "C86_zero_factor_refuted",
    "C86_again_refuted"
   ],
   "note": "Proved: C86_storages, C86_file (every written file, with C67), C86_read_back (what parse_storage makes of the element). Refuted: the name comes back with the name of its class (C86_name_refuted, universal) and the power as a thousandth without phases (C86_power_refuted, universal); energies and reserve come back as a thousandth (C86_energy_refuted, C86_reserve_refuted, universal); a storage unit without a voltage of its own makes the section fail even if its bus has one (C86_no_voltage_refuted, universal), as does a power factor of zero (C86_zero_factor_refuted, universal); written, read and written again the nodes become part of the name of the bus (C86_again_refuted)."
  },
  {
   "property": "C87",
   "status": "partial",
   "theorems": [
    "C87_pvs",
    "C87_group",
    "C87_voltwatt_refuted",
    "C87_combined_refuted",
    "C87_schemes_refuted",
    "C87_phases_refuted",
    "C87_zero_factor_refuted",
    "C87_unconnected_refuted",
    "C87_missing_shape_refuted"
   ],
   "note": "Proved: C87_pvs, C87_group (groups without volt-watt control; combined control for the last PV system). Refuted: one PV system with volt-watt control makes the file unreadable (C87_voltwatt_refuted, universal); combined control of all but the last PV system is lost (C87_combined_refuted, universal); the other control schemes of the data model are written without control and power factor (C87_schemes_refuted, universal); single phase PV systems of 300 V and more get three phases at one node (C87_phases_refuted, universal); the section fails for a zero power factor, without voltage and bus, and for data files without a load shape (C87_zero_factor_refuted, C87_unconnected_refuted, C87_missing_shape_refuted, universal)."
  },
  {
   "property": "C88",
   "status": "partial",
   "theorems": [
    "C88_shapes",
    "C88_used",
    "C88_loads",
    "C88_solve",
    "C88_removed_refuted",
    "C88_scaled_refuted",
    "C88_memory_refuted",
    "C88_reactive_refuted",
    "C88_separate_refuted",
    "C88_label_refuted",
    "C88_again_refuted"
   ],
   "note": "Proved: C88_shapes, C88_used, C88_loads, C88_solve (series with data file and label, without scale factor and reactive data). Refuted: with remove_loadshapes every network with a series fails (C88_removed_refuted, universal); series with a scale factor fail (C88_scaled_refuted, universal); a first series without data file or label fails (C88_memory_refuted, universal); data of the reactive power garble the data of the active power (C88_reactive_refuted); without separation of feeders the loads of a named feeder do not find their shape (C88_separate_refuted, universal); one label for two data files gives two shapes of one name (C88_label_refuted); a second write with the same writer loses shapes (C88_again_refuted)."
  },
  {
   "property": "C89",
   "status": "partial",
   "theorems": [
    "C89_levels",
    "C89_groups",
    "C89_succeeds",
    "C89_volunteer_refuted",
    "C89_source_refuted",
    "C89_meshed_refuted",
    "C89_no_node_refuted"
   ],
   "note": "Proved: C89_levels (networks without loops, for all objects but one Node per level and the names popped before it), C89_groups (any network: each level takes what feeds one of its Nodes, the rest is unchanged, lines), C89_succeeds. Refuted: one Node of every level keeps its old voltage (C89_volunteer_refuted, universal: group.pop() removes it); nodes on the level of the source lose their voltage where the recursive variant gives the source voltage (C89_source_refuted); in a meshed network the result depends on the pop order (C89_meshed_refuted); a level without a Node raises KeyError (C89_no_node_refuted)."
  },
  {
   "property": "C90",
   "status": "partial",
   "theorems": [
    "C90_elements",
    "C90_regulators",
    "C90_delay_refuted",
    "C90_limits_refuted",
    "C90_switched_refuted",
    "C90_phases_refuted",
    "C90_joined_refuted",
    "C90_open_refuted",
    "C90_zip_refuted"
   ],
   "note": "Proved: C90_elements (nodes, capacitors, loads, transformers, lines, after every history), C90_regulators (when no two regulators ever written join to the same text from_to). Refuted: the delay of a capacitor goes to time_dela (C90_delay_refuted, universal); its high limit is lost or None (C90_limits_refuted); switched-in capacitors are OPEN (C90_switched_refuted); loads and regulators have no phases (C90_phases_refuted, universal); two regulators with ends a_b, c and a, b_c (C90_joined_refuted); the state of switches is not written (C90_open_refuted, universal); ZIP loads with a share of zero stop the writing (C90_zip_refuted, universal)."
  },
  {
   "property": "C91",
   "status": "partial",
   "theorems": [
    "C91_transformers",
    "C91_lines",
    "C91_regulators",
    "C91_shared",
    "C91_shared_taps_refuted",
    "C91_compensator_refuted",
    "C91_reactance_refuted",
    "C91_three_windings_refuted",
    "C91_write_wires_refuted"
   ],
   "note": "Proved for the first write of a process: C91_transformers, C91_lines (impedances as in the model, in ohm per meter, where GridLAB-D expects ohm per mile; negative pure reactances and repeated phases excluded), C91_regulators (taps if no other regulator has the same controls), C91_shared (after every history). Refuted: shared taps (C91_shared_taps_refuted); the compensator reactance is never written (C91_compensator_refuted, universal); 0+-2.0j (C91_reactance_refuted); three windings with three reactances raise (C91_three_windings_refuted, universal); write_wires=False gives no line configurations (C91_write_wires_refuted, universal)."
  },
  {
   "property": "C92",
   "status": "partial",
   "theorems": [
    "C92_second_file_refuted",
    "C92_elements_partial",
    "C92_wrong_configuration_refuted",
    "C92_two_of_a_name_refuted"
   ],
   "note": "Proved: C92_elements_partial (nodes, capacitors and loads, and all but the references of transformers and lines, are the same after every history). Refuted: a second file of the same network has no transformer or line configurations, though the transformers refer to them, and no regulator with two ends (C92_second_file_refuted, universal); a transformer of a second network refers to the configuration of another (C92_wrong_configuration_refuted); two regulator configurations of one name (C92_two_of_a_name_refuted)."
  },
  {
   "property": "C93",
   "status": "partial",
   "theorems": [
    "C93_elements_partial",
    "C93_branches_refuted",
    "C93_delay_refuted",
    "C93_secondary_load_refuted"
   ],
   "note": "Proved: C93_elements_partial (nodes, capacitors and loads of models without transformers, regulators and lines). Refuted for every other model, universally: an object transformer{, regulator{, overhead_line{, ... has no class in any schema without braces, so the reading stops (C93_branches_refuted); capacitors with a delay (C93_delay_refuted) and loads on the phase 1 of a secondary (C93_secondary_load_refuted), with the properties of the schema in /repo."
  },
  {
   "property": "C94",
   "status": "partial",
   "theorems": [
    "C94_nodes",
    "C94_unnamed_load_refuted",
    "C94_neutral_line_refuted",
    "C94_others_refuted",
    "C94_ground_refuted",
    "C94_row_refuted",
    "C94_case_refuted"
   ],
   "note": "Proved: C94_nodes for circuits whose terminals name nodes 1, 2, 3, or no nodes in elements with three phases, and files whose rows are blank or well formed. Refuted universally: a load with fewer phases that names no nodes stops the reading (C94_unnamed_load_refuted), so does a line with a neutral or without nodes (C94_neutral_line_refuted), buses of other elements only are no nodes (C94_others_refuted). Refuted by cases: the ground of a load (C94_ground_refuted), bad rows (C94_row_refuted), capital letters (C94_case_refuted)."
  },
  {
   "property": "C95",
   "status": "partial",
   "theorems": [
    "C95_loads",
    "C95_total",
    "C95_names",
    "C95_read_back",
    "C95_unbalanced_refuted",
    "C95_reactive_refuted",
    "C95_ground_refuted",
    "C95_delta_refuted",
    "C95_name_refuted"
   ],
   "note": "Proved: C95_loads, C95_total (the shares add up), C95_names, C95_read_back (composed with the writer of C81, under a contract about what OpenDSS reports). Refuted universally: different powers of the phases are lost (C95_unbalanced_refuted), a load without active power loses its reactive power (C95_reactive_refuted), a load from a phase to ground has half of its power on no phase (C95_ground_refuted), delta loads A-B and A-C are read as one (C95_delta_refuted), names are cut at \"oad.\" (C95_name_refuted)."
  },
  {
   "property": "C96",
   "status": "partial",
   "theorems": [
    "C96_capacitors",
    "C96_read_back",
    "C96_two_phases_refuted",
    "C96_unnamed_refuted",
    "C96_steps_refuted",
    "C96_mode_refuted",
    "C96_element_refuted"
   ],
   "note": "Proved: C96_capacitors, C96_read_back (capacitors of one or three phases, composed with the writer of C83 under a contract about what OpenDSS reports). Refuted universally: a capacitor of two phases that was written comes back with twice its power (C96_two_phases_refuted), one of one phase whose terminal names no node gets three times its power (C96_unnamed_refuted), only the first step counts unless there are as many steps as phases (C96_steps_refuted), control modes by voltage, current and power are lost (C96_mode_refuted), the measured element comes back with a prefix (C96_element_refuted)."
  },
  {
   "property": "C97",
   "status": "partial",
   "theorems": [
    "C97_circuit",
    "C97_sources",
    "C97_read_back",
    "C97_position_refuted",
    "C97_row_refuted",
    "C97_phases_refuted",
    "C97_impedance_refuted",
    "C97_second_refuted",
    "C97_name_refuted"
   ],
   "note": "Proved: C97_circuit (one source), C97_sources, C97_read_back (composed, under a contract about what OpenDSS reports). Refuted: every source gets the position of the last row of the coordinates (C97_position_refuted), a last row without numbers stops the reading (C97_row_refuted), the phases are always A, B and C (C97_phases_refuted), a list of impedances that has not two items hides the others (C97_impedance_refuted), a second source is lost in the text of the first (C97_second_refuted), names that contain \"_src\" lose their last four characters (C97_name_refuted)."
  },
  {
   "property": "C98",
   "status": "partial",
   "theorems": [
    "C98_frame",
    "C98_voltages",
    "C98_namesake_refuted",
    "C98_case_refuted",
    "C98_winding_refuted"
   ],
   "note": "Proved: C98_frame (any names), C98_voltages (names that differ). Refuted: a node with a later namesake of another class has no voltage and the namesake has the one of the bus (C98_namesake_refuted), an element whose bus is not in lower case has none (C98_case_refuted), nor has a fourth winding (C98_winding_refuted)."
  },
  {
   "property": "C99",
   "status": "partial",
   "theorems": [
    "C99_generators",
    "C99_feeders",
    "C99_phases_refuted",
    "C99_disabled_refuted",
    "C99_power_refuted",
    "C99_transformer_refuted",
    "C99_line_refuted"
   ],
   "note": "Proved: C99_generators (name, bus, voltage, rating, power factor, limits, model), C99_feeders (one for each name, in order, with the substation of its first line). Refuted: the count of the phases is read as the name of one phase (C99_phases_refuted), disabled generators are read (C99_disabled_refuted), the active power is not (C99_power_refuted), each feeder gets its substation for a transformer (C99_transformer_refuted), and a line without four words stops the reading (C99_line_refuted)."
  },
  {
   "property": "C100",
   "status": "partial",
   "theorems": [
    "C100_transformers",
    "C100_read_back",
    "C100_phases_refuted",
    "C100_ground_refuted",
    "C100_ends_refuted",
    "C100_control_refuted"
   ],
   "note": "Proved: C100_transformers (two or three windings), C100_read_back (written with two windings, the first without ground). Refuted: every winding gets the phases of the first bus (C100_phases_refuted, universal); a grounded three-phase first winding comes back as one phase without a name (C100_ground_refuted, universal); a transformer with another number of buses takes the ends of the one before it, or stops the reading (C100_ends_refuted, universal); disabled controls count (C100_control_refuted, universal)."
  },
  {
   "property": "C101",
   "status": "partial",
   "theorems": [
    "C101_regulators",
    "C101_read_back",
    "C101_name_refuted",
    "C101_band_refuted",
    "C101_setpoint_refuted",
    "C101_phase_refuted",
    "C101_missing_refuted",
    "C101_missing_later_refuted",
    "C101_step_refuted"
   ],
   "note": "Proved: C101_regulators (transformers with two or three windings), C101_read_back. Refuted: the name gets a prefix (C101_name_refuted, universal); the band comes back larger by a fifth (C101_band_refuted, universal); the set point never comes back and replaces the center (C101_setpoint_refuted, universal); phases B and C at a terminal with one node are lost (C101_phase_refuted, universal); a control whose transformer is not found stops the reading (C101_missing_refuted, C101_missing_later_refuted, universal); the lowest step is the highest (C101_step_refuted, universal)."
  },
  {
   "property": "C102",
   "status": "partial",
   "theorems": [
    "C102_lines",
    "C102_read_back",
    "C102_lost_refuted",
    "C102_breaker_refuted",
    "C102_neutral_refuted",
    "C102_short_refuted",
    "C102_fuse_refuted",
    "C102_name_refuted",
    "C102_unwatched_refuted"
   ],
   "note": "Proved: C102_lines (lines without a geometry; with one, see C103), C102_read_back. Refuted: a line that is no switch and is open on all phases is lost (C102_lost_refuted, universal); breakers come back as switches (C102_breaker_refuted, universal); neutral wires are lost (C102_neutral_refuted, universal); lines shorter than one metre get one metre (C102_short_refuted, universal); the wires of fuses are neither fuses nor open (C102_fuse_refuted, universal); names with 'ine.' are cut (C102_name_refuted, universal); a fuse that watches nothing stops the reading (C102_unwatched_refuted, universal)."
  },
  {
   "property": "C103",
   "status": "partial",
   "theorems": [
    "C103_wires",
    "C103_carried_refuted",
    "C103_first_refuted",
    "C103_cable",
    "C103_neutral_refuted",
    "C103_resistance_refuted",
    "C103_cable_switch_refuted",
    "C103_units_refuted"
   ],
   "note": "Proved: C103_wires (bare wires, any number), C103_cable (one cable; its neutral when it is the only cable of the circuit). Refuted: a wire whose data is not found gets that of the wire before it (C103_carried_refuted, universal) or stops the reading (C103_first_refuted, universal); a cable gets the neutral of the last cable (C103_neutral_refuted, universal); the resistance of the neutral is multiplied by the unit instead of divided (C103_resistance_refuted, universal); a switch of several wires that begins with a cable stops the reading (C103_cable_switch_refuted, universal), and so does wire data without a unit of resistance (C103_units_refuted, universal)."
  },
  {
   "property": "C104",
   "status": "partial",
   "theorems": [
    "C104_sections",
    "C104_accepted",
    "C104_refused",
    "C104_none",
    "C104_listed_refuted",
    "C104_end_refuted",
    "C104_header_refuted",
    "C104_name_refuted"
   ],
   "note": "Proved: C104_sections, C104_accepted (which lists of sections are accepted, both directions), C104_refused, C104_none. Refuted: the lists of sections of each feeder stay empty (C104_listed_refuted, universal); a file that ends with its last section stops the reading (C104_end_refuted, universal), and so does another header without a blank line between (C104_header_refuted, universal); the name of a network in the last column keeps its line ending (C104_name_refuted)."
  },
  {
   "property": "C105",
   "status": "partial",
   "theorems": [
    "C105_nodes_without_format",
    "C105_head_nodes_without_format",
    "C105_connections_without_format",
    "C105_nodes",
    "C105_buses",
    "C105_head_nodes",
    "C105_connections",
    "C105_head_refuted",
    "C105_twice_refuted",
    "C105_connection_refuted"
   ],
   "note": "Proved: C105_nodes, C105_buses, C105_head_nodes, C105_connections, and for files without format lines C105_nodes_without_format, C105_head_nodes_without_format, C105_connections_without_format. Refuted: a head node is looked for in lower case while nodes keep their case (C105_head_refuted); a node that is listed twice becomes another node with a star (C105_twice_refuted); a node in the last column of a connection keeps its line ending and stops the reading (C105_connection_refuted)."
  },
  {
   "property": "C106",
   "status": "partial",
   "theorems": [
    "C106_loads",
    "C106_file",
    "C106_connection_refuted",
    "C106_reactive_refuted",
    "C106_negative_refuted",
    "C106_users_refuted",
    "C106_class_refuted",
    "C106_customers_refuted",
    "C106_factor_refuted"
   ],
   "note": "Proved: C106_loads (sections whose customer loads are adjacent), C106_file (the three parts of the file in any order). Refuted: a section with capital letters loses its connection (C106_connection_refuted, universal); a section with several customer loads without active power has no load (C106_reactive_refuted, universal); negative loads vanish (C106_negative_refuted, universal); the customers are those of the last customer load (C106_users_refuted, universal); customer loads that are not adjacent take the shares of another section (C106_class_refuted, universal); a power factor out of range gives the reactive power of the load before (C106_factor_refuted, universal); without the column of the customers the reading stops (C106_customers_refuted, universal)."
  },
  {
   "property": "C107",
   "status": "partial",
   "theorems": [
    "C107_lines",
    "C107_network",
    "C107_read_back_refuted",
    "C107_empty_refuted",
    "C107_shift_refuted",
    "C107_stale_refuted",
    "C107_collision_refuted"
   ],
   "note": "Proved: C107_lines (the file), C107_network (sections, nodes, feeders, head nodes). Refuted: the file cannot be read back if any load has active power or is a center tap load (C107_read_back_refuted, universal), nor if there are no loads (C107_empty_refuted, universal); a load without name or element is written one column short (C107_shift_refuted, universal); a center tap load without phases is written with the power of the load before (C107_stale_refuted, universal); loads of different elements can share a section (C107_collision_refuted, universal)."
  },
  {
   "property": "C108",
   "status": "partial",
   "theorems": [
    "C108_reclosers",
    "C108_only_switches",
    "C108_branches_refuted",
    "C108_depth_refuted",
    "C108_voltage_refuted"
   ],
   "note": "Proved: C108_reclosers (each feeder, along the first successors), C108_only_switches. Refuted: switches on other branches are never considered (C108_branches_refuted, universal); a switch before a load is counted twice (C108_depth_refuted, universal); a connection without a known voltage stops the function (C108_voltage_refuted, universal)."
  },
  {
   "property": "C109",
   "status": "partial",
   "theorems": [
    "C109_headnodes",
    "C109_arrow_refuted",
    "C109_substation_refuted",
    "C109_signs_refuted"
   ],
   "note": "Proved: C109_headnodes. Refuted: the feeder a->b does not find the head node b->a that the documentation speaks of (C109_arrow_refuted, universal); one feeder with an unknown substation stops the function for all (C109_substation_refuted, universal), and so does a successor with two signs > (C109_signs_refuted, universal)."
  },
  {
   "property": "C110",
   "status": "partial",
   "theorems": [
    "C110_only_loads",
    "C110_positions_refuted",
    "C110_nothing_refuted"
   ],
   "note": "Proved: C110_only_loads. Refuted: no load ever gets a position (C110_positions_refuted, universal in the model, the deltas and the attributes of the classes), and with the classes of the package nothing changes at all (C110_nothing_refuted, universal)."
  },
  {
   "property": "C111",
   "status": "partial",
   "theorems": [
    "C111_equivalents",
    "C111_sources",
    "C111_phases_refuted",
    "C111_stale_refuted",
    "C111_first_refuted",
    "C111_equivalent_refuted",
    "C111_substations_refuted",
    "C111_power_refuted"
   ],
   "note": "Proved: C111_equivalents, C111_sources. Refuted, each universally: no source has phases or an angle (C111_phases_refuted); a source at a node without sections is put at the node of the one before (C111_stale_refuted) or stops the reader (C111_first_refuted); a source without an equivalent stops the reader (C111_equivalent_refuted); sources of unknown substations are dropped with their equivalents (C111_substations_refuted); the power is in kVA (C111_power_refuted)."
  },
  {
   "property": "C112",
   "status": "partial",
   "theorems": [
    "C112_capacitors",
    "C112_monitor_refuted",
    "C112_switched_refuted",
    "C112_two_phases_refuted",
    "C112_section_refuted",
    "C112_empty_refuted"
   ],
   "note": "Proved: C112_capacitors. Refuted, each universally: no capacitor has a monitored phase or a position (C112_monitor_refuted); switched power beside fixed power is lost (C112_switched_refuted); the rating on two phases without a known connection is ignored (C112_two_phases_refuted); one capacitor on an unknown section stops the reader (C112_section_refuted), and so does an empty cell (C112_empty_refuted)."
  },
  {
   "property": "C113",
   "status": "partial",
   "theorems": [
    "C113_devices",
    "C113_load_refuted",
    "C113_code_refuted",
    "C113_merged_refuted"
   ],
   "note": "Proved: C113_devices. Refuted, each universally: a device at a node whose name contains load is dropped (C113_load_refuted); another code for the closed phases stops the reader (C113_code_refuted); a section with a line and a device becomes the device only (C113_merged_refuted)."
  },
  {
   "property": "C114",
   "status": "partial",
   "theorems": [
    "C114_lines",
    "C114_positions_refuted",
    "C114_one_phase_refuted",
    "C114_reactance_refuted",
    "C114_order_refuted"
   ],
   "note": "Proved: C114_lines, the matrix on two or three phases. Refuted, each universally: no wire has a position (C114_positions_refuted); on one phase the positive sequence impedance does not count (C114_one_phase_refuted) and the reactance of an unbalanced line is a thousandth (C114_reactance_refuted); the rows of two phases are sorted, the wires are not (C114_order_refuted). Not covered: lines given by conductors and a spacing, whose matrix is a parameter."
  },
  {
   "property": "C115",
   "status": "partial",
   "theorems": [
    "C115_ampacities",
    "C115_all_rated",
    "C115_ratings_exist",
    "C115_missing_refuted",
    "C115_end_refuted",
    "C115_unrated_refuted"
   ],
   "note": "Proved for the runs that end without an error, for every sequence of draws: C115_ampacities, C115_all_rated, C115_ratings_exist. Refuted, each universally: a wire without ampacity (None) stops it (C115_missing_refuted); an unrated device at the end of a feeder stops it (C115_end_refuted); without any rating it stops or goes on for ever (C115_unrated_refuted)."
  },
  {
   "property": "C116",
   "status": "partial",
   "theorems": [
    "C116_never_found_refuted",
    "C116_delete_cycles_refuted",
    "C116_unknown_phases_refuted",
    "C116_answers"
   ],
   "note": "False: on every loop of nodes with phases it raises NameError (C116_never_found_refuted), hence delete_cycles stops at any such loop (C116_delete_cycles_refuted); unknown phases stop it too (C116_unknown_phases_refuted). Proved: the only answer without an error is the empty one (C116_answers)."
  },
  {
   "property": "C117",
   "status": "partial",
   "theorems": [
    "C117_changes",
    "C117_orientation",
    "C117_phase",
    "C117_at_load_refuted",
    "C117_windings_refuted",
    "C117_stale_refuted"
   ],
   "note": "Proved: C117_changes; C117_orientation if some load is at least one edge below the transformer and no transformer of a substation is in between; C117_phase if the lines with a single phase agree. Refuted: a transformer right at its loads is never turned (C117_at_load_refuted); of several phase windings only the first is corrected (C117_windings_refuted); a line with another phase further up wins over the line next to the transformer (C117_stale_refuted)."
  },
  {
   "property": "C118",
   "status": "partial",
   "theorems": [
    "C118_regulators",
    "C118_bandwidth_refuted",
    "C118_lost_bandwidth_refuted",
    "C118_voltage_refuted",
    "C118_code_refuted",
    "C118_position_refuted"
   ],
   "note": "Proved with the values the code really takes: C118_regulators. Refuted, each universally: the own bandwidth of A or B does not count if the equipment has one (C118_bandwidth_refuted); without one in the equipment, B and C lose theirs (C118_lost_bandwidth_refuted); the voltage is kept in kV (C118_voltage_refuted); the phase code 7 makes one regulator on phase 7 (C118_code_refuted); no regulator has a position (C118_position_refuted)."
  },
  {
   "property": "C119",
   "status": "partial",
   "theorems": [
    "C119_equivalents",
    "C119_far_load_refuted",
    "C119_active_refuted",
    "C119_phase_refuted",
    "C119_empty_refuted"
   ],
   "note": "Proved with the tests the code really makes: C119_equivalents. Refuted, each universally: the load at the far end depends on the reactive power of the near end (C119_far_load_refuted); active power alone makes no load (C119_active_refuted); the load of a phase without resistance is lost (C119_phase_refuted); an empty cell among the lengths stops the reader (C119_empty_refuted)."
  },
  {
   "property": "C120",
   "status": "partial",
   "theorems": [
    "C120_transformers",
    "C120_inverse",
    "C120_product_refuted",
    "C120_auto_refuted",
    "C120_three_power_refuted",
    "C120_index_refuted"
   ],
   "note": "Proved with the impedance the code really computes: C120_transformers, over the reals instead of floats; T_inv is the inverse (C120_inverse). Refuted, each universally: the arrays are multiplied entry by entry, so that the positive sequence does not count (C120_product_refuted); an autotransformer has no windings (C120_auto_refuted); three windings have no power (C120_three_power_refuted); no connection index (C120_index_refuted)."
  },
  {
   "property": "C121",
   "status": "partial",
   "theorems": [
    "C121_ltc",
    "C121_zero_refuted",
    "C121_steps_refuted"
   ],
   "note": "Proved for the flag as a text that is empty or not: C121_ltc. Refuted, each universally: the flag 0 makes a regulator too (C121_zero_refuted); the highest and lowest steps are swapped (C121_steps_refuted)."
  },
  {
   "property": "C122",
   "status": "partial",
   "theorems": [
    "C122_photovoltaics",
    "C122_two_refuted",
    "C122_generator_refuted",
    "C122_curves_refuted"
   ],
   "note": "Proved without the curves: C122_photovoltaics. Refuted, each universally: a second photovoltaic on a section stops the reader (C122_two_refuted); so does a generation model of any other device (C122_generator_refuted); control curves and the least power factor are never set (C122_curves_refuted)."
  },
  {
   "property": "C123",
   "status": "partial",
   "theorems": [
    "C123_storages",
    "C123_efficiency_refuted",
    "C123_reserve_refuted"
   ],
   "note": "Proved without the efficiencies: C123_storages. Refuted, each universally: the efficiencies are never set (C123_efficiency_refuted); the reserve is the largest state of charge (C123_reserve_refuted)."
  },
  {
   "property": "C124",
   "status": "partial",
   "theorems": [
    "C124_distance",
    "C124_furthest",
    "C124_averages",
    "C124_completed",
    "C124_completed_refuted",
    "C124_leaves",
    "C124_leaves_refuted",
    "C124_unknown_refuted",
    "C124_object_refuted"
   ],
   "note": "Proved: C124_distance, C124_furthest, C124_averages, C124_completed and, for the search over the nodes of one edge, C124_leaves. Refuted, each universally: a way to the source over an edge without a length stops the metrics (C124_completed_refuted); a line of unknown length is no way and stops the search of the furthest node (C124_unknown_refuted); loads and capacitors are one metre behind their node (C124_object_refuted); without a node of one edge the search over these stops (C124_leaves_refuted)."
  },
  {
   "property": "C125",
   "status": "partial",
   "theorems": [
    "C125_voltages",
    "C125_unconnected_refuted",
    "C125_unnamed_refuted"
   ],
   "note": "Proved for connected models whose objects have names: C125_voltages. Refuted, each universally: a named node that is not connected to the source stops it (C125_unconnected_refuted); so does an object without a name, if some node has no transformer above (C125_unnamed_refuted)."
  },
  {
   "property": "C126",
   "status": "partial",
   "theorems": [
    "C126_impedances",
    "C126_no_way",
    "C126_neutral_refuted"
   ],
   "note": "Proved for matrices of up to three phases and distinct names: C126_impedances (a line without a matrix is left out), C126_no_way. Refuted universally: a line with a matrix of four rows on the way stops it (C126_neutral_refuted)."
  },
  {
   "property": "C127",
   "status": "partial",
   "theorems": [
    "C127_lines",
    "C127_reads",
    "C127_neutrals_refuted",
    "C127_order_refuted",
    "C127_device_open_refuted",
    "C127_underground_refuted"
   ],
   "note": "Proved for at most one neutral per line, for every history: C127_lines, and C127_reads (it finishes). Refuted: a first line with two neutrals stops the reader (C127_neutrals_refuted, universally), but not after a line of the same phases with one (C127_order_refuted); devices are open exactly when the file says closed (C127_device_open_refuted); cables have the ohms per mile of the neutral multiplied by 3.28 and the outer diameter for the thickness of the insulation (C127_underground_refuted)."
  },
  {
   "property": "C128",
   "status": "partial",
   "theorems": [
    "C128_loads",
    "C128_end_refuted",
    "C128_watts_refuted"
   ],
   "note": "Proved for nodes with an outgoing edge, after any lines: C128_loads. Refuted universally: loads at a node without one are lost (C128_end_refuted); powers stay in kW (C128_watts_refuted)."
  },
  {
   "property": "C129",
   "status": "partial",
   "theorems": [
    "C129_capacitors_refuted"
   ],
   "note": "Refuted for every file: the loop walks the loads of the node, so no capacitor is ever made, and a node with capacitors and an outgoing edge stops the reader with a KeyError (C129_capacitors_refuted)."
  },
  {
   "property": "C130",
   "status": "partial",
   "theorems": [
    "C130_transformers",
    "C130_tertiary_refuted",
    "C130_reactances_refuted"
   ],
   "note": "Proved: C130_transformers, whichever kind is picked. Refuted universally: a tertiary named by a string stops the reader (C130_tertiary_refuted); three windings have one reactance (C130_reactances_refuted)."
  },
  {
   "property": "C131",
   "status": "partial",
   "theorems": [
    "C131_voltages",
    "C131_unique",
    "C131_finishes",
    "C131_loop_refuted"
   ],
   "note": "Proved: C131_voltages, C131_unique, C131_finishes (if every way up ends). Refuted: on a loop of edges without a voltage it does not finish (C131_loop_refuted)."
  },
  {
   "property": "C132",
   "status": "partial",
   "theorems": [
    "C132_regulators",
    "C132_substation_refuted",
    "C132_voltage_refuted",
    "C132_phase_refuted",
    "C132_tap_refuted"
   ],
   "note": "Proved: C132_regulators (ends, names, bandwidth, windings, power; settings for phases A, AB, ABC). Refuted universally: no regulator below a substation is read (C132_substation_refuted); below a transformer it has the input voltage (C132_voltage_refuted); phase C alone has the settings of phase A (C132_phase_refuted); the tap goes the wrong way (C132_tap_refuted)."
  },
  {
   "property": "C133",
   "status": "partial",
   "theorems": [
    "C133_convert",
    "C133_refused",
    "C133_done",
    "C133_json_kept",
    "C133_again",
    "C133_json_refuted",
    "C133_options_refuted",
    "C133_warehouse_refuted"
   ],
   "note": "Proved: C133_convert, C133_refused, C133_done, C133_json_kept, C133_again. Refuted universally: --from json never reads a JSON file written by DiTTo (C133_json_refuted); with a configuration file the options for default values have no effect (C133_options_refuted); --warehouse is not used (C133_warehouse_refuted)."
  },
  {
   "property": "C134",
   "status": "partial",
   "theorems": [
    "C134_metric",
    "C134_format_refuted"
   ],
   "note": "Proved: C134_metric. Refuted: with another format the command succeeds and exports nothing (C134_format_refuted)."
  },
  {
   "property": "C135",
   "status": "proved",
   "theorems": [
    "C135_defined",
    "C135_metric",
    "C135_axis",
    "C135_right_angle"
   ],
   "note": "Proved: C135_defined, C135_metric, C135_axis, C135_right_angle, over real numbers."
  },
  {
   "property": "C136",
   "status": "partial",
   "theorems": [
    "C136_matrix",
    "C136_exists",
    "C136_symmetric",
    "C136_neutral_refuted",
    "C136_position_refuted",
    "C136_two_neutrals_refuted",
    "C136_no_places_refuted"
   ],
   "note": "Proved: C136_matrix, C136_exists, C136_symmetric for at most one neutral, with the phases at the places of their number in the line. Refuted universally: with a neutral there is one row too many (C136_neutral_refuted); on lines with the phases A and C the place of C is not used (C136_position_refuted); with places for two neutrals there is always an exception (C136_two_neutrals_refuted); without places the matrix has one row (C136_no_places_refuted). The rows for each phase hold without a neutral."
  },
  {
   "property": "C137",
   "status": "partial",
   "theorems": [
    "C137_overhead",
    "C137_resistance_refuted",
    "C137_four_refuted",
    "C137_defaults_refuted",
    "C137_underground",
    "C137_underground_exists"
   ],
   "note": "Proved: C137_overhead (mutual impedances and self reactances, not for four wires), C137_underground (the grounded reduction with concentric neutrals), C137_underground_exists. Refuted universally: resistances per foot are used as if per mile (C137_resistance_refuted); four overhead wires, or kron_reduce, always raise (C137_four_refuted); missing values of overhead wires are a NameError (C137_defaults_refuted)."
  },
  {
   "property": "C138",
   "status": "partial",
   "theorems": [
    "C138_no_neutral",
    "C138_unit_refuted",
    "C138_neutral_refuted",
    "C138_any_neutral_refuted"
   ],
   "note": "Proved: C138_no_neutral for lines without a neutral (every entry). Refuted universally: the resistance of the ground is not per meter (C138_unit_refuted); with a neutral and three wires or more there is always an exception (C138_neutral_refuted), and with numpy's products of empty arrays for every line with a neutral (C138_any_neutral_refuted)."
  },
  {
   "property": "C139",
   "status": "partial",
   "theorems": [
    "C139_tables",
    "C139_nodes",
    "C139_sources",
    "C139_sources_read",
    "C139_voltage",
    "C139_connection_refuted"
   ],
   "note": "Proved: C139_tables, C139_nodes, C139_sources, C139_sources_read, C139_voltage (nominal voltage within one part in ten thousand of the voltage between the phases). Refuted universally: the connection of a source other than W is always delta (C139_connection_refuted). The making of the graph from the tables is a parameter."
  },
  {
   "property": "C140",
   "status": "partial",
   "theorems": [
    "C140_bus",
    "C140_angle_refuted",
    "C140_twice_refuted",
    "C140_switches",
    "C140_switches_written",
    "C140_sources",
    "C140_sources_written"
   ],
   "note": "Proved: C140_bus for nodes whose phases are in the order of the alphabet, C140_switches, C140_switches_written, C140_sources, C140_sources_written. Refuted universally: two phases out of order have the angle of each other (C140_angle_refuted); a node with a phase twice stops the writer, whatever the other nodes (C140_twice_refuted). The impedance columns of sources, which are always empty, are left out."
  },
  {
   "property": "C141",
   "status": "partial",
   "theorems": [
    "C141_rows",
    "C141_overwritten_refuted"
   ],
   "note": "Proved: C141_rows, when the phases of a load follow each other. Refuted for all names: when another load stands between two phases of a load, the load after them is written over it and a row stays empty (C141_overwritten_refuted)."
  }
 ]
}
