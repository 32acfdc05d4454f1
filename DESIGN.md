# Formal model of NREL/ditto in Rocq (Coq 8.16.1)

## 1. What this is

`/verif/rocq/theories` contains shallow Gallina models of functions of NREL/ditto
(`/repo`, Python) and machine-checked theorems about them.  Each area has up to four kinds of files:

* `<Area>Model.v`  - the model, definitions only, each citing the file and lines it models;
* `<Area>Spec.v`   - a small independent specification (no model helper is used in it);
* `<Area>Proofs.v`, `<Area>Top.v` and others - lemmas;
* `<Area>Props.v`  - the property theorems, with `Print Assumptions` and non-vacuity `Example`s
  (`Cxx_hypotheses_met`).

`properties.jsonl` lists the English properties, `MANIFEST.json` maps them to theorem names,
`seeded/LOG.jsonl` records the wrong programs the theorems were tested against.

Each property is stated for all inputs.  Where the code violates a property, the violation is a
theorem `..._refuted` with a witness, the part that holds is a theorem with its exact side
condition, and the manifest says `partial`.

## 2. Modelling conventions

* A Python exception is a value: `Err e` of type `res A` (`Base.v`), with one constructor per
  exception class that the modelled code can raise.  A function that raises after having mutated
  the model returns the mutated state too where it matters (C36, C37, C55).
* Python floats are exact rationals (`Q`, `Qc`), or reals where the code calls `sqrt`, `log`, `exp`
  or works with complex numbers.  Rounding, NaN and infinities are not modelled.
* A Python `dict` is an association list in insertion order; a `set` used only for membership is a
  list; where the iteration order of a set matters the order is an argument that the theorem
  quantifies over.
* Objects live in a heap indexed by identity, the store is the list of identities; the network
  models read a list of the attributes they use.  Attribute lists are values (traitlets copies a
  list on assignment).
* Recursion without a structural bound takes `fuel`; running out is `Err EFuel`, and for each such
  function a theorem shows that some fuel suffices, usually with the bound.  Python's recursion limit
  is not modelled.
* Strings are ASCII (`Coq.Strings.String`); letter case is ASCII letter case.

## 3. Trusted base

* The kernel of Coq 8.16.1 (`vm_compute` included, used in the concrete examples and some finite
  case analyses), and the axioms of the standard library named in section 4.
* That the models say what the code says.  They were written by reading `/repo`; nothing was run.
* Contracts of libraries the code calls:
  * networkx 2.5: `Graph`/`DiGraph` as ordered adjacency lists, `add_edge`, `remove_edge`,
    `bfs_edges`, `dfs_successors`/`nx.descendants`, `shortest_path`, `all_simple_paths`,
    `connected_components`, by their documented behaviour; `cycle_basis` and `simple_cycles` only
    through their contracts (C23, C27);
  * json_tricks: encodes and decodes the values used here as documented (`JsonModel.v`);
  * numpy: `dot`, `linalg.inv`, `unique`, `conj`, slicing by their mathematical meaning; ragged arrays
    of `symmetrize` as lists of rows;
  * pandas `read_csv`: its result (column names and rows of cells) is the input of the model (C52);
  * traitlets: assignment validates or converts as the trait class says; `Bool` rejects 0 and 1; a
    `CaselessStrEnum` is compared without case;
  * Python's `float`, `int`, `str` on text: modelled for the ASCII decimal forms, otherwise parameters.
* Logging, printing, progress bars, timing and file-system effects are not modelled.

## 4. Axioms per theorem

`Print Assumptions` follows every theorem in the `*Props.v` files.  Its output is one of these:

* *Closed under the global context* (no axiom): all 534 theorems not listed below.

* `ClassicalDedekindReals.sig_forall_dec`:
  C111_equivalents, C111_sources, C111_phases_refuted, C111_stale_refuted, C111_first_refuted, C111_equivalent_refuted, C111_substations_refuted, C121_zero_refuted, C118_regulators, C118_code_refuted, C118_position_refuted, C99_generators, C99_phases_refuted, C99_disabled_refuted, C99_power_refuted, C95_names, C97_sources, C97_position_refuted, C97_row_refuted, C97_phases_refuted, C97_impedance_refuted.

* `ClassicalDedekindReals.sig_forall_dec`, `FunctionalExtensionality.functional_extensionality_dep`:
  C112_switched_refuted, C122_photovoltaics, C123_storages, C122_two_refuted, C122_generator_refuted, C122_curves_refuted, C123_efficiency_refuted, C123_reserve_refuted, C119_equivalents, C119_far_load_refuted, C119_active_refuted, C119_phase_refuted, C119_empty_refuted, C113_devices, C114_lines, C113_load_refuted, C113_code_refuted, C113_merged_refuted, C114_positions_refuted, C114_one_phase_refuted, C114_reactance_refuted, C114_order_refuted, C111_power_refuted, C120_auto_refuted, C120_three_power_refuted, C121_ltc, C121_steps_refuted, C118_voltage_refuted, C107_lines, C107_network, C107_shift_refuted, C107_stale_refuted, C107_collision_refuted, C96_capacitors, C96_read_back, C96_two_phases_refuted, C96_unnamed_refuted, C96_steps_refuted, C96_mode_refuted, C96_element_refuted, C95_total, C101_regulators, C101_read_back, C101_name_refuted, C101_band_refuted, C101_setpoint_refuted, C101_phase_refuted, C101_missing_refuted, C101_missing_later_refuted, C101_step_refuted, C100_transformers, C100_read_back, C100_phases_refuted, C100_ground_refuted, C100_ends_refuted, C100_control_refuted, C97_read_back, C140_sources, C140_sources_written.

* `ClassicalDedekindReals.sig_forall_dec`, `ClassicalDedekindReals.sig_not_dec`, `FunctionalExtensionality.functional_extensionality_dep`:
  C112_capacitors, C112_monitor_refuted, C112_two_phases_refuted, C112_section_refuted, C112_empty_refuted, C106_file, C106_class_refuted, C106_customers_refuted, C106_factor_refuted, C40_kw_kvar, C40_kva_pf, C40_kw_pf, C40_errors, C120_transformers, C120_inverse, C120_product_refuted, C120_index_refuted, C107_read_back_refuted, C107_empty_refuted, C95_loads, C95_read_back, C95_unbalanced_refuted, C95_reactive_refuted, C95_ground_refuted, C95_delta_refuted, C95_name_refuted, C98_frame, C98_voltages, C98_namesake_refuted, C98_case_refuted, C98_winding_refuted, C140_bus, C140_angle_refuted, C140_twice_refuted, C79_three_with_neutral_refuted, C07_sequence_transform_three, C07_sequence_transform_two, C07_balanced_line, C07_other_shapes, C07_sequence_entries, C07_balanced_entries, C07_entries_absent, C126_impedances, C126_no_way, C126_neutral_refuted, C135_defined, C135_metric, C135_axis, C135_right_angle, C130_transformers, C130_tertiary_refuted, C130_reactances_refuted.

* `ClassicalDedekindReals.sig_forall_dec`, `ClassicalDedekindReals.sig_not_dec`, `Classical_Prop.classic`, `FunctionalExtensionality.functional_extensionality_dep`:
  C106_loads, C106_connection_refuted, C106_reactive_refuted, C106_negative_refuted, C106_users_refuted, C78_overhead, C78_reads, C78_file, C78_file_reads, C78_direct_matrix_refuted, C78_stale_configuration_refuted, C78_mixed_units_refuted, C79_underground, C79_reads, C79_one_point, C79_positions_in_feet_refuted, C80_triplex, C80_reads, C80_direct_matrix_refuted, C80_no_neutral_refuted, C80_neutral_data_refuted, C80_length_refuted, C06_compute_matrix, C06_order_of_wires, C06_compute_matrix_succeeds, C06_repeated_phase_refuted, C57_primitive_matrix, C57_primitive_matrix_outcome, C137_overhead, C137_resistance_refuted, C137_four_refuted, C137_defaults_refuted, C137_underground, C137_underground_exists, C69_distances, C69_heights, C69_furthest, C69_defaults, C69_lone, C69_four_heights_refuted, C69_units_refuted, C136_matrix, C136_exists, C136_symmetric, C136_neutral_refuted, C136_position_refuted, C136_two_neutrals_refuted, C136_no_places_refuted, C138_no_neutral, C138_unit_refuted, C138_neutral_refuted, C138_any_neutral_refuted.

These are axioms of the standard library (the classical reals and what `Reals` brings with it). No other library contributes an axiom, and the development states none.

## 5. Properties: what is modelled and how it is proved

### C01 Length conversion to metres is correct for every supported unit

* Code: `ditto/readers/abstract_reader.py:AbstractReader.convert_to_meters`.
* Theorems (`UnitsProps.v`): `C01_to_meters_value`, `C01_to_meters_value_no_flag`, `C01_to_meters_none`, `C01_table_accuracy`.
* How: convert_to_meters branch by branch over Q, units as Python values, ASCII lower; case analysis against a unit table.
* Status: **proved**. Exact rational arithmetic in place of binary floats; ASCII letter case.

### C02 Metres round trip

* Code: `ditto/readers/abstract_reader.py:AbstractReader.convert_to_meters`, `ditto/readers/abstract_reader.py:AbstractReader.convert_from_meters`, `ditto/writers/abstract_writer.py:AbstractWriter.convert_from_meters`.
* Theorems (`UnitsProps.v`): `C02_round_trip_close`, `C02_round_trip_exact_iff`.
* How: Both copies of convert_from_meters (reader, writer); field identities and rational error bounds per unit.
* Status: **proved**. Error bound for every unit; exactness characterised (iff km, m, cm).

### C03 Unit-to-unit conversion

* Code: `ditto/readers/abstract_reader.py:AbstractReader.unit_conversion`.
* Theorems (`UnitsProps.v`): `C03_unit_conversion_value`, `C03_unit_conversion_none`, `C03_unit_conversion_linear`, `C03_unit_conversion_back`.
* How: unit_conversion as composition of the two; linearity and round-trip bound for all unit pairs.
* Status: **proved**. Value, None cases, linearity and round-trip bound for all unit pairs.

### C04 Symmetrize a triangular matrix

* Code: `ditto/readers/abstract_reader.py:AbstractReader.symmetrize`.
* Theorems (`MatrixProps.v`): `C04_symmetrize_triangular`, `C04_symmetrize_any_rows`.
* How: symmetrize on lists of rows with its index loops; list induction, entrywise specification.
* Status: **proved**. Exact result of symmetrize for every list of rows; triangular inputs keep their entries and become symmetric. Ragged rows: see C04_symmetrize_any_rows.

### C05 Kron reduction of the primitive impedance matrix

* Code: `ditto/readers/abstract_reader.py:AbstractReader.kron_reduction`.
* Theorems (`MatrixProps.v`): `C05_kron_grounded_partial`, `C05_kron_raises_refuted`, `C05_kron_default_refuted`, `C05_kron_default_pair`, `C05_kron_wrong_refuted`.
* How: kron_reduction's counter loops as written (the fill order is transposed); exact condition for success and for the right value.
* Status: **partial**. Correct only for as many neutrals as phases with symmetric cross block. Otherwise IndexError (C05_kron_raises_refuted, also for the default neutral with three or more conductors) or a wrong value (C05_kron_wrong_refuted).

### C06 Impedance matrix built from wires (GridLAB-D)

* Code: `ditto/readers/gridlabd/read.py:Reader.compute_matrix`.
* Theorems (`MatrixProps.v`): `C06_compute_matrix`, `C06_order_of_wires`, `C06_compute_matrix_succeeds`, `C06_repeated_phase_refuted`.
* How: compute_matrix over complex pairs of reals; permutation invariance, Schur complement stated as the circuit equations with zero neutral voltage.
* Status: **proved**. Wires with distinct phases. Negative gmr, which gives a math domain error, is a failure. With repeated phases the matrix depends on the order (C06_repeated_phase_refuted).

### C07 Sequence impedances

* Code: `ditto/readers/abstract_reader.py:AbstractReader.get_sequence_impedance_matrix`.
* Theorems (`MatrixProps.v`): `C07_sequence_transform_three`, `C07_sequence_transform_two`, `C07_balanced_line`, `C07_other_shapes`, `C07_sequence_entries`, `C07_balanced_entries`, `C07_entries_absent`.
* How: The sequence transformation on complex matrices; ring and field identities against the definition A^-1 Z A.
* Status: **proved**. Complex numbers over the reals; floating-point rounding not modelled.

### C08 Name index

* Code: `ditto/store.py:Store.set_names`, `ditto/models/base.py:DiTToHasTraits.set_name`.
* Theorems (`StoreProps.v`): `C08_lookup_is_last_registered`, `C08_keyerror_iff_absent`, `C08_models_unchanged`.
* How: Heap, store list and name dictionary; set_names against `last bearer of a name`.
* Status: **proved**. Names are arbitrary values or None.

### C09 Store contents under any history of operations

* Code: `ditto/store.py:Store.models`, `ditto/store.py:Store.remove_element`, `ditto/models/base.py:DiTToHasTraits.__init__`.
* Theorems (`StoreProps.v`): `C09_models_after_any_history`, `C09_create_appends`, `C09_remove_exactly_one`, `C09_remove_unregistered_fails`, `C09_other_operations_keep_models`.
* How: Induction over arbitrary histories of add, remove, set_names and name changes.
* Status: **proved**. Induction over arbitrary histories; models() is a value, hence a snapshot by construction of the model.

### C10 Deleting an element removes it and its parts, and nothing else

* Code: `ditto/modify/modify.py:Modifier.delete_element`.
* Theorems (`StoreProps.v`): `C10_delete_removes_exactly_the_parts`, `C10_delete_succeeds_iff`, `C10_delete_shared_or_unregistered_fails`.
* How: Modifier.set_attributes on the heap with fuel for nesting depth; exact effect and frame.
* Status: **proved**. Exact effect, exact success condition and the ValueError case; nesting depth unbounded (fuel existential).

### C11 Copying an object

* Code: `ditto/modify/modify.py:Modifier.copy`.
* Theorems (`StoreProps.v`): `C11_copy_is_fresh_and_complete`, `C11_copy_succeeds`.
* How: Modifier.copy; induction on the object tree, fresh identities, equal attributes.
* Status: **proved**. Effect for every successful copy; success for every finite object tree.

### C12 Adding one model to another

* Code: `ditto/modify/modify.py:Modifier.add`.
* Theorems (`StoreProps.v`): `C12_add_effect`, `C12_add_succeeds`, `C12_add_all_named_refuted`.
* How: Modifier.add; composition of C11 over the named objects of model 2.
* Status: **partial**. Proved with the meaning 'objects a name resolves to'; objects of m2 shadowed by a later object with the same name are not added (C12_add_all_named_refuted). Assumes sub-objects have no name trait.

### C13 Deleting the contents of one model from another

* Code: `ditto/modify/modify.py:Modifier.delete`.
* Theorems (`StoreProps.v`): `C13_delete_effect`, `C13_delete_names_gone`, `C13_delete_succeeds`, `C13_delete_all_bearers_refuted`.
* How: Modifier.delete; frame conditions and the exact set of removed objects.
* Status: **partial**. Exact effect and success condition; 'every object with that name' holds for unique names in m1 and is refuted for duplicate names (C13_delete_all_bearers_refuted).

### C14 Merging scalar attributes

* Code: `ditto/modify/modify.py:Modifier.set_attributes`, `ditto/modify/modify.py:Modifier.merge`.
* Theorems (`MergeProps.v`): `C14_merge_effect`, `C14_hypotheses_preserved`, `C14_merge_twice_partial`, `C14_merge_twice_refuted`, `C14_plain_lists_break_merge`.
* How: Modifier.merge; per attribute rule, frame and registration by induction over the common names.
* Status: **partial**. Scalar rule, frame and registration proved for every successful merge; idempotence proved for scalar attributes, refuted for the order of phase lists (C14_merge_twice_refuted). Finding: a common object of model 2 with a non-empty list of plain values makes merge raise (C14_plain_lists_break_merge).

### C15 Merging per-phase sub-objects

* Code: `ditto/modify/modify.py:Modifier.set_attributes`.
* Theorems (`MergeProps.v`): `C15_phase_merge_partial`, `C15_missing_phases_added_refuted`.
* How: The per-phase branch of merge; induction over the phase lists.
* Status: **partial**. Exact effect proved for leaf sub-objects (no nested lists); the claim 'adds the phases m1 lacks' is false for phases after m1's last phase (C15_missing_phases_added_refuted).

### C16 Network graph contents

* Code: `ditto/network/network.py:Network.build`.
* Theorems (`NetworkProps.v`): `C16_graph_contents`, `C16_unnamed_class_refuted`.
* How: Network.build; fold over the objects, edges and attributes characterised by the last writer.
* Status: **partial**. Edges, nodes and attributes for every model; the class on the edge is wrong for an object whose name is None (C16_unnamed_class_refuted).

### C17 The directed network is a shortest-path tree rooted at the source

* Code: `ditto/network/network.py:Network.build`, `ditto/network/network.py:Network.bfs_order`.
* Theorems (`NetworkProps.v`): `C17_shortest_path_tree`, `C17_build_succeeds_iff`.
* How: set_network's breadth-first orientation; BFS invariant, spanning tree of the component of the source.
* Status: **proved**. All models and sources; termination of BFS included; success iff something touches the source (objects on the network named).

### C18 Upstream transformer search

* Code: `ditto/network/network.py:Network.get_upstream_transformer`.
* Theorems (`NetworkProps.v`): `C18_nearest_upstream_transformer`.
* How: get_upstream_transformer on the oriented tree; the first transformer on the unique path to the source, KeyError cases included.
* Status: **proved**. Exact result for every node, including the KeyError when the path runs over a load edge (edges without equipment).

### C19 Downstream elements

* Code: `ditto/network/network.py:Network.get_all_elements_downstream`.
* Theorems (`NetworkProps.v`): `C19_downstream_elements`.
* How: Descendants in the oriented tree; names resolved to their last bearer.
* Status: **proved**. Exact contents and exact ValueError condition; names resolve to their last bearer.

### C20 Orienting lines away from the source

* Code: `ditto/store.py:Store.direct_from_source`.
* Theorems (`NetworkProps.v`): `C20_direct_from_source`.
* How: direct_from_source; orientation of each line by the tree, idempotence.
* Status: **proved**. Effect, orientation, idempotence, links unchanged; success for every built network.

### C21 Removing open switches

* Code: `ditto/network/network.py:Network.remove_open_switches`.
* Theorems (`NetworkProps.v`): `C21_removed_edges_partial`, `C21_open_lines_are_removed`, `C21_removal_succeeds`, `C21_plain_line_removed_refuted`, `C21_parallel_line_removed_refuted`, `C21_removal_raises_refuted`.
* How: remove_open_switches; exact set of removed edges.
* Status: **partial**. Exact set of removed edges and success condition; 'no others' is false (plain lines with is_breaker=False and wires of unknown state; closed lines parallel to an open switch), and two open switches on one pair raise (refuted theorems).

### C22 Internal edges of a node set

* Code: `ditto/network/network.py:Network.find_internal_edges`.
* Theorems (`NetworkProps.v`): `C22_internal_edges_partial`, `C22_parallel_objects_missing_refuted`.
* How: find_internal_edges; what the graph attributes hold for every pair of nodes in the set.
* Status: **partial**. Exact contents; of parallel objects only the last is reported (C22_parallel_objects_missing_refuted).

### C23 Cycle detection on the built network

* Code: `ditto/network/network.py:Network.find_cycles`, `ditto/store.py:Store.delete_cycles`.
* Theorems (`NetworkProps.v`): `C23_no_cycle_is_found`, `C23_delete_cycles_deletes_nothing`, `C23_each_cycle_once`, `C23_short_cycles_are_kept`, `C23_long_cycles_are_cut`, `C23_loops_are_not_broken_refuted`.
* How: find_cycles and delete_cycles on the directed tree; acyclicity makes them no-ops.
* Status: **partial**. False of the code: find_cycles works on the directed tree and is always empty, so delete_cycles deletes nothing; proved for all models and refuted by a loop.

### C24 Deleting disconnected nodes

* Code: `ditto/store.py:Store.delete_disconnected_nodes`.
* Theorems (`NetworkProps.v`): `C24_delete_disconnected_partial`, `C24_deletion_succeeds`, `C24_unnamed_parts_stay_refuted`.
* How: delete_disconnected_nodes; exact set of deleted objects and the rebuild.
* Status: **partial**. Exact effect and success; the parts of unnamed nodes stay registered, and the rebuild from 'sourcebus' raises on models without it (C24_unnamed_parts_stay_refuted).

### C25 check_loads_connected decides connectivity

* Code: `ditto/consistency/check_loads_connected.py:check_loads_connected`.
* Theorems (`ConsistencyProps.v`): `C25_loads_connected`, `C25_no_source`, `C25_several_sources`, `C25_same_name_refuted`.
* How: check_loads_connected as a decision procedure; equivalence with reachability in the undirected graph.
* Status: **proved**. networkx shortest paths and build_network as modelled. Loads sharing a name are not told apart (C25_same_name_refuted); two sources feeding one load raise AttributeError (C25_several_sources).

### C26 check_unique_path decides uniqueness of the supply path

* Code: `ditto/consistency/check_unique_path.py:check_unique_path`.
* Theorems (`ConsistencyProps.v`): `C26_unique_path`, `C26_unconnected_refuted`.
* How: check_unique_path; equivalence with uniqueness of the simple path.
* Status: **proved**. An unconnected load is taken for a collection of one-letter nodes (C26_unconnected_refuted), hence the hypothesis that loads are connected.

### C27 check_loops decides radiality

* Code: `ditto/consistency/check_loops.py:check_loops`.
* Theorems (`ConsistencyProps.v`): `C27_loops`, `C27_contract_met`, `C27_parallel_lines_refuted`.
* How: check_loops; equivalence with absence of a cycle, cycle_basis through its contract.
* Status: **proved**. nx.cycle_basis enters through its contract (empty exactly when there is no cycle), met by all_loops. No source: TypeError. Parallel lines are one edge (C27_parallel_lines_refuted).

### C28 check_matched_phases

* Code: `ditto/consistency/check_matched_phases.py:check_matched_phases`.
* Theorems (`ConsistencyProps.v`): `C28_matched_phases`, `C28_contained_refuted`.
* How: check_matched_phases; exact acceptance condition.
* Status: **partial**. The containment part is false: a two-winding transformer is accepted only if both sides have the same set of phases (C28_contained_refuted); the theorem states exactly what is accepted.

### C29 check_transformer_phase_path limits transformers per load

* Code: `ditto/consistency/check_transformer_phase_path.py:check_transformer_phase_path`.
* Theorems (`ConsistencyProps.v`): `C29_phase_path_partial`, `C29_answers`, `C29_two_transformers_refuted`, `C29_load_at_transformer_refuted`, `C29_open_tie_refuted`.
* How: check_transformer_phase_path; exact acceptance condition on radial networks, path induction.
* Status: **partial**. Claim false: two distribution transformers in series are accepted (C29_two_transformers_refuted). The theorem gives the exact acceptance condition for radial networks without parallel elements; networks with open ties are only covered by C29_open_tie_refuted.

### C30 fix_undersized_transformers

* Code: `ditto/consistency/fix_undersized_transformers.py:fix_undersized_transformers`.
* Theorems (`ConsistencyProps.v`): `C30_rated_for_load`, `C30_effect`, `C30_succeeds`, `C30_never_decrease_refuted`, `C30_two_in_series_refuted`.
* How: fix_undersized_transformers; selection of the nearest size, sums of downstream loads.
* Status: **partial**. Proved for radial models with one source, distinct names, for the first winding. Other windings may decrease (C30_never_decrease_refuted) and loads behind two transformers are not counted (C30_two_in_series_refuted).

### C31 JSON round trip

* Code: `ditto/writers/json/write.py:Writer.write`, `ditto/readers/json/read.py:Reader.parse`.
* Theorems (`JsonProps.v`): `C31_round_trip`, `C31_file`, `C31_phase_storages_refuted`, `C31_reactor_refuted`, `C31_none_refuted`, `C31_none_matrix_refuted`.
* How: Writer and reader over a JSON tree type; structural induction gives the round trip for supported values.
* Status: **proved**. Proved for supported values (JsonSpec.object_ok): standard scalars, complex numbers, Unicode traits, positions, wires, phase capacitors, phase loads, windings with phase windings, matrices. None must be the default of the attribute. Refuted outside: phase storages are lost, reactors unreadable, None becomes the default, a None matrix is a TypeError.

### C32 Source detection

* Code: `ditto/modify/system_structure.py:system_structure_modifier.__init__`.
* Theorems (`VoltProps.v`): `C32_source`, `C32_source_voltage`.
* How: The constructor of system_structure_modifier; distinct source names.
* Status: **proved**. ValueError for none or several distinct names; if one of several source buses is named None numpy raises TypeError instead (stated). modifier_init covers lines 44-106.

### C33 Filling missing coordinates

* Code: `ditto/modify/system_structure.py:system_structure_modifier.set_missing_coords_recur`.
* Theorems (`CoordProps.v`): `C33_terminates`, `C33_succeeds`, `C33_inside_box`, `C33_unchanged`, `C33_located_partial`, `C33_zero_average_refuted`, `C33_duplicate_names_refuted`.
* How: set_missing_coords_recur with its averages; termination measure, bounding box by induction.
* Status: **partial**. Termination, success, unchanged objects and the bounding box hold; every connected node is located if the known latitudes (and longitudes) are on one side of 0. Refuted otherwise (C33_zero_average_refuted: an average of exactly 0 counts as missing) and for duplicate names (C33_duplicate_names_refuted). Float rounding is not modelled.

### C34 Nominal voltage propagation

* Code: `ditto/modify/system_structure.py:system_structure_modifier.set_nominal_voltages_recur`.
* Theorems (`VoltProps.v`): `C34_voltages`, `C34_succeeds`.
* How: set_nominal_voltages_recur; upstream recursion on the tree, fuel bounded by the number of nodes.
* Status: **proved**. The feeding transformer is unique and its smallest winding voltage is stored. Python's recursion limit is not modelled: the depth needed is bounded by the number of nodes (C34_succeeds).

### C35 Centre-tap preprocessing conserves power

* Code: `ditto/modify/system_structure.py:system_structure_modifier.center_tap_load_preprocessing`.
* Theorems (`CenterTapProps.v`): `C35_loads`, `C35_wires`, `C35_one_transformer`, `C35_conserves`, `C35_succeeds`, `C35_second_run_refuted`.
* How: center_tap_load_preprocessing; the upstream walk of each load, updates of phase loads and wires, sums.
* Status: **partial**. Proved for every network whose objects have distinct names: each load is matched with the first transformer above it, phase loads of other phases are dropped, missing ones added, and the active ones share the total power of all old ones evenly; the wires of exactly the lines in between are dropped and added accordingly. C35_conserves: if no phase load was dropped before, the active phases are those of the transformer and the active totals are unchanged. C35_second_run_refuted: the full statement fails when phase loads are dropped already (a second run): their power is counted again.

### C36 Feeder preprocessing never reassigns an element

* Code: `ditto/modify/system_structure.py:system_structure_modifier.feeder_preprocessing`.
* Theorems (`FeederProps.v`): `C36_assigns`, `C36_never_overwrites`, `C36_raises`, `C36_succeeds`.
* How: feeder_preprocessing; fold over the substations for every iteration order.
* Status: **proved**. For every iteration order of the downstream set. proper: substation transformers have a non-empty name and an end that is a node whose downstream names are objects (otherwise get_all_elements_downstream raises ValueError). C36_never_overwrites also covers runs that raise.

### C37 Opening and closing switches from a DSS file

* Code: `ditto/modify/system_structure.py:system_structure_modifier.open_close_switches`.
* Theorems (`SwitchProps.v`): `C37_effect`, `C37_bad_line`, `C37_bad_token`, `C37_stops`, `C37_numeric_refuted`.
* How: open_close_switches on the text of the file; tokeniser and comparison on strings.
* Status: **partial**. Proved for every file of well-formed lines with r1 compared as text. Refuted as a numeric comparison (C37_numeric_refuted: 1E11, 100000000000 and Switch=Y are not recognised); lines with a word that is not an assignment, e.g. a trailing blank, raise IndexError (C37_bad_line, C37_bad_token, C37_stops).

### C38 CYME phase codes

* Code: `ditto/readers/cyme/read.py:Reader.phase_mapping`, `ditto/readers/cyme/read.py:Reader.phase_to_num`.
* Theorems (`CymeMapProps.v`): `C38_every_phase_set`, `C38_codes_one_to_one`, `C38_strings`, `C38_phase_to_num`.
* How: The CYME code tables; case analysis over all integers and strings.
* Status: **proved**. All integers and all strings; floats equal to a code behave like the code in the model.

### C39 CYME connection codes round trip

* Code: `ditto/writers/cyme/write.py:Writer.connection_configuration_mapping`, `ditto/readers/cyme/read.py:Reader.connection_configuration_mapping`, `ditto/writers/cyme/write.py:Writer.transformer_connection_configuration_mapping`, `ditto/readers/cyme/read.py:Reader.transformer_connection_configuration_mapping`.
* Theorems (`CymeMapProps.v`): `C39_connection_round_trip`, `C39_transformer_round_trip_partial`, `C39_z_secondary_refuted`.
* How: Reader and writer tables composed; all pairs.
* Status: **partial**. Proved for single connections and all pairs the writer can write in the transformer table; refuted for pairs with a Z secondary (KeyError).

### C40 CYME load values

* Code: `ditto/readers/cyme/read.py:Reader.load_value_type_mapping`.
* Theorems (`CymeMapProps.v`): `C40_kw_kvar`, `C40_kva_pf`, `C40_kw_pf`, `C40_errors`.
* How: The load value branches over the reals; trigonometric identities as algebra.
* Status: **proved**. Over the reals; float() is a parameter. Uses the axioms of the standard reals.

### C41 CYME section parser

* Code: `ditto/readers/cyme/read.py:Reader.parser_helper`.
* Theorems (`CymeParseProps.v`): `C41_section`, `C41_default_layout`, `C41_second_format`, `C41_other_lines`, `C41_file`, `C41_equals_sign_refuted`, `C41_no_blank_line_refuted`, `C41_repeated_section_refuted`.
* How: parser_helper on lists of lines; induction over the section, positions of the columns.
* Status: **partial**. Proved for every file, header table, attribute list and format line: rows, keys, columns, remaining lines, second format lines and the loop over a file with one such section. Refuted: rows with an equals sign are dropped, a missing blank line swallows the next section, repeated sections overwrite records.

### C42 Merging single-phase regulators (CYME writer)

* Code: `ditto/writers/cyme/write.py:Writer.merge_regulators`, `ditto/writers/cyme/write.py:Writer.merge`.
* Theorems (`CymeMapProps.v`): `C42_merge_regulators`, `C42_different_values_refuted`, `C42_three_phase_refuted`.
* How: merge and merge_regulators field by field; case analysis, list induction.
* Status: **proved**. Records of equal width. Refuted outside the statement: differing non-zero fields are blanked, ABC merged with another phase is blanked.

### C43 CYME section overlaps are put in series

* Code: `ditto/readers/cyme/read.py:Reader.fix_section_overlaps`.
* Theorems (`SectionProps.v`): `C43_series`, `C43_separate_nodes`, `C43_unknown_node`, `C43_regulator_bank_refuted`, `C43_same_from_node_refuted`.
* How: The loop over a section table that chains its devices; induction over the connectors.
* Status: **partial**. Proved for all section tables with disjoint sections whose connectors share their ends: chains, new nodes, hung elements, frame; separate nodes with at most one regulator. Refuted: regulator banks become loops, sections leaving the same node share intermediate nodes.

### C44 Customising CYME headers

* Code: `ditto/readers/cyme/read.py:Reader.update_header_mapping`, `ditto/readers/cyme/read.py:Reader.check_object_in_line`.
* Theorems (`CymeMapProps.v`): `C44_updated_recognised_partial`, `C44_other_objects_refuted`.
* How: update_header_mapping and the object recognition; dictionary lemmas.
* Status: **partial**. The updated object is recognised; every other object breaks after any update (proved for all mappings), so the second half of the statement is refuted.

### C45 OpenDSS names are safe

* Code: `ditto/writers/opendss/write.py:Writer.write_bus_coordinates`.
* Theorems (`DssNameProps.v`): `C45_safe`, `C45_content`, `C45_unchanged`, `C45_idempotent`, `C45_distinct_partial`, `C45_distinct_refuted`.
* How: The OpenDSS name sanitiser as a string function; string induction.
* Status: **partial**. Safety, content, idempotence and stability proved for all ASCII names; distinctness only for names of letters and digits, refuted in general (C45_distinct_refuted).

### C46 OpenDSS phase mapping round trip

* Code: `ditto/readers/opendss/read.py:Reader.phase_mapping`, `ditto/writers/opendss/write.py:Writer.phase_mapping`.
* Theorems (`DssNameProps.v`): `C46_round_trip_partial`, `C46_writer_injective`, `C46_reader`, `C46_neutral_refuted`.
* How: Phase letters and bus suffixes; case analysis and list induction.
* Status: **partial**. Phases A, B, C proved; the neutral N is written as 0 and not read back (refuted).

### C47 Metrics counters

* Code: `ditto/metrics/network_analysis.py:NetworkAnalyzer.number_of_regulators`, `ditto/metrics/network_analysis.py:NetworkAnalyzer.analyze_object`, `ditto/metrics/network_analysis.py:NetworkAnalyzer.compute_all_metrics_per_feeder`.
* Theorems (`MetricsProps.v`): `C47_computes`, `C47_counts`, `C47_more_counts`, `C47_feeder`, `C47_feeders_add_up`, `C47_one_feeder`, `C47_functions`, `C47_functions_agree`, `C47_functions_add_up`, `C47_ratios`, `C47_loads_by_phases`.
* How: analyze_object as a list of increments per object, the report as their totals; totals equal independent counts by induction, feeders partition the objects.
* Status: **proved**. Counters of compute_all_metrics and of number_of_* against an independent count, additivity over models, and the per-feeder reports as the reports of the objects that belong to the feeder, adding up to the global report.

### C48 Line length metrics partition the total

* Code: `ditto/metrics/network_analysis.py:NetworkAnalyzer.analyze_object`, `ditto/metrics/network_analysis.py:NetworkAnalyzer.lv_length_miles`, `ditto/metrics/network_analysis.py:NetworkAnalyzer.mv_length_miles`, `ditto/metrics/network_analysis.py:NetworkAnalyzer.length_mvXph_miles`, `ditto/metrics/network_analysis.py:NetworkAnalyzer.length_lvXph_miles`.
* Theorems (`MetricsProps.v`): `C48_lengths`, `C48_partition`, `C48_levels`, `C48_functions`, `C48_functions_partition`, `C48_functions_succeed`, `C48_voltage_base_refuted`, `C48_four_wires_refuted`.
* How: The same for lengths; classes disjoint by voltage and wire count.
* Status: **proved**. Lengths of compute_all_metrics and of the length functions against an independent sum; partition by number of phases, no line in both levels. Also recorded: the report compares voltage*sqrt(3) with the thresholds and the functions compare the voltage, so they class an 800 V line differently; a line with four A/B/C wires is in no phase class.

### C49 Load demand metrics

* Code: `ditto/metrics/network_analysis.py:NetworkAnalyzer.percentage_load_LV_kW_phX`, `ditto/metrics/network_analysis.py:NetworkAnalyzer.total_demand`, `ditto/metrics/network_analysis.py:NetworkAnalyzer.compute_all_metrics`.
* Theorems (`MetricsProps.v`): `C49_demand`, `C49_shares`, `C49_imbalance`, `C49_total`, `C49_total_agrees`, `C49_percentage`, `C49_dropped_refuted`.
* How: The same for powers; share arithmetic over Q.
* Status: **proved**. Demand sums, phase shares (between 0 and 100, adding up to 100), imbalance between 0 and 4/3, total_demand and percentage_load_LV_kW_phX. Also recorded: dropped phase loads count in total_demand but not in the report.

### C50 Transformer to load mapping

* Code: `ditto/metrics/network_analysis.py:NetworkAnalyzer.get_transformer_load_mapping`.
* Theorems (`MetricsProps.v`): `C50_mapping`, `C50_one_transformer`.
* How: get_transformer_load_mapping as an upstream climb; tree path lemmas of C17.
* Status: **proved**. For every built network whose elements and loads are named; the fuel of the upstream walk is shown to suffice above the number of nodes.

### C51 Default values

* Code: `ditto/readers/abstract_reader.py:AbstractReader.set_default_values`, `ditto/readers/abstract_reader.py:AbstractReader.parse_default_values`.
* Theorems (`ReaderProps.v`): `C51_effect`, `C51_remove_succeeds`, `C51_unmentioned_refuted`, `C51_foreign_attributes_refuted`.
* How: The default values table applied to objects; induction over the table.
* Status: **partial**. The effect on every attribute is proved, for every table and both flags, and removal is total. The claim that attributes the table does not mention stay unchanged is false of the code: they are overwritten with None (C51_unmentioned_refuted), and objects gain attributes of other classes (C51_foreign_attributes_refuted).

### C52 CSV reader index alignment

* Code: `ditto/readers/csv/read.py:Reader.parse`.
* Theorems (`CsvProps.v`): `C52_cells`, `C52_succeeds`, `C52_headers_distinct`, `C52_odd_index_fails`.
* How: The CSV reader from header text to objects; induction over columns and rows.
* Status: **proved**. From header text (split, strip, int, str modelled on strings) to the stored objects; class schema and trait validation are arbitrary. pd.read_csv is the input contract. C52_odd_index_fails: an index such as 00 is rejected.

### C53 Synergi length units

* Code: `ditto/readers/synergi/length_units.py`.
* Theorems (`UnitsProps.v`): `C53_synergi_value`, `C53_synergi_total`, `C53_synergi_rejects`, `C53_synergi_letter_case_refuted`.
* How: Synergi unit functions; case analysis over all strings.
* Status: **partial**. Values, totality and rejection proved; the letter-case part of the property is false of the code (accepted spellings with capitals raise KeyError), proved in C53_synergi_letter_case_refuted.

### C54 Merging dictionaries

* Code: `ditto/utils.py:combine`.
* Theorems (`ReaderProps.v`): `C54_combine`.
* How: combine; characterisation of every lookup in the result.
* Status: **proved**. Exact characterisation of every lookup in the result. The arguments are immutable values in the model; the code only reads them.

### C55 Parse order

* Code: `ditto/readers/abstract_reader.py:AbstractReader.parse`.
* Theorems (`ReaderProps.v`): `C55_order`.
* How: The parse order with arbitrary parsers; error propagation.
* Status: **proved**. For every behaviour of the nine parsers, including raising after partial changes.

### C56 Panel dimensions

* Code: `ditto/writers/cyme/write.py:Writer.smallest_perimeter`.
* Theorems (`CymeMapProps.v`): `C56_product`, `C56_smallest_refuted`.
* How: smallest_perimeter; integer arithmetic.
* Status: **proved**. Exact arithmetic; the perimeter itself is not always minimal (C56_smallest_refuted).

### C57 Primitive impedance matrix

* Code: `ditto/readers/abstract_reader.py:AbstractReader.get_primitive_impedance_matrix`, `ditto/readers/abstract_reader.py:AbstractReader.carson_equation_self`, `ditto/readers/abstract_reader.py:AbstractReader.carson_equation`.
* Theorems (`MatrixProps.v`): `C57_primitive_matrix`, `C57_primitive_matrix_outcome`.
* How: Carson's equations entry by entry over the reals.
* Status: **proved**. Exact reals; np.log of a negative number (nan with a warning) is modelled as a failure, the outcome theorem assumes nonnegative data.

### C58 Two-level dictionary update

* Code: `ditto/readers/abstract_reader.py:AbstractReader.update_dict`.
* Theorems (`ReaderProps.v`): `C58_update_dict`, `C58_sharing_refuted`.
* How: Nested dictionary update with references; effect and sharing.
* Status: **proved**. With explicit references to the inner dictionaries. C58_sharing_refuted records that the inner dictionaries are shared afterwards, so a further update of d1 changes d2.

### C59 Line voltages come from the upstream end

* Code: `ditto/modify/system_structure.py:system_structure_modifier.set_nominal_voltages_recur_line`.
* Theorems (`VoltProps.v`): `C59_line_voltages`.
* How: set_nominal_voltages_recur_line; exact effect and success condition.
* Status: **proved**. Includes the exact success condition.

### C60 CYME header

* Code: `ditto/readers/cyme/read.py:Reader.parse_header`.
* Theorems (`CymeParseProps.v`): `C60_units`, `C60_decides`, `C60_three_part_version_refuted`.
* How: The units and version lines of a CYME file; exact result for every file.
* Status: **partial**. Units proved for every file; version lines with more than one point raise NameError (refuted).

### C61 CYME connection tables

* Code: `ditto/readers/cyme/read.py:Reader.connection_configuration_mapping`, `ditto/readers/cyme/read.py:Reader.transformer_connection_configuration_mapping`, `ditto/readers/cyme/read.py:Reader.capacitors_connection_mapping`, `ditto/writers/cyme/write.py:Writer.transformer_connection_configuration_mapping`.
* Theorems (`CymeMapProps.v`): `C61_connection`, `C61_transformer`, `C61_bank`, `C61_written`, `C61_settings_code_refuted`.
* How: The three reading tables and the writing table as written, against the documented tables; case analysis over all integers and strings.
* Status: **proved**. All integers and strings. Also recorded: the settings code of D-D (2) means Y-D in the table of transformers (C61_settings_code_refuted); the reader does not read the settings code.

### C62 Secondary phases from the loads

* Code: `ditto/modify/system_structure.py:system_structure_modifier.terminals_to_phases`.
* Theorems (`TerminalProps.v`): `C62_windings`, `C62_loads`, `C62_agree`, `C62_succeeds`, `C62_again`, `C62_every_load_refuted`, `C62_second_run_refuted`.
* How: terminals_to_phases; the upstream climb of each load, the matching of the second winding as an invariant over the objects, with the exact result for several loads behind one transformer.
* Status: **partial**. Exact effect on every winding for any number of loads (C62_windings), agreement when the loads agree (C62_agree), success, second run. The literal statement is false: of several loads only the last one counts (C62_every_load_refuted), and a second run adds phase windings to transformers with three windings (C62_second_run_refuted).

### C63 Feeder networks

* Code: `ditto/metrics/network_analysis.py:NetworkAnalyzer.add_feeder_information`, `ditto/metrics/network_analysis.py:NetworkAnalyzer.split_network_into_feeders`, `ditto/metrics/network_analysis.py:NetworkAnalyzer.connect_disconnected_components`.
* Theorems (`SplitProps.v`): `C63_connected`, `C63_mapping`, `C63_terminates`, `C63_completed`, `C63_information`, `C63_listed_node_refuted`, `C63_same_name_refuted`.
* How: `SplitModel.v` models add_feeder_information, split_network_into_feeders and connect_disconnected_components with the choices of components and of shortest paths as oracles under contracts (met by breadth-first search); an invariant over the feeders gives connectedness, the exact completion and the mapping, a measure on the nodes outside the list gives termination.
* Status: **partial**. Connectedness, the exact completion by shortest paths, the mapping and termination are proved for all oracles that meet their contracts. That a node listed for one feeder stays with it is false (C63_listed_node_refuted), and two feeders of one name end in StopIteration (C63_same_name_refuted).

### C64 Feeder and substation of every object

* Code: `ditto/metrics/network_analysis.py:NetworkAnalyzer.tag_objects`.
* Theorems (`TagProps.v`): `C64_tags`, `C64_series`, `C64_succeeds`, `C64_again`, `C64_series_refuted`, `C64_isolated_refuted`.
* How: `TagModel.v` models both passes over the objects with the tags by position; the second pass reads only tags of nodes in the mapping, which it never writes, so the climb is the inductive `nearest`.
* Status: **partial**. Feeders, substations, success and the second run are characterised exactly for all inputs. The time series of a device that inherits its feeder keep the tags the device had before (C64_series_refuted), and an isolated node raises NetworkXError (C64_isolated_refuted).

### C65 Wires and geometries of written lines

* Code: `ditto/writers/opendss/write.py:Writer.write_lines`, `ditto/writers/opendss/write.py:Writer.write_wiredata`, `ditto/writers/opendss/write.py:Writer.write_linegeometry`, `ditto/writers/opendss/write.py:Writer.parse_wire`, `ditto/writers/opendss/write.py:Writer.parse_cable`, `ditto/writers/opendss/write.py:Writer.parse_line_geometry`.
* Theorems (`DssCodeProps.v`): `C65_choice`, `C65_geometries`, `C65_succeeds`, `C65_only`, `C65_names`, `C65_capture_refuted`, `C65_cable_refuted`.
* How: DssCodeModel: parse_wire, parse_cable, parse_line_geometry, write_wiredata and write_linegeometry as table transformers. DssCodeSpec states what a definition says by the key-value pairs in it. Invariant: every name in a table is given or a variant with a number below the counter; the numbers of wires and cables are disjoint; definitions only grow. Specified with geometry_of (conductor by conductor).
* Status: **partial**. Proved when the names in the model do not look like the generated ones (X_1) and no cable shares the name of an overhead wire; C65_capture_refuted and C65_cable_refuted show what happens otherwise: a definition is overwritten, an underground line refers to a bare wire.

### C66 Line codes of written lines

* Code: `ditto/writers/opendss/write.py:Writer.write_linecodes`, `ditto/writers/opendss/write.py:Writer.parse_line`.
* Theorems (`DssLineCodeProps.v`): `C66_single`, `C66_files`, `C66_third_refuted`, `C66_other_feeder_refuted`, `C66_two_definitions_refuted`.
* How: DssCodeModel.write_linecodes, per-file tables. DssLineCodeSpec.describes_code says what the code must contain, matrix by matrix. Invariants: in one file, the tables all_linecodes and txt coincide and every name is a class, a numbered variant (with data unlike the class's) or a generated code; with many files, every definition is that of a line of the class.
* Status: **partial**. Proved for one file with at most two variants of the data per class and number of phases (C66_single), and for any separation with consistent classes (C66_files). Otherwise refuted: the third variant gets the code of the second, a line without class refers to another feeder's file, and two files define one name differently.

### C67 Files of a section of the OpenDSS output

* Code: `ditto/writers/opendss/write.py:Writer.write_transformers`, `ditto/writers/opendss/write.py:Writer.write_loads`, `ditto/writers/opendss/write.py:Writer.write_lines`, `ditto/writers/opendss/write.py:Writer.write_capacitors`.
* Theorems (`DssFileProps.v`): `C67_files`, `C67_feeder_redirect`, `C67_feeders_only_fails`, `C67_capital_refuted`, `C67_key_refuted`, `C67_folder_refuted`, `C67_unnamed_refuted`, `C67_no_empty`.
* How: Generic section writer over texts; content of the two maps by induction over the objects (ktext_content, collect_sets), the inner loop with its reassigned variable by emit_feeders_eq, files and redirects by induction over the groups. The order of sets is a universally quantified permutation.
* Status: **partial**. Proved (C67_files, C67_feeder_redirect) when every group has an object to write, groups differ in 'substation_feeder' and in their folders, and substations with several feeders have names that are written as they are. Without these the statement is refuted: with separate_feeders only, every network with two feeders ends in a KeyError (C67_feeders_only_fails, for all such networks), as does a capital in the name of a substation with two feeders (C67_capital_refuted) and a feeder whose objects have no names (C67_unnamed_refuted); groups with the same key share their objects (C67_key_refuted); groups with the same folder lose them (C67_folder_refuted).

### C68 Completeness and order of the OpenDSS master file

* Code: `ditto/writers/opendss/write.py:Writer.write`, `ditto/writers/opendss/write.py:Writer.write_master_file`, `ditto/writers/opendss/write.py:Writer.write_bus_coordinates`.
* Theorems (`DssMasterProps.v`): `C68_output`, `C68_dependencies`, `C68_buses`, `C68_feeder`, `C68_feeder_master_refuted`, `C68_second_refuted`.
* How: Each section is a step that adds files with its own base name (Step, Run); uniqueness and order of redirects follow from the order of names (named_NoDup, named_before) and from what the master file takes first (take_all, master_before).
* Status: **partial**. Proved for a new writer (C68_output, C68_dependencies, C68_buses); line codes precede lines of the same feeder, and all lines outside the base folder. C68_feeder states exactly what the master file of a feeder redirects to. Refuted: that file misses wire data and geometries (C68_feeder_master_refuted); a writer used twice redirects twice (C68_second_refuted). Not modelled: circuit, source and solve lines, the transformers that write_regulators appends to another file, bus coordinates per folder beyond being written.

### C69 GridLAB-D conductor positions realise the spacing

* Code: `ditto/readers/gridlabd/read.py:62`.
* Theorems (`SpacingProps.v`): `C69_distances`, `C69_heights`, `C69_furthest`, `C69_defaults`, `C69_lone`, `C69_four_heights_refuted`, `C69_units_refuted`.
* How: SpacingModel follows the scan of the distances, the count of conductors, Heron's formula, the candidate positions, the rotation and the default positions. Proof: the matrix of distances is characterised entry by entry, the positions before the rotation are the image of the drawing under an explicit isometry up to the sign of x (Lagrange's identity turns Heron's formula into |cross product|/2), and the rotation and move are isometries; the sign that gives the right height is one of the two candidates.
* Status: **partial**. Proved: the distances in all cases of non-coinciding conductors (C69_distances), the heights for one to three conductors (C69_heights, C69_lone) and for the two furthest of four (C69_furthest). Refuted: with four conductors only one mirror image is tried and the heights of the others can be wrong (C69_four_heights_refuted); the default positions are in feet, not metres (C69_units_refuted). Numbers are reals: the equality test of heights (line 199) is exact in the model and unreliable in floating point.

### C70 GridLAB-D objects are read with their properties

* Code: `ditto/readers/gridlabd/read.py:495`, `ditto/formats/gridlabd/base.py:5`.
* Theorems (`GlmProps.v`): `C70_objects`, `C70_unknown_property`, `C70_unknown_class`, `C70_unnamed`, `C70_nested_refuted`, `C70_one_line_refuted`, `C70_second_reader_refuted`, `C70_words_refuted`, `C70_units_refuted`.
* How: GlmModel follows the loops over the rows (includes, objects, schedules) and __getitem__/__setitem__ of the formats; the formats' property lists are a parameter. The specification describes rows as words between blanks and files as a grammar of blocks. Proof: one lemma per kind of row about the step of the parser, and induction over the grammar with the parser's state outside of blocks as invariant.
* Status: **partial**. Proved for files with one block per object, one property per row and no nesting (C70_objects, C70_unknown_property, C70_unknown_class, C70_unnamed). Refuted: the properties of a nested object overwrite those of the object around it, and the nested object is lost (C70_nested_refuted, for all such files); an object on one line swallows the next (C70_one_line_refuted); a value of several words is cut (C70_words_refuted); a second reader of the program still has the objects of the first one's file, because the dictionary belongs to the class (C70_second_reader_refuted).

### C71 GridLAB-D schedules give the value at the origin

* Code: `ditto/readers/gridlabd/read.py:545`.
* Theorems (`GlmProps.v`): `C71_schedules`, `C71_inner_block_refuted`, `C71_brace_refuted`.
* How: The same parser model as C70; croniter is a parameter that decides whether an expression fits the origin. Induction over the rows of a schedule with the found flag as invariant, then over the file.
* Status: **partial**. Proved for schedules without inner blocks whose brace is on the row of the name (C71_schedules). Refuted: an inner block ends the schedule (C71_inner_block_refuted); a brace on a row of its own is counted twice, so that the schedule never ends and the next one is lost (C71_brace_refuted).

### C72 GridLAB-D nodes

* Code: `ditto/readers/gridlabd/read.py:623`, `ditto/readers/gridlabd/read.py:656`.
* Theorems (`GldLoadProps.v`): `C72_node`, `C72_triplex`, `C72_no_neutral_refuted`, `C72_quotes_refuted`, `C72_triplex_refuted`, `C72_from_file`.
* How: GldModel follows the conversion of each class of objects with float() and complex() as parameters. Rewriting with the attributes of the object; the text lemmas (last letter, quotes) by induction. C72_from_file composes with C70_objects.
* Status: **partial**. Proved for texts of phases that end with one letter other than A, B, C (C72_node, and from the file in C72_from_file) and for triplex nodes with quotes (C72_triplex). Refuted for all others: without a neutral the last phase is lost (C72_no_neutral_refuted), quotes become a phase (C72_quotes_refuted), a triplex node without quotes has no phases (C72_triplex_refuted).

### C73 GridLAB-D loads draw the power of their objects

* Code: `ditto/readers/gridlabd/read.py:918`.
* Theorems (`GldLoadProps.v`): `C73_load`, `C73_power`, `C73_zip`, `C73_unreadable`, `C73_reactive_refuted`, `C73_sum_refuted`, `C73_no_voltage_refuted`, `C73_zip_refuted`.
* How: The specification gives the current of Ohm's law and the power V times the conjugate of I. Proof: case analysis over the parts; the division |V|^2 / conj(Z) is shown to be the power of the current V/Z by field arithmetic over the rationals.
* Status: **partial**. Proved: C73_load (all phases, names and connections), C73_power (the drawn power is the total when at most one part is used and has an active component), C73_zip. Refuted: a purely reactive power is lost (C73_reactive_refuted), of two parts only the first counts (C73_sum_refuted), a constant current without a voltage is lost (C73_no_voltage_refuted), the active portions of a ZIP load do not add to one (C73_zip_refuted). An unreadable number stops the whole conversion (C73_unreadable).

### C74 GridLAB-D transformers

* Code: `ditto/readers/gridlabd/read.py:681`.
* Theorems (`GldEquipProps.v`): `C74_two_windings`, `C74_center_tap`, `C74_three_reactances`, `C74_no_configuration`, `C74_center_no_phases`, `C74_phase_ratings_refuted`, `C74_four_reactances_refuted`.
* How: The sequence of tries is modelled attribute by attribute; the statements about resistances are proved by field arithmetic over the rationals.
* Status: **partial**. Proved: C74_two_windings, C74_center_tap, C74_no_configuration, C74_center_no_phases (IndexError). Refuted: with ratings per phase the rating is that of phase C alone (C74_phase_ratings_refuted); with impedance1 but not impedance2 there are four reactances (C74_four_reactances_refuted).

### C75 GridLAB-D fuses and switches

* Code: `ditto/readers/gridlabd/read.py:1352`, `ditto/readers/gridlabd/read.py:1423`.
* Theorems (`GldEquipProps.v`): `C75_states`, `C75_status`, `C75_line`, `C75_no_status_refuted`, `C75_one_state_refuted`.
* How: The wires of the phases with a state as a flat map, the fallback loop as a recursion that stops at the exception. Membership characterisation and induction over the phases.
* Status: **partial**. Proved: C75_states (every phase has a state), C75_status (only the status is given), C75_line. Refuted: without states and status only the first phase has a wire (C75_no_status_refuted); with the state of one phase only the others have none (C75_one_state_refuted).

### C76 GridLAB-D capacitors

* Code: `ditto/readers/gridlabd/read.py:2088`.
* Theorems (`GldEquipProps.v`): `C76_capacitor`, `C76_control`, `C76_parent_refuted`, `C76_mixed_limits_refuted`.
* How: Case analysis over the attributes; membership characterisation of the phase capacitors.
* Status: **partial**. Proved: C76_capacitor, C76_control. Refuted: the parent is only kept in a local variable, so that no capacitor is ever connected (C76_parent_refuted); a voltage limit without its counterpart is combined with a limit of the reactive power (C76_mixed_limits_refuted).

### C77 GridLAB-D regulators

* Code: `ditto/readers/gridlabd/read.py:2180`.
* Theorems (`GldEquipProps.v`): `C77_regulator`, `C77_own_voltage_refuted`, `C77_missing_node`, `C77_compensator_refuted`.
* How: The list of phase windings is represented as a map over the phases with a function per setting; each step of the loops updates one function at one phase (NoDup phases), and three steps give the whole setting.
* Status: **partial**. Proved: C77_regulator (the whole result), C77_missing_node (KeyError). Refuted: its own voltage is never used (C77_own_voltage_refuted); a compensator setting of a phase that is not listed raises a NameError (C77_compensator_refuted).

### C78 GridLAB-D overhead lines

* Code: `ditto/readers/gridlabd/read.py:1494`, `ditto/readers/gridlabd/read.py:1594`.
* Theorems (`GldLineProps.v`): `C78_overhead`, `C78_reads`, `C78_file`, `C78_file_reads`, `C78_direct_matrix_refuted`, `C78_stale_configuration_refuted`, `C78_mixed_units_refuted`.
* How: GldLineModel keeps the wires in a heap, since lines may share them. Each conversion is shown to append its wires to the heap and to leave the others alone; the specification reads the line through the final heap. Positions compose with C69_distances, impedances with the theorems about compute_matrix (C12-C16). The loop by induction over the objects.
* Status: **partial**. Proved: C78_overhead (result of every line with a configuration, in any state), C78_reads (lines with numbers, conductors and spacing in order are read), C78_file and C78_file_reads (all lines of a file in order, no shared wires). Refuted: a given impedance matrix cannot be read (C78_direct_matrix_refuted, universal); a line without configuration takes the wires of the line before and converts their units again (C78_stale_configuration_refuted); the distances are in metres but the radii in feet when the impedances are computed (C78_mixed_units_refuted).

### C79 GridLAB-D underground lines

* Code: `ditto/readers/gridlabd/read.py:1747`, `ditto/readers/gridlabd/read.py:1864`.
* Theorems (`GldLineProps.v`): `C79_underground`, `C79_reads`, `C79_one_point`, `C79_positions_in_feet_refuted`, `C79_three_with_neutral_refuted`.
* How: Heron's formula and the choice of the longest side are shown to place the cables at a rotated copy of the drawing (turn of the isometry of C69); the case of four tests the distance to the first cable found.
* Status: **partial**. Proved: C79_underground, C79_reads. The distances of the spacing are kept for two and four cables and for three without a neutral. Refuted: they are kept in feet (C79_positions_in_feet_refuted); three cables with a neutral are put at wrong distances (C79_three_with_neutral_refuted).

### C80 GridLAB-D triplex lines

* Code: `ditto/readers/gridlabd/read.py:1639`, `ditto/readers/gridlabd/read.py:316`.
* Theorems (`GldLineProps.v`): `C80_triplex`, `C80_reads`, `C80_direct_matrix_refuted`, `C80_no_neutral_refuted`, `C80_neutral_data_refuted`, `C80_length_refuted`.
* How: The wires are followed through four passes over the heap; the matrix is computed symbolically for the eight sets of conductors, and the reduction is shown to solve the equations of the grounded neutral by field arithmetic over the complex numbers.
* Status: **partial**. Proved: C80_triplex, C80_reads, with the data that the wires really get: the neutral those of the second conductor, only the last wire the diameter and insulation, and resistances of the whole line. Refuted: C80_neutral_data_refuted, C80_length_refuted (the impedance per metre depends on the length), C80_no_neutral_refuted (lines without neutral cannot be read) and C80_direct_matrix_refuted, the last two universal.

### C81 OpenDSS text of the loads

* Code: `ditto/writers/opendss/write.py:1834`, `ditto/writers/opendss/write.py:2058`.
* Theorems (`DssTextProps.v`): `C81_loads`, `C81_file`, `C81_power`, `C81_missing_shape_refuted`, `C81_blank_name_refuted`, `C81_low_voltage_refuted`, `C81_unbalanced_refuted`, `C81_secondary_phase_refuted`, `C81_models_refuted`.
* How: DssTextSpec is a small reader of OpenDSS scripts (rows, words, comments, properties, terminals). DssTextModel builds the strings as the code does. Each text is shown to be the row of an element given by a list of optional fields, and rows are shown to be read back (row_read) by induction over rows, words and characters. Groups compose with C67_files.
* Status: **partial**. Proved: C81_loads (the text reads as the loads), C81_file (the same for every written file of the section, with C67), C81_power (a balanced wye load at 300 V or more keeps its power at each node). Refuted: names are not sanitized (C81_blank_name_refuted); a three phase load below 300 V becomes single phase (C81_low_voltage_refuted); unbalanced loads and the models of the other phases are lost (C81_unbalanced_refuted, C81_models_refuted); phases s1 and s2 are written as None (C81_secondary_phase_refuted); one load shape that was not written makes the section fail (C81_missing_shape_refuted, universal).

### C82 OpenDSS text of the lines

* Code: `ditto/writers/opendss/write.py:2785`, `ditto/writers/opendss/write.py:3014`.
* Theorems (`DssTextProps.v`): `C82_lines`, `C82_file`, `C82_points_refuted`, `C82_open_phase_refuted`, `C82_short_line_refuted`, `C82_no_class_refuted`.
* How: As C81, with the maximum of the ratings by induction and the nodes of the wires by induction over the wires.
* Status: **partial**. Proved: C82_lines, C82_file. Refuted: the file of intermediate points holds only those of the last line (C82_points_refuted, universal); a line open on one phase is written closed (C82_open_phase_refuted, universal); lines below one metre become one metre (C82_short_line_refuted, universal); a line without name class makes the section fail (C82_no_class_refuted, universal).

### C83 OpenDSS text of the capacitors

* Code: `ditto/writers/opendss/write.py:2532`, `ditto/writers/opendss/write.py:2721`.
* Theorems (`DssTextProps.v`): `C83_capacitors`, `C83_file`, `C83_two_phases_refuted`, `C83_no_phases_refuted`, `C83_admittance_refuted`.
* How: As C81.
* Status: **partial**. Proved: C83_capacitors, C83_file. Refuted: a wye capacitor on two phases becomes one between the phases (C83_two_phases_refuted); a capacitor without phases becomes one of three phases and 0 kvar (C83_no_phases_refuted); a control by admittance has type None (C83_admittance_refuted).

### C84 OpenDSS text of the transformers

* Code: `ditto/writers/opendss/write.py:408`, `ditto/writers/opendss/write.py:942`.
* Theorems (`DssTransProps.v`): `C84_transformers`, `C84_file`, `C84_grounded`, `C84_three_phase_ground_refuted`, `C84_three_windings_refuted`, `C84_default_resistances_refuted`, `C84_missing_end_refuted`, `C84_nameless_refuted`, `C84_delta_center_refuted`, `C84_taps_refuted`.
* How: As C81, with a reader of the properties of a winding (those between its wdg= and the next) and rows given by fields of head, windings and tail.
* Status: **partial**. Proved: C84_transformers, C84_file (every written file, with C67), C84_grounded (each phase at its node, the next conductor at ground). Refuted: a grounded three phase winding has its first phase at ground (C84_three_phase_ground_refuted, universal); three windings without center tap (C84_three_windings_refuted, universal); given resistances of a center tap are replaced by defaults (C84_default_resistances_refuted, universal); a transformer without an end makes the section fail (C84_missing_end_refuted, universal); without a name the script cannot be read (C84_nameless_refuted); delta primary of a center tap (C84_delta_center_refuted); writing taps fails without phase windings (C84_taps_refuted).

### C85 OpenDSS text of the regulators

* Code: `ditto/writers/opendss/write.py:2116`, `ditto/writers/opendss/write.py:2447`.
* Theorems (`DssRegProps.v`): `C85_regulators`, `C85_appended`, `C85_file`, `C85_noload_loss_refuted`, `C85_windings_refuted`, `C85_compensator_refuted`, `C85_emergency_refuted`, `C85_connections_refuted`, `C85_kvas_refuted`.
* How: As C81; the reader of scripts knows lists in parentheses and values after ' = '. The sets of settings are followed by induction over transformers, windings and phases; groups by induction over the regulators with both texts as state.
* Status: **partial**. Proved: C85_regulators, C85_appended (the created transformers are read after those of C84), C85_file. Refuted: one regulator with no-load losses makes the section fail (C85_noload_loss_refuted, universal), as does one to be created without windings or voltages (C85_windings_refuted, universal); settings of the connected transformer are looked up by the name of the regulator and lost (C85_compensator_refuted, universal); the emergency rating is a thousand times too large (C85_emergency_refuted, universal); a winding without a known connection gets that of the next (C85_connections_refuted, universal); without rated powers a stray value is written (C85_kvas_refuted).

### C86 OpenDSS text of the storage units, and what is read back

* Code: `ditto/writers/opendss/write.py:1006`, `ditto/writers/opendss/write.py:1180`, `ditto/readers/opendss/read.py:2603`, `ditto/readers/opendss/read.py:2748`.
* Theorems (`DssStoreProps.v`): `C86_storages`, `C86_file`, `C86_read_back`, `C86_energy_refuted`, `C86_name_refuted`, `C86_power_refuted`, `C86_reserve_refuted`, `C86_no_voltage_refuted`, `C86_zero_factor_refuted`, `C86_again_refuted`.
* How: As C81, with the square root as a parameter that is exact on squares; then the reader of the storage units on any element of the specification.
* Status: **partial**. Proved: C86_storages, C86_file (every written file, with C67), C86_read_back (what parse_storage makes of the element). Refuted: the name comes back with the name of its class (C86_name_refuted, universal) and the power as a thousandth without phases (C86_power_refuted, universal); energies and reserve come back as a thousandth (C86_energy_refuted, C86_reserve_refuted, universal); a storage unit without a voltage of its own makes the section fail even if its bus has one (C86_no_voltage_refuted, universal), as does a power factor of zero (C86_zero_factor_refuted, universal); written, read and written again the nodes become part of the name of the bus (C86_again_refuted).

### C87 OpenDSS text of the PV systems and their inverter controls

* Code: `ditto/writers/opendss/write.py:1236`, `ditto/writers/opendss/write.py:1604`.
* Theorems (`DssPvProps.v`): `C87_pvs`, `C87_group`, `C87_voltwatt_refuted`, `C87_combined_refuted`, `C87_schemes_refuted`, `C87_phases_refuted`, `C87_zero_factor_refuted`, `C87_unconnected_refuted`, `C87_missing_shape_refuted`.
* How: As C81; texts that read as elements whatever follows compose, so that the controls are handled by their kinds. The sets are folds over the group, characterised by membership.
* Status: **partial**. Proved: C87_pvs, C87_group (groups without volt-watt control; combined control for the last PV system). Refuted: one PV system with volt-watt control makes the file unreadable (C87_voltwatt_refuted, universal); combined control of all but the last PV system is lost (C87_combined_refuted, universal); the other control schemes of the data model are written without control and power factor (C87_schemes_refuted, universal); single phase PV systems of 300 V and more get three phases at one node (C87_phases_refuted, universal); the section fails for a zero power factor, without voltage and bus, and for data files without a load shape (C87_zero_factor_refuted, C87_unconnected_refuted, C87_missing_shape_refuted, universal).

### C88 OpenDSS load shapes: every series once, known to the loads that use it

* Code: `ditto/writers/opendss/write.py:1605`, `ditto/writers/opendss/write.py:1832`.
* Theorems (`DssShapeProps.v`): `C88_shapes`, `C88_used`, `C88_loads`, `C88_solve`, `C88_removed_refuted`, `C88_scaled_refuted`, `C88_memory_refuted`, `C88_reactive_refuted`, `C88_separate_refuted`, `C88_label_refuted`, `C88_again_refuted`.
* How: An invariant of the loop relates the tables to the series seen so far; the texts are the objects of C67 where a series whose data came before in its group has no text; the script is read as in C81.
* Status: **partial**. Proved: C88_shapes, C88_used, C88_loads, C88_solve (series with data file and label, without scale factor and reactive data). Refuted: with remove_loadshapes every network with a series fails (C88_removed_refuted, universal); series with a scale factor fail (C88_scaled_refuted, universal); a first series without data file or label fails (C88_memory_refuted, universal); data of the reactive power garble the data of the active power (C88_reactive_refuted); without separation of feeders the loads of a named feeder do not find their shape (C88_separate_refuted, universal); one label for two data files gives two shapes of one name (C88_label_refuted); a second write with the same writer loses shapes (C88_again_refuted).

### C89 Grouped nominal voltages: one value per voltage level

* Code: `ditto/modify/system_structure.py:523`.
* Theorems (`LevelProps.v`): `C89_levels`, `C89_groups`, `C89_succeeds`, `C89_volunteer_refuted`, `C89_source_refuted`, `C89_meshed_refuted`, `C89_no_node_refuted`.
* How: The components of the graph without transformers are the classes of a relation on the objects; the upstream search is C18; along a connection that is no transformer of a loop-free network the feeding transformer is the same, by induction over the walk.
* Status: **partial**. Proved: C89_levels (networks without loops, for all objects but one Node per level and the names popped before it), C89_groups (any network: each level takes what feeds one of its Nodes, the rest is unchanged, lines), C89_succeeds. Refuted: one Node of every level keeps its old voltage (C89_volunteer_refuted, universal: group.pop() removes it); nodes on the level of the source lose their voltage where the recursive variant gives the source voltage (C89_source_refuted); in a meshed network the result depends on the pop order (C89_meshed_refuted); a level without a Node raises KeyError (C89_no_node_refuted).

### C90 The GridLAB-D writer writes every element with its data

* Code: `ditto/writers/gridlabd/write.py:144`, `ditto/writers/gridlabd/write.py:185`, `ditto/writers/gridlabd/write.py:247`, `ditto/writers/gridlabd/write.py:483`, `ditto/writers/gridlabd/write.py:673`, `ditto/writers/gridlabd/write.py:838`.
* Theorems (`GlmWriteProps.v`): `C90_elements`, `C90_regulators`, `C90_delay_refuted`, `C90_limits_refuted`, `C90_switched_refuted`, `C90_phases_refuted`, `C90_joined_refuted`, `C90_open_refuted`, `C90_zip_refuted`.
* How: A small reader of rows decodes the file into objects; each part of the file decodes into the objects of its elements by induction, and the values of each object are computed by key.
* Status: **partial**. Proved: C90_elements (nodes, capacitors, loads, transformers, lines, after every history), C90_regulators (when no two regulators ever written join to the same text from_to). Refuted: the delay of a capacitor goes to time_dela (C90_delay_refuted, universal); its high limit is lost or None (C90_limits_refuted); switched-in capacitors are OPEN (C90_switched_refuted); loads and regulators have no phases (C90_phases_refuted, universal); two regulators with ends a_b, c and a, b_c (C90_joined_refuted); the state of switches is not written (C90_open_refuted, universal); ZIP loads with a share of zero stop the writing (C90_zip_refuted, universal).

### C91 GridLAB-D configurations: every reference leads to the data of the element

* Code: `ditto/writers/gridlabd/write.py:353`, `ditto/writers/gridlabd/write.py:534`, `ditto/writers/gridlabd/write.py:752`.
* Theorems (`GlmWriteProps.v`): `C91_transformers`, `C91_lines`, `C91_regulators`, `C91_shared`, `C91_shared_taps_refuted`, `C91_compensator_refuted`, `C91_reactance_refuted`, `C91_three_windings_refuted`, `C91_write_wires_refuted`.
* How: Invariant of the tables: each data set is found under one number, numbers are distinct, and the last name of an element leads to its data; sameness of item sets is an equivalence that keeps the values of every key.
* Status: **partial**. Proved for the first write of a process: C91_transformers, C91_lines (impedances as in the model, in ohm per meter, where GridLAB-D expects ohm per mile; negative pure reactances and repeated phases excluded), C91_regulators (taps if no other regulator has the same controls), C91_shared (after every history). Refuted: shared taps (C91_shared_taps_refuted); the compensator reactance is never written (C91_compensator_refuted, universal); 0+-2.0j (C91_reactance_refuted); three windings with three reactances raise (C91_three_windings_refuted, universal); write_wires=False gives no line configurations (C91_write_wires_refuted, universal).

### C92 GridLAB-D files do not depend on earlier writes

* Code: `ditto/writers/gridlabd/write.py:30`, `ditto/writers/gridlabd/write.py:42`.
* Theorems (`GlmWriteProps.v`): `C92_second_file_refuted`, `C92_elements_partial`, `C92_wrong_configuration_refuted`, `C92_two_of_a_name_refuted`.
* How: The decoded file of C90 for two states; a configuration is only written if the table does not have its data.
* Status: **partial**. Proved: C92_elements_partial (nodes, capacitors and loads, and all but the references of transformers and lines, are the same after every history). Refuted: a second file of the same network has no transformer or line configurations, though the transformers refer to them, and no regulator with two ends (C92_second_file_refuted, universal); a transformer of a second network refers to the configuration of another (C92_wrong_configuration_refuted); two regulator configurations of one name (C92_two_of_a_name_refuted).

### C93 GridLAB-D files of DiTTo can be read back

* Code: `ditto/writers/gridlabd/write.py:144`, `ditto/readers/gridlabd/read.py:495`, `ditto/formats/gridlabd/base.py:1`, `ditto/formats/gridlabd/gridlabd.py:15`.
* Theorems (`GlmBackProps.v`): `C93_elements_partial`, `C93_branches_refuted`, `C93_delay_refuted`, `C93_secondary_load_refuted`.
* How: The rows of a written file have one of few shapes (induction over the parts of the file); rows of these shapes are a file in the sense of the specification of the reader, so the theorem about the reader (C70_objects) applies, or the fold of the reader stops at the first glued header.
* Status: **partial**. Proved: C93_elements_partial (nodes, capacitors and loads of models without transformers, regulators and lines). Refuted for every other model, universally: an object transformer{, regulator{, overhead_line{, ... has no class in any schema without braces, so the reading stops (C93_branches_refuted); capacitors with a delay (C93_delay_refuted) and loads on the phase 1 of a secondary (C93_secondary_load_refuted), with the properties of the schema in /repo.

### C94 Nodes of a circuit read from OpenDSS

* Code: `ditto/readers/opendss/read.py:520`, `ditto/readers/opendss/read.py:589`, `ditto/readers/opendss/read.py:667`, `ditto/readers/opendss/read.py:703`.
* Theorems (`DssNodeProps.v`): `C94_nodes`, `C94_unnamed_load_refuted`, `C94_neutral_line_refuted`, `C94_others_refuted`, `C94_ground_refuted`, `C94_row_refuted`, `C94_case_refuted`.
* How: The reader is a fold over terminals; an invariant relates the table of buses to the terminals seen so far (keys, phases as sets, distinctness) and to the last rows of the file.
* Status: **partial**. Proved: C94_nodes for circuits whose terminals name nodes 1, 2, 3, or no nodes in elements with three phases, and files whose rows are blank or well formed. Refuted universally: a load with fewer phases that names no nodes stops the reading (C94_unnamed_load_refuted), so does a line with a neutral or without nodes (C94_neutral_line_refuted), buses of other elements only are no nodes (C94_others_refuted). Refuted by cases: the ground of a load (C94_ground_refuted), bad rows (C94_row_refuted), capital letters (C94_case_refuted).

### C95 Loads read from OpenDSS

* Code: `ditto/readers/opendss/read.py:2368`, `ditto/readers/opendss/read.py:2445`, `ditto/readers/opendss/read.py:2525`, `ditto/writers/opendss/write.py:1872`.
* Theorems (`DssRdLoadProps.v`): `C95_loads`, `C95_total`, `C95_names`, `C95_read_back`, `C95_unbalanced_refuted`, `C95_reactive_refuted`, `C95_ground_refuted`, `C95_delta_refuted`, `C95_name_refuted`.
* How: Reals: the power factor that belongs to kW and kvar determines the root, so the quotient is the kvar (with the sign); the rest by cases on terminals and by induction on the list of loads. The read-back theorem composes the specification of the written element (C81) with a contract for the engine.
* Status: **partial**. Proved: C95_loads, C95_total (the shares add up), C95_names, C95_read_back (composed with the writer of C81, under a contract about what OpenDSS reports). Refuted universally: different powers of the phases are lost (C95_unbalanced_refuted), a load without active power loses its reactive power (C95_reactive_refuted), a load from a phase to ground has half of its power on no phase (C95_ground_refuted), delta loads A-B and A-C are read as one (C95_delta_refuted), names are cut at "oad." (C95_name_refuted).

### C96 Capacitors read from OpenDSS

* Code: `ditto/readers/opendss/read.py:2159`, `ditto/readers/opendss/read.py:2191`, `ditto/readers/opendss/read.py:2308`, `ditto/writers/opendss/write.py:2536`.
* Theorems (`DssRdCapProps.v`): `C96_capacitors`, `C96_read_back`, `C96_two_phases_refuted`, `C96_unnamed_refuted`, `C96_steps_refuted`, `C96_mode_refuted`, `C96_element_refuted`.
* How: Found controls by induction on the list of controls; the phases by cases on the terminal and the number of steps; the list of capacitors by induction. The read-back theorem composes the specification of the written elements (C83) with a contract for the engine.
* Status: **partial**. Proved: C96_capacitors, C96_read_back (capacitors of one or three phases, composed with the writer of C83 under a contract about what OpenDSS reports). Refuted universally: a capacitor of two phases that was written comes back with twice its power (C96_two_phases_refuted), one of one phase whose terminal names no node gets three times its power (C96_unnamed_refuted), only the first step counts unless there are as many steps as phases (C96_steps_refuted), control modes by voltage, current and power are lost (C96_mode_refuted), the measured element comes back with a prefix (C96_element_refuted).

### C97 Power sources to and from OpenDSS

* Code: `ditto/writers/opendss/write.py:3870`, `ditto/readers/opendss/read.py:337`, `ditto/readers/opendss/read.py:451`, `ditto/readers/opendss/read.py:498`.
* Theorems (`DssSrcProps.v`): `C97_circuit`, `C97_sources`, `C97_read_back`, `C97_position_refuted`, `C97_row_refuted`, `C97_phases_refuted`, `C97_impedance_refuted`, `C97_second_refuted`, `C97_name_refuted`.
* How: The text of the circuit is shown to be a row of the OpenDSS grammar with the fields of the source; the reader by induction on the sources and on the rows of coordinates; the read-back theorem composes both.
* Status: **partial**. Proved: C97_circuit (one source), C97_sources, C97_read_back (composed, under a contract about what OpenDSS reports). Refuted: every source gets the position of the last row of the coordinates (C97_position_refuted), a last row without numbers stops the reading (C97_row_refuted), the phases are always A, B and C (C97_phases_refuted), a list of impedances that has not two items hides the others (C97_impedance_refuted), a second source is lost in the text of the first (C97_second_refuted), names that contain "_src" lose their last four characters (C97_name_refuted).

### C98 Nominal voltages of a circuit read from OpenDSS

* Code: `ditto/readers/opendss/read.py:259`, `ditto/readers/opendss/read.py:293`, `ditto/store.py:119`, `ditto/models/base.py:26`.
* Theorems (`DssVoltProps.v`): `C98_frame`, `C98_voltages`, `C98_namesake_refuted`, `C98_case_refuted`, `C98_winding_refuted`.
* How: The first loop by induction on the buses, each of which changes at most one object; the second by splitting it at the turn of an object: nodes do not change in it, so what an object finds under the name of its bus is the voltage set by the first loop.
* Status: **partial**. Proved: C98_frame (any names), C98_voltages (names that differ). Refuted: a node with a later namesake of another class has no voltage and the namesake has the one of the bus (C98_namesake_refuted), an element whose bus is not in lower case has none (C98_case_refuted), nor has a fourth winding (C98_winding_refuted).

### C99 Generators and feeders of a circuit read from OpenDSS

* Code: `ditto/readers/opendss/read.py:2761`, `ditto/readers/opendss/read.py:2826`, `ditto/readers/opendss/read.py:311`, `ditto/readers/opendss/read.py:326`.
* Theorems (`DssGenProps.v`): `C99_generators`, `C99_feeders`, `C99_phases_refuted`, `C99_disabled_refuted`, `C99_power_refuted`, `C99_transformer_refuted`, `C99_line_refuted`.
* How: The generators one by one; the feeders by induction on the lines from the end, keeping that the tables hold the first line of each feeder in the order of first appearance.
* Status: **partial**. Proved: C99_generators (name, bus, voltage, rating, power factor, limits, model), C99_feeders (one for each name, in order, with the substation of its first line). Refuted: the count of the phases is read as the name of one phase (C99_phases_refuted), disabled generators are read (C99_disabled_refuted), the active power is not (C99_power_refuted), each feeder gets its substation for a transformer (C99_transformer_refuted), and a line without four words stops the reading (C99_line_refuted).

### C100 Transformers of a circuit read from OpenDSS

* Code: `ditto/readers/opendss/read.py:1533`, `ditto/readers/opendss/read.py:1594`, `ditto/readers/opendss/read.py:1688`, `ditto/readers/opendss/read.py:1786`, `ditto/readers/opendss/read.py:1803`.
* Theorems (`DssRdTransProps.v`): `C100_transformers`, `C100_read_back`, `C100_phases_refuted`, `C100_ground_refuted`, `C100_ends_refuted`, `C100_control_refuted`.
* How: One transformer at a time with the variables of the loop as a parameter, the controls by induction from the end; what is read back by reading the specification of the writer (C84) as a report of OpenDSS.
* Status: **partial**. Proved: C100_transformers (two or three windings), C100_read_back (written with two windings, the first without ground). Refuted: every winding gets the phases of the first bus (C100_phases_refuted, universal); a grounded three-phase first winding comes back as one phase without a name (C100_ground_refuted, universal); a transformer with another number of buses takes the ends of the one before it, or stops the reading (C100_ends_refuted, universal); disabled controls count (C100_control_refuted, universal).

### C101 Regulators of a circuit read from OpenDSS

* Code: `ditto/readers/opendss/read.py:1835`, `ditto/readers/opendss/read.py:1876`, `ditto/readers/opendss/read.py:2030`, `ditto/readers/opendss/read.py:2054`, `ditto/readers/opendss/read.py:2130`.
* Theorems (`DssRdRegProps.v`): `C101_regulators`, `C101_read_back`, `C101_name_refuted`, `C101_band_refuted`, `C101_setpoint_refuted`, `C101_phase_refuted`, `C101_missing_refuted`, `C101_missing_later_refuted`, `C101_step_refuted`.
* How: One control at a time with the variables of the loop as a parameter, then induction; what is read back by reading the specification of the writer (C85) as a report of OpenDSS.
* Status: **partial**. Proved: C101_regulators (transformers with two or three windings), C101_read_back. Refuted: the name gets a prefix (C101_name_refuted, universal); the band comes back larger by a fifth (C101_band_refuted, universal); the set point never comes back and replaces the center (C101_setpoint_refuted, universal); phases B and C at a terminal with one node are lost (C101_phase_refuted, universal); a control whose transformer is not found stops the reading (C101_missing_refuted, C101_missing_later_refuted, universal); the lowest step is the highest (C101_step_refuted, universal).

### C102 Lines of a circuit read from OpenDSS

* Code: `ditto/readers/opendss/read.py:762`, `ditto/readers/opendss/read.py:779`, `ditto/readers/opendss/read.py:800`, `ditto/readers/opendss/read.py:867`, `ditto/readers/opendss/read.py:908`, `ditto/readers/opendss/read.py:933`, `ditto/readers/opendss/read.py:1091`.
* Theorems (`DssRdLineProps.v`): `C102_lines`, `C102_read_back`, `C102_lost_refuted`, `C102_breaker_refuted`, `C102_neutral_refuted`, `C102_short_refuted`, `C102_fuse_refuted`, `C102_name_refuted`, `C102_unwatched_refuted`.
* How: Matrices by induction on their rows and through the lemmas on triangular matrices; one line with the variables of the loop as a parameter, then induction on the lines; what is read back by reading the specification of the writer (C82) as a report of OpenDSS.
* Status: **partial**. Proved: C102_lines (lines without a geometry; with one, see C103), C102_read_back. Refuted: a line that is no switch and is open on all phases is lost (C102_lost_refuted, universal); breakers come back as switches (C102_breaker_refuted, universal); neutral wires are lost (C102_neutral_refuted, universal); lines shorter than one metre get one metre (C102_short_refuted, universal); the wires of fuses are neither fuses nor open (C102_fuse_refuted, universal); names with 'ine.' are cut (C102_name_refuted, universal); a fuse that watches nothing stops the reading (C102_unwatched_refuted, universal).

### C103 Wires of lines with a geometry, read from OpenDSS

* Code: `ditto/readers/opendss/read.py:1155`, `ditto/readers/opendss/read.py:1236`, `ditto/readers/opendss/read.py:1270`, `ditto/readers/opendss/read.py:1301`, `ditto/readers/opendss/read.py:1455`.
* Theorems (`DssRdGeoProps.v`): `C103_wires`, `C103_carried_refuted`, `C103_first_refuted`, `C103_cable`, `C103_neutral_refuted`, `C103_resistance_refuted`, `C103_cable_switch_refuted`, `C103_units_refuted`.
* How: The line without its geometry is read as in C102; the wires by induction over the loop with an invariant on the variables that survive.
* Status: **partial**. Proved: C103_wires (bare wires, any number), C103_cable (one cable; its neutral when it is the only cable of the circuit). Refuted: a wire whose data is not found gets that of the wire before it (C103_carried_refuted, universal) or stops the reading (C103_first_refuted, universal); a cable gets the neutral of the last cable (C103_neutral_refuted, universal); the resistance of the neutral is multiplied by the unit instead of divided (C103_resistance_refuted, universal); a switch of several wires that begins with a cable stops the reading (C103_cable_switch_refuted, universal), and so does wire data without a unit of resistance (C103_units_refuted, universal).

### C104 Sections read from CYME

* Code: `ditto/readers/cyme/read.py:1553`, `ditto/readers/cyme/read.py:1605`, `ditto/readers/cyme/read.py:1642`, `ditto/readers/cyme/read.py:1700`, `ditto/readers/cyme/read.py:1742`.
* Theorems (`CymeSecProps.v`): `C104_sections`, `C104_accepted`, `C104_refused`, `C104_none`, `C104_listed_refuted`, `C104_end_refuted`, `C104_header_refuted`, `C104_name_refuted`.
* How: Induction over the lines with an invariant on the state of the nested loops.
* Status: **partial**. Proved: C104_sections, C104_accepted (which lists of sections are accepted, both directions), C104_refused, C104_none. Refuted: the lists of sections of each feeder stay empty (C104_listed_refuted, universal); a file that ends with its last section stops the reading (C104_end_refuted, universal), and so does another header without a blank line between (C104_header_refuted, universal); the name of a network in the last column keeps its line ending (C104_name_refuted).

### C105 Nodes, head nodes and connections of subnetworks read from CYME

* Code: `ditto/readers/cyme/read.py:973`, `ditto/readers/cyme/read.py:1333`, `ditto/readers/cyme/read.py:1352`, `ditto/readers/cyme/read.py:1440`.
* Theorems (`CymeDefProps.v`, `CymeNodeProps.v`): `C105_nodes_without_format`, `C105_head_nodes_without_format`, `C105_connections_without_format`, `C105_nodes`, `C105_buses`, `C105_head_nodes`, `C105_connections`, `C105_head_refuted`, `C105_twice_refuted`, `C105_connection_refuted`.
* How: The parts of the file by the lemmas on parser_helper, then induction over the records.
* Status: **partial**. Proved: C105_nodes, C105_buses, C105_head_nodes, C105_connections, and for files without format lines C105_nodes_without_format, C105_head_nodes_without_format, C105_connections_without_format. Refuted: a head node is looked for in lower case while nodes keep their case (C105_head_refuted); a node that is listed twice becomes another node with a star (C105_twice_refuted); a node in the last column of a connection keeps its line ending and stops the reading (C105_connection_refuted).

### C106 Loads read from CYME

* Code: `ditto/readers/cyme/read.py:5563`, `ditto/readers/cyme/read.py:5601`, `ditto/readers/cyme/read.py:5683`, `ditto/readers/cyme/read.py:5739`, `ditto/readers/cyme/read.py:5795`, `ditto/readers/cyme/read.py:5864`.
* Theorems (`CymeLoadProps.v`): `C106_loads`, `C106_file`, `C106_connection_refuted`, `C106_reactive_refuted`, `C106_negative_refuted`, `C106_users_refuted`, `C106_class_refuted`, `C106_customers_refuted`, `C106_factor_refuted`.
* How: One round of the loop by cases; a group of adjacent rows by induction with an invariant on the load that is extended; all groups by induction.
* Status: **partial**. Proved: C106_loads (sections whose customer loads are adjacent), C106_file (the three parts of the file in any order). Refuted: a section with capital letters loses its connection (C106_connection_refuted, universal); a section with several customer loads without active power has no load (C106_reactive_refuted, universal); negative loads vanish (C106_negative_refuted, universal); the customers are those of the last customer load (C106_users_refuted, universal); customer loads that are not adjacent take the shares of another section (C106_class_refuted, universal); a power factor out of range gives the reactive power of the load before (C106_factor_refuted, universal); without the column of the customers the reading stops (C106_customers_refuted, universal).

### C107 The load file written for CYME

* Code: `ditto/writers/cyme/write.py:52`, `ditto/writers/cyme/write.py:4872`, `ditto/writers/cyme/write.py:4960`, `ditto/writers/cyme/write.py:5076`, `ditto/writers/cyme/write.py:5122`.
* Theorems (`CymeWrLoadProps.v`): `C107_lines`, `C107_network`, `C107_read_back_refuted`, `C107_empty_refuted`, `C107_shift_refuted`, `C107_stale_refuted`, `C107_collision_refuted`.
* How: One round of the loop by cases; all rounds by induction with one statement for each thing gathered; the file against the specification of load files of C106, and the reader of C106 run on it.
* Status: **partial**. Proved: C107_lines (the file), C107_network (sections, nodes, feeders, head nodes). Refuted: the file cannot be read back if any load has active power or is a center tap load (C107_read_back_refuted, universal), nor if there are no loads (C107_empty_refuted, universal); a load without name or element is written one column short (C107_shift_refuted, universal); a center tap load without phases is written with the power of the load before (C107_stale_refuted, universal); loads of different elements can share a section (C107_collision_refuted, universal).

### C108 A switch of each feeder becomes a recloser

* Code: `ditto/modify/system_structure.py:435`, `ditto/modify/system_structure.py:457`, `ditto/modify/system_structure.py:476`.
* Theorems (`RecloserProps.v`): `C108_reclosers`, `C108_only_switches`, `C108_branches_refuted`, `C108_depth_refuted`, `C108_voltage_refuted`.
* How: The walk by induction on the fuel, which the distance from the source in the search tree bounds; the feeders by induction over the objects.
* Status: **partial**. Proved: C108_reclosers (each feeder, along the first successors), C108_only_switches. Refuted: switches on other branches are never considered (C108_branches_refuted, universal); a switch before a load is counted twice (C108_depth_refuted, universal); a connection without a known voltage stops the function (C108_voltage_refuted, universal).

### C109 The head nodes of the feeders

* Code: `ditto/modify/system_structure.py:178`, `ditto/modify/system_structure.py:187`, `ditto/modify/system_structure.py:198`.
* Theorems (`HeadProps.v`): `C109_headnodes`, `C109_arrow_refuted`, `C109_substation_refuted`, `C109_signs_refuted`.
* How: Each text function against a relational specification that is shown to be functional; the list by induction.
* Status: **partial**. Proved: C109_headnodes. Refuted: the feeder a->b does not find the head node b->a that the documentation speaks of (C109_arrow_refuted, universal); one feeder with an unknown substation stops the function for all (C109_substation_refuted, universal), and so does a successor with two signs > (C109_signs_refuted, universal).

### C110 The positions of the loads

* Code: `ditto/modify/system_structure.py:275`, `ditto/modify/system_structure.py:316`.
* Theorems (`HeadProps.v`): `C110_only_loads`, `C110_positions_refuted`, `C110_nothing_refuted`.
* How: One object by cases; the list by induction with the objects done so far.
* Status: **partial**. Proved: C110_only_loads. Refuted: no load ever gets a position (C110_positions_refuted, universal in the model, the deltas and the attributes of the classes), and with the classes of the package nothing changes at all (C110_nothing_refuted, universal).

### C111 The sources of a CYME network

* Code: `ditto/readers/cyme/read.py:1015`, `ditto/readers/cyme/read.py:1085`, `ditto/readers/cyme/read.py:1168`, `ditto/readers/cyme/read.py:1175`, `ditto/readers/cyme/read.py:1230`.
* Theorems (`CymeSrcProps.v`): `C111_equivalents`, `C111_sources`, `C111_phases_refuted`, `C111_stale_refuted`, `C111_first_refuted`, `C111_equivalent_refuted`, `C111_substations_refuted`, `C111_power_refuted`.
* How: The search for the node by induction over the sections, the sources by induction over the rows with the surviving variables in the state.
* Status: **partial**. Proved: C111_equivalents, C111_sources. Refuted, each universally: no source has phases or an angle (C111_phases_refuted); a source at a node without sections is put at the node of the one before (C111_stale_refuted) or stops the reader (C111_first_refuted); a source without an equivalent stops the reader (C111_equivalent_refuted); sources of unknown substations are dropped with their equivalents (C111_substations_refuted); the power is in kVA (C111_power_refuted).

### C112 The capacitors of a CYME network

* Code: `ditto/readers/cyme/read.py:3830`, `ditto/readers/cyme/read.py:3954`, `ditto/readers/cyme/read.py:4048`, `ditto/readers/cyme/read.py:4093`.
* Theorems (`CymeCapProps.v`): `C112_capacitors`, `C112_monitor_refuted`, `C112_switched_refuted`, `C112_two_phases_refuted`, `C112_section_refuted`, `C112_empty_refuted`.
* How: Each attribute against a relation; the settings and the phases by induction.
* Status: **partial**. Proved: C112_capacitors. Refuted, each universally: no capacitor has a monitored phase or a position (C112_monitor_refuted); switched power beside fixed power is lost (C112_switched_refuted); the rating on two phases without a known connection is ignored (C112_two_phases_refuted); one capacitor on an unknown section stops the reader (C112_section_refuted), and so does an empty cell (C112_empty_refuted).

### C113 The switching devices of a CYME network

* Code: `ditto/readers/cyme/read.py:1442`, `ditto/readers/cyme/read.py:2397`, `ditto/readers/cyme/read.py:2496`, `ditto/readers/cyme/read.py:2524`.
* Theorems (`CymeLineProps.v`): `C113_devices`, `C113_load_refuted`, `C113_code_refuted`, `C113_merged_refuted`.
* How: The wires by induction over the phases with the counter in the state; the settings by induction.
* Status: **partial**. Proved: C113_devices. Refuted, each universally: a device at a node whose name contains load is dropped (C113_load_refuted); another code for the closed phases stops the reader (C113_code_refuted); a section with a line and a device becomes the device only (C113_merged_refuted).

### C114 The lines of a CYME network

* Code: `ditto/readers/cyme/read.py:3009`, `ditto/readers/cyme/read.py:3065`, `ditto/readers/cyme/read.py:3133`, `ditto/readers/cyme/read.py:3212`, `ditto/readers/cyme/read.py:3371`.
* Theorems (`CymeLineProps.v`): `C114_lines`, `C114_positions_refuted`, `C114_one_phase_refuted`, `C114_reactance_refuted`, `C114_order_refuted`.
* How: The matrices entry by entry against relations over the columns; the settings by induction with the surviving phases in the state.
* Status: **partial**. Proved: C114_lines, the matrix on two or three phases. Refuted, each universally: no wire has a position (C114_positions_refuted); on one phase the positive sequence impedance does not count (C114_one_phase_refuted) and the reactance of an unbalanced line is a thousandth (C114_reactance_refuted); the rows of two phases are sorted, the wires are not (C114_order_refuted). Not covered: lines given by conductors and a spacing, whose matrix is a parameter.

### C115 Every switching device gets an ampacity

* Code: `ditto/modify/system_structure.py:1117`, `ditto/modify/system_structure.py:1163`, `ditto/modify/system_structure.py:1187`, `ditto/modify/system_structure.py:1229`.
* Theorems (`AmpProps.v`): `C115_ampacities`, `C115_all_rated`, `C115_ratings_exist`, `C115_missing_refuted`, `C115_end_refuted`, `C115_unrated_refuted`.
* How: A relation for one device and a run over all, against which the loop is proved by induction over the fuel of the search and the devices.
* Status: **partial**. Proved for the runs that end without an error, for every sequence of draws: C115_ampacities, C115_all_rated, C115_ratings_exist. Refuted, each universally: a wire without ampacity (None) stops it (C115_missing_refuted); an unrated device at the end of a feeder stops it (C115_end_refuted); without any rating it stops or goes on for ever (C115_unrated_refuted).

### C116 A loop is cut in the middle of its section with the fewest phases

* Code: `ditto/network/network.py:487`, `ditto/network/network.py:499`, `ditto/network/network.py:525`.
* Theorems (`MidProps.v`): `C116_never_found_refuted`, `C116_delete_cycles_refuted`, `C116_unknown_phases_refuted`, `C116_answers`.
* How: The scan by induction over the nodes with its counters in the invariant; delete_cycles by the theorem of C23.
* Status: **partial**. False: on every loop of nodes with phases it raises NameError (C116_never_found_refuted), hence delete_cycles stops at any such loop (C116_delete_cycles_refuted); unknown phases stop it too (C116_unknown_phases_refuted). Proved: the only answer without an error is the empty one (C116_answers).

### C117 Transformers point to their loads and have the phase of their lines

* Code: `ditto/consistency/fix_transformer_phase_path.py:25`, `ditto/consistency/fix_transformer_phase_path.py:66`, `ditto/consistency/fix_transformer_phase_path.py:77`, `ditto/consistency/fix_transformer_phase_path.py:94`.
* Theorems (`TPathProps.v`): `C117_changes`, `C117_orientation`, `C117_phase`, `C117_at_load_refuted`, `C117_windings_refuted`, `C117_stale_refuted`.
* How: The walks up and down the path by induction, characterised by the decomposition of the path at the transformer; invariants over the loops over sources and loads.
* Status: **partial**. Proved: C117_changes; C117_orientation if some load is at least one edge below the transformer and no transformer of a substation is in between; C117_phase if the lines with a single phase agree. Refuted: a transformer right at its loads is never turned (C117_at_load_refuted); of several phase windings only the first is corrected (C117_windings_refuted); a line with another phase further up wins over the line next to the transformer (C117_stale_refuted).

### C118 Every regulator setting of CYME becomes its regulators

* Code: `ditto/readers/cyme/read.py:4981`, `ditto/readers/cyme/read.py:5096`, `ditto/readers/cyme/read.py:5189`, `ditto/readers/cyme/read.py:5238`.
* Theorems (`CymeVregProps.v`): `C118_regulators`, `C118_bandwidth_refuted`, `C118_lost_bandwidth_refuted`, `C118_voltage_refuted`, `C118_code_refuted`, `C118_position_refuted`.
* How: A relation between a setting and its regulators, proved case by case of the cells and lifted by induction over the settings.
* Status: **partial**. Proved with the values the code really takes: C118_regulators. Refuted, each universally: the own bandwidth of A or B does not count if the equipment has one (C118_bandwidth_refuted); without one in the equipment, B and C lose theirs (C118_lost_bandwidth_refuted); the voltage is kept in kV (C118_voltage_refuted); the phase code 7 makes one regulator on phase 7 (C118_code_refuted); no regulator has a position (C118_position_refuted).

### C119 Every network equivalent of CYME becomes its lines and loads

* Code: `ditto/readers/cyme/read.py:5299`, `ditto/readers/cyme/read.py:5434`, `ditto/readers/cyme/read.py:5460`, `ditto/readers/cyme/read.py:5515`.
* Theorems (`CymeEquivProps.v`): `C119_equivalents`, `C119_far_load_refuted`, `C119_active_refuted`, `C119_phase_refuted`, `C119_empty_refuted`.
* How: A relation between a setting and its objects, proved case by case and lifted by induction over the settings.
* Status: **partial**. Proved with the tests the code really makes: C119_equivalents. Refuted, each universally: the load at the far end depends on the reactive power of the near end (C119_far_load_refuted); active power alone makes no load (C119_active_refuted); the load of a phase without resistance is lost (C119_phase_refuted); an empty cell among the lengths stops the reader (C119_empty_refuted).

### C120 Every transformer setting of CYME becomes its transformer

* Code: `ditto/readers/cyme/read.py:4166`, `ditto/readers/cyme/read.py:4576`, `ditto/readers/cyme/read.py:4744`, `ditto/readers/cyme/read.py:4777`.
* Theorems (`CymeTrafoProps.v`): `C120_transformers`, `C120_inverse`, `C120_product_refuted`, `C120_auto_refuted`, `C120_three_power_refuted`, `C120_index_refuted`.
* How: A relation between a setting and its transformer, the impedance characterised by its modulus and ratio; induction over the settings.
* Status: **partial**. Proved with the impedance the code really computes: C120_transformers, over the reals instead of floats; T_inv is the inverse (C120_inverse). Refuted, each universally: the arrays are multiplied entry by entry, so that the positive sequence does not count (C120_product_refuted); an autotransformer has no windings (C120_auto_refuted); three windings have no power (C120_three_power_refuted); no connection index (C120_index_refuted).

### C121 A transformer with a load tap changer gets its regulator

* Code: `ditto/readers/cyme/read.py:4777`, `ditto/readers/cyme/read.py:4832`.
* Theorems (`CymeTrafoProps.v`): `C121_ltc`, `C121_zero_refuted`, `C121_steps_refuted`.
* How: From the relation of C120.
* Status: **partial**. Proved for the flag as a text that is empty or not: C121_ltc. Refuted, each universally: the flag 0 makes a regulator too (C121_zero_refuted); the highest and lowest steps are swapped (C121_steps_refuted).

### C122 Every photovoltaic setting of CYME becomes its photovoltaic

* Code: `ditto/readers/cyme/read.py:6158`, `ditto/readers/cyme/read.py:6287`, `ditto/readers/cyme/read.py:6311`, `ditto/readers/cyme/read.py:6363`.
* Theorems (`CymeDgProps.v`): `C122_photovoltaics`, `C122_two_refuted`, `C122_generator_refuted`, `C122_curves_refuted`.
* How: The loops over the tables as folds that act on one position, projected to each attribute; the last row by reverse induction.
* Status: **partial**. Proved without the curves: C122_photovoltaics. Refuted, each universally: a second photovoltaic on a section stops the reader (C122_two_refuted); so does a generation model of any other device (C122_generator_refuted); control curves and the least power factor are never set (C122_curves_refuted).

### C123 Every battery setting of CYME becomes its storage

* Code: `ditto/readers/cyme/read.py:6202`, `ditto/readers/cyme/read.py:6245`, `ditto/readers/cyme/read.py:6262`, `ditto/readers/cyme/read.py:6344`.
* Theorems (`CymeDgProps.v`): `C123_storages`, `C123_efficiency_refuted`, `C123_reserve_refuted`.
* How: As C122.
* Status: **partial**. Proved without the efficiencies: C123_storages. Refuted, each universally: the efficiencies are never set (C123_efficiency_refuted); the reserve is the largest state of charge (C123_reserve_refuted).

### C124 Distances from the substation are the lengths of shortest ways

* Code: `ditto/metrics/network_analysis.py:2177`, `ditto/metrics/network_analysis.py:2209`, `ditto/metrics/network_analysis.py:2241`, `ditto/metrics/network_analysis.py:2274`, `ditto/metrics/network_analysis.py:2299`.
* Theorems (`DistProps.v`): `C124_distance`, `C124_furthest`, `C124_averages`, `C124_completed`, `C124_completed_refuted`, `C124_leaves`, `C124_leaves_refuted`, `C124_unknown_refuted`, `C124_object_refuted`.
* How: Relaxation as a recursive minimum; every walk shortens to one without repeated nodes, so as many rounds as nodes give the least length over all walks.
* Status: **partial**. Proved: C124_distance, C124_furthest, C124_averages, C124_completed and, for the search over the nodes of one edge, C124_leaves. Refuted, each universally: a way to the source over an edge without a length stops the metrics (C124_completed_refuted); a line of unknown length is no way and stops the search of the furthest node (C124_unknown_refuted); loads and capacitors are one metre behind their node (C124_object_refuted); without a node of one edge the search over these stops (C124_leaves_refuted).

### C125 Nodes take the voltage of their transformer

* Code: `ditto/store.py:186`, `ditto/network/network.py:349`.
* Theorems (`NodeVoltProps.v`): `C125_voltages`, `C125_unconnected_refuted`, `C125_unnamed_refuted`.
* How: The loop writes one position each, from values that do not change; C18 gives the transformer.
* Status: **partial**. Proved for connected models whose objects have names: C125_voltages. Refuted, each universally: a named node that is not connected to the source stops it (C125_unconnected_refuted); so does an object without a name, if some node has no transformer above (C125_unnamed_refuted).

### C126 Impedances between two nodes are those of the lines on the way

* Code: `ditto/metrics/network_analysis.py:2119`, `ditto/metrics/network_analysis.py:2137`, `ditto/metrics/network_analysis.py:2158`.
* Theorems (`PathZProps.v`): `C126_impedances`, `C126_no_way`, `C126_neutral_refuted`.
* How: The mapping by reverse induction over the objects; the way by induction; the entries of the sequence matrix from C07.
* Status: **partial**. Proved for matrices of up to three phases and distinct names: C126_impedances (a line without a matrix is left out), C126_no_way. Refuted universally: a line with a matrix of four rows on the way stops it (C126_neutral_refuted).

### C127 Lines of Windmil files have the wires of their phases

* Code: `ditto/readers/windmil_ascii/read.py:99`, `ditto/readers/windmil_ascii/read.py:226`, `ditto/readers/windmil_ascii/read.py:267`.
* Theorems (`WmLineProps.v`): `C127_lines`, `C127_reads`, `C127_neutrals_refuted`, `C127_order_refuted`, `C127_device_open_refuted`, `C127_underground_refuted`.
* How: An invariant of the shared table: the places of the letters and then only the place of the neutral.
* Status: **partial**. Proved for at most one neutral per line, for every history: C127_lines, and C127_reads (it finishes). Refuted: a first line with two neutrals stops the reader (C127_neutrals_refuted, universally), but not after a line of the same phases with one (C127_order_refuted); devices are open exactly when the file says closed (C127_device_open_refuted); cables have the ohms per mile of the neutral multiplied by 3.28 and the outer diameter for the thickness of the insulation (C127_underground_refuted).

### C128 Loads of Windmil files are read at their nodes

* Code: `ditto/readers/windmil_ascii/read.py:361`, `ditto/readers/windmil_ascii/read.py:407`.
* Theorems (`WmLoadProps.v`): `C128_loads`, `C128_end_refuted`, `C128_watts_refuted`.
* How: What the lines add to the table comes after the places of the letters; induction over nodes and loads.
* Status: **partial**. Proved for nodes with an outgoing edge, after any lines: C128_loads. Refuted universally: loads at a node without one are lost (C128_end_refuted); powers stay in kW (C128_watts_refuted).

### C129 Capacitors of Windmil files are read

* Code: `ditto/readers/windmil_ascii/read.py:428`, `ditto/readers/windmil_ascii/read.py:434`.
* Theorems (`WmLoadProps.v`): `C129_capacitors_refuted`.
* How: Case analysis of every node; the keys of a load are fixed by wm_reader.py.
* Status: **partial**. Refuted for every file: the loop walks the loads of the node, so no capacitor is ever made, and a node with capacitors and an outgoing edge stops the reader with a KeyError (C129_capacitors_refuted).

### C130 Transformers of Windmil files keep impedance and voltages

* Code: `ditto/readers/windmil_ascii/read.py:480`, `ditto/readers/windmil_ascii/read.py:497`, `ditto/readers/windmil_ascii/read.py:540`.
* Theorems (`WmTrafoProps.v`): `C130_transformers`, `C130_tertiary_refuted`, `C130_reactances_refuted`.
* How: Algebra of square roots for the impedance; induction over windings and edges.
* Status: **partial**. Proved: C130_transformers, whichever kind is picked. Refuted universally: a tertiary named by a string stops the reader (C130_tertiary_refuted); three windings have one reactance (C130_reactances_refuted).

### C131 Edges of Windmil graphs take the voltage from above

* Code: `ditto/readers/windmil_ascii/wm_reader.py:112`, `ditto/readers/windmil_ascii/wm_reader.py:117`, `ditto/readers/windmil_ascii/wm_reader.py:124`.
* Theorems (`WmKvProps.v`): `C131_voltages`, `C131_unique`, `C131_finishes`, `C131_loop_refuted`.
* How: Invariant: values are those of the file or nearest ones; induction over the recursion and over the edges.
* Status: **partial**. Proved: C131_voltages, C131_unique, C131_finishes (if every way up ends). Refuted: on a loop of edges without a voltage it does not finish (C131_loop_refuted).

### C132 Regulators of Windmil files

* Code: `ditto/readers/windmil_ascii/read.py:564`, `ditto/readers/windmil_ascii/read.py:622`, `ditto/readers/windmil_ascii/read.py:669`.
* Theorems (`WmRegProps.v`): `C132_regulators`, `C132_substation_refuted`, `C132_voltage_refuted`, `C132_phase_refuted`, `C132_tap_refuted`.
* How: Case analysis of the code per winding and phase; induction over the edges.
* Status: **partial**. Proved: C132_regulators (ends, names, bandwidth, windings, power; settings for phases A, AB, ABC). Refuted universally: no regulator below a substation is read (C132_substation_refuted); below a transformer it has the input voltage (C132_voltage_refuted); phase C alone has the settings of phase A (C132_phase_refuted); the tap goes the wrong way (C132_tap_refuted).

### C133 The convert command writes what was read, or nothing

* Code: `ditto/converter.py:106`, `ditto/converter.py:232`, `ditto/cli.py:160`.
* Theorems (`ConvProps.v`): `C133_convert`, `C133_refused`, `C133_done`, `C133_json_kept`, `C133_again`, `C133_json_refuted`, `C133_options_refuted`, `C133_warehouse_refuted`.
* How: The command as a function from options to what is written and an outcome; case analysis of each place of failure.
* Status: **partial**. Proved: C133_convert, C133_refused, C133_done, C133_json_kept, C133_again. Refuted universally: --from json never reads a JSON file written by DiTTo (C133_json_refuted); with a configuration file the options for default values have no effect (C133_options_refuted); --warehouse is not used (C133_warehouse_refuted).

### C134 The metric command exports the metrics of the model read

* Code: `ditto/metric_computer.py:44`, `ditto/metric_computer.py:64`, `ditto/cli.py:101`.
* Theorems (`ConvProps.v`): `C134_metric`, `C134_format_refuted`.
* How: Case analysis of each place of failure.
* Status: **partial**. Proved: C134_metric. Refuted: with another format the command succeeds and exports nothing (C134_format_refuted).

### C135 The distance of points is a metric

* Code: `ditto/readers/abstract_reader.py:344`, `ditto/readers/abstract_reader.py:360`, `ditto/readers/abstract_reader.py:365`.
* Theorems (`PtDistProps.v`): `C135_defined`, `C135_metric`, `C135_axis`, `C135_right_angle`.
* How: Induction over the coordinates; Minkowski's inequality in the plane for the step.
* Status: **proved**. Proved: C135_defined, C135_metric, C135_axis, C135_right_angle, over real numbers.

### C136 Impedance matrix of CYME lines given by a spacing

* Code: `ditto/readers/cyme/read.py:3514`, `ditto/readers/cyme/read.py:3573`, `ditto/readers/cyme/read.py:3695`, `ditto/readers/cyme/read.py:3713`.
* Theorems (`SpcProps.v`): `C136_matrix`, `C136_exists`, `C136_symmetric`, `C136_neutral_refuted`, `C136_position_refuted`, `C136_two_neutrals_refuted`, `C136_no_places_refuted`.
* How: The distance matrix in closed form, then the result on the primitive matrix (C05).
* Status: **partial**. Proved: C136_matrix, C136_exists, C136_symmetric for at most one neutral, with the phases at the places of their number in the line. Refuted universally: with a neutral there is one row too many (C136_neutral_refuted); on lines with the phases A and C the place of C is not used (C136_position_refuted); with places for two neutrals there is always an exception (C136_two_neutrals_refuted); without places the matrix has one row (C136_no_places_refuted). The rows for each phase hold without a neutral.

### C137 Phase impedances of a list of wires

* Code: `ditto/readers/abstract_reader.py:534`, `ditto/readers/abstract_reader.py:575`, `ditto/readers/abstract_reader.py:598`, `ditto/readers/abstract_reader.py:607`, `ditto/readers/abstract_reader.py:715`, `ditto/readers/abstract_reader.py:745`.
* Theorems (`PhZProps.v`): `C137_overhead`, `C137_resistance_refuted`, `C137_four_refuted`, `C137_defaults_refuted`, `C137_underground`, `C137_underground_exists`.
* How: The distance matrices in closed form, then the results on the primitive matrix and its reduction (C05).
* Status: **partial**. Proved: C137_overhead (mutual impedances and self reactances, not for four wires), C137_underground (the grounded reduction with concentric neutrals), C137_underground_exists. Refuted universally: resistances per foot are used as if per mile (C137_resistance_refuted); four overhead wires, or kron_reduce, always raise (C137_four_refuted); missing values of overhead wires are a NameError (C137_defaults_refuted).

### C138 Impedance matrix of Windmil lines

* Code: `ditto/readers/windmil_ascii/read.py:268`, `ditto/readers/windmil_ascii/read.py:283`, `ditto/readers/windmil_ascii/read.py:337`, `ditto/readers/windmil_ascii/read.py:344`, `ditto/readers/windmil_ascii/read.py:356`.
* Theorems (`WmZProps.v`): `C138_no_neutral`, `C138_unit_refuted`, `C138_neutral_refuted`, `C138_any_neutral_refuted`.
* How: Induction over the loop: every prefix of the wires has a matrix; then the results on the primitive matrix and its reduction (C05).
* Status: **partial**. Proved: C138_no_neutral for lines without a neutral (every entry). Refuted universally: the resistance of the ground is not per meter (C138_unit_refuted); with a neutral and three wires or more there is always an exception (C138_neutral_refuted), and with numpy's products of empty arrays for every line with a neutral (C138_any_neutral_refuted).

### C139 Files, nodes and sources of Windmil projects

* Code: `ditto/readers/windmil_ascii/wm_reader.py:21`, `ditto/readers/windmil_ascii/wm_reader.py:53`, `ditto/readers/windmil_ascii/wm_reader.py:88`, `ditto/readers/windmil_ascii/read.py:48`, `ditto/readers/windmil_ascii/read.py:87`, `ditto/readers/windmil_ascii/read.py:600`.
* Theorems (`WmFileProps.v`): `C139_tables`, `C139_nodes`, `C139_sources`, `C139_sources_read`, `C139_voltage`, `C139_connection_refuted`.
* How: Induction over the listing from its end; no two kinds share an extension. Induction over nodes and edges.
* Status: **partial**. Proved: C139_tables, C139_nodes, C139_sources, C139_sources_read, C139_voltage (nominal voltage within one part in ten thousand of the voltage between the phases). Refuted universally: the connection of a source other than W is always delta (C139_connection_refuted). The making of the graph from the tables is a parameter.

### C140 Buses, switches and sources of the ePhasor tables

* Code: `ditto/writers/ephasor/write.py:138`, `ditto/writers/ephasor/write.py:883`, `ditto/writers/ephasor/write.py:940`, `ditto/writers/ephasor/write.py:969`, `ditto/writers/ephasor/write.py:1030`.
* Theorems (`EphProps.v`): `C140_bus`, `C140_angle_refuted`, `C140_twice_refuted`, `C140_switches`, `C140_switches_written`, `C140_sources`, `C140_sources_written`.
* How: Closed forms of the columns by induction over phases and nodes; lengths of the columns for the refutation.
* Status: **partial**. Proved: C140_bus for nodes whose phases are in the order of the alphabet, C140_switches, C140_switches_written, C140_sources, C140_sources_written. Refuted universally: two phases out of order have the angle of each other (C140_angle_refuted); a node with a phase twice stops the writer, whatever the other nodes (C140_twice_refuted). The impedance columns of sources, which are always empty, are left out.

### C141 Every load has its row in the ePhasor table

* Code: `ditto/writers/ephasor/write.py:1123`, `ditto/writers/ephasor/write.py:1128`, `ditto/writers/ephasor/write.py:1147`, `ditto/writers/ephasor/write.py:1151`.
* Theorems (`EphLoadProps.v`): `C141_rows`, `C141_overwritten_refuted`.
* How: Induction over the groups of loads with the next row as the invariant.
* Status: **partial**. Proved: C141_rows, when the phases of a load follow each other. Refuted for all names: when another load stands between two phases of a load, the load after them is written over it and a row stays empty (C141_overwritten_refuted).

## 6. Where the code does not do what the property says

Each is a theorem about the model with a concrete witness (`..._refuted`), found while trying to prove the full statement.

* `C115_missing_refuted`: One device with a wire without any ampacity stops it.
* `C115_end_refuted`: One unrated device at the end of a feeder stops it, though there is a line on its other side.
* `C115_unrated_refuted`: Without any rating it does not end, whatever is drawn: it stops with an error or goes on for ever.
* `C35_second_run_refuted`: The full statement fails on a model in which phase loads are dropped already, for instance by an earlier run: their power is counted again. Here the active power of one load goes from 6 to 9.
* `C25_same_name_refuted`: Loads that share a name are not told apart: one of them fed is enough.
* `C26_unconnected_refuted`: An unconnected load is no node; networkx takes its name for a collection of target nodes.
* `C27_parallel_lines_refuted`: Two lines between the same nodes are one edge: the loop they form is not seen.
* `C28_contained_refuted`: Containment is not enough: a low side with fewer phases than the high side is rejected.
* `C29_two_transformers_refuted`: Two distribution transformers in series are accepted.
* `C29_load_at_transformer_refuted`: A load right at the low side of the only transformer, all phases alike, is rejected.
* `C29_open_tie_refuted`: With an open tie switch the network is not radial before it is opened; a line off the search tree carries no attributes and is not looked at: more conductors downstream than upstream pass.
* `C30_never_decrease_refuted`: A larger second winding is lowered to the size chosen from the first.
* `C30_two_in_series_refuted`: A load behind two transformers counts for neither.
* `C133_json_refuted`: Refutation of "--from json reads the JSON files that DiTTo writes": the reader, which needs an argument input_file, never gets it. A file that does not end in .json is not implemented, and of one that does the contents are taken for the arguments.
* `C133_options_refuted`: Refutation of "the options --default_values and --remove_opendss_default_values have an effect": with a configuration file the command does the same whatever they are.
* `C133_warehouse_refuted`: Refutation of "--warehouse gives the Synergi warehouse file": a reader that wants the file of the option never gets it, unless its name is warehouse.mdb.
* `C134_format_refuted`: Refutation of "an unknown format of the metrics is refused": the command is done, and nothing is exported.
* `C33_zero_average_refuted`: An average of exactly 0 counts as a missing coordinate, so a connected node can stay without one.
* `C33_duplicate_names_refuted`: Two objects with one name: the one with coordinates is moved because the other has none.
* `C112_monitor_refuted`: No capacitor has a monitored phase or a position, whatever the settings say.
* `C112_switched_refuted`: The switched power is lost where there is fixed power.
* `C112_two_phases_refuted`: The rating of a capacitor on two phases without a known connection is ignored.
* `C112_section_refuted`: One capacitor on an unknown section stops the reader.
* `C112_empty_refuted`: So does an empty cell among the fixed powers.
* `C122_two_refuted`: A second photovoltaic of a section, whose key ends in a star, stops the reader.
* `C122_generator_refuted`: So does a generation model of any device that is not a photovoltaic, such as a battery.
* `C122_curves_refuted`: No photovoltaic gets its control curve nor its least power factor, whatever the files say.
* `C123_efficiency_refuted`: No storage gets the efficiencies of its battery.
* `C123_reserve_refuted`: The reserve is the largest state of charge and not the least one.
* `C119_far_load_refuted`: The load at the far end is lost if the one at the near end has no reactive power.
* `C119_active_refuted`: Active power alone is lost as well.
* `C119_phase_refuted`: The load of a phase without resistance is lost: no load has it.
* `C119_empty_refuted`: An empty cell among the lengths stops the reader, even of a phase that is not there.
* `C113_load_refuted`: A device or line at a node whose name contains "load" is dropped.
* `C113_code_refuted`: One device with another code for its closed phases stops the reader.
* `C113_merged_refuted`: A section with a line and a device becomes the device only: the impedance of the line is lost.
* `C114_positions_refuted`: No wire has a position, whatever the spacing says.
* `C114_one_phase_refuted`: On one phase the positive sequence impedance of a balanced line does not count.
* `C114_reactance_refuted`: The reactance of an unbalanced line on one phase is a thousandth of what its table says.
* `C114_order_refuted`: The rows of the matrix of two phases are those of the sorted phases, not those of the wires.
* `C106_connection_refuted`: A section whose id has capital letters has no connection: it is looked for in lower case among the ids of the file.
* `C106_reactive_refuted`: A section with several customer loads and no active power has no load, whatever its reactive power is.
* `C106_negative_refuted`: A generator that is given as a load of a section (both powers negative) vanishes.
* `C106_users_refuted`: The customers of a section are those of its last customer load, not all of them.
* `C106_class_refuted`: Rows of one section that are not adjacent: the later one has the shares of another section's class.
* `C106_customers_refuted`: Without the column of the number of customers every load stops the reading.
* `C106_factor_refuted`: A power factor outside of 0 to 100 gives the load the reactive power of the load before it.
* `C39_z_secondary_refuted`: Pairs with a Z secondary, which the reader can produce, cannot be written.
* `C42_different_values_refuted`: Fields that differ and are neither phases nor zero are blanked.
* `C42_three_phase_refuted`: A three-phase record loses its phases when merged with a single-phase one.
* `C44_other_objects_refuted`: After any update every other object, and every object whose "new" header is one it had, can no longer be recognised: TypeError on every line.
* `C56_smallest_refuted`: Despite the name the perimeter is not always the smallest: 210 = 7 x 30, but 14 x 15 is smaller.
* `C61_settings_code_refuted`: The code of a delta-delta transformer in the settings is the code of a star-delta transformer in the table.
* `C105_head_refuted`: The head node of a feeder names no node when its name has capital letters: nodes keep them, head nodes do not.
* `C105_twice_refuted`: A node that is listed twice becomes a second node with another name.
* `C105_connection_refuted`: A connection whose node is in the last column is not found: the line ending is part of the name.
* `C41_equals_sign_refuted`: A row with "=" in one of its cells is skipped without notice.
* `C41_no_blank_line_refuted`: Without a blank line in between, the rows of the next section are taken for rows of this one and its header is lost.
* `C41_repeated_section_refuted`: A repeated section: the keys are unique in one call only, and the later section replaces records of the earlier one.
* `C60_three_part_version_refuted`: A version number of three parts ends the reading with a NameError.
* `C104_listed_refuted`: The documentation says that feeder_section_mapping has the sections of a network; it never has any.
* `C104_end_refuted`: A section part that reaches the end of the file without a short line cannot be read, whatever it says.
* `C104_header_refuted`: The header of the next part, without an empty line before it, makes a section part with two columns or more unreadable.
* `C104_name_refuted`: The feeder of the sections is named with the line ending when the id of the network is its last column.
* `C111_phases_refuted`: No source has phases or an angle, whatever the tables say.
* `C111_stale_refuted`: A source equivalent at a node without sections becomes a second source at the node of the one before.
* `C111_first_refuted`: The first one at such a node stops the reader.
* `C111_equivalent_refuted`: A source of a known substation without a source equivalent stops the reader.
* `C111_substations_refuted`: Sources of substations that are not in the equipment file are dropped, and their source equivalents with them.
* `C111_power_refuted`: The power of a source is a thousandth of that of its substation in volt-amperes.
* `C120_product_refuted`: The arrays are multiplied entry by entry: the positive sequence impedance does not count, where the matrix product would give a third of the sum of all three.
* `C120_auto_refuted`: An autotransformer or a phase shifter becomes a transformer without windings.
* `C120_three_power_refuted`: The windings of a transformer with three windings have no rated power, as this is not among the settings.
* `C120_index_refuted`: No transformer has a connection index, whatever the section says.
* `C121_zero_refuted`: The cell says 0 for a transformer without a load tap changer: it gets a regulator nevertheless.
* `C121_steps_refuted`: The most it can lower is the highest step, the most it can raise the lowest one.
* `C118_bandwidth_refuted`: Its own bandwidth does not count for the phases A and B if the equipment has one.
* `C118_lost_bandwidth_refuted`: The bandwidths of the phases B and C are lost if the equipment has none.
* `C118_voltage_refuted`: The voltage of a winding is in kilovolts, that of other objects in volts.
* `C118_code_refuted`: The code of three phases becomes one regulator on a phase named after the code.
* `C118_position_refuted`: No regulator has a position, whatever the settings say.
* `C107_read_back_refuted`: A load file that was written cannot be read: a load with active power stops the reader (there is no column with the number of customers), and so does a center tap load (it has no values).
* `C107_empty_refuted`: Nor can the file of a model without loads.
* `C107_shift_refuted`: A load without a name or an element is written without its first two cells: its type stands in the column of the device.
* `C107_stale_refuted`: A center tap load without phases is written with the power of the load before it.
* `C107_collision_refuted`: Loads of different elements can have the same section.
* `C124_completed_refuted`: C124: a way over an edge that has no length stops the metrics.
* `C124_leaves_refuted`: C124: without a node of one edge it stops.
* `C124_unknown_refuted`: C124: a line whose length is not known is not a way: the node behind it stops the search of the furthest node.
* `C124_object_refuted`: C124: a load or a capacitor, whose edge has no length, is one metre behind the node where it stands.
* `C65_capture_refuted`: The full statement fails: a wire is named A_1; then two different wires are named A, and the second of them gets the name A_1, whose definition is overwritten. The first line now uses a wire that is not its own.
* `C65_cable_refuted`: A wire and a cable of the same name: the underground line refers to the wire.
* `C67_capital_refuted`: Not every section can be written: the second feeder of a substation whose name has a capital.
* `C67_key_refuted`: Files do not only hold the objects of their feeder: "a_b" and "c", "a" and "b_c" share their texts.
* `C67_folder_refuted`: Objects are lost when two names are written alike; the remaining file is redirected twice.
* `C67_unnamed_refuted`: A feeder whose only object of the section has no name stops the writer, whatever the rest of the network.
* `C99_phases_refuted`: The count of the phases is read as the name of one: a generator of three phases has phase C only, one of two has B, and one of one phase has A, whatever node it is connected to.
* `C99_disabled_refuted`: Unlike other elements, a generator that is disabled is read like one that is not.
* `C99_power_refuted`: The active power of a generator is not read.
* `C99_transformer_refuted`: The fourth word of a line, the transformer, is not used: every feeder gets its substation in its place.
* `C99_line_refuted`: A line that has not four words, an empty one at the end of the file for example, stops the reading.
* `C66_third_refuted`: The full statement fails: the third variant of a class gets the line code of the second variant.
* `C66_other_feeder_refuted`: A line without a class, in the second of two feeders, refers to a line code that is defined in the file of the first feeder only.
* `C66_two_definitions_refuted`: Two feeders have files that define the same line code with different data.
* `C68_feeder_master_refuted`: The master file of a feeder is not complete: its lines refer to geometries it does not redirect to.
* `C68_second_refuted`: A writer used a second time redirects twice.
* `C45_distinct_refuted`: In general distinct nodes can get the same bus name.
* `C46_neutral_refuted`: The neutral is written as 0, which the reader does not know.
* `C94_unnamed_load_refuted`: A load with one or two phases whose terminal names no nodes stops the reading, whatever the rest of the circuit is. OpenDSS connects such a load to the first nodes of the bus.
* `C94_neutral_line_refuted`: A line stops the reading when a node of it is not 1, 2 or 3, for example a neutral 0 or 4, or when it has fewer than three phases and names no nodes.
* `C94_others_refuted`: A bus that no line, transformer or load touches and that is not in the coordinates file, for example one with only a capacitor, is no node.
* `C94_ground_refuted`: The ground node 0 of a load is a phase without letter of the node.
* `C94_row_refuted`: A row of the coordinates file that has not three fields gives a node without name.
* `C94_case_refuted`: Names of the coordinates file are in lower case and those of terminals are not changed: a bus with a capital letter gives two nodes.
* `C87_voltwatt_refuted`: One PV system with volt-watt control makes the script unreadable: a stray "]" follows its controls.
* `C87_combined_refuted`: Of the PV systems with volt-var and volt-watt control, only the one that comes last in its group is controlled.
* `C87_schemes_refuted`: The other control schemes that the data model names are written without power factor and without control.
* `C87_phases_refuted`: A PV system on one phase with 300 V or more is written with three phases at a single node.
* `C87_zero_factor_refuted`: A power factor of zero makes the section fail.
* `C87_unconnected_refuted`: So do a PV system without a voltage that is not connected to anything,
* `C87_missing_shape_refuted`: and one with a data file that is not among the load shapes of its group.
* `C96_two_phases_refuted`: A capacitor with two phases that the writer wrote comes back with twice its reactive power.
* `C96_unnamed_refuted`: A capacitor of one phase whose terminal names no node gets its kvar three times, once on each phase.
* `C96_steps_refuted`: Only the first step of a capacitor counts, unless it has as many steps as phases.
* `C96_mode_refuted`: The writer writes the control types in lower case and the reader wants a capital: a control by voltage or by current is read without mode; so is one by power factor.
* `C96_element_refuted`: The element that a control measures comes back with a prefix.
* `C103_carried_refuted`: A wire whose data is not in the circuit gets that of the wire before it.
* `C103_first_refuted`: When no line before had wire data, a first wire whose data is not in the circuit stops the reading.
* `C103_neutral_refuted`: A cable gets the concentric neutral of the last cable of the circuit: with another number of strands, it has that number.
* `C103_resistance_refuted`: The resistance of a concentric neutral, which is per length, is multiplied by the unit of length.
* `C103_cable_switch_refuted`: A switch with more than one wire of which the first is a cable stops the reading.
* `C103_units_refuted`: Wire data whose unit of resistance is not a unit of length, as when it is not given, stops the reading.
* `C102_lost_refuted`: A line that is no switch and is open on all its phases, such as an open fuse, is written as not enabled and is not read.
* `C102_breaker_refuted`: A breaker comes back as a switch, unless its name says that it is one.
* `C102_neutral_refuted`: The neutral wire of a line does not come back.
* `C102_short_refuted`: A line shorter than one metre comes back with one metre.
* `C102_fuse_refuted`: The wires of a fuse are not marked as fuses, and those of a fuse that is an open switch are not open.
* `C102_name_refuted`: The name of a line is cut where it has "ine." again, so that several lines may get the same name.
* `C102_unwatched_refuted`: A fuse that watches nothing stops the reading of all lines.
* `C95_unbalanced_refuted`: A load whose phases have different powers comes back with equal ones.
* `C95_reactive_refuted`: A load without active power has no reactive power after reading, or one that is no number, whatever OpenDSS reports as its kvar.
* `C95_ground_refuted`: A wye load between a phase and the ground is given two phases, one without letter, and half of its power on each.
* `C95_delta_refuted`: A delta load between the phases A and B and one between A and C are read as the same load.
* `C95_name_refuted`: Names are cut at the letters "oad.": all loads with a name that begins with "broad." are read under one name.
* `C101_name_refuted`: The name that comes back is not the one that was written.
* `C101_band_refuted`: The band is written for 120 V and read as if it were for 100 V: it comes back larger by a fifth.
* `C101_setpoint_refuted`: The set point is kept in percent, written in volts and not read as percent: it never comes back; and the band center is lost to it.
* `C101_phase_refuted`: The phase of the sensor is written as a node and read as a position among the nodes of the last terminal: at a terminal with one node the phases B and C do not come back.
* `C101_missing_refuted`: When the transformer of the first enabled control is not found, a control of no transformer that OpenDSS knows under its name in lower case, the reading stops.
* `C101_missing_later_refuted`: After a control of a transformer with two or three windings, one whose transformer is not found stops the reading too: the variable holds what is left of the one before.
* `C101_step_refuted`: The lowest step of a regulator is set to its highest.
* `C100_phases_refuted`: All windings of a transformer that is read have the same phases: those of its first bus, whatever the others are.
* `C100_ground_refuted`: A three-phase transformer whose first winding is grounded comes back with a single phase, without a name, on both windings.
* `C100_ends_refuted`: A transformer with one bus or more than three takes the ends of the transformer before it; as the first one it stops the reading.
* `C100_control_refuted`: The settings of the compensator are taken from controls that are disabled too.
* `C85_noload_loss_refuted`: One regulator with no-load losses and the regulators are not written at all.
* `C85_windings_refuted`: Nor are they with a regulator that has no transformer and no windings, no phase windings, or a winding without voltage.
* `C85_compensator_refuted`: The settings of the compensator are looked up by the name of the regulator, not by its transformer: those of the connected transformer are lost.
* `C85_emergency_refuted`: The emergency rating of a created transformer is in volt-amperes where kilovolt-amperes are read.
* `C85_connections_refuted`: A winding without a known connection gets the connection of the next one.
* `C85_kvas_refuted`: A created transformer of which no rated power is known gets the stray value "kvas)", without a keyword.
* `C88_removed_refuted`: With remove_loadshapes no text is kept for the groups of the series, and the writer fails when it looks for it.
* `C88_scaled_refuted`: A series with a scale factor cannot be written: its format has no interval.
* `C88_memory_refuted`: A first series without data file or without label stops the writer: the message about it needs a name.
* `C88_reactive_refuted`: The reactive power data are appended to the end of the data of the active power, without a property of their own.
* `C88_separate_refuted`: Without a separation of the feeders, the shapes are kept under another key than the loads look for.
* `C88_label_refuted`: Two data files with the same label give two load shapes with the same name.
* `C88_again_refuted`: A second write of the same network with the same writer loses all shapes but the first of each group: the writer remembers the data files of the first write.
* `C97_position_refuted`: Every source gets the position of the last row of the file of coordinates, whatever bus it stands for.
* `C97_row_refuted`: A last row whose coordinates are no numbers stops the reading of the whole circuit.
* `C97_phases_refuted`: All sources have the phases A, B and C, whatever OpenDSS says.
* `C97_impedance_refuted`: A list of impedances that has not two items hides the resistance and the reactance.
* `C97_second_refuted`: The second source of a model is no source of the master file: its bus is taken for a part of the voltage of the first.
* `C97_name_refuted`: Without a connecting element, the bus is the name without its last four characters wherever it contains "_src".
* `C86_energy_refuted`: Energies are kept in kWh but written as if they were kept in Wh: a thousandth of the capacity comes back.
* `C86_name_refuted`: The name that comes back is not the one that was written.
* `C86_power_refuted`: Powers are read in kW where they are kept in W: a thousandth of the power comes back, and none of its phases is named.
* `C86_reserve_refuted`: The reserve is kept in percent, and a thousandth of it is written as a percentage.
* `C86_no_voltage_refuted`: A storage unit without a voltage makes the section fail: the voltage of its bus is only looked up after its own was compared with 300.
* `C86_zero_factor_refuted`: A power factor of zero makes the section fail.
* `C86_again_refuted`: Written, read and written again, the nodes have become part of the name of the bus and the phases are not known.
* `C81_missing_shape_refuted`: A load shape that was not written makes the whole section fail.
* `C81_blank_name_refuted`: A name with a blank is not sanitized: the load gets another name, and the rest of the name is taken for a value.
* `C81_low_voltage_refuted`: A three phase load below 300 V is written as a load of one phase: all of its power is at the first node.
* `C81_unbalanced_refuted`: Only the total power is written: a load with all of its power on one phase reads like a balanced one.
* `C81_secondary_phase_refuted`: The phases of a triplex load have no node: "None" is written.
* `C81_models_refuted`: Only the model of the first phase is written.
* `C82_points_refuted`: The intermediate points of the file are those of its last line, after its name: those of the other lines are lost.
* `C82_open_phase_refuted`: A line that is open on one phase only is written like a closed one.
* `C82_short_line_refuted`: A line shorter than one metre is written with one metre.
* `C82_no_class_refuted`: A line without a name class makes the section fail.
* `C83_two_phases_refuted`: A wye capacitor on two phases is written as one capacitor between the two phases.
* `C83_no_phases_refuted`: A capacitor without phases is written as a three phase capacitor of 0 kvar.
* `C83_admittance_refuted`: A control by admittance has the type "None".
* `C84_three_phase_ground_refuted`: In a grounded winding of three phases the ground takes the place of the first phase.
* `C84_three_windings_refuted`: The windings of a transformer with three windings that is not a center tap are not written: no bus, no voltage, no power.
* `C84_default_resistances_refuted`: Resistances of a center tap transformer that are not known: the default of the first winding is written for the second.
* `C84_missing_end_refuted`: A transformer without one of its ends makes the whole section fail.
* `C84_nameless_refuted`: A transformer without a name leaves a row that is no command.
* `C84_delta_center_refuted`: A center tap transformer whose delta primary has one phase: no phases, and the second node depends on the secondary windings.
* `C84_taps_refuted`: The tap of a winding without phases cannot be written.
* `C98_namesake_refuted`: Objects of any class share one table of names, and the last one counts. A node with a later namesake, say a line or a load named like its bus, keeps no voltage at all, and the namesake is given the voltage of the bus instead of its own.
* `C98_case_refuted`: Buses are looked up in lower case, the ends of an element as they are written: an element whose bus is not written in lower case has no voltage, although the bus has one.
* `C98_winding_refuted`: Only the first three windings are looked at: a fourth one has no voltage, wherever the transformer stands.
* `C141_overwritten_refuted`: Refutation of "every load is in the table": when another load stands between two phases of a load, the load after them is written over it, its name is lost and a row stays empty.
* `C140_angle_refuted`: Refutation of "the angle in a row is that of its phase": with two phases that are not in the order of the alphabet each has the angle of the other.
* `C140_twice_refuted`: Refutation of "every network is written": a node that has a phase twice stops the writer, whatever the other nodes.
* `C74_phase_ratings_refuted`: With ratings per phase the rating of the windings is that of phase C alone, not the sum.
* `C74_four_reactances_refuted`: With the first secondary impedance but not the second a center tap transformer gets four reactances.
* `C75_no_status_refuted`: Without states and without a status a fuse or switch has one wire only, whatever its phases are.
* `C75_one_state_refuted`: With the state of one phase only, the other phases have no wire.
* `C76_parent_refuted`: A capacitor is never connected: its parent is not kept.
* `C76_mixed_limits_refuted`: A voltage limit without its counterpart is combined with the limit of the reactive power.
* `C77_own_voltage_refuted`: The nominal voltage of the regulator itself is ignored.
* `C77_compensator_refuted`: A compensator setting of a phase that is not listed and has no tap position stops the conversion.
* `C78_direct_matrix_refuted`: A configuration with its impedance matrix cannot be read.
* `C78_stale_configuration_refuted`: A line without a configuration gets the wires of the line before it, and changes their units again.
* `C78_mixed_units_refuted`: The distances between conductors are in metres when their impedances are computed, their radii in feet: the impedance between conductors ten feet apart is not that of ten feet.
* `C79_positions_in_feet_refuted`: The positions of underground cables are not converted: ten feet become ten metres.
* `C79_three_with_neutral_refuted`: Three cables of which one is a neutral, at the corners of a right triangle, are not put at the drawn distances.
* `C80_direct_matrix_refuted`: A configuration with its impedance matrix cannot be read.
* `C80_no_neutral_refuted`: A triplex line without a neutral cannot be read.
* `C80_neutral_data_refuted`: The neutral does not have the data of its own conductor.
* `C80_length_refuted`: The impedance per metre of a triplex line depends on its length.
* `C72_no_neutral_refuted`: Without a neutral the last phase of a node is lost.
* `C72_quotes_refuted`: Quotes around the phases are taken as a phase, the neutral too.
* `C72_triplex_refuted`: Without quotes a triplex node on one phase has no phases.
* `C73_reactive_refuted`: A purely reactive load is lost.
* `C73_sum_refuted`: Of a load with constant power and constant current only the power is read.
* `C73_no_voltage_refuted`: A constant current without a voltage is lost, although the nominal voltage is given.
* `C73_zip_refuted`: The active portions of a ZIP load do not add to one when a power factor is below one.
* `C93_branches_refuted`: No network with a transformer of its own, a regulator or a line comes back: the objects of these classes are opened by a row such as object transformer{, without a blank, the reader takes transformer{ as the class, and no such class exists. This holds of every such network, also when everything else in the file can be read.
* `C93_delay_refuted`: A capacitor with a delay is not read, because the writer calls the property time_dela. Without the delay it is.
* `C93_secondary_load_refuted`: A load on phase 1 of a secondary is not read, because loads have no property constant_power_1. On phase A it is.
* `C70_nested_refuted`: The properties of a nested object are given to the object around it, also its name, and the nested object is lost.
* `C70_one_line_refuted`: An object that is written on one line is not closed; it swallows the next object and both are lost.
* `C70_second_reader_refuted`: The second reader of a program also has the objects of the first one's file.
* `C70_words_refuted`: A value of several words is cut after the first.
* `C71_inner_block_refuted`: A block within a schedule ends it: the times after the block are not read.
* `C71_brace_refuted`: A schedule whose brace is on a line of its own never ends: the next schedule is lost.
* `C70_units_refuted`: The unit behind a value is ignored: a length in miles is read as the same number as a length in feet.
* `C90_delay_refuted`: The delay of a capacitor goes to the property [time_dela], which GridLAB-D does not have; [time_delay] is never written.
* `C90_limits_refuted`: The high limit of a capacitor without a low limit is not written, and an unknown one beside a low limit is [None].
* `C90_switched_refuted`: A capacitor that is switched in (1) is written OPEN, one that is not (0) CLOSED.
* `C90_phases_refuted`: Loads and regulators are written without their phases.
* `C90_joined_refuted`: Two regulators whose ends give the same text from_to: only the first is written.
* `C90_open_refuted`: The state of the wires of a line, and so of a switch, has no influence on the file.
* `C90_zip_refuted`: A ZIP load without constant current (or power, or impedance) on a phase stops the writing.
* `C91_shared_taps_refuted`: Two regulators with the same controls share a configuration, and it has the taps of the last one.
* `C91_compensator_refuted`: No regulator has a reactance of its compensator in the file.
* `C91_reactance_refuted`: A negative reactance without a resistance is written as 0+-2.0j, which is no complex number.
* `C91_three_windings_refuted`: A transformer with three windings and three reactances, as every center-tapped one has, stops the writing.
* `C91_write_wires_refuted`: With write_wires given, also as False, the file has no configurations of lines and the lines of a fresh process refer to none.
* `C92_second_file_refuted`: The second file of a network has no configurations of transformers and lines, though its transformers still refer to them, and no regulator with two known ends: the whole network was written before.
* `C92_wrong_configuration_refuted`: A transformer of a second network gets the configuration of another one: the numbers start again.
* `C92_two_of_a_name_refuted`: The configurations of regulators of an earlier network appear again, with the same names as new ones.
* `C109_arrow_refuted`: The feeder "a->b" does not find its head node "b->a".
* `C109_substation_refuted`: One feeder whose substation is not in the network stops the function for all.
* `C109_signs_refuted`: So does a successor with two signs ">", unless the feeder is found before names are turned round.
* `C110_positions_refuted`: No load ever gets a position, whatever the deltas are and whatever attributes the classes have.
* `C110_nothing_refuted`: With the classes of the package, which have no attribute "position", nothing changes at all.
* `C31_phase_storages_refuted`: The phase storages of a storage do not survive, though both steps succeed.
* `C31_reactor_refuted`: A model with a reactor is written but cannot be read.
* `C31_none_refuted`: An attribute set to None comes back as its default.
* `C31_none_matrix_refuted`: A line whose impedance matrix is None cannot be written.
* `C89_volunteer_refuted`: On every level one Node keeps the voltage it had: [group.pop()] takes the volunteer out of the group.
* `C89_source_refuted`: The level of the source has no transformer above it: the known voltage of its nodes is forgotten, while set_nominal_voltages_recur gives them the voltage of the source.
* `C89_meshed_refuted`: Two transformers that feed the same level: what its nodes get depends on the order in which the set is popped.
* `C89_no_node_refuted`: A source that is itself the end of the transformer: its level has no Node and the search pops from an empty set.
* `C05_kron_raises_refuted`: Whenever the numbers of phases and neutrals differ the function raises IndexError.
* `C05_kron_default_refuted`: In particular with the default neutral, as soon as there are three conductors.
* `C05_kron_wrong_refuted`: For a symmetric matrix with two phases and two neutrals whose cross block is not symmetric the result is not the reduced matrix.
* `C06_repeated_phase_refuted`: With a repeated phase the result depends on the order of the wires.
* `C14_merge_twice_refuted`: The order of a list of per-phase objects may differ between one merge and two.
* `C15_missing_phases_added_refuted`: A phase that obj_1 lacks can be lost.
* `C48_voltage_base_refuted`: The report and the functions take different voltages for the same thresholds: a line of 800 V is at medium voltage in the report and at low voltage for [lv_length_miles].
* `C48_four_wires_refuted`: A line with four wires of phases A to C is in no class by number of phases.
* `C49_dropped_refuted`: A dropped phase load counts in [total_demand] but not in the report.
* `C116_never_found_refuted`: The middle of the longest section with the fewest phases is never found.
* `C116_delete_cycles_refuted`: Hence a loop with a node of known phases would stop delete_cycles, if it were found.
* `C116_unknown_phases_refuted`: A node without phases stops it as well.
* `C16_unnamed_class_refuted`: An object whose name is None gets the class of the named object before it.
* `C21_plain_line_removed_refuted`: A line that is declared to be neither a switch nor a breaker, with wires of unknown state, loses its edge.
* `C21_parallel_line_removed_refuted`: Parallel lines share one edge, so an open switch takes a closed line with it.
* `C21_removal_raises_refuted`: Two open switches on one pair of nodes: NetworkXError. A switch with wires None: TypeError.
* `C22_parallel_objects_missing_refuted`: Of two parallel lines only the last is reported.
* `C23_loops_are_not_broken_refuted`: A three-line loop survives delete_cycles: after it the same loop is in the network, whatever nx.simple_cycles and middle_single_phase return.
* `C24_unnamed_parts_stay_refuted`: The position of an unnamed node outlives it; and on a model whose source is not called "sourcebus" the call raises KeyError after the deletions.
* `C125_unconnected_refuted`: C125: a named node that is not connected to the source stops it.
* `C125_unnamed_refuted`: C125: a node with no transformer above it stops it as soon as some object without windings has no name.
* `C126_neutral_refuted`: C126: a line on the way whose matrix has four rows, that is with the neutral, stops it.
* `C137_resistance_refuted`: Refutation of "the resistances of overhead wires are used": the self resistance is never the resistance of the wire plus that of the ground, unless that of the wire is zero. What is added is the resistance divided by 3.28084 and by 1609.34.
* `C137_four_refuted`: Refutation of "four overhead wires are reduced to three": with four overhead wires, or if the reduction is asked for, there is always an exception.
* `C137_defaults_refuted`: Refutation of "missing values of overhead wires get defaults": if a radius or a resistance is missing it is a NameError.
* `C51_unmentioned_refuted`: An attribute that the given table does not mention is overwritten with None.
* `C51_foreign_attributes_refuted`: Objects get attributes of other classes.
* `C58_sharing_refuted`: Afterwards the first dictionary shares inner dictionaries with the second: a further update of the first changes the second.
* `C108_branches_refuted`: Switches that are not on the way of first successors are never replaced: without one on it nothing changes.
* `C108_depth_refuted`: A switch is counted again where the way goes on to a load: the first and only switch is replaced when the second one is asked for.
* `C108_voltage_refuted`: A substation connection whose nominal voltage is not known stops the function.
* `C43_regulator_bank_refuted`: A bank of regulators (one Regulator per phase, lines 5127-5295) is not put between the same two nodes: the first one goes to the node "_reg", the following ones are loops at that node, and the node is created again for each.
* `C43_same_from_node_refuted`: Two sections that leave the same node share their intermediate node: both end up connected behind their first elements.
* `C69_four_heights_refuted`: With four conductors the heights of the spacing are not kept: of A (0, 10), B (8, 10), C (4, 7) and N (4, 13) the conductor C ends up 13 feet high instead of 7.
* `C69_units_refuted`: Default positions are in feet and not in metres: two conductors at distance 0 are put 30 and 32 metres high.
* `C136_neutral_refuted`: Refutation of "the matrix has a row for each phase": with a neutral that has a place and a conductor, it always has one more; the neutral is never eliminated.
* `C136_position_refuted`: Refutation of "phase C is at the third place of the spacing", which is where the reader puts its wire: on a line with the phases A and C it is taken to be at the second.
* `C136_two_neutrals_refuted`: Refutation of "lines with two neutrals are read": if the spacing has places for two neutrals, there is no matrix but an exception, whatever the conductors.
* `C136_no_places_refuted`: Refutation of "the matrix has a row for each phase", for a spacing without places: it has one row, whatever the number of phases.
* `C63_listed_node_refuted`: The full statement fails: a node given for one feeder only can end up in another one, because a path that connects a later feeder runs over it.
* `C63_same_name_refuted`: Two feeders with the same name: the second one is never connected, the run ends with StopIteration.
* `C12_add_all_named_refuted`: Objects of model 2 that are shadowed by a later object of the same name are not added: the literal reading "appends copies of all named objects" is false.
* `C13_delete_all_bearers_refuted`: Without unique names the property fails: only the last registered bearer is removed.
* `C37_numeric_refuted`: Other spellings of the resistance or of the property are not recognised.
* `C117_at_load_refuted`: A transformer right at its loads is never turned round.
* `C117_windings_refuted`: Of a transformer whose phase windings all have one wrong phase only the first phase winding is corrected.
* `C117_stale_refuted`: A transformer with the phase of the line next to it loses it to a line with another phase further up.
* `C64_series_refuted`: The full statement fails: the load at c gets its feeder from b, but its time series keep the tags that the load had before.
* `C64_isolated_refuted`: A node that nothing touches makes the run fail with NetworkXError.
* `C62_every_load_refuted`: The full statement fails for several loads: the secondary winding keeps the phases of the last one only.
* `C62_second_run_refuted`: Running twice is not running once: a transformer with three windings gets new phase windings every time.
* `C53_synergi_letter_case_refuted`: C53 is false as stated for letter case: an accepted spelling such as "Metric" raises KeyError.
* `C139_connection_refuted`: Refutation of "the connection of a source is that of the file": everything but "W" becomes delta.
* `C131_loop_refuted`: Refutation of "it finishes for every graph": on a loop of edges without a value no room is enough for the recursion.
* `C127_neutrals_refuted`: Refutation of "a line with several neutrals is read": the first line with two or more neutrals stops the reader, as a line has four conductors.
* `C127_order_refuted`: Refutation of "the wires of a line do not depend on the lines read before": a line with two neutrals stops the reader when it comes first, and is read, with one conductor for both neutrals, after a line of its phases with one neutral.
* `C127_device_open_refuted`: Refutation of "the wires of a device are open when the file says that they are not closed": they are open exactly when it says that they are closed.
* `C127_underground_refuted`: Refutation of "the neutral of an underground cable has its resistance in ohms per metre and its insulation has its thickness": the ohms per mile are multiplied by 3.28084, and the thickness is the outer diameter.
* `C128_end_refuted`: Refutation of "every load of the file is read": the loads at a node without an outgoing edge, such as the end of a line, are as if they were not there.
* `C128_watts_refuted`: Refutation of "the power of a load is in watts": of the loads read, a phase with a power other than 0 does not have 1000 times the kW of the file.
* `C129_capacitors_refuted`: Refutation of C129 as wished, for every file: the reader never makes a capacitor. It stops with a KeyError if a node with capacitors has an outgoing edge, unless its dictionary of loads is there and empty; else there are none.
* `C132_substation_refuted`: Refutation of "the regulators below a substation are read": no regulator is read whose voltage is the number of a substation and not the list of a transformer.
* `C132_voltage_refuted`: Refutation of "a regulator below a transformer has the output voltage of it": its voltage is the input voltage.
* `C132_phase_refuted`: Refutation of "each phase has its own settings": a regulator on phase C alone has the settings of phase A.
* `C132_tap_refuted`: Refutation of "a set voltage above 1 raises the tap": low and high protectors are mistaken for each other, so the tap is the right number of steps below 0.
* `C130_tertiary_refuted`: Refutation of "a transformer with a tertiary is read": if the first transformer with some equipment names its tertiary by a string, the reader stops.
* `C130_reactances_refuted`: Refutation of "three windings have three reactances": however many windings a transformer has, there is one reactance.
* `C138_unit_refuted`: Refutation of "the matrix is in ohms per meter", as it is of the models: the self resistance of a wire of [r] ohms per meter is not [r] plus that of the ground per meter, which is 0.0953 ohms per mile.
* `C138_neutral_refuted`: Refutation of "lines with a neutral are read": with a neutral and three wires or more there is always an exception, because the neutral cannot be eliminated.
* `C138_any_neutral_refuted`: With the products of numpy of arrays without entries this is so for every line with a neutral: the first wire fails already.

## 7. Modelled code, by file

| file in /repo | modelled | not modelled |
|---|---|---|
| `ditto/store.py` | model list, names, `set_names`, network functions 137-184, `set_node_voltages` | `get_internal_edges` helpers other than those in C16-C24, printing |
| `ditto/models/*.py` | attributes the modelled functions read; `base.py` 21-35 | trait metadata; `Timeseries` |
| `ditto/modify/modify.py` | all of `Modifier` | - |
| `ditto/modify/system_structure.py` | 44-167, 178-433, 435-492, 523-640, 722-953, 974-1280 (the random choices are a sequence of draws) | `_set_nominal_voltages` (deprecated), feeder metadata |
| `ditto/network/network.py` | construction, orientation, queries, `find_cycles`, `delete_cycles` (C23, with the result of `middle_single_phase` as a parameter), `middle_single_phase` (C116) | plotting |
| `ditto/consistency/*.py` | the six checkers and fixers named in C25-C30; `fix_transformer_phase_path.py` (C117) | |
| `ditto/metrics/network_analysis.py` | 202-267, 405-588, 776-2007, 2119-2313 and the functions named in C47-C50 | Excel/JSON export |
| `ditto/readers/abstract_reader.py` | 38-365, 391-863, 913-1056 | line geometry helpers other than those in C05, C57; `get_path` |
| `ditto/readers/cyme/read.py` | 294-329, 359-875, 973-1267, 1333-1551, 1553-1742, 2397-3828 (the impedance matrix of conductors with a spacing, 3514-3728, is a parameter there and modelled by itself in C136), 3830-4164, 4576-4979, 4981-5297, 5385-5559, 5563-5899, 5908-6446, 6448-6543 | the other object parsers, which are column-by-column copies |
| `ditto/writers/cyme/write.py` | 52-212, 4872-5138, regulator merging | the section writers |
| `ditto/readers/opendss/read.py`, `ditto/writers/opendss/write.py` | names, phases (C45, C46); wire data, cables, geometries (C65), line codes (C66), folders and files of all sections (C67), master file (C68), texts of loads (C81), lines (C82), capacitors (C83), transformers (C84), regulators (C85), storage units (C86), PV systems with the controls of their inverters (C87) and load shapes (C88), and the storage units that are read back; the nodes of a circuit (C94), its loads (C95), its capacitors (C96), its power sources (C97), its nominal voltages (C98), its generators and feeders (C99), its transformers (C100), its regulators (C101), its lines (C102, C103) | everything that goes through OpenDSSDirect; the texts of the other sections; the base voltages |
| `ditto/readers/gridlabd/read.py` | the GLM parser (objects, includes, schedules), the conversion of nodes, loads, transformers, fuses, switches, capacitors, regulators, lines, `compute_matrix`, `compute_spacing`, `compute_secondary_matrix` | the remaining classes (recorders, houses), which the reader ignores |
| `ditto/readers/json/read.py`, `ditto/writers/json/write.py` | all | file access |
| `ditto/readers/csv/read.py` | 58-141 | `pd.read_csv` |
| `ditto/readers/synergi/length_units.py` | all | the rest of the Synergi reader (needs a database) |
| `ditto/utils.py`, `ditto/default_values` | `combine`, default values table | - |
| `ditto/writers/gridlabd/write.py` | the whole file: nodes, capacitors, loads, transformers, regulators, lines and their configurations, and the state that stays between writes | triplex objects and attributes that no class of `ditto/models` has |
| `ditto/readers/windmil_ascii/read.py`, `wm_reader.py` | lines, loads, capacitors, transformers, regulators (read.py 99-598, 622-684; the impedance matrix is a parameter there and modelled by itself in C138); nodes and sources (read.py 48-68, 87-97, 600-618); the choice of files (wm_reader.py 21-108); `get_base_kv` (wm_reader.py 112-132) | the graph built from the tables |
| `ditto/cli.py`, `converter.py`, `metric_computer.py` | `convert`, `metric`, the inputs of each format and the order of reading and writing | `list`, `build_path`, the DEW inputs, logging, loading of plugins |
| `ditto/writers/ephasor/write.py` | 138-181, 883-967, 969-1079, 1123-1156 | lines, transformers, the values of loads; the Excel file |
| readers dew, windmil, demo; writer odo_tool | - | format specific, or unfinished in `/repo` |

## 8. Testing the theorems

`seeded/LOG.jsonl` has one line per wrong program: a definition of the model, the edit made to it in a scratch
copy, the claim the edit breaks, the theorems that no longer prove, and the theorems that were tightened because
the edit went unnoticed.  Edits that survived led to new theorems (for example entries of the sequence matrices,
exact contents of transformer tables, success conditions).
