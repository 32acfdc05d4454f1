{"id": "C01", "title": "Length conversion to metres is correct for every supported unit", "statement": "convert_to_meters(q, unit) returns q times the metre value of the unit for mi, km, kft, m, ft, in and cm (unit name in any letter case), returns the reciprocal conversion when inverse=True is passed, and returns None exactly when the quantity is None or the unit is None, not a string or unknown.", "quantifier": "every quantity, every unit value (any string, None, any non-string) and both values of the inverse flag", "why_tests_cant": "A test samples a handful of (quantity, unit, flag) triples; the claim covers every quantity, every spelling of every unit and every unknown unit.", "anchors": ["ditto/readers/abstract_reader.py:AbstractReader.convert_to_meters"]}
{"id": "C02", "title": "Metres round trip", "statement": "Converting a quantity to metres with the reader and back with convert_from_meters (reader or writer version) returns the same quantity exactly for km, m and cm and within a relative error of 1e-5 for every supported unit, for direct and for per-unit (inverse) quantities; exact equality fails for mi, kft, ft and in.", "quantifier": "every quantity, every supported unit in any letter case, both flags", "why_tests_cant": "Round-trip error must be bounded for every magnitude; a finite number of samples does not bound it.", "anchors": ["ditto/readers/abstract_reader.py:AbstractReader.convert_to_meters", "ditto/readers/abstract_reader.py:AbstractReader.convert_from_meters", "ditto/writers/abstract_writer.py:AbstractWriter.convert_from_meters"]}
{"id": "C03", "title": "Unit-to-unit conversion", "statement": "unit_conversion(value, a, b) is linear in the value, equals going through metres, and unit_conversion(unit_conversion(v,a,b),b,a) is within 1e-4 relative error of v for all supported units; unit names outside the supported list (matched case-sensitively) give None, never a number.", "quantifier": "every value and every pair of unit names", "why_tests_cant": "49 unit pairs times an unbounded value range, plus arbitrary unsupported names.", "anchors": ["ditto/readers/abstract_reader.py:AbstractReader.unit_conversion"]}
{"id": "C04", "title": "Symmetrize a triangular matrix", "statement": "symmetrize(lower-triangular row list) returns the square symmetric matrix whose lower triangle is the input; it returns None when the number of rows differs from the longest row; for a full square input it returns M + M^T with the original diagonal.", "quantifier": "every list of rows of any size and any numeric entries", "why_tests_cant": "Must hold for every matrix dimension and every content.", "anchors": ["ditto/readers/abstract_reader.py:AbstractReader.symmetrize"]}
{"id": "C05", "title": "Kron reduction of the primitive impedance matrix", "statement": "kron_reduction(Z, neutrals) returns Zpp - Zpn Znn^-1 Znp, i.e. for every current vector with grounded neutrals the reduced matrix gives the same phase voltages as Z.", "quantifier": "every square primitive matrix, every number of phases and neutrals, every choice of neutral positions", "why_tests_cant": "Algebraic identity over all matrices and all dimensions.", "anchors": ["ditto/readers/abstract_reader.py:AbstractReader.kron_reduction"]}
{"id": "C06", "title": "Impedance matrix built from wires (GridLAB-D)", "statement": "compute_matrix(wires) is symmetric, does not depend on the order in which the wires are listed, places every entry at its phase position, and with a neutral returns the Kron reduction: for all phase currents the phase voltages equal those of the primitive matrix with the neutral grounded.", "quantifier": "every list of wires with distinct phases, any geometry, resistance and GMR", "why_tests_cant": "Quantifies over every wire list, permutation and real-valued geometry.", "anchors": ["ditto/readers/gridlabd/read.py:Reader.compute_matrix"]}
{"id": "C07", "title": "Sequence impedances", "statement": "get_sequence_impedance_matrix is the similarity transform A^-1 Z A; for a balanced 3x3 matrix (self zs, mutual zm) it is diagonal with zero sequence zs+2zm and positive sequence zs-zm; for dimensions other than 2 and 3 it returns the empty list.", "quantifier": "every complex 2x2 or 3x3 matrix, and every other dimension", "why_tests_cant": "Continuous family of inputs.", "anchors": ["ditto/readers/abstract_reader.py:AbstractReader.get_sequence_impedance_matrix"]}
{"id": "C08", "title": "Name index", "statement": "After set_names(), model[name] returns the most recently registered object with that name and raises KeyError exactly when no registered object has that name, whatever the index held before.", "quantifier": "every store content and every earlier index state", "why_tests_cant": "Holds for every history of registrations, removals and renames.", "anchors": ["ditto/store.py:Store.set_names", "ditto/models/base.py:DiTToHasTraits.set_name"]}
{"id": "C09", "title": "Store contents under any history of operations", "statement": "Creating an object appends exactly that object to models; remove_element removes exactly that object and preserves the order of the others, and raises ValueError without change if it is not registered; models is a snapshot that later operations do not alter; an object is registered at most once in every reachable store.", "quantifier": "every finite sequence of create / remove / rename / set_names operations", "why_tests_cant": "Quantifies over all histories.", "anchors": ["ditto/store.py:Store.models", "ditto/store.py:Store.remove_element", "ditto/models/base.py:DiTToHasTraits.__init__"]}
{"id": "C10", "title": "Deleting an element removes it and its parts, and nothing else", "statement": "Modifier.delete_element(model, obj) removes obj and every object reachable through its sub-object lists (except the non-object lists) and keeps all other objects in order; it fails with ValueError when a part is shared or not registered.", "quantifier": "every store and every object tree of any depth and width", "why_tests_cant": "Recursive structure of unbounded depth.", "anchors": ["ditto/modify/modify.py:Modifier.delete_element"]}
{"id": "C11", "title": "Copying an object", "statement": "Modifier.copy(model, obj) creates a new object of the same class with equal attribute values whose sub-objects are fresh copies, registers all of them in the model, and changes neither the original nor any other object.", "quantifier": "every object tree of any depth and width", "why_tests_cant": "Recursive structure of unbounded depth; aliasing.", "anchors": ["ditto/modify/modify.py:Modifier.copy"]}
{"id": "C12", "title": "Adding one model to another", "statement": "Modifier.add(m1, m2) keeps all objects of m1 in order, appends copies of the named objects of m2 and leaves m2's objects unchanged; afterwards every name of m2 resolves in m1 to a copy of m2's object and other names resolve as before.", "quantifier": "every pair of models", "why_tests_cant": "Two arbitrary models, arbitrary overlap of names.", "anchors": ["ditto/modify/modify.py:Modifier.add"]}
{"id": "C13", "title": "Deleting the contents of one model from another", "statement": "Modifier.delete(m1, m2) removes from m1 every object whose name occurs in m2 together with its parts, keeps everything else, and raises before finishing when types differ.", "quantifier": "every pair of models", "why_tests_cant": "Arbitrary models and name overlaps, including duplicated names.", "anchors": ["ditto/modify/modify.py:Modifier.delete"]}
{"id": "C14", "title": "Merging scalar attributes", "statement": "Modifier.merge(m1, m2, overwrite): for each common name every scalar attribute of m1's object ends as m2's value if that is not None and (overwrite or m1's was None), otherwise unchanged; objects without counterpart are unchanged; merging the same model twice equals merging once.", "quantifier": "every pair of models, both overwrite values", "why_tests_cant": "All attribute sets, all None patterns.", "anchors": ["ditto/modify/modify.py:Modifier.set_attributes", "ditto/modify/modify.py:Modifier.merge"]}
{"id": "C15", "title": "Merging per-phase sub-objects", "statement": "When both lists carry phases, merging updates each phase of m1 with the attributes of the same phase of m2 and adds the phases that m1 lacks.", "quantifier": "every pair of phase lists over A, B, C, N in any order", "why_tests_cant": "All pairs of lists; boundary cases at either end of the lists.", "anchors": ["ditto/modify/modify.py:Modifier.set_attributes"]}
{"id": "C16", "title": "Network graph contents", "statement": "After build, the undirected graph has an edge between two names exactly when some object joins them (from_element/to_element) or some object hangs on a connecting_element, and every edge joining two-terminal objects carries the class, name and length of the last such object.", "quantifier": "every model", "why_tests_cant": "All models, including parallel elements, self loops and missing attributes.", "anchors": ["ditto/network/network.py:Network.build"]}
{"id": "C17", "title": "The directed network is a shortest-path tree rooted at the source", "statement": "After build, the directed graph's edges are graph edges; a node is in the directed graph iff it is reachable from the source (and the graph has an edge there); every node except the source has exactly one predecessor, the source none; each edge goes from distance d to distance d+1; building from a source that is not in the graph raises.", "quantifier": "every undirected graph and every source", "why_tests_cant": "All graphs, all traversal orders.", "anchors": ["ditto/network/network.py:Network.build", "ditto/network/network.py:Network.bfs_order"]}
{"id": "C18", "title": "Upstream transformer search", "statement": "get_upstream_transformer(node) terminates and returns the name of the transformer nearest to the node on the unique path from the source, or None if the path has none.", "quantifier": "every built network in which the path edges carry equipment, and every node of it", "why_tests_cant": "Walk of unbounded length; termination must hold on all trees.", "anchors": ["ditto/network/network.py:Network.get_upstream_transformer"]}
{"id": "C19", "title": "Downstream elements", "statement": "get_all_elements_downstream(source) returns exactly the objects named by the nodes reachable from the given node in the directed network together with the equipment on those edges.", "quantifier": "every model and every node", "why_tests_cant": "All graphs.", "anchors": ["ditto/network/network.py:Network.get_all_elements_downstream"]}
{"id": "C20", "title": "Orienting lines away from the source", "statement": "direct_from_source swaps the ends of an object exactly when the tree traverses it in the opposite direction only; afterwards no tree edge is opposite to an element's direction; it is idempotent and never changes the set of joined pairs.", "quantifier": "every model and every source", "why_tests_cant": "All models.", "anchors": ["ditto/store.py:Store.direct_from_source"]}
{"id": "C21", "title": "Removing open switches", "statement": "remove_open_switches removes from the graphs the edges of switching lines that are open and no others.", "quantifier": "every model and all combinations of switch, breaker and wire flags including unset ones", "why_tests_cant": "Three-valued flags on any number of wires and lines.", "anchors": ["ditto/network/network.py:Network.remove_open_switches"]}
{"id": "C22", "title": "Internal edges of a node set", "statement": "get_internal_edges(nodeset) returns exactly the names of the equipment joining two nodes of the set.", "quantifier": "every network and node set", "why_tests_cant": "All graphs and subsets.", "anchors": ["ditto/network/network.py:Network.find_internal_edges"]}
{"id": "C23", "title": "Cycle detection on the built network", "statement": "find_cycles reports the loops of the network so delete_cycles can break them.", "quantifier": "every model with loops", "why_tests_cant": "All graphs.", "anchors": ["ditto/network/network.py:Network.find_cycles", "ditto/store.py:Store.delete_cycles"]}
{"id": "C24", "title": "Deleting disconnected nodes", "statement": "delete_disconnected_nodes removes exactly the Node objects (with their parts) whose name is absent from the network or is None.", "quantifier": "every model and network", "why_tests_cant": "All models.", "anchors": ["ditto/store.py:Store.delete_disconnected_nodes"]}
{"id": "C25", "title": "check_loads_connected decides connectivity", "statement": "With one power source, check_loads_connected returns True exactly when every load's connecting element is reachable from the source through closed elements; with none it returns False.", "quantifier": "every model whose loads have distinct names and whose network can be built", "why_tests_cant": "All graphs and switch states.", "anchors": ["ditto/consistency/check_loads_connected.py:check_loads_connected"]}
{"id": "C26", "title": "check_unique_path decides uniqueness of the supply path", "statement": "check_unique_path returns True exactly when every load has exactly one simple path to every source.", "quantifier": "every model whose network can be built and whose loads are named and connected, both show_all values, every iteration order of the load set", "why_tests_cant": "All graphs and all set iteration orders.", "anchors": ["ditto/consistency/check_unique_path.py:check_unique_path"]}
{"id": "C27", "title": "check_loops decides radiality", "statement": "check_loops returns True exactly when the network with open switches removed has no loop (parallel elements between two nodes count as one link).", "quantifier": "every model with at least one source", "why_tests_cant": "All graphs.", "anchors": ["ditto/consistency/check_loops.py:check_loops"]}
{"id": "C28", "title": "check_matched_phases", "statement": "check_matched_phases returns True exactly when for every two-winding transformer the low-side phases match (or are contained in) the high-side phases and every three-winding transformer is a well-formed centre tap; other winding counts are rejected.", "quantifier": "every model, every winding and phase list", "why_tests_cant": "All phase lists and winding counts.", "anchors": ["ditto/consistency/check_matched_phases.py:check_matched_phases"]}
{"id": "C29", "title": "check_transformer_phase_path limits transformers per load", "statement": "check_transformer_phase_path returns False when some load has more than one distribution transformer on its path to the source, or none when transformers are required.", "quantifier": "every network path", "why_tests_cant": "All paths.", "anchors": ["ditto/consistency/check_transformer_phase_path.py:check_transformer_phase_path"]}
{"id": "C30", "title": "fix_undersized_transformers", "statement": "After fix_undersized_transformers every transformer serving up to 5000 kW (exclusive) of load is rated at least the load it serves, ratings never decrease, and adequate transformers are unchanged.", "quantifier": "every load set and rating", "why_tests_cant": "All loads, ratings and boundaries of the size table.", "anchors": ["ditto/consistency/fix_undersized_transformers.py:fix_undersized_transformers"]}
{"id": "C31", "title": "JSON round trip", "statement": "Writing a model to JSON and reading it back gives objects with the same classes, names and attribute values, in the same order, for the supported attribute kinds.", "quantifier": "every model built of supported values", "why_tests_cant": "All models, all attribute combinations, nested lists of any length.", "anchors": ["ditto/writers/json/write.py:Writer.write", "ditto/readers/json/read.py:Reader.parse"]}
{"id": "C32", "title": "Source detection", "statement": "Creating a structure modifier without a source uses the unique name of the source-bus power sources and raises ValueError when there is none or more than one distinct name.", "quantifier": "every model", "why_tests_cant": "All models.", "anchors": ["ditto/modify/system_structure.py:system_structure_modifier.__init__"]}
{"id": "C33", "title": "Filling missing coordinates", "statement": "set_missing_coords_recur terminates, never changes a node that already has coordinates, gives coordinates to every node connected to a located node, and places each new node inside the bounding box of the known coordinates.", "quantifier": "every graph and every pattern of missing coordinates", "why_tests_cant": "Unbounded propagation depth.", "anchors": ["ditto/modify/system_structure.py:system_structure_modifier.set_missing_coords_recur"]}
{"id": "C34", "title": "Nominal voltage propagation", "statement": "set_nominal_voltages_recur gives every node reachable from the source the minimum winding voltage of its nearest upstream transformer, or the source voltage when there is none, and leaves unreachable nodes unchanged.", "quantifier": "every radial network", "why_tests_cant": "Unbounded depth recursion.", "anchors": ["ditto/modify/system_structure.py:system_structure_modifier.set_nominal_voltages_recur"]}
{"id": "C35", "title": "Centre-tap preprocessing conserves power", "statement": "center_tap_load_preprocessing leaves the total active and reactive power of the loads' active (non-dropped) phases equal to the original totals and leaves active only phases of the upstream transformer.", "quantifier": "every load, phase list and transformer phase set", "why_tests_cant": "All phase lists and powers.", "anchors": ["ditto/modify/system_structure.py:system_structure_modifier.center_tap_load_preprocessing"]}
{"id": "C36", "title": "Feeder preprocessing never reassigns an element", "statement": "feeder_preprocessing assigns to each element downstream of a lowest-level substation that substation's name and feeder name, never overwrites a previously set name (it raises), and changes no other element.", "quantifier": "every model, every number of substations", "why_tests_cant": "All substation layouts.", "anchors": ["ditto/modify/system_structure.py:system_structure_modifier.feeder_preprocessing"]}
{"id": "C37", "title": "Opening and closing switches from a DSS file", "statement": "open_close_switches opens all wires of exactly those switch lines whose r1 equals 1e11, closes all wires of the other switch lines, and changes nothing else.", "quantifier": "every DSS file text", "why_tests_cant": "All file contents.", "anchors": ["ditto/modify/system_structure.py:system_structure_modifier.open_close_switches"]}
{"id": "C38", "title": "CYME phase codes", "statement": "phase_mapping maps the codes 0..7 one to one to phase sets and any string to its characters.", "quantifier": "every code", "why_tests_cant": "All strings and integers.", "anchors": ["ditto/readers/cyme/read.py:Reader.phase_mapping", "ditto/readers/cyme/read.py:Reader.phase_to_num"]}
{"id": "C39", "title": "CYME connection codes round trip", "statement": "Every connection the writer can emit is read back as the same DiTTo connection, for single connections and for two-winding transformer pairs in the transformer table; pairs with a Z secondary are written.", "quantifier": "every connection value and pair", "why_tests_cant": "All strings.", "anchors": ["ditto/writers/cyme/write.py:Writer.connection_configuration_mapping", "ditto/readers/cyme/read.py:Reader.connection_configuration_mapping", "ditto/writers/cyme/write.py:Writer.transformer_connection_configuration_mapping", "ditto/readers/cyme/read.py:Reader.transformer_connection_configuration_mapping"]}
{"id": "C40", "title": "CYME load values", "statement": "load_value_type_mapping: for KVA_PF, P^2+Q^2=S^2 and P=S*pf; for KW_PF, P is unchanged and P/sqrt(P^2+Q^2)=|pf|; KW_KVAR is the identity; AMP_PF raises.", "quantifier": "every pair of values with 0<|pf|<=1", "why_tests_cant": "Real-valued inputs.", "anchors": ["ditto/readers/cyme/read.py:Reader.load_value_type_mapping"]}
{"id": "C41", "title": "CYME section parser", "statement": "parser_helper returns one record per data row under a header, keyed by a unique id even if ids repeat, with each requested attribute equal to the cell in the column announced by the format line; lines before the header or after the blank line are not consumed by it.", "quantifier": "every file content", "why_tests_cant": "All texts.", "anchors": ["ditto/readers/cyme/read.py:Reader.parser_helper"]}
{"id": "C42", "title": "Merging single-phase regulators (CYME writer)", "statement": "merge_regulators returns exactly one record per section; the merged phase of regulators on distinct single phases contains each of them exactly once; a field that is zero in some records takes the non-zero value of the others.", "quantifier": "every list of regulator strings with the same number of fields", "why_tests_cant": "All lists and orders.", "anchors": ["ditto/writers/cyme/write.py:Writer.merge_regulators", "ditto/writers/cyme/write.py:Writer.merge"]}
{"id": "C43", "title": "CYME section overlaps are put in series", "statement": "fix_section_overlaps reconnects the regulators, transformers and lines of a section into one chain from the section's from node to its to node, with all intermediate nodes created, and hangs loads, storages and capacitors on the to node.", "quantifier": "every number and mix of elements in a section", "why_tests_cant": "Any number of elements.", "anchors": ["ditto/readers/cyme/read.py:Reader.fix_section_overlaps"]}
{"id": "C44", "title": "Customising CYME headers", "statement": "After update_header_mapping(update), a line containing the new header is recognised for the updated objects and every other object keeps its headers.", "quantifier": "every update", "why_tests_cant": "All dictionaries.", "anchors": ["ditto/readers/cyme/read.py:Reader.update_header_mapping", "ditto/readers/cyme/read.py:Reader.check_object_in_line"]}
{"id": "C45", "title": "OpenDSS names are safe", "statement": "The bus-name sanitiser used by the OpenDSS writer yields only letters, digits and underscores, is idempotent, leaves safe names unchanged, and keeps distinct nodes distinct.", "quantifier": "every name", "why_tests_cant": "All strings.", "anchors": ["ditto/writers/opendss/write.py:Writer.write_bus_coordinates"]}
{"id": "C46", "title": "OpenDSS phase mapping round trip", "statement": "Reading back a phase number written by the OpenDSS writer gives the same phase.", "quantifier": "every phase value", "why_tests_cant": "All values.", "anchors": ["ditto/readers/opendss/read.py:Reader.phase_mapping", "ditto/writers/opendss/write.py:Writer.phase_mapping"]}
{"id": "C47", "title": "Metrics counters", "statement": "The global counts of regulators, fuses, switches, reclosers and capacitors equal the numbers of such objects and are additive over models; per-feeder counts sum to the global count when every object belongs to exactly one feeder.", "quantifier": "every model and feeder assignment", "why_tests_cant": "All models.", "anchors": ["ditto/metrics/network_analysis.py:NetworkAnalyzer.number_of_regulators", "ditto/metrics/network_analysis.py:NetworkAnalyzer.analyze_object", "ditto/metrics/network_analysis.py:NetworkAnalyzer.compute_all_metrics_per_feeder"]}
{"id": "C48", "title": "Line length metrics partition the total", "statement": "Low- and medium-voltage lengths by number of phases never exceed the voltage-level total and equal it when every line has one to three phases; no line is counted in both levels.", "quantifier": "every model", "why_tests_cant": "All line sets.", "anchors": ["ditto/metrics/network_analysis.py:NetworkAnalyzer.analyze_object", "ditto/metrics/network_analysis.py:NetworkAnalyzer.lv_length_miles", "ditto/metrics/network_analysis.py:NetworkAnalyzer.mv_length_miles", "ditto/metrics/network_analysis.py:NetworkAnalyzer.length_mvXph_miles", "ditto/metrics/network_analysis.py:NetworkAnalyzer.length_lvXph_miles"]}
{"id": "C49", "title": "Load demand metrics", "statement": "Per-phase low-voltage percentages lie in [0,100] and add up to 100 when the total demand is positive and all loads are non-negative; total demand equals the sum of all phase loads.", "quantifier": "every model", "why_tests_cant": "All loads.", "anchors": ["ditto/metrics/network_analysis.py:NetworkAnalyzer.percentage_load_LV_kW_phX", "ditto/metrics/network_analysis.py:NetworkAnalyzer.total_demand", "ditto/metrics/network_analysis.py:NetworkAnalyzer.compute_all_metrics"]}
{"id": "C50", "title": "Transformer to load mapping", "statement": "get_transformer_load_mapping lists each load under exactly the nearest upstream transformer and no other, and terminates.", "quantifier": "every radial network", "why_tests_cant": "All trees.", "anchors": ["ditto/metrics/network_analysis.py:NetworkAnalyzer.get_transformer_load_mapping"]}
{"id": "C51", "title": "Default values", "statement": "Applying a default-values table changes only attributes of the table, leaves attributes that the table does not mention unchanged, and with the remove flag sets exactly the listed attributes to None.", "quantifier": "every model and default table", "why_tests_cant": "All tables.", "anchors": ["ditto/readers/abstract_reader.py:AbstractReader.set_default_values", "ditto/readers/abstract_reader.py:AbstractReader.parse_default_values"]}
{"id": "C52", "title": "CSV reader index alignment", "statement": "The CSV reader assigns each non-empty cell of column Class.list[i].attr to attribute attr of the i-th sub-object of that row's object, creating missing sub-objects (so lists are just as long as the indices need), and ignores empty cells; rows do not share objects, and the read succeeds exactly if every non-empty cell names an existing class way and holds an acceptable value.", "quantifier": "every list of headers of the documented form, every list of rows, every class schema and trait validation", "why_tests_cant": "All headers.", "anchors": ["ditto/readers/csv/read.py:Reader.parse"]}
{"id": "C53", "title": "Synergi length units", "statement": "convert_length_unit returns the quantity times the table factor for every accepted unit system and length unit regardless of letter case and raises for others; LUL and Per_LUL factors are reciprocal.", "quantifier": "every quantity and unit string", "why_tests_cant": "All strings.", "anchors": ["ditto/readers/synergi/length_units.py"]}
{"id": "C54", "title": "Merging dictionaries", "statement": "combine(*dicts) contains exactly the keys of its arguments, each with the value of the last dictionary holding it, and does not modify its arguments.", "quantifier": "every list of dictionaries", "why_tests_cant": "All lists.", "anchors": ["ditto/utils.py:combine"]}
{"id": "C55", "title": "Parse order", "statement": "The base reader runs the element parsers in the fixed order nodes, lines, transformers, loads, regulators, generators, capacitors, distributed generation, and then default values if configured, so every parser sees exactly the model left by the earlier ones and an exception stops the later ones.", "quantifier": "every reader implementation (any parser behaviour)", "why_tests_cant": "Quantifies over all subclasses' behaviour.", "anchors": ["ditto/readers/abstract_reader.py:AbstractReader.parse"]}
{"id": "C56", "title": "Panel dimensions", "statement": "smallest_perimeter(n) in the CYME writer returns two factors whose product is n.", "quantifier": "every positive integer", "why_tests_cant": "All integers.", "anchors": ["ditto/writers/cyme/write.py:Writer.smallest_perimeter"]}
{"id": "C57", "title": "Primitive impedance matrix", "statement": "get_primitive_impedance_matrix on square distances and matching gmrs and resistances returns a square matrix with Carson self impedances on the diagonal and mutual impedances elsewhere, symmetric for symmetric distances; it raises ValueError exactly when a datum is missing or a gmr or mutual distance is zero.", "quantifier": "every number of conductors and geometry", "why_tests_cant": "All geometries.", "anchors": ["ditto/readers/abstract_reader.py:AbstractReader.get_primitive_impedance_matrix", "ditto/readers/abstract_reader.py:AbstractReader.carson_equation_self", "ditto/readers/abstract_reader.py:AbstractReader.carson_equation"]}
{"id": "C58", "title": "Two-level dictionary update", "statement": "update_dict(d1, d2) on dictionaries of dictionaries whose inner dictionaries are different objects leaves in d1, for every pair of keys, the entry of d2 or else the earlier entry of d1, and leaves what d2 holds unchanged.", "quantifier": "every pair of nested dictionaries and every heap of inner dictionaries", "why_tests_cant": "All dictionaries and sharing patterns.", "anchors": ["ditto/readers/abstract_reader.py:AbstractReader.update_dict"]}
{"id": "C59", "title": "Line voltages come from the upstream end", "statement": "set_nominal_voltages_recur_line gives each line without a nominal voltage the nominal voltage of the object named by its from element, raises KeyError when such a line names an unknown object, and changes nothing else.", "quantifier": "every model whose from elements are not lines", "why_tests_cant": "All models and all voltage patterns.", "anchors": ["ditto/modify/system_structure.py:system_structure_modifier.set_nominal_voltages_recur_line"]}
{"id": "C60", "title": "CYME header", "statement": "parse_header sets the unit system named by the last header line that names one ([SI] or [IMPERIAL]) and raises ValueError if no line does; the version line never makes it fail.", "quantifier": "every file content", "why_tests_cant": "All texts.", "anchors": ["ditto/readers/cyme/read.py:Reader.parse_header"]}
{"id": "C61", "title": "CYME connection tables", "statement": "The connection of a winding, of a transformer and of a capacitor bank is read from CYME's number, digit or name (names of windings in any letter case) as in the documented tables, unknown values give None (or the value itself for capacitor banks) and unsupported ones raise; the writer writes the documented code for each pair of connections and refuses the others.", "quantifier": "every value", "why_tests_cant": "All strings and integers, in every letter case.", "anchors": ["ditto/readers/cyme/read.py:Reader.connection_configuration_mapping", "ditto/readers/cyme/read.py:Reader.transformer_connection_configuration_mapping", "ditto/readers/cyme/read.py:Reader.capacitors_connection_mapping", "ditto/writers/cyme/write.py:Writer.transformer_connection_configuration_mapping"]}
{"id": "C62", "title": "Secondary phases from the loads", "statement": "After terminals_to_phases the secondary winding of the first transformer above a load has the phases of the load; the load knows the name of that transformer; nothing else changes, and running it again changes nothing.", "quantifier": "every model, network and order of the objects", "why_tests_cant": "Any number of loads behind one transformer, any nesting of transformers, any number of phases and windings.", "anchors": ["ditto/modify/system_structure.py:system_structure_modifier.terminals_to_phases"]}
{"id": "C63", "title": "Feeder networks", "statement": "split_network_into_feeders makes the network of every feeder connected by adding shortest paths between its pieces and nothing else; node_feeder_mapping sends every node of these networks to its feeder, the last one that contains it; a node listed for one feeder only stays with that feeder; the loop ends.", "quantifier": "every network, feeder list, choice of components and of shortest paths", "why_tests_cant": "Any number of feeders and pieces; the choice of nodes is that of a hash set.", "anchors": ["ditto/metrics/network_analysis.py:NetworkAnalyzer.add_feeder_information", "ditto/metrics/network_analysis.py:NetworkAnalyzer.split_network_into_feeders", "ditto/metrics/network_analysis.py:NetworkAnalyzer.connect_disconnected_components"]}
{"id": "C64", "title": "Feeder and substation of every object", "statement": "tag_objects gives every node, device and branch, and the time series of the devices, the feeder of the node it belongs to or else of the first node above it that has one, and the substation of that feeder; objects below no feeder and objects of other classes are left alone; running it again changes nothing.", "quantifier": "every model, network, node_feeder_mapping and substations table", "why_tests_cant": "Any depth of the climb, any order of objects; tags are read while they are being written.", "anchors": ["ditto/metrics/network_analysis.py:NetworkAnalyzer.tag_objects"]}
{"id": "C65", "title": "Wires and geometries of written lines", "statement": "When all wires of a line have their data, the OpenDSS writer gives the line the name of a geometry that is defined in the output with one conductor per wire, in order, each referring to a wire or cable that is defined with the data of that wire; different wires that share a name get different definitions; nothing else is defined; consistent names are kept.", "quantifier": "every list of lines and wires", "why_tests_cant": "Names are reused and invented while the tables grow; whether a definition is still the right one depends on all lines.", "anchors": ["ditto/writers/opendss/write.py:Writer.write_lines", "ditto/writers/opendss/write.py:Writer.write_wiredata", "ditto/writers/opendss/write.py:Writer.write_linegeometry", "ditto/writers/opendss/write.py:Writer.parse_wire", "ditto/writers/opendss/write.py:Writer.parse_cable", "ditto/writers/opendss/write.py:Writer.parse_line_geometry"]}
{"id": "C66", "title": "Line codes of written lines", "statement": "Every line that is written with a line code refers to a line code that is defined in the file of the line's substation and feeder, with the line's number of phases, impedance and capacitance matrices per kilometre, fault rate and ampacities.", "quantifier": "every list of lines, every setting of separate_feeders and separate_substations", "why_tests_cant": "The name of a line code depends on all earlier lines, their classes and files.", "anchors": ["ditto/writers/opendss/write.py:Writer.write_linecodes", "ditto/writers/opendss/write.py:Writer.parse_line"]}
{"id": "C67", "title": "Files of a section of the OpenDSS output", "statement": "Writing a section (transformers, regulators, load shapes, loads, line codes, lines, capacitors, storage, PV systems) succeeds; every feeder of a substation that has objects gets one file in the folders of substation and feeder, with the definitions of its objects, of all of them, in the order of the model, and of no others; every file is redirected exactly once in the master file and in the master file of its feeder; no other file is touched.", "quantifier": "every list of objects with or without feeder, substation and name, every setting of separate_feeders and separate_substations, every iteration order of sets", "why_tests_cant": "Which file an object ends in depends on the names of all substations and feeders and on the iteration order of Python sets.", "anchors": ["ditto/writers/opendss/write.py:Writer.write_transformers", "ditto/writers/opendss/write.py:Writer.write_loads", "ditto/writers/opendss/write.py:Writer.write_lines", "ditto/writers/opendss/write.py:Writer.write_capacitors"]}
{"id": "C68", "title": "Completeness and order of the OpenDSS master file", "statement": "Writing a network produces the files its sections ask for and bus coordinates, and the master file redirects to each of the former exactly once and to nothing else; files come after those they depend on (wire data and cables, geometries, lines; line codes, lines; transformers, regulators; load shapes, loads); the coordinates in the base folder hold every node with a name and coordinates, and the master file names them exactly if there are any; the master file of a feeder redirects to all files the feeder needs; also when the writer is used again.", "quantifier": "every network whose sections can be written (C67), every setting of separate_feeders and separate_substations, every iteration order of sets", "why_tests_cant": "The list of redirected files is built by all section writers and taken apart by the master writer; its order matters to OpenDSS for every layout of folders.", "anchors": ["ditto/writers/opendss/write.py:Writer.write", "ditto/writers/opendss/write.py:Writer.write_master_file", "ditto/writers/opendss/write.py:Writer.write_bus_coordinates"]}
{"id": "C69", "title": "GridLAB-D conductor positions realise the spacing", "statement": "For a line spacing that gives all distances between two to four conductors (and optionally their heights) of some drawing in the plane, the GridLAB-D reader assigns X and Y to the conductors of a line so that every distance between two of them is the distance of the spacing (converted from feet to metres), and with heights given every Y is the height of the spacing. Without heights the two conductors that are furthest apart are put at the default height, one below the other (two conductors) or side by side. A lone conductor with a height gets it.", "quantifier": "for all drawings, sets of conductors, orders of the wires of the line and default heights", "why_tests_cant": "Which triangle, which mirror image and which rotation is used depends on which two conductors are furthest apart and on the signs of the coordinates; tests try one or two spacings.", "anchors": ["ditto/readers/gridlabd/read.py:62"]}
{"id": "C70", "title": "GridLAB-D objects are read with their properties", "statement": "For a GLM file made of object blocks, schedules, comments and other text, and the files it includes, the GridLAB-D reader keeps every object of a known class under its name (its name property, else class:number of the header, else from-to), with its class and exactly the properties that the block gives (the last value wins); later objects replace earlier ones of the same name, and nothing else is added. An unknown class or property, or an object with neither name nor from and to, stops the reading with an AttributeError.", "quantifier": "for all files, includes, layouts of blanks and comments, classes and properties", "why_tests_cant": "The parser is a state machine over rows; which object a row belongs to depends on all rows before it. Tests read a few files of one layout.", "anchors": ["ditto/readers/gridlabd/read.py:495", "ditto/formats/gridlabd/base.py:5"]}
{"id": "C71", "title": "GridLAB-D schedules give the value at the origin", "statement": "For every schedule of a GLM file the GridLAB-D reader keeps the value of the first row whose cron expression fits the origin time, under the schedule's name; a schedule without such a row has no value, and a later schedule of the same name with a value replaces it.", "quantifier": "for all files, schedules and cron expressions, with any decision of croniter", "why_tests_cant": "Whether a row belongs to a schedule depends on the count of braces in all rows before; tests contain no schedule of unusual layout.", "anchors": ["ditto/readers/gridlabd/read.py:545"]}
{"id": "C72", "title": "GridLAB-D nodes", "statement": "Every node and meter of a GLM file becomes a node with the name, the nominal voltage and exactly the phases A, B, C of its object (the swing bus a source), and every triplex node one with the phases 1 and 2.", "quantifier": "for all files, names, voltages and texts of phases", "why_tests_cant": "The phases are cut from a text by position; whether that is right depends on the last and first letters of the text. Tests use ABCN throughout.", "anchors": ["ditto/readers/gridlabd/read.py:623", "ditto/readers/gridlabd/read.py:656"]}
{"id": "C73", "title": "GridLAB-D loads draw the power of their objects", "statement": "A load of a GLM file has one phase load for each of its phases A, B, C, which draws the power of everything the object gives for the phase: constant power, the power of the constant current at the voltage and of the constant impedance at the voltage (Ohm's law), or the base power, a number or a schedule times a number. It is connected to its parent, or to a node of its own name which is made with its voltage and phases.", "quantifier": "for all loads, phases, numbers and schedules", "why_tests_cant": "Which of the parts is used depends on the real parts of complex numbers on each of three copies of the code; tests contain one kind per file.", "anchors": ["ditto/readers/gridlabd/read.py:918"]}
{"id": "C74", "title": "GridLAB-D transformers", "statement": "A transformer of a GLM file has the nodes, phases, voltages and connections of its object and configuration. Its resistances add to the configuration's resistance and its reactance is kept; the windings have the configuration's rating in VA. A center tap transformer has three windings: the secondaries have half the rating each, and the primary's resistance in series with the parallel secondaries is the resistance. There are n(n-1)/2 reactances for n windings.", "quantifier": "for all transformers, configurations, impedances and ratings", "why_tests_cant": "The windings are changed by a sequence of tries whose failures are silently ignored; the result depends on which attributes are missing.", "anchors": ["ditto/readers/gridlabd/read.py:681"]}
{"id": "C75", "title": "GridLAB-D fuses and switches", "statement": "The line of a fuse or switch has exactly one wire for each phase of the object, which is open exactly if the phase is blown or open, or, without states per phase, if the status is OPEN.", "quantifier": "for all fuses and switches, phases and states", "why_tests_cant": "Depends on which of the five attributes are present; an exception in the loop silently ends it.", "anchors": ["ditto/readers/gridlabd/read.py:1352", "ditto/readers/gridlabd/read.py:1423"]}
{"id": "C76", "title": "GridLAB-D capacitors", "statement": "A capacitor of a GLM file has one phase capacitor for each phase with a size, a million times the number in the file, with its switch; its limits are those of the voltage if given, else those of the reactive power; its mode is that of the control; it is connected to its parent.", "quantifier": "for all capacitors, sizes, limits and controls", "why_tests_cant": "Depends on which attributes are present; tests look at a few files.", "anchors": ["ditto/readers/gridlabd/read.py:2088"]}
{"id": "C77", "title": "GridLAB-D regulators", "statement": "A regulator of a GLM file has, on both windings, the phases of its object and those with a tap position in its configuration, and on each phase of the second winding the tap position and compensator settings of the configuration; its nominal voltage is its own, else that of the node it starts from; delay, band, steps and ratios are those of the configuration.", "quantifier": "for all regulators, configurations, phases and settings", "why_tests_cant": "Phases are looked up and added while three loops change the same list; the error paths are not reached by the tests.", "anchors": ["ditto/readers/gridlabd/read.py:2180"]}
{"id": "C78", "title": "GridLAB-D overhead lines", "statement": "Every overhead line of a GLM file becomes a line with its name, ends and length in metres, one wire for each conductor of its configuration with the conductor's data in metres and ohms per metre, at the distances of the spacing, and the impedance matrix of the configuration or of its conductors (Carson's equations, neutral grounded) per metre. Every line has wires of its own.", "quantifier": "for all files, configurations, conductors, spacings and earlier lines", "why_tests_cant": "The wires are objects that are changed in place; local variables of one line are still there for the next. Tests read a few files in which every line has a configuration.", "anchors": ["ditto/readers/gridlabd/read.py:1494", "ditto/readers/gridlabd/read.py:1594"]}
{"id": "C79", "title": "GridLAB-D underground lines", "statement": "Every underground line of a GLM file becomes a line with its name, ends and length in metres, one wire for each cable with its data and those of its concentric neutral in metres and ohms per metre, at the distances of the spacing in metres, and the impedance matrix per metre.", "quantifier": "for all files, configurations, cables, spacings and earlier lines", "why_tests_cant": "Positions come from Heron's formula with four cases that depend on which distances are given; no test looks at the positions.", "anchors": ["ditto/readers/gridlabd/read.py:1747", "ditto/readers/gridlabd/read.py:1864"]}
{"id": "C80", "title": "GridLAB-D triplex lines", "statement": "Every triplex line of a GLM file becomes a line with its name, ends and length in metres and one wire for each of its conductors with the data of the conductor per metre, the diameter and the insulation, and the two by two matrix of the hot conductors with the neutral grounded, per metre.", "quantifier": "for all files, configurations, conductors and earlier lines", "why_tests_cant": "The code keeps the last conductor and wire in local variables; tests read lines whose conductors are all the same.", "anchors": ["ditto/readers/gridlabd/read.py:1639", "ditto/readers/gridlabd/read.py:316"]}
{"id": "C81", "title": "OpenDSS text of the loads", "statement": "The script that the OpenDSS writer writes for the loads of a group reads, by the syntax of OpenDSS, as exactly these loads in order: name, connection, bus and nodes of the phases, voltage in kV, limits, total active and reactive power in kW and kvar, model, number of phases and load shape, and no other property; the power at each node is that of its phase.", "quantifier": "for all lists of loads, phase loads, series and load shapes, all groupings by substation and feeder and all ways to write numbers that can be read back", "why_tests_cant": "The text is built by appending strings with many optional parts; tests compare a few files or only check that a file exists, and none reads a written file back with all combinations.", "anchors": ["ditto/writers/opendss/write.py:1834", "ditto/writers/opendss/write.py:2058"]}
{"id": "C82", "title": "OpenDSS text of the lines", "statement": "The script that the OpenDSS writer writes for the lines of a group reads as exactly these lines in order, each with its name, length in km, both buses with the nodes of its phases, number of phases, switch and open state and the geometry or line code of its class, followed by a fuse with the largest rating if the line is a fuse; the intermediate points of every line are written to the file of intermediate points.", "quantifier": "for all lists of lines, wires and ratings, all groupings and all ways to write numbers that can be read back", "why_tests_cant": "Many optional parts and dependence on the order and phases of the wires; tests compare a few files.", "anchors": ["ditto/writers/opendss/write.py:2785", "ditto/writers/opendss/write.py:3014"]}
{"id": "C83", "title": "OpenDSS text of the capacitors", "statement": "The script that the OpenDSS writer writes for the capacitors of a group reads as exactly these capacitors in order, each with its name, bus and nodes, number of phases, voltage in kV, connection and total kvar, followed by a control with the element, delay, type, limits, ratios and phase exactly if the capacitor has control data.", "quantifier": "for all lists of capacitors and phase capacitors, all groupings and all ways to write numbers that can be read back", "why_tests_cant": "The control is written under a condition over seven optional attributes; tests have two kinds of capacitor.", "anchors": ["ditto/writers/opendss/write.py:2532", "ditto/writers/opendss/write.py:2721"]}
{"id": "C84", "title": "OpenDSS text of the transformers", "statement": "The script that the OpenDSS writer writes for the transformers of a group reads, by the syntax of OpenDSS with its active winding, as exactly these transformers in order: name, phases, number of windings, losses and rating, and for each winding its connection, bus and nodes, voltage in kV, power in kVA, emergency rating, resistance and tap, and the reactances; the nodes of a winding are those of its phases, with the ground after them if it is grounded.", "quantifier": "for all lists of transformers with two windings or a center tap, all groupings by substation and feeder and all ways to write numbers that can be read back", "why_tests_cant": "The text depends on connection, number of phases, grounding, center tap and taps at once, and on the order in which properties follow wdg=; tests compare a few files.", "anchors": ["ditto/writers/opendss/write.py:408", "ditto/writers/opendss/write.py:942"]}
{"id": "C85", "title": "OpenDSS text of the regulators", "statement": "The script that the OpenDSS writer writes for the regulators of a group reads as exactly these controls in order, each with its transformer, winding, current and voltage ratios, delay, band, regulated voltage (the set point if there is one), phase, limit and compensator settings of its transformer; and for each regulator without a transformer, and no other, one is appended to the transformers with its phases, buses, connections, voltages, powers and reactances.", "quantifier": "for all lists of regulators and transformers, all sets of compensator settings and choices from them, all groupings and all ways to write numbers that can be read back", "why_tests_cant": "The settings come from a set filled by another section and the created transformers go to the file of another section; tests have a few regulators, all with a transformer of known ratings.", "anchors": ["ditto/writers/opendss/write.py:2116", "ditto/writers/opendss/write.py:2447"]}
{"id": "C86", "title": "OpenDSS text of the storage units, and what is read back", "statement": "The script that the OpenDSS writer writes for the storage units of a group reads as exactly these storage units in order, with name, phases, bus and nodes, active power and power factor of all phases together, voltage in kV, rating, rated power, energies, state, reserve, rates, efficiencies, impedance and model; and reading them gives back the values that were written.", "quantifier": "for all lists of storage units, all groupings, all voltages of buses and all ways to write numbers that can be read back", "why_tests_cant": "The text depends on phases, powers, voltages and optional values at once; tests have no storage units.", "anchors": ["ditto/writers/opendss/write.py:1006", "ditto/writers/opendss/write.py:1180", "ditto/readers/opendss/read.py:2603", "ditto/readers/opendss/read.py:2748"]}
{"id": "C87", "title": "OpenDSS text of the PV systems and their inverter controls", "statement": "The script that the OpenDSS writer writes for the PV systems of a group reads as exactly these PV systems in order, with name, bus and nodes, voltage, phases, rating, panel power, reactive limit, connection, cut-in and cut-out, impedance, voltage limits, power factor and load shapes, followed by the controls: each PV system with volt-var, volt-watt or combined control has exactly one control of its inverter, and every curve that a control names is defined with its points.", "quantifier": "for all lists of PV systems, all orders in which a set is walked, all data files and load shapes, all voltages of buses and all ways to write numbers that can be read back", "why_tests_cant": "The controls depend on three sets that grow with the group, and which curves are written depends on which of the sets are empty; tests have one PV system without control.", "anchors": ["ditto/writers/opendss/write.py:1236", "ditto/writers/opendss/write.py:1604"]}
{"id": "C88", "title": "OpenDSS load shapes: every series once, known to the loads that use it", "statement": "For every group of feeder and substation the OpenDSS writer writes a file that reads as load shapes, one for each data file that a series of the group uses, with its label, number of points, interval and data file, and redirects it; the load shape that a load or PV system mentions for a series is defined in the file of its group with the data of the series, daily when the data are one day and yearly otherwise; the number of steps of the simulation is the smallest number of points.", "quantifier": "for all lists of series, all groupings, all data files, all orders in which a set is walked and all ways to write numbers that can be read back", "why_tests_cant": "The tables of the writer are filled by one section and looked up by others under names that depend on the groups and on which series came first; tests have one feeder with one series.", "anchors": ["ditto/writers/opendss/write.py:1605", "ditto/writers/opendss/write.py:1832"]}
{"id": "C89", "title": "Grouped nominal voltages: one value per voltage level", "statement": "set_nominal_voltages of the structure modifier gives all nodes and loads of a voltage level (what hangs together without crossing a transformer) the smallest winding voltage of the transformer that feeds them and the loads its name, lines without a voltage that of their from end, and changes nothing else, whatever the order in which sets are walked; it does the same as set_nominal_voltages_recur.", "quantifier": "for all models, all sources, all winding voltages and all orders in which Python pops a set", "why_tests_cant": "The groups come from connected components of the graph without transformers and a set's pop order is not specified; tests run one order on a few networks.", "anchors": ["ditto/modify/system_structure.py:523"]}
{"id": "C90", "title": "The GridLAB-D writer writes every element with its data", "statement": "A file of the GridLAB-D writer, read back as text, has one object per node, capacitor, load, transformer, regulator and line of the model, in the order of the model and of the right class, with the name, ends, phases, voltages, powers, limits and length of the element, whatever the process wrote before.", "quantifier": "for all models, all histories of writes in one process, and all texts of numbers", "why_tests_cant": "Names, phases and the objects that were written before decide together which rows appear; tests write a few files and look at none of their rows.", "anchors": ["ditto/writers/gridlabd/write.py:144", "ditto/writers/gridlabd/write.py:185", "ditto/writers/gridlabd/write.py:247", "ditto/writers/gridlabd/write.py:483", "ditto/writers/gridlabd/write.py:673", "ditto/writers/gridlabd/write.py:838"]}
{"id": "C91", "title": "GridLAB-D configurations: every reference leads to the data of the element", "statement": "In a file of the GridLAB-D writer every named transformer, line (no switch or fuse) and regulator refers to exactly one configuration object of the file, which has the data of the element (voltages, rating, impedance; impedance matrix by phases; controls, taps and compensator), and elements with the same data share one.", "quantifier": "for all models with distinct names, all orders in which a set is walked, all numbers of configurations", "why_tests_cant": "The configurations are deduplicated through tables keyed by sets of items; whether a name leads to the right one depends on all elements before.", "anchors": ["ditto/writers/gridlabd/write.py:353", "ditto/writers/gridlabd/write.py:534", "ditto/writers/gridlabd/write.py:752"]}
{"id": "C92", "title": "GridLAB-D files do not depend on earlier writes", "statement": "The file that the GridLAB-D writer writes for a model is the same whatever the process wrote before.", "quantifier": "for all models and all histories of writes in one process", "why_tests_cant": "The tables are class attributes that survive the writer; tests write each model in one way and compare nothing.", "anchors": ["ditto/writers/gridlabd/write.py:30", "ditto/writers/gridlabd/write.py:42"]}
{"id": "C93", "title": "GridLAB-D files of DiTTo can be read back", "statement": "Reading with the GridLAB-D reader a file that the GridLAB-D writer wrote succeeds, and gives for every element of the written model an object under its name, of its class, with the properties that the file should say about it.", "quantifier": "for all models whose texts are plain words, all histories of writes in one process, all schemas, all objects read before", "why_tests_cant": "Writer and reader are tested separately, on files that other programs wrote; whether the rows of one are rows for the other depends on blanks, braces and property names that tests never bring together.", "anchors": ["ditto/writers/gridlabd/write.py:144", "ditto/readers/gridlabd/read.py:495", "ditto/formats/gridlabd/base.py:1", "ditto/formats/gridlabd/gridlabd.py:15"]}
{"id": "C94", "title": "Nodes of a circuit read from OpenDSS", "statement": "Reading a circuit of OpenDSS gives one node for each bus of the circuit and each row of the file of coordinates, no other node and no name twice; the phases of a node are those of the terminals at the bus, its position is that of the last row with its name, its feeder the source.", "quantifier": "for all circuits (lines, transformers, loads, other elements), all files of coordinates, all delimiters", "why_tests_cant": "A circuit has any number of terminals in any order, with and without nodes, and the rows of the file come in any order; tests read a few circuits whose terminals are well formed.", "anchors": ["ditto/readers/opendss/read.py:520", "ditto/readers/opendss/read.py:589", "ditto/readers/opendss/read.py:667", "ditto/readers/opendss/read.py:703"]}
{"id": "C95", "title": "Loads read from OpenDSS", "statement": "Reading the loads of an OpenDSS circuit gives one load for each enabled load, with its bus, connection, voltages and model; the phases are the nodes that the load is connected to, and the active and reactive powers of the phases are equal shares of the kW and kvar of the load. A load that the OpenDSS writer wrote comes back with its phases and its powers.", "quantifier": "for all lists of loads that OpenDSS reports, all powers, power factors and terminals; for all loads of a model that the writer writes", "why_tests_cant": "The reactive power goes through the power factor and a root, the phases through the terminal, the connection and the number of phases; tests compare a few loads for a few values.", "anchors": ["ditto/readers/opendss/read.py:2368", "ditto/readers/opendss/read.py:2445", "ditto/readers/opendss/read.py:2525", "ditto/writers/opendss/write.py:1872"]}
{"id": "C96", "title": "Capacitors read from OpenDSS", "statement": "Reading the capacitors of an OpenDSS circuit gives one capacitor for each enabled capacitor, with its bus, connection, voltage and phases, the settings of the first control that names it, and the reactive power of its steps shared by its phases. A capacitor that the OpenDSS writer wrote comes back with its phases, its power and its control.", "quantifier": "for all lists of capacitors and of controls that OpenDSS reports, all terminals and steps; for all capacitors of a model that the writer writes", "why_tests_cant": "The kvar of the phases depends on the number of steps, of nodes and of phases together, and the control is found by name among all controls; tests compare a few capacitors.", "anchors": ["ditto/readers/opendss/read.py:2159", "ditto/readers/opendss/read.py:2191", "ditto/readers/opendss/read.py:2308", "ditto/writers/opendss/write.py:2536"]}
{"id": "C97", "title": "Power sources to and from OpenDSS", "statement": "The master file of a model with a power source defines a circuit at the bus of the source, with its voltage, per unit value and impedances. Reading a circuit gives, for each enabled source, a power source with its bus, voltages, powers and impedances, its phases and its position, and a feeder whose head is that bus. A source that was written comes back.", "quantifier": "for all power sources of a model, all lists of sources that OpenDSS reports and all files of coordinates", "why_tests_cant": "The texts of several sources are joined, and positions and impedances come from different places in different forms; tests have one source and do not look at its position.", "anchors": ["ditto/writers/opendss/write.py:3870", "ditto/readers/opendss/read.py:337", "ditto/readers/opendss/read.py:451", "ditto/readers/opendss/read.py:498"]}
{"id": "C98", "title": "Nominal voltages of a circuit read from OpenDSS", "statement": "After reading an OpenDSS circuit each node has the voltage of its bus (phase to phase, in volts); each object that came without a voltage has that of the node it is connected to or begins at; the windings of transformers and regulators have that of their side; voltages that were given stay, and nothing but voltages changes.", "quantifier": "for all models (objects of any classes, names and places, in any order) and all lists of buses with their base voltages", "why_tests_cant": "Voltages travel through a table of names shared by all classes and depend on the order of two loops; tests compare a few feeders in which no two objects have one name.", "anchors": ["ditto/readers/opendss/read.py:259", "ditto/readers/opendss/read.py:293", "ditto/store.py:119", "ditto/models/base.py:26"]}
{"id": "C99", "title": "Generators and feeders of a circuit read from OpenDSS", "statement": "Each enabled generator of an OpenDSS circuit becomes one generator with its name, bus, phases, voltage, power, rating, power factor, limits and model; from the file of feeders, one feeder is made for each name with its substation and its transformer.", "quantifier": "for all circuits (any list of generators and values of their properties) and all files of feeders (any number of lines and words)", "why_tests_cant": "Generators do not appear in the test circuits, and the file of feeders only in one generated data set; what happens to other texts, counts of phases and orders of lines is never run.", "anchors": ["ditto/readers/opendss/read.py:2761", "ditto/readers/opendss/read.py:2826", "ditto/readers/opendss/read.py:311", "ditto/readers/opendss/read.py:326"]}
{"id": "C100", "title": "Transformers of a circuit read from OpenDSS", "statement": "Each enabled transformer of an OpenDSS circuit becomes one transformer, in order, with its name, ends, losses, ratings, reactances and shift of angle, and for each winding its connection, voltage, power, resistance, ground, phases, taps and the settings of its line drop compensator; a transformer that the writer wrote comes back.", "quantifier": "for all circuits (any number of transformers and controls, in any order, with any buses and values)", "why_tests_cant": "What a transformer becomes depends on texts of buses, on all controls of the circuit and on variables left by the transformers before it; tests read a few feeders whose transformers have the same phases on all windings.", "anchors": ["ditto/readers/opendss/read.py:1533", "ditto/readers/opendss/read.py:1594", "ditto/readers/opendss/read.py:1688", "ditto/readers/opendss/read.py:1786", "ditto/readers/opendss/read.py:1803"]}
{"id": "C101", "title": "Regulators of a circuit read from OpenDSS", "statement": "Each enabled regulator control of an OpenDSS circuit becomes one regulator, in order, with the winding, ratios, delay, band, center, limit, set point and phase of its control, and with the ends, reactances, shift and windings of its transformer; a regulator that the writer wrote comes back.", "quantifier": "for all circuits (any number of controls and transformers, in any order, with any buses and values)", "why_tests_cant": "A regulator is put together from a control, a transformer of the circuit found by its name in another case, and a transformer of the model; the variables of the loop carry over from one control to the next, and units differ between the writer and the reader.", "anchors": ["ditto/readers/opendss/read.py:1835", "ditto/readers/opendss/read.py:1876", "ditto/readers/opendss/read.py:2030", "ditto/readers/opendss/read.py:2054", "ditto/readers/opendss/read.py:2130"]}
{"id": "C102", "title": "Lines of a circuit read from OpenDSS", "statement": "Each line of an OpenDSS circuit that is enabled, or is a switch, becomes one line, in order, with its name, ends, code, length in metres, kind (fuse, recloser, breaker, switch), failure rate, symmetric impedance and capacitance matrices per metre, and one wire for each phase with its ampacities; a line that the writer wrote comes back.", "quantifier": "for all circuits (any number of lines, fuses and reclosers, in any order, any buses and phases, matrices of any size, any unit)", "why_tests_cant": "Matrices of every size are read from triangles in texts and turned into per-metre values in any unit, the kind comes from other elements and from the text of the name, and switches are open when they are not enabled.", "anchors": ["ditto/readers/opendss/read.py:762", "ditto/readers/opendss/read.py:779", "ditto/readers/opendss/read.py:800", "ditto/readers/opendss/read.py:867", "ditto/readers/opendss/read.py:908", "ditto/readers/opendss/read.py:933", "ditto/readers/opendss/read.py:1091"]}
{"id": "C103", "title": "Wires of lines with a geometry, read from OpenDSS", "statement": "A line with a geometry has one wire for each conductor of the geometry, in order, with the name, place, diameter, radius, resistance and ratings that the geometry and the wire data give it, in metres; a cable also has its own concentric neutral; the rest of the line is as without a geometry.", "quantifier": "for all circuits (any number of wires, geometries, wire data and cables, any units and values)", "why_tests_cant": "The data of a wire comes from three classes of the circuit through names in another case, and the variables that hold it survive from one wire and from one line to the next, and replace the data of the line.", "anchors": ["ditto/readers/opendss/read.py:1155", "ditto/readers/opendss/read.py:1236", "ditto/readers/opendss/read.py:1270", "ditto/readers/opendss/read.py:1301", "ditto/readers/opendss/read.py:1455"]}
{"id": "C104", "title": "Sections read from CYME", "statement": "A network file of the announced shape gives every section its network, its phases and its two nodes under its lower-case name, in order, and every network its feeder or substation data; a list of sections that does not have that shape is refused.", "quantifier": "for all network files (any number of networks and sections, any column layout)", "why_tests_cant": "The parser walks the file with one iterator in nested loops whose ends depend on the next line, and its state (the current network and the columns) lasts over the whole file.", "anchors": ["ditto/readers/cyme/read.py:1553", "ditto/readers/cyme/read.py:1605", "ditto/readers/cyme/read.py:1642", "ditto/readers/cyme/read.py:1700", "ditto/readers/cyme/read.py:1742"]}
{"id": "C105", "title": "Nodes, head nodes and connections of subnetworks read from CYME", "statement": "Every node of the network file becomes one node of the model with its name, its rated voltage and its coordinates, bus bars with both of their ends and all connectors between them; every head node becomes the head node of its network; the nodes that connect subnetworks are marked, and a connection at an unknown node is refused.", "quantifier": "for all network files (any number of nodes, bus bars, head nodes and connections, any column layout)", "why_tests_cant": "Four sections of the file are read in passes of their own and joined through names whose letter case and line endings differ.", "anchors": ["ditto/readers/cyme/read.py:973", "ditto/readers/cyme/read.py:1333", "ditto/readers/cyme/read.py:1352", "ditto/readers/cyme/read.py:1440"]}
{"id": "C106", "title": "Loads read from CYME", "statement": "Every section with customer loads becomes one load with the phases, the power and the shares of constant current, power and impedance of its customer loads, the connection, the node and the feeder of its section; the power follows from the value type (active and reactive, apparent with power factor, active with power factor).", "quantifier": "for all load files (any number of sections and customer loads, any values, any order of the parts of the file)", "why_tests_cant": "The customer loads of a section are told apart by stars in their keys and fused while the loop runs, with variables that survive from one customer load to the next and with letter case that changes between the dictionaries.", "anchors": ["ditto/readers/cyme/read.py:5563", "ditto/readers/cyme/read.py:5601", "ditto/readers/cyme/read.py:5683", "ditto/readers/cyme/read.py:5739", "ditto/readers/cyme/read.py:5795", "ditto/readers/cyme/read.py:5864"]}
{"id": "C107", "title": "The load file written for CYME", "statement": "Writing the loads of a model gives a load file with one line per load in the loads part and one in the customer loads part, in order, with the section, connection, phases, power in kW and kvar and center tap shares of that load; each load also gives one section from its element to its name, and each load name one node, filed under the feeder of the load.", "quantifier": "for all lists of loads with names, elements and phases (any number, any values, any printing of numbers, any hash)", "why_tests_cant": "The file, the sections per feeder, the nodes and the head nodes are gathered in one loop over all loads with state shared between rounds, among it the power of the load before.", "anchors": ["ditto/writers/cyme/write.py:52", "ditto/writers/cyme/write.py:4872", "ditto/writers/cyme/write.py:4960", "ditto/writers/cyme/write.py:5076", "ditto/writers/cyme/write.py:5122"]}
{"id": "C108", "title": "A switch of each feeder becomes a recloser", "statement": "For every substation connection below 69 kV, the closed switch at the drawn depth on the way down from it becomes a recloser and no longer a switch; if the way has fewer switches nothing changes. Nothing else in the model changes.", "quantifier": "for all models, networks, draws and numbers of feeders", "why_tests_cant": "The walk depends on the shape of the whole network and on variables that survive from one feeder to the next.", "anchors": ["ditto/modify/system_structure.py:435", "ditto/modify/system_structure.py:457", "ditto/modify/system_structure.py:476"]}
{"id": "C109", "title": "The head nodes of the feeders", "statement": "Every feeder gets as head node the first successor of its substation whose name is the feeder's name, as it is, without the letters x around it, or with its two sides turned round; in the last case also the nominal voltage of that node. A feeder without such a node is unchanged.", "quantifier": "for all lists of feeders, all names and all networks", "why_tests_cant": "The names are matched by three transformations of text in turn, on lists of any length.", "anchors": ["ditto/modify/system_structure.py:178", "ditto/modify/system_structure.py:187", "ditto/modify/system_structure.py:198"]}
{"id": "C110", "title": "The positions of the loads", "statement": "A load without a position gets the position of its connecting element, moved by the given deltas; all other objects are unchanged.", "quantifier": "for all models and all deltas", "why_tests_cant": "The function swallows every exception, so that its failure is silent.", "anchors": ["ditto/modify/system_structure.py:275", "ditto/modify/system_structure.py:316"]}
{"id": "C111", "title": "The sources of a CYME network", "statement": "Without a table of sources every source equivalent of the default load model becomes one power source; with one, every source of a known substation does. The source is at the node of its row, is named after it, and has the voltage and the sequence impedances of the rows.", "quantifier": "for all tables of sections, sources, source equivalents and substations", "why_tests_cant": "The node is looked up among all sections with variables that survive from one source to the next.", "anchors": ["ditto/readers/cyme/read.py:1015", "ditto/readers/cyme/read.py:1085", "ditto/readers/cyme/read.py:1168", "ditto/readers/cyme/read.py:1175", "ditto/readers/cyme/read.py:1230"]}
{"id": "C112", "title": "The capacitors of a CYME network", "statement": "Every capacitor setting becomes one capacitor at the first node of its section, with the feeder and the phases of the section, the connection of the code, the voltage of its rating or of its equipment, and for each phase the fixed reactive power, else the switched one, else that of the equipment.", "quantifier": "for all tables of settings, equipment and sections", "why_tests_cant": "Most assignments are under a bare except, so that what arrives depends on every cell of three tables.", "anchors": ["ditto/readers/cyme/read.py:3830", "ditto/readers/cyme/read.py:3954", "ditto/readers/cyme/read.py:4048", "ditto/readers/cyme/read.py:4093"]}
{"id": "C113", "title": "The switching devices of a CYME network", "statement": "Every setting of a switch, sectionalizer, fuse, recloser, breaker or network protector becomes one line of that kind, with the ends and the feeder of its section and a wire for each phase of the section and the neutral one. A wire is open exactly if its phase is not among the closed ones.", "quantifier": "for all settings, sections and equipment", "why_tests_cant": "The state of a wire comes from codes of phases, the neutral wire from a counter that the phases before it drive.", "anchors": ["ditto/readers/cyme/read.py:1442", "ditto/readers/cyme/read.py:2397", "ditto/readers/cyme/read.py:2496", "ditto/readers/cyme/read.py:2524"]}
{"id": "C114", "title": "The lines of a CYME network", "statement": "Every setting with the data of a line or cable becomes one line, with the ends and the feeder of its section, a wire for each phase and each neutral conductor, and the impedance matrix in ohms per metre of the sequence impedances or of the phase impedances in the tables. The other settings become nothing.", "quantifier": "for all settings, sections and equipment", "why_tests_cant": "Which of four tables applies, which conductors and which neutral wires depends on every cell, and the matrix on the phases of the section.", "anchors": ["ditto/readers/cyme/read.py:3009", "ditto/readers/cyme/read.py:3065", "ditto/readers/cyme/read.py:3133", "ditto/readers/cyme/read.py:3212", "ditto/readers/cyme/read.py:3371"]}
{"id": "C115", "title": "Every switching device gets an ampacity", "statement": "Filling in the ampacities leaves a device whose wires all have one as it is, gives the wires of a device with some of them the largest, and gives those of a device without any the largest of an object next to it or to one further out. Afterwards every device between two nodes is rated and no rating is made up.", "quantifier": "for all models, networks and draws of the random choices", "why_tests_cant": "The search takes random turns and its result depends on the ratings set before.", "anchors": ["ditto/modify/system_structure.py:1117", "ditto/modify/system_structure.py:1163", "ditto/modify/system_structure.py:1187", "ditto/modify/system_structure.py:1229"]}
{"id": "C116", "title": "A loop is cut in the middle of its section with the fewest phases", "statement": "middle_single_phase returns two neighbouring nodes in the middle of the longest section of the loop with the fewest phases, and a loop is opened there.", "quantifier": "for all loops and phases", "why_tests_cant": "Runs of nodes wrap round the end of the list, so that every position of the section has to be considered.", "anchors": ["ditto/network/network.py:487", "ditto/network/network.py:499", "ditto/network/network.py:525"]}
{"id": "C117", "title": "Transformers point to their loads and have the phase of their lines", "statement": "fix_transformer_phase_path changes only transformers that are the only one between the source and some load. Such a transformer ends at the node on the side of the loads, and one with a single phase has the phase of the lines with a single phase above it.", "quantifier": "for all networks, loads and orders of the loads", "why_tests_cant": "The same transformer is visited once for each load below it, in the order of a set, and each visit starts from the result of the one before.", "anchors": ["ditto/consistency/fix_transformer_phase_path.py:25", "ditto/consistency/fix_transformer_phase_path.py:66", "ditto/consistency/fix_transformer_phase_path.py:77", "ditto/consistency/fix_transformer_phase_path.py:94"]}
{"id": "C118", "title": "Every regulator setting of CYME becomes its regulators", "statement": "Each regulator setting becomes one regulator per phase it is on, in order, with the bandwidth, ratios, set points and position that the setting and its equipment state.", "quantifier": "for all settings, sections, equipments and number formats", "why_tests_cant": "The cells come from the setting, the section or the equipment depending on which of them are there and readable.", "anchors": ["ditto/readers/cyme/read.py:4981", "ditto/readers/cyme/read.py:5096", "ditto/readers/cyme/read.py:5189", "ditto/readers/cyme/read.py:5238"]}
{"id": "C119", "title": "Every network equivalent of CYME becomes its lines and loads", "statement": "Each network equivalent becomes a line with the impedances it states and a load at each end whose powers are not zero.", "quantifier": "for all settings, sections and number formats", "why_tests_cant": "Which objects arise depends on which of a dozen cells are there, readable and not zero.", "anchors": ["ditto/readers/cyme/read.py:5299", "ditto/readers/cyme/read.py:5434", "ditto/readers/cyme/read.py:5460", "ditto/readers/cyme/read.py:5515"]}
{"id": "C120", "title": "Every transformer setting of CYME becomes its transformer", "statement": "Each setting becomes one transformer, in order, with the number of windings, the powers, voltages, connections, taps and impedances of its type and equipment.", "quantifier": "for all settings, sections, equipments and number formats", "why_tests_cant": "Four types of transformers and the arithmetic of the symmetrical components over all numbers.", "anchors": ["ditto/readers/cyme/read.py:4166", "ditto/readers/cyme/read.py:4576", "ditto/readers/cyme/read.py:4744", "ditto/readers/cyme/read.py:4777"]}
{"id": "C121", "title": "A transformer with a load tap changer gets its regulator", "statement": "A transformer whose equipment has a load tap changer, and only such a one, gets a regulator with the bandwidth of the equipment and the tap limits and ratios of the setting.", "quantifier": "for all settings, sections, equipments and number formats", "why_tests_cant": "Depends on the text of a flag and on roundings of arbitrary numbers.", "anchors": ["ditto/readers/cyme/read.py:4777", "ditto/readers/cyme/read.py:4832"]}
{"id": "C122", "title": "Every photovoltaic setting of CYME becomes its photovoltaic", "statement": "Each setting becomes one photovoltaic, in order, with its phases, node and temperature. The tables about a device (generation model, converter, control) go to the photovoltaic with its number; of several rows the last readable one counts, and the control curve is the one named there.", "quantifier": "for all settings, tables, numbers of rows and number formats", "why_tests_cant": "Any number of rows about the same device overwrite each other, in three tables that set some of the same attributes.", "anchors": ["ditto/readers/cyme/read.py:6158", "ditto/readers/cyme/read.py:6287", "ditto/readers/cyme/read.py:6311", "ditto/readers/cyme/read.py:6363"]}
{"id": "C123", "title": "Every battery setting of CYME becomes its storage", "statement": "Each setting becomes one storage, in order, with the capacity, efficiencies and power of its battery spread evenly over its phases, the stored energy and reserve of the setting and the ratings of its converter.", "quantifier": "for all settings, batteries, tables and number formats", "why_tests_cant": "Depends on which of the cells are there and readable and on rows of other tables about the same number.", "anchors": ["ditto/readers/cyme/read.py:6202", "ditto/readers/cyme/read.py:6245", "ditto/readers/cyme/read.py:6262", "ditto/readers/cyme/read.py:6344"]}
{"id": "C124", "title": "Distances from the substation are the lengths of shortest ways", "statement": "The average distances of regulators, capacitors and reclosers and the furthest node of a network are those of shortest ways from the source, over the lengths of the lines. For a feeder without the source, the way to the source is added first. Objects without a length add nothing.", "quantifier": "for all networks with any loops, lengths and objects, and every source", "why_tests_cant": "Shortest among all ways of all lengths, in networks of any size.", "anchors": ["ditto/metrics/network_analysis.py:2177", "ditto/metrics/network_analysis.py:2209", "ditto/metrics/network_analysis.py:2241", "ditto/metrics/network_analysis.py:2274", "ditto/metrics/network_analysis.py:2299"]}
{"id": "C125", "title": "Nodes take the voltage of their transformer", "statement": "set_node_voltages gives every named node the nominal voltage of the last winding of the nearest transformer above it. A node with no transformer above keeps its voltage, and no other object changes.", "quantifier": "for all models, networks, orders of objects and voltages", "why_tests_cant": "Depends on the orientation of the whole network and on which object bears a name last.", "anchors": ["ditto/store.py:186", "ditto/network/network.py:349"]}
{"id": "C126", "title": "Impedances between two nodes are those of the lines on the way", "statement": "The list has the positive-sequence impedance of each line on the shortest way between the nodes, in the order of the way; a line drawn against the way counts too, and of several lines in one direction the last.", "quantifier": "for all ways, lines, drawn in either direction, and matrices", "why_tests_cant": "Every sequence of lines and other equipment, with matrices of any entries.", "anchors": ["ditto/metrics/network_analysis.py:2119", "ditto/metrics/network_analysis.py:2137", "ditto/metrics/network_analysis.py:2158"]}
{"id": "C127", "title": "Lines of Windmil files have the wires of their phases", "statement": "Every line, switch and device of a Windmil file becomes a Line with its ends, name, feeder, positions and, for each of its phases and its neutrals, a wire of its own conductor with that conductor's data, whatever lines were read before.", "quantifier": "for all networks, orders of edges, phases, conductors and libraries", "why_tests_cant": "The reader extends a table that all later lines share, so the result could depend on every line before.", "anchors": ["ditto/readers/windmil_ascii/read.py:99", "ditto/readers/windmil_ascii/read.py:226", "ditto/readers/windmil_ascii/read.py:267"]}
{"id": "C128", "title": "Loads of Windmil files are read at their nodes", "statement": "Every enabled load of a Windmil file becomes a load at its node with its mix, connection and, on each phase, the power of the file for that phase.", "quantifier": "for all networks, loads, mixes and lines read before", "why_tests_cant": "Depends on the table that all lines have extended and on every combination of phases, mixes and nodes.", "anchors": ["ditto/readers/windmil_ascii/read.py:361", "ditto/readers/windmil_ascii/read.py:407"]}
{"id": "C129", "title": "Capacitors of Windmil files are read", "statement": "Every capacitor of a Windmil file that is not disconnected becomes a capacitor at its node.", "quantifier": "for all networks, capacitors and loads", "why_tests_cant": "Whether any input at all gives a capacitor is a question about every input.", "anchors": ["ditto/readers/windmil_ascii/read.py:428", "ditto/readers/windmil_ascii/read.py:434"]}
{"id": "C130", "title": "Transformers of Windmil files keep impedance and voltages", "statement": "Every transformer of a Windmil file that names some equipment becomes a transformer whose windings together have the resistance, and which has the reactance, that make up the impedance of its kind in its ratio X/R; windings have the voltages, connections and rated power of the file.", "quantifier": "for all networks, kinds, ratios, impedances and phases", "why_tests_cant": "Holds for all real impedances and ratios, and for whichever kind is picked from a set.", "anchors": ["ditto/readers/windmil_ascii/read.py:480", "ditto/readers/windmil_ascii/read.py:497", "ditto/readers/windmil_ascii/read.py:540"]}
{"id": "C131", "title": "Edges of Windmil graphs take the voltage from above", "statement": "After the graph is built every edge has the voltage of the nearest edge at or above it that has one in the file, whatever the order of the edges.", "quantifier": "for all graphs, orders of edges and voltages, with no bound on the length of the ways", "why_tests_cant": "The values are written along whole paths and read again by later edges; no test covers every order and depth.", "anchors": ["ditto/readers/windmil_ascii/wm_reader.py:112", "ditto/readers/windmil_ascii/wm_reader.py:117", "ditto/readers/windmil_ascii/wm_reader.py:124"]}
{"id": "C132", "title": "Regulators of Windmil files", "statement": "Every regulator of a Windmil file that names some equipment becomes a regulator with a transformer of its own between the same ends, with the voltage of its place, and for each phase its own compensator settings and a tap in the direction of the set voltage.", "quantifier": "for all networks, kinds, phases, settings and voltages", "why_tests_cant": "Depends on all combinations of phases, settings and on where the regulator is in the network.", "anchors": ["ditto/readers/windmil_ascii/read.py:564", "ditto/readers/windmil_ascii/read.py:622", "ditto/readers/windmil_ascii/read.py:669"]}
{"id": "C133", "title": "The convert command writes what was read, or nothing", "statement": "`ditto convert` refuses formats that have no reader or writer before it reads anything; it gives the reader the files and options asked for; whatever fails, what is written is a beginning of: the JSON file if asked for, then the output, both of the model that the reader made of the input; all of it is written exactly when the command succeeds.", "quantifier": "for all options, registered readers and writers, configuration files, and all places where a reader or writer fails", "why_tests_cant": "Tests run a few formats that succeed; failures of every reader and writer at each step cannot be listed.", "anchors": ["ditto/converter.py:106", "ditto/converter.py:232", "ditto/cli.py:160"]}
{"id": "C134", "title": "The metric command exports the metrics of the model read", "statement": "`ditto metric` exports the metrics of the model that the reader made of the input, once, to the file of the format asked for, or fails without an export; other formats are refused.", "quantifier": "for all inputs, readers, formats in capitals or not, and failures", "why_tests_cant": "Same as for conversions; the format is only looked at after the computation.", "anchors": ["ditto/metric_computer.py:44", "ditto/metric_computer.py:64", "ditto/cli.py:101"]}
{"id": "C135", "title": "The distance of points is a metric", "statement": "`distance` of the readers is the euclidean distance in every dimension: zero exactly for equal points, symmetric, with the triangle inequality and the theorem of Pythagoras; points of different dimensions are a ValueError.", "quantifier": "for all points in all dimensions", "why_tests_cant": "Inequalities over all points and dimensions.", "anchors": ["ditto/readers/abstract_reader.py:344", "ditto/readers/abstract_reader.py:360", "ditto/readers/abstract_reader.py:365"]}
{"id": "C136", "title": "Impedance matrix of CYME lines given by a spacing", "statement": "The impedance matrix of a CYME line that is given by a spacing and conductors has one row for each phase, with Carson's impedances of its conductors at the places of the spacing, in ohms per meter, and is symmetric.", "quantifier": "for all tables of spacings and conductors, all lists of phases, with or without neutrals", "why_tests_cant": "Depends on which columns and conductors are given, and on real arithmetic.", "anchors": ["ditto/readers/cyme/read.py:3514", "ditto/readers/cyme/read.py:3573", "ditto/readers/cyme/read.py:3695", "ditto/readers/cyme/read.py:3713"]}
{"id": "C137", "title": "Phase impedances of a list of wires", "statement": "The phase impedance matrix of overhead wires has Carson's self and mutual impedances of the wires, at their distances; that of underground cables is the reduction of the matrix of cables and concentric neutrals; values that are missing are replaced by defaults.", "quantifier": "for all lists of wires, overhead and underground", "why_tests_cant": "Over all numbers of wires and their places, with real arithmetic.", "anchors": ["ditto/readers/abstract_reader.py:534", "ditto/readers/abstract_reader.py:575", "ditto/readers/abstract_reader.py:598", "ditto/readers/abstract_reader.py:607", "ditto/readers/abstract_reader.py:715", "ditto/readers/abstract_reader.py:745"]}
{"id": "C138", "title": "Impedance matrix of Windmil lines", "statement": "The impedance matrix of a line of a Windmil file has one row for each phase, with Carson's impedances of the wires at the places the reader gives them, in ohms per meter, with the neutrals eliminated.", "quantifier": "for all lists of wires, with any number of neutrals", "why_tests_cant": "The matrix is computed anew for each wire, over all lists of wires and real values.", "anchors": ["ditto/readers/windmil_ascii/read.py:268", "ditto/readers/windmil_ascii/read.py:283", "ditto/readers/windmil_ascii/read.py:337", "ditto/readers/windmil_ascii/read.py:344", "ditto/readers/windmil_ascii/read.py:356"]}
{"id": "C139", "title": "Files, nodes and sources of Windmil projects", "statement": "A Windmil project is read from the last file of each kind in its folder, in any letter case, with the header and first rows of its kind; a folder without a readable file of circuit elements is a ValueError; every node of the graph becomes one node with its position; every substation becomes one source with its voltages and connection.", "quantifier": "for all folders, readable or not, and all graphs", "why_tests_cant": "Depends on every listing of a folder and every set of attributes in the graph.", "anchors": ["ditto/readers/windmil_ascii/wm_reader.py:21", "ditto/readers/windmil_ascii/wm_reader.py:53", "ditto/readers/windmil_ascii/wm_reader.py:88", "ditto/readers/windmil_ascii/read.py:48", "ditto/readers/windmil_ascii/read.py:87", "ditto/readers/windmil_ascii/read.py:600"]}
{"id": "C140", "title": "Buses, switches and sources of the ePhasor tables", "statement": "The ePhasor writer puts one row for each phase of each node into the table of buses, with the voltage to ground, the angle of the phase and the slack type for the source bus only; one row for each phase of each switch, with its status; one row for each source, with the buses of its phases, in kV and MVA.", "quantifier": "for all networks, with any phases in any order and any missing attributes", "why_tests_cant": "The columns of a table are filled at different places of nested loops and are joined by position.", "anchors": ["ditto/writers/ephasor/write.py:138", "ditto/writers/ephasor/write.py:883", "ditto/writers/ephasor/write.py:940", "ditto/writers/ephasor/write.py:969", "ditto/writers/ephasor/write.py:1030"]}
{"id": "C141", "title": "Every load has its row in the ePhasor table", "statement": "The loads of the phases of one load (the same name with a, b or c behind it) share one row of the ePhasor table of loads, every other load has a row of its own, and the row carries the name of the load without \"load_\" in front.", "quantifier": "for all lists of loads, in any order", "why_tests_cant": "The row index is carried from load to load, so the order of all loads matters.", "anchors": ["ditto/writers/ephasor/write.py:1123", "ditto/writers/ephasor/write.py:1128", "ditto/writers/ephasor/write.py:1147", "ditto/writers/ephasor/write.py:1151"]}
