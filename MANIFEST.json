{
 "claims": [
  {
   "property": "C01",
   "status": "proved",
   "theorems": [
    "C01_site_id_index"
   ],
   "note": ""
  },
  {
   "property": "C02",
   "status": "proved",
   "theorems": [
    "C02_bond_id_index"
   ],
   "note": ""
  },
  {
   "property": "C03",
   "status": "proved",
   "theorems": [
    "C03_coordination"
   ],
   "note": ""
  },
  {
   "property": "C04",
   "status": "proved",
   "theorems": [
    "C04_incidence"
   ],
   "note": ""
  },
  {
   "property": "C05",
   "status": "proved",
   "theorems": [
    "C05_neighbours"
   ],
   "note": ""
  },
  {
   "property": "C08",
   "status": "proved",
   "theorems": [
    "C08_distance_adjacent",
    "C08_distance_periodic_refuted",
    "C08_distance_exact"
   ],
   "note": "the general claim is false; the refutation gives the witness"
  },
  {
   "property": "C09",
   "status": "proved",
   "theorems": [
    "C09_four_neighbours",
    "C09_all_sizes"
   ],
   "note": "exact description of the failing sites"
  },
  {
   "property": "C06",
   "status": "proved",
   "theorems": [
    "C06_construction"
   ],
   "note": ""
  },
  {
   "property": "C07",
   "status": "proved",
   "theorems": [
    "C07_geometry_constant"
   ],
   "note": ""
  },
  {
   "property": "C10",
   "status": "proved",
   "theorems": [
    "C10_placement_effect"
   ],
   "note": ""
  },
  {
   "property": "C11",
   "status": "proved",
   "theorems": [
    "C11_occupation_count"
   ],
   "note": ""
  },
  {
   "property": "C12",
   "status": "proved",
   "theorems": [
    "C12_bond_partition"
   ],
   "note": ""
  },
  {
   "property": "C13",
   "status": "proved",
   "theorems": [
    "C13_site_partition"
   ],
   "note": ""
  },
  {
   "property": "C14",
   "status": "proved",
   "theorems": [
    "C14_components"
   ],
   "note": ""
  },
  {
   "property": "C15",
   "status": "proved",
   "theorems": [
    "C15_bond_components"
   ],
   "note": ""
  },
  {
   "property": "C16",
   "status": "proved",
   "theorems": [
    "C16_largest"
   ],
   "note": ""
  },
  {
   "property": "C20",
   "status": "proved",
   "theorems": [
    "C20_order_param_largest"
   ],
   "note": ""
  },
  {
   "property": "C21",
   "status": "proved",
   "theorems": [
    "C21_order_param_wrapping"
   ],
   "note": ""
  },
  {
   "property": "C22",
   "status": "proved",
   "theorems": [
    "C22_wrapping_sound"
   ],
   "note": ""
  },
  {
   "property": "C25",
   "status": "proved",
   "theorems": [
    "C25_small_lattices_never_wrap"
   ],
   "note": ""
  },
  {
   "property": "C26",
   "status": "proved",
   "theorems": [
    "C26_wrapping_permanent"
   ],
   "note": ""
  },
  {
   "property": "C27",
   "status": "proved",
   "theorems": [
    "C27_critical_values_frozen"
   ],
   "note": ""
  },
  {
   "property": "C28",
   "status": "proved",
   "theorems": [
    "C28_displacement",
    "C28_unit_offsets"
   ],
   "note": ""
  },
  {
   "property": "C29",
   "status": "proved",
   "theorems": [
    "C29_neighbour_offset"
   ],
   "note": ""
  },
  {
   "property": "C30",
   "status": "proved",
   "theorems": [
    "C30_self_checks"
   ],
   "note": ""
  },
  {
   "property": "C37",
   "status": "proved",
   "theorems": [
    "C37_reset_fresh"
   ],
   "note": ""
  },
  {
   "property": "C55",
   "status": "proved",
   "theorems": [
    "C55_sizes"
   ],
   "note": ""
  },
  {
   "property": "C23",
   "status": "proved",
   "theorems": [
    "C23_wrapping_exact"
   ],
   "note": ""
  },
  {
   "property": "C24",
   "status": "proved",
   "theorems": [
    "C24_skipped_detection_refuted"
   ],
   "note": "existence of the losing history, L = 3"
  },
  {
   "property": "C38",
   "status": "proved",
   "theorems": [
    "C38_permutation"
   ],
   "note": ""
  },
  {
   "property": "C54",
   "status": "proved",
   "theorems": [
    "C54_swap_ids"
   ],
   "note": ""
  },
  {
   "property": "C31",
   "status": "proved",
   "theorems": [
    "C31_run_length"
   ],
   "note": ""
  },
  {
   "property": "C32",
   "status": "proved",
   "theorems": [
    "C32_final_state"
   ],
   "note": "every class whose run_once continues to the end; the shortest-path class stops early, see C50"
  },
  {
   "property": "C39",
   "status": "proved",
   "theorems": [
    "C39_bad_lists"
   ],
   "note": ""
  },
  {
   "property": "C40",
   "status": "proved",
   "theorems": [
    "C40_custom_ids",
    "C40_custom_indices"
   ],
   "note": ""
  },
  {
   "property": "C41",
   "status": "proved",
   "theorems": [
    "C41_index_alias"
   ],
   "note": ""
  },
  {
   "property": "C42",
   "status": "proved",
   "theorems": [
    "C42_duplicate"
   ],
   "note": ""
  },
  {
   "property": "C43",
   "status": "proved",
   "theorems": [
    "C43_aliased_list"
   ],
   "note": ""
  },
  {
   "property": "C48",
   "status": "proved",
   "theorems": [
    "C48_detect_unplaced"
   ],
   "note": ""
  },
  {
   "property": "C33",
   "status": "proved",
   "theorems": [
    "C33_C34_iterations",
    "C33_C34_run"
   ],
   "note": ""
  },
  {
   "property": "C34",
   "status": "proved",
   "theorems": [
    "C33_C34_iterations",
    "C33_C34_run"
   ],
   "note": ""
  },
  {
   "property": "C35",
   "status": "proved",
   "theorems": [
    "C35_selected_L1",
    "C35_C36_placement"
   ],
   "note": ""
  },
  {
   "property": "C36",
   "status": "proved",
   "theorems": [
    "C36_selected_L2",
    "C35_C36_placement"
   ],
   "note": ""
  },
  {
   "property": "C44",
   "status": "proved",
   "theorems": [
    "C44_short_list"
   ],
   "note": ""
  },
  {
   "property": "C49",
   "status": "proved",
   "theorems": [
    "C49_cycles",
    "C49_other_length"
   ],
   "note": "cycles for every class except the shortest-path one, whose run_once records p*; the length mismatch for the base/L0 rules"
  },
  {
   "property": "C45",
   "status": "proved",
   "theorems": [
    "C45_recorded_order"
   ],
   "note": ""
  },
  {
   "property": "C47",
   "status": "proved",
   "theorems": [
    "C47_no_exceptions"
   ],
   "note": "histories of plain calls: no custom list, no swap_ids; run_once with enough loop fuel (5*L*L+1)"
  },
  {
   "property": "C50",
   "status": "proved",
   "theorems": [
    "C50_stops",
    "C50_first_full_line_refuted"
   ],
   "note": ""
  },
  {
   "property": "C51",
   "status": "proved",
   "theorems": [
    "C51_scans"
   ],
   "note": ""
  },
  {
   "property": "C52",
   "status": "proved",
   "theorems": [
    "C52_test_run_once"
   ],
   "note": "reachability of the AssertionError: ex_C52"
  },
  {
   "property": "C17",
   "status": "proved",
   "theorems": [
    "C17_entropy_exact"
   ],
   "note": "exact real arithmetic"
  },
  {
   "property": "C18",
   "status": "proved",
   "theorems": [
    "C18_entropy_bounds"
   ],
   "note": "exact real arithmetic"
  },
  {
   "property": "C19",
   "status": "proved",
   "theorems": [
    "C19_entropy_decreases"
   ],
   "note": "exact real arithmetic; for whole histories without reset, with the equality case"
  },
  {
   "property": "C46",
   "status": "proved",
   "theorems": [
    "C46_set_order"
   ],
   "note": "for every history of calls, including runs; the outcome of every further call agrees as well"
  },
  {
   "property": "C53",
   "status": "proved",
   "theorems": [
    "C53_replay_L1"
   ],
   "note": "entropies in exact arithmetic, and as the same floating-point expression when sets iterate in the same order"
  },
  {
   "property": "C60",
   "status": "proved",
   "theorems": [
    "C60_same_events"
   ],
   "note": "histories of single steps; for run_once see C46 and C53; labels and floating-point expressions equal when sets iterate in the same order"
  },
  {
   "property": "C61",
   "status": "proved",
   "theorems": [
    "C61_new_object",
    "C61_reset",
    "C61_custom_list"
   ],
   "note": "random.shuffle is modelled as the Fisher-Yates loop of CPython over an abstract stream of words; uniformity of the words themselves is not modelled"
  },
  {
   "property": "C56",
   "status": "proved",
   "theorems": [
    "C56_ensembles",
    "C56_empty_ensemble",
    "C56_worker_pools",
    "C56_wrong_arguments"
   ],
   "note": "averages in exact real arithmetic; the two oldest pool drivers pass their arguments in the wrong order and fail in every worker (C56_wrong_arguments)"
  },
  {
   "property": "C57",
   "status": "proved",
   "theorems": [
    "C57_columns",
    "C57_labels_refuted"
   ],
   "note": "run_ensemble_entropy_order_threads labels its columns correctly; the other drivers swap P1 and P2"
  },
  {
   "property": "C58",
   "status": "proved",
   "theorems": [
    "C58_find_intersection",
    "C58_horizontal_line"
   ],
   "note": "finite floats as rationals: the sign of a float difference is the sign of the exact one"
  },
  {
   "property": "C59",
   "status": "proved",
   "theorems": [
    "C59_print_duration"
   ],
   "note": "float subtraction of whole seconds is exact below 2^53"
  },
  {
   "property": "C62",
   "status": "proved",
   "theorems": [
    "C62_names_identify_runs",
    "C62_files_of_one_run",
    "C62_workers_do_not_collide",
    "C62_serial_runs_overwrite"
   ],
   "note": ""
  },
  {
   "property": "C63",
   "status": "proved",
   "theorems": [
    "C63_straight_lines",
    "C63_default_xrange",
    "C63_other_sizes"
   ],
   "note": "np.linspace in exact arithmetic"
  },
  {
   "property": "C64",
   "status": "proved",
   "theorems": [
    "C64_seeded_runs",
    "C64_set_orders"
   ],
   "note": "the stream started by a seed is a parameter"
  },
  {
   "property": "C65",
   "status": "proved",
   "theorems": [
    "C65_files_replay",
    "C65_files_exist",
    "C65_L2_files_refuted"
   ],
   "note": "writing and reading JSON is not modelled"
  },
  {
   "property": "C66",
   "status": "proved",
   "theorems": [
    "C66_merged_label"
   ],
   "note": ""
  },
  {
   "property": "C67",
   "status": "proved",
   "theorems": [
    "C67_few_relabellings",
    "C67_total"
   ],
   "note": "calls that relabel a bond several times (run_once) count once"
  },
  {
   "property": "C68",
   "status": "proved",
   "theorems": [
    "C68_self_checks"
   ],
   "note": ""
  },
  {
   "property": "C69",
   "status": "proved",
   "theorems": [
    "C69_row_scan",
    "C69_row_scan_exact",
    "C69_row_scan_wrapped_refuted"
   ],
   "note": "after wrapping the scan can fail on a correct lattice; it is disabled in test_lattice"
  },
  {
   "property": "C70",
   "status": "proved",
   "theorems": [
    "C70_view_lattice"
   ],
   "note": "the printed text is read back as the integers it contains, line by line"
  },
  {
   "property": "C71",
   "status": "proved",
   "theorems": [
    "C71_view_clusters"
   ],
   "note": "the printed text is read back as the integers it contains, line by line"
  },
  {
   "property": "C72",
   "status": "proved",
   "theorems": [
    "C72_listings"
   ],
   "note": ""
  },
  {
   "property": "C73",
   "status": "proved",
   "theorems": [
    "C73_reinitialise"
   ],
   "note": "the messages printed by init_ids when called again are not modelled"
  },
  {
   "property": "C74",
   "status": "proved",
   "theorems": [
    "C74_critical_site"
   ],
   "note": ""
  },
  {
   "property": "C75",
   "status": "proved",
   "theorems": [
    "C75_critical_range"
   ],
   "note": ""
  },
  {
   "property": "C76",
   "status": "proved",
   "theorems": [
    "C76_drive_to_wrapping"
   ],
   "note": ""
  },
  {
   "property": "C77",
   "status": "proved",
   "theorems": [
    "C77_drive_to_end"
   ],
   "note": ""
  },
  {
   "property": "C78",
   "status": "proved",
   "theorems": [
    "C78_summary",
    "C78_first_number",
    "C78_summary_of_a_run"
   ],
   "note": "the label of the second number is misleading: it counts iterations that selected nothing"
  },
  {
   "property": "C79",
   "status": "proved",
   "theorems": [
    "C79_two_wrapping_clusters_refuted"
   ],
   "note": "a counterexample: two wrapping clusters, the recorded one is the smaller"
  },
  {
   "property": "C80",
   "status": "proved",
   "theorems": [
    "C80_float_ratios"
   ],
   "note": "binary64 with round-to-nearest-even (Flocq), L <= 2^24"
  },
  {
   "property": "C81",
   "status": "proved",
   "theorems": [
    "C81_float_entropy",
    "C81_float_entropy_monotone"
   ],
   "note": "binary64, L <= 2^20; the accuracy of the C library logarithm is a hypothesis of the theorem (relative error 2^-51)"
  },
  {
   "property": "C82",
   "status": "proved",
   "theorems": [
    "C82_run_curve",
    "C82_average_curve"
   ],
   "note": ""
  },
  {
   "property": "C83",
   "status": "proved",
   "theorems": [
    "C83_shortest_path_ensemble",
    "C83_worker_pools"
   ],
   "note": ""
  },
  {
   "property": "C84",
   "status": "proved",
   "theorems": [
    "C84_late_detection"
   ],
   "note": "detection skipped arbitrarily while nothing wraps; C24 shows it can fail once something wraps"
  },
  {
   "property": "C85",
   "status": "proved",
   "theorems": [
    "C85_growing_lists"
   ],
   "note": ""
  },
  {
   "property": "C86",
   "status": "proved",
   "theorems": [
    "C86_simulation_tests"
   ],
   "note": "L <= 2: the shipped tests fail with AssertionError"
  },
  {
   "property": "C87",
   "status": "proved",
   "theorems": [
    "C87_config_1",
    "C87_config_2",
    "C87_large_lattice",
    "C87_custome_lattice"
   ],
   "note": "config_2 raises ValueError under L1 and L2"
  },
  {
   "property": "C88",
   "status": "proved",
   "theorems": [
    "C88_announcements"
   ],
   "note": ""
  },
  {
   "property": "C89",
   "status": "proved",
   "theorems": [
    "C89_without_detection",
    "C89_L2"
   ],
   "note": "the base demonstration never calls detection, so its order column is 0 although the lattice fills up"
  },
  {
   "property": "C90",
   "status": "proved",
   "theorems": [
    "C90_L0",
    "C90_L1"
   ],
   "note": "the printed wrapping order parameter lags one placement behind detection"
  },
  {
   "property": "C91",
   "status": "proved",
   "theorems": [
    "C91_shortest_path_programs"
   ],
   "note": ""
  },
  {
   "property": "C92",
   "status": "proved",
   "theorems": [
    "C92_lattice_programs",
    "C92_drivers"
   ],
   "note": ""
  },
  {
   "property": "C93",
   "status": "proved",
   "theorems": [
    "C93_described",
    "C93_any_history"
   ],
   "note": ""
  },
  {
   "property": "C94",
   "status": "proved",
   "theorems": [
    "C94_symmetric_histories",
    "C94_symmetries"
   ],
   "note": ""
  },
  {
   "property": "C95",
   "status": "proved",
   "theorems": [
    "C95_order_irrelevant"
   ],
   "note": ""
  },
  {
   "property": "C96",
   "status": "proved",
   "theorems": [
    "C96_first_sites",
    "C96_equal_shares"
   ],
   "note": ""
  },
  {
   "property": "C97",
   "status": "proved",
   "theorems": [
    "C97_first_loop_anywhere"
   ],
   "note": ""
  },
  {
   "property": "C98",
   "status": "proved",
   "theorems": [
    "C98_unbroken",
    "C98_only_reset",
    "C98_recover",
    "C98_selection",
    "C98_resume"
   ],
   "note": ""
  },
  {
   "property": "C99",
   "status": "proved",
   "theorems": [
    "C99_points",
    "C99_stuck",
    "C99_error"
   ],
   "note": "the wish that a broken-off reset can be repeated is false; every reset passes three points where breaking it off is final"
  },
  {
   "property": "C100",
   "status": "proved",
   "theorems": [
    "C100_no_reset_refuted"
   ],
   "note": "existence of the losing history, L = 3"
  },
  {
   "property": "C101",
   "status": "proved",
   "theorems": [
    "C101_one_root",
    "C101_unoccupied"
   ],
   "note": ""
  },
  {
   "property": "C102",
   "status": "proved",
   "theorems": [
    "C102_merge_clusters",
    "C102_no_bonds"
   ],
   "note": "the wish that it joins clusters like the version in use is false as soon as two clusters are joined"
  },
  {
   "property": "C103",
   "status": "proved",
   "theorems": [
    "C103_bond_labels",
    "C103_site_labels"
   ],
   "note": ""
  },
  {
   "property": "C104",
   "status": "proved",
   "theorems": [
    "C104_consistent",
    "C104_calls",
    "C104_misuse",
    "C104_lookup",
    "C104_add"
   ],
   "note": ""
  },
  {
   "property": "C105",
   "status": "proved",
   "theorems": [
    "C105_translated_runs",
    "C105_all_draws_possible",
    "C105_equal_counts",
    "C105_equal_shares",
    "C105_first_loop"
   ],
   "note": "for every given sequence of later draws, hence also when they are random"
  },
  {
   "property": "C106",
   "status": "proved",
   "theorems": [
    "C106_first_two",
    "C106_third_call",
    "C106_some_never",
    "C106_in_coordinates"
   ],
   "note": "the wish that the L2 rule treats all sites alike is false from the third call on"
  },
  {
   "property": "C107",
   "status": "proved",
   "theorems": [
    "C107_place",
    "C107_pair_torn",
    "C107_reset",
    "C107_detect",
    "C107_lost",
    "C107_strength"
   ],
   "note": "the attributes one by one are never in between; pairs of them can be, and a broken-off detection is not made up for"
  },
  {
   "property": "C108",
   "status": "proved",
   "theorems": [
    "C108_as_alone",
    "C108_reachable",
    "C108_seed",
    "C108_interleave",
    "C108_orders",
    "C108_seed_refuted"
   ],
   "note": "the wish that a seeded object repeats its later runs whatever other objects do is refuted: the seed belongs to the process"
  },
  {
   "property": "C109",
   "status": "proved",
   "theorems": [
    "C109_safe",
    "C109_as_alone",
    "C109_undisturbed_refuted"
   ],
   "note": "the wish that objects given one list stay independent is refuted; what they report is right nevertheless"
  },
  {
   "property": "C110",
   "status": "proved",
   "theorems": [
    "C110_contents",
    "C110_live",
    "C110_reset",
    "C110_write",
    "C110_data_refuted"
   ],
   "note": "the wish that writing into a returned list does no harm to later data is refuted for the occupation-probability list"
  },
  {
   "property": "C111",
   "status": "proved",
   "theorems": [
    "C111_next",
    "C111_joint",
    "C111_sequences"
   ],
   "note": "plain, L0 and shortest-path classes; probabilities are counts over the vectors of indices that the shuffles draw"
  },
  {
   "property": "C112",
   "status": "proved",
   "theorems": [
    "C112_law",
    "C112_next",
    "C112_joint"
   ],
   "note": "L1 and L2 classes; probabilities are counts over the words taken from the random stream, for a word range that makes every index drawn fair"
  },
  {
   "property": "C113",
   "status": "proved",
   "theorems": [
    "C113_symmetries",
    "C113_orders",
    "C113_values",
    "C113_loops",
    "C113_L1"
   ],
   "note": "L1 and L2 classes, calls of place_one_site and detect_wrapping in any order after a first placement; for L2 the symmetries that keep the edge of the index range, translations are not among them (C106)"
  },
  {
   "property": "C114",
   "status": "proved",
   "theorems": [
    "C114_exists",
    "C114_refines",
    "C114_cluster",
    "C114_list",
    "C114_index",
    "C114_normalize",
    "C114_extend"
   ],
   "note": "all five classes, every history of API calls; the store model of Heap.v is proved to give the same answers as Perc.v"
  },
  {
   "property": "C115",
   "status": "proved",
   "theorems": [
    "C115_series",
    "C115_files",
    "C115_rules",
    "C115_rules_files",
    "C115_streams",
    "C115_deviations",
    "C115_converge",
    "C115_files_converge",
    "C115_rules_converge",
    "C115_rules_files_converge"
   ],
   "note": "exact real arithmetic; averages over all index lists (base, L0, SP classes) or over all words of a fair word range (L1, L2)"
  },
  {
   "property": "C116",
   "status": "proved",
   "theorems": [
    "C116_unbroken",
    "C116_recover",
    "C116_settled",
    "C116_resume",
    "C116_list_points",
    "C116_list_short_refuted",
    "C116_list_long_refuted",
    "C116_unsettled",
    "C116_swap_points",
    "C116_swap_lost"
   ],
   "note": "the two _refuted theorems show that recovery needs the condition on calls that set a sequence; calls are cut between statements"
  },
  {
   "property": "C117",
   "status": "proved",
   "theorems": [
    "C117_site_bonds",
    "C117_site_limit",
    "C117_tests",
    "C117_site_counts",
    "C117_site_id",
    "C117_site_gid",
    "C117_site_rel",
    "C117_site_prints",
    "C117_site_warns",
    "C117_bond_sites",
    "C117_bond_rest",
    "C117_in_lattice",
    "C117_bond_in_lattice",
    "C117_id_lists"
   ],
   "note": ""
  },
  {
   "property": "C118",
   "status": "proved",
   "theorems": [
    "C118_sum",
    "C118_normalize",
    "C118_make",
    "C118_relative"
   ],
   "note": ""
  },
  {
   "property": "C119",
   "status": "proved",
   "theorems": [
    "C119_new",
    "C119_reset",
    "C119_geometry",
    "C119_create",
    "C119_merge",
    "C119_missing",
    "C119_agree",
    "C119_offset",
    "C119_labels"
   ],
   "note": ""
  },
  {
   "property": "C120",
   "status": "proved",
   "theorems": [
    "C120_nonneg",
    "C120_negative",
    "C120_unusable",
    "C120_agree",
    "C120_constructor"
   ],
   "note": ""
  },
  {
   "property": "C121",
   "status": "proved",
   "theorems": [
    "C121_sets",
    "C121_law",
    "C121_joint",
    "C121_wrapping",
    "C121_earliest",
    "C121_largest"
   ],
   "note": ""
  },
  {
   "property": "C122",
   "status": "proved",
   "theorems": [
    "C122_curves",
    "C122_threshold"
   ],
   "note": ""
  },
  {
   "property": "C123",
   "status": "proved",
   "theorems": [
    "C123_rows",
    "C123_threshold",
    "C123_wrapping"
   ],
   "note": ""
  },
  {
   "property": "C124",
   "status": "proved",
   "theorems": [
    "C124_number",
    "C124_order",
    "C124_integer",
    "C124_fraction",
    "C124_table",
    "C124_critical"
   ],
   "note": ""
  },
  {
   "property": "C125",
   "status": "proved",
   "theorems": [
    "C125_accuracy",
    "C125_text"
   ],
   "note": ""
  },
  {
   "property": "C126",
   "status": "proved",
   "theorems": [
    "C126_curves",
    "C126_threshold",
    "C126_wrapping"
   ],
   "note": ""
  },
  {
   "property": "C127",
   "status": "proved",
   "theorems": [
    "C127_curves",
    "C127_threshold"
   ],
   "note": ""
  }
 ]
}