{
 "claims": [
  {
   "property": "C01",
   "status": "proved",
   "theorems": [
    "C01_inside_container"
   ],
   "note": "for every arithmetic of objective values"
  },
  {
   "property": "C02",
   "status": "partial",
   "theorems": [
    "C02_no_overlap_refuted",
    "C02_no_overlap_without_rotation_refuted",
    "C02_no_overlap_partial",
    "C02_overlapping_pairs",
    "C02_no_overlap_similar_partial",
    "C02_histories_partial",
    "C02_histories_processes_partial"
   ],
   "note": "False of the code (_check_fitting never scans the last row): two concrete valid problems, with and without rotation, are proved to overlap. True and proved when no permitted orientation is wider than 2, and when the widths different items can take differ by at most 1, for solve and for every history. When two items overlap, exactly how is proved (C02_overlapping_pairs, C03)."
  },
  {
   "property": "C03",
   "status": "proved",
   "theorems": [
    "C03_overlap_only_on_top_row",
    "C02_overlapping_pairs",
    "C02_no_overlap_partial"
   ],
   "note": ""
  },
  {
   "property": "C04",
   "status": "proved",
   "theorems": [
    "C04_ids_stored_once",
    "C04_solve_is_solve_full"
   ],
   "note": ""
  },
  {
   "property": "C05",
   "status": "proved",
   "theorems": [
    "C05_stored_dimensions"
   ],
   "note": ""
  },
  {
   "property": "C06",
   "status": "proved",
   "theorems": [
    "C06_solve_never_fails",
    "C06_fuel_is_irrelevant"
   ],
   "note": ""
  },
  {
   "property": "C07",
   "status": "proved",
   "theorems": [
    "C07_bin_objective_is_utilization"
   ],
   "note": "exact rational arithmetic"
  },
  {
   "property": "C08",
   "status": "partial",
   "theorems": [
    "C08_at_most_full_refuted",
    "C08_at_most_full_partial",
    "C08_at_most_full_similar_partial",
    "C08_below_twice_full_partial"
   ],
   "note": "False of the code because of the overlaps of C02 (13/12 on a 4x3 bin); proved for overlap-free containers, and < 2 always."
  },
  {
   "property": "C09",
   "status": "partial",
   "theorems": [
    "C09_strip_objective_refuted",
    "C09_strip_objective_partial"
   ],
   "note": "False of the code: the height used is max(1, height - 1). The exact value is proved."
  },
  {
   "property": "C10",
   "status": "partial",
   "theorems": [
    "C10_lower_is_better_refuted",
    "C10_lower_is_better_partial"
   ],
   "note": "False only for heights 1 against 2 (equal values); proved for all other pairs."
  },
  {
   "property": "C11",
   "status": "proved",
   "theorems": [
    "C11_first_fit",
    "C11_runs_are_constructions"
   ],
   "note": ""
  },
  {
   "property": "C12",
   "status": "proved",
   "theorems": [
    "C12_leftovers_fit_nowhere",
    "C12_empty_container"
   ],
   "note": ""
  },
  {
   "property": "C13",
   "status": "proved",
   "theorems": [
    "C13_outcome",
    "C13_changes_only_the_solution",
    "C13_depends_only_on_input",
    "C13_solving_again",
    "C13_default_is_items_order"
   ],
   "note": "on the instance machine, after every history"
  },
  {
   "property": "C14",
   "status": "proved",
   "theorems": [
    "C14_never_worse_than_initial",
    "C14_exact",
    "C14_doubles"
   ],
   "note": "for every arithmetic with a transitive irreflexive >, in particular exact rationals and IEEE doubles (the latter uses the standard library's FloatAxioms)"
  },
  {
   "property": "C15",
   "status": "proved",
   "theorems": [
    "C15_genuine_construction",
    "C15_placements",
    "C15_configuration_kept"
   ],
   "note": ""
  },
  {
   "property": "C16",
   "status": "proved",
   "theorems": [
    "C16_terminates",
    "search_loop_more"
   ],
   "note": "n! nodes in bin mode, n! * height in strip mode"
  },
  {
   "property": "C17",
   "status": "proved",
   "theorems": [
    "C17_local_optimum"
   ],
   "note": ""
  },
  {
   "property": "C18",
   "status": "proved",
   "theorems": [
    "C18_throttle"
   ],
   "note": ""
  },
  {
   "property": "C19",
   "status": "proved",
   "theorems": [
    "C19_time_limit"
   ],
   "note": "for every clock, monotone or not"
  },
  {
   "property": "C20",
   "status": "proved",
   "theorems": [
    "C20_only_full_strips_accepted",
    "C20_lower_only_when_full"
   ],
   "note": ""
  },
  {
   "property": "C21",
   "status": "partial",
   "theorems": [
    "C21_full_strip_kept_refuted",
    "C21_full_strip_kept_partial",
    "C21_hypersearch_refuted"
   ],
   "note": "False of the code: an incomplete initial construction is never rejected and can have the larger value. Proved when the initial construction is complete. hypersearch() with default parameters loses items even then (C21_hypersearch_refuted)."
  },
  {
   "property": "C22",
   "status": "proved",
   "theorems": [
    "C22_strip_height"
   ],
   "note": ""
  },
  {
   "property": "C23",
   "status": "proved",
   "theorems": [
    "C23_strategies"
   ],
   "note": "for every iteration order of the set"
  },
  {
   "property": "C24",
   "status": "proved",
   "theorems": [
    "C24_best_value_returned",
    "C24_genuine",
    "C24_terminates"
   ],
   "note": ""
  },
  {
   "property": "C25",
   "status": "partial",
   "theorems": [
    "C25_stops_at_full_utilization_refuted",
    "C25_stops_only_for_time",
    "C25_partial"
   ],
   "note": "False of the code: the optimum compared with is infinity, so in exact arithmetic only the time limit stops the loop early; a problem at 100% from the start runs all 720 local searches."
  },
  {
   "property": "C26",
   "status": "partial",
   "theorems": [
    "C26_partition",
    "C26_outcome",
    "C26_succeeds",
    "C26_whole_workers",
    "C26_infinite_refuted",
    "C26_extreme_refuted",
    "C28_call_errors"
   ],
   "note": "Every accepted finite workers_num, fractions included, with the division in double precision; fewer than 2^53 strategies. False of the code for some accepted values: inf and integers from 2^1075 per strategy on (ValueError), floats below about n / 2^1024 (OverflowError), in each case after sorting has discarded the solution; C26_outcome is exact."
  },
  {
   "property": "C27",
   "status": "proved",
   "theorems": [
    "C27_winner_is_best",
    "C27_logs",
    "C27_all_strategies_searched",
    "C27_genuine",
    "C27_workers_problem",
    "C27_calls_are_runs",
    "C27_history_genuine",
    "C27_values_finite",
    "C27_all_strategies_searched_doubles"
   ],
   "note": "transition system of parent, workers, shared array and queues; every interleaving, raising and killing included; exact arithmetic and IEEE doubles (any arithmetic whose comparisons are orderly); any minimum height, also one above the workers' own strip height"
  },
  {
   "property": "C28",
   "status": "proved",
   "theorems": [
    "C28_exceptions_contained",
    "C28_error_leaves_problem",
    "C28_call_errors"
   ],
   "note": "any set of workers, raising at any point"
  },
  {
   "property": "C29",
   "status": "partial",
   "theorems": [
    "C29_large_results_block_refuted",
    "C29_killed_process_blocks_refuted",
    "C29_every_run_ends",
    "C29_always_returns_partial",
    "C29_only_kills_block_partial"
   ],
   "note": "False of the code: the parent joins the processes before it reads their queues, so results larger than the pipes block it for ever, and so does a killed process that wins. Proved: no infinite run; without kills and with results that fit it always returns or raises; a killed winner is the only other way to block."
  },
  {
   "property": "C30",
   "status": "partial",
   "theorems": [
    "C30_within_chosen_height_refuted",
    "C30_fits_workers_height_partial"
   ],
   "note": "False of the code: workers use ten times the width as height, or the minimum height where that is larger. Proved: the solution fits in that, for every minimum height."
  },
  {
   "property": "C31",
   "status": "proved",
   "theorems": [
    "C31_assign_items",
    "C31_assign_containers",
    "C31_assign_key",
    "C31_assign_dimension",
    "C31_constructor"
   ],
   "note": ""
  },
  {
   "property": "C32",
   "status": "partial",
   "theorems": [
    "C32_well_formed_partial",
    "C32_ior_refuted",
    "C32_well_formed_processes_partial"
   ],
   "note": "False of the code: UserDict's |= bypasses __setitem__. Proved for every history without |=."
  },
  {
   "property": "C33",
   "status": "partial",
   "theorems": [
    "C33_direct_change_resets",
    "C33_any_change_resets_partial",
    "C33_ior_refuted",
    "C33_any_change_resets_processes_partial"
   ],
   "note": "False of the code only for |=. Proved for every direct change in every state, and for any change in every history without |=."
  },
  {
   "property": "C34",
   "status": "partial",
   "theorems": [
    "C34_one_key_partial",
    "C34_assignment_partial",
    "C34_refuted"
   ],
   "note": "False of the code: whole assignments, update() and clear() that raise lose the solution or keep a part of the change. Proved for one-key changes; a whole assignment that raises keeps containers and items."
  },
  {
   "property": "C35",
   "status": "partial",
   "theorems": [
    "C35_solution_fits_partial",
    "C35_refuted",
    "C35_solution_fits_processes_partial"
   ],
   "note": "False of the code: |= and a lowered strip height leave a stale solution. Proved for every history without |=, for the height in force when solved."
  },
  {
   "property": "C36",
   "status": "partial",
   "theorems": [
    "C36_strip_fixed_partial",
    "C36_ior_refuted",
    "C36_strip_fixed_processes_partial"
   ],
   "note": "False of the code only for |= on the container's dimensions."
  },
  {
   "property": "C37",
   "status": "partial",
   "theorems": [
    "C37_heights_partial",
    "C37_set_height",
    "C37_set_min_height",
    "C37_reset_height_partial",
    "C37_ior_refuted",
    "C37_heights_processes_partial"
   ],
   "note": "False of the code only through |=, which lets reset_container_height store a non-positive height."
  },
  {
   "property": "C38",
   "status": "partial",
   "theorems": [
    "C38_count_partial",
    "C38_objective_partial",
    "C38_refuted",
    "C38_count_processes_partial"
   ],
   "note": "False of the code: a stale Containers object still changes the count. Proved for histories that use the current containers only."
  },
  {
   "property": "C39",
   "status": "proved",
   "theorems": [
    "C39_assign",
    "C39_exact",
    "C39_delete",
    "C39_history_partial",
    "C39_history_processes_partial"
   ],
   "note": ""
  },
  {
   "property": "C40",
   "status": "partial",
   "theorems": [
    "C40_accepted_exactly",
    "C40_values_applied",
    "C40_values_unique",
    "C40_rejected_with_reason",
    "C40_as_documented_partial",
    "C40_constructor",
    "C40_editing_applies_nothing",
    "C40_refuted",
    "C40_constructor_refuted",
    "C40_false_values"
   ],
   "note": "The exact acceptance condition is proved. It differs from the documented one: positive float workers_num are accepted, the constructor takes falsy non-dicts."
  },
  {
   "property": "C41",
   "status": "partial",
   "theorems": [
    "C41_refuted",
    "C41_rejected_settings_stay",
    "C41_rejected_partial",
    "C41_settings_keep_the_solution",
    "C41_attributes_always_valid",
    "C41_attributes_always_valid_processes"
   ],
   "note": "False of the code: rejected settings stay in force and are partly applied. Exactly what happens is proved."
  },
  {
   "property": "C42",
   "status": "partial",
   "theorems": [
    "C42_file_names",
    "C42_versions",
    "C42_as_documented_partial",
    "C42_refuted"
   ],
   "note": "The exact conditions are proved. They differ from the documented ones: a trailing newline in file_name, unvalidated html sizes, plotly 5.9.0 accepted and 5.100.0 rejected."
  },
  {
   "property": "C43",
   "status": "proved",
   "theorems": [
    "C43_orient_items"
   ],
   "note": ""
  },
  {
   "property": "C44",
   "status": "proved",
   "theorems": [
    "C44_sort_items",
    "C44_exact",
    "C44_doubles",
    "C44_other_criteria",
    "C44_order_is_unique"
   ],
   "note": "by longest side ratio: with exact ratios for all sides, with doubles for sides up to 2^25"
  },
  {
   "property": "C45",
   "status": "partial",
   "theorems": [
    "C45_log_partial",
    "C45_no_solution",
    "C45_empty_strip_raises",
    "C45_refuted",
    "C45_text",
    "C45_text_otherwise"
   ],
   "note": "False of the code: an empty strip without a minimum height raises ZeroDivisionError. Proved for every other state; C45_text: the text itself, numbers with four decimals computed in doubles (fewer than 2^990 items), also after several-process searches."
  },
  {
   "property": "C46",
   "status": "partial",
   "theorems": [
    "C46_draws_partial",
    "C46_too_many_items",
    "C46_write_fails",
    "C46_accepted_settings",
    "C46_distinct_files",
    "C46_other_outcomes",
    "C46_no_settings",
    "C46_edited_settings",
    "C46_refuted"
   ],
   "note": "False of the code: more than 1000 items in one container raise IndexError. Proved up to 1000 items and sides below 2^1000 (the ticks are computed in doubles), with axes, frame and distinct colours; and what is out when a file cannot be written."
  },
  {
   "property": "C47",
   "status": "partial",
   "theorems": [
    "C47_accepted_partial",
    "C47_defaults_accepted",
    "C47_accepted_exactly",
    "C47_generated",
    "C47_refuted",
    "C47_huge_refuted",
    "C47_ranges"
   ],
   "note": "False of the code for some parameters; the exact set of parameters (sizes up to 2^48) for which every draw is accepted is proved."
  },
  {
   "property": "C48",
   "status": "proved",
   "theorems": [
    "C48_points_on_free_cells"
   ],
   "note": ""
  },
  {
   "property": "C49",
   "status": "proved",
   "theorems": [
    "C49_copy_preserves"
   ],
   "note": "entries are also permuted (items order), which no reader of the solution depends on"
  },
  {
   "property": "C50",
   "status": "partial",
   "theorems": [
    "C50_configuration_refuted",
    "C50_configuration_partial",
    "C50_best_strategy_partial",
    "C50_multi_configuration",
    "C50_processes_configuration"
   ],
   "note": "False of the code: the strategy is left at the last one tried, and best_strategy is the default one although a custom strategy produced the solution. Proved: everything else is kept, and best_strategy is right when the default strategy was in force."
  },
  {
   "property": "C51",
   "status": "proved",
   "theorems": [
    "C51_first_item_at_origin"
   ],
   "note": ""
  },
  {
   "property": "C52",
   "status": "proved",
   "theorems": [
    "C52_every_entry_passed_the_fit_test"
   ],
   "note": ""
  },
  {
   "property": "C53",
   "status": "proved",
   "theorems": [
    "C53_skeleton_never_worse"
   ],
   "note": ""
  },
  {
   "property": "C54",
   "status": "partial",
   "theorems": [
    "C54_fits_final_height_refuted",
    "C54_fits_initial_height_partial",
    "C54_no_minimum_partial"
   ],
   "note": "False of the code when container_min_height is set. Without one (exact values, one process) the returned solution lies below max(2, final container_height); with one it always fits the height the strip had before the search."
  },
  {
   "property": "C55",
   "status": "proved",
   "theorems": [
    "C55_objective_value"
   ],
   "note": "exact rational arithmetic"
  },
  {
   "property": "C56",
   "status": "partial",
   "theorems": [
    "C56_shown_if_either_partial",
    "C56_refuted"
   ],
   "note": "False of the code: the figure is shown if either asks for it."
  },
  {
   "property": "C57",
   "status": "proved",
   "theorems": [
    "C41_settings_keep_the_solution",
    "C41_attributes_always_valid"
   ],
   "note": ""
  },
  {
   "property": "C58",
   "status": "proved",
   "theorems": [
    "C58_one_key_changes_are_atomic"
   ],
   "note": ""
  },
  {
   "property": "C59",
   "status": "proved",
   "theorems": [
    "C46_distinct_files"
   ],
   "note": "the names differ as strings; ids with path separators could still name one file after normalisation. Which events create_figure emits: C46_draws_partial"
  },
  {
   "property": "C60",
   "status": "proved",
   "theorems": [
    "C60_any_size",
    "C47_generated",
    "C47_ranges"
   ],
   "note": "integer parameters of any size; a size too large for a double raises OverflowError, and sizes up to 2^48 give the exact ranges"
  },
  {
   "property": "C61",
   "status": "partial",
   "theorems": [
    "C61_created_in_force",
    "C61_accepted_in_force",
    "C61_stays_in_force_partial",
    "C61_rotation_respected",
    "C27_calls_are_runs",
    "C61_refuted"
   ],
   "note": "False of the code after p.settings is edited in place (the workers then use other settings than the instance) or settings are rejected. Proved otherwise: accepted settings are in force and stay so; rotation is respected by every search with any number of processes; the workers get the instance's rotation and time limit."
  },
  {
   "property": "C62",
   "status": "partial",
   "theorems": [
    "C28_call_errors",
    "C26_infinite_refuted",
    "C26_extreme_refuted",
    "C28_rejected_settings_refuted"
   ],
   "note": "False of the code for the accepted workers_num=inf, and after settings were rejected (they are validated again for the workers and the call raises SettingsError). Proved: with the settings in force the only errors are an unknown sorting criterion (nothing changed), a workers_num (inf included) too large or too small for the division of doubles or no strategy (ValueError, OverflowError), and MultiProcessError; the solution is kept, or was discarded by sorting or orienting."
  },
  {
   "property": "C63",
   "status": "proved",
   "theorems": [
    "C63_calls",
    "C63_one_outcome",
    "C63_shown",
    "C63_dimensions_keep_keys",
    "C63_dimensions_assigned",
    "C63_copy_shares",
    "C63_copy_fails",
    "C63_copy_dimensions",
    "C63_merge_structure",
    "C63_merge_dimensions",
    "C63_calls_processes",
    "C63_unhashable_values"
   ],
   "note": "histories without |= (C32); the values pop(), popitem() and setdefault() return: C70"
  },
  {
   "property": "C64",
   "status": "proved",
   "theorems": [
    "C64_bin_value",
    "C64_full_when_one",
    "C64_full_bin_reaches_one_refuted",
    "C64_same_placements",
    "C64_objective_value",
    "C64_local_search",
    "C64_local_search_area",
    "C64_strip_value",
    "C64_lower_is_better",
    "C64_hypersearch",
    "C64_several_processes"
   ],
   "note": "Every sentence of the statement is proved, within the stated size limits; the remark in brackets (a full bin need not have value 1) is the refutation. Two or more bins, and hypersearch in one or several processes: the exact weighted utilization can only drop by rounding (bound proved)."
  },
  {
   "property": "C65",
   "status": "proved",
   "theorems": [
    "C65_points_spawned",
    "C65_where_items_sit"
   ],
   "note": "The points of every class, stated over rectangles; doubles included (sides below 2^51)."
  },
  {
   "property": "C66",
   "status": "proved",
   "theorems": [
    "C66_points_drawn",
    "C66_drawing_is_determined",
    "C66_start",
    "C66_solve_is_the_heuristic",
    "C66_solve_is_the_heuristic_doubles"
   ],
   "note": "solve() equals the relation of SpecFilling.v, which is functional; in doubles under the side conditions of C64."
  },
  {
   "property": "C67",
   "status": "proved",
   "theorems": [
    "C67_text",
    "C67_always",
    "C67_unambiguous",
    "C67_same_text",
    "C67_line_breaks"
   ],
   "note": "Histories without |= (which bypasses validation). C67_line_breaks shows that the hypothesis about line breaks is needed."
  },
  {
   "property": "C68",
   "status": "proved",
   "theorems": [
    "C68_same_constructor",
    "C68_same_calls",
    "C68_missing_methods",
    "C68_same_reports",
    "C68_is_a_history",
    "C68_states",
    "C68_same_solution",
    "C68_search_settings_ignored"
   ],
   "note": "C68_same_calls and C68_is_a_history hold of every operation, |= included."
  },
  {
   "property": "C69",
   "status": "proved",
   "theorems": [
    "C69_solve",
    "C69_local_search",
    "C69_hypersearch",
    "C69_hypersearch_unsorted",
    "C69_sort_items",
    "C69_orient_items",
    "C69_history",
    "C69_kept_solutions"
   ],
   "note": "The heap model also refines the models by value. The witness C69_in_place shows that turning without sorting does change the user's Dimensions objects."
  },
  {
   "property": "C70",
   "status": "proved",
   "theorems": [
    "C70_structures",
    "C70_one_answer",
    "C70_dimensions",
    "C70_deepcopy",
    "C70_deepcopy_back",
    "C70_equal",
    "C70_equal_dimensions",
    "C70_equal_objects",
    "C70_pop",
    "C70_popitem",
    "C70_setdefault",
    "C70_union",
    "C70_union_objects"
   ],
   "note": "Histories without |= (which bypasses validation)."
  },
  {
   "property": "C71",
   "status": "proved",
   "theorems": [
    "C71_same_behaviour",
    "C71_records",
    "C71_messages_differ",
    "C71_constructor_same_behaviour",
    "C71_constructor",
    "C71_log_solution",
    "C71_create_figure",
    "C71_processes_same_behaviour",
    "C71_processes"
   ],
   "note": "C71_processes: accepted settings in force, no killed worker. What the workers themselves log is not modelled. Findings: a rejected numeric workers_num is logged twice; the documented warning about Windows is given on Windows only."
  },
  {
   "property": "C72",
   "status": "partial",
   "theorems": [
    "C72_one_construction_partial",
    "C72_values_partial",
    "C72_objective_partial",
    "C72_area_partial",
    "C72_large_bin_partial",
    "C72_ior_refuted"
   ],
   "note": "False after x |= y, which changes dimensions without discarding the solution (C72_ior_refuted); proved for all histories without |=. C72_objective_partial needs that only objects in use are changed (C38)."
  },
  {
   "property": "C73",
   "status": "proved",
   "theorems": [
    "C73_problem_kept",
    "C73_benchmarks_accepted",
    "C73_benchmarks"
   ],
   "note": "Benchmarks.v is generated from the text of hyperpack/benchmarks/datasets by tools/gen_benchmarks.py."
  },
  {
   "property": "C74",
   "status": "proved",
   "theorems": [
    "C74_construction",
    "C74_local_search",
    "C74_hypersearch"
   ],
   "note": "ProofsAgain.v compares the two runs step by step. Histories include hypersearch with several processes. Outside careful histories a stale Containers object or |= changes the number of containers in force (C38_refuted), which the containers shown do not reveal."
  },
  {
   "property": "C75",
   "status": "partial",
   "theorems": [
    "C75_value_independent_partial",
    "C75_value_independent_doubles_partial",
    "C75_exhaustive_partial",
    "C75_strips_refuted"
   ],
   "note": "True, and proved, for problems with containers (exactly, and for doubles with fewer than 2^50 containers and items of total area up to 2^1023). For strips the code refutes it: workers search in a strip ten times as high as wide, one process in the height of the instance (C75_strips_refuted)."
  },
  {
   "property": "C76",
   "status": "partial",
   "theorems": [
    "C76_local_search",
    "C76_local_search_doubles",
    "C76_limit_not_reached",
    "C76_hypersearch_partial",
    "C76_hypersearch_exact_partial",
    "C76_hypersearch_refuted",
    "C76_several_partial"
   ],
   "note": "local_search: proved for every clock and arithmetic (doubles included). hypersearch: false of the code when a reading falls exactly on the limit (local_search stops at >=, hypersearch at >); proved for every clock that never goes back and is never read exactly at the shorter limit. Several processes (C76_several_partial): the same, when the workers that report with the shorter limit also report with the longer one. C76_witness: concrete runs where more time helps."
  },
  {
   "property": "C77",
   "status": "partial",
   "theorems": [
    "C77_solve",
    "C77_solve_sequence",
    "C77_local_search",
    "C77_hypersearch_partial",
    "C77_hypersearch_unsorted",
    "C77_hypersearch_refuted",
    "C77_several_processes_partial",
    "C77_several_processes_doubles_partial"
   ],
   "note": "Without sorting: proved in full. With sorting it is false of the code in general: sort_items sorts [key, id], so equal keys are ordered by id (C77_hypersearch_refuted: exchanging two ids changes the value from 24/25 to 4/5); proved when equal keys have their ids in the same order. These are for one process and say the whole result is the same up to the ids. With any numbers of processes, containers and no sorting, the value reached is the same (C77_several_processes_partial in exact arithmetic, C77_several_processes_doubles_partial in doubles for problems whose sizes are moderate); missing there: sorting, and strips, where C75_strips_refuted already shows the value depends on the processes. Witnesses: C77_witness, C77_several_processes_witness."
  },
  {
   "property": "C78",
   "status": "proved",
   "theorems": [
    "C78_solve",
    "C78_solve_sequence",
    "C78_strip_search_gives_up"
   ],
   "note": "Equality of solution and values in every arithmetic. In strips something else must be left to store. Witnesses: C78_witness, C78_strip_witness."
  },
  {
   "property": "C79",
   "status": "proved",
   "theorems": [
    "C79_solve",
    "C79_more_containers_store_more"
   ],
   "note": "Witness: C79_witness."
  },
  {
   "property": "C80",
   "status": "proved",
   "theorems": [
    "C80_worker_is_single_process",
    "C80_first_best_part",
    "C80_schedule_irrelevant",
    "C80_bins_exact",
    "C80_bins_doubles"
   ],
   "note": "Provided the workers' problem is valid (with containers always; in strips when the minimum height is at most ten times the width) and no value counts as infinite (exact arithmetic: never; doubles: never for moderate problems). Witness: C80_witness."
  },
  {
   "property": "C81",
   "status": "partial",
   "theorems": [
    "C81_more_strategies",
    "C81_more_strategies_doubles",
    "C81_exhaustive",
    "C81_local_search_partial",
    "C81_local_search_doubles_partial",
    "C81_default_never_searched",
    "C81_hypersearch_worse_refuted",
    "C81_unsorted_refuted"
   ],
   "note": "Problems with containers. More strategies: proved, any numbers of processes, exact values and doubles. Against local_search: false of the code, because the strategy an instance is created with is in none of the lists hypersearch searches and because hypersearch sorts by default (C81_hypersearch_worse_refuted: 9/10 against 7/10 with the default parameters); proved for every strategy in the list when hypersearch does not sort. Strips: not covered (the height kept from one strategy limits the next). Witness: C81_witness."
  },
  {
   "property": "C82",
   "status": "proved",
   "theorems": [
    "C82_construction",
    "C82_local_search",
    "C82_hypersearch",
    "C82_construction_doubles",
    "C82_local_search_doubles",
    "C82_hypersearch_doubles",
    "C82_one_reach_not_enough"
   ],
   "note": "Exact values for all heights; the source's doubles for heights below 2^51. Histories that change only the objects in use. The last theorem shows that the factor five cannot be replaced by one. hypersearch: one process. Witness: C82_witness."
  },
  {
   "property": "C83",
   "status": "proved",
   "theorems": [
    "C83_sequence",
    "C83_problem",
    "C83_local_search",
    "C83_history"
   ],
   "note": "solve, by sequence and by problem, for any of the left-over items at once; local_search: its solution comes from the stored items alone. At every moment of every history without |=, searches with several processes included, what is shown comes from solving the stored items alone (C83_history; with |= the dimensions can be changed behind the solution, C72_ior_refuted). Generalises C78, where the item fits in no container at all. Strips: one container, and something left to store. Witnesses: C83_witness, C83_history_witness."
  }
 ]
}