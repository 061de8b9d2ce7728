#!/usr/bin/env python3
"""Writes MANIFEST.json from the table below."""
import json, os
P, Q, N = "proved", "partial", "not_applicable"
CLAIMS = [
 ("C01", P, ["C01_inside_container"], "for every arithmetic of objective values"),
 ("C02", Q, ["C02_no_overlap_refuted", "C02_no_overlap_without_rotation_refuted", "C02_no_overlap_partial",
  "C02_overlapping_pairs", "C02_no_overlap_similar_partial", "C02_histories_partial", "C02_histories_processes_partial"],
  "False of the code (_check_fitting never scans the last row): two concrete valid problems, with and without rotation, are proved to overlap. True and proved when no permitted orientation is wider than 2, and when the widths different items can take differ by at most 1, for solve and for every history. When two items overlap, exactly how is proved (C02_overlapping_pairs, C03)."),
 ("C03", P, ["C03_overlap_only_on_top_row", "C02_overlapping_pairs", "C02_no_overlap_partial"], ""),
 ("C04", P, ["C04_ids_stored_once", "C04_solve_is_solve_full"], ""),
 ("C05", P, ["C05_stored_dimensions"], ""),
 ("C06", P, ["C06_solve_never_fails", "C06_fuel_is_irrelevant"], ""),
 ("C07", P, ["C07_bin_objective_is_utilization"], "exact rational arithmetic"),
 ("C08", Q, ["C08_at_most_full_refuted", "C08_at_most_full_partial", "C08_at_most_full_similar_partial", "C08_below_twice_full_partial"],
  "False of the code because of the overlaps of C02 (13/12 on a 4x3 bin); proved for overlap-free containers, and < 2 always."),
 ("C09", Q, ["C09_strip_objective_refuted", "C09_strip_objective_partial"],
  "False of the code: the height used is max(1, height - 1). The exact value is proved."),
 ("C10", Q, ["C10_lower_is_better_refuted", "C10_lower_is_better_partial"],
  "False only for heights 1 against 2 (equal values); proved for all other pairs."),
 ("C11", P, ["C11_first_fit", "C11_runs_are_constructions"], ""),
 ("C12", P, ["C12_leftovers_fit_nowhere", "C12_empty_container"], ""),
 ("C14", P, ["C14_never_worse_than_initial", "C14_exact", "C14_doubles"],
  "for every arithmetic with a transitive irreflexive >, in particular exact rationals and IEEE doubles (the latter uses the standard library's FloatAxioms)"),
 ("C15", P, ["C15_genuine_construction", "C15_placements", "C15_configuration_kept"], ""),
 ("C16", P, ["C16_terminates", "search_loop_more"], "n! nodes in bin mode, n! * height in strip mode"),
 ("C17", P, ["C17_local_optimum"], ""),
 ("C18", P, ["C18_throttle"], ""),
 ("C19", P, ["C19_time_limit"], "for every clock, monotone or not"),
 ("C20", P, ["C20_only_full_strips_accepted"], ""),
 ("C21", Q, ["C21_full_strip_kept_refuted", "C21_full_strip_kept_partial", "C21_hypersearch_refuted"],
  "False of the code: an incomplete initial construction is never rejected and can have the larger value. Proved when the initial construction is complete. hypersearch() with default parameters loses items even then (C21_hypersearch_refuted)."),
 ("C22", P, ["C22_strip_height"], ""),
 ("C23", P, ["C23_strategies"], "for every iteration order of the set"),
 ("C24", P, ["C24_best_value_returned", "C24_genuine", "C24_terminates"], ""),
 ("C25", Q, ["C25_stops_at_full_utilization_refuted", "C25_stops_only_for_time", "C25_partial"],
  "False of the code: the optimum compared with is infinity, so in exact arithmetic only the time limit stops the loop early; a problem at 100% from the start runs all 720 local searches."),
 ("C26", Q, ["C26_partition", "C26_outcome", "C26_succeeds", "C26_whole_workers", "C26_infinite_refuted", "C26_extreme_refuted", "C28_call_errors"],
  "Every accepted finite workers_num, fractions included, with the division in double precision; fewer than 2^53 strategies. False of the code for some accepted values: inf and integers from 2^1075 per strategy on (ValueError), floats below about n / 2^1024 (OverflowError), in each case after sorting has discarded the solution; C26_outcome is exact."),
 ("C27", P, ["C27_winner_is_best", "C27_logs", "C27_all_strategies_searched", "C27_genuine", "C27_workers_problem", "C27_calls_are_runs", "C27_history_genuine", "C27_values_finite", "C27_all_strategies_searched_doubles"],
  "transition system of parent, workers, shared array and queues; every interleaving, raising and killing included; exact arithmetic and IEEE doubles (any arithmetic whose comparisons are orderly); any minimum height, also one above the workers' own strip height"),
 ("C28", P, ["C28_exceptions_contained", "C28_error_leaves_problem", "C28_call_errors"], "any set of workers, raising at any point"),
 ("C29", Q, ["C29_large_results_block_refuted", "C29_killed_process_blocks_refuted", "C29_every_run_ends", "C29_always_returns_partial", "C29_only_kills_block_partial"],
  "False of the code: the parent joins the processes before it reads their queues, so results larger than the pipes block it for ever, and so does a killed process that wins. Proved: no infinite run; without kills and with results that fit it always returns or raises; a killed winner is the only other way to block."),
 ("C30", Q, ["C30_within_chosen_height_refuted", "C30_fits_workers_height_partial"],
  "False of the code: workers use ten times the width as height, or the minimum height where that is larger. Proved: the solution fits in that, for every minimum height."),
 ("C43", P, ["C43_orient_items"], ""),
 ("C44", P, ["C44_sort_items", "C44_exact", "C44_doubles", "C44_other_criteria", "C44_order_is_unique"], "by longest side ratio: with exact ratios for all sides, with doubles for sides up to 2^25"),
 ("C48", P, ["C48_points_on_free_cells"], ""),
 ("C49", P, ["C49_copy_preserves"], "entries are also permuted (items order), which no reader of the solution depends on"),
 ("C50", Q, ["C50_configuration_refuted", "C50_configuration_partial", "C50_best_strategy_partial", "C50_multi_configuration", "C50_processes_configuration"],
  "False of the code: the strategy is left at the last one tried, and best_strategy is the default one although a custom strategy produced the solution. Proved: everything else is kept, and best_strategy is right when the default strategy was in force."),
 ("C51", P, ["C51_first_item_at_origin"], ""),
 ("C52", P, ["C52_every_entry_passed_the_fit_test"], ""),
 ("C53", P, ["C53_skeleton_never_worse"], ""),
 ("C55", P, ["C55_objective_value"], "exact rational arithmetic"),
 ("C54", Q, ["C54_fits_final_height_refuted", "C54_fits_initial_height_partial"],
  "False of the code when container_min_height is set; the solution always fits the height the strip had before the search."),
 ("C13", P, ["C13_outcome", "C13_changes_only_the_solution", "C13_depends_only_on_input", "C13_solving_again", "C13_default_is_items_order"],
  "on the instance machine, after every history"),
 ("C31", P, ["C31_assign_items", "C31_assign_containers", "C31_assign_key", "C31_assign_dimension", "C31_constructor"], ""),
 ("C32", Q, ["C32_well_formed_partial", "C32_ior_refuted", "C32_well_formed_processes_partial"],
  "False of the code: UserDict's |= bypasses __setitem__. Proved for every history without |=."),
 ("C33", Q, ["C33_direct_change_resets", "C33_any_change_resets_partial", "C33_ior_refuted", "C33_any_change_resets_processes_partial"],
  "False of the code only for |=. Proved for every direct change in every state, and for any change in every history without |=."),
 ("C34", Q, ["C34_one_key_partial", "C34_assignment_partial", "C34_refuted"],
  "False of the code: whole assignments, update() and clear() that raise lose the solution or keep a part of the change. Proved for one-key changes; a whole assignment that raises keeps containers and items."),
 ("C35", Q, ["C35_solution_fits_partial", "C35_refuted", "C35_solution_fits_processes_partial"],
  "False of the code: |= and a lowered strip height leave a stale solution. Proved for every history without |=, for the height in force when solved."),
 ("C36", Q, ["C36_strip_fixed_partial", "C36_ior_refuted", "C36_strip_fixed_processes_partial"], "False of the code only for |= on the container's dimensions."),
 ("C37", Q, ["C37_heights_partial", "C37_set_height", "C37_set_min_height", "C37_reset_height_partial", "C37_ior_refuted", "C37_heights_processes_partial"],
  "False of the code only through |=, which lets reset_container_height store a non-positive height."),
 ("C38", Q, ["C38_count_partial", "C38_objective_partial", "C38_refuted", "C38_count_processes_partial"],
  "False of the code: a stale Containers object still changes the count. Proved for histories that use the current containers only."),
 ("C39", P, ["C39_assign", "C39_exact", "C39_delete", "C39_history_partial", "C39_history_processes_partial"], ""),
 ("C40", Q, ["C40_accepted_exactly", "C40_values_applied", "C40_values_unique", "C40_rejected_with_reason", "C40_as_documented_partial",
             "C40_constructor", "C40_editing_applies_nothing", "C40_refuted", "C40_constructor_refuted", "C40_false_values"],
  "The exact acceptance condition is proved. It differs from the documented one: positive float workers_num are accepted, the constructor takes falsy non-dicts."),
 ("C41", Q, ["C41_refuted", "C41_rejected_settings_stay", "C41_rejected_partial", "C41_settings_keep_the_solution", "C41_attributes_always_valid", "C41_attributes_always_valid_processes"],
  "False of the code: rejected settings stay in force and are partly applied. Exactly what happens is proved."),
 ("C42", Q, ["C42_file_names", "C42_versions", "C42_as_documented_partial", "C42_refuted"],
  "The exact conditions are proved. They differ from the documented ones: a trailing newline in file_name, unvalidated html sizes, plotly 5.9.0 accepted and 5.100.0 rejected."),
 ("C45", Q, ["C45_log_partial", "C45_no_solution", "C45_empty_strip_raises", "C45_refuted", "C45_text", "C45_text_otherwise"],
  "False of the code: an empty strip without a minimum height raises ZeroDivisionError. Proved for every other state; C45_text: the text itself, numbers with four decimals computed in doubles (fewer than 2^990 items), also after several-process searches."),
 ("C46", Q, ["C46_draws_partial", "C46_too_many_items", "C46_write_fails", "C46_accepted_settings", "C46_distinct_files", "C46_other_outcomes", "C46_no_settings", "C46_edited_settings", "C46_refuted"],
  "False of the code: more than 1000 items in one container raise IndexError. Proved up to 1000 items and sides below 2^1000 (the ticks are computed in doubles), with axes, frame and distinct colours; and what is out when a file cannot be written."),
 ("C47", Q, ["C47_accepted_partial", "C47_defaults_accepted", "C47_accepted_exactly", "C47_generated", "C47_refuted", "C47_huge_refuted", "C47_ranges"],
  "False of the code for some parameters; the exact set of parameters (sizes up to 2^48) for which every draw is accepted is proved."),
 ("C56", Q, ["C56_shown_if_either_partial", "C56_refuted"], "False of the code: the figure is shown if either asks for it."),
 ("C57", P, ["C41_settings_keep_the_solution", "C41_attributes_always_valid"], ""),
 ("C58", P, ["C58_one_key_changes_are_atomic"], ""),
 ("C59", P, ["C46_distinct_files"], "the names differ as strings; ids with path separators could still name one file after normalisation. Which events create_figure emits: C46_draws_partial"),
 ("C61", Q, ["C61_created_in_force", "C61_accepted_in_force", "C61_stays_in_force_partial", "C61_rotation_respected", "C27_calls_are_runs", "C61_refuted"],
  "False of the code after p.settings is edited in place (the workers then use other settings than the instance) or settings are rejected. Proved otherwise: accepted settings are in force and stay so; rotation is respected by every search with any number of processes; the workers get the instance's rotation and time limit."),
 ("C62", Q, ["C28_call_errors", "C26_infinite_refuted", "C26_extreme_refuted", "C28_rejected_settings_refuted"],
  "False of the code for the accepted workers_num=inf, and after settings were rejected (they are validated again for the workers and the call raises SettingsError). Proved: with the settings in force the only errors are an unknown sorting criterion (nothing changed), a workers_num (inf included) too large or too small for the division of doubles or no strategy (ValueError, OverflowError), and MultiProcessError; the solution is kept, or was discarded by sorting or orienting."),
 ("C63", P, ["C63_calls", "C63_one_outcome", "C63_shown", "C63_dimensions_keep_keys", "C63_dimensions_assigned", "C63_copy_shares", "C63_copy_fails", "C63_copy_dimensions", "C63_merge_structure", "C63_merge_dimensions", "C63_calls_processes", "C63_unhashable_values"],
  "histories without |= (C32); the values pop(), popitem() and setdefault() return: C70"),
 ("C64", P, ["C64_bin_value", "C64_full_when_one", "C64_full_bin_reaches_one_refuted", "C64_same_placements", "C64_objective_value",
             "C64_local_search", "C64_local_search_area", "C64_strip_value", "C64_lower_is_better", "C64_hypersearch", "C64_several_processes"],
  "Every sentence of the statement is proved, within the stated size limits; the remark in brackets (a full bin need not have value 1) is the refutation. Two or more bins, and hypersearch in one or several processes: the exact weighted utilization can only drop by rounding (bound proved)."),
 ("C60", P, ["C60_any_size", "C47_generated", "C47_ranges"], "integer parameters of any size; a size too large for a double raises OverflowError, and sizes up to 2^48 give the exact ranges"),
 ("C65", P, ["C65_points_spawned", "C65_where_items_sit"], "The points of every class, stated over rectangles; doubles included (sides below 2^51)."),
 ("C66", P, ["C66_points_drawn", "C66_drawing_is_determined", "C66_start", "C66_solve_is_the_heuristic", "C66_solve_is_the_heuristic_doubles"], "solve() equals the relation of SpecFilling.v, which is functional; in doubles under the side conditions of C64."),
 ("C67", P, ["C67_text", "C67_always", "C67_unambiguous", "C67_same_text", "C67_line_breaks"], "Histories without |= (which bypasses validation). C67_line_breaks shows that the hypothesis about line breaks is needed."),
 ("C68", P, ["C68_same_constructor", "C68_same_calls", "C68_missing_methods", "C68_same_reports", "C68_is_a_history", "C68_states", "C68_same_solution", "C68_search_settings_ignored"], "C68_same_calls and C68_is_a_history hold of every operation, |= included."),
 ("C69", P, ["C69_solve", "C69_local_search", "C69_hypersearch", "C69_hypersearch_unsorted", "C69_sort_items", "C69_orient_items", "C69_history", "C69_kept_solutions"], "The heap model also refines the models by value. The witness C69_in_place shows that turning without sorting does change the user's Dimensions objects."),
 ("C70", P, ["C70_structures", "C70_one_answer", "C70_dimensions", "C70_deepcopy", "C70_deepcopy_back", "C70_equal", "C70_equal_dimensions", "C70_equal_objects", "C70_pop", "C70_popitem", "C70_setdefault", "C70_union", "C70_union_objects"], "Histories without |= (which bypasses validation)."),
]
here = os.path.dirname(os.path.abspath(__file__))
with open(os.path.join(here, "..", "MANIFEST.json"), "w") as f:
    json.dump({"claims": [{"property": p, "status": s, "theorems": t, "note": n}
                          for p, s, t, n in sorted(CLAIMS)]}, f, indent=1)
    f.write("\n")
