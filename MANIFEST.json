{
 "claims": [
  {
   "property": "C01",
   "status": "proved",
   "theorems": [
    "C01_profit_comparator",
    "C01_cost_comparator",
    "C01_absolute_trichotomy",
    "C01_absolute_meaning",
    "C01_negative_profit_refuted",
    "C01_equal_transitive_refuted"
   ],
   "note": "Full characterisation on non-negative values; the sign restriction is necessary (refutation) and equality is not transitive (refutation)."
  },
  {
   "property": "C02",
   "status": "proved",
   "theorems": [
    "C02_pool_history"
   ],
   "note": "All histories, all capacities >= 1, all strict weak orders; item copy vectors of equal length (solutions of one instance)."
  },
  {
   "property": "C03",
   "status": "proved",
   "theorems": [
    "C03_pool_code"
   ],
   "note": "Same quantification as C02."
  },
  {
   "property": "C04",
   "status": "proved",
   "theorems": [
    "C04_group_identical_bins"
   ],
   "note": "Generic in the bin content; weighted_sum instantiates to number of bins, cost, item copies, item totals. Penalised resources are not weighted by copies in the code (see findings)."
  },
  {
   "property": "C05",
   "status": "proved",
   "theorems": [
    "C05_enforce_bin_type_order",
    "C05_last_used",
    "C05_overused_refuted"
   ],
   "note": "Under the condition that no bin type is over-used; without it bins are dropped (refutation)."
  },
  {
   "property": "C06",
   "status": "proved",
   "theorems": [
    "C06_item_consumption",
    "C06_accumulation",
    "C06_order_independent"
   ],
   "note": "Lookup for every resource; accumulation for every bin of every onedimensional construction history; order independence."
  },
  {
   "property": "C07",
   "status": "proved",
   "theorems": [
    "C07_powers_of_two",
    "C07_largest_exact_power_refuted"
   ],
   "note": "Loops run with an explicit step count; termination proved. On exact powers of two >= 2 the first helper returns half of the value (refutation)."
  },
  {
   "property": "C08",
   "status": "proved",
   "theorems": [
    "C08_names_round_trip",
    "C08_mode_round_trip_refuted"
   ],
   "note": "Round trip for objectives and problem types; refuted for the non-anytime optimization modes."
  },
  {
   "property": "C09",
   "status": "proved",
   "theorems": [
    "C09_indicators",
    "C09_penalty_per_copy_refuted"
   ],
   "note": "All histories of builder calls, build and appends with non-negative copies, on instances whose resource_ids are consistent (proved for built instances under C13). The profit clause needs non-negative capacities and consumptions; penalties are charged per bin entry, not per copy (refutation)."
  },
  {
   "property": "C10",
   "status": "proved",
   "theorems": [
    "C10_feasible",
    "C10_bin_constraints",
    "C10_bin_copies_refuted",
    "C10_bin_type_order",
    "C10_order_flag_history_refuted"
   ],
   "note": "Exact characterisation for all histories; whole-bin form under non-negative data; bin copies not checked and bin type order flag history dependent (refutations)."
  },
  {
   "property": "C11",
   "status": "proved",
   "theorems": [
    "C11_box_feasible_first",
    "C11_box_strict_weak_order",
    "C11_box_improvement",
    "C11_box_variable_sized_refuted",
    "C11_guillotine_feasible_first",
    "C11_guillotine_strict_weak_order",
    "C11_guillotine_improvement",
    "C11_irregular_feasible_first",
    "C11_irregular_strict_weak_order",
    "C11_irregular_leftover_roots",
    "C11_irregular_improvement",
    "C11_feasible_first",
    "C11_strict_weak_order",
    "C11_strict_partial_order",
    "C11_improvement_is_real",
    "C11_default_cycle_refuted",
    "C11_rectangle_feasible_first",
    "C11_rectangle_strict_weak_order",
    "C11_rectangle_improvement",
    "C11_boxstacks_feasible_first",
    "C11_boxstacks_strict_weak_order",
    "C11_boxstacks_improvement",
    "C11_boxstacks_variable_sized_refuted"
   ],
   "note": "Onedimensional, rectangle, box and guillotine: feasible first, strict weak order for integer objectives, strict partial order with real improvement for the others; the default objective can cycle (refutation); the box comparison throws for variable-sized bin packing (refutation). Irregular: feasible first, strict weak order for bin packing and the open dimensions, leftovers compared through square roots with the tolerance of the shape library (an argument)."
  },
  {
   "property": "C12",
   "status": "proved",
   "theorems": [
    "C12_round_trip",
    "C12_same_solution",
    "C12_columns",
    "C12_missing_column",
    "C12_printable",
    "C12_start_refuted"
   ],
   "note": "Every history of builder and append calls whose numbers fit the 64-bit and 32-bit types; any column order; missing columns refused; the external split function is modelled both with and without an empty last cell. Refuted when a deep nesting makes an item start at -1."
  },
  {
   "property": "C13",
   "status": "proved",
   "theorems": [
    "C13_built",
    "C13_calls",
    "C13_bin_setters",
    "C13_item_setters",
    "C13_unlimited_items_refuted",
    "C13_bin_minimum_refuted",
    "C13_bin_minimum",
    "C13_zero_length_refuted",
    "C13_infinite_copies",
    "C13_consumptions",
    "C13_resources",
    "C13_all_types"
   ],
   "note": "Every call sequence (exceptions caught); consistency of all totals and tables, bounds, exact acceptance conditions, unchanged builder on exceptions of direct calls. Refuted parts: unlimited item copies, bin minimum with unlimited copies, zero length."
  },
  {
   "property": "C14",
   "status": "proved",
   "theorems": [
    "C14_f_ccm_0",
    "C14_f_ccm_0_range_refuted",
    "C14_f_ccm_2",
    "C14_families"
   ],
   "note": "f_ccm_0 and f_ccm_2 for all lists of lengths; all three families for all item lists that respect the copies (family 1 is data dependent); the parameter range k <= C/2 is necessary (refutation)."
  },
  {
   "property": "C15",
   "status": "proved",
   "theorems": [
    "C15_bin_packing_bound",
    "C15_infeasibility",
    "C15_knapsack_bound",
    "C15_knapsack_bound_solutions",
    "C15_optional_copies_refuted",
    "C15_zero_length_refuted",
    "C15_deep_nesting_refuted"
   ],
   "note": "Bin packing bound, infeasibility verdict and knapsack bound, for all packings. Limits shown by refutations: optional copies, zero reduced length, nesting deeper than the preceding item."
  },
  {
   "property": "C16",
   "status": "proved",
   "theorems": [
    "C16_greedy",
    "C16_unsorted_refuted"
   ],
   "note": "Optimality for every sorted pool with positive lengths; sortedness is necessary (refutation)."
  },
  {
   "property": "C17",
   "status": "proved",
   "theorems": [
    "C17_dantzig",
    "C17_negative_profit_refuted"
   ],
   "note": "For every item list with non-negative profits and volumes; negative profits refute it."
  },
  {
   "property": "C18",
   "status": "proved",
   "theorems": [
    "C18_bin_packing_bound",
    "C18_infeasibility",
    "C18_knapsack_bound",
    "C18_product",
    "C18_nan_refuted",
    "C18_optional_copies_refuted",
    "C18_zero_side_refuted"
   ],
   "note": "Bin packing bound, infeasibility verdict, knapsack bound (with the recursive Clautiaux transformation and its termination), for all packings, and the product form for any pair of dual feasible functions. Limits shown by refutations: NaN conversion, optional copies, zero side."
  },
  {
   "property": "C19",
   "status": "proved",
   "theorems": [
    "C19_cut",
    "C19_selection_infeasible"
   ],
   "note": "For every selection and every packing of a bin; a cut selection cannot be packed."
  },
  {
   "property": "C20",
   "status": "proved",
   "theorems": [
    "C20_solutions",
    "C20_eligible",
    "C20_eligible_y_refuted",
    "C20_increasing_refuted",
    "C20_defect_outside_refuted"
   ],
   "note": "Every built instance with non-negative capacities and consumptions whose defects reach the bin, every direction and predecessor strategy: every node becomes a solution, all bins valid (weights and hard resources up to the relative tolerance), copies of items and bins respected, the order of unloading respected (increasing x only without defects). The beam search, the guides and fixed items are not modelled. Refuted: eligibility is ignored in the direction Y, the increasing order is violated next to a defect, a defect below the bin sends an item out of the bin."
  },
  {
   "property": "C21",
   "status": "proved",
   "theorems": [
    "C21_values",
    "C21_last_bin",
    "C21_children",
    "C21_depth",
    "C21_unloading_throws_refuted"
   ],
   "note": "Same instances: all values of a node equal those of its solution, children never throw on generated insertions, depth equals number of items. Weights and profits are exact rationals. Refuted: the search throws at the root for an unloading constraint along Y with the dimension X open."
  },
  {
   "property": "C22",
   "status": "proved",
   "theorems": [
    "C22_flip",
    "C22_built",
    "C22_packings",
    "C22_values",
    "C22_unflip",
    "C22_twice",
    "C22_eligibility_refuted",
    "C22_copies_min_refuted",
    "C22_open_dimension_refuted",
    "C22_throws_refuted"
   ],
   "note": "Every flippable instance and every packing; unflip_solution for every history. Refuted: eligibility and minimum copies are dropped, an open dimension X is not exchanged, flipping throws for unlimited bins with a minimum above the number of items."
  },
  {
   "property": "C23",
   "status": "proved",
   "theorems": [
    "C23_blocks_valid",
    "C23_blocks_distinct",
    "C23_terminates",
    "C23_single_items",
    "C23_placement",
    "C23_zero_side_refuted",
    "C23_single_items_refuted"
   ],
   "note": "Every instance with non-negative data, every limit; blocks valid, distinct, guillotine, generation ends, every item that fits has its block when the limit leaves room for two blocks per item type (necessary: refutation). A zero side divides by zero (refutation)."
  },
  {
   "property": "C24",
   "status": "proved",
   "theorems": [
    "C24_maximal_spaces",
    "C24_free_boxes_covered",
    "C24_nodes",
    "C24_insertions_applicable",
    "C24_node_packing",
    "C24_to_solution",
    "C24_greedy_maximal",
    "C24_eligibility_refuted"
   ],
   "note": "Any number of axes, any obstacles, any order: the spaces are exactly the maximal free boxes; every node of the search and every greedy completion (any guide) is a valid packing of one bin with right totals. Refuted: eligibility is not considered."
  },
  {
   "property": "C25",
   "status": "proved",
   "theorems": [
    "C25_monotone",
    "C25_nothing_lost",
    "C25_interleaving_independent",
    "C25_callbacks",
    "C25_default_objective_refuted"
   ],
   "note": "Every interleaving of every finite set of threads; any objective whose comparison is an order (the default objective is refuted); mutex-protected calls are atomic in the model."
  },
  {
   "property": "C26",
   "status": "proved",
   "theorems": [
    "C26_schedule_independent",
    "C26_exceptions",
    "C26_nothing_lost",
    "C26_nothing_lost_integer",
    "C26_nothing_lost_knapsack_refuted",
    "C26_other_modes_refuted"
   ],
   "note": "For arbitrary task programs reading the end flag; schedule independence, exceptions, nothing lost (exactly for integer objectives, up to two tolerance comparisons for profit and cost: refutation); other modes depend on the schedule (refutation). The memory monitor and wall clock are outside this theorem."
  },
  {
   "property": "C27",
   "status": "proved",
   "theorems": [
    "C27_stop_has_a_proof",
    "C27_early_stop_optimal",
    "C27_mandatory_items_refuted",
    "C27_tiny_costs_refuted"
   ],
   "note": "All call histories without memory stop; hypotheses on mandatory items and tiny costs are necessary (refutations)."
  },
  {
   "property": "C28",
   "status": "proved",
   "theorems": [
    "C28_valid",
    "C28_exact",
    "C28_node_values",
    "C28_bin_order",
    "C28_depth",
    "C28_leaf",
    "C28_knapsack_bound",
    "C28_bound",
    "C28_throws_refuted",
    "C28_stackability_refuted",
    "C28_dominates_refuted",
    "C28_exhausted_bound_refuted",
    "C28_bound_nesting_refuted",
    "C28_default_bound_refuted"
   ],
   "note": "validity up to the tolerance, exact feasibility for integral data, node values, finiteness, and bounds for instances without nesting; to_solution throwing within the tolerance, stackability below 1, dominance, exhausted-search bound with penalised resources, bounds with nesting and the default-objective bound are refuted"
  },
  {
   "property": "C29",
   "status": "proved",
   "theorems": [
    "C29_knapsack",
    "C29_knapsack_solutions",
    "C29_bin_packing",
    "C29_variable_sized",
    "C29_negative_profit_refuted",
    "C29_full_nesting_refuted",
    "C29_order_refuted",
    "C29_mandatory_bins_refuted",
    "C29_early_stop_refuted"
   ],
   "note": "Knapsack, bin packing and variable-sized bounds, several bin types. Refuted outside the hypotheses: negative profits, items that nest completely, bin types used out of order, mandatory bins, recursive solve that is not optimal."
  },
  {
   "property": "C30",
   "status": "proved",
   "theorems": [
    "C30_scales",
    "C30_rows_distinct",
    "C30_bin_packing_bound",
    "C30_infeasibility",
    "C30_exact_scales",
    "C30_tolerance_refuted",
    "C30_optional_copies_refuted"
   ],
   "note": "Every instance, any LP solver with non-negative answers, an exact knapsack solver (shown to exist), any numbers of turns and iterations. The lengths are conservative up to 1e-6; the bounds are valid when (number of bins)(width + height + 1e-6) is at most the area of a bin, and always for exactly conservative lengths. Refuted without this condition: an LP answer within the usual tolerance 1e-7 gives bound 61 where 60 bins are enough; optional copies are counted as mandatory."
  },
  {
   "property": "C31",
   "status": "proved",
   "theorems": [
    "C31_never_over_uses",
    "C31_patterns",
    "C31_order",
    "C31_terminates",
    "C31_no_exception",
    "C31_iterations",
    "C31_stops",
    "C31_maximal",
    "C31_profits",
    "C31_two_mandatory_bins_refuted",
    "C31_builder_refuted",
    "C31_mandatory_stuck_refuted"
   ],
   "note": "Every instance with consistent fixed copies and every answer of the sub-problem solver (bins in at least one copy), timer and pool: no over-use in any reported solution, only empty bins or bins the solver returned, bins in the prescribed order, one turn per bin. With a solver that respects the sub-problems and at most one mandatory copy per bin type no exception is raised. Item profits are not given to the modelled solver (the answers are arbitrary). Refuted: two mandatory copies of a bin type always end in invalid_argument, a mandatory bin too small for the remaining items ends the iteration with bins left, the Knapsack profit update divides by zero for unpacked item types."
  },
  {
   "property": "C32",
   "status": "proved",
   "theorems": [
    "C32_coefficient",
    "C32_valid",
    "C32_separate",
    "C32_complete",
    "C32_equal"
   ],
   "note": "Every instance, column set and fractional solution: coefficient, validity for every integer combination, soundness of the cut returned, and, up to forty item types with item rows respected up to 1e-6, completeness: the most violated cut is returned whenever one is violated."
  },
  {
   "property": "C33",
   "status": "proved",
   "theorems": [
    "C33_cap",
    "C33_cached",
    "C33_empty_bins_refuted"
   ],
   "note": "Every instance with non-negative costs, every solution, any history of cached calls; the claim is on bins that hold an item. Refuted for all bins: mandatory empty bins exceed the cap."
  },
  {
   "property": "C34",
   "status": "proved",
   "theorems": [
    "C34_valid",
    "C34_success",
    "C34_memory",
    "C34_interval",
    "C34_terminates",
    "C34_zero_initial_refuted",
    "C34_selection",
    "C34_never_gives_up",
    "C34_infeasible_overflows",
    "C34_no_exception",
    "C34_skip_refuted",
    "C34_throws_refuted",
    "C34_mandatory_refuted"
   ],
   "note": "Every instance, every knapsack answer, any timer; sub-solver respecting its sub-problem. Waste percentages are exact rationals except that doubling beyond the largest double is infinity. Termination for a positive initial waste, positive spaces, 64-bit spaces. Refuted: with initial waste 0 it may loop for ever; bin types larger than the removal capacity count as removed so a one-bin packing is not recognised; two mandatory copies make it throw; mandatory bins may be left out of a success; infeasible instances end only after about a thousand doublings."
  },
  {
   "property": "C35",
   "status": "proved",
   "theorems": [
    "C35_box_max_reachable_lengths",
    "C35_max_reachable_lengths"
   ],
   "note": "Both axes of the rectangle function and the three axes of the box function; every instance with non-negative data."
  },
  {
   "property": "C36",
   "status": "proved",
   "theorems": [
    "C36_plan",
    "C36_built",
    "C36_order",
    "C36_added",
    "C36_item_set",
    "C36_root_children_refuted",
    "C36_oriented_refuted",
    "C36_any_alternates_refuted",
    "C36_exception_rollback_refuted",
    "C36_soft_corner_refuted"
   ],
   "note": "Every history of builder calls with exceptions caught, every instance with a non-negative cut thickness. Refuted: the children of the root are never recorded, an oriented item may be set on a rotated node, orientation Any makes every cut horizontal, a throwing add_node keeps the waste it had inserted, the right/top corner trim uses the top trim."
  },
  {
   "property": "C37",
   "status": "proved",
   "theorems": [
    "C37_items_apart",
    "C37_items_inside",
    "C37_cuttable"
   ],
   "note": "Same histories: items are pairwise apart by at least the cut thickness, inside the usable plate, and separable by edge-to-edge cuts (an inductive guillotine predicate stated on rectangles only)."
  },
  {
   "property": "C38",
   "status": "proved",
   "theorems": [
    "C38_rotation",
    "C38_sizes",
    "C38_flip",
    "C38_built",
    "C38_packings",
    "C38_values",
    "C38_unflip",
    "C38_twice",
    "C38_resources_refuted",
    "C38_copies_min_refuted",
    "C38_open_dimension_refuted",
    "C38_throws_refuted"
   ],
   "note": "Every box, orientation, direction, instance and packing. Refuted: resources, minimum copies and the direction of an open dimension are lost by flip; flip throws with dimension z open and several bins."
  },
  {
   "property": "C39",
   "status": "proved",
   "theorems": [
    "C39_bin_packing_bound",
    "C39_infeasibility",
    "C39_knapsack_bound",
    "C39_product",
    "C39_unit_axis_refuted",
    "C39_optional_copies_refuted"
   ],
   "note": "Bin packing, feasibility and knapsack bounds of the box dual feasible functions, for one bin type, positive items and a bin of size at least 2 along each axis; product of arbitrary dual feasible functions on disjoint boxes. Refuted: a bin of size 1 along an axis always divides by zero; optional copies are counted as mandatory."
  },
  {
   "property": "C40",
   "status": "proved",
   "theorems": [
    "C40_nodes",
    "C40_node_packing",
    "C40_to_solution",
    "C40_maximal_spaces"
   ],
   "note": "Every instance with positive sizes, every generated block list, every node of the search and every guide: spaces are exactly the maximal free boxes that can hold an available block, nodes are packings with the right totals, the greedy completion ends and its solution is a packing with the right indicators."
  },
  {
   "property": "C41",
   "status": "proved",
   "theorems": [
    "C41_blocks_valid",
    "C41_blocks_disjoint",
    "C41_blocks_distinct",
    "C41_terminates",
    "C41_single_items",
    "C41_placement",
    "C41_zero_side_refuted"
   ],
   "note": "Every instance and bin type: blocks valid (guillotine-assembled, disjoint items, within availability, right totals), pairwise distinct, generation terminates, all single items present when the limit allows them. Refuted: a zero side divides by zero."
  },
  {
   "property": "C42",
   "status": "proved",
   "theorems": [
    "C42_indicators",
    "C42_feasible",
    "C42_last_bin",
    "C42_waste",
    "C42_empty_last_bin_refuted",
    "C42_geometry_refuted"
   ],
   "note": "Every history of builder and append calls with non-negative copies; exact characterisation of feasible(); extent and leftover of the last bin; the waste of a geometric packing is not negative. Refuted: geometry, weight, eligibility and bin copies are not checked by feasible(); an empty last bin gives a negative waste."
  },
  {
   "property": "C43",
   "status": "proved",
   "theorems": [
    "C43_round_trip",
    "C43_same_places",
    "C43_same_solution",
    "C43_columns",
    "C43_square_refuted",
    "C43_missing_column_refuted"
   ],
   "note": "Every history whose numbers fit the 64-bit and 32-bit types; any column order; rotated squares come back unrotated (refutation of the plain statement, but nothing moves); missing columns are accepted (refutation)."
  },
  {
   "property": "C44",
   "status": "proved",
   "theorems": [
    "C44_built",
    "C44_valid",
    "C44_solution",
    "C44_optimum",
    "C44_infeasible",
    "C44_minimum",
    "C44_not_applied",
    "C44_partly_filled_refuted",
    "C44_turned_refuted",
    "C44_mandatory_bins_refuted",
    "C44_eligibility_refuted",
    "C44_rebuild_refuted"
   ],
   "note": "Every instance to which the reduction applies, any honest answers of the sub-solver, exact subset sums, any number of rounds and any interruption: construction without exception, completed packings valid with the announced number of bins, infeasibility claims right, minimum unchanged (both directions), identity rebuild when it does not apply. Conditions: no mandatory bins; the sub-solver uses none or all of the copies of a companion bin, or one copy per item type; a non-oriented item larger than half of the shrunk bin both ways is so when turned. Each condition is shown necessary by a refutation (out-of-range access, three copies of an item with two, exception). Refuted too: eligibility is ignored; the identity rebuild loses mandatory knapsack copies."
  },
  {
   "property": "C45",
   "status": "proved",
   "theorems": [
    "C45_equilibrium",
    "C45_stored_groups",
    "C45_overweight",
    "C45_last_item_refuted",
    "C45_last_bin_refuted",
    "C45_weightless_refuted"
   ],
   "note": "Existence, equilibrium and uniqueness of the axle weights; what the overweight of a solution is, for every history. Refuted: only the groups up to that of the item added last, and only the last bin with items, count; a weightless load gives a NaN."
  },
  {
   "property": "C46",
   "status": "proved",
   "theorems": [
    "C46_split",
    "C46_bound",
    "C46_solved",
    "C46_penalty_refuted"
   ],
   "note": "Any exact solver (one is constructed), any callback; binary splitting complete and sound. Refuted with a penalised resource."
  },
  {
   "property": "C47",
   "status": "proved",
   "theorems": [
    "C47_sub_instance",
    "C47_items_first_refuted",
    "C47_pricing_bin",
    "C47_feasibility_bin"
   ],
   "note": "onedimensional builder: every copyable instance, selection and objective. Refuted for items copied first (dichotomic search) and for bin minima of two or more in the pricing sub-instances."
  },
  {
   "property": "C48",
   "status": "proved",
   "theorems": [
    "C48_built",
    "C48_calls",
    "C48_bin_setters",
    "C48_item_setters",
    "C48_bin_minimum",
    "C48_zero_area_refuted",
    "C48_group_id_refuted",
    "C48_infinite_dimension_refuted",
    "C48_negative_dimension_refuted",
    "C48_infinite_dimension",
    "C48_copy_item",
    "C48_copy_bin",
    "C48_infinite_copies",
    "C48_consumptions",
    "C48_resources",
    "C48_all_types",
    "C48_parameters",
    "C48_copy_consumptions"
   ],
   "note": "Every sequence of calls, with exceptions caught and with copies from other instances. Refuted: zero-area items divide by zero, set_item_type_group does not check the id, infinite dimensions may be 0 or negative."
  },
  {
   "property": "C49",
   "status": "partial",
   "theorems": [
    "C49_box_clipping",
    "C49_box_exhausted_search_refuted",
    "C49_clipping",
    "C49_defects_refuted",
    "C49_exhausted_search_refuted"
   ],
   "note": "The claim is false (refuted with and without defects). What holds: without defects, clipping the bin to the reachable lengths loses no packing (C49_clipping, C49_box_clipping); the box search is refuted in the same way."
  },
  {
   "property": "C50",
   "status": "proved",
   "theorems": [
    "C50_indicators",
    "C50_orientations",
    "C50_feasible",
    "C50_last_bin",
    "C50_appended_height",
    "C50_appended_last_bin_refuted",
    "C50_waste",
    "C50_geometry_refuted"
   ],
   "note": "Every history of builder and append calls with non-negative copies: all indicators, exact characterisation of feasible(), extents of the last bin. Refuted: the height of an earlier last bin is kept after append; geometry, weight and bin copies are not checked by feasible()."
  },
  {
   "property": "C51",
   "status": "proved",
   "theorems": [
    "C51_built",
    "C51_calls",
    "C51_add",
    "C51_bin_setters",
    "C51_item_setters",
    "C51_bin_minimum",
    "C51_infinite_dimension",
    "C51_zero_volume_refuted",
    "C51_open_z_refuted",
    "C51_objective_refuted",
    "C51_profits_auto_refuted",
    "C51_infinite_dimension_refuted",
    "C51_copy_minimum_refuted",
    "C51_copy_item",
    "C51_copy_bin",
    "C51_infinite_copies",
    "C51_consumptions",
    "C51_resources",
    "C51_all_types",
    "C51_copy_consumptions"
   ],
   "note": "Every sequence of calls, with exceptions caught and with copies from other instances. Refuted: zero-volume items divide by zero, an open dimension Z with several bins is accepted, the objective is uninitialised until set_objective, set_item_types_profits_auto gives profit 0, infinite dimensions may be 0, copied item types lose their minimum."
  },
  {
   "property": "C52",
   "status": "proved",
   "theorems": [
    "C52_indicators",
    "C52_exit",
    "C52_flags",
    "C52_feasible",
    "C52_cutting_cost",
    "C52_waste",
    "C52_waste_flag",
    "C52_small_waste_reported_refuted",
    "C52_waste_soft_refuted",
    "C52_residual_copies_refuted",
    "C52_plate_item_refuted",
    "C52_defects_refuted",
    "C52_cutting_cost_any_refuted"
   ],
   "note": "Every history of builder calls, every callback. The cutting cost for orientations Vertical and Horizontal, the waste non-negative without soft trims. Refuted: cutting cost with orientation Any, negative waste with soft trims, residual not multiplied by copies, an item on the bare plate neither counted nor checked against defects; a too small waste ends the process instead of being reported."
  },
  {
   "property": "C53",
   "status": "proved",
   "theorems": [
    "C53_append_bin",
    "C53_indicators",
    "C53_flags",
    "C53_feasible",
    "C53_append_bins",
    "C53_append_empty",
    "C53_append_copies_refuted",
    "C53_append_empty_copies_refuted",
    "C53_cutting_cost_refuted"
   ],
   "note": "Every solution reachable by building and appending. append_bins and append_empty_bin for bins used once. Refuted: a source bin with two copies is read out of bounds, two empty bins cannot be appended and zero is silently accepted, the cutting cost after an append counts the lost residual twice."
  },
  {
   "property": "C54",
   "status": "proved",
   "theorems": [
    "C54_columns",
    "C54_fixed_columns",
    "C54_copies_left",
    "C54_reduced_cost",
    "C54_reduced_cost_bound",
    "C54_bound",
    "C54_empty_bins_refuted",
    "C54_no_solution_refuted"
   ],
   "note": "Bin packing, variable-sized bin packing, feasibility and knapsack, any hereditary packing predicate, any sub-problem solver with valid bounds, active subset-row cuts with duals of the right sign; the bound at the root for solutions without empty bins. Refuted: with mandatory empty bins the bound may exceed the optimum; a bin type whose sub-problem has no packed solution is left out of the bound."
  },
  {
   "property": "C55",
   "status": "partial",
   "theorems": [
    "C55_leftovers",
    "C55_open_dimension_x",
    "C55_open_dimension_y_partial",
    "C55_knapsack_partial",
    "C55_bin_packing_partial",
    "C55_bin_packing_last_partial",
    "C55_bin_packing_refuted",
    "C55_open_dimension_y_refuted",
    "C55_knapsack_penalty_refuted",
    "C55_dominance_refuted",
    "C55_exhausted_knapsack_refuted",
    "C55_infeasible_only_x_refuted",
    "C55_infeasible_increasing_x_refuted"
   ],
   "note": "Proved: the cuts for leftovers and open dimension X; for open dimension Y when the bin is at most one wider than high; for knapsack without penalties; for bin packing when the waste does not come from the extra bin rule, in particular on the last bin. Refuted: all the other cases (a two-bin solution cuts the one-bin branch, a height-6 solution cuts height 4, penalties), dominance, the knapsack bound and the infeasibility claims of the exhausted search."
  },
  {
   "property": "C56",
   "status": "proved",
   "theorems": [
    "C56_relaxation",
    "C56_columns",
    "C56_dual_bound",
    "C56_claims",
    "C56_any_duals",
    "C56_inexact_knapsack_refuted"
   ],
   "note": "Every packing is a point of the linear program with the value of the packing, by cutting each bin into unit rows and columns; every priced column is a bar; a dual value of the static part plus the overcost bounds every point (any duals, exact knapsack solver); the claims of the callback follow. The LP solver and the column generation algorithm are external: its finite bound is either assumed right (C56_claims) or taken as the Lagrangian bound at arbitrary duals (C56_any_duals). Shown necessary: the exactness of the knapsack solver."
  },
  {
   "property": "C57",
   "status": "proved",
   "theorems": [
    "C57_trivial_bounds",
    "C57_onedimensional",
    "C57_relaxation",
    "C57_minimum_refuted",
    "C57_order_refuted",
    "C57_negative_profit_refuted",
    "C57_no_items_refuted",
    "C57_mandatory_bins_refuted",
    "C57_last_bin_lost",
    "C57_last_bin_refuted"
   ],
   "note": "All bounds for every packing with mandatory copies and bins within their limits; number of bins: complete packings with the bins in order; knapsack: non-negative profits and an order sorted for the comparator; relaxation: any onedimensional solver with right bounds. Refuted: number of bins with optional copies, bins out of order, negative profits, the relaxation throws on a mandatory bin or without items. The last step is proved to lose the items of the second to last bin whenever the best solution is complete and has two different bins, and then to have no effect if all copies are mandatory."
  },
  {
   "property": "C58",
   "status": "proved",
   "theorems": [
    "C58_packing_is_point",
    "C58_claims",
    "C58_trivially_infeasible",
    "C58_sequential_bound",
    "C58_read_back",
    "C58_best_point_is_best",
    "C58_read_back_valid",
    "C58_nesting_refuted",
    "C58_warm_start_refuted",
    "C58_optional_copies_refuted",
    "C58_mandatory_bins_refuted",
    "C58_single_bin_precedence_refuted",
    "C58_penalty_shape_refuted",
    "C58_negative_penalty_refuted",
    "C58_reported_profit_refuted",
    "C58_zero_length_refuted"
   ],
   "note": "Both directions between packings and points, with values, for all objectives; the symmetry-breaking columns (supply of the item types of fewer copies) lose no packing; bounds on the bins of each type are enough; claims, trivial infeasibility, sequential feasibility. MILP solver and nested solves: any right answer. Shown necessary by counterexamples: no nesting, mandatory copies outside Knapsack (reading back throws), mandatory bins within the bounds (they are lost), two bins for precedences, threshold schedules (the shape test lets others pass), non-negative penalties, positive lengths. Refuted: the warm start is a point (penalty and precedence columns stay 0); the profit bound is above the reported profit of a bin with two copies."
  },
  {
   "property": "C59",
   "status": "partial",
   "theorems": [
    "C59_solutions",
    "C59_cuts",
    "C59_eligible",
    "C59_master",
    "C59_claims",
    "C59_check",
    "C59_ends",
    "C59_optimal",
    "C59_subsets",
    "C59_lift",
    "C59_precedences",
    "C59_orientation_refuted",
    "C59_mandatory_refuted",
    "C59_infeasible_throws_refuted",
    "C59_mandatory_bins_refuted",
    "C59_lost_bin_refuted",
    "C59_weights_refuted",
    "C59_minimal_refuted",
    "C59_lift_refuted",
    "C59_endless_refuted",
    "C59_axles_refuted"
   ],
   "note": "All theorems for every instance, number of iterations and right answers of the external solvers, for any additional constraint on bins kept when items are removed (weights, not axles). Conditions shown necessary by refutations: all items of the same orientation (or all the rotatable ones together) for the violated cuts, no resources, weights or mandatory copies for the precedences of the knapsack master, at most one lifted item type per cut, at least one cut per bin (otherwise endless). Refuted too: infeasible instances and two mandatory bins end in an exception, a mandatory empty bin is lost, the reported subsets are not minimal, the cuts are wrong with axle limits. Missing for 'proved': the decomposition is right only under these conditions, which the code does not test."
  },
  {
   "property": "C60",
   "status": "partial",
   "theorems": [
    "C60_indicators",
    "C60_stacks",
    "C60_builder",
    "C60_feasible",
    "C60_violation",
    "C60_defined",
    "C60_build_refuted",
    "C60_last_bin",
    "C60_waste",
    "C60_full",
    "C60_leftover_refuted",
    "C60_empty_last_refuted",
    "C60_nested_waste_refuted",
    "C60_geometry_refuted",
    "C60_check_stack",
    "C60_check_stack_complete",
    "C60_nesting_refuted",
    "C60_negative_nesting_refuted"
   ],
   "note": "Every history of builder and append calls, every callback: indicators, stacks, exact characterisation of feasible(), violation, extents, waste of valid packings without nesting, soundness of check_stack (non-negative nesting), its completeness (no nesting). Refuted: building two bins or more reads out of bounds whenever the first bin is feasible and weights of a group are checked (for every such instance); a misplaced parenthesis in the leftover along y makes a worse solution better; the volume is stale with an empty last bin; nested items give a negative waste; feasible() says nothing of the geometry, of the stacks, of the bin copies; check_stack adds the nesting height. Missing for proved: these clauses of the statement are false of the code."
  },
  {
   "property": "C61",
   "status": "partial",
   "theorems": [
    "C61_solutions",
    "C61_build",
    "C61_values",
    "C61_children",
    "C61_axles",
    "C61_better",
    "C61_hidden_stack_refuted",
    "C61_rotation_refuted",
    "C61_only_x_refuted",
    "C61_increasing_refuted",
    "C61_above_axles_refuted",
    "C61_axles_y_refuted",
    "C61_first_bin_refuted"
   ],
   "note": "Every scheme of the domain, every node: builder calls accepted, validity of all bins, values, children, depth, axles of the last bin in the direction X (exact), order. The predecessors are an arbitrary function; the beam search, the guides and dominates are not modelled (the guides parameter is ignored by the code, and dominates reads a height that is never set). Refuted outside of the domain: an item is put above the visible part of a hidden stack and the builder throws; in the direction Y rotations that move the vertical axis mean other orientations and the builder throws. Refuted inside: OnlyXMovements reads an empty list; the increasing order is violated next to a defect; the axle check of an item above another is done at the wrong position; axles are computed along y in the direction Y; overweights of earlier bins are forgotten. Building two or more bins fails by C60_build_refuted."
  },
  {
   "property": "C62",
   "status": "partial",
   "theorems": [
    "C62_bin_packing",
    "C62_leftovers",
    "C62_knapsack",
    "C62_infeasible_refuted",
    "C62_open_dimension_refuted",
    "C62_nested_bound_refuted"
   ],
   "note": "Proved: bin packing and variable-sized bin packing without nesting, leftovers, knapsack and feasibility with non-negative profits. Refuted: the bound of the open dimensions (misplaced parenthesis), bin packing with nesting, the infeasibility claim of the exhausted search (only leftmost positions are tried). The knapsack bound of the default objective is not modelled."
  },
  {
   "property": "C63",
   "status": "partial",
   "theorems": [
    "C63_ends",
    "C63_solutions",
    "C63_optimal",
    "C63_thick_refuted",
    "C63_horizontal_refuted",
    "C63_soft_trim_refuted"
   ],
   "note": "Every instance of the domain and timer: termination, validity, copies and profits of all reported solutions (first cuts vertical or free, no soft trim below or above the plate). Optimality over all cutting trees without cut thickness. Refuted: with a cut thickness a cut that ends at the edge of the plate is never tried and the only packing is missed; with horizontal first cuts, or a soft trim above the plate, the builder refuses the solution. None of the three is among the documented limitations. Missing for proved: these clauses are false of the code. The key of the seen patterns uses exact equality of the copies, the hash is not modelled."
  },
  {
   "property": "C64",
   "status": "partial",
   "theorems": [
    "C64_solution",
    "C64_attained",
    "C64_optimal",
    "C64_thick_refuted",
    "C64_horizontal_refuted",
    "C64_soft_trim_refuted"
   ],
   "note": "Every value of the table is attained (any thickness); every value bounds all cutting trees without thickness; the solution is accepted with the announced profit (first cuts vertical or free, no soft trim below or above). Refuted: the value with a cut thickness, horizontal first cuts, soft trims. minimize_number_of_stages is not modelled."
  },
  {
   "property": "C65",
   "status": "partial",
   "theorems": [
    "C65_solutions",
    "C65_resources",
    "C65_values",
    "C65_last_bin",
    "C65_children",
    "C65_depth",
    "C65_waste",
    "C65_resources_y_refuted",
    "C65_infeasible_refuted",
    "C65_predecessors_refuted"
   ],
   "note": "Every scheme of the domain (built instance, positive dimensions), direction, node, callback: accepted by the builder, valid bins, supplies, values, children, depth, skyline cell by cell, waste. Capacities and net profit when the direction is X or there is no resource. Refuted: in the other directions the swapped instance has no resources, so capacities are ignored; the infeasibility claim and the predecessors (equal item types in a fixed order, corner positions only) lose packings. Missing for proved: these clauses are false of the code."
  },
  {
   "property": "C66",
   "status": "partial",
   "theorems": [
    "C66_better",
    "C66_bin_packing_partial",
    "C66_leftovers_partial",
    "C66_open_dimension_order",
    "C66_open_dimension_x_partial",
    "C66_open_dimension_y_partial",
    "C66_knapsack_partial",
    "C66_profit_bound",
    "C66_default_partial",
    "C66_bin_packing_refuted",
    "C66_leftovers_refuted",
    "C66_leftovers_order_refuted",
    "C66_open_dimension_y_refuted",
    "C66_open_dimension_z_refuted",
    "C66_knapsack_penalty_refuted",
    "C66_default_refuted",
    "C66_dominance_refuted"
   ],
   "note": "Proved: the order, and the cuts for all objectives when no item of the skyline is raised (open dimension Y when x z <= y z + 1; knapsack and default without penalties; default only against complete solutions). Refuted: bin packing and leftovers with a raised item, open dimension Y, Z (throws), knapsack with penalties, default against incomplete solutions, dominance (weights), the order with leftovers. Missing for proved: these clauses are false of the code."
  },
  {
   "property": "C67",
   "status": "partial",
   "theorems": [
    "C67_indicators",
    "C67_orientations",
    "C67_feasible",
    "C67_last_bin",
    "C67_leftover",
    "C67_empty_leftover_refuted",
    "C67_density",
    "C67_density_refuted",
    "C67_penalty_copies_refuted",
    "C67_geometry_refuted",
    "C67_open_dimension_xy"
   ],
   "note": "Proved for all histories: bins, orientations, all indicators, feasibility, extents, leftover for the eight modes (non-empty last bin inside its bin), densities at most 1 for bins that start at 0. Refuted: leftover of an empty last bin and its scale, densities of bins that do not start at 0, penalty charged once per entry, geometry and number of bins not checked by feasible(). Missing for proved: these clauses are false of the code."
  },
  {
   "property": "C68",
   "status": "partial",
   "theorems": [
    "C68_trivial_bounds",
    "C68_onedimensional",
    "C68_relaxation",
    "C68_excluded_items",
    "C68_small_items_refuted",
    "C68_origin_refuted",
    "C68_negative_profit_refuted",
    "C68_order_refuted",
    "C68_minimum_refuted",
    "C68_mandatory_bins_refuted"
   ],
   "note": "Proved for all instances and packings: knapsack bound (profits at least 0), bin packing bound (bins in order), open dimension bound (bin that does not start below 0), onedimensional bound given right onedimensional bounds (items of at least one unit of scaled area, no mandatory bins for bin packing), the relaxation itself, and that item types left out of the knapsack bound cannot be packed. Of the geometry, only the consequences on boxes and areas are assumed of a valid packing. Refuted: items below one unit of scaled area, bins that start at negative coordinates, negative profits, bins out of order, optional copies, mandatory bins. Missing for proved: these clauses are false of the code."
  },
  {
   "property": "C69",
   "status": "partial",
   "theorems": [
    "C69_one_report_at_a_time",
    "C69_returns_after_tasks",
    "C69_sequential_order",
    "C69_no_deadlock",
    "C69_bounded",
    "C69_end_flag",
    "C69_exceptions",
    "C69_outcomes",
    "C69_reports_interleave",
    "C69_throwing_callback_refuted",
    "C69_throwing_callback_parallel_refuted",
    "C69_formatter"
   ],
   "note": "Every clause but the last is proved for all tasks, schedules and modes (deadlock freedom for callbacks that do not throw). The last clause is false: a callback that throws leaves the mutex locked, and the next report of any task waits for ever, in both modes. Data races on the end flag, a plain bool, are modelled as atomic reads and writes."
  },
  {
   "property": "C70",
   "status": "partial",
   "theorems": [
    "C70_trivial_bounds",
    "C70_onedimensional",
    "C70_relaxation",
    "C70_minimum_refuted",
    "C70_order_refuted",
    "C70_negative_profit_refuted",
    "C70_no_items_refuted",
    "C70_mandatory_bins_refuted"
   ],
   "note": "Proved for all instances and packings with bins and mandatory items within their limits: knapsack bound (profits at least 0, order sorted for the comparator), bin packing bound (bins in order), open dimension bounds along the three axes, onedimensional bound given right onedimensional bounds (no mandatory bins for bin packing), the relaxation itself. Refuted: optional copies, bins out of order, negative profits, mandatory bins (exception), no items (exception). Missing for proved: these clauses are false of the code."
  },
  {
   "property": "C71",
   "status": "partial",
   "theorems": [
    "C71_trivial_bounds",
    "C71_box_bound",
    "C71_relaxation",
    "C71_nested_refuted",
    "C71_nested_profit_refuted",
    "C71_lying_refuted",
    "C71_full_nesting_refuted",
    "C71_order_refuted",
    "C71_minimum_refuted",
    "C71_negative_profit_refuted"
   ],
   "note": "Proved for all instances and packings: trivial bounds when items are not nested (profits at least 0 and order sorted for the comparator for knapsack, bins in order for bin packing); box bound given right box bounds when nested items stay upright, for the three objectives; the relaxation itself. Refuted: nested items (both trivial bounds count their full volume), nested items that may lie on a side (the height is shrunk before the rotation), items nested by their full height (exception), bins out of order, optional copies, negative profits. Missing for proved: these clauses are false of the code."
  },
  {
   "property": "C72",
   "status": "partial",
   "theorems": [
    "C72_trivial_bounds",
    "C72_onedimensional",
    "C72_relaxation",
    "C72_dual_feasible_functions",
    "C72_built",
    "C72_soft_trims_refuted",
    "C72_turned_refuted",
    "C72_order_refuted",
    "C72_minimum_refuted",
    "C72_negative_profit_refuted",
    "C72_mandatory_bins_refuted",
    "C72_no_area_refuted"
   ],
   "note": "Proved for all instances and packings outside all trims: knapsack bound (profits at least 0, order sorted for the comparator), bin packing bound (plates in order), open dimension bounds, onedimensional bound given right onedimensional bounds (no mandatory plates for bin packing), the relaxation itself, the dual feasible functions (one plate type, enough iterations of the fuel), and the geometry of the plates of the solution builder (hard trims, oriented items not turned). Only the consequences of guillotine cuts on positions are used, so the bounds hold for all packings. Refuted: solutions with items in soft trims or with turned oriented items, which the builder accepts and feasible() reports feasible; plates out of order; optional copies; negative profits; mandatory plates and plates without area (exceptions). Missing for proved: these clauses are false of the code."
  },
  {
   "property": "C73",
   "status": "partial",
   "theorems": [
    "C73_built",
    "C73_stacks",
    "C73_calls",
    "C73_bin_setters",
    "C73_item_setters",
    "C73_parameter_setters",
    "C73_bin_minimum",
    "C73_trims",
    "C73_cutting_costs",
    "C73_predefined",
    "C73_all_infinite",
    "C73_infinite_copies",
    "C73_infinite_dimension",
    "C73_copy_item",
    "C73_copy_bin",
    "C73_predefined_throw_refuted",
    "C73_predefined_digit_refuted",
    "C73_default_costs_refuted",
    "C73_unlimited_items_refuted",
    "C73_zero_area_refuted",
    "C73_missing_item_refuted",
    "C73_infinite_trims_refuted",
    "C73_unlimited_minimum_refuted",
    "C73_default_cost_refuted",
    "C73_copy_minimum_refuted",
    "C73_consumptions",
    "C73_resources",
    "C73_all_types",
    "C73_copy_consumptions"
   ],
   "note": "Proved for all histories of calls: consistency, bounds, data, acceptance and effect of the calls, stacks (copies at least 0), trims (no infinite dimension), cutting costs, predefined strings, infinite copies flag, infinite copies and dimensions, copies of types. Refuted: set_predefined changes the builder before it throws and accepts letters as numbers of stages; default parameters have no cutting costs; item types with -1 copies make build throw or write out of range; item types without area and consumptions of missing item types make build undefined; infinite dimensions ignore trims; unlimited plates below their minimum; the two default costs differ with trims; copies lose the minimum of item types. Missing for proved: these clauses are false of the code."
  },
  {
   "property": "C74",
   "status": "partial",
   "theorems": [
    "C74_built",
    "C74_calls",
    "C74_add",
    "C74_bin_setters",
    "C74_item_setters",
    "C74_parameters",
    "C74_all_types",
    "C74_bin_minimum",
    "C74_infinite_dimension",
    "C74_zero_volume_refuted",
    "C74_open_z_refuted",
    "C74_objective_refuted",
    "C74_profits_auto_refuted",
    "C74_infinite_dimension_refuted",
    "C74_copy_minimum_refuted",
    "C74_group_id_refuted",
    "C74_unweighted_refuted",
    "C74_unlimited_items_refuted",
    "C74_nesting_refuted",
    "C74_copy_item",
    "C74_copy_bin",
    "C74_infinite_copies"
   ],
   "note": "Proved for all histories of calls: consistency (with groups and defects), bounds, data, acceptance and effect of every call, infinite copies and dimensions, copies of types. Refuted: set_item_type_group does not check the item type; zero sides make build divide by zero; OpenDimensionZ accepts several bins; a new builder has no objective; automatic profits are always 0; infinite dimensions entered before the items are 0; -1 copies of an item type give a negative number of items; nesting heights are not bounded; unweighted bins do not get the default cost; copies lose the minimum of item types. Missing for proved: these clauses are false of the code."
  },
  {
   "property": "C75",
   "status": "partial",
   "theorems": [
    "C75_positions",
    "C75_fewest_stages",
    "C75_minimize_keeps",
    "C75_never_returns",
    "C75_border_never_returns",
    "C75_empty_if_uncuttable_refuted",
    "C75_single_item_refuted",
    "C75_found",
    "C75_only_cuttable",
    "C75_thin_cuts"
   ],
   "note": "Proved: positions, plate and number of the solutions; fewest stages; minimize_number_of_stages keeps types, copies and positions; a solution is only returned for cuttable items; cuttable items are found within two nested calls per item if no item starts too near for a cut after a side or another item (always so with thin cuts). Refuted: items that no cut separates make the call recurse without end instead of giving an empty list, and so does one item at exactly one cut of the left or bottom side. Missing for proved: these clauses are false of the code."
  },
  {
   "property": "C76",
   "status": "partial",
   "theorems": [
    "C76_replays",
    "C76_products",
    "C76_order",
    "C76_measures",
    "C76_sorted",
    "C76_keeps",
    "C76_keeps_feasible_refuted",
    "C76_keeps_stack_order_refuted"
   ],
   "note": "Proved: products of 64-bit values are compared exactly; the comparison is the documented lexicographic order and a strict weak order; the measures of the nodes; the sorted children; plates, types, copies and the items of each plate with their widths and heights; no plate with a fitting pattern makes the replay throw. The plates are assumed to hold a well-formed cutting pattern whose root is the usable region. Refuted: feasibility is lost when the waste over a defect is dropped, and when the sort changes the order of the items of a stack. Missing for proved: these clauses are false of the code."
  }
 ]
}