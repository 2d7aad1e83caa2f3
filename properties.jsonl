{"id": "C01", "title": "Tolerance comparators are strict orders on the values the solver compares", "statement": "strictly_greater_profit / strictly_lesser_cost (and the absolute strictly_greater/strictly_lesser) are irreflexive, asymmetric and transitive on non-negative values; exactly one of 'strictly greater', 'strictly lesser', 'equal' holds; a strict verdict always implies a strict inequality of the real values. On negative profits the relative comparator is inverted (refuted), and 'equal' is not transitive (refuted).", "quantifier": "all pairs and triples of (rational) doubles", "why_tests_cant": "the relation ranges over all pairs/triples of doubles; tests sample a few", "anchors": ["include/packingsolver/algorithms/common.hpp: strictly_greater, strictly_lesser, equal, strictly_greater_profit, strictly_lesser_profit, strictly_greater_cost, strictly_lesser_cost"]}
{"id": "C02", "title": "Solution pool keeps the best distinct solutions for every history", "statement": "After any sequence of SolutionPool::add calls, the pool holds at most size_max entries, sorted best first, without two entries that tie in both quality and item copies; best() is at least as good as every solution ever offered (including the initial empty one), worst() is the last entry; a rejected or evicted solution is never strictly better than a kept one. Holds whenever operator< of the solution class is a strict weak order.", "quantifier": "all finite sequences of add calls, all pool capacities >= 1, all strict weak orders", "why_tests_cant": "unbounded histories of insertions/evictions/duplicates", "anchors": ["include/packingsolver/algorithms/common.hpp: SolutionPool"]}
{"id": "C03", "title": "Pool return code tells exactly when the incumbent changed", "statement": "SolutionPool::add returns 1 exactly when best() changes to the offered solution (strictly better than the old best, or tied with a lexicographically different item copy vector ordered first), 0 when inserted elsewhere, and -1 exactly when the pool's content is unchanged.", "quantifier": "all pool states reachable by add calls and all offered solutions", "why_tests_cant": "depends on arbitrary history", "anchors": ["include/packingsolver/algorithms/common.hpp: SolutionPool::add"]}
{"id": "C04", "title": "Merging identical bins preserves what is packed", "statement": "group_identical_bins returns a solution with the same total number of copies of every (bin type, item list) pattern, pairwise different patterns in order of first occurrence; number of bins, cost, item copies, item totals and (without penalized resources) profit are unchanged; applying it twice equals applying it once.", "quantifier": "all solutions (lists of bins with any positive copies)", "why_tests_cant": "arbitrary lists with arbitrary repetition structure", "anchors": ["include/packingsolver/algorithms/common.hpp: group_identical_bins"]}
{"id": "C05", "title": "Bin-type order enforcement yields a valid order without losing bins", "statement": "enforce_bin_type_order returns a solution in which physical bins appear in bin-type order, every bin type before the last used one is fully used (padding with empty bins), every packed bin of the input is kept provided no type is over-used; when a type is over-used beyond its copies bins are dropped (refuted).", "quantifier": "all solutions and all bin type copy vectors", "why_tests_cant": "arbitrary permutations and multiplicities", "anchors": ["include/packingsolver/algorithms/common.hpp: enforce_bin_type_order"]}
{"id": "C06", "title": "Per-copy resource schedules are read correctly", "statement": "Resource::item_consumption(item, copy) is the copy-th entry of the item's schedule, the last entry for any later copy, and 0 for items without schedule; the consumption accumulated by a bin equals the sum over its item types of the first n entries (last one repeated), independently of the order in which items were added.", "quantifier": "all resources, items, copies and all orders of adding items", "why_tests_cant": "permutations of arbitrary item lists", "anchors": ["include/packingsolver/algorithms/common.hpp: Resource", "src/onedimensional/solution.cpp: Solution::update_indicators"]}
{"id": "C07", "title": "Queue-size power-of-two helpers", "statement": "largest_power_of_two_lesser_or_equal and smallest_power_of_two_greater_or_equal terminate for every positive value v; the first returns a power of two r with r <= v <= 2r (on an exact power of two it may return v/2 although v itself would qualify, refuted as 'largest'), the second returns a power of two r with v <= r <= 2v.", "quantifier": "all positive values", "why_tests_cant": "unbounded numeric range", "anchors": ["include/packingsolver/algorithms/common.hpp: largest_power_of_two_lesser_or_equal, smallest_power_of_two_greater_or_equal"]}
{"id": "C08", "title": "Objective / problem type names round-trip; optimization modes do not", "statement": "Printing an Objective or a ProblemType and parsing the text back yields the same value. For OptimizationMode the printed text is rejected by the parser for the non-anytime modes (refuted).", "quantifier": "all enumerators, all accepted spellings", "why_tests_cant": "finite but claim relates printer and parser exactly", "anchors": ["src/algorithms/common.cpp: operator<<, operator>>"]}
{"id": "C09", "title": "1D solution indicators are the sums they claim to be", "statement": "For every way of building a onedimensional solution (builder, append_bin, append_bins, append_empty_bin, any order), number_of_bins, cost, bin length, number_of_items, item_copies, item length and (without penalized resources) profit equal the multiplicity-weighted sums over its bins, and item positions are the cumulative lengths minus nesting.", "quantifier": "all instances, all sequences of construction calls", "why_tests_cant": "incremental update over unbounded histories", "anchors": ["src/onedimensional/solution.cpp: Solution::update_indicators, append_bin, append_bins, append_empty_bin", "src/onedimensional/solution_builder.cpp"]}
{"id": "C10", "title": "1D feasible() means the packing satisfies the constraints it checks", "statement": "onedimensional Solution::feasible() is true exactly when every bin respects length, weight, stackability, maximum weight after, eligibility and hard resources, no item type exceeds its copies, every item type reaches its minimum copies and the callback accepts; and it does not look at the number of bin copies or at the bin type order (refuted as a guarantee).", "quantifier": "all solutions built through the API", "why_tests_cant": "feasibility flags are sticky and incremental; must agree with the declarative definition for every history", "anchors": ["src/onedimensional/solution.cpp: Solution::update_indicators", "include/packingsolver/onedimensional/solution.hpp: feasible"]}
{"id": "C11", "title": "Solution comparison is a strict weak order that puts feasible solutions first", "statement": "Solution::operator< (of every problem type) never ranks an infeasible solution above a feasible one, and for integer-valued objectives (bin packing, open dimension, leftovers) it is a strict weak order, so pools and algorithms using it are well defined.", "quantifier": "all triples of solutions of the same instance", "why_tests_cant": "relation over all triples", "anchors": ["src/onedimensional/solution.cpp: Solution::operator<", "src/rectangle/solution.cpp: Solution::operator<", "src/irregular/solution.cpp: Solution::operator<"]}
{"id": "C12", "title": "1D certificate write/read round trip", "statement": "Writing a onedimensional solution to the CSV certificate and reading it back with the same instance rebuilds the same bins (types, copies, items in the same order) and therefore the same indicators.", "quantifier": "all solutions and instances", "why_tests_cant": "strings of unbounded size; sentinels and separators must never collide", "anchors": ["src/onedimensional/solution.cpp: Solution::write", "src/onedimensional/solution_builder.cpp: SolutionBuilder::read"]}
{"id": "C13", "title": "Instance builder yields well-formed instances or throws", "statement": "onedimensional InstanceBuilder: every built instance has consistent totals (number of items, bins, lengths), bin_type_ids listing each bin type exactly copies times in order, 0 <= copies_min <= copies for items, per-bin-type item lists containing exactly the eligible items; invalid calls throw and leave the builder unchanged.", "quantifier": "all sequences of builder calls", "why_tests_cant": "unbounded call sequences", "anchors": ["src/onedimensional/instance_builder.cpp"]}
{"id": "C14", "title": "The 1D dual feasible functions are dual feasible", "statement": "For every capacity C and parameter k in range, f_ccm_0, f_ccm_1, f_ccm_2 satisfy: any multiset of items whose lengths sum to at most C has images summing to at most the image of C.", "quantifier": "all capacities, parameters and finite multisets of lengths", "why_tests_cant": "universally quantified over multisets", "anchors": ["src/onedimensional/dual_feasible_functions.cpp: f_ccm_0, f_ccm_1, f_ccm_2"]}
{"id": "C15", "title": "1D dual feasible bound never exceeds the number of bins of a packing", "statement": "The bin packing bound computed by the onedimensional dual feasible functions algorithm is at most the number of bins of any packing of all item copies whose bins respect the length constraint with nesting.", "quantifier": "all instances with positive reduced lengths and all packings", "why_tests_cant": "quantifies over all packings", "anchors": ["src/onedimensional/dual_feasible_functions.cpp: dual_feasible_functions"]}
{"id": "C16", "title": "greedy_maximum_cardinality is optimal", "statement": "For a pool sorted by length, greedy_maximum_cardinality(capacity) equals the maximum number of items (respecting copies) whose total length fits in the capacity.", "quantifier": "all pools and capacities", "why_tests_cant": "optimality over all selections", "anchors": ["src/onedimensional/dual_feasible_functions.cpp: greedy_maximum_cardinality", "src/rectangle/dual_feasible_functions.cpp"]}
{"id": "C17", "title": "Dantzig profit bound is an upper bound", "statement": "dantzig_profit_bound is at least the profit of every selection of item copies whose total coefficient is at most the capacity.", "quantifier": "all item lists with non-negative profits and coefficients, all selections", "why_tests_cant": "all selections of a knapsack", "anchors": ["src/onedimensional/dual_feasible_functions.cpp: dantzig_profit_bound", "src/rectangle/dual_feasible_functions.cpp: dantzig_profit_bound"]}
{"id": "C18", "title": "2D dual feasible functions bound is valid for every packing", "statement": "For any dual feasible pair (f,g) and any set of non-overlapping rectangles inside a W x H bin, the sum of f(w)g(h) is at most f(W)g(H); hence the bound computed by rectangle dual_feasible_functions (all families, both orientations of rotatable items) never exceeds the number of bins of any packing of all items, and never declares a packable instance infeasible.", "quantifier": "all instances and all non-overlapping packings", "why_tests_cant": "geometric statement over all packings", "anchors": ["src/rectangle/dual_feasible_functions.cpp"]}
{"id": "C19", "title": "DFF cut for column generation / Benders never cuts a packable selection", "statement": "The cut returned by find_most_violated_dual_feasible_function_cut is satisfied by every selection of items that can be packed without overlap in one bin.", "quantifier": "all instances, selections, packings", "why_tests_cant": "all packable selections", "anchors": ["src/rectangle/dual_feasible_functions.cpp: find_most_violated_dual_feasible_function_cut"]}
{"id": "C20", "title": "Rectangle tree search only produces valid packings", "statement": "Every solution produced from a node reached by the rectangle branching scheme (any sequence of insertions, any direction) has all items inside their bins, pairwise disjoint, off all defects, no item type above its copies, and respects weight limits, hard resources up to the tolerance and the 'only x movements' unloading order.", "quantifier": "all instances, all paths of the search tree", "why_tests_cant": "unbounded depth of the search tree", "anchors": ["src/rectangle/tree_search.cpp: BranchingScheme::insertions, insertion_item, child_tmp, to_solution"]}
{"id": "C21", "title": "Rectangle tree search state matches the solution it stands for", "statement": "In every reachable node the number of items, bins, item area, profit, resource consumption and waste equal the values computed from the packed items; waste is never negative (the guard exception is unreachable).", "quantifier": "all paths of the search tree", "why_tests_cant": "unbounded depth", "anchors": ["src/rectangle/tree_search.cpp: child_tmp"]}
{"id": "C22", "title": "Flipping a rectangle instance maps valid packings to valid packings and back", "statement": "unflip_solution turns any valid packing of the flipped instance (inside, disjoint, off defects, same copies, rotations allowed) into a valid packing of the original instance and conversely; flipping twice is the identity.", "quantifier": "all instances and packings", "why_tests_cant": "all packings", "anchors": ["src/rectangle/instance_flipper.cpp"]}
{"id": "C23", "title": "Rectangle blocks are valid partial packings", "statement": "Every block produced by block generation has its items inside the block rectangle, pairwise disjoint, item area and item copies equal to what it contains, no item type above its copies, allowed orientations only, and fits in the bin.", "quantifier": "all instances, all generation rounds", "why_tests_cant": "closure under unbounded combination", "anchors": ["src/rectangle/block.cpp"]}
{"id": "C24", "title": "Maximal spaces stay free and cover all free area", "statement": "After any sequence of block placements each made inside a space, every space is inside the bin, disjoint from every placed block and defect, and every free axis-parallel rectangle of positive area inside the bin is contained in some space; so blocks placed in spaces never overlap.", "quantifier": "all sequences of placements", "why_tests_cant": "unbounded sequences", "anchors": ["src/rectangle/tree_search_maximal_spaces.cpp: cut_spaces, add_empty_space, overlaps, apply_insertion"]}
{"id": "C25", "title": "Concurrent reporting is monotone and loses nothing", "statement": "Whatever the interleaving of threads calling update_solution / update_*_bound on the shared AlgorithmFormatter, the incumbent never gets worse, bounds only tighten, the final incumbent is at least as good as every reported solution and the final bounds are the best of the reported ones.", "quantifier": "all interleavings of all finite call sequences of any number of threads", "why_tests_cant": "schedules are unbounded", "anchors": ["src/onedimensional/algorithm_formatter.cpp", "src/rectangle/algorithm_formatter.cpp"]}
{"id": "C26", "title": "Deterministic mode is independent of the schedule", "statement": "In NotAnytimeDeterministic mode the final output depends only on the local outputs of the tasks in registration order, not on the interleaving of the tasks.", "quantifier": "all interleavings", "why_tests_cant": "schedules", "anchors": ["src/onedimensional/optimize.cpp: optimize", "src/rectangle/optimize.cpp: optimize"]}
{"id": "C27", "title": "Early stop only on proof", "statement": "The formatter raises its end flag only if the incumbent matches a reported bound (or infeasibility was reported); if all reported bounds are valid, then a stopped run holds an optimal solution (or the instance is infeasible).", "quantifier": "all call histories", "why_tests_cant": "histories", "anchors": ["src/onedimensional/algorithm_formatter.cpp: update_solution", "include/packingsolver/onedimensional/optimize.hpp"]}
{"id": "C28", "title": "1D tree search only produces valid packings", "statement": "Every solution obtained from a node of the onedimensional branching scheme respects length with nesting, item copies, stackability, weight and weight-after limits up to the tolerance, eligibility and hard resources; with exact (integer) weights it is feasible() as a Solution whenever minimum copies are reached. The values kept in a node are those of its solution, the tree is finite, and without nesting a node is cut by the bound only if nothing below it is better than the incumbent; the cuts are wrong with nesting, and dominance and the exhausted-search claim are wrong in general (refuted).", "quantifier": "all paths of the search tree", "why_tests_cant": "unbounded depth", "anchors": ["src/onedimensional/tree_search.cpp"]}
{"id": "C29", "title": "Trivial bin packing bound of 1D is valid", "statement": "The area (length) bound posted before the search is at most the number of bins of any solution packing all copies, and the knapsack bound is at least the profit of any solution when profits and reduced lengths are positive; with zero reduced length or negative profits the knapsack bound is invalid (refuted), and the variable-sized bound is invalid with bin minimum copies (refuted).", "quantifier": "all instances and packings", "why_tests_cant": "all packings", "anchors": ["src/onedimensional/optimize.cpp: optimize (trivial bounds)"]}
{"id": "C30", "title": "Conservative scales bound is valid", "statement": "The rescaled widths and heights computed by the conservative scales algorithm are conservative up to its tolerance (every set of items fitting in one dimension still fits after rescaling), whatever the LP solver answers; every bound computed from them is at most the number of bins of any packing of all the items, and an instance it declares infeasible has no such packing in its bins.", "quantifier": "all instances, rescalings, packings", "why_tests_cant": "all packings", "anchors": ["src/rectangle/conservative_scales.cpp"]}
{"id": "C31", "title": "Sequential value correction never over-uses items or bins", "statement": "The solution under construction in sequential_value_correction never uses more copies of an item type or of a bin type than the instance offers, whatever the knapsack subsolver returns, and each iteration makes progress so the loop terminates.", "quantifier": "all instances and all subproblem answers", "why_tests_cant": "oracle answers are arbitrary", "anchors": ["src/algorithms/sequential_value_correction.hpp"]}
{"id": "C32", "title": "Column generation: subset-row cuts are valid", "statement": "For every integer combination of patterns packing each single-copy item at most once, every subset-row cut used by column generation holds, and the coefficient and violation computed by the code equal their definitions.", "quantifier": "all sets of patterns and triples", "why_tests_cant": "all integer solutions", "anchors": ["src/algorithms/column_generation.hpp"]}
{"id": "C33", "title": "Column generation: bin count cap", "statement": "maximum_number_of_bins_for_variable_sized_bin_packing is at least the number of non-empty bins of every solution whose cost is at most the given one.", "quantifier": "all instances and solutions", "why_tests_cant": "all solutions", "anchors": ["src/algorithms/column_generation.hpp: maximum_number_of_bins_for_variable_sized_bin_packing"]}
{"id": "C34", "title": "Dichotomic search: valid reports, sound success, shrinking interval, termination", "statement": "Given a solver that respects the bin packing sub-problems, every solution dichotomic_search reports uses bins and items within the copies of the instance; the upper bound on the waste is lowered only when a reported solution packs all items in at most as many bins as a set of bins between the mandatory ones and all of them; no set of bins is tried twice; the interval of waste never grows and is halved once finite; the search ends. On an instance whose items do not fit it ends only by overflow of the waste (the stopping test cannot hold); a success with the single bin of an instance may be missed, mandatory bins may be dropped or make it throw (refutations).", "quantifier": "all instances, knapsack answers, sub-solver answers, timer answers", "why_tests_cant": "the answers of the sub-solvers and the number of turns are unbounded", "anchors": ["src/algorithms/dichotomic_search.hpp:dichotomic_search"]}
{"id": "C35", "title": "Maximum reachable lengths are exact", "statement": "compute_max_reachable_lengths(L) is the largest total length at most L obtainable by placing item copies side by side (each copy at most once, allowed orientations).", "quantifier": "all instances and lengths", "why_tests_cant": "all subset sums", "anchors": ["src/rectangle/block.cpp: compute_max_reachable_lengths", "src/box/block.cpp"]}
{"id": "C36", "title": "Guillotine solution builder produces guillotine cutting trees", "statement": "Whatever sequence of add_bin/add_node/set_last_node_item calls is accepted by the rectangleguillotine SolutionBuilder, in the resulting tree every node lies inside its parent, siblings are disjoint and separated by the cut thickness along the cut direction of their depth, and item nodes have exactly the dimensions of their item.", "quantifier": "all accepted call sequences", "why_tests_cant": "unbounded trees", "anchors": ["src/rectangleguillotine/solution_builder.cpp"]}
{"id": "C37", "title": "Guillotine items never overlap and stay in the usable plate", "statement": "In any solution accepted by the guillotine SolutionBuilder two distinct item leaves of one bin never overlap and lie inside the plate minus its hard trims.", "quantifier": "all accepted call sequences", "why_tests_cant": "unbounded trees", "anchors": ["src/rectangleguillotine/solution_builder.cpp", "src/rectangleguillotine/solution.cpp"]}
{"id": "C38", "title": "Box rotations and flips are consistent", "statement": "For every box and rotation, rotating by the flipped rotation gives the axis-swapped rotated box; flipping is an involution; unflipped packings of a flipped instance are valid packings of the original.", "quantifier": "all boxes, rotations, directions, packings", "why_tests_cant": "all packings", "anchors": ["src/box/instance_flipper.cpp", "include/packingsolver/box/instance.hpp: Box::rotate"]}
{"id": "C39", "title": "3D dual feasible functions bound is valid", "statement": "The bound computed by box dual_feasible_functions never exceeds the number of bins of any non-overlapping packing of all items.", "quantifier": "all instances and packings", "why_tests_cant": "all packings", "anchors": ["src/box/dual_feasible_functions.cpp"]}
{"id": "C40", "title": "Box maximal spaces stay free and cover all free volume", "statement": "As C24 in three dimensions for the box maximal-space branching scheme.", "quantifier": "all sequences of placements", "why_tests_cant": "unbounded sequences", "anchors": ["src/box/tree_search_maximal_spaces.cpp"]}
{"id": "C41", "title": "Box blocks are valid partial packings", "statement": "As C23 in three dimensions.", "quantifier": "all instances, generation rounds", "why_tests_cant": "closure", "anchors": ["src/box/block.cpp"]}
{"id": "C42", "title": "Rectangle solution indicators", "statement": "Rectangle number_of_bins, cost, areas, item copies, weights, profit equal the multiplicity-weighted sums over bins for every construction history; feasible() is exactly item copies, minimum copies, hard resources and callback, hence says nothing about geometry (refuted as a geometric guarantee).", "quantifier": "all construction histories", "why_tests_cant": "histories", "anchors": ["src/rectangle/solution.cpp: Solution::update_indicators"]}
{"id": "C43", "title": "Rectangle certificate round trip", "statement": "Reading back a written rectangle certificate rebuilds the same bins, items, positions and orientations, for items whose orientation is observable.", "quantifier": "all solutions", "why_tests_cant": "strings of unbounded size", "anchors": ["src/rectangle/solution.cpp: Solution::write", "src/rectangle/solution_builder.cpp: SolutionBuilder::read"]}
{"id": "C44", "title": "Rectangle reduction is reversible", "statement": "A packing of the reduced rectangle instance completed by unreduce_solution is a valid packing of the original instance with the announced number of extra bins, and the reduction does not change the optimum number of bins.", "quantifier": "all instances, answers of the sub-solvers, numbers of rounds, timer interruptions and packings of the reduced instance", "why_tests_cant": "A test fixes an instance and a solver; the guarantee concerns every packing of every reduced instance, after any sequence of nested enlargements, captures and pairings, and an optimum that no test can compute for all instances.", "anchors": ["src/rectangle/reduction.cpp", "include/packingsolver/rectangle/reduction.hpp"]}
{"id": "C45", "title": "Axle weights satisfy the equilibrium equations", "statement": "compute_axle_weights returns middle and rear axle loads whose sum and moments balance the truck and the cargo, for every truck with non-zero lever arms.", "quantifier": "all truck data and loads", "why_tests_cant": "continuous parameters", "anchors": ["include/packingsolver/algorithms/truck.hpp: SemiTrailerTruckData::compute_axle_weights"]}
{"id": "C46", "title": "Single-bin knapsack dynamic programming", "statement": "For a knapsack with one bin, the items offered to the exact knapsack solver by splitting copies into powers of two can express every number of copies of every item type that can fit, so the reported profit bound is at least the profit of every packing that respects the length, provided no resource penalty applies.", "quantifier": "all instances with a single bin and all packings, for any exact knapsack solver", "why_tests_cant": "quantifies over all copies vectors and all solvers", "anchors": ["src/onedimensional/optimize.cpp: optimize_dynamic_programming"]}
{"id": "C47", "title": "Sub-instances built from an instance are faithful", "statement": "Copying distinct bin types and then item types of an instance into a new builder succeeds and yields an instance with the same dimensions, costs, copies, eligibilities, resources and consumption schedules; the copies of a bin type can be restricted to any number for the sub-problems.", "quantifier": "all instances, all selections of bin and item types, all objectives", "why_tests_cant": "unbounded instances; involves the interaction of many setters", "anchors": ["src/onedimensional/instance_builder.cpp: add_bin_type(instance), add_item_type(instance)", "src/algorithms/column_generation.hpp", "src/algorithms/sequential_value_correction.hpp", "src/algorithms/dichotomic_search.hpp"]}
{"id": "C48", "title": "Rectangle instance builder gives consistent instances", "statement": "Whatever the sequence of setter calls, an instance that build() returns has computed totals, extrema, eligible item lists, groups and bin lists that agree with the entered data, and each call throws exactly when its documented range check fails, leaving the builder unchanged.", "quantifier": "all sequences of builder calls, including calls that throw", "why_tests_cant": "unbounded call sequences; interactions between setters", "anchors": ["src/rectangle/instance_builder.cpp: InstanceBuilder", "include/packingsolver/rectangle/instance.hpp"]}
{"id": "C49", "title": "Claims of the exhausted maximal-space search", "statement": "When the maximal-space search exhausts its tree, the infeasibility it reports is true and the knapsack bound it reports is at least the profit of every packing of the bin.", "quantifier": "all instances with one bin, with or without defects, and all packings", "why_tests_cant": "quantifies over all packings of all instances; a test compares with a few known optima", "anchors": ["src/rectangle/tree_search_maximal_spaces.cpp: BranchingSchemeMaximalSpaces, tree_search_maximal_spaces"]}
{"id": "C50", "title": "Box solution indicators and feasibility", "statement": "After any sequence of add_bin, add_item, build and append calls that succeeds, every indicator a box solution reports (numbers of bins and items, copies, volumes, weight, profit with resource penalties, extents, waste) is the value computed from its bins and items, and feasible() holds exactly when the constraints it documents hold.", "quantifier": "all instances, all sequences of builder and append calls", "why_tests_cant": "unbounded call sequences; the indicators are maintained incrementally", "anchors": ["src/box/solution.cpp: Solution::update_indicators, append, operator<", "src/box/solution_builder.cpp: SolutionBuilder"]}
{"id": "C51", "title": "Box instance builder gives consistent instances", "statement": "Whatever sequence of InstanceBuilder calls is made on a box builder (exceptions caught, bin and item types copied from other instances), every call either takes effect exactly as documented or throws and changes nothing, and an instance returned by build holds the data given, with derived values (volumes, smallest and largest values, expanded bin list, resource ids, all-infinite flag) that are functions of that data.", "quantifier": "all sequences of builder calls, all arguments", "why_tests_cant": "unbounded call sequences; derived values are computed once in build from all types", "anchors": ["src/box/instance_builder.cpp: InstanceBuilder", "include/packingsolver/box/instance_builder.hpp"]}
{"id": "C52", "title": "Guillotine solution indicators and feasibility", "statement": "After any history of builder calls (exceptions caught) and build, every indicator of a guillotine solution (numbers of bins and items, copies, areas with trims and residual, profit with resource penalties, cost, cutting cost, extents, waste) is the value computed from its bins and nodes, each feasibility flag says whether its constraint holds in the plans, and feasible() holds exactly when all of them and the user callback do; build is always defined and ends the process exactly when a waste is too small.", "quantifier": "all instances with non-negative cut thickness and trims, all histories of builder calls", "why_tests_cant": "unbounded call histories; the indicators and flags are maintained incrementally over nodes", "anchors": ["src/rectangleguillotine/solution.cpp: Solution::update_indicators", "src/rectangleguillotine/solution_builder.cpp: SolutionBuilder::build"]}
{"id": "C53", "title": "Appending bins to a guillotine solution", "statement": "append_bin, append_bins and append_empty_bin show the bins there were, the last one without its residual, followed by faithful copies of the appended bins in the types of the target instance; the indicators, flags and feasible() of every solution reached by building and appending are those of the bins it shows.", "quantifier": "all solutions reachable by building and appending, from instances that agree on the copied plates and items", "why_tests_cant": "unbounded histories of appends across instances; indicators are updated incrementally", "anchors": ["src/rectangleguillotine/solution.cpp: Solution::append, append_empty_bin, operator<"]}
{"id": "C54", "title": "Column generation pricing", "statement": "Each column produced by pricing describes the bin it keeps (type, copies of each item type, cost or profit); the profit the sub-problem optimises is its reduced cost, penalties of active cuts included; no pattern has a better reduced cost than the bound reported; and the value of the duals plus the overcost bounds the value of every solution.", "quantifier": "all instances, duals, active cuts and sub-problem solvers with valid bounds, all solutions of the master problem", "why_tests_cant": "quantifies over all duals and all integer solutions; an invalid bound only shows on instances whose optimum lies below it", "anchors": ["src/algorithms/column_generation.hpp: ColumnGenerationPricingSolver::solve_pricing, initialize_pricing"]}
{"id": "C55", "title": "What the rectangle tree search cuts and claims", "statement": "A node cut by the bound of the rectangle branching scheme has no node below it that is better than the solution it was compared with; a node removed by dominance leads to nothing better than the node that dominates it; and what the exhausted search claims (infeasibility, the bin packing bound, the knapsack bound) holds for every packing of the instance.", "quantifier": "all built instances, objectives, directions, reachable nodes and solutions", "why_tests_cant": "a wrong cut only shows when the lost branch held the best solution, and a wrong claim only when a packing outside the tree contradicts it", "anchors": ["src/rectangle/tree_search.cpp: BranchingScheme::bound, better, insertions, tree_search", "src/rectangle/tree_search.hpp: BranchingScheme::dominates"]}
{"id": "C56", "title": "The bar relaxation never claims too much", "statement": "For the rectangle problem, whatever the bar relaxation reports is right: a bound on the profit is not below the profit net of penalties of any packing, a bound on the cost or on the number of bins is not above those of any packing, and an instance reported infeasible has no packing. This holds at whatever dual values the column generation stops, also when not all bars have been generated.", "quantifier": "every instance with positive dimensions and costs, every packing, every dual vector, every exact knapsack solver", "why_tests_cant": "A bound that is too strong only shows up as an optimum that is never reported, or as an early stop with a worse solution; a test would need the true optimum of every instance and every dual vector the LP solver may stop at.", "anchors": ["src/rectangle/bar_relaxation.cpp: bar_relaxation, price_bars, solve_pricing, new_bound_callback", "include/packingsolver/algorithms/common.hpp: negative_penalty_sum"]}
{"id": "C57", "title": "The cheap bounds of the rectangle solver are right and its last step only improves", "statement": "For the rectangle problem, the bounds reported before any search starts (areas, extents, and the relaxation to a onedimensional problem) are never contradicted by a packing: no packing has a higher profit net of penalties, uses fewer bins in the order of the instance, costs less, or has a smaller extent. The step that solves the last bin again keeps all the items of the other bins.", "quantifier": "every instance with positive sizes, limited bins and positive costs; every packing; every onedimensional solver with right bounds; every best solution and second solution", "why_tests_cant": "A wrong bound is only visible when the true optimum is known and lies on the wrong side of it; a lost bin is only visible when the best solution has several different bins, and is then silently discarded.", "anchors": ["src/rectangle/optimize.cpp: optimize_trivial_bound, optimize_onedimensional_bound, optimize", "include/packingsolver/algorithms/common.hpp: negative_penalty_sum"]}
{"id": "C58", "title": "The assignment MILP stands for the packings", "statement": "For the onedimensional problem, every packing is a point of the assignment MILP with the same value, and every point of the MILP is read back, without an exception, as a solution that satisfies the constraints the MILP stands for and has the value of the point. Consequently the bounds and the infeasibility reported from the answer of the MILP solver hold of every packing, a best point gives a solution no packing beats, and the number of bins proved necessary by trying increasing numbers of bins is right.", "quantifier": "every instance without nesting and with positive lengths, every packing, every point of the model, every right answer of the MILP solver and of the nested solves", "why_tests_cant": "The model has a column per copy, bin and item type and several symmetry-breaking reductions; a reduction that removes all optimal packings of some instances only shows as a slightly worse optimum, which a test cannot tell from a right one.", "anchors": ["src/onedimensional/milp_assignment.cpp: build_milp_model, add_penalize_resource_constraints, build_initial_solution, retrieve_solution, compute_bin_type_upper_bounds, milp_assignment"]}
{"id": "C59", "title": "The Benders decomposition of the rectangle solver is right", "statement": "When the rectangle solver decomposes a problem into a master (which items go into which bin, by area) and one problem per bin, every solution it reports satisfies the geometry, eligibility, resources and numbers of copies; every cut it adds to the master is satisfied by all the bins that satisfy the constraints as long as the infeasibility of the bins was proven; so the bounds and the infeasibility it passes on hold of every packing, its own check of the cuts never throws on a right solution, the run ends, and if it ends by itself with the last master solved exactly no packing is better than its solution.", "quantifier": "every instance, every history of answers of the master, of the bin problems and of the bar relaxation that are right, any number of iterations, any additional constraint on bins that still holds when an item is removed", "why_tests_cant": "A wrong cut removes packings from the master some iterations later, for some item sets only; the run still ends with a valid solution, and the lost optimum is invisible without the optimum.", "anchors": ["src/rectangle/benders_decomposition.cpp: benders_decomposition, find_most_violated_cut, enumerate_minimal_infeasible_subsets, lift_no_good_cut, compute_static_bin_type_resources, compute_item_type_precedences, build_master_instance, check_cuts_against_best_solution"]}
{"id": "C60", "title": "Boxstacks solutions have right indicators, and feasible() means what it says", "statement": "For every sequence of calls of the boxstacks solution builder and of appends of bins from other solutions, the bins, stacks and items are those asked for and every number the solution shows (copies, areas, volumes, weights, profits, heights, positions of the items, weights and moments per group, extents of the last bin) is what the bins give; feasible() holds exactly when the copies of every item type are within its limits, no bin is overweight, no axle is overloaded at any stage of the unloading, and the callback agrees; the axle violation is zero exactly when no axle is overloaded; the waste is between zero and the full waste; every sequence of valid calls gives a solution; check_stack accepts the stacks that respect the height, density, number and weight limits and no others.", "quantifier": "every instance, callback and sequence of calls; every stack for check_stack", "why_tests_cant": "The indicators are kept incrementally and a wrong one only shows for some orders of the calls and some numbers of bins and groups; whether an out-of-bounds read happens depends on the first bin being feasible.", "anchors": ["include/packingsolver/boxstacks/solution.hpp: Solution", "src/boxstacks/solution.cpp: append, update_indicators, operator<, compute_feasibility, compute_weight_constraints_violation", "src/boxstacks/solution_builder.cpp: SolutionBuilder", "include/packingsolver/boxstacks/instance.hpp: check_stack"]}
{"id": "C61", "title": "Every node of the boxstacks tree search is a valid packing with right values", "statement": "In the tree search of the boxstacks problem, every node can be turned into a solution: the solution builder accepts all the calls, in the bins the stacks are inside, apart from each other and off the defects, every item covers the base of its stack, the items of a stack share their stackability and group, heights, densities, numbers of items and weights above each item are allowed, the total weight is allowed, the unloading order is respected, and no item type or bin type is used more than it may be. A node with one bin becomes a solution with that bin. The number of items, the copies, the profit, the volume, the waste and the furthest coordinate of a node are those of its bins; every proposed insertion gives a child, with one more item and no less waste; in the direction X the overweights of a node are zero exactly when the axles of its last bin are not overloaded; the comparison of nodes is a strict weak order.", "quantifier": "every instance with positive dimensions whose stackable items have consistent bases, every direction (upright rotations unless the direction is X), every unloading constraint, every choice of insertions of any length", "why_tests_cant": "The skyline of uncovered items and the weights of the groups are updated incrementally; an error needs a particular sequence of insertions, and shows as an exception or an overlap only for some instances.", "anchors": ["src/boxstacks/tree_search.cpp: BranchingScheme::child_tmp, insertions, insertion_item_above, insertion_item, insertion_item_left, better, to_solution", "src/boxstacks/tree_search.hpp: Node, leaf", "src/boxstacks/instance_flipper.cpp"]}
{"id": "C62", "title": "The boxstacks tree search cuts and claims nothing wrong", "statement": "In the tree search of the boxstacks problem, no complete solution below a node that is cut by a known solution is better than that solution (fewer bins, less waste, more profit, smaller extent), and if the search ends without a complete solution there is none.", "quantifier": "every instance of C61, every objective, every node, every known complete solution, every node below", "why_tests_cant": "A wrong cut only shows when the lost branch held the best solution, and a wrong claim only when a packing outside the tree contradicts it.", "anchors": ["src/boxstacks/tree_search.cpp: BranchingScheme::bound, insertions, tree_search"]}
{"id": "C63", "title": "The guillotine hypergraph search gives valid solutions and ends with the best one", "statement": "The hypergraph search for the guillotine knapsack problem ends, whatever the timer does. Every solution it reports is accepted by the solution builder, is one copy of the first plate, uses no item type more often than it has copies, and has the profit the search recorded; the last one has the best recorded profit. If the timer does not stop it, no set of items within their copies that can be cut out of the plate by edge-to-edge cuts is worth more.", "quantifier": "every instance with positive dimensions, non-negative trims and cut thickness, every timer, every set of items that can be cut in any number of stages", "why_tests_cant": "The search keeps a bucket queue of partial patterns and prunes by a table; a wrong entry of the table or a wrong key of the set of seen patterns only loses some combinations, and the result is still a valid solution.", "anchors": ["src/rectangleguillotine/tree_search_hypergraph.cpp: compute_dp, compute_rdp, tree_search_hypergraph, reconstruct_solution", "include/packingsolver/rectangleguillotine/tree_search_hypergraph.hpp"]}
{"id": "C64", "title": "The guillotine dynamic program with infinite copies is exact", "statement": "The dynamic program for guillotine cutting with infinite copies gives, for every plate size up to the first plate, the largest profit of the items that can be cut out of it by edge-to-edge cuts, in any number of copies; its solution is accepted by the solution builder and has the profit announced for the plate.", "quantifier": "every instance with positive dimensions, non-negative trims and cut thickness, every plate size, every set of items that can be cut", "why_tests_cant": "The maximum ranges over all cutting trees; a missed cut or a wrong reconstruction only changes some sizes.", "anchors": ["src/rectangleguillotine/tree_search_hypergraph_infinite_copies.cpp: compute_dp, reconstruct_rec, reconstruct_solution, tree_search_hypergraph_infinite_copies"]}
{"id": "C65", "title": "The nodes of the box tree search are packings with the announced values", "statement": "Every node the box branching scheme can reach converts to a solution that the builder accepts: items inside the bins, disjoint, in an allowed rotation, weights and supplies of items and bins respected, capacities of the resources respected; its counters, volume, profit net of penalties, weight, skyline and waste are those of this solution; the insertions it generates are accepted and each adds one item; and what the exhausted search claims holds for every packing.", "quantifier": "all built instances with positive dimensions, all directions, all reachable nodes, all callbacks", "why_tests_cant": "nodes are histories of insertions of any length; a wrong skyline only shows as an overlap many insertions later, a wrong claim only as a packing outside of the tree", "anchors": ["src/box/tree_search.cpp: BranchingScheme::insertions, insertion_item_above, insertion_item_left, child_tmp, to_solution, tree_search", "src/box/tree_search.hpp: BranchingScheme::Node"]}
{"id": "C66", "title": "What the box tree search compares, cuts and dominates", "statement": "The comparison of nodes is a strict order by the value of the solutions; a node cut by the bound of the box branching scheme has no node below it that is better than the solution it was compared with; and a node removed by dominance leads to nothing better than the node that dominates it.", "quantifier": "all built instances, objectives, directions, reachable nodes and solutions", "why_tests_cant": "a wrong cut only shows when the lost branch held the best solution", "anchors": ["src/box/tree_search.cpp: BranchingScheme::bound, better", "src/box/tree_search.hpp: BranchingScheme::dominates, ubkp"]}
{"id": "C67", "title": "An irregular solution reports what it packs", "statement": "For every sequence of builder and append calls, the bins of an irregular solution are those asked for, in allowed orientations; its numbers of bins and items, areas, cost, profit and extents are those of the packing; feasible() says exactly that copies, resources and the callback are respected; the leftover is the area of the last bin outside the smallest rectangle placed as the leftover mode asks; the densities are between 0 and 1; and a feasible solution is a correct packing.", "quantifier": "all instances, callbacks and sequences of construction calls, all leftover modes", "why_tests_cant": "indicators are updated incrementally along unbounded call sequences over rational coordinates", "anchors": ["src/irregular/solution.cpp: Solution::update_indicators, append_bin, append_bins, append_empty_bin, density_x, density_y, open_dimension_xy_area", "src/irregular/solution_builder.cpp: add_bin, add_item, build", "include/packingsolver/irregular/instance.hpp: ItemType::is_rotation_allowed"]}
{"id": "C68", "title": "The cheap bounds of irregular problems are right", "statement": "For every irregular instance, the bounds that optimize reports before any search are right: no valid packing has a larger profit than the area bound or the onedimensional bound (knapsack), none that packs all items uses fewer bins (bin packing), costs less (variable-sized bin packing) or ends at a smaller coordinate (open dimension); an item type left out of the knapsack bound is in no packing.", "quantifier": "all instances and packings, all onedimensional solvers whose bounds are right", "why_tests_cant": "a wrong bound shows up only as a wrong proof of optimality on some instance; the claim is over all packings in the plane", "anchors": ["src/irregular/optimize.cpp: optimize_trivial_bound, optimize_onedimensional_bound", "src/irregular/instance.cpp: Instance::fits_some_bin", "include/packingsolver/algorithms/common.hpp: negative_penalty_sum"]}
{"id": "C69", "title": "Running the tasks of a solve", "statement": "Whatever the number of tasks, what they report, the mode and the scheduling of the threads: two reports are never mixed, and between two reports the shared output is the result of the whole reports made so far, one after another in the order in which they got the mutex; when the runner returns every task was started exactly once, in the order of the list, and has ended exactly once, and the memory monitor has ended; in the sequential mode the tasks run one after another in the order of the list; the runner never deadlocks, and when every task ends, so does the run, after a bounded number of steps besides the polling of the monitor, which stops at most two steps after the end flag is set; the end flag is set exactly when it was set before, a report was a proof of optimality, the memory limit was seen or the tasks are over; the exception thrown after the run is that of the first task of the list that threw; the reports of tasks that only report form an interleaving of the reports of each task; and a callback of the user that throws does not block the run.", "quantifier": "every list of tasks (any behaviour, reading the end flag, reporting, throwing), every schedule of the threads, both modes, with and without a memory limit", "why_tests_cant": "a test runs one schedule; torn reports, lost joins and deadlocks appear only in other ones", "anchors": ["src/algorithms/thread_pool.hpp: run, wrapper_impl::wrap, monitor_memory", "src/box/algorithm_formatter.cpp: update_solution, update_knapsack_bound (locking)", "src/box/optimize.cpp: optimize (after run)"]}
{"id": "C70", "title": "The cheap bounds of box problems are right", "statement": "For every box instance, the bounds that optimize reports before any search are right: no valid packing has a larger profit than the volume bound or the onedimensional bound (knapsack), none that packs all items uses fewer bins (bin packing), costs less (variable-sized bin packing) or has a smaller extent along the open axis (open dimension X, Y, Z); and computing them never ends the solve.", "quantifier": "all instances and packings, all onedimensional solvers whose bounds are right", "why_tests_cant": "a wrong bound shows up only as a wrong proof of optimality on some instance; the claim is over all packings", "anchors": ["src/box/optimize.cpp: optimize_trivial_bound, optimize_onedimensional_bound", "src/box/instance.cpp: Instance::fits_some_bin", "include/packingsolver/algorithms/common.hpp: negative_penalty_sum"]}
{"id": "C71", "title": "The cheap bounds of boxstacks problems are right", "statement": "The bounds that optimize reports for boxstacks problems before any search hold for every packing in stacks: the knapsack bound (volume, best profit per volume first), the bin packing bound (volume, bins in order) and the bounds taken from a box problem in which the stacking, axle, density and unloading constraints are dropped and nested items keep only the height they add to a stack. The box problem that is built has a packing with the same bins, profit and cost for every packing in stacks.", "quantifier": "All boxstacks instances, all packings in stacks, all right bounds of the box problem.", "why_tests_cant": "A bound that is wrong for one packing makes optimize stop with a solution that is not optimal and claim that it is; tests compare a few optimal values.", "anchors": ["src/boxstacks/optimize.cpp: optimize_trivial_bound, optimize_box_bound", "src/boxstacks/instance.cpp: fits_some_bin"]}
{"id": "C72", "title": "The cheap bounds of rectangleguillotine problems are right", "statement": "The bounds that optimize reports for guillotine cutting problems before any search hold for every packing of the items in the plates without their trims: the knapsack bound (area, best profit per area first), the bin packing bound (area, plates in order), the open dimension bounds, the bounds taken from a one-dimensional problem on areas, and the claims (number of plates, infeasibility) of the dual feasible functions. The one-dimensional problem that is built has a packing with the same plates, profit and cost for every complete packing. Whatever the calls of the solution builder, the plates it makes have this geometry.", "quantifier": "All guillotine instances, all packings, all right bounds of the one-dimensional problem, all histories of the solution builder.", "why_tests_cant": "A bound that is wrong for one packing makes optimize stop with a solution that is not optimal and claim that it is; tests compare a few optimal values.", "anchors": ["src/rectangleguillotine/optimize.cpp: optimize_trivial_bound, optimize_onedimensional_bound, optimize_dual_feasible_functions", "src/rectangleguillotine/instance.hpp: BinType::area"]}
{"id": "C73", "title": "The rectangleguillotine instance builder builds what was entered", "statement": "Whatever the calls on the builder, an instance it builds holds the data entered, all its computed attributes (numbers, areas, profits, largest values, plates in order, previous areas, resource ids, orientation and infinite-copies flags) agree with that data, and its values are within their bounds. Calls with bad arguments throw and change nothing, every other call changes only what it names. The stacks of the instance are the entered ones (or one per item type), each item is at the position of its stack that follows from the order of the item types, and mixing named and unnamed stacks is refused. Trims always leave a part of the plate. There is a cutting cost for each kind of cut after a call that sets the stages. The predefined strings give the documented parameters. Copied types are the same as the originals.", "quantifier": "All sequences of calls of the public interface, including calls that throw, all values.", "why_tests_cant": "The attributes are computed from the whole history of calls; tests build a few instances in the usual order.", "anchors": ["src/rectangleguillotine/instance_builder.cpp: InstanceBuilder", "include/packingsolver/rectangleguillotine/instance_builder.hpp", "include/packingsolver/rectangleguillotine/instance.hpp: Instance, Parameters"]}
{"id": "C74", "title": "The boxstacks instance builder builds what was entered", "statement": "Whatever the calls on the builder, an instance it builds holds the data entered (boxes, rotations, groups, weights, nesting heights, stackabilities, defects, trucks, unloading and weight constraints of groups), all its computed attributes (numbers, volumes, areas, weights, profits, bins in order, previous volumes, defects, most efficient item type, infinite-copies flag, item types and number of items of each group) agree with that data, and its values are within their bounds. Calls with bad arguments throw and change nothing, every other call changes only what it names. Bins with infinite dimensions hold all the items side by side. Unlimited copies of item types fill the largest bin. Copied types are the same as the originals.", "quantifier": "All sequences of calls of the public interface, including calls that throw, all values.", "why_tests_cant": "The attributes are computed from the whole history of calls; tests build a few instances in the usual order.", "anchors": ["src/boxstacks/instance_builder.cpp: InstanceBuilder", "include/packingsolver/boxstacks/instance_builder.hpp", "include/packingsolver/boxstacks/instance.hpp: Instance, Group"]}
{"id": "C75", "title": "Guillotine cuts rebuilt from the positions of the items are right, and found when they exist", "statement": "Given items with known positions in a plate, every solution returned by the reconstruction has one plate of the given type holding exactly these items at these positions, there is at most one solution per orientation of the first stage allowed, and the single solution asked for is the one with the fewest stages. A solution is returned if and only if straight cuts separate the items; otherwise the returned list is empty. Recomputing a solution with fewer stages keeps, plate by plate, the type, the copies and the positions of the items.", "quantifier": "All instances, plate types, sets of positions, cut thicknesses, trims, first stage orientations and orders of equal keys left by the sort.", "why_tests_cant": "The recursion has no bound and the sets of positions are unlimited; tests rebuild a few small patterns that are known to be cuttable.", "anchors": ["include/packingsolver/rectangleguillotine/post_process.hpp: build_guillotine_solutions, build_guillotine_solution, minimize_number_of_stages", "src/rectangleguillotine/post_process.cpp: find_groups, build_region, try_build"]}
{"id": "C76", "title": "Sorting the subplates of a guillotine solution keeps its items and its feasibility", "statement": "Sorting the subplates puts the children of every subplate in the documented order (density, content lengths, waste, compared one after the other and exactly, without overflow), whatever the list of criteria. The sorted solution has the same plates, with the same types and copies, and each plate holds the same items with the same widths and heights. A feasible solution stays feasible.", "quantifier": "All instances, solutions, cutting patterns, depths, trims, cut thicknesses and lists of criteria, with all waste and area values of 64 bits.", "why_tests_cant": "The cutting patterns have no bound on size and depth, the products compared need up to 128 bits, and an order that is not a strict weak order breaks the sort only on some inputs.", "anchors": ["include/packingsolver/rectangleguillotine/post_process.hpp: sort_subplates, SortSubplatesCriterion", "src/rectangleguillotine/post_process.cpp: compute_node_lengths, mul_less, sort_node_subtrees, replay_group, sort_subplates"]}
