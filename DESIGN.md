# Formal model of packingsolver in Rocq

## 1. Layout

* `properties.jsonl`: the properties (C01, C02, ...).
* `rocq/theories/`: one group of files per part of the code:
  * `*_Model.v`: executable Gallina transcription of the C++ functions, each
    definition with a comment citing the file and lines of `/repo`; where it
    simplifies, the comment says so.
  * `*_Spec.v` (or a "Specification" section): the vocabulary the properties are
    stated in, independent of the helpers of the model.
  * `*_Proof.v`: the proofs.
  * `*_Props.v`: the final theorems (`Cnn_...`), concrete cases meeting their
    hypotheses (`Example ..._nonvacuous`), refutations (`..._refuted`) and
    `Print Assumptions`.
* `MANIFEST.json`: property -> theorems.
* `seeded/LOG.jsonl`: wrong programs tried against the theorems.

## 2. Modelling conventions

* C++ integers (`Length`, `Area`, ids, counts) are `Z` or `nat`: no overflow
  (certificates: numbers that do not fit are excluded by hypothesis). C++ `/` on
  integers is `Z.quot`.
* `double` (`Profit`, `Weight`, costs) is exact rational arithmetic `Q`;
  infinities and NaN are `option` or an extended type. Rounding is out of scope;
  the tolerances (`PSTOL`, 1e-6) are kept.
* Exceptions and undefined behaviour (out-of-range access, division by zero) are
  explicit outcomes (`None` or a result type), not default values. An exception
  leaves the state reached when it is thrown.
* External solvers (LP/MILP, knapsacksolver, treesearchsolver) and timers are
  arbitrary functions, quantified in the theorems, that receive the number of the
  call. Where a theorem needs an honest solver, the honesty is a hypothesis and a
  solver satisfying it is exhibited.
* Threads: each formatter method runs under one mutex, so a run is a list of
  method calls which is an interleaving of the lists of the threads.
* A property that is false of the code is kept in its full statement with a
  theorem `..._refuted` giving a concrete input, and the positive theorem states
  the conditions under which it holds.

## 3. What is modelled

| files | code | left out |
|-------|------|----------|
| Util, Common_* | include/packingsolver/algorithms/common.hpp, src/algorithms/common.cpp, solution pool, group_identical_bins, enforce_bin_type_order, resources, powers of two, enum texts | streams other than the enum operators; hashing |
| OneDim_*, OneDimSub_Proof | onedimensional instance, solution, solution builder, operator<, append, sub-instances | item type precedences; fixed items (no builder call sets them) |
| OneDimBuilder_*, OneDimConsume_Props | onedimensional/instance_builder.cpp (all setters, copies from another instance, build) | file readers (they only call the setters), user callback, precedences |
| Dff_*, OneDimDff_* | onedimensional/dual_feasible_functions.cpp and the functions shared by the three problem types | output of the formatter (its value is kept) |
| OneDimBounds_*, OneDimDp_Proof | onedimensional/optimize.cpp:24-281 (trivial bounds, single-bin dynamic programming) | the exact knapsack solver (any exact solver), the recursive call of optimize (any answer) |
| Tree1D* | onedimensional/tree_search.{hpp,cpp}: bin order, insertions, child, leaf, better, bound, dominates, to_solution | the external beam search, the guides (they only order a queue) |
| Csv_*, OneDimCert_*, RectCert_* | certificate writers and readers (onedimensional, rectangle) | file system errors; the certificate is a string |
| Rect_*, RectSol_*, RectAxle_Proof | rectangle instance, solution, solution builder, truck axle weights | fixed items, feasibility callback |
| RectBuilder_*, RectConsume_Props | rectangle/instance_builder.cpp | file readers, fixed items, user callback |
| RectFlip_* | rectangle/instance_flipper.cpp | - |
| RectDff_*, RectClautiaux_Proof, RectDffBound_Proof | rectangle/dual_feasible_functions.cpp | - |
| Scale_* | rectangle/conservative_scales.cpp | LP and knapsack solvers (arbitrary / exact) |
| Block_*, RectBlock_*, BoxBlock_* | rectangle/block.cpp, box/block.cpp (generation, maximum reachable lengths) | - |
| Space_*, SpaceNode_Proof, RectSpaces_*, BoxSpaces_*, Normal_Proof, RectNormal_Proof, BoxNormal_Proof | rectangle and box tree_search_maximal_spaces.cpp: cut_spaces, insertions, nodes, greedy completion | the guide function (arbitrary), the external beam search |
| Reduc* | rectangle/reduction.{hpp,cpp} | sub-solver, subset-sum solver and timer (oracles); the builder calls (subject of RectBuilder) |
| TaskRun* | algorithms/thread_pool.hpp (run, wrapper, monitor_memory), the locking of update_solution and update_*_bound in */algorithm_formatter.cpp, the rethrow after run in */optimize.cpp | what tasks compute (any behaviour), failure to create a thread, weak memory (the end flag is a plain bool: reads and writes are atomic steps), formatters inside formatters, the value read for the memory (any) |
| StackBounds* | boxstacks/optimize.cpp lines 18-178 (optimize_trivial_bound, optimize_box_bound); boxstacks/instance.cpp lines 80-97 | the std::sort of the item types (any sorted order), the box solve (any function); doubles are rationals |
| StackBuilder_* | boxstacks/instance_builder.cpp | file readers, fixed items, user callback; doubles are exact |
| GuilBuilder_*, GuilStack_Proof, GuilConsume_Props | rectangleguillotine/instance_builder.cpp | file readers, fixed items, user callback; doubles are exact |
| GuilBuild_*, GuilFound_* | rectangleguillotine/post_process.cpp lines 19-303 (build_guillotine_solutions, build_guillotine_solution, minimize_number_of_stages) | the std::sort of the positions (any sorted permutation); the unbounded recursion has a fuel; negative item type ids |
| GuilSort_*, GuilWalk_Proof, GuilReplay_Props | rectangleguillotine/post_process.cpp lines 305-588 (sort_subplates) | the recursion of sort_node_subtrees from node 0 (the children lists are sorted one by one); overflow of the areas themselves |
| GuilBounds* | rectangleguillotine/optimize.cpp lines 28-274 (optimize_trivial_bound, optimize_onedimensional_bound, optimize_dual_feasible_functions) | the std::sort of the item types (any sorted order), the onedimensional solve (any function); doubles are rationals |
| BoxBounds* | box/optimize.cpp lines 21-229 (optimize_trivial_bound, optimize_onedimensional_bound) | the std::sort of the item types (any sorted order), the onedimensional solve (any function); doubles are rationals |
| IrrBounds* | irregular/optimize.cpp lines 23-211 (optimize_trivial_bound, optimize_onedimensional_bound), irregular/instance.cpp (has_only_discrete_rotations, fits_some_bin) | the std::sort of the item types (any sorted order), the onedimensional solve (any function); polygons: valid packings are described by boxes and areas; doubles are rationals |
| Irr_* | irregular/instance.hpp (is_rotation_allowed), irregular/solution.hpp and solution.cpp (indicators, appends, densities, comparison), irregular/solution_builder.cpp | polygons: an item type is its area and the bounding box of its shape in each orientation (any function), a bin type its area and bounding box; JSON and SVG output; the tolerance of the shape library is an argument; square roots are compared through squares |
| BoxTree*, BoxSky_Proof | box/tree_search.{hpp,cpp}: bin order, insertions, child, leaf, better, bound, ubkp, dominates, to_solution, claims of tree_search | the external beam search and the guides |
| StackTree*, StackSky_Proof | boxstacks/instance_flipper.cpp, boxstacks/tree_search.{hpp,cpp}: bin order, insertions, child, leaf, better, bound, to_solution | the external beam search, the guides, dominates, generate_all_stacks and the predecessors (any function), the knapsack bound of the default objective |
| Stack_*, StackCheck_Proof | boxstacks/instance.hpp (accessors, check_stack), boxstacks/solution.hpp and solution.cpp (indicators, appends, comparison, feasibility, violation), boxstacks/solution_builder.cpp (add_bin, add_stack, add_item, build) | fixed items, JSON and CSV, string output; the callback is any function |
| Benders* | rectangle/benders_decomposition.cpp: master instance, precedences, violated cuts, infeasible subsets, lifting, check of the cuts, the loop and its claims | the master solve, the solves of single bins and the bar relaxation (any right answers), the timer, the threads and the names of the resources |
| Milp* | onedimensional/milp_assignment.cpp: model, warm start, solution read back, bounds on the bins, claims, sequential feasibility | the MILP solver (any right answer), the nested solves (any right answer), the timer; column numbers are replaced by names |
| RectBounds* | rectangle/optimize.cpp:25-228, 1127-1197: trivial bounds, onedimensional relaxation, second solve of the last bin | the sort (any sorted order is taken), the two solves (any answer is taken) |
| Bar* | rectangle/bar_relaxation.cpp: variants, rows, columns, pricing, overcost, claims; common.hpp negative_penalty_sum | the LP solver and the column generation algorithm; row indices and names; the coefficient bounds of rows |
| RectTree*, RectSky_Proof | rectangle/tree_search.{hpp,cpp}: bin order, predecessors, insertions, child, leaf, bound, to_solution | the external beam search, the guides, fixed items, the staircase variant (never used by tree_search()) |
| Box_*, BoxSol_*, BoxBuilder_*, BoxConsume_Props, BoxFlip_*, BoxDff_* | box instance, solution, solution builder, instance builder, flipper, dual feasible functions | file readers, fixed items, user callback |
| Guil_*, GuilPlan_Proof, GuilSol_*, GuilSolCore_Proof, GuilWaste_Proof, GuilAppend_* | rectangleguillotine solution builder, solution indicators, appends, operator< | instance builder, certificate |
| Hyper* | rectangleguillotine/tree_search_hypergraph.cpp, rectangleguillotine/tree_search_hypergraph_infinite_copies.cpp | the hash of the set of seen patterns (a list), minimize_number_of_stages, the formatter |
| ColGen*, ColGenFix_Proof | algorithms/column_generation.hpp: rows, pricing, fixed columns, bound, subset-row cuts, bin count cap | LP solver and column generation engine of the external library |
| Svc*, SvcLoop_Proof, SvcHonest_Proof | algorithms/sequential_value_correction.hpp | sub-problem solver, pool and timer (oracles) |
| Dicho*, DichoLoop_Proof | algorithms/dichotomic_search.hpp | knapsack solver, sub-problem solver, timer (oracles) |
| Formatter_*, FormatterDet_Proof | algorithm_formatter.cpp (mutex-protected update functions), the parallel section and deterministic replay of optimize.cpp, thread_pool.hpp | printing, JSON output, wall clock and memory monitor |
| Geom | no code: volume of boxes packed in a box, any dimension | - |

Not modelled at all: the shapes and algorithms of the irregular problem type; the algorithms of the
boxstacks problem type other than the tree search and the cheap bounds; the
rectangleguillotine tree searches other than the two hypergraph ones and strip column generation;
the command line programs and file readers; the selection of algorithms
in the `optimize` functions (except the parts named above).

## 4. Proof method per property

| id | property | theorems | scope and limits |
|----|----------|----------|------------------|
| C01 | Tolerance comparators are strict orders on the values the solver compares | 6 | proved. Full characterisation on non-negative values; the sign restriction is necessary (refutation) and equality is not transitive (refutation). |
| C02 | Solution pool keeps the best distinct solutions for every history | 1 | proved. All histories, all capacities >= 1, all strict weak orders; item copy vectors of equal length (solutions of one instance). |
| C03 | Pool return code tells exactly when the incumbent changed | 1 | proved. Same quantification as C02. |
| C04 | Merging identical bins preserves what is packed | 1 | proved. Generic in the bin content; weighted_sum instantiates to number of bins, cost, item copies, item totals. Penalised resources are not weighted by copies in the code (see findings). |
| C05 | Bin-type order enforcement yields a valid order without losing bins | 3 | proved. Under the condition that no bin type is over-used; without it bins are dropped (refutation). |
| C06 | Per-copy resource schedules are read correctly | 3 | proved. Lookup for every resource; accumulation for every bin of every onedimensional construction history; order independence. |
| C07 | Queue-size power-of-two helpers | 2 | proved. Loops run with an explicit step count; termination proved. On exact powers of two >= 2 the first helper returns half of the value (refutation). |
| C08 | Objective / problem type names round-trip; optimization modes do not | 2 | proved. Round trip for objectives and problem types; refuted for the non-anytime optimization modes. |
| C09 | 1D solution indicators are the sums they claim to be | 2 | proved. All histories of builder calls, build and appends with non-negative copies, on instances whose resource_ids are consistent (proved for built instances under C13). The profit clause needs non-negative capacities and consumptions; penalties are charged per bin entry, not per copy (refutation). |
| C10 | 1D feasible() means the packing satisfies the constraints it checks | 5 | proved. Exact characterisation for all histories; whole-bin form under non-negative data; bin copies not checked and bin type order flag history dependent (refutations). |
| C11 | Solution comparison is a strict weak order that puts feasible solutions first | 23 | proved. Onedimensional, rectangle, box and guillotine: feasible first, strict weak order for integer objectives, strict partial order with real improvement for the others; the default objective can cycle (refutation); the box comparison throws for variable-sized bin packing (refutation). Irregular: feasible first, strict weak order for bin packing and the open dimensions, leftovers compared through square roots with the tolerance of the shape library (an argument). |
| C12 | 1D certificate write/read round trip | 6 | proved. Every history of builder and append calls whose numbers fit the 64-bit and 32-bit types; any column order; missing columns refused; the external split function is modelled both with and without an empty last cell. Refuted when a deep nesting makes an item start at -1. |
| C13 | Instance builder yields well-formed instances or throws | 12 | proved. Every call sequence (exceptions caught); consistency of all totals and tables, bounds, exact acceptance conditions, unchanged builder on exceptions of direct calls. Refuted parts: unlimited item copies, bin minimum with unlimited copies, zero length. |
| C14 | The 1D dual feasible functions are dual feasible | 4 | proved. f_ccm_0 and f_ccm_2 for all lists of lengths; all three families for all item lists that respect the copies (family 1 is data dependent); the parameter range k <= C/2 is necessary (refutation). |
| C15 | 1D dual feasible bound never exceeds the number of bins of a packing | 7 | proved. Bin packing bound, infeasibility verdict and knapsack bound, for all packings. Limits shown by refutations: optional copies, zero reduced length, nesting deeper than the preceding item. |
| C16 | greedy_maximum_cardinality is optimal | 2 | proved. Optimality for every sorted pool with positive lengths; sortedness is necessary (refutation). |
| C17 | Dantzig profit bound is an upper bound | 2 | proved. For every item list with non-negative profits and volumes; negative profits refute it. |
| C18 | 2D dual feasible functions bound is valid for every packing | 7 | proved. Bin packing bound, infeasibility verdict, knapsack bound (with the recursive Clautiaux transformation and its termination), for all packings, and the product form for any pair of dual feasible functions. Limits shown by refutations: NaN conversion, optional copies, zero side. |
| C19 | DFF cut for column generation / Benders never cuts a packable selection | 2 | proved. For every selection and every packing of a bin; a cut selection cannot be packed. |
| C20 | Rectangle tree search only produces valid packings | 5 | proved. Every built instance with non-negative capacities and consumptions whose defects reach the bin, every direction and predecessor strategy: every node becomes a solution, all bins valid (weights and hard resources up to the relative tolerance), copies of items and bins respected, the order of unloading respected (increasing x only without defects). The beam search, the guides and fixed items are not modelled. Refuted: eligibility is ignored in the direction Y, the increasing order is violated next to a defect, a defect below the bin sends an item out of the bin. |
| C21 | Rectangle tree search state matches the solution it stands for | 5 | proved. Same instances: all values of a node equal those of its solution, children never throw on generated insertions, depth equals number of items. Weights and profits are exact rationals. Refuted: the search throws at the root for an unloading constraint along Y with the dimension X open. |
| C22 | Flipping a rectangle instance maps valid packings to valid packings and back | 10 | proved. Every flippable instance and every packing; unflip_solution for every history. Refuted: eligibility and minimum copies are dropped, an open dimension X is not exchanged, flipping throws for unlimited bins with a minimum above the number of items. |
| C23 | Rectangle blocks are valid partial packings | 7 | proved. Every instance with non-negative data, every limit; blocks valid, distinct, guillotine, generation ends, every item that fits has its block when the limit leaves room for two blocks per item type (necessary: refutation). A zero side divides by zero (refutation). |
| C24 | Maximal spaces stay free and cover all free area | 8 | proved. Any number of axes, any obstacles, any order: the spaces are exactly the maximal free boxes; every node of the search and every greedy completion (any guide) is a valid packing of one bin with right totals. Refuted: eligibility is not considered. |
| C25 | Concurrent reporting is monotone and loses nothing | 5 | proved. Every interleaving of every finite set of threads; any objective whose comparison is an order (the default objective is refuted); mutex-protected calls are atomic in the model. |
| C26 | Deterministic mode is independent of the schedule | 6 | proved. For arbitrary task programs reading the end flag; schedule independence, exceptions, nothing lost (exactly for integer objectives, up to two tolerance comparisons for profit and cost: refutation); other modes depend on the schedule (refutation). The memory monitor and wall clock are outside this theorem. |
| C27 | Early stop only on proof | 4 | proved. All call histories without memory stop; hypotheses on mandatory items and tiny costs are necessary (refutations). |
| C28 | 1D tree search only produces valid packings | 14 | proved. validity up to the tolerance, exact feasibility for integral data, node values, finiteness, and bounds for instances without nesting; to_solution throwing within the tolerance, stackability below 1, dominance, exhausted-search bound with penalised resources, bounds with nesting and the default-objective bound are refuted |
| C29 | Trivial bin packing bound of 1D is valid | 9 | proved. Knapsack, bin packing and variable-sized bounds, several bin types. Refuted outside the hypotheses: negative profits, items that nest completely, bin types used out of order, mandatory bins, recursive solve that is not optimal. |
| C30 | Conservative scales bound is valid | 7 | proved. Every instance, any LP solver with non-negative answers, an exact knapsack solver (shown to exist), any numbers of turns and iterations. The lengths are conservative up to 1e-6; the bounds are valid when (number of bins)(width + height + 1e-6) is at most the area of a bin, and always for exactly conservative lengths. Refuted without this condition: an LP answer within the usual tolerance 1e-7 gives bound 61 where 60 bins are enough; optional copies are counted as mandatory. |
| C31 | Sequential value correction never over-uses items or bins | 12 | proved. Every instance with consistent fixed copies and every answer of the sub-problem solver (bins in at least one copy), timer and pool: no over-use in any reported solution, only empty bins or bins the solver returned, bins in the prescribed order, one turn per bin. With a solver that respects the sub-problems and at most one mandatory copy per bin type no exception is raised. Item profits are not given to the modelled solver (the answers are arbitrary). Refuted: two mandatory copies of a bin type always end in invalid_argument, a mandatory bin too small for the remaining items ends the iteration with bins left, the Knapsack profit update divides by zero for unpacked item types. |
| C32 | Column generation: subset-row cuts are valid | 5 | proved. Every instance, column set and fractional solution: coefficient, validity for every integer combination, soundness of the cut returned, and, up to forty item types with item rows respected up to 1e-6, completeness: the most violated cut is returned whenever one is violated. |
| C33 | Column generation: bin count cap | 3 | proved. Every instance with non-negative costs, every solution, any history of cached calls; the claim is on bins that hold an item. Refuted for all bins: mandatory empty bins exceed the cap. |
| C34 | Dichotomic search: valid reports, sound success, shrinking interval, termination | 13 | proved. Every instance, every knapsack answer, any timer; sub-solver respecting its sub-problem. Waste percentages are exact rationals except that doubling beyond the largest double is infinity. Termination for a positive initial waste, positive spaces, 64-bit spaces. Refuted: with initial waste 0 it may loop for ever; bin types larger than the removal capacity count as removed so a one-bin packing is not recognised; two mandatory copies make it throw; mandatory bins may be left out of a success; infeasible instances end only after about a thousand doublings. |
| C35 | Maximum reachable lengths are exact | 2 | proved. Both axes of the rectangle function and the three axes of the box function; every instance with non-negative data. |
| C36 | Guillotine solution builder produces guillotine cutting trees | 10 | proved. Every history of builder calls with exceptions caught, every instance with a non-negative cut thickness. Refuted: the children of the root are never recorded, an oriented item may be set on a rotated node, orientation Any makes every cut horizontal, a throwing add_node keeps the waste it had inserted, the right/top corner trim uses the top trim. |
| C37 | Guillotine items never overlap and stay in the usable plate | 3 | proved. Same histories: items are pairwise apart by at least the cut thickness, inside the usable plate, and separable by edge-to-edge cuts (an inductive guillotine predicate stated on rectangles only). |
| C38 | Box rotations and flips are consistent | 12 | proved. Every box, orientation, direction, instance and packing. Refuted: resources, minimum copies and the direction of an open dimension are lost by flip; flip throws with dimension z open and several bins. |
| C39 | 3D dual feasible functions bound is valid | 6 | proved. Bin packing, feasibility and knapsack bounds of the box dual feasible functions, for one bin type, positive items and a bin of size at least 2 along each axis; product of arbitrary dual feasible functions on disjoint boxes. Refuted: a bin of size 1 along an axis always divides by zero; optional copies are counted as mandatory. |
| C40 | Box maximal spaces stay free and cover all free volume | 4 | proved. Every instance with positive sizes, every generated block list, every node of the search and every guide: spaces are exactly the maximal free boxes that can hold an available block, nodes are packings with the right totals, the greedy completion ends and its solution is a packing with the right indicators. |
| C41 | Box blocks are valid partial packings | 7 | proved. Every instance and bin type: blocks valid (guillotine-assembled, disjoint items, within availability, right totals), pairwise distinct, generation terminates, all single items present when the limit allows them. Refuted: a zero side divides by zero. |
| C42 | Rectangle solution indicators | 6 | proved. Every history of builder and append calls with non-negative copies; exact characterisation of feasible(); extent and leftover of the last bin; the waste of a geometric packing is not negative. Refuted: geometry, weight, eligibility and bin copies are not checked by feasible(); an empty last bin gives a negative waste. |
| C43 | Rectangle certificate round trip | 6 | proved. Every history whose numbers fit the 64-bit and 32-bit types; any column order; rotated squares come back unrotated (refutation of the plain statement, but nothing moves); missing columns are accepted (refutation). |
| C44 | Rectangle reduction is reversible | 12 | proved. Every instance to which the reduction applies, any honest answers of the sub-solver, exact subset sums, any number of rounds and any interruption: construction without exception, completed packings valid with the announced number of bins, infeasibility claims right, minimum unchanged (both directions), identity rebuild when it does not apply. Conditions: no mandatory bins; the sub-solver uses none or all of the copies of a companion bin, or one copy per item type; a non-oriented item larger than half of the shrunk bin both ways is so when turned. Each condition is shown necessary by a refutation (out-of-range access, three copies of an item with two, exception). Refuted too: eligibility is ignored; the identity rebuild loses mandatory knapsack copies. |
| C45 | Axle weights satisfy the equilibrium equations | 6 | proved. Existence, equilibrium and uniqueness of the axle weights; what the overweight of a solution is, for every history. Refuted: only the groups up to that of the item added last, and only the last bin with items, count; a weightless load gives a NaN. |
| C46 | Single-bin knapsack dynamic programming | 4 | proved. Any exact solver (one is constructed), any callback; binary splitting complete and sound. Refuted with a penalised resource. |
| C47 | Sub-instances built from an instance are faithful | 4 | proved. onedimensional builder: every copyable instance, selection and objective. Refuted for items copied first (dichotomic search) and for bin minima of two or more in the pricing sub-instances. |
| C48 | Rectangle instance builder gives consistent instances | 18 | proved. Every sequence of calls, with exceptions caught and with copies from other instances. Refuted: zero-area items divide by zero, set_item_type_group does not check the id, infinite dimensions may be 0 or negative. |
| C49 | Claims of the exhausted maximal-space search | 5 | partial. The claim is false (refuted with and without defects). What holds: without defects, clipping the bin to the reachable lengths loses no packing (C49_clipping, C49_box_clipping); the box search is refuted in the same way. |
| C50 | Box solution indicators and feasibility | 8 | proved. Every history of builder and append calls with non-negative copies: all indicators, exact characterisation of feasible(), extents of the last bin. Refuted: the height of an earlier last bin is kept after append; geometry, weight and bin copies are not checked by feasible(). |
| C51 | Box instance builder gives consistent instances | 20 | proved. Every sequence of calls, with exceptions caught and with copies from other instances. Refuted: zero-volume items divide by zero, an open dimension Z with several bins is accepted, the objective is uninitialised until set_objective, set_item_types_profits_auto gives profit 0, infinite dimensions may be 0, copied item types lose their minimum. |
| C52 | Guillotine solution indicators and feasibility | 13 | proved. Every history of builder calls, every callback. The cutting cost for orientations Vertical and Horizontal, the waste non-negative without soft trims. Refuted: cutting cost with orientation Any, negative waste with soft trims, residual not multiplied by copies, an item on the bare plate neither counted nor checked against defects; a too small waste ends the process instead of being reported. |
| C53 | Appending bins to a guillotine solution | 9 | proved. Every solution reachable by building and appending. append_bins and append_empty_bin for bins used once. Refuted: a source bin with two copies is read out of bounds, two empty bins cannot be appended and zero is silently accepted, the cutting cost after an append counts the lost residual twice. |
| C54 | Column generation pricing | 8 | proved. Bin packing, variable-sized bin packing, feasibility and knapsack, any hereditary packing predicate, any sub-problem solver with valid bounds, active subset-row cuts with duals of the right sign; the bound at the root for solutions without empty bins. Refuted: with mandatory empty bins the bound may exceed the optimum; a bin type whose sub-problem has no packed solution is left out of the bound. |
| C55 | What the rectangle tree search cuts and claims | 13 | partial. Proved: the cuts for leftovers and open dimension X; for open dimension Y when the bin is at most one wider than high; for knapsack without penalties; for bin packing when the waste does not come from the extra bin rule, in particular on the last bin. Refuted: all the other cases (a two-bin solution cuts the one-bin branch, a height-6 solution cuts height 4, penalties), dominance, the knapsack bound and the infeasibility claims of the exhausted search. |
| C56 | The bar relaxation never claims too much | 6 | proved. Every packing is a point of the linear program with the value of the packing, by cutting each bin into unit rows and columns; every priced column is a bar; a dual value of the static part plus the overcost bounds every point (any duals, exact knapsack solver); the claims of the callback follow. The LP solver and the column generation algorithm are external: its finite bound is either assumed right (C56_claims) or taken as the Lagrangian bound at arbitrary duals (C56_any_duals). Shown necessary: the exactness of the knapsack solver. |
| C57 | The cheap bounds of the rectangle solver are right and its last step only improves | 10 | proved. All bounds for every packing with mandatory copies and bins within their limits; number of bins: complete packings with the bins in order; knapsack: non-negative profits and an order sorted for the comparator; relaxation: any onedimensional solver with right bounds. Refuted: number of bins with optional copies, bins out of order, negative profits, the relaxation throws on a mandatory bin or without items. The last step is proved to lose the items of the second to last bin whenever the best solution is complete and has two different bins, and then to have no effect if all copies are mandatory. |
| C58 | The assignment MILP stands for the packings | 16 | proved. Both directions between packings and points, with values, for all objectives; the symmetry-breaking columns (supply of the item types of fewer copies) lose no packing; bounds on the bins of each type are enough; claims, trivial infeasibility, sequential feasibility. MILP solver and nested solves: any right answer. Shown necessary by counterexamples: no nesting, mandatory copies outside Knapsack (reading back throws), mandatory bins within the bounds (they are lost), two bins for precedences, threshold schedules (the shape test lets others pass), non-negative penalties, positive lengths. Refuted: the warm start is a point (penalty and precedence columns stay 0); the profit bound is above the reported profit of a bin with two copies. |
| C59 | The Benders decomposition of the rectangle solver is right | 21 | partial. All theorems for every instance, number of iterations and right answers of the external solvers, for any additional constraint on bins kept when items are removed (weights, not axles). Conditions shown necessary by refutations: all items of the same orientation (or all the rotatable ones together) for the violated cuts, no resources, weights or mandatory copies for the precedences of the knapsack master, at most one lifted item type per cut, at least one cut per bin (otherwise endless). Refuted too: infeasible instances and two mandatory bins end in an exception, a mandatory empty bin is lost, the reported subsets are not minimal, the cuts are wrong with axle limits. Missing for 'proved': the decomposition is right only under these conditions, which the code does not test. |
| C60 | Boxstacks solutions have right indicators, and feasible() means what it says | 18 | partial. Every history of builder and append calls, every callback: indicators, stacks, exact characterisation of feasible(), violation, extents, waste of valid packings without nesting, soundness of check_stack (non-negative nesting), its completeness (no nesting). Refuted: building two bins or more reads out of bounds whenever the first bin is feasible and weights of a group are checked (for every such instance); a misplaced parenthesis in the leftover along y makes a worse solution better; the volume is stale with an empty last bin; nested items give a negative waste; feasible() says nothing of the geometry, of the stacks, of the bin copies; check_stack adds the nesting height. Missing for proved: these clauses of the statement are false of the code. |
| C61 | Every node of the boxstacks tree search is a valid packing with right values | 13 | partial. Every scheme of the domain, every node: builder calls accepted, validity of all bins, values, children, depth, axles of the last bin in the direction X (exact), order. The predecessors are an arbitrary function; the beam search, the guides and dominates are not modelled (the guides parameter is ignored by the code, and dominates reads a height that is never set). Refuted outside of the domain: an item is put above the visible part of a hidden stack and the builder throws; in the direction Y rotations that move the vertical axis mean other orientations and the builder throws. Refuted inside: OnlyXMovements reads an empty list; the increasing order is violated next to a defect; the axle check of an item above another is done at the wrong position; axles are computed along y in the direction Y; overweights of earlier bins are forgotten. Building two or more bins fails by C60_build_refuted. |
| C62 | The boxstacks tree search cuts and claims nothing wrong | 6 | partial. Proved: bin packing and variable-sized bin packing without nesting, leftovers, knapsack and feasibility with non-negative profits. Refuted: the bound of the open dimensions (misplaced parenthesis), bin packing with nesting, the infeasibility claim of the exhausted search (only leftmost positions are tried). The knapsack bound of the default objective is not modelled. |
| C63 | The guillotine hypergraph search gives valid solutions and ends with the best one | 6 | partial. Every instance of the domain and timer: termination, validity, copies and profits of all reported solutions (first cuts vertical or free, no soft trim below or above the plate). Optimality over all cutting trees without cut thickness. Refuted: with a cut thickness a cut that ends at the edge of the plate is never tried and the only packing is missed; with horizontal first cuts, or a soft trim above the plate, the builder refuses the solution. None of the three is among the documented limitations. Missing for proved: these clauses are false of the code. The key of the seen patterns uses exact equality of the copies, the hash is not modelled. |
| C64 | The guillotine dynamic program with infinite copies is exact | 6 | partial. Every value of the table is attained (any thickness); every value bounds all cutting trees without thickness; the solution is accepted with the announced profit (first cuts vertical or free, no soft trim below or above). Refuted: the value with a cut thickness, horizontal first cuts, soft trims. minimize_number_of_stages is not modelled. |
| C65 | The nodes of the box tree search are packings with the announced values | 10 | partial. Every scheme of the domain (built instance, positive dimensions), direction, node, callback: accepted by the builder, valid bins, supplies, values, children, depth, skyline cell by cell, waste. Capacities and net profit when the direction is X or there is no resource. Refuted: in the other directions the swapped instance has no resources, so capacities are ignored; the infeasibility claim and the predecessors (equal item types in a fixed order, corner positions only) lose packings. Missing for proved: these clauses are false of the code. |
| C66 | What the box tree search compares, cuts and dominates | 17 | partial. Proved: the order, and the cuts for all objectives when no item of the skyline is raised (open dimension Y when x z <= y z + 1; knapsack and default without penalties; default only against complete solutions). Refuted: bin packing and leftovers with a raised item, open dimension Y, Z (throws), knapsack with penalties, default against incomplete solutions, dominance (weights), the order with leftovers. Missing for proved: these clauses are false of the code. |
| C67 | An irregular solution reports what it packs | 11 | partial. Proved for all histories: bins, orientations, all indicators, feasibility, extents, leftover for the eight modes (non-empty last bin inside its bin), densities at most 1 for bins that start at 0. Refuted: leftover of an empty last bin and its scale, densities of bins that do not start at 0, penalty charged once per entry, geometry and number of bins not checked by feasible(). Missing for proved: these clauses are false of the code. |
| C68 | The cheap bounds of irregular problems are right | 10 | partial. Proved for all instances and packings: knapsack bound (profits at least 0), bin packing bound (bins in order), open dimension bound (bin that does not start below 0), onedimensional bound given right onedimensional bounds (items of at least one unit of scaled area, no mandatory bins for bin packing), the relaxation itself, and that item types left out of the knapsack bound cannot be packed. Of the geometry, only the consequences on boxes and areas are assumed of a valid packing. Refuted: items below one unit of scaled area, bins that start at negative coordinates, negative profits, bins out of order, optional copies, mandatory bins. Missing for proved: these clauses are false of the code. |
| C69 | Running the tasks of a solve | 12 | partial. Every clause but the last is proved for all tasks, schedules and modes (deadlock freedom for callbacks that do not throw). The last clause is false: a callback that throws leaves the mutex locked, and the next report of any task waits for ever, in both modes. Data races on the end flag, a plain bool, are modelled as atomic reads and writes. |
| C70 | The cheap bounds of box problems are right | 8 | partial. Proved for all instances and packings with bins and mandatory items within their limits: knapsack bound (profits at least 0, order sorted for the comparator), bin packing bound (bins in order), open dimension bounds along the three axes, onedimensional bound given right onedimensional bounds (no mandatory bins for bin packing), the relaxation itself. Refuted: optional copies, bins out of order, negative profits, mandatory bins (exception), no items (exception). Missing for proved: these clauses are false of the code. |
| C71 | The cheap bounds of boxstacks problems are right | 10 | partial. Proved for all instances and packings: trivial bounds when items are not nested (profits at least 0 and order sorted for the comparator for knapsack, bins in order for bin packing); box bound given right box bounds when nested items stay upright, for the three objectives; the relaxation itself. Refuted: nested items (both trivial bounds count their full volume), nested items that may lie on a side (the height is shrunk before the rotation), items nested by their full height (exception), bins out of order, optional copies, negative profits. Missing for proved: these clauses are false of the code. |
| C72 | The cheap bounds of rectangleguillotine problems are right | 12 | partial. Proved for all instances and packings outside all trims: knapsack bound (profits at least 0, order sorted for the comparator), bin packing bound (plates in order), open dimension bounds, onedimensional bound given right onedimensional bounds (no mandatory plates for bin packing), the relaxation itself, the dual feasible functions (one plate type, enough iterations of the fuel), and the geometry of the plates of the solution builder (hard trims, oriented items not turned). Only the consequences of guillotine cuts on positions are used, so the bounds hold for all packings. Refuted: solutions with items in soft trims or with turned oriented items, which the builder accepts and feasible() reports feasible; plates out of order; optional copies; negative profits; mandatory plates and plates without area (exceptions). Missing for proved: these clauses are false of the code. |
| C73 | The rectangleguillotine instance builder builds what was entered | 29 | partial. Proved for all histories of calls: consistency, bounds, data, acceptance and effect of the calls, stacks (copies at least 0), trims (no infinite dimension), cutting costs, predefined strings, infinite copies flag, infinite copies and dimensions, copies of types. Refuted: set_predefined changes the builder before it throws and accepts letters as numbers of stages; default parameters have no cutting costs; item types with -1 copies make build throw or write out of range; item types without area and consumptions of missing item types make build undefined; infinite dimensions ignore trims; unlimited plates below their minimum; the two default costs differ with trims; copies lose the minimum of item types. Missing for proved: these clauses are false of the code. |
| C74 | The boxstacks instance builder builds what was entered | 22 | partial. Proved for all histories of calls: consistency (with groups and defects), bounds, data, acceptance and effect of every call, infinite copies and dimensions, copies of types. Refuted: set_item_type_group does not check the item type; zero sides make build divide by zero; OpenDimensionZ accepts several bins; a new builder has no objective; automatic profits are always 0; infinite dimensions entered before the items are 0; -1 copies of an item type give a negative number of items; nesting heights are not bounded; unweighted bins do not get the default cost; copies lose the minimum of item types. Missing for proved: these clauses are false of the code. |
| C75 | Guillotine cuts rebuilt from the positions of the items are right, and found when they exist | 10 | partial. Proved: positions, plate and number of the solutions; fewest stages; minimize_number_of_stages keeps types, copies and positions; a solution is only returned for cuttable items; cuttable items are found within two nested calls per item if no item starts too near for a cut after a side or another item (always so with thin cuts). Refuted: items that no cut separates make the call recurse without end instead of giving an empty list, and so does one item at exactly one cut of the left or bottom side. Missing for proved: these clauses are false of the code. |
| C76 | Sorting the subplates of a guillotine solution keeps its items and its feasibility | 8 | partial. Proved: products of 64-bit values are compared exactly; the comparison is the documented lexicographic order and a strict weak order; the measures of the nodes; the sorted children; plates, types, copies and the items of each plate with their widths and heights; no plate with a fitting pattern makes the replay throw. The plates are assumed to hold a well-formed cutting pattern whose root is the usable region. Refuted: feasibility is lost when the waste over a defect is dropped, and when the sort changes the order of the items of a stack. Missing for proved: these clauses are false of the code. |

Methods: invariants over call histories (builders, solutions, pools, formatter),
induction over insertions (branching schemes), counting and volume arguments
(`Geom.volume_bound`: boxes packed in a box, proved in any dimension by cell
counting), longest-path rescaling for dual feasible functions, packing
transformations (reduction, normal patterns), oracles for external solvers,
interleavings for threads, string-level round trips for certificates.

## 5. Trusted base

* The Coq 8.16.1 kernel (the gate also runs `coqchk`).
* `Print Assumptions` follows every theorem of the `*_Props.v` files and answers
  "Closed under the global context" for each of them: no axiom is used, neither
  own nor from the standard library. (Libraries that are only required, such as
  the real numbers pulled in by `Lqa`/`Psatz`, declare axioms; no theorem depends
  on them.)
* No functor, module type, `Declare Module`, plugin, `Admitted` or switched-off
  check.
* The correspondence between the model and the C++ text is by reading: the
  comments cite the lines. The conventions of section 2 (no overflow, exact
  doubles) are part of the trusted base.
* The behaviour of the standard library and of the external libraries where it is
  modelled: `std::stable_sort`, `std::sort` (a sorted permutation), `std::map`,
  `std::getline`, `std::stol`, `optimizationtools::split` (with and without an
  empty last cell), value-initialisation.

## 6. Findings

Each line is a theorem with a concrete input (the model of the code does this).

* `C01_equal_transitive_refuted`: equality up to tolerance is not transitive, so [operator<] of the solution classes is not a strict weak order for profits and costs in general.
* `C01_negative_profit_refuted`: on negative values the relative comparator ranks the smaller profit first.
* `C05_overused_refuted`: if a bin type before the last one is used more often than it has copies (such solutions exist, [feasible()] does not forbid them), packed bins are dropped.
* `C07_largest_exact_power_refuted`: on an exact power of two >= 2 the "largest power of two lesser or equal" is half of the value.
* `C08_mode_round_trip_refuted`: the printed name of every non-anytime mode is rejected.
* `C09_penalty_per_copy_refuted`: a penalised resource is charged once per entry of the bin list, not once per copy, so merging identical bins changes the profit.
* `C10_bin_copies_refuted`: neither the number of bins of a type nor the order of the bin types is looked at.
* `C10_order_flag_history_refuted`: the flag depends on the order of the calls, not only on the solution they build.
* `C11_box_variable_sized_refuted`: the variable-sized objective, which the optimizer of this problem type accepts, has no comparison: two feasible solutions make it throw.
* `C11_boxstacks_variable_sized_refuted`: the variable-sized objective has no comparison: two feasible solutions make it throw.
* `C11_default_cycle_refuted`: with the default objective the comparison can be cyclic, because profits closer than the tolerance fall back on the waste.
* `C12_start_refuted`: an item nested deeper than the end of what precedes it can start at -1, which reading takes for a missing value.
* `C13_bin_minimum_refuted`: a bin type with unlimited copies is given as many copies as there are items, even if this is less than its minimum.
* `C13_unlimited_items_refuted`: an item type with unlimited copies (-1), which the setter accepts, keeps -1 copies in the built instance: the totals go down and both minimum and maximum are -1.
* `C13_zero_length_refuted`: an item type of length 0, accepted by the builder, makes build() divide by zero.
* `C14_f_ccm_0_range_refuted`: The parameter range is needed.
* `C15_deep_nesting_refuted`: an item longer than the bin fits after a shorter item when it nests deep enough, but the knapsack bound counts it as unpackable.
* `C15_optional_copies_refuted`: when fewer copies are mandatory than available ([copies_min] below [copies]), the bin packing "bound" exceeds the number of bins of a feasible packing: it counts all copies.
* `C15_zero_length_refuted`: an item type whose reduced length is 0 makes the algorithm divide by zero.
* `C16_unsorted_refuted`: The pool has to be sorted.
* `C17_negative_profit_refuted`: with a negative profit the "bound" can be below the profit of the empty choice.
* `C18_nan_refuted`: the division has no guard on its denominator. On ordinary inputs it is 0/0, and the resulting NaN is converted to an integer, which C++ leaves undefined. The bound is right only because the usual conversion gives a negative number: with any other one it would be the bound.
* `C18_optional_copies_refuted`: with fewer mandatory copies than copies, the bound counts all the copies.
* `C18_zero_side_refuted`: a zero side, which the instance builder accepts, divides by zero.
* `C20_defect_outside_refuted`: Without the condition on the defects items may leave the bin: an item is put right above a defect that lies below the bin.
* `C20_eligible_y_refuted`: In the direction Y the eligibilities are lost: the flipped instance has none, so an item is packed in a bin it is not eligible for.
* `C20_increasing_refuted`: With defects the order of the groups along X may be violated: it is checked before the item is moved to the right of a defect.
* `C21_unloading_throws_refuted`: The search throws at the root when the unloading constraint is along Y and the objective opens the dimension X: the objective decides the direction.
* `C22_copies_min_refuted`: The minimum numbers of copies are dropped: a feasible solution of the flipped instance can be unflipped into a solution that is not feasible.
* `C22_eligibility_refuted`: The eligibility of the items is dropped: a packing of the flipped instance can put an item in a bin it is not eligible for.
* `C22_open_dimension_refuted`: An open dimension X is not exchanged: the flipped instance then asks for the smallest extent along the other axis, and the two orders can be opposite.
* `C22_throws_refuted`: Flipping can throw on a built instance: unlimited copies of a bin type become the number of items, which may be smaller than the minimum number of bins that was accepted.
* `C23_single_items_refuted`: With a limit that leaves less room, items lose their blocks: here the limit is one and the second item type has no block, although it fits.
* `C23_zero_side_refuted`: An item with a zero side, which the instance builder accepts, makes the generation divide by zero.
* `C24_eligibility_refuted`: An item that is not eligible for the bin is put in it, in a solution that says it is feasible: the search never looks at eligibility.
* `C25_default_objective_refuted`: with the default objective, whose comparison has cycles (C11), the final incumbent can be beaten by a solution reported earlier.
* `C26_nothing_lost_knapsack_refuted`: with profits the tolerance is applied twice, in the task and in the replay, so the final incumbent can lose against a solution that was found (it would not in the other modes, C25_nothing_lost).
* `C26_other_modes_refuted`: In the other modes the result depends on the schedule.
* `C27_mandatory_items_refuted`: a knapsack instance whose only item is mandatory and has profit 0. The valid bound 0 equals the profit of the empty, infeasible incumbent: the end flag goes up before the feasible solution is looked for.
* `C27_tiny_costs_refuted`: a bin cost not above the tolerance is considered equal to the initial bound 0, so the first complete solution stops the run although a cheaper one exists.
* `C28_bound_nesting_refuted`: with nesting the waste may decrease below a node, and the bound cuts a node below which a solution has fewer bins than the incumbent.
* `C28_default_bound_refuted`: for the default objective, an incumbent that does not pack all the items cuts a node with the same profit and less waste.
* `C28_dominates_refuted`: [dominates] ignores the weight of the last bin: a node without any leaf below dominates one with the same items and a leaf below.
* `C28_exhausted_bound_refuted`: if an item fits in the last bin the search opens no other bin. With a penalised resource, no node of the tree reaches the best profit, although the exhausted search claims its best profit as a bound.
* `C28_stackability_refuted`: opening a bin does not check the stackability of the item: with a stackability of 0, the node's solution throws.
* `C28_throws_refuted`: the search compares weights with a tolerance, the solution without: a node within the tolerance makes [to_solution] throw.
* `C29_early_stop_refuted`: the variable-sized bound uses the profit of the best selection found by the recursive call; a selection that is not optimal (time limit) gives a bound above the cost of a feasible solution.
* `C29_full_nesting_refuted`: items that nest completely are skipped by the knapsack bound.
* `C29_mandatory_bins_refuted`: with mandatory bins, the variable-sized bound subtracts their length although they can hold items: a feasible solution that uses the mandatory bin costs less than the bound.
* `C29_negative_profit_refuted`: a negative profit lowers the knapsack bound below the profit of the empty packing.
* `C29_order_refuted`: [feasible] does not require the order of the bin types, and a feasible solution may use fewer bins than the bin packing bound.
* `C30_optional_copies_refuted`: With fewer mandatory copies than copies, the bound counts all the copies.
* `C30_tolerance_refuted`: Sixty 10 x 10 squares in 10 x 10 bins, and LP solutions that exceed the bounds of the variables by 1e-7 (the usual tolerance of an LP solver): the bound is 61 although 60 bins are enough.
* `C31_builder_refuted`: The same two calls on the one-dimensional builder (the column generation pricing makes them too, column_generation.hpp:381-383).
* `C31_mandatory_stuck_refuted`: A mandatory bin too small for the item: each iteration tries that bin type only and gives up, although the other bin type holds the item; the comment at :409-413 says that nothing useful is left in that case.
* `C31_two_mandatory_bins_refuted`: Two mandatory copies of a bin type: the sub-instance cannot be built, since its number of copies is set to one while its minimum is still two; for any solver an exception leaves the function before any solution is reported.
* `C33_empty_bins_refuted`: The cap is not on the number of bins: the mandatory bins may stay empty.
* `C34_mandatory_refuted`: Mandatory bins are optional in the sub-problems: a success may leave one out.
* `C34_skip_refuted`: A bin type whose space exceeds the capacity of the knapsack counts as removed: with one bin of space 10 and one item of space 9, the single solution tried packs the item in the bin and is not recognised as a success.
* `C34_throws_refuted`: Mandatory bins: the second group of bins of the sub-problem may have fewer copies than the mandatory ones, and building it throws.
* `C34_zero_initial_refuted`: With no initial waste it may not end.
* `C36_any_alternates_refuted`: With the orientation [Any], the cuts of consecutive depths have the same direction.
* `C36_exception_rollback_refuted`: A call that throws may have added nodes: an exception does not leave the solution as it was.
* `C36_oriented_refuted`: An item that cannot be rotated is accepted rotated.
* `C36_root_children_refuted`: The [children] of the plate never contain the trims and the usable part, although their father is the plate.
* `C36_soft_corner_refuted`: Next to a hard right trim, a soft top trim produces an extra corner node, which overlaps the node of the right trim.
* `C38_copies_min_refuted`: So are the minimum numbers of copies of the item types.
* `C38_open_dimension_refuted`: The objective becomes the open dimension X whatever the direction: with the dimension z open and the flip exchanging x and y, the flipped instance asks for the smallest extent along y, and the two orders can be opposite.
* `C38_resources_refuted`: Resources are dropped: a feasible solution of the flipped instance can be unflipped into a solution that is not feasible.
* `C38_throws_refuted`: Flipping throws on a built instance with dimension z open and several bins, which the builder accepts.
* `C39_optional_copies_refuted`: with fewer mandatory copies than copies, the bound counts all the copies.
* `C39_unit_axis_refuted`: half the size of the bin is a threshold even when it is 0, and thresholds are divisors. As soon as the bin has size 1 along an axis the algorithm divides by zero, whatever the items.
* `C41_zero_side_refuted`: An item with a zero side, which the instance builder accepts, makes the generation divide by zero as soon as the other sides fit.
* `C42_empty_last_bin_refuted`: Not when the last bin is empty: the area stays zero.
* `C42_geometry_refuted`: [feasible()] is no guarantee on the geometry, the eligibility, the weight or the number of bins: here the items overlap, one is outside the bin, one is on the defect, one is in a bin it is not eligible for, the load is over the maximum weight of the bin, and more bins are used than there are.
* `C43_missing_column_refuted`: missing columns are not detected: without the column of the copies a bin is read with -1 copies, and the solution has a negative number of bins and cost.
* `C43_square_refuted`: a rotated square is not read back as it was.
* `C44_eligibility_refuted`: Eligibility is ignored: an item that may not be in the bin is put in a dedicated bin.
* `C44_mandatory_bins_refuted`: Mandatory bins: the number of copies is lowered before the number of mandatory copies, and the instance builder throws.
* `C44_partly_filled_refuted`: An item with two copies, of which the sub-solver fills one only: the list of companions has one entry instead of two, and is read out of range.
* `C44_rebuild_refuted`: The rebuilt instance is not the original one if a knapsack item has mandatory copies.
* `C44_turned_refuted`: Two items 6x5, each larger than the half of the 10x8 bin in both directions, fit together in it once turned: the completed solution has three of them.
* `C45_last_bin_refuted`: the overweight of a bin is forgotten when another bin with items is added.
* `C45_last_item_refuted`: the overweights depend on the order in which the items are added: with the same placements in the other order the overweight of the second group is not seen.
* `C45_weightless_refuted`: an empty load is in equilibrium, but its axle weights are not a number.
* `C46_penalty_refuted`: with a penalised resource the reported "bound" is the profit after penalties of the selection that is best before penalties; a feasible solution can beat it.
* `C47_items_first_refuted`: in the other order, items first, as in algorithms/dichotomic_search.hpp:190-237, every consumption is lost.
* `C48_group_id_refuted`: set_item_type_group is the only setter that does not check the item type id: every id out of range is an out of range access.
* `C48_infinite_dimension_refuted`: infinite dimensions are computed from the item types entered so far: called before them, every bin gets size 0, which add_bin_type forbids; and an unlimited item type, of -1 copies, makes it negative.
* `C48_negative_dimension_refuted`: (see the preceding line) Finding: infinite dimensions are computed from the item types entered so far: called before them, every bin gets size 0, which add_bin_type forbids; and an unlimited item type, of -1 copies, makes it negative.
* `C48_zero_area_refuted`: an item type with a side of length 0, which the builder accepts, makes build() divide by zero.
* `C49_box_exhausted_search_refuted`: The search only places a block in a corner of the space nearest to a corner of the bin, and so misses packings. Here the six items fit in the bin, but no node of the tree contains them all, nor a profit larger than 23: an exhausted search declares the instance infeasible (objective Feasibility) or gives at most 23 as the knapsack bound, although 27 can be packed (objective Knapsack).
* `C49_defects_refuted`: With a defect, the clipped bin can lose packings: a bin of length ten with a defect on its first unit, and one item of length four, which may only go after the defect. No node of the search contains it, so that an exhausted search declares the instance infeasible.
* `C49_exhausted_search_refuted`: Even without defects, the search only places a block in a corner of the space nearest to a corner of the bin, and so misses packings. Here the six items fit in the bin, but no node of the tree contains them all, nor a profit larger than 23: an exhausted search declares the instance infeasible (objective Feasibility) or gives at most 23 as the knapsack bound, although 27 can be packed (objective Knapsack).
* `C50_appended_last_bin_refuted`: (see the preceding line) Finding: with appended bins, the height is the largest of the appended bins and of the last bin built before, not that of the last bin.
* `C50_geometry_refuted`: [feasible()] is no guarantee on the geometry, the weight or the number of bins: here the items overlap, one is outside the bin, the load is over the maximum weight of the bin, and more bins are used than there are.
* `C51_copy_minimum_refuted`: the copy of an item type in a sub-instance forgets its minimum number of copies.
* `C51_infinite_dimension_refuted`: infinite dimensions are computed from the item types entered so far: called before them, every bin gets size 0, which add_bin_type forbids.
* `C51_objective_refuted`: a new builder has no defined objective: two builders given the same calls build different instances.
* `C51_open_z_refuted`: the objective OpenDimensionZ is accepted with any number of bins, while OpenDimensionX and OpenDimensionY need exactly one.
* `C51_profits_auto_refuted`: set_item_types_profits_auto uses the total volume and weight of the items, which are only computed by build(): whatever the instance, every profit it sets is 0.
* `C51_zero_volume_refuted`: an item type with a side of length 0, which the builder accepts, makes build() divide by zero.
* `C52_cutting_cost_any_refuted`: With the orientation [Any], the cuts of even depths are charged as if they were vertical, although every cut is horizontal.
* `C52_defects_refuted`: An item covering the usable part of a trimmed plate is counted, but not checked against the defects.
* `C52_plate_item_refuted`: An item set on a plate without hard trims is not counted.
* `C52_residual_copies_refuted`: The residual of a bin used several times is subtracted once.
* `C52_small_waste_reported_refuted`: (see the preceding line) The flag about the minimum waste is never seen false: the process has ended before.
* `C52_waste_soft_refuted`: With a soft trim the area of a bin excludes the trim although items may be cut in it: the waste of a feasible solution may be negative.
* `C53_append_copies_refuted`: A source with a bin used twice: the loop over the number of bins indexes the vector of distinct bins.
* `C53_append_empty_copies_refuted`: Two empty bins cannot be appended, and appending none is silently accepted.
* `C53_cutting_cost_refuted`: The cutting cost of a solution with an appended bin is not that of the same bins built directly: the area of the lost residual is charged twice.
* `C54_empty_bins_refuted`: With mandatory bins left empty, the bound may exceed the cost of a solution: one item, three mandatory bins, a dual of 10 on the bins.
* `C54_no_solution_refuted`: When a sub-problem has no item left, its pool holds no bin and the bound ignores that bin type: the empty bin of type 0 has reduced cost -9 although the bound is 0.
* `C55_bin_packing_refuted`: The rule of the extra bin tests whether an item type still fits with the height of the item just inserted instead of its own: after a 10 x 6 item in a 10 x 10 bin, the 5 x 4 items are thought to need another bin, and the node that leads to one bin is cut because of a solution with two.
* `C55_dominance_refuted`: Dominance does not compare the weights of the last bins: the node that dominates leads to no complete solution, the dominated one does.
* `C55_exhausted_knapsack_refuted`: The order between item types of the same size ignores their weights: the more profitable one fits in no bin, so the other one is never packed, and the bound 0 is claimed although a solution of profit 5 exists.
* `C55_infeasible_increasing_x_refuted`: The extents of the groups are not reset in a new bin: the same wrong claim with the increasing order along X.
* `C55_infeasible_only_x_refuted`: The unloading check of the first item of a new bin looks at the items of the previous bin: no complete solution is reached and the instance is claimed infeasible although it is feasible.
* `C55_knapsack_penalty_refuted`: The knapsack bound cuts everything once all the items are packed, although with penalties a solution with fewer items may be better.
* `C55_open_dimension_y_refuted`: In the direction Y the bound of the open dimension still divides by the height of the bin: with a bin 100 wide and 10 high the root is cut by a solution of height 6 although a solution of height 4 is below.
* `C56_inexact_knapsack_refuted`: The bound depends on the knapsack solver being exact: with one that only returns selections that fit (here, none), the overcost is too small and 18 bins are claimed to be needed where 3 are enough.
* `C57_last_bin_refuted`: The second solve of the last bin of a best solution finds a smaller corner for the last bin (4 x 5 instead of the whole bin) with the same items; the improvement is lost, the rebuilt solution being without the items of the first bin.
* `C57_mandatory_bins_refuted`: A mandatory bin: the rectangle instance is built for bin packing, but the onedimensional builder refuses it, whatever the solver: [optimize] ends with an exception on a solvable instance.
* `C57_minimum_refuted`: Optional copies: with two 10 x 10 items of which one is mandatory, the bound is two bins although packing one item in one bin is a feasible solution, which the comparison of solutions prefers to the complete one.
* `C57_negative_profit_refuted`: Items with a negative profit: the knapsack bound is below the profit of the empty packing.
* `C57_no_items_refuted`: Without items the number of copies of an unlimited bin is 0 after the build, which the onedimensional builder refuses.
* `C57_order_refuted`: Bins that are not used in the order of the instance: the bound is two bins (of the first type) although one bin of the second type is enough.
* `C58_mandatory_bins_refuted`: VariableSizedBinPacking: the bound on the bins of a type may be smaller than the number of bins that must be used, so that mandatory bins are lost.
* `C58_negative_penalty_refuted`: With a negative penalty the penalty column is free: the best points claim a reward the solution does not get.
* `C58_nesting_refuted`: The rows use the full lengths: two nested items that fit in the only bin are declared infeasible by an honest answer.
* `C58_optional_copies_refuted`: With optional copies and an objective other than Knapsack, reading back an optimal point of the model throws: the solution is not full.
* `C58_penalty_shape_refuted`: The test on the shape of the penalised schedules stops at the first 0: a schedule that grows again is accepted, and the value of a point is larger than the profit of the solution read back.
* `C58_reported_profit_refuted`: The bound on the profit can be below the profit the library reports for a valid solution: a bin with two copies pays its penalty once there.
* `C58_single_bin_precedence_refuted`: With a single bin a precedence only asks for the last copy that has a column: a dominated item is packed although a copy of the dominating type is left out.
* `C58_warm_start_refuted`: A packing that pays a penalty, or that packs an item type dominated by another one, is not turned into a point by the warm start: the penalty and precedence columns stay at 0.
* `C58_zero_length_refuted`: An item of length 0 makes the construction of the model divide by zero.
* `C59_axles_refuted`: The item 12 x 5 alone puts 1 on the rear axle, whose limit is 1/2; with the item 8 x 5 beside it, nothing. The solve of the bin with the first item only is infeasible, and the cut made of it forbids both.
* `C59_endless_refuted`: With at most 0 no-good cuts per bin (a parameter), a bin that the subproblem does not solve is never cut off, and the run does not end.
* `C59_infeasible_throws_refuted`: An instance without a packing is not reported as infeasible: the claim is passed on, then the run throws ("master problem should not be infeasible"), here with two 8 x 8 items and one bin.
* `C59_lift_refuted`: Lifting by two item types is wrong: the coefficients are computed as if each copy consumed all of them, but the schedule of a lifted item only makes the first copy consume 1. Three 5 x 9 never fit in a 10 x 10 bin; lifted by a 10 x 10 and a 1 x 1 item, the cut forbids two 5 x 9 and the 1 x 1, which fit.
* `C59_lost_bin_refuted`: The bins that the master leaves empty are not in the solution: a mandatory bin type is not used, although the run stops and there is a packing.
* `C59_mandatory_bins_refuted`: A bin type with two mandatory copies: the subproblem copies the bin type, then sets its number of copies to 1, which throws.
* `C59_mandatory_refuted`: The precedences of the knapsack master forget that an item may be mandatory: a mandatory 10 x 10 item is not allowed without the other, more profitable 10 x 10 item, and the instance is claimed infeasible.
* `C59_minimal_refuted`: The subsets reported are not minimal: with two light items and one too heavy, {heavy} is reported, and {light, heavy} as well: the search does not try again to remove the items before its position.
* `C59_orientation_refuted`: items_incompatible adds the larger side of the item that may be rotated to both sides of the one that may not, where the smaller one is needed: a 10 x 1 that may be rotated and a 5 x 5 that may not are said incompatible in a 10 x 10 bin, and the bound of two bins is passed on, although one bin is enough.
* `C59_weights_refuted`: The precedences of the knapsack master forget the weights as well: an item that is too heavy is cut off, then a light one of the same size and less profit is not allowed any more, and a bound of 0 is passed on, although a profit of 1 can be had.
* `C60_build_refuted`: [build] on two or more bins reads outside of the weight vectors of the second bin, which are only filled by the next step of its loop, as soon as the first bin satisfies its constraints and the weights of some group are checked. This is for every instance and every sequence of calls; the tree search and the flipper of instances build their solutions this way.
* `C60_empty_last_refuted`: the volume of the last bin is only computed when it has a stack; with an empty last bin, the waste of a built solution is negative.
* `C60_geometry_refuted`: [feasible()] is no guarantee on the geometry, the stacks, or the number of bins: here two stacks overlap and are out of the bin, a stack is higher than the bin and breaks the number and the weight limits of its items, items of different stackability ids are stacked, and more bins are used than there are.
* `C60_leftover_refuted`: a closing parenthesis is misplaced in the leftover along y, which is not counted. A board along x at the origin leaves 90 of the 100 units of the bin; the same board along y next to the opposite wall leaves 10, and is said to be better.
* `C60_negative_nesting_refuted`: ... and with a negative nesting height (which the instance builder accepts, and which means a gap), a stack that is too high is accepted.
* `C60_nested_waste_refuted`: nested items are counted with their whole volume, so that a valid solution can have more volume of items than volume of bins.
* `C60_nesting_refuted`: check_stack adds the nesting height where the rest of the code subtracts it; a valid stack of two nested crates is rejected ...
* `C61_above_axles_refuted`: for an item put above another one, the axle weights are computed at the position of the last inserted item rather than at that of the stack. The insertion that completes the bin without overweight is refused: it is proposed when the axle weight is not limited.
* `C61_axles_y_refuted`: in the direction Y the axle weights are computed along y although the axles are along x: a complete solution without overweight for the search is infeasible.
* `C61_first_bin_refuted`: the overweights are those of the last bin only: a complete solution whose first bin has too heavy an axle has no overweight for the search.
* `C61_hidden_stack_refuted`: the top of a stack that is partly hidden by another stack is treated as a smaller stack. An item with a smaller base (here the same item type stood on end) is put above the visible part; the solution builder then throws.
* `C61_increasing_refuted`: with the unloading constraint IncreasingX, the position is checked before it is moved after the defects.
* `C61_only_x_refuted`: with the unloading constraint OnlyXMovements, the last item of an empty list is read (undefined behaviour) as soon as an item may be put in a free row.
* `C61_rotation_refuted`: the flipped instance exchanges x and y of the item types but keeps their rotations, so that a rotation that moves the vertical axis means another orientation: in the direction Y the heights and the bases are those of another orientation, and the solution builder throws. The direction Y is used for every instance with one bin type and no unloading constraint.
* `C62_infeasible_refuted`: only the leftmost positions are tried, and the insertion of the last item of a group is refused if an axle is too heavy. The tree is exhausted without a complete solution, and the instance is claimed infeasible, although an item further to the rear gives a feasible and complete solution.
* `C62_nested_bound_refuted`: the bound for bin packing ignores that items are nested: a solution with two bins cuts the root, below which there is a solution with one bin.
* `C62_open_dimension_refuted`: a closing parenthesis is misplaced in the bound of the open dimensions: a solution of length 10 cuts the root, below which there is a solution of length 5.
* `C63_horizontal_refuted`: Refuted: when the first cuts have to be horizontal, the algorithm still gives the cuts the coordinates of vertical first cuts. On a plate of 20 x 10 with an item of the size of the plate, the solution builder refuses the first cut.
* `C63_soft_trim_refuted`: Refuted: with a soft trim above (or below) the plate, the first cut leaves a part that includes the trim, but the algorithm puts the item there as if it did not. On a plate of 10 x 10 with a soft trim of 2, the solution with an item of 10 x 8 is refused by the solution builder.
* `C63_thick_refuted`: Refuted: with a cut thickness the best packing can be missed. A cut is only considered if both of its parts have a positive size after the thickness, so a cut whose strip ends at the edge of the plate is never tried. An item of 9 x 10 is cut from a plate of 10 x 10 by one cut of thickness 1, and the solution builder accepts that, but the algorithm finds nothing, however long it runs.
* `C64_horizontal_refuted`: Refuted: when the first cuts have to be horizontal, the solution of the algorithm with infinite copies is refused by the solution builder too.
* `C64_soft_trim_refuted`: Refuted: with a soft trim above the plate, the solution of the algorithm with infinite copies is refused by the solution builder too.
* `C64_thick_refuted`: Refuted: with a cut thickness the value can be below what can be cut, for the same reason as above.
* `C65_infeasible_refuted`: The claims of an exhausted search: every complete solution of the tree in the direction Y breaks the capacity, so that whichever node is the best one the search claims that the instance is infeasible; two bins are enough.
* `C65_predecessors_refuted`: An item type is only packed when all the copies of the lighter item types of the same size and profit are: with a bin for 10 and a bin for 1, the light item takes the first bin and no node packs both items, although there is a packing.
* `C65_resources_y_refuted`: The flipped instances have no resources: in the direction Y the search packs items over a capacity that may not be exceeded.
* `C66_bin_packing_refuted`: An uncovered item beside which no item fits along y is raised even where items fit along z: after a 10 x 7 x 5 item in a bin of size 10 the whole strip y >= 7 is counted as waste, and the node that leads to one bin is cut because of a solution with two.
* `C66_default_refuted`: Default: while no solution packs all the items, a node whose profit cannot be larger than the one of the solution is cut although it may have the same profit with less waste.
* `C66_dominance_refuted`: Dominance does not compare the weights of the last bins: the node that dominates leads to no complete solution, the dominated one does.
* `C66_knapsack_penalty_refuted`: The knapsack bound cuts everything once all the items are packed, although with penalties a solution with fewer items may be better.
* `C66_leftovers_order_refuted`: With leftovers nodes are compared by the volume up to the skyline, solutions by the box around the items of the last bin: the better node may be the worse solution.
* `C66_leftovers_refuted`: The same with leftovers.
* `C66_open_dimension_y_refuted`: In the direction Y the bound of the open dimension still divides by the section y z of the bin: with a bin 100 x 10 x 1 the root is cut by a solution of length 6 although a solution of length 4 is below.
* `C66_open_dimension_z_refuted`: [tree_search] has a direction for the objective OpenDimensionZ, but [better] throws for this objective whatever the nodes.
* `C67_density_refuted`: for a bin that does not start at 0 the density is computed with the coordinate of the farthest item instead of its distance to the side of the bin: here it is negative, although the packing is correct.
* `C67_empty_leftover_refuted`: an empty last bin does not change the leftover: it keeps the value of the bin before, or 0, instead of the whole bin. The "scaled" leftover, an area, is scaled by the factor of the lengths, not by its square.
* `C67_geometry_refuted`: [feasible()] is no guarantee on the geometry or the number of bins: here two items are at the same place, one is outside the bin, and more bins are used than there are.
* `C67_penalty_copies_refuted`: the penalty of a resource is charged once per entry of the solution, whatever its number of copies: two descriptions of the same packing have different profits.
* `C68_mandatory_bins_refuted`: A mandatory bin: the onedimensional builder refuses it for bin packing, whatever the solver: [optimize] ends with an exception on a solvable instance.
* `C68_minimum_refuted`: Optional copies: with two items of which one is mandatory, the bound is two bins although packing one item in one bin is a feasible solution, which the comparison of solutions prefers to the complete one.
* `C68_negative_profit_refuted`: Items with a negative profit: the knapsack bound is below the profit of the empty packing.
* `C68_order_refuted`: Bins that are not used in the order of the instance: the bound is two bins (of the first type) although one bin of the second type is enough.
* `C68_origin_refuted`: A bin whose box starts at a negative coordinate: the bound of the open dimension is a length, the value of a solution is a coordinate. A 10 x 10 item at -10 in a bin from -10 to 10: the solution ends at 0, below the bound 10.
* `C68_small_items_refuted`: Items with a scaled area below 1 are left out of the onedimensional instance, with their profits: the knapsack bound is below the profit of a packing for every solver whose bound is at most the total profit of its items, as the optimum is. (In a bin of 1024 x 1024 the scale is 1 and an item of 0.9 x 0.9 is left out.)
* `C69_throwing_callback_parallel_refuted`: In the parallel mode a task whose callback throws blocks the reports of the other tasks for ever.
* `C69_throwing_callback_refuted`: A callback that throws leaves the mutex locked, because update_solution and the update_…_bound functions lock and unlock it without a guard: the exception is stored by the wrapper of the task, the next report of any task waits for ever, and run never returns; in the sequential mode the second task waits for the mutex held by its own thread.
* `C70_mandatory_bins_refuted`: A mandatory bin: the box instance is built for bin packing, but the onedimensional builder refuses it, whatever the solver: [optimize] ends with an exception on a solvable instance.
* `C70_minimum_refuted`: Optional copies: with two 10 x 10 x 2 items of which one is mandatory, the bound is two bins although packing one item in one bin is a feasible solution, which the comparison of solutions prefers to the complete one.
* `C70_negative_profit_refuted`: Items with a negative profit: the knapsack bound is below the profit of the empty packing.
* `C70_no_items_refuted`: Without items the number of copies of an unlimited bin is 0 after the build, which the onedimensional builder refuses.
* `C70_order_refuted`: Bins that are not used in the order of the instance: the bound is two bins (of the first type) although one bin of the second type is enough.
* `C71_full_nesting_refuted`: Items that are nested by their full height: the box has no volume and the box builder refuses the instance, so that [optimize] ends with an exception on a solvable instance.
* `C71_lying_refuted`: Nested items that are not upright: the height before the rotation is what is shrunk. Six items 4 x 2 x 5 lying on their side (5 x 2 x 4), nested by 3, are a stack of height 9 in one bin; the boxes are 2 x 2 x 4 once rotated, too large for one bin, so that a bound that is right for the boxes is two bins.
* `C71_minimum_refuted`: Optional copies: the bound is two bins although packing the mandatory copies in one bin is a feasible solution, which the comparison of solutions prefers to the complete one.
* `C71_negative_profit_refuted`: Items with a negative profit: the knapsack bound is below the profit of the empty packing.
* `C71_nested_profit_refuted`: The same with the knapsack bound: 6.75 for a packing in one bin of profit 18.
* `C71_nested_refuted`: Nested items: six crates of height 4, nested by 3, are a stack of height 9 in one bin; the trivial bound, which counts their full volume, is three bins.
* `C71_order_refuted`: Bins that are not used in the order of the instance: the bound is two bins (of the first type) although one bin of the second type is enough.
* `C72_mandatory_bins_refuted`: A mandatory plate: the onedimensional builder refuses the relaxation for bin packing, whatever the solver: [optimize] ends with an exception on a solvable instance.
* `C72_minimum_refuted`: Optional copies: with two 10 x 10 items of which one is mandatory, the trivial bound and the dual feasible functions claim two plates although a feasible solution has one.
* `C72_negative_profit_refuted`: Items with a negative profit: the knapsack bound is below the profit of the empty packing.
* `C72_no_area_refuted`: A plate whose trims leave nothing: its area is 0, which the onedimensional builder refuses, although the empty packing is a solution of the knapsack.
* `C72_order_refuted`: Plates that are not used in the order of the instance: the bound is two plates (of the first type) although one plate of the second type is enough, in a feasible solution.
* `C72_soft_trims_refuted`: Soft trims: the solution builder lets items lie in them and the solution is feasible, but their area is not counted: the bound is two plates although a feasible solution has both items in one.
* `C72_turned_refuted`: Items that may not be turned: the solution builder lets them be turned and the solution is feasible, with an extent of 2; the bound is 7.
* `C73_copy_minimum_refuted`: A copied item type loses its minimum number of copies: an item type with 5 copies of which at least 2 must be packed becomes one whose 5 copies must be packed in bin packing, and none in the knapsack problem.
* `C73_default_cost_refuted`: The default cost of a plate is its whole area, with its trims, but set_bin_types_unweighted makes it the area without them.
* `C73_default_costs_refuted`: The default parameters, without any call that sets the stages, have no cutting cost at all: set_fixed_cutting_cost refuses stage 0, and an instance with the cutting cost objective is built whose table of costs is empty, although the solution reads its first element for each bin (solution.cpp:58).
* `C73_infinite_trims_refuted`: Infinite dimensions do not count the trims: with trims of 9 on both sides of the plate and one item 4 x 5, the plate gets width 5, less than its trims, and the item does not fit.
* `C73_missing_item_refuted`: A resource consumption for an item type that is never added is accepted and makes build write out of range.
* `C73_predefined_digit_refuted`: set_predefined takes any character after '1' as a number of stages: "ANVR" is accepted and gives 17 stages.
* `C73_predefined_throw_refuted`: set_predefined throws after having changed the builder: with "U" the number of stages, the cut type and the first cut are set before the exception, with "2RVX" too.
* `C73_unlimited_items_refuted`: Unlimited copies of an item type (-1, which set_item_type_copies accepts) break the stacks: alone it makes build throw a length error, after an item type with 5 copies it makes build write out of range.
* `C73_unlimited_minimum_refuted`: Unlimited copies of a plate become the number of items even when this is below its minimum number of copies.
* `C73_zero_area_refuted`: An item type with a side of length 0, which the builder accepts, makes build divide by zero.
* `C74_copy_minimum_refuted`: the copy of an item type in a sub-instance forgets its minimum number of copies.
* `C74_group_id_refuted`: set_item_type_group does not check the item type id, unlike the other setters: a wrong id is an access out of range, not an exception.
* `C74_infinite_dimension_refuted`: infinite dimensions are computed from the item types entered so far: called before them, every bin gets size 0, which add_bin_type forbids.
* `C74_nesting_refuted`: nothing bounds the nesting height of an item type: the height of a stack of two such items is negative.
* `C74_objective_refuted`: a new builder has no defined objective: two builders given the same calls build different instances.
* `C74_open_z_refuted`: the objective OpenDimensionZ is accepted with any number of bins, while OpenDimensionX and OpenDimensionY need exactly one.
* `C74_profits_auto_refuted`: set_item_types_profits_auto uses the total volume and weight of the items, which are only computed by build(): whatever the instance, every profit it sets is 0.
* `C74_unlimited_items_refuted`: set_item_type_copies accepts -1, but unlimited copies are not resolved: the built instance has a negative number of items.
* `C74_unweighted_refuted`: the cost given by set_bin_types_unweighted, the volume, is not the default cost of add_bin_type, the base area.
* `C74_zero_volume_refuted`: an item type with a side of length 0, which the builder accepts, makes build() divide by zero.
* `C75_empty_if_uncuttable_refuted`: "Returns an empty vector if the placement is not guillotine-cuttable": four items around a hole make the call recurse without end.
* `C75_single_item_refuted`: One item with the size of its type, with the place of a cut on its left, is not always found: the call does not return.
* `C76_keeps_feasible_refuted`: A feasible solution stays feasible: no, the waste over a defect is dropped and the item after it slides on the defect.
* `C76_keeps_stack_order_refuted`: On plates without defect a feasible solution stays feasible: no, the order of the items of a stack is not looked at.

Observed while reading, outside the model: item precedences of a JSON instance are
not read (onedimensional); an exception thrown by the user's callback leaves the
formatter mutex locked; the guillotine append tests `node.t == -4` on the type
field; the certificate of a plate whose first cut spans it and is horizontal is
read back as vertical.

## 7. Wrong programs

`seeded/LOG.jsonl` has one line per edit of the model (definition, edit, claim it
breaks, first failing proofs, theorems that failed, theorems tightened). The build
stops at the first failing proofs of a file; a theorem is listed as failed if its
proof depends on one of them. Edits that
survived led to new or stronger theorems, named in `theorems_tightened`.
