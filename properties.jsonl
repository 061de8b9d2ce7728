{"id": "C01", "title": "Placed items lie inside their container", "statement": "After solve(), every entry [Xo, Yo, w, l] of solution[cont] satisfies 0 <= Xo, 0 <= Yo, Xo + w <= W and Yo + l <= L of that container (strip packing: Yo + l <= container_height).", "quantifier": "all valid containers/items, all sequences, all strategies, rotation on or off, bin or strip mode", "why_tests_cant": "the input space (any number and size of items and bins, any order, any strategy) is infinite; a test samples finitely many instances", "anchors": ["hyperpack/mixins.py:PointGenerationMixin._check_fitting", "hyperpack/mixins.py:PointGenerationMixin._construct_solution", "hyperpack/mixins.py:PointGenerationMixin._solve"]}
{"id": "C02", "title": "Placed items never overlap", "statement": "After solve(), two different items stored in the same container never share a unit cell.", "quantifier": "all valid problems, sequences, strategies and rotation settings", "why_tests_cant": "the input space (any number and size of items and bins, any order, any strategy) is infinite; a test samples finitely many instances", "anchors": ["hyperpack/mixins.py:PointGenerationMixin._check_fitting", "hyperpack/mixins.py:PointGenerationMixin._construct_solution"]}
{"id": "C03", "title": "Overlap can only happen on the top row of the later item", "statement": "If two items of one container of solution do share a cell, that cell is on the top row of whichever was placed later, strictly between its left and right columns; in particular items no wider than 2 (in every permitted orientation) never overlap anything placed before them.", "quantifier": "all valid problems, all pairs of stored items, all cells", "why_tests_cant": "the input space (any number and size of items and bins, any order, any strategy) is infinite; a test samples finitely many instances", "anchors": ["hyperpack/mixins.py:PointGenerationMixin._check_fitting", "hyperpack/mixins.py:PointGenerationMixin._construct_solution"]}
{"id": "C04", "title": "Every item is stored at most once, and only known items are stored", "statement": "After solve(sequence), the containers of solution are exactly the problem's containers in order, every stored id belongs to the sequence given, no id is stored twice in a container or in two containers, and the ids left over are exactly the sequence minus the stored ones.", "quantifier": "all valid problems, all sequences of known ids", "why_tests_cant": "the input space (any number and size of items and bins, any order, any strategy) is infinite; a test samples finitely many instances", "anchors": ["hyperpack/mixins.py:PointGenerationMixin._solve", "hyperpack/mixins.py:PointGenerationMixin._construct_solution"]}
{"id": "C05", "title": "Stored dimensions are the item's dimensions, swapped only when rotation is enabled", "statement": "For every stored entry [Xo, Yo, w, l] of item i, (w, l) is items[i]'s (w, l), or its swap; a swap occurs only if the rotation setting is True and the unrotated item did not fit at that point.", "quantifier": "all valid problems, all stored items", "why_tests_cant": "the input space (any number and size of items and bins, any order, any strategy) is infinite; a test samples finitely many instances", "anchors": ["hyperpack/mixins.py:PointGenerationMixin._construct_solution"]}
{"id": "C06", "title": "solve() always finishes without an exception", "statement": "For a validated problem (positive integer dimensions, known ids in the sequence) solve() terminates and raises no exception (no IndexError on the coordinates grid, no KeyError, no endless loop).", "quantifier": "all valid problems, sequences, strategies, rotation settings", "why_tests_cant": "termination and absence of exceptions must hold for every instance, of any size", "anchors": ["hyperpack/mixins.py:PointGenerationMixin._generate_points", "hyperpack/mixins.py:PointGenerationMixin._construct_solution", "hyperpack/mixins.py:PointGenerationMixin._solve"]}
{"id": "C07", "title": "Bin objective value is the utilization", "statement": "In bin packing mode obj_val_per_container[c] is the total area of the items stored in c divided by W*L (exact arithmetic), and 0 for a container that was never reached.", "quantifier": "all valid bin-packing problems", "why_tests_cant": "the input space (any number and size of items and bins, any order, any strategy) is infinite; a test samples finitely many instances", "anchors": ["hyperpack/mixins.py:default_objective_value_calculator", "hyperpack/mixins.py:PointGenerationMixin._construct_solution"]}
{"id": "C08", "title": "Utilization never exceeds 100%", "statement": "In bin packing mode obj_val_per_container[c] <= 1.", "quantifier": "all valid bin-packing problems", "why_tests_cant": "the input space (any number and size of items and bins, any order, any strategy) is infinite; a test samples finitely many instances", "anchors": ["hyperpack/mixins.py:default_objective_value_calculator", "hyperpack/mixins.py:PointGenerationMixin._construct_solution"]}
{"id": "C09", "title": "Strip objective value is the utilization of the strip up to the solution's height", "statement": "In strip packing mode the objective value of a solution is (sum of stored areas) / (strip width * height of the solution), where the height is the largest Yo + l stored.", "quantifier": "all valid strip-packing problems", "why_tests_cant": "the input space (any number and size of items and bins, any order, any strategy) is infinite; a test samples finitely many instances", "anchors": ["hyperpack/mixins.py:PointGenerationMixin._construct_solution"]}
{"id": "C10", "title": "Strip objective prefers lower strips", "statement": "Between two strip solutions that both store all the items, the one with the smaller height has the strictly larger objective value.", "quantifier": "all pairs of full strip solutions of one problem", "why_tests_cant": "the input space (any number and size of items and bins, any order, any strategy) is infinite; a test samples finitely many instances", "anchors": ["hyperpack/mixins.py:PointGenerationMixin._construct_solution", "hyperpack/mixins.py:LocalSearchMixin.compare_node"]}
{"id": "C11", "title": "First fit in sequence order", "statement": "At every potential point processed by solve(), the item placed is the first one of the remaining sequence that passes the fit test there (unrotated first, then rotated when enabled); if none passes, nothing is placed and the point is discarded.", "quantifier": "all processed points of all runs", "why_tests_cant": "the input space (any number and size of items and bins, any order, any strategy) is infinite; a test samples finitely many instances", "anchors": ["hyperpack/mixins.py:PointGenerationMixin._construct_solution"]}
{"id": "C12", "title": "Leftover items fit at no processed point; a container stays empty only if nothing fits it", "statement": "When solve() leaves a container with items left over and utilization below 100%, no leftover item passes the fit test at any potential point that was ever generated in a class of the strategy; and a container whose solution is {} while items were available can hold none of them, even empty.", "quantifier": "all valid problems, strategies", "why_tests_cant": "the input space (any number and size of items and bins, any order, any strategy) is infinite; a test samples finitely many instances", "anchors": ["hyperpack/mixins.py:PointGenerationMixin._construct_solution", "hyperpack/mixins.py:PointGenerationMixin._get_current_point"]}
{"id": "C13", "title": "solve() is deterministic and changes only the solution attributes", "statement": "solve() depends only on containers, items in the given sequence, rotation, strategy and (strip) container height; it leaves items, containers, settings, strategy and heights unchanged, ignores the previous solution, and solve() equals solve(sequence=list(items)).", "quantifier": "all problem states and previous solutions", "why_tests_cant": "the guarantee is about every finite history of API calls, not about one call sequence", "anchors": ["hyperpack/mixins.py:PointGenerationMixin._solve", "hyperpack/heuristics.py:PointGenerationSolver.solve"]}
{"id": "C14", "title": "Local search never returns something worse than the initial construction", "statement": "After local_search(), calculate_obj_value() is at least the value of the plain solve() it started from.", "quantifier": "all problems, all clocks (time limit hit at any point), throttle on or off", "why_tests_cant": "the time limit can strike after any neighbour; hill climbing paths are unbounded", "anchors": ["hyperpack/abstract.py:AbstractLocalSearch.local_search", "hyperpack/mixins.py:LocalSearchMixin"]}
{"id": "C15", "title": "Local search returns a genuine construction", "statement": "solution/obj_val_per_container after local_search() are exactly the (copied) output of solve() on some permutation of the items at the container height in force at that evaluation; so every placement guarantee of solve() carries over.", "quantifier": "all problems, clocks, throttle values", "why_tests_cant": "the retained solution depends on the whole unbounded search path", "anchors": ["hyperpack/abstract.py:AbstractLocalSearch.local_search", "hyperpack/mixins.py:LocalSearchMixin.local_search", "hyperpack/mixins.py:DeepcopyMixin._deepcopy_solution"]}
{"id": "C16", "title": "Local search terminates even if the time limit never strikes", "statement": "local_search() finishes for every problem even with a clock that never reaches the limit; in bin mode it visits at most n! nodes.", "quantifier": "all problems, all clocks", "why_tests_cant": "termination of an unbounded while loop", "anchors": ["hyperpack/abstract.py:AbstractLocalSearch.local_search"]}
{"id": "C17", "title": "Local search ends in a 2-opt local optimum", "statement": "If local_search() stops without running out of time and without throttling (throttle=False or n(n-1)/2 <= 2500), no single exchange of two items of the final sequence would be accepted as a better node.", "quantifier": "all problems, all clocks that do not expire", "why_tests_cant": "the input space (any number and size of items and bins, any order, any strategy) is infinite; a test samples finitely many instances", "anchors": ["hyperpack/abstract.py:AbstractLocalSearch.local_search", "hyperpack/abstract.py:AbstractLocalSearch.get_max_neighbors_num"]}
{"id": "C18", "title": "Throttling bounds the neighbours per node", "statement": "With throttle=True local_search() evaluates at most 2500 neighbours per node, and at most n(n-1)/2 in any case.", "quantifier": "all problems and clocks", "why_tests_cant": "the input space (any number and size of items and bins, any order, any strategy) is infinite; a test samples finitely many instances", "anchors": ["hyperpack/abstract.py:AbstractLocalSearch.get_max_neighbors_num", "hyperpack/abstract.py:AbstractLocalSearch.local_search"]}
{"id": "C19", "title": "Local search honours the time limit", "statement": "With a non-decreasing clock, local_search() evaluates at most one neighbour after the limit has passed, and every earlier check was before the limit.", "quantifier": "all problems, all non-decreasing clocks, all limits", "why_tests_cant": "depends on when the clock passes the limit", "anchors": ["hyperpack/abstract.py:AbstractLocalSearch.local_search"]}
{"id": "C20", "title": "Strip local search accepts only full solutions", "statement": "In strip mode with container_min_height None, every node accepted by local_search() stores all the items; hence if the initial construction stores all items, so does the final solution.", "quantifier": "all strip problems, clocks", "why_tests_cant": "the input space (any number and size of items and bins, any order, any strategy) is infinite; a test samples finitely many instances", "anchors": ["hyperpack/mixins.py:LocalSearchMixin.compare_node", "hyperpack/mixins.py:LocalSearchMixin.extra_node_operations"]}
{"id": "C21", "title": "Strip searches never return a solution that omits items", "statement": "In strip mode with container_min_height None, the solution returned by local_search() or hypersearch() stores all the items whenever the search met a full solution ('every solution that doesn't include all the items given will not be accepted').", "quantifier": "all strip problems, all strategy orders, clocks", "why_tests_cant": "the input space (any number and size of items and bins, any order, any strategy) is infinite; a test samples finitely many instances", "anchors": ["hyperpack/mixins.py:LocalSearchMixin.compare_node", "hyperpack/heuristics.py:HyperPack._single_process_hypersearch", "docs/source/strip_packing.rst"]}
{"id": "C22", "title": "Strip height only shrinks, never below the minimum, and always contains the solution", "statement": "During local_search() container_height never increases, stays >= 1 and >= container_min_height, and the returned solution fits inside the final container_height.", "quantifier": "all strip problems, clocks", "why_tests_cant": "the input space (any number and size of items and bins, any order, any strategy) is infinite; a test samples finitely many instances", "anchors": ["hyperpack/structures.py:Containers._set_height", "hyperpack/mixins.py:LocalSearchMixin.extra_node_operations"]}
{"id": "C23", "title": "Hypersearch tries each strategy once", "statement": "get_strategies() returns exactly 720 different strategies, each one a permutation of the ten potential point classes ending in the fixed suffix, whatever the iteration order of Python sets.", "quantifier": "all set iteration orders (hash seeds), bin and strip mode", "why_tests_cant": "set iteration order changes with the hash seed of each run", "anchors": ["hyperpack/heuristics.py:HyperPack.get_strategies"]}
{"id": "C24", "title": "Single process hypersearch returns the best value met", "statement": "hypersearch() with one worker returns a solution whose objective value is at least that of the initial construction and of every local search it ran, and it is one of those.", "quantifier": "all problems, strategy lists, clocks", "why_tests_cant": "the input space (any number and size of items and bins, any order, any strategy) is infinite; a test samples finitely many instances", "anchors": ["hyperpack/heuristics.py:HyperPack._single_process_hypersearch"]}
{"id": "C25", "title": "Hypersearch stops when maximum utilization is found", "statement": "As documented, hypersearch() stops as soon as a 100% utilization solution is found.", "quantifier": "all problems reaching full utilization", "why_tests_cant": "the input space (any number and size of items and bins, any order, any strategy) is infinite; a test samples finitely many instances", "anchors": ["hyperpack/heuristics.py:HyperPack._single_process_hypersearch", "hyperpack/abstract.py:AbstractLocalSearch.get_optimum_objective_val", "docs/source/hypersearch.rst"]}
{"id": "C26", "title": "Work is partitioned among workers without loss or duplication", "statement": "In multiprocess hypersearch the strategy chunks handed to the workers concatenate to the full strategy list, none is empty, and there are at most workers_num of them.", "quantifier": "all strategy lists and worker numbers", "why_tests_cant": "must hold for every length/worker combination", "anchors": ["hyperpack/heuristics.py:HyperPack._multi_process_hypersearch"]}
{"id": "C27", "title": "The multiprocess winner is the best over all workers, for every interleaving", "statement": "When no worker fails, multiprocess hypersearch returns a solution whose objective value is the maximum over all workers' results, for every interleaving of their accesses to the shared array.", "quantifier": "all problems, worker numbers and schedules", "why_tests_cant": "schedules cannot be enumerated by tests", "anchors": ["hyperpack/heuristics.py:HyperPack._multi_process_hypersearch", "hyperpack/processes.py:HyperSearchProcess.run"]}
{"id": "C28", "title": "Worker exceptions are contained", "statement": "If some but not all workers raise, hypersearch() still returns the best result of a worker that did not fail; if all raise, MultiProcessError is raised and the problem's solution is not replaced by a failed worker's output.", "quantifier": "all subsets of failing workers, failing at any point", "why_tests_cant": "every failure pattern and failure point", "anchors": ["hyperpack/heuristics.py:HyperPack._multi_process_hypersearch", "hyperpack/processes.py:HyperSearchProcess.run"]}
{"id": "C29", "title": "Multiprocess hypersearch always returns", "statement": "The parent process never blocks forever: it returns or raises for every size of result and every crash of a worker.", "quantifier": "all schedules, result sizes, worker crash points", "why_tests_cant": "deadlocks depend on the schedule, pipe capacity and crash point", "anchors": ["hyperpack/heuristics.py:HyperPack._multi_process_hypersearch", "hyperpack/processes.py:HyperSearchProcess.run"]}
{"id": "C30", "title": "Multiprocess strip hypersearch respects the strip height chosen by the user", "statement": "A strip solution returned by hypersearch() fits in the container_height the user had set, whatever the number of workers.", "quantifier": "all strip problems, heights, worker numbers", "why_tests_cant": "the input space (any number and size of items and bins, any order, any strategy) is infinite; a test samples finitely many instances", "anchors": ["hyperpack/heuristics.py:HyperPack._multi_process_hypersearch", "hyperpack/processes.py:HyperSearchProcess.__init__"]}
{"id": "C31", "title": "Only well-formed structures are accepted", "statement": "Assigning containers/items (at construction, by attribute or by key) succeeds exactly when the value is a non-empty dict with str ids whose values are dicts with exactly the two proper keys and positive integers; otherwise the documented exception is raised.", "quantifier": "all Python values", "why_tests_cant": "the domain of Python values is infinite", "anchors": ["hyperpack/structures.py:Dimensions.__init__", "hyperpack/structures.py:AbstractStructureSet.__init__", "hyperpack/structures.py:AbstractStructureSet.__setitem__"]}
{"id": "C32", "title": "Containers and items stay well formed in every history", "statement": "After any sequence of API operations, successful or not, containers and items are non-empty and all dimensions are positive integers.", "quantifier": "all histories of operations through the dict and attribute API", "why_tests_cant": "the guarantee is about every finite history of API calls, not about one call sequence", "anchors": ["hyperpack/structures.py:Dimensions", "hyperpack/structures.py:AbstractStructureSet", "hyperpack/heuristics.py:BasePackingProblem"]}
{"id": "C33", "title": "Every successful structural change resets the solution", "statement": "Every successful assignment, key change, dimension change or deletion on items/containers leaves solution == {} and obj_val_per_container == {}.", "quantifier": "all states and operations", "why_tests_cant": "the guarantee is about every finite history of API calls, not about one call sequence", "anchors": ["hyperpack/structures.py:Dimensions.reset_instance_attrs", "hyperpack/structures.py:AbstractStructureSet.reset_instance_attrs"]}
{"id": "C34", "title": "A rejected structural change changes nothing", "statement": "If an assignment or deletion on items/containers raises, items, containers and the solution are as before.", "quantifier": "all states and rejected operations", "why_tests_cant": "the guarantee is about every finite history of API calls, not about one call sequence", "anchors": ["hyperpack/structures.py:AbstractStructureSet.__init__", "hyperpack/structures.py:AbstractStructureSet.__setitem__", "hyperpack/structures.py:Dimensions.__setitem__"]}
{"id": "C35", "title": "The solution is never stale", "statement": "In every reachable state solution is either {} or a packing of the current items into the current containers with the current dimensions.", "quantifier": "all histories of operations", "why_tests_cant": "the guarantee is about every finite history of API calls, not about one call sequence", "anchors": ["hyperpack/structures.py:Dimensions.__setitem__", "hyperpack/structures.py:AbstractStructureSet", "hyperpack/heuristics.py:PointGenerationSolver.solve"]}
{"id": "C36", "title": "Strip containers are immutable", "statement": "In strip mode no operation changes the containers: there is always the single container 'strip-pack-container' with the given width.", "quantifier": "all histories on strip problems", "why_tests_cant": "the guarantee is about every finite history of API calls, not about one call sequence", "anchors": ["hyperpack/structures.py:Dimensions.__setitem__", "hyperpack/structures.py:AbstractStructureSet.__setitem__", "hyperpack/heuristics.py:BasePackingProblem.containers"]}
{"id": "C37", "title": "Strip heights are consistent", "statement": "In strip mode, in every reachable state, container_height is a positive integer and container_min_height is None or satisfies 1 <= container_min_height <= container_height; invalid assignments raise and change nothing; reset_container_height restores 10*width and None.", "quantifier": "all histories on strip problems", "why_tests_cant": "the guarantee is about every finite history of API calls, not about one call sequence", "anchors": ["hyperpack/heuristics.py:BasePackingProblem.container_height", "hyperpack/heuristics.py:BasePackingProblem.container_min_height", "hyperpack/heuristics.py:BasePackingProblem.reset_container_height", "hyperpack/structures.py:Containers._set_height"]}
{"id": "C38", "title": "The number of containers used in the objective is the real one", "statement": "In every reachable state the container count used by calculate_obj_value equals len(containers), so only the last container is discounted to 70%.", "quantifier": "all histories of operations", "why_tests_cant": "the guarantee is about every finite history of API calls, not about one call sequence", "anchors": ["hyperpack/structures.py:Containers.reset_instance_attrs", "hyperpack/heuristics.py:BasePackingProblem.containers", "hyperpack/mixins.py:LocalSearchMixin.calculate_obj_value"]}
{"id": "C39", "title": "The strategy attribute only holds valid strategies", "statement": "Assigning potential_points_strategy succeeds exactly for tuples of distinct potential point names; otherwise PotentialPointsError is raised and the strategy is unchanged.", "quantifier": "all Python values, all histories", "why_tests_cant": "infinite domain", "anchors": ["hyperpack/heuristics.py:PointGenerationSolver.potential_points_strategy"]}
{"id": "C40", "title": "Solver settings are validated as documented", "statement": "Assigning settings succeeds exactly when it is a dict with rotation absent/None/bool, max_time_in_seconds absent or a positive int, workers_num absent/None or a positive int; the attributes then take these values or the defaults True/60/1.", "quantifier": "all Python values", "why_tests_cant": "infinite domain", "anchors": ["hyperpack/heuristics.py:PointGenerationSolver._validate_settings", "hyperpack/heuristics.py:HyperPack._validate_settings"]}
{"id": "C41", "title": "A rejected settings assignment changes nothing", "statement": "If assigning settings raises SettingsError, the previous settings and solver attributes stay in force.", "quantifier": "all states and rejected values", "why_tests_cant": "the guarantee is about every finite history of API calls, not about one call sequence", "anchors": ["hyperpack/heuristics.py:PointGenerationSolver.settings", "hyperpack/heuristics.py:HyperPack._validate_settings"]}
{"id": "C42", "title": "Figure settings are validated as documented", "statement": "Figure settings are accepted exactly when they follow the documented rules (type, format, path, file_name regex, width/height), and require plotly within [5.14.0, 6.0.0) and, for images, kaleido within [0.2.1, 0.3.0).", "quantifier": "all figure settings, all installed versions, all file system answers", "why_tests_cant": "infinite domain", "anchors": ["hyperpack/mixins.py:SolutionFigureMixin._validate_figure_settings", "hyperpack/mixins.py:SolutionFigureMixin._check_plotly_kaleido_versions"]}
{"id": "C43", "title": "orient_items orients every item and loses nothing", "statement": "orient_items('wide'/'long') with rotation enabled makes w >= l (resp. w <= l) for every item, keeping ids, order and the pair of side lengths; with rotation disabled, None or another value nothing changes.", "quantifier": "all item sets and arguments", "why_tests_cant": "the input space (any number and size of items and bins, any order, any strategy) is infinite; a test samples finitely many instances", "anchors": ["hyperpack/mixins.py:ItemsManipulationMixin.orient_items"]}
{"id": "C44", "title": "sort_items sorts and loses nothing", "statement": "sort_items((criterion, reverse)) reorders the items by (criterion value, id), descending when reverse, keeping every id with its dimensions; an unknown criterion raises NotImplementedError and changes nothing.", "quantifier": "all item sets and arguments", "why_tests_cant": "the input space (any number and size of items and bins, any order, any strategy) is infinite; a test samples finitely many instances", "anchors": ["hyperpack/mixins.py:ItemsManipulationMixin.sort_items"]}
{"id": "C45", "title": "log_solution reports a partition of the items and never fails", "statement": "log_solution() lists as remaining exactly the items not stored in solution, reports stored/total as the percentage, and raises no exception in any state reachable after solving.", "quantifier": "all reachable states", "why_tests_cant": "the guarantee is about every finite history of API calls, not about one call sequence", "anchors": ["hyperpack/mixins.py:SolutionLoggingMixin.log_solution", "hyperpack/structures.py:Containers._get_height"]}
{"id": "C46", "title": "create_figure draws exactly the solution and never runs out of colours", "statement": "create_figure() draws for each container one rectangle per stored item with corners (Xo, Yo)-(Xo+w, Yo+l), each in its own colour, in a frame of the container's size on axes with at most 20 ticks, for any number of items. If a file cannot be written it raises FigureExportError, and the figures of the containers before it are out.", "quantifier": "all solutions", "why_tests_cant": "the input space (any number and size of items and bins, any order, any strategy) is infinite; a test samples finitely many instances", "anchors": ["hyperpack/mixins.py:SolutionFigureMixin.create_figure", "hyperpack/mixins.py:SolutionFigureMixin.colorgen", "hyperpack/constants.py:ITEMS_COLORS"]}
{"id": "C47", "title": "generate_problem_data yields valid problems", "statement": "For every choice of documented keyword parameters (positive averages) the generated containers/items are accepted by HyperPack.", "quantifier": "all parameters and random draws", "why_tests_cant": "random draws and parameters range over unbounded sets", "anchors": ["hyperpack/utils.py:generate_problem_data"]}
{"id": "C48", "title": "Potential points lie on free cells inside the container", "statement": "Every potential point generated after a placement lies inside the container; those of classes A, B, A'', B'', C and D are on a cell free at that moment.", "quantifier": "all reachable coordinate grids and placements", "why_tests_cant": "the input space (any number and size of items and bins, any order, any strategy) is infinite; a test samples finitely many instances", "anchors": ["hyperpack/mixins.py:PointGenerationMixin._generate_points"]}
{"id": "C49", "title": "Copying a solution preserves it", "statement": "The copies taken while searching map every container and item to the same entry as the solution copied.", "quantifier": "all solutions of the current problem", "why_tests_cant": "the input space (any number and size of items and bins, any order, any strategy) is infinite; a test samples finitely many instances", "anchors": ["hyperpack/mixins.py:DeepcopyMixin._deepcopy_solution", "hyperpack/mixins.py:DeepcopyMixin._copy_objective_val_per_container"]}
{"id": "C50", "title": "hypersearch leaves the problem's configuration as it was", "statement": "hypersearch() changes items only by the requested sorting/orientation, and leaves containers, settings and potential_points_strategy unchanged; best_strategy is the strategy that produced the returned solution.", "quantifier": "all problems and clocks", "why_tests_cant": "the guarantee is about every finite history of API calls, not about one call sequence", "anchors": ["hyperpack/heuristics.py:HyperPack.hypersearch", "hyperpack/heuristics.py:HyperPack._single_process_hypersearch"]}
{"id": "C51", "title": "The first item stored in a container sits at its origin", "statement": "After solve(), the first entry of a non-empty solution[cont] has Xo = Yo = 0.", "quantifier": "all valid problems, sequences, strategies", "why_tests_cant": "Holds for every problem only because the first potential point of every run is the origin; tests see a few problems.", "anchors": ["hyperpack/mixins.py:PointGenerationMixin._construct_solution"]}
{"id": "C52", "title": "Every stored item passed the fit test against the items stored before it", "statement": "For every entry of solution[cont], in the order of the dictionary after solve(), the item at its position is inside the container and shares no cell with the entries before it, except possibly strictly inside its own top row.", "quantifier": "all valid problems, all stored entries", "why_tests_cant": "It relates every entry to all earlier ones, for every problem.", "anchors": ["hyperpack/mixins.py:PointGenerationMixin._check_fitting", "hyperpack/mixins.py:PointGenerationMixin._construct_solution"]}
{"id": "C53", "title": "The local search skeleton never returns something worse, minimising or maximising", "statement": "For any class that implements the abstract methods of AbstractLocalSearch (base compare_node, OPTIMIZATION MAX or MIN), the solution local_search() ends with is the initial one or that of an evaluated sequence whose value is strictly better than the initial value, solution and value belong to the same evaluation, and the final sequence is a permutation of the initial one.", "quantifier": "all implementations of the abstract methods, clocks and sequences", "why_tests_cant": "The quantifier ranges over every subclass and every history of evaluations.", "anchors": ["hyperpack/abstract.py:AbstractLocalSearch.local_search", "hyperpack/abstract.py:AbstractLocalSearch.compare_node"]}
{"id": "C54", "title": "After a strip hypersearch the solution fits the final container_height", "statement": "In strip mode, when hypersearch() returns, every entry [Xo, Yo, w, l] of solution satisfies Yo + l <= container_height.", "quantifier": "all valid strip problems, minimum heights, strategies, clocks and sorting/orientation parameters", "why_tests_cant": "the height is lowered by whichever of up to 720 local searches accepted a node, the solution comes from the best one; whether they agree depends on the whole run", "anchors": ["hyperpack/heuristics.py:_single_process_hypersearch", "hyperpack/mixins.py:extra_node_operations", "hyperpack/structures.py:Containers._set_height"]}
{"id": "C55", "title": "The objective value weighs the last container by 0.7", "statement": "After solve(), calculate_obj_value() is the objective value of the only container, or, with several containers, the sum of the objective values of all containers but the last one plus 0.7 times that of the last one (exact arithmetic).", "quantifier": "all valid problems and sequences", "why_tests_cant": "a formula over an unbounded number of containers with arbitrary values", "anchors": ["hyperpack/mixins.py:LocalSearchMixin.calculate_obj_value"]}
{"id": "C56", "title": "The 'show' setting has precedence over create_figure's parameter", "statement": "When settings['figure']['show'] is given, it alone decides whether create_figure() shows the figures; the show parameter counts only without it (docs, figures).", "quantifier": "all problems, settings and solving histories; both values of the parameter", "why_tests_cant": "all combinations of settings and parameter after arbitrary histories", "anchors": ["hyperpack/mixins.py:create_figure", "docs/source/figures.rst"]}
{"id": "C57", "title": "Settings never touch the problem, and the solver attributes are always valid", "statement": "Assigning or re-validating settings, accepted or rejected, leaves containers, items, strategy, heights and solution unchanged; after every history _rotation is a bool, _max_time_in_seconds a positive int and _workers_num positive.", "quantifier": "all values assigned as settings, all histories of operations", "why_tests_cant": "histories and the values assigned are unbounded", "anchors": ["hyperpack/heuristics.py:BasePackingProblem.settings", "hyperpack/heuristics.py:BasePackingProblem.validate_settings"]}
{"id": "C58", "title": "One-key changes are atomic", "statement": "When an operation on one key of containers/items or of one entry's dimensions (item assignment, del, pop, popitem, setdefault) raises, or deleting items/containers does, nothing at all is changed.", "quantifier": "all states, keys, values and operations of this kind", "why_tests_cant": "every state and every Python value", "anchors": ["hyperpack/structures.py:Dimensions.__setitem__", "hyperpack/structures.py:AbstractStructureSet.__setitem__", "hyperpack/structures.py:AbstractStructure.__delitem__"]}
{"id": "C59", "title": "The figures of different containers go to different files", "statement": "The files create_figure() exports for two containers with different ids (free of path separators) have different names in the same directory.", "quantifier": "all container ids, file names, formats and problems", "why_tests_cant": "ids and names are arbitrary strings", "anchors": ["hyperpack/mixins.py:create_figure"]}
{"id": "C60", "title": "generate_problem_data gives as many distinct entries as asked for, around the averages", "statement": "containers_num containers and items_num*containers_num items with distinct ids; container sides deviate from their averages by at most 10% (plus rounding).", "quantifier": "all positive parameters and all draws", "why_tests_cant": "the draws are random", "anchors": ["hyperpack/utils.py:generate_problem_data"]}
{"id": "C61", "title": "Searches use the settings the instance shows", "statement": "After the constructor or a settings assignment succeeds, rotation, time limit and number of workers used by solve(), local_search() and hypersearch() are those p.settings shows, in this process and in the workers, until other settings are accepted; in particular with rotation False every stored item has its own width and length, whatever search produced it.", "quantifier": "all histories of operations, all settings, any number of worker processes, all schedules", "why_tests_cant": "ranges over every history, settings value, item set and interleaving of the workers", "anchors": ["hyperpack/heuristics.py:hypersearch", "hyperpack/heuristics.py:validate_settings", "hyperpack/processes.py:HyperSearchProcess.__init__"]}
{"id": "C62", "title": "hypersearch with several processes fails only in documented ways", "statement": "On an instance the constructor accepted, whatever was done to it since, hypersearch() with workers_num other than 1 raises only NotImplementedError (unknown sorting criterion, nothing changed) or MultiProcessError (all workers failed), and on an error the previous solution is kept unless the items were sorted or turned.", "quantifier": "all histories of operations, all parameters, all schedules and failures of the workers", "why_tests_cant": "ranges over every history, settings value and failure pattern", "anchors": ["hyperpack/heuristics.py:hypersearch", "hyperpack/heuristics.py:_multi_process_hypersearch", "hyperpack/processes.py:HyperSearchProcess.__init__"]}
{"id": "C63", "title": "Items, containers and dimensions behave like dictionaries", "statement": "x[id]=v, del, pop, popitem, clear, setdefault and update on an Items or Containers object change exactly the addressed entries of that object: an old entry keeps its place, a new one comes last, popitem takes the first, the last entry is never removed (clear removes all others and raises), update assigns one pair after the other up to the first that raises; no other Items or Containers object changes. Nothing is removed from a Dimensions object, and a change of its values shows in exactly the entries that hold it. copy.copy gives a new object with the same Dimensions objects, copy() of a structure raises without effect, copy() of dimensions gives equal dimensions and discards the solution.", "quantifier": "all histories of operations without |=, all objects, all arguments", "why_tests_cant": "ranges over every history and argument, and over all aliasing between the objects", "anchors": ["hyperpack/structures.py:AbstractStructureSet.__setitem__", "hyperpack/structures.py:AbstractStructureSet.__delitem__", "hyperpack/structures.py:Dimensions.__setitem__", "hyperpack/structures.py:Dimensions.__delitem__"]}
{"id": "C64", "title": "Objective values in double precision", "statement": "The doubles the program reports are the exact utilizations up to rounding: for a bin within one unit of 2^-52 per stored item of the share of its area, for a strip the double nearest to the exact quotient, for calculate_obj_value() within a few units of the weighted sum. Rounding does not stop the filling of a bin before it is full, does not change any placement in a strip or in bins without overlaps, makes a lower strip never look worse, and does not make local_search() lose stored area with one bin of moderate size. (A full bin need not have value 1: ten tenths add up to 0.9999999999999999.)", "quantifier": "all valid problems, sequences, strategies and clocks, with sizes below 2^51 where stated", "why_tests_cant": "rounding errors accumulate differently for every input; tests compare a few values", "anchors": ["hyperpack/mixins.py:_construct_solution", "hyperpack/mixins.py:_generate_points", "hyperpack/mixins.py:calculate_obj_value", "hyperpack/mixins.py:local_search"]}
{"id": "C65", "title": "Potential points spawned by a placement", "statement": "Placing an item adds to the point queue of each class exactly the points that class stands for, in increasing order, and nothing is added when no item fits: A and A\" above the item's upper left corner, B and B\" right of its lower right corner (supported or not), C and D where a corner of a neighbour ends along its upper or right side, A' or E at the first wall met going left, B' or F on the first floor met going down (within a fifth of the container's side, or farther). Consequently the first item of a container is at (0, 0) and every other one at a point spawned by an earlier item of the same container, in a class of the strategy.", "quantifier": "all containers, items, sequences, strategies and iterations, in exact arithmetic and in doubles with sides below 2^51", "why_tests_cant": "the points depend on the whole arrangement of the items placed before; tests fix a few arrangements", "anchors": ["hyperpack/mixins.py:_generate_points", "hyperpack/mixins.py:_append_points", "hyperpack/mixins.py:_construct_solution", "docs/source/description.rst"]}
{"id": "C66", "title": "The result is the one the strategy and the items sequence determine", "statement": "The next point is the oldest one of the first class of the strategy that has any; solve() stores exactly what filling the containers one after the other by this rule gives: at each point the first item of the sequence that fits, unrotated if possible, until the items or the points run out or the bin's area is used up. This description mentions no grid and leaves no choice.", "quantifier": "all valid problems, sequences and strategies", "why_tests_cant": "equality of two computations on every input", "anchors": ["hyperpack/mixins.py:_get_current_point", "hyperpack/mixins.py:_construct_solution", "hyperpack/mixins.py:_solve", "docs/source/description.rst"]}
{"id": "C67", "title": "Printed items and containers show exactly what they hold", "statement": "Whatever was done to the instance, str(items) and str(containers) do not fail and list every entry, in order, with its id, its width and (but for a strip) its length in decimal digits. If no id contains a line break, the text determines the entries: two problems that print alike hold the same items and the same containers (of strips, the same width).", "quantifier": "all problems and all histories of API calls, including several-process searches", "why_tests_cant": "injectivity of a text representation, over all ids, sizes and histories", "anchors": ["hyperpack/structures.py:Items.__str__", "hyperpack/structures.py:Containers.__str__"]}
{"id": "C68", "title": "PointGenPack behaves as HyperPack on everything both offer", "statement": "A PointGenPack constructed with the same containers, items, width and settings accepts and rejects, returns and raises, and ends in the same containers, items, heights, strategy, rotation, solution, log and figures as a HyperPack on which the same operations are done; settings for the searches (max_time_in_seconds, workers_num) make no difference to it; the methods it lacks (orient_items, sort_items, local_search, hypersearch) raise AttributeError and change nothing.", "quantifier": "all constructor arguments and all finite histories of operations, raising or not", "why_tests_cant": "two classes compared over every history of operations and every settings value; a test compares finitely many", "anchors": ["hyperpack/heuristics.py:PointGenPack", "hyperpack/heuristics.py:PointGenerationSolver", "hyperpack/mixins.py:SolutionFigureMixin.validate_settings"]}
{"id": "C69", "title": "Solving works on copies: nothing the user holds is changed, and solutions share no objects", "statement": "solve, local_search and hypersearch (in one process, with a sorting), and sort_items change no object that existed before the call - items, containers, dimensions, solution and objective dictionaries obtained earlier keep their contents, also when the call raises; a new solution and its objective dictionary consist of objects created by that call, none standing in two places; a solution the user kept stays as it was whatever is called later. Turning the items (orient_items, hypersearch without a sorting) changes in place only the dimensions of the items of the instance.", "quantifier": "all heaps of objects, instances, sequences, clocks, limits, strategies, and all finite histories of these calls, raising or not", "why_tests_cant": "aliasing between any two objects at any point of any history; a test compares a few objects after a few calls", "anchors": ["hyperpack/structures.py:AbstractStructureSet.deepcopy", "hyperpack/mixins.py:PointGenerationMixin._construct_solution", "hyperpack/mixins.py:PointGenerationMixin._solve", "hyperpack/mixins.py:DeepcopyMixin", "hyperpack/mixins.py:LocalSearchMixin", "hyperpack/mixins.py:ItemsManipulationMixin", "hyperpack/abstract.py:AbstractLocalSearch.local_search", "hyperpack/heuristics.py:HyperPack._single_process_hypersearch"]}
{"id": "C70", "title": "Items, containers and dimensions read like dictionaries; what their methods return", "statement": "x[id], x.get, in, len, list, keys, values and items of an Items, Containers or Dimensions object give the entries the object shows, in their order, and change nothing; a missing id is a KeyError (or the default of get), an unhashable one a TypeError. deepcopy() returns plain dictionaries with the same entries, which can be assigned back and give the same items or containers; deepcopy(ids) exactly the entries asked for, in that order, or the error of the first id that is not there. x == y holds exactly if y is a mapping with the same ids and equal numbers, in any order. pop and popitem return the entry taken away, which still shows its dimensions; setdefault returns the entry, or the argument itself when it makes a new one. x | y succeeds only if y replaces every entry of x (with another object of the library never).", "quantifier": "all histories of operations, all values as ids, defaults, arguments and right-hand sides", "why_tests_cant": "all ids, values and histories; the answers must agree with the state after every history", "anchors": ["hyperpack/structures.py:Dimensions", "hyperpack/structures.py:AbstractStructureSet", "hyperpack/structures.py:AbstractStructureSet.deepcopy"]}
{"id": "C71", "title": "What is written to the hyperpack logger", "statement": "A call writes to the logger \"hyperpack\" first its warnings, then, if it raises an exception of the library, the message of that exception with level ERROR, and nothing else of these levels; built-in exceptions are not logged, and different errors have different messages. The message is written once, except that a rejected workers_num that is a number is reported twice. The warnings come exactly when due, each once: too many workers for the cpu threads and (on Windows, in the main process) entry point protection when settings are validated and workers_num was accepted, a disabled rotation or an unknown orientation when items are oriented (also by hypersearch), no solution in log_solution and create_figure, nothing to show or export in create_figure. The constructor looks at the settings only after containers and items were accepted. hypersearch with several processes logs one error if it returns although some workers failed, the message of MultiProcessError if all failed, and its workers' constructors log nothing. Logging changes no effect or result.", "quantifier": "all operations, states, arguments and settings, computers (cpu count, operating system), histories, schedules and failures of the worker processes", "why_tests_cant": "all values of all settings in all states, and all schedules of the processes; that nothing else is logged is a universal claim", "anchors": ["hyperpack/exceptions.py:ErrorLoggingException", "hyperpack/heuristics.py:HyperPack._validate_settings", "hyperpack/heuristics.py:HyperPack.hypersearch", "hyperpack/mixins.py:ItemsManipulationMixin.orient_items", "hyperpack/mixins.py:SolutionLoggingMixin.log_solution", "hyperpack/mixins.py:SolutionFigureMixin.create_figure", "docs/source/logging.rst"]}
{"id": "C72", "title": "The solution and its values always belong together", "statement": "At every moment either the solution and the objective values are both empty, or both come from one and the same construction of the current items in the current containers: there is exactly one value per container, a bin's value is the area of the items the solution shows in it over the area of the container as it is now (a strip's is the value of C09), calculate_obj_value() returns the value of the only container or the sum of the values with the last one counting 7/10, the items shown never have more area than the items there are (with equality exactly when all are stored), and a single bin at least as large as all items together never shows more than 100%.", "quantifier": "all problems, settings and histories of operations on the instance and its items, containers and dimensions, including hypersearch with any number of processes, any schedule, failed and killed workers", "why_tests_cant": "every place that stores, discards, copies or passes on a solution or values must do it for both, in every history; a test sees one history", "anchors": ["hyperpack/heuristics.py:HyperPack.solve", "hyperpack/heuristics.py:HyperPack.local_search", "hyperpack/heuristics.py:HyperPack.hypersearch", "hyperpack/heuristics.py:HyperPack.calculate_obj_value", "hyperpack/structures.py:AbstractStructureProperties"]}
{"id": "C73", "title": "Searching leaves the problem alone; the benchmark problems", "statement": "Solving, searching (with any number of processes), sorting, orienting and changing settings, strategy or heights never change the containers nor, up to order and orientation, the items. Each of the 21 problems of the benchmark dataset is accepted by the constructor; however long one of them is searched its value is at most 1, it is 1 exactly when every item is stored, and then, if no two items overlap, the items tile the container.", "quantifier": "all problems and histories of those operations; all 21 benchmark problems with all settings", "why_tests_cant": "all histories and schedules; the benchmark results are published for single runs only", "anchors": ["hyperpack/benchmarks/datasets/hopper_and_turton_2000", "hyperpack/heuristics.py:HyperPack.solve", "hyperpack/heuristics.py:HyperPack.hypersearch", "hyperpack/mixins.py:ItemsManipulationMixin"]}
{"id": "C74", "title": "A search depends on the problem shown, not on what was done before", "statement": "Two instances that show the same containers, items, rotation setting, strategy and (for strips) heights give the same results whatever was done with each before: constructing with the same sequence raises the same exception or stores the same solution and values; local_search() and one-process hypersearch() with the same arguments store the same solution, values, best strategy and leave the same items, strategy and heights, provided both calls read the same times with the same limit or neither meets its limit. In particular the solution, values and records left by earlier calls have no influence.", "quantifier": "all pairs of instances and histories (changing only the objects in use, not by |=, see C38), all arguments, all clocks", "why_tests_cant": "ranges over pairs of histories; state left behind by an earlier call shows up only after the particular history that leaves it", "anchors": ["hyperpack/heuristics.py:HyperPack.local_search", "hyperpack/heuristics.py:HyperPack.hypersearch", "hyperpack/heuristics.py:PointGenerationSolver.solve", "hyperpack/abstract.py:AbstractLocalSearch"]}
{"id": "C75", "title": "The value hypersearch reaches does not depend on the number of processes", "statement": "For the same problem and arguments, hypersearch() with one process and with any number of processes, under every schedule, reaches the same objective value (which solution attains it may differ), and the value does not depend on the order in which the strategies are tried, in particular not on the iteration order of the set of points (hash seed) with exhaustive=True; provided no process fails, time suffices, and a one-process search starts with the strategy the instance was created with.", "quantifier": "all problems with containers, histories, arguments, numbers of processes, schedules, clocks within the limit, set orders, sizes", "why_tests_cant": "pairs of runs over all schedules and set orders; a test fixes one schedule and one hash seed", "anchors": ["hyperpack/heuristics.py:HyperPack.hypersearch", "hyperpack/heuristics.py:HyperPack._multi_process_hypersearch", "hyperpack/heuristics.py:HyperPack._single_process_hypersearch", "hyperpack/processes.py:HyperSearchProcess", "hyperpack/heuristics.py:HyperPack.get_strategies"]}
{"id": "C76", "title": "A longer time limit never makes the result worse", "statement": "Two runs of local_search() (or of hypersearch() in one process) on the same problem, with the same parameters and the same clock readings, the second with a larger max_time_in_seconds: the value of the second solution is at least that of the first. If no reading of the first local_search reached its limit, the two runs give the same solution.", "quantifier": "all valid problems (bins and strips), time limits, clocks, strategies, sorting/orientation parameters, arithmetics (exact and doubles)", "why_tests_cant": "the runs diverge at whichever of thousands of neighbours the clock strikes; that everything after it cannot undo what was found must hold for every clock", "anchors": ["hyperpack/abstract.py:local_search", "hyperpack/heuristics.py:_single_process_hypersearch"]}
{"id": "C77", "title": "The result depends on dimensions and order, not on ids", "statement": "Two problems with the same containers and items in the same order, with the same settings, but with other ids: solve(), local_search() and hypersearch() in one process put the i-th item in the c-th container at the same place in both (or in neither), with the same values, heights and best strategy. With a sorting criterion this needs that items with equal keys have their ids in the same alphabetical order.", "quantifier": "all valid problems (bins and strips), all pairs of id assignments, sequences, clocks, limits, strategies, orientation and sorting parameters, arithmetics (exact and doubles)", "why_tests_cant": "an id is compared, hashed and copied in every step of every search; that none of these lets a name influence the packing must hold for every pair of id assignments", "anchors": ["hyperpack/mixins.py:_solve", "hyperpack/mixins.py:local_search", "hyperpack/mixins.py:sort_items", "hyperpack/heuristics.py:hypersearch"]}
{"id": "C78", "title": "An item that fits in no container does not disturb the others", "statement": "If every permitted orientation of an item is too wide or too high for every container, solve() gives exactly the solution and the values it would give without that item (or with a sequence that leaves it out). In a strip without minimum height, one such item makes local_search return the initial construction at the original height.", "quantifier": "all valid problems, all such items, sequences, strategies, arithmetics; for local_search all limits and clocks", "why_tests_cant": "the item is tried and refused at every potential point of every container; that none of these attempts leaves a trace, and that the loop, which goes on while items are left, stores nothing else, must hold for all problems", "anchors": ["hyperpack/mixins.py:_construct_solution", "hyperpack/mixins.py:_solve", "hyperpack/mixins.py:compare_node"]}
{"id": "C79", "title": "Later containers do not disturb earlier ones", "statement": "If containers are added after the existing ones, solve() packs the existing ones exactly as before, with the same values; the new ones only receive items that were left over. So another container never costs a stored item.", "quantifier": "all valid problems, all lists of added containers, sequences, strategies, arithmetics", "why_tests_cant": "must hold for every number and size of containers and every state in which the earlier ones leave the remaining items", "anchors": ["hyperpack/mixins.py:_solve"]}
{"id": "C80", "title": "Several processes do what one process does with each part of the strategies; the first best result wins, whatever the schedule", "statement": "A worker of a multi-process hypersearch that does not fail delivers exactly the value, solution and log that a single-process hypersearch with its part of the strategies ends with on the problem of the workers. hypersearch returns the result of the first part with the best value among the parts whose worker did not fail. So which worker finishes when, in which order results are collected and how large they are plays no part.", "quantifier": "all valid problems, all strategy lists and positive worker numbers, all clocks, all interleavings of workers and parent, all exceptions and deaths of workers, all pipe capacities, arithmetics", "why_tests_cant": "the number of schedules of several processes is unbounded and a test sees one of them", "anchors": ["hyperpack/processes.py:HyperSearchProcess.run", "hyperpack/heuristics.py:_multi_process_hypersearch", "hyperpack/heuristics.py:_single_process_hypersearch"]}
{"id": "C81", "title": "More strategies never make the result worse; hypersearch is at least as good as local_search", "statement": "hypersearch with more strategies (exhaustive=True against the default) reaches at least the same value. hypersearch is at least as good as local_search() with any of its strategies on the same problem.", "quantifier": "all histories, problems, numbers of processes, schedules, strategy lists, orders of Python's set; searches that the time limit does not stop", "why_tests_cant": "compares two searches on every problem; the strategies differ in what they find in ways tests cannot enumerate", "anchors": ["hyperpack/heuristics.py:hypersearch", "hyperpack/heuristics.py:get_strategies", "hyperpack/heuristics.py:local_search", "hyperpack/constants.py:DEFAULT_POTENTIAL_POINTS_STRATEGY_POOL"]}
{"id": "C82", "title": "With height to spare, a strip's height changes nothing", "statement": "In a strip whose container_height is at least five times the sum of the items' longer sides, assigning another such height changes no solution and no utilization: solve(), local_search() and hypersearch() (one process) return the same results, and afterwards the heights are the same or untouched. One time that sum is not enough, although no item could reach higher.", "quantifier": "all histories of two strip instances with the same problem, strategies, sequences, heights (below 2^51 for doubles), clocks", "why_tests_cant": "the height is read in the fitting test, the point rules, the ratio that separates B' from F, and the scan for the top row; only an argument over all executions shows none of them can see it", "anchors": ["hyperpack/mixins.py:_construct_solution", "hyperpack/mixins.py:_generate_points", "hyperpack/mixins.py:_check_fitting", "hyperpack/mixins.py:container_height", "hyperpack/heuristics.py:local_search", "hyperpack/heuristics.py:hypersearch"]}
{"id": "C83", "title": "Items left over have no influence on the solution", "statement": "If solving leaves some items out of every container, then leaving any of those items out of the sequence given to the solver, or out of the problem, gives exactly the same solution and the same objective values. So the solution local_search() returns is what the solver makes of the stored items alone, in some order. More generally, at every moment of an instance's life at which something is stored, the solution and values it shows are what the solver makes of the stored items alone.", "quantifier": "every valid problem, every sequence (repeated ids included), every subset of the left-over items, every arithmetic; for local search every clock, limit and throttle. In a strip something else must remain to be stored. Every history without |= (which changes dimensions behind the solution, C72): creation, changes, searches with any numbers of processes.", "why_tests_cant": "it relates two runs on different problems, for every choice of the items dropped, and depends on every point of every container at which such an item was tried and refused", "anchors": ["hyperpack/mixins.py:_construct_solution", "hyperpack/mixins.py:_solve", "hyperpack/mixins.py:_check_fitting", "hyperpack/heuristics.py:local_search", "hyperpack/structures.py:deepcopy"]}
