# Formal model of hyperpack 1.3.0 in Rocq (Coq 8.16.1)

## 1. Approach

The Python code is re-expressed as total Gallina functions that follow the source branch by
branch. Python exceptions are values (`result A := Ok a | Err exn`), Python list/array indexing
(negative indices included), slices and slice assignment are modelled as such, `dict`s are
insertion ordered association lists, `while` loops are recursion on explicit fuel that returns the
distinguished error `OutOfFuel` when it is exhausted, and theorems exclude that case.

Layers (all in `rocq/theories`):

| file | contents |
|---|---|
| `Py.v` | Python primitives: results and exceptions, indexing, slices, ranges, string-keyed dicts |
| `Arith.v`, `FloatArith.v`, `FloatLaws.v` | the arithmetic used for objective values, as a record; exact rationals and IEEE binary64 (with CPython's correctly rounded `int / int`) are two instances |
| `Construct.v` | `mixins.py` PointGenerationMixin: `_check_fitting`, `_generate_points`, `_construct_solution`, `_solve` |
| `LocalSearch.v` | `abstract.py`, DeepcopyMixin, LocalSearchMixin, `Containers._get_height/_set_height` |
| `ItemsManip.v` | ItemsManipulationMixin: `orient_items`, `sort_items` |
| `Perms.v`, `HyperSearch.v` | `get_strategies`, hypersearch in one process |
| `MultiProcess.v` | hypersearch with several processes and `processes.py`, as a transition system |
| `Values.v` | Python values: truth, hashing, equality, dictionaries with arbitrary keys |
| `Settings.v` | validation of solver and figure settings |
| `Instance.v` | `structures.py` and the HyperPack object as a machine: a heap of Dimensions/Items/Containers objects, the instance attributes, 40 operations |
| `MultiHistory.v` | hypersearch with several processes as an operation of the machine: sorting, partition for every accepted `workers_num`, construction of the workers' instances from copies of the structures and settings |
| `Report.v` | `log_solution`, `create_figure` |
| `Text.v` | `__str__` of Items and Containers, the text of the log |
| `Utils.v` | `generate_problem_data` |
| `Spec.v`, `SpecSearch.v`, `SpecInstance.v`, `SpecSettings.v`, `SpecReport.v`, `SpecMultiHistory.v`, `SpecMapping.v`, `SpecFloats.v`, `SpecPoints.v`, `SpecFilling.v`, `SpecText.v`, `Runs.v` | small independent vocabularies the theorems are stated in |
| `Proofs*.v` | lemmas |
| `Properties*.v` | the property theorems with their witnesses, `Print Assumptions` beneath each |
| `Validation.v` | the repo's own test expectations replayed on the model (tests, not proofs) |

Floating point: every theorem about *placements* is proved for an arbitrary arithmetic record, so
it does not depend on rounding. Theorems about *comparisons* of values (C14-C30, C61, C62) assume
only order laws (`value_laws`, `orderly`), which are proved for exact rationals and for IEEE doubles
(`ProofsFloatOrder.v`). Theorems about the *numbers* themselves use exact rationals; C64 connects
the doubles the program computes with these exact values.

## 2. Plan per property

Status words: P = to be proved as stated; R = expected to be false of the code, to be refuted by a
witness, together with the strongest true variant.

| id | model | plan |
|---|---|---|
| C01 | `solve` | P: loop invariant "grid is W x L, all placed rectangles in bounds, all pending points in bounds" |
| C02 | `solve` | R: `_check_fitting` never scans the last row (`range(Yo, Yo+l-1)`); P: `PropertiesOverlap.v` says exactly how two overlapping items lie, and that none overlap when the widths different items can take differ by at most 1, in every history |
| C03 | `solve` | P: invariant "cell nonzero iff covered by a placed rectangle" + order of placement |
| C04 | `solve` | P: invariant on ids (Permutation / NoDup) |
| C05 | `solve` | P: invariant on stored records; rotation clause from the fit search |
| C06 | `solve` | P: fuel bound = number of potential points ever generated; in-range indexing |
| C07 | `solve` with rationals | P |
| C08 | `solve` with rationals | R through overlap; bound proved for overlap-free results |
| C09 | `solve` strip | R: `height_of_solution` is the index of the top row, not the height; exact formula proved |
| C10 | `solve` strip | R for heights 1 and 2, proved for all others |
| C11 | one loop step | P |
| C12 | `solve` | P: monotonicity of the grid |
| C13 | `Instance.v` solve op | P |
| C14-C19 | `LocalSearch.v`, clock as an arbitrary stream of readings | P |
| C20, C22 | `LocalSearch.v` strip | P |
| C21 | local/hyper search strip | R (initial construction is never checked), plus true part |
| C23 | `get_strategies` over an arbitrary set order | P |
| C24 | `single_process_hypersearch` | P |
| C25 | same | R (the optimum is `inf`) |
| C26 | `strategies_chunks` with the quotient in doubles | P by error analysis; R for `inf` and for numbers of workers so large or small that the quotient is 0 or infinite |
| C27, C28 | `multi_process` with interleaved workers | P, for every orderly arithmetic; in doubles the values are finite (`PropertiesFloatMulti.v`) |
| C29 | parent/children transition system with pipes | R (join before get; killed worker) + conditional P |
| C30 | same | R |
| C31-C38 | `Instance.v` state machine over histories | P, except atomicity (C34), stale handles (C38), `\|=` |
| C39 | strategy setter | P |
| C40, C41 | `Settings.v` | exact decision procedure proved; documented version R |
| C42 | `Settings.v` | exact decision procedure; documented version R (regex `$`, version compare) |
| C43, C44 | `ItemsManip.v` | P |
| C45, C46, C56, C59 | `Report.v` | partition P; "never fails" R |
| C47, C60 | `Utils.v` | R for some parameters, P for the defaults |
| C48 | `generate_points` | P |
| C49 | `deepcopy_solution` | P |
| C50 | hypersearch op | R for strategy, P for the rest |
| C51, C52 | `solve` | P: invariant on the order of placements |
| C53 | `AbstractLocalSearch.local_search` over arbitrary callbacks | P |
| C54 | `HyperSearch.v` strip | R with a minimum height; without one the solution fits the final height (`PropertiesFinalHeight.v`, loop invariant: the value kept is worth the current height), with one the initial height |
| C55 | `calculate_obj_value` with rationals | P |
| C57 | `Settings.v` on the machine | P: frame of validation, invariant over histories |
| C58 | `Instance.v`, one-key operations | P: case analysis in every state |
| C61 | `MultiHistory.v` | R for settings edited in place, P while settings are accepted |
| C62 | `MultiHistory.v` | R (inf, rejected settings), P with settings in force |
| C63 | `Instance.v`, inherited dictionary methods | P: a specification of each call on the entries (`SpecMapping.v`), proved deterministic, refined by the machine |
| C64 | `solve`, `local_search`, `calculate_obj_value` with doubles | P by error analysis (Flocq's proofs that the primitive floats round correctly), R for "a full bin has value 1"; lockstep simulation of the double and the exact construction; hypersearch through C24/C27 |
| C65 | point generation of `_construct_solution` (A .. F), stated over the rectangles only (SpecPoints.v) | P: the grid is shown to show, on each cell, the last item covering it (`coded_run`), then each scan is characterised |
| C66 | `get_current_point`, `solve` against a relation without grids (SpecFilling.v) | P by simulation of the loop by the relation and determinism of the relation; doubles through C64 |
| C67 | `Text.v` on the machine; grammar of the texts in `SpecText.v` | P: by induction on the entries; splitting at the first line break for uniqueness |
| C68 | `PointGen.v`: PointGenPack as its own transition system | P: simulation by HyperPack with the search settings removed; every other operation commutes with changing the settings |
| C69 | `Memory.v`: solver, searches, sorting and turning on a heap of Python objects passed by reference | P: the heap programs simulate the functional models; frame and freshness as invariants, induction over histories of calls |
| C70 | `Reading.v`: the reading half of the dictionary interface, deepcopy(ids), ==, return values, `x \| y` | P: each answer refines a specification on the entries (`SpecReading.v`), proved deterministic |
| C71 | `Logging.v`: every call again as a computation that also yields its WARNING and ERROR records; `exceptions.py` texts | P: erasing the records gives the old model back; the warnings are characterised by rules on the arguments (`SpecLogging.v`), the errors by the result |
| C72 | the machine of `Instance.v`; `a_construction` in `SpecInstance.v` (solution and values are what one call of `solve` yields) | P: invariant `iv_made` of the machine, kept by every operation and every multi-process call; refuted only through `\|=` |
| C73 | the machine, and the datasets (`Benchmarks.v`, generated from their text) | P: every such operation keeps the containers and rearranges the items; the 21 data sets are checked by computation, what follows from them for all histories is proved from C72 |
| C74 | the machine with two histories | P: two runs on instances that show the same are compared step by step (`ProofsAgain.v`): construction, evaluation, node selection and every test of the clock agree |
| C75 | the machine, one process and several | P (bins); R (strips): both kinds of run return the best of the initial construction and of one uninterrupted local search per strategy (`ProofsProcesses.v`, from C24, C25, C27 and the comparison of runs of C74); for strips a witness computes two different values |
| C76 | `LocalSearch.v`, `HyperSearch.v`, one clock and two limits | P: simulation of the two runs (`ProofsLonger.v`), same states until the shorter one is late, values only improve afterwards; the same for several processes through C80 (`PropertiesWorkers.v`); R for hypersearch at a reading exactly on the limit |
| C77 | `Construct.v` to `HyperSearch.v`, two problems differing in ids | P: every operation commutes with an injective renaming (`ProofsRename.v`), and any two id assignments are related by one; the values of searches with any numbers of processes agree because each is the best over the same strategies (`PropertiesRenameMore.v`); R for sorting with equal keys |
| C78 | `Construct.v`, `LocalSearch.v`, problems with and without an item | P: simulation of the two constructions (`ProofsOversize.v`): same grid, points and solution until only the item is left; then nothing is stored any more. Strips: from C15, C20, C22 |
| C79 | `Construct.v`, problems with and without the last containers | P: the loop over the containers splits (`ProofsOversize.v`) |
| C80 | `MultiProcess.v` against `HyperSearch.v` | P: backward invariant: the whole single-process loop equals the log so far followed by what the worker still has to do (`ProofsWorkers.v`); the parent takes the first maximum of the array |
| C81 | `HyperSearch.v`, `MultiProcess.v`, `LocalSearch.v`, problems with containers | P: both are maxima of the same numbers (`ProofsProcesses.v`); R for local_search with the strategy the instance is created with, and with default sorting |
| C82 | `Construct.v`, `LocalSearch.v`, `HyperSearch.v`, strips | P: simulation: appending empty rows commutes with every step of the construction while the used rows plus what the remaining items can reach stay below (`ProofsTall.v`); lifted to searches (`ProofsTallSearch.v`). N: the factor five is needed (witness) |
| C83 | `Construct.v`, `LocalSearch.v`, two runs | P: simulation: a run and the run without an item that is still left at the end choose the same item at every point (`ProofsLeftover.v`); one item at a time, then any subset (`PropertiesLeftover.v`); every history through `iv_made` (`PropertiesLeftoverHistory.v`) |

## 3. How histories are modelled

`Instance.v` keeps every Dimensions/Items/Containers object ever created in a heap; a caller may
use any of them (also one no longer part of the problem) by its handle. `history env containers
items settings width l s` says that the constructor succeeded and the operations of `l`, raising
or not, lead to `s`. Operations that raise keep the effects they already had. `without_ior l`
excludes only `|=` on these objects, the one inherited mutator that bypasses validation; theorems
that need it have the suffix `_partial` and a refutation beside them. `ProofsRefine.v` shows that
the solving operations of the machine compute the functions of `LocalSearch.v`, `HyperSearch.v`
and `ItemsManip.v` on what the instance shows, so C01-C30 hold of the machine too.

`Memory.v` models the same solving code once more with object identity: dictionaries, lists and
Dimensions objects in a heap, passed by reference and changed in place. `C69_*` show that it computes
what the models by value compute (so working with values there loses nothing), and what is shared.

`MultiHistory.v` adds hypersearch with several processes. `mhistory` is `history` with these calls
allowed anywhere; the workers of a call may raise or be killed at any moment. The theorems named
`*_processes*` extend C32-C41 and C50 to such histories, and `C27_calls_are_runs` shows that a call
on the machine is a run of the transition system of `MultiProcess.v`, so C26-C30 apply to it.

## 4. Trusted base

* Coq 8.16.1's kernel (with its `vm_compute`, used for concrete witnesses).
* `Print Assumptions` of every theorem in `Properties*.v` prints "Closed under the global context",
  except those on doubles (`C14_doubles`, `C44_doubles`, `C27_values_finite`,
  `C27_all_strategies_searched_doubles`, `C26_partition`, `C26_outcome`, `C26_succeeds`,
  `C26_whole_workers`, `C28_call_errors`, `C45_text*`, `C46_draws_partial`, `C46_edited_settings`, `C46_too_many_items`, `C46_write_fails`, `C56_shown_if_either_partial`, `C47_*`, `C60_any_size` (from `C26_partition` on only the axioms of the reals), `C64_*`, `C65_points_spawned`,
  `C65_where_items_sit`, `C66_solve_is_the_heuristic*`, `C47_huge_refuted`, `C75_value_independent_doubles_partial`, `C76_local_search_doubles`, `C80_bins_doubles`, `C81_more_strategies_doubles`, `C81_local_search_doubles_partial`, `C82_*_doubles`). These use, all from the standard
  library: the primitive floats and 63-bit integers (`PrimFloat.*`, `PrimInt63.*`); the axioms
  `FloatAxioms.eqb_spec`, `ltb_spec`, `leb_spec`, `add_spec`, `mul_spec`, `Prim2SF_valid`, `Prim2SF_SF2Prim` and
  `SF2Prim_Prim2SF`; for the real numbers in their proofs `ClassicalDedekindReals.sig_not_dec`,
  `ClassicalDedekindReals.sig_forall_dec`, `FunctionalExtensionality.functional_extensionality_dep`
  and `Classical_Prop.classic`. Flocq is used for lemmas and has no axioms. `tools/assumptions.py` prints the list per theorem.
  (coqchk also names the other axioms of the library files that are loaded, such as those of
  `Uint63` and `Rdefinitions`; no theorem depends on them.) No axiom of our own, no
  functor, no module type.
* The reading of the Python source recorded in the comments of the model, and CPython's semantics
  of the primitives in `Py.v` and `Values.v` (UserDict and MutableMapping as in CPython 3.9-3.11).

Modelled: all of `structures.py`; all of `heuristics.py`; all of `mixins.py` except debug logging
and the calls into plotly; `abstract.py` except debug logging; `processes.py`;
`utils.py`; `exceptions.py` with its texts; the strategy pool and the
colours of `constants.py` (`Colours.v`); the data of `benchmarks/datasets` (`Benchmarks.v`, by `tools/gen_benchmarks.py`).

Simplifications, each repeated where it is made:

* Placement theorems hold for every arithmetic of objective values, so rounding cannot break them.
  Theorems comparing values hold for exact rationals and for IEEE doubles; `C07`-`C10`, `C22` and
  `C55` are about exact rationals, and `C64` relates the doubles to these, with `sum` adding from left to right as CPython before 3.12.
* The comparison `abs(d) / W <= 0.2` is `ratio_le_fifth` of the arithmetic record; the concrete
  instances compute it exactly or in doubles.
* Clocks are arbitrary streams of integer readings (no monotonicity).
* Sets have an arbitrary iteration order.
* `array("I")` and Python integers are unbounded, memory is unlimited.
* Multiprocessing: processes start; the shared array is read slot by slot; a queue holds what its
  pipe can take (`su_capacity`); a killed process leaves nothing in its pipe; `_workers_num` is any
  accepted value (positive integers, `True`, positive floats, `inf`), and `len(strategies) /
  workers` is the correctly rounded double (`ProofsPartition.v`); `deepcopy` of the settings succeeds, and the environment does not change
  while the workers' instances are made.
* The objects given by a caller are those of `Values.v`: no subclasses that override methods, no
  objects with side effects in `__eq__`, `__hash__` or `__iter__`. A caller changing the settings
  dictionary in place is modelled (`OpEditSettings`); a caller writing private attributes, the
  `data` of a structure or the entries of `solution` is not.
* Figures are modelled as title, axes (range, ticks), frame, rectangles with label and colour, and
  traces; the constant arguments given to plotly (fonts, opacity, annotations) and rendering are not;
  whether plotly can write a file is an arbitrary predicate.
* Texts: characters are bytes; those outside ASCII are kept as they are (CPython's `repr` escapes some);
  a minimum height `True` is shown as 1.
* `generate_problem_data`: integer parameters; `round(x * 0.1)` and `round(x * 0.6)` are computed in
  doubles (`ProofsUtils.v` shows them exact up to 2^48).

## 5. Findings

Properties the code violates, each with a proved counterexample (`*_refuted`) and the strongest
variant we could prove: C02/C08 (items can overlap on their top row, utilization above 1), C09/C10
(strip height off by one), C21 (items lost in strip mode), C25 (no early stop at 100%), C29 (multi
process search can block for ever), C30, C54 (heights), C32-C38 (`|=`, stale objects, partly
applied changes), C40-C42 (settings), C45 (ZeroDivisionError), C46 (more than 1000 items), C47
(invalid generated items), C50 (strategy left behind), C56 (`show`), C61 (workers use settings
edited in place), C26/C28 (`workers_num: inf`, other extreme numbers and rejected settings make hypersearch raise after
the solution was discarded), C64 (a full bin can have a double below 1), C72
(values of dimensions that `|=` has changed since). C71: the error about
a numeric `workers_num` is logged twice, the documented warning about Windows comes on Windows only. C77: with sorting, equal keys are ordered by id, so ids influence the result. C78: one item too big for a strip without minimum height disables local_search. C81: the default strategy is in none of the lists hypersearch searches, and items are sorted, so hypersearch() can be worse than local_search() (7/10 against 9/10 on four items). C82: the class of a point (B' or F) depends on the height of the strip, so a height nothing can reach still changes solutions until it is five times what the items can reach. C76: `>=` in local_search against `>` in hypersearch. C75: in a strip the value depends
on the number of processes; and a one-process hypersearch leaves the last strategy tried in force, from which the next one
starts (the default strategy is not among the 720 of the exhaustive list).
