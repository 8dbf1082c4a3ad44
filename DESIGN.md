# Design: a machine-checked model of Ocelot

Subject: OcelotProject/Ocelot (python), read as text in `/repo`. The code is not run.
Tool: Rocq/Coq 8.16.1. Model and proofs are in `rocq/theories`, logical root `Verif`.

## 1. Method

* **Shallow, branch-by-branch model.** Each Python function becomes a Gallina
  function with the same branches in the same order. Each definition has a
  comment with the file and lines it models, and what was simplified.
* **Exceptions are values.** A function that can raise returns `result A`
  (`Ok a` or `Err e`). Lists are processed left to right and stop at the first
  error. Generators consumed by `any`/`all`/`list` are modelled with the same
  short-circuit order.
* **Dictionaries are records**, an optional key is an `option` field. Reading
  a missing key gives `Err KeyError`.
* **In-place mutation** becomes a returned new value. The passes modelled never
  share a mutable sub-object between two datasets (allocation deep-copies);
  where one object is reachable by two names (an exchange found by reference and
  changed) the model updates it by position.
* **Numbers** are canonical rationals (`Qc`). Python uses binary64, so rounding
  is idealised away, except in C99, which follows the rounding of the amounts
  through normalisation, allocation and market shares (`Float`; the exponent is
  unbounded there). An example checks that rounding against Coq's `SpecFloat`.
* **What is not computable here is an argument**: `ln`, `exp`, `md5`, the formula
  evaluator, set iteration order, clocks. Theorems quantify over them.
* **Logging/printing** is not modelled, except for the report property and the rows of tables (C86-C95) and the
  lines of the detailed log (C104).

Layout: `Base` (result monad, Qc automation, lists), `Types` (records), model
files, `Spec` files (specifications independent of model helpers), proof files
`*_proofs`, and `Props_*` files, which hold only the property theorems, each
closed by `exact`, with `Print Assumptions` and a concrete `Example`.

## 2. Trusted base

* Coq's kernel (rechecked by `coqchk`) and `vm_compute`.
* `Print Assumptions` of each property theorem (see section 5).
* The reading of the Python source and library semantics (dict order, stable
  sort, slices, truthiness, `max` returns first maximum, pandas column
  arithmetic, numpy comparisons, `functools.lru_cache` in one thread).

## 3. Plan per property

| id | model | proof |
|----|-------|-------|
| C01 | `scale_exchange` and the six `rescale` methods | case analysis, ring |
| C02 | same; well-formedness predicate per distribution | order reasoning on Q |
| C03 | the five `repair` methods, `iterate_all_uncertainties` | case analysis; non-idempotence is refuted by witness, and when a second repair changes nothing is characterised exactly (Repair2_proofs) |
| C04 | `adjust_pedigree_matrix_time` over integer years | lia |
| C05 | `normalize_reference_production_amount` | list induction |
| C06 | `choose_reference_product_exchange` with value comparison | list induction; duplicates refuted |
| C07 | `activity_hash` for an injective hash | refuted: concatenation without separators; when codes agree is characterised exactly (Identity_proofs), and at most one text of another length is always seen |
| C08 | `add_unique_codes` | list induction |
| C09-C11 | `economic_allocation`, data frame as list of rows | sum lemmas |
| C12-C13 | `waste_treatment_allocation`, `recycling_allocation` | structural |
| C14-C16 | decision tree, filters, wrapper chain | case analysis, invariant over the chain |
| C17-C18 | `combined_production*` with abstract evaluator | structural; merge refuted if unweighted |
| C19-C23 | cutoff cleanup, wastes, markets | list induction; strings |
| C24-C28 | activity link passes over a database | fold invariants, permutation |
| C29-C30 | topology as map from name to finite set of faces | set theory |
| C31-C41 | location passes, parametrised by topology | fold invariants |
| C42-C44 | consequential passes | list lemmas |
| C45-C50 | string rewriting on ascii lists, AST printer | induction on AST |
| C51-C53, C55-C58 | infrastructure; every text as a save strategy and as a file name | induction; the texts of integers and of names as inductive relations |
| C54 | file system state machine with clock | invariant over histories |
| C59-C62 | validation, link fix, clearing of parameters, frame of linking | list induction, frame relation composed over passes |
| C63-C66 | the configurations as compositions of the modelled passes | relations `from` (an exchange stems from one of the input) and `ending` (after linking) composed over all passes |
| C67-C69 | extraction from the tree of a file to a dictionary, schema, directory | both sides of an equivalence: what the tree says by paths, what is extracted, accepted and read as a record |
| C70, C71 | passes by lists of names, splitting for the consequential model | the lists are stated again in the specification; filter and map lemmas |
| C72 | references by identifier | formulas as sequences of pieces; searching and replacing in texts act on pieces; the pass keeps "variables only added, formulas done or untouched" |
| C73 | signs, conditionals and powers | a formula as a sequence of signs; texts around power clauses have no place where the search could begin or the exponent could end; each round of the loop takes away semicolons |
| C74 | known problems | replacing a text is finding its first occurrence and going on behind it; texts that do not overlap with their replacement are gone afterwards |
| C75 | all corrections of parameters together | composition of the specifications of the eight passes, object by object |
| C76 | the configurations as run by the system model | each configuration as a list of tasks, folded by the runner; refinement to the composed functions of Pipeline.v |
| C77 | two runs that iterate over sets in different orders | relational proof: every step from the codes on keeps datasets equal up to the order of exchanges and suppliers, inputs still to be linked being even in the same order |
| C78 | balance of every activity that is not a market from allocation to the result | demand of every product followed through all steps of linking (for the links of consumers: the loop restricted to the inputs of one product), then renaming, turning and normalising |
| C79 | what markets and market groups of the result take from their suppliers | names and codes of suppliers as an invariant of linking up to the mix; inputs with a code stay where they are afterwards; amounts by name through normalising and sign adjustment |
| C80 | what is handed over for sampling | `to_stats_arrays` as a function of the description; centred on the amount after repair; induction over rescalings |
| C81 | collections as mutable sequences | each method against a decomposition of the list; the methods inherited from `MutableSequence` by induction |
| C82 | intersections of places, order by any size proxy | faces in common; sorting with a total order on weights and names |
| C83 | names of products of the result, in terms of the input | where names come from, step by step up to allocation; markets pass allocation unchanged; names of suppliers (C79) through linking; the marker is put on and taken off once. Gives C78 and C79 hypotheses on the input alone |
| C84 | conservation from the input to the result of the cut-off model | steps before allocation keep what counts (core of exchanges step by step); each allocation method shares out every weighted total of exchanges (one lemma per method for all weights); linking by C78; datasets with one id found again by the order-preserving selection of C62/C78 |
| C85 | conservation from the input to the result of the consequential model | steps before linking keep the totals of exchanges for every weight (one lemma per step; C43 for constrained markets); linking and normalising as in C78; ids are unique because the run checks them |
| C86 | rows of the tables of the report as functions of the data a transformation gets (`Tables`) | the rows are compared with what is different in the result (`altered`), exchange by exchange |
| C87 | the same for what is deleted or created | partition lemmas; a permutation of the listing of the input |
| C88 | counts per allocation method, market volumes | induction; every dataset is counted once |
| C89 | widths of rows against `__table__` | case analysis per transformation |
| C90 | rows of `ensure_mandatory_properties` | per exchange, flattened |
| C91 | `recalculate_all_parameterized_datasets`, with what is left behind when an exception is raised half-way (`outcome`) | the statements in place agree with `recalculate`; invariant: new values first, old values after |
| C92 | `log_conflicting_technology_levels` and the collection around it | groups are the filtered data |
| C93 | `recycling_2_allocation`, `missing_formulas` | as C13 |
| C94 | rows of the tables of changes to formulas (`FormulaTables`) | rows are replayed on the old formula; for references, the pieces of C72 |
| C95 | rows of the tables of linking and of combined production (`LinkTables`) | the update of disjoint groups adds the rows of the updated; for consumers, the loop of C35 with rows beside it |
| C96 | exact repair (`Uncertainty`) and both pedigree tables (`Pedigree`) | case analysis against a relation that lists the outcomes; place by place for datasets |
| C97 | extraction (C67) followed by repair and ageing | no exchange read has a matrix of its own; C96 without one |
| C98 | the operations of a run on its directory, a list that any end cuts off (`Outputs`) | opening and filling a file are a bracket; what is whole was saved; lines come after the files of their step; directories of a history are independent |
| C99 | the numeric kernels with every operation rounded (`Float`), for any rounding that is nearest with ties to even; one such rounding is constructed | numbers of 53 bits lie on a grid; roundings are counted as factors between (1-u)^k and its inverse; sums over trees of additions |
| C100 | keys that are read, in order, with whether they are there; no new code | every result of the form "read, then go on" reports the first missing key; lists of reads are concatenated along loops |
| C101 | docopt as a reader of words and options and a matcher of usage lines (`Cli`) | spelling as an inductive relation, both directions; the usage lines exclude each other |
| C102 | a project as a map of databases with the list of the caller (`Import`) | case analysis, chain of strategies as a relation |
| C103 | a directory as a list of names with a document or something else | induction over the directory |
| C104 | lines as records of id, file, code, function and formatted values (`Detailed`) | log and result are related step by step; sums of what lines say |
| C105 | heap of objects with addresses, programs as state and exception monad (`Heap`) | each program is related to the function on values: same outcome, footprint of changed objects, results without sharing; composed through the collection of allocation functions |
| C106 | `link_consumers_to_markets` on the heap of C105 (`HeapLinks`) | what the loop reads of a dataset (type, name, location, reference product, code, reference exchanges) is kept by every step; then as C105 |
| C107 | `add_hard_linked_production_volumes`, `actualize_activity_links`, `link_consumers_to_recycled_content_activities` on the heap (`HeapHard`) | what is read (ids, products, codes, types, amounts, volumes but not the subtracted one) is kept; loops over exchanges are shown equal to the passes of C105 |
| C109 | `add_recycled_content_suppliers_to_markets`, `add_suppliers_to_markets`, `update_market_production_volumes` (markets), `allocate_all_market_suppliers` on the heap (`HeapMarkets`) | the current datasets differ from the given ones in suppliers only, which nobody reads of a supplier; datasets of later groups are as given |
| C110 | `update_market_production_volumes` for market groups on the heap (`HeapGroups`) | each step changes datasets by themselves, so the order of the other groups only decides which exception comes first; sorting commutes with addresses |
| C111 | `link_market_group_suppliers` on the heap (`HeapGroupLinks`), then volumes and inputs of groups | as C109: of a supplier only is read what linking does not change |
| C112 | linking as a whole on the heap (`HeapLinking`), with `delete_global_with_zero_pv_when_regional_present` | composition of C106, C107, C109 to C111; a part of separate datasets is separate |
| C113 | the collection `link_markets_by_pv` as a whole on the heap (`HeapRow`), with `relabel_global_to_row` and the steps before and after C112 | C112; a pass over groups in which each group reads what it was given |
| C114 | the collection `link_markets_by_technology_level` as a whole on the heap (`HeapTechnology`) | composition of C106, C107, C109, C110 and C113 |
| C115 | the cutoff model from allocation to its end on the heap (`HeapCutoff`) | composition of C105 and C113 with passes over exchanges |
| C108 | `functools.lru_cache` as list of keys in order of use with addresses of objects; code that asks as a free monad (`Memo`) | entries mean what the function gives, unless their object was changed; an entry has at most as many entries behind it as events since its use |

## 4. What is modelled

| file | Python code |
|------|-------------|
| `Uncertainty` | uncertainty/__init__.py, distributions.py, pedigree.py; transformations/uncertainty.py, parameterization/uncertainty.py |
| `Sampling` | the `to_stats_arrays` methods of uncertainty/distributions.py (not `sample`, which calls stats_arrays) |
| `Utils` | transformations/utils.py |
| `Validation` | transformations/cutoff/validation.py, transformations/validation checks, `ensure_ids_are_unique`, `check_single_output_activity` |
| `ActivityLinks` | transformations/activity_links.py, parent/child links, ecoinvent 3.5 link fix |
| `Recalculation` | parameterization/recalculation.py, `TemporaryParameterization`-style evaluation with an abstract evaluator |
| `Cutoff` | cutoff/allocation.py, economic.py, combined.py, wastes.py, markets.py, cleanup.py, utils.py |
| `Topology` | transformations/locations/_topology.py: places as finite sets of faces |
| `Intersections` | the parts of _topology.py that no configuration uses: `intersected`, `intersects`, size proxies |
| `Locations` | transformations/locations/: rest_of_world, markets, market_groups, linking, validation, cleanup, `link_markets_by_pv` |
| `Consequential` | transformations/consequential/: byproducts, combined, constrained_markets, market_linking, technology_levels (without logging), `link_markets_by_technology_level` |
| `Formulas` | parameterization/python_compatibility.py: the functions on formula texts, on lists of ASCII characters |
| `Parameters` | parameterization/: implicit_references, known_ecoinvent_issues, production_volumes, validation, the passes of python_compatibility over datasets, `fix_ecoinvent_parameters` |
| `Tables` | the `'table element'` log calls of cutoff/cleanup.py, cutoff/markets.py, cutoff/wastes.py, cutoff/allocation.py (label_allocation_method), activity_links.py (update_activity_link_parent_child), production_volumes.py, parameterization/production_volumes.py, parameterization/known_ecoinvent_issues.py, locations/rest_of_world.py, locations/markets.py, locations/linking.py, utils.py (normalize_reference_production_amount), consequential/technology_levels.py (switch_undefined_to_current), each with its lines, and the `__table__` columns of these |
| `Optional` | functions outside the configurations: transformations/validation.py (ensure_mandatory_properties), consequential/technology_levels.py (log_conflicting_technology_levels and its rows, cleanup_technology_levels), cutoff/wastes.py (recycling_2_allocation), cutoff/allocation.py (missing_formulas), parameterization/recalculation.py (recalculate_all_parameterized_datasets with the state after an exception; the repair of one distribution is done or not done) |
| `FormulaTables` | rows logged by parameterization/python_compatibility.py (fix_math_formulas, find_if_clause, find_power_clause, replace_reserved_words, check_and_fix_formula, delete_unparsable_formulas) and implicit_references.py (replace_implicit_references) |
| `LinkTables` | rows logged by cutoff/combined.py (combined_production), locations/market_groups.py (link_market_group_suppliers) and locations/linking.py (link_consumers_to_markets), with their columns |
| `Pedigree` | both tables of uncertainty/pedigree.py and get_pedigree_variance with its version |
| `Outputs` | what model.py, filesystem.py, logger.py and report.py write to disk, with interrupts and crashes; OutputDir, get_output_directory |
| `Float` | the arithmetic of utils.py 228-317, cutoff/economic.py 41-51, locations/markets.py 169-250 with rounding after every operation; a binary64 rounding with unbounded exponent |
| `Runner` | collection.py, wrapper.py, utils.py 8-36, results.py 34-60, model.py 34-143 (`system_model`, `apply_transformation`; reading input and writing files as effects recorded in the result), logger.py (the stream of JSON lines), report.py 21-116 (not the HTML) |
| `Collections` | collection.py 22-50 with the methods inherited from `MutableSequence` |
| `Files` | filesystem.py 12-35, 77-120, 143-172 (names of files, cache), io/__init__.py `extract_directory` over a directory with modification times, io/cleanup.py; ecospold extraction itself is an argument |
| `Brightway` | io/brightway2.py 10-152 |
| `Import` | io/brightway2.py 155-190 (import_into_brightway2) with an abstract importer; io/validate_ecospold2.py 10-37 |
| `Cli` | bin/ocelot_cli.py, with the parts of docopt 0.6.2 that its usage text needs |
| `Detailed` | logger.py 17-40 and the calls of `detailed.info` in activity_links.py, cutoff/allocation.py, locations/rest_of_world.py, markets.py and linking.py (not the one in recalculation.py line 101) |
| `Heap` | the functions of `Cutoff` for allocation again, on objects: utils.py 228-243, 280-317, cutoff/economic.py, wastes.py 19-81, combined.py, allocation.py 25-30, 148-204, wrapper.py 27-32 |
| `HeapLinks` | locations/linking.py 91-229 and markets.py 169-250 again, on objects |
| `HeapHard` | activity_links.py 46-162 and locations/linking.py 17-82 again, on objects |
| `HeapMarkets` | locations/markets.py 29-150, 158-250, 253-312 (markets) again, on objects |
| `HeapGroups` | locations/markets.py 253-312 (market groups) again, on objects |
| `HeapGroupLinks` | locations/market_groups.py 22-92 again, on objects |
| `HeapLinking` | locations/markets.py 404-422 again, on objects; locations/\_\_init\_\_.py 43-58 |
| `HeapRow` | locations/rest\_of\_world.py 16-75, transformations/utils.py 251-259, identifying.py 16-34, locations/cleanup.py 1-8, markets.py 330-396, market\_groups.py 100-105 and linking.py 237-262 again, on objects; locations/\_\_init\_\_.py 35-61 |
| `HeapTechnology` | consequential/market\_linking.py 14-32 and locations/markets.py 320-327 again, on objects; consequential/\_\_init\_\_.py 27-46 |
| `HeapCutoff` | cutoff/cleanup.py 28-46, cutoff/wastes.py 106-119 and 179-203, cutoff/markets.py 43-68 again, on objects; configuration.py 61-68 |
| `Memo` | the caches of _topology.py 74-78, 129-133, 176-180, which `Topology` leaves out; linking.py 136-187 as code that asks |
| `Pipeline` | configuration.py: `cutoff_config`, `cutoff_config_ecoinvent_row`, `consequential_config` as functions; transformations/__init__.py `pv_cleanup`, cutoff/__init__.py `cleanup_activity_links` |
| `Configuration` | configuration.py as lists of functions (name, whether there is a table, what is done with the data); model.py lines 27-31 and 104-108 (names of configurations) |
| `Schema` | io/validate_internal.py (voluptuous schemas as a data type with what they accept), tables of io/ecospold2_meta.py, io/validate_ecospold2.py `validate_directory` |
| `Extraction` | io/extract_ecospold2.py 20-249, from the tree lxml.objectify builds |
| `GroupUpdate` | the loops `for key, group in groupby(...)` which change datasets in place |
| `Grouping`, `Strings` | toolz.groupby, itertools.groupby, `str.startswith/endswith/replace/in` |

The comments in each file give the lines. Not modelled:

* XML parsing (lxml), what an XSD schema accepts, HTML rendering,
  plotting, the pickle format, multiprocessing, the asteval interpreter, unicode
  beyond bytes, binary64 rounding (except C99).
* log records, except for the report property, the rows of tables (C86-C95) and the
  lines of the detailed log (C104), whose texts and roundings are not modelled.
* errors raised while a log message is put together.
* iteration over a set of locations: an argument gives the order for each set.
* in `link_consumers_to_markets` the markets are read from the data as given:
  what the loop changes (inputs and the key `suppliers`) is not what it reads (C106).
* aliasing: an object reached by two names is one value in the model, except in `Heap`
  (C105), `HeapLinks` (C106), `HeapHard` (C107), `HeapMarkets` (C109), `HeapGroups`
  (C110), `HeapGroupLinks` (C111), `HeapLinking` (C112), `HeapRow` (C113),
  `HeapTechnology` (C114) and `HeapCutoff` (C115), which show for the cutoff model from
  allocation on and for both collections of linking that this makes no difference.
* `update_group_step` writes the volume of a group into the others in the order of the
  database, not of size. Only the exception raised first can differ (C110).

## 5. Assumptions of the theorems

`Print Assumptions` follows every property theorem in the `Props_*` files. Every
theorem is "Closed under the global context": no axiom is used by any of them.
`coqchk` lists library axioms of `Coq.ssr.ssrunder` (loaded with stdpp, used by
no theorem).

Arguments the theorems quantify over instead of assuming: `ln`, `euler` (the
exponential used for the lognormal sd95), the md5 digest, the formula evaluator
and its order of evaluation, the iteration order of Python sets, clocks,
the importer of Brightway, what an XSD schema accepts; for
formulas the Python parser (`parses`), `float` and its printing (`pyfloat`), for
extraction `float` and `int` of a text, the messages of voluptuous (`invalid`), the
order of the set of reserved words (`words`) and `uuid4` (`fresh`). Upper and lower
case are those of ASCII.

## 6. Findings

Statements which are false of the model, each with a witness (`*_refuted`), as
they stand in the code:

| theorem | what happens |
|---------|--------------|
| C01_uniform_compose | repair after rescaling compares with an absolute tolerance, so scaling up turns a uniform distribution into a triangular one for good |
| C02_normal_mean, C02_normal_zero, C02_normal_no_variance | the stored mean of a normal distribution is stale after rescaling; a repaired normal with amount 0 or without variance makes rescaling raise |
| C02_undefined_bounds | a negative factor leaves an undefined distribution with minimum > maximum |
| C03_repair_idempotent, C03_positive_variance | repairing twice differs from repairing once; a repaired lognormal can have a negative variance |
| C07_codes_identify, C07_codes_ignore_unit | activity codes concatenate fields without separator and ignore the unit |
| C09_range_needs_true_values | the validity check does not look at true value relations, so a factor can exceed one |
| C11_zero_product | a product of amount zero makes economic allocation fail although it could only get factor zero |
| C15_constrained_market | a constrained market makes the whole allocation step raise TypeError (its function returns the dataset instead of a list) |
| C16_zero_market, C16_zero_byproduct | a market with reference product amount zero goes through; a by-product of amount zero is overlooked when the method is chosen although its formula can make it non-zero |
| C18_production_weighting, C18_foreign_ids_lost | parts are added after normalisation, so not weighted by how much of the by-product each makes; ids missing from the first dataset of a group are lost |
| C19_uncertainty | turning an output into an input leaves its uncertainty unturned |
| C20_relative_amounts | a market whose reference product alone is negative changes its relative amounts |
| C22_marked_name | a name that already ends in the marker loses it in the round trip |
| C25_exchange_order, C26_negative_demand | the hard-linked volume depends on the order of exchanges when ratios tie with opposite sign; negative demand enlarges the available volume |
| C32_everyone_supplies, C32_empty_place | of two RoW suppliers with the same name the first supplies no market; a supplier in a place without faces supplies every market |
| C33_no_volume | a market with several suppliers but no volume gets no input at all, only a log entry |
| C34_mutual | two market groups in places with the same faces supply each other; the volume of one is then not the sum of its suppliers |
| C35_everything_linked | an input stays unlinked, with only a log entry, if several markets without volume are chosen |
| C35_refinery_gas | without a market for refinery gas its inputs are linked to the markets of the input before, and one of two equal inputs can be lost |
| C36_row_and_group | the RoW is never taken off what is left, so a RoW market and a market group sharing faces with it both supply one input |
| C36_empty_row | a consumer in an empty RoW gets no market although a global one exists |
| C37_rest_of_world_lost | the RoW market supplies the world group only if nothing larger was found before it; otherwise no group gets its production |
| C37_same_faces | two groups in places with the same faces supply each other and no market reaches either |
| C39_dangling | `delete_global_with_zero_pv_when_regional_present` runs after activity links were resolved and does not look at them: a consumer linked to the deleted Rest-of-World dataset keeps its code, which leads nowhere |
| C40_duplicates | two equal idle RoW datasets are removed together, although no other producer remains |
| C41_unlinked_kept, C41_linked_deleted | `log_and_delete_unlinked_exchanges` tests the code of the dataset instead of the exchange: it deletes nothing from a dataset with a code and everything from one without |
| C42_undefined | `cleanup_technology_levels` is not part of the consequential model (and, built without a name, would skip its first function), so a market with only 'undefined' suppliers stops the run |
| C42_groups_without_inputs | the consequential model apportions the suppliers of markets only; consumers are linked to market groups that consume nothing |
| C43_unrelated_links | `delete_activity_links_to_constrained_markets` computes the set of constrained activities, does not use it and deletes all links of other exchanges |
| C43_uncertainty | amounts are flipped, uncertainties are not |
| C50_duplicate_variable | a variable used twice: the first holder silently gets the value of the last |
| C45_calls, C45_names, C45_newline | a function with two arguments inside a condition or first alternative mixes up the arguments of the conditional; a function whose name ends in "if" and a line break in the second alternative raise AttributeError |
| C46_collision | the check of unique variable names runs before names are put in lower case, so names that differ in case collide unnoticed |
| C47_longer_names, C47_digits | a formula that begins with a reserved word has it replaced inside longer names too (`as*mass` becomes `AS*mASs`), and `in2*3` becomes `IN2*3`, while the variables keep their names |
| C47_parsed, C47_conditional | a formula that is parsed with a reserved word in it, as `(yield)*2`, keeps it although the variable is renamed; a formula with a conditional and a reserved word can not be repaired and is deleted |
| C49_uncertainty | the uncertainty of a production volume stays with it when its formula moves to a parameter |
| C51_nested, C51_insert | `apply_transformation` calls itself for nested collections without the argument `follow`, so a validated configuration with a collection in it raises TypeError; `insert` puts a collection into the flat list as it is |
| C52_single | a wrapped function that returns one dataset instead of a list contributes the keys of its dictionary to the data |
| C53_default, C53_negative, C53_backwards | the default strategy saves every 1000 steps, not every 5 as documented; one is added to the end also when the step is negative; a range that ends before it starts is accepted and saves nothing |
| C56_lengths | there are more times than counts in the report |
| C56_table | a function without table that logs a table row lets the run finish and then the report raise KeyError |
| C56_sorted | rows are meant to be sorted by `hasattr` on a dictionary, which is never true |
| C56_second_run | log handlers are not removed, so the log of the first run also gets the lines of the second and its report then shows the second |
| C54_hidden | names beginning with a dot are left out when modification times are compared, but extracted if they end in .spold |
| C54_crash | a cache file cut off by a crash counts as fresh; extraction raises EOFError until a source file changes |
| C54_change, C54_old_time | the cache gets the time of writing, not of reading; a file replaced by one with an older time is not noticed |
| C54_empty | with a cache and a directory without visible files, `max()` of nothing raises ValueError |
| C55_foreign, C55_link | any directory in OCELOT_OUTPUT older than a week is deleted; a link to a directory makes `rmtree` raise with the rest not deleted |
| C57_refinery_gas, C57_refinery_flow | exchanges called refinery gas without code, elementary flows included, are silently left out |
| C64_waste_unlinked | `flip_non_allocatable_byproducts` runs after linking: wastes become inputs without code although there is a market for them, and exporting the result to Brightway raises KeyError |
| C64_consequential_export | `link_markets_by_technology_level` does not include `add_reference_product_codes`: the products of a consequential result have no codes and no dataset can be exported |
| C58_follow | the text given to `follow` goes into a file name unchanged, slashes included |
| C67_technology_default, C67_access_default | defaults of the format are not applied: without technologyLevel a dataset is 'undefined' instead of 'current', without accessRestrictedTo extraction raises KeyError |
| C67_isic_optional | a dataset without ISIC classification, optional in the format, is extracted and then not accepted by the schema |
| C67_gamma | the minimum the format requires of a gamma distribution makes the schema reject it |
| C67_property_variable | white space is taken off variable names of exchanges, volumes and parameters, but not of properties |
| C68_parameter_amount | all keys of a parameter are optional in the schema, its amount included, which every later pass reads |
| C68_validation_all | `validate_directory` keeps errors by message: of datasets with the same fault only the last is reported and counted |
| C68_labelled | of the ten labels the allocation step writes only "constrained market" and "waste treatment" are in the list the schema accepts, so nearly every labelled dataset no longer conforms |
| C70_zero_volume | `delete_whitelisted_zero_pv_market_datsets` does not look at production volumes: the markets it lists go whatever they produce |
| C70_known_volume | `assign_fake_pv_to_confidential_datasets` overwrites volumes that are known and leaves their formulas, which recalculation would restore |
| C71_lost | a dataset with several reference products, all of amount zero, vanishes in `split_combined_production` |
| C72_property | `Ref('…', '…')`, a reference to a property, is recognised by a regular expression nobody uses, and stays in the formula |
| C72_unique | the variable made up for a reference may be in use already (a TODO in the source) |
| C72_empty | a reference to an object with an empty variable is replaced by nothing, and the formula becomes unreadable |
| C73_variable | `power(x;2)` is not rewritten: base and exponent are given to `float`, which raises a ValueError for a name |
| C73_parentheses | a power inside or before parentheses fails with a ValueError: the regular expression for the exponent is greedy |
| C73_repeated | of three powers, the first and third equal, both are rewritten at once, and the second then fails |
| C73_percent | `loss%` becomes the name `losse-2` (read as `losse` minus 2), `100 %` becomes `100 e-2`, which does not parse |
| C73_conditional | `ifpower(2;3)` becomes `if((2.0)**(3.0))`: conditionals are looked for before powers only |
| C74_benzene | the number put in for `UnitConversion(152000000, 'pound avoirdupois', 'kg')`, 68949040.24, is 3000 kg too much: 152000000 pounds are 68946040.24 kg |
| C75_collision | variables that differ in case become equal after the check for unique names (as in C46_collision, now for the whole collection) |
| C76 | `cutoff_ecoinvent_row` has the same members as `cutoff`: what the name promises is not there |
| C76_named | a name that is not a configuration is unwrapped character by character, for ever (RecursionError instead of an error message) |
| C77_order_refuted | the order of the inputs of a market depends on the order of a set of locations: two runs need not have equal results |
| C77_words_refuted | reserved words are replaced in the order of a set; of words that are part of others ("in", "finally") one order makes "fINally", which is not defined |
| C78_refinery_gas_refuted | refinery gas without a market is linked with the candidates of the input before; of two equal inputs one can be lost |
| C79_unbalanced_refuted | a market with two or more suppliers that have no production volume is given no inputs: it provides its product from nothing |
| C79_consequential_groups_refuted | market groups of the consequential model are given suppliers but no inputs: every market group provides its product from nothing |
| C80_normal_refuted | rescaling a normal distribution changes neither its mean nor its total variance: what is sampled is not centred on the amount any more |
| C80_possible_refuted | repair lets negative total variances pass; sampling such a distribution raises |
| C82_symmetric_refuted | "GLO" intersects nothing, though every place intersects "GLO" |
| C82_larger_first_refuted | with a size proxy that is zero for some faces a place can come before one that contains it |
| C83_marked_refuted | a product that is called "…, Recycled Content cut-off" in the input is renamed in the result |
| C83_activity_refuted | the activity that supplies recycled content keeps the marker in its own name |
| C84_combined_refuted | several reference products: every one of them gets all of a flow that no formula shares out, so flows are counted several times |
| C84_rest_of_world_refuted | a dataset for the rest of the world that makes nothing is deleted, and its flows with it |
| C85_conditional_refuted | a conditional input becomes a product that is sold: its sign changes as if it were a by-product |
| C85_conditional_flow_refuted | a conditional flow to the environment becomes an input from a dataset, and the flow is gone |
| C85_combined_refuted | several reference products: every one of them gets all of a flow that no formula shares out, also in the consequential model |
| C86_children_refuted, C86_volumes_refuted, C86_signs_refuted, C86_confidential_refuted | rows are written though nothing changes: a dataset that is its own parent, a by-product of amount zero, a market whose amounts are zero, a confidential volume that is one already |
| C86_technology_refuted, C89_fit_refuted | consequential transformations log to the root logger: their changes do not get into the report; the rows of `switch_undefined_to_current` have three cells for two columns |
| C87_unlinked_refuted, C87_unlisted_refuted | `log_and_delete_unlinked_exchanges` tests the code of the dataset, not of the exchange: exchanges that are listed stay, and exchanges that are not listed are deleted |
| C87_whitelisted_refuted | the table of markets "with zero production volume" has markets with production volume |
| C87_idle_refuted | equal datasets are deleted together with a single row |
| C88_markets_refuted | the net volume of a market is not its original volume less what was taken, if more was taken from a supplier than it makes |
| not formalised | python_compatibility.py 243: the row for a replaced reserved word has the variable where the dataset should be |
| C91_listed_unchanged_refuted | a dataset listed by `recalculate_all_parameterized_datasets` as not recalculated has new values up to the formula that failed; errors other than the three caught ones end the whole function (C91_errors) |
| C92_called_refuted | `cleanup_technology_levels` gives its first function as the name of the collection: conflicts are never logged |
| C93_positive_input_refuted | `recycling_2_allocation` does not check the sign of the reference product: a product that is made becomes a negative input |
| (C90) | the docstring of `ensure_mandatory_properties` asks for "carbon content non fossil", the code for "carbon content non-fossil" |
| C94_formula_refuted | `fix_math_formulas`: the rows of IF and POWER leave the column with the formula empty |
| C94_replaced_refuted | `check_and_fix_formula` logs words at the beginning of a formula before it knows whether the formula can be repaired: the row is there, the formula stays |
| C95_linked_refuted | `link_consumers_to_markets` logs a link before it knows whether there is a volume to share by: the row is there, the input stays unlinked |
| C95_listed_refuted | the table of `link_consumers_to_markets` omits the inputs linked to a single market |
| C96_score_range_refuted | `get_pedigree_variance` indexes with score - 1: a score of 0 counts as 5, down to -4 as 1 |
| C97_ageing_lowers_variance_refuted, C97_repair_ignores_matrix | extraction stores the pedigree matrix in `uncertainty`, repair and ageing read it from the exchange: for data of files it is ignored, and ageing can lower the variance to nothing |
| C97_matrix_error | extraction calls an indicator 'further technology correlation', the tables 'further technological correlation': the variance of a matrix of a file is a KeyError |
| C98_interrupt_keeps_results_refuted | CTRL-C while the report is made deletes the directory with complete final results |
| C98_final_results_whole_refuted | final-results.pickle is written in place: a killed run leaves a cut-off one under the final name |
| C98_interrupt_early_refuted | CTRL-C while the directory is made is turned into OutputDirectoryError and leaves it |
| C98_fallback_read_only_refuted | OCELOT_OUTPUT naming a directory that cannot be written to: no fallback, and the run fails after extraction |
| C99_exactly_one_refuted, C99_left_alone_refuted | the amount of a normalised product is not always 1: 49 becomes 1 - 2^-53, and what is within 1e-14 of one stays as it is |
| C99_whole_refuted | three equal shares do not add up to the amount |
| C99_cancelled_refuted | with a negative volume among the suppliers rounding can make the total zero: the market is skipped, and in another order it is not |
| C101_list_refuted | `-l` and `--list`, documented, always end with ValueError: no branch of `main` handles them |
| C101_hyphens_refuted | docopt keeps "--" as a word: `run -- dir` takes "--" as the directory and dir as the system model |
| C102_again_refuted | `import_into_brightway2` empties the list of the caller into activities; after an import with unlinked exchanges nothing is written and the list cannot be imported again |
| C103_garbled_refuted | a file that is no XML ends the validation: invalid files found before it are not reported |
| C104_which_refuted | lines of the detailed log about hard links do not name the product that is taken from |
| C104_supplier_refuted | lines about new inputs name the product as supplier; the activity is never named |
| C104_linked_refuted | a consumer is told to be linked to markets although none has a volume and nothing changes |
| C105_argument_refuted | `recycling_allocation` changes the dataset it is given; a second call with it fails |
| C108_change | the caches of the topology give out their own sets and lists: a caller who changes an answer changes the answers of later callers (no caller in the package does) |
| C108_stale | `topology.data` and `topology.size_proxy` can be changed, but what was asked before is answered as before |
| C108_set | `subtract` is documented as an iterable; a set raises TypeError because it is part of the key of a cache |

## 7. How `seeded/LOG.jsonl` is made

Each line is one edit of a definition in a scratch copy, compiled file by file up to
the first failure. What was seen is that first failure: in `lemmas_failed`,
`examples_failed` or, if it was a theorem itself, `theorems_failed`. After a failed
lemma `theorems_failed` has the theorems whose proofs refer to that lemma, directly
or through other lemmas, found by name in the sources, not by compiling on; a few may
be listed that would survive. A failed proof shows that the proof does not hold for
the wrong program, not by itself that the statement is false of it. For C108, where
one lemma serves every theorem, and C109 `theorems_failed` has instead those that are
false of the wrong program, worked out by hand. Edits with nothing
failed and nothing tightened do not change the program, or only texts which no claim is about.
`tightened` has theorems that were added or changed because the edit had survived.
