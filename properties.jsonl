{"id": "C01", "title": "Rescaling an exchange is multiplication and nothing else", "statement": "Scaling an exchange by a factor f returns an exchange whose amount is exactly f times the old amount; name, id, unit, type, classification, activity link, formula, variable, properties and production volume are unchanged; scaling by 1 returns the exchange unchanged; scaling by f and then by g gives the same amount as scaling by f*g.", "quantifier": "every exchange, every uncertainty type (including none and undefined) and every pair of rational factors for which the calls return", "why_tests_cant": "Allocation multiplies exchanges by products of arbitrary real factors, repeatedly; a test fixes one factor and one distribution and cannot see a composition law break for other factors or distributions.", "anchors": ["ocelot/transformations/uncertainty/__init__.py:scale_exchange", "ocelot/transformations/uncertainty/distributions.py:NoUncertainty.rescale", "ocelot/transformations/uncertainty/distributions.py:Lognormal.rescale", "ocelot/transformations/uncertainty/distributions.py:Normal.rescale", "ocelot/transformations/uncertainty/distributions.py:Triangular.rescale", "ocelot/transformations/uncertainty/distributions.py:Uniform.rescale"]}
{"id": "C02", "title": "Rescaling carries the uncertainty distribution along", "statement": "When an exchange with a well-formed uncertainty distribution is scaled by a non-zero f, the resulting distribution is that of f times the random variable: triangular and uniform bounds are multiplied and re-sorted so that minimum <= amount <= maximum (also for negative f); normal variance is multiplied by f squared; lognormal has mean |amount|, mu = ln(mean), unchanged variances and a 'negative' flag exactly when the amount is negative.", "quantifier": "every well-formed distribution of every type and every non-zero factor", "why_tests_cant": "Sign changes interact with bound ordering; the number of (type, sign, factor) combinations is infinite and the tests use positive factors on fixed numbers.", "anchors": ["ocelot/transformations/uncertainty/distributions.py:Lognormal.rescale", "ocelot/transformations/uncertainty/distributions.py:Normal.rescale", "ocelot/transformations/uncertainty/distributions.py:Triangular.rescale", "ocelot/transformations/uncertainty/distributions.py:Uniform.rescale", "ocelot/transformations/uncertainty/distributions.py:NoUncertainty.rescale"]}
{"id": "C03", "title": "Repair makes every remaining distribution well formed and never touches amounts", "statement": "After repair, every uncertainty description that is still attached satisfies the well-formedness condition of its type (positive lognormal variance with mean |amount|; normal variance positive and the stored mean equal to the amount; triangular minimum < maximum with minimum <= amount <= maximum; uniform likewise), repairing twice is the same as repairing once, and no amount, formula or variable is changed.", "quantifier": "every exchange, production volume, property and parameter with any combination of missing or inconsistent uncertainty fields", "why_tests_cant": "Repair branches on relations between up to six numbers; a unit test visits single points of these regions.", "anchors": ["ocelot/transformations/uncertainty/distributions.py:Lognormal.repair", "ocelot/transformations/uncertainty/distributions.py:Normal.repair", "ocelot/transformations/uncertainty/distributions.py:Triangular.repair", "ocelot/transformations/uncertainty/distributions.py:Uniform.repair", "ocelot/transformations/parameterization/uncertainty.py:repair_all_uncertainty_distributions"]}
{"id": "C04", "title": "Ageing the pedigree matrix never improves data quality", "statement": "Adjusting a pedigree matrix to a later reference year never lowers the temporal correlation score, always leaves it between 1 and 5 if it was, leaves the four other scores unchanged, is monotone in the reference year, and reaches each score exactly at the ages given by the published table.", "quantifier": "every pedigree matrix with a temporal score in 1..5, every dataset end year and every pair of reference years", "why_tests_cant": "The function is a step function of a date difference; monotonicity compares all pairs of years.", "anchors": ["ocelot/transformations/uncertainty/pedigree.py:adjust_pedigree_matrix_time", "ocelot/transformations/uncertainty/pedigree.py:get_pedigree_variance", "ocelot/transformations/uncertainty/pedigree.py:get_difference_in_years"]}
{"id": "C05", "title": "Normalising a dataset keeps every ratio", "statement": "If a dataset has exactly one reference product, with non-zero amount, normalising it makes the reference product amount +1 or -1 with the same sign as before (nothing is changed if it is already within the documented tolerance 1e-14), multiplies every exchange amount by one common positive factor, keeps number, order and identity of the exchanges, and doing it twice is the same as doing it once. A zero reference amount raises ZeroProduction; several reference products raise InvalidMultioutputDataset.", "quantifier": "every dataset, any number of exchanges, all rational amounts", "why_tests_cant": "Tests check a few datasets; the ratio law and idempotence quantify over all exchange lists.", "anchors": ["ocelot/transformations/utils.py:normalize_reference_production_amount", "ocelot/transformations/utils.py:get_single_reference_product"]}
{"id": "C06", "title": "Choosing a reference product yields a one-product dataset", "statement": "Choosing an exchange of a dataset as its reference product with a given allocation factor produces a dataset whose only allocatable production exchange is the chosen one, labelled reference product and with amount as before normalised to +-1, in which every non-production exchange has been multiplied by factor / |chosen amount|, and in which no other allocatable output survives.", "quantifier": "every dataset and every production exchange of it, every allocation factor", "why_tests_cant": "The candidate is identified by value comparison against every other exchange; only exhaustive reasoning covers datasets with repeated exchanges.", "anchors": ["ocelot/transformations/utils.py:choose_reference_product_exchange", "ocelot/transformations/utils.py:nonproduction_exchanges", "ocelot/transformations/utils.py:allocatable_production"]}
{"id": "C07", "title": "Activity codes identify activities", "statement": "Two datasets get the same unique code only if they agree (ignoring letter case) in activity name, reference product, unit, location, start date and end date.", "quantifier": "every pair of datasets, for any injective hash function", "why_tests_cant": "Collisions are properties of pairs in an infinite domain.", "anchors": ["ocelot/transformations/utils.py:activity_hash", "ocelot/transformations/identifying.py:add_unique_codes"]}
{"id": "C08", "title": "Successful code assignment gives pairwise different codes", "statement": "If assigning codes to a list of datasets succeeds, all codes are pairwise different, every code is the hash of its own dataset and nothing else in the datasets changed; it fails exactly when two datasets have the same code. Labelling reference products beforehand fails exactly when some dataset has not exactly one reference product.", "quantifier": "every list of datasets", "why_tests_cant": "Uniqueness is a statement about all pairs in an arbitrary long list.", "anchors": ["ocelot/transformations/identifying.py:add_unique_codes"]}
{"id": "C09", "title": "Economic allocation factors sum to one", "statement": "Economic allocation gives each allocatable product the factor price*amount/total revenue ; the products that have a 'true value relation' share the revenue they earn together in proportion to true value times amount instead. It succeeds exactly if there is a product, the total revenue is not zero and the total true value is not zero (if any product has one); then the factors add up to exactly 1, and if prices, amounts and true values are non-negative every factor lies in [0,1].", "quantifier": "every dataset with any number of allocatable products, all rational prices, amounts and true values", "why_tests_cant": "Sum-to-one must hold for every vector of prices; tests check one or two.", "anchors": ["ocelot/transformations/cutoff/economic.py:economic_allocation", "ocelot/transformations/utils.py:allocatable_production_as_dataframe"]}
{"id": "C10", "title": "Economic allocation conserves burdens", "statement": "For every non-production exchange of a multi-product dataset, the sum over the produced datasets of (allocated amount per unit product) times (amount of that product in the original dataset) equals the original amount: nothing is lost or double counted.", "quantifier": "every dataset for which economic allocation succeeds, every flow identified by id, name and type", "why_tests_cant": "Mass balance over arbitrary numbers of products and exchanges.", "anchors": ["ocelot/transformations/cutoff/economic.py:economic_allocation", "ocelot/transformations/cutoff/utils.py:apply_allocation_factors", "ocelot/transformations/utils.py:choose_reference_product_exchange"]}
{"id": "C11", "title": "Economic allocation yields one single-output dataset per product", "statement": "Economic allocation returns exactly one dataset per allocatable production exchange, in order, each with that exchange as its only allocatable output with positive amount; every field of the dataset other than its exchanges is copied unchanged. It succeeds whenever prices, true values and product amounts are positive and distributions are well formed.", "quantifier": "every multi-output dataset", "why_tests_cant": "Arity and order for arbitrary exchange lists.", "anchors": ["ocelot/transformations/cutoff/economic.py:economic_allocation", "ocelot/transformations/cutoff/utils.py:apply_allocation_factors"]}
{"id": "C12", "title": "Waste treatment carries all burdens, its by-products are free", "statement": "Allocating a waste treatment dataset returns a treatment dataset that contains all non-production exchanges (scaled by the same positive factor) and, for every allocatable by-product, one burden-free dataset whose only exchange is that by-product as reference product with amount +-1.", "quantifier": "every waste-treatment dataset with any number of by-products of non-zero amount", "why_tests_cant": "Arbitrary number of by-products; absence of burdens is a universal statement over their exchanges.", "anchors": ["ocelot/transformations/cutoff/wastes.py:waste_treatment_allocation"]}
{"id": "C13", "title": "Recycling: by-products share the burdens, the recycled material becomes an input", "statement": "Allocating a recycling dataset gives one dataset per allocatable by-product with that by-product as reference product; the negative reference product becomes a technosphere input of the opposite (positive) amount, and this input and all other flows are shared over the by-products with the economic factors.", "quantifier": "every recycling dataset", "why_tests_cant": "Universal over dataset shapes.", "anchors": ["ocelot/transformations/cutoff/wastes.py:recycling_allocation", "ocelot/transformations/cutoff/wastes.py:recycling_2_allocation"]}
{"id": "C14", "title": "The allocation method is a total, unambiguous decision", "statement": "Labelling chooses exactly one allocation method for every dataset whose by-products are classified, by the documented decision tree; the chosen label is 'single product' or one with an entry in the table of allocation functions; the internal consistency assertion never fails, and the only possible error is a missing classification; the choice depends only on the dataset's type and name and, per exchange, on type, classification, conditional flag and whether its amount is negative, zero or positive.", "quantifier": "every dataset", "why_tests_cant": "The decision tree has about ten predicates over unbounded lists; tests cover a dozen shapes.", "anchors": ["ocelot/transformations/cutoff/allocation.py:choose_allocation_method", "ocelot/transformations/cutoff/allocation.py:label_allocation_method", "ocelot/transformations/cutoff/allocation.py:ALLOCATION_METHODS"]}
{"id": "C15", "title": "Each dataset is allocated exactly once", "statement": "In the allocation step every input dataset is processed by exactly one allocation function - the one of its label - and the outputs of a dataset that was already allocated are not allocated again: the result is the concatenation, in input order, of the outputs of one function call per dataset, and the step succeeds exactly when each of these calls does. No database with a multi-output constrained market can be allocated.", "quantifier": "every list of datasets", "why_tests_cant": "The step is a chain of filters over a growing list; double processing depends on label inheritance through copies.", "anchors": ["ocelot/transformations/cutoff/allocation.py:cutoff_allocation", "ocelot/transformations/cutoff/allocation.py:create_allocation_filter", "ocelot/wrapper.py:TransformationWrapper"]}
{"id": "C16", "title": "After cutoff allocation every dataset has exactly one reference product", "statement": "If cutoff allocation succeeds on datasets with classified by-products, unique exchange ids and variable names and non-zero allocatable outputs, then in every resulting dataset exactly one allocatable output has a non-zero amount, and it is a reference product.", "quantifier": "every input list of datasets", "why_tests_cant": "Needs an invariant through all nine allocation functions.", "anchors": ["ocelot/transformations/cutoff/allocation.py:cutoff_allocation"]}
{"id": "C17", "title": "Combined production: a dataset per product, burdens re-evaluated not shared", "statement": "Splitting a combined production dataset returns one dataset per non-zero reference product; in the dataset for a product, exactly that product remains with non-zero production amount, all other reference products are removed, and formulas are re-evaluated with the production amounts of the other products set to zero.", "quantifier": "every combined-production dataset and every formula evaluator", "why_tests_cant": "Formulas and product lists are arbitrary.", "anchors": ["ocelot/transformations/cutoff/combined.py:combined_production", "ocelot/transformations/cutoff/combined.py:selected_product", "ocelot/transformations/cutoff/combined.py:nonzero_reference_product_exchanges"]}
{"id": "C18", "title": "Merging by-products of combined production loses no burden", "statement": "Combined production with by-products splits, allocates each part economically and merges the results by product: every piece goes into exactly one group, groups have distinct products, the merged dataset looks like the first of its group, and its flow of every exchange id is the sum of the flows of the members (none is lost).", "quantifier": "every set of subdatasets with a common by-product", "why_tests_cant": "Conservation law over arbitrary amounts.", "anchors": ["ocelot/transformations/cutoff/combined.py:merge_byproducts", "ocelot/transformations/cutoff/combined.py:add_exchanges", "ocelot/transformations/cutoff/combined.py:combined_production_with_byproducts"]}
{"id": "C19", "title": "Turning waste outputs into inputs keeps the technosphere balance", "statement": "Flipping the remaining non-allocatable by-products to negative inputs leaves the net technosphere flow of every product unchanged (output minus input), leaves no non-allocatable by-product, and touches nothing else.", "quantifier": "every dataset", "why_tests_cant": "Universal over exchange lists; balance is an algebraic identity.", "anchors": ["ocelot/transformations/cutoff/wastes.py:flip_non_allocatable_byproducts"]}
{"id": "C20", "title": "Non-waste markets get positive reference products", "statement": "The sign adjustment leaves non-markets and waste markets alone. In every other market it multiplies all exchanges by -1 if none is positive, and otherwise, when the reference product is negative, exactly the exchanges named like it; afterwards the amount of the reference product is the absolute value of what it was, and nothing but amounts and uncertainties has changed.", "quantifier": "every list of datasets in which market reference products carry a classification", "why_tests_cant": "Universal.", "anchors": ["ocelot/transformations/cutoff/markets.py:adjust_market_signs_for_allocatable_products"]}
{"id": "C21", "title": "Every recycled content by-product name gets one producer", "statement": "Recyclable by-products, and only they, get the cut-off marker appended to their name; for every name so marked exactly one input-free global dataset is appended whose only exchange is one unit of that product (built from the last by-product of that name), and no others are appended; the other datasets are unchanged apart from the renaming.", "quantifier": "every list of datasets", "why_tests_cant": "Universal over lists with repeated names.", "anchors": ["ocelot/transformations/cutoff/wastes.py:create_recycled_content_datasets", "ocelot/transformations/cutoff/wastes.py:create_new_recycled_content_dataset", "ocelot/transformations/cutoff/wastes.py:rename_recyclable_content_exchanges"]}
{"id": "C22", "title": "Recycled content renaming round-trips", "statement": "Renaming recyclable by-products with the cut-off marker before linking and renaming them back after linking restores the original product name and the whole database; names not ending in the marker are not touched.", "quantifier": "every product name that does not itself contain the marker", "why_tests_cant": "All strings; the marker could straddle the boundary.", "anchors": ["ocelot/transformations/cutoff/wastes.py:rename_recyclable_content_exchanges", "ocelot/transformations/cutoff/wastes.py:rename_recycled_content_products_after_linking"]}
{"id": "C23", "title": "Cleanup filters remove exactly what they announce", "statement": "Removing zero-amount activity links, activity links on reference products and consequential-only exchanges removes exactly the exchanges (or link fields) satisfying the announced condition, keeps the rest in order and unchanged, and is idempotent.", "quantifier": "every list of datasets", "why_tests_cant": "Exactness both ways over arbitrary lists.", "anchors": ["ocelot/transformations/cutoff/cleanup.py:drop_zero_amount_activity_links", "ocelot/transformations/cutoff/cleanup.py:drop_rp_activity_links", "ocelot/transformations/cutoff/cleanup.py:remove_consequential_exchanges"]}
{"id": "C24", "title": "Validated activity links can be followed", "statement": "If the link validity check passes, computing hard-linked production volumes cannot fail on a missing target or ambiguous product: every link names an existing dataset with exactly one matching production exchange; the check fails exactly when some link does not.", "quantifier": "every database", "why_tests_cant": "Consistency between two passes over the whole database.", "anchors": ["ocelot/transformations/activity_links.py:check_activity_link_validity", "ocelot/transformations/activity_links.py:add_hard_linked_production_volumes"]}
{"id": "C25", "title": "Hard-linked volume equals total linked demand", "statement": "After the link pass, the subtracted volume recorded at a product is the sum over all activity links pointing to it of consumed amount times the production-volume-to-output ratio of the consumer, independent of the order of the datasets.", "quantifier": "every database with valid links, every permutation of it", "why_tests_cant": "Order independence and a global sum.", "anchors": ["ocelot/transformations/activity_links.py:add_hard_linked_production_volumes", "ocelot/transformations/utils.py:get_biggest_pv_to_exchange_ratio"]}
{"id": "C26", "title": "Available volume is never negative and never grows", "statement": "Updating production volumes replaces the volume of a transforming activity's product by max(volume - hard-linked volume, 0), remembers the original, so for non-negative links the new volume lies between 0 and the old one; other exchanges are untouched.", "quantifier": "every dataset", "why_tests_cant": "Universal.", "anchors": ["ocelot/transformations/activity_links.py:update_transforming_activity_production_volumes"]}
{"id": "C27", "title": "Links of child datasets follow the child", "statement": "In every dataset with a parent, exactly the non-production exchanges linked to the parent are re-linked to the dataset itself; every other exchange, and every dataset without parent, is unchanged; afterwards no non-production exchange of a child links to its parent; doing it twice is the same as doing it once.", "quantifier": "every database", "why_tests_cant": "Exactness over all exchanges of all datasets, and a global postcondition.", "anchors": ["ocelot/transformations/activity_links.py:update_activity_link_parent_child"]}
{"id": "C28", "title": "Production volumes of by-products are filled in consistently", "statement": "Filling in production volumes gives every allocatable by-product without volume the volume amount * (largest reference product volume/amount ratio), changes no volume that was already non-zero, and is idempotent.", "quantifier": "every dataset", "why_tests_cant": "Universal.", "anchors": ["ocelot/transformations/production_volumes.py:add_pv_to_allocatable_byproducts", "ocelot/transformations/utils.py:get_biggest_pv_to_exchange_ratio"]}
{"id": "C29", "title": "The topology relation is a containment order", "statement": "Containment between resolved locations is reflexive and transitive and means inclusion of face sets, a non-empty location b is listed by contained(a) iff contains(a, b), the members of a group overlap iff two of them share a face, the rest-of-world resolved from a list is exactly the world minus these locations, and every location is contained in GLO.", "quantifier": "every topology (any finite set of places with any sets of faces) and all locations", "why_tests_cant": "Laws over all triples of places in any topology file.", "anchors": ["ocelot/transformations/locations/_topology.py:Topology"]}
{"id": "C30", "title": "Ordered dependencies are a permutation sorted from large to small", "statement": "Ordering locations by dependency returns each location once, from the most to the least faces, ties broken by name, so no location comes before one that strictly contains it.", "quantifier": "every list of locations", "why_tests_cant": "All lists.", "anchors": ["ocelot/transformations/locations/_topology.py:Topology.ordered_dependencies"]}
{"id": "C31", "title": "Global datasets become rest-of-world exactly when regional ones exist", "statement": "A GLO dataset is relabelled RoW iff there is another dataset with the same name and the same (non-zero, allocatable) products and the first such dataset is not a market group; its production volume becomes max(volume - sum of the original volumes of the others, 0) and the old volume is kept as global volume; the number and order of datasets is unchanged; all other datasets are untouched; two GLO datasets in one such group raise MultipleGlobalDatasets, and nothing else is raised if every GLO dataset has one reference product with a volume.", "quantifier": "every list of datasets", "why_tests_cant": "Grouping over the whole database.", "anchors": ["ocelot/transformations/locations/rest_of_world.py:relabel_global_to_row", "ocelot/transformations/locations/validation.py:check_single_global_dataset"]}
{"id": "C32", "title": "No supplier feeds two markets, none is in the wrong place", "statement": "Apportioning suppliers to the markets of a product succeeds only if the markets do not overlap and no two suppliers of one activity overlap. A market is then supplied with exactly the suppliers of its product whose location lies in the market's location, RoW standing for what the other markets (or the other suppliers of the same activity) leave over. A supplier in a place that is not empty reaches at most one market. Of several suppliers with the same activity and location only the last counts.", "quantifier": "every set of suppliers and non-overlapping markets, every topology and every set-iteration order", "why_tests_cant": "Partition property across the whole group, all topologies.", "anchors": ["ocelot/transformations/locations/markets.py:apportion_market_suppliers_to_consumers", "ocelot/transformations/locations/markets.py:add_suppliers_to_markets"]}
{"id": "C33", "title": "Market mixes add up to the market output", "statement": "Allocating suppliers to a market adds one input exchange per supplier with a non-zero volume, with amount proportional to the supplier's production volume, the amounts add up to the market's reference product amount, every input carries the code of its supplier; other exchanges are unchanged.", "quantifier": "every market and every list of suppliers with non-zero total volume", "why_tests_cant": "Sum over arbitrary supplier lists.", "anchors": ["ocelot/transformations/locations/markets.py:allocate_suppliers", "ocelot/transformations/locations/markets.py:allocate_all_market_suppliers"]}
{"id": "C34", "title": "Market production volume is the sum of its suppliers' volumes", "statement": "After updating, the production volume of a market is the sum of the production volumes of its suppliers, reduced by hard-linked volumes and clipped at zero; only markets of the requested kind change. For market groups, which can supply each other, the volumes of the suppliers are the final ones.", "quantifier": "every list of datasets; for market groups: with distinct codes and suppliers strictly inside the group they supply", "why_tests_cant": "The result for groups must not depend on the order of the database; all nestings.", "anchors": ["ocelot/transformations/locations/markets.py:update_market_production_volumes"]}
{"id": "C35", "title": "Splitting a consumer over several markets conserves its demand", "statement": "link_consumers_to_markets replaces each unlinked technosphere input by exchanges for the same product whose amounts add up to the original amount; each is linked to one of the chosen markets for that product, and shares are proportional to market production volumes (the whole amount if there is a single market). If no market is chosen, or several markets have no volume together, the input stays as it is. The demand of every dataset for every product is conserved; market groups and all other exchanges are unchanged.", "quantifier": "every database with known locations and codes, no RoW market group, and a market for refinery gas if that is consumed; every topology", "why_tests_cant": "Conservation over arbitrary market configurations.", "anchors": ["ocelot/transformations/locations/linking.py:link_consumers_to_markets", "ocelot/transformations/uncertainty/__init__.py:scale_exchange"]}
{"id": "C36", "title": "A consumer is never linked to overlapping markets", "statement": "The places of the markets chosen for one input of one consumer are pairwise spatially disjoint (a RoW market and a market group may overlap); they lie within the consumer's location and every other market within it overlaps one of them; if none lies within the consumer's location, at most one market is chosen, a smallest one containing the consumer.", "quantifier": "every topology and market configuration", "why_tests_cant": "Geometric property of a greedy selection.", "anchors": ["ocelot/transformations/locations/linking.py:link_consumers_to_markets", "ocelot/transformations/locations/_topology.py:Topology.contained"]}
{"id": "C37", "title": "Market groups supply from nested groups without double counting", "statement": "The suppliers of a market group are markets or market groups of the same product located inside it (a RoW market only for GLO and only if nothing larger was found), pairwise disjoint except for RoW, in the order of their codes; no group supplies itself, and a market reaches a group through at most one path of groups. All other datasets are unchanged. Market groups of one product with different names raise MarketGroupError.", "quantifier": "every set of markets and market groups of a product with known locations, no group at RoW, and every topology", "why_tests_cant": "Path-uniqueness in an arbitrary nesting.", "anchors": ["ocelot/transformations/locations/market_groups.py:link_market_group_suppliers", "ocelot/transformations/locations/market_groups.py:check_no_row_market_groups"]}
{"id": "C38", "title": "Activity links are resolved to the code of their target", "statement": "After actualisation each exchange with an activity link has the code of the dataset with the linked id whose reference product is the exchanged product, if there is exactly one; all other exchanges are unchanged; a link to an id which no dataset has raises KeyError. Inputs of recycled content products get the code of the single producing activity in the same way, and add_reference_product_codes puts the code of each dataset on its only reference product and on nothing else.", "quantifier": "every database", "why_tests_cant": "Global lookup.", "anchors": ["ocelot/transformations/locations/linking.py:actualize_activity_links"]}
{"id": "C39", "title": "Linked databases have no dangling codes", "statement": "After the whole attributional linking of a database without codes, every code of an input leads to a dataset of the numbered database that makes the exchanged product (links for refinery gas may lead to another product), codes are pairwise different, and that dataset is still there unless it was a Rest-of-World transforming or market activity deleted for lack of production; if the linking deletes nothing, exactly one dataset of the result has the code. The consequential linking deletes nothing after codes were given, so there every code leads to a dataset of the result.", "quantifier": "every database for which linking succeeds", "why_tests_cant": "Referential integrity across about twenty passes including deletions.", "anchors": ["ocelot/transformations/locations/__init__.py:link_markets_by_pv", "ocelot/transformations/locations/markets.py:delete_global_with_zero_pv_when_regional_present", "ocelot/transformations/locations/linking.py:actualize_activity_links"]}
{"id": "C40", "title": "Deleting idle global datasets never removes the last producer", "statement": "delete_global_with_zero_pv_when_regional_present removes exactly the first RoW dataset, among several of the given kind with one reference product, if its original production volume is missing or zero; if no two datasets are equal, another dataset of that kind and product remains. drop_zero_pv_row_datasets removes exactly the RoW markets with production volume zero.", "quantifier": "every list of datasets", "why_tests_cant": "Universal with grouping.", "anchors": ["ocelot/transformations/locations/markets.py:delete_global_with_zero_pv_when_regional_present", "ocelot/transformations/locations/rest_of_world.py:drop_zero_pv_row_datasets"]}
{"id": "C41", "title": "Unlinked inputs are what is deleted, nothing else", "statement": "After deleting unlinked exchanges every remaining technosphere input is linked, and every other exchange is kept in order.", "quantifier": "every database", "why_tests_cant": "Exactness both ways.", "anchors": ["ocelot/transformations/locations/linking.py:log_and_delete_unlinked_exchanges"]}
{"id": "C42", "title": "Only the best available technology is kept as supplier", "statement": "Pruning a market's suppliers by technology level keeps exactly the suppliers of the highest level present, keeps at least one supplier if there was one, and is idempotent; it stops exactly if some market has suppliers but none with a level of the hierarchy.", "quantifier": "every list of suppliers and every assignment of technology levels", "why_tests_cant": "Universal over multisets of levels.", "anchors": ["ocelot/transformations/consequential/market_linking.py:prune_suppliers_by_technology_level"]}
{"id": "C43", "title": "Constrained market substitution is balanced", "statement": "Handling constrained markets leaves every dataset with the same net output of every product, and all exchanges that are not products as they were, as long as conditional exchanges are by-products. If ids are unique, linked datasets have no conditional exchanges and no dataset is linked to twice, then each linked dataset makes the constrained product instead of its reference product, each conditional exchange becomes an input of the opposite amount, nothing else changes, and the pass succeeds iff each linked dataset exists, has one reference product and one exchange of the constrained product. Deleting activity links keeps exactly those of conditional exchanges.", "quantifier": "every database", "why_tests_cant": "Cross-dataset rewriting.", "anchors": ["ocelot/transformations/consequential/constrained_markets.py:handle_constrained_markets", "ocelot/transformations/consequential/constrained_markets.py:delete_activity_links_to_constrained_markets"]}
{"id": "C44", "title": "By-products have alternative producers or the run stops", "statement": "The alternative-production check raises MissingAlternativeProducer iff some by-product name is not the reference product of any dataset, and otherwise returns the data unchanged.", "quantifier": "every database", "why_tests_cant": "Iff over all databases.", "anchors": ["ocelot/transformations/consequential/byproducts.py:ensure_byproducts_have_alternative_production"]}
{"id": "C45", "title": "Excel-style conditionals keep their meaning in Python", "statement": "Rewriting nested if(cond; a; b) formulas to Python conditional expressions preserves the value of the formula whatever the values of the other parts are, whatever the nesting; the Python text has one reading only. On every text the rewriting ends, with no if( left or with ValueError or AttributeError.", "quantifier": "every formula with conditionals nested in any argument position in which conditions and first alternatives have no other semicolons, names do not end in 'if' before a parenthesis and there is no line break in second alternatives; every valuation. Termination: every text", "why_tests_cant": "String rewriting over an infinite language.", "anchors": ["ocelot/transformations/parameterization/python_compatibility.py:find_replace_nested_if_statements", "ocelot/transformations/parameterization/python_compatibility.py:find_if_boundaries", "ocelot/transformations/parameterization/python_compatibility.py:replace_if_statement"]}
{"id": "C46", "title": "Lower-casing formulas is idempotent and consistent", "statement": "Lower-casing parameters changes every variable and every formula by the same character-wise map, nothing else, and is idempotent; two names become equal exactly if they differ in case only, and a variable mentioned in a formula is still mentioned. (Names that collide pass unnoticed: the uniqueness check runs before.)", "quantifier": "every dataset", "why_tests_cant": "All strings.", "anchors": ["ocelot/transformations/parameterization/python_compatibility.py:lowercase_all_parameters"]}
{"id": "C47", "title": "Reserved words are renamed consistently", "statement": "A variable is renamed iff it is a Python reserved word, to the word in capitals, so that no variable is reserved afterwards and lower-case names that were different stay different. Every formula reference to such a variable and no other identifier is renamed in the same way, provided no reserved word is a proper part of a name in the formula, no formula with a reserved word is parsed and the renamed formula is parsed. A formula is never changed in more than the case of letters, and only if the result is parsed.", "quantifier": "every dataset, every variable and formula, every parser and every order of the reserved words", "why_tests_cant": "Substring rewriting over all identifiers.", "anchors": ["ocelot/transformations/parameterization/python_compatibility.py:replace_reserved_words", "ocelot/transformations/parameterization/python_compatibility.py:check_and_fix_formula"]}
{"id": "C48", "title": "Variable names are unique or the run stops", "statement": "The uniqueness check fails iff two parameterised objects of a dataset (exchanges, production volumes, properties or parameters) carry the same non-empty variable name; on success it returns the dataset unchanged.", "quantifier": "every dataset", "why_tests_cant": "Iff over all nestings of named objects.", "anchors": ["ocelot/transformations/parameterization/validation.py:variable_names_are_unique", "ocelot/transformations/utils.py:iterate_all_parameters"]}
{"id": "C49", "title": "Production volume variables become parameters without changing values", "statement": "Turning production volumes with variables into parameters adds one parameter per such production volume with its name, formula and amount and the unit of the exchange, removes name and formula from the production volume and changes nothing else, so each variable name is defined exactly as often as before with the same formula and amount. (The uncertainty is not moved.)", "quantifier": "every dataset", "why_tests_cant": "Universal.", "anchors": ["ocelot/transformations/parameterization/production_volumes.py:create_pv_parameters"]}
{"id": "C50", "title": "Recalculation writes evaluated values and nothing else", "statement": "Recalculating a dataset replaces the amount of every object with a formula by the value of that formula in the variable environment, leaves every object without formula unchanged, and changes no structure.", "quantifier": "every dataset and every evaluator", "why_tests_cant": "Every evaluator and environment.", "anchors": ["ocelot/transformations/parameterization/recalculation.py:recalculate", "ocelot/transformations/parameterization/recalculation.py:extract_named_parameters"]}
{"id": "C51", "title": "A collection behaves like its functions in sequence", "statement": "Running a Collection on data equals running its functions one after another, with the messages in the same order and stopping at the first exception; nested collections and lists unwrap to the same flat sequence of functions in the same order. Running a flat configuration as a system model gives the same data, numbers its steps consecutively and saves exactly the steps the strategy selects. A configuration passes validation exactly if all functions in it have a name.", "quantifier": "every nesting of functions and collections", "why_tests_cant": "Arbitrarily deep nesting.", "anchors": ["ocelot/collection.py:Collection", "ocelot/collection.py:unwrap_functions"]}
{"id": "C52", "title": "A wrapped transformation touches exactly the selected datasets", "statement": "A transformation wrapper applies its function to exactly the datasets selected by its filter and passes all others through; for a function that returns lists of datasets the result is the concatenation in input order.", "quantifier": "every list of datasets, every filter and function", "why_tests_cant": "Higher-order, all functions.", "anchors": ["ocelot/wrapper.py:TransformationWrapper"]}
{"id": "C53", "title": "Save strategies select the documented steps", "statement": "A save strategy given as 'n' selects exactly the multiples of n (and is refused for n below one), 'a:b' exactly the step indices from a to b inclusive, 'a:b:c' with positive c exactly a, a+c, ... up to b inclusive; a step of zero is refused. Every other text is refused: with ValueError if a part between colons is no integer (blanks around, a sign, digits with single underscores between them), with TypeError if there are four parts or more.", "quantifier": "every text and every step index", "why_tests_cant": "All integer triples.", "anchors": ["ocelot/results.py:SaveStrategy"]}
{"id": "C54", "title": "Cached data is never older than its source", "statement": "Extracting a directory with cache returns the same data as extracting it without cache, provided the directory was not modified while it was being extracted, hidden ecospold files are not modified in place and nobody sets modification times; after a crash while the cache is written extraction may fail but never returns wrong data. A cache is used for as long as nothing changes.", "quantifier": "every history of file writes, extractions, cache writes and crashes, with any clock that does not go backwards", "why_tests_cant": "Quantifies over histories and crash points.", "anchors": ["ocelot/filesystem.py:check_cache_directory", "ocelot/filesystem.py:cache_data", "ocelot/filesystem.py:get_from_cache", "ocelot/io/__init__.py:extract_directory"]}
{"id": "C55", "title": "Cleanup deletes only old model runs", "statement": "The cleanup command deletes exactly the directories (of model runs, or any other) whose change time is more than a week before and keeps plain files and newer directories; running it again at the same time deletes nothing more; if there are links to directories it can fail, but still deletes nothing else.", "quantifier": "every directory content and time", "why_tests_cant": "Universal.", "anchors": ["ocelot/io/cleanup.py:cleanup_data_directory"]}
{"id": "C56", "title": "The run report has one entry per executed step", "statement": "Replaying the log of a run yields one function entry per executed transformation, in order, each with the messages logged while that transformation ran, its start and end time and the number of datasets after it, provided functions that log table rows declare a table and those that log list elements do not; there are one more counts and two more times than transformations, and times do not decrease.", "quantifier": "every sequence of transformations and log messages", "why_tests_cant": "Every trace.", "anchors": ["ocelot/report.py:HTMLReport.handle_line", "ocelot/report.py:jsonize", "ocelot/model.py:apply_transformation"]}
{"id": "C57", "title": "Brightway export preserves the technosphere and biosphere matrices", "statement": "Exporting to Brightway gives for every activity and product the same net matrix coefficient (production positive, inputs negative, by-products as negative inputs) as the Ocelot dataset, and for every elementary flow not called refinery gas the same amount; zero amounts are dropped, there is one production exchange, and export succeeds exactly if every exchange to export has the code or compartments its type needs.", "quantifier": "every linked dataset", "why_tests_cant": "Matrix identity for arbitrary datasets.", "anchors": ["ocelot/io/brightway2.py:Brightway2Converter"]}
{"id": "C58", "title": "File names are safe and distinct", "statement": "The generated file name contains only word characters, dots and hyphens, and different strings get different file names; intermediate results of different steps or functions get different file names.", "quantifier": "every string, for any injective hash", "why_tests_cant": "All strings.", "anchors": ["ocelot/filesystem.py:safe_filename"]}
{"id": "C59", "title": "Validation accepts exactly the well-formed databases", "statement": "The id check returns the data unchanged iff all ids differ and raises IdenticalDatasets otherwise; the single-output check passes iff there is exactly one reference product and no allocatable by-product; the market check passes iff every market has exactly one reference product and consumes its own product only through activity links; the production volume check passes iff every allocatable output has a production volume. On success the data are returned unchanged.", "quantifier": "every database", "why_tests_cant": "Soundness and completeness of a check quantify over all databases; tests show one accepted and one rejected case.", "anchors": ["ocelot/transformations/validation.py:ensure_ids_are_unique", "ocelot/transformations/validation.py:check_single_output_activity", "ocelot/transformations/validation.py:validate_markets", "ocelot/transformations/validation.py:ensure_production_exchanges_have_production_volume"]}
{"id": "C60", "title": "The ecoinvent 3.5 link fix removes exactly the withdrawn links", "statement": "The ecoinvent 3.5 fix removes the activity link of exactly the exchanges linked to the withdrawn dataset, changes nothing else and is idempotent.", "quantifier": "every database", "why_tests_cant": "Exactness both ways over arbitrary lists.", "anchors": ["ocelot/transformations/activity_links.py:fix_35_activity_links"]}
{"id": "C61", "title": "Parameters are cleared without touching anything else", "statement": "Deparameterising a dataset leaves no dataset parameter, no property and no variable or formula on any exchange or production volume, keeps every other field of the dataset, its exchanges and their production volumes, and is idempotent. The final check of production volumes succeeds exactly if every dataset has a production volume other than zero, and changes nothing.", "quantifier": "every dataset and every list of datasets", "why_tests_cant": "Holds for all combinations of optional fields of all objects.", "anchors": ["ocelot/transformations/cleanup.py:deparameterize", "ocelot/transformations/cleanup.py:ensure_all_datasets_have_production_volume"]}
{"id": "C62", "title": "Linking changes inputs from technosphere only", "statement": "Linking returns the datasets of the database in their order, leaving out at most global and Rest-of-World datasets. Each keeps all its fields but its code, reference product, supplier list and location, and a location only changes from GLO to RoW or to the corrected name of one European region. Apart from inputs from technosphere its exchanges stay the same, in the same order, with the same amounts, uncertainties and properties; only their codes and production volumes may be set.", "quantifier": "every database for which linking succeeds, with both ways of linking", "why_tests_cant": "A frame condition for fifteen passes over arbitrary databases.", "anchors": ["ocelot/transformations/locations/__init__.py:link_markets_by_pv", "ocelot/transformations/consequential/__init__.py:link_markets_by_technology_level", "ocelot/transformations/locations/linking.py:link_consumers_to_markets", "ocelot/transformations/locations/linking.py:log_and_delete_unlinked_exchanges"]}
{"id": "C63", "title": "The result of a run is normalised", "statement": "Every dataset of a result of the cut-off model has exactly one reference product, whose amount is 1 or -1 up to 1e-14 and positive in markets unless the product is a waste; no by-product that is not allocatable is left. Every dataset of a result of the consequential model has exactly one reference product of amount 1 or -1 up to 1e-14.", "quantifier": "every database for which the configuration runs to the end, every topology, parser, evaluator, hash and order of sets", "why_tests_cant": "A statement about the composition of more than thirty passes over arbitrary databases.", "anchors": ["ocelot/configuration.py:cutoff_config", "ocelot/configuration.py:consequential_config", "ocelot/transformations/cutoff/wastes.py:flip_non_allocatable_byproducts", "ocelot/transformations/utils.py:normalize_reference_production_amount"]}
{"id": "C64", "title": "Codes of a result lead to producers", "statement": "In a result of either system model, starting from extracted data without codes, no two datasets have the same code, and every code an exchange has is the code of a dataset of the result whose reference product has the name of the exchange, except for Rest-of-World datasets the cut-off model deleted after their codes were used; if none was deleted there is no exception and only one such dataset. In the cut-off model every dataset has a code and is labelled with the name of its reference product.", "quantifier": "every database as extracted, for both configurations", "why_tests_cant": "Composition of all passes; dangling links show only in particular databases.", "anchors": ["ocelot/configuration.py:cutoff_config", "ocelot/configuration.py:consequential_config", "ocelot/transformations/identifying.py:add_unique_codes", "ocelot/transformations/locations/linking.py:link_consumers_to_markets"]}
{"id": "C65", "title": "Nothing in a result is made up", "statement": "Every dataset of a result has the id, file, technology level and period of a dataset of the input, and each of its exchanges that is not an input from technosphere has id and unit of an exchange of that same dataset. Its flows from and to the environment have there the same direction, compartment and subcompartment, and the same name unless that ends in the marker for recycled content.", "quantifier": "every database, for both configurations", "why_tests_cant": "Quantifies over all datasets and exchanges after composition of all passes.", "anchors": ["ocelot/configuration.py:cutoff_config", "ocelot/configuration.py:consequential_config"]}
{"id": "C66", "title": "One product per dataset to the end of the cut-off model", "statement": "If the datasets handed to allocation have classified by-products, exchange ids and variables of their own and no allocatable output of amount zero, then every dataset of the result of the cut-off model has exactly one allocatable output of non-zero amount, and it is a reference product.", "quantifier": "every database whose preparation satisfies this and for which the run succeeds", "why_tests_cant": "Allocation, linking, flipping, normalising and signs composed for all databases.", "anchors": ["ocelot/configuration.py:cutoff_config", "ocelot/transformations/cutoff/allocation.py:cutoff_allocation"]}
{"id": "C67", "title": "Extraction reads exactly what a file says", "statement": "Extraction of a dataset succeeds with a dictionary the schema accepts if and only if the tree has, at fixed paths, everything the internal format needs, and the dictionary then reads as exactly what is said there: identity, place, period, type, technology level, access and authors; one exchange for each element called exchange and one parameter for each element called parameter, in their order; direction and kind by group; a production volume exactly for reference products and by-products; compartments exactly for flows from and to the environment; links, classifications, formulas and variables only if given and, but for variables of properties, without white space around; of an uncertainty the first distribution in a fixed order, all of its attributes as numbers under their internal names, and its pedigree or the default.", "quantifier": "every tree and file name, every float and int of a text", "why_tests_cant": "The set of trees is infinite; tests look at a few files, never at everything that must be refused.", "anchors": ["ocelot/io/extract_ecospold2.py:extract_ecospold2_dataset", "ocelot/io/extract_ecospold2.py:extract_exchange", "ocelot/io/extract_ecospold2.py:extract_uncertainty", "ocelot/io/validate_internal.py:dataset_schema"]}
{"id": "C68", "title": "What the schema accepts can be used", "statement": "Every dictionary the schema accepts, with amounts for its parameters and not linked yet, has every key of the type later passes expect; for a dictionary that was just extracted the schema suffices. Validation of a directory reports no errors exactly if every dataset is accepted, whatever it reports is a dataset that is not, and no message is lost. The lists of allowed texts are exactly as documented.", "quantifier": "every dictionary, every list of datasets", "why_tests_cant": "Quantifies over all nested dictionaries; tests only see well-formed ones.", "anchors": ["ocelot/io/validate_internal.py:dataset_schema", "ocelot/io/validate_ecospold2.py:validate_directory"]}
{"id": "C69", "title": "From files to results", "statement": "A directory is extracted and accepted exactly if every dataset of every file is, and gives these datasets in the order of the files, each with the name of its file. They have no codes and suppliers yet. Hence in a result of either system model codes are unique, and every dataset has the id of an activity in the file it names, where each of its exchanges but inputs from technosphere stands with its id and unit, those with the environment with direction, compartments and, unless the name ends in the marker for recycled content, name.", "quantifier": "every directory, both configurations, every topology, parser, evaluator, hash and order of sets", "why_tests_cant": "Composition of extraction and more than thirty passes for all files.", "anchors": ["ocelot/io/extract_ecospold2.py:extract_ecospold2_directory", "ocelot/io/extract_ecospold2.py:generic_extractor", "ocelot/configuration.py:cutoff_config", "ocelot/configuration.py:consequential_config"]}
{"id": "C70", "title": "Passes before linking do what their lists say", "statement": "Deleting listed markets removes exactly the global market activities with one of eleven names and keeps everything else in order. Equal volumes are assigned exactly to transforming activities with one of sixteen names, whose single reference product gets a production volume of one while nothing else changes; this succeeds exactly if each of them has one reference product with a volume. The location of the natural gas pipeline is corrected for that activity in that region only. The check for market groups in RoW stops exactly if there is one and changes nothing. Technology levels are switched from undefined to current for transforming activities only.", "quantifier": "every database", "why_tests_cant": "Exactness for databases in which names, places and types come in any combination.", "anchors": ["ocelot/transformations/locations/markets.py:delete_whitelisted_zero_pv_market_datsets", "ocelot/transformations/locations/markets.py:assign_fake_pv_to_confidential_datasets", "ocelot/transformations/locations/cleanup.py:correct_natural_gas_pipeline_location", "ocelot/transformations/locations/market_groups.py:check_no_row_market_groups", "ocelot/transformations/consequential/technology_levels.py:switch_undefined_to_current"]}
{"id": "C71", "title": "After splitting no dataset has two reference products", "statement": "In the consequential model exactly the datasets with more than one reference product are split; all others are kept as they are, and everything stays in order. A split dataset gives one dataset for each of its reference products of non-zero amount, in which this is the only reference product, with the same id, name and amount. So no dataset has more than one reference product afterwards.", "quantifier": "every database with variables of their own in each dataset, every formula evaluator", "why_tests_cant": "Universal over databases and formulas.", "anchors": ["ocelot/transformations/consequential/combined.py:split_combined_production", "ocelot/transformations/cutoff/combined.py:combined_production", "ocelot/wrapper.py:TransformationWrapper"]}
{"id": "C72", "title": "References by identifier are replaced by the variables of what they refer to", "statement": "In formulas whose only quotes belong to references to an exchange, a parameter or a production volume, replacing implicit references turns each reference into the variable of the first exchange with that identifier, otherwise of the first parameter, or of the volume of that exchange; the rest of the formula is kept. Variables that exist are kept, a new one, made of the identifier, is given only to something referred to that has none, and nothing else in the dataset changes. No formula keeps a reference, and a second pass changes nothing. If everything has an identifier, the pass fails exactly if something is referred to that is not there, with a ValueError.", "quantifier": "every database with such formulas and variables without quotes", "why_tests_cant": "Universal over formulas, with any number of references, and over the order in which variables are made up.", "anchors": ["ocelot/transformations/parameterization/implicit_references.py:replace_implicit_references", "ocelot/transformations/parameterization/implicit_references.py:find_exchange_or_parameter_by_id", "ocelot/transformations/parameterization/implicit_references.py:find_production_volume_by_id", "ocelot/io/ecospold2_meta.py:REFERENCE_REGULAR_EXPRESSIONS"]}
{"id": "C73", "title": "Signs, conditionals and powers in formulas become Python", "statement": "In a formula every percent sign becomes e-2, every caret **, Windows line breaks go, then conditionals, nested in any way, become Python conditionals, then clauses power(b;e) with numbers b and e become ((b)**(e)) with the numbers as Python writes them. The powers must be outside parentheses, not followed by a closing parenthesis before the next semicolon, and all different. A formula without any of these is left alone, and nothing else in the dataset changes. Whatever the formula, if it is rewritten at all, no percent sign, caret or power clause remains; the loop over powers ends, and fails only if one of the numbers cannot be read.", "quantifier": "every formula, every function from numerals to numerals", "why_tests_cant": "Universal over formulas with any number of clauses and over the float conversion.", "anchors": ["ocelot/transformations/parameterization/python_compatibility.py:fix_math_formulas", "ocelot/transformations/parameterization/python_compatibility.py:find_power_clause", "ocelot/transformations/parameterization/python_compatibility.py:find_if_clause", "ocelot/transformations/parameterization/python_compatibility.py:KNOWN_MATH_SUBSTITUTIONS"]}
{"id": "C74", "title": "Corrections of known problems touch nothing but these problems", "statement": "Fixing known bad formula strings replaces, in the four activities listed and in no other dataset, every occurrence of the wrong text in a formula by the right text, from left to right; variables, values and everything else stay. It never fails, leaves no wrong text, and doing it again changes nothing. The numbers put in for thermoforming and for glued laminated timber are the values of the texts they replace, up to rounding. The refinery loses exactly the exchanges of refinery gas with amount zero, and no other dataset loses any. A formula is deleted exactly if it cannot be parsed, and nothing else with it.", "quantifier": "every database, every parser", "why_tests_cant": "Universal over formulas with any number of occurrences, and over what counts as parsable.", "anchors": ["ocelot/transformations/parameterization/known_ecoinvent_issues.py:fix_known_bad_formula_strings", "ocelot/transformations/parameterization/known_ecoinvent_issues.py:KNOWN_SUBSTITUTIONS", "ocelot/transformations/parameterization/known_ecoinvent_issues.py:fix_specific_ecoinvent_issues", "ocelot/transformations/parameterization/python_compatibility.py:delete_unparsable_formulas"]}
{"id": "C75", "title": "The corrections of parameters leave parsable formulas and change nothing else", "statement": "If fixing ecoinvent parameters succeeds, datasets are the same and in the same order but for variables, formulas, uncertainties and the exchanges of refinery gas of the refinery that are zero. Every formula can be parsed, every uncertainty is well-formed, no variable is a reserved word and all are in lower case but for reserved words in capitals. If references in formulas are readable, every variable is kept (in lower case, or in capitals), nothing without a formula gets one, and every formula in which there is nothing to correct is kept.", "quantifier": "every database for which the corrections succeed, every logarithm, float conversion, parser and order of the reserved words", "why_tests_cant": "Universal over databases, over a composition of eight passes.", "anchors": ["ocelot/transformations/parameterization/__init__.py:fix_ecoinvent_parameters"]}
{"id": "C76", "title": "The named configurations do all of their functions, in order", "statement": "Whatever functions implement the tasks of a configuration, running the system model with the configuration gives the result (or the exception) of the composed model, whatever is saved or followed. Every function is started exactly once, in order; exactly the chosen steps are saved, each with the data as they are after the functions before it; if messages fit the tables, the report can be made and counts datasets after each function. No name or the empty name means cutoff, each known name its configuration, and no other text a configuration. A database in which an id is used twice is refused by all of them.", "quantifier": "every database, every implementation of the functions, every save strategy, clock and filter", "why_tests_cant": "Universal over databases and over implementations of sixty-three functions.", "anchors": ["ocelot/configuration.py:cutoff_config", "ocelot/configuration.py:cutoff_config_ecoinvent_row", "ocelot/configuration.py:consequential_config", "ocelot/model.py:system_model", "ocelot/model.py:apply_transformation"]}
{"id": "C77", "title": "Two runs differ at most in the order of exchanges and suppliers", "statement": "Take two runs of the cut-off or consequential model on the same database, where Python iterates over sets of locations in different orders. Either both fail, or both succeed and have the same datasets in the same order; each dataset is the same in all its fields, with the same exchanges and suppliers, perhaps in another order. That the results are equal is false, and so is the claim for the order in which reserved words are replaced.", "quantifier": "every database without suppliers, every world, every two orders of iteration", "why_tests_cant": "The order of iteration over sets of texts is different in every process (hash randomisation); a test sees one order, or a few.", "anchors": ["ocelot/transformations/locations/markets.py:apportion_market_suppliers_to_consumers", "ocelot/transformations/locations/markets.py:allocate_suppliers", "ocelot/transformations/locations/linking.py:link_consumers_to_markets", "ocelot/configuration.py:cutoff_config", "ocelot/configuration.py:consequential_config", "ocelot/transformations/parameterization/python_compatibility.py:check_and_fix_formula"]}
{"id": "C78", "title": "From allocation to the result amounts are only normalised", "statement": "Every dataset in the result of the cut-off model is one of those that exist after allocation, in their order, and no dataset with a place of its own is missing. For every activity that is not a market or market group there is one factor, which brings its reference product to plus or minus one (up to 1e-14): every flow from or to the environment is the same flow times this factor, and outputs minus inputs of every product are what they were times this factor, whatever number of markets the inputs are shared among, under the name without the recycled content marker, and whether or not non-allocatable by-products were turned into inputs. The same holds of the consequential model from its last step before linking on. For refinery gas the claim is false.", "quantifier": "every world, every database, every activity of the result that is not a market, every product name without the marker other than refinery gas", "why_tests_cant": "Linking replaces inputs by any number of shares, by position and by value, in a loop over all inputs; tests look at single steps with one or two inputs.", "anchors": ["ocelot/configuration.py:cutoff_config", "ocelot/configuration.py:consequential_config", "ocelot/transformations/locations/linking.py:link_consumers_to_markets", "ocelot/transformations/locations/__init__.py:link_markets_by_pv", "ocelot/transformations/cutoff/wastes.py:flip_non_allocatable_byproducts", "ocelot/transformations/utils.py:normalize_reference_production_amount"]}
{"id": "C79", "title": "Markets of the result take their output from their suppliers", "statement": "In the result of the cut-off model every market, and every market group, has an input for each of its suppliers with a production volume, with the code of the supplier, under the name of the product of the market, and in proportion to the volume; a single supplier provides everything, several suppliers without volume provide nothing. Outputs minus inputs of its own product are what they were after allocation minus what the suppliers provide, times one factor; outputs minus inputs of every other product are what they were, times one factor of the same size. The factors bring the reference product to plus or minus one; they are equal for market groups, and can differ in sign in markets with a negative reference product. So a market without losses takes as much of its product as it gives, if its suppliers have a volume. The same holds of markets in the consequential model; its market groups are given nothing and so provide from nothing.", "quantifier": "every world with non-empty hashes, every database as extracted, every market and market group of the result, every product name without the marker other than refinery gas", "why_tests_cant": "The mix is made in the middle of linking and later steps rewrite all inputs of markets; tests check the mix right after it was made, with one market.", "anchors": ["ocelot/configuration.py:cutoff_config", "ocelot/configuration.py:consequential_config", "ocelot/transformations/locations/markets.py:allocate_all_market_suppliers", "ocelot/transformations/locations/__init__.py:link_markets_by_pv", "ocelot/transformations/consequential/__init__.py:link_markets_by_technology_level", "ocelot/transformations/cutoff/markets.py:adjust_market_signs_for_allocatable_products"]}
{"id": "C80", "title": "What is sampled is centred on the amount", "statement": "What a repaired object hands over for sampling is centred on its amount: the location is the amount (its logarithm without sign for lognormal distributions, with the sign told separately), the bounds enclose it. Handing over succeeds exactly if the total variance of lognormal and normal distributions is not negative. Rescaling by a factor other than zero rescales what is handed over: bounds in increasing order, location at the new amount, the width of lognormal distributions unchanged; so after any number of rescalings it is still centred. Normal distributions are an exception: whatever the factor, location and width handed over stay what they were.", "quantifier": "every object, every distribution, every list of factors other than zero, every logarithm and square root", "why_tests_cant": "Tests look at one description per distribution as written by hand, never at one that has been repaired and rescaled.", "anchors": ["ocelot/transformations/uncertainty/distributions.py:Lognormal.to_stats_arrays", "ocelot/transformations/uncertainty/distributions.py:Normal.to_stats_arrays", "ocelot/transformations/uncertainty/distributions.py:Triangular.to_stats_arrays", "ocelot/transformations/uncertainty/distributions.py:Uniform.to_stats_arrays", "ocelot/transformations/uncertainty/distributions.py:NoUncertainty.to_stats_arrays"]}
{"id": "C81", "title": "A collection can be edited like a list", "statement": "Reading, replacing and deleting an item of a Collection act on the item at that index, counted from the beginning or, if negative, from the end, keep all others in order, and raise IndexError exactly outside of it. Inserting puts the item before that index, at the ends for indices outside, and never raises. The inherited methods then do what they do for lists: append and extend add at the end, pop undoes append, remove and index find the first equal item, reverse gives what iterating backwards gives, clear empties. Called after an insertion, a collection does what came before the place, then the new item, then the rest, on the data as left by the one before.", "quantifier": "every list of functions, every index, every item, every data", "why_tests_cant": "Tests insert once, at index zero, in lists of three items.", "anchors": ["ocelot/collection.py:Collection.insert", "ocelot/collection.py:Collection.__getitem__", "ocelot/collection.py:Collection.__setitem__", "ocelot/collection.py:Collection.__delitem__", "ocelot/collection.py:Collection.__reversed__", "ocelot/collection.py:Collection.__call__"]}
{"id": "C82", "title": "Places intersect if they have a face in common", "statement": "For places other than GLO and RoW: intersects(a, b) holds exactly if a and b have a face in common; it is symmetric; intersected(a) is the set of all such b, without a itself if asked to; a place that contains another that has a face intersects it; two places overlap exactly if they intersect. GLO and RoW intersect nothing, although every place that has a face intersects GLO. With any size proxy, ordered_dependencies gives each location once, by decreasing total of the proxy over its faces, then by name backwards; if the proxy is positive, a place comes before all places it strictly contains; with the default proxy this is the order by number of faces.", "quantifier": "every table of places, every place, every size proxy, every list of locations with faces", "why_tests_cant": "Tests ask about single pairs of places and one size proxy; symmetry and the comparison with the other relations are about all places at once.", "anchors": ["ocelot/transformations/locations/_topology.py:Topology.intersected", "ocelot/transformations/locations/_topology.py:Topology.intersects", "ocelot/transformations/locations/_topology.py:Topology.overlaps", "ocelot/transformations/locations/_topology.py:Topology.ordered_dependencies", "ocelot/transformations/locations/_topology.py:Topology.default_size_proxy"]}
{"id": "C83", "title": "A result has no new products", "statement": "If the marker of recycled content occurs in no name of the input, then everything in a dataset of the result of the cut-off model has the name of something in one and the same dataset of the input, which has the same id; so the marker is nowhere in the names of products and flows of the result, though it is put on them on the way and products of markets are copied from their suppliers. In the consequential model the same holds without any condition on names. Before allocation the marker is only on by-products and on the one product of datasets that supply recycled content, never twice, and never on products of markets; so what is said of amounts and of markets (C78, C79) holds of every input without the marker. A product that is marked in the input has another name in the result, and the activity that supplies recycled content keeps the marker in its name.", "quantifier": "every world with non-empty hashes, every database as extracted (without the marker in names for the cut-off model)", "why_tests_cant": "Names are changed before allocation, copied while linking and changed back in the end; tests check each step on its own with a name or two.", "anchors": ["ocelot/configuration.py:cutoff_config", "ocelot/configuration.py:consequential_config", "ocelot/transformations/cutoff/wastes.py:handle_waste_outputs", "ocelot/transformations/cutoff/wastes.py:rename_recycled_content_products_after_linking", "ocelot/transformations/cutoff/allocation.py:cutoff_allocation", "ocelot/transformations/locations/__init__.py:link_markets_by_pv"]}
{"id": "C84", "title": "A run shares out everything and loses nothing", "statement": "Let a dataset of the input be neither a market nor a market group, located somewhere other than GLO or RoW, with at most one reference product that is not zero. The datasets with its id and name in the result of the cut-off model correspond to some of its outputs, each taken once, with the id, name and unit of the output and an amount that is not zero. If each of them makes the amount of its output in the input, then every flow from or to the environment (by id, name, type and compartments), and outputs minus inputs of every product other than refinery gas, is together exactly what it is in the input, without exchanges that are marked as consequential only. In every dataset of the result that is no market there is one factor for all flows from and to the environment. With several reference products flows can be counted several times, and a dataset for the rest of the world that makes nothing is deleted with its flows.", "quantifier": "every world with non-empty hashes, every database without the marker of recycled content or an allocation method, every dataset, every flow and every product", "why_tests_cant": "Conservation depends on all transformations in a row and on every allocation method; tests check single allocation functions on a few amounts.", "anchors": ["ocelot/configuration.py:cutoff_config", "ocelot/transformations/cutoff/allocation.py:cutoff_allocation", "ocelot/transformations/cutoff/economic.py:economic_allocation", "ocelot/transformations/cutoff/wastes.py:recycling_allocation", "ocelot/transformations/cutoff/wastes.py:waste_treatment_allocation", "ocelot/transformations/cutoff/utils.py:apply_allocation_factors", "ocelot/transformations/cutoff/cleanup.py:remove_consequential_exchanges", "ocelot/transformations/locations/__init__.py:link_markets_by_pv"]}
{"id": "C85", "title": "The consequential model keeps flows and net outputs", "statement": "Let all conditional exchanges of the input be by-products. Every dataset in the result of the consequential model that is neither a market nor a market group has the id, name and type of a dataset of the input. If that has at most one reference product, there is one positive factor such that every flow from or to the environment (by id, name, type and compartments), and outputs minus inputs of every product other than refinery gas, is that of the input times the factor; either the factor is one or the dataset makes one unit (or minus one). This holds although a constrained market can change which product is the reference product. A dataset of the input located somewhere other than GLO or RoW with at most one reference product is there exactly once. Conditional exchanges of another type, and several reference products, break this.", "quantifier": "every world with non-empty hashes, every database whose conditional exchanges are by-products, every dataset, every flow and every product", "why_tests_cant": "Substitution rewrites other datasets in place before linking; the balance is a statement about all steps in a row, for every flow and product.", "anchors": ["ocelot/configuration.py:consequential_config", "ocelot/transformations/consequential/constrained_markets.py:handle_constrained_markets", "ocelot/transformations/consequential/combined.py:split_combined_production", "ocelot/transformations/consequential/__init__.py:link_markets_by_technology_level", "ocelot/transformations/utils.py:normalize_reference_production_amount"]}
{"id": "C86", "title": "Tables list what was changed", "statement": "The rows a transformation logs for its table are, in order, exactly the exchanges (or datasets) that differ between its input and its output: links dropped because of a zero amount or on products, conditional exchanges, flipped by-products (with their classification), renamed products (with the new name), links to children, links to recycled content, factors by which datasets were normalised (product after over product before), markets whose sign was changed, datasets moved to the rest of the world, confidential volumes, volumes of by-products (with the new volume). Exceptions, with witnesses, where a row is written and nothing changes: a dataset that is its own parent, a by-product of amount zero, a market with zero amounts, a confidential volume that is one. In the consequential model technology levels are changed without a row.", "quantifier": "every database on which the transformation succeeds; no dataset its own parent, no empty code, no market of product zero, no confidential volume of one where needed", "why_tests_cant": "Rows are written in loops that test other conditions than the assignments next to them; that they agree on every database is not visible from examples.", "anchors": ["ocelot/transformations/cutoff/cleanup.py:drop_zero_amount_activity_links", "ocelot/transformations/cutoff/wastes.py:flip_non_allocatable_byproducts", "ocelot/transformations/activity_links.py:update_activity_link_parent_child", "ocelot/transformations/locations/linking.py:link_consumers_to_recycled_content_activities", "ocelot/transformations/utils.py:normalize_reference_production_amount"]}
{"id": "C87", "title": "Tables list what is gone and what is new", "statement": "For datasets and exchanges that are deleted, the listing of the input is a permutation of the rows together with the listing of the output: consequential exchanges, datasets for the rest of the world without production, listed markets. The refinery table has a row for exactly the datasets that lost exchanges, with the numbers before and after. A row of the table of idle global datasets is there if and only if a dataset with these texts was deleted. New recycled-content datasets and new parameters have one row each, with the new name and amount. Links that could not be resolved are those without code afterwards. Exchanges that cannot be linked are listed but kept, and others are deleted without a row.", "quantifier": "every database on which the transformation succeeds; for unresolved links, every database without codes on exchanges", "why_tests_cant": "Deletion and logging are separate loops; nothing missing and nothing too much is a statement about multisets of rows.", "anchors": ["ocelot/transformations/cutoff/cleanup.py:remove_consequential_exchanges", "ocelot/transformations/locations/markets.py:delete_whitelisted_zero_pv_market_datsets", "ocelot/transformations/locations/linking.py:log_and_delete_unlinked_exchanges", "ocelot/transformations/locations/linking.py:actualize_activity_links"]}
{"id": "C88", "title": "The numbers in the tables add up", "statement": "The counts of the table of allocation methods sum to the number of datasets. The table of market volumes has one row for every market in the order of the result, showing the original total, what was taken from the suppliers, what was taken from the market and the volume that the result has. If no supplier lost more than it makes, the net volume is original minus both subtractions, or that is negative and the net volume is zero. If a supplier lost more, the row does not add up.", "quantifier": "every database and topology on which the transformation succeeds", "why_tests_cant": "Clamping at zero happens at several places; a sum that adds up in an example need not add up when one of them was reached.", "anchors": ["ocelot/transformations/locations/markets.py:update_market_production_volumes", "ocelot/transformations/cutoff/allocation.py:label_allocation_method"]}
{"id": "C89", "title": "Rows have as many cells as the table has columns", "statement": "Every row logged by any of twenty-three transformations has as many cells as the table declared for the transformation has columns. The rows of switch_undefined_to_current have three cells, and its table has two columns.", "quantifier": "every database on which the transformation succeeds", "why_tests_cant": "Rows that are written in rare cases only would have to be produced by every one of the tests; a wrong width shows in the finished page only.", "anchors": ["ocelot/report.py:HTMLReport", "ocelot/transformations/consequential/technology_levels.py:switch_undefined_to_current"]}
{"id": "C90", "title": "The table of missing mandatory properties", "statement": "ensure_mandatory_properties leaves the data as they are. Its table has one row for each exchange that has properties but not all six mandatory ones, in the order of the data; the last cell lists exactly the missing ones, sorted and without repetition.", "quantifier": "every database", "why_tests_cant": "Set difference, sorting and the test for empty lists interact; the claim is about every combination of properties.", "anchors": ["ocelot/transformations/validation.py:ensure_mandatory_properties"]}
{"id": "C91", "title": "What recalculating all datasets leaves behind", "statement": "When recalculate_all_parameterized_datasets returns, every dataset is either the recalculated dataset, or its recalculation raises one of the three expected errors; in the second case nothing changed or the first values, in order, are those of the formulas and the others are the old ones, and nothing but values and uncertainties changed. The table lists exactly the datasets of the second kind, in order. The function raises exactly if a dataset raises another error, and then the first such error. A listed dataset may be changed (witness).", "quantifier": "every evaluator, order, database of datasets with reference products", "why_tests_cant": "Interrupted updates in place can stop at every value; a test stops at one.", "anchors": ["ocelot/transformations/parameterization/recalculation.py:recalculate_all_parameterized_datasets", "ocelot/transformations/parameterization/recalculation.py:recalculate"]}
{"id": "C92", "title": "Conflicting technology levels", "statement": "The rows of log_conflicting_technology_levels are, without repetition, exactly the products for which transforming activities of level undefined and of level current exist, with the number of transforming activities for the product. The collection cleanup_technology_levels does not contain the function (witness).", "quantifier": "every database on which the function succeeds", "why_tests_cant": "Grouping and two existence tests over arbitrary databases; the collection is built without any error.", "anchors": ["ocelot/transformations/consequential/technology_levels.py:log_conflicting_technology_levels", "ocelot/collection.py:Collection"]}
{"id": "C93", "title": "Recycling which yields recyclables", "statement": "When recycling_2_allocation succeeds, the only reference product becomes an input of the opposite amount, recyclable by-products become reference products and everything else stays; these and the allocatable by-products are the products of the outputs, which have the economic shares, summing to one, of the other flows. Without recyclable by-products the result is that of recycling_allocation whenever that succeeds. A positive reference product becomes a negative input (witness). missing_formulas holds exactly if an exchange with the environment or from the technosphere has no formula or an empty one.", "quantifier": "every dataset on which the function succeeds", "why_tests_cant": "Shares over arbitrary lists of products; the function is not part of any test or configuration.", "anchors": ["ocelot/transformations/cutoff/wastes.py:recycling_2_allocation", "ocelot/transformations/cutoff/allocation.py:missing_formulas"]}
{"id": "C94", "title": "Tables of changes to formulas", "statement": "When fix_math_formulas succeeds, replacing row by row the shown element by the shown replacement turns each old formula into its new one, every element being in the formula when its turn comes. The words in the rows of replace_reserved_words, put in capital letters, give the new formula, or the formula stays and cannot be parsed that way; variables have a row exactly if they change. delete_unparsable_formulas writes a row for each formula it deletes, cut in pieces of 40 characters. replace_implicit_references writes a row for each reference in each formula, showing the variable of the object referred to. Rows for powers omit the formula, and a row of replace_reserved_words may belong to a formula that stays (witnesses).", "quantifier": "every database on which the transformation succeeds; for references, formulas made of characters and references, without other quotes", "why_tests_cant": "Formulas are arbitrary strings, rewritten in several passes whose log has to fit the composition of the passes.", "anchors": ["ocelot/transformations/parameterization/python_compatibility.py:fix_math_formulas", "ocelot/transformations/parameterization/python_compatibility.py:check_and_fix_formula", "ocelot/transformations/parameterization/python_compatibility.py:delete_unparsable_formulas", "ocelot/transformations/parameterization/implicit_references.py:replace_implicit_references"]}
{"id": "C95", "title": "Tables of linking and of combined production", "statement": "Row by row, the table of combined_production names the dataset, the one reference product and the location of the datasets returned. The table of link_market_group_suppliers is, up to order, the list of the suppliers of the market groups afterwards, with name and location of the group and location of the supplier. The table of link_consumers_to_markets has, dataset by dataset and input by input, the locations of the markets among which the input is shared; every new input has its row or is an old one with a code, and every row names a market for the product of an open input of the dataset. A row can be there although the input stays unlinked, and inputs linked to one market have none (witnesses). Rows have as many cells as their tables have columns.", "quantifier": "every database on which the transformation succeeds; for groups, without suppliers before; for consumers, known locations, codes, no RoW market groups and markets for refinery gas if used", "why_tests_cant": "The rows are written inside nested loops that change the data; agreement with the result is a relation over all inputs, markets and geographies.", "anchors": ["ocelot/transformations/cutoff/combined.py:combined_production", "ocelot/transformations/locations/market_groups.py:link_market_group_suppliers", "ocelot/transformations/locations/linking.py:link_consumers_to_markets"]}
{"id": "C96", "title": "Repair keeps, changes and removes exactly the distributions it should", "statement": "repair_all_uncertainty_distributions succeeds if and only if every description of uncertainty can be repaired, and the result is determined place by place: a lognormal one is removed for amount or variance zero and else gets mean, mu and sign of its amount, its variance less that of the pedigree matrix (the logarithm of it from one to e, a quarter beyond) and the sum of both; a normal one is removed for variance zero and else gets its mean; triangular and uniform ones get their bounds in order, are removed where these coincide, a triangular one that misses its amount is removed and a uniform one refused, and a uniform one not around its amount becomes triangular. Everything else stays. The variance of a pedigree matrix is the sum of the published numbers for either table; scores below one count from the end (witness).", "quantifier": "every database, every logarithm and every e of at least one; every version and pedigree matrix", "why_tests_cant": "The branches depend on comparisons of rationals, order of bounds and tolerances; tests fix a few amounts.", "anchors": ["ocelot/transformations/uncertainty/distributions.py:Lognormal.repair", "ocelot/transformations/uncertainty/distributions.py:Normal.repair", "ocelot/transformations/uncertainty/distributions.py:Triangular.repair", "ocelot/transformations/uncertainty/distributions.py:Uniform.repair", "ocelot/transformations/uncertainty/pedigree.py:get_pedigree_variance", "ocelot/transformations/parameterization/uncertainty.py"]}
{"id": "C97", "title": "What becomes of the pedigree matrices of files", "statement": "The pedigree matrix of a file stands inside the description of uncertainty, where neither repair nor ageing looks for it. So repair gives a lognormal distribution the whole variance as the variance without the matrix, the same for every matrix; after repair, ageing to any year changes nothing; without repair it replaces the variance by that without the matrix for every year, which can lower it (witness). The matrix names an indicator in another way than the tables, so that its variance cannot be computed: KeyError.", "quantifier": "every XML tree, parsers of numbers, logarithm, e of at least one and pair of years", "why_tests_cant": "Tests of repair and ageing write their exchanges by hand, with the matrix where the code looks for it; that no file can lead to such an exchange is a statement about all trees.", "anchors": ["ocelot/io/extract_ecospold2.py:extract_uncertainty", "ocelot/io/ecospold2_meta.py:PEDIGREE_LABELS", "ocelot/transformations/uncertainty/__init__.py:adjust_pedigree_matrix_time", "ocelot/transformations/uncertainty/pedigree.py:PEDIGREE_MATRIX_VALUES", "ocelot/transformations/uncertainty/distributions.py:Lognormal"]}
{"id": "C98", "title": "What a model run leaves on the disk, however it ends", "statement": "A completed run leaves a directory with the whole log, the report of it and exactly the pickles that the save strategy and the follow text ask for, each with the data after the function it is named after, and the final results. A function that raises leaves the same pickles up to it, the log up to what the function logged, and no report. Wherever a run is stopped or killed: every pickle that is not cut off holds the right data, at most one is cut off, the log is a beginning of the full log, a line that a function (or the run) has ended is there only after all its pickles are, and a page of the report is there only if all functions were run. Directories of other runs are never touched, an interrupt leaves the disk as it was, and in any history of runs and cleanups a directory is what its run alone would have left. Refuted: an interrupt while the report is made deletes complete final results; a killed run can leave a cut-off final-results.pickle; an interrupt while the directory is made leaves it. The output directory is the one of OCELOT_OUTPUT if it exists or can be made, else that of the user; refuted: an existing one that cannot be written to fails the run.", "quantifier": "every list of named functions, data, save strategy, follow text, clock; every point at which the run is interrupted or stopped; every history of runs with new ids and of cleanups; every state of paths", "why_tests_cant": "Crash points and histories: a test can stop a run at a few places; the claims are about all of them.", "anchors": ["ocelot/model.py:system_model", "ocelot/model.py:apply_transformation", "ocelot/filesystem.py:OutputDir", "ocelot/filesystem.py:save_intermediate_result", "ocelot/filesystem.py:save_specific_dataset", "ocelot/filesystem.py:get_output_directory", "ocelot/logger.py:create_log", "ocelot/report.py:HTMLReport"]}
{"id": "C99", "title": "Normalisation, economic allocation and market shares survive floating point", "statement": "In binary64 (round to nearest, ties to even; no overflow or underflow), with additions in any order: after normalisation the reference product is exactly 1 or -1, or the number just below in size, or untouched because it was within 1.02e-14 of one; normalising again changes not one bit; every amount is divided by that of the product up to 1.02e-14 of it. Allocation factors exist exactly when the exact ones do, each is the exact one up to 3n+7 steps of 2^-52 and so is their sum; after allocation and normalisation the processes together keep every burden up to that and 2.1e-14. Inputs of a market or a divided consumer are the exact shares up to n+2 steps, add up to the amount up to n+2 steps, and a market is skipped exactly when it is in exact arithmetic. Without rounding these programs are the modelled ones. Refuted: the amount is always one (49); shares always add up exactly (three equal ones); with a negative volume rounding can make the total vanish and the market is skipped.", "quantifier": "every rounding that is nearest with ties to even, every order of addition of at most n steps, all amounts, prices, true values and volumes (non-negative where stated)", "why_tests_cant": "Tests compare a few amounts with a tolerance; the bounds hold for all numbers and all orders of addition, and bit-for-bit idempotence depends on every one of 2^64 values.", "anchors": ["ocelot/transformations/utils.py:normalize_reference_production_amount", "ocelot/transformations/utils.py:choose_reference_product_exchange", "ocelot/transformations/cutoff/economic.py:economic_allocation", "ocelot/transformations/locations/markets.py:allocate_suppliers", "ocelot/transformations/uncertainty/__init__.py:scale_exchange"]}
{"id": "C100", "title": "A missing key is reported by its name", "statement": "Scaling, repairing, ageing and sampling distributions, classifying, renaming, flipping and merging exchanges, subtracting volumes, linking markets and totalling their volumes, and exporting all read keys that a dictionary may lack. Each raises KeyError exactly if one of the keys it reads is missing, and the error names the first one missing in the order of reading; keys of suppliers without a share, of amounts of zero and of other distributions are not asked for.", "quantifier": "every exchange, dataset and list of datasets, with any keys missing", "why_tests_cant": "Every subset of keys can be missing, at every position of every list.", "anchors": ["ocelot/transformations/uncertainty/distributions.py", "ocelot/transformations/utils.py:allocatable_production", "ocelot/transformations/cutoff/combined.py:add_exchanges", "ocelot/transformations/locations/markets.py:allocate_suppliers", "ocelot/transformations/locations/markets.py:update_market_production_volumes", "ocelot/transformations/cutoff/wastes.py:flip_non_allocatable_byproducts"]}
{"id": "C101", "title": "What a command line does", "statement": "The command line program calls exactly the function that its arguments ask for, with the arguments they give, and at most one: which command lines ask for what is stated by the words and options they spell, with abbreviations, joined letters, arguments after \"=\" and \"--\". A command line never has two meanings. Help and version win over everything else; what cannot be read or asks for nothing ends with status 1; an interruption ends with status 1 and every other end of the call is the end of the program.", "quantifier": "every list of arguments, every end of the function called", "why_tests_cant": "Options come in any order, abbreviated, joined or repeated, mixed with words of any text.", "anchors": ["ocelot/bin/ocelot_cli.py", "ocelot/configuration.py"]}
{"id": "C102", "title": "Importing into Brightway is all or nothing", "statement": "Importing a result into a Brightway project never touches another database, refuses a name in use without any change, and writes a database exactly if all datasets can be translated, all strategies succeed and no exchange stays unlinked; otherwise no database is made. The list of the caller is either as before or holds the translated activities, and in that case it can never be imported again.", "quantifier": "every project, every list of datasets, every importer with any strategies and any count of unlinked exchanges", "why_tests_cant": "Needs a Brightway project and every combination of failing strategies.", "anchors": ["ocelot/io/brightway2.py:import_into_brightway2"]}
{"id": "C103", "title": "XSD validation reports the invalid files", "statement": "Validating a directory against a schema reports exactly the names of the files ending in .spold, in any case of letters, that the schema does not accept, in the order of the directory; other files do not matter, missing directories and schemas are found first, and the only other end is the first such file that is no XML.", "quantifier": "every directory with any names and contents, every schema", "why_tests_cant": "Directories hold any number of files in any order with any content.", "anchors": ["ocelot/io/validate_ecospold2.py:validate_directory_against_xsd"]}
{"id": "C104", "title": "What the detailed log tells", "statement": "Every line of the detailed log names the id, code and file of the dataset it is about, where the file is the path without its directory. From the lines about hard links the amount subtracted from each dataset can be added up exactly; net volumes, allocation methods, volumes of the rest of the world, new inputs of markets (whose amounts add up to the output), resolved links and the inputs of consumers each have the lines that give what was done, and nothing else has.", "quantifier": "every list of datasets accepted by the transformation", "why_tests_cant": "Lines depend on all volumes, links and markets of the data at once; no test reads the detailed log.", "anchors": ["ocelot/logger.py:DatasetJsonFormatter", "ocelot/transformations/activity_links.py", "ocelot/transformations/locations/markets.py:allocate_suppliers", "ocelot/transformations/locations/linking.py", "ocelot/transformations/locations/rest_of_world.py:relabel_global_to_row"]}
{"id": "C105", "title": "Copies and changes in place", "statement": "With datasets and exchanges as objects that are deep-copied, changed in place and compared by identity, cutoff allocation gives, for every list of datasets that share no object, what the functions on values give, with the same exceptions; its results share no object; of the objects there were before only those of the given datasets are different. Economic allocation, waste treatment and combined production change no object that was there. Later passes which change exchanges in place are then maps over values.", "quantifier": "every heap, every list of datasets that share no object, every recalculation that keeps the number of exchanges (which recalculate does)", "why_tests_cant": "Sharing shows only when one of two datasets is changed later, in another transformation; tests compare the direct results.", "anchors": ["ocelot/transformations/utils.py:choose_reference_product_exchange", "ocelot/transformations/cutoff/combined.py", "ocelot/transformations/cutoff/wastes.py", "ocelot/transformations/cutoff/economic.py", "ocelot/transformations/cutoff/allocation.py:cutoff_allocation", "ocelot/wrapper.py"]}
{"id": "C106", "title": "Linking consumers in place", "statement": "With datasets and exchanges as objects, link_consumers_to_markets, which reads the markets when its loop gets to them and changes inputs of the datasets in place, ends as the function on values which reads the markets from the data as given: same datasets, same exceptions, and the results share no object. Also after cutoff allocation of newly made objects. Without separation this is false.", "quantifier": "every heap, every topology, every list of datasets that share no object, every recalculation that keeps the number of exchanges", "why_tests_cant": "That a loop which changes datasets does not read what it changed depends on the order and on all pairs of datasets; tests have a few datasets in one order.", "anchors": ["ocelot/transformations/locations/linking.py:link_consumers_to_markets", "ocelot/transformations/locations/markets.py:allocate_suppliers"]}
{"id": "C107", "title": "Hard links and recycled content in place", "statement": "With datasets and exchanges as objects that are read as they are at the time, add_hard_linked_production_volumes (which changes exchanges of other datasets than the one it is at), actualize_activity_links and link_consumers_to_recycled_content_activities end as the functions on values do, which read the data as given: same datasets, same exceptions. No object is made, and the datasets keep theirs. Also one after the other with cutoff allocation and market linking. Without separation this is false.", "quantifier": "every heap, every list of datasets that share no object (also with equal ids, links in a circle and to itself)", "why_tests_cant": "Whether a loop reads what it has changed depends on the order of all datasets and links; tests have two datasets.", "anchors": ["ocelot/transformations/activity_links.py:add_hard_linked_production_volumes", "ocelot/transformations/locations/linking.py:actualize_activity_links", "ocelot/transformations/locations/linking.py:link_consumers_to_recycled_content_activities"]}
{"id": "C108", "title": "Caches of the topology", "statement": "With the caches of functools.lru_cache on _contained, _contains and _ordered_dependencies (shared objects, least recently used entry dropped, exceptions not kept), any code that only reads the answers gets the answers of the functions, in any order and number of calls, also from several topologies; so does a caller whose object nobody changed. A cache has at most 512 entries. Findings: the caches give out their own sets and lists, so a change by one caller is what the next gets; changed data or size proxies have no effect on what was asked before; a set as subtract raises TypeError.", "quantifier": "every function, size of cache and sequence of calls, changes of objects and changes of data; every program that asks the topologies", "why_tests_cant": "A cache with 512 entries goes wrong only after long sequences of calls; tests make few calls on one topology.", "anchors": ["ocelot/transformations/locations/_topology.py:contained", "ocelot/transformations/locations/_topology.py:contains", "ocelot/transformations/locations/_topology.py:ordered_dependencies"]}
{"id": "C109", "title": "Suppliers, volumes and inputs of markets in place", "statement": "With datasets and exchanges as objects that are read as they are at the time, add_recycled_content_suppliers_to_markets and add_suppliers_to_markets (which change the datasets of one reference product after another, and may read a dataset as supplier after it was changed), update_market_production_volumes for markets and allocate_all_market_suppliers end as the functions on values do, which read the data as given and collect the changes: same datasets, same exceptions. Also one after the other with the linking of consumers. Datasets that share no object share none afterwards; without separation this is false.", "quantifier": "every heap, topology, order of sets, pair of types (also the same type twice) and list of datasets that share no object", "why_tests_cant": "Whether a group reads what another one has changed depends on all products, types and locations; tests have one group.", "anchors": ["ocelot/transformations/locations/markets.py:apportion_market_suppliers_to_consumers", "ocelot/transformations/locations/markets.py:add_recycled_content_suppliers_to_markets", "ocelot/transformations/locations/markets.py:add_suppliers_to_markets", "ocelot/transformations/locations/markets.py:update_market_production_volumes", "ocelot/transformations/locations/markets.py:allocate_all_market_suppliers"]}
{"id": "C110", "title": "Volumes of market groups in place", "statement": "With datasets and exchanges as objects, update_market_production_volumes for market groups, which computes one volume after the other in order of size and writes each into the suppliers of all other groups, ends as the function on values does, which goes through the whole database instead of the ordered groups: with the same datasets, or both with an exception. Datasets that share no object share none afterwards. Which exception is raised can differ.", "quantifier": "every heap, topology and list of datasets that share no object; groups may supply each other or themselves, in any order and place", "why_tests_cant": "A group reads what earlier ones have written into it; which ones are earlier depends on all locations. Tests have two groups.", "anchors": ["ocelot/transformations/locations/markets.py:update_market_production_volumes"]}
{"id": "C111", "title": "Suppliers of market groups in place", "statement": "With datasets and exchanges as objects, link_market_group_suppliers, which gives one market group after the other its suppliers and may read a group as supplier after it was changed, ends as the function on values does, which reads the data as given: same datasets, same exceptions. The three steps for market groups (suppliers, volumes, inputs) one after the other end with the same datasets as on values, or both with an exception.", "quantifier": "every heap, topology and list of datasets that share no object; groups may be nested, overlap or be at one location", "why_tests_cant": "Whether a group is read before or after it is changed depends on names, products and locations of all groups.", "anchors": ["ocelot/transformations/locations/market_groups.py:link_market_group_suppliers", "ocelot/transformations/locations/__init__.py:link_markets_by_pv"]}
{"id": "C112", "title": "Linking as a whole in place", "statement": "With datasets and exchanges as objects that all steps share, the steps of link_markets_by_pv from actualize_activity_links to link_consumers_to_markets, with both deletions of datasets in between, end with the same datasets as the steps on values one after the other, or both with an exception. Deleting changes no object and keeps some of the objects given.", "quantifier": "every topology, order of sets, logarithm and list of datasets", "why_tests_cant": "Tests run single steps on data made for them; what one step leaves in an object for the next depends on all of them.", "anchors": ["ocelot/transformations/locations/__init__.py:link_markets_by_pv", "ocelot/transformations/locations/markets.py:delete_global_with_zero_pv_when_regional_present"]}
{"id": "C113", "title": "The whole collection of linking in place", "statement": "With datasets and exchanges as objects that all steps share, the whole collection link_markets_by_pv ends with the same datasets as the collection on values, or both with an exception. Making rest-of-world datasets, labels, volumes that are made up, the place of the pipeline, and codes of datasets and of reference products give on objects that share nothing what they give on values, with the same exception if there is one, and each dataset keeps its objects.", "quantifier": "every hash, topology, order of sets, logarithm and list of datasets; for single steps every heap in which the datasets share no object", "why_tests_cant": "Tests run single steps on data made for them; relabelling changes the location that later groups and steps read, and what one step leaves in an object for the next depends on all of them.", "anchors": ["ocelot/transformations/locations/__init__.py:link_markets_by_pv", "ocelot/transformations/locations/rest_of_world.py:relabel_global_to_row", "ocelot/transformations/identifying.py:add_unique_codes", "ocelot/transformations/locations/linking.py:add_reference_product_codes"]}
{"id": "C114", "title": "Consequential linking as a whole in place", "statement": "With datasets and exchanges as objects that all steps share, the whole collection link_markets_by_technology_level ends with the same datasets as the collection on values, or both with an exception. Choosing suppliers by technology level and deleting the lists of suppliers give on objects that share nothing what they give on values, with the same exception if there is one.", "quantifier": "every hash, topology, order of sets, logarithm and list of datasets; for single steps every heap in which the datasets share no object", "why_tests_cant": "The collection is not run by tests; what one step leaves in an object for the next depends on all of them.", "anchors": ["ocelot/transformations/consequential/__init__.py:link_markets_by_technology_level", "ocelot/transformations/consequential/market_linking.py:prune_suppliers_by_technology_level", "ocelot/transformations/locations/markets.py:delete_suppliers_list"]}
{"id": "C115", "title": "The cutoff model from allocation to its end in place", "statement": "With datasets and exchanges as objects that all steps share, cutoff allocation, dropping links of reference products, the collection link_markets_by_pv, renaming recycled content, flipping byproducts, normalizing and adjusting signs of markets one after the other end with the same datasets as the functions on values, or both with an exception. So the result for objects of the prepared datasets is that of the cutoff model.", "quantifier": "every world (hash, logarithm, order of sets, topology, evaluation of formulas) and list of datasets", "why_tests_cant": "Tests run single steps on data made for them; what one step leaves in an object for the next depends on all of them.", "anchors": ["ocelot/configuration.py:cutoff_config", "ocelot/transformations/cutoff/cleanup.py:drop_rp_activity_links", "ocelot/transformations/cutoff/wastes.py:rename_recycled_content_products_after_linking", "ocelot/transformations/cutoff/wastes.py:flip_non_allocatable_byproducts", "ocelot/transformations/cutoff/markets.py:adjust_market_signs_for_allocatable_products"]}
