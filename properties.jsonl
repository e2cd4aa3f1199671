{"id": "C01", "title": "Activation round trip", "statement": "Building an Activation from a 0/1 vector and then asking for `raw` and `len` gives back exactly that vector and its length, whatever the class settings (DTYPE, WILL_COMPARE, STORE_RAW), the flags (optimize, to_file) and the outcome of the memory-size comparisons that choose the storage format.", "quantifier": "every non-empty 0/1 vector (with DTYPE=np.ndarray: of length 2 to 2^31-1 or at least 2^32, the other lengths are C62), every combination of settings and flags, every size oracle, every random file name that is free", "why_tests_cant": "The storage format depends on sys.getsizeof comparisons and on class-wide switches; tests sample two vectors, the property is over all vectors and all format decisions.", "anchors": ["ruleskit/activation.py:Activation.__init__", "ruleskit/activation.py:Activation._init_with_any", "ruleskit/activation.py:Activation._init_with_raw", "ruleskit/activation.py:Activation._write", "ruleskit/activation.py:Activation.raw"]}
{"id": "C02", "title": "All views of an activation agree", "statement": "For an activation that represents vector v, `as_bitarray`, `as_integer`, `as_compressed_str`, `as_compressed_array`, `ones`, `nones`, `coverage`, `entropy` and `rel_entropy` are the corresponding functions of v (bits, big-endian binary number, initial value + switch positions + length, positions of ones, number of ones, fraction of ones, number of switches + 2, that divided by the length), independently of the storage format.", "quantifier": "every vector, every storage format, every cache state reachable through the API", "why_tests_cant": "Each accessor has one code path per storage format and reads or fills caches; agreement must hold for all vectors in all formats.", "anchors": ["ruleskit/activation.py:Activation.as_bitarray", "ruleskit/activation.py:Activation.as_integer", "ruleskit/activation.py:Activation.as_compressed_str", "ruleskit/activation.py:Activation.as_compressed_array", "ruleskit/activation.py:Activation.nones", "ruleskit/activation.py:Activation.entropy", "ruleskit/activation.py:Activation.coverage", "ruleskit/activation.py:Activation.ones"]}
{"id": "C03", "title": "Every input representation denotes the same vector", "statement": "Building an Activation from the bitarray, the integer plus length, the compressed string, the compressed array, the path of a saved raw file, or lazily from that path, of the same vector v gives an activation representing v (a lazily loaded one once `raw` has been read, see C63).", "quantifier": "every vector v in the domain of C01 whose length an int32 or int64 compressed array can hold (not between 2^31 and 2^32; >= 2 for a compressed array), every settings combination, every free file name", "why_tests_cant": "Six constructors times eight settings times all vectors.", "anchors": ["ruleskit/activation.py:Activation.__init__", "ruleskit/activation.py:Activation._init_with_bitarray", "ruleskit/activation.py:Activation._init_with_integer", "ruleskit/activation.py:Activation._init_with_str", "ruleskit/activation.py:Activation._init_with_compressed_array", "ruleskit/activation.py:Activation._read"]}
{"id": "C04", "title": "Reading never changes an activation", "statement": "After any sequence of accessor calls interleaved with changes of the class settings, the activation still represents the same vector and no file on disk has been created, changed or removed.", "quantifier": "every activation, every finite history of accessor calls and settings changes", "why_tests_cant": "Accessors fill caches and temporarily flip class-wide flags; the claim is about all histories.", "anchors": ["ruleskit/activation.py:Activation.raw", "ruleskit/activation.py:Activation._decompress", "ruleskit/activation.py:Activation._integer_to_raw", "ruleskit/activation.py:Activation._bitarray_to_raw"]}
{"id": "C05", "title": "Logical operators are pointwise", "statement": "For activations of equal length, `a & b`, `a | b`, `a ^ b` and `a - b` represent the pointwise AND, OR, XOR and AND-NOT of the operands, whatever the storage formats of the two operands, except two integers (see C64); operands of different lengths raise ValueError.", "quantifier": "every pair of activations in every pair of storage formats other than integer-integer (for `-`, whose intermediate result is combined with the first operand, also not a first operand stored as integer with WILL_COMPARE on)", "why_tests_cant": "36 format pairs with different code paths times all vectors.", "anchors": ["ruleskit/activation.py:Activation.__and__", "ruleskit/activation.py:Activation.__or__", "ruleskit/activation.py:Activation.__xor__", "ruleskit/activation.py:Activation.__sub__"]}
{"id": "C06", "title": "Many-vector operators do not depend on the memory situation", "statement": "`multi_logical_and/or/xor` of a non-empty list of equal-length activations gives the pointwise AND / OR / (OR and not AND) of all of them, and the result is the same on the all-at-once path, on the pairwise low-memory path, and on the path taken after a MemoryError; when the readings say that memory is exhausted MemoryError is raised instead.", "quantifier": "every list length, every vector, every reading of available memory, MemoryError or not", "why_tests_cant": "The path is chosen from psutil readings and allocator failures that tests cannot control.", "anchors": ["ruleskit/activation.py:Activation.multi_logical_and", "ruleskit/activation.py:Activation.multi_logical_or", "ruleskit/activation.py:Activation.multi_logical_xor"]}
{"id": "C07", "title": "`+` of activations is logical OR", "statement": "`a + b` is a synonym of `a | b` (docstring).", "quantifier": "every pair of activations", "why_tests_cant": "Universal over vectors.", "anchors": ["ruleskit/activation.py:Activation.__add__"]}
{"id": "C08", "title": "Compressed codec is lossless", "statement": "Decompressing a compressed activation gives the original vector, two different vectors never have the same compressed form, and the textual form parses back to the same numbers, for the string and for the array dtype.", "quantifier": "every non-empty 0/1 vector (for the array dtype: of a length outside [2^31, 2^32), see C62)", "why_tests_cant": "Run-length coding has boundary cases at length 1, constant vectors, first value 1, and at 2^31 / 2^32 for the int32/int64 choice.", "anchors": ["ruleskit/activation.py:Activation._compress", "ruleskit/activation.py:Activation._decompress", "ruleskit/activation.py:MAX_INT_32"]}
{"id": "C09", "title": "Integer codec is lossless", "statement": "Converting a vector to an integer and back with its length is the identity, vectors of equal length with the same integer are equal, and an integer without a length is rejected.", "quantifier": "every non-empty vector, every integer", "why_tests_cant": "Leading zeros and overlong integers range over all naturals.", "anchors": ["ruleskit/activation.py:Activation._raw_to_integer", "ruleskit/activation.py:Activation._integer_to_raw", "ruleskit/activation.py:Activation.as_bitarray", "ruleskit/activation.py:Activation.__init__"]}
{"id": "C10", "title": "A copy is independent of its original", "statement": "copy(a) represents the same vector as a, and deleting the copy (or the original) leaves the other readable.", "quantifier": "every activation in every storage format, every settings combination", "why_tests_cant": "File-backed copies must not share the file.", "anchors": ["ruleskit/activation.py:Activation.__copy__", "ruleskit/activation.py:Activation.delete"]}
{"id": "C11", "title": "clear and delete", "statement": "clear() turns an activation into the all-zero vector of the same length; after delete() the data is gone but every statistic computed before (nones, coverage, entropy, length) is still available with the same value.", "quantifier": "every activation, every storage format", "why_tests_cant": "History property over cached statistics.", "anchors": ["ruleskit/activation.py:Activation.clear", "ruleskit/activation.py:Activation.delete"]}
{"id": "C12", "title": "Saving an activation never damages another file", "statement": "Building, copying, reading and combining activations never changes the content of a file that already existed (lazily loaded activations: see C67; taken names: see C66).", "quantifier": "every disk state, every sequence of random numbers", "why_tests_cant": "Name collisions have probability about 1e-64 per draw and never occur in a test run.", "anchors": ["ruleskit/activation.py:Activation._write"]}
{"id": "C13", "title": "`b in a` means the points of b are points of a", "statement": "`b in a` for activations (and rules) is True exactly when every activated point of b is activated in a.", "quantifier": "every pair of equal-length activations", "why_tests_cant": "Universal over vectors.", "anchors": ["ruleskit/activation.py:Activation.__contains__", "ruleskit/rule.py:Rule.__contains__"]}
{"id": "C14", "title": "Correlation of activations", "statement": "get_correlation is the fraction of positions where the two vectors agree: it is symmetric, lies in [0,1], and is 1 exactly for equal vectors; different lengths raise ValueError.", "quantifier": "every pair of activations", "why_tests_cant": "Universal over vectors and formats.", "anchors": ["ruleskit/activation.py:Activation.get_correlation"]}
{"id": "C15", "title": "Class-wide settings survive conversions", "statement": "Reading a compressed activation as a bitarray or as an integer leaves Activation.WILL_COMPARE as it was and returns the requested type; so do any number of threads converting at the same time to the type that WILL_COMPARE already selects (the other cases are C68).", "quantifier": "every activation, every number of threads, every interleaving", "why_tests_cant": "Schedules and crash points cannot be enumerated by tests.", "anchors": ["ruleskit/activation.py:Activation.as_bitarray", "ruleskit/activation.py:Activation.as_integer", "ruleskit/activation.py:Activation._decompress"]}
{"id": "C16", "title": "Profiling accessors do not disturb the activation", "statement": "With FORCE_STAT on, reading any sizeof_* or time_* attribute leaves the represented vector, the storage format and the set of files on disk unchanged.", "quantifier": "every activation, every storage format, every profiling attribute", "why_tests_cant": "Accessors temporarily replace the stored data and write and remove a temporary file.", "anchors": ["ruleskit/activation.py:Activation.sizeof_file", "ruleskit/activation.py:Activation.time_write", "ruleskit/activation.py:Activation.time_read", "ruleskit/activation.py:Activation.time_compressed_to_raw"]}
{"id": "C17", "title": "Condition constructor validation", "statement": "HyperrectangleCondition accepts exactly the argument lists of equal lengths whose elements have the right types (int indexes, str names, numeric bounds) and with no duplicated feature index or name; a rejected construction raises ValueError (missing list, lengths, unknown sort setting), TypeError or DuplicatedFeatures, in this order, and an accepted one keeps the association feature -> (name, index, bmin, bmax), in the given order without sort and in the order of SORT_ACCORDING_TO with it.", "quantifier": "all argument lists, both sort modes", "why_tests_cant": "All sizes and all orders.", "anchors": ["ruleskit/condition.py:HyperrectangleCondition.__init__", "ruleskit/condition.py:Condition.__init__"]}
{"id": "C18", "title": "evaluate is the hyper-rectangle test", "statement": "evaluate(xs) gives one entry per row, 1 exactly when for every feature of the condition the value is finite and bmin <= value <= bmax (bounds included, NaN and infinities never activate), for arrays (by index, negative ones counting from the end) and DataFrames (by name); a feature outside xs raises IndexError.", "quantifier": "every condition (with at least one feature for DataFrames, see C74), every table", "why_tests_cant": "All tables, including NaN, infinities and boundary values.", "anchors": ["ruleskit/condition.py:HyperrectangleCondition.evaluate"]}
{"id": "C19", "title": "Impossible conditions never activate, possible ones can", "statement": "A newly built condition is flagged impossible exactly when some bmin exceeds its bmax; a flagged condition evaluates to zeros on every table and the flag never hides an activation; for finite bounds an unflagged condition is satisfied by some point.", "quantifier": "every condition, every table", "why_tests_cant": "Universal over tables, existential over points.", "anchors": ["ruleskit/condition.py:HyperrectangleCondition.__init__", "ruleskit/condition.py:HyperrectangleCondition.evaluate"]}
{"id": "C20", "title": "Condition & is intersection", "statement": "When c1 & c2 is defined, a row satisfies it exactly when it satisfies both c1 and c2, so its evaluation is the pointwise product of the two evaluations.", "quantifier": "every pair of conditions without NaN bounds, every table", "why_tests_cant": "All overlaps of feature sets and all orders.", "anchors": ["ruleskit/condition.py:HyperrectangleCondition.__and__"]}
{"id": "C21", "title": "Condition & is commutative, associative and idempotent", "statement": "c1 & c2 and c2 & c1 give the same condition (or both raise IndexError); so do (c1 & c2) & c3 and c1 & (c2 & c3); c & c is defined and has the evaluation of c.", "quantifier": "all triples of conditions without NaN bounds", "why_tests_cant": "Algebraic laws over all operands.", "anchors": ["ruleskit/condition.py:HyperrectangleCondition.__and__"]}
{"id": "C22", "title": "Condition & rejects exactly the inconsistent pairs", "statement": "c1 & c2 raises IndexError exactly when a common name has two different indexes or two different names share an index; otherwise it succeeds.", "quantifier": "all pairs of conditions", "why_tests_cant": "All combinations of names and indexes.", "anchors": ["ruleskit/condition.py:HyperrectangleCondition.__and__"]}
{"id": "C23", "title": "Feature order is irrelevant", "statement": "Sorting a condition (by index or by name) permutes the features without mixing their bounds, gives ascending keys, and does not change its evaluation; listing the same features in another order gives the same condition.", "quantifier": "all conditions, all permutations, both sort modes", "why_tests_cant": "All permutations of all sizes.", "anchors": ["ruleskit/condition.py:HyperrectangleCondition.sort"]}
{"id": "C24", "title": "Condition equality", "statement": "Two conditions are equal exactly when they have the same features with the same bounds, whatever the order and the indexes; equal conditions have equal hashes.", "quantifier": "all pairs of conditions", "why_tests_cant": "Equality is defined through hash(): only a universal argument can exclude false positives.", "anchors": ["ruleskit/condition.py:HyperrectangleCondition.__eq__", "ruleskit/condition.py:HyperrectangleCondition.__hash__", "ruleskit/condition.py:HyperrectangleCondition.to_hash", "ruleskit/rule.py:Rule.__eq__"]}
{"id": "C25", "title": "Assigning bounds takes effect", "statement": "After assigning a list to bmins or bmaxs through the setters, the condition is the one with exactly the new bounds, and is flagged impossible exactly when they cross; lists of the wrong length raise IndexError and change nothing, and so do duplicated or wrong-length indexes and names.", "quantifier": "all conditions not flagged impossible (C72 for the others), all lists", "why_tests_cant": "History property: the impossible flag is cached state.", "anchors": ["ruleskit/condition.py:HyperrectangleCondition.bmins", "ruleskit/condition.py:HyperrectangleCondition.bmaxs", "ruleskit/condition.py:Condition.features_indexes"]}
{"id": "C26", "title": "Threshold decision", "statement": "A threshold check of an attribute is True exactly when there is no limit for it, or its value is absent or callable, or the (optionally transformed) value satisfies every given min, max, equal and different limit, limits naming an attribute being replaced by the attribute's value; unknown transformation names raise ValueError, limits that are not numbers raise TypeError, and a text compared with a min or max limit raises TypeError.", "quantifier": "all limit tables, all rules, all attribute values including NaN", "why_tests_cant": "All combinations of limits and values.", "anchors": ["ruleskit/thresholds.py:Thresholds.__call__"]}
{"id": "C27", "title": "Thresholds: default coverage limit and purity", "statement": "Loading a limits file guarantees a minimum coverage limit (5% unless given), keeps every other limit, a missing file gives no limit at all, and checking rules never modifies the limits.", "quantifier": "all limit files, all histories of checks", "why_tests_cant": "History property over shared state.", "anchors": ["ruleskit/thresholds.py:Thresholds.__init__", "ruleskit/thresholds.py:Thresholds.__call__"]}
{"id": "C28", "title": "A bad rule stays bad, a good rule meets its limits", "statement": "Once a rule is bad no sequence of operations (fit, eval, calc_activation, the calc_ methods, check_thresholds, set_thresholds, assignments, predict, del_activation) makes it good; a rule is good exactly when bad_because is None; when fit or eval makes it bad, bad_because names an attribute whose limit in the class's THRESHOLDS is violated by its value; a rule that fit, eval or check_thresholds leaves good meets every limit on its own measures; the constructor decides on the coverage.", "quantifier": "all rules built by the constructor, all histories, all well-formed limit tables", "why_tests_cant": "History property.", "anchors": ["ruleskit/rule.py:Rule.check_thresholds", "ruleskit/rule.py:Rule.fit", "ruleskit/rule.py:Rule.eval"]}
{"id": "C29", "title": "set_thresholds on one rule affects that rule", "statement": "After rule.set_thresholds(path) the thresholds of that file decide whether that rule is good.", "quantifier": "all rules and limit tables", "why_tests_cant": "Universal over limit tables.", "anchors": ["ruleskit/rule.py:Rule.set_thresholds", "ruleskit/rule.py:Rule.check_thresholds"]}
{"id": "C30", "title": "AND of rules is consistent with its condition", "statement": "For two rules evaluated on the same data, the activation of r1 & r2 is the elementwise AND and is also what evaluating the condition of r1 & r2 on that data gives; the new rule is of the class of r1, unfitted, without measures; missing conditions or activations and different lengths raise.", "quantifier": "all pairs of rules whose conditions have no NaN bound, all data", "why_tests_cant": "Relates two independent computations (bounds arithmetic and vector arithmetic).", "anchors": ["ruleskit/rule.py:Rule.__and__", "ruleskit/condition.py:HyperrectangleCondition.__and__", "ruleskit/activation.py:Activation.__and__"]}
{"id": "C31", "title": "Rule.predict and calc_prediction_vector", "statement": "predict gives, for each row, the rule's prediction where it is activated and NaN (for texts: 'nan') where it is not, and changes only time_predict; without data it uses the stored activation, which after fit gives the same result; calc_prediction_vector gives the same vector with NaN; missing activations and the prediction 'nan' are refused.", "quantifier": "all rules with activations of 0 and 1; predictions that are numbers, None, or texts of at most 32 characters (see C88, C89)", "why_tests_cant": "Universal over data and labels.", "anchors": ["ruleskit/rule.py:Rule.predict", "ruleskit/rule.py:Rule.calc_prediction_vector"]}
{"id": "C32", "title": "Attribute routing of rules", "statement": "Reading an attribute gives the rule's own, else the activation's, else the condition's, else AttributeError; assigning an existing attribute that is not a property is read back and changes no other attribute; read-only properties and unknown names raise AttributeError and change nothing; coverage and the set sizes can be assigned; no assignment changes the condition or the activation vector.", "quantifier": "all rules, attributes and values", "why_tests_cant": "History property over three objects.", "anchors": ["ruleskit/rule.py:Rule.__getattr__", "ruleskit/rule.py:Rule.__setattr__"]}
{"id": "C33", "title": "Rule correlation", "statement": "For rules with the same number of features and activation vectors of the same length, get_correlation is the fraction of points where the activations agree times the signs of the two predictions; different lengths raise ValueError.", "quantifier": "all pairs of rules with non-zero numeric predictions", "why_tests_cant": "Universal over rules.", "anchors": ["ruleskit/rule.py:Rule.get_correlation"]}
{"id": "C34", "title": "Rule fit life cycle", "statement": "The constructor gives an unfitted rule without measures; fit computes the activation from xs and then every train attribute in order, each with its defining value; a rule that becomes bad gets NaN for the attributes not yet computed unless forced, and blames the last one computed; a fitted rule without xs is left unchanged; without limits fit succeeds and keeps the rule good; fitting again on the same data changes nothing.", "quantifier": "all rules of the three classes, data, targets, limits", "why_tests_cant": "Depends on where in the attribute sequence the rule becomes bad.", "anchors": ["ruleskit/rule.py:Rule.fit", "ruleskit/rule.py:Rule.eval"]}
{"id": "C35", "title": "Conditional mean", "statement": "The prediction of a regression rule is the mean of the non-NaN targets at its activated points, NaN when there is none; it lies between the smallest and largest activated target; the one-rule and the stacked computation agree.", "quantifier": "all activations and targets", "why_tests_cant": "All vectors, NaN patterns.", "anchors": ["ruleskit/utils/rfunctions.py:conditional_mean"]}
{"id": "C36", "title": "Conditional standard deviation", "statement": "The standard deviation of a rule is the square root of the unbiased variance of the non-NaN targets at its activated points; from two activated points on, the one-rule and the stacked computations agree; on targets already extracted it is the square root of the biased variance.", "quantifier": "all activations of 0 and 1, all targets without infinity, all square root functions respecting equality", "why_tests_cant": "Boundary at 0 and 1 activated points.", "anchors": ["ruleskit/utils/rfunctions.py:conditional_std"]}
{"id": "C37", "title": "Class probabilities and most probable class", "statement": "class_probabilities gives each class present at the activated points once, in ascending order, with its relative frequency (they sum to 1), as texts when the classes are texts; the rule's prediction is the most frequent class, smallest class first on ties; the stacked computation gives the same class; the most common integer is the smallest of the most frequent ones.", "quantifier": "all activations with at least one activated point, all vectors of numbers or of texts without NaN (texts: frequencies whose texts sort like the frequencies; stacked: no class '' or 'zero')", "why_tests_cant": "All vectors and ties.", "anchors": ["ruleskit/utils/rfunctions.py:class_probabilities", "ruleskit/rule.py:ClassificationRule.prediction", "ruleskit/ruleset.py:RuleSet.calc_predictions"]}
{"id": "C38", "title": "Regression criteria", "statement": "mse and mae are means over the predicted points of the squared / absolute error: non-negative, zero exactly for perfect predictions; among constant predictions the conditional mean is the only minimiser of the mse; mse_norm divides by the error of the mean predictor and aae by the error of the median predictor; a table of predictions is treated column by column; the method is chosen ignoring the case and an unknown one is a ValueError.", "quantifier": "all prediction vectors and targets without infinity (normalised versions: without NaN target)", "why_tests_cant": "Optimality and zero conditions are universal.", "anchors": ["ruleskit/utils/rfunctions.py:mse_function", "ruleskit/utils/rfunctions.py:mae_function", "ruleskit/utils/rfunctions.py:mse_norm", "ruleskit/utils/rfunctions.py:mae_norm", "ruleskit/utils/rfunctions.py:aae_function"]}
{"id": "C39", "title": "Success rate", "statement": "The classification criterion is the fraction of (predicted) activated points whose target equals the prediction; it is in [0,1], 1 exactly when all are right, 0 exactly when none is, and no other class does better than the majority class; in the stacked computation points without target do not count.", "quantifier": "all activations, predictions and targets", "why_tests_cant": "Universal over vectors.", "anchors": ["ruleskit/utils/rfunctions.py:success_rate", "ruleskit/utils/rfunctions.py:calc_classification_criterion"]}
{"id": "C40", "title": "Z-score", "statement": "zscore^2 * var(y) * horizon = nones * (prediction - mean(y))^2; NaN for a rule with no activated point or without prediction; for a constant target infinite, NaN when the prediction is that constant; stacked computation the same for rules with activated points.", "quantifier": "all predictions, targets, horizons, all square root functions exact on the numbers at hand", "why_tests_cant": "Universal over reals.", "anchors": ["ruleskit/utils/rfunctions.py:calc_zscore_external"]}
{"id": "C41", "title": "RuleSet activation is the OR of its rules", "statement": "After any successful history of constructor, append, +=, +, slice, assignment of rules, calc_activation and sort, with update_activation and compute_activation left True, the ruleset's activation is the pointwise OR of its rules' activations, and its coverage the fraction of ones, provided all its rules have an activation; the activation of an empty ruleset is None.", "quantifier": "all histories and settings", "why_tests_cant": "History property.", "anchors": ["ruleskit/ruleset.py:RuleSet.__iadd__", "ruleskit/ruleset.py:RuleSet._update_activation", "ruleskit/ruleset.py:RuleSet.evaluate_self_activation", "ruleskit/ruleset.py:RuleSet.__init__", "ruleskit/ruleset.py:RuleSet.ruleset_coverage"]}
{"id": "C42", "title": "What an addition changes", "statement": "append and += of a rule of another type, append of something that is not a rule and += of a ruleset of another type raise TypeError and change nothing. A successful append puts the rule at the end and leaves the others; it succeeds for a usable rule of the type of the ruleset whose activation has the length of the others.", "quantifier": "all rulesets, rules and settings", "why_tests_cant": "Every state and operand.", "anchors": ["ruleskit/ruleset.py:RuleSet.append", "ruleskit/ruleset.py:RuleSet.__iadd__"]}
{"id": "C43", "title": "RuleSet addition and equality", "statement": "rs1 + rs2 has the rules of both in order, each once (the first of those with the same features and bounds); rs + rule has the rules of rs, then rule; both succeed for usable rules of one type with activations of one length and no stacked activations. Two rulesets are equal exactly if each rule of one is the same as some rule of the other, in any order and with repetitions; equal rulesets have the same hash. Domain: bounds as in C24, hash function without collisions, all_features_indexes not set.", "quantifier": "all rulesets and hash functions of the domain", "why_tests_cant": "Set semantics over all lists.", "anchors": ["ruleskit/ruleset.py:RuleSet.__add__", "ruleskit/ruleset.py:RuleSet.__eq__", "ruleskit/ruleset.py:RuleSet.to_hash", "ruleskit/ruleset.py:RuleSet.__hash__"]}
{"id": "C44", "title": "fit and eval drop exactly the bad rules", "statement": "Without STACKED_FIT, fit (eval) calls fit (eval) of every rule and then keeps, in order, exactly the rules that are good; the returned list has the others, in order, each once. When the fit of a rule raises, so does the fit of the ruleset; when none raises and the rules are of one type with vectors of one length, fit succeeds. Domain: the rules have distinct finite conditions; no raw arrays as activations in eval.", "quantifier": "all rulesets, targets, inputs and threshold outcomes of the domain", "why_tests_cant": "Depends on which rules fail at which attribute.", "anchors": ["ruleskit/ruleset.py:RuleSet.fit", "ruleskit/ruleset.py:RuleSet.eval"]}
{"id": "C45", "title": "Regression prediction without stacked activations", "statement": "RuleSet.predict on regression rules gives at each row the mean of the predictions of the active rules, weighted by their weights (1 without weights), and NaN where no rule is active. Rules whose weight is missing, zero or NaN and rules without activation do not count. Domain: finite weights and predictions; the first rule that counts does not predict 0 unless it is the only one; the weights and the weighted predictions of a row do not sum to 0; without weights, fewer than 256 active rules.", "quantifier": "all rulesets, weights, inputs and rows of the domain", "why_tests_cant": "Depends on exact cancellations, zero predictions and on more than 255 overlapping rules.", "anchors": ["ruleskit/ruleset.py:RuleSet.predict", "ruleskit/utils/rfunctions.py:calc_ruleset_prediction_equally_weighted_regressor_unstacked", "ruleskit/utils/rfunctions.py:calc_ruleset_prediction_weighted_regressor_unstacked"]}
{"id": "C46", "title": "Stacked and unstacked regression predictions agree", "statement": "With stacked activations predict gives at each row the (weighted) mean of the predictions of the active rules, also when it is 0 and for any number of rules; on the domain of C45 it is what predict gives without stacked activations.", "quantifier": "all rulesets whose rules have different texts, all weights, inputs and rows", "why_tests_cant": "Two independent implementations.", "anchors": ["ruleskit/ruleset.py:RuleSet.predict", "ruleskit/utils/rfunctions.py:calc_ruleset_prediction_weighted_regressor_unstacked", "ruleskit/utils/rfunctions.py:calc_ruleset_prediction_weighted_regressor_stacked", "ruleskit/utils/rfunctions.py:calc_ruleset_prediction_equally_weighted_regressor_stacked", "ruleskit/utils/rfunctions.py:init_weights_stacked"]}
{"id": "C47", "title": "Classification prediction is a strict majority vote", "statement": "Without weights the ruleset predicts at each row the class predicted by the largest number of active rules if it is unique, else NaN. Stacked and unstacked predictions agree when at least two rows have a winning class.", "quantifier": "all rulesets whose rules have an activation, all inputs and rows", "why_tests_cant": "Two independent implementations, ties.", "anchors": ["ruleskit/utils/rfunctions.py:calc_ruleset_prediction_equally_weighted_classificator_stacked", "ruleskit/utils/rfunctions.py:calc_ruleset_prediction_equally_weighted_classificator_unstacked"]}
{"id": "C48", "title": "Weighted classification prediction", "statement": "With positive weights and no stacked activations, the ruleset predicts at each row the class with the largest total weight of active rules if unique, else NaN.", "quantifier": "all rulesets whose rules have an activation, all weights, inputs and rows", "why_tests_cant": "Ties and total weights over all subsets of rules.", "anchors": ["ruleskit/utils/rfunctions.py:calc_ruleset_prediction_weighted_classificator_unstacked"]}
{"id": "C49", "title": "predict has no side effect", "statement": "predict leaves the rules as they are, except for unweighted regression on the stored activations in the raw format without stacked activations.", "quantifier": "all rulesets and settings", "why_tests_cant": "In-place array arithmetic on possibly shared arrays.", "anchors": ["ruleskit/ruleset.py:RuleSet.predict", "ruleskit/utils/rfunctions.py:calc_ruleset_prediction_equally_weighted_regressor_unstacked", "ruleskit/activation.py:Activation.raw"]}
{"id": "C50", "title": "RuleSet.sort", "statement": "sort() is a stable sort of the rules by number of features, then text of the feature names (indexes when the ruleset has no names; in descending order with reverse), then lower and upper bounds. sort(attribute) is a stable sort by that attribute, numbers or texts. Nothing else changes, sorting again changes nothing, and the stacked columns are put in the order of the rules. Domain: each rule has a feature, bounds and attribute values are not NaN.", "quantifier": "all rulesets and settings of the domain", "why_tests_cant": "All permutations.", "anchors": ["ruleskit/ruleset.py:RuleSet.sort"]}
{"id": "C51", "title": "Duplicate detection and membership", "statement": "check_duplicated_rules raises ValueError exactly when two rules have the same feature names (indexes if not by name), bounds and prediction; the constructor does so exactly then under CHECK_DUPLICATED; `rule in ruleset` is True exactly when some member has them. Domain: the predictions of the rules are numbers or None, or texts.", "quantifier": "all rulesets of the domain, repr of strings quoted and self-delimiting, repr of floats injective without brackets and commas", "why_tests_cant": "Comparison goes through concatenated strings; injectivity is universal.", "anchors": ["ruleskit/ruleset.py:RuleSet.check_duplicated_rules", "ruleskit/ruleset.py:RuleSet.__contains__", "ruleskit/ruleset.py:RuleSet.__init__"]}
{"id": "C52", "title": "save / load round trip", "statement": "Saving a ruleset and loading the file succeeds and restores the rules in order (type, condition, prediction and statistics; fitted exactly if they have a prediction, without activation), the train set size, the rule type and the set of features names. Domain: the rules are of the ruleset's type, their condition is in the order of SORT_ACCORDING_TO, the texts of their lists and statistics are literals that ast.literal_eval reads back (NaN and names of classes that it rejects with ValueError included), and no rule is named like a row of the ruleset's attributes.", "quantifier": "all nonempty rulesets of the domain, loaded into any ruleset; str, ast.literal_eval, int and the parsing of numbers and missing values by read_csv are arguments", "why_tests_cant": "Round trip over all tables.", "anchors": ["ruleskit/ruleset.py:RuleSet.to_df", "ruleskit/ruleset.py:RuleSet.load", "ruleskit/ruleset.py:RuleSet.rule_to_series", "ruleskit/ruleset.py:RuleSet.series_to_rule"]}
{"id": "C53", "title": "Feature counts", "statement": "get_features_count lists each feature of the ruleset once with the number of rules using it, most frequent first, and in order of appearance for equal frequencies. Domain: the ruleset is empty or has a named feature, a rule does not name a feature twice.", "quantifier": "all rulesets of the domain, after all histories of C41", "why_tests_cant": "Universal over rulesets.", "anchors": ["ruleskit/ruleset.py:RuleSet.get_features_count"]}
{"id": "C54", "title": "Rulesets are homogeneous", "statement": "Through any history of construction, append, +=, +, slices, calc_activation and sort, also with calls that raise or do not update the activation, all rules of a ruleset are instances of its rule type, and a ruleset without type has no rules.", "quantifier": "all histories", "why_tests_cant": "History property, including failing calls.", "anchors": ["ruleskit/ruleset.py:RuleSet.__iadd__", "ruleskit/ruleset.py:RuleSet.append", "ruleskit/ruleset.py:RuleSet.rule_type"]}
{"id": "C55", "title": "Rulesets do not share state", "statement": "Changing one ruleset never changes another one.", "quantifier": "all histories over several rulesets", "why_tests_cant": "Aliasing appears only in particular histories.", "anchors": ["ruleskit/ruleset.py:RuleSet._update_stacked_activation", "ruleskit/ruleset.py:RuleSet.__iadd__"]}
{"id": "C56", "title": "Tree extraction: every point is covered by its path", "statement": "For every decision tree and every point inside [xmins, xmaxs], the rules extracted along the path of the point, in particular its leaf's rule, are satisfied by the point.", "quantifier": "all trees, all points, tables and arrays", "why_tests_cant": "Induction over trees of any depth.", "anchors": ["ruleskit/utils/rule_utils.py:extract_rules_from_tree"]}
{"id": "C57", "title": "Tree extraction: leaf rules describe their leaf", "statement": "When no path goes right on a feature after having gone left on it, a point inside [xmins, xmaxs] that is not on a threshold satisfies a rule exactly if it follows the rule's path, so that exactly one leaf rule holds: that of the leaf to which the tree sends the point.", "quantifier": "all trees with paths that some point of the box follows, all points", "why_tests_cant": "Induction over trees; needs repeated splits on one feature.", "anchors": ["ruleskit/utils/rule_utils.py:extract_rules_from_tree"]}
{"id": "C58", "title": "Tree extraction: number, order and bounds of rules", "statement": "Extraction yields one rule per leaf (get_leaf) or two rules per internal node (otherwise), in depth-first order, left before right. Each rule is unfitted, and its condition has one interval for each feature of its path, sorted and named: from the greatest of xmin and of the thresholds where the path goes right, to the least of xmax and of the thresholds where it goes left after its last step to the right. The ruleset has no activation, the asked stack_activation, the type of the rules, and the features of all splits.", "quantifier": "all trees, with or without names, both kinds of trees", "why_tests_cant": "Induction over trees.", "anchors": ["ruleskit/utils/rule_utils.py:extract_rules_from_tree"]}
{"id": "C59", "title": "Tree extraction: predictions", "statement": "With get_leaf, each rule predicts the tree's value at its leaf: the number, or the most frequent class (the first of several). Without get_leaf, each rule predicts the value of the node that is split, on both sides.", "quantifier": "all trees, any number of classes", "why_tests_cant": "Induction over trees.", "anchors": ["ruleskit/utils/rule_utils.py:extract_rules_from_tree"]}
{"id": "C60", "title": "traverse flattens", "statement": "traverse yields the sequence one gets from the object by removing the brackets of containers of the given types as long as there are any; it has no such container left, and is the only such sequence.", "quantifier": "all nestings of lists, tuples and rulesets, all subsets of these types", "why_tests_cant": "Any depth.", "anchors": ["ruleskit/ruleset.py:traverse"]}
{"id": "C61", "title": "Which representation is kept", "statement": "An activation kept in memory is stored raw with STORE_RAW; otherwise a raw or saved vector is stored compressed exactly if that is strictly smaller than the bitarray (the integer with WILL_COMPARE), a bitarray or integer is with optimize replaced by its compressed form exactly if it is not strictly smaller, and compressed input is kept as it is.", "quantifier": "every vector and input representation in the domain of C03, every settings combination, every size oracle", "why_tests_cant": "The choice depends on sys.getsizeof of three representations of arbitrary vectors.", "anchors": ["ruleskit/activation.py:Activation._init_with_raw", "ruleskit/activation.py:Activation._init_with_bitarray", "ruleskit/activation.py:Activation._init_with_integer", "ruleskit/activation.py:Activation._init_with_any"]}
{"id": "C62", "title": "Corner-case vectors round trip", "statement": "Building an Activation from an empty vector, from a one-point vector with DTYPE=np.ndarray, or from a vector of 2^31 to 2^32-1 points with DTYPE=np.ndarray, gives back that vector.", "quantifier": "the lengths 0, 1 and [2^31, 2^32)", "why_tests_cant": "Vectors of 2^31 points do not fit in a test; the int32 limit is off by a factor of two.", "anchors": ["ruleskit/activation.py:Activation._init_with_raw", "ruleskit/activation.py:Activation._compress", "ruleskit/activation.py:Activation._decompress", "ruleskit/activation.py:MAX_INT_32"]}
{"id": "C63", "title": "Lazily loaded activations answer like loaded ones", "statement": "Every accessor of an activation built with lasy=True answers as if it had been loaded, in whatever order the accessors are first called.", "quantifier": "every saved vector, every order of accessor calls", "why_tests_cant": "The failure depends on which accessor comes first.", "anchors": ["ruleskit/activation.py:Activation.raw", "ruleskit/activation.py:Activation.as_bitarray", "ruleskit/activation.py:Activation.entropy", "ruleskit/activation.py:Activation.__len__"]}
{"id": "C64", "title": "Operators on two integer-stored activations", "statement": "With WILL_COMPARE (made for comparing activations), `&`, `|` and `^` of two activations of equal length stored as integers are the pointwise operations.", "quantifier": "every pair of integer-stored activations", "why_tests_cant": "Needs two vectors whose integers are smaller than their compressed forms.", "anchors": ["ruleskit/activation.py:Activation.__and__", "ruleskit/activation.py:Activation.__or__", "ruleskit/activation.py:Activation.__xor__"]}
{"id": "C65", "title": "Integers that do not fit the declared length are rejected", "statement": "Activation(n, length=k) raises when n needs more than k bits.", "quantifier": "every integer and length, every settings combination", "why_tests_cant": "Quantifies over all integers, lengths and settings.", "anchors": ["ruleskit/activation.py:Activation.__init__", "ruleskit/activation.py:Activation._integer_to_raw"]}
{"id": "C66", "title": "A taken file name is replaced by another one", "statement": "If the random file name drawn by _write exists, another name is drawn (up to 100 times) and the activation is stored.", "quantifier": "every disk state, every sequence of random numbers", "why_tests_cant": "Collisions have probability about 1e-64 per draw and never occur in a test run.", "anchors": ["ruleskit/activation.py:Activation._write"]}
{"id": "C67", "title": "Loading lazily never overwrites a file", "statement": "Reading a lazily loaded activation never changes a file that already existed.", "quantifier": "every disk state, every random number", "why_tests_cant": "Needs a name collision.", "anchors": ["ruleskit/activation.py:Activation._write", "ruleskit/activation.py:Activation.raw"]}
{"id": "C68", "title": "Class-wide settings survive failures and mixed conversions", "statement": "Reading a compressed activation as a bitarray or as an integer leaves WILL_COMPARE as it was and returns the requested type also when the conversion raises, and when threads converting to different types interleave.", "quantifier": "every failure point, every interleaving", "why_tests_cant": "Schedules and crash points cannot be enumerated by tests.", "anchors": ["ruleskit/activation.py:Activation.as_bitarray", "ruleskit/activation.py:Activation.as_integer"]}
{"id": "C69", "title": "multi_logical_xor is the exclusive or", "statement": "multi_logical_xor of n activations is their pointwise exclusive or (parity), the n-ary version of `^`.", "quantifier": "every list of activations", "why_tests_cant": "Universal over lists.", "anchors": ["ruleskit/activation.py:Activation.multi_logical_xor"]}
{"id": "C70", "title": "A NaN bound is never satisfied through &", "statement": "c1 & c2 is not satisfied by a row that does not satisfy c2, also when a bound of c2 is NaN.", "quantifier": "all pairs of conditions", "why_tests_cant": "max and min keep the first argument when a comparison with NaN is false: it depends on the side.", "anchors": ["ruleskit/condition.py:HyperrectangleCondition.__and__"]}
{"id": "C71", "title": "Conditions given by names can be combined", "statement": "The indexes being optional, two conditions given by their features' names only can be combined with &.", "quantifier": "all pairs of conditions without indexes", "why_tests_cant": "The default indexes are positions in each condition: every pair whose first names differ clashes.", "anchors": ["ruleskit/condition.py:HyperrectangleCondition.__init__", "ruleskit/condition.py:HyperrectangleCondition.__and__"]}
{"id": "C72", "title": "The impossible flag follows the bounds", "statement": "After the bounds of an impossible condition have been corrected through the setters, the condition is no longer impossible.", "quantifier": "all conditions, all assignments", "why_tests_cant": "Cached state.", "anchors": ["ruleskit/condition.py:HyperrectangleCondition.bmins", "ruleskit/condition.py:HyperrectangleCondition.bmaxs", "ruleskit/condition.py:HyperrectangleCondition.evaluate"]}
{"id": "C73", "title": "Bounds given as text keep their values", "statement": "Assigning bounds as the text of a list gives the bounds that the list has.", "quantifier": "all texts of lists of numbers", "why_tests_cant": "Only shows with fractional bounds.", "anchors": ["ruleskit/condition.py:HyperrectangleCondition.bmins", "ruleskit/condition.py:HyperrectangleCondition.bmaxs"]}
{"id": "C74", "title": "A condition without features is met everywhere", "statement": "A condition without features evaluates to ones on every table.", "quantifier": "all tables", "why_tests_cant": "Degenerate case of a loop.", "anchors": ["ruleskit/condition.py:HyperrectangleCondition.evaluate"]}
{"id": "C75", "title": "Assigning indexes and names", "statement": "Assigning distinct indexes (or names) of the right length, as a list or as its text, replaces exactly the indexes (names) and keeps the bounds attached to the positions; normalize_features_indexes numbers the features 0, 1, 2 ... and changes nothing else; a text that cannot be read changes nothing.", "quantifier": "all conditions, all lists", "why_tests_cant": "All sizes.", "anchors": ["ruleskit/condition.py:Condition.features_indexes", "ruleskit/condition.py:HyperrectangleCondition.features_names", "ruleskit/condition.py:Condition.normalize_features_indexes"]}
{"id": "C76", "title": "Indexing and length", "statement": "len(c) is the number of features, c[i] is (name, index, bmin, bmax) of the i-th feature, counted from the end for a negative i, and IndexError outside.", "quantifier": "all conditions, all integers", "why_tests_cant": "All sizes and positions.", "anchors": ["ruleskit/condition.py:HyperrectangleCondition.__getitem__", "ruleskit/condition.py:HyperrectangleCondition.__len__"]}
{"id": "C77", "title": "An empty condition can be filled", "statement": "A condition built with empty=True can be given its features through the setters.", "quantifier": "all lists", "why_tests_cant": "The first assignment of bounds raises but takes effect: a caller who catches the exception sees nothing.", "anchors": ["ruleskit/condition.py:HyperrectangleCondition.bmins", "ruleskit/condition.py:HyperrectangleCondition.bmaxs"]}
{"id": "C78", "title": "Texts that are not a compressed vector are rejected", "statement": "Activation(text) raises TypeError when the text is a single integer and SyntaxError when it is not a list of integers separated by commas, and nothing is written.", "quantifier": "all texts, all settings", "why_tests_cant": "All texts.", "anchors": ["ruleskit/activation.py:Activation._init_with_str"]}
{"id": "C79", "title": "A frequent class beats a rare one", "statement": "For classes that are texts the prediction is the most frequent class at the activated points, however rare the others.", "quantifier": "all activations and vectors of texts", "why_tests_cant": "Needs a class rarer than 1 in 10000 so that its frequency is written with an exponent.", "anchors": ["ruleskit/utils/rfunctions.py:class_probabilities", "ruleskit/rule.py:ClassificationRule.prediction"]}
{"id": "C80", "title": "A classification rule without activated point has no prediction", "statement": "Fitting a classification rule, or a ruleset with such a rule, when the rule has no activated point gives NaN as its prediction (as for regression rules).", "quantifier": "all rules and targets", "why_tests_cant": "Only at the empty activation.", "anchors": ["ruleskit/utils/rfunctions.py:class_probabilities", "ruleskit/ruleset.py:RuleSet.calc_predictions"]}
{"id": "C81", "title": "Stacked class predictions treat every text as a class", "statement": "The stacked computation of class predictions agrees with the one-rule computation for every text, among them '' and 'zero'.", "quantifier": "all vectors of texts", "why_tests_cant": "Two particular texts.", "anchors": ["ruleskit/utils/rfunctions.py:class_probabilities", "ruleskit/ruleset.py:RuleSet.calc_predictions"]}
{"id": "C82", "title": "Normalised mean absolute error", "statement": "mae_norm is the mean absolute error divided by the mean absolute error of the mean predictor.", "quantifier": "all prediction vectors and targets", "why_tests_cant": "Universal over vectors.", "anchors": ["ruleskit/utils/rfunctions.py:mae_norm"]}
{"id": "C83", "title": "Success rate when nothing is predicted", "statement": "When no activated point has a prediction the success rate is NaN.", "quantifier": "all activations and prediction series", "why_tests_cant": "Only when every prediction at the activated points is NaN.", "anchors": ["ruleskit/utils/rfunctions.py:success_rate"]}
{"id": "C84", "title": "An unknown criterion is refused", "statement": "calc_classification_criterion raises ValueError for an unknown method, for one rule and for the stacked set.", "quantifier": "all method names", "why_tests_cant": "All texts.", "anchors": ["ruleskit/utils/rfunctions.py:calc_classification_criterion"]}
{"id": "C85", "title": "Standard deviation at one activated point", "statement": "With one activated point the one-rule and the stacked computation of the standard deviation agree.", "quantifier": "all activations with one activated point", "why_tests_cant": "Boundary.", "anchors": ["ruleskit/utils/rfunctions.py:conditional_std"]}
{"id": "C86", "title": "Success rate with unknown targets", "statement": "The one-rule and stacked success rates agree.", "quantifier": "all activations and targets", "why_tests_cant": "Only with NaN targets at activated points.", "anchors": ["ruleskit/utils/rfunctions.py:success_rate", "ruleskit/utils/rfunctions.py:calc_classification_criterion"]}
{"id": "C87", "title": "Limits of a class", "statement": "SET_THRESHOLDS gives its limits to the class and leaves the other classes alone; RegressionRule and ClassificationRule have the limits of Rule until they are given their own.", "quantifier": "all sequences of calls", "why_tests_cant": "History property over three classes.", "anchors": ["ruleskit/rule.py:Rule.SET_THRESHOLDS"]}
{"id": "C88", "title": "Text predictions are given in full", "statement": "predict gives the rule's class, whatever its length.", "quantifier": "all texts", "why_tests_cant": "Only for texts of more than 32 characters.", "anchors": ["ruleskit/rule.py:Rule.predict"]}
{"id": "C89", "title": "predict gives one value per row", "statement": "predict returns a vector with one element per row of the data, for arrays and DataFrames.", "quantifier": "all data", "why_tests_cant": "Only for a DataFrame of one row.", "anchors": ["ruleskit/rule.py:Rule.predict"]}
{"id": "C90", "title": "Assigning an attribute of the condition or activation", "statement": "Assigning through the rule an attribute that only its condition or activation has changes it there.", "quantifier": "all rules and attributes", "why_tests_cant": "Needs to look at the condition after the assignment.", "anchors": ["ruleskit/rule.py:Rule.__setattr__"]}
{"id": "C91", "title": "Correlation of rules with different numbers of features", "statement": "get_correlation is defined for every pair of rules whose activation vectors have the same length.", "quantifier": "all pairs of rules", "why_tests_cant": "Only for rules with different numbers of features.", "anchors": ["ruleskit/rule.py:Rule.get_correlation"]}
{"id": "C92", "title": "Rule eval life cycle", "statement": "eval computes the criterion (for plain rules the test set size) from the activation on xs, or the stored one without xs, and the rule's prediction; it keeps the other measures, and the stored activation unless recompute_activation; a bad rule gets NaN as test attributes and keeps the rest; an unavailable activation raises ValueError.", "quantifier": "all rules of the three classes, data, targets, limits", "why_tests_cant": "Depends on flags, thresholds and the state of the rule.", "anchors": ["ruleskit/rule.py:Rule.eval", "ruleskit/rule.py:RegressionRule.calc_criterion", "ruleskit/rule.py:ClassificationRule.calc_criterion"]}
{"id": "C93", "title": "Equality and hash of rules", "statement": "Rules are equal, and have the same hash, exactly when their conditions have the same features with the same bounds, whatever their activations and measures.", "quantifier": "all pairs of rules with complete conditions; for the converse, hashes without collision", "why_tests_cant": "Universal over rules and hash functions.", "anchors": ["ruleskit/rule.py:Rule.__eq__", "ruleskit/rule.py:Rule.__hash__", "ruleskit/rule.py:Rule.to_hash"]}
{"id": "C94", "title": "Containment of rules", "statement": "other in self holds exactly when every activated point of other is an activated point of self.", "quantifier": "all pairs of rules with activations of the same length", "why_tests_cant": "Universal over pairs of vectors.", "anchors": ["ruleskit/rule.py:Rule.__contains__", "ruleskit/activation.py:Activation.__contains__"]}
{"id": "C95", "title": "Deleting the activation of a rule", "statement": "After del_activation the activation is unavailable and reading it raises FileNotFoundError; the measures and the condition are unchanged.", "quantifier": "all rules with a non-empty activation", "why_tests_cant": "Universal over rules.", "anchors": ["ruleskit/rule.py:Rule.del_activation"]}
{"id": "C96", "title": "Evaluating a rule does not count as fitting it", "statement": "A rule that was evaluated but not fitted can still be fitted without data.", "quantifier": "all rules", "why_tests_cant": "Only when a bad rule is evaluated before it is fitted.", "anchors": ["ruleskit/rule.py:Rule.eval", "ruleskit/rule.py:Rule.fit"]}
{"id": "C97", "title": "test_set_size after eval", "statement": "After eval the test_set_size of a good rule is the number of targets.", "quantifier": "all rules", "why_tests_cant": "Needs regression or classification rules.", "anchors": ["ruleskit/rule.py:Rule.eval", "ruleskit/rule.py:Rule.calc_test_set_size"]}
{"id": "C98", "title": "Limits on attributes of the activation", "statement": "After fit a good rule meets the limits on every readable attribute, among them nones and entropy.", "quantifier": "all rules and limit tables", "why_tests_cant": "Needs limits on attributes that belong to the activation.", "anchors": ["ruleskit/rule.py:Rule.check_thresholds"]}
{"id": "C99", "title": "A first rule that predicts 0", "statement": "Without stacked activations predict gives the mean of the predictions of the active regression rules also when the first rule predicts 0.", "quantifier": "all rulesets", "why_tests_cant": "Only when the first of several rules predicts exactly 0.", "anchors": ["ruleskit/utils/rfunctions.py:calc_ruleset_prediction_equally_weighted_regressor_unstacked", "ruleskit/utils/rfunctions.py:calc_ruleset_prediction_weighted_regressor_unstacked"]}
{"id": "C100", "title": "Predictions that cancel out", "statement": "Without stacked activations predict gives 0 at a row where the predictions of the active regression rules sum to 0.", "quantifier": "all rulesets and rows", "why_tests_cant": "Only when sums are exactly 0.", "anchors": ["ruleskit/utils/rfunctions.py:calc_ruleset_prediction_equally_weighted_regressor_unstacked", "ruleskit/utils/rfunctions.py:calc_ruleset_prediction_weighted_regressor_unstacked"]}
{"id": "C101", "title": "Any number of active rules", "statement": "Without weights and stacked activations predict gives the mean of the predictions of the active regression rules whatever their number.", "quantifier": "all rulesets", "why_tests_cant": "Needs 256 rules active at a row.", "anchors": ["ruleskit/utils/rfunctions.py:calc_ruleset_prediction_equally_weighted_regressor_unstacked"]}
{"id": "C102", "title": "Stacked classification puts each class at its row", "statement": "With stacked activations and no weights, each row gets its own winning class, or NaN.", "quantifier": "all rulesets and inputs", "why_tests_cant": "Only when fewer than two rows have a winning class.", "anchors": ["ruleskit/utils/rfunctions.py:calc_ruleset_prediction_equally_weighted_classificator_stacked"]}
{"id": "C103", "title": "Stacked weighted classification", "statement": "With stacked activations and weights each row gets the class with the largest total weight.", "quantifier": "all rulesets, weights and inputs", "why_tests_cant": "Two implementations of the same vote that differ when the heaviest rule does not belong to the heaviest class.", "anchors": ["ruleskit/utils/rfunctions.py:calc_ruleset_prediction_weighted_classificator_stacked"]}
{"id": "C104", "title": "predict leaves raw activations alone", "statement": "predict leaves the activations of the rules as they are in the raw format too.", "quantifier": "all rulesets", "why_tests_cant": "In-place addition on an array that the rule holds.", "anchors": ["ruleskit/utils/rfunctions.py:calc_ruleset_prediction_equally_weighted_regressor_unstacked", "ruleskit/activation.py:Activation.raw"]}
{"id": "C105", "title": "Classification rules without activation", "statement": "As in regression, rules without activation do not count in the vote.", "quantifier": "all rulesets", "why_tests_cant": "Needs an unfitted rule in the ruleset.", "anchors": ["ruleskit/utils/rfunctions.py:calc_ruleset_prediction_weighted_classificator_unstacked"]}
{"id": "C106", "title": "The text of a condition tells the condition", "statement": "Two conditions with the same text, by which rules are identified in weights and stacked activations, have the same features and bounds.", "quantifier": "all conditions, printers of numbers and names", "why_tests_cant": "Parsing ambiguity over all names.", "anchors": ["ruleskit/condition.py:HyperrectangleCondition.__str__"]}
{"id": "C107", "title": "Weights by the name of an attribute", "statement": "predict with the name of an attribute as weights gives what it gives with the Series of the values of that attribute.", "quantifier": "all rulesets, attributes and settings", "why_tests_cant": "Equality of two calls for every setting.", "anchors": ["ruleskit/ruleset.py:RuleSet.predict"]}
{"id": "C108", "title": "Nothing to predict with", "statement": "predict gives an empty result for an empty ruleset and for one without type; it raises TypeError when the rules are neither regression nor classification rules (stacked: unless the stacked activations have no row; weights named by an attribute that a rule does not have raise AttributeError first) and ValueError when no regression rule has an activation and a weight.", "quantifier": "all rulesets and settings", "why_tests_cant": "Error paths over all settings.", "anchors": ["ruleskit/ruleset.py:RuleSet.predict"]}
{"id": "C109", "title": "A failing += changes nothing", "statement": "When += or append raises, the ruleset has the same rules as before.", "quantifier": "all rulesets and operands", "why_tests_cant": "Crash-point property.", "anchors": ["ruleskit/ruleset.py:RuleSet.__iadd__"]}
{"id": "C110", "title": "A failing append does not change later ones", "statement": "After an append with update_activation=False that raises, later appends update the activation as before.", "quantifier": "all rulesets and operands", "why_tests_cant": "Needs a failure in the middle of a history.", "anchors": ["ruleskit/ruleset.py:RuleSet.append"]}
{"id": "C111", "title": "Assigning rules keeps the type", "statement": "After ruleset.rules = [...] the rules of the ruleset are of its rule type.", "quantifier": "all histories", "why_tests_cant": "Needs an assignment of rules of another type.", "anchors": ["ruleskit/ruleset.py:RuleSet.rules", "ruleskit/ruleset.py:RuleSet.rule_type"]}
{"id": "C112", "title": "Feature counts without feature", "statement": "get_features_count of a ruleset whose rules have no named feature is empty.", "quantifier": "all rulesets", "why_tests_cant": "Rare branch with a misspelt attribute.", "anchors": ["ruleskit/ruleset.py:RuleSet.get_features_count"]}
{"id": "C113", "title": "Stacked activations", "statement": "After any history of C41 in which only rulesets that stack are added to one that stacks, each column of stacked_activations is the activation of a rule under the name of the rule, and each rule has its column.", "quantifier": "all histories and settings", "why_tests_cant": "History property.", "anchors": ["ruleskit/ruleset.py:RuleSet._update_stacked_activation", "ruleskit/ruleset.py:RuleSet.evaluate_stacked_activations", "ruleskit/ruleset.py:RuleSet.compute_stacked_activation"]}
{"id": "C114", "title": "Stacked activations of added rulesets", "statement": "After adding a ruleset with += to one that stacks its activations, each rule with an activation has its column in stacked_activations.", "quantifier": "all histories", "why_tests_cant": "Needs a ruleset that does not stack as operand.", "anchors": ["ruleskit/ruleset.py:RuleSet._update_stacked_activation"]}
{"id": "C115", "title": "Features and rules of a ruleset", "statement": "After any history of C41, features_names has each name of a feature of the rules once and features_indexes the indexes of their features. The constructor keeps the rules that are not None, in order, with their type, bounds, names, activation and attributes; it raises when an element is not a rule.", "quantifier": "all histories and settings", "why_tests_cant": "History property.", "anchors": ["ruleskit/ruleset.py:RuleSet.__init__", "ruleskit/ruleset.py:RuleSet.__iadd__", "ruleskit/ruleset.py:RuleSet.set_features_indexes"]}
{"id": "C116", "title": "Slices and items", "statement": "ruleset[a:b:k] is the ruleset constructed of the rules at a, a+k, a+2k... before b (after b for negative k), negative, omitted and too large numbers being as for lists, and k=0 raising ValueError; ruleset[i] is the i-th rule, from the end for negative i, and IndexError outside.", "quantifier": "all rulesets, all integers", "why_tests_cant": "All integers and lengths.", "anchors": ["ruleskit/ruleset.py:RuleSet.__getitem__"]}
{"id": "C117", "title": "Evaluating a ruleset", "statement": "calc_activation(xs) gives each rule the vector of its condition on xs and the ruleset their union, leaving attributes other than activations; it does nothing for xs without rows and raises ValueError for an empty ruleset. evaluate(xs) is the union of the vectors of the conditions on xs.", "quantifier": "all rulesets and xs on which the conditions can be evaluated", "why_tests_cant": "Universal over data.", "anchors": ["ruleskit/ruleset.py:RuleSet.calc_activation", "ruleskit/ruleset.py:RuleSet.evaluate"]}
{"id": "C118", "title": "Deleting activations", "statement": "del_activations leaves no rule with an activation, del_activation leaves the ruleset without, del_stacked_activations without stacked ones; nothing else changes. Without available activation ruleset_coverage is the stored coverage.", "quantifier": "all rulesets", "why_tests_cant": "Universal over states.", "anchors": ["ruleskit/ruleset.py:RuleSet.del_activations", "ruleskit/ruleset.py:RuleSet.del_activation", "ruleskit/ruleset.py:RuleSet.del_stacked_activations"]}
{"id": "C119", "title": "Predictions do not depend on how the ruleset is stored", "statement": "predict of a constructed ruleset of regression rules with distinct texts gives the (weighted) means of C45, whether it stacks its activations, and whether STACKED_FIT is set.", "quantifier": "all rulesets, weights and settings of the domain of C45", "why_tests_cant": "Two storages and two algorithms.", "anchors": ["ruleskit/ruleset.py:RuleSet.predict", "ruleskit/ruleset.py:RuleSet.__init__"]}
{"id": "C120", "title": "Slices keep stacking", "statement": "A slice of a ruleset that stacks its activations stacks its activations.", "quantifier": "all rulesets and slices", "why_tests_cant": "Attribute lost in a copy.", "anchors": ["ruleskit/ruleset.py:RuleSet.__getitem__"]}
{"id": "C121", "title": "sort accepts any rule", "statement": "sort() succeeds for every ruleset of rules with conditions.", "quantifier": "all rulesets", "why_tests_cant": "Needs a rule without features.", "anchors": ["ruleskit/ruleset.py:RuleSet.sort"]}
{"id": "C122", "title": "STACKED_FIT computes the train attributes of every rule", "statement": "With STACKED_FIT, fit gives every rule, good or bad, its activation vector on xs, the train set size, the mean (the most frequent class, the smallest in a tie) of the target where it is active, and for regression the standard deviation with one degree of freedom lost (NaN for one point), the sign and the z-score; conditions and other measures stay. A rule that was bad is returned; a rule that becomes bad fails a limit of its class, which it blames; a rule that stays good passes all the limits. The rules kept are those not equal to a returned one. Domain: rules of one type with distinct names; for classification every rule is active somewhere and the classes are of one kind and not '' or 'zero'.", "quantifier": "all rulesets, targets, inputs and limits of the domain", "why_tests_cant": "Statistics of all the rules at once, with checks after each attribute.", "anchors": ["ruleskit/ruleset.py:RuleSet.fit", "ruleskit/ruleset.py:RuleSet.calc_predictions", "ruleskit/ruleset.py:RuleSet.calc_stds", "ruleskit/ruleset.py:RuleSet.calc_signs", "ruleskit/ruleset.py:RuleSet.calc_zscores", "ruleskit/ruleset.py:RuleSet.calc_train_set_sizes"]}
{"id": "C123", "title": "STACKED_FIT computes the criterion of every rule", "statement": "With STACKED_FIT, eval gives every rule as criterion the error of its prediction where it is active (regression) or its rate of success there (classification); predictions and other measures stay. With new activations to be kept the rules get their vectors on xs, else they keep theirs. A rule that was bad is returned; a rule that becomes bad fails a limit of its class, which it blames; a rule that stays good passes all the limits. The rules kept are those not equal to a returned one. Domain: as for C122, no raw arrays as activations.", "quantifier": "all rulesets, targets, inputs and limits of the domain", "why_tests_cant": "Statistics of all the rules at once, with checks after each attribute.", "anchors": ["ruleskit/ruleset.py:RuleSet.eval", "ruleskit/ruleset.py:RuleSet.calc_criterions"]}
{"id": "C124", "title": "What fit and eval set in the ruleset", "statement": "fit sets the train set size of the ruleset to the size of the target and eval the test set size; the type, the setting stack_activation and the other size stay, no feature name is lost, and without dropped rules names and indexes stay. After fit the activation of the ruleset is the union of those of its rules if it was so before, xs is given or a rule is dropped; after eval if xs is given and new activations are kept, or if no rule is dropped and it was so before. With STACKED_FIT the stacked vectors are kept if and only if stack_activation is set.", "quantifier": "all rulesets, targets and inputs, stacked or not", "why_tests_cant": "Depends on dropped rules, on xs and on the settings.", "anchors": ["ruleskit/ruleset.py:RuleSet.fit", "ruleskit/ruleset.py:RuleSet.eval", "ruleskit/ruleset.py:RuleSet.compute_self_activation"]}
{"id": "C125", "title": "The criterion of the ruleset", "statement": "After eval the criterion of the ruleset is that of the predictions of the rules that remain, on xs or, when new activations are kept, on the activations of the rules: the error for regression, the rate of success where a rule is active for classification; NaN without predictions. Without rules it stays what it was.", "quantifier": "all rulesets, targets, inputs and weights; no raw arrays as activations", "why_tests_cant": "Depends on the rules that are dropped and on the activations used.", "anchors": ["ruleskit/ruleset.py:RuleSet.eval", "ruleskit/ruleset.py:RuleSet.calc_criterion"]}
{"id": "C126", "title": "fit and eval that do nothing or raise", "statement": "fit and eval raise ValueError for a ruleset without type, TypeError for rules without predictions, IndexError when the keyword method is given; they do nothing and return [] for an xs without rows or a ruleset without rules; fit also when xs is None and all the rules are fitted. eval raises ValueError when xs is None and some rule is not fitted. The ruleset does not change.", "quantifier": "all rulesets, targets, inputs and keywords", "why_tests_cant": "Many conditions checked in a given order.", "anchors": ["ruleskit/ruleset.py:RuleSet.fit", "ruleskit/ruleset.py:RuleSet.eval"]}
{"id": "C127", "title": "A good rule is not dropped because another one is bad", "statement": "A rule that is good after fit or eval stays in the ruleset, even when an equal rule is bad.", "quantifier": "all rulesets that have equal rules", "why_tests_cant": "Needs two equal rules of which only one is bad.", "anchors": ["ruleskit/ruleset.py:RuleSet.fit", "ruleskit/ruleset.py:RuleSet.eval", "ruleskit/rule.py:Rule.__eq__"]}
{"id": "C128", "title": "No bad rule stays", "statement": "After fit or eval no rule of the ruleset is bad.", "quantifier": "all rulesets, stacked or not", "why_tests_cant": "Needs a rule that is bad before, or that fails in the last check.", "anchors": ["ruleskit/ruleset.py:RuleSet.fit", "ruleskit/ruleset.py:RuleSet.eval"]}
{"id": "C129", "title": "Dropped rules are returned once", "statement": "fit returns every dropped rule once, with STACKED_FIT also.", "quantifier": "all rulesets with bad rules", "why_tests_cant": "Needs a rule that fails before the last attribute.", "anchors": ["ruleskit/ruleset.py:RuleSet.fit"]}
{"id": "C130", "title": "The names of the features are those of the rules left", "statement": "After fit the features_names of the ruleset are the features of its rules.", "quantifier": "all rulesets with a feature of bad rules only", "why_tests_cant": "Needs a dropped rule with a feature of its own.", "anchors": ["ruleskit/ruleset.py:RuleSet.fit", "ruleskit/ruleset.py:RuleSet.append"]}
{"id": "C131", "title": "The activation after an eval that drops rules", "statement": "After eval the activation of the ruleset is the union of those of its rules, also when some rule is dropped and new activations are not kept.", "quantifier": "all rulesets with bad rules", "why_tests_cant": "Needs a rule that becomes bad in eval.", "anchors": ["ruleskit/ruleset.py:RuleSet.eval"]}
{"id": "C132", "title": "A fit that raises leaves the settings alone", "statement": "With STACKED_FIT, a fit that raises leaves stack_activation as it was.", "quantifier": "all rulesets and inputs for which fit raises", "why_tests_cant": "Needs an exception in the middle of fit.", "anchors": ["ruleskit/ruleset.py:RuleSet.fit", "ruleskit/ruleset.py:RuleSet.calc_activation"]}
{"id": "C133", "title": "No criterion without rules", "statement": "After an eval that drops all the rules the ruleset has no criterion of earlier rules.", "quantifier": "all rulesets evaluated twice", "why_tests_cant": "Needs two evals, the second of which drops everything.", "anchors": ["ruleskit/ruleset.py:RuleSet.eval", "ruleskit/ruleset.py:RuleSet.calc_criterion"]}
{"id": "C134", "title": "STACKED_FIT gives the same values", "statement": "fit with STACKED_FIT gives the rules the same attributes as fit without.", "quantifier": "all rulesets", "why_tests_cant": "Differs only for rules activated at one point.", "anchors": ["ruleskit/ruleset.py:RuleSet.calc_stds", "ruleskit/utils/rfunctions.py:conditional_std"]}
{"id": "C135", "title": "No usable weight, no vote", "statement": "predict with weights raises ValueError when no weight is usable (each is missing, 0 or NaN): stacked regression and classification with weights, and unstacked classification also when each rule with a usable weight is not active anywhere. Unstacked classification without weights raises ValueError when no rule is active anywhere. (Unstacked regression: C108.)", "quantifier": "all rulesets whose rules have features and different texts, all data, all Series of weights", "why_tests_cant": "Universal over weights and activations; error paths of four algorithms.", "anchors": ["ruleskit/ruleset.py:RuleSet.predict", "ruleskit/utils/rfunctions.py:init_weights_stacked", "ruleskit/utils/rfunctions.py:calc_ruleset_prediction_weighted_classificator_unstacked"]}
{"id": "C136", "title": "Rules without prediction abstain", "statement": "In the stacked prediction without weights a regression rule whose prediction is None or NaN does not count in the means, and a classification rule whose prediction is NaN (a tie) does not count in the votes.", "quantifier": "all rulesets with at least one known numeric prediction (regression), or whose first rule predicts a text (classification)", "why_tests_cant": "Universal over the mixture of rules with and without prediction.", "anchors": ["ruleskit/ruleset.py:RuleSet._calc_prediction_stacked", "ruleskit/utils/rfunctions.py:calc_ruleset_prediction_equally_weighted_regressor_stacked", "ruleskit/utils/rfunctions.py:calc_ruleset_prediction_equally_weighted_classificator_stacked"]}
{"id": "C137", "title": "Stacking what does not stack", "statement": "evaluate_stacked_activations gives an empty DataFrame for an empty ruleset, None when xs is not given and a rule has no available activation, and raises ValueError when two activations have different lengths.", "quantifier": "all rulesets, with or without xs", "why_tests_cant": "Error paths over all lengths of vectors.", "anchors": ["ruleskit/ruleset.py:RuleSet.evaluate_stacked_activations"]}
{"id": "C138", "title": "Texts of missing conditions", "statement": "A rule without condition is called 'None', and a rule whose condition has no features_names 'empty condition'.", "quantifier": "all rules", "why_tests_cant": "Small but universal; used as the key of weights and columns.", "anchors": ["ruleskit/condition.py:HyperrectangleCondition.__str__", "ruleskit/ruleset.py:RuleSet.predict"]}
{"id": "C139", "title": "Tree extraction: leaf rules are disjoint", "statement": "No point satisfies the rules of two leaves of a tree.", "quantifier": "all trees, all points", "why_tests_cant": "Needs a point on a threshold.", "anchors": ["ruleskit/utils/rule_utils.py:extract_rules_from_tree"]}
{"id": "C140", "title": "Tree extraction: every tree gives rules", "statement": "Extraction with get_leaf succeeds for every fitted tree, a tree that is a single leaf included.", "quantifier": "all trees", "why_tests_cant": "Needs a tree without any split.", "anchors": ["ruleskit/utils/rule_utils.py:extract_rules_from_tree"]}
{"id": "C141", "title": "Tree extraction: leaf rules describe their leaf, on any path", "statement": "A point inside [xmins, xmaxs] that is not on a threshold satisfies the rule of a leaf only if the tree sends it to that leaf.", "quantifier": "all trees, all points", "why_tests_cant": "Needs a split to the right below a split to the left on the same feature.", "anchors": ["ruleskit/utils/rule_utils.py:extract_rules_from_tree"]}
{"id": "C142", "title": "Tree extraction: the rule of a node predicts the value of that node", "statement": "Without get_leaf, each rule predicts the tree's value at the node that the rule describes.", "quantifier": "all trees, all nodes but the root", "why_tests_cant": "Comparison of every rule with the node it leads to.", "anchors": ["ruleskit/utils/rule_utils.py:extract_rules_from_tree"]}
{"id": "C143", "title": "Tree extraction: success", "statement": "Extraction succeeds when the tree has a split or get_leaf is false, the lists are long enough, the names of the features differ, and the tree is not deeper than the nesting of calls that the interpreter accepts. It fails for any deeper tree.", "quantifier": "all trees", "why_tests_cant": "No error in any branch, for trees of any depth.", "anchors": ["ruleskit/utils/rule_utils.py:extract_rules_from_tree"]}
{"id": "C144", "title": "eval of a ruleset without data", "statement": "With STACKED_FIT, eval without xs of a fitted ruleset raises ValueError when nothing is stacked and a rule has no activation, and IndexError when the stacked activations and y have different lengths.", "quantifier": "all rulesets, all targets", "why_tests_cant": "Error paths over all rulesets.", "anchors": ["ruleskit/ruleset.py:RuleSet.eval"]}
{"id": "C145", "title": "to_df describes the rules", "statement": "to_df gives a table with the columns of the rule type and one row per rule, in order, with the texts of its attributes, labelled by its name or else by R_i(n) with the number i and the number n of features and the sign if it has one; the rules get these labels as names and nothing else changes. Then rows with the coverage, criterion and sizes of the ruleset, if asked for. A second call gives the same table. For a ruleset without rules the table is empty.", "quantifier": "all rulesets whose rules have the attributes of their type", "why_tests_cant": "Universal over rulesets, with the side effect on names.", "anchors": ["ruleskit/ruleset.py:RuleSet.to_df", "ruleskit/ruleset.py:RuleSet.rule_to_series"]}
{"id": "C146", "title": "save / load: coverage and criterion", "statement": "Loading a saved ruleset restores its coverage and criterion.", "quantifier": "all rulesets", "why_tests_cant": "The values come back with another type, which prints the same.", "anchors": ["ruleskit/ruleset.py:RuleSet.load", "ruleskit/ruleset.py:RuleSet.to_df"]}
{"id": "C147", "title": "save / load: test set size", "statement": "Loading a saved ruleset restores its test set size.", "quantifier": "all rulesets", "why_tests_cant": "Needs different sizes of the train and test sets.", "anchors": ["ruleskit/ruleset.py:RuleSet.to_df"]}
{"id": "C148", "title": "save / load: names of rules", "statement": "Loading a saved ruleset restores the names of its rules.", "quantifier": "all rulesets", "why_tests_cant": "A round trip that looks at the private names.", "anchors": ["ruleskit/ruleset.py:RuleSet.series_to_rule"]}
{"id": "C149", "title": "save / load: every ruleset that can be saved can be loaded", "statement": "A file written by save can be loaded.", "quantifier": "all rulesets", "why_tests_cant": "Fails only for values whose text is not a literal, such as infinite bounds.", "anchors": ["ruleskit/ruleset.py:RuleSet.series_to_rule", "ruleskit/ruleset.py:RuleSet.rule_to_series"]}
{"id": "C150", "title": "save / load: names of classes", "statement": "Loading a saved ruleset restores predictions that are texts.", "quantifier": "all texts", "why_tests_cant": "Fails only for texts that look like literals or do not parse.", "anchors": ["ruleskit/ruleset.py:RuleSet.series_to_rule"]}
{"id": "C151", "title": "load reads any table", "statement": "When load succeeds, there is one rule per row that is not labelled as an attribute of the ruleset, in order: a regression rule if there is a column std, else a classification rule if there is a column criterion, else a rule; its condition is the one built of the columns of the condition, each statistic is the literal in its cell (NaN for nan; the text itself for a prediction rejected with ValueError), None if there is no such column, and the sizes are those of the ruleset. The attributes of the ruleset are those of the first row with their label, and unchanged if there is none; the type is that of the first rule, the features names those of the rules. A column of no type of rules raises IndexError.", "quantifier": "all tables with different names of columns, loaded into any ruleset", "why_tests_cant": "Universal over tables, which need not come from save.", "anchors": ["ruleskit/ruleset.py:RuleSet.load", "ruleskit/ruleset.py:RuleSet.series_to_rule"]}
{"id": "C152", "title": "save / load: features indexes", "statement": "Loading a saved ruleset restores its features_indexes.", "quantifier": "all rulesets", "why_tests_cant": "The rules have the indexes, only the ruleset has not.", "anchors": ["ruleskit/ruleset.py:RuleSet.load"]}
{"id": "C153", "title": "save / load: a ruleset without rules", "statement": "Loading a saved ruleset without rules restores its attributes.", "quantifier": "all rulesets without rules", "why_tests_cant": "An edge case that raises no error.", "anchors": ["ruleskit/ruleset.py:RuleSet.to_df", "ruleskit/ruleset.py:RuleSet.load"]}
{"id": "C154", "title": "to_df with other rows", "statement": "With custom_rules_to_series, to_df gives the rows of that function, and names the first rules after them; it raises IndexError when there are more rows than rules.", "quantifier": "all functions, all rulesets", "why_tests_cant": "Universal over the function given.", "anchors": ["ruleskit/ruleset.py:RuleSet.to_df"]}
{"id": "C155", "title": "Rulesets that have nothing in common", "statement": "A ruleset whose rules are in no other ruleset, and whose DataFrame of stacked activations is that of no other ruleset, is not changed by any sequence of operations that are neither about it nor given its rules; and it stays apart from the others.", "quantifier": "all sequences of constructions, additions, slices, calc_activation, fit, eval, sort, predict, deletions and to_df, successful or not, on any number of rulesets", "why_tests_cant": "Universal over histories and over the sharing of objects.", "anchors": ["ruleskit/ruleset.py:RuleSet.__init__", "ruleskit/ruleset.py:RuleSet.__iadd__", "ruleskit/ruleset.py:RuleSet.__add__", "ruleskit/ruleset.py:RuleSet.calc_activation"]}
{"id": "C156", "title": "Additions and constructions change one ruleset only", "statement": "Without all_features_indexes, operations that construct a ruleset, add rules, slice, sort, or delete the ruleset's own activations change no other ruleset, whatever rules they have in common, as long as no two rulesets have the same DataFrame of stacked activations; and only += of a ruleset that has one, to a ruleset that stacks and has none, makes a DataFrame common.", "quantifier": "all sequences of operations from the first ruleset on", "why_tests_cant": "Universal over histories; an in-place change of a common object shows in another object.", "anchors": ["ruleskit/ruleset.py:RuleSet.__iadd__", "ruleskit/ruleset.py:RuleSet._update_stacked_activation", "ruleskit/ruleset.py:RuleSet.append"]}
{"id": "C157", "title": "The effect on the ruleset itself does not depend on sharing", "statement": "An operation gives the ruleset that it is about, or the ruleset that it makes, what it would give to a ruleset with its own copies of the rules; for calc_activation, del_activations, to_df, fit, eval and predict when no rule is twice in the ruleset.", "quantifier": "all states of any number of rulesets with common rules and DataFrames", "why_tests_cant": "Universal over the sharing of objects.", "anchors": ["ruleskit/ruleset.py:RuleSet.__iadd__", "ruleskit/ruleset.py:RuleSet.__add__", "ruleskit/ruleset.py:RuleSet.__getitem__", "ruleskit/ruleset.py:RuleSet.calc_activation"]}
{"id": "C158", "title": "Tables that load can read", "statement": "load raises no error for a table whose columns are known and different, whose rows that are labelled as attributes of the ruleset have a value (sizes that are texts being texts of integers), and whose other rows have literals in the cells of the condition (None standing for a missing argument) that make a condition with names, and in the cells of the statistics literals, nan, or for the prediction a text rejected with ValueError; for classification rules the prediction is no list of pairs.", "quantifier": "all such tables, loaded into any ruleset", "why_tests_cant": "Universal over tables, which need not come from save.", "anchors": ["ruleskit/ruleset.py:RuleSet.load", "ruleskit/ruleset.py:RuleSet.series_to_rule"]}
{"id": "C159", "title": "Counters of conversions", "statement": "The counters n_... of a new activation are the conversions that its constructor makes, and each attribute read, each time or size measured and each clear adds exactly the conversions that lead from the stored form to the one asked for; a statistic that is known already costs none, and a lazily loaded activation counts its loading.", "quantifier": "all vectors, sources, settings and stored forms; all activations a user can hold", "why_tests_cant": "Universal over the way the activation was built and used before.", "anchors": ["ruleskit/activation.py:Activation.__init__", "ruleskit/activation.py:Activation.raw", "ruleskit/activation.py:Activation.as_bitarray", "ruleskit/activation.py:Activation.as_integer", "ruleskit/activation.py:Activation.as_compressed_str", "ruleskit/activation.py:Activation.clear"]}
{"id": "C160", "title": "Times of conversions", "statement": "time_... is known exactly when the counter of the same conversion is positive, and with FORCE_STAT it is always known once it is asked for.", "quantifier": "all activations a user can hold, all conversions", "why_tests_cant": "An invariant of all histories.", "anchors": ["ruleskit/activation.py:Activation.time_compressed_to_raw", "ruleskit/activation.py:Activation.time_write", "ruleskit/activation.py:Activation.time_read"]}
{"id": "C161", "title": "Sizes with FORCE_STAT", "statement": "The size of the stored form is always recorded, the constructor and clear record the size of every form that they make, and an attribute that gives a form records its size; with FORCE_STAT every sizeof_... gives a size, except sizeof_compressed_array and sizeof_compressed_str of an activation stored in a file (which these two attributes do not record either).", "quantifier": "all activations a user can hold, all forms", "why_tests_cant": "An invariant of all histories.", "anchors": ["ruleskit/activation.py:Activation.sizeof_raw", "ruleskit/activation.py:Activation.sizeof_file", "ruleskit/activation.py:Activation.sizeof_path"]}
{"id": "C162", "title": "Sizes and times without FORCE_STAT", "statement": "Without FORCE_STAT, sizeof_... and time_... give what is recorded and change nothing.", "quantifier": "all activations, also partly built ones", "why_tests_cant": "Universal over states.", "anchors": ["ruleskit/activation.py:Activation.sizeof_raw", "ruleskit/activation.py:Activation.time_write"]}
{"id": "C163", "title": "Recorded sizes are right", "statement": "Every size recorded by the constructor, by a reading attribute, by a measure, by clear and by lazy loading is the size of that form of the vector (of a file, the size of the file; of a path, the size of some path), and no recorded size is forgotten; the exception is the path size of Activation(path) that writes no file.", "quantifier": "all vectors, sources and settings; all activations a user can hold", "why_tests_cant": "Universal over histories; a wrong size makes no error.", "anchors": ["ruleskit/activation.py:Activation.__init__", "ruleskit/activation.py:Activation._read", "ruleskit/activation.py:Activation._write"]}
{"id": "C164", "title": "FORCE_STAT makes every size", "statement": "With FORCE_STAT, sizeof_... always gives a size.", "quantifier": "all activations a user can hold, all forms", "why_tests_cant": "Needs an activation stored in a file and one of two of the seven sizes.", "anchors": ["ruleskit/activation.py:Activation.as_compressed_str", "ruleskit/activation.py:Activation.sizeof_compressed_str"]}
{"id": "C165", "title": "The path size is the size of a path", "statement": "sizeof_path of an activation read from a file is the size of a path.", "quantifier": "all files and settings", "why_tests_cant": "A number that looks right.", "anchors": ["ruleskit/activation.py:Activation._read", "ruleskit/activation.py:Activation.sizeof_path"]}
{"id": "C166", "title": "The text of a condition", "statement": "str(condition) is \"name in [min, max]\" for each feature, in order, joined by \" AND \"; two conditions have the same text exactly when they have the same names and bounds in the same order.", "quantifier": "all conditions with at least one feature; for the second claim all names without '[' and any printing of numbers that tells them apart without commas and closing brackets (C106 is about other names)", "why_tests_cant": "The text is the key of every Series and DataFrame of a ruleset; tests see a handful of names.", "anchors": ["ruleskit/condition.py:HyperrectangleCondition.__str__"]}
{"id": "C167", "title": "The text of a rule", "statement": "str(rule) is \"empty rule\" without condition, otherwise \"If <condition> Then <stored prediction>.\", with \"<prediction unset>\" before a fit. Two rules with conditions have the same text exactly when the conditions and the texts of the stored predictions are the same; no rule with a condition prints as an empty one.", "quantifier": "all rules, all printers of predictions; names as in C166", "why_tests_cant": "Universal over names, bounds and predictions.", "anchors": ["ruleskit/rule.py:Rule.__str__"]}
{"id": "C168", "title": "A rule prints its prediction", "statement": "Two rules with the same condition and the same `prediction` have the same text.", "quantifier": "all rules", "why_tests_cant": "Needs a classification rule fitted alone beside the same rule fitted with STACKED_FIT.", "anchors": ["ruleskit/rule.py:Rule.__str__", "ruleskit/rule.py:ClassificationRule.prediction"]}
{"id": "C169", "title": "The text of a ruleset", "statement": "str(ruleset) has one line per rule, in order, when there are fewer than 2*NLINES rules, otherwise the first NLINES, a line \"...\" and the last NLINES (only \"...\" for NLINES <= 0). It raises exactly when str of a rule that is shown raises.", "quantifier": "all rulesets, all values of NLINES, all printers", "why_tests_cant": "The boundary cases depend on the number of rules and NLINES.", "anchors": ["ruleskit/ruleset.py:RuleSet.__str__"]}
{"id": "C170", "title": "Length, iteration and indexing of a ruleset", "statement": "len, iteration and integer indexing agree: the i-th rule iterated over is ruleset[i] and ruleset[i - len], and any index outside [-len, len) raises IndexError.", "quantifier": "all rulesets, all integers", "why_tests_cant": "Universal over indices.", "anchors": ["ruleskit/ruleset.py:RuleSet.__len__", "ruleskit/ruleset.py:RuleSet.__iter__", "ruleskit/ruleset.py:RuleSet.__getitem__"]}
{"id": "C171", "title": "The type of the rules of a ruleset", "statement": "rule_type raises ValueError while unset and otherwise gives the type; assigning a rule class sets it and changes nothing else; assigning anything else raises TypeError and changes nothing.", "quantifier": "all rulesets, all values assigned", "why_tests_cant": "Universal over states.", "anchors": ["ruleskit/ruleset.py:RuleSet.rule_type"]}
{"id": "C172", "title": "Attributes of the activation through the ruleset", "statement": "nones, length, coverage, entropy, rel_entropy, raw and ones of a ruleset are those of its activation (FileNotFoundError for raw and ones of a deleted one); without activation, and for other names, AttributeError. coverage is ruleset_coverage while the activation is available.", "quantifier": "all rulesets; the names listed in RuleModel.v", "why_tests_cant": "Universal over vectors; __getattr__ is only reached for missing names.", "anchors": ["ruleskit/ruleset.py:RuleSet.__getattr__", "ruleskit/ruleset.py:RuleSet.ruleset_coverage"]}
{"id": "C173", "title": "Whether stacked activations are available", "statement": "stacked_activations_available is True exactly when the ruleset has stacked activations.", "quantifier": "all rulesets", "why_tests_cant": "No test reads it.", "anchors": ["ruleskit/ruleset.py:RuleSet.stacked_activations_available"]}
{"id": "C174", "title": "Sizes of the test set", "statement": "calc_test_set_sizes gives, for the text of the condition of every rule, the length of y, and nothing else.", "quantifier": "all lists of rules with nonempty conditions, all targets of one column", "why_tests_cant": "Universal over rules, also ones with the same condition.", "anchors": ["ruleskit/ruleset.py:RuleSet.calc_test_set_sizes"]}
{"id": "C175", "title": "The logical and of two conditions is independent of both", "statement": "a & b, whether it raises or not, changes no list and no condition that existed before. The condition it gives has lists of its own: later changes made in place to lists that existed before do not show in it, and changes made in place to its own lists do not show in a, b or any other condition that existed.", "quantifier": "all conditions, all states of the lists, all sequences of changes made in place", "why_tests_cant": "Universal over heaps and histories; sharing is only visible when a list is changed afterwards.", "anchors": ["ruleskit/condition.py:HyperrectangleCondition.__and__"]}
{"id": "C176", "title": "A condition is independent of the lists it was constructed from", "statement": "Once a condition is constructed, changes that the caller makes in place to the lists that were given do not change it.", "quantifier": "all arguments, all states of the lists, all sequences of changes made in place", "why_tests_cant": "Depends on the number of features and on sort; sharing is only visible when a list is changed afterwards.", "anchors": ["ruleskit/condition.py:HyperrectangleCondition.__init__", "ruleskit/condition.py:Condition.__init__", "ruleskit/condition.py:HyperrectangleCondition.sort"]}
{"id": "C177", "title": "A condition is independent of the lists assigned to it", "statement": "Once features_indexes, features_names, bmins or bmaxs is assigned, changes made in place to the list that was assigned do not change the condition; in particular two conditions to which one list was assigned do not change together.", "quantifier": "all conditions, all lists and texts assigned, all changes made in place", "why_tests_cant": "Sharing is only visible when a list is changed afterwards.", "anchors": ["ruleskit/condition.py:Condition.features_indexes", "ruleskit/condition.py:HyperrectangleCondition.features_names", "ruleskit/condition.py:HyperrectangleCondition.bmins", "ruleskit/condition.py:HyperrectangleCondition.bmaxs"]}
{"id": "C178", "title": "A change made in place shows where the list is, and nowhere else", "statement": "A change made in place to a list (an element assigned, append, clear...) shows in exactly the attributes of exactly the conditions that have this list; the flag impossible stays.", "quantifier": "all heaps, all conditions, all changes", "why_tests_cant": "Universal over states.", "anchors": ["ruleskit/condition.py:HyperrectangleCondition.bmins", "ruleskit/condition.py:HyperrectangleCondition.bmaxs", "ruleskit/condition.py:HyperrectangleCondition.features_names", "ruleskit/condition.py:Condition.features_indexes"]}
{"id": "C179", "title": "The flag impossible after a change of the bounds in place", "statement": "After bounds are changed in place (condition.bmins[i] = x), the flag impossible tells whether a lower bound exceeds its upper bound, and evaluate compares with the bounds that the condition has.", "quantifier": "all conditions, all changes of bounds in place", "why_tests_cant": "No test changes bounds in place.", "anchors": ["ruleskit/condition.py:HyperrectangleCondition.evaluate", "ruleskit/condition.py:HyperrectangleCondition.bmins"]}
{"id": "C180", "title": "Each rule extracted from a tree has a condition of its own", "statement": "The conditions of the rules extracted from a tree are those computed with lists as values, although bounds are changed in place on the way; no two of the rules share a list, so a change made in place to the bounds of one rule does not show in another.", "quantifier": "all trees for which the extraction succeeds, all requests, all changes made in place", "why_tests_cant": "Universal over trees; sharing between rules is only visible when one is changed afterwards.", "anchors": ["ruleskit/utils/rule_utils.py:extract_rules_from_tree"]}
{"id": "C181", "title": "The logical and treats both sides alike", "statement": "If one side of & lacks feature names or indexes (a condition made with empty=True and filled through the setters), a & b gives a condition if and only if b & a does.", "quantifier": "all conditions, complete or not", "why_tests_cant": "Incomplete conditions are not tested.", "anchors": ["ruleskit/condition.py:HyperrectangleCondition.__and__", "ruleskit/condition.py:HyperrectangleCondition.__init__"]}
{"id": "C182", "title": "Fitting or predicting with one ruleset leaves the predictions of others", "statement": "fit of one ruleset does not change what another ruleset predicts on the same data, and predict changes no rule of another ruleset.", "quantifier": "all rulesets, with common rules or not", "why_tests_cant": "Two fitted rulesets with a common rule are needed to see a difference.", "anchors": ["ruleskit/ruleset.py:RuleSet.fit", "ruleskit/ruleset.py:RuleSet.predict"]}
{"id": "C183", "title": "What a rule says never changes", "statement": "Whatever is done with rulesets - constructing, adding, slicing, sorting, fitting, evaluating, predicting, deleting activations, to_df, successful or not - every rule object keeps its class and its condition; so rules stay equal or different, keep their hash, and hold for the same data. With all_features_indexes only the indexes of the conditions change: the class, the names, the bounds and the impossible flag stay.", "quantifier": "all sequences of operations on any number of rulesets, all rules", "why_tests_cant": "Universal over histories.", "anchors": ["ruleskit/ruleset.py:RuleSet.fit", "ruleskit/ruleset.py:RuleSet.eval", "ruleskit/ruleset.py:RuleSet.sort", "ruleskit/ruleset.py:RuleSet.predict", "ruleskit/ruleset.py:RuleSet.calc_activation", "ruleskit/ruleset.py:RuleSet.to_df", "ruleskit/ruleset.py:RuleSet.__init__"]}
{"id": "C184", "title": "What other rulesets keep", "statement": "Operations on other rulesets that add no rule in place to one (+= of a rule, append) leave every attribute of a ruleset but the state of its rules: the list of rule objects, the activation, the stacked activations (even when it shares the DataFrame), the features, the class, the criterion and the sizes.", "quantifier": "all sequences of such operations, rulesets sharing rules and DataFrames in any way", "why_tests_cant": "Universal over histories and over the sharing of objects.", "anchors": ["ruleskit/ruleset.py:RuleSet.fit", "ruleskit/ruleset.py:RuleSet.eval", "ruleskit/ruleset.py:RuleSet.sort", "ruleskit/ruleset.py:RuleSet.__iadd__"]}
{"id": "C185", "title": "Which DataFrame of stacked activations", "statement": "predict leaves the ruleset its DataFrame of stacked activations, and so do fit without xs and eval without new activations to keep when they drop no rule (eval of the rules one by one only if the ruleset has an activation of its own). fit with xs, and eval with xs whose activations are kept, leave another DataFrame or none (when the rules are fitted one by one: if the ruleset stacks); sort by the features (if the first rule has a condition) or by any attribute leaves another one exactly if the ruleset stacks.", "quantifier": "all rulesets sharing rules and DataFrames in any way, all data", "why_tests_cant": "The DataFrames are equal; whether they are the same object shows only in later operations on another ruleset.", "anchors": ["ruleskit/ruleset.py:RuleSet.fit", "ruleskit/ruleset.py:RuleSet.eval", "ruleskit/ruleset.py:RuleSet.sort", "ruleskit/ruleset.py:RuleSet.predict"]}
{"id": "C186", "title": "Conditions and rules can be added", "statement": "c1 + c2 is the same thing as c1 & c2 (docstring of Condition), for conditions and rules whose & can be computed.", "quantifier": "all conditions and rules", "why_tests_cant": "Addition is not tested.", "anchors": ["ruleskit/condition.py:Condition.__add__", "ruleskit/rule.py:Rule.__add__"]}
{"id": "C187", "title": "A condition of the base class is always fulfilled", "statement": "Condition(features_indexes).evaluate(xs) is 1 for every row (docstring: without actual condition it is always fulfilled), a rule can be evaluated with such a condition, and & combines it with another condition.", "quantifier": "all indexes, all data, all rules with such a condition", "why_tests_cant": "The base class is only used through its daughter in the tests.", "anchors": ["ruleskit/condition.py:Condition.evaluate", "ruleskit/condition.py:Condition.__and__", "ruleskit/rule.py:Rule.evaluate_activation", "ruleskit/rule.py:Rule.calc_activation", "ruleskit/rule.py:Rule.__and__"]}
{"id": "C188", "title": "Indexes of a condition of the base class", "statement": "Condition(l) succeeds exactly for lists of distinct integers (bool and float are not integers) and gives the condition with these indexes; a missing list raises ValueError, an element of another type TypeError, else a repeated index DuplicatedFeatures. sort puts the same indexes in increasing order, normalize_features_indexes replaces them by 0, 1, ..., n-1, an assignment takes distinct integers of the same number (any number if there was none) and otherwise raises and changes nothing. So after any history the indexes are distinct and as many as at first.", "quantifier": "all arguments, all sequences of methods and assignments, successful or not", "why_tests_cant": "Universal over arguments and histories.", "anchors": ["ruleskit/condition.py:Condition.__init__", "ruleskit/condition.py:Condition.sort", "ruleskit/condition.py:Condition.features_indexes", "ruleskit/condition.py:Condition.__len__", "ruleskit/condition.py:Condition.normalize_features_indexes"]}
{"id": "C189", "title": "An empty condition can be filled", "statement": "A condition made with empty=True accepts any list of distinct indexes through the setter of features_indexes.", "quantifier": "conditions of the base class and hyperrectangle conditions, all lists", "why_tests_cant": "Only hyperrectangle conditions are made empty and filled by the code.", "anchors": ["ruleskit/condition.py:Condition.features_indexes", "ruleskit/condition.py:Condition.__len__", "ruleskit/condition.py:HyperrectangleCondition.__len__"]}
{"id": "C190", "title": "Hash of a condition of the base class", "statement": "Two conditions of the base class on the same set of indexes have the same hash, whatever the order; on different sets of non-negative indexes below 2^61-1 they have different hashes unless the hash function of Python collides. A hyperrectangle condition equals a condition of the base class, on either side of ==, exactly if both have no features.", "quantifier": "all conditions; the equality up to collisions of the hash function, with a hyperrectangle condition whose lists have one length", "why_tests_cant": "Universal over sets of indexes.", "anchors": ["ruleskit/condition.py:Condition.to_hash", "ruleskit/condition.py:Condition.__hash__", "ruleskit/condition.py:HyperrectangleCondition.__eq__"]}
{"id": "C191", "title": "clean_files removes the files of activations and nothing else", "statement": "Activation.clean_files() removes every file ACTIVATION_VECTOR_*.txt of DEFAULT_TEMPDIR and no other file, and does nothing if DEFAULT_TEMPDIR is not a directory. Activations that are not stored in such a file still represent their vector; those that are raise FileNotFoundError for raw and ones, but nones, coverage, entropy, rel_entropy and len that have been read before keep their value. All names are free for new activations afterwards.", "quantifier": "all contents of the disk, all activations a user can hold", "why_tests_cant": "Universal over the content of the disk and over histories of activations.", "anchors": ["ruleskit/activation.py:Activation.clean_files"]}
{"id": "C192", "title": "A one-point activation counts at every row of a prediction", "statement": "RuleSet.predict without stacked activations: if the first rule that counts has an activation of n points and each later one n points or a single one, the prediction has n rows and is the mean (regression) or the vote (classification) in which the single point is repeated at every row. In regression a later activation of another length raises ValueError; in classification a rule that brings a new class with another number of points than n raises ValueError, also for a single point.", "quantifier": "all rules, weights and lengths; regression: the first rule does not predict 0, the sum at the row is not 0, without weights fewer than 256 rules at a row; classification: positive weights, classes other than NaN", "why_tests_cant": "Tests only combine rules with activations of one length.", "anchors": ["ruleskit/utils/rfunctions.py:calc_ruleset_prediction_weighted_regressor_unstacked", "ruleskit/utils/rfunctions.py:calc_ruleset_prediction_equally_weighted_regressor_unstacked", "ruleskit/utils/rfunctions.py:calc_ruleset_prediction_weighted_classificator_unstacked", "ruleskit/utils/rfunctions.py:calc_ruleset_prediction_equally_weighted_classificator_unstacked"]}
{"id": "C193", "title": "Rules evaluated on different numbers of points are not combined", "statement": "RuleSet.predict raises an exception when the activations of the rules that count have different lengths.", "quantifier": "all regression rules without stacked activations", "why_tests_cant": "Tests only combine rules with activations of one length.", "anchors": ["ruleskit/utils/rfunctions.py:calc_ruleset_prediction_equally_weighted_regressor_unstacked", "ruleskit/ruleset.py:RuleSet.predict"]}
{"id": "C194", "title": "The lists of attributes decide what fit and eval compute", "statement": "With attributes_from_train_set and attributes_from_test_set assigned by the user: the default lists give fit and eval as they are; for every list, a quantity (train_set_size, test_set_size, prediction, std, sign, zscore, criterion) that is not listed keeps its value, whether fit or eval succeed or raise, and so does coverage in eval without recompute_activation.", "quantifier": "all lists of names that the model accepts, all rules, data, targets and options", "why_tests_cant": "Tests only use the default lists.", "anchors": ["ruleskit/rule.py:Rule.fit", "ruleskit/rule.py:Rule.eval", "ruleskit/rule.py:Rule.attributes_from_train_set", "ruleskit/rule.py:Rule.attributes_from_test_set"]}
{"id": "C195", "title": "activation can not be listed", "statement": "A list with the name activation makes fit raise, for good and bad rules, and eval too unless it skips a bad rule; if the names before it can be computed, it is a ValueError.", "quantifier": "all lists, all rules, data, targets and options", "why_tests_cant": "Tests only use the default lists.", "anchors": ["ruleskit/rule.py:Rule.fit", "ruleskit/rule.py:Rule.eval"]}
{"id": "C196", "title": "A name that can not be computed is reported", "statement": "A name in attributes_from_train_set or attributes_from_test_set without a calc_ method raises AttributeError.", "quantifier": "all lists, all rules", "why_tests_cant": "Tests only use the default lists.", "anchors": ["ruleskit/rule.py:Rule.fit", "ruleskit/rule.py:Rule.eval"]}
{"id": "C197", "title": "The order of the attributes does not matter", "statement": "fit computes the same values whatever the order of attributes_from_train_set.", "quantifier": "all orders of the attributes, all regression rules, data and targets", "why_tests_cant": "Tests only use the default lists.", "anchors": ["ruleskit/rule.py:Rule.fit", "ruleskit/rule.py:RegressionRule.calc_sign", "ruleskit/rule.py:RegressionRule.calc_zscore"]}
{"id": "C198", "title": "Attributes of the test set are computed on the test set", "statement": "eval(y, xs) computes the attributes in attributes_from_test_set from the points of xs that the rule activates (argument activation of the calc_ methods).", "quantifier": "all lists, all rules, data and targets", "why_tests_cant": "Tests only use the default lists, where prediction is computed by fit.", "anchors": ["ruleskit/rule.py:Rule.eval", "ruleskit/rule.py:RegressionRule.calc_prediction", "ruleskit/rule.py:ClassificationRule.calc_prediction"]}
{"id": "C199", "title": "load gives a ruleset rules of its own", "statement": "load acts on its ruleset as if there were no other. It leaves every other ruleset, and every rule object there was, unchanged, even those that were shared before. When it succeeds the ruleset has no rule object twice or in common with another ruleset; its stacked DataFrame is a new one if stack_activation is set, else the one it had.", "quantifier": "all numbers of rulesets with any rules in common, all tables, successful or not", "why_tests_cant": "Universal over the sharing of objects.", "anchors": ["ruleskit/ruleset.py:RuleSet.load"]}
{"id": "C200", "title": "load replaces what the ruleset had", "statement": "After load nothing of the earlier content of the ruleset is left: its criterion, features_indexes, sizes, activation and stacked activations are those of the file, or empty.", "quantifier": "all rulesets, all tables", "why_tests_cant": "Tests load into an empty ruleset.", "anchors": ["ruleskit/ruleset.py:RuleSet.load", "ruleskit/ruleset.py:RuleSet.compute_self_activation", "ruleskit/ruleset.py:RuleSet.compute_stacked_activation"]}
{"id": "C201", "title": "to_raw_from_any gives the vector of every format", "statement": "to_raw_from_any of a bitarray, a raw array, an integer (on an instance of that length), a compressed text or a compressed array (of two points or more) is the vector that it stands for. It raises ValueError for an integer that is negative or does not fit, and TypeError for a text of one integer, a path, None, or an integer when the length is not known.", "quantifier": "all vectors, all instances, all integers", "why_tests_cant": "Universal over vectors and their five formats.", "anchors": ["ruleskit/activation.py:Activation.to_raw_from_any", "ruleskit/activation.py:Activation._integer_to_raw", "ruleskit/activation.py:Activation._bitarray_to_raw", "ruleskit/activation.py:Activation._decompress"]}
{"id": "C202", "title": "to_raw_from_any of the compressed array of one point", "statement": "to_raw_from_any gives back the vector of one point from its compressed array.", "quantifier": "all vectors of one point", "why_tests_cant": "An edge case of one length.", "anchors": ["ruleskit/activation.py:Activation._decompress"]}
{"id": "C203", "title": "The static codecs on other values", "statement": "_compress raises TypeError for integers and bitarrays, and leaves texts, empty arrays and arrays that are already compressed as they are; _raw_to_integer leaves integers and _raw_to_bitarray bitarrays as they are; both raise TypeError for texts and compressed arrays, and ValueError for an array with a digit other than 0 and 1 (_raw_to_integer also for an empty one).", "quantifier": "all integers, bitarrays, texts and arrays", "why_tests_cant": "Universal over values of each type.", "anchors": ["ruleskit/activation.py:Activation._compress", "ruleskit/activation.py:Activation._raw_to_integer", "ruleskit/activation.py:Activation._raw_to_bitarray"]}
{"id": "C204", "title": "The calc methods without activation or prediction", "statement": "For a rule without activation calc_prediction, calc_std, calc_zscore and calc_criterion of a regression rule, and calc_criterion of a classification rule, change nothing; calc_prediction of a classification rule raises ValueError. calc_criterion of a classification rule with an activation but without prediction raises TypeError and changes nothing.", "quantifier": "all rules, targets and options", "why_tests_cant": "fit and eval never call them so.", "anchors": ["ruleskit/rule.py:RegressionRule.calc_prediction", "ruleskit/rule.py:RegressionRule.calc_std", "ruleskit/rule.py:RegressionRule.calc_zscore", "ruleskit/rule.py:RegressionRule.calc_criterion", "ruleskit/rule.py:ClassificationRule.calc_prediction", "ruleskit/rule.py:ClassificationRule.calc_criterion"]}
{"id": "C205", "title": "fit of a ruleset with a target of a wrong length", "statement": "With STACKED_FIT, fit without xs raises when the stacked activations and y have different lengths, ValueError for a Series and IndexError else, and the ruleset is unchanged.", "quantifier": "all rulesets with a rule that is not fitted, all targets", "why_tests_cant": "Error paths over all rulesets.", "anchors": ["ruleskit/ruleset.py:RuleSet.fit"]}
{"id": "C206", "title": "A regression with a text", "statement": "RuleSet.predict of regression rules raises TypeError when the prediction of the first is a text and it is active somewhere.", "quantifier": "all lists of rules, all texts", "why_tests_cant": "Such rules only come from files.", "anchors": ["ruleskit/ruleset.py:RuleSet.predict", "ruleskit/utils/rfunctions.py:calc_ruleset_prediction_equally_weighted_regressor_unstacked"]}
{"id": "C207", "title": "A rule without condition has no length", "statement": "For a rule without condition, len and get_correlation raise TypeError, and so does calc_prediction_vector with an activation and a prediction; without prediction it gives NaN at every point.", "quantifier": "all rules without condition", "why_tests_cant": "Error paths over all rules.", "anchors": ["ruleskit/rule.py:Rule.__len__", "ruleskit/rule.py:Rule.get_correlation", "ruleskit/rule.py:Rule.calc_prediction_vector"]}
{"id": "C208", "title": "Methods and loads of other rulesets", "statement": "After any sequence of methods and loads, whatever they return or raise, a ruleset that had no rule and no DataFrame in common with the others, and that none of them names (nor one of its rules), is unchanged and still has nothing in common with them. A ruleset that has loaded a file (with stack_activation, or without stacked activations) is such a ruleset: it stays what the file says. Without += of rulesets no two rulesets come to share a DataFrame.", "quantifier": "all sets of rulesets, all sequences of calls and files", "why_tests_cant": "Universal over histories that mix calls and loads.", "anchors": ["ruleskit/ruleset.py:RuleSet.load", "ruleskit/ruleset.py:RuleSet.__iadd__", "ruleskit/ruleset.py:RuleSet.fit", "ruleskit/ruleset.py:RuleSet.compute_stacked_activation"]}
{"id": "C209", "title": "What the names of a rule read", "statement": "The private names of a rule read its flags (_good, _fitted, _evaluated), the attribute that _bad_because blames, and None exactly when there is no condition, activation or threshold. features_names, features_indexes, bmins, bmaxs and impossible read the condition, None for a list that is not set. prediction of a classification rule with an empty list of classes raises ValueError.", "quantifier": "all rules whose dictionary does not hide the names", "why_tests_cant": "Universal over rules.", "anchors": ["ruleskit/rule.py:Rule.__getattr__", "ruleskit/rule.py:Rule.good", "ruleskit/rule.py:Rule.bad_because", "ruleskit/rule.py:ClassificationRule.prediction"]}
{"id": "C210", "title": "COMPUTE_SUBATTRIBUTES", "statement": "After a fit with COMPUTE_SUBATTRIBUTES that does not raise, every attribute of the index of the class can be read.", "quantifier": "all rules that are not fitted, all data that is not empty", "why_tests_cant": "Universal over rules and data; the attributes come from the rule, its activation and its condition.", "anchors": ["ruleskit/rule.py:Rule.trigger_subattributes_computation", "ruleskit/rule.py:Rule.fit"]}
{"id": "C211", "title": "NaN is the last class", "statement": "In the array of class_probabilities of numbers the rows of NaN come after those of the numbers, infinite or not.", "quantifier": "all targets of numbers, all activations", "why_tests_cant": "Universal over targets; NaN is in no order with the numbers.", "anchors": ["ruleskit/utils/rfunctions.py:class_probabilities"]}
{"id": "C212", "title": "Equal conditions with infinite bounds are the same", "statement": "Conditions that are equal have the same features with the same bounds, when each bound is inf, -inf or an integer a with |a| < 2^61 - 1 other than -1, 314159 and -314159; in particular -inf and inf are never taken for one another.", "quantifier": "all conditions with such bounds, all hashes of texts, tuples and sets without collisions", "why_tests_cant": "Universal over conditions; equality goes through hashes.", "anchors": ["ruleskit/condition.py:HyperrectangleCondition.__eq__", "ruleskit/condition.py:HyperrectangleCondition.__hash__"]}
{"id": "C213", "title": "An infinite bound differs from every finite one", "statement": "A condition with an infinite bound is not equal to a condition with a finite bound in its place.", "quantifier": "all conditions", "why_tests_cant": "One number among all has the hash of infinity.", "anchors": ["ruleskit/condition.py:HyperrectangleCondition.__eq__", "ruleskit/condition.py:HyperrectangleCondition.__hash__"]}
