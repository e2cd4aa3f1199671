{
 "claims": [
  {
   "property": "C01",
   "status": "proved",
   "theorems": [
    "C01_round_trip"
   ],
   "note": "All 0/1 vectors in the stated domain, all settings, flags, size oracles and free names."
  },
  {
   "property": "C02",
   "status": "proved",
   "theorems": [
    "C02_views"
   ],
   "note": "All eleven reading attributes on every activation in `obtained` (ActObs.v): constructed any way, lazily loaded and read, read, measured, cleared, settings and other files changed in between."
  },
  {
   "property": "C03",
   "status": "proved",
   "theorems": [
    "C03_sources",
    "C03_lazy"
   ],
   "note": "The six kinds of constructor arguments and the lazy load."
  },
  {
   "property": "C04",
   "status": "proved",
   "theorems": [
    "C04_reading"
   ],
   "note": "`shows`: every finite history of reads and settings changes gives the views of the vector and leaves the disk as it was."
  },
  {
   "property": "C05",
   "status": "proved",
   "theorems": [
    "C05_operators",
    "C05_minus",
    "C05_mismatch"
   ],
   "note": "The stated exception (both stored as integers) is C64."
  },
  {
   "property": "C06",
   "status": "proved",
   "theorems": [
    "C06_and_or",
    "C06_xor",
    "C06_xor_two",
    "C06_xor_one",
    "C06_exhausted"
   ],
   "note": "Every memory reading and MemoryError outcome. For xor of one activation the code returns a copy (C06_xor_one)."
  },
  {
   "property": "C07",
   "status": "partial",
   "theorems": [
    "C07_plus_refuted",
    "C07_plus_first"
   ],
   "note": "REFUTED: `self or other` returns the first operand, shown for every activation; witness where that is not the OR."
  },
  {
   "property": "C08",
   "status": "proved",
   "theorems": [
    "C08_text",
    "C08_array",
    "C08_injective"
   ],
   "note": ""
  },
  {
   "property": "C09",
   "status": "proved",
   "theorems": [
    "C09_integer",
    "C09_injective",
    "C09_no_length"
   ],
   "note": ""
  },
  {
   "property": "C10",
   "status": "proved",
   "theorems": [
    "C10_copy"
   ],
   "note": "Includes that the copy of a file-backed activation has its own file."
  },
  {
   "property": "C11",
   "status": "proved",
   "theorems": [
    "C11_clear",
    "C11_statistics_survive",
    "C11_delete"
   ],
   "note": ""
  },
  {
   "property": "C12",
   "status": "proved",
   "theorems": [
    "C12_constructor",
    "C12_copy",
    "C12_operators",
    "C12_reading"
   ],
   "note": "Also when the call raises."
  },
  {
   "property": "C13",
   "status": "partial",
   "theorems": [
    "C13_in_refuted",
    "C13_in_partial"
   ],
   "note": "REFUTED: the test is symmetric. Proved: True exactly when one of the two is contained in the other, for operands not both stored as integers (for which it raises, C64)."
  },
  {
   "property": "C14",
   "status": "proved",
   "theorems": [
    "C14_correlation",
    "C14_range",
    "C14_mismatch"
   ],
   "note": ""
  },
  {
   "property": "C15",
   "status": "proved",
   "theorems": [
    "C15_sequential",
    "C15_threads"
   ],
   "note": "The world (with WILL_COMPARE) is unchanged by every reading attribute; threads by small-step interleaving."
  },
  {
   "property": "C16",
   "status": "proved",
   "theorems": [
    "C16_profiling"
   ],
   "note": "All sizeof_* and time_* attributes."
  },
  {
   "property": "C17",
   "status": "proved",
   "theorems": [
    "C17_constructor",
    "C17_accepted_arguments"
   ],
   "note": ""
  },
  {
   "property": "C18",
   "status": "proved",
   "theorems": [
    "C18_evaluate",
    "C18_missing_feature"
   ],
   "note": ""
  },
  {
   "property": "C19",
   "status": "proved",
   "theorems": [
    "C19_flag",
    "C19_impossible",
    "C19_hides_nothing",
    "C19_possible"
   ],
   "note": ""
  },
  {
   "property": "C20",
   "status": "proved",
   "theorems": [
    "C20_features",
    "C20_evaluation"
   ],
   "note": "Domain: no NaN bounds (C70 refutes the rest)."
  },
  {
   "property": "C21",
   "status": "proved",
   "theorems": [
    "C21_commutative",
    "C21_associative",
    "C21_idempotent"
   ],
   "note": ""
  },
  {
   "property": "C22",
   "status": "proved",
   "theorems": [
    "C22_defined"
   ],
   "note": ""
  },
  {
   "property": "C23",
   "status": "proved",
   "theorems": [
    "C23_sort",
    "C23_order_of_arguments"
   ],
   "note": ""
  },
  {
   "property": "C24",
   "status": "partial",
   "theorems": [
    "C24_equality_refuted",
    "C24_large_numbers_refuted",
    "C24_same_are_equal",
    "C24_equal_are_same_partial"
   ],
   "note": "REFUTED: equality compares hashes and hash(-1) == hash(-2), hash(n) == hash(n + 2^61 - 1). Proved: same content implies equal and equal hashes; the converse for integral bounds other than -1 and below 2^61 - 1 in absolute value when strings, tuples and frozensets do not collide."
  },
  {
   "property": "C25",
   "status": "proved",
   "theorems": [
    "C25_lower_bounds",
    "C25_upper_bounds",
    "C25_rejected"
   ],
   "note": ""
  },
  {
   "property": "C26",
   "status": "proved",
   "theorems": [
    "C26_number",
    "C26_text",
    "C26_unlimited",
    "C26_unknown_function",
    "C26_not_a_number"
   ],
   "note": "math.sqrt/exp/log, str of a value and int of a text are arguments of the model."
  },
  {
   "property": "C27",
   "status": "proved",
   "theorems": [
    "C27_no_file",
    "C27_file",
    "C27_checks_keep_limits"
   ],
   "note": ""
  },
  {
   "property": "C28",
   "status": "proved",
   "theorems": [
    "C28_stays_bad",
    "C28_reason",
    "C28_fit_reason",
    "C28_eval_reason",
    "C28_fit_limits",
    "C28_eval_limits",
    "C28_check",
    "C28_check_all",
    "C28_no_limits",
    "C28_constructor"
   ],
   "note": "The reason is stated for limits that are numbers; limits on attributes of the activation are C98, thresholds of one rule C29."
  },
  {
   "property": "C29",
   "status": "partial",
   "theorems": [
    "C29_own_limits_refuted",
    "C29_own_limits_rejected_refuted",
    "C29_only_stored_partial"
   ],
   "note": "REFUTED: check_thresholds reads the THRESHOLDS of the class; the thresholds of the rule are stored and never used, in both directions. Only the storing is proved."
  },
  {
   "property": "C30",
   "status": "proved",
   "theorems": [
    "C30_consistent",
    "C30_value",
    "C30_refused"
   ],
   "note": ""
  },
  {
   "property": "C31",
   "status": "proved",
   "theorems": [
    "C31_number",
    "C31_text",
    "C31_unset",
    "C31_refused",
    "C31_after_fit",
    "C31_vector_number",
    "C31_vector_text",
    "C31_vector_unset",
    "C31_vector_missing"
   ],
   "note": "C31_after_fit for arrays (a DataFrame gives a Series). Bugs: C88, C89."
  },
  {
   "property": "C32",
   "status": "proved",
   "theorems": [
    "C32_activation",
    "C32_coverage",
    "C32_condition",
    "C32_missing",
    "C32_unknown",
    "C32_assign",
    "C32_assign_unknown",
    "C32_assign_refused",
    "C32_assign_sizes",
    "C32_assign_coverage",
    "C32_assign_keeps"
   ],
   "note": "Names that do not start with an underscore. The intent that assignments reach the condition is C90."
  },
  {
   "property": "C33",
   "status": "proved",
   "theorems": [
    "C33_value",
    "C33_refused"
   ],
   "note": "See C91."
  },
  {
   "property": "C34",
   "status": "proved",
   "theorems": [
    "C34_constructor",
    "C34_constructor_errors",
    "C34_regression",
    "C34_classification",
    "C34_plain",
    "C34_nothing",
    "C34_regression_succeeds",
    "C34_classification_succeeds",
    "C34_again"
   ],
   "note": ""
  },
  {
   "property": "C35",
   "status": "proved",
   "theorems": [
    "C35_one_rule",
    "C35_between",
    "C35_stacked",
    "C35_already_extracted",
    "C35_errors"
   ],
   "note": "Exact rationals instead of floats."
  },
  {
   "property": "C36",
   "status": "proved",
   "theorems": [
    "C36_one_rule",
    "C36_stacked",
    "C36_agree",
    "C36_already_extracted",
    "C36_errors"
   ],
   "note": "sqrt is an argument of the model. The single point is C85."
  },
  {
   "property": "C37",
   "status": "proved",
   "theorems": [
    "C37_numbers",
    "C37_texts",
    "C37_prediction_numbers",
    "C37_prediction_texts",
    "C37_stacked",
    "C37_most_common"
   ],
   "note": "repr of a float is an argument of the model. The excluded cases are C79, C80, C81."
  },
  {
   "property": "C38",
   "status": "proved",
   "theorems": [
    "C38_mse",
    "C38_mae",
    "C38_mse_sign",
    "C38_mae_sign",
    "C38_best_constant",
    "C38_normalised",
    "C38_mean_predictor",
    "C38_unknown_target",
    "C38_aae",
    "C38_table",
    "C38_choice",
    "C38_errors"
   ],
   "note": "mae_norm is C82."
  },
  {
   "property": "C39",
   "status": "proved",
   "theorems": [
    "C39_label",
    "C39_label_extremes",
    "C39_majority_is_best",
    "C39_rows",
    "C39_columns",
    "C39_errors"
   ],
   "note": "See also C83, C84, C86."
  },
  {
   "property": "C40",
   "status": "proved",
   "theorems": [
    "C40_value",
    "C40_square",
    "C40_no_point",
    "C40_constant_target",
    "C40_stacked"
   ],
   "note": "sqrt is an argument of the model."
  },
  {
   "property": "C41",
   "status": "proved",
   "theorems": [
    "C41_union",
    "C41_empty"
   ],
   "note": ""
  },
  {
   "property": "C42",
   "status": "proved",
   "theorems": [
    "C42_wrong_type",
    "C42_not_a_rule",
    "C42_wrong_set",
    "C42_at_the_end",
    "C42_accepted"
   ],
   "note": "append(update_activation=False) of a rule of another type also raises but leaves computing switched off: C110. Other failures: C109."
  },
  {
   "property": "C43",
   "status": "proved",
   "theorems": [
    "C43_plus_rule",
    "C43_plus_rule_succeeds",
    "C43_plus_set",
    "C43_plus_set_succeeds",
    "C43_equality",
    "C43_hash"
   ],
   "note": "The order that list(set(...)) gives is not specified by Python; only which rules stay is used."
  },
  {
   "property": "C44",
   "status": "proved",
   "theorems": [
    "C44_fit_drops",
    "C44_eval_drops",
    "C44_fit_succeeds",
    "C44_fit_raises"
   ],
   "note": ""
  },
  {
   "property": "C45",
   "status": "proved",
   "theorems": [
    "C45_mean",
    "C45_weighted_mean"
   ],
   "note": ""
  },
  {
   "property": "C46",
   "status": "proved",
   "theorems": [
    "C46_stacked_mean",
    "C46_stacked_weighted_mean",
    "C46_agree",
    "C46_weighted_agree"
   ],
   "note": ""
  },
  {
   "property": "C47",
   "status": "proved",
   "theorems": [
    "C47_majority",
    "C47_agree"
   ],
   "note": ""
  },
  {
   "property": "C48",
   "status": "proved",
   "theorems": [
    "C48_heaviest_class"
   ],
   "note": ""
  },
  {
   "property": "C49",
   "status": "proved",
   "theorems": [
    "C49_unchanged",
    "C49_ruleset"
   ],
   "note": ""
  },
  {
   "property": "C50",
   "status": "proved",
   "theorems": [
    "C50_sort",
    "C50_sort_by",
    "C50_sort_again",
    "C50_sort_by_again",
    "C50_columns",
    "C50_columns_by"
   ],
   "note": ""
  },
  {
   "property": "C51",
   "status": "proved",
   "theorems": [
    "C51_check",
    "C51_constructor",
    "C51_contains"
   ],
   "note": ""
  },
  {
   "property": "C52",
   "status": "proved",
   "theorems": [
    "C52_rules",
    "C52_ruleset"
   ],
   "note": ""
  },
  {
   "property": "C53",
   "status": "proved",
   "theorems": [
    "C53_counts"
   ],
   "note": ""
  },
  {
   "property": "C54",
   "status": "proved",
   "theorems": [
    "C54_homogeneous",
    "C42_wrong_type",
    "C42_wrong_set"
   ],
   "note": "Assignment of rules is C111."
  },
  {
   "property": "C55",
   "status": "partial",
   "theorems": [
    "C55_columns_refuted",
    "C55_rules_refuted",
    "C55_attributes",
    "C55_same",
    "C55_taken",
    "C55_grows"
   ],
   "note": "REFUTED: after a += b, when a stacks and has no stacked activations yet, a and b have one DataFrame (C55_taken), and a rule added to a is a column of b (C55_grows); calc_activation of one ruleset changes the rules that another one has too, whose own activation is then out of date. Nothing else changes (C55_attributes, C55_same). Not modelled: load on rulesets with common rules."
  },
  {
   "property": "C56",
   "status": "proved",
   "theorems": [
    "C56_covers"
   ],
   "note": ""
  },
  {
   "property": "C57",
   "status": "proved",
   "theorems": [
    "C57_exact",
    "C57_only",
    "C57_partition",
    "C57_one_leaf"
   ],
   "note": ""
  },
  {
   "property": "C58",
   "status": "proved",
   "theorems": [
    "C58_number",
    "C58_features",
    "C58_bounds",
    "C58_state"
   ],
   "note": ""
  },
  {
   "property": "C59",
   "status": "proved",
   "theorems": [
    "C59_leaves",
    "C59_nodes"
   ],
   "note": ""
  },
  {
   "property": "C60",
   "status": "proved",
   "theorems": [
    "C60_traverse"
   ],
   "note": ""
  },
  {
   "property": "C61",
   "status": "proved",
   "theorems": [
    "C61_storage"
   ],
   "note": ""
  },
  {
   "property": "C62",
   "status": "partial",
   "theorems": [
    "C62_empty_refuted",
    "C62_one_point_refuted",
    "C62_int32_refuted"
   ],
   "note": "REFUTED for each of the three cases. C01 is the positive part."
  },
  {
   "property": "C63",
   "status": "partial",
   "theorems": [
    "C63_lazy_refuted",
    "C03_lazy"
   ],
   "note": "REFUTED: length, entropy and compressed forms raise before raw is read, and for ever if as_bitarray is read first. Proved: reading raw first repairs it (C03_lazy)."
  },
  {
   "property": "C64",
   "status": "partial",
   "theorems": [
    "C64_integers_refuted",
    "C64_integers_raise"
   ],
   "note": "REFUTED: always ValueError, for every such pair."
  },
  {
   "property": "C65",
   "status": "partial",
   "theorems": [
    "C65_overlong_refuted",
    "C65_unreadable_refuted",
    "C65_overlong_partial"
   ],
   "note": "REFUTED without WILL_COMPARE or without optimize; proved with both."
  },
  {
   "property": "C66",
   "status": "partial",
   "theorems": [
    "C66_retry_refuted",
    "C66_taken_name"
   ],
   "note": "REFUTED: with any taken name the constructor raises (list.remove of an absent number) and leaves the disk as it was."
  },
  {
   "property": "C67",
   "status": "partial",
   "theorems": [
    "C67_lazy_refuted"
   ],
   "note": "REFUTED: with lasy the existence check is skipped."
  },
  {
   "property": "C68",
   "status": "partial",
   "theorems": [
    "C68_exception_refuted",
    "C68_threads_refuted",
    "C15_threads"
   ],
   "note": "REFUTED: no try/finally, and an interleaving gives the wrong type and a wrong final flag. C15 is the positive part."
  },
  {
   "property": "C69",
   "status": "partial",
   "theorems": [
    "C69_xor_parity_refuted",
    "C06_xor",
    "C06_xor_two"
   ],
   "note": "REFUTED for three operands; it is the exclusive or for two and (OR and not AND) in general."
  },
  {
   "property": "C70",
   "status": "partial",
   "theorems": [
    "C70_nan_refuted",
    "C20_evaluation"
   ],
   "note": "REFUTED: a NaN bound of the second operand is dropped. C20 is the positive part."
  },
  {
   "property": "C71",
   "status": "partial",
   "theorems": [
    "C71_names_refuted",
    "C71_first_names_differ"
   ],
   "note": "REFUTED: IndexError for every pair whose first names differ."
  },
  {
   "property": "C72",
   "status": "partial",
   "theorems": [
    "C72_flag_refuted",
    "C72_always_stays"
   ],
   "note": "REFUTED: the flag is never reset."
  },
  {
   "property": "C73",
   "status": "partial",
   "theorems": [
    "C73_text_refuted",
    "C73_truncated",
    "C73_integers",
    "C73_infinite"
   ],
   "note": "REFUTED: every element goes through int(). Proved for integers."
  },
  {
   "property": "C74",
   "status": "partial",
   "theorems": [
    "C74_no_feature_refuted",
    "C74_always_refused"
   ],
   "note": "REFUTED: AttributeError on every DataFrame (an array has no .values); proved for arrays by C18."
  },
  {
   "property": "C75",
   "status": "proved",
   "theorems": [
    "C75_indexes",
    "C75_names",
    "C75_normalized",
    "C75_text"
   ],
   "note": ""
  },
  {
   "property": "C76",
   "status": "proved",
   "theorems": [
    "C76_item",
    "C76_length",
    "C76_incomplete"
   ],
   "note": ""
  },
  {
   "property": "C77",
   "status": "partial",
   "theorems": [
    "C77_empty_refuted",
    "C77_fill"
   ],
   "note": "REFUTED: the first assignment of bounds raises TypeError. Proved: it takes effect nevertheless and the second one completes the condition."
  },
  {
   "property": "C78",
   "status": "proved",
   "theorems": [
    "C78_bad_text"
   ],
   "note": ""
  },
  {
   "property": "C79",
   "status": "partial",
   "theorems": [
    "C79_rare_class_refuted",
    "C37_prediction_texts"
   ],
   "note": "REFUTED: frequencies are compared as texts, '5e-05' > '0.99995'. C37_prediction_texts is the positive part."
  },
  {
   "property": "C80",
   "status": "partial",
   "theorems": [
    "C80_no_point_refuted",
    "C80_no_point_stacked_refuted",
    "C80_always",
    "C80_always_stacked"
   ],
   "note": "REFUTED: IndexError, for one rule and for the whole stacked set; it always happens."
  },
  {
   "property": "C81",
   "status": "partial",
   "theorems": [
    "C81_empty_text_refuted",
    "C81_zero_text_refuted",
    "C37_stacked"
   ],
   "note": "REFUTED: '' is dropped and 'zero' becomes the number 0. C37_stacked is the positive part."
  },
  {
   "property": "C82",
   "status": "partial",
   "theorems": [
    "C82_mae_norm_refuted",
    "C82_never_finite"
   ],
   "note": "REFUTED: the denominator is |mean(y - mean(y))| = 0, so the result is infinite or NaN, never finite (in floats: rounding noise)."
  },
  {
   "property": "C83",
   "status": "partial",
   "theorems": [
    "C83_no_prediction_refuted",
    "C39_rows"
   ],
   "note": "REFUTED: ZeroDivisionError. C39_rows is the positive part."
  },
  {
   "property": "C84",
   "status": "partial",
   "theorems": [
    "C84_unknown_method_refuted",
    "C39_errors"
   ],
   "note": "REFUTED: the stacked branch ignores the method. One rule: C39_errors."
  },
  {
   "property": "C85",
   "status": "partial",
   "theorems": [
    "C85_one_point_refuted",
    "C36_one_rule",
    "C36_stacked"
   ],
   "note": "REFUTED: 0 for one rule, NaN stacked."
  },
  {
   "property": "C86",
   "status": "partial",
   "theorems": [
    "C86_unknown_targets_refuted",
    "C39_label",
    "C39_columns"
   ],
   "note": "REFUTED: NaN targets count in the one-rule denominator, not in the stacked one."
  },
  {
   "property": "C87",
   "status": "proved",
   "theorems": [
    "C87_own_class",
    "C87_kept",
    "C87_inherited"
   ],
   "note": ""
  },
  {
   "property": "C88",
   "status": "partial",
   "theorems": [
    "C88_long_text_refuted",
    "C31_text"
   ],
   "note": "REFUTED: the array has 32-character elements, longer classes are truncated. C31_text is the positive part."
  },
  {
   "property": "C89",
   "status": "partial",
   "theorems": [
    "C89_one_row_refuted",
    "C31_number"
   ],
   "note": "REFUTED: squeeze turns a one-row Series into a scalar. C31_number gives the exact shape."
  },
  {
   "property": "C90",
   "status": "partial",
   "theorems": [
    "C90_assign_condition_refuted",
    "C90_assign_activation_refuted",
    "C32_assign",
    "C32_assign_keeps"
   ],
   "note": "REFUTED: hasattr(self, key) is already true through __getattr__, so the value is set on the rule and hides the other one. C32_assign and C32_assign_keeps: this always happens."
  },
  {
   "property": "C91",
   "status": "partial",
   "theorems": [
    "C91_features_refuted",
    "C33_refused",
    "C33_value"
   ],
   "note": "REFUTED: len(self) is the number of features, not of points; C33_refused: it always raises."
  },
  {
   "property": "C92",
   "status": "proved",
   "theorems": [
    "C92_keeps",
    "C92_regression",
    "C92_classification",
    "C92_plain",
    "C92_bad",
    "C92_nothing"
   ],
   "note": ""
  },
  {
   "property": "C93",
   "status": "proved",
   "theorems": [
    "C93_equal",
    "C93_different",
    "C93_only_the_condition"
   ],
   "note": "Hash functions are arguments; see C24 for collisions."
  },
  {
   "property": "C94",
   "status": "partial",
   "theorems": [
    "C94_contains_refuted",
    "C94_either_way",
    "C94_missing",
    "C94_lengths"
   ],
   "note": "REFUTED: the intersection is compared with the smaller of the two, so it also holds when self is inside other; C94_either_way is what holds."
  },
  {
   "property": "C95",
   "status": "proved",
   "theorems": [
    "C95_deleted"
   ],
   "note": ""
  },
  {
   "property": "C96",
   "status": "partial",
   "theorems": [
    "C96_eval_then_fit_refuted",
    "C34_nothing",
    "C92_bad"
   ],
   "note": "REFUTED: eval of a bad rule sets _fitted."
  },
  {
   "property": "C97",
   "status": "partial",
   "theorems": [
    "C97_test_set_size_refuted",
    "C92_plain"
   ],
   "note": "REFUTED: the subclasses replace attributes_from_test_set. C92_plain: plain rules."
  },
  {
   "property": "C98",
   "status": "partial",
   "theorems": [
    "C98_activation_limits_refuted",
    "C28_fit_limits"
   ],
   "note": "REFUTED: check_thresholds loops over dir(self), which does not list the attributes reached by __getattr__."
  },
  {
   "property": "C99",
   "status": "partial",
   "theorems": [
    "C99_zero_first_refuted",
    "C99_raises",
    "C99_weighted_raises"
   ],
   "note": "REFUTED: when the first rule that counts predicts 0, is active somewhere and another rule counts, predict raises TypeError, with and without weights."
  },
  {
   "property": "C100",
   "status": "partial",
   "theorems": [
    "C100_cancel_refuted",
    "C100_nan",
    "C100_weighted_nan"
   ],
   "note": "REFUTED: such a row gets NaN as soon as two rules count. The stacked predictions are right (C46)."
  },
  {
   "property": "C101",
   "status": "partial",
   "theorems": [
    "C101_crowd_refuted",
    "C101_infinite"
   ],
   "note": "REFUTED: the counter is an unsigned byte; 256 active rules whose predictions have a positive sum give infinity. C45_mean has the case of fewer than 256."
  },
  {
   "property": "C102",
   "status": "partial",
   "theorems": [
    "C102_late_row_refuted",
    "C102_undecided_refuted",
    "C102_stacked_rows"
   ],
   "note": "REFUTED: with a single winning row its class goes to row 0; with none, row 0 gets a DataFrame. C102_stacked_rows has all cases, the right one included."
  },
  {
   "property": "C103",
   "status": "partial",
   "theorems": [
    "C103_heaviest_rule_refuted",
    "C103_heaviest_rules"
   ],
   "note": "REFUTED: only the active rules with the largest weight vote, each with one voice (C103_heaviest_rules)."
  },
  {
   "property": "C104",
   "status": "partial",
   "theorems": [
    "C104_overwritten_refuted",
    "C49_unchanged",
    "C104_ruleset_refuted"
   ],
   "note": "REFUTED: the first activation becomes the number of active rules. C49_unchanged has the other cases."
  },
  {
   "property": "C105",
   "status": "partial",
   "theorems": [
    "C105_missing_refuted",
    "C105_raises"
   ],
   "note": "REFUTED: AttributeError (rule.nones)."
  },
  {
   "property": "C106",
   "status": "partial",
   "theorems": [
    "C106_names_refuted",
    "C106_names_tell_partial"
   ],
   "note": "REFUTED: a feature may be named like a part of a condition. C106_names_tell_partial: true when names have no space and the printer of numbers is injective, without comma or bracket."
  },
  {
   "property": "C107",
   "status": "proved",
   "theorems": [
    "C107_attribute"
   ],
   "note": ""
  },
  {
   "property": "C108",
   "status": "proved",
   "theorems": [
    "C108_nothing",
    "C108_untyped",
    "C108_no_ballot",
    "C108_no_weighted_ballot",
    "C108_untyped_stacked",
    "C108_untyped_unnamed"
   ],
   "note": ""
  },
  {
   "property": "C109",
   "status": "partial",
   "theorems": [
    "C109_raised_in_refuted",
    "C109_rules"
   ],
   "note": "REFUTED: the rule stays in the ruleset when its activation has another length. C109_rules: at most that rule is added."
  },
  {
   "property": "C110",
   "status": "partial",
   "theorems": [
    "C110_switched_off_refuted",
    "C110_switches"
   ],
   "note": "REFUTED: _compute_activation and stack_activation stay False. C110_switches has their values."
  },
  {
   "property": "C111",
   "status": "partial",
   "theorems": [
    "C111_retyped_refuted"
   ],
   "note": "REFUTED: the type is not reset."
  },
  {
   "property": "C112",
   "status": "partial",
   "theorems": [
    "C112_no_counts_refuted",
    "C112_raises"
   ],
   "note": "REFUTED: AttributeError (rule.feautres_indexes)."
  },
  {
   "property": "C113",
   "status": "proved",
   "theorems": [
    "C113_columns"
   ],
   "note": ""
  },
  {
   "property": "C114",
   "status": "partial",
   "theorems": [
    "C114_lost_columns_refuted",
    "C113_columns"
   ],
   "note": "REFUTED: the rules of an added ruleset without stacked activations have no column."
  },
  {
   "property": "C115",
   "status": "proved",
   "theorems": [
    "C115_features",
    "C115_constructed"
   ],
   "note": ""
  },
  {
   "property": "C116",
   "status": "proved",
   "theorems": [
    "C116_up",
    "C116_down",
    "C116_down_all",
    "C116_omitted",
    "C116_outside",
    "C116_outside_down",
    "C116_item"
   ],
   "note": ""
  },
  {
   "property": "C117",
   "status": "proved",
   "theorems": [
    "C117_calc_activation",
    "C117_nothing_to_calculate",
    "C117_evaluate",
    "C117_evaluate_nothing"
   ],
   "note": ""
  },
  {
   "property": "C118",
   "status": "proved",
   "theorems": [
    "C118_deletions",
    "C118_stored_coverage"
   ],
   "note": ""
  },
  {
   "property": "C119",
   "status": "proved",
   "theorems": [
    "C119_mean",
    "C119_weighted"
   ],
   "note": ""
  },
  {
   "property": "C120",
   "status": "partial",
   "theorems": [
    "C120_slice_forgets_refuted"
   ],
   "note": "REFUTED: the slice is constructed with stack_activation=False."
  },
  {
   "property": "C121",
   "status": "partial",
   "theorems": [
    "C121_no_order_refuted",
    "C50_sort"
   ],
   "note": "REFUTED: KeyError for rules without features."
  },
  {
   "property": "C122",
   "status": "proved",
   "theorems": [
    "C122_regression",
    "C122_classification"
   ],
   "note": ""
  },
  {
   "property": "C123",
   "status": "proved",
   "theorems": [
    "C123_regression",
    "C123_classification"
   ],
   "note": ""
  },
  {
   "property": "C124",
   "status": "proved",
   "theorems": [
    "C124_fit",
    "C124_fit_together",
    "C124_eval",
    "C124_eval_together"
   ],
   "note": ""
  },
  {
   "property": "C125",
   "status": "proved",
   "theorems": [
    "C125_regression",
    "C125_classification",
    "C125_no_rule"
   ],
   "note": ""
  },
  {
   "property": "C126",
   "status": "proved",
   "theorems": [
    "C126_fit",
    "C126_eval"
   ],
   "note": ""
  },
  {
   "property": "C127",
   "status": "partial",
   "theorems": [
    "C127_equal_rule_refuted",
    "C127_fit",
    "C127_eval"
   ],
   "note": "REFUTED: a bad rule takes the equal good ones along. The theorems about fit and eval say exactly which rules stay."
  },
  {
   "property": "C128",
   "status": "partial",
   "theorems": [
    "C128_fitted_refuted",
    "C128_fit_together_refuted",
    "C128_eval_together_refuted",
    "C44_fit_drops",
    "C44_eval_drops"
   ],
   "note": "REFUTED: fit without xs keeps bad rules when all are fitted, and with STACKED_FIT a rule that fails only in the last check stays. Without STACKED_FIT and when something is fitted it holds."
  },
  {
   "property": "C129",
   "status": "partial",
   "theorems": [
    "C129_once_refuted",
    "C44_fit_drops"
   ],
   "note": "REFUTED with STACKED_FIT: a rule comes once for every attribute assigned after it became bad. Without STACKED_FIT it holds."
  },
  {
   "property": "C130",
   "status": "partial",
   "theorems": [
    "C130_names_refuted",
    "C124_fit"
   ],
   "note": "REFUTED: names of features are never removed."
  },
  {
   "property": "C131",
   "status": "partial",
   "theorems": [
    "C131_activation_refuted",
    "C124_eval",
    "C124_eval_together"
   ],
   "note": "REFUTED: the activation is cleared to zeros and not computed again. The theorems say when it is right."
  },
  {
   "property": "C132",
   "status": "partial",
   "theorems": [
    "C132_stack_refuted"
   ],
   "note": "REFUTED: stack_activation stays True."
  },
  {
   "property": "C133",
   "status": "partial",
   "theorems": [
    "C133_criterion_refuted",
    "C125_no_rule"
   ],
   "note": "REFUTED: the old criterion stays."
  },
  {
   "property": "C134",
   "status": "partial",
   "theorems": [
    "C134_same_values_refuted",
    "C122_regression"
   ],
   "note": "REFUTED: the standard deviation of a rule activated at one point is 0 rule by rule, NaN with STACKED_FIT."
  },
  {
   "property": "C135",
   "status": "proved",
   "theorems": [
    "C135_stacked",
    "C135_stacked_on_data",
    "C135_no_vote",
    "C135_no_equal_vote"
   ],
   "note": ""
  },
  {
   "property": "C136",
   "status": "proved",
   "theorems": [
    "C136_means",
    "C136_classes"
   ],
   "note": ""
  },
  {
   "property": "C137",
   "status": "proved",
   "theorems": [
    "C137_nothing",
    "C137_missing",
    "C137_ragged"
   ],
   "note": ""
  },
  {
   "property": "C138",
   "status": "proved",
   "theorems": [
    "C138_no_condition",
    "C138_empty_condition"
   ],
   "note": ""
  },
  {
   "property": "C139",
   "status": "partial",
   "theorems": [
    "C139_refuted",
    "C57_partition"
   ],
   "note": "REFUTED: both bounds of a condition are inclusive, so a point on a threshold satisfies the rules of both sides. Off the thresholds exactly one leaf rule holds (C57_partition)."
  },
  {
   "property": "C140",
   "status": "partial",
   "theorems": [
    "C140_refuted",
    "C140_lone_leaf",
    "C143_succeeds"
   ],
   "note": "REFUTED: a tree that is a single leaf makes a rule without condition, which append cannot add (AttributeError, always: C140_lone_leaf). Every other tree succeeds (C143_succeeds)."
  },
  {
   "property": "C141",
   "status": "partial",
   "theorems": [
    "C141_refuted",
    "C57_exact",
    "C57_only"
   ],
   "note": "REFUTED: a split to the right below a split to the left on the same feature resets the upper bound to xmax. C57_exact says which points satisfy the rule on any path; C57_only has the claim for paths that never go right after left."
  },
  {
   "property": "C142",
   "status": "partial",
   "theorems": [
    "C142_refuted",
    "C59_nodes"
   ],
   "note": "REFUTED: the rules of both sides of a split predict the value of the split node, not of the child. C59_nodes says which value each rule has."
  },
  {
   "property": "C143",
   "status": "proved",
   "theorems": [
    "C143_succeeds",
    "C143_deep"
   ],
   "note": ""
  },
  {
   "property": "C144",
   "status": "proved",
   "theorems": [
    "C144_unactivated",
    "C144_wrong_length"
   ],
   "note": ""
  },
  {
   "property": "C145",
   "status": "proved",
   "theorems": [
    "C145_table",
    "C145_again",
    "C145_empty"
   ],
   "note": ""
  },
  {
   "property": "C146",
   "status": "partial",
   "theorems": [
    "C146_texts_refuted",
    "C146_missing_refuted",
    "C146_texts"
   ],
   "note": "REFUTED: numbers come back as texts and None as NaN. C146_texts says what comes back for any ruleset of the domain of C52."
  },
  {
   "property": "C147",
   "status": "partial",
   "theorems": [
    "C147_test_size_refuted",
    "C147_train_size"
   ],
   "note": "REFUTED: the row of the test set size has the train set size, always (C147_train_size)."
  },
  {
   "property": "C148",
   "status": "partial",
   "theorems": [
    "C148_names_refuted",
    "C148_names"
   ],
   "note": "REFUTED: all rules are named after the first column of the file, always (C148_names)."
  },
  {
   "property": "C149",
   "status": "partial",
   "theorems": [
    "C149_infinite_bounds_refuted",
    "C149_not_readable"
   ],
   "note": "REFUTED: infinite bounds are written as inf, which is not a literal. C149_not_readable: no ruleset with such a cell can be loaded; C52 has the rulesets that can."
  },
  {
   "property": "C150",
   "status": "partial",
   "theorems": [
    "C150_class_changed_refuted",
    "C150_class_unreadable_refuted",
    "C52_rules"
   ],
   "note": "REFUTED: a text that looks like a number becomes one, a text with a space raises SyntaxError. Texts that ast.literal_eval rejects with ValueError come back (C52_rules)."
  },
  {
   "property": "C151",
   "status": "proved",
   "theorems": [
    "C151_loads",
    "C151_unknown_column"
   ],
   "note": ""
  },
  {
   "property": "C152",
   "status": "partial",
   "theorems": [
    "C152_indexes_refuted",
    "C152_indexes"
   ],
   "note": "REFUTED: load leaves features_indexes as they are, always (C152_indexes)."
  },
  {
   "property": "C153",
   "status": "partial",
   "theorems": [
    "C153_empty_refuted",
    "C153_empty"
   ],
   "note": "REFUTED: the file of a ruleset without rules is empty, so load changes no attribute (C153_empty)."
  },
  {
   "property": "C154",
   "status": "proved",
   "theorems": [
    "C154_custom_rows",
    "C154_too_many"
   ],
   "note": ""
  },
  {
   "property": "C155",
   "status": "proved",
   "theorems": [
    "C155_isolated"
   ],
   "note": ""
  },
  {
   "property": "C156",
   "status": "proved",
   "theorems": [
    "C156_additions",
    "C156_step",
    "C156_separate"
   ],
   "note": ""
  },
  {
   "property": "C157",
   "status": "proved",
   "theorems": [
    "C157_acts",
    "C157_makes"
   ],
   "note": ""
  },
  {
   "property": "C158",
   "status": "proved",
   "theorems": [
    "C158_readable"
   ],
   "note": ""
  },
  {
   "property": "C159",
   "status": "proved",
   "theorems": [
    "C159_new",
    "C159_read",
    "C159_clear",
    "C159_lazy",
    "C159_time",
    "C159_size"
   ],
   "note": ""
  },
  {
   "property": "C160",
   "status": "proved",
   "theorems": [
    "C160_timed",
    "C160_forced"
   ],
   "note": "The time itself is not modelled, only whether it is set."
  },
  {
   "property": "C161",
   "status": "proved",
   "theorems": [
    "C161_own",
    "C161_forced",
    "C161_new",
    "C161_clear",
    "C161_read"
   ],
   "note": ""
  },
  {
   "property": "C162",
   "status": "proved",
   "theorems": [
    "C162_unforced"
   ],
   "note": ""
  },
  {
   "property": "C163",
   "status": "proved",
   "theorems": [
    "C163_new",
    "C163_read",
    "C163_measure",
    "C163_stay",
    "C163_clear",
    "C163_lazy"
   ],
   "note": "The size of an array does not depend on its dtype in the model."
  },
  {
   "property": "C164",
   "status": "partial",
   "theorems": [
    "C164_forced_refuted",
    "C164_never"
   ],
   "note": "REFUTED: as_compressed_str and as_compressed_array do not record the size when the activation is stored in a file, so sizeof_compressed_str and sizeof_compressed_array stay -1 (C164_never). For all other sizes see C161."
  },
  {
   "property": "C165",
   "status": "partial",
   "theorems": [
    "C165_path_refuted",
    "C163_new"
   ],
   "note": "REFUTED: Activation(path) without lazy loading reads the file before data is set, and records the size of None (C163_new tells when)."
  },
  {
   "property": "C166",
   "status": "proved",
   "theorems": [
    "C166_condition",
    "C166_conditions"
   ],
   "note": ""
  },
  {
   "property": "C167",
   "status": "proved",
   "theorems": [
    "C167_rule",
    "C167_rules",
    "C167_empty"
   ],
   "note": ""
  },
  {
   "property": "C168",
   "status": "partial",
   "theorems": [
    "C168_class_refuted",
    "C168_plain_partial"
   ],
   "note": "REFUTED: __str__ prints _prediction, which for a classification rule fitted alone is the array of class probabilities, and for one fitted with STACKED_FIT the class. True of all rules that store the prediction itself (C168_plain_partial)."
  },
  {
   "property": "C169",
   "status": "proved",
   "theorems": [
    "C169_set",
    "C169_none",
    "C169_raises"
   ],
   "note": ""
  },
  {
   "property": "C170",
   "status": "proved",
   "theorems": [
    "C170_iteration"
   ],
   "note": ""
  },
  {
   "property": "C171",
   "status": "proved",
   "theorems": [
    "C171_set",
    "C171_refused",
    "C171_read"
   ],
   "note": ""
  },
  {
   "property": "C172",
   "status": "proved",
   "theorems": [
    "C172_reads",
    "C172_none",
    "C172_unknown",
    "C172_coverage"
   ],
   "note": "Attributes of activations not listed in RuleModel.v are left out."
  },
  {
   "property": "C173",
   "status": "partial",
   "theorems": [
    "C173_stacked_refuted",
    "C173_said"
   ],
   "note": "REFUTED: the property tests stack_activation, which is never None, and the length of the activation: AttributeError without an activation even with stacked ones, True with an activation even without stacked ones (C173_said)."
  },
  {
   "property": "C174",
   "status": "proved",
   "theorems": [
    "C174_sizes"
   ],
   "note": ""
  },
  {
   "property": "C175",
   "status": "proved",
   "theorems": [
    "C175_and",
    "C175_independent"
   ],
   "note": ""
  },
  {
   "property": "C176",
   "status": "partial",
   "theorems": [
    "C176_copies_refuted",
    "C176_built",
    "C176_sorted",
    "C176_given"
   ],
   "note": "REFUTED: the constructor keeps the lists it is given, and sort only makes new ones for two features or more: with one feature, or with sort=False, the caller's list is the condition's list and a later change changes its activation. The construction itself changes nothing (C176_built); two features or more, sorted, are independent (C176_sorted); otherwise every later change shows (C176_given)."
  },
  {
   "property": "C177",
   "status": "partial",
   "theorems": [
    "C177_assigned_refuted",
    "C177_values",
    "C177_shares",
    "C177_text"
   ],
   "note": "REFUTED: the setters keep the list that is assigned, so conditions that were assigned one list change together (C177_shares). A text gives a new list (C177_text)."
  },
  {
   "property": "C178",
   "status": "proved",
   "theorems": [
    "C178_elsewhere",
    "C178_shows"
   ],
   "note": ""
  },
  {
   "property": "C179",
   "status": "partial",
   "theorems": [
    "C179_flag_refuted",
    "C179_evaluates"
   ],
   "note": "REFUTED: the flag is only set by the constructor and the setters. Bounds that are put right in place stay flagged and activate no row, bounds crossed in place are not flagged. Without flag, evaluate compares with the bounds that are there (C179_evaluates)."
  },
  {
   "property": "C180",
   "status": "proved",
   "theorems": [
    "C180_same",
    "C180_own"
   ],
   "note": "Conditions only; values, ruleset and limits of the interpreter as in TreeModel.v."
  },
  {
   "property": "C181",
   "status": "partial",
   "theorems": [
    "C181_sides_refuted",
    "C181_no_indexes",
    "C181_no_names",
    "C181_nothing",
    "C181_no_bounds",
    "C181_right"
   ],
   "note": "REFUTED: the left side goes through the constructor, which numbers features without indexes and names features without names; on the right nothing is completed and every missing attribute raises (C181_right)."
  },
  {
   "property": "C182",
   "status": "partial",
   "theorems": [
    "C182_fit_refuted",
    "C182_predict_refuted",
    "C183_history",
    "C184_others",
    "C155_isolated"
   ],
   "note": "REFUTED: fit sets the predictions of the common rules, so another ruleset predicts differently afterwards; and predict without xs by averaging, with activations stored as raw arrays, overwrites the activation of its first rule, also as other rulesets see it. What stays is in C183_history and C184_others; rulesets without common rules are not touched (C155_isolated)."
  },
  {
   "property": "C183",
   "status": "proved",
   "theorems": [
    "C183_step",
    "C183_history",
    "C183_renumbered"
   ],
   "note": ""
  },
  {
   "property": "C184",
   "status": "proved",
   "theorems": [
    "C184_others"
   ],
   "note": "The index of the DataFrame is not modelled."
  },
  {
   "property": "C185",
   "status": "proved",
   "theorems": [
    "C185_fit_keeps",
    "C185_eval_keeps",
    "C185_predict_keeps",
    "C185_fit_new",
    "C185_eval_new",
    "C185_sort"
   ],
   "note": "sort by the default criterion."
  },
  {
   "property": "C186",
   "status": "partial",
   "theorems": [
    "C186_plus_refuted",
    "C186_plus_raises"
   ],
   "note": "REFUTED: __add__ calls the object NotImplemented, which raises TypeError, always (C186_plus_raises)."
  },
  {
   "property": "C187",
   "status": "partial",
   "theorems": [
    "C187_always_refuted",
    "C187_rule",
    "C187_keeps",
    "C187_and_rules",
    "C187_and",
    "C187_and_mixed"
   ],
   "note": "REFUTED: evaluate and & of the base class are empty and return None. Activation(None) raises TypeError, so such a rule never gets an activation (C187_rule) and keeps the one it was given (C187_keeps); & of two such rules raises (C187_and_rules), & with a hyperrectangle condition on the left raises AttributeError (C187_and_mixed)."
  },
  {
   "property": "C188",
   "status": "proved",
   "theorems": [
    "C188_accepts",
    "C188_rejects",
    "C188_methods",
    "C188_assigned",
    "C188_history"
   ],
   "note": "Lists are values here; sharing of lists is the subject of C176 and C177."
  },
  {
   "property": "C189",
   "status": "partial",
   "theorems": [
    "C189_blank_refuted",
    "C189_stays",
    "C189_errors",
    "C189_hyperrectangle"
   ],
   "note": "REFUTED: the setter calls len(self), which is len(None) for an empty condition of the base class: TypeError, and the condition stays empty for ever (C189_stays). Hyperrectangle conditions have the property (C189_hyperrectangle)."
  },
  {
   "property": "C190",
   "status": "proved",
   "theorems": [
    "C190_same_set",
    "C190_other_set",
    "C190_mixed"
   ],
   "note": "== of two conditions of the base class is identity of objects and not modelled."
  },
  {
   "property": "C191",
   "status": "proved",
   "theorems": [
    "C191_disk",
    "C191_spares",
    "C191_lost",
    "C191_statistics",
    "C191_names"
   ],
   "note": ""
  },
  {
   "property": "C192",
   "status": "proved",
   "theorems": [
    "C192_mean",
    "C192_weighted_mean",
    "C192_refused",
    "C192_weighted_refused",
    "C192_vote",
    "C192_weighted_vote",
    "C192_new_class",
    "C192_weighted_new_class"
   ],
   "note": ""
  },
  {
   "property": "C193",
   "status": "partial",
   "theorems": [
    "C193_lengths_refuted",
    "C192_mean",
    "C192_refused"
   ],
   "note": "REFUTED: numpy broadcasts an activation of one point, which then counts at every row (C192_mean). Other lengths are refused with ValueError (C192_refused)."
  },
  {
   "property": "C194",
   "status": "proved",
   "theorems": [
    "C194_fit_default",
    "C194_eval_default",
    "C194_fit_keeps",
    "C194_eval_keeps"
   ],
   "note": ""
  },
  {
   "property": "C195",
   "status": "proved",
   "theorems": [
    "C195_fit",
    "C195_eval",
    "C195_fit_error",
    "C195_eval_error"
   ],
   "note": ""
  },
  {
   "property": "C196",
   "status": "partial",
   "theorems": [
    "C196_unknown_refuted",
    "C196_fit_good",
    "C196_eval_good",
    "C196_fit_bad",
    "C196_eval_bad"
   ],
   "note": "REFUTED: nothing is looked up for a bad rule that is not forced: its private attribute of that name becomes NaN (C196_fit_bad, C196_eval_bad). A good or forced rule raises AttributeError as soon as it reaches the name (C196_fit_good, C196_eval_good)."
  },
  {
   "property": "C197",
   "status": "partial",
   "theorems": [
    "C197_order_refuted",
    "C197_error_refuted",
    "C197_old_sign_refuted",
    "C197_values",
    "C197_orders",
    "C197_classes"
   ],
   "note": "REFUTED: the sign is computed from the prediction at hand, so before it the sign stays None or is that of the previous fit, and the zscore raises TypeError. With the prediction before both, every order gives the same values (C197_orders), those of the default fit (C197_values)."
  },
  {
   "property": "C198",
   "status": "partial",
   "theorems": [
    "C198_prediction_refuted",
    "C198_regression",
    "C198_classification"
   ],
   "note": "REFUTED: ClassificationRule.calc_prediction has no parameter activation and uses the points of the training set unless recompute_activation is given (C198_classification). Regression rules have the property (C198_regression)."
  },
  {
   "property": "C199",
   "status": "proved",
   "theorems": [
    "C199_acts",
    "C199_others",
    "C199_objects",
    "C199_own",
    "C199_frames",
    "C199_alone",
    "C199_keeps"
   ],
   "note": ""
  },
  {
   "property": "C200",
   "status": "partial",
   "theorems": [
    "C200_stale_refuted",
    "C200_activations",
    "C151_loads"
   ],
   "note": "REFUTED: an attribute that the table does not give stays as it was, and the old sizes go into the new rules (C151_loads); features_indexes always stay, and stacked_activations if stack_activation is not set. The activations of the earlier rules are gone (C200_activations)."
  },
  {
   "property": "C201",
   "status": "proved",
   "theorems": [
    "C201_bits",
    "C201_raw",
    "C201_integer",
    "C201_text",
    "C201_array",
    "C201_refused"
   ],
   "note": ""
  },
  {
   "property": "C202",
   "status": "partial",
   "theorems": [
    "C202_one_point_refuted",
    "C201_array",
    "C201_text"
   ],
   "note": "REFUTED: the array [0, 1] ends with 1 and is taken for a raw vector of two points. Longer vectors (C201_array) and texts (C201_text) are converted back."
  },
  {
   "property": "C203",
   "status": "proved",
   "theorems": [
    "C203_compress",
    "C203_integer",
    "C203_bitarray"
   ],
   "note": ""
  },
  {
   "property": "C204",
   "status": "proved",
   "theorems": [
    "C204_no_activation",
    "C204_no_prediction"
   ],
   "note": ""
  },
  {
   "property": "C205",
   "status": "proved",
   "theorems": [
    "C205_fit_length"
   ],
   "note": ""
  },
  {
   "property": "C206",
   "status": "proved",
   "theorems": [
    "C206_text"
   ],
   "note": ""
  },
  {
   "property": "C207",
   "status": "proved",
   "theorems": [
    "C207_no_condition"
   ],
   "note": ""
  },
  {
   "property": "C208",
   "status": "proved",
   "theorems": [
    "C208_isolated",
    "C208_in_use",
    "C208_separate",
    "C208_loaded"
   ],
   "note": ""
  },
  {
   "property": "C209",
   "status": "proved",
   "theorems": [
    "C209_own",
    "C209_condition",
    "C209_no_classes"
   ],
   "note": ""
  },
  {
   "property": "C210",
   "status": "proved",
   "theorems": [
    "C210_subattributes"
   ],
   "note": ""
  },
  {
   "property": "C211",
   "status": "proved",
   "theorems": [
    "C211_nan_last"
   ],
   "note": ""
  },
  {
   "property": "C212",
   "status": "proved",
   "theorems": [
    "C212_infinite"
   ],
   "note": ""
  },
  {
   "property": "C213",
   "status": "partial",
   "theorems": [
    "C213_infinite_refuted",
    "C212_infinite"
   ],
   "note": "REFUTED: the hash of inf is 314159, so the condition width in [0, inf] equals width in [0, 314159], although they are active at different points. Bounds other than those are told apart (C212_infinite)."
  }
 ]
}