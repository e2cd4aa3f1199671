# Machine-checked model of ruleskit: design and trusted base

Subject: `/repo/ruleskit` (Python), read as text at the pinned commit and never
run. Prover: Rocq / Coq 8.16.1, standard library only.

## 1. Trusted base

1. The Coq kernel, including `vm_compute`, which the examples and the
   refutations use.
2. Axioms: none. Under each theorem of the `*Props.v` files stands
   `Print Assumptions`, and each answers "Closed under the global context". The
   seven axioms that a whole-library check lists
   (`Coq.ssr.ssrunder.Under_rel.*`) belong to a module that `Lia` loads; no
   theorem depends on them.
3. The transcription of the Python source into Gallina: the `*Model.v` files
   with `Base.v`, `Num.v` and `Arith.v`. Each definition cites file and lines
   and says where it simplifies. Nothing links the Coq text to the Python text
   mechanically. Two cross-checks were made by hand:
   * `RepoTests.v` and `RepoTests2.v` run 207 cases of the repository's own
     tests (test_ruleset, test_thresholds, test_condition, test_rule,
     test_rfunctions, test_rule_utils) on the model by `vm_compute`. These are
     tests of the model, not properties.
   * The expected counters and formats in the CSV files of
     tests/unit/data were compared with the model of activations, in a
     scratch copy: no difference, except the columns for `to_file=True`, which
     are stale in the repository too (its test passes `to_file=False`
     everywhere).
4. The reading of numpy, pandas, scikit-learn, bitarray and the interpreter
   that section 3 records.

## 2. File layout

The files of an area start with its prefix, in `rocq/theories`:

* `XModel.v`: the transcription. Definitions only.
* `XSpec.v` (for activations also `ActObs.v`, `ActCountSpec.v`): the vocabulary
  of the statements, written without the model's helpers.
* `XWit.v`: concrete objects, the refutations and the instances for examples.
* `XProps.v`: only `Theorem ... Proof. exact lemma. Qed.`, each followed by
  `Print Assumptions` and by an `Example` that meets the hypotheses on a
  concrete non-trivial case.
* the other files: lemmas.

| prefix | source | properties in |
|--------|--------|---------------|
| `Act`, `ActTrack`, `ActProf`, `Thread` | activation.py | `ActProps`, `ActProfProps`, `ActConvProps` |
| `Cond` | condition.py | `CondProps`, `CondInfProps` |
| `Thr` | thresholds.py | `ThrProps` |
| `Met` | utils/rfunctions.py 11-407, 622-629 | `MetProps` |
| `Rule` | rule.py | `RuleProps`, `CalcProps`, `RuleReadsProps` |
| `Attr` | rule.py: fit and eval with any attributes_from_train_set and attributes_from_test_set | `AttrProps` |
| `Pred`, `Edge` | utils/rfunctions.py 410-619, ruleset.py 792-799, 1242-1345 | `PredProps`, `EdgeProps` |
| `Set` | ruleset.py: containers, sorting, activation, stacked activations, features | `SetProps` |
| `Fit`, `FitEdge` | ruleset.py: fit, eval, common attributes, criterion | `FitProps`, `FitEdgeProps`, `CalcProps` |
| `Pool` | ruleset.py: several rulesets sharing rule objects | `PoolProps`, `PoolLoadProps`, `PoolHistoryProps` |
| `Serial` | ruleset.py: save, load, traverse | `SerialProps`, `SerialOverProps` |
| `Tree` | utils/rule_utils.py | `TreeProps` |
| `Plain` | the base class Condition (condition.py 18-100) by itself and in a rule; `+` of conditions and rules | `PlainProps` |
| `Ref` | condition.py and the conditions of utils/rule_utils.py with lists as objects | `RefProps` |
| `Text` | what rules and rulesets print, small accessors | `TextProps` |

`MANIFEST.json` maps properties to theorems. A theorem whose name ends with
`_refuted` gives a witness against the property as a user would state it. Such
a property has status `partial`, its note starts with REFUTED, and the other
theorems named there are the strongest true statements found. No property is
partial for another reason.

`seeded/LOG.jsonl` has one line per wrong program tried: the definition, the
edit, the claim it breaks, the theorems that failed, and what was tightened.

## 3. How Python is modelled

General:

* Exceptions are values: `res A := Ok a | Err e`. Methods that change an object
  are functions from the old state to a result and the new state, and keep the
  new state when they raise.
* Numbers: `num := NaN | MInf | Fin q | PInf`, with `q` rational. All
  comparisons with NaN are false and `!=` is true. Arithmetic is exact: rounding
  of floats, overflow to infinity and signed zero are not modelled. 1 and 1.0
  are one number. Where the code casts to small integers (`ubyte`, `int32`), the
  model wraps.
* What the code does not control is an argument that the theorems quantify
  over: sizes in memory, psutil readings, MemoryError, random numbers, the
  content of the disk, hash functions, square roots, texts of numbers and of
  quoted strings, what `ast.literal_eval` and `read_csv` make of a text, the
  stable or unstable choice of the sort of numpy.
* Not modelled anywhere: logging, warnings, plots, wall-clock values (only
  whether a time has been set), remote file systems (TransparentPath `read` and
  `write`), multiprocessing, argument type checks that reject values outside the
  modelled types, `_version.py`, and dead code.

By area (the header of each `XModel.v` is the full list):

* Activations. The size of an array does not depend on its dtype. Threads
  (`ThreadModel.v`) are interleavings of the four statements that toggle
  WILL_COMPARE, `_decompress` being one step.
* Conditions. Lists are values in `Cond` and all areas built on it; `Ref` has the
  lists as objects (sharing between a condition, its caller and other conditions)
  and agrees with `Cond` and `Tree` (C175, C176, C177, C180). Evaluation of a
  DataFrame follows a pandas where
  `ndarray &= Series` gives a Series. A condition without features gives
  AttributeError when it is evaluated, as in the code.
* Thresholds. The inner dicts live in a heap, so that copies and sharing differ.
* Metrics. Targets have one column (two dimensions: left out of the regression criteria). pandas objects are aligned by position.
  Classes that mix numbers and texts are left out.
* Rules. An activation is its vector, whether its data is still there, and its
  coverage. What `Activation(v)` and `a & b` hold is proved in the area `Act`.
  The condition is a HyperrectangleCondition; for the base class see `Plain`. In
  `Attr` some names in the lists of attributes are left out (`set_aside`, names
  with an underscore, and "activation" in the list of a bad rule that eval skips).
* Predictions. Weights are floats. numpy repeats an activation of one
  point; other lengths that differ do not combine. The
  predictions of one ruleset are all numbers or all texts. uint8 counters wrap.
* Rulesets. Rules are values; sharing is the subject of `Pool` (fit, eval,
  sort, predict and load change the objects step by step; the new rules of load
  are an argument, any objects that no ruleset has). Only the attributes of activations that
  are listed in `RuleModel.v` can be read through a rule or ruleset. The order of
  `list(set(l))` is not used by any statement.
* Fit. A ruleset has no rule object twice; the class attributes
  attributes_from_train_set and attributes_from_test_set have their defaults.
* Save and load. Hypotheses of the round trip say what is needed of the
  libraries: that `read_csv` gives back the float that was written, that it does
  not take the text "None" for a missing value (pandas 2 does), and that the
  text of a list of numbers is a Python literal (numpy 2 prints `np.float64(1)`).
* Trees. scikit-learn casts X to float32 before it walks a tree; statements
  about points compare with the exact value. Of `value` only the first output is
  kept, which is the one that the function reads. pandas Series as names are
  left out. The nesting limit of the interpreter is an argument.

## 4. How the statements are proved

| area | method |
|------|--------|
| activations | a representation invariant between object, world and vector; one lemma per constructor and accessor in a small program logic (`ActRep`); histories by induction over what a user can hold (`ActHold`) |
| profile of activations | the same logic carrying counters, times and sizes (`ActTrack*`) |
| threads | induction over schedules of an interleaving semantics; refuted by a schedule |
| conditions | conditions as sets of (index, name, min, max); sorting lemmas |
| thresholds | a declarative decision against the code, frame lemmas on the heap |
| metrics | algebra over sums of rationals, with the cases of NaN and infinities |
| rules | invariants over any sequence of fit and eval; values of each attribute from declarative metrics |
| predictions | induction over the list of rules: votes and weighted means at each point |
| rulesets | invariants over any sequence of operations, permutations, stable sorting |
| fit and eval | each rule of the set against the same rule alone |
| shared rules | a heap of rule objects; a command touches exactly what it names |
| save and load | round trip cell by cell; rows of any table |
| trees | the extraction against a walk down the tree |
| text | texts against declarative lines |

## 5. What the model found

The code does not have the following properties, which are kept in
`properties.jsonl` as a user would state them. Witnesses are in the `_refuted`
theorems, restrictions that do hold are beside them.

* C07: `+` of activations is logical OR
* C13: `b in a` means the points of b are points of a
* C24: Condition equality
* C29: set_thresholds on one rule affects that rule
* C55: Rulesets do not share state
* C62: Corner-case vectors round trip
* C63: Lazily loaded activations answer like loaded ones
* C64: Operators on two integer-stored activations
* C65: Integers that do not fit the declared length are rejected
* C66: A taken file name is replaced by another one
* C67: Loading lazily never overwrites a file
* C68: Class-wide settings survive failures and mixed conversions
* C69: multi_logical_xor is the exclusive or
* C70: A NaN bound is never satisfied through &
* C71: Conditions given by names can be combined
* C72: The impossible flag follows the bounds
* C73: Bounds given as text keep their values
* C74: A condition without features is met everywhere
* C77: An empty condition can be filled
* C79: A frequent class beats a rare one
* C80: A classification rule without activated point has no prediction
* C81: Stacked class predictions treat every text as a class
* C82: Normalised mean absolute error
* C83: Success rate when nothing is predicted
* C84: An unknown criterion is refused
* C85: Standard deviation at one activated point
* C86: Success rate with unknown targets
* C88: Text predictions are given in full
* C89: predict gives one value per row
* C90: Assigning an attribute of the condition or activation
* C91: Correlation of rules with different numbers of features
* C94: Containment of rules
* C96: Evaluating a rule does not count as fitting it
* C97: test_set_size after eval
* C98: Limits on attributes of the activation
* C99: A first rule that predicts 0
* C100: Predictions that cancel out
* C101: Any number of active rules
* C102: Stacked classification puts each class at its row
* C103: Stacked weighted classification
* C104: predict leaves raw activations alone
* C105: Classification rules without activation
* C106: The text of a condition tells the condition
* C109: A failing += changes nothing
* C110: A failing append does not change later ones
* C111: Assigning rules keeps the type
* C112: Feature counts without feature
* C114: Stacked activations of added rulesets
* C120: Slices keep stacking
* C121: sort accepts any rule
* C127: A good rule is not dropped because another one is bad
* C128: No bad rule stays
* C129: Dropped rules are returned once
* C130: The names of the features are those of the rules left
* C131: The activation after an eval that drops rules
* C132: A fit that raises leaves the settings alone
* C133: No criterion without rules
* C134: STACKED_FIT gives the same values
* C139: Tree extraction: leaf rules are disjoint
* C140: Tree extraction: every tree gives rules
* C141: Tree extraction: leaf rules describe their leaf, on any path
* C142: Tree extraction: the rule of a node predicts the value of that node
* C146: save / load: coverage and criterion
* C147: save / load: test set size
* C148: save / load: names of rules
* C149: save / load: every ruleset that can be saved can be loaded
* C150: save / load: names of classes
* C152: save / load: features indexes
* C153: save / load: a ruleset without rules
* C164: FORCE_STAT makes every size
* C165: The path size is the size of a path
* C168: A rule prints its prediction
* C173: Whether stacked activations are available
* C176: A condition is independent of the lists it was constructed from
* C177: A condition is independent of the lists assigned to it
* C179: The flag impossible after a change of the bounds in place
* C181: The logical and treats both sides alike
* C182: Fitting or predicting with one ruleset leaves the predictions of others
* C186: Conditions and rules can be added
* C187: A condition of the base class is always fulfilled
* C189: An empty condition can be filled
* C193: Rules evaluated on different numbers of points are not combined
* C196: A name that can not be computed is reported
* C197: The order of the attributes does not matter
* C198: Attributes of the test set are computed on the test set
* C200: load replaces what the ruleset had
* C202: to_raw_from_any of the compressed array of one point
* C213: An infinite bound differs from every finite one
