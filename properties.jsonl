{"id": "C01", "title": "The exported predictor agrees with the trained dense machine", "statement": "For a dense Tsetlin machine, get_predictor().predict(x) returns exactly the class that the trainer's evaluation pass (eval_predict) returns for x with the same state, whenever x is a 0/1 vector and the vote totals and the merged rule weights fit in 16 bits.", "quantifier": "every dense state (all clause/weight matrices), every split into clause blocks, every 0/1 input vector, every number of classes and literals", "why_tests_cant": "The two paths (clause-by-clause evaluation with 16-bit votes; de-duplicated rule list with 32-bit votes) only meet on sampled inputs in the tests; agreement is needed for 2^n inputs and every possible learned state.", "anchors": ["green_tsetlin/tsetlin_machine.py:TsetlinMachine.get_predictor", "green_tsetlin/ruleset.py:RuleSet.compile_from_dense_state", "src/inference.hpp:Inference::predict", "src/func_tm.hpp:EvalClauseOutputTM", "src/func_tm.hpp:CountVotesTM", "src/executor.hpp:eval_predict"]}
{"id": "C02", "title": "Compiling a rule set preserves the votes of every input", "statement": "get_ruleset() on a dense state yields pairwise distinct, non-empty rules; on every 0/1 input the per-class sum of weights of matching rules equals (mod 2^16, and exactly when merged weights fit) the sum of weights of matching non-empty clauses; a clause is left out only if it is empty or its weights are all zero, and a rule exists only for some such clause.", "quantifier": "every dense state, every 0/1 input, every class", "why_tests_cant": "Duplicate clauses, cancelling duplicates, empty clauses and all-zero weights combine in unboundedly many ways.", "anchors": ["green_tsetlin/ruleset.py:RuleSet.compile_from_dense_state"]}
{"id": "C03", "title": "predict returns the first class with the most votes, or the default when no rule matches", "statement": "Predictor.predict(x) returns a valid class index; if at least one rule matches it is the lowest-numbered class whose vote total is maximal; if no rule matches it is the configured empty class (0 by default).", "quantifier": "every rule list, weight matrix, input vector and number of classes >= 1", "why_tests_cant": "Ties, negative totals and empty matches must be handled for all vote vectors.", "anchors": ["src/inference.hpp:Inference::predict", "green_tsetlin/predictor.py:Predictor.predict"]}
{"id": "C04", "title": "Literal explanations are the exact vote contributions", "statement": "After predict(x), explain() for class y gives for each literal (positive and negated) the sum of the class-y weights of exactly the rules that matched x and mention that literal; with exclude_negative_clauses only weights >= 1 count; literals of rules that did not match get 0 contribution.", "quantifier": "every rule list, input, target class, and both settings of exclude_negative_clauses", "why_tests_cant": "Correctness is a sum over arbitrary rule lists; tests inspect one hand-made rule set.", "anchors": ["src/inference.hpp:Inference::calculate_importance", "green_tsetlin/predictor.py:Predictor.explain"]}
{"id": "C05", "title": "Predictions do not depend on the history of calls", "statement": "On one Predictor object, the result of predict(x) is the same after any sequence of earlier predict/explain calls, and explain(target) depends only on the most recent predict input and the target.", "quantifier": "every finite sequence of predict/explain calls with arbitrary inputs", "why_tests_cant": "The object re-uses internal buffers; staleness only shows after particular call sequences.", "anchors": ["src/inference.hpp:Inference", "green_tsetlin/predictor.py:Predictor.predict", "green_tsetlin/predictor.py:Predictor.explain"]}
{"id": "C06", "title": "The 'simple' exported C program computes the predictor's answer", "statement": "For any rule set, running the C text produced by export_as_program(..., exporter=\"simple_c\") on x returns the same class as Predictor.predict(x) as long as the final vote totals fit in 16 bits.", "quantifier": "every rule set with in-range literals, every input byte vector", "why_tests_cant": "Generated programs are only compiled on one example in the tests; equivalence is over all rule sets and inputs.", "anchors": ["green_tsetlin/writers/simple_c.py:SimpleC", "green_tsetlin/predictor.py:Predictor.export_as_program", "src/inference.hpp:Inference::predict"]}
{"id": "C07", "title": "The 'topographical' exported C program computes the predictor's answer", "statement": "For rule sets whose rules are pairwise different as sets and non-empty, the nested-if program produced with exporter=\"topological_c\" counts every matching rule exactly once, so it returns the same class as Predictor.predict(x) when vote totals fit in 16 bits; tree construction terminates for every rule set.", "quantifier": "every rule set, every tie-breaking order used while choosing branch literals, every input", "why_tests_cant": "The tree shape depends on set iteration order and rule overlaps; tests cannot cover the shapes.", "anchors": ["green_tsetlin/writers/topographical_c.py:TopographicalC", "green_tsetlin/predictor.py:Predictor.export_as_program"]}
{"id": "C08", "title": "Splitting into clause blocks conserves the clauses", "statement": "After set_num_clause_blocks(n) succeeds there are exactly n blocks, every block has at least one clause, sizes sum to n_clauses, and only the first block differs from n_clauses // n; a list argument is used verbatim iff it sums to n_clauses and has no entry below 1; otherwise an error is raised.", "quantifier": "every n_clauses, every block count or list", "why_tests_cant": "Integer division corner cases over unbounded parameters.", "anchors": ["green_tsetlin/tsetlin_machine.py:TsetlinMachine.set_num_clause_blocks"]}
{"id": "C09", "title": "s values and literal budgets are dealt to blocks round-robin", "statement": "When clause blocks are constructed, block i has the i-th block size, s value number i mod len(s) and budget number i mod len(budgets); every block is given a value and blocks keep order.", "quantifier": "every list of s values, budgets and block sizes", "why_tests_cant": "Cycling lists of co-prime lengths is an unbounded pattern.", "anchors": ["green_tsetlin/tsetlin_machine.py:TsetlinMachine.construct_clause_blocks"]}
{"id": "C10", "title": "Machine state survives the trip through the native blocks for any split", "statement": "Writing a dense state into the clause blocks and reading it back gives the same clause and weight matrices for every block split, for the unpadded and the padded (SIMD) memory layouts; writing touches only each block's own clauses.", "quantifier": "every state, every split of clauses into blocks, every literal/class count (with padding)", "why_tests_cant": "Offset arithmetic with padding must hold for all sizes; a test covers one size.", "anchors": ["green_tsetlin/tsetlin_machine.py:TsetlinMachine._save_state_in_backend", "green_tsetlin/tsetlin_machine.py:TsetlinMachine._load_state_from_backend", "src/clause_block.hpp:set_clause_state_npy", "src/aligned_tsetlin_state.hpp", "src/func_tm.hpp"]}
{"id": "C11", "title": "Saving a state to file and loading it gives the same state; malformed files are refused", "statement": "DenseState.load_from_file(save_to_file(s)) = s for every well-formed state; paths not ending in .npz, row-count mismatches and wrong dtypes never produce a state.", "quantifier": "every dense state and every candidate file content", "why_tests_cant": "Acceptance must be exact over all contents.", "anchors": ["green_tsetlin/tsetlin_machine.py:DenseState.save_to_file", "green_tsetlin/tsetlin_machine.py:DenseState.load_from_file"]}
{"id": "C12", "title": "Automaton states never leave their range, under any training history", "statement": "Starting from initialisation or from a loaded int8 state, after any number of training updates with any data, labels and random draws every automaton state stays within [-128,127] (within [-127,127] if it started there, scalar backend): increments and decrements saturate and never wrap around from include to exclude.", "quantifier": "every training history, every random draw sequence, every s, boost setting, budget", "why_tests_cant": "Wrap-around needs long histories of particular draws.", "anchors": ["src/func_tm.hpp:Type1aFeedbackTM", "src/func_tm.hpp:Type1bFeedbackTM", "src/func_tm.hpp:Type2FeedbackTM", "src/func_avx2.hpp"]}
{"id": "C13", "title": "Feedback moves automata only in the documented direction", "statement": "Type Ia feedback never decreases the state of a literal that is true in the example and never increases the state of a literal that is false; Type Ib never increases any state; Type II only increments excluded literals that are false in the example, by one; with boosting, Type Ia always increments true literals (saturating).", "quantifier": "every clause, example and sequence of random draws", "why_tests_cant": "Randomised updates: tests can only sample draws.", "anchors": ["src/func_tm.hpp:Type1aFeedbackTM", "src/func_tm.hpp:Type1bFeedbackTM", "src/func_tm.hpp:Type2FeedbackTM"]}
{"id": "C14", "title": "Clause weights move one step toward the target, only for the two chosen classes and only when the clause fires", "statement": "In one training update every weight of a clause changes only in the columns of the true class and the sampled negative class; the true-class weight is either unchanged or +1, the negative-class weight unchanged or -1 (as 16-bit integers), and both are unchanged if the clause did not output 1.", "quantifier": "every weight matrix, clause outputs, class pair and random draws", "why_tests_cant": "The code reaches this through a sign case split; all sign/target/output combinations over all weights are needed.", "anchors": ["src/func_tm.hpp:TrainUpdateTM", "src/func_tm.hpp:ClauseUpdateTM"]}
{"id": "C15", "title": "Clauses over the literal budget are never reinforced", "statement": "With a literal budget b, a clause that currently includes more than b literals gets neither weight changes nor Type Ia/II feedback in that update: no excluded literal of it becomes more included.", "quantifier": "every clause, budget, example and random draws", "why_tests_cant": "Literal counting stops early inside the evaluation loop; exactness for all clauses is not sampled.", "anchors": ["src/func_tm.hpp:SetClauseOutputTM", "src/func_tm.hpp:TrainUpdateTM"]}
{"id": "C16", "title": "A clause fires exactly when all its included literals hold", "statement": "On 0/1 inputs a clause's training output is 1 iff every included positive literal is 1 and every included negated literal is 0 (so an empty clause outputs 1); its evaluation output additionally requires at least one included literal.", "quantifier": "every clause state and every 0/1 input", "why_tests_cant": "2^n inputs times all states.", "anchors": ["src/func_tm.hpp:SetClauseOutputTM", "src/func_tm.hpp:EvalClauseOutputTM"]}
{"id": "C17", "title": "SIMD and scalar backends give the same outputs", "statement": "For the same state and 0/1 example, the AVX2 backend's clause outputs, class votes and literal counts of firing clauses equal those of the scalar backend, for every number of literals including non-multiples of 32, whatever the padding bytes of the automata contain.", "quantifier": "every number of literals, clause state, padding contents and 0/1 example", "why_tests_cant": "Remainder-lane handling depends on n mod 32 and padding garbage.", "anchors": ["src/func_avx2.hpp:SetClauseOutputAVX2", "src/func_avx2.hpp:EvalClauseOutputAVX2", "src/func_tm.hpp"]}
{"id": "C18", "title": "Update probabilities are well-formed and vanish at the threshold", "statement": "The probability of rewarding the true class lies in [0,1], decreases as its votes grow, is 0 once votes reach the threshold and 1 at or below minus the threshold; the negative-class probability mirrors it up to the 1e-16 regulariser.", "quantifier": "every threshold >= 1 and every vote vector", "why_tests_cant": "Arithmetic fact over all integers.", "anchors": ["src/feedback_block.hpp:process"]}
{"id": "C19", "title": "The negative class is never the true class", "statement": "With at least two classes, each training step selects a negative class different from the label and within range, and reports whether the argmax of the votes equals the label.", "quantifier": "every label, vote vector and random draw", "why_tests_cant": "Sampling-based selection; forbidden outcome must be impossible, not rare.", "anchors": ["src/feedback_block.hpp:process", "src/feedback_block.hpp:FeedbackBlockUniform"]}
{"id": "C20", "title": "Each training epoch uses every example exactly once and reports the true accuracy", "statement": "train_epoch visits a permutation of all example indices for every shuffle outcome and returns (#steps where the label was predicted)/(#examples), a number in [0,1].", "quantifier": "every number of examples, every shuffle, every history of earlier epochs", "why_tests_cant": "Shuffles are random and the index set is reused between epochs.", "anchors": ["src/executor.hpp:train_slice", "src/executor.hpp:train_epoch"]}
{"id": "C21", "title": "Training and evaluation results do not depend on thread scheduling", "statement": "With several clause blocks, for every interleaving of the blocks' tasks on any number of threads, the votes, the learned state and the predictions equal those of the single-threaded executor with the same blocks and seeds.", "quantifier": "every interleaving of block tasks at lock granularity, every number of blocks and threads", "why_tests_cant": "Schedules are not controllable from tests.", "anchors": ["src/executor.hpp:MultiThreadExecutor", "src/feedback_block.hpp:register_votes", "src/clause_block.hpp:train_example"]}
{"id": "C22", "title": "Evaluation never changes the model", "statement": "eval_predict leaves every clause state, weight and random generator unchanged, so interleaving evaluations with training does not alter the training trajectory; output length mismatches write nothing.", "quantifier": "every state, data set and sequence of train/eval calls", "why_tests_cant": "Absence of effects over all histories.", "anchors": ["src/executor.hpp:eval_predict", "src/clause_block.hpp:eval_example"]}
{"id": "C23", "title": "Training logs and best score are consistent", "statement": "After train() (no folds) the train and eval logs have one entry per epoch run, best_eval_score is the maximum of the eval log (when some score exceeds -1) and best_eval_epoch is the first epoch attaining it.", "quantifier": "every sequence of scores, every epoch count and early-exit threshold", "why_tests_cant": "Arbitrary score sequences.", "anchors": ["green_tsetlin/trainer.py:Trainer._train_inner"]}
{"id": "C24", "title": "Early exit happens at the first epoch that reaches the target", "statement": "Training stops after the first epoch whose eval score is >= early_exit_acc and reports did_early_exit; otherwise it runs exactly n_epochs epochs.", "quantifier": "every score sequence and threshold", "why_tests_cant": "Arbitrary score sequences.", "anchors": ["green_tsetlin/trainer.py:Trainer._train_inner"]}
{"id": "C25", "title": "The restored state is the one that scored best", "statement": "With load_best_state the machine state after train() is the state after the epoch reported as best; without it, the state after the last epoch.", "quantifier": "every training run (any epoch function and scores, some score > -1)", "why_tests_cant": "Snapshot aliasing and ordering over all runs.", "anchors": ["green_tsetlin/trainer.py:Trainer._train_inner", "green_tsetlin/tsetlin_machine.py:DenseState.copy"]}
{"id": "C26", "title": "k-fold training uses each example once for validation and reports the aggregate", "statement": "With k folds, the validation folds partition the (train+eval) examples, train and validation parts of a fold are disjoint and cover everything, logs are concatenated in fold order and best score is the maximum over folds.", "quantifier": "every data size, every k, every shuffle", "why_tests_cant": "Sizes not divisible by k, arbitrary shuffles.", "anchors": ["green_tsetlin/trainer.py:Trainer.train"]}
{"id": "C27", "title": "n_jobs is resolved to a positive worker count as documented", "statement": "Positive n_jobs is used as is; -1 means all CPUs, -2 all but one, and so on; results below 1 or 0 are rejected or clamped as documented.", "quantifier": "every n_jobs and CPU count", "why_tests_cant": "Depends on the host CPU count.", "anchors": ["green_tsetlin/trainer.py:Trainer.__init__"]}
{"id": "C28", "title": "Training data is accepted exactly when its shape and type are valid, and a rejected call changes nothing", "statement": "set_train_data / set_eval_data accept exactly well-typed data whose example counts and literal counts match and whose kind agrees with data already set; on rejection previously set data stays in place.", "quantifier": "every combination of types, shapes and prior settings", "why_tests_cant": "Combinatorial input space and call orders.", "anchors": ["green_tsetlin/trainer.py:Trainer.set_train_data", "green_tsetlin/trainer.py:Trainer.set_eval_data"]}
{"id": "C29", "title": "Invalid hyper-parameters are rejected at construction", "statement": "Constructing a machine succeeds only if every s >= 1.0 and threshold >= 1; a scalar s behaves as the one-element list.", "quantifier": "every parameter value", "why_tests_cant": "Unbounded parameter space.", "anchors": ["green_tsetlin/tsetlin_machine.py:TsetlinMachine.__init__"]}
{"id": "C30", "title": "Sparse (CSR) input trains the dense machine exactly like the dense matrix", "statement": "For each example of a CSR matrix the literals presented to the clause blocks equal the corresponding dense 0/1 row, regardless of which example was presented before.", "quantifier": "every CSR matrix (any stored order, duplicates), every order of examples", "why_tests_cant": "Leakage between examples needs particular example orders.", "anchors": ["src/input_block.hpp:SparseInputDenseOutputBlock", "src/input_block.hpp:DenseInputBlock"]}
{"id": "C31", "title": "Sparse machine state survives get/set and concatenation across blocks", "statement": "get_clause_state_sparse after set_clause_state_sparse returns the same CSR triple, and set after get restores the same clauses.", "quantifier": "every CSR triple with monotone indptr / every clause list", "why_tests_cant": "Arbitrary row lengths including empty rows.", "anchors": ["src/clause_block.hpp:get_clause_state_sparse_npy", "src/clause_block.hpp:set_clause_state_sparse_npy"]}
{"id": "C32", "title": "Sparse clauses stay sorted, duplicate free and within clause_size; active-literal lists stay duplicate free and within their limit", "statement": "After any sequence of sparse training updates each clause's literal list is strictly increasing, has one state per literal, at most clause_size entries per polarity, and each class's active-literal list has distinct entries and at most active_literals_size of them.", "quantifier": "every training history, every draw sequence, every settings", "why_tests_cant": "Invariant over unbounded histories; the existing test runs 40 epochs of xor.", "anchors": ["src/func_sparse.hpp:sort_clauses_and_states", "src/func_sparse.hpp:Type1aFeedbackSparse", "src/func_sparse.hpp:Type2FeedbackSparse", "src/func_sparse.hpp:UpdateAL"]}
{"id": "C33", "title": "A sparse clause fires exactly when its included literals hold", "statement": "On a sorted sparse example a sparse clause's training output is 1 iff every included positive literal is present and no included negated literal is present.", "quantifier": "every sparse clause, every sorted example", "why_tests_cant": "Merge-style scanning with early exits; errors only for special positions.", "anchors": ["src/func_sparse.hpp:SetClauseOutputSparse", "src/func_sparse.hpp:EvalClauseOutputSparse"]}
{"id": "C34", "title": "The rule set compiled from a sparse machine agrees with the machine", "statement": "The votes of the compiled sparse rule set equal the votes of the sparse machine's evaluation on every input.", "quantifier": "every sparse state and input", "why_tests_cant": "All states incl. boundary automaton value 0 and one-sided clauses.", "anchors": ["green_tsetlin/ruleset.py:RuleSet.compile_from_sparse_state", "src/func_sparse.hpp:EvalClauseOutputSparse"]}
{"id": "C35", "title": "A convolutional clause fires iff it matches some patch", "statement": "Training/evaluation output of a convolutional clause is 1 iff at least one patch of the example satisfies all included literals (evaluation: and the clause is non-empty); the patch chosen for feedback is one of the matching patches.", "quantifier": "every clause, patch set and random choice", "why_tests_cant": "All patch sets and random patch choices.", "anchors": ["src/func_conv_tm.hpp"]}
{"id": "C36", "title": "im2col produces each image window with its position code", "statement": "For square images gtc.im2col returns, for every window position, the window's pixels in row-major order preceded by thermometer codes of the position, and different positions have different codes.", "quantifier": "every image, image size, channel count and window size", "why_tests_cant": "Index arithmetic for all sizes.", "anchors": ["src/input_block.hpp:tsetlin_im2col", "src/input_block.hpp:cumlative_encode"]}
{"id": "C37", "title": "The XOR data set is labelled correctly", "statement": "xor_dataset returns binary examples with n_literals columns; test labels are x[0] xor x[1]; training labels differ from it only where a noise flip was drawn.", "quantifier": "every size, noise level and random draw", "why_tests_cant": "Random generator.", "anchors": ["green_tsetlin/dataset_generator.py:xor_dataset"]}
{"id": "C38", "title": "Hyper-parameter search scores a trial by its best evaluation score", "statement": "The value returned for a trial is the best evaluation score reached in that trial's training run (as documented).", "quantifier": "every sequence of evaluation scores", "why_tests_cant": "Arbitrary score sequences.", "anchors": ["green_tsetlin/hpsearch.py:HyperparameterSearch.objective"]}
{"id": "C39", "title": "set_literal_budget applies the given budget(s)", "statement": "After set_literal_budget(b) blocks are built with budget b; after set_literal_budget([b0,b1,...]) block i is built with budget b_(i mod n); budgets < 1 are rejected.", "quantifier": "every int or list argument", "why_tests_cant": "All argument shapes.", "anchors": ["green_tsetlin/tsetlin_machine.py:TsetlinMachine.set_literal_budget", "green_tsetlin/tsetlin_machine.py:TsetlinMachine.construct_clause_blocks"]}
{"id": "C40", "title": "The number of clause blocks does not change evaluation", "statement": "For the same machine state, evaluating with any split into clause blocks gives the same votes and the same predictions.", "quantifier": "every state, every pair of splits, every input", "why_tests_cant": "Quantifies over pairs of partitions.", "anchors": ["src/executor.hpp:eval_predict", "src/feedback_block.hpp:register_votes", "green_tsetlin/tsetlin_machine.py:TsetlinMachine._save_state_in_backend"]}
{"id": "C41", "title": "The pure-Python fallback computes the same votes as the native core", "statement": "With the Python backend, votes registered by several blocks add up and evaluation outputs equal those of the native backend for the same state.", "quantifier": "every state, number of blocks, input", "why_tests_cant": "All states, block splits.", "anchors": ["green_tsetlin/py_gtc/feedback_block.py:FeedbackBlock.register_votes", "green_tsetlin/py_gtc/clause_block.py"]}
{"id": "C42", "title": "Pruning removes every automaton below the threshold", "statement": "After a sparse training update no clause holds an automaton whose state is below lower_ta_threshold, and automata at or above the threshold are kept.", "quantifier": "every clause content and threshold", "why_tests_cant": "Consecutive removals.", "anchors": ["src/func_sparse.hpp:prune_clause"]}
{"id": "C43", "title": "The literal budget also holds for convolutional clauses", "statement": "In a convolutional machine a clause with more included literals than the budget is not reinforced.", "quantifier": "every clause, patch set, stale counter content and random patch choice", "why_tests_cant": "Depends on stale per-patch counters and the random patch.", "anchors": ["src/func_conv_tm.hpp"]}
{"id": "C44", "title": "A rejected configuration call leaves the machine as it was", "statement": "If set_num_clause_blocks raises, the machine's block sizes are the ones before the call.", "quantifier": "every machine and argument", "why_tests_cant": "All prior states and arguments.", "anchors": ["green_tsetlin/tsetlin_machine.py:TsetlinMachine.set_num_clause_blocks"]}
{"id": "C45", "title": "Blocks get distinct seeds and training starts for every seed", "statement": "allocate_clause_blocks gives block i the seed seed+i, all distinct, and every block initialises.", "quantifier": "every seed and block count", "why_tests_cant": "All seeds.", "anchors": ["green_tsetlin/tsetlin_machine.py:allocate_clause_blocks", "src/func_tm.hpp:InitializeTM"]}
{"id": "C46", "title": "explain('all') and feature explanations are usable", "statement": "explain(explain='all') returns one explanation per class, keyed by class (or target name); explanation='features' works once features are set.", "quantifier": "every predictor configuration", "why_tests_cant": "All configurations.", "anchors": ["green_tsetlin/predictor.py:Predictor.explain", "green_tsetlin/predictor.py:Predictor._create_backend_inference"]}
{"id": "C47", "title": "Resuming training starts from the loaded state", "statement": "When a machine with a state is trained, the first epoch starts from exactly that state in every block; the random initialisation is completely overwritten.", "quantifier": "every loaded state, split and seed", "why_tests_cant": "All states and splits.", "anchors": ["green_tsetlin/trainer.py:Trainer._train_inner", "green_tsetlin/tsetlin_machine.py:TsetlinMachine._save_state_in_backend"]}
{"id": "C48", "title": "Clause weights do not overflow in realistic runs, and the bound is exact", "statement": "After fewer than 32768-|w0| weight updates no weight wraps: every weight equals its initial value plus (#true-class updates) minus (#negative-class updates).", "quantifier": "every history of updates with fewer than that many steps", "why_tests_cant": "Needs tens of thousands of updates.", "anchors": ["src/func_tm.hpp:ClauseUpdateTM"]}
{"id": "C49", "title": "Cross-validation folds are independent", "statement": "In k-fold training, the model evaluated on a fold has never been trained on that fold's validation examples.", "quantifier": "every data set and k >= 2", "why_tests_cant": "A history property.", "anchors": ["green_tsetlin/trainer.py:Trainer.train", "green_tsetlin/trainer.py:Trainer._train_inner"]}
{"id": "C50", "title": "Initialisation produces neutral machines", "statement": "After initialisation with a non-zero seed every automaton is at -1 or 0, every weight is +1 or -1, and the process consumes the same generator order, so equal seeds give equal machines.", "quantifier": "every seed and generator output", "why_tests_cant": "All generator outputs.", "anchors": ["src/func_tm.hpp:InitializeTM"]}
{"id": "C51", "title": "Which random draw decides which automaton", "statement": "In Type Ia feedback input i uses the draws starting at index 2i (with boosting: 2i minus the number of ones before i); each automaton takes at most one saturating step, up with threshold 1-1/s and down with threshold 1/s, and the generator ends advanced by exactly the number of draws used. Type Ib uses draws 2i and 2i+1 with threshold 1/s.", "quantifier": "every clause, example, s, boost setting and draw sequence", "why_tests_cant": "A skipped or doubled draw only shifts the random stream; outputs still look random.", "anchors": ["src/func_tm.hpp:Type1aFeedbackTM", "src/func_tm.hpp:Type1bFeedbackTM"]}
{"id": "C52", "title": "Uninitialised literal counts never influence training", "statement": "The literal_counts array is not initialised; two blocks that differ only in it (and in output/vote scratch arrays) have equal automata, weights and generators after any history of training steps.", "quantifier": "every memory content and every training history", "why_tests_cant": "Uninitialised memory is usually zero in tests.", "anchors": ["src/func_tm.hpp:InitializeTM", "src/func_tm.hpp:SetClauseOutputTM"]}
{"id": "C53", "title": "A program of epochs and evaluations is one history of single-example steps", "statement": "For any sequence of train_epoch and eval_predict calls there is one sequence of single-example updates, whose examples are a permutation of all training data passed, that turns each trainable block's learned state into its final learned state; non-trainable blocks are unchanged.", "quantifier": "every sequence of calls, data sets, block lists and draws", "why_tests_cant": "Quantifies over whole call histories.", "anchors": ["src/executor.hpp:train_epoch", "src/executor.hpp:train_slice", "src/executor.hpp:eval_predict"]}
{"id": "C54", "title": "A negative class equal to the label carries update probability zero", "statement": "Whenever FeedbackBlock::process selects the label itself as negative class, the negative update probability it reports is exactly 0.", "quantifier": "every label, vote vector and draw, including a draw of exactly 0", "why_tests_cant": "The event needs a draw of exactly zero.", "anchors": ["src/feedback_block.hpp:process"]}
{"id": "C55", "title": "Every configured clause ends up in a block", "statement": "After any sequence of configuration calls (set_literal_budget, set_num_clause_blocks, construct_clause_blocks) in which no call raises, the constructed blocks together hold exactly n_clauses clauses, none is empty, and the machine's dimensions and s values are those given to the constructor.", "quantifier": "every constructor argument and every sequence of calls", "why_tests_cant": "Unbounded call sequences; only a few orders are tested.", "anchors": ["green_tsetlin/tsetlin_machine.py:TsetlinMachine.construct_clause_blocks", "green_tsetlin/tsetlin_machine.py:TsetlinMachine.set_num_clause_blocks", "green_tsetlin/tsetlin_machine.py:TsetlinMachine.set_trainable_flags"]}
{"id": "C56", "title": "A failing train() leaves the machine and the last results alone", "statement": "When train() ends in an exception (invalid data, a failing score function or callback, a failing start), the machine's state, the results of the last successful call, the data and the settings are what they were before.", "quantifier": "every backend, trainer and failure point", "why_tests_cant": "Failures can happen at any epoch of any run.", "anchors": ["green_tsetlin/trainer.py:Trainer.train", "green_tsetlin/trainer.py:Trainer._train_inner"]}
{"id": "C57", "title": "train() returns the report of the call just made", "statement": "The dictionary train() returns describes the epochs this call ran, whatever earlier calls left in the trainer.", "quantifier": "every trainer, including one that has trained before", "why_tests_cant": "Depends on leftovers of arbitrary earlier calls.", "anchors": ["green_tsetlin/trainer.py:Trainer.train"]}
{"id": "C58", "title": "The exported C program answers like the trained machine itself", "statement": "Compile the state of a dense machine to a rule set and export it with either exporter: for every 0/1 example, running the characters of the exported C file returns the class that evaluating the machine's clause blocks returns, however the clauses are split over blocks and whatever order the tree exporter used to break ties, provided merged weights and vote totals fit in 16 bits.", "quantifier": "every machine state, every split over blocks, every tie-breaking order, every 0/1 data set, both exporters", "why_tests_cant": "Needs agreement of three independent implementations (C++ kernels, python compiler, generated C text) on every state, split, tie order and input.", "anchors": ["green_tsetlin/predictor.py:Predictor.export_as_program", "green_tsetlin/writers/simple_c.py:SimpleC", "green_tsetlin/writers/topographical_c.py:TopographicalC", "green_tsetlin/ruleset.py:RuleSet.compile_from_dense_state", "src/func_tm.hpp:EvalClauseOutputTM"]}
{"id": "C59", "title": "AVX2 feedback moves each automaton exactly as specified", "statement": "For the literals of the machine, the AVX2 Type Ia, Type Ib and Type II feedback change each automaton by the saturating step given by the literal's value, the boost flag and one named random byte compared with the threshold: literal j and its negation are decided by lane j mod 32 of vectors 2*(j/32) and 2*(j/32)+1. Type Ia moves true literals up and false ones down, Type Ib only down, Type II moves exactly the excluded false literals up by one; with boosting on every true literal, negated ones included, goes up.", "quantifier": "every number of literals, automata state, 0/1 example, threshold and random vectors", "why_tests_cant": "The random lanes and the chunk loop cover a space of states no test enumerates.", "anchors": ["src/func_avx2.hpp:Type1aFeedbackAVX2", "src/func_avx2.hpp:Type1bFeedbackAVX2", "src/func_avx2.hpp:Type2FeedbackAVX2"]}
{"id": "C60", "title": "The AVX2 byte threshold approximates 1/s", "statement": "For every s >= 1, the fraction of the 256 byte values that fall below gtcmp_for_s differs from 1/s by at most 1/128; it is never 0 and never 1.", "quantifier": "every s >= 1", "why_tests_cant": "s is a real number; the rounding and the clamp have to be right for all of them.", "anchors": ["src/aligned_tsetlin_state.hpp:set_s", "src/func_avx2.hpp:Type1aFeedbackAVX2"]}
{"id": "C61", "title": "Sparse feedback moves each automaton as its type prescribes", "statement": "Type Ia on a firing sparse clause moves every automaton whose literal holds up (certainly with boost, else when a draw allows it, at most to 127) and every other one down at most one step; Type Ib moves every automaton of a silent clause down at most one step; Type II raises exactly the excluded automata whose literal is false by one and adds automata only for active literals that are false; the class weight moves by the target exactly when the clause fires; other clauses are untouched; active-literal lists grow only by literals of the example the clause lacks.", "quantifier": "every sparse clause, example, target, boost setting and draw sequence", "why_tests_cant": "Every clause content and draw sequence; insertions, pruning and sorting interleave with the steps.", "anchors": ["src/func_sparse.hpp:ClauseUpdateSparse", "src/func_sparse.hpp:Type1aFeedbackSparse", "src/func_sparse.hpp:Type1bFeedbackSparse", "src/func_sparse.hpp:Type2FeedbackSparse", "src/func_sparse.hpp:UpdateAL"]}
{"id": "C62", "title": "A convolutional training step is the dense step on a matching patch", "statement": "In one training step of a convolutional block, a clause that matches no patch keeps its weights and no automaton rises; a clause that matches gets exactly the feedback a dense clause gets on one matching patch with output 1; without a budget (or when the matching patches come first) the weights of the two sampled classes move by +1/-1 exactly when the class draw allows and the clause matches within budget; no automaton moves more than two steps.", "quantifier": "every block state, stale array content, example, sampled classes and draws", "why_tests_cant": "Depends on stale per-clause patches and counters and on the random patch choice.", "anchors": ["src/func_conv_tm.hpp:SetClauseOutputConvTM", "src/func_conv_tm.hpp:TrainUpdateConvTM"]}
{"id": "C63", "title": "Convolutional blocks keep their invariants over every history", "statement": "A block set up with a positive number of patches keeps its shape, int16 weights and automata within [-127, 127] under every sequence of training epochs and evaluations; without a positive number of patches it is never set up.", "quantifier": "every program of epochs and evaluations, data, draws", "why_tests_cant": "All histories.", "anchors": ["src/func_conv_tm.hpp:InitializeConvTM", "src/executor.hpp"]}
{"id": "C64", "title": "With one patch the convolutional block is the dense block", "statement": "With one patch per example, evaluation votes equal those of the dense block, and one training step changes automata, weights, outputs and votes exactly as the dense block does with its generator advanced by the patch draws.", "quantifier": "every block state, example, classes and draws", "why_tests_cant": "Two implementations compared on all states.", "anchors": ["src/func_conv_tm.hpp", "src/func_tm.hpp"]}
{"id": "C65", "title": "Python and native training outputs agree", "statement": "For the same automata, the pure-Python clause block computes the same training-time clause outputs and literal counts as the native scalar block: a clause is 1 exactly when every included literal is met (an empty clause is 1), and with a literal budget the count of a matching clause is its number of included literals.", "quantifier": "every automata state and input", "why_tests_cant": "All states and inputs; the tests run one backend at a time.", "anchors": ["green_tsetlin/py_gtc/clause_block.py:ClauseBlock", "src/func_tm.hpp:SetClauseOutputTM"]}
{"id": "C66", "title": "A Python update is a native update", "statement": "Whatever numbers the Python generator draws, there are draws for the native generators with which the native scalar block (boosting off) makes exactly the same update of automata, weights and outputs - provided the two sampled classes differ and no weight is at the end of the int8 range, where the Python weight jumps to the other end.", "quantifier": "every block state, example, pair of sampled classes with update probabilities, Python generator", "why_tests_cant": "The two backends draw in different orders, so no seed makes runs comparable.", "anchors": ["green_tsetlin/py_gtc/clause_block.py:ClauseBlock.train_update", "src/func_tm.hpp:TrainUpdateTM"]}
{"id": "C67", "title": "Python blocks keep their invariants over every history", "statement": "Under every sequence of training epochs and evaluations with the Python executor, every block keeps its shape, its automata stay within [-127, 127] and its weights are int8 values; a freshly initialised block satisfies this for every seed including 0.", "quantifier": "every program of epochs and evaluations, data, draws, seed", "why_tests_cant": "All histories.", "anchors": ["green_tsetlin/py_gtc/clause_block.py", "green_tsetlin/py_gtc/executors.py"]}
{"id": "C68", "title": "The Python negative class is never the label", "statement": "With at least two classes and a positive threshold the Python feedback block picks a negative class that is a class and differs from the label for every draw in [0,1), zero included; both update probabilities are positive (a small epsilon is added); with one class it raises ValueError.", "quantifier": "every vote vector, threshold, label, draw", "why_tests_cant": "All draws, in particular the boundary draw 0.", "anchors": ["green_tsetlin/py_gtc/feedback_block.py:FeedbackBlock.process"]}
{"id": "C69", "title": "The class the Python backend counts as predicted", "statement": "During training the Python feedback block counts as predicted the first class with the most votes when some class has more than -threshold votes, and class 0 otherwise, and the correct/total counters advance accordingly; on such low vote vectors it can differ from the native backend.", "quantifier": "every vote vector and threshold", "why_tests_cant": "All vote vectors; very negative totals are rare in tests.", "anchors": ["green_tsetlin/py_gtc/feedback_block.py:FeedbackBlock.process"]}
{"id": "C70", "title": "Wyhash64 draws stay in [0,1] and hit zero once per period", "statement": "Every draw of the scalar generator lies in [0,1]; the state runs through all 2^64 values before it repeats, and in every 2^64 consecutive draws exactly one is 0, whatever the seed; converting the 64-bit word to double moves it by at most 2^10, and words from 2^64-1024 on give exactly 1.", "quantifier": "every state/seed and every draw", "why_tests_cant": "2^64 states; boundary draws are too rare for any test.", "anchors": ["src/random_generator.hpp:Wyhash64"]}
{"id": "C71", "title": "The AVX2 generator repeats after 51166430 vectors", "statement": "XorShift128plus4G never uses part1 (s1 is overwritten before it is read), so whatever the seed, the stream of random vectors after seeding repeats with period 51166430 (about 2^25.6), and different seeds can give identical streams.", "quantifier": "every seed state, every position", "why_tests_cant": "Needs the order of a 64x64 matrix over GF(2); a test would have to draw more than 51 million vectors per seed.", "anchors": ["src/random_generator.hpp:XorShift128plus4G::next"]}
{"id": "C72", "title": "The halves of every NEON random vector are equal", "statement": "Xoshiro128Plus is seeded with the same value in both 64-bit lanes, so bytes i and i+8 of every random vector it ever returns are equal.", "quantifier": "every seed, every position", "why_tests_cant": "All seeds and positions; the tests never look at the vectors.", "anchors": ["src/random_generator.hpp:Xoshiro128Plus"]}
{"id": "C73", "title": "NEON training with a literal budget agrees with the scalar backend", "statement": "With the literal budget on, the NEON clause block gives in training the clause outputs, votes and literal counts of firing clauses of the scalar block; a training step changes weights, outputs, votes and the shared generator as the scalar step does with the same draws; Type II feedback is identical. Padding lanes and the unset bytes of the input buffer never matter.", "quantifier": "every number of literals, clauses and classes, every state, padding contents and binary example", "why_tests_cant": "Needs ARM hardware; arbitrary padding and lengths modulo 16.", "anchors": ["src/func_neon.hpp:SetClauseOutputNeon", "src/func_neon.hpp:CountVotesNeon", "src/func_neon.hpp:TrainUpdateNeon", "src/func_neon.hpp:Type2FeedbackNeon"]}
{"id": "C74", "title": "Exact NEON evaluation", "statement": "In NEON evaluation a clause answers 1 iff none of its included literals is false and it, or some clause before it in the block, includes at least one literal (the emptiness flag is never reset between clauses). It equals scalar evaluation iff no empty clause follows a clause with a literal.", "quantifier": "every block and binary example", "why_tests_cant": "All arrangements of empty and non-empty clauses.", "anchors": ["src/func_neon.hpp:EvalClauseOutputNeon"]}
{"id": "C75", "title": "NEON evaluation gives the scalar predictions", "statement": "Evaluating a data set with NEON clause blocks gives the predictions of the scalar backend on the same automata and weights.", "quantifier": "every executor and data set", "why_tests_cant": "Depends on empty clauses standing after non-empty ones, which small tests never produce.", "anchors": ["src/func_neon.hpp:EvalClauseOutputNeon", "src/executor.hpp:eval_predict"]}
{"id": "C76", "title": "NEON feedback, byte by byte", "statement": "Type Ia, Ib and II feedback of the NEON block move each automaton exactly by the rule, driven by lane j mod 16 of vectors 2(j/16) and 2(j/16)+1, with boosting only for non-negated literals; through any program of training and evaluation every automaton (padding included) stays an int8; initialisation gives such a block; an over-budget clause keeps its weights and no automaton of it goes up; no automaton moves more than 2 in a step.", "quantifier": "every length, state, draw sequence, example and training history", "why_tests_cant": "All draws and histories; needs ARM hardware.", "anchors": ["src/func_neon.hpp:Type1aFeedbackNeon", "src/func_neon.hpp:Type1bFeedbackNeon", "src/func_neon.hpp:Type2FeedbackNeon", "src/func_neon.hpp:InitializeAlignedNeon"]}
{"id": "C77", "title": "Literals eight apart never separate on NEON", "statement": "Because both halves of each random vector are equal, two literals eight places apart in the same 16-lane vector that start with equal automata and always see equal inputs keep equal automata through any training program, whatever the seed, feedback rule or data order.", "quantifier": "every seed, length, number of clauses, training program", "why_tests_cant": "Universally quantified over seeds and histories.", "anchors": ["src/random_generator.hpp:Xoshiro128Plus", "src/func_neon.hpp:Type1aFeedbackNeon"]}
{"id": "C78", "title": "NEON training is defined for every flag combination", "statement": "NEON blocks can train with and without the literal budget.", "quantifier": "every block and example", "why_tests_cant": "Undefined behaviour may go unnoticed in a test.", "anchors": ["src/func_neon.hpp:SetClauseOutputNeon", "src/func_neon.hpp:InitializeAlignedNeon"]}
{"id": "C79", "title": "The reported score is the exported predictor's", "statement": "After training with load_best_state the state in the machine compiles to a rule set, and every predictor built from it has on the evaluation data exactly the reported best_eval_score (with the default score: the fraction of evaluation examples it answers correctly); without load_best_state it has the last score of the log; with folds, the best score of the last fold on the last fold's validation data.", "quantifier": "every machine configuration, state, data set, score function, callback, random numbers, thread schedule and number of epochs; int16 bounds on the votes are hypotheses", "why_tests_cant": "Needs arbitrary training histories and thread schedules.", "anchors": ["green_tsetlin/trainer.py:Trainer._train_inner", "green_tsetlin/tsetlin_machine.py:TsetlinMachine.get_ruleset", "green_tsetlin/predictor.py:Predictor.predict", "src/executor.hpp:eval_predict"]}
{"id": "C80", "title": "A trainer stays usable however it is used", "statement": "After any sequence of successful set_train_data, set_eval_data and train calls, with or without folds, the machine is still configured with the dimensions it was made with, its state has those dimensions with int8 automata and int16 weights, and exporting it cannot fail; training again starts from blocks whose clauses and weights are, in order, the rows of that state, whatever the block sizes.", "quantifier": "every call sequence, data, random numbers and thread schedule", "why_tests_cant": "Unbounded call sequences.", "anchors": ["green_tsetlin/trainer.py:Trainer.train", "green_tsetlin/tsetlin_machine.py:TsetlinMachine._save_state_in_backend", "green_tsetlin/tsetlin_machine.py:TsetlinMachine._load_state_from_backend"]}
{"id": "C81", "title": "Threads do not change a training run", "statement": "The results, state and exceptions of Trainer.train are the same for every behaviour of the thread pool; when the block sizes are set on the machine they are the same for every n_jobs.", "quantifier": "every trainer, n_jobs, thread schedule, with and without folds", "why_tests_cant": "Thread schedules cannot be enumerated.", "anchors": ["green_tsetlin/trainer.py:Trainer._train_inner", "src/executor.hpp:MultiThreadExecutor"]}
{"id": "C82", "title": "Every machine and predictor gets the class of its own flags", "statement": "With the compiled core, importing the package never fails, and at every later point of every program a dense or sparse machine selects the clause-block class compiled for exactly its flags (budget, boosting, dynamic active literals) in the instruction set the probes report, and a predictor the inference class of its explanation mode; a class is never chosen that the build does not contain.", "quantifier": "every build (USE_AVX2, USE_NEON, __ARM_NEON__), every cpuid answer, every program of calls over any number of machines and trainers", "why_tests_cant": "Only one build on one processor can be tested; programs are unbounded.", "anchors": ["green_tsetlin/backend.py:impl", "src/main.cpp:PYBIND11_MODULE", "green_tsetlin/tsetlin_machine.py:TsetlinMachine._get_backend", "green_tsetlin/sparse_tsetlin_machine.py:SparseTsetlinMachine._get_backend", "green_tsetlin/predictor.py:Predictor._get_backend"]}
{"id": "C83", "title": "has_avx2 tells whether the processor has AVX2", "statement": "has_avx2() is true exactly when the processor supports AVX2 (CPUID leaf 7, EBX bit 5) and the build contains the AVX2 classes.", "quantifier": "every processor (all cpuid answers), every build", "why_tests_cant": "Needs processors without AVX2.", "anchors": ["src/main.cpp:has_avx2", "setup.py:has_avx2"]}
{"id": "C84", "title": "The package works without the compiled core", "statement": "When green_tsetlin_core cannot be imported, machines train and predictors answer with the pure python classes.", "quantifier": "every program of calls", "why_tests_cant": "Programs are unbounded.", "anchors": ["green_tsetlin/backend.py:impl", "green_tsetlin/tsetlin_machine.py:TsetlinMachine._get_backend", "green_tsetlin/predictor.py:Predictor._get_backend"]}
{"id": "C85", "title": "A sparse machine works next to other machines", "statement": "Whatever other machines are created and trained in the same process, a sparse machine refuses dense arrays and trains on csr data with its own class and a sparse input block.", "quantifier": "every program of calls, every build and processor", "why_tests_cant": "Interference needs particular interleavings of several machines.", "anchors": ["green_tsetlin/sparse_tsetlin_machine.py:SparseTsetlinMachine._get_backend", "green_tsetlin/trainer.py:Trainer._select_backend_ib", "green_tsetlin/trainer.py:Trainer.set_train_data"]}
{"id": "C86", "title": "Training starts only on blocks that belong together", "statement": "Dense machines accept and train on arrays and csr matrices in every program; and whenever training starts, for any machine in any program, the clause blocks have the machine's kind and flags and the input block decodes the data that was set into the form they read.", "quantifier": "every program of calls over any number of machines, every build and processor", "why_tests_cant": "Interleavings of several machines and trainers are unbounded.", "anchors": ["green_tsetlin/trainer.py:Trainer._select_backend_ib", "green_tsetlin/trainer.py:Trainer._train_inner", "src/main.cpp:define_clause_block", "src/main.cpp:define_clause_block_sparse"]}
{"id": "C87", "title": "Convolutional machines can be trained from Python", "statement": "ConvolutionalTsetlinMachine trains through the Trainer like the other machines and honours multi_label.", "quantifier": "every program of calls, every build and processor", "why_tests_cant": "Depends on the build.", "anchors": ["green_tsetlin/tsetlin_machine.py:ConvolutionalTsetlinMachine", "green_tsetlin/backend.py:impl"]}
{"id": "C88", "title": "The AVX2 convolutional block agrees with the scalar one", "statement": "On every example the AVX2 convolutional clause block computes the clause outputs, chosen patches, literal counts, votes and weight changes of the scalar convolutional block holding the same clauses, weights and generators.", "quantifier": "every patch size, number of patches, clause state (padding included), example, buffer contents behind the example, random draws", "why_tests_cant": "State, example and draws are unbounded; whether an unaligned aligned load traps depends on the compiler.", "anchors": ["src/func_conv_avx2.hpp:SetClauseOutputConvAVX2", "src/func_conv_avx2.hpp:EvalClauseOutputConvAVX2", "src/func_conv_avx2.hpp:TrainUpdateConvAVX2", "src/func_conv_tm.hpp:SetClauseOutputConvTM"]}
{"id": "C89", "title": "One training step of the AVX2 convolutional block", "statement": "With patches of whole vectors, in one training step a clause that matches some patch gets exactly the dense AVX2 update for one patch it matches, a clause that matches none (or is over the literal budget, when its matching patches come first) keeps its weights and no automaton rises, and no automaton moves by more than two.", "quantifier": "every state, example, random draws, target and opponent class, probabilities, flags", "why_tests_cant": "States and draws are unbounded.", "anchors": ["src/func_conv_avx2.hpp:TrainUpdateConvAVX2", "src/func_conv_avx2.hpp:SetClauseOutputConvAVX2"]}
{"id": "C90", "title": "AVX2 convolutional machines stay well defined", "statement": "With patches of whole vectors (or one patch), initialised AVX2 convolutional blocks never execute an unaligned load, never leave the int8/int16 ranges and keep their array sizes in any sequence of training epochs and evaluations, and the executor then predicts the first class with the largest total weight of the clauses that fire on some patch.", "quantifier": "every sequence of epochs and evaluations, every data set, number of blocks, random draws", "why_tests_cant": "Histories are unbounded.", "anchors": ["src/func_conv_avx2.hpp:InitializeConvAVX2", "src/executor.hpp:Executor.train_epoch", "src/executor.hpp:Executor.eval_predict"]}
{"id": "C91", "title": "One patch is the dense AVX2 machine", "statement": "An executor of AVX2 convolutional blocks with one patch and one of dense AVX2 blocks started with the same clauses, weights and generators have the same clauses, weights, outputs, votes and generators after every sequence of epochs and evaluations and give the same predictions; only the literal counters of silent clauses may differ.", "quantifier": "every sequence of epochs and evaluations on arbitrary buffers, every patch size, flags, number of blocks, random draws", "why_tests_cant": "Histories are unbounded.", "anchors": ["src/func_conv_avx2.hpp:SetClauseOutputConvAVX2", "src/func_conv_avx2.hpp:TrainUpdateConvAVX2", "src/func_avx2.hpp:SetClauseOutputAVX2"]}
{"id": "C92", "title": "The thread pool is fork and join", "statement": "In every execution of the pool every pushed task is started exactly once and in the order of pushing, wait_for_tasks returns only when all tasks pushed before have ended, no worker pops an empty queue, the mutex is held by one thread at a time, and the states its user can see are those of a plain fork/join machine.", "quantifier": "every number of threads from one on, every sequence of pushes and waits, every task (of any number of atomic steps), every schedule, spurious wake-ups included", "why_tests_cant": "The number of interleavings is unbounded and the transient wrap-around of the task counter shows only in rare ones.", "anchors": ["src/BS_thread_pool.hpp:thread_pool.push_task", "src/BS_thread_pool.hpp:thread_pool.wait_for_tasks", "src/BS_thread_pool.hpp:thread_pool.worker"]}
{"id": "C93", "title": "The multi-threaded executor neither deadlocks nor runs for ever", "statement": "In any session of epochs and evaluations on the thread pool some thread can move until the work is done, from every reachable state it can be done, and every execution is bounded by a given number of steps plus six per spurious wake-up.", "quantifier": "every number of threads and blocks, every session, every schedule", "why_tests_cant": "Deadlocks and lost wake-ups are a matter of the schedule.", "anchors": ["src/executor.hpp:Executor.train_slice", "src/executor.hpp:Executor.eval_predict", "src/BS_thread_pool.hpp:thread_pool.worker", "src/BS_thread_pool.hpp:thread_pool.wait_for_tasks", "src/feedback_block.hpp:FeedbackBlock.register_votes"]}
{"id": "C94", "title": "On the thread pool the answers are those of one thread", "statement": "Whatever the number of threads and the schedule, the accuracies and predictions, the blocks and the feedback block after any session on the thread pool are those of the single-thread executor, and no two outstanding tasks ever concern the same block.", "quantifier": "every number of threads, every session, every schedule, every data set, blocks and random draws", "why_tests_cant": "Schedules and sessions are unbounded.", "anchors": ["src/executor.hpp:Executor.train_epoch", "src/executor.hpp:Executor.eval_predict", "src/feedback_block.hpp:FeedbackBlock.register_votes", "src/BS_thread_pool.hpp:thread_pool.push_task"]}
{"id": "C95", "title": "Destroying the executor returns", "statement": "The destructor of the pool (run when an executor is destroyed or when its constructor throws) returns in every execution.", "quantifier": "every number of threads, tasks, use of the pool, schedule", "why_tests_cant": "Needs a worker to be between testing the predicate and blocking while the destructor stores and notifies.", "anchors": ["src/BS_thread_pool.hpp:thread_pool.~thread_pool", "src/BS_thread_pool.hpp:thread_pool.destroy_threads", "src/BS_thread_pool.hpp:thread_pool.worker"]}
{"id": "C96", "title": "A clause of the python sparse state fires exactly when its included literals hold", "statement": "In training and in evaluation the output of a clause is 1 exactly when all its included positive literals are in the example and none of its included negated literals is.", "quantifier": "every state with parallel index and state lists, every example, every number of clauses and classes", "why_tests_cant": "States and examples are unbounded; the wrong offsets show only when the number of classes differs from that of clauses.", "anchors": ["green_tsetlin/py_gtc/tsetlin_state.py:TsetlinStateSparse.set_clause_output", "green_tsetlin/py_gtc/tsetlin_state.py:TsetlinStateSparse.eval_clause_output"]}
{"id": "C97", "title": "Python sparse training keeps its lists well formed", "statement": "Over any sequence of epochs and evaluations nothing raises, index and state lists stay parallel and without duplicates, literals below n, automata at least -20 and at most 127, at most seven distinct active literals per class and side, weights in int8.", "quantifier": "every data set, seed, draws, number of blocks, sequence of calls; at least two classes and not more than clauses", "why_tests_cant": "Needs an invariant over unbounded histories.", "anchors": ["green_tsetlin/py_gtc/tsetlin_state.py:TsetlinStateSparse.train_update", "green_tsetlin/py_gtc/tsetlin_state.py:TsetlinStateSparse.T1aFeedback", "green_tsetlin/py_gtc/tsetlin_state.py:TsetlinStateSparse.T1bFeedback", "green_tsetlin/py_gtc/tsetlin_state.py:TsetlinStateSparse.T2Feedback", "green_tsetlin/py_gtc/tsetlin_state.py:TsetlinStateSparse.update_al", "green_tsetlin/py_gtc/tsetlin_state.py:TsetlinStateSparse.initialize"]}
{"id": "C98", "title": "Pruning removes exactly the automata below -20", "statement": "The loop of train_update that removes by value and pops by index while iterating over a copy keeps exactly the pairs (literal, automaton) with automaton at least -20, in order.", "quantifier": "every pair of parallel lists, equal automata included", "why_tests_cant": "list.remove takes the first equal value; that it is the one the index points at needs an invariant.", "anchors": ["green_tsetlin/py_gtc/tsetlin_state.py:TsetlinStateSparse.train_update"]}
{"id": "C99", "title": "Python sparse feedback is the Tsetlin machine's", "statement": "Type 1a, type 1b and type 2 feedback move every automaton of the clause in the direction of the table, each by its own draw and with the stated probability; type 2 adds the active literals that would have silenced the clause; weights move by the sign; nothing outside the clause and the class changes.", "quantifier": "every well formed state, example without repeated literals, clause, class, target, generator", "why_tests_cant": "The draw an automaton uses depends on all literals before it.", "anchors": ["green_tsetlin/py_gtc/tsetlin_state.py:TsetlinStateSparse.update_clause", "green_tsetlin/py_gtc/tsetlin_state.py:TsetlinStateSparse.T1aFeedback", "green_tsetlin/py_gtc/tsetlin_state.py:TsetlinStateSparse.T1bFeedback", "green_tsetlin/py_gtc/tsetlin_state.py:TsetlinStateSparse.T2Feedback", "green_tsetlin/py_gtc/tsetlin_state.py:TsetlinStateSparse.update_al"]}
{"id": "C100", "title": "The literal budget of the python sparse state limits clauses", "statement": "A clause with more included literals than the budget is not reinforced.", "quantifier": "every budget, history", "why_tests_cant": "A comparison that never succeeds cannot be seen from outside.", "anchors": ["green_tsetlin/py_gtc/tsetlin_state.py:TsetlinStateSparse.train_update", "green_tsetlin/py_gtc/tsetlin_state.py:TsetlinStateSparse.initialize"]}
{"id": "C101", "title": "The scalar machine stays inside its memory", "statement": "Initialising, training, evaluating, counting votes and copying state in and out access only live memory inside their own arrays (and the example buffer, the data set, the caller's array), read only what was written, overflow no int, change nothing else, and compute what the list model computes.", "quantifier": "every heap, every number of blocks, sizes whose products fit an int, every data set with labels below the number of classes, every sequence of examples, every generator, budget and boost on or off", "why_tests_cant": "Out-of-bounds accesses are mostly invisible; absence of undefined behaviour for all sizes and histories needs an invariant on the heap.", "anchors": ["src/func_tm.hpp:InitializeTM", "src/func_tm.hpp:SetClauseOutputTM", "src/func_tm.hpp:EvalClauseOutputTM", "src/func_tm.hpp:CountVotesTM", "src/func_tm.hpp:TrainUpdateTM", "src/func_tm.hpp:Type1aFeedbackTM", "src/func_tm.hpp:Type1bFeedbackTM", "src/func_tm.hpp:Type2FeedbackTM", "src/aligned_tsetlin_state.hpp:get_clause_state", "src/aligned_tsetlin_state.hpp:set_clause_state", "src/aligned_tsetlin_state.hpp:get_clause_weights", "src/aligned_tsetlin_state.hpp:set_clause_weights", "src/input_block.hpp:DenseInputBlock", "src/executor.hpp:train_slice", "src/executor.hpp:eval_predict"]}
{"id": "C102", "title": "cleanup releases what initialize allocated", "statement": "After allocate_clause_blocks has initialised the blocks, any training, and the cleanup at the end, the heap has as many live allocations as before; nothing is released twice or with the wrong function.", "quantifier": "every number of blocks and cycles, every data set, budget on or off", "why_tests_cant": "A leak of one array per block and call does not change any result.", "anchors": ["src/func_tm.hpp:CleanupTM", "src/func_tm.hpp:InitializeTM", "green_tsetlin/tsetlin_machine.py:allocate_clause_blocks", "src/clause_block.hpp:cleanup"]}
{"id": "C103", "title": "The preconditions of the scalar machine are needed", "statement": "Outside them behaviour is undefined: products of the sizes beyond int, an example offset beyond int, a label that is no class, a loaded state with seed 0.", "quantifier": "every state, heap, data set, index that violates the precondition", "why_tests_cant": "Undefined behaviour need not show in a test run.", "anchors": ["src/func_tm.hpp:InitializeTM", "src/input_block.hpp:prepare_example", "src/feedback_block.hpp:process", "green_tsetlin/tsetlin_machine.py:_save_state_in_backend", "src/clause_block.hpp:initialize"]}
{"id": "C104", "title": "Multi-label training weighs the ON votes of a label against its OFF votes", "statement": "While training on an example the feedback block holds, for every label, the sums of the blocks' ON and OFF votes; update probabilities and training accuracy are computed from both.", "quantifier": "every number of labels, blocks, clauses, every history of examples, every generator", "why_tests_cant": "The wrong probability of the OFF classes only shows in how fast they learn.", "anchors": ["src/feedback_block.hpp:FeedbackBlockMultiLabel::process", "src/feedback_block.hpp:register_votes", "src/executor.hpp:train_slice"]}
{"id": "C105", "title": "Multi-label training from Python completes", "statement": "Trainer.train on a multi-label machine with valid data trains the epochs and returns.", "quantifier": "every number of labels, epochs, examples, every label array, every generator", "why_tests_cant": "The ways to fail depend on the shape of the labels; non-termination cannot be tested.", "anchors": ["green_tsetlin/trainer.py:_train_inner", "src/executor.hpp:eval_predict_multi", "src/feedback_block.hpp:FeedbackBlockMultiLabel::process", "src/input_block.hpp:prepare_example"]}
{"id": "C106", "title": "The executor accepts exactly the label shapes its feedback block can read", "statement": "A label array is accepted only if it has as many columns as the feedback block reads.", "quantifier": "every label width, number of classes and blocks", "why_tests_cant": "All combinations of shapes.", "anchors": ["src/executor.hpp:Executor", "src/input_block.hpp:is_multi_label"]}
{"id": "C107", "title": "Every backend releases what it allocates", "statement": "For any sequence of initialize and cleanup calls on a clause block, cleanup releases all arrays of the preceding initialize, none twice and none with the wrong function.", "quantifier": "every backend (scalar, AVX2, NEON, sparse, convolutional, convolutional AVX2), with and without literal budget and patches, every sequence of calls, every heap", "why_tests_cant": "Leaks do not change results; call sequences are unbounded.", "anchors": ["src/func_avx2.hpp:InitializeAVX2", "src/func_avx2.hpp:CleanupAVX2", "src/func_neon.hpp:CleanupAlignedNeon", "src/func_sparse.hpp:CleanupSparseTM", "src/func_conv_tm.hpp:CleanupConvTM", "src/func_conv_avx2.hpp:CleanupConvAVX2", "src/func_tm.hpp:CleanupTM", "src/clause_block.hpp:cleanup"]}
{"id": "C108", "title": "Sizes passed to aligned_alloc are multiples of the alignment", "statement": "Every call of aligned_alloc asks for a multiple of its alignment, as ISO C and other C libraries require.", "quantifier": "every number of clauses and classes", "why_tests_cant": "glibc accepts any size.", "anchors": ["src/gt_common.hpp:safe_aligned_alloc", "src/func_avx2.hpp:InitializeAVX2"]}
{"id": "C109", "title": "The clause blocks see the rows of the array that was given, whatever its memory layout", "statement": "For every accepted numpy array (any strides and offset) the literals presented for example i are the entries of row i, in training, evaluation and cross validation.", "quantifier": "every strided view, example, fold, with and without copy_training_data", "why_tests_cant": "Memory layouts are unbounded and tests use freshly made C-ordered arrays.", "anchors": ["green_tsetlin/trainer.py:Trainer.train", "green_tsetlin/trainer.py:_train_inner", "green_tsetlin/trainer.py:_cv_train", "src/input_block.hpp:set_data", "src/input_block.hpp:prepare_example"]}
{"id": "C110", "title": "The position of an example fits into an int", "statement": "Every example of the training data is presented, however large the data.", "quantifier": "every array", "why_tests_cant": "Needs arrays of more than 2 GB.", "anchors": ["src/input_block.hpp:prepare_example"]}
{"id": "C111", "title": "The predictor answers for the example it was given and rejects wrong sizes", "statement": "predict on an array of one example with the right number of literals answers for that example; any other array is an error.", "quantifier": "every predictor and strided array", "why_tests_cant": "All shapes and layouts; reads past the end usually go unnoticed.", "anchors": ["green_tsetlin/predictor.py:_set_example", "src/inference.hpp:predict", "src/inference.hpp:explain"]}
{"id": "C112", "title": "im2col works for any number of images", "statement": "The convolutional input block prepares the windows of every image of the data set.", "quantifier": "every number, size and window size of images", "why_tests_cant": "Needs data sets of hundreds of megabytes.", "anchors": ["src/input_block.hpp:im2col", "src/gt_common.hpp:safe_aligned_alloc"]}
{"id": "C113", "title": "A saved and loaded sparse state works like the one saved", "statement": "After save_state and load from the file a sparse state compiles to the same rules and continues training from the same state as before.", "quantifier": "every sparse state, any number and sizes of blocks", "why_tests_cant": "The failure depends on whether the block sizes happen to be equal.", "anchors": ["green_tsetlin/sparse_tsetlin_machine.py:save_to_file", "green_tsetlin/sparse_tsetlin_machine.py:load_from_file", "green_tsetlin/sparse_tsetlin_machine.py:_save_state_in_backend", "green_tsetlin/ruleset.py:compile_from_sparse_state"]}
{"id": "C114", "title": "The sparse block never indexes outside its vectors", "statement": "After initialize, any sequence of training, update and evaluation calls with class numbers below n_classes and room for at least one active literal makes only in-range accesses to the clause vectors, state vectors, active literals, replacement indices, weights, outputs and votes, throws nothing, and computes what the functional model computes; storing a state whose row ends lie in its arrays does too.", "quantifier": "every sequence of calls, example, block size, draw of random numbers", "why_tests_cant": "An out-of-range vector access is undefined behaviour and usually goes unnoticed; sizes of clauses change with every draw.", "anchors": ["src/func_sparse.hpp:SetClauseOutputSparseTM", "src/func_sparse.hpp:EvalClauseOutputSparseTM", "src/func_sparse.hpp:TrainUpdateSparseTM", "src/func_sparse.hpp:Type1aFeedbackSparseTM", "src/func_sparse.hpp:Type2FeedbackSparseTM", "src/func_sparse.hpp:UpdateAL", "src/clause_block.hpp:set_clause_state_sparse_npy", "src/clause_block.hpp:set_active_literals_npy"]}
{"id": "C115", "title": "A sparse state can be loaded into a machine with another number of blocks", "statement": "A state read from a sparse machine can be stored in, and trained on by, a machine with the same literals, clauses and classes, however the clauses are divided into blocks.", "quantifier": "every state, every two divisions of the clauses into blocks", "why_tests_cant": "Tests load with the number of jobs they trained with; the failure is undefined behaviour in the first example.", "anchors": ["green_tsetlin/sparse_tsetlin_machine.py:_save_state_in_backend", "green_tsetlin/sparse_tsetlin_machine.py:_load_state_from_backend", "src/clause_block.hpp:set_clause_state_sparse_npy", "src/sparse_tsetlin_state.hpp:set_clause_weights"]}
{"id": "C116", "title": "The AVX2 block stays inside its memory and its vector accesses are aligned", "statement": "If the array sizes fit in an int, initialize returns the block of the functional model whatever the new memory held; after it, any history of training, update, evaluation and state-setting calls with at least one literal, an example buffer made by the input block and class numbers below n_classes makes only in-range accesses, all vector loads and stores at multiples of 32 bytes, and computes what the functional model computes.", "quantifier": "every history of calls, size, padding, memory content, example, draw of random numbers", "why_tests_cant": "An access past an array or an unaligned vector access is undefined behaviour that depends on the allocator; sizes around multiples of 32, 128 and above 2^31 are not all tried by tests.", "anchors": ["src/func_avx2.hpp:InitializeAVX2", "src/func_avx2.hpp:SetClauseOutputAVX2", "src/func_avx2.hpp:EvalClauseOutputAVX2", "src/func_avx2.hpp:CountVotesAVX2", "src/func_avx2.hpp:TrainUpdateAVX2", "src/func_avx2.hpp:Type1aFeedbackAVX2", "src/func_avx2.hpp:Type1bFeedbackAVX2", "src/func_avx2.hpp:Type2FeedbackAVX2", "src/aligned_tsetlin_state.hpp:set_clause_state", "src/aligned_tsetlin_state.hpp:get_clause_state", "src/input_block.hpp:prepare_example", "src/gt_common.hpp:safe_aligned_alloc"]}
{"id": "C117", "title": "A trial uses a point of the documented search spaces", "statement": "Each trial of a hyper-parameter search trains one machine with the training data's number of literals and classes and with s, clauses, threshold, literal budget and epochs taken from their spaces as documented: a single value is fixed, (low, high, step) is every step-th value up to high inclusive, (low, high) every integer; every point of the spaces can be tried.", "quantifier": "every search object, data set, answers of Optuna, point of the spaces", "why_tests_cant": "There are unboundedly many spaces and Optuna's answers are random, so a run shows only some points.", "anchors": ["green_tsetlin/hpsearch.py:HyperparameterSearch.objective", "green_tsetlin/hpsearch.py:HyperparameterSearch.__init__"]}
{"id": "C118", "title": "A search over sensible ranges runs all its trials and reports the best", "statement": "If every value of the ranges is one the machine and trainer take and the data suit them, optimize runs n_trials trials, whatever Optuna asks for and however the pool is scheduled, and best_trials are exactly the told trials with a number as score that no other told trial beats (in the score, or in score and literal budget).", "quantifier": "every search object, data, seed, number of jobs and trials, sequence of answers, pool schedule", "why_tests_cant": "The answers are random and one bad combination somewhere in the ranges is enough to lose the search.", "anchors": ["green_tsetlin/hpsearch.py:HyperparameterSearch.optimize", "green_tsetlin/hpsearch.py:HyperparameterSearch.objective", "green_tsetlin/trainer.py:Trainer.train"]}
{"id": "C119", "title": "The machine of a trial has a class for every training label", "statement": "The machine built for a trial has more classes than the largest training label.", "quantifier": "every search object, answers, non-negative training labels", "why_tests_cant": "Out-of-range labels are not checked anywhere and read past arrays of the C++ core.", "anchors": ["green_tsetlin/hpsearch.py:HyperparameterSearch.objective"]}
{"id": "C120", "title": "The native inference object stays inside its memory", "statement": "Whatever sequence of set_rules, set_features, set_empty_class_output, predict and calculate_importance is called on an Inference object, it never reads or writes outside its arrays or the example it was given and no int32 sum overflows; predict then gives the votes, active clauses and class of the rules set last.", "quantifier": "every template instance, size, history of calls, rules, weights, example, content of new memory", "why_tests_cant": "An access outside an array usually goes unnoticed in a test, and the histories that lead to one are unboundedly many.", "anchors": ["src/inference.hpp:Inference::predict", "src/inference.hpp:Inference::calculate_importance", "src/inference.hpp:Inference::set_rules", "src/inference.hpp:Inference::set_features", "src/main.cpp:define_inference_module"]}
{"id": "C121", "title": "Feature importance sums the weights of the rules that hold", "statement": "With feature importance, after predict and calculate_importance(y) every feature has the sum of the class-y weights of the rules that hold and whose feature list has it (only the positive ones if negative clauses are excluded), and every literal likewise for the rules that contain it.", "quantifier": "every rule set, feature lists, example, class, history before", "why_tests_cant": "The sum has to hold for all rule sets and examples, and the library's tests set no features.", "anchors": ["src/inference.hpp:Inference::calculate_importance", "src/inference.hpp:Inference::set_features", "green_tsetlin/predictor.py:Predictor._allocate_backend"]}
{"id": "C122", "title": "The predictor of a multi-label machine tells which labels are on", "statement": "For a machine with n labels (classes k and n+k vote for label k on and off) the predictor's answer tells exactly the labels whose ON votes exceed their OFF votes.", "quantifier": "every multi-label state, example and explanation mode", "why_tests_cant": "Every set of labels on every example has to come out right.", "anchors": ["green_tsetlin/predictor.py:Predictor.predict", "green_tsetlin/predictor.py:Predictor.from_ruleset", "green_tsetlin/tsetlin_machine.py:TsetlinMachine.get_predictor"]}
{"id": "C123", "title": "A sparse block initialised again starts like a new one", "statement": "cleanup followed by initialize leaves a sparse clause block as a new block initialised with the same seed and parameters, whatever happened before.", "quantifier": "every block history, size, parameter and seed", "why_tests_cant": "The blocks that went through some training before are unboundedly many, and the difference only shows in later training.", "anchors": ["src/func_sparse.hpp:CleanupSparseTM", "src/func_sparse.hpp:InitializeSparseTM"]}
{"id": "C124", "title": "A training run has the machine's parameters", "statement": "The blocks of a run have the machine's sizes, literals and classes; block i is initialised with seed + i, has the i-th s (round robin) as probabilities 1/s and (s-1)/s and the i-th budget; the feedback threshold, random seeds and the boost and budget variants are the machine's; a state overwrites clauses and weights only.", "quantifier": "every configured machine, state, data, seed and number of blocks", "why_tests_cant": "Swapped or shared parameters train almost as well.", "anchors": ["green_tsetlin/trainer.py:Trainer._train_inner", "green_tsetlin/tsetlin_machine.py:TsetlinMachine.construct_clause_blocks", "src/aligned_tsetlin_state.hpp:set_s", "src/clause_block.hpp:initialize"]}
{"id": "C125", "title": "Training on csr data is training on the array", "statement": "Trainer.train on csr matrices gives the results, exceptions and state it gives on the same matrices as arrays.", "quantifier": "every csr matrix (columns in any order, repeated), machine, state, random numbers and thread schedules", "why_tests_cant": "Whole training histories on unboundedly many matrices.", "anchors": ["green_tsetlin/trainer.py:Trainer.train", "src/input_block.hpp:SparseInputDenseOutputBlock"]}
{"id": "C126", "title": "The NEON block stays inside its memory", "statement": "From initialize on, every load, store and copy of the NEON block is inside its arrays and no size overflows; the arrays hold what the functional model computes, whatever was in the memory before; reading a state back fills exactly the block's rows.", "quantifier": "every number of literals, clauses and classes, content of new memory, generator, example, label, probability and history of calls", "why_tests_cant": "Out-of-range accesses rarely change a result, and the sizes that overflow do not fit in a test.", "anchors": ["src/func_neon.hpp:InitializeAlignedNeon", "src/func_neon.hpp:SetClauseOutputNeon", "src/func_neon.hpp:EvalClauseOutputNeon", "src/func_neon.hpp:CountVotesNeon", "src/func_neon.hpp:TrainUpdateNeon", "src/gt_common.hpp:safe_aligned_alloc"]}
{"id": "C127", "title": "Training runs on AVX2 blocks", "statement": "When the trainer runs on the AVX2 blocks, the state it leaves exports to a predictor with exactly the reported score on the evaluation data; a second call of train starts from exactly that state; machine and state stay usable whatever sequence of calls is made; and neither the thread schedule nor, with block sizes set, n_jobs changes any result.", "quantifier": "every machine with at least one literal, state, data set, score function, generator and seed, thread schedule, number of epochs and folds, and sequence of calls", "why_tests_cant": "A test run sees one seed, one schedule and one CPU; a mistake in the padding of the rows would show only for some numbers of literals.", "anchors": ["green_tsetlin/trainer.py:Trainer._train_inner", "green_tsetlin/trainer.py:Trainer.train", "green_tsetlin/backend.py", "green_tsetlin/tsetlin_machine.py:TsetlinMachine._save_state_in_backend", "green_tsetlin/tsetlin_machine.py:TsetlinMachine._load_state_from_backend", "src/func_avx2.hpp", "src/executor.hpp:Executor"]}
{"id": "C128", "title": "Training runs of the sparse machine", "statement": "When the trainer runs a SparseTsetlinMachine on csr data, the state it leaves exports to a predictor with the reported score on the evaluation data; a second call of train starts from exactly that state; machine and state stay usable whatever sequence of calls is made; and neither the thread schedule nor, with block sizes set, n_jobs changes any result.", "quantifier": "every sparse single-label machine with at least one class, state, csr data set, score function, generator and seed, thread schedule, number of epochs and folds, and sequence of calls", "why_tests_cant": "Whether a second train works depends on how many active literals each class happened to collect, which changes with data, seed and block sizes; a test sees one combination.", "anchors": ["green_tsetlin/trainer.py:Trainer._train_inner", "green_tsetlin/trainer.py:Trainer.train", "green_tsetlin/sparse_tsetlin_machine.py:SparseTsetlinMachine", "src/func_sparse.hpp", "src/sparse_tsetlin_state.hpp", "src/executor.hpp:Executor"]}
{"id": "C129", "title": "Memory of the scalar convolutional block", "statement": "From initialize over any sequence of training and evaluation calls to cleanup the scalar convolutional block accesses only its own arrays and the example, computes what the list model computes, releases what initialize allocated, and its results do not depend on what was in new memory.", "quantifier": "every number of literals, clauses, classes and patches whose products fit an int, every data set, generator and seed, heap, content of new memory, and sequence of calls", "why_tests_cant": "Out-of-range accesses and reads of new memory usually return plausible values; a test observes one heap layout and usually zero-filled pages.", "anchors": ["src/func_conv_tm.hpp:InitializeConvTM", "src/func_conv_tm.hpp:CleanupConvTM", "src/func_conv_tm.hpp:SetClauseOutputConvTM", "src/func_conv_tm.hpp:EvalClauseOutputConvTM", "src/func_conv_tm.hpp:TrainUpdateConvTM", "src/clause_block.hpp:ClauseBlockT"]}
{"id": "C130", "title": "Memory of the AVX2 convolutional block", "statement": "From initialize over any sequence of training, evaluation and state-transfer calls the AVX2 convolutional block accesses only its own arrays and the example buffer, every vector load and store is at a multiple of 32 bytes, it computes what the list model computes, and its results do not depend on what was in new memory.", "quantifier": "every number of literals, clauses, classes and patches whose products fit an int, both literal-budget and boost settings, every generator, seed, content of new memory, example buffer of the size the input block allocates and sequence of calls", "why_tests_cant": "A misaligned or out-of-range vector access may go unnoticed on one machine and crash on another; new pages are usually zero.", "anchors": ["src/func_conv_avx2.hpp:InitializeConvAVX2", "src/func_conv_avx2.hpp:SetClauseOutputConvAVX2", "src/func_conv_avx2.hpp:EvalClauseOutputConvAVX2", "src/func_conv_avx2.hpp:TrainUpdateConvAVX2", "src/aligned_tsetlin_state.hpp:AlignedTsetlinState", "src/input_block.hpp:DenseInputBlock"]}
{"id": "C131", "title": "Choosing the classes of a training step ends and never picks the label", "statement": "With the engine of libstdc++ and two or more classes, the negative class of a training step is always in range and never the label, whatever the seed and however many steps came before; the redraw loops of the uniform and the multi-label feedback blocks end within 2147483646 draws, at the first class that differs; every class owns the same number of engine values. With one class the redraw loop never ends.", "quantifier": "every seed, engine state, number of classes from 2 to 2147483645, label, votes and threshold above 0", "why_tests_cant": "The engine has 2147483646 states; whether a state exists from which a loop never ends, or a draw is exactly 0, cannot be seen by running some of them.", "anchors": ["src/feedback_block.hpp:FeedbackBlock::process", "src/feedback_block.hpp:FeedbackBlockUniform::process", "src/feedback_block.hpp:FeedbackBlockMultiLabel::process"]}
{"id": "C132", "title": "The parts of a training run draw from different streams", "statement": "The generators of a training run are independent of each other: the draws of the feedback block do not follow from the initial automata of a clause block, the blocks do not follow from one another, and different seeds give different runs.", "quantifier": "every configured machine, seed, backend schedule and number of draws", "why_tests_cant": "Runs look random either way; that one stream repeats another one shows only when both are compared draw by draw.", "anchors": ["green_tsetlin/trainer.py:Trainer._get_feedback_block", "green_tsetlin/tsetlin_machine.py:allocate_clause_blocks", "src/func_tm.hpp:InitializeTM::init_clauses", "src/feedback_block.hpp:FeedbackBlock", "src/executor.hpp:Executor"]}
{"id": "C133", "title": "Shuffling can produce every order of the examples", "statement": "For every order of the examples there is a seed and an epoch in which the executor presents them in that order.", "quantifier": "every number of examples, order, seed and epoch", "why_tests_cant": "The number of orders is astronomic; no test can see that one is missing.", "anchors": ["src/executor.hpp:Executor::train_slice"]}
{"id": "C134", "title": "Training with uniform feedback is as sound as with the default", "statement": "Whatever feedback_type is chosen, the state train leaves in the machine is one whose exported predictor has exactly the reported score, the trainer stays usable over any sequence of calls, and neither the thread pool nor n_jobs changes a run. With feedback_type='uniform' and at least two classes no redraw of a negative class anywhere in a run loops for ever, and every negative class differs from the label. An unknown type raises ValueError and uniform feedback for a multi-label machine NotImplementedError, before anything has changed.", "quantifier": "every machine, data, seed, number of epochs, folds, random numbers and pool schedule; for the end of the loops every seed of the standard library engine and 2 to 2147483645 classes", "why_tests_cant": "A loop that might not end cannot be tested, and the engine has more than two thousand million states to start from; schedules of the pool cannot be enumerated.", "anchors": ["green_tsetlin/trainer.py:Trainer._get_feedback_block", "green_tsetlin/trainer.py:Trainer._train_inner", "src/feedback_block.hpp:FeedbackBlockUniform::process"]}
{"id": "C135", "title": "Training runs on NEON blocks", "statement": "When the trainer runs on the NEON blocks with a literal budget, the state it leaves exports to a predictor with exactly the reported score on the evaluation data; a second call of train starts from exactly that state; machine and state stay usable whatever sequence of calls is made; neither the thread schedule nor, with block sizes set, n_jobs changes any result; and every block is started with the seed, s, budget and size dealt to it.", "quantifier": "every machine with a literal budget and at least one literal, state, data set, score function, generator and seed, thread schedule, number of epochs and folds, and sequence of calls", "why_tests_cant": "A test run sees one seed, one schedule and one CPU; whether the score reported and the score of the exported predictor differ depends on where empty clauses end up.", "anchors": ["green_tsetlin/trainer.py:Trainer._train_inner", "green_tsetlin/trainer.py:Trainer.train", "green_tsetlin/backend.py", "src/func_neon.hpp", "src/executor.hpp:Executor"]}
{"id": "C136", "title": "Rows of the IMDb data set", "statement": "imdb_dataset returns training and test rows over one list of features: runs of at most max_ngram words of the training texts, without duplicates, at most `features` many and all of them if there are fewer. Every row holds a 1 exactly for the features that occur in the review it comes from, where words outside the cut-off read as the unknown marker; its label is that review's label; no review is used twice and as many are used as asked for.", "quantifier": "every word index, collection of reviews and labels, order drawn by keras and sklearn, choice of columns, num_words, index_from, features, max_ngram, train_size and test_size", "why_tests_cant": "The function downloads 50000 reviews and needs keras and sklearn; a test looks at shapes for the default parameters.", "anchors": ["green_tsetlin/dataset_generator.py:imdb_dataset"]}
{"id": "C137", "title": "A machine that knows its training data stays as it is", "statement": "If on every training example the label has at least the threshold's worth of votes and every other class at least as many against it, then any number of epochs over that data leaves every clause, weight and active literal as it is and reports accuracy 1. Below the threshold every clause that takes part can still be changed by some draw.", "quantifier": "every machine (scalar, AVX2, NEON, sparse, convolutional), data set, number of epochs, threshold, budget and boost variant, schedule of the thread pool, and every generator without draws below 1e-16", "why_tests_cant": "Tests see that accuracy rises; they cannot see that no draw can move a machine at the threshold, nor which draws are the exception.", "anchors": ["src/feedback_block.hpp:FeedbackBlock::process", "src/func_tm.hpp:TrainUpdateTM", "src/func_avx2.hpp:TrainUpdateAVX2", "src/func_neon.hpp:TrainUpdateNeon", "src/func_sparse.hpp:TrainUpdateSparseTM"]}
{"id": "C138", "title": "Any function of the inputs can be learnt", "statement": "From every state of a dense block, some examples and draws make its clauses exactly the given conjunctions within the literal budget, with exactly the given weights, as long as each clause has one weight of at least 128 or at most -129 and the update probabilities lie strictly between 0 and 1. With a clause for every input, every classification of the inputs is therefore the prediction of a block that training can reach, from every state. With update probabilities 0 nothing is learnt.", "quantifier": "every block state, number of inputs, classes and clauses, target conjunctions and weights, classification of the inputs, s, budget and boost variant, and update probabilities", "why_tests_cant": "A test that fails to learn may have had too few epochs; no test can show that no state is a dead end, nor that the boost and budget variants leave every function within reach.", "anchors": ["src/func_tm.hpp:TrainUpdateTM", "src/func_tm.hpp:ClauseUpdateTM", "src/func_tm.hpp:Type1aFeedbackTM", "src/func_tm.hpp:Type1bFeedbackTM", "src/func_tm.hpp:Type2FeedbackTM", "src/feedback_block.hpp:FeedbackBlock::process"]}
{"id": "C139", "title": "What the AVX2 block can learn", "statement": "From every state of an AVX2 block with a clause for every input, some examples and some random vectors make it predict any given classification of the inputs, with and without boosting, whatever s is. Without boosting every training of the scalar block, with all its clauses and weights, is a training of the AVX2 block. With boosting it is not: the AVX2 block raises every true negated literal, the scalar block may leave it.", "quantifier": "every block state, padding, number of inputs, classes and clauses, classification of the inputs, s, budget and boost variant, and update probabilities strictly between 0 and 1", "why_tests_cant": "The two blocks draw from different generators, so no run of one can be compared with a run of the other; and a test cannot show that no state is a dead end.", "anchors": ["src/func_avx2.hpp:TrainUpdateAVX2", "src/func_avx2.hpp:ClauseUpdateAVX2", "src/func_avx2.hpp:Type1aFeedbackAVX2", "src/func_avx2.hpp:Type1bFeedbackAVX2", "src/func_avx2.hpp:Type2FeedbackAVX2", "src/func_tm.hpp:Type1aFeedbackTM"]}
{"id": "C140", "title": "What the NEON block can learn", "statement": "From every state of a NEON block with a clause for every input, so also from the initial one and after any other training, some examples and some draws make it predict any given classification of the inputs, with and without boosting, whatever s is. This holds although the two halves of every random vector are equal, so that literals eight places apart always share a draw.", "quantifier": "every block state, padding, number of inputs, classes and clauses, classification of the inputs, seed, s and boost variant, every training before, a literal budget of at least the number of inputs, and update probabilities strictly between 0 and 1", "why_tests_cant": "The equal halves make twin automata move together on many examples; whether that is a dead end is a question about all states and all continuations, not about runs.", "anchors": ["src/func_neon.hpp:TrainUpdateNeon", "src/func_neon.hpp:ClauseUpdateNeon", "src/func_neon.hpp:Type1aFeedbackNeon", "src/func_neon.hpp:Type1bFeedbackNeon", "src/func_neon.hpp:Type2FeedbackNeon", "src/func_neon.hpp:EvalClauseOutputNeon", "src/func_neon.hpp:InitializeAlignedNeon"]}
{"id": "C141", "title": "An input and its negation are learnt alike", "statement": "Writing some inputs as their negations in every example changes nothing: the scalar block with the automata of these inputs and their negations exchanged gives the same votes, and stays such a mirror image during training, with the two draws of each of these inputs exchanged. This holds without boosting only: boosting raises a true input always, a true negated input only with probability (s-1)/s.", "quantifier": "every set of inputs, block, list of examples with their classes, budget variant, update probabilities and source of random numbers", "why_tests_cant": "Two trainings with the same seed on negated inputs differ draw by draw; only the exchange of the draws makes them comparable, and a test compares accuracies of a few data sets.", "anchors": ["src/func_tm.hpp:Type1aFeedbackTM", "src/func_tm.hpp:Type1bFeedbackTM", "src/func_tm.hpp:Type2FeedbackTM", "src/func_tm.hpp:ClauseUpdateTM", "src/func_tm.hpp:TrainUpdateTM", "src/func_tm.hpp:SetClauseOutputTM", "src/func_tm.hpp:EvalClauseOutputTM"]}
{"id": "C142", "title": "The numbers of the classes do not matter", "statement": "Giving the classes other numbers changes nothing but the numbers: a machine with renamed weights trained on the same examples with renamed labels can do exactly what the machine itself did, and every choice of the negative class is exactly as likely; its class sums are the renamed ones, so that it predicts the renamed class. The exceptions are ties, where the class with the lowest number is predicted, and a draw of exactly zero for the negative class.", "quantifier": "every number of classes, renaming, list of blocks, threshold, examples with labels, budget and boost variant, and source of random numbers in (0, 1]", "why_tests_cant": "The negative class is drawn from a list ordered by the numbers of the classes, so with the same seed a renamed training goes another way; only the distribution over all draws can be compared, and a test samples some.", "anchors": ["src/feedback_block.hpp:process", "src/feedback_block.hpp:predict", "src/func_tm.hpp:TrainUpdateTM", "src/func_tm.hpp:ClauseUpdateTM", "src/func_tm.hpp:CountVotesTM", "src/executor.hpp:train_slice", "src/executor.hpp:eval_predict"]}
{"id": "C143", "title": "The numbers of the classes do not matter to AVX2 and NEON machines", "statement": "Giving the classes other numbers changes nothing but the numbers in machines of AVX2 and of NEON blocks: a machine with renamed weights trained on the same examples with renamed labels can do exactly what the machine itself did, with the same random vectors in the blocks; its class sums are the renamed ones, so that it predicts the renamed class. The exception are ties, where the class with the lowest number is predicted.", "quantifier": "every number of classes, renaming, list of blocks, threshold, literal buffers with labels, budget and boost variant, and source of random numbers in (0, 1]", "why_tests_cant": "The negative class is drawn from a list ordered by the numbers of the classes, so with the same seed a renamed training goes another way; only all draws together can be compared.", "anchors": ["src/func_avx2.hpp:TrainUpdateAVX2", "src/func_avx2.hpp:ClauseUpdateAVX2", "src/func_avx2.hpp:CountVotesAVX2", "src/func_neon.hpp:TrainUpdateNeon", "src/func_neon.hpp:CountVotesNeon", "src/feedback_block.hpp:process", "src/executor.hpp:train_slice"]}
{"id": "C144", "title": "The numbers of the classes do not matter to sparse and convolutional machines", "statement": "Giving the classes other numbers changes nothing but the numbers in sparse and in convolutional machines: a machine with renamed weights (and, if sparse, renamed lists of active literals and replacement indices) trained on the same examples with renamed labels can do exactly what the machine itself did, with the same random numbers in the blocks; its class sums are the renamed ones, so that it predicts the renamed class. The exception are ties, where the class with the lowest number is predicted.", "quantifier": "every number of classes, renaming, list of blocks, threshold, examples with labels, budget, boost and dynamic variant, and source of random numbers in (0, 1]", "why_tests_cant": "The negative class is drawn from a list ordered by the numbers of the classes, so with the same seed a renamed training goes another way; only all draws together can be compared.", "anchors": ["src/func_sparse.hpp:TrainUpdateSparseTM", "src/func_sparse.hpp:ClauseUpdateSparseTM", "src/func_sparse.hpp:UpdateAL", "src/func_sparse.hpp:CountVotesSparseTM", "src/func_conv_tm.hpp:TrainUpdateConvTM", "src/func_conv_tm.hpp:SetClauseOutputConvTM", "src/feedback_block.hpp:process", "src/executor.hpp:train_slice"]}
{"id": "C145", "title": "The numbers of the classes do not matter with uniform feedback", "statement": "With the uniform feedback block, giving the classes other numbers changes nothing but the numbers: whenever the feedback block of the renamed machine draws the renamed classes, training on the same examples with renamed labels makes the renamed machine, with renamed class sums, for scalar, AVX2, NEON, sparse and convolutional blocks. The loop which draws the negative class stops for both machines or for neither. The renamed draws do not depend on the training, always exist and are as likely.", "quantifier": "every number of classes, renaming, list of blocks, threshold, examples with labels, bound on the draws for one example, budget, boost and dynamic variant, and source of random numbers in [0, 1)", "why_tests_cant": "A renamed run draws other classes with the same seed, and the number of draws for one example has no bound; only all draws together can be compared.", "anchors": ["src/feedback_block.hpp:FeedbackBlockUniform::process", "src/executor.hpp:train_slice", "src/func_tm.hpp:TrainUpdateTM", "green_tsetlin/trainer.py:_get_feedback_block"]}
