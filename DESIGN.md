# Formal model of green_tsetlin in Rocq (Coq 8.16.1)

## Approach

`/repo` (python package `green_tsetlin` + C++ core `src/`) is modelled by hand as
total, computable Gallina functions, one definition per function / loop of the source,
each with a comment citing file and lines.  Conventions:

* machine integers are `Z` with an explicit wrap (`wrap8`, `wrap16`, `wrap32`) at every
  store into an int8/int16/int32 variable; `nat` only for lengths, indices and literal
  numbers;
* arrays are lists; a row of a 2-d array is a list; flat memory layouts are modelled
  separately where the offset arithmetic itself is the claim (C10, C17, C31, C36);
* loops are structural recursion on the data; loops with early exit keep the early exit;
* random generators are oracles: a generator is a stream `nat -> Q` plus a position, so
  a theorem quantified over generators covers every draw sequence (and every seed);
* floating point values used only in comparisons are rationals extended with NaN and
  infinities (a finite double is a rational, comparison is exact); arithmetic on
  probabilities is done in exact rationals unless a theorem says otherwise;
* python exceptions are values of a result type; C++ undefined behaviour (reading an
  uninitialised or stale counter) is an arbitrary stale value.

Files: `Model*.v` contain the model, `Spec*.v` the independent specifications,
`Proofs*.v` lemmas, `Properties*.v` only the final theorems, examples that their
hypotheses are satisfiable, and `Print Assumptions`.

Properties that turn out false of the code get a theorem `..._refuted` with a concrete
witness (or for every run, where that is true), plus the strongest true restriction,
named `..._partial`; they are listed under "Findings".

## What is modelled

| model file | source | what |
|---|---|---|
| `Base.v` | `src/gt_common.hpp`, `src/inference.hpp` | integer types and wraps, result values, generators |
| `ModelDense.v` | `src/func_tm.hpp`, `src/aligned_tsetlin_state.hpp` | scalar dense clause block: initialise, clause outputs, votes, training update, Type Ia/Ib/II, all four budget/boost variants |
| `ModelLayout.v` | `src/aligned_tsetlin_state.hpp`, `green_tsetlin/tsetlin_machine.py:201-238` | padded flat memory, get/set of clause state and weights, python transfer loop |
| `ModelAvx2.v` | `src/func_avx2.hpp` | AVX2 dense block, intrinsics lane by lane |
| `ModelSparse.v` | `src/func_sparse.hpp`, `src/sparse_tsetlin_state.hpp`, `src/clause_block.hpp:286-402`, `green_tsetlin/sparse_tsetlin_machine.py`, `green_tsetlin/ruleset.py:43-103` | sparse block, active literals, pruning, CSR transfer, sparse rule set |
| `ModelConv.v` | `src/func_conv_tm.hpp` | scalar convolutional block |
| `ModelFeedback.v` | `src/feedback_block.hpp` | the three feedback blocks |
| `ModelInput.v` | `src/input_block.hpp` | dense and sparse input blocks, im2col |
| `ModelExecutor.v`, `ModelDenseExec.v` | `src/executor.hpp`, `src/clause_block.hpp` | both executors; the multi-threaded one as a transition system |
| `ModelInference.v`, `ModelPredictor.v` | `src/inference.hpp`, `green_tsetlin/predictor.py` | inference object, predictor |
| `ModelRuleSet.v` | `green_tsetlin/ruleset.py` | compilation of dense states |
| `ModelMachine.v` | `green_tsetlin/tsetlin_machine.py` | constructor, configuration calls, block construction, file functions |
| `ModelTrainer.v` | `green_tsetlin/trainer.py`, `green_tsetlin/hpsearch.py` | trainer, k-fold, data checks, objective function |
| `ModelWriters.v`, `ModelC.v` | `green_tsetlin/writers/*.py` | exporters character by character; a C parser and interpreter for their output |
| `ModelDataset.v` | `green_tsetlin/dataset_generator.py` | `xor_dataset` |
| `ModelPy.v` | `green_tsetlin/py_gtc/*.py` | pure python fallback, dense state |
| `ModelRandom.v` | `src/random_generator.hpp` | Wyhash64, XorShift128plus4G, Xoshiro128Plus; elsewhere generators are arbitrary streams, of which these are instances |
| `ModelNeon.v` | `src/func_neon.hpp` | dense block on 16-byte vectors, incl. padding, remainder, initialisation |
| `ModelTrainerDense.v` | `green_tsetlin/trainer.py` 258-368 with `src/executor.hpp`, `src/clause_block.hpp` | instance of the trainer's backend: dense scalar machine, single-label, focused negative sampling, both executors, accuracy_score |
| `ModelRegistry.v` | `green_tsetlin/backend.py`, `src/main.cpp` 24-47, 97-300, 343-485, the three `_get_backend`, `trainer.py` 94-102, 110-277 | the shared class registry with any number of machines and trainers; not modelled: the arguments checked by C28/C29/C08, set_data itself |
| `ModelConvAvx2.v` | `src/func_conv_avx2.hpp` (all), the AVX2 conv class of `src/main.cpp` 183-204 | undefined aligned loads are None and absorb the block; memory contents behind the example arbitrary; not modelled: reads past the end of the buffer (excluded by the buffer condition) |
| `ModelPool.v` | `src/BS_thread_pool.hpp`: constructor, destructor, create_threads, destroy_threads, push_task, wait_for_tasks, worker | sequentially consistent interleaving, one step per shared access; tasks are sequences of atomic steps and do not throw; task counter modulo 2^64; pause (never used) not modelled |
| `ModelPoolExec.v` | `src/executor.hpp` 89-195 with multi-threading, `src/feedback_block.hpp` 181-191 | the client's steps between two pool calls and a block's work before register_votes are one step each (C94_no_sharing: no other task touches that block); the votes are loaded and stored class by class |
| `ModelPySparse.v` | `green_tsetlin/py_gtc/tsetlin_state.py` 227-491 (`TsetlinStateSparse`), `clause_block.py` 77-98, 117-134, `dense_input_block.py` 108-115, `executors.py` 46-119 over such blocks | literals are numpy integers (as `prepare_example` makes them); `int(np.where(..)[0])` of a single position is that position; exact probabilities; s not 0; `sort_lists` (never called) and `cleanup` not modelled |
| `ModelHeap.v` | C++ memory as used by the core: `new[]`/`delete[]`, `aligned_alloc`/`free` (`src/gt_common.hpp` 14-45), pointer arithmetic, loads, stores, `memset`, `memcpy`, int arithmetic | allocations are numbered and never reused; elements, not bytes; allocation never fails; a negative array size is undefined |
| `ModelTMHeap.v` | `src/func_tm.hpp` (all but the functors' glue), `src/clause_block.hpp` 65-77, 119-193, `src/aligned_tsetlin_state.hpp` 79-140, `src/input_block.hpp` 41-146, `src/feedback_block.hpp` 72-123, 181-191, `src/executor.hpp` 99-195 for one thread | stores wrap as in the list model; std::vector members stay lists with bounds; the vote and feedback arithmetic is `ModelFeedback.v`'s |
| `ModelHeapRun.v` | `green_tsetlin/tsetlin_machine.py` 399-428 around a training run | one thread, no loaded state, no exception |
| `ModelMulti.v` | `src/feedback_block.hpp` 234-305 in `src/executor.hpp` 55-68, 89-154, 198-201; `src/input_block.hpp` 30-33, 86; `green_tsetlin/trainer.py` 216-223, 260-325 for multi-label machines | blocks one after the other (order of registration: C21); a loop of redraws longer than the fuel is `Spin`; scalar dense blocks in the theorems about votes |
| `ModelLifecycle.v` | `initialize`/`cleanup` of all six clause blocks (`src/func_*.hpp`), `src/clause_block.hpp` 163-175, `src/gt_common.hpp` 14-45 | only pointer members, their kinds and order; allocation does not fail; std::vector members left out |
| `ModelNumpy.v` | `green_tsetlin/trainer.py` 148-150, 197-199, 407-416, `green_tsetlin/predictor.py` 91-107, `src/input_block.hpp` 83-132, 328-406, `src/inference.hpp` 85-94, 122-130, `src/gt_common.hpp` 14-45: array layout and int arithmetic | one byte per element; numpy's copy and fancy indexing as their documented results; reading outside the buffer and int overflow are `None` |
| `ModelSparseFile.v` | `green_tsetlin/sparse_tsetlin_machine.py` 58-92, 135-149, `green_tsetlin/ruleset.py` 43-103 on a state read from a file | an object array keeps arrays if their lengths differ and becomes lists (rows of an object matrix) if they are equal; pickling keeps contents |
| `ModelSparseImp.v` | `src/func_sparse.hpp` 128-861, `src/clause_block.hpp` 322-386, `src/sparse_tsetlin_state.hpp` 82-93, `green_tsetlin/sparse_tsetlin_machine.py` 144-149, every access to a vector or array | vectors are lists, loops run over indices; operator[] and raw arrays out of range are `Wild`, at() and python exceptions `Throw`; weights are one array |
| `ModelAvx2Imp.v` | `src/func_avx2.hpp` 20-614, `src/aligned_tsetlin_state.hpp` 84-140, `src/gt_common.hpp` 14-25, `src/input_block.hpp` 48-91, every access to an array | arrays are lists of the allocated size that start at multiples of 32; allocation succeeds; new memory holds arbitrary values; a size that does not fit in an int counts as undefined also where the code converts it from size_t; outputs_per_vector = 128 |
| `ModelSearch.v` | `green_tsetlin/hpsearch.py` 47-293 | Optuna is not modelled: its answers are arbitrary points of the asked ranges, best_trials is the set of told trials nothing dominates; floats exact; no progress bar, no storage, no study loaded from storage |
| `ModelInferImp.v` | `src/inference.hpp` 19-226, `src/main.cpp` 284-301, every access to a vector or array, all template flags | vectors are lists; out of range and int32 overflow are `Wild`, C++ exceptions `Throw`; sizes not negative except n_explanations; allocation succeeds |
| `ModelSparseLife.v` | `src/func_sparse.hpp` 22-122 on an object that was used before | vectors only; the arrays are new after every initialize |
| `ModelNeonImp.v` | src/func_neon.hpp on its arrays (all functors but cleanup); safe_aligned_alloc with an int size | state transfer is that of `ModelAvx2Imp.v`; 16-byte loads have no alignment condition, assume_aligned does; the adds to one literal_counts element are stored once |
| `ModelTrainerAvx2.v` | `green_tsetlin/trainer.py` 258-368 with the blocks of `backend.py` 57-64 on a CPU with AVX2; allocation, state transfer, one thread and the pool | single-label machines; example buffers padded with zeros; a NaN s gives the byte threshold of an infinite one |
| `ModelTrainerSparse.v` | `green_tsetlin/trainer.py` 258-368 with a native `SparseTsetlinMachine` (`sparse_tsetlin_machine.py` 91-212, `func_sparse.hpp`) on csr data, one thread and the pool | single-label; the only sparse machine class of the process; int32 csr index arrays; blocks left uninitialised stand for an exception |
| `ModelConvHeap.v` | `src/func_conv_tm.hpp` 15-232 on the heap, with initialize, cleanup and the calls of one block | active_patches_storage is a list; forming the address of a patch from an unwritten number is not undefined by itself in the lenient reading; one block, calls of set_output and votes in the order the executor makes them |
| `ModelConvAvx2Imp.v` | `src/func_conv_avx2.hpp` 11-331 on the flat arrays of `src/aligned_tsetlin_state.hpp` | active_patches_storage is a list; new memory has arbitrary contents; the literal pointer of an update is only an address until something is loaded through it; arrays start at 32-byte boundaries |
| `ModelEngine.v` | std::default_random_engine, std::uniform_int_distribution and std::generate_canonical as used in `src/feedback_block.hpp` 108, 252-256, 321-325, `src/func_tm.hpp` 39, 50-59 and `src/executor.hpp` 86 | library code, as in libstdc++ up to gcc 14 (part of the trusted base of C131-C133 only); quotients exact, not rounded to double |
| `ModelTrainerFeedback.v` | `green_tsetlin/trainer.py` 215-235, 258-368 with any `feedback_type` | scalar backend, single-label runs; the redraw loop has a bound on its draws and an arbitrary continuation behind it |
| `ModelTrainerNeon.v` | `green_tsetlin/trainer.py` 258-368 on the blocks of `green_tsetlin/backend.py` 66-70 | single-label runs with a literal budget; shares run, feed and state transfer with `ModelTrainerAvx2.v` |
| `ModelImdb.v` | `green_tsetlin/dataset_generator.py` 47-123 | keras and sklearn by their documentation; orders drawn from seeds and columns chosen by chi2 are arbitrary; download and logging left out |

## What is not modelled

* `std::mt19937_64` and `std::mt19937` (first states of the vector generators):
  arbitrary first states.  `std::default_random_engine` is an arbitrary stream
  everywhere but in C131-C134, which use `ModelEngine.v`.
* of `src/BS_thread_pool.hpp`: pause/unpause/reset, submit, push_loop, parallelize_loop,
  multi_future, blocks, synced_stream, timer (not used by the project); executions that are
  not sequentially consistent; tasks that throw.
* pybind11 conversions other than those stated, numpy/scipy/sklearn internals
  (StratifiedKFold enters as an arbitrary assignment of test folds), wall-clock logging,
  tqdm, the file system; C++ memory of the backends other than the scalar one (on a heap, C101-C104), the sparse one (index by index, C114), AVX2 (C116), NEON (C126) and the inference object (C120) beyond which arrays are allocated and released.
* binary64 rounding, apart from C18_floating_point; the cumulative sums inside
  `std::discrete_distribution` are exact.
* optuna; keras and sklearn as far as `imdb_dataset` uses them (orders drawn, chi2 scores).

## Trusted base

* Coq 8.16.1 kernel (and `vm_compute` for concrete examples and refuting witnesses).
* The hand transcription of the cited source lines into Gallina.
* Axioms: none.  `Print Assumptions` stands after every property theorem and prints
  "Closed under the global context" for each of them; the list is at the end of this
  file.  (`coqchk -o` on the whole library lists the seven fields of
  `Coq.ssr.ssrunder.Under_rel`, a module type argument inside the standard library that
  nothing here uses.)  No axioms, parameters, admitted proofs, functors or disabled checks are used.

## Per property

| id | model | proof method | status |
|---|---|---|---|
| C01 | ruleset compile, Inference::predict, EvalClauseOutputTM + CountVotesTM, block split, argmax | both sides refine "sum of weights of matching non-empty clauses"; list induction | proved |
| C02 | compile_from_dense_state (insertion-ordered map) | invariant over the clause fold | proved |
| C03 | Inference::predict | induction on votes; first-argmax spec | proved |
| C04 | calculate_importance | fold = sum over active rules | proved |
| C05 | Inference object as state machine | invariant over call sequences | proved |
| C06 | SimpleC text as a small C AST + interpreter | program semantics = vote sum | partial |
| C07 | TopographicalC tree builder (choice oracle) + code emitter AST + interpreter | induction on path/rule measure: each rule once | proved |
| C08 | set_num_clause_blocks | arithmetic | proved |
| C09 | construct_clause_blocks (zip of cycles) | induction | partial |
| C10 | get/set_clause_state, weights in flat padded memory; python per-block loop | induction over blocks/rows | proved |
| C11 | save/load with typed arrays | case analysis | proved |
| C12 | feedback + train update + histories | invariant | proved |
| C13 | feedback functions | pointwise induction | partial |
| C14 | ClauseUpdateTM, TrainUpdateTM | case analysis + induction | proved |
| C15 | SetClauseOutputTM counts + TrainUpdateTM | induction | proved |
| C16 | Set/EvalClauseOutputTM | induction | proved |
| C17 | AVX2 byte-lane semantics | lane-wise refinement to scalar | proved |
| C18 | feedback_block process (Q; later binary64) | field arithmetic | proved |
| C19 | process / uniform sampling | case analysis on oracle | partial |
| C20 | executor index set, train_slice | permutation invariant | proved |
| C21 | interleaving semantics of block tasks | commutation/diamond | proved |
| C22 | eval_predict | frame property | proved |
| C23 | Trainer epoch loop | invariant over epochs | proved |
| C24 | Trainer epoch loop | invariant over epochs | proved |
| C25 | Trainer epoch loop | invariant over epochs | proved |
| C26 | k-fold loop | partition lemma; C49 expected false (state carries over) | proved |
| C27 | n_jobs | arithmetic | partial |
| C28 | data validation | case analysis, frame | partial |
| C29 | constructor | case analysis | partial |
| C30 | input blocks | induction, history invariant | partial |
| C31 | sparse CSR get/set | roundtrip induction | proved |
| C32 | sparse learning | invariant | proved |
| C33 | sparse clause evaluation, ruleset, pruning | expected false in general; exact characterisation + conditions | partial |
| C34 | sparse clause evaluation, ruleset, pruning | expected false in general; exact characterisation + conditions | partial |
| C35 | convolutional clauses | induction; C43 expected false | proved |
| C36 | im2col flat indexing | index arithmetic; non-square expected false | proved |
| C37 | xor_dataset | induction | proved |
| C38 | hpsearch objective over the trainer model | witness + frame of the epoch loop | partial |
| C39 | set_literal_budget, construct_clause_blocks | case analysis; witnesses | partial |
| C40 | eval with blocks | vote sums split over blocks | proved |
| C41 | python fallback blocks and executor | refinement to the native block where true; witnesses | partial |
| C42 | sparse clause evaluation, ruleset, pruning | expected false in general; exact characterisation + conditions | partial |
| C43 | convolutional clauses | induction; C43 expected false | partial |
| C44 | set_num_clause_blocks | case analysis; witness | partial |
| C45 | seeds passed at construction, native initialise | arithmetic; witness | partial |
| C46 | Predictor.explain | case analysis; witnesses | partial |
| C47 | warm start | overwrite lemma | proved |
| C48 | weight histories | counting invariant | proved |
| C49 | k-fold loop | partition lemma; C49 expected false (state carries over) | partial |
| C50 | initialisation | induction over draws | proved |
| C51 | scalar Type Ia/Ib feedback, draw positions | induction with exact draw indices | proved |
| C52 | scalar dense histories | two-run invariant over histories | proved |
| C53 | executor + dense blocks | histories of single steps, permutation | proved |
| C54 | FeedbackBlock::process | case analysis | proved |
| C55 | configuration calls as programs | invariant over call sequences | proved |
| C56 | Trainer.train restores its data | frame over all exits | partial |
| C57 | Trainer results | invariant over epochs | partial |
| C58 | machine state -> rule set -> predictor / C text | composition of C01, C02, C06, C07 | proved |
| C59 | AVX2 update | lane-wise refinement, draws as bytes | proved |
| C60 | AVX2 probabilities | counting over the 256 byte values | proved |
| C61 | sparse update | induction over sorted literal lists | proved |
| C62 | convolutional update | refinement to the dense update on the chosen patch | proved |
| C63 | convolutional block under the executor | invariant over call sequences | proved |
| C64 | convolutional block with one patch | simulation with the dense block | proved |
| C65 | python training outputs | refinement to the native loop | proved |
| C66 | python update | simulation: native draws constructed from the python draws | proved |
| C67 | python executor | invariant over call sequences | proved |
| C68 | python FeedbackBlock.process | cumulative sum induction | proved |
| C69 | python predicted class | loop invariant | proved |
| C70 | Wyhash64::next_u, uint64 to double | modular arithmetic, Gauss lemma | proved |
| C71 | XorShift128plus4G::next | linear algebra over GF(2): matrix power computed in the kernel, linearity by bits | proved |
| C72 | Xoshiro128Plus | invariant over steps | proved |
| C73 | NEON block next to the scalar block | refinement, vectors of 16 lanes, remainder masks | proved |
| C74 | NEON evaluation loop with its carried flag | induction over the clauses | proved |
| C75 | executor over NEON blocks | induction over data and blocks; counterexample | partial |
| C76 | NEON feedback and executor histories | loop invariants per vector; invariant over calls | proved |
| C77 | NEON block with Xoshiro128Plus | relational invariant between lanes over calls | proved |
| C78 | NEON output pass with the null count array | case analysis; counterexample | partial |
| C79 | `ModelTrainerDense.v` (native side of the trainer with the thread pool) on top of ModelTrainer, ModelMachine, ModelDenseExec, ModelLayout, ModelRuleSet, ModelPredictor | invariant of the running backend through construction, epochs and evaluations; the copied state equals the blocks' rows; predictor agreement (C01) applied to the evaluation that produced the score | proved |
| C80 | `ModelTrainerDense.v`, call sequences as an inductive relation `used` | induction on the call sequence; every fold's data fit; state round trip through the flat arrays | proved |
| C81 | `ModelTrainerDense.v`: executor chosen by n_jobs, outcomes of the pool any that ModelExecutor.v allows | simulation of two backends through the epoch loop, folds included; congruence in n_jobs when sizes are set | proved |
| C82 | `ModelRegistry.v`: backend.py, exported names, _get_backend, Trainer up to the connected blocks, as a world of machines and trainers sharing one mutable dictionary | invariant (fixed part of the dictionary) over all programs; case analysis over builds at import | proved |
| C83 | `ModelRegistry.v`: backend.py, exported names, _get_backend, Trainer up to the connected blocks, as a world of machines and trainers sharing one mutable dictionary; cpuid as an arbitrary function | bit arithmetic; counterexample processor | partial |
| C84 | `ModelRegistry.v`: backend.py, exported names, _get_backend, Trainer up to the connected blocks, as a world of machines and trainers sharing one mutable dictionary | the dictionary never changes; missing keys by computation | partial |
| C85 | `ModelRegistry.v`: backend.py, exported names, _get_backend, Trainer up to the connected blocks, as a world of machines and trainers sharing one mutable dictionary | `seen` (registry entry equals the machine's class) is kept by every call except training another sparse machine; second invariant for the default flags; refutation by computation for all builds and flags | partial |
| C86 | `ModelRegistry.v`: backend.py, exported names, _get_backend, Trainer up to the connected blocks, as a world of machines and trainers sharing one mutable dictionary; pybind11's argument check | invariant over all programs, case analysis of the training call | proved |
| C87 | `ModelRegistry.v`: backend.py, exported names, _get_backend, Trainer up to the connected blocks, as a world of machines and trainers sharing one mutable dictionary | same invariant | partial |
| C88 | `ModelConvAvx2.v`: func_conv_avx2.hpp on the vectors of `ModelAvx2.v`; an aligned load from an unaligned address is None | patch by patch from the dense agreement (C17), fold over the patches, induction over the clauses; for other sizes the second patch is misaligned | partial |
| C89 | `ModelConvAvx2.v`: func_conv_avx2.hpp on the vectors of `ModelAvx2.v`; an aligned load from an unaligned address is None | induction over the clause loop, exact lanes of the feedback kernels (C59) | proved |
| C90 | `ModelConvAvx2.v`: func_conv_avx2.hpp on the vectors of `ModelAvx2.v`; an aligned load from an unaligned address is None; `ModelExecutor.v` | two-phase invariant over all calls (`ProofsSim.v`), simulation by the scalar executor for predictions | proved |
| C91 | `ModelConvAvx2.v`: func_conv_avx2.hpp on the vectors of `ModelAvx2.v`; an aligned load from an unaligned address is None; `ModelExecutor.v` | simulation relation over all calls (`ProofsSim.v`) | proved |
| C92 | `ModelPool.v`: BS_thread_pool.hpp as a transition system, one step per shared access | inductive invariant over all steps; refinement of a fork/join machine | proved |
| C93 | `ModelPool.v`: BS_thread_pool.hpp as a transition system, one step per shared access; `ModelPoolExec.v`: the executor's calls and tasks on it | invariant (a stuck state has nothing left), weight of a state that every step decreases | proved |
| C94 | `ModelPool.v`: BS_thread_pool.hpp as a transition system, one step per shared access; `ModelPoolExec.v`: the executor's calls and tasks on it | the fork/join machine's runs are cut at the waits; each piece is a phase of the abstract executor (C21) | proved |
| C95 | `ModelPool.v`: BS_thread_pool.hpp as a transition system, one step per shared access; `ModelPoolExec.v`: the executor's calls and tasks on it | explicit execution ending in a closed set of states; invariant of the stopping client | partial |
| C96 | `ModelPySparse.v`: TsetlinStateSparse function by function | membership of the included literals; the loops by induction; trained counterexamples | partial |
| C97 | `ModelPySparse.v`: TsetlinStateSparse function by function, the executor over such blocks | invariant of each feedback, of train_update, of the executor's loops; a cycle of two updates that raises an automaton by two | partial |
| C98 | `ModelPySparse.v`: TsetlinStateSparse function by function | invariant of the loop: kept prefix ++ rest | proved |
| C99 | `ModelPySparse.v`: TsetlinStateSparse function by function | induction over the literals of the example counting draws | proved |
| C100 | `ModelPySparse.v`: TsetlinStateSparse function by function | erasing the budget commutes with every step | partial |
| C101 | `ModelHeap.v`, `ModelTMHeap.v`, `ModelHeapRun.v`: the scalar machine, its input block and the single-threaded executor over a heap of numbered allocations; undefined behaviour is None | refinement: the relation is_block (arrays hold the list model's values) is kept by every loop, kernel, executor step; frame condition `only` | proved |
| C102 | `ModelHeap.v`, `ModelTMHeap.v`, `ModelHeapRun.v`: the scalar machine, its input block and the single-threaded executor over a heap of numbered allocations; undefined behaviour is None | kinds of live allocations as an invariant; counting; induction over blocks and cycles; concrete refutation of full release | partial |
| C103 | `ModelHeap.v`, `ModelTMHeap.v`, `ModelHeapRun.v`: the scalar machine, its input block and the single-threaded executor over a heap of numbered allocations; undefined behaviour is None | evaluation of the first undefined step for arbitrary arguments | proved |
| C104 | `ModelMulti.v`: the executor over FeedbackBlockMultiLabel reading labels from memory, the Executor checks, the multi-label branch of _train_inner | induction over blocks and examples: votes split into an ON half (sums) and an OFF half (zeros) | partial |
| C105 | `ModelMulti.v`: the executor over FeedbackBlockMultiLabel reading labels from memory, the Executor checks, the multi-label branch of _train_inner | the last example is in every shuffled epoch (permutation); bounds of the label reads; a draw among one class | partial |
| C106 | `ModelMulti.v`: the executor over FeedbackBlockMultiLabel reading labels from memory, the Executor checks, the multi-label branch of _train_inner | case analysis on the width | partial |
| C107 | `ModelLifecycle.v`: pointer members, live allocations with their kind, initialize and cleanup of every backend as lists of allocations and releases | invariant: a non-null member points to its own live allocation of the right kind; induction over calls and lists; counting | partial |
| C108 | `ModelLifecycle.v`: pointer members, live allocations with their kind, initialize and cleanup of every backend as lists of allocations and releases | modular arithmetic | partial |
| C109 | `ModelNumpy.v`: strided numpy arrays, the trainer's copies, folds, and the input block's reads through the data pointer | index arithmetic on offsets; a buffer of its own positions separates the layouts | partial |
| C110 | `ModelNumpy.v`: checked int product of prepare_example | bounds of products | partial |
| C111 | `ModelNumpy.v`: the predictor's array check and the core's reads | case analysis on contiguity and size | partial |
| C112 | `ModelNumpy.v`: im2col's int computations, checked | bounds of products over all offsets | partial |
| C113 | `ModelSparseFile.v`: arrays and lists held by a sparse state, np.array of equal and of different lengths through the file | induction over blocks; contents versus kind of holder | partial |
| C114 | `ModelSparseImp.v`: the sparse functions access by access, out-of-range operator[] and at() as separate outcomes | refinement to `ModelSparse.v` loop by loop under a shape invariant, preserved by every call | proved |
| C115 | `ModelSparseImp.v`: the transfer of a state into any blocks | refinement for equal sizes; for others, a pigeonhole on the sizes gives a block with too few vectors, and no call on it returns | partial |
| C116 | `ModelAvx2Imp.v`: the AVX2 kernels, the state transfer and the example buffer on flat arrays; out of range, unaligned and int overflow are `Wild` | refinement to `ModelAvx2.v` chunk by chunk and clause by clause with the array split around the row; induction over calls under a size invariant | proved |
| C117 | `ModelSearch.v`: the spaces, `choose_s`, `choose_int`, `trial_setup`, `trial_value`; Optuna's answers are arbitrary | case analysis; arithmetic of grid points in Z and Q | partial |
| C118 | `ModelSearch.v`: `optimize` over any `ask`, on the trainer of `ModelTrainer.v` with the threaded dense backend | a fresh machine starts (C45), every epoch of accuracy_score succeeds, the pool equals one thread (C81); induction over trials; a maximal element of the dominance order exists | partial |
| C119 | `ModelSearch.v`: `n_unique` | counting: a list without repetitions whose elements are 0..k-1 has length k, and conversely by pigeonhole | partial |
| C120 | `ModelInferImp.v`: class Inference access by access, histories of its bound methods | each loop equals the functional model of `ModelInference.v` by induction with the part already done as prefix; shape of the object as invariant over histories; sums of absolute weights bound every partial sum | partial |
| C121 | `ModelInferImp.v`: `io_explain`, `io_set_features` | induction over active clauses; repetition-free lists add once per entry; active clauses are the filtered rule numbers | partial |
| C122 | `ModelPredictor.v` on the rule set of a state with 2n classes (`ModelRuleSet.v`) | the votes of C02 and C03; counterexample evaluated | partial |
| C123 | `ModelSparseLife.v`: the vectors of a block object through cleanup and initialize | unfolding; resize of an empty vector and of one of the right size; counterexample evaluated | partial |
| C124 | `ModelTrainerDense.v`, `ModelMachine.v` | the lists of C09 and of the allocation loop, entry by entry | proved |
| C125 | `ModelTrainerDense.v`, `ModelTrainer.v` | decoded rows are the rows written out; then simulation over the epochs; the pool by C81; counterexample evaluated | partial |
| C126 | `ModelNeonImp.v` | each access is shown in range while the arrays refine the functional model (`ModelNeon.v`); induction over clauses, chunks and calls | partial |
| C127 | `ModelTrainerAvx2.v` | the proof of C79-C81 made generic over the backend (`ProofsTrainerGen.v`: a run invariant, a simulation between two backends), instantiated with an invariant of the padded blocks; scores through C17's equality with the scalar view; what each block is given (seed, s, budget, sizes) by following the construction | proved |
| C128 | `ModelTrainerSparse.v` | invariant over epochs and evaluations (legal blocks of the machine's block sizes), state transfer by the C31 round trips, scores through C34, the pool by simulation with one thread; the failing second run by computation; what each block is given and which sizes are refused by following the construction | partial |
| C129 | `ModelConvHeap.v`: the convolutional kernels over the heap of `ModelHeap.v`; reading an unwritten element is undefined (strict) or gives an arbitrary value | refinement relation is_conv kept by every loop and kernel, frame condition; independence of the arbitrary values by a second simulation; refutations by computation | partial |
| C130 | `ModelConvAvx2Imp.v`: the vector kernels of the convolutional block on flat arrays, every load and store checked for range and alignment | loop-by-loop refinement of `ModelConvAvx2.v` (undefined on both sides together); aligned patches never reach the undefined case; two runs that differ in new memory by simulation; refutations by computation and from C88 | partial |
| C131 | `ModelEngine.v`: std::minstd_rand0, uniform_int_distribution by rejection, generate_canonical, the redraw loop | 16807 has order 2^31-2 modulo 2^31-1 (factorisation, gcd of exponents), so every state is reached from every state; each class owns a state; canonical draws are positive because no two consecutive values are both minimal | proved |
| C132 | `ModelEngine.v` in place of the oracles of `ModelTrainerDense.v` | C124 gives the seeds; the first draw of two values and the second value of a canonical draw are the same engine value; the engine is linear | partial |
| C133 | `ModelExecutor.v` shuffle, `ModelEngine.v` states | the orders are listed without repetition, n! of them; pigeonhole; the draws for a given order by induction from the last swap | partial |
| C134 | `ModelTrainerFeedback.v`: choice of the feedback block, the run of `ModelTrainerDense.v` with it | the invariants of `ProofsTrainerGen.v` with another process; two feedbacks that agree on blocks drawing from the engine give the same run (simulation), C131 for the end of the loop | proved |
| C135 | `ModelTrainerNeon.v` | as C127: the generic course of a run (`ProofsTrainerGen.v`) with an invariant of the NEON blocks; scores through C75's equality with the scalar view where empty clauses come first; the refutation is a computed run | partial |
| C136 | `ModelImdb.v` | word_to_id and its inverse give a word back for ids that clash with no marker; n-grams are the runs of the text; the vocabulary is sorted and holds exactly the n-grams; both draws compose to one index per row, used for review and label | partial |
| C137 | `ModelFeedback.v`, `ModelExecutor.v`, the blocks | on decided votes the update probabilities are 0 and 1e-16, no draw is below them, so the update loop returns rows and weights as they were; induction over examples and epochs with the votes as invariant | partial |
| C138 | `ModelDense.v` | two draws single out one clause; Type Ib and Type II feedback first empty it, Type Ia and II steps move each weight by one in either direction, then 128 Type Ia steps on one satisfying example memorise the conjunction; induction over weights and clauses; one clause per input for functions | proved |
| C139 | `ModelAvx2.v`, `ModelDense.v` | random vectors are built lane by lane so that the AVX2 update gives the wanted row, and glued over the clauses and steps; C138 needs no draws but zeros for conjunctions over all inputs, and a boosted scalar step with such draws can be followed | proved |
| C140 | `ModelNeon.v` | three kinds of step (lower a whole clause, raise the true literals, move one weight) made with constant random vectors; a separate game over these steps (`ProofsLearnableGame.v`) reaches one conjunction per input; evaluation through the exact NEON evaluation theorem | proved |
| C141 | `ModelDense.v`, `ModelDenseExec.v` | structural induction over the inputs for outputs, Type Ia, Ib and II feedback; every round of Type I feedback uses two draws per input, so the generators of both blocks stay a whole number of rounds from the start, and the exchange of the draws lines up; induction over clauses and examples | partial |
| C142 | `ModelDense.v`, `ModelFeedback.v`, `ModelExecutor.v`, `ModelDenseExec.v` | the update reads and writes one weight per class, so renamed weights stay renamed (induction over clauses, blocks and examples); the draw of the renamed feedback block is the middle of the share of the renamed class; shares are equal because the sum of the weights is that of a permutation | partial |
| C143 | `ModelAvx2.v`, `ModelNeon.v`, `ModelFeedback.v`, `ModelExecutor.v` | the argument of C142 for any kind of block whose update keeps renamed weights renamed (`ProofsRenameGen.v`), applied to the AVX2 and NEON updates | partial |
| C144 | `ModelSparse.v`, `ModelConv.v`, `ModelFeedback.v`, `ModelExecutor.v` | the argument of `ProofsRenameGen.v` (C143) applied to the sparse update, which also reads and writes the active literals of one class, and to the convolutional update, which is the dense one on the patch of each clause | partial |
| C145 | `ModelFeedback.v` (fbu_process), `ModelTrainerFeedback.v` (fb_step), `ModelExecutor.v` and the five block models | the draws of the two feedback blocks are related one by one, so that both loops stop at the same draw; the rest is the argument of `ProofsRenameGen.v` with this relation in place of the constructed draws | proved |

Every property is expressible in the model; what is missing from the partial ones is in the notes of MANIFEST.json and below.

## Findings: where the code does not do what the property says

Each line names the theorem that shows it.

Machine configuration and files
* `set_literal_budget(list)` is ignored; a rejected integer budget stays stored and is used (C39_list_*_refuted, C39_rejected_kept_refuted).
* a failed `set_num_clause_blocks` can leave invalid sizes behind (C44_retry_refuted).
* seed 0, the Trainer's default, makes the native blocks refuse to start (C45_seed_zero_refuted).
* NaN for `s` is accepted (C29_nan_refuted); `s=[]` gives no blocks (C09_empty_s_refuted).
* `set_trainable_flags` raises after storing its flags, which later mis-sizes the blocks (C55_flags_refuted).
* loading a state with a wrong dtype is refused with TypeError from the broken message (C11).
* explaining with target names or for features raises (C46_names_refuted, C46_features_refuted).

Learning
* boosting does nothing for negated literals in the scalar block (C13_boost_negated_refuted).
* a draw of exactly 0 makes the label its own negative class (C19_zero_draw_refuted; harmless: C54).
* the uniform feedback block loops forever with one class (C19_one_class_refuted).
* int16 weights wrap (C48_wrap_refuted); merged rule weights can exceed the inference type (C01_merge_overflow_refuted).
* the AVX2 block's real probabilities are 254/256 at s=1 and 2/256 for large s (C60_exact_refuted).

Training
* `hpsearch` reports the last score, not the best (C38_best_refuted).
* folds share the machine state, so later folds were trained on their test rows (C49_folds_share_state_refuted).
* `n_epochs < 1` returns the previous run's results (C57_no_epochs_refuted); a stale or missing best state is installed if no score exceeds -1 (C25_no_score).
* a failing k-fold run leaves the fold's data in the trainer (C56_folds_refuted).
* `n_jobs` below `-cpus` is neither clamped nor refused (C27_not_clamped_refuted).
* matrices that are neither arrays nor csr pass the data checks (C28_other_kinds_refuted).

Input and export
* explicitly stored zeros of a CSR matrix count as ones (C30_stored_zero_refuted).
* `tsetlin_im2col` swaps width and height for non-square images (C36_non_square_refuted).
* an empty rule is exported as `if(){` (C06_empty_rule_refuted).

Sparse machine
* a clause whose last positive literal is excluded, or with one side empty, is evaluated wrongly (C33_*_refuted, C34_*_refuted).
* pruning skips the neighbour of a removed automaton (C42_neighbours_refuted).
* states with active literal lists of different lengths cannot be written back; `SparseState.copy` drops `n_literals` (C31_ragged_refuted, C31_copy_refuted).

Convolutional machine
* the literal count of a patch is read at the position in the list of matching patches instead of at the patch number (C43_over_budget_refuted, C62_within_budget_refuted).

Python fallback
* `register_votes` overwrites, so with several blocks only the last one is heard (C41_votes_refuted).
* evaluation tests `state > 0`, training and the native code `>= 0` (C41_outputs_refuted).
* weights are int8 and wrap at 127 (C66_weight_limit_refuted).
* with very negative votes the predicted class is always 0 (C69_native_refuted).

Random generators
* the AVX2 generator ignores half of its state and repeats after 51166430 vectors for every seed; different seeds can give the same stream (C71_repeats, C71_part1_unused, C71_seeds_collide).
* both halves of every NEON random vector are equal (C72_equal_halves).
* a draw of exactly 0 occurs for every seed, and rounding can give a draw of exactly 1 (C70_zero_once, C70_rounds_to_one).

NEON backend
* without a literal budget the first training example writes through a null pointer (C78_no_budget_refuted).
* the flag detecting empty clauses is never reset in evaluation, so empty clauses after a non-empty one vote (C74_eval_exact, C75_same_predictions_refuted).
* literals eight apart share all draws, so equal columns eight apart can never be told apart (C77_twins).
* `CleanupAlignedNeon` does not free the clause outputs (C107).
* The score a NEON training run reports, and by which it chooses the best epoch, can differ from the score of the predictor exported from the state it keeps (C135_best_state_scores_refuted).

Backend registry
* `has_avx2()` reads a letter of the vendor's name instead of the AVX2 bit and is true on every Intel and AMD processor in an AVX2 build (C83_vendor_refuted).
* without the compiled core nothing can be trained and no predictor can be used: KeyError (C84_training_refuted, C84_predicting_refuted).
* constructing a sparse machine's blocks overwrites the shared entry that other sparse machines are compared with; of two default sparse machines only one can be trained (C85_two_machines_refuted).
* `impl["conv_cb"]` is a tuple because of a trailing comma unless AVX2 is present (C87_trains_refuted); `ConvolutionalTsetlinMachine` passes `multi_label` as `boost_true_positives` (C87_multi_label_refuted); with AVX2 the blocks refuse to initialise because nothing sets the number of patches (C87_error_refuted).

AVX2 convolution (`func_conv_avx2.hpp`)
* patch k starts at byte k * num_literals of the buffer and is read with aligned loads; with several patches whose size is not a multiple of 32 every training example is undefined (C88_train_ragged_refuted), evaluation unless every clause fires on the first patch (C88_eval_ragged_refuted). The repository's test of this class uses one patch.
* the literal count used for the budget is that of the position in the list of matching patches, as in the scalar block (C43).

Thread pool (`BS_thread_pool.hpp`, as used by `executor.hpp`)
* `destroy_threads` clears `running` and notifies without holding `tasks_mutex`: a worker between its test of the predicate and its blocking misses the wake-up and `join()` never returns (C95_destructor_returns_refuted). The constructor of the executor builds the pool before its checks, so a throwing check runs the same code.
* `push_task` increments `tasks_total` after unlocking: a worker may take, run and count off the task before, so that the counter wraps around below zero for a moment; harmless (C92_barrier, example C92_case).

Python sparse state (`py_gtc/tsetlin_state.py`, `TsetlinStateSparse`)
* line 294 looks at list `clause_k + n_classes` where `clause_k + n_clauses` is meant: clauses fire in training against their negated literals (C96_training_refuted); with more classes than clauses it raises IndexError (C96_more_classes_training).
* `eval_clause_output` runs over `range(n_classes)`: clauses from number n_classes on fire on every example (C96_evaluation, C96_evaluation_refuted).
* automata have no upper bound, `upper_state` and `lower_state` are unused (C97_bound_refuted).
* `literal_counts` is never written, the literal budget has no effect (C100).
* `get_clause_state` returns its argument unchanged: a trained state is lost on export.

Memory of the scalar machine
* `CleanupTM` frees clauses, votes, weights and literal counts but not `clause_outputs`: every initialize/cleanup leaks one array per block (C102_release_refuted, C102_leak_grows).
* sizes are not checked: `num_clauses * num_literals * 2` or `num_clauses * num_classes` above 2^31-1, or example offsets above it, are undefined (C103_clause_array, C103_weight_array, C103_example_offset).
* labels are not checked: a label not below the number of classes writes outside `m_update_probability` (C103_label).
* seed 0: `initialize` returns false, `allocate_clause_blocks` ignores it; with a loaded state `_save_state_in_backend` then copies through a null pointer (C103_seed_zero).

Multi-label machines
* `register_votes` adds the first n of 2n votes: the OFF votes are always 0, OFF classes are always updated with probability 1/2, the training accuracy compares ON votes with 0 (C104_refuted, C104_votes_partial, C104_probability_partial).
* `eval_predict_multi` calls `exit(1)`: a multi-label `train()` ends the Python process after the first epoch (C105_returns_refuted, C105_matrix).
* label vectors are accepted by a multi-label machine and read out of bounds (C105_flat_refuted, C106_vector_refuted); with one label training never ends (C105_one_label_refuted).

Allocation in the other backends
* no backend frees `clause_outputs` (C107_cycles_refuted); an exception inside `allocate_clause_blocks` leaves every array (C107_no_cleanup).
* `InitializeAVX2` passes sizes that are not multiples of 32 to `aligned_alloc` unless the number of classes is a multiple of 16; glibc accepts that, other libraries return null, which is not checked (C108_unpadded_refuted).

Arrays from python
* `copy_training_data=False` with an array that is not C-contiguous trains on other bits or reads past its end (C109_refuted, C109_reversed_refuted).
* example positions and im2col sizes are int products and overflow on large data (C110_refuted, C112_refuted).
* the predictor does not check the size of contiguous examples (C111_short_refuted, C111_size_refuted).
* a sparse state read from a file cannot be compiled or trained on if all blocks have the same number of clauses (C113_refuted, C113_one_block_refuted).

Sparse blocks in memory
* a sparse state stored in a machine with other block sizes (another `n_jobs`) raises IndexError, or is accepted and then read past the end of the vectors (C115_more_blocks, C115_silent).
* `active_literals_size = 0` throws out of the worker on the first update with `dynamic_AL` (C114_no_active_refuted).

AVX2 block in memory
* array sizes and offsets are `int`: 33554432 clauses of up to 32 literals overflow in initialize, and prepare_example overflows once index * n_literals passes 2^31 - 1 (C116_sizes, C116_index_refuted).
* a block without literals reads 32 bytes before its arrays on the first example (C116_no_literals_refuted).

Hyper-parameter search
* one trial that raises ends the search and best_trials is never set; a clause range that goes below n_jobs is enough (C118_refuted, C118_aborts).
* a fixed s given as an int raises TypeError in every trial; a pair for s steps by 0.1 although the docstring says integers (C117_fixed_int_s_refuted, C117_pair_s_refuted).
* n_classes is the number of different training labels, too small for labels with gaps (C119_refuted).
* `_check_data` raises AttributeError, not the intended ValueError, when no data was set (C117_no_data_refuted); the docstring example omits the required search_or_use_boost_true_positives and passes `trials=`, which optimize does not take; literal_budget=None cannot be used.

Native inference object
* a class number outside the classes passed to calculate_importance is not checked and reads past the weights; Predictor passes it through (C120_target_refuted); so does an example that is too short (C120_short_example_refuted).
* set_rules leaves the active clauses of the previous prediction: explaining before the next prediction uses clause numbers of the old rules (C120_stale_clauses_refuted).
* set_features compares with the number of features but the lists are indexed by rule (C121_per_rule_refused, C121_more_rules_refuted); features not set are read all the same (C121_unset_refuted).
* Predictor leaves n_features at -1, so explanations "features" and "both" always throw (C121_predictor_refuted).

Multi-label predictor, sparse blocks used again
* the predictor of a multi-label machine answers with one of the 2n ON and OFF classes; is_multi_label is never read (C122_refuted, C122_names_refuted).
* CleanupSparseTM does not clear active_literals: a block that is cleaned up and initialised again trains with the active literals of its former life (C123_refuted); initialised twice without cleanup it even keeps its clauses (C123_twice).

csr data
* k_folds > 1 with csr data raises ValueError: np.vstack does not stack csr matrices (C125_refuted).

NEON memory
* InitializeAlignedNeon keeps the byte size of the weights and votes in an int: from 2^30 weights on it is negative, 32 bytes are allocated and the initialisation writes behind them (C126_weights_refuted).  The AVX2 version computes it in size_t.
* SetClauseOutputNeon writes literal_counts[k] = 0 without the test for the literal budget; without a budget there is no such array (C126_budget_refuted).

Sparse machine, training runs
* a sparse machine can in general be trained only once: `_save_state_in_backend` makes a numpy array of the active-literal lists, which differ in length unless every class of a block collected equally many, so a second `train()` on the same trainer raises TypeError (C128_resume_refuted; exactly then: C128_resume_exact).

Convolutional memory
* SetClauseOutputConvTM reads literal_counts_per_patch at the index into active_patches_storage instead of the patch number: as long as the patches before have not matched that element has never been written, and the trained clauses and weights depend on what was in new memory (C129_trace_refuted).
* the first update of a clause that never matched reads active_patches and literal_counts before anything was written to them (C129_unwritten_refuted); the values are not used for anything the caller sees (C129_no_trace_partial).
* initialize without a number of patches answers false and leaves its arrays allocated (C129_no_patches).

AVX2 convolutional memory
* with several patches whose number of literals is not a multiple of 32 the first training example is loaded with aligned loads from odd addresses, whatever the clauses are (C130_ragged_refuted).
* as in the scalar block, literal_counts_per_patch is read at the storage index: the trained clauses and weights depend on what was in new memory (C130_trace_refuted).

Engine of the standard library (C131-C133)
* the feedback block, the shuffle and the first clause block are seeded with the same number, so the class draws repeat the initial automata (C132_one_seed_refuted, C132_follows_init_refuted).
* the blocks are seeded with neighbouring numbers, which this engine keeps at a fixed distance (C132_neighbours_refuted); with any seed up to 63886 the first automaton starts at -1 (C132_first_automaton_refuted).
* from 13 examples on some orders are never used (C133_orders_refuted).
* `imdb_dataset(SKB=False)` always raises UnboundLocalError: x_train and x_test are assigned only under `if SKB` (C136_unselected_refuted).
* `imdb_dataset(imdb_index_from=1)` reads the most frequent word of the index as the unknown marker (C136_index_from_refuted).
* 1e-16 is added to the update probability of the other class (feedback_block.hpp): a machine with every class at its threshold is still changed by a draw of 0, which Wyhash64 returns (C137_settled_refuted).
* With boosting, the AVX2 block always raises the automaton of a true negated literal (func_avx2.hpp 515-518); the scalar block raises it with probability (s-1)/s only (func_tm.hpp, NEG 2), so a boosted scalar step may be out of the AVX2 block's reach (C139_boost_refuted).
* Boosting treats an input and its negation differently in the scalar block (func_tm.hpp, POS 2 and NEG 2): writing an input as its negation changes what a boosted machine can learn in a step (C141_boost_refuted).
* Ties are decided by the numbers of the classes: the first class with the largest sum is predicted (feedback_block.hpp 125-141), so renaming the classes changes predictions (C142_tie_refuted), and a draw of exactly zero chooses class 0 as negative class even if it is the label (C142_zero_draw_refuted).

Read in the source, outside the model
* `SparseTsetlinMachine` inherits `get_ruleset`, which compiles the sparse state as a dense one and raises AttributeError.
* `allocate_clause_blocks` has no `finally`: an exception during training leaves the native memory allocated.
* cleanup of the sparse block does not clear its active literals.
* `set_empty_class_output` is never called by the predictor; `Predictor` passes no default class to the core.
* `load_state` checks neither the shape nor the memory order of the arrays.
* labels are not compared with the number of classes; `hpsearch` takes the number of distinct labels as the number of classes.
* python fallback: `MultiThreadExecutor.train_slice` is empty, `train_slice` with a start other than 0 uses an unbound variable, `ClauseBlock` has no `set_clause_state`.

## Print Assumptions

Closed under the global context (no axioms), all 604 theorems of the manifest:

* C01_predictor_agrees_with_machine, C01_predictor_agrees_totals, C01_merge_overflow_refuted
* C02_ruleset_shape, C02_votes_mod, C02_votes_exact
* C03_predict_first_argmax
* C04_literal_explanations, C04_unknown_name, C04_compiled_rules_distinct
* C05_predict_history, C05_explain_history
* C06_simple_c_partial, C06_empty_rule_refuted, C06_refused
* C07_topographical_c, C07_construction_terminates
* C08_block_count, C08_block_list
* C09_round_robin_partial, C09_dealt_budget, C09_empty_s_refuted
* C10_state_roundtrip, C10_blocks_roundtrip, C10_blocks_hold_state, C10_read_frame, C10_write_frame, C100_budget_ignored_partial, C100_initialized, C100_budget_refuted, C101_initialize, C101_train_outputs, C101_eval_outputs, C101_votes, C101_update, C101_train, C101_eval, C101_get_state, C101_set_state, C101_get_weights, C101_set_weights, C101_new_input, C102_session, C102_cycle, C102_leak_grows, C102_release_refuted, C102_cleanup_twice, C102_running, C103_clause_array, C103_weight_array, C103_example_offset, C103_label, C103_seed_zero, C104_reachable, C104_votes_partial, C104_probability_partial, C104_accuracy_partial, C104_blind_refuted, C104_refuted, C105_returns_refuted, C105_matrix, C105_flat_refuted, C105_one_label_refuted, C106_accepts, C106_single_label, C106_multi_label, C106_vector_refuted, C107_defined, C107_balance_partial, C107_cycles_refuted, C107_outputs, C107_no_cleanup, C107_is_init, C108_safe, C108_padded, C108_unpadded_partial, C108_unpadded_refuted, C109_copied, C109_folds, C109_uncopied_partial, C109_uncopied_only_partial, C109_refuted, C109_reversed_refuted, C109_input_block
* C11_round_trip, C11_acceptance, C11_suffix, C11_load_state, C110_exact_partial, C110_overflow, C110_refuted, C111_example, C111_refused, C111_short_refuted, C111_size_refuted, C112_exact_partial, C112_windows_partial, C112_refuted, C113_in_memory, C113_contents, C113_refuted, C113_one_block_refuted, C113_predictor_partial, C113_training_partial, C113_training_refuted, C114_train, C114_eval, C114_update, C114_history, C114_set_state, C114_class_refuted, C114_no_active_refuted, C114_short_active_refuted, C115_same, C115_more_blocks, C115_silent, C115_exact, C116_initialize, C116_sizes, C116_history, C116_call, C116_read, C116_buffer, C116_no_literals_refuted, C116_index_refuted, C116_class_refuted, C117_spaces_partial, C117_reaches, C117_fixed_int_s_refuted, C117_no_data_refuted, C117_pair_s_refuted, C118_best, C118_completes_partial, C118_refuted, C118_aborts, C119_classes_partial, C119_refuted
* C12_avx_states_in_range, C12_avx_initial, C12_avx_no_jump, C12_states_in_range, C12_no_jump, C120_constructed, C120_memory_partial, C120_predict_partial, C120_compiled, C120_target_refuted, C120_short_example_refuted, C120_no_class_refuted, C120_stale_clauses_refuted, C120_too_many_literals_refuted, C121_importance_partial, C121_literals, C121_per_rule_refused, C121_more_rules_refuted, C121_unset_refuted, C121_predictor_refuted, C122_votes_partial, C122_refuted, C122_names_refuted, C123_new, C123_again_partial, C123_again, C123_twice, C123_refuted, C124_parameters, C125_csr_run_partial, C125_refuted, C126_initialize, C126_sizes, C126_history, C126_call, C126_read, C126_buffer, C126_budget_refuted, C126_no_literals_refuted, C126_weights_refuted, C126_class_refuted, C127_best_state_scores, C127_last_state_scores, C127_accuracy, C127_last_fold, C127_usable, C127_resume, C127_schedule_independent, C127_n_jobs_independent, C127_parameters, C128_parameters, C128_constructor, C128_construct, C128_best_state_scores_partial, C128_last_state_scores_partial, C128_usable, C128_resume, C128_resume_exact, C128_folds, C128_schedule_independent, C128_n_jobs_independent, C128_resume_refuted, C129_life, C129_calls_partial, C129_no_trace_partial, C129_no_patches, C129_trace_refuted, C129_unwritten_refuted
* C13_type1a_direction, C13_type1b_direction, C13_type2_direction, C13_boost_negated_refuted, C130_initialize, C130_history_partial, C130_call_partial, C130_safe_partial, C130_ragged_refuted, C130_no_trace_partial, C130_trace_refuted, C131_period, C131_negative_class, C131_uniform, C131_multi_label, C131_first_other, C131_share, C131_one_class, C132_follows_init_refuted, C132_one_seed_refuted, C132_neighbours_refuted, C132_first_automaton_refuted, C132_apart_partial, C132_collision_refuted, C133_orders_refuted, C133_any_shuffle_refuted, C133_draws_partial, C134_best_state_scores, C134_last_state_scores, C134_last_fold, C134_usable, C134_n_jobs_independent, C134_uniform_ends, C134_negative_differs, C134_refused, C135_best_state_scores_partial, C135_last_state_scores_partial, C135_last_fold_partial, C135_usable, C135_resume, C135_schedule_independent, C135_n_jobs_independent, C135_parameters, C135_best_state_scores_refuted, C136_features_partial, C136_completes_partial, C136_unselected_refuted, C136_unselected_error, C136_index_from_refuted, C137_settled_partial, C137_avx2_partial, C137_neon_partial, C137_sparse_partial, C137_conv_partial, C137_threads_partial, C137_uniform_step, C137_undecided_moves, C137_settled_refuted, C138_conjunction, C138_machine, C138_function, C138_window, C138_closed, C139_simulates_unboosted, C139_function, C139_boost_refuted
* C14_weight_updates, C140_function, C140_initialised, C140_relearn, C141_eval, C141_training_partial, C141_step_partial, C141_draws, C141_exists, C141_boost_refuted, C142_training, C142_chance, C142_predict_partial, C142_tie_refuted, C142_zero_draw_refuted, C142_exists, C143_avx2, C143_neon, C143_predict_avx2_partial, C143_predict_neon_partial, C143_exists, C143_tie_refuted, C144_sparse, C144_conv, C144_predict_sparse_partial, C144_predict_conv_partial, C144_sparse_exists, C144_conv_exists, C144_tie_refuted, C145_dense, C145_avx2, C145_neon, C145_sparse, C145_conv, C145_loop, C145_chance, C145_draws_exist
* C15_avx_over_budget, C15_over_budget_not_reinforced, C15_sparse_over_budget
* C16_train_output, C16_eval_output, C16_matches_means, C16_fires_means
* C17_train, C17_eval, C17_eval_data, C17_step_weights, C17_type2, C17_predictor_agrees
* C18_true_class, C18_true_class_decreasing, C18_negative_mirror, C18_floating_point
* C19_negative_class_partial, C19_zero_draw_refuted, C19_every_class_reachable, C19_uniform, C19_uniform_stops, C19_one_class_refuted, C19_multi_label
* C20_epoch_is_permutation, C20_epoch_runs_order, C20_epoch_accuracy, C20_accuracy_in_unit_interval
* C21_train_schedule_independent, C21_eval_schedule_independent, C21_steps_reduce_work, C21_schedules_complete, C21_train_run_exists, C21_any_block, C21_process_ok
* C22_eval_pure, C22_evals_do_not_matter, C22_eval_pointwise, C22_length_mismatch
* C23_logs_and_best, C23_best_of_log
* C24_early_exit
* C25_best_state, C25_last_state, C25_no_score
* C26_folds
* C27_n_jobs_partial, C27_not_clamped_refuted
* C28_acceptance_partial, C28_effect, C28_other_kinds_refuted, C28_mixture_does_not_train
* C29_constructor_partial, C29_scalar_s, C29_nan_refuted
* C30_csr_row, C30_csr_equals_dense, C30_training_equal, C30_input_block_refines, C30_sparse_block_row, C30_stored_zero_refuted
* C31_get_after_set, C31_set_after_get, C31_save_after_load, C31_load_after_save, C31_ragged_refuted, C31_copy_refuted
* C32_history, C32_initial, C32_history_weights
* C33_exact, C33_holds_fires, C33_fires_partial, C33_last_excluded_refuted, C33_count, C33_evaluation, C33_one_sided_refuted
* C34_rule_votes, C34_votes_partial, C34_predictor_partial, C34_one_sided_refuted, C34_state_zero_refuted, C34_all_excluded_refuted, C34_last_excluded_refuted
* C35_training_output, C35_patch_reachable, C35_evaluation_output, C35_prediction
* C36_windows, C36_positions_distinct, C36_non_square_refuted
* C37_xor_dataset, C37_result_or_error
* C38_best_refuted, C38_last_score_partial
* C39_int_budget_partial, C39_int_accepted, C39_list_ignored_refuted, C39_list_unchecked_refuted, C39_list_no_budget_refuted, C39_rejected_kept_refuted
* C40_block_split, C40_votes
* C41_last_block_partial, C41_last_block_predicts_partial, C41_votes_refuted, C41_evaluation_exact, C41_outputs_refuted, C41_outputs_partial, C41_predictions_partial
* C42_kept, C42_half_partial, C42_removed_partial, C42_neighbours_refuted
* C43_over_budget_partial, C43_one_patch_partial, C43_over_budget_refuted
* C44_failed_call_partial, C44_early_refusals, C44_retry_refuted
* C45_seeds_partial, C45_positive_seed_starts, C45_seed_zero_refuted
* C46_explain_all_partial, C46_names_refuted, C46_features_refuted
* C47_resume
* C48_weight_mod, C48_weight_exact, C48_programs, C48_process_valid, C48_wrap_refuted
* C49_folds_share_state_refuted, C49_first_fold_partial
* C50_initialisation, C50_only_seed_zero_fails, C50_junk_irrelevant
* C51_type1a_exact, C51_type1b_exact
* C52_counts_irrelevant, C52_initialisation
* C53_one_history
* C54_label_as_negative
* C55_all_clauses_built, C55_flags_refuted
* C56_failed_train, C56_folds_refuted
* C57_fresh_results_partial, C57_no_epochs_refuted
* C58_exported_program_agrees_with_machine
* C59_type1a, C59_type1b, C59_type2, C59_boost_all
* C60_threshold, C60_never_certain, C60_exact_refuted
* C61_type1a, C61_type1b, C61_type2, C61_weights, C61_other_clauses, C61_active_literals
* C62_matching_clause, C62_silent_clause, C62_weights, C62_delta, C62_within_budget_refuted
* C63_history, C63_initialized, C63_needs_patches
* C64_one_patch_evaluation, C64_one_patch_step
* C65_training_outputs, C65_training_meaning
* C66_update, C66_weight_limit_refuted
* C67_history, C67_initialized
* C68_negative_class, C68_one_class
* C69_predicted, C69_native_refuted, C69_counters
* C70_unit_interval, C70_zero_once, C70_period, C70_states_distinct, C70_rounding, C70_seeding, C70_rounds_to_one
* C71_part1_unused, C71_repeats, C71_seeds_collide, C71_vectors
* C72_equal_halves, C72_reversible, C72_seeds_apart, C72_never_zero, C72_seeding
* C73_train, C73_step_weights, C73_type2
* C74_eval_exact, C74_scalar_iff
* C75_same_predictions_refuted, C75_same_predictions_partial
* C76_type1a, C76_type1b, C76_type2, C76_states_in_range, C76_initial, C76_over_budget, C76_no_jump
* C77_twins
* C78_no_budget_refuted, C78_budget_partial
* C79_best_state_scores, C79_last_state_scores, C79_accuracy, C79_last_fold
* C80_usable, C80_resume
* C81_schedule_independent, C81_n_jobs_independent
* C82_import, C82_machine_class, C82_inference_class, C82_isa_built
* C83_vendor_refuted, C83_detects_refuted, C83_exact_partial, C83_same_machine_partial
* C84_training_refuted, C84_training_keyerror_refuted, C84_predicting_refuted, C84_setup_partial
* C85_two_machines_refuted, C85_sequential_partial, C85_default_flags_partial
* C86_dense, C86_dense_data, C86_started
* C87_trains_refuted, C87_error_refuted, C87_multi_label_refuted
* C88_train_partial, C88_eval_partial, C88_step_partial, C88_train_ragged_refuted, C88_eval_ragged_refuted
* C89_matching_clause, C89_silent_clause, C89_delta
* C90_history, C90_initialized, C90_needs_patches, C90_prediction
* C91_one_patch_blocks, C91_one_patch_predictions
* C92_each_once_in_order, C92_barrier, C92_mutual_exclusion, C92_never_pops_empty, C92_fork_join
* C93_never_stuck, C93_can_finish, C93_bounded
* C94_answers, C94_answers_before_destruction, C94_dense, C94_avx2, C94_neon, C94_sparse, C94_conv, C94_no_sharing
* C95_destructor_returns_refuted, C95_destructor_after_use_refuted, C95_only_lost_wakeup_partial, C95_returns_otherwise_partial
* C96_training_exact, C96_training_partial, C96_training_refuted, C96_evaluation, C96_evaluation_refuted, C96_more_classes, C96_more_classes_training
* C97_history, C97_initialized, C97_bound_refuted
* C98_pruning
* C99_type1a, C99_type1b, C99_type2, C99_nothing, C99_active
