# Design of the Rocq model of Parmesan

Target: `/repo` (Parmesan, Rust), read as text. Prover: Coq 8.16.1, standard library only.
Build: `cd rocq && coq_makefile -f _CoqProject -o Makefile && make -j4`.

## 1. Architecture

| Layer | Files (rocq/theories) | Content |
|---|---|---|
| Base | `Base.v` | outcome/event monad, u64/i64/i32 wrap, build profile |
| External library | `Backend.v` | record of the tfhe-rs calls that Parmesan makes (no laws) |
| Model | `Words.v Encryption.v Pbs.v Addition.v Signum.v Maximum.v Naf.v Asc.v AscTable.v ScalarMul.v Multiplication.v Squaring.v Rounding.v Arith.v NeuralNetwork.v Params.v Keys.v Misc.v DemoNets.v Demos.v` | the code, function by function, each definition with file and lines |
| Model of messages and scripts | `Messages.v KtScript.v ChainScript.v CostScript.v GenChains.v Yaml.v AscText.v` | seq_utils and the message macros as strings; the Ruby scripts for the recoding, for the table of chains, for short chains and for the costs |
| Model of the tests and of interleavings | `TestSuite.v KeysConcurrent.v LogConcurrent.v` | tests/*.rs, generic in the random draws; two calls of `PrivKeySet::new` interleaved; log level and log file with threads |
| Parallel model | `Parallel.v ParallelOps.v` | threads over shared memory; the operations again, as they run without `seq_analyze` |
| Spec | `Spec.v`, `Contract.v`, `Expr.v`, `Weights.v`, `ChainSpec.v` | what the properties mean, independent of the model; programs over the operations |
| Backends | `Instances.v`, `Symbolic.v` | exact, LWE with noise, free terms |
| Proofs | `*Proofs.v` | lemmas |
| Properties | `Properties*.v` | property theorems, Examples, `Print Assumptions` |

### 1.1 The monad
A Rust computation is `M A := outcome A * list event`, where `outcome` is `Ok a`, `Err e` (a returned `Err`)
or `Panic e` (panic, `expect`, index out of range, overflow in a checked build, missing map key), and the
event list records, in sequential order, what the `measure`/`seq_analyze` features observe: bootstraps,
start/finish of the bootstrap counter, enter/exit of measured blocks. One model thus carries both results and counts.

### 1.2 The external library
tfhe-rs is not in `/repo`. `Backend.v` is a record of operations: LWE addition, plaintext addition, negation,
cleartext multiplication, `apply_lookup_table` (with the accumulator body that Parmesan builds), encryption, decryption.
The model is generic in this record. The laws are in `Contract.v`, as a record that theorems take as hypothesis:

* the linear operations are exact on the phase modulo 2^64;
* a fresh encryption of mu has phase `mu * delta + e` with `|e| <= nB`;
* `apply_lookup_table acc c` has phase `coef(acc, r) + e`, `|e| <= nB`, where `coef` is the negacyclic coefficient at a
  rotation `r` that approximates `2N * phase / 2^64` up to a bounded modulus-switching error;
* decryption rounds the phase to the nearest multiple of delta;
* noise budget: the largest linear combination that the parameter's `quad_weight` permits fits half a step.

Real TFHE noise is Gaussian, so these bounds hold except with the library's failure probability; that is an assumption.
C75 does without it: there noise is random and unbounded, and the probability that a program goes wrong is bounded instead.
The record is inhabited (`Instances.v`): an exact backend, and a full LWE backend (mask vectors, secret key, non-zero noise).
A third backend, free terms (`Symbolic.v`), gives the circuit of an operation, used for obliviousness, depth and weights.

### 1.3 Build profiles
Overflow checks (debug) and wrapping (release) differ. Wherever an operation may overflow, the model takes a flag
`ovf : bool` and either panics or wraps.

### 1.4 Simplifications
* `msg_mod` of each word is the constant 32 (the only shipped parameter set); carry modulus is 1. The word codec itself is modelled for all moduli.
* f64 tables hold integers or halves; a table entry is modelled as an integer number of halves; products with delta (a power of two) are exact in f64.
* The main model runs parallel loops in order (feature `seq_analyze`). `ParallelOps.v` has them as threads over shared cells;
  C30 proves that every interleaving ends, and with the same result. There a panicking thread leaves a mark for the
  joining thread instead of unwinding, and the panic message is dropped.
* Of times only their text (C74). Strings only where a property is about them: the boxes, the indentation and the measured blocks (`Messages.v`), the lines of the search log (`ChainScript.v`). The YAML file is translated by `tools/gen_asc.py` into `AscTable.v`, and copied byte for byte by `tools/gen_asc_text.py` into `AscText.v`; C65 proves that reading the latter gives the former, and C66 that the log of the search (`LogText.v`) gives it too.
* Tests: the number of rounds is arbitrary, the random values are parameters with the range they are drawn from, printing is left out.
* `KeysConcurrent.v`: one step is one element of the encoding written at the call's own offset; reading is one step; the directory and file-system failures are in `Keys.v` only.
* `usize` is 64-bit and lengths never overflow; lengths are `nat`.

## 2. Plan per property
| Id | Modelled by | Proof |
|---|---|---|
| C01-C03 | `Encryption.v` | induction on digits; bounds on prefix sums |
| C04 | `Words.v` codec, generic modulus 2^k | Z division lemmas |
| C05 | `Words.v` | phase relation `wrep` (target, weight) preserved by each op |
| C06, C07 | `Pbs.v`, accumulator as list of length N | characterise every coefficient of the rotated accumulator, then rounding |
| C08 | `Pbs.v` | finite sweep over messages lifted to words by C06 |
| C09-C11 | `Addition.v` | per-digit case analysis plus telescoping sum |
| C12, C13 | `Addition.v`, `Arith.v` | sums; bits of |k| |
| C14, C15 | `Signum.v`, `Maximum.v` | induction on the recursion, groups of four |
| C16, C17 | `Multiplication.v` | induction on fuel; length bounds; refutation at 32 words for every content, via obliviousness |
| C18 | `Squaring.v` | same |
| C19 | `Rounding.v` | floor characterisation |
| C20, C21 | `Naf.v` koyama_tsuruoka_vec | loop invariant |
| C22 | `Naf.v` naf_vec | loop invariant; witnesses |
| C23 | `Naf.v` wind_shifts | invariant over the digit vector |
| C24 | `AscTable.v` | `forallb` over the 2048 chains, lifted |
| C25, C26 | `Asc.v`, `ScalarMul.v` | induction on the chain; sum over windows |
| C27 | `Arith.v`, expression language in `Expr.v` | structural induction |
| C28, C43 | `NeuralNetwork.v`, generic in the arithmetic dictionary | relational induction over two dictionaries |
| C29 | `Symbolic.v` | naturality: every operation commutes with backend homomorphisms |
| C30 | `Parallel.v` fork-join language with footprints, `ParallelOps.v` operations in it | race-free programs are determinate (well-founded step relation, commuting steps); each operation is race-free and equals its sequential model |
| C31, C32 | event lists, `Misc.v` counter machine | counting; well-bracketed traces |
| C33 | `Symbolic.v` | depth of the circuit |
| C34 | `Weights.v` (spec: coefficients of samples in every bootstrap input of the symbolic circuit) | bounds on square sums; independent samples stay distinct through sums, signum, maximum and the schoolbook product; longer products and squares (`WeightHash.v`): the operation is run once per length on a backend of fingerprints, related to the circuit by simulation; samples of equal fingerprint are counted as one, so the bound is safe whatever the fingerprints are; refutations by computing a circuit. Operands of different lengths, public words and reused values are covered by C61, with the exact settings. Not covered: bootstraps whose output is dropped |
| C35-C37 | `Keys.v` file-system model | case analysis; crash prefixes, complete (`C37_crash_complete`); witnesses |
| C38, C39 | `Misc.v` | state machines |
| C40 | `Encryption.v` | bit lemmas |
| C41 | `Arith.v` i64 dictionary | case analysis |
| C42 | `Asc.v` | witness table |
| C44 | corollary of C27 | |
| C45 | `Demos.v` (demos.rs:10-301) | the operation theorems, applied to fresh encryptions of the demo's constants |
| C46 | `Demos.v`, `DemoNets.v` (demos.rs:304-535), `NeuralNetwork.v` | backend without content plus obliviousness (C29); lower bounds on word counts by induction |
| C47 | `ScalarMul.v`, `Naf.v`, `AscTable.v`, `Demos.v` (experiments.rs:10-59) | operations started are counted in the event log; least signed-digit weight by recursion on the bits, compared with all 2048 shipped chains; the windows share out the non-zero digits of the recoding |
| C48 | `Params.v` | powers of two, wrap-around |
| C49 | `TestSuite.v` (tests/*.rs) | the operation theorems, applied to every draw; `t_nn` by a bound on the growth of values and lengths through a network. `cargo test` has overflow checks unless switched off (Cargo.toml has no profile section), so `C49_koy_tsu_refuted` and `C49_scm_refuted` are about a plain `cargo test`; `make test` (Makefile) builds with `--release`, without checks, where both tests are proved to pass |
| C50 | `KeysConcurrent.v` (keys.rs:34-72) | state machine of two calls, invariant over all schedules; explicit schedules for the refutations |
| C51 | as C10–C16, over `Symbolic.v` | bounds for operands of any shape by the grading of `DepthProofs.v`, extended to products, squares, scalar multiplication and rounding in `CostProofs.v`; the exact depths for encrypted operands of equal length by a simulation in a backend of depths and a calculus on lists of depths (`fo_mul`, `fo_squ`: the model follows the calculus for every input), evaluated at the 33 lengths that `mul` and `squ` accept. `C51_monotone_refuted`: 15 words are deeper than 16 |
| C52 | `Multiplication.v Squaring.v` | the same calculus counts the bootstraps; obliviousness carries the counts to every backend. `C52_choice` compares one Karatsuba step with the schoolbook method at every length; `C52_documented_choice_refuted` is about the comment at multiplication.rs:36 |
| C53 | `AscTable.v Asc.v Demos.v`, against `ChainSpec.v` | modulo 2^13 a step with a shift of 13 or more is no step, so every chain is a chain with shifts below 13, or agrees modulo 2^13 with one that is shorter (`chain_cases`); the two finite searches (about 600000 and 3000 chains, up to sign) are computed in the kernel. Chains of five or more steps need no search: no shipped chain has more than four. |
| C54 | `LogConcurrent.v` (accesses of `LOG_LVL`, misc.rs:17-19, 40-52) against `Misc.v` | one thread makes exactly the steps of C38; without interrupted updates the level is the start plus the blocks open in all threads, an invariant of every schedule; the refutations give the schedules. Unsynchronised accesses are undefined behaviour in Rust; the model lets each take effect in some order, reads of the comparison and of the assignment separately. |
| C55 | `LogConcurrent.v` (parm_log_plain!, misc.rs:113-134) over files with identity | one call after another: by running a call on its own (`log_solo`); at the same time with the file there: what is written plus what remains is a permutation of all pieces, an invariant of every schedule. Creating and writing succeed; the message and its line feed are two writes. First calls in any schedule (`Properties29.v`): an invariant over the steps for the bytes and the older files; a general schedule that leaves a hole of zero bytes. |
| C56 | `Naf.v` (koyama_tsuruoka_vec, wind_shifts), `ScalarMul.v`, `Demos.v` (experiments.rs) | `KtLocal.v`: every recoding of a u32 is a word of a 12-state automaton (loop invariant of the recoding, unbounded in the number of digits). `KtWindows.v`: every path of 12 digits that starts with a digit other than 0 has a value that is its own first window; this is a finite check over the automaton, lifted with `forallb_forall`. Tables that agree on these 1792 keys give equal products for every i32; 256 shipped chains are never read. The experiment with 12 to 31 bits returns what it returns with 12 (unchecked build; `gen_bits` is a constant of the code, varied in `avg_adds_bits`). |
| C57 | `Messages.v` (parm_format_info/dbg/infobox/err, misc.rs:198-263; the first characters of the lines of measure_duration! and finish_pbs_analysis!; to_str, ciphertexts.rs:298) | strings are lists of code points; crate `colored` is modelled as escape sequence + text + reset, or the text alone. Lines by induction over the text; columns of a terminal: escape sequences 0, pictographs (U+1F300 to U+1FAFF) 2, all others 1. `truncate(100)` panics exactly when byte 100 is inside a character. The picture of a run: induction over the call trees of C38. Titles, durations and counts after the line's beginning are left out. |
| C58 | `TestSuite.v`, as in C49, over an arbitrary backend, arbitrary keys and an arbitrary chain table (no contract) | inversion of the test bodies: a body passes if and only if (where digits are decrypted too: only if) its result decrypts to the exact integer (`value`, `round_to`, `layers_spec`); the i64 side is computed by the range lemmas of ArithProofs.v. Loops: every round passes. Modes: which words are encrypted. Examples: the tests pass on a draw, fail for a user whose decryption is one off, and the table test fails with one wrong chain. Which test functions call the bodies with which modes is left out (all modes are quantified over). |
| C59 | `KtScript.v` models `scripts/koyama-tsuruoka/kt.rb` on unbounded integers; the length of k, a floating-point logarithm in Ruby, is a parameter | `C59_same_digits`: what the Rust function returns in either build is what the script returns (simulation step by step). `C59_any_size`: with the right length the script is right for every k. `C59_any_length`, `C59_length_needed`: with any other length the digits are those of another number. `C59_printed`: the printed line. Not modelled: the rounding of `Math::log2` |
| C60 | `ChainScript.v` models `scripts/add-sub-special-chains/variant.rb` (search, database, printed lines, on code points) and `parse-asc_log-to-yaml.rb` (split, to_i, find_index); any number of extensions and any LIMIT_WID | `C60_search_returns`: no exception from width 2 on. `C60_chains`: every stored chain is an addition-subtraction chain (`ChainSpec`) for its odd key. `C60_table`: printing and parsing always give a table with increasing keys and chains of the right value. `C60_usable`: such a table serves scalar multiplication. `C60_shipped`: every shipped entry is what the parser makes of its printed line. Not modelled: writing YAML; that asc.dat is the guaranteed part of the output without the separator lines is an assumption. Running the search at width 13 is not repeated in Rocq; `C60_width`, `C60_stored`: invariants of the fold over pairs; `C60_complete`: a chain is extended by every signed power of two in its round and the first chain of a value is never replaced; `C60_all_odd`, `C60_enough`: an odd number up to 2^m is +-1 plus at most m/2 signed powers of two |
| C61 | every operation of `arith_ct` on the symbolic backend, any program (`Expr.v`) and any network; specification of C34 (`Weights.v`) | invariant `fine` of a word: every bootstrap behind it within the setting, the word itself a single sample with coefficient 1 or a public digit; each operation keeps it, because a bootstrap input is a sum whose coefficients have a fixed absolute sum (8 in an addition, 15 or 7 in a signum, and so on), so its square sum is at most the square; the cases 7 and 15 of the signum and the maximum follow from the branches on the setting. Three programs whose circuits are computed show that no other setting will do |
| C62 | `CostScript.v` models `scripts/optimal-multiplication/search-optimum-multiplication.rb` (tables, loop, which method is printed and both prices); the counts of C52 | the script is run once by computation; its numbers are compared with the counts proved in C52 for every length up to 32, on arbitrary contents and backends |
| C63 | `Naf.v` (recoding with and without overflow checks), `ScalarMul.v`, `Arith.v`, `NeuralNetwork.v`; spec: a scalar is refused when it is -2^31 or when, in the recoding that release builds compute for its absolute value, a -1 stands for a zero bit and further up a 1 stands for a zero bit | `KtChecked.v` turns the recoding into an automaton over the bits that stops exactly where `u32` subtraction underflows; scalar products, programs and networks follow by relating the two builds step by step; the counts come from a transfer matrix over the states of the automaton, proved equal to the number of scalars Networks, both ways (`Properties28.v`): a layer with n inputs uses the first n weights of each perceptron; with a backend that meets the contract a network panics with an overflow exactly when one of the weights it uses is refused, and otherwise gives the same result as a release build. The experiment of experiments.rs (`Properties34.v`): a build with checks does the rounds of 1, 3, …, 89 like the other build and stops at 91; the only round-by-round difference is the refused numbers. |
| C64 | `GenChains.v` models `scripts/add-sub-special-chains/gen-chains.rb` (digit vectors, pairs, the hash in order of insertion, what is skipped and what is dumped; the text of the lines is left out); spec: sums of signed powers of two | for any LIMIT_LOG, by an invariant of the double loop (`GenChainsProofs.v`): no stored entry is ever replaced, since every single power is stored before the first pair; the counts for LIMIT_LOG = 10 by computation |
| C65 | `Yaml.v` (writer that lays the table out as the file does, reader of that layout), `AscText.v` (the bytes of assets/asc-12.yaml as string literals), `Asc.v` map_from_yaml | round trip by induction over the table; the literals are compared with what the writer gives for `shipped_asc`, 32 entries at a time, by computation. So `AscTable.v` need not be trusted, only that the literals are the file |
| C66 | `ChainLog.v` (parse-asc_log-to-yaml.rb as a function from bytes to the text it writes: UTF-8, lines, hash, YAML.dump with symbols as keys), `LogText.v` (the lines of limit-13_v4.log before "no guarantee" as string literals, made by `tools/gen_log_text.py`) | the literals are compared with the UTF-8 of the line that the search prints for each entry, 32 lines at a time, by computation; reading lines and UTF-8 back is proved for all texts; taking out the colons by induction over the table. Refuted: that the script writes the file that is shipped; it writes the symbols with a colon, and the library cannot read that. Not modelled: how lines are copied from the log to asc.dat |
| C67 | `RustLit.v` (tokens and a reader of the Rust struct literals that demos.rs uses for networks, with the ranges of the field types), `NetsText.v` (the text of the functions demo_nn and arrhythmia_nn, made by `tools/gen_nets_text.py`) | a network written as a function is read back, for all networks: tokens are recovered from the text, and each part of the grammar from its tokens; the two functions of demos.rs are read by computation. So `DemoNets.v` need not be trusted, only that the literals are the text |
| C68 | `add_noisy` / `sub_noisy` results used as operands (src/arithmetics.rs:278-320, src/cloudovo/addition.rs:20-160 with `refresh = false`). `NoisyProofs.v` generalises the sum to operands whose words hold any integer in [-m, m] with noise k times fresh noise: the carry table returns some digit whatever its input, the words telescope, so the value survives wrong carries as long as the refresh itself is within tolerance (kx + ky + 3 <= l1_need). | `C68_two_noisy`, `C68_one_noisy` (right integer or `E_dec_alphabet`, for every contract); `C68_refused_refuted`, `C68_sign_refuted`, `C68_third_refuted` by concrete LWE backends with noise 2^54 that meet the contract at 100 (evaluated); `C68_weights`, `C68_budget_refuted` on the circuits |
| C69 | The wish of lib.rs:181 about windows of 13 digits: how long the chains are, and which numbers occur as windows (`wind_shifts` with `bitlen` 13, the same function as C56). | `C69_four`: four additions suffice for every odd number below 2^13, so none needs five (`C69_five_refuted`: the set asked about is empty). The chains are in the generated `Asc13.v` (not part of the target; by `tools/gen_asc13.py`, from the log of the target and a search), checked by evaluation; `Opt13.v` repeats the lower bound of C53 with shifts below 14 and modulus 2^14. `C69_lengths` counts how many numbers need 0…4 additions, `C69_windows` that exactly 3600 numbers occur (automaton of C56), `C69_used` how many of those need 0…4. The one number left without a chain by limit-14_v2.log, 5517, does occur and has a chain of four (`C69_example`). |
| C70 | `Addition.v` (any backend) and `Readme.v` (the example program of README.md:55-124, without key creation and layout) | `C70_local`: word j of a sum or difference, refreshed or not, is determined by words j-2, j-1, j of the operands and by which words are trivial zeros; no contract, any words (position by position through the two loops). `C70_two_needed`: two words below are needed. `C70_standard_refuted`: for plain binary no function of a fixed number of bits gives a bit of the sum. `C70_readme`: the program prints PASS, with the numbers stated; `C70_verdict`: for any backend and keys whatsoever it says PASS only for the right sum. |
| C71 | `Light.v` (specification: which functions of messages bootstraps of one linear combination can give, for any coefficients and any negacyclic tables; and the searches, with their soundness) over the tables of `Pbs.v` | `C71_tables`: the library's combinations and tables give products, squares, signs, rounding carries and choices, and the parallel adder. `C71_weights`: these are the heaviest combinations of the operations on fresh words. `C71_lightest`: no coefficients whatsoever (all integers, any number of tables) are lighter, for all but addition. `C71_adder_refuted`: addition is possible with half the weight (2w_i + w_(i-1), 10 instead of 20), `C71_adder_lightest`: not with less; `C71_adder_value`: the value is kept. `C71_mul_1_2`, `C71_mul_1_2_weight`: the question of lib.rs:183 answered: one word by two words is possible, exactly for the coefficients given, with weight 69. `C71_square_limit`, `C71_sign_limit`, `C71_product_limit`: four words squared, the sign of five, products beyond 1 by 2 are impossible for all coefficients. Searches are over residues modulo 32, which is complete (`search_digits_ok`, `sat_any`). |
| C72 | The question of lib.rs:185 about zeros in squares. Specification in `Properties37.v`: positions that serve all squares (`serve`), numbers of digit-valued lookups whose combinations give the words of all squares (`spanned`, any functions and any integer coefficients; `looked_up` with negacyclic tables of one combination and each word a lookup up to its sign, or 0) | `C72_zeros`: three and five non-zero positions are needed for two and three words, as the library has (2-adic argument, any set of positions). `C72_fewer`: two and four lookups are enough, because words of the redundant representation can share a lookup (t1, t1, t2, -t1 and t1, t1, t2, 0, t3, t4); `C72_library`: the library takes three and five (C52). `C72_fewest`: fewer is impossible for any functions and coefficients (Gaussian elimination over all digit assignments, proved complete; symmetry under order and signs). `C72_enough`: the least numbers are reached. |
| C73 | what the notes about multiplication at the end of src/lib.rs and in multiplication.rs would give: rows added in pairs (`mul_pairs keep`) and Karatsuba with another split or schoolbook for the low product (`karatsuba_at len0 low`); neither is code of the target, both are the library's functions in another order (Proposals.v) | `C73_pairs_value`, `C73_split_value`: both give the product, for any backend with the contract. `C73_pairs_count`, `C73_pairs_worth`: bootstraps and lengths of 2 to 17 words, at most an eighth more than row by row, and at least two lookups shallower than the library from 4 to 32 words (`C73_pairs_depth`: 2 log2 n + 1). `C73_but_last_refuted`: leaving the longest row for the end does not keep the result short. `C73_as_library`: the library is the split in the middle. `C73_split_middle`, `C73_split_31_32`, `C73_split_33_36`: the splits near the middle of 16 to 36 words; 31 as 16\|15 and 35 as 18\|17 are cheaper, 32 as 17\|15 and 36 as 19\|17 are not. `C73_33_refuted`: 33 words are not worth splitting differently. Counts by the cost calculus of C52, evaluated |
| C74 | `Timing.v`: the line of parm_log_ts! (misc.rs:99-110) and the printed durations of measure_duration! and simple_duration! (misc.rs:31-39, 82-89), times in microseconds, without leap seconds; `Display` of an f64 below a second is taken to be the exact decimal, and `{:.3}` of a tie either neighbour (a parameter) | specification: a reader of the line and of a decimal number with a unit. `C74_read`, `C74_same`: the line gives back level, message and both times modulo an hour, and nothing more. `C74_columns`: up to level 99 the message begins in the same column. `C74_elapsed`: the difference modulo an hour is the duration to a millisecond, below an hour. `C74_hour_refuted`: an hour more is not seen in the log, and just under an hour can look like none. `C74_exact`, `C74_rounded`: the printed duration is exact below a second and within half a millisecond from there on. `C74_unit`: it is printed in the largest unit of which it holds at least one |
| C75 | `Random.v` (not a model of code): finitely many weighted outcomes of all random choices; in each a backend whose linear operations are exact and whose bootstrap rotates by the rounded phase and adds some noise, which nothing bounds (`torus`, `world`). It replaces the contract, which bounds every single noise | `C75_variance`: if the noises of the samples are uncorrelated with mean square at most v, then that of a combination of quadratic weight n has at most n·v (this is what quad_weight in params.rs is about). `C75_union`: Chebyshev and a union bound over many combinations. `C75_outcome`: an outcome where no bootstrapped combination and no result word has noise of tau or more decrypts to the right value; the terms of that outcome, with their remaining noise counted as rounding, satisfy the contract with no noise, so C27 applies. `C75_within`: tau² · weight of the outcomes that decrypt to anything else ≤ (number of bootstrapped combinations and result words) · n · v · total, for every program whose circuit stays within n. `C75_programs`: with n = quad_weight, for all programs under the settings of C61. `C75_example`: noises of a whole step in 6 of 1048582 outcomes, all six fail; the bound gives at most 5376 |
| C76 | `OldLogs.v` (guarantee_11-bit.log, and limit-13_v2.log up to "no guarantee", as string literals, made by `tools/gen_old_logs.py`); `ChainLog.v` and `ChainScript.v` (the script that reads logs, the lines that the search prints) | `C76_guarantee`: the script reads from guarantee_11-bit.log one chain for each odd number below 2^11, the text is byte for byte what is printed for that table, each chain evaluates to its number and none is longer than necessary (lower bound from C69). `C76_v2`: limit-13_v2.log likewise for all odd numbers below 2^12, except that exactly 18 of its chains take one addition more than necessary; `C76_v2_refuted` states that consequence with 805 as the witness. guarantee_10-bit.log equals the first 512 lines of guarantee_11-bit.log (compared outside Rocq); the other logs are not modelled |
| C77 | `ReachProofs.v` (proofs only), `Properties42.v`; no further code: all operations, programs (C27) and networks as modelled, run on terms (`Symbolic.v`) and on any backend | `boots` lists the bootstraps in a circuit. Every operation is shown to put at most as many new ones behind its result as it emits EPbs events (one lemma per operation, as in `RelProofs.v`); the events are the same on all backends (simulation). With C75 the printed number of bootstraps bounds the probability of a wrong result; the assumptions on the noise are those of C75. |
| C78 | `CondShift.v`: not code of the target but what the note src/lib.rs:203-209 ("floating-point-like" feature) asks for, built from modelled functions: `a_1_pi_5` (pbs.rs) of the leading word, then the choice of maximum.rs:66-84 for every word (`Maximum.max_word`); rounding is `Rounding.pa_round_at` | specification: `shifted` on lists of digits. `C78_number`, `C78_normal`: what a shift does to the value, and that k shifts take away up to k leading zeros. `C78_shift`: the lookups compute it, on every backend within the contract, for any number of shifts; `C78_note`: after rounding and dropping the words below the position. `C78_count`, `C78_count_narrow`, `C78_depth`: k(2n-k+1)/2 bootstraps, or k(2n-k) if quad_weight is below 41, and 2k one after the other. `C78_weight`, `C78_weights_secret`: within 41 on inputs, for any number of shifts of encrypted ones; `C78_weights`: within 81 with public words among them (65 is reached); `C78_weights_narrow`: within 16 below a quad_weight of 41; `C78_budget`: so encrypted inputs stay within every supported quad_weight. Refuted: `C78_direct_refuted` (choosing directly by the leading word needs a sign-free flag: no coefficients modulo 32 work, by the search of `Light.v`), `C78_precision_refuted` (a leading word that is not 0 does not bound the relative error), `C78_example_refuted` (on the example of the note the rounding of the library lengthens the number, and six words lose the lowest 1) |
| C79 | `Properties44.v`; no further code: `pa_squ`, `pa_mul` as modelled, on operands with public zeros appended (`ct_triv`), which is the bypass that the note src/lib.rs:200 mentions | `C79_squ`, `C79_mul`: the results are the same (C16, C18 on the longer operand). `C79_squ_dearer`, `C79_mul_dearer`: any number of zeros on top costs more bootstraps than none, for every length, on every backend; the counts come from the cost functions of `CostProofs.v` (C52), run on the finitely many lengths up to 32. `C79_squ_cheaper`: a zero never costs more than an encrypted word in its place, from two words on. Unequal operands of products are not counted |
| C80 | `Properties45.v`; no further code: circuits are the terms of `Symbolic.v`, weights those of `Weights.v`, `pa_sgn` as modelled | specification: `msg` is the message of a circuit with bootstraps as arbitrary functions, `looks_at` says that each of n words matters. `C80_looks`: by induction on the depth, a circuit of depth d in which no bootstrap is heavier than w depends on at most w^d inputs (a combination of weight w has at most w samples with a coefficient other than 0; cancelled samples do not count). `C80_sign`: so the sign of n words needs n <= w^d. `C80_maximum`: even the lowest word of a maximum of two numbers of n words needs 2n <= w^d. `C80_signum`: with C33, pa_sgn (quad_weight at least 85) has at most four times the depth of any circuit for the sign within the shipped weight 100. The bound takes no account of the size of the tables, so the factor is not claimed to be sharp |

## 3. Trusted base
* the Coq kernel (and `coqchk`);
* axioms: listed by `Print Assumptions` under every property theorem (target: none);
* the reading of the Rust code (comments cite lines), Rust semantics of the modelled operators;
* the contract of tfhe-rs (section 1.2), hypotheses of theorems, not axioms;
* `tools/gen_asc_text.py`, `tools/gen_log_text.py` and `tools/gen_nets_text.py`, which copy text of the target into string literals. What `tools/gen_asc.py` and `tools/gen_demo_nets.py` translate is checked against these texts by C65, C66 and C67.

Not modelled: tfhe-rs internals, f64 rounding outside exact values, bincode and general YAML (a codec round-trip hypothesis; the layout of the file of chains is modelled, C65),
how long operations take, memory safety, data races on `N_PBS` (the counting build is sequential). Unsynchronised accesses to `LOG_LVL`
and `LOG_INITED` are modelled as interleavings (C54, C55), which is weaker than the undefined behaviour that Rust assigns to them.
