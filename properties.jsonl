{"id": "C01", "title": "Encrypt/decrypt round trip", "statement": "For every 64-bit integer m other than i64::MIN and every word count w <= 63, decrypting the encryption of m with w words gives sign(m) * (|m| mod 2^w); in particular it gives m back whenever |m| < 2^w. For i64::MIN the build with overflow checks panics, and the build without them silently encrypts 0.", "quantifier": "all m in i64, all w, all encryption randomness with bounded noise, both build profiles", "why_tests_cant": "Tests sample random m at one fixed width; 2^64 x 63 cases and all noise values cannot be enumerated.", "anchors": ["src/lib.rs: ParmesanUserovo::encrypt, decrypt", "src/userovo/encryption.rs: parm_encrypt, parm_decrypt, convert_to_vec, convert_from_vec"]}
{"id": "C02", "title": "encrypt_vec accepts exactly the alphabet", "statement": "encrypt_vec succeeds if and only if every entry is -1, 0 or 1; on success decrypting word by word gives the same vector back, and decrypting as an integer gives the weighted sum.", "quantifier": "all vectors of i32, all lengths", "why_tests_cant": "The set of vectors is unbounded and the rejection direction is not tested at all.", "anchors": ["src/lib.rs: ParmesanUserovo::encrypt_vec", "src/userovo/encryption.rs: parm_encrypt_from_vec, parm_decrypt_to_vec"]}
{"id": "C03", "title": "Decryption is total, exact and guarded", "statement": "Decrypting a digit vector returns the exact weighted sum (never overflowing i64 at any intermediate point) when it has at most 63 words all in {-1,0,1}; it returns an error for 64 or more words, and an error when some word lies outside the alphabet. Every i64 other than i64::MIN is reachable.", "quantifier": "all digit vectors of every length", "why_tests_cant": "3^63 vectors; the overflow boundary is only hit at the extreme lengths.", "anchors": ["src/userovo/encryption.rs: convert_from_vec, PARM_CT_MAXLEN"]}
{"id": "C04", "title": "Word codec round trip and noise tolerance", "statement": "Encoding a message into the 64-bit torus and decoding it returns the centred residue of the message modulo the message modulus, for every power-of-two modulus; decoding is unchanged by any additive error strictly below half an encoding step, and fails for an error of a full half step upward.", "quantifier": "all i32 messages, all moduli 2^1..2^30, all u64 errors in the window", "why_tests_cant": "2^32 messages times 2^58 errors.", "anchors": ["src/ciphertexts.rs: delta, mi_to_mu, mu_to_mi, mi_to_pt, pt_to_mu, decrypt_mu, decrypt_mi"]}
{"id": "C05", "title": "Word-level linear operations are homomorphic", "statement": "Adding, subtracting, negating, and multiplying a word by an i32 constant acts on the decrypted message as the same operation modulo 32, for every combination of trivial and encrypted operands, as long as the accumulated noise stays below half a step. The result is trivial exactly when all operands are.", "quantifier": "all words, all trivial/encrypted mixes, all constants k != i32::MIN", "why_tests_cant": "All four trivial/encrypted branch combinations at all torus values cannot be sampled exhaustively.", "anchors": ["src/ciphertexts.rs: add_inplace, sub_inplace, opp_inplace, mul_const_inplace, add_half_inplace, is_triv, is_triv_zero"]}
{"id": "C06", "title": "Lookup-table accumulator is correct for every table", "statement": "For every 16-entry table, evaluating it on an encrypted word holding message m (0..31) returns entry m for m < 16 and minus entry m-16 otherwise, for every noise value whose total rotation error stays below half a box; the output noise is fresh, independent of the input noise.", "quantifier": "all tables with entries 0..31 (and half-integers), all messages, all phases within the half-box tolerance, all ring sizes that are multiples of 32; the stored polynomial at every position for every size", "why_tests_cant": "32^16 tables times 2^64 phases.", "anchors": ["src/cloudovo/pbs.rs: eval_LUT_5_uint, eval_LUT_5_float, gen_no_padding_acc"]}
{"id": "C07", "title": "Trivial and encrypted words agree under lookup tables", "statement": "Evaluating a table on a trivial word gives the same message as evaluating it on an encryption of the same message, for all tables with entries 0..31 or half-integers. With entries of 33 or more the two branches disagree (one saturates, the other wraps).", "quantifier": "all tables, all 32 messages", "why_tests_cant": "The trivial branch is a separate implementation; tests never compare the branches.", "anchors": ["src/cloudovo/pbs.rs: eval_LUT_5_float"]}
{"id": "C08", "title": "Named lookup functions compute their documented functions", "statement": "Each named table function (identity, thresholds at 1, 3, 4, 5, value-weighted thresholds, |X|>=1, |X|>=2, squaring bits, digit product, ReLU+, rounding, non-negativity, max selector) returns its documented mathematical value on its documented input domain.", "quantifier": "all inputs in each documented domain, trivial and encrypted, all admissible noise", "why_tests_cant": "Tests exercise tables only through the high-level operations and a few random inputs.", "anchors": ["src/cloudovo/pbs.rs: id__pi_5, f_3__pi_5, f_4__pi_5, f_5__pi_5, g_2__pi_5__with_val, f_1__pi_5__with_val, f_0__pi_5__with_val, a_2__pi_5, a_1__pi_5, squ_3_bit__pi_5, mul_bit__pi_5, relu_plus__pi_5, round_2y_s__pi_5, nonneg__pi_5, max_s_2x_6y__pi_5"]}
{"id": "C09", "title": "Addition and subtraction are exact", "statement": "add and sub return a ciphertext whose value is exactly x + y and x - y, for all operand lengths (including empty and unequal), all digit patterns, and all mixes of trivial and encrypted words.", "quantifier": "all lengths, all digit vectors, all trivial/encrypted mixes, all admissible noise", "why_tests_cant": "3^(n+m) digit patterns times 2^(n+m) trivial masks; the trivial-zero trimming has many boundary cases.", "anchors": ["src/arithmetics.rs: ParmArithmetics::add, sub", "src/cloudovo/addition.rs: add_sub_impl"]}
{"id": "C10", "title": "Addition closes the alphabet, grows by one word and never fails", "statement": "Every word of a sum or difference again lies in {-1,0,1} with fresh noise, the result has at most max(len x, len y) + 1 words, and the 'Unexpected fatal error' branch is unreachable.", "quantifier": "all operands as above", "why_tests_cant": "Unreachability and closure are universal statements.", "anchors": ["src/cloudovo/addition.rs: add_sub_impl"]}
{"id": "C11", "title": "Noisy addition and subtraction decrypt correctly", "statement": "add_noisy and sub_noisy return a ciphertext with exactly the value x + y and x - y that is still within decryption tolerance when decrypted immediately, with noise at most five times fresh noise.", "quantifier": "all operands as above", "why_tests_cant": "Universal over digits, masks and noise.", "anchors": ["src/arithmetics.rs: ParmArithmetics::add_noisy, sub_noisy", "src/cloudovo/addition.rs: add_sub_impl"]}
{"id": "C12", "title": "Opposite, shift and zero", "statement": "opp negates the value, shift by k multiplies it by 2^k and adds k words, zero has value 0 and no words; none of them uses a bootstrap or increases noise.", "quantifier": "all ciphertexts, all shift amounts", "why_tests_cant": "Universal over lengths and shifts.", "anchors": ["src/arithmetics.rs: ParmArithmetics::opp, shift, zero", "src/cloudovo/addition.rs: opposite_impl"]}
{"id": "C13", "title": "Adding a constant", "statement": "add_const adds exactly k for every i64 k other than i64::MIN. For i64::MIN the checked build panics and the unchecked build silently returns x unchanged.", "quantifier": "all k in i64, all ciphertexts, both build profiles", "why_tests_cant": "2^64 constants.", "anchors": ["src/arithmetics.rs: ParmArithmetics::add_const", "src/cloudovo/addition.rs: add_const_impl", "src/params.rs: plaintext_mask"]}
{"id": "C14", "title": "Signum", "statement": "sgn returns a ciphertext of value -1, 0 or 1 equal to the sign of the encrypted integer, for every length and every redundant digit pattern, for parameters both above and below the direct-multiplication threshold.", "quantifier": "all lengths, all digit vectors, all quadratic-weight settings", "why_tests_cant": "Recursion depth grows with length; 3^n patterns.", "anchors": ["src/arithmetics.rs: ParmArithmetics::sgn", "src/cloudovo/signum.rs: sgn_impl, sgn_recursion_raw"]}
{"id": "C15", "title": "Maximum and ReLU", "statement": "max returns exactly the digits of the larger operand (the first one on a tie), so its value is max(x, y); relu gives max(0, x).", "quantifier": "all lengths, all digit vectors, all quadratic-weight settings", "why_tests_cant": "Universal over two operands.", "anchors": ["src/arithmetics.rs: ParmArithmetics::max, relu", "src/cloudovo/maximum.rs: max_impl"]}
{"id": "C16", "title": "Multiplication is exact up to 32 words and rejects longer operands", "statement": "mul returns a ciphertext of value x * y with fresh alphabet words whenever both operands have at most 32 words, through the one-word, schoolbook and Karatsuba paths, including unequal lengths; for longer operands it panics. No internal recursion ever reaches the rejecting branch.", "quantifier": "all lengths <= 32, all digit vectors, all trivial/encrypted mixes", "why_tests_cant": "3^64 operand pairs at 32 words.", "anchors": ["src/arithmetics.rs: ParmArithmetics::mul", "src/cloudovo/multiplication.rs: mul_impl, mul_karatsuba, mul_schoolbook, mul_1word, fill_mulary, mul_lwe, reduce_mulsquary"]}
{"id": "C17", "title": "A product can be decrypted", "statement": "The product of two operands of at most 31 words has at most 63 words, hence decrypts to the exact product. For two encrypted 32-word operands the result has 66 words, and decryption always fails although the product fits 64 bits.", "quantifier": "all operands; all values for the 32-word case", "why_tests_cant": "Tests use short operands; the length growth only shows at the documented maximum.", "anchors": ["src/cloudovo/multiplication.rs: mul_impl, mul_karatsuba", "src/userovo/encryption.rs: convert_from_vec", "src/demos.rs: c_xy32"]}
{"id": "C18", "title": "Squaring is exact up to 32 words; decryptable up to 30", "statement": "squ returns a ciphertext of value x^2 with fresh alphabet words for every operand of at most 32 words and panics above. The result is decryptable for at most 30 words; for encrypted operands of 31 and 32 words the result has 65 and 68 words and decryption always fails.", "quantifier": "all lengths, all digit vectors", "why_tests_cant": "3^32 operands; length growth only shows near the maximum.", "anchors": ["src/arithmetics.rs: ParmArithmetics::squ", "src/cloudovo/squaring.rs: squ_impl, squ_dnq, squ_1word, squ_2_3word"]}
{"id": "C19", "title": "Rounding", "statement": "round_at at position p returns the nearest multiple of 2^p, ties towards plus infinity, for every redundant representation and every p, including p larger than the length.", "quantifier": "all ciphertexts, all positions", "why_tests_cant": "Universal over digit patterns; ties and redundant representations of the same number must all agree.", "anchors": ["src/arithmetics.rs: ParmArithmetics::round_at", "src/cloudovo/rounding.rs: round_at_impl"]}
{"id": "C20", "title": "Koyama-Tsuruoka recoding is correct", "statement": "For every 32-bit k the recoding uses only digits -1, 0, 1, its weighted sum is k, it has at most bitlen+1 digits, and its last digit is non-zero for k > 0 (unchecked build).", "quantifier": "all 2^32 values of k", "why_tests_cant": "Tests sample; a recoding bug on rare bit patterns silently corrupts products.", "anchors": ["src/cloudovo/scalar_multiplication/naf.rs: koyama_tsuruoka_vec", "src/userovo/encryption.rs: bit_len_32"]}
{"id": "C21", "title": "Recoding documentation claims", "statement": "The recoding is documented to have the same Hamming weight as the non-adjacent form, and is expected not to panic. Both fail: k = 7 has weight 3 instead of 2, and with overflow checks on, k = 91 panics by unsigned underflow.", "quantifier": "all 2^32 values of k; existence of a witness", "why_tests_cant": "The test compares values only, never weights, and only fails in checked builds.", "anchors": ["src/cloudovo/scalar_multiplication/naf.rs: koyama_tsuruoka_vec"]}
{"id": "C22", "title": "naf_vec is a non-adjacent form of k", "statement": "naf_vec(k) has digits in {-1,0,1} and weighted sum k for all k < 2^31. It is not always non-adjacent (k = 11), and for odd k >= 2^31 its value is wrong in unchecked builds and it panics in checked builds.", "quantifier": "all 32-bit k; witnesses for the negative parts", "why_tests_cant": "Tests sample 30-bit values and only check the sum.", "anchors": ["src/cloudovo/scalar_multiplication/naf.rs: naf_vec"]}
{"id": "C23", "title": "Sliding windows recompose the scalar", "statement": "The windows (value, shift) of k satisfy sum value * 2^shift = k; every window value is odd with absolute value below 2^12, so that it always has an addition chain; shifts increase by at least 12.", "quantifier": "all 32-bit k", "why_tests_cant": "2^32 scalars; a missing window value is a run-time panic.", "anchors": ["src/cloudovo/scalar_multiplication/naf.rs: wind_shifts"]}
{"id": "C24", "title": "The shipped addition-chain table is valid", "statement": "For every odd n below 4096 the shipped table has exactly one chain, all its indices refer to earlier elements, and evaluating it on 1 gives n.", "quantifier": "all 2048 shipped chains", "why_tests_cant": "The loader's check is commented out; nothing validates the file.", "anchors": ["assets/asc-12.yaml", "src/lib.rs: ASC_12", "src/cloudovo/scalar_multiplication/asc.rs: AscEval::eval, AscValue::value"]}
{"id": "C25", "title": "Chain evaluation is homomorphic", "statement": "Evaluating any well-formed chain on a ciphertext gives a ciphertext whose value is the chain's integer value times the encrypted integer.", "quantifier": "all chains, all ciphertexts", "why_tests_cant": "Universal over chains and ciphertexts.", "anchors": ["src/cloudovo/scalar_multiplication/asc.rs: AscEval::eval"]}
{"id": "C26", "title": "Scalar multiplication", "statement": "scalar_mul(k, x) has value k * x with fresh alphabet words for every i32 k and every ciphertext x in unchecked builds; in checked builds it is correct whenever it does not panic, and it does panic for some k (91 and i32::MIN).", "quantifier": "all 2^32 scalars, all ciphertexts, both build profiles", "why_tests_cant": "2^32 scalars times 3^n ciphertexts.", "anchors": ["src/arithmetics.rs: ParmArithmetics::scalar_mul", "src/cloudovo/scalar_multiplication/mod.rs: scalar_mul_impl"]}
{"id": "C27", "title": "Any composition of operations is exact", "statement": "For every expression built from add, sub, opp, shift, add_const, scalar_mul, sgn, max, relu, mul, squ, round_at over encrypted and constant inputs: if evaluation over ciphertexts returns, the result's value equals the integer value of the expression, and when it has at most 63 words it decrypts to it.", "quantifier": "all expression trees, all inputs, all admissible noise", "why_tests_cant": "Unbounded programs; this needs an invariant preserved by every operation.", "anchors": ["src/arithmetics.rs: impl ParmArithmetics for ParmCiphertext"]}
{"id": "C28", "title": "Encrypted neural-network evaluation equals plaintext evaluation", "statement": "For every network and encrypted inputs, evaluating over ciphertexts gives outputs whose values equal the evaluation over integers of the same network.", "quantifier": "all networks, all weights and biases (except i64::MIN), all inputs", "why_tests_cant": "Tests use one small random network.", "anchors": ["src/cloudovo/neural_network.rs: NeuralNetwork::eval, eval_layer, affine_pool, max_pool, max_pool_recursion, act_fn"]}
{"id": "C29", "title": "The cloud computation is oblivious", "statement": "The sequence of bootstraps, the control flow, panics, and the result's length and trivial/encrypted pattern depend only on public data (lengths, trivial words, parameters, scalars), never on encrypted contents: each operation is a fixed circuit chosen by the public shape.", "quantifier": "all pairs of inputs with equal public shape", "why_tests_cant": "A relational (two-run) property over all inputs.", "anchors": ["src/cloudovo/*.rs", "src/arithmetics.rs"]}
{"id": "C30", "title": "Parallel execution order does not matter", "statement": "Every interleaving of the parallel loops and nested thread scopes gives the same result as the sequential (seq_analyze) execution, and always terminates.", "quantifier": "all interleavings of the task steps", "why_tests_cant": "Schedules cannot be enumerated by running.", "anchors": ["src/cloudovo/addition.rs: q_w_iter, z_w_iter", "src/cloudovo/multiplication.rs: thread::scope, fill_mulary", "src/cloudovo/squaring.rs: thread::scope", "src/seq_utils"]}
{"id": "C31", "title": "Bootstrap counts", "statement": "Addition of ciphertexts uses at most twice as many bootstraps as active words, and exactly that many when all active words are encrypted; signum, maximum, schoolbook multiplication, and rounding have the stated bounds; opp, shift and fully trivial computations use none.", "quantifier": "all operands", "why_tests_cant": "Counts for all lengths and masks.", "anchors": ["src/cloudovo/pbs.rs: N_PBS", "src/cloudovo/addition.rs", "src/cloudovo/signum.rs", "src/cloudovo/maximum.rs", "src/cloudovo/multiplication.rs"]}
{"id": "C32", "title": "Bootstrap-count reporting is exact", "statement": "In seq_analyze mode every finished operation reports exactly the number of bootstraps executed between its start and its finish, nested operations included, and the counter stack is restored.", "quantifier": "all nestings of operations", "why_tests_cant": "Universal over call trees.", "anchors": ["src/misc.rs: start_pbs_analysis, finish_pbs_analysis", "src/lib.rs: N_PBS"]}
{"id": "C33", "title": "Bootstrapping depth", "statement": "The longest chain of dependent bootstraps is at most 2 for addition of any length, and grows only logarithmically (base 4) with length for signum and maximum.", "quantifier": "all lengths", "why_tests_cant": "The parallelism claim of the library is asymptotic.", "anchors": ["src/cloudovo/addition.rs", "src/cloudovo/signum.rs", "src/cloudovo/maximum.rs"]}
{"id": "C34", "title": "Quadratic weight budget", "statement": "For independent fresh inputs every bootstrap input in add, sub, sgn, max, mul of one word, products of equally long encrypted operands and squares of encrypted operands (up to the longest accepted length, 32 words) has a quadratic weight within the parameter's quad_weight for every accepted setting (>= 22). With operands that share samples the minimum accepted setting is exceeded: multiplying by 3 reaches 26 and x + x reaches 40.", "quantifier": "all lengths, all accepted quad_weight values", "why_tests_cant": "Noise overflow shows as rare random decryption failures.", "anchors": ["src/lib.rs: MIN_QUAD_WEIGHT, ParmesanUserovo::new", "src/cloudovo/signum.rs", "src/cloudovo/maximum.rs"]}
{"id": "C35", "title": "Parameter gate", "statement": "ParmesanUserovo::new fails for quad_weight below 22 without touching the file system, and otherwise succeeds exactly when key loading or generation succeeds.", "quantifier": "all parameters, all file-system states", "why_tests_cant": "Universal over parameters and states.", "anchors": ["src/lib.rs: ParmesanUserovo::new"]}
{"id": "C36", "title": "Keys persist", "statement": "After a successful first creation, every later creation with the same parameters returns the same keys and does not modify the file system.", "quantifier": "all parameters, all key pairs, all file-system states", "why_tests_cant": "Universal over histories.", "anchors": ["src/userovo/keys.rs: PrivKeySet::new"]}
{"id": "C37", "title": "Key-file identity and crash safety", "statement": "Two parameter sets that differ (for example in message modulus or GLWE dimension) should not share a key file, and an interrupted export should not poison later runs. Both fail: the file name ignores those fields, and a crash during export leaves a file that makes every later creation fail.", "quantifier": "existence of witnesses; all crash points", "why_tests_cant": "Crash points and parameter collisions are never exercised.", "anchors": ["src/userovo/keys.rs: PrivKeySet::new, filename_from_params"]}
{"id": "C38", "title": "Log level bookkeeping", "statement": "Nested measured blocks restore the log level after completion as long as nesting stays below 255; beyond that, or after an early error exit, the level is not restored.", "quantifier": "all nestings", "why_tests_cant": "Universal over nestings; saturation at 255.", "anchors": ["src/misc.rs: measure_duration", "src/lib.rs: LOG_LVL"]}
{"id": "C39", "title": "Log file contents", "statement": "After any sequence of log calls in a fresh process the log file contains exactly those messages in order, regardless of its previous contents.", "quantifier": "all sequences, all previous contents", "why_tests_cant": "Universal over histories.", "anchors": ["src/misc.rs: parm_log_plain", "src/lib.rs: LOGFILE, LOG_INITED"]}
{"id": "C40", "title": "Bit lengths and Hamming weight", "statement": "bit_len_32 and bit_len_64 return the position of the highest set bit plus one (0 for 0); bin_hw returns the number of non-zero digits and fails exactly when some digit is outside {-1,0,1} (except for i32::MIN, accepted by unchecked builds).", "quantifier": "all u32, all u64, all digit vectors", "why_tests_cant": "2^64 inputs.", "anchors": ["src/userovo/encryption.rs: bit_len_32, bit_len_64, bin_hw"]}
{"id": "C41", "title": "Plain and encrypted arithmetic agree", "statement": "The i64 instance of the arithmetic interface computes the same integer function as the ciphertext instance for every operation, whenever no i64 overflow occurs; in particular rounding agrees including ties and negatives, except that the plain one rejects positions of 63 and above.", "quantifier": "all i64 inputs in range, all operations", "why_tests_cant": "The plain instance is the reference in every test, yet is itself unverified.", "anchors": ["src/arithmetics.rs: impl ParmArithmetics for i64"]}
{"id": "C42", "title": "Chain-table loading", "statement": "The loader accepts exactly tables with 2048 entries; it does not validate chains, so a table with a wrong chain is accepted and makes scalar multiplication return a wrong value.", "quantifier": "all tables; existence of a witness", "why_tests_cant": "Only the shipped file is ever loaded.", "anchors": ["src/cloudovo/scalar_multiplication/asc.rs: map_from_yaml"]}
{"id": "C43", "title": "Degenerate networks and pools", "statement": "A network without layers returns no outputs (not its inputs); an empty maximum pool returns the bias (0 + b); an activation perceptron applies ReLU, although documented as signum; weights beyond the number of inputs are ignored.", "quantifier": "all inputs", "why_tests_cant": "Edge cases not covered by tests.", "anchors": ["src/cloudovo/neural_network.rs"]}
{"id": "C44", "title": "Redundant representations are interchangeable", "statement": "For any two ciphertexts representing the same integer with different digit patterns or lengths, each operation returns results of equal value.", "quantifier": "all pairs of representations", "why_tests_cant": "Exponentially many representations of each integer.", "anchors": ["src/arithmetics.rs: impl ParmArithmetics for ParmCiphertext"]}
{"id": "C45", "title": "The arithmetic demo", "statement": "All nineteen ciphertexts that arith_demo computes encrypt the announced values, and the printed expectations are those values; but the product and the square of the 32-word numbers have 66 and 68 words, so decryption refuses them and the demo always ends in an error, in every build.", "quantifier": "all keys, randomness and noise within the contract; both build profiles; every accepted quadratic weight", "why_tests_cant": "The demo is a binary that no test runs; its outcome over all randomness needs a proof.", "anchors": ["src/demos.rs: arith_demo", "src/userovo/encryption.rs: parm_decrypt"]}
{"id": "C46", "title": "Growth of ciphertexts and the network demo", "statement": "A run on words without content decides how a program or network on fresh encryptions ends, the length of its results, and thus whether they decrypt; a sum of c operands of n words has at least n+c-1 words; a network whose word count exceeds 63 has no output that decrypts. Hence nn_demo never finishes: with overflow checks the recoding of a weight panics, without them the correct outputs are too long to decrypt. The small network does finish with the right values.", "quantifier": "all programs, networks, backends, inputs and randomness", "why_tests_cant": "Lengths depend on the topology and weights; the test networks are small.", "anchors": ["src/demos.rs: nn_demo, demo_nn, arrhythmia_nn", "src/cloudovo/neural_network.rs", "src/cloudovo/addition.rs"]}
{"id": "C47", "title": "Additions in a multiplication by a known integer", "statement": "Every shipped addition chain has fewer additions than any signed-digit form of its value has non-zero digits. A multiplication by k performs exactly one chain per different window plus one addition between neighbouring windows, never more than the non-zero digits of the recoding of |k| minus one, at most 14, and at most 2(n+50) bootstraps for each; 0, 1 and -1 cost nothing. The experiment that compares both ways of counting reports 6956 against 5558 additions for 1792 windows without overflow checks, and panics with them.", "quantifier": "all multipliers in i32, ciphertexts, backends; both build profiles", "why_tests_cant": "Four billion multipliers; the experiment is run by hand and only for the windows of 12-bit numbers.", "anchors": ["src/cloudovo/scalar_multiplication/mod.rs: scalar_mul_impl", "src/cloudovo/scalar_multiplication/asc.rs: Asc::eval", "src/experiments.rs: avg_adds_in_scalar_mul"]}
{"id": "C48", "title": "Numbers derived from the parameters", "statement": "For a precision of 1 to 30 bits the mask, the middle and the size of the plaintext space are 2^p-1, 2^(p-1) and 2^p. At 31 bits the size is negative, at 0 and from 32 bits on they overflow. The shipped set differs from its base only in the message modulus, its precision fits that modulus, and -1 decrypts as the mask.", "quantifier": "all precisions, both build profiles, all backends", "why_tests_cant": "The suite has one parameter set.", "anchors": ["src/params.rs: plaintext_mask, plaintext_pos_max, plaintext_space_size, PAR_TFHE_V0_5__M4_C0"]}
{"id": "C49", "title": "The test suite passes, and where it cannot", "statement": "Every test of tests/ passes for every value its random generator can draw, every backend and any number of rounds, in both build profiles. Exceptions with overflow checks (the default of cargo test): the recoding test and the scalar multiplication test panic on some of the scalars they draw, 91 for example, and otherwise pass. A test fails if the two key sets of the suite differ.", "quantifier": "all draws, rounds, modes, backends, randomness", "why_tests_cant": "The suite itself is random; a run says nothing about the other draws.", "anchors": ["tests/common/mod.rs", "tests/test_addition.rs", "tests/test_scalar_multiplication.rs", "tests/test_nn.rs"]}
{"id": "C50", "title": "Two key creations at the same time", "statement": "With a complete key file, all interleavings of two calls of PrivKeySet::new give both the stored keys. Without one: each call ends with its own keys, or with those of the one that looked first, or fails to decode. So both may succeed with different keys, one may fail on a file half written, and two writers may leave any mixture of their encodings.", "quantifier": "all schedules, keys, codecs with round trip", "why_tests_cant": "Interleavings cannot be chosen; the suite itself makes two such calls from parallel threads.", "anchors": ["src/userovo/keys.rs: PrivKeySet::new", "tests/common/mod.rs: TEST_PRIV_KEYS, TEST_PU"]}
{"id": "C51", "title": "Depth of products, squares and the other operations", "statement": "On operands behind at most d bootstraps, of any shape: a product of up to n words is behind at most d+2n-1 (n<=17), d+2*ceil(n/2)+9 (n>=18), never more than d+41; a square d+1 (up to 3 words), d+2*ceil(n/2)+3; a multiplication by a known integer d+12; a rounding of up to 4^r words d+r+3 (one more below quad weight 85); adding a constant d+2. On encrypted operands of equal length the depth of products and squares is exactly a fixed number for each length up to 32. It does not grow with the length: 15 words take 29, 16 words 23.", "quantifier": "all lengths, shapes, circuits", "why_tests_cant": "Tests see values only; the depth decides the latency with unlimited threads and is not measured.", "anchors": ["src/cloudovo/multiplication.rs: mul_impl", "src/cloudovo/squaring.rs: squ_impl", "src/cloudovo/scalar_multiplication/mod.rs", "src/cloudovo/rounding.rs"]}
{"id": "C52", "title": "Bootstraps of products and squares, and the choice of the method", "statement": "The number of bootstraps of a product or square of encrypted words depends on the length only and is a fixed number for each length up to 32; n(3n-2) where the schoolbook method is used. mul_impl takes the cheaper of one Karatsuba step and the schoolbook method at every length; a square of two or more words is strictly cheaper than the product with itself. The comment that 14 and >= 16 words use Karatsuba is wrong at 14 and 17, where Karatsuba would take more.", "quantifier": "all contents, backends, lengths up to 32", "why_tests_cant": "Timing depends on the machine; no test counts bootstraps or compares the two methods.", "anchors": ["src/cloudovo/multiplication.rs:36", "src/cloudovo/multiplication.rs: mul_impl, mul_karatsuba, mul_schoolbook", "src/cloudovo/squaring.rs"]}
{"id": "C53", "title": "The shipped addition chains are shortest", "statement": "For every odd number below 4096, no addition-subtraction chain that reaches the number or its opposite, with shifts of any size and any intermediate values, has fewer steps than the chain of the shipped table (\"optimal ASC's\", experiments.rs:8). Four steps are always enough and 512 numbers need them. The total of 5558 additions that the experiment prints cannot be lowered by choosing other chains for the windows.", "quantifier": "all entries of the table, all chains (unbounded shifts)", "why_tests_cant": "Tests check values of chains, not that a shorter one does not exist; the generating script searches a bounded width only.", "anchors": ["src/experiments.rs:8", "assets/asc-12.yaml", "src/cloudovo/scalar_multiplication/asc.rs: eval", "scripts/add-sub-special-chains/variant.rb"]}
{"id": "C54", "title": "The log level with several threads", "statement": "In one thread the accesses of LOG_LVL amount to the sequential bookkeeping. If no thread is interrupted during an update, every schedule of threads with properly nested blocks restores the level, does not panic, and logs levels between the start and the start plus the sum of nestings (at most 255 in all). With the accesses as they are, two threads with n blocks each can leave the level n higher for good; with one block each at level 0 a checked build can panic and an unchecked one go on at level 255. Even uninterrupted, a block is not logged at its own depth.", "quantifier": "all numbers of threads, all nested traces, all schedules", "why_tests_cant": "Interleavings are not under the test's control and the level is only visible as indentation.", "anchors": ["src/misc.rs:17-19", "src/misc.rs:40-52", "src/lib.rs:85", "src/cloudovo/multiplication.rs:142-172", "src/cloudovo/squaring.rs:82-90"]}
{"id": "C55", "title": "The log file with several threads", "statement": "Calls of parm_log_plain! one after the other leave exactly their lines, whatever file was there. Calls at the same time, once LOG_INITED is set and the file exists, never panic and lose nothing: the earlier content is followed by all messages and line feeds in some order; but two messages can end up on one line. The first calls of a process at the same time can panic in two places (remove_file; opening before the file is created) or both succeed and lose a line. A call that creates the file and is not interrupted leaves exactly its own line, even when another call has created the file meanwhile; interrupted by one with a shorter message it leaves zero bytes that nobody has written. In no schedule is a file of an earlier process written to, and every byte of the new file is from a message, a line feed or such a zero.", "quantifier": "all numbers of calls, all messages, all schedules", "why_tests_cant": "Needs particular interleavings of the first log calls; no test reads the log.", "anchors": ["src/misc.rs:113-134", "src/lib.rs:87-88"]}
{"id": "C56", "title": "The recoding of scalars is local", "statement": "Every 12-digit window of the Koyama-Tsuruoka recoding of every 32-bit scalar has, up to sign, an odd value below 2^12 that is the first window of its own recoding. Exactly 1792 values occur. Multiplication by an i32 therefore reads only these chains: two tables that agree there give the same result, panics and events, and 256 of the 2048 shipped chains are never read. The experiment avg_adds_in_scalar_mul returns the same map and totals for every gen_bits from 12 to 31, as the comment on line 16 says.", "quantifier": "all scalars below 2^32 (all i32 for products), all tables, all operands, all gen_bits from 12 to 31", "why_tests_cant": "Needs all 2^32 scalars; the tests multiply by a few random ones.", "anchors": ["src/experiments.rs:10-42", "src/cloudovo/scalar_multiplication/naf.rs", "src/cloudovo/scalar_multiplication/mod.rs:53-78"]}
{"id": "C57", "title": "Messages: lines, alignment, boxes, and the picture of a run", "statement": "Every line of an information, debug or error message is printed as one line with its text unchanged; in information and debug messages the text of all lines starts in the same column, at every log level, with and without colours; in error messages of several lines the first starts one column further right. An information box panics exactly if byte 100 of the message is inside a character, never for ASCII; otherwise it shows the first 100 bytes in three lines whose edges are equally wide, unless the message has wide characters. Every line printed inside a measured block carries a bar in the column in which the block's last line has its corner.", "quantifier": "all messages, all log levels, all runs that end", "why_tests_cant": "No test reads what is printed.", "anchors": ["src/misc.rs:42-48", "src/misc.rs:147", "src/misc.rs:198-263", "src/ciphertexts.rs:298-306"]}
{"id": "C58", "title": "A passed test means a right result", "statement": "For any backend and any keys, right or wrong, a round of a test of the suite passes only if the ciphertext that the tested operation returns for the drawn operands decrypts to the exact mathematical result (sum, difference, product, square, maximum, sign, rounding, scalar multiple, network output), and the operands were encrypted word by word as the mode says. A loop passes only if every round does.", "quantifier": "all backends, clients, parameter records and chain tables; all drawn operands within the stated lengths; all modes", "why_tests_cant": "It is a statement about the tests themselves: that they would fail for every wrong library, which can only be sampled by breaking the library in particular ways.", "anchors": ["tests/common/mod.rs:89", "tests/test_addition.rs:64", "tests/test_addition_misc.rs:75", "tests/test_multiplication.rs:96", "tests/test_squaring.rs:66", "tests/test_maximum.rs:152", "tests/test_signum.rs:61", "tests/test_rounding.rs:65", "tests/test_scalar_multiplication.rs:62", "tests/test_encr_word.rs:50", "tests/test_pbs.rs:37", "tests/test_nn.rs:43"]}
{"id": "C59", "title": "The Ruby prototype of the recoding and the Rust function give the same digits", "statement": "For every u32 k, whatever koyama_tsuruoka_vec returns (checked or unchecked build) equals the digits that scripts/koyama-tsuruoka/kt.rb computes. The script recodes integers of any size correctly (digits in {-1,0,1}, value k, no leading zero) exactly when the length it derives from the floating-point logarithm is the bit length of k; with another length L the digits represent (k mod 2^(L-1)) + 2^(L-1).", "quantifier": "all k, all lengths, both build profiles", "why_tests_cant": "there is no test that runs both implementations, and the integers of the script are unbounded", "anchors": ["scripts/koyama-tsuruoka/kt.rb:5-91", "src/cloudovo/scalar_multiplication/naf.rs:95-175"]}
{"id": "C60", "title": "The scripts that generate the table of chains always give a valid table", "statement": "For every LIMIT_WID >= 2 and every number of extensions, variant.rb ends without an exception; every chain it stores is an addition-subtraction chain for the odd number it is stored under; printing the guaranteed part and reading it with parse-asc_log-to-yaml.rb gives a table with strictly increasing keys, exactly the numbers found up to 2^(LIMIT_WID-1), whose chains refer to earlier elements only and have the value of their key. A table of this kind that contains the odd numbers below 2^12 makes scalar multiplication correct for every i32 scalar. Every entry of the shipped table is what the parser makes of the printed form of its chain. The j-th element of a stored chain is below 2^(LIMIT_WID + j). The chains stored under one number are equally long and pairwise different, and are the chains of the levels. The absolute value of +-1 plus k signed powers of two below 2^LIMIT_WID is stored after k extensions with a chain of at most k additions; so with (LIMIT_WID-1)/2 extensions the table has exactly the odd numbers up to 2^(LIMIT_WID-1), and with LIMIT_WID >= 13 and 6 extensions the library works with it.", "quantifier": "all widths, all numbers of extensions, all chains found, all scalars", "why_tests_cant": "one run of the search takes hours and only shows one width; the parser is never tested", "anchors": ["scripts/add-sub-special-chains/variant.rb:14-207", "scripts/add-sub-special-chains/parse-asc_log-to-yaml.rb:1-33", "assets/asc-12.yaml"]}
{"id": "C61", "title": "Exactly which settings of quad_weight keep every program within its noise budget", "statement": "For bit precision 5 and inputs made of ciphertext words and public digits: every bootstrap behind the result of every program (any nesting of addition, subtraction, constants, scalar multiplication, signum, maximum, ReLU, multiplication, squaring, rounding, shifts, with any reuse of values) and of every neural network has a sum of squared coefficients of at most quad_weight if and only if 65 <= quad_weight <= 84 or quad_weight >= 225. The shipped 100 and the accepted minimum 22 do not: a program exceeds them.", "quantifier": "all programs, all networks, all input shapes, all settings", "why_tests_cant": "decryption succeeds with high probability even with somewhat too much noise; a test runs one program and sees no weights", "anchors": ["src/params.rs:10-116", "src/cloudovo/addition.rs:20-206", "src/cloudovo/signum.rs:20-155", "src/cloudovo/maximum.rs:20-89", "src/cloudovo/multiplication.rs:20-337", "src/cloudovo/squaring.rs:20-187", "src/cloudovo/rounding.rs:15-69", "src/cloudovo/scalar_multiplication/"]}
{"id": "C62", "title": "What the cost script predicts about products and squares", "statement": "search-optimum-multiplication.rb ends without an exception and prints a line for each of 4 to 33 words. Its number of bootstraps for a product is the number that pa_mul takes exactly up to 28 words and too low from 29 on (its own note says that it only holds while Karatsuba is followed by schoolbook). The method it prints is the cheaper one and the one that mul_impl uses at every length. The second number of a line, the price of the other method, is right for the schoolbook method always, and for Karatsuba except for 4, 5, 7 and 29 or more words, where it is too low. For squares it is right only for 1, 2, 3, 4, 6, 8 and 12 words, too high for 5, 10 and 20, too low otherwise. Theorem C62_gaps gives every difference between a printed number and the actual one.", "quantifier": "all contents, backends, lengths up to 32", "why_tests_cant": "the script is never compared with the library; no test counts bootstraps", "anchors": ["scripts/optimal-multiplication/search-optimum-multiplication.rb:15-119", "src/cloudovo/multiplication.rs:30-86", "src/cloudovo/squaring.rs:30-115"]}
{"id": "C63", "title": "Which scalars a build with overflow checks refuses", "statement": "In a build with overflow checks (plain cargo test) the recoding of a scalar subtracts 1 from a u32 zero. It panics exactly for the scalars in whose recoding a -1 stands for a zero bit and, further up, a 1 stands for a zero bit; for every other scalar it gives the same digits as a release build. A scalar product, a program or a network whose scalars are all accepted behaves identically in both builds, events included; one that multiplies by a refused scalar never succeeds with checks. For a network, only the weights in use matter (the first n of a perceptron with n inputs): it panics if and only if one of them is refused. 2906428987 of the 2^32 scalars, 67.7 %, are refused. No weight of the demo network is refused, and 122 of the 1216 weights of the arrhythmia network are.", "quantifier": "all u32 recodings, all i32 scalars, all ciphertexts, backends, programs and networks", "why_tests_cant": "make test runs in release mode, where nothing panics; plain cargo test draws few scalars", "anchors": ["src/cloudovo/scalar_multiplication/naf.rs: koyama_tsuruoka_vec", "src/cloudovo/scalar_multiplication/mod.rs:53-78", "Makefile"]}
{"id": "C64", "title": "The short chains listed by gen-chains.rb", "statement": "For every LIMIT_LOG the script ends without an exception and dumps, in increasing order and each once, exactly the sums of one or two signed powers of two below 2^LIMIT_LOG, except 2^LIMIT_LOG and its opposite. What stands beside a value consists of signed powers of two that add up to it, with as few additions as any such sum. It skips each signed power added to itself and nothing else. With LIMIT_LOG = 10 it lists 167 values, 20 of which need no addition.", "quantifier": "all LIMIT_LOG, all values", "why_tests_cant": "the script has no tests, and minimality quantifies over all sums", "anchors": ["scripts/add-sub-special-chains/gen-chains.rb:1-114"]}
{"id": "C65", "title": "The file of chains, read as text", "statement": "The YAML text written for a table of chains is read back as that table, so different tables give different files. The text of assets/asc-12.yaml is the one written for the table that the other theorems are about, and loading it succeeds with this table.", "quantifier": "all tables whose numbers fit usize; every byte of the shipped file", "why_tests_cant": "the tests load the file once and check the values of the chains only, not that nothing else would be read", "anchors": ["assets/asc-12.yaml", "src/cloudovo/scalar_multiplication/asc.rs:96-128", "src/lib.rs:79-82", "scripts/add-sub-special-chains/parse-asc_log-to-yaml.rb:33"]}
{"id": "C66", "title": "From the log of the chain search to the file that is shipped", "statement": "The guaranteed part of scripts/add-sub-special-chains/limit-13_v4.log is, byte for byte, the line that the search prints for each entry of the shipped table, in order. parse-asc_log-to-yaml.rb reads it as exactly this table. The text it writes is assets/asc-12.yaml with a colon in front of every field name (the keys are symbols); without these colons it is the shipped file, and with them the library fails to load it, whatever the table, unless no chain has a step.", "quantifier": "every byte of the log and of the file; all texts (UTF-8), all tables (colons)", "why_tests_cant": "no test runs the scripts; the tests load the file once", "anchors": ["scripts/add-sub-special-chains/parse-asc_log-to-yaml.rb", "scripts/add-sub-special-chains/limit-13_v4.log", "scripts/add-sub-special-chains/variant.rb:195-207", "assets/asc-12.yaml", "src/cloudovo/scalar_multiplication/asc.rs:17-23"]}
{"id": "C67", "title": "The networks of the demo, read as source text", "statement": "The source text of demo_nn and arrhythmia_nn in demos.rs, read as Rust struct literals with i32 weights, i64 biases and a usize, gives exactly the two networks that the theorems about the demo are about. Any network of these types written as such a function is read back as itself, so different networks have different texts.", "quantifier": "every character of the two functions; all networks with numbers of the declared types", "why_tests_cant": "the tests use generated networks; the weights of the demo are in no test", "anchors": ["src/demos.rs:445-535", "src/cloudovo/neural_network.rs:58-86"]}
{"id": "C68", "title": "What may be done with a noisy result besides decrypting it", "statement": "At the shipped quad_weight (>= 85) two results of add_noisy/sub_noisy may be added or subtracted once more (noisily or not), and at >= 41 one such result and an encryption: decryption of the outcome returns the exact integer or the error 'word not in alphabet', never another integer. The error does occur. The sign of a noisy difference of equal numbers can come out as -1, and a third noisy level can decrypt to a wrong integer without any error. In quadratic weights: 20 for the noisy sum itself, 68 with an encryption, 116 for two noisy sums and 426 for the sign (shipped 100).", "quantifier": "all backends meeting the contract at the given quad_weight, all matching clients, all encryptions up to 61 words, all combinations of + and -, both noisy and refreshed; existence of backends for the refutations", "why_tests_cant": "Actual noise is far below its bound in almost every run, so a test of a chain of noisy operations passes; whether the carry bootstraps may exceed tolerance and whether that matters for the value is an argument about all noise patterns.", "anchors": ["src/arithmetics.rs:50-66", "src/arithmetics.rs:278-320", "src/cloudovo/addition.rs:107-155", "src/userovo/encryption.rs:109-121"]}
{"id": "C69", "title": "Windows of 13 digits would cost at most four additions each", "statement": "Every odd number below 2^13 is reached from 1 in at most four steps, each adding or subtracting two earlier numbers, one of them shifted left; none needs five. Of the 4096 numbers, 1, 23, 279, 2089 and 1704 need 0, 1, 2, 3 and 4 steps. With windows of 13 digits, exactly 3600 of them occur as absolute values of windows of 32-bit scalars, and of these 1, 22, 256, 1858 and 1463 need 0, 1, 2, 3 and 4 steps. The number 5517, for which the repository's search found no chain of four, occurs and has one.", "quantifier": "all odd numbers below 2^13, all chains with arbitrary shifts and intermediate values, all scalars 0 < k < 2^32", "why_tests_cant": "The lower bound speaks about infinitely many chains, and the set of windows about all 2^32 scalars.", "anchors": ["src/lib.rs:181", "src/cloudovo/scalar_multiplication/naf.rs:3-32", "scripts/add-sub-special-chains/limit-14_v2.log"]}
{"id": "C70", "title": "Addition is parallel, plain binary addition is not, and the example of the README passes", "statement": "Word j of the result of add, sub, add_noisy and sub_noisy is determined by words j-2, j-1 and j of the operands, given the lengths and which words are trivial zeros; looking at only one word below is not enough. In the plain binary representation, no function of any fixed number of bits of the operands gives a bit of the sum. The example of the README prints a = -544883923, b = 1125934951, a + b = 581051028 and PASS. Whatever the backend and the keys do, that program says PASS only if the decrypted sum is right.", "quantifier": "locality: all backends, all ciphertexts (whatever they encrypt), all positions; binary: all window sizes and all functions; README: all backends meeting the contract, all keys and randomness, both builds", "why_tests_cant": "Locality compares all pairs of ciphertexts; the negative claim quantifies over all functions.", "anchors": ["README.md:20-24", "README.md:55-124", "src/cloudovo/addition.rs:20-160"]}
{"id": "C71", "title": "The linear combinations before lookups are the lightest possible, but for addition", "statement": "Among all integer linear combinations from which bootstraps (negacyclic tables of 16 entries) can give the result, those of the library have the least sum of squares for products of two words (10), squares of two and three words (5, 21), signs of two, three and four words (5, 21, 85), rounding (5) and maximum (41). For parallel addition this is false: 20 is used, 10 is enough (carry from 2w_i + w_(i-1)) and least. A product of one word by two is possible, exactly for coefficients (a, b, c) with a = 8 modulo 16, b odd and c = 2b modulo 32, at weight 69 or more; larger products, squares of more than three words and signs of more than four are impossible.", "quantifier": "all integer coefficients, all tables (any number of them), all words; limits: all numbers of words", "why_tests_cant": "Impossibility claims over all coefficients and all tables.", "anchors": ["src/cloudovo/multiplication.rs:305-320", "src/cloudovo/squaring.rs:140-175", "src/cloudovo/signum.rs:90-145", "src/cloudovo/maximum.rs:60-90", "src/cloudovo/rounding.rs:40-60", "src/cloudovo/addition.rs:107-130", "src/lib.rs:183-186"]}
{"id": "C72", "title": "Squares of two and three words: no more zeros, but fewer lookups", "statement": "Representing the squares of all numbers of two (three) words needs at least three (five) non-zero positions, which is what squ_3_bit_pi_5 and its users have. The number of bootstraps is nevertheless not the least: two (four) lookups are enough, with each result word 0 or plus or minus one of the lookups, and no fewer lookups suffice even if result words are arbitrary integer combinations of them. The library takes three (five).", "quantifier": "all sets of positions, all digit-valued functions, all integer coefficients, all numbers of the given length; the count of the library for every backend and fresh ciphertext", "why_tests_cant": "Impossibility over all functions and coefficients; the alternative is not in the code.", "anchors": ["src/lib.rs:183-185", "src/cloudovo/squaring.rs:140-190", "src/cloudovo/pbs.rs"]}
{"id": "C73", "title": "What the notes about multiplication would give", "statement": "Adding the rows of a product in pairs, or splitting Karatsuba elsewhere with schoolbook for the low parts, still gives the product. Rows in pairs make products of 4 to 32 words at least two lookups shallower than the library's, and cost at most an eighth more bootstraps than row by row (4 to 17 words); leaving the longest row for the end does not keep the result as short as row by row does (refuting the note). Up to 30 words no split near the middle is cheaper than the library; 31 words split as 16|15 save 34 bootstraps, 32 words save 27 with schoolbook for the low product; 33 words are best split as the rule already does (refuting the note), 35 as 18|17 save 40 against the rule, 32 as 17|15 and 36 as 19|17 save nothing.", "quantifier": "All backends with the contract and all equal lengths for the values; all backends and all fresh ciphertexts of the stated lengths for the counts; all symbolic inputs for the depth.", "why_tests_cant": "The code of the notes does not exist, a product of 33 words is refused, and a test on one run does not show that counts hold for every ciphertext and that no other split near the middle is cheaper.", "anchors": ["src/lib.rs:187", "src/lib.rs:195-198", "src/cloudovo/multiplication.rs:89-206", "src/cloudovo/multiplication.rs:322-337"]}
{"id": "C74", "title": "Times in the log and on the screen", "statement": "A line of the operations log gives back the level, the message and the start and end times modulo one hour, to the millisecond, and nothing else: two lines are equal exactly if these agree. For an operation of less than an hour the difference modulo an hour is its duration to a millisecond; an operation that takes an hour longer gives the same line (refuting that the log tells how long an operation took). The printed duration is exact below one second and within half a millisecond from there on. It is given in the largest of the three units of which it holds at least one, and up to level 99 the messages of the log are aligned.", "quantifier": "All levels, messages, start and end times and durations.", "why_tests_cant": "Tests do not look at the text, no test runs for an hour, and whether two different runs give the same line is a statement about all pairs of runs.", "anchors": ["src/misc.rs:31-39", "src/misc.rs:82-89", "src/misc.rs:99-110"]}
{"id": "C75", "title": "What the quadratic weight gives when noise is random", "statement": "Let the noises of fresh encryptions and of bootstraps be uncorrelated random variables with mean square at most v. A combination of samples of quadratic weight n has noise of mean square at most n*v. If a program is run with a quad_weight of 65 to 84 or at least 225, then the probability that its result decrypts to anything else than the value of the program is at most k * quad_weight * v / tau^2, where k counts the distinct combinations that are bootstrapped and the words of the result, and tau is any threshold that leaves room for the rounding of a bootstrap within half a box. The same with n in place of quad_weight for every program whose circuit stays within quadratic weights of n.", "quantifier": "All programs of all operations, all inputs with any digits public, all finite probability distributions over backends with unbounded noise, all thresholds.", "why_tests_cant": "Failures are far too rare to be seen in a test, and a test has one noise distribution.", "anchors": ["src/params.rs:13", "src/params.rs:115", "src/lib.rs:71-72", "src/ciphertexts.rs: add_inplace, sub_inplace, opp_inplace, mul_const_inplace", "src/cloudovo/pbs.rs: gen_no_padding_acc, eval_LUT_5_float"]}
{"id": "C76", "title": "What the older searches for chains guarantee", "statement": "guarantee_11-bit.log holds exactly one chain for each odd number below 2^11, in order, every one evaluates to its number, and no addition-subtraction chain for the number or its opposite has fewer steps. limit-13_v2.log, above its line \"no guarantee\", holds one correct chain for each odd number below 2^12, but exactly 18 of them (805, 1173, ..., 3813) take one addition more than necessary, refuting that everything above that line is shortest.", "quantifier": "All lines of both logs, all chains with any shifts and intermediate values.", "why_tests_cant": "That a chain is shortest is a statement about all chains, of which there are infinitely many.", "anchors": ["scripts/add-sub-special-chains/guarantee_11-bit.log", "scripts/add-sub-special-chains/limit-13_v2.log", "scripts/add-sub-special-chains/parse-asc_log-to-yaml.rb:3-31", "scripts/add-sub-special-chains/variant.rb:195-207"]}
{"id": "C77", "title": "Counted bootstraps bound the risk", "statement": "Every bootstrap that a result depends on has been counted: the different bootstraps behind the result of a program or of all outputs of a network are at most the PBS count of the run, on any backend. Hence, with uncorrelated noise of mean square at most v, the probability that a program, or some output of a network, decrypts to a wrong value is at most (PBS count + encrypted words of the result) * quad_weight * v / tau^2.", "quantifier": "all programs, networks, inputs, backends; for the probability: quad_weight 65..84 or at least 225, shipped chains, all finite distributions of keys and noise as in C75", "why_tests_cant": "It compares an infinite family of circuits with a counter, and speaks about probabilities far below what sampling can see.", "anchors": ["src/cloudovo/pbs.rs: eval_LUT_5_float", "src/misc.rs: finish_pbs_analysis", "src/arithmetics.rs"]}
{"id": "C78", "title": "The conditional shift of the notes", "statement": "The conditional shift sketched in the notes of the crate (look at the leading word, then pick x_i or x_i-1 at every position as maximum does) removes a leading zero if there is one and the lowest word otherwise. So it keeps the value or halves it with an error of at most a half; k shifts remove up to k leading zeros. On n encrypted words k shifts take k(2n-k+1)/2 bootstraps (k(2n-k) if quad_weight is below 41), 2k of them one after the other, none heavier than 41 (16), so every supported quad_weight is kept. The lookup of the leading word cannot be saved: no combination of the three words lets one lookup choose. The relative error after the shift is not bounded, since the representation is redundant, and on the example of the note the rounding of the library leaves 53 in seven words, not six.", "quantifier": "all ciphertexts and lengths, any number of shifts, all backends within the contract, all positions of rounding; cost and weight for quad_weight at least 41 and below; all coefficients for the impossibility", "why_tests_cant": "The feature does not exist yet; impossibility over all coefficients, and weights and counts over all lengths, are beyond runs.", "anchors": ["src/lib.rs:203-209", "src/cloudovo/maximum.rs:66-84", "src/cloudovo/pbs.rs: a_1__pi_5", "src/cloudovo/rounding.rs"]}
{"id": "C79", "title": "Padding with public zeros: right, but never cheaper", "statement": "Appending k public zeros to the operand of a square, or to both operands of a product, does not change the value of the result as long as the length stays within 32. But it always takes more bootstraps than without them, for squares and for products of equally long operands. So no length is better rounded up, to a power of two or otherwise, although lengths next to powers of two are treated differently. A zero on top of a square never costs more than an encrypted word in its place, if there are at least two words below.", "quantifier": "all encrypted operands of 1 to 31 words, all k with at most 32 words in total, all backends (values: all within the contract)", "why_tests_cant": "The suite neither counts bootstraps nor pads operands; the comparison ranges over all lengths and numbers of zeros.", "anchors": ["src/lib.rs:200", "src/cloudovo/squaring.rs:45-115", "src/cloudovo/multiplication.rs", "src/arithmetics.rs: squ, mul"]}
{"id": "C80", "title": "Depth that no circuit for the sign can avoid", "statement": "Whatever the tables are, a circuit with at most d bootstraps in a row, none of quadratic weight above w, gives words that depend on at most w^d encrypted input words. The sign of a number depends on all of its words. So any circuit for the sign of n words within weight w has n <= w^d: its depth grows with the logarithm of n. The lowest word of a maximum of two numbers of n words even needs 2n <= w^d. The signum of the library has, for quad_weight 85 or more, at most four times the depth of any circuit for the sign within the shipped weight of 100.", "quantifier": "all circuits of additions, constants, multiples and arbitrary lookups, all lengths, all weights", "why_tests_cant": "It is a lower bound over all circuits.", "anchors": ["src/cloudovo/signum.rs", "src/cloudovo/pbs.rs: eval_LUT_5_float", "src/params.rs: quad_weight"]}
