#!/usr/bin/env python3
"""Writes /verif/properties.jsonl. One entry per semantic property."""
import json, os
P = []
def p(title, statement, quantifier, why, anchors):
    P.append(dict(id="C%02d" % (len(P) + 1), title=title, statement=statement,
                  quantifier=quantifier, why_tests_cant=why, anchors=anchors))

p("Encrypt/decrypt round trip",
  "For every 64-bit integer m other than i64::MIN and every word count w <= 63, decrypting the encryption of m with w words gives sign(m) * (|m| mod 2^w); in particular it gives m back whenever |m| < 2^w. For i64::MIN the build with overflow checks panics, and the build without them silently encrypts 0.",
  "all m in i64, all w, all encryption randomness with bounded noise, both build profiles",
  "Tests sample random m at one fixed width; 2^64 x 63 cases and all noise values cannot be enumerated.",
  ["src/lib.rs: ParmesanUserovo::encrypt, decrypt", "src/userovo/encryption.rs: parm_encrypt, parm_decrypt, convert_to_vec, convert_from_vec"])
p("encrypt_vec accepts exactly the alphabet",
  "encrypt_vec succeeds if and only if every entry is -1, 0 or 1; on success decrypting word by word gives the same vector back, and decrypting as an integer gives the weighted sum.",
  "all vectors of i32, all lengths",
  "The set of vectors is unbounded and the rejection direction is not tested at all.",
  ["src/lib.rs: ParmesanUserovo::encrypt_vec", "src/userovo/encryption.rs: parm_encrypt_from_vec, parm_decrypt_to_vec"])
p("Decryption is total, exact and guarded",
  "Decrypting a digit vector returns the exact weighted sum (never overflowing i64 at any intermediate point) when it has at most 63 words all in {-1,0,1}; it returns an error for 64 or more words, and an error when some word lies outside the alphabet. Every i64 other than i64::MIN is reachable.",
  "all digit vectors of every length",
  "3^63 vectors; the overflow boundary is only hit at the extreme lengths.",
  ["src/userovo/encryption.rs: convert_from_vec, PARM_CT_MAXLEN"])
p("Word codec round trip and noise tolerance",
  "Encoding a message into the 64-bit torus and decoding it returns the centred residue of the message modulo the message modulus, for every power-of-two modulus; decoding is unchanged by any additive error strictly below half an encoding step, and fails for an error of a full half step upward.",
  "all i32 messages, all moduli 2^1..2^30, all u64 errors in the window",
  "2^32 messages times 2^58 errors.",
  ["src/ciphertexts.rs: delta, mi_to_mu, mu_to_mi, mi_to_pt, pt_to_mu, decrypt_mu, decrypt_mi"])
p("Word-level linear operations are homomorphic",
  "Adding, subtracting, negating, and multiplying a word by an i32 constant acts on the decrypted message as the same operation modulo 32, for every combination of trivial and encrypted operands, as long as the accumulated noise stays below half a step. The result is trivial exactly when all operands are.",
  "all words, all trivial/encrypted mixes, all constants k != i32::MIN",
  "All four trivial/encrypted branch combinations at all torus values cannot be sampled exhaustively.",
  ["src/ciphertexts.rs: add_inplace, sub_inplace, opp_inplace, mul_const_inplace, add_half_inplace, is_triv, is_triv_zero"])
p("Lookup-table accumulator is correct for every table",
  "For every 16-entry table, evaluating it on an encrypted word holding message m (0..31) returns entry m for m < 16 and minus entry m-16 otherwise, for every noise value whose total rotation error stays below half a box; the output noise is fresh, independent of the input noise.",
  "all tables with entries 0..31 (and half-integers), all messages, all phases within the half-box tolerance, all ring sizes that are multiples of 32",
  "32^16 tables times 2^64 phases.",
  ["src/cloudovo/pbs.rs: eval_LUT_5_uint, eval_LUT_5_float, gen_no_padding_acc"])
p("Trivial and encrypted words agree under lookup tables",
  "Evaluating a table on a trivial word gives the same message as evaluating it on an encryption of the same message, for all tables with entries 0..31 or half-integers. With entries of 33 or more the two branches disagree (one saturates, the other wraps).",
  "all tables, all 32 messages",
  "The trivial branch is a separate implementation; tests never compare the branches.",
  ["src/cloudovo/pbs.rs: eval_LUT_5_float"])
p("Named lookup functions compute their documented functions",
  "Each named table function (identity, thresholds at 1, 3, 4, 5, value-weighted thresholds, |X|>=1, |X|>=2, squaring bits, digit product, ReLU+, rounding, non-negativity, max selector) returns its documented mathematical value on its documented input domain.",
  "all inputs in each documented domain, trivial and encrypted, all admissible noise",
  "Tests exercise tables only through the high-level operations and a few random inputs.",
  ["src/cloudovo/pbs.rs: id__pi_5, f_3__pi_5, f_4__pi_5, f_5__pi_5, g_2__pi_5__with_val, f_1__pi_5__with_val, f_0__pi_5__with_val, a_2__pi_5, a_1__pi_5, squ_3_bit__pi_5, mul_bit__pi_5, relu_plus__pi_5, round_2y_s__pi_5, nonneg__pi_5, max_s_2x_6y__pi_5"])
p("Addition and subtraction are exact",
  "add and sub return a ciphertext whose value is exactly x + y and x - y, for all operand lengths (including empty and unequal), all digit patterns, and all mixes of trivial and encrypted words.",
  "all lengths, all digit vectors, all trivial/encrypted mixes, all admissible noise",
  "3^(n+m) digit patterns times 2^(n+m) trivial masks; the trivial-zero trimming has many boundary cases.",
  ["src/arithmetics.rs: ParmArithmetics::add, sub", "src/cloudovo/addition.rs: add_sub_impl"])
p("Addition closes the alphabet, grows by one word and never fails",
  "Every word of a sum or difference again lies in {-1,0,1} with fresh noise, the result has at most max(len x, len y) + 1 words, and the 'Unexpected fatal error' branch is unreachable.",
  "all operands as above",
  "Unreachability and closure are universal statements.",
  ["src/cloudovo/addition.rs: add_sub_impl"])
p("Noisy addition and subtraction decrypt correctly",
  "add_noisy and sub_noisy return a ciphertext with exactly the value x + y and x - y that is still within decryption tolerance when decrypted immediately, with noise at most five times fresh noise.",
  "all operands as above",
  "Universal over digits, masks and noise.",
  ["src/arithmetics.rs: ParmArithmetics::add_noisy, sub_noisy", "src/cloudovo/addition.rs: add_sub_impl"])
p("Opposite, shift and zero",
  "opp negates the value, shift by k multiplies it by 2^k and adds k words, zero has value 0 and no words; none of them uses a bootstrap or increases noise.",
  "all ciphertexts, all shift amounts",
  "Universal over lengths and shifts.",
  ["src/arithmetics.rs: ParmArithmetics::opp, shift, zero", "src/cloudovo/addition.rs: opposite_impl"])
p("Adding a constant",
  "add_const adds exactly k for every i64 k other than i64::MIN. For i64::MIN the checked build panics and the unchecked build silently returns x unchanged.",
  "all k in i64, all ciphertexts, both build profiles",
  "2^64 constants.",
  ["src/arithmetics.rs: ParmArithmetics::add_const", "src/cloudovo/addition.rs: add_const_impl", "src/params.rs: plaintext_mask"])
p("Signum",
  "sgn returns a ciphertext of value -1, 0 or 1 equal to the sign of the encrypted integer, for every length and every redundant digit pattern, for parameters both above and below the direct-multiplication threshold.",
  "all lengths, all digit vectors, all quadratic-weight settings",
  "Recursion depth grows with length; 3^n patterns.",
  ["src/arithmetics.rs: ParmArithmetics::sgn", "src/cloudovo/signum.rs: sgn_impl, sgn_recursion_raw"])
p("Maximum and ReLU",
  "max returns exactly the digits of the larger operand (the first one on a tie), so its value is max(x, y); relu gives max(0, x).",
  "all lengths, all digit vectors, all quadratic-weight settings",
  "Universal over two operands.",
  ["src/arithmetics.rs: ParmArithmetics::max, relu", "src/cloudovo/maximum.rs: max_impl"])
p("Multiplication is exact up to 32 words and rejects longer operands",
  "mul returns a ciphertext of value x * y with fresh alphabet words whenever both operands have at most 32 words, through the one-word, schoolbook and Karatsuba paths, including unequal lengths; for longer operands it panics. No internal recursion ever reaches the rejecting branch.",
  "all lengths <= 32, all digit vectors, all trivial/encrypted mixes",
  "3^64 operand pairs at 32 words.",
  ["src/arithmetics.rs: ParmArithmetics::mul", "src/cloudovo/multiplication.rs: mul_impl, mul_karatsuba, mul_schoolbook, mul_1word, fill_mulary, mul_lwe, reduce_mulsquary"])
p("A product can be decrypted",
  "The product of two operands of at most 31 words has at most 63 words, hence decrypts to the exact product. For two encrypted 32-word operands the result has 66 words, and decryption always fails although the product fits 64 bits.",
  "all operands; all values for the 32-word case",
  "Tests use short operands; the length growth only shows at the documented maximum.",
  ["src/cloudovo/multiplication.rs: mul_impl, mul_karatsuba", "src/userovo/encryption.rs: convert_from_vec", "src/demos.rs: c_xy32"])
p("Squaring is exact up to 32 words; decryptable up to 30",
  "squ returns a ciphertext of value x^2 with fresh alphabet words for every operand of at most 32 words and panics above. The result is decryptable for at most 30 words; for encrypted operands of 31 and 32 words the result has 65 and 68 words and decryption always fails.",
  "all lengths, all digit vectors",
  "3^32 operands; length growth only shows near the maximum.",
  ["src/arithmetics.rs: ParmArithmetics::squ", "src/cloudovo/squaring.rs: squ_impl, squ_dnq, squ_1word, squ_2_3word"])
p("Rounding",
  "round_at at position p returns the nearest multiple of 2^p, ties towards plus infinity, for every redundant representation and every p, including p larger than the length.",
  "all ciphertexts, all positions",
  "Universal over digit patterns; ties and redundant representations of the same number must all agree.",
  ["src/arithmetics.rs: ParmArithmetics::round_at", "src/cloudovo/rounding.rs: round_at_impl"])
p("Koyama-Tsuruoka recoding is correct",
  "For every 32-bit k the recoding uses only digits -1, 0, 1, its weighted sum is k, it has at most bitlen+1 digits, and its last digit is non-zero for k > 0 (unchecked build).",
  "all 2^32 values of k",
  "Tests sample; a recoding bug on rare bit patterns silently corrupts products.",
  ["src/cloudovo/scalar_multiplication/naf.rs: koyama_tsuruoka_vec", "src/userovo/encryption.rs: bit_len_32"])
p("Recoding documentation claims",
  "The recoding is documented to have the same Hamming weight as the non-adjacent form, and is expected not to panic. Both fail: k = 7 has weight 3 instead of 2, and with overflow checks on, k = 91 panics by unsigned underflow.",
  "all 2^32 values of k; existence of a witness",
  "The test compares values only, never weights, and only fails in checked builds.",
  ["src/cloudovo/scalar_multiplication/naf.rs: koyama_tsuruoka_vec"])
p("naf_vec is a non-adjacent form of k",
  "naf_vec(k) has digits in {-1,0,1} and weighted sum k for all k < 2^31. It is not always non-adjacent (k = 11), and for odd k >= 2^31 its value is wrong in unchecked builds and it panics in checked builds.",
  "all 32-bit k; witnesses for the negative parts",
  "Tests sample 30-bit values and only check the sum.",
  ["src/cloudovo/scalar_multiplication/naf.rs: naf_vec"])
p("Sliding windows recompose the scalar",
  "The windows (value, shift) of k satisfy sum value * 2^shift = k; every window value is odd with absolute value below 2^12, so that it always has an addition chain; shifts increase by at least 12.",
  "all 32-bit k",
  "2^32 scalars; a missing window value is a run-time panic.",
  ["src/cloudovo/scalar_multiplication/naf.rs: wind_shifts"])
p("The shipped addition-chain table is valid",
  "For every odd n below 4096 the shipped table has exactly one chain, all its indices refer to earlier elements, and evaluating it on 1 gives n.",
  "all 2048 shipped chains",
  "The loader's check is commented out; nothing validates the file.",
  ["assets/asc-12.yaml", "src/lib.rs: ASC_12", "src/cloudovo/scalar_multiplication/asc.rs: AscEval::eval, AscValue::value"])
p("Chain evaluation is homomorphic",
  "Evaluating any well-formed chain on a ciphertext gives a ciphertext whose value is the chain's integer value times the encrypted integer.",
  "all chains, all ciphertexts",
  "Universal over chains and ciphertexts.",
  ["src/cloudovo/scalar_multiplication/asc.rs: AscEval::eval"])
p("Scalar multiplication",
  "scalar_mul(k, x) has value k * x with fresh alphabet words for every i32 k and every ciphertext x in unchecked builds; in checked builds it is correct whenever it does not panic, and it does panic for some k (91 and i32::MIN).",
  "all 2^32 scalars, all ciphertexts, both build profiles",
  "2^32 scalars times 3^n ciphertexts.",
  ["src/arithmetics.rs: ParmArithmetics::scalar_mul", "src/cloudovo/scalar_multiplication/mod.rs: scalar_mul_impl"])
p("Any composition of operations is exact",
  "For every expression built from add, sub, opp, shift, add_const, scalar_mul, sgn, max, relu, mul, squ, round_at over encrypted and constant inputs: if evaluation over ciphertexts returns, the result's value equals the integer value of the expression, and when it has at most 63 words it decrypts to it.",
  "all expression trees, all inputs, all admissible noise",
  "Unbounded programs; this needs an invariant preserved by every operation.",
  ["src/arithmetics.rs: impl ParmArithmetics for ParmCiphertext"])
p("Encrypted neural-network evaluation equals plaintext evaluation",
  "For every network and encrypted inputs, evaluating over ciphertexts gives outputs whose values equal the evaluation over integers of the same network.",
  "all networks, all weights and biases (except i64::MIN), all inputs",
  "Tests use one small random network.",
  ["src/cloudovo/neural_network.rs: NeuralNetwork::eval, eval_layer, affine_pool, max_pool, max_pool_recursion, act_fn"])
p("The cloud computation is oblivious",
  "The sequence of bootstraps, the control flow, panics, and the result's length and trivial/encrypted pattern depend only on public data (lengths, trivial words, parameters, scalars), never on encrypted contents: each operation is a fixed circuit chosen by the public shape.",
  "all pairs of inputs with equal public shape",
  "A relational (two-run) property over all inputs.",
  ["src/cloudovo/*.rs", "src/arithmetics.rs"])
p("Parallel execution order does not matter",
  "Every interleaving of the parallel loops and nested thread scopes gives the same result as the sequential (seq_analyze) execution, and always terminates.",
  "all interleavings of the task steps",
  "Schedules cannot be enumerated by running.",
  ["src/cloudovo/addition.rs: q_w_iter, z_w_iter", "src/cloudovo/multiplication.rs: thread::scope, fill_mulary", "src/cloudovo/squaring.rs: thread::scope", "src/seq_utils"])
p("Bootstrap counts",
  "Addition of ciphertexts uses at most twice as many bootstraps as active words, and exactly that many when all active words are encrypted; signum, maximum, schoolbook multiplication, and rounding have the stated bounds; opp, shift and fully trivial computations use none.",
  "all operands",
  "Counts for all lengths and masks.",
  ["src/cloudovo/pbs.rs: N_PBS", "src/cloudovo/addition.rs", "src/cloudovo/signum.rs", "src/cloudovo/maximum.rs", "src/cloudovo/multiplication.rs"])
p("Bootstrap-count reporting is exact",
  "In seq_analyze mode every finished operation reports exactly the number of bootstraps executed between its start and its finish, nested operations included, and the counter stack is restored.",
  "all nestings of operations",
  "Universal over call trees.",
  ["src/misc.rs: start_pbs_analysis, finish_pbs_analysis", "src/lib.rs: N_PBS"])
p("Bootstrapping depth",
  "The longest chain of dependent bootstraps is at most 2 for addition of any length, and grows only logarithmically (base 4) with length for signum and maximum.",
  "all lengths",
  "The parallelism claim of the library is asymptotic.",
  ["src/cloudovo/addition.rs", "src/cloudovo/signum.rs", "src/cloudovo/maximum.rs"])
p("Quadratic weight budget",
  "For independent fresh inputs every bootstrap input in add, sub, sgn, max, mul of one word, squaring of 2-3 words has a quadratic weight within the parameter's quad_weight for every accepted setting (>= 22). With operands that share samples the minimum accepted setting is exceeded: multiplying by 3 reaches 26 and x + x reaches 40.",
  "all lengths, all accepted quad_weight values",
  "Noise overflow shows as rare random decryption failures.",
  ["src/lib.rs: MIN_QUAD_WEIGHT, ParmesanUserovo::new", "src/cloudovo/signum.rs", "src/cloudovo/maximum.rs"])
p("Parameter gate",
  "ParmesanUserovo::new fails for quad_weight below 22 without touching the file system, and otherwise succeeds exactly when key loading or generation succeeds.",
  "all parameters, all file-system states",
  "Universal over parameters and states.",
  ["src/lib.rs: ParmesanUserovo::new"])
p("Keys persist",
  "After a successful first creation, every later creation with the same parameters returns the same keys and does not modify the file system.",
  "all parameters, all key pairs, all file-system states",
  "Universal over histories.",
  ["src/userovo/keys.rs: PrivKeySet::new"])
p("Key-file identity and crash safety",
  "Two parameter sets that differ (for example in message modulus or GLWE dimension) should not share a key file, and an interrupted export should not poison later runs. Both fail: the file name ignores those fields, and a crash during export leaves a file that makes every later creation fail.",
  "existence of witnesses; all crash points",
  "Crash points and parameter collisions are never exercised.",
  ["src/userovo/keys.rs: PrivKeySet::new, filename_from_params"])
p("Log level bookkeeping",
  "Nested measured blocks restore the log level after completion as long as nesting stays below 255; beyond that, or after an early error exit, the level is not restored.",
  "all nestings",
  "Universal over nestings; saturation at 255.",
  ["src/misc.rs: measure_duration", "src/lib.rs: LOG_LVL"])
p("Log file contents",
  "After any sequence of log calls in a fresh process the log file contains exactly those messages in order, regardless of its previous contents.",
  "all sequences, all previous contents",
  "Universal over histories.",
  ["src/misc.rs: parm_log_plain", "src/lib.rs: LOGFILE, LOG_INITED"])
p("Bit lengths and Hamming weight",
  "bit_len_32 and bit_len_64 return the position of the highest set bit plus one (0 for 0); bin_hw returns the number of non-zero digits and fails exactly when some digit is outside {-1,0,1} (except for i32::MIN, accepted by unchecked builds).",
  "all u32, all u64, all digit vectors",
  "2^64 inputs.",
  ["src/userovo/encryption.rs: bit_len_32, bit_len_64, bin_hw"])
p("Plain and encrypted arithmetic agree",
  "The i64 instance of the arithmetic interface computes the same integer function as the ciphertext instance for every operation, whenever no i64 overflow occurs; in particular rounding agrees including ties and negatives, except that the plain one rejects positions of 63 and above.",
  "all i64 inputs in range, all operations",
  "The plain instance is the reference in every test, yet is itself unverified.",
  ["src/arithmetics.rs: impl ParmArithmetics for i64"])
p("Chain-table loading",
  "The loader accepts exactly tables with 2048 entries; it does not validate chains, so a table with a wrong chain is accepted and makes scalar multiplication return a wrong value.",
  "all tables; existence of a witness",
  "Only the shipped file is ever loaded.",
  ["src/cloudovo/scalar_multiplication/asc.rs: map_from_yaml"])
p("Degenerate networks and pools",
  "A network without layers returns no outputs (not its inputs); an empty maximum pool returns the bias (0 + b); an activation perceptron applies ReLU, although documented as signum; weights beyond the number of inputs are ignored.",
  "all inputs",
  "Edge cases not covered by tests.",
  ["src/cloudovo/neural_network.rs"])
p("Redundant representations are interchangeable",
  "For any two ciphertexts representing the same integer with different digit patterns or lengths, each operation returns results of equal value.",
  "all pairs of representations",
  "Exponentially many representations of each integer.",
  ["src/arithmetics.rs: impl ParmArithmetics for ParmCiphertext"])
with open(os.path.join(os.path.dirname(__file__), "..", "properties.jsonl"), "w") as f:
    for q in P: f.write(json.dumps(q) + "\n")
print(len(P))
