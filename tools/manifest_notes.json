{
 "C01": "Under the backend contract (bounded noise). i64::MIN is covered separately for both build profiles.",
 "C04": "All power-of-two moduli 2^1..2^30; an upward error of exactly half a step decodes to the next message.",
 "C05": "i32::MIN as a constant panics in checked builds.",
 "C06": "The accumulator itself: every table and rotation for ring degrees 32n, every position for all other sizes; the bootstrap under the backend contract.",
 "C07": "Refutation for entries of 33 and above.",
 "C08": "ReLU+ is documented for all X > 0 but holds only up to 3.",
 "C09": "Under the backend contract.",
 "C13": "i64::MIN: checked panic, unchecked silently returns x.",
 "C17": "Holds up to 31 words; always fails to decrypt at 32.",
 "C18": "Holds up to 30 words; always fails to decrypt at 31 and 32.",
 "C31": "No assumption on the backend.",
 "C40": "i32::MIN is accepted by bin_hw in unchecked builds (refutation).",
 "C20": "Checked builds: value kept or overflow panic; unchecked builds: all 32-bit inputs.",
 "C21": "Refuted: not the minimal/same weight as claimed, and panics for some inputs in checked builds.",
 "C22": "Non-adjacency refuted (k = 11); overflow above 2^31 in both build profiles.",
 "C24": "The whole shipped table, translated by tools/gen_asc.py.",
 "C26": "Unchecked builds: every i32 scalar. Checked builds: correct or overflow panic; 91 and i32::MIN always panic.",
 "C27": "Expressions with sharing over all operations except the noisy ones; totality under a static length bound.",
 "C28": "Any topology; agreement with the i64 instance.",
 "C41": "All operations; rounding at 63 and above differs (refutation).",
 "C42": "Only the number of entries is checked; a table with a wrong chain is accepted and gives wrong products.",
 "C43": "The documented signum activation is refuted (it is ReLU).",
 "C44": "Corollary of C27.",
 "C29": "All programs and networks; any two backends; also as an explicit circuit.",
 "C33": "Depth of the symbolic circuit; the bounds are reached (Example).",
 "C32": "Restored on every normal end; an operation that panics leaves its entry (refutation).",
 "C35": "File system and tfhe-rs key generation as parameters of the model.",
 "C36": "Needs the codec round trip and that the last flush succeeds: its error is lost in the code (refutation).",
 "C37": "Refutations: colliding file names, crash points and failed writes; exact characterisation of the collisions.",
 "C38": "Restored up to level 255; saturation and early exits refuted.",
 "C39": "Removing and creating the file are assumed to succeed; writes may fail; external deletion panics.",
 "C30": "Operations written out a second time over shared memory with fork-join threads (ParallelOps.v) and proved race-free and equal to the sequential model, for every schedule and every program.",
 "C34": "Every accepted setting, any lengths and shapes; products of equally long encrypted operands and squares of encrypted operands at every accepted length. Sharing samples exceeds the minimum; a public 15 times a bit, then signum, exceeds the shipped 100.",
 "C45": "The claim that the demo prints its rows is refuted; the results themselves are proved right.",
 "C46": "nn_demo is refuted in both build profiles; word counts are exact (dry run) and, for networks, bounded from below by a closed formula.",
 "C47": "The bootstrap bound is an upper bound, not exact; the counts of additions are exact.",
 "C48": "Shipped base parameters of tfhe-rs are not in the repository: they are a parameter of the model.",
 "C49": "The koyama-tsuruoka and scalar multiplication tests are refuted for checked builds (scalar 91); proved for unchecked ones. Two key sets of the suite are assumed to be equal, which C50 refutes for parallel creation.",
 "C50": "One element of the encoding per write; reading is one step. Sequential creation is right; the claim for parallel creation is refuted three ways.",
 "C51": "Upper bounds hold for all shapes; the exact depths are for fully encrypted operands of equal length (1 to 32 words, all that the code accepts).",
 "C52": "Exact counts for fully encrypted operands of equal length (0 to 32 words, all that the code accepts), every backend.",
 "C53": "Chains over the integers, as the program evaluates them (the left operand is not shifted), without overflow.",
 "C54": "The claim that the level is restored is proved for uninterrupted updates and refuted for the accesses as they are (lost update, underflow, foreign depth).",
 "C55": "Proved for calls one by one and, as far as nothing is lost, for calls at the same time on an initialised file; the claims of whole lines and of safe first calls are refuted.",
 "C56": "The claim 'KT is local' of experiments.rs:16. All 32-bit scalars; the experiment for 12 <= gen_bits <= 31 in the unchecked build.",
 "C57": "Refuted parts: continuation lines of error messages are one column off; boxes with wide characters are ragged; with seq_analyze, junctions need not be continued.",
 "C58": "Complements C49 (tests of a correct backend pass): a dropped assertion, a swapped operand on one side, or a mode that does not encrypt would make these false.",
 "C59": "The prototype kt.rb and naf.rs agree digit by digit; the script is right for integers of any size exactly when it is told the right length.",
 "C60": "The scripts that generated the table of chains: the search maintains valid chains for all widths and rounds, and printing followed by parsing gives a valid table. The shipped table was compared with limit-13_v4.log outside Rocq (identical); inside Rocq each shipped entry is shown to be the parse of its printed line.",
 "C61": "Exactly the settings 65..84 and 225 upwards; the shipped 100 and the minimum 22 are not among them. Programs with the noisy additions are not covered (they are not in the expression language).",
 "C62": "The wording of the printed lines and the table MP are not modelled, only length, cost, method and the cost of the other method of each line.",
 "C63": "Counts are over all u32 (recoding) and all i32 (scalar products). The scalar-product theorems hold for any backend and table; the count for scalar products uses the shipped table.",
 "C64": "The text of the printed lines is not modelled.",
 "C65": "serde_yaml is represented by a reader of the one layout that occurs in the file; other YAML (other field order, comments, flow style) is refused by the model although serde_yaml takes it.",
 "C66": "The log is trusted to be the literals of LogText.v. That YAML.dump writes the symbol l_pos as \":l_pos\" is knowledge about Ruby's YAML library, not about the repository. The reader rejects such a file because the fields are missing; serde_yaml does so too.",
 "C67": "The reader accepts the grammar of these two functions (fields in order, decimal literals, no comments), rustc accepts more.",
 "C68": "The positive part holds for every backend that meets the contract. The three refutations are of claims one might infer from the API (noisy results can be used like others); the code comments say: only when the result gets immediately decrypted. C68_weights is for four-word operands.",
 "C69": "The question of lib.rs:181 is answered: no odd number below 2^13 needs five additions, so none of them can be missing from the recoding. Lower bounds hold for chains with arbitrary shifts and intermediate values.",
 "C70": "The claims of README.md (\"The Short Story\") and its example. Locality is about ciphertexts, without any assumption on the backend.",
 "C71": "The specification quantifies over all integer coefficients and all negacyclic tables; the finite searches (residues modulo 32, one coefficient after another) are proved complete. That addition's combination is lightest is refuted.",
 "C72": "Lower bounds are over all digit-valued functions of the words and all integer coefficients; positions are any natural numbers.",
 "C73": "Proposals.v models what the notes propose, not code of the target; splits more than two words from the middle are not compared.",
 "C74": "Clocks are arbitrary numbers; f64 arithmetic enters only through the two facts about Display stated in Timing.v.",
 "C75": "Independence is assumed only as pairwise zero correlation over the samples of the circuit; that the noise of tfhe-rs is uncorrelated and its size are not modelled. Chebyshev, not a Gaussian tail: bounds are far from the 2^-40 that one would like, but need no distribution.",
 "C76": "The literals are generated from the files; that they are the same bytes is checked by the generator, not in Rocq.",
 "C77": "Bound by the counted bootstraps for all programs and networks, any backend; combined with C75 for programs and networks.",
 "C78": "A feature the notes ask for, built from modelled lookups: values, cost, weight. The example of the note, the relative precision and a choice with a single lookup are refuted.",
 "C79": "Padding with public zeros keeps results and always costs bootstraps; operands of equal length for the count of products.",
 "C80": "Lower bound on the depth of any circuit within a weight, for the sign of any number of words; signum is within a factor of four of it."
}
