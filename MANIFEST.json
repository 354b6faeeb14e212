{
 "claims": [
  {
   "property": "C01",
   "status": "proved",
   "theorems": [
    "C01_round_trip",
    "C01_identity",
    "C01_min_checked",
    "C01_min_unchecked",
    "C01_own_randomness"
   ],
   "note": "Under the backend contract (bounded noise). i64::MIN is covered separately for both build profiles."
  },
  {
   "property": "C02",
   "status": "proved",
   "theorems": [
    "C02_accepts",
    "C02_rejects"
   ],
   "note": ""
  },
  {
   "property": "C03",
   "status": "proved",
   "theorems": [
    "C03_exact",
    "C03_too_long",
    "C03_alphabet",
    "C03_reachable",
    "C03_min_unreachable",
    "C03_no_key",
    "C03_no_key_trivial"
   ],
   "note": ""
  },
  {
   "property": "C04",
   "status": "proved",
   "theorems": [
    "C04_tolerance",
    "C04_round_trip",
    "C04_half_step_fails",
    "C04_centred_unique",
    "C04_decrypt"
   ],
   "note": "All power-of-two moduli 2^1..2^30; an upward error of exactly half a step decodes to the next message."
  },
  {
   "property": "C05",
   "status": "proved",
   "theorems": [
    "C05_add",
    "C05_sub",
    "C05_opp",
    "C05_mul_const",
    "C05_mul_const_min",
    "C05_add_half",
    "C05_triv_zero"
   ],
   "note": "i32::MIN as a constant panics in checked builds."
  },
  {
   "property": "C06",
   "status": "proved",
   "theorems": [
    "C06_accumulator",
    "C06_lookup",
    "C06_lookup_uint",
    "C06_every_size"
   ],
   "note": "The accumulator itself: every table and rotation for ring degrees 32n, every position for all other sizes; the bootstrap under the backend contract."
  },
  {
   "property": "C07",
   "status": "proved",
   "theorems": [
    "C07_agree",
    "C07_agree_half",
    "C07_large_entry_refuted"
   ],
   "note": "Refutation for entries of 33 and above."
  },
  {
   "property": "C08",
   "status": "proved",
   "theorems": [
    "C08_named_tables",
    "C08_squ_bit",
    "C08_squ_bit_range",
    "C08_mul_bit",
    "C08_max_selector",
    "C08_relu_plus_4_refuted"
   ],
   "note": "ReLU+ is documented for all X > 0 but holds only up to 3."
  },
  {
   "property": "C09",
   "status": "proved",
   "theorems": [
    "C09_add",
    "C09_sub",
    "C09_add_decrypts"
   ],
   "note": "Under the backend contract."
  },
  {
   "property": "C10",
   "status": "proved",
   "theorems": [
    "C10_growth",
    "C10_total"
   ],
   "note": ""
  },
  {
   "property": "C11",
   "status": "proved",
   "theorems": [
    "C11_noisy",
    "C11_decrypts"
   ],
   "note": ""
  },
  {
   "property": "C12",
   "status": "proved",
   "theorems": [
    "C12_opp",
    "C12_opp_noise",
    "C12_shift",
    "C12_shift_words",
    "C12_zero"
   ],
   "note": ""
  },
  {
   "property": "C13",
   "status": "proved",
   "theorems": [
    "C13_add_const",
    "C13_min_checked",
    "C13_min_unchecked_refuted"
   ],
   "note": "i64::MIN: checked panic, unchecked silently returns x."
  },
  {
   "property": "C14",
   "status": "proved",
   "theorems": [
    "C14_sgn"
   ],
   "note": ""
  },
  {
   "property": "C15",
   "status": "proved",
   "theorems": [
    "C15_max_digits",
    "C15_max",
    "C15_relu"
   ],
   "note": ""
  },
  {
   "property": "C16",
   "status": "proved",
   "theorems": [
    "C16_mul",
    "C16_too_long"
   ],
   "note": ""
  },
  {
   "property": "C17",
   "status": "proved",
   "theorems": [
    "C17_decrypts",
    "C17_mul_32_undecryptable"
   ],
   "note": "Holds up to 31 words; always fails to decrypt at 32."
  },
  {
   "property": "C18",
   "status": "proved",
   "theorems": [
    "C18_squ",
    "C18_too_long",
    "C18_decrypts",
    "C18_squ_31_32_undecryptable"
   ],
   "note": "Holds up to 30 words; always fails to decrypt at 31 and 32."
  },
  {
   "property": "C19",
   "status": "proved",
   "theorems": [
    "C19_round",
    "C19_round_to_nearest"
   ],
   "note": ""
  },
  {
   "property": "C20",
   "status": "proved",
   "theorems": [
    "C20_recoding",
    "C20_unchecked"
   ],
   "note": "Checked builds: value kept or overflow panic; unchecked builds: all 32-bit inputs."
  },
  {
   "property": "C21",
   "status": "proved",
   "theorems": [
    "C21_same_weight_refuted",
    "C21_no_panic_refuted"
   ],
   "note": "Refuted: not the minimal/same weight as claimed, and panics for some inputs in checked builds."
  },
  {
   "property": "C22",
   "status": "proved",
   "theorems": [
    "C22_naf",
    "C22_large_checked",
    "C22_large_unchecked",
    "C22_non_adjacent_refuted"
   ],
   "note": "Non-adjacency refuted (k = 11); overflow above 2^31 in both build profiles."
  },
  {
   "property": "C23",
   "status": "proved",
   "theorems": [
    "C23_windows",
    "C23_any_width"
   ],
   "note": ""
  },
  {
   "property": "C24",
   "status": "proved",
   "theorems": [
    "C24_keys",
    "C24_chains"
   ],
   "note": "The whole shipped table, translated by tools/gen_asc.py."
  },
  {
   "property": "C25",
   "status": "proved",
   "theorems": [
    "C25_chain_homomorphic"
   ],
   "note": ""
  },
  {
   "property": "C26",
   "status": "proved",
   "theorems": [
    "C26_scalar_mul",
    "C26_unchecked",
    "C26_decrypts",
    "C26_total_checked_refuted"
   ],
   "note": "Unchecked builds: every i32 scalar. Checked builds: correct or overflow panic; 91 and i32::MIN always panic."
  },
  {
   "property": "C27",
   "status": "proved",
   "theorems": [
    "C27_expressions",
    "C27_decrypts",
    "C27_total"
   ],
   "note": "Expressions with sharing over all operations except the noisy ones; totality under a static length bound."
  },
  {
   "property": "C28",
   "status": "proved",
   "theorems": [
    "C28_network",
    "C28_agrees_with_i64",
    "C28_unchecked_total"
   ],
   "note": "Any topology; agreement with the i64 instance."
  },
  {
   "property": "C29",
   "status": "proved",
   "theorems": [
    "C29_oblivious",
    "C29_noisy",
    "C29_network",
    "C29_circuit"
   ],
   "note": "All programs and networks; any two backends; also as an explicit circuit."
  },
  {
   "property": "C30",
   "status": "proved",
   "theorems": [
    "C30_programs",
    "C30_networks",
    "C30_operations",
    "C30_race_free",
    "C30_race_matters"
   ],
   "note": "Operations written out a second time over shared memory with fork-join threads (ParallelOps.v) and proved race-free and equal to the sequential model, for every schedule and every program."
  },
  {
   "property": "C31",
   "status": "proved",
   "theorems": [
    "C31_add",
    "C31_active_bound",
    "C31_add_exact",
    "C31_add_encrypted",
    "C31_sgn",
    "C31_max",
    "C31_schoolbook",
    "C31_round",
    "C31_trivial_programs",
    "C31_trivial_networks"
   ],
   "note": "No assumption on the backend."
  },
  {
   "property": "C32",
   "status": "proved",
   "theorems": [
    "C32_call_trees",
    "C32_programs",
    "C32_networks",
    "C32_operations",
    "C32_failure_refuted"
   ],
   "note": "Restored on every normal end; an operation that panics leaves its entry (refutation)."
  },
  {
   "property": "C33",
   "status": "proved",
   "theorems": [
    "C33_add",
    "C33_add_noisy",
    "C33_sgn",
    "C33_max"
   ],
   "note": "Depth of the symbolic circuit; the bounds are reached (Example)."
  },
  {
   "property": "C34",
   "status": "proved",
   "theorems": [
    "C34_mul_lengths",
    "C34_squ_lengths",
    "C34_add",
    "C34_add_const",
    "C34_sgn",
    "C34_max",
    "C34_round",
    "C34_squ",
    "C34_mul",
    "C34_mul_word",
    "C34_minimum_needed",
    "C34_sharing_exceeds",
    "C34_shipped_exceeded"
   ],
   "note": "Every accepted setting, any lengths and shapes; products of equally long encrypted operands and squares of encrypted operands at every accepted length. Sharing samples exceeds the minimum; a public 15 times a bit, then signum, exceeds the shipped 100."
  },
  {
   "property": "C35",
   "status": "proved",
   "theorems": [
    "C35_gate",
    "C35_success",
    "C35_failure"
   ],
   "note": "File system and tfhe-rs key generation as parameters of the model."
  },
  {
   "property": "C36",
   "status": "proved",
   "theorems": [
    "C36_persist",
    "C36_lost_flush_refuted"
   ],
   "note": "Needs the codec round trip and that the last flush succeeds: its error is lost in the code (refutation)."
  },
  {
   "property": "C37",
   "status": "proved",
   "theorems": [
    "C37_same_file",
    "C37_collision_refuted",
    "C37_separate",
    "C37_crash_states",
    "C37_crash_complete",
    "C37_early_crash",
    "C37_poisoned_refuted",
    "C37_failed_write_refuted"
   ],
   "note": "Refutations: colliding file names, crash points and failed writes; exact characterisation of the collisions."
  },
  {
   "property": "C38",
   "status": "proved",
   "theorems": [
    "C38_restored",
    "C38_programs",
    "C38_networks",
    "C38_saturation",
    "C38_saturation_refuted",
    "C38_early_exit_refuted",
    "C38_key_creation"
   ],
   "note": "Restored up to level 255; saturation and early exits refuted."
  },
  {
   "property": "C39",
   "status": "proved",
   "theorems": [
    "C39_contents",
    "C39_all",
    "C39_none",
    "C39_deleted_refuted"
   ],
   "note": "Removing and creating the file are assumed to succeed; writes may fail; external deletion panics."
  },
  {
   "property": "C40",
   "status": "proved",
   "theorems": [
    "C40_bit_len_32",
    "C40_bit_len_64",
    "C40_bin_hw",
    "C40_bin_hw_rejects",
    "C40_bin_hw_min_refuted"
   ],
   "note": "i32::MIN is accepted by bin_hw in unchecked builds (refutation)."
  },
  {
   "property": "C41",
   "status": "proved",
   "theorems": [
    "C41_noisy",
    "C41_programs_agree",
    "C41_i64",
    "C41_round",
    "C41_round_63_refuted"
   ],
   "note": "All operations; rounding at 63 and above differs (refutation)."
  },
  {
   "property": "C42",
   "status": "proved",
   "theorems": [
    "C42_accepts_by_count",
    "C42_no_file",
    "C42_valid_table_refuted"
   ],
   "note": "Only the number of entries is checked; a table with a wrong chain is accepted and gives wrong products."
  },
  {
   "property": "C43",
   "status": "proved",
   "theorems": [
    "C43_no_layers",
    "C43_empty_max_pool",
    "C43_signum_refuted",
    "C43_extra_weights",
    "C43_extra_inputs"
   ],
   "note": "The documented signum activation is refuted (it is ReLU)."
  },
  {
   "property": "C44",
   "status": "proved",
   "theorems": [
    "C44_representations"
   ],
   "note": "Corollary of C27."
  },
  {
   "property": "C45",
   "status": "proved",
   "theorems": [
    "C45_results",
    "C45_expected",
    "C45_demo_refuted"
   ],
   "note": "The claim that the demo prints its rows is refuted; the results themselves are proved right."
  },
  {
   "property": "C46",
   "status": "proved",
   "theorems": [
    "C46_arrhythmia_values",
    "C46_dry_run_program",
    "C46_dry_run_network",
    "C46_sum",
    "C46_network_growth",
    "C46_weights_recode",
    "C46_nn_demo_refuted",
    "C46_demo_nn"
   ],
   "note": "nn_demo is refuted in both build profiles; word counts are exact (dry run) and, for networks, bounded from below by a closed formula."
  },
  {
   "property": "C47",
   "status": "proved",
   "theorems": [
    "C47_chains",
    "C47_additions",
    "C47_exact",
    "C47_bound",
    "C47_trivial",
    "C47_experiment",
    "C47_experiment_checked"
   ],
   "note": "The bootstrap bound is an upper bound, not exact; the counts of additions are exact."
  },
  {
   "property": "C48",
   "status": "proved",
   "theorems": [
    "C48_numbers",
    "C48_size_refuted",
    "C48_pos_max_zero",
    "C48_large",
    "C48_shipped",
    "C48_meaning"
   ],
   "note": "Shipped base parameters of tfhe-rs are not in the repository: they are a parameter of the model."
  },
  {
   "property": "C49",
   "status": "proved",
   "theorems": [
    "C49_decrypt_triv",
    "C49_encrypt_decrypt_int",
    "C49_encrypt_decrypt_vec",
    "C49_modes",
    "C49_encr_word",
    "C49_pbs",
    "C49_addition",
    "C49_add_const",
    "C49_zeros",
    "C49_signum",
    "C49_rounding",
    "C49_maximum",
    "C49_multiplication",
    "C49_squaring",
    "C49_squaring_2_3",
    "C49_scm",
    "C49_scm_unchecked",
    "C49_scm_fixed",
    "C49_asc",
    "C49_koy_tsu_unchecked",
    "C49_nn",
    "C49_koy_tsu_refuted",
    "C49_scm_refuted",
    "C49_lengths",
    "C49_no_karatsuba",
    "C49_fixed_scalars",
    "C49_fixed_squares"
   ],
   "note": "The koyama-tsuruoka and scalar multiplication tests are refuted for checked builds (scalar 91); proved for unchecked ones. Two key sets of the suite are assumed to be equal, which C50 refutes for parallel creation."
  },
  {
   "property": "C50",
   "status": "proved",
   "theorems": [
    "C50_existing",
    "C50_sequential",
    "C50_same_keys_refuted",
    "C50_partial_read_refuted",
    "C50_outcomes",
    "C50_mixture_refuted"
   ],
   "note": "One element of the encoding per write; reading is one step. Sequential creation is right; the claim for parallel creation is refuted three ways."
  },
  {
   "property": "C51",
   "status": "proved",
   "theorems": [
    "C51_mul_bound",
    "C51_mul_max",
    "C51_squ_bound",
    "C51_scalar_mul",
    "C51_round",
    "C51_add_const",
    "C51_mul_exact",
    "C51_squ_exact",
    "C51_monotone_refuted"
   ],
   "note": "Upper bounds hold for all shapes; the exact depths are for fully encrypted operands of equal length (1 to 32 words, all that the code accepts)."
  },
  {
   "property": "C52",
   "status": "proved",
   "theorems": [
    "C52_mul",
    "C52_squ",
    "C52_mul_schoolbook",
    "C52_squ_cheaper",
    "C52_choice",
    "C52_documented_choice_refuted"
   ],
   "note": "Exact counts for fully encrypted operands of equal length (0 to 32 words, all that the code accepts), every backend."
  },
  {
   "property": "C53",
   "status": "proved",
   "theorems": [
    "C53_shortest",
    "C53_attained",
    "C53_program",
    "C53_lengths",
    "C53_experiment"
   ],
   "note": "Chains over the integers, as the program evaluates them (the left operand is not shifted), without overflow."
  },
  {
   "property": "C54",
   "status": "proved",
   "theorems": [
    "C54_one_thread",
    "C54_whole_updates",
    "C54_lost_update_refuted",
    "C54_underflow_refuted",
    "C54_depth_refuted"
   ],
   "note": "The claim that the level is restored is proved for uninterrupted updates and refuted for the accesses as they are (lost update, underflow, foreign depth)."
  },
  {
   "property": "C55",
   "status": "proved",
   "theorems": [
    "C55_one_by_one",
    "C55_initialised",
    "C55_lines_refuted",
    "C55_remove_refuted",
    "C55_open_refuted",
    "C55_lost_refuted",
    "C55_overwritten_refuted",
    "C55_create",
    "C55_hole_refuted",
    "C55_bytes"
   ],
   "note": "Proved for calls one by one and, as far as nothing is lost, for calls at the same time on an initialised file; the claims of whole lines and of safe first calls are refuted."
  },
  {
   "property": "C56",
   "status": "proved",
   "theorems": [
    "C56_windows",
    "C56_count",
    "C56_table",
    "C56_unused",
    "C56_experiment"
   ],
   "note": "The claim 'KT is local' of experiments.rs:16. All 32-bit scalars; the experiment for 12 <= gen_bits <= 31 in the unchecked build."
  },
  {
   "property": "C57",
   "status": "proved",
   "theorems": [
    "C57_info",
    "C57_dbg",
    "C57_err",
    "C57_aligned",
    "C57_err_refuted",
    "C57_box_panics",
    "C57_box_ascii",
    "C57_box",
    "C57_box_wide_refuted",
    "C57_block",
    "C57_joins_refuted"
   ],
   "note": "Refuted parts: continuation lines of error messages are one column off; boxes with wide characters are ragged; with seq_analyze, junctions need not be continued."
  },
  {
   "property": "C58",
   "status": "proved",
   "theorems": [
    "C58_rounds",
    "C58_modes",
    "C58_modes_length",
    "C58_decrypt_triv",
    "C58_encrypt_decrypt_int",
    "C58_encrypt_decrypt_vec",
    "C58_decr_with_mode",
    "C58_encr_word",
    "C58_pbs",
    "C58_signum",
    "C58_rounding",
    "C58_maximum",
    "C58_multiplication",
    "C58_squaring",
    "C58_addition",
    "C58_zeros",
    "C58_add_const",
    "C58_scm",
    "C58_koy_tsu",
    "C58_asc",
    "C58_nn"
   ],
   "note": "Complements C49 (tests of a correct backend pass): a dropped assertion, a swapped operand on one side, or a mode that does not encrypt would make these false."
  },
  {
   "property": "C59",
   "status": "proved",
   "theorems": [
    "C59_same_digits",
    "C59_any_size",
    "C59_any_length",
    "C59_length_needed",
    "C59_printed"
   ],
   "note": "The prototype kt.rb and naf.rs agree digit by digit; the script is right for integers of any size exactly when it is told the right length."
  },
  {
   "property": "C60",
   "status": "proved",
   "theorems": [
    "C60_search_returns",
    "C60_chains",
    "C60_table",
    "C60_stored",
    "C60_complete",
    "C60_all_odd",
    "C60_usable",
    "C60_enough",
    "C60_width",
    "C60_shipped"
   ],
   "note": "The scripts that generated the table of chains: the search maintains valid chains for all widths and rounds, and printing followed by parsing gives a valid table. The shipped table was compared with limit-13_v4.log outside Rocq (identical); inside Rocq each shipped entry is shown to be the parse of its printed line."
  },
  {
   "property": "C61",
   "status": "proved",
   "theorems": [
    "C61_programs",
    "C61_networks",
    "C61_exceeded",
    "C61_exactly",
    "C61_shipped"
   ],
   "note": "Exactly the settings 65..84 and 225 upwards; the shipped 100 and the minimum 22 are not among them. Programs with the noisy additions are not covered (they are not in the expression language)."
  },
  {
   "property": "C62",
   "status": "proved",
   "theorems": [
    "C62_printed",
    "C62_mul",
    "C62_method",
    "C62_prices",
    "C62_squ",
    "C62_gaps",
    "C62_squ_prices"
   ],
   "note": "The wording of the printed lines and the table MP are not modelled, only length, cost, method and the cost of the other method of each line."
  },
  {
   "property": "C63",
   "status": "proved",
   "theorems": [
    "C63_recoding",
    "C63_windows",
    "C63_scalar_mul",
    "C63_programs",
    "C63_programs_refused",
    "C63_networks",
    "C63_how_many",
    "C63_how_many_scalars",
    "C63_networks_used",
    "C63_networks_refused",
    "C63_networks_exactly",
    "C63_rounds",
    "C63_experiment"
   ],
   "note": "Counts are over all u32 (recoding) and all i32 (scalar products). The scalar-product theorems hold for any backend and table; the count for scalar products uses the shipped table."
  },
  {
   "property": "C64",
   "status": "proved",
   "theorems": [
    "C64_sorted",
    "C64_values",
    "C64_entries",
    "C64_skipped",
    "C64_shipped"
   ],
   "note": "The text of the printed lines is not modelled."
  },
  {
   "property": "C65",
   "status": "proved",
   "theorems": [
    "C65_round_trip",
    "C65_injective",
    "C65_text",
    "C65_loads"
   ],
   "note": "serde_yaml is represented by a reader of the one layout that occurs in the file; other YAML (other field order, comments, flow style) is refused by the model although serde_yaml takes it."
  },
  {
   "property": "C66",
   "status": "proved",
   "theorems": [
    "C66_utf8",
    "C66_log",
    "C66_parse",
    "C66_file",
    "C66_colons_refuted",
    "C66_as_written"
   ],
   "note": "The log is trusted to be the literals of LogText.v. That YAML.dump writes the symbol l_pos as \":l_pos\" is knowledge about Ruby's YAML library, not about the repository. The reader rejects such a file because the fields are missing; serde_yaml does so too."
  },
  {
   "property": "C67",
   "status": "proved",
   "theorems": [
    "C67_round_trip",
    "C67_injective",
    "C67_text"
   ],
   "note": "The reader accepts the grammar of these two functions (fields in order, decimal literals, no comments), rustc accepts more."
  },
  {
   "property": "C68",
   "status": "proved",
   "theorems": [
    "C68_two_noisy",
    "C68_one_noisy",
    "C68_refused_refuted",
    "C68_sign_refuted",
    "C68_third_refuted",
    "C68_weights",
    "C68_budget_refuted"
   ],
   "note": "The positive part holds for every backend that meets the contract. The three refutations are of claims one might infer from the API (noisy results can be used like others); the code comments say: only when the result gets immediately decrypted. C68_weights is for four-word operands."
  },
  {
   "property": "C69",
   "status": "proved",
   "theorems": [
    "C69_four",
    "C69_five_refuted",
    "C69_lengths",
    "C69_windows",
    "C69_used"
   ],
   "note": "The question of lib.rs:181 is answered: no odd number below 2^13 needs five additions, so none of them can be missing from the recoding. Lower bounds hold for chains with arbitrary shifts and intermediate values."
  },
  {
   "property": "C70",
   "status": "proved",
   "theorems": [
    "C70_local",
    "C70_two_needed",
    "C70_standard_refuted",
    "C70_readme",
    "C70_verdict"
   ],
   "note": "The claims of README.md (\"The Short Story\") and its example. Locality is about ciphertexts, without any assumption on the backend."
  },
  {
   "property": "C71",
   "status": "proved",
   "theorems": [
    "C71_tables",
    "C71_weights",
    "C71_lightest",
    "C71_mul_1_2",
    "C71_mul_1_2_weight",
    "C71_square_limit",
    "C71_sign_limit",
    "C71_product_limit",
    "C71_adder_value",
    "C71_adder_refuted",
    "C71_adder_lightest"
   ],
   "note": "The specification quantifies over all integer coefficients and all negacyclic tables; the finite searches (residues modulo 32, one coefficient after another) are proved complete. That addition's combination is lightest is refuted."
  },
  {
   "property": "C72",
   "status": "proved",
   "theorems": [
    "C72_zeros",
    "C72_fewer",
    "C72_library",
    "C72_fewest",
    "C72_enough"
   ],
   "note": "Lower bounds are over all digit-valued functions of the words and all integer coefficients; positions are any natural numbers."
  },
  {
   "property": "C73",
   "status": "proved",
   "theorems": [
    "C73_pairs_value",
    "C73_split_value",
    "C73_pairs_depth",
    "C73_pairs_count",
    "C73_pairs_worth",
    "C73_but_last_refuted",
    "C73_as_library",
    "C73_split_middle",
    "C73_split_31_32",
    "C73_split_33_36",
    "C73_33_refuted"
   ],
   "note": "Proposals.v models what the notes propose, not code of the target; splits more than two words from the middle are not compared."
  },
  {
   "property": "C74",
   "status": "proved",
   "theorems": [
    "C74_read",
    "C74_columns",
    "C74_same",
    "C74_elapsed",
    "C74_hour_refuted",
    "C74_exact",
    "C74_rounded",
    "C74_unit"
   ],
   "note": "Clocks are arbitrary numbers; f64 arithmetic enters only through the two facts about Display stated in Timing.v."
  },
  {
   "property": "C75",
   "status": "proved",
   "theorems": [
    "C75_variance",
    "C75_union",
    "C75_outcome",
    "C75_within",
    "C75_programs"
   ],
   "note": "Independence is assumed only as pairwise zero correlation over the samples of the circuit; that the noise of tfhe-rs is uncorrelated and its size are not modelled. Chebyshev, not a Gaussian tail: bounds are far from the 2^-40 that one would like, but need no distribution."
  },
  {
   "property": "C76",
   "status": "proved",
   "theorems": [
    "C76_guarantee",
    "C76_v2",
    "C76_v2_refuted"
   ],
   "note": "The literals are generated from the files; that they are the same bytes is checked by the generator, not in Rocq."
  },
  {
   "property": "C77",
   "status": "proved",
   "theorems": [
    "C77_counted",
    "C77_networks",
    "C77_failure",
    "C77_network_failure"
   ],
   "note": "Bound by the counted bootstraps for all programs and networks, any backend; combined with C75 for programs and networks."
  },
  {
   "property": "C78",
   "status": "proved",
   "theorems": [
    "C78_number",
    "C78_normal",
    "C78_precision_refuted",
    "C78_shift",
    "C78_note",
    "C78_count",
    "C78_count_narrow",
    "C78_depth",
    "C78_weight",
    "C78_weights",
    "C78_weights_narrow",
    "C78_weights_secret",
    "C78_budget",
    "C78_direct_refuted",
    "C78_example_refuted"
   ],
   "note": "A feature the notes ask for, built from modelled lookups: values, cost, weight. The example of the note, the relative precision and a choice with a single lookup are refuted."
  },
  {
   "property": "C79",
   "status": "proved",
   "theorems": [
    "C79_squ",
    "C79_mul",
    "C79_squ_dearer",
    "C79_mul_dearer",
    "C79_squ_cheaper"
   ],
   "note": "Padding with public zeros keeps results and always costs bootstraps; operands of equal length for the count of products."
  },
  {
   "property": "C80",
   "status": "proved",
   "theorems": [
    "C80_looks",
    "C80_sign",
    "C80_signum",
    "C80_maximum"
   ],
   "note": "Lower bound on the depth of any circuit within a weight, for the sign of any number of words; signum is within a factor of four of it."
  }
 ]
}
