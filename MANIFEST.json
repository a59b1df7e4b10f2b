{
 "claims": [
  {
   "property": "C01",
   "status": "proved",
   "theorems": [
    "C01_field_arithmetic",
    "C01_equality_is_integer_equality",
    "C01_no_overflow_panic"
   ],
   "note": ""
  },
  {
   "property": "C02",
   "status": "proved",
   "theorems": [
    "C02_integer_conversion",
    "C02_back_conversion",
    "C02_raw_rejects"
   ],
   "note": ""
  },
  {
   "property": "C03",
   "status": "partial",
   "theorems": [
    "C03_inverse",
    "C03_inverse_exists",
    "C03_division",
    "C03_inverse_of_zero_refuted"
   ],
   "note": "Proved for every non-zero element; the zero case of the property is false of the code (inverse(0)=Some(0)), see C03_inverse_of_zero_refuted."
  },
  {
   "property": "C04",
   "status": "proved",
   "theorems": [
    "C04_exponentiation",
    "C04_legendre"
   ],
   "note": ""
  },
  {
   "property": "C05",
   "status": "proved",
   "theorems": [
    "C05_square_root"
   ],
   "note": ""
  },
  {
   "property": "C06",
   "status": "partial",
   "theorems": [
    "C06_shifts",
    "C06_num_bits_refuted",
    "C06_u64_from_refuted"
   ],
   "note": "Shifts proved; the num_bits and u64::from(Fr) parts are false of the code and refuted."
  },
  {
   "property": "C07",
   "status": "partial",
   "theorems": [
    "C07_avx2_lanes",
    "C07_avx512_lanes",
    "C07_reduce",
    "C07_sub_any_word",
    "C07_neg_partial",
    "C07_neg_of_zero_not_canonical_refuted",
    "C07_div",
    "C07_div_by_zero_refuted",
    "C07_div_rejects",
    "C07_interleave",
    "C07_interleave_involution",
    "C07_interleave_rejects"
   ],
   "note": "Every lane of add, sub, mul, square, division by a non-zero scalar and interleave is proved for all inputs on both instruction sets. Refuted in part: negating a zero lane stores the modulus instead of zero (equal modulo p, but not canonical and rejected by from_repr), and division by the scalar zero gives zeros instead of failing."
  },
  {
   "property": "C08",
   "status": "proved",
   "theorems": [
    "C08_ring_operations",
    "C08_dimensions",
    "C08_quotient_ring",
    "C08_equality",
    "C08_order"
   ],
   "note": ""
  },
  {
   "property": "C09",
   "status": "proved",
   "theorems": [
    "C09_inverse",
    "C09_division",
    "C09_extension_is_a_field"
   ],
   "note": ""
  },
  {
   "property": "C10",
   "status": "proved",
   "theorems": [
    "C10_exponentiation"
   ],
   "note": ""
  },
  {
   "property": "C11",
   "status": "proved",
   "theorems": [
    "C11_eval_pol",
    "C11_coset_shift"
   ],
   "note": ""
  },
  {
   "property": "C12",
   "status": "partial",
   "theorems": [
    "C12_batch_inverse",
    "C12_zero_poisons_all_refuted"
   ],
   "note": "Proved when no input is zero; as stated the property is false of the code: one zero input makes every output zero (C12_zero_poisons_all_refuted)."
  },
  {
   "property": "C13",
   "status": "proved",
   "theorems": [
    "C13_roots_of_unity",
    "C13_shift_outside"
   ],
   "note": ""
  },
  {
   "property": "C14",
   "status": "proved",
   "theorems": [
    "C14_fft_is_dft",
    "C14_ifft_inverts",
    "C14_ifft_inverts_exactly",
    "C14_other_lengths_refused"
   ],
   "note": ""
  },
  {
   "property": "C15",
   "status": "proved",
   "theorems": [
    "C15_low_degree_extension",
    "C15_applies_to_every_vector"
   ],
   "note": ""
  },
  {
   "property": "C16",
   "status": "partial",
   "theorems": [
    "C16_log2",
    "C16_log2_above_32_bits_refuted"
   ],
   "note": "Proved for 0 < v < 2^32; false for every v >= 2^32 (C16_log2_above_32_bits_refuted)."
  },
  {
   "property": "C17",
   "status": "partial",
   "theorems": [
    "C17_value",
    "C17_total_partial",
    "C17_history_refuted"
   ],
   "note": "Every value returned is the reversal after any history (C17_value) and calls with x at most 2^k never fail (C17_total_partial). Refuted in general: once the cache for k holds 2^k+1 entries, BR(2^k+1, k) indexes one past its end, panics with the lock held, and every later call of the process panics (C17_history_refuted)."
  },
  {
   "property": "C18",
   "status": "proved",
   "theorems": [
    "C18_zh_inverse"
   ],
   "note": ""
  },
  {
   "property": "C19",
   "status": "partial",
   "theorems": [
    "C19_openings_complete",
    "C19_tree_exists",
    "C19_outside_refused",
    "C19_threads_irrelevant",
    "C19_single_row_refuted"
   ],
   "note": "Proved for all trees of at least two rows; false for a tree of one row, whose root is the zero digest (C19_single_row_refuted)."
  },
  {
   "property": "C20",
   "status": "partial",
   "theorems": [
    "C20_openings_bind",
    "C20_inner_node_refuted"
   ],
   "note": "Proved for openings with equal row and path lengths; the verifier checks neither length, so an inner node opens as a row (C20_inner_node_refuted)."
  },
  {
   "property": "C21",
   "status": "partial",
   "theorems": [
    "C21_row_ignored_refuted",
    "C21_only_last_group"
   ],
   "note": "Refuted: the verifier never looks at the row or index when the path is non-empty; only the last group of the path is compared with the root."
  },
  {
   "property": "C22",
   "status": "partial",
   "theorems": [
    "C22_rows_separated",
    "C22_total",
    "C22_padding_refuted"
   ],
   "note": "Proved for rows of equal length; rows of different length collide by zero padding (C22_padding_refuted)."
  },
  {
   "property": "C23",
   "status": "partial",
   "theorems": [
    "C23_total",
    "C23_state_binds",
    "C23_challenges_bind",
    "C23_padding_refuted"
   ],
   "note": "Proved for histories of equal shape; trailing zeros are not noticed (C23_padding_refuted)."
  },
  {
   "property": "C24",
   "status": "proved",
   "theorems": [
    "C24_positions"
   ],
   "note": ""
  },
  {
   "property": "C25",
   "status": "partial",
   "theorems": [
    "C25_stale_word_refuted",
    "C25_nothing_left",
    "C25_field_is_new_state",
    "C25_state_binds"
   ],
   "note": "Proved for histories without get_fields1; refuted in general: absorbing does not clear leftover words (C25_stale_word_refuted)."
  },
  {
   "property": "C26",
   "status": "proved",
   "theorems": [
    "C26_prover_verifier_agree",
    "C26_folding"
   ],
   "note": ""
  },
  {
   "property": "C27",
   "status": "partial",
   "theorems": [
    "C27_final_degree_partial",
    "C27_off_by_one_refuted"
   ],
   "note": "Accepted proofs have a final polynomial of degree at most the bound; the check in verify lines 278-295 starts at max_deg + 1, so a polynomial of degree exactly the bound is accepted: refuted by an honest proof of X^(2^md) for all parameters."
  },
  {
   "property": "C28",
   "status": "partial",
   "theorems": [
    "C28_f3g_roundtrip",
    "C28_f3g_distinct",
    "C28_goldilocks",
    "C28_digest_partial",
    "C28_large_back",
    "C28_distinct_partial",
    "C28_made",
    "C28_alias_refuted"
   ],
   "note": "Proved for every extension element and every Goldilocks digest; for BN128 and BLS12-381 digests proved for those holding a number below the modulus, which is every digest made from a field element. Refuted beyond: a digest holding the modulus is written like zero and read back as zero."
  },
  {
   "property": "C29",
   "status": "partial",
   "theorems": [
    "C29_roundtrip_partial",
    "C29_cells_partial",
    "C29_layout",
    "C29_short",
    "C29_short_refuted",
    "C29_split_refuted"
   ],
   "note": "Proved for all shapes and contents when reads of the file hand out whole words. Refuted otherwise: load drops the bytes of a split word, and a file that is too short makes it loop for ever instead of failing."
  },
  {
   "property": "C30",
   "status": "proved",
   "theorems": [
    "C30_traversal_is_postorder",
    "C30_visits_each_node_once"
   ],
   "note": ""
  },
  {
   "property": "C31",
   "status": "proved",
   "theorems": [
    "C31_code_computes_expression",
    "C31_value_unique"
   ],
   "note": ""
  },
  {
   "property": "C32",
   "status": "proved",
   "theorems": [
    "C32_muladd_keeps_meaning"
   ],
   "note": ""
  },
  {
   "property": "C33",
   "status": "proved",
   "theorems": [
    "C33_degree_bound",
    "C33_chosen_degree_bound"
   ],
   "note": ""
  },
  {
   "property": "C34",
   "status": "proved",
   "theorems": [
    "C34_sections_are_tiled",
    "C34_offsets_are_tiled"
   ],
   "note": ""
  },
  {
   "property": "C35",
   "status": "partial",
   "theorems": [
    "C35_equivalent_without_constant_sides",
    "C35_exact_meaning",
    "C35_constant_side_sign_refuted",
    "C35_repeated_index_refused"
   ],
   "note": "Equivalence proved for all systems without a constant multiplied by a non-zero combination; with one the code enforces A*B = -C (C35_exact_meaning), so the full property is refuted."
  },
  {
   "property": "C36",
   "status": "proved",
   "theorems": [
    "C36_exec_file",
    "C36_additions_executable"
   ],
   "note": ""
  },
  {
   "property": "C37",
   "status": "proved",
   "theorems": [
    "C37_copy_permutation",
    "C37_labels_distinct"
   ],
   "note": ""
  },
  {
   "property": "C38",
   "status": "partial",
   "theorems": [
    "C38_pairs_of_rows_suffice",
    "C38_reserved_rows",
    "C38_reserved_rows_suffice_refuted"
   ],
   "note": "Twice the reserved number is proved sufficient (C38_pairs_of_rows_suffice); the number the code reserves is not: any two or more gates with pairwise different coefficients panic (C38_reserved_rows_suffice_refuted)."
  },
  {
   "property": "C39",
   "status": "partial",
   "theorems": [
    "C39_number_of_publics",
    "C39_exact_publics_refuted"
   ],
   "note": "The exact number of publics is proved (inputs + 2*outputs); with a public output private signals are exposed, so the property is refuted."
  },
  {
   "property": "C40",
   "status": "partial",
   "theorems": [
    "C40_roundtrip_partial",
    "C40_elements_partial",
    "C40_accepts",
    "C40_refuses",
    "C40_foreign",
    "C40_large_refuted",
    "C40_gpu_partial",
    "C40_gpu_refuted"
   ],
   "note": "Round trip, exact characterisation of the accepted byte strings and refusal of everything else proved for the reader of algebraic. Refuted: 2^29 or more elements are lost because the writer counts words in 32 bits; the reader of algebraic-gpu silently drops out-of-range and truncated elements."
  },
  {
   "property": "C41",
   "status": "partial",
   "theorems": [
    "C41_parse",
    "C41_sorted",
    "C41_counts",
    "C41_terminates_partial",
    "C41_terminates_refuted",
    "C41_prime_refuted"
   ],
   "note": "Parsing any encoding gives the encoded system with stably sorted terms; termination for files without a custom gate list. Refuted: a file ending inside a custom gate name loops forever; a system over the bls12-381 field is accepted as one over bn254."
  },
  {
   "property": "C42",
   "status": "proved",
   "theorems": [
    "C42_roundtrip",
    "C42_limbs",
    "C42_memory"
   ],
   "note": ""
  },
  {
   "property": "C43",
   "status": "proved",
   "theorems": [
    "C43_join",
    "C43_determines",
    "C43_no_duplicates"
   ],
   "note": ""
  },
  {
   "property": "C44",
   "status": "proved",
   "theorems": [
    "C44_sorted_columns",
    "C44_exists",
    "C44_absent_refused"
   ],
   "note": ""
  },
  {
   "property": "C45",
   "status": "proved",
   "theorems": [
    "C45_grand_product",
    "C45_accepted_iff"
   ],
   "note": ""
  },
  {
   "property": "C46",
   "status": "partial",
   "theorems": [
    "C46_chunks",
    "C46_parallel",
    "C46_parallel_trace",
    "C46_exact",
    "C46_output_only_refuted",
    "C46_short_last_chunk_refuted"
   ],
   "note": "Proved for all steps, programs, memories and worker counts under the stated row-locality, allocation and last-chunk conditions. Refuted without them: columns of output-only sections that the program does not write are cleared by the parallel run (C46_output_only_refuted), and a last chunk shorter than the look-ahead panics (C46_short_last_chunk_refuted). That the code generator only emits row-local blocks is not proved."
  },
  {
   "property": "C47",
   "status": "partial",
   "theorems": [
    "C47_accepts",
    "C47_residue",
    "C47_one_reading",
    "C47_below_minus_p_refuted"
   ],
   "note": "Proved for every accepted literal from -p upwards; below -p the residue is wrong (C47_below_minus_p_refuted)."
  },
  {
   "property": "C48",
   "status": "partial",
   "theorems": [
    "C48_no_openings_refuted",
    "C48_longer_path_refuted",
    "C48_same_shape_partial",
    "C48_reflexive"
   ],
   "note": "Refuted: equality zips the openings, so lists of different length compare equal (fri.rs 29-57). For equal lengths it does imply equality."
  },
  {
   "property": "C49",
   "status": "partial",
   "theorems": [
    "C49_index_get_after_set",
    "C49_index_unknown_name",
    "C49_index_named_field",
    "C49_indexvec_partial",
    "C49_indexvec_f_2ns_refuted"
   ],
   "note": "IndexVec::get returns q_2ns for the name f_2ns (refuted); all other names and both Index accessors are proved."
  },
  {
   "property": "C50",
   "status": "partial",
   "theorems": [
    "C50_interpolate_partial",
    "C50_fft",
    "C50_one_row_refuted"
   ],
   "note": "Proved for all sizes from 2^1, all column counts up to 2^18 and all worker counts; for outputs above 2^24 rows the output buffer has to be zero, because with an odd number of extension rounds its old contents are read. A single row panics (step_by(0)) although the reference extends it (C50_one_row_refuted)."
  },
  {
   "property": "C51",
   "status": "partial",
   "theorems": [
    "C51_expression_dimension",
    "C51_code_dimensions",
    "C51_column_dimensions_refuted"
   ],
   "note": "get_exp_dim and the code dimensions are proved sound; filling cm_dims overwrites the dimension of grand product columns (line 172), so a column can get dimension 1 for extension values (refuted)."
  },
  {
   "property": "C52",
   "status": "partial",
   "theorems": [
    "C52_custom_rows_counted",
    "C52_poseidon_only_refuted"
   ],
   "note": "Proved when the Poseidon12 and CMulAdd identifiers differ; refuted for a circuit declaring Poseidon12 only."
  },
  {
   "property": "C53",
   "status": "proved",
   "theorems": [
    "C53_column_row",
    "C53_const_row",
    "C53_row_number",
    "C53_inside_section",
    "C53_write"
   ],
   "note": ""
  },
  {
   "property": "C54",
   "status": "proved",
   "theorems": [
    "C54_block_runs_code",
    "C54_same_as_verifier"
   ],
   "note": ""
  },
  {
   "property": "C55",
   "status": "partial",
   "theorems": [
    "C55_use_gets_its_template",
    "C55_undeclared_template_refuted"
   ],
   "note": "Proved when CMulAdd, Poseidon12 and EvPol4 are each declared once; refuted when one is undeclared (its identifier defaults to 0)."
  },
  {
   "property": "C56",
   "status": "proved",
   "theorems": [
    "C56_placement_faithful"
   ],
   "note": ""
  },
  {
   "property": "C57",
   "status": "proved",
   "theorems": [
    "C57_cmuladd",
    "C57_evpol4",
    "C57_fft4",
    "C57_poseidon12"
   ],
   "note": ""
  },
  {
   "property": "C58",
   "status": "proved",
   "theorems": [
    "C58_compressor_sound_and_complete"
   ],
   "note": ""
  },
  {
   "property": "C59",
   "status": "partial",
   "theorems": [
    "C59_openings_complete_partial",
    "C59_tree_exists_refuted"
   ],
   "note": "Openings of every tree that was built verify; building is refuted: rows exist whose Montgomery limbs are not Goldilocks elements, and merkelize panics."
  },
  {
   "property": "C60",
   "status": "partial",
   "theorems": [
    "C60_row_hashes_agree",
    "C60_row_of_four_refuted"
   ],
   "note": "Proved for all row lengths but four; for four words the two functions compute different things (C60_row_of_four_refuted)."
  },
  {
   "property": "C61",
   "status": "proved",
   "theorems": [
    "C61_columns_round_trip"
   ],
   "note": ""
  },
  {
   "property": "C62",
   "status": "proved",
   "theorems": [
    "C62_code_computes_constraint",
    "C62_check"
   ],
   "note": ""
  },
  {
   "property": "C63",
   "status": "proved",
   "theorems": [
    "C63_honest_proofs_accepted"
   ],
   "note": ""
  },
  {
   "property": "C64",
   "status": "partial",
   "theorems": [
    "C64_roundtrip_partial",
    "C64_distinct_partial",
    "C64_openings",
    "C64_steps_refuted",
    "C64_address_refuted",
    "C64_no_steps",
    "C64_missing_tree"
   ],
   "note": "Proved for all proofs with at most 31 further steps. Refuted: steps after the 31st are dropped silently, and a Goldilocks proof loses its prover address. serde_json's own printing and parsing is trusted."
  },
  {
   "property": "C65",
   "status": "partial",
   "theorems": [
    "C65_avx2_poseidon",
    "C65_scalar_total",
    "C65_long_output_refuted",
    "C65_hash_layer"
   ],
   "note": "proved for every input when at most four words are asked for; refuted beyond four words, where the AVX2 hash panics and the scalar hash answers"
  },
  {
   "property": "C66",
   "status": "proved",
   "theorems": [
    "C66_avx512_pair",
    "C66_lengths"
   ],
   "note": ""
  },
  {
   "property": "C67",
   "status": "proved",
   "theorems": [
    "C67_linear_hash",
    "C67_element_matrix",
    "C67_merkle_tree",
    "C67_openings"
   ],
   "note": ""
  },
  {
   "property": "C68",
   "status": "partial",
   "theorems": [
    "C68_any_ring",
    "C68_bn128",
    "C68_bn128_outcomes",
    "C68_bls12381_refuted"
   ],
   "note": "BN254: proved at all 16 widths with the tables of the source (the table equations are evaluated with Bignums, so Print Assumptions lists the machine-integer primitives and their specifications in Coq.Numbers.Cyclic.Int63, nothing else). BLS12-381: refuted; the optimised file uses other round numbers and tables and returns the second word."
  },
  {
   "property": "C69",
   "status": "proved",
   "theorems": [
    "C69_quotient_columns",
    "C69_parts_join"
   ],
   "note": ""
  },
  {
   "property": "C70",
   "status": "proved",
   "theorems": [
    "C70_evaluations"
   ],
   "note": ""
  },
  {
   "property": "C71",
   "status": "proved",
   "theorems": [
    "C71_completeness"
   ],
   "note": ""
  },
  {
   "property": "C72",
   "status": "proved",
   "theorems": [
    "C72_commitment",
    "C72_setup"
   ],
   "note": ""
  },
  {
   "property": "C73",
   "status": "proved",
   "theorems": [
    "C73_prover",
    "C73_from_tables"
   ],
   "note": ""
  },
  {
   "property": "C74",
   "status": "proved",
   "theorems": [
    "C74_accepted"
   ],
   "note": ""
  },
  {
   "property": "C75",
   "status": "partial",
   "theorems": [
    "C75_right_size_partial",
    "C75_refuted"
   ],
   "note": "Proved for one FRI layer when the last layer has as many values as the domain. Refuted in general: the verifier does not check the size of the last layer, so for every permutation a function far from every low degree polynomial is accepted with a last layer of twice the size."
  },
  {
   "property": "C76",
   "status": "proved",
   "theorems": [
    "C76_lookup_sound",
    "C76_lookup_complete",
    "C76_columns"
   ],
   "note": ""
  },
  {
   "property": "C77",
   "status": "proved",
   "theorems": [
    "C77_permutation_sound",
    "C77_permutation_complete"
   ],
   "note": ""
  },
  {
   "property": "C78",
   "status": "partial",
   "theorems": [
    "C78_connection_sound_partial",
    "C78_connection_complete_partial",
    "C78_refuted"
   ],
   "note": "Proved for every connection that is generated; refuted for a connection of one column, for which generation panics in get_ks(0)."
  },
  {
   "property": "C79",
   "status": "proved",
   "theorems": [
    "C79_kept_columns",
    "C79_requested"
   ],
   "note": ""
  },
  {
   "property": "C80",
   "status": "proved",
   "theorems": [
    "C80_stages_satisfy_identities",
    "C80_returned_proofs_verify"
   ],
   "note": ""
  },
  {
   "property": "C81",
   "status": "partial",
   "theorems": [
    "C81_publics_partial",
    "C81_order_refuted"
   ],
   "note": "Proved when all publics of type imP are declared before those of type cmP. Refuted otherwise: the prover indexes publics_code, which has one entry per imP public, with the position among all publics, and panics for every trace."
  },
  {
   "property": "C82",
   "status": "partial",
   "theorems": [
    "C82_honest_prover_ends_partial",
    "C82_mixed_components_refuted"
   ],
   "note": "Proved when f and t of every lookup are kept with the same number of components. Refuted otherwise: if only one of them, or both with different dimensions, become intermediate columns (a product looked up in a selected column), calculate_H1H2 compares elements of different dim, which are never equal, and panics for every table, whether or not the lookup holds."
  },
  {
   "property": "C83",
   "status": "proved",
   "theorems": [
    "C83_table_that_holds_is_proved"
   ],
   "note": ""
  },
  {
   "property": "C84",
   "status": "partial",
   "theorems": [
    "C84_ring_operations",
    "C84_dimensions",
    "C84_quotient_ring",
    "C84_equality",
    "C84_scalar",
    "C84_negation_partial",
    "C84_negation_refuted"
   ],
   "note": "ring operations, dimensions, equality and products with integers proved for all elements; negation proved in dimension one and refuted in dimension five, where it panics"
  },
  {
   "property": "C85",
   "status": "proved",
   "theorems": [
    "C85_inverse",
    "C85_division",
    "C85_field",
    "C85_frobenius",
    "C85_power"
   ],
   "note": ""
  },
  {
   "property": "C86",
   "status": "partial",
   "theorems": [
    "C86_order_of_integers_partial",
    "C86_greater",
    "C86_dimensions",
    "C86_total_order_refuted",
    "C86_less_refuted",
    "C86_derived"
   ],
   "note": "gt characterised for all elements and proved to be the integer order in dimension one; a total order in dimension five and the contract of lt are refuted"
  },
  {
   "property": "C87",
   "status": "proved",
   "theorems": [
    "C87_pil_is_proved",
    "C87_layout",
    "C87_refused"
   ],
   "note": ""
  },
  {
   "property": "C88",
   "status": "proved",
   "theorems": [
    "C88_pil_accepted"
   ],
   "note": ""
  },
  {
   "property": "C89",
   "status": "partial",
   "theorems": [
    "C89_names",
    "C89_injective",
    "C89_global_l1_refuted"
   ],
   "note": "the three cases and injectivity proved for all names; that a column L1 of the namespace Global gets the name StarkInfo::new looks for is refuted: the code drops one colon of \"::\" instead of two"
  },
  {
   "property": "C90",
   "status": "proved",
   "theorems": [
    "C90_line_and_column"
   ],
   "note": ""
  },
  {
   "property": "C91",
   "status": "proved",
   "theorems": [
    "C91_export_keeps_the_meaning"
   ],
   "note": ""
  },
  {
   "property": "C92",
   "status": "partial",
   "theorems": [
    "C92_analysed_pil_is_proved_partial",
    "C92_power_refuted",
    "C92_constant_public_refuted"
   ],
   "note": "proved for analysed PILs without arguments whose publics are cells of committed columns; refuted for powers of numbers and for publics on constant columns, which are exported but make StarkInfo::new or the prover panic"
  },
  {
   "property": "C93",
   "status": "proved",
   "theorems": [
    "C93_satisfied_iff",
    "C93_setup",
    "C93_prover",
    "C93_public_inputs"
   ],
   "note": ""
  },
  {
   "property": "C94",
   "status": "partial",
   "theorems": [
    "C94_written_and_read",
    "C94_decimal",
    "C94_public_input",
    "C94_one_text_refuted"
   ],
   "note": "writing and reading back proved for all scalars and both forms; that a scalar has a single text is refuted: decimal texts are read modulo the modulus"
  },
  {
   "property": "C95",
   "status": "partial",
   "theorems": [
    "C95_written_and_read",
    "C95_decimal",
    "C95_canonical",
    "C95_both_agree",
    "C95_all_texts_refuted"
   ],
   "note": "writing, reading back, agreement on written texts and canonicity proved; that both readers accept the same texts is refuted by the texts 0x and +1_0"
  },
  {
   "property": "C96",
   "status": "partial",
   "theorems": [
    "C96_key",
    "C96_proof",
    "C96_infinity_refuted"
   ],
   "note": "keys and proofs with points determined by their coordinates are read back; refuted for the point at infinity"
  },
  {
   "property": "C97",
   "status": "partial",
   "theorems": [
    "C97_sound",
    "C97_complete",
    "C97_unique_refuted",
    "C97_total_refuted"
   ],
   "note": "soundness and completeness of the seven arithmetic templates proved; refuted: that outputs are determined (an element below 2^32-1 has two) and that every small input has an output (none below -16p)"
  },
  {
   "property": "C98",
   "status": "partial",
   "theorems": [
    "C98_bound",
    "C98_same_hash",
    "C98_carry_refuted",
    "C98_free_refuted"
   ],
   "note": "binding of rows of words, and agreement with the Rust row hash, proved; refuted for the generated circuit, which does not check that opened values are words: carries between neighbours, or any first value at all"
  },
  {
   "property": "C99",
   "status": "partial",
   "theorems": [
    "C99_sound",
    "C99_complete",
    "C99_unique_refuted"
   ],
   "note": "the possible outputs are determined and the expected one always accepted; that it is the only one is refuted over BLS12-381, for every input below 2^255 - r"
  },
  {
   "property": "C100",
   "status": "proved",
   "theorems": [
    "C100_compare",
    "C100_compare_total",
    "C100_select",
    "C100_select_total",
    "C100_bits"
   ],
   "note": ""
  },
  {
   "property": "C101",
   "status": "proved",
   "theorems": [
    "C101_sound",
    "C101_complete",
    "C101_ifft",
    "C101_evalpol"
   ],
   "note": ""
  },
  {
   "property": "C102",
   "status": "partial",
   "theorems": [
    "C102_sound",
    "C102_same_refuted"
   ],
   "note": "circuit acceptance implies verifier acceptance; the converse is refuted, the verifier allows one more coefficient"
  },
  {
   "property": "C103",
   "status": "proved",
   "theorems": [
    "C103_same",
    "C103_total"
   ],
   "note": ""
  },
  {
   "property": "C104",
   "status": "partial",
   "theorems": [
    "C104_sound",
    "C104_positions_refuted"
   ],
   "note": "the drawn values are determined up to the 255-bit numbers congruent to the drawn element, and the positions exactly over BN128 (Num2Bits_strict); over BLS12-381 that the positions are the verifier's is refuted for every drawn element below 2^255 - r"
  },
  {
   "property": "C105",
   "status": "partial",
   "theorems": [
    "C105_same",
    "C105_literals_refuted",
    "C105_primed_z_refuted"
   ],
   "note": "proved for codes whose literals are not below -p and whose Z is not primed, as in all generated code; refuted for a literal below -2p (verifier reads another element) and for a primed Z"
  },
  {
   "property": "C106",
   "status": "proved",
   "theorems": [
    "C106_same",
    "C106_indices"
   ],
   "note": ""
  },
  {
   "property": "C107",
   "status": "partial",
   "theorems": [
    "C107_onchain",
    "C107_recursive",
    "C107_single_step_refuted",
    "C107_verifier_roots",
    "C107_empty_tree_refuted"
   ],
   "note": "proved for structures with columns in the second and third tree (and two steps, for the recursive circuit); with one step the recursive circuit compares no root and no query, and the root of an empty tree is never compared: both refuted"
  },
  {
   "property": "C108",
   "status": "proved",
   "theorems": [
    "C108_same"
   ],
   "note": "one direction: every satisfying assignment yields the verifier's value; that the quotients exist (the evaluation point lies off the domain) is not needed. Assumes the section order of starkinfo_map.rs, the sources tree_refs produces and literals not below -p"
  },
  {
   "property": "C109",
   "status": "partial",
   "theorems": [
    "C109_sound_partial",
    "C109_base_refuted",
    "C109_muladd_refuted",
    "C109_norm_refuted"
   ],
   "note": "proved in one direction for codes whose magnitudes, read off the text, stay below 2^119, whose literals are not below -p and which add no two base elements; refuted: sums and products of two base elements and a*b+c with only c in the extension have no satisfying assignment, and long sums make the final comparison unsatisfiable"
  },
  {
   "property": "C110",
   "status": "proved",
   "theorems": [
    "C110_sound"
   ],
   "note": "the claim is soundness; acceptance of honest proofs fails for long sums (C109_norm_refuted). Inputs are taken to be words, the range that the circuit does not check (C98)"
  },
  {
   "property": "C111",
   "status": "proved",
   "theorems": [
    "C111_sound"
   ],
   "note": "inputs are taken to be words, the range that the circuit does not check (C98); that the query code stays below the magnitudes of GLCNorm for honest proofs is not claimed (C109_norm_refuted)"
  },
  {
   "property": "C112",
   "status": "proved",
   "theorems": [
    "C112_sound",
    "C112_unique",
    "C112_binding",
    "C112_complete"
   ],
   "note": "circomlib's Sha256 is a function parameter (it is not in the repository); Num2Bits as stated in CircModel"
  },
  {
   "property": "C113",
   "status": "partial",
   "theorems": [
    "C113_single",
    "C113_aggregation",
    "C113_publics_refuted",
    "C113_root_refuted",
    "C113_columns_refuted"
   ],
   "note": "acceptance characterised without columns in the second tree and with columns in the third; refuted: the public inputs of the aggregation circuit are connected to nothing, the public rootC of the plain circuit neither, and the connections for the second and third tree do not depend on their columns. What StarkVerifier states is a parameter here (see C101-C108)"
  }
 ]
}