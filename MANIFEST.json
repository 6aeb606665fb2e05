{
 "claims": [
  {
   "property": "C01",
   "status": "proved",
   "theorems": [
    "lyra2_output_length",
    "lyra2mod_output_length",
    "lyra2_output_length_any_width"
   ],
   "note": ""
  },
  {
   "property": "C02",
   "status": "proved",
   "theorems": [
    "lyra2_returns_iff",
    "lyra2_returns_or_panics",
    "lyra2_returns_or_panics_any",
    "lyra2_returns_or_panics_checked",
    "lyra2_returns_exact",
    "lyra2_accesses_in_bounds",
    "source_accesses_in_bounds"
   ],
   "note": ""
  },
  {
   "property": "C03",
   "status": "proved",
   "theorems": [
    "lyra2_panics_documented"
   ],
   "note": ""
  },
  {
   "property": "C04",
   "status": "proved",
   "theorems": [
    "lyra2_terminates",
    "lyra2mod_terminates"
   ],
   "note": ""
  },
  {
   "property": "C05",
   "status": "proved",
   "theorems": [
    "lyra2_long_output_refuted",
    "lyra2_long_output_panics",
    "lyra2_huge_output_32",
    "lyra2_huge_output_zero"
   ],
   "note": "The expectation is false of the code: every k > 96 panics, apart from k >= 2^63 on 32 bits, which gives zeros."
  },
  {
   "property": "C06",
   "status": "proved",
   "theorems": [
    "lyra2_sum_domain",
    "lyra2_sum_value"
   ],
   "note": ""
  },
  {
   "property": "C07",
   "status": "proved",
   "theorems": [
    "lyra2_computes_Lyra2_code",
    "lyra2_computes_Lyra2",
    "lyra2_computes_Lyra2_refuted_rows",
    "lyra2_computes_Lyra2_refuted_alignment"
   ],
   "note": "Equality with Lyra2 holds for power-of-two row counts and word-aligned inputs; both side conditions are needed (refuted without them)."
  },
  {
   "property": "C08",
   "status": "proved",
   "theorems": [
    "lyra2_log_erase",
    "lyra2_pass_visits_all_rows",
    "lyra2mod_pass_visits_all_rows"
   ],
   "note": ""
  },
  {
   "property": "C09",
   "status": "proved",
   "theorems": [
    "lyra2_log_erase",
    "lyra2_wandering_rows",
    "lyra2mod_wandering_rows",
    "lyra2_odd_pass_single_row",
    "lyra2_pass_lengths",
    "lyra2_every_pass_visits_all_rows_refuted"
   ],
   "note": "Full coverage is refuted; what is covered instead is proved."
  },
  {
   "property": "C10",
   "status": "proved",
   "theorems": [
    "lyra2_log_erase",
    "lyra2_setup_rows",
    "lyra2mod_setup_rows"
   ],
   "note": ""
  },
  {
   "property": "C11",
   "status": "proved",
   "theorems": [
    "lyra2_log_erase",
    "lyra2_schedule_public",
    "lyra2mod_schedule_public",
    "lyra2_rowa_depends_on_data"
   ],
   "note": "The last theorem shows that row* is rightly left out of the claim."
  },
  {
   "property": "C12",
   "status": "proved",
   "theorems": [
    "lyra2_setup_forgets_input"
   ],
   "note": ""
  },
  {
   "property": "C13",
   "status": "proved",
   "theorems": [
    "lyra2_log_erase",
    "lyra2_absorbed_determines",
    "lyra2_absorbed_injective",
    "lyra2mod_absorbed_injective"
   ],
   "note": ""
  },
  {
   "property": "C14",
   "status": "proved",
   "theorems": [
    "lyra2_ignores_trailing_bytes",
    "lyra2_sum_trailing_bytes_refuted"
   ],
   "note": "The desired statement is refuted; the exact insensitivity is proved."
  },
  {
   "property": "C15",
   "status": "proved",
   "theorems": [
    "lyra2_log_erase",
    "lyra2_absorbs_reference_iff",
    "lyra2mod_absorbs_reference_iff",
    "lyra2_absorbs_reference_refuted"
   ],
   "note": "True exactly for lengths that are multiples of 8."
  },
  {
   "property": "C16",
   "status": "proved",
   "theorems": [
    "lyra2_log_erase",
    "lyra2_boundary_bound",
    "lyra2_swap_bound",
    "lyra2_swap_unaligned_refuted"
   ],
   "note": ""
  },
  {
   "property": "C17",
   "status": "proved",
   "theorems": [
    "round_permutes",
    "reduced_sponge_permutes",
    "full_sponge_permutes",
    "absorb8_loses_nothing",
    "absorb12_loses_nothing",
    "absorb8_total",
    "absorb12_total"
   ],
   "note": ""
  },
  {
   "property": "C18",
   "status": "proved",
   "theorems": [
    "round_zero_preimage",
    "full_sponge_zero_preimage",
    "first_absorption_nonzero"
   ],
   "note": ""
  },
  {
   "property": "C19",
   "status": "proved",
   "theorems": [
    "round_is_rfc7693",
    "full_sponge_is_rfc7693"
   ],
   "note": ""
  },
  {
   "property": "C20",
   "status": "proved",
   "theorems": [
    "lyra2_profiles_agree",
    "overflow_checks_only_remove",
    "lyra2_profiles_agree_refuted"
   ],
   "note": "True for n_rows < 2^63; refuted beyond."
  },
  {
   "property": "C21",
   "status": "proved",
   "theorems": [
    "lyra2_widths_agree",
    "lyra2_returns_32_then_64",
    "lyra2_widths_agree_refuted"
   ],
   "note": "True for accepted calls and for k, n_rows < 2^63; refuted for k >= 2^63."
  },
  {
   "property": "C22",
   "status": "proved",
   "theorems": [
    "cubehash_two_rounds",
    "cubehash_sixteen_rounds",
    "cubehash_initial_state",
    "cubehash_conforms"
   ],
   "note": ""
  },
  {
   "property": "C23",
   "status": "proved",
   "theorems": [
    "cubehash_domain",
    "cubehash_ignores_tail",
    "cubehash_value",
    "cubehash_long_refuted"
   ],
   "note": ""
  },
  {
   "property": "C24",
   "status": "proved",
   "theorems": [
    "bmw_compress_conforms",
    "bmw_conforms"
   ],
   "note": ""
  },
  {
   "property": "C25",
   "status": "proved",
   "theorems": [
    "bmw_domain",
    "bmw_ignores_tail",
    "bmw_overwritten_value",
    "bmw_collision_refuted",
    "bmw_long_refuted"
   ],
   "note": ""
  },
  {
   "property": "C26",
   "status": "proved",
   "theorems": [
    "u32_write_read",
    "u64_write_read",
    "u32_read_write",
    "u64_read_write",
    "u32_read_panics",
    "u64_read_panics",
    "u32_read_value",
    "u64_read_value"
   ],
   "note": ""
  },
  {
   "property": "C27",
   "status": "proved",
   "theorems": [
    "lyra2re_total"
   ],
   "note": "For any 32-byte digests in place of the external crates; their specifications are instances."
  },
  {
   "property": "C28",
   "status": "proved",
   "theorems": [
    "lyra2rev2_total"
   ],
   "note": "As C27."
  },
  {
   "property": "C29",
   "status": "proved",
   "theorems": [
    "lyra2rev3_total"
   ],
   "note": "As C27."
  },
  {
   "property": "C30",
   "status": "proved",
   "theorems": [
    "lyra2z_total"
   ],
   "note": "As C27."
  },
  {
   "property": "C31",
   "status": "proved",
   "theorems": [
    "chains_depend_on_blake"
   ],
   "note": ""
  },
  {
   "property": "C32",
   "status": "proved",
   "theorems": [
    "lyra2mod_computes_rev3",
    "lyra2mod_returns_or_panics",
    "lyra2_returns_or_panics_checked"
   ],
   "note": ""
  },
  {
   "property": "C33",
   "status": "proved",
   "theorems": [
    "lyra2_documented_capacity_refuted",
    "lyra2_capacity_exact",
    "lyra2_capacity"
   ],
   "note": "The documented capacity is refuted; the exact capacity is proved for every platform, any number of rows and columns."
  },
  {
   "property": "C34",
   "status": "proved",
   "theorems": [
    "lyra2_work",
    "lyra2_work_bounds",
    "lyra2_work_exact",
    "lyra2_full_work_refuted",
    "lyra2_accesses_erase",
    "source_work"
   ],
   "note": "Exact in terms of the rows an even and an odd pass visit, and in closed form for a power of two of rows; the full amount is refuted for other row counts."
  },
  {
   "property": "C35",
   "status": "proved",
   "theorems": [
    "lyra2_accesses_public",
    "lyra2_all_accesses_public_refuted",
    "lyra2_access_log",
    "lyra2_accesses_erase",
    "source_accesses_public"
   ],
   "note": ""
  },
  {
   "property": "C36",
   "status": "proved",
   "theorems": [
    "lyra2_reads_initialised",
    "lyra2_wandering_addresses",
    "lyra2_accesses_in_bounds",
    "source_reads_initialised",
    "lyra2_reads_initialised_refuted"
   ],
   "note": "For fewer than 2^63 rows, or any number with overflow checks; refuted for the rest."
  },
  {
   "property": "C37",
   "status": "proved",
   "theorems": [
    "source_lyra2",
    "source_sums",
    "source_chains",
    "source_sponge",
    "source_codec",
    "source_copies_agree",
    "source_lyra2_computes",
    "source_digests_compute",
    "source_chains_compute",
    "source_accesses",
    "source_accesses_erase",
    "source_accesses_return"
   ],
   "note": "The source as translated by tools/rust2coq.py; for lyra2 the regular arguments of C02 (n_rows < 2^63 unless there are overflow checks, k < 2^63 on 32 bits)."
  },
  {
   "property": "C38",
   "status": "proved",
   "theorems": [
    "setup_keeps_input",
    "changed_inputs_one_block_apart",
    "phases_make_the_call"
   ],
   "note": ""
  },
  {
   "property": "C39",
   "status": "proved",
   "theorems": [
    "wandering_loses_nothing",
    "wandering_keeps_input",
    "phases_make_the_call",
    "wandering_permutes_contents",
    "wandering_injective_refuted",
    "wandering_reaches_all_refuted"
   ],
   "note": "Without the condition that the same rows are revisited the phase is not injective, hence not onto: refuted with two explicit memory contents."
  },
  {
   "property": "C40",
   "status": "proved",
   "theorems": [
    "cubehash_two_rounds_permute",
    "cubehash_sixteen_rounds_permute",
    "cubehash_in_two_parts",
    "cubehash_state_injective",
    "cubehash_digests_equally_likely",
    "cubehash_last_part"
   ],
   "note": ""
  },
  {
   "property": "C41",
   "status": "proved",
   "theorems": [
    "lyra2_failure_ignores_contents",
    "lyra2_failure_ignores_contents_wrapped_refuted",
    "sums_failure_ignores_contents"
   ],
   "note": "For n_rows >= 2^63 without overflow checks the claim is false: refuted with two passwords of equal length."
  },
  {
   "property": "C42",
   "status": "proved",
   "theorems": [
    "sums_platform_independent",
    "chains_platform_independent"
   ],
   "note": "lyra2 with free parameters is C20 and C21."
  },
  {
   "property": "C43",
   "status": "proved",
   "theorems": [
    "lyra2_first_revisited_row",
    "lyra2mod_first_revisited_row",
    "lyra2_row_choice_unbiased",
    "lyra2_row_choice_unbiased_states",
    "all_states_are_all",
    "lyra2_row_choice_count",
    "lyra2_row_choice_unbiased_refuted",
    "lyra2mod_row_choice_states",
    "lyra2mod_row_choice_unbiased_refuted",
    "lyra2mod_row_choice_forced"
   ],
   "note": "Proved for powers of two and lyra2; refuted with exact counts for other row counts and for the lyra2rev3 variant."
  },
  {
   "property": "C44",
   "status": "proved",
   "theorems": [
    "lyra2_heap_erase",
    "lyra2_heap_use",
    "source_heap_use",
    "chains_heap_use"
   ],
   "note": "Vectors of words; byte vectors and stack copies are not counted."
  },
  {
   "property": "C45",
   "status": "proved",
   "theorems": [
    "lyra2_heap_erase",
    "lyra2_leaves_secrets",
    "lyra2_wipes_password_refuted",
    "source_leaves_secrets"
   ],
   "note": "The property is refuted: the theorems say what is left in the memory given back."
  },
  {
   "property": "C46",
   "status": "proved",
   "theorems": [
    "bmw_first_half_permutes",
    "bmw_in_parts",
    "bmw_first_pipe_injective",
    "bmw_differences_survive_until_folding"
   ],
   "note": ""
  },
  {
   "property": "C47",
   "status": "proved",
   "theorems": [
    "lyra2re_collision_iff",
    "lyra2rev2_collision_iff",
    "lyra2rev3_collision_iff",
    "lyra2z_collision_iff"
   ],
   "note": ""
  },
  {
   "property": "C48",
   "status": "proved",
   "theorems": [
    "variants_differ_in_rows_only"
   ],
   "note": ""
  },
  {
   "property": "C49",
   "status": "proved",
   "theorems": [
    "longer_key_extends_refuted",
    "key_length_enters_memory",
    "shorter_key_is_prefix"
   ],
   "note": "The extension property is refuted."
  },
  {
   "property": "C50",
   "status": "proved",
   "theorems": [
    "lyra2_rows_read_next",
    "lyra2_setup_rows",
    "lyra2mod_setup_rows"
   ],
   "note": ""
  },
  {
   "property": "C51",
   "status": "proved",
   "theorems": [
    "keys_equally_likely",
    "extraction_unbiased",
    "all_contents_are_all"
   ],
   "note": "Relative to the contents after the setup phase and the sequence of rows; nothing is claimed about the distribution of passwords."
  },
  {
   "property": "C52",
   "status": "proved",
   "theorems": [
    "sponge_turns",
    "sponge_symmetry",
    "first_absorption_asymmetric",
    "cubehash_mirrors",
    "cubehash_symmetry",
    "cubehash_first_block_asymmetric"
   ],
   "note": "The state after the first block only: later blocks are xored in and could in principle make a state symmetric."
  },
  {
   "property": "C53",
   "status": "proved",
   "theorems": [
    "bad_parameters_cost_nothing",
    "bad_parameters_cost_nothing_refuted",
    "long_output_fails_last",
    "source_accesses",
    "source_accesses_erase"
   ],
   "note": "Where the matrix size wraps, only that rounds are run before the panic is shown (by examples), not how many. Outputs of 2^32 bytes or more on 32 bits are left out of long_output_fails_last."
  },
  {
   "property": "C54",
   "status": "proved",
   "theorems": [
    "chains_cost_constant",
    "chains_accesses_public",
    "chains_log_erase"
   ],
   "note": "The cost of the external digests, of CubeHash and of BMW is not counted."
  },
  {
   "property": "C55",
   "status": "proved",
   "theorems": [
    "lyra2_steps",
    "lyra2mod_steps",
    "steps_give_the_key",
    "steps_are_accessed"
   ],
   "note": ""
  },
  {
   "property": "C56",
   "status": "proved",
   "theorems": [
    "seen_source",
    "seen_source_chains",
    "seen_source_accesses",
    "lyra2_shows_choices",
    "lyra2_choices_determine_run",
    "hashes_show_nothing",
    "chains_show_choices"
   ],
   "note": "The translated source with a log of indices, slices, sizes, loop ranges, branches and row choices. Inside the external digest crates nothing is observed; variable-time machine instructions are not modelled."
  },
  {
   "property": "C57",
   "status": "proved",
   "theorems": [
    "lyra2_shows_rows_only",
    "lyra2mod_shows_rows_only",
    "chains_show_rows_only"
   ],
   "note": "Of calls that return; of calls that panic C58 speaks. The external digests are variables of the theorem on the chained hashes."
  },
  {
   "property": "C58",
   "status": "proved",
   "theorems": [
    "no_round_no_secret",
    "lyra2_any_call_shows_rows_only",
    "lyra2mod_any_call_shows_rows_only",
    "sums_show_rows_only"
   ],
   "note": "every key length, returning and failing calls; where the size of the matrix wraps around (C53) only no_round_no_secret applies"
  },
  {
   "property": "C59",
   "status": "proved",
   "theorems": [
    "setup_and_rest_make_the_call",
    "unused_rows_do_not_matter",
    "rows_used_count",
    "all_memory_matters_refuted"
   ],
   "note": "refuted for row counts that are not powers of two; for powers of two every pass visits every row (C08)"
  },
  {
   "property": "C60",
   "status": "proved",
   "theorems": [
    "huge_rows_panic",
    "huge_rows_panic_refuted",
    "huge_rows_skip_setup",
    "huge_rows_read_stale_memory",
    "huge_rows_unchecked_exact",
    "lyra2_returns_exact",
    "lyra2_returns_or_panics_checked",
    "overflow_checks_only_remove"
   ],
   "note": "The panic is refuted for builds without overflow checks."
  },
  {
   "property": "C61",
   "status": "proved",
   "theorems": [
    "source_heap_is_model",
    "source_heap_any",
    "source_sum_heap",
    "chains_heap_any"
   ],
   "note": "Vectors of words. The log of a call that panics ends at the panic; what unwinding frees after it is not modelled."
  }
 ]
}