#!/usr/bin/env python3
"""Writes MANIFEST.json: which theorems settle which property."""
import json, os, re
here = os.path.dirname(os.path.abspath(__file__))
root = os.path.dirname(here)
P, N = "proved", "not_applicable"
claims = [
 ("C01", P, ["lyra2_output_length", "lyra2mod_output_length", "lyra2_output_length_any_width"], ""),
 ("C02", P, ["lyra2_returns_iff", "lyra2_returns_or_panics", "lyra2_returns_or_panics_any", "lyra2_returns_or_panics_checked", "lyra2_returns_exact",
             "lyra2_accesses_in_bounds", "source_accesses_in_bounds"], ""),
 ("C03", P, ["lyra2_panics_documented"], ""),
 ("C04", P, ["lyra2_terminates", "lyra2mod_terminates"], ""),
 ("C05", P, ["lyra2_long_output_refuted", "lyra2_long_output_panics", "lyra2_huge_output_32", "lyra2_huge_output_zero"],
  "The expectation is false of the code: every k > 96 panics, apart from k >= 2^63 on 32 bits, which gives zeros."),
 ("C06", P, ["lyra2_sum_domain", "lyra2_sum_value"], ""),
 ("C07", P, ["lyra2_computes_Lyra2_code", "lyra2_computes_Lyra2",
             "lyra2_computes_Lyra2_refuted_rows", "lyra2_computes_Lyra2_refuted_alignment"],
  "Equality with Lyra2 holds for power-of-two row counts and word-aligned inputs; both side conditions are needed (refuted without them)."),
 ("C08", P, ["lyra2_log_erase", "lyra2_pass_visits_all_rows", "lyra2mod_pass_visits_all_rows"], ""),
 ("C09", P, ["lyra2_log_erase", "lyra2_wandering_rows", "lyra2mod_wandering_rows", "lyra2_odd_pass_single_row", "lyra2_pass_lengths",
             "lyra2_every_pass_visits_all_rows_refuted"],
  "Full coverage is refuted; what is covered instead is proved."),
 ("C10", P, ["lyra2_log_erase", "lyra2_setup_rows", "lyra2mod_setup_rows"], ""),
 ("C11", P, ["lyra2_log_erase", "lyra2_schedule_public", "lyra2mod_schedule_public", "lyra2_rowa_depends_on_data"],
  "The last theorem shows that row* is rightly left out of the claim."),
 ("C12", P, ["lyra2_setup_forgets_input"], ""),
 ("C13", P, ["lyra2_log_erase", "lyra2_absorbed_determines", "lyra2_absorbed_injective", "lyra2mod_absorbed_injective"], ""),
 ("C14", P, ["lyra2_ignores_trailing_bytes", "lyra2_sum_trailing_bytes_refuted"],
  "The desired statement is refuted; the exact insensitivity is proved."),
 ("C15", P, ["lyra2_log_erase", "lyra2_absorbs_reference_iff", "lyra2mod_absorbs_reference_iff", "lyra2_absorbs_reference_refuted"],
  "True exactly for lengths that are multiples of 8."),
 ("C16", P, ["lyra2_log_erase", "lyra2_boundary_bound", "lyra2_swap_bound", "lyra2_swap_unaligned_refuted"], ""),
 ("C17", P, ["round_permutes", "reduced_sponge_permutes", "full_sponge_permutes", "absorb8_loses_nothing", "absorb12_loses_nothing",
             "absorb8_total", "absorb12_total"], ""),
 ("C18", P, ["round_zero_preimage", "full_sponge_zero_preimage", "first_absorption_nonzero"], ""),
 ("C19", P, ["round_is_rfc7693", "full_sponge_is_rfc7693"], ""),
 ("C20", P, ["lyra2_profiles_agree", "overflow_checks_only_remove", "lyra2_profiles_agree_refuted"],
  "True for n_rows < 2^63; refuted beyond."),
 ("C21", P, ["lyra2_widths_agree", "lyra2_returns_32_then_64", "lyra2_widths_agree_refuted"],
  "True for accepted calls and for k, n_rows < 2^63; refuted for k >= 2^63."),
 ("C22", P, ["cubehash_two_rounds", "cubehash_sixteen_rounds", "cubehash_initial_state", "cubehash_conforms"], ""),
 ("C23", P, ["cubehash_domain", "cubehash_ignores_tail", "cubehash_value", "cubehash_long_refuted"], ""),
 ("C24", P, ["bmw_compress_conforms", "bmw_conforms"], ""),
 ("C25", P, ["bmw_domain", "bmw_ignores_tail", "bmw_overwritten_value", "bmw_collision_refuted", "bmw_long_refuted"], ""),
 ("C26", P, ["u32_write_read", "u64_write_read", "u32_read_write", "u64_read_write", "u32_read_panics", "u64_read_panics",
             "u32_read_value", "u64_read_value"], ""),
 ("C27", P, ["lyra2re_total"], "For any 32-byte digests in place of the external crates; their specifications are instances."),
 ("C28", P, ["lyra2rev2_total"], "As C27."),
 ("C29", P, ["lyra2rev3_total"], "As C27."),
 ("C30", P, ["lyra2z_total"], "As C27."),
 ("C31", P, ["chains_depend_on_blake"], ""),
 ("C32", P, ["lyra2mod_computes_rev3", "lyra2mod_returns_or_panics", "lyra2_returns_or_panics_checked"], ""),
 ("C33", P, ["lyra2_documented_capacity_refuted", "lyra2_capacity_exact", "lyra2_capacity"],
  "The documented capacity is refuted; the exact capacity is proved for every platform, any number of rows and columns."),
 ("C34", P, ["lyra2_work", "lyra2_work_bounds", "lyra2_work_exact", "lyra2_full_work_refuted", "lyra2_accesses_erase", "source_work"],
  "Exact in terms of the rows an even and an odd pass visit, and in closed form for a power of two of rows; the full amount is refuted for other row counts."),
 ("C35", P, ["lyra2_accesses_public", "lyra2_all_accesses_public_refuted", "lyra2_access_log", "lyra2_accesses_erase", "source_accesses_public"], ""),
 ("C36", P, ["lyra2_reads_initialised", "lyra2_wandering_addresses", "lyra2_accesses_in_bounds", "source_reads_initialised", "lyra2_reads_initialised_refuted"],
  "For fewer than 2^63 rows, or any number with overflow checks; refuted for the rest."),
 ("C37", P, ["source_lyra2", "source_sums", "source_chains", "source_sponge", "source_codec", "source_copies_agree",
             "source_lyra2_computes", "source_digests_compute", "source_chains_compute", "source_accesses", "source_accesses_erase", "source_accesses_return"],
  "The source as translated by tools/rust2coq.py; for lyra2 the regular arguments of C02 (n_rows < 2^63 unless there are overflow checks, k < 2^63 on 32 bits)."),
 ("C38", P, ["setup_keeps_input", "changed_inputs_one_block_apart", "phases_make_the_call"], ""),
 ("C39", P, ["wandering_loses_nothing", "wandering_keeps_input", "phases_make_the_call", "wandering_permutes_contents", "wandering_injective_refuted", "wandering_reaches_all_refuted"], "Without the condition that the same rows are revisited the phase is not injective, hence not onto: refuted with two explicit memory contents."),
 ("C40", P, ["cubehash_two_rounds_permute", "cubehash_sixteen_rounds_permute", "cubehash_in_two_parts", "cubehash_state_injective", "cubehash_digests_equally_likely", "cubehash_last_part"], ""),
 ("C41", P, ["lyra2_failure_ignores_contents", "lyra2_failure_ignores_contents_wrapped_refuted", "sums_failure_ignores_contents"], "For n_rows >= 2^63 without overflow checks the claim is false: refuted with two passwords of equal length."),
 ("C42", P, ["sums_platform_independent", "chains_platform_independent"], "lyra2 with free parameters is C20 and C21."),
 ("C43", P, ["lyra2_first_revisited_row", "lyra2mod_first_revisited_row", "lyra2_row_choice_unbiased", "lyra2_row_choice_unbiased_states", "all_states_are_all", "lyra2_row_choice_count", "lyra2_row_choice_unbiased_refuted", "lyra2mod_row_choice_states", "lyra2mod_row_choice_unbiased_refuted", "lyra2mod_row_choice_forced"], "Proved for powers of two and lyra2; refuted with exact counts for other row counts and for the lyra2rev3 variant."),
 ("C44", P, ["lyra2_heap_erase", "lyra2_heap_use", "source_heap_use", "chains_heap_use"], "Vectors of words; byte vectors and stack copies are not counted."),
 ("C45", P, ["lyra2_heap_erase", "lyra2_leaves_secrets", "lyra2_wipes_password_refuted", "source_leaves_secrets"], "The property is refuted: the theorems say what is left in the memory given back."),
 ("C46", P, ["bmw_first_half_permutes", "bmw_in_parts", "bmw_first_pipe_injective", "bmw_differences_survive_until_folding"], ""),
 ("C47", P, ["lyra2re_collision_iff", "lyra2rev2_collision_iff", "lyra2rev3_collision_iff", "lyra2z_collision_iff"], ""),
 ("C48", P, ["variants_differ_in_rows_only"], ""),
 ("C49", P, ["longer_key_extends_refuted", "key_length_enters_memory", "shorter_key_is_prefix"], "The extension property is refuted."),
 ("C50", P, ["lyra2_rows_read_next", "lyra2_setup_rows", "lyra2mod_setup_rows"], ""),
 ("C51", P, ["keys_equally_likely", "extraction_unbiased", "all_contents_are_all"], "Relative to the contents after the setup phase and the sequence of rows; nothing is claimed about the distribution of passwords."),
 ("C52", P, ["sponge_turns", "sponge_symmetry", "first_absorption_asymmetric", "cubehash_mirrors", "cubehash_symmetry", "cubehash_first_block_asymmetric"], "The state after the first block only: later blocks are xored in and could in principle make a state symmetric."),
 ("C53", P, ["bad_parameters_cost_nothing", "bad_parameters_cost_nothing_refuted", "long_output_fails_last", "source_accesses", "source_accesses_erase"],
  "Where the matrix size wraps, only that rounds are run before the panic is shown (by examples), not how many. Outputs of 2^32 bytes or more on 32 bits are left out of long_output_fails_last."),
 ("C54", P, ["chains_cost_constant", "chains_accesses_public", "chains_log_erase"], "The cost of the external digests, of CubeHash and of BMW is not counted."),
 ("C55", P, ["lyra2_steps", "lyra2mod_steps", "steps_give_the_key", "steps_are_accessed"], ""),
 ("C56", P, ["seen_source", "seen_source_chains", "seen_source_accesses", "lyra2_shows_choices", "lyra2_choices_determine_run", "hashes_show_nothing", "chains_show_choices"],
  "The translated source with a log of indices, slices, sizes, loop ranges, branches and row choices. Inside the external digest crates nothing is observed; variable-time machine instructions are not modelled."),
 ("C57", P, ["lyra2_shows_rows_only", "lyra2mod_shows_rows_only", "chains_show_rows_only"],
  "Of calls that return; of calls that panic C58 speaks. The external digests are variables of the theorem on the chained hashes."),
 ("C58", P, ["no_round_no_secret", "lyra2_any_call_shows_rows_only", "lyra2mod_any_call_shows_rows_only", "sums_show_rows_only"],
  "every key length, returning and failing calls; where the size of the matrix wraps around (C53) only no_round_no_secret applies"),
 ("C59", P, ["setup_and_rest_make_the_call", "unused_rows_do_not_matter", "rows_used_count", "all_memory_matters_refuted"],
  "refuted for row counts that are not powers of two; for powers of two every pass visits every row (C08)"),
 ("C60", P, ["huge_rows_panic", "huge_rows_panic_refuted", "huge_rows_skip_setup", "huge_rows_read_stale_memory", "huge_rows_unchecked_exact", "lyra2_returns_exact", "lyra2_returns_or_panics_checked", "overflow_checks_only_remove"],
  "The panic is refuted for builds without overflow checks."),
 ("C61", P, ["source_heap_is_model", "source_heap_any", "source_sum_heap", "chains_heap_any"],
  "Vectors of words. The log of a call that panics ends at the panic; what unwinding frees after it is not modelled."),
]
src = ""
for f in sorted(os.listdir(root + "/rocq/theories")):
    if f.endswith(".v"): src += open(root + "/rocq/theories/" + f).read()
names = set(re.findall(r"^(?:Theorem|Lemma|Example)\s+(\w+)", src, re.M))
for c in claims:
    for t in c[2]:
        assert t in names, (c[0], t)
json.dump({"claims": [{"property": a, "status": b, "theorems": c, "note": d} for a, b, c, d in claims]},
          open(root + "/MANIFEST.json", "w"), indent=1)
props = [json.loads(l)["id"] for l in open(root + "/properties.jsonl")]
print("missing:", [p for p in props if p not in [c[0] for c in claims]])
