{"claims": [
 {"property": "C01", "status": "proved", "theorems": ["C01_entropy_coder_lossless"], "note": "arbitrary adaptive valid models, arbitrary length"},
 {"property": "C02", "status": "partial", "theorems": ["C02_termination_robust_refuted", "C02_termination_robust_partial"], "note": "false in general (refuted by witness); true when the final interval is outside the termination window"},
 {"property": "C03", "status": "proved", "theorems": ["C03_tail_fields_round_trip"], "note": "fields of the widths used by the format, arbitrary old content; the last bit of the buffer must stay free (the writer panics otherwise)"},
 {"property": "C04", "status": "proved", "theorems": ["C04_side_info_round_trip", "C04_frame_side_info"], "note": "all configurations, all legal records, all lengths that hold the side info plus one bit"},
 {"property": "C05", "status": "partial", "theorems": ["C05_regular_round_trip_refuted", "C05_regular_round_trip_partial"], "note": "false inside the termination window (witness); proved outside it or with three spare bytes"},
 {"property": "C06", "status": "partial", "theorems": ["C06_lsb_round_trip_refuted", "C06_lsb_round_trip_partial"], "note": "false (escape levels stored by pair, looked up by line); proved: error at most 1 (2 for unit lines), exact if at most the first pair escapes"},
 {"property": "C07", "status": "partial", "theorems": ["C07_every_i16_representable_refuted", "C07_every_i16_representable_partial"], "note": "-32768 is not representable; all other values are"},
 {"property": "C08", "status": "partial", "theorems": ["C08_parse_never_panics_partial", "C08_parse_never_panics_refuted", "C08_seven_bytes_refuted", "C08_long_frame_refuted"], "note": "Proved for every byte string of at least 8 bytes (with overflow checks: 8..440 bytes) and every legal configuration. The unconditional claim is false: short frames underflow in read_tail_bool and, with overflow checks, long frames overflow the noise filling seed; both refuted with witnesses; 8 is sharp. Covers read_frame (side information and arithmetic decoding); the later decoder stages are separate claims."},
 {"property": "C09", "status": "proved", "theorems": ["C09_accepted_frame_well_formed", "C09_too_short_is_rejected"], "note": "frame_wf lists the ranges: bandwidth, even lastnz, zero tail, |line| <= 81920, TNS orders and indices, SNS code book domains, pitch, noise factor, residual count, seed, zero frame flag. All byte strings, all lengths, with and without overflow checks."},
 {"property": "C10", "status": "partial", "theorems": ["C10_decode_never_fails_partial", "C10_release_any_history", "C10_other_depths_leave_the_decoder_unchanged", "C10_corrupt_frames_are_concealed", "C10_unbounded_history_refuted"], "note": "Over any scalar type, any configuration, channel count, initial buffer contents. Without overflow checks: any history of any length. With overflow checks: any history of calls no longer than usize::MAX; longer histories on one channel panic (refutation: the frame counter)."},
 {"property": "C11", "status": "partial", "theorems": ["C10_corrupt_frames_are_concealed", "C11_fade_exact", "C11_concealed_magnitude_f32_partial", "C11_fade_tends_to_zero_f32_refuted"], "note": "Concealed line = last good line times +-fade(k), over any history. In exact arithmetic fade is 1 for 4 losses, non-increasing and tends to 0. In binary32 magnitudes are 1x for 4 losses and non-increasing, but the factor stops at 3*2^-149 (refutation of the limit)."},
 {"property": "C12", "status": "proved", "theorems": ["C12_decoder_channels_independent", "C12_decoder_interleavings", "C12_encoder_channels_independent", "C12_encoder_interleavings"], "note": "Both directions, any scalar type, any number of channels, all interleavings: the results and the final state of a channel are those of its own calls run alone."},
 {"property": "C13", "status": "proved", "theorems": ["C13_decoder_buffers", "C13_lengths_defined"], "note": "Any channel count, any configuration; also shows the parts are disjoint and that the reported lengths are used exactly."},
 {"property": "C14", "status": "partial", "theorems": ["C14_encoder_buffers_partial", "C14_encoder_8khz_refuted"], "note": "Proved for every configuration and channel count except 8 kHz, where the constructor panics whatever the buffers (refutation)."},
 {"property": "C15", "status": "partial", "theorems": ["C15_constructible_iff_not_8khz_partial", "C15_all_frequencies_refuted"], "note": "False for 8 kHz (BandwidthDetector::new underflows); proved for all other frequencies, as an equivalence."},
 {"property": "C16", "status": "proved", "theorems": ["C16_enum_then_deenum", "C16_deenum_then_enum", "C16_size_counts_vectors"], "note": "All vectors of dimension up to 16 with 1 to 10 pulses: enumeration then de-enumeration is the identity, every (sign, index) below size is hit by exactly one vector, and size is half the number of such vectors (with the published values for the four shapes)."},
 {"property": "C17", "status": "proved", "theorems": ["C17_sns_round_trip", "C17_all_combinations", "C17_accepted_in_range", "C17_empty_set_b_refuted"], "note": "Float comparisons of the encoder's second stage are arbitrary oracles constrained only by oracle_ok (projection has at most 6 pulses, set B has a positive component). Without the set B condition the encoder panics in a build with overflow checks (refuted theorem). Also proved: all legal field combinations round trip, and any accepted frame has a vector of its shape and a gain index in range."},
 {"property": "C18", "status": "partial", "theorems": ["C18_output_rounding_partial", "C18_round_away_is_nearest", "C18_output_rounding_refuted"], "note": "All binary32 values except +-(1/2 - 2^-25), where the claim is false (refutation); all buffer lengths."},
 {"property": "C19", "status": "proved", "theorems": ["C19_noise_filling", "C19_filled_lines_are_silent", "C19_nonzero_lines_are_kept", "C19_zero_frame_is_left_alone"], "note": "Any scalar type; seed in 16 bits as parsed frames have it (C09)."},
 {"property": "C20", "status": "partial", "theorems": ["C20_seed_no_overflow_partial", "C20_seed_no_overflow_refuted"], "note": "No overflow for every frame of at most 440 bytes (the format allows 400), by an information bound: bits consumed by the range decoder against weighted line values (potential function over contexts, checked by computation for every context and pair index). Refuted for longer frames: 490 and 506 byte witnesses."},
 {"property": "C21", "status": "proved", "theorems": ["C21_residual_decoding", "C21_refinement_bounds", "C21_refinement_is_exact_f32", "C21_encoder_residual"], "note": "Decoder half for any scalar type, bounds in exact arithmetic, exactness in binary32; the encoder's bit of each sent non-zero line is whether the line is at or above its quantised value times the gain, for any arithmetic."},
 {"property": "C22", "status": "partial", "theorems": ["C22_truncation", "C22_truncated_cost_partial", "C22_truncated_cost_refuted"], "note": "Proved in any arithmetic meeting elaws (reals and binary32 do): the recorded cost of the truncated spectrum is within the budget, its last index is even and not above the untruncated one, every line above is zero. The cost of what is actually kept is within the budget unless the first pair is non-zero and alone exceeds it; refuted in that case (the pair is kept, recorded as 0 bits)."},
 {"property": "C23", "status": "partial", "theorems": ["C23_estimator_partial", "C23_exact_without_lsb_mode", "C23_estimator_refuted", "C23_tns_bits"], "note": "The estimator charges exactly the head symbols, tail bits and lsb bits of the writer, plus one bit for every sign that moves to the lsb part (charged twice): exact below 480+160 fs_ind bits, refuted above by the pair (1,4). Noise shaping bits: exact per filter, rounded up."},
 {"property": "C24", "status": "partial", "theorems": ["C24_budget_partial", "C24_budget_refuted"], "note": "One filter: every frame size from 20 to 400 bytes; two filters: from 31 bytes; refuted at 30 bytes, 48 kHz, two filters of order eight with the dearest coefficients."},
 {"property": "C25", "status": "partial", "theorems": ["C25_gain_index_used", "C25_decoder_has_the_same_gain", "C25_index_range_partial", "C25_index_range_refuted"], "note": "The index returned is the one used, in any arithmetic; it is in 0..255 unless a line exceeds the range at index 255; refuted then (286 for a line of 3276762.5 at 16 kHz, 400 bytes)."},
 {"property": "C26", "status": "partial", "theorems": ["C26_every_lag", "C26_lag_round_trip_partial", "C26_lag_round_trip_refuted"], "note": "Every selectable lag has an index below 512; the decoder reads the same quarter-sample lag exactly for lags below 127 and from 157 on. For 127..156 the encoder subtracts 126 where LC3 adds it, so the decoder reads another lag: refuted with two f32 frames of pulses. Holds for whole runs of the detector over any number of frames in any arithmetic."},
 {"property": "C27", "status": "partial", "theorems": ["C27_postfilter_history_partial", "C27_exact_lag_7_5_ms", "C27_exact_lag_refuted", "C27_resampled_lag"], "note": "No access out of range for any history; filter equations over the whole past. Exact lag always with 7.5 ms frames and whenever a new lag fits the ring; false for the longest lags at a pitch change with 10 ms frames (refutation, an upstream bug)."},
 {"property": "C28", "status": "proved", "theorems": ["C28_synthesis_inverts_analysis", "C28_transmitted_filter_partial", "C28_index_zero_refuted"], "note": "In exact arithmetic, for all spectra, coefficients, orders and ordered bands the decoder's lattice undoes the encoder's. With the transmitted indices this needs that no coefficient has index 0 (decoder reads it as 0: refuted), the bands of C29, and that the coefficients quantise into 0..16."},
 {"property": "C29", "status": "partial", "theorems": ["C29_decoder_bands", "C29_bands_partial", "C29_bands_refuted"], "note": "Decoder bands are those of LC3 for all durations and bandwidths, the encoder's are the same and tiled by their sub bands except at 10 ms, bandwidth 2, where the encoder stops at line 200 and the decoder at 240."},
 {"property": "C30", "status": "partial", "theorems": ["C30_residual_count_refuted", "C30_residual_count_partial"], "note": "encoder charges 8 bits more while no byte has left its register; equal otherwise"},
 {"property": "C31", "status": "proved", "theorems": ["C31_stale_content"], "note": ""},
 {"property": "C32", "status": "proved", "theorems": ["C32_tables_are_models", "C32_search_finds_the_symbol"], "note": ""},
 {"property": "C33", "status": "proved", "theorems": ["C33_bit_costs"], "note": "exact: cost = ceil(2048 log2(1024/f))"},
 {"property": "C34", "status": "proved", "theorems": ["C34_band_tables", "C34_each_line_shaped_once"], "note": "All configurations; decoder shaping."},
 {"property": "C35", "status": "proved", "theorems": ["C35_fft_is_the_dft", "C35_fft_is_the_dft_any_length"], "note": "Exact complex arithmetic; lengths of all configurations, and any length with factors in 2..5."},
 {"property": "C36", "status": "partial", "theorems": ["C36_factor_partial", "C36_every_length_refuted"], "note": "Every n below 2*3^32, for any rounding of the square root; the 64-entry factor array overflows for n = 3^33."},
 {"property": "C37", "status": "proved", "theorems": ["C37_forward_transform_is_the_mdct", "C37_reconstruction", "C37_perfect_reconstruction"], "note": "Exact arithmetic (R), both transforms as implemented, every stream of frames from a fresh pair. The encoder's lines are the textbook MDCT under the table window. The output is the input delayed by nf - 2z samples: relative error at most 4e-14 (how far the tables are from power complementary) for all frequencies up to 32 kHz; at 44.1 and 48 kHz the lines above the coded bandwidth are dropped by the codec, and the extra error is bounded by the size of the dropped lines."},
 {"property": "C38", "status": "proved", "theorems": ["C38_total", "C38_memory_of_active_calls", "C38_inactive_frame_resets", "C38_detection", "C38_when_active"], "note": "Every history of calls, any arithmetic. C38_when_active gives the bit rates at which it works."},
 {"property": "C39", "status": "proved", "theorems": ["C39_bandwidth_decodable", "C39_decision", "C39_regions"], "note": "Every rate except 8 kHz, for which the detector's constructor panics (C15). C39_regions says which lines and frequencies the decision of C39_decision looks at."},
 {"property": "C40", "status": "proved", "theorems": ["C40_inactive_postfilter_is_transparent", "C40_plain_call_outputs_the_transform", "C40_concealed_frames_switch_it_off"], "note": "Any scalar type, any reachable state."},
 {"property": "C41", "status": "proved", "theorems": ["C41_live_state_determines_the_future", "C41_resynchronisation", "C41_good_frames_after_resynchronisation"], "note": "Any scalar type; the model is a function of state and call, these say which state counts and how long the past matters."},
 {"property": "C42", "status": "proved", "theorems": ["C42_config_invariants", "C42_overlap_of_the_window"], "note": "All twelve configurations."},
 {"property": "C43", "status": "partial", "theorems": ["C43_payload_fits_partial", "C43_payload_fits_refuted"], "note": "In any arithmetic meeting elaws: side bits plus head bytes stay within the frame separately, and together exceed it by at most 46/2048 bit per symbol less the reserved bits. False in general: two frames of 16 bit audio at 48 kHz, 154 bytes, give a frame that the crate's parser rejects (kernel-checked in fixed point arithmetic; the same audio run in binary32 with a software libm as a stored test)."},
 {"property": "C44", "status": "partial", "theorems": ["C44_encoder_total_partial", "C44_encoder_total_f32_partial", "C44_encoder_total_real_partial", "C44_silence", "C44_encoder_total_f32_live_partial", "C44_silence_f32", "C44_call_succeeds_exactly_f32"], "note": "Any arithmetic meeting elaws (reals, binary32 with any libm), any configuration but 8 kHz (C15), any working buffers and any sequence of calls, under calls_regular: set B of the SNS residual not all zero and its projection at most 6 pulses, reflection coefficients quantise into 0..16, gain floor within i16. What happens otherwise is in C17, C28 and C25. C44_encoder_total_real_partial: in exact arithmetic 16 bit audio meets calls_regular as soon as every frame has a set B residual and positive autocorrelations (calls_alive). C44_silence: silent audio on cleared buffers is encoded without failure, any number of channels and calls. C44_encoder_total_f32_live_partial: in binary32, for 16 bit audio and a library near the exact functions, calls_regular follows as soon as in every frame set B of the rotated residual is not empty or shape 0 is not the one chosen, and no reflection coefficient is exactly 1 or -1 (frame_live); infinities and NaNs need not be excluded. The condition on reflection coefficients cannot be dropped for arbitrary spectra (C62). C44_silence_f32: in binary32 silent audio on cleared buffers is live and is encoded without failure, any number of channels and calls, for a library with the one logarithm silence asks for correctly rounded (quiet_library; met by the rounded exact functions, C44_quiet_library). C44_call_succeeds_exactly_f32: in a build with overflow checks, after any history of 16 bit calls that succeeded, the next 16 bit call succeeds if and only if its frame is live, for a library whose arcsine is correctly rounded at 1 and -1. Both conditions are needed for arbitrary inputs of their stages (C62, C63); whether 16 bit audio can reach a frame that is not live is not settled. Without overflow checks a frame with shape 0 and nothing in set B does not fail, the index wraps (C64 for the quantiser; the encoder model as a whole panics there)."},
 {"property": "C45", "status": "proved", "theorems": ["C45_every_bandwidth_reachable_refuted", "C45_every_bandwidth_reachable_f32_refuted"], "note": "Refuted: index 3 is never chosen at 44.1 and 48 kHz with 10 ms frames, on the reals and in binary32."},
 {"property": "C46", "status": "proved", "theorems": ["C46_noise_factor", "C46_noise_factor_f32"], "note": "Stated for any arithmetic with the laws elaws, instantiated for the reals and for binary32."},
 {"property": "C47", "status": "proved", "theorems": ["C47_quantisation_error"], "note": "On the reals, with the encoder's and the decoder's gain formulas."},
 {"property": "C48", "status": "proved", "theorems": ["C48_decoder", "C48_scale_factors_bounded", "C48_encoder", "C48_quantiser", "C48_last_gain_never_sent", "C48_narrow_band_refuted"], "note": "All four parts. Exact arithmetic (the R instance of the model), not f32, for (a)-(c); (d) for every instance. The encoder half is for the 64-band configurations: at 8 kHz the encoder's constructor panics (C44), and if it did not, the padding for 60 bands would (C48_narrow_band_refuted: it copies bands 4..63 of 60). C48_case meets the hypotheses of the quantiser theorem."},
 {"property": "C49", "status": "partial", "theorems": ["C49_encoded_frame_is_read_back_partial", "C49_read_back_f32_live_partial", "C49_read_back_f32_partial"], "note": "For every regular frame (C44) whose payload fits (C43), with gain index below 256 (C25), no line of -32768 (C07) and outside the termination window (C05): all side information, TNS data and lines are read back exactly; in lsb mode lines within 2 (C06). C49_read_back_f32_live_partial: in binary32, for 16 bit audio and a library near the exact functions, for every live frame (C44, C61) with the same restrictions on the payload. C49_read_back_f32_partial: in binary32 every call that succeeds after 16 bit calls that succeeded, with no condition on the frame (success implies it is live, C44), success being that of the model: without overflow checks the code also returns, with a wrapped index, where the model panics (C63), and such calls are not covered, the same restrictions on the payload and an arcsine correctly rounded at 1 and -1."},
 {"property": "C50", "status": "partial", "theorems": ["C50_write_header", "C50_header_round_trip", "C50_read_header", "C50_list_chunk_refuted", "C50_wide_fields_refuted"], "note": "Round trip, layout, totality and frame condition proved for all records whose fields fit their widths and all byte strings. Refuted: with a LIST chunk in front the position and size returned are those of that chunk; fields wider than the format are cut silently."},
 {"property": "C51", "status": "proved", "theorems": ["C51_autocorrelation", "C51_error_energy", "C51_positive_without_window", "C51_lag_window_refuted", "C51_best_predictor", "C51_indices", "C51_sent", "C51_decoder_undoes_filter", "C51_filter"], "note": "On the real numbers. Positivity of the windowed correlation is a hypothesis (bands_definite), as the claim says: C51_lag_window_refuted shows that the window does not provide it. C51_sent: the indices sent are the nearest steps to the coefficients found. In the second filter C51_filter starts where the state inherited from the first no longer reaches."},
 {"property": "C52", "status": "proved", "theorems": ["C52_lines_bounded", "C52_gain_bounded"], "note": "On the real numbers."},
 {"property": "C53", "status": "proved", "theorems": ["C53_spectrum_error", "silent_clean"], "note": "On the real numbers. The conditions of C44 (frame_alive) are hypotheses, as the claim says; clean_frame lists the conditions on the parameters found. silent_clean: every 7.5 ms frame of silence meets them."},
 {"property": "C54", "status": "proved", "theorems": ["C54_output_error", "C54_codec_error"], "note": "Exact arithmetic; post filter off. frame_bounds ties each bound to the frame's analysis as in C53. Silence at 7.5 ms from 800 bits on meets every hypothesis (silent_run)."},
 {"property": "C55", "status": "proved", "theorems": ["C55_pitch_analysis", "C55_result_unique", "C55_similarity_range", "C55_late_start", "C55_level_invariant", "C55_tables"], "note": "Exact arithmetic (operations over R); the f32 run of the same definitions is covered for totality and legality of the indices only (C26). Specification in PitchSpec.v, on signals indexed by time, sharing only the coefficient tables with the model."},
 {"property": "C56", "status": "proved", "theorems": ["C56_energies", "C56_parseval"], "note": "Exact arithmetic. What the lines themselves are: C37."},
 {"property": "C57", "status": "proved", "theorems": ["C57_rate_control", "C57_feedback_one_sided", "C57_feedback_saturates"], "note": "Exact arithmetic. The cost of the estimate itself is specified under C23 (record estimate)."},
 {"property": "C58", "status": "proved", "theorems": ["C58_scale_factors", "C58_quantiser", "C58_noise_shaping", "C58_shape3_greedy", "C58_shape2_greedy_refuted"], "note": "Exact arithmetic. set_b_left is a hypothesis of the quantiser, as for C48; a silent frame meets it. The applied gains are C48."},
 {"property": "C59", "status": "proved", "theorems": ["C59_forward", "C59_inverse", "C59_reconstruction", "C59_full_band"], "note": "binary32, all streams; twiddles_near (twiddle factors within 2^-23, met by C59_rounded_library) is an assumption about the library functions"},
 {"property": "C60", "status": "proved", "theorems": ["C60_decoder_stays_finite", "C60_post_filter_bounded"], "note": "binary32, all histories of calls that return (C10 says which do), no limit on their length; assumptions about the library functions: decoder_library (gains, powers of two, sines) and twiddles_near, both met by exact_library (C60_library)"},
 {"property": "C61", "status": "proved", "theorems": ["C61_encoder_spectrum_finite", "C61_spectrum_finite_any_run"], "note": "Binary32 (Flocq). The conditions on the frames are frame_live, as the claim says. C61_library: the exact functions rounded to binary32 meet the hypotheses on the library. C61_case: two frames of silence meet every hypothesis. C61_spectrum_finite_any_run: the same bounds for every call that succeeds after calls that succeeded, with no condition on the frames (success in the model, so without overflow checks the calls with a wrapped noise shaping index, C63, are not covered), for an arcsine correctly rounded at 1 and -1."},
 {"property": "C62", "status": "proved", "theorems": ["C62_tns_fails_exactly", "C62_tns_always_succeeds_refuted"], "note": "In binary32. The exact condition for the stage to succeed, for all spectra, and a finite spectrum on which it fails for every library with correctly rounded arcsine at 1 and powers of 1 equal to 1. Whether 16 bit audio can lead the encoder to such a spectrum is not settled. The rounded exact functions are such a library (C62_library)."},
 {"property": "C63", "status": "proved", "theorems": ["C63_sns_fails_exactly", "C63_sns_always_succeeds_refuted"], "note": "In binary32, any library, builds with overflow checks (without them the code goes on with a wrapped index, C64). The exact condition for the quantiser to fail, for all sixteen scale factors, infinities and NaNs included, and finite scale factors on which it fails, none above 1.16 in size and with sum exactly zero (found by a random search, checked in Coq). Whether 16 bit audio can give such scale factors is not settled. C63_case: a code vector itself succeeds with shape 3."},
 {"property": "C64", "status": "proved", "theorems": ["C64_sns_without_overflow_checks", "C64_decoder_reads_another_vector", "C64_failing_frame_is_read_as_another"], "note": "In binary32, any library. joint_wrap is the joint index in wrapping arithmetic of w bits; the sums inside mvpq_enum are taken without wrapping, which cannot change the 25 bits sent. The quantiser alone: the model of the whole encoder keeps the panic (C44). C64_case: the factors of C63 that fail with overflow checks. C64_decoder_reads_another_vector: the legal parameters with that index give a vector with a pulse at position 10, never the one the encoder quantised with (up to ten pulses in set A). C64_failing_frame_is_read_as_another: for all factors on which a build with checks panics, eleven pulses included, the parameters and bits sent are those of a legal vector with a pulse in set B, and the encoder's vector has none."},
 {"property": "C65", "status": "proved", "theorems": ["C65_decode_file", "C65_last_round_lost", "C65_other_bit_depths", "C65_no_channels_never_ends"], "note": "Any arithmetic. The calls are a history of run_calls (DecRun), so C10 to C12 apply. Overflow checks: the number of calls fits a usize, or there are no checks. `loop` is bounded by a fuel argument; the theorem says how much is enough, and that no amount is enough without channels. C65_last_round_lost refutes that every frame of a file is decoded."},
 {"property": "C66", "status": "proved", "theorems": ["C66_encode_file", "C66_odd_data_refuted", "C66_file_is_the_coded_frames"], "note": "Any arithmetic. C66_encode_file is an equation, so it also says when the program fails: exactly when one of the calls does. Whether the calls succeed is C44, C61 to C63. C66_odd_data_refuted refutes that every WAV file with a legal header can be encoded."}
]}
