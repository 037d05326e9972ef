{"id": "C01", "title": "Entropy coder is lossless", "statement": "For every sequence of symbols drawn from adaptively chosen probability models (each an interval [cum, cum+freq) of 0..1024), the bytes the encoder's arithmetic coder emits, followed by zero bits, decode with the decoder's arithmetic coder to exactly the same symbol sequence without an error.", "quantifier": "every finite list of (table, symbol) pairs of any length, every valid table, every buffer long enough", "why_tests_cant": "carry propagation and renormalisation interact over unbounded sequences; a test covers a handful of sequences", "anchors": ["/repo/src/encoder/bitstream_encoding.rs: ac_encode, ac_shift, ac_enc_finish", "/repo/src/decoder/arithmetic_codec.rs: ac_dec_init, ac_decode, decode"]}
{"id": "C02", "title": "Entropy coder termination is robust to the bits that follow", "statement": "The decoded symbols do not depend on the bits that come after the code word chosen at termination (residual/side bits share that byte and those after it).", "quantifier": "every symbol sequence, every following bit string", "why_tests_cant": "the failing region is a narrow window of final coder states (carry out of the 24-bit register)", "anchors": ["/repo/src/encoder/bitstream_encoding.rs: ac_enc_finish"]}
{"id": "C03", "title": "Tail bit writer and tail bit reader are dual", "statement": "A sequence of fields of widths used by the format written backward from the end of a frame is read back field by field, bit by bit, with the same values and the same number of bits consumed, whatever the previous content of the buffer, as long as the fields fit.", "quantifier": "every list of (value,width) fields with value < 2^width, every initial buffer content, every buffer length", "why_tests_cant": "the reader has special cases depending on the bit offset, width, and buffer boundary; all combinations cannot be enumerated by tests", "anchors": ["/repo/src/encoder/buffer_writer.rs: write_uint_backward, write_bool_backward", "/repo/src/decoder/buffer_reader.rs: read_tail_usize, read_tail_bool"]}
{"id": "C04", "title": "Side information round trip", "statement": "For every legal combination of bandwidth, last non-zero pair, lsb mode, global gain, TNS flags, pitch flag, SNS indices, LTPF data and noise factor, reading the side info of an encoded frame returns exactly the values that were written and consumes exactly as many bits as were written.", "quantifier": "all legal side-info records, all ten configurations, all frame lengths that hold the side info", "why_tests_cant": "the product of the field domains is > 2^60", "anchors": ["/repo/src/encoder/bitstream_encoding.rs: encode, scf_vq_2nd_stage", "/repo/src/decoder/side_info_reader.rs: read, read_sns_vq"]}
{"id": "C05", "title": "Whole frame payload round trip (regular mode)", "statement": "Whenever an encoded frame fits its byte budget, parsing it yields the same side info, TNS reflection coefficient indices, quantised spectrum (all lines) and the emitted residual bits.", "quantifier": "every quantised spectrum with |x|<=32767, every legal side info, every frame length for which the payload fits", "why_tests_cant": "spectra are vectors of up to 400 16-bit integers; context modelling makes each symbol depend on the history", "anchors": ["/repo/src/encoder/bitstream_encoding.rs: encode", "/repo/src/decoder/lc3_decoder.rs: read_frame", "/repo/src/decoder/arithmetic_codec.rs: decode"]}
{"id": "C06", "title": "Whole frame payload round trip (lsb mode)", "statement": "When the encoder selects lsb mode the parsed spectrum together with the least significant bits carried as residual bits agrees with the encoded spectrum on all lines whose lsbs were sent.", "quantifier": "every quantised spectrum, every frame length", "why_tests_cant": "lsb mode is only entered for high-rate frames with particular bit consumption", "anchors": ["/repo/src/encoder/bitstream_encoding.rs: spectral_data, residual_data_and_finalization", "/repo/src/decoder/arithmetic_codec.rs: decode_residual_bits, decode_spectral_data"]}
{"id": "C07", "title": "Every quantiser output value is representable", "statement": "Every value the 16-bit quantised spectrum type can hold survives the encode/parse round trip.", "quantifier": "all i16 values", "why_tests_cant": "the only failing value is the most negative one, not reached by usual test signals", "anchors": ["/repo/src/encoder/bitstream_encoding.rs: spectral_data", "/repo/src/decoder/arithmetic_codec.rs: decode_spectral_data"]}
{"id": "C08", "title": "Parsing an arbitrary byte string never panics", "statement": "For every byte string presented as a frame, in every configuration, the parser returns a frame or an error; it never indexes out of bounds, overflows an integer or hits an unreachable branch.", "quantifier": "every byte string of every length (0 upwards), every configuration", "why_tests_cant": "the input space is all byte strings", "anchors": ["/repo/src/decoder/lc3_decoder.rs: read_frame, decode_frame", "/repo/src/decoder/buffer_reader.rs", "/repo/src/decoder/side_info_reader.rs", "/repo/src/decoder/arithmetic_codec.rs"]}
{"id": "C09", "title": "A successfully parsed frame is well formed", "statement": "Every frame accepted by the parser satisfies: last non-zero index even and at most the number of coded lines; lines from that index on are zero; every line's magnitude is bounded; TNS order <= 8 and indices in 0..16; SNS codebook, gain and pulse indices in the domain of their tables; pitch index < 512; noise factor < 8; so that later stages never index a table out of range.", "quantifier": "every byte string accepted", "why_tests_cant": "adversarial inputs cannot be enumerated", "anchors": ["/repo/src/decoder/side_info_reader.rs", "/repo/src/decoder/arithmetic_codec.rs", "/repo/src/decoder/spectral_noise_shaping.rs: decode"]}
{"id": "C10", "title": "Corrupt frames are concealed, never reported", "statement": "decode_frame with 16 bits per sample returns Ok for every byte string for which the parser does not panic; corrupt payloads trigger concealment and good ones reset it; any other bit depth returns the unsupported error and leaves the decoder state unchanged.", "quantifier": "every history of frames, good or corrupt", "why_tests_cant": "histories are unbounded", "anchors": ["/repo/src/decoder/lc3_decoder.rs: DecoderChannel::decode, decode_frame"]}
{"id": "C11", "title": "Concealment fades monotonically", "statement": "During k consecutive lost frames the concealed spectrum has, on each line, the magnitude of the last good frame times a factor that is 1 for the first frames, is non-increasing in k, and tends to 0; only the signs are randomised; the first good frame restores factor 1.", "quantifier": "every spectrum, every number of consecutive losses, every history", "why_tests_cant": "unbounded loss runs", "anchors": ["/repo/src/decoder/packet_loss_concealment.rs: run, save, load"]}
{"id": "C12", "title": "Channels are independent", "statement": "The samples and the state of a channel after any interleaving of decode (or encode) calls over several channels depend only on the subsequence of calls addressed to that channel.", "quantifier": "every number of channels, every interleaving", "why_tests_cant": "interleavings are exponential in number", "anchors": ["/repo/src/decoder/lc3_decoder.rs: Lc3Decoder", "/repo/src/encoder/lc3_encoder.rs: Lc3Encoder"]}
{"id": "C13", "title": "Decoder working buffers are sufficient", "statement": "Buffers of the lengths reported by the decoder's calc_working_buffer_lengths are always enough to construct a decoder for that many channels: no split panics.", "quantifier": "every channel count, every sampling frequency and frame duration", "why_tests_cant": "unbounded number of channels", "anchors": ["/repo/src/decoder/lc3_decoder.rs: new, calc_working_buffer_lengths", "/repo/src/decoder/modified_dct.rs", "/repo/src/decoder/long_term_post_filter.rs", "/repo/src/common/dct_iv.rs"]}
{"id": "C14", "title": "Encoder working buffers are sufficient", "statement": "Buffers of the lengths reported by the encoder's calc_working_buffer_lengths are always enough to construct an encoder for that many channels, and are consumed exactly.", "quantifier": "every channel count, every sampling frequency and frame duration", "why_tests_cant": "unbounded number of channels", "anchors": ["/repo/src/encoder/lc3_encoder.rs: new, calc_working_buffer_lengths"]}
{"id": "C15", "title": "An encoder can be constructed for every advertised sampling frequency", "statement": "Lc3Encoder::new succeeds for each of the six sampling frequencies and both frame durations.", "quantifier": "all configurations", "why_tests_cant": "existing tests only construct 48 kHz encoders; the statement is about all configurations and all channel counts", "anchors": ["/repo/src/encoder/bandwidth_detector.rs: new", "/repo/src/encoder/lc3_encoder.rs: new", "/repo/src/common/config.rs"]}
{"id": "C16", "title": "Pulse vector enumeration is a bijection", "statement": "Enumerating any pulse vector with K pulses over N positions gives a leading sign and an index below the published size, and de-enumerating gives the vector back; conversely each index in range is hit exactly once.", "quantifier": "every integer vector of every dimension N<=16 with at most 10 pulses", "why_tests_cant": "about 3*10^7 vectors per shape", "anchors": ["/repo/src/encoder/spectral_noise_shaping.rs: mvpq_enum, enc_push_sign", "/repo/src/decoder/spectral_noise_shaping.rs: mpvq_deenum", "/repo/src/tables/spec_noise_shape_quant_tables.rs: MPVQ_OFFSETS"]}
{"id": "C17", "title": "Noise shaping index multiplexing round trip", "statement": "For every shape, gain, leading signs and pulse indices the encoder can select, the joint index and the sub-mode bits it writes are demultiplexed by the decoder to the same shape, gain, signs and pulse indices, and every index with a spare meaning is rejected or decoded in range.", "quantifier": "all (shape, gain, index) combinations", "why_tests_cant": "about 5*10^7 combinations", "anchors": ["/repo/src/encoder/bitstream_encoding.rs: scf_vq_2nd_stage", "/repo/src/encoder/spectral_noise_shaping.rs: sns_quant_stage2", "/repo/src/decoder/side_info_reader.rs: read_sns_vq"]}
{"id": "C18", "title": "Output samples saturate and round half away from zero", "statement": "Each output sample is the input amplitude rounded to nearest (ties away from zero) and clamped to [-32768,32767], for every float including infinities; NaN gives 0; samples beyond the shorter of the two buffers are untouched.", "quantifier": "every f32 value, every buffer length", "why_tests_cant": "2^32 floats per sample", "anchors": ["/repo/src/decoder/output_scaling.rs: scale_and_round"]}
{"id": "C19", "title": "Noise filling touches only silent regions", "statement": "Noise filling modifies only lines inside the coded bandwidth above the start line whose whole neighbourhood quantised to zero, sets them to plus or minus one common level, never touches a non-zero line, and does nothing if the gain/flag says so; the generator never overflows.", "quantifier": "every quantised spectrum, seed, bandwidth and noise factor", "why_tests_cant": "unbounded spectra and seeds", "anchors": ["/repo/src/decoder/noise_filling.rs: apply_noise_filling"]}
{"id": "C20", "title": "Noise filling seed computation never overflows", "statement": "The seed derived from a parsed spectrum is computed without integer overflow for any frame content.", "quantifier": "every byte string", "why_tests_cant": "overflow needs extreme but legal line values", "anchors": ["/repo/src/decoder/arithmetic_codec.rs: decode_spectral_data / decode"]}
{"id": "C21", "title": "Residual refinement is bounded and sign preserving", "statement": "The decoder's residual refinement changes only non-zero lines, in increasing order, one bit each until the bits run out, by at most 5/16 (exactly 3/16 or 5/16 depending on sign and bit), so it never flips the sign or zeroes a line; and the encoder's residual bit is the direction of the quantisation error.", "quantifier": "every spectrum and every bit list", "why_tests_cant": "unbounded spectra", "anchors": ["/repo/src/decoder/residual_spectrum.rs: decode", "/repo/src/encoder/residual_spectrum.rs: encode"]}
{"id": "C22", "title": "Quantiser truncation respects the bit budget", "statement": "The bit consumption estimate of the truncated spectrum never exceeds the available spectral bits, the truncated last non-zero index is even and not above the untruncated one, and lines above it are zeroed.", "quantifier": "every quantised spectrum and budget", "why_tests_cant": "unbounded spectra and context histories", "anchors": ["/repo/src/encoder/spectral_quantization.rs: compute_bit_consumption, run"]}
{"id": "C23", "title": "Bit estimator agrees with the emitted payload", "statement": "The number of sign, escape and lsb bits emitted at the tail and the symbols emitted at the head by the bitstream writer are exactly those the estimator charged for.", "quantifier": "every quantised spectrum, frame length and configuration", "why_tests_cant": "context-dependent, unbounded spectra", "anchors": ["/repo/src/encoder/spectral_quantization.rs: compute_bit_consumption", "/repo/src/encoder/bitstream_encoding.rs: spectral_data"]}
{"id": "C24", "title": "Bit budget never underflows for supported frame sizes", "statement": "For every frame length from 20 to 400 bytes and every side-info choice the spectral bit budget is computed without underflow.", "quantifier": "all frame lengths, configurations and side-info choices", "why_tests_cant": "the smallest frames are not covered by tests", "anchors": ["/repo/src/encoder/spectral_quantization.rs: calc_bit_budget"]}
{"id": "C25", "title": "Global gain index stays in its transmitted range", "statement": "The global gain index written to the frame equals the one used for quantisation and lies in 0..255.", "quantifier": "every spectrum and history", "why_tests_cant": "extreme signals", "anchors": ["/repo/src/encoder/spectral_quantization.rs: run, global_gain_adjustment, global_gain_limitation"]}
{"id": "C26", "title": "Pitch lag round trip", "statement": "For every pitch lag the encoder can select, the transmitted pitch index is below 512 and the decoder's reconstruction of the lag from the index is the same lag in quarter samples.", "quantifier": "all lags and fractions", "why_tests_cant": "two implementations with piecewise resolution must agree on every segment boundary", "anchors": ["/repo/src/encoder/long_term_post_filter.rs", "/repo/src/decoder/long_term_post_filter.rs: compute_filter_parameters"]}
{"id": "C27", "title": "Long term post filter never reads outside its history", "statement": "For every sequence of frames (any pitch, activation pattern, bit rate) every access of the decoder's long term post filter is inside its circular buffers, and reads exactly the sample the given lag before the current one.", "quantifier": "every configuration, every history of pitch indices and activations", "why_tests_cant": "unbounded histories", "anchors": ["/repo/src/decoder/long_term_post_filter.rs: run, compute_filter, wrap_if_negative"]}
{"id": "C28", "title": "TNS synthesis inverts TNS analysis", "statement": "With exact arithmetic, filtering a spectrum with the encoder's TNS filter and then with the decoder's filter for the same reflection coefficients and band split gives the original spectrum back.", "quantifier": "every spectrum, every order and coefficients, every bandwidth", "why_tests_cant": "unbounded real inputs", "anchors": ["/repo/src/encoder/temporal_noise_shaping.rs: apply_filtering", "/repo/src/decoder/temporal_noise_shaping.rs: apply_temporal_noise_shaping"]}
{"id": "C29", "title": "Encoder and decoder agree on TNS bands", "statement": "For every frame duration and bandwidth the filter bands used by the encoder and decoder coincide.", "quantifier": "all durations and bandwidths", "why_tests_cant": "only reached with particular bandwidth", "anchors": ["/repo/src/encoder/temporal_noise_shaping.rs: get_tns_params", "/repo/src/decoder/temporal_noise_shaping.rs"]}
{"id": "C30", "title": "Residual bit count agreement", "statement": "The number of residual bits the decoder expects equals the number of bits the encoder has room for, so both sides agree on where residual data ends.", "quantifier": "every frame", "why_tests_cant": "depends on final coder state", "anchors": ["/repo/src/encoder/bitstream_encoding.rs: residual_data_and_finalization, nbits_side_forcast", "/repo/src/decoder/arithmetic_codec.rs: calc_num_residual_bits"]}
{"id": "C31", "title": "Encoding does not depend on stale buffer content", "statement": "The encoded frame is a function of the parameters only: bytes already present in the output buffer do not influence any bit that the decoder reads.", "quantifier": "every initial buffer content", "why_tests_cant": "buffer contents are arbitrary", "anchors": ["/repo/src/encoder/bitstream_encoding.rs: encode, init"]}
{"id": "C32", "title": "Entropy tables are valid probability models", "statement": "Every symbol has a positive frequency, the cumulative tables are prefix sums, totals are 1024, and every context maps to an existing table; hence decoding always finds exactly one symbol.", "quantifier": "all tables and all contexts", "why_tests_cant": "needed for all inputs; a test cannot tie it to the decoder's behaviour on all streams", "anchors": ["/repo/src/tables/spectral_data_tables.rs", "/repo/src/tables/temporal_noise_shaping_tables.rs", "/repo/src/decoder/arithmetic_codec.rs: ac_decode"]}
{"id": "C33", "title": "Bit cost tables match the coder", "statement": "Each tabulated bit cost (in 1/2048 bit) is the ideal code length -log2(freq/1024) of the symbol up to a stated error, so the estimator is consistent with the real coder.", "quantifier": "all table entries", "why_tests_cant": "floating point log; exact integer statement needed", "anchors": ["/repo/src/tables/spectral_data_tables.rs: AC_SPEC_BITS", "/repo/src/tables/temporal_noise_shaping_tables.rs"]}
{"id": "C34", "title": "Band tables partition the spectrum", "statement": "For each configuration the band edges start at 0, strictly increase, and end at the number of coded lines with exactly the configured number of bands; so each coded line is shaped exactly once.", "quantifier": "all configurations, all spectra", "why_tests_cant": "combined with arbitrary spectra", "anchors": ["/repo/src/tables/band_index_tables.rs", "/repo/src/decoder/spectral_noise_shaping.rs: decode", "/repo/src/encoder/spectral_noise_shaping.rs: run"]}
{"id": "C35", "title": "FFT computes the discrete Fourier transform", "statement": "For every length the codec uses, in exact arithmetic, the mixed radix FFT returns the DFT of every input vector.", "quantifier": "every input vector over any commutative ring with suitable root of unity", "why_tests_cant": "infinitely many vectors", "anchors": ["/repo/src/common/kissfft.rs: kf_factor, kf_work, kf_bfly2, kf_bfly3, kf_bfly4, kf_bfly5"]}
{"id": "C36", "title": "FFT factorisation terminates with the right product", "statement": "The factoriser decomposes every positive length into factor/stride pairs whose product is the length.", "quantifier": "every n >= 1", "why_tests_cant": "unbounded", "anchors": ["/repo/src/common/kissfft.rs: kf_factor"]}
{"id": "C37", "title": "MDCT analysis/synthesis reconstructs the signal", "statement": "In exact arithmetic, with a window satisfying the power complementarity condition, encoding by the forward transform then inverse transform with overlap-add reproduces the input delayed.", "quantifier": "every signal, every frame size", "why_tests_cant": "infinitely many signals", "anchors": ["/repo/src/encoder/modified_dct.rs: run", "/repo/src/decoder/modified_dct.rs: run, overlap_add", "/repo/src/common/dct_iv.rs"]}
{"id": "C38", "title": "Attack detector state machine", "statement": "The detector's history values depend only on the calls made while active; when inactive (low bit rate or unsupported rate) it reports no attack; positions stay in range.", "quantifier": "every input history", "why_tests_cant": "unbounded histories", "anchors": ["/repo/src/encoder/attack_detector.rs: run"]}
{"id": "C39", "title": "Bandwidth decision is always decodable", "statement": "The bandwidth index selected never exceeds the maximum for the sampling rate and the bits written match those read.", "quantifier": "every energy vector, configuration", "why_tests_cant": "infinitely many energies", "anchors": ["/repo/src/encoder/bandwidth_detector.rs: run", "/repo/src/decoder/side_info_reader.rs: read"]}
{"id": "C40", "title": "Inactive post filter is transparent", "statement": "While the long term post filter is and was inactive, the output of a frame equals its input bit for bit; and concealed frames switch it off.", "quantifier": "every history", "why_tests_cant": "unbounded histories", "anchors": ["/repo/src/decoder/long_term_post_filter.rs: run", "/repo/src/decoder/packet_loss_concealment.rs: run"]}
{"id": "C41", "title": "Decoding is deterministic and history-limited by reset", "statement": "Two decoders that have processed the same frames are in the same state; the parse result of a frame does not depend on previous frames.", "quantifier": "every history", "why_tests_cant": "unbounded histories", "anchors": ["/repo/src/decoder/lc3_decoder.rs: read_frame, DecoderChannel::decode"]}
{"id": "C42", "title": "Frame configuration invariants", "statement": "For each configuration: coded lines <= frame length <= 480, coded lines <= 400, overlap size between zero and the frame length, band count <= 64.", "quantifier": "all configurations", "why_tests_cant": "used as hypothesis by all buffer safety arguments", "anchors": ["/repo/src/common/config.rs: Lc3Config::new", "/repo/src/common/constants.rs"]}
{"id": "C45", "title": "Every bandwidth is reachable", "statement": "For each sampling rate and frame duration, every bandwidth index up to the rate's own can be chosen by the bandwidth detector for some band energies.", "quantifier": "all configurations", "why_tests_cant": "absence of an input reaching a value cannot be tested", "anchors": ["src/encoder/bandwidth_detector.rs"]}
{"id": "C46", "title": "Transmitted noise factor", "statement": "The noise level sent by the encoder is always in 0..7, is 0 exactly when rounding says so, and is the rounded mean magnitude of the lines that the decoder will fill.", "quantifier": "all spectra, bandwidths and gains", "why_tests_cant": "real-valued input space", "anchors": ["src/encoder/noise_level_estimation.rs"]}
{"id": "C47", "title": "Quantisation error is bounded", "statement": "In exact arithmetic the quantiser never clips: every line it keeps, decoded with the transmitted global gain index by the decoder's global gain, differs from the original line by at most five eighths of the quantiser step.", "quantifier": "every spectrum of at most 10^100 in magnitude, every budget, frame size and history", "why_tests_cant": "The gain index comes from a search over the spectrum and two adjustment steps; clipping only shows for particular combinations of peak, frame size and sampling frequency.", "anchors": ["/repo/src/encoder/spectral_quantization.rs: run, quantize_spectrum, global_gain_limitation", "/repo/src/decoder/global_gain.rs"]}
{"id": "C43", "title": "The coded frame fits", "statement": "For every frame of audio and every legal frame size, the head and tail of the frame the encoder writes (side information, range coder bytes, signs and least significant bits) do not overlap, so that the crate's own parser accepts the frame.", "quantifier": "every configuration, every history of calls, every frame size from 20 to 400 bytes", "why_tests_cant": "The bit estimator counts in 1/2048 bits per symbol while the range coder truncates its interval at every step; the excess only shows for particular spectra.", "anchors": ["/repo/src/encoder/spectral_quantization.rs: compute_nbits_spec, run", "/repo/src/encoder/bitstream_encoding.rs: encode"]}
{"id": "C44", "title": "The encoder never panics", "statement": "Encoding any 16 bit audio through any sequence of calls with legal channel indices and buffer sizes returns normally and writes a frame of exactly the caller's size.", "quantifier": "every configuration, channel count, initial content of the working buffers, sequence of calls", "why_tests_cant": "Every stage indexes tables and buffers by values computed from the signal and from state carried over between frames.", "anchors": ["/repo/src/encoder/lc3_encoder.rs: encode_frame, EncoderChannel::encode", "/repo/src/encoder/*.rs"]}
{"id": "C48", "title": "Noise shaping gains, and the decoder undoing the encoder's shaping", "statement": "In exact arithmetic: (a) for every legal configuration and every legal set of noise-shaping parameters the decoder multiplies each spectral line of band b by 2^c(b), where c is the piecewise linear curve through the sixteen scale factors described by the parameters (code book entry plus gain times the normalised, rotated pulse vector), with the first eight points averaged in pairs for 60 bands, and every coded line belongs to exactly one band; (b) for every list of 64 non-negative band energies the encoder's sixteen scale factors lie in [-8.5, 8.5]; (c) whenever the rotated residual has a non-zero component in set B, the encoder multiplies each line of band b by 2^-c(b) for the parameters it transmits, takes the code vectors nearest to its scale factors, and the decoder applied to the encoder's lines and parameters returns the lines the encoder started with; (d) in any arithmetic the last gain index of each shape is never transmitted.", "quantifier": "all legal configurations, all legal parameter sets, all spectral lines, all non-negative band energies (real numbers), all attack flags", "why_tests_cant": "The gains depend on real-valued energies through a search over code books and a pulse allocation; tests compare single frames with recorded values. That the decoder inverts the encoder for every frame is a statement about all choices of the search.", "anchors": ["/repo/src/decoder/spectral_noise_shaping.rs:21-151", "/repo/src/encoder/spectral_noise_shaping.rs:76-283", "/repo/src/encoder/spectral_noise_shaping.rs:327-582"]}
{"id": "C49", "title": "The decoder reads what the encoder decided", "statement": "Parsing a frame that the encoder wrote for any audio gives back the side information, the noise shaping orders and coefficients and the quantised lines that the encoder's stages decided on.", "quantifier": "every configuration, every history of calls, every frame size", "why_tests_cant": "Needs the legality of every parameter the analysis can produce, not only of those in recorded frames.", "anchors": ["/repo/src/encoder/lc3_encoder.rs: EncoderChannel::encode", "/repo/src/decoder/lc3_decoder.rs: read_frame"]}
{"id": "C50", "title": "WAV headers round trip", "statement": "Reading any byte string as a WAV header returns an error or a record whose fields are those of the bytes and never panics; a header that was written is read back, only the first 44 bytes of the buffer change, and the data position and size are those of the audio.", "quantifier": "all records, all buffers", "why_tests_cant": "The unit test reads one file.", "anchors": ["/repo/src/common/wav.rs"]}
{"id": "C51", "title": "Linear prediction in the encoder's temporal noise shaping", "statement": "In exact arithmetic: (a) the nine correlation values computed for a filter are the sum over its sub bands of the autocorrelations normalised to one at lag zero, times the lag window, or 3, 0, ..., 0 if some sub band is empty; the quadratic form of a sub band's autocorrelation is the energy of the prediction error, and without the window the form is positive; (b) the lag window as written in the code is not positive definite (eight lags have a negative direction), so positivity of the windowed form is a condition; (c) under that condition the reflection coefficients belong to the unique best predictor of order 8, damped by the powers of a factor in (0.85, 1], when the prediction gain exceeds 1.5 and there is no energy next to the Nyquist frequency, and are zero otherwise; all lie strictly between -1 and 1; (d) hence all indices lie in 0..16, the stage does not fail and the decoder undoes it; (e) the lattice filter is the transversal filter of the polynomial of the transmitted coefficients.", "quantifier": "all legal configurations, all bandwidths, all real spectra, all bit budgets", "why_tests_cant": "Optimality is a comparison with every other predictor, for every spectrum.", "anchors": ["/repo/src/encoder/temporal_noise_shaping.rs"]}
{"id": "C52", "title": "The decoder's temporal noise shaping is stable", "statement": "In exact arithmetic, for every bandwidth, every legal set of filter orders and coefficient indices and all lines, the square of every line that leaves the decoder's temporal noise shaping is at most the product of 1/cos^2((i-8) pi/17) over the coefficients in use, times the energy of the lines read up to there; the product never exceeds 12^32. This holds across the two filters although the second inherits the state of the first.", "quantifier": "all bandwidths, orders, indices and lines", "why_tests_cant": "Stability of a recursive filter for all 17^16 coefficient sets and all inputs.", "anchors": ["/repo/src/decoder/temporal_noise_shaping.rs:24-74"]}
{"id": "C53", "title": "One frame of audio through encoder, bit stream and decoder: error of every spectral line", "statement": "In exact arithmetic: if the encoder is called on 16 bit audio (under the conditions of C44) it succeeds, and if the parameters it found are clean - gain index below 256, no line equal to -32768, payload within the frame, not inside the termination window, not bandwidth 2 at 10 ms, no filter index 0 in use - then the decoder reads the frame back with the same side information, and each line j of the spectrum that it hands to the inverse transform differs from the MDCT of the encoder's time buffer by at most 2^(scale factor curve in the line's band) times the square root of (gain of the temporal noise shaping filter) times (sum of squares of the quantiser's errors up to line j); the quantiser's error is at most 5/16 step for a line whose residual bit is sent, 15/16 for other lines, 9/8 for a line that is filled with noise, 25/8 in lsb mode, and half a step plus its magnitude for a line that is not coded.", "quantifier": "all configurations but 8 kHz, all reachable encoder states, all frames of 16 bit audio, all frame sizes of the codec", "why_tests_cant": "An error bound over all audio, which moreover needs exact knowledge of which frames are sent cleanly.", "anchors": ["/repo/src/encoder/lc3_encoder.rs:62-108", "/repo/src/decoder/lc3_decoder.rs:73-140", "/repo/src/encoder/spectral_quantization.rs", "/repo/src/decoder/spectral_noise_shaping.rs", "/repo/src/decoder/temporal_noise_shaping.rs"]}
{"id": "C54", "title": "Samples out of the decoder against samples into the encoder", "statement": "In exact arithmetic, for streams of any length of 16 bit audio: (a) whatever data a new decoder on cleared buffers receives, lost frames included, as long as no good frame switches the post filter on, its output is the input delayed by nf - 2z samples (z the leading zeros of the window) up to 1/2 for rounding to integers, 4e-14 of the sample for the precision of the window table, and 2.14/sqrt(2 nf) times the sum of absolute differences between the decoder's lines and the MDCT of the audio, in this frame and the one before; nothing older matters. (b) If the frames come from a new encoder, and every frame can be analysed (C44), is clean (C53) and leaves the post filter off, encoder and decoder succeed on the whole stream and the sum of differences is at most the bound of C53 summed over the lines plus the lines above the coded range. From 560 + 80 fs_ind bits per 10 ms on the encoder never switches the post filter on.", "quantifier": "all configurations (but 8 kHz in (b)), all numbers of frames, all 16 bit audio, all received data with the post filter off", "why_tests_cant": "An end to end error bound over all audio and unbounded streams; tests compare a few outputs of f32 code with stored ones.", "anchors": ["/repo/src/encoder/lc3_encoder.rs:62-108", "/repo/src/decoder/lc3_decoder.rs:73-140", "/repo/src/decoder/output_scaling.rs", "/repo/src/decoder/modified_dct.rs", "/repo/src/encoder/modified_dct.rs"]}
{"id": "C55", "title": "Pitch analysis of the encoder as a function of the whole signal", "statement": "In exact arithmetic, for a new detector on cleared buffers and any number of frames of any integers: the audio is taken to 192 kHz by inserting zeros, low-passed by the 239 tap filter, every 15th sample kept (12.8 kHz, 120 samples of 192 kHz late), and high-passed at 50 Hz by a recursion that starts from silence and never restarts; a second copy at half the rate serves the first search. The whole lag at 6.4 kHz is the first maximum of the weighted correlation over lags 17..114, replaced by the first maximum of the plain correlation within 4 of the lag of the previous frame if its normalised correlation exceeds 0.85 times the other; the lag at 12.8 kHz is the first positive maximum of the correlation within 4 of twice that lag, in 32..228; below 127 it is refined to quarters, below 157 to halves. Pitch is present iff the normalised correlation exceeds 0.6. The post filter is switched by the similarity of the frame with its delayed copy, by the rules of hysteresis, the bit rate and the energy near Nyquist. The stream processing with its buffers, shifts and partial filters gives exactly that for every frame; the specification leaves nothing open; similarities are in [-1, 1]; the post filter is off in the first frame (first two at 7.5 ms); multiplying the audio by any nonzero integer changes no result; the filters are symmetric and keep constants within 0.4 %.", "quantifier": "all legal configurations, all numbers of frames, all integer samples, all bit budgets and near-Nyquist flags", "why_tests_cant": "Tests run a few frames at one rate and compare f32 values; the result of a frame depends on all earlier samples through a recursion and four delay lines.", "anchors": ["/repo/src/encoder/long_term_post_filter.rs:63-215", "/repo/src/encoder/long_term_post_filter.rs:217-475", "/repo/src/tables/long_term_post_filter_coef.rs"]}
{"id": "C56", "title": "Band energies and the near Nyquist flag", "statement": "In exact arithmetic the transform stage of the encoder returns for each band the mean of the squares of its lines, so that the energies weighted by the widths add up to the energy of the coded lines; the flag is set exactly when the sampling rate is at most 32 kHz and the top two bands (four at 7.5 ms), which start at or above 4/5 of the spectrum, hold more than 30 times the energy of all others.", "quantifier": "all legal configurations, all spectra, all states of the transform", "why_tests_cant": "Tests compare stored values for one frame; the flag is false in all of them.", "anchors": ["/repo/src/encoder/modified_dct.rs:107-178"]}
{"id": "C57", "title": "Rate control", "statement": "In exact arithmetic the first global gain index is the smallest index below 255 whose expected cost is within the bits aimed at (255 if there is none), raised to the smallest index at which the loudest line can be represented; the index sent is that one moved by -1, 0, +1 or +2 as the estimate of the bits really needed is below, near or above the budget. Because the budget of the last frame is not stored, the correction of the bits aimed at is never positive, never below -40 and, while frames take 40 bits or more, runs into -40 geometrically.", "quantifier": "all frames and frame sizes, all states of the quantiser, all sequences of frames", "why_tests_cant": "The eight step search is right for all spectra only because the cost never grows with the gain; the one-sided feedback needs many frames.", "anchors": ["/repo/src/encoder/spectral_quantization.rs:75-263", "/repo/src/encoder/spectral_quantization.rs:350-395"]}
{"id": "C58", "title": "Noise shaping analysis", "statement": "In exact arithmetic the sixteen scale factors of 64 band energies are the energies blurred with their neighbours, tilted, floored at a ten thousandth of their mean, taken to half the binary logarithm, grouped by four with overlapping weights, and centred (after an attack: averaged over at most five neighbours and reduced); they add up to zero. The quantiser takes for each half the first code vector of least distance, rotates the rest, forms four candidate vectors of pulses and takes the first of the fourteen pairs of shape and gain with the least squared error; the indices sent stand for that vector. The six pulses of shape 3 are placed one by one where the similarity with the target grows most. The two further pulses of shape 2 are not: the search starts from the correlation and energy of the last position tried instead of those of the position chosen.", "quantifier": "all configurations with 64 bands, all band energies, all scale factors up to 2^80", "why_tests_cant": "The inputs are arbitrary reals; that the search with stale values still returns vectors of the right number of pulses hides the error from round trip tests.", "anchors": ["/repo/src/encoder/spectral_noise_shaping.rs:51-165", "/repo/src/encoder/spectral_noise_shaping.rs:219-247", "/repo/src/encoder/spectral_noise_shaping.rs:286-582"]}
{"id": "C59", "title": "Rounding error of the transforms", "statement": "In binary32, with twiddle factors within 2^-23 of the exact ones, the forward MDCT of a block of 16-bit samples is finite and its distance to the exact MDCT is at most 2.7e-5 of the norm of the block; the inverse transform with overlap-add is within 2.7e-5 of the norm of lines and overlap from what exact arithmetic gives. One after the other over any number of frames of samples of at most M, the root mean square distance of each output frame to the delayed input is at most (M + 2^-79)/4096, plus 1.514 times what the lines above the coded bandwidth carry (nothing up to 32 kHz). The error does not accumulate over frames.", "quantifier": "all configurations, all streams of 16-bit samples of any length, all libraries whose twiddles are within 2^-23", "why_tests_cant": "A bound on rounding errors has to hold for every signal and every library; a stream of any length could accumulate them.", "anchors": ["/repo/src/encoder/modified_dct.rs: run", "/repo/src/decoder/modified_dct.rs: run, overlap_add", "/repo/src/common/dct_iv.rs", "/repo/src/common/kissfft.rs"]}
{"id": "C60", "title": "The decoder never makes an infinity or a NaN", "statement": "In binary32, with library functions that are near the exact ones (powers of ten and of two within one percent, the sines of the TNS coefficients within 2^-20, twiddle factors within 2^-23), a new decoder on buffers of finite values keeps only finite values, all at most 2^97, through any sequence of calls that return, with any bytes: good frames, garbage, lost frames, changes of length. So the samples before the conversion to 16 bits are finite, and each sample written is within a half and 2^-25 of the value limited to 16 bits. The post filter on its own never exceeds 8 times the largest sample given to it, through any number of frames, changes of lag and fades.", "quantifier": "all configurations, all numbers of channels, all histories of calls of any length as far as they return, all byte strings, all libraries near the exact functions", "why_tests_cant": "The worst frame cannot be found by sampling: the largest line, gain, unstable-looking TNS coefficients, scale factors and post filter fades would have to coincide, and the recursive filters have memory over all earlier frames.", "anchors": ["/repo/src/decoder/lc3_decoder.rs:73-154", "/repo/src/decoder/temporal_noise_shaping.rs", "/repo/src/decoder/spectral_noise_shaping.rs", "/repo/src/decoder/long_term_post_filter.rs", "/repo/src/decoder/modified_dct.rs", "/repo/src/decoder/packet_loss_concealment.rs", "/repo/src/decoder/output_scaling.rs"]}
{"id": "C61", "title": "The encoder's spectrum stays finite in binary32", "statement": "In binary32, with library functions near the exact ones (powers of two within one percent, the sines of the TNS coefficients and the arcsine within 2^-20, the logarithm within 1/100, twiddle factors within 2^-23), encoding 16 bit audio keeps every spectral value of the analysis finite: the lines of the transform are at most 3.2e6 in size, after noise shaping at most 3.4e12, after the TNS filters at most 1e15, and the smallest global gain index that fits the loudest line is at most 3000, so it cannot leave 16 bits. This holds after any history of calls in whose frames set B of the rotated noise shaping residual is not empty or shape 0 is not chosen, and with no reflection coefficient of exactly 1 or -1; such calls never fail.", "quantifier": "all configurations but 8 kHz, all numbers of channels, all 16 bit audio and initial buffers, all histories of such calls, all libraries near the exact functions", "why_tests_cant": "The largest gain of the noise shaping, the loudest block and the strongest lattice would have to coincide; no recording comes near the bounds.", "anchors": ["/repo/src/encoder/lc3_encoder.rs", "/repo/src/encoder/modified_dct.rs", "/repo/src/encoder/spectral_noise_shaping.rs", "/repo/src/encoder/temporal_noise_shaping.rs", "/repo/src/encoder/spectral_quantization.rs"]}
{"id": "C62", "title": "When temporal noise shaping in the encoder fails in binary32", "statement": "In binary32, with an arcsine near the exact one inside (-1, 1), not a number outside and correctly rounded at 1 and -1, the TNS stage of the encoder succeeds on a spectrum (any values, infinities and NaNs included) exactly when linear prediction gives no reflection coefficient equal to 1 or -1; every index it sends is then between 0 and 16. With such a coefficient the index is 17 or -1 and the bit count reads past the 17 entries of a row of AC_TNS_COEF_BITS. That the stage never fails on finite spectra is false: rounding in the Levinson recursion makes the step-down produce exactly 1 on smooth bell shaped bands of moderate size (7.5 ms, 16 kHz, integer lines up to 150391), in every build and for every frame size from 360 bits.", "quantifier": "all legal configurations, bandwidths, bit counts, builds, spectra of binary32 values; all libraries with such an arcsine", "why_tests_cant": "The coefficient has to hit one of two values out of four billion after eight ill-conditioned recursion steps; random audio never does, and the exact arithmetic analysis says it cannot happen.", "anchors": ["/repo/src/encoder/temporal_noise_shaping.rs", "/repo/src/tables/temporal_noise_shaping_tables.rs"]}
{"id": "C63", "title": "When the noise shaping quantiser fails in binary32", "statement": "In binary32 and a build with overflow checks, the first stage of the noise shaping quantiser succeeds on any sixteen scale factors, with both code book indices within 0..31, and the quantiser fails exactly when components 10 to 15 of the rotated residual are all zero or NaN and the shape chosen is 0; otherwise the parameters are legal, with the indices of the first stage, and sixteen quantised factors are returned. The pulse projection itself never goes wrong, because residuals lie on a fixed grid. That it never fails on finite scale factors is false, even for factors of size at most 1.16 whose sum is exactly zero: six sums can round to exactly zero, and set B then has no pulse to enumerate and the product with its sentinel sign overflows. Without overflow checks the code goes on with a wrapped index instead (C64).", "quantifier": "all lists of sixteen binary32 values; all libraries; builds with overflow checks", "why_tests_cant": "Six rotated components have to cancel exactly in rounded arithmetic while shape 0 is kept; random scale factors do not do that.", "anchors": ["/repo/src/encoder/spectral_noise_shaping.rs"]}
{"id": "C64", "title": "The noise shaping quantiser without overflow checks", "statement": "In binary32 and a build without overflow checks, with a usize of at least 32 bits, the noise shaping quantiser returns on any sixteen scale factors. Where a build with the checks returns, shape, gain, indices and quantised factors are the same. Where such a build panics (C63), the shape is 0, the leading sign of set B is left at i32::MIN, and the 25 bits of the joint index that are written are those of set B index 0 with a positive sign plus the set A index, which may run over into the sign: in every case they are the parameters of a legal vector with ten pulses in set A and one in set B, while the encoder's vector has no pulse in set B. With up to ten pulses in set A the pulse read is at position 10.", "quantifier": "all lists of sixteen binary32 values; all libraries; all word sizes from 32 bits", "why_tests_cant": "Tests run with overflow checks by default, and the case needs an exactly empty set B.", "anchors": ["/repo/src/encoder/spectral_noise_shaping.rs", "/repo/src/encoder/bitstream_encoding.rs"]}
{"id": "C65", "title": "The program that decodes a file", "statement": "On a non-empty file of any length, with 16 bits, at least one channel and one byte per block, the decoding program makes (length - 1) / block length calls of decode_frame: block after block, the channels in turn. It writes a 44 byte header that announces no data, and then the samples of every complete round of channels, interleaved, two bytes each. A file of a whole number of rounds therefore always loses its last round. With any other bit depth it writes the header only and reports the first frame as unsupported. With no channels it never ends.", "quantifier": "all files on whose blocks the parser does not panic, all channel counts and block lengths, both builds", "why_tests_cant": "The loss is one frame at the end of a file of any length, and the count depends on three unbounded numbers.", "anchors": ["/repo/examples/decode.rs", "/repo/src/common/wav.rs", "/repo/src/decoder/lc3_decoder.rs"]}
{"id": "C66", "title": "The program that encodes a file", "statement": "The encoding program takes everything behind the WAV header as 16-bit samples of the given number of channels, whatever the header says about channels, rate, sample size and length. With an even number of bytes it calls encode_frame once per round and channel, with sample (round * nf + i) * channels + channel at place i and silence behind the end, always with the same output buffer, and the file written is the coded frames in that order. With an odd number of bytes it never completes.", "quantifier": "all WAV files, all channel counts, all numbers of bytes per frame", "why_tests_cant": "The layout is a statement about every sample of files of any length; odd lengths and trailing chunks do not occur in the sample files.", "anchors": ["/repo/examples/encode.rs", "/repo/src/common/wav.rs", "/repo/src/encoder/lc3_encoder.rs"]}
