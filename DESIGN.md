# Design of the lc3-codec model

The Rust sources in `/repo` (ninjasource/lc3-codec at the pinned commit) were read as text; nothing was built or run.
This directory holds a Rocq (Coq 8.16.1) model of the codec and theorems about it. `properties.jsonl` lists the claims
(C01-C42 given, the others added while the model grew), `MANIFEST.json` the theorems for each claim.

## Trusted base

* The Coq 8.16.1 kernel (`vm_compute` is used in some proofs; `coqchk` re-checks them without the virtual machine).
* What `Print Assumptions` reports for each theorem; every theorem in a `Properties*.v` file is followed by it.
  * Everything about bits, bytes, integers, state machines and "any scalar type" is closed under the global context.
  * Theorems that mention real numbers, or binary32 through Flocq, use the axioms of Coq's `Reals`:
    `ClassicalDedekindReals.sig_forall_dec`, `ClassicalDedekindReals.sig_not_dec`,
    `FunctionalExtensionality.functional_extensionality_dep`, and (through Flocq or Coquelicot) `Classical_Prop.classic`.
  * No axiom, `Variable` outside a section, functor or module type is added.
* The reading of the Rust code: every definition of the model cites file and lines.
* The conventions below.

## What is modelled

| source | model | remarks |
|---|---|---|
| `common/config.rs` | `Config.v` | all |
| `common/complex.rs` | `Scalar.v` | the operations that are used |
| `common/kissfft.rs` | `FftFactor.v`, `Fft.v` | all; twiddles are operations of the scalar record |
| `common/dct_iv.rs` | `Fft.v` | all |
| `common/wav.rs` | `Wav.v` | all; `str::from_utf8` followed by a comparison with an ASCII tag is byte equality |
| `decoder/buffer_reader.rs` | `Reader.v` | all |
| `decoder/side_info*.rs` | `SideInfo.v` | all |
| `decoder/arithmetic_codec.rs` | `AcDec.v`, `ArithDec.v` | all |
| `decoder/lc3_decoder.rs` | `FrameDec.v`, `Buffers.v`, `Decoder.v` | all; `bits_per_sample` other than 16 is an error as in the code |
| `decoder/residual_spectrum.rs`, `noise_filling.rs`, `global_gain.rs`, `temporal_noise_shaping.rs`, `spectral_noise_shaping.rs`, `packet_loss_concealment.rs`, `output_scaling.rs` | `DecSignal.v`, `SnsIndex.v`, `Mpvq.v` | all |
| `decoder/modified_dct.rs` | `DecMdct.v` | all |
| `decoder/long_term_post_filter.rs` | `DecLtpf.v` | all |
| `encoder/buffer_writer.rs` | `Writer.v` | all |
| `encoder/bitstream_encoding.rs` | `AcEnc.v`, `FrameEnc.v` | all |
| `encoder/lc3_encoder.rs` | `Buffers.v`, `Encoder.v` | all |
| `encoder/modified_dct.rs` | `EncMdct.v` | all |
| `encoder/bandwidth_detector.rs`, `attack_detector.rs`, `noise_level_estimation.rs`, `residual_spectrum.rs` | `EncDetect.v` | all |
| `encoder/spectral_noise_shaping.rs` | `EncSns.v`, `SnsIndex.v`, `Mpvq.v` | all |
| `encoder/temporal_noise_shaping.rs` | `EncTns.v` | all |
| `encoder/long_term_post_filter.rs` | `EncLtpf.v` | all |
| `encoder/spectral_quantization.rs` | `EncQuant.v` | all |
| `examples/decode.rs`, `examples/encode.rs` | `Files.v` | the two file functions; file errors and logging left out, the interleaving loops given by the list they fill |
| `tables/*.rs` | `Tables*.v` | generated by `tools/gen_tables.py`, committed |

Not modelled: the iterator/closure plumbing as such, `Debug` formatting, logging, time and memory use, `examples/compare.rs`, the `main` functions and the benches.
Which working buffer slices go to which stage *is* modelled, including that they keep the caller's contents.

## Conventions of the model

* Machine integers are `Z`. Where a result may leave its type the operation is explicit: masked, wrapping, or `Panic`
  in a build with overflow checks. `target` (`DecSignal.v`) records whether the checks are on and how large `usize` is.
  `usub` (subtraction of `usize`) is `Panic` on underflow in either build. Theorems that say a call succeeds are not affected, since nothing underflows then. Of the theorems that say something
  panics, those of C08, C14 and C15 go through `usub`: without the checks the wrapped difference is used as an index at once (buffer_reader.rs 107-108, bandwidth_detector.rs 36-42) and is out
  of bounds, so they hold in both builds. C24 is about the budget itself. C17, C44 (exactness) and C63 go through `joint_index` and are for builds with the checks; C64 is the other case.
  Indexing, slicing and `copy_from_slice` out of bounds are `Panic` (`idx`, `put`, `sub`, `blit`); `Result::Err` is `Err e`.
* `&mut` arguments become returned values. Slices and arrays are lists.
* Rust loops become structural recursion (`for_range`, `for_rev`), or recursion on explicit fuel where running out of fuel is
  `Panic`, so that no-panic theorems also establish termination.
* Floats. The signal path is written once over a record of operations `ops F` (`Scalar.v`), for the encoder also `eops F`
  (`EncScalar.v`). The order of operations is that of the code. Instances:
  * `f32_ops lm` / `f32_eops el` (`F32.v`, `EncF32.v`): Flocq's binary32, round to nearest even, one NaN. Addition, product,
    quotient, square root, comparison, casts and literals are exact IEEE operations. `sin`, `cos`, `log`, `pow`, `exp2`, `asin`,
    `powi` and fast_math's `exp2_raw` are *arbitrary functions* (`libm`, `elibm`): theorems hold for every choice. `powi` is among
    them because its order of multiplication is not specified.
  * `R_ops` / `R_eops`: the reals with the true functions, used for what is meant by the signal processing. `f32::INFINITY` is 2^200 there.
  * `fx_ops` / `fx_eops` (`Fixed.v`): fixed point integers, to run whole frames inside the kernel for examples and one refutation.
  * `soft_libm`, `soft_elibm` (`SoftLibm.v`): an executable libm for binary32, for tests only (`UpstreamTests.v`, `ModelTests.v`:
    the expected values of the crate's own unit and end-to-end tests are reproduced by the model).
* What encoder theorems need of an arithmetic is collected in `elaws` (`EncF32.v`) and proved for the reals, for binary32 with any libm and for fixed point.
* `(x as f64).log2().floor()` / `.ceil()` on positive integers below 2^24 are taken to be `Z.log2` / `Z.log2_up`.
* `as usize` of a float is modelled for values below 2^31 only; the places where it is used are bounded.

## Layout (`rocq/theories`)

| group | files |
|---|---|
| model | see above |
| arithmetic coder (C01, C02, C32, C33) | `AcSpec` (interval coder over unbounded integers), `AcSpecProofs`, `AcEncProofs`, `AcDecProofs`, `AcFinishProofs`, `AcStream`, `AcStreamProofs`, `TablesProofs`, `PropertiesCoder` |
| frame writer and parser (C03-C07, C30, C31) | `TailSpec`, `PayloadSpec`, `FrameSpec` (specifications), `BufLemmas`, `TailProofs`, `Events`, `EncPayload`, `EncFrame`, `DecPayload`, `DecSide`, `FrameProofs`, `RoundTrip`, `PropertiesFrame` |
| parsing arbitrary bytes (C08, C09, C20) | `ParseBase`, `ParseTotal`, `SeedBound`, `PropertiesParse` |
| pulse vectors and scale factors (C16, C17) | `MpvqProofs`, `SnsProofs`, `PropertiesSns` |
| buffers and configuration (C13-C15, C36, C42) | `BuffersProofs`, `FactorProofs`, `PropertiesBuffers` |
| decoder signal path (C18, C19, C21, C27, C34, C35) | `LineSpec`, `LtpfSpec`, `LtpfExact`, `F32Round`, `F32Lines`, `FftSpec`, `Dft`, `DctSpec`, `PropertiesSignal` |
| decoder over call histories (C10-C12, C40, C41) | `DecTotal`, `DecState`, `DecRun`, `DecHistory`, `DecEquiv`, `DecRelease`, `PropertiesDecoder` |
| transforms (C37) | `MdctSpec`, `TdacSpec`, `Dct4Inv`, `Tdac`, `MdctFormula`, `MdctStream`, `PropertiesMdct` |
| encoder detectors (C38, C39, C45, C46) | `DetectSpec`, `PropertiesDetect` |
| noise shaping gains (C48) | `SnsShape`, `EncShape`, `ScfBound`, `PropertiesShape` |
| quantiser (C22-C25, C47) | `EstimateSpec`, `TnsBits`, `QuantSpec`, `QuantReal`, `PropertiesQuant` |
| pitch and TNS of the encoder (C26, C28, C29) | `EncLtpfOk`, `TnsOk`, `TnsInverse`, `PropertiesShaping` |
| linear prediction, stability of TNS (C51, C52) | `Lpc`, `LpcDamp`, `TnsLpc`, `TnsCorr`, `TnsFir`, `TnsStable`, `PropertiesLpc`, `PropertiesStable` |
| the encoder as a whole (C12, C43, C44, C49) | `EncSnsOk`, `EncOk`, `WriterTotal`, `PayloadBound`, `EncRun`, `EncTrip`, `EncCheck`, `EncReal` (exact arithmetic), `PropertiesEncoder`, `PropertiesReal`, `PropertiesOvershoot` |
| from the encoder's spectrum to the decoder's (C53) | `TnsLinear`, `ChainError`, `LineError`, `Chain`, `PropertiesChain` |
| from samples to samples (C54) | `PcmError`, `PropertiesPcm` |
| pitch analysis of the encoder on signals (C55) | `PitchSpec`, `PitchRun`, `PitchFacts`, `PropertiesPitch` |
| band energies, near Nyquist flag, where the detectors look (C56, C38, C39) | `PropertiesEnergy` |
| rate control (C57) | `RateSpec`, `PropertiesRate` |
| noise shaping analysis (C58) | `ScfSpec`, `ScfRun`, `PropertiesScf` |
| rounding errors of the transforms (C59) | `Norm2`, `F32Err`, `FftErr`, `FftErrRun`, `DctErr`, `MdctErr`, `MdctErrRun`, `MdctErrStream`, `PropertiesRounding` |
| sizes in binary32 (C60) | `F32Size`, `TnsSize`, `SnsSize`, `LtpfSize`, `LineSize`, `DecSize`, `PropertiesFinite` |
| the encoder in binary32 (C44, C61) | `EncKeep` (what the analysis buffers hold, any arithmetic), `ProjF32`, `EncSnsSize`, `EncTnsSize`, `EncSize`, `PropertiesEncF32`; silence: `QuietF32`, `PropertiesQuiet`; C49: `PropertiesLive`; after any history of successful calls: `EncAny` (any arithmetic), `PropertiesAny` (with overflow checks a call succeeds exactly when its frame is live); the grid residuals lie on: `SnsGrid`; C63, C64: `PropertiesSnsFail`, `PropertiesSnsWrap`; C49 and C61 for every run that succeeds, without conditions on the frames: `PropertiesAnyRun` |
| when TNS fails (C62) | `TnsIndex` (success needs every index in the tables, any arithmetic), `TnsUnstable` (the spectrum of the refutation, computed by the kernel), `PropertiesTns` |
| WAV headers (C50) | `PropertiesWav` |
| file programs (C65, C66) | `PropertiesFiles`, `PropertiesFilesEnc` |

## How each property is stated

* **C01, C02** The encoder's registers refine an interval coder over unbounded integers (F, R, n); the decoder's register is the
  stream prefix minus F. C02 is false inside the "termination window" (`high` is not masked to 24 bits): refuted, and proved outside.
* **C03-C07, C30, C31** `PayloadSpec` says which tail bits and which symbols a frame consists of, as functions of the parameters. Writer and parser are both
  shown to follow it. Refutations: lsb level array indexed by pair and by line (C06), -32768 (C07), residual count (C30).
* **C08, C09, C20** Parser invariants on arbitrary bytes; the seed bound by a potential function on coded bits.
* **C10-C12, C40, C41** Induction over call histories of the whole decoder; also the encoder for C12. `DecRelease` has the invariant without the frame counters: totality over histories of any length
  without overflow checks (`C10_release_any_history`).
* **C16, C17** Bijection by induction on the dimension. Float comparisons of the pulse search are oracles in C17 and the real code in `EncSnsOk`.
* **C18, C21** binary32.
* **C48** The gains as a curve through the scale factors (spec in `SnsShape`: `curve`, `band_curve`, `scale_factor`). The interpolation, smoothing and
  grouping loops are evaluated on symbolic lists. Scale factors are bounded because the floor of the energies is relative to their mean. In `R` the
  "infinite" start value of the searches is 2^200; the bound shows that some candidate is always below it.
* **C22-C25, C43, C44, C47, C49** Prices on the events of `PayloadSpec`; the estimator against them; the budget; the coded size by a bound on the
  truncation of the coder's interval; then the whole call. C43 is false: `PropertiesOvershoot` has two frames of audio.
* **C27** The post filter as a recursive equation on the whole past signal, from any reachable state.
* **C28, C35, C37** Exact arithmetic (reals), for the code as modelled (in-place loops and all).
* **C51** Prediction error as a quadratic form (`energy`), best predictor by comparison with all others; damping keeps a best predictor one, by the energy
  of the damped impulse response. `bands_definite` is the condition that the windowed form is positive; it cannot be dropped from the proof because the
  window itself is not positive definite (`C51_lag_window_refuted`). **C52** Weighted energy of the lattice state.
* **C53** Composition: quantiser error per line (`LineError`), energy through the decoder's filter (C52), curve of the scale factors (C48). Each field of
  `clean_frame` excludes one of the frames that C02, C07, C25, C28, C29 and C43 show to exist; silence meets all of them (`silent_clean`).
* **C54** Time domain aliasing cancels between the inverse transforms of the true MDCT; by linearity the rest is the inverse transform of the difference. `clean_run`
  says of every frame what C53 asks of one, and that the post filter is off (always so from 560 + 80 fs_ind bits per 10 ms on: `high_rate_plain`).
* **C55** `PitchSpec` is written on signals indexed by time (no buffers). `PitchRun.pitch_at` says what the four delay lines hold before frame n; one step
  of the code preserves it and meets `pitch_frame`.
* **C57** `RateSpec` gives the level of four lines, the cost of a frame as a function of the gain, the smallest affordable index, the smallest index at which
  the loudest line fits, the quantiser and the adjustment rule; nothing in it refers to the code. The cost does not grow with the gain, which makes the eight step
  bisection find the smallest index. The bits a quantised frame needs are the record `estimate` of C23. Over any sequence of frames the correction stays in
  [-40, 0] because `nbits_spec_old` is never written (a finding: the feedback cannot raise the target).
* **C58** `ScfSpec` gives the scale factors as functions of the band number, the pulse search as relations (`greedy` with the true similarity, `grown` with a
  correlation and energy handed on), the distances of both stages and the list of fourteen pairs. `C58_quantiser` needs a component of set B of the rotated rest
  that is not zero (`set_b_left`, without it the code writes its set B pulse to position 0). `grown` hands on what `add_unit_pulse` leaves in `corr_xy` and
  `energy_y`: the values of the last position tried (finding; `C58_shape2_greedy_refuted` has the target with one component, at 14, for which shape 2 gets seven
  pulses there and one at 0). `C58_shape3_greedy` holds because its search starts from the true values and one call carries them along.
* **C59** Binary32 semantics (Flocq) of the same functions that C37 treats in `R`. Euclidean norms: each radix stage of the FFT multiplies the norm of the error by the norm
  of the stage and adds a few units of rounding; the recursion over the factors is `FftErrRun`, windowing and folding are `MdctErrRun`. Absolute slack (2^-80)
  covers underflow. The hypothesis `twiddles_near` (twiddles within 2^-23) replaces facts about the sine and cosine of the library, which are not modelled; a library
  that rounds the exact values meets it (`C59_rounded_library`). The bounds for streams rest on the invariant that the overlap is near the exact aliasing term of the last
  block, so nothing accumulates.
* **C60** Interval reasoning over the whole decoder with an invariant for the state of a channel (`channel_sized`): lines of a parsed frame at most 81920, residual and noise below 81921, gain index at
  most 145/28 decades, the TNS lattice at most 1.4e10 times its input (its reflection coefficients are sines of at most 8/17 of pi), scale factors at most 20 in the exponent of two, the inverse MDCT by the
  error bound of C59, the post filter by a contraction (sums of the absolute numerator and denominator coefficients at most 0.355 and 0.402 after the gain, fades weighted by the sample number).
  Concealment does not enlarge any line. Hypotheses on the library: `decoder_library` and `twiddles_near`, met by `exact_library` (`C60_library`). The constants are far from tight; what matters is that they exist
  and leave room below the largest binary32 number.
* **C61**, and C44 in binary32: for 16 bit audio and a library near the exact functions (`encoder_library`, met by `exact_library` and `exact_elibrary`) all of `frame_regular` is derived but two things, which are
  `frame_live`: set B of the rotated residual is not empty (`set_b`) or the shape chosen is not 0 (`shape_0`), and no reflection coefficient of exactly 1 or -1. `SnsGrid.proj_always`: residuals are multiples of 2^-41 and rotated ones of 2^-81, so the projection is within 0..6 for any scale factors. C63 shows that the first condition is exact in builds with overflow checks (`joint_index` always panics where the product of line 532 overflows; without the checks the code goes on with a wrapped index, which `PropertiesSnsWrap` (C64) models for the quantiser but `encode` does not, so `C44_call_succeeds_exactly_f32` asks for `t_chk t = true`, and "succeeds" in `PropertiesAnyRun` means in the model); its failing scale factors are below 1.16 in size and add up to exactly zero, so the first condition cannot be derived from the size or the mean of the factors; whether 16 bit audio can give such factors is open. `ProjF32.heard_regular` holds for any vector, NaN and infinities included (the sum
  of sizes is then not finite and every projection is 0 or NaN, which converts to 0). `EncTnsSize.index_range`: the index of any other reflection coefficient is within 0..16, since the arcsine of anything outside [-1, 1] is NaN.
* **C44, silence in binary32** (`C44_silence_f32`): zeros stay zeros through windowing, the FFT and the gains, the band energies are exactly +0, so the sixteen scale factors are one concrete vector per (attack, duration);
  `quiet_checks` computes its residual in set B. `quiet_library` fixes the library where silence calls it: 2^-32 exact, 10^-4 and 10^x finite and positive, one correctly rounded logarithm.
* **C62** `TnsIndex.encode_needs_tables` is the converse of `TnsOk.tns_encode_full`: a bad index survives the 8 bit store (wrapped or not, it is still outside 0..16 and not 8), so the order reaches it and the bit count
  indexes the table with it. The refutation fixes a spectrum and is for every library with the two values named; that the encoder can be driven to this spectrum by audio is not claimed.
* `regular`/`frame_regular` (C44, C49) are the conditions on floats which cannot be derived from `elaws`; `EncCheck` decides them for concrete frames.

Suffixes: `_partial` is a theorem for part of a claim (the comment above it or the manifest names what is missing), `_refuted` shows a claim false by a witness.
Files `Properties*.v` contain beside each theorem a concrete case meeting its hypotheses.

## Seeded faults

`seeded/LOG.jsonl`: edits of the model in a scratch copy, the claim each breaks, and the theorems that no longer check. `tools/seed_run.py` runs a batch.
