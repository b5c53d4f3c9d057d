# Formal model of visqol-rs in Rocq (Coq 8.16.1)

## 1. Shape of the model

* One generic executable model, written function by function after the Rust sources
  (`theories/M_*.v`). Every definition cites the file and lines it models.
* The model is parametrised by a plain record `NumOps` (file `Num.v`): carrier, `+ - * /`,
  `sqrt`, `fma`, comparisons, casts, the libm functions and the FFT that the code calls.
  It is a record value passed as an argument, no functor and no axiom.
  * `F64 lm` (file `F64.v`): IEEE-754 binary64 (Flocq `BinarySingleNaN`, round to nearest even),
    bit exact for `+ - * / sqrt fma`, comparisons and casts. libm functions and the FFT are the fields of the
    record `lm : Libm`, over which theorems are universally quantified.
  * `RN` (file `RNum.v`): real numbers, exact functions, exact DFT. Used for algebraic claims
    ("in exact arithmetic").
  * Theorems "in any arithmetic" quantify over every `NumOps`.
  * `ZN` (file `WitnessZ.v`): integers, only used to compute examples.
* Control: `res A := Ok a | Err e | Panic p`. `Err` carries the `VisqolError` value (or the wav/csv
  error), `Panic` covers index out of bounds, failed `expect`/`assert`, division by zero, arithmetic
  overflow and allocation failure. The build profile (debug/release) is a parameter: `usize` subtraction that underflows
  panics in debug and wraps modulo 2^64 in release.
* State: a manager is the value of its filter bank (coefficients and filter conditions); methods taking
  `&mut self` return the new value together with the result.
* The file system, `hound` (wav decoding), `csv`, `serde_json` and the SVR model are parameters
  (functions or data) of the model: theorems hold for every value of these parameters.

### Theory files and the sources they model

| theory | sources (visqol-rs/src unless noted) |
|--------|--------------------------------------|
| `Base.v` | `usize` arithmetic, slices, `Vec::resize`, panics; `visqol_error.rs` |
| `Num.v`, `F64.v`, `RNum.v` | `f64`, its casts and its library functions |
| `Mat.v` | the parts of `ndarray` in use: row-major matrices, `column`, `mean`, `std` |
| `M_Audio.v` | `constants.rs`, `audio_signal.rs`, `wav_reader.rs`, `audio_utils.rs`, `math_utils.rs`, `analysis_window.rs` |
| `M_Align.v` | `fft_manager.rs`, `fast_fourier_transform.rs`, `envelope.rs`, `xcorr.rs`, `alignment.rs` |
| `M_Spectro.v` | `equivalent_rectangular_bandwidth.rs`, `signal_filter.rs`, `gammatone_filterbank.rs`, `gammatone_spectrogram_builder.rs`, `spectrogram_builder.rs`, `spectrogram.rs` |
| `M_Patch.v` | `rms_vad.rs`, `vad_patch_creator.rs`, `image_patch_creator.rs`, `patch_creator.rs` |
| `M_Nsim.v` | `convolution_2d.rs`, `neurogram_similiarity_index_measure.rs`, `patch_similarity_comparator.rs` |
| `M_Selector.v` | `comparison_patches_selector.rs` |
| `M_Visqol.v` | `visqol.rs`, `visqol_manager.rs`, `variant.rs`, `similarity_result.rs`, the three mappers and `support_vector_regression_model.rs` (predictor as a parameter) |
| `M_Text.v` | the text of the JSON and CSV files: derived `Serialize` of both result structs, `serde_json`'s pretty formatter, the `csv` writer |
| `M_Clap.v` | the options declared in `command_line_utils.rs` with their `requires` and `conflicts_with`, and what `clap` 4 does with them |
| `M_Example.v` | `examples/compute_score_on_speech_file.rs` and the program in the documentation of `lib.rs` |
| `M_Svr.v`, `M_SvrData.v` | the predictor of `ffsvm` as used by `support_vector_regression_model.rs`; `model/libsvm_nu_svr_model.txt` |
| `M_Cli.v` | `visqol/src/{main,command_line_utils,path_pair,output_utils}.rs` |
| `Spec.v`, `Spec2.v` … `Spec14.v` | specification vocabulary used in the theorem statements, independent of the model |
| `P_*.v` | lemmas and proofs |
| `Witness*.v` | concrete runs used by the examples |
| `Tests.v` | the repository's unit tests run on the model (validation, not proofs) |
| `T_*.v` | the property theorems and examples, each closed by one `exact` and followed by `Print Assumptions` |

## 2. Trusted base

* Coq's kernel (8.16.1, including its `vm_compute` conversion) and the standard library, Flocq and Coquelicot. No `native_compute`.
* The axioms listed in section 6. They are the standard library's and no others; no axiom is declared in this development.
* The reading of the Rust code into the model. The Rust code was not executed; section 5 says how the reading was checked.
* `F64`: that Rust's `f64` operations are IEEE-754 binary64 round-to-nearest-even with unobservable NaN payloads, that
  `mul_add` is fused, that `as` casts saturate, that decimal literals are correctly rounded.
* `ndarray`'s `sum`/`mean`/`std`/`dot`: `sum` follows ndarray's eightfold unrolled order; `std` follows Welford's method as in ndarray.
* External behaviour that appears as a parameter (an oracle), over which theorems quantify:
  * the libm functions (`Libm`), rustfft (`lm_fft`; its output length is not assumed);
  * where a theorem needs the library to be accurate it says so in its statement (`exp_close`, `log10_close`,
    `fft_close`, `log2_close`, `hypot_close`, ... in `Spec13.v`, `Spec14.v`, `Spec15.v`): these are hypotheses of the theorems,
    met by the correctly rounded libraries `lm_true` (`P_Libm.v`) and `lm_fourier` (`P_FftTrue.v`); that the real libm and rustfft meet them is not proved;
  * the SVR predictor (`Svr`): any function from a feature vector to a number, or no model at all;
  * the file system: any function from a path to a decoded wav file or an error;
  * how the csv reader splits a file into rows and fields (what it does with the rows, the header row
    and rows of different lengths is modelled), and the writability of the output files.

### What "in exact arithmetic" (`RN`) does and does not say

* There is no NaN and no infinity. `x / 0 = 0` and `ln x = 0`, `sqrt x = 0` outside their domains, as in Coq's
  standard library. Where the code divides by a quantity that may be 0 (level matching against silence, correlation of
  constant patches) the `RN` theorems say nothing about binary64; C42 treats those inputs in `F64`.
* C41 and C48 (whole comparisons succeed, identical inputs score best) are statements about `RN`. With rounding, alignment of
  identical recordings can in principle pick another lag, so the same statements are not claimed for `F64`.
* C48 does not exclude silent recordings: its conclusion "succeeds" then relies on `x / 0 = 0`. C42 says what happens in `F64`.

## 3. Plan per property

| id | modelled | arithmetic | proof |
|----|----------|------------|-------|
| C01 C02 | mappers, extremes clamp, run | F64 | case analysis on clamp, every libm and every SVR |
| C03 C04 | speech mapper | F64 and R | monotonicity of rounding (Flocq); real analysis for the constants; error propagation through mean, exponential and fit for an accurate library (`P_AggF.v`) |
| C05 | filter bank state machine, run | any | invariant: only min_freq survives; induction on histories |
| C06 C07 | validation, loading, run | any | case analysis |
| C08 | load_as_mono | F64, any | list induction; Flocq for the mono case; error of a rounded sum for several channels (`P_MoreF.v`) |
| C09 | next_pow_two, FftManager::new | integers, any | bitwise reasoning on Z |
| C10-C12 | alignment | F64 | case analysis for every FFT; Flocq error bounds |
| C13 C14 | xcorr with exact DFT; in F64 with an accurate one | R and F64 | DFT inversion and convolution theorem; in F64 error propagation through both transforms and the product, for a library meeting `fft_close` and `log2_close` of `Spec15.v` (met by the library `lm_fourier` of `P_FftTrue.v`) |
| C15 | envelope with exact DFT; in F64 with an accurate one | R and F64 | DFT symmetry, closed form; in F64 error propagation through mean, both transforms and the hypotenuse, for a library meeting `fft_close` and `hypot_close` |
| C16 | slice | F64 | Flocq casts, list lemmas |
| C17 C18 | ImagePatchCreator | any | arithmetic, induction |
| C19-C22 | RmsVad, VadPatchCreator | F64 | induction over chunks; Flocq for the threshold |
| C23 C24 | calc_max_num_patches, selector, run | any | induction over the index list |
| C25 C26 C43 | dynamic programme of the selector | F64, R, any | loop invariants, monotone float addition |
| C27 C28 | fine alignment | F64 | invariant over the patch list |
| C29 | spectrogram preparation | F64 and R | max/min lemmas; the F64 run is compared with the R run on the same values, for an accurate logarithm (`P_PrepF.v`) |
| C30-C32 | spectrogram builder, ERB | F64 and R | induction; monotone exp; for the F64 frequencies error propagation through logarithm, division and exponential (`P_BandsF.v`) |
| C33 C34 | biquads, make_filters | any, R | induction; complex algebra |
| C35 C36 | convolution, NSIM | any, R | index arithmetic; Cauchy-Schwarz |
| C37 C42 | level matching; for C42 also the whole comparison | R, F64 | real analysis; for C37 in F64 relative error propagation through sum of squares, square root, logarithm, power and product (`P_LevelF.v`), with a correctly rounded library as witness (`P_Libm.v`); F64 special values; for C42 NaN propagation through envelope, correlation and best lag (`P_Silent.v`), rounding error of patch times, invariant of the first back-pointer row |
| C38 C39 | aggregation | any, R, F64 | induction, algebra; absolute error of a rounded sum (`P_AggF.v`) |
| C40 | analysis window | F64 | Flocq |
| C41 | whole pipeline | R | composition of the optimality lemmas of every stage |
| C44-C47 | command line tool | any | induction over the batch, effects as traces |
| C48 | whole pipeline | R | composition of no-panic lemmas |
| C49 | whole run | any | case analysis over every error source |
| C50 | slice and realign_patch | F64, R | Flocq error bounds; exact times |
| C51 | every function with `usize`/`i32` arithmetic, run, tool | any | agreement relation lifted through every function |
| C52 | level matching, builder, run | R | homogeneity of filter bank and energy |
| C53 | measure_patch_similarity | F64 | forward error analysis with Flocq; root of a rounded square is exact |
| C54 | the whole comparison | RN, F64 | range predicate on patch results kept by every stage; exchange of sums for the overall mean; in F64 the same with the rounding bounds of the averages |
| C55 | globally_align on a signal and its delayed copy | RN and F64 | closed form of the envelope; the autocorrelation gap at shift j is half the energy of u(i+j)-u(i), bounded below by Cauchy-Schwarz along the chain p, p+j, ...; in F64 that gap has to exceed the rounding of C75 |
| C56 | load_as_mono | F64, any Libm | finite values other than -0 are determined by their real value; doubling and halving are exact; relative error of each addition |
| C57 | run, compute_results | any arithmetic; witness in F64 | case analysis of the error values of a comparison; two kernel computed comparisons |
| C58 | run, all of it, on a scaled copy | RN | the level matching leaves the sign only; a spectrogram ignores the sign; then the argument of C41; witness by integer correlations |
| C59 | run, all of it, every length | RN | every stage either total or panicking in terms of lengths (align_any, sim_few, sim_panics, sim_total), then a case analysis against the table in Spec5.v |
| C60 | main and all of output_utils, with a disk that may refuse writes | any arithmetic | decomposition of the event list (write_ok), shape of a result (C39), pointwise reading of the two tables |
| C61 | run under two mappers; the wideband mapping | any arithmetic; RN and F64 for the score | calculate_similarity up to the mapper; the curve is multiplicative in the scale; bounds of exp at two points |
| C62 | find_most_optimal_deg_patches with two radii | F64, any Libm; RN | optimality (C25) and inclusion of the admissible choices; the results add up to the total |
| C63 | cascade, erb_row, build | RN | poles inside the unit circle: a section is two first-order contractions, so outputs are bounded by a geometric sum; RMS of bounded values |
| C64 | read_files_to_compare with all rows of the file, the first included; main | any arithmetic | the reader stops at the first bad row (mapM over an append); nothing else of main looks at the file |
| C65 | svr_prediction with the 317 support vectors of the repository's file | RN | Taylor enclosure of exp computed in integers (vm_compute), a cube-wise bound of the sum of kernels; the copy case from C41 |
| C66 | main, run | any arithmetic | two worlds that agree on what is read; events that replace files; single runs composed by induction over the pairs (C05) |
| C67 | both mappers, calculate_similarity | RN; F64 for wideband | Lipschitz bounds of exp and of the Gaussian kernels; the sum of the weights of the model file is computed |
| C68 | write_debug_json, write_results_to_csv, derived Serialize, the formatters of serde_json and csv | any, F64 | a JSON reader is specified; induction over the serialised tree: the scanner gives back the tokens, the parser the tree |
| C69 | the attributes of CommandLineArgs, main | any | decision of the declared conflicts and requirements, then C64 |
| C70 | the whole comparison with a silent reference | F64 | zeros through level matching, filters, convolution and NSIM; invariant of the dynamic program (`P_SilRef.v`); exact sums of ones; stereo files that cancel load as silence (`P_Opp.v`) |
| C71 | the times of the reported patches of a whole comparison | RN, F64 | `find_order` (the k-th result is the k-th start frame), `trunc_shift` (what fine alignment cuts), spacing of the start frames; `P_Order.v`; in F64 every time is a number of samples up to 1/256 (`sm`), segments are a sample off at most; `P_OrderF.v` |
| C72 | which stretches of the reference a speech-mode comparison reports | RN and F64 | `vad_all` gives the selected start frames exactly, `order_all` ties them to the reported times; the refutation uses a reference whose only sound lies in a gap; `P_Voice.v`; in F64 C20 and C21 with the sample clock of C71 (`P_VoiceF.v`) |
| C73 | whole comparisons of quiet recordings given as signals | RN | the bound on spectrograms of C63 puts every value below the absolute floor, flat spectrograms give flat patches, and flat patches have similarity 1; `P_Quiet.v` |
| C74 | the example program, the documented program, the tool from its command line on | any N | both are `new` and `run`; C69 for the command line |
| C75 | globally_align | RN and F64 | C15 and C13 composed; in F64 the errors of both envelopes carried through the correlation |
| C76 | align_and_truncate | RN and F64 | C75, then the cases of the truncation; the cut of a positive lag by C12 |
| C77 | run, the search, fine alignment | RN and F64 | inversion of the run; slices as stretches (C50), C76 for the cut, the filter bank's independence of its history (C05); in F64 with the sample clock of C71 |

## 4. Findings

Where a documented or expected behaviour is false of the code, a theorem (suffix `_refuted`, or stating the failure) says so:

* `next_pow_two` is not the next power of two (513 gives 1023) and panics on 0 in debug builds (C09).
* The envelope is not the Hilbert envelope but a rectified signal plus mean minus a constant (C15).
* Cross-correlation of short signals loses negative lags, so the best lag can be missed (C14).
* A perfect wideband comparison maps to slightly less than 5 (C04).
* A reference that is too short panics (voice-activity patches, C22) or reports a wrong minimum length (fixed grid, C18).
* A reference with exactly one usable patch always panics (C23); a degraded recording that is much shorter panics (C43).
* The chosen match can lie outside the search window (C26); empty patch lists panic (C24).
* The "convolution" does not flip the kernel: it is a correlation; the same for the symmetric kernel in use (C35).
* A 16-bit wav file that is cut off inside its data makes the tool panic; load errors are values only when the file cannot be opened or has another bit depth (C07).
* A silent degraded recording makes every level-matched sample NaN. The fine alignment then panics for every patch that is not lost, so a comparison returns only if all patches are lost, and then the score is 1 (C42). The theorems about whole comparisons have the hypothesis `fft_spreads_nan` on the transform (`Spec10.v`); it is satisfiable (`C42_library`).
* A silent reference turns every degraded recording into silence during level matching, so every audible degraded recording gets the similarity 1 and the score of a perfect copy (C70). The hypothesis `filters_finite` (`Spec11.v`) says that the filter coefficients for the sample rate are finite; `C70_example` meets it.
* A constant offset in a recording hides a delay from the global alignment; without an offset the delay is found exactly (C55).
* A stereo reference whose channels are inverted copies of each other is silent once loaded, so it rates every recording as a perfect copy too (C70).
* With three or more channels the loaded signal depends on the order of the channels in the last bit, and a file with three equal channels is not loaded as the mono file (C56).
* compute_results is public and does not check the sample rates: signals at 100 Hz and 110 Hz get a score, at 100 Hz and 200 Hz they panic (C57).
* An inverted copy of a signal with an offset is not recognised as being in place: the envelope of the copy is almost zero, and the alignment moves it by a sample (C58).
* Lag in seconds does not convert back to the same number of samples (C12); segments can start one sample early (C50); they drift
  at rates where the 80 ms window is not a multiple of four samples, up to a panic on recordings of several minutes (C50).
* The debug JSON file is overwritten, not appended (C45); the CSV has no header and no paths and panics when patch counts differ (C46).
* A batch file without a header row silently loses its first pair; one row with a stray comma stops the whole batch before
  the first comparison; a file with another separator is a panic (C64).
* The options `requires = "degraded-file"` and `requires = "reference-file"` name ids that do not exist (the ids are
  `degraded_file` and `reference_file`). A release build therefore accepts one recording alone, compares nothing and reports
  success; with debug assertions clap panics on every command line. A batch together with a recording is refused, not "ignored"
  as the help text says (C69). This rests on clap 4's documented handling of ids, which is outside /repo.
* The output files are not protected: `--results_csv` naming an input replaces it (C66).
* A search radius of 2^30 or so panics in debug builds and acts as a tiny radius in release builds (C51).
* Wideband scores between 1 and 1.211 (1.456 when scaled) never occur; fullband accepts any sample rate although the help text
  says 48 kHz (C61, C57).
* With the shipped model a perfect fullband copy scores 4.732, nothing scores above 4.9, and lowering the similarity of one
  band (band 3, to 0.45) raises the score (C65).
* In binary64 the similarity of two patches can exceed 1, although it cannot in exact arithmetic: cancellation can make a local
  variance of an almost constant patch negative, and then the denominator drops to its constant. A patch compared with itself can
  score slightly less than 1 for the same reason (C53).
* In speech mode the voice activity of a stretch is measured 14 hops (0.28 s) too early: `vad_patch_creator.rs` passes the start
  *frame* 14 where the start *sample* is expected. So sound can be left out of the comparison completely while the silence after it is compared (C72).
* The floor of -45 dB is absolute. Two recordings that are quiet enough both lie below it everywhere and are rated a perfect copy of each other, whatever they contain (C73).

## 5. Validation of the model, and what is not modelled

`Tests.v` runs the repository's unit tests on the `F64` model with a math library written in Coq (series in binary64,
radix-2 FFT): all those kept here pass (left out: tests that need recordings, and one long case of the matching), most with tighter tolerances than in Rust. This covers FFT,
cross-correlation, convolution, NSIM, RMS/VAD smoothing, decibel conversion, ERB coefficients, the filter bank, the matching of
patches and slicing. These are tests of the reading of the code, not proofs.

Once, outside this repository, the `F64` model was also extracted to OCaml and run on a whole pair of the repository's recordings
(`CA01_01.wav` against `transcoded_CA01_01.wav`, fullband, radius 60). With the patch size of 30 frames for which the repository's
integration test was written it gives a score of 2.000395; the test expects 2.00039. With today's patch size of 20 it gives 2.0487.
This reached every stage of `run`: loading, alignment, spectrograms, patches, dynamic programme, fine alignment and SVR mapping.

Not modelled:


* Logging, terminal colours, table formatting, splitting the command line into options (C69 starts from the options that occur); the digits of printed numbers (C68 takes any printer whose output reads back as the number).
* Rounding inside rustfft, libm, ffsvm (they are arbitrary functions in `F64`). ffsvm computes in f32; C65 evaluates its
  formula on the repository's model file in exact arithmetic, and every other theorem holds for any predictor. The model file's parser.
* `test_utility.rs` and the `#[cfg(test)]` modules.
* Memory exhaustion other than impossible allocations, stack overflow, I/O errors while writing to the terminal.

## 6. Assumptions of each theorem

As printed by `Print Assumptions` during the build. "Reals" stands for the standard library's
`ClassicalDedekindReals.sig_forall_dec`, `ClassicalDedekindReals.sig_not_dec`,
`FunctionalExtensionality.functional_extensionality_dep` and `Classical_Prop.classic`; a theorem in that list uses at most these four.

Closed under the global context (no axioms):

`C05_no_memory`, `C06_sample_rates`, `C07_degraded_bit_depth`, `C07_degraded_damaged_panics`,
`C07_degraded_unreadable`, `C07_reference_bit_depth`, `C07_reference_damaged_panics`,
`C07_reference_unreadable`, `C08_frames`, `C08_ragged_panics`, `C09_between`, `C09_exact_on_powers`,
`C09_exact_to_512`, `C09_fft_size`, `C09_next_power_of_two_refuted`, `C09_zero`, `C17_fixed_grid`,
`C17_patches_cut`, `C18_last_patch_dropped`, `C18_minimum_refuted`, `C18_rejects_exactly`,
`C23_comparison_panics`, `C23_fixed_grid_panics`, `C23_single_patch_panics`, `C24_first_low_panics`,
`C24_never_too_different`, `C24_none_panics`, `C24_number_of_patches`, `C24_results_kept`,
`C35_shape_and_entries`, `C38_averages`, `C39_result_shape`, `C43_short_degraded_panics`, `C44_first_failure`,
`C44_order`, `C45_appended_refuted`, `C45_last_result_only`, `C46_no_header_no_paths`,
`C46_patch_counts_panic`, `C47_batch`, `C47_compares_selected`, `C47_files_take_precedence`,
`C49_error_values`, `C51_debug_run_is_release_run`, `C51_debug_tool_is_release_tool`,
`C51_release_radius_wraps`, `C57_direct_never_refuses`, `C57_run_checks_then_compares`,
`C60_unwritable_debug_file`, `C60_unwritable_results_file`, `C60_whole_output`,
`C61_mapping_changes_score_only`, `C61_same_success`, `C64_bad_row_is_an_error`, `C64_first_row_is_ignored`,
`C64_missing_file_panics`, `C64_nothing_to_compare`, `C64_one_column_panics`, `C64_unreadable_first_row`,
`C66_batch_is_single_runs`, `C66_only_named_files_matter`, `C66_only_outputs_are_touched`, `C66_repeatable`,
`C66_repeatable_refuted`, `C66_terminal_output`, `C68_always_json_refuted`, `C68_debug_file_is_json`,
`C68_results_file`, `C69_accepted`, `C69_debug_build_starts_refuted`, `C69_intended_refuted`,
`C74_documented_program`, `C74_example_program`

Reals:

`C01_mos_range`, `C01_nan_only_from_mapping`, `C02_extremes`, `C03_exact_value`, `C03_monotone_exact`,
`C03_monotone_f64`, `C03_reported_monotone`, `C03_reported_score`, `C04_mapping_f64`,
`C04_maps_to_five_refuted`, `C04_perfect_similarity`, `C04_perfect_similarity_f64`, `C04_reported_score`,
`C04_reported_score_f64`, `C08_in_range`, `C08_mean`, `C08_mean_f64`, `C08_mono_exact`, `C10_empty_degraded`,
`C10_empty_reference`, `C10_only_shifts`, `C11_equal_lengths`, `C12_at_most_one_off`,
`C12_round_trip_refuted`, `C12_truncation_point`, `C13_best_lag`, `C13_best_lag_f64`, `C13_clear_peak_f64`,
`C14_best_lag_refuted`, `C14_best_lag_refuted_f64`, `C14_short_signals`, `C14_short_signals_f64`,
`C15_envelope`, `C15_envelope_f64`, `C15_hilbert_refuted`, `C15_hilbert_refuted_f64`, `C15_pointwise`,
`C15_pointwise_f64`, `C16_samples`, `C16_start_past_end_panics`, `C19_three_silent_chunks`,
`C20_active_iff_integer_test`, `C20_silent_iff_integer_test`, `C21_active_grid_points`,
`C21_first_grid_point`, `C22_comparison_panics`, `C22_no_result`, `C22_short_reference_panics`, `C25_optimal`,
`C25_optimal_exact`, `C26_order_window_lost`, `C26_window_refuted`, `C27_never_lowers`, `C28_patch_times`,
`C29_f64_range_and_order`, `C29_formula`, `C29_formula_f64`, `C29_range_and_order`, `C29_relative_floor_idle`,
`C30_dimensions`, `C30_dimensions_exact`, `C30_low_rate_panics`, `C30_too_few_samples`, `C31_column_is_local`,
`C31_entries`, `C31_not_negative`, `C32_centre_frequencies`, `C32_reported_frequencies`,
`C32_reported_frequencies_f64`, `C33_causal`, `C33_difference_equation`, `C33_linear`, `C33_streaming`,
`C34_unit_gain`, `C35_convolution_refuted`, `C35_convolution_symmetric_kernel`, `C36_at_most_one`,
`C36_formula`, `C36_identical`, `C36_symmetric`, `C37_files_qualify`, `C37_gain_independent`,
`C37_positive_multiple`, `C37_same_loudness`, `C37_same_loudness_f64`, `C38_averages_f64`,
`C38_deviations_not_negative`, `C38_overall_f64`, `C38_pooled_deviation`, `C40_window_is_nearest`,
`C41_copy_score`, `C41_identical_inputs`, `C42_silent_degraded`, `C42_silent_degraded_no_result`,
`C42_silent_degraded_result`, `C42_silent_file_no_result`, `C42_silent_reference`, `C48_fullband_succeeds`,
`C48_wideband_loud_succeeds`, `C48_wideband_succeeds`, `C50_at_most_one_early`, `C50_drift_panics`,
`C50_segment_exact`, `C50_start_at_frame_refuted`, `C51_release_run_is_debug_run_refuted`,
`C52_run_ignores_volume`, `C52_similarity_ignores_volume`, `C52_spectrogram_is_homogeneous`,
`C53_at_most_one_refuted`, `C53_finite`, `C53_identical`, `C53_identical_one_refuted`,
`C54_overall_is_patch_mean`, `C54_overall_is_patch_mean_f64`, `C54_patch_deviations_f64`,
`C54_patch_mean_f64`, `C54_patch_ranges`, `C54_ranges`, `C55_delay_is_undone`, `C55_delay_is_undone_f64`,
`C55_offset_refuted`, `C55_power_of_two`, `C56_accuracy`, `C56_dual_mono`, `C56_dual_mono_run`,
`C56_opposite_channels`, `C56_opposite_channels_run`, `C56_stereo_order`, `C56_three_channels_order_refuted`,
`C56_three_equal_channels_refuted`, `C57_direct_rates_refuted`, `C58_inverted_copy_misaligned_refuted`,
`C58_scaled_copy_is_perfect`, `C59_alignment_error_iff_empty`, `C59_exchange_refuted`, `C59_fullband_outcome`,
`C59_wideband_outcome`, `C61_gap_f64`, `C61_ranking`, `C61_scaled_is_a_multiple`, `C61_wideband_scores`,
`C62_larger_window`, `C62_larger_window_exact`, `C63_filters_are_stable`, `C63_filters_die_out`,
`C63_spectrogram_is_bounded`, `C65_monotone_refuted`, `C65_never_above_4_9`, `C65_perfect_copy`,
`C67_fullband_reacts_smoothly`, `C67_jump_at_0_15`, `C67_jump_at_0_15_f64`, `C67_wideband_reacts_smoothly`,
`C67_wideband_reacts_smoothly_f64`, `C68_not_finite_refuted`, `C68_nothing_lost`, `C70_all_rated_alike`,
`C70_opposite_channels`, `C70_silent_reference`, `C70_silent_reference_file`, `C71_patches_in_order`,
`C71_patches_in_order_f64`, `C72_active_sound_compared_refuted`, `C72_selected_stretches`,
`C72_selected_stretches_f64`, `C72_sound_skipped`, `C72_sound_skipped_f64`,
`C73_quiet_reference_is_matched_by_anything`, `C73_turned_down`, `C75_clear_lag_f64`, `C75_follows_best_lag`,
`C75_follows_best_lag_f64`, `C76_overlap`, `C76_overlap_f64`, `C77_measured_where_reported`,
`C77_measured_where_reported_f64`
