{"id": "C01", "title": "Every reported MOS-LQO lies in [1, 5] or is NaN", "statement": "Whenever VisqolManager::run returns Ok, the moslqo field is a number between 1.0 and 5.0 inclusive, unless it is NaN; and it is NaN only if the reported vnsim is not below 0.15 and the mapping of fvnsim itself is NaN. Infinities never appear.", "quantifier": "all file contents, both variants, every SVR model output, every libm and every FFT implementation, every search radius, debug and release builds", "why_tests_cant": "the range has to hold for every pair of files and every rounding path; tests look at six file pairs", "anchors": ["visqol-rs/src/visqol.rs:calculate_similarity", "visqol-rs/src/speech_similarity_to_quality_mapper.rs:predict_quality", "visqol-rs/src/svr_similarity_to_quality_mapper.rs:predict_quality", "visqol-rs/src/visqol.rs:alter_for_similarity_extremes"]}
{"id": "C02", "title": "Signals with mean NSIM below 0.15 always get the worst score", "statement": "Whenever run returns Ok with vnsim < 0.15, moslqo is exactly 1.0; whenever vnsim >= 0.15, moslqo is exactly what the variant's mapping gives for fvnsim.", "quantifier": "all successful runs of both variants", "why_tests_cant": "the early clamp is one branch that no bundled recording reaches", "anchors": ["visqol-rs/src/visqol.rs:alter_for_similarity_extremes"]}
{"id": "C03", "title": "Wideband score is monotone in mean similarity", "statement": "For two similarity vectors, if the mean of the first is at most the mean of the second then the wideband quality of the first is at most that of the second, with and without scaling, in f64 arithmetic for every monotone exp, and strictly so in exact arithmetic while the result is strictly between 1 and 5.", "quantifier": "all pairs of finite similarity vectors, all monotone implementations of exp", "why_tests_cant": "monotonicity relates every pair of inputs, including neighbouring floats", "anchors": ["visqol-rs/src/speech_similarity_to_quality_mapper.rs:predict_quality", "visqol-rs/src/math_utils.rs:exponential_from_fit"]}
{"id": "C04", "title": "Perfect similarity maps to the top of the wideband scale", "statement": "In exact arithmetic a similarity vector of mean 1 maps to a score within 0.001 of 5.0 with scaling (documented: '1.0 will be mapped to 5.0') and to a score between 4.1 and 4.2 without scaling; the scaled score is strictly below 5.0 (the documented equality is refuted), and it is the same for every vector length. In f64, for at most 1024 bands whose similarities are finite and at most 2 in size, and a library whose exponential has relative error at most 2^-40, the score is within 2^-24 of the fitted curve (clamped to [1, 5]) at the exact mean, both for the mapping alone and for the reported score against the reported overall similarity (exactly 1 below 0.15); so the scaled score of a mean of 1 is above 4.999 and below 5 there too.", "quantifier": "all similarity vectors with mean 1, any number of bands", "why_tests_cant": "the claim is about the exact real value of the fitted exponential, for every vector length", "anchors": ["visqol-rs/src/speech_similarity_to_quality_mapper.rs:predict_quality", "visqol-rs/src/math_utils.rs:exponential_from_fit"]}
{"id": "C05", "title": "A manager has no memory: results do not depend on earlier comparisons", "statement": "After any sequence of earlier run calls on one VisqolManager (successful or failing, any files, any sample rates), run(a,b) returns exactly what a freshly constructed manager of the same configuration returns.", "quantifier": "all finite histories of calls, all files", "why_tests_cant": "there are infinitely many histories; a test tries one or two", "anchors": ["visqol-rs/src/visqol_manager.rs:run", "visqol-rs/src/gammatone_filterbank.rs:set_filter_coefficients", "visqol-rs/src/gammatone_filterbank.rs:reset_filter_conditions", "visqol-rs/src/gammatone_spectrogram_builder.rs:build"]}
{"id": "C06", "title": "Different sample rates are always rejected, equal ones never for that reason", "statement": "If both files load, run returns the DifferentSampleRates error, carrying reference and degraded rate in that order, exactly when the two sample rates differ, whatever the contents; a difference in duration alone never makes the validation fail.", "quantifier": "all pairs of loadable files", "why_tests_cant": "iff over all rates and contents", "anchors": ["visqol-rs/src/visqol_manager.rs:validate_input_audio", "visqol-rs/src/visqol_manager.rs:run"]}
{"id": "C07", "title": "Only 16-bit wav files are accepted and load errors are reported in order", "statement": "run reports InvalidBitsPerSample with the file's bit depth when the reference is not 16 bit; if the reference loads and the degraded file is not 16 bit it reports that one; a file hound cannot open is reported as an error and never a panic; a 16-bit file that opens but has a sample that cannot be decoded (a file cut off in its data) makes run panic instead of returning an error; the sample-rate check happens only after both files loaded.", "quantifier": "all file systems and pairs of paths", "why_tests_cant": "error precedence must hold for every combination of faults", "anchors": ["visqol-rs/src/wav_reader.rs:open", "visqol-rs/src/audio_utils.rs:load_as_mono", "visqol-rs/src/visqol_manager.rs:run"]}
{"id": "C08", "title": "Loading mixes channels down to their mean, one sample per frame", "statement": "For a readable 16-bit file with c >= 1 channels and n complete frames, load_as_mono returns n samples and keeps the rate; in exact arithmetic sample i is the mean over channels of value/32767; in f64 a mono file gives exactly value/32767 rounded once, and every sample lies in [-32768/32767, 1] up to rounding. A sample count that is not a multiple of the channel count panics. In f64, with up to 65535 channels, every sample is within 2^-34 of that mean.", "quantifier": "all channel counts, sample contents and lengths", "why_tests_cant": "must hold for every channel count and every content", "anchors": ["visqol-rs/src/audio_utils.rs:load_as_mono", "visqol-rs/src/audio_utils.rs:extract_multichannel", "visqol-rs/src/math_utils.rs:normalize_int16_to_double"]}
{"id": "C09", "title": "FFT size is always at least the signal length", "statement": "For every input n from 1 to 2^32 the FFT-size helper returns a value r with n <= r <= the smallest power of two >= n; it is exactly that power of two when n is a power of two or n <= 512. The documented 'next power of two' is false in general (513 gives 1023). For input 0 it panics in debug builds. The FFT made for n samples has at least max(n, 32) points, and its inverse is scaled by one over its size.", "quantifier": "all usize inputs in 1..2^32 (a wav file cannot be longer)", "why_tests_cant": "bit-trick arithmetic over 2^32 inputs; the unit test checks eight", "anchors": ["visqol-rs/src/math_utils.rs:next_pow_two", "visqol-rs/src/fft_manager.rs:new"]}
{"id": "C10", "title": "Global alignment only shifts the degraded signal", "statement": "When global alignment succeeds, its output is the degraded signal unchanged with reported lag 0, or the degraded signal with its first k samples removed and reported lag -k/rate, or the degraded signal with k zeros in front and reported lag k/rate, where 1 <= k <= floor(len(reference)/2); the sample rate is unchanged. It fails with 'could not align' if either signal is empty and it never changes a sample value.", "quantifier": "all signals and every FFT and libm implementation (even wrong ones)", "why_tests_cant": "shape must hold for every signal and every FFT result", "anchors": ["visqol-rs/src/alignment.rs:globally_align", "visqol-rs/src/xcorr.rs:calculate_best_lag"]}
{"id": "C11", "title": "Patch-level alignment returns two signals of equal length", "statement": "align_and_truncate on two signals with equal sample rate and equal length returns two signals of equal length, each being a contiguous part of its input or of its zero-padded input, for every FFT implementation.", "quantifier": "all equal-length signals, every FFT implementation, sample rates up to 2^32", "why_tests_cant": "all lags and all roundings of lag*rate", "anchors": ["visqol-rs/src/alignment.rs:align_and_truncate"]}
{"id": "C12", "title": "Lag in seconds does not always convert back to the same sample count", "statement": "The lag is reported in seconds as fl(k/rate) and truncated back as fl(fl(k/rate)*rate): the result is always k or k-1 for 0 <= k <= 2^31 and rates in 1..2^32, and it really is k-1 for some k and standard rate, so the truncation point of align_and_truncate can be one sample early (the round-trip claim is refuted).", "quantifier": "all lags and sample rates", "why_tests_cant": "float rounding over the whole (k, rate) plane", "anchors": ["visqol-rs/src/alignment.rs:align_and_truncate", "visqol-rs/src/alignment.rs:globally_align"]}
{"id": "C13", "title": "The chosen lag maximises the magnitude of the cross-correlation", "statement": "In exact arithmetic, for two signals whose longer length L is at least 9 (and at most 2^62), the correlation search returns a lag in [-(L-1), L-1] that maximises |sum_n s1[n+lag]*s2[n]| over all lags in that range (linear, not circular, correlation of the zero-extended signals); among lags carrying the same correlation value it returns the smallest. In binary64, for every library whose Fourier transform is accurate to 2^-44 of the sum of the magnitudes of its input and whose binary logarithm is accurate to 2^-40, and for finite signals of 9 to 2^30 samples with sums of magnitudes up to 2^50, the search succeeds and no lag has a correlation larger in magnitude than the returned one by more than 2^-38 times the product of the two sums of magnitudes (plus 2^-880); so a peak that leads by more than that is found exactly.", "quantifier": "all pairs of non-empty real signals with longest length >= 9; in binary64 all pairs of finite signals within the stated bounds and all libraries with the stated accuracy", "why_tests_cant": "argmax over all lags, for all signals", "anchors": ["visqol-rs/src/xcorr.rs:calculate_best_lag", "visqol-rs/src/xcorr.rs:calculate_inverse_fft_pointwise_product"]}
{"id": "C14", "title": "Cross-correlation of very short signals loses negative lags", "statement": "For two signals whose longer length L is between 1 and 8 the FFT is forced to 32 points while the result is read back at fewer points, so negative lags are lost: the returned lag maximises |correlation| over the lags 0..L-1 only, and if all of those correlations are 0 it is -(L-1) whatever the signals are. There exist signals for which the returned lag is not a maximiser (C13 without its length hypothesis is refuted). In binary64, with an accurate library, the same holds for 2 to 8 samples up to rounding: a negative lag is returned only if the correlations at the lags 0..L-1 all vanish up to 2^-38 of the product of the sums of magnitudes, otherwise the returned lag maximises over them up to that; and on (1, 0) against (1, 2) every accurate library gives lag 0 although lag -1 correlates twice as strongly.", "quantifier": "all pairs of real signals with longest length 1..8, exact arithmetic, and 2..8 in binary64 for all accurate libraries; plus existence of a counterexample to C13 there", "why_tests_cant": "the counterexample shows the boundary of C13", "anchors": ["visqol-rs/src/xcorr.rs:calculate_best_lag", "visqol-rs/src/fft_manager.rs:MIN_FFT_SIZE"]}
{"id": "C15", "title": "The 'upper envelope' is a rectified copy of the signal, in closed form", "statement": "In exact arithmetic, for every non-empty signal x (up to 2^62 samples) calculate_upper_env succeeds with one value per sample, and value i is |2*(c_i - d*m_i) - 1e-6| + mean(x), where c = x - mean(x), m_i is the component of c in the middle bin of the FFT at sample i, and d is 0, 1 or 2 by the parities of the FFT size and of the length. For lengths 2^m (m >= 5) it is the pointwise |2*(x_i - mean) - 1e-6| + mean. It is therefore not the Hilbert envelope its documentation promises: a tone whose analytic signal has constant modulus 1 gets the values 1.999999 and 0.000001 (refuted by this witness). In binary64, for every library whose Fourier transform is accurate to 2^-44 of the sum of the magnitudes of its input and whose hypotenuse is accurate to 2^-44, and for 2 to 2^20 finite samples of magnitude up to 1, the envelope of n samples is finite and differs from these closed forms by at most n * 2^-37; the tone gets about 2 and about 0 with every such library.", "quantifier": "all non-empty real signals of at most 2^62 samples, every sample; in binary64 all signals within the stated bounds and all libraries with the stated accuracy; existence of a witness for the refutation", "why_tests_cant": "every sample of every signal", "anchors": ["visqol-rs/src/envelope.rs:calculate_upper_env", "visqol-rs/src/envelope.rs:calculate_hilbert", "visqol-rs/src/fast_fourier_transform.rs:inverse_1d"]}
{"id": "C16", "title": "Extracting a time slice gives the right samples and zero padding", "statement": "Slicing a signal between two times a <= b inside or past its end returns exactly the samples from floor(a*rate) to floor(b*rate), positions past the end being zero; a start past the end panics; a negative start prepends floor(-a*rate) zeros. No sample is ever duplicated or reordered.", "quantifier": "all signals, all start and end times representable in f64", "why_tests_cant": "all real times and their roundings", "anchors": ["visqol-rs/src/comparison_patches_selector.rs:slice"]}
{"id": "C17", "title": "Fixed-grid patching covers the spectrogram with in-bounds, disjoint, ordered patches", "statement": "For every spectrogram with at least 3/2 of a patch of frames, the fixed-grid patch creator returns a non-empty strictly increasing list of start frames spaced by exactly the patch size, starting at patch_size/2-1, each patch fully inside the spectrogram; slicing them never panics.", "quantifier": "all spectrogram widths and all patch sizes >= 2", "why_tests_cant": "unbounded widths", "anchors": ["visqol-rs/src/image_patch_creator.rs:create_ref_patch_indices_from_spectrogram", "visqol-rs/src/image_patch_creator.rs:create_patches_from_indices"]}
{"id": "C18", "title": "The 'reference too short' error reports a wrong minimum", "statement": "The fixed-grid patch creator fails exactly when the spectrogram has fewer than patch_size + patch_size/2 frames, and reports the found width correctly, but the minimum_required it reports (patch_size - patch_size/2) is not the real minimum: there are widths at or above the reported minimum that are rejected. Also the last patch that would fit is dropped when the width is an exact fit.", "quantifier": "all widths and patch sizes", "why_tests_cant": "iff over all widths", "anchors": ["visqol-rs/src/image_patch_creator.rs:create_ref_patch_indices_from_spectrogram", "visqol-rs/src/visqol_error.rs:ReferenceSpectrogramTooSmall"]}
{"id": "C19", "title": "Voice-activity smoothing: a frame is silent only after three silent frames", "statement": "The voice-activity detector reports frame i silent exactly when i >= 2 and frames i, i-1 and i-2 all have RMS below the threshold; it returns one flag per frame for every stream of at least two frames, and frames 0 and 1 are always active.", "quantifier": "all sequences of chunks of any length", "why_tests_cant": "sequences of unbounded length", "anchors": ["visqol-rs/src/rms_vad.rs:process_chunk", "visqol-rs/src/rms_vad.rs:get_vad_results"]}
{"id": "C20", "title": "The RMS decision is exact", "statement": "A chunk of n 16-bit samples is classified silent exactly when the integer sum of squares is less than 25,000,000*n, in f64 arithmetic, for every chunk up to 2^20 samples; no rounding can flip the decision.", "quantifier": "all chunks of 16-bit samples of length 1..2^20", "why_tests_cant": "rounding near the threshold over all chunks", "anchors": ["visqol-rs/src/rms_vad.rs:calc_root_mean_square", "visqol-rs/src/rms_vad.rs:process_chunk"]}
{"id": "C21", "title": "Voice-active patch starts lie on a fixed grid and contain the first patch", "statement": "For a reference with at least one whole patch, the wideband patch creator returns a strictly increasing list of start frames, each equal to patch_size/2-1 plus a multiple of patch_size, each patch inside the spectrogram; the first grid point is always in the list; another grid point is in the list exactly when at least one of its patch_size activity flags is active.", "quantifier": "all reference signals and spectrogram widths consistent with them", "why_tests_cant": "all signals, all lengths", "anchors": ["visqol-rs/src/vad_patch_creator.rs:create_ref_patch_indices", "visqol-rs/src/vad_patch_creator.rs:get_voice_activity"]}
{"id": "C22", "title": "Wideband comparison of a too short reference panics instead of returning an error", "statement": "For every reference whose spectrogram has fewer than patch_size/2-1+patch_size frames (44 for the wideband manager), wideband patch creation panics, in debug and release builds, instead of returning a VisqolError.", "quantifier": "all such references, both build profiles", "why_tests_cant": "crash behaviour must be characterised for every short input", "anchors": ["visqol-rs/src/vad_patch_creator.rs:create_ref_patch_indices", "visqol-rs/src/vad_patch_creator.rs:create_patches_from_indices"]}
{"id": "C23", "title": "A reference with a single usable patch always crashes the comparison", "statement": "If the patch creator yields only its first grid patch (short reference, or voice activity only in the first patch), patch matching panics for every degraded signal in both build profiles, because the first start frame is smaller than half a patch.", "quantifier": "all degraded spectrograms, both variants, both build profiles", "why_tests_cant": "needs every degraded signal", "anchors": ["visqol-rs/src/comparison_patches_selector.rs:calc_max_num_patches", "visqol-rs/src/comparison_patches_selector.rs:find_most_optimal_deg_patches"]}
{"id": "C24", "title": "Number of matched patches", "statement": "When the start frames are increasing and their first is at least half a patch, the number of patches kept is the number up to and including the last start frame whose (start - patch/2) does not exceed the degraded width; when that set is empty, or the first start is below half a patch and the search reaches it, the call panics; therefore the documented SignalsTooDifferent error is never returned by any comparison.", "quantifier": "all index lists and widths, both build profiles", "why_tests_cant": "all lists; absence of an error value over all executions", "anchors": ["visqol-rs/src/comparison_patches_selector.rs:calc_max_num_patches", "visqol-rs/src/visqol_error.rs:SignalsTooDifferent"]}
{"id": "C25", "title": "Patch matching is optimal", "statement": "Among all admissible assignments of degraded start frames to reference patches (inside the search window, non-decreasing, two matched patches never sharing a degraded start, a repeated offset meaning 'patch lost' and contributing nothing) the returned assignment has the maximal total similarity, as computed in f64 by adding in patch order.", "quantifier": "all patch lists, degraded spectrograms and search radii (similarities finite and positive)", "why_tests_cant": "the set of assignments is exponential", "anchors": ["visqol-rs/src/comparison_patches_selector.rs:find_most_optimal_deg_patches", "visqol-rs/src/comparison_patches_selector.rs:find_most_optimal_deg_patch"]}
{"id": "C26", "title": "Matched patches are ordered, inside the search window, and lost patches are zeroed", "statement": "When all similarities inside the search windows are finite and positive: the degraded start offsets returned are non-decreasing in patch order, each within search_window_radius*patch_frames frames of its reference start and inside the degraded spectrogram; patches flagged as lost have start = end = 0, similarity 0 and all band means 0; matched ones have pairwise distinct offsets and duration patch_frames*frame_duration. Without that hypothesis the window claim is false (refuted by a matching with a negative similarity, whose offset lies outside the window).", "quantifier": "all successful matchings whose in-window similarities are finite and positive; existence of a counterexample otherwise", "why_tests_cant": "all inputs and backtraces", "anchors": ["visqol-rs/src/comparison_patches_selector.rs:find_most_optimal_deg_patches"]}
{"id": "C27", "title": "Fine alignment never lowers a patch's similarity", "statement": "For every patch, the similarity after fine alignment is at least the coarse one (unless the new one is NaN), lost patches are returned unchanged, the number and order of patches is unchanged.", "quantifier": "all signals, all coarse results, every FFT implementation", "why_tests_cant": "all signals", "anchors": ["visqol-rs/src/comparison_patches_selector.rs:finely_align_and_recreate_patches"]}
{"id": "C28", "title": "Patch times are well formed", "statement": "Every patch of a successful run has four finite times with 0 <= start <= end in reference and degraded. Its duration is the nominal patch duration (30 hops in wideband, 20 in fullband; for a lost patch both degraded times are 0) or a whole number of samples, the same number in both signals.", "quantifier": "all successful runs of a created manager after any history, for files with a rate from 1 to 2^32-1 Hz and at most 2^62 frames", "why_tests_cant": "all runs", "anchors": ["visqol-rs/src/comparison_patches_selector.rs:finely_align_and_recreate_patches", "visqol-rs/src/comparison_patches_selector.rs:find_most_optimal_deg_patches"]}
{"id": "C29", "title": "Prepared spectrograms are non-negative, share the floor and have at most 45 dB of range per frame", "statement": "Preparing two non-empty spectrograms of equal width for comparison always succeeds and keeps both shapes and band lists. Every value becomes max(peak - 45, level) - low, where level is max(-45, 10*log10|x|) (silence for 0), peak is the largest level of the frame over both spectrograms and low the smallest raised level over everything. Hence all values are >= 0, one is exactly 0, two values of one frame differ by at most 45 dB, and a larger magnitude never gets a smaller value. In f64, for finite values, the results are finite and the same holds with 45 dB replaced by 45 + 2^-35 and order taken on the f64 levels. With a library whose logarithm is within 2^-40, every f64 result is within 2^-35 of the exact formula.", "quantifier": "all pairs of spectrograms without NaN or infinity", "why_tests_cant": "all contents and shapes", "anchors": ["visqol-rs/src/audio_utils.rs:prepare_spectrograms_for_comparison", "visqol-rs/src/spectrogram.rs:raise_floor_per_frame"]}
{"id": "C30", "title": "Spectrogram dimensions and TooFewSamples", "statement": "Building a spectrogram fails with TooFewSamples{found: length, minimum_required: window size} exactly when the signal is shorter than the window, and otherwise yields NUM_BANDS rows and 1 + (len - window)/hop columns with NUM_BANDS centre frequencies, without panicking, for every sample rate whose hop is at least one sample.", "quantifier": "all signals, sample rates and band counts", "why_tests_cant": "all lengths", "anchors": ["visqol-rs/src/gammatone_spectrogram_builder.rs:build"]}
{"id": "C31", "title": "Every spectrogram column depends only on its own frame", "statement": "Column j of the spectrogram is a function of samples j*hop .. j*hop+window-1 only: two signals that agree on that range have identical column j, bit for bit; every entry is the root mean square of the band's filter output and hence never negative.", "quantifier": "all signals, all columns, every libm", "why_tests_cant": "all pairs of signals agreeing on a frame", "anchors": ["visqol-rs/src/gammatone_spectrogram_builder.rs:build", "visqol-rs/src/gammatone_filterbank.rs:apply_filter"]}
{"id": "C32", "title": "Centre frequencies are increasing, bounded by the band limits and match the rows", "statement": "In exact arithmetic the reported centre frequencies are strictly increasing, the first is exactly 50 Hz, all are below the upper limit (min(8000, rate/2) for 21 bands), they are equally spaced on the ERB scale, and row k of the spectrogram is produced by the filter designed for the k-th reported frequency. In f64, with a library whose exponential and logarithm are accurate to 2^-40, a sample rate up to 2^24 and up to 1024 bands, the reported frequencies are finite, still increase strictly and stay below the limit, and frequency f is within 2^-30 * (f + q) of the exact one.", "quantifier": "all sample rates above 100 Hz, all band counts", "why_tests_cant": "all rates and band counts", "anchors": ["visqol-rs/src/equivalent_rectangular_bandwidth.rs:calculate_uniform_center_freqs", "visqol-rs/src/gammatone_spectrogram_builder.rs:build"]}
{"id": "C33", "title": "Biquad filtering is a causal streaming difference equation", "statement": "filter_signal returns one output per input; filtering a signal in two consecutive pieces with the conditions carried over equals filtering it at once, bit for bit; output i depends only on inputs 0..i; in exact arithmetic y satisfies the second-order difference equation with the given coefficients and is linear in the input.", "quantifier": "all signals, split points, coefficients and initial conditions", "why_tests_cant": "all signals and splits", "anchors": ["visqol-rs/src/signal_filter.rs:filter_signal"]}
{"id": "C34", "title": "Gammatone filters have unit gain at their centre frequency", "statement": "In exact arithmetic, the cascade of four second-order filters designed for centre frequency f turns every tone of frequency f, whatever its amplitude and phase, into a tone of the same frequency and amplitude: the output from zero conditions minus that tone tends to 0. The phase shift depends on the filter only.", "quantifier": "all positive sample rates, all centre frequencies >= 0, all amplitudes, phases and signal lengths", "why_tests_cant": "a transfer-function identity for all frequencies", "anchors": ["visqol-rs/src/equivalent_rectangular_bandwidth.rs:make_filters", "visqol-rs/src/gammatone_filterbank.rs:apply_filter"]}
{"id": "C35", "title": "2-D convolution keeps the shape and replicates edges", "statement": "Convolving an r x c matrix (r,c >= 1) with a 3x3 kernel returns an r x c matrix whose (i,j) entry is the weighted sum of the 3x3 neighbourhood with out-of-range coordinates clamped to the border; the kernel is applied flipped and transposed, so the documented 'convolution' holds for symmetric kernels and fails for a non-symmetric one (refuted by a witness).", "quantifier": "all matrices and 3x3 kernels", "why_tests_cant": "all shapes and contents", "anchors": ["visqol-rs/src/convolution_2d.rs:perform_valid_2d_conv_with_boundary", "visqol-rs/src/convolution_2d.rs:add_matrix_boundary"]}
{"id": "C36", "title": "NSIM is symmetric, at most 1, and 1 for identical patches", "statement": "For patches of equal shape swapping reference and degraded leaves band means, standard deviations and similarity unchanged bit for bit; in exact arithmetic every entry of the similarity map, every band mean and the similarity is at most 1, and for identical patches all equal 1 and all standard deviations are 0.", "quantifier": "all pairs of patches of equal shape with at least two columns", "why_tests_cant": "all patches", "anchors": ["visqol-rs/src/neurogram_similiarity_index_measure.rs:measure_patch_similarity"]}
{"id": "C37", "title": "Level matching makes the degraded loudness equal the reference loudness", "statement": "In exact arithmetic, if neither signal is silent, the scaled degraded signal has the same sound pressure level and RMS as the reference, the same length and rate, and is a positive multiple of the degraded signal; consequently the result of level matching does not depend on the gain of the degraded input. In binary64 arithmetic, with a math library whose log10 and powers of ten are accurate to 2^-40, the RMS of the matched signal differs from the RMS of the reference by at most one part in 2^21, for any two recordings of up to 2^30 samples that are not silent (every mono 16-bit file with a nonzero sample qualifies).", "quantifier": "all non-silent signal pairs", "why_tests_cant": "all signals and gains", "anchors": ["visqol-rs/src/audio_utils.rs:scale_to_match_sound_pressure_level"]}
{"id": "C38", "title": "Aggregated band statistics", "statement": "fvnsim is the per-band mean over patches, fvdegenergy likewise, vnsim is the mean of fvnsim; every fstdnsim is non-negative or NaN; in exact arithmetic, when all patches have the same number n of frames, fstdnsim equals the sample standard deviation of the pooled similarity values. In f64, for similarities that are finite and at most 2 in size, the reported band similarities are within 2^-30 of the exact means over up to 2^20 patches, and the overall similarity within 2^-40 of the exact mean over up to 1024 bands.", "quantifier": "all lists of patch results", "why_tests_cant": "all lists", "anchors": ["visqol-rs/src/visqol.rs:calc_per_patch_mean_freq_band_means", "visqol-rs/src/visqol.rs:calc_per_patch_mean_freq_band_std_devs"]}
{"id": "C39", "title": "Result arrays are consistent", "statement": "In every successful result fvnsim, fstdnsim, fvdegenergy and center_freq_bands have NUM_BANDS entries, every patch has NUM_BANDS means, deviations and energies, and there is at least one patch.", "quantifier": "all successful runs", "why_tests_cant": "all runs", "anchors": ["visqol-rs/src/visqol.rs:calculate_similarity", "visqol-rs/src/similarity_result.rs:SimilarityResult"]}
{"id": "C40", "title": "Window and hop sizes are exact for every sample rate", "statement": "For every sample rate (u32) the analysis window has the integer nearest to 0.08*rate samples (0.08 taken exactly) and the hop is a quarter of the window rounded down, in f64 arithmetic.", "quantifier": "all 2^32 sample rates", "why_tests_cant": "2^32 inputs", "anchors": ["visqol-rs/src/analysis_window.rs:new", "visqol-rs/src/gammatone_spectrogram_builder.rs:build"]}
{"id": "C41", "title": "Identical inputs get the best score", "statement": "In exact arithmetic with an exact DFT, comparing two files that hold the same signal (when the run succeeds) gives fvnsim all 1, vnsim 1, fstdnsim all 0, every patch with similarity 1, band means 1 and band deviations 0, and the score that the quality mapping assigns to similarity 1.", "quantifier": "all references for which the run succeeds", "why_tests_cant": "all signals", "anchors": ["visqol-rs/src/visqol_manager.rs:run", "visqol-rs/src/visqol.rs:calculate_similarity"]}
{"id": "C42", "title": "A silent degraded recording never scores above 1 and usually ends the comparison with a panic", "statement": "In f64, for an audible reference and a degraded recording of zeros, level matching multiplies zeros by infinity: every sample becomes NaN, and there is no error value for this case. A comparison that returns nevertheless reports every patch as lost, similarity 0 and score 1. If frame 0 lies in the search window of the first patch (fullband with a search window of at least 1; wideband with a reference of at most 0.6 seconds times the search window, 36 s by default) no result is returned at all. A silent reference instead silences the degraded signal. (Sample rates that are multiples of 50; the Fourier transform is assumed to spread NaN to all its outputs.)", "quantifier": "all audible references and all-zero degraded recordings of up to 2^34 samples, all modes, search windows, managers with any history and math libraries with the usual limits", "why_tests_cant": "ranges over all references, lengths, search windows and histories", "anchors": ["visqol-rs/src/audio_utils.rs:scale_to_match_sound_pressure_level", "visqol-rs/src/comparison_patches_selector.rs:finely_align_and_recreate_patches", "visqol-rs/src/alignment.rs:globally_align", "visqol-rs/src/xcorr.rs:calculate_best_lag"]}
{"id": "C43", "title": "A degraded signal far shorter than the reference crashes the matching", "statement": "If some reference start frame minus the search window exceeds the degraded width, matching panics (index out of range), in both build profiles, even though the surplus patches were supposed to be dropped.", "quantifier": "all such spectrograms and radii", "why_tests_cant": "all sizes", "anchors": ["visqol-rs/src/comparison_patches_selector.rs:find_most_optimal_deg_patch"]}
{"id": "C44", "title": "Batch processing keeps order and is all-or-nothing", "statement": "The command line tool evaluates the pairs in the order of the batch file and prints one score per pair in that order; if any pair fails, the process ends with that first failing pair's error and writes neither JSON nor CSV nor scores.", "quantifier": "all batch files", "why_tests_cant": "all lists and fault positions", "anchors": ["visqol/src/main.rs:run", "visqol/src/main.rs:main", "visqol/src/output_utils.rs:write_results"]}
{"id": "C45", "title": "The debug JSON contains only the last comparison", "statement": "After a successful batch the --output_debug file contains exactly the JSON of the last result (nothing if the batch is empty), and previous contents of the file are lost; the documentation ('Contents will be appended') is refuted.", "quantifier": "all batches and previous file contents", "why_tests_cant": "all batches", "anchors": ["visqol/src/output_utils.rs:write_debug_json", "visqol/src/command_line_utils.rs:output_debug"]}
{"id": "C46", "title": "The results CSV is not in the documented format", "statement": "The results CSV starts with no header and its rows contain neither the reference nor the degraded path: rows depend on the results only; a batch whose results have different numbers of patches makes the tool panic after earlier rows were accepted (documented format refuted).", "quantifier": "all batches", "why_tests_cant": "all batches", "anchors": ["visqol/src/output_utils.rs:write_results_to_csv", "visqol/src/command_line_utils.rs:results_csv"]}
{"id": "C47", "title": "Which files are compared", "statement": "If both --reference_file and --degraded_file are given exactly that pair is compared (even when a batch file is given, contrary to the help text, which is refuted at this level); otherwise the batch file's rows are used in order without its header row; with neither, nothing is compared.", "quantifier": "all argument combinations and batch contents", "why_tests_cant": "all combinations", "anchors": ["visqol/src/command_line_utils.rs:build_file_pair_paths", "visqol/src/command_line_utils.rs:read_files_to_compare"]}
{"id": "C48", "title": "Conditions under which a comparison succeeds", "statement": "In exact arithmetic (with log 0 read as 0, so silence is not excluded), for two files of the same rate, a multiple of 50 Hz, of at most 2^30 samples, a run returns a result (no panic, no error) if the reference has two patches (51 frames fullband; wideband: 44 frames and two patches kept by the activity detector, e.g. some loud frame in the second patch) and the degraded file, less half the reference length, reaches the second patch and comes within the search window of the last one.", "quantifier": "all such signals", "why_tests_cant": "all inputs and all panic sites", "anchors": ["visqol-rs/src/visqol_manager.rs:compute_results", "visqol-rs/src/visqol.rs:calculate_similarity"]}
{"id": "C49", "title": "Complete list of error values of a comparison", "statement": "Every Err returned by run is one of: hound's opening error of one of the two files, InvalidBitsPerSample of a file that is not 16 bit, DifferentSampleRates of two 16-bit files with different rates, FailedToAlignSignals (C59 says when), TooFewSamples with found < minimum_required, or (fullband only) ReferenceSpectrogramTooSmall with fewer than 30 frames and reported minimum 10. The documented SignalsTooDifferent and FailedToComputeVad are never returned.", "quantifier": "all file systems, both variants, all histories, both build profiles", "why_tests_cant": "absence of an error value over all inputs and all internal paths cannot be tested", "anchors": ["visqol-rs/src/visqol_error.rs:VisqolError", "visqol-rs/src/visqol_manager.rs:VisqolManager::run", "visqol-rs/src/visqol.rs:calculate_similarity"]}
{"id": "C50", "title": "Fine alignment looks at the samples of the matched frames, up to rounding and drift", "statement": "The audio segment fine alignment cuts for a patch of fp frames starting at frame r consists, in exact arithmetic, of the samples from r*hop to (r+fp)*hop (zeros past the end of the recording), plus a drift of a quarter sample per frame for each sample by which the 80 ms window exceeds a multiple of four; if the start is past the end of the recording the comparison panics. In binary64 with a window that is a multiple of four the segment starts at sample r*hop or one sample earlier. It is one sample early at 48 kHz for frame 29 (the second patch of every fullband comparison). At 11025 Hz the drift moves the start of the last patches past the end of recordings longer than about five minutes.", "quantifier": "all signals, sample rates up to 2^32, window sizes, frame indices with r*hop <= 2^40, patch lengths and math libraries", "why_tests_cant": "the error depends on the frame index and sample rate; a test sees a few of them, and the panic needs a recording of several minutes at an unusual rate", "anchors": ["visqol-rs/src/comparison_patches_selector.rs:slice", "visqol-rs/src/comparison_patches_selector.rs:finely_align_and_recreate_patches", "visqol-rs/src/visqol.rs:calculate_similarity"]}
{"id": "C51", "title": "Debug and release builds agree unless the debug build panics", "statement": "Whenever a comparison does not panic in a build with overflow checks, a build without them returns the same result or error and leaves the manager in the same state; the same holds for the output of the command line tool. The converse fails: with a huge search radius the debug build panics and the release build uses the radius modulo 2^32 over the patch width (2^30 acts as 0 in fullband).", "quantifier": "all files, managers, histories, options and number arithmetics", "why_tests_cant": "tests run in one profile on chosen inputs; the claim compares two builds on every input", "anchors": ["visqol-rs/src/comparison_patches_selector.rs:find_most_optimal_deg_patches", "visqol-rs/src/visqol_manager.rs:VisqolManager::run", "visqol-rs/src/main.rs:main"]}
{"id": "C52", "title": "The volume of the degraded recording does not matter once it is aligned", "statement": "In exact arithmetic, multiplying the degraded signal by a positive gain changes neither the similarity result nor the state, provided the reference is not silent and the initial alignment finds the same lag (the alignment itself subtracts a fixed 1e-6 from its envelope, so its lag is not covered). Spectrograms are proportional to the signal and do not depend on its polarity.", "quantifier": "all signals, gains, variants and manager states", "why_tests_cant": "all signals and all gains", "anchors": ["visqol-rs/src/visqol.rs:calculate_similarity", "visqol-rs/src/audio_utils.rs:scale_to_match_sound_pressure_level", "visqol-rs/src/gammatone_spectrogram_builder.rs:build"]}
{"id": "C53", "title": "Similarity of patches under rounding: identical patches score 1 up to 2^-17, all scores are finite, but a score can exceed 1", "statement": "In binary64, for patches whose entries are finite and between -128 and 128 dB: comparing a patch with itself gives band means and a similarity that are finite, never above 1 and at least 1 - 2^-17; comparing any two patches of equal shape gives finite band means and a finite similarity. The similarity of a patch with itself is not always exactly 1, and the similarity of two different patches is not always at most 1 (both refuted by concrete patches).", "quantifier": "all patch shapes up to 2^32 rows and columns, all entries in range, all math libraries whose square of 0.01 and 0.03 is roughly right", "why_tests_cant": "a universally quantified rounding error bound; the existing test uses one 3x1 patch with tolerance 1e-4", "anchors": ["visqol-rs/src/neurogram_similiarity_index_measure.rs:measure_patch_similarity", "visqol-rs/src/convolution_2d.rs:perform_valid_2d_conv_with_boundary"]}
{"id": "C54", "title": "Reported numbers stay in their ranges and agree with each other", "statement": "In exact arithmetic, whenever a comparison succeeds, the score is between 1 and 5, the overall similarity, the similarity of every band and that of every patch are between -1 and 1, and no reported deviation or degraded energy is negative. Every patch reports one value per band, its similarity is the mean of its band similarities, and the overall similarity is the mean of the patch similarities. In f64 no reported patch deviation is below zero; for band similarities that are finite and at most 1.5 in size, the similarity of a patch is within 2^-40 of the exact mean of its (up to 1024) bands, and the overall similarity within 2^-29 of the exact mean over up to 2^20 patches.", "quantifier": "every pair of WAV files, manager state, variant, search window radius, quality model and build profile for which the comparison succeeds", "why_tests_cant": "The numbers pass through framing, filters, dynamic programming, lost patches and fine alignment; a test sees a handful of recordings, and a range claim has to hold for every one.", "anchors": ["visqol-rs/src/visqol.rs: calculate_similarity, calc_per_patch_mean_freq_band_means, calc_per_patch_mean_freq_band_std_devs", "visqol-rs/src/comparison_patches_selector.rs: find_most_optimal_deg_patches, finely_align_and_recreate_patches", "visqol-rs/src/neurogram_similiarity_index_measure.rs: measure_patch_similarity", "visqol-rs/src/audio_utils.rs: prepare_spectrograms_for_comparison"]}
{"id": "C55", "title": "A pure delay is found and undone, unless there is an offset", "statement": "In exact arithmetic, if the two recordings hold the same samples y, one followed by k zeros and the other preceded by k zeros, with k at most half the length, then global alignment finds the delay exactly: the zeros in front of a late degraded recording are cut off, an early one gets k zeros in front, and the reported lag is minus or plus k samples. This needs y to have no constant offset and no component at half the sample rate (the latter only if the length is not a power of two), an even transform size, no tiny positive samples below 1e-6 and one sample that is not tiny. With a constant offset the delay is in general not found (refuted by a constant signal). In binary64, with an accurate library (Fourier transform and hypotenuse to 2^-44, binary logarithm to 2^-40), the same holds for recordings of 9 to 2^20 finite samples of magnitude up to 1 with one sample v such that v^2 is at least 2^-28 times the cube of the length, exactly but for the rounding of the reported lag in seconds.", "quantifier": "all samples y, delays k, lengths up to 2^62 (2^20 in binary64), sample rates and build profiles satisfying the conditions; in binary64 all accurate libraries", "why_tests_cant": "the correlation peak has to dominate at every other lag, for every signal and delay; a test checks a few signals", "anchors": ["visqol-rs/src/alignment.rs:globally_align", "visqol-rs/src/xcorr.rs:calculate_best_lag", "visqol-rs/src/envelope.rs:calculate_upper_env"]}
{"id": "C56", "title": "Two channels: order is irrelevant and two equal channels are the mono file", "statement": "Loading a 16-bit stereo file gives exactly the same f64 samples when its two channels are exchanged, and a stereo file whose channels are equal loads bit for bit as the mono file, so every comparison of it gives the same result. With any number c of channels each sample is within (c + 2) 2^-52 of the mean of its frame over 32767. For three channels neither exactness claim holds (refuted by frames of small values). A stereo file whose right channel is the left one with inverted polarity (no sample being -32768) loads bit for bit as a silent mono file.", "quantifier": "all sample values, lengths, sample rates, channel counts up to 65535 and math libraries", "why_tests_cant": "exactness must survive rounding for every one of the 2^32 pairs of sample values and every length; the stereo unit test checks two samples to 0.01", "anchors": ["visqol-rs/src/audio_utils.rs: load_as_mono, extract_multichannel, to_mono_matrix", "visqol-rs/src/wav_reader.rs: WavFile::open", "visqol-rs/src/math_utils.rs: normalize_int16_to_double"]}
{"id": "C57", "title": "Different sample rates are refused on files only", "statement": "run loads both files, refuses different sample rates and otherwise does exactly what compute_results does on the loaded signals. compute_results, which is public, never refuses different rates: it can score two signals whose rates differ, as if they had the same rate, and it can panic on them (both shown by a witness).", "quantifier": "every manager, pair of signals or files, and build profile", "why_tests_cant": "the absence of an error value for every pair of signals cannot be shown by examples", "anchors": ["visqol-rs/src/visqol_manager.rs: run, compute_results, validate_input_audio"]}
{"id": "C58", "title": "A copy of the reference in another volume or polarity gets the best score", "statement": "In exact arithmetic: whatever the degraded file holds, if the global alignment turns it into the reference times a number other than 0 (louder, quieter or inverted) and run succeeds, then every similarity is 1, every deviation is 0 and the score is what the mapping gives for similarity 1. The condition on the alignment is needed: an inverted copy of a signal with an offset, already in place, is moved by a sample (shown by a witness).", "quantifier": "every file pair, gain, sample rate, mode, search window, history of the manager and build profile", "why_tests_cant": "the claim ranges over all signals and gains and over every search path of the patch matching", "anchors": ["visqol-rs/src/visqol_manager.rs: run, compute_results", "visqol-rs/src/alignment.rs: globally_align", "visqol-rs/src/misc_audio.rs: scale_to_match_sound_pressure_level"]}
{"id": "C59", "title": "Lengths alone decide how a comparison ends", "statement": "In exact arithmetic, for two readable recordings at the same multiple of 50 Hz, run fails to align exactly when one of them has no samples. Otherwise, in fullband mode, whether run succeeds, returns an error (and which, with which numbers) or panics is a stated function of the length of the reference, the length of the aligned degraded recording and the search window, independent of the sample values and of what the manager did before: too few samples for one window is an error; fewer than 30 reference frames is an error; 30 to 50 frames panics; a degraded recording too short for the second patch or for the last search panics; everything else succeeds. In wideband mode the same holds with the starts of the patches with voice activity as the only further input: fewer than 44 frames or fewer than two such patches panics. The reference and the degraded recording are not interchangeable: exchanging them can change the outcome.", "quantifier": "every pair of files up to 2^30 samples, rate, search window up to 2^20, model or mapping, history of the manager and build profile", "why_tests_cant": "it is a complete case analysis over all lengths and all sample values, and the boundary cases that panic are spread over the whole range of lengths", "anchors": ["visqol-rs/src/visqol_manager.rs: run, compute_results", "visqol-rs/src/alignment.rs: globally_align", "visqol-rs/src/image_patch_creator.rs: create_ref_patch_indices", "visqol-rs/src/vad_patch_creator.rs: create_ref_patch_indices", "visqol-rs/src/comparison_patches_selector.rs: find_most_optimal_deg_patches"]}
{"id": "C60", "title": "Everything the command line tool writes, in order", "statement": "A successful invocation of the tool writes exactly: the version line; the JSON debug file if it was asked for (the last result only); the CSV results file if it was asked for (one row per pair); then for every pair, in input order, its report. Without --verbose a report is the MOS-LQO line. With --verbose it is the reference path, the degraded path, the MOS-LQO, a table with one row (similarity, centre frequency) for each of the 21 wideband or 32 fullband bands, and a table with one row (number from 0, similarity, reference start and end, degraded start and end) for each patch. If the debug file cannot be written, the tool panics after all comparisons and prints only the version; if the results file cannot be written, it panics after the debug file and prints no score.", "quantifier": "every set of arguments, every content of the disk (recordings, model file, batch file), every number of pairs, every set of unwritable paths, both build profiles, every arithmetic", "why_tests_cant": "The order and the completeness of the output depend on the flags, on the number of pairs and patches and on which paths are writable; tests only exercise a few combinations and capture a few lines.", "anchors": ["visqol/src/main.rs: main", "visqol/src/output_utils.rs: write_results, write_to_console, write_debug_json, write_results_to_csv, write_fvnsim_table, write_patch_similarity"]}
{"id": "C61", "title": "The mapping to a score changes the score only", "statement": "Two managers of the same mode and search window that differ in the mapping to MOS (wideband: scaled or unscaled; fullband: any two models) end a comparison the same way and report the same numbers except for the score, unless a model rejects the band similarities. In exact arithmetic the scaled wideband score is 1.2031409 times the unscaled one whenever the overall similarity is at least 0.15 (both are 1 below); wideband scores are either exactly 1 or lie in (1.211, 4.156) unscaled and (1.456, 5) scaled, so scores between 1 and 1.211 never occur; and two comparisons are ranked by their overall similarity from 0.15 on. In f64, with an accurate exponential and similarities at most 2 in size, a reported wideband score is still exactly 1 or above 1.21 (1.45 when scaled).", "quantifier": "every pair of files, every history of both managers, every model, number of bands, search window and build profile; non-interference for every arithmetic, score relations in exact arithmetic", "why_tests_cant": "it relates two runs for all inputs; a test compares single scores for a few files", "anchors": ["visqol-rs/src/visqol_manager.rs: new, run", "visqol-rs/src/visqol.rs: calculate_similarity, alter_for_similarity_extremes", "visqol-rs/src/speech_similarity_to_quality_mapper.rs: predict_quality", "visqol-rs/src/svr_similarity_to_quality_mapper.rs: predict_quality"]}
{"id": "C62", "title": "A larger search window never finds a worse match", "statement": "If all similarities inside the larger windows are positive, matching the patches with a larger search radius gives as many patches and a total similarity (added in patch order) that is not smaller, in binary64 with all roundings as well as in exact arithmetic.", "quantifier": "every list of reference patches and start frames, every degraded spectrogram, every two radii, math library and build profile", "why_tests_cant": "monotonicity relates two searches over all admissible sequences of start frames", "anchors": ["visqol-rs/src/comparison_patches_selector.rs: find_most_optimal_deg_patches, find_most_optimal_deg_patch, build_degraded_patch", "visqol/src/command_line_utils.rs: search_window_radius"]}
{"id": "C63", "title": "The filters are stable and the spectrogram is bounded by the peak of the signal", "statement": "In exact arithmetic, the output of the four filters of a band is bounded by a constant times the peak of the input, where the constant depends only on the sample rate and the centre frequency, and the output dies out after the input has ended. Consequently every entry of every spectrogram lies between zero and a constant times the peak of the signal, with one constant for all signals of a sample rate.", "quantifier": "every sample rate, centre frequency, input of any length, filter bank state, window, frame and band", "why_tests_cant": "Stability is a statement about inputs of unbounded length: an unstable filter can look right on every short test signal", "anchors": ["visqol-rs/src/equivalent_rectangular_bandwidth.rs: make_filters", "visqol-rs/src/signal_filter.rs: filter_signal", "visqol-rs/src/gammatone_filterbank.rs: apply_filter", "visqol-rs/src/gammatone_spectrogram_builder.rs: build"]}
{"id": "C64", "title": "What a batch file may look like", "statement": "The first row of a batch file is never compared and its text has no influence, so a file without a header row silently loses its first pair and the column names cannot be swapped. Every later row must have as many fields as the first one and be UTF-8; otherwise the tool ends with an error before anything is compared or written, however many good rows precede the bad one. A single-column file and a file that cannot be opened are panics. An empty file, or one with a header only, is a success that prints the version and empties the output files.", "quantifier": "every batch file: any number of rows, any fields, any position of the bad row; every world and every arithmetic", "why_tests_cant": "The outcome depends on the relation between all rows of a file of any length", "anchors": ["visqol/src/command_line_utils.rs: read_files_to_compare", "visqol/src/command_line_utils.rs: build_file_pair_paths", "visqol/src/main.rs: main"]}
{"id": "C65", "title": "What the scores of the shipped fullband model can be", "statement": "With the model file in the repository and in exact arithmetic, no fullband comparison scores more than 4.9, a recording compared with itself scores between 4.731 and 4.733 rather than 5, and the score is not monotone in the band similarities: lowering the similarity of one band below 1 can raise the score.", "quantifier": "every pair of files, every history of the manager, every search radius, every vector of 32 band similarities", "why_tests_cant": "The upper bound is over all of the 32-dimensional space of band similarities, and a test can only sample it", "anchors": ["visqol-rs/src/support_vector_regression_model.rs:predict", "visqol-rs/src/svr_similarity_to_quality_mapper.rs:predict_quality", "visqol-rs/src/visqol.rs:calculate_similarity", "model/libsvm_nu_svr_model.txt"]}
{"id": "C66", "title": "What the tool's output depends on", "statement": "The output of an invocation is a function of the files it is told to read (batch file, model, recordings of the selected pairs) and of whether its output files can be written; nothing but the two output files is ever touched, however it ends; repeating an invocation repeats the output unless an output file is also an input, in which case the input is replaced and the repetition can fail; and a batch succeeds exactly if the tool succeeds on each pair alone, and prints exactly what these runs print.", "quantifier": "every state of the file system, every invocation, every batch, every arithmetic", "why_tests_cant": "It relates all pairs of file systems and all batches, of any length, to their single runs", "anchors": ["visqol/src/main.rs:main", "visqol/src/command_line_utils.rs:build_file_pair_paths", "visqol/src/output_utils.rs:write_results", "visqol-rs/src/visqol_manager.rs:run"]}
{"id": "C67", "title": "Small changes of similarity change the score little, except at 0.15", "statement": "Two wideband comparisons whose mean similarities are both at least 0.15 have scores that differ by at most 17 times (14.1 times without scaling) the difference of these similarities; two fullband comparisons with the shipped model and mean similarities of at least 0.15 differ by at most 12.5 times the summed differences of the band similarities. Across a mean similarity of 0.15 the wideband score jumps by more than 0.456 (0.211), however close the similarities are. In f64, with an accurate exponential and similarities at most 2 in size, the wideband statements hold with an additional 2^-23 (and 18.1 instead of 14.1 unscaled, as f64 similarities may exceed 1), and the jump is at least 0.21 (0.45 when scaled).", "quantifier": "all pairs of comparisons, all recordings, all histories of the manager, in exact arithmetic", "why_tests_cant": "It bounds the difference of the scores of any two comparisons", "anchors": ["visqol-rs/src/speech_similarity_to_quality_mapper.rs:predict_quality", "visqol-rs/src/support_vector_regression_model.rs:predict", "visqol-rs/src/visqol.rs:alter_for_similarity_extremes", "model/libsvm_nu_svr_model.txt"]}
{"id": "C68", "title": "The files written by the tool can be read back", "statement": "After a successful invocation with --output_debug the debug file is a JSON document: one object with exactly the fields moslqo, vnsim, fvnsim, fstdnsim, fvdegenergy, center_freq_bands and patch_sims (objects with the eight fields of a patch) of the last result, in which every finite number stands in decimal and every other number is null. Reading it gives back a result with finite numbers to the last bit; NaN and the infinities become indistinguishable. If nothing was compared the file is empty, which is not a JSON document. The results file reads as one line per result with its numbers separated by commas, also when both options name the same file.", "quantifier": "every invocation, number of bands and patches, all numbers in the results, every printer of numbers whose output is a JSON number that reads back as the number", "why_tests_cant": "the nesting and the number of elements are unbounded and every combination of special values can occur in every field", "anchors": ["visqol/src/output_utils.rs:write_debug_json", "visqol/src/output_utils.rs:write_results_to_csv", "visqol-rs/src/similarity_result.rs:SimilarityResult", "visqol-rs/src/patch_similarity_comparator.rs:PatchSimilarityResult"]}
{"id": "C69", "title": "Which command lines the tool accepts", "statement": "A release build runs a command line exactly if it has a subcommand, the radius (if given) is an unsigned 64-bit number, and --batch_input_csv is not combined with --reference_file or --degraded_file; every other command line ends with a usage message and nothing is written. The arguments of the run are those given, with radius 60 and model ./model/libsvm_nu_svr_model.txt as defaults. Contrary to what the declarations intend, one recording without the other is accepted: nothing is compared, the output files asked for are emptied and the tool reports success. A build with debug assertions panics on every command line, because the requirements name options that do not exist.", "quantifier": "every combination of options and values, every file system", "why_tests_cant": "all combinations of options must be covered, with arbitrary values", "anchors": ["visqol/src/command_line_utils.rs:CommandLineArgs", "visqol/src/command_line_utils.rs:Subcommands", "visqol/src/main.rs:main"]}
{"id": "C70", "title": "A silent reference rates everything as perfect", "statement": "If every sample of the reference recording is zero and the degraded recording is audible somewhere after the first half of the reference's length, then a comparison that returns a result reports the similarity 1 for every patch and every band, the overall similarity 1 and the score given to a perfect copy, whatever the degraded recording contains. So two such comparisons with the same settings always return the same score. The same holds for a stereo reference whose channels are inverted copies of each other, however loud they are.", "quantifier": "every reference of zeros and every audible degraded recording (up to 2^30 samples, sample rate up to 2^20), both modes, every search radius from 1 to 2^20, every earlier use of the manager, every math library with the stated limits and finite filter coefficients", "why_tests_cant": "the claim ranges over all degraded recordings and lengths", "anchors": ["visqol-rs/src/visqol_manager.rs:run", "visqol-rs/src/audio_utils.rs:scale_to_match_sound_pressure_level", "visqol-rs/src/audio_utils.rs:prepare_spectrograms_for_comparison", "visqol-rs/src/neurogram_similiarity_index_measure.rs:measure_patch_similarity", "visqol-rs/src/comparison_patches_selector.rs:find_most_optimal_deg_patches"]}
{"id": "C71", "title": "Reported patches are in order, disjoint and inside the reference", "statement": "In exact arithmetic, if the nominal patch length is a whole number of samples, the patches of a successful comparison are reported in the order of the reference and their intervals in the reference do not overlap. Each interval lasts between half and the whole of the nominal patch duration, and its counterpart in the degraded recording lasts as long (or has both times zero if the patch counts as lost, and then the interval has the nominal duration). If a hop is a whole number of samples, no interval ends after the end of the reference. In fullband mode at least two patches are reported and the k-th interval lies in the k-th of the consecutive stretches of 20 hops that begin at hop 9. In binary64, if a hop is a whole number of samples, the same holds up to four samples: intervals may overlap or end late by at most four samples, may be three samples shorter than half or two longer than the nominal duration, never start before the recording, and the two counterparts last equally long up to 1/64 of a sample.", "quantifier": "every pair of recordings up to 2^32 samples, every sample rate below 2^32 with the stated divisibility, both modes, every search radius, every earlier use of the manager", "why_tests_cant": "the intervals depend on all samples through voice activity, matching and fine alignment; the claim is over all recordings", "anchors": ["visqol-rs/src/comparison_patches_selector.rs: find_most_optimal_deg_patches, finely_align_and_recreate_patches", "visqol-rs/src/patch_similarity_comparator.rs: PatchSimilarityResult", "visqol-rs/src/alignment.rs: align_and_truncate", "visqol-rs/src/image_patch_creator.rs", "visqol-rs/src/vad_patch_creator.rs"]}
{"id": "C72", "title": "In speech mode the sound of the reference is what gets compared", "statement": "Refuted. In speech mode the reference is cut into stretches of 30 hops starting at hop 14, and a stretch is compared if voice activity is found in it. A user relies on that activity being measured where the stretch is. In fact the activity of the stretch at hop 14+30j is measured on 30j to 30j+30 hops after sample 14, about 14 hops (0.28 s) too early. Proved in exact arithmetic for sample rates of a whole number of samples per hop: at least two patches are reported, the k-th lies in the k-th selected stretch, and a stretch is selected exactly if it fits and one of those displaced frames is active (one of the first two of the file, or it or one of the two before it has a root mean square of 5000 relative to a peak of 32768). Consequently sound between hop 60 (plus 14 samples) and hop 74 of an otherwise silent reference is never compared: every reported patch covers zeros only. A concrete recording shows that such comparisons succeed. In binary64 the same stretches are selected (with the samples divided by the peak in binary64), a reported patch lies in its stretch up to four samples, and the same sound is skipped.", "quantifier": "every pair of recordings up to 2^32 samples, every sample rate 50h, every search radius, every earlier use of the manager", "why_tests_cant": "which stretches are selected depends on all samples of the reference; the displacement is invisible for recordings with steady sound, which tests use", "anchors": ["visqol-rs/src/vad_patch_creator.rs: create_ref_patch_indices, get_voice_activity", "visqol-rs/src/rms_vad.rs: get_vad_results, process_chunk", "visqol-rs/src/math_utils.rs: normalize_signal", "visqol-rs/src/visqol.rs: calculate_similarity"]}
{"id": "C73", "title": "Scores do not depend on how loud both recordings are", "statement": "Refuted. A user expects that playing both recordings at a lower volume leaves the rating alone. The tool compares levels above a fixed floor of -45 dB. So for every sample rate and number of bands there is a loudness such that every successful comparison with a quieter reference, whatever the degraded recording contains, reports the similarity 1 in every band and patch, deviation 0, and the score of a perfect copy. In particular any two recordings get that rating when both are turned down far enough by the same factor. A pair of completely different signals shows that such comparisons succeed.", "quantifier": "every sample rate from 102 Hz, every number of bands, every pair of signals (the reference up to 2^30 samples and not all zero), every mode, model, search radius up to 2^20 and earlier use of the manager; in exact arithmetic", "why_tests_cant": "the claim is about every pair of signals and every small enough volume; tests compare recordings at one volume", "anchors": ["visqol-rs/src/audio_utils.rs: prepare_spectrograms_for_comparison, scale_to_match_sound_pressure_level", "visqol-rs/src/visqol_manager.rs: compute_results", "visqol-rs/src/gammatone_spectrogram_builder.rs: build"]}
{"id": "C74", "title": "The example programs give the scores of the command line tool", "statement": "Whatever the two files hold, the example program of the library prints the score the released command line tool prints for them in wideband mode with --search_window_radius 32 (the library's default, not the tool's), and ends with the same error or panic when there is no score. The program in the library's documentation does the same with --use_unscaled_speech_mos_mapping, except that it panics on every error.", "quantifier": "all contents of the two files (missing and unreadable ones included), every arithmetic", "why_tests_cant": "a test compares two programs on a few recordings, not on every recording and every way of failing", "anchors": ["visqol-rs/examples/compute_score_on_speech_file.rs: main", "visqol-rs/src/lib.rs: documentation example", "visqol-rs/src/constants.rs: DEFAULT_WINDOW_SIZE", "visqol/src/main.rs: main", "visqol/src/command_line_utils.rs: CommandLineArgs"]}
{"id": "C75", "title": "Global alignment follows the lag at which the envelopes correlate most", "statement": "For two recordings whose longer length L is at least 9, global alignment moves the degraded recording by the lag in [-(L-1), L-1] at which the two upper envelopes (the closed form of C15) have the largest cross-correlation in magnitude: a negative lag drops samples at its front, a positive one puts zeros there, and the lag over the sample rate is reported; a lag of zero or of more than half of the reference leaves it unchanged and reports 0. In exact arithmetic the lag is the maximiser (the smallest of several with the same correlation). In binary64, with an accurate library and 2 to 2^20 finite samples of magnitude up to 1, where the degraded recording has at least half the samples of the reference, no lag of the exact envelopes beats the one that is followed by more than 2^-29 * L^2; so a lag that leads by more than that is followed.", "quantifier": "all pairs of recordings within the stated lengths, all sample rates and build profiles; in binary64 all finite samples of magnitude up to 1 and all libraries with the stated accuracy", "why_tests_cant": "the lag has to be the best of all lags, for every pair of recordings and every library", "anchors": ["visqol-rs/src/alignment.rs:globally_align", "visqol-rs/src/xcorr.rs:calculate_best_lag", "visqol-rs/src/envelope.rs:calculate_upper_env"]}
{"id": "C76", "title": "Alignment with truncation keeps exactly the overlap at the best lag", "statement": "For two recordings of the same length n (at least 9) and sample rate, align_and_truncate cuts both to the n - |lag| samples where they overlap at the lag chosen as in C75 (sample i + lag of the reference against sample i of the degraded recording) and reports the lag over the rate; both are returned whole with lag 0 if the lag is zero or more than half of n. In exact arithmetic this holds for every pair of recordings. In binary64, with an accurate library and finite samples of magnitude up to 1, it holds up to the rounding of C75, except that for a positive lag the cut may come one sample early: one sample of the reference is then kept in front of the overlap against one zero.", "quantifier": "all pairs of recordings of equal length 9..2^62 and equal rate; in binary64 lengths 9..2^20, rates 1..2^32, finite samples of magnitude up to 1 and all accurate libraries", "why_tests_cant": "every pair of recordings, every lag, every rounding of the lag", "anchors": ["visqol-rs/src/alignment.rs:align_and_truncate", "visqol-rs/src/alignment.rs:globally_align"]}
{"id": "C77", "title": "Every reported similarity was measured on the audio at the reported times", "statement": "In a successful comparison every patch result that is not lost reports a stretch of the reference and a stretch of the degraded recording of the same number of samples. The degraded recording is first moved by the number of samples that the global alignment finds, at most half of the reference's length, and scaled to the loudness of the reference. The reported similarity, band means, deviations and energies are either those of comparing exactly the two reported stretches, each through its own spectrogram, or those of the 20 (30) frames of the whole recordings' spectrograms that start at the reported times. A lost patch has similarity and band means 0. In exact arithmetic, for rates at which a patch is a whole number of samples; a stretch starts at the last sample not after its time, and exactly there if a hop is a whole number of samples. In binary64, if a hop is a whole number of samples: a stretch starts at the sample of its time or one sample earlier, and up to two samples before the reported start may be compared too, as silence in the degraded recording.", "quantifier": "all pairs of files whose comparison succeeds, both modes, all search windows, any history of earlier calls, rates below 2^32 with a patch of a whole number of samples, up to 2^32 samples; exact arithmetic, and binary64 with a hop of a whole number of samples", "why_tests_cant": "every pair of files and every lag found for every patch; wrong times or a comparison of the wrong audio still give plausible numbers", "anchors": ["visqol-rs/src/comparison_patches_selector.rs:finely_align_and_recreate_patches", "visqol-rs/src/comparison_patches_selector.rs:find_most_optimal_deg_patches", "visqol-rs/src/comparison_patches_selector.rs:slice", "visqol-rs/src/visqol.rs:calculate_similarity", "visqol-rs/src/visqol_manager.rs:run"]}
