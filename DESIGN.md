# Formal model of trial.online — design

Source: `breese/trial.online`, pinned tree in `/repo` (read as text, never built).
All file references below are relative to `/repo/include/trial/online/`.

## 1. Shape of the model

* **Arithmetic is a record** `num` (`theories/Arith.v`): carrier, `+ - * /`, `sqrt`, `floor`, `abs`,
  the C++ comparisons as booleans, conversion from `size_t` and from `int`,
  `numeric_limits<T>::epsilon()/min()`, and truncation to `size_t` (partial: `None` = undefined
  behaviour). Every filter is transcribed **once**, function by function, over an arbitrary `num`.
* Instances of `num`:
  * `exact eps` — exact real arithmetic, `Fin r | NonFin`; division by zero and square roots of
    negatives give `NonFin`, comparisons with `NonFin` are false. `eps` is an arbitrary real.
  * `rounded emin prec mode` — every operation rounded in a Flocq `FLT` format (gradual underflow,
    no overflow) under any rounding mode.
  * `b64num` — IEEE binary64, bit exact, from the standard library's `SpecFloat`
    (`SFadd 53 1024`, ...), used for NaN theorems, refutations and conformance with the
    repository's own test vectors.
* `size_t` is `N` with explicit wrap modulo 2^64 (`szadd`, `szsub`, `szmul`).
* Integer `value_type`s follow different C++ rules (promotion, truncation, signed overflow is UB) and
  get their own model (`IntMoments.v`) over `Z` with an explicit `option` for UB.
* A **history** is a list of `Push x | Clear`; theorems quantify over all histories. The
  specification side only sees `since_clear ops`, the list of values pushed after the last clear,
  and textbook definitions (`SpecStats.v`: mean, central sums, covariance, order statistics, ...).
* Random draws (reservoir) are explicit oracle arguments; theorems quantify over all of them or
  count them.
* Object identity (interim quantile copies) is modelled with an explicit heap of objects.

Layers of theorem: (A) for *any* arithmetic, (B) functional correctness over exact reals,
(C) rounded arithmetic (Flocq), (D) binary64, (E) integers.

A property that is false of the code is kept in full, refuted by a theorem named `..._refuted`
(a concrete witness history), and accompanied by the strongest correct part, named `..._partial`.

## 2. Property by property

| id | modelled | method |
|----|----------|--------|
| C01 | cumulative moment, all four levels | B: invariant `count = n`, `mean = avg` by induction over history |
| C02 | same | B: invariant `sum.variance = M2` (two-pass definition) |
| C03 | same | B: invariant `sum.skewness = M3`; `_partial` for `M3 >= eps`; `_refuted` for left-skewed data |
| C04 | same, with size_t wrap | B: invariant `sum.kurtosis = M4` up to 2^32 pushes; `_refuted` by wrap and by eps cut-off |
| C05 | same | B: from C03/C04 plus `M3 = 0` for two values |
| C06, C07 | cumulative covariance | B: invariant co-moment sum; algebra on the two-pass definition |
| C08 | cumulative correlation | B: Cauchy–Schwarz; `_refuted` at small scale |
| C09 | cumulative regression | B: normal equations, completing the square |
| C10 | trend | B: closed form by induction |
| C11 | cumulative filters | B: two-pass definitions are permutation invariant; D: refuted for binary64, with a bound on the difference (`ClaimsNearly.v`) |
| C12, C13 | cumulative/window over rounded arithmetic | C: monotonicity of rounding, exactness lemmas; D: interim and decay refuted by computation |
| C14 | cumulative filters | A: state equality after clear |
| C15, C16 | window moments over abstract ring buffer | B: invariants `sum = Σ`, `scaled variance = M2` over window |
| C17 | window moments | A/D: `std::max(0,·)` analysed on all binary64 values |
| C18, C19 | window covariance/regression | B |
| C20 | window filters | A |
| C21 | window mean on binary64 | D: `_refuted` (residue of a transient); NaN part universal |
| C22 | integer window mean | E: `_refuted` (drift unbounded, by induction on cycles) |
| C23 | interim filters | A: state = two block folds |
| C24–C28 | interim statistics | B: from block results and weights |
| C29 | interim clear | A for moments/covariance/quantile; `_refuted` for regression |
| C30 | integer interim mean | E: `_refuted` (unsigned promotion) |
| C31, C32 | decay moments | B: closed forms by induction |
| C33 | decay clear | A for the mean; `_refuted` for variance and above |
| C34–C37 | P² estimator | A/B: invariants of markers |
| C38 | P² linear step | B: reference P² step; `_refuted`; `_partial` for all other steps |
| C39 | ratio lookup | `_refuted` for unsorted lists; `_partial` for sorted |
| C40 | P² | B: simulation relation between two runs |
| C41 | parameters() | `_refuted`; `_partial` for what is preserved; positions pass through the value type (`psq_assign`), a short list or an unrepresentable position is undefined behaviour (`None`) |
| C42 | P² clear | A |
| C43, C44 | interim quantile with explicit heap and pointers | A; `_refuted` for copies |
| C45, C46 | FIR | A/B; `_refuted` for clear |
| C47 | IIR | A/B |
| C48 | reservoir, oracle draws | A: invariant |
| C49 | reservoir | counting all draw sequences (finite, uniform) by induction |
| C50 | reservoir | `_refuted` |
| C51 | reservoir | `_refuted` |
| C52–C55 | circular_span | A: refinement to a bounded list; `_refuted` for push_front |
| C56 | push_iterator | A: for any filter |
| C57 | close_to | B and D |
| C58 | integer cumulative mean | E: hull proved; `_refuted` for UB and for accuracy |
| C59 | NaN | D: universal absorption, recovery |
| C60 | circular_span constructor with contents | `_refuted`; `_partial` when the first element is at offset 0 |
| C61 | variance after NaN | D; `_refuted` for the window variance |
| C62–C64 | integer FIR, variance, covariance, unbiased mean | E: C++ promotion and conversion rules, UB as `None` |
| C65, C70 | cumulative mean, variance, covariance | C/D: error invariants over an arithmetic with bounded errors (`Approx.v`) |
| C66, C71 | window mean, variance | C/D: drift linear in the number of pushes |
| C67, C69, C72 | decay and IIR | C/D: geometric bound, independent of the number of pushes |
| C68 | FIR | C/D |
| C73 | integer filters | E: exact while every running mean is an integer |
| C74 | P-square order and range | C/D: `PsquareFloat.v` (one marker step), `PsquareOrdered.v` (invariant), over any correctly rounded arithmetic (`CorrectRounding.v`) |
| C75 | P-square with few values | C/D `_partial` (ranks away from integers); `_refuted` for ratio 1/49, ratios next to 1 and overflow |
| C76 | moment::exponential, moment::arithmetic | B and D: sensitivity of the weighted mean to the factor (`DecaySensitivity.v`) on top of C67 |
| C77 | Change of unit | A, instances B and rounding with unbounded exponents: a relation "c times" between two arithmetics is preserved by every filter (`Scaling.v`), `ScalingInst.v` gives the arithmetics; the cut-offs of skewness, kurtosis and correlation break it (refuted) |
| C78 | Change of sign on double | A and D: the same relation for the factor -1 over all doubles |
| C79 | Range comparison of the test header | loop invariant over both ranges; Boost's error counter is an assumption of the model (`errors()` returns a reference, not incremented by the call) |
| C80 | Filters for more moments agree with those for fewer | A: homomorphisms between filters carry over to histories (`ClaimsAgreement.v`) |
| C81 | Window and interim agree with cumulative until full | A: induction over the values since the last clear |
| C82 | Filters with too few values | D and E: the state after a clear is the initial one; cumulative and interim variance are NaN over double and undefined (division by zero) over integers (refuted) |
| C83 | Change of origin | B: relation between the states of the two runs, kept by push and clear; refuted for unbiased_mean() and, over D, for the variance; bounded in D by C65 and C70 |
| C84 | `example/regression/*.cpp`, input at the level of records | B: induction over the records, then C09 and C19; the record loop tests the stream before reading, so the last record counts twice (refuted) |
| C85 | Monotonicity | B for the means and few-value quantiles, from C01, C15, C24, C31, C34 and monotone specifications; any monotone rounding for impulse filters, by a relation between the two runs; last value in C; refuted in D for the means and for P-square; bounded in D for the mean by C65 |
| C86 | `impulse/detail/infinite.ipp` over integers | E: invariant over the history relates the two circular buffers to the difference equation with truncating division; refuted when the sums overflow and for unsigned types |
| C87 | Integer smoother and a constant input | E: monotone approach and dead band of width k−1 by induction; the exact settling is refuted |
| C88 | Accuracy of the interim filters | C and D: each block is a cumulative filter (C65, C70), then error of the weighted average of two blocks; skewness and kurtosis through the bounds of C94 for each block |
| C89 | Sign of decay variance and kurtosis, interim variance | C and D: invariant over the history; one blending step keeps the sign because rounding is monotone and the sum is representable (`SignProofs.v`) |
| C90 | Range of window, interim and decay means in double | D: refuted by computation; within the error bounds of C66, C67, C88 otherwise |
| C91 | Forgetting of decay and stable recursive filters | B: split of the exponential weights, contraction of the difference equation; D: with the error bounds of C67 and C69 |
| C92 | Accuracy of cumulative regression | C, D: error propagation through division, subtraction and product on top of C65 and C70 |
| C93 | Accuracy of cumulative correlation | C, D: the same with the product of the variances and its square root |
| C94 | Accuracy of cumulative skewness and kurtosis | D: forward error analysis of the recurrences for the third and fourth central sum in units of the last operation, then quotient with relative errors |
| C95 | Infinities and NaN in the data show in the results | D: invariant "the mean (or the last output) is not finite" under any further push; exceptions refuted with witnesses |
| C96 | Accuracy of window covariance and of window and interim regression | C, D: error of the running co-moment per push, added up over the history; quotient by a variance that exceeds its error; interim blocks through the bounds of C93 for each block |
| C97 | Reported statistics satisfy the classical inequalities | B: Bhatia-Davis/Popoviciu, Samuelson, Chebyshev, Pearson and Cauchy-Schwarz inequalities for lists, through the closed forms of C01-C09, C15-C16, C25-C27, C32; D (every IEEE format): with the error bounds of C110 (`ClaimsFormatsRobust.v`) |
| C98 | Interim quantile estimates in floating point | D: C43 and C74 per half window, then error and monotonicity of the rounded combination; `ClaimsFormatsInterimQuantile.v` for every IEEE format |
| C99 | Accuracy of the trend | C, D: C65 for the mean and for the mean of the computed running means, then three more operations (`AccuracyTrend.v`) |
| C100 | Expected values: which statistics are unbiased estimators | B: expectation over the product of finite distributions as a linear functional (`SpecExpectation.v`), applied to the closed forms of C01, C02, C06-C08, C15-C18, C25, C36 |
| C101 | Response of the linear filters to sinusoids | B: the settled sinusoid solves the difference equation; the distance to it contracts as in C91 (`SpecFrequency.v`, `FrequencyProofs.v`) |
| C102 | Interim statistics approximate those of the sliding window | B: both means as sums over three parts of the last 2W values (`InterimWindow.v`), from C15, C16, C24, C25; the bounds are attained by streams of zeros and ones |
| C103 | Small errors in the data cause small errors in the results | B: positive linear functionals on pairs of samples, Cauchy-Schwarz and Minkowski (`SensitivityProofs.v`); filters through linearity; refuted for P-square with more values than markers (layer D); D (every IEEE format): means and deviation with the error bounds of C110 (`ClaimsFormatsRobust.v`) |
| C104 | Reading a quantile estimate never reads outside the stored values | C, D: bounds on the rounded rank (`PsquareFew.v`) for ratios up to 1 - 2^(3-precision), any values; refuted for ratios closer to 1 and for ratio 1 (layers B, D) |
| C105 | Averaging reduces noise by a known factor | B: variance of linear statistics of independent observations by induction over the observations (`NoiseProofs.v`), weights of each filter, Chebyshev's inequality |
| C106 | What the variances of interim and decay filters estimate | B: expected squared deviation of each observation from the running weighted mean, weighted mean of a converging sequence (`ClaimsBias.v`) |
| C107 | How the filters follow a jump and a ramp | B: closed forms of the (weighted) means of a constant tail and of data on a line, for histories with clear() (`ClaimsLag.v`) |
| C108 | Decay skewness and kurtosis do not accumulate rounding errors | D: error calculus over the recursive averages (`AccuracyDecayHigher.v`), instantiated to binary64 (`ClaimsDecayHigher.v`) and float (`ClaimsFloatDecay.v`) |
| C109 | Which quantile a ratio type selects | A: the compile-time selection with types as written (`PsquareTypes.v`), stability of the sort, position of the first occurrence; refuted for negative ratios and for another notation (`ClaimsPsquareTypes.v`) |
| C110 | Accuracy in float and every IEEE value type | D for every format: `ieee prec emax` (`Ieee.v`), operations related to rounded reals through Flocq (`IeeeProofs.v`), the error analyses of C65-C72, C88, C92, C93, C96 and C99 instantiated (`ClaimsFormats.v`, `ClaimsFormatsMore.v`, `ClaimsFormatsCorrelation.v`, `ClaimsFormatsInterim.v`) |
| C111 | A cumulative filter follows an arbitrarily long stream | D for every format: refuted; after 2^(p+2) ones the mean stays 1 for ever, the sum of squares stops at 2^p (`StallProofs.v`, `ClaimsStall.v`) |
| C112 | The median estimate follows an arbitrarily long stream | D for every format: refuted; after 2^(p+4) zeros the desired position of the median marker is stuck at 2^(p-1) and ones no longer move it (`PsquareStall.v`, `ClaimsPsquareStall.v`) |
| C113 | restored estimator continued | invariants of the push loop from the restored state; `_refuted` for states saved too early |
| C114 | positions follow the quantiles | two-sided bounds on desired minus actual position, carried through the adjustment loop from one marker to the next; a marker that cannot move is next to a neighbour that is within its own bound |
| C115 | rising and falling values | invariant: every marker lies on the line through (rank, value), on which the parabolic step is exact; distance from C114 |
| C116 | one outlier | sorted list with one foreign element for up to five values; `_refuted` for six values with a symbolic outlier, and for any number of zeros by the invariant that the second marker stays strictly above the minimum, scaled with C40 |
| C117 | pooling, residuals | C01-C08 and power sums about a shifted centre |
| C118 | Skewness of float and long double | D: `mixed prec emax` (`Mixed.v`) adds the conversions to and from double to `ieee prec emax`; the error analysis of C94 for the mixed operations |
| C119 | Filters in series | B: convolution is polynomial multiplication; both orders satisfy the same recurrence |
| C120 | Filters that agree, superposition | B: both outputs in closed form; D: sum of the bounds C66 and C68 and the rounding of 1/W |
| C121 | Kurtosis of float | D: the error analysis of C94 for `ieee 24 128` (C118 shows that no other type takes part) |
| C122 | Sign, order and range in every format | D: `IeeeSign.v`, `IeeeDecaySign.v` and `IeeeInterimSign.v` redo `Binary64Cumulative`, `CorrectRounding`, `ConstantProofs` and `SignProofs` for `ieee prec emax`; the P-square proofs of C74 and C104 only use correct rounding; range of the means from C110 (`ClaimsFormatsInterim.v`) |
| C123 | Fused multiply-add | C: `Contracted.v` models the push functions with every product fused; `ContractedProofs.v` shows them equal to the plain ones over an arithmetic with exact products, which satisfies the error interface of `Approx.v`. D: sign and range over the computable fused operation of `IeeeFused.v`; the error bounds of C110 for the same through `IeeeDeferred.v`, an arithmetic that keeps a product as its two factors until it is added, over which the plain functions are the fused ones; the window covariance, where one of two subtracted products is fused, in `ContractedWindow.v` and `ContractedWindowProofs.v`; slope(), at() and the correlation, in every IEEE format, from the moments in `ContractedRegression.v`; the interim filters in `ContractedInterim.v` and `ContractedInterimProofs.v`; skewness and kurtosis of the cumulative filter in `ContractedHigher.v` and `ContractedHigherProofs.v`, of the decay filter in `ContractedDecayHigher.v` and `ContractedDecayHigherProofs.v` |
| C124 | Fused multiply-add, P-square | C: `ContractedPsquare.v` models parabolic(), push() and get() with fused products; `ContractedStep.v` redoes the step analysis of `PsquareFloat.v` with any of the three products unrounded, `ContractedPsquareRuns.v` the invariants for any compiled form of parabolic(). D: the same over the computable fused operation of `IeeeFused.v`, which `IeeeFusedProofs.v` proves to round once |

## 3. Not modelled

* `trial::circular::array/vector` (external dependency, not in the repository): assumed to be a bounded
  deque whose `push_back` drops the front element when full.
* Template metaprogramming: the selection of a quantile by ratio type (`mp_sort`, `mp_find`, the `static_assert` on the
  index) is modelled in `PsquareTypes.v`, assuming that `mp_sort` is stable (as in Boost) and that two `std::ratio` types
  are the same when written with the same numbers; `Psquare.v` takes ratios as rationals in lowest terms, which
  C109_lowest_terms justifies. `is_ratio` and the other `static_assert`s are not modelled.
* The quality of the C++ random engines; draws are oracles within the documented ranges.
* Benchmarks and build files; of the examples the text of input and output (malformed records); of `lightweight_test.hpp` the text of the messages, and Boost's own test library.
* Extended precision and `-ffast-math`: the model assumes one IEEE operation of T
  per source operation. Fused multiply-adds are modelled for the functions in `Contracted.v`, `ContractedWindow.v`, `ContractedRegression.v`, `ContractedInterim.v`, `ContractedHigher.v`, `ContractedDecayHigher.v` and `ContractedPsquare.v` only (C123, C124), all products fused or none (in parabolic(), the window covariance, the interim filters, skewness and kurtosis either of the two that compete). Claims of layer D take `T = double` unless they quantify over the format (C110-C112; `ieee prec emax`
  of `Ieee.v`, of which `b64num` is the instance 53, 1024). There `std::sqrt` of a count is
  taken in T; `Mixed.v` models that it is a double (C118), for the cumulative skewness of value types other than double.

### Files

* Models (every definition cites its source lines): `Arith`, `Mixed`, `Contracted`, `ContractedWindow`, `ContractedRegression`, `ContractedInterim`, `ContractedHigher`, `ContractedDecayHigher`, `ContractedPsquare`, `IeeeFused`, `Buffer`, `Cumulative`, `Window`, `Interim`, `Decay`, `Deprecated`,
  `Psquare`, `PsquareTypes`, `InterimPsquare`, `Impulse`, `CircularSpan`, `Reservoir`, `PushIterator`, `CloseTo`, `LightweightTest`, `CInt`, `IntMoments`, `IntInfinite`, `ExampleRegression` (line numbers of `/repo/example/regression/cumulative.cpp`).
* Specifications, which do not import a model: `Spec*.v`, `History.v`, `Rounded.v`, `Approx.v`.
* Proofs: `*Lemmas`, `*Proofs`, `*Runs`, `*Stats`, `*Exact`; `Claims*.v` state each claim with its concrete case,
  `Properties*.v` (generated by `tools/mkprops.py`) hold the final theorems and `Print Assumptions`.
* Conformance: `Conformance*.v` run the repository's unit tests (`/repo/test/**_suite.cpp`) on the binary64 (and
  binary32) model by computation. They are tests of the transcription, not proofs.
* `seeded/LOG.jsonl`: wrong programs the theorems were tried against.

## 4. Trusted base

The Coq 8.16.1 kernel; the axioms printed by `Print Assumptions` under each theorem (listed in section 5);
the transcription of the C++ into the model (each definition cites its lines); the items of section 3.

## 5. Assumptions per theorem

What `Print Assumptions` prints under each theorem of the `Properties*.v` files, grouped by the set of
axioms; all of them are axioms of the Coq standard library. Generated by `tools/mkassumptions.py`.

* **no axioms (closed under the global context)** — C08_correlation_binary64_refuted, C103_psquare_refuted, C104_near_one_refuted, C109_above_one_rejected, C109_by_type, C109_default, C109_lowest_terms, C109_negative_refuted, C109_notation, C109_same_ratio_refuted, C110_double, C113_defined, C113_extremes, C113_refuted, C118_others, C11_order_irrelevant_refuted, C122_window_variance, C124_cross_statement_double, C13_decay_refuted, C13_interim_refuted, C13_window_covariance_refuted, C14_cumulative_clear, C17_window_variance_nonneg_binary64, C20_window_bookkeeping, C21_window_forgets_refuted, C21_window_nan_sticks, C22_drift_partial, C22_drift_refuted, C23_interim_bookkeeping, C29_interim_clear_partial, C29_interim_clear_refuted, C29_interim_quantile, C30_negative_refuted, C30_nonnegative_partial, C33_decay_clear_refuted, C35_positions, C35_steps, C36_extremes, C39_default, C39_value_by_ratio_partial, C39_value_by_ratio_refuted, C41_equality_refuted, C41_restore_partial, C41_restore_refuted, C41_restore_state, C42_bookkeeping, C43_interim_quantile, C43_value, C44_copies_partial, C44_copies_refuted, C45_fir_bookkeeping, C45_fir_memory, C45_fir_order, C46_fir_clear_partial, C46_fir_clear_refuted, C47_iir_clear, C47_iir_order, C48_reservoir_push, C48_reservoir_sample, C49_reservoir_inclusion, C49_reservoir_uniform, C50_fair_refuted, C50_skipping_partial, C50_switch_certain, C51_decisions_partial, C51_reservoir_clear_partial, C51_reservoir_clear_refuted, C52_span_fifo, C53_push_front_lost, C53_push_front_partial, C53_push_front_refuted, C54_iteration_partial, C54_iteration_refuted, C54_iteration_terminates, C55_clear_storage, C55_span_memory, C56_copy, C56_copy_if, C56_interleaved, C56_null, C56_postfix, C56_transform, C57_never_close, C57_symmetric, C58_accuracy_refuted, C58_count_ub, C58_hull_refuted, C58_mean_partial, C58_no_ub_refuted, C59_cumulative_nan, C59_fir_nan, C59_iir_nan, C59_interim_nan, C59_interim_recovers, C59_window_nan, C60_initial_contents_partial, C60_initial_contents_refuted, C61_cumulative_variance_nan, C61_window_variance_refuted, C61_window_variance_zero, C62_fir_clear, C62_fir_defined_partial, C62_fir_exact, C62_fir_modular, C62_int_refuted, C62_uint16_refuted, C63_covariance_refuted, C63_int8_refuted, C63_variance_nonnegative_partial, C64_unbiased_mean_partial, C64_unbiased_mean_refuted, C73_covariance, C73_mean, C73_variance, C73_window_mean, C73_window_variance, C75_overflow_refuted, C75_weight_refuted, C77_decimal_refuted, C78_skewness_refuted, C79_counted_refuted, C79_report, C79_single, C79_verdict, C80_cumulative, C80_others, C80_pairs, C81_interim, C81_window, C82_empty, C82_empty_refuted, C82_integer, C82_integer_refuted, C83_double_refuted, C84_extra, C84_no_records, C85_mean_refuted, C85_psquare_refuted, C86_clear, C86_int_refuted, C86_response, C86_unique, C86_unsigned_refuted, C86_zero_scale, C87_settle_partial, C87_settle_refuted, C90_refuted, C95_cumulative, C95_impulse, C95_interim, C95_mean_settles, C95_overflow_refuted, C95_pairs, C95_skewness_partial, C95_skewness_refuted, C95_trend, C95_window, C95_window_slope_refuted.
* `ClassicalDedekindReals.sig_forall_dec`, `FunctionalExtensionality.functional_extensionality_dep` — C116_double_many_refuted, C116_double_refuted, C38_threshold_refuted, C57_accept_refuted, C76_large_refuted, C78_cumulative, C78_decay, C78_impulse, C78_interim, C78_pairs, C78_window, C98_tolerance_needed.
* `ClassicalDedekindReals.sig_forall_dec`, `ClassicalDedekindReals.sig_not_dec`, `FunctionalExtensionality.functional_extensionality_dep` — C01_cumulative_mean, C02_cumulative_variance, C03_cumulative_skewness_partial, C03_cumulative_skewness_refuted, C04_cumulative_kurtosis_partial, C04_cumulative_kurtosis_refuted, C05_bias_corrected_partial, C05_bias_corrected_refuted, C06_cumulative_covariance, C07_covariance_algebra, C08_correlation_partial, C08_correlation_refuted, C09_cumulative_regression, C100_covariance, C100_mean, C100_mean_error, C100_regression, C100_unbiased_mean_refuted, C100_unbiased_skewness_refuted, C100_variance, C101_fir, C101_window_mean, C102_mean, C102_mean_line, C102_mean_sharp, C102_variance, C102_variance_line, C102_variance_sharp, C103_covariance, C103_deviation, C103_few_values, C103_impulse, C103_means, C103_means_sharp, C103_slope, C104_ratio_one, C105_chance, C105_decay_span, C105_fir, C105_means, C105_regression, C106_decay, C106_decay_limit, C106_decay_low, C106_interim, C107_jump, C107_ramp, C10_trend, C114_exact, C114_fraction, C114_median_exact, C115_estimate, C115_median, C115_ranks, C116_any_number_refuted, C116_few_partial, C116_refuted, C117_covariance, C117_higher, C117_mean_variance, C117_residuals, C119_finite, C119_order, C11_order_irrelevant_partial, C120_decay_mean, C120_regression, C120_superposition, C120_window_mean, C15_window_mean, C16_window_variance, C18_window_covariance, C19_window_regression, C21_window_forgets_partial, C24_interim_mean, C25_interim_variance, C26_interim_skewness_kurtosis, C27_interim_covariance, C28_interim_regression_collinear, C31_decay_mean, C32_decay_moments, C33_decay_clear_partial, C34_few_observations, C37_ordered, C38_published_algorithm_partial, C38_published_algorithm_refuted, C39_value_few, C40_affine, C41_restore_even_partial, C43_interim_quantile_range, C45_fir_bounded, C45_fir_convolution, C45_fir_delay, C45_fir_impulse_response, C45_fir_linear, C47_iir_difference_equation, C47_iir_linear, C57_exact, C76_arithmetic, C76_exponential, C83_cumulative, C83_decay, C83_interim, C83_pairs, C83_psquare, C83_unbiased_mean_refuted, C83_window, C84_rows_partial, C84_rows_refuted, C85_few_values, C85_impulse, C85_mean, C91_decay_mean, C91_decay_variance, C91_fir_settles, C91_iir, C91_iir_settles, C97_cumulative, C97_decay, C97_interim, C97_kurtosis, C97_pairs, C97_window.
* `ClassicalDedekindReals.sig_forall_dec`, `ClassicalDedekindReals.sig_not_dec`, `Classical_Prop.classic`, `FunctionalExtensionality.functional_extensionality_dep` — C101_decay_mean, C101_iir, C103_ieee_decay_mean, C103_ieee_mean, C103_ieee_window_mean, C104_safe_binary64_partial, C104_safe_rounded_partial, C108_kurtosis_binary64, C108_kurtosis_float, C108_skewness_binary64, C108_skewness_float, C110_at, C110_correlation, C110_covariance, C110_decay_mean, C110_decay_variance, C110_fir, C110_iir, C110_interim_covariance, C110_interim_mean, C110_interim_variance, C110_mean, C110_slope, C110_trend, C110_variance, C110_window_covariance, C110_window_mean, C110_window_variance, C111_mean_refuted, C111_mean_stalls, C111_variance_refuted, C112_median_refuted, C112_median_stalls, C113_ordered, C114_formats, C114_median_formats, C118_float_partial, C118_unbiased_partial, C118_wide_refuted, C11_binary64, C120_window_mean_binary64, C121_kurtosis, C121_unbiased, C122_constant, C122_decay, C122_decay_mean, C122_interim, C122_interim_mean, C122_mean_variance, C122_psquare_order, C122_psquare_range, C122_psquare_safe, C122_window_mean, C123_covariance, C123_decay_kurtosis, C123_decay_kurtosis_float, C123_decay_mean, C123_decay_sign, C123_decay_skewness, C123_decay_skewness_float, C123_decay_variance, C123_finite, C123_ieee_at, C123_ieee_correlation, C123_ieee_covariance, C123_ieee_decay_mean, C123_ieee_decay_variance, C123_ieee_fir, C123_ieee_iir, C123_ieee_interim_covariance, C123_ieee_interim_mean, C123_ieee_interim_variance, C123_ieee_slope, C123_ieee_variance, C123_ieee_window_covariance, C123_ieee_window_variance, C123_infinite, C123_kurtosis, C123_kurtosis_float, C123_skewness, C123_unbiased_kurtosis, C123_unbiased_skewness, C123_variance, C123_variance_sign, C123_variance_sign_formats, C123_visible, C123_window_covariance, C123_window_variance, C124_cross_statement, C124_estimates_order, C124_estimates_order_formats, C124_order, C124_order_formats, C124_range, C124_range_formats, C12_binary64, C12_rounded, C13_binary64, C13_covariance, C13_cumulative, C13_window, C39_ratio_binary64, C41_equality, C41_equality_restored, C41_restore_double, C41_restore_float_refuted, C41_restore_formats, C57_accept_partial, C57_apart, C57_default, C57_equal, C59_decay_nan, C61_decay_variance_nan, C65_binary64, C65_rounded, C66_binary64, C66_rounded, C67_binary64, C67_rounded, C68_binary64, C68_rounded, C69_binary64, C69_rounded, C70_binary64, C70_covariance_binary64, C70_covariance_rounded, C70_rounded, C71_binary64, C71_rounded, C72_binary64, C72_rounded, C74_order_binary64, C74_order_rounded, C74_range_binary64, C74_range_rounded, C75_few_binary64_partial, C75_few_rounded_partial, C75_ratio_refuted, C76_accuracy_binary64, C76_assertion, C76_large_partial, C77_cumulative, C77_cutoff_refuted, C77_decay, C77_impulse, C77_interim, C77_magnified, C77_pairs, C77_psquare, C77_window, C83_binary64, C85_binary64, C85_last, C88_covariance_binary64, C88_kurtosis_binary64, C88_mean_binary64, C88_mean_rounded, C88_skewness_binary64, C88_variance_binary64, C89_decay_binary64, C89_decay_rounded, C89_interim_binary64, C90_decay_partial, C90_interim_partial, C90_window_partial, C91_decay_binary64, C91_iir_binary64, C92_at_binary64, C92_slope_binary64, C93_binary64, C94_kurtosis_any_binary64, C94_kurtosis_binary64, C94_skewness_any_binary64, C94_skewness_binary64, C94_skewness_zero, C94_unbiased_kurtosis_binary64, C94_unbiased_skewness_binary64, C95_decay, C95_decay_hidden, C96_at_binary64, C96_covariance_binary64, C96_interim_at_binary64, C96_interim_slope_binary64, C96_slope_binary64, C97_ieee, C98_order_binary64, C98_order_formats, C98_range_binary64, C98_range_formats, C99_binary64, C99_rounded.
