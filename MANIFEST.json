{
 "claims": [
  {
   "property": "C01",
   "status": "proved",
   "theorems": [
    "C01_cumulative_mean"
   ],
   "note": ""
  },
  {
   "property": "C02",
   "status": "proved",
   "theorems": [
    "C02_cumulative_variance"
   ],
   "note": ""
  },
  {
   "property": "C03",
   "status": "partial",
   "theorems": [
    "C03_cumulative_skewness_partial",
    "C03_cumulative_skewness_refuted"
   ],
   "note": "Full property is false of the code: skewness() returns 0 whenever the third central sum is below epsilon, hence for all left-skewed data (cumulative/detail/moment.ipp:108). Proved: exact value otherwise. The error in double is bounded in C94."
  },
  {
   "property": "C04",
   "status": "partial",
   "theorems": [
    "C04_cumulative_kurtosis_partial",
    "C04_cumulative_kurtosis_refuted"
   ],
   "note": "Full property is false: n*(n-3)+3 wraps in size_t beyond 2^32+1 values (moment.ipp:179) and small-scale data hit the epsilon cut-off (moment.ipp:153). Proved: exact value otherwise. The error in double is bounded in C94."
  },
  {
   "property": "C05",
   "status": "partial",
   "theorems": [
    "C05_bias_corrected_partial",
    "C05_bias_corrected_refuted"
   ],
   "note": "Full property is false beyond 2^32 values (count*(count-1) wraps, moment.ipp:122). Proved below that, including absence of division by zero."
  },
  {
   "property": "C06",
   "status": "proved",
   "theorems": [
    "C06_cumulative_covariance"
   ],
   "note": ""
  },
  {
   "property": "C07",
   "status": "proved",
   "theorems": [
    "C07_covariance_algebra"
   ],
   "note": ""
  },
  {
   "property": "C08",
   "status": "partial",
   "theorems": [
    "C08_correlation_partial",
    "C08_correlation_refuted",
    "C08_correlation_binary64_refuted"
   ],
   "note": "Full property is false: epsilon cut-off returns +1 for small-scale anti-correlated data (correlation.ipp:47), and binary64 rounding can exceed 1 (by a bounded amount, C93). Proved: range and Pearson value in exact arithmetic above the cut-off."
  },
  {
   "property": "C09",
   "status": "proved",
   "theorems": [
    "C09_cumulative_regression"
   ],
   "note": ""
  },
  {
   "property": "C10",
   "status": "proved",
   "theorems": [
    "C10_trend"
   ],
   "note": ""
  },
  {
   "property": "C11",
   "status": "partial",
   "theorems": [
    "C11_order_irrelevant_partial",
    "C11_order_irrelevant_refuted",
    "C11_binary64"
   ],
   "note": "Proved in exact arithmetic; false in binary64 (witness), where the difference between two orders is bounded (C11_binary64)."
  },
  {
   "property": "C12",
   "status": "proved",
   "theorems": [
    "C12_rounded",
    "C12_binary64"
   ],
   "note": "Every binary format with gradual underflow and every rounding function (no overflow), and binary64 with overflow for finite values below 2^1023 in magnitude."
  },
  {
   "property": "C13",
   "status": "partial",
   "theorems": [
    "C13_cumulative",
    "C13_window",
    "C13_covariance",
    "C13_binary64",
    "C13_window_covariance_refuted",
    "C13_interim_refuted",
    "C13_decay_refuted"
   ],
   "note": "Cumulative moments, window moments and cumulative covariance, in every format and rounding mode and in binary64 for every finite double. Refuted for window covariance (running sums of products) and for the interim and decay filters, whose mean of a constant 0.1 is not 0.1."
  },
  {
   "property": "C14",
   "status": "proved",
   "theorems": [
    "C14_cumulative_clear"
   ],
   "note": ""
  },
  {
   "property": "C15",
   "status": "proved",
   "theorems": [
    "C15_window_mean"
   ],
   "note": ""
  },
  {
   "property": "C16",
   "status": "proved",
   "theorems": [
    "C16_window_variance"
   ],
   "note": ""
  },
  {
   "property": "C17",
   "status": "proved",
   "theorems": [
    "C17_window_variance_nonneg_binary64"
   ],
   "note": ""
  },
  {
   "property": "C18",
   "status": "proved",
   "theorems": [
    "C18_window_covariance"
   ],
   "note": ""
  },
  {
   "property": "C19",
   "status": "proved",
   "theorems": [
    "C19_window_regression"
   ],
   "note": ""
  },
  {
   "property": "C20",
   "status": "proved",
   "theorems": [
    "C20_window_bookkeeping"
   ],
   "note": ""
  },
  {
   "property": "C21",
   "status": "partial",
   "theorems": [
    "C21_window_forgets_refuted",
    "C21_window_nan_sticks",
    "C21_window_forgets_partial"
   ],
   "note": "False in binary64 (witness: N=1, 1e17 then 1 gives mean 0; a NaN sticks forever, window/detail/moment.ipp:65-76). Proved in exact arithmetic for mean, variance, covariance and regression."
  },
  {
   "property": "C22",
   "status": "partial",
   "theorems": [
    "C22_drift_refuted",
    "C22_drift_partial"
   ],
   "note": "False as stated: for every signed type there are arbitrarily long histories on which the integer window mean drifts without bound (C22_drift_refuted). Proved: a linear bound on the error and exactness of the range while the window fills, for histories with room in the type."
  },
  {
   "property": "C23",
   "status": "proved",
   "theorems": [
    "C23_interim_bookkeeping"
   ],
   "note": ""
  },
  {
   "property": "C24",
   "status": "proved",
   "theorems": [
    "C24_interim_mean"
   ],
   "note": ""
  },
  {
   "property": "C25",
   "status": "proved",
   "theorems": [
    "C25_interim_variance"
   ],
   "note": ""
  },
  {
   "property": "C26",
   "status": "proved",
   "theorems": [
    "C26_interim_skewness_kurtosis"
   ],
   "note": ""
  },
  {
   "property": "C27",
   "status": "proved",
   "theorems": [
    "C27_interim_covariance"
   ],
   "note": ""
  },
  {
   "property": "C28",
   "status": "proved",
   "theorems": [
    "C28_interim_regression_collinear"
   ],
   "note": ""
  },
  {
   "property": "C29",
   "status": "partial",
   "theorems": [
    "C29_interim_clear_refuted",
    "C29_interim_clear_partial",
    "C29_interim_quantile"
   ],
   "note": "False for interim::regression: clear() does not clear y_moment (interim/detail/regression.ipp:19-23). Proved for moments and covariance, and for size()/slope() of the regression, and for the interim quantile estimator (C29_interim_quantile)."
  },
  {
   "property": "C30",
   "status": "partial",
   "theorems": [
    "C30_negative_refuted",
    "C30_nonnegative_partial"
   ],
   "note": "False as stated: the weighted sum is computed in size_t, so negative means give wrong results (C30_negative_refuted). Proved for non-negative values."
  },
  {
   "property": "C31",
   "status": "proved",
   "theorems": [
    "C31_decay_mean"
   ],
   "note": ""
  },
  {
   "property": "C32",
   "status": "proved",
   "theorems": [
    "C32_decay_moments"
   ],
   "note": ""
  },
  {
   "property": "C33",
   "status": "partial",
   "theorems": [
    "C33_decay_clear_refuted",
    "C33_decay_clear_partial"
   ],
   "note": "False of the code: clear() of the variance, skewness and kurtosis filters keeps their own normalization (decay/detail/moment.ipp:72-76,113-117,159-163). Proved for the mean-only filter and for mean() of all filters in any arithmetic; the exact error of variance() after clear() is proved."
  },
  {
   "property": "C34",
   "status": "proved",
   "theorems": [
    "C34_few_observations"
   ],
   "note": "Exact arithmetic; the bound on 2Q+3 only says that the arrays fit a size_t."
  },
  {
   "property": "C35",
   "status": "proved",
   "theorems": [
    "C35_positions",
    "C35_steps"
   ],
   "note": "Any arithmetic whose comparisons are a total order on the pushed values (exact reals, binary64 without NaN: Orders.v). The code asserts of psquare.ipp follow from the strict order."
  },
  {
   "property": "C36",
   "status": "proved",
   "theorems": [
    "C36_extremes"
   ],
   "note": ""
  },
  {
   "property": "C37",
   "status": "proved",
   "theorems": [
    "C37_ordered"
   ],
   "note": ""
  },
  {
   "property": "C38",
   "status": "partial",
   "theorems": [
    "C38_published_algorithm_partial",
    "C38_published_algorithm_refuted",
    "C38_threshold_refuted"
   ],
   "note": "Full property is false for two reasons. (1) In linear() (psquare.ipp:231-239) positions[index+sign]-positions[index] is an unsigned difference, so a downward linear adjustment divides by 2^64-d and leaves the marker height (almost) unchanged. (2) push() moves a marker as soon as its deviation is not 0, the published algorithm when it is at least 1. Proved: in exact arithmetic the estimator is the published algorithm with exactly these two changes; each is refuted with a witness."
  },
  {
   "property": "C39",
   "status": "partial",
   "theorems": [
    "C39_value_by_ratio_partial",
    "C39_default",
    "C39_value_few",
    "C39_ratio_binary64",
    "C39_value_by_ratio_refuted"
   ],
   "note": "Full property is false: value<Q>() looks Q up in the sorted list but get<i>() uses the unsorted template order (psquare.hpp:46,99). Proved for strictly ascending listing orders."
  },
  {
   "property": "C40",
   "status": "proved",
   "theorems": [
    "C40_affine"
   ],
   "note": ""
  },
  {
   "property": "C41",
   "status": "partial",
   "theorems": [
    "C41_equality",
    "C41_restore_double",
    "C41_equality_restored",
    "C41_equality_refuted",
    "C41_restore_partial",
    "C41_restore_state",
    "C41_restore_even_partial",
    "C41_restore_refuted",
    "C41_restore_formats",
    "C41_restore_float_refuted"
   ],
   "note": "C41_restore_partial: restoring reproduces the parameters in any arithmetic while counts survive the conversion to the value type (C41_restore_double, C41_restore_formats: up to 2^prec values). Refuted in full: estimates other than the extremes (C41_restore_refuted), positions beyond 2^prec (C41_restore_float_refuted), equality after a NaN (C41_equality_refuted)."
  },
  {
   "property": "C42",
   "status": "proved",
   "theorems": [
    "C42_bookkeeping"
   ],
   "note": ""
  },
  {
   "property": "C43",
   "status": "proved",
   "theorems": [
    "C43_interim_quantile",
    "C43_value",
    "C43_interim_quantile_range"
   ],
   "note": ""
  },
  {
   "property": "C44",
   "status": "partial",
   "theorems": [
    "C44_copies_partial",
    "C44_copies_refuted"
   ],
   "note": "Full property is false: the defaulted copy operations copy the pointers active/inactive (psquare_quantile.hpp:59-62,89-90), so a copy keeps working on the members of its source. Proved for programs that call clear() on every copy at once."
  },
  {
   "property": "C45",
   "status": "proved",
   "theorems": [
    "C45_fir_convolution",
    "C45_fir_order",
    "C45_fir_bookkeeping",
    "C45_fir_linear",
    "C45_fir_memory",
    "C45_fir_delay",
    "C45_fir_impulse_response",
    "C45_fir_bounded"
   ],
   "note": ""
  },
  {
   "property": "C46",
   "status": "partial",
   "theorems": [
    "C46_fir_clear_refuted",
    "C46_fir_clear_partial"
   ],
   "note": "False as stated: clear() empties the window but keeps the last output, so value() is stale until the next push (C46_fir_clear_refuted). Everything else about clear() is proved (C46_fir_clear_partial)."
  },
  {
   "property": "C47",
   "status": "proved",
   "theorems": [
    "C47_iir_difference_equation",
    "C47_iir_order",
    "C47_iir_clear",
    "C47_iir_linear"
   ],
   "note": ""
  },
  {
   "property": "C48",
   "status": "proved",
   "theorems": [
    "C48_reservoir_sample",
    "C48_reservoir_push"
   ],
   "note": ""
  },
  {
   "property": "C49",
   "status": "proved",
   "theorems": [
    "C49_reservoir_uniform",
    "C49_reservoir_inclusion"
   ],
   "note": ""
  },
  {
   "property": "C50",
   "status": "partial",
   "theorems": [
    "C50_switch_certain",
    "C50_fair_refuted",
    "C50_skipping_partial"
   ],
   "note": "False as stated: the element pushed when count() = 4N is accepted with certainty (C50_switch_certain for every N, C50_fair_refuted), because skip_count starts at 0. What skipping does is proved in C50_skipping_partial."
  },
  {
   "property": "C51",
   "status": "partial",
   "theorems": [
    "C51_reservoir_clear_refuted",
    "C51_reservoir_clear_partial",
    "C51_decisions_partial"
   ],
   "note": "False as stated: clear() resets the counters but keeps the sampled values (C51_reservoir_clear_refuted); the exact behaviour is proved in C51_reservoir_clear_partial."
  },
  {
   "property": "C52",
   "status": "proved",
   "theorems": [
    "C52_span_fifo"
   ],
   "note": ""
  },
  {
   "property": "C53",
   "status": "partial",
   "theorems": [
    "C53_push_front_partial",
    "C53_push_front_lost",
    "C53_push_front_refuted"
   ],
   "note": "False as stated for every capacity that is not a power of two (C53_push_front_lost, C53_push_front_refuted): index(next) - size wraps modulo 2^64, not modulo the capacity. Proved for capacities that are powers of two (C53_push_front_partial)."
  },
  {
   "property": "C54",
   "status": "partial",
   "theorems": [
    "C54_iteration_partial",
    "C54_iteration_refuted",
    "C54_iteration_terminates"
   ],
   "note": "Proved for histories without push_front for every capacity, and for all histories when the capacity is a power of two; false after push_front for capacity 3 (C54_iteration_refuted); termination holds always."
  },
  {
   "property": "C55",
   "status": "proved",
   "theorems": [
    "C55_span_memory",
    "C55_clear_storage"
   ],
   "note": ""
  },
  {
   "property": "C56",
   "status": "proved",
   "theorems": [
    "C56_copy",
    "C56_copy_if",
    "C56_transform",
    "C56_postfix",
    "C56_interleaved",
    "C56_null"
   ],
   "note": "Every container type and push function, every memory of containers; std algorithms are modelled as their specified assignment loops."
  },
  {
   "property": "C57",
   "status": "partial",
   "theorems": [
    "C57_symmetric",
    "C57_never_close",
    "C57_equal",
    "C57_apart",
    "C57_exact",
    "C57_accept_partial",
    "C57_accept_refuted",
    "C57_default"
   ],
   "note": "Symmetry, rejection, reflexivity and non-finite values in binary64, acceptance exactly in real arithmetic; in binary64 acceptance holds with a margin of one part in 2^51 and is refuted without it (the product is rounded)."
  },
  {
   "property": "C58",
   "status": "partial",
   "theorems": [
    "C58_mean_partial",
    "C58_accuracy_refuted",
    "C58_count_ub",
    "C58_no_ub_refuted",
    "C58_hull_refuted"
   ],
   "note": "False as stated (accuracy, undefined behaviour, range). Proved: range, absence of undefined behaviour and an (n-1)/2 error bound for histories that fit the type, and that 2^bits pushes are always undefined behaviour."
  },
  {
   "property": "C59",
   "status": "proved",
   "theorems": [
    "C59_cumulative_nan",
    "C59_window_nan",
    "C59_decay_nan",
    "C59_iir_nan",
    "C59_fir_nan",
    "C59_interim_nan",
    "C59_interim_recovers"
   ],
   "note": "binary64 (SpecFloat); the window and cumulative means never recover, decay for every factor the constructor accepts; interim mean is NaN for W+1 values and certainly recovers after 2W; an IIR filter with feedback never recovers"
  },
  {
   "property": "C60",
   "status": "partial",
   "theorems": [
    "C60_initial_contents_refuted",
    "C60_initial_contents_partial"
   ],
   "note": "False as stated: the constructor stores the offset of first as the end position (C60_initial_contents_refuted); what it does hold is proved in C60_initial_contents_partial. The class header with its documentation is not in the repository, so the intended meaning is inferred from the parameter names."
  },
  {
   "property": "C61",
   "status": "partial",
   "theorems": [
    "C61_cumulative_variance_nan",
    "C61_decay_variance_nan",
    "C61_window_variance_zero",
    "C61_window_variance_refuted"
   ],
   "note": "holds for cumulative and decay; false for window: max(0, NaN) evaluates to 0, so variance() is exactly 0 for every continuation"
  },
  {
   "property": "C62",
   "status": "partial",
   "theorems": [
    "C62_fir_modular",
    "C62_fir_clear",
    "C62_fir_defined_partial",
    "C62_fir_exact",
    "C62_int_refuted",
    "C62_uint16_refuted"
   ],
   "note": "Modular value proved for all types; exact value and absence of undefined behaviour proved for all types whenever M times the sum of the magnitudes of the coefficients fits the type (C62_fir_exact). Without a bound on the values, absence of undefined behaviour is proved for five types and refuted for uint16_t and int."
  },
  {
   "property": "C63",
   "status": "partial",
   "theorems": [
    "C63_variance_nonnegative_partial",
    "C63_int8_refuted",
    "C63_covariance_refuted"
   ],
   "note": "Proved for int32 and int64 variance; refuted for int8_t variance and for int covariance."
  },
  {
   "property": "C64",
   "status": "partial",
   "theorems": [
    "C64_unbiased_mean_refuted",
    "C64_unbiased_mean_partial"
   ],
   "note": "Refuted for negative means; proved for non-negative means that fit."
  },
  {
   "property": "C65",
   "status": "proved",
   "theorems": [
    "C65_rounded",
    "C65_binary64"
   ],
   "note": "Every binary format with gradual underflow and every rounding function (no overflow), and binary64 including overflow within the stated range."
  },
  {
   "property": "C66",
   "status": "proved",
   "theorems": [
    "C66_rounded",
    "C66_binary64"
   ],
   "note": "As C65."
  },
  {
   "property": "C67",
   "status": "proved",
   "theorems": [
    "C67_rounded",
    "C67_binary64"
   ],
   "note": "As C65; pushes after construction (clear() keeps the normalisation weights, see C28)."
  },
  {
   "property": "C68",
   "status": "proved",
   "theorems": [
    "C68_rounded",
    "C68_binary64"
   ],
   "note": "As C65."
  },
  {
   "property": "C69",
   "status": "proved",
   "theorems": [
    "C69_rounded",
    "C69_binary64"
   ],
   "note": "As C65."
  },
  {
   "property": "C70",
   "status": "proved",
   "theorems": [
    "C70_rounded",
    "C70_binary64",
    "C70_covariance_rounded",
    "C70_covariance_binary64"
   ],
   "note": "As C65, for magnitude bounds M that are not in the underflow range."
  },
  {
   "property": "C71",
   "status": "proved",
   "theorems": [
    "C71_rounded",
    "C71_binary64"
   ],
   "note": "As C70."
  },
  {
   "property": "C72",
   "status": "proved",
   "theorems": [
    "C72_rounded",
    "C72_binary64"
   ],
   "note": "As C67; the bound on one deviation g must not exceed M."
  },
  {
   "property": "C73",
   "status": "proved",
   "theorems": [
    "C73_mean",
    "C73_variance",
    "C73_covariance",
    "C73_window_mean",
    "C73_window_variance"
   ],
   "note": "Integer layer: exactness while the running means are integers; covariance for non-negative sums only (negative sums: C63_covariance_refuted)."
  },
  {
   "property": "C74",
   "status": "proved",
   "theorems": [
    "C74_order_rounded",
    "C74_range_rounded",
    "C74_order_binary64",
    "C74_range_binary64"
   ],
   "note": "Rounding modelled as round-to-nearest-even in a format without overflow, and as binary64 with the magnitude bound that excludes overflow. The quantile values are arbitrary for the order claim and between 0 and 1-2^(3-precision) for the range claim."
  },
  {
   "property": "C75",
   "status": "partial",
   "theorems": [
    "C75_overflow_refuted",
    "C75_weight_refuted",
    "C75_few_rounded_partial",
    "C75_few_binary64_partial",
    "C75_ratio_refuted"
   ],
   "note": "Partial: the error bound is proved for the quantile as represented in the value type and ranks that are not within 4n rounding units below an integer. Without the restrictions the claim is refuted: ratio 1/49 with 50 values reads the wrong order statistic, a ratio just below 1 reads an element that was never written, and overflowing differences destroy order and range."
  },
  {
   "property": "C76",
   "status": "partial",
   "theorems": [
    "C76_exponential",
    "C76_assertion",
    "C76_large_partial",
    "C76_large_refuted",
    "C76_accuracy_binary64",
    "C76_arithmetic"
   ],
   "note": "C76_assertion characterizes the assertion for ratios with numerator and denominator up to 2^53. For 64-bit terms C76_large_partial proves that ratios in (0, 1] are accepted and ratios up to 0 or from 1 + 2^-51 rejected; C76_large_refuted shows a ratio above 1 that is accepted. C76_accuracy_binary64 is for terms up to 2^53."
  },
  {
   "property": "C77",
   "status": "partial",
   "theorems": [
    "C77_cumulative",
    "C77_magnified",
    "C77_cutoff_refuted",
    "C77_decimal_refuted",
    "C77_pairs",
    "C77_window",
    "C77_interim",
    "C77_decay",
    "C77_impulse",
    "C77_psquare"
   ],
   "note": "Rounded arithmetic is modelled without overflow and underflow here; skewness, kurtosis and correlation change when an absolute cut-off is crossed (C77_cutoff_refuted) and factors other than powers of two are inexact on double (C77_decimal_refuted)."
  },
  {
   "property": "C78",
   "status": "partial",
   "theorems": [
    "C78_cumulative",
    "C78_skewness_refuted",
    "C78_pairs",
    "C78_window",
    "C78_interim",
    "C78_decay",
    "C78_impulse"
   ],
   "note": "All doubles. Cumulative skewness is the exception: left-skewed data report 0 (C78_skewness_refuted)."
  },
  {
   "property": "C79",
   "status": "partial",
   "theorems": [
    "C79_report",
    "C79_verdict",
    "C79_single",
    "C79_counted_refuted"
   ],
   "note": "Which failures are reported is proved in full. Counting holds before Boost 1.68 only: from 1.68 on test_failure() reads the counter without incrementing it (C79_counted_refuted)."
  },
  {
   "property": "C80",
   "status": "proved",
   "theorems": [
    "C80_cumulative",
    "C80_pairs",
    "C80_others"
   ],
   "note": "Proved in any arithmetic: cumulative, window, interim and decay families; cumulative correlation and regression in terms of separately run filters."
  },
  {
   "property": "C81",
   "status": "proved",
   "theorems": [
    "C81_window",
    "C81_interim"
   ],
   "note": "Proved in any arithmetic for window mean and variance and for interim mean, variance, skewness, kurtosis and covariance."
  },
  {
   "property": "C82",
   "status": "partial",
   "theorems": [
    "C82_empty",
    "C82_empty_refuted",
    "C82_integer",
    "C82_integer_refuted"
   ],
   "note": "As stated false: over double the cumulative and interim variance of an empty filter, correlation and regression are NaN, unbiased variance of one value is NaN and unbiased mean infinite (C82_empty_refuted); over integers the cumulative variance of an empty filter and the unbiased statistics of one value divide by zero (C82_integer_refuted). Proved for the statistics that are 0 (C82_empty, C82_integer)."
  },
  {
   "property": "C83",
   "status": "partial",
   "theorems": [
    "C83_binary64",
    "C83_cumulative",
    "C83_unbiased_mean_refuted",
    "C83_double_refuted",
    "C83_pairs",
    "C83_window",
    "C83_interim",
    "C83_decay",
    "C83_psquare"
   ],
   "note": "Proved in exact arithmetic. unbiased_mean() does not move with the origin (C83_unbiased_mean_refuted); over double rounding makes the variance depend on the origin (C83_double_refuted), by a bounded amount (C83_binary64)."
  },
  {
   "property": "C84",
   "status": "partial",
   "theorems": [
    "C84_rows_partial",
    "C84_extra",
    "C84_rows_refuted",
    "C84_no_records"
   ],
   "note": "False as stated: the loops test the stream before the extraction, so the last pair is pushed and printed twice, and a file without pairs makes the program use uninitialised variables (C84_rows_refuted, C84_extra, C84_no_records). Proved: the rows of all pairs of the file, and what the extra row shows."
  },
  {
   "property": "C85",
   "status": "partial",
   "theorems": [
    "C85_mean",
    "C85_last",
    "C85_impulse",
    "C85_few_values",
    "C85_mean_refuted",
    "C85_psquare_refuted",
    "C85_binary64"
   ],
   "note": "Means in exact arithmetic, impulse filters in every arithmetic with monotone rounding, few-value quantiles; a larger last value in rounded arithmetic. False over double for the means (C85_mean_refuted), by a bounded amount (C85_binary64), and for the P-square estimator with markers (C85_psquare_refuted)."
  },
  {
   "property": "C86",
   "status": "partial",
   "theorems": [
    "C86_response",
    "C86_unique",
    "C86_clear",
    "C86_zero_scale",
    "C86_int_refuted",
    "C86_unsigned_refuted"
   ],
   "note": "Proved for all signed types under explicit bounds on inputs and outputs; outside them a push can be undefined (C86_int_refuted), and for unsigned types the difference is reduced before the division (C86_unsigned_refuted)."
  },
  {
   "property": "C87",
   "status": "partial",
   "theorems": [
    "C87_settle_partial",
    "C87_settle_refuted"
   ],
   "note": "False: the output stays k-1 below the constant (C87_settle_refuted); the exact steady state is C87_settle_partial."
  },
  {
   "property": "C88",
   "status": "proved",
   "theorems": [
    "C88_mean_rounded",
    "C88_mean_binary64",
    "C88_variance_binary64",
    "C88_covariance_binary64",
    "C88_skewness_binary64",
    "C88_kurtosis_binary64"
   ],
   "note": "mean in every rounded format and in binary64 (W up to 2^49); variance and covariance in binary64 for W up to 2^26; skewness for W up to 2^40 and kurtosis for W up to 2^26 in binary64, both conditional on the variance of the blocks being large enough against the magnitudes."
  },
  {
   "property": "C89",
   "status": "proved",
   "theorems": [
    "C89_decay_rounded",
    "C89_decay_binary64",
    "C89_interim_binary64"
   ],
   "note": "Decay filters in every format and rounding function and in binary64 for every double (NaN and infinities included); interim variance in binary64 while the last 2W values are finite and below 2^1023, window at most 2^32."
  },
  {
   "property": "C90",
   "status": "partial",
   "theorems": [
    "C90_refuted",
    "C90_interim_partial",
    "C90_decay_partial",
    "C90_window_partial"
   ],
   "note": "Refuted for all three families by concrete streams; the partial theorems bound by how much the mean can leave the range (error bounds of C66, C67, C88)."
  },
  {
   "property": "C91",
   "status": "proved",
   "theorems": [
    "C91_decay_mean",
    "C91_decay_variance",
    "C91_decay_binary64",
    "C91_iir",
    "C91_iir_settles",
    "C91_fir_settles",
    "C91_iir_binary64"
   ],
   "note": "Exact arithmetic for all histories (variance: filters that were not cleared, because clear() keeps its normalisation, C33); in binary64 with the error bounds of C67 and C69. Feedback coefficients with sum |a| < |scale| only: stable filters outside this class are not covered."
  },
  {
   "property": "C92",
   "status": "proved",
   "theorems": [
    "C92_slope_binary64",
    "C92_at_binary64"
   ],
   "note": "Binary64, cumulative regression, for data whose x variance exceeds twice the error bound of its computation."
  },
  {
   "property": "C93",
   "status": "proved",
   "theorems": [
    "C93_binary64"
   ],
   "note": "Binary64, above the epsilon cut-off with a margin for the rounding error of the product of the variances."
  },
  {
   "property": "C94",
   "status": "proved",
   "theorems": [
    "C94_skewness_binary64",
    "C94_skewness_zero",
    "C94_kurtosis_binary64",
    "C94_skewness_any_binary64",
    "C94_kurtosis_any_binary64",
    "C94_unbiased_skewness_binary64",
    "C94_unbiased_kurtosis_binary64"
   ],
   "note": "Binary64, cumulative filters."
  },
  {
   "property": "C95",
   "status": "partial",
   "theorems": [
    "C95_cumulative",
    "C95_mean_settles",
    "C95_skewness_partial",
    "C95_skewness_refuted",
    "C95_pairs",
    "C95_trend",
    "C95_window",
    "C95_window_slope_refuted",
    "C95_decay",
    "C95_decay_hidden",
    "C95_interim",
    "C95_impulse",
    "C95_overflow_refuted"
   ],
   "note": "False as stated: cumulative skewness() is 0 right after a minus infinity (C95_skewness_refuted), decay skewness() and kurtosis() are exactly 0 whenever an infinity or NaN was pushed (C95_decay_hidden), the window slope can be 0 (C95_window_slope_refuted), the window variance hides NaN (C61), and finite data beyond 2^1023 can give NaN (C95_overflow_refuted). Proved for all other statistics."
  },
  {
   "property": "C96",
   "status": "proved",
   "theorems": [
    "C96_covariance_binary64",
    "C96_slope_binary64",
    "C96_at_binary64",
    "C96_interim_slope_binary64",
    "C96_interim_at_binary64"
   ],
   "note": "Binary64; window covariance and slope also in every format."
  },
  {
   "property": "C97",
   "status": "proved",
   "theorems": [
    "C97_ieee",
    "C97_cumulative",
    "C97_window",
    "C97_kurtosis",
    "C97_pairs",
    "C97_interim",
    "C97_decay"
   ],
   "note": "Exact arithmetic; the inequalities for the cumulative mean and variance also in every IEEE format, up to the rounding errors of C110 (C97_ieee)."
  },
  {
   "property": "C98",
   "status": "proved",
   "theorems": [
    "C98_range_formats",
    "C98_order_formats",
    "C98_range_binary64",
    "C98_tolerance_needed",
    "C98_order_binary64"
   ],
   "note": "Binary64 and every IEEE format with at least 8 bits. C98_tolerance_needed shows that the tolerance cannot be dropped."
  },
  {
   "property": "C99",
   "status": "proved",
   "theorems": [
    "C99_rounded",
    "C99_binary64"
   ],
   "note": "Every format and binary64."
  },
  {
   "property": "C100",
   "status": "partial",
   "theorems": [
    "C100_mean",
    "C100_variance",
    "C100_mean_error",
    "C100_covariance",
    "C100_regression",
    "C100_unbiased_mean_refuted",
    "C100_unbiased_skewness_refuted"
   ],
   "note": "Distributions with finitely many values; exact-real arithmetic. The claims for unbiased_mean() and unbiased_skewness() are refuted with witnesses."
  },
  {
   "property": "C101",
   "status": "proved",
   "theorems": [
    "C101_fir",
    "C101_iir",
    "C101_window_mean",
    "C101_decay_mean"
   ],
   "note": "Exact-real arithmetic; rounding errors of the filters are bounded separately in C69 and C65."
  },
  {
   "property": "C102",
   "status": "proved",
   "theorems": [
    "C102_mean_line",
    "C102_mean",
    "C102_mean_sharp",
    "C102_variance",
    "C102_variance_sharp",
    "C102_variance_line"
   ],
   "note": "Exact-real arithmetic; the rounding errors of the two filters are bounded in C66, C71 and C88."
  },
  {
   "property": "C103",
   "status": "partial",
   "theorems": [
    "C103_ieee_mean",
    "C103_ieee_window_mean",
    "C103_ieee_decay_mean",
    "C103_means",
    "C103_means_sharp",
    "C103_deviation",
    "C103_covariance",
    "C103_slope",
    "C103_impulse",
    "C103_few_values",
    "C103_psquare_refuted"
   ],
   "note": "Exact arithmetic for the means, deviations, covariance, slope, impulse response filters and the quantile estimator while it stores its values; the cumulative, window and decay mean and the cumulative standard deviation also in every IEEE format, up to the rounding errors of C110 (C103_ieee_*). For more values than markers the claim is false of the quantile estimator (C103_psquare_refuted): a value on the other side of a marker moves the estimate by half the range."
  },
  {
   "property": "C104",
   "status": "partial",
   "theorems": [
    "C104_safe_binary64_partial",
    "C104_safe_rounded_partial",
    "C104_ratio_one",
    "C104_near_one_refuted"
   ],
   "note": "Proved for ratios up to 1 - 2^(3-precision) (1 - 2^-50 for double) in binary64 with any values and in every binary format. False for ratios closer to 1: C104_near_one_refuted shows a read beyond the array for (2^53-1)/2^53, and C104_ratio_one that the listed ratio 1 always does so when exactly 2Q+3 values are stored. Signalling conversions of NaN to size_t do not occur because the rank does not depend on the values."
  },
  {
   "property": "C105",
   "status": "proved",
   "theorems": [
    "C105_means",
    "C105_decay_span",
    "C105_fir",
    "C105_regression",
    "C105_chance"
   ],
   "note": "Exact arithmetic, distributions with finitely many values."
  },
  {
   "property": "C106",
   "status": "proved",
   "theorems": [
    "C106_interim",
    "C106_decay",
    "C106_decay_low",
    "C106_decay_limit"
   ],
   "note": "Exact arithmetic, distributions with finitely many values; the decay filter is a new one because clear() does not reset it completely (C33)."
  },
  {
   "property": "C107",
   "status": "proved",
   "theorems": [
    "C107_jump",
    "C107_ramp"
   ],
   "note": "Exact arithmetic."
  },
  {
   "property": "C108",
   "status": "proved",
   "theorems": [
    "C108_skewness_binary64",
    "C108_kurtosis_binary64",
    "C108_skewness_float",
    "C108_kurtosis_float"
   ],
   "note": "binary64 with factors from 2^-40 to 1 and values up to 2^200, and float with factors from 2^-11 to 1 and values up to 2^28; variance large against its rounding error and away from epsilon by a 64th; the bounds are explicit and independent of the number of values"
  },
  {
   "property": "C109",
   "status": "partial",
   "theorems": [
    "C109_by_type",
    "C109_default",
    "C109_above_one_rejected",
    "C109_notation",
    "C109_same_ratio_refuted",
    "C109_negative_refuted",
    "C109_lowest_terms"
   ],
   "note": "any arithmetic and state; the selection by type is proved for lists in order of value, the rejection of ratios above 1 for all lists; refuted: another notation of a listed ratio is rejected, and a negative ratio moves the minimum to a position that reads outside the array"
  },
  {
   "property": "C110",
   "status": "proved",
   "theorems": [
    "C110_double",
    "C110_mean",
    "C110_window_mean",
    "C110_decay_mean",
    "C110_variance",
    "C110_window_variance",
    "C110_decay_variance",
    "C110_fir",
    "C110_covariance",
    "C110_correlation",
    "C110_interim_mean",
    "C110_interim_variance",
    "C110_interim_covariance",
    "C110_trend",
    "C110_iir",
    "C110_window_covariance",
    "C110_slope",
    "C110_at"
   ],
   "note": "All formats with 1 < p < e at once; float and double are instances."
  },
  {
   "property": "C111",
   "status": "partial",
   "theorems": [
    "C111_mean_stalls",
    "C111_mean_refuted",
    "C111_variance_refuted"
   ],
   "note": "The full statement is false of the code: in a value type of p bits, 2^(p+2) ones followed by any number of zeros leave mean() at 1 (C111_mean_stalls), so it is off by 99/100 and variance() by 1/8 (refuted). Within 2^(p-4) values the bounds of C110 hold."
  },
  {
   "property": "C112",
   "status": "partial",
   "theorems": [
    "C112_median_stalls",
    "C112_median_refuted"
   ],
   "note": "The full statement is false of the code: desired_positions[] are sums in the value type and stop growing (C112_median_stalls); a stream with 99 percent ones has the median 0 (refuted). No positive bound for the estimates of long streams is proved, P-square being a heuristic."
  },
  {
   "property": "C113",
   "status": "partial",
   "theorems": [
    "C113_extremes",
    "C113_ordered",
    "C113_refuted",
    "C113_defined"
   ],
   "note": "Proved for estimators saved with at least 2Q+3 values: extremes and positions for every totally ordered arithmetic (C113_extremes), order and range in double (C113_ordered), definedness for every arithmetic (C113_defined). False for estimators saved earlier (C113_refuted): unset heights are saved as values and the estimate leaves the range of the data."
  },
  {
   "property": "C114",
   "status": "proved",
   "theorems": [
    "C114_exact",
    "C114_fraction",
    "C114_formats",
    "C114_median_exact",
    "C114_median_formats"
   ],
   "note": "Proved: general quantiles in exact arithmetic (C114_exact, C114_fraction) and in every IEEE format with an explicit rounding term (C114_formats, up to 2^prec values), the median sharply in exact arithmetic (C114_median_exact) and in every IEEE format (C114_median_formats, up to 2^(prec-2) values). Beyond 2^(prec+4) values the desired positions stall (C112)."
  },
  {
   "property": "C115",
   "status": "proved",
   "theorems": [
    "C115_ranks",
    "C115_estimate",
    "C115_median"
   ],
   "note": "Exact arithmetic. The distance of the estimate is a constant number of steps (C115_estimate), at most one step for the median (C115_median)."
  },
  {
   "property": "C116",
   "status": "partial",
   "theorems": [
    "C116_few_partial",
    "C116_refuted",
    "C116_any_number_refuted",
    "C116_double_refuted",
    "C116_double_many_refuted"
   ],
   "note": "Proved for three, four and five values. False for six and more: C116_refuted gives for every bound six values, five of them 0 or 1, with a median estimate below minus that bound; C116_any_number_refuted gives for every number of zeros and every bound one further value that lifts the median estimate above the bound. The double variants are cases in binary64: 999 zeros and one value of 10^200 have a median estimate above 10^190."
  },
  {
   "property": "C117",
   "status": "proved",
   "theorems": [
    "C117_mean_variance",
    "C117_higher",
    "C117_covariance",
    "C117_residuals"
   ],
   "note": "Exact arithmetic. Skewness and kurtosis are covered where the central sums of the parts and the whole reach the epsilon cut-offs of C03 and C04, the correlation form of the residual where the product of the variances reaches the cut-off of C08."
  },
  {
   "property": "C118",
   "status": "partial",
   "theorems": [
    "C118_others",
    "C118_float_partial",
    "C118_unbiased_partial",
    "C118_wide_refuted"
   ],
   "note": "The full statement (the bound for every value type) is false for types wider than double (C118_wide_refuted). Proved for float, in which the intermediate double is exact enough; the unbiased skewness is modelled but has no error bound."
  },
  {
   "property": "C119",
   "status": "proved",
   "theorems": [
    "C119_finite",
    "C119_order"
   ],
   "note": "Exact arithmetic; inputs pushed after construction or a clear."
  },
  {
   "property": "C120",
   "status": "proved",
   "theorems": [
    "C120_window_mean",
    "C120_window_mean_binary64",
    "C120_decay_mean",
    "C120_superposition",
    "C120_regression"
   ],
   "note": "Exact arithmetic, and C120_window_mean_binary64 for the finite filter against the window mean in double."
  },
  {
   "property": "C121",
   "status": "proved",
   "theorems": [
    "C121_kurtosis",
    "C121_unbiased"
   ],
   "note": "Kurtosis filter over float, every history."
  },
  {
   "property": "C122",
   "status": "proved",
   "theorems": [
    "C122_interim_mean",
    "C122_window_mean",
    "C122_decay_mean",
    "C122_psquare_safe",
    "C122_mean_variance",
    "C122_window_variance",
    "C122_psquare_order",
    "C122_psquare_range",
    "C122_constant",
    "C122_decay",
    "C122_interim"
   ],
   "note": "Every IEEE format. Extends the binary64 results C12, C13, C17, C74, C89, C90 and C104 to any precision and exponent range."
  },
  {
   "property": "C123",
   "status": "proved",
   "theorems": [
    "C123_variance",
    "C123_covariance",
    "C123_window_variance",
    "C123_decay_mean",
    "C123_decay_variance",
    "C123_finite",
    "C123_infinite",
    "C123_variance_sign",
    "C123_decay_sign",
    "C123_visible",
    "C123_ieee_decay_mean",
    "C123_ieee_variance",
    "C123_ieee_window_variance",
    "C123_ieee_decay_variance",
    "C123_ieee_fir",
    "C123_ieee_covariance",
    "C123_ieee_iir",
    "C123_decay_skewness",
    "C123_decay_kurtosis",
    "C123_decay_skewness_float",
    "C123_decay_kurtosis_float",
    "C123_variance_sign_formats",
    "C123_skewness",
    "C123_kurtosis",
    "C123_unbiased_skewness",
    "C123_unbiased_kurtosis",
    "C123_kurtosis_float",
    "C123_ieee_interim_mean",
    "C123_ieee_interim_variance",
    "C123_ieee_interim_covariance",
    "C123_ieee_slope",
    "C123_ieee_at",
    "C123_ieee_correlation",
    "C123_window_covariance",
    "C123_ieee_window_covariance"
   ],
   "note": "Layer C for the error bounds, and layer D (every IEEE format) for the same bounds (also of slope(), at(), the correlation and the interim filters) and, overflow included, for the sign and range of the cumulative filter; all products fused (the default of GCC on targets with the instruction), not an arbitrary subset; where two products are added or subtracted, either of them; skewness(), unbiased_skewness(), kurtosis() and unbiased_kurtosis() of the cumulative filter over double (kurtosis() also over float); skewness() and kurtosis() of the decay filter over double and float. C123_visible shows the results can differ."
  },
  {
   "property": "C124",
   "status": "proved",
   "theorems": [
    "C124_order_formats",
    "C124_range_formats",
    "C124_estimates_order_formats",
    "C124_cross_statement_double",
    "C124_order",
    "C124_range",
    "C124_estimates_order",
    "C124_cross_statement"
   ],
   "note": "Order and range proved over every format with round to nearest and fused products, without overflow (layer C) and for the IEEE formats with a computable fused operation (layer D); fusion across the two statements of get() breaks the range, shown by a witness (an estimate below every value)."
  }
 ]
}
