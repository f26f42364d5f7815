{
"C03": "Full property is false of the code: skewness() returns 0 whenever the third central sum is below epsilon, hence for all left-skewed data (cumulative/detail/moment.ipp:108). Proved: exact value otherwise. The error in double is bounded in C94.",
"C04": "Full property is false: n*(n-3)+3 wraps in size_t beyond 2^32+1 values (moment.ipp:179) and small-scale data hit the epsilon cut-off (moment.ipp:153). Proved: exact value otherwise. The error in double is bounded in C94.",
"C05": "Full property is false beyond 2^32 values (count*(count-1) wraps, moment.ipp:122). Proved below that, including absence of division by zero.",
"C08": "Full property is false: epsilon cut-off returns +1 for small-scale anti-correlated data (correlation.ipp:47), and binary64 rounding can exceed 1 (by a bounded amount, C93). Proved: range and Pearson value in exact arithmetic above the cut-off.",
"C11": "Proved in exact arithmetic; false in binary64 (witness), where the difference between two orders is bounded (C11_binary64).",
"C21": "False in binary64 (witness: N=1, 1e17 then 1 gives mean 0; a NaN sticks forever, window/detail/moment.ipp:65-76). Proved in exact arithmetic for mean, variance, covariance and regression.",
"C29": "False for interim::regression: clear() does not clear y_moment (interim/detail/regression.ipp:19-23). Proved for moments and covariance, and for size()/slope() of the regression, and for the interim quantile estimator (C29_interim_quantile).",
"C33": "False of the code: clear() of the variance, skewness and kurtosis filters keeps their own normalization (decay/detail/moment.ipp:72-76,113-117,159-163). Proved for the mean-only filter and for mean() of all filters in any arithmetic; the exact error of variance() after clear() is proved.",
"C34": "Exact arithmetic; the bound on 2Q+3 only says that the arrays fit a size_t.",
"C35": "Any arithmetic whose comparisons are a total order on the pushed values (exact reals, binary64 without NaN: Orders.v). The code asserts of psquare.ipp follow from the strict order.",
"C38": "Full property is false for two reasons. (1) In linear() (psquare.ipp:231-239) positions[index+sign]-positions[index] is an unsigned difference, so a downward linear adjustment divides by 2^64-d and leaves the marker height (almost) unchanged. (2) push() moves a marker as soon as its deviation is not 0, the published algorithm when it is at least 1. Proved: in exact arithmetic the estimator is the published algorithm with exactly these two changes; each is refuted with a witness.",
"C39": "Full property is false: value<Q>() looks Q up in the sorted list but get<i>() uses the unsorted template order (psquare.hpp:46,99). Proved for strictly ascending listing orders.",
"C41": "C41_restore_partial: restoring reproduces the parameters in any arithmetic while counts survive the conversion to the value type (C41_restore_double, C41_restore_formats: up to 2^prec values). Refuted in full: estimates other than the extremes (C41_restore_refuted), positions beyond 2^prec (C41_restore_float_refuted), equality after a NaN (C41_equality_refuted).",
"C44": "Full property is false: the defaulted copy operations copy the pointers active/inactive (psquare_quantile.hpp:59-62,89-90), so a copy keeps working on the members of its source. Proved for programs that call clear() on every copy at once.",
"C46": "False as stated: clear() empties the window but keeps the last output, so value() is stale until the next push (C46_fir_clear_refuted). Everything else about clear() is proved (C46_fir_clear_partial).",
"C53": "False as stated for every capacity that is not a power of two (C53_push_front_lost, C53_push_front_refuted): index(next) - size wraps modulo 2^64, not modulo the capacity. Proved for capacities that are powers of two (C53_push_front_partial).",
"C54": "Proved for histories without push_front for every capacity, and for all histories when the capacity is a power of two; false after push_front for capacity 3 (C54_iteration_refuted); termination holds always.",
"C60": "False as stated: the constructor stores the offset of first as the end position (C60_initial_contents_refuted); what it does hold is proved in C60_initial_contents_partial. The class header with its documentation is not in the repository, so the intended meaning is inferred from the parameter names.",
"C50": "False as stated: the element pushed when count() = 4N is accepted with certainty (C50_switch_certain for every N, C50_fair_refuted), because skip_count starts at 0. What skipping does is proved in C50_skipping_partial.",
"C51": "False as stated: clear() resets the counters but keeps the sampled values (C51_reservoir_clear_refuted); the exact behaviour is proved in C51_reservoir_clear_partial.",
"C56": "Every container type and push function, every memory of containers; std algorithms are modelled as their specified assignment loops.",
"C57": "Symmetry, rejection, reflexivity and non-finite values in binary64, acceptance exactly in real arithmetic; in binary64 acceptance holds with a margin of one part in 2^51 and is refuted without it (the product is rounded).",
"C12": "Every binary format with gradual underflow and every rounding function (no overflow), and binary64 with overflow for finite values below 2^1023 in magnitude.",
"C13": "Cumulative moments, window moments and cumulative covariance, in every format and rounding mode and in binary64 for every finite double. Refuted for window covariance (running sums of products) and for the interim and decay filters, whose mean of a constant 0.1 is not 0.1.",
"C59": "binary64 (SpecFloat); the window and cumulative means never recover, decay for every factor the constructor accepts; interim mean is NaN for W+1 values and certainly recovers after 2W; an IIR filter with feedback never recovers",
"C61": "holds for cumulative and decay; false for window: max(0, NaN) evaluates to 0, so variance() is exactly 0 for every continuation",
"C22": "False as stated: for every signed type there are arbitrarily long histories on which the integer window mean drifts without bound (C22_drift_refuted). Proved: a linear bound on the error and exactness of the range while the window fills, for histories with room in the type.",
"C30": "False as stated: the weighted sum is computed in size_t, so negative means give wrong results (C30_negative_refuted). Proved for non-negative values.",
"C58": "False as stated (accuracy, undefined behaviour, range). Proved: range, absence of undefined behaviour and an (n-1)/2 error bound for histories that fit the type, and that 2^bits pushes are always undefined behaviour.",
"C62": "Modular value proved for all types; exact value and absence of undefined behaviour proved for all types whenever M times the sum of the magnitudes of the coefficients fits the type (C62_fir_exact). Without a bound on the values, absence of undefined behaviour is proved for five types and refuted for uint16_t and int.",
"C63": "Proved for int32 and int64 variance; refuted for int8_t variance and for int covariance.",
"C64": "Refuted for negative means; proved for non-negative means that fit.",
"C65": "Every binary format with gradual underflow and every rounding function (no overflow), and binary64 including overflow within the stated range.",
"C66": "As C65.",
"C67": "As C65; pushes after construction (clear() keeps the normalisation weights, see C28).",
"C68": "As C65.",
"C69": "As C65.",
"C70": "As C65, for magnitude bounds M that are not in the underflow range.",
"C71": "As C70.",
"C72": "As C67; the bound on one deviation g must not exceed M.",
"C73": "Integer layer: exactness while the running means are integers; covariance for non-negative sums only (negative sums: C63_covariance_refuted).",
"C74": "Rounding modelled as round-to-nearest-even in a format without overflow, and as binary64 with the magnitude bound that excludes overflow. The quantile values are arbitrary for the order claim and between 0 and 1-2^(3-precision) for the range claim.",
"C75": "Partial: the error bound is proved for the quantile as represented in the value type and ranks that are not within 4n rounding units below an integer. Without the restrictions the claim is refuted: ratio 1/49 with 50 values reads the wrong order statistic, a ratio just below 1 reads an element that was never written, and overflowing differences destroy order and range.",
"C76": "C76_assertion characterizes the assertion for ratios with numerator and denominator up to 2^53. For 64-bit terms C76_large_partial proves that ratios in (0, 1] are accepted and ratios up to 0 or from 1 + 2^-51 rejected; C76_large_refuted shows a ratio above 1 that is accepted. C76_accuracy_binary64 is for terms up to 2^53.",
"C77": "Rounded arithmetic is modelled without overflow and underflow here; skewness, kurtosis and correlation change when an absolute cut-off is crossed (C77_cutoff_refuted) and factors other than powers of two are inexact on double (C77_decimal_refuted).",
"C78": "All doubles. Cumulative skewness is the exception: left-skewed data report 0 (C78_skewness_refuted).",
"C79": "Which failures are reported is proved in full. Counting holds before Boost 1.68 only: from 1.68 on test_failure() reads the counter without incrementing it (C79_counted_refuted).",
"C80": "Proved in any arithmetic: cumulative, window, interim and decay families; cumulative correlation and regression in terms of separately run filters.",
"C81": "Proved in any arithmetic for window mean and variance and for interim mean, variance, skewness, kurtosis and covariance.",
"C82": "As stated false: over double the cumulative and interim variance of an empty filter, correlation and regression are NaN, unbiased variance of one value is NaN and unbiased mean infinite (C82_empty_refuted); over integers the cumulative variance of an empty filter and the unbiased statistics of one value divide by zero (C82_integer_refuted). Proved for the statistics that are 0 (C82_empty, C82_integer).",
"C83": "Proved in exact arithmetic. unbiased_mean() does not move with the origin (C83_unbiased_mean_refuted); over double rounding makes the variance depend on the origin (C83_double_refuted), by a bounded amount (C83_binary64).",
"C84": "False as stated: the loops test the stream before the extraction, so the last pair is pushed and printed twice, and a file without pairs makes the program use uninitialised variables (C84_rows_refuted, C84_extra, C84_no_records). Proved: the rows of all pairs of the file, and what the extra row shows.",
"C85": "Means in exact arithmetic, impulse filters in every arithmetic with monotone rounding, few-value quantiles; a larger last value in rounded arithmetic. False over double for the means (C85_mean_refuted), by a bounded amount (C85_binary64), and for the P-square estimator with markers (C85_psquare_refuted).",
"C86": "Proved for all signed types under explicit bounds on inputs and outputs; outside them a push can be undefined (C86_int_refuted), and for unsigned types the difference is reduced before the division (C86_unsigned_refuted).",
"C87": "False: the output stays k-1 below the constant (C87_settle_refuted); the exact steady state is C87_settle_partial.",
"C88": "mean in every rounded format and in binary64 (W up to 2^49); variance and covariance in binary64 for W up to 2^26; skewness for W up to 2^40 and kurtosis for W up to 2^26 in binary64, both conditional on the variance of the blocks being large enough against the magnitudes.",
"C89": "Decay filters in every format and rounding function and in binary64 for every double (NaN and infinities included); interim variance in binary64 while the last 2W values are finite and below 2^1023, window at most 2^32.",
"C90": "Refuted for all three families by concrete streams; the partial theorems bound by how much the mean can leave the range (error bounds of C66, C67, C88).",
"C91": "Exact arithmetic for all histories (variance: filters that were not cleared, because clear() keeps its normalisation, C33); in binary64 with the error bounds of C67 and C69. Feedback coefficients with sum |a| < |scale| only: stable filters outside this class are not covered.",
"C92": "Binary64, cumulative regression, for data whose x variance exceeds twice the error bound of its computation.",
"C93": "Binary64, above the epsilon cut-off with a margin for the rounding error of the product of the variances.",
"C94": "Binary64, cumulative filters.",
"C95": "False as stated: cumulative skewness() is 0 right after a minus infinity (C95_skewness_refuted), decay skewness() and kurtosis() are exactly 0 whenever an infinity or NaN was pushed (C95_decay_hidden), the window slope can be 0 (C95_window_slope_refuted), the window variance hides NaN (C61), and finite data beyond 2^1023 can give NaN (C95_overflow_refuted). Proved for all other statistics.",
"C96": "Binary64; window covariance and slope also in every format.",
"C97": "Exact arithmetic; the inequalities for the cumulative mean and variance also in every IEEE format, up to the rounding errors of C110 (C97_ieee).",
"C98": "Binary64 and every IEEE format with at least 8 bits. C98_tolerance_needed shows that the tolerance cannot be dropped.",
"C99": "Every format and binary64.",
"C100": "Distributions with finitely many values; exact-real arithmetic. The claims for unbiased_mean() and unbiased_skewness() are refuted with witnesses.",
"C101": "Exact-real arithmetic; rounding errors of the filters are bounded separately in C69 and C65.",
"C102": "Exact-real arithmetic; the rounding errors of the two filters are bounded in C66, C71 and C88.",
"C103": "Exact arithmetic for the means, deviations, covariance, slope, impulse response filters and the quantile estimator while it stores its values; the cumulative, window and decay mean and the cumulative standard deviation also in every IEEE format, up to the rounding errors of C110 (C103_ieee_*). For more values than markers the claim is false of the quantile estimator (C103_psquare_refuted): a value on the other side of a marker moves the estimate by half the range.",
"C104": "Proved for ratios up to 1 - 2^(3-precision) (1 - 2^-50 for double) in binary64 with any values and in every binary format. False for ratios closer to 1: C104_near_one_refuted shows a read beyond the array for (2^53-1)/2^53, and C104_ratio_one that the listed ratio 1 always does so when exactly 2Q+3 values are stored. Signalling conversions of NaN to size_t do not occur because the rank does not depend on the values.",
"C105": "Exact arithmetic, distributions with finitely many values.",
"C106": "Exact arithmetic, distributions with finitely many values; the decay filter is a new one because clear() does not reset it completely (C33).",
"C107": "Exact arithmetic.",
"C108": "binary64 with factors from 2^-40 to 1 and values up to 2^200, and float with factors from 2^-11 to 1 and values up to 2^28; variance large against its rounding error and away from epsilon by a 64th; the bounds are explicit and independent of the number of values",
"C109": "any arithmetic and state; the selection by type is proved for lists in order of value, the rejection of ratios above 1 for all lists; refuted: another notation of a listed ratio is rejected, and a negative ratio moves the minimum to a position that reads outside the array",
"C111": "The full statement is false of the code: in a value type of p bits, 2^(p+2) ones followed by any number of zeros leave mean() at 1 (C111_mean_stalls), so it is off by 99/100 and variance() by 1/8 (refuted). Within 2^(p-4) values the bounds of C110 hold.",
"C110": "All formats with 1 < p < e at once; float and double are instances.",
"C112": "The full statement is false of the code: desired_positions[] are sums in the value type and stop growing (C112_median_stalls); a stream with 99 percent ones has the median 0 (refuted). No positive bound for the estimates of long streams is proved, P-square being a heuristic.",
"C113": "Proved for estimators saved with at least 2Q+3 values: extremes and positions for every totally ordered arithmetic (C113_extremes), order and range in double (C113_ordered), definedness for every arithmetic (C113_defined). False for estimators saved earlier (C113_refuted): unset heights are saved as values and the estimate leaves the range of the data.",
"C114": "Proved: general quantiles in exact arithmetic (C114_exact, C114_fraction) and in every IEEE format with an explicit rounding term (C114_formats, up to 2^prec values), the median sharply in exact arithmetic (C114_median_exact) and in every IEEE format (C114_median_formats, up to 2^(prec-2) values). Beyond 2^(prec+4) values the desired positions stall (C112).",
"C115": "Exact arithmetic. The distance of the estimate is a constant number of steps (C115_estimate), at most one step for the median (C115_median).",
"C116": "Proved for three, four and five values. False for six and more: C116_refuted gives for every bound six values, five of them 0 or 1, with a median estimate below minus that bound; C116_any_number_refuted gives for every number of zeros and every bound one further value that lifts the median estimate above the bound. The double variants are cases in binary64: 999 zeros and one value of 10^200 have a median estimate above 10^190.",
"C117": "Exact arithmetic. Skewness and kurtosis are covered where the central sums of the parts and the whole reach the epsilon cut-offs of C03 and C04, the correlation form of the residual where the product of the variances reaches the cut-off of C08.",
"C118": "The full statement (the bound for every value type) is false for types wider than double (C118_wide_refuted). Proved for float, in which the intermediate double is exact enough; the unbiased skewness is modelled but has no error bound.",
"C119": "Exact arithmetic; inputs pushed after construction or a clear.",
"C120": "Exact arithmetic, and C120_window_mean_binary64 for the finite filter against the window mean in double.",
"C121": "Kurtosis filter over float, every history.",
"C122": "Every IEEE format. Extends the binary64 results C12, C13, C17, C74, C89, C90 and C104 to any precision and exponent range.",
"C123": "Layer C for the error bounds, and layer D (every IEEE format) for the same bounds (also of slope(), at(), the correlation and the interim filters) and, overflow included, for the sign and range of the cumulative filter; all products fused (the default of GCC on targets with the instruction), not an arbitrary subset; where two products are added or subtracted, either of them; skewness(), unbiased_skewness(), kurtosis() and unbiased_kurtosis() of the cumulative filter over double (kurtosis() also over float); skewness() and kurtosis() of the decay filter over double and float. C123_visible shows the results can differ.",
"C124": "Order and range proved over every format with round to nearest and fused products, without overflow (layer C) and for the IEEE formats with a computable fused operation (layer D); fusion across the two statements of get() breaks the range, shown by a witness (an estimate below every value)."
}