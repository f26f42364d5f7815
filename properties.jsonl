{"id": "C01", "title": "Cumulative mean is the arithmetic mean", "statement": "After any sequence of push() and clear() calls on cumulative::moment (or a richer cumulative moment), size() is the number of values pushed since the last clear() and, when that is non-zero, mean() is their arithmetic mean; unbiased_mean() is the documented n/(n-1) multiple of it when size()>1.", "quantifier": "every history of push/clear of any length below 2^64 pushes, every real data set", "why_tests_cant": "the claim is about every data set and every length; a test samples a few short ones", "anchors": [{"file": "include/trial/online/cumulative/detail/moment.ipp", "symbols": ["basic_moment<T, with::mean>::push", "mean", "unbiased_mean", "clear", "size", "empty"]}]}
{"id": "C02", "title": "Cumulative variance is the population / sample variance", "statement": "After any push/clear history, variance() is the mean squared deviation from the mean of the values pushed since the last clear() (size()>0) and unbiased_variance() is the sum of squared deviations over size()-1 (size()>1); both are never negative.", "quantifier": "every history, every real data set", "why_tests_cant": "infinitely many data sets; incremental update must agree with the two-pass definition at every length", "anchors": [{"file": "include/trial/online/cumulative/detail/moment.ipp", "symbols": ["basic_moment<T, with::variance>::push", "variance", "unbiased_variance"]}]}
{"id": "C03", "title": "Cumulative skewness is the biased sample skewness", "statement": "After any push/clear history with non-zero variance, skewness() equals sqrt(n)*M3/M2^(3/2) of the values since the last clear(), for left-skewed as well as right-skewed data.", "quantifier": "every history, every real data set", "why_tests_cant": "tests only use right-skewed or symmetric data", "anchors": [{"file": "include/trial/online/cumulative/detail/moment.ipp", "symbols": ["basic_moment<T, with::skewness>::push", "skewness"]}]}
{"id": "C04", "title": "Cumulative kurtosis is the biased sample kurtosis", "statement": "After any push/clear history with non-zero variance, kurtosis() equals n*M4/M2^2 of the values since the last clear(), whatever the scale of the data and however many values were pushed.", "quantifier": "every history, every real data set and every length", "why_tests_cant": "the sums are updated with size_t products that only wrap after billions of pushes", "anchors": [{"file": "include/trial/online/cumulative/detail/moment.ipp", "symbols": ["basic_moment<T, with::kurtosis>::push", "kurtosis"]}]}
{"id": "C05", "title": "Bias-corrected skewness and kurtosis", "statement": "unbiased_skewness() and unbiased_kurtosis() apply the documented (Octave) corrections to skewness() and kurtosis(), return 0 for too few values, and never divide by zero after any history.", "quantifier": "every history, every real data set", "why_tests_cant": "the count==2 and count==3 corner cases are safe only because of an arithmetic identity over all data", "anchors": [{"file": "include/trial/online/cumulative/detail/moment.ipp", "symbols": ["unbiased_skewness", "unbiased_kurtosis"]}]}
{"id": "C06", "title": "Cumulative covariance is the population / sample covariance", "statement": "After any push/clear history, cumulative::covariance variance() is the mean product of deviations, unbiased_variance() the sum of products over size()-1, both 0 when there are too few points.", "quantifier": "every history of pairs", "why_tests_cant": "infinitely many data sets; mixing old and new means must still give the two-pass value", "anchors": [{"file": "include/trial/online/cumulative/detail/comoment.ipp", "symbols": ["basic_comoment<T, with::variance>::push", "variance", "unbiased_variance"]}]}
{"id": "C07", "title": "Covariance is bilinear, symmetric, shift-invariant and extends variance", "statement": "Swapping the two streams does not change the covariance; cov(x,x)=variance; adding constants does not change it; scaling one stream scales it; covariance with a constant is 0.", "quantifier": "every pair of equally long data streams, all constants", "why_tests_cant": "algebraic laws over all data; tests check a handful of points", "anchors": [{"file": "include/trial/online/cumulative/detail/comoment.ipp", "symbols": ["push", "variance"]}]}
{"id": "C08", "title": "Correlation is Pearson's coefficient and lies in [-1,1]", "statement": "After any non-empty history, correlation value() is cov/sqrt(varx*vary) when neither stream is constant, lies in [-1,1], and does not depend on the scale or offset of the data.", "quantifier": "every history of pairs, all scales", "why_tests_cant": "Cauchy-Schwarz over all data; the epsilon cut-off only shows at small scales", "anchors": [{"file": "include/trial/online/cumulative/detail/correlation.ipp", "symbols": ["correlation<T>::value", "push", "clear"]}]}
{"id": "C09", "title": "Cumulative regression is least squares", "statement": "After any non-empty history whose x values are not all equal, at(p) = at(0)+slope()*p, and the line minimises the sum of squared residuals over all lines; when all x are equal slope() is 0 and at() the mean of y; for collinear points the line is recovered exactly.", "quantifier": "every history of pairs, every competing line, every position", "why_tests_cant": "optimality quantifies over all lines and all data sets", "anchors": [{"file": "include/trial/online/cumulative/detail/regression.ipp", "symbols": ["regression<T>::push", "at", "slope", "clear"]}]}
{"id": "C10", "title": "Trend extrapolates linear data exactly", "statement": "If the values pushed since the last clear() form an arithmetic progression, trend value() is the last value; in general value() = 3*mean - 2*(mean of running means).", "quantifier": "every progression (any start, step, length), every history", "why_tests_cant": "all starts, steps and lengths", "anchors": [{"file": "include/trial/online/cumulative/detail/trend.ipp", "symbols": ["basic_trend<T, with::mean>::push", "value", "clear"]}]}
{"id": "C11", "title": "Order of data does not matter for cumulative statistics", "statement": "Two histories whose values since the last clear() are permutations of each other give the same mean, variance, skewness, kurtosis; likewise for pairs and covariance, correlation, regression (exact arithmetic).", "quantifier": "every pair of permuted data sets", "why_tests_cant": "n! permutations of every data set", "anchors": [{"file": "include/trial/online/cumulative/detail/moment.ipp", "symbols": ["push"]}, {"file": "include/trial/online/cumulative/detail/comoment.ipp", "symbols": ["push"]}, {"file": "include/trial/online/cumulative/detail/regression.ipp", "symbols": ["push"]}]}
{"id": "C12", "title": "Cumulative variance never goes negative in rounded arithmetic", "statement": "With every operation rounded to a floating-point format (round-to-nearest, no overflow), after any non-empty history variance() >= 0 and mean() lies between the smallest and the largest value pushed.", "quantifier": "every history of representable values, every radix-2 format with gradual underflow", "why_tests_cant": "rounding errors depend on all bits of all inputs", "anchors": [{"file": "include/trial/online/cumulative/detail/moment.ipp", "symbols": ["basic_moment<T, with::mean>::push", "basic_moment<T, with::variance>::push"]}]}
{"id": "C13", "title": "Constant streams are exact in rounded arithmetic", "statement": "Pushing the same representable value any number of times gives mean() exactly that value and variance() exactly 0 (cumulative and window moments, covariance), with no rounding error.", "quantifier": "every representable value, every number of pushes below the exact-integer limit", "why_tests_cant": "all values and all lengths", "anchors": [{"file": "include/trial/online/cumulative/detail/moment.ipp", "symbols": ["push"]}, {"file": "include/trial/online/window/detail/moment.ipp", "symbols": ["push"]}]}
{"id": "C14", "title": "clear() makes a cumulative filter indistinguishable from a new one", "statement": "For every arithmetic (including NaN and infinities), every cumulative filter after clear() behaves exactly as a freshly constructed one under all later calls.", "quantifier": "every history before and after clear(), every arithmetic", "why_tests_cant": "all histories; a forgotten member shows only on some continuation", "anchors": [{"file": "include/trial/online/cumulative/detail/moment.ipp", "symbols": ["clear"]}, {"file": "include/trial/online/cumulative/detail/comoment.ipp", "symbols": ["clear"]}, {"file": "include/trial/online/cumulative/detail/correlation.ipp", "symbols": ["clear"]}, {"file": "include/trial/online/cumulative/detail/regression.ipp", "symbols": ["clear"]}, {"file": "include/trial/online/cumulative/detail/trend.ipp", "symbols": ["clear"]}]}
{"id": "C15", "title": "Window mean is the mean of the last N values", "statement": "After any push/clear history window::moment<T,N> mean() is the arithmetic mean of the last min(N, pushes) values since the last clear(); values that left the window have no influence.", "quantifier": "every N>0, every history", "why_tests_cant": "all window sizes and histories; the running update accumulates over the whole past", "anchors": [{"file": "include/trial/online/window/detail/moment.ipp", "symbols": ["basic_moment<T, N, with::mean>::push", "mean"]}]}
{"id": "C16", "title": "Window variance is the variance of the last N values", "statement": "After any push/clear history variance() is the population variance and unbiased_variance() the sample variance of the last min(N,pushes) values, 0 when there are too few.", "quantifier": "every N>0, every history", "why_tests_cant": "all window sizes and histories", "anchors": [{"file": "include/trial/online/window/detail/moment.ipp", "symbols": ["basic_moment<T, N, with::variance>::push", "variance", "unbiased_variance", "delta"]}]}
{"id": "C17", "title": "Window variance is never negative and never NaN", "statement": "In IEEE binary64, whatever values were pushed (including NaN, infinities and values that overflow), window variance() and unbiased_variance() never return a negative value or NaN.", "quantifier": "every reachable or unreachable filter state, every input bit pattern", "why_tests_cant": "all bit patterns and histories", "anchors": [{"file": "include/trial/online/window/detail/moment.ipp", "symbols": ["variance", "unbiased_variance"]}]}
{"id": "C18", "title": "Window covariance is the covariance of the last N pairs", "statement": "After any push/clear history window::covariance variance()/unbiased_variance() are the population/sample covariance of the last min(N,pushes) pairs, 0 when too few.", "quantifier": "every N>0, every history of pairs", "why_tests_cant": "all window sizes and histories", "anchors": [{"file": "include/trial/online/window/detail/comoment.ipp", "symbols": ["push", "cosum", "variance", "unbiased_variance", "clear"]}]}
{"id": "C19", "title": "Window regression is least squares over the last N pairs", "statement": "After any non-empty history window::regression slope()/at() describe the line minimising the squared residuals over the last min(N,pushes) pairs; slope 0 and at()=mean y when all x in the window are equal.", "quantifier": "every N>0, every history, every competing line", "why_tests_cant": "optimality over all lines and all windows", "anchors": [{"file": "include/trial/online/window/detail/regression.ipp", "symbols": ["push", "at", "slope", "clear", "size"]}]}
{"id": "C20", "title": "Window bookkeeping", "statement": "For every arithmetic: size() = min(capacity(), pushes since clear), empty() iff size()==0, full() iff size()==capacity(), capacity()==N always, clear() empties.", "quantifier": "every N>0, every history, every arithmetic", "why_tests_cant": "all histories", "anchors": [{"file": "include/trial/online/window/detail/moment.ipp", "symbols": ["size", "full", "empty", "capacity", "clear"]}, {"file": "include/trial/online/window/detail/comoment.ipp", "symbols": ["size"]}, {"file": "include/trial/online/window/detail/regression.ipp", "symbols": ["size"]}]}
{"id": "C21", "title": "Window filters forget what left the window, in floating point", "statement": "In IEEE binary64 the value of window mean() depends only on the values currently in the window, so a transient (a huge value or a NaN) stops mattering once it has left the window.", "quantifier": "every history and every continuation that flushes the window", "why_tests_cant": "needs a statement about all continuations after a transient", "anchors": [{"file": "include/trial/online/window/detail/moment.ipp", "symbols": ["push"]}, {"file": "include/trial/online/window/detail/comoment.ipp", "symbols": ["push"]}]}
{"id": "C22", "title": "Integer window mean stays close to the true mean", "statement": "For window::moment over an integer type the reported mean differs from the true mean of the window by a bounded amount, however long the filter runs.", "quantifier": "every history of integers", "why_tests_cant": "truncation error accumulates over unboundedly long histories", "anchors": [{"file": "include/trial/online/window/detail/moment.ipp", "symbols": ["basic_moment<T, N, with::mean>::push"]}]}
{"id": "C23", "title": "Interim bookkeeping and leapfrogging", "statement": "For every arithmetic: capacity()==W; size() = min(W, pushes since clear); empty()/full() agree with it; the statistics are those of the current block (last ((n-1) mod W)+1 values) and of the complete block of W values before it, and nothing else.", "quantifier": "every even W>0, every history, every arithmetic", "why_tests_cant": "all histories; block boundaries at every multiple of W", "anchors": [{"file": "include/trial/online/interim/detail/moment.ipp", "symbols": ["push", "clear", "size", "full", "empty", "capacity"]}, {"file": "include/trial/online/interim/detail/comoment.ipp", "symbols": ["push", "clear", "size", "full", "empty", "capacity"]}]}
{"id": "C24", "title": "Interim mean is a convex combination of the two block means", "statement": "interim mean() is the exact mean while at most W values were pushed, afterwards (mp*(W-s)+ma*2s)/(W+s); it lies between the smallest and largest of the last 2W values, and equals the exact mean of the last W values at each multiple of W.", "quantifier": "every even W, every history", "why_tests_cant": "all histories", "anchors": [{"file": "include/trial/online/interim/detail/moment.ipp", "symbols": ["basic_moment<T, W, with::mean, UseMoment>::mean"]}]}
{"id": "C25", "title": "Interim variance is a convex combination of the block variances", "statement": "interim variance() is exact while at most W values were pushed; afterwards it is a convex combination of the variances of the two blocks, is never negative, and is 0 on constant data.", "quantifier": "every even W below 2^31, every history", "why_tests_cant": "all histories", "anchors": [{"file": "include/trial/online/interim/detail/moment.ipp", "symbols": ["basic_moment<T, W, with::variance, UseMoment>::variance"]}]}
{"id": "C26", "title": "Interim skewness and kurtosis are convex combinations", "statement": "interim skewness()/kurtosis() combine the two blocks' values with non-negative weights of positive total, so they lie between the two block values.", "quantifier": "every even W, every history", "why_tests_cant": "all histories", "anchors": [{"file": "include/trial/online/interim/detail/moment.ipp", "symbols": ["skewness", "kurtosis"]}]}
{"id": "C27", "title": "Interim covariance is a convex combination of block covariances", "statement": "interim::covariance variance() is exact while at most W pairs were pushed, afterwards a convex combination of the two block covariances; interim cov(x,x) equals interim variance(x).", "quantifier": "every W>0, every history of pairs", "why_tests_cant": "all histories", "anchors": [{"file": "include/trial/online/interim/detail/comoment.ipp", "symbols": ["variance"]}]}
{"id": "C28", "title": "Interim regression recovers collinear data exactly", "statement": "If all pairs of the last two blocks lie on a line y=a+b*x and x is not constant in the estimator's view, interim::regression slope()==b and at(p)==a+b*p for every p, although the window statistics are only approximations.", "quantifier": "every W, every history of collinear pairs, every position", "why_tests_cant": "all lines and histories", "anchors": [{"file": "include/trial/online/interim/detail/regression.ipp", "symbols": ["push", "at", "slope"]}]}
{"id": "C29", "title": "clear() makes an interim filter indistinguishable from a new one", "statement": "After clear() every interim filter (moments, covariance, regression, quantile) behaves like a freshly constructed one under all later calls.", "quantifier": "every history before and after clear()", "why_tests_cant": "a forgotten member shows only on some continuation", "anchors": [{"file": "include/trial/online/interim/detail/moment.ipp", "symbols": ["clear"]}, {"file": "include/trial/online/interim/detail/comoment.ipp", "symbols": ["clear"]}, {"file": "include/trial/online/interim/detail/regression.ipp", "symbols": ["clear"]}, {"file": "include/trial/online/interim/detail/psquare_quantile.ipp", "symbols": ["clear"]}]}
{"id": "C30", "title": "Interim mean over signed integers", "statement": "For a signed integer type, interim mean() lies between the smallest and the largest value of the last 2W values.", "quantifier": "every history of signed integers", "why_tests_cant": "sign-dependent integer promotion appears only with negative values after W pushes", "anchors": [{"file": "include/trial/online/interim/detail/moment.ipp", "symbols": ["basic_moment<T, W, with::mean, UseMoment>::mean"]}]}
{"id": "C31", "title": "Decay mean is the normalised exponentially weighted mean", "statement": "After any history decay::moment(f) mean() equals sum (1-f)^(n-1-i) x_i / sum (1-f)^(n-1-i) over the values since clear(), lies between their minimum and maximum, equals the value for constant data, and is 0 when empty.", "quantifier": "every factor in (0,1], every history", "why_tests_cant": "all factors and histories; bias correction must be exact at every length", "anchors": [{"file": "include/trial/online/decay/detail/moment.ipp", "symbols": ["basic_moment<T, with::mean>::push", "mean"]}, {"file": "include/trial/online/moment/exponential.hpp", "symbols": ["exponential"]}]}
{"id": "C32", "title": "Decay variance, skewness and kurtosis are exponentially weighted averages", "statement": "variance() is the normalised exponentially weighted mean of the squared deviations from the running mean and is >= 0; skewness() and kurtosis() are the corresponding third and fourth moments over variance^(3/2) and variance^2, 0 when the variance is below epsilon; kurtosis() >= 0.", "quantifier": "every choice of factors in (0,1], every history of pushes", "why_tests_cant": "all factors and histories", "anchors": [{"file": "include/trial/online/decay/detail/moment.ipp", "symbols": ["basic_moment<T, with::variance>::push", "variance", "skewness", "kurtosis"]}]}
{"id": "C33", "title": "clear() makes a decay filter indistinguishable from a new one", "statement": "After clear() every decay filter behaves like a freshly constructed one with the same factors.", "quantifier": "every factor, every history before and after clear()", "why_tests_cant": "a forgotten member shows only on some continuation", "anchors": [{"file": "include/trial/online/decay/detail/moment.ipp", "symbols": ["clear"]}]}
{"id": "C34", "title": "P-square is exact for few observations", "statement": "While at most 2Q+3 values were pushed, get<0>() is the minimum, get<Q+1>() the maximum and get<i>() the linearly interpolated order statistic at rank (n-1)*q_i of the values pushed; no out-of-bounds element is read when every q_i<1.", "quantifier": "every quantile list with 0<=q<1, every history up to 2Q+3 values", "why_tests_cant": "all data orders and quantile lists", "anchors": [{"file": "include/trial/online/quantile/detail/psquare.ipp", "symbols": ["push", "get", "value"]}]}
{"id": "C35", "title": "P-square marker positions stay ordered", "statement": "After any history the marker positions reported by parameters() are strictly increasing, the first is 1 and, once 2Q+3 values were pushed, the last equals size(); hence no internal assertion fails and no step length is zero or negative.", "quantifier": "every history, every quantile list, every totally ordered arithmetic", "why_tests_cant": "all histories; unsigned differences wrap if the order is ever violated", "anchors": [{"file": "include/trial/online/quantile/detail/psquare.ipp", "symbols": ["push", "parabolic", "linear", "parameters"]}]}
{"id": "C36", "title": "P-square minimum and maximum are exact", "statement": "After any non-empty history get<0>() is the smallest and get<Q+1>() the largest value pushed since clear().", "quantifier": "every history, every quantile list", "why_tests_cant": "all histories", "anchors": [{"file": "include/trial/online/quantile/detail/psquare.ipp", "symbols": ["push", "get"]}]}
{"id": "C37", "title": "P-square estimates are ordered and within range", "statement": "After any history the marker heights are sorted, so all quantile estimates lie between the smallest and largest value pushed and estimates for larger indices are never smaller.", "quantifier": "every history, every quantile list", "why_tests_cant": "all histories; the adjustment formulas must preserve order in every state", "anchors": [{"file": "include/trial/online/quantile/detail/psquare.ipp", "symbols": ["push", "parabolic", "linear", "get"]}]}
{"id": "C38", "title": "P-square marker adjustment follows the published algorithm", "statement": "Every adjustment of a marker uses the piecewise-parabolic formula, or the linear formula h + s*(h[i+s]-h)/(n[i+s]-n) when the parabolic value is out of order (Jain and Chlamtac).", "quantifier": "every history, every state", "why_tests_cant": "unsigned subtraction in the downward direction is only wrong in rare states", "anchors": [{"file": "include/trial/online/quantile/detail/psquare.ipp", "symbols": ["push", "linear", "parabolic"]}]}
{"id": "C39", "title": "P-square value by ratio selects that quantile", "statement": "value<Q>() returns the estimate for ratio Q whatever order the ratios were listed in.", "quantifier": "every order of the template parameters", "why_tests_cant": "all permutations of all parameter lists", "anchors": [{"file": "include/trial/online/quantile/detail/psquare.ipp", "symbols": ["value", "get", "initialize"]}, {"file": "include/trial/online/quantile/psquare.hpp", "symbols": ["QuantileList", "quantiles"]}]}
{"id": "C40", "title": "P-square is affine-equivariant", "statement": "Pushing a*x+b (a>0) instead of x gives a*value+b for every estimate; constant streams give the constant.", "quantifier": "every history, every quantile list, every a>0 and b", "why_tests_cant": "a relation between pairs of executions", "anchors": [{"file": "include/trial/online/quantile/detail/psquare.ipp", "symbols": ["push", "get"]}]}
{"id": "C41", "title": "P-square save/restore through parameters()", "statement": "Restoring saved parameters() into another estimator reproduces the saved parameters and the saved estimates. Saved parameters compare equal (operator==) to themselves and to those of the restored estimator; two lists compare equal exactly if positions and heights agree.", "quantifier": "every state", "why_tests_cant": "all states, and behaviour after restoring", "anchors": [{"file": "include/trial/online/quantile/detail/psquare.ipp", "symbols": ["parameters"]}, {"file": "include/trial/online/quantile/psquare.hpp", "symbols": ["parameter_type", "operator=="]}]}
{"id": "C42", "title": "P-square clear() and bookkeeping", "statement": "size() counts pushes since clear(), empty() iff 0, value()/get() return 0 when empty, and after clear() the estimator equals a new one, for every arithmetic.", "quantifier": "every history, every arithmetic", "why_tests_cant": "all histories", "anchors": [{"file": "include/trial/online/quantile/detail/psquare.ipp", "symbols": ["clear", "size", "empty", "initialize", "get"]}]}
{"id": "C43", "title": "Interim quantile estimator combines its two half-windows", "statement": "For an estimator that is never copied, get<i>() is the current half-window's P-square estimate until W/2 values were pushed, then (inactive*(W/2-s)+active*2s)/(W/2+s), within the range of the last W values; every internal pointer dereference is valid.", "quantifier": "every even W>0, every history", "why_tests_cant": "all histories and block boundaries", "anchors": [{"file": "include/trial/online/interim/detail/psquare_quantile.ipp", "symbols": ["push", "get", "empty", "clear"]}]}
{"id": "C44", "title": "Copies of an interim quantile estimator are independent", "statement": "Copy-constructing or assigning an estimator yields an object whose later push()/clear() calls do not affect the original, and vice versa, and that stays valid after the original is destroyed.", "quantifier": "every history of operations on several objects", "why_tests_cant": "aliasing between objects shows only in interleaved histories", "anchors": [{"file": "include/trial/online/interim/psquare_quantile.hpp", "symbols": ["basic_psquare_quantile(const basic_psquare_quantile&)", "operator="]}, {"file": "include/trial/online/interim/detail/psquare_quantile.ipp", "symbols": ["push", "get"]}]}
{"id": "C45", "title": "FIR filter is the convolution of the last P inputs", "statement": "After any history finite value() equals sum_i c_i * x_{n-i} over the last min(P,n) inputs since clear(); size/empty/full/capacity follow min(P,n); the filter is linear, shift-invariant, has the coefficients as impulse response and is bounded by sum|c_i| * max|x_i|.", "quantifier": "every coefficient array, every history", "why_tests_cant": "all coefficients and inputs", "anchors": [{"file": "include/trial/online/impulse/detail/finite.ipp", "symbols": ["push", "value", "size", "full", "capacity"]}]}
{"id": "C46", "title": "FIR clear() resets the output", "statement": "After clear() value() is 0 as for a new filter and later behaviour equals that of a new filter.", "quantifier": "every history", "why_tests_cant": "all histories before and after", "anchors": [{"file": "include/trial/online/impulse/detail/finite.ipp", "symbols": ["clear", "value"]}]}
{"id": "C47", "title": "IIR filter satisfies its difference equation", "statement": "After any history infinite value() is the last term of y_n = (sum_i b_i x_{n-i} - sum_j a_j y_{n-1-j})/scale with zero initial conditions since clear(); value() is 0 when empty; the filter is linear; clear() equals a new filter with the same coefficients.", "quantifier": "every coefficient arrays and scale<>0, every history", "why_tests_cant": "all coefficients and inputs, unbounded recursion depth", "anchors": [{"file": "include/trial/online/impulse/detail/infinite.ipp", "symbols": ["push", "value", "clear", "empty"]}]}
{"id": "C48", "title": "Reservoir holds a sample without replacement", "statement": "For a reservoir of N>0 that was never cleared, for every outcome of the random draws: count() is the number of pushes, size() = min(N,count()), the data are values pushed at distinct positions, every element access is in bounds, push() returns true exactly when the element was stored and false leaves data() unchanged.", "quantifier": "every N, every history, every sequence of random outcomes", "why_tests_cant": "all random outcomes, not one seeded run", "anchors": [{"file": "include/trial/online/sampling/detail/reservoir.ipp", "symbols": ["push", "size", "count", "data"]}]}
{"id": "C49", "title": "Reservoir sampling is uniform while count() <= 4N", "statement": "With ideal independent uniform draws, after m pushes (N<=m<=4N) every subset of N positions is equally likely; in particular each value is in the sample with probability N/m.", "quantifier": "every N, every m in [N,4N], every N-subset", "why_tests_cant": "a distribution over m!/N! outcomes", "anchors": [{"file": "include/trial/online/sampling/detail/reservoir.ipp", "symbols": ["push"]}]}
{"id": "C50", "title": "Reservoir sampling stays fair after the switch to skipping", "statement": "After count() exceeds 4N each pushed value is still accepted with the proper probability (not with certainty or never).", "quantifier": "every N, every random outcome", "why_tests_cant": "probabilistic claim at the switch-over point", "anchors": [{"file": "include/trial/online/sampling/detail/reservoir.ipp", "symbols": ["push", "reservoir"]}]}
{"id": "C51", "title": "Reservoir clear() empties the sample", "statement": "After clear() the reservoir is empty, size() never exceeds N afterwards and only values pushed after clear() are sampled.", "quantifier": "every history before and after clear(), every random outcome", "why_tests_cant": "all histories", "anchors": [{"file": "include/trial/online/sampling/detail/reservoir.ipp", "symbols": ["clear", "size", "empty", "push"]}]}
{"id": "C52", "title": "circular_span is a bounded FIFO", "statement": "Under push_back, pop_front, pop_back, clear and assign the span behaves as a bounded sequence that drops its oldest element when full: size/empty/full/front/back agree with that sequence, for every capacity.", "quantifier": "every capacity 1..2^62, every operation sequence respecting the emptiness preconditions", "why_tests_cant": "all capacities and operation sequences; index arithmetic wraps", "anchors": [{"file": "include/trial/online/detail/circular_span.ipp", "symbols": ["push_back", "pop_front", "pop_back", "clear", "assign", "front", "back"]}]}
{"id": "C53", "title": "circular_span push_front works for every capacity", "statement": "push_front prepends (dropping the newest element when full) and mixes freely with push_back, for every capacity.", "quantifier": "every capacity, every operation sequence", "why_tests_cant": "size_t wrap-around modulo a capacity that is not a power of two", "anchors": [{"file": "include/trial/online/detail/circular_span.ipp", "symbols": ["push_front", "front"]}]}
{"id": "C54", "title": "circular_span iteration visits the contents in order", "statement": "begin()..end() yields exactly size() elements, from front() to back(), and terminates, in every reachable state including full and wrapped-around ones.", "quantifier": "every capacity, every reachable state", "why_tests_cant": "all states; begin and end must differ when the span is full", "anchors": [{"file": "include/trial/online/detail/circular_span.ipp", "symbols": ["begin", "end", "operator++", "operator==", "operator*"]}]}
{"id": "C55", "title": "circular_span never accesses memory outside the buffer", "statement": "Every element access computes an index below the capacity for every position value, provided capacity>0.", "quantifier": "every capacity>0, every position, every operation sequence", "why_tests_cant": "all positions", "anchors": [{"file": "include/trial/online/detail/circular_span.ipp", "symbols": ["index", "at"]}]}
{"id": "C56", "title": "push_inserter feeds values in order", "statement": "Driving std::copy / copy_if / transform / move through push_inserter(filter) has exactly the effect of calling push() for each selected value in sequence order, for every filter.", "quantifier": "every filter, every input sequence, predicate and transformation", "why_tests_cant": "all filters and sequences", "anchors": [{"file": "include/trial/online/iterator.hpp", "symbols": ["push_iterator", "push_inserter"]}]}
{"id": "C57", "title": "close_to is a symmetric, reflexive tolerance test", "statement": "close_to is symmetric, accepts equal finite values, accepts values within the relative tolerance and rejects values farther apart than both tolerances; NaN and infinities are never close to anything, themselves included.", "quantifier": "every pair of values and tolerances", "why_tests_cant": "all pairs of values", "anchors": [{"file": "include/trial/online/detail/functional.hpp", "symbols": ["operator()"]}]}
{"id": "C58", "title": "Integer cumulative mean stays in range and close to the true mean", "statement": "For cumulative::moment over an integer type, mean() lies between the smallest and largest pushed value, push() never has undefined behaviour, and mean() approximates the true mean to within one unit.", "quantifier": "every integer type width, every history", "why_tests_cant": "truncation accumulates; the divisor is the count converted to the value type, which wraps", "anchors": [{"file": "include/trial/online/cumulative/detail/moment.ipp", "symbols": ["basic_moment<T, with::mean>::push"]}]}
{"id": "C59", "title": "NaN handling over all continuations", "statement": "In binary64: once a NaN was pushed, cumulative, decay and window mean() stay NaN until clear() for every continuation; FIR output and interim mean recover once the NaN has left their window.", "quantifier": "every history before and every continuation after the NaN", "why_tests_cant": "all continuations", "anchors": [{"file": "include/trial/online/cumulative/detail/moment.ipp", "symbols": ["push"]}, {"file": "include/trial/online/decay/detail/moment.ipp", "symbols": ["push"]}, {"file": "include/trial/online/window/detail/moment.ipp", "symbols": ["push"]}, {"file": "include/trial/online/interim/detail/moment.ipp", "symbols": ["push"]}, {"file": "include/trial/online/impulse/detail/finite.ipp", "symbols": ["push"]}]}
{"id": "C60", "title": "circular_span constructed with initial contents starts at the given element", "statement": "A span constructed from (begin, end, first, length) contains the length elements starting at first: front() is *first and size() is length.", "quantifier": "every array, every first and length with first+length <= capacity", "why_tests_cant": "all capacities, offsets and lengths; wrap-around of next - size", "anchors": [{"file": "include/trial/online/detail/circular_span.ipp", "symbols": ["circular_span", "front", "begin"]}]}
{"id": "C61", "title": "Variance after a NaN", "statement": "In binary64: once a NaN was pushed, variance() and unbiased_variance() of the cumulative, decay and window moment filters are NaN until clear(), so a caller can tell that the result is meaningless.", "quantifier": "every history before and every continuation after the NaN, every window capacity and decay factor", "why_tests_cant": "all continuations; a clamping maximum silently replaces NaN", "anchors": [{"file": "include/trial/online/cumulative/detail/moment.ipp", "symbols": ["basic_moment<T, with::variance>::variance"]}, {"file": "include/trial/online/window/detail/moment.ipp", "symbols": ["basic_moment<T, N, with::variance>::variance", "unbiased_variance"]}, {"file": "include/trial/online/decay/detail/moment.ipp", "symbols": ["basic_moment<T, with::variance>::variance"]}]}
{"id": "C62", "title": "Integer finite impulse response", "statement": "For impulse::finite over an integer type, value() after a push is the inner product of the coefficients with the most recent values (newest first, since the last clear), exact whenever that fits the type and otherwise reduced modulo 2^bits; push() never has undefined behaviour.", "quantifier": "every integer type, every coefficient list, every history", "why_tests_cant": "all coefficient/value combinations; overflow of promoted products for particular widths only", "anchors": [{"file": "include/trial/online/impulse/detail/finite.ipp", "symbols": ["finite<T>::push", "finite<T>::value"]}]}
{"id": "C63", "title": "Sign of integer variance and covariance", "statement": "For integer value types, variance() of the cumulative moment filter is never negative, and the covariance of values on a decreasing line is never positive.", "quantifier": "every integer type, every history without overflow", "why_tests_cant": "all histories; the sign depends on narrowing of the sum of squares and on mixed signed/unsigned division", "anchors": [{"file": "include/trial/online/cumulative/detail/moment.ipp", "symbols": ["basic_moment<T, with::variance>::push", "basic_moment<T, with::variance>::variance"]}, {"file": "include/trial/online/cumulative/detail/comoment.ipp", "symbols": ["basic_comoment<T, with::variance>::variance"]}]}
{"id": "C64", "title": "Integer unbiased mean", "statement": "For integer value types, unbiased_mean() of the cumulative moment filter is mean() * n / (n - 1) truncated, for negative as well as positive means.", "quantifier": "every integer type, every history of at least two values", "why_tests_cant": "sign- and width-dependent integer conversions", "anchors": [{"file": "include/trial/online/cumulative/detail/moment.ipp", "symbols": ["basic_moment<T, with::mean>::unbiased_mean"]}]}
{"id": "C65", "title": "Accuracy of the cumulative mean", "statement": "For floating-point values of magnitude at most M, cumulative mean() after n pushes since the last clear differs from the exact arithmetic mean of the pushed values by at most a small multiple of n units of rounding error of M: the error grows at most linearly in n and never by catastrophic cancellation.", "quantifier": "every history, every binary format and rounding mode; binary64 for up to 2^49 finite values of magnitude up to 2^1018", "why_tests_cant": "an error bound over all inputs cannot be settled by sample inputs compared with a tolerance", "anchors": [{"file": "include/trial/online/cumulative/detail/moment.ipp", "symbols": ["basic_moment<T, with::mean>::push", "basic_moment<T, with::mean>::mean"]}]}
{"id": "C66", "title": "Drift of the window mean", "statement": "Window mean() is updated incrementally and keeps the rounding errors of values that have left the window. After n pushes since the last clear it differs from the exact mean of the last W values by at most n times a constant multiple of the rounding unit of the largest magnitude pushed.", "quantifier": "every window size, every history, every binary format and rounding mode; binary64 for up to 2^49 values", "why_tests_cant": "long-run drift over arbitrarily long streams", "anchors": [{"file": "include/trial/online/window/detail/moment.ipp", "symbols": ["basic_moment<T, N, with::mean>::push", "basic_moment<T, N, with::mean>::mean"]}]}
{"id": "C67", "title": "Decay mean does not accumulate rounding errors", "statement": "Decay mean() with factor f differs from the exact exponentially weighted mean by at most a constant multiple of the rounding unit of the largest magnitude divided by f, no matter how many values have been pushed.", "quantifier": "every sequence of any length, every factor that is not tiny compared to the rounding unit, every binary format and rounding mode; binary64", "why_tests_cant": "uniform bound over streams of unbounded length", "anchors": [{"file": "include/trial/online/decay/detail/moment.ipp", "symbols": ["basic_moment<T, with::mean>::push", "basic_moment<T, with::mean>::mean"]}]}
{"id": "C68", "title": "Accuracy of the finite impulse response", "statement": "impulse::finite value() differs from the exact convolution by at most a multiple of p rounding units of the sum of the absolute values of the products, for p coefficients, independent of the length of the history.", "quantifier": "every coefficient list and history, every binary format and rounding mode; binary64 without overflow", "why_tests_cant": "error bound over all coefficients and inputs", "anchors": [{"file": "include/trial/online/impulse/detail/finite.ipp", "symbols": ["finite<T>::push", "finite<T>::value"]}]}
{"id": "C69", "title": "Infinite impulse response does not accumulate rounding errors", "statement": "When the feedback coefficients are in total smaller than scale in magnitude, impulse::infinite value() stays within a fixed bound (proportional to the rounding unit and to 1/(1 - feedback gain)) of the exact solution of the difference equation, no matter how long the history.", "quantifier": "every coefficient list with feedback gain below one, every history, every binary format and rounding mode; binary64 without overflow", "why_tests_cant": "uniform bound over streams of unbounded length; feedback could amplify rounding errors", "anchors": [{"file": "include/trial/online/impulse/detail/infinite.ipp", "symbols": ["infinite<T>::push", "infinite<T>::value"]}]}
{"id": "C70", "title": "Accuracy of cumulative variance and covariance", "statement": "For values of magnitude at most M, cumulative variance() after n pushes differs from the exact variance by at most a multiple of n rounding units of M squared; likewise covariance with Mx times My.", "quantifier": "every history, every binary format and rounding mode; binary64 for up to 2^47 values", "why_tests_cant": "error bound over all inputs; cancellation appears only for special data", "anchors": [{"file": "include/trial/online/cumulative/detail/moment.ipp", "symbols": ["basic_moment<T, with::variance>::push", "basic_moment<T, with::variance>::variance"]}, {"file": "include/trial/online/cumulative/detail/comoment.ipp", "symbols": ["basic_comoment<T, with::variance>::push", "basic_comoment<T, with::variance>::variance"]}]}
{"id": "C71", "title": "Drift of the window variance", "statement": "Window variance() keeps a running sum of squares, so rounding errors of values that have left the window remain; after n pushes it differs from the exact variance of the k values in the window by at most (n/k) times a multiple of n rounding units of the squared largest magnitude.", "quantifier": "every window size, every history, every binary format and rounding mode; binary64 for up to 2^47 values", "why_tests_cant": "long-run drift over arbitrarily long streams", "anchors": [{"file": "include/trial/online/window/detail/moment.ipp", "symbols": ["basic_moment<T, N, with::variance>::push", "basic_moment<T, N, with::variance>::variance"]}]}
{"id": "C72", "title": "Decay variance does not accumulate rounding errors", "statement": "Decay variance() stays within a fixed distance (a multiple of the rounding unit of the squared largest magnitude, divided by the factors) of the exact exponentially weighted mean of the squared deviations, no matter how many values have been pushed.", "quantifier": "every sequence of any length, every pair of factors that are not tiny compared to the rounding unit, every binary format and rounding mode; binary64", "why_tests_cant": "uniform bound over streams of unbounded length", "anchors": [{"file": "include/trial/online/decay/detail/moment.ipp", "symbols": ["basic_moment<T, with::variance>::push", "basic_moment<T, with::variance>::variance"]}]}
{"id": "C73", "title": "Integer filters are exact while the running mean is an integer", "statement": "With an integer value type, if after every push the mean of the values since the last clear is an integer and the intermediate quantities fit the type, then mean() is exactly that mean, variance() is the sum of squared deviations divided by the number of values rounded down, and covariance() is the sum of products of deviations divided by the number of values rounded down when that sum is not negative. The same holds for the mean and variance of a window of signed integers when the mean of every window is an integer.", "quantifier": "all eight integer types, every history of pushes and clears", "why_tests_cant": "the unit tests use a few sequences in one or two types; exactness is claimed for all sequences and types", "anchors": [{"file": "include/trial/online/cumulative/detail/moment.ipp", "symbols": ["basic_moment<T, with::mean>::push", "basic_moment<T, with::variance>::push", "basic_moment<T, with::variance>::variance"]}, {"file": "include/trial/online/cumulative/detail/comoment.ipp", "symbols": ["basic_comoment<T, with::variance>::push", "basic_comoment<T, with::variance>::variance"]}, {"file": "include/trial/online/window/detail/moment.ipp", "symbols": ["push", "mean", "variance"]}]}
{"id": "C74", "title": "P-square estimates stay ordered and within range in floating point", "statement": "With floating-point values (for double: finite, magnitude at most 2^980, at most 2^27 of them) the rounding errors of the parabolic and linear formulas never disturb the order of the markers: the heights in parameters() are sorted, and every get<i> is a finite number between the smallest and the largest value pushed since the last clear, for any number of values.", "quantifier": "every binary format with 8 or more bits, every quantile list, every history; binary64 as instance", "why_tests_cant": "rounding could swap neighbouring markers only for special inputs; all inputs and all states have to be excluded", "anchors": [{"file": "include/trial/online/quantile/detail/psquare.ipp", "symbols": ["push", "parabolic", "linear", "get", "parameters"]}]}
{"id": "C75", "title": "P-square interpolation of few observations in floating point", "statement": "Before the markers are in use, get<i> for the ratio p of finite values is the interpolated order statistic of rank (n-1)*p up to a small multiple of the rounding unit, and lies in the range of the values.", "quantifier": "every list of ratios, every number of values up to 2Q+3", "why_tests_cant": "the result depends on whether rank and rank + 1 round to the same side of an integer, which happens only for rare combinations of ratio and size", "anchors": [{"file": "include/trial/online/quantile/detail/psquare.ipp", "symbols": ["get"]}]}
{"id": "C76", "title": "Deprecated moment::exponential and moment::arithmetic", "statement": "moment::exponential<T, Ratio> accepts exactly the ratios in (0, 1]; value() is the exponentially weighted mean, with the ratio as factor, of the values since the last clear, and on double the rounding of the ratio and of all pushes together changes it by at most 215 rounding units of the largest magnitude divided by the ratio, however many values are pushed. moment::arithmetic and arithmetic_variance report mean and variance of the last N values.", "quantifier": "every ratio, window size and history", "why_tests_cant": "rounding of the ratio is repeated on every push; that the effect does not accumulate needs an argument over all histories", "anchors": [{"file": "include/trial/online/moment/exponential.hpp", "symbols": ["exponential", "value"]}, {"file": "include/trial/online/moment/arithmetic.hpp", "symbols": ["arithmetic", "arithmetic_variance"]}]}
{"id": "C77", "title": "Change of unit", "statement": "Recording the same data in another unit only changes the unit of the result: if every value pushed is multiplied by c, mean, trend, impulse response and (c > 0) quantile estimates are multiplied by c, variances by c^2, covariance by both factors, a slope by the quotient, and skewness, kurtosis and correlation do not change. Exactly so in real arithmetic for every c, and in floating point for every power of two, without any additional rounding error, as long as nothing overflows or underflows.", "quantifier": "every history, window size, coefficient list, quantile list and factor; every precision and rounding mode", "why_tests_cant": "an absolute threshold, an integer intermediate or a mixed unit shows only for data of a scale the tests do not use", "anchors": [{"file": "include/trial/online/cumulative/detail/moment.ipp", "symbols": ["mean", "variance", "skewness", "kurtosis"]}, {"file": "include/trial/online/cumulative/detail/comoment.ipp", "symbols": ["variance"]}, {"file": "include/trial/online/cumulative/detail/regression.ipp", "symbols": ["slope", "at"]}, {"file": "include/trial/online/window/detail/moment.ipp", "symbols": ["push", "variance"]}, {"file": "include/trial/online/interim/detail/moment.ipp", "symbols": ["mean", "variance"]}, {"file": "include/trial/online/decay/detail/moment.ipp", "symbols": ["mean", "variance", "skewness", "kurtosis"]}, {"file": "include/trial/online/quantile/detail/psquare.ipp", "symbols": ["push", "get"]}]}
{"id": "C78", "title": "Change of sign on double", "statement": "Negating the data negates every odd statistic (mean, trend, skewness, covariance and slope for one component, impulse response) and leaves every even one (variance, kurtosis) unchanged, to the last bit apart from the sign of zero, for all doubles including NaN, infinities, subnormals and overflow.", "quantifier": "every history of doubles, window size, decay factor and coefficient list", "why_tests_cant": "an asymmetric comparison or rounding shows only for particular values of particular sign", "anchors": [{"file": "include/trial/online/cumulative/detail/moment.ipp", "symbols": ["mean", "variance", "skewness", "kurtosis"]}, {"file": "include/trial/online/cumulative/detail/correlation.ipp", "symbols": ["value"]}, {"file": "include/trial/online/window/detail/moment.ipp", "symbols": ["push", "variance"]}, {"file": "include/trial/online/decay/detail/moment.ipp", "symbols": ["skewness"]}, {"file": "include/trial/online/impulse/detail/infinite.ipp", "symbols": ["push", "value"]}]}
{"id": "C79", "title": "Range comparison of the test header", "statement": "TRIAL_TEST_ALL_WITH / TRIAL_TEST_ALL_EQ report a failure exactly if the two ranges differ in length or in some element; the report lists the first eight differing positions in order, with dots if there are more, and both sizes if they differ. Every failed check is counted, so that the test program's exit status is an error.", "quantifier": "all pairs of ranges and predicates, every version of Boost", "why_tests_cant": "the helpers are what the tests themselves are judged with; a helper that loses failures makes every test pass", "anchors": [{"file": "include/trial/online/detail/lightweight_test.hpp", "symbols": ["test_failure", "test_with_impl", "test_all_eq_impl", "test_all_with_impl"]}]}
{"id": "C80", "title": "Filters for more moments report the same lower statistics bit for bit", "statement": "After any sequence of push and clear calls, a moment filter parametrised with variance, skewness or kurtosis reports exactly the size, mean, variance and skewness that the filter with fewer moments reports after the same sequence; this holds in the cumulative, window, interim and decay families. Cumulative correlation and regression values are the stated quotients of exactly the covariance, variances and means that separate filters report.", "quantifier": "every element type (any arithmetic, rounding included), every finite history of push and clear, every window size and every decay factor", "why_tests_cant": "Bitwise equality must hold after every history and for every element type, including NaN and infinities; tests compare a few streams with a tolerance.", "anchors": [{"file": "include/trial/online/cumulative/detail/moment.ipp", "symbols": ["push", "mean", "variance", "skewness"]}, {"file": "include/trial/online/window/detail/moment.ipp", "symbols": ["push", "mean"]}, {"file": "include/trial/online/interim/detail/moment.ipp", "symbols": ["push", "mean", "variance"]}, {"file": "include/trial/online/decay/detail/moment.ipp", "symbols": ["push", "mean", "variance"]}]}
{"id": "C81", "title": "Window and interim filters agree with cumulative filters until they are full", "statement": "As long as no more values than the window size have been pushed since the last clear, a window mean filter reports exactly the mean and size of the cumulative filter, a window variance filter reports the larger of zero and exactly the cumulative variance (unbiased likewise), and the interim filters report exactly the cumulative mean, variance, skewness, kurtosis and covariance.", "quantifier": "every element type (any arithmetic, rounding included), every window size, every history of push and clear with at most that many values since the last clear", "why_tests_cant": "Bitwise agreement between two independent recurrences over all histories and window sizes cannot be enumerated.", "anchors": [{"file": "include/trial/online/window/detail/moment.ipp", "symbols": ["push", "mean", "variance", "unbiased_variance"]}, {"file": "include/trial/online/interim/detail/moment.ipp", "symbols": ["push", "mean", "variance"]}, {"file": "include/trial/online/cumulative/detail/moment.ipp", "symbols": ["push", "mean", "variance"]}]}
{"id": "C82", "title": "Statistics of filters with too few values", "statement": "Asking a filter that holds too few values for a statistic (an empty filter, or a single value for the unbiased statistics) is defined and returns 0.", "quantifier": "every filter family, double and all eight integer types, every history that leaves too few values", "why_tests_cant": "the unit tests query a few freshly constructed filters of a few types; the claim is about every filter state without enough values, in all types", "anchors": [{"file": "include/trial/online/cumulative/detail/moment.ipp", "symbols": ["variance", "unbiased_variance", "unbiased_mean"]}, {"file": "include/trial/online/cumulative/detail/comoment.ipp", "symbols": ["variance", "unbiased_variance"]}, {"file": "include/trial/online/window/detail/moment.ipp", "symbols": ["variance", "unbiased_variance"]}, {"file": "include/trial/online/interim/detail/moment.ipp", "symbols": ["mean", "variance"]}]}
{"id": "C83", "title": "Change of origin", "statement": "Adding one constant to every pushed value adds it to every mean, trend and quantile estimate and leaves variances, skewness, kurtosis, covariance, correlation and slope as they were.", "quantifier": "every constant, every history of push and clear, every window length, decay factor and list of quantile ratios", "why_tests_cant": "a test compares a few streams with one shifted copy each; the claim relates every stream to every shifted copy of it", "anchors": [{"file": "include/trial/online/cumulative/detail/moment.ipp", "symbols": ["push", "mean", "variance", "skewness", "kurtosis", "unbiased_mean"]}, {"file": "include/trial/online/cumulative/detail/comoment.ipp", "symbols": ["push", "variance"]}, {"file": "include/trial/online/window/detail/moment.ipp", "symbols": ["push", "mean", "variance"]}, {"file": "include/trial/online/interim/detail/moment.ipp", "symbols": ["push", "mean", "variance"]}, {"file": "include/trial/online/decay/detail/moment.ipp", "symbols": ["push", "mean", "variance"]}, {"file": "include/trial/online/quantile/detail/psquare.ipp", "symbols": ["push", "get"]}]}
{"id": "C84", "title": "Example programs print the regression of the file", "statement": "Given a file of coordinate pairs, the example programs print one row per pair, in order, and each row holds the slope and intercept of the least squares line through the pairs so far (through the last 64 pairs for the window program).", "quantifier": "every file of well-formed pairs, including the empty and the unreadable file", "why_tests_cant": "the examples are not tested at all; the claim is about files of every length and the end-of-file behaviour of the read loop", "anchors": [{"file": "example/regression/cumulative.cpp", "symbols": ["main"]}, {"file": "example/regression/window.cpp", "symbols": ["main"]}, {"file": "include/trial/online/cumulative/detail/regression.ipp", "symbols": ["push", "slope", "at"]}, {"file": "include/trial/online/window/detail/regression.ipp", "symbols": ["push", "slope", "at"]}]}
{"id": "C85", "title": "Larger data give larger results", "statement": "If every value of one stream is at least the corresponding value of another, then its mean, its quantile estimates and its response through non-negative coefficients are at least those of the other.", "quantifier": "all pairs of histories with clear() in the same places and values ordered pairwise, every window length, decay factor, list of quantile ratios and list of coefficients", "why_tests_cant": "a relation between all pairs of streams; rounding makes it fail only on rare pairs that tests do not hit", "anchors": [{"file": "include/trial/online/cumulative/detail/moment.ipp", "symbols": ["push", "mean"]}, {"file": "include/trial/online/window/detail/moment.ipp", "symbols": ["push", "mean"]}, {"file": "include/trial/online/interim/detail/moment.ipp", "symbols": ["push", "mean"]}, {"file": "include/trial/online/decay/detail/moment.ipp", "symbols": ["push", "mean"]}, {"file": "include/trial/online/impulse/detail/finite.ipp", "symbols": ["push", "value"]}, {"file": "include/trial/online/impulse/detail/infinite.ipp", "symbols": ["push", "value"]}, {"file": "include/trial/online/quantile/detail/psquare.ipp", "symbols": ["push", "get"]}]}
{"id": "C86", "title": "Integer infinite impulse response", "statement": "For impulse::infinite over a signed integer type: provided the weighted sums of the inputs and of the outputs, their difference and the quotient fit the type, push() is defined and each output is the weighted inputs less the weighted earlier outputs, divided by the scale and truncated towards zero; value() is the newest output, and clear() makes the filter as new.", "quantifier": "every signed integer type, every pair of coefficient lists, every non-zero scale, bound on the inputs and history", "why_tests_cant": "feedback accumulates truncation over unbounded histories; overflow only for particular widths and coefficients", "anchors": [{"file": "include/trial/online/impulse/detail/infinite.ipp", "symbols": ["infinite<T>::push", "infinite<T>::value", "infinite<T>::clear"]}]}
{"id": "C87", "title": "An integer smoother follows a constant input", "statement": "A unit-gain recursive smoother over an integer type (input coefficient 1, output coefficient 1-k, scale k) fed a constant value eventually outputs that value.", "quantifier": "every signed integer type, every scale k >= 2, every positive constant with k times it within the type, every number of pushes", "why_tests_cant": "the steady state is a statement about all sufficiently long inputs; the dead band depends on the scale", "anchors": [{"file": "include/trial/online/impulse/detail/infinite.ipp", "symbols": ["infinite<T>::push", "infinite<T>::value"]}]}
{"id": "C88", "title": "Interim statistics keep their accuracy however long the stream", "statement": "In floating point, mean(), variance(), covariance(), skewness() and kurtosis() of the interim filters stay within an error bound that depends on the window, on the magnitude of the last 2W values and (skewness, kurtosis) on the smallest variance of the two blocks only: it does not grow with the number of pushes, and earlier values, even infinities and NaN, leave no trace.", "quantifier": "every window, every history of pushes and clears of any length, every value of bounded magnitude among the last 2W and any value before them", "why_tests_cant": "error accumulation over unbounded streams and arbitrary rounding cannot be enumerated", "anchors": [{"file": "include/trial/online/interim/detail/moment.ipp", "symbols": ["push", "mean", "variance", "skewness", "kurtosis"]}, {"file": "include/trial/online/interim/detail/comoment.ipp", "symbols": ["push", "variance"]}]}
{"id": "C89", "title": "Decayed and interim variances are never negative in floating point", "statement": "variance() and kurtosis() of the decay filters never compare less than zero, whatever is pushed (NaN and infinities included) and in every rounding mode and precision; variance() of an interim filter is at least zero and not NaN as long as its last 2W values are finite and below 2^1023.", "quantifier": "every history of pushes and clears, every double, every factor between 0 and 1, every format and rounding mode, every window", "why_tests_cant": "rounding could make a difference of running sums negative for particular values; all doubles and all orders cannot be enumerated", "anchors": [{"file": "include/trial/online/decay/detail/moment.ipp", "symbols": ["push", "variance", "kurtosis"]}, {"file": "include/trial/online/interim/detail/moment.ipp", "symbols": ["variance"]}]}
{"id": "C90", "title": "Means stay within the range of the data in floating point", "statement": "mean() of the window, interim and decay filters over double lies between the smallest and the largest of the values it is the mean of (as the cumulative mean does, C12).", "quantifier": "every history, every window, every factor, every finite double of bounded magnitude", "why_tests_cant": "depends on how each division and product rounds", "anchors": [{"file": "include/trial/online/window/detail/moment.ipp", "symbols": ["mean"]}, {"file": "include/trial/online/interim/detail/moment.ipp", "symbols": ["mean"]}, {"file": "include/trial/online/decay/detail/moment.ipp", "symbols": ["mean"]}]}
{"id": "C91", "title": "Decay filters and stable recursive filters forget their past", "statement": "Two decay filters (or two recursive impulse response filters whose feedback coefficients are smaller than |scale| in total) with the same parameters but different histories converge geometrically once they receive the same values: the decay means after n common values differ by at most (hi-lo)(1-f)^n, and a recursive filter fed a constant c settles at c*sum(b)/(scale+sum(a)) whatever came before. A finite filter settles at c*sum(coefficients) after as many values as it has coefficients.", "quantifier": "every pair of histories (clears included) of any length, every common tail of any length, every factor, all coefficients with sum|a| < |scale|", "why_tests_cant": "a statement about pairs of unbounded histories; a test observes one history and finitely many steps", "anchors": [{"file": "include/trial/online/decay/detail/moment.ipp", "symbols": ["push", "mean", "variance"]}, {"file": "include/trial/online/impulse/detail/infinite.ipp", "symbols": ["push", "value"]}, {"file": "include/trial/online/impulse/detail/finite.ipp", "symbols": ["push", "value"]}]}
{"id": "C92", "title": "Accuracy of cumulative regression", "statement": "In double, when the variance of the x values exceeds twice the rounding error of its own computation, slope() is finite and within an explicit bound of the slope of the least-squares line through the pairs since the last clear, and at(p) is within an explicit bound of the line at p. The bound grows linearly with the number of pairs and with the ratio of the squared magnitude to the variance. The bounds for slope() and at() hold in every other binary format and rounding direction too, float included, as long as nothing overflows.", "quantifier": "every history of pushes and clears with up to 2^47 pairs since the last clear, all finite values up to 2^480, every finite position", "why_tests_cant": "rounding errors of arbitrary data and length; tests compare a handful of fits with a tolerance", "anchors": [{"file": "include/trial/online/cumulative/detail/regression.ipp", "symbols": ["push", "slope", "at"]}, {"file": "include/trial/online/cumulative/detail/comoment.ipp", "symbols": ["push", "variance"]}]}
{"id": "C93", "title": "Accuracy of cumulative correlation", "statement": "In double, when the product of the variances exceeds the epsilon cut-off and the rounding error of its own computation, value() is finite and within an explicit bound of Pearson's coefficient, so it leaves the range [-1, 1] by no more than that bound. The same holds in every other binary format and rounding direction, with that format's epsilon, as long as nothing overflows.", "quantifier": "every history of pushes and clears with up to 2^47 pairs since the last clear, all finite values up to 2^480", "why_tests_cant": "rounding errors of arbitrary data and length; a result of 1.0000000000000002 appears only for particular data", "anchors": [{"file": "include/trial/online/cumulative/detail/correlation.ipp", "symbols": ["push", "value"]}]}
{"id": "C94", "title": "Accuracy of cumulative skewness and kurtosis", "statement": "In double, for values of magnitude at most M with standard deviation sigma, skewness() is within (406n+9300) 2^-53 (M/sigma)^3 and kurtosis() within (4140n+96000) 2^-53 (M/sigma)^4 of the true value, provided the third (fourth) central sum clears the epsilon cut-off by its own rounding error and M/sigma is not so large that the variance itself is lost. When the third central sum is below the cut-off by more than its error, skewness() is exactly 0. Without the condition on the cut-off, the same bounds hold up to a constant and 2^-52 / sigma^3 (2^-52 / sigma^4), for max(0, skewness) and for kurtosis. The bias-corrected statistics inherit the bounds times their correction factors.", "quantifier": "every history of pushes and clears with up to 2^40 (kurtosis: 2^26) finite values since the last clear, magnitudes 2^-200 to 2^200", "why_tests_cant": "rounding errors of arbitrary data and length accumulate through four nested recurrences; tests compare a handful of short sequences with a tolerance", "anchors": [{"file": "include/trial/online/cumulative/detail/moment.ipp", "symbols": ["push", "skewness", "kurtosis"]}]}
{"id": "C95", "title": "Infinities and NaN in the data show in the results", "statement": "In double, if any value pushed since the last clear() (for the interim and finite impulse filters: any value within reach of their window) is an infinity or NaN, then every statistic is an infinity or NaN, so a finite result certifies finite data. Conversely finite data give finite means.", "quantifier": "every history of pushes and clears, any doubles before and after, every window size and every accepted decay factor", "why_tests_cant": "the position of the value, the data around it and the length of the history are unbounded", "anchors": [{"file": "include/trial/online/cumulative/detail/moment.ipp", "symbols": ["push", "mean", "variance", "skewness", "kurtosis"]}, {"file": "include/trial/online/cumulative/detail/comoment.ipp", "symbols": ["push"]}, {"file": "include/trial/online/cumulative/detail/regression.ipp", "symbols": ["slope", "at"]}, {"file": "include/trial/online/cumulative/detail/correlation.ipp", "symbols": ["value"]}, {"file": "include/trial/online/window/detail/moment.ipp", "symbols": ["push", "mean", "variance"]}, {"file": "include/trial/online/window/detail/comoment.ipp", "symbols": ["push", "variance"]}, {"file": "include/trial/online/window/detail/regression.ipp", "symbols": ["slope", "at"]}, {"file": "include/trial/online/decay/detail/moment.ipp", "symbols": ["push", "mean", "variance", "skewness", "kurtosis"]}, {"file": "include/trial/online/interim/detail/moment.ipp", "symbols": ["push", "mean", "variance", "kurtosis"]}, {"file": "include/trial/online/impulse/detail/finite.ipp", "symbols": ["push"]}, {"file": "include/trial/online/impulse/detail/infinite.ipp", "symbols": ["push"]}]}
{"id": "C96", "title": "Accuracy of window covariance and of window and interim regression", "statement": "In double, variance() of the window covariance filter is within n (64 2^-53 Mx My) (plus underflow terms) of the covariance of the last W pairs, however many pairs n have passed, where Mx and My bound the magnitudes since the last clear. If the variance of x over the window exceeds twice its own error, slope() and at() of the window regression are within explicit bounds of the least squares line of the last W pairs. slope() of the interim regression is within an explicit bound of the ratio of the weighted covariance and variance of its two blocks, for any number of pushes, and, as long as clear() is not called, at() within an explicit bound of the line through the weighted means. The bounds for the window covariance and the window slope hold in every other binary format and rounding direction, as long as nothing overflows.", "quantifier": "every history of pushes and clears (interim at(): pushes only) with finite doubles, every window size (interim: up to 2^26), window histories up to 2^47 pairs since the last clear, magnitudes 2^-1000 to 2^460 (interim: 2^480)", "why_tests_cant": "rounding errors of pairs that have left the window stay in the running sums, so the error depends on the whole unbounded history", "anchors": [{"file": "include/trial/online/window/detail/comoment.ipp", "symbols": ["push", "variance"]}, {"file": "include/trial/online/window/detail/regression.ipp", "symbols": ["slope", "at"]}, {"file": "include/trial/online/interim/detail/regression.ipp", "symbols": ["slope", "at"]}]}
{"id": "C97", "title": "Reported statistics satisfy the classical inequalities", "statement": "In exact arithmetic the numbers a filter reports are consistent with each other and with the data: the mean lies between minimum and maximum, the variance is at most (max-mean)(mean-min) and a quarter of the squared range, every value is within sqrt(n-1) standard deviations of the mean, at most n variance/d^2 values are further than d from it (Chebyshev) (cumulative and window); kurtosis() is 0 or between skewness()^2+1 and n; the squared covariance is at most the product of the variances (cumulative and interim); the product of the two regression slopes lies in [0,1] and equals the squared correlation; the decayed variance is at most the squared range, and the decayed kurtosis is at least 1 and at least the squared skewness. In float and every other IEEE format the inequalities for the cumulative mean and variance hold up to the rounding errors of C110.", "quantifier": "every history of pushes and clears, every window size (interim: up to 2^32), every decay factor (skewness and kurtosis: a common factor), up to 2^32+1 values for kurtosis", "why_tests_cant": "the inequalities relate several outputs of different filters for arbitrary data", "anchors": [{"file": "include/trial/online/cumulative/detail/moment.ipp", "symbols": ["mean", "variance", "skewness", "kurtosis"]}, {"file": "include/trial/online/cumulative/detail/comoment.ipp", "symbols": ["variance"]}, {"file": "include/trial/online/cumulative/detail/regression.ipp", "symbols": ["slope"]}, {"file": "include/trial/online/cumulative/detail/correlation.ipp", "symbols": ["value"]}, {"file": "include/trial/online/window/detail/moment.ipp", "symbols": ["mean", "variance"]}, {"file": "include/trial/online/interim/detail/moment.ipp", "symbols": ["variance"]}, {"file": "include/trial/online/interim/detail/comoment.ipp", "symbols": ["variance"]}, {"file": "include/trial/online/decay/detail/moment.ipp", "symbols": ["variance", "skewness", "kurtosis"]}]}
{"id": "C98", "title": "Interim quantile estimates in floating point", "statement": "In double every estimate of the interim quantile filter is a finite number between the smallest and the largest of the last W values up to 7 2^-53 M (M bounds their magnitude); without tolerance while at most W/2 values were pushed. Once the current half window holds more than 2Q+3 values, the estimates are in the order of their index, without tolerance. Over float and every other IEEE value type with at least 8 bits the same holds with the rounding unit of the type.", "quantifier": "every even window up to 2^28, every list of quantiles between 0 and 1-2^-50 (order: any list), every history of pushes and clears whose last W values are finite with magnitude at most 2^980, estimators that are not copied; other value types: windows up to min(2^28, 2^prec), magnitude at most 2^(emax-33), quantiles up to 1-2^(3-prec)", "why_tests_cant": "rounding in the marker adjustment and in the combination of the half windows depends on the whole window contents", "anchors": [{"file": "include/trial/online/interim/detail/psquare_quantile.ipp", "symbols": ["push", "get"]}, {"file": "include/trial/online/quantile/detail/psquare.ipp", "symbols": ["push", "get"]}]}
{"id": "C99", "title": "Accuracy of the trend", "statement": "In binary64, after at most 2^49 finite values of magnitude at most M, cumulative::trend value() is finite and within 13 times the error bound of mean() of 3*mean - 2*(mean of the running means); when the values form an arithmetic progression it is that close to the last of them. The same holds in every other binary format and rounding direction as long as nothing overflows.", "quantifier": "every history, every M, every progression, every format and rounding direction", "why_tests_cant": "Rounding errors depend on every bit of every value; tests compare a handful of sequences with a tolerance, the bound covers all sequences of every length and states how the error grows.", "anchors": [{"file": "include/trial/online/cumulative/detail/trend.ipp", "symbols": ["push", "value"]}, {"file": "include/trial/online/cumulative/trend.hpp", "symbols": ["trend"]}]}
{"id": "C100", "title": "Expected values: which statistics are unbiased estimators", "statement": "For independent observations from any distribution with finitely many values pushed after a clear(), the expected value of mean() of the cumulative, window, interim and decay filters is the mean of the distribution; the expected value of unbiased_variance() of the cumulative and window variance filters is its variance, and that of the covariance filters its covariance, while variance() is (n-1)/n times that (n values in use); the expected squared error of the cumulative mean() is the variance over n; slope() and at() of the regressions are unbiased when the expected responses lie on a line. unbiased_mean() and unbiased_skewness() are unbiased estimators as their names say.", "quantifier": "every finite distribution, every number of observations, every window length and decay factor, every previous history", "why_tests_cant": "An expected value is a weighted sum over all possible samples; tests look at a few samples and can only estimate it, with a tolerance.", "anchors": [{"file": "include/trial/online/cumulative/detail/moment.ipp", "symbols": ["mean", "unbiased_mean", "unbiased_variance", "variance", "unbiased_skewness"]}, {"file": "include/trial/online/cumulative/detail/comoment.ipp", "symbols": ["unbiased_variance"]}, {"file": "include/trial/online/cumulative/detail/regression.ipp", "symbols": ["slope", "at"]}, {"file": "include/trial/online/window/detail/moment.ipp", "symbols": ["mean", "unbiased_variance"]}, {"file": "include/trial/online/window/detail/comoment.ipp", "symbols": ["unbiased_variance"]}, {"file": "include/trial/online/window/detail/regression.ipp", "symbols": ["slope", "at"]}, {"file": "include/trial/online/interim/detail/moment.ipp", "symbols": ["mean"]}, {"file": "include/trial/online/decay/detail/moment.ipp", "symbols": ["mean"]}]}
{"id": "C101", "title": "Response of the linear filters to sinusoids", "statement": "Fed with a sinusoid of any frequency w after any history: a finite impulse filter returns, after as many samples as it has coefficients, a sinusoid of the same frequency scaled by the frequency response sum c_k exp(-iwk); a recursive filter whose feedback is smaller than its scale settles geometrically at the sinusoid given by the quotient of the two frequency responses; a window mean returns the sinusoid scaled by sin(Ww/2)/(W sin(w/2)), which is zero for a whole number of periods; a decay mean settles at the response of the first-order smoother.", "quantifier": "every set of coefficients, frequency, amplitude, phase, previous history and number of samples", "why_tests_cant": "Frequency, phase and history are continuous; tests sample a few of them on short inputs and cannot establish the limit or the pace at which it is reached.", "anchors": [{"file": "include/trial/online/impulse/detail/finite.ipp", "symbols": ["push", "value"]}, {"file": "include/trial/online/impulse/detail/infinite.ipp", "symbols": ["push", "value"]}, {"file": "include/trial/online/window/detail/moment.ipp", "symbols": ["mean"]}, {"file": "include/trial/online/decay/detail/moment.ipp", "symbols": ["mean"]}]}
{"id": "C102", "title": "Interim statistics approximate those of the sliding window", "statement": "An interim filter keeps two blocks instead of the last W values, and its results stand in for those of the window filter. On data that change at a constant rate the interim mean is exactly the mean of the last W values; on any data the two differ by at most 2s(W-s)/(W(W+s)) of the range of the last 2W values when s values are in the current block (never more than 6-4*sqrt(2), about 0.343, of the range), and no smaller bound holds. The interim variance differs from the window variance by at most a quarter of the squared range; a change of level between blocks does not show in it at all, and a steady drift makes it too small, never too large.", "quantifier": "every window size (variance: up to 2^32), every history of pushes and clears, every number of values in the current block", "why_tests_cant": "The difference depends on the position within the block and on all of the last 2W values; tests compare a few short streams with tabulated results and cannot establish a worst case.", "anchors": [{"file": "include/trial/online/interim/detail/moment.ipp", "symbols": ["basic_moment<T, W, with::mean, UseMoment>::mean", "basic_moment<T, W, with::variance, UseMoment>::variance"]}, {"file": "include/trial/online/window/detail/moment.ipp", "symbols": ["mean", "variance"]}]}
{"id": "C103", "title": "Small errors in the data cause small errors in the results", "statement": "If every pushed value is off by at most d (sensor noise, quantization, rounding of the input), every mean is off by at most d and the trend by at most 5d, whatever the filter, the number of values and the placement of clear(). The standard deviation (square root of the variance) is off by at most d for cumulative, window and interim filters and at most 2d for decay filters. A covariance is off by at most the error of one component times the standard deviation of the other; a regression slope by at most the error divided by the standard deviation of the independent variable. An FIR filter is off by at most d times the sum of its coefficient magnitudes; a recursive filter by a bound that does not grow with time if the feedback magnitudes sum to less than the scale. Quantile estimates are off by at most d. In float and every other IEEE format the means, and the cumulative standard deviation, are off by no more than that plus the rounding errors of C110.", "quantifier": "every pair of histories whose values differ pairwise by at most d, every d, window size, decay factor, coefficients", "why_tests_cant": "A test compares a few pairs of streams; the worst-case amplification over all streams and all perturbations is a universal statement.", "anchors": [{"file": "include/trial/online/cumulative/detail/moment.ipp", "symbols": ["mean", "variance"]}, {"file": "include/trial/online/window/detail/moment.ipp", "symbols": ["mean", "variance"]}, {"file": "include/trial/online/interim/detail/moment.ipp", "symbols": ["mean", "variance"]}, {"file": "include/trial/online/decay/detail/moment.ipp", "symbols": ["mean", "variance"]}, {"file": "include/trial/online/impulse/detail/finite.ipp", "symbols": ["value"]}, {"file": "include/trial/online/impulse/detail/infinite.ipp", "symbols": ["value", "push"]}, {"file": "include/trial/online/quantile/detail/psquare.ipp", "symbols": ["push", "get"]}]}
{"id": "C104", "title": "Reading a quantile estimate never reads outside the stored values", "statement": "Whatever has been pushed, NaN and infinities included, get<i>() reads only elements of the marker array; while no more than 2Q+3 values have been pushed, an estimate is computed from two values that have been stored, never from an array element that was not written. This holds for every ratio between 0 and 1.", "quantifier": "every ratio list, every history of pushes and clears with any values, every index and ratio, every floating-point format", "why_tests_cant": "The element above the rank is found by adding 1 in floating point and truncating; whether the sum can round up to the number of values depends on the ratio, the number of values and the format together, and reading one element past the end of an array usually goes unnoticed in a test.", "anchors": [{"file": "include/trial/online/quantile/detail/psquare.ipp", "symbols": ["get"]}, {"file": "include/trial/online/quantile/psquare.hpp", "symbols": ["heights", "get"]}]}
{"id": "C105", "title": "Averaging reduces noise by a known factor", "statement": "For independent observations of the same quantity, the variance of mean() is the variance of one observation divided by the number of values for the cumulative filter and by the smaller of window length and number of values for the window filter and the interim filter; for the decay filter with factor f it is multiplied by f/(2-f), up to a term that vanishes exponentially, so that the factor 2/(W+1) corresponds to a window of W values. An FIR filter multiplies the variance by the sum of the squares of its coefficients. The variance of a regression slope is that of the observations over the sum of squared distances of x from its mean. Consequently the cumulative mean converges to the true mean in probability.", "quantifier": "every finite distribution, number of observations, window size, decay factor, coefficient array and earlier history", "why_tests_cant": "A test can draw some random samples and accept results within a tolerance; the exact variance over all possible samples is not observable in a run.", "anchors": [{"file": "include/trial/online/cumulative/detail/moment.ipp", "symbols": ["mean", "push"]}, {"file": "include/trial/online/window/detail/moment.ipp", "symbols": ["mean", "push"]}, {"file": "include/trial/online/interim/detail/moment.ipp", "symbols": ["mean"]}, {"file": "include/trial/online/decay/detail/moment.ipp", "symbols": ["mean", "push"]}, {"file": "include/trial/online/impulse/detail/finite.ipp", "symbols": ["value"]}, {"file": "include/trial/online/cumulative/detail/regression.ipp", "symbols": ["slope", "at"]}]}
{"id": "C106", "title": "What the variances of interim and decay filters estimate", "statement": "For independent observations of the same quantity: the expected value of variance() of the interim filter is the true variance times a weighted average of (W-1)/W and (s-1)/s, where s is the number of values in the current block. The expected value of variance() of the decay filter is at most 2(1-f)^2/(2-f) times the true variance, where f is the factor of the mean, and converges to it: with f = 1/2 it reports a third of the true variance, with f = 1/10 about 85 percent, however many values are pushed.", "quantifier": "every finite distribution, number of observations, window size and pair of decay factors", "why_tests_cant": "A test with fixed data cannot show a systematic bias, and a randomised test shows it only within a tolerance and for chosen parameters.", "anchors": [{"file": "include/trial/online/interim/detail/moment.ipp", "symbols": ["variance"]}, {"file": "include/trial/online/decay/detail/moment.ipp", "symbols": ["variance", "push"]}]}
{"id": "C107", "title": "How the filters follow a jump and a ramp", "statement": "When the data jump to a new level b and stay there, the distance of mean() from b shrinks by a known factor: p/(p+k) for the cumulative filter after p values before and k after the jump, (1-f)^k (1-(1-f)^p)/(1-(1-f)^(p+k)) for the decay filter; the window filter reports exactly b after W pushes, the interim filter after 2W pushes, a finite impulse response b times the sum of its coefficients after as many pushes as it has coefficients. When the data grow by b per push, the cumulative mean lags by b(n-1)/2, window and interim mean by b(min(n,W)-1)/2, the decay mean by b((1-f)/f - n(1-f)^n/(1-(1-f)^n)), and a finite impulse response reports the latest value times the sum of its coefficients c_i, minus b times the sum of i c_i.", "quantifier": "every history before the jump, every level, slope, number of pushes, window size, decay factor and list of coefficients", "why_tests_cant": "A test follows one jump or ramp of chosen size for chosen parameters; the lag formula is a statement about all of them.", "anchors": [{"file": "include/trial/online/cumulative/detail/moment.ipp", "symbols": ["push", "mean"]}, {"file": "include/trial/online/window/detail/moment.ipp", "symbols": ["push", "mean"]}, {"file": "include/trial/online/interim/detail/moment.ipp", "symbols": ["push", "mean"]}, {"file": "include/trial/online/decay/detail/moment.ipp", "symbols": ["push", "mean"]}, {"file": "include/trial/online/impulse/detail/finite.ipp", "symbols": ["push", "value"]}]}
{"id": "C108", "title": "Decay skewness and kurtosis do not accumulate rounding errors", "statement": "Over double and float, skewness() and kurtosis() of the decay filters stay within a fixed distance of the exponentially weighted third moment over the variance to the power 3/2, respectively fourth moment over the square of the variance. The distance depends on the factors and on how large the data are compared with their spread, but not on how many values have been pushed. They report zero exactly when the weighted variance is below epsilon, except in a margin of a 64th around epsilon.", "quantifier": "all factors from 2^-40 to 1, all non-empty sequences of finite doubles of any length, all bounds M from 2^-200 to 2^200 on their magnitude (float: factors from 2^-11, M from 2^-24 to 2^28) with a weighted variance that is large against M^2 times the rounding unit", "why_tests_cant": "Each push adds rounding errors to four recursive averages and their normalizations, and the statistic divides one by a power of another; a test runs one stream of bounded length.", "anchors": [{"file": "include/trial/online/decay/detail/moment.ipp", "symbols": ["skewness", "kurtosis", "push"]}]}
{"id": "C109", "title": "Which quantile a ratio type selects", "statement": "The quantiles of psquare are given by ratio types. value<R>() compiles exactly for the types in the list and for ratio<0,1> and ratio<1,1>, and returns the estimate of the listed quantile, the minimum and the maximum. The notation of a ratio has no influence on the estimates; asking with another notation of the same ratio is an error at compile time, never the estimate of another quantile. A ratio above 1 can never be asked for.", "quantifier": "all lists of ratio types in order of their values, in any notation and with repetitions, all estimator states; for ratios above 1 all lists in any order", "why_tests_cant": "The selection happens at compile time, so each test covers one list; rejected programs cannot be part of a test suite at all.", "anchors": [{"file": "include/trial/online/quantile/psquare.hpp", "symbols": ["QuantileList", "value", "quantiles"]}, {"file": "include/trial/online/quantile/detail/psquare.ipp", "symbols": ["value", "get"]}]}
{"id": "C110", "title": "Accuracy in float and every IEEE value type", "statement": "For a value type T with p bits of precision the mean, variance, covariance, correlation, trend, regression slope and line, window mean, window variance, window covariance, interim mean, interim variance, interim covariance, exponential mean, exponential variance, finite and infinite impulse response of finite values are finite and within stated distances of the exact statistics; the distances are multiples of 2^-p of the magnitude of the values (of its square for variances), plus a multiple of the smallest rounding error near zero. double is the case p = 53, float the case p = 24.", "quantifier": "all precisions p > 1 and exponent ranges e > p, all histories of pushes and clears whose values are bounded by M, within the stated limits on the number of values and on M", "why_tests_cant": "A test compares a few runs of one value type with a tolerance chosen by hand; the bound concerns every type, every history and every order of values.", "anchors": [{"file": "include/trial/online/cumulative/moment.hpp", "symbols": ["moment", "moment_variance"]}, {"file": "include/trial/online/cumulative/comoment.hpp", "symbols": ["covariance"]}, {"file": "include/trial/online/window/moment.hpp", "symbols": ["moment", "moment_variance"]}, {"file": "include/trial/online/decay/moment.hpp", "symbols": ["moment", "moment_variance"]}, {"file": "include/trial/online/impulse/finite.hpp", "symbols": ["finite"]}, {"file": "include/trial/online/cumulative/regression.hpp", "symbols": ["regression"]}, {"file": "include/trial/online/window/comoment.hpp", "symbols": ["covariance"]}, {"file": "include/trial/online/impulse/infinite.hpp", "symbols": ["infinite"]}, {"file": "include/trial/online/cumulative/trend.hpp", "symbols": ["trend"]}, {"file": "include/trial/online/cumulative/correlation.hpp", "symbols": ["correlation"]}, {"file": "include/trial/online/interim/detail/moment.ipp", "symbols": ["mean", "variance"]}]}
{"id": "C111", "title": "A cumulative filter follows an arbitrarily long stream", "statement": "However many values have been pushed, the cumulative mean() and variance() keep following the data: later values still move them towards the statistics of all values pushed.", "quantifier": "all value types of p bits, all streams of any length below 2^64", "why_tests_cant": "The failure needs more values than the value type can count (67 million for float, 2^55 for double), far beyond the length of any unit test.", "anchors": [{"file": "include/trial/online/cumulative/moment.hpp", "symbols": ["moment", "moment_variance"]}, {"file": "include/trial/online/cumulative/detail/moment.ipp", "symbols": ["push", "variance"]}]}
{"id": "C112", "title": "The median estimate follows an arbitrarily long stream", "statement": "However many values have been pushed, value() of a median estimator keeps following the data: when nearly all values are equal to some c, value() is close to c.", "quantifier": "all value types of p bits, all streams of any length below 2^64", "why_tests_cant": "The desired marker positions are kept in the value type and stop growing when they reach 2^p, after some 10^8 values of float; unit tests push at most a few thousand.", "anchors": [{"file": "include/trial/online/quantile/psquare.hpp", "symbols": ["psquare_median", "desired_positions"]}, {"file": "include/trial/online/quantile/detail/psquare.ipp", "symbols": ["push", "get"]}]}
{"id": "C113", "title": "A restored quantile estimator can be continued", "statement": "An estimator restored from saved parameters() and fed further values behaves like an estimator of all the values: get<0> and get<Q+1> are the smallest and the largest of all values pushed before saving and after restoring, the estimates stay in order and within that range, the marker positions increase from 1 to the number of values, and restoring never reads outside the given list.", "quantifier": "every state that can be saved, every estimator restored into, every further sequence of values", "why_tests_cant": "the test-suite restores one hand-written state and pushes one value; saved states, targets and continuations are unbounded, and positions pass through the value type, which matters only beyond 2^24 or 2^53 values", "anchors": [{"file": "include/trial/online/quantile/detail/psquare.ipp", "symbols": ["parameters", "push", "get"]}, {"file": "include/trial/online/quantile/psquare.hpp", "symbols": ["parameter_type"]}]}
{"id": "C114", "title": "Marker positions follow the quantiles", "statement": "After n values the position that parameters() reports for quantile q is 1 + (n-1)q up to a constant that depends only on the number of quantiles, so that the reported fraction of values at or below the marker converges to q, whatever the values are; for the median the inner markers are within one position of (n+3)/4, (n+1)/2 and (3n+1)/4 rounded. In float and double this holds up to n^2 2^-p for quantiles in general, and exactly for the median of up to 2^(p-2) values.", "quantifier": "every list of quantiles in increasing order, every sequence of finite values and clear(), every number of values, every IEEE format", "why_tests_cant": "positions depend on which cells all the values fell into; adversarial orders of values can hold markers against their neighbours, and drift shows only after long streams", "anchors": [{"file": "include/trial/online/quantile/detail/psquare.ipp", "symbols": ["push", "parameters", "initialize"]}, {"file": "include/trial/online/quantile/psquare.hpp", "symbols": ["parameter_type"]}]}
{"id": "C115", "title": "Quantiles of steadily rising and falling values", "statement": "When every value extends the range of the values seen so far by the same step d, at the upper or the lower end, every marker of the quantile estimator holds exactly the value whose rank is the marker's position. get() for quantile q is then the quantile of all the values up to a constant number of steps, and the median estimate is at most one step below and half a step above the median of all the values.", "quantifier": "every step, every start value, every choice of rising or falling at each value, every number of values, every list of quantiles in increasing order, exact arithmetic", "why_tests_cant": "a test checks a few ramps of fixed length and direction; the claim is about every mix of directions and every length, where an error of the parabolic formula could accumulate", "anchors": [{"file": "include/trial/online/quantile/detail/psquare.ipp", "symbols": ["push", "parabolic", "linear", "get"]}]}
{"id": "C116", "title": "One outlier and the median", "statement": "When all values but one are between lo and hi, the median estimate is between lo and hi however far off the remaining value is.", "quantifier": "every lo and hi, every sequence of three or more values with at most one value outside, every position of that value", "why_tests_cant": "tests use values of similar magnitude; whether one arbitrarily large value can pull the estimate depends on the order of all the values", "anchors": [{"file": "include/trial/online/quantile/detail/psquare.ipp", "symbols": ["push", "parabolic", "get"]}]}
{"id": "C117", "title": "Statistics of parts combine to those of the whole", "statement": "When data is split over two cumulative filters, size, mean, variance, skewness, kurtosis and covariance of all the data, as reported by one filter that received everything, follow from the numbers the two filters report by the usual pooling formulas (skewness and kurtosis above the cut-offs of C03 and C04). The mean squared distance of the data from the line reported by the regression filter is the variance of y less slope times covariance, and above the cut-off of C08 the variance of y times one minus the squared correlation.", "quantifier": "every history of pushes and clears of the three filters whose values since the last clear are l1, l2 and l1 followed by l2, both non-empty, exact arithmetic; every history for the residuals", "why_tests_cant": "the formulas relate the outputs of three filters for arbitrary data and arbitrary splits", "anchors": [{"file": "include/trial/online/cumulative/detail/moment.ipp", "symbols": ["push", "mean", "variance", "skewness", "kurtosis"]}, {"file": "include/trial/online/cumulative/detail/comoment.ipp", "symbols": ["push", "variance"]}, {"file": "include/trial/online/cumulative/detail/regression.ipp", "symbols": ["at", "slope"]}, {"file": "include/trial/online/cumulative/detail/correlation.ipp", "symbols": ["value"]}]}
{"id": "C118", "title": "Skewness of value types other than double", "statement": "std::sqrt of the count is a double whatever the value type, so skewness() of float is computed in double and converted. All other results of the cumulative filters are those of the value type alone. Over float, skewness() is finite and within (406 n + 9303) u (M/sigma)^3 of the true skewness (u = 2^-24) when the third central sum is clearly above epsilon; unbiased_skewness() is likewise within (406 n + 9313) u (M/sigma)^3 k of k times the skewness, k = sqrt(n(n-1))/(n-2); over a value type wider than double the analogous bound in its own precision does not hold.", "quantifier": "every history of pushes and clears with up to 2^13 finite floats of magnitude at most M since the last clear, 2^-20 <= M <= 2^20; the equality of the other results for every format and history", "why_tests_cant": "rounding errors of arbitrary data; the loss of accuracy of wide types only shows in the digits beyond double, which tests with a tolerance ignore", "anchors": [{"file": "include/trial/online/cumulative/detail/moment.ipp", "symbols": ["skewness", "std::sqrt", "unbiased_skewness", "kurtosis"]}]}
{"id": "C119", "title": "Filters in series", "statement": "Feeding the outputs of one finite response filter to another gives the outputs of the single finite filter whose coefficients are the product of the two coefficient polynomials, and the order of two response filters in series, finite or infinite, does not matter.", "quantifier": "all coefficients and scales, every input sequence after construction or a clear, in exact arithmetic", "why_tests_cant": "tests compare a filter with a handful of expected outputs; no test can cover every pair of filters and every input", "anchors": [{"file": "include/trial/online/impulse/detail/finite.ipp", "symbols": ["push", "value"]}, {"file": "include/trial/online/impulse/detail/infinite.ipp", "symbols": ["push", "value"]}]}
{"id": "C120", "title": "Filters that agree, and superposition", "statement": "The finite filter with W coefficients 1/W gives the mean of the window filter (times n/W while the window is filling), the first-order infinite filter gives the mean of the decay filter up to its normalisation, and the means of all filters, the trend and the fitted regression line are linear in the data. In double, the finite filter and a full window mean differ by at most (30 n + 9) 2^-53 M + 20 n 2^-1075.", "quantifier": "all window sizes, factors, histories and pairs of data sets in exact arithmetic; the double bound for up to 2^49 finite values since the last clear of magnitude at most M <= 2^1018", "why_tests_cant": "relations between two runs of different filters on arbitrary data; the tests check each filter alone on a few values", "anchors": [{"file": "include/trial/online/impulse/detail/finite.ipp", "symbols": ["push", "value"]}, {"file": "include/trial/online/impulse/detail/infinite.ipp", "symbols": ["push", "value"]}, {"file": "include/trial/online/window/detail/moment.ipp", "symbols": ["push", "mean"]}, {"file": "include/trial/online/decay/detail/moment.ipp", "symbols": ["push", "mean"]}, {"file": "include/trial/online/interim/detail/moment.ipp", "symbols": ["push", "mean"]}, {"file": "include/trial/online/cumulative/detail/moment.ipp", "symbols": ["push", "mean"]}, {"file": "include/trial/online/cumulative/detail/trend.ipp", "symbols": ["push"]}, {"file": "include/trial/online/cumulative/detail/regression.ipp", "symbols": ["push", "at", "slope"]}]}
{"id": "C121", "title": "Accuracy of the kurtosis over float", "statement": "Over float, kurtosis() is finite and within (4140 n + 96000) u (M^2/V)^2 + epsilon/(n V^2) of the kurtosis of the values (u = 2^-24, epsilon = 2^-23), and unbiased_kurtosis() within eight times that bound plus 720 u M^2/V of the bias-corrected kurtosis.", "quantifier": "every history of pushes and clears with up to 2^12 finite floats of magnitude at most M since the last clear, 2^-20 <= M <= 2^20, with variance V > 0 and M^2/V below about 2^24/(28672 n)", "why_tests_cant": "rounding errors of arbitrary data in single precision; the tests use double with a tolerance", "anchors": [{"file": "include/trial/online/cumulative/detail/moment.ipp", "symbols": ["kurtosis", "unbiased_kurtosis", "push"]}]}
{"id": "C122", "title": "Sign, order and range in float and every IEEE value type", "statement": "Over float and every other IEEE value type: the cumulative mean is finite and within the range of the data and the variance is not negative and not NaN; window variances are never negative or NaN; decayed variances and kurtoses never compare less than zero; interim variances are not negative and not NaN; a constant stream gives exactly that constant and variance zero; the markers of a quantile estimator stay ordered and within the range of the data, and every estimate is defined and within that range; no estimate reads outside the stored values, whatever the values are; the means of the window, interim and decay filters stay within the range of their values up to the error bounds of C110.", "quantifier": "every history of pushes and clears, every precision and exponent range (65 or more for the claims that convert counts), overflow included; for the cumulative mean, values below half of the range; for the quantiles, up to min(2^27, 2^prec) values of magnitude at most 2^(emax-31) and precision at least 8", "why_tests_cant": "every stream of floats including those that overflow; the tests use a few streams of doubles", "anchors": [{"file": "include/trial/online/cumulative/detail/moment.ipp", "symbols": ["push", "variance"]}, {"file": "include/trial/online/window/detail/moment.ipp", "symbols": ["variance", "unbiased_variance"]}, {"file": "include/trial/online/decay/detail/moment.ipp", "symbols": ["variance", "kurtosis"]}, {"file": "include/trial/online/interim/detail/moment.ipp", "symbols": ["variance"]}, {"file": "include/trial/online/quantile/detail/psquare.ipp", "symbols": ["push", "get"]}, {"file": "include/trial/online/interim/detail/moment.ipp", "symbols": ["mean", "variance"]}]}
{"id": "C123", "title": "Accuracy and sign when the compiler fuses multiplications and additions", "statement": "A compiler may evaluate a product and the addition or subtraction that follows as one fused operation. With all products fused, the cumulative variance and covariance, the window variance and covariance, the interim mean, variance and covariance, the decay mean and variance, the finite and infinite filters, skewness() and kurtosis() of the cumulative and decay filters, unbiased_skewness() and unbiased_kurtosis() of the cumulative filter, slope() and at() of the cumulative regression and value() of the cumulative correlation satisfy the same error bounds as without; the cumulative and decayed variances are still not negative, and the cumulative mean still stays in the range of the data. The results need not be equal to those of the plain evaluation.", "quantifier": "every history of pushes and clears; every precision and rounding mode, with gradual underflow and without overflow, and every IEEE format (float, double, long double; cumulative skewness and unbiased kurtosis over double, cumulative kurtosis and decay skewness and kurtosis over float and double) with round to nearest, overflow excluded by the magnitudes; the hypotheses on sizes and magnitudes of C67-C72, C94, C108, C110, C121 and C12", "why_tests_cant": "whether products are fused depends on the target and the compiler flags, and the tests see one of them and a few streams", "anchors": [{"file": "include/trial/online/cumulative/detail/moment.ipp", "symbols": ["push", "variance", "skewness", "unbiased_skewness", "kurtosis", "unbiased_kurtosis"]}, {"file": "include/trial/online/cumulative/detail/comoment.ipp", "symbols": ["push", "variance"]}, {"file": "include/trial/online/window/detail/moment.ipp", "symbols": ["push", "variance"]}, {"file": "include/trial/online/window/detail/comoment.ipp", "symbols": ["push", "variance"]}, {"file": "include/trial/online/decay/detail/moment.ipp", "symbols": ["kurtosis", "mean", "push", "skewness", "variance"]}, {"file": "include/trial/online/impulse/detail/finite.ipp", "symbols": ["push", "value"]}, {"file": "include/trial/online/impulse/detail/infinite.ipp", "symbols": ["push", "value"]}, {"file": "include/trial/online/cumulative/detail/regression.ipp", "symbols": ["push", "slope", "at"]}, {"file": "include/trial/online/cumulative/detail/correlation.ipp", "symbols": ["push", "value"]}, {"file": "include/trial/online/interim/detail/moment.ipp", "symbols": ["mean", "variance"]}, {"file": "include/trial/online/interim/detail/comoment.ipp", "symbols": ["push", "variance"]}]}
{"id": "C124", "title": "Quantile estimates stay ordered and in range when the compiler fuses multiplications and additions", "statement": "With the products of parabolic() and of the interpolation in get() fused with the additions they feed, the markers reported by parameters() are still in ascending order between the smallest and the largest value, get<i>() is still defined and between them, and the estimates are in the order of their indices. This does not extend to fusing across statements: if the product that gives the rank is also fused into the computation of the slope, an estimate can lie below every value pushed.", "quantifier": "every history of pushes and clears with up to 2^27 (and 2^precision) representable values since the last clear, every format with at least 8 bits of precision, round to nearest, no overflow, either choice of the fused product in parabolic(); any quantiles for the order, quantiles up to 1 - 2^(3-precision) for get", "why_tests_cant": "whether products are fused depends on the target and the compiler flags, and the tests see one of them and a few streams", "anchors": [{"file": "include/trial/online/quantile/detail/psquare.ipp", "symbols": ["push", "get", "parabolic", "linear", "parameters"]}]}
