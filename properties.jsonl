{"id": "C01", "title": "Prior.logpdf is the row-wise sum of the marginals", "statement": "prior.logpdf(x) returns one number per row of x; entry k is exactly sum_i dists[i].logpdf(x[k,i]), depends on no other row, and any column beyond len(dists) is ignored while a missing column raises IndexError.", "quantifier": "all lists of marginal distributions, all batch sizes (including 0) and all real, infinite or NaN entries", "why_tests_cant": "unit tests evaluate one or two fixed Gaussian priors on ten draws; independence between rows and the pairing dist i / column i must hold for every dimension, batch size and value", "anchors": ["pocomc/prior.py:Prior.logpdf"]}
{"id": "C02", "title": "Prior.rvs, bounds and dim are aligned with the list of marginals", "statement": "prior.rvs(size) has shape (size, dim); its column i is exactly the block of draws produced by dists[i]; bounds has one row per marginal, row i being dists[i].support(); dim is len(dists).", "quantifier": "all non-empty lists of marginals, all sizes and all outcomes of the random draws", "why_tests_cant": "a transposition or column swap is invisible when tests use identical marginals; the alignment must hold for every draw and dimension", "anchors": ["pocomc/prior.py:Prior.rvs", "pocomc/prior.py:Prior.bounds", "pocomc/prior.py:Prior.dim"]}
{"id": "C03", "title": "Reparameterize.inverse undoes forward on the open support", "statement": "For every x strictly inside the bounds (any mixture of unbounded, lower-, upper- and doubly-bounded coordinates, NaN bounds meaning unbounded), inverse(forward(x))[0] == x, for both transforms, with and without rescaling (non-zero scales), diagonal or full covariance.", "quantifier": "all dimensions, all bound patterns, all interior points, both transforms, all fitted scales (sigma_i != 0, or L/L_inv mutually inverse)", "why_tests_cant": "tests use one bound pattern for all ten coordinates and one transform on 100 random points", "anchors": ["pocomc/scaler.py:Reparameterize.forward", "pocomc/scaler.py:Reparameterize.inverse", "pocomc/scaler.py:Reparameterize._create_masks"]}
{"id": "C04", "title": "Reparameterize.forward undoes inverse everywhere", "statement": "For every finite u, forward(inverse(u)[0]) == u and passes the input check; so the map between unconstrained and constrained space is a bijection.", "quantifier": "all finite u of any dimension, all bound patterns with low < high, both transforms, all positive scales (standard deviations)", "why_tests_cant": "the latent space is unbounded; sampling it cannot show bijectivity", "anchors": ["pocomc/scaler.py:Reparameterize.forward", "pocomc/scaler.py:Reparameterize.inverse"]}
{"id": "C05", "title": "Every latent point maps strictly inside the prior bounds", "statement": "For every finite u, every coordinate of inverse(u)[0] is finite and lies strictly between its bounds; hence the default 'hard bounds' are never left by a proposal.", "quantifier": "all finite u, all bound patterns with low < high, both transforms, all scales", "why_tests_cant": "needs all of R^n, including extreme proposals that tests never generate", "anchors": ["pocomc/scaler.py:Reparameterize.inverse", "pocomc/scaler.py:Reparameterize._inverse_both"]}
{"id": "C06", "title": "The reported log-determinant is the true Jacobian of the reparameterisation", "statement": "inverse(u)[1] equals the sum over coordinates of log|d x_i / d u_i|, the derivative of the very map returned in inverse(u)[0], whose coordinate i depends on u_i only (diagonal scaling).", "quantifier": "all finite u, all bound patterns, both transforms, all positive scales (standard deviations)", "why_tests_cant": "a derivative is a limit; finite differences at sample points only approximate it, and a missing constant or sign would bias every posterior silently", "anchors": ["pocomc/scaler.py:Reparameterize.inverse", "pocomc/scaler.py:Reparameterize._inverse_affine", "pocomc/scaler.py:Reparameterize._inverse_both"]}
{"id": "C07", "title": "Out-of-range input is rejected, in-range input is accepted", "statement": "fit and forward (with check_input) raise ValueError exactly when some coordinate of some row is outside the closed interval [low, high] (a NaN bound meaning no bound; a NaN coordinate counts as outside); with check_input=False forward never raises it. The four open/closed variants of the interval check behave the same way with strict/non-strict comparison.", "quantifier": "all arrays with finite, infinite and NaN entries, all bounds, all four open/closed modes", "why_tests_cant": "the single test moves two rows outside one pair of bounds; the iff needs every value and mode", "anchors": ["pocomc/input_validation.py:assert_array_within_interval", "pocomc/scaler.py:Reparameterize.fit", "pocomc/scaler.py:Reparameterize.forward"]}
{"id": "C08", "title": "Boundary values are accepted but mapped to infinity", "statement": "forward is finite exactly on the open interval: a coordinate equal to a finite bound passes the input check yet is mapped to an infinite latent value (the clip of _forward_both is computed and thrown away), so 'every accepted point has a finite latent image' fails.", "quantifier": "all doubly- and singly-bounded coordinates, both transforms", "why_tests_cant": "a uniform random test never hits the boundary", "anchors": ["pocomc/scaler.py:Reparameterize._forward_both", "pocomc/scaler.py:Reparameterize._forward_left"]}
{"id": "C09", "title": "Omitting the bounds makes the reparameterisation unusable", "statement": "Reparameterize(n_dim) without bounds should treat all parameters as unbounded; instead low = high = +inf, and fit/forward raise ValueError on every non-empty array of finite numbers.", "quantifier": "all dimensions >= 1 and all non-empty finite inputs", "why_tests_cant": "no test exercises the default; the claim ranges over every input", "anchors": ["pocomc/scaler.py:Reparameterize.__init__", "pocomc/input_validation.py:assert_array_within_interval"]}
{"id": "C10", "title": "Periodic wrapping lands in range and preserves the phase", "statement": "For a periodic parameter with finite low < high, the wrapped value lies in [low, high], differs from the input by an integer multiple of high-low, equals the input if it was already in range, and the other coordinates are untouched; the loop terminates for every real input.", "quantifier": "all real inputs however far out of range, all rows, all lists of periodic indices", "why_tests_cant": "the number of wraps is unbounded, so no finite test set covers it; in binary64 the loop even diverges for large inputs", "anchors": ["pocomc/scaler.py:Reparameterize._apply_periodic_boundary_conditions_x"]}
{"id": "C11", "title": "Reflective folding is exact only for moderate excursions", "statement": "For a reflective parameter with finite low < high, the folding terminates (each of its two loops runs at most once), leaves in-range values and all other coordinates untouched, and returns x, 2*high-x, 2*low-x or x-2*(high-low); the result lies in [low, high] exactly when low-(high-low) <= x <= high+2*(high-low). Beyond that the documented reflection fails: the value is left outside the range (range [0,1]: 3.5 -> 1.5).", "quantifier": "all real inputs, all rows, all lists of reflective indices", "why_tests_cant": "holds for every excursion size; the failing region is far from the data tests use", "anchors": ["pocomc/scaler.py:Reparameterize._apply_reflective_boundary_conditions_x"]}
{"id": "C12", "title": "Boundary conditions never change an MCMC proposal", "statement": "Because inverse() always lands inside the bounds, applying periodic/reflective conditions to a proposal (apply, forward, inverse) returns the same x, u and log-determinant: declaring parameters periodic or reflective has no effect on the chain in exact arithmetic, contrary to the documented wrap-around.", "quantifier": "all finite proposals, all bound patterns, all periodic/reflective index lists", "why_tests_cant": "a statement about every proposal the sampler can ever make", "anchors": ["pocomc/mcmc.py:pcn", "pocomc/mcmc.py:rwm", "pocomc/mcmc.py:preconditioned_pcn", "pocomc/mcmc.py:preconditioned_rwm", "pocomc/scaler.py:Reparameterize.apply_boundary_conditions_x"]}
{"id": "C13", "title": "Out-of-range wrapping can diverge in floating point", "statement": "In binary64 the periodic loop does not terminate when the parameter range is smaller than the spacing of floats around the input (e.g. range [0,1], input 1e17), nor for an infinite input with finite bounds: no number of iterations brings it in range.", "quantifier": "all iteration counts", "why_tests_cant": "non-termination cannot be observed by a test, only suspected", "anchors": ["pocomc/scaler.py:Reparameterize._apply_periodic_boundary_conditions_x"]}
{"id": "C14", "title": "Effective sample size is between 1 and n, scale-free, and n only for equal weights", "statement": "For non-negative weights with positive sum, effective_sample_size returns (sum w)^2 / sum w^2, lies in [1, n], equals n iff all weights are equal and 1 iff a single weight is non-zero, and is unchanged by rescaling; the caller's array is normalised in place.", "quantifier": "all lengths and all non-negative weight vectors", "why_tests_cant": "inequality over all vectors (Cauchy-Schwarz), equality cases never hit by random tests", "anchors": ["pocomc/tools.py:effective_sample_size"]}
{"id": "C15", "title": "Unique sample size is the expected number of distinct draws", "statement": "unique_sample_size(w, k) equals the expected number of distinct indices among k independent draws with probabilities w/sum(w); it lies in [1, min(n, k)] for k >= 1, with default k = n.", "quantifier": "all weight vectors, all k", "why_tests_cant": "the expectation ranges over n^k outcomes", "anchors": ["pocomc/tools.py:unique_sample_size"]}
{"id": "C16", "title": "Weight trimming keeps the requested fraction of the ESS and only drops the smallest weights", "statement": "For non-negative weights with positive sum, bins >= 1 and ess <= 1, trim_weights returns; the returned samples are those whose weight is at least some threshold (every dropped weight is smaller than every kept one), in their original order and aligned with the returned weights; these are the original ones renormalised to sum 1; and their ESS is at least ess times (and never more than) the original ESS. The chosen percentile is the largest one of the grid that satisfies this.", "quantifier": "all weight vectors, all ess <= 1, all bin counts", "why_tests_cant": "loop exit depends on order statistics of arbitrary data; off-by-one exits survive random tests", "anchors": ["pocomc/tools.py:trim_weights", "pocomc/sampler.py:Sampler.posterior", "pocomc/sampler.py:Sampler._reweight"]}
{"id": "C17", "title": "Trimming with an unattainable threshold fails", "statement": "trim_weights with ess > 1, or with a NaN weight, never returns a trimmed sample: the index runs below -bins and IndexError is raised (posterior(ess_trim=1.01) crashes rather than returning everything).", "quantifier": "all weight vectors, all ess > 1 and all bin counts", "why_tests_cant": "requires that no percentile can succeed for any data", "anchors": ["pocomc/tools.py:trim_weights", "pocomc/sampler.py:Sampler.posterior"]}
{"id": "C18", "title": "Systematic resampling copies each particle floor or ceil of its expected count", "statement": "For non-negative weights summing to 1 and any offset in [0,1), systematic_resample(size, w) returns size non-decreasing indices below len(w), in which every index i occurs a number of times differing from size*w_i by less than 1 (for the zero offset by at most 1).", "quantifier": "all sizes, all weight vectors, all offsets", "why_tests_cant": "a two-pointer loop over arbitrary reals; off-by-one and boundary bugs appear on measure-zero inputs", "anchors": ["pocomc/tools.py:systematic_resample"]}
{"id": "C19", "title": "Systematic resampling is unbiased", "statement": "Averaged over a uniform offset in [0,1), the number of copies of index i is exactly size * w_i / sum(w).", "quantifier": "all sizes, all weight vectors, all indices", "why_tests_cant": "an exact expectation over a continuum of offsets", "anchors": ["pocomc/tools.py:systematic_resample"]}
{"id": "C20", "title": "Almost-normalised weights can crash systematic resampling", "statement": "Weights whose sum is below 1 by less than the tolerance are not renormalised; for such weights there are offsets for which systematic_resample runs past the end (IndexError). If the weights are renormalised or sum to at least 1 this never happens.", "quantifier": "all sizes, all weight vectors; existence of failing offsets", "why_tests_cant": "the failing offsets have probability below 1e-8", "anchors": ["pocomc/tools.py:systematic_resample", "pocomc/tools.py:SQRTEPS"]}
{"id": "C21", "title": "Zero-weight particles are never resampled (except for a zero offset)", "statement": "With a strictly positive offset every index returned by systematic_resample has positive weight; with offset exactly 0 a leading zero-weight particle is selected.", "quantifier": "all weight vectors and offsets", "why_tests_cant": "the exception has probability 2^-53", "anchors": ["pocomc/tools.py:systematic_resample"]}
{"id": "C22", "title": "compute_ess and increment_logz are exact and shift-invariant", "statement": "compute_ess(logw) = (sum e^logw)^2/(n sum e^(2 logw)) in (0,1], unchanged when a constant is added to all log-weights; increment_logz(logw) = log sum e^logw and shifts by that constant.", "quantifier": "all finite log-weight vectors and shifts", "why_tests_cant": "the only test is a single particle", "anchors": ["pocomc/tools.py:compute_ess", "pocomc/tools.py:increment_logz"]}
{"id": "C23", "title": "The particle history is an append-only log per key", "statement": "After any sequence of update calls, get(key) returns, oldest first, every value supplied under that key; get(key, index=-1) is the last, get(key, flat=True) their concatenation; unknown keys are ignored, other keys are untouched, pop removes exactly the last value of one key.", "quantifier": "all sequences of update/pop calls with any subset of keys", "why_tests_cant": "property of every operation history", "anchors": ["pocomc/particles.py:Particles.update", "pocomc/particles.py:Particles.get", "pocomc/particles.py:Particles.pop"]}
{"id": "C24", "title": "results is frozen at first access", "statement": "compute_results / Sampler.results returns the history as it was the first time it was read; after a later update it is stale (an additional run is never reflected). On first access every key equals get(key), and logw are the normalised log-weights at beta=1.", "quantifier": "all histories of update/results calls", "why_tests_cant": "tests read results at most once", "anchors": ["pocomc/particles.py:Particles.compute_results", "pocomc/sampler.py:Sampler.results"]}
{"id": "C25", "title": "Importance weights are the balance-heuristic weights and sum to one", "statement": "With T iterations, compute_logw_and_logz(b) gives particle j the weight L_j^b / (1/T sum_t L_j^beta_t / Z_t), normalised to sum to one when requested, and logz is the log of the mean unnormalised weight.", "quantifier": "all histories with finite log-likelihoods, all temperatures", "why_tests_cant": "an identity in exact arithmetic over arbitrary data", "anchors": ["pocomc/particles.py:Particles.compute_logw_and_logz"]}
{"id": "C26", "title": "Evidence and weights respond correctly to rescaling the likelihood", "statement": "Adding a constant c to every log-likelihood (with the stored logz_t shifted by c*beta_t) leaves all weights unchanged and shifts the returned log-evidence by c*beta; from prior-only history at beta=0 the weights are uniform and logz = 0.", "quantifier": "all histories, all c, all temperatures", "why_tests_cant": "relation between two runs over all data", "anchors": ["pocomc/particles.py:Particles.compute_logw_and_logz"]}
{"id": "C27", "title": "Constructor options are validated", "statement": "Sampler(...) raises ValueError if transform is not probit/logit, metric not ess/uss, sample not tpcn/rwm, resample not mult/syst, flow not a known name or flow object, if both n_active and n_effective are None, or if vectorize is combined with blobs_dtype; otherwise (positive sizes, valid pool) construction succeeds with exactly the given choices.", "quantifier": "all option strings and all combinations", "why_tests_cant": "the set of invalid strings is infinite", "anchors": ["pocomc/sampler.py:Sampler.__init__", "pocomc/flow.py:Flow.__init__"]}
{"id": "C28", "title": "Derived defaults are consistent", "statement": "n_active defaults to n_effective//2 and n_effective to 2*n_active; the default number of prior samples is a positive multiple of n_active, strictly greater than n_effective; train_frequency >= 1; a supplied n_prior becomes max(n_prior, n_active) (not rounded to a multiple: the surplus of fewer than n_active draws never becomes particles).", "quantifier": "all positive integers n_effective, n_active, n_prior", "why_tests_cant": "integer arithmetic over all sizes", "anchors": ["pocomc/sampler.py:Sampler.__init__"]}
{"id": "C29", "title": "MCMC step defaults differ from the documentation", "statement": "The documented default n_steps = n_dim and n_max_steps = 10*n_dim do not hold: they are n_dim//2 and 10*n_steps, hence 0 steps for a one-dimensional problem (in which case exactly one MCMC step is made per iteration).", "quantifier": "all dimensions", "why_tests_cant": "discrepancy for every n_dim, with a degenerate case at n_dim = 1", "anchors": ["pocomc/sampler.py:Sampler.__init__"]}
{"id": "C30", "title": "pool=1 is rejected with AttributeError", "statement": "An integer pool greater than 1 or any object with a map method is usable; pool=1 (or 0 or a negative integer) raises AttributeError instead of running serially.", "quantifier": "all integer pool sizes", "why_tests_cant": "all integers", "anchors": ["pocomc/sampler.py:Sampler.__init__"]}
{"id": "C31", "title": "Inverse temperatures start at 0, never decrease and stay in [0,1]", "statement": "In every run (and any sequence of further runs, saves and resumes) the recorded beta sequence is 0 during warm-up, non-decreasing, and within [0,1].", "quantifier": "all likelihoods (including NaN and infinite values), priors, flows, options, random draws, numbers of iterations and API histories", "why_tests_cant": "adaptive data-dependent bisection over arbitrarily long runs", "anchors": ["pocomc/sampler.py:Sampler._reweight", "pocomc/sampler.py:Sampler.run"]}
{"id": "C32", "title": "Each temperature step hits the target effective sample size", "statement": "At every iteration the chosen beta either equals the previous one (when the ESS there does not exceed n_effective), or is 1 (when the ESS at 1 is at least n_effective), or has an ESS within 1% of n_effective; the recorded ess is the ESS of the recorded beta.", "quantifier": "all histories, both metrics, all n_effective", "why_tests_cant": "holds for the loop exit of an adaptive search on arbitrary data", "anchors": ["pocomc/sampler.py:Sampler._reweight"]}
{"id": "C33", "title": "The temperature search always terminates", "statement": "For every history of finite log-likelihoods the bisection for the next beta finishes after finitely many halvings (the metric is continuous in beta and brackets the target).", "quantifier": "all non-empty histories with finite log-likelihoods, both metrics, all n_effective", "why_tests_cant": "termination of a 'while True' loop for all data", "anchors": ["pocomc/sampler.py:Sampler._reweight"]}
{"id": "C34", "title": "run() returns only when converged", "statement": "When run() returns, 1 - beta < 1e-4 for the current particles and the ESS (or USS) of all particles at beta=1 is at least n_total; and it performs no further iteration once this holds (a second run with no larger n_total adds no particles).", "quantifier": "all runs", "why_tests_cant": "all reachable final states", "anchors": ["pocomc/sampler.py:Sampler.run", "pocomc/sampler.py:Sampler._not_termination"]}
{"id": "C35", "title": "Stored particles are internally consistent", "statement": "In every stored iteration, for every particle: logl is the likelihood of its x, logp the prior density of its x, logdetj the log-Jacobian of its u, x the image of its u, and its blob the blob the likelihood returned for that x - through any number of resampling, acceptance, warm-up replacement, save and resume steps.", "quantifier": "all runs, all row-wise likelihoods and priors, all random draws", "why_tests_cant": "a misaligned index in any of the array updates shows only statistically", "anchors": ["pocomc/sampler.py:Sampler.run", "pocomc/sampler.py:Sampler._resample", "pocomc/sampler.py:Sampler._reweight", "pocomc/sampler.py:Sampler._mutate", "pocomc/mcmc.py"]}
{"id": "C36", "title": "Every iteration stores exactly n_active particles", "statement": "Each array appended to the history (u, x, logdetj, logl, logp, and blobs if present) has exactly n_active rows, all with n_dim columns, so the history is rectangular.", "quantifier": "all runs", "why_tests_cant": "all reachable states", "anchors": ["pocomc/sampler.py:Sampler.run", "pocomc/particles.py:Particles.update"]}
{"id": "C37", "title": "No particle outside the support ever enters the history", "statement": "If the prior draws have finite log-prior and no NaN likelihood, every particle ever stored has finite x, logdetj and logp and a log-likelihood that is neither NaN nor -inf, whatever the likelihood returns on proposals.", "quantifier": "all runs, all likelihoods returning NaN/inf on proposals", "why_tests_cant": "requires all IEEE special-value combinations in the acceptance ratio", "anchors": ["pocomc/mcmc.py", "pocomc/sampler.py:Sampler.run"]}
{"id": "C38", "title": "The likelihood is only evaluated inside the prior support", "statement": "During MCMC and evidence estimation the user's likelihood is called only at points with finite coordinates and finite log-prior.", "quantifier": "all runs, proposals and priors", "why_tests_cant": "negative property over all calls", "anchors": ["pocomc/mcmc.py", "pocomc/sampler.py:Sampler._compute_evidence"]}
{"id": "C39", "title": "The calls counter equals the number of likelihood evaluations", "statement": "After warm-up and any number of iterations, calls equals the exact number of points at which the likelihood was evaluated, and the recorded sequence never decreases. The evaluations made for the evidence estimate are added, but are forgotten again as soon as a further run makes an iteration.", "quantifier": "all runs and further runs", "why_tests_cant": "equality between a counter and the trace of all calls", "anchors": ["pocomc/sampler.py:Sampler.run", "pocomc/sampler.py:Sampler._mutate", "pocomc/sampler.py:Sampler._compute_evidence"]}
{"id": "C40", "title": "MCMC makes between 1 and max(1, n_max_steps) steps", "statement": "Every mutation stage terminates, with 1 <= steps <= max(1, n_max_steps), and evaluates the likelihood at most steps*n_active times; this holds in any arithmetic, including binary64 with NaNs.", "quantifier": "all inputs and all four kernels", "why_tests_cant": "termination and bounds for all data", "anchors": ["pocomc/mcmc.py:preconditioned_pcn", "pocomc/mcmc.py:preconditioned_rwm", "pocomc/mcmc.py:pcn", "pocomc/mcmc.py:rwm"]}
{"id": "C41", "title": "The Crank-Nicolson step size stays in [0, 0.99]", "statement": "For tpcn kernels the adapted scale always stays within [0, 0.99], so sqrt(1-sigma^2) is always real; for the random-walk kernel it stays non-negative, while the preconditioned random-walk kernel can drive it to zero or below.", "quantifier": "all acceptance histories, dimensions and step counts", "why_tests_cant": "adaptation over unboundedly many steps", "anchors": ["pocomc/mcmc.py:preconditioned_pcn", "pocomc/mcmc.py:pcn", "pocomc/mcmc.py:rwm", "pocomc/mcmc.py:preconditioned_rwm"]}
{"id": "C42", "title": "Random-walk moves satisfy detailed balance", "statement": "With the kernels' acceptance probability, the random-walk proposal is reversible with respect to L(x)^beta * prior(x) * |Jacobians|, the tempered posterior expressed in the sampling space.", "quantifier": "all pairs of states with finite log densities, all scales and covariance factors", "why_tests_cant": "detailed balance is an equation over all pairs of states", "anchors": ["pocomc/mcmc.py:rwm", "pocomc/mcmc.py:preconditioned_rwm"]}
{"id": "C43", "title": "t-preconditioned Crank-Nicolson moves satisfy detailed balance", "statement": "With the kernels' gamma-scaled proposal and acceptance probability, the tpCN move is reversible with respect to the tempered posterior expressed in the sampling space, for fixed mean, covariance, degrees of freedom and scale.", "quantifier": "all states, proposals, scales in (0,1), covariances, nu > 0, dimensions", "why_tests_cant": "detailed balance is an equation over all pairs of states", "anchors": ["pocomc/mcmc.py:pcn", "pocomc/mcmc.py:preconditioned_pcn"]}
{"id": "C44", "title": "Acceptance probabilities are genuine probabilities and reject undefined proposals", "statement": "For every walker alpha is in [0,1]; a proposal with non-finite log-prior, log-Jacobian or coordinates, or with NaN or -inf log-likelihood, has alpha = 0 and is rejected, leaving the walker's row unchanged; uninitialised memory never reaches the output.", "quantifier": "all combinations of finite/inf/NaN values", "why_tests_cant": "IEEE special-value case analysis", "anchors": ["pocomc/mcmc.py"]}
{"id": "C45", "title": "The iter record is wrong after warm-up", "statement": "results['iter'] should give the iteration index of each stored batch; it does during warm-up, but every later iteration records the index of the last warm-up batch.", "quantifier": "all runs with at least one iteration after warm-up", "why_tests_cant": "no test reads iter", "anchors": ["pocomc/sampler.py:Sampler.run", "pocomc/sampler.py:Sampler._reweight"]}
{"id": "C46", "title": "Dynamic adjustment moves n_effective in the right direction", "statement": "With dynamic=True, n_effective is never decreased when too few and never increased when too many of the resampled particles are expected to be unique, never grows by more than the factor n_active per iteration, and is unchanged within the 5% band; with dynamic=False it never changes.", "quantifier": "all weights and sizes", "why_tests_cant": "data-dependent adaptation over all histories", "anchors": ["pocomc/sampler.py:Sampler._reweight", "pocomc/tools.py:unique_sample_size"]}
{"id": "C47", "title": "Resampling only copies existing particles", "statement": "The n_active particles passed to MCMC are each a full row (u, x, logdetj, logl, logp, blob) of some earlier stored particle with its importance weight retained by trimming, for both resampling schemes.", "quantifier": "all histories and draws", "why_tests_cant": "row alignment over all index vectors", "anchors": ["pocomc/sampler.py:Sampler._resample", "pocomc/sampler.py:Sampler._reweight"]}
{"id": "C48", "title": "Warm-up replaces infinite likelihoods by finite particles", "statement": "After each warm-up batch no stored particle has an infinite log-likelihood: each affected row is replaced, in all arrays, by one finite row of the same batch; if every row is infinite the run raises ValueError. NaN likelihoods are not replaced and are stored.", "quantifier": "all batches and likelihood values", "why_tests_cant": "all patterns of infinite rows", "anchors": ["pocomc/sampler.py:Sampler.run"]}
{"id": "C49", "title": "A NaN likelihood on a prior draw makes the run fail", "statement": "If any stored log-likelihood is NaN, all importance weights are NaN and the next iteration cannot produce a resampled population: it raises instead of returning particles.", "quantifier": "all histories containing a NaN", "why_tests_cant": "special values propagate through every weight", "anchors": ["pocomc/sampler.py:Sampler._reweight", "pocomc/tools.py:trim_weights"]}
{"id": "C50", "title": "posterior() returns aligned rows and normalised weights", "statement": "In posterior() the i-th sample, logl, logp and blob are the values of one stored particle and the i-th weight is its importance weight, non-negative and summing to 1; without trimming all particles are returned in order; with resample=True every row is a stored particle. Requesting blobs without blobs raises ValueError.", "quantifier": "all histories and option combinations", "why_tests_cant": "alignment across all option combinations and data", "anchors": ["pocomc/sampler.py:Sampler.posterior"]}
{"id": "C51", "title": "Trimmed log-weights are not renormalised", "statement": "posterior(return_logw=True) with trimming returns log-weights that differ from the log of the weights returned by posterior() by a constant: the log of the retained mass, which is 0 only if nothing of positive weight was trimmed.", "quantifier": "all histories", "why_tests_cant": "relation between two calls over all data", "anchors": ["pocomc/sampler.py:Sampler.posterior"]}
{"id": "C52", "title": "The importance-sampling evidence is the mean weight, if no draw leaves the support", "statement": "evidence() after a preconditioned run with n_evidence>0 is log mean exp(logl+logp+logdetj-logq) over the flow draws with finite prior; draws of zero prior density are dropped from the mean instead of counting as zero, so the estimate is too large by log(n/n_kept) whenever some draw has zero prior.", "quantifier": "all flows, priors, draws", "why_tests_cant": "bias of an estimator for every prior with internal constraints", "anchors": ["pocomc/sampler.py:Sampler._compute_evidence"]}
{"id": "C53", "title": "Without flow-based evidence the SMC estimate is returned", "statement": "With n_evidence=0 or precondition=False, evidence() is (log mean unnormalised weight at beta=1, None); before any run it is (None, None).", "quantifier": "all runs", "why_tests_cant": "all reachable states", "anchors": ["pocomc/sampler.py:Sampler.run", "pocomc/sampler.py:Sampler.evidence"]}
{"id": "C54", "title": "save_state / load_state restore the sampler", "statement": "Loading a saved state into any sampler makes every saved attribute equal to its value at the time of saving; the progress bar is not saved; pool and its map hook are not saved when a pool is in use and then keep the values of the loading sampler.", "quantifier": "all sampler states, saving and loading samplers", "why_tests_cant": "all states", "anchors": ["pocomc/sampler.py:Sampler.save_state", "pocomc/sampler.py:Sampler.load_state"]}
{"id": "C55", "title": "Loading a serial state discards the pool of the resuming sampler", "statement": "A state saved without a pool contains pool=None; loading it in a sampler constructed with a pool makes that sampler run serially (results are unchanged, parallelism is lost).", "quantifier": "all pairs of samplers", "why_tests_cant": "interaction of two configurations", "anchors": ["pocomc/sampler.py:Sampler.load_state"]}
{"id": "C56", "title": "A crash during save_state never destroys the previous checkpoint", "statement": "At every crash point during save_state(path), the file at path is either untouched (previous content, or absent) or holds the complete new state - provided path does not itself end in .temp, in which case the old checkpoint is truncated in place.", "quantifier": "all crash points, all paths, all old and new contents", "why_tests_cant": "every crash point", "anchors": ["pocomc/sampler.py:Sampler.save_state"]}
{"id": "C57", "title": "Checkpoints appear every save_every iterations and a final one at the end", "statement": "During run(save_every=k) a state named after the iteration counter t is written exactly at the starts of iterations with t > t0 and (t - t0) divisible by k, and '_final' at the end; with save_every=None nothing is written.", "quantifier": "all runs, all k >= 1", "why_tests_cant": "all run lengths", "anchors": ["pocomc/sampler.py:Sampler.run"]}
{"id": "C58", "title": "Resuming after warm-up continues the same run", "statement": "A run resumed from a checkpoint written after warm-up, given the same random draws, makes exactly the iterations the uninterrupted run would have made and ends in the same particles, evidence and counters.", "quantifier": "all runs and all checkpoints after warm-up", "why_tests_cant": "all interruption points", "anchors": ["pocomc/sampler.py:Sampler.run", "pocomc/sampler.py:Sampler.load_state"]}
{"id": "C59", "title": "Resuming during warm-up repeats prior batches", "statement": "A run resumed from a checkpoint written during warm-up processes all prior batches again: the batches processed before the checkpoint are stored twice, and at the end of warm-up the iteration counter and the number of calls exceed those of the uninterrupted run.", "quantifier": "all checkpoints written during warm-up", "why_tests_cant": "all interruption points", "anchors": ["pocomc/sampler.py:Sampler.run"]}
{"id": "C60", "title": "A state saved before the first run cannot be resumed", "statement": "run(resume_state_path=p) raises IndexError when p was saved before any iteration, although load_state(p) followed by run() works.", "quantifier": "all such states", "why_tests_cant": "edge of the state space", "anchors": ["pocomc/sampler.py:Sampler.run"]}
{"id": "C61", "title": "MPIPool.map returns results in task order for every schedule", "statement": "Whatever the order in which workers finish and messages arrive, if map returns, its result list is [f(task) for task in tasks], each task having been sent to exactly one worker and evaluated exactly once.", "quantifier": "all task lists, all numbers of workers, all interleavings", "why_tests_cant": "all schedules", "anchors": ["pocomc/parallel.py:MPIPool.map", "pocomc/parallel.py:MPIPool.wait"]}
{"id": "C62", "title": "MPIPool.map never deadlocks and returns after finitely many messages", "statement": "In every reachable state either map has returned or some step is enabled; every fair schedule makes it return after exactly 2*len(tasks) messages; afterwards all workers are idle and the pool can be reused.", "quantifier": "all task lists, all pools of at least one worker, all interleavings", "why_tests_cant": "deadlock freedom and termination over all schedules", "anchors": ["pocomc/parallel.py:MPIPool.map", "pocomc/parallel.py:MPIPool.wait"]}
{"id": "C63", "title": "Closing the pool stops every worker exactly once", "statement": "close() sends the quit message to each worker and to no other process, after which every worker leaves its loop; it does nothing when called on a worker.", "quantifier": "all pool sizes, all interleavings", "why_tests_cant": "all schedules", "anchors": ["pocomc/parallel.py:MPIPool.close", "pocomc/parallel.py:MPIPool.wait"]}
{"id": "C64", "title": "Serial, pooled and vectorised likelihood evaluation agree", "statement": "For a likelihood without blobs, the log-likelihoods computed serially, through any order-preserving pool, or by the equivalent vectorised function are equal, in the order of the input rows.", "quantifier": "all batches, likelihoods and pools", "why_tests_cant": "all inputs", "anchors": ["pocomc/sampler.py:Sampler._log_like"]}
{"id": "C65", "title": "Blobs are aligned with particles when the likelihood always returns them", "statement": "If the likelihood returns (logl, blob...) with at least one blob for every point, blobs has one row per point in input order; if some results have no blob the blob array is shorter and misaligned; a bare 1-tuple raises TypeError.", "quantifier": "all batches", "why_tests_cant": "all result patterns", "anchors": ["pocomc/sampler.py:Sampler._log_like"]}
{"id": "C66", "title": "Every mutation uses a fitted geometry", "statement": "Whenever the MCMC stage runs, the geometry of the space it samples in (latent flow space if precondition, scaled parameter space otherwise) has been fitted, including after resuming a checkpoint.", "quantifier": "all runs and checkpoints, all training frequencies", "why_tests_cant": "all histories", "anchors": ["pocomc/sampler.py:Sampler._train", "pocomc/sampler.py:Sampler._mutate"]}
{"id": "C67", "title": "The flow is trained on schedule", "statement": "The flow is (re)trained at an iteration iff preconditioning is on and the flow is untrained, the iteration counter is a multiple of train_frequency, or beta is exactly 1.", "quantifier": "all iterations", "why_tests_cant": "all histories", "anchors": ["pocomc/sampler.py:Sampler._train"]}
{"id": "C68", "title": "The Student-t fit yields finite degrees of freedom and a symmetric positive semi-definite scale matrix", "statement": "Geometry.fit always ends with a finite t_nu (1e6 if the fit diverges); fit_mvstud makes at most max_iter EM updates and every Sigma it returns is symmetric and positive semi-definite.", "quantifier": "all data sets and weights", "why_tests_cant": "all inputs", "anchors": ["pocomc/geometry.py:Geometry.fit", "pocomc/student.py:fit_mvstud"]}
{"id": "C69", "title": "One-dimensional problems cannot use the random-walk sampler", "statement": "For n_dim = 1 the covariance estimated for the normal approximation is a zero-dimensional array, on which the Cholesky factorisation used by both random-walk kernels raises; the tpcn kernels are unaffected.", "quantifier": "all one-dimensional data sets", "why_tests_cant": "shape property for all data", "anchors": ["pocomc/geometry.py:Geometry.fit", "pocomc/mcmc.py:rwm", "pocomc/mcmc.py:preconditioned_rwm"]}
{"id": "C70", "title": "Predefined flows have adequate width", "statement": "The hidden width of the predefined flows is a power of two, at least 32 and at least 3*n_dim, and less than twice max(32, 3*n_dim); the number of transforms is the number in the name.", "quantifier": "all dimensions", "why_tests_cant": "all integers", "anchors": ["pocomc/flow.py:Flow.__init__"]}
{"id": "C71", "title": "Training and validation sets partition the samples, but the split fraction is inverted", "statement": "Flow.fit splits the (shuffled) samples and their weights, kept aligned, into two disjoint sets covering all samples; the fraction validation_split is used for training and the rest for validation, the opposite of the documentation.", "quantifier": "all data sets, permutations, split fractions", "why_tests_cant": "all data sets", "anchors": ["pocomc/flow.py:Flow.fit"]}
{"id": "C72", "title": "Early stopping restores the best model, running out of epochs does not", "statement": "Flow.fit runs at most epochs epochs, records one loss per epoch, and stops early as soon as the monitored loss has not improved for int(1.5*patience) epochs; if it stops early the parameters are those of the epoch with the first smallest monitored loss (initial ones if no loss was below infinity); if it runs out of epochs the parameters are those of the last epoch, not the best.", "quantifier": "all loss sequences (including NaN), all patiences", "why_tests_cant": "all loss histories", "anchors": ["pocomc/flow.py:Flow.fit"]}
{"id": "C73", "title": "The noise scale uses only the last sample", "statement": "With noise set, the noise amplitude is meant to be the mean nearest-neighbour distance of the samples; instead it is the mean distance of the last sample to all samples (itself included).", "quantifier": "all data sets", "why_tests_cant": "all data sets", "anchors": ["pocomc/flow.py:Flow.fit"]}
{"id": "C74", "title": "Regularisation penalises large weights", "statement": "The regularisation term added to the training loss is sum|w|/laplace_scale + sum w^2/(2 gaussian_scale^2) over the hyper-network weights, non-negative, zero iff all weights are zero, and absent when both scales are None.", "quantifier": "all parameter values and scales", "why_tests_cant": "all inputs", "anchors": ["pocomc/flow.py:regularization_loss", "pocomc/flow.py:Flow.fit"]}
{"id": "C75", "title": "Flow inputs are single precision or rejected", "statement": "Flow methods accept float32 unchanged, cast float64 to float32 with a warning, and raise ValueError for any other dtype - and also for float64 when warnings are disabled.", "quantifier": "all dtypes and both warn settings", "why_tests_cant": "finite but complete case analysis", "anchors": ["pocomc/tools.py:torch_double_to_float"]}
{"id": "C76", "title": "Fitting standardises the training data, except constant coordinates", "statement": "After fit on data inside the open ranges, with diagonal scaling, forward of those data has mean 0 and mean square 1 in every coordinate that takes two values; a coordinate that is constant in the data becomes NaN.", "quantifier": "all data sets, all mixtures of ranges, both transforms", "why_tests_cant": "all data sets", "anchors": ["pocomc/scaler.py:Reparameterize.fit", "pocomc/scaler.py:Reparameterize.forward"]}
{"id": "C77", "title": "Multinomial resampling draws particles in proportion to their weights", "statement": "With resample='mult' a uniform draw u picks the particle i for which (sum of the weights before i) <= u * total < (sum up to and including i), so particle i is drawn with probability weight_i / total and a particle of zero weight is never drawn; weights that are negative or do not sum to 1 within 2^-26 raise ValueError.", "quantifier": "all non-negative weight vectors, all uniform draws, any number of draws", "why_tests_cant": "all weight vectors and draws", "anchors": ["pocomc/sampler.py:Sampler._resample", "pocomc/sampler.py:Sampler.posterior"]}
{"id": "C78", "title": "Training options are those given, otherwise the documented defaults", "statement": "Each training option (validation_split, epochs, batch_size, patience, learning_rate, annealing, gaussian_scale, laplace_scale, noise, shuffle, clip_grad_norm, verbose) has the value last given for it in train_config, and its default if it is not given, independently of the other keys; unknown keys are ignored.", "quantifier": "all train_config dictionaries", "why_tests_cant": "all combinations of keys", "anchors": ["pocomc/sampler.py:Sampler.__init__"]}
{"id": "C79", "title": "The checkpoints of a run are distinct files that can each be loaded", "statement": "The files written by one run(save_every=k) have different names, no temporary file has the name of a checkpoint, and after the run - or after the process is killed during a later save - loading any file that was completely written restores the state the sampler had when it was written.", "quantifier": "all runs, all k >= 1, all file systems, all kill points", "why_tests_cant": "all run lengths and kill points", "anchors": ["pocomc/sampler.py:Sampler.run", "pocomc/sampler.py:Sampler.save_state", "pocomc/sampler.py:Sampler.load_state"]}
{"id": "C80", "title": "An MCMC phase is n parallel Metropolis-Hastings chains for the tempered posterior", "statement": "What a kernel returns is the last state of n chains started at the n particles it was given: in every step every walker proposes a point (Student-t Crank-Nicolson or Gaussian random walk around its current position, in the latent space of the flow for the preconditioned kernels) and moves there exactly if its uniform number is below the Metropolis-Hastings acceptance probability for prior * likelihood^beta in the sampled coordinates, with no other state carried from step to step than positions, scale and location.", "quantifier": "all four kernels, all numbers of walkers, dimensions and steps, all likelihoods, priors, bijective flows and random numbers, exact arithmetic", "why_tests_cant": "a stale log-density or a missing Jacobian of one walker at one step biases the samples without any visible error", "anchors": ["pocomc/mcmc.py:preconditioned_pcn", "pocomc/mcmc.py:preconditioned_rwm", "pocomc/mcmc.py:pcn", "pocomc/mcmc.py:rwm"]}
{"id": "C81", "title": "MCMC stops at the first long enough plateau of the mean log-posterior", "statement": "A phase ends at the first step at which the mean over the walkers of log-likelihood + log-prior (random-walk kernels: plus the log-determinant of the reparameterisation) has not exceeded its earlier maximum for at least n_steps * (2.38 / sqrt(dim) / scale)^2 steps, or at n_max_steps, and not before; for the t-preconditioned Crank-Nicolson kernels in up to 292 dimensions this means at least min(n_steps, n_max_steps) steps.", "quantifier": "all four kernels, all walkers, dimensions, likelihoods and random numbers, exact arithmetic", "why_tests_cant": "the stopping time depends on the whole trajectory", "anchors": ["pocomc/mcmc.py:preconditioned_pcn", "pocomc/mcmc.py:preconditioned_rwm", "pocomc/mcmc.py:pcn", "pocomc/mcmc.py:rwm"]}
{"id": "C82", "title": "Step size and location adapt by the stated diminishing laws", "statement": "After step i the scale is |min(scale + (i+1)^-0.75 * (mean acceptance - 0.234), 2.38/sqrt(dim), 0.99)| for the Crank-Nicolson kernels, |scale + (mean acceptance - 0.234)/(i+1)| for the random walk and the same without the absolute value for the preconditioned random walk; the location of the preconditioned Crank-Nicolson proposal moves by 1/(i+1) of its distance to the mean position of the walkers; the reported scale and acceptance rate are those of the last step.", "quantifier": "all four kernels, all walkers, dimensions, likelihoods and random numbers, exact arithmetic", "why_tests_cant": "an adaptation that does not vanish, or that uses the wrong step or sign, changes the limiting distribution and no single run shows it", "anchors": ["pocomc/mcmc.py:preconditioned_pcn", "pocomc/mcmc.py:preconditioned_rwm", "pocomc/mcmc.py:pcn", "pocomc/mcmc.py:rwm"]}
{"id": "C83", "title": "The kernels return whatever the proposals are", "statement": "If the prior and the likelihood return for every point of the support (with blobs if the particles carry blobs) and the flow is a bijection, no kernel raises and each returns after at most max(1, n_max_steps) steps.", "quantifier": "all four kernels, all walkers, dimensions, likelihoods bounded above, priors and random numbers, exact arithmetic", "why_tests_cant": "a run proposes points no test has tried", "anchors": ["pocomc/mcmc.py:preconditioned_pcn", "pocomc/mcmc.py:preconditioned_rwm", "pocomc/mcmc.py:pcn", "pocomc/mcmc.py:rwm"]}
{"id": "C84", "title": "An iteration moves n_active stored particles along tempered-posterior chains", "statement": "Every iteration of run that returns has started n_active walkers at positions of stored particles, drawn by the configured resampling method with their importance weights at beta after trimming, has moved them along Metropolis-Hastings chains of the configured kernel for prior * likelihood^beta with beta in [0,1] the value it recorded, has stored their final positions, and has recorded the number of steps, the mean acceptance probability of the last step and the ratio of the last step size to the optimal one; the next iteration starts from this step size.", "quantifier": "all reachable sampler states, all options, likelihoods, priors, flows and random numbers, exact arithmetic", "why_tests_cant": "the chain of an iteration depends on everything the sampler did before", "anchors": ["pocomc/sampler.py:Sampler._mutate", "pocomc/sampler.py:Sampler.run", "pocomc/mcmc.py:preconditioned_pcn", "pocomc/mcmc.py:preconditioned_rwm", "pocomc/mcmc.py:pcn", "pocomc/mcmc.py:rwm"]}
{"id": "C85", "title": "The proposal distribution of an iteration is a proper one", "statement": "If at least two particles survive the trimming in every iteration of a run so far - which is so if the recorded effective sample sizes exceed 100/99 - the normal or Student-t distribution given to the kernel has a finite symmetric positive definite covariance with its Cholesky factor and inverse, and for Student-t a finite location and positive degrees of freedom. With preconditioning this holds for iterations that train the flow and for those that keep the distribution of the last training.", "quantifier": "all reachable sampler states, all options, likelihoods and random numbers, exact arithmetic", "why_tests_cant": "degenerate fits depend on the stored particles and weights", "anchors": ["pocomc/sampler.py:Sampler._train", "pocomc/sampler.py:Sampler._mutate", "pocomc/geometry.py:Geometry.fit"]}
{"id": "C86", "title": "Iterations and runs raise nothing", "statement": "From every sampler state with at least one stored batch, an iteration of run returns without exception - for a sufficiently long search of the next inverse temperature - if the fit of the proposal distribution returns and is proper, the prior and the likelihood return, and the random numbers are in their ranges. Without preconditioning the fit need not be assumed to return: it does if the points it is given are not all in one hyperplane and the linear algebra answers on positive definite matrices. With preconditioning the same holds for the images of the points under the flow, and training raises nothing. The iterations of a run, the whole run of a new sampler, a second run and a run resumed from a file therefore return or go on for as long as one waits; they raise nothing.", "quantifier": "all reachable sampler states, all options, likelihoods bounded above, priors and random numbers, exact arithmetic", "why_tests_cant": "all reachable states", "anchors": ["pocomc/sampler.py:Sampler.run", "pocomc/sampler.py:Sampler._reweight", "pocomc/sampler.py:Sampler._resample", "pocomc/sampler.py:Sampler._mutate"]}
{"id": "C87", "title": "Each recorded log-evidence belongs to its inverse temperature", "statement": "The log-evidence an iteration records is the logarithm of the mean importance weight, at the inverse temperature it records, of all particles stored before the iteration; if the effective sample size at the last inverse temperature is already at or below n_effective, both are repeated.", "quantifier": "all reachable sampler states, all options, likelihoods bounded above, priors and random numbers, exact arithmetic", "why_tests_cant": "the recorded value enters every later importance weight; no reference value exists for a generic state", "anchors": ["pocomc/sampler.py:Sampler._reweight", "pocomc/particles.py:Particles.compute_logw_and_logz"]}
{"id": "C88", "title": "Evidence estimates lie in the range of the likelihood", "statement": "Every recorded log-evidence lies between beta times the smallest and beta times the largest stored log-likelihood, and the log-evidence a run reports without the flow estimate lies between the bounds of the log-likelihood; for a constant likelihood it is exact.", "quantifier": "all reachable sampler states and completed runs, all options, likelihoods bounded above, priors and random numbers, exact arithmetic", "why_tests_cant": "holds for all histories at once; a test sees single histories", "anchors": ["pocomc/sampler.py:Sampler._reweight", "pocomc/sampler.py:Sampler._compute_evidence", "pocomc/sampler.py:Sampler.evidence", "pocomc/particles.py:Particles.compute_logw_and_logz"]}
{"id": "C89", "title": "A constant added to the log-likelihood changes nothing but the evidence", "statement": "Two samplers built with the same options and run with the same arguments and random numbers, the second with a constant c added to the log-likelihood, raise the same exception or both return; then they have written the same files and have the same particles, weights, inverse temperatures, effective sample sizes and numbers of likelihood calls; log-likelihoods differ by c, recorded log-evidences by c beta and the final log-evidence by c, with the same error.", "quantifier": "all likelihoods (also infinite or NaN values), priors, options, random numbers and reachable sampler states, exact arithmetic", "why_tests_cant": "relates all pairs of runs; rounding hides it from a numerical test and no test can run all histories", "anchors": ["pocomc/sampler.py:Sampler.run", "pocomc/sampler.py:Sampler.posterior", "pocomc/sampler.py:Sampler.evidence", "pocomc/mcmc.py:preconditioned_pcn", "pocomc/particles.py:Particles.compute_logw_and_logz"]}
{"id": "C90", "title": "A prior density off by a constant factor does not change the samples", "statement": "Two samplers built with the same options and run with the same arguments and random numbers, the second with a constant c added to the log-prior density (same prior samples), raise the same exception or both return; then they have written the same files and have the same particles, weights, inverse temperatures, log-likelihoods and numbers of likelihood calls. The log-evidence is larger by c if the flow estimate was used (n_evidence > 0 and preconditioning) and the same otherwise, so with an unnormalised prior the two estimates disagree.", "quantifier": "all likelihoods and priors (also infinite or NaN values), options, random numbers and sampler states, exact arithmetic", "why_tests_cant": "relates all pairs of runs; rounding hides it from a numerical test and no test can run all histories", "anchors": ["pocomc/sampler.py:Sampler.run", "pocomc/sampler.py:Sampler._compute_evidence", "pocomc/sampler.py:Sampler.evidence", "pocomc/mcmc.py:preconditioned_pcn", "pocomc/prior.py:Prior.logpdf"]}
{"id": "C91", "title": "The flow and the proposal distribution are fitted to the weighted particles that remain", "statement": "Without preconditioning, every iteration fits the proposal distribution to the coordinates and weights of the stored particles that remain after reweighting and trimming at the inverse temperature it records. With preconditioning, an iteration either trains the flow further on these coordinates and weights, with batches of at most half of the particles, and fits the proposal distribution to their images under the trained flow with the same weights, or - when it does not train - keeps both from an earlier iteration.", "quantifier": "all reachable sampler states, all options, likelihoods bounded above, priors and random numbers, exact arithmetic", "why_tests_cant": "fitting to other particles, to unit weights or with other batches still gives a sampler that runs; the effect is statistical", "anchors": ["pocomc/sampler.py:Sampler._train", "pocomc/sampler.py:Sampler._reweight", "pocomc/flow.py:Flow.fit", "pocomc/geometry.py:Geometry.fit"]}
{"id": "C92", "title": "The proposal distribution is the weighted moments and an expectation-maximisation fit of a Student-t distribution", "statement": "Geometry.fit returns as normal part the weighted mean and the weighted covariance (unbiased for reliability weights) of its points, and as Student-t part the result of this iteration on the points (or, with weights, on as many points drawn from them by systematic resampling): start at the medians, the covariance with variances enlarged by 1 + 1/n and 20 degrees of freedom; each update takes as degrees of freedom the root of the derivative of the Student-t log-likelihood given the squared Mahalanobis distances, then the location and the scale matrix with weights (nu + d) / (nu + distance), until nu changes by at most 1e-6 or after 100 updates; where the likelihood still increases far out, nu becomes a million. In a run these points are the particles that survived the trimming (or their images under the flow), with their weights.", "quantifier": "all points, weights, dimensions and sampler states, any solver, root search and digamma function that answer correctly, exact arithmetic", "why_tests_cant": "a wrong constant, weight or start gives another valid proposal distribution and only changes efficiency", "anchors": ["pocomc/student.py:fit_mvstud", "pocomc/geometry.py:Geometry.fit", "pocomc/tools.py:systematic_resample"]}
{"id": "C93", "title": "The warm-up stores the prior draws in order, as entries at inverse temperature zero", "statement": "The first run of a new sampler draws n_prior points from the prior, fits the scaler to all of them and stores them in their order as n_prior // n_active entries of n_active particles: a draw whose log-likelihood is infinite is replaced by the draw of the same batch that the random numbers choose among the others, every other draw is kept as it is, with its own coordinates, log-Jacobian, log-likelihood, log-prior and blob. Entry t records inverse temperature 0, log-evidence 0, one step, acceptance and efficiency 1, the effective sample size asked for, iteration t and (t + 1) n_active likelihood calls, and is unchanged when the run returns.", "quantifier": "all first runs that return, all options, likelihoods, priors and random numbers, any number type", "why_tests_cant": "holds for every size, every pattern of infinite values and every later iteration at once", "anchors": ["pocomc/sampler.py:Sampler.run", "pocomc/sampler.py:Sampler.sample_prior", "pocomc/particles.py:Particles.update"]}
{"id": "C94", "title": "The step size goes on from one iteration to the next", "statement": "Until the first iteration the step size of the moves is 2.38 / sqrt(n_dim) and the recorded efficiencies are 1; after an iteration the recorded efficiency is the ratio of the last step size to 2.38 / sqrt(n_dim), and the next iteration starts from that step size (at most 0.99 for tpcn) - also after a run was resumed from a file, the sampler was run again or an exception was caught.", "quantifier": "all reachable sampler states, all options, likelihoods, priors and random numbers, any number type (in exact arithmetic: the step size is the recorded efficiency times 2.38 / sqrt(n_dim))", "why_tests_cant": "a lost or reset step size only changes acceptance rates and run time", "anchors": ["pocomc/sampler.py:Sampler.__init__", "pocomc/sampler.py:Sampler._mutate", "pocomc/sampler.py:Sampler.load_state", "pocomc/mcmc.py:preconditioned_pcn"]}
{"id": "C95", "title": "The error of the evidence is the bootstrap standard deviation of the log-evidence", "statement": "With preconditioning and n_evidence > 0, the second value of evidence() after a run is the (population) standard deviation of log-evidences over max(n_evidence, 1000) bootstrap samples: each sample takes, with replacement, as many importance weights as there are draws from the flow of finite log-prior, and its log-evidence is the logarithm of their mean.", "quantifier": "all runs that return with preconditioning and n_evidence > 0, all likelihoods, priors, flows and random numbers, where the likelihood, the Jacobian and the density of the flow are numbers at the draws; exact arithmetic", "why_tests_cant": "the error is random; a wrong sample size, a standard deviation of weights instead of log-means or a resampling without replacement gives values of a plausible size", "anchors": ["pocomc/sampler.py:Sampler._compute_evidence", "pocomc/sampler.py:Sampler.evidence"]}
{"id": "C96", "title": "A pickled copy of a sampler has all its attributes but the pool", "statement": "A copy made by pickle (or copy, or multiprocessing) of a sampler without pool has exactly the attributes of the original. If the sampler has a pool, the copy has all attributes except pool and distribute; evaluating the likelihood with such a copy raises AttributeError unless the likelihood is vectorised.", "quantifier": "all sampler states, any set of attributes, any serialisation that restores what it wrote", "why_tests_cant": "depends on which attributes exist; tests pickle one state", "anchors": ["pocomc/sampler.py:Sampler.__getstate__", "pocomc/sampler.py:Sampler._log_like"]}
{"id": "C97", "title": "The progress bar shows what is recorded and changes nothing", "statement": "Whenever run() returns, the values last set on the progress bar are those last recorded in the history - inverse temperature, effective sample size cut to an integer, log-evidence, mean log-posterior of the particles, acceptance rate, number of steps, and (where n_dim ** 0.5 is np.sqrt(n_dim), as in exact arithmetic) efficiency - and the number of likelihood calls; its count has moved by the number of iterations added, and after a resumed run is the total number of iterations. Setting the bar raises nothing and the sampler ends in the same state as without it. In a later run the number of calls shown is, when the evidence is not computed with the flow, larger than the recorded one by the calls that an earlier importance estimate of the evidence made. A later run that adds no iteration leaves inverse temperature 0 and log-evidence 0 on the bar, whatever is recorded; a resumed run that adds none shows the recorded values.", "quantifier": "all first, later and resumed runs that return (the values shown: those that add an iteration), all options, likelihoods, priors, flows and random numbers, any number type", "why_tests_cant": "the display is set from four kernels, the warm-up, the reweighting and the evidence; tests do not read it, and it depends on the whole run", "anchors": ["pocomc/tools.py:ProgressBar", "pocomc/sampler.py:Sampler.run", "pocomc/sampler.py:Sampler._reweight", "pocomc/sampler.py:Sampler._compute_evidence", "pocomc/mcmc.py:preconditioned_pcn"]}
