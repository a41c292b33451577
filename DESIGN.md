# A formal model of pocoMC in Rocq (Coq 8.16.1)

Source: `/repo/pocomc` (commit pinned by the task).  Model and proofs:
`/verif/rocq/theories`.  Properties: `/verif/properties.jsonl`; which theorem
settles which property: `/verif/MANIFEST.json`; what `Print Assumptions` says of
each theorem: `/verif/ASSUMPTIONS.md`; wrong programs tried against the theorems:
`/verif/seeded/LOG.jsonl`.

## 1. How numbers are modelled

The library is numpy code; almost every branch depends on IEEE numbers.  The
model is written **once**, over type classes of number operations (`Num`, `NumT`
in `Num.v`) that come with no algebraic law.  Three readings are used:

* **every arithmetic** - theorems quantified over *all* instances of the classes
  (coherence of the rows, counters, number of steps, schedules, checkpoints).
  They hold whatever `+`, `<`, `exp` do, hence also for binary64 with any libm.
* **`X`** (`XReal.v`) - exact extended reals: `Fin r` (r a Coq real), `+inf`,
  `-inf`, `NaN` with the IEEE rules for special values (comparison with NaN is
  false, `0*inf = NaN`, `log 0 = -inf`, ...).  No rounding, no overflow, no signed
  zero.  Analytic properties (bounds, bijections, Jacobians, detailed balance,
  termination of the bisection, evidence) are proved here.
* **binary64** (`FloatNum.v`) - the standard library's `SpecFloat`, i.e. IEEE
  binary64 computed bit by bit; `exp`, `log`, `pow`, `erf`, `erfinv` are arguments.
  Used for positive theorems (C31, C35, C37, C44, C49) and for witnesses that
  need rounding (C13, C28, C33).  The kernel's primitive floats are not used.

Some theorems ask for a *class* of arithmetics: `float_like undefined random`
(`SpecRun.v`) says that undefined values behave like NaN in comparisons and
differences, and random numbers are not below NaN-like values; it is proved of `X`
and of binary64 (`HistoryMain.v`).

## 2. Shape of the model

* One Gallina function per Python function, branch by branch, each with a comment
  citing file and lines; exceptions are values (`res A := Ok a | Err e`); loops
  whose termination is not structural take fuel and return `Err Diverge` when it
  runs out.
* Everything random, and everything computed by another library, is an argument:
  uniform, gamma and normal draws, the user's prior and likelihood, the flow
  (zuko/torch), `numpy.linalg`, `scipy.optimize`, the pool.  Theorems are
  universally quantified over them; what a theorem assumes of them is one of its
  hypotheses (section 5).
* The particle history is a record of lists, one per key; the sampler is a record
  with one field per attribute, plus two ghost fields (the points where the
  likelihood was evaluated, and those evaluated for the evidence); `run` returns
  the list of the states written to disk and the final sampler or an exception.
* `reachable` (`SpecReach.v`): the states of a sampler between two phases of a run,
  through any number of runs, resumed runs, loads, calls of `results` and
  exceptions caught by the user.  An exception leaves the sampler in the state
  after the last completed phase (constructors `rc_reweighted`, `rc_trained`,
  `rc_resampled`), or with half-trained flow (`rc_training`).  *Not* covered:
  an exception in the middle of `_mutate`, a warm-up batch or `_compute_evidence`
  after the attribute `calls` or `have_blobs` was updated, and attributes
  overwritten by the user.
* The MPI pool and the file system are transition systems with arbitrary
  interleaving / crash points.

Files, in the order of the build: `Num`, `XReal`, `FloatNum` numbers; `PyBase`
exceptions and numpy list helpers; `Tools`, `Prior`, `Scaler`, `Particles`,
`Parallel`, `LogLike`, `Geometry`, `Mcmc`, `Flow`, `Sampler`, `Persist`, `Pickle` the model,
one per Python module (`Scaler` includes input_validation.py, `Geometry` includes
student.py, `LogLike`, `Persist` and `Pickle` are parts of sampler.py); `Spec*.v` small
specifications; `*Facts.v`, `*Main.v`, `*Exact.v`, ... the proofs; `*Case(s).v`
concrete cases; `Prop*.v` the property theorems, each closed by `exact`, with
`Print Assumptions` and an example beside it.

## 3. Per property: what is modelled, how it is proved

| id | model | proof | file |
|----|-------|-------|------|
| C01 C02 | `Prior` as a list of marginals (oracles) | induction on marginals and rows | PropPrior |
| C03-C05 | coordinate maps none/left/right/both x probit/logit, affine step; `erf` by its integral, `erfinv` its inverse | real analysis; the Gaussian integral gives surjectivity of `erf` (`Erf.v`) | PropScaler |
| C06 | log-determinant | derivatives of the coordinate maps (Coquelicot); full covariance: `log abs det L` is numpy's value | PropScaler |
| C07-C09 | interval checks, constructor bounds | case analysis in `X`; findings | PropScaler |
| C10 C11 C13 | the while loops with fuel | induction on the excursion; binary64 fixed point for divergence | PropScaler |
| C12 | composition of inverse and boundary conditions | from C05 | PropScaler |
| C14-C17 | `effective_sample_size`, `unique_sample_size`, `trim_weights` (percentile of the sorted list) | Cauchy-Schwarz, Bernoulli, sum over all draw sequences, loop invariant | PropTools |
| C18-C21 | two-pointer loop of `systematic_resample` | invariant; integral over the offset for unbiasedness | PropTools |
| C22 | `compute_ess`, `increment_logz` | log-sum-exp algebra | PropTools |
| C23 C24 | history, cache of `compute_results` | induction over operation lists | PropParticles |
| C25 C26 | `compute_logw_and_logz` | log-sum-exp algebra | PropParticles |
| C27-C30 C78 | constructor | case analysis; integer arithmetic; binary64 witness | PropConfig |
| C31 | `_reweight` | invariant of reachable states; order laws of binary64 (via Flocq) | PropBeta |
| C32-C34 | `_reweight`, `_not_termination`, `run` | bisection invariant; continuity and intermediate values for termination; binary64 witness of divergence | PropLoop |
| C35-C37 C47 C48 | `run` with all its phases | invariant of reachable states: each stored row is a prior draw or an accepted proposal | PropHistory |
| C38 | kernels, warm-up, evidence | replacing the likelihood outside the support changes nothing | PropMcmc, PropLoop |
| C39 C45 C46 C66 C67 | counters, `iter`, dynamic `n_effective`, geometry, training schedule | invariants of reachable states | PropLoop |
| C40 C41 C44 | the four kernels | loop induction; special values; uninitialised memory by relating two runs that differ in it | PropMcmc |
| C42 C43 | one-walker proposal and acceptance | each kernel step is the Metropolis-Hastings move of `SpecBalance.v`; detailed balance in density form and as a measure-preserving involution of the noise | PropMcmc |
| C80 C81 C82 C83 | whole calls of the four kernels in `X` | `SpecChain.v` describes n real-valued chains, the stopping time and the adaptation laws without the model; a loop invariant relates every pass to one time of the chains, starting from the particles the sampler hands over; returning by induction on the fuel | PropChain |
| C84 C85 C86 | one iteration of the sampler from any reachable state in `X` | `SpecIterate.v` says which stored particles move (exact resampling law after trimming) and what is recorded; the invariants of all reachable states give the hypotheses of C80-C83 (positive density, finite step size, survivors that are not all equal), C69 the fit. `SpecLater.v`: the iterations of a run; an invariant (the distribution of the last training is proper) covers iterations that do not train. `SpecReturn.v`: without the flow, the fit returns and is positive definite if the points it is given are not all in one hyperplane. `SpecTrainReturn.v`, `SpecFlowReturn.v`: with the flow, training raises nothing and the fit of the images returns under the same condition on the images. `SpecLoopReturn.v`: the invariants of these iterations carry through a loop of any length. `SpecRunReturn.v`: so do the prior draws, the fit of the scaler, the warm-up and the evidence, so that a run of a new sampler raises nothing; a second run and a run resumed from a file begin with the loop (`RunAgain.v`) | PropIterate, PropLater, PropReturn, PropLoopReturn, PropRunReturn |
| C91 | training data of the flow and of the proposal distribution | `remaining` (`SpecIterate.v`) says which stored particles survive the trimming, with which weights; phase by phase through one iteration from any reachable state | PropFit |
| C92 | what the proposal distribution is: moments and Student-t fit | `moments`, `em_update`, `student_fit_by_em`, `proposal_fit` (`SpecStudent.v`) in real numbers, nothing of the model but the oracle records; the score of student.py is proved to be the derivative in nu of the log-likelihood (Coquelicot), induction over the updates, then composed with C91 | PropStudent |
| C93 | what the warm-up stores | `warm_up_entry` and `replacement` (`SpecWarmup.v`) describe one entry from the draws alone; induction over the batches (slices of the draws are disjoint), then over the iterations (the history only grows). For every `Num` instance | PropWarmup |
| C94 | the step size across iterations, saves and exceptions | induction over reachable states for every `Num` instance; in `X` composed with C84 | PropStep |
| C95 | the error of the evidence | `redrawn` and `deviation` (`SpecEvidence.v`): log-means of redrawn weights and their standard deviation in real numbers; composed with the facts of `final_evidence` for a whole run. In `X`. The Example is a run with the flow, from construction to the evidence, that meets the hypotheses of C52 and C95 | PropBoot |
| C96 | `__getstate__`, the pickled copy, and `_log_like` reading the attributes of an object | `is_pickled` (`SpecPickle.v`) says which attributes a copy has; the dictionary lemmas of C54; `log_like_of` is proved to be the evaluation of the model's sampler | PropPickle |
| C97 | `ProgressBar` and every place that sets it (`Bar.v`): the run, the warm-up, the reweighting, the four kernels, the evidence | `displays`, `displays_efficiency`, `calls_shown` (`SpecBar.v`); the functions of `Bar.v` are the functions of the model with a bar beside the state, and are proved to follow them step by step (`BarFacts.v`) | PropBar |
| C87 C88 | recorded and reported log-evidences | bisection result and balance weights for one iteration; induction over reachable states, each weight lies between the extreme tempered likelihoods; `ExactRun.v` carries out a whole run in exact arithmetic | PropEvidence |
| C89 | the whole sampler in `X`, run twice | `SpecShift.v` says what differs; every phase, kernel and loop commutes with the shift (a simulation), with the invariant that all inverse temperatures are real | PropShift |
| C90 | the whole sampler in `X`, run twice | `SpecRescale.v` says what differs; every phase, kernel and loop commutes with the change of the log-prior; no hypothesis on the state | PropRescale |
| C49 | NaN in the history | NaN propagates to the weights, the temperature halves for ever, `_resample` fails; exact and binary64 | PropNan |
| C50 C51 | `posterior` | list algebra; log-sum-exp | PropPosterior |
| C52 C53 | `_compute_evidence`, `evidence` | algebra of means | PropLoop |
| C54 C55 | attribute dictionary | dictionary algebra; the saved attributes determine the sampler (`C54_nothing_lost`); the pool does not affect a run (`PoolSwap.v`) | PropPersist |
| C56 C79 | file system with directory entries, inodes, unsynced data and durable names | all prefixes of the steps of `save_state` | PropPersist |
| C57-C60 | `run` with checkpoints and resume | induction on batches and iterations; determinism | PropTrace |
| C61-C63 | MPI transition system | invariant over all interleavings, decreasing measure | PropParallel |
| C64 C65 | `_log_like` | case analysis on result shapes | PropLogLike |
| C68 C69 | `Geometry.fit`, `fit_mvstud`, covariance/Cholesky | loop invariant: symmetric positive semi-definite | PropGeometry |
| C70-C75 | `Flow.__init__`, `Flow.fit`, `regularization_loss`, `torch_double_to_float` | induction over epochs; witnesses; `C72_training_returns`: training raises nothing | PropFlow, PropLoopReturn |
| C76 | `Reparameterize.fit` | algebra of mean and variance | PropScaler |
| C77 | `np.random.choice(p=...)` by cumulative sums | invariant of the search | PropTools |

## 4. Modelled and not modelled

Modelled: all of `tools.py` except `numpy_to_torch` and
`torch_to_numpy` (`flow_numpy_wrapper` is in `Mcmc.v`, with the casts to float32
part of the flow oracle); `prior.py`; `scaler.py`; `input_validation.py` (the two
checks that the scaler uses; the others are not called anywhere); `particles.py`;
`geometry.py`; `student.py`; `mcmc.py`; `parallel.py` (`map`, `wait`, `close`; not
the import of mpi4py; `__exit__` is `close`); `flow.py` (construction by name, data
split, epoch loop, early stopping, noise, regularisation; `forward`, `inverse`,
`log_prob` and `sample` hand over to zuko and are oracles); `sampler.py` in full
except printing.  `ProgressBar` is modelled by the values that it holds (`Bar.v`);
how tqdm draws them is not.

Not modelled: rounding error in `X`; the casts to float32 around the flow; the
training algorithm of torch and the flow architecture of zuko (oracles); the text
shown by tqdm; `multiprocessing.Pool` (assumed to preserve order); dill (assumed
to restore what it wrote); `threading.py` (sets the number of threads); numpy
broadcasting beyond the shapes that occur (a mismatch of row lengths is a
ValueError in the model, numpy would broadcast rows of length 1).

Simplifications are stated in the comment of the definition concerned.

## 5. Trusted base

* Coq's kernel (and `coqchk`, which vcheck runs).
* Axioms: only those of the standard library's reals, `ClassicalDedekindReals.sig_not_dec`,
  `ClassicalDedekindReals.sig_forall_dec`, `FunctionalExtensionality.functional_extensionality_dep`,
  and `Classical_Prop.classic` (through Coquelicot and Flocq, which add none of
  their own).  `ASSUMPTIONS.md` lists them theorem by theorem; about half of the
  theorems are closed under the global context.
* The correspondence between the Gallina functions and the Python source, cited
  line by line in comments.
* Hypotheses about oracles, each visible in the theorem that uses it:
  - pool: `maps` - it evaluates the function at every point and returns the results
    in order (proved for the MPI pool, C61);
  - likelihood and prior: `regular W lp ll bl` - they are functions, evaluated row by
    row, returning as many values as rows;
  - random numbers: `good_draws random drawn` - uniform numbers are in [0,1), prior
    draws are rows of the right length from the set `drawn`; resuming "with the
    same draws" (C58) means the same stream `R`, since the state of the generator
    is not saved;
  - exact arithmetic: `exact_prior` - prior draws lie in the open support with finite
    log-density;
  - fit of the proposal (C68, C85, C92): `good_solve` - a solution that is returned is one;
    `good_bisect` - the root returned is in the bracket; `digamma` - psi is the derivative of
    a function lgamma;
  - binary64 (C35, C37, C44, C49): `exp(-inf) = 0`, `exp(NaN) = NaN`, `exp` is
    NaN or non-negative;
  - MCMC phases (C80-C83): `flow_bijection` - the flow and its inverse undo each other
    and report opposite log-determinants; `exact_rand`, `exact_gamma` - uniform numbers
    in [0,1), finite normal and positive gamma variates; `normal_fit`, `student_fit` -
    `numpy.linalg` returns the Cholesky factor and the inverse of the fitted covariance;
    `bounded_like` - no log-likelihood is +inf;
  - iterations (C84-C86, C90-C92): `exact_model` - prior and likelihood work row by row, are real
    and not NaN inside the ranges, and the likelihood is nowhere +inf; `exact_draws` -
    prior draws lie strictly inside the ranges and differ in every parameter;
    `good_linalg` - Cholesky factor and inverse, when returned, are right; `total_linalg`,
    `total_fit` (C86 except C86_iteration_returns) - they are returned for positive definite matrices;
    `well_spread`, `well_spread_latent` - the points of the fit are not all in one hyperplane;
    `good_prior` (C86_run_raises_nothing) - every batch of the warm-up has a point of non-zero likelihood;
    `flow_samples` - the samples of the flow are real points;
  - dill: `faithful` - what it wrote without an exception is read back;
  - file system: `proper_fs` - no hard links between the names concerned; fsync makes
    the content durable; rename is atomic; the order of renames is kept on disk.

## 6. Findings

Behaviour that a user would not expect, each a theorem about the model:

| finding | theorem |
|---------|---------|
| `clip` in the two-sided transform is discarded: boundary points map to infinities | C08 |
| `bounds=None` makes the reparameterisation unusable | C09 |
| reflection folds once only; far excursions stay out of range | C11 |
| boundary conditions never change a proposal | C12 |
| periodic wrapping can loop for ever | C13 |
| `trim_weights` with ess > 1 or NaN ends in IndexError | C17 |
| almost-normalised weights crash systematic resampling | C20 |
| offset 0 selects particle 0 even if its weight is 0 | C21 |
| `results` is frozen at first access | C24 |
| `n_prior` can be wrong by one batch through rounding | C28 |
| defaults of the number of steps differ from the documentation | C29 |
| `pool=1` raises AttributeError | C30 |
| the temperature search can loop for ever in binary64 | C33 |
| the step size of the preconditioned random walk can become negative | C41 |
| `iter` is stuck at the last warm-up batch | C45 |
| a NaN log-likelihood is kept, makes all weights NaN, and the run fails with ValueError | C48, C49 |
| trimmed log-weights are not renormalised | C51 |
| importance-sampling evidence drops draws outside the support from the denominator | C52 |
| loading a state saved without pool discards the own pool | C55 |
| a pickled copy of a sampler with a pool raises AttributeError when it evaluates the likelihood | C96 |
| the calls made for an importance estimate of the evidence are lost for the records of the next run: the bar then shows 38 calls, the history 32 | C97 |
| a later run that adds no iteration shows inverse temperature 0 and log-evidence 0 on the bar | C97 |
| a path ending in `.temp` is overwritten in place; parent directories are not created; a power failure after `save_state` has returned may bring back the old file (the directory is not synced, hence the first disjunct of C56) | C56 |
| resuming during warm-up repeats the batches | C59 |
| a state saved before the first run cannot be resumed (IndexError) | C60 |
| a second `close` of the MPI pool sends messages nobody reads | C63 |
| blobs are misaligned if the likelihood returns them only sometimes; a bare tuple raises | C65 |
| after an exception during training the geometry may be unfitted | C66 |
| `rwm` fails in one dimension | C69 |
| `validation_split` is the training fraction | C71 |
| running out of epochs keeps the last, not the best, parameters | C72 |
| the noise scale uses the last sample only | C73 |
| `torch_double_to_float(warn=False)` rejects float64 | C75 |
| constant coordinates become NaN | C76 |
| with preconditioning, an iteration that does not train the flow fits a distribution nobody uses, and the kernel proposes from the one of the last training | C91 |
| the update of the scale matrix uses the deviations from the old location, not from the location of the same update (a variant of expectation-maximisation) | C92 |
| with an unnormalised prior the flow estimate of the evidence and the one from the weights differ by the log of the normalisation | C90 |

Noticed while modelling, not stated as a property: bounds given as a pair are cast
to float32; `calls` spent on the evidence are not in the history and are lost for
the next run's records; `theta` is not updated when a boundary condition moved
`x` (it never does, C12); blobs of integer dtype raise when every proposal is
rejected; in binary64 a prior draw extremely close to a bound can have an infinite
log-determinant (C37, note).
