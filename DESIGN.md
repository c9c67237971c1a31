# A Rocq (Coq 8.16.1) model of azedarach/reor

## 1. Shape of the development

* `rocq/theories/Num.v` - a type class `Num T` of arithmetic *operations* (no laws). The whole
  model is written once, over any `Num T`. Instances:
  * `Num_R` - exact real arithmetic (stdlib `R`). Theorems about stochasticity, optimality, gradients.
  * `Num_E` - exact reals extended with `NaN`, `+inf`, `-inf` and IEEE rules for them, no rounding.
    Theorems about NaN.
  * `Num_rnd rnd` - reals with the result of every operation rounded by `rnd`; `Num_b64` is the case
    of round to nearest, ties to even, with gradual underflow (binary64 without overflow).
    Theorems C79 ff. hold for every `rnd` with the properties in `Spec_rnd.v`.
  * `Num_F` - Coq's primitive binary64 floats, used to *run* the model (sanity examples).
  Theorems about control flow (shapes, raised errors, iteration counts, index sets) are stated for
  every `Num T`, hence they do not depend on rounding at all.
* `Mat.v` - numpy vectors (`list T`), matrices (`mat T`: shape + rows), slices, sums.
* `Py.v` - results with exceptions as values, Python parameter values, random streams.
* `M_*.v` - the model, one file per Python module, function by function, each definition citing
  the lines it models.
* `Spec.v`, `Spec_fembv.v`, `Spec_varx.v`, `Spec_markov.v`, `Spec_pwvarx.v` - the specification vocabulary (probability vector,
  stochastic matrix, Euclidean distance, true costs, total variation, autoregressive forecast, oracle
  contracts, ...), independent of the model files.
* `Lp.v` - linear programs (what is handed to cvxpy) and the solver's possible answers.
* `P_*.v` - proofs.
* `Props_*.v` - only the property theorems, each with non-vacuity examples and `Print Assumptions`.

## 2. What is modelled, and how each property is proved

See section 4 for the per-property table.  General choices:

* numpy arrays are values in `M_gpnh.v` ... `M_pwvarx.v`; in-place updates return the new value.
  Aliasing and in-place writes are modelled by a second model of the same methods on a heap of
  arrays (`Heap.v`, `M_heap*.v`), which is proved to compute the same values (C57).
* rounding is modelled only through the instance `Num_rnd` (C79 ff.), and exactly as far as
  the operations of `Num` go: sums are rounded from left to right (numpy adds in blocks of eight and
  pairwise), a matrix product is a sequence of rounded products and sums (BLAS may fuse or reorder), there is
  no overflow, and no division by 0, NaN or infinity (division by 0 in `R` is a junk value, so
  theorems about quotients exclude it).  All other theorems over `R` are about exact arithmetic.
* the value models take every array as float64.  int64 arrays are modelled by a third model of the
  convex coding classes (`M_dtype.v`): it runs the value model next to a dtype per array, and raises
  where numpy refuses an in-place operation or an `out=` array (C70-C73).
* the random generator is an arbitrary stream of draws (all streams are quantified over).
* external solvers (`cvxpy`, `np.linalg.lstsq`, `np.linalg.inv`, sklearn `KMeans`/`SVC`) and the
  `kernel_func` argument are oracles: arbitrary functions, with their assumed contract an explicit
  hypothesis of the theorem that needs it.
* `while` loops run on explicit fuel; running out of fuel is a distinct error value (`OutOfFuel`),
  excluded by a termination theorem with an explicit bound (C07, C58).
* printing and timing are dropped; the printed cost sequence is kept as a log.
* warnings are dropped, except for the convergence warning of the iterative estimators.
* the state an object is left in by a call that raises is not modelled in the value models; the heap
  model keeps it as far as arrays are concerned (attributes assigned before the exception stay).

Modelled, with the source each file covers:

| file | source | left out |
|------|--------|----------|
| `M_simplex.v` | simplex_projection.py, whole | - |
| `M_spg.v` | spg.py, whole; the backtracking loop of every line search | - |
| `M_furthest.v` | furthest_sum.py, whole | - |
| `M_random.v` | _random_matrix.py, _validation.py, whole | the generator (a stream of draws) |
| `M_iter.v` | the outer loop of all iterative estimators | printing, timing |
| `M_gpnh.v` | gpnh_convex_coding.py: initialisation, workspace, costs, gradients, line searches, updates, `fit_transform`, `transform`, `inverse_transform` | `verbose`; the module-level function wrapper is the body of `fit_transform` |
| `M_aa.v` | archetypal_analysis.py: the same, KernelAA and ArchetypalAnalysis | `verbose` |
| `M_mtd.v` | mtd_convex_coding.py: the same, and `predict` | `verbose` |
| `M_crom.v` | gpnh_convex_coding_crom.py: the same, and `predict` | a lag array with entries < 1 (accepted by the constructor; fits with it are not modelled) |
| `M_fembv.v`, `Lp.v` | fembv.py, fembv_kmeans.py: constraints, linear programs, subspace iteration, `fit_transform`, `transform` | inside of cvxpy |
| `M_varx.v` | fembv_varx.py: design matrix, residuals, local fits, `fit`, memory | inside of lstsq / inv |
| `M_markov.v` | crom.py, whole | inside of KMeans |
| `M_pwvarx.v` | pwvarx.py, whole | inside of the clusterer, classifier and lstsq |
| `Heap.v`, `M_heap*.v` | the array statements of gpnh_convex_coding.py, archetypal_analysis.py, mtd_convex_coding.py, gpnh_convex_coding_crom.py; programs that use them | an array is written as a whole; arrays of subexpressions and read-only views are not allocated; consecutive partial writes to one array are one write |
| `M_dtype.v` | the array creations and in-place statements of the four convex coding modules, `fit_transform` (and GPNH `transform`) | integer overflow; dtypes other than int64/float64; `predict` and the other `transform` methods |
| `M_int.v` | int64 data in fembv_kmeans.py, fembv_varx.py and pwvarx.py (`fit_transform`): which stored arrays truncate | integer overflow; conversion of nan; dtypes other than int64/float64; the Markov module; `transform` |

Not modelled: overflow of binary64, rounding outside C79 ff., dtypes other than int64 and float64, dtypes in crom.py, memory order, `verbose` output, warnings other than convergence, the sklearn
`BaseEstimator` machinery (`get_params`, `clone`, pickling), data validation inside sklearn's
`check_array`/`check_random_state` except that `check_array` rejects None and arrays with NaN or infinite entries.

### Assumed contracts of external code

They are hypotheses of the theorems that use them, never axioms; each Props file shows a concrete
oracle that meets them.

* LP solver (C40-C46), `solver_feasible`, `solver_optimal`, `solver_honest` in `Spec_fembv.v`: an
  answer is feasible / optimal; failure is reported only for infeasible or unbounded programs.  Each
  theorem assumes only what it needs.
* `lstsq` / `inv` (C47-C50, C55, C63-C66), `lstsq_shape`, `lstsq_minimises`, `inv_shape` in
  `Spec_varx.v`: shape of the answer; the answer minimises the squared error.
* KMeans (C51-C53), `kmeans_answers` in `Props_markov.v`: as many centres as clusters, one label per
  sample, labels in range.
* The clusterer and the classifier of the piecewise model (C54-C56, C65-C66) are unconstrained.
* `kernel_func` (C57): writes to no existing array and returns an array.

## 3. Trusted base

* Coq's kernel (8.16.1) and the standard library.
* The axioms `Print Assumptions` lists under each theorem; `ASSUMPTIONS.md` has the list for every
  theorem (regenerate with `tools/assumptions.py`).  Theorems for every `Num T` are closed under the
  global context.  Theorems over `R` depend on (a subset of)
  `ClassicalDedekindReals.sig_forall_dec`, `ClassicalDedekindReals.sig_not_dec`
  and `FunctionalExtensionality.functional_extensionality_dep`, all from the
  standard library.  No other axiom occurs.
* The faithfulness of the hand-written model: that each definition does what the cited lines do, up
  to the simplifications above and in its comment.

## 4. Per-property plan

| id | modelled | proof |
|----|----------|-------|
| C01-C04 | simplex_projection.py | threshold characterisation of the sorted scan, KKT argument over R |
| C05-C06 | spg.py | case analysis over R |
| C07-C08 | the shared backtracking loop | geometric decrease of the step; loop invariant, any objective |
| C09-C11 | furthest_sum.py | permutation invariant on selected/queue, for any comparison; sums invariant over R |
| C12-C13 | _random_matrix.py, _validation.py | sums over R; decision rule |
| C14-C26 | gpnh_convex_coding.py | invariants over the iteration loop, exact quadratic expansion, object state machine |
| C27-C32 | archetypal_analysis.py | trace algebra, invariants, simulation delta vs 0 |
| C33-C38 | mtd_convex_coding.py | invariants; derivative of a polynomial in the step |
| C39 | gpnh_convex_coding_crom.py | invariants |
| C40-C46 | fembv.py, fembv_kmeans.py | COO index arithmetic, LP duality-free arguments, weighted mean |
| C47-C50 | fembv_varx.py | slice/reshape index arithmetic, oracle contract |
| C51-C53 | crom.py | counting; induction on horizon; NaN via `Num_E` |
| C54-C56 | pwvarx.py | slice/reshape index arithmetic |
| C57 | heap model of all array statements of the four iterative estimator modules, and of programs using them | frame property of each statement; every write goes to an attribute whose array was made by the running call; simulation with the value models |
| C58 | outer loops and line searches of all iterative estimators | fuel bound of the backtracking loop, lifted through `M_iter` |
| C59-C61 | archetypal_analysis.py transform / inverse_transform / guard | as C27-C32; explicit curvature bound for C60 |
| C62 | spg.py step interpolation | derivative of the interpolating quadratic |
| C65-C66 | pwvarx.py | oracle contract of lstsq, masks as index lists; simulation between two objects |
| C67-C69 | gpnh_convex_coding.py, archetypal_analysis.py, mtd_convex_coding.py, gpnh_convex_coding_crom.py | exact quadratic expansion of the cost in each block plus the variational inequality of the simplex projection: a step vanishes exactly at a minimiser; invariants of the reachable workspaces |
| C70-C73 | gpnh_convex_coding.py, archetypal_analysis.py, mtd_convex_coding.py, gpnh_convex_coding_crom.py | dtype model run next to the value model: the loop either keeps the dtypes of its start (simulation) or raises in its first pass; for every `Num T` |
| C74 | mtd_convex_coding.py, gpnh_convex_coding_crom.py | curvature bounds of the cost along each block; for the joint parameter block also the bilinear term, bounded with the simplex constraints; growth bound of the dictionary over a run; line-search descent lemma |
| C75 | _validation.py, gpnh_convex_coding.py, archetypal_analysis.py, mtd_convex_coding.py | case analysis of the checks against their specification (Spec_init.v); exceptions of the iterations |
| C76 | fembv_kmeans.py, fembv.py | truncation lemmas for toward_zero; the generic FEM-BV run lemmas applied to the integer class of M_int.v; witness run with six samples for the guard |
| C77 | fembv_varx.py, fembv.py | invariant of the integer local models over the generic FEM-BV run; zero weights and zero residuals give a zero covariance, which the inverse rejects; the least-squares intercept of 0/1 data is within 1 of both values; reported arrays read off the last update |
| C78 | pwvarx.py | loop simulation between the integer and the floating-point component loops (writing rows commutes with truncation); covariance invariant over the disjoint label masks; C55 for the errors |
| C63-C64 | fembv_varx.py | equality of the unweighted local models; simulation between two objects over whole runs |
| C79 | simplex_projection.py in rounded arithmetic | `round_b64` satisfies the rounding contract; summation error bound by induction, sorting is exact, the threshold differs by the accumulated error, `fmax` is non-expansive; exact optimum from C01; witness for the inexact sum |
| C80 | _random_matrix.py and the weight validation in rounded arithmetic | a rounded nonnegative sum is at least each summand, so quotients stay in [0, 1]; summation error bound; `isclose` with rounded tolerance |
| C81 | the four projected-gradient classes in rounded arithmetic | each reduction multiplies the step by at most max(1/2, sigma_two)(1+u) up to eta, whatever the interpolation returns, so the step falls below the tolerance after a number of reductions given by the parameters; exceptions by inversion of the generic model |
| C82 | the same, plus the predicted weights | G + rnd(s * rnd(P - G)) with P >= 0, s <= 1: rnd(P - G) >= -G by monotonicity, because -G is representable; invariant of every update |
| C83 | simplex_projection.py in rounded arithmetic | the first pass of the loop computes M - 1 = M and stops; binary64 by the spacing of numbers above 2^54 |
| C84 | the convex coding and archetypal analysis classes over `Num_E` | NaN absorbs in sums and products; numpy sorts NaN last, so every candidate threshold is NaN and every comparison false; the line search accepts the full step at once; invariant of the whole run (weights real until the first projection, zero afterwards) |
| C85 | `varx_fit`, `varx_covariance` over R | the entries of the product of the scaled residuals are scatter sums; the quadratic form is a weighted sum of squares over the divisor; with unit weights the two least-squares calls have equal arguments |
| C86 | `M_crom_lags.v`: the parameter fit with Python's slice bounds and the in-place broadcasting rule, lags of any sign | number of rows of each slice decides success; equality with M_crom.v for positive lags; entries of the result for negative lags; the invariants of the run do not depend on the signs |
| C87 | `M_mtd.v`, `M_crom.v` over `NumExt.v` (infinities and NaN); over R the quotient 1/0 would be an ordinary number, so this case is stated over `ext` only | infinity times an empty sum is NaN; NaN gradients project to zero; NaN costs pass the line search and never meet the tolerance |
| C88 | `M_mtd.v`, `M_gpnh.v`, `M_crom.v` over R; the normalization is a negative real, no division by zero | step-by-step simulation of the two runs (`P_short.v`): the weights penalty and its gradients vanish, the parameter update returns its argument and a cost-preserving update does not change the iteration |
| C89 | `M_int.v` (`int_varx_distance`) over R | invariant of a run (`P_int_dist.v`): every local model has integer residuals and an inverse covariance of the right size; rounding an integer changes nothing |
| C90 | `M_furthest.v`, any numbers | counting candidates against slots (`P_exclude.v`): they agree exactly for lists without repetitions and within range |
| C91 | `M_furthest.v` over R | simulation (`P_fs_affine.v`): every queue entry of the second run is a * v + b * (number of points summed), so sorting and popping agree; for a negative start index no value is compared |
| C92 | `M_aa.v`, `M_gpnh.v` over R | the dissimilarities of the two runs are proportional, so C91 applies (`P_fs_data.v`); the generator is read in the same way |
| C93 | `M_aa.v`, any numbers | inversion of a successful transform; the loop with only the weights update keeps C |
