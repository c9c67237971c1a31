{"id": "C01", "title": "Simplex projection returns a probability vector", "statement": "For every non-empty real vector x, simplex_project_vector(x) has the same length as x, all entries >= 0, and entries summing to exactly 1 (exact arithmetic).", "quantifier": "all non-empty real vectors of any length", "why_tests_cant": "Tests sample a handful of lengths and random draws; the threshold search has a different exit for every ordering of the entries.", "anchors": ["src/reor/simplex_projection.py:simplex_project_vector"]}
{"id": "C02", "title": "Simplex projection is the nearest point", "statement": "For every non-empty x and every probability vector y of the same length, the Euclidean distance from x to simplex_project_vector(x) is at most the distance from x to y, with equality only if y is the returned vector.", "quantifier": "all non-empty x and all competitors y", "why_tests_cant": "Optimality quantifies over a continuum of competitors.", "anchors": ["src/reor/simplex_projection.py:simplex_project_vector"]}
{"id": "C03", "title": "Simplex projection: fixed points, idempotence, shift and permutation behaviour, non-expansiveness", "statement": "simplex_project_vector leaves probability vectors unchanged, is idempotent, is invariant under adding a constant to all entries, commutes with every permutation of the entries, and never increases the Euclidean distance between two inputs.", "quantifier": "all vectors, all shifts, all permutations, all pairs", "why_tests_cant": "Algebraic laws over all inputs.", "anchors": ["src/reor/simplex_projection.py:simplex_project_vector"]}
{"id": "C04", "title": "Row and column projection act on each row/column independently", "statement": "simplex_project_rows(A) replaces every row by its projection and simplex_project_columns(A) every column, keeping the shape; the column version is the row version of the transpose.", "quantifier": "all matrices of all shapes", "why_tests_cant": "Aliased in-place writes while iterating; every shape and index must be covered.", "anchors": ["src/reor/simplex_projection.py:simplex_project_rows", "src/reor/simplex_projection.py:simplex_project_columns"]}
{"id": "C05", "title": "Spectral step parameter stays inside its safeguards", "statement": "get_next_spg_alpha(beta, sksk, alpha_min, alpha_max) lies in [alpha_min, alpha_max] whenever alpha_min <= alpha_max; it is alpha_max when beta <= 0, and equals sksk/beta when that ratio is within the bounds.", "quantifier": "all real arguments", "why_tests_cant": "Range claim over all reals, including the division branch.", "anchors": ["src/reor/spg.py:get_next_spg_alpha"]}
{"id": "C06", "title": "Backtracking strictly shrinks a positive step", "statement": "For 0 < sigma_one and sigma_two < 1, get_next_spg_step_length maps every positive step to a positive step not larger than max(1/2, sigma_two) times it, whatever the costs and slope are.", "quantifier": "all steps, slopes and cost values", "why_tests_cant": "Continuum of inputs including zero denominators.", "anchors": ["src/reor/spg.py:get_next_spg_step_length"]}
{"id": "C07", "title": "Every line search terminates", "statement": "For every objective function, starting point and direction, each backtracking line search of the library stops after at most a number of trials that depends only on sigma_two and step_size_tolerance (> 0), and the accepted step is in (0, 1].", "quantifier": "all objectives (even non-convex), all states", "why_tests_cant": "Termination for every objective cannot be observed by finitely many runs.", "anchors": ["src/reor/gpnh_convex_coding.py:_dictionary_line_search", "src/reor/gpnh_convex_coding.py:_weights_line_search", "src/reor/archetypal_analysis.py:_weights_line_search", "src/reor/mtd_convex_coding.py:_parameters_line_search", "src/reor/spg.py"]}
{"id": "C08", "title": "Line search exit condition", "statement": "When a line search stops, either the non-monotone Armijo condition (cost <= max of the last line_search_memory costs + gamma*step*slope) holds for the accepted iterate, or the step fell below step_size_tolerance.", "quantifier": "all objectives, memories, steps", "why_tests_cant": "Post-condition of an unbounded loop.", "anchors": ["src/reor/gpnh_convex_coding.py:_weights_line_search"]}
{"id": "C09", "title": "FurthestSum returns distinct, allowed indices", "statement": "Whenever furthest_sum returns, the result has exactly n_components entries, pairwise distinct, all valid sample indices and none of them excluded - for any dissimilarity values (even NaN) and any number of extra steps.", "quantifier": "all matrices, n_components, start indices, exclusion lists, extra_steps", "why_tests_cant": "Loop invariant over arbitrarily many replacement steps and arbitrary comparison outcomes.", "anchors": ["src/reor/furthest_sum.py:furthest_sum", "src/reor/furthest_sum.py:_furthest_sum_impl"]}
{"id": "C10", "title": "FurthestSum argument checking", "statement": "furthest_sum raises for a non-square matrix, for an out-of-range or excluded start index and for too few available points; with a square matrix, 0 <= start_index < n_samples not excluded, duplicate-free in-range exclusions and n_components <= n_samples - n_excluded it never raises.", "quantifier": "all argument combinations", "why_tests_cant": "Needs every combination of arguments, and absence of IndexError in every run.", "anchors": ["src/reor/furthest_sum.py:_furthest_sum_impl"]}
{"id": "C11", "title": "FurthestSum is greedy", "statement": "For a symmetric dissimilarity matrix, the candidate queue always holds, for each candidate, its true summed dissimilarity to the currently selected points, so each newly selected point maximises the sum of dissimilarities to the other selected points among all candidates; this holds for the greedy phase and every extra replacement step.", "quantifier": "all symmetric matrices and all runs", "why_tests_cant": "Incrementally maintained sums: correctness is an invariant over the whole history of additions and subtractions.", "anchors": ["src/reor/furthest_sum.py:_update_distance_sums", "src/reor/furthest_sum.py:_get_furthest_index"]}
{"id": "C12", "title": "Random stochastic matrices", "statement": "right_stochastic_matrix returns non-negative matrices of the requested shape with every row summing to 1, left_stochastic_matrix with every column summing to 1, for every stream of uniform draws that is not identically zero on a row/column.", "quantifier": "all shapes and all random streams", "why_tests_cant": "Seeds sample only a few streams.", "anchors": ["src/reor/_random_matrix.py"]}
{"id": "C13", "title": "Validation of custom initial matrices", "statement": "A user-supplied matrix is accepted exactly when its shape matches and every checked axis sum is within 1e-8 + 1e-5 of 1; otherwise ValueError is raised. Non-negativity is NOT checked: matrices with negative entries are accepted.", "quantifier": "all matrices and shapes", "why_tests_cant": "Accept/reject boundary over all reals.", "anchors": ["src/reor/_validation.py", "src/reor/gpnh_convex_coding.py:_check_init_weights"]}
{"id": "C14", "title": "GPNH convex coding returns stochastic weights", "statement": "Whenever GPNHConvexCoding.fit_transform (or transform) returns, every row of the weights is a probability vector, for any data, any epsilon_states, any random stream, any number of iterations, any line-search memory (feasible start).", "quantifier": "all data, configurations, streams, iteration counts", "why_tests_cant": "Invariant over all iterations and all line-search outcomes.", "anchors": ["src/reor/gpnh_convex_coding.py:fit_transform", "src/reor/gpnh_convex_coding.py:_update_weights", "src/reor/gpnh_convex_coding.py:transform"]}
{"id": "C15", "title": "GPNH reported cost is the true cost of the returned factorization", "statement": "cost_ equals ||X - W D||_F^2/(n_features n_samples) + epsilon_states * Phi(D), where W is the returned weights, D is dictionary_, although the implementation evaluates it from incrementally cached products.", "quantifier": "all fits", "why_tests_cant": "Cache coherence must hold at every point of every history.", "anchors": ["src/reor/gpnh_convex_coding.py:_evaluate_cost", "src/reor/gpnh_convex_coding.py:_iterate"]}
{"id": "C16", "title": "GPNH cost decreases monotonically", "statement": "With require_monotonic_cost_decrease (default), a fit that returns reports a non-increasing cost sequence, and cost_ is at most the cost of the initial guess; otherwise RuntimeError is raised.", "quantifier": "all fits, all iteration counts", "why_tests_cant": "Universal over histories.", "anchors": ["src/reor/gpnh_convex_coding.py:_iterate"]}
{"id": "C17", "title": "GPNH dictionary penalty is the mean squared distance between states", "statement": "The dictionary penalty equals epsilon_states/(k d (k-1)) times the sum over ordered pairs of squared distances between dictionary rows (0 for k = 1); hence it is non-negative, zero iff all rows coincide (epsilon > 0), and the total cost is non-negative.", "quantifier": "all dictionaries", "why_tests_cant": "Algebraic identity over all real matrices.", "anchors": ["src/reor/gpnh_convex_coding.py:_evaluate_dictionary_penalty"]}
{"id": "C18", "title": "GPNH gradients are exact", "statement": "The dictionary and weights gradients used by the solver are the exact gradients of the cost: cost(D+H) = cost(D) + <grad,H> + Q(H) with Q a non-negative quadratic form, for all H, and likewise for the weights.", "quantifier": "all states and all perturbations", "why_tests_cant": "Finite differences test a few points approximately.", "anchors": ["src/reor/gpnh_convex_coding.py:_update_dictionary_gradient", "src/reor/gpnh_convex_coding.py:_update_weights_gradient"]}
{"id": "C19", "title": "GPNH search directions are descent directions", "statement": "From feasible weights, the projected-gradient direction has non-positive slope: <grad, P(W - a grad) - W> <= -||P(W - a grad) - W||^2 / a, so the slope is zero only when the direction is zero (stationary point).", "quantifier": "all feasible states and a > 0", "why_tests_cant": "Variational inequality of the projection.", "anchors": ["src/reor/gpnh_convex_coding.py:_update_weights", "src/reor/simplex_projection.py:simplex_project_rows"]}
{"id": "C20", "title": "GPNH update steps never increase the cost", "statement": "With line_search_memory 1 and step_size_tolerance below an explicit bound (depending on alpha_max, gamma and the norms of the factors), a weights update and a dictionary update never increase the cost, so the RuntimeError guard cannot fire.", "quantifier": "all feasible states", "why_tests_cant": "Needs the convergence analysis of backtracking on every instance.", "anchors": ["src/reor/gpnh_convex_coding.py:_update_weights", "src/reor/gpnh_convex_coding.py:_update_dictionary", "src/reor/gpnh_convex_coding.py:_weights_line_search"]}
{"id": "C21", "title": "Iteration count and convergence reporting", "statement": "n_iter_ is the zero-based index of the last iteration performed (0 <= n_iter_ <= max_iterations - 1), so it is one less than the number of iterations; the 'Maximum number of iterations reached' warning can therefore never be issued, for any input, even if the run did not converge (defect).", "quantifier": "all fits of all iterative models", "why_tests_cant": "A never-firing branch can only be excluded by proof.", "anchors": ["src/reor/gpnh_convex_coding.py:_iterate", "src/reor/gpnh_convex_coding.py:_gpnh_convex_coding", "src/reor/fembv.py:_fembv_fit", "src/reor/archetypal_analysis.py:_kernel_aa", "src/reor/mtd_convex_coding.py:_mtd_convex_coding"]}
{"id": "C22", "title": "Stopping rule", "statement": "A fit stops before max_iterations only when the absolute change of cost over the last iteration is below tolerance, and never continues past such an iteration.", "quantifier": "all fits", "why_tests_cant": "Loop exit condition over all histories.", "anchors": ["src/reor/gpnh_convex_coding.py:_iterate"]}
{"id": "C23", "title": "Transform keeps the fitted dictionary", "statement": "GPNHConvexCoding.transform leaves the dictionary, cost_ and n_iter_ of the fit unchanged and returns stochastic weights; inverse_transform of stochastic weights lies in the convex hull of the dictionary rows.", "quantifier": "all fitted models and data", "why_tests_cant": "State preservation over all call histories.", "anchors": ["src/reor/gpnh_convex_coding.py:transform", "src/reor/gpnh_convex_coding.py:inverse_transform"]}
{"id": "C24", "title": "Transform after a custom-initialised fit always fails", "statement": "If a GPNHConvexCoding, (Kernel)ArchetypalAnalysis, MTDConvexCoding or GPNHConvexCodingCROM model was constructed with init='custom', transform (and predict) raises for every data matrix, because the missing weights are validated (defect).", "quantifier": "all models of these classes with init='custom', all data", "why_tests_cant": "Universally quantified failure.", "anchors": ["src/reor/gpnh_convex_coding.py:_gpnh_convex_coding", "src/reor/mtd_convex_coding.py:_mtd_convex_coding", "src/reor/archetypal_analysis.py:_kernel_aa"]}
{"id": "C25", "title": "Fits do not depend on previous calls", "statement": "The result of fit_transform depends only on the constructor arguments, the arguments of the call and the random stream: no sequence of earlier fit/transform calls changes it (n_components given as an integer).", "quantifier": "all call histories", "why_tests_cant": "Histories are unbounded.", "anchors": ["src/reor/gpnh_convex_coding.py:_initialize_workspace", "src/reor/gpnh_convex_coding.py:fit_transform"]}
{"id": "C26", "title": "Parameter validation", "statement": "fit raises ValueError unless n_components is None or a positive integer, max_iterations is a positive integer and tolerance is a non-negative number; n_components=None means the number of features (samples for kernel AA), and the first resolution sticks for later fits.", "quantifier": "all parameter values", "why_tests_cant": "All values of all parameters.", "anchors": ["src/reor/gpnh_convex_coding.py:_gpnh_convex_coding"]}
{"id": "C27", "title": "Archetypal analysis cost is the reconstruction error", "statement": "For K = X X^T the kernel cost tr(S^T S C K C^T) - 2 tr(S C K) + tr K equals ||X - S C X||_F^2 (hence is non-negative), for all S and C; ArchetypalAnalysis.fit_transform(X) is KernelAA.fit_transform(X X^T).", "quantifier": "all matrices", "why_tests_cant": "Algebraic identity.", "anchors": ["src/reor/archetypal_analysis.py:_evaluate_cost", "src/reor/archetypal_analysis.py:ArchetypalAnalysis.fit_transform"]}
{"id": "C28", "title": "Archetypal analysis returns stochastic weights and dictionary", "statement": "Whenever KernelAA/ArchetypalAnalysis fit_transform returns, every row of the weights and of dictionary_ is a probability vector, whatever the kernel, delta, seed, init method and number of iterations.", "quantifier": "all kernels, configurations, streams, iteration counts", "why_tests_cant": "Invariant over all iterations.", "anchors": ["src/reor/archetypal_analysis.py:_update_dictionary", "src/reor/archetypal_analysis.py:_update_weights"]}
{"id": "C29", "title": "Archetypal analysis gradients are exact", "statement": "For symmetric kernels the weights and dictionary gradients (including scale factors) are the exact gradients of the cost, with explicit quadratic remainder; the remainder is non-negative for positive semi-definite kernels.", "quantifier": "all symmetric kernels, states, perturbations", "why_tests_cant": "Finite differences test a few points.", "anchors": ["src/reor/archetypal_analysis.py:_update_weights_gradient", "src/reor/archetypal_analysis.py:_update_dictionary_gradient"]}
{"id": "C30", "title": "The relaxation parameter delta has no effect", "statement": "The fitted scale factors stay exactly 1 for every delta: for every input, fit_transform with any delta > 0 returns the same weights, dictionary, cost and iteration count as delta = 0 (defect: the scale factor line search discards its result).", "quantifier": "all kernels, deltas, streams", "why_tests_cant": "Equality of two runs for all inputs.", "anchors": ["src/reor/archetypal_analysis.py:_scale_factors_line_search", "src/reor/archetypal_analysis.py:_update_dictionary"]}
{"id": "C31", "title": "Archetypal analysis cost bookkeeping", "statement": "The cost used inside the line searches (from cached CK, CKCt, StS) always equals the cost function at the current factors, the reported cost sequence is non-increasing (default settings), and cost_ is the cost of the returned factors.", "quantifier": "all fits", "why_tests_cant": "Cache coherence over histories.", "anchors": ["src/reor/archetypal_analysis.py:_weights_line_search", "src/reor/archetypal_analysis.py:_dictionary_line_search", "src/reor/archetypal_analysis.py:_iterate"]}
{"id": "C32", "title": "FurthestSum initialisation of archetypes", "statement": "The furthest_sum initial dictionary consists of distinct unit coordinate rows at non-excluded samples, and the dissimilarities it uses are the Euclidean distances of the data (K = X X^T).", "quantifier": "all data", "why_tests_cant": "Index and algebra claims over all data.", "anchors": ["src/reor/archetypal_analysis.py:_initialize_kernel_aa_dictionary_furthest_sum", "src/reor/gpnh_convex_coding.py:_initialize_gpnh_convex_coding_dictionary_furthest_sum"]}
{"id": "C33", "title": "MTD convex coding keeps all stochastic constraints", "statement": "Whenever MTDConvexCoding.fit_transform returns, rows of the weights, the order weights, and every column of every transition matrix are probability vectors.", "quantifier": "all data, lags, configurations, streams, iteration counts", "why_tests_cant": "Invariant over all iterations of three coupled line searches.", "anchors": ["src/reor/mtd_convex_coding.py:_update_weights", "src/reor/mtd_convex_coding.py:_update_parameters"]}
{"id": "C34", "title": "MTD predicted weights", "statement": "The one-step prediction used in the weights penalty at time t >= max_lag is sum_i w_i T_i gamma_{t-lag_i} and equals gamma_t for t < max_lag; with stochastic parameters every predicted row is a probability vector.", "quantifier": "all lags, weights, parameters", "why_tests_cant": "Slice arithmetic with negative bounds over all lag sets.", "anchors": ["src/reor/mtd_convex_coding.py:_update_predicted_weights"]}
{"id": "C35", "title": "MTD gradients are exact", "statement": "The gradients with respect to weights, dictionary, order weights and transition matrices are the exact partial derivatives of the MTD cost (k >= 2).", "quantifier": "all states and directions", "why_tests_cant": "Finite differences test a few points.", "anchors": ["src/reor/mtd_convex_coding.py:_weights_penalty_gradient", "src/reor/mtd_convex_coding.py:_update_parameters_gradient"]}
{"id": "C36", "title": "MTD cost bookkeeping and monotonicity", "statement": "The cost evaluated from cached predictions and products always equals the cost function at the current parameters; the reported sequence is non-increasing by default and cost_ is the cost of the returned parameters.", "quantifier": "all fits", "why_tests_cant": "Cache coherence over histories.", "anchors": ["src/reor/mtd_convex_coding.py:_evaluate_cost", "src/reor/mtd_convex_coding.py:_iterate"]}
{"id": "C37", "title": "MTD / CROM multi-step prediction", "statement": "predict(data, horizon=h) has NaN in the first max_lag - 1 rows and in row i >= max_lag - 1 the h-fold iteration of the MTD recursion started from the transformed weights at i - max_lag + 1..i, mapped through the dictionary; every such forecast lies in the convex hull of the dictionary rows; h = 0 returns the reconstruction.", "quantifier": "all data, lags, horizons", "why_tests_cant": "Induction over the horizon.", "anchors": ["src/reor/mtd_convex_coding.py:predict", "src/reor/gpnh_convex_coding_crom.py:predict"]}
{"id": "C38", "title": "MTD lag validation", "statement": "MTDConvexCoding(lags=...) raises ValueError iff some lag is not a positive integer; lags=None means [1]. GPNHConvexCodingCROM accepts only arrays (a list raises) and performs no validation.", "quantifier": "all lag lists", "why_tests_cant": "All inputs.", "anchors": ["src/reor/mtd_convex_coding.py:__init__", "src/reor/gpnh_convex_coding_crom.py:__init__"]}
{"id": "C39", "title": "GPNH CROM fits a stochastic Markov model", "statement": "After GPNHConvexCodingCROM.fit_transform returns, the order weights and all transition matrix columns are probability vectors, the weights and dictionary are those of the GPNH fit, and the residual sequence of the parameter fit is non-increasing (default).", "quantifier": "all data, lags, streams", "why_tests_cant": "Invariant over iterations.", "anchors": ["src/reor/gpnh_convex_coding_crom.py:_fit_parameters", "src/reor/gpnh_convex_coding_crom.py:_update_parameters"]}
{"id": "C40", "title": "FEM-BV constraint matrices encode exactly the documented constraints", "statement": "A vector satisfies A_eq v = b_eq and A_ub v <= b_ub iff its first block is a non-negative matrix Gamma with unit row sums and, when max_tv_norm is a non-negative number, there are slacks eta >= |gamma_{t+1,i} - gamma_{t,i}| with sum_t eta_{t,i} <= max_tv_norm for every i; so the projection on Gamma is exactly {row-stochastic, total variation of each component <= max_tv_norm}. None or a negative bound means no TV constraint.", "quantifier": "all n_samples, n_components > 1, all bounds, all vectors", "why_tests_cant": "Index arithmetic for all sizes; tests check two small sizes.", "anchors": ["src/reor/fembv.py:_initialize_constraints"]}
{"id": "C41", "title": "FEM-BV weights satisfy the bounded-variation constraint", "statement": "After every weights update with an LP solution, Gamma is row-stochastic and each component's total variation is at most max_tv_norm; clipping does not change an exact solution and never increases the total variation of an inexact one.", "quantifier": "all solver answers satisfying the constraints, all sizes", "why_tests_cant": "All solver outputs.", "anchors": ["src/reor/fembv.py:_update_weights"]}
{"id": "C42", "title": "FEM-BV weights update cannot increase the cost", "statement": "If the solver returns an optimal solution and the current weights are feasible, the weights update does not increase the cost; the LP is always feasible and bounded below; without TV constraint the optimum puts weight only on components of minimal distance.", "quantifier": "all distance matrices", "why_tests_cant": "Optimality against all competitors.", "anchors": ["src/reor/fembv.py:_update_weights"]}
{"id": "C43", "title": "FEM-BV k-means parameter update is optimal", "statement": "With positive component mass, the centroid update minimises the weighted cost over all centroids, so it never increases the cost; a component with zero mass yields NaN centroids.", "quantifier": "all data, weights, competing centroids", "why_tests_cant": "Optimality over a continuum.", "anchors": ["src/reor/fembv_kmeans.py:_update_parameters"]}
{"id": "C44", "title": "FEM-BV iteration: monotone guard and convergence", "statement": "With require_monotonic_cost_decrease a returned fit has cost increases of at most tolerance per update after the first iteration; n_iter_ < max_iterations; the fit stops early iff the cost change is below tolerance.", "quantifier": "all fits", "why_tests_cant": "Universal over histories.", "anchors": ["src/reor/fembv.py:_iterate"]}
{"id": "C45", "title": "FEM-BV k-means fit decreases the cost", "statement": "With an exact LP solver and no emptied component, from the second iteration on the cost sequence of FEMBVKMeans.fit is non-increasing, so the RuntimeError guard never fires.", "quantifier": "all data, all iteration counts", "why_tests_cant": "Whole-run property.", "anchors": ["src/reor/fembv_kmeans.py", "src/reor/fembv.py:_iterate"]}
{"id": "C46", "title": "FEM-BV transform discards the fitted parameters", "statement": "FEMBVKMeans.transform(data) re-draws the centroids from the rows of the new data: its result does not depend on the fitted centroids and it overwrites them (defect); init passed to the constructor is ignored and custom weights are used only if init='custom' is passed to fit.", "quantifier": "all fitted models and data", "why_tests_cant": "Independence claim over all fitted states.", "anchors": ["src/reor/fembv.py:transform", "src/reor/fembv.py:_initialize_weights", "src/reor/fembv.py:fit_transform"]}
{"id": "C47", "title": "VARX design matrix", "statement": "Row t of the regression matrix is (1, y_{t-1}, ..., y_{t-p}, u_{t-1}, ..., u_{t-s}, u_t) relative to sample t + max(p, s), for all p, s and sizes.", "quantifier": "all orders and sizes", "why_tests_cant": "Slice arithmetic for all p, s, n.", "anchors": ["src/reor/fembv_varx.py:FEMBVVARXLocalLinearModel.__init__"]}
{"id": "C48", "title": "VARX residuals are the errors of the reported model", "statement": "After fit, residual_t = y_t - (mu + sum_tau A_tau y_{t-tau} + sum_tau B_tau u_{t-tau} + B_0 u_t) with the reported (reshaped, transposed) mu, A, B, B0, for any regression coefficients.", "quantifier": "all data, orders, coefficient matrices", "why_tests_cant": "Reshape/transpose index bookkeeping for all shapes.", "anchors": ["src/reor/fembv_varx.py:FEMBVVARXLocalLinearModel.fit"]}
{"id": "C49", "title": "VARX fit minimises the weighted residuals", "statement": "With a least-squares routine returning a minimiser, fit(weights) minimises sum_t w_t ||residual_t||^2 over all models; hence a FEM-BV-VARX parameter update never increases the FEM-BV cost (equal memories).", "quantifier": "all data, weights, competitors", "why_tests_cant": "Optimality over a continuum.", "anchors": ["src/reor/fembv_varx.py:FEMBVVARXLocalLinearModel.fit", "src/reor/fembv_varx.py:FEMBVVARX._update_parameters"]}
{"id": "C50", "title": "FEM-BV-VARX with unequal memories does not work", "statement": "If some component memory differs from the maximum, fit never evaluates that component's distances correctly: it raises, or broadcasts one residual to all times when exactly one residual row remains; with external factors it always raises (defect).", "quantifier": "all data, all memory vectors", "why_tests_cant": "All shapes.", "anchors": ["src/reor/fembv_varx.py:FEMBVVARX._evaluate_distance_matrix", "src/reor/fembv_varx.py:FEMBVVARX._initialize_components"]}
{"id": "C51", "title": "k-means Markov transition matrix", "statement": "transition_matrix[j,k] times the number of visits to k before the last sample equals the number of observed k -> j transitions; columns of clusters visited before the last sample are probability vectors; a column is NaN exactly when its cluster is not visited before the last sample.", "quantifier": "all label sequences and cluster counts", "why_tests_cant": "All label sequences.", "anchors": ["src/reor/crom.py:kmeans_markov_crom"]}
{"id": "C52", "title": "k-means Markov prediction", "statement": "predict(X, horizon=h) is row i = T^h e_{label_i}; it is a probability vector if all clusters are visited before the last sample; h = 0 gives one-hot rows; predictions compose (h1 + h2 steps); one unvisited cluster makes every prediction with h >= 1 NaN.", "quantifier": "all labels, horizons", "why_tests_cant": "Induction over horizon; NaN propagation.", "anchors": ["src/reor/crom.py:KMeansMarkovCROM.predict"]}
{"id": "C53", "title": "k-means CROM refits through fit_predict leave a stale transition matrix", "statement": "fit_predict and fit_transform refit the clustering but leave transition_matrix_, cluster_centers_ and labels_ of the previous fit, and fail before the first fit (defect).", "quantifier": "all call histories", "why_tests_cant": "Histories.", "anchors": ["src/reor/crom.py:KMeansMarkovCROM.fit_predict", "src/reor/crom.py:KMeansMarkovCROM.fit_transform"]}
{"id": "C54", "title": "Piecewise VARX predictors", "statement": "Row t of the stacked predictors is (y_{t-1}, ..., y_{t-p}, u_{t-1}, ..., u_{t-s}) relative to sample t + max(p, s).", "quantifier": "all orders and sizes", "why_tests_cant": "Slice arithmetic.", "anchors": ["src/reor/pwvarx.py:_stack_predictors"]}
{"id": "C55", "title": "Piecewise VARX residuals are the errors of the reported local model", "statement": "For every sample with label k in range, the stored residual equals y_t minus the prediction of component k's reported mu, A, B; samples with other labels keep residual 0.", "quantifier": "all labels, data, coefficients", "why_tests_cant": "Masked in-place updates for all labelings.", "anchors": ["src/reor/pwvarx.py:_fit_var_model"]}
{"id": "C56", "title": "Single-column 2-D endog is rejected", "statement": "ClusterPWVARX.fit_transform raises for every endog of shape (n, 1), although 1-D endog works (defect).", "quantifier": "all data", "why_tests_cant": "Universal failure.", "anchors": ["src/reor/pwvarx.py:fit_transform", "src/reor/pwvarx.py:_cluster"]}
{"id": "C57", "title": "Inputs are never modified", "statement": "fit_transform/transform of the convex coding and archetypal models never write to the caller's arrays, and later calls never change arrays returned earlier.", "quantifier": "all call histories, iteration and backtracking counts", "why_tests_cant": "Aliasing across unbounded histories.", "anchors": ["src/reor/gpnh_convex_coding.py:_gpnh_convex_coding", "src/reor/mtd_convex_coding.py:_mtd_convex_coding", "src/reor/archetypal_analysis.py:_kernel_aa"]}
{"id": "C58", "title": "Every fit ends", "statement": "For valid line-search parameters every fit and transform of the iterative estimators ends: it returns or raises an ordinary exception (ValueError, IndexError, TypeError, or RuntimeError only if require_monotonic_cost_decrease is set), for every data matrix and every initial guess; no input makes a backtracking loop run forever.", "quantifier": "all inputs and configurations", "why_tests_cant": "Termination over all inputs.", "anchors": ["src/reor/gpnh_convex_coding.py:_gpnh_convex_coding", "src/reor/archetypal_analysis.py:_kernel_aa", "src/reor/mtd_convex_coding.py:_mtd_convex_coding"]}
{"id": "C59", "title": "Archetypal transform re-uses coefficients, not archetypes", "statement": "ArchetypalAnalysis.transform(X_new) (and KernelAA.transform) encodes X_new against C X_new, archetypes rebuilt from the new samples with the stored coefficients, not against the fitted archetypes C X: its cost is ||X_new - W C X_new||^2, it depends on the fit only through the coefficients C, and it raises ValueError for every X_new whose number of samples differs from that of the training data (defect).", "quantifier": "all fitted models, all new data", "why_tests_cant": "The existing tests only transform the training data, where the two notions coincide.", "anchors": ["src/reor/archetypal_analysis.py:KernelAA.transform", "src/reor/archetypal_analysis.py:ArchetypalAnalysis.transform"]}
{"id": "C60", "title": "Archetypal analysis monotonicity guard", "statement": "For symmetric kernels with entries bounded by B, line-search memory 1 and a step tolerance with tol*2*max(1,alpha_max)*B*n*(n+k) <= 1-gamma, every fit and transform from stochastic starting factors completes without the 'cost increased' RuntimeError, and RuntimeError is never raised when the guard is off.", "quantifier": "all symmetric kernels, starting factors, streams and iteration counts", "why_tests_cant": "Absence of an exception over all runs.", "anchors": ["src/reor/archetypal_analysis.py:_iterate", "src/reor/archetypal_analysis.py:_weights_line_search"]}
{"id": "C61", "title": "Archetypal reconstructions are convex combinations of samples", "statement": "inverse_transform(W) of a fitted model is a row-stochastic matrix of sample coefficients for every row-stochastic W, so every reconstructed point lies in the convex hull of the samples; a wrong number of columns raises ValueError.", "quantifier": "all fitted models, all stochastic weights, all data", "why_tests_cant": "Quantifies over all weights and data.", "anchors": ["src/reor/archetypal_analysis.py:KernelAA.inverse_transform"]}
{"id": "C62", "title": "The interpolated step minimises the quadratic model", "statement": "When a trial step is rejected, get_next_spg_step_length returns the minimiser of the quadratic that matches the old cost, the slope and the new cost whenever that minimiser lies in [sigma_one, sigma_two * step], and half the step otherwise.", "quantifier": "all positive steps, all strictly convex interpolants and all safeguards", "why_tests_cant": "Continuum of inputs; a test fixes a few costs, and a wrong sign still gives some shrinking step because of the halving fallback.", "anchors": ["src/reor/spg.py:get_next_spg_step_length"]}
{"id": "C63", "title": "FEM-BV-VARX without parameter updates ignores the fitted models", "statement": "transform, and fit with update_parameters=False, refit one unweighted model per component: with equal memories all columns of the distance matrix coincide, every admissible affiliation has the same cost, and the reported mu, A and B0 are all zeros, whatever was fitted before (defect).", "quantifier": "all data, all earlier fits, all arithmetics, all oracles", "why_tests_cant": "Quantifies over all earlier states and data.", "anchors": ["src/reor/fembv_varx.py:FEMBVVARX._initialize_components", "src/reor/fembv.py:transform"]}
{"id": "C64", "title": "What an earlier FEMBVVARX fit leaves behind", "statement": "Two FEMBVVARX objects with the same constructor arguments and random stream give the same weights, costs, iterations, exceptions, local models and mu whatever was fitted before; A may be stale only when all memories are 0 and B0 only when no external factors are given (defect: a stale B0 is then reported).", "quantifier": "all call histories, all data, all oracles, all arithmetics", "why_tests_cant": "Histories are unbounded.", "anchors": ["src/reor/fembv_varx.py:FEMBVVARX._initialize_components", "src/reor/fembv_varx.py:FEMBVVARX._update_parameters"]}
{"id": "C65", "title": "Piecewise VARX local models are least-squares optimal", "statement": "After a successful fit with a minimising least-squares routine, no other mu, A, B (mu = 0 without trend) has a smaller sum of squared forecast errors over the samples labelled k than the reported mu[k], A[k], B[k].", "quantifier": "all data, labels, orders, competitors", "why_tests_cant": "Quantifies over all competing coefficients and all labelings.", "anchors": ["src/reor/pwvarx.py:_fit_var_model"]}
{"id": "C66", "title": "Piecewise VARX transform and repeated fits", "statement": "transform of the fitted data returns the labels of fit_transform; before the first fit it raises AttributeError unless a classifier was given; a fit does not depend on coefficients of earlier fits and replaces all of them, except that B is replaced only by a fit with lagged external factors (defect: a stale B stays in place).", "quantifier": "all call histories, data, clusterers, classifiers, arithmetics", "why_tests_cant": "Histories are unbounded.", "anchors": ["src/reor/pwvarx.py:transform", "src/reor/pwvarx.py:fit_transform", "src/reor/pwvarx.py:_fit_var_model"]}
{"id": "C67", "title": "GPNH updates stop exactly at optimal factors", "statement": "In every state a GPNH run goes through, the weights update leaves the weights as they are if and only if no row-stochastic weights have a smaller cost for the current dictionary; the dictionary update leaves the dictionary as it is if and only if no dictionary has a smaller cost for the current weights (epsilon_states >= 0).", "quantifier": "all data, starts, reachable workspaces, competing factors", "why_tests_cant": "Compares against every feasible matrix in every reachable state; a wrong sign, a wrong projection or a stale cache can still produce a decreasing cost in tests.", "anchors": ["src/reor/gpnh_convex_coding.py:_update_weights", "src/reor/gpnh_convex_coding.py:_update_dictionary", "src/reor/gpnh_convex_coding.py:_update_weights_gradient", "src/reor/gpnh_convex_coding.py:_update_dictionary_gradient"]}
{"id": "C68", "title": "Archetypal analysis updates stop exactly at optimal factors", "statement": "For a symmetric positive semi-definite kernel, in every state a run goes through, the weights (dictionary) update leaves the weights (dictionary) as they are if and only if no row-stochastic weights (dictionary) have a smaller kernel reconstruction error for the other current factor.", "quantifier": "all kernels, starts, reachable workspaces, competing factors", "why_tests_cant": "Compares against every feasible matrix in every reachable state.", "anchors": ["src/reor/archetypal_analysis.py:_update_weights", "src/reor/archetypal_analysis.py:_update_dictionary"]}
{"id": "C69", "title": "MTD convex coding updates stop exactly at optimal factors", "statement": "In every state an MTD run goes through (more samples than the largest lag, at least two components, non-negative regularisation), the weights (dictionary) update changes nothing if and only if the current weights (dictionary) minimise the cost for the other current parameters; the joint update of the order weights and transition matrices changes nothing if and only if each of the two is optimal for the other one. The same holds for the parameter fit of the reduced-order GPNH class with respect to the squared forecast error.", "quantifier": "all data, lags, starts, reachable workspaces, competing parameters", "why_tests_cant": "Compares against every feasible parameter in every reachable state.", "anchors": ["src/reor/mtd_convex_coding.py:_update_weights", "src/reor/mtd_convex_coding.py:_update_dictionary", "src/reor/mtd_convex_coding.py:_update_parameters", "src/reor/gpnh_convex_coding_crom.py:_update_parameters"]}
{"id": "C70", "title": "Integer arrays in GPNH convex coding", "statement": "A GPNH fit whose dictionary update starts from an integer array (furthest_sum start on integer data, or an integer dictionary argument that is used) or whose weights update starts from integer weights never returns: it raises TypeError whenever the same numbers as float64 arrays can be fitted. In every other combination of int64/float64 arguments the outcome is that of the float64 fit, and updated factors are float64 arrays. transform (init other than 'custom') never depends on the dtypes.", "quantifier": "all data, arguments, dtypes (int64/float64), update flags, generators", "why_tests_cant": "Covers every combination of argument dtypes and every value of the arrays; tests use float data.", "anchors": ["src/reor/gpnh_convex_coding.py:_initialize_gpnh_convex_coding_dictionary_furthest_sum", "src/reor/gpnh_convex_coding.py:_update_dictionary", "src/reor/gpnh_convex_coding.py:_update_weights"]}
{"id": "C71", "title": "Integer arrays in archetypal analysis", "statement": "Characterises for which int64/float64 arguments a KernelAA / ArchetypalAnalysis fit fails because of a dtype (ValueError from np.dot(out=) when delta > 0, TypeError from the in-place updates otherwise); in all other combinations the outcome is that of the float64 fit. In particular ArchetypalAnalysis with the default kernel and furthest_sum start never returns from a fit of the dictionary to integer data.", "quantifier": "all kernels, data, arguments, dtypes, update flags, delta", "why_tests_cant": "Covers every combination of argument dtypes and every value of the arrays; tests use float data.", "anchors": ["src/reor/archetypal_analysis.py:_initialize_kernel_aa_dictionary_furthest_sum", "src/reor/archetypal_analysis.py:_update_dictionary", "src/reor/archetypal_analysis.py:_evaluate_cost"]}
{"id": "C72", "title": "Integer arrays in MTD convex coding", "statement": "Characterises for which int64/float64 arguments an MTD fit fails because of a dtype; in all other combinations the outcome is that of the float64 fit. In particular a fit (init other than 'custom') that updates the parameters never returns for integer data, because the drawn transition matrices are stored with the dtype of the data.", "quantifier": "all data, arguments, dtypes, update flags", "why_tests_cant": "Covers every combination of argument dtypes and every value of the arrays; tests use float data.", "anchors": ["src/reor/mtd_convex_coding.py:_initialize_mtd_convex_coding_parameters_random", "src/reor/mtd_convex_coding.py:_update_parameters", "src/reor/mtd_convex_coding.py:_initialize_workspace"]}
{"id": "C73", "title": "Reduced-order GPNH never fits integer data", "statement": "The reduced-order GPNH class (at least one lag) never returns from a fit to integer data; it raises TypeError whenever the underlying GPNH fit of the same numbers succeeds, although the GPNH fit itself may succeed on integer data. For float64 data and weights the outcome is that of the float64 model.", "quantifier": "all data, arguments, dtypes, update flags", "why_tests_cant": "Covers every combination of argument dtypes and every value of the arrays; tests use float data.", "anchors": ["src/reor/gpnh_convex_coding_crom.py:_fit_parameters", "src/reor/gpnh_convex_coding_crom.py:_update_parameters"]}
{"id": "C74", "title": "MTD convex coding and the reduced-order fit cannot trip the monotonicity guard", "statement": "With memory 1 and exact arithmetic, an update of the weights, dictionary or transition parameters of MTD convex coding, and of the transition parameters of the reduced-order GPNH class, never increases the cost once line_search_step_tol is below an explicit bound (curvature of the cost times the step length). Hence for every data set and start there is a positive step tolerance below which a fit never raises the 'cost increased' error, transform never raises it under an explicit bound, and a completed GPNH fit is always followed by a completed parameter fit.", "quantifier": "all data, starts, update flags, lags, penalties, reachable workspaces, random streams", "why_tests_cant": "The claim bounds the cost change of every update along every run over a continuum of inputs, including the bilinear interaction of order weights and transition matrices that are updated together.", "anchors": ["src/reor/mtd_convex_coding.py:_update_weights", "src/reor/mtd_convex_coding.py:_update_dictionary", "src/reor/mtd_convex_coding.py:_update_parameters", "src/reor/mtd_convex_coding.py:_iterate", "src/reor/gpnh_convex_coding_crom.py:_update_parameters", "src/reor/gpnh_convex_coding_crom.py:_fit_parameters"]}
{"id": "C75", "title": "Custom-initialised fits reject exactly the wrong arrays", "statement": "With init='custom' and valid scalar arguments, a GPNH or kernel archetypal fit raises ValueError if and only if a given array has the wrong shape or a checked sum differs from 1 by more than the tolerance of np.isclose (weights: rows; archetypal dictionary: rows). For MTD convex coding the order weights and the columns (not the rows) of every transition matrix are checked as well, and order weights or transition matrices that are not given raise AttributeError. No iteration raises ValueError or AttributeError.", "quantifier": "all data, arrays (given or missing), update flags, configurations", "why_tests_cant": "An equivalence over all real matrices, including that no later step of any run raises the same exception.", "anchors": ["src/reor/_validation.py", "src/reor/mtd_convex_coding.py:_check_init_transition_matrices", "src/reor/mtd_convex_coding.py:_check_init_order_weights", "src/reor/gpnh_convex_coding.py:_check_init_weights", "src/reor/archetypal_analysis.py:_check_init_dictionary"]}
{"id": "C76", "title": "FEM-BV-k-means on integer data works with truncated distances", "statement": "The distance matrix of FEMBVKMeans has the dtype of the data. For integer data every squared distance is rounded towards zero when it is stored. A fit reports the weighted sum of the truncated distances: at most the true clustering cost, and less than n_samples below it. When every sample is closer than 1 to every centroid the weights step sees a zero objective. A fit of 0/1 data from drawn weights has cost 0 after its first parameter update. With fixed parameters the monotonicity guard still never fires (the weights are optimal for the truncated distances), but with both updates it can fire on integer data although every weights step is solved exactly, which cannot happen for floating-point data.", "quantifier": "all integer-typed data, starts, update flags, solvers meeting their contract, random streams; the last part exhibits a run", "why_tests_cant": "Bounds over all data, weights and solver results; whether the guard can fire is a question about all runs.", "anchors": ["src/reor/fembv_kmeans.py:_evaluate_distance_matrix", "src/reor/fembv_kmeans.py:_initialize_components", "src/reor/fembv.py:_iterate_fembv"]}
{"id": "C77", "title": "FEM-BV-VARX on integer data loses fractional weights, residuals and coefficients", "statement": "The local models of FEMBVVARX keep their arrays in the dtype of the data. For integer data the affiliations passed to a local fit are stored after rounding towards zero, so every weight below 1 becomes 0: with an inverse that rejects the zero matrix, no fit that updates the parameters returns when there are at least two components and the weights are drawn, or when a custom start gives some component only weights below 1. Integer 0/1 data without memory fail already in the initial guess because every residual is rounded to 0. A fit that does return reports coefficients rounded towards zero, and residuals that are the rounded errors of the unrounded local models.", "quantifier": "all integer-typed data, external factors, memories, starts, least-squares routines of the right shape, inverses rejecting the zero matrix, solvers, random streams with positive draws", "why_tests_cant": "Says that no run in a whole class returns and what every returning run reports.", "anchors": ["src/reor/fembv_varx.py:FEMBVVARXLocalLinearModel.__init__", "src/reor/fembv_varx.py:FEMBVVARXLocalLinearModel.fit", "src/reor/fembv_varx.py:_update_parameters", "src/reor/fembv_varx.py:_initialize_components"]}
{"id": "C78", "title": "ClusterPWVARX on integer data truncates residuals and covariances but not coefficients", "statement": "A fit_transform of integer endogenous data by the piecewise VARX class raises exactly when, and with the exception with which, the fit of the same data as floats does. Otherwise it returns the same labels, intercepts, lag matrices and factor matrices, but every stored residual is the forecast error rounded towards zero. Sigma_u[k] is computed from the rounded residuals with the same degrees of freedom; it is the zero matrix when all errors of component k are below 1 in absolute value.", "quantifier": "all integer endogenous data, external factors, orders, trends, clustering and classification oracles, least-squares routines of the right shape", "why_tests_cant": "Relates two runs for all data and oracles and gives the reported covariance in closed form.", "anchors": ["src/reor/pwvarx.py:_fit_var_model", "src/reor/pwvarx.py:fit_transform"]}
{"id": "C79", "title": "The simplex projection in binary64 is nonnegative and close to the true projection, but its sum need not be 1", "statement": "Round-to-nearest-even binary64 arithmetic without overflow satisfies the rounding contract used below. Computed with any arithmetic satisfying it, the simplex projection returns nonnegative floating-point numbers that differ from the nearest point of the simplex by at most 16 n^2 (u (|x|_1 + 1) + eta), and their sum differs from 1 by at most n times that. In binary64, with at most 100 components of size at most 1, each component is within 2e-9 and the sum within 2e-7. The sum is not 1 in general: [1, t] with t below half a unit of 1 is returned unchanged.", "quantifier": "all vectors, all monotone odd idempotent roundings with relative error u and absolute error eta", "why_tests_cant": "A worst-case error bound over all inputs and roundings.", "anchors": ["src/reor/simplex_projection.py:simplex_project_vector"]}
{"id": "C80", "title": "Random stochastic matrices in binary64 lie in [0, 1], add up to 1 up to rounding, and pass the package's own validation", "statement": "With rounded arithmetic every entry of a generated left or right stochastic matrix lies in [0, 1], and each row (column) sum that is not drawn as all zeros differs from 1 by at most 8 n (u + eta/S) + n eta. In binary64 and with up to 1000000 columns, a matrix made from uniform draws that are multiples of 2^-53 is within 1e-8 of row sums 1, and the check of initial weights accepts it. The check in rounded arithmetic accepts every matrix whose true row sums are within 9e-6 of 1 and rejects every matrix with a row sum off by 1.1e-5 or more.", "quantifier": "all sizes, all streams of draws, all roundings", "why_tests_cant": "A worst-case error bound over all sizes, draws and roundings.", "anchors": ["src/reor/_random_matrix.py:right_stochastic_matrix", "src/reor/_random_matrix.py:left_stochastic_matrix", "src/reor/_validation.py:_check_unit_axis_sums", "src/reor/gpnh_convex_coding.py:_check_init_weights"]}
{"id": "C81", "title": "Fits, transforms and predictions end in floating-point arithmetic", "statement": "In any rounded arithmetic whose unit u and subnormal unit eta are small against the line-search parameters ((max(1/2, sigma_two))(1+u) < 1 and eta < (1 - that) * step_size_tolerance; binary64 with the defaults qualifies), every fit_transform, transform and predict of GPNH convex coding, kernel archetypal analysis, MTD convex coding and the reduced-order model ends after a number of step reductions that depends only on the line-search parameters: it returns or raises ValueError, IndexError, TypeError (MTD: AttributeError) or, with the monotonicity guard on, RuntimeError. A GPNH fit from a random start with valid parameters, a non-empty line-search memory and the guard off returns.", "quantifier": "all data, all initial arrays, all generator states, all roundings satisfying the contract", "why_tests_cant": "Termination over all inputs with rounding cannot be sampled; a step that stops shrinking because of rounding would only show as a hang on rare data.", "anchors": ["src/reor/spg.py:get_next_spg_step_length", "src/reor/gpnh_convex_coding.py:_weights_line_search", "src/reor/archetypal_analysis.py:_dictionary_line_search", "src/reor/mtd_convex_coding.py:_parameters_line_search", "src/reor/gpnh_convex_coding_crom.py:_fit_parameters"]}
{"id": "C82", "title": "Weights, archetypes and transition probabilities never become negative through rounding", "statement": "In any rounded arithmetic (binary64 in particular), for nonnegative floating-point draws and nonnegative given arrays, 0 <= sigma_one and sigma_two <= 1, every completed run of GPNH convex coding, kernel archetypal analysis, MTD convex coding and the reduced-order model returns weights that are nonnegative floating-point numbers; the same holds for the archetype coefficients, the order weights, the transition matrices and the weights predicted any number of steps ahead. No rounding of G + s (P - G) can cross zero.", "quantifier": "all data, all runs, all iterations, all roundings satisfying the contract", "why_tests_cant": "A negative weight of size 1e-17 would need a particular rounding pattern; tests compare with tolerances.", "anchors": ["src/reor/gpnh_convex_coding.py:_update_weights", "src/reor/archetypal_analysis.py:_update_weights", "src/reor/mtd_convex_coding.py:_update_parameters", "src/reor/mtd_convex_coding.py:predict", "src/reor/gpnh_convex_coding_crom.py:_update_parameters"]}
{"id": "C83", "title": "The simplex projection of a vector with a very large entry is the zero vector", "statement": "If the largest entry M of a vector is so large that M - 1 rounds to M, the simplex projection returns the zero vector, which is not a probability vector, instead of the nearest vertex. In binary64 this happens for every vector whose largest entry is at least 2^55.", "quantifier": "all vectors, all roundings satisfying the contract", "why_tests_cant": "Tests use entries of moderate size; the exact projection of the same vectors is correct (C01).", "anchors": ["src/reor/simplex_projection.py:simplex_project_vector"]}
{"id": "C84", "title": "NaN in the data of a convex coding or archetypal analysis is never reported", "statement": "The simplex projection of a vector containing NaN is the zero vector. If the data (kernel) contains a NaN anywhere, a fit of GPNH convex coding, MTD convex coding or kernel/data archetypal analysis from random starting values does not raise: it performs all max_iterations iterations, reports n_iter = max_iterations - 1, cost NaN and no convergence warning, and returns all-zero weights (rows that are no probability vectors) for every sample, not only those with NaN. The GPNH/MTD dictionary is entirely NaN, the archetype coefficients are all zero, the reconstruction is NaN, and every later transform raises ValueError. With any other initialisation and update flags, whenever the fit returns the outcome is the same, with NaN in the dictionary columns of the NaN columns. transform of data with NaN by a fitted GPNH/MTD model returns zero weights in the rows with NaN, and of a kernel with NaN zero weights in all rows.", "quantifier": "all data with at least one NaN, all shapes, all parameters, all streams of positive draws, any initialisation, any fuel", "why_tests_cant": "Tests use finite data; the zero weights come from comparisons with NaN being false in the projection, the line search and the convergence test together.", "anchors": ["src/reor/simplex_projection.py:simplex_project_vector", "src/reor/gpnh_convex_coding.py:_gpnh_convex_coding", "src/reor/mtd_convex_coding.py:_mtd_convex_coding", "src/reor/archetypal_analysis.py:_kernel_aa"]}
{"id": "C85", "title": "The VARX noise covariance is the scatter divided by the total weight minus one, and turns negative for light components", "statement": "After a fit, Sigma_u is the symmetric matrix of sums of (weight times) products of the reported residuals beyond the presample, divided by n - q - p*d - 1 - e*(1+s) without weights and by the sum of the weights minus one with weights. Its quadratic form has the sign of that divisor: a component whose weights sum to less than one is given a negative semidefinite 'covariance'. Unit weights give the same coefficients and residuals as no weights, but a covariance smaller by the factor (N-1-coefficients)/(N-1).", "quantifier": "all outcome and exogenous data, all lags, all nonnegative weights, all histories of fits, any least-squares routine returning an array of the right shape", "why_tests_cant": "Tests fit with unit-like weights on long series and compare coefficients only; the divisor has to be followed for arbitrary weights.", "anchors": ["src/reor/fembv_varx.py:FEMBVVARXLocalLinearModel.fit"]}
{"id": "C86", "title": "The reduced-order model accepts lags of any sign: mixed signs raise after the coding, negative lags fit the end of the series to its beginning", "statement": "GPNHConvexCodingCROM checks no lag. With positive lags the slices are those of the documented model. If a lag is zero or negative and another (or the same) is not negative and all are below n_samples, fit computes the whole convex coding and then raises ValueError. If all lags -a_i are negative with a_i <= n_samples, no error is raised: with b the least a_i, the last b samples are 'predicted' from samples a_i-b .. a_i-1, the squared error of these b samples is divided by k(n+b), and a stochastic transition model is returned. A negative lag reaching beyond the data raises ValueError unless exactly one row is left to broadcast. For every integer array the fit ends.", "quantifier": "all integer lag arrays, all data, parameters, random streams, starting values and fuels", "why_tests_cant": "Tests use lag arrays such as [1] or [1,2]; slices with negative bounds and the broadcasting rule give different outcomes for different sign patterns and lengths.", "anchors": ["src/reor/gpnh_convex_coding_crom.py:GPNHConvexCodingCROM._update_predicted_weights", "src/reor/gpnh_convex_coding_crom.py:GPNHConvexCodingCROM._fit_parameters", "src/reor/gpnh_convex_coding_crom.py:GPNHConvexCodingCROM.__init__"]}
{"id": "C87", "title": "A series exactly as long as the largest lag silently gives a transition model of zeros", "statement": "With n_samples = max(lags) and at least two components the normalization 1/(k(n_samples - max_lag)) is infinite and multiplies an empty sum: every cost is NaN. MTDConvexCoding.fit then runs all iterations without warning or error, sets all order weights and all transition matrices to zero, gives zero weights to every sample that is the predecessor of another one, and every later transform raises ValueError; transform of such a series by a properly fitted model also gives zero weights to those samples. GPNHConvexCodingCROM.fit returns the same zero model, and every forecast made with it is the zero vector.", "quantifier": "all data (finite or not), lags, n_components >= 2, settings, starting values, random streams, fuels", "why_tests_cant": "Needs a run-length argument over IEEE special values for all lag sets; any fixed test sees one series and no error.", "anchors": ["src/reor/mtd_convex_coding.py:MTDConvexCoding._evaluate_weights_penalty", "src/reor/mtd_convex_coding.py:MTDConvexCoding._update_parameters", "src/reor/gpnh_convex_coding_crom.py:GPNHConvexCodingCROM._update_parameters"]}
{"id": "C88", "title": "A series shorter than the largest lag is coded without a transition model", "statement": "With n_samples < max(lags) every array over the times from max(lags) on is empty. MTDConvexCoding.fit then does exactly what GPNHConvexCoding.fit with the common settings and the same random generator does: same weights, dictionary, costs, iteration count and warning, and the same exception if it raises; the order weights and transition matrices it returns are the random starting values, which no iteration changes, and no error or warning says so. transform of such a series equals the GPNH transform with the same dictionary. GPNHConvexCodingCROM.fit likewise keeps the random starting values as its transition model and reports residuals of zero.", "quantifier": "all data with fewer samples than the largest lag, all lags, n_components, penalties, settings, random streams with stochastic draws, fuels", "why_tests_cant": "An equality of two complete iterative runs for all data and settings; a test compares one pair of runs up to rounding.", "anchors": ["src/reor/mtd_convex_coding.py:MTDConvexCoding._weights_penalty_gradient", "src/reor/mtd_convex_coding.py:MTDConvexCoding._update_parameters", "src/reor/gpnh_convex_coding_crom.py:GPNHConvexCodingCROM._fit_parameters"]}
{"id": "C89", "title": "FEM-BV-VARX stores the distances of integer data exactly", "statement": "The distance matrix of FEMBVVARX has the dtype of the data, as in FEMBVKMeans, but for integer data nothing is lost when it is stored: the residuals of the local models are integers already, so every distance is a sum of squares of integers. The cost a fit reports is the weighted sum of the squared reported (rounded) residuals, for every combination of update flags. All the error in the cost of integer data comes from rounding the residuals.", "quantifier": "all integer-typed data with more samples than the largest memory, external factors, memories, starts, update flags, solvers, least-squares routines and inverses of the right shape", "why_tests_cant": "That no rounding happens is a statement about every state every run can reach.", "anchors": ["src/reor/fembv_varx.py:FEMBVVARX._evaluate_distance_matrix", "src/reor/fembv_varx.py:FEMBVVARX._initialize_components"]}
{"id": "C90", "title": "A repeated or out-of-range exclusion makes FurthestSum fail", "statement": "furthest_sum sizes its candidate queue by len(exclude). With a start index in range that is not excluded and n_components >= 1 it raises ValueError exactly for lists shorter than n_samples that leave, by their length, fewer than n_components points; otherwise it returns if the list has no repetitions and only valid indices, and raises IndexError if the list repeats an index or has one out of range (a negative one included) and some other point is not excluded, however many points remain. A list that excludes all other points and is not of that form gives the start index for n_components = 1 and IndexError for more.", "quantifier": "all square dissimilarity matrices (any values, even NaN), n_components >= 1, start indices, exclusion lists, extra_steps", "why_tests_cant": "A complete case distinction over all exclusion lists.", "anchors": ["src/reor/furthest_sum.py:_furthest_sum_impl"]}
{"id": "C91", "title": "FurthestSum does not depend on the units, offset or diagonal of the dissimilarities", "statement": "If the off-diagonal dissimilarities are multiplied by a positive constant and shifted by any constant, and the diagonal is replaced by anything, furthest_sum returns the same points in the same order, or raises the same exception, for every n_components, start index, exclusion list and number of extra steps. The matrix need not be symmetric or non-negative.", "quantifier": "all pairs of real matrices of the same shape related in this way, all integer arguments and exclusion lists", "why_tests_cant": "A relation between runs on all matrices and all rescalings; the extra steps subtract and add sums whose offsets must cancel at every step.", "anchors": ["src/reor/furthest_sum.py:_furthest_sum_impl", "src/reor/furthest_sum.py:furthest_sum"]}
{"id": "C92", "title": "FurthestSum starting dictionaries follow changes of coordinates", "statement": "The furthest_sum initialisation picks samples by their mutual distances only. Two kernels of the same size whose squared distances K_ii - 2 K_ij + K_jj are proportional (for example one is the centred or rescaled other) give the same archetypal-analysis starting dictionary, exception and generator state. Two data sets with proportional distances between samples, as after shifting, rotating, rescaling or appending constant features, give GPNH convex coding starting dictionaries made of the same samples in the same order; with a common scale c and offsets t_f the dictionary is c times the other plus t.", "quantifier": "all real data sets and kernels of any size so related, all n_components >= 1 (any for archetypal analysis), keyword arguments and generator states", "why_tests_cant": "A relation between runs on all data sets and all such changes of coordinates.", "anchors": ["src/reor/archetypal_analysis.py:_initialize_kernel_aa_dictionary_furthest_sum", "src/reor/gpnh_convex_coding.py:_initialize_gpnh_convex_coding_dictionary_furthest_sum", "src/reor/furthest_sum.py:furthest_sum"]}
{"id": "C93", "title": "Transform of archetypal analysis keeps the fit", "statement": "A successful KernelAA.transform leaves dictionary_, cost_, n_iter_, n_components_, the configuration and the coefficients of the fitted dictionary unchanged and returns the new weights. With an integer random_state an earlier transform has no effect on a later one with the same number of samples: it returns the same weights and state, or raises the same exception, as if called first.", "quantifier": "all objects, kernels and number types, including floating point", "why_tests_cant": "State preservation over all objects and inputs.", "anchors": ["src/reor/archetypal_analysis.py:transform", "src/reor/archetypal_analysis.py:_kernel_aa"]}
