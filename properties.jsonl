{"id": "C01", "title": "Chain registry behaves like an insertion-ordered map with unique names", "statement": "After any sequence of add_chain / add_marker / remove_chain calls, get_names() lists each live chain exactly once in the order in which the live chains were added, get_chain(n) returns exactly the chain most recently added under n, adding a name that is present fails, removing or getting a name that is absent fails, and a failing call changes nothing.", "quantifier": "all finite sequences of registry calls, all names and chains", "why_tests_cant": "Unit tests exercise a handful of fixed call sequences; the claim is about every history.", "anchors": ["src/chainconsumer/chainconsumer.py: ChainConsumer.add_chain, add_marker, remove_chain, get_chain, get_names"]}
{"id": "C02", "title": "Resolving the chains for plotting/analysis never alters the chains the user stored", "statement": "However many times plotting or analysis resolves the final chain settings, and whatever override is set, every chain object the user added keeps every setting and its samples exactly as they were; each resolution is computed on fresh objects.", "quantifier": "all consumers (any number of chains), all overrides, any interleaving of resolutions with registry calls", "why_tests_cant": "Aliasing bugs only show up for particular histories; a test sees one history.", "anchors": ["src/chainconsumer/chainconsumer.py: ChainConsumer._get_final_chains, set_override", "src/chainconsumer/chain.py: ChainConfig._apply, _apply_if_not_user_set"]}
{"id": "C03", "title": "Settings precedence: override, then explicit user setting, then automatic default", "statement": "In the chains actually used for output, every setting that the global override explicitly specifies has the override's value; otherwise every setting the user explicitly gave when building the chain keeps the user's value; otherwise bar_shade, sigmas, shade, shade_alpha and color take the automatic value and every other setting keeps the chain's own value. Name, samples and order of the chains are unchanged.", "quantifier": "all settings, all chains, all sets of user-specified keys, all overrides", "why_tests_cant": "There are 26 settings times every subset of explicitly given keys times every override.", "anchors": ["src/chainconsumer/chainconsumer.py: _get_final_chains", "src/chainconsumer/base.py: BetterBase", "src/chainconsumer/chain.py: ChainConfig"]}
{"id": "C04", "title": "Automatic colours are pairwise distinct, assigned in a fixed order, and run out after 88 chains", "statement": "The k-th chain that has no colour receives the k-th entry of the fixed palette sequence; the 88 entries are pairwise distinct so no two automatically coloured chains share a colour; resolution fails exactly when more than 88 chains lack a colour.", "quantifier": "all consumers with any number of coloured and uncoloured chains", "why_tests_cant": "Tests plot a few chains; the collision and exhaustion cases need arbitrary numbers of chains.", "anchors": ["src/chainconsumer/color_finder.py: Colors.next_colour, ALL_COLOURS", "src/chainconsumer/chainconsumer.py: _get_final_chains"]}
{"id": "C05", "title": "Automatic shading depends only on how many chains draw contours", "statement": "For a chain with no explicit shading settings and no override, shade and bar_shade are on exactly when fewer than 5 stored chains draw contours, sigmas are [0,1,2], and shade_alpha is 1/sqrt(k) for k contour chains (halved when contour labels are shown); explicit settings are untouched.", "quantifier": "all consumers, all numbers of contour and non-contour chains", "why_tests_cant": "The boundary (4 vs 5 contour chains, markers not counting) must hold for every mixture of chains.", "anchors": ["src/chainconsumer/chainconsumer.py: _get_final_chains lines 154-178"]}
{"id": "C06", "title": "Chain construction accepts exactly the well-formed inputs", "statement": "Constructing a Chain succeeds exactly when the frame has at least one row and one column, every column name is a string, every value is finite, the weight column (if present) is strictly positive or (if absent) keeps its default name, numeric options are within their documented ranges, the number of rows is divisible by walkers, the colour parameter (if given) is a column, a given colour is one the library can read, the number of data points is finite, multimodal chains use the HDI statistic, and (with shift_params) the shift does not divide by a zero sum of weights. The constructed chain then has a statistic set, a weight column, and the same columns and row labels as the input.", "quantifier": "all frames (any rows, columns, index, NaN/inf values) and all option values", "why_tests_cant": "Validation is a conjunction over every row and column of arbitrary frames; tests try one bad cell each.", "anchors": ["src/chainconsumer/chain.py: Chain._validate_model, ChainConfig fields"]}
{"id": "C07", "title": "Constructing a chain never modifies the caller's DataFrame", "statement": "Whatever the options (including automatic weights and shift_params) and whether or not construction succeeds, the DataFrame object passed by the caller, and every other existing DataFrame and chain, are unchanged.", "quantifier": "all frames, all options, all heaps of other objects", "why_tests_cant": "A test compares one frame before and after; aliasing depends on options and failure point.", "anchors": ["src/chainconsumer/chain.py: Chain._copy_df, _validate_model"]}
{"id": "C08", "title": "data_columns lists exactly the parameter columns, in frame order", "statement": "data_columns contains a column exactly when it is a column of the samples that is neither the weight nor the posterior column and whose lower-cased name is not one of the seven reserved names, each once and in frame order; so weights and posteriors are never treated as parameters.", "quantifier": "all frames and weight/posterior column names", "why_tests_cant": "Any column name (any case) may occur.", "anchors": ["src/chainconsumer/chain.py: Chain.data_columns, data_samples"]}
{"id": "C09", "title": "plotting_columns removes exactly the colour column and only for clouds", "statement": "plotting_columns equals data_columns, except that when plot_cloud is set the colour parameter is removed; the relative order is kept; the columns chosen for a figure when none are given are the first-seen union, without repetition, of the plotting columns of the chains in order.", "quantifier": "all chains and lists of chains", "why_tests_cant": "Order preserving union over arbitrary lists of chains.", "anchors": ["src/chainconsumer/chain.py: Chain.plotting_columns", "src/chainconsumer/plotter.py: Plotter._sanitise_columns"]}
{"id": "C10", "title": "shift_params centres the parameters and leaves the weights alone", "statement": "With shift_params=True every parameter column of the constructed chain has weighted mean zero (with the chain's own weights), differences between rows are unchanged, and the weights and posterior are unchanged.", "quantifier": "all frames and weights", "why_tests_cant": "Needs to hold for every sample set and column order; the code shifts the weight column too, which a mean-only test misses.", "anchors": ["src/chainconsumer/chain.py: Chain._validate_model lines 261-264"]}
{"id": "C11", "title": "divide splits the rows evenly into one chain per walker", "statement": "divide() on a chain with w > 1 walkers and no grid returns exactly w chains whose row blocks, concatenated in order, are the original rows; each has rows/w rows, walkers = 1, name '<name> Walker <i>' (all distinct), the same settings except colour; it fails for one walker or a grid.", "quantifier": "all chains, all walker counts dividing the number of rows", "why_tests_cant": "Block boundaries must be right for every walker count and length.", "anchors": ["src/chainconsumer/chain.py: Chain.divide"]}
{"id": "C12", "title": "Maximum posterior point is the sample with the highest posterior", "statement": "get_max_posterior_point returns the log posterior and parameter values of a sample whose posterior is maximal over all rows (the first such row), restricted to the plotting columns, for every DataFrame whatever its index labels; None iff there is no posterior column.", "quantifier": "all frames, all index labels, all posteriors", "why_tests_cant": "argmax is positional but the lookup is by label; tests only use default indices.", "anchors": ["src/chainconsumer/chain.py: Chain.max_posterior_row, get_max_posterior_point"]}
{"id": "C13", "title": "Maximum posterior points of several chains", "statement": "get_max_posteriors returns an entry exactly for the requested chains (all chains by default) that have a posterior column, each being that chain's own maximum posterior point, in order; requesting an unknown chain name fails.", "quantifier": "all consumers and all lists of names", "why_tests_cant": "Any subset and order of chains.", "anchors": ["src/chainconsumer/analysis.py: Analysis.get_max_posteriors"]}
{"id": "C14", "title": "A marker's point is the location it was given", "statement": "For a chain added by add_marker(location, name), the maximum posterior point is exactly the given location (restricted to plotting columns), the chain draws a point and no contour, and it does not count towards automatic shading.", "quantifier": "all locations (any number of coordinates), all names", "why_tests_cant": "Any set of coordinate names and values.", "anchors": ["src/chainconsumer/chainconsumer.py: ChainConsumer.add_marker", "src/chainconsumer/chain.py: Chain.get_max_posterior_point"]}
{"id": "C15", "title": "Covariance matrix is the weighted covariance: symmetric, positive semi-definite, shift and weight-scale invariant", "statement": "get_covariance returns for columns i,j the weighted covariance with reliability-weight correction; it is symmetric, v^T C v >= 0 for every v, adding a constant to a column changes nothing, scaling a column scales its row and column, multiplying all weights by a positive constant changes nothing, and with equal weights it is the usual sample covariance with n-1.", "quantifier": "all weighted samples, all column lists, all vectors v", "why_tests_cant": "Positive semi-definiteness is a statement about all directions and all samples.", "anchors": ["src/chainconsumer/chain.py: Chain.get_covariance"]}
{"id": "C16", "title": "Correlation matrix has unit diagonal and entries in [-1,1]", "statement": "When every variance is positive, get_correlation is symmetric with diagonal exactly 1 and every entry between -1 and 1, and is unchanged by shifting columns or scaling them by positive factors. It must work for every non-empty list of columns.", "quantifier": "all weighted samples and column lists", "why_tests_cant": "Cauchy-Schwarz over all samples.", "anchors": ["src/chainconsumer/chain.py: Chain.get_correlation"]}
{"id": "C17", "title": "Variable selection by name keeps or removes exactly the named variables", "statement": "When importing from numpyro or arviz, a list of plain variable names keeps exactly the named variables, a list of ~names removes exactly those, the sampler's order is kept, None keeps everything and mixtures are rejected; selecting by a list and excluding by the same list partition the variables; an empty list includes everything as documented.", "quantifier": "all lists of names and variables", "why_tests_cant": "All subsets and orders.", "anchors": ["src/chainconsumer/chain.py: _filter_var_names, Chain.from_numpyro, Chain.from_arviz"]}
{"id": "C18", "title": "from_emcee pairs names with sampler dimensions in order", "statement": "from_emcee builds a chain whose i-th column is the i-th sampler dimension under the i-th given name; rows are the sampler's rows; nothing is reordered.", "quantifier": "all samplers (steps x dims) and column lists", "why_tests_cant": "Column/dimension mismatch arises for arbitrary lengths (zip truncates).", "anchors": ["src/chainconsumer/chain.py: Chain.from_emcee"]}
{"id": "C19", "title": "Histogram resolution defaults", "statement": "The number of bins is the user's bins when given, otherwise max(35 or 100, floor((rows/columns)^(1/4))) with 35 iff the smoothing value is positive; the smoothing value is the user's, else 0 for grids and 3 otherwise; the bin edges are evenly spaced over the extents and there are 2*smooth*bins of them (bins when not smoothing).", "quantifier": "all chains", "why_tests_cant": "Integer fourth roots for every size.", "anchors": ["src/chainconsumer/helpers.py: get_bins, get_smoothed_bins", "src/chainconsumer/chain.py: Chain.smooth_value"]}
{"id": "C20", "title": "Extents lie inside the data range, are ordered, and trim at most the threshold mass per side", "statement": "The parameter range used for binning and for axis limits, without padding, has lower <= upper, both inside [min,max] of the samples; the samples strictly below lower and strictly above upper carry at most (about) the threshold fraction of the total weight on each side; padding widens the range by 20% of its width on each side.", "quantifier": "all non-degenerate weighted samples, all option combinations", "why_tests_cant": "Index arithmetic (bc[-i2]) and the renormalised CDF must be right for every histogram shape.", "anchors": ["src/chainconsumer/helpers.py: get_extents"]}
{"id": "C21", "title": "Grid bins contain each grid value in its own bin", "statement": "For gridded data the bins returned have one more edge than there are distinct values, are increasing, and for a uniform grid every distinct value is the centre of its own bin and every sample falls in the bin of its value, so the histogram is the marginal of the grid weights.", "quantifier": "all grids with at least two distinct values", "why_tests_cant": "All grid sizes and spacings.", "anchors": ["src/chainconsumer/helpers.py: get_grid_bins"]}
{"id": "C22", "title": "Smoothed marginal: increasing grid, non-negative density, CDF from 0+ to 1", "statement": "The marginal used by every summary has strictly increasing positions, spanning first to last bin centre, non-negative densities, and a cumulative array that is non-decreasing, lies in [0,1] and ends at 1.", "quantifier": "all samples, weights, bin edges, smoothing kernels and grid resolutions with some positive mass", "why_tests_cant": "Composition of histogram, filtering, interpolation and cumulative sum over arbitrary data.", "anchors": ["src/chainconsumer/analysis.py: Analysis._get_smoothed_histogram"]}
{"id": "C23", "title": "Histogram accounts for every in-range sample exactly once", "statement": "The weighted histogram used for marginals has total equal to the total weight of the samples inside the bin range, each such sample counted in exactly one bin (last bin closed), and density normalisation makes the integral 1.", "quantifier": "all samples, weights and non-decreasing edges", "why_tests_cant": "Boundary samples can be lost or double counted for particular edges only.", "anchors": ["src/chainconsumer/analysis.py: _get_smoothed_histogram line 338", "src/chainconsumer/helpers.py: get_extents line 19"]}
{"id": "C24", "title": "Cumulative summary returns the requested quantiles", "statement": "The CUMULATIVE summary returns lower <= center <= upper where the interpolated CDF takes the values 1/2-a/2, 1/2, 1/2+a/2 at them (a = summary_area); it fails exactly when the lower level is below the first CDF value.", "quantifier": "all marginals and all areas in [0,1]", "why_tests_cant": "Quantile inversion must be right on every (possibly flat) CDF.", "anchors": ["src/chainconsumer/analysis.py: get_parameter_summary_cumulative"]}
{"id": "C25", "title": "Mean summary is the midpoint of the cumulative interval", "statement": "The MEAN summary has the same lower and upper as CUMULATIVE and its center is their exact midpoint, hence lies between them.", "quantifier": "all marginals and areas", "why_tests_cant": "All CDF shapes.", "anchors": ["src/chainconsumer/analysis.py: get_parameter_summary_mean"]}
{"id": "C26", "title": "Max-central summary: mode with central interval", "statement": "The MAX_CENTRAL summary has center at a highest point of the marginal density, and lower/upper equal to the cumulative quantiles; lower <= center <= upper.", "quantifier": "all marginals and areas", "why_tests_cant": "The mode can fall outside the central interval for skewed marginals only.", "anchors": ["src/chainconsumer/analysis.py: get_parameter_summary_max_central"]}
{"id": "C27", "title": "Max summary is an iso-density interval around the mode with the requested mass", "statement": "The MAX summary always terminates (at most 51 bisection steps) and returns the mode as center and either no bounds, or bounds lower <= center <= upper such that the density is at least a common level everywhere between them and drops below it just outside, and the enclosed mass differs from summary_area by less than 0.003.", "quantifier": "all marginals and areas", "why_tests_cant": "Loop termination and the level-set property quantify over every density shape.", "anchors": ["src/chainconsumer/analysis.py: get_parameter_summary_max"]}
{"id": "C28", "title": "HDI summary is the narrowest interval with the requested mass", "statement": "The HDI summary returns an interval between two grid positions whose CDF mass is at least summary_area, no other grid interval with that mass is narrower (up to 1e-12), and lower <= center <= upper.", "quantifier": "all marginals and all areas in [0,1]", "why_tests_cant": "Optimality over all windows of all CDFs.", "anchors": ["src/chainconsumer/analysis.py: get_parameter_summary_hdi"]}
{"id": "C29", "title": "Multimodal bands are exactly the maximal runs above the threshold", "statement": "Turning the grid points at or above the density threshold into bands gives, in increasing order, exactly the end points of the maximal runs of at least two neighbouring points; the bands are pairwise disjoint and cover exactly the points that have a neighbour above the threshold; it never fails.", "quantifier": "all increasing positions and all masks", "why_tests_cant": "Off-by-one at both ends; all mask patterns.", "anchors": ["src/chainconsumer/analysis.py: _mask_to_intervals"]}
{"id": "C30", "title": "Multimodal HDI bands contain the requested mass", "statement": "For a multimodal chain the bands reported for a parameter are disjoint and increasing, they are the maximal runs where the density is at least a threshold, and the enclosed mass matches summary_area to within the solver tolerance, for every scale of the parameter.", "quantifier": "all densities, all areas, all parameter scales", "why_tests_cant": "The absolute tolerance of the root finder makes it scale dependent.", "anchors": ["src/chainconsumer/analysis.py: get_parameter_hdi_intervals"]}
{"id": "C31", "title": "Multimodal bounds: each band is reported with its own mode inside it", "statement": "A multimodal summary has one bound per band, in order, with lower <= center <= upper, and the density at center is maximal over the grid points in that band.", "quantifier": "all densities and interval lists", "why_tests_cant": "All shapes; argmax on a masked array.", "anchors": ["src/chainconsumer/analysis.py: get_parameter_multimodal_bounds"]}
{"id": "C32", "title": "Summary covers exactly the requested chains and columns", "statement": "get_summary has one entry per requested chain, and in it one entry for exactly the requested columns that the chain has; each is the bound of that chain's statistic, or, for multimodal chains with at least two bands, the list of band bounds.", "quantifier": "all consumers, chain lists and column lists", "why_tests_cant": "All combinations of chains with differing columns.", "anchors": ["src/chainconsumer/analysis.py: get_summary, get_parameter_summary"]}
{"id": "C33", "title": "Displayed parameter text is a faithful rounding of the bound", "statement": "The text for a bound shows center, upper and lower error with a common power of ten and a common number of decimals, chosen so that the smaller non-zero error has two significant digits; each displayed number differs from the true one by at most half a unit of the last displayed digit; the symmetric form is used only if both displayed errors agree; bounds with a missing limit give the empty text.", "quantifier": "all bounds with lower <= center <= upper", "why_tests_cant": "Rounding decisions over all magnitudes.", "anchors": ["src/chainconsumer/analysis.py: get_parameter_text, _format_single_bound"]}
{"id": "C34", "title": "LaTeX parameter table is rectangular, complete and hides blinded parameters", "statement": "In get_latex_table every row has as many cells as the column specification, there is one row per chain and one column per unblinded column (or transposed), the cell of chain c and parameter p is that chain's text for p or blank_fill when the chain lacks p, and no blinded parameter appears.", "quantifier": "all consumers, columns, blind settings, transposition", "why_tests_cant": "All shapes.", "anchors": ["src/chainconsumer/analysis.py: get_latex_table"]}
{"id": "C35", "title": "Covariance/correlation tables show the matrix faithfully", "statement": "The LaTeX table from get_covariance_table / get_correlation_table has one row per parameter, each with the parameter's label and one cell per column, showing matrix[i][j] rounded to two decimals at row i, column j.", "quantifier": "all matrices and labels", "why_tests_cant": "All sizes.", "anchors": ["src/chainconsumer/analysis.py: _get_2d_latex_table"]}
{"id": "C36", "title": "Table captions and labels are inserted verbatim", "statement": "Every table-producing call returns a table whose caption and label are exactly the strings given, for every caption and label.", "quantifier": "all captions and labels", "why_tests_cant": "Captions are spliced into a %-format string, so only captions with % reveal the failure.", "anchors": ["src/chainconsumer/helpers.py: get_latex_table_frame", "src/chainconsumer/analysis.py: get_latex_table, _get_2d_latex_table", "src/chainconsumer/comparisons.py: comparison_table"]}
{"id": "C37", "title": "Model comparison scores are relative to the best model", "statement": "aic(), bic() and dic() return values that are all >= 0, at least one is exactly 0 (if any chain qualifies), and the difference between two chains' values is the difference of their raw scores; so the ranking is that of the raw criterion.", "quantifier": "all consumers", "why_tests_cant": "Any number of chains, any scores.", "anchors": ["src/chainconsumer/comparisons.py: aic, bic, dic"]}
{"id": "C38", "title": "AIC/BIC/DIC implement their documented formulas and qualify exactly the chains with the needed inputs", "statement": "A chain has an AIC/BIC entry exactly if it has a posterior, data points and free parameters, a DIC entry exactly if it has a posterior; raw AICc = 2k - 2 max ln P + 2k(k+1)/(N-k-1), raw BIC = k ln N - 2 max ln P, raw DIC = mean D + (mean D - D at the sample nearest the weighted mean), D = -2 ln P; adding a non-qualifying chain changes nothing.", "quantifier": "all consumers", "why_tests_cant": "All mixtures of chains and values; division by zero at N = k+1.", "anchors": ["src/chainconsumer/comparisons.py: aic, bic, dic"]}
{"id": "C39", "title": "Comparison table is sorted, complete and rectangular", "statement": "comparison_table lists every chain that has any selected score exactly once, sorted by the chosen score in the chosen direction (missing last), with as many cells per row as the column specification; sorting by a disabled score is rejected.", "quantifier": "all consumers, flags and sort keys", "why_tests_cant": "All flags combinations and chain sets.", "anchors": ["src/chainconsumer/comparisons.py: comparison_table"]}
{"id": "C40", "title": "Gelman-Rubin implements the documented statistic", "statement": "gelman_rubin on one chain passes exactly when every parameter's R-hat (computed from within- and between-walker variances as documented) deviates from 1 by less than the threshold; the verdict is unchanged by shifting/rescaling a parameter or permuting walkers; it needs more than one walker.", "quantifier": "all samples, walker counts, thresholds", "why_tests_cant": "Statistic over all samples.", "anchors": ["src/chainconsumer/diagnostic.py: Diagnostic.gelman_rubin"]}
{"id": "C41", "title": "Diagnostics over several chains aggregate correctly", "statement": "gelman_rubin and geweke over several chains report one result per chain, equal to the single-chain result, and pass overall exactly when each chain passes.", "quantifier": "all lists of chains", "why_tests_cant": "All combinations; name clashes.", "anchors": ["src/chainconsumer/diagnostic.py: gelman_rubin, geweke, _sanitise_chains"]}
{"id": "C42", "title": "Geweke compares the requested start and end windows of each walker", "statement": "geweke compares, for each walker and parameter, the mean of exactly the first floor(first*n) steps with that of the last n - floor((1-last)*n) steps of that walker; for first+last <= 1 no step is used twice; the z-scores are unchanged by shifting a parameter.", "quantifier": "all samples, walkers, window fractions", "why_tests_cant": "Window arithmetic for all lengths.", "anchors": ["src/chainconsumer/diagnostic.py: Diagnostic.geweke"]}
{"id": "C43", "title": "Contour surface: cumulative mass of denser cells", "statement": "The surface whose contours are drawn gives each cell the fraction of the total mass in the cells at least as dense (up to tie order); values lie in (0,1], denser cells get smaller-or-equal values, the region with value <= L contains mass at most L, and the shape is that of the histogram, x horizontally; for every order numpy may choose for ties.", "quantifier": "all 2D histograms with non-negative cells and positive total, all tie orders", "why_tests_cant": "argsort inversion over all histograms.", "anchors": ["src/chainconsumer/plotting/contours.py: _convert_to_stdev"]}
{"id": "C44", "title": "Contour levels", "statement": "The contour level drawn for each sigma is 1-exp(-sigma^2/2) with sigma2d and 2*Phi(sigma)-1 otherwise; levels for non-negative sigmas are in [0,1), 0 at 0, and strictly increasing, so increasing sigmas give valid increasing contour levels and the contours are drawn, provided the opacity of a shaded contour lies between 0 and 1; sigmas that are not increasing, empty, or a single sigma with shading are rejected.", "quantifier": "all lists of sigmas", "why_tests_cant": "All real sigmas.", "anchors": ["src/chainconsumer/plotting/contours.py: _get_levels"]}
{"id": "C45", "title": "Cloud and walk thinning keeps aligned, evenly spaced samples", "statement": "A cloud shows every skip-th sample with the same row's x, y and colour, skip >= 1, between num_cloud and 2*num_cloud - 1 points when there are at least num_cloud rows and all rows otherwise; plot_walks thins similarly above 100000 points.", "quantifier": "all sample sizes and num_cloud", "why_tests_cant": "Integer division for all sizes.", "anchors": ["src/chainconsumer/plotting/contours.py: plot_cloud", "src/chainconsumer/plotter.py: plot_walks"]}
{"id": "C46", "title": "Truth lines are drawn on the axis of their parameter", "statement": "For every panel, a truth with a value for the panel's horizontal parameter draws a vertical line at it, with a value for the vertical parameter a horizontal line, with both and a marker set a single marker at that point; truths without values for the panel draw nothing; marginal distribution panels draw it across the parameter axis.", "quantifier": "all truths, panels and plot functions", "why_tests_cant": "All combinations of parameters.", "anchors": ["src/chainconsumer/plotting/truth.py: plot_truths", "src/chainconsumer/plotter.py: plot, plot_distributions, plot_walks, plot_summary"]}
{"id": "C47", "title": "Blinded parameters never get tick labels or summary text", "statement": "When a parameter is blinded, no axis in the triangle, distribution, summary or walk figures shows tick labels for it, no summary title is written for it; blind=True blinds every plotted column.", "quantifier": "all column lists, blind lists, configs (flip, plot_hists)", "why_tests_cant": "All layouts.", "anchors": ["src/chainconsumer/plotter.py: _get_triangle_figure, plot, plot_distributions, plot_summary, plot_walks, _sanitise_blinds"]}
{"id": "C48", "title": "Triangle layout: each unordered pair of parameters appears exactly once", "statement": "With histograms, the lower triangle contains each single parameter once on the diagonal and each unordered pair of distinct parameters exactly once off the diagonal, with axis limits equal to that parameter's extents; without histograms each unordered pair appears exactly once and no panel repeats a parameter against itself.", "quantifier": "all column lists without repetition", "why_tests_cant": "All sizes.", "anchors": ["src/chainconsumer/plotter.py: _get_triangle_figure, plot"]}
{"id": "C49", "title": "Legend entries match chains", "statement": "When the legend is shown it has exactly one handle per chain with show_label_in_legend, in order, with the chain's colour and name, and text i is coloured like chain i; by default it is shown iff more than one chain is plotted.", "quantifier": "all chain lists", "why_tests_cant": "All lists.", "anchors": ["src/chainconsumer/plotter.py: get_artists_from_chains, plot"]}
{"id": "C50", "title": "Axis extents cover every chain and respect user extents", "statement": "The extents used for a column are the user's if configured; otherwise the smallest interval containing each plotted chain's own extents for that column.", "quantifier": "all chains, columns, configs", "why_tests_cant": "All combinations.", "anchors": ["src/chainconsumer/plotter.py: _get_custom_extents, _get_parameter_extents"]}
{"id": "C51", "title": "Chain selection for output", "statement": "A figure or table uses exactly the requested chains in the requested order (all chains in insertion order by default), dropping only chains that have nothing to draw; an unknown name fails; get_summary by default also includes undrawn chains.", "quantifier": "all consumers and requests", "why_tests_cant": "All subsets.", "anchors": ["src/chainconsumer/plotter.py: Plotter._sanitise_chains", "src/chainconsumer/chain.py: Chain.skip"]}
{"id": "C52", "title": "Colour names resolve to hex codes", "statement": "A colour given to any chain is kept if it is a hex code, is the middle shade of its palette if it is a palette name (nine shades each, from light to dark), the shade of the colour it stands for if it is a short name, a hex code of the palette if it is another declared alias; resolving twice changes nothing, and unknown names are rejected with ValueError.", "quantifier": "all strings", "why_tests_cant": "All names and aliases.", "anchors": ["src/chainconsumer/color_finder.py: Colors.format"]}
{"id": "C53", "title": "Colour scaling keeps valid colours", "statement": "scale_colour on a valid colour and non-negative factor returns a valid '#rrggbb' colour whose channels are min(255, floor(channel*factor)); factor 1 is the identity; it is monotone in the factor.", "quantifier": "all colours and factors", "why_tests_cant": "All 2^24 colours, all factors.", "anchors": ["src/chainconsumer/color_finder.py: Colors.scale_colour, _clamp"]}
{"id": "C54", "title": "KDE evaluation", "statement": "A kernel density estimate has one non-negative value per target point, scales with the weights, and uses the kernel width set by the factor the user gave; the chain's kde setting controls the bandwidth in one and two dimensions.", "quantifier": "all samples, weights, targets, factors", "why_tests_cant": "All data; argument order mistakes are invisible in smoke tests.", "anchors": ["src/chainconsumer/kde.py: MegKDE", "src/chainconsumer/helpers.py: get_smoothed_histogram2d", "src/chainconsumer/analysis.py: _get_smoothed_histogram", "src/chainconsumer/plotting/contours.py: plot_dist"]}
{"id": "C55", "title": "Summary figure scales every parameter panel to its own tallest curve", "statement": "In plot_summary (not errorbar) every parameter panel gets a vertical range from 0 to 1.1 times the highest curve drawn for that parameter over all chains.", "quantifier": "all chains and columns", "why_tests_cant": "Off-by-one between name column and parameter columns.", "anchors": ["src/chainconsumer/plotter.py: plot_summary lines 612-677"]}
{"id": "C56", "title": "Walk figure rows", "statement": "plot_walks produces one row for the posterior if requested and any chain has one, one for weights if requested, then one per column in order; every row shows its own quantity for each chain that has it; log posterior is shown relative to its maximum (<= 0).", "quantifier": "all chains, flags", "why_tests_cant": "All flag combinations.", "anchors": ["src/chainconsumer/plotter.py: plot_walks"]}
{"id": "C57", "title": "Matplotlib rc parameters can be restored", "statement": "After any number of plots, restore_rc_params sets text.usetex and font.family back to their values when the consumer was created and touches nothing else; a config value of None never overrides the rc parameter.", "quantifier": "all sequences of plots and configs", "why_tests_cant": "Histories.", "anchors": ["src/chainconsumer/plotter.py: set_rc_params, restore_rc_params, Plotter.__init__"]}
{"id": "C58", "title": "Label and keyword merging", "statement": "get_label returns the configured label or the column name itself; legend and watermark keyword arguments given by the user override the defaults and all other defaults are kept.", "quantifier": "all configs", "why_tests_cant": "All dictionaries.", "anchors": ["src/chainconsumer/plotting/config.py: PlotConfig"]}
{"id": "C59", "title": "Bound arrays round trip", "statement": "Bound.from_array accepts exactly arrays of three elements and Bound.array returns them in the order lower, center, upper; all_none holds exactly when all are missing.", "quantifier": "all arrays", "why_tests_cant": "All lengths and missing patterns.", "anchors": ["src/chainconsumer/analysis.py: Bound"]}
{"id": "C60", "title": "Smoothing moves mass but creates and loses none", "statement": "Smoothing a one-dimensional marginal with a symmetric odd kernel of unit sum (the Gaussian filter with its mirrored boundary) leaves the total of the histogram unchanged, so the smoothed marginal describes the same total probability as the unsmoothed one.", "quantifier": "all histograms of any length, all symmetric unit-sum kernels of any radius, including radii larger than the histogram", "why_tests_cant": "The mirrored boundary folds several kernel taps onto one bin; conservation has to hold for every ratio of kernel radius to histogram length.", "anchors": ["src/chainconsumer/analysis.py: Analysis._get_smoothed_histogram"]}
{"id": "C61", "title": "A constructed chain holds what the caller gave", "statement": "Every setting passed to Chain(...) is held by the chain with the given value (a colour in its hexadecimal form) and is remembered as user-specified; every setting not passed has its documented default, the statistic being HDI for multimodal chains and maximum otherwise; the other fields are the given ones or their defaults; without shift_params the samples are the caller's cells, plus a last column of ones for the weights when there was none.", "quantifier": "all accepted constructions", "why_tests_cant": "There are 32 independent settings and arbitrary frames; a dropped or mixed-up field shows only for one combination.", "anchors": ["src/chainconsumer/chain.py: Chain._validate_model, ChainConfig"]}
{"id": "C62", "title": "The contour surface is the weighted two-dimensional histogram", "statement": "Without kernel density estimate, cell (i,j) of the surface behind a chain's contours is the (powered) weight of the samples in x bin i and y bin j; bin centres lie midway between edges, edges are those of the one-dimensional marginals, and smoothing does not change the total weight; with a kernel density estimate it is the estimate on an evenly spaced grid of twice the number of x bins on both axes.", "quantifier": "all chains, parameter pairs and sample values", "why_tests_cant": "Axis order and bin alignment show only for asymmetric data and unequal bin counts.", "anchors": ["src/chainconsumer/helpers.py: get_smoothed_histogram2d, get_bins, get_grid_bins"]}
{"id": "C63", "title": "A panel shows what each chain asks for, in order", "statement": "A contour panel shows, for each chain that has both parameters and in the order of the chains, a cloud iff plot_cloud, contours iff plot_contour and the maximum-posterior point iff plot_point, clouds below filled contours below lines below points; chains lacking a parameter draw nothing; there is one colour-bar entry per colour parameter, of the last cloud using it.", "quantifier": "all chain lists, settings and parameter pairs", "why_tests_cant": "All mixtures of settings over any number of chains.", "anchors": ["src/chainconsumer/plotting/contours.py: plot_surface, plot_cloud, plot_contour, plot_point"]}
{"id": "C64", "title": "Contour labels state the enclosed percentage", "statement": "With show_contour_labels every drawn level except zero is labelled with 100 times the level, rounded to the nearest percent below 99.1% and to the nearest tenth from there on; with sigma2d one and two sigma read 39% and 86%.", "quantifier": "all sigma lists", "why_tests_cant": "Rounding over real levels.", "anchors": ["src/chainconsumer/plotting/contours.py: plot_contour"]}
{"id": "C65", "title": "Figure size and saved files", "statement": "The figure has the size asked for (PAGE, COLUMN, GROW, a growth factor, an integer or a pair of inches), an inch wider where a colour bar is needed; one file is written per given name, at the configured resolution, and none if no name is given.", "quantifier": "all chains, columns and size and file arguments", "why_tests_cant": "Needs every size variant with any number of columns.", "anchors": ["src/chainconsumer/plotter.py: plot, FigSize, _save_fig"]}
{"id": "C66", "title": "Distribution panels show each chain's marginal and shaded interval", "statement": "A distribution panel shows for every contour chain that has the parameter, in order, its marginal (a curve if smoothed or KDE, otherwise a histogram) scaled by the chain's height, and, if shading is on and a summary exists, the shaded summary interval cut to the curve (or one shade per HDI band if multimodal); the density axis runs from 0 to 1.1 times the highest value drawn.", "quantifier": "all chains, columns, settings", "why_tests_cant": "All mixtures of settings over any number of chains.", "anchors": ["src/chainconsumer/plotter.py: _plot_bars, plot, plot_distributions"]}
{"id": "C67", "title": "One labelled colour bar per colour parameter", "statement": "The triangle figure has exactly one colour bar per parameter colouring the points of some plotted panel, labelled with the parameter's label, with weights, log weights and posterior spelled out.", "quantifier": "all chains and columns", "why_tests_cant": "All combinations of colour parameters over panels and chains.", "anchors": ["src/chainconsumer/plotter.py: plot"]}
{"id": "C68", "title": "Summary titles only for a single contour chain", "statement": "A diagonal panel carries a title exactly if summaries are on, exactly one plotted chain draws contours, the parameter is not blinded and that chain's summary has a text; the title is that text under the parameter's label; other panels carry none.", "quantifier": "all chains, columns, configs", "why_tests_cant": "All combinations.", "anchors": ["src/chainconsumer/plotter.py: plot, _plot_bars"]}
{"id": "C69", "title": "Convolved walks are windowed means", "statement": "With convolve=w the walk is overlaid with a line whose points are the means of the w neighbouring samples, one for every position at least half a window away from both ends.", "quantifier": "all walks and window sizes between 2 and the number of samples", "why_tests_cant": "Off-by-one of the trimmed borders for odd and even windows of any size.", "anchors": ["src/chainconsumer/plotter.py: _plot_walk"]}
{"id": "C70", "title": "The walk figure covers every sample", "statement": "The horizontal axis of the walk figure, shared by its rows, reaches from the first to the last drawn sample of every chain.", "quantifier": "all chains of any lengths", "why_tests_cant": "Needs chains of different lengths in any order.", "anchors": ["src/chainconsumer/plotter.py: plot_walks, _plot_walk"]}
{"id": "C71", "title": "Distribution figure: one labelled panel per parameter in reading order", "statement": "plot_distributions lays the plotted parameters out in reading order, col_wrap panels to a row (or all of them if fewer), one panel per parameter labelled with the parameter's label and without density ticks; the cells left over are switched off.", "quantifier": "all column lists and col_wrap values for which the call returns", "why_tests_cant": "All combinations of column count and wrap width.", "anchors": ["src/chainconsumer/plotter.py: plot_distributions"]}
{"id": "C72", "title": "Summary figure: one row per chain, one column per parameter", "statement": "plot_summary draws one row per chain, starting with the chain's name (in the chain's colour if the legend text is coloured, otherwise black), and one panel per parameter, whose label stands above the first row only. With error bars a panel shows the chain's summary as one bar from its lower to its upper end around its centre, and nothing if the chain lacks the parameter or the summary an end.", "quantifier": "all chains, columns and configurations", "why_tests_cant": "Every mixture of chains lacking parameters or summaries.", "anchors": ["src/chainconsumer/plotter.py: plot_summary"]}
{"id": "C73", "title": "Drawing is repeatable", "statement": "Drawing a figure does not influence later ones: whatever other figures are drawn, chains selected or resolved, chain objects built or rc parameters changed in between, the same drawing call gives the same figure (or fails with the same error) as long as no chain, override, truth or configuration is set in between.", "quantifier": "all sessions and all sequences of intermediate calls", "why_tests_cant": "Histories; hidden state in chains, colour iteration and config objects shows only after particular sequences.", "anchors": ["src/chainconsumer/plotter.py: Plotter", "src/chainconsumer/chainconsumer.py: ChainConsumer._get_final_chains"]}
{"id": "C75", "title": "Summaries follow a change of units", "statement": "Expressing a parameter in other units (every sample x replaced by a*x+b with a > 0) changes every reported bound of every statistic, and every band of a multimodal summary, in the same way, and nothing else: a missing bound stays missing, a failing summary fails in the same way.", "quantifier": "all chains, parameters with at least two distinct values, weights, settings and units", "why_tests_cant": "Absolute tolerances and sizes hidden in the algorithm show only for particular units.", "anchors": ["src/chainconsumer/analysis.py: get_parameter_summary, get_parameter_hdi_intervals, get_parameter_multimodal_bounds", "src/chainconsumer/helpers.py: get_extents"]}
{"id": "C76", "title": "Summaries depend only on the weighted distribution", "statement": "The summary is a function of the weighted distribution of the samples: reordering the rows, multiplying all weights by a positive number, or (with a given number of bins) splitting a sample into several that share its weight leaves every entry of get_summary unchanged, if no kernel density estimate is used or if the estimate itself is the same up to a factor.", "quantifier": "all chains, tables, statistics and requested columns", "why_tests_cant": "All orders and all ways to split weights.", "anchors": ["src/chainconsumer/analysis.py: get_summary, _get_smoothed_histogram", "src/chainconsumer/helpers.py: get_extents, get_grid_bins"]}
{"id": "C77", "title": "Truths accumulate and are drawn as given", "statement": "A Truth is refused exactly if its marker has an edge wider than 1 and is not one of matplotlib's filled markers. Figures are drawn with all accepted truths added before, in the order of the calls, whatever is called in between; lines and markers have the truth's own colour, style, width, size, opacity and layer, and filled markers its edge colour (its colour if it has none) and edge width.", "quantifier": "all histories of calls, truths and markers", "why_tests_cant": "All histories and all combinations of truth attributes.", "anchors": ["src/chainconsumer/truth.py: Truth", "src/chainconsumer/chainconsumer.py: ChainConsumer.add_truth", "src/chainconsumer/plotter.py: Plotter._add_truth"]}
{"id": "C74", "title": "plot_dist shows the marginal distribution of the chain", "statement": "plot_dist draws the distribution of one parameter: for unsmoothed chains the very bars of the figures, otherwise a line through the smoothed histogram or the density estimate, with the chain's own pen; its area is the chain's relative height (no density estimate); the summary interval, cut to the drawn range, is shaded one layer below exactly if the chain's shading is on and the summary has both ends; with a summary asked for the title gives the summary under the parameter's label.", "quantifier": "all chains, tables, parameters and settings", "why_tests_cant": "All data and all combinations of settings.", "anchors": ["src/chainconsumer/plotting/contours.py: plot_dist"]}
{"id": "C78", "title": "Contour bands get lighter outwards from the chain's colour", "statement": "The contours of a chain are drawn in shades of its colour, one per level for the filled bands and one for the lines: the bands get lighter from the inside out, the innermost no lighter and the outermost no darker than the chain's colour; without a gradient all bands have the chain's colour; every line is no lighter than the band inside it. Contours can be drawn in every accepted colour.", "quantifier": "all accepted colours, gradients and numbers of levels", "why_tests_cant": "All colours, gradients and numbers of levels.", "anchors": ["src/chainconsumer/plotting/contours.py: plot_contour, _scale_colours", "src/chainconsumer/color_finder.py: scale_colour"]}
{"id": "C79", "title": "Reported intervals are in order and within the data", "statement": "Whatever get_summary reports of a parameter, the lower end is not above the upper one and the centre lies between them (max_central: only the ends are in order; max: possibly only a centre), and all numbers lie within the range of the samples (for the highest density interval and the separate modes of a chain that is no grid: within a fifth of the range beyond it). A parameter with a single value has no summary.", "quantifier": "all sessions, chains, columns, statistics, weights and settings with an area in (0, 1]", "why_tests_cant": "All data; the interval finders work on padded and interpolated tables whose ends show only for particular shapes.", "anchors": ["src/chainconsumer/analysis.py: get_summary, get_parameter_summary, get_parameter_hdi_intervals, get_parameter_multimodal_bounds"]}
{"id": "C80", "title": "A larger area gives a larger interval", "statement": "Raising a chain's summary area never shrinks a reported interval: with the statistics max, mean, cumulative and max_central the new interval contains the old one (with the same centre but for mean), each separate mode lies within one of the new bands, and the highest density interval is not narrower.", "quantifier": "all sessions, chains, columns and pairs of areas in (0, 1] for which both intervals are given", "why_tests_cant": "All pairs of areas and all data; searches with tolerances.", "anchors": ["src/chainconsumer/analysis.py: get_parameter_summary_max, get_parameter_summary_mean, get_parameter_summary_cumulative, get_parameter_summary_max_central, get_parameter_summary_hdi, get_parameter_hdi_intervals"]}
{"id": "C81", "title": "Questions change nothing and have the same answer when repeated", "statement": "Summaries, tables, posterior maxima, model comparisons and convergence tests leave the added chains, the override, the truths, the configuration, the rc parameters and every existing object as they were. Asked again, after any other questions, drawings and selections, a question has the same answer (or the same error), and a figure drawn after questions is the one drawn without them.", "quantifier": "all sessions, all sequences of intermediate calls that add or configure nothing, all questions about existing chains", "why_tests_cant": "Histories: state hidden in chain objects or caches shows only after particular sequences.", "anchors": ["src/chainconsumer/analysis.py: Analysis", "src/chainconsumer/comparisons.py: Comparison", "src/chainconsumer/diagnostic.py: Diagnostic", "src/chainconsumer/plotter.py: _sanitise_chains"]}
{"id": "C82", "title": "Model comparison does not depend on normalisation, order or other models", "statement": "The AIC, BIC and DIC differences between two models are the same whatever other models are compared, in whatever order and under whatever names they were added, and when the same constant is added to all log posteriors (unnormalised posteriors). Further models raise all scores by one common amount, which is zero if the best model is an old one; the same models in the same order give the same comparison table.", "quantifier": "all pairs of sessions holding counterparts of the same models, all constants", "why_tests_cant": "All sets, orders and offsets.", "anchors": ["src/chainconsumer/comparisons.py: Comparison.aic, Comparison.bic, Comparison.dic, Comparison.comparison_table"]}
{"id": "C83", "title": "Contours depend only on the weighted points and follow a change of units", "statement": "The contours of a pair of parameters are a function of the weighted distribution of the points: expressing either parameter in other units moves the contours along and changes nothing else; reordering the rows, splitting a row into several that share its weight (with a given number of bins), or multiplying all weights by a positive number leaves levels, colours, styles and the credible regions shown unchanged, if no kernel density estimate is used or if the estimate follows the units itself.", "quantifier": "all chains, tables, pairs of parameters (with at least two distinct values where units change), settings and units", "why_tests_cant": "All data, orders and units; absolute constants hidden in the algorithm show only for particular units.", "anchors": ["src/chainconsumer/plotting/contours.py: plot_contour, _convert_to_stdev", "src/chainconsumer/helpers.py: get_smoothed_histogram2d"]}
{"id": "C84", "title": "Exchanging the two parameters mirrors the panel", "statement": "The panel of (y, x) is the mirror image of the panel of (x, y): the same points, contours, levels, colours, styles, layers and colour bars, with horizontal and vertical exchanged, showing the credible regions of the same density; and one can be drawn if and only if the other can.", "quantifier": "all lists of chains with their tables, all pairs of parameters, all settings", "why_tests_cant": "All data and settings; the axes are exchanged several times on the way to matplotlib, which square examples do not show.", "anchors": ["src/chainconsumer/plotting/contours.py: plot_surface, plot_contour, plot_cloud, plot_point, _convert_to_stdev", "src/chainconsumer/helpers.py: get_smoothed_histogram2d"]}
{"id": "C85", "title": "A keyword has its effect or is refused", "statement": "Every keyword given to Chain, ChainConfig or add_marker either has its documented effect or is refused by that very call: what a later figure or summary does never depends on a misspelt keyword.", "quantifier": "all sessions, keyword names and requests", "why_tests_cant": "All histories and all names that are not settings; the failure shows in a later, unrelated call.", "anchors": ["src/chainconsumer/base.py: BetterBase", "src/chainconsumer/chain.py: ChainConfig._apply_if_not_user_set, Chain", "src/chainconsumer/chainconsumer.py: ChainConsumer.set_override, ChainConsumer.add_marker, ChainConsumer._get_final_chains"]}
{"id": "C86", "title": "Forecast chains hold the drawn points under the given names", "statement": "Chain.from_covariance draws a million points from the given mean and covariance and holds them like Chain would: one row per point with weight one, the j-th name holding the j-th coordinate, all other arguments having the effect they have in Chain(...). Shapes that disagree or another number of names are a ValueError that changes nothing.", "quantifier": "all means, matrices, column names, keyword arguments and drawn values", "why_tests_cant": "The points are random and any number of dimensions is allowed; a test sees one draw.", "anchors": ["src/chainconsumer/chain.py: Chain.from_covariance"]}
{"id": "C87", "title": "The watermark runs along the diagonal and fits the figure", "statement": "A configured watermark is written over the middle of the figure (or of the axis it stands on), turned along the falling diagonal of the figure. Its font size is the greatest whole number for which the turned text takes no more than a fixed share (less than all) of the figure's width, so the text does not reach beyond any border of the figure.", "quantifier": "all sessions, figures, sizes, resolutions, configurations and texts whose extent grows in proportion to the font size", "why_tests_cant": "All proportions of figures and texts; a test sees a few, and nobody measures the rotated text.", "anchors": ["src/chainconsumer/plotting/watermark.py: add_watermark", "src/chainconsumer/plotter.py: Plotter.plot, Plotter.plot_walks, Plotter.plot_distributions, Plotter.plot_summary"]}
{"id": "C88", "title": "Colours drawn from a colour map", "statement": "get_colormap gives as many colours as asked for. They are the colour map's at positions going evenly from 0.05 to 0.9, each multiplied by a factor that goes evenly from one at either end to the scale in the middle: valid colours, no lighter than the colour map's for a scale up to one, the first and the last unchanged.", "quantifier": "all colour maps, numbers of colours and scales", "why_tests_cant": "All colour maps, numbers and scales; the function has no test.", "anchors": ["src/chainconsumer/color_finder.py: Colors.get_colormap, Colors.scale_colour"]}
{"id": "C89", "title": "Example samples", "statement": "make_sample returns the asked for number of points of a normal distribution with a proper correlation matrix (symmetric, ones on the diagonal, no negative variance) and means 0, 5, 10, ... (moved by at most one if asked for), one column per parameter named by the letters of the alphabet, and the logarithm of the density of each point under log_posterior.", "quantifier": "all numbers of points, up to 26 parameters, all random draws", "why_tests_cant": "The matrix and the points are random; a test sees one draw.", "anchors": ["src/chainconsumer/examples.py: make_sample"]}
{"id": "C90", "title": "The latest override and the latest plotting configuration count", "statement": "In any session the settings of the chains used for output follow the override that was set last and figures use the plotting configuration that was set last (the default one if none was); earlier ones have no effect any more, and no other call sets, keeps or removes one.", "quantifier": "all histories of calls on a consumer", "why_tests_cant": "Histories of any length; an override that is merged with or hidden by an earlier one shows only after particular sequences.", "anchors": ["src/chainconsumer/chainconsumer.py: ChainConsumer.set_override, ChainConsumer.set_plot_config, ChainConsumer._get_final_chains", "src/chainconsumer/plotter.py: Plotter.set_config, Plotter.config"]}
{"id": "C91", "title": "Texts and tables do not depend on how the samples are written down", "statement": "The text of a parameter and the LaTeX table of parameters are functions of the weighted distribution of the samples: chains holding the same weighted samples (rows in another order, weights multiplied by a positive number, a row split into several that share its weight with a given number of bins) give the same string, character by character, or the same exception. Shuffling the rows of every table of a session leaves every table as it was.", "quantifier": "all sessions, requests, options, tables and orders of rows (kernel density estimates that do not depend on the order)", "why_tests_cant": "All data and all orders; rounding of printed digits could show differences that a comparison of numbers within a tolerance hides.", "anchors": ["src/chainconsumer/analysis.py: get_latex_table, get_parameter_text, _format_single_bound, get_summary"]}
{"id": "C92", "title": "Assigning an attribute later has the effect of having given it", "statement": "Assigning a setting to a chain object (chain.linewidth = 5), before or after it was added, makes all later figures and summaries use the value assigned last, unless the override has a value for the setting; likewise for an attribute of the override in use. A renamed chain is known by its new name. Assignments change nothing but the object assigned to.", "quantifier": "all sessions interleaved with assignments, all chains, settings and values", "why_tests_cant": "Histories of calls and assignments through shared references; which settings survive depends on how the object was made.", "anchors": ["src/chainconsumer/base.py: BetterBase", "src/chainconsumer/chain.py: ChainConfig._apply_if_not_user_set, ChainConfig._apply", "src/chainconsumer/chainconsumer.py: ChainConsumer.add_chain, ChainConsumer.set_override, ChainConsumer._get_final_chains, ChainConsumer.remove_chain"]}
{"id": "C93", "title": "Covariances and correlations depend only on the weighted samples", "statement": "The covariances and correlations of a chain are functions of its weighted samples: writing the rows in another order, or writing a row as two rows with the same values that share its weight, leaves both matrices unchanged.", "quantifier": "all chains, tables with positive weights and at least two rows, lists of columns, orders and splits", "why_tests_cant": "All data and all orders and splits; a normalisation by weights shows only for unequal weights.", "anchors": ["src/chainconsumer/chain.py: Chain.get_covariance, Chain.get_correlation"]}
{"id": "C94", "title": "Kernel density estimates depend only on the weighted samples", "statement": "With a kernel density estimate switched on, the estimate exists for every chain with at least two different values, and its values are a function of the weighted samples: they are the same for the rows in another order and, up to a common factor, for a row written as two rows that share its weight.", "quantifier": "all data, weights, orders, splits, targets and settings, all neighbour searches that find nearest points", "why_tests_cant": "All data and orders; ties and sparse targets take another path than the usual one.", "anchors": ["src/chainconsumer/kde.py: MegKDE", "src/chainconsumer/analysis.py: _get_smoothed_histogram", "src/chainconsumer/helpers.py: get_smoothed_histogram2d"]}
{"id": "C95", "title": "Automatic axis ranges depend only on the weighted samples and follow a change of units", "statement": "Where no range is configured for a parameter, the axis range chosen by plot, plot_distributions, plot_summary and plot_walks is a function of the weighted samples of the chains shown: expressing the parameter in other units moves both ends of the range along with the samples; reordering the rows, splitting a row into several that share its weight, or multiplying the weights by a positive number leaves it as it was. All panels of the parameter in all four kinds of figure obey this, whichever other parameters are shown.", "quantifier": "all pairs of sessions showing counterparts of the same chains, all parameters with at least two values (any, if only zero is moved), all units", "why_tests_cant": "All data, orders and units; an absolute constant in the search for the range shows only in particular units.", "anchors": ["src/chainconsumer/plotter.py: Plotter._get_parameter_extents, Plotter._get_custom_extents", "src/chainconsumer/helpers.py: get_extents", "src/chainconsumer/plotter.py: Plotter.plot, Plotter.plot_distributions, Plotter.plot_summary, Plotter.plot_walks"]}
{"id": "C96", "title": "A summary reports what the chosen statistic means", "statement": "For any chain and any parameter with at least two values, the numbers in get_summary are those that the chain's statistic names, read off the density curve of the weighted samples with the chain's settings (bins, smoothing, power, kernel density estimate): quantiles around the median for 'cumulative' and 'mean', around the highest point for 'max_central', the stretch around the highest point holding the wanted area for 'max', the narrowest window holding the wanted area for 'hdi'; and for a multimodal chain with two or more separate parts above the level of the wanted area one bound for each part with its ends and its highest point.", "quantifier": "all sessions without shift_params, chains, settings, statistics, areas in (0, 1], tables with positive weights", "why_tests_cant": "All samples and combinations of settings; the path from a setting to the number goes through half a dozen functions and tests look at single ones with fixed data.", "anchors": ["src/chainconsumer/analysis.py: get_summary, get_parameter_summary, get_parameter_hdi_intervals, get_parameter_multimodal_bounds, _get_smoothed_histogram"]}
{"id": "C98", "title": "A call that fails has no lasting effect", "statement": "A call that raises an exception (adding a chain under a taken name, removing or asking for an unknown one, an invalid marker or truth, a figure or a table that cannot be made) leaves the session as it was: the same chains, override, truths, configuration, objects and matplotlib parameters; every later question is answered and every later figure drawn as if the call had not been made.", "quantifier": "all sessions and all sequences of failing calls, mixed with questions and drawings", "why_tests_cant": "All histories and all ways of failing; a half-made change shows only in a later call.", "anchors": ["src/chainconsumer/chainconsumer.py: ChainConsumer.add_chain, ChainConsumer.remove_chain, ChainConsumer.add_marker, ChainConsumer.add_truth", "src/chainconsumer/plotter.py: Plotter.plot, Plotter.plot_walks, Plotter.plot_distributions, Plotter.plot_summary, Plotter._sanitise, Plotter.set_rc_params", "src/chainconsumer/analysis.py: get_summary, get_latex_table"]}
{"id": "C99", "title": "Consumers in one process do not influence each other", "statement": "Several ChainConsumer objects may share chain objects and DataFrames. Whatever is done with one of them (chains added and removed, overrides, truths, configurations, figures, questions) every other one keeps its chains, override, truths and configuration, gives the same answers and draws the same figures. Each of them can restore the matplotlib parameters that held before any figure was drawn.", "quantifier": "all interleavings of calls on any number of consumers", "why_tests_cant": "All interleavings; state shared by accident (module level, default arguments, rcParams) shows only with several consumers.", "anchors": ["src/chainconsumer/chainconsumer.py: ChainConsumer", "src/chainconsumer/plotter.py: Plotter.__init__, Plotter.set_rc_params, Plotter.restore_rc_params"]}
{"id": "C97", "title": "What is reported and drawn about a chain does not depend on the other chains", "statement": "Adding other chains to a consumer changes nothing about a chain: the summary reports the same parameters with the same bounds, tables, best points and convergence tests asked for by name are the same, and a figure shows for it the same contours, points, distributions, error bars, walks and styles. Only colours and shading, which are chosen for all chains together, may differ, unless they were given. A figure of several chains shows what the figures of the single chains show, one after the other.", "quantifier": "all pairs of sessions that hold the same chain beside any other chains; all parameters, columns, questions and panels", "why_tests_cant": "All possible companies of a chain; a dependence through shared column lists, automatic settings or loop state shows only for particular companies.", "anchors": ["src/chainconsumer/analysis.py: Analysis.get_summary, Analysis.get_max_posteriors, Analysis.get_correlation_table", "src/chainconsumer/plotter.py: Plotter.plot, Plotter._sanitise_columns", "src/chainconsumer/chainconsumer.py: ChainConsumer._get_final_chains", "src/chainconsumer/plotting/contours.py: plot_surface"]}
{"id": "C100", "title": "An override is as good as giving the settings to every chain", "statement": "Setting an override with some settings has the same effect as creating every chain with these settings: every figure is the same, every summary and every table too, for all chains or for chains asked for by name. It makes no difference for any other setting, and none for the chains themselves.", "quantifier": "all sessions with an override, all ways of building the second session with the settings written into each chain, all figures and summaries", "why_tests_cant": "All combinations of the 32 settings and of automatic settings that depend on each other (number of chains with contours, colours handed out in turn).", "anchors": ["src/chainconsumer/chainconsumer.py: ChainConsumer.set_override, ChainConsumer._get_final_chains", "src/chainconsumer/chain.py: ChainConfig._apply_if_not_user_set, ChainConfig._apply", "src/chainconsumer/analysis.py: Analysis.get_summary"]}
{"id": "C101", "title": "The walkers of a sampler can be looked at one by one", "statement": "A chain imported from a sampler with several walkers (Chain.from_emcee, from_numpyro, from_arviz), given their number as walkers, holds every kept draw of every walker exactly once, and divide() gives the walkers: the k-th chain holds the draws of the k-th walker, in order, for every parameter asked for. Thinning and discarding keep exactly the documented steps.", "quantifier": "all samplers with any number of walkers, steps, variables, thinning and discarding, all selections of variables, all later states", "why_tests_cant": "All shapes of samplers; the importers are tested for the number of rows only, which is the same whichever order the rows are in.", "anchors": ["src/chainconsumer/chain.py: Chain.from_emcee, Chain.from_numpyro, Chain.from_arviz, Chain.divide", "src/chainconsumer/diagnostic.py: Diagnostic.gelman_rubin"]}
{"id": "C102", "title": "A figure of a parameter that no chain has is refused", "statement": "Asking plot, plot_distributions, plot_summary or plot_walks for a column that none of the chains shown has (a misspelt name, a parameter of a chain that was removed) raises; no figure with an empty panel comes back and no file is written.", "quantifier": "all sessions, requests for chains and columns, configurations, positions of the unknown name among the columns", "why_tests_cant": "All combinations of chains, columns, configured ranges and kinds of chain (contours, points, best points only); tests name columns that exist.", "anchors": ["src/chainconsumer/plotter.py: Plotter.plot, Plotter.plot_distributions, Plotter.plot_summary, Plotter.plot_walks, Plotter._get_parameter_extents, Plotter._get_custom_extents"]}
{"id": "C103", "title": "What is left out of a comparison is announced with the reason", "statement": "aic, bic, dic and comparison_table leave out chains for which something is missing and get_max_posteriors those without a posterior. Each chain left out is announced by exactly one warning that names the chain and exactly the fields it lacks, in the order of registration; chains that are scored cause no warning.", "quantifier": "all sessions, all combinations of missing fields, all requests", "why_tests_cant": "All combinations of chains and missing fields; tests look at the scores and not at the log.", "anchors": ["src/chainconsumer/comparisons.py: Comparison.aic, Comparison.bic, Comparison.dic, Comparison.comparison_table", "src/chainconsumer/chain.py: Chain.max_posterior_row", "src/chainconsumer/analysis.py: Analysis.get_max_posteriors"]}
{"id": "C104", "title": "Parameters without an interval are announced", "statement": "get_summary, get_parameter_summary and get_latex_table announce, in order, with exactly one warning each that names the parameter and the chain, the parameters for which no interval could be found; a parameter with an interval causes no warning, whatever the statistic.", "quantifier": "all sessions, all chains, columns, statistics and areas", "why_tests_cant": "Whether the search converges depends on the samples; tests do not look at the log.", "anchors": ["src/chainconsumer/analysis.py: Analysis.get_parameter_summary_max, Analysis.get_parameter_summary, Analysis.get_summary, Analysis.get_latex_table"]}
{"id": "C105", "title": "The diagnostics log each verdict with its number", "statement": "gelman_rubin logs for every chain asked for, in order, a heading with its name and one line per parameter with the ratio to five decimals and whether it passed, and the chain passes exactly if no line reports a failure; geweke logs one line per chain with the p-value that decides. A chain that cannot be tested logs nothing, and what earlier chains logged stays. Logging changes no result.", "quantifier": "all sessions, requests, numbers of walkers, steps and parameters, thresholds, windows", "why_tests_cant": "All data and requests, including walkers without variance and single steps; tests look at the result and not at the log.", "anchors": ["src/chainconsumer/diagnostic.py: Diagnostic.gelman_rubin, Diagnostic.geweke"]}
{"id": "C106", "title": "Figures depend only on the weighted samples", "statement": "plot_distributions and plot_summary draw the same figure (curves, bars, shaded intervals, titles, error bars, axis limits, legend, files) or raise the same exception for tables that hold the same weighted samples: rows in another order, a row split into several that share its weight (with a given number of bins), all weights multiplied by a factor. Chains drawn as their best point only are supposed to have the same best point.", "quantifier": "all sessions, chains, tables, requests, columns, configurations, sizes", "why_tests_cant": "All tables and all their reorderings; tests compare figures by eye or by single pixels.", "anchors": ["src/chainconsumer/plotter.py: Plotter.plot_distributions, Plotter.plot_summary, Plotter._plot_bars, Plotter._get_parameter_extents"]}
{"id": "C107", "title": "The triangle depends only on the weighted samples", "statement": "plot draws the same triangle (frames, labels, limits, distributions with their shaded intervals and titles, truths, legend, files) and on each panel contours of the same credible regions of the same density, in the same places, colours and styles, or raises the same exception, for tables that hold the same weighted points, in particular for the same rows in another order. Chains drawn as a cloud of points are supposed to keep their table (which points are drawn depends on the row), chains drawn with their best point to keep that point.", "quantifier": "all sessions, chains, tables, requests, columns, configurations, sizes; all ways of sorting equally dense cells", "why_tests_cant": "All tables and all their reorderings, ties in the density included; tests compare figures by eye or by single pixels.", "anchors": ["src/chainconsumer/plotter.py: Plotter.plot, Plotter._get_triangle_figure, Plotter._plot_bars", "src/chainconsumer/plotting/contours.py: plot_surface, plot_contour, _convert_to_stdev"]}
{"id": "C108", "title": "Distributions drawn without an interval are announced", "statement": "plot, plot_distributions and plot_summary announce, panel by panel and chain by chain, with exactly one warning each that names the parameter and the chain, the distributions whose interval is to be shaded but could not be found (with error bars: every parameter without one); a distribution with an interval, or that is not to be shaded, causes no warning. plot_dist does the same for its parameter. Logging changes no figure.", "quantifier": "all sessions, chains, requests, columns, configurations, statistics and areas", "why_tests_cant": "Whether the search converges depends on the samples; tests look neither at the log nor at which panels are shaded.", "anchors": ["src/chainconsumer/plotter.py: Plotter.plot, Plotter.plot_distributions, Plotter.plot_summary, Plotter._plot_bars", "src/chainconsumer/plotting/contours.py: plot_dist", "src/chainconsumer/analysis.py: Analysis.get_parameter_summary_max"]}
{"id": "C109", "title": "What is not set has its documented value", "statement": "A chain created without a setting has the documented value for it (area 0.6827, sigmas 0, 1 and 2, statistic 'max', or 'hdi' if multimodal, and so on for all 26), whichever other settings were given. A consumer without a plot configuration draws exactly what it would draw if every documented value had been given explicitly: sans-serif fonts, no LaTeX, no watermark, files with 300 dots per inch.", "quantifier": "all chains with any subset of settings given, all sessions without a configuration, all figures", "why_tests_cant": "All subsets of settings; a default that depends on another setting shows only for particular combinations.", "anchors": ["src/chainconsumer/chain.py: ChainConfig, Chain._validate_model", "src/chainconsumer/plotting/config.py: PlotConfig", "src/chainconsumer/plotter.py: Plotter.config"]}
{"id": "C110", "title": "Smoothed walks for every window", "statement": "With convolve set, the smoothed line of a walk stays between any bounds on the values of that walk, whatever the window. A window of no samples, or fewer, draws no walk at all; a walk shorter than an even window gets an empty line and the call raises if a walk is shorter than an odd window. A window of one sample shows the walk itself.", "quantifier": "all sessions, chains, requests, columns, configurations; all integer windows", "why_tests_cant": "All windows against all lengths; the repository's tests use one window that fits.", "anchors": ["src/chainconsumer/plotter.py: Plotter.plot_walks, Plotter._plot_walk"]}
{"id": "C111", "title": "A truth can be given as a dictionary or a Series", "statement": "Truth(location=...) accepts a dictionary, or a pandas Series, exactly if its keys are texts and its values stand for numbers (and the marker may have the edge asked for); the truth then has these numbers under these names, in this order, and everything else as given. Anything else is refused with a ValidationError.", "quantifier": "all dictionaries, Series, keys and values, all other arguments of Truth", "why_tests_cant": "All keys and values; the tests never build a Truth from a Series, so they cannot notice that the conversion is never reached.", "anchors": ["src/chainconsumer/truth.py: Truth, Truth._ensure_dict, Truth.validate_model"]}
{"id": "C112", "title": "Settings of appearance leave the data alone", "statement": "Labels, ticks, logarithmic axes, blinding, summary titles, legend, fonts, spacing, watermark and resolution of the plot configuration change neither the size of a figure nor any range, curve, bar, shaded interval, contour, cloud, point, truth, error bar, walk, colour bar or file name: two figures of the same chains and truths drawn with configurations that agree on the ranges (for plot also on histograms, flip and sigma2d) show the same data on every axis in the same order. Fonts, watermark and resolution alone also change no tick, label, title or legend and no exception.", "quantifier": "all sessions, chains, truths, requests, pairs of configurations, the four kinds of figure", "why_tests_cant": "All pairs of configurations; image tests use a handful of fixed ones and never compare the data of two figures.", "anchors": ["src/chainconsumer/plotter.py: Plotter.plot, Plotter.plot_walks, Plotter.plot_distributions, Plotter.plot_summary, Plotter._get_triangle_figure, Plotter._plot_bars, Plotter._plot_walk", "src/chainconsumer/plotting/config.py: PlotConfig"]}
{"id": "C113", "title": "Truths change nothing but their own lines and markers", "statement": "Two sessions with the same chains and plot configuration that differ in their truths (any number, any locations, also far outside the ranges) draw every figure alike: same size, ranges, curves, contours, ticks, labels, titles, legend, colour bars, watermark and files, apart from the lines and markers of the truths, and where one raises the other raises the same exception. No range set on an axis depends on the truths.", "quantifier": "all sessions, chains, pairs of truth lists, requests, the four kinds of figure", "why_tests_cant": "All pairs of truth lists; tests only look at whether an image is produced, not whether something else moved.", "anchors": ["src/chainconsumer/plotter.py: Plotter.plot, Plotter.plot_walks, Plotter.plot_distributions, Plotter.plot_summary", "src/chainconsumer/plotting/truth.py: plot_truths, plot_truth"]}
{"id": "C114", "title": "Drawn distributions follow a change of units", "statement": "Give one parameter in other units (metres in centimetres, degrees from another zero): in the distributions figure, on the diagonal of the triangle and in a summary figure its curves, bar charts and shaded intervals keep their shape. Positions follow the change of units, all heights have one common factor (the inverse of the factor of the units, to the chain's power), and the height of the axis has the same factor. Without density estimates, and if the size of the units changes, for summaries that are not narrowest intervals or for unshaded curves.", "quantifier": "all sessions, chains, weights, positive factors, offsets, numbers of bins, directions of drawing", "why_tests_cant": "All changes of units of all samples; an image of a distribution in other units is not compared with anything.", "anchors": ["src/chainconsumer/plotter.py: Plotter.plot, Plotter.plot_distributions, Plotter.plot_summary", "src/chainconsumer/plotter.py: Plotter._plot_bars", "src/chainconsumer/helpers.py: get_bins, get_smoothed_bins"]}
{"id": "C115", "title": "What is shown of a parameter does not depend on the other parameters asked for", "statement": "Ask for figures of the same chains with two different lists of parameters, in any order. Every parameter (in the triangle every pair in the same order) that is in both lists is shown alike in both: the panel of the distributions figure and the row of the walks figure receive the same drawing calls, the panel of a summary figure too (with curves apart from the vertical range), and the panels of the triangle show the same data in the same ranges, whatever their places. The diagonal of the triangle is covered without flip. Not covered: the horizontal range that all rows of a walks figure share.", "quantifier": "all sessions, chains, requests, pairs of parameter lists, layouts, the four kinds of figure", "why_tests_cant": "All pairs of parameter lists; tests draw one fixed list and compare nothing.", "anchors": ["src/chainconsumer/plotter.py: Plotter.plot, Plotter.plot_walks, Plotter.plot_distributions, Plotter.plot_summary, Plotter._sanitise, Plotter._get_custom_extents, Plotter._sanitise_blinds"]}
{"id": "C116", "title": "What is reported of a parameter does not depend on the other parameters asked for", "statement": "Summaries of the same chains for two lists of parameters agree on every chain and every parameter that is in both; what the summary of all parameters says of a parameter is also said when it is asked for by name. Covariance and correlation matrices of a chain for two lists of parameters agree on every pair that is in both, wherever it stands and also if one of them has a single parameter. In LaTeX tables there is one text for each chain and parameter, the same in every table whatever parameters it has and whichever way it is written.", "quantifier": "all sessions, chains, requests, pairs of parameter lists, blinding and labels, captions without a percent sign", "why_tests_cant": "All pairs of parameter lists; tests ask for one fixed list and compare nothing.", "anchors": ["src/chainconsumer/analysis.py: Analysis.get_summary, Analysis.get_latex_table", "src/chainconsumer/chain.py: Chain.get_covariance, Chain.get_correlation"]}
{"id": "C117", "title": "Drawn walks follow a change of units", "statement": "If the values of a parameter are written in other units (any factor and any zero), the row of this parameter in the walk figure has the same walks with every value in the other units: the same samples are kept when thinning, in the same order and colour, and every point of a smoothed line stays at its step and has its value in the other units. Configuration, truths and the other parameters may differ.", "quantifier": "all sessions, chains, factors and zeros, numbers of samples, thresholds for thinning and windows", "why_tests_cant": "All units, lengths and windows; tests draw one walk in one unit.", "anchors": ["src/chainconsumer/plotter.py: Plotter.plot_walks, Plotter._plot_walk"]}
{"id": "C118", "title": "A more lenient threshold, or fewer chains, never turns a pass into a failure", "statement": "Allowing R-hat a larger deviation in Gelman-Rubin, or asking for a smaller p-value in Geweke, gives an answer about the same chains in the same order, raises the same exception if any, and whatever passed still passes. Asking for some of the chains only, in any order, returns if the call for all of them does, and passes if that one does. With a threshold of zero or less no chain with a parameter passes Gelman-Rubin.", "quantifier": "all sessions, requests, pairs of thresholds, lists of chains, and all behaviours of the autoregressive fit and of the normality test", "why_tests_cant": "All pairs of thresholds and all selections of chains; tests use the default threshold on one chain.", "anchors": ["src/chainconsumer/diagnostic.py: Diagnostic.gelman_rubin, Diagnostic.geweke"]}
{"id": "C119", "title": "A better fit improves the score of a model and more parameters worsen it", "statement": "Of two models in one comparison, one that reaches a log posterior at least as high, with no more free parameters and no fewer data points, has no larger AIC, and a smaller one if it fits better or has fewer parameters. For the same number of data points the same holds for the BIC, in which each further parameter has to gain half the logarithm of the number of data points in the log posterior. For the AIC every model needs more data points than parameters plus one: with fewer, the correction turns into a reward for parameters.", "quantifier": "all sessions, pairs of scored chains, numbers of parameters and data points, posteriors", "why_tests_cant": "All pairs of models; tests compare the scores of fixed models with fixed numbers.", "anchors": ["src/chainconsumer/comparisons.py: Comparison.aic, Comparison.bic"]}
