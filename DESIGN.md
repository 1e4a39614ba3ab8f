# Formal model of ChainConsumer in Rocq (Coq 8.16.1)

The model is a shallow, function-by-function transcription of `/repo/src/chainconsumer`.
Exceptions are values (`res A := Ok a | Err e`), Python dicts are insertion-ordered
association lists, objects with identity (chains, data frames, the user's own tables) live in an
explicit heap, numpy/pandas primitives are written out as list functions, and plotting functions
return the list of drawing commands they issue. No theorem is bounded in the number of chains,
samples, columns, levels or calls.

## Layout (`rocq/theories`)

For each area `X`: `XModel.v` (definitions only, each citing the file and lines it models),
`XSpec.v` (a small independent specification vocabulary; no reference to the model's helpers),
`XProofs.v` (lemmas), `XProps.v` (the property theorems, each with `Print Assumptions` and a
non-vacuity `Example`). Where the code does not have a property, a theorem `Cnn_..._refuted`
exhibits an input on which it fails and `Cnn_..._partial` says what holds instead.

| area | models | properties |
|---|---|---|
| Py | exceptions, ordered dicts, slices | (vocabulary) |
| Num | numpy over Q: sum, cumsum, linspace, interp, searchsorted, argmax, histogram | used by C19-C31, C60 |
| Frame, Config, Chain | pandas frames, settings, chain.py | C06-C12, C17, C18, C61 |
| Registry | chainconsumer.py, base.py; heap of objects; `_get_final_chains` | C01-C05, C13, C14, C51 |
| Cov | chain.py covariance and correlation | C15, C16 |
| Helpers, Marginal | helpers.py, numeric part of analysis.py | C19-C31, C60 |
| Bound | analysis.py `Bound` | C59 |
| Text, Format, Analysis | text and LaTeX output of analysis.py | C32-C36 |
| Compare | comparisons.py | C37-C39 |
| Diag | diagnostic.py | C40-C42 |
| Surface, Shade | plotting/contours.py but `plot_dist` | C43-C45, C62-C64, C78 |
| PlotDist | plotting/contours.py `plot_dist` | C74 |
| Figure | plotter.py, plotting/truth.py, plotting/config.py, plotting/watermark.py, truth.py | C46-C51, C55-C58, C65-C73, C77 |
| Color, Palette | color_finder.py | C04, C52, C53 |
| Kde | kde.py and its call sites (over R) | C54 |
| Equiv | no new code: invariance of the summaries | C75, C76 |
| Report, Growth | no new code: shape of the reported intervals | C79, C80 |
| Query | no new code: the analysis calls of a whole session | C81 |
| Offset | no new code: comparison scores under a change of the model set | C82 |
| Planar | no new code: contours under a change of units and of the rows | C83 |
| Mirror | no new code: panels with the two parameters exchanged | C84 |
| Keyword | base.py, chain.py `_apply_if_not_user_set`: keywords that are not settings | C85 |
| Forecast | chain.py `from_covariance`, `vec_coordinate` | C86, C12 |
| Watermark | plotting/watermark.py: position, rotation, font size | C87 |
| Colormap | color_finder.py `get_colormap` | C88 |
| Sample | examples.py | C89 |
| History | chainconsumer.py, plotter.py: what was set last | C90 |
| TextEquiv | analysis.py: texts and tables of equal samples | C91 |
| Assign | base.py, chain.py, chainconsumer.py: attribute assignment on existing objects | C92 |
| CovEquiv | chain.py: covariance and correlation of equal samples | C93 |
| KdeOrder | kde.py: estimates of equal samples | C94 |
| AxisEquiv | plotter.py: automatic axis ranges of equal samples | C95 |
| Meaning | analysis.py: from the settings of a chain to the numbers of its summary | C96 |
| Alone, Company | analysis.py, plotter.py, contours.py: one chain in different companies | C97 |
| Override | chainconsumer.py: overrides against settings given to every chain | C100 |
| Unknown | plotter.py: the four figures asked for an unknown column | C102 |
| Warn | comparisons.py, chain.py: the warnings logged | C103 |
| Note | analysis.py: the warnings about unconstrained parameters | C104 |
| Verdict | diagnostic.py: what is logged | C105 |
| FigEquiv, TriEquiv | no new code: distributions, summaries and triangles of equal samples | C106, C107 |
| NoteFig | plotter.py plot, plot_distributions, plot_summary, _plot_bars, contours.py plot_dist: the warnings they log | C108 |
| Defaults | no new code: chain.py ChainConfig and plotting/config.py, the documented values | C109 |
| Window | no new code: plotter.py 1046-1051 for windows of every size | C110 |
| Truth | truth.py 13-53: building a Truth from its arguments, pydantic's validation of the location included | C111 |
| Cosmetic | no new code: the figures of two configurations compared | C112 |
| TruthFig | no new code: the figures of two lists of truths compared | C113 |
| UnitFig | no new code: the distributions drawn in two systems of units compared | C114 |
| Columns | no new code: figures of the same chains with two lists of parameters compared | C115 |
| Among | no new code: summaries, matrices and tables for two lists of parameters compared | C116 |
| WalkUnit | no new code: the walks drawn in two systems of units compared | C117 |
| Lenient | no new code: diagnostics at two thresholds, and for fewer chains, compared | C118 |
| Penalty | no new code: comparison scores of two models related to fit, parameters and data | C119 |
| Walkers | chain.py: from_emcee, from_numpyro, from_arviz applied to samplers | C101 |
| Process | chainconsumer.py, plotter.py: calls that raise; several consumers in one process | C98, C99 |

## Trusted base

1. Coq's kernel (coqc 8.16.1; `vm_compute` is used for closed examples) and the standard-library axioms
   listed per theorem at the end of this file. No axiom, parameter, section-less variable, admitted proof
   or other library is used.
2. That the transcription is faithful. The code was read, not run. Every definition of a `*Model.v` file
   cites the lines it transcribes and states its simplifications.
3. Numbers. Floats are exact rationals (Q), or reals (R) where `sqrt`, `log`, `exp` or a real power occur.
   Rounding, overflow and signed zeros are not modelled. NaN and the infinities are modelled as values of a
   table cell (`cell := Fin q | NaN | PInf | NInf`) for everything that validates or copies tables; numeric
   code works on finite values.
4. Oracles: what the code takes from elsewhere is an explicit argument of the model, so every theorem holds
   for all its values unless the statement has a hypothesis about it.
   * `numerics`: the literals of the code, generalised so that the theorems hold for all their values and
     examples stay small: `n_bins` (2000, helpers.py:19), `n_points` (10000, analysis.py:342), `n_kde` (200,
     analysis.py:350), `n_pad` (1000, analysis.py:649), `n_tries` (50, analysis.py:669); and external functions:
     `n_power p h` (`h ** p`; C75 and C76 suppose it positive and multiplicative), `n_kernel` (taps of scipy's
     Gaussian filter; where needed the hypothesis "nonnegative, symmetric, sums to 1"), `n_megkde` (density
     estimate at a point; KdeModel models the estimator itself, over R, for C54).
   * `backend`: `bk_kde2` (two-dimensional estimate), `bk_argsort` (any permutation that sorts; all tie
     orders), `bk_Phi` (normal distribution function), `bk_filled` (which markers can be filled),
     `bk_offset` and `bk_log10` (tick label offset, decade test), `bk_max_points` (the literal 100000 of
     `plot_walks`), `bk_text_width` (`_get_size_of_texts`).
   * The nearest-neighbour query of `kde.py` (`scipy.spatial.KDTree.query`), with the specification
     `finds_nearest`; an implementation is exhibited.
   * `plot_dist`: its density estimate, number of points and Python's `str` of the centre.
   * Diagnostics: statsmodels' Yule-Walker fit and the p-value of scipy's normality test.
   * Comparison: the number of data points and free parameters are the chain's own fields.
5. pandas, numpy, pydantic and matplotlib follow their documented semantics at the pinned versions; the
   clauses used are written out (e.g. duplicate column names, label lookup, `argmax` on ties, `zip` cut-off).

## What is modelled, file by file

| file | modelled | not modelled |
|---|---|---|
| analysis.py | all functions, warnings about posteriors and unconstrained parameters (Warn, Note) | log levels |
| base.py | which settings the user gave; unknown keywords, which pydantic accepts and remembers (Keyword) | pydantic's type coercion |
| chain.py | settings, validators, columns, shift, divide, maximum posterior, covariance, correlation, `_filter_var_names`, `from_emcee`, `from_numpyro` (table built from the sampler's arrays), `from_arviz` (scalar variables; Walkers) | the random numbers of `from_covariance` (Forecast), the conversions inside emcee, numpyro and arviz (Walkers states what they hand over) |
| chainconsumer.py | all but `_all_columns` (unused) | |
| color_finder.py | palette, aliases, `next_colour`, `format`, `get_default`, `scale_colour`, `_clamp`, `get_colormap` | matplotlib's colour maps (an argument); Python's leniency in `int(s, 16)` (signs, underscores, blanks) |
| comparisons.py | all functions and their warnings (Warn) | log levels |
| diagnostic.py | all functions and their log (Verdict), with the fits and the text of the p-value as oracles | log levels |
| examples.py | make_sample (Sample) | random numbers, scipy's normal distribution (arguments) |
| helpers.py | all functions | |
| kde.py | all, for one and two dimensions | higher dimensions (never used by the package) |
| plotter.py | all figures as drawing commands, sizes, files, rc parameters | `_get_size_of_texts` (oracle), pixels |
| plotting/config.py | all but what follows | the font sizes of ticks, titles and contour labels, diagonal tick labels, the lower limits (`ge=0`) of the numbers |
| plotting/contours.py | all | |
| plotting/truth.py, truth.py | all; `is_filled_marker` is an oracle | matplotlib's rejection of a truth opacity outside 0..1 |
| plotting/watermark.py | which text is drawn with which settings; place, rotation and font size over the reals (Watermark) | the extents of texts (an argument) |
| statistics.py | the enumeration | |

## Tests of the theorems

`seeded/LOG.jsonl` records edits of the model that a realistic bug would make, the theorems that then fail
and, where an edit survived, the theorem that was tightened.


## Each property: what is modelled and how it is proved

* **C01** (proved) Chain registry behaves like an insertion-ordered map with unique names. Refinement of the registry to an insertion-ordered map, by induction over the list of calls.
* **C02** (proved) Resolving the chains for plotting/analysis never alters the chains the user stored. Explicit heap; every location that existed before a resolution is unchanged, lifted to all histories by induction.
* **C03** (proved) Settings precedence: override, then explicit user setting, then automatic default. Settings are a dependent map over all fields; the precedence is proved for every field.
* **C04** (proved) Automatic colours are pairwise distinct, assigned in a fixed order, and run out after 88 chains. The 88 palette entries are distinct by computation; the assignment is by induction over the chains; running out is an equivalence.
* **C05** (proved) Automatic shading depends only on how many chains draw contours. From the resolution function; the square root is over R.
* **C06** (proved) Chain construction accepts exactly the well-formed inputs. Soundness and completeness of the validator as an equivalence, over arbitrary tables including NaN and infinities.
* **C07** (proved) Constructing a chain never modifies the caller's DataFrame. Heap frame property of construction.
* **C08** (proved) data_columns lists exactly the parameter columns, in frame order. Order-preserving filters on lists.
* **C09** (proved) plotting_columns removes exactly the colour column and only for clouds. Order-preserving filters on lists, lifted to several chains.
* **C10** (partial) shift_params centres the parameters and leaves the weights alone. The code shifts the weight column as well: refuted, and a partial theorem says what each column becomes.
* **C100** (partial) An override is as good as giving the settings to every chain. Both registries are resolved in step: the automatic settings depend on the chains only through the number of chains with contours and labels and the colours handed out, which the override leaves alone. The resolved chains differ only in what the user is recorded to have set and where the samples are kept, and no figure or table reads either (blank-invariance of every drawing function).
* **C101** (partial) The walkers of a sampler can be looked at one by one. Samplers are modelled as what they hand over: emcee's (steps, walkers, dimensions) array, thinned, discarded and reshaped; numpyro's concatenated chains; arviz' stacked chains. divide gives slices of the columns of the imported frame (chain construction keeps them), and slices of a concatenation of equally long lists are these lists.
* **C102** (partial) A figure of a parameter that no chain has is refused. The range of an axis comes from the configuration or from chains that have the column; a figure that came back has a panel for every column asked for, and a panel has a range.
* **C103** (partial) What is left out of a comparison is announced with the reason. The loops are modelled again with a log beside their result; that the results agree with the functions of the other theorems is proved, then each entry of the log is traced to the chain it is about.
* **C104** (partial) Parameters without an interval are announced. The functions from the search up to get_summary are modelled again with a log and shown to give the same results; that chains split into modes use the HDI is an invariant of sessions, so that an entry without an interval and a warning go together.
* **C105** (proved) The diagnostics log each verdict with its number. The diagnostics are modelled again with a log and shown to give the same results; the lines are compared with the documented variances, the p-value's text is an oracle.
* **C106** (proved) Figures depend only on the weighted samples. The relations of C75 and C95 carried through the drawing functions: every number handed to matplotlib is equal, everything else the same; shuffled tables are traced through _get_final_chains.
* **C107** (proved) The triangle depends only on the weighted samples. The relations of C83 (contours) and C106 carried through plot: every axis of the grid is compared call by call, contours through the credible regions of the density they enclose; shuffled tables are traced through _get_final_chains.
* **C108** (proved) Distributions drawn without an interval are announced. The drawing functions are modelled again with a log and shown to draw the same figures; the log is then read off panel by panel: only the diagonal of the triangle asks for summaries.
* **C109** (proved) What is not set has its documented value. The documented values are written out in DefaultsSpec.v, independently of the model's tables; a session without a configuration is compared with one that was given all values.
* **C11** (partial) divide splits the rows evenly into one chain per walker. Block decomposition of lists.
* **C110** (partial) Smoothed walks for every window. The line of every walk of every row is what the model of the convolution gives for that walk; windows are then told apart by size and parity, and the range follows from the windowed means.
* **C111** (partial) A truth can be given as a dictionary or a Series. The construction of a truth is modelled including pydantic's validation of dict[str, float]; accepted items are related one by one to what the caller gave.
* **C112** (proved) Settings of appearance leave the data alone. Both runs are followed step by step: where both succeed their calls agree after dropping ticks, scales, labels, titles and names; for fonts, watermark and resolution the drawing functions are convertible.
* **C113** (proved) Truths change nothing but their own lines and markers. Both runs are followed step by step with the same values everywhere except in the calls of plot_truths, which only emit lines and markers; limits are read off what is left.
* **C114** (proved) Drawn distributions follow a change of units. The histogram and the summary of one chain are related across units as for C75; plot_bars then emits related calls, and the loops over chains and panels keep the relation. Narrowest intervals and density estimates are excluded because C75 refutes them.
* **C115** (proved) What is shown of a parameter does not depend on the other parameters asked for. The base of a figure gives a parameter the same chains, range, scale and blinding whichever list it is part of; each panel is then located by its index and depends on nothing else of the base.
* **C116** (proved) What is reported of a parameter does not depend on the other parameters asked for. The loop of the summary computes each entry from the chain and the parameter only; an entry of a matrix is a function of the two centred columns; the rows of a table are the image of the shown parameters under one function.
* **C117** (proved) Drawn walks follow a change of units. Thinning picks by position; each smoothed value is the mean of a full window (the half windows at the ends are cut off), and means follow a change of units; by induction over the chains of the row.
* **C118** (proved) A more lenient threshold, or fewer chains, never turns a pass into a failure. Only the last comparison sees the threshold; the relation between two answers is preserved by merging the dictionaries of several chains, by induction. Fewer chains by the description of several chains in C41.
* **C119** (partial) A better fit improves the score of a model and more parameters worsen it. Differences of scores are differences of the documented formulas (C37); the correction k(k+1)/(N-k-1) grows with k and falls with N while N > k+1. With fewer data points its sign changes and the AIC favours more parameters (`C119_aic_few_refuted`).
* **C12** (partial) Maximum posterior point is the sample with the highest posterior. Argmax lemmas; label lookup makes the unrestricted claim false.
* **C13** (proved) Maximum posterior points of several chains. Induction over the chains, from C12.
* **C14** (proved) A marker's point is the location it was given. Composition of add_marker, resolution and C12.
* **C15** (partial) Covariance matrix is the weighted covariance: symmetric, positive semi-definite, shift and weight-scale invariant. Weighted sums over Q; positive semi-definiteness as a sum of squares.
* **C16** (partial) Correlation matrix has unit diagonal and entries in [-1,1]. Cauchy-Schwarz for weighted sums, over R for the roots.
* **C17** (partial) Variable selection by name keeps or removes exactly the named variables. List filters with multiplicities.
* **C18** (partial) from_emcee pairs names with sampler dimensions in order. Pairing lemmas; the silent cut-off is refuted.
* **C19** (proved) Histogram resolution defaults. Exact characterisation of the integer part of the square root, for all lengths.
* **C20** (partial) Extents lie inside the data range, are ordered, and trim at most the threshold mass per side. Exact rational arithmetic on cumulative sums; the first bin's mass is lost, hence a refuted part.
* **C21** (proved) Grid bins contain each grid value in its own bin. Arithmetic on uniform grids.
* **C22** (proved) Smoothed marginal: increasing grid, non-negative density, CDF from 0+ to 1. Composition of monotone list functions.
* **C23** (proved) Histogram accounts for every in-range sample exactly once. Every sample is counted once, by induction over samples and bins.
* **C24** (proved) Cumulative summary returns the requested quantiles. Interpolation inverts the cumulative distribution.
* **C25** (proved) Mean summary is the midpoint of the cumulative interval. From C24.
* **C26** (partial) Max-central summary: mode with central interval. From C24 and argmax.
* **C27** (proved) Max summary is an iso-density interval around the mode with the requested mass. Loop invariants of the threshold search; the fuel is shown sufficient.
* **C28** (partial) HDI summary is the narrowest interval with the requested mass. Loop invariant over all starting points; tolerances make the scale-free claim false.
* **C29** (proved) Multimodal bands are exactly the maximal runs above the threshold. Structural induction on masks.
* **C30** (partial) Multimodal HDI bands contain the requested mass. Invariants of the bisection; the mass function is monotone.
* **C31** (proved) Multimodal bounds: each band is reported with its own mode inside it. Argmax within a band, interpolation.
* **C32** (partial) Summary covers exactly the requested chains and columns. Induction over chains and columns, through the heap.
* **C33** (partial) Displayed parameter text is a faithful rounding of the bound. Exact decimal rendering and half-unit bounds.
* **C34** (partial) LaTeX parameter table is rectangular, complete and hides blinded parameters. Tables as lists of cells, then exact strings.
* **C35** (proved) Covariance/correlation tables show the matrix faithfully. As C34, with the matrix of C15 and C16.
* **C36** (partial) Table captions and labels are inserted verbatim. Percent formatting written out; captions with a percent sign are refuted, with doubled percent signs proved.
* **C37** (proved) Model comparison scores are relative to the best model. Minimum over a list, over R.
* **C38** (proved) AIC/BIC/DIC implement their documented formulas and qualify exactly the chains with the needed inputs. Formulas over R; qualification as an equivalence.
* **C39** (partial) Comparison table is sorted, complete and rectangular. Sorting lemmas and exact strings.
* **C40** (partial) Gelman-Rubin implements the documented statistic. Algebra over R on the walkers' means and variances.
* **C41** (partial) Diagnostics over several chains aggregate correctly. Induction over the chains.
* **C42** (proved) Geweke compares the requested start and end windows of each walker. Windows as sublists; the statistics over R.
* **C43** (proved) Contour surface: cumulative mass of denser cells. For every permutation that sorts; hence for all tie orders.
* **C44** (proved) Contour levels. Over R, with the exponential bounded by rational series.
* **C45** (proved) Cloud and walk thinning keeps aligned, evenly spaced samples. Arithmetic on the thinning step and list indexing.
* **C46** (partial) Truth lines are drawn on the axis of their parameter. Traces of drawing commands, for each figure.
* **C47** (partial) Blinded parameters never get tick labels or summary text. Traces of tick and text commands, for each figure.
* **C48** (partial) Triangle layout: each unordered pair of parameters appears exactly once. The list of panels and its index arithmetic, by induction.
* **C49** (proved) Legend entries match chains. Traces of legend commands.
* **C50** (proved) Axis extents cover every chain and respect user extents. Minimum and maximum over chains, by induction.
* **C51** (proved) Chain selection for output. Selection through the heap.
* **C52** (partial) Colour names resolve to hex codes. Finite tables, lifted to all strings.
* **C53** (proved) Colour scaling keeps valid colours. Hexadecimal rendering and parsing are inverse; clamping.
* **C54** (partial) KDE evaluation. Estimator over R: kernel sums, Cholesky whitening in two dimensions.
* **C55** (partial) Summary figure scales every parameter panel to its own tallest curve. The code is off by one: refuted, and a partial theorem says which scale is used.
* **C56** (proved) Walk figure rows. Traces of the walk figure.
* **C57** (proved) Matplotlib rc parameters can be restored. State transition of the rc dictionary over all histories.
* **C58** (proved) Label and keyword merging. Dictionary merge lemmas.
* **C59** (proved) Bound arrays round trip. Record and list round trip, both directions.
* **C60** (proved) Smoothing moves mass but creates and loses none. Sums over the reflecting filter.
* **C61** (proved) A constructed chain holds what the caller gave. From construction, field by field and cell by cell.
* **C62** (proved) The contour surface is the weighted two-dimensional histogram. Sums over two-dimensional bins.
* **C63** (proved) A panel shows what each chain asks for, in order. Traces of a panel, by induction over the chains.
* **C64** (proved) Contour labels state the enclosed percentage. Rendering of percentages.
* **C65** (proved) Figure size and saved files. Case analysis of the size and the list of files.
* **C66** (proved) Distribution panels show each chain's marginal and shaded interval. Traces of the bars with the densities of C22 and the summaries of C24-C28.
* **C67** (proved) One labelled colour bar per colour parameter. Traces over colour parameters.
* **C68** (proved) Summary titles only for a single contour chain. Case analysis over the number of contour chains.
* **C69** (proved) Convolved walks are windowed means. Windowed sums.
* **C70** (partial) The walk figure covers every sample. Maximum over walks; refuted for unequal lengths.
* **C71** (partial) Distribution figure: one labelled panel per parameter in reading order. Grid arithmetic and labels.
* **C72** (proved) Summary figure: one row per chain, one column per parameter. Rows and columns by induction.
* **C73** (proved) Drawing is repeatable. Drawing twice from the same state gives the same commands and leaves the state alone.
* **C74** (partial) plot_dist shows the marginal distribution of the chain. Outline, area, shading and title of plot_dist from the same densities.
* **C75** (partial) Summaries follow a change of units. Every step from extents to summary commutes with an affine change; refuted where tolerances are absolute.
* **C76** (proved) Summaries depend only on the weighted distribution. Two tables with the same weighted histogram give the same summaries; reordering, rescaling weights and splitting rows give such tables.
* **C77** (proved) Truths accumulate and are drawn as given. Induction over the calls; the drawn styles.
* **C78** (partial) Contour bands get lighter outwards from the chain's colour. Scaling factors over R, monotone in the level.
* **C79** (partial) Reported intervals are in order and within the data. Each statistic's interval is shown to be made of points of the marginal, whose table is shown to lie in the range of the samples plus the padding; lifted to every entry of get_summary in any session. Single value: both ends of the histogram range fall into the same bin, so a bin width is 0.
* **C80** (partial) A larger area gives a larger interval. Monotone interpolation for the quantile statistics; both level searches (max, separate modes) are compared step by step for two areas; narrowest interval property for the highest density interval.
* **C81** (proved) Questions change nothing and have the same answer when repeated. Every question acts on the session like a selection (or not at all); answers are shown to be functions of the selected chains, which survive in the larger heap.
* **C82** (proved) Model comparison does not depend on normalisation, order or other models. A raw score of a counterpart is the old one less twice the constant; subtracting the least removes it; the sets of raw scores are compared through the loop over the chains.
* **C83** (partial) Contours depend only on the weighted points and follow a change of units. The weight of a rectangle of cells is a sum over the distinct points; edges, centres, smoothing and powers are shown to be linear, so the density is the old one up to a factor; credible surfaces do not see the factor.
* **C84** (partial) Exchanging the two parameters mirrors the panel. A formula for each cell of the two-dimensional filter shows that it commutes with exchanging rows and columns; a credible surface of a density transposes to one of the transposed density.
* **C85** (partial) A keyword has its effect or is refused. A session that remembers which unknown names each settings object was given is compared with the session of C01-C05 that forgets them; the loop over the chains fails at the first copied chain.
* **C86** (proved) Forecast chains hold the drawn points under the given names. The table of the drawn rows is described coordinate by coordinate; the rest is the constructor of C06 and C61. The sampler is an argument with numpy's shapes.
* **C87** (partial) The watermark runs along the diagonal and fits the figure. Real trigonometry: sine and cosine of the arc tangent give the corners of the turned text; the extents are compared with the formula for the font size.
* **C88** (partial) Colours drawn from a colour map. Positions and factors are read off the evenly spaced points; the colours are C53's scaled ones. The colour map is an argument.
* **C89** (partial) Example samples. The variance of a combination is a sum of squares after exchanging the sums; scipy is an argument that matters only for proper arguments.
* **C90** (proved) The latest override and the latest plotting configuration count. Induction over the history following one field of the state; the settings then follow from C03.
* **C91** (proved) Texts and tables do not depend on how the samples are written down. Every step of the formatting is shown to respect equality of rational numbers; the summaries are C76's. The shuffled session follows from the invariant that every chain is sound.
* **C92** (partial) Assigning an attribute later has the effect of having given it. The heap semantics is extended by assignments; induction over the history follows one field of one object; the settings in use then follow from C03's resolution.
* **C93** (partial) Covariances and correlations depend only on the weighted samples. Covariance times normalisation is a function of weighted sums of products; these are shown to be invariant under permutations and splits. The normalisation grows strictly under a split, the correlation cancels it.
* **C94** (partial) Kernel density estimates depend only on the weighted samples. The estimate as a relation is invariant under permutations of the samples (index bijections); it is single-valued if four samples are in reach or all weights are equal (exchange argument). The refutations hold for every neighbour search.
* **C95** (proved) Automatic axis ranges depend only on the weighted samples and follow a change of units. The range of each chain is shown to follow its weighted sample (the histogram and cumulative search commute with positive affine maps); the smallest range containing all follows; C50 connects it to the figures. Reordered, split and converted tables are shown to be instances.
* **C96** (proved) A summary reports what the chosen statistic means. The curve of a chain is characterised by inverting the model of _get_smoothed_histogram (histogram and KDE branch); C24-C31 give the meaning of each statistic on a curve; C32 connects them to get_summary.
* **C97** (partial) What is reported and drawn about a chain does not depend on the other chains. Resolution of the settings, chain by chain: all but four settings (colour and shading) come from the chain and the override; summaries, tables and panels do not read these four. A panel of several chains is the concatenation of the panels of the single chains; distributions likewise, without the titles, and rows of summaries one by one.
* **C98** (partial) A call that fails has no lasting effect. An invariant of all sessions (every registered object exists with its table) and step_effect: a failing call leaves registry, truths and plotter; objects are only ever added, and figures and answers are shown to be the same in a larger heap.
* **C99** (partial) Consumers in one process do not influence each other. A process is a heap, rc parameters and a list of consumers; the invariant of C98 for each of them under every call on any of them; figures and answers are the same in a larger heap. For the parameters: every consumer remembers those that held when it was made.

## What Print Assumptions lists for each theorem

`-` means "Closed under the global context". The letters stand for axioms of the standard library:
D = `ClassicalDedekindReals.sig_forall_dec`, N = `ClassicalDedekindReals.sig_not_dec`,
F = `FunctionalExtensionality.functional_extensionality_dep`, C = `Classical_Prop.classic`.
All four come from the standard library's real numbers; no other axiom occurs.

* C01: [-] `C01_registry`, `C01_failing_call`, `C01_when_it_fails`, `C01_example` (RegistryProps.v)
* C02: [-] `C02_untouched`, `C02_fresh`, `C02_example` (RegistryProps.v)
* C03: [DFN] `C03_precedence` (RegistryProps.v); [-] `C03_example` (RegistryProps.v)
* C04: [-] `C04_palette`, `C04_exhaustion`, `C04_example`, `C04_exhausted_example` (RegistryProps.v); [DFN] `C04_assignment`, `C04_distinct` (RegistryProps.v)
* C05: [DFN] `C05_shading` (RegistryProps.v); [-] `C05_example` (RegistryProps.v)
* C06: [-] `C06_accepts`, `C06_accepts_nonvacuous`, `C06_refusal`, `C06_refusal_nonvacuous`, `C06_result`, `C06_result_nonvacuous` (ChainProps.v)
* C07: [-] `C07_no_aliasing`, `C07_own_copy`, `C07_nonvacuous` (ChainProps.v)
* C08: [-] `C08_members`, `C08_order`, `C08_chain`, `C08_nonvacuous` (ChainProps.v)
* C09: [-] `C09_columns`, `C09_union`, `C09_union_members`, `C09_nonvacuous` (ChainProps.v)
* C10: [-] `C10_shift_partial`, `C10_weights_refuted`, `C10_equal_weights_refuted`, `C10_nonvacuous` (ChainProps.v)
* C11: [-] `C11_divide`, `C11_refused`, `C11_nonvacuous`, `C11_shifted_refuted`, `C11_shifted_nonvacuous` (ChainProps.v)
* C12: [-] `C12_maximum_partial`, `C12_nonvacuous`, `C12_none`, `C12_labels_refuted`, `C12_walkers_refuted`, `C12_walkers_nonvacuous` (ChainProps.v); [-] `C12_vector`, `C12_vector_nonvacuous` (ForecastProps.v)
* C13: [-] `C13_points`, `C13_missing`, `C13_unknown`, `C13_nonvacuous` (ChainProps.v)
* C14: [-] `C14_marker`, `C14_shading`, `C14_nonvacuous` (ChainProps.v)
* C15: [-] `C15_constructed`, `C15_covariance`, `C15_determined`, `C15_default_columns`, `C15_symmetric`, `C15_semidefinite`, `C15_affine`, `C15_equal_weights`, `C15_missing_column`, `C15_one_row_refuted`, `C15_shifted_refuted`, `C15_nonvacuous`, `C15_one_row_nonvacuous`, `C15_shifted_nonvacuous` (CovProps.v)
* C16: [DFN] `C16_correlation_partial`, `C16_value`, `C16_affine`, `C16_single_column_refuted` (CovProps.v); [-] `C16_nonvacuous` (CovProps.v)
* C17: [-] `C17_select`, `C17_everything`, `C17_mixture`, `C17_empty_refuted`, `C17_import`, `C17_nonvacuous` (ChainProps.v)
* C18: [-] `C18_columns`, `C18_truncates_refuted`, `C18_nonvacuous` (ChainProps.v)
* C19: [-] `C19_default_bins`, `C19_floor_root4_unique`, `C19_user_bins`, `C19_edges`, `C19_example` (HelpersProps.v)
* C20: [-] `C20_extents_partial`, `C20_extents_refuted`, `C20_example` (HelpersProps.v)
* C21: [-] `C21_edges`, `C21_marginal`, `C21_error`, `C21_nonuniform_refuted`, `C21_example` (HelpersProps.v)
* C22: [-] `C22_marginal`, `C22_curve`, `C22_example` (SummaryProps.v)
* C23: [-] `C23_exactly_one_bin`, `C23_bin_weight`, `C23_total`, `C23_density_integral`, `C23_density_defined`, `C23_example` (HelpersProps.v)
* C24: [-] `C24_quantiles`, `C24_failure`, `C24_example` (SummaryProps.v)
* C25: [-] `C25_mean`, `C25_failure`, `C25_example` (SummaryProps.v)
* C26: [-] `C26_max_central_partial`, `C26_center_outside_refuted`, `C26_example` (SummaryProps.v)
* C27: [-] `C27_max`, `C27_example` (SummaryProps.v)
* C28: [-] `C28_hdi_mass`, `C28_hdi_center`, `C28_hdi_narrowest`, `C28_tiny_scale_refuted`, `C28_example`, `C28_example_tiny` (SummaryProps.v)
* C29: [-] `C29_runs`, `C29_coverage`, `C29_example` (SummaryProps.v)
* C30: [-] `C30_bands`, `C30_simpson`, `C30_simpson_nonvacuous`, `C30_example`, `C30_wide_scale_refuted`, `C30_not_scale_free_refuted` (SummaryProps.v)
* C31: [-] `C31_bounds`, `C31_one_per_band`, `C31_example` (SummaryProps.v)
* C32: [-] `C32_summary`, `C32_all`, `C32_total`, `C32_by_name_refuted`, `C32_nonvacuous` (AnalysisProps.v)
* C33: [-] `C33_single_partial`, `C33_single_nonvacuous`, `C33_half_unit_refuted`, `C33_missing`, `C33_missing_nonvacuous`, `C33_zero_refuted`, `C33_multimodal_partial`, `C33_multimodal_nonvacuous`, `C33_raises` (TextProps.v)
* C34: [-] `C34_table`, `C34_all`, `C34_total`, `C34_nonvacuous`, `C34_repeated_refuted`, `C34_colour_column_refuted` (AnalysisProps.v)
* C35: [-] `C35_covariance`, `C35_nonvacuous` (AnalysisProps.v); [DFN] `C35_correlation`, `C35_raises` (AnalysisProps.v)
* C36: [CDFN] `C36_captions_partial`, `C36_doubled_nonvacuous`, `C36_default` (AnalysisProps.v); [-] `C36_percent_refuted` (AnalysisProps.v)
* C37: [DF] `C37_aic`, `C37_dic` (CompareProps.v); [CDFN] `C37_bic`, `C37_nonvacuous` (CompareProps.v)
* C38: [DF] `C38_aic`, `C38_aic_raises`, `C38_dic`, `C38_aic_raises_example` (CompareProps.v); [CDFN] `C38_bic`, `C38_bic_infinite`, `C38_unscored`, `C38_determined`, `C38_nonvacuous` (CompareProps.v)
* C39: [CDFN] `C39_rejected`, `C39_table`, `C39_rectangular`, `C39_raises`, `C39_superfluous_column_refuted`, `C39_nonvacuous` (CompareProps.v)
* C40: [-] `C40_constructed`, `C40_variances`, `C40_nonvacuous` (DiagProps.v); [DFN] `C40_verdict_partial`, `C40_single_step`, `C40_one_walker`, `C40_affine`, `C40_walker_order`, `C40_documented_refuted` (DiagProps.v)
* C41: [DFN] `C41_gelman_rubin`, `C41_geweke`, `C41_succeeds`, `C41_empty`, `C41_clash_refuted`, `C41_nonvacuous` (DiagProps.v)
* C42: [DFN] `C42_windows`, `C42_affine`, `C42_empty_window`, `C42_nonvacuous` (DiagProps.v); [-] `C42_disjoint` (DiagProps.v)
* C43: [-] `C43_surface` (SurfaceProps.v); [CDFN] `C43_drawn`, `C43_nonvacuous` (SurfaceProps.v)
* C44: [CDFN] `C44_levels`, `C44_accepted`, `C44_rejected` (SurfaceProps.v)
* C45: [-] `C45_cloud`, `C45_count`, `C45_zero` (SurfaceProps.v)
* C46: [-] `C46_distributions_partial` (DistProps.v); [DFN] `C46_distributions_refuted` (DistProps.v); [-] `C46_summary` (SummaryFigProps.v); [CDFN] `C46_triangle`, `C46_triangle_nonvacuous` (TriangleProps.v); [-] `C46_walks` (WalkProps.v)
* C47: [-] `C47_distributions_partial` (DistProps.v); [DFN] `C47_distributions_refuted` (DistProps.v); [-] `C47_summary_partial` (SummaryFigProps.v); [DFN] `C47_summary_refuted` (SummaryFigProps.v); [CDFN] `C47_triangle_partial`, `C47_minor_refuted`, `C47_colourbar_refuted` (TriangleProps.v); [-] `C47_walks_partial` (WalkProps.v); [DFN] `C47_walks_refuted` (WalkProps.v)
* C48: [CDFN] `C48_grid`, `C48_panels`, `C48_labels_partial`, `C48_nonvacuous`, `C48_flip_refuted` (TriangleProps.v); [-] `C48_once` (TriangleProps.v)
* C49: [CDFN] `C49_legend` (TriangleProps.v)
* C50: [-] `C50_distributions` (DistProps.v); [-] `C50_summary` (SummaryFigProps.v); [CDFN] `C50_triangle` (TriangleProps.v); [-] `C50_walks` (WalkProps.v)
* C51: [-] `C51_selection`, `C51_default`, `C51_example` (RegistryProps.v)
* C52: [-] `C52_hex_unchanged`, `C52_names`, `C52_aliases_partial`, `C52_alias_refuted`, `C52_idempotent`, `C52_unknown`, `C52_example` (ColorProps.v); [-] `C52_shades`, `C52_short_names`, `C52_black_white`, `C52_primary`, `C52_palette_nonvacuous` (PaletteProps.v)
* C53: [-] `C53_scale`, `C53_identity`, `C53_monotone`, `C53_by_name`, `C53_example` (ColorProps.v)
* C54: [CDFN] `C54_marginal`, `C54_surface_partial`, `C54_dist_partial`, `C54_exists`, `C54_exists_surface`, `C54_values`, `C54_values_surface`, `C54_weights`, `C54_weights_surface`, `C54_units`, `C54_units_surface`, `C54_surface_setting_ignored`, `C54_surface_refuted`, `C54_dist_refuted`, `C54_nonvacuous` (KdeProps.v)
* C55: [-] `C55_partial` (SummaryFigProps.v); [DFN] `C55_refuted` (SummaryFigProps.v)
* C56: [-] `C56_rows`, `C56_posterior` (WalkProps.v); [DFN] `C56_nonvacuous` (WalkProps.v)
* C57: [CDFN] `C57_restore`, `C57_draw`, `C57_only`, `C57_none` (ConsumerProps.v)
* C58: [CDFN] `C58_watermark`, `C58_legend`, `C58_place`, `C58_place_nonvacuous` (ConsumerProps.v); [-] `C58_label` (ConsumerProps.v)
* C59: [-] `C59_accepts`, `C59_order`, `C59_array_roundtrip`, `C59_bound_roundtrip`, `C59_all_none`, `C59_missing_becomes_nan`, `C59_summary_array`, `C59_nonvacuous` (BoundProps.v)
* C60: [-] `C60_smoothing_mass`, `C60_example` (SummaryProps.v)
* C61: [-] `C61_settings`, `C61_fields`, `C61_samples`, `C61_nonvacuous` (ChainProps.v)
* C62: [-] `C62_histogram`, `C62_edges`, `C62_kde` (SurfaceProps.v)
* C63: [CDFN] `C63_panel` (SurfaceProps.v); [-] `C63_colour` (SurfaceProps.v)
* C64: [CDFN] `C64_labels`, `C64_sigma2d` (SurfaceProps.v)
* C65: [-] `C65_distributions` (DistProps.v); [-] `C65_summary` (SummaryFigProps.v); [CDFN] `C65_triangle` (TriangleProps.v); [-] `C65_walks` (WalkProps.v)
* C66: [-] `C66_distributions` (DistProps.v); [-] `C66_summary` (SummaryFigProps.v); [CDFN] `C66_triangle`, `C66_triangle_nonvacuous` (TriangleProps.v)
* C67: [CDFN] `C67_colourbars` (TriangleProps.v)
* C68: [-] `C68_distributions` (DistProps.v); [CDFN] `C68_title` (TriangleProps.v)
* C69: [-] `C69_smoothed` (WalkProps.v)
* C70: [-] `C70_partial` (WalkProps.v); [DFN] `C70_refuted` (WalkProps.v)
* C71: [-] `C71_partial` (DistProps.v); [DFN] `C71_nonvacuous`, `C71_refuted` (DistProps.v)
* C72: [-] `C72_layout`, `C72_errorbars` (SummaryFigProps.v); [DFN] `C72_nonvacuous` (SummaryFigProps.v)
* C73: [CDFN] `C73_repeatable`, `C73_nonvacuous` (ConsumerProps.v)
* C74: [DFN] `C74_bars`, `C74_smoothed`, `C74_kde`, `C74_shading`, `C74_title_partial`, `C74_nonvacuous` (PlotDistProps.v); [-] `C74_bar_shade_refuted`, `C74_label_refuted`, `C74_gradient_refuted` (PlotDistProps.v)
* C75: [-] `C75_summary_partial`, `C75_shift_partial`, `C75_modes_partial`, `C75_nonvacuous`, `C75_hdi_refuted`, `C75_bands_refuted`, `C75_kde_refuted` (EquivProps.v)
* C76: [-] `C76_summary`, `C76_reordered`, `C76_reweighed`, `C76_split`, `C76_nonvacuous` (EquivProps.v)
* C77: [-] `C77_accepted` (ConsumerProps.v); [CDFN] `C77_truths`, `C77_nonvacuous` (ConsumerProps.v)
* C78: [CDFN] `C78_shades`, `C78_outward`, `C78_gradient_refuted`, `C78_short_refuted`, `C78_nonvacuous` (ShadeProps.v)
* C79: [-] `C79_chain`, `C79_summary`, `C79_single_value_refuted`, `C79_nonvacuous`, `C79_range_refuted`, `C79_single_value_nonvacuous` (ReportProps.v)
* C80: [-] `C80_nested`, `C80_bands`, `C80_wider`, `C80_nonvacuous`, `C80_bands_nonvacuous`, `C80_hdi_nested_refuted` (ReportProps.v)
* C81: [CDFN] `C81_untouched`, `C81_repeatable`, `C81_figures`, `C81_nonvacuous` (QueryProps.v)
* C82: [CDFN] `C82_differences`, `C82_more`, `C82_order`, `C82_normalisation`, `C82_nonvacuous` (OffsetProps.v)
* C83: [-] `C83_density`, `C83_regions`, `C83_rescaled`, `C83_reordered`, `C83_split` (PlanarProps.v); [CDFN] `C83_contours_partial`, `C83_nonvacuous`, `C83_weights_refuted` (PlanarProps.v)
* C84: [-] `C84_density_partial`, `C84_grid_kde_refuted` (MirrorProps.v); [CDFN] `C84_panel_partial`, `C84_drawable_partial`, `C84_nonvacuous` (MirrorProps.v)
* C85: [-] `C85_well_spelt`, `C85_misspelt_partial`, `C85_recovers`, `C85_nonvacuous`, `C85_refuted` (KeywordProps.v)
* C86: [-] `C86_columns`, `C86_refused`, `C86_returns`, `C86_nonvacuous` (ForecastProps.v)
* C87: [CDFN] `C87_diagonal`, `C87_width`, `C87_height_partial`, `C87_nonvacuous`, `C87_height_refuted` (WatermarkProps.v)
* C88: [-] `C88_colours`, `C88_shades`, `C88_nonvacuous`, `C88_negative_refuted` (ColormapProps.v)
* C89: [DFN] `C89_distribution`, `C89_table_partial`, `C89_single_refuted`, `C89_nonvacuous` (SampleProps.v)
* C90: [CDFN] `C90_override`, `C90_config`, `C90_nonvacuous` (HistoryProps.v)
* C91: [-] `C91_text`, `C91_table`, `C91_shuffled`, `C91_nonvacuous` (TextEquivProps.v)
* C92: [DFN] `C92_chain_partial`, `C92_override_partial` (AssignProps.v); [-] `C92_only`, `C92_nonvacuous`, `C92_automatic_refuted`, `C92_override_refuted`, `C92_rename_refuted` (AssignProps.v)
* C93: [-] `C93_reordered`, `C93_split_partial`, `C93_split_refuted`, `C93_nonvacuous` (CovEquivProps.v); [DFN] `C93_correlation_reordered`, `C93_correlation_split` (CovEquivProps.v)
* C94: [CDFN] `C94_order_partial`, `C94_order_surface_partial`, `C94_order_dist_partial`, `C94_few_refuted`, `C94_split_refuted`, `C94_order_refuted`, `C94_nonvacuous` (KdeOrderProps.v)
* C95: [CDFN] `C95_triangle` (AxisEquivProps.v); [-] `C95_distributions`, `C95_summary`, `C95_walks`, `C95_converted`, `C95_reordered`, `C95_split` (AxisEquivProps.v); [DFN] `C95_nonvacuous` (AxisEquivProps.v)
* C96: [-] `C96_chain`, `C96_summary`, `C96_nonvacuous` (MeaningProps.v)
* C97: [F] `C97_summary_partial` (AloneProps.v); [CDFN] `C97_named`, `C97_together`, `C97_drawn`, `C97_nonvacuous` (AloneProps.v); [-] `C97_weights_refuted` (AloneProps.v); [CDFN] `C97_diagonal`, `C97_diagonal_drawn`, `C97_company_nonvacuous` (CompanyProps.v); [-] `C97_distributions`, `C97_rows`, `C97_walks` (CompanyProps.v); [F] `C97_distributions_drawn`, `C97_rows_drawn`, `C97_walks_drawn` (CompanyProps.v)
* C98: [CDFN] `C98_no_effect_partial`, `C98_parameters_partial`, `C98_parameters_refuted`, `C98_nonvacuous` (ProcessProps.v)
* C99: [CDFN] `C99_isolated_partial`, `C99_restore_partial`, `C99_restore_refuted`, `C99_nonvacuous` (ProcessProps.v)
* C100: [CDFN] `C100_figures_partial`, `C100_nonvacuous`, `C100_contours_refuted` (OverrideProps.v); [F] `C100_tables_partial` (OverrideProps.v); [-] `C100_object_refuted` (OverrideProps.v)
* C101: [-] `C101_numpyro`, `C101_arviz`, `C101_emcee_partial`, `C101_nonvacuous`, `C101_emcee_refuted` (WalkersProps.v); [DFN] `C101_convergence_refuted` (WalkersProps.v)
* C102: [-] `C102_distributions`, `C102_summary` (UnknownProps.v); [CDFN] `C102_triangle`, `C102_nonvacuous`, `C102_range_refuted` (UnknownProps.v); [DFN] `C102_walks_refuted` (UnknownProps.v)
* C103: [CDFN] `C103_results`, `C103_bic`, `C103_table`, `C103_table_raises`, `C103_posteriors_partial`, `C103_nonvacuous`, `C103_raises_nonvacuous` (WarnProps.v); [DF] `C103_aic`, `C103_dic` (WarnProps.v); [-] `C103_unnamed_refuted` (WarnProps.v)
* C104: [-] `C104_results`, `C104_parameter`, `C104_given`, `C104_summary`, `C104_table`, `C104_nonvacuous`, `C104_forced_refuted`, `C104_hidden_refuted` (NoteProps.v)
* C105: [DFN] `C105_results`, `C105_parameters`, `C105_geweke`, `C105_in_turn`, `C105_unknown`, `C105_nonvacuous`, `C105_geweke_nonvacuous` (VerdictProps.v)
* C106: [-] `C106_distributions`, `C106_summary`, `C106_shuffled` (FigEquivProps.v); [DFN] `C106_nonvacuous` (FigEquivProps.v)
* C107: [CDFN] `C107_triangle`, `C107_shuffled`, `C107_nonvacuous` (TriEquivProps.v)
* C108: [CDFN] `C108_results`, `C108_triangle`, `C108_nonvacuous` (NoteFigProps.v); [-] `C108_distributions`, `C108_summary`, `C108_dist` (NoteFigProps.v)
* C109: [-] `C109_chain` (DefaultsProps.v); [CDFN] `C109_config`, `C109_figure`, `C109_nonvacuous` (DefaultsProps.v)
* C110: [-] `C110_range`, `C110_long`, `C110_one_partial` (WindowProps.v); [DFN] `C110_one_refuted`, `C110_nonvacuous` (WindowProps.v)
* C111: [-] `C111_mapping_partial`, `C111_lookup_partial`, `C111_series_refused_partial`, `C111_series_refuted`, `C111_nonvacuous` (TruthProps.v)
* C112: [CDFN] `C112_triangle`, `C112_decoration`, `C112_nonvacuous`, `C112_decorated_nonvacuous` (CosmeticProps.v); [-] `C112_walks`, `C112_distributions`, `C112_summary` (CosmeticProps.v)
* C113: [CDFN] `C113_truths`, `C113_ranges`, `C113_nonvacuous` (TruthFigProps.v)
* C114: [-] `C114_distributions`, `C114_summary`, `C114_converted` (UnitFigProps.v); [CDFN] `C114_triangle` (UnitFigProps.v); [DFN] `C114_nonvacuous` (UnitFigProps.v)
* C115: [-] `C115_distributions`, `C115_walks`, `C115_summary` (ColumnsProps.v); [CDFN] `C115_pair`, `C115_alone`, `C115_nonvacuous`, `C115_triangle_nonvacuous` (ColumnsProps.v)
* C116: [-] `C116_summary`, `C116_summary_all`, `C116_covariance`, `C116_table`, `C116_nonvacuous`, `C116_covariance_nonvacuous`, `C116_table_nonvacuous` (AmongProps.v); [DFN] `C116_correlation` (AmongProps.v)
* C117: [-] `C117_walks`, `C117_converted` (WalkUnitProps.v); [DFN] `C117_nonvacuous` (WalkUnitProps.v)
* C118: [DFN] `C118_gelman_rubin`, `C118_geweke`, `C118_fewer`, `C118_zero`, `C118_nonvacuous` (LenientProps.v)
* C119: [DF] `C119_aic`, `C119_aic_few_refuted` (PenaltyProps.v); [CDFN] `C119_bic`, `C119_rate`, `C119_nonvacuous` (PenaltyProps.v)
