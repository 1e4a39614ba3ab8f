{
 "claims": [
  {
   "property": "C01",
   "status": "proved",
   "theorems": [
    "C01_registry",
    "C01_failing_call",
    "C01_when_it_fails"
   ],
   "note": ""
  },
  {
   "property": "C02",
   "status": "proved",
   "theorems": [
    "C02_untouched",
    "C02_fresh"
   ],
   "note": ""
  },
  {
   "property": "C03",
   "status": "proved",
   "theorems": [
    "C03_precedence"
   ],
   "note": ""
  },
  {
   "property": "C04",
   "status": "proved",
   "theorems": [
    "C04_palette",
    "C04_assignment",
    "C04_distinct",
    "C04_exhaustion"
   ],
   "note": ""
  },
  {
   "property": "C05",
   "status": "proved",
   "theorems": [
    "C05_shading"
   ],
   "note": ""
  },
  {
   "property": "C06",
   "status": "proved",
   "theorems": [
    "C06_accepts",
    "C06_refusal",
    "C06_result"
   ],
   "note": ""
  },
  {
   "property": "C07",
   "status": "proved",
   "theorems": [
    "C07_no_aliasing",
    "C07_own_copy"
   ],
   "note": ""
  },
  {
   "property": "C08",
   "status": "proved",
   "theorems": [
    "C08_members",
    "C08_order",
    "C08_chain"
   ],
   "note": ""
  },
  {
   "property": "C09",
   "status": "proved",
   "theorems": [
    "C09_columns",
    "C09_union",
    "C09_union_members"
   ],
   "note": ""
  },
  {
   "property": "C10",
   "status": "partial",
   "theorems": [
    "C10_shift_partial",
    "C10_weights_refuted",
    "C10_equal_weights_refuted"
   ],
   "note": "The parameters are shifted, but the weight column is shifted as well: the claim about the weights is refuted (C10_weights_refuted, C10_equal_weights_refuted); C10_shift_partial says what the columns become."
  },
  {
   "property": "C11",
   "status": "partial",
   "theorems": [
    "C11_divide",
    "C11_refused",
    "C11_shifted_refuted"
   ],
   "note": "Proved for every chain that can be divided; a chain built with shift_params cannot (C11_shifted_refuted)."
  },
  {
   "property": "C12",
   "status": "partial",
   "theorems": [
    "C12_maximum_partial",
    "C12_none",
    "C12_labels_refuted",
    "C12_walkers_refuted",
    "C12_vector"
   ],
   "note": "Proved for default row labels; refuted for other labels and for the walkers of a divided chain, because argmax is used as a label (C12_labels_refuted, C12_walkers_refuted)."
  },
  {
   "property": "C13",
   "status": "proved",
   "theorems": [
    "C13_points",
    "C13_missing",
    "C13_unknown"
   ],
   "note": ""
  },
  {
   "property": "C14",
   "status": "proved",
   "theorems": [
    "C14_marker",
    "C14_shading"
   ],
   "note": ""
  },
  {
   "property": "C15",
   "status": "partial",
   "theorems": [
    "C15_constructed",
    "C15_covariance",
    "C15_determined",
    "C15_default_columns",
    "C15_symmetric",
    "C15_semidefinite",
    "C15_affine",
    "C15_equal_weights",
    "C15_missing_column",
    "C15_one_row_refuted",
    "C15_shifted_refuted"
   ],
   "note": "Proved in full for chains with at least two positive weights; a single row and shifted weights are refuted (C15_one_row_refuted, C15_shifted_refuted)."
  },
  {
   "property": "C16",
   "status": "partial",
   "theorems": [
    "C16_correlation_partial",
    "C16_value",
    "C16_affine",
    "C16_single_column_refuted"
   ],
   "note": "Proved for two or more columns; a single column raises (C16_single_column_refuted)."
  },
  {
   "property": "C17",
   "status": "partial",
   "theorems": [
    "C17_select",
    "C17_everything",
    "C17_mixture",
    "C17_empty_refuted",
    "C17_import"
   ],
   "note": "Proved; the documented meaning of the empty list is refuted (C17_empty_refuted)."
  },
  {
   "property": "C18",
   "status": "partial",
   "theorems": [
    "C18_columns",
    "C18_truncates_refuted"
   ],
   "note": "Pairing proved; a wrong number of names is silently truncated instead of refused (C18_truncates_refuted)."
  },
  {
   "property": "C19",
   "status": "proved",
   "theorems": [
    "C19_default_bins",
    "C19_floor_root4_unique",
    "C19_user_bins",
    "C19_edges"
   ],
   "note": ""
  },
  {
   "property": "C20",
   "status": "partial",
   "theorems": [
    "C20_extents_partial",
    "C20_extents_refuted"
   ],
   "note": "Ordered, inside the data range, padding and upper-side trimming proved; the lower-side threshold claim is refuted because the first histogram bin's mass is dropped from the CDF."
  },
  {
   "property": "C21",
   "status": "proved",
   "theorems": [
    "C21_edges",
    "C21_marginal",
    "C21_error",
    "C21_nonuniform_refuted"
   ],
   "note": "Proved for uniform grids (edges, centres, marginal) and the error case; refuted for non-uniform grids by C21_nonuniform_refuted."
  },
  {
   "property": "C22",
   "status": "proved",
   "theorems": [
    "C22_marginal",
    "C22_curve"
   ],
   "note": "Strict increase needs at least three bin edges (always true for grids and for the default number of bins); with two edges the positions coincide."
  },
  {
   "property": "C23",
   "status": "proved",
   "theorems": [
    "C23_exactly_one_bin",
    "C23_bin_weight",
    "C23_total",
    "C23_density_integral",
    "C23_density_defined"
   ],
   "note": ""
  },
  {
   "property": "C24",
   "status": "proved",
   "theorems": [
    "C24_quantiles",
    "C24_failure"
   ],
   "note": ""
  },
  {
   "property": "C25",
   "status": "proved",
   "theorems": [
    "C25_mean",
    "C25_failure"
   ],
   "note": ""
  },
  {
   "property": "C26",
   "status": "partial",
   "theorems": [
    "C26_max_central_partial",
    "C26_center_outside_refuted"
   ],
   "note": "Mode and quantiles proved; lower <= center <= upper is refuted: the mode may lie outside the central interval."
  },
  {
   "property": "C27",
   "status": "proved",
   "theorems": [
    "C27_max"
   ],
   "note": ""
  },
  {
   "property": "C28",
   "status": "partial",
   "theorems": [
    "C28_hdi_mass",
    "C28_hdi_center",
    "C28_hdi_narrowest",
    "C28_tiny_scale_refuted"
   ],
   "note": "Mass, ordering and centre proved without restriction; minimality to 1e-12 proved when the grid spacing exceeds 1e-12 and the first CDF value is below the area; refuted at scales below 1e-12."
  },
  {
   "property": "C29",
   "status": "proved",
   "theorems": [
    "C29_runs",
    "C29_coverage"
   ],
   "note": ""
  },
  {
   "property": "C30",
   "status": "partial",
   "theorems": [
    "C30_bands",
    "C30_simpson",
    "C30_wide_scale_refuted",
    "C30_not_scale_free_refuted"
   ],
   "note": "Bands and threshold characterised for all densities; the scale-free claim is refuted because the solver tolerance is absolute in density."
  },
  {
   "property": "C31",
   "status": "proved",
   "theorems": [
    "C31_bounds",
    "C31_one_per_band"
   ],
   "note": ""
  },
  {
   "property": "C32",
   "status": "partial",
   "theorems": [
    "C32_summary",
    "C32_all",
    "C32_total",
    "C32_by_name_refuted"
   ],
   "note": "Proved for chains given as objects or all chains; the documented list of names and dict are refuted (C32_by_name_refuted)."
  },
  {
   "property": "C33",
   "status": "partial",
   "theorems": [
    "C33_single_partial",
    "C33_half_unit_refuted",
    "C33_missing",
    "C33_zero_refuted",
    "C33_multimodal_partial",
    "C33_raises"
   ],
   "note": "Rounding proved outside errors between 10 and 100, where the text is rounded twice (C33_half_unit_refuted); all-zero bounds raise (C33_zero_refuted)."
  },
  {
   "property": "C34",
   "status": "partial",
   "theorems": [
    "C34_table",
    "C34_all",
    "C34_total",
    "C34_repeated_refuted",
    "C34_colour_column_refuted"
   ],
   "note": "Proved for distinct chains; repeated chains and colour columns are refuted (C34_repeated_refuted, C34_colour_column_refuted)."
  },
  {
   "property": "C35",
   "status": "proved",
   "theorems": [
    "C35_covariance",
    "C35_correlation",
    "C35_raises"
   ],
   "note": ""
  },
  {
   "property": "C36",
   "status": "partial",
   "theorems": [
    "C36_captions_partial",
    "C36_default",
    "C36_percent_refuted"
   ],
   "note": "Proved for captions and labels without a percent sign, and for any caption or label whose percent signs are written twice; a single percent sign is refuted (C36_percent_refuted)."
  },
  {
   "property": "C37",
   "status": "proved",
   "theorems": [
    "C37_aic",
    "C37_bic",
    "C37_dic"
   ],
   "note": ""
  },
  {
   "property": "C38",
   "status": "proved",
   "theorems": [
    "C38_aic",
    "C38_aic_raises",
    "C38_bic",
    "C38_bic_infinite",
    "C38_dic",
    "C38_unscored",
    "C38_determined"
   ],
   "note": ""
  },
  {
   "property": "C39",
   "status": "partial",
   "theorems": [
    "C39_rejected",
    "C39_table",
    "C39_rectangular",
    "C39_raises",
    "C39_superfluous_column_refuted"
   ],
   "note": "Proved; without the DIC the column specification has one column too many (C39_superfluous_column_refuted)."
  },
  {
   "property": "C40",
   "status": "partial",
   "theorems": [
    "C40_constructed",
    "C40_verdict_partial",
    "C40_variances",
    "C40_single_step",
    "C40_one_walker",
    "C40_affine",
    "C40_walker_order",
    "C40_documented_refuted"
   ],
   "note": "The statistic the code computes is characterised; it differs from the documented one (C40_documented_refuted)."
  },
  {
   "property": "C41",
   "status": "partial",
   "theorems": [
    "C41_gelman_rubin",
    "C41_geweke",
    "C41_succeeds",
    "C41_empty",
    "C41_clash_refuted"
   ],
   "note": "Proved for chains of distinct names; refuted for two chain objects of the same name (C41_clash_refuted)."
  },
  {
   "property": "C42",
   "status": "proved",
   "theorems": [
    "C42_windows",
    "C42_disjoint",
    "C42_affine",
    "C42_empty_window"
   ],
   "note": ""
  },
  {
   "property": "C43",
   "status": "proved",
   "theorems": [
    "C43_surface",
    "C43_drawn"
   ],
   "note": ""
  },
  {
   "property": "C44",
   "status": "proved",
   "theorems": [
    "C44_levels",
    "C44_accepted",
    "C44_rejected"
   ],
   "note": ""
  },
  {
   "property": "C45",
   "status": "proved",
   "theorems": [
    "C45_cloud",
    "C45_count",
    "C45_zero"
   ],
   "note": ""
  },
  {
   "property": "C46",
   "status": "partial",
   "theorems": [
    "C46_triangle",
    "C46_walks",
    "C46_distributions_partial",
    "C46_distributions_refuted",
    "C46_summary"
   ],
   "note": "Truth lines: triangle, walk and summary figures proved. plot_distributions draws them along the wrong axis (C46_distributions_refuted); C46_distributions_partial says what it draws."
  },
  {
   "property": "C47",
   "status": "partial",
   "theorems": [
    "C47_triangle_partial",
    "C47_minor_refuted",
    "C47_colourbar_refuted",
    "C47_walks_partial",
    "C47_walks_refuted",
    "C47_distributions_partial",
    "C47_distributions_refuted",
    "C47_summary_partial",
    "C47_summary_refuted"
   ],
   "note": "Blinding holds on linear axes of all four figures. Refuted where the code leaks tick labels: logarithmic axes (of at most a decade on triangle, walk and distribution figures) and the colour bar label (C47_*_refuted)."
  },
  {
   "property": "C48",
   "status": "partial",
   "theorems": [
    "C48_grid",
    "C48_once",
    "C48_panels",
    "C48_labels_partial",
    "C48_flip_refuted"
   ],
   "note": "Proved but for flip=True, where the last panel has no label and ticks (C48_flip_refuted)."
  },
  {
   "property": "C49",
   "status": "proved",
   "theorems": [
    "C49_legend"
   ],
   "note": ""
  },
  {
   "property": "C50",
   "status": "proved",
   "theorems": [
    "C50_triangle",
    "C50_walks",
    "C50_distributions",
    "C50_summary"
   ],
   "note": ""
  },
  {
   "property": "C51",
   "status": "proved",
   "theorems": [
    "C51_selection",
    "C51_default"
   ],
   "note": ""
  },
  {
   "property": "C52",
   "status": "partial",
   "theorems": [
    "C52_hex_unchanged",
    "C52_names",
    "C52_aliases_partial",
    "C52_alias_refuted",
    "C52_idempotent",
    "C52_unknown",
    "C52_shades",
    "C52_short_names",
    "C52_black_white",
    "C52_primary"
   ],
   "note": "Proved for every name and alias but 'e' (C52_alias_refuted)."
  },
  {
   "property": "C53",
   "status": "proved",
   "theorems": [
    "C53_scale",
    "C53_identity",
    "C53_monotone",
    "C53_by_name"
   ],
   "note": ""
  },
  {
   "property": "C54",
   "status": "partial",
   "theorems": [
    "C54_marginal",
    "C54_surface_partial",
    "C54_dist_partial",
    "C54_exists",
    "C54_exists_surface",
    "C54_values",
    "C54_values_surface",
    "C54_weights",
    "C54_weights_surface",
    "C54_units",
    "C54_units_surface",
    "C54_surface_setting_ignored",
    "C54_surface_refuted",
    "C54_dist_refuted"
   ],
   "note": "Over the reals. The one-dimensional estimate used for summaries and marginals has the width set by kde (C54_marginal). In two dimensions and in plot_dist the setting is passed as the truncation, so the width does not follow it: C54_surface_refuted, C54_dist_refuted; C54_surface_partial and C54_dist_partial say what is computed instead. The nearest-neighbour query is an oracle with the specification finds_nearest (C54_nonvacuous exhibits one)."
  },
  {
   "property": "C55",
   "status": "partial",
   "theorems": [
    "C55_partial",
    "C55_refuted"
   ],
   "note": "C55_partial proves the scaling the code performs; the loop is off by one, so a panel gets the scale of the next parameter and the last none (C55_refuted)."
  },
  {
   "property": "C56",
   "status": "proved",
   "theorems": [
    "C56_rows",
    "C56_posterior"
   ],
   "note": ""
  },
  {
   "property": "C57",
   "status": "proved",
   "theorems": [
    "C57_restore",
    "C57_draw",
    "C57_only",
    "C57_none"
   ],
   "note": ""
  },
  {
   "property": "C58",
   "status": "proved",
   "theorems": [
    "C58_watermark",
    "C58_legend",
    "C58_label",
    "C58_place"
   ],
   "note": ""
  },
  {
   "property": "C59",
   "status": "proved",
   "theorems": [
    "C59_accepts",
    "C59_order",
    "C59_array_roundtrip",
    "C59_bound_roundtrip",
    "C59_all_none",
    "C59_missing_becomes_nan",
    "C59_summary_array"
   ],
   "note": ""
  },
  {
   "property": "C60",
   "status": "proved",
   "theorems": [
    "C60_smoothing_mass"
   ],
   "note": ""
  },
  {
   "property": "C61",
   "status": "proved",
   "theorems": [
    "C61_settings",
    "C61_fields",
    "C61_samples"
   ],
   "note": ""
  },
  {
   "property": "C62",
   "status": "proved",
   "theorems": [
    "C62_histogram",
    "C62_edges",
    "C62_kde"
   ],
   "note": ""
  },
  {
   "property": "C63",
   "status": "proved",
   "theorems": [
    "C63_panel",
    "C63_colour"
   ],
   "note": ""
  },
  {
   "property": "C64",
   "status": "proved",
   "theorems": [
    "C64_labels",
    "C64_sigma2d"
   ],
   "note": ""
  },
  {
   "property": "C65",
   "status": "proved",
   "theorems": [
    "C65_triangle",
    "C65_walks",
    "C65_distributions",
    "C65_summary"
   ],
   "note": ""
  },
  {
   "property": "C66",
   "status": "proved",
   "theorems": [
    "C66_triangle",
    "C66_distributions",
    "C66_summary"
   ],
   "note": ""
  },
  {
   "property": "C67",
   "status": "proved",
   "theorems": [
    "C67_colourbars"
   ],
   "note": ""
  },
  {
   "property": "C68",
   "status": "proved",
   "theorems": [
    "C68_title",
    "C68_distributions"
   ],
   "note": ""
  },
  {
   "property": "C69",
   "status": "proved",
   "theorems": [
    "C69_smoothed"
   ],
   "note": ""
  },
  {
   "property": "C70",
   "status": "partial",
   "theorems": [
    "C70_partial",
    "C70_refuted"
   ],
   "note": "C70_partial: proved when all drawn walks have the same length; C70_refuted: otherwise the axis ends at the last walk drawn, not the longest."
  },
  {
   "property": "C71",
   "status": "partial",
   "theorems": [
    "C71_partial",
    "C71_refuted"
   ],
   "note": "Everything but the label: the column name is used instead of the configured label (C71_refuted)."
  },
  {
   "property": "C72",
   "status": "proved",
   "theorems": [
    "C72_layout",
    "C72_errorbars"
   ],
   "note": ""
  },
  {
   "property": "C73",
   "status": "proved",
   "theorems": [
    "C73_repeatable"
   ],
   "note": ""
  },
  {
   "property": "C75",
   "status": "partial",
   "theorems": [
    "C75_summary_partial",
    "C75_shift_partial",
    "C75_modes_partial",
    "C75_hdi_refuted",
    "C75_bands_refuted",
    "C75_kde_refuted"
   ],
   "note": "Without kernel density estimates: proved for the maximum, mean, cumulative and max-central statistics and for the bounds of given bands (C75_summary_partial, C75_modes_partial), and for everything if only the zero moves (C75_shift_partial). Refuted for the highest density statistic, the bands themselves and with kernel density estimates: tolerances and table sizes are absolute (C75_hdi_refuted, C75_bands_refuted, C75_kde_refuted). Hypothesis: the power function is multiplicative and positive."
  },
  {
   "property": "C76",
   "status": "proved",
   "theorems": [
    "C76_summary",
    "C76_reordered",
    "C76_reweighed",
    "C76_split"
   ],
   "note": "C76_summary for any table with the same weighted samples; C76_reordered, C76_reweighed and C76_split show that the three transformations give such tables. Hypothesis: the power function is multiplicative and positive."
  },
  {
   "property": "C77",
   "status": "proved",
   "theorems": [
    "C77_accepted",
    "C77_truths"
   ],
   "note": ""
  },
  {
   "property": "C74",
   "status": "partial",
   "theorems": [
    "C74_bars",
    "C74_smoothed",
    "C74_kde",
    "C74_shading",
    "C74_title_partial",
    "C74_bar_shade_refuted",
    "C74_label_refuted",
    "C74_gradient_refuted"
   ],
   "note": "The outline, its area, the shading and the title are proved as the code draws them. Not as a user expects: the setting bar_shade is ignored (C74_bar_shade_refuted), the title names the column and not the configured label (C74_label_refuted), and a shade_gradient above 1 can make the call fail where the figures work (C74_gradient_refuted). With a density estimate the curve is not normalised (C54_dist_refuted and the theorem on scaled weights in KdeProps)."
  },
  {
   "property": "C78",
   "status": "partial",
   "theorems": [
    "C78_shades",
    "C78_outward",
    "C78_gradient_refuted",
    "C78_short_refuted"
   ],
   "note": "Proved for six-digit colours and gradients below 10 (all palette colours are such). Chains accepted with a shorter hexadecimal colour, or with a gradient of 10 or more or -2 or less, cannot be drawn with contours at all (C78_short_refuted, C78_gradient_refuted)."
  },
  {
   "property": "C79",
   "status": "partial",
   "theorems": [
    "C79_chain",
    "C79_summary",
    "C79_single_value_refuted",
    "C79_range_refuted"
   ],
   "note": "Order and range proved for every entry of get_summary. The range of the samples itself is refuted for the highest density interval (C79_range_refuted), which can lie up to a fifth of the range beyond the samples; a parameter with one value has no summary at all (C79_single_value_refuted). KDE and power oracles are only assumed non-negative; bins set by hand must be at least 3."
  },
  {
   "property": "C80",
   "status": "partial",
   "theorems": [
    "C80_nested",
    "C80_bands",
    "C80_wider",
    "C80_hdi_nested_refuted"
   ],
   "note": "Nesting proved for the four other statistics and for separate modes; the highest density intervals are not nested (C80_hdi_nested_refuted) but not narrower (C80_wider, given points further apart than 1e-12 and a first point lighter than the area)."
  },
  {
   "property": "C81",
   "status": "proved",
   "theorems": [
    "C81_untouched",
    "C81_repeatable",
    "C81_figures"
   ],
   "note": ""
  },
  {
   "property": "C82",
   "status": "proved",
   "theorems": [
    "C82_differences",
    "C82_more",
    "C82_order",
    "C82_normalisation"
   ],
   "note": ""
  },
  {
   "property": "C83",
   "status": "partial",
   "theorems": [
    "C83_density",
    "C83_contours_partial",
    "C83_regions",
    "C83_rescaled",
    "C83_reordered",
    "C83_split",
    "C83_weights_refuted"
   ],
   "note": "The density for all units of both parameters and of the weights (C83_density); the contours for all units of the parameters, and for other units of the weights if no cell of the density is empty (C83_contours_partial). With empty cells the contours change with the units of the weights, because an empty cell counts as 1e-16 (C83_weights_refuted). Equally dense cells may be ranked differently; all others have the same value (C83_regions). Hypotheses: power function multiplicative and positive, non-negative weights, kernel and density estimate, argsort sorts."
  },
  {
   "property": "C84",
   "status": "partial",
   "theorems": [
    "C84_density_partial",
    "C84_panel_partial",
    "C84_drawable_partial",
    "C84_grid_kde_refuted"
   ],
   "note": "All chains without a kernel density estimate, and those with a symmetric one that are not grids. With an estimate on a grid that has different numbers of values along its axes the two panels are computed on different grids (C84_grid_kde_refuted), because both axes get twice as many points as there are values of the horizontal parameter. Hypotheses: power respects equality and keeps non-negative values, non-negative weights, kernel and density estimate, argsort sorts. Equally dense cells may be ranked differently."
  },
  {
   "property": "C85",
   "status": "partial",
   "theorems": [
    "C85_well_spelt",
    "C85_misspelt_partial",
    "C85_recovers",
    "C85_refuted"
   ],
   "note": "Unknown keywords are not refused (C85_refuted): pydantic ignores extra keywords unless told otherwise, but keeps their names among the fields the user set. On a chain a misspelt setting has no effect; on an override it makes every later figure and summary of a consumer with chains raise AttributeError, leaving the session unchanged (C85_misspelt_partial), until another override is set (C85_recovers). Without unknown keywords sessions behave as in C01-C05 (C85_well_spelt)."
  },
  {
   "property": "C86",
   "status": "proved",
   "theorems": [
    "C86_columns",
    "C86_refused",
    "C86_returns"
   ],
   "note": ""
  },
  {
   "property": "C87",
   "status": "partial",
   "theorems": [
    "C87_diagonal",
    "C87_width",
    "C87_height_partial",
    "C87_height_refuted"
   ],
   "note": "Place, direction and width as stated; lower and upper border only for figures not wider than high, or for texts written without LaTeX at least 3.5 times W/H as wide as high (C87_height_partial): a short text on a wide figure is higher than the figure (C87_height_refuted). Hypothesis: text extents in proportion to the font size; real arithmetic. For a watermark on one axis the share is of the figure's width, not of the axis'."
  },
  {
   "property": "C88",
   "status": "partial",
   "theorems": [
    "C88_colours",
    "C88_shades",
    "C88_negative_refuted"
   ],
   "note": "For scales of at least zero (values above one lighten, cut at 255). With a negative scale the middle colours are returned without their number sign and are no colours (C88_negative_refuted). Hypothesis: matplotlib writes RGBA values as #rrggbb."
  },
  {
   "property": "C89",
   "status": "partial",
   "theorems": [
    "C89_distribution",
    "C89_table_partial",
    "C89_single_refuted"
   ],
   "note": "All numbers of points but one: a single point is refused with a ValueError (C89_single_refuted), because scipy drops axes of length one. Real arithmetic; scipy's distribution and numpy's random numbers are arguments."
  },
  {
   "property": "C90",
   "status": "proved",
   "theorems": [
    "C90_override",
    "C90_config"
   ],
   "note": ""
  },
  {
   "property": "C91",
   "status": "proved",
   "theorems": [
    "C91_text",
    "C91_table",
    "C91_shuffled"
   ],
   "note": ""
  },
  {
   "property": "C92",
   "status": "partial",
   "theorems": [
    "C92_chain_partial",
    "C92_override_partial",
    "C92_only",
    "C92_automatic_refuted",
    "C92_override_refuted",
    "C92_rename_refuted"
   ],
   "note": "All settings but the automatic ones (shade, bar_shade, sigmas, shade_alpha), which are kept only if they were given when the chain was made: otherwise they are replaced by the automatic value (C92_automatic_refuted). Attributes of the override count only if they were given when it was made (C92_override_refuted). A chain renamed after it was added is still known by its old name and can no longer be asked for or removed as an object (C92_rename_refuted). Values are well typed; pydantic does not validate or convert assigned values."
  },
  {
   "property": "C93",
   "status": "partial",
   "theorems": [
    "C93_reordered",
    "C93_correlation_reordered",
    "C93_correlation_split",
    "C93_split_partial",
    "C93_split_refuted"
   ],
   "note": "Reordering: both matrices. Splitting a row: the correlations; the covariances all shrink by the ratio of the normalisations W - W2/W (C93_split_partial), so a non-zero variance always gets smaller although the weighted samples are the same (C93_split_refuted)."
  },
  {
   "property": "C94",
   "status": "partial",
   "theorems": [
    "C94_order_partial",
    "C94_order_surface_partial",
    "C94_order_dist_partial",
    "C94_few_refuted",
    "C94_split_refuted",
    "C94_order_refuted"
   ],
   "note": "Order of the rows: the same values at targets with at least four samples within reach, or if all weights are equal; otherwise which of several equally close samples counts is up to the tree, whatever the tree two orders give different values (C94_order_refuted). A row split in two: the bandwidth depends on the number of rows, not on the weights, the values are not even proportional (C94_split_refuted). Two or three samples: IndexError (C94_few_refuted)."
  },
  {
   "property": "C95",
   "status": "proved",
   "theorems": [
    "C95_triangle",
    "C95_distributions",
    "C95_summary",
    "C95_walks",
    "C95_converted",
    "C95_reordered",
    "C95_split"
   ],
   "note": ""
  },
  {
   "property": "C96",
   "status": "proved",
   "theorems": [
    "C96_chain",
    "C96_summary"
   ],
   "note": ""
  },
  {
   "property": "C98",
   "status": "partial",
   "theorems": [
    "C98_no_effect_partial",
    "C98_parameters_partial",
    "C98_parameters_refuted"
   ],
   "note": "All but matplotlib's parameters: a drawing that raises after they have been set leaves usetex and the font family changed (C98_parameters_refuted); no other failing call touches them (C98_parameters_partial)."
  },
  {
   "property": "C99",
   "status": "partial",
   "theorems": [
    "C99_isolated_partial",
    "C99_restore_partial",
    "C99_restore_refuted"
   ],
   "note": "Chains, settings, answers and figures: in full. Restoring matplotlib's parameters: if all consumers are made before the first figure (C99_restore_partial); one that is made later takes the other's parameters for the user's, after both have restored usetex is still on (C99_restore_refuted)."
  },
  {
   "property": "C97",
   "status": "partial",
   "theorems": [
    "C97_summary_partial",
    "C97_named",
    "C97_together",
    "C97_drawn",
    "C97_weights_refuted",
    "C97_diagonal",
    "C97_distributions",
    "C97_rows",
    "C97_diagonal_drawn",
    "C97_distributions_drawn",
    "C97_rows_drawn",
    "C97_walks",
    "C97_walks_drawn"
   ],
   "note": "All but one thing: by default get_summary reports, for every chain, the parameters of all chains it has a column for, so a chain's own weights are reported as a parameter if another chain has a parameter of that name (C97_weights_refuted). C97_summary_partial covers the chain's own parameters. Drawing is covered for panels with two parameters, distributions (triangle diagonal, plot_distributions, plot_summary), error bars and the walks of parameters; the comparison of models (AIC, BIC, DIC) is relative to the best chain by definition."
  },
  {
   "property": "C100",
   "status": "partial",
   "theorems": [
    "C100_figures_partial",
    "C100_tables_partial",
    "C100_object_refuted",
    "C100_contours_refuted"
   ],
   "note": "For overrides that leave plot_contour and show_contour_labels alone and, if they give a colour, give one that is not None: all figures, the summary of all chains and LaTeX tables. Automatic shading is chosen before the override is applied, so an override of plot_contour is not the same as giving it to the chains (C100_contours_refuted). get_summary of chain objects ignores the override altogether (C100_object_refuted). With an override of the colour the second session may succeed where the first fails, because colours run out later."
  },
  {
   "property": "C101",
   "status": "partial",
   "theorems": [
    "C101_numpyro",
    "C101_arviz",
    "C101_emcee_partial",
    "C101_emcee_refuted",
    "C101_convergence_refuted"
   ],
   "note": "Proved for numpyro and arviz (scalar variables). For emcee every kept position of every walker is there once and the kept steps are right, but rows come step after step, so divide() gives stretches of the run of all walkers instead of walkers (C101_emcee_refuted, C101_emcee_partial says which position each row is); gelman_rubin on such a chain then reports two walkers that never meet as converged (C101_convergence_refuted)."
  },
  {
   "property": "C102",
   "status": "partial",
   "theorems": [
    "C102_distributions",
    "C102_summary",
    "C102_triangle",
    "C102_walks_refuted",
    "C102_range_refuted"
   ],
   "note": "Proved for plot, plot_distributions and plot_summary when no range is configured for the column. plot_walks returns a figure with an empty row (C102_walks_refuted), and with a configured range plot returns a figure with an empty panel (C102_range_refuted). The tables of covariances and correlations raise KeyError (C35_raises)."
  },
  {
   "property": "C103",
   "status": "partial",
   "theorems": [
    "C103_results",
    "C103_aic",
    "C103_bic",
    "C103_dic",
    "C103_table",
    "C103_table_raises",
    "C103_posteriors_partial",
    "C103_unnamed_refuted"
   ],
   "note": "Proved for the three criteria and the comparison table. get_max_posteriors warns once for each chain it leaves out (C103_posteriors_partial), but the warning does not name the chain (C103_unnamed_refuted)."
  },
  {
   "property": "C104",
   "status": "partial",
   "theorems": [
    "C104_results",
    "C104_parameter",
    "C104_given",
    "C104_summary",
    "C104_table",
    "C104_forced_refuted",
    "C104_hidden_refuted"
   ],
   "note": "Proved for get_parameter_summary and, in sessions whose overrides leave statistics and multimodal alone, for get_summary. With an override that makes a chain with maxima multimodal the warning is given although intervals are reported (C104_forced_refuted). get_latex_table warns about everything its chains plot (C104_table), also about parameters it hides (C104_hidden_refuted)."
  },
  {
   "property": "C105",
   "status": "proved",
   "theorems": [
    "C105_results",
    "C105_parameters",
    "C105_geweke",
    "C105_in_turn",
    "C105_unknown"
   ],
   "note": ""
  },
  {
   "property": "C106",
   "status": "proved",
   "theorems": [
    "C106_distributions",
    "C106_summary",
    "C106_shuffled"
   ],
   "note": ""
  },
  {
   "property": "C107",
   "status": "proved",
   "theorems": [
    "C107_triangle",
    "C107_shuffled"
   ],
   "note": ""
  },
  {
   "property": "C108",
   "status": "proved",
   "theorems": [
    "C108_results",
    "C108_triangle",
    "C108_distributions",
    "C108_summary",
    "C108_dist"
   ],
   "note": ""
  },
  {
   "property": "C109",
   "status": "proved",
   "theorems": [
    "C109_chain",
    "C109_config",
    "C109_figure"
   ],
   "note": ""
  },
  {
   "property": "C110",
   "status": "partial",
   "theorems": [
    "C110_range",
    "C110_long",
    "C110_one_partial",
    "C110_one_refuted"
   ],
   "note": "Proved for all windows, but a window of one sample shows an empty line instead of the walk (C110_one_partial, C110_one_refuted): the code slices with [0:-0]."
  },
  {
   "property": "C111",
   "status": "partial",
   "theorems": [
    "C111_mapping_partial",
    "C111_lookup_partial",
    "C111_series_refused_partial",
    "C111_series_refuted"
   ],
   "note": "Proved for dictionaries and other mappings (C111_mapping_partial, C111_lookup_partial). A Series, which the documentation allows, is always refused (C111_series_refused_partial, C111_series_refuted): pydantic validates dict[str, float] before the field validator that would convert it. Rests on the stated assumptions about pydantic."
  },
  {
   "property": "C112",
   "status": "proved",
   "theorems": [
    "C112_triangle",
    "C112_walks",
    "C112_distributions",
    "C112_summary",
    "C112_decoration"
   ],
   "note": ""
  },
  {
   "property": "C113",
   "status": "proved",
   "theorems": [
    "C113_truths",
    "C113_ranges"
   ],
   "note": ""
  },
  {
   "property": "C114",
   "status": "proved",
   "theorems": [
    "C114_distributions",
    "C114_triangle",
    "C114_summary",
    "C114_converted"
   ],
   "note": ""
  },
  {
   "property": "C115",
   "status": "proved",
   "theorems": [
    "C115_distributions",
    "C115_walks",
    "C115_summary",
    "C115_pair",
    "C115_alone"
   ],
   "note": ""
  },
  {
   "property": "C116",
   "status": "proved",
   "theorems": [
    "C116_summary",
    "C116_summary_all",
    "C116_covariance",
    "C116_correlation",
    "C116_table"
   ],
   "note": ""
  },
  {
   "property": "C117",
   "status": "proved",
   "theorems": [
    "C117_walks",
    "C117_converted"
   ],
   "note": ""
  },
  {
   "property": "C118",
   "status": "proved",
   "theorems": [
    "C118_gelman_rubin",
    "C118_geweke",
    "C118_fewer",
    "C118_zero"
   ],
   "note": ""
  },
  {
   "property": "C119",
   "status": "partial",
   "theorems": [
    "C119_aic",
    "C119_bic",
    "C119_rate",
    "C119_aic_few_refuted"
   ],
   "note": "Proved for the BIC, and for the AIC when there are more data points than parameters plus one. With fewer data points the AIC favours more parameters (C119_aic_few_refuted); the code does not warn."
  }
 ]
}