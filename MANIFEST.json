{
 "claims": [
  {
   "property": "C01",
   "status": "proved",
   "theorems": [
    "C01_schedule"
   ],
   "note": ""
  },
  {
   "property": "C02",
   "status": "proved",
   "theorems": [
    "C02_ties"
   ],
   "note": ""
  },
  {
   "property": "C03",
   "status": "proved",
   "theorems": [
    "C03_take",
    "C03_take_empty"
   ],
   "note": ""
  },
  {
   "property": "C04",
   "status": "partial",
   "theorems": [
    "C04_histories_partial",
    "C04_refuted",
    "C04_overflow_refuted"
   ],
   "note": "False of the code in general: refuted by two histories (two schedules after one take; more than 25 pending). Proved for all histories in which every schedule has a free slot, which includes everything the simulator itself does."
  },
  {
   "property": "C05",
   "status": "partial",
   "theorems": [
    "C05_initial_calendar_partial",
    "C05_refuted"
   ],
   "note": "Proved for the built-in season boundaries and all steps 1..2184. The part about the user's boundaries is false of the code (refuted): initl ignores QTR."
  },
  {
   "property": "C06",
   "status": "proved",
   "theorems": [
    "C06_loop_invariant",
    "C06_only_handlers_fail"
   ],
   "note": ""
  },
  {
   "property": "C07",
   "status": "proved",
   "theorems": [
    "C07_timetable"
   ],
   "note": ""
  },
  {
   "property": "C08",
   "status": "proved",
   "theorems": [
    "C08_terminates",
    "C08_no_late_event",
    "C08_stop_on_convergence"
   ],
   "note": "The handlers' own work is assumed to end. It need not: C75_program_refuted is an input whose first hour never ends, because the linear program cycles."
  },
  {
   "property": "C09",
   "status": "proved",
   "theorems": [
    "C09_draws_before_year_end",
    "C09_draws_per_year"
   ],
   "note": ""
  },
  {
   "property": "C10",
   "status": "proved",
   "theorems": [
    "C10_week_start",
    "C10_after_last_week"
   ],
   "note": ""
  },
  {
   "property": "C11",
   "status": "partial",
   "theorems": [
    "C11_lags_one_week",
    "C11_refuted"
   ],
   "note": "False of the code (refuted). Proved instead, for all tables and runs: week k applies the outages of week k-1."
  },
  {
   "property": "C12",
   "status": "partial",
   "theorems": [
    "C12_user_seasons_refuted",
    "C12_ratings_one_season_ahead",
    "C12_refuted"
   ],
   "note": "False of the code (refuted). Proved instead, for all tables and runs: draws in season q use the ratings of season q+1. The season ends on the card have no effect on the simulation (refuted)."
  },
  {
   "property": "C13",
   "status": "proved",
   "theorems": [
    "C13_program_streams",
    "C13_streams",
    "C13_in_range",
    "C13_lines_in_range"
   ],
   "note": ""
  },
  {
   "property": "C14",
   "status": "proved",
   "theorems": [
    "C14_outcome",
    "C14_capacity_bounds",
    "C14_alternative_agrees"
   ],
   "note": ""
  },
  {
   "property": "C15",
   "status": "proved",
   "theorems": [
    "C15_reliable_unit",
    "C15_shipped_seed",
    "C15_other_seed_fails"
   ],
   "note": "Proved for every initial seed divisible by 64, which includes the seed the program always uses (123456). A theorem shows it fails for seed 98769387, i.e. the property depends on the hard-wired seed."
  },
  {
   "property": "C16",
   "status": "proved",
   "theorems": [
    "C16_line_states",
    "C16_alternative_agrees"
   ],
   "note": ""
  },
  {
   "property": "C17",
   "status": "proved",
   "theorems": [
    "C17_capacity_conserved"
   ],
   "note": ""
  },
  {
   "property": "C18",
   "status": "proved",
   "theorems": [
    "C18_transfers_net_to_zero"
   ],
   "note": ""
  },
  {
   "property": "C19",
   "status": "proved",
   "theorems": [
    "C19_adding_contracts",
    "C19_restored",
    "C19_versions_agree"
   ],
   "note": ""
  },
  {
   "property": "C20",
   "status": "proved",
   "theorems": [
    "C20_daily_peaks",
    "C20_versions_agree"
   ],
   "note": ""
  },
  {
   "property": "C21",
   "status": "proved",
   "theorems": [
    "C21_weekly_peaks",
    "C21_every_day_in_one_week",
    "C21_versions_agree"
   ],
   "note": ""
  },
  {
   "property": "C22",
   "status": "proved",
   "theorems": [
    "C22_pool_peak_hour"
   ],
   "note": ""
  },
  {
   "property": "C23",
   "status": "proved",
   "theorems": [
    "C23_scaled_to_peak"
   ],
   "note": ""
  },
  {
   "property": "C24",
   "status": "partial",
   "theorems": [
    "C24_loop_version",
    "C24_capacity_partial",
    "C24_refuted"
   ],
   "note": "False of the code in the last season (refuted: np.argmax of an all-False mask is 0). Proved for the first three seasons, and in full for the unused loop version."
  },
  {
   "property": "C25",
   "status": "proved",
   "theorems": [
    "C25_levels_ordered"
   ],
   "note": ""
  },
  {
   "property": "C26",
   "status": "proved",
   "theorems": [
    "C26_matrix_is_laplacian"
   ],
   "note": ""
  },
  {
   "property": "C27",
   "status": "proved",
   "theorems": [
    "C27_update_is_rebuild",
    "C27_reduced_update_is_rebuild",
    "C27_reduction"
   ],
   "note": ""
  },
  {
   "property": "C28",
   "status": "proved",
   "theorems": [
    "C28_impedance_branch",
    "C28_impedance_reference"
   ],
   "note": ""
  },
  {
   "property": "C29",
   "status": "proved",
   "theorems": [
    "C29_flows_from_angles",
    "C29_kirchhoff",
    "C29_solver_delivers",
    "C29_unique"
   ],
   "note": ""
  },
  {
   "property": "C30",
   "status": "proved",
   "theorems": [
    "C30_balanced",
    "C30_curtailment_total",
    "C30_versions_agree"
   ],
   "note": ""
  },
  {
   "property": "C31",
   "status": "proved",
   "theorems": [
    "C31_accepted_iff_within_limits",
    "C31_accepted_solution"
   ],
   "note": ""
  },
  {
   "property": "C32",
   "status": "partial",
   "theorems": [
    "C32_base_restored_partial",
    "C32_lp_branch_loses_base_refuted"
   ],
   "note": "False of the code after the linear-programming branch (refuted: tm2.py 305 stores the matrix where its inverse should go). Proved for every call: the matrix is always restored, the inverse is restored whenever the direct solution is accepted."
  },
  {
   "property": "C33",
   "status": "partial",
   "theorems": [
    "C33_outages_applied_partial",
    "C33_reference_outage_ignored_refuted",
    "C33_reference_change_matrix_refuted"
   ],
   "note": "False of the code for an outage of a line at the reference area (refuted: skipped), and the matrix passed to the LP is wrong for changed reference lines (refuted). Proved for all connected networks in which no reference line is completely out."
  },
  {
   "property": "C34",
   "status": "proved",
   "theorems": [
    "C34_no_loss_means_margin",
    "C34_direct_balance",
    "C34_direct_any_lp"
   ],
   "note": "No-loss statement for every call, any LP; identification of the scheduled injection with the actual net outflow for hours solved without the LP."
  },
  {
   "property": "C35",
   "status": "proved",
   "theorems": [
    "C35_inverse"
   ],
   "note": ""
  },
  {
   "property": "C36",
   "status": "proved",
   "theorems": [
    "C36_hourly_record",
    "C36_versions_agree"
   ],
   "note": "Agreement of the two versions for whole-number margins, which is what hour.py passes (astype(int)); an example shows they differ on fractions."
  },
  {
   "property": "C37",
   "status": "partial",
   "theorems": [
    "C37_one_cause_partial",
    "C37_zero_sum_refuted"
   ],
   "note": "False of the code when the margins add up to exactly zero (refuted: the pool charges transmission, the areas generation). Proved for every other sum."
  },
  {
   "property": "C38",
   "status": "proved",
   "theorems": [
    "C38_peak_like_hourly",
    "C38_peak_below_hourly"
   ],
   "note": ""
  },
  {
   "property": "C39",
   "status": "proved",
   "theorems": [
    "C39_pool_energy_is_sum"
   ],
   "note": ""
  },
  {
   "property": "C40",
   "status": "proved",
   "theorems": [
    "C40_one_year",
    "C40_sums_over_years"
   ],
   "note": ""
  },
  {
   "property": "C41",
   "status": "partial",
   "theorems": [
    "C41_reset_partial",
    "C41_reset_refuted"
   ],
   "note": "False of the code: year.py 637-644 clears [:NFCST,:NOAREA] of arrays whose rows are areas. Proved: the pool arrays always, everything when the numbers of areas and levels are equal; refuted otherwise for every such pair."
  },
  {
   "property": "C42",
   "status": "partial",
   "theorems": [
    "C42_last_year_only_partial",
    "C42_pool_sum_refuted"
   ],
   "note": "False of the code: year() does not return its twelve pool scalars, so each year's test and report see that year's weighted pool totals only."
  },
  {
   "property": "C43",
   "status": "proved",
   "theorems": [
    "C43_one_observation",
    "C43_mass_is_years",
    "C43_zero_step_fails"
   ],
   "note": "Stated for a positive histogram step (MAXEUE >= 20); C43_zero_step_fails shows the run stops at the first year end otherwise."
  },
  {
   "property": "C44",
   "status": "proved",
   "theorems": [
    "C44_every_history",
    "C44_versions_agree",
    "C44_in_a_run"
   ],
   "note": "The test itself for every history of values, and in a run for every selection but pool+weighted, whose input is wrong (see C42, C45)."
  },
  {
   "property": "C45",
   "status": "partial",
   "theorems": [
    "C45_selection_partial",
    "C45_pool_weighted_refuted"
   ],
   "note": "True of 14 of the 16 kinds of selection; for the pool's weighted values (the default) the quantity is last year's only (refuted)."
  },
  {
   "property": "C46",
   "status": "proved",
   "theorems": [
    "C46_checkpoint_years"
   ],
   "note": ""
  },
  {
   "property": "C47",
   "status": "partial",
   "theorems": [
    "C47_statistics_resume_partial",
    "C47_resume_refuted",
    "C47_no_resumption_refuted"
   ],
   "note": "False of the code: both seeds are written as the literal 123, so no resumption can work (refuted). Proved: the checkpoint determines the calendar and everything later year ends add to, i.e. the accumulated statistics."
  },
  {
   "property": "C48",
   "status": "partial",
   "theorems": [
    "C48_level_averages",
    "C48_area_averages",
    "C48_percent_deviation",
    "C48_report_produced",
    "C48_distributions",
    "C48_pool_average_partial",
    "C48_pool_average_refuted"
   ],
   "note": "Proved for the level lines (areas and pool), the areas' weighted averages, deviations (squared) and all distributions; false for the pool's weighted averages (refuted, consequence of C42)."
  },
  {
   "property": "C49",
   "status": "partial",
   "theorems": [
    "C49_pool_row_partial",
    "C49_pool_reserve_refuted"
   ],
   "note": "False of the code: report.py 537-538 uses the last area's row. Proved: pool load and capacity are the sums, area percentages are right, and the pool's is right for a single area."
  },
  {
   "property": "C50",
   "status": "partial",
   "theorems": [
    "C50_refuted",
    "C50_program_refuted"
   ],
   "note": "False of the code: without shortage the list of short areas is empty and hour.py 148 (index -1 of an empty selection) raises IndexError; proved for every such hour (refuted). Also for runs: in every delivered draw of every run some area is short."
  },
  {
   "property": "C51",
   "status": "partial",
   "theorems": [
    "C51_fresh_states_partial",
    "C51_refuted",
    "C51_program_refuted"
   ],
   "note": "False of the code: in an hour without draw AVAIL and the line states are unbound locals (UnboundLocalError, refuted). Proved: every completed hour draws fresh states, every seed advances by one step. Also for runs: a run never passes the first draw without fresh states."
  },
  {
   "property": "C52",
   "status": "proved",
   "theorems": [
    "C52_only_shortage",
    "C52_level_untouched",
    "C52_covered_hour",
    "C52_all_short"
   ],
   "note": "For an arbitrary matrix inversion and an arbitrary linear-programming branch that returns one value per area."
  },
  {
   "property": "C53",
   "status": "partial",
   "theorems": [
    "C53_rows_partial",
    "C53_listed_partial",
    "C53_overflow",
    "C53_overflow_error",
    "C53_last_week_refuted"
   ],
   "note": "Partial: true for weeks 1-51; the last week of the table is always empty (refuted), so maintenance planned for week 52 never happens. Overlapping outages of one unit can overflow a row (IndexError)."
  },
  {
   "property": "C54",
   "status": "proved",
   "theorems": [
    "C54_faithful",
    "C54_unknown",
    "C54_position",
    "C54_program"
   ],
   "note": "Any card with an undeclared name is rejected with KeyError."
  },
  {
   "property": "C55",
   "status": "proved",
   "theorems": [
    "C55_unit_thresholds",
    "C55_line_sums"
   ],
   "note": "Stated for the data the simulation receives. The line sums are not checked to end at 1."
  },
  {
   "property": "C56",
   "status": "partial",
   "theorems": [
    "C56_refuted"
   ],
   "note": "Refuted: every input with a contract ends in a ValueError (dict.fromkeys/zip parentheses in datax.py 117)."
  },
  {
   "property": "C57",
   "status": "partial",
   "theorems": [
    "C57_add_unit",
    "C57_rows_exact",
    "C57_versions_agree",
    "C57_repeated_level_refuted",
    "C57_probabilities",
    "C57_levels",
    "C57_scheduler_refuted",
    "C57_reading"
   ],
   "note": "gsm/_gsm/pmlolp. C57_add_unit: every K, exact convolution or cut off (at most 1e-9). C57_rows_exact: rows exact and strictly increasing if the old levels are and the rounded capacity is positive. C57_probabilities: whole pmlolp against enumerated outcomes of independent units, error at most 1e-9 per unit. C57_repeated_level_refuted and C57_scheduler_refuted: 'strictly increasing' is false for units rounded to 0 MW, and for every table of the maintenance scheduler (its first unit is the zero row)."
  },
  {
   "property": "C58",
   "status": "partial",
   "theorems": [
    "C58_whole_partial",
    "C58_refuted",
    "C58_skipped"
   ],
   "note": "Proved for whole-number capacities (C58_whole_partial) and for the skipped units (C58_skipped); false for fractions 4.5 to 5 MW above a multiple of ten, which are rounded up (C58_refuted)."
  },
  {
   "property": "C59",
   "status": "partial",
   "theorems": [
    "C59_line_limits_partial",
    "C59_area_limits_refuted"
   ],
   "note": "Lines: proved for all hours solved without the LP, no-loss-sharing. Areas: false of the code (refuted)."
  },
  {
   "property": "C60",
   "status": "proved",
   "theorems": [
    "C60_emergency_shares"
   ],
   "note": "Hours solved without the LP (the direct solution is within limits both times)."
  },
  {
   "property": "C61",
   "status": "partial",
   "theorems": [
    "C61_info_partial",
    "C61_zero_column_refuted"
   ],
   "note": "False of the code for a zero first column (refuted: index 0 is also the success code). Proved: non-zero INFO means singular; INFO = 0 with a non-zero first column means non-singular."
  },
  {
   "property": "C62",
   "status": "partial",
   "theorems": [
    "C62_program_refuted",
    "C62_program_partial",
    "C62_annual_print_refuted",
    "C62_annual_print_partial"
   ],
   "note": "False of the code for IOJ<>0, INDX<>1 and no generation-caused pool loss at the first level (XMGNH is read before assignment). Proved in the complementary cases. C62_program_refuted/C62_program_partial lift this to the whole program: INDX is 1 exactly when JSTEP is 24."
  },
  {
   "property": "C63",
   "status": "partial",
   "theorems": [
    "C63_peak_hours_partial",
    "C63_last_hour_refuted"
   ],
   "note": "False of the code for the last hour of the year (index -1 is compared with 8759; refuted); proved for all other hours and for the daily step."
  },
  {
   "property": "C64",
   "status": "partial",
   "theorems": [
    "C64_annual_partial",
    "C64_annual_refuted",
    "C64_report_levels"
   ],
   "note": "Partial: true of the pool's entries and of the areas' entries that a year end clears (C41); the other area entries hold the total since the start of the run (refuted). For arbitrary inversion and LP branch."
  },
  {
   "property": "C65",
   "status": "proved",
   "theorems": [
    "C65_one_report"
   ],
   "note": "For arbitrary inversion and LP branch. The end-of-time exit of contrl is unreachable."
  },
  {
   "property": "C66",
   "status": "partial",
   "theorems": [
    "C66_kept_partial",
    "C66_moved_refuted",
    "C66_last_week_refuted",
    "C66_any_table_partial"
   ],
   "note": "Partial: true for units that share their area with another unit, weeks 1-51. Refuted for a unit alone in its area (moved to the second week) and for week 52. For arbitrary scheduling heuristics. For any table given to smaint: only the first unit of an area can lose its weeks."
  },
  {
   "property": "C67",
   "status": "partial",
   "theorems": [
    "C67_refuted",
    "C67_any_table_refuted"
   ],
   "note": "Refuted: units without a start week are never taken out (unless alone in the area, then out from the second week, C66). For arbitrary scheduling heuristics: the loop that would use them never runs. For any table: a unit that is not the first of its area and has no weeks is never taken out."
  },
  {
   "property": "C68",
   "status": "partial",
   "theorems": [
    "C68_refuted"
   ],
   "note": "Refuted: the prepared input does not depend on the seed; narpMain uses 123456."
  },
  {
   "property": "C69",
   "status": "partial",
   "theorems": [
    "C69_digit_partial",
    "C69_peak_partial",
    "C69_names_refuted",
    "C69_data_line",
    "C69_extra_line"
   ],
   "note": "Partial: blocks are matched by the digit in the seventh column of the header to the position of the area on the cards; names are not compared (refuted when the order differs), more than nine areas are impossible."
  },
  {
   "property": "C70",
   "status": "partial",
   "theorems": [
    "C70_file_refuted",
    "C70_table_partial"
   ],
   "note": "Refuted for files (the percentages are one text per row: IndexError); the shares are right for a table built by hand (partial)."
  },
  {
   "property": "C71",
   "status": "proved",
   "theorems": [
    "C71_accepted",
    "C71_contents"
   ],
   "note": "For arbitrary scheduling heuristics. Units: ratings, location, ownership, derating; thresholds in C55, outages in C66, loads in C69, lines in C72."
  },
  {
   "property": "C72",
   "status": "proved",
   "theorems": [
    "C72_line_states"
   ],
   "note": "A line state entered with capacity 0 is simulated with 1 MW."
  },
  {
   "property": "C73",
   "status": "proved",
   "theorems": [
    "C73_solution",
    "C73_program"
   ],
   "note": "Exact rationals; well_scaled excludes numbers between 0 and the tolerances (decided by `check` for given data). C73_program: connls produces such programs."
  },
  {
   "property": "C74",
   "status": "proved",
   "theorems": [
    "C74_optimal"
   ],
   "note": "Dual argument; same conventions as C73."
  },
  {
   "property": "C75",
   "status": "partial",
   "theorems": [
    "C75_no_exception",
    "C75_descends",
    "C75_bound_partial",
    "C75_repetition_is_endless",
    "C75_always_stops_refuted",
    "C75_network_refuted",
    "C75_program_refuted"
   ],
   "note": "Refuted: C75_always_stops_refuted is a feasible program of 4 constraints on which the solver cycles for ever; C75_network_refuted is an hour of a network as the program builds it (5 areas, 7 lines, all capacities and limits positive, balanced schedule) whose linear program never ends, whatever the number of passes and the inversion routine; C75_program_refuted is a whole simulation that never leaves its first hour. Exact arithmetic: with rounding the entry into the linear program (flows exactly at their limits) may be decided differently. Proved: no exception, objective never grows, basis changes in each pass, it stops within 2 N^M passes or never, and a repeated basis means never."
  },
  {
   "property": "C76",
   "status": "proved",
   "theorems": [
    "C76_net_versions"
   ],
   "note": ""
  },
  {
   "property": "C77",
   "status": "partial",
   "theorems": [
    "C77_congested_hour_partial",
    "C77_first_area_refuted",
    "C77_reference_line_refuted",
    "C77_loss_not_counted_refuted"
   ],
   "note": "Partial: everything for the areas other than the first in the order LT, for lines at the reference in their base state, and for scheduled transfers solved directly. Refuted for the first area (net.py: k > N - M instead of >=; its shortage is recorded as surplus) and for changed lines at the reference (BB updated with the square of the admittance). C77_loss_not_counted_refuted: in a simulated hour the loss of that area is not recorded at all."
  },
  {
   "property": "C78",
   "status": "proved",
   "theorems": [
    "C78_least_curtailment",
    "C78_feasible_served"
   ],
   "note": "Within the tolerance 1e-7 times the sum of the variables of the alternative (lp_size)."
  },
  {
   "property": "C79",
   "status": "partial",
   "theorems": [
    "C79_fits_iff",
    "C79_too_large_refuted",
    "C79_fits_runs"
   ],
   "note": "Refuted: connected networks of 29 areas or more end in IndexError. Exact size condition in C79_fits_iff; when it fits, only non-termination is possible (C79_fits_runs)."
  },
  {
   "property": "C80",
   "status": "partial",
   "theorems": [
    "C80_loss_sharing_refuted"
   ],
   "note": "Refuted: always TypeError (conls takes ten arguments and is called with eleven)."
  },
  {
   "property": "C81",
   "status": "partial",
   "theorems": [
    "C81_trace_fails_refuted"
   ],
   "note": "Refuted: always TypeError or IndexError."
  },
  {
   "property": "C82",
   "status": "partial",
   "theorems": [
    "C82_capacity_partial",
    "C82_last_season_refuted",
    "C82_pool_row"
   ],
   "note": "Right up to the third change of season (C82_capacity_partial); later peak days get the ratings of season 0 (C82_last_season_refuted, defect). Joint ownership and contracts cannot occur in accepted input (C56, C70)."
  },
  {
   "property": "C83",
   "status": "proved",
   "theorems": [
    "C83_line_table"
   ],
   "note": "Line numbers are the cards' LineID minus 1."
  },
  {
   "property": "C84",
   "status": "proved",
   "theorems": [
    "C84_numbers",
    "C84_line_data"
   ],
   "note": "inf, nan and underscores, which Python's float accepts, are refused by the model; values are exact (no rounding to binary)."
  },
  {
   "property": "C85",
   "status": "proved",
   "theorems": [
    "C85_cards",
    "C85_column_order"
   ],
   "note": "both directions, for tables without repeated column names or empty fields; pandas.read_csv itself is not modelled."
  },
  {
   "property": "C86",
   "status": "proved",
   "theorems": [
    "C86_missing_column",
    "C86_one_row",
    "C86_kinds",
    "C86_line_data"
   ],
   "note": "consequences of C85: no cards are produced."
  },
  {
   "property": "C87",
   "status": "partial",
   "theorems": [
    "C87_refuted"
   ],
   "note": "refuted: changing only the serial numbers never changes the cards; the order of the file is kept."
  },
  {
   "property": "C88",
   "status": "partial",
   "theorems": [
    "C88_refuted"
   ],
   "note": "refuted: the derating card has no effect on what is simulated."
  },
  {
   "property": "C89",
   "status": "partial",
   "theorems": [
    "C89_refuted"
   ],
   "note": "refuted: changing the weeks of the windows and forbidden periods never changes the prepared input."
  },
  {
   "property": "C90",
   "status": "proved",
   "theorems": [
    "C90_load_text"
   ],
   "note": "every line ends with a newline; the header and data lines are those of DataSpec."
  },
  {
   "property": "C91",
   "status": "proved",
   "theorems": [
    "C91_files",
    "C91_accepted",
    "C91_nothing_else"
   ],
   "note": "composes with C54, C55, C66-C72, C82, C83, which are about the cards."
  },
  {
   "property": "C92",
   "status": "proved",
   "theorems": [
    "C92_arithmetic",
    "C92_clock_exact",
    "C92_day_number",
    "C92_year_number"
   ],
   "note": "Whole end times; steps 1..2184. Overflow to infinity is outside the model."
  },
  {
   "property": "C93",
   "status": "partial",
   "theorems": [
    "C93_counted",
    "C93_grid",
    "C93_sign",
    "C93_exact_threshold_refuted"
   ],
   "note": "'Short by at least one MW' is proved for data on a binary grid (k <= 53) and up to 2^-54 MW otherwise; the exact form is refuted (2^-60 against 1)."
  },
  {
   "property": "C94",
   "status": "partial",
   "theorems": [
    "C94_sum_exact",
    "C94_capacity_by_area",
    "C94_transfers",
    "C94_any_data_refuted"
   ],
   "note": "Holds for data on a grid with the stated magnitude bound; for arbitrary floats order independence is refuted."
  },
  {
   "property": "C95",
   "status": "proved",
   "theorems": [
    "C95_sum_error",
    "C95_relative"
   ],
   "note": "np.sum's own blocking is one of the orders quantified over."
  },
  {
   "property": "C96",
   "status": "proved",
   "theorems": [
    "C96_peak",
    "C96_order",
    "C96_error"
   ],
   "note": "The relative error theorem excludes subnormal quotients."
  },
  {
   "property": "C97",
   "status": "proved",
   "theorems": [
    "C97_same_seeds",
    "C97_outcome",
    "C97_capacity",
    "C97_reliable_unit",
    "C97_line_outcome"
   ],
   "note": "C97_reliable_unit needs an initial seed divisible by 64, as C15 does; the shipped one is."
  },
  {
   "property": "C98",
   "status": "proved",
   "theorems": [
    "C98_levels",
    "C98_loads"
   ],
   "note": ""
  },
  {
   "property": "C99",
   "status": "partial",
   "theorems": [
    "C99_contracts_restored",
    "C99_any_data_refuted"
   ],
   "note": "True for data on a grid; refuted for arbitrary floats ((0.1+0.2)-0.2)."
  },
  {
   "property": "C100",
   "status": "partial",
   "theorems": [
    "C100_program",
    "C100_feasible_is_dispatch",
    "C100_dispatch_is_feasible",
    "C100_least_curtailment",
    "C100_fits_iff",
    "C100_limits_exchanged_refuted",
    "C100_negative_capacity_refuted"
   ],
   "note": "Everything but the area limits holds; the limits on imports and exports are exchanged (refuted), and a negative capacity gives a wrong starting basis (refuted). tm2 cannot reach this program (C80); conls is public."
  },
  {
   "property": "C101",
   "status": "proved",
   "theorems": [
    "C101_network",
    "C101_hour",
    "C101_run",
    "C101_only_cause"
   ],
   "note": "Complete input: input_ok, lines_ok (six states per line, line table within range), base_net (the network of first states connects all areas), rates_ok, outages_ok (52 rows), draw frequency >= 1, histogram step >= 1 MW (MAXEUE >= 20). np.linalg.inv is any routine that inverts what has an inverse; the linear program is arbitrary (with keeps_areas). C101_only_cause: with freq 1, no annual printing, no loss sharing and an answering program the only exception left is C50's."
  },
  {
   "property": "C102",
   "status": "proved",
   "theorems": [
    "C102_complete",
    "C102_run",
    "C102_report"
   ],
   "note": "Hypotheses: says f c and loads_text (C85, C90), valid_cards and full blocks (C71), sound_lines (EndSpec: connected line cards), freq >= 1, MAXEUE >= 20, FINISH >= 1. as_set lists the settings that reach the run. np.linalg.inv as in C101, the linear program arbitrary (keeps_areas). The failures are those of C101; C102_report states the pool's levels (areas: C64)."
  },
  {
   "property": "C103",
   "status": "proved",
   "theorems": [
    "C103_capacities",
    "C103_completes",
    "C103_inverts"
   ],
   "note": "always_short (EndSpec) is stated on the cards and the load blocks. C103_inverts gives a concrete inversion routine (C35's factorisation, checked) meeting the assumption of C101-C103; C103_witness instantiates the theorem with files, that routine and a trivial linear program."
  },
  {
   "property": "C104",
   "status": "partial",
   "theorems": [
    "C104_eased_hour",
    "C104_two_hours",
    "C104_limits_only",
    "C104_more_capacity_refuted",
    "C104_line_in_service_refuted"
   ],
   "note": "Proved for limits and for surpluses (against every dispatch of the tighter hour, and between two hours when the first is solved directly; up to the solver's tolerance, lines at the reference in their base state). Refuted for capacity in a short area (it stops importing against a congested flow and cannot leave capacity unused: 7 MW lost elsewhere) and for lines: a line in service can be worse than the line out."
  },
  {
   "property": "C105",
   "status": "proved",
   "theorems": [
    "C105_longer_run",
    "C105_results_kept"
   ],
   "note": "For all fuel, inversions and LP branches. The tolerance compared is the effective one (0 means 0.025)."
  },
  {
   "property": "C106",
   "status": "proved",
   "theorems": [
    "C106_output_options",
    "C106_same_report"
   ],
   "note": "For all fuel, inversions and LP branches; the text written by the annual table is outside the model."
  },
  {
   "property": "C107",
   "status": "partial",
   "theorems": [
    "C107_leftovers",
    "C107_branch",
    "C107_export_limits_lost",
    "C107_run",
    "C107_equal_limits",
    "C107_same_hour_again_refuted",
    "C107_levels_refuted"
   ],
   "note": "Proved: an hour reads only area numbers and limits of what earlier hours left, so hours are independent when each area's import and export limits are equal; in general every hour behaves as with the cards' limits or as with all export limits replaced by the import limits. Refuted otherwise: transm.py 139-140 restores both limits from the import limit, so the same hour twice loses 6 then 0 (or 0 then 6); and a level after a level solved by the LP loses nothing instead of 4 (tm2.py 305)."
  },
  {
   "property": "C108",
   "status": "proved",
   "theorems": [
    "C108_names",
    "C108_files"
   ],
   "note": "For cards and for csv tables, valid or not, for any maintenance heuristics; the load file is matched by digit (C69) and kept."
  },
  {
   "property": "C109",
   "status": "proved",
   "theorems": [
    "C109_period",
    "C109_uniform",
    "C109_draws",
    "C109_units",
    "C109_lines",
    "C109_mean"
   ],
   "note": "Streams are those of the runs (C109_draws: draw k uses number k of the stream); exact period and equidistribution within 1e-6 (the scale constant and the granularity 512/2^31)."
  },
  {
   "property": "C110",
   "status": "partial",
   "theorems": [
    "C110_relation_refuted",
    "C110_third_refuted",
    "C110_states_refuted"
   ],
   "note": "Refuted: multiplier 65539 modulo 2^31 gives x''=6x'-9x for every stream; after two successive numbers above 1-f the third is below 9f or above 1-6f; a line with six states never goes 6,6,2 / 6,6,3 / 6,6,4 although these states take 60 % of the draws."
  },
  {
   "property": "C111",
   "status": "partial",
   "theorems": [
    "C111_units",
    "C111_better",
    "C111_lines",
    "C111_added_unit_refuted"
   ],
   "note": "Units and lines with the same number of units: proved, with monotonicity. Last sentence refuted: the lines' streams follow the units' ones, so one unit more shifts the stream of every line (C111_added_unit_refuted)."
  },
  {
   "property": "C112",
   "status": "partial",
   "theorems": [
    "C112_shared",
    "C112_small_partial",
    "C112_streams_refuted",
    "C112_outages_refuted"
   ],
   "note": "Refuted: unit 32+u is unit u 14848 draws (1.7 years of hourly draws) later (C112_streams_refuted, C112_outages_refuted). Exact characterisation of all coincidences (C112_shared); none with at most 32 units and lines and fewer than 521504 draws (C112_small_partial)."
  },
  {
   "property": "C113",
   "status": "proved",
   "theorems": [
    "C113_tables",
    "C113_run",
    "C113_bound_needed",
    "C113_average"
   ],
   "note": "Rounded additions in every cell (C113_tables), in every run (C113_run), the average (C113_average); without the bound it is false (C113_bound_needed). Not covered: the values weighted with the probabilities of the forecast levels (SWL, SWN) and the histograms."
  },
  {
   "property": "C114",
   "status": "partial",
   "theorems": [
    "C114_years_partial",
    "C114_totals_partial",
    "C114_annual_partial",
    "C114_area_years_refuted",
    "C114_converges_at_five_partial"
   ],
   "note": "Proved for the pool and for the entries of areas that are cleared at a year end (C114_years_partial, C114_totals_partial, C114_annual_partial, C114_converges_at_five_partial); refuted for the entries of areas that are not cleared (C41): the y-th year has y times the losses of a year (C114_area_years_refuted). The pool's weighted statistic is left out of the convergence theorem (C45)."
  },
  {
   "property": "C115",
   "status": "partial",
   "theorems": [
    "C115_exact_partial",
    "C115_wrong_unit_refuted",
    "C115_line_zero_refuted",
    "C115_none_delivered"
   ],
   "note": "Refuted: the program looks at the number of units and at all units but the last (C115_wrong_unit_refuted: a line with one critical unit depends on unit 1), and never at line 0 (C115_line_zero_refuted). Proved: exactly what it does (C115_exact_partial), and that without a table, as datax always delivers, the hour is the one of HourModel (C115_none_delivered)."
  },
  {
   "property": "C116",
   "status": "partial",
   "theorems": [
    "C116_annual_table_partial",
    "C116_all_losing",
    "C116_stale_average_refuted",
    "C116_stale_peak_refuted",
    "C116_daily_remark_refuted",
    "C116_numbers_refuted",
    "C116_printed",
    "C116_every_year"
   ],
   "note": "Proved exactly (C116_annual_table_partial, C116_all_losing): every count, energy and average of the table except the two averages on the pool's GC lines. Refuted: without a generation-caused pool loss at a level these keep the previous level's GT averages (C116_stale_average_refuted), with the daily layout the sum lines of an area's levels say TC (C116_daily_remark_refuted), and areas and levels are numbered from 0 (C116_numbers_refuted). C116_printed and C116_every_year: when the table can be printed (cf. C62)."
  },
  {
   "property": "C117",
   "status": "partial",
   "theorems": [
    "C117_factorisations_agree",
    "C117_inversions_agree",
    "C117_original_inverts",
    "C117_determinant_refuted"
   ],
   "note": "Agreement proved (C117_factorisations_agree, C117_inversions_agree, C117_original_inverts). Refuted: the determinant; DET(1) calls an array, so JOB 1 and 3 raise TypeError (IndexError for size 1) for every non-singular matrix (C117_determinant_refuted)."
  },
  {
   "property": "C118",
   "status": "partial",
   "theorems": [
    "C118_same_states",
    "C118_original_partial",
    "C118_impossible_state_refuted",
    "C118_refused"
   ],
   "note": "Proved for lstate and discrete_prob_gen (C118_same_states), with numpy's choice modelled as documented (normalised cumulative sums, searchsorted right). lstate_original agrees unless a number is 0 or equals a cumulative probability (C118_original_partial); then it can draw a state of probability 0 (C118_impossible_state_refuted). C118_refused: what is refused, and that lstate refuses nothing (state 0)."
  },
  {
   "property": "C119",
   "status": "partial",
   "theorems": [
    "C119_pool_bounds",
    "C119_area_bounds_partial",
    "C119_report_bounds_partial",
    "C119_area_exceeds_refuted"
   ],
   "note": "Proved for the pool (C119_pool_bounds) and for the entries of areas that are cleared at a year end (C119_area_bounds_partial, C119_report_bounds_partial). Refuted for the other entries of areas: a report shows an area with more hours of loss than the pool (C119_area_exceeds_refuted; C41)."
  },
  {
   "property": "C120",
   "status": "partial",
   "theorems": [
    "C120_uncongested",
    "C120_hour_partial",
    "C120_run_partial",
    "C120_totals_partial",
    "C120_weighted_partial",
    "C120_congested_refuted",
    "C120_area_levels_refuted"
   ],
   "note": "Proved for hours and runs up to the first hour that needs the linear program, for the pool and the areas whose levels are cleared alike (C120_hour_partial, C120_run_partial, C120_totals_partial, C120_weighted_partial; C120_uncongested relates such runs to runs with any linear program). Refuted otherwise: after a level solved by the linear program the next levels use the matrix in the place of its inverse and show no loss (C120_congested_refuted; C32), and areas' entries are cleared at some levels only (C120_area_levels_refuted; C41)."
  },
  {
   "property": "C121",
   "status": "partial",
   "theorems": [
    "C121_draws",
    "C121_year",
    "C121_report",
    "C121_supplied_hours_refuted"
   ],
   "note": "Proved for the entries that are cleared (C41). Refuted: an hour in which the area is supplied stops the run (C50), so every year that ends has a loss at every draw (C121_supplied_hours_refuted)."
  },
  {
   "property": "C122",
   "status": "partial",
   "theorems": [
    "C122_every_history",
    "C122_same_answers",
    "C122_in_a_run",
    "C122_fractions_refuted"
   ],
   "note": "Proved for whole yearly values (all statistics without forecast error), as long as the number of years times the sum of squares is at most 2^50. Refuted for weighted values, which have fractions: equal years can give a negative variance, nan, and a missed stop (C122_fractions_refuted)."
  },
  {
   "property": "C123",
   "status": "proved",
   "theorems": [
    "C123_draws",
    "C123_year",
    "C123_report"
   ],
   "note": "Proved for runs in which the linear program is never called (by C120_uncongested such a run is the same with any linear program). Demand must not rise with the level; each area's unserved share is truncated to whole MW."
  },
  {
   "property": "C124",
   "status": "proved",
   "theorems": [
    "C124_flows",
    "C124_solved",
    "C124_run",
    "C124_single_area"
   ],
   "note": "Sufficient condition (factor 2: scheduled and emergency flows add up); exact arithmetic. The network's inversion is as in C26-C29 (any correct inverse). Lines at the reference area are in service in every drawn state and the drawn network is connected."
  },
  {
   "property": "C125",
   "status": "partial",
   "theorems": [
    "C125_flows",
    "C125_solved_partial",
    "C125_run_partial",
    "C125_same_report",
    "C125_ample",
    "C125_outage_refuted",
    "C125_congested_refuted"
   ],
   "note": "Proved for hours that do not reach the linear program, and for all hours with ample limits; both exclusions are shown to be necessary by computed hours of a triangle (C125_outage_refuted, C125_congested_refuted). Exact arithmetic; any inversion routine that inverts every matrix that has an inverse."
  },
  {
   "property": "C126",
   "status": "partial",
   "theorems": [
    "C126_flows",
    "C126_matrices",
    "C126_solved_partial",
    "C126_run_partial",
    "C126_same_report",
    "C126_ample_solved",
    "C126_ample_run",
    "C126_no_sharing_refuted"
   ],
   "note": "Proved with loss sharing (NLS = 0) up to the first hour that needs the linear program; and, for studies whose limits are ample (C124), with or without loss sharing and whatever the linear program; refuted without loss sharing otherwise by a computed hour (C126_no_sharing_refuted). Exact arithmetic; any inversion routine that is right when it answers; no line at the reference area is ever out and the network stays in one piece."
  },
  {
   "property": "C127",
   "status": "partial",
   "theorems": [
    "C127_balanced",
    "C127_any_program",
    "C127_no_program",
    "C127_program",
    "C127_solved",
    "C127_hour_refuted"
   ],
   "note": "Proved for balancing, for the linear program (connls, linp, net: the same pivots, amounts in the new unit) and for the schedule and emergency solutions of a level, whatever the inversion routine; the amounts the program meets must not be non-zero and below 1e-13 (linp.py takes these for zero). Refuted for an hour: C127_hour_refuted computes an hour whose energy not supplied depends on the unit (hour.py 208)."
  },
  {
   "property": "C128",
   "status": "proved",
   "theorems": [
    "C128_base",
    "C128_solved",
    "C128_routine"
   ],
   "note": "Exact arithmetic. For the solutions that do not reach the linear program (refuse: with it the call fails in both units alike)."
  }
 ]
}