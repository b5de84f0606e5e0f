{
 "C04": {
  "note": "False of the code in general: refuted by two histories (two schedules after one take; more than 25 pending). Proved for all histories in which every schedule has a free slot, which includes everything the simulator itself does."
 },
 "C05": {
  "note": "Proved for the built-in season boundaries and all steps 1..2184. The part about the user's boundaries is false of the code (refuted): initl ignores QTR."
 },
 "C11": {
  "note": "False of the code (refuted). Proved instead, for all tables and runs: week k applies the outages of week k-1."
 },
 "C12": {
  "note": "False of the code (refuted). Proved instead, for all tables and runs: draws in season q use the ratings of season q+1. The season ends on the card have no effect on the simulation (refuted)."
 },
 "C15": {
  "note": "Proved for every initial seed divisible by 64, which includes the seed the program always uses (123456). A theorem shows it fails for seed 98769387, i.e. the property depends on the hard-wired seed."
 },
 "C24": {
  "note": "False of the code in the last season (refuted: np.argmax of an all-False mask is 0). Proved for the first three seasons, and in full for the unused loop version."
 },
 "C32": {
  "note": "False of the code after the linear-programming branch (refuted: tm2.py 305 stores the matrix where its inverse should go). Proved for every call: the matrix is always restored, the inverse is restored whenever the direct solution is accepted."
 },
 "C33": {
  "note": "False of the code for an outage of a line at the reference area (refuted: skipped), and the matrix passed to the LP is wrong for changed reference lines (refuted). Proved for all connected networks in which no reference line is completely out."
 },
 "C59": {
  "note": "Lines: proved for all hours solved without the LP, no-loss-sharing. Areas: false of the code (refuted)."
 },
 "C60": {
  "note": "Hours solved without the LP (the direct solution is within limits both times)."
 },
 "C34": {
  "note": "No-loss statement for every call, any LP; identification of the scheduled injection with the actual net outflow for hours solved without the LP."
 },
 "C61": {
  "note": "False of the code for a zero first column (refuted: index 0 is also the success code). Proved: non-zero INFO means singular; INFO = 0 with a non-zero first column means non-singular."
 },
 "C36": {
  "note": "Agreement of the two versions for whole-number margins, which is what hour.py passes (astype(int)); an example shows they differ on fractions."
 },
 "C37": {
  "note": "False of the code when the margins add up to exactly zero (refuted: the pool charges transmission, the areas generation). Proved for every other sum."
 },
 "C41": {
  "note": "False of the code: year.py 637-644 clears [:NFCST,:NOAREA] of arrays whose rows are areas. Proved: the pool arrays always, everything when the numbers of areas and levels are equal; refuted otherwise for every such pair."
 },
 "C42": {
  "note": "False of the code: year() does not return its twelve pool scalars, so each year's test and report see that year's weighted pool totals only."
 },
 "C43": {
  "note": "Stated for a positive histogram step (MAXEUE >= 20); C43_zero_step_fails shows the run stops at the first year end otherwise."
 },
 "C44": {
  "note": "The test itself for every history of values, and in a run for every selection but pool+weighted, whose input is wrong (see C42, C45)."
 },
 "C45": {
  "note": "True of 14 of the 16 kinds of selection; for the pool's weighted values (the default) the quantity is last year's only (refuted)."
 },
 "C62": {
  "note": "False of the code for IOJ<>0, INDX<>1 and no generation-caused pool loss at the first level (XMGNH is read before assignment). Proved in the complementary cases. C62_program_refuted/C62_program_partial lift this to the whole program: INDX is 1 exactly when JSTEP is 24."
 },
 "C47": {
  "note": "False of the code: both seeds are written as the literal 123, so no resumption can work (refuted). Proved: the checkpoint determines the calendar and everything later year ends add to, i.e. the accumulated statistics."
 },
 "C48": {
  "note": "Proved for the level lines (areas and pool), the areas' weighted averages, deviations (squared) and all distributions; false for the pool's weighted averages (refuted, consequence of C42)."
 },
 "C49": {
  "note": "False of the code: report.py 537-538 uses the last area's row. Proved: pool load and capacity are the sums, area percentages are right, and the pool's is right for a single area."
 },
 "C50": {
  "note": "False of the code: without shortage the list of short areas is empty and hour.py 148 (index -1 of an empty selection) raises IndexError; proved for every such hour (refuted). Also for runs: in every delivered draw of every run some area is short."
 },
 "C51": {
  "note": "False of the code: in an hour without draw AVAIL and the line states are unbound locals (UnboundLocalError, refuted). Proved: every completed hour draws fresh states, every seed advances by one step. Also for runs: a run never passes the first draw without fresh states."
 },
 "C52": {
  "note": "For an arbitrary matrix inversion and an arbitrary linear-programming branch that returns one value per area."
 },
 "C63": {
  "note": "False of the code for the last hour of the year (index -1 is compared with 8759; refuted); proved for all other hours and for the daily step."
 },
 "C64": {
  "note": "Partial: true of the pool's entries and of the areas' entries that a year end clears (C41); the other area entries hold the total since the start of the run (refuted). For arbitrary inversion and LP branch."
 },
 "C65": {
  "note": "For arbitrary inversion and LP branch. The end-of-time exit of contrl is unreachable."
 },
 "C53": {
  "note": "Partial: true for weeks 1-51; the last week of the table is always empty (refuted), so maintenance planned for week 52 never happens. Overlapping outages of one unit can overflow a row (IndexError)."
 },
 "C54": {
  "note": "Any card with an undeclared name is rejected with KeyError."
 },
 "C55": {
  "note": "Stated for the data the simulation receives. The line sums are not checked to end at 1."
 },
 "C56": {
  "note": "Refuted: every input with a contract ends in a ValueError (dict.fromkeys/zip parentheses in datax.py 117)."
 },
 "C66": {
  "note": "Partial: true for units that share their area with another unit, weeks 1-51. Refuted for a unit alone in its area (moved to the second week) and for week 52. For arbitrary scheduling heuristics. For any table given to smaint: only the first unit of an area can lose its weeks."
 },
 "C67": {
  "note": "Refuted: units without a start week are never taken out (unless alone in the area, then out from the second week, C66). For arbitrary scheduling heuristics: the loop that would use them never runs. For any table: a unit that is not the first of its area and has no weeks is never taken out."
 },
 "C68": {
  "note": "Refuted: the prepared input does not depend on the seed; narpMain uses 123456."
 },
 "C69": {
  "note": "Partial: blocks are matched by the digit in the seventh column of the header to the position of the area on the cards; names are not compared (refuted when the order differs), more than nine areas are impossible."
 },
 "C70": {
  "note": "Refuted for files (the percentages are one text per row: IndexError); the shares are right for a table built by hand (partial)."
 },
 "C71": {
  "note": "For arbitrary scheduling heuristics. Units: ratings, location, ownership, derating; thresholds in C55, outages in C66, loads in C69, lines in C72."
 },
 "C72": {
  "note": "A line state entered with capacity 0 is simulated with 1 MW."
 },
 "C57": {
  "note": "gsm/_gsm/pmlolp. C57_add_unit: every K, exact convolution or cut off (at most 1e-9). C57_rows_exact: rows exact and strictly increasing if the old levels are and the rounded capacity is positive. C57_probabilities: whole pmlolp against enumerated outcomes of independent units, error at most 1e-9 per unit. C57_repeated_level_refuted and C57_scheduler_refuted: 'strictly increasing' is false for units rounded to 0 MW, and for every table of the maintenance scheduler (its first unit is the zero row)."
 },
 "C58": {
  "note": "Proved for whole-number capacities (C58_whole_partial) and for the skipped units (C58_skipped); false for fractions 4.5 to 5 MW above a multiple of ten, which are rounded up (C58_refuted)."
 },
 "C73": {
  "note": "Exact rationals; well_scaled excludes numbers between 0 and the tolerances (decided by `check` for given data). C73_program: connls produces such programs."
 },
 "C74": {
  "note": "Dual argument; same conventions as C73."
 },
 "C75": {
  "note": "Refuted: C75_always_stops_refuted is a feasible program of 4 constraints on which the solver cycles for ever; C75_network_refuted is an hour of a network as the program builds it (5 areas, 7 lines, all capacities and limits positive, balanced schedule) whose linear program never ends, whatever the number of passes and the inversion routine; C75_program_refuted is a whole simulation that never leaves its first hour. Exact arithmetic: with rounding the entry into the linear program (flows exactly at their limits) may be decided differently. Proved: no exception, objective never grows, basis changes in each pass, it stops within 2 N^M passes or never, and a repeated basis means never."
 },
 "C77": {
  "note": "Partial: everything for the areas other than the first in the order LT, for lines at the reference in their base state, and for scheduled transfers solved directly. Refuted for the first area (net.py: k > N - M instead of >=; its shortage is recorded as surplus) and for changed lines at the reference (BB updated with the square of the admittance). C77_loss_not_counted_refuted: in a simulated hour the loss of that area is not recorded at all."
 },
 "C78": {
  "note": "Within the tolerance 1e-7 times the sum of the variables of the alternative (lp_size)."
 },
 "C79": {
  "note": "Refuted: connected networks of 29 areas or more end in IndexError. Exact size condition in C79_fits_iff; when it fits, only non-termination is possible (C79_fits_runs)."
 },
 "C80": {
  "note": "Refuted: always TypeError (conls takes ten arguments and is called with eleven)."
 },
 "C81": {
  "note": "Refuted: always TypeError or IndexError."
 },
 "C82": {
  "note": "Right up to the third change of season (C82_capacity_partial); later peak days get the ratings of season 0 (C82_last_season_refuted, defect). Joint ownership and contracts cannot occur in accepted input (C56, C70)."
 },
 "C83": {
  "note": "Line numbers are the cards' LineID minus 1."
 },
 "C84": {
  "note": "inf, nan and underscores, which Python's float accepts, are refused by the model; values are exact (no rounding to binary)."
 },
 "C85": {
  "note": "both directions, for tables without repeated column names or empty fields; pandas.read_csv itself is not modelled."
 },
 "C86": {
  "note": "consequences of C85: no cards are produced."
 },
 "C87": {
  "note": "refuted: changing only the serial numbers never changes the cards; the order of the file is kept."
 },
 "C88": {
  "note": "refuted: the derating card has no effect on what is simulated."
 },
 "C89": {
  "note": "refuted: changing the weeks of the windows and forbidden periods never changes the prepared input."
 },
 "C90": {
  "note": "every line ends with a newline; the header and data lines are those of DataSpec."
 },
 "C91": {
  "note": "composes with C54, C55, C66-C72, C82, C83, which are about the cards."
 },
 "C92": {
  "note": "Whole end times; steps 1..2184. Overflow to infinity is outside the model."
 },
 "C93": {
  "note": "'Short by at least one MW' is proved for data on a binary grid (k <= 53) and up to 2^-54 MW otherwise; the exact form is refuted (2^-60 against 1)."
 },
 "C94": {
  "note": "Holds for data on a grid with the stated magnitude bound; for arbitrary floats order independence is refuted."
 },
 "C95": {
  "note": "np.sum's own blocking is one of the orders quantified over."
 },
 "C96": {
  "note": "The relative error theorem excludes subnormal quotients."
 },
 "C97": {
  "note": "C97_reliable_unit needs an initial seed divisible by 64, as C15 does; the shipped one is."
 },
 "C99": {
  "note": "True for data on a grid; refuted for arbitrary floats ((0.1+0.2)-0.2)."
 },
 "C100": {
  "note": "Everything but the area limits holds; the limits on imports and exports are exchanged (refuted), and a negative capacity gives a wrong starting basis (refuted). tm2 cannot reach this program (C80); conls is public."
 },
 "C08": {
  "note": "The handlers' own work is assumed to end. It need not: C75_program_refuted is an input whose first hour never ends, because the linear program cycles."
 },
 "C101": {
  "note": "Complete input: input_ok, lines_ok (six states per line, line table within range), base_net (the network of first states connects all areas), rates_ok, outages_ok (52 rows), draw frequency >= 1, histogram step >= 1 MW (MAXEUE >= 20). np.linalg.inv is any routine that inverts what has an inverse; the linear program is arbitrary (with keeps_areas). C101_only_cause: with freq 1, no annual printing, no loss sharing and an answering program the only exception left is C50's."
 },
 "C102": {
  "note": "Hypotheses: says f c and loads_text (C85, C90), valid_cards and full blocks (C71), sound_lines (EndSpec: connected line cards), freq >= 1, MAXEUE >= 20, FINISH >= 1. as_set lists the settings that reach the run. np.linalg.inv as in C101, the linear program arbitrary (keeps_areas). The failures are those of C101; C102_report states the pool's levels (areas: C64)."
 },
 "C103": {
  "note": "always_short (EndSpec) is stated on the cards and the load blocks. C103_inverts gives a concrete inversion routine (C35's factorisation, checked) meeting the assumption of C101-C103; C103_witness instantiates the theorem with files, that routine and a trivial linear program."
 },
 "C104": {
  "note": "Proved for limits and for surpluses (against every dispatch of the tighter hour, and between two hours when the first is solved directly; up to the solver's tolerance, lines at the reference in their base state). Refuted for capacity in a short area (it stops importing against a congested flow and cannot leave capacity unused: 7 MW lost elsewhere) and for lines: a line in service can be worse than the line out."
 },
 "C105": {
  "note": "For all fuel, inversions and LP branches. The tolerance compared is the effective one (0 means 0.025)."
 },
 "C106": {
  "note": "For all fuel, inversions and LP branches; the text written by the annual table is outside the model."
 },
 "C107": {
  "note": "Proved: an hour reads only area numbers and limits of what earlier hours left, so hours are independent when each area's import and export limits are equal; in general every hour behaves as with the cards' limits or as with all export limits replaced by the import limits. Refuted otherwise: transm.py 139-140 restores both limits from the import limit, so the same hour twice loses 6 then 0 (or 0 then 6); and a level after a level solved by the LP loses nothing instead of 4 (tm2.py 305)."
 },
 "C108": {
  "note": "For cards and for csv tables, valid or not, for any maintenance heuristics; the load file is matched by digit (C69) and kept."
 },
 "C109": {
  "note": "Streams are those of the runs (C109_draws: draw k uses number k of the stream); exact period and equidistribution within 1e-6 (the scale constant and the granularity 512/2^31)."
 },
 "C110": {
  "note": "Refuted: multiplier 65539 modulo 2^31 gives x''=6x'-9x for every stream; after two successive numbers above 1-f the third is below 9f or above 1-6f; a line with six states never goes 6,6,2 / 6,6,3 / 6,6,4 although these states take 60 % of the draws."
 },
 "C111": {
  "note": "Units and lines with the same number of units: proved, with monotonicity. Last sentence refuted: the lines' streams follow the units' ones, so one unit more shifts the stream of every line (C111_added_unit_refuted)."
 },
 "C112": {
  "note": "Refuted: unit 32+u is unit u 14848 draws (1.7 years of hourly draws) later (C112_streams_refuted, C112_outages_refuted). Exact characterisation of all coincidences (C112_shared); none with at most 32 units and lines and fewer than 521504 draws (C112_small_partial)."
 },
 "C113": {
  "note": "Rounded additions in every cell (C113_tables), in every run (C113_run), the average (C113_average); without the bound it is false (C113_bound_needed). Not covered: the values weighted with the probabilities of the forecast levels (SWL, SWN) and the histograms."
 },
 "C114": {
  "note": "Proved for the pool and for the entries of areas that are cleared at a year end (C114_years_partial, C114_totals_partial, C114_annual_partial, C114_converges_at_five_partial); refuted for the entries of areas that are not cleared (C41): the y-th year has y times the losses of a year (C114_area_years_refuted). The pool's weighted statistic is left out of the convergence theorem (C45)."
 },
 "C115": {
  "note": "Refuted: the program looks at the number of units and at all units but the last (C115_wrong_unit_refuted: a line with one critical unit depends on unit 1), and never at line 0 (C115_line_zero_refuted). Proved: exactly what it does (C115_exact_partial), and that without a table, as datax always delivers, the hour is the one of HourModel (C115_none_delivered)."
 },
 "C116": {
  "note": "Proved exactly (C116_annual_table_partial, C116_all_losing): every count, energy and average of the table except the two averages on the pool's GC lines. Refuted: without a generation-caused pool loss at a level these keep the previous level's GT averages (C116_stale_average_refuted), with the daily layout the sum lines of an area's levels say TC (C116_daily_remark_refuted), and areas and levels are numbered from 0 (C116_numbers_refuted). C116_printed and C116_every_year: when the table can be printed (cf. C62)."
 },
 "C117": {
  "note": "Agreement proved (C117_factorisations_agree, C117_inversions_agree, C117_original_inverts). Refuted: the determinant; DET(1) calls an array, so JOB 1 and 3 raise TypeError (IndexError for size 1) for every non-singular matrix (C117_determinant_refuted)."
 },
 "C118": {
  "note": "Proved for lstate and discrete_prob_gen (C118_same_states), with numpy's choice modelled as documented (normalised cumulative sums, searchsorted right). lstate_original agrees unless a number is 0 or equals a cumulative probability (C118_original_partial); then it can draw a state of probability 0 (C118_impossible_state_refuted). C118_refused: what is refused, and that lstate refuses nothing (state 0)."
 },
 "C119": {
  "note": "Proved for the pool (C119_pool_bounds) and for the entries of areas that are cleared at a year end (C119_area_bounds_partial, C119_report_bounds_partial). Refuted for the other entries of areas: a report shows an area with more hours of loss than the pool (C119_area_exceeds_refuted; C41)."
 },
 "C120": {
  "note": "Proved for hours and runs up to the first hour that needs the linear program, for the pool and the areas whose levels are cleared alike (C120_hour_partial, C120_run_partial, C120_totals_partial, C120_weighted_partial; C120_uncongested relates such runs to runs with any linear program). Refuted otherwise: after a level solved by the linear program the next levels use the matrix in the place of its inverse and show no loss (C120_congested_refuted; C32), and areas' entries are cleared at some levels only (C120_area_levels_refuted; C41)."
 },
 "C121": {
  "note": "Proved for the entries that are cleared (C41). Refuted: an hour in which the area is supplied stops the run (C50), so every year that ends has a loss at every draw (C121_supplied_hours_refuted)."
 },
 "C122": {
  "note": "Proved for whole yearly values (all statistics without forecast error), as long as the number of years times the sum of squares is at most 2^50. Refuted for weighted values, which have fractions: equal years can give a negative variance, nan, and a missed stop (C122_fractions_refuted)."
 },
 "C123": {
  "note": "Proved for runs in which the linear program is never called (by C120_uncongested such a run is the same with any linear program). Demand must not rise with the level; each area's unserved share is truncated to whole MW."
 },
 "C124": {
  "note": "Sufficient condition (factor 2: scheduled and emergency flows add up); exact arithmetic. The network's inversion is as in C26-C29 (any correct inverse). Lines at the reference area are in service in every drawn state and the drawn network is connected."
 },
 "C125": {
  "note": "Proved for hours that do not reach the linear program, and for all hours with ample limits; both exclusions are shown to be necessary by computed hours of a triangle (C125_outage_refuted, C125_congested_refuted). Exact arithmetic; any inversion routine that inverts every matrix that has an inverse."
 },
 "C126": {
  "note": "Proved with loss sharing (NLS = 0) up to the first hour that needs the linear program; and, for studies whose limits are ample (C124), with or without loss sharing and whatever the linear program; refuted without loss sharing otherwise by a computed hour (C126_no_sharing_refuted). Exact arithmetic; any inversion routine that is right when it answers; no line at the reference area is ever out and the network stays in one piece."
 },
 "C127": {
  "note": "Proved for balancing, for the linear program (connls, linp, net: the same pivots, amounts in the new unit) and for the schedule and emergency solutions of a level, whatever the inversion routine; the amounts the program meets must not be non-zero and below 1e-13 (linp.py takes these for zero). Refuted for an hour: C127_hour_refuted computes an hour whose energy not supplied depends on the unit (hour.py 208)."
 },
 "C128": {
  "note": "Exact arithmetic. For the solutions that do not reach the linear program (refuse: with it the call fails in both units alike)."
 }
}