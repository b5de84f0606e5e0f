{"id": "C01", "title": "Scheduling an event keeps the calendar chronological and complete", "statement": "Scheduling an event (time, type) into a well-formed event calendar that has a free slot yields a calendar whose pending events are exactly the old pending events plus the new one, still in non-decreasing time order; the reported number of pending events goes up by one and no other pending event changes its time, type or relative order.", "quantifier": "every well-formed calendar (any number, times and slot layout of pending events) and every event", "why_tests_cant": "the linked list can be laid out in the array in any order; tests exercise a handful of layouts", "anchors": ["reliabilityassessment/monte_carlo/filem.py:filem (1-60)"]}
{"id": "C02", "title": "Tie rule of the calendar", "statement": "Among events due at the same time the one scheduled last is delivered first.", "quantifier": "every well-formed calendar and every new event whose time equals that of pending events", "why_tests_cant": "ties of arbitrary multiplicity and position", "anchors": ["reliabilityassessment/monte_carlo/filem.py:filem (34-56)"]}
{"id": "C03", "title": "Taking the next event returns the earliest one and nothing else changes", "statement": "Taking an event from a non-empty well-formed calendar delivers an event no later than any other pending event, and the remaining pending events are exactly the others in the same order; with a zero count the program exits.", "quantifier": "every well-formed calendar", "why_tests_cant": "any layout and any number of events", "anchors": ["reliabilityassessment/monte_carlo/remove.py:remove (4-49)"]}
{"id": "C04", "title": "No sequence of schedule/take operations loses an event", "statement": "After any sequence of schedule and take operations starting from the freshly initialised calendar the pending events are exactly the scheduled and not yet taken ones.", "quantifier": "every finite sequence of schedule/take operations", "why_tests_cant": "a history property; the shipped tests never interleave take and several schedules", "anchors": ["reliabilityassessment/monte_carlo/filem.py:filem", "reliabilityassessment/monte_carlo/remove.py:remove", "reliabilityassessment/monte_carlo/initfl.py:initfl"]}
{"id": "C05", "title": "The initial calendar is what scheduling the seven start events gives", "statement": "The hard-wired initial calendar equals, cell by cell, the calendar obtained by scheduling the four season changes, the first year end, the first week start and the first draw into the empty calendar; the user's season boundaries determine the times of the season changes.", "quantifier": "every sampling step and every user choice of season boundaries", "why_tests_cant": "tests compare one step size and the default boundaries only", "anchors": ["reliabilityassessment/monte_carlo/initl.py:initl (77-120)", "reliabilityassessment/monte_carlo/initl.py:_initl (6-74)", "reliabilityassessment/monte_carlo/initfl.py:initfl"]}
{"id": "C06", "title": "Invariant of the simulation loop", "statement": "At every iteration of the main loop exactly one hourly, one weekly, four seasonal and one yearly event are pending, the calendar is chronological, nothing is pending before the clock, and the clock never moves backwards; so neither of the loop's two internal error exits is ever taken.", "quantifier": "every number of iterations, every sampling step >= 1, every behaviour of the event handlers apart from the rescheduling they perform", "why_tests_cant": "needs induction over the unbounded run", "anchors": ["reliabilityassessment/monte_carlo/contrl.py:contrl (156-388)", "reliabilityassessment/monte_carlo/events.py:events", "reliabilityassessment/monte_carlo/hour.py:hour (82-88)", "reliabilityassessment/monte_carlo/week.py:week", "reliabilityassessment/monte_carlo/quartr.py:quartr", "reliabilityassessment/monte_carlo/year.py:year (151-154)"]}
{"id": "C07", "title": "Simulated time is covered exactly", "statement": "In the run, the n-th draw happens at time n*step, the n-th week start at 0.5+168(n-1), the n-th year end at 8760n, and the seasonal changes at 0.5/2184.5/4368.5/6552.5 plus whole years; no event is skipped or repeated.", "quantifier": "every n and every sampling step", "why_tests_cant": "unbounded history", "anchors": ["reliabilityassessment/monte_carlo/contrl.py:contrl", "reliabilityassessment/monte_carlo/initl.py:initl"]}
{"id": "C08", "title": "The simulation stops", "statement": "The main loop terminates for every finite end time and delivers no event later than one hour after the end time; it stops immediately after a year-end event that reports convergence.", "quantifier": "every end time, sampling step and convergence behaviour", "why_tests_cant": "termination is not testable", "anchors": ["reliabilityassessment/monte_carlo/contrl.py:contrl (156-388)"]}
{"id": "C09", "title": "The last hour of a year is counted in that year", "statement": "Whenever a draw and a year end are due at the same time, the draw is performed first, so a year's statistics include all 8760/step draws of that year.", "quantifier": "every year of the run and every sampling step dividing 8760", "why_tests_cant": "depends on tie-breaking along the entire history", "anchors": ["reliabilityassessment/monte_carlo/filem.py:filem", "reliabilityassessment/monte_carlo/contrl.py:contrl"]}
{"id": "C10", "title": "A week start takes exactly the listed units out of service", "statement": "After a week-start event a unit is marked out of service iff it is in the outage list of the week in force, every other unit is in service, and the next week start is scheduled 168 hours later.", "quantifier": "every outage table, unit and hour index", "why_tests_cant": "all table contents", "anchors": ["reliabilityassessment/monte_carlo/week.py:week (4-49)"]}
{"id": "C11", "title": "The maintenance week in force is the calendar week", "statement": "At the start of calendar week w the planned outages applied are those of week w.", "quantifier": "every week of the simulated year", "why_tests_cant": "needs the whole-loop history of the hour index", "anchors": ["reliabilityassessment/monte_carlo/week.py:week (41)", "reliabilityassessment/monte_carlo/hour.py:hour (90-104)", "reliabilityassessment/monte_carlo/events.py:events"]}
{"id": "C12", "title": "Seasonal ratings follow the calendar season", "statement": "During season q of every simulated year the unit ratings used are those the user gave for season q.", "quantifier": "every season of every year and every season boundary", "why_tests_cant": "history property", "anchors": ["reliabilityassessment/monte_carlo/quartr.py:quartr (31-36)", "reliabilityassessment/monte_carlo/narpMain.py:narpMain", "reliabilityassessment/monte_carlo/initl.py:initl"]}
{"id": "C13", "title": "The random streams stay in range and follow the multiplicative recurrence", "statement": "Every seed stays in [0, 2^31); after n draws unit i's seed equals s0*9649599^(i+1)*65539^n modulo 2^31 and line j's equals s0*9649599^(NUNITS+j+1)*65539^n modulo 2^31 (s0 the initial seed): no stream depends on any other unit's states.", "quantifier": "every initial seed in int32 range, every numbers of units and lines, every number of draws", "why_tests_cant": "32-bit wrap-around for all seeds and unbounded histories", "anchors": ["reliabilityassessment/monte_carlo/seeder.py:seeder", "reliabilityassessment/monte_carlo/gstate.py:gstate (31-39)", "reliabilityassessment/monte_carlo/lstate.py:lstate (24-32)"]}
{"id": "C14", "title": "Generator outcome distribution", "statement": "A unit's availability fraction is 1 exactly when its random number is below its full-output threshold, its derating factor exactly when it lies between the two thresholds and 0 otherwise; available capacity is fraction*rating*service status, hence 0 for a unit on planned outage and never above the rating for deratings in [0,1].", "quantifier": "every seed vector and every probability, rating, derating and status table", "why_tests_cant": "all real-valued tables and seeds", "anchors": ["reliabilityassessment/monte_carlo/gstate.py:gstate (6-51)"]}
{"id": "C15", "title": "A perfectly reliable unit never fails", "statement": "A unit whose forced outage rates are zero is drawn fully available at every draw.", "quantifier": "every draw of every run; every seed", "why_tests_cant": "the random number can exceed 1 for rare seeds only", "anchors": ["reliabilityassessment/monte_carlo/gstate.py:gstate (37-47)", "reliabilityassessment/monte_carlo/narpMain.py:narpMain (JSEED)"]}
{"id": "C16", "title": "Line states", "statement": "Each line's sampled state is the first of 1..6 whose cumulative probability is not exceeded by the random number, so always in 1..6; the loop version and the vectorised alternative sampler agree on every input without ties.", "quantifier": "every seed vector and every cumulative-probability table", "why_tests_cant": "all tables", "anchors": ["reliabilityassessment/monte_carlo/lstate.py:lstate (4-48)", "reliabilityassessment/monte_carlo/line_prob_sampling.py"]}
{"id": "C17", "title": "Capacity by area is conserved", "statement": "The sum over areas of physically located capacity equals the sum of unit capacities; if every unit's ownership shares sum to one, the sum of owned capacities equals it too and joint-ownership transfers net to zero over the pool.", "quantifier": "every number of areas and units, every location, ownership and availability table", "why_tests_cant": "all tables", "anchors": ["reliabilityassessment/monte_carlo/sumcap.py:sumcap"]}
{"id": "C18", "title": "Contract transfers net to zero", "statement": "For every day the contract transfers of all areas sum to zero and each area's transfer is its exports minus its imports.", "quantifier": "every contract matrix and every day", "why_tests_cant": "all matrices", "anchors": ["reliabilityassessment/monte_carlo/findtn.py:findtn"]}
{"id": "C19", "title": "Adding then removing contracts restores the loads", "statement": "Adding interchange contracts to the hourly loads and then removing them restores every hourly load; adding them leaves the total pool load of every hour unchanged; each area's change in an hour is its exports minus imports of that day; the loop version computes the same.", "quantifier": "every contract matrix, contract content and load table", "why_tests_cant": "all tables", "anchors": ["reliabilityassessment/data_processing/xporta.py:xporta", "reliabilityassessment/data_processing/xporta.py:_xporta", "reliabilityassessment/data_processing/xports.py:xports"]}
{"id": "C20", "title": "Daily peaks are true peaks", "statement": "For each area and day the reported daily peak is the maximum of that day's 24 hourly loads, attained at the reported hour, which is the earliest such hour; the annual peak day is the earliest day with the largest daily peak; both implementations agree.", "quantifier": "every load table with any number of areas and days", "why_tests_cant": "all tables incl. ties and negative loads", "anchors": ["reliabilityassessment/data_processing/dpeak.py:dpeak", "reliabilityassessment/data_processing/dpeak.py:_dpeak"]}
{"id": "C21", "title": "Weekly peaks cover the whole year", "statement": "Each weekly peak is the maximum of that week's daily peaks, where the 52nd week has eight days; every day belongs to exactly one week; both implementations agree.", "quantifier": "every daily peak table", "why_tests_cant": "all tables", "anchors": ["reliabilityassessment/data_processing/wpeakf.py:wpeakf", "reliabilityassessment/data_processing/wpeakf.py:_wpeakf"]}
{"id": "C22", "title": "The pool peak hour", "statement": "For each day the pool peak hour lies in that day, its pool load is maximal within the day, and it is the earliest such hour.", "quantifier": "every load table", "why_tests_cant": "all tables", "anchors": ["reliabilityassessment/data_processing/plhr.py:plhr"]}
{"id": "C23", "title": "Load scaling hits the user's annual peak", "statement": "After normalisation and re-scaling each area whose raw peak is at least 0.001 has annual peak exactly the user's peak load, and the shape of the profile is preserved.", "quantifier": "every raw profile and every peak", "why_tests_cant": "all profiles", "anchors": ["reliabilityassessment/data_processing/xldnew.py:xldnew (38-43)"]}
{"id": "C24", "title": "Installed capacity at the annual peak uses the peak season's ratings", "statement": "The capacity reported for an area is the owned capacity at the ratings of the season containing the area's annual peak day, less exports plus imports of that day; both implementations agree.", "quantifier": "every peak day, ownership, rating and contract table", "why_tests_cant": "all peak days", "anchors": ["reliabilityassessment/data_processing/resca.py:resca (36-45)", "reliabilityassessment/data_processing/resca.py:_resca"]}
{"id": "C25", "title": "Forecast levels are ordered, so stopping at the first level without loss is sound", "statement": "With non-negative loads and non-negative uncertainty the demand of every area is non-increasing in the forecast-level index; hence if no area is short at one level, none is short at any later level.", "quantifier": "every load and uncertainty table, hour and level", "why_tests_cant": "all tables", "anchors": ["reliabilityassessment/data_processing/datax.py:datax (FCTERR)", "reliabilityassessment/monte_carlo/findld.py:findld", "reliabilityassessment/monte_carlo/hour.py:hour (135-152)"]}
{"id": "C26", "title": "The network matrix is the Laplacian of the lines", "statement": "The admittance matrix built from a line list is symmetric, has zero row sums, and its entry for two distinct areas is minus the total admittance of the lines joining them.", "quantifier": "every line list, parallel lines included", "why_tests_cant": "all line lists", "anchors": ["reliabilityassessment/monte_carlo/admitb.py:admitb"]}
{"id": "C27", "title": "Incremental matrix updates equal rebuilding", "statement": "Adding an admittance on a branch (or to the reference) by the update routines gives the matrix that building from the modified line list would give.", "quantifier": "every matrix, branch and admittance", "why_tests_cant": "all networks", "anchors": ["reliabilityassessment/monte_carlo/admitm.py:admitm", "reliabilityassessment/monte_carlo/admref.py:admref", "reliabilityassessment/monte_carlo/admitr.py:admitr", "reliabilityassessment/monte_carlo/tm1.py:tm1"]}
{"id": "C28", "title": "Impedance updates are exact", "statement": "If Z is the inverse of the reduced matrix, then the updated Z is the inverse of the updated reduced matrix whenever the update's pivot is non-zero.", "quantifier": "every dimension, symmetric matrix, branch and admittance", "why_tests_cant": "all matrices", "anchors": ["reliabilityassessment/monte_carlo/ximpa.py:ximpa", "reliabilityassessment/monte_carlo/ximpar.py:ximpar"]}
{"id": "C29", "title": "Line flows obey Kirchhoff's law", "statement": "Line flows computed from bus angles sum to zero over the pool; if the angles solve the reduced network equations for balanced injections, each area's net outflow equals its injection, the reference area included.", "quantifier": "every network and injection vector", "why_tests_cant": "all networks", "anchors": ["reliabilityassessment/monte_carlo/flo.py:flo", "reliabilityassessment/monte_carlo/theta.py:theta", "reliabilityassessment/monte_carlo/thetac.py:thetac"]}
{"id": "C30", "title": "Injection balancing", "statement": "The balanced injections sum to zero; surplus areas are scaled down in proportion when there is enough surplus, otherwise deficits are cut: without loss sharing only deficit areas are curtailed in proportion to their deficit, with loss sharing in proportion to load; curtailments are non-negative and total the shortfall; both implementations agree where neither fails.", "quantifier": "every injection and load vector, every area ordering", "why_tests_cant": "all vectors", "anchors": ["reliabilityassessment/monte_carlo/assign.py:assign", "reliabilityassessment/monte_carlo/assign.py:_assign"]}
{"id": "C31", "title": "An accepted network solution respects every limit", "statement": "When the network solver accepts a flow pattern without calling the LP, every line flow lies within its forward/backward capacity and every area's net flow within its import/export limit, and conversely a pattern within all limits is accepted.", "quantifier": "every network state", "why_tests_cant": "all states", "anchors": ["reliabilityassessment/monte_carlo/tm2.py:tm2 (117-151)"]}
{"id": "C32", "title": "Solving an hour leaves the base network unchanged", "statement": "After the network solver returns, the base matrix and its inverse are the ones it was given, so successive forecast levels and hours start from the same base network.", "quantifier": "every call", "why_tests_cant": "depends on which path the solver takes", "anchors": ["reliabilityassessment/monte_carlo/tm2.py:tm2 (149-150, 303-305)"]}
{"id": "C33", "title": "Line outages are applied to the network used for the flows", "statement": "The impedance matrix used for the flows of a state is the inverse of the network matrix in which every line has the admittance of its sampled state, reference-area lines included.", "quantifier": "every network and line state", "why_tests_cant": "all networks", "anchors": ["reliabilityassessment/monte_carlo/tm2.py:tm2 (66-107)"]}
{"id": "C34", "title": "Area balance after the transmission solution", "statement": "When the transmission module reports no loss, every area's capacity less demand less scheduled injection is non-negative.", "quantifier": "every hour state", "why_tests_cant": "all states", "anchors": ["reliabilityassessment/monte_carlo/transm.py:transm (93-101)"]}
{"id": "C35", "title": "The matrix inverse used by the LP is an inverse", "statement": "For a non-singular matrix the factor-and-invert routines return its inverse.", "quantifier": "every matrix of every size for which no pivot vanishes", "why_tests_cant": "all matrices", "anchors": ["reliabilityassessment/monte_carlo/dgefa.py:dgefa", "reliabilityassessment/monte_carlo/dgedi.py:dgedi"]}
{"id": "C36", "title": "Hourly loss statistics", "statement": "For a recorded loss hour exactly one pool counter increases by one; each area with negative margin has exactly one of its counters increased by one and the matching unserved-energy entry by its shortfall; other entries are unchanged; pool unserved energy increases by the sum of the areas'; the vectorised version computes the same.", "quantifier": "every margin vector and statistics state", "why_tests_cant": "all vectors", "anchors": ["reliabilityassessment/monte_carlo/hrstat.py:hrstat", "reliabilityassessment/monte_carlo/hrstat.py:_hrstat"]}
{"id": "C37", "title": "Cause classification is consistent between pool and areas", "statement": "In every recorded loss hour the pool's loss and the areas' losses are attributed to the same cause (generation or transmission).", "quantifier": "every margin vector", "why_tests_cant": "fails only when margins cancel exactly", "anchors": ["reliabilityassessment/monte_carlo/hrstat.py:hrstat (51-66)", "reliabilityassessment/monte_carlo/pkstat.py:pkstat"]}
{"id": "C38", "title": "Peak statistics", "statement": "The peak-hour recorder does to the peak counters what the hourly one does to the hourly counters; the vectorised and the loop version agree; over any history of recorded hours the peak counts never exceed the hourly ones.", "quantifier": "every margin vector, every history", "why_tests_cant": "histories", "anchors": ["reliabilityassessment/monte_carlo/pkstat.py:pkstat", "reliabilityassessment/monte_carlo/pkstat.py:_pkstat", "reliabilityassessment/monte_carlo/hour.py:hour (218-246)"]}
{"id": "C39", "title": "Unserved energy of the pool is the sum over areas", "statement": "Starting from zeroed statistics, after any sequence of recorded hours the pool's unserved energy at each forecast level equals the sum over areas, by cause.", "quantifier": "every history of recorded hours", "why_tests_cant": "histories", "anchors": ["reliabilityassessment/monte_carlo/hrstat.py:hrstat", "reliabilityassessment/monte_carlo/pkstat.py:pkstat"]}
{"id": "C40", "title": "Annual accumulation", "statement": "At a year end every cumulative statistic grows by exactly that year's value, totals equal transmission plus generation part, and the forecast-weighted values use weights that sum to one.", "quantifier": "every annual statistics state", "why_tests_cant": "all states", "anchors": ["reliabilityassessment/monte_carlo/year.py:year (184-303)"]}
{"id": "C41", "title": "Annual statistics start each year at zero", "statement": "After a year end every annual area and pool statistic used in the following year is zero.", "quantifier": "every number of areas and forecast levels", "why_tests_cant": "depends on the number of areas vs forecast levels", "anchors": ["reliabilityassessment/monte_carlo/year.py:year (637-653)"]}
{"id": "C42", "title": "Pool averages accumulate over years", "statement": "The forecast-weighted pool totals used for the convergence test and the final report are the sums over all simulated years.", "quantifier": "every number of years", "why_tests_cant": "history property", "anchors": ["reliabilityassessment/monte_carlo/year.py:year (265-295)", "reliabilityassessment/monte_carlo/contrl.py:contrl", "reliabilityassessment/monte_carlo/events.py:events"]}
{"id": "C43", "title": "Histograms account for every year", "statement": "Each year adds exactly one observation to each of the three histograms of every area, in a bin between 1 and 22 determined by that year's statistic; so each histogram's mass equals the number of years (for a histogram step of at least one MWh, i.e. MAXEUE of at least 20).", "quantifier": "every history of years", "why_tests_cant": "histories", "anchors": ["reliabilityassessment/monte_carlo/year.py:year (238-245)"]}
{"id": "C44", "title": "Convergence test", "statement": "The run is declared converged only after five or more years, with a non-zero mean and the standard error of the mean below the tolerance times the mean (0.025 by default), or because the end time is reached; the statistic's yearly increments squared are accumulated exactly.", "quantifier": "every history of yearly values", "why_tests_cant": "histories", "anchors": ["reliabilityassessment/monte_carlo/cvchk.py:cvchk", "reliabilityassessment/monte_carlo/cvchk.py:_cvchk"]}
{"id": "C45", "title": "The tested statistic is the one the user selected", "statement": "The quantity passed to the convergence test is the cumulative statistic chosen by location, hour/peak, LOLE/EUE and weighted/central selection.", "quantifier": "every selection and state", "why_tests_cant": "16 selections times all states", "anchors": ["reliabilityassessment/monte_carlo/year.py:year (663-719)"]}
{"id": "C46", "title": "Checkpoint cadence", "statement": "Checkpoints are written at years INTVT0, INTVT0+INTV, INTVT0+2*INTV, ... and at the final year, and at no other year.", "quantifier": "every interval and number of years", "why_tests_cant": "histories", "anchors": ["reliabilityassessment/monte_carlo/year.py:year (722-849)"]}
{"id": "C47", "title": "A checkpoint preserves the state needed to resume", "statement": "A checkpoint contains the random seeds and every accumulated statistic, so a resumed run continues as the interrupted one would have.", "quantifier": "every checkpoint", "why_tests_cant": "needs comparing two infinite continuations", "anchors": ["reliabilityassessment/monte_carlo/intm.py:intm", "reliabilityassessment/monte_carlo/year.py:year (722-849)", "reliabilityassessment/monte_carlo/rstart.py:rstart"]}
{"id": "C48", "title": "Final averages and distributions", "statement": "The final report's per-year averages equal the accumulated totals divided by the number of years, each printed probability distribution sums to one and has non-negative entries, and the printed deviation is that of the yearly values.", "quantifier": "every accumulated state", "why_tests_cant": "all states", "anchors": ["reliabilityassessment/monte_carlo/report.py:report"]}
{"id": "C49", "title": "The pool reserve margin printed is the pool's", "statement": "The reserve percentage in the pool row of the summary is computed from the pool's capacity and load.", "quantifier": "every summary table with at least one area", "why_tests_cant": "depends on which row index is used", "anchors": ["reliabilityassessment/monte_carlo/report.py:report"]}
{"id": "C50", "title": "An hour without shortage records nothing and the run goes on", "statement": "If at the first forecast level no area is short, the draw leaves all loss statistics unchanged and the simulation continues.", "quantifier": "every hour state without shortage", "why_tests_cant": "the shipped tests always have shortage", "anchors": ["reliabilityassessment/monte_carlo/hour.py:hour (138-152)"]}
{"id": "C51", "title": "States may be drawn less often than every hour", "statement": "With a draw frequency above one hour the states drawn last stay in force until the next draw.", "quantifier": "every frequency and hour", "why_tests_cant": "frequency>1 not covered", "anchors": ["reliabilityassessment/monte_carlo/hour.py:hour (106-121)"]}
{"id": "C52", "title": "Only hours with a shortage change the statistics", "statement": "A draw changes the loss statistics only at forecast levels at which some area is short, and never decreases any of them.", "quantifier": "every hour state and network solution", "why_tests_cant": "all states", "anchors": ["reliabilityassessment/monte_carlo/hour.py:hour (135-246)"]}
{"id": "C53", "title": "The planned-outage table lists exactly the units out", "statement": "Week w's row lists each unit whose planned outage [start, start+duration) covers w, once per covering outage, and the row's count equals the number of listed entries.", "quantifier": "every schedule of planned outages within the year", "why_tests_cant": "all schedules", "anchors": ["reliabilityassessment/data_processing/smaint.py:smaint (85-98)"]}
{"id": "C54", "title": "Names are mapped to indices faithfully", "statement": "Area and unit names are mapped injectively to 0..n-1 in order of first appearance and the mapping is the same wherever a name is used; an unknown name is rejected.", "quantifier": "every name list", "why_tests_cant": "all lists", "anchors": ["reliabilityassessment/data_processing/pind.py:pind"]}
{"id": "C55", "title": "Probability tables built from the input are proper", "statement": "For forced-outage rates with FOR+DFOR in [0,1] the unit thresholds satisfy 0<=p0<=p1<=1; line cumulative probabilities are non-decreasing when the inputs are non-negative and end at their total.", "quantifier": "every input table", "why_tests_cant": "all tables", "anchors": ["reliabilityassessment/data_processing/datax.py:datax"]}
{"id": "C56", "title": "Fixed contracts can be supplied", "statement": "An input with a fixed interchange contract is accepted and yields the contract matrix entry for that pair.", "quantifier": "every contract input", "why_tests_cant": "the shipped inputs have no contracts", "anchors": ["reliabilityassessment/data_processing/datax.py:datax (115-135)"]}
{"id": "C57", "title": "The capacity outage table is exact", "statement": "Adding a two- or three-state unit to a capacity outage table yields the table of the convolution: for every listed outage level K, the listed probability is P1*P(old>=K)+P2*P(old>=K-KP)+P3*P(old>=K-KT); levels are strictly increasing; both implementations agree.", "quantifier": "every table and unit", "why_tests_cant": "all tables", "anchors": ["reliabilityassessment/data_processing/gsm.py:gsm", "reliabilityassessment/data_processing/gsm.py:_gsm"]}
{"id": "C58", "title": "Rounding of capacities in the outage table", "statement": "Unit capacities are rounded to the nearest multiple of 10 MW (halves up) and units with full-output probability at most 1e-6 are skipped.", "quantifier": "every capacity", "why_tests_cant": "all reals", "anchors": ["reliabilityassessment/data_processing/pmlolp.py:pmlolp"]}
{"id": "C59", "title": "Scheduled plus emergency flows respect the limits", "statement": "In an hour with emergency assistance, the sum of the scheduled and the emergency flow of every line stays within the capacity of the line's sampled state, and the sum of the scheduled and the emergency import or export of every area stays within the area's limit.", "quantifier": "every network, line state, capacity and demand vector of an hour solved without the linear program", "why_tests_cant": "The residual capacities are computed by in-place array updates whose result depends on the topology (several lines at one area); only a statement over all networks and flows shows what the totals respect.", "anchors": ["reliabilityassessment/monte_carlo/transm.py: transm", "reliabilityassessment/monte_carlo/tm2.py: tm2"]}
{"id": "C60", "title": "Unserved demand is shared as the loss-sharing option says", "statement": "When the pool's surplus covers its deficits no area is left short after emergency assistance; otherwise the areas' recorded shortfalls add up to the pool shortfall, in proportion to the areas' own deficits without loss sharing and in proportion to load with loss sharing, and the emergency flows deliver exactly the resulting injections.", "quantifier": "every hour solved without the linear program: all networks, line states, capacities, demands, transfers and both loss-sharing options", "why_tests_cant": "It relates the outputs of several numerical routines for all inputs.", "anchors": ["reliabilityassessment/monte_carlo/transm.py: transm", "reliabilityassessment/monte_carlo/tm2.py: tm2", "reliabilityassessment/monte_carlo/assign.py: assign"]}
{"id": "C61", "title": "The factorisation's singularity flag", "statement": "The factorisation reports INFO = 0 exactly when the matrix is non-singular.", "quantifier": "every square matrix of every size", "why_tests_cant": "all matrices", "anchors": ["reliabilityassessment/monte_carlo/dgefa.py:dgefa"]}
{"id": "C62", "title": "Annual results can be printed for every year", "statement": "With annual printing switched on, a year end completes whatever the year's losses were, including a year without any generation-caused pool loss.", "quantifier": "every annual statistics state and printing option", "why_tests_cant": "the failing branch depends on the losses drawn in the year", "anchors": ["reliabilityassessment/monte_carlo/year.py:year"]}
{"id": "C63", "title": "Each day's pool peak hour enters the peak statistics", "statement": "The hour of the day at which the pool load peaks, and no other hour, is also recorded in the daily-peak statistics; with a daily step every simulated hour is.", "quantifier": "every study, simulated hour of every year, states drawn and network solution", "why_tests_cant": "it depends on the clock's position in the year and on the day's peak hour for all days", "anchors": ["reliabilityassessment/monte_carlo/hour.py:hour (89-100, 232-244)"]}
{"id": "C64", "title": "Reported totals are the losses of the simulated draws", "statement": "In every run, the annual statistics are the sums, over that year's simulated hours, of the loss hours and unserved energy that the drawn unit and line states caused, by cause, area, forecast level and (peak) hour; and the final report's averages are those totals over all simulated hours divided by the number of years.", "quantifier": "every input, run length, point of every run, year, area, forecast level, cause and statistic", "why_tests_cant": "It relates the report to the whole history of draws of runs of any length.", "anchors": ["reliabilityassessment/monte_carlo/narpMain.py", "reliabilityassessment/monte_carlo/contrl.py:contrl", "reliabilityassessment/monte_carlo/hour.py:hour", "reliabilityassessment/monte_carlo/year.py:year", "reliabilityassessment/monte_carlo/report.py:report"]}
{"id": "C65", "title": "A run prints exactly one final report", "statement": "A run of at least one year that ends without an exception ends at a year end, not later than the last year asked for; that year end prints the final report, and no earlier one does.", "quantifier": "every input and run of at least one year", "why_tests_cant": "It is about the end of every possible run, including those that converge early.", "anchors": ["reliabilityassessment/monte_carlo/contrl.py:contrl", "reliabilityassessment/monte_carlo/year.py:year", "reliabilityassessment/monte_carlo/cvchk.py:cvchk"]}
{"id": "C66", "title": "Predetermined maintenance is kept", "statement": "A unit whose planned outages have start weeks on the cards is out of service in the simulation's maintenance table in exactly those weeks.", "quantifier": "every valid input, unit and week", "why_tests_cant": "It is about every combination of units, areas and weeks, after a scheduler of 800 lines.", "anchors": ["reliabilityassessment/data_processing/pmsc.py:pmsc", "reliabilityassessment/data_processing/smaint.py:smaint", "reliabilityassessment/data_processing/input_processing.py:input_processing"]}
{"id": "C67", "title": "Maintenance without a start week is scheduled", "statement": "A unit with an outage duration but no start week on the cards is given a maintenance period by the program.", "quantifier": "every valid input and unit", "why_tests_cant": "One shipped schedule does not show what happens for other inputs.", "anchors": ["reliabilityassessment/data_processing/pmsc.py:pmsc", "reliabilityassessment/data_processing/smaint.py:smaint"]}
{"id": "C68", "title": "The seed on the card selects the random numbers", "statement": "Runs with different seeds on the miscellaneous card use different random numbers.", "quantifier": "every input and pair of seeds", "why_tests_cant": "It relates two runs for all inputs.", "anchors": ["reliabilityassessment/monte_carlo/narpMain.py:narpMain (90)", "reliabilityassessment/data_processing/readInputB.py:read_card_ZZMC"]}
{"id": "C69", "title": "Each area gets the loads of its own block of the load file", "statement": "The hourly loads of an area are those of the block of the load file that bears its name, scaled to its annual peak.", "quantifier": "every list of areas and load file", "why_tests_cant": "All orders and numbers of areas.", "anchors": ["reliabilityassessment/data_processing/xldnew.py:xldnew"]}
{"id": "C70", "title": "Joint ownership can be supplied", "statement": "An input with jointly owned units is accepted and each area owns the stated percentage.", "quantifier": "every ownership table", "why_tests_cant": "The shipped inputs have no joint ownership.", "anchors": ["reliabilityassessment/data_processing/datax.py:datax (137-142)", "reliabilityassessment/data_processing/readInputB.py:read_card_ZZOD"]}
{"id": "C71", "title": "Valid input is accepted and understood", "statement": "Cards with distinct area and unit names, declared locations and line ends, four non-negative ratings per unit, at most 500 units per area and non-overlapping planned outages, with complete load blocks, are accepted; the simulation then works with the units' ratings, locations, owners and derating, the lines' ends and the areas' limits of the cards and one forecast level exactly if there is no uncertainty.", "quantifier": "every valid input", "why_tests_cant": "All inputs.", "anchors": ["reliabilityassessment/data_processing/dataf1.py:dataf1", "reliabilityassessment/data_processing/datax.py:datax", "reliabilityassessment/data_processing/input_processing.py:input_processing"]}
{"id": "C72", "title": "Line states carry the data of the cards", "statement": "In each of its six states a line has the admittance and limits of the card; entries of 0 stand for -0.5 and 1 MW.", "quantifier": "every valid input, line and state", "why_tests_cant": "All inputs.", "anchors": ["reliabilityassessment/data_processing/datax.py:datax (163-169)"]}
{"id": "C73", "title": "The solver's result satisfies the constraints", "statement": "When the linear-program solver stops, the variables it returns are non-negative and satisfy every equation it was given; the basis has one distinct variable per equation and all others are zero. The programs built for a network (line capacities and area limits not negative) are of the form the solver needs.", "quantifier": "every program in standard form (non-singular data, tolerances not hit), every number of passes; every network, order and injection", "why_tests_cant": "A test checks a few small networks or programs; the claim is about all of them.", "anchors": ["reliabilityassessment/monte_carlo/linp.py:linp", "reliabilityassessment/monte_carlo/connls.py:connls"]}
{"id": "C74", "title": "The solver's result is optimal", "statement": "When the solver stops, no feasible assignment costs less by more than 1e-7 times the sum of its variables.", "quantifier": "every program and every feasible assignment", "why_tests_cant": "A test checks a few small networks or programs; the claim is about all of them.", "anchors": ["reliabilityassessment/monte_carlo/linp.py:linp"]}
{"id": "C75", "title": "The solver terminates", "statement": "The solver stops on every program, raises no exception and never increases the objective within a phase.", "quantifier": "every program in standard form", "why_tests_cant": "A test checks a few small networks or programs; the claim is about all of them.", "anchors": ["reliabilityassessment/monte_carlo/linp.py:linp"]}
{"id": "C76", "title": "Both versions of the result array agree", "statement": "The vectorised net and the loop version _net fill the result array alike.", "quantifier": "every basis, right sides and array contents", "why_tests_cant": "A test checks a few small networks or programs; the claim is about all of them.", "anchors": ["reliabilityassessment/monte_carlo/net.py:net", "reliabilityassessment/monte_carlo/net.py:_net"]}
{"id": "C77", "title": "A congested hour is evaluated correctly", "statement": "If the emergency transfers overload the network, the returned flows obey the network equations with the sampled line states, keep scheduled plus emergency flow within every line's capacity, no area gives more than its surplus or takes more than its deficit, and the adjustment recorded for an area is what remains uncovered.", "quantifier": "every network, line state, hour data with a congested hour", "why_tests_cant": "A test checks a few small networks or programs; the claim is about all of them.", "anchors": ["reliabilityassessment/monte_carlo/transm.py:transm", "reliabilityassessment/monte_carlo/tm2.py:tm2", "reliabilityassessment/monte_carlo/connls.py:connls", "reliabilityassessment/monte_carlo/net.py:net"]}
{"id": "C78", "title": "Least curtailment", "statement": "In a congested hour the total unserved demand is the least possible under the network equations and limits (within the solver's tolerance); if all demand can be served, it is.", "quantifier": "every network, limits and every alternative dispatch", "why_tests_cant": "A test checks a few small networks or programs; the claim is about all of them.", "anchors": ["reliabilityassessment/monte_carlo/tm2.py:tm2", "reliabilityassessment/monte_carlo/connls.py:connls", "reliabilityassessment/monte_carlo/linp.py:linp"]}
{"id": "C79", "title": "Congested hours can be evaluated for every network", "statement": "A congested hour of any network is evaluated without an exception.", "quantifier": "every number of areas and lines", "why_tests_cant": "A test checks a few small networks or programs; the claim is about all of them.", "anchors": ["reliabilityassessment/monte_carlo/connls.py:connls"]}
{"id": "C80", "title": "Congested hours with loss sharing", "statement": "With loss sharing (NLS = 0) an hour whose direct solution violates a limit is evaluated by the linear program.", "quantifier": "every network and hour", "why_tests_cant": "A test checks a few small networks or programs; the claim is about all of them.", "anchors": ["reliabilityassessment/monte_carlo/tm2.py:tm2", "reliabilityassessment/monte_carlo/conls.py:conls"]}
{"id": "C81", "title": "The solver trace", "statement": "Switching on the trace of congested hours (IOI) only adds output.", "quantifier": "every congested hour", "why_tests_cant": "A test checks a few small networks or programs; the claim is about all of them.", "anchors": ["reliabilityassessment/monte_carlo/tm2.py:tm2 (182-232)"]}
{"id": "C82", "title": "Installed capacities of the summary", "statement": "For accepted input the summary shows, for every area, the annual peak load of the cards and the installed capacity: the sum of the ratings of the units placed in the area, at the ratings of the season that contains the area's annual peak day (weeks of season change as given by the user).", "quantifier": "every valid set of cards, every load file, every peak day and season calendar", "why_tests_cant": "All peak days, calendars and fleets; tests use one peak day.", "anchors": ["reliabilityassessment/data_processing/resca.py:resca", "reliabilityassessment/data_processing/datax.py:datax (60-76)", "reliabilityassessment/data_processing/input_processing.py:input_processing (96)"]}
{"id": "C83", "title": "Table of lines between areas", "statement": "For every ordered pair of areas the line table holds the number of the last line on the cards running from the first to the second area, and -1 if there is none; the opposite direction is not entered.", "quantifier": "every valid set of cards", "why_tests_cant": "All topologies, including parallel and opposite lines.", "anchors": ["reliabilityassessment/data_processing/datax.py:datax (148-157)", "reliabilityassessment/monte_carlo/hour.py:hour (155-168)"]}
{"id": "C84", "title": "Numbers in texts", "statement": "The data text of a line is accepted exactly if it consists of 24 decimal numerals separated by commas, with any blanks around them; every numeral (sign, decimal point, exponent) stands for its exact decimal value, and the six states of the line get their admittance, forward capacity, backward capacity and probability in this order.", "quantifier": "every text", "why_tests_cant": "Texts are unbounded; tests use one layout.", "anchors": ["reliabilityassessment/data_processing/readInputB.py:read_card_ZZTD (385-391)"]}
{"id": "C85", "title": "Cards are what the tables say", "statement": "The cards the program works with are exactly what the csv tables say under the documented column names, row by row; neither the order of the columns nor further columns matter.", "quantifier": "every set of tables", "why_tests_cant": "All tables, row counts, column orders and cell contents.", "anchors": ["reliabilityassessment/data_processing/readInputB.py:readInputB", "reliabilityassessment/data_processing/readInputB.py:read_card_ZZMC", "reliabilityassessment/data_processing/readInputB.py:read_card_ZZLD", "reliabilityassessment/data_processing/readInputB.py:read_card_ZZUD"]}
{"id": "C86", "title": "Incomplete input is refused", "statement": "If a documented column is missing, the settings are not exactly one row, a number stands where a name belongs or the other way round, or the data of a line is not 24 numbers, reading raises an exception and nothing is simulated.", "quantifier": "every set of tables", "why_tests_cant": "All ways of being incomplete.", "anchors": ["reliabilityassessment/data_processing/readInputB.py:readInputB"]}
{"id": "C87", "title": "Serial numbers give the sequence", "statement": "The entries of a card are arranged in the sequence of their serial numbers (column SN), whatever their order in the file.", "quantifier": "every set of tables", "why_tests_cant": "All orders of rows and all serial numbers.", "anchors": ["reliabilityassessment/data_processing/readInputB.py:read_card_ZZLD (186-196)"]}
{"id": "C88", "title": "Line deratings", "statement": "If all units of a combination of the derating card are down, the ratings of its line are multiplied by the derating factors.", "quantifier": "every derating card", "why_tests_cant": "All combinations of units and lines.", "anchors": ["reliabilityassessment/data_processing/readInputB.py:read_card_ZZDD"]}
{"id": "C89", "title": "Outage windows and forbidden periods", "statement": "Automatically planned maintenance of an area falls into its outage window and outside its forbidden period.", "quantifier": "every area card", "why_tests_cant": "All windows and periods.", "anchors": ["reliabilityassessment/data_processing/readInputB.py:read_card_ZZLD (215-236)", "reliabilityassessment/data_processing/pmsc.py:pmsc"]}
{"id": "C90", "title": "Text of the load file", "statement": "A load file made of area headers and lines of decimal numbers separated by any white space is read as exactly these headers and numbers; numbers before the last twelve of a line (dates) are ignored.", "quantifier": "every text of that form", "why_tests_cant": "Texts are unbounded: any number of areas, any spacing, any number format.", "anchors": ["reliabilityassessment/data_processing/xldnew.py:xldnew (22-36)"]}
{"id": "C91", "title": "From the files to the simulation", "statement": "Files that say what a valid set of cards and complete load blocks say are accepted, and the simulation works with these cards and loads; whatever is accepted was said by the files.", "quantifier": "every set of files", "why_tests_cant": "Composition of reading, renaming, scheduling and scaling over all inputs.", "anchors": ["reliabilityassessment/data_processing/readInputB.py:readInputB", "reliabilityassessment/data_processing/input_processing.py:input_processing", "reliabilityassessment/data_processing/xldnew.py:xldnew"]}
{"id": "C92", "title": "Rounding does not touch the clock", "statement": "Run on binary64 floats the simulation delivers the same events at the same times, and computes the same day and year numbers, as in exact arithmetic.", "quantifier": "every run with a step of 1 to 2184 hours and a whole end time up to 2^51; every behaviour of the handlers", "why_tests_cant": "long runs accumulate half-hours for which a test checks only the first few", "anchors": ["reliabilityassessment/monte_carlo/contrl.py:contrl (157-388)", "reliabilityassessment/monte_carlo/hour.py:hour (83-96)", "reliabilityassessment/monte_carlo/week.py:week (33)", "reliabilityassessment/monte_carlo/year.py:year (152-156)"]}
{"id": "C93", "title": "Rounding and the decision that an area is short", "statement": "On binary64 floats an area short by one MW or more is always counted as short, one counted is short by at least one MW, and the sign of a difference of capacity and load is never wrong.", "quantifier": "every capacity and load", "why_tests_cant": "the boundary case is a set of measure zero; random tests never hit it", "anchors": ["reliabilityassessment/monte_carlo/hour.py:hour (139-143)"]}
{"id": "C94", "title": "Sums of data with few binary places are exact", "statement": "Capacities by area, net transfers and other sums of data given to k binary places are exact on binary64 floats whatever the order of the additions.", "quantifier": "every list of data, every order and bracketing of the additions", "why_tests_cant": "numpy is free to choose the order; a test sees one", "anchors": ["reliabilityassessment/monte_carlo/sumcap.py:sumcap (32-34)", "reliabilityassessment/monte_carlo/findtn.py:findtn (22-28)"]}
{"id": "C95", "title": "Error of a sum of floats", "statement": "The sum of n floats in any order differs from the exact sum by at most n 2^-52 times the sum of magnitudes.", "quantifier": "every list of floats, every order", "why_tests_cant": "worst cases are not found by sampling", "anchors": ["reliabilityassessment/monte_carlo/sumcap.py:sumcap (32-36)", "reliabilityassessment/monte_carlo/report.py:report"]}
{"id": "C96", "title": "Scaled loads hit the peak exactly", "statement": "Scaling an hourly profile to a peak on floats gives a year whose highest load is the given peak, exactly, in which no hour exceeds it, hours keep their order, and each hour is within a relative 2^-51 of the exact value.", "quantifier": "every profile and peak", "why_tests_cant": "rounding could exceed the peak or swap two nearby hours for rare values only", "anchors": ["reliabilityassessment/data_processing/xldnew.py:xldnew (38-43)"]}
{"id": "C97", "title": "Random draws under rounding", "statement": "The random streams do not depend on floating point; the state drawn for a unit or line is decided by integer thresholds of the seed within 2^-25 of the probabilities given; a fully available unit delivers exactly its rating and one that is out exactly nothing.", "quantifier": "every seed, every table of probabilities, every history of draws", "why_tests_cant": "2^31 seeds", "anchors": ["reliabilityassessment/monte_carlo/gstate.py:gstate (31-51)", "reliabilityassessment/monte_carlo/lstate.py:lstate (21-48)"]}
{"id": "C98", "title": "Load levels under rounding", "statement": "The middle load level is the load itself, bit for bit, and loads do not increase from one level to the next.", "quantifier": "every load, uncertainty and hour", "why_tests_cant": "order could be broken by rounding for rare values only", "anchors": ["reliabilityassessment/data_processing/datax.py:datax (79-84)", "reliabilityassessment/monte_carlo/findld.py:findld"]}
{"id": "C99", "title": "Contracts added and removed under rounding", "statement": "Adding the contracts to the hourly loads and taking them out again restores the loads.", "quantifier": "every contract table and load table", "why_tests_cant": "depends on the binary expansion of the data", "anchors": ["reliabilityassessment/data_processing/xporta.py:xporta", "reliabilityassessment/data_processing/xports.py:xports"]}
{"id": "C100", "title": "The program of the loss-sharing mode", "statement": "The linear program built for the loss-sharing mode has exactly the dispatches as its solutions: line and area limits hold, an area curtails at most its load and generates at most its capacity, flows obey the network equations; the program minimizes the load curtailed, and the solver's result is within its tolerance of the least. Imports and exports are limited as in the mode without loss sharing.", "quantifier": "every network, load, surplus and limit (and every pivot sequence of the solver)", "why_tests_cant": "the three tests compare matrices for one network; the meaning of the matrices for all networks and dispatches is not testable", "anchors": ["reliabilityassessment/monte_carlo/conls.py:conls", "reliabilityassessment/monte_carlo/linp.py:linp"]}
{"id": "C101", "title": "Every failure of a run has a known cause", "statement": "A run whose input tables are complete ends after finitely many events: with exactly one report, or with an exception, and then because (1) no fresh states are due in the next draw, (2) in the next draw no area is short at some level, (3) in the next draw some but not all areas are short and the linear program fails or is the loss-sharing one, or (4) annual figures are printed for a year without generation-caused pool loss at the first level. No week, season, table lookup, matrix inversion, histogram or statistics update ever fails.", "quantifier": "every complete input, every number of areas, units, lines, years, every draw sequence", "why_tests_cant": "a test shows that one input runs through; the absence of further failures is a statement about all inputs and all histories of random draws", "anchors": ["reliabilityassessment/monte_carlo/narpMain.py:narpMain", "reliabilityassessment/monte_carlo/contrl.py:contrl", "reliabilityassessment/monte_carlo/hour.py:hour", "reliabilityassessment/monte_carlo/transm.py:transm", "reliabilityassessment/monte_carlo/week.py:week", "reliabilityassessment/monte_carlo/quartr.py:quartr", "reliabilityassessment/monte_carlo/year.py:year"]}
{"id": "C102", "title": "From input files to a report or a known failure", "statement": "If the csv tables and the load file say valid cards and a full load file, and the line cards connect all areas (their numbers lie between 1 and their count, each joins two different areas, no first admittance is positive), then input processing succeeds, its result satisfies every completeness condition of C101 with the settings and ratings of the cards, and the run ends after finitely many events: with one printed report after at most the given number of years, or with one of the failures of C101. With an uncertain load forecast the levels of the report are the yearly means of the recorded shortages of the run.", "quantifier": "every set of input files, every number of areas, units, lines and years", "why_tests_cant": "the chain from text to report is long; tests run it for one bundled study", "anchors": ["reliabilityassessment/data_processing/readInputB.py", "reliabilityassessment/data_processing/input_processing.py", "reliabilityassessment/data_processing/dataf1.py", "reliabilityassessment/data_processing/datax.py", "reliabilityassessment/monte_carlo/narpMain.py:narpMain", "reliabilityassessment/monte_carlo/report.py:report"]}
{"id": "C103", "title": "A study that is always short runs to its report", "statement": "In every state of every run each unit's drawn capacity lies between 0 and the largest of its seasonal ratings. If the files say valid cards with connected lines, and one area's load exceeds by 1 MW or more, in every hour and at every load level, all the capacity its units can ever have, then (draws in every step, no loss sharing, no annual figures or a daily step, a linear program that answers) the run ends with its report after at most the given number of years; no draw can stop it.", "quantifier": "every set of input files with such an area, every sequence of draws", "why_tests_cant": "the capacities drawn over a whole run depend on the random stream, the seasons and the outage weeks; completion is claimed for all of them", "anchors": ["reliabilityassessment/monte_carlo/narpMain.py:narpMain", "reliabilityassessment/monte_carlo/gstate.py:gstate", "reliabilityassessment/monte_carlo/hour.py:hour", "reliabilityassessment/monte_carlo/week.py:week", "reliabilityassessment/monte_carlo/quartr.py:quartr", "reliabilityassessment/data_processing/xldnew.py:xldnew"]}
{"id": "C104", "title": "More help never makes an hour worse", "statement": "Take two hours of the same network that differ only in the second having line limits at least as high, area import and export limits at least as high, or more capacity in some areas. The unserved demand the program reports for the second hour is not larger than that of the first.", "quantifier": "every connected network, every state of its lines, all loads, capacities and limits", "why_tests_cant": "a comparison of two runs for all networks; a test compares single pairs", "anchors": ["reliabilityassessment/monte_carlo/tm2.py:tm2", "reliabilityassessment/monte_carlo/transm.py:transm", "reliabilityassessment/monte_carlo/connls.py:connls", "reliabilityassessment/monte_carlo/linp.py:linp", "reliabilityassessment/monte_carlo/net.py:net", "reliabilityassessment/monte_carlo/hour.py:hour"]}
{"id": "C105", "title": "A longer study continues a shorter one", "statement": "Take a study and the same study with at least as many years and a convergence tolerance that is not larger. Either the two runs are the same, event by event and to the end, or the first stops at a year end and the second passes through the same states up to that year end and has there the same accumulated results: the number of years and the tolerance decide only when the run stops, not what it computes.", "quantifier": "all studies, all pairs of year counts and tolerances, any number of loop iterations", "why_tests_cant": "compares two whole runs for all inputs; a test compares single pairs", "anchors": ["reliabilityassessment/monte_carlo/contrl.py:contrl", "reliabilityassessment/monte_carlo/year.py:year", "reliabilityassessment/monte_carlo/cvchk.py:cvchk", "reliabilityassessment/monte_carlo/narpMain.py:NarpMain"]}
{"id": "C106", "title": "Output options do not influence the results", "statement": "Take a study without annual printing and the same study with another checkpoint interval, another annual-printing option and another number for the first table. The second run delivers the same events with the same states and the same year-end statistics, ends the same way and prints the same report apart from table numbers. The only exception is that with annual printing and hourly steps the second run may stop with the known failure of the annual table (C62), having agreed with the first until then.", "quantifier": "all studies, all output options, any number of loop iterations", "why_tests_cant": "compares two whole runs for all inputs and options", "anchors": ["reliabilityassessment/monte_carlo/year.py:year", "reliabilityassessment/monte_carlo/contrl.py:contrl", "reliabilityassessment/monte_carlo/report.py:report", "reliabilityassessment/monte_carlo/narpMain.py:NarpMain"]}
{"id": "C107", "title": "An hour does not depend on earlier hours", "statement": "Given the drawn states, the loads and the calendar, what an hour records does not depend on what happened in earlier hours, and what a load level of an hour records does not depend on the other levels: the network data left in the arrays by earlier solutions has no influence.", "quantifier": "all networks, states, loads and histories of hours, all runs", "why_tests_cant": "compares hours after all possible histories; the arrays are modified in place by every call", "anchors": ["reliabilityassessment/monte_carlo/transm.py:transm", "reliabilityassessment/monte_carlo/tm1.py:tm1", "reliabilityassessment/monte_carlo/tm2.py:tm2", "reliabilityassessment/monte_carlo/hour.py:hour"]}
{"id": "C108", "title": "Names carry no meaning", "statement": "Renaming areas and units consistently in all tables, different names staying different, changes nothing: the prepared simulation and the summary (hence the run and its report) are the same, or the preparation fails in the same way.", "quantifier": "all input tables, all renamings that keep names apart", "why_tests_cant": "ranges over all tables and all renamings", "anchors": ["reliabilityassessment/data_processing/pind.py:pind", "reliabilityassessment/data_processing/dataf1.py:dataf1", "reliabilityassessment/data_processing/readInputB.py:readInputB"]}
{"id": "C109", "title": "Outage rates are reproduced in the long run", "statement": "The random numbers of every unit and line repeat after exactly 2^23 draws and are uniform over any 2^23 successive draws: each unit is fully available, derated and out, and each line is in each of its states, with the frequency given by its probabilities, within one millionth; a unit's mean availability is its expected availability.", "quantifier": "all units, lines, starting draws, outage probabilities and deratings", "why_tests_cant": "ranges over all streams, all windows of eight million draws and all real thresholds", "anchors": ["reliabilityassessment/monte_carlo/seeder.py:seeder", "reliabilityassessment/monte_carlo/gstate.py:gstate", "reliabilityassessment/monte_carlo/lstate.py:lstate"]}
{"id": "C110", "title": "Successive draws are independent", "statement": "The state of a unit or line in a draw does not depend on its states in the draws before.", "quantifier": "all streams and draws", "why_tests_cant": "ranges over all streams and positions; a correlation between three successive draws is not visible in single results", "anchors": ["reliabilityassessment/monte_carlo/gstate.py:gstate", "reliabilityassessment/monte_carlo/lstate.py:lstate"]}
{"id": "C111", "title": "Two variants of a study meet the same random events", "statement": "In draw k of any two studies, a generating unit at the same position with the same outage data has the same available capacity, and a transmission line (of studies with the same number of units) the same state, whatever else differs; a unit made more reliable has at least the capacity it had in every draw, and a line no worse a state. Adding a unit leaves the states of the lines unchanged.", "quantifier": "all pairs of studies, draws, units, lines, outage data", "why_tests_cant": "compares any two studies at any draw of their runs", "anchors": ["reliabilityassessment/monte_carlo/seeder.py:seeder", "reliabilityassessment/monte_carlo/gstate.py:gstate", "reliabilityassessment/monte_carlo/lstate.py:lstate"]}
{"id": "C112", "title": "Units and lines have random numbers of their own", "statement": "No two units or lines of a study ever use the same random numbers: the outages of one unit are not those of another at other times.", "quantifier": "all pairs of units and lines, all pairs of draws", "why_tests_cant": "ranges over all pairs of draws of all pairs of streams", "anchors": ["reliabilityassessment/monte_carlo/seeder.py:seeder", "reliabilityassessment/monte_carlo/gstate.py:gstate", "reliabilityassessment/monte_carlo/lstate.py:lstate"]}
{"id": "C113", "title": "Rounding does not touch the counted hours and energies", "statement": "The hours of loss and the lost energies that a run counts, per area and for the pool, in the year and summed over the years, are exact although the arrays hold binary64 floats: they equal the whole numbers of an exact calculation as long as twice the years times the total of losses stays below 2^53; the reported average is the float nearest to total / years.", "quantifier": "all sequences of hourly and peak losses and year ends, all runs", "why_tests_cant": "ranges over all lengths of runs and sizes of losses", "anchors": ["reliabilityassessment/monte_carlo/hrstat.py:hrstat", "reliabilityassessment/monte_carlo/pkstat.py:pkstat", "reliabilityassessment/monte_carlo/year.py:year"]}
{"id": "C114", "title": "Without random outages every year is the same", "statement": "If no unit or line can fail, no maintenance is planned, the ratings do not change with the season, each area has one limit for imports and exports and the step divides the year, then every simulated year has the same annual statistics: the sum over its hours of what each hour loses by itself. The totals after y years are y times those of a year, and the convergence test stops the run at the fifth year.", "quantifier": "all such studies, all places, statistics, causes and forecast levels, all years of all runs", "why_tests_cant": "ranges over all studies without chance and all years", "anchors": ["reliabilityassessment/monte_carlo/narpMain.py:narpMain", "reliabilityassessment/monte_carlo/contrl.py:contrl", "reliabilityassessment/monte_carlo/hour.py:hour", "reliabilityassessment/monte_carlo/gstate.py:gstate", "reliabilityassessment/monte_carlo/year.py:year"]}
{"id": "C115", "title": "Critical units of a line", "statement": "hour() reduces the capacity of a line to the percentages of its record in the table of critical units exactly when all the units of the record are out; other lines keep their full capacity; without a table nothing is reduced.", "quantifier": "all tables of critical units, all capacities drawn, all lines", "why_tests_cant": "ranges over all tables and outages; the shipped data have no table, so no test reaches the loop", "anchors": ["reliabilityassessment/monte_carlo/hour.py:hour", "reliabilityassessment/data_processing/datax.py:datax"]}
{"id": "C116", "title": "The annual table shows the year", "statement": "With annual printing on, each year end prints, for every area and for the pool, at every forecast level and forecast-weighted, a line for generation losses (GC), transmission losses (TC) and both (GT) with that year's hours of loss, energy not served and days of loss, and the MW lost per hour and per day of loss, 0 where nothing was lost; areas and levels are numbered as in the final report, from 1.", "quantifier": "all annual statistics, any number of areas, one or five levels, both layouts", "why_tests_cant": "which branch prints which value depends on the losses of the year, and values left over from earlier lines show only for some years", "anchors": ["reliabilityassessment/monte_carlo/year.py:year"]}
{"id": "C117", "title": "Both versions of factorisation and inversion agree", "statement": "For every square matrix the original _dgefa returns the same factor, pivots and flag as dgefa; for every factor and pivots the original _dgedi asked for the inverse returns the same matrix as dgedi; asked for the determinant it delivers it.", "quantifier": "all square matrices of any size, all pivot vectors, all JOB values", "why_tests_cant": "element-wise equality of two loop orders over all sizes and pivot patterns", "anchors": ["reliabilityassessment/monte_carlo/dgefa.py:_dgefa", "reliabilityassessment/monte_carlo/dgedi.py:_dgedi"]}
{"id": "C118", "title": "The three samplers of line states agree", "statement": "From cumulative probabilities of six states that end in 1 and the same random numbers of [0, 1), lstate, lstate_original and discrete_prob_gen of line_prob_sampling deliver the same states, each number's state being the one whose share of [0, 1) contains it, so that a state of probability 0 is never drawn; improper probabilities are refused.", "quantifier": "all cumulative probabilities, all sequences of random numbers, any number of lines", "why_tests_cant": "the tests compare frequencies of random runs; ties and zero probabilities have frequency 0", "anchors": ["reliabilityassessment/monte_carlo/line_prob_sampling.py:lstate", "reliabilityassessment/monte_carlo/line_prob_sampling.py:lstate_original", "reliabilityassessment/monte_carlo/line_prob_sampling.py:discrete_prob_gen"]}
{"id": "C119", "title": "The indices of a year are possible values and agree with each other", "statement": "In every year of every run, and in the report, at every forecast level: no index is negative; the pool's hours with a loss are at most the hours (draws) of the year and its days at most 365; values at daily peaks are at most the hourly values; an hour with a loss has at least one MW of it; the count at a level is at most that of the level before; the hours by cause add up; no area has more hours, days or energy than the pool, and the pool's hours are at most those of all areas together.", "quantifier": "all inputs, all runs, all years, all levels, areas and causes", "why_tests_cant": "The bounds must hold for every sequence of random states and every network solution, not for the sampled ones.", "anchors": ["reliabilityassessment/monte_carlo/hour.py", "reliabilityassessment/monte_carlo/hrstat.py", "reliabilityassessment/monte_carlo/pkstat.py", "reliabilityassessment/monte_carlo/year.py", "reliabilityassessment/monte_carlo/report.py"]}
{"id": "C120", "title": "Without load forecast uncertainty all forecast levels agree", "statement": "If every area's load multipliers are the same at all forecast levels, then every hour, every year and every total shows the same hours and days of loss and the same unserved energy at all levels, by area, pool and cause, and the probability-weighted value of a year is the value without forecast error.", "quantifier": "all inputs whose forecast multipliers do not vary, all runs, all years, areas, causes and levels", "why_tests_cant": "The levels are solved one after another on network data left by the previous level; that nothing carries over must hold for every network, every sequence of states and every run.", "anchors": ["reliabilityassessment/monte_carlo/hour.py", "reliabilityassessment/monte_carlo/transm.py", "reliabilityassessment/monte_carlo/tm1.py", "reliabilityassessment/monte_carlo/tm2.py", "reliabilityassessment/monte_carlo/year.py"]}
{"id": "C121", "title": "A single-area study reproduces the textbook loss-of-load indices", "statement": "With one area and no lines, a year's hours (days) of loss and unserved energy are the number of sampled hours (daily peaks) in which the load of the level exceeds the drawn capacity, and the sum of the whole megawatts lacking; nothing is put down to transmission; the report divides these by the years; hours without shortage count as no loss.", "quantifier": "all single-area inputs, all random outcomes, all years, levels and statistics", "why_tests_cant": "The count must equal an independent definition for every capacity outcome and every load in every year of every run.", "anchors": ["reliabilityassessment/monte_carlo/hour.py", "reliabilityassessment/monte_carlo/year.py", "reliabilityassessment/monte_carlo/sumcap.py", "reliabilityassessment/monte_carlo/report.py"]}
{"id": "C122", "title": "Rounding does not change when a run converges", "statement": "With binary64 arithmetic (and a C library pow accurate to one unit in the last place) the convergence test keeps the exact sum and sum of squares of the yearly values, never meets the root of a negative number, and gives in every year the answer of the exact test, unless the standard error is within a relative 2^-30 of the limit.", "quantifier": "all histories of yearly values, all tolerances of 2^-11 or more (or the default), all accurate pow functions", "why_tests_cant": "The variance is a difference of nearly equal numbers; that its sign and the comparison survive rounding is an error bound over all histories.", "anchors": ["reliabilityassessment/monte_carlo/cvchk.py:cvchk", "reliabilityassessment/monte_carlo/year.py"]}
{"id": "C123", "title": "An uncongested network is a copper plate", "statement": "In a run whose draws are all settled by the power flow (the linear program is never needed), the pool's statistics are those of one area with all capacity and all load: a draw has a loss at a level if n MW or more (n the number of areas) are lacking in the pool as a whole and none if nothing is lacking; the energy not served is what is lacking, up to the rounding of each area's share to whole MW (less than n MW per draw); no hour and no energy is put down to transmission. A year's hours, days and energy and the report's pool lines are bounded accordingly, whatever the lines, their limits, their random states and the loss-sharing flag.", "quantifier": "all inputs with numbered areas joined by a connected network and, with loss sharing, loads to share by; all random outcomes, draws, years, levels", "why_tests_cant": "The power flow must deliver the pool's balance for every network, every line state and every capacity outcome at every draw of every year.", "anchors": ["reliabilityassessment/monte_carlo/transm.py", "reliabilityassessment/monte_carlo/tm2.py", "reliabilityassessment/monte_carlo/assign.py", "reliabilityassessment/monte_carlo/hour.py", "reliabilityassessment/monte_carlo/report.py"]}
{"id": "C124", "title": "With ample limits the linear program is never needed", "statement": "No line of a power-flow solution carries, and no area sends or takes, more than the total power sent into the network. So when every line (in each state that can be drawn) and every area can take twice what may be asked of the network (the sum over areas of the contracted and ownership transfers and of the differences between located capacity and demand), the scheduled and the emergency solution are both accepted as they stand, with and without loss sharing: every solution, hour and whole run has the same outcome whatever the linear-programming solver would answer, and the run reports the losses of a single area with all capacity and load, none put down to transmission.", "quantifier": "all networks, injections and solutions; all studies whose limits are ample for every capacity between nothing and the ratings; all line states drawn, all draws, levels, years and LP solvers", "why_tests_cant": "The claim compares a run with every possible LP answer and needs a bound on all flows of all networks and capacity outcomes.", "anchors": ["reliabilityassessment/monte_carlo/transm.py", "reliabilityassessment/monte_carlo/tm2.py", "reliabilityassessment/monte_carlo/theta.py", "reliabilityassessment/monte_carlo/flo.py", "reliabilityassessment/monte_carlo/hour.py", "reliabilityassessment/monte_carlo/contrl.py"]}
{"id": "C125", "title": "The reference area is arbitrary", "statement": "The area chosen as reference for the angles does not matter: the flows of the network equations are the same seen from any area; and a solution, an hour and a whole run (events, unit and line states, statistics, converged or not, report) have the same outcome for any two reference areas, as long as no line at either area is ever out, the network drawn stays in one piece and the hour does not need the linear program (up to the first hour that does; with ample limits always, whatever the linear program does).  It does not hold when a line at the reference area is out (the outage is ignored there) or when the linear program is called (the loss of the first area in its order is not counted): the same hour then loses 2 MW or none, 7 MW or none.", "quantifier": "all networks, admittances, injections and solutions; all studies, all pairs of reference areas, all draws, levels and years", "why_tests_cant": "The claim compares pairs of runs for every network and history; the matrices of the two runs differ at every moment.", "anchors": ["reliabilityassessment/monte_carlo/narpMain.py", "reliabilityassessment/monte_carlo/tm1.py", "reliabilityassessment/monte_carlo/tm2.py", "reliabilityassessment/monte_carlo/admitr.py", "reliabilityassessment/monte_carlo/theta.py", "reliabilityassessment/monte_carlo/transm.py", "reliabilityassessment/monte_carlo/hour.py", "reliabilityassessment/monte_carlo/contrl.py"]}
{"id": "C126", "title": "The direction in which a line is written down is a convention", "statement": "Writing any set of lines from their second end to their first, with forward and backward capacities exchanged, changes nothing but the sign of the flows on those lines: the matrices of the network are identical, the network equations have the same flows up to that sign, and with loss sharing a solution and a whole run (events, data of every moment including the matrices, statistics, end, report) are identical up to the first hour that needs the linear program. When limits are ample this holds for the whole run, with or without loss sharing and whatever the linear program would do. Without loss sharing and with tight limits it does not hold: the scheduled flow is added with the same sign to the limits of both end areas, so the same hour loses 3 MW or nothing depending on how the lines are written.", "quantifier": "all networks, sets of lines turned, line capacities that are not negative, line states, injections; all studies, draws, levels and years", "why_tests_cant": "The claim compares pairs of runs for every network, subset of lines and history.", "anchors": ["reliabilityassessment/monte_carlo/admitb.py", "reliabilityassessment/monte_carlo/admitm.py", "reliabilityassessment/monte_carlo/tm1.py", "reliabilityassessment/monte_carlo/tm2.py", "reliabilityassessment/monte_carlo/flo.py", "reliabilityassessment/monte_carlo/transm.py", "reliabilityassessment/monte_carlo/hour.py", "reliabilityassessment/monte_carlo/contrl.py"]}
{"id": "C127", "title": "The unit in which power is written", "statement": "Writing every power of an hour (injections, loads, contracts, area limits, line capacities) in another unit multiplies balanced injections, flows, shortages and next data of a network solution by that unit and changes nothing else: the same decision, the same emergency help, the same failures, also where the linear program is used, as long as no amount it meets is non-zero and below 1e-13, which it takes for zero. For a whole hour it does not hold: a shortage is cut to a whole number of units before it is counted, so the same hour loses 3 MW or 4.5 MW depending on the unit.", "quantifier": "all positive factors, networks, data, inversion routines, loss sharing options, line states; any number of simplex passes", "why_tests_cant": "The claim compares pairs of solutions for every network, data and factor.", "anchors": ["reliabilityassessment/monte_carlo/assign.py", "reliabilityassessment/monte_carlo/theta.py", "reliabilityassessment/monte_carlo/thetac.py", "reliabilityassessment/monte_carlo/flo.py", "reliabilityassessment/monte_carlo/tm1.py", "reliabilityassessment/monte_carlo/tm2.py", "reliabilityassessment/monte_carlo/transm.py", "reliabilityassessment/monte_carlo/hour.py", "reliabilityassessment/monte_carlo/connls.py", "reliabilityassessment/monte_carlo/linp.py", "reliabilityassessment/monte_carlo/net.py"]}
{"id": "C128", "title": "Only the ratios of the admittances matter", "statement": "Writing all line admittances in another unit (multiplying them by the same number that is not zero) does not change what a network solution decides: the same flows, shortages, area data, emergency help and failures; the base matrix is multiplied, the impedance matrix divided by that number, also after lines change state. It is stated for solutions that do not call the linear program, whose pivot tolerances are absolute.", "quantifier": "all factors but zero, networks, line states, data, loss sharing options, inversion routines that treat both units alike (every right routine has such a partner)", "why_tests_cant": "The claim compares pairs of solutions for every network, line state and factor.", "anchors": ["reliabilityassessment/monte_carlo/admitb.py", "reliabilityassessment/monte_carlo/admitr.py", "reliabilityassessment/monte_carlo/admitm.py", "reliabilityassessment/monte_carlo/admref.py", "reliabilityassessment/monte_carlo/ximpa.py", "reliabilityassessment/monte_carlo/ximpar.py", "reliabilityassessment/monte_carlo/theta.py", "reliabilityassessment/monte_carlo/flo.py", "reliabilityassessment/monte_carlo/tm1.py", "reliabilityassessment/monte_carlo/tm2.py", "reliabilityassessment/monte_carlo/transm.py"]}
